(** The text of conditional headers: how net/http's checkPreconditions and
    time.Parse (fs.go, header.go, format.go of Go 1.13, recalled from memory)
    read If-Match, If-None-Match, If-Unmodified-Since, If-Modified-Since and
    If-Range.

    Simplified: the zone at the end of an RFC 850 date (time.parseTimeZone, then
    a search in the time zone of the machine) is the parameter [tz]: given the
    text and the second it would name in UTC, the second it names.  A fraction
    of a second, which time.Parse accepts, is dropped.  An absent header is an
    empty text, as Header.Get gives it. *)
From Verif Require Import Bytes GoPath GoTypes GoNum GoTimeFmt Http Precond.

(** ** Dates *)

(** time.lookup in a table of three-letter names, with time.match: case does
    not matter. *)
Definition lower (c : ascii) : N := N.lor (N_of_ascii c) 32.
Definition same_letter (a b : ascii) : bool :=
  Ascii.eqb a b || ((lower a =? lower b) && (97 <=? lower a) && (lower a <=? 122))%N.
Definition same_word (a b : bytes) : bool := Nat.eqb (length a) (length b) && forallb (fun x => same_letter x.1 x.2) (zip a b).
Fixpoint look (i : Z) (tab : list bytes) (s : bytes) : option (Z * bytes) :=
  match tab with
  | [] => None
  | w :: tab => if same_word (take (length w) s) w then Some (i, drop (length w) s) else look (i + 1) tab s
  end.
Definition short_days : list bytes := [B"Sun"; B"Mon"; B"Tue"; B"Wed"; B"Thu"; B"Fri"; B"Sat"].
Definition short_months : list bytes := [B"Jan"; B"Feb"; B"Mar"; B"Apr"; B"May"; B"Jun"; B"Jul"; B"Aug"; B"Sep"; B"Oct"; B"Nov"; B"Dec"].

(** time.skip of a single space: any number of spaces, none only at the end. *)
Fixpoint cut_space (s : bytes) : bytes :=
  match s with c :: r => if Ascii.eqb c " "%char then cut_space r else s | [] => [] end.
Definition skip_space (s : bytes) : option bytes :=
  match s with c :: _ => if Ascii.eqb c " "%char then Some (cut_space s) else None | [] => Some [] end.

(** The second since 1970 of a date, if there is such a date. *)
Definition date_secs (y m d hh mm ss : Z) : option Z :=
  if ((hh <? 24) && (mm <? 60) && (ss <? 60) && (1 <=? d) && (d <=? days_in m y))%Z
  then Some ((days_of_date y m d - unix_day) * 86400 + hh * 3600 + mm * 60 + ss)%Z
  else None.
(** "15:04:05", with a fraction. *)
Definition get_clock (s : bytes) : option (Z * Z * Z * bytes) :=
  '(hh, s) ← get_hour s; s ← expect colon s;
  '(mm, s) ← get_num 2 s; s ← expect colon s;
  '(ss, s) ← get_num 2 s;
  '(_, s) ← get_frac s; Some (hh, mm, ss, s).

(** time.Parse(http.TimeFormat, s), "Mon, 02 Jan 2006 15:04:05 GMT".  The
    weekday is read and forgotten. *)
Definition imf_date (s : bytes) : option Z :=
  '(_, s) ← look 0 short_days s; s ← expect ","%char s; s ← skip_space s;
  '(d, s) ← get_num 2 s; s ← skip_space s;
  '(m, s) ← look 1 short_months s; s ← skip_space s;
  '(y, s) ← get_num 4 s; s ← skip_space s;
  '(hh, mm, ss, s) ← get_clock s; s ← skip_space s;
  s ← expect "G"%char s; s ← expect "M"%char s; s ← expect "T"%char s;
  match s with _ :: _ => None | [] => date_secs y m d hh mm ss end.

(** time.Parse(time.RFC850, s), "Monday, 02-Jan-06 15:04:05 MST". *)
Definition long_days : list bytes := [B"Sunday"; B"Monday"; B"Tuesday"; B"Wednesday"; B"Thursday"; B"Friday"; B"Saturday"].
Definition full_year (y : Z) : Z := if (69 <=? y)%Z then 1900 + y else 2000 + y.
Definition rfc850_date (tz : bytes -> Z -> option Z) (s : bytes) : option Z :=
  '(_, s) ← look 0 long_days s; s ← expect ","%char s; s ← skip_space s;
  '(d, s) ← get_num 2 s; s ← expect c_dash s;
  '(m, s) ← look 1 short_months s; s ← expect c_dash s;
  '(y, s) ← get_signed s; s ← skip_space s;
  '(hh, mm, ss, s) ← get_clock s; s ← skip_space s;
  t ← date_secs (full_year y) m d hh mm ss; tz s t.

(** time.Parse(time.ANSIC, s), "Mon Jan _2 15:04:05 2006". *)
Definition asctime_date (s : bytes) : option Z :=
  '(_, s) ← look 0 short_days s; s ← skip_space s;
  '(m, s) ← look 1 short_months s; s ← skip_space s;
  '(d, s) ← get_hour s; s ← skip_space s;
  '(hh, mm, ss, s) ← get_clock s; s ← skip_space s;
  '(y, s) ← get_num 4 s;
  match s with _ :: _ => None | [] => date_secs y m d hh mm ss end.

(** ** Entity tags *)

(** textproto.TrimString. *)
Definition ascii_space (c : ascii) : bool := bool_decide (c ∈ [" "%char; "009"%char; "010"%char; "013"%char]).
Fixpoint trim_left (s : bytes) : bytes := match s with c :: r => if ascii_space c then trim_left r else s | [] => [] end.
Definition trim_string (s : bytes) : bytes := rev (trim_left (rev (trim_left s))).

Definition quote : ascii := """"%char.
Definition etag_byte (c : ascii) : bool := let n := N_of_ascii c in ((n =? 33) || (35 <=? n) && (n <=? 126) || (128 <=? n))%N.
(** The loop of scanETag: the text up to and including the closing quote, and
    the rest. *)
Fixpoint scan_opaque (s : bytes) : option (bytes * bytes) :=
  match s with
  | [] => None
  | c :: r =>
      if etag_byte c then '(t, r) ← scan_opaque r; Some (c :: t, r)
      else if Ascii.eqb c quote then Some ([c], r) else None
  end.
(** scanETag: the tag and what follows; [None] for "". *)
Definition scan_etag (s : bytes) : option (bytes * bytes) :=
  let s := trim_string s in
  let '(w, u) := if has_prefix s (B"W/") then (B"W/", drop 2 s) else ([], s) in
  match u with
  | c :: r => if Ascii.eqb c quote then '(t, r) ← scan_opaque r; Some (w ++ c :: t, r) else None
  | [] => None
  end.

(** The loops of checkIfMatch and checkIfNoneMatch: [hit] for "*" and for a tag that matches, [miss] at the end.  [n]
    bounds the number of rounds; each consumes a byte. *)
Fixpoint tag_loop (hit miss : cond) (matches : bytes -> bool) (n : nat) (s : bytes) : cond :=
  match n with
  | O => miss
  | S n =>
      match trim_string s with
      | [] => miss
      | c :: r =>
          if Ascii.eqb c ","%char then tag_loop hit miss matches n r
          else if Ascii.eqb c "*"%char then hit
          else match scan_etag (c :: r) with
               | None => miss
               | Some (t, r) => if matches t then hit else tag_loop hit miss matches n r
               end
      end
  end.
Definition match_text (s : bytes) : cond :=
  match s with [] => CNone | _ => tag_loop CTrue CFalse (fun t => strong_match t own_tag) (length s) s end.
Definition none_text (s : bytes) : cond :=
  match s with [] => CNone | _ => tag_loop CFalse CTrue (fun t => weak_match t own_tag) (length s) s end.

(** checkIfNoneMatch as older versions of Go have it, without "continue" after a
    comma; [None] is a panic, an index out of range. *)
Fixpoint none_loop_old (n : nat) (s : bytes) : option cond :=
  match n with
  | O => Some CTrue
  | S n =>
      match trim_string s with
      | [] => Some CTrue
      | c :: r =>
          match (if Ascii.eqb c ","%char then r else c :: r) with
          | [] => None
          | d :: r =>
              if Ascii.eqb d "*"%char then Some CFalse
              else match scan_etag (d :: r) with
                   | None => Some CTrue
                   | Some (t, r) => if weak_match t own_tag then Some CFalse else none_loop_old n r
                   end
          end
      end
  end.
Definition none_text_old (s : bytes) : option cond := match s with [] => Some CNone | _ => none_loop_old (length s) s end.

(** What such a header says, in the terms of Precond.v. *)
Fixpoint read_loop (n : nat) (s : bytes) : tags :=
  match n with
  | O => Tags []
  | S n =>
      match trim_string s with
      | [] => Tags []
      | c :: r =>
          if Ascii.eqb c ","%char then read_loop n r
          else if Ascii.eqb c "*"%char then AnyTag
          else match scan_etag (c :: r) with
               | None => Tags []
               | Some (t, r) => match read_loop n r with Tags l => Tags (t :: l) | x => x end
               end
      end
  end.
Definition read_tags (s : bytes) : tags := match s with [] => NoTags | _ => read_loop (length s) s end.

Lemma read_match s k : k_match k = read_tags s -> check_match k = match_text s.
Proof.
  unfold check_match, match_text, read_tags. intros ->. destruct s as [|c s]; [done|]. generalize (length (c :: s)). generalize (c :: s). clear.
  intros s n. revert s. induction n as [|n IH]; intros s; [done|]. cbn [read_loop tag_loop].
  destruct (trim_string s) as [|c r]; [done|]. destruct (Ascii.eqb c ","%char); [apply IH|]. destruct (Ascii.eqb c "*"%char); [done|].
  destruct (scan_etag (c :: r)) as [[t r']|]; [|done]. specialize (IH r'). destruct (read_loop n r') as [| |l] eqn:El; cbn [existsb].
  - exfalso. revert El. clear. revert r'. induction n as [|n IH]; intros r; [done|]. cbn [read_loop]. destruct (trim_string r) as [|c s]; [done|].
    destruct (Ascii.eqb c _); [apply IH|]. destruct (Ascii.eqb c _); [done|]. destruct (scan_etag _) as [[t u]|]; [|done].
    destruct (read_loop n u) eqn:E; try done. intros _. by apply (IH u).
  - destruct (strong_match t own_tag); [done|exact IH].
  - destruct (strong_match t own_tag); [done|exact IH].
Qed.
Lemma read_loop_some n s : read_loop n s <> NoTags.
Proof.
  revert s. induction n as [|n IH]; intros r; [done|]. cbn [read_loop]. destruct (trim_string r) as [|c s]; [done|].
  destruct (Ascii.eqb c _); [apply IH|]. destruct (Ascii.eqb c _); [done|]. destruct (scan_etag _) as [[t u]|]; [|done].
  destruct (read_loop n u) eqn:E; try done. intros _. by apply (IH u).
Qed.
Lemma read_none s k : k_none k = read_tags s -> check_none k = none_text s.
Proof.
  unfold check_none, none_text, read_tags. intros ->. destruct s as [|c s]; [done|]. generalize (length (c :: s)). generalize (c :: s). clear.
  intros s n. revert s. induction n as [|n IH]; intros s; [done|]. cbn [read_loop tag_loop].
  destruct (trim_string s) as [|c r]; [done|]. destruct (Ascii.eqb c ","%char); [apply IH|]. destruct (Ascii.eqb c "*"%char); [done|].
  destruct (scan_etag (c :: r)) as [[t r']|]; [|done]. specialize (IH r'). pose proof (read_loop_some n r').
  destruct (read_loop n r') as [| |l] eqn:El; cbn [existsb]; [done|..]; destruct (weak_match t own_tag); done.
Qed.

(** ** Requests *)

Section Read.
  Context (tz : bytes -> Z -> option Z).

  (** http.ParseTime: the first layout that fits. *)
  Definition read_date (s : bytes) : option Z :=
    match imf_date s with
    | Some t => Some t
    | None => match rfc850_date tz s with Some t => Some t | None => asctime_date s end
    end.

  (** If-Range: a tag, otherwise a date; what is neither counts as a tag that
      does not match. *)
  Definition read_range (s : bytes) : range_if :=
    match s with
    | [] => IfNone
    | _ => match scan_etag s with
           | Some (t, _) => IfTag t
           | None => match read_date s with Some t => IfDate t | None => IfTag [] end
           end
    end.

  (** The headers of a request. *)
  Record cheaders := CHeaders { c_match : bytes; c_unmod : bytes; c_none : bytes; c_since : bytes; c_range : bytes }.
  Definition text_date (s : bytes) : option Z := match s with [] => None | _ => read_date s end.
  Definition conds_of (h : cheaders) : conds :=
    Conds (read_tags (c_match h)) (text_date (c_unmod h)) (read_tags (c_none h)) (read_range (c_range h)).
  Definition since_of (h : cheaders) (q : request) : request := with_conds q (q_range q) (text_date (c_since h)).

  Context {S H : Type} (F : hfs S H) (mime sniff : bytes -> bytes) (boundary : bytes) (bufsize : nat).
  (** The answer to a request with these headers. *)
  Definition serve_h (q : request) (h : cheaders) : S -> S * response :=
    serve_k F mime sniff boundary bufsize (since_of h q) (conds_of h).
End Read.
