(** Specification vocabulary for the in-memory pkger, kept apart from the
    model's own helper functions. *)
From Verif Require Import Bytes GoPath Here GoTypes Mem.

Section Spec.
  Context (parse : resolver).

  (** The states a program can reach: a new pkger, or one loaded from an
      embedded payload, followed by any API calls. *)
  Inductive reachable : mem -> Prop :=
  | reach_new her : reachable (mem_new her)
  | reach_load her infos l m : load parse her infos l = Ok m -> reachable m
  | reach_step m c : reachable m -> reachable (step parse m c).1.

  (** The paths MkdirAll(p) sets out to create: the path [p] resolves to, and
      those of the leading directory parts of its name. *)
  Inductive mk_target (her : hinfo) : bytes -> path -> Prop :=
  | mt_self p pt : parse her p = Some pt -> mk_target her p pt
  | mt_up p pt q : parse her p = Some pt -> (path_split (p_name pt)).1 <> B"/" ->
      mk_target her (path_split (p_name pt)).1 q -> mk_target her p q.

  (** [disturbs her pt o]: call [o] may create, replace or remove the entry
      for [pt].  (Create always re-creates the root directory; RemoveAll works
      on string prefixes and ignores the package - see C13.) *)
  Definition disturbs (her : hinfo) (pt : path) (o : op) : Prop :=
    match o with
    | OCreate n => parse her n = Some pt \/ mk_target her (B"/") pt
    | OMkdirAll p _ => mk_target her p pt
    | ORemove n => parse her n = Some pt
    | ORemoveAll n => exists q, parse her n = Some q /\ has_prefix (p_name pt) (p_name q) = true
    | OAdd q _ _ _ => q = pt
    | _ => False
    end.

  (** [uses r o]: call [o] reads, writes, seeks or closes handle [r]. *)
  Definition uses (r : ref) (o : op) : Prop :=
    match o with
    | OWrite r' _ | ORead r' _ | OSeek r' _ _ | OClose r' => r' = r
    | _ => False
    end.

  (** What a caller sees at a name: the info and content of a handle opened
      there ([None]: Open fails). *)
  Definition seen (m : mem) (name : bytes) : option (details * bytes) :=
    match open parse m name with
    | (m', Ok h) => (fun f => (f_info f, f_data f)) <$> m_heap m' !! h
    | (_, Err _) => None
    end.

  (** The data written through handle [h] in a history. *)
  Fixpoint written (h : ref) (cs : list (gotime * op)) : bytes :=
    match cs with
    | [] => []
    | (_, OWrite r b) :: cs => if decide (r = h) then b ++ written h cs else written h cs
    | _ :: cs => written h cs
    end.

  (** io.Reader applied repeatedly to [content] with buffers of sizes [ns]. *)
  Fixpoint reads_of (content : bytes) (ns : list nat) : list (bytes * option gerr) :=
    match ns with
    | [] => []
    | n :: ns =>
        match content with
        | [] => ([], Some EEOF) :: reads_of [] ns
        | _ => (take n content, None) :: reads_of (drop n content) ns
        end
    end.

  (** Reading a handle with buffers of sizes [ns]. *)
  Fixpoint read_seq (m : mem) (h : ref) (ns : list nat) : list (bytes * option gerr) :=
    match ns with
    | [] => []
    | n :: ns => let '(m, x) := file_read m h n in x :: read_seq m h ns
    end.

  (** io.ReadSeeker over fixed content, as a specification: position and
      answer to each call.  Offsets are int64, so sums wrap around. *)
  Inductive cursor_op := CRead (n : nat) | CSeek (off whence : Z).

  Definition cursor_step (content : bytes) (pos : Z) (c : cursor_op) : Z * resp :=
    let len := Z.of_nat (length content) in
    match c with
    | CRead n =>
        if (len <=? pos)%Z then (pos, RBytes [] (Some EEOF))
        else let got := take n (drop (Z.to_nat pos) content) in
             ((pos + Z.of_nat (length got))%Z, RBytes got None)
    | CSeek off wh =>
        let target :=
          if (wh =? 0)%Z then Some off
          else if (wh =? 1)%Z then Some (wrap64 (pos + off))
          else if (wh =? 2)%Z then Some (wrap64 (len + off))
          else None in
        match target with
        | None => (pos, RNum 0 (Some EWhence))
        | Some t => if (t <? 0)%Z then (pos, RNum 0 (Some ENegSeek)) else (t, RNum t None)
        end
    end.

  Fixpoint cursor_run (content : bytes) (pos : Z) (cs : list cursor_op) : list resp :=
    match cs with
    | [] => []
    | c :: cs => let '(pos, x) := cursor_step content pos c in x :: cursor_run content pos cs
    end.

  (** The Read/Seek calls on handle [h] within a history, and the answers they
      got. *)
  Fixpoint cursor_calls (h : ref) (cs : list (gotime * op)) : list cursor_op :=
    match cs with
    | [] => []
    | (_, ORead r n) :: cs => if decide (r = h) then CRead n :: cursor_calls h cs else cursor_calls h cs
    | (_, OSeek r o w) :: cs => if decide (r = h) then CSeek o w :: cursor_calls h cs else cursor_calls h cs
    | _ :: cs => cursor_calls h cs
    end.
  Fixpoint cursor_answers (h : ref) (cs : list (gotime * op)) (xs : list resp) : list resp :=
    match cs, xs with
    | (_, ORead r _) :: cs, x :: xs | (_, OSeek r _ _) :: cs, x :: xs =>
        if decide (r = h) then x :: cursor_answers h cs xs else cursor_answers h cs xs
    | _ :: cs, _ :: xs => cursor_answers h cs xs
    | _, _ => []
    end.
End Spec.

(** Invariant of all reachable states. *)
Record wf (m : mem) : Prop := {
  wf_next : forall r f, m_heap m !! r = Some f -> r < m_next m;
  wf_files : forall pt r, m_files m !! pt = Some r -> is_Some (m_heap m !! r);
  wf_inj : forall p q r, m_files m !! p = Some r -> m_files m !! q = Some r -> p = q
}.
