(** Model of strconv.Quote (Go 1.13), which fmt.Sprintf uses for the verb %q:
    the String methods of IncludeDecl and StatDecl, /repo/parser/include.go:49-51
    and stat.go:18-20.

    [other]: strconv.IsPrint for code points above 127, an arbitrary function. *)
From Verif Require Import Bytes JsonStr GoQuote.

(** [n] lower case hexadecimal digits. *)
Fixpoint hexs (n : nat) (r : N) : bytes :=
  match n with O => [] | S n => hexs n (r / 16) ++ [hexd (r mod 16)] end.

(** utf8.DecodeRune of valid sequences. *)
Definition rune2 (a b : ascii) : N := ((code a - 192) * 64 + (code b - 128))%N.
Definition rune3 (a b c : ascii) : N := (((code a - 224) * 64 + (code b - 128)) * 64 + (code c - 128))%N.
Definition rune4 (a b c d : ascii) : N :=
  ((((code a - 240) * 64 + (code b - 128)) * 64 + (code c - 128)) * 64 + (code d - 128))%N.

Section Quote.
  Context (other : N -> bool).

  (** appendEscapedRune for a code point below 128. *)
  Definition q_ascii (a : ascii) : bytes :=
    if Ascii.eqb a quote || Ascii.eqb a bsl then [bsl; a]
    else if (32 <=? code a)%N && (code a <=? 126)%N then [a]
    else if (code a =? 7)%N then [bsl; "a"%char]
    else if (code a =? 8)%N then [bsl; "b"%char]
    else if (code a =? 12)%N then [bsl; "f"%char]
    else if (code a =? 10)%N then [bsl; "n"%char]
    else if (code a =? 13)%N then [bsl; "r"%char]
    else if (code a =? 9)%N then [bsl; "t"%char]
    else if (code a =? 11)%N then [bsl; "v"%char]
    else if (code a <? 32)%N then bsl :: "x"%char :: hexs 2 (code a)
    else bsl :: "u"%char :: hexs 4 (code a).

  (** The same for others; [raw] is its UTF-8 form. *)
  Definition q_rune (r : N) (raw : bytes) : bytes :=
    if other r then raw
    else if (r <? 65536)%N then bsl :: "u"%char :: hexs 4 r
    else bsl :: "U"%char :: hexs 8 r.

  (** A byte that is not part of a valid sequence. *)
  Definition q_bad (a : ascii) : bytes := bsl :: "x"%char :: hexs 2 (code a).

  (** The loop of appendQuotedWith. *)
  Fixpoint q_body (s : bytes) : bytes :=
    match s with
    | [] => []
    | a :: s1 =>
        if is_ascii a then q_ascii a ++ q_body s1
        else
          match s1 with
          | [] => q_bad a
          | b :: s2 =>
              if valid2 a b then q_rune (rune2 a b) [a; b] ++ q_body s2
              else
                match s2 with
                | [] => q_bad a ++ q_body s1
                | c :: s3 =>
                    if valid3 a b c then q_rune (rune3 a b c) [a; b; c] ++ q_body s3
                    else
                      match s3 with
                      | [] => q_bad a ++ q_body s1
                      | d :: s4 =>
                          if valid4 a b c d then q_rune (rune4 a b c d) [a; b; c; d] ++ q_body s4
                          else q_bad a ++ q_body s1
                      end
                end
          end
    end.

  Definition go_quote (s : bytes) : bytes := quote :: q_body s ++ [quote].
End Quote.

(** IncludeDecl.String, include.go:49-51. *)
Definition include_string (other : N -> bool) (value : bytes) : bytes :=
  B"pkger.Include(" ++ go_quote other value ++ B")".
(** StatDecl.String, stat.go:18-20. *)
Definition stat_string (other : N -> bool) (value : bytes) : bytes :=
  B"pkger.Stat(" ++ go_quote other value ++ B")".

(** ** Specification: interpreted string literals, as in the Go specification *)

(** A code point and its UTF-8 form. *)
Inductive char_of : N -> bytes -> Prop :=
| ch_1 a : is_ascii a = true -> char_of (code a) [a]
| ch_2 a b : valid2 a b = true -> char_of (rune2 a b) [a; b]
| ch_3 a b c : valid3 a b c = true -> char_of (rune3 a b c) [a; b; c]
| ch_4 a b c d : valid4 a b c d = true -> char_of (rune4 a b c d) [a; b; c; d].

(** Hexadecimal numbers. *)
Inductive hexnum : bytes -> N -> Prop :=
| hn_nil : hexnum [] 0
| hn_snoc w v c d : hexnum w v ->
    B"0123456789abcdef" !! d = Some c \/ B"0123456789ABCDEF" !! d = Some c ->
    hexnum (w ++ [c]) (v * 16 + N.of_nat d)%N.

(** Backslash and one letter. *)
Definition simple_escapes : list (ascii * N) :=
  [("a"%char, 7); ("b"%char, 8); ("f"%char, 12); ("n"%char, 10); ("r"%char, 13); ("t"%char, 9);
   ("v"%char, 11); (bsl, 92); (quote, 34)]%N.

(** What is between the quotes, and its value. *)
Inductive lit : bytes -> bytes -> Prop :=
| l_nil : lit [] []
| l_char r x w s : char_of r x -> r <> code quote -> r <> code bsl -> r <> code linefeed ->
    lit w s -> lit (x ++ w) (x ++ s)
| l_simple e n w s : (e, n) ∈ simple_escapes -> lit w s -> lit (bsl :: e :: w) (ascii_of_N n :: s)
| l_octal a b c w s : (a < 4 /\ b < 8 /\ c < 8)%N -> lit w s ->
    lit (bsl :: ascii_of_N (48 + a) :: ascii_of_N (48 + b) :: ascii_of_N (48 + c) :: w)
      (ascii_of_N (a * 64 + b * 8 + c) :: s)
| l_hex h v w s : hexnum h v -> length h = 2 -> lit w s -> lit (bsl :: "x"%char :: h ++ w) (ascii_of_N v :: s)
| l_u h r x w s : hexnum h r -> length h = 4 -> char_of r x -> lit w s -> lit (bsl :: "u"%char :: h ++ w) (x ++ s)
| l_U h r x w s : hexnum h r -> length h = 8 -> char_of r x -> lit w s -> lit (bsl :: "U"%char :: h ++ w) (x ++ s).

(** The string literals, and their values.  Carriage returns in a raw literal do
    not count. *)
Inductive literal : bytes -> bytes -> Prop :=
| lt_interpreted w s : lit w s -> literal (quote :: w ++ [quote]) s
| lt_raw w : backquote ∉ w -> literal (backquote :: w ++ [backquote]) (filter (fun c => c <> carriage) (w : list ascii)).

(** ** Proofs *)

(** [w] is read as [x], and does not break the line. *)
Definition reads (w x : bytes) : Prop :=
  exists c w', w = c :: w' /\ (forall t, unq_char quote c (w' ++ t) = Some (x, t)) /\ linefeed ∉ w.

Lemma code_ascii a : ascii_of_N (code a) = a.
Proof. apply ascii_N_embedding. Qed.
Lemma code_lt a : (code a < 256)%N.
Proof. by destruct a as [[] [] [] [] [] [] [] []]. Qed.

Lemma take_hexs_split n m v s w : take_hex n v s = Some (w, []) -> forall t, take_hex (n + m) v (s ++ t) = take_hex m w t.
Proof.
  revert v s. induction n as [|n IH]; intros v s; cbn.
  - by intros [= -> ->].
  - destruct s as [|c s]; [done|]. cbn. destruct (hex_of c); [|done]. apply IH.
Qed.
(** Hexadecimal numbers are read. *)
Lemma digit_hex c d : B"0123456789abcdef" !! d = Some c \/ B"0123456789ABCDEF" !! d = Some c ->
  hex_of c = Some (N.of_nat d) /\ c <> linefeed.
Proof.
  do 16 (destruct d as [|d]; [cbn; intros [[= <-]|[= <-]]; by vm_compute|]). by intros [?|?].
Qed.
Lemma hexnum_reads h v : hexnum h v -> (forall t, take_hex (length h) 0 (h ++ t) = Some (v, t)) /\ linefeed ∉ h.
Proof.
  intros H. enough (Hh : take_hex (length h) 0 h = Some (v, []) /\ linefeed ∉ h) by (destruct Hh; split; [intros t; by apply take_hex_app|done]).
  induction H as [|w v c d Hw [IH1 IH2] Hd]; [split; [done|apply not_elem_of_nil]|]. destruct (digit_hex c d Hd) as [Hc Hl]. split.
  - rewrite app_length. cbn [length]. rewrite (take_hexs_split _ _ _ _ _ IH1). cbn [take_hex]. by rewrite Hc.
  - rewrite elem_of_app, elem_of_list_singleton. intros [?|?]; [done|]. by subst c.
Qed.
Lemma hexs_num n r : (r < 16 ^ N.of_nat n)%N -> hexnum (hexs n r) r.
Proof.
  revert r. induction n as [|n IH]; intros r Hr.
  - cbn in *. replace r with 0%N by lia. constructor.
  - rewrite Nat2N.inj_succ, N.pow_succ_r' in Hr. cbn [hexs].
    assert (Hq : (r / 16 < 16 ^ N.of_nat n)%N) by (apply N.div_lt_upper_bound; lia).
    pose proof (N.div_mod r 16 ltac:(done)) as Hdm. pose proof (N.mod_lt r 16 ltac:(done)) as Hlt.
    assert (E : hexnum (hexs n (r / 16) ++ [hexd (r mod 16)]) (r / 16 * 16 + N.of_nat (N.to_nat (r mod 16)))).
    { apply hn_snoc; [by apply IH|]. left. revert Hlt. generalize (r mod 16)%N. intros k Hk.
      assert (Ek : forall d, d < 16 -> B"0123456789abcdef" !! d = Some (hexd (N.of_nat d))).
      { intros d Hd. do 16 (destruct d as [|d]; [done|]). lia. }
      rewrite <- (N2Nat.id k) at 2. apply Ek. lia. }
    rewrite N2Nat.id in E. replace (r / 16 * 16 + r mod 16)%N with r in E by lia. done.
Qed.
Lemma hexs_length n r : length (hexs n r) = n.
Proof. revert r. induction n as [|n IH]; intros r; cbn [hexs]; [done|]. rewrite app_length, IH. cbn. lia. Qed.

Lemma reads_one c x : (forall t, unq_char quote bsl ([c] ++ t) = Some (x, t)) -> c <> linefeed -> reads [bsl; c] x.
Proof.
  intros H Hc. exists bsl, [c]. split_and!; [done..|]. rewrite !elem_of_cons, elem_of_nil. intros [?|[?|[]]]; [done|by subst c].
Qed.
Lemma reads_hex h v : hexnum h v -> length h = 2 -> reads (bsl :: "x"%char :: h) [ascii_of_N v].
Proof.
  intros Hh Hl. destruct (hexnum_reads h v Hh) as [Hr Hn]. rewrite Hl in Hr. exists bsl, ("x"%char :: h). split_and!; [done| |].
  - intros t. change (unq_char quote bsl (("x"%char :: h) ++ t)) with
      (match take_hex 2 0 (h ++ t) with Some (v, s) => Some ([ascii_of_N v], s) | None => None end). by rewrite Hr.
  - rewrite !elem_of_cons. by intros [?|[?|?]].
Qed.
Lemma reads_u h r : hexnum h r -> length h = 4 -> reads (bsl :: "u"%char :: h) (put_rune r).
Proof.
  intros Hh Hl. destruct (hexnum_reads h r Hh) as [Hr Hn]. rewrite Hl in Hr. exists bsl, ("u"%char :: h). split_and!; [done| |].
  - intros t. change (unq_char quote bsl (("u"%char :: h) ++ t)) with
      (match take_hex 4 0 (h ++ t) with Some (v, s) => Some (put_rune v, s) | None => None end). by rewrite Hr.
  - rewrite !elem_of_cons. by intros [?|[?|?]].
Qed.
Lemma reads_U h r : hexnum h r -> length h = 8 -> (r <= 1114111)%N -> reads (bsl :: "U"%char :: h) (put_rune r).
Proof.
  intros Hh Hl Hm. destruct (hexnum_reads h r Hh) as [Hr Hn]. rewrite Hl in Hr. exists bsl, ("U"%char :: h). split_and!; [done| |].
  - intros t. change (unq_char quote bsl (("U"%char :: h) ++ t)) with
      (match take_hex 8 0 (h ++ t) with Some (v, s) => if (1114111 <? v)%N then None else Some (put_rune v, s) | None => None end).
    rewrite Hr. destruct (N.ltb_spec 1114111 r); [lia|done].
  - rewrite !elem_of_cons. by intros [?|[?|?]].
Qed.
Lemma reads_octal a b c : (a < 4 /\ b < 8 /\ c < 8)%N ->
  reads [bsl; ascii_of_N (48 + a); ascii_of_N (48 + b); ascii_of_N (48 + c)] [ascii_of_N (a * 64 + b * 8 + c)].
Proof.
  intros (Ha & Hb & Hc). assert (Ho : forall d, (d < 8)%N -> octal (ascii_of_N (48 + d)) = Some d /\ ascii_of_N (48 + d) <> linefeed).
  { intros d Hd. assert (d = 0 \/ d = 1 \/ d = 2 \/ d = 3 \/ d = 4 \/ d = 5 \/ d = 6 \/ d = 7)%N as Hx by lia.
    by destruct Hx as [->|[->|[->|[->|[->|[->|[->| ->]]]]]]]. }
  destruct (Ho a) as [Oa La]; [lia|]. destruct (Ho b Hb) as [Ob Lb]. destruct (Ho c Hc) as [Oc Lc].
  exists bsl, [ascii_of_N (48 + a); ascii_of_N (48 + b); ascii_of_N (48 + c)]. split_and!; [done| |].
  - intros t. assert (E : unq_char quote bsl ([ascii_of_N (48 + a); ascii_of_N (48 + b); ascii_of_N (48 + c)] ++ t) =
      match octal (ascii_of_N (48 + b)), octal (ascii_of_N (48 + c)) with
      | Some y, Some z => let v := (a * 64 + y * 8 + z)%N in if (255 <? v)%N then None else Some ([ascii_of_N v], t)
      | _, _ => None end).
    { assert (a = 0 \/ a = 1 \/ a = 2 \/ a = 3)%N as Hx by lia. by destruct Hx as [->|[->|[->| ->]]]. }
    rewrite E, Ob, Oc. cbv zeta. destruct (N.ltb_spec 255 (a * 64 + b * 8 + c)); [lia|done].
  - rewrite !elem_of_cons, elem_of_nil. by intros [?|[?|[?|[?|[]]]]].
Qed.

Lemma between_spec x c y : between x c y = true <-> (x <= code c /\ code c <= y)%N.
Proof. unfold between. rewrite andb_true_iff, !N.leb_le. done. Qed.

Lemma not_line c : is_ascii c = false -> c <> linefeed.
Proof. by intros H ->. Qed.
Lemma cont_high c : cont c = true -> is_ascii c = false.
Proof. unfold cont. rewrite between_spec. unfold is_ascii. intros H. apply N.ltb_ge. lia. Qed.

Lemma div64 x y : (y < 64)%N -> ((x * 64 + y) / 64 = x /\ (x * 64 + y) mod 64 = y)%N.
Proof.
  intros Hy. split.
  - symmetry. apply (N.div_unique _ _ _ y); lia.
  - symmetry. apply (N.mod_unique _ _ x); lia.
Qed.
Lemma ascii_at c n k : (n = code c - k)%N -> (k <= code c)%N -> ascii_of_N (k + n) = c.
Proof. intros -> H. replace (k + (code c - k))%N with (code c) by lia. apply code_ascii. Qed.

Lemma rune2_ok a b : valid2 a b = true -> (128 <= rune2 a b < 2048)%N /\ put_rune (rune2 a b) = [a; b].
Proof.
  unfold valid2. rewrite andb_true_iff. unfold cont. rewrite !between_spec. intros [Ha Hb].
  assert (Hr : (128 <= rune2 a b < 2048)%N) by (unfold rune2; lia). split; [done|].
  unfold put_rune, surrogate. rewrite (proj2 (N.leb_gt 55296 (rune2 a b))) by lia. rewrite (proj2 (N.ltb_ge 1114111 (rune2 a b))) by lia.
  cbn [andb orb]. unfold encode_rune. rewrite (proj2 (N.ltb_ge (rune2 a b) 128)), (proj2 (N.ltb_lt (rune2 a b) 2048)) by lia.
  unfold rune2. destruct (div64 (code a - 192) (code b - 128)) as [-> ->]; [lia|]. rewrite (ascii_at a), (ascii_at b); [done|lia..].
Qed.

Lemma rune3_ok a b c : valid3 a b c = true ->
  (2048 <= rune3 a b c < 65536)%N /\ put_rune (rune3 a b c) = [a; b; c].
Proof.
  unfold valid3. rewrite !andb_true_iff, !orb_true_iff, !andb_true_iff. unfold cont. rewrite !between_spec, !N.eqb_eq. intros [Hab Hc].
  assert (Ha : (224 <= code a <= 239 /\ 128 <= code b <= 191)%N) by lia.
  assert (Hr : (2048 <= rune3 a b c < 65536)%N) by (unfold rune3; lia).
  assert (Hs : surrogate (rune3 a b c) = false).
  { unfold surrogate. apply not_true_iff_false. rewrite andb_true_iff, N.leb_le, N.ltb_lt. unfold rune3. lia. }
  split; [done|]. unfold put_rune. rewrite Hs. rewrite (proj2 (N.ltb_ge 1114111 (rune3 a b c))) by lia.
  cbn [orb]. unfold encode_rune. rewrite (proj2 (N.ltb_ge (rune3 a b c) 128)), (proj2 (N.ltb_ge (rune3 a b c) 2048)), (proj2 (N.ltb_lt (rune3 a b c) 65536)) by lia.
  change 4096%N with (64 * 64)%N. rewrite <- N.div_div by done. unfold rune3.
  destruct (div64 ((code a - 224) * 64 + (code b - 128)) (code c - 128)) as [-> ->]; [lia|].
  destruct (div64 (code a - 224) (code b - 128)) as [-> ->]; [lia|]. rewrite (ascii_at a), (ascii_at b), (ascii_at c); [done|lia..].
Qed.

Lemma rune4_ok a b c d : valid4 a b c d = true ->
  (65536 <= rune4 a b c d <= 1114111)%N /\ put_rune (rune4 a b c d) = [a; b; c; d].
Proof.
  unfold valid4. rewrite !andb_true_iff, !orb_true_iff, !andb_true_iff. unfold cont. rewrite !between_spec, !N.eqb_eq. intros [[Hab Hc] Hd].
  assert (Ha : (240 <= code a <= 244 /\ 128 <= code b <= 191)%N) by lia.
  assert (Hr : (65536 <= rune4 a b c d <= 1114111)%N) by (unfold rune4; lia).
  assert (Hs : surrogate (rune4 a b c d) = false).
  { unfold surrogate. apply not_true_iff_false. rewrite andb_true_iff, N.leb_le, N.ltb_lt. lia. }
  split; [done|]. unfold put_rune. rewrite Hs. rewrite (proj2 (N.ltb_ge 1114111 (rune4 a b c d))) by lia.
  cbn [orb]. unfold encode_rune.
  rewrite (proj2 (N.ltb_ge (rune4 a b c d) 128)), (proj2 (N.ltb_ge (rune4 a b c d) 2048)), (proj2 (N.ltb_ge (rune4 a b c d) 65536)) by lia.
  change 262144%N with (64 * (64 * 64))%N. change 4096%N with (64 * 64)%N. rewrite <- !N.div_div by done. unfold rune4.
  destruct (div64 (((code a - 240) * 64 + (code b - 128)) * 64 + (code c - 128)) (code d - 128)) as [-> ->]; [lia|].
  destruct (div64 ((code a - 240) * 64 + (code b - 128)) (code c - 128)) as [-> ->]; [lia|].
  destruct (div64 (code a - 240) (code b - 128)) as [-> ->]; [lia|]. rewrite (ascii_at a), (ascii_at b), (ascii_at c), (ascii_at d); [done|lia..].
Qed.

(** What Unquote does with a sequence that is left as it is. *)
Lemma high_lead c : is_ascii c = false -> Ascii.eqb c quote = false.
Proof. intros Hc. destruct (Ascii.eqb_spec c quote); [by subst c|done]. Qed.
Lemma reads_raw a w : is_ascii a = false -> Forall (fun c => is_ascii c = false) w ->
  (forall t, unq_multi a (w ++ t) = (a :: w, t)) -> reads (a :: w) (a :: w).
Proof.
  intros Ha Hw Hm. exists a, w. split_and!; [done| |].
  - intros t. unfold unq_char. by rewrite high_lead, Ha, Hm.
  - rewrite elem_of_cons. intros [H|H]; [by subst a|]. rewrite Forall_forall in Hw. by specialize (Hw _ H).
Qed.

Lemma valid3_conts a b c : valid3 a b c = true -> is_ascii b = false /\ is_ascii c = false.
Proof.
  unfold valid3. rewrite !andb_true_iff, !orb_true_iff, !andb_true_iff. unfold cont, is_ascii. rewrite !between_spec, !N.eqb_eq, !N.ltb_ge. lia.
Qed.
Lemma valid4_conts a b c d : valid4 a b c d = true -> is_ascii b = false /\ is_ascii c = false /\ is_ascii d = false.
Proof.
  unfold valid4. rewrite !andb_true_iff, !orb_true_iff, !andb_true_iff. unfold cont, is_ascii. rewrite !between_spec, !N.eqb_eq, !N.ltb_ge. lia.
Qed.
Lemma char_put r x : char_of r x -> put_rune r = x /\ (r <= 1114111)%N.
Proof.
  intros [a Ha|a b H|a b c H|a b c d H].
  - unfold is_ascii in Ha. apply N.ltb_lt in Ha. split; [|lia]. unfold put_rune, surrogate.
    rewrite (proj2 (N.leb_gt 55296 (code a))), (proj2 (N.ltb_ge 1114111 (code a))) by lia. cbn [andb orb]. unfold encode_rune.
    rewrite (proj2 (N.ltb_lt (code a) 128)) by done. by rewrite code_ascii.
  - destruct (rune2_ok a b H) as [? ->]. split; [done|lia].
  - destruct (rune3_ok a b c H) as [? ->]. split; [done|lia].
  - destruct (rune4_ok a b c d H) as [? ->]. split; [done|lia].
Qed.
Lemma char_reads r x : char_of r x -> r <> code quote -> r <> code bsl -> r <> code linefeed -> reads x x.
Proof.
  intros [a Ha|a b H|a b c H|a b c d H] Hq Hb Hl.
  - exists a, []. split_and!; [done| |].
    + intros t. unfold unq_char. destruct (Ascii.eqb_spec a quote); [by subst a|]. rewrite Ha.
      cbn [negb]. destruct (Ascii.eqb_spec a bsl); [by subst a|]. done.
    + rewrite elem_of_list_singleton. intros H1. by subst a.
  - pose proof H as H'. unfold valid2 in H'. rewrite andb_true_iff in H'. destruct H' as [_ Hc].
    apply reads_raw; [by eapply valid2_not_ascii|repeat constructor; by apply cont_high|]. intros t. cbn. by rewrite H.
  - pose proof (valid3_lead _ _ _ H) as Hd. destruct (valid3_conts _ _ _ H) as [H1 H2].
    apply reads_raw; [apply lead_ascii; lia|by repeat constructor|]. intros t. cbn. rewrite lead_false2 by lia. by rewrite H.
  - pose proof (valid4_lead _ _ _ _ H) as He. destruct (valid4_conts _ _ _ _ H) as (H1 & H2 & H3).
    apply reads_raw; [apply lead_ascii; lia|by repeat constructor|]. intros t. cbn. rewrite lead_false2, lead_false3 by lia. by rewrite H.
Qed.

(** The text of [s] is read as [s]. *)
Definition all_read (w s : bytes) : Prop := linefeed ∉ w /\ forall n, length w <= n -> unq_loop n quote w = Some s.
Lemma all_read_nil : all_read [] [].
Proof. split; [apply not_elem_of_nil|]. by intros []. Qed.
Lemma all_read_app w x w' s : reads w x -> all_read w' s -> all_read (w ++ w') (x ++ s).
Proof.
  intros (c & v & -> & Hc & Hl) [Hl' Hn]. split; [rewrite elem_of_app; by intros [?|?]|].
  intros [|n] Hlen; [cbn in Hlen; lia|]. rewrite <- app_comm_cons. cbn [unq_loop]. rewrite Hc.
  change (Ascii.eqb quote apos) with false. cbn [andb]. rewrite Hn; [done|]. cbn [app length] in Hlen. rewrite app_length in Hlen. lia.
Qed.

Lemma lit_read w s : lit w s -> all_read w s.
Proof.
  induction 1 as [|r x w s Hc H1 H2 H3 _ IH|e n w s He _ IH|a b c w s Habc _ IH|h v w s Hh Hl _ IH|h r x w s Hh Hl Hc _ IH|h r x w s Hh Hl Hc _ IH].
  - apply all_read_nil.
  - apply all_read_app; [by eapply char_reads|done].
  - apply (all_read_app [bsl; e] [ascii_of_N n]); [|done]. unfold simple_escapes in He. rewrite !elem_of_cons, elem_of_nil in He.
    destruct He as [[= -> ->]|[[= -> ->]|[[= -> ->]|[[= -> ->]|[[= -> ->]|[[= -> ->]|[[= -> ->]|[[= -> ->]|[[= -> ->]|[]]]]]]]]]]; by apply reads_one.
  - by apply (all_read_app _ _ _ _ (reads_octal a b c Habc)).
  - by apply (all_read_app _ _ _ _ (reads_hex h v Hh Hl)).
  - destruct (char_put r x Hc) as [<- _]. by apply (all_read_app _ _ _ _ (reads_u h r Hh Hl)).
  - destruct (char_put r x Hc) as [<- Hm]. by apply (all_read_app _ _ _ _ (reads_U h r Hh Hl Hm)).
Qed.

Lemma unquote_lit w s : lit w s -> unquote (quote :: w ++ [quote]) = Some s.
Proof.
  intros H. destruct (lit_read w s H) as [Hl Hn]. unfold unquote. rewrite unsnoc_snoc.
  change (Ascii.eqb quote quote) with true. change (Ascii.eqb quote backquote) with false. cbn [negb orb].
  rewrite mem_byte_false; [by apply Hn|]. apply Forall_forall. by intros c Hc ->.
Qed.

(** What Quote writes is such a literal. *)
Lemma code_eq a n : (code a =? n)%N = true -> a = ascii_of_N n.
Proof. intros H. apply N.eqb_eq in H. by rewrite <- H, code_ascii. Qed.
Lemma bad_lit a w s : lit w s -> lit (q_bad a ++ w) (a :: s).
Proof.
  intros H. rewrite <- (code_ascii a) at 2. apply (l_hex (hexs 2 (code a))); [apply hexs_num, code_lt|apply hexs_length|done].
Qed.
Lemma ascii_lit a w s : is_ascii a = true -> lit w s -> lit (q_ascii a ++ w) (a :: s).
Proof.
  intros Ha H. pose proof Ha as Ha'. unfold is_ascii in Ha. apply N.ltb_lt in Ha. unfold q_ascii.
  assert (Hs : forall e n, (e, n) ∈ simple_escapes -> lit ([bsl; e] ++ w) (ascii_of_N n :: s)) by (intros e n He; by apply (l_simple e n)).
  destruct (Ascii.eqb_spec a quote) as [->|Hq]; [apply (Hs quote 34%N); by vm_compute; repeat constructor|].
  destruct (Ascii.eqb_spec a bsl) as [->|Hb]; [apply (Hs bsl 92%N); by vm_compute; repeat constructor|]. cbn [orb].
  destruct (N.leb_spec 32 (code a)), (N.leb_spec (code a) 126); cbn [andb].
  - apply (l_char (code a) [a]); [by constructor|..|done]; intros E.
    + apply Hq. by rewrite <- (code_ascii a), E, code_ascii.
    + apply Hb. by rewrite <- (code_ascii a), E, code_ascii.
    + change (code linefeed) with 10%N in E. lia.
  - assert (E : code a = 127%N) by lia. assert (a = ascii_of_N 127) as -> by (by rewrite <- E, code_ascii).
    apply (l_u (hexs 4 127) 127 [ascii_of_N 127]); [by apply hexs_num|done|by apply (ch_1 (ascii_of_N 127))|done].
  - repeat match goal with |- context [(code a =? ?n)%N] =>
      let E := fresh in destruct (code a =? n)%N eqn:E; [apply code_eq in E; subst a; apply Hs; by vm_compute; repeat constructor|clear E] end.
    rewrite (proj2 (N.ltb_lt (code a) 32)) by lia. by apply bad_lit.
  - lia.
Qed.
Lemma rune_lit other r raw w s : char_of r raw -> (128 <= r)%N -> lit w s -> lit (q_rune other r raw ++ w) (raw ++ s).
Proof.
  intros Hc Hr H. unfold q_rune. destruct (char_put r raw Hc) as [_ Hm]. destruct (other r).
  - apply (l_char r raw); [done|..|done]; intros ->; by vm_compute in Hr.
  - destruct (N.ltb_spec r 65536).
    + apply (l_u (hexs 4 r) r raw); [by apply hexs_num|apply hexs_length|done|done].
    + apply (l_U (hexs 8 r) r raw); [apply hexs_num; change (16 ^ N.of_nat 8)%N with 4294967296%N; lia|apply hexs_length|done|done].
Qed.

Lemma q_lit other s : lit (q_body other s) s.
Proof.
  remember (length s) as n eqn:Hn. assert (Hle : length s <= n) by lia. clear Hn. revert s Hle.
  induction n as [|n IH]; intros [|a s1] Hle; cbn [length] in Hle; try constructor; [lia|]. cbn [q_body].
  assert (Hbad : lit (q_bad a ++ q_body other s1) (a :: s1)) by (apply bad_lit, IH; lia).
  destruct (is_ascii a) eqn:Ha; [apply ascii_lit; [done|apply IH; lia]|].
  destruct s1 as [|b s2]; [cbn [q_body] in Hbad; by rewrite app_nil_r in Hbad|].
  destruct (valid2 a b) eqn:H2.
  { apply (rune_lit other _ [a; b]); [by constructor|apply (rune2_ok a b H2)|apply IH; cbn [length] in Hle; lia]. }
  destruct s2 as [|c s3]; [exact Hbad|].
  destruct (valid3 a b c) eqn:H3.
  { pose proof (rune3_ok a b c H3) as [? _]. apply (rune_lit other _ [a; b; c]); [by constructor|lia|apply IH; cbn [length] in Hle; lia]. }
  destruct s3 as [|d s4]; [exact Hbad|].
  destruct (valid4 a b c d) eqn:H4.
  { pose proof (rune4_ok a b c d H4) as [? _]. apply (rune_lit other _ [a; b; c; d]); [by constructor|lia|apply IH; cbn [length] in Hle; lia]. }
  exact Hbad.
Qed.

Lemma drop_filter c (s : list ascii) : drop_byte c s = filter (fun x => x <> c) s.
Proof.
  induction s as [|x s IH]; [done|]. cbn [drop_byte]. rewrite filter_cons, IH.
  destruct (Ascii.eqb_spec x c), (decide (x <> c)); try done; naive_solver.
Qed.
Lemma unquote_literal t s : literal t s -> unquote t = Some s.
Proof.
  intros [w x H|w H]; [by apply unquote_lit|]. unfold unquote. rewrite unsnoc_snoc.
  change (Ascii.eqb backquote backquote) with true. cbn [negb].
  rewrite mem_byte_false, drop_filter; [done|]. apply Forall_forall. by intros c Hc ->.
Qed.
