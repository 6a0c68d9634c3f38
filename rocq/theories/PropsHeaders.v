(** Theorems: the text of conditional headers (C139). *)
From Verif Require Import Bytes GoPath Here GoTypes GoNum GoTimeFmt Mem MemSpec MemBase Http HttpProofs HttpMem HttpRange PropsFiles PropsParser PropsHttp
  MarshalMem Marshal Embed Disk Decls Pack PropsPack DiskOps Std PropsStd HttpDisk PropsHttpSame PropsDate Precond PropsPrecond JsonSpec PropsTime CondHeaders.

(** ** Entity tags, as RFC 7232 (2.3) and RFC 7230 (7) write them *)

Definition etagc (c : ascii) : Prop := let n := N_of_ascii c in (n = 33 \/ 35 <= n <= 126 \/ 128 <= n)%N.
Definition entity_tag (t : bytes) : Prop :=
  exists w cs, (w = [] \/ w = B"W/") /\ Forall etagc cs /\ t = w ++ B"""" ++ cs ++ B"""".
Definition ows (s : bytes) : Prop := Forall (fun c => c = " "%char \/ c = "009"%char) s.
(** A list of tags: separated by commas, with optional space; elements may be
    empty. *)
Inductive tag_list : bytes -> list bytes -> Prop :=
  | tl_space s : ows s -> tag_list s []
  | tl_comma w s l : ows w -> tag_list s l -> tag_list (w ++ B"," ++ s) l
  | tl_tag w t r l : ows w -> entity_tag t -> (ows r \/ exists w' s, ows w' /\ r = w' ++ B"," ++ s) -> tag_list r l ->
      tag_list (w ++ t ++ r) (t :: l).

(** ** Dates *)

(** The obsolete forms RFC 7231 (7.1.1.1) has recipients accept:
    "Sunday, 06-Nov-94 08:49:37 GMT" and "Sun Nov  6 08:49:37 1994". *)
Definition weekday (t : moment) : nat := Z.to_nat (day_number (mo_year t) (mo_month t) (mo_day t) mod 7).
Definition clock (t : moment) : bytes := two (mo_hour t) ++ B":" ++ two (mo_min t) ++ B":" ++ two (mo_sec t).
Definition full_day_names : list bytes := [B"Sunday"; B"Monday"; B"Tuesday"; B"Wednesday"; B"Thursday"; B"Friday"; B"Saturday"].
Definition rfc850_text (t : moment) (x : bytes) : Prop :=
  exists wd mo, full_day_names !! weekday t = Some wd /\ month_names !! Z.to_nat (mo_month t - 1) = Some mo /\
    x = wd ++ B", " ++ two (mo_day t) ++ B"-" ++ mo ++ B"-" ++ two (mo_year t mod 100) ++ B" " ++ clock t ++ B" GMT".
Definition asctime_text (t : moment) (x : bytes) : Prop :=
  exists wd mo, day_names !! weekday t = Some wd /\ month_names !! Z.to_nat (mo_month t - 1) = Some mo /\
    x = wd ++ B" " ++ mo ++ B" " ++ (if decide (mo_day t < 10)%Z then B" " ++ [digit (mo_day t)] else two (mo_day t)) ++ B" " ++ clock t ++ B" " ++ four (mo_year t).

(** What time.Parse takes for each of the three: names in any case, any number
    of spaces for one, any weekday, an hour of one digit, a fraction. *)
Definition same_char (a b : ascii) : Prop :=
  a = b \/ exists n, (n < 26)%N /\ ((N_of_ascii a = 65 + n /\ N_of_ascii b = 97 + n) \/ (N_of_ascii a = 97 + n /\ N_of_ascii b = 65 + n))%N.
Definition names (tab : list bytes) (n : nat) (w : bytes) : Prop := exists v, tab !! n = Some v /\ Forall2 same_char w v.
Definition spaces (w : bytes) : Prop := w <> [] /\ Forall (fun c => c = " "%char) w.
Definition clock_text (t : moment) (x : bytes) : Prop :=
  exists wh wi ws wf ns, x = wh ++ B":" ++ wi ++ B":" ++ ws ++ wf /\
    (numeral 2 wh (mo_hour t) \/ numeral 1 wh (mo_hour t)) /\ numeral 2 wi (mo_min t) /\ numeral 2 ws (mo_sec t) /\ fraction wf ns.
Definition imf_loose (t : moment) (x : bytes) : Prop :=
  exists k wd p1 d p2 mo p3 y p4 c p5,
    x = wd ++ B"," ++ p1 ++ d ++ p2 ++ mo ++ p3 ++ y ++ p4 ++ c ++ p5 ++ B"GMT" /\
    names day_names k wd /\ numeral 2 d (mo_day t) /\ names month_names (Z.to_nat (mo_month t - 1)) mo /\ numeral 4 y (mo_year t) /\ clock_text t c /\
    Forall spaces [p1; p2; p3; p4; p5].
Definition rfc850_loose (t : moment) (x z : bytes) : Prop :=
  exists k wd p1 d mo y yy p2 c p3,
    x = wd ++ B"," ++ p1 ++ d ++ B"-" ++ mo ++ B"-" ++ y ++ p2 ++ c ++ p3 ++ z /\
    names full_day_names k wd /\ numeral 2 d (mo_day t) /\ names month_names (Z.to_nat (mo_month t - 1)) mo /\ signed y yy /\
    mo_year t = (if decide (69 <= yy) then 1900 + yy else 2000 + yy)%Z /\ clock_text t c /\
    Forall spaces [p1; p2; p3] /\ head z <> Some " "%char.
Definition asctime_loose (t : moment) (x : bytes) : Prop :=
  exists k wd p1 mo p2 d p3 c p4 y,
    x = wd ++ p1 ++ mo ++ p2 ++ d ++ p3 ++ c ++ p4 ++ y /\
    names day_names k wd /\ names month_names (Z.to_nat (mo_month t - 1)) mo /\ (numeral 2 d (mo_day t) \/ numeral 1 d (mo_day t)) /\ clock_text t c /\ numeral 4 y (mo_year t) /\
    Forall spaces [p1; p2; p3; p4].

(** ** Proofs: trimming *)

Definition trim_right (s : bytes) : bytes := rev (trim_left (rev s)).
Lemma trim_left_space w s : Forall (fun c => ascii_space c = true) w -> trim_left (w ++ s) = trim_left s.
Proof. induction 1 as [|c w H _ IH]; [done|]. cbn [app trim_left]. by rewrite H. Qed.
Lemma trim_left_stop c s : ascii_space c = false -> trim_left (c :: s) = c :: s.
Proof. intros H. cbn [trim_left]. by rewrite H. Qed.
Lemma trim_left_app a b : trim_left (a ++ b) = match trim_left a with [] => trim_left b | x => x ++ b end.
Proof. induction a as [|c a IH]; [done|]. cbn [app trim_left]. by destruct (ascii_space c). Qed.
Lemma trim_right_app a b : trim_right (a ++ b) = match trim_right b with [] => trim_right a | x => a ++ x end.
Proof.
  unfold trim_right. rewrite rev_app_distr, trim_left_app. destruct (trim_left (rev b)) as [|c x]; [done|].
  rewrite rev_app_distr, rev_involutive. cbn [rev]. destruct (rev x ++ [c]) eqn:E; [|done]. by destruct (rev x).
Qed.
Lemma trim_left_idem s : trim_left (trim_left s) = trim_left s.
Proof. induction s as [|c s IH]; [done|]. cbn [trim_left]. destruct (ascii_space c) eqn:E; [done|]. by apply trim_left_stop. Qed.
Lemma trim_right_idem s : trim_right (trim_right s) = trim_right s.
Proof. unfold trim_right. by rewrite rev_involutive, trim_left_idem. Qed.
Lemma trim_right_stop a c : ascii_space c = false -> trim_right (a ++ [c]) = a ++ [c].
Proof. intros H. unfold trim_right. rewrite rev_app_distr. cbn [rev app]. rewrite trim_left_stop by done. cbn [rev]. by rewrite rev_involutive. Qed.
Lemma trim_right_cons c s : ascii_space c = false -> trim_right (c :: s) = c :: trim_right s.
Proof.
  intros H. change (c :: s) with ([c] ++ s). rewrite trim_right_app. destruct (trim_right s); [|done]. by apply (trim_right_stop [] c).
Qed.
Lemma trim_string_eq s : trim_string s = trim_right (trim_left s).
Proof. done. Qed.
Lemma trim_string_right s : trim_string (trim_right s) = trim_string s.
Proof.
  rewrite !trim_string_eq. induction s as [|c s IH]; [done|]. cbn [trim_left]. destruct (ascii_space c) eqn:E.
  - rewrite <- IH. change (c :: s) with ([c] ++ s). rewrite trim_right_app. destruct (trim_right s) as [|x y] eqn:Er.
    + unfold trim_right. cbn [rev app trim_left]. by rewrite E.
    + rewrite <- Er. cbn [app trim_left]. by rewrite E.
  - rewrite trim_right_cons, trim_left_stop, !trim_right_cons, trim_right_idem by done. done.
Qed.
Lemma trim_string_fixed c s : ascii_space c = false -> trim_string (c :: s) = c :: trim_right s.
Proof. intros H. by rewrite trim_string_eq, trim_left_stop, trim_right_cons. Qed.
Lemma ows_space w : ows w -> Forall (fun c => ascii_space c = true) w.
Proof. intros H. eapply Forall_impl; [exact H|]. intros c [-> | ->]; by vm_compute. Qed.
Lemma trim_string_ows w s : ows w -> trim_string (w ++ s) = trim_string s.
Proof. intros H. rewrite !trim_string_eq, trim_left_space; [done|by apply ows_space]. Qed.

Lemma etagc_byte c : etagc c -> etag_byte c = true.
Proof.
  unfold etagc, etag_byte. intros H. rewrite !orb_true_iff, andb_true_iff, !N.leb_le, N.eqb_eq. lia.
Qed.
Lemma scan_opaque_tag cs r : Forall etagc cs -> scan_opaque (cs ++ quote :: r) = Some (cs ++ [quote], r).
Proof.
  induction 1 as [|c cs H _ IH]; [done|]. cbn [app scan_opaque]. by rewrite (etagc_byte _ H), IH.
Qed.
(** A tag begins and ends with bytes that are neither space nor separators. *)
Lemma tag_shape t : entity_tag t -> exists c u, t = c :: u /\ ascii_space c = false /\ Ascii.eqb c ","%char = false /\ Ascii.eqb c "*"%char = false /\
  (forall r, trim_right (t ++ r) = t ++ trim_right r).
Proof.
  intros (w & cs & Hw & Hc & ->).
  assert (Hr : forall r, trim_right ((w ++ B"""" ++ cs ++ B"""") ++ r) = (w ++ B"""" ++ cs ++ B"""") ++ trim_right r).
  { intros r. rewrite trim_right_app. destruct (trim_right r) as [|x y]; [|done]. rewrite app_nil_r.
    rewrite !app_assoc. by apply trim_right_stop. }
  destruct Hw as [-> | ->]; eexists _, _; (split; [reflexivity|]); by split_and!.
Qed.
Lemma scan_etag_tag t r : entity_tag t -> scan_etag (t ++ trim_right r) = Some (t, trim_right r).
Proof.
  intros Ht. destruct (tag_shape t Ht) as (c & u & E & Hs & _ & _ & Hr).
  assert (Et : trim_string (t ++ trim_right r) = t ++ trim_right r).
  { rewrite trim_string_eq. assert (El : trim_left (t ++ trim_right r) = t ++ trim_right r) by (rewrite E; by apply trim_left_stop).
    by rewrite El, Hr, trim_right_idem. }
  unfold scan_etag. rewrite Et. destruct Ht as (w & cs & [-> | ->] & Hc & ->).
  - assert (Ex : ([] ++ B"""" ++ cs ++ B"""") ++ trim_right r = quote :: cs ++ quote :: trim_right r).
    { cbn [app B list_ascii_of_string]. by rewrite <- app_assoc. }
    rewrite Ex. change (has_prefix (quote :: cs ++ quote :: trim_right r) (B"W/")) with false. cbv iota.
    change (Ascii.eqb quote quote) with true. cbv iota. rewrite scan_opaque_tag by done. done.
  - assert (Ex : (B"W/" ++ B"""" ++ cs ++ B"""") ++ trim_right r = B"W/" ++ quote :: cs ++ quote :: trim_right r).
    { cbn [app B list_ascii_of_string]. by rewrite <- app_assoc. }
    rewrite Ex. change (has_prefix (B"W/" ++ quote :: cs ++ quote :: trim_right r) (B"W/")) with true. cbv iota.
    change (drop 2 (B"W/" ++ quote :: cs ++ quote :: trim_right r)) with (quote :: cs ++ quote :: trim_right r). cbv iota.
    change (Ascii.eqb quote quote) with true. cbv iota. rewrite scan_opaque_tag by done. done.
Qed.

Lemma read_loop_list s l : tag_list s l -> forall n s0, trim_string s0 = trim_string s -> length s <= n -> read_loop n s0 = Tags l.
Proof.
  induction 1 as [s Hs|w s l Hw _ IH|w t r l Hw Ht _ _ IH]; intros n s0 E Hn.
  - rewrite <- (app_nil_r s), (trim_string_ows s [] Hs) in E. destruct n as [|n]; [done|]. cbn [read_loop]. by rewrite E.
  - rewrite (trim_string_ows w _ Hw) in E. cbn [app B list_ascii_of_string] in E. rewrite (trim_string_fixed ","%char s) in E by done.
    rewrite app_length in Hn. cbn in Hn. destruct n as [|n]; [lia|]. cbn [read_loop]. rewrite E.
    change (Ascii.eqb ","%char ","%char) with true. cbv iota. apply IH; [apply trim_string_right|lia].
  - rewrite (trim_string_ows w _ Hw) in E. destruct (tag_shape t Ht) as (c & u & Et & Hsp & Hc1 & Hc2 & Hr).
    assert (Es : trim_string (t ++ r) = t ++ trim_right r).
    { rewrite trim_string_eq. assert (El : trim_left (t ++ r) = t ++ r) by (rewrite Et; by apply trim_left_stop). by rewrite El, Hr. }
    rewrite Es in E. rewrite !app_length in Hn. assert (0 < length t) by (rewrite Et; cbn; lia).
    destruct n as [|n]; [lia|]. cbn [read_loop]. rewrite E.
    rewrite Et at 1. cbn [app]. rewrite Hc1, Hc2. change (c :: u ++ trim_right r) with ((c :: u) ++ trim_right r). rewrite <- Et.
    rewrite scan_etag_tag by done. rewrite (IH n (trim_right r)); [done|apply trim_string_right|lia].
Qed.

(** ** Proofs: dates *)

Lemma same_letter_iff a b : same_letter a b = true <-> same_char a b.
Proof.
  assert (H : same_letter a b = Ascii.eqb a b || (((65 <=? N_of_ascii a) && (N_of_ascii a <=? 90) && (N_of_ascii b =? N_of_ascii a + 32))
     || ((65 <=? N_of_ascii b) && (N_of_ascii b <=? 90) && (N_of_ascii a =? N_of_ascii b + 32)))%N).
  { assert (All : forallb (fun n => forallb (fun k => let a := ascii_of_nat n in let b := ascii_of_nat k in
        Bool.eqb (same_letter a b) (Ascii.eqb a b || (((65 <=? N_of_ascii a) && (N_of_ascii a <=? 90) && (N_of_ascii b =? N_of_ascii a + 32))
        || ((65 <=? N_of_ascii b) && (N_of_ascii b <=? 90) && (N_of_ascii a =? N_of_ascii b + 32)))%N)) (seq 0 256)) (seq 0 256) = true) by (by vm_compute).
    rewrite forallb_forall in All. specialize (All (nat_of_ascii a)). rewrite forallb_forall in All.
    assert (Ia : forall c, In (nat_of_ascii c) (seq 0 256)) by (intros c; apply in_seq; pose proof (nat_ascii_bounded c); lia).
    specialize (All (Ia a) (nat_of_ascii b) (Ia b)). cbv zeta in All. rewrite !ascii_nat_embedding in All. by apply Bool.eqb_prop in All. }
  rewrite H, !orb_true_iff, !andb_true_iff, !N.leb_le, !N.eqb_eq, Ascii.eqb_eq. unfold same_char. split.
  - intros [->|[[[H1 H2] H3]|[[H1 H2] H3]]]; [by left|right..]; [exists (N_of_ascii a - 65)%N|exists (N_of_ascii b - 65)%N]; lia.
  - intros [->|(n & Hn & H1)]; [by left|right]. lia.
Qed.
Lemma same_word_iff a b : same_word a b = true <-> Forall2 same_char a b.
Proof.
  unfold same_word. rewrite andb_true_iff, Nat.eqb_eq. split.
  - intros [Hl H]. revert b Hl H. induction a as [|x a IH]; intros [|y b] Hl H; try done. cbn in H. apply andb_true_iff in H as [H1 H2].
    constructor; [by apply same_letter_iff|]. apply IH; [by injection Hl|done].
  - intros H. induction H as [|x y a b H _ [IH1 IH2]]; [done|]. split; [cbn; by rewrite IH1|]. cbn. rewrite (proj2 (same_letter_iff x y) H). done.
Qed.
Lemma same_char_sym a b : same_char a b -> same_char b a.
Proof. intros [->|(n & Hn & H)]; [by left|]. right. exists n. split; [done|]. tauto. Qed.
Lemma same_char_trans a b c : same_char a b -> same_char b c -> same_char a c.
Proof.
  intros [->|(n & Hn & H)]; [done|]. intros [<-|(k & Hk & H')]; [right; by exists n|].
  left. rewrite <- (ascii_N_embedding a), <- (ascii_N_embedding c). f_equal. lia.
Qed.

(** No two names of a table begin alike. *)
Definition apart_tab (tab : list bytes) : Prop :=
  forall i j v w, tab !! i = Some v -> tab !! j = Some w -> i < j -> 3 <= length v /\ 3 <= length w /\ same_word (take 3 v) (take 3 w) = false.
Lemma look_is i tab s k r : look i tab s = Some (k, r) -> exists n w, k = (i + Z.of_nat n)%Z /\ s = w ++ r /\ names tab n w.
Proof.
  revert i. induction tab as [|v tab IH]; intros i; [done|]. cbn [look]. destruct (same_word (take (length v) s) v) eqn:E.
  - intros [= <- <-]. exists 0, (take (length v) s). split; [lia|]. split; [by rewrite take_drop|]. exists v. split; [done|]. by apply same_word_iff.
  - intros H. destruct (IH _ H) as (n & w & -> & -> & v' & Hv & Hw). exists (S n), w. split; [lia|]. split; [done|]. by exists v'.
Qed.
Lemma look_names tab i n w r : apart_tab tab -> names tab n w -> look i tab (w ++ r) = Some ((i + Z.of_nat n)%Z, r).
Proof.
  intros Ha (v & Hv & Hw). revert i n Ha Hv. induction tab as [|u tab IH]; intros i n Ha Hv; [done|]. cbn [look].
  destruct n as [|n].
  - cbn in Hv. injection Hv as ->. rewrite <- (Forall2_length _ _ _ Hw), take_app, drop_app. rewrite (proj2 (same_word_iff w v) Hw). f_equal. f_equal. lia.
  - destruct (Ha 0 (S n) u v eq_refl Hv ltac:(lia)) as (L1 & L2 & Hne).
    assert (E : same_word (take (length u) (w ++ r)) u = false).
    { apply not_true_iff_false. intros H. apply same_word_iff in H. apply not_true_iff_false in Hne. apply Hne. apply same_word_iff.
      apply (Forall2_take _ _ _ 3) in H. rewrite take_take, Nat.min_l in H by lia.
      rewrite take_app_le in H by (rewrite (Forall2_length _ _ _ Hw); lia). apply (Forall2_take _ _ _ 3) in Hw.
      eapply (Forall2_transitive same_char same_char same_char); [apply same_char_trans| |exact Hw].
      apply Forall2_flip. eapply Forall2_impl; [exact H|apply same_char_sym]. }
    rewrite E. rewrite (IH (i + 1)%Z n); [f_equal; f_equal; lia| |done]. intros a b x y Hx Hy Hab. by apply (Ha (S a) (S b) x y Hx Hy ltac:(lia)).
Qed.
Ltac apart_tac := intros i j v w Hi Hj Hij;
  repeat (destruct i as [|i]; [|try discriminate Hi]); repeat (destruct j as [|j]; [|try discriminate Hj]); try lia; cbn in Hi, Hj;
  try discriminate Hi; try discriminate Hj; injection Hi as <-; injection Hj as <-; (split; [vm_compute; lia|split; [vm_compute; lia|by vm_compute]]).
Lemma apart_days : apart_tab short_days. Proof. apart_tac. Qed.
Lemma apart_long : apart_tab long_days. Proof. apart_tac. Qed.
Lemma apart_months : apart_tab short_months. Proof. apart_tac. Qed.

Lemma cut_spaces w r : Forall (fun c => c = " "%char) w -> head r <> Some " "%char -> cut_space (w ++ r) = r.
Proof.
  intros Hw Hr. induction Hw as [|c w -> _ IH]; [|exact IH]. destruct r as [|c r]; [done|]. cbn [app cut_space].
  destruct (Ascii.eqb_spec c " "%char) as [->|]; [done|reflexivity].
Qed.
Lemma cut_split s : exists w, Forall (fun c => c = " "%char) w /\ s = w ++ cut_space s /\ head (cut_space s) <> Some " "%char.
Proof.
  induction s as [|c s IH]; [by exists []|]. cbn [cut_space]. destruct (Ascii.eqb_spec c " "%char) as [->|Hc].
  - destruct IH as (w & Hw & E & Hh). exists (" "%char :: w). split; [by constructor|]. split; [cbn [app]; by f_equal|done].
  - exists []. split; [constructor|]. split; [done|]. cbn. intros [= ->]. done.
Qed.
Lemma skip_is s r : r <> [] -> skip_space s = Some r -> exists w, spaces w /\ s = w ++ r /\ head r <> Some " "%char.
Proof.
  intros Hr. unfold skip_space. destruct s as [|c s]; [by intros [= <-]|]. destruct (Ascii.eqb_spec c " "%char) as [->|]; [|done].
  intros [= E]. destruct (cut_split s) as (w & Hw & Es & Hh). cbn [cut_space] in E. change (Ascii.eqb " "%char " "%char) with true in E. cbv iota in E. rewrite E in *.
  exists (" "%char :: w). split; [split; [done|by constructor]|]. split; [cbn [app]; by f_equal|done].
Qed.
Lemma skip_spaces w r : spaces w -> head r <> Some " "%char -> skip_space (w ++ r) = Some r.
Proof.
  intros [Hne Hw] Hr. unfold skip_space. destruct w as [|c w]; [done|]. inversion Hw as [|? ? -> Hw']; subst. cbn [app].
  change (Ascii.eqb " "%char " "%char) with true. cbv iota. f_equal. by apply (cut_spaces (" "%char :: w)).
Qed.

(** Heads of what follows a space. *)
Definition no_digit (r : bytes) : Prop := forall c, head r = Some c -> is_digit c = false /\ c <> c_dot.
Lemma numeral_head k w z r : 0 < k -> numeral k w z -> exists c u, w ++ r = c :: u /\ is_digit c = true.
Proof.
  intros Hk (Hl & n & Hn & _). destruct (decnum_digits w n Hn) as [Hd _]. destruct w as [|c w]; [cbn in Hl; lia|].
  inversion Hd; subst. by eexists _, _.
Qed.
Lemma digit_no_space c : is_digit c = true -> c <> " "%char.
Proof. intros H ->. discriminate H. Qed.
Lemma numeral_no_space k w z r : 0 < k -> numeral k w z -> head (w ++ r) <> Some " "%char.
Proof. intros Hk H. destruct (numeral_head k w z r Hk H) as (c & u & -> & Hc). cbn. intros [= ->]. done. Qed.
Lemma spaces_no_digit w r : spaces w -> no_digit (w ++ r).
Proof. intros [Hne Hw] c. destruct Hw as [|x w -> Hw]; [done|]. intros [= <-]. done. Qed.
Lemma names_head tab n w r : apart_tab tab -> tab = short_months -> names tab n w -> head (w ++ r) <> Some " "%char.
Proof.
  intros _ -> (v & Hv & Hw). apply elem_of_list_lookup_2 in Hv.
  assert (Hh : exists c u, v = c :: u /\ (65 <= N_of_ascii c <= 90)%N).
  { unfold short_months in Hv. rewrite !elem_of_cons, elem_of_nil in Hv.
    destruct Hv as [->|[->|[->|[->|[->|[->|[->|[->|[->|[->|[->|[->|[]]]]]]]]]]]]]; eexists _, _; (split; [reflexivity|vm_compute; split; discriminate]). }
  destruct Hh as (c & u & -> & Hc). inversion Hw as [|a ? w' ? Ha]; subst. cbn. intros [= ->].
  destruct Ha as [<-|(k & _ & Hk)]; [change (N_of_ascii " "%char) with 32%N in Hc; lia|]. change (N_of_ascii " "%char) with 32%N in Hk. lia.
Qed.

Lemma get_hour_is s z r : get_hour s = Some (z, r) -> exists d, s = d ++ r /\ (numeral 2 d z \/ numeral 1 d z).
Proof.
  unfold get_hour. destruct (get_num 2 s) as [[z' r']|] eqn:E.
  - intros [= -> ->]. apply get_num_iff in E as (d & -> & H). exists d. by auto.
  - intros (d & -> & H)%get_num_iff. exists d. by auto.
Qed.
Lemma get_hour_of d z r : no_digit r -> numeral 2 d z \/ numeral 1 d z -> get_hour (d ++ r) = Some (z, r).
Proof.
  intros Hr [H|H]; unfold get_hour.
  - by rewrite (proj2 (get_num_iff 2 (d ++ r) z r)) by eauto.
  - assert (E : get_num 2 (d ++ r) = None).
    { destruct H as (Hl & n & Hn & _). destruct (decnum_digits d n Hn) as [Hd _]. destruct d as [|c [|]]; [done| |done].
      unfold get_num. cbn [get_digits app]. inversion Hd as [|? ? Hc]; subst. rewrite Hc. destruct r as [|x r]; [done|].
      by rewrite (proj1 (Hr x eq_refl)). }
    rewrite E. apply get_num_iff. by exists d.
Qed.
Lemma get_frac_is s ns r : get_frac s = Some (ns, r) -> exists wf, s = wf ++ r /\ fraction wf ns.
Proof.
  unfold get_frac. destruct s as [|c [|d s]].
  - intros [= <- <-]. exists []. split; [done|constructor].
  - intros [= <- <-]. exists []. split; [done|constructor].
  - destruct (Ascii.eqb c c_dot && is_digit d) eqn:E.
    + apply andb_true_iff in E as [->%Ascii.eqb_eq Hd]. cbn [tail]. destruct (span_digits (d :: s)) as [ds r'] eqn:Es.
      destruct (span_digits_split _ _ _ Es) as [E1 Hds]. destruct (N.ltb_spec (dval ds) (10 ^ 9)); [|done]. intros [= <- <-].
      exists (c_dot :: ds). split; [cbn [app]; by f_equal|]. rewrite scale_eq by done.
      apply fr_some; [by apply digits_decnum| |done]. intros ->. cbn [span_digits] in Es. rewrite Hd in Es. by destruct (span_digits s).
    + intros [= <- <-]. exists []. split; [done|constructor].
Qed.
Lemma get_frac_of wf ns r : no_digit r -> fraction wf ns -> get_frac (wf ++ r) = Some (ns, r).
Proof.
  intros Hr [|w n Hw Hne Hn].
  - cbn [app]. unfold get_frac. destruct r as [|c [|d r]]; [done|done|]. by rewrite (proj2 (Ascii.eqb_neq _ _) (proj2 (Hr c eq_refl))).
  - destruct (decnum_digits w n Hw) as [Hd <-]. destruct w as [|d w]; [done|]. cbn [app get_frac tail]. inversion Hd as [|? ? Hdd Hw']; subst.
    change (Ascii.eqb "."%char c_dot) with true. rewrite Hdd. cbn [andb]. change (d :: w ++ r) with ((d :: w) ++ r).
    assert (Es : span_digits ((d :: w) ++ r) = (d :: w, r)).
    { clear Hw Hne Hn Hdd Hw'. induction Hd as [|x w' Hx _ IH]; [|cbn [app span_digits]; by rewrite Hx, IH].
      destruct r as [|x r]; [done|]. cbn [app span_digits]. by rewrite (proj1 (Hr x eq_refl)). }
    rewrite Es. rewrite (proj2 (N.ltb_lt _ _) Hn). by rewrite scale_eq.
Qed.
Lemma get_clock_is s hh mm ss r : get_clock s = Some (hh, mm, ss, r) ->
  exists c, s = c ++ r /\ c <> [] /\ (forall y m d, clock_text (Moment y m d hh mm ss) c) /\ (0 <= hh /\ 0 <= mm /\ 0 <= ss)%Z.
Proof.
  unfold get_clock. destruct (get_hour s) as [[h s1]|] eqn:E1; [|done]. cbn [mbind option_bind]. destruct (expect colon s1) as [s2|] eqn:E2; [|done]. cbn [mbind option_bind].
  destruct (get_num 2 s2) as [[mi s3]|] eqn:E3; [|done]. cbn [mbind option_bind]. destruct (expect colon s3) as [s4|] eqn:E4; [|done]. cbn [mbind option_bind].
  destruct (get_num 2 s4) as [[se s5]|] eqn:E5; [|done]. cbn [mbind option_bind]. destruct (get_frac s5) as [[ns s6]|] eqn:E6; [|done]. cbn [mbind option_bind].
  intros [= -> -> -> ->]. apply get_hour_is in E1 as (wh & -> & Hh). apply expect_iff in E2 as ->. apply get_num_iff in E3 as (wi & -> & Hi). apply expect_iff in E4 as ->.
  apply get_num_iff in E5 as (ws & -> & Hs). apply get_frac_is in E6 as (wf & -> & Hf).
  exists (wh ++ B":" ++ wi ++ B":" ++ ws ++ wf). split; [by rewrite <- !app_assoc|]. split; [by destruct wh|].
  split; [intros y m d; exists wh, wi, ws, wf, ns; by split_and!|].
  split_and!; [destruct Hh as [Hh|Hh]; by eapply numeral_bounds|by eapply numeral_bounds..].
Qed.
Lemma get_clock_of t c r : no_digit r -> clock_text t c -> get_clock (c ++ r) = Some (mo_hour t, mo_min t, mo_sec t, r).
Proof.
  intros Hr (wh & wi & ws & wf & ns & -> & Hh & Hi & Hs & Hf). unfold get_clock. rewrite <- !app_assoc.
  rewrite (get_hour_of wh (mo_hour t)) by (intros ? [= <-] || done; done). cbn [mbind option_bind].
  rewrite (proj2 (expect_iff colon _ _)) by reflexivity. cbn [mbind option_bind].
  rewrite (proj2 (get_num_iff 2 _ (mo_min t) _)) by eauto. cbn [mbind option_bind]. rewrite (proj2 (expect_iff colon _ _)) by reflexivity. cbn [mbind option_bind].
  rewrite (proj2 (get_num_iff 2 _ (mo_sec t) _)) by eauto. cbn [mbind option_bind]. by rewrite (get_frac_of wf ns r).
Qed.
Lemma clock_no_space t c r : clock_text t c -> head (c ++ r) <> Some " "%char.
Proof.
  intros (wh & wi & ws & wf & ns & -> & Hh & _). rewrite <- !app_assoc. destruct Hh as [Hh|Hh]; by eapply numeral_no_space; [|exact Hh]; lia.
Qed.
Lemma date_secs_iff y m d hh mm ss s : (1 <= m <= 12)%Z -> (0 <= hh /\ 0 <= mm /\ 0 <= ss)%Z ->
  date_secs y m d hh mm ss = Some s <-> real_moment (Moment y m d hh mm ss) /\ s = moment_secs (Moment y m d hh mm ss).
Proof.
  intros Hm Hp. unfold date_secs, real_moment, moment_secs. cbn [mo_year mo_month mo_day mo_hour mo_min mo_sec].
  rewrite (day_number_is y m d) by lia. change (day_number 1970 1 1) with (unix_day + 1)%Z.
  destruct ((hh <? 24) && (mm <? 60) && (ss <? 60) && (1 <=? d) && (d <=? days_in m y))%Z eqn:Ok.
  - rewrite !andb_true_iff, !Z.leb_le, !Z.ltb_lt in Ok. split.
    + intros [= <-]. split; [|lia]. split; [done|]. split; [exists (days_in m y); split; [by apply month_length_is|lia]|lia].
    + intros [_ ->]. f_equal. lia.
  - split; [done|]. intros [(_ & (len & Hlen & Hd) & H1 & H2 & H3) _]. exfalso. rewrite (month_length_is y m _ Hm eq_refl) in Hlen. injection Hlen as <-.
    apply not_true_iff_false in Ok. apply Ok. rewrite !andb_true_iff, !Z.leb_le, !Z.ltb_lt. lia.
Qed.
Lemma month_range tab n w : tab = short_months -> names tab n w -> (1 <= 1 + Z.of_nat n <= 12)%Z.
Proof. intros -> (v & Hv & _). apply lookup_lt_Some in Hv. cbn in Hv. lia. Qed.

(** ** C139 *)

(** A date as RFC 7231 writes it is read as the second it names. *)
Theorem C139_date tz s x : is_date s x -> read_date tz x = Some s.
Proof.
  intros (y & m & d & h & mi & se & wd & mo & Hy & Hm & (len & Hlen & Hd) & Hh & Hmi & Hse & -> & Hwd & Hmo & ->).
  assert (Hdi : days_in m y = len). { pose proof (month_length_is y m _ Hm eq_refl) as E. congruence. }
  assert (Hd31 : (d <= 31)%Z) by (destruct (days_in_le m y) as [?|[?|?]]; lia).
  assert (Hd' : (1 <= d <= days_in m y)%Z) by (by rewrite Hdi).
  assert (N2 : forall z r, (0 <= z < 100)%Z -> get_num 2 (two z ++ r) = Some (z, r)).
  { intros z r Hz. rewrite <- two_eq by done. apply get_num_append; [lia|exact Hz]. }
  assert (N4 : forall z r, (0 <= z < 10000)%Z -> get_num 4 (four z ++ r) = Some (z, r)).
  { intros z r Hz. rewrite <- four_eq by done. apply get_num_append; [lia|exact Hz]. }
  assert (LD : forall r, exists i, look 0 short_days (wd ++ r) = Some (i, r)).
  { intros r. apply elem_of_list_lookup_2 in Hwd. unfold day_names in Hwd. rewrite !elem_of_cons, elem_of_nil in Hwd.
    destruct Hwd as [->|[->|[->|[->|[->|[->|[->|[]]]]]]]]; eexists; reflexivity. }
  assert (LM : forall r, look 1 short_months (mo ++ r) = Some (m, r)).
  { intros r. destruct (month_cases m Hm) as [->|[->|[->|[->|[->|[->|[->|[->|[->|[->|[->| ->]]]]]]]]]]];
      vm_compute in Hmo; injection Hmo as <-; reflexivity. }
  assert (SK : forall c r, Ascii.eqb c " "%char = false -> skip_space (B" " ++ c :: r) = Some (c :: r)).
  { intros c r H. cbn. by rewrite H. }
  assert (SD : forall z r, (0 <= z < 100)%Z -> skip_space (B" " ++ two z ++ r) = Some (two z ++ r)).
  { intros z r Hz. apply (SK (digit (z / 10)) (digit (z mod 10) :: r)).
    assert (0 <= z / 10 < 10)%Z by (split; [apply Z.div_pos; lia|apply Z.div_lt_upper_bound; lia]).
    apply Ascii.eqb_neq. intros E. apply (f_equal N_of_ascii) in E. unfold digit in E. rewrite N_ascii_embedding in E by lia. change (N_of_ascii " "%char) with 32%N in E. lia. }
  assert (SM : forall r, skip_space (B" " ++ mo ++ r) = Some (mo ++ r)).
  { intros r. apply elem_of_list_lookup_2 in Hmo. unfold month_names in Hmo. rewrite !elem_of_cons, elem_of_nil in Hmo.
    destruct Hmo as [->|[->|[->|[->|[->|[->|[->|[->|[->|[->|[->|[->|[]]]]]]]]]]]]]; reflexivity. }
  assert (SY : forall r, skip_space (B" " ++ four y ++ r) = Some (four y ++ r)).
  { intros r. unfold four. rewrite <- app_assoc. apply SD. split; [apply Z.div_pos; lia|apply Z.div_lt_upper_bound; lia]. }
  unfold read_date, imf_date, get_clock, date_secs. destruct (LD (B", " ++ two d ++ B" " ++ mo ++ B" " ++ four y ++ B" " ++ two h ++ B":" ++ two mi ++ B":" ++ two se ++ B" GMT")) as [i ->].
  cbn [mbind option_bind]. change (B", " ++ ?r) with (","%char :: B" " ++ r). cbn [expect]. change (Ascii.eqb ","%char ","%char) with true. cbv iota. cbn [mbind option_bind].
  rewrite SD by lia. cbn [mbind option_bind]. rewrite N2 by lia. cbn [mbind option_bind]. rewrite SM. cbn [mbind option_bind].
  rewrite LM. cbn [mbind option_bind]. rewrite SY. cbn [mbind option_bind]. rewrite N4 by lia. cbn [mbind option_bind].
  rewrite SD by lia. cbn [mbind option_bind]. unfold get_hour. rewrite N2 by lia. cbn [mbind option_bind].
  change (B":" ++ ?r) with (colon :: r). cbn [expect]. change (Ascii.eqb colon colon) with true. cbv iota. cbn [mbind option_bind].
  rewrite N2 by lia. cbn [mbind option_bind]. change (expect colon (B":" ++ two se ++ B" GMT")) with (Some (two se ++ B" GMT")). cbn [mbind option_bind].
  rewrite N2 by lia. cbn [mbind option_bind].
  change (get_frac (B" GMT")) with (Some (0%Z, B" GMT")). cbn [mbind option_bind].
  change (skip_space (B" GMT")) with (Some (B"GMT")). cbn [mbind option_bind].
  change (expect "G"%char (B"GMT")) with (Some (B"MT")). cbn [mbind option_bind].
  change (expect "M"%char (B"MT")) with (Some (B"T")). cbn [mbind option_bind].
  change (expect "T"%char (B"T")) with (Some (@nil ascii)). cbn [mbind option_bind].
  assert (Hok : ((h <? 24) && (mi <? 60) && (se <? 60) && (1 <=? d) && (d <=? days_in m y))%Z = true).
  { rewrite !andb_true_iff, !Z.leb_le, !Z.ltb_lt. lia. }
  rewrite Hok, day_number_is by done. change (day_number 1970 1 1) with (unix_day + 1)%Z. f_equal. lia.
Qed.

(** What is read in each of the three layouts of http.ParseTime, exactly. *)
Lemma get_num_ne k s x : 0 < k -> get_num k s = Some x -> s <> [].
Proof. intros Hk H ->. destruct k; [lia|done]. Qed.
Lemma get_hour_ne s x : get_hour s = Some x -> s <> [].
Proof. by intros H ->. Qed.
Lemma get_clock_ne s x : get_clock s = Some x -> s <> [].
Proof. by intros H ->. Qed.
Lemma look_months_ne s x : look 1 short_months s = Some x -> s <> [].
Proof. by intros H ->. Qed.
Lemma one_space : spaces (B" ").
Proof. split; [done|by repeat constructor]. Qed.
Ltac all_tac := repeat (apply List.Forall_cons; [first [assumption|exact one_space|split; [done|by repeat constructor]]|]); apply List.Forall_nil.
Theorem C139_imf x s : imf_date x = Some s <-> exists t, imf_loose t x /\ real_moment t /\ s = moment_secs t.
Proof.
  split.
  - unfold imf_date. destruct (look 0 short_days x) as [[k s1]|] eqn:E1; [|done]. cbn [mbind option_bind]. destruct (expect ","%char s1) as [s2|] eqn:E2; [|done]. cbn [mbind option_bind].
    destruct (skip_space s2) as [s3|] eqn:E3; [|done]. cbn [mbind option_bind]. destruct (get_num 2 s3) as [[d s4]|] eqn:E4; [|done]. cbn [mbind option_bind].
    destruct (skip_space s4) as [s5|] eqn:E5; [|done]. cbn [mbind option_bind]. destruct (look 1 short_months s5) as [[m s6]|] eqn:E6; [|done]. cbn [mbind option_bind].
    destruct (skip_space s6) as [s7|] eqn:E7; [|done]. cbn [mbind option_bind]. destruct (get_num 4 s7) as [[y s8]|] eqn:E8; [|done]. cbn [mbind option_bind].
    destruct (skip_space s8) as [s9|] eqn:E9; [|done]. cbn [mbind option_bind]. destruct (get_clock s9) as [[[[hh mm] ss] s10]|] eqn:E10; [|done]. cbn [mbind option_bind].
    destruct (skip_space s10) as [s11|] eqn:E11; [|done]. cbn [mbind option_bind]. destruct (expect "G"%char s11) as [s12|] eqn:E12; [|done]. cbn [mbind option_bind].
    destruct (expect "M"%char s12) as [s13|] eqn:E13; [|done]. cbn [mbind option_bind]. destruct (expect "T"%char s13) as [s14|] eqn:E14; [|done]. cbn [mbind option_bind].
    destruct s14; [|done]. intros H.
    apply expect_iff in E14 as ->. apply expect_iff in E13 as ->. apply expect_iff in E12 as ->.
    apply skip_is in E11 as (p5 & P5 & -> & _); [|done]. pose proof (get_clock_ne _ _ E10) as N10. apply get_clock_is in E10 as (c & -> & _ & Hc & Hp).
    apply skip_is in E9 as (p4 & P4 & -> & _); [|done]. pose proof (get_num_ne 4 _ _ ltac:(lia) E8). apply get_num_iff in E8 as (wy & -> & Hy).
    apply skip_is in E7 as (p3 & P3 & -> & _); [|done]. pose proof (look_months_ne _ _ E6). apply look_is in E6 as (j & mo & -> & -> & Hmo).
    apply skip_is in E5 as (p2 & P2 & -> & _); [|done]. pose proof (get_num_ne 2 _ _ ltac:(lia) E4). apply get_num_iff in E4 as (wd & -> & Hd).
    apply skip_is in E3 as (p1 & P1 & -> & _); [|done]. apply expect_iff in E2 as ->. apply look_is in E1 as (i & w & _ & -> & Hw).
    apply date_secs_iff in H as [Hr ->]; [|by eapply month_range|done]. exists (Moment y (1 + Z.of_nat j) d hh mm ss). split; [|done].
    exists i, w, p1, wd, p2, mo, p3, wy, p4, c, p5. cbn [mo_year mo_month mo_day]. replace (Z.to_nat (1 + Z.of_nat j - 1)) with j by lia.
    split_and!; try done. all_tac.
  - intros ([y m d hh mm ss] & (k & w & p1 & wd & p2 & mo & p3 & wy & p4 & c & p5 & -> & Hw & Hd & Hmo & Hy & Hc & Hsp) & Hr & ->).
    cbn [mo_year mo_month mo_day] in *. rewrite !List.Forall_cons_iff in Hsp. destruct Hsp as (P1 & P2 & P3 & P4 & P5 & _).
    pose proof Hr as Hr'. destruct Hr as (Hm & _ & Hh & Hi & Hs). cbn [mo_month mo_hour mo_min mo_sec] in *.
    unfold imf_date. rewrite (look_names short_days 0 k w _ apart_days Hw). cbn [mbind option_bind]. rewrite (proj2 (expect_iff ","%char _ _)) by reflexivity. cbn [mbind option_bind].
    rewrite (skip_spaces p1) by (done || (eapply numeral_no_space; [|exact Hd]; lia)). cbn [mbind option_bind]. rewrite (proj2 (get_num_iff 2 _ d _)) by eauto. cbn [mbind option_bind].
    rewrite (skip_spaces p2) by (done || by eapply names_head; [exact apart_months|done|exact Hmo]). cbn [mbind option_bind].
    rewrite (look_names short_months 1 _ mo _ apart_months Hmo). cbn [mbind option_bind].
    rewrite (skip_spaces p3) by (done || (eapply numeral_no_space; [|exact Hy]; lia)). cbn [mbind option_bind]. rewrite (proj2 (get_num_iff 4 _ y _)) by eauto. cbn [mbind option_bind].
    rewrite (skip_spaces p4) by (done || by eapply clock_no_space). cbn [mbind option_bind]. rewrite (get_clock_of _ c _ (spaces_no_digit p5 _ P5) Hc). cbn [mbind option_bind mo_hour mo_min mo_sec].
    rewrite (skip_spaces p5) by done. cbn [mbind option_bind]. rewrite (proj2 (expect_iff "G"%char _ _)) by reflexivity. cbn [mbind option_bind].
    rewrite (proj2 (expect_iff "M"%char _ _)) by reflexivity. cbn [mbind option_bind]. rewrite (proj2 (expect_iff "T"%char _ _)) by reflexivity. cbn [mbind option_bind].
    replace (1 + Z.of_nat (Z.to_nat (m - 1)))%Z with m by lia. apply date_secs_iff; [done|lia|done].
Qed.
Theorem C139_rfc850 tz x s : (forall t, tz [] t = None) ->
  rfc850_date tz x = Some s <-> exists t z, rfc850_loose t x z /\ real_moment t /\ tz z (moment_secs t) = Some s.
Proof.
  intros Hz0. split.
  - unfold rfc850_date. destruct (look 0 long_days x) as [[k s1]|] eqn:E1; [|done]. cbn [mbind option_bind]. destruct (expect ","%char s1) as [s2|] eqn:E2; [|done]. cbn [mbind option_bind].
    destruct (skip_space s2) as [s3|] eqn:E3; [|done]. cbn [mbind option_bind]. destruct (get_num 2 s3) as [[d s4]|] eqn:E4; [|done]. cbn [mbind option_bind].
    destruct (expect c_dash s4) as [s5|] eqn:E5; [|done]. cbn [mbind option_bind]. destruct (look 1 short_months s5) as [[m s6]|] eqn:E6; [|done]. cbn [mbind option_bind].
    destruct (expect c_dash s6) as [s7|] eqn:E7; [|done]. cbn [mbind option_bind]. destruct (get_signed s7) as [[y s8]|] eqn:E8; [|done]. cbn [mbind option_bind].
    destruct (skip_space s8) as [s9|] eqn:E9; [|done]. cbn [mbind option_bind]. destruct (get_clock s9) as [[[[hh mm] ss] s10]|] eqn:E10; [|done]. cbn [mbind option_bind].
    destruct (skip_space s10) as [z|] eqn:E11; [|done]. cbn [mbind option_bind]. destruct (date_secs _ _ _ _ _ _) as [u|] eqn:H; [|done]. cbn [mbind option_bind]. intros Htz.
    apply skip_is in E11 as (p3 & P3 & -> & Hz); [|intros ->; by rewrite Hz0 in Htz]. pose proof (get_clock_ne _ _ E10) as N10. apply get_clock_is in E10 as (c & -> & _ & Hc & Hp).
    apply skip_is in E9 as (p2 & P2 & -> & _); [|done]. apply signed_iff in E8 as (wy & -> & Hy). apply expect_iff in E7 as ->.
    apply look_is in E6 as (j & mo & -> & -> & Hmo). apply expect_iff in E5 as ->. pose proof (get_num_ne 2 _ _ ltac:(lia) E4). apply get_num_iff in E4 as (wd & -> & Hd).
    apply skip_is in E3 as (p1 & P1 & -> & _); [|done]. apply expect_iff in E2 as ->. apply look_is in E1 as (i & w & _ & -> & Hw).
    apply date_secs_iff in H as [Hr ->]; [|by eapply month_range|done]. exists (Moment (full_year y) (1 + Z.of_nat j) d hh mm ss), z. split; [|done].
    exists i, w, p1, wd, mo, wy, y, p2, c, p3. cbn [mo_year mo_month mo_day]. replace (Z.to_nat (1 + Z.of_nat j - 1)) with j by lia.
    split_and!; try done; [|all_tac]. unfold full_year. destruct (Z.leb_spec 69 y); [rewrite decide_True by lia; done|rewrite decide_False by lia; done].
  - intros ([y m d hh mm ss] & z & (k & w & p1 & wd & mo & wy & yy & p2 & c & p3 & -> & Hw & Hd & Hmo & Hy & Ey & Hc & Hsp & Hz) & Hr & Htz).
    cbn [mo_year mo_month mo_day] in *. rewrite !List.Forall_cons_iff in Hsp. destruct Hsp as (P1 & P2 & P3 & _).
    pose proof Hr as Hr'. destruct Hr as (Hm & _ & Hh & Hi & Hs). cbn [mo_month mo_hour mo_min mo_sec] in *.
    unfold rfc850_date. rewrite (look_names long_days 0 k w _ apart_long Hw). cbn [mbind option_bind]. rewrite (proj2 (expect_iff ","%char _ _)) by reflexivity. cbn [mbind option_bind].
    rewrite (skip_spaces p1) by (done || (eapply numeral_no_space; [|exact Hd]; lia)). cbn [mbind option_bind]. rewrite (proj2 (get_num_iff 2 _ d _)) by eauto. cbn [mbind option_bind].
    rewrite (proj2 (expect_iff c_dash _ _)) by reflexivity. cbn [mbind option_bind].
    rewrite (look_names short_months 1 _ mo _ apart_months Hmo). cbn [mbind option_bind]. rewrite (proj2 (expect_iff c_dash _ _)) by reflexivity. cbn [mbind option_bind].
    rewrite (proj2 (signed_iff _ yy (p2 ++ c ++ p3 ++ z))) by eauto. cbn [mbind option_bind].
    rewrite (skip_spaces p2) by (done || by eapply clock_no_space). cbn [mbind option_bind]. rewrite (get_clock_of _ c _ (spaces_no_digit p3 _ P3) Hc). cbn [mbind option_bind mo_hour mo_min mo_sec].
    rewrite (skip_spaces p3) by done. cbn [mbind option_bind]. replace (1 + Z.of_nat (Z.to_nat (m - 1)))%Z with m by lia.
    assert (E : full_year yy = y). { rewrite Ey. unfold full_year. destruct (Z.leb_spec 69 yy); [rewrite decide_True by lia; done|rewrite decide_False by lia; done]. }
    rewrite E, (proj2 (date_secs_iff y m d hh mm ss _ Hm ltac:(lia)) (conj Hr' eq_refl)). done.
Qed.
Theorem C139_asctime x s : asctime_date x = Some s <-> exists t, asctime_loose t x /\ real_moment t /\ s = moment_secs t.
Proof.
  split.
  - unfold asctime_date. destruct (look 0 short_days x) as [[k s1]|] eqn:E1; [|done]. cbn [mbind option_bind].
    destruct (skip_space s1) as [s5|] eqn:E5; [|done]. cbn [mbind option_bind]. destruct (look 1 short_months s5) as [[m s6]|] eqn:E6; [|done]. cbn [mbind option_bind].
    destruct (skip_space s6) as [s3|] eqn:E3; [|done]. cbn [mbind option_bind]. destruct (get_hour s3) as [[d s4]|] eqn:E4; [|done]. cbn [mbind option_bind].
    destruct (skip_space s4) as [s9|] eqn:E9; [|done]. cbn [mbind option_bind]. destruct (get_clock s9) as [[[[hh mm] ss] s10]|] eqn:E10; [|done]. cbn [mbind option_bind].
    destruct (skip_space s10) as [s7|] eqn:E7; [|done]. cbn [mbind option_bind]. destruct (get_num 4 s7) as [[y s8]|] eqn:E8; [|done]. cbn [mbind option_bind].
    destruct s8; [|done]. intros H.
    pose proof (get_num_ne 4 _ _ ltac:(lia) E8). apply get_num_iff in E8 as (wy & -> & Hy). rewrite app_nil_r in *.
    apply skip_is in E7 as (p4 & P4 & -> & _); [|done]. pose proof (get_clock_ne _ _ E10) as N10. apply get_clock_is in E10 as (c & -> & _ & Hc & Hp).
    apply skip_is in E9 as (p3 & P3 & -> & _); [|done]. pose proof (get_hour_ne _ _ E4). apply get_hour_is in E4 as (wd & -> & Hd).
    apply skip_is in E3 as (p2 & P2 & -> & _); [|done]. pose proof (look_months_ne _ _ E6). apply look_is in E6 as (j & mo & -> & -> & Hmo).
    apply skip_is in E5 as (p1 & P1 & -> & _); [|done]. apply look_is in E1 as (i & w & _ & -> & Hw).
    apply date_secs_iff in H as [Hr ->]; [|by eapply month_range|done]. exists (Moment y (1 + Z.of_nat j) d hh mm ss). split; [|done].
    exists i, w, p1, mo, p2, wd, p3, c, p4, wy. cbn [mo_year mo_month mo_day]. replace (Z.to_nat (1 + Z.of_nat j - 1)) with j by lia.
    split_and!; try done. all_tac.
  - intros ([y m d hh mm ss] & (k & w & p1 & mo & p2 & wd & p3 & c & p4 & wy & -> & Hw & Hmo & Hd & Hc & Hy & Hsp) & Hr & ->).
    cbn [mo_year mo_month mo_day] in *. rewrite !List.Forall_cons_iff in Hsp. destruct Hsp as (P1 & P2 & P3 & P4 & _).
    pose proof Hr as Hr'. destruct Hr as (Hm & _ & Hh & Hi & Hs). cbn [mo_month mo_hour mo_min mo_sec] in *.
    unfold asctime_date. rewrite (look_names short_days 0 k w _ apart_days Hw). cbn [mbind option_bind].
    rewrite (skip_spaces p1) by (done || by eapply names_head; [exact apart_months|done|exact Hmo]). cbn [mbind option_bind].
    rewrite (look_names short_months 1 _ mo _ apart_months Hmo). cbn [mbind option_bind].
    rewrite (skip_spaces p2) by (done || (destruct Hd as [Hd|Hd]; (eapply numeral_no_space; [|exact Hd]; lia))). cbn [mbind option_bind].
    rewrite (get_hour_of wd d _ (spaces_no_digit p3 _ P3) Hd). cbn [mbind option_bind].
    rewrite (skip_spaces p3) by (done || by eapply clock_no_space). cbn [mbind option_bind]. rewrite (get_clock_of _ c _ (spaces_no_digit p4 _ P4) Hc). cbn [mbind option_bind mo_hour mo_min mo_sec].
    assert (Ny : head wy <> Some " "%char). { rewrite <- (app_nil_r wy). eapply numeral_no_space; [|exact Hy]; lia. }
    rewrite (skip_spaces p4) by done. cbn [mbind option_bind]. rewrite (proj2 (get_num_iff 4 wy y [])) by (exists wy; by rewrite app_nil_r). cbn [mbind option_bind].
    replace (1 + Z.of_nat (Z.to_nat (m - 1)))%Z with m by lia. apply date_secs_iff; [done|lia|done].
Qed.

(** The obsolete forms are read as what they mean; the two digits of the year
    as one of 1969 to 2068. *)
Lemma two_numeral z : (0 <= z < 100)%Z -> numeral 2 (two z) z.
Proof.
  intros Hz. destruct (proj1 (get_num_iff 2 (two z) z [])) as (d & E & H); [|by rewrite app_nil_r in E; subst d].
  rewrite <- (app_nil_r (two z)), <- two_eq by done. apply get_num_append; [lia|exact Hz].
Qed.
Lemma four_numeral z : (0 <= z < 10000)%Z -> numeral 4 (four z) z.
Proof.
  intros Hz. destruct (proj1 (get_num_iff 4 (four z) z [])) as (d & E & H); [|by rewrite app_nil_r in E; subst d].
  rewrite <- (app_nil_r (four z)), <- four_eq by done. apply get_num_append; [lia|exact Hz].
Qed.
Lemma one_numeral z : (0 <= z < 10)%Z -> numeral 1 [digit z] z.
Proof.
  intros Hz. destruct (proj1 (get_num_iff 1 [digit z] z [])) as (d & E & H); [|by rewrite app_nil_r in E; subst d].
  assert (Hc : (z = 0 \/ z = 1 \/ z = 2 \/ z = 3 \/ z = 4 \/ z = 5 \/ z = 6 \/ z = 7 \/ z = 8 \/ z = 9)%Z) by lia.
  destruct Hc as [->|[->|[->|[->|[->|[->|[->|[->|[->| ->]]]]]]]]]; by vm_compute.
Qed.
Lemma clock_loose t : real_moment t -> clock_text t (clock t).
Proof.
  intros (_ & _ & Hh & Hi & Hs). exists (two (mo_hour t)), (two (mo_min t)), (two (mo_sec t)), [], 0%Z. rewrite app_nil_r.
  split; [done|]. split; [left; apply two_numeral; lia|]. split; [apply two_numeral; lia|]. split; [apply two_numeral; lia|constructor].
Qed.
Lemma names_self tab n v : tab !! n = Some v -> names tab n v.
Proof. intros H. exists v. split; [done|]. clear. induction v; constructor; [by left|done]. Qed.
Lemma fourth_long n w r : names long_days n w -> exists c, (w ++ r) !! 3 = Some c /\ c <> " "%char /\ c <> ","%char.
Proof.
  intros (v & Hv & Hw). apply elem_of_list_lookup_2 in Hv.
  assert (Hh : exists c, v !! 3 = Some c /\ (97 <= N_of_ascii c <= 122)%N).
  { unfold long_days in Hv. rewrite !elem_of_cons, elem_of_nil in Hv.
    destruct Hv as [->|[->|[->|[->|[->|[->|[->|[]]]]]]]]; eexists; (split; [reflexivity|vm_compute; split; discriminate]). }
  destruct Hh as (c & Hc & Hn). destruct (Forall2_lookup_r _ _ _ _ _ Hw Hc) as (a & Ha & Hs). exists a. split; [by apply lookup_app_l_Some|].
  assert (N_of_ascii a <> 32%N /\ N_of_ascii a <> 44%N) as [A1 A2] by (destruct Hs as [->|(k & Hk & H)]; lia).
  by split; intros ->.
Qed.
Lemma fourth_short n w c r : names short_days n w -> (w ++ c :: r) !! 3 = Some c.
Proof.
  intros (v & Hv & Hw). assert (El : length w = 3).
  { rewrite (Forall2_length _ _ _ Hw). apply elem_of_list_lookup_2 in Hv. unfold short_days in Hv. rewrite !elem_of_cons, elem_of_nil in Hv.
    by destruct Hv as [->|[->|[->|[->|[->|[->|[->|[]]]]]]]]. }
  rewrite <- El at 1. by rewrite list_lookup_middle.
Qed.
Lemma imf_fourth x s : imf_date x = Some s -> x !! 3 = Some ","%char.
Proof.
  intros (t & (k & w & p1 & d & p2 & mo & p3 & y & p4 & c & p5 & -> & Hw & _) & _)%C139_imf. by eapply fourth_short.
Qed.
Lemma rfc850_fourth tz x s : rfc850_date tz x = Some s -> x !! 3 <> Some " "%char.
Proof.
  unfold rfc850_date. destruct (look 0 long_days x) as [[k s1]|] eqn:E1; [|done]. intros _.
  apply look_is in E1 as (n & w & _ & -> & Hw). destruct (fourth_long n w s1 Hw) as (c & Ec & Hc & _). intros E. pose proof (eq_trans (eq_sym Ec) E) as [= ->]. done.
Qed.
Theorem C139_obsolete tz t x :
  (forall s, tz [] s = None) -> (forall s, tz (B"GMT") s = Some s) -> real_moment t ->
  (rfc850_text t x /\ (1969 <= mo_year t <= 2068)%Z) \/ (asctime_text t x /\ (0 <= mo_year t <= 9999)%Z) ->
  read_date tz x = Some (moment_secs t).
Proof.
  intros Hz0 Hz Hr Hx. pose proof Hr as ((Hm1 & Hm2) & (len & Hlen & Hd) & _).
  assert (Hdi : days_in (mo_month t) (mo_year t) = len). { pose proof (month_length_is (mo_year t) (mo_month t) _ (conj Hm1 Hm2) eq_refl) as E. congruence. }
  assert (Hd31 : (mo_day t <= 31)%Z) by (destruct (days_in_le (mo_month t) (mo_year t)) as [?|[?|?]]; lia).
  unfold read_date. destruct Hx as [[(wd & mo & Hwd & Hmo & ->) Hy]|[(wd & mo & Hwd & Hmo & ->) Hy]].
  - destruct (imf_date _) as [s|] eqn:E.
    { exfalso. apply imf_fourth in E. destruct (fourth_long _ wd (B", " ++ two (mo_day t) ++ B"-" ++ mo ++ B"-" ++ two (mo_year t mod 100) ++ B" " ++ clock t ++ B" GMT") (names_self _ _ _ Hwd)) as (c & Ec & _ & Hc).
      pose proof (eq_trans (eq_sym Ec) E) as [= ->]. done. }
    rewrite (proj2 (C139_rfc850 tz _ (moment_secs t) Hz0)); [done|]. exists t, (B"GMT"). split; [|by rewrite Hz].
    exists (weekday t), wd, (B" "), (two (mo_day t)), mo, (two (mo_year t mod 100)), (mo_year t mod 100)%Z, (B" "), (clock t), (B" ").
    split_and!; try done.
    + by apply names_self.
    + apply two_numeral; lia.
    + by apply names_self.
    + apply sg_plain, two_numeral. apply Z.mod_pos_bound. lia.
    + destruct (decide (mo_year t < 2000)%Z) as [Hlt|Hge].
      * assert (E' : (mo_year t mod 100 = mo_year t - 1900)%Z) by (symmetry; apply (Z.mod_unique_pos _ _ 19); lia). rewrite decide_True; lia.
      * assert (E' : (mo_year t mod 100 = mo_year t - 2000)%Z) by (symmetry; apply (Z.mod_unique_pos _ _ 20); lia). rewrite decide_False; lia.
    + by apply clock_loose.
    + all_tac.
  - assert (H3 : forall r, (wd ++ B" " ++ r) !! 3 = Some " "%char) by (intros r; eapply fourth_short, names_self, Hwd).
    destruct (imf_date _) as [s|] eqn:E. { exfalso. apply imf_fourth in E. pose proof (eq_trans (eq_sym (H3 _)) E) as [=]. }
    destruct (rfc850_date _ _) as [s|] eqn:E2. { exfalso. apply rfc850_fourth in E2. apply E2, H3. }
    apply C139_asctime. exists t. split; [|done].
    exists (weekday t), wd, (B" "), mo, (if decide (mo_day t < 10)%Z then B"  " else B" "), (if decide (mo_day t < 10)%Z then [digit (mo_day t)] else two (mo_day t)), (B" "), (clock t), (B" "), (four (mo_year t)).
    split_and!.
    + by destruct (decide (mo_day t < 10)%Z).
    + by apply names_self.
    + by apply names_self.
    + destruct (decide (mo_day t < 10)%Z); [right; apply one_numeral; lia|left; apply two_numeral; lia].
    + by apply clock_loose.
    + apply four_numeral; lia.
    + destruct (decide (mo_day t < 10)%Z); all_tac.
Qed.
(** A date in one of the three forms. *)
Definition http_date (s : Z) (x : bytes) : Prop :=
  is_date s x \/ exists t, real_moment t /\ s = moment_secs t /\
    ((rfc850_text t x /\ (1969 <= mo_year t <= 2068)%Z) \/ (asctime_text t x /\ (0 <= mo_year t <= 9999)%Z)).
(** Of the zone of an RFC 850 date: none is none, and GMT is GMT. *)
Definition gmt (tz : bytes -> Z -> option Z) : Prop := (forall s, tz [] s = None) /\ (forall s, tz (B"GMT") s = Some s).
Theorem C139_dates tz s x : gmt tz -> http_date s x -> read_date tz x = Some s.
Proof. intros [H1 H2] [H|(t & Hr & -> & H)]; [by apply C139_date|by apply C139_obsolete]. Qed.
(** RFC 7231 has a two-digit year more than 50 years ahead of the clock mean the
    past century and no other; net/http does not look at the clock. *)
Theorem C139_two_digits_refuted :
  exists clock_year t x, real_moment t /\ rfc850_text t x /\ (clock_year - 50 < mo_year t <= clock_year + 50)%Z /\
    read_date (fun _ s => Some s) x <> Some (moment_secs t).
Proof.
  exists 2020%Z, (Moment 2069 1 1 0 0 0), (B"Tuesday, 01-Jan-69 00:00:00 GMT"). split.
  { split; [cbn; lia|]. split; [exists 31%Z; split; [done|cbn; lia]|cbn; lia]. }
  split; [exists (B"Tuesday"), (B"Jan"); by vm_compute|]. split; [cbn; lia|]. by vm_compute.
Qed.

(** A list of entity tags is read as these tags; "*" as any. *)
Theorem C139_tags x l : tag_list x l -> x <> [] -> read_tags x = Tags l.
Proof. intros H Hx. unfold read_tags. destruct x as [|c x]; [done|]. by eapply read_loop_list. Qed.
Theorem C139_star w w' : ows w -> ows w' -> read_tags (w ++ B"*" ++ w') = AnyTag.
Proof.
  intros Hw Hw'. unfold read_tags. destruct (w ++ B"*" ++ w') as [|c x] eqn:E; [by destruct w|]. cbn [length read_loop]. rewrite <- E.
  rewrite (trim_string_ows w _ Hw). cbn [app B list_ascii_of_string]. by rewrite trim_string_fixed.
Qed.
(** If-None-Match in older versions of Go: a list without empty elements is read
    alike; a comma at the end, which RFC 7230 has recipients accept, is a panic. *)
Inductive sender_list : bytes -> list bytes -> Prop :=
  | sl_one w t w' : ows w -> entity_tag t -> ows w' -> sender_list (w ++ t ++ w') [t]
  | sl_more w t w' s l : ows w -> entity_tag t -> ows w' -> sender_list s l -> sender_list (w ++ t ++ w' ++ B"," ++ s) (t :: l).
Lemma tag_no_match t : entity_tag t -> weak_match t own_tag = false.
Proof. intros (w & cs & [-> | ->] & _ & ->); vm_compute; done. Qed.
Lemma trim_string_tag t r : entity_tag t -> trim_string (t ++ r) = t ++ trim_right r.
Proof.
  intros Ht. destruct (tag_shape t Ht) as (c & u & E & Hs & _ & _ & Hr). rewrite trim_string_eq.
  assert (El : trim_left (t ++ r) = t ++ r) by (rewrite E; by apply trim_left_stop). by rewrite El, Hr.
Qed.
Lemma trim_left_right s : trim_left (trim_right (trim_left s)) = trim_right (trim_left s).
Proof.
  induction s as [|c s IH]; [done|]. cbn [trim_left]. destruct (ascii_space c) eqn:E; [done|]. rewrite trim_right_cons by done. by apply trim_left_stop.
Qed.
Lemma trim_string_idem s : trim_string (trim_string s) = trim_string s.
Proof. rewrite !trim_string_eq. by rewrite trim_left_right, trim_right_idem. Qed.
Lemma sender_is_list s l : sender_list s l -> tag_list s l.
Proof.
  induction 1 as [w t w' Hw Ht Hw'|w t w' s l Hw Ht Hw' _ IH].
  - apply tl_tag; [done|done|by left|by constructor].
  - apply tl_tag; [done|done|right; by exists w', s|by apply tl_comma].
Qed.
Lemma sender_first s l : sender_list s l -> exists c u, trim_right s = c :: u /\ Ascii.eqb c "*"%char = false.
Proof.
  assert (H : forall w t r, ows w -> entity_tag t -> exists c u, trim_right (w ++ t ++ r) = c :: u /\ Ascii.eqb c "*"%char = false).
  { intros w t r Hw Ht. destruct (tag_shape t Ht) as (c & u & E & _ & _ & H2 & Hr). rewrite trim_right_app, Hr, E. cbn [app].
    destruct Hw as [|x w Hx _]; [by eexists _, _|]. cbn [app]. eexists _, _. split; [reflexivity|]. by destruct Hx as [-> | ->]. }
  destruct 1; by apply H.
Qed.
Lemma old_list s l : sender_list s l -> forall n buf, trim_string buf = trim_string s ->
  match scan_etag buf with None => Some CTrue | Some (t, r) => if weak_match t own_tag then Some CFalse else none_loop_old n r end = Some CTrue.
Proof.
  induction 1 as [w t w' Hw Ht Hw'|w t w' s l Hw Ht Hw' Hs IH]; intros n buf E.
  - assert (Eb : scan_etag buf = Some (t, trim_right w')).
    { rewrite <- (scan_etag_tag t w' Ht). unfold scan_etag. rewrite E, trim_string_ows by done. by rewrite <- (trim_string_tag t w' Ht), trim_string_idem. }
    rewrite Eb, tag_no_match by done. destruct n as [|n]; [done|]. cbn [none_loop_old]. rewrite trim_string_right.
    rewrite <- (app_nil_r w'), trim_string_ows by done. done.
  - assert (Eb : scan_etag buf = Some (t, trim_right (w' ++ B"," ++ s))).
    { rewrite <- (scan_etag_tag t _ Ht). unfold scan_etag. rewrite E, trim_string_ows by done. by rewrite <- (trim_string_tag t _ Ht), trim_string_idem. }
    rewrite Eb, tag_no_match by done. destruct n as [|n]; [done|]. cbn [none_loop_old]. rewrite trim_string_right, trim_string_ows by done.
    cbn [app B list_ascii_of_string]. rewrite trim_string_fixed by done. change (Ascii.eqb ","%char ","%char) with true. cbv iota.
    destruct (sender_first s l Hs) as (d & u & Ed & Hd). rewrite Ed, Hd. apply (IH n). rewrite <- Ed. apply trim_string_right.
Qed.
Theorem C139_old_none x l : sender_list x l -> none_text_old x = Some CTrue /\ none_text x = CTrue.
Proof.
  intros H. destruct (sender_first x l H) as (c & u & E & _). assert (Hx : x <> []) by (intros ->; done). split.
  - unfold none_text_old. destruct x as [|a x]; [done|]. cbn [length none_loop_old].
    assert (Ht : exists c v, trim_string (a :: x) = c :: v /\ Ascii.eqb c ","%char = false /\ Ascii.eqb c "*"%char = false).
    { clear E. destruct H as [w t w' Hw Ht _|w t w' s l Hw Ht _ _]; rewrite trim_string_ows by done; rewrite trim_string_tag by done;
        destruct (tag_shape t Ht) as (c' & u' & -> & _ & H1 & H2 & _); by eexists _, _. }
    destruct Ht as (c' & v & Et & H1 & H2). rewrite Et, H1, H2. apply (old_list _ _ H). by rewrite <- Et, trim_string_idem.
  - rewrite <- (read_none x (Conds NoTags None (read_tags x) IfNone) eq_refl).
    unfold check_none. cbn [k_none]. rewrite (C139_tags x l (sender_is_list _ _ H)) by done.
    assert (Hl : Forall entity_tag l) by (clear -H; induction H; by repeat constructor).
    assert (Ex : existsb (fun t => weak_match t own_tag) l = false) by (clear -Hl; induction Hl as [|t l Ht _ IH]; [done|]; cbn [existsb]; by rewrite tag_no_match, IH).
    by rewrite Ex.
Qed.
Theorem C139_old_none_refuted : exists x l, tag_list x l /\ none_text_old x = None.
Proof.
  exists (B"""a"","), [B"""a"""]. split; [|by vm_compute].
  apply (tl_tag [] (B"""a""") (B",") []); [constructor| | |].
  - exists [], (B"a"). split; [by left|]. split; [|done]. constructor; [|constructor]. right. left. by vm_compute.
  - right. exists [], []. split; [constructor|done].
  - apply (tl_comma [] []); constructor; constructor.
Qed.

(** Whatever is read is made of entity tags. *)
Lemma scan_opaque_is s t r : scan_opaque s = Some (t, r) -> exists b, t = b ++ [quote].
Proof.
  revert t. induction s as [|c s IH]; intros t; [done|]. cbn [scan_opaque]. destruct (etag_byte c).
  - destruct (scan_opaque s) as [[t' r']|]; [|done]. cbn [mbind option_bind]. intros [= <- <-].
    destruct (IH t' eq_refl) as [b ->]. by exists (c :: b).
  - destruct (Ascii.eqb_spec c quote) as [->|]; [|done]. intros [= <- <-]. by exists [].
Qed.
Lemma scan_etag_is s t r : scan_etag s = Some (t, r) -> is_tag t.
Proof.
  unfold scan_etag. set (u := trim_string s). clearbody u. intros H.
  assert (Hq : forall c v w, Ascii.eqb c quote = true -> ('(t0, r0) ← scan_opaque v; Some (w ++ c :: t0, r0)) = Some (t, r) ->
    exists b, t = w ++ quote :: b ++ [quote]).
  { intros c v w Hc. apply Ascii.eqb_eq in Hc as ->. destruct (scan_opaque v) as [[t0 r0]|] eqn:E; [|done]. cbn [mbind option_bind]. intros [= <- <-].
    apply scan_opaque_is in E as [b ->]. by exists b. }
  destruct (has_prefix u (B"W/")).
  - destruct (drop 2 u) as [|c v]; [done|]. destruct (Ascii.eqb c quote) eqn:Ec; [|done]. destruct (Hq c v _ Ec H) as [b ->]. exists b. by right.
  - destruct u as [|c v]; [done|]. destruct (Ascii.eqb c quote) eqn:Ec; [|done]. destruct (Hq c v [] Ec H) as [b ->]. exists b. by left.
Qed.
Lemma read_tags_ok x : tags_ok (read_tags x).
Proof.
  unfold read_tags. destruct x as [|c x]; [done|]. generalize (length (c :: x)). generalize (c :: x). clear. intros s n. revert s.
  induction n as [|n IH]; intros s; [constructor|]. cbn [read_loop]. destruct (trim_string s) as [|c r]; [constructor|].
  destruct (Ascii.eqb c _); [apply IH|]. destruct (Ascii.eqb c _); [done|]. destruct (scan_etag (c :: r)) as [[t r']|] eqn:E; [|constructor].
  specialize (IH r'). destruct (read_loop n r'); [done|done|]. constructor; [by eapply scan_etag_is|exact IH].
Qed.
(** If-Range with a date is not taken for a tag. *)
Lemma date_no_tag s x : http_date s x -> scan_etag x = None /\ x <> [].
Proof.
  assert (H : forall c1 c2 r, ascii_space c1 = false -> Ascii.eqb c1 quote = false -> ascii_space c2 = false -> Ascii.eqb c2 "/"%char = false ->
    scan_etag (c1 :: c2 :: r) = None).
  { intros c1 c2 r H1 H2 H3 H4. unfold scan_etag. rewrite trim_string_fixed, trim_right_cons by done.
    assert (has_prefix (c1 :: c2 :: trim_right r) (B"W/") = false) as ->.
    { cbn [has_prefix B list_ascii_of_string]. apply Ascii.eqb_neq in H4. apply andb_false_intro2. apply andb_false_intro1. by apply Ascii.eqb_neq. }
    by rewrite H2. }
  assert (Hs : forall n wd r, day_names !! n = Some wd -> scan_etag (wd ++ r) = None /\ wd ++ r <> []).
  { intros n wd r Hwd. apply elem_of_list_lookup_2 in Hwd. unfold day_names in Hwd. rewrite !elem_of_cons, elem_of_nil in Hwd.
    destruct Hwd as [->|[->|[->|[->|[->|[->|[->|[]]]]]]]]; (split; [by apply H|done]). }
  assert (Hl : forall n wd r, full_day_names !! n = Some wd -> scan_etag (wd ++ r) = None /\ wd ++ r <> []).
  { intros n wd r Hwd. apply elem_of_list_lookup_2 in Hwd. unfold full_day_names in Hwd. rewrite !elem_of_cons, elem_of_nil in Hwd.
    destruct Hwd as [->|[->|[->|[->|[->|[->|[->|[]]]]]]]]; (split; [by apply H|done]). }
  intros [(y & m & d & h & mi & se & wd & mo & _ & _ & _ & _ & _ & _ & _ & Hwd & _ & ->)|(t & _ & _ & [[(wd & mo & Hwd & _ & ->) _]|[(wd & mo & Hwd & _ & ->) _]])];
    [by eapply Hs|by eapply Hl|by eapply Hs].
Qed.
Theorem C139_if_range tz s x : gmt tz -> http_date s x -> read_range tz x = IfDate s.
Proof.
  intros Hg Hx. destruct (date_no_tag s x Hx) as [E Hne]. unfold read_range. destruct x as [|c x]; [done|]. by rewrite E, (C139_dates tz s _ Hg Hx).
Qed.
Theorem C139_if_range_tag tz t : entity_tag t -> read_range tz t = IfTag t.
Proof.
  intros Ht. pose proof (scan_etag_tag t [] Ht) as H. cbn in H. rewrite app_nil_r in H. unfold read_range. rewrite H.
  destruct (tag_shape t Ht) as (c & u & -> & _). done.
Qed.

(** ** A server that reads the headers *)

Section Text.
  Context (parse : resolver) (now : gotime) (mime sniff : bytes -> bytes) (boundary : bytes) (bufsize : nat) (tz : bytes -> Z -> option Z).

  Definition only_match (x : bytes) : cheaders := CHeaders x [] [] [] [].
  Definition only_unmod (x : bytes) : cheaders := CHeaders [] x [] [] [].
  Definition only_none (x : bytes) : cheaders := CHeaders [] [] x [] [].
  Definition only_since (x : bytes) : cheaders := CHeaders [] [] [] x [].
  Definition only_range (x : bytes) : cheaders := CHeaders [] [] [] [] x.

  (** Full claim: "A client that sends the date it got in Last-Modified, or any
      date or entity tags in the form of RFC 7231 and RFC 7232, in a conditional
      header is answered as these RFCs say."  Proved under the hypotheses of C92;
      [x] is the date that was sent with the file. *)
  Theorem C139_headers_partial m r f g ds q ns fo x :
    0 < bufsize -> gmt tz -> served m r f g ds ->
    means parse (f_here f) (m_here m) g ds ns -> ns <> ds -> asks_file q ns ->
    file_at m (Path g (abs_name (ds ++ ns))) = Some fo -> d_isdir (f_info fo) = false ->
    four_digit_year (t_sec (d_mtime (f_info fo))) ->
    let plainly range := (serve (mem_server parse now r) mime sniff boundary bufsize (Request (q_head q) (q_path q) (q_query q) range None) m).2 in
    h_lastmod (r_headers (plainly [])) = Some x ->
    let ask h := (serve_h tz (mem_server parse now r) mime sniff boundary bufsize q h m).2 in
    let gone code := Response code (Headers None (Some x) None None None None None) [] in
    (ask (only_since x) = gone 304%Z /\ ask (only_unmod x) = plainly (q_range q) /\ ask (only_range x) = plainly (q_range q)) /\
    (forall s y, http_date s y ->
       ask (only_since y) = (if decide (t_sec (d_mtime (f_info fo)) <= s)%Z then gone 304%Z else plainly (q_range q)) /\
       ask (only_unmod y) = (if decide (t_sec (d_mtime (f_info fo)) <= s)%Z then plainly (q_range q) else gone 412%Z) /\
       ask (only_range y) = (if decide (t_sec (d_mtime (f_info fo)) = s) then plainly (q_range q) else plainly [])) /\
    (forall w w', ows w -> ows w' ->
       ask (only_match (w ++ B"*" ++ w')) = plainly (q_range q) /\ ask (only_none (w ++ B"*" ++ w')) = gone 304%Z) /\
    (forall y l z, tag_list y l -> y <> [] ->
       ask (only_match y) = gone 412%Z /\ ask (CHeaders [] [] y z []) = plainly (q_range q)) /\
    (forall t, entity_tag t -> ask (only_range t) = plainly []).
  Proof.
    intros Hb Hg SV Hm Hne Hq Hf Hd Hy plainly Hx ask gone. set (t := d_mtime (f_info fo)) in *.
    assert (Hq0 : asks_file (Request (q_head q) (q_path q) (q_query q) [] None) ns) by exact Hq.
    pose proof (C92_get_partial parse now mime sniff boundary bufsize m r f g ds _ ns fo (type_of mime sniff (f_info fo) (f_data fo))
      (lastmod_of t) Hb SV Hm Hne Hq0 Hf Hd eq_refl eq_refl (type_of_media _ _ _ _) (proj2 (lastmod_ok _ _) eq_refl)) as H92.
    unfold plainly in Hx. rewrite H92 in Hx. cbn [r_headers h_lastmod] in Hx. unfold lastmod_of in Hx.
    destruct (Http.zero_time t) eqn:Hz; [done|]. injection Hx as Ex.
    assert (Hlm : lastmod_header t (Some x)) by (right; by rewrite Ex).
    assert (Hnz : ~ (t_sec t = -62135596800 /\ t_nsec t = 0)%Z).
    { intros [E1 E2]. unfold Http.zero_time in Hz. rewrite E1, E2 in Hz. discriminate Hz. }
    assert (HJ : forall h, judged parse now mime sniff boundary bufsize m r (since_of tz h q) (conds_of tz h) t (Some x)).
    { intros h. apply (C136_conditions_partial parse now mime sniff boundary bufsize m r f g ds (since_of tz h q) (conds_of tz h) ns fo); try done.
      apply read_tags_ok. }
    assert (Hdx : http_date (t_sec t) x). { left. rewrite <- Ex. by apply C115_date. }
    assert (Hdates : forall s y, http_date s y ->
       ask (only_since y) = (if decide (t_sec t <= s)%Z then gone 304%Z else plainly (q_range q)) /\
       ask (only_unmod y) = (if decide (t_sec t <= s)%Z then plainly (q_range q) else gone 412%Z) /\
       ask (only_range y) = (if decide (t_sec t = s) then plainly (q_range q) else plainly [])).
    { intros s y Hs. pose proof (C139_dates tz s y Hg Hs) as Er. destruct (date_no_tag s y Hs) as [_ Hny].
      assert (Et : text_date tz y = Some s) by (unfold text_date; by destruct y).
      split; [|split].
      - destruct (HJ (only_since y)) as (_ & _ & H3).
        assert (E : ask (only_since y) = (serve (mem_server parse now r) mime sniff boundary bufsize (Request (q_head q) (q_path q) (q_query q) (q_range q) (Some s)) m).2).
        { apply H3; [right; split; [done|]; intros s' [=]|done|left; split; [by left|done]|left; split; [done|]; by symmetry]. }
        rewrite E. destruct (C96_since_partial parse now mime sniff boundary bufsize m r f g ds (Request (q_head q) (q_path q) (q_query q) (q_range q) (Some s)) ns fo s) as [C1 C2]; [done..|].
        destruct (decide (t_sec t <= s)%Z) as [Hle|Hle]; [rewrite C1 by done; unfold gone; by rewrite <- Ex|]. rewrite C2; [done|]. right. fold t. lia.
      - destruct (HJ (only_unmod y)) as (H1 & _ & H3). destruct (decide (t_sec t <= s)%Z) as [Hle|Hle].
        + apply H3; [right; split; [done|]; cbn [k_unmod conds_of only_unmod c_unmod]; rewrite Et; by intros s' [= <-]|done|left; split; [by left|done]|left; by split].
        + apply H1. intros [H|[_ H]]; [discriminate H|]. apply Hle. apply H; [exact Et|done].
      - destruct (HJ (only_range y)) as (_ & _ & H3). pose proof (C139_if_range tz s y Hg Hs) as Err.
        assert (Hp : passes (conds_of tz (only_range y)) t (Some x)) by (right; split; [done|]; intros s' [=]).
        destruct (decide (t_sec t = s)) as [Heq|Hneq].
        + apply H3; [done|done|left; split; [|done]; right; split; [cbn [k_range conds_of only_range c_range]; by rewrite Err, Heq|done]|left; by split].
        + apply H3; [done|done|right; split; [|done]; intros [H|[H _]]; cbn [k_range conds_of only_range c_range] in H; rewrite Err in H; [done|]; injection H as ->; done|left; by split]. }
    split; [|split; [exact Hdates|split; [|split]]].
    - destruct (Hdates _ _ Hdx) as (D1 & D2 & D3). rewrite D1, D2, D3. rewrite !decide_True by (done || lia). done.
    - intros w w' Hw Hw'. pose proof (C139_star w w' Hw Hw') as Es. split.
      + destruct (HJ (only_match (w ++ B"*" ++ w'))) as (_ & _ & H3). apply H3; [by left|done|left; split; [by left|done]|left; by split].
      + destruct (HJ (only_none (w ++ B"*" ++ w'))) as (_ & H2 & _). apply H2; [right; split; [done|]; intros s' [=]|exact Es].
    - intros y l z Hl Hny. pose proof (C139_tags y l Hl Hny) as Es. split.
      + destruct (HJ (only_match y)) as (H1 & _ & _). apply H1. intros [H|[H _]]; cbn [k_match conds_of only_match c_match] in H; rewrite Es in H; done.
      + destruct (HJ (CHeaders [] [] y z [])) as (_ & _ & H3).
        apply H3; [right; split; [done|]; intros s' [=]|cbn [k_none conds_of c_none]; by rewrite Es|left; split; [by left|done]|right; split; [cbn [k_none conds_of c_none]; by rewrite Es|done]].
    - intros tag Ht. destruct (HJ (only_range tag)) as (_ & _ & H3). pose proof (C139_if_range_tag tz tag Ht) as Er.
      apply H3; [right; split; [done|]; intros s' [=]|done|right; split; [|done]|left; by split].
      intros [H|[H _]]; cbn [k_range conds_of only_range c_range] in H; rewrite Er in H; done.
  Qed.
End Text.

(** Headers of any text: the packed pkger answers as http.Dir of the directory
    it was packed from (hypotheses of C95). *)
Theorem C139_same_partial gz gunzip parse hdir hpkg fs c rs mp rg uorder order decls l b now mime sniff boundary bufsize tz ds name :
  packing gz gunzip parse hdir hpkg fs c rs mp rg uorder ->
  files parse hdir fs order decls = Ok l -> Pack.inside rs l ->
  stuff parse hdir hpkg fs gz rg order c decls = Ok b ->
  packed_dir fs rs (pf_abs <$> l) ds -> 0 < bufsize ->
  parse c name = Some (Path mp (abs_name ds)) ->
  exists m' m1 r, unmarshal_embed gunzip parse uorder b = Done m' /\ open parse m' name = (m1, Ok r) /\
    forall q h ns, plain_request parse hdir hpkg c mp ds q ns ->
      (serve_h tz (mem_server parse now r) mime sniff boundary bufsize q h m1).2 =
      (serve_h tz (dir_server fs (abs_name (rs ++ ds))) mime sniff boundary bufsize q h (tt, 0)).2.
Proof.
  intros Hp Hl Hin Hs HPD Hb Hn.
  destruct (C136_same_partial gz gunzip parse hdir hpkg fs c rs mp rg uorder order decls l b now mime sniff boundary bufsize ds name Hp Hl Hin Hs HPD Hb Hn)
    as (m' & m1 & r & Hu & Ho & H).
  exists m', m1, r. split; [done|]. split; [done|]. intros q h ns Hq. unfold serve_h. apply (H _ _ ns).
  destruct Hq as [P1 P2 P3]. split; [exact P1|exact P2|exact P3].
Qed.

(** What is read that no RFC allows: a wrong weekday, other case, a one-digit
    hour, a fraction. *)
Theorem C139_lenient_refuted :
  exists x s, imf_date x = Some s /\ forall s', ~ is_date s' x.
Proof.
  exists (B"mOn, 06 NOV 1994 8:49:37.5 GMT"), 784111777%Z. split; [by vm_compute|].
  intros s' H%date_len. vm_compute in H. discriminate H.
Qed.

Definition tz_ex (z : bytes) (s : Z) : option Z := if decide (z = B"GMT") then Some s else None.
Example C139_dates_ex :
  let t := Moment 1994 11 6 8 49 37 in
  real_moment t /\ moment_secs t = 784111777%Z /\ gmt tz_ex /\
  rfc850_text t (B"Sunday, 06-Nov-94 08:49:37 GMT") /\ asctime_text t (B"Sun Nov  6 08:49:37 1994") /\
  read_date tz_ex (B"Sunday, 06-Nov-94 08:49:37 GMT") = Some 784111777%Z /\ read_date tz_ex (B"Sun Nov  6 08:49:37 1994") = Some 784111777%Z /\
  read_date tz_ex (B"sun nov   6 8:49:37.125 1994") = Some 784111777%Z /\ read_date tz_ex (B"Sun, 6 Nov 1994 08:49:37 GMT") = None /\
  read_date tz_ex (B"Sun, 31 Nov 1994 08:49:37 GMT") = None /\
  sender_list (B"""a"" , W/""b""") [B"""a"""; B"W/""b"""] /\
  none_text_old (B"""a"" , W/""b""") = Some CTrue /\ none_text_old (B"""a"" , , ""b""") = Some CTrue /\ none_text_old (B",") = None.
Proof.
  intros t. split. { split; [cbn; lia|]. split; [exists 30%Z; split; [done|cbn; lia]|cbn; lia]. }
  split; [by vm_compute|]. split; [split; [by intros s; vm_compute|by intros s; unfold tz_ex; rewrite decide_True]|].
  split; [exists (B"Sunday"), (B"Nov"); by vm_compute|]. split; [exists (B"Sun"), (B"Nov"); by vm_compute|].
  do 5 (split; [by vm_compute|]). split; [|by vm_compute].
  assert (Ht : forall w c, w = [] \/ w = B"W/" -> (35 <= N_of_ascii c <= 126)%N -> entity_tag (w ++ B"""" ++ [c] ++ B"""")).
  { intros w c Hw Hc. exists w, [c]. split; [done|]. split; [|done]. constructor; [by right; left|constructor]. }
  apply (sl_more [] (B"""a""") (B" ") (B" W/""b""") [B"W/""b"""]); [constructor| |constructor; [by left|constructor]|].
  - apply (Ht [] "a"%char); [by left|by vm_compute].
  - apply (sl_one (B" ") (B"W/""b""") []); [constructor; [by left|constructor]| |constructor]. apply (Ht (B"W/") "b"%char); [by right|by vm_compute].
Qed.
Definition ask_h (q : request) (h : cheaders) : response :=
  (serve_h tz_ex (mem_server here_parse t0 13) mime_ex sniff_ex (B"XX") 4 q h hsite).2.
Example C139_ex :
  let q := Request false (B"/a.txt") [] (B"bytes=6-") None in
  served hsite 13 hroot (B"app") [B"pub"] /\ means here_parse (f_here hroot) (m_here hsite) (B"app") [B"pub"] [B"a.txt"] /\
  asks_file q [B"a.txt"] /\ four_digit_year (t_sec t9) /\
  h_lastmod (r_headers (ask (get_of (B"/a.txt")))) = Some (B"Wed, 15 Jan 2020 14:00:00 GMT") /\
  is_date 1579096801 (B"Wed, 15 Jan 2020 14:00:01 GMT") /\
  tag_list (B"""a"" , ,W/""b""") [B"""a"""; B"W/""b"""] /\
  r_code (ask_h q (only_since (B"Wed, 15 Jan 2020 14:00:00 GMT"))) = 304%Z /\
  r_body (ask_h q (only_since (B"Wed, 15 Jan 2020 13:59:59 GMT"))) = B"world" /\
  r_code (ask_h q (only_unmod (B"Wed, 15 Jan 2020 13:59:59 GMT"))) = 412%Z /\
  r_body (ask_h q (only_range (B"Wed, 15 Jan 2020 14:00:00 GMT"))) = B"world" /\
  r_body (ask_h q (only_range (B"Wed, 15 Jan 2020 14:00:01 GMT"))) = B"hello world" /\
  r_body (ask_h q (only_range (B"W/""b"""))) = B"hello world" /\
  r_code (ask_h q (only_none (B" *"))) = 304%Z /\
  r_code (ask_h q (only_match (B"""a"" , ,W/""b"""))) = 412%Z /\
  r_code (ask_h q (CHeaders [] [] (B"""a"" , ,W/""b""") (B"Wed, 15 Jan 2020 14:00:00 GMT") [])) = 206%Z.
Proof.
  intros q. split; [apply hsite_served|]. split; [means_tac|]. split; [split; [by vm_compute|split; by vm_compute]|].
  split; [by vm_compute|]. split; [by vm_compute|]. split.
  { exists 2020%Z, 1%Z, 15%Z, 14%Z, 0%Z, 1%Z, (B"Wed"), (B"Jan"). split_and!; try lia; try by vm_compute. exists 31%Z. split; [by vm_compute|lia]. }
  split.
  { apply (tl_tag [] (B"""a""") (B" , ,W/""b""") [B"W/""b"""]); [constructor| | |].
    - exists [], (B"a"). split; [by left|]. split; [|done]. constructor; [|constructor]. right. left. by vm_compute.
    - right. exists (B" "), (B" ,W/""b"""). split; [|done]. constructor; [by left|constructor].
    - apply (tl_comma (B" ") (B" ,W/""b""")); [constructor; [by left|constructor]|].
      apply (tl_comma (B" ") (B"W/""b""")); [constructor; [by left|constructor]|].
      apply (tl_tag [] (B"W/""b""") [] []); [constructor| |left; constructor|constructor; constructor].
      exists (B"W/"), (B"b"). split; [by right|]. split; [|done]. constructor; [|constructor]. right. left. by vm_compute. }
  vm_compute. split_and!; done.
Qed.
