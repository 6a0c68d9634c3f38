(** Decimal numbers as Go prints and reads them (strconv, package time's
    appendInt). *)
From Verif Require Import Bytes.

Definition digit (n : N) : ascii := ascii_of_N (48 + n).
Definition is_digit (c : ascii) : bool := (48 <=? N_of_ascii c)%N && (N_of_ascii c <=? 57)%N.
Definition digit_val (c : ascii) : N := (N_of_ascii c - 48)%N.

(** The value of a string of digits. *)
Definition dval (s : bytes) : N := fold_left (fun a c => 10 * a + digit_val c)%N s 0%N.

(** strconv.Itoa for natural numbers. *)
Fixpoint dec_fuel (fuel : nat) (n : N) : bytes :=
  match fuel with
  | O => []
  | S fuel => if (n <? 10)%N then [digit n] else dec_fuel fuel (n / 10) ++ [digit (n mod 10)]
  end.
Definition dec (n : N) : bytes := dec_fuel (S (N.size_nat n)) n.

(** strconv.FormatInt(z, 10). *)
Definition dec_z (z : Z) : bytes :=
  if (z <? 0)%Z then "-"%char :: dec (Z.to_N (- z)) else dec (Z.to_N z).

(** time.appendInt(b, n, width) for natural numbers. *)
Definition pad (w : nat) (n : N) : bytes :=
  let d := dec n in replicate (w - length d) "0"%char ++ d.

Lemma digit_val_digit n : (n < 10)%N -> digit_val (digit n) = n.
Proof. intros H. unfold digit_val, digit. rewrite N_ascii_embedding by lia. lia. Qed.

Lemma is_digit_digit n : (n < 10)%N -> is_digit (digit n) = true.
Proof. intros H. unfold is_digit, digit. rewrite N_ascii_embedding by lia. rewrite andb_true_iff, !N.leb_le. lia. Qed.

Lemma dval_snoc s c : dval (s ++ [c]) = (10 * dval s + digit_val c)%N.
Proof. unfold dval. by rewrite fold_left_app. Qed.

Lemma pow10_pos f : (0 < 10 ^ N.of_nat f)%N.
Proof. apply N.neq_0_lt_0, N.pow_nonzero. lia. Qed.

Lemma pow10_S f : (10 ^ N.of_nat (S f) = 10 * 10 ^ N.of_nat f)%N.
Proof. rewrite Nat2N.inj_succ, N.pow_succ_r'. done. Qed.

Lemma dec_fuel_val f n : (n < 10 ^ N.of_nat f)%N -> dval (dec_fuel f n) = n.
Proof.
  revert n. induction f as [|f IH]; intros n Hn.
  - simpl in Hn. change (10 ^ N.of_nat 0)%N with 1%N in Hn. assert (n = 0%N) as -> by lia. done.
  - rewrite pow10_S in Hn. cbn [dec_fuel]. destruct (N.ltb_spec n 10) as [Hlt|Hge].
    + change [digit n] with ([] ++ [digit n]). rewrite dval_snoc, digit_val_digit by done. unfold dval. simpl. lia.
    + rewrite dval_snoc, IH, digit_val_digit.
      * symmetry. apply N.div_mod. lia.
      * apply N.mod_lt. lia.
      * apply N.div_lt_upper_bound; lia.
Qed.

Lemma size_nat_bound n : (n < 10 ^ N.of_nat (S (N.size_nat n)))%N.
Proof.
  assert (H : (n < 2 ^ N.of_nat (N.size_nat n))%N).
  { destruct n as [|p]; [simpl; lia|]. simpl.
    induction p as [p IH|p IH|]; cbn [Pos.size_nat].
    - rewrite Nat2N.inj_succ, N.pow_succ_r'. lia.
    - rewrite Nat2N.inj_succ, N.pow_succ_r'. lia.
    - done. }
  rewrite pow10_S. assert (2 ^ N.of_nat (N.size_nat n) <= 10 ^ N.of_nat (N.size_nat n))%N.
  { apply N.pow_le_mono_l. lia. }
  lia.
Qed.

Lemma dec_val n : dval (dec n) = n.
Proof. apply dec_fuel_val, size_nat_bound. Qed.

Lemma dec_fuel_digits f n : Forall (fun c => is_digit c = true) (dec_fuel f n).
Proof.
  revert n. induction f as [|f IH]; intros n; cbn [dec_fuel]; [constructor|].
  destruct (N.ltb_spec n 10).
  - repeat constructor. by apply is_digit_digit.
  - apply Forall_app. split; [apply IH|]. repeat constructor. apply is_digit_digit, N.mod_lt. lia.
Qed.
Lemma dec_digits n : Forall (fun c => is_digit c = true) (dec n).
Proof. apply dec_fuel_digits. Qed.

Lemma dec_fuel_length f n w : 0 < w -> (n < 10 ^ N.of_nat w)%N -> length (dec_fuel f n) <= w.
Proof.
  revert n w. induction f as [|f IH]; intros n w Hw Hn; cbn [dec_fuel]; [simpl; lia|].
  destruct (N.ltb_spec n 10); [simpl; lia|]. rewrite app_length. simpl.
  destruct w as [|w]; [lia|]. destruct w as [|w]; [simpl in Hn; lia|].
  rewrite pow10_S in Hn. specialize (IH (n / 10)%N (S w) ltac:(lia)).
  assert (n / 10 < 10 ^ N.of_nat (S w))%N by (apply N.div_lt_upper_bound; lia).
  specialize (IH H0). lia.
Qed.

Lemma dec_fuel_pos f n : 0 < length (dec_fuel (S f) n).
Proof. cbn [dec_fuel]. destruct (n <? 10)%N; [simpl; lia|]. rewrite app_length. simpl. lia. Qed.
Lemma dec_nonempty n : dec n <> [].
Proof. intros H. pose proof (dec_fuel_pos (N.size_nat n) n) as Hp. unfold dec in H. rewrite H in Hp. simpl in Hp. lia. Qed.

Lemma pad_length w n : 0 < w -> (n < 10 ^ N.of_nat w)%N -> length (pad w n) = w.
Proof.
  intros Hw Hn. unfold pad. rewrite app_length, replicate_length.
  pose proof (dec_fuel_length (S (N.size_nat n)) n w Hw Hn) as H. unfold dec. lia.
Qed.

Lemma dval_zeros k s : dval (replicate k "0"%char ++ s) = dval s.
Proof.
  unfold dval. rewrite fold_left_app.
  assert (fold_left (fun a c => 10 * a + digit_val c)%N (replicate k "0"%char) 0%N = 0%N) as ->; [|done].
  induction k as [|k IH]; [done|]. cbn [replicate fold_left]. exact IH.
Qed.

Lemma pad_val w n : dval (pad w n) = n.
Proof. unfold pad. by rewrite dval_zeros, dec_val. Qed.

Lemma pad_digits w n : Forall (fun c => is_digit c = true) (pad w n).
Proof.
  unfold pad. apply Forall_app. split; [|apply dec_digits]. by apply Forall_replicate.
Qed.

Lemma dval_app s t : dval (s ++ t) = (10 ^ N.of_nat (length t) * dval s + dval t)%N.
Proof.
  induction t as [|c t IH] using rev_ind.
  - rewrite app_nil_r. change (dval []) with 0%N. change (10 ^ N.of_nat (length (@nil ascii)))%N with 1%N. lia.
  - rewrite app_assoc, !dval_snoc, IH, app_length. cbn [length]. rewrite Nat.add_1_r, pow10_S. ring.
Qed.

Lemma digit_val_lt c : is_digit c = true -> (digit_val c < 10)%N.
Proof. unfold is_digit, digit_val. rewrite andb_true_iff, !N.leb_le. lia. Qed.

(** The longest prefix of digits. *)
Fixpoint span_digits (s : bytes) : bytes * bytes :=
  match s with
  | [] => ([], [])
  | c :: t => if is_digit c then let '(d, r) := span_digits t in (c :: d, r) else ([], s)
  end.

Lemma span_digits_app d r :
  Forall (fun c => is_digit c = true) d ->
  match r with [] => True | c :: _ => is_digit c = false end ->
  span_digits (d ++ r) = (d, r).
Proof.
  induction 1 as [|c d Hc Hd IH]; intros Hr; simpl.
  - destruct r as [|c r]; [done|]. simpl. by rewrite Hr.
  - by rewrite Hc, IH.
Qed.

(** A number without leading zeros (the JSON grammar wants that). *)
Lemma dec_fuel_lead f n c s :
  (n < 10 ^ N.of_nat f)%N -> dec_fuel f n = c :: s -> c = "0"%char -> n = 0%N /\ s = [].
Proof.
  revert n c s. induction f as [|f IH]; intros n c s Hn; [done|]. rewrite pow10_S in Hn.
  cbn [dec_fuel]. destruct (N.ltb_spec n 10) as [Hlt|Hge].
  - intros [= <- <-] Hc. split; [|done]. apply (f_equal digit_val) in Hc. by rewrite digit_val_digit in Hc.
  - destruct (dec_fuel f (n / 10)) as [|c' s'] eqn:E.
    + destruct f as [|f].
      * change (10 ^ N.of_nat 0)%N with 1%N in Hn. lia.
      * pose proof (dec_fuel_pos f (n / 10)) as Hp. rewrite E in Hp. simpl in Hp. lia.
    + intros [= <- <-] Hc. apply IH in E as [E _]; [|apply N.div_lt_upper_bound; lia|done].
      apply N.div_small_iff in E; lia.
Qed.
Lemma dec_lead n c s : dec n = c :: s -> c = "0"%char -> n = 0%N /\ s = [].
Proof. apply dec_fuel_lead, size_nat_bound. Qed.
