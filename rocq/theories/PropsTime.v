(** Theorems: modification times in a payload (C131). *)
From Coq Require Import ZifyN.
From Verif Require Import Bytes GoPath Here GoTypes GoNum GoTimeFmt JsonSpec PropsDate.
Local Open Scope Z_scope.

(** ** Specification: RFC 3339 as package time of Go 1.13 reads it *)

(** [k] decimal digits. *)
Definition numeral (k : nat) (w : bytes) (z : Z) : Prop := length w = k /\ exists n, decnum w n /\ z = Z.of_N n.

(** Below 10^9 as a number; fewer than nine digits are tenths, hundredths, ... *)
Inductive fraction : bytes -> Z -> Prop :=
| fr_none : fraction [] 0
| fr_some w n : decnum w n -> w <> [] -> (n < 10 ^ 9)%N -> fraction ("."%char :: w) (Z.of_N n * 10 ^ (9 `max` Z.of_nat (length w) - Z.of_nat (length w))).

(** In the zone the hours and minutes may have a sign of their own. *)
Inductive signed : bytes -> Z -> Prop :=
| sg_plain w z : numeral 2 w z -> signed w z
| sg_plus w z : numeral 1 w z -> signed ("+"%char :: w) z
| sg_minus w z : numeral 1 w z -> signed ("-"%char :: w) (- z).
Inductive zone : bytes -> Z -> Prop :=
| zo_utc : zone (B"Z") 0
| zo_east a b h m : signed a h -> signed b m -> zone (B"+" ++ a ++ B":" ++ b) (3600 * h + 60 * m)
| zo_west a b h m : signed a h -> signed b m -> zone (B"-" ++ a ++ B":" ++ b) (- (3600 * h + 60 * m)).

(** A day of the calendar and a time of the day. *)
Record moment := Moment { mo_year : Z; mo_month : Z; mo_day : Z; mo_hour : Z; mo_min : Z; mo_sec : Z }.
Definition real_moment (x : moment) : Prop :=
  1 <= mo_month x <= 12 /\ (exists len, month_lengths (mo_year x) !! Z.to_nat (mo_month x - 1) = Some len /\ 1 <= mo_day x <= len) /\
  0 <= mo_hour x <= 23 /\ 0 <= mo_min x <= 59 /\ 0 <= mo_sec x <= 59.
(** Seconds since the beginning of 1970, both in one zone. *)
Definition moment_secs (x : moment) : Z :=
  (day_number (mo_year x) (mo_month x) (mo_day x) - day_number 1970 1 1) * 86400 + mo_hour x * 3600 + mo_min x * 60 + mo_sec x.

Definition time_text (w : bytes) (t : gotime) : Prop :=
  exists x wy wm wd wh wi ws wf wz ns off,
    w = wy ++ B"-" ++ wm ++ B"-" ++ wd ++ B"T" ++ wh ++ B":" ++ wi ++ B":" ++ ws ++ wf ++ wz /\
    numeral 4 wy (mo_year x) /\ numeral 2 wm (mo_month x) /\ numeral 2 wd (mo_day x) /\
    (numeral 2 wh (mo_hour x) \/ numeral 1 wh (mo_hour x)) /\ numeral 2 wi (mo_min x) /\ numeral 2 ws (mo_sec x) /\
    fraction wf ns /\ zone wz off /\ real_moment x /\ t = GoTime (moment_secs x - off) ns off.

(** What is written: the moment [t] is in its zone, two digits everywhere but for
    the year, no zeros at the end of the fraction. *)
Definition written_zone (off : Z) : bytes :=
  if decide (off = 0) then B"Z"
  else (if decide (off < 0) then B"-" else B"+") ++ PropsDate.two (Z.abs off / 3600) ++ B":" ++ PropsDate.two (Z.abs off / 60 mod 60).
Definition written_time (t : gotime) (w : bytes) : Prop :=
  exists x wf,
    real_moment x /\ 0 <= mo_year x <= 9999 /\ moment_secs x = t_sec t + t_off t /\
    fraction wf (t_nsec t) /\ (length wf <= 10)%nat /\ last wf <> Some "0"%char /\
    w = four (mo_year x) ++ B"-" ++ PropsDate.two (mo_month x) ++ B"-" ++ PropsDate.two (mo_day x) ++ B"T" ++
        PropsDate.two (mo_hour x) ++ B":" ++ PropsDate.two (mo_min x) ++ B":" ++ PropsDate.two (mo_sec x) ++ wf ++ written_zone (t_off t).

(** ** C131: modification times are dates of the calendar *)

Lemma get_digits_iff k s d r : get_digits k s = Some (d, r) <-> s = d ++ r /\ length d = k /\ Forall (fun c => is_digit c = true) d.
Proof.
  revert s d. induction k as [|k IH]; intros s d; cbn [get_digits].
  - split; [intros [= <- <-]; by split_and!; [|done|constructor]|]. intros (-> & H & _). by destruct d.
  - split.
    + destruct s as [|c s]; [done|]. destruct (is_digit c) eqn:Ec; [|done]. destruct (get_digits k s) as [[d' r']|] eqn:E; [|done].
      intros [= <- <-]. apply IH in E as (-> & <- & H). by split_and!; [|done|constructor].
    + intros (-> & Hl & H). destruct d as [|c d]; [done|]. inversion H as [|? ? Hc Hd]; subst. cbn [app]. rewrite Hc.
      by rewrite (proj2 (IH (d ++ r) d)) by (split_and!; [done|by injection Hl|done]).
Qed.
Lemma get_num_iff k s z r : get_num k s = Some (z, r) <-> exists d, s = d ++ r /\ numeral k d z.
Proof.
  unfold get_num. split.
  - destruct (get_digits k s) as [[d r']|] eqn:E; [|done]. intros [= <- <-]. apply get_digits_iff in E as (-> & Hl & Hd).
    exists d. split; [done|]. split; [done|]. exists (dval d). split; [by apply digits_decnum|done].
  - intros (d & -> & Hl & n & Hn & ->). destruct (decnum_digits d n Hn) as [Hd <-].
    by rewrite (proj2 (get_digits_iff k (d ++ r) d r)).
Qed.
Lemma numeral_bounds k w z : numeral k w z -> 0 <= z.
Proof. intros (_ & n & _ & ->). lia. Qed.
Lemma expect_iff c s r : expect c s = Some r <-> s = c :: r.
Proof.
  unfold expect. destruct s as [|x s]; [done|]. destruct (Ascii.eqb_spec x c) as [->|Hn].
  - split; [by intros [= ->]|by intros [= ->]].
  - split; [done|]. by intros [= -> _].
Qed.
Lemma get_hour_iff s z r : (exists u, r = colon :: u) ->
  get_hour s = Some (z, r) <-> exists d, s = d ++ r /\ (numeral 2 d z \/ numeral 1 d z).
Proof.
  intros [u ->]. unfold get_hour. split.
  - destruct (get_num 2 s) as [[z' r']|] eqn:E.
    + intros [= -> ->]. apply get_num_iff in E as (d & -> & H). exists d. by auto.
    + intros (d & -> & H)%get_num_iff. exists d. by auto.
  - intros (d & -> & [H|H]).
    + by rewrite (proj2 (get_num_iff 2 (d ++ colon :: u) z (colon :: u))) by eauto.
    + assert (E : get_num 2 (d ++ colon :: u) = None).
      { destruct H as (Hl & n & Hn & _). destruct (decnum_digits d n Hn) as [Hd _]. destruct d as [|c [|]]; [done| |done].
        unfold get_num. cbn [get_digits app]. inversion Hd as [|? ? Hc]; subst. by rewrite Hc. }
      rewrite E. apply get_num_iff. by exists d.
Qed.
Lemma signed_iff s z r : get_signed s = Some (z, r) <-> exists d, s = d ++ r /\ signed d z.
Proof.
  split.
  - destruct s as [|a [|b s]]; [done|done|]. cbn [get_signed]. destruct (is_digit b) eqn:Eb; [|done].
    assert (Hb : numeral 1 [b] (Z.of_N (dval [b]))).
    { split; [done|]. exists (dval [b]). split; [apply digits_decnum; by constructor|done]. }
    destruct (is_digit a) eqn:Ea; [|destruct (Ascii.eqb_spec a c_dash) as [->|]; [|destruct (Ascii.eqb_spec a c_plus) as [->|]; [|done]]].
    + intros [= <- <-]. exists [a; b]. split; [done|]. constructor. split; [done|]. exists (dval [a; b]).
      split; [apply digits_decnum; by repeat constructor|done].
    + intros [= <- <-]. exists [c_dash; b]. split; [done|]. by apply (sg_minus [b]).
    + intros [= <- <-]. exists [c_plus; b]. split; [done|]. by apply (sg_plus [b]).
  - intros (d & -> & H). destruct H as [w z H|w z H|w z H].
    + apply get_signed_num, get_num_iff. by exists w.
    + destruct H as (Hl & n & Hn & ->). destruct (decnum_digits w n Hn) as [Hd <-]. destruct w as [|c [|]]; [done| |done].
      inversion Hd as [|? ? Hc]; subst. cbn [app get_signed]. rewrite Hc. done.
    + destruct H as (Hl & n & Hn & ->). destruct (decnum_digits w n Hn) as [Hd <-]. destruct w as [|c [|]]; [done| |done].
      inversion Hd as [|? ? Hc]; subst. cbn [app get_signed]. rewrite Hc. done.
Qed.
Lemma signed_rest s z : get_signed s = Some (z, []) <-> signed s z.
Proof.
  rewrite signed_iff. split; [|intros H; exists s; by rewrite app_nil_r]. intros (d & -> & H). by rewrite app_nil_r.
Qed.
Lemma zone_iff s off : get_zone s = Some (off, []) <-> zone s off.
Proof.
  unfold get_zone. split.
  - destruct s as [|c s]; [done|]. destruct (Ascii.eqb_spec c c_Z) as [->|_]; [intros [= <- ->]; constructor|].
    destruct (Ascii.eqb c c_plus || Ascii.eqb c c_dash) eqn:Ec; [|done].
    destruct (get_signed s) as [[hr s1]|] eqn:E1; [|done]. cbn [mbind option_bind]. destruct (expect colon s1) as [s2|] eqn:E2; [|done].
    cbn [mbind option_bind]. destruct (get_signed s2) as [[mi s3]|] eqn:E3; [|done]. cbn [mbind option_bind].
    intros H. injection H as Hoff ->. apply signed_iff in E1 as (a & -> & Ha). apply expect_iff in E2 as ->. apply signed_rest in E3.
    apply orb_true_iff in Ec. destruct (Ascii.eqb_spec c c_dash) as [->|Hd].
    + replace off with (- (3600 * hr + 60 * mi)) by lia. by apply zo_west.
    + destruct Ec as [->%Ascii.eqb_eq|]; [|done]. replace off with (3600 * hr + 60 * mi) by lia. by apply zo_east.
  - intros H. destruct H as [|a b h m Ha Hb|a b h m Ha Hb]; [done|..].
    + change (B"+" ++ a ++ B":" ++ b) with ("+"%char :: a ++ ":"%char :: b). cbv iota. change (Ascii.eqb "+"%char c_Z) with false. change (Ascii.eqb "+"%char c_plus || Ascii.eqb "+"%char c_dash) with true. cbv iota.
      rewrite (proj2 (signed_iff (a ++ ":"%char :: b) h (":"%char :: b))) by eauto. cbn [mbind option_bind app].
      rewrite (proj2 (expect_iff colon (":"%char :: b) b)) by done. cbn [mbind option_bind]. rewrite (proj2 (signed_rest b m)) by done. cbn [mbind option_bind].
      change (Ascii.eqb "+"%char c_dash) with false. cbv iota. f_equal. f_equal. lia.
    + change (B"-" ++ a ++ B":" ++ b) with ("-"%char :: a ++ ":"%char :: b). cbv iota. change (Ascii.eqb "-"%char c_Z) with false. change (Ascii.eqb "-"%char c_plus || Ascii.eqb "-"%char c_dash) with true. cbv iota.
      rewrite (proj2 (signed_iff (a ++ ":"%char :: b) h (":"%char :: b))) by eauto. cbn [mbind option_bind app].
      rewrite (proj2 (expect_iff colon (":"%char :: b) b)) by done. cbn [mbind option_bind]. rewrite (proj2 (signed_rest b m)) by done. cbn [mbind option_bind].
      change (Ascii.eqb "-"%char c_dash) with true. cbv iota. f_equal. f_equal. lia.
Qed.
Lemma zone_head s off : zone s off -> exists c u, s = c :: u /\ is_digit c = false /\ c <> c_dot.
Proof. intros H. destruct H; eexists _, _; (split; [reflexivity|by split]). Qed.

Lemma scale_eq ds : (dval ds < 10 ^ 9)%N ->
  Z.of_N (dval ds * 10 ^ N.of_nat (9 - length ds)) = Z.of_N (dval ds) * 10 ^ (9 `max` Z.of_nat (length ds) - Z.of_nat (length ds)).
Proof.
  intros _. rewrite N2Z.inj_mul, N2Z.inj_pow, nat_N_Z. f_equal. f_equal. lia.
Qed.
Lemma frac_zone s ns off : 
  (exists r, get_frac s = Some (ns, r) /\ get_zone r = Some (off, [])) <-> exists wf wz, s = wf ++ wz /\ fraction wf ns /\ zone wz off.
Proof.
  split.
  - intros (r & Hf & Hz). apply zone_iff in Hz. unfold get_frac in Hf. destruct s as [|c [|d s]].
    + injection Hf as <- <-. exists [], []. by split_and!; [|constructor|].
    + injection Hf as <- <-. exists [], [c]. by split_and!; [|constructor|].
    + destruct (Ascii.eqb c c_dot && is_digit d) eqn:E.
      * apply andb_true_iff in E as [->%Ascii.eqb_eq Hd]. cbn [tail] in Hf. destruct (span_digits (d :: s)) as [ds r'] eqn:Es.
        destruct (span_digits_split _ _ _ Es) as [E1 Hds]. destruct (N.ltb_spec (dval ds) (10 ^ 9)); [|done]. injection Hf as <- <-.
        exists (c_dot :: ds), r'. split; [cbn [app]; by f_equal|]. split; [|done]. rewrite scale_eq by done.
        apply fr_some; [by apply digits_decnum| |done]. intros ->. cbn [span_digits] in Es. rewrite Hd in Es. by destruct (span_digits s).
      * injection Hf as <- <-. exists [], (c :: d :: s). by split_and!; [|constructor|].
  - intros (wf & wz & -> & Hf & Hz). exists wz. split; [|by apply zone_iff]. destruct (zone_head wz off Hz) as (c & u & -> & Hc & Hdot).
    destruct Hf as [|w n Hw Hne Hn].
    + cbn [app get_frac]. destruct u as [|d u]; [done|]. by rewrite (proj2 (Ascii.eqb_neq _ _) Hdot).
    + destruct (decnum_digits w n Hw) as [Hd <-]. destruct w as [|d w]; [done|]. cbn [app get_frac tail]. inversion Hd as [|? ? Hdd Hw']; subst.
      change (Ascii.eqb "."%char c_dot) with true. rewrite Hdd. cbn [andb]. change (d :: w ++ c :: u) with ((d :: w) ++ c :: u).
      rewrite span_digits_app by done. rewrite (proj2 (N.ltb_lt _ _) Hn). by rewrite scale_eq.
Qed.

(** What a payload may say about a file's modification time, and what it means. *)
Theorem C131_read w t : parse_time w = Some t <-> time_text w t.
Proof.
  split.
  - unfold parse_time.
    destruct (get_num 4 w) as [[y s1]|] eqn:E1; [|done]. cbn [mbind option_bind]. destruct (expect c_dash s1) as [s2|] eqn:E2; [|done]. cbn [mbind option_bind].
    destruct (get_num 2 s2) as [[m s3]|] eqn:E3; [|done]. cbn [mbind option_bind]. destruct (expect c_dash s3) as [s4|] eqn:E4; [|done]. cbn [mbind option_bind].
    destruct (get_num 2 s4) as [[d s5]|] eqn:E5; [|done]. cbn [mbind option_bind]. destruct (expect c_T s5) as [s6|] eqn:E6; [|done]. cbn [mbind option_bind].
    destruct (get_hour s6) as [[hh s7]|] eqn:E7; [|done]. cbn [mbind option_bind]. destruct (expect colon s7) as [s8|] eqn:E8; [|done]. cbn [mbind option_bind].
    destruct (get_num 2 s8) as [[mm s9]|] eqn:E9; [|done]. cbn [mbind option_bind]. destruct (expect colon s9) as [s10|] eqn:E10; [|done]. cbn [mbind option_bind].
    destruct (get_num 2 s10) as [[ss s11]|] eqn:E11; [|done]. cbn [mbind option_bind].
    destruct (get_frac s11) as [[ns s12]|] eqn:E12; [|done]. cbn [mbind option_bind].
    destruct (get_zone s12) as [[off s13]|] eqn:E13; [|done]. cbn [mbind option_bind]. destruct s13; [|done].
    destruct ((1 <=? m) && (m <=? 12) && (hh <? 24) && (mm <? 60) && (ss <? 60) && (1 <=? d) && (d <=? days_in m y)) eqn:Ok; [|done].
    intros [= <-]. rewrite !andb_true_iff, !Z.leb_le, !Z.ltb_lt in Ok. destruct Ok as [[[[[[O1 O2] O3] O4] O5] O6] O7].
    apply get_num_iff in E1 as (wy & -> & Hy). apply expect_iff in E2 as ->. apply get_num_iff in E3 as (wm & -> & Hm). apply expect_iff in E4 as ->.
    apply get_num_iff in E5 as (wd & -> & Hd). apply expect_iff in E6 as ->. apply expect_iff in E8 as ->.
    apply get_hour_iff in E7 as (wh & -> & Hh); [|by eexists]. apply get_num_iff in E9 as (wi & -> & Hi). apply expect_iff in E10 as ->.
    apply get_num_iff in E11 as (ws & -> & Hs).
    destruct (proj1 (frac_zone s11 ns off)) as (wf & wz & -> & Hf & Hz); [by exists s12|].
    assert (0 <= hh) by (destruct Hh as [Hh|Hh]; by eapply numeral_bounds). pose proof (numeral_bounds _ _ _ Hi). pose proof (numeral_bounds _ _ _ Hs).
    exists (Moment y m d hh mm ss), wy, wm, wd, wh, wi, ws, wf, wz, ns, off. cbn [mo_year mo_month mo_day mo_hour mo_min mo_sec].
    split_and!; try done.
    + unfold real_moment. cbn [mo_year mo_month mo_day mo_hour mo_min mo_sec]. split_and!; try lia.
      exists (days_in m y). split; [by apply month_length_is|lia].
    + unfold moment_secs. cbn [mo_year mo_month mo_day mo_hour mo_min mo_sec]. rewrite (day_number_is y m d) by lia.
      change (day_number 1970 1 1) with (unix_day + 1). f_equal. lia.
  - intros ([y m d hh mm ss] & wy & wm & wd & wh & wi & ws & wf & wz & ns & off & -> & Hy & Hm & Hd & Hh & Hi & Hs & Hf & Hz & (O1 & (len & Hlen & O2) & O3 & O4 & O5) & ->).
    unfold moment_secs. cbn [mo_year mo_month mo_day mo_hour mo_min mo_sec] in *.
    destruct (proj2 (frac_zone (wf ++ wz) ns off)) as (r & Hfr & Hzr); [by exists wf, wz|].
    unfold parse_time.
    rewrite (proj2 (get_num_iff 4 (wy ++ _) y _)) by eauto. cbn [mbind option_bind]. rewrite (proj2 (expect_iff c_dash _ _)) by reflexivity. cbn [mbind option_bind].
    rewrite (proj2 (get_num_iff 2 _ m _)) by eauto. cbn [mbind option_bind]. rewrite (proj2 (expect_iff c_dash _ _)) by reflexivity. cbn [mbind option_bind].
    rewrite (proj2 (get_num_iff 2 _ d _)) by eauto. cbn [mbind option_bind]. rewrite (proj2 (expect_iff c_T _ _)) by reflexivity. cbn [mbind option_bind].
    rewrite (proj2 (get_hour_iff _ hh (B":" ++ wi ++ B":" ++ ws ++ wf ++ wz) ltac:(by eexists))) by eauto. cbn [mbind option_bind]. rewrite (proj2 (expect_iff colon _ _)) by reflexivity. cbn [mbind option_bind].
    rewrite (proj2 (get_num_iff 2 _ mm _)) by eauto. cbn [mbind option_bind]. rewrite (proj2 (expect_iff colon _ _)) by reflexivity. cbn [mbind option_bind].
    rewrite (proj2 (get_num_iff 2 _ ss _)) by eauto. cbn [mbind option_bind]. rewrite Hfr. cbn [mbind option_bind]. rewrite Hzr. cbn [mbind option_bind].
    rewrite (month_length_is y m _ O1 eq_refl) in Hlen. injection Hlen as <-.
    assert (Ok : (1 <=? m) && (m <=? 12) && (hh <? 24) && (mm <? 60) && (ss <? 60) && (1 <=? d) && (d <=? days_in m y) = true).
    { rewrite !andb_true_iff, !Z.leb_le, !Z.ltb_lt. lia. }
    rewrite Ok, (day_number_is y m d) by lia. change (day_number 1970 1 1) with (unix_day + 1). f_equal. f_equal. lia.
Qed.

Lemma trim_head s c : head (trim_zeros_rev s) = Some c -> c <> "0"%char.
Proof.
  induction s as [|x s IH]; [done|]. cbn [trim_zeros_rev]. destruct (Ascii.eqb_spec x "0"%char) as [->|Hn]; [done|]. by intros [= <-].
Qed.
Lemma format_nano_fraction ns : 0 <= ns < 1000000000 ->
  fraction (format_nano ns) ns /\ (length (format_nano ns) <= 10)%nat /\ last (format_nano ns) <> Some "0"%char.
Proof.
  intros Hn. unfold format_nano.
  assert (Hd : Forall (fun c => is_digit c = true) (append_int 9 ns)) by (apply append_int_digits; lia).
  assert (Hl : length (append_int 9 ns) = 9%nat).
  { unfold append_int. destruct (Z.ltb_spec ns 0); [lia|]. apply pad_length; [lia|]. change (10 ^ N.of_nat 9)%N with 1000000000%N. lia. }
  assert (Hv : dval (append_int 9 ns) = Z.to_N ns).
  { unfold append_int. destruct (Z.ltb_spec ns 0); [lia|]. apply pad_val. }
  destruct (trim_zeros_rev_spec (rev (append_int 9 ns))) as [k Hk]. pose proof (trim_head (rev (append_int 9 ns))) as Hh.
  set (e := trim_zeros_rev (rev (append_int 9 ns))) in *.
  assert (Ha : append_int 9 ns = rev e ++ replicate k "0"%char).
  { rewrite <- (rev_involutive (append_int 9 ns)), Hk at 1. rewrite rev_app_distr, rev_replicate. done. }
  rewrite Ha in Hd, Hl, Hv. apply Forall_app in Hd as [Hd _]. rewrite app_length, replicate_length in Hl. rewrite dval_zeros_r in Hv.
  destruct e as [|c e]; cbn [rev app] in *.
  - change (dval []) with 0%N in Hv. assert (ns = 0) as -> by lia. split; [constructor|]. split; [cbn; lia|done].
  - destruct (rev e ++ [c]) as [|c' d'] eqn:Ed; [by destruct (rev e)|]. rewrite <- Ed in *.
    assert (Hlt : (dval (rev e ++ [c]) < 10 ^ 9)%N).
    { pose proof (N.pow_nonzero 10 (N.of_nat k) ltac:(lia)). change (10 ^ 9)%N with 1000000000%N. nia. }
    split_and!.
    + assert (E : ns = Z.of_N (dval (rev e ++ [c])) * 10 ^ (9 `max` Z.of_nat (length (rev e ++ [c])) - Z.of_nat (length (rev e ++ [c])))).
      { rewrite <- scale_eq by done. replace (9 - length (rev e ++ [c]))%nat with k by lia. rewrite Hv. lia. }
      rewrite E. apply fr_some; [by apply digits_decnum|by destruct (rev e)|done].
    + cbn [length]. lia.
    + change (c_dot :: rev e ++ [c]) with ((c_dot :: rev e) ++ [c]). rewrite last_snoc. intros [= ->]. by apply (Hh "0"%char).
Qed.
Lemma format_zone_written off : off mod 60 = 0 -> -360000 < off < 360000 -> format_zone off = written_zone off.
Proof.
  intros Hm Ho. unfold format_zone, written_zone. destruct (Z.eqb_spec off 0) as [->|Hne]; [done|]. rewrite decide_False by done.
  assert (Hq : off = 60 * Z.quot off 60).
  { apply Z.div_exact in Hm; [|lia]. assert (Hr : Z.rem off 60 = 0) by (rewrite Hm, Z.mul_comm; by apply Z.rem_mul).
    pose proof (Z.quot_rem' off 60). lia. }
  set (z := Z.quot off 60) in *.
  assert (E1 : Z.abs z / 60 = Z.abs off / 3600) by (clear -Hq; Z.to_euclidean_division_equations; lia).
  assert (E2 : Z.abs z = Z.abs off / 60) by (clear -Hq; Z.to_euclidean_division_equations; lia).
  assert (Hz : 0 <= Z.abs z < 6000) by lia.
  assert (H1 : 0 <= Z.abs z / 60 < 100).
  { split; [by apply Z.div_pos; lia|apply Z.div_lt_upper_bound; lia]. }
  pose proof (Z.mod_pos_bound (Z.abs z) 60 ltac:(lia)) as H2.
  rewrite two_eq, two_eq by lia. rewrite E1. rewrite E2 at 1.
  destruct (Z.ltb_spec z 0); [rewrite decide_True by lia|rewrite decide_False by lia]; reflexivity.
Qed.

(** What MarshalJSON writes for a modification time. *)
Theorem C131_written t :
  0 <= t_nsec t < 1000000000 -> four_digit_year (t_sec t + t_off t) -> t_off t mod 60 = 0 -> -360000 < t_off t < 360000 ->
  written_time t (format_time t).
Proof.
  intros Hns Hy Hz Ho. pose proof (year_bounds _ Hy) as Hyear. unfold format_time. set (s := t_sec t + t_off t) in *.
  destruct (civil (s / 86400 + unix_day)) as [[y m] d] eqn:Ec. cbn [fst] in Hyear. destruct (civil_spec _ _ _ _ Ec) as (Hdays & Hm & Hd).
  pose proof (days_in_le m y) as Hdi. pose proof (Z.mod_pos_bound s 86400 ltac:(lia)) as Hs. pose proof (Z.div_mod s 86400 ltac:(lia)) as Hsd.
  set (sod := s mod 86400) in *.
  assert (Hh : 0 <= sod / 3600 < 24) by (split; [apply Z.div_pos; lia|apply Z.div_lt_upper_bound; lia]).
  pose proof (Z.mod_pos_bound sod 3600 ltac:(lia)) as Hr.
  assert (Hmi : 0 <= sod mod 3600 / 60 < 60) by (split; [apply Z.div_pos; lia|apply Z.div_lt_upper_bound; lia]).
  pose proof (Z.mod_pos_bound sod 60 ltac:(lia)) as Hs60.
  destruct (format_nano_fraction (t_nsec t) Hns) as (F1 & F2 & F3).
  exists (Moment y m d (sod / 3600) (sod mod 3600 / 60) (sod mod 60)), (format_nano (t_nsec t)).
  unfold real_moment, moment_secs. cbn [mo_year mo_month mo_day mo_hour mo_min mo_sec]. split_and!; try lia; try done.
  - exists (days_in m y). split; [by apply month_length_is|lia].
  - rewrite (day_number_is y m d) by lia. change (day_number 1970 1 1) with (unix_day + 1). rewrite Hdays.
    assert (sod = sod / 3600 * 3600 + sod mod 3600 / 60 * 60 + sod mod 60) by (clear; Z.to_euclidean_division_equations; lia). lia.
  - rewrite four_eq by lia. rewrite !two_eq by lia. rewrite format_zone_written by done. reflexivity.
Qed.

Example C131_ex :
  time_text (B"2020-02-29T7:05:09.0400+-1:30") (GoTime 1582961709 40000000 (-1800)) /\
  parse_time (B"2019-02-29T07:05:09Z") = None /\ parse_time (B"2020-02-29T07:05:09.1000000000Z") = None /\
  parse_time (B"2020-02-29T24:00:00Z") = None /\ parse_time (B"2020-02-29 07:05:09Z") = None /\
  written_time (GoTime 951782399 120000000 (-34200)) (B"2000-02-28T14:29:59.12-09:30").
Proof.
  split; [apply C131_read; by vm_compute|]. do 4 (split; [by vm_compute|]).
  apply (C131_written (GoTime 951782399 120000000 (-34200))); cbn [t_nsec t_sec t_off]; [lia| |done|lia].
  unfold four_digit_year. split; vm_compute; congruence.
Qed.
