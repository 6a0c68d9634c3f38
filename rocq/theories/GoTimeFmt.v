(** Model of /repo/pkging/mod_time.go: the text of a ModTime.

    Package time of the Go standard library: Time.Format with RFC3339Nano and
    Parse with RFC3339 (which is what Time.UnmarshalJSON does).  Times are
    [gotime]: Unix seconds, nanoseconds, zone offset in seconds. *)
From Verif Require Import Bytes GoPath Here GoTypes GoNum.
Local Open Scope Z_scope.

(** *** Calendar *)

(** time.isLeap. *)
Definition is_leap (y : Z) : bool := (y mod 4 =? 0) && (negb (y mod 100 =? 0) || (y mod 400 =? 0)).

(** time.daysBefore, indexed from 0. *)
Definition days_before (m : Z) : Z :=
  match m with
  | 0 => 0 | 1 => 31 | 2 => 59 | 3 => 90 | 4 => 120 | 5 => 151 | 6 => 181
  | 7 => 212 | 8 => 243 | 9 => 273 | 10 => 304 | 11 => 334 | _ => 365
  end.

(** The month and day of a day of the year, the second half of time.absDate. *)
Definition month_day (leap : bool) (yday : Z) : Z * Z :=
  if leap && (yday =? 59) then (2, 29)
  else
    let d := if leap && (59 <? yday) then yday - 1 else yday in
    let m := d / 31 in
    let e := days_before (m + 1) in
    if e <=? d then (m + 2, d - e + 1) else (m + 1, d - days_before m + 1).

(** The year (from 0) and day of the year of a day of the 400-year cycle, the
    first half of time.absDate.  Go counts from an absolute year that is 1
    modulo 400; days here count from January 1 of year 1. *)
Definition cycle_year (r : Z) : Z * Z :=
  let n := r / 36524 in let n := n - n / 4 in
  let y := 100 * n in let r := r - 36524 * n in
  let n := r / 1461 in
  let y := y + 4 * n in let r := r - 1461 * n in
  let n := r / 365 in let n := n - n / 4 in
  (y + n, r - 365 * n).

Definition civil (d : Z) : Z * Z * Z :=
  let '(y, yday) := cycle_year (d mod 146097) in
  let year := 400 * (d / 146097) + y + 1 in
  let '(m, day) := month_day (is_leap year) yday in
  (year, m, day).

(** time.daysSinceEpoch and the day part of time.Date. *)
Definition days_of_year (year : Z) : Z :=
  let y := year - 1 in
  let n := y / 400 in let d := 146097 * n in let y := y - 400 * n in
  let n := y / 100 in let d := d + 36524 * n in let y := y - 100 * n in
  let n := y / 4 in let d := d + 1461 * n in let y := y - 4 * n in
  d + 365 * y.

Definition days_of_date (year m day : Z) : Z :=
  days_of_year year + days_before (m - 1) +
  (if is_leap year && (3 <=? m) then 1 else 0) + (day - 1).

(** time.daysIn. *)
Definition days_in (m year : Z) : Z :=
  if (m =? 2) && is_leap year then 29 else days_before m - days_before (m - 1).

(** January 1, 1970. *)
Definition unix_day : Z := 719162.

(** *** Format *)

Definition c_dash : ascii := "-"%char.
Definition c_plus : ascii := "+"%char.
Definition c_dot : ascii := "."%char.
Definition c_T : ascii := "T"%char.
Definition c_Z : ascii := "Z"%char.

(** time.appendInt. *)
Definition append_int (w : nat) (z : Z) : bytes :=
  if z <? 0 then c_dash :: pad w (Z.to_N (- z)) else pad w (Z.to_N z).

Fixpoint trim_zeros_rev (s : bytes) : bytes :=
  match s with
  | c :: t => if Ascii.eqb c "0"%char then trim_zeros_rev t else s
  | [] => []
  end.

(** time.formatNano(b, ns, 9, true). *)
Definition format_nano (ns : Z) : bytes :=
  match rev (trim_zeros_rev (rev (append_int 9 ns))) with
  | [] => []
  | d => c_dot :: d
  end.

(** The zone: "Z07:00". *)
Definition format_zone (off : Z) : bytes :=
  if off =? 0 then [c_Z]
  else
    let zone := Z.quot off 60 in
    (if zone <? 0 then c_dash else c_plus) ::
    append_int 2 (Z.abs zone / 60) ++ colon :: append_int 2 (Z.abs zone mod 60).

(** Time.Format(time.RFC3339Nano). *)
Definition format_time (t : gotime) : bytes :=
  let s := t_sec t + t_off t in
  let '(y, m, d) := civil (s / 86400 + unix_day) in
  let sod := s mod 86400 in
  append_int 4 y ++ c_dash :: append_int 2 m ++ c_dash :: append_int 2 d ++ c_T ::
  append_int 2 (sod / 3600) ++ colon :: append_int 2 (sod mod 3600 / 60) ++ colon :: append_int 2 (sod mod 60) ++
  format_nano (t_nsec t) ++ format_zone (t_off t).

(** *** Parse *)

(** [k] digits. *)
Fixpoint get_digits (k : nat) (s : bytes) : option (bytes * bytes) :=
  match k with
  | O => Some ([], s)
  | S k =>
      match s with
      | c :: s => if is_digit c
          then match get_digits k s with Some (d, r) => Some (c :: d, r) | None => None end
          else None
      | [] => None
      end
  end.

Definition get_num (k : nat) (s : bytes) : option (Z * bytes) :=
  match get_digits k s with Some (d, r) => Some (Z.of_N (dval d), r) | None => None end.

Definition expect (c : ascii) (s : bytes) : option bytes :=
  match s with
  | x :: s => if Ascii.eqb x c then Some s else None
  | [] => None
  end.

(** time.getnum(value, false), used for the hour: one or two digits. *)
Definition get_hour (s : bytes) : option (Z * bytes) :=
  match get_num 2 s with
  | Some x => Some x
  | None => get_num 1 s
  end.

(** Fractional seconds, accepted though the layout has none: the digits are a
    number below 10^9, scaled if there are fewer than nine of them
    (time.parseNanoseconds of Go 1.13). *)
Definition get_frac (s : bytes) : option (Z * bytes) :=
  match s with
  | c :: d :: _ =>
      if Ascii.eqb c c_dot && is_digit d then
        let '(ds, r) := span_digits (tail s) in
        if (dval ds <? 10 ^ 9)%N then Some (Z.of_N (dval ds * 10 ^ N.of_nat (9 - length ds)), r)
        else None
      else Some (0, s)
  | _ => Some (0, s)
  end.

(** time.atoi of two characters: the first may be a sign. *)
Definition get_signed (s : bytes) : option (Z * bytes) :=
  match s with
  | a :: b :: r =>
      if is_digit b then
        if is_digit a then Some (Z.of_N (dval [a; b]), r)
        else if Ascii.eqb a c_dash then Some (- Z.of_N (dval [b]), r)
        else if Ascii.eqb a c_plus then Some (Z.of_N (dval [b]), r)
        else None
      else None
  | _ => None
  end.

(** "Z07:00"; the result is the offset in seconds, of any size (Go 1.13). *)
Definition get_zone (s : bytes) : option (Z * bytes) :=
  match s with
  | [] => None
  | c :: s =>
      if Ascii.eqb c c_Z then Some (0, s)
      else if Ascii.eqb c c_plus || Ascii.eqb c c_dash then
        '(hr, s) ← get_signed s; s ← expect colon s; '(mi, s) ← get_signed s;
        Some ((if Ascii.eqb c c_dash then -1 else 1) * ((hr * 60 + mi) * 60), s)
      else None
  end.

(** time.Parse(time.RFC3339, s); [None] is an error. *)
Definition parse_time (s : bytes) : option gotime :=
  '(y, s) ← get_num 4 s; s ← expect c_dash s;
  '(m, s) ← get_num 2 s; s ← expect c_dash s;
  '(d, s) ← get_num 2 s; s ← expect c_T s;
  '(hh, s) ← get_hour s; s ← expect colon s;
  '(mm, s) ← get_num 2 s; s ← expect colon s;
  '(ss, s) ← get_num 2 s;
  '(ns, s) ← get_frac s;
  '(off, s) ← get_zone s;
  match s with
  | _ :: _ => None
  | [] =>
      if (1 <=? m) && (m <=? 12) && (hh <? 24) && (mm <? 60) && (ss <? 60) &&
         (1 <=? d) && (d <=? days_in m y)
      then Some (GoTime ((days_of_date y m d - unix_day) * 86400 + hh * 3600 + mm * 60 + ss - off) ns off)
      else None
  end.

(** ** Specification *)

(** The calendar year of a time, as its own zone shows it. *)
Definition year_of (t : gotime) : Z := (civil ((t_sec t + t_off t) / 86400 + unix_day)).1.1.

Record representable (t : gotime) : Prop := {
  rt_nsec : 0 <= t_nsec t < 1000000000;
  rt_year : 0 <= year_of t <= 9999;
  rt_zone : t_off t mod 60 = 0;
  rt_off : -360000 < t_off t < 360000
}.

(** ** Proofs *)

Fixpoint check_from (ok : Z -> bool) (n : nat) (i : Z) : bool :=
  match n with
  | O => true
  | S n => if ok i then check_from ok n (i + 1) else false
  end.

Lemma check_from_spec ok n i : check_from ok n i = true -> forall j, i <= j < i + Z.of_nat n -> ok j = true.
Proof.
  revert i. induction n as [|n IH]; intros i; [lia|]. cbn [check_from].
  destruct (ok i) eqn:E; [|done]. intros H j Hj. destruct (Z.eq_dec i j) as [->|]; [done|].
  apply (IH (i + 1)); [done|lia].
Qed.

(** Facts about one 400-year cycle, checked day by day. *)
Definition cycle_ok (r : Z) : bool :=
  let '(y, yday) := cycle_year r in
  let '(m, day) := month_day (is_leap (y + 1)) yday in
  (0 <=? y) && (y <? 400) && (1 <=? m) && (m <=? 12) && (1 <=? day) && (day <=? days_in m (y + 1)) &&
  (days_of_date (y + 1) m day =? r).

Lemma cycle_all : check_from cycle_ok (Z.to_nat 146097) 0 = true.
Proof. by vm_compute. Qed.

Lemma cycle_fact r : 0 <= r < 146097 -> cycle_ok r = true.
Proof.
  intros H. apply (check_from_spec _ _ _ cycle_all). rewrite Z2Nat.id; lia.
Qed.

Lemma is_leap_shift n y : is_leap (400 * n + y) = is_leap y.
Proof.
  unfold is_leap.
  replace ((400 * n + y) mod 4) with (y mod 4).
  2:{ replace (400 * n + y) with (y + (100 * n) * 4) by ring. by rewrite Z.mod_add by lia. }
  replace ((400 * n + y) mod 100) with (y mod 100).
  2:{ replace (400 * n + y) with (y + (4 * n) * 100) by ring. by rewrite Z.mod_add by lia. }
  replace ((400 * n + y) mod 400) with (y mod 400).
  2:{ replace (400 * n + y) with (y + n * 400) by ring. by rewrite Z.mod_add by lia. }
  done.
Qed.

Lemma days_of_year_shift n y : days_of_year (400 * n + y) = 146097 * n + days_of_year y.
Proof.
  unfold days_of_year. replace (400 * n + y - 1) with (y - 1 + n * 400) by ring.
  rewrite Z.div_add by lia. cbv zeta.
  replace (y - 1 + n * 400 - 400 * ((y - 1) / 400 + n)) with (y - 1 - 400 * ((y - 1) / 400)) by ring.
  ring.
Qed.

Lemma days_in_shift n y m : days_in m (400 * n + y) = days_in m y.
Proof. unfold days_in. by rewrite is_leap_shift. Qed.

Lemma civil_spec d y m day :
  civil d = (y, m, day) ->
  days_of_date y m day = d /\ 1 <= m <= 12 /\ 1 <= day <= days_in m y.
Proof.
  unfold civil. pose proof (Z.mod_pos_bound d 146097 ltac:(lia)) as Hr.
  pose proof (cycle_fact _ Hr) as Hc. pose proof (Z.div_mod d 146097 ltac:(lia)) as Hd.
  revert Hc. unfold cycle_ok. destruct (cycle_year (d mod 146097)) as [y0 yday].
  replace (400 * (d / 146097) + y0 + 1) with (400 * (d / 146097) + (y0 + 1)) by ring.
  rewrite is_leap_shift. destruct (month_day (is_leap (y0 + 1)) yday) as [m0 day0].
  rewrite !andb_true_iff, !Z.leb_le, Z.ltb_lt, Z.eqb_eq. intros Hall [= <- <- <-].
  rewrite days_in_shift. unfold days_of_date in *. rewrite days_of_year_shift, is_leap_shift.
  destruct Hall as [[[[[[H1 H2] H3] H4] H5] H6] H7]. split_and!; try lia.
Qed.

Lemma days_in_le m y : days_in m y <= 31 \/ 12 < m \/ m < 1.
Proof.
  unfold days_in. destruct (Z_le_gt_dec m 12); [|lia]. destruct (Z_le_gt_dec 1 m); [|lia]. left.
  assert (Hm : m = 1 \/ m = 2 \/ m = 3 \/ m = 4 \/ m = 5 \/ m = 6 \/ m = 7 \/ m = 8 \/ m = 9 \/ m = 10 \/ m = 11 \/ m = 12) by lia.
  repeat destruct Hm as [-> | Hm]; try subst m; destruct (is_leap y); vm_compute; congruence.
Qed.

(** Fixed-width numbers. *)
Lemma get_digits_app d r :
  Forall (fun c => is_digit c = true) d -> get_digits (length d) (d ++ r) = Some (d, r).
Proof. induction 1 as [|c d Hc Hd IH]; [done|]. simpl. by rewrite Hc, IH. Qed.

Lemma get_num_append w z r :
  (0 < w)%nat -> 0 <= z < 10 ^ Z.of_nat w -> get_num w (append_int w z ++ r) = Some (z, r).
Proof.
  intros Hw Hz. unfold append_int. destruct (Z.ltb_spec z 0); [lia|].
  assert (Hl : length (pad w (Z.to_N z)) = w).
  { apply pad_length; [done|]. apply N2Z.inj_lt. rewrite N2Z.inj_pow, nat_N_Z, Z2N.id by lia. simpl. lia. }
  unfold get_num. rewrite <- Hl at 1. rewrite get_digits_app by apply pad_digits.
  rewrite pad_val, Z2N.id by lia. done.
Qed.

Lemma append_int_digits w z : 0 <= z -> Forall (fun c => is_digit c = true) (append_int w z).
Proof. intros Hz. unfold append_int. destruct (Z.ltb_spec z 0); [lia|]. apply pad_digits. Qed.

(** Fractions. *)
Lemma trim_zeros_rev_spec s : exists k, s = replicate k "0"%char ++ trim_zeros_rev s.
Proof.
  induction s as [|c s [k IH]]; [by exists 0%nat|]. simpl.
  destruct (Ascii.eqb_spec c "0"%char) as [->|]; [|by exists 0%nat].
  exists (S k). simpl. by f_equal.
Qed.

Lemma rev_replicate {A} k (x : A) : rev (replicate k x) = replicate k x.
Proof.
  induction k as [|k IH]; [done|]. simpl. rewrite IH. symmetry. apply replicate_cons_app.
Qed.

Lemma dval_zeros_r s k : dval (s ++ replicate k "0"%char) = (dval s * 10 ^ N.of_nat k)%N.
Proof.
  rewrite dval_app, replicate_length.
  rewrite <- (app_nil_r (replicate k "0"%char)), dval_zeros. change (dval []) with 0%N. lia.
Qed.

Lemma get_frac_nano ns r :
  0 <= ns < 1000000000 ->
  match r with [] => False | c :: _ => is_digit c = false /\ c <> c_dot end ->
  get_frac (format_nano ns ++ r) = Some (ns, r).
Proof.
  intros Hn Hr. unfold format_nano.
  assert (Hd : Forall (fun c => is_digit c = true) (append_int 9 ns)) by (apply append_int_digits; lia).
  assert (Hl : length (append_int 9 ns) = 9%nat).
  { unfold append_int. destruct (Z.ltb_spec ns 0); [lia|]. apply pad_length; [lia|].
    change (10 ^ N.of_nat 9)%N with 1000000000%N. lia. }
  assert (Hv : dval (append_int 9 ns) = Z.to_N ns).
  { unfold append_int. destruct (Z.ltb_spec ns 0); [lia|]. apply pad_val. }
  destruct (trim_zeros_rev_spec (rev (append_int 9 ns))) as [k Hk].
  set (d := rev (trim_zeros_rev (rev (append_int 9 ns)))).
  assert (Ha : append_int 9 ns = d ++ replicate k "0"%char).
  { rewrite <- (rev_involutive (append_int 9 ns)), Hk at 1. rewrite rev_app_distr, rev_replicate. done. }
  rewrite Ha in Hd, Hl, Hv. apply Forall_app in Hd as [Hd _]. rewrite app_length, replicate_length in Hl.
  rewrite dval_zeros_r in Hv.
  destruct d as [|c d'] eqn:Ed.
  - change (dval []) with 0%N in Hv. assert (ns = 0) as -> by lia.
    destruct r as [|c r]; [done|]. destruct Hr as [H1 H2]. simpl. destruct r as [|c2 r]; [done|].
    by rewrite (proj2 (Ascii.eqb_neq _ _) H2).
  - rewrite <- app_comm_cons. cbn [get_frac app]. inversion Hd; subst.
    rewrite H1. change (Ascii.eqb c_dot c_dot) with true. cbn [andb tail].
    change (c :: d' ++ r) with ((c :: d') ++ r).
    rewrite span_digits_app; [|done|by destruct r as [|c' r]; [|destruct Hr]].
    assert ((dval (c :: d') <? 10 ^ 9)%N = true) as ->.
    { apply N.ltb_lt. pose proof (N.pow_nonzero 10 (N.of_nat k) ltac:(lia)). change (10 ^ 9)%N with 1000000000%N. nia. }
    replace (9 - length (c :: d'))%nat with k by lia. rewrite Hv. by rewrite Z2N.id by lia.
Qed.

Lemma get_signed_num s x : get_num 2 s = Some x -> get_signed s = Some x.
Proof.
  unfold get_num. cbn [get_digits]. destruct s as [|a s]; [done|]. destruct (is_digit a) eqn:Ea; [|done]. destruct s as [|b s]; [done|].
  destruct (is_digit b) eqn:Eb; [|done]. intros <-. cbn [get_signed]. by rewrite Ea, Eb.
Qed.
Lemma get_zone_format off :
  off mod 60 = 0 -> -360000 < off < 360000 -> get_zone (format_zone off) = Some (off, []).
Proof.
  intros Hm Ho. unfold format_zone. destruct (Z.eqb_spec off 0) as [->|Hne]; [done|].
  assert (Hq : off = 60 * Z.quot off 60).
  { apply Z.div_exact in Hm; [|lia].
    assert (Hr : Z.rem off 60 = 0) by (rewrite Hm, Z.mul_comm; by apply Z.rem_mul).
    pose proof (Z.quot_rem' off 60). lia. }
  set (z := Z.quot off 60) in *.
  assert (Hz : 0 <= Z.abs z < 6000) by lia.
  assert (H1 : 0 <= Z.abs z / 60 < 100).
  { split; [by apply Z.div_pos; lia|apply Z.div_lt_upper_bound; lia]. }
  pose proof (Z.mod_pos_bound (Z.abs z) 60 ltac:(lia)) as H2.
  pose proof (Z.div_mod (Z.abs z) 60 ltac:(lia)) as H3.
  cbn [get_zone].
  assert (Hg : get_num 2 (append_int 2 (Z.abs z / 60) ++ colon :: append_int 2 (Z.abs z mod 60)) =
    Some (Z.abs z / 60, colon :: append_int 2 (Z.abs z mod 60))).
  { apply get_num_append; [lia|]. change (10 ^ Z.of_nat 2) with 100. lia. }
  assert (Hg2 : get_num 2 (append_int 2 (Z.abs z mod 60)) = Some (Z.abs z mod 60, [])).
  { pose proof (get_num_append 2 (Z.abs z mod 60) []) as Hx. rewrite app_nil_r in Hx. apply Hx; [lia|].
    change (10 ^ Z.of_nat 2) with 100. lia. }
  apply get_signed_num in Hg, Hg2.
  destruct (Z.ltb_spec z 0).
  - change (Ascii.eqb c_dash c_Z) with false. change (Ascii.eqb c_dash c_plus) with false.
    change (Ascii.eqb c_dash c_dash) with true. cbn [orb]. rewrite Hg. cbn -[Z.mul Z.add get_signed].
    rewrite Hg2. cbn -[Z.mul Z.add Z.div Z.modulo Z.abs]. f_equal. f_equal. lia.
  - change (Ascii.eqb c_plus c_Z) with false. change (Ascii.eqb c_plus c_plus) with true.
    change (Ascii.eqb c_plus c_dash) with false. cbn [orb]. rewrite Hg. cbn -[Z.mul Z.add get_signed].
    rewrite Hg2. cbn -[Z.mul Z.add Z.div Z.modulo Z.abs]. f_equal. f_equal. lia.
Qed.

Lemma format_zone_head off : match format_zone off with [] => False | c :: _ => is_digit c = false /\ c <> c_dot end.
Proof. unfold format_zone. destruct (off =? 0); [done|]. by destruct (Z.quot off 60 <? 0). Qed.

Lemma time_round t : representable t -> parse_time (format_time t) = Some t.
Proof.
  intros [Hns Hy Hz Ho]. unfold year_of in Hy. unfold format_time.
  set (s := t_sec t + t_off t) in *. destruct (civil (s / 86400 + unix_day)) as [[y m] d] eqn:Ec.
  cbn [fst] in Hy. destruct (civil_spec _ _ _ _ Ec) as (Hdays & Hm & Hd).
  pose proof (days_in_le m y) as Hdi.
  pose proof (Z.mod_pos_bound s 86400 ltac:(lia)) as Hs.
  pose proof (Z.div_mod s 86400 ltac:(lia)) as Hsd.
  set (sod := s mod 86400) in *.
  assert (Hh : 0 <= sod / 3600 < 24).
  { split; [apply Z.div_pos; lia|apply Z.div_lt_upper_bound; lia]. }
  pose proof (Z.mod_pos_bound sod 3600 ltac:(lia)) as Hr.
  pose proof (Z.div_mod sod 3600 ltac:(lia)) as Hsod.
  assert (Hmi : 0 <= sod mod 3600 / 60 < 60).
  { split; [apply Z.div_pos; lia|apply Z.div_lt_upper_bound; lia]. }
  pose proof (Z.div_mod (sod mod 3600) 60 ltac:(lia)) as Hm60.
  assert (Hss : (sod mod 3600) mod 60 = sod mod 60).
  { change 3600 with (60 * 60). rewrite Z.rem_mul_r by lia. rewrite Z.mul_comm, Z.mod_add by lia. apply Z.mod_mod. lia. }
  pose proof (Z.mod_pos_bound sod 60 ltac:(lia)) as Hs60.
  unfold parse_time. rewrite <- ?app_assoc.
  rewrite get_num_append by (change (10 ^ Z.of_nat 4) with 10000; lia).
  cbn [mbind option_bind app expect]. change (Ascii.eqb c_dash c_dash) with true. cbv iota. cbn [mbind option_bind].
  rewrite <- ?app_assoc. rewrite get_num_append by (change (10 ^ Z.of_nat 2) with 100; lia).
  cbn [mbind option_bind app expect]. change (Ascii.eqb c_dash c_dash) with true. cbv iota. cbn [mbind option_bind].
  rewrite <- ?app_assoc. rewrite get_num_append by (change (10 ^ Z.of_nat 2) with 100; lia).
  cbn [mbind option_bind app expect]. change (Ascii.eqb c_T c_T) with true. cbv iota. cbn [mbind option_bind].
  rewrite <- ?app_assoc. unfold get_hour. rewrite get_num_append by (change (10 ^ Z.of_nat 2) with 100; lia).
  cbn [mbind option_bind app expect]. change (Ascii.eqb colon colon) with true. cbv iota. cbn [mbind option_bind].
  rewrite <- ?app_assoc. rewrite get_num_append by (change (10 ^ Z.of_nat 2) with 100; lia).
  cbn [mbind option_bind app expect]. change (Ascii.eqb colon colon) with true. cbv iota. cbn [mbind option_bind].
  rewrite <- ?app_assoc. rewrite get_num_append by (change (10 ^ Z.of_nat 2) with 100; lia).
  cbn [mbind option_bind app expect].
  rewrite get_frac_nano; [|done|apply format_zone_head]. cbn [mbind option_bind].
  rewrite get_zone_format by done. cbn [mbind option_bind].
  assert (Hok : (1 <=? m) && (m <=? 12) && (sod / 3600 <? 24) && (sod mod 3600 / 60 <? 60) && (sod mod 60 <? 60) &&
         (1 <=? d) && (d <=? days_in m y) = true).
  { rewrite !andb_true_iff, !Z.leb_le, !Z.ltb_lt. lia. }
  rewrite Hok, Hdays. destruct t as [sec ns off]. cbn [t_sec t_off t_nsec] in *. f_equal. f_equal.
  subst s. lia.
Qed.
