(** Theorems: the dates the file server sends (C115). *)
From Verif Require Import Bytes GoPath Here GoTypes GoNum GoTimeFmt Mem MemSpec MemBase MemFiles WalkSpec MemWalk
  MemDirs MemDirs2 PropsFiles PropsDirs PropsWalk PropsMarshal Disk PropsParser PropsStd Http HttpProofs HttpRange HttpMem HttpDisk PropsHttp.
Local Open Scope Z_scope.

(** ** The date of RFC 7231: "Sun, 06 Nov 1994 08:49:37 GMT" *)

(** The Gregorian calendar: days since December 31 of year 0, a Sunday. *)
Definition leap (y : Z) : Prop := (y mod 4 = 0 /\ y mod 100 <> 0) \/ y mod 400 = 0.
Global Instance leap_dec y : Decision (leap y).
Proof. unfold leap. apply _. Defined.
Definition month_lengths (y : Z) : list Z := [31; if decide (leap y) then 29 else 28; 31; 30; 31; 30; 31; 31; 30; 31; 30; 31].
Definition day_number (y m d : Z) : Z :=
  365 * (y - 1) + (y - 1) / 4 - (y - 1) / 100 + (y - 1) / 400 + foldr Z.add 0 (take (Z.to_nat (m - 1)) (month_lengths y)) + d.

Definition digit (n : Z) : ascii := ascii_of_N (48 + Z.to_N n).
Definition two (n : Z) : bytes := [digit (n / 10); digit (n mod 10)].
Definition four (n : Z) : bytes := two (n / 100) ++ two (n mod 100).
Definition day_names : list bytes := [B"Sun"; B"Mon"; B"Tue"; B"Wed"; B"Thu"; B"Fri"; B"Sat"].
Definition month_names : list bytes := [B"Jan"; B"Feb"; B"Mar"; B"Apr"; B"May"; B"Jun"; B"Jul"; B"Aug"; B"Sep"; B"Oct"; B"Nov"; B"Dec"].

(** [x] is the date of the second [s] since 1970. *)
Definition is_date (s : Z) (x : bytes) : Prop :=
  exists y m d h mi se wd mo,
    0 <= y <= 9999 /\ 1 <= m <= 12 /\ (exists len, month_lengths y !! Z.to_nat (m - 1) = Some len /\ 1 <= d <= len) /\
    0 <= h <= 23 /\ 0 <= mi <= 59 /\ 0 <= se <= 59 /\
    s = (day_number y m d - day_number 1970 1 1) * 86400 + h * 3600 + mi * 60 + se /\
    day_names !! Z.to_nat (day_number y m d mod 7) = Some wd /\ month_names !! Z.to_nat (m - 1) = Some mo /\
    x = wd ++ B", " ++ two d ++ B" " ++ mo ++ B" " ++ four y ++ B" " ++ two h ++ B":" ++ two mi ++ B":" ++ two se ++ B" GMT".

(** From the first second of the year 0 to the last of the year 9999. *)
Definition four_digit_year (s : Z) : Prop :=
  (day_number 0 1 1 - day_number 1970 1 1) * 86400 <= s < (day_number 10000 1 1 - day_number 1970 1 1) * 86400.

(** ** Proofs *)
Lemma two_eq z : 0 <= z < 100 -> append_int 2 z = two z.
Proof.
  intros Hz. pose proof (check_from_spec (fun z => bool_decide (append_int 2 z = two z)) 100 0 ltac:(by vm_compute) z ltac:(lia)) as H.
  by apply bool_decide_eq_true in H.
Qed.
Lemma four_eq z : 0 <= z < 10000 -> append_int 4 z = four z.
Proof.
  intros Hz. pose proof (check_from_spec (fun z => bool_decide (append_int 4 z = four z)) (Z.to_nat 10000) 0 ltac:(by vm_compute) z ltac:(rewrite Z2Nat.id; lia)) as H.
  by apply bool_decide_eq_true in H.
Qed.
Lemma digit_inj a b : 0 <= a < 10 -> 0 <= b < 10 -> digit a = digit b -> a = b.
Proof.
  intros Ha Hb E. unfold digit in E. apply (f_equal N_of_ascii) in E. rewrite !N_ascii_embedding in E by lia. lia.
Qed.
Lemma two_inj a b : 0 <= a < 100 -> 0 <= b < 100 -> two a = two b -> a = b.
Proof.
  intros Ha Hb E. unfold two in E. injection E as E1 E2.
  apply digit_inj in E1; [|split; [apply Z.div_pos; lia|apply Z.div_lt_upper_bound; lia]..].
  apply digit_inj in E2; [|apply Z.mod_pos_bound; lia..].
  rewrite (Z.div_mod a 10), (Z.div_mod b 10) by lia. congruence.
Qed.
Lemma four_inj a b : 0 <= a < 10000 -> 0 <= b < 10000 -> four a = four b -> a = b.
Proof.
  intros Ha Hb E. unfold four in E. apply app_inj_1 in E as [E1 E2]; [|done].
  apply two_inj in E1; [|split; [apply Z.div_pos; lia|apply Z.div_lt_upper_bound; lia]..].
  apply two_inj in E2; [|apply Z.mod_pos_bound; lia..].
  rewrite (Z.div_mod a 100), (Z.div_mod b 100) by lia. congruence.
Qed.

Lemma leap_is y : is_leap y = bool_decide (leap y).
Proof.
  unfold is_leap, leap. case_bool_decide as H.
  - apply andb_true_iff. rewrite orb_true_iff, negb_true_iff, Z.eqb_neq, !Z.eqb_eq. destruct H as [[H1 H2]|H]; [by auto|].
    split; [|by right]. rewrite (Znumtheory.Zmod_div_mod 4 400), H; [done|lia|lia|]. by exists 100.
  - apply not_true_iff_false. rewrite andb_true_iff, orb_true_iff, negb_true_iff, Z.eqb_neq, !Z.eqb_eq. tauto.
Qed.
Lemma days_of_year_is y : days_of_year y = 365 * (y - 1) + (y - 1) / 4 - (y - 1) / 100 + (y - 1) / 400.
Proof. unfold days_of_year. Z.to_euclidean_division_equations. lia. Qed.
Lemma month_cases m : 1 <= m <= 12 -> m = 1 \/ m = 2 \/ m = 3 \/ m = 4 \/ m = 5 \/ m = 6 \/ m = 7 \/ m = 8 \/ m = 9 \/ m = 10 \/ m = 11 \/ m = 12.
Proof. lia. Qed.
Lemma day_number_is y m d : 1 <= m <= 12 -> day_number y m d = days_of_date y m d + 1.
Proof.
  intros Hm. unfold day_number, days_of_date. rewrite days_of_year_is, leap_is. unfold month_lengths.
  destruct (decide (leap y)) as [H|H]; [rewrite bool_decide_eq_true_2 by done|rewrite bool_decide_eq_false_2 by done];
    destruct (month_cases m Hm) as [->|[->|[->|[->|[->|[->|[->|[->|[->|[->|[->| ->]]]]]]]]]]];
    match goal with |- context [Z.to_nat ?e] => let v := eval vm_compute in (Z.to_nat e) in change (Z.to_nat e) with v end;
    cbn [take foldr andb]; match goal with |- context [days_before ?e] => let v := eval vm_compute in (days_before e) in change (days_before e) with v end;
    cbn [Z.leb Z.compare Pos.compare Pos.compare_cont]; lia.
Qed.
Lemma month_length_is y m len : 1 <= m <= 12 -> days_in m y = len -> month_lengths y !! Z.to_nat (m - 1) = Some len.
Proof.
  intros Hm <-. unfold days_in. rewrite leap_is. unfold month_lengths.
  destruct (decide (leap y)) as [H|H]; [rewrite bool_decide_eq_true_2 by done|rewrite bool_decide_eq_false_2 by done];
    destruct (month_cases m Hm) as [->|[->|[->|[->|[->|[->|[->|[->|[->|[->|[->| ->]]]]]]]]]]]; by vm_compute.
Qed.
Lemma names_length (l : list bytes) : forallb (fun w => Nat.eqb (length w) 3) l = true -> forall i w, l !! i = Some w -> length w = 3%nat.
Proof.
  rewrite forallb_forall. intros H i w Hi. apply Nat.eqb_eq, H, elem_of_list_In. by eapply elem_of_list_lookup_2.
Qed.
Lemma names_inj (l : list bytes) : bool_decide (NoDup l) = true -> forall i j w, l !! i = Some w -> l !! j = Some w -> i = j.
Proof. intros H%bool_decide_eq_true i j w. by apply NoDup_lookup. Qed.
Lemma day_len i w : day_names !! i = Some w -> length w = 3%nat.
Proof. by apply names_length. Qed.
Lemma month_len i w : month_names !! i = Some w -> length w = 3%nat.
Proof. by apply names_length. Qed.

Lemma year_len y m d : 1 <= m <= 12 -> 1 <= d <= days_in m y -> day_number y 1 1 <= day_number y m d < day_number (y + 1) 1 1.
Proof.
  intros Hm Hd. assert (Hl := month_length_is y m _ Hm eq_refl). revert Hl Hd. generalize (days_in m y). intros len Hl Hd.
  unfold day_number. change (Z.to_nat (1 - 1)) with 0%nat. cbn [take foldr]. replace (y + 1 - 1) with y by lia.
  assert (Hg : 365 * (y - 1) + (y - 1) / 4 - (y - 1) / 100 + (y - 1) / 400 + (if decide (leap y) then 366 else 365) =
               365 * y + y / 4 - y / 100 + y / 400).
  { unfold leap. destruct (decide _) as [H|H]; Z.to_euclidean_division_equations; lia. }
  revert Hl. unfold month_lengths.
  destruct (decide (leap y)) as [H|H];
    destruct (month_cases m Hm) as [->|[->|[->|[->|[->|[->|[->|[->|[->|[->|[->| ->]]]]]]]]]]];
    match goal with |- context [Z.to_nat ?e] => let v := eval vm_compute in (Z.to_nat e) in change (Z.to_nat e) with v end;
    cbn [take foldr lookup list_lookup]; intros [= <-]; lia.
Qed.
Lemma year_mono y y' : y <= y' -> day_number y 1 1 <= day_number y' 1 1.
Proof.
  intros H. unfold day_number. change (Z.to_nat (1 - 1)) with 0%nat. cbn [take foldr].
  assert (H4 : (y - 1) / 4 <= (y' - 1) / 4) by (apply Z.div_le_mono; lia).
  assert (H400 : (y - 1) / 400 <= (y' - 1) / 400) by (apply Z.div_le_mono; lia).
  assert (H100 : (y' - 1) / 100 <= (y - 1 + (y' - y) * 100) / 100) by (apply Z.div_le_mono; lia).
  rewrite Z.div_add in H100 by lia. rewrite !take_0. cbn [foldr]. lia.
Qed.
Lemma year_bounds s : four_digit_year s -> 0 <= (civil (s / 86400 + unix_day)).1.1 <= 9999.
Proof.
  intros [H1 H2]. destruct (civil (s / 86400 + unix_day)) as [[y m] d] eqn:Ec. destruct (civil_spec _ _ _ _ Ec) as (Hday & Hm & Hd). cbn [fst].
  pose proof (year_len y m d Hm Hd) as [L1 L2]. rewrite (day_number_is y m d), Hday in L1, L2 by done.
  change (day_number 1970 1 1) with (unix_day + 1) in H1, H2.
  assert (day_number 0 1 1 <= s / 86400 + unix_day + 1) by (clear -H1; Z.to_euclidean_division_equations; lia).
  assert (s / 86400 + unix_day + 1 < day_number 10000 1 1) by (clear -H2; Z.to_euclidean_division_equations; lia).
  split.
  - destruct (Z.le_gt_cases 0 y) as [?|Hn]; [done|]. pose proof (year_mono (y + 1) 0 ltac:(lia)). lia.
  - destruct (Z.le_gt_cases y 9999) as [?|Hn]; [done|]. pose proof (year_mono 10000 y ltac:(lia)). lia.
Qed.
Lemma date_len s x : is_date s x -> length x = 29%nat.
Proof.
  intros (y & m & d & h & mi & se & wd & mo & _ & _ & _ & _ & _ & _ & _ & Hwd & Hmo & ->).
  rewrite !app_length, (day_len _ _ Hwd), (month_len _ _ Hmo). done.
Qed.

(** ** C115 *)

(** The server's date is the date of the modification time, in UTC, to the
    second; for the years 0 to 9999. *)
Theorem C115_date t : four_digit_year (t_sec t) -> is_date (t_sec t) (http_date t).
Proof.
  intros Hy%year_bounds. unfold http_date. set (day := t_sec t / 86400 + unix_day) in *. destruct (civil day) as [[y m] d] eqn:Ec. cbn [fst] in Hy.
  destruct (civil_spec _ _ _ _ Ec) as (Hday & Hm & Hd).
  set (sod := t_sec t mod 86400). assert (Hs : 0 <= sod < 86400) by (apply Z.mod_pos_bound; lia).
  assert (Hd31 : d <= 31) by (destruct (days_in_le m y) as [?|[?|?]]; lia).
  assert (Hn : day_number y m d = day + 1) by (rewrite day_number_is, Hday by done; lia).
  assert (Hh : 0 <= sod / 3600 <= 23) by (split; [apply Z.div_pos; lia|apply Z.lt_succ_r, Z.div_lt_upper_bound; lia]).
  assert (Hr : 0 <= sod mod 3600 < 3600) by (apply Z.mod_pos_bound; lia).
  assert (Hmi : 0 <= sod mod 3600 / 60 <= 59) by (split; [apply Z.div_pos; lia|apply Z.lt_succ_r, Z.div_lt_upper_bound; lia]).
  assert (Hse : 0 <= sod mod 60 < 60) by (apply Z.mod_pos_bound; lia).
  exists y, m, d, (sod / 3600), (sod mod 3600 / 60), (sod mod 60), (day_name day), (month_name m).
  split; [done|]. split; [done|]. split; [exists (days_in m y); split; [by apply month_length_is|done]|].
  split; [done|]. split; [done|]. split; [lia|]. split; [|split; [|split]].
  - rewrite Hn. change (day_number 1970 1 1) with 719163. unfold sod, day, unix_day. clear. Z.to_euclidean_division_equations. lia.
  - rewrite Hn. unfold day_name. assert (H7 : (day + 1) mod 7 = if day mod 7 =? 6 then 0 else day mod 7 + 1).
    { destruct (Z.eqb_spec (day mod 7) 6); Z.to_euclidean_division_equations; lia. }
    rewrite H7. pose proof (Z.mod_pos_bound day 7 ltac:(lia)) as Hb. generalize dependent (day mod 7). clear. intros z _ Hb.
    assert (z = 0 \/ z = 1 \/ z = 2 \/ z = 3 \/ z = 4 \/ z = 5 \/ z = 6) as [->|[->|[->|[->|[->|[->| ->]]]]]] by lia; done.
  - clear -Hm. destruct (month_cases m Hm) as [->|[->|[->|[->|[->|[->|[->|[->|[->|[->|[->| ->]]]]]]]]]]]; done.
  - rewrite !two_eq, four_eq by lia. by rewrite <- ?app_assoc.
Qed.

(** A date names one second. *)
Theorem C115_unique s s' x : is_date s x -> is_date s' x -> s = s'.
Proof.
  intros (y & m & d & h & mi & se & wd & mo & Hy & Hm & (len & Hlen & Hd) & Hh & Hmi & Hse & -> & Hwd & Hmo & ->)
         (y' & m' & d' & h' & mi' & se' & wd' & mo' & Hy' & Hm' & (len' & Hlen' & Hd') & Hh' & Hmi' & Hse' & -> & Hwd' & Hmo' & E).
  assert (Hle : forall y m len, month_lengths y !! Z.to_nat (m - 1) = Some len -> len <= 31).
  { clear. intros y m len H. apply elem_of_list_lookup_2 in H. unfold month_lengths in H.
    repeat (apply elem_of_cons in H as [->|H]; [try lia; destruct (decide _); lia|]). by apply elem_of_nil in H. }
  pose proof (Hle _ _ _ Hlen). pose proof (Hle _ _ _ Hlen').
  apply app_inj_1 in E as [_ E]; [|by rewrite (day_len _ _ Hwd), (day_len _ _ Hwd')].
  apply app_inv_head in E. apply app_inj_1 in E as [Ed E]; [|done]. apply app_inv_head in E.
  apply app_inj_1 in E as [Em E]; [|by rewrite (month_len _ _ Hmo), (month_len _ _ Hmo')].
  apply app_inv_head in E. apply app_inj_1 in E as [Ey E]; [|done]. apply app_inv_head in E.
  apply app_inj_1 in E as [Eh E]; [|done]. apply app_inv_head in E. apply app_inj_1 in E as [Emi E]; [|done]. apply app_inv_head in E.
  apply app_inj_1 in E as [Ese _]; [|done].
  apply two_inj in Ed; [|lia..]. apply four_inj in Ey; [|lia..]. apply two_inj in Eh; [|lia..]. apply two_inj in Emi; [|lia..].
  apply two_inj in Ese; [|lia..]. subst.
  assert (Z.to_nat (m - 1) = Z.to_nat (m' - 1)) as Ez by (eapply (names_inj month_names); [by vm_compute|exact Hmo|exact Hmo']).
  assert (m = m') as -> by lia. done.
Qed.

(** A client that asks again with the date it was given is told that nothing
    has changed. *)
Theorem C115_revalidate_partial parse now mime sniff boundary bufsize m r f g ds q ns fo since x :
  (0 < bufsize)%nat -> served m r f g ds ->
  means parse (f_here f) (m_here m) g ds ns -> ns <> ds -> asks_file q ns ->
  file_at m (Path g (abs_name (ds ++ ns))) = Some fo -> d_isdir (f_info fo) = false ->
  four_digit_year (t_sec (d_mtime (f_info fo))) ->
  q_range q = [] -> q_since q = None ->
  let answer_to q := (serve (mem_server parse now r) mime sniff boundary bufsize q m).2 in
  h_lastmod (r_headers (answer_to q)) = Some x -> is_date since x ->
  answer_to (Request (q_head q) (q_path q) (q_query q) [] (Some since)) =
    Response 304 (Headers None (Some x) None None None None None) [].
Proof.
  intros Hb SV Hm Hne Hq Hf Hd Hy Hr Hs answer_to Hx Hsince. unfold answer_to in *.
  rewrite (C92_get_partial parse now mime sniff boundary bufsize m r f g ds q ns fo (type_of mime sniff (f_info fo) (f_data fo))
    (lastmod_of (d_mtime (f_info fo)))) in Hx; [|done..|apply type_of_media|by apply lastmod_ok].
  cbn [r_headers h_lastmod] in Hx. unfold lastmod_of in Hx. destruct (zero_time (d_mtime (f_info fo))) eqn:Hz; [done|]. injection Hx as <-.
  assert (since = t_sec (d_mtime (f_info fo))) as -> by (eapply C115_unique; [exact Hsince|by apply C115_date]).
  eapply C96_since_partial; [done|done|exact Hm|done|exact Hq|exact Hf|done|done|done|lia].
Qed.

Example C115_ex :
  let q := Request false (B"/a.txt") [] [] None in
  served hsite 13%nat hroot (B"app") [B"pub"] /\ means here_parse (f_here hroot) (m_here hsite) (B"app") [B"pub"] [B"a.txt"] /\
  asks_file q [B"a.txt"] /\ four_digit_year (t_sec t9) /\
  ((fun fo => d_mtime (f_info fo)) <$> file_at hsite (Path (B"app") (abs_name [B"pub"; B"a.txt"]))) = Some t9 /\
  h_lastmod (r_headers (ask q)) = Some (B"Wed, 15 Jan 2020 14:00:00 GMT") /\ is_date 1579096800 (B"Wed, 15 Jan 2020 14:00:00 GMT") /\
  is_date 951782399 (B"Mon, 28 Feb 2000 23:59:59 GMT") /\ is_date 951782400 (B"Tue, 29 Feb 2000 00:00:00 GMT") /\
  is_date (-1) (B"Wed, 31 Dec 1969 23:59:59 GMT").
Proof.
  split; [apply hsite_served|]. split; [means_tac|]. split; [split; by vm_compute|]. split; [split; by vm_compute|].
  split; [by vm_compute|]. split; [by vm_compute|].
  split; [|split; [|split]].
  - apply (C115_date t9). by split; vm_compute.
  - apply (C115_date (GoTime 951782399 0 0)). by split; vm_compute.
  - apply (C115_date (GoTime 951782400 0 0)). by split; vm_compute.
  - apply (C115_date (GoTime (-1) 0 0)). by split; vm_compute.
Qed.

(** A file dated after the year 9999 is sent with a date no client can
    read. *)
Theorem C115_far_refuted : exists t, forall s, ~ is_date s (http_date t).
Proof.
  exists (GoTime 253402300800 0 0). intros s H. pose proof (date_len _ _ H) as Hl.
  assert (Hc : length (http_date (GoTime 253402300800 0 0)) = 30%nat) by (by vm_compute). rewrite Hc in Hl. discriminate Hl.
Qed.

(** The date is left out for two instants exactly: the first of the year 1, which
    is Go's zero time, and the first of 1970. *)
Theorem C115_left_out t : lastmod_of t = None <->
  t_nsec t = 0 /\ (t_sec t = (day_number 1 1 1 - day_number 1970 1 1) * 86400 \/ t_sec t = 0).
Proof.
  unfold lastmod_of. change ((day_number 1 1 1 - day_number 1970 1 1) * 86400) with (- 86400 * unix_day).
  assert (E : zero_time t = true <-> t_nsec t = 0 /\ (t_sec t = - 86400 * unix_day \/ t_sec t = 0)).
  { unfold zero_time. rewrite andb_true_iff, orb_true_iff, !Z.eqb_eq. tauto. }
  destruct (zero_time t); [tauto|]. split; [done|]. intros H%E. done.
Qed.
