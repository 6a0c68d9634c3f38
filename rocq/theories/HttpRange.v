(** Range headers: what a client writes, what it means, and that the file
    server reads it that way. *)
From Verif Require Import Bytes GoPath Here GoTypes GoNum GoTimeFmt Mem Disk DiskOps Std Http HttpProofs.

(** ** Specification *)

(** Bytes [a] to [b], from [a] on, or the last [n]. *)
Inductive rspec := RFromTo (a b : nat) | RFrom (a : nat) | RLast (n : nat).

Definition num (n : nat) : bytes := dec (N.of_nat n).
Definition rspec_text (x : rspec) : bytes :=
  match x with
  | RFromTo a b => num a ++ "-"%char :: num b
  | RFrom a => num a ++ [ "-"%char ]
  | RLast n => "-"%char :: num n
  end.
Fixpoint commas (l : list bytes) : bytes :=
  match l with [] => [] | [w] => w | w :: l => w ++ ","%char :: commas l end.
Definition range_text (l : list rspec) : bytes := B"bytes=" ++ commas (rspec_text <$> l).

Definition small (n : nat) : Prop := (Z.of_nat n < 2 ^ 63)%Z.
Definition rspec_ok (x : rspec) : Prop :=
  match x with RFromTo a b => a <= b /\ small b | RFrom a => small a | RLast n => 0 < n /\ small n end.

(** Where the wanted part starts, and the part; none if it starts beyond the
    end. *)
Definition wanted (data : bytes) (x : rspec) : option (nat * bytes) :=
  match x with
  | RFromTo a b => if decide (a < length data) then Some (a, take (1 + b - a) (drop a data)) else None
  | RFrom a => if decide (a < length data) then Some (a, drop a data) else None
  | RLast n => Some (length data - n, drop (length data - n) data)
  end.

(** ** Proofs *)

Lemma split_on_app sep w s : sep ∉ w -> split_on sep (w ++ sep :: s) = w :: split_on sep s.
Proof.
  induction w as [|c w IH]; intros H; cbn.
  - by rewrite Ascii.eqb_refl.
  - apply not_elem_of_cons in H as [Hc Hw]. destruct (Ascii.eqb_spec c sep); [congruence|]. by rewrite IH.
Qed.
Lemma split_on_one sep w : sep ∉ w -> split_on sep w = [w].
Proof.
  induction w as [|c w IH]; intros H; cbn; [done|].
  apply not_elem_of_cons in H as [Hc Hw]. destruct (Ascii.eqb_spec c sep); [congruence|]. by rewrite IH.
Qed.
Lemma split_commas l : l <> [] -> Forall (fun w => ","%char ∉ w) l -> split_on ","%char (commas l) = l.
Proof.
  intros Hn H. induction H as [|w l Hw H IH]; [done|]. destruct l as [|v l]; [by apply split_on_one|].
  change (commas (w :: v :: l)) with (w ++ ","%char :: commas (v :: l)). rewrite split_on_app by done. by rewrite IH.
Qed.

Lemma cut_at_first sep w s : sep ∉ w -> cut_at sep (w ++ sep :: s) = Some (w, s).
Proof.
  induction w as [|c w IH]; intros H; cbn.
  - by rewrite Ascii.eqb_refl.
  - apply not_elem_of_cons in H as [Hc Hw]. destruct (Ascii.eqb_spec c sep); [congruence|]. by rewrite IH.
Qed.

Lemma trim_left_none s : Forall (fun c => is_space c = false) s -> trim_left s = s.
Proof. intros [|c t H]; [done|]. cbn. by rewrite H. Qed.
Lemma trim_space_none s : Forall (fun c => is_space c = false) s -> trim_space s = s.
Proof.
  intros H. unfold trim_space. rewrite (trim_left_none s) by done. rewrite trim_left_none, rev_involutive; [done|].
  by apply Forall_rev.
Qed.

Lemma digit_cases c : is_digit c = true -> is_space c = false /\ c <> "-"%char /\ c <> "+"%char /\ c <> ","%char.
Proof. destruct c as [[] [] [] [] [] [] [] []]; try done. Qed.

Lemma num_digits n : Forall (fun c => is_digit c = true) (num n).
Proof. apply dec_digits. Qed.
Lemma num_spaces n : Forall (fun c => is_space c = false) (num n).
Proof. eapply Forall_impl; [apply num_digits|]. intros c H. cbn beta in H. by destruct (digit_cases c H). Qed.
Lemma num_not c n : c = "-"%char \/ c = "+"%char \/ c = ","%char -> c ∉ num n.
Proof.
  intros Hc Hin. pose proof (num_digits n) as H. rewrite Forall_forall in H. specialize (H _ Hin). apply digit_cases in H. naive_solver.
Qed.
Lemma num_cons n : exists c s, num n = c :: s /\ is_digit c = true.
Proof.
  pose proof (dec_nonempty (N.of_nat n)) as H. pose proof (num_digits n) as Hd. unfold num in *. destruct (dec _) as [|c s]; [done|].
  exists c, s. split; [done|]. apply Forall_cons in Hd as [Hd _]. exact Hd.
Qed.

Lemma parse_int_num n : small n -> parse_int (num n) = Some (Z.of_nat n).
Proof.
  intros Hs. destruct (num_cons n) as (c & s & E & Hc). unfold parse_int. rewrite E.
  destruct (digit_cases c Hc) as (_ & H1 & H2 & _).
  destruct (Ascii.eqb_spec c "-"%char); [done|]. destruct (Ascii.eqb_spec c "+"%char); [done|].
  assert (Hp : parse_digits (c :: s) = Some (N.of_nat n)).
  { unfold parse_digits. assert (Hf : forallb is_digit (c :: s) = true).
    { rewrite <- E. apply forallb_forall. intros x Hx. pose proof (num_digits n) as Hd. rewrite Forall_forall in Hd. apply Hd. by apply elem_of_list_In. }
    rewrite Hf, <- E. unfold num. by rewrite dec_val. }
  rewrite Hp. unfold small in Hs. rewrite nat_N_Z.
  destruct (Z.leb_spec (- 2 ^ 63) (Z.of_nat n)); [|lia]. destruct (Z.ltb_spec (Z.of_nat n) (2 ^ 63)); [|lia]. done.
Qed.

Definition to_range (x : nat * bytes) : hrange := HRange (Z.of_nat x.1) (Z.of_nat (length x.2)).

Lemma rspec_spaces x : Forall (fun c => is_space c = false) (rspec_text x).
Proof.
  destruct x as [a b|a|n]; unfold rspec_text.
  - apply Forall_app. split; [apply num_spaces|]. constructor; [done|apply num_spaces].
  - apply Forall_app. split; [apply num_spaces|]. by constructor.
  - constructor; [done|apply num_spaces].
Qed.
Lemma rspec_commas x : ","%char ∉ rspec_text x.
Proof.
  assert (H : forall n, ","%char ∉ num n) by (intros n; apply num_not; auto).
  destruct x as [a b|a|n]; unfold rspec_text.
  - rewrite elem_of_app, elem_of_cons. intros [?|[?|?]]; [by eapply H|done|by eapply H].
  - rewrite elem_of_app, elem_of_list_singleton. intros [?|?]; [by eapply H|done].
  - rewrite elem_of_cons. intros [?|?]; [done|by eapply H].
Qed.
Lemma rspec_nonnil x : rspec_text x <> [].
Proof. destruct x as [a b|a|n]; unfold rspec_text; [destruct (num a)|destruct (num a)|]; done. Qed.

Lemma parse_range1_text data x : rspec_ok x ->
  parse_range1 (Z.of_nat (length data)) (rspec_text x) =
  match wanted data x with Some y => ORange (to_range y) | None => OBeyond end.
Proof.
  intros Hx. unfold parse_range1. rewrite trim_space_none by apply rspec_spaces.
  destruct (rspec_text x) as [|c0 t0] eqn:E0; [by apply rspec_nonnil in E0|]. rewrite <- E0. clear c0 t0 E0.
  destruct x as [a b|a|n]; cbn [rspec_text rspec_ok] in *.
  - destruct Hx as [Hab Hb]. rewrite cut_at_first by (apply num_not; auto). rewrite !trim_space_none by apply num_spaces.
    destruct (num_cons a) as (c & s & Ea & _). rewrite Ea, <- Ea. rewrite parse_int_num by (unfold small in *; lia).
    destruct (Z.ltb_spec (Z.of_nat a) 0); [lia|]. unfold wanted. destruct (Z.leb_spec (Z.of_nat (length data)) (Z.of_nat a)); case_decide; try lia; [done|].
    destruct (num_cons b) as (c' & s' & Eb & _). rewrite Eb, <- Eb. rewrite parse_int_num by done.
    destruct (Z.ltb_spec (Z.of_nat b) (Z.of_nat a)); [lia|]. unfold to_range. cbn [fst snd]. do 2 f_equal.
    rewrite take_length, drop_length. lia.
  - rewrite cut_at_first by (apply num_not; auto). rewrite trim_space_none by apply num_spaces.
    destruct (num_cons a) as (c & s & Ea & _). rewrite Ea, <- Ea. rewrite parse_int_num by done.
    destruct (Z.ltb_spec (Z.of_nat a) 0); [lia|]. unfold wanted. destruct (Z.leb_spec (Z.of_nat (length data)) (Z.of_nat a)); case_decide; try lia; [done|].
    change (trim_space []) with ([] : bytes). unfold to_range. cbn [fst snd]. do 2 f_equal. rewrite drop_length. lia.
  - destruct Hx as [Hn Hs]. change (cut_at "-"%char ("-"%char :: num n)) with (Some ([] : bytes, num n)). cbv beta iota.
    change (trim_space []) with ([] : bytes). cbv beta iota. rewrite (trim_space_none (num n)) by apply num_spaces. rewrite parse_int_num by done.
    cbv zeta. unfold to_range, wanted. cbn [fst snd]. rewrite drop_length. do 2 f_equal; lia.
Qed.

Lemma parse_range_loop_text data l : Forall rspec_ok l -> forall bey acc,
  parse_range_loop (Z.of_nat (length data)) (rspec_text <$> l) bey acc =
  match acc ++ (to_range <$> omap (wanted data) l) with
  | [] => if bey || negb (bool_decide (l = [])) then RNoOverlap else RGood []
  | rs => RGood rs
  end.
Proof.
  intros H. induction H as [|x l Hx H IH]; intros bey acc.
  - cbn. rewrite app_nil_r, orb_false_r. by destruct acc, bey.
  - cbn [fmap list_fmap parse_range_loop]. change (list_fmap rspec rspec bytes rspec_text l) with (rspec_text <$> l) || idtac.
    rewrite parse_range1_text by done. cbn [omap list_omap]. destruct (wanted data x) as [y|].
    + change (map rspec_text l) with (rspec_text <$> l) || idtac. rewrite IH. cbn [fmap list_fmap]. rewrite <- app_assoc. cbn [app].
      destruct acc; done.
    + rewrite IH. destruct (acc ++ _); [|done]. cbn [orb]. rewrite (bool_decide_eq_false_2 (x :: l = [])) by done. by rewrite orb_true_r.
Qed.

Lemma parse_range_text data l : l <> [] -> Forall rspec_ok l ->
  parse_range (range_text l) (Z.of_nat (length data)) =
  match omap (wanted data) l with [] => RNoOverlap | rs => RGood (to_range <$> rs) end.
Proof.
  intros Hn Hl. unfold parse_range, range_text. cbn [app].
  change (has_prefix _ _) with true. cbv iota.
  change (drop 6 _) with (commas (rspec_text <$> l)).
  rewrite split_commas.
  - rewrite parse_range_loop_text by done. cbn [app orb]. destruct (omap _ _); cbn; [|done].
    by rewrite bool_decide_eq_false_2.
  - by destruct l.
  - apply Forall_fmap, Forall_true. intros x. apply rspec_commas.
Qed.

(** The wanted part lies in the content. *)
Lemma wanted_slice data x (y : nat * bytes) : wanted data x = Some y -> slice data (Z.of_nat y.1) (Z.of_nat (length y.2)) = y.2.
Proof.
  unfold wanted, slice. rewrite !Nat2Z.id. destruct x as [a b|a|n]; try case_decide; intros [= <-]; cbn [fst snd].
  - rewrite take_length. apply (take_ge (drop a data)) || idtac.
    destruct (decide (1 + b - a <= length (drop a data))); [by rewrite Nat.min_l|].
    rewrite Nat.min_r by lia. by rewrite !take_ge by lia.
  - by rewrite take_ge.
  - by rewrite take_ge.
Qed.

Lemma slice_len data r : in_content (Z.of_nat (length data)) r -> length (slice data (g_start r) (g_len r)) = Z.to_nat (g_len r).
Proof. intros [H1 H2]. unfold slice. rewrite take_length, drop_length. lia. Qed.

(** The lengths of the parts of a multipart answer add up. *)
Lemma parts_body_length boundary first ctype data l :
  Forall (in_content (Z.of_nat (length data))) l -> Forall (fun r => 0 <= g_len r)%Z l ->
  parts_size boundary first ctype (Z.of_nat (length data)) l = Z.of_nat (length (parts_body boundary first ctype data l)).
Proof.
  intros H1 H2. revert first. induction l as [|r l IH]; intros first; [done|].
  apply Forall_cons in H1 as [Hr H1]. apply Forall_cons in H2 as [Hp H2].
  cbn [parts_size parts_body]. rewrite IH by done. rewrite !app_length, slice_len by done. lia.
Qed.
