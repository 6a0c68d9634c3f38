(** Theorems: the text of a Range header (C140). *)
From Verif Require Import Bytes GoPath Here GoTypes GoNum GoTimeFmt Mem MemSpec MemBase Http HttpProofs HttpMem HttpRange JsonSpec PropsFiles PropsParser PropsHttp.

(** ** Specification: the texts net/http of Go 1.13 accepts *)

Definition white (c : ascii) : Prop := c ∈ [" "%char; "009"%char; "010"%char; "011"%char; "012"%char; "013"%char].
Definition blank (w : bytes) : Prop := Forall white w.
(** A number of 64 bits, perhaps with a sign. *)
Inductive int_text : bytes -> Z -> Prop :=
| it_plain w n : decnum w n -> w <> [] -> (Z.of_N n < 2 ^ 63)%Z -> int_text w (Z.of_N n)
| it_plus w n : decnum w n -> w <> [] -> (Z.of_N n < 2 ^ 63)%Z -> int_text ("+"%char :: w) (Z.of_N n)
| it_minus w n : decnum w n -> w <> [] -> (Z.of_N n <= 2 ^ 63)%Z -> int_text ("-"%char :: w) (- Z.of_N n).

(** One element of the list, for content of [size] bytes: it asks for [n] bytes
    from [a] on, or begins behind the content (whatever comes after the hyphen).
    Blanks may stand anywhere outside the numbers. *)
Inductive element (size : Z) : bytes -> Z -> Z -> Prop :=
| el_last p q e r k : blank p -> blank q -> blank r -> int_text e k ->
    element size (p ++ B"-" ++ q ++ e ++ r) (size - Z.min k size) (Z.min k size)
| el_from p s q r i : blank p -> blank q -> blank r -> int_text s i -> "-"%char ∉ s -> (i < size)%Z ->
    element size (p ++ s ++ q ++ B"-" ++ r) i (size - i)
| el_fromto p s q r e t i j : blank p -> blank q -> blank r -> blank t -> int_text s i -> "-"%char ∉ s -> (i < size)%Z -> int_text e j -> (i <= j)%Z ->
    element size (p ++ s ++ q ++ B"-" ++ r ++ e ++ t) i (1 + Z.min j (size - 1) - i).
Definition behind (size : Z) (w : bytes) : Prop :=
  exists p s q r i, w = p ++ s ++ q ++ B"-" ++ r /\ blank p /\ blank q /\ int_text s i /\ "-"%char ∉ s /\ (size <= i)%Z.

(** A list of elements: the bytes asked for, in order, and whether an element
    is behind the content. *)
Inductive elements (size : Z) : list bytes -> list (Z * Z) -> bool -> Prop :=
| els_nil : elements size [] [] false
| els_blank w ws l b : blank w -> elements size ws l b -> elements size (w :: ws) l b
| els_behind w ws l b : behind size w -> elements size ws l b -> elements size (w :: ws) l true
| els_some w ws a n l b : element size w a n -> elements size ws l b -> elements size (w :: ws) ((a, n) :: l) b.

(** ** Proofs: blanks *)

Lemma white_iff c : is_space c = true <-> white c.
Proof.
  unfold white. rewrite !elem_of_cons, elem_of_nil. split.
  - destruct c as [[] [] [] [] [] [] [] []]; intros H; vm_compute in H; try discriminate H; tauto.
  - intros H. repeat destruct H as [->|H]; try done.
Qed.
Lemma white_not c : is_space c = false <-> ~ white c.
Proof. rewrite <- white_iff. by destruct (is_space c). Qed.
Definition trim_right (s : bytes) : bytes := rev (trim_left (rev s)).
Lemma trim_space_eq s : trim_space s = trim_right (trim_left s).
Proof. done. Qed.
Lemma trim_left_blank a s : blank a -> trim_left (a ++ s) = trim_left s.
Proof. induction 1 as [|c a Hc _ IH]; [done|]. cbn [app trim_left]. by rewrite (proj2 (white_iff c) Hc). Qed.
Lemma blank_trim a : blank a -> trim_left a = [].
Proof. intros H. by rewrite <- (app_nil_r a), trim_left_blank. Qed.
Lemma trim_left_split s : exists a, blank a /\ s = a ++ trim_left s /\ (forall c u, trim_left s = c :: u -> ~ white c).
Proof.
  induction s as [|c s (a & Ha & E & Hh)]; [exists []; split; [constructor|]; split; [reflexivity|discriminate]|]. cbn [trim_left]. destruct (is_space c) eqn:Ec.
  - exists (c :: a). split; [constructor; [by apply white_iff|done]|]. split; [cbn [app]; by f_equal|done].
  - exists []. split; [constructor|]. split; [done|]. intros x u [= <- <-]. by apply white_not.
Qed.
Lemma trim_left_stop c s : ~ white c -> trim_left (c :: s) = c :: s.
Proof. intros H. cbn [trim_left]. by rewrite (proj2 (white_not c) H). Qed.
Lemma blank_rev a : blank a -> blank (rev a).
Proof. unfold blank. rewrite !Forall_forall. intros H x Hx. apply H. rewrite elem_of_list_In in *. by apply in_rev. Qed.
Lemma trim_right_split s : exists b, blank b /\ s = trim_right s ++ b /\ (forall c u, trim_right s = u ++ [c] -> ~ white c).
Proof.
  destruct (trim_left_split (rev s)) as (a & Ha & E & Hh). exists (rev a). split; [by apply blank_rev|]. split.
  - unfold trim_right. by rewrite <- rev_app_distr, <- E, rev_involutive.
  - intros c u Hu. unfold trim_right in Hu. apply (f_equal (@rev ascii)) in Hu. rewrite rev_involutive, rev_app_distr in Hu. exact (Hh c (rev u) Hu).
Qed.
Lemma trim_right_blank s b : blank b -> trim_right (s ++ b) = trim_right s.
Proof. intros H. unfold trim_right. rewrite rev_app_distr. by rewrite trim_left_blank by (by apply blank_rev). Qed.
Lemma trim_right_stop s c : ~ white c -> trim_right (s ++ [c]) = s ++ [c].
Proof. intros H. unfold trim_right. rewrite rev_app_distr. cbn [rev app]. rewrite trim_left_stop by done. cbn [rev]. by rewrite rev_involutive. Qed.
(** The core of a text. *)
Lemma trim_space_split w : exists a b, blank a /\ blank b /\ w = a ++ trim_space w ++ b.
Proof.
  destruct (trim_left_split w) as (a & Ha & E & _). destruct (trim_right_split (trim_left w)) as (b & Hb & E2 & _).
  exists a, b. split; [done|]. split; [done|]. rewrite trim_space_eq, <- E2. done.
Qed.
Lemma trim_space_blank a v b : blank a -> blank b -> trim_space (a ++ v ++ b) = trim_space v.
Proof.
  intros Ha Hb. rewrite !trim_space_eq, trim_left_blank by done.
  destruct (trim_left_split v) as (c & Hc & E & Hh). destruct (trim_left v) as [|x u] eqn:Ev.
  - rewrite app_nil_r in E. subst v. rewrite <- (app_nil_r (c ++ b)). rewrite trim_left_blank; [done|]. by apply Forall_app.
  - rewrite E, <- app_assoc, trim_left_blank by done. cbn [app]. rewrite trim_left_stop by (by eapply Hh).
    change (x :: u ++ b) with ((x :: u) ++ b). by apply trim_right_blank.
Qed.
Lemma trim_space_nil w : trim_space w = [] <-> blank w.
Proof.
  split.
  - intros H. destruct (trim_space_split w) as (a & b & Ha & Hb & E). rewrite E, H. cbn [app]. by apply Forall_app.
  - intros H. rewrite trim_space_eq, (blank_trim w H). done.
Qed.
Lemma trim_left_hyphen x y : trim_left (x ++ "-"%char :: y) = trim_left x ++ "-"%char :: y.
Proof. induction x as [|c x IH]; [done|]. cbn [app trim_left]. by destruct (is_space c). Qed.
Lemma trim_right_hyphen x y : trim_right (x ++ "-"%char :: y) = x ++ "-"%char :: trim_right y.
Proof.
  unfold trim_right. rewrite rev_app_distr. cbn [rev]. rewrite <- app_assoc. cbn [app]. rewrite trim_left_hyphen, rev_app_distr. cbn [rev].
  rewrite rev_involutive, <- app_assoc. done.
Qed.
Lemma trim_space_hyphen x y : trim_space (x ++ "-"%char :: y) = trim_left x ++ "-"%char :: trim_right y.
Proof. by rewrite trim_space_eq, trim_left_hyphen, trim_right_hyphen. Qed.
Lemma trim_left_sub c x : c ∉ x -> c ∉ trim_left x.
Proof. destruct (trim_left_split x) as (a & _ & E & _). intros H1 H2. apply H1. rewrite E. apply elem_of_app. by right. Qed.
Lemma trim_space_left x : trim_space (trim_left x) = trim_space x.
Proof.
  destruct (trim_left_split x) as (a & Ha & E & _). rewrite E at 2. rewrite <- (app_nil_r (trim_left x)) at 2. symmetry. apply trim_space_blank; [done|constructor].
Qed.
Lemma trim_space_right y : trim_space (trim_right y) = trim_space y.
Proof.
  destruct (trim_right_split y) as (b & Hb & E & _). rewrite E at 2. symmetry. apply (trim_space_blank [] (trim_right y) b); [constructor|done].
Qed.

Lemma parse_digits_iff w n : parse_digits w = Some n <-> decnum w n /\ w <> [].
Proof.
  unfold parse_digits. destruct w as [|c w]; [split; [done|by intros [_ H]]|]. destruct (forallb is_digit (c :: w)) eqn:E.
  - assert (Hd : Forall (fun c => is_digit c = true) (c :: w)) by (apply Forall_forall; intros x Hx; rewrite forallb_forall in E; apply E; by apply elem_of_list_In).
    split; [intros [= <-]; split; [by apply digits_decnum|done]|]. intros [H _]. by destruct (decnum_digits _ _ H) as [_ ->].
  - split; [done|]. intros [H _]. exfalso. destruct (decnum_digits _ _ H) as [Hd _]. apply not_true_iff_false in E. apply E.
    apply forallb_forall. intros x Hx. rewrite Forall_forall in Hd. apply Hd. by apply elem_of_list_In.
Qed.
Lemma digit_sign w n c t : decnum w n -> w = c :: t -> c <> "-"%char /\ c <> "+"%char.
Proof. intros H ->. destruct (decnum_digits _ _ H) as [Hd _]. inversion Hd as [|? ? Hc]; subst. by split; intros ->. Qed.
Lemma parse_int_iff w z : parse_int w = Some z <-> int_text w z.
Proof.
  unfold parse_int. split.
  - destruct w as [|c t]; [done|]. destruct (Ascii.eqb_spec c "-"%char) as [->|Hm]; [|destruct (Ascii.eqb_spec c "+"%char) as [->|Hp]].
    + destruct (parse_digits t) as [n|] eqn:E; [|done]. apply parse_digits_iff in E as [Hn Hne].
      destruct ((- 2 ^ 63 <=? - Z.of_N n) && (- Z.of_N n <? 2 ^ 63))%Z eqn:Eb; [|done]. intros [= <-].
      apply andb_true_iff in Eb as [H1 _]. apply Z.leb_le in H1. apply it_minus; [done|done|lia].
    + destruct (parse_digits t) as [n|] eqn:E; [|done]. apply parse_digits_iff in E as [Hn Hne].
      destruct ((- 2 ^ 63 <=? Z.of_N n) && (Z.of_N n <? 2 ^ 63))%Z eqn:Eb; [|done]. intros [= <-].
      apply andb_true_iff in Eb as [_ H1]. apply Z.ltb_lt in H1. by apply it_plus.
    + destruct (parse_digits (c :: t)) as [n|] eqn:E; [|done]. apply parse_digits_iff in E as [Hn Hne].
      destruct ((- 2 ^ 63 <=? Z.of_N n) && (Z.of_N n <? 2 ^ 63))%Z eqn:Eb; [|done]. intros [= <-].
      apply andb_true_iff in Eb as [_ H1]. apply Z.ltb_lt in H1. by apply it_plain.
  - assert (Hb : forall z, (- 2 ^ 63 <= z < 2 ^ 63)%Z -> ((- 2 ^ 63 <=? z) && (z <? 2 ^ 63))%Z = true).
    { intros x Hx. apply andb_true_iff. rewrite Z.leb_le, Z.ltb_lt. exact Hx. }
    intros [w' n Hn Hne Hl|w' n Hn Hne Hl|w' n Hn Hne Hl].
    + destruct w' as [|c t]; [done|]. destruct (digit_sign _ _ c t Hn eq_refl) as [H1 H2].
      rewrite (proj2 (Ascii.eqb_neq _ _) H1), (proj2 (Ascii.eqb_neq _ _) H2). rewrite (proj2 (parse_digits_iff _ n)) by done. rewrite Hb by lia. done.
    + change (Ascii.eqb "+"%char "-"%char) with false. change (Ascii.eqb "+"%char "+"%char) with true. cbv iota.
      rewrite (proj2 (parse_digits_iff _ n)) by done. rewrite Hb by lia. done.
    + change (Ascii.eqb "-"%char "-"%char) with true. cbv iota. rewrite (proj2 (parse_digits_iff _ n)) by done. rewrite Hb by lia. done.
Qed.
(** A number has no blanks, so it is its own core. *)
Lemma int_nonblank w z : int_text w z -> Forall (fun c => is_space c = false) w /\ w <> [].
Proof.
  assert (H : forall w n, decnum w n -> Forall (fun c => is_space c = false) w).
  { intros v n Hn. destruct (decnum_digits v n Hn) as [Hd _]. eapply Forall_impl; [exact Hd|]. intros c Hc. by destruct (digit_cases c Hc). }
  intros [v n Hn Hne _|v n Hn Hne _|v n Hn Hne _]; split; try done; try (constructor; [done|]); by eapply H.
Qed.
Lemma int_core w z : int_text w z -> trim_space w = w.
Proof. intros H. by apply trim_space_none, (int_nonblank w z). Qed.
Lemma int_positive s i : int_text s i -> "-"%char ∉ s -> (0 <= i)%Z.
Proof. intros [w n _ _ _|w n _ _ _|w n _ _ _] H; [lia|lia|]. exfalso. apply H. by left. Qed.

(** What an element means depends on the cores of the texts beside its first
    hyphen. *)
Definition judge (size : Z) (st e : bytes) : one_range :=
  match st, e with
  | [], e => match parse_int e with None => OBad | Some i => ORange (HRange (size - Z.min i size) (size - (size - Z.min i size))) end
  | st, e =>
      match parse_int st with
      | None => OBad
      | Some i =>
          if (i <? 0)%Z then OBad
          else if (size <=? i)%Z then OBeyond
          else match e with
               | [] => ORange (HRange i (size - i))
               | _ => match parse_int e with
                      | None => OBad
                      | Some j => if (j <? i)%Z then OBad else ORange (HRange i (Z.min j (size - 1) - i + 1))
                      end
               end
      end
  end.
Lemma element_cut size x y : "-"%char ∉ x -> parse_range1 size (x ++ "-"%char :: y) = judge size (trim_space x) (trim_space y).
Proof.
  intros Hx. unfold parse_range1. rewrite trim_space_hyphen.
  assert (Hc : cut_at "-"%char (trim_left x ++ "-"%char :: trim_right y) = Some (trim_left x, trim_right y)) by (apply cut_at_first; by apply trim_left_sub).
  destruct (trim_left x ++ "-"%char :: trim_right y) eqn:En; [by destruct (trim_left x)|]. rewrite Hc, trim_space_left, trim_space_right. unfold judge. by destruct (trim_space x), (trim_space y).
Qed.
Lemma no_hyphen size w : "-"%char ∉ w -> parse_range1 size w = if decide (trim_space w = []) then OSkip else OBad.
Proof.
  intros Hw. unfold parse_range1. assert (Hc : cut_at "-"%char (trim_space w) = None).
  { destruct (trim_space_split w) as (a & b & _ & _ & E). assert (H : "-"%char ∉ trim_space w).
    { intros H. apply Hw. rewrite E. rewrite !elem_of_app. auto. }
    clear -H. induction (trim_space w) as [|c v IH]; [done|]. apply not_elem_of_cons in H as [H1 H2]. cbn [cut_at].
    rewrite (proj2 (Ascii.eqb_neq c "-"%char)) by congruence. by rewrite IH. }
  destruct (trim_space w) as [|c v]; [by rewrite decide_True|]. by rewrite Hc, decide_False.
Qed.
Lemma hyphen_split w : "-"%char ∈ w -> exists x y, w = x ++ "-"%char :: y /\ "-"%char ∉ x.
Proof.
  induction w as [|c w IH]; [by intros ?%elem_of_nil|]. intros H. destruct (decide (c = "-"%char)) as [->|Hc].
  - exists [], w. split; [done|]. apply not_elem_of_nil.
  - apply elem_of_cons in H as [H|H]; [congruence|]. destruct (IH H) as (x & y & -> & Hx). exists (c :: x), y. split; [done|].
    apply not_elem_of_cons. split; [congruence|done].
Qed.
Lemma blank_hyphen w : blank w -> "-"%char ∉ w.
Proof. unfold blank. rewrite Forall_forall. intros H Hin. apply H in Hin. apply white_iff in Hin. discriminate Hin. Qed.
Lemma cat_hyphen p s q : blank p -> blank q -> "-"%char ∉ s -> "-"%char ∉ p ++ s ++ q.
Proof. intros Hp Hq Hs. rewrite !not_elem_of_app. split_and!; [by apply blank_hyphen|done|by apply blank_hyphen]. Qed.
Lemma core_int p s q i : blank p -> blank q -> int_text s i -> trim_space (p ++ s ++ q) = s.
Proof. intros Hp Hq Hs. by rewrite trim_space_blank, (int_core s i). Qed.

(** ** C140 *)

(** What an element of the list asks for. *)
Theorem C140_element size w :
  (parse_range1 size w = OSkip <-> blank w) /\ (parse_range1 size w = OBeyond <-> behind size w) /\
  (forall a n, parse_range1 size w = ORange (HRange a n) <-> element size w a n).
Proof.
  split; [|split].
  - split; [|intros H; rewrite no_hyphen by (by apply blank_hyphen); by rewrite decide_True by (by apply trim_space_nil)].
    intros H. destruct (decide ("-"%char ∈ w)) as [Hin|Hin].
    + exfalso. destruct (hyphen_split w Hin) as (x & y & -> & Hx). rewrite element_cut in H by done. unfold judge in H.
      repeat (case_match; try discriminate H).
    + rewrite no_hyphen in H by done. case_decide as Hd; [|done]. by apply trim_space_nil.
  - split.
    + intros H. destruct (decide ("-"%char ∈ w)) as [Hin|Hin].
      * destruct (hyphen_split w Hin) as (x & y & -> & Hx). rewrite element_cut in H by done. unfold judge in H.
        destruct (trim_space_split x) as (p & q & Hp & Hq & Ex). destruct (trim_space x) as [|c st] eqn:Est.
        { destruct (parse_int (trim_space y)); discriminate H. }
        destruct (parse_int (c :: st)) as [i|] eqn:Ei; [|done]. apply parse_int_iff in Ei. destruct (i <? 0)%Z; [done|].
        destruct (Z.leb_spec size i); [|repeat (case_match; try discriminate H)].
        exists p, (c :: st), q, y, i. split_and!; try done; [rewrite Ex, <- !app_assoc; done|].
        intros Hin'. apply Hx. rewrite Ex, !elem_of_app. auto.
      * rewrite no_hyphen in H by done. case_decide; done.
    + intros (p & s & q & r & i & -> & Hp & Hq & Hs & Hns & Hi). rewrite !app_assoc. rewrite <- (app_assoc p s q). change (B"-" ++ r) with ("-"%char :: r).
      rewrite <- app_assoc. change (B"-" ++ r) with ("-"%char :: r). rewrite element_cut by (by apply cat_hyphen). rewrite (core_int p s q i) by done.
      unfold judge. destruct s as [|c s]; [by inversion Hs|]. rewrite (proj2 (parse_int_iff _ i) Hs). pose proof (int_positive _ _ Hs Hns).
      destruct (Z.ltb_spec i 0); [lia|]. destruct (Z.leb_spec size i); [done|lia].
  - intros a n. split.
    + intros H. destruct (decide ("-"%char ∈ w)) as [Hin|Hin].
      * destruct (hyphen_split w Hin) as (x & y & -> & Hx). rewrite element_cut in H by done. unfold judge in H.
        destruct (trim_space_split x) as (p & q & Hp & Hq & Ex). destruct (trim_space_split y) as (r & t & Hr & Ht & Ey).
        destruct (trim_space x) as [|c st] eqn:Est.
        { destruct (parse_int (trim_space y)) as [k|] eqn:Ek; [|done]. apply parse_int_iff in Ek. injection H as <- <-.
          rewrite Ey. rewrite Ex. cbn [app]. replace (size - (size - Z.min k size))%Z with (Z.min k size) by lia.
          apply (el_last size (p ++ q) r (trim_space y) t k); try done. by apply Forall_app. }
        assert (Hns : "-"%char ∉ c :: st). { intros Hin'. apply Hx. rewrite Ex, !elem_of_app. auto. }
        destruct (parse_int (c :: st)) as [i|] eqn:Ei; [|done]. apply parse_int_iff in Ei. destruct (i <? 0)%Z; [done|].
        destruct (Z.leb_spec size i); [done|]. destruct (trim_space y) as [|d e] eqn:Ee.
        { injection H as <- <-. rewrite Ex, <- !app_assoc. apply (el_from size p (c :: st) q y i); try done. by apply trim_space_nil. }
        destruct (parse_int (d :: e)) as [j|] eqn:Ej; [|done]. apply parse_int_iff in Ej. destruct (Z.ltb_spec j i); [done|]. injection H as <- <-.
        rewrite Ex, <- !app_assoc. rewrite Ey. replace (Z.min j (size - 1) - i + 1)%Z with (1 + Z.min j (size - 1) - i)%Z by lia.
        by apply (el_fromto size p (c :: st) q r (d :: e) t i j).
      * rewrite no_hyphen in H by done. case_decide; done.
    + intros [p q e r k Hp Hq Hr He|p s q r i Hp Hq Hr Hs Hns Hi|p s q r e t i j Hp Hq Hr Ht Hs Hns Hi He Hij].
      * change (p ++ B"-" ++ q ++ e ++ r) with (p ++ "-"%char :: (q ++ e ++ r)). rewrite element_cut by (by apply blank_hyphen).
        rewrite (proj2 (trim_space_nil p) Hp), (core_int q e r k) by done. unfold judge. rewrite (proj2 (parse_int_iff _ k) He). f_equal. f_equal. lia.
      * assert (E : p ++ s ++ q ++ B"-" ++ r = (p ++ s ++ q) ++ "-"%char :: r) by (rewrite <- !app_assoc; done). rewrite E.
        rewrite element_cut by (by apply cat_hyphen). rewrite (core_int p s q i) by done. rewrite (proj2 (trim_space_nil r) Hr).
        unfold judge. destruct s as [|c s]; [by inversion Hs|]. rewrite (proj2 (parse_int_iff _ i) Hs). pose proof (int_positive _ _ Hs Hns).
        destruct (Z.ltb_spec i 0); [lia|]. destruct (Z.leb_spec size i); [lia|done].
      * assert (E : p ++ s ++ q ++ B"-" ++ r ++ e ++ t = (p ++ s ++ q) ++ "-"%char :: (r ++ e ++ t)) by (rewrite <- !app_assoc; done). rewrite E.
        rewrite element_cut by (by apply cat_hyphen). rewrite (core_int p s q i), (core_int r e t j) by done.
        unfold judge. destruct s as [|c s]; [by inversion Hs|]. rewrite (proj2 (parse_int_iff _ i) Hs). pose proof (int_positive _ _ Hs Hns).
        destruct (Z.ltb_spec i 0); [lia|]. destruct (Z.leb_spec size i); [lia|].
        destruct (int_nonblank e j He) as [_ Hne]. destruct e as [|d e]; [done|]. rewrite (proj2 (parse_int_iff _ j) He).
        destruct (Z.ltb_spec j i); [lia|]. f_equal. f_equal. lia.
Qed.

(** What the header asks for; every text that begins with "bytes=" is such a
    list. *)
Definition to_h (x : Z * Z) : hrange := HRange x.1 x.2.
Lemma to_h_inj : Inj (=) (=) to_h.
Proof. intros [a n] [b k]. by intros [= -> ->]. Qed.
Lemma loop_is size ws : forall b acc,
  match parse_range_loop size ws b acc with
  | RInvalid => forall l c, ~ elements size ws l c
  | RNoOverlap => acc = [] /\ exists c, elements size ws [] c /\ b || c = true
  | RGood h => exists l c, elements size ws l c /\ h = acc ++ (to_h <$> l) /\ (h = [] -> b || c = false)
  end.
Proof.
  induction ws as [|w ws IH]; intros b acc; cbn [parse_range_loop].
  - destruct acc as [|x acc]; [destruct b|].
    + split; [done|]. exists false. split; [constructor|done].
    + exists [], false. split; [constructor|done].
    + exists [], false. split; [constructor|]. split; [by rewrite app_nil_r|done].
  - destruct (C140_element size w) as (E1 & E2 & E3). destruct (parse_range1 size w) as [| |[a n]|] eqn:E.
    + specialize (IH b acc). assert (Hw : blank w) by (by apply E1). destruct (parse_range_loop size ws b acc).
      * destruct IH as (l' & c & H & Hl). exists l', c. split; [by constructor|done].
      * destruct IH as (Ha & c & H & Hc). split; [done|]. exists c. split; [by constructor|done].
      * intros l c H. inversion H as [|? ? ? ? _ H'|? ? ? ? Hb|? ? ? ? ? ? He]; subst.
        -- by eapply IH.
        -- apply E2 in Hb. discriminate Hb.
        -- apply E3 in He. discriminate He.
    + specialize (IH true acc). assert (Hw : behind size w) by (by apply E2). destruct (parse_range_loop size ws true acc).
      * destruct IH as (l' & c & H & Hl & Hn). exists l', true. split; [by econstructor|]. split; [done|]. intros Hn'. by apply Hn in Hn'.
      * destruct IH as (Ha & c & H & Hc). split; [done|]. exists true. split; [by econstructor|by destruct b].
      * intros l c H. inversion H as [|? ? ? ? Hb|? ? ? ? _ H'|? ? ? ? ? ? He]; subst.
        -- apply E1 in Hb. discriminate Hb.
        -- by eapply IH.
        -- apply E3 in He. discriminate He.
    + specialize (IH b (acc ++ [HRange a n])). assert (Hw : element size w a n) by (by apply E3). destruct (parse_range_loop size ws b _).
      * destruct IH as (l' & c & H & -> & Hn). exists ((a, n) :: l'), c. split; [by constructor|]. split; [by rewrite <- app_assoc|done].
      * destruct IH as (Ha & _). by destruct acc.
      * intros l c H. inversion H as [|? ? ? ? Hb|? ? ? ? Hb|? ? ? ? ? ? _ H']; subst.
        -- apply E1 in Hb. discriminate Hb.
        -- apply E2 in Hb. discriminate Hb.
        -- by eapply IH.
    + intros l c H. inversion H as [|? ? ? ? Hb|? ? ? ? Hb|? ? ? ? ? ? He]; subst.
      * apply E1 in Hb. discriminate Hb.
      * apply E2 in Hb. discriminate Hb.
      * apply E3 in He. discriminate He.
Qed.
Lemma elements_fun size ws l1 b1 l2 b2 : elements size ws l1 b1 -> elements size ws l2 b2 -> l1 = l2 /\ b1 = b2.
Proof.
  intros H1. revert l2 b2. induction H1 as [|w ws l b Hw H1 IH|w ws l b Hw H1 IH|w ws a n l b Hw H1 IH]; intros l2 b2 H2.
  - by inversion H2.
  - destruct (C140_element size w) as (E1 & E2 & E3). apply E1 in Hw.
    inversion H2 as [|? ? ? ? _ H'|? ? ? ? Hb|? ? ? ? ? ? He]; subst; [by apply IH|apply E2 in Hb; congruence|apply E3 in He; congruence].
  - destruct (C140_element size w) as (E1 & E2 & E3). apply E2 in Hw.
    inversion H2 as [|? ? ? ? Hb|? ? ? ? _ H'|? ? ? ? ? ? He]; subst; [apply E1 in Hb; congruence| |apply E3 in He; congruence].
    split; [|done]. by eapply IH.
  - destruct (C140_element size w) as (E1 & E2 & E3). apply E3 in Hw.
    inversion H2 as [|? ? ? ? Hb|? ? ? ? Hb|? ? ? ? ? ? He H']; subst; [apply E1 in Hb; congruence|apply E2 in Hb; congruence|].
    apply E3 in He. rewrite Hw in He. injection He as <- <-. destruct (IH _ _ H') as [-> ->]. done.
Qed.
Lemma split_commas_back s : commas (split_on ","%char s) = s /\ split_on ","%char s <> [] /\ Forall (fun w => ","%char ∉ w) (split_on ","%char s).
Proof.
  induction s as [|c s (E & Hn & Hf)]; [split_and!; [done|done|constructor; [apply not_elem_of_nil|constructor]]|]. cbn [split_on].
  destruct (Ascii.eqb_spec c ","%char) as [->|Hc].
  - split_and!; [|done|constructor; [apply not_elem_of_nil|done]]. destruct (split_on ","%char s) as [|w ws]; [done|].
    change (commas ([] :: w :: ws)) with (","%char :: commas (w :: ws)). by rewrite E.
  - destruct (split_on ","%char s) as [|w ws]; [done|]. apply Forall_cons in Hf as [Hw Hf]. split_and!; [|done|].
    + destruct ws as [|v ws]; [change (commas [c :: w]) with (c :: w); change (commas [w]) with w in E; by rewrite E|].
      change (commas ((c :: w) :: v :: ws)) with (c :: w ++ ","%char :: commas (v :: ws)).
      change (commas (w :: v :: ws)) with (w ++ ","%char :: commas (v :: ws)) in E. by rewrite E.
    + constructor; [|done]. apply not_elem_of_cons. split; [congruence|done].
Qed.
Theorem C140_header x size :
  (x = [] /\ parse_range x size = RGood []) \/
  (x <> [] /\ has_prefix x (B"bytes=") = false /\ parse_range x size = RInvalid) \/
  exists ws, x = B"bytes=" ++ commas ws /\ ws <> [] /\ Forall (fun w => ","%char ∉ w) ws /\
    ((exists l b, elements size ws l b /\
        parse_range x size = match l with [] => if b then RNoOverlap else RGood [] | _ => RGood (to_h <$> l) end) \/
     ((forall l b, ~ elements size ws l b) /\ parse_range x size = RInvalid)).
Proof.
  destruct x as [|c x]; [by left|right]. set (y := c :: x). destruct (has_prefix y (B"bytes=")) eqn:E.
  - right. destruct (split_commas_back (drop 6 y)) as (Ec & Hn & Hf). exists (split_on ","%char (drop 6 y)).
    assert (Ey : y = B"bytes=" ++ drop 6 y) by (by apply has_prefix_spec in E as [z ->]).
    split; [by rewrite Ec|]. split; [done|]. split; [done|].
    assert (Ep : parse_range y size = parse_range_loop size (split_on ","%char (drop 6 y)) false []) by (unfold parse_range; unfold y at 1; by rewrite E).
    rewrite Ep. pose proof (loop_is size (split_on ","%char (drop 6 y)) false []) as H. destruct (parse_range_loop size _ false []) as [h| |].
    + destruct H as (l & b & Hl & -> & Hb). left. exists l, b. split; [done|]. cbn [app orb] in *. destruct l as [|z l]; [|done]. by rewrite (Hb eq_refl).
    + destruct H as (_ & b & Hl & Hb). left. exists [], b. split; [done|]. cbn [orb] in Hb. by rewrite Hb.
    + by right.
  - left. split; [done|]. split; [done|]. unfold parse_range. unfold y at 1. by rewrite E.
Qed.

(** What is sent for the ranges [l] of the content. *)
Definition part_of (data : bytes) (x : Z * Z) : nat * bytes := (Z.to_nat x.1, take (Z.to_nat x.2) (drop (Z.to_nat x.1) data)).
Definition seen_by (q : request) (b : bytes) : bytes := if q_head q then [] else b.
Definition whole (q : request) (t : bytes) (lm : option bytes) (data : bytes) : response :=
  Response 200 (Headers (Some t) lm (Some (num (length data))) None (Some (B"bytes")) None None) (seen_by q data).
Definition refused (q : request) (lm cr : option bytes) (text : bytes) : response :=
  Response 416 (Headers (Some (B"text/plain; charset=utf-8")) lm None cr None None (Some (B"nosniff"))) (seen_by q (text ++ [newline])).
Definition sent (q : request) (boundary t : bytes) (lm : option bytes) (data : bytes) (l : list (Z * Z)) : response :=
  let size := length data in
  match part_of data <$> l with
  | [] => whole q t lm data
  | [x] => Response 206 (Headers (Some t) lm (Some (num (length x.2))) (Some (crange size x)) (Some (B"bytes")) None None) (seen_by q x.2)
  | ps =>
      if decide (sum_list (length <$> ps.*2) <= size) then
        Response 206 (Headers (Some (B"multipart/byteranges; boundary=" ++ boundary)) lm
                       (Some (num (length (multipart boundary t size ps)))) None (Some (B"bytes")) None None)
          (seen_by q (multipart boundary t size ps))
      else whole q t lm data
  end.

Lemma element_in size w a n : element size w a n -> (0 <= size)%Z -> (0 < n)%Z -> (0 <= a)%Z /\ (a + n <= size)%Z.
Proof. intros [p q e r k _ _ _ He|p s q r i _ _ _ Hs Hns Hi|p s q r e t i j _ _ _ _ Hs Hns Hi He Hij] H0 Hn; try pose proof (int_positive _ _ Hs Hns); lia. Qed.
Lemma elements_in size ws l b : elements size ws l b -> (0 <= size)%Z -> Forall (fun x => 0 < x.2)%Z l -> Forall (fun x => 0 <= x.1 /\ 0 < x.2 /\ x.1 + x.2 <= size)%Z l.
Proof.
  intros H H0. induction H as [|w ws l b Hw H IH|w ws l b Hw H IH|w ws a n l b Hw H IH]; intros Hl; [constructor|auto|auto|].
  apply Forall_cons in Hl as [Hn Hl]. cbn [snd] in Hn. pose proof (element_in _ _ _ _ Hw H0 Hn). constructor; [cbn [fst snd]; lia|by apply IH].
Qed.
Lemma part_is data x : (0 <= x.1 /\ 0 < x.2 /\ x.1 + x.2 <= Z.of_nat (length data))%Z ->
  to_range (part_of data x) = to_h x /\ (part_of data x).2 <> [] /\
  slice data (Z.of_nat (part_of data x).1) (Z.of_nat (length (part_of data x).2)) = (part_of data x).2 /\
  in_content (Z.of_nat (length data)) (to_range (part_of data x)).
Proof.
  destruct x as [a n]. unfold to_range, to_h, part_of, in_content. cbn [fst snd g_start g_len]. intros (Ha & Hn & Hs).
  assert (E : length (take (Z.to_nat n) (drop (Z.to_nat a) data)) = Z.to_nat n) by (rewrite take_length, drop_length; lia).
  split_and!; try lia.
  - rewrite E. f_equal; lia.
  - intros Hnil. rewrite Hnil in E. cbn [length] in E. lia.
  - rewrite E. unfold slice. rewrite !Nat2Z.id. done.
Qed.
Lemma sent_is mime sniff boundary q d data (l : list (Z * Z)) :
  Forall (fun x => 0 <= x.1 /\ 0 < x.2 /\ x.1 + x.2 <= Z.of_nat (length data))%Z l -> unmodified q (d_mtime d) = false ->
  parse_range (q_range q) (Z.of_nat (length data)) = RGood (to_h <$> l) ->
  shown_to q (content_answer mime sniff boundary q d data) = sent q boundary (type_of mime sniff d data) (lastmod_of (d_mtime d)) data l.
Proof.
  intros Hl Hu Hp. unfold content_answer, sent, whole, seen_by. rewrite Hu, Hp. set (ps := part_of data <$> l).
  assert (E : to_h <$> l = to_range <$> ps).
  { unfold ps. rewrite <- list_fmap_compose. apply list_fmap_ext. intros i x Hx. symmetry. apply (part_is data x). rewrite Forall_lookup in Hl. by apply (Hl i). }
  assert (HF : Forall (fun x : nat * bytes => x.2 <> [] /\ slice data (Z.of_nat x.1) (Z.of_nat (length x.2)) = x.2) ps).
  { unfold ps. apply Forall_fmap. eapply Forall_impl; [exact Hl|]. intros x Hx. cbn. destruct (part_is data x Hx) as (_ & H1 & H2 & _). done. }
  assert (HI : Forall (fun x : nat * bytes => in_content (Z.of_nat (length data)) (to_range x)) ps).
  { unfold ps. apply Forall_fmap. eapply Forall_impl; [exact Hl|]. intros x Hx. cbn. by destruct (part_is data x Hx) as (_ & _ & _ & H). }
  rewrite E. clearbody ps. clear E. rewrite sum_len_ok. destruct ps as [|x [|y ps]].
  - destruct (Z.of_nat (length data) <? _)%Z; cbn [fmap list_fmap]; rewrite dec_num; unfold shown_to; destruct (q_head q); reflexivity.
  - apply Forall_cons in HF as [[Hn Hs] _]. apply Forall_cons in HI as [Hi _].
    assert (Hlt : (Z.of_nat (length data) <? Z.of_nat (sum_list (length <$> [x].*2)))%Z = false).
    { apply Z.ltb_ge. destruct Hi as [H1 H2]. cbn in H1, H2 |- *. lia. }
    rewrite Hlt. change (to_range <$> [x]) with [to_range x]. cbv iota. rewrite crange_ok by done. cbn [g_len g_start to_range].
    rewrite dec_num, Hs. unfold shown_to. by destruct (q_head q).
  - case_decide as Hsum.
    + rewrite (proj2 (Z.ltb_ge (Z.of_nat (length data)) (Z.of_nat (sum_list (length <$> (x :: y :: ps).*2))))) by (apply inj_le; exact Hsum).
      change (to_range <$> x :: y :: ps) with (to_range x :: to_range y :: (to_range <$> ps)). cbv iota.
      change (to_range x :: to_range y :: (to_range <$> ps)) with (to_range <$> x :: y :: ps).
      set (all := x :: y :: ps) in *.
      pose proof (parts_multipart boundary (type_of mime sniff d data) data all HF ltac:(done)) as E.
      pose proof (parts_body_length boundary true (type_of mime sniff d data) data (to_range <$> all)) as E2.
      rewrite E2, E. 2: { by apply Forall_fmap. }
      2: { apply Forall_fmap, Forall_true. intros z. cbn. lia. }
      rewrite dec_num, Nat2Z.id, take_ge by done. unfold shown_to. by destruct (q_head q).
    + rewrite (proj2 (Z.ltb_lt (Z.of_nat (length data)) (Z.of_nat (sum_list (length <$> (x :: y :: ps).*2)))))
        by (apply inj_lt; apply Nat.nle_gt; exact Hsum). rewrite dec_num. unfold shown_to. by destruct (q_head q).
Qed.

(** Full claim: "Every Range header has one of four outcomes.  Without text, and
    for a list of nothing, the whole file; with another unit, or with an element
    that is not a range, 416; with ranges that are all behind the file, 416 and
    its size; otherwise exactly the bytes asked for."  Proved under the
    hypotheses of C92, for every text, to GET and to HEAD; the bytes are stated
    for lists in which every range has a byte (a range of none is C140_zero_refuted
    and C93_empty_refuted). *)
Theorem C140_any_partial parse now mime sniff boundary bufsize m r f g ds q ns fo t lm :
  0 < bufsize -> served m r f g ds ->
  means parse (f_here f) (m_here m) g ds ns -> ns <> ds -> asks_file q ns ->
  file_at m (Path g (abs_name (ds ++ ns))) = Some fo -> d_isdir (f_info fo) = false -> q_since q = None ->
  media_type mime sniff (d_name (f_info fo)) (f_data fo) t -> lastmod_header (d_mtime (f_info fo)) lm ->
  let data := f_data fo in
  let size := Z.of_nat (length data) in
  let reply := (serve (mem_server parse now r) mime sniff boundary bufsize q m).2 in
  (q_range q = [] /\ reply = whole q t lm data) \/
  (q_range q <> [] /\ ~ (exists y, q_range q = B"bytes=" ++ y) /\ reply = refused q lm None (B"invalid range")) \/
  exists ws, q_range q = B"bytes=" ++ commas ws /\ ws <> [] /\ Forall (fun w => ","%char ∉ w) ws /\
    (((forall l b, ~ elements size ws l b) /\ reply = refused q lm None (B"invalid range")) \/
     (elements size ws [] true /\ reply = refused q lm (Some (B"bytes */" ++ num (length data))) (B"invalid range: failed to overlap")) \/
     (elements size ws [] false /\ reply = whole q t lm data) \/
     (exists l b, elements size ws l b /\ l <> [] /\ (Forall (fun x => 0 < x.2)%Z l -> reply = sent q boundary t lm data l))).
Proof.
  intros Hb SV Hm Hne Hq Hf Hd Hs Ht Hlm data size reply.
  assert (Er : reply = shown_to q (content_answer mime sniff boundary q (f_info fo) (f_data fo))).
  { unfold reply. fold (PropsHttp.reply parse now mime sniff boundary bufsize m r q).
    apply (file_reply parse now mime sniff boundary bufsize Hb m r f g ds SV q ns fo Hm Hne Hq Hf Hd). }
  rewrite Er. clear Er reply. apply type_of_unique in Ht as ->. apply lastmod_ok in Hlm as ->.
  assert (Hu : unmodified q (d_mtime (f_info fo)) = false) by (unfold unmodified; by rewrite Hs).
  assert (Hbad : parse_range (q_range q) size = RInvalid ->
    shown_to q (content_answer mime sniff boundary q (f_info fo) (f_data fo)) = refused q (lastmod_of (d_mtime (f_info fo))) None (B"invalid range")).
  { intros Hp. unfold content_answer. fold data size. rewrite Hu, Hp. unfold shown_to, refused, seen_by. by destruct (q_head q). }
  assert (Hall : parse_range (q_range q) size = RGood [] ->
    shown_to q (content_answer mime sniff boundary q (f_info fo) (f_data fo)) = whole q (type_of mime sniff (f_info fo) (f_data fo)) (lastmod_of (d_mtime (f_info fo))) data).
  { intros Hp. exact (sent_is mime sniff boundary q (f_info fo) data [] ltac:(constructor) Hu Hp). }
  destruct (C140_header (q_range q) size) as [[Hx Hp]|[(Hx & Hpre & Hp)|(ws & Hx & Hws & Hc & [(l & b & Hl & Hp)|[Hl Hp]])]].
  - left. auto.
  - right; left. split; [done|]. split; [|auto]. intros [y Hy]. rewrite Hy, has_prefix_app in Hpre. done.
  - right; right. exists ws. split_and!; [done..|]. right. destruct l as [|x l].
    + destruct b; [left|right; left; auto]. split; [done|].
      unfold content_answer. fold data size. rewrite Hu, Hp. unfold size. rewrite dec_num. unfold shown_to, refused, seen_by. by destruct (q_head q).
    + right; right. exists (x :: l), b. split; [done|]. split; [done|]. intros Hpos.
      apply (sent_is mime sniff boundary q (f_info fo) data (x :: l)); [|done|done]. eapply elements_in; [exact Hl|unfold size; lia|done].
  - right; right. exists ws. split_and!; [done..|]. left. auto.
Qed.

Definition range_of (x : bytes) : request := Request false (B"/a.txt") [] x None.

(** "A unit the server does not know is ignored" (RFC 7233, section 3.1) fails. *)
Theorem C140_unit_refuted : exists x,
  has_prefix x (B"bytes=") = false /\ has_prefix x (B"items=") = true /\
  r_code (ask (range_of x)) = 416%Z /\ r_body (ask (range_of x)) = B"invalid range" ++ [newline] /\ r_code (ask (range_of [])) = 200%Z.
Proof. exists (B"items=0-5"). by vm_compute. Qed.

(** "The bytes a 206 names are bytes of the file, and as many as are sent"
    fails: the last none of eleven bytes are bytes 11 to 10, and the last minus
    five are bytes 16 to 10, at a length of minus five. *)
Theorem C140_zero_refuted : exists x y,
  elements 11 [B"-0"] [(11, 0)%Z] false /\ x = B"bytes=" ++ commas [B"-0"] /\
  ask (range_of x) = Response 206 (Headers (Some (B"text/plain")) (Some t9_text) (Some (B"0")) (Some (B"bytes 11-10/11")) (Some (B"bytes")) None None) [] /\
  elements 11 [B"--5"] [(16, -5)%Z] false /\ y = B"bytes=" ++ commas [B"--5"] /\
  ask (range_of y) = Response 206 (Headers (Some (B"text/plain")) (Some t9_text) (Some (B"-5")) (Some (B"bytes 16-10/11")) (Some (B"bytes")) None None) [].
Proof.
  exists (B"bytes=-0"), (B"bytes=--5").
  split. { apply els_some; [|constructor]. apply C140_element. by vm_compute. }
  split; [done|]. split; [by vm_compute|].
  split. { apply els_some; [|constructor]. apply C140_element. by vm_compute. }
  split; [done|]. by vm_compute.
Qed.

(** Blanks and signs are read; an empty element is passed over. *)
Example C140_ex :
  int_text (B"+7") 7 /\ "-"%char ∉ B"+7" /\
  elements 11 [B" 2 - 4 "; []; B"+9-20"; B"40-x"] [(2, 3); (9, 2)]%Z true /\
  commas [B" 2 - 4 "; []; B"+9-20"; B"40-x"] = B" 2 - 4 ,,+9-20,40-x" /\
  (part_of (B"hello world") <$> [(2, 3); (9, 2)]%Z) = [(2, B"llo"); (9, B"ld")] /\
  (ask (range_of (B"bytes= 2 - 4 ,,+9-20,40-x"))) =
    sent (range_of []) (B"XX") (B"text/plain") (Some t9_text) (B"hello world") [(2, 3); (9, 2)]%Z /\
  ask (range_of (B"bytes=,")) = ask (range_of []) /\
  r_code (ask (range_of (B"bytes=4-2"))) = 416%Z /\ r_code (ask (range_of (B"bytes=0-1,x"))) = 416%Z /\ r_code (ask (range_of (B"bytes=11-"))) = 416%Z.
Proof.
  assert (H : forall w n, parse_int w = Some n -> int_text w n) by (intros w n; apply parse_int_iff).
  split; [by apply H|]. split. { change ("-"%char ∉ ["+"%char; "7"%char]). rewrite !not_elem_of_cons. split_and!; [done|done|apply not_elem_of_nil]. }
  split.
  { apply els_some. { apply C140_element. by vm_compute. } apply els_blank; [constructor|].
    apply els_some. { apply C140_element. by vm_compute. } eapply els_behind; [|constructor]. apply C140_element. by vm_compute. }
  by vm_compute.
Qed.
