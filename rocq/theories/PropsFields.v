(** Theorems: the fields of a payload's JSON (C130). *)
From Coq Require Import ZifyN.
From Verif Require Import Bytes GoPath Here GoTypes Mem MemSpec GoNum GoTimeFmt JsonStr JsonText Embed JsonSpec RawJson Base64 Marshal NilInfo PropsJson.
From Verif Require Import Decode.

(** ** Specification *)

(** How a letter of a field name may be written: as it is, as the capital, and
    for s and k as U+017F (long s) and U+212A (Kelvin sign). *)
Inductive letter : bytes -> ascii -> Prop :=
| le_same c : letter [c] c
| le_capital i c d : B"abcdefghijklmnopqrstuvwxyz" !! i = Some c -> B"ABCDEFGHIJKLMNOPQRSTUVWXYZ" !! i = Some d -> letter [d] c
| le_long_s : letter (utf8_form 383) "s"%char
| le_kelvin : letter (utf8_form 8490) "k"%char.
Inductive spelled : bytes -> bytes -> Prop :=
| sp_nil : spelled [] []
| sp_cons w c k f : letter w c -> spelled k f -> spelled (w ++ k) (c :: f).

(** An element of a []byte given as an array. *)
Inductive octet_value : rjson -> ascii -> Prop :=
| ov_null : octet_value RNull (ascii_of_N 0)
| ov_num w n c : jnat w n -> N_of_ascii c = n -> octet_value (RNum w) c.

(** What one member of a file's details does: [sets f v d] - field [f] given as
    [v], and nothing else, makes the details [d]. *)
Definition blank : details := Details [] 0 0 (GoTime (-62135596800) 0 0) false JNull.
Definition with_name (n : bytes) : details := Details n (d_size blank) (d_mode blank) (d_mtime blank) (d_isdir blank) (d_sys blank).
Definition with_size (z : Z) : details := Details (d_name blank) z (d_mode blank) (d_mtime blank) (d_isdir blank) (d_sys blank).
Definition with_mode (n : N) : details := Details (d_name blank) (d_size blank) n (d_mtime blank) (d_isdir blank) (d_sys blank).
Definition with_dir (b : bool) : details := Details (d_name blank) (d_size blank) (d_mode blank) (d_mtime blank) b (d_sys blank).
Inductive sets : bytes -> rjson -> details -> Prop :=
| st_null f : sets f RNull blank
| st_name w t : jstr w t -> sets (B"name") (RStr w) (with_name t)
| st_size w z : jint w z -> (- 2^63 <= z < 2^63)%Z -> sets (B"size") (RNum w) (with_size z)
| st_mode w n : jnat w n -> (n < 2^32)%N -> sets (B"mode") (RNum w) (with_mode n)
| st_dir b : sets (B"is_dir") (RBool b) (with_dir b).

(** ** C130: which keys and which values a field takes *)

Definition plain_letter (c : ascii) : bool := between 97 c 122 || Ascii.eqb c "_"%char.

Lemma fold_ascii a t : (code a <? 128)%N = true -> fold_key (a :: t) = lower a :: fold_key t.
Proof.
  intros Ha%N.ltb_lt. destruct t as [|b u]; [done|]. cbn [fold_key].
  replace (code a =? 197)%N with false by (symmetry; apply N.eqb_neq; lia). cbn [andb]. destruct u as [|c v]; [done|].
  replace (code a =? 226)%N with false by (symmetry; apply N.eqb_neq; lia). done.
Qed.
Lemma letter_fold w c k : plain_letter c = true -> letter w c -> fold_key (w ++ k) = c :: fold_key k.
Proof.
  intros Hc Hl. destruct Hl as [c|i c d Hi Hj| |].
  - cbn [app]. rewrite fold_ascii; [f_equal|]; by destruct c as [[] [] [] [] [] [] [] []].
  - cbn [app]. rewrite fold_ascii; [f_equal|].
    all: do 26 (destruct i as [|i]; [injection Hi as <-; injection Hj as <-; reflexivity|]); discriminate Hi.
  - change (utf8_form 383) with [ascii_of_N 197; ascii_of_N 191]. reflexivity.
  - change (utf8_form 8490) with [ascii_of_N 226; ascii_of_N 132; ascii_of_N 170]. reflexivity.
Qed.
Lemma lower_letter a : plain_letter (lower a) = true -> letter [a] (lower a).
Proof.
  destruct (between 65 a 90) eqn:E.
  - intros _. apply le_capital with (N.to_nat (code a - 65)); destruct a as [[] [] [] [] [] [] [] []]; vm_compute in E |- *; congruence.
  - intros _. unfold lower. rewrite E. constructor.
Qed.

Lemma fold_spelled k f : forallb plain_letter f = true -> fold_key k = f <-> spelled k f.
Proof.
  split.
  - revert k f H. assert (G : forall n k f, length k <= n -> forallb plain_letter f = true -> fold_key k = f -> spelled k f); [|eauto].
    induction n as [|n IH]; intros k f Hn Hf <-; (destruct k as [|a t]; [constructor|]); [simpl in Hn; lia|].
    assert (Hd : forall u, length u <= n -> forallb plain_letter (lower a :: fold_key u) = true -> spelled (a :: u) (lower a :: fold_key u)).
    { intros u Hu H. apply andb_true_iff in H as [H1 H2]. apply (sp_cons [a]); [by apply lower_letter|by apply IH]. }
    simpl in Hn. destruct t as [|b u]; [apply (Hd []); [simpl; lia|done]|]. cbn [fold_key] in Hf |- *.
    destruct ((code a =? 197)%N && (code b =? 191)%N) eqn:E1.
    { apply andb_true_iff in E1 as [Ea%N.eqb_eq Eb%N.eqb_eq]. apply andb_true_iff in Hf as [_ Hf].
      assert (E : a :: b :: u = utf8_form 383 ++ u).
      { rewrite <- (ascii_N_embedding a), <- (ascii_N_embedding b). unfold code in Ea, Eb. by rewrite Ea, Eb. }
      rewrite E. constructor; [constructor|]. apply IH; [simpl in Hn; lia|done|done]. }
    destruct u as [|c v]; [apply Hd; [simpl in *; lia|done]|].
    destruct ((code a =? 226)%N && (code b =? 132)%N && (code c =? 170)%N) eqn:E2; [|apply Hd; [simpl in *; lia|done]].
    apply andb_true_iff in E2 as [[Ea%N.eqb_eq Eb%N.eqb_eq]%andb_true_iff Ec%N.eqb_eq]. apply andb_true_iff in Hf as [_ Hf].
    assert (E : a :: b :: c :: v = utf8_form 8490 ++ v).
    { rewrite <- (ascii_N_embedding a), <- (ascii_N_embedding b), <- (ascii_N_embedding c). unfold code in Ea, Eb, Ec. by rewrite Ea, Eb, Ec. }
    rewrite E. constructor; [constructor|]. apply IH; [simpl in Hn; lia|done|done].
  - intros Hs. induction Hs as [|w c k f Hl Hs IH]; [done|]. apply andb_true_iff in H as [H1 H2]. rewrite (letter_fold w c k H1 Hl). by rewrite IH.
Qed.

(** The keys taken for a field. *)
Theorem C130_keys k f : f ∈ field_names -> fold_key k = f <-> spelled k f.
Proof.
  intros Hf. apply fold_spelled. revert Hf. unfold field_names. rewrite !elem_of_cons, elem_of_nil. intuition (subst; reflexivity).
Qed.

Lemma int_val_jint w z : int_val w = Some z <-> jint w z.
Proof.
  unfold int_val. split.
  - destruct w as [|c t]; [done|]. unfold read_num. destruct (Ascii.eqb_spec c "-"%char) as [->|Hc].
    + destruct (read_nat t) as [[n [|x r]]|] eqn:E; try done. intros [= <-]. apply read_jnat in E as (u & -> & H). rewrite app_nil_r. by constructor.
    + destruct (read_nat (c :: t)) as [[n [|x r]]|] eqn:E; try done. intros [= <-]. apply read_jnat in E as (u & -> & H). rewrite app_nil_r. by constructor.
  - intros H. destruct H as [t n H|t n H].
    + destruct (jnat_head t n H) as (c & t' & -> & Hc). unfold read_num. rewrite (digit_not c) by done.
      pose proof (jnat_read _ n [] H I) as E. rewrite app_nil_r in E. by rewrite E.
    + unfold read_num. change (Ascii.eqb "-"%char "-"%char) with true. cbv iota.
      pose proof (jnat_read _ n [] H I) as E. rewrite app_nil_r in E. by rewrite E.
Qed.
Lemma uint_val_jnat w n : uint_val w = Some n <-> jnat w n.
Proof.
  unfold uint_val. split.
  - destruct (read_nat w) as [[x [|y r]]|] eqn:E; try done. intros [= <-]. apply read_jnat in E as (u & -> & H). by rewrite app_nil_r.
  - intros H. pose proof (jnat_read _ n [] H I) as E. rewrite app_nil_r in E. by rewrite E.
Qed.

Lemma octets_value l b : r_octets l = Some b <-> Forall2 octet_value l b.
Proof.
  revert b. induction l as [|j l IH]; intros b; cbn [r_octets].
  - split; [intros [= <-]; constructor|intros H; by inversion H].
  - split.
    + destruct j as [|x|w|w|m|m]; try done.
      * intros (b' & E & ->)%fmap_Some. constructor; [constructor|by apply IH].
      * destruct (uint_val w) as [n|] eqn:Ew; [|done]. cbn [mbind option_bind]. destruct (N.ltb_spec n 256); [|done].
        intros (b' & E & ->)%fmap_Some. constructor; [|by apply IH]. apply (ov_num w n); [by apply uint_val_jnat|]. by apply N_ascii_embedding.
    + intros H. inversion H as [|? c ? b' Ho Hl E1 E2]; subst. apply IH in Hl. destruct Ho as [|w n c Hw Hc].
      * by rewrite Hl.
      * apply uint_val_jnat in Hw as ->. cbn [mbind option_bind]. pose proof (N_ascii_bounded c). destruct (N.ltb_spec n 256); [|lia].
        rewrite Hl. cbn. do 2 f_equal. rewrite <- Hc. apply ascii_N_embedding.
Qed.

(** Bytes may also be given as an array of numbers up to 255. *)
Theorem C130_array l b : r_bytes [RArr l] = Some b <-> Forall2 octet_value l b.
Proof. rewrite <- octets_value. unfold r_bytes. cbn [settle]. by destruct (r_octets l). Qed.

Lemma given_one k k' v : given k [(k', v)] = if bool_decide (fold_key k' = fold_key k) then [v] else [].
Proof. unfold given. rewrite filter_cons. cbn [fst]. rewrite decide_bool_decide. by case_bool_decide. Qed.

(** The values a field of a file's details takes. *)
Theorem C130_values k k1 f v d :
  spelled k (B"details") -> f ∈ [B"name"; B"size"; B"mode"; B"is_dir"] -> spelled k1 f ->
  (forall w, v = RStr w -> exists t, jstr w t) ->
  r_details [(k, RObj [(k1, v)])] = Some d <-> sets f v d.
Proof.
  intros Hk Hf Hk1 Hv. apply fold_spelled in Hk; [|reflexivity].
  unfold r_details. rewrite given_one, Hk. change (fold_key (B"details")) with (B"details"). rewrite bool_decide_eq_true_2 by done.
  cbn [r_obj mbind option_bind fmap option_fmap option_map app]. rewrite !elem_of_cons, elem_of_nil in Hf. rewrite !given_one.
  destruct Hf as [->|[->|[->|[->|[]]]]]; (apply fold_spelled in Hk1; [|reflexivity]); rewrite Hk1.
  all: repeat match goal with |- context [bool_decide (?a = fold_key ?b)] => 
    let x := eval vm_compute in (bool_decide (a = fold_key b)) in change (bool_decide (a = fold_key b)) with x end; cbn iota.
  - unfold r_str. destruct v as [|x|w|w|m|m]; cbn [settle mbind option_bind].
    1: { split; [intros [= <-]; constructor|intros H; inversion H; subst; reflexivity]. }
    3: { destruct (Hv w eq_refl) as [t Ht]. rewrite (str_val_jstr w t Ht). cbn. split.
         - intros [= <-]. by apply (st_name w t).
         - intros H. inversion H as [|? t' Ht'| | |]; subst. pose proof (str_val_jstr w t Ht) as E1. rewrite (str_val_jstr w t' Ht') in E1. by injection E1 as ->. }
    all: split; [done|]; intros H; inversion H.
  - unfold r_int64. destruct v as [|x|w|w|m|m]; cbn [settle mbind option_bind].
    1: { split; [intros [= <-]; constructor|intros H; inversion H; subst; reflexivity]. }
    2: { split.
         - destruct (int_val w) as [z|] eqn:Ez; [|done]. cbn [mbind option_bind]. unfold in_range.
           destruct ((- 2 ^ 63 <=? z)%Z && (z <? 2 ^ 63)%Z) eqn:Er; [|done]. apply andb_true_iff in Er as [E1%Z.leb_le E2%Z.ltb_lt]. cbn. intros [= <-].
           apply st_size; [by apply int_val_jint|done].
         - intros H. inversion H as [| |? z Hz [E1 E2]| |]; subst. apply int_val_jint in Hz as ->. cbn [mbind option_bind]. unfold in_range.
           rewrite (proj2 (Z.leb_le _ _) E1), (proj2 (Z.ltb_lt _ _) E2). reflexivity. }
    all: split; [done|]; intros H; inversion H.
  - unfold r_uint32. destruct v as [|x|w|w|m|m]; cbn [settle mbind option_bind].
    1: { split; [intros [= <-]; constructor|intros H; inversion H; subst; reflexivity]. }
    2: { split.
         - destruct (uint_val w) as [z|] eqn:Ez; [|done]. cbn [mbind option_bind]. unfold in_range.
           destruct (z <? 2 ^ 32)%N eqn:Er; [|done]. apply N.ltb_lt in Er. cbn. intros [= <-].
           apply st_mode; [by apply uint_val_jnat|done].
         - intros H. inversion H as [| | |? z Hz E1|]; subst. apply uint_val_jnat in Hz as ->. cbn [mbind option_bind]. unfold in_range.
           rewrite (proj2 (N.ltb_lt _ _) E1). reflexivity. }
    all: split; [done|]; intros H; inversion H.
  - unfold r_bool. destruct v as [|x|w|w|m|m]; cbn [settle mbind option_bind].
    1: { split; [intros [= <-]; constructor|intros H; inversion H; subst; reflexivity]. }
    1: { split; [intros [= <-]; constructor|intros H; inversion H; subst; reflexivity]. }
    all: split; [done|]; intros H; inversion H.
Qed.

Example C130_ex :
  spelled (B"Is_DIR") (B"is_dir") /\ spelled (utf8_form 383 ++ B"Ize") (B"size") /\
  r_details [(B"Details", RObj [(utf8_form 383 ++ B"Ize", RNum (B"9223372036854775807"))])] = Some (with_size 9223372036854775807) /\
  r_details [(B"details", RObj [(B"size", RNum (B"9223372036854775808"))])] = None /\
  r_details [(B"details", RObj [(B"size", RNum (B"1e3"))])] = None /\
  r_details [(B"details", RObj [(B"mode", RNum (B"-1"))])] = None /\
  r_bytes [RArr [RNum (B"255"); RNull]] = Some [ascii_of_N 255; ascii_of_N 0] /\ r_bytes [RArr [RNum (B"256")]] = None.
Proof.
  split; [by apply fold_spelled; vm_compute|]. split; [by apply fold_spelled; vm_compute|]. by vm_compute.
Qed.
