(** Lemmas: the order of names as text against the order of a tree. *)
From Verif Require Import Bytes GoPath WalkSpec MemReaddir.

(** No name sorts between a directory's and those of what is in it: of two names
    that part at an element, where one element continues the other and the
    shorter has something below it, the byte after the shorter sorts after the
    slash. *)
Definition in_step (P : list bytes -> Prop) : Prop :=
  forall p a us ch rest vs, us <> [] -> P (p ++ a :: us) -> P (p ++ (a ++ ch :: rest) :: vs) ->
    (N_of_ascii slash < N_of_ascii ch)%N.

Lemma elems_lt_part ws vs : elems_lt ws vs = true ->
  (exists u us, vs = ws ++ u :: us) \/
  (exists p w v us ts, ws = p ++ w :: us /\ vs = p ++ v :: ts /\ blt w v = true).
Proof.
  revert vs. induction ws as [|w ws IH]; intros [|v vs]; cbn [elems_lt]; [done| |done|].
  - intros _. left. by eexists _, _.
  - case_bool_decide as E; [subst v|].
    + intros H. destruct (IH _ H) as [(u & us & ->)|(p & a & b & us & ts & -> & -> & Hb)]; [left; by eexists _, _|].
      right. by exists (w :: p), a, b, us, ts.
    + intros H. right. by exists [], w, v, ws, vs.
Qed.

Lemma join_common q : exists X, forall w t, join_slash (q ++ w :: t) = X ++ w ++ join_tail t.
Proof.
  induction q as [|a q [X HX]].
  - exists []. intros w t. apply join_cons.
  - exists (a ++ slash :: X). intros w t. cbn [app]. rewrite join_cons.
    destruct (q ++ w :: t) as [|y l] eqn:E; [by destruct q|]. cbn [join_tail]. rewrite <- E, HX, <- app_assoc. done.
Qed.

Lemma blt_tails w v X Y :
  blt w v = true -> (forall ch rest, v = w ++ ch :: rest -> X = [] \/ (exists x, X = slash :: x) /\ (N_of_ascii slash < N_of_ascii ch)%N) ->
  blt (w ++ X) (v ++ Y) = true.
Proof.
  revert v. induction w as [|c w IH]; intros v H Hs.
  - destruct v as [|d v]; [done|]. destruct (Hs d v eq_refl) as [-> |[[x ->] Hd]]; [done|]. cbn [app]. apply blt_cons. by left.
  - destruct v as [|d v]; [by rewrite blt_nil_r in H|]. apply blt_cons in H. cbn [app]. apply blt_cons.
    destruct H as [H|[-> H]]; [by left|]. right. split; [done|]. apply IH; [done|]. intros ch rest E. apply (Hs ch rest). by rewrite E.
Qed.

Lemma in_step_blt P ns ws vs : in_step P -> P ws -> P vs ->
  Forall good_elem ns -> Forall good_elem ws -> Forall good_elem vs ->
  elems_lt ws vs = true -> blt (abs_name (ns ++ ws)) (abs_name (ns ++ vs)) = true.
Proof.
  intros HP Hw Hv Gn Gw Gv H. unfold abs_name. apply blt_cons. right. split; [done|].
  destruct (elems_lt_part ws vs H) as [(u & us & ->)|(p & w & v & us & ts & -> & -> & Hb)].
  - rewrite app_assoc. destruct (ns ++ ws) as [|y l] eqn:E.
    + apply Forall_app in Gv as [_ Gu]. apply Forall_cons in Gu as [Gu _]. cbn [app]. rewrite join_cons.
      destruct Gu as (Hu & _). by destruct u.
    + rewrite join_slash_app by done. rewrite <- (app_nil_r (join_slash (y :: l))) at 1. by rewrite blt_app_common.
  - rewrite !app_assoc. destruct (join_common (ns ++ p)) as [X HX]. rewrite !HX, blt_app_common.
    apply blt_tails; [done|]. intros ch rest ->. destruct us as [|u us]; [by left|]. right. split; [by eexists|].
    by eapply (HP p w (u :: us) ch rest ts).
Qed.

(** A pair that is out of step. *)
Lemma out_of_step ns p a us ch rest vs :
  us <> [] -> ch <> slash -> ~ (N_of_ascii slash < N_of_ascii ch)%N ->
  elems_lt (p ++ a :: us) (p ++ (a ++ ch :: rest) :: vs) = true /\
  blt (abs_name (ns ++ p ++ (a ++ ch :: rest) :: vs)) (abs_name (ns ++ p ++ a :: us)) = true.
Proof.
  intros Hus Hne Hch. split.
  - induction p as [|q p IH]; cbn [app elems_lt].
    + rewrite bool_decide_eq_false_2.
      * rewrite <- (app_nil_r a) at 1. by rewrite blt_app_common.
      * intros E. apply (f_equal length) in E. rewrite app_length in E. cbn in E. lia.
    + by rewrite bool_decide_eq_true_2.
  - unfold abs_name. apply blt_cons. right. split; [done|]. rewrite !app_assoc. destruct (join_common (ns ++ p)) as [X HX].
    rewrite !HX, blt_app_common, <- app_assoc, blt_app_common. destruct us as [|u us]; [done|]. cbn [join_tail app]. apply blt_cons. left.
    assert (N_of_ascii slash <> N_of_ascii ch) by (intros E; apply N_of_ascii_inj in E; congruence). lia.
Qed.

Lemma elems_lt_once ws vs : elems_lt ws vs = true -> elems_lt vs ws = true -> False.
Proof.
  revert vs. induction ws as [|w ws IH]; intros [|v vs]; cbn [elems_lt]; try done.
  case_bool_decide as E.
  - subst v. rewrite bool_decide_eq_true_2 by done. apply IH.
  - rewrite bool_decide_eq_false_2 by congruence. intros H1 H2. apply blt_spec in H1 as [H1 Hn]. apply blt_spec in H2 as [H2 _].
    apply Hn. by apply ble_antisym.
Qed.
Lemma sorted_pair {A} (R1 R2 : A -> A -> Prop) l x y : StronglySorted R1 l -> StronglySorted R2 l -> x ∈ l -> y ∈ l ->
  x = y \/ R1 x y /\ R2 x y \/ R1 y x /\ R2 y x.
Proof.
  intros H1 H2 Hx Hy. revert H2. induction H1 as [|z l _ IH F1]; [by apply elem_of_nil in Hx|]. intros H2. inversion H2 as [|? ? H2' F2]; subst.
  rewrite Forall_forall in F1, F2. apply elem_of_cons in Hx as [->|Hx]; apply elem_of_cons in Hy as [->|Hy]; [by left|right; left|right; right|by apply IH]; eauto.
Qed.

(** A list in the order of the tree is sorted as text exactly when its names are
    in step. *)
Lemma sorted_step {A} (nm : A -> list bytes) ns (l : list A) :
  Forall good_elem ns -> (forall x, x ∈ l -> Forall good_elem (nm x)) ->
  StronglySorted (fun a b => elems_lt (nm a) (nm b) = true) l ->
  StronglySorted (fun a b => blt (abs_name (ns ++ nm a)) (abs_name (ns ++ nm b)) = true) l <->
    in_step (fun ws => exists x, x ∈ l /\ nm x = ws).
Proof.
  intros Gn Gl HS. split.
  - intros HT p a us ch rest vs Hus (x & Hx & Ex) (y & Hy & Ey).
    destruct (decide (N_of_ascii slash < N_of_ascii ch)%N) as [?|Hch]; [done|exfalso].
    assert (Hne : ch <> slash).
    { pose proof (Gl y Hy) as G. rewrite Ey in G. apply Forall_app in G as [_ G]. apply Forall_cons in G as [(_ & _ & _ & G) _].
      intros ->. apply G. apply elem_of_app. right. left. }
    destruct (out_of_step ns p a us ch rest vs Hus Hne Hch) as [H1 H2]. rewrite <- Ex, <- Ey in H1, H2.
    destruct (sorted_pair _ _ l x y HS HT Hx Hy) as [->|[[_ H]|[H _]]].
    + by apply (elems_lt_once _ _ H1).
    + apply blt_spec in H as [H Hn]. apply blt_spec in H2 as [H2 _]. apply Hn. by apply ble_antisym.
    + by apply (elems_lt_once _ _ H1).
  - intros HP. induction HS as [|x l HS IH HF]; [constructor|].
    assert (HP' : in_step (fun ws => exists y, y ∈ l /\ nm y = ws)).
    { intros p a us ch rest vs Hus (y & Hy & Ey) (z & Hz & Ez). eapply (HP p a us); [done|exists y; by split; [right|]|exists z; by split; [right|]]. }
    constructor; [apply IH; [intros y Hy; apply Gl; by right|done]|].
    rewrite Forall_forall in HF. apply Forall_forall. intros y Hy. apply (in_step_blt _ ns _ _ HP).
    + exists x. by split; [left|].
    + exists y. by split; [right|].
    + done.
    + apply Gl. left.
    + apply Gl. by right.
    + by apply HF.
Qed.
Lemma in_step_ext P Q : (forall ws, P ws <-> Q ws) -> in_step P <-> in_step Q.
Proof. intros H. unfold in_step. split; intros HP p a us ch rest vs Hus H1 H2; eapply (HP p a us ch rest vs Hus); by apply H. Qed.

(** Names without a byte that sorts before the slash are in step. *)
Lemma no_low_step (P : list bytes -> Prop) : (forall ws, P ws -> Forall good_elem ws /\ no_low (abs_name ws)) -> in_step P.
Proof.
  intros H p a us ch rest vs _ _ H2. destruct (H _ H2) as [G L]. unfold abs_name in L. apply no_low_cons in L as [_ L].
  apply Forall_app in G as [_ G]. apply Forall_cons in G as [(_ & _ & _ & G) _].
  destruct (join_common p) as [X HX]. rewrite HX in L. unfold no_low in L. rewrite !Forall_app, Forall_cons in L. destruct L as (_ & (_ & L & _) & _).
  assert (N_of_ascii slash <> N_of_ascii ch); [|lia]. intros E. apply N_of_ascii_inj in E. apply G. apply elem_of_app. right. rewrite E. left.
Qed.

Lemma sorted_fmap {A C} (R : C -> C -> Prop) (f : A -> C) (l : list A) :
  StronglySorted R (f <$> l) <-> StronglySorted (fun a b => R (f a) (f b)) l.
Proof.
  induction l as [|x l IH]; cbn; [by split; constructor|]. split; intros H; inversion H as [|? ? H1 H2]; subst; constructor.
  - by apply IH.
  - by rewrite Forall_fmap in H2.
  - by apply IH.
  - by rewrite Forall_fmap.
Qed.
Lemma sorted_iff {A} (R R' : A -> A -> Prop) (l : list A) : (forall a b, R a b <-> R' a b) -> StronglySorted R l <-> StronglySorted R' l.
Proof.
  intros H. split; induction 1 as [|x l HS IH HF]; constructor; try done; (eapply Forall_impl; [exact HF|]); intros y; apply H.
Qed.
Lemma elems_lt_total ws vs : elems_lt ws vs = true \/ ws = vs \/ elems_lt vs ws = true.
Proof.
  revert vs. induction ws as [|w ws IH]; intros [|v vs]; cbn [elems_lt]; [by right; left|by left|by right; right|].
  case_bool_decide as E.
  - subst v. rewrite bool_decide_eq_true_2 by done. destruct (IH vs) as [?|[->|?]]; [by left|by right; left|by right; right].
  - rewrite bool_decide_eq_false_2 by congruence. destruct (ble_total w v) as [H|H]; [left|right; right]; apply blt_spec; (split; [done|congruence]).
Qed.
Lemma blt_under x c a b : blt (x ++ c :: a) (x ++ c :: b) = blt a b.
Proof. rewrite blt_app_common. apply (blt_app_common [c]). Qed.
