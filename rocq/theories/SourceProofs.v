(** Lemmas about scanning a source file. *)
From Verif Require Import Bytes GoPath Here GoTypes WalkSpec Disk Decls JsonStr GoQuote Source.

Lemma ast_ind' (P : ast -> Prop) :
  (forall s, P (ALit s)) -> (forall x o, P (AIdent x o)) -> (forall x w, P x -> P (ASel x w)) ->
  (forall f args, P f -> Forall P args -> P (ACall f args)) -> (forall cs, Forall P cs -> P (AOther cs)) ->
  forall n, P n.
Proof.
  intros H1 H2 H3 H4 H5. fix IH 1. intros [s|x o|x w|f args|cs].
  - apply H1.
  - apply H2.
  - apply H3, IH.
  - apply H4; [apply IH|]. induction args as [|a l IHl]; constructor; [apply IH|exact IHl].
  - apply H5. induction cs as [|a l IHl]; constructor; [apply IH|exact IHl].
Qed.

Lemma index_of_some x l i :
  index_of x l = Some i <-> l !! i = Some x /\ forall j, j < i -> l !! j <> Some x.
Proof.
  revert i. induction l as [|y l IH]; intros i; cbn.
  - split; [done|]. intros [H _]. done.
  - case_bool_decide as E.
    + subst y. split.
      * intros [= <-]. split; [done|]. lia.
      * intros [_ H]. destruct i as [|i]; [done|]. exfalso. by apply (H 0 ltac:(lia)).
    + destruct (index_of x l) as [k|] eqn:Ek.
      * pose proof (proj1 (IH k) eq_refl) as [H1 H2]. split.
        -- intros [= <-]. split; [done|]. intros [|j] Hj; cbn; [congruence|]. apply H2. lia.
        -- intros [G1 G2]. destruct i as [|i]; [cbn in G1; congruence|]. 
           assert (HS : Some k = Some i); [|by injection HS as ->].
           apply IH. split; [done|]. intros j Hj. by apply (G2 (S j) ltac:(lia)).
      * split; [done|]. intros [G1 G2]. destruct i as [|i]; [cbn in G1; congruence|].
        assert (HS : None = Some i); [|done]. apply IH. split; [done|]. intros j Hj. by apply (G2 (S j) ltac:(lia)).
Qed.

Lemma index_of_none x l : index_of x l = None <-> x ∉ l.
Proof.
  induction l as [|y l IH]; cbn; [set_solver|]. rewrite elem_of_cons. case_bool_decide as E.
  - subst. split; [done|]. intros H. exfalso. apply H. by left.
  - destruct (index_of x l); split; try done.
    + intros H. exfalso. apply H. right. apply dec_stable. intros G. apply IH in G. done.
    + intros _ [->|G]; [done|]. by apply IH in G.
Qed.

(** Identifiers are not string literals. *)
Fixpoint idents_ok (n : ast) : Prop :=
  match n with
  | ALit _ => True
  | AIdent x _ => unquote x = None
  | ASel x _ => idents_ok x
  | ACall f args => idents_ok f /\ (fix all l := match l with [] => True | a :: l => idents_ok a /\ all l end) args
  | AOther cs => (fix all l := match l with [] => True | a :: l => idents_ok a /\ all l end) cs
  end.

Lemma all_forall (l : list ast) :
  (fix all l := match l with [] => True | a :: l => idents_ok a /\ all l end) l <-> Forall idents_ok l.
Proof. induction l as [|a l IH]; [done|]. rewrite Forall_cons, IH. done. Qed.

Lemma kind_of_function name : kind_of name = function_kind name.
Proof.
  unfold kind_of. repeat (case_bool_decide as E; [by subst name; vm_compute|]; revert E). intros E1 E2 E3 E4 E5 E6 E7.
  unfold function_kind, file_functions. by rewrite !filter_cons_False by (intros Hx; cbn [fst] in Hx; subst name; done).
Qed.
Lemma pkger_call_called f : pkger_call f = called f.
Proof.
  destruct f as [| |[|x o| | |] name| |]; try done. cbn [pkger_call called]. rewrite kind_of_function.
  case_bool_decide; by case_decide.
Qed.

Section Proofs.
  Context (parse : resolver) (hdir hpkg : bytes -> res hinfo) (objs : nat -> object).

  Definition objs_ok : Prop :=
    forall o names values, o_spec (objs o) = Some (names, values) -> Forall idents_ok values.

  Lemma text_of_settles a s : text_of objs a s -> settles objs a.
  Proof. induction 1; [constructor|]. by eapply s_con. Qed.

  Lemma value_settles a :
    settles objs a -> idents_ok a -> objs_ok ->
    exists F s, (forall fuel, F <= fuel -> value_node objs fuel a = Done s) /\
      (text_of objs a s \/ unquote s = None) /\ (forall s', text_of objs a s' -> s' = s).
  Proof.
    intros Hs Hi Ho. induction Hs as [s|x w|f args|cs|name o Hc|name o Hc|name o names values Hc Hn
      |name o names values i v Hc Hn Hlt Hv Hs IH].
    - exists 1, s. split; [|split; [left; constructor|]].
      + intros [|fuel]; [lia|done].
      + by inversion 1.
    - exists 1, []. split; [intros [|fuel]; [lia|done]|]. split; [by right|]. by inversion 1.
    - exists 1, []. split; [intros [|fuel]; [lia|done]|]. split; [by right|]. by inversion 1.
    - exists 1, []. split; [intros [|fuel]; [lia|done]|]. split; [by right|]. by inversion 1.
    - exists 1, name. split; [intros [|fuel]; [lia|cbn; by rewrite Hc]|]. split; [by right|].
      inversion 1; congruence.
    - exists 1, name. split; [intros [|fuel]; [lia|cbn; rewrite Hc; by destruct (o_con (objs o))]|]. split; [by right|].
      inversion 1; congruence.
    - exists 1, name. split.
      { intros [|fuel]; [lia|]. cbn. rewrite Hc. apply index_of_none in Hn. rewrite Hn. by destruct (o_con (objs o)). }
      split; [by right|]. intros s'. inversion 1 as [|? ? ns vs j v' ? Hcon Hspec Hj]; subst.
      exfalso. apply Hn. rewrite Hc in Hspec. injection Hspec as -> ->. by eapply elem_of_list_lookup_2.
    - destruct (o_con (objs o)) eqn:Econ.
      + destruct IH as (F & s & H1 & H2 & H3).
        { specialize (Ho _ _ _ Hc). rewrite Forall_forall in Ho. apply Ho. by eapply elem_of_list_lookup_2. }
        exists (S F), s. split.
        { intros [|fuel] HF; [lia|]. cbn. rewrite Econ, Hc, (proj2 (index_of_some name names i)), Hv by done.
          apply H1. lia. }
        split.
        { destruct H2 as [H2|H2]; [left|by right]. by eapply t_con. }
        intros s'. inversion 1 as [|? ? ns vs j v' ? Hcon Hspec Hj Hlt' Hv' Ht]; subst.
        rewrite Hc in Hspec. injection Hspec as <- <-.
        assert (j = i) as ->.
        { destruct (Nat.lt_trichotomy i j) as [?|[?|?]]; [exfalso; by eapply Hlt'|done|exfalso; by eapply Hlt]. }
        rewrite Hv in Hv'. injection Hv' as <-. by apply H3.
      + exists 1, name. split; [intros [|fuel]; [lia|cbn; by rewrite Econ]|]. split; [by right|].
        inversion 1; congruence.
  Qed.

  Lemma visit_call_spec abs k args :
    Forall (settles objs) (take 1 args) -> Forall idents_ok args -> objs_ok ->
    exists F, 
      ((exists d, declares parse hdir hpkg objs abs (k, args) d /\
         forall fuel st, F <= fuel -> visit_call parse hdir hpkg objs fuel abs k args st = Done ((st.1 ++ [d], st.2), true)) \/
       ((~ exists d, declares parse hdir hpkg objs abs (k, args) d) /\
         forall fuel st, F <= fuel -> exists e, visit_call parse hdir hpkg objs fuel abs k args st = Done ((st.1, Some e), false))).
  Proof.
    intros Hs Hi Ho. destruct args as [|a args].
    { exists 0. right. split; [|intros; cbn; eauto]. intros (d & _ & (a & rest & s & E & _) & _). done. }
    cbn in Hs. apply Forall_cons in Hs as [Hs _]. apply Forall_cons in Hi as [Hi _].
    destruct (value_settles a Hs Hi Ho) as (F & s & H1 & H2 & H3). exists F. cbn [visit_call].
    destruct (unquote s) as [val|] eqn:Eu.
    - destruct H2 as [H2|]; [|done].
      destruct (locate parse hdir hpkg abs val) as [f|e] eqn:El.
      + left. exists (Decl k f val). split; [|intros fuel st HF; by rewrite H1, Eu, El].
        split; [done|]. split; [by exists a, args, s|]. unfold locate in El. cbn [d_value d_file].
        destruct (hdir (dirname abs)) as [info|] eqn:Eh; [|done].
        destruct (parse info val) as [pt|] eqn:Ep; [|done].
        case_bool_decide as Eb.
        * injection El as <-. exists info, info. cbn. split_and!; try done. by left.
        * destruct (hpkg (p_pkg pt)) as [home|] eqn:Ehp; [|done]. injection El as <-.
          exists info, home. cbn. split_and!; try done. by right.
      + right. split; [|intros fuel st HF; rewrite H1, Eu, El; eauto].
        intros (d & _ & (a' & rest & s' & [= <- <-] & Ht & Hu) & info & home & Eh & Ep & Ehome & Hpk & _).
        apply H3 in Ht as ->. rewrite Eu in Hu. injection Hu as ->. unfold locate in El.
        rewrite Eh, Ep in El. destruct Hpk as [[Hpk ->]|[Hpk Hh]].
        * by rewrite bool_decide_eq_true_2 in El.
        * by rewrite bool_decide_eq_false_2, Hh in El.
    - right. split; [|intros fuel st HF; rewrite H1, Eu; eauto].
      intros (d & _ & (a' & rest & s' & [= <- <-] & Ht & Hu) & _). apply H3 in Ht as ->. congruence.
  Qed.

  Context (abs : bytes) (bad : kind -> list ast -> bool).

  Definition judged (c : kind * list ast) : Prop :=
    Forall (settles objs) (take 1 c.2) /\
    (bad c.1 c.2 = false <-> exists d, declares parse hdir hpkg objs abs c d).

  Definition kept (l : list (kind * list ast)) := filter (fun c => bad c.1 c.2 = false) l.

  Definition scans (n : ast) : Prop :=
    idents_ok n -> Forall judged (calls bad n) ->
    exists F ds, Forall2 (declares parse hdir hpkg objs abs) (kept (calls bad n)) ds /\
      forall fuel st, F <= fuel -> exists e, scan parse hdir hpkg objs fuel abs n st = Done (st.1 ++ ds, e).

  Lemma scans_each l :
    Forall scans l -> Forall idents_ok l -> Forall judged (args_list (calls bad) l) ->
    exists F ds, Forall2 (declares parse hdir hpkg objs abs) (kept (args_list (calls bad) l)) ds /\
      forall fuel st, F <= fuel -> exists e, each (scan parse hdir hpkg objs fuel abs) l st = Done (st.1 ++ ds, e).
  Proof.
    induction 1 as [|x l Hx _ IH]; intros Hi Hj.
    - exists 0, []. split; [constructor|]. intros fuel [ds e] _. exists e. cbn. by rewrite app_nil_r.
    - cbn [args_list] in *. apply Forall_cons in Hi as [Hi1 Hi2]. apply Forall_app in Hj as [Hj1 Hj2].
      destruct (Hx Hi1 Hj1) as (F1 & d1 & A1 & B1). destruct (IH Hi2 Hj2) as (F2 & d2 & A2 & B2).
      exists (max F1 F2), (d1 ++ d2). split.
      + unfold kept. rewrite filter_app. by apply Forall2_app.
      + intros fuel st HF. cbn [each]. destruct (B1 fuel st ltac:(lia)) as [e1 ->].
        destruct (B2 fuel (st.1 ++ d1, e1) ltac:(lia)) as [e2 E2]. exists e2.
        etrans; [exact E2|]. cbn. by rewrite app_assoc.
  Qed.

  Lemma scans_all n : objs_ok -> scans n.
  Proof.
    intros Ho. induction n as [s|x o|x w IH|f args IHf IHa|cs IH] using ast_ind'; intros Hi Hj.
    - exists 0, []. split; [constructor|]. intros fuel [ds e] _. exists e. cbn. by rewrite app_nil_r.
    - exists 0, []. split; [constructor|]. intros fuel [ds e] _. exists e. cbn. by rewrite app_nil_r.
    - by apply IH.
    - cbn [calls] in Hj |- *. cbn [idents_ok] in Hi. destruct Hi as [Hif Hia]. apply all_forall in Hia.
      rewrite <- pkger_call_called in Hj |- *. destruct (pkger_call f) as [k|] eqn:Ek.
      + apply Forall_cons in Hj as [[Hset Hbad] Hj]. cbn [fst snd] in Hset, Hbad.
        destruct (visit_call_spec abs k args Hset Hia Ho) as (F0 & [(d & Hd & Hv)|(Hno & Hv)]).
        * assert (Eb : bad k args = false) by (apply Hbad; eauto). rewrite Eb in Hj.
          apply Forall_app in Hj as [Hj1 Hj2]. destruct (IHf Hif Hj1) as (F1 & d1 & A1 & B1).
          destruct (scans_each args IHa Hia Hj2) as (F2 & d2 & A2 & B2).
          exists (max F0 (max F1 F2)), (d :: d1 ++ d2). split.
          -- unfold kept. rewrite Eb, filter_cons. cbn [fst snd]. rewrite decide_True by done.
             constructor; [done|]. rewrite filter_app. by apply Forall2_app.
          -- intros fuel st HF. cbn [scan]. rewrite Ek, Hv by lia.
             destruct (B1 fuel (st.1 ++ [d], st.2) ltac:(lia)) as [e1 ->]. cbn [fst].
             destruct (B2 fuel ((st.1 ++ [d]) ++ d1, e1) ltac:(lia)) as [e2 E2]. exists e2.
             etrans; [exact E2|]. cbn [fst]. by rewrite <- !app_assoc.
        * assert (Eb : bad k args = true).
          { destruct (bad k args) eqn:E; [done|]. exfalso. apply Hno. by apply Hbad. }
          exists F0, []. split.
          -- unfold kept. rewrite Eb, filter_cons. cbn [fst snd]. rewrite decide_False by congruence. constructor.
          -- intros fuel st HF. cbn [scan]. rewrite Ek. destruct (Hv fuel st HF) as [e ->]. exists (Some e).
             by rewrite app_nil_r.
      + apply Forall_app in Hj as [Hj1 Hj2]. destruct (IHf Hif Hj1) as (F1 & d1 & A1 & B1).
        destruct (scans_each args IHa Hia Hj2) as (F2 & d2 & A2 & B2).
        exists (max F1 F2), (d1 ++ d2). split.
        * unfold kept. rewrite filter_app. by apply Forall2_app.
        * intros fuel st HF. cbn [scan]. rewrite Ek.
          destruct (B1 fuel st ltac:(lia)) as [e1 ->].
          destruct (B2 fuel (st.1 ++ d1, e1) ltac:(lia)) as [e2 E2]. exists e2.
          etrans; [exact E2|]. cbn [fst]. by rewrite <- !app_assoc.
    - cbn [calls] in Hj |- *. cbn [idents_ok] in Hi. apply all_forall in Hi.
      destruct (scans_each cs IH Hi Hj) as (F & ds & A & B). exists F, ds. split; [done|].
      intros fuel st HF. cbn [scan]. by apply B.
  Qed.
End Proofs.
