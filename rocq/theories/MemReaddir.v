(** Proofs about Readdir and about the errors of Walk (C20-C22). *)
From Verif Require Import Bytes GoPath Here GoTypes Mem MemSpec MemBase WalkSpec MemWalk.

(** *** Walk and its first error *)

Definition stops (e : option gerr) : bool :=
  match e with None | Some ESkipDir => false | Some _ => true end.

Lemma walk_loop_log {S} (f : walk_fn S) pt keys skip s m log :
  forall s' m' log' e,
  walk_loop (logged f) pt keys skip (s, log) m = ((s', log'), m', e) ->
  exists calls, log' = log ++ calls /\
    ((Forall (fun c => stops c.2 = false) calls /\ (e = None \/ e = Some ENotExist)) \/
     (exists calls' n, calls = calls' ++ [(n, e)] /\
        Forall (fun c => stops c.2 = false) calls' /\ stops e = true)).
Proof.
  revert skip s m log. induction keys as [|k keys IH]; intros skip s m log s' m' log' e; simpl.
  - intros [= <- <- <- <-]. exists []. rewrite app_nil_r. naive_solver.
  - destruct (negb (bool_decide _)); [apply IH|].
    destruct (negb (has_prefix _ _)); [apply IH|].
    destruct (has_prefix (p_name k) skip); [apply IH|].
    destruct (file_at m k) as [fo|].
    2:{ intros [= <- <- <- <-]. exists []. rewrite app_nil_r. naive_solver. }
    unfold logged at 1. simpl.
    destruct (f (path_string k) (new_file_info (f_info fo)) s m) as [[s1 m1] e1].
    assert (Hcont : forall skip', stops e1 = false ->
      walk_loop (logged f) pt keys skip' (s1, log ++ [(path_string k, e1)]) m1 = ((s', log'), m', e) ->
      exists calls, log' = log ++ calls /\
        ((Forall (fun c => stops c.2 = false) calls /\ (e = None \/ e = Some ENotExist)) \/
         (exists calls' n, calls = calls' ++ [(n, e)] /\
            Forall (fun c => stops c.2 = false) calls' /\ stops e = true))).
    { intros skip' Hs H. destruct (IH _ _ _ _ _ _ _ _ H) as (calls & -> & Hc).
      exists ((path_string k, e1) :: calls). split; [by rewrite <- app_assoc|].
      destruct Hc as [[Hc He]|(calls' & n & -> & Hc & He)].
      - left. split; [by constructor|done].
      - right. exists ((path_string k, e1) :: calls'), n. split; [done|]. split; [by constructor|done]. }
    assert (Hstop : stops e1 = true -> ((s1, log ++ [(path_string k, e1)]), m1, e1) = ((s', log'), m', e) ->
      exists calls, log' = log ++ calls /\
        ((Forall (fun c => stops c.2 = false) calls /\ (e = None \/ e = Some ENotExist)) \/
         (exists calls' n, calls = calls' ++ [(n, e)] /\
            Forall (fun c => stops c.2 = false) calls' /\ stops e = true))).
    { intros Hs [= <- <- <- <-]. exists [(path_string k, e1)]. split; [done|]. right.
      exists [], (path_string k). done. }
    destruct e1 as [[]|]; (by apply Hcont) || (by apply Hstop).
Qed.

(** *** Readdir as a visit *)

Definition readdir_obs (parse : resolver) (her : hinfo) (root : bytes) (parent : path) (count : Z)
  : obs_fn (list details) :=
  fun path info infos =>
    if (0 <? count)%Z && (Z.of_nat (length infos) =? count)%Z then (infos, Some EEOF)
    else if bool_decide (root = path) then (infos, None)
    else match parse her path with
         | None => (infos, Some EParse)
         | Some pt =>
             if bool_decide (p_name pt = p_name parent) then (infos, None)
             else if d_isdir info && negb (bool_decide (path = root))
                  then (infos ++ [info], Some ESkipDir)
                  else (infos ++ [info], None)
         end.

Lemma readdir_fn_obs parse root parent count n d s m :
  readdir_fn parse root parent count n d s m =
  lift_fn (readdir_obs parse (m_here m) root parent count) n d s m.
Proof.
  unfold readdir_fn, lift_fn, readdir_obs, mem_parse.
  destruct ((0 <? count)%Z && _); [done|]. case_bool_decide; [done|].
  destruct (parse (m_here m) n); [|done]. case_bool_decide; [done|].
  by destruct (d_isdir d && _).
Qed.

Lemma walk_loop_ext {S} (f : walk_fn S) (g : obs_fn S) pt keys skip s m :
  (forall n d s, f n d s m = lift_fn g n d s m) ->
  walk_loop f pt keys skip s m = walk_loop (lift_fn g) pt keys skip s m.
Proof.
  intros H. revert skip s. induction keys as [|k keys IH]; intros skip s; simpl; [done|].
  destruct (negb (bool_decide _)); [apply IH|].
  destruct (negb (has_prefix _ _)); [apply IH|].
  destruct (has_prefix (p_name k) skip); [apply IH|].
  destruct (file_at m k); [|done]. rewrite H. unfold lift_fn.
  destruct (g (path_string k) (new_file_info (f_info f0)) s) as [s' e].
  destruct e as [[]|]; try done; apply IH.
Qed.

Lemma readdir_visit parse m r f count :
  wf m -> m_heap m !! r = Some f ->
  parse (m_here m) (path_string (f_path f)) = Some (f_path f) ->
  is_rooted (p_name (f_path f)) = true ->
  readdir parse m r count =
    let l := entries m (f_path f) (sorted_keys m) in
    match visit (length l) (readdir_obs parse (m_here m) (path_string (f_path f)) (f_parent f) count) l [] with
    | (infos, None) | (infos, Some (EPath _ _)) | (infos, Some EEOF) => (infos, None)
    | (_, Some e) => ([], Some e)
    end.
Proof.
  intros Hw Hf Hp Hr. unfold readdir. rewrite Hf.
  replace (walk parse m (path_string (f_path f)) (readdir_fn parse (path_string (f_path f)) (f_parent f) count) [])
    with (walk parse m (path_string (f_path f))
      (lift_fn (readdir_obs parse (m_here m) (path_string (f_path f)) (f_parent f) count)) []).
  2:{ unfold walk, mem_parse. rewrite Hp. symmetry. apply walk_loop_ext. intros. apply readdir_fn_obs. }
  rewrite (walk_visit parse _ m _ (f_path f)) by done. simpl.
  destruct (visit _ _ _ _) as [infos [[]|]]; done.
Qed.

(** All entries below resolve, and are not taken for the parent. *)
Definition resolvable (parse : resolver) (m : mem) (root : path) (parent : path) : Prop :=
  forall k d, entry_at m k d -> p_pkg k = p_pkg root -> has_prefix (p_name k) (p_name root) = true ->
    parse (m_here m) (path_string k) = Some k /\ (k = root \/ p_name k <> p_name parent).

Lemma readdir_obs_zero parse her root parent n d acc q :
  parse her n = Some q ->
  readdir_obs parse her root parent 0 n d acc = (acc, None) \/
  readdir_obs parse her root parent 0 n d acc = (acc ++ [d], None) \/
  readdir_obs parse her root parent 0 n d acc = (acc ++ [d], Some ESkipDir).
Proof.
  intros Hq. unfold readdir_obs. rewrite Hq. simpl. case_bool_decide; [by left|].
  case_bool_decide; [by left|]. destruct (d_isdir d && _); auto.
Qed.

Lemma readdir_obs_count parse her root parent c n d acc :
  Z.of_nat (length acc) <> c ->
  readdir_obs parse her root parent c n d acc = readdir_obs parse her root parent 0 n d acc.
Proof.
  intros H. unfold readdir_obs. rewrite (proj2 (Z.eqb_neq _ _) H), andb_false_r. done.
Qed.

Lemma readdir_obs_full parse her root parent c n d acc :
  (0 < c)%Z -> Z.of_nat (length acc) = c ->
  readdir_obs parse her root parent c n d acc = (acc, Some EEOF).
Proof.
  intros Hc <-. unfold readdir_obs. rewrite (proj2 (Z.ltb_lt _ _) Hc), Z.eqb_refl. done.
Qed.

Definition all_resolve (parse : resolver) (her : hinfo) (l : list (path * details)) : Prop :=
  Forall (fun x => exists q, parse her (path_string x.1) = Some q) l.

Lemma all_resolve_filter parse her (P : path * details -> Prop) `{!forall x, Decision (P x)} l :
  all_resolve parse her l -> all_resolve parse her (filter P l).
Proof.
  intros HF. apply Forall_forall. intros y Hy. apply elem_of_list_filter in Hy as [_ Hy].
  by apply (proj1 (Forall_forall _ _) HF).
Qed.

(** Without a count the visit never fails and only appends. *)
Lemma visit_zero parse her root parent fuel l acc :
  all_resolve parse her l ->
  (visit fuel (readdir_obs parse her root parent 0) l acc).2 = None /\
  acc `prefix_of` (visit fuel (readdir_obs parse her root parent 0) l acc).1.
Proof.
  revert l acc. induction fuel as [|fuel IH]; intros l acc HF; [destruct l; simpl; eauto|].
  destruct l as [|[k d] l]; cbn [visit]; [eauto|]. apply Forall_cons in HF as [[q Hq] HF]. simpl in Hq.
  destruct (readdir_obs_zero parse her root parent (path_string k) d acc q Hq) as [-> | [-> | ->]].
  - by apply IH.
  - destruct (IH l (acc ++ [d]) HF) as [A B]. split; [done|]. etrans; [|exact B]. by eexists.
  - destruct (IH (filter (fun x => has_prefix (p_name x.1) (p_name k) = false) l) (acc ++ [d])) as [A B].
    { by apply all_resolve_filter. }
    split; [done|]. etrans; [|exact B]. by eexists.
Qed.

(** With a positive count the visit stops after that many entries. *)
Lemma visit_count parse her root parent n fuel l acc :
  all_resolve parse her l ->
  0 < n -> length acc <= n -> length l <= fuel ->
  exists e, visit fuel (readdir_obs parse her root parent (Z.of_nat n)) l acc =
     (take n (visit fuel (readdir_obs parse her root parent 0) l acc).1, e) /\
     (e = None \/ e = Some EEOF).
Proof.
  intros HF Hn. revert l acc HF. induction fuel as [|fuel IH]; intros l acc HF Hacc Hl.
  - destruct l; [|simpl in Hl; lia]. simpl. rewrite take_ge by done. exists None; eauto.
  - destruct l as [|[k d] l].
    { simpl. rewrite take_ge by done. exists None; eauto. }
    destruct (decide (Z.of_nat (length acc) = Z.of_nat n)) as [E|E].
    + cbn [visit]. rewrite readdir_obs_full by (done || lia). exists (Some EEOF). split; [|by right].
      f_equal. destruct (visit_zero parse her root parent (S fuel) ((k, d) :: l) acc HF) as [_ B].
      cbn [visit] in B. destruct B as [t Ht]. rewrite Ht. by rewrite take_app_alt by lia.
    + apply Forall_cons in HF as [[q Hq] HF]. simpl in Hq, Hl.
      cbn [visit]. rewrite readdir_obs_count by done.
      destruct (readdir_obs_zero parse her root parent (path_string k) d acc q Hq) as [-> | [-> | ->]].
      * apply IH; (done || lia).
      * apply IH; [done|rewrite app_length; simpl; lia|lia].
      * apply IH; [by apply all_resolve_filter|rewrite app_length; simpl; lia|].
        pose proof (filter_length (fun x : path * details => has_prefix (p_name x.1) (p_name k) = false) l). lia.
Qed.

Lemma listing_resolves parse m pt parent keys :
  resolvable parse m pt parent -> all_resolve parse (m_here m) (entries m pt keys).
Proof.
  intros HR. apply Forall_forall. intros [k d] Hk. apply entries_elem in Hk as (_ & He & Hk).
  apply in_root_spec in Hk as [H1 H2]. exists k. by apply (HR k d).
Qed.

Lemma readdir_take parse m r f n :
  wf m -> m_heap m !! r = Some f ->
  parse (m_here m) (path_string (f_path f)) = Some (f_path f) ->
  is_rooted (p_name (f_path f)) = true ->
  resolvable parse m (f_path f) (f_parent f) -> 0 < n ->
  exists infos, readdir parse m r 0 = (infos, None) /\
    readdir parse m r (Z.of_nat n) = (take n infos, None).
Proof.
  intros Hw Hf Hp Hr HR Hn. rewrite !(readdir_visit parse m r f) by done. simpl.
  set (l := entries m (f_path f) (sorted_keys m)).
  assert (HA : all_resolve parse (m_here m) l) by (by eapply listing_resolves).
  destruct (visit_zero parse (m_here m) (path_string (f_path f)) (f_parent f) (length l) l [] HA) as [A B].
  destruct (visit_count parse (m_here m) (path_string (f_path f)) (f_parent f) n (length l) l [] HA Hn)
    as (e & C & D); [simpl; lia|lia|].
  rewrite C. clear C.
  destruct (visit (length l) (readdir_obs parse (m_here m) (path_string (f_path f)) (f_parent f) 0) l [])
    as [infos e0]. simpl in A. subst e0. exists infos. split; [done|]. simpl.
  destruct D as [->| ->]; done.
Qed.

(** A count below one means "all". *)
Lemma readdir_nonpos parse m r c : (c <= 0)%Z -> readdir parse m r c = readdir parse m r 0.
Proof.
  intros Hc. unfold readdir. destruct (m_heap m !! r) as [f|]; [|done].
  replace (readdir_fn parse (path_string (f_path f)) (f_parent f) c)
    with (readdir_fn parse (path_string (f_path f)) (f_parent f) 0); [done|].
  unfold readdir_fn. rewrite (proj2 (Z.ltb_ge 0 c)) by lia. done.
Qed.

(** *** Readdir on well-formed trees *)

Lemma abs_name_app_cons ws v vs :
  ws <> [] -> abs_name (ws ++ v :: vs) = abs_name ws ++ abs_name (v :: vs).
Proof. intros H. unfold abs_name. rewrite join_slash_app by done. done. Qed.

Lemma abs_name_cons_cons v u us : abs_name (v :: u :: us) = abs_name [v] ++ abs_name (u :: us).
Proof. apply (abs_name_app_cons [v]). done. Qed.

Lemma no_self_prefix ws v :
  good_elem v -> has_prefix (abs_name ws) (abs_name (ws ++ [v])) = false.
Proof.
  intros Hv. destruct (has_prefix (abs_name ws) (abs_name (ws ++ [v]))) eqn:E; [|done]. exfalso.
  apply has_prefix_length in E. destruct ws as [|w ws].
  - destruct v as [|? ?]; [by destruct Hv|]. unfold abs_name in E. simpl in E. lia.
  - rewrite abs_name_app_cons in E by done. rewrite app_length in E. unfold abs_name in E. simpl in E. lia.
Qed.

Lemma key_inj g us vs :
  Forall good_elem us -> Forall good_elem vs ->
  Path g (abs_name us) = Path g (abs_name vs) -> us = vs.
Proof. intros Hu Hv H. apply (f_equal p_name) in H. by apply abs_name_inj. Qed.

(** An entry name that starts with the name of child [v] is below [v] or below
    a child whose name [v] is a prefix of. *)
Lemma child_prefix ws v u us :
  good_elem v -> good_elem u ->
  has_prefix (abs_name (ws ++ u :: us)) (abs_name (ws ++ [v])) = true -> has_prefix u v = true.
Proof.
  intros Hv Hu H.
  assert (H' : has_prefix (abs_name (u :: us)) (abs_name [v]) = true).
  { destruct ws as [|w ws]; [done|]. rewrite !abs_name_app_cons in H by done.
    by rewrite has_prefix_app_common in H. }
  destruct Hv as (Hvn & _ & _ & Hvs). clear H ws. 
  unfold abs_name in H'. simpl in H'.
  assert (H2 : has_prefix (join_slash (u :: us)) v = true) by exact H'. clear H'.
  destruct us as [|x us]; [exact H2|].
  change (join_slash (u :: x :: us)) with (u ++ slash :: join_slash (x :: us)) in H2.
  revert v Hvn Hvs H2. clear Hu. induction u as [|c u IH]; intros v Hvn Hvs H2.
  - destruct v as [|d v]; [done|]. simpl in H2. apply andb_true_iff in H2 as [H2 _].
    apply ascii_eqb_spec in H2 as ->. exfalso. apply Hvs. constructor.
  - destruct v as [|d v]; [done|]. cbn [has_prefix app] in *. apply andb_true_iff in H2 as [H2 H3].
    apply ascii_eqb_spec in H2 as ->. apply andb_true_iff. split; [by apply ascii_eqb_spec|].
    destruct v as [|d' v]; [done|]. apply IH; [done| |done].
    intros Hin. apply Hvs. by constructor.
Qed.

Section Tree.
  Context (parse : resolver) (m : mem) (g : bytes) (ws : list bytes) (parent : path).
  Hypothesis Hws : Forall good_elem ws.
  Hypothesis HT : tree_below m g ws.
  Hypothesis HR : resolvable parse m (Path g (abs_name ws)) parent.

  (** The first name below [ws] of a deep entry is a stored directory. *)
  Lemma top_dir v vs d :
    good_elem v -> Forall good_elem vs -> vs <> [] ->
    entry_at m (Path g (abs_name (ws ++ v :: vs))) d ->
    exists d', entry_at m (Path g (abs_name (ws ++ [v]))) d' /\ d_isdir d' = true.
  Proof.
    intros Hv. revert d. induction vs as [|u us IH] using rev_ind; intros d HF Hne He; [done|].
    apply Forall_app in HF as [HF Hu]. apply Forall_cons in Hu as [Hu _].
    destruct (tb_parents _ _ _ HT (v :: us) u d) as (d' & He' & Hd'); [by constructor|done|done|done|].
    destruct us as [|x us]; [by eexists|].
    eapply IH; [done|done|exact He'].
  Qed.

  Definition root_str := path_string (Path g (abs_name ws)).

  Definition is_child (x : path * details) : Prop :=
    exists v, good_elem v /\ x.1 = Path g (abs_name (ws ++ [v])).

  (** A suffix of the listing still to be visited. *)
  Definition pending (l : list (path * details)) : Prop :=
    esorted l /\
    (forall x, x ∈ l -> entry_at m x.1 x.2 /\
       exists vs, Forall good_elem vs /\ x.1 = Path g (abs_name (ws ++ vs))) /\
    (forall v vs d, good_elem v -> Forall good_elem vs -> vs <> [] ->
       (Path g (abs_name (ws ++ v :: vs)), d) ∈ l ->
       exists d', (Path g (abs_name (ws ++ [v])), d') ∈ l /\ d_isdir d' = true).

  Lemma visit_children fuel l acc :
    length l <= fuel -> pending l ->
    exists cs, visit fuel (readdir_obs parse (m_here m) root_str parent 0) l acc = (acc ++ (snd <$> cs), None) /\
      esorted cs /\ (forall x, x ∈ cs <-> x ∈ l /\ is_child x).
  Proof.
    revert l acc. induction fuel as [|fuel IH]; intros l acc Hl (HS & HE & HP).
    - destruct l; [|simpl in Hl; lia]. exists []. simpl. rewrite app_nil_r.
      split; [done|]. split; [constructor|]. intros x. rewrite elem_of_nil. tauto.
    - destruct l as [|[k d] l].
      { exists []. simpl. rewrite app_nil_r.
        split; [done|]. split; [constructor|]. intros x. rewrite elem_of_nil. tauto. }
      simpl in Hl. apply StronglySorted_inv in HS as [HS HF]. rewrite Forall_forall in HF.
      destruct (HE (k, d)) as (He & vs & Hvs & Hk); [constructor|]. simpl in He, Hk. subst k.
      assert (Hnn : forall us, abs_name us <> []) by done.
      assert (Hlt : forall y, y ∈ l -> forall us, y.1 = Path g (abs_name us) ->
         ble (abs_name us) (abs_name (ws ++ vs)) = false).
      { intros y Hy us Hus. specialize (HF y Hy). simpl in HF. rewrite Hus in HF.
        unfold blt in HF. apply negb_true_iff in HF. by rewrite key_le_pkg in HF. }
      destruct (HR _ _ He) as [Hparse Hpar]; [done|apply abs_name_prefix|].
      cbn [visit].
      destruct vs as [|v vs].
      + (* the root itself *)
        rewrite app_nil_r in *.
        assert (Hobs : readdir_obs parse (m_here m) root_str parent 0 (path_string (Path g (abs_name ws))) d acc
          = (acc, None)).
        { unfold readdir_obs, root_str. simpl. by rewrite bool_decide_eq_true_2. }
        rewrite Hobs.
        destruct (IH l acc) as (cs & Hv & Hcs & Hin); [lia| |].
        { split_and!; [done|..].
          - intros x Hx. apply HE. by constructor.
          - intros v vs d' Hgv Hgvs Hne Hin.
            destruct (HP v vs d' Hgv Hgvs Hne) as (d2 & H2 & Hd2); [by constructor|].
            apply elem_of_cons in H2 as [H2|H2]; [|by eexists].
            apply (f_equal fst) in H2. apply key_inj in H2; [|apply Forall_app; split; [done|by constructor]|done].
            exfalso. destruct ws; simpl in H2; [done|].
            apply (f_equal length) in H2. simpl in H2. rewrite app_length in H2. simpl in H2. lia. }
        exists cs. split; [done|]. split; [done|]. intros x. rewrite Hin, elem_of_cons.
        split; [tauto|]. intros [[->|Hx] Hch]; [|done]. exfalso.
        destruct Hch as (v & Hgv & Heq). simpl in Heq. apply key_inj in Heq; [|done|apply Forall_app; split; [done|by constructor]].
        apply (f_equal length) in Heq. rewrite app_length in Heq. simpl in Heq. lia.
      + apply Forall_cons in Hvs as [Hgv Hgvs].
        assert (vs = []) as ->.
        { destruct vs as [|u us]; [done|]. exfalso.
          destruct (HP v (u :: us) d Hgv Hgvs) as (d' & Hin & _); [done|constructor|].
          assert (Hwsv : ws ++ v :: u :: us = (ws ++ [v]) ++ u :: us) by (by rewrite <- app_assoc).
          apply elem_of_cons in Hin as [Hin|Hin].
          - apply (f_equal fst) in Hin. apply key_inj in Hin.
            + apply (f_equal length) in Hin. rewrite !app_length in Hin. simpl in Hin. lia.
            + apply Forall_app; split; [done|by constructor].
            + apply Forall_app; split; [done|]. constructor; done.
          - specialize (Hlt _ Hin (ws ++ [v]) eq_refl).
            rewrite Hwsv in Hlt. rewrite ble_prefix in Hlt; [done|]. apply abs_name_prefix. }
        assert (Hne : abs_name (ws ++ [v]) <> abs_name ws).
        { intros Heq. apply abs_name_inj in Heq; [|apply Forall_app; split; [done|by constructor]|done].
          apply (f_equal length) in Heq. rewrite app_length in Heq. simpl in Heq. lia. }
        assert (Hrs : path_string (Path g (abs_name (ws ++ [v]))) <> root_str).
        { intros Heq. by apply path_string_inj_pkg in Heq. }
        assert (Hobs : readdir_obs parse (m_here m) root_str parent 0 (path_string (Path g (abs_name (ws ++ [v])))) d acc
          = (acc ++ [d], if d_isdir d then Some ESkipDir else None)).
        { unfold readdir_obs. simpl. rewrite bool_decide_eq_false_2 by congruence. rewrite Hparse.
          rewrite bool_decide_eq_false_2.
          - rewrite bool_decide_eq_false_2 by done. rewrite andb_true_r. by destruct (d_isdir d).
          - destruct Hpar as [Hpar|Hpar]; [|done]. by apply (f_equal p_name) in Hpar. }
        rewrite Hobs. clear Hobs.
        set (l' := if d_isdir d then
           filter (fun x => has_prefix (p_name x.1) (p_name (Path g (abs_name (ws ++ [v])))) = false) l else l).
        assert (Hl' : length l' <= fuel).
        { unfold l'. destruct (d_isdir d); [|lia]. etrans; [apply filter_length|lia]. }
        (* what is dropped is below v *)
        assert (Hdrop : forall x, x ∈ l -> x ∈ l' \/
           d_isdir d = true /\ exists us, us <> [] /\ Forall good_elem us /\ x.1 = Path g (abs_name (ws ++ v :: us))).
        { intros x Hx. unfold l'. destruct (d_isdir d) eqn:Ed; [|by left].
          destruct (has_prefix (p_name x.1) (p_name (Path g (abs_name (ws ++ [v]))))) eqn:Epre.
          2:{ left. apply elem_of_list_filter. done. }
          right. split; [done|].
          destruct (HE x) as (Hex & us & Hgus & Heq); [by constructor|].
          rewrite Heq in Epre. cbn [p_name] in Epre.
          destruct us as [|u us].
          { exfalso. rewrite app_nil_r in Epre. by rewrite no_self_prefix in Epre. }
          apply Forall_cons in Hgus as [Hgu Hgus].
          assert (Huv : u = v).
          { apply child_prefix in Epre; [|done..].
            destruct us as [|u' us].
            - destruct x as [xk xd]. simpl in Heq, Hex. subst xk.
              by eapply (tb_noclash _ _ _ HT v u d xd).
            - destruct x as [xk xd]. simpl in Heq, Hex. subst xk.
              destruct (top_dir u (u' :: us) xd Hgu Hgus) as (d2 & H2 & _); [done|done|].
              by eapply (tb_noclash _ _ _ HT v u d d2). }
          subst u. exists us. split_and!; try done. intros ->.
          specialize (Hlt x Hx _ Heq). by rewrite ble_refl in Hlt. }
        assert (Hsub : forall x, x ∈ l' -> x ∈ l).
        { intros x. unfold l'. destruct (d_isdir d); [|done]. by intros [_ ?]%elem_of_list_filter. }
        destruct (IH l' (acc ++ [d])) as (cs & Hvis & Hcs & Hin); [done| |].
        { split_and!.
          - unfold l'. destruct (d_isdir d); [by apply esorted_filter|exact HS].
          - intros x Hx. apply HE. constructor. by apply Hsub.
          - intros u us d' Hgu Hgus Hneu Hx.
            destruct (HP u us d' Hgu Hgus Hneu) as (d2 & H2 & Hd2); [constructor; by apply Hsub|].
            assert (Hu : u <> v).
            { intros ->. apply elem_of_cons in H2 as [H2|H2].
              - apply (f_equal snd) in H2. simpl in H2. subst d2. unfold l' in Hx. rewrite Hd2 in Hx.
                apply elem_of_list_filter in Hx as [Hx _]. cbn [fst p_name] in Hx.
                replace (ws ++ v :: us) with ((ws ++ [v]) ++ us) in Hx by (by rewrite <- app_assoc).
                by rewrite abs_name_prefix in Hx.
              - specialize (Hlt _ H2 _ eq_refl). by rewrite ble_refl in Hlt. }
            apply elem_of_cons in H2 as [H2|H2].
            { exfalso. apply Hu. apply (f_equal fst) in H2. apply key_inj in H2.
              - by apply app_inv_head in H2 as [= ->].
              - apply Forall_app; split; [done|by constructor].
              - apply Forall_app; split; [done|by constructor]. }
            exists d2. split; [|done].
            destruct (Hdrop _ H2) as [?|(_ & us' & Hne' & Hg' & Heq)]; [done|]. simpl in Heq. apply key_inj in Heq.
            + apply app_inv_head in Heq. by injection Heq as -> ->.
            + apply Forall_app; split; [done|by constructor].
            + apply Forall_app; split; [done|by constructor]. }
        assert (Hvis' : match (if d_isdir d then Some ESkipDir else None) with
            | Some ESkipDir => visit fuel (readdir_obs parse (m_here m) root_str parent 0)
               (filter (fun x => has_prefix (p_name x.1) (p_name (Path g (abs_name (ws ++ [v])))) = false) l) (acc ++ [d])
            | Some e => (acc ++ [d], Some e)
            | None => visit fuel (readdir_obs parse (m_here m) root_str parent 0) l (acc ++ [d]) end
            = (acc ++ [d] ++ (snd <$> cs), None)).
        { unfold l' in Hvis. rewrite app_assoc. destruct (d_isdir d); exact Hvis. }
        rewrite Hvis'. exists ((Path g (abs_name (ws ++ [v])), d) :: cs). split; [done|]. split.
        * constructor; [done|]. apply Forall_forall. intros y Hy. apply Hin in Hy as [Hy _].
          apply HF. by apply Hsub.
        * intros x. rewrite !elem_of_cons, Hin. split.
          -- intros [->|[H1 H2]]; [split; [by left|by exists v]|]. split; [right; by apply Hsub|done].
          -- intros [[->|Hx] Hch]; [by left|]. right. split; [|done].
             destruct (Hdrop _ Hx) as [?|(_ & us' & Hne' & Hg' & Heq)]; [done|].
             destruct Hch as (u & Hgu & Heq2). rewrite Heq in Heq2. apply key_inj in Heq2.
             ++ apply app_inv_head in Heq2. by injection Heq2 as -> ->.
             ++ apply Forall_app; split; [done|by constructor].
             ++ apply Forall_app; split; [done|by constructor].
  Qed.
End Tree.

Lemma readdir_children parse m r f g ws :
  wf m -> m_heap m !! r = Some f -> f_path f = Path g (abs_name ws) -> Forall good_elem ws ->
  parse (m_here m) (path_string (f_path f)) = Some (f_path f) ->
  tree_below m g ws -> resolvable parse m (f_path f) (f_parent f) ->
  exists cs, readdir parse m r 0 = (snd <$> cs, None) /\ is_children m g ws cs.
Proof.
  intros Hw Hf Hpath Hws Hp HT HR.
  rewrite (readdir_visit parse m r f 0 Hw Hf Hp) by (by rewrite Hpath). simpl.
  rewrite Hpath in *. set (l := entries m (Path g (abs_name ws)) (sorted_keys m)).
  destruct (listing m (Path g (abs_name ws)) Hw eq_refl) as [HS HL]. fold l in HS, HL.
  destruct (visit_children parse m g ws (f_parent f) Hws HT HR (length l) l []) as (cs & Hv & Hcs & Hin);
    [done| |].
  { split_and!; [done|..].
    - intros [k d] Hk. apply HL in Hk as (He & Hg & Hpre). destruct k as [g' n]. simpl in *. subst g'.
      split; [done|]. destruct (tb_names _ _ _ HT _ _ He Hpre) as (vs & Hvs & ->). by exists vs.
    - intros v vs d Hgv Hgvs Hne Hin. apply HL in Hin as (He & _ & _).
      destruct (top_dir m g ws HT v vs d Hgv Hgvs Hne He) as (d' & He' & Hd').
      exists d'. split; [|done]. apply HL. split_and!; [done|done|]. apply abs_name_prefix. }
  unfold root_str in Hv. rewrite Hv. exists cs. split; [done|]. split; [done|].
  intros k d. rewrite Hin, HL. unfold is_child. simpl. split.
  - naive_solver.
  - intros (He & v & Hgv & ->). split_and!; [done|done|apply abs_name_prefix|]. eauto.
Qed.

(** *** Extras for Walk *)

Lemma subtree_listing m pt l :
  separated m (p_pkg pt) (p_name pt) -> is_subtree m pt l -> is_listing m pt l.
Proof.
  intros Hs [HS Hl]. split; [done|]. intros k d. rewrite Hl. split.
  - intros (He & Hg & Hb). split_and!; try done. destruct Hb as [->|Hb]; [apply has_prefix_refl|].
    case_bool_decide; [done|]. eapply has_prefix_trans; [exact Hb|]. apply has_prefix_app.
  - intros (He & Hg & Hb). split_and!; try done. destruct k as [g n]. simpl in *. subst g. by eapply Hs.
Qed.

Lemma walk_missing {S} parse m p pt (f : walk_fn S) s :
  wf m -> parse (m_here m) p = Some pt ->
  (forall k d, entry_at m k d -> p_pkg k = p_pkg pt -> has_prefix (p_name k) (p_name pt) = false) ->
  walk parse m p f s = ((s, m), None).
Proof.
  intros Hw Hp Hno. unfold walk, mem_parse. rewrite Hp.
  assert (Hk : forall k, k ∈ sorted_keys m -> is_Some (m_files m !! k)).
  { intros k Hk. by apply sorted_keys_elem. }
  revert Hk. generalize (B"!") as skip. induction (sorted_keys m) as [|k keys IH]; intros skip Hk; [done|].
  cbn [walk_loop]. case_bool_decide as Eg; cbn [negb]; [|apply IH; intros; apply Hk; by constructor].
  destruct (Hk k) as [r Hr]; [constructor|]. destruct (wf_files m Hw _ _ Hr) as [fo Hfo].
  rewrite (Hno k (f_info fo)); [|unfold entry_at, file_at; rewrite Hr; simpl; by rewrite Hfo|done].
  cbn [negb]. apply IH. intros; apply Hk; by constructor.
Qed.

Lemma visit_nil {S} (f : obs_fn S) n l s :
  (forall n d s, stops (f n d s).2 = false) -> (visit n f l s).2 = None.
Proof.
  intros Hf. revert l s. induction n as [|n IH]; intros l s; [by destruct l|].
  destruct l as [|[k d] l]; [done|]. cbn [visit]. specialize (Hf (path_string k) d s).
  destruct (f (path_string k) d s) as [s' e]. simpl in Hf.
  destruct e as [[]|]; try done; apply IH.
Qed.

(** *** Byte order against element order *)

Lemma no_low_cons c s : no_low (c :: s) <-> (N_of_ascii slash <= N_of_ascii c)%N /\ no_low s.
Proof. unfold no_low. by rewrite Forall_cons. Qed.

Lemma blt_cons c d s t :
  blt (c :: s) (d :: t) = true <->
  (N_of_ascii c < N_of_ascii d)%N \/ (c = d /\ blt s t = true).
Proof.
  unfold blt. cbn [ble]. destruct (N.compare_spec (N_of_ascii d) (N_of_ascii c)) as [E|E|E].
  - apply N_of_ascii_inj in E as ->. split; [by right|]. intros [?|[_ ?]]; [lia|done].
  - split; [done|]. intros [?|[-> _]]; lia.
  - split; [by left|done].
Qed.

Lemma blt_nil_r s : blt s [] = false.
Proof. by destruct s. Qed.

Definition tail_form (x : bytes) : Prop := x = [] \/ exists y, x = slash :: y.

Lemma blt_elem w v X Y :
  slash ∉ w -> no_low w -> tail_form X -> tail_form Y -> w <> v ->
  blt (w ++ X) (v ++ Y) = true -> blt w v = true.
Proof.
  intros Hs Hl HX HY. revert v Hs Hl. induction w as [|c w IH]; intros v Hs Hl Hne H.
  - by destruct v.
  - apply no_low_cons in Hl as [Hc Hl]. apply not_elem_of_cons in Hs as [Hcs Hs].
    destruct v as [|d v]; cbn [app] in H.
    + destruct HY as [->|[y ->]]; [by rewrite blt_nil_r in H|].
      apply blt_cons in H as [H|[H _]]; [lia|congruence].
    + apply blt_cons in H. apply blt_cons. destruct H as [H|[-> H]]; [by left|right].
      split; [done|]. apply IH; [done|done|congruence|done].
Qed.

Definition join_tail (ws : list bytes) : bytes :=
  match ws with [] => [] | _ => slash :: join_slash ws end.

Lemma join_cons w ws : join_slash (w :: ws) = w ++ join_tail ws.
Proof. destruct ws; simpl; by rewrite ?app_nil_r. Qed.

Lemma join_tail_form ws : tail_form (join_tail ws).
Proof. destruct ws; [by left|right; by eexists]. Qed.

Lemma blt_app_common x a b : blt (x ++ a) (x ++ b) = blt a b.
Proof. unfold blt. by rewrite ble_app_common. Qed.

Lemma join_elems_lt ws vs :
  Forall good_elem ws -> Forall good_elem vs -> no_low (join_slash ws) ->
  blt (join_slash ws) (join_slash vs) = true -> elems_lt ws vs = true.
Proof.
  revert vs. induction ws as [|w ws IH]; intros vs Hw Hv Hl H.
  - by destruct vs.
  - destruct vs as [|v vs]; [by rewrite blt_nil_r in H|].
    apply Forall_cons in Hw as [Hgw Hw]. apply Forall_cons in Hv as [Hgv Hv].
    rewrite !join_cons in H. rewrite join_cons in Hl. unfold no_low in Hl.
    apply Forall_app in Hl as [Hlw Hlt]. cbn [elems_lt]. case_bool_decide as E.
    + subst v. rewrite blt_app_common in H. destruct ws as [|w' ws]; [by destruct vs|].
      destruct vs as [|v' vs]; [by rewrite blt_nil_r in H|].
      unfold join_tail in H, Hlt. apply blt_cons in H as [H|[_ H]]; [lia|].
      apply Forall_cons in Hlt as [_ Hlt]. by apply IH.
    + eapply blt_elem; [..|exact H]; [by destruct Hgw as (_&_&_&?)|done|apply join_tail_form..|done].
Qed.

Lemma abs_elems_lt ws vs :
  Forall good_elem ws -> Forall good_elem vs -> no_low (abs_name ws) ->
  blt (abs_name ws) (abs_name vs) = true -> elems_lt ws vs = true.
Proof.
  intros Hw Hv Hl H. unfold abs_name in *. apply no_low_cons in Hl as [_ Hl].
  apply blt_cons in H as [H|[_ H]]; [lia|]. by apply join_elems_lt.
Qed.

Lemma listing_elems_lt m pt l :
  is_listing m pt l ->
  (forall k d, (k, d) ∈ l -> exists ws, Forall good_elem ws /\ no_low (p_name k) /\ p_name k = abs_name ws) ->
  StronglySorted (fun a b => forall ws vs, Forall good_elem ws -> Forall good_elem vs ->
    p_name a.1 = abs_name ws -> p_name b.1 = abs_name vs -> elems_lt ws vs = true) l.
Proof.
  intros [HS Hl] Hn.
  assert (Hpk : forall x, x ∈ l -> p_pkg x.1 = p_pkg pt /\ no_low (p_name x.1)).
  { intros [k d] Hx. split; [by apply Hl in Hx as (_&?&_)|]. by destruct (Hn _ _ Hx) as (?&_&?&_). }
  clear Hl Hn. induction HS as [|x l HS IH HF]; [constructor|].
  constructor; [apply IH; intros; apply Hpk; by constructor|].
  rewrite Forall_forall in HF. apply Forall_forall. intros y Hy ws vs Hws Hvs Ea Eb.
  specialize (HF y Hy). destruct (Hpk x) as [Hx1 Hx2]; [constructor|].
  destruct (Hpk y) as [Hy1 _]; [by constructor|].
  rewrite (one_pkg_blt (p_pkg pt)) in HF; try done; try (by rewrite ?Ea, ?Eb).
  rewrite Ea, Eb in HF. rewrite Ea in Hx2. by apply abs_elems_lt.
Qed.

Lemma filter_sublist {A} (P : A -> Prop) `{!forall x, Decision (P x)} (l : list A) : filter P l `sublist_of` l.
Proof.
  induction l as [|x l IH]; [constructor|]. destruct (decide (P x)).
  - rewrite filter_cons_True by done. by constructor.
  - rewrite filter_cons_False by done. by constructor.
Qed.
