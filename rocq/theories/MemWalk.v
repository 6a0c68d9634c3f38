(** Proofs about Walk and Readdir (properties C18-C22, C53). *)
From Verif Require Import Bytes GoPath Here GoTypes Mem MemSpec MemBase WalkSpec.

Lemma path_string_inj_pkg g n1 n2 :
  n1 <> [] -> n2 <> [] -> path_string (Path g n1) = path_string (Path g n2) -> n1 = n2.
Proof.
  intros H1 H2. unfold path_string. simpl. destruct n1; [done|]. destruct n2; [done|].
  destruct g; [done|]. intros [= H]. apply app_inv_head in H. congruence.
Qed.

Lemma key_le_pkg g n1 n2 :
  n1 <> [] -> n2 <> [] -> ble (path_string (Path g n1)) (path_string (Path g n2)) = ble n1 n2.
Proof.
  intros H1 H2. unfold path_string. cbn [p_name p_pkg]. destruct n1 as [|x n1]; [done|]. destruct n2 as [|y n2]; [done|].
  destruct g as [|c g]; [done|]. rewrite ble_app_common. simpl. done.
Qed.

Global Instance key_le_total : Total key_le.
Proof. intros a b. apply ble_total. Qed.
Global Instance key_le_trans : Transitive key_le.
Proof. intros a b c. apply ble_trans. Qed.

Lemma sorted_keys_elem m k : k ∈ sorted_keys m <-> is_Some (m_files m !! k).
Proof.
  unfold sorted_keys. rewrite merge_sort_Permutation.
  rewrite elem_of_elements. apply elem_of_dom.
Qed.

Lemma sorted_keys_nodup m : NoDup (sorted_keys m).
Proof. unfold sorted_keys. rewrite merge_sort_Permutation. apply NoDup_elements. Qed.

Lemma sorted_keys_sorted m : StronglySorted key_le (sorted_keys m).
Proof. unfold sorted_keys. apply (StronglySorted_merge_sort key_le). Qed.

Definition in_root (pt k : path) : bool :=
  bool_decide (p_pkg k = p_pkg pt) && has_prefix (p_name k) (p_name pt).

(** The entries among [keys] that Walk looks at. *)
Definition entries (m : mem) (pt : path) (keys : list path) : list (path * details) :=
  omap (fun k => if in_root pt k then (fun f => (k, f_info f)) <$> file_at m k else None) keys.

Lemma entries_elem m pt keys k d :
  (k, d) ∈ entries m pt keys <-> k ∈ keys /\ entry_at m k d /\ in_root pt k = true.
Proof.
  unfold entries, entry_at. rewrite elem_of_list_omap. split.
  - intros (k' & Hk & E). destruct (in_root pt k') eqn:Er; [|done].
    destruct (file_at m k') as [f|] eqn:Ef; [|done]. simpl in E. injection E as <- <-.
    rewrite Ef. done.
  - intros (Hk & He & Hr). exists k. split; [done|]. rewrite Hr.
    destruct (file_at m k); [|done]. simpl in *. congruence.
Qed.

Lemma in_root_spec pt k :
  in_root pt k = true <-> p_pkg k = p_pkg pt /\ has_prefix (p_name k) (p_name pt) = true.
Proof. unfold in_root. by rewrite andb_true_iff, bool_decide_eq_true. Qed.

Lemma rooted_prefix n p : is_rooted p = true -> has_prefix n p = true -> is_rooted n = true.
Proof.
  destruct p as [|c p]; [done|]. destruct n as [|d n]; [done|]. simpl.
  rewrite andb_true_iff, !ascii_eqb_spec. naive_solver.
Qed.

Lemma rooted_nonnil n : is_rooted n = true -> n <> [].
Proof. by destruct n. Qed.

Lemma entries_sorted m pt keys :
  is_rooted (p_name pt) = true -> StronglySorted key_le keys -> NoDup keys ->
  StronglySorted (fun a b => blt (path_string a.1) (path_string b.1) = true) (entries m pt keys).
Proof.
  intros Hr HS HN. induction keys as [|k keys IH]; [constructor|].
  apply StronglySorted_inv in HS as [HS HF]. apply NoDup_cons in HN as [Hk HN].
  specialize (IH HS HN). unfold entries in *. simpl.
  destruct (in_root pt k) eqn:E; [|exact IH].
  destruct (file_at m k) as [f|]; [|exact IH]. simpl. constructor; [exact IH|].
  apply Forall_forall. intros [k' d'] Hin. simpl.
  fold (entries m pt keys) in Hin. apply entries_elem in Hin as (Hin & _ & Hr').
  apply blt_spec. split; [by apply (proj1 (Forall_forall _ _) HF)|].
  intros Heq. apply Hk. replace k with k'; [done|].
  apply in_root_spec in E as [E1 E2]. apply in_root_spec in Hr' as [E3 E4].
  destruct k as [g n], k' as [g' n']. simpl in *. subst. f_equal.
  symmetry. eapply path_string_inj_pkg; [..|exact Heq]; eapply rooted_nonnil, rooted_prefix; eauto.
Qed.

Lemma listing m pt :
  wf m -> is_rooted (p_name pt) = true -> is_listing m pt (entries m pt (sorted_keys m)).
Proof.
  intros Hw Hr. split.
  - apply entries_sorted; [done|apply sorted_keys_sorted|apply sorted_keys_nodup].
  - intros k d. rewrite entries_elem, in_root_spec, sorted_keys_elem. split; [naive_solver|].
    intros (He & H1 & H2). split_and!; try done. unfold entry_at, file_at in He.
    destruct (m_files m !! k); [by eexists|done].
Qed.

Lemma entry_list_unique (l1 l2 : list (path * details)) :
  StronglySorted (fun a b => blt (path_string a.1) (path_string b.1) = true) l1 ->
  StronglySorted (fun a b => blt (path_string a.1) (path_string b.1) = true) l2 ->
  (forall x, x ∈ l1 <-> x ∈ l2) -> l1 = l2.
Proof.
  revert l2. induction l1 as [|x l1 IH]; intros l2 H1 H2 Heq.
  - destruct l2 as [|y l2]; [done|]. exfalso. apply (not_elem_of_nil y), Heq. constructor.
  - destruct l2 as [|y l2].
    { exfalso. apply (not_elem_of_nil x), Heq. constructor. }
    apply StronglySorted_inv in H1 as [H1 F1]. apply StronglySorted_inv in H2 as [H2 F2].
    rewrite Forall_forall in F1, F2.
    assert (Hirr : forall a : path * details, blt (path_string a.1) (path_string a.1) = true -> False).
    { intros a Ha. apply blt_spec in Ha. naive_solver. }
    assert (Hasym : forall a b : path * details, blt (path_string a.1) (path_string b.1) = true ->
       blt (path_string b.1) (path_string a.1) = true -> False).
    { intros a b Ha Hb. apply blt_spec in Ha as [Ha Hn]. apply blt_spec in Hb as [Hb _].
      apply Hn. by apply ble_antisym. }
    assert (x = y) as ->.
    { assert (Hx : x ∈ y :: l2) by (apply Heq; constructor).
      assert (Hy : y ∈ x :: l1) by (apply Heq; constructor).
      apply elem_of_cons in Hx as [?|Hx]; [done|]. apply elem_of_cons in Hy as [?|Hy]; [done|].
      exfalso. eauto. }
    f_equal. apply IH; try done. intros z. specialize (Heq z). rewrite !elem_of_cons in Heq.
    split; intros Hz.
    + destruct (proj1 Heq (or_intror Hz)) as [->|]; [|done]. exfalso. eauto.
    + destruct (proj2 Heq (or_intror Hz)) as [->|]; [|done]. exfalso. eauto.
Qed.

Lemma listing_unique m pt l1 l2 : is_listing m pt l1 -> is_listing m pt l2 -> l1 = l2.
Proof.
  intros [A1 B1] [A2 B2]. apply entry_list_unique; try done. intros [k d]. by rewrite B1, B2.
Qed.

Lemma visit_fuel {S} (f : obs_fn S) n l s :
  length l <= n -> visit n f l s = visit (length l) f l s.
Proof.
  enough (H : forall n1 n2 l s, length l <= n1 -> length l <= n2 -> visit n1 f l s = visit n2 f l s).
  { intros Hl. by apply H. }
  clear. induction n1 as [|n1 IH]; intros n2 l s H1 H2.
  - destruct l; [by destruct n2|simpl in H1; lia].
  - destruct l as [|[k d] l]; [by destruct n2|]. destruct n2 as [|n2]; [simpl in H2; lia|].
    simpl in *. destruct (f (path_string k) d s) as [s' [[]|]]; try done; apply IH; try lia.
    + pose proof (filter_length (fun x : path * details => has_prefix (p_name x.1) (p_name k) = false) l). lia.
    + pose proof (filter_length (fun x : path * details => has_prefix (p_name x.1) (p_name k) = false) l). lia.
Qed.

Lemma filter_all_id {A} (P : A -> Prop) `{!forall x, Decision (P x)} l :
  Forall P l -> filter P l = l.
Proof.
  induction l as [|x l IH]; [done|]. intros HF. apply Forall_cons in HF as [Hx HF].
  rewrite filter_cons_True by done. by rewrite IH.
Qed.

Lemma filter_ext_in {A} (P Q : A -> Prop) `{!forall x, Decision (P x)} `{!forall x, Decision (Q x)} (l : list A) :
  (forall x, x ∈ l -> P x <-> Q x) -> filter P l = filter Q l.
Proof.
  induction l as [|x l IH]; intros HPQ; [done|].
  assert (Hx := HPQ x (elem_of_list_here _ _)).
  rewrite !filter_cons. rewrite IH by (intros y Hy; apply HPQ; by constructor).
  destruct (decide (P x)), (decide (Q x)); tauto.
Qed.

(** The loop of Walk is a visit of the entries. *)
Lemma walk_loop_visit {S} (f : obs_fn S) m pt keys skip s :
  is_rooted (p_name pt) = true ->
  StronglySorted key_le keys ->
  (forall k, k ∈ keys -> is_Some (file_at m k)) ->
  (forall k, k ∈ keys -> in_root pt k = true -> ble skip (p_name k) = true) ->
  walk_loop (lift_fn f) pt keys skip s m =
    let l := filter (fun x => has_prefix (p_name x.1) skip = false) (entries m pt keys) in
    let '(s', e) := visit (length l) f l s in ((s', m), e).
Proof.
  intros Hr. revert skip s. induction keys as [|k keys IH]; intros skip s HS Hst Hle; [done|].
  apply StronglySorted_inv in HS as [HS HF]. rewrite Forall_forall in HF.
  assert (IH' := fun skip s => IH skip s HS (fun k' H => Hst k' (elem_of_list_further _ _ _ H))).
  clear IH. cbn [walk_loop].
  destruct (Hst k) as [fo Hfo]; [constructor|].
  unfold entries. cbn [omap list_omap]. fold (entries m pt keys).
  destruct (in_root pt k) eqn:E.
  2:{ assert (Hskip : walk_loop (lift_fn f) pt keys skip s m =
        let l := filter (fun x => has_prefix (p_name x.1) skip = false) (entries m pt keys) in
        let '(s', e) := visit (length l) f l s in ((s', m), e)).
      { apply IH'. intros k' Hk'. apply Hle. by constructor. }
      unfold in_root in E. apply andb_false_iff in E as [E|E].
      - rewrite E. simpl negb. cbv iota. exact Hskip.
      - rewrite E. simpl negb. cbv iota. destruct (negb (bool_decide _)); exact Hskip. }
  assert (E' := E). apply in_root_spec in E' as [E1 E2].
  rewrite bool_decide_eq_true_2 by done. rewrite E2. simpl negb. cbv iota. rewrite Hfo. simpl.
  destruct (has_prefix (p_name k) skip) eqn:Esk.
  - rewrite filter_cons_False by (simpl; congruence).
    apply IH'. intros k' Hk'. apply Hle. by constructor.
  - rewrite filter_cons_True by done. cbn [length]. rewrite new_file_info_id.
    unfold lift_fn at 1. cbn [visit].
    destruct (f (path_string k) (f_info fo) s) as [s' e].
    assert (Hafter : forall skip', (forall k', k' ∈ keys -> in_root pt k' = true -> ble skip' (p_name k') = true) ->
      walk_loop (lift_fn f) pt keys skip' s' m =
        let l := filter (fun x => has_prefix (p_name x.1) skip' = false) (entries m pt keys) in
        let '(s'', e) := visit (length l) f l s' in ((s'', m), e)).
    { intros skip' H. by apply IH'. }
    destruct e as [e|].
    2:{ rewrite Hafter; [done|]. intros k' Hk'. apply Hle. by constructor. }
    assert (Hkle : forall k', k' ∈ keys -> in_root pt k' = true -> ble (p_name k) (p_name k') = true).
    { intros k' Hk' Hr'. specialize (HF k' Hk'). unfold key_le in HF.
      apply in_root_spec in Hr' as [E3 E4]. destruct k as [g n], k' as [g' n']. simpl in *. subst.
      rewrite key_le_pkg in HF; [done|..]; eapply rooted_nonnil, rooted_prefix; eauto. }
    assert (Hfil : filter (fun x => has_prefix (p_name x.1) skip = false) (entries m pt keys) = entries m pt keys).
    { apply filter_all_id, Forall_forall. intros [k' d'] Hin. simpl.
      apply entries_elem in Hin as (Hin & _ & Hr').
      destruct (has_prefix (p_name k') skip) eqn:Eb; [|done].
      rewrite <- Esk. symmetry. apply (ble_prefix_block skip (p_name k) (p_name k')); [|by apply Hkle|done].
      apply Hle; [constructor|done]. }
    destruct e; try done.
    rewrite Hafter by exact Hkle. rewrite Hfil. simpl.
    rewrite (visit_fuel f (length (entries m pt keys))); [done|].
    apply filter_length.
Qed.

Lemma walk_visit {S} parse (f : obs_fn S) m p pt s :
  wf m -> parse (m_here m) p = Some pt -> is_rooted (p_name pt) = true ->
  walk parse m p (lift_fn f) s =
    let l := entries m pt (sorted_keys m) in
    let '(s', e) := visit (length l) f l s in ((s', m), e).
Proof.
  intros Hw Hp Hr. unfold walk, mem_parse. rewrite Hp.
  rewrite walk_loop_visit; [|done|apply sorted_keys_sorted|..].
  - rewrite filter_all_id; [done|]. apply Forall_forall. intros [k d] Hin. simpl.
    apply entries_elem in Hin as (_ & _ & Hk). apply in_root_spec in Hk as [_ Hk].
    pose proof (rooted_prefix _ _ Hr Hk) as Hrk. destruct (p_name k) as [|c n]; [done|].
    simpl in Hrk. apply ascii_eqb_spec in Hrk as ->. done.
  - intros k Hk. apply sorted_keys_elem in Hk as [r Hk].
    destruct (wf_files m Hw _ _ Hk) as [f' Hf']. unfold file_at. rewrite Hk. simpl. by rewrite Hf'.
  - intros k _ Hk. apply in_root_spec in Hk as [_ Hk].
    pose proof (rooted_prefix _ _ Hr Hk) as Hrk. destruct (p_name k) as [|c n]; [done|].
    simpl in Hrk. apply ascii_eqb_spec in Hrk as ->. done.
Qed.

(** *** Recording callbacks *)

Lemma visit_record n l s :
  length l <= n -> visit n record_fn l s = (s ++ (shown <$> l), None).
Proof.
  revert l s. induction n as [|n IH]; intros l s Hl.
  - destruct l; [by rewrite app_nil_r|simpl in Hl; lia].
  - destruct l as [|[k d] l]; simpl; [by rewrite app_nil_r|].
    rewrite IH by (simpl in Hl; lia). by rewrite <- app_assoc.
Qed.

Definition esorted := StronglySorted (fun a b : path * details =>
  blt (path_string a.1) (path_string b.1) = true).

Lemma esorted_filter (P : path * details -> Prop) `{!forall x, Decision (P x)} l :
  esorted l -> esorted (filter P l).
Proof.
  induction l as [|x l IH]; intros HS; [constructor|].
  apply StronglySorted_inv in HS as [HS F]. destruct (decide (P x)).
  - rewrite filter_cons_True by done. constructor; [by apply IH|].
    apply Forall_forall. intros y Hy. apply elem_of_list_filter in Hy as [_ Hy].
    by apply (proj1 (Forall_forall _ _) F).
  - rewrite filter_cons_False by done. by apply IH.
Qed.

(** All entries of one package with non-empty names. *)
Definition one_pkg (g : bytes) (l : list (path * details)) : Prop :=
  Forall (fun x => p_pkg x.1 = g /\ p_name x.1 <> []) l.

Lemma one_pkg_blt g (x y : path * details) :
  p_pkg x.1 = g -> p_name x.1 <> [] -> p_pkg y.1 = g -> p_name y.1 <> [] ->
  blt (path_string x.1) (path_string y.1) = blt (p_name x.1) (p_name y.1).
Proof.
  destruct x as [[? n] ?], y as [[? n'] ?]. simpl. intros -> ? -> ?.
  unfold blt. by rewrite key_le_pkg.
Qed.

Lemma visit_skip sk g n l s :
  length l <= n -> esorted l -> one_pkg g l ->
  visit n (record_skip sk) l s = (s ++ (shown <$> filter (fun x => ~ skipped sk l x) l), None).
Proof.
  revert l s. induction n as [|n IH]; intros l s Hl HS HO.
  - destruct l; [by rewrite app_nil_r|simpl in Hl; lia].
  - destruct l as [|[k d] l]; [simpl; by rewrite app_nil_r|].
    simpl in Hl. cbn [visit record_skip].
    apply StronglySorted_inv in HS as [HS HF]. rewrite Forall_forall in HF.
    apply Forall_cons in HO as [[Hg Hnn] HO]. simpl in Hg, Hnn.
    assert (Hlt : forall y, y ∈ l -> ble (p_name y.1) (p_name k) = false).
    { intros y Hy. specialize (HF y Hy). simpl in HF.
      destruct (proj1 (Forall_forall _ _) HO y Hy) as [Hyg Hyn].
      change (path_string k) with (path_string (k, d).1) in HF.
      rewrite (one_pkg_blt g) in HF by done. simpl in HF. unfold blt in HF.
      by apply negb_true_iff. }
    assert (Hself : ~ skipped sk ((k, d) :: l) (k, d)).
    { unfold skipped. rewrite Exists_cons. simpl. intros [(_&?&_)|H]; [done|].
      apply Exists_exists in H as (y & Hy & _ & _ & Hp). apply ble_prefix in Hp.
      rewrite (Hlt y Hy) in Hp. done. }
    rewrite filter_cons_True by exact Hself.
    destruct (sk (path_string k)) eqn:Esk.
    + rewrite IH; [..|by apply esorted_filter|].
      2:{ pose proof (filter_length (fun x : path * details => has_prefix (p_name x.1) (p_name k) = false) l). lia. }
      2:{ apply Forall_forall. intros y Hy. apply elem_of_list_filter in Hy as [_ Hy].
          by apply (proj1 (Forall_forall _ _) HO). }
      rewrite <- app_assoc.
      match goal with |- (_ ++ _ ++ (shown <$> ?A), _) = (_ ++ (shown <$> (_ :: ?B)), _) =>
        enough (HAB : A = B) by (by rewrite HAB) end.
      set (l' := filter (fun x => has_prefix (p_name x.1) (p_name k) = false) l).
      transitivity (filter (fun x => ~ skipped sk l x) l').
      * unfold l'. rewrite !list_filter_filter. apply list_filter_iff. intros x. simpl.
        split; intros [H1 H2]; split; try done.
        { intros H. apply H1. apply Exists_exists in H as (y & Hy & A & B & C).
          apply Exists_exists. exists y. split; [|done]. apply elem_of_list_filter. split; [|done].
          destruct (has_prefix (p_name y.1) (p_name k)) eqn:E; [|done].
          rewrite <- H2. symmetry. by eapply has_prefix_trans. }
        { intros H. apply H1. apply Exists_exists in H as (y & Hy & A & B & C).
          apply Exists_exists. exists y. apply elem_of_list_filter in Hy as [_ Hy]. done. }
      * unfold l'. rewrite list_filter_filter.
        apply filter_ext_in. intros x Hx. simpl.
        unfold skipped at 2. rewrite Exists_cons. simpl. rewrite Esk. split.
        { intros [H1 H2] [(_&_&H)|H]; [congruence|done]. }
        { intros H. split; [tauto|]. destruct (has_prefix (p_name x.1) (p_name k)) eqn:E; [|done].
          exfalso. apply H. left. split_and!; try done. intros Heq.
          specialize (Hlt x Hx). rewrite <- Heq, ble_refl in Hlt. done. }
    + rewrite IH by (done || lia). rewrite <- app_assoc.
      match goal with |- (_ ++ _ ++ (shown <$> ?A), _) = (_ ++ (shown <$> (_ :: ?B)), _) =>
        enough (HAB : A = B) by (by rewrite HAB) end.
      apply list_filter_iff. intros x. unfold skipped at 2. rewrite Exists_cons. simpl. rewrite Esk.
      unfold skipped. naive_solver.
Qed.

Lemma entries_one_pkg m pt keys :
  is_rooted (p_name pt) = true -> one_pkg (p_pkg pt) (entries m pt keys).
Proof.
  intros Hr. apply Forall_forall. intros [k d] Hk. apply entries_elem in Hk as (_ & _ & Hk).
  apply in_root_spec in Hk as [Hg Hn]. simpl. split; [done|].
  eapply rooted_nonnil, rooted_prefix; eauto.
Qed.
