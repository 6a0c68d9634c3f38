(** Theorems: Walk and Readdir on the in-memory pkger (C18-C22). *)
From Verif Require Import Bytes GoPath Here GoTypes Mem MemSpec MemBase WalkSpec MemWalk MemReaddir InStep PropsFiles.

(** *** C18 *)

(** Full claim: "Walk(root, f) calls f exactly once for root and each entry
    below it, in the order filepath.Walk would use, and for nothing else."
    Proved: exactly once for each entry whose name starts with root's text, in
    the order of the printed paths; which is the subtree when no other name
    continues root's text ([separated]); which is filepath.Walk's order when no
    name has a byte sorting before '/'.  Refuted without these conditions. *)
Theorem C18_walk_partial parse m p pt l :
  reachable parse m -> parse (m_here m) p = Some pt -> is_rooted (p_name pt) = true ->
  is_listing m pt l ->
  walk parse m p (lift_fn record_fn) [] = ((shown <$> l, m), None).
Proof.
  intros Hr Hp Hro Hl. pose proof (reachable_wf _ _ Hr) as Hw.
  rewrite (walk_visit parse _ m p pt) by done. cbv zeta.
  rewrite (listing_unique _ _ _ _ Hl (listing m pt Hw Hro)). by rewrite visit_record.
Qed.

(** Such a listing exists in every reachable state. *)
Theorem C18_listing parse m pt :
  reachable parse m -> is_rooted (p_name pt) = true -> exists l, is_listing m pt l.
Proof. intros Hr Hro. eexists. apply listing; [by eapply reachable_wf|done]. Qed.

Theorem C18_subtree_partial parse m p pt l :
  reachable parse m -> parse (m_here m) p = Some pt -> is_rooted (p_name pt) = true ->
  separated m (p_pkg pt) (p_name pt) -> is_subtree m pt l ->
  walk parse m p (lift_fn record_fn) [] = ((shown <$> l, m), None).
Proof.
  intros Hr Hp Hro Hs Hl. eapply C18_walk_partial; [done..|]. by apply subtree_listing.
Qed.

(** For the package root nothing needs to be assumed about names. *)
Theorem C18_root parse m p g l :
  reachable parse m -> parse (m_here m) p = Some (Path g (B"/")) ->
  is_subtree m (Path g (B"/")) l ->
  walk parse m p (lift_fn record_fn) [] = ((shown <$> l, m), None).
Proof.
  intros Hr Hp Hl. eapply C18_subtree_partial; [done|done|done| |done].
  intros n d _ Hn. right. exact Hn.
Qed.

(** The order: sorted as text, which is the order of a tree (a directory, what is
    in it, then its next sibling) exactly when no name sorts between a
    directory's and those of what is in it. *)
Theorem C18_order_partial m pt l :
  is_listing m pt l ->
  (forall k d, (k, d) ∈ l -> exists ws, Forall good_elem ws /\ p_name k = abs_name ws) ->
  StronglySorted (fun a b => forall ws vs, Forall good_elem ws -> Forall good_elem vs ->
    p_name a.1 = abs_name ws -> p_name b.1 = abs_name vs -> elems_lt ws vs = true) l <->
  in_step (fun ws => Forall good_elem ws /\ exists d, (Path (p_pkg pt) (abs_name ws), d) ∈ l).
Proof.
  intros [HS Hl] Hn. set (nm := fun x : path * details => clean_elems (p_name x.1)).
  assert (Hnm : forall x, x ∈ l -> Forall good_elem (nm x) /\ p_name x.1 = abs_name (nm x) /\ p_pkg x.1 = p_pkg pt).
  { intros [k d] Hx. destruct (Hn k d Hx) as (ws & Hg & E). unfold nm. cbn [fst]. rewrite E, clean_elems_abs by done. split; [done|]. split; [done|].
    by apply Hl in Hx as (_ & ? & _). }
  assert (HB : StronglySorted (fun a b => blt (abs_name ([] ++ nm a)) (abs_name ([] ++ nm b)) = true) l).
  { clear Hl Hn. induction HS as [|x l HS IH HF]; [constructor|]. constructor; [apply IH; intros; apply Hnm; by right|].
    rewrite Forall_forall in HF. apply Forall_forall. intros y Hy. specialize (HF y Hy). cbn [app].
    destruct (Hnm x) as (G1 & E1 & K1); [left|]. destruct (Hnm y) as (G2 & E2 & K2); [by right|].
    rewrite (one_pkg_blt (p_pkg pt)) in HF; try done; try (by rewrite ?E1, ?E2). by rewrite E1, E2 in HF. }
  assert (HQ : in_step (fun ws => Forall good_elem ws /\ exists d, (Path (p_pkg pt) (abs_name ws), d) ∈ l) <-> in_step (fun ws => exists x, x ∈ l /\ nm x = ws)).
  { apply in_step_ext. intros ws. split.
    - intros (G & d & Hd). eexists. split; [exact Hd|]. unfold nm. cbn [fst p_name]. by apply clean_elems_abs.
    - intros ([[g k] d] & Hx & <-). destruct (Hnm _ Hx) as (G & E & K). split; [done|]. exists d. rewrite <- E. cbn [fst p_name p_pkg] in *. by rewrite <- K. }
  rewrite HQ. split.
  - intros HT. apply (sorted_step nm [] l); [done|intros x Hx; by apply Hnm| |done].
    clear HB HQ Hl Hn HS. induction HT as [|x l HT IH HF]; [constructor|]. constructor; [apply IH; intros; apply Hnm; by right|].
    rewrite Forall_forall in HF. apply Forall_forall. intros y Hy.
    destruct (Hnm x) as (G1 & E1 & K1); [left|]. destruct (Hnm y) as (G2 & E2 & K2); [by right|]. by apply (HF y Hy).
  - intros HP.
    assert (H : forall x y, x ∈ l -> y ∈ l -> blt (abs_name ([] ++ nm x)) (abs_name ([] ++ nm y)) = true -> elems_lt (nm x) (nm y) = true).
    { intros x y Hx Hy Hb. destruct (elems_lt_total (nm x) (nm y)) as [?|[E|E]]; [done| |].
      - rewrite E in Hb. by apply blt_spec in Hb as [_ []].
      - exfalso. apply (in_step_blt _ [] _ _ HP) in E; [|by exists y|by exists x|done|by apply Hnm|by apply Hnm].
        apply blt_spec in Hb as [Hb Hn']. apply blt_spec in E as [E _]. apply Hn'. by apply ble_antisym. }
    clear HP HQ Hl Hn HS. induction HB as [|x l HB IH HF]; [constructor|]. constructor; [apply IH; intros; [apply Hnm|apply H]; try done; by right|].
    rewrite Forall_forall in HF. apply Forall_forall. intros y Hy ws vs Gw Gv Ew Ev. specialize (HF y Hy). cbn beta in HF.
    apply H in HF; [|left|by right]. unfold nm in HF. by rewrite Ew, Ev, !clean_elems_abs in HF.
Qed.

Definition tree_ex : mem :=
  after [OMkdirAll (B"/foo/sub") 493; OCreate (B"/foo/a"); OCreate (B"/foo/sub/b"); OCreate (B"/zoo")].

Example C18_ex :
  (walk here_parse tree_ex (B"/foo") (lift_fn record_fn) []).1.1.*1 =
    [B"app:/foo"; B"app:/foo/a"; B"app:/foo/sub"; B"app:/foo/sub/b"].
Proof. by vm_compute. Qed.

(** It visits a sibling that merely shares the root's text. *)
Theorem C18_prefix_refuted :
  exists m, reachable here_parse m /\
    here_parse (m_here m) (B"/foo") = Some (Path (B"app") (B"/foo")) /\
    (walk here_parse m (B"/foo") (lift_fn record_fn) []).1.1.*1 = [B"app:/foo"; B"app:/foobar"] /\
    ~ at_or_below (B"/foo") (B"/foobar").
Proof.
  exists (after [OMkdirAll (B"/foo") 493; OCreate (B"/foobar")]).
  split; [apply reachable_run, reach_new|]. split; [by vm_compute|]. split; [by vm_compute|].
  intros [H|H]; by vm_compute in H.
Qed.

(** It visits "/a.txt" between directory "/a" and its contents. *)
Theorem C18_order_refuted :
  exists m, reachable here_parse m /\
    (walk here_parse m (B"/") (lift_fn record_fn) []).1.1.*1 =
      [B"app:/"; B"app:/a"; B"app:/a.txt"; B"app:/a/x"] /\
    elems_lt [B"a"; B"x"] [B"a.txt"] = true.
Proof.
  exists (after [OMkdirAll (B"/a") 493; OCreate (B"/a.txt"); OCreate (B"/a/x")]).
  split; [apply reachable_run, reach_new|]. split; by vm_compute.
Qed.

(** A root that is not there is not an error: the callback is never called and
    Walk returns nil (filepath.Walk calls it with the error). *)
Theorem C56_missing_root {S} parse m p pt (f : walk_fn S) s :
  reachable parse m -> parse (m_here m) p = Some pt ->
  (forall k d, entry_at m k d -> p_pkg k = p_pkg pt -> has_prefix (p_name k) (p_name pt) = false) ->
  walk parse m p f s = ((s, m), None).
Proof. intros Hr. apply walk_missing. by eapply reachable_wf. Qed.

(** The full claim, "Walk of a root at or below which nothing is stored reports
    that to the callback or returns an error", fails. *)
Theorem C56_missing_root_refuted :
  exists m p pt (f : walk_fn (list bytes)), reachable here_parse m /\ here_parse (m_here m) p = Some pt /\
    (forall k d, entry_at m k d -> p_pkg k = p_pkg pt -> has_prefix (p_name k) (p_name pt) = false) /\
    (forall n d s m, (f n d s m).1.1 = s ++ [n] /\ (f n d s m).2 = Some (EUser 7)) /\
    walk here_parse m p f [] = (([], m), None).
Proof.
  exists (mem_new her_ex), (B"/nope"), (Path (B"app") (B"/nope")), (fun n d s m => ((s ++ [n], m), Some (EUser 7))).
  assert (H : forall k d, entry_at (mem_new her_ex) k d -> p_pkg k = B"app" -> has_prefix (p_name k) (B"/nope") = false).
  { intros k d Hk _. exfalso. unfold entry_at, file_at, mem_new in Hk. cbn in Hk. by rewrite lookup_empty in Hk. }
  split; [apply reach_new|]. split; [by vm_compute|]. split; [exact H|]. split; [done|].
  apply C56_missing_root with (pt := Path (B"app") (B"/nope")); [apply reach_new|by vm_compute|exact H].
Qed.

Example C56_ex :
  walk here_parse tree_ex (B"/nope") (fun n d s m => ((S s, m), Some (EUser 7))) 0 = ((0, tree_ex), None).
Proof. by vm_compute. Qed.

(** *** C19 *)

(** Full claim: "SkipDir for a directory leaves out precisely the entries below
    it."  Proved for every set of skip requests: what is left out are the
    entries whose name continues the text of a skipped one; which are those
    below a skipped one when the skipped names are separated. *)
Theorem C19_skip_partial parse m p pt l sk :
  reachable parse m -> parse (m_here m) p = Some pt -> is_rooted (p_name pt) = true ->
  is_listing m pt l ->
  walk parse m p (lift_fn (record_skip sk)) [] =
    ((shown <$> filter (fun x => ~ skipped sk l x) l, m), None).
Proof.
  intros Hr Hp Hro Hl. pose proof (reachable_wf _ _ Hr) as Hw.
  rewrite (walk_visit parse _ m p pt) by done. cbv zeta.
  rewrite (listing_unique _ _ _ _ Hl (listing m pt Hw Hro)).
  destruct (listing m pt Hw Hro) as [HS _].
  rewrite (visit_skip sk (p_pkg pt)); [done|done|done|by apply entries_one_pkg].
Qed.

(** [x] lies below an entry for which the callback asked to skip. *)
Definition below_skipped (sk : bytes -> bool) (l : list (path * details)) (x : path * details) : Prop :=
  exists y, y ∈ l /\ sk (path_string y.1) = true /\
    p_name x.1 <> p_name y.1 /\ at_or_below (p_name y.1) (p_name x.1).

Theorem C19_tree_partial parse m p pt l sk :
  reachable parse m -> parse (m_here m) p = Some pt -> is_rooted (p_name pt) = true ->
  is_listing m pt l ->
  (forall y, y ∈ l -> sk (path_string y.1) = true -> separated m (p_pkg pt) (p_name y.1)) ->
  exists l', walk parse m p (lift_fn (record_skip sk)) [] = ((shown <$> l', m), None) /\
    l' `sublist_of` l /\ forall x, x ∈ l' <-> x ∈ l /\ ~ below_skipped sk l x.
Proof.
  intros Hr Hp Hro Hl Hsep. eexists. split; [by eapply C19_skip_partial|].
  split; [apply filter_sublist|]. intros x. rewrite elem_of_list_filter.
  assert (x ∈ l -> (skipped sk l x <-> below_skipped sk l x)); [|naive_solver].
  intros Hx. unfold skipped, below_skipped. rewrite Exists_exists.
  split; intros (y & Hy & Hsk & Hne & Hb); exists y; split_and!; try done.
  - destruct x as [[g n] d]. apply Hl in Hx as (He & Hg & _). simpl in *. subst g.
    by eapply Hsep.
  - destruct Hb as [?|Hb]; [congruence|]. case_bool_decide as E; [done|].
    eapply has_prefix_trans; [exact Hb|]. apply has_prefix_app.
Qed.

Example C19_ex :
  (walk here_parse tree_ex (B"/") (lift_fn (record_skip (fun n => bool_decide (n = B"app:/foo")))) []).1.1.*1 =
    [B"app:/"; B"app:/foo"; B"app:/zoo"].
Proof. by vm_compute. Qed.

(** Skipping directory "/a" also leaves out the file "/a.txt" beside it. *)
Theorem C19_refuted :
  exists m d, reachable here_parse m /\ entry_at m (Path (B"app") (B"/a")) d /\ d_isdir d = true /\
    (walk here_parse m (B"/") (lift_fn record_fn) []).1.1.*1 = [B"app:/"; B"app:/a"; B"app:/a.txt"] /\
    (walk here_parse m (B"/") (lift_fn (record_skip (fun n => bool_decide (n = B"app:/a")))) []).1.1.*1 =
      [B"app:/"; B"app:/a"] /\
    ~ at_or_below (B"/a") (B"/a.txt").
Proof.
  exists (after [OMkdirAll (B"/a") 493; OCreate (B"/a.txt")]). eexists.
  split; [apply reachable_run, reach_new|]. split; [by vm_compute|]. split; [done|].
  split; [by vm_compute|]. split; [by vm_compute|]. intros [H|H]; by vm_compute in H.
Qed.

(** SkipDir for a file is not "skip the remaining files of its directory" (the
    filepath.WalkFunc contract): the file's siblings are still visited. *)
Theorem C57_skip_file_refuted :
  exists m d, reachable here_parse m /\ entry_at m (Path (B"app") (B"/d/a")) d /\ d_isdir d = false /\
    (walk here_parse m (B"/d") (lift_fn (record_skip (fun n => bool_decide (n = B"app:/d/a")))) []).1.1.*1 =
      [B"app:/d"; B"app:/d/a"; B"app:/d/b"].
Proof.
  exists (after [OMkdirAll (B"/d") 493; OCreate (B"/d/a"); OCreate (B"/d/b")]). eexists.
  split; [apply reachable_run, reach_new|]. split; [by vm_compute|]. split; [done|]. by vm_compute.
Qed.

(** *** C20 *)

(** For any callback, which may use and change the pkger while being called:
    the calls made so far never failed (nil or SkipDir) except possibly the
    last one, whose error is what Walk returns.  Without such an error Walk
    returns nil, or "not exist" when a listed entry was removed meanwhile. *)
Theorem C20_first_error {S} parse m p pt (f : walk_fn S) s s' log m' e :
  parse (m_here m) p = Some pt ->
  walk parse m p (logged f) (s, []) = ((s', log), m', e) ->
  (Forall (fun c => stops c.2 = false) log /\ (e = None \/ e = Some ENotExist)) \/
  (exists log' n, log = log' ++ [(n, e)] /\ Forall (fun c => stops c.2 = false) log' /\ stops e = true).
Proof.
  intros Hp. unfold walk, mem_parse. rewrite Hp. intros H.
  destruct (walk_loop_log _ _ _ _ _ _ _ _ _ _ _ H) as (calls & -> & Hc). exact Hc.
Qed.

(** A callback that does not change the pkger and never fails makes Walk
    return nil. *)
Theorem C20_nil {S} parse m p pt (f : obs_fn S) s :
  reachable parse m -> parse (m_here m) p = Some pt -> is_rooted (p_name pt) = true ->
  (forall n d s, stops (f n d s).2 = false) ->
  (walk parse m p (lift_fn f) s).2 = None.
Proof.
  intros Hr Hp Hro Hf. pose proof (reachable_wf _ _ Hr) as Hw.
  rewrite (walk_visit parse _ m p pt) by done. cbv zeta.
  pose proof (visit_nil f (length (entries m pt (sorted_keys m))) (entries m pt (sorted_keys m)) s Hf) as H.
  destruct (visit _ _ _ _). exact H.
Qed.

Example C20_ex :
  let f : walk_fn nat := fun n d k m => ((S k, m), if Nat.eqb k 2 then Some (EUser 7) else None) in
  walk here_parse tree_ex (B"/") (logged f) (0, []) =
    ((3, [(B"app:/", None); (B"app:/foo", None); (B"app:/foo/a", Some (EUser 7))]), tree_ex, Some (EUser 7)).
Proof. by vm_compute. Qed.

(** A callback that removes a listed entry before its turn. *)
Example C20_notexist_ex :
  let f : walk_fn nat := fun n d k m => ((k, (remove here_parse m (B"/zoo")).1), None) in
  (walk here_parse tree_ex (B"/") f 0).2 = Some ENotExist.
Proof. by vm_compute. Qed.

(** *** C21 *)

(** Full claim: "Readdir(-1) on an opened directory returns exactly one
    FileInfo per direct child and none for anything else."  Proved for
    directories whose subtree is well formed ([tree_below]: clean names,
    parents present, no sub-directory name is a prefix of a sibling's name).
    Refuted in general. *)
Theorem C21_children_partial parse m r f g ws c :
  reachable parse m -> m_heap m !! r = Some f ->
  f_path f = Path g (abs_name ws) -> Forall good_elem ws ->
  parse (m_here m) (path_string (f_path f)) = Some (f_path f) ->
  tree_below m g ws -> resolvable parse m (f_path f) (f_parent f) -> (c <= 0)%Z ->
  exists cs, readdir parse m r c = (snd <$> cs, None) /\ is_children m g ws cs.
Proof.
  intros Hr Hf Hpa Hws Hp HT HR Hc. rewrite readdir_nonpos by done.
  by eapply readdir_children; [eapply reachable_wf|..].
Qed.

(** Such a list of children is unique, so this determines Readdir's answer. *)
Theorem C21_children_unique m g ws l1 l2 : is_children m g ws l1 -> is_children m g ws l2 -> l1 = l2.
Proof.
  intros [S1 H1] [S2 H2]. apply entry_list_unique; [done|done|].
  intros [k d]. by rewrite H1, H2.
Qed.

Example C21_ex :
  let '(m, h) := open here_parse tree_ex (B"/foo") in
  h = Ok 8 /\ d_name <$> (readdir here_parse m 8 (-1)).1 = [B"a"; B"sub"].
Proof. by vm_compute. Qed.

(* The hypotheses of C21_children_partial hold of an opened /foo. *)
Definition tree_open : mem :=
  after [OMkdirAll (B"/foo/sub") 493; OCreate (B"/foo/a"); OCreate (B"/foo/sub/b"); OCreate (B"/zoo"); OOpen (B"/foo")].

Lemma tree_open_entries k d : entry_at tree_open k d ->
  k ∈ [Path (B"app") (abs_name []); Path (B"app") (abs_name [B"foo"]); Path (B"app") (abs_name [B"foo"; B"a"]);
       Path (B"app") (abs_name [B"foo"; B"sub"]); Path (B"app") (abs_name [B"foo"; B"sub"; B"b"]);
       Path (B"app") (abs_name [B"zoo"])].
Proof.
  intros He.
  assert (Hk : k ∈ sorted_keys tree_open).
  { apply sorted_keys_elem. unfold entry_at, file_at in He.
    destruct (m_files tree_open !! k); [by eexists|done]. }
  revert Hk. assert (E : sorted_keys tree_open = [Path (B"app") (abs_name []); Path (B"app") (abs_name [B"foo"]); Path (B"app") (abs_name [B"foo"; B"a"]);
       Path (B"app") (abs_name [B"foo"; B"sub"]); Path (B"app") (abs_name [B"foo"; B"sub"; B"b"]);
       Path (B"app") (abs_name [B"zoo"])]) by (by vm_compute). by rewrite E.
Qed.


Lemma tree_open_reachable : reachable here_parse tree_open.
Proof. apply reachable_run, reach_new. Qed.

Lemma tree_open_elems us d : Forall good_elem us -> entry_at tree_open (Path (B"app") (abs_name us)) d ->
  us ∈ [[]; [B"foo"]; [B"foo"; B"a"]; [B"foo"; B"sub"]; [B"foo"; B"sub"; B"b"]; [B"zoo"]].
Proof.
  intros Hus He. apply tree_open_entries in He.
  change (Path (B"app") (abs_name us) ∈ (fun vs => Path (B"app") (abs_name vs)) <$>
    [[]; [B"foo"]; [B"foo"; B"a"]; [B"foo"; B"sub"]; [B"foo"; B"sub"; B"b"]; [B"zoo"]]) in He.
  apply elem_of_list_fmap in He as (vs & Heq & Hvs).
  apply key_inj in Heq; [by subst|done|].
  assert (HL : Forall (Forall good_elem) [[]; [B"foo"]; [B"foo"; B"a"]; [B"foo"; B"sub"]; [B"foo"; B"sub"; B"b"]; [B"zoo"]]).
  { good. }
  rewrite Forall_forall in HL. by apply HL.
Qed.
Local Opaque tree_open.
Example C21_hyps :
  reachable here_parse tree_open /\
  (exists f, m_heap tree_open !! 8 = Some f /\ f_path f = Path (B"app") (abs_name [B"foo"]) /\
    here_parse (m_here tree_open) (path_string (f_path f)) = Some (f_path f) /\
    resolvable here_parse tree_open (f_path f) (f_parent f)) /\
  tree_below tree_open (B"app") [B"foo"].
Proof.
  split_and!.
  - exact tree_open_reachable.
  - eexists. split; [by vm_compute|]. split; [done|]. split; [by vm_compute|].
    intros k d He Hg Hpre. apply tree_open_entries in He.
    repeat (apply elem_of_cons in He as [->|He]; [first [by vm_compute in Hpre|split; [by vm_compute|by right]]|]).
    by apply elem_of_nil in He.
  - constructor.
    + intros n d He Hpre. apply tree_open_entries in He.
      repeat (apply elem_of_cons in He as [[= ->]|He]; [try (by vm_compute in Hpre)|]); [..|by apply elem_of_nil in He].
      * exists []. split; [constructor|done].
      * exists [B"a"]. split; [good|done].
      * exists [B"sub"]. split; [good|done].
      * exists [B"sub"; B"b"]. split; [good|done].
    + intros vs v d Hvs Hv Hne He. apply tree_open_elems in He.
      2:{ apply Forall_app; split; [good|]. apply Forall_app; split; [done|]. by constructor. }
      repeat (apply elem_of_cons in He as [He|He]; [|]); [..|by apply elem_of_nil in He];
        destruct vs as [|u [|u' us]]; try done; injection He as He; subst; try done.
      * eexists. split; [by vm_compute|done].
      * by destruct us.
    + intros v w d d' Hv Hw He Hd He' Hpre.
      apply tree_open_elems in He; [|apply Forall_app; split; [good|by apply Forall_singleton]].
      apply tree_open_elems in He'; [|apply Forall_app; split; [good|by apply Forall_singleton]].
      assert (v = B"a" \/ v = B"sub") as Hv'.
      { repeat (apply elem_of_cons in He as [He|He]; [by (injection He as He; eauto) || done|]). by apply elem_of_nil in He. }
      assert (w = B"a" \/ w = B"sub") as Hw'.
      { repeat (apply elem_of_cons in He' as [He'|He']; [by (injection He' as He'; eauto) || done|]). by apply elem_of_nil in He'. }
      destruct Hv' as [->| ->], Hw' as [->| ->]; try done; by vm_compute in Hpre.
Qed.

Theorem C21_refuted :
  (exists m r, reachable here_parse m /\ file_name m r = Some (B"app:/foo") /\
     d_name <$> (readdir here_parse m r (-1)).1 = [B"foobar"]) /\
  (exists m r, reachable here_parse m /\ file_name m r = Some (B"app:/d") /\
     (walk here_parse m (B"/d") (lift_fn record_fn) []).1.1.*1 =
        [B"app:/d"; B"app:/d/a"; B"app:/d/a.txt"] /\
     d_name <$> (readdir here_parse m r (-1)).1 = [B"a"]).
Proof.
  split.
  - exists (after [OMkdirAll (B"/foo") 493; OCreate (B"/foobar"); OOpen (B"/foo")]), 3.
    split; [apply reachable_run, reach_new|]. split; by vm_compute.
  - exists (after [OMkdirAll (B"/d/a") 493; OCreate (B"/d/a.txt"); OOpen (B"/d")]), 4.
    split; [apply reachable_run, reach_new|]. split; [by vm_compute|]. split; by vm_compute.
Qed.

(** *** C22 *)

(** Full claim: "Readdir(n) with n > 0 returns at most n entries, repeated
    calls continue, and at the end it returns an empty slice with io.EOF."
    Proved: it returns the first n of the entries.  Refuted: calls do not
    continue, and there is never an io.EOF. *)
Theorem C22_at_most_partial parse m r f n :
  reachable parse m -> m_heap m !! r = Some f ->
  parse (m_here m) (path_string (f_path f)) = Some (f_path f) ->
  is_rooted (p_name (f_path f)) = true ->
  resolvable parse m (f_path f) (f_parent f) -> 0 < n ->
  exists infos, readdir parse m r (-1) = (infos, None) /\
    readdir parse m r (Z.of_nat n) = (take n infos, None).
Proof.
  intros Hr Hf Hp Hro HR Hn. rewrite readdir_nonpos by done.
  by eapply readdir_take; [eapply reachable_wf|..].
Qed.

(** Whatever the arguments and the state, Readdir never reports io.EOF. *)
Theorem C22_never_eof parse m r c : (readdir parse m r c).2 <> Some EEOF.
Proof.
  unfold readdir. destruct (m_heap m !! r); [|done].
  destruct (walk _ _ _ _ _) as [[] [[]|]]; done.
Qed.

Theorem C22_refuted :
  exists m r, reachable here_parse m /\ file_name m r = Some (B"app:/d") /\
    d_name <$> (readdir here_parse m r 1).1 = [B"a"] /\
    d_name <$> (readdir here_parse (step here_parse m (t0, OReaddir r 1)).1 r 1).1 = [B"a"] /\
    d_name <$> (readdir here_parse m r (-1)).1 = [B"a"; B"b"].
Proof.
  exists (after [OMkdirAll (B"/d") 493; OCreate (B"/d/a"); OCreate (B"/d/b"); OOpen (B"/d")]), 5.
  split; [apply reachable_run, reach_new|]. split; [by vm_compute|]. split; by vm_compute.
Qed.

Example C22_ex :
  let '(m, h) := open here_parse tree_ex (B"/foo") in
  h = Ok 8 /\ (readdir here_parse m 8 (-1)).2 = None /\ length (readdir here_parse m 8 (-1)).1 = 2 /\
  readdir here_parse m 8 1 = (take 1 (readdir here_parse m 8 (-1)).1, None) /\
  readdir here_parse m 8 5 = readdir here_parse m 8 (-1).
Proof. by vm_compute. Qed.
