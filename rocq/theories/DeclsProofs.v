(** Lemmas about the file list of declarations. *)
From Verif Require Import Bytes GoPath Here GoTypes WalkSpec Disk Decls.

Lemma abs_name_app rs ws : rs <> [] -> abs_name (rs ++ ws) = abs_name rs ++ rel_name ws.
Proof.
  intros Hr. destruct ws as [|w ws]; [by rewrite !app_nil_r|].
  unfold abs_name, rel_name. rewrite join_slash_app by done. done.
Qed.

Lemma trim_rel rs ws : rs <> [] -> trim_prefix (abs_name (rs ++ ws)) (abs_name rs) = rel_name ws.
Proof. intros Hr. rewrite abs_name_app by done. apply trim_prefix_app. Qed.

Lemma placed_root d rs ns : placed d rs ns -> decl_root d = abs_name (rs ++ ns).
Proof.
  intros [H1 H2 H3 H4 H5 H6]. unfold decl_root. rewrite H4, H5. by apply clean_join_abs.
Qed.

Lemma placed_unique d rs ns rs' ns' : placed d rs ns -> placed d rs' ns' -> rs = rs' /\ ns = ns'.
Proof.
  intros [H1 H2 H3 H4 H5 H6] [G1 G2 G3 G4 G5 G6]. split; apply abs_name_inj; congruence.
Qed.

Section Proofs.
  Context (parse : resolver) (hdir : bytes -> res hinfo) (fs : node).

  (** ** One walk *)

  Definition rel_skip (virt : gset bytes) (rs : list bytes) (ws : list bytes) : bool :=
    bool_decide (trim_prefix (abs_name ws) (abs_name rs) ∈ virt).

  Definition here_for (her : hinfo) (ws : list bytes) (c : node) : hinfo :=
    if n_isdir c then match hdir (abs_name ws) with Ok h => h | Err _ => her end else her.

  Definition walk_step (virt : gset bytes) (rs : list bytes) (x : list bytes * node)
      (st : hinfo * list pfile) : hinfo * list pfile :=
    let her := here_for st.1 x.1 x.2 in
    if rel_skip virt rs x.1 then (her, st.2)
    else
      match parse her (trim_prefix (abs_name x.1) (abs_name rs)) with
      | Some pt => (her, st.2 ++ [PFile (abs_name x.1) pt her])
      | None => (her, st.2)
      end.

  (** Files listed by a walk, as paths. *)
  Definition listed (virt : gset bytes) (rs ws : list bytes) (n : node) : list (list bytes) :=
    (filter (fun x => rel_skip virt rs x.1 = false) (visited (rel_skip virt rs) ws n)).*1.

  Definition attributed (rs ns : list bytes) (n : node) (f : pfile) : Prop :=
    exists vs c, get n vs = Some c /\ pf_abs f = abs_name (rs ++ ns ++ vs) /\
      good_here parse rs ns n (pf_here f) /\ parse (pf_here f) (rel_name (ns ++ vs)) = Some (pf_path f).

  Lemma walk_acts d rs ns n virt vs c :
    placed d rs ns -> flat parse hdir d rs ns n -> get n vs = Some c ->
    acts (walk_decl_fn parse hdir virt) (fun st => good_here parse rs ns n st.1)
      (rel_skip virt rs) (walk_step virt rs) ((rs ++ ns) ++ vs) c.
  Proof.
    intros Hp Hf Hg [her files] Hst. cbn [fst] in Hst. rewrite <- app_assoc.
    assert (Hh : (if d_isdir (info_of (base (abs_name (rs ++ ns ++ vs))) c)
                  then hdir (abs_name (rs ++ ns ++ vs)) else Ok her) = Ok (here_for her (rs ++ ns ++ vs) c)
                 /\ good_here parse rs ns n (here_for her (rs ++ ns ++ vs) c)).
    { unfold here_for. assert (E : d_isdir (info_of (base (abs_name (rs ++ ns ++ vs))) c) = n_isdir c) by (by destruct c).
      rewrite E. destruct (n_isdir c) eqn:Ed; [|done].
      destruct (fl_dirs _ _ _ _ _ _ Hf vs c Hg Ed) as (h & -> & Hgood). done. }
    destruct Hh as [Eh Hgood]. unfold walk_decl_fn, walk_step. cbn [fst snd].
    rewrite Eh. set (h := here_for her (rs ++ ns ++ vs) c) in *. clearbody h.
    pose proof Hgood as [Edir Hparse]. rewrite Edir.
    unfold rel_skip, skip_err. rewrite trim_rel by apply Hp.
    destruct (Hparse vs c Hg) as [pt Ept]. rewrite Ept.
    case_bool_decide as Ev; [|done].
    split; [|done]. f_equal. by destruct c.
  Qed.

  Lemma walk_steps_out d rs ns n virt l st :
    placed d rs ns -> flat parse hdir d rs ns n ->
    Forall (fun x => exists vs, x.1 = rs ++ ns ++ vs /\ get n vs = Some x.2) l ->
    good_here parse rs ns n st.1 ->
    Forall (attributed rs ns n) st.2 ->
    (pf_abs <$> (run_steps (walk_step virt rs) l st).2) =
      (pf_abs <$> st.2) ++ (abs_name <$> (filter (fun x => rel_skip virt rs x.1 = false) l).*1) /\
    Forall (attributed rs ns n) (run_steps (walk_step virt rs) l st).2.
  Proof.
    intros Hp Hf. revert st. induction l as [|[ws c] l IH]; intros [her fl] HF Hst Hat.
    - cbn. rewrite app_nil_r. done.
    - apply Forall_cons in HF as [(vs & E & Hg) HF]. cbn [fst snd] in E, Hg. subst ws.
      destruct (walk_acts d rs ns n virt vs c Hp Hf Hg (her, fl) Hst) as [_ Hnew]. rewrite <- app_assoc in Hnew.
      assert (Hs : (pf_abs <$> (walk_step virt rs (rs ++ ns ++ vs, c) (her, fl)).2) =
                   (pf_abs <$> fl) ++ (abs_name <$> (filter (fun x => rel_skip virt rs x.1 = false) [(rs ++ ns ++ vs, c)]).*1) /\
                   Forall (attributed rs ns n) (walk_step virt rs (rs ++ ns ++ vs, c) (her, fl)).2).
      { unfold walk_step in *. cbn [fst snd] in *. rewrite filter_cons, filter_nil. cbn [fst].
        destruct (rel_skip virt rs (rs ++ ns ++ vs)) eqn:Ek; cbn [fst snd].
        - rewrite decide_False by done. cbn. rewrite app_nil_r. done.
        - rewrite decide_True by done. rewrite trim_rel in * by apply Hp.
          assert (Hgh : good_here parse rs ns n (here_for her (rs ++ ns ++ vs) c)).
          { by destruct (parse (here_for her (rs ++ ns ++ vs) c) (rel_name (ns ++ vs))). }
          destruct Hgh as [E1 E2]. destruct (E2 vs c Hg) as [pt Ept]. rewrite Ept. cbn [snd fst].
          split; [by rewrite fmap_app|]. apply Forall_app. split; [done|].
          constructor; [|constructor]. exists vs, c. done. }
      destruct Hs as [Hs1 Hs2].
      destruct (IH (walk_step virt rs (rs ++ ns ++ vs, c) (her, fl))) as [IH1 IH2]; [done..|].
      change (run_steps (walk_step virt rs) ((rs ++ ns ++ vs, c) :: l) (her, fl))
        with (run_steps (walk_step virt rs) l (walk_step virt rs (rs ++ ns ++ vs, c) (her, fl))).
      split; [|done]. rewrite IH1, Hs1. cbn [snd]. rewrite <- app_assoc. f_equal.
      rewrite <- fmap_app, <- fmap_app. f_equal. f_equal.
      rewrite <- filter_app. done.
  Qed.

  Lemma visited_region sk ws n : wf_node n ->
    Forall (fun x => exists vs, x.1 = ws ++ vs /\ get n vs = Some x.2) (visited sk ws n).
  Proof.
    intros Hw. apply Forall_forall. intros [us c] H. apply visited_elem in H as (vs & -> & Hg & _); [|done]. eauto.
  Qed.

  Lemma walk_files_flat d rs ns n virt :
    wf_node fs -> placed d rs ns -> get fs (rs ++ ns) = Some n -> flat parse hdir d rs ns n ->
    exists l, walk_files parse hdir fs virt d = Ok l /\
      pf_abs <$> l = abs_name <$> listed virt rs (rs ++ ns) n /\ Forall (attributed rs ns n) l.
  Proof.
    intros Hwf Hp Hg Hf. destruct (wf_get _ _ _ Hwf Hg) as [Hn Hgood].
    unfold walk_files. rewrite (placed_root _ _ _ Hp).
    destruct (walk_disk_steps fs (walk_decl_fn parse hdir virt) (fun st => good_here parse rs ns n st.1)
      (rel_skip virt rs) (walk_step virt rs) (rs ++ ns) n (pf_here (d_file d), [])) as [E _];
      [done|done|done|apply Hf| |apply Hf|].
    { intros vs c Hc. by eapply walk_acts. }
    rewrite E. eexists. split; [reflexivity|].
    destruct (walk_steps_out d rs ns n virt (visited (rel_skip virt rs) (rs ++ ns) n) (pf_here (d_file d), []))
      as [E1 E2]; [done|done| |apply Hf|constructor|].
    { eapply Forall_impl; [apply visited_region; done|]. cbn. intros x (vs & -> & Hx).
      exists vs. by rewrite app_assoc. }
    done.
  Qed.

  Lemma listed_elem virt rs ns n ws :
    rs <> [] -> wf_node n ->
    ws ∈ listed virt rs (rs ++ ns) n <->
    exists vs, ws = rs ++ ns ++ vs /\ is_Some (get n vs) /\
      forall v1 v2, vs = v1 ++ v2 -> rel_name (ns ++ v1) ∉ virt.
  Proof.
    intros Hr Hn. unfold listed. rewrite elem_of_list_fmap. split.
    - intros ([us c] & -> & H). apply elem_of_list_filter in H as [Hk H]. cbn [fst] in *.
      apply visited_elem in H as (vs & -> & Hg & Hs); [|done].
      exists vs. rewrite <- app_assoc. split; [done|]. split; [by eexists|].
      intros v1 v2 E. destruct v2 as [|x v2].
      + rewrite app_nil_r in E. subst v1. rewrite <- app_assoc in Hk. unfold rel_skip in Hk.
        rewrite trim_rel in Hk by done. by apply bool_decide_eq_false in Hk.
      + specialize (Hs v1 (x :: v2) E ltac:(done)). unfold rel_skip in Hs.
        rewrite <- app_assoc, trim_rel in Hs by done. by apply bool_decide_eq_false in Hs.
    - intros (vs & -> & [c Hg] & Hv). exists (rs ++ ns ++ vs, c). split; [done|].
      apply elem_of_list_filter. cbn [fst]. split.
      + unfold rel_skip. rewrite trim_rel by done. apply bool_decide_eq_false.
        apply (Hv vs []). by rewrite app_nil_r.
      + apply visited_elem; [done|]. exists vs. rewrite <- app_assoc. split; [done|]. split; [done|].
        intros v1 v2 E _. unfold rel_skip. rewrite <- app_assoc, trim_rel by done.
        apply bool_decide_eq_false. by eapply Hv.
  Qed.

  (** ** One declaration *)

  (** What [decl_files] lists, for a set [virt] of names left out. *)
  Definition reaches_with (virt : bytes -> Prop) (d : decl) (a : bytes) : Prop :=
    ~ (dk d <> KWalk /\ virt (d_value d)) /\
    exists rs ns n, placed d rs ns /\ get fs (rs ++ ns) = Some n /\
      ((dk d <> KWalk /\ n_isdir n = false /\ a = abs_name (rs ++ ns)) \/
       ((dk d = KWalk \/ n_isdir n = true) /\
        exists vs c, get n vs = Some c /\ a = abs_name (rs ++ ns ++ vs) /\
          forall v1 v2, vs = v1 ++ v2 -> ~ virt (rel_name (ns ++ v1)))).

  Lemma decl_files_spec d rs ns virt :
    wf_node fs -> placed d rs ns ->
    (forall n, get fs (rs ++ ns) = Some n -> flat parse hdir d rs ns n) ->
    (exists l, decl_files parse hdir fs virt d = Ok l /\
       (dk d <> KWalk /\ d_value d ∈ virt \/ is_Some (get fs (rs ++ ns))) /\
       forall a, a ∈ pf_abs <$> l <-> reaches_with (fun k => k ∈ virt) d a) \/
    (exists e, decl_files parse hdir fs virt d = Err e /\
       ~ (dk d <> KWalk /\ d_value d ∈ virt) /\ get fs (rs ++ ns) = None).
  Proof.
    intros Hwf Hp Hflat.
    assert (Hgs : Forall good_elem (rs ++ ns)) by (apply Forall_app; split; apply Hp).
    assert (Hwalk : forall n, get fs (rs ++ ns) = Some n ->
      exists l, walk_files parse hdir fs virt d = Ok l /\
        forall a, a ∈ pf_abs <$> l <-> exists vs c, get n vs = Some c /\ a = abs_name (rs ++ ns ++ vs) /\
          forall v1 v2, vs = v1 ++ v2 -> rel_name (ns ++ v1) ∉ virt).
    { intros n Hg. destruct (walk_files_flat d rs ns n virt Hwf Hp Hg (Hflat n Hg)) as (l & E1 & E2 & _).
      exists l. split; [done|]. intros a. rewrite E2, elem_of_list_fmap.
      pose proof (wf_get _ _ _ Hwf Hg) as [Hn _].
      pose proof (listed_elem virt rs ns n) as HL. split.
      - intros (ws & -> & Hin). apply HL in Hin as (vs & -> & [c Hc] & Hv); [|apply Hp|done].
        exists vs, c. done.
      - intros (vs & c & Hc & -> & Hv). eexists. split; [reflexivity|].
        apply HL; [apply Hp|done|]. exists vs. split; [done|]. split; [by eexists|done]. }
    assert (Hmiss : get fs (rs ++ ns) = None -> exists e, walk_files parse hdir fs virt d = Err e).
    { intros Hg. unfold walk_files, walk_disk. rewrite (placed_root _ _ _ Hp), find_abs, Hg by done.
      cbn. eauto. }
    assert (Hstat : forall n, get fs (rs ++ ns) = Some n ->
      os_stat fs (decl_root d) = Ok (info_of (base (abs_name (rs ++ ns))) n)).
    { intros n Hg. unfold os_stat. rewrite (placed_root _ _ _ Hp), find_abs, Hg by done. done. }
    unfold decl_files. destruct (decide (dk d = KWalk)) as [Ek|Ek].
    - rewrite Ek. destruct (get fs (rs ++ ns)) as [n|] eqn:Hg.
      + left. destruct (Hwalk n eq_refl) as (l & E & Hl). exists l. split; [done|].
        split; [right; by eexists|]. intros a. rewrite Hl. unfold reaches_with. rewrite Ek. split.
        * intros H. split; [naive_solver|]. exists rs, ns, n. split; [done|]. split; [done|].
          right. split; [by left|]. done.
        * intros (_ & rs' & ns' & n' & Hp' & Hg' & H).
          destruct (placed_unique _ _ _ _ _ Hp Hp') as [<- <-]. rewrite Hg in Hg'. injection Hg' as <-.
          destruct H as [[H _]|[_ H]]; [done|]. exact H.
      + right. destruct (Hmiss eq_refl) as [e E]. exists e. split; [done|]. split; [naive_solver|done].
    - assert (E : match dk d with KWalk => walk_files parse hdir fs virt d | _ => open_files parse hdir fs virt d end
        = open_files parse hdir fs virt d) by (by destruct (dk d)). rewrite E. clear E.
      unfold open_files. case_bool_decide as Ev.
      + left. exists []. split; [done|]. split; [by left|]. intros a. cbn. split; [intros H; inversion H|].
        intros (H & _). exfalso. by apply H.
      + destruct (get fs (rs ++ ns)) as [n|] eqn:Hg.
        * left. rewrite (Hstat n eq_refl).
          assert (Ed : d_isdir (info_of (base (abs_name (rs ++ ns))) n) = n_isdir n) by (by destruct n).
          rewrite Ed. destruct (n_isdir n) eqn:En.
          -- destruct (Hwalk n eq_refl) as (l & E & Hl). exists l. split; [done|].
             split; [right; by eexists|]. intros a. rewrite Hl. unfold reaches_with. split.
             ++ intros H. split; [naive_solver|]. exists rs, ns, n. split; [done|]. split; [done|].
                right. split; [by right|]. done.
             ++ intros (_ & rs' & ns' & n' & Hp' & Hg' & H).
                destruct (placed_unique _ _ _ _ _ Hp Hp') as [<- <-]. rewrite Hg in Hg'. injection Hg' as <-.
                destruct H as [(_ & H & _)|[_ H]]; [congruence|]. exact H.
          -- exists [d_file d]. split; [done|]. split; [right; by eexists|]. intros a. cbn.
             rewrite elem_of_list_singleton, (pl_abs _ _ _ Hp). unfold reaches_with. split.
             ++ intros ->. split; [naive_solver|]. exists rs, ns, n. split; [done|]. split; [done|]. by left.
             ++ intros (_ & rs' & ns' & n' & Hp' & Hg' & H).
                destruct (placed_unique _ _ _ _ _ Hp Hp') as [<- <-]. rewrite Hg in Hg'. injection Hg' as <-.
                destruct H as [(_ & _ & H)|[[H|H] _]]; [done|congruence|congruence].
        * right. unfold os_stat. rewrite (placed_root _ _ _ Hp), find_abs, Hg by done.
          eexists. split; [done|]. split; [naive_solver|done].
  Qed.

  (** ** All declarations *)

  Lemma fold_insert_dom (l : list pfile) (m : gmap bytes pfile) a :
    a ∈ dom (fold_left (fun m f => <[pf_abs f := f]> m) l m) <-> a ∈ dom m \/ a ∈ pf_abs <$> l.
  Proof.
    revert m. induction l as [|f l IH]; intros m; cbn.
    - rewrite elem_of_nil. tauto.
    - rewrite IH, dom_insert, elem_of_union, elem_of_singleton, elem_of_cons. tauto.
  Qed.
  Lemma fold_union_elem (l : list pfile) (v : gset bytes) a :
    a ∈ fold_left (fun v f => {[pf_abs f]} ∪ v) l v <-> a ∈ v \/ a ∈ pf_abs <$> l.
  Proof.
    revert v. induction l as [|f l IH]; intros v; cbn.
    - rewrite elem_of_nil. tauto.
    - rewrite IH, elem_of_union, elem_of_singleton, elem_of_cons. tauto.
  Qed.

  Lemma collect_virtual m v ds ds' :
    Forall (fun d => is_virtual d = true) ds ->
    collect parse hdir fs m v (ds ++ ds') =
    collect parse hdir fs m (fold_left (fun v d => {[d_value d]} ∪ v) ds v) ds'.
  Proof.
    revert v. induction ds as [|d ds IH]; intros v HF; [done|].
    apply Forall_cons in HF as [Hd HF]. cbn. rewrite Hd. by apply IH.
  Qed.

  Lemma fold_virtual_elem (ds : list decl) (v : gset bytes) (k : bytes) :
    k ∈ fold_left (fun v d => {[d_value d]} ∪ v) ds v <-> k ∈ v \/ exists d, d ∈ ds /\ d_value d = k.
  Proof.
    revert v. induction ds as [|d ds IH]; intros v; cbn.
    - split; [by left|]. intros [?|(d & H & _)]; [done|inversion H].
    - rewrite IH, elem_of_union, elem_of_singleton. split.
      + intros [[->|H]|(x & Hx & E)]; [right; exists d; split; [by left|done]|by left|
          right; exists x; split; [by right|done]].
      + intros [H|(x & Hx & E)]; [by left; right|]. apply elem_of_cons in Hx as [->|Hx];
          [by left; left|]. right. eauto.
  Qed.

  Lemma reaches_with_ext V V' d a :
    (V (d_value d) <-> V' (d_value d)) ->
    (forall rs ns vs, placed d rs ns -> is_Some (get fs (rs ++ ns ++ vs)) ->
       V (rel_name (ns ++ vs)) <-> V' (rel_name (ns ++ vs))) ->
    reaches_with V d a -> reaches_with V' d a.
  Proof.
    intros H1 H2 (Hx & rs & ns & n & Hp & Hg & H). split; [by rewrite <- H1|].
    exists rs, ns, n. split; [done|]. split; [done|]. destruct H as [H|[Hk (vs & c & Hc & E & Hv)]]; [by left|].
    right. split; [done|]. exists vs, c. split; [done|]. split; [done|].
    intros v1 v2 Ev. rewrite <- H2; [by eapply Hv|done|].
    rewrite app_assoc, get_app, Hg. subst vs. rewrite get_app in Hc. by destruct (get n v1).
  Qed.

  Lemma reaches_region ds V d a :
    d ∈ ds -> is_virtual d = false -> reaches_with V d a -> region fs ds a.
  Proof.
    intros Hd Hv (_ & rs & ns & n & Hp & Hg & H).
    destruct H as [(_ & _ & ->)|[_ (vs & c & Hc & -> & _)]].
    - exists d, rs, ns, []. rewrite !app_nil_r. rewrite Hg. split_and!; eauto.
    - exists d, rs, ns, vs. split_and!; [done..| |done].
      rewrite app_assoc, get_app, Hg, Hc. by eexists.
  Qed.

  Lemma collect_filers all V0 ds m v :
    wf_node fs -> modular parse hdir fs all -> echo_free fs all ->
    Forall (fun d => is_virtual d = false) ds -> (forall d, d ∈ ds -> d ∈ all) ->
    (forall k, k ∈ v <-> V0 k \/ k ∈ dom m) ->
    (forall a, a ∈ dom m -> region fs all a) ->
    match collect parse hdir fs m v ds with
    | Ok m' =>
        (forall a, a ∈ dom m' <-> a ∈ dom m \/ exists d, d ∈ ds /\ reaches_with V0 d a) /\
        (forall d, d ∈ ds -> dk d <> KWalk /\ V0 (d_value d) \/ is_Some (find fs (decl_root d)))
    | Err _ => exists d, d ∈ ds /\ ~ (dk d <> KWalk /\ V0 (d_value d)) /\ find fs (decl_root d) = None
    end.
  Proof.
    intros Hwf Hmod Hecho. revert m v. induction ds as [|d ds IH]; intros m v HF Hall Hv Hm.
    - cbn. split; [|intros d H; inversion H]. intros a. split; [by left|].
      intros [?|(d & H & _)]; [done|inversion H].
    - apply Forall_cons in HF as [Hd HF]. cbn [collect]. rewrite Hd.
      assert (Hin : d ∈ all) by (apply Hall; by left).
      destruct (Hmod d Hin Hd) as (rs & ns & Hp & Hflat).
      assert (Hfind : find fs (decl_root d) = get fs (rs ++ ns)).
      { rewrite (placed_root _ _ _ Hp). apply find_abs, Forall_app. split; apply Hp. }
      assert (Hval : d_value d ∈ v <-> V0 (d_value d)).
      { rewrite Hv. split; [|by left]. intros [?|H]; [done|]. exfalso.
        eapply Hecho; [by apply Hm|]. left. eauto. }
      assert (Hrel : forall rs ns vs, placed d rs ns -> is_Some (get fs (rs ++ ns ++ vs)) ->
                rel_name (ns ++ vs) ∈ v <-> V0 (rel_name (ns ++ vs))).
      { intros rs' ns' vs Hp' Hg. rewrite Hv. split; [|by left]. intros [?|H]; [done|]. exfalso.
        eapply Hecho; [by apply Hm|]. right. exists d, rs', ns', vs. done. }
      assert (Hrw : forall a, reaches_with (fun k => k ∈ v) d a <-> reaches_with V0 d a).
      { intros a. split; apply reaches_with_ext; try done; intros; symmetry; eauto. }
      destruct (decl_files_spec d rs ns v Hwf Hp Hflat) as [(l & E & Hex & Hl)|(e & E & Hex & Hg)]; rewrite E.
      + specialize (IH (fold_left (fun m f => <[pf_abs f := f]> m) l m)
                       (fold_left (fun v f => {[pf_abs f]} ∪ v) l v) HF).
        destruct (collect parse hdir fs _ _ ds) as [m'|e].
        * destruct IH as [IH1 IH2].
          { intros x Hx. apply Hall. by right. }
          { intros k. rewrite fold_union_elem, fold_insert_dom, Hv. tauto. }
          { intros a. rewrite fold_insert_dom. intros [H|H]; [by apply Hm|].
            apply Hl in H. eapply reaches_region; [exact Hin|done|exact H]. }
          split.
          -- intros a. rewrite IH1, fold_insert_dom, Hl, Hrw. split.
             ++ intros [[H|H]|(x & Hx & H)]; [by left|right; exists d; split; [by left|done]|
                  right; exists x; split; [by right|done]].
             ++ intros [H|(x & Hx & H)]; [by left; left|]. apply elem_of_cons in Hx as [->|Hx];
                  [by left; right|right; eauto].
          -- intros x Hx. apply elem_of_cons in Hx as [->|Hx]; [|by apply IH2].
             rewrite Hfind. destruct Hex as [[? ?]|?]; [left|by right]. split; [done|]. by apply Hval.
        * destruct IH as (x & Hx & H1 & H2).
          { intros x Hx. apply Hall. by right. }
          { intros k. rewrite fold_union_elem, fold_insert_dom, Hv. tauto. }
          { intros a. rewrite fold_insert_dom. intros [H|H]; [by apply Hm|].
            apply Hl in H. eapply reaches_region; [exact Hin|done|exact H]. }
          exists x. split; [by right|done].
      + exists d. split; [by left|]. rewrite Hfind. split; [|done]. by rewrite <- Hval.
  Qed.

  (** ** Unconditional facts *)

  Lemma collect_keyed m v ds m' :
    (forall a f, m !! a = Some f -> pf_abs f = a) ->
    collect parse hdir fs m v ds = Ok m' -> forall a f, m' !! a = Some f -> pf_abs f = a.
  Proof.
    revert m v. induction ds as [|d ds IH]; intros m v Hm; cbn; [intros [= <-]; done|].
    destruct (is_virtual d); [by apply IH|]. destruct (decl_files parse hdir fs v d) as [l|]; [|done].
    apply IH. clear IH. revert m Hm. induction l as [|f l IHl]; intros m Hm; [done|]. cbn. apply IHl.
    intros a g. rewrite lookup_insert_Some. intros [[<- <-]|[_ H]]; [done|by apply Hm].
  Qed.

  Lemma collect_from m v ds m' (P : decl -> pfile -> Prop) :
    (forall d v l f, d ∈ ds -> is_virtual d = false -> decl_files parse hdir fs v d = Ok l -> f ∈ l -> P d f) ->
    collect parse hdir fs m v ds = Ok m' ->
    forall a f, m' !! a = Some f -> m !! a = Some f \/ exists d, d ∈ ds /\ is_virtual d = false /\ P d f.
  Proof.
    revert m v. induction ds as [|d ds IH]; intros m v HP; cbn [collect]; [intros [= <-]; by left|].
    destruct (is_virtual d) eqn:Ed.
    - intros H a f Hf. destruct (IH _ _ (fun d' v l f Hd => HP d' v l f (elem_of_list_further _ _ _ Hd)) H a f Hf) as [?|(x & Hx & ?)];
        [by left|]. right. exists x. split; [by right|done].
    - destruct (decl_files parse hdir fs v d) as [l|] eqn:E; [|done]. intros H a f Hf.
      destruct (IH _ _ (fun d' v l f Hd => HP d' v l f (elem_of_list_further _ _ _ Hd)) H a f Hf) as [Hin|(x & Hx & ?)].
      + assert (Hor : m !! a = Some f \/ f ∈ l).
        { clear -Hin. revert m Hin. induction l as [|g l IHl]; intros m; cbn; [by left|]. intros Hin.
          destruct (IHl _ Hin) as [H|H]; [|right; by right].
          apply lookup_insert_Some in H as [[_ <-]|[_ H]]; [right; by left|by left]. }
        destruct Hor as [?|?]; [by left|]. right. exists d. split; [by left|]. split; [done|].
        eapply HP; [by left|done|done|done].
      + right. exists x. split; [by right|done].
  Qed.

  (** Everything a walk lists lies at or below its root and exists. *)
  Lemma walk_files_sound virt d l f :
    wf_node fs -> is_rooted (h_mdir (pf_here (d_file d))) = true ->
    walk_files parse hdir fs virt d = Ok l -> f ∈ l ->
    exists ws, pf_abs f = abs_name (clean_elems (decl_root d) ++ ws) /\
      is_Some (get fs (clean_elems (decl_root d) ++ ws)).
  Proof.
    intros Hwf Hr Hl Hf. unfold walk_files in Hl.
    assert (Hroot : is_rooted (decl_root d) = true /\ clean (decl_root d) = decl_root d).
    { unfold decl_root, join2. destruct (h_mdir (pf_here (d_file d))) as [|c s] eqn:E; [done|].
      destruct (clean_rooted ((c :: s) ++ slash :: p_name (pf_path (d_file d))) ltac:(done)) as (ws & Hws & ->).
      split; [done|]. by apply clean_abs. }
    destruct Hroot as [Hroot Hcl].
    pose proof (walk_disk_inv fs (walk_decl_fn parse hdir virt)
      (fun st => Forall (fun f => exists ws, pf_abs f = abs_name (clean_elems (decl_root d) ++ ws) /\
        is_Some (get fs (clean_elems (decl_root d) ++ ws))) st.2) (decl_root d) (pf_here (d_file d), []) Hwf Hroot) as H.
    destruct (walk_disk fs (decl_root d) (walk_decl_fn parse hdir virt) (pf_here (d_file d), [])) as [st e].
    destruct e; [done|]. injection Hl as <-. cbn [fst] in H.
    revert f Hf. apply Forall_forall. apply H; clear H; [| |done|constructor].
    - intros [e|]; cbn; constructor.
    - intros ws c e [her fl] Hg Hst. cbn [snd] in Hst. unfold walk_decl_fn.
      destruct e as [e|]; [done|]. destruct (if d_isdir _ then _ else _) as [h|]; [|done].
      destruct (parse h _) as [pt|]; [|done]. case_bool_decide; [done|]. cbn [fst snd].
      apply Forall_app. split; [done|]. constructor; [|constructor]. exists ws. split; [done|by eexists].
  Qed.
End Proofs.
