(** Theorems: the file list computed from declarations (C33-C35, C69). *)
From Verif Require Import Bytes GoPath Here GoTypes WalkSpec Disk Decls DeclsProofs.

(** What the theorems observe: the absolute paths listed. *)
Definition listing (parse : resolver) hdir fs order ds : res (list bytes) :=
  match files parse hdir fs order ds with Ok l => Ok (pf_abs <$> l) | Err e => Err e end.

(** A map is iterated in some order. *)
Definition some_order (order : list pfile -> list pfile) : Prop := forall l, order l ≡ₚ l.

(** A packed declaration as the scanner makes them: source.go:184-188. *)
Definition scanned (d : decl) : Prop :=
  is_rooted (h_mdir (pf_here (d_file d))) = true /\ pf_abs (d_file d) = decl_root d.

Local Instance pf_le_trans : Transitive pf_le.
Proof. intros a b c. unfold pf_le. apply ble_trans. Qed.
Local Instance pf_le_total : Total pf_le.
Proof. intros a b. unfold pf_le. apply ble_total. Qed.

Section Facts.
  Context (parse : resolver) (hdir : bytes -> res hinfo) (fs : node).

  Lemma files_inv order ds l :
    some_order order -> files parse hdir fs order ds = Ok l ->
    exists m, collect parse hdir fs ∅ ∅ ds = Ok m /\ l ≡ₚ (map_to_list m).*2 /\
      (forall a f, m !! a = Some f -> pf_abs f = a).
  Proof.
    intros Ho H. unfold files in H. destruct (collect parse hdir fs ∅ ∅ ds) as [m|] eqn:E; [|done].
    injection H as <-. exists m. split; [done|]. split.
    - rewrite merge_sort_Permutation. apply Ho.
    - eapply collect_keyed; [|exact E]. intros a f. by rewrite lookup_empty.
  Qed.

  Lemma files_elem (l : list pfile) (m : gmap bytes pfile) f :
    l ≡ₚ (map_to_list m).*2 -> (forall a f, m !! a = Some f -> pf_abs f = a) ->
    f ∈ l <-> m !! pf_abs f = Some f.
  Proof.
    intros Hp Hk. rewrite Hp, elem_of_list_fmap. split.
    - intros ([a g] & -> & Hin). apply elem_of_map_to_list in Hin. cbn. by rewrite (Hk _ _ Hin).
    - intros H. exists (pf_abs f, f). split; [done|]. by apply elem_of_map_to_list.
  Qed.

  Lemma abs_elem (l : list pfile) (m : gmap bytes pfile) a :
    l ≡ₚ (map_to_list m).*2 -> (forall a f, m !! a = Some f -> pf_abs f = a) ->
    a ∈ pf_abs <$> l <-> a ∈ dom m.
  Proof.
    intros Hp Hk. rewrite Hp, elem_of_list_fmap, elem_of_dom. split.
    - intros (f & -> & Hf). apply elem_of_list_fmap in Hf as ([b g] & -> & Hin).
      apply elem_of_map_to_list in Hin. cbn. rewrite (Hk _ _ Hin). by eexists.
    - intros [f Hf]. exists f. split; [by rewrite (Hk _ _ Hf)|]. apply elem_of_list_fmap.
      exists (a, f). split; [done|]. by apply elem_of_map_to_list.
  Qed.

  (** *** C33 *)
  Theorem C33_listed_once_sorted_existing order ds l :
    wf_node fs -> some_order order -> (forall d, d ∈ ds -> is_virtual d = false -> scanned d) ->
    files parse hdir fs order ds = Ok l ->
    NoDup (pf_abs <$> l) /\
    StronglySorted (fun a b => ble (path_string (pf_path a)) (path_string (pf_path b)) = true) l /\
    forall f, f ∈ l -> exists d ws, d ∈ ds /\ is_virtual d = false /\
      pf_abs f = abs_name (clean_elems (pf_abs (d_file d)) ++ ws) /\
      is_Some (get fs (clean_elems (pf_abs (d_file d)) ++ ws)).
  Proof.
    intros Hwf Ho Hsc H. destruct (files_inv order ds l Ho H) as (m & E & Hp & Hk). split; [|split].
    - assert (En : pf_abs <$> (map_to_list m).*2 = (map_to_list m).*1).
      { rewrite <- list_fmap_compose. apply list_fmap_ext. intros i [a f] Hl. apply Hk.
        apply elem_of_map_to_list, elem_of_list_lookup. eauto. }
      rewrite Hp, En. apply NoDup_fst_map_to_list.
    - unfold files in H. rewrite E in H. injection H as <-. apply (StronglySorted_merge_sort pf_le).
    - intros f Hf. apply (files_elem l m f Hp Hk) in Hf.
      edestruct (collect_from parse hdir fs ∅ ∅ ds m (fun d f => exists ws,
        pf_abs f = abs_name (clean_elems (pf_abs (d_file d)) ++ ws) /\
        is_Some (get fs (clean_elems (pf_abs (d_file d)) ++ ws)))) as [Hn|(d & Hd & Hv & ws & H1 & H2)];
        [|exact E|exact Hf| |].
      + intros d v l' g Hd Hv Hl Hg. destruct (Hsc d Hd Hv) as [Hr Ha]. rewrite Ha.
        assert (Hw : walk_files parse hdir fs v d = Ok l' -> exists ws,
          pf_abs g = abs_name (clean_elems (decl_root d) ++ ws) /\ is_Some (get fs (clean_elems (decl_root d) ++ ws))).
        { intros Hw. by eapply walk_files_sound. }
        assert (Hop : open_files parse hdir fs v d = Ok l' -> exists ws,
          pf_abs g = abs_name (clean_elems (decl_root d) ++ ws) /\ is_Some (get fs (clean_elems (decl_root d) ++ ws))).
        { unfold open_files. case_bool_decide; [intros [= <-]; inversion Hg|].
          destruct (os_stat fs (decl_root d)) as [info|] eqn:Es; [|done]. destruct (d_isdir info); [done|].
          intros [= <-]. apply elem_of_list_singleton in Hg. subst g. exists []. rewrite app_nil_r.
          unfold os_stat in Es. unfold decl_root, join2 in *. rewrite Ha.
          destruct (h_mdir (pf_here (d_file d))) as [|c s]; [done|].
          destruct (clean_rooted ((c :: s) ++ slash :: p_name (pf_path (d_file d))) ltac:(done)) as (ws & Hws & Ew).
          rewrite Ew in *. rewrite clean_elems_abs by done. rewrite find_abs in Es by done.
          split; [done|]. destruct (get fs ws); [by eexists|done]. }
        unfold decl_files in Hl. destruct (dk d); auto.
      + by rewrite lookup_empty in Hn.
      + exists d, ws. done.
  Qed.

  (** *** C34 *)

  Lemma reaches_alt ds d a :
    is_virtual d = false -> reaches fs ds d a <-> reaches_with fs (virtual_names ds) d a.
  Proof. intros Hd. unfold reaches, reaches_with, exempt. tauto. Qed.

  Lemma collect_spec ds :
    wf_node fs -> virtual_first ds -> modular parse hdir fs ds -> echo_free fs ds ->
    match collect parse hdir fs ∅ ∅ ds with
    | Ok m => (forall a, a ∈ dom m <-> exists d, d ∈ ds /\ reaches fs ds d a) /\
              ~ exists d, d ∈ ds /\ missing fs ds d
    | Err _ => exists d, d ∈ ds /\ missing fs ds d
    end.
  Proof.
    intros Hwf (vs & ps & E & Hvs & Hps) Hmod Hecho. 
    set (v0 := fold_left (fun v d => {[d_value d]} ∪ v) vs (∅ : gset bytes)).
    replace (collect parse hdir fs ∅ ∅ ds) with (collect parse hdir fs ∅ v0 ps)
      by (rewrite E; symmetry; by apply collect_virtual).
    assert (HV : forall k, k ∈ v0 <-> virtual_names ds k).
    { intros k. unfold v0. rewrite fold_virtual_elem. rewrite Forall_forall in Hvs, Hps.
      unfold virtual_names. split.
      - intros [H|(d & Hd & Ek)]; [by apply elem_of_empty in H|]. exists d. rewrite E, elem_of_app. auto.
      - intros (d & Hd & Hv & Ek). right. exists d. split; [|done]. rewrite E, elem_of_app in Hd.
        destruct Hd as [?|Hd]; [done|]. apply Hps in Hd. congruence. }
    assert (Hsub : forall d, d ∈ ps -> d ∈ ds) by (intros d Hd; rewrite E, elem_of_app; by right).
    assert (Hps' : forall d, d ∈ ds -> is_virtual d = false -> d ∈ ps).
    { intros d Hd Hv. rewrite E, elem_of_app in Hd. destruct Hd as [Hd|?]; [|done].
      rewrite Forall_forall in Hvs. apply Hvs in Hd. congruence. }
    pose proof (collect_filers parse hdir fs ds (virtual_names ds) ps ∅ v0 Hwf Hmod Hecho Hps Hsub) as H.
    destruct (collect parse hdir fs ∅ v0 ps) as [m|e].
    - destruct H as [H1 H2].
      { intros k. rewrite HV, dom_empty. set_solver. }
      { intros a. rewrite dom_empty. set_solver. }
      split.
      + intros a. rewrite H1, dom_empty. rewrite Forall_forall in Hps. split.
        * intros [H|(d & Hd & H)]; [by apply elem_of_empty in H|]. exists d. split; [by apply Hsub|].
          apply reaches_alt; [by apply Hps|done].
        * intros (d & Hd & H). right. exists d. assert (Hv : is_virtual d = false) by apply H.
          split; [by apply Hps'|]. by apply (proj1 (reaches_alt ds d a Hv)).
      + intros (d & Hd & Hv & Hx & Hm). destruct (H2 d (Hps' d Hd Hv)) as [?|[n Hn]]; [by apply Hx|congruence].
    - destruct H as (d & Hd & Hx & Hm).
      { intros k. rewrite HV, dom_empty. set_solver. }
      { intros a. rewrite dom_empty. set_solver. }
      exists d. split; [by apply Hsub|]. rewrite Forall_forall in Hps. split; [by apply Hps|]. done.
  Qed.

  (** Listing fails exactly if the path of some declaration is missing, and
      otherwise lists exactly what the declarations reach. *)
  Theorem C34_complete_partial order ds :
    wf_node fs -> some_order order -> virtual_first ds -> modular parse hdir fs ds -> echo_free fs ds ->
    match listing parse hdir fs order ds with
    | Ok l => (forall a, a ∈ l <-> exists d, d ∈ ds /\ reaches fs ds d a) /\
              ~ exists d, d ∈ ds /\ missing fs ds d
    | Err _ => exists d, d ∈ ds /\ missing fs ds d
    end.
  Proof.
    intros Hwf Ho Hvf Hmod Hecho. pose proof (collect_spec ds Hwf Hvf Hmod Hecho) as H. unfold listing.
    destruct (files parse hdir fs order ds) as [l|e] eqn:E.
    - destruct (files_inv order ds l Ho E) as (m & Em & Hp & Hk). rewrite Em in H. destruct H as [H1 H2].
      split; [|done]. intros a. rewrite (abs_elem l m a Hp Hk). apply H1.
    - unfold files in E. destruct (collect parse hdir fs ∅ ∅ ds); [done|]. exact H.
  Qed.

  (** All declarations are in the module at [rs] and spelled without package,
      none of a run-time path is of the module's root, and no packed one is
      strictly below a run-time one. *)
  Definition spelled (rs : list bytes) (ds : list decl) : Prop :=
    (forall d, d ∈ ds -> exists ns, placed d rs ns /\ d_value d = abs_name ns /\
       (is_virtual d = true -> ns <> [])) /\
    (forall d d' ns ns' x, d ∈ ds -> d' ∈ ds -> is_virtual d = true -> is_virtual d' = false ->
       placed d rs ns -> placed d' rs ns' -> forall y, ns' <> ns ++ x :: y).

  (** [a] is at or below the path of [d]. *)
  Definition covers (d : decl) (a : bytes) : Prop :=
    exists rs ns vs, placed d rs ns /\ Forall good_elem vs /\ a = abs_name (rs ++ ns ++ vs).

  (** The claim of C34: everything existing at or below a packed declaration
      is listed, except what is at or below a run-time one. *)
  Theorem C34_complete_spelled_partial order rs ds l :
    wf_node fs -> some_order order -> virtual_first ds -> modular parse hdir fs ds -> echo_free fs ds ->
    spelled rs ds -> listing parse hdir fs order ds = Ok l ->
    forall ws, Forall good_elem ws -> abs_name ws ∈ l <-> is_Some (get fs ws) /\
      (exists d, d ∈ ds /\ is_virtual d = false /\ covers d (abs_name ws)) /\
      ~ exists d, d ∈ ds /\ is_virtual d = true /\ covers d (abs_name ws).
  Proof.
    intros Hwf Ho Hvf Hmod Hecho [Hsp Hin] Hl ws Hws.
    pose proof (C34_complete_partial order ds Hwf Ho Hvf Hmod Hecho) as H. rewrite Hl in H.
    destruct H as [H _]. rewrite H. clear H Hl.
    assert (Hcov : forall d ns vs, d ∈ ds -> placed d rs ns -> Forall good_elem vs ->
      covers d (abs_name (rs ++ vs)) <-> exists us, vs = ns ++ us).
    { intros d ns vs Hd Hp Hvs. split.
      - intros (rs' & ns' & us & Hp' & Hus & E). destruct (placed_unique _ _ _ _ _ Hp Hp') as [<- <-].
        apply abs_name_inj in E; [by apply app_inv_head in E; eauto|apply Forall_app; split; [apply Hp|done]|].
        apply Forall_app; split; [apply Hp|]. apply Forall_app; split; [apply Hp|done].
      - intros [us ->]. apply Forall_app in Hvs as [? ?]. exists rs, ns, us. done. }
    split.
    - intros (d & Hd & Hv & Hx & rs' & ns & n & Hp & Hg & Hr).
      destruct (Hsp d Hd) as (ns' & Hp' & Hval & _). destruct (placed_unique _ _ _ _ _ Hp Hp') as [-> <-]. clear Hp'.
      assert (Hall : exists vs c, get n vs = Some c /\ abs_name ws = abs_name (rs ++ ns ++ vs) /\
        (dk d <> KWalk /\ vs = [] \/ forall v1 v2, vs = v1 ++ v2 -> ~ virtual_names ds (rel_name (ns ++ v1)))).
      { destruct Hr as [(Hk & _ & E)|(_ & vs & c & Hc & E & Hn)].
        - exists [], n. rewrite app_nil_r. split; [done|]. split; [done|]. by left.
        - exists vs, c. split; [done|]. split; [done|]. by right. }
      destruct Hall as (vs & c & Hc & E & Hn). clear Hr.
      assert (Hgc : get fs (rs ++ ns ++ vs) = Some c) by (by rewrite app_assoc, get_app, Hg).
      destruct (wf_get _ _ _ Hwf Hgc) as [_ Hgood].
      apply abs_name_inj in E; [|done|done]. subst ws.
      assert (Hnv : Forall good_elem (ns ++ vs)) by (by apply Forall_app in Hgood as [_ ?]).
      split; [by eexists|]. split.
      + exists d. split; [done|]. split; [done|]. apply (Hcov d ns); eauto.
      + intros (dv & Hdv & Hvv & Hc'). destruct (Hsp dv Hdv) as (nv & Hpv & Hvalv & Hne).
        destruct (proj1 (Hcov dv nv (ns ++ vs) Hdv Hpv Hnv) Hc') as [us E].
        apply app_eq_app in E as (x & [[-> Eu]|[-> Eu]]).
        * destruct x as [|x y]; [|by eapply (Hin dv d nv)].
          rewrite app_nil_r in *. destruct Hn as [[Hk Hvs]|Hn].
          -- apply Hx. split; [done|]. exists dv. split; [done|]. split; [done|]. congruence.
          -- apply (Hn [] vs eq_refl). exists dv. split; [done|]. split; [done|].
             rewrite app_nil_r. rewrite Hvalv. specialize (Hne Hvv). by destruct nv.
        * destruct Hn as [[Hk ->]|Hn].
          -- symmetry in Eu. apply app_eq_nil in Eu as [-> ->]. rewrite app_nil_r in *.
             apply Hx. split; [done|]. exists dv. split; [done|]. split; [done|]. congruence.
          -- apply (Hn x us Eu). exists dv. split; [done|]. split; [done|].
             rewrite Hvalv. specialize (Hne Hvv). by destruct (ns ++ x).
    - intros ([c Hg] & (d & Hd & Hv & Hc) & Hno).
      destruct (Hsp d Hd) as (ns & Hp & Hval & _).
      destruct Hc as (rs' & ns' & vs & Hp' & Hvs & E). destruct (placed_unique _ _ _ _ _ Hp Hp') as [<- <-].
      assert (Hnv : Forall good_elem (ns ++ vs)) by (apply Forall_app; split; [apply Hp|done]).
      apply abs_name_inj in E; [|done|apply Forall_app; split; [apply Hp|done]]. subst ws.
      assert (Hnone : forall v1 v2, vs = v1 ++ v2 -> forall dv nv, dv ∈ ds -> is_virtual dv = true ->
        placed dv rs nv -> nv <> ns ++ v1).
      { intros v1 v2 E dv nv Hdv Hvv Hpv En. subst vs nv. apply Hno. exists dv. split; [done|]. split; [done|].
        apply (Hcov dv (ns ++ v1)); [done|done|done|]. exists v2. by rewrite app_assoc. }
      assert (Hvn : forall v1 v2, vs = v1 ++ v2 -> ~ virtual_names ds (abs_name (ns ++ v1))).
      { intros v1 v2 E (dv & Hdv & Hvv & Ev). destruct (Hsp dv Hdv) as (nv & Hpv & Hvalv & Hne).
        apply (Hnone v1 v2 E dv nv Hdv Hvv Hpv). apply abs_name_inj; [apply Hpv| |congruence].
        subst vs. rewrite app_assoc in Hnv. by apply Forall_app in Hnv as [? _]. }
      exists d. split; [done|]. split; [done|]. split.
      { intros [_ Hx]. apply (Hvn [] vs eq_refl). rewrite app_nil_r. by rewrite <- Hval. }
      rewrite app_assoc, get_app in Hg. destruct (get fs (rs ++ ns)) as [n|] eqn:Hgn; [|done].
      exists rs, ns, n. split; [done|]. split; [done|].
      destruct (decide (dk d = KWalk \/ n_isdir n = true)) as [Hk|Hk].
      + right. split; [done|]. exists vs, c. split; [done|]. split; [done|].
        intros v1 v2 E Hvr. apply (Hvn v1 v2 E). destruct Hvr as (dv & Hdv & Hvv & Ev).
        destruct (Hsp dv Hdv) as (nv & Hpv & Hvalv & Hne). exists dv. split; [done|]. split; [done|].
        rewrite Ev. destruct (ns ++ v1); [|done]. cbn in Ev. by rewrite Hvalv in Ev.
      + left. split; [intros E; apply Hk; by left|].
        assert (n_isdir n = false) by (destruct (n_isdir n); [exfalso; apply Hk; by right|done]).
        split; [done|]. destruct n; [|done]. destruct vs; [by rewrite app_nil_r|done].
  Qed.

  (** *** C35 *)

  Lemma missing_perm ds ds' d : ds ≡ₚ ds' -> missing fs ds d -> missing fs ds' d.
  Proof.
    intros Hp (H1 & H2 & H3). split; [done|]. split; [|done]. intros [Hk (x & Hx & Hv)]. apply H2.
    split; [done|]. exists x. by rewrite Hp.
  Qed.

  Lemma reaches_perm ds ds' d a : ds ≡ₚ ds' -> reaches fs ds d a -> reaches fs ds' d a.
  Proof.
    intros Hp (H1 & H2 & H3).
    assert (Hvn : forall k, virtual_names ds k <-> virtual_names ds' k).
    { intros k. unfold virtual_names. by setoid_rewrite Hp. }
    split; [done|]. split; [unfold exempt in *; by rewrite <- Hvn|].
    destruct H3 as (rs & ns & n & Hpl & Hg & [H|(Hk & vs & c & Hc & E & Hn)]); exists rs, ns, n;
      split; [done| |done|]; (split; [done|]); [by left|].
    right. split; [done|]. exists vs, c. split; [done|]. split; [done|]. intros v1 v2 Ev.
    rewrite <- Hvn. by eapply Hn.
  Qed.

  Lemma same_listing order order' ds ds' :
    wf_node fs -> some_order order -> some_order order' -> virtual_first ds -> virtual_first ds' -> ds ≡ₚ ds' ->
    modular parse hdir fs ds -> echo_free fs ds ->
    match listing parse hdir fs order ds, listing parse hdir fs order' ds' with
    | Ok l, Ok l' => l ≡ₚ l'
    | Err _, Err _ => True
    | _, _ => False
    end.
  Proof.
    intros Hwf Ho Ho' Hv Hv' Hp Hmod Hecho.
    assert (Hmod' : modular parse hdir fs ds').
    { intros d Hd. apply Hmod. by rewrite Hp. }
    assert (Hecho' : echo_free fs ds').
    { intros a (d & rs & ns & vs & Hd & Hr) Hl. apply (Hecho a).
      - exists d, rs, ns, vs. by rewrite Hp.
      - destruct Hl as [(x & Hx & H)|(x & rs' & ns' & vs' & Hx & H)]; [left; exists x|right; exists x, rs', ns', vs'];
          by rewrite Hp. }
    pose proof (C34_complete_partial order ds Hwf Ho Hv Hmod Hecho) as H.
    pose proof (C34_complete_partial order' ds' Hwf Ho' Hv' Hmod' Hecho') as H'.
    assert (Hnd : forall o x l, some_order o -> listing parse hdir fs o x = Ok l -> NoDup l).
    { intros o x l Hso. unfold listing. destruct (files parse hdir fs o x) as [fl|] eqn:E; [|done]. intros [= <-].
      destruct (files_inv o x fl Hso E) as (m & _ & Hpm & Hk).
      assert (En : pf_abs <$> (map_to_list m).*2 = (map_to_list m).*1).
      { rewrite <- list_fmap_compose. apply list_fmap_ext. intros i [a f] Hl. apply Hk.
        apply elem_of_map_to_list, elem_of_list_lookup. eauto. }
      rewrite Hpm, En. apply NoDup_fst_map_to_list. }
    destruct (listing parse hdir fs order ds) as [l|] eqn:E, (listing parse hdir fs order' ds') as [l'|] eqn:E'; try done.
    - apply NoDup_Permutation; [by apply (Hnd order ds)|by apply (Hnd order' ds')|]. intros a. rewrite (proj1 H), (proj1 H').
      split; intros (d & Hd & Hr); exists d; (split; [by rewrite Hp || rewrite <- Hp|]);
        (eapply reaches_perm; [|exact Hr]); done.
    - destruct H as [_ H]. apply H. destruct H' as (d & Hd & Hm). exists d. split; [by rewrite Hp|].
      by eapply missing_perm.
    - destruct H' as [_ H']. apply H'. destruct H as (d & Hd & Hm). exists d. split; [by rewrite <- Hp|].
      by eapply missing_perm.
  Qed.

  (** Whatever order declarations of each kind were found in, the same paths
      are listed, or both listings fail. *)
  Theorem C35_order_irrelevant_partial order order' (dm dm' : kind -> list decl) :
    wf_node fs -> some_order order -> some_order order' ->
    (forall k, Forall (fun d => dk d = k) (dm k)) -> (forall k, dm k ≡ₚ dm' k) ->
    modular parse hdir fs (decls_of dm) -> echo_free fs (decls_of dm) ->
    match listing parse hdir fs order (decls_of dm), listing parse hdir fs order' (decls_of dm') with
    | Ok l, Ok l' => l ≡ₚ l'
    | Err _, Err _ => True
    | _, _ => False
    end.
  Proof.
    intros Hwf Ho Ho' Hk Hp Hmod Hecho.
    assert (Hk' : forall k, Forall (fun d => dk d = k) (dm' k)).
    { intros k. by rewrite <- Hp. }
    assert (Hvf : forall dm, (forall k, Forall (fun d => dk d = k) (dm k)) -> virtual_first (decls_of dm)).
    { intros x Hx. unfold decls_of, ordered_kinds. cbn [map concat].
      exists (x KMkdirAll ++ x KCreate), (x KInclude ++ x KStat ++ x KOpen ++ x KDir ++ x KWalk).
      rewrite <- app_assoc, app_nil_r. split; [done|].
      split; rewrite !Forall_app; repeat split; eapply Forall_impl; try apply Hx; intros d Hd; unfold is_virtual;
        cbn beta in Hd; by rewrite Hd. }
    apply same_listing; try done; [by apply Hvf|by apply Hvf|].
    unfold decls_of, ordered_kinds. cbn [map concat]. by rewrite !Hp.
  Qed.

  (** *** C69 *)

  (** A listed file belongs to the module named in its entry, under its own
      name there. *)
  Definition own_module (f : pfile) : Prop :=
    exists rs ws, rs <> [] /\ Forall good_elem ws /\ h_mdir (pf_here f) = abs_name rs /\
      pf_abs f = abs_name (rs ++ ws) /\
      (parse (pf_here f) (rel_name ws) = Some (pf_path f) \/ p_name (pf_path f) = abs_name ws).

  Theorem C69_own_module_partial order ds l :
    wf_node fs -> some_order order -> modular parse hdir fs ds ->
    files parse hdir fs order ds = Ok l -> Forall own_module l.
  Proof.
    intros Hwf Ho Hmod H. destruct (files_inv order ds l Ho H) as (m & E & Hp & Hk).
    apply Forall_forall. intros f Hf. apply (files_elem l m f Hp Hk) in Hf.
    edestruct (collect_from parse hdir fs ∅ ∅ ds m (fun d f => own_module f)) as [Hn|(d & Hd & Hv & Hown)];
      [|exact E|exact Hf|by rewrite lookup_empty in Hn|done].
    intros d v l' g Hd Hv Hl Hg. destruct (Hmod d Hd Hv) as (rs & ns & Hpl & Hflat).
    assert (Hw : walk_files parse hdir fs v d = Ok l' -> own_module g).
    { intros Hw. destruct (get fs (rs ++ ns)) as [n|] eqn:Hgn.
      - destruct (walk_files_flat parse hdir fs d rs ns n v Hwf Hpl Hgn (Hflat n eq_refl)) as (l2 & E2 & _ & Ha).
        rewrite Hw in E2. injection E2 as <-. rewrite Forall_forall in Ha.
        destruct (Ha g Hg) as (vs & c & Hc & Eg & [Edir _] & Epath).
        assert (Hgc : get fs (rs ++ ns ++ vs) = Some c) by (by rewrite app_assoc, get_app, Hgn).
        destruct (wf_get _ _ _ Hwf Hgc) as [_ Hgood]. apply Forall_app in Hgood as [_ Hgood].
        exists rs, (ns ++ vs). split; [apply Hpl|]. split; [done|]. split; [done|]. split; [done|]. by left.
      - unfold walk_files, walk_disk in Hw. rewrite (placed_root _ _ _ Hpl), find_abs, Hgn in Hw; [done|].
        apply Forall_app; split; apply Hpl. }
    assert (Hop : open_files parse hdir fs v d = Ok l' -> own_module g).
    { unfold open_files. case_bool_decide; [intros [= <-]; inversion Hg|].
      destruct (os_stat fs (decl_root d)) as [info|] eqn:Es; [|done]. destruct (d_isdir info); [done|].
      intros [= <-]. apply elem_of_list_singleton in Hg. subst g. exists rs, ns.
      split; [apply Hpl|]. split; [apply Hpl|]. split; [apply Hpl|]. split; [apply Hpl|]. right. apply Hpl. }
    unfold decl_files in Hl. destruct (dk d); auto.
  Qed.
End Facts.

(** ** Examples and refutations *)

Definition nodes (n : node) : list (list bytes * node) := visited (fun _ => false) [] n.

Lemma nodes_get n ws c : wf_node n -> get n ws = Some c -> (ws, c) ∈ nodes n.
Proof. intros Hn Hg. apply visited_elem; [done|]. exists ws. done. Qed.

Lemma nodes_forall (P : list bytes -> node -> Prop) n :
  wf_node n -> Forall (fun x => P x.1 x.2) (nodes n) -> forall ws c, get n ws = Some c -> P ws c.
Proof. intros Hn HF ws c Hg. rewrite Forall_forall in HF. apply (HF (ws, c)). by apply nodes_get. Qed.

(** With one module, whose own path is not repeated below it, no name is
    taken for an absolute path. *)
Lemma echo_free_one fs rs ds :
  wf_node fs -> get fs (rs ++ rs) = None ->
  (forall d, d ∈ ds -> is_virtual d = false ->
     (exists ns, placed d rs ns) /\ forall ws, d_value d <> abs_name (rs ++ ws)) ->
  echo_free fs ds.
Proof.
  intros Hwf Hrr Hds a (d & rs' & ns & vs & Hd & Hv & Hp & Hg & ->) Hl.
  destruct (Hds d Hd Hv) as [(ns' & Hp') _]. destruct (placed_unique _ _ _ _ _ Hp Hp') as [-> <-].
  destruct Hl as [(x & Hx & Hxv & E)|(x & rx & nx & vx & Hx & Hxv & Hpx & Hgx & E)].
  - destruct (Hds x Hx Hxv) as [_ Hne]. by eapply Hne.
  - destruct (Hds x Hx Hxv) as [(n' & Hpx') _]. destruct (placed_unique _ _ _ _ _ Hpx Hpx') as [-> <-].
    destruct Hg as [c Hg]. destruct Hgx as [cx Hgx].
    destruct (wf_get _ _ _ Hwf Hg) as [_ G1]. destruct (wf_get _ _ _ Hwf Hgx) as [_ G2].
    assert (Hr : rs <> []) by apply Hp.
    assert (E' : rs ++ ns ++ vs = nx ++ vx).
    { apply abs_name_inj; [done|by apply Forall_app in G2 as [_ ?]|]. rewrite E.
      destruct (nx ++ vx) eqn:En; [|done]. cbn in E. by destruct rs. }
    rewrite <- E' in Hgx. rewrite app_assoc, get_app, Hrr in Hgx. done.
Qed.

Definition wit_meta : meta := Meta 420 (GoTime 1600000000 0 0) 4096 JNull true.
Definition wit_rs : list bytes := [B"src"; B"app"].
Definition wit_decl (k : kind) (v : bytes) (ns : list bytes) : decl :=
  Decl k (PFile (abs_name (wit_rs ++ ns)) (Path (B"app") (abs_name ns)) her_ex) v.
Definition wit_app (cs : list (bytes * node)) : node :=
  NDir wit_meta [(B"src", NDir wit_meta [(B"app", NDir wit_meta cs)])].
Definition wit_file : node := NFile wit_meta (B"x").

Definition wit_fs : node :=
  wit_app [(B"a.txt", wit_file); (B"pub", NDir wit_meta [(B"b.txt", wit_file)]);
           (B"tmp", NDir wit_meta [(B"t.txt", wit_file)])].
Definition wit_hdir : bytes -> res hinfo := fun _ => Ok her_ex.

Definition wit_ds : list decl :=
  [wit_decl KMkdirAll (B"/tmp") [B"tmp"]; wit_decl KOpen (B"/a.txt") [B"a.txt"]; wit_decl KWalk (B"/") []].

Ltac good_elems := repeat (apply List.Forall_cons; [apply good_elem_dec_ok; reflexivity|]); apply List.Forall_nil.

Lemma wit_wf : wf_node wit_fs.
Proof.
  cbn. repeat split; try (apply good_elem_dec_ok; reflexivity);
    repeat (apply SSorted_cons || apply SSorted_nil || apply List.Forall_cons || apply List.Forall_nil); reflexivity.
Qed.

Lemma wit_placed k v ns : Forall good_elem ns -> placed (wit_decl k v ns) wit_rs ns.
Proof. intros H. split; try done. good_elems. Qed.

Lemma wit_modular fs app ds :
  wf_node fs -> get fs wit_rs = Some app ->
  forallb (fun x => n_ok (n_meta x.2) && bool_decide (is_Some (here_parse her_ex (rel_name x.1)))) (nodes app) = true ->
  Forall (fun d => exists k v ns, d = wit_decl k v ns /\ Forall good_elem ns) ds ->
  modular here_parse wit_hdir fs ds.
Proof.
  intros Hwf Hg Hb HF d Hd Hv. rewrite Forall_forall in HF. destruct (HF d Hd) as (k & v & ns & -> & Hns).
  exists wit_rs, ns. split; [by apply wit_placed|]. intros n Hn. rewrite get_app, Hg in Hn.
  destruct (wf_get _ _ _ Hwf Hg) as [Happ _].
  assert (Hall : forall vs c, get n vs = Some c ->
    n_ok (n_meta c) = true /\ is_Some (here_parse her_ex (rel_name (ns ++ vs)))).
  { intros vs c Hc. rewrite forallb_forall in Hb.
    specialize (Hb (ns ++ vs, c)). cbn [fst snd] in Hb. apply andb_true_iff in Hb as [H1 H2].
    - split; [done|]. by apply bool_decide_eq_true in H2.
    - apply elem_of_list_In, nodes_get; [done|]. by rewrite get_app, Hn. }
  assert (Hh : good_here here_parse wit_rs ns n her_ex).
  { split; [done|]. intros vs c Hc. by apply (Hall vs c). }
  split; [intros vs c Hc; by apply (Hall vs c)|exact Hh|].
  intros vs c Hc _. exists her_ex. done.
Qed.

Lemma wit_echo_free fs ds :
  wf_node fs -> get fs (wit_rs ++ wit_rs) = None ->
  Forall (fun d => exists k v ns, d = wit_decl k v ns /\ Forall good_elem ns) ds ->
  forallb (fun d => negb (has_prefix (d_value d) (B"/src/app"))) ds = true ->
  echo_free fs ds.
Proof.
  intros Hwf Hg HF Hb. apply (echo_free_one fs wit_rs); [done|done|]. intros d Hd _.
  rewrite Forall_forall in HF. destruct (HF d Hd) as (k & v & ns & Ed & Hns).
  split; [exists ns; rewrite Ed; by apply wit_placed|]. intros ws E.
  rewrite forallb_forall in Hb. specialize (Hb d (proj1 (elem_of_list_In _ _) Hd)).
  rewrite E in Hb. destruct ws as [|w ws]; [done|]. rewrite abs_name_app in Hb by done.
  change (abs_name wit_rs) with (B"/src/app") in Hb. rewrite has_prefix_app in Hb. done.
Qed.

Ltac wit_decls := repeat (apply List.Forall_cons; [eexists _, _, _; split; [reflexivity|good_elems]|]); apply List.Forall_nil.

Example C34_ex :
  wf_node wit_fs /\ virtual_first wit_ds /\ modular here_parse wit_hdir wit_fs wit_ds /\
  echo_free wit_fs wit_ds /\ spelled wit_rs wit_ds /\
  listing here_parse wit_hdir wit_fs (fun l => rev l) wit_ds =
    Ok [B"/src/app"; B"/src/app/a.txt"; B"/src/app/pub"; B"/src/app/pub/b.txt"].
Proof.
  split; [apply wit_wf|]. split.
  { exists [wit_decl KMkdirAll (B"/tmp") [B"tmp"]], [wit_decl KOpen (B"/a.txt") [B"a.txt"]; wit_decl KWalk (B"/") []].
    split; [done|]. split; repeat (apply List.Forall_cons; [done|]); apply List.Forall_nil. }
  split; [eapply wit_modular; [apply wit_wf|reflexivity|by vm_compute|wit_decls]|].
  split; [apply wit_echo_free; [apply wit_wf|reflexivity|wit_decls|by vm_compute]|].
  split; [|by vm_compute]. split.
  - intros d Hd. unfold wit_ds in Hd. rewrite !elem_of_cons, elem_of_nil in Hd.
    destruct Hd as [-> |[-> |[-> |[]]]]; eexists; (split; [apply wit_placed; good_elems|]); done.
  - intros d d' ns ns' x Hd Hd' Hv Hv' Hp Hp' y. unfold wit_ds in Hd, Hd'. rewrite !elem_of_cons, elem_of_nil in Hd, Hd'.
    destruct Hd as [-> |[-> |[-> |[]]]]; try done.
    destruct (placed_unique _ _ _ _ _ Hp (wit_placed KMkdirAll (B"/tmp") [B"tmp"] ltac:(good_elems))) as [_ ->].
    destruct Hd' as [-> |[-> |[-> |[]]]]; try done.
    + destruct (placed_unique _ _ _ _ _ Hp' (wit_placed KOpen (B"/a.txt") [B"a.txt"] ltac:(good_elems))) as [_ ->]. done.
    + destruct (placed_unique _ _ _ _ _ Hp' (wit_placed KWalk (B"/") [] ltac:(good_elems))) as [_ ->]. done.
Qed.

Example C33_ex :
  (forall d, d ∈ wit_ds -> is_virtual d = false -> scanned d) /\ some_order (fun l => rev l).
Proof.
  split; [|intros l; symmetry; apply Permutation_rev].
  intros d Hd _. unfold wit_ds in Hd. rewrite !elem_of_cons, elem_of_nil in Hd.
  destruct Hd as [-> |[-> |[-> |[]]]]; split; by vm_compute.
Qed.

(** [a] is at or below a path the program creates at run time. *)
Definition made_at_run_time (ds : list decl) (a : bytes) : Prop :=
  exists d ns vs, d ∈ ds /\ is_virtual d = true /\ Forall good_elem (ns ++ vs) /\
    pf_abs (d_file d) = abs_name ns /\ a = abs_name (ns ++ vs).

(** A run-time directory written with its package is listed all the same. *)
Theorem C34_qualified_refuted :
  exists fs ds l a, wf_node fs /\ virtual_first ds /\ modular here_parse wit_hdir fs ds /\ echo_free fs ds /\
    (forall d, d ∈ ds -> here_parse her_ex (d_value d) = Some (pf_path (d_file d))) /\
    listing here_parse wit_hdir fs (fun l => l) ds = Ok l /\ made_at_run_time ds a /\ a ∈ l.
Proof.
  exists wit_fs, [wit_decl KMkdirAll (B"app:/tmp") [B"tmp"]; wit_decl KWalk (B"/") []],
    [B"/src/app"; B"/src/app/a.txt"; B"/src/app/pub"; B"/src/app/pub/b.txt"; B"/src/app/tmp"; B"/src/app/tmp/t.txt"],
    (B"/src/app/tmp").
  split; [apply wit_wf|]. split.
  { eexists [_], [_]. split; [done|]. split; repeat (apply List.Forall_cons; [done|]); apply List.Forall_nil. }
  split; [eapply wit_modular; [apply wit_wf|reflexivity|by vm_compute|wit_decls]|].
  split; [apply wit_echo_free; [apply wit_wf|reflexivity|wit_decls|by vm_compute]|].
  split. { intros d Hd. rewrite !elem_of_cons, elem_of_nil in Hd. destruct Hd as [-> |[-> |[]]]; by vm_compute. }
  split; [by vm_compute|]. split.
  - eexists _, (wit_rs ++ [B"tmp"]), []. split; [by left|]. split; [done|]. split; [good_elems|]. done.
  - rewrite !elem_of_cons. tauto.
Qed.

(** So is a path below a run-time directory, when declared itself. *)
Theorem C34_below_refuted :
  exists fs ds l a, wf_node fs /\ virtual_first ds /\ modular here_parse wit_hdir fs ds /\ echo_free fs ds /\
    (forall d, d ∈ ds -> here_parse her_ex (d_value d) = Some (pf_path (d_file d))) /\
    listing here_parse wit_hdir fs (fun l => l) ds = Ok l /\ made_at_run_time ds a /\ a ∈ l.
Proof.
  exists wit_fs, [wit_decl KMkdirAll (B"/tmp") [B"tmp"]; wit_decl KWalk (B"/tmp/t.txt") [B"tmp"; B"t.txt"]],
    [B"/src/app/tmp/t.txt"], (B"/src/app/tmp/t.txt").
  split; [apply wit_wf|]. split.
  { eexists [_], [_]. split; [done|]. split; repeat (apply List.Forall_cons; [done|]); apply List.Forall_nil. }
  split; [eapply wit_modular; [apply wit_wf|reflexivity|by vm_compute|wit_decls]|].
  split; [apply wit_echo_free; [apply wit_wf|reflexivity|wit_decls|by vm_compute]|].
  split. { intros d Hd. rewrite !elem_of_cons, elem_of_nil in Hd. destruct Hd as [-> |[-> |[]]]; by vm_compute. }
  split; [by vm_compute|]. split.
  - eexists _, (wit_rs ++ [B"tmp"]), [B"t.txt"]. split; [by left|]. split; [done|]. split; [good_elems|]. done.
  - rewrite !elem_of_cons. tauto.
Qed.

(** And every run-time path of a module in the root directory. *)
Definition root_her : hinfo := HInfo (B"/") (B"app") (B"app") (B"app") true (B"/") (B"/go.mod") (B"1.13").
Theorem C34_root_module_refuted :
  exists fs ds l a, wf_node fs /\ virtual_first ds /\
    (forall d, d ∈ ds -> pf_here (d_file d) = root_her /\ pf_abs (d_file d) = decl_root d /\
       p_name (pf_path (d_file d)) = d_value d) /\
    listing here_parse (fun _ => Ok root_her) fs (fun l => l) ds = Ok l /\ made_at_run_time ds a /\ a ∈ l.
Proof.
  exists (NDir wit_meta [(B"tmp", NDir wit_meta [(B"t.txt", wit_file)])]),
    [Decl KMkdirAll (PFile (B"/tmp") (Path (B"app") (B"/tmp")) root_her) (B"/tmp");
     Decl KWalk (PFile (B"/") (Path (B"app") (B"/")) root_her) (B"/")],
    [B"/"; B"/tmp/t.txt"; B"/tmp"], (B"/tmp").
  split.
  { cbn. repeat split; try (apply good_elem_dec_ok; reflexivity);
    repeat (apply SSorted_cons || apply SSorted_nil || apply List.Forall_cons || apply List.Forall_nil); reflexivity. }
  split.
  { eexists [_], [_]. split; [done|]. split; repeat (apply List.Forall_cons; [done|]); apply List.Forall_nil. }
  split. { intros d Hd. rewrite !elem_of_cons, elem_of_nil in Hd. destruct Hd as [-> |[-> |[]]]; by vm_compute. }
  split; [by vm_compute|]. split.
  - eexists _, [B"tmp"], []. split; [by left|]. split; [done|]. split; [good_elems|]. done.
  - rewrite !elem_of_cons. tauto.
Qed.

(** A file's absolute path is taken for the name of another file: what is
    listed depends on the order of the declarations. *)
Theorem C35_order_matters_refuted :
  exists fs ds ds' l l', wf_node fs /\ virtual_first ds /\ virtual_first ds' /\
    ds ≡ₚ ds' /\ modular here_parse wit_hdir fs ds /\
    listing here_parse wit_hdir fs (fun l => l) ds = Ok l /\
    listing here_parse wit_hdir fs (fun l => l) ds' = Ok l' /\ ~ (forall a, a ∈ l <-> a ∈ l').
Proof.
  exists (wit_app [(B"src", NDir wit_meta [(B"app", NDir wit_meta [(B"x", wit_file)])]); (B"x", wit_file)]),
    [wit_decl KWalk (B"/x") [B"x"]; wit_decl KWalk (B"/src") [B"src"]],
    [wit_decl KWalk (B"/src") [B"src"]; wit_decl KWalk (B"/x") [B"x"]],
    [B"/src/app/src/app"; B"/src/app/src"; B"/src/app/x"],
    [B"/src/app/src/app"; B"/src/app/src"; B"/src/app/x"; B"/src/app/src/app/x"].
  assert (Hwf : wf_node (wit_app [(B"src", NDir wit_meta [(B"app", NDir wit_meta [(B"x", wit_file)])]); (B"x", wit_file)])).
  { cbn. repeat split; try (apply good_elem_dec_ok; reflexivity);
    repeat (apply SSorted_cons || apply SSorted_nil || apply List.Forall_cons || apply List.Forall_nil); reflexivity. }
  split; [exact Hwf|].
  split. { eexists [], [_; _]. split; [done|]. split; repeat (apply List.Forall_cons; [done|]); apply List.Forall_nil. }
  split. { eexists [], [_; _]. split; [done|]. split; repeat (apply List.Forall_cons; [done|]); apply List.Forall_nil. }
  split; [apply Permutation_swap|].
  split; [eapply wit_modular; [exact Hwf|reflexivity|by vm_compute|wit_decls]|].
  split; [by vm_compute|]. split; [by vm_compute|].
  intros H. specialize (H (B"/src/app/src/app/x")). rewrite !elem_of_cons, elem_of_nil in H.
  destruct H as [_ H]. destruct H as [H|[H|[H|[]]]]; [tauto|done..].
Qed.

(** A file after a directory of another module is attributed to that module. *)
Definition sub_her : hinfo :=
  HInfo (B"/src/app/a") (B"a") (B"a") (B"a") true (B"/src/app/a") (B"/src/app/a/go.mod") (B"1.13").
Definition wit_hdir2 : bytes -> res hinfo :=
  fun p => Ok (if has_prefix p (B"/src/app/a") then sub_her else her_ex).

Theorem C69_own_module_refuted :
  exists fs d l f h, wf_node fs /\ scanned d /\ is_virtual d = false /\
    files here_parse wit_hdir2 fs (fun l => l) [d] = Ok l /\ f ∈ l /\ n_isdir <$> find fs (pf_abs f) = Some false /\
    wit_hdir2 (dirname (pf_abs f)) = Ok h /\ h_mdir (pf_here f) <> h_mdir h /\ p_pkg (pf_path f) <> h_mpath h.
Proof.
  exists (wit_app [(B"a", NDir wit_meta [(B"f", wit_file)]); (B"b.txt", wit_file)]),
    (wit_decl KWalk (B"/") []),
    [PFile (B"/src/app/a") (Path (B"a") (B"/")) sub_her; PFile (B"/src/app/a/f") (Path (B"a") (B"/f")) sub_her;
     PFile (B"/src/app/b.txt") (Path (B"a") (B"/src/app/b.txt")) sub_her;
     PFile (B"/src/app") (Path (B"app") (B"/")) her_ex],
    (PFile (B"/src/app/b.txt") (Path (B"a") (B"/src/app/b.txt")) sub_her), her_ex.
  split.
  { cbn. repeat split; try (apply good_elem_dec_ok; reflexivity);
    repeat (apply SSorted_cons || apply SSorted_nil || apply List.Forall_cons || apply List.Forall_nil); reflexivity. }
  split; [split; by vm_compute|]. split; [done|]. split; [by vm_compute|].
  split; [right; right; by left|]. split; [by vm_compute|]. split; [by vm_compute|]. done.
Qed.

Example C69_ex : modular here_parse wit_hdir wit_fs wit_ds.
Proof. eapply wit_modular; [apply wit_wf|reflexivity|by vm_compute|wit_decls]. Qed.
