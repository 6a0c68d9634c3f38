(** Marshalling the in-memory pkger and loading it again. *)
From Verif Require Import Bytes GoPath Here GoTypes Mem MemSpec MemBase WalkSpec JsonStr JsonText Embed Marshal.

(** ** The table built by Range *)

Definition shown_files (m : mem) (l : list (path * ref)) : list (bytes * efile) :=
  omap (fun kv => (fun f => (path_string kv.1, efile_of f)) <$> m_heap m !! kv.2) l.

Lemma range_files_foldl (m : mem) (l : list (path * ref)) (acc : gmap bytes efile) :
  foldl (fun acc kv => match m_heap m !! kv.2 with
                       | Some f => <[path_string kv.1 := efile_of f]> acc
                       | None => acc
                       end) acc l =
  foldl (fun acc (kv : bytes * efile) => <[kv.1 := kv.2]> acc) acc (shown_files m l).
Proof.
  revert acc. induction l as [|[pt r] l IH]; intros acc; [done|]. cbn [foldl shown_files omap list_omap fst snd].
  destruct (m_heap m !! r) as [f|]; cbn [fst snd foldl fmap option_fmap option_map]; apply IH.
Qed.

(** Different stored paths print differently. *)
Definition prints_distinct (m : mem) : Prop :=
  forall p q, is_Some (m_files m !! p) -> is_Some (m_files m !! q) -> path_string p = path_string q -> p = q.

Lemma shown_files_elem m l k e :
  (k, e) ∈ shown_files m l <-> exists pt r f, (pt, r) ∈ l /\ m_heap m !! r = Some f /\ k = path_string pt /\ e = efile_of f.
Proof.
  unfold shown_files. rewrite elem_of_list_omap. split.
  - intros ([pt r] & Hin & H). cbn [fst snd] in H. destruct (m_heap m !! r) as [f|] eqn:E; [|done].
    injection H as <- <-. eauto 10.
  - intros (pt & r & f & Hin & Hf & -> & ->). exists (pt, r). split; [done|]. cbn [fst snd]. by rewrite Hf.
Qed.

Lemma shown_files_nodup m l :
  NoDup l.*1 -> (forall p q, p ∈ l.*1 -> q ∈ l.*1 -> path_string p = path_string q -> p = q) ->
  NoDup (shown_files m l).*1.
Proof.
  induction l as [|[pt r] l IH]; intros Hn Hi; [constructor|]. cbn [fmap list_fmap fst] in Hn, Hi.
  apply NoDup_cons in Hn as [Hp Hn]. unfold shown_files. cbn [omap list_omap snd fst].
  assert (IH' : NoDup (shown_files m l).*1).
  { apply IH; [done|]. intros p q H1 H2. apply Hi; by constructor. }
  destruct (m_heap m !! r) as [f|]; cbn [fmap option_fmap option_map]; [|done].
  cbn [list_fmap fst]. apply NoDup_cons. split; [|done].
  intros Hin. apply elem_of_list_fmap in Hin as ([k e] & Hke & Hin).
  apply shown_files_elem in Hin as (pt' & r' & f' & Hin & _ & Hk & _). cbn [fst] in Hk, Hke. subst k.
  assert (Hin' : pt' ∈ l.*1) by (apply elem_of_list_fmap; by exists (pt', r')).
  assert (pt = pt') as -> by (apply Hi; [by left|by right|done]). done.
Qed.

Lemma range_files_lookup m l k e :
  wf m -> prints_distinct m -> l ≡ₚ map_to_list (m_files m) ->
  range_files m l !! k = Some e <-> exists pt f, file_at m pt = Some f /\ k = path_string pt /\ e = efile_of f.
Proof.
  intros Hw Hd Hp. unfold range_files. rewrite range_files_foldl, foldl_insert_app, map_union_empty.
  assert (Hin : forall pt, pt ∈ l.*1 -> is_Some (m_files m !! pt)).
  { intros pt H. apply elem_of_list_fmap in H as ([pt' r] & -> & H). rewrite Hp in H.
    apply elem_of_map_to_list in H. by exists r. }
  assert (Hnd : NoDup (rev (shown_files m l)).*1).
  { assert (rev (shown_files m l) ≡ₚ shown_files m l) as -> by (symmetry; apply Permutation_rev).
    apply shown_files_nodup; [rewrite Hp; apply NoDup_fst_map_to_list|]. intros p q H1 H2. apply Hd; auto. }
  rewrite <- elem_of_list_to_map by done.
  assert (Hr : forall x, x ∈ rev (shown_files m l) <-> x ∈ shown_files m l).
  { intros x. by rewrite <- Permutation_rev. }
  rewrite Hr, shown_files_elem. unfold file_at. split.
  - intros (pt & r & f & H1 & H2 & -> & ->). exists pt, f. split_and!; [|done|done].
    rewrite Hp in H1. apply elem_of_map_to_list in H1. rewrite H1. exact H2.
  - intros (pt & f & H1 & -> & ->). destruct (m_files m !! pt) as [r|] eqn:E; [|done].
    exists pt, r, f. split_and!; try done. rewrite Hp. by apply elem_of_map_to_list.
Qed.

(** ** Loading a table *)

Definition fobj_of (e : efile) : fobj := FObj (e_here e) (e_info e) (e_path e) (e_data e) (e_parent e) None None.

Lemma efile_fobj e : efile_of (fobj_of e) = e.
Proof. by destruct e. Qed.

Lemma file_at_store_eq m f pt : file_at (store (alloc m f).1 pt (alloc m f).2) pt = Some f.
Proof. unfold file_at. simpl. rewrite lookup_insert. simpl. by rewrite lookup_insert. Qed.

Lemma file_at_store_ne m f pt q : wf m -> pt <> q -> file_at (store (alloc m f).1 pt (alloc m f).2) q = file_at m q.
Proof.
  intros Hw Hn. unfold file_at. simpl. rewrite lookup_insert_ne by done.
  destruct (m_files m !! q) as [r|] eqn:E; [|done]. simpl.
  pose proof (wf_files_lt m q r Hw E). rewrite lookup_insert_ne; [done|lia].
Qed.

Lemma load_files_spec parse l m :
  wf m -> (forall k v, (k, v) ∈ l -> is_Some (parse (m_here m) k)) -> NoDup (map (fun kv => parse (m_here m) kv.1) l) ->
  exists m', load_files parse m l = Ok m' /\ wf m' /\ m_here m' = m_here m /\ m_infos m' = m_infos m /\
    (forall k v pt, (k, v) ∈ l -> parse (m_here m) k = Some pt -> file_at m' pt = Some (fobj_of v)) /\
    (forall pt, (forall k v, (k, v) ∈ l -> parse (m_here m) k <> Some pt) -> file_at m' pt = file_at m pt).
Proof.
  revert m. induction l as [|[k v] l IH]; intros m Hw Hs Hn.
  - exists m. split_and!; try done. intros k v pt H. by apply elem_of_nil in H.
  - cbn [map fst] in Hn. apply NoDup_cons in Hn as [Hk Hn].
    destruct (Hs k v) as [pt Hpt]; [by left|]. cbn [load_files]. unfold mem_parse. rewrite Hpt.
    change (FObj (e_here v) (e_info v) (e_path v) (e_data v) (e_parent v) None None) with (fobj_of v).
    destruct (alloc m (fobj_of v)) as [m1 r] eqn:Ea.
    assert (Em : m1 = (alloc m (fobj_of v)).1) by (by rewrite Ea).
    assert (Er : r = (alloc m (fobj_of v)).2) by (by rewrite Ea). subst m1 r. clear Ea.
    set (m2 := store (alloc m (fobj_of v)).1 pt (alloc m (fobj_of v)).2).
    assert (Hh : m_here m2 = m_here m) by done.
    destruct (IH m2) as (m' & H1 & H2 & H3 & H4 & H5 & H6).
    + by apply wf_alloc_store.
    + intros k' v' H'. rewrite Hh. apply (Hs k' v'). by right.
    + rewrite Hh. exact Hn.
    + exists m'. rewrite Hh in *. split_and!; [done|done|done|done|..].
      * intros k' v' pt' Hin Hp'. apply elem_of_cons in Hin as [[= -> ->]|Hin]; [|by eapply H5].
        assert (pt' = pt) as -> by congruence.
        rewrite H6; [apply file_at_store_eq|]. intros k2 v2 Hin2 E. apply Hk.
        rewrite Hpt, <- E. apply elem_of_list_In, in_map_iff. exists (k2, v2). split; [done|]. by apply elem_of_list_In.
      * intros pt' Hno. rewrite H6.
        { apply file_at_store_ne; [done|]. intros <-. by eapply (Hno k v); [left|]. }
        intros k2 v2 Hin2. apply (Hno k2 v2). by right.
Qed.

(** ** What a marshalled pkger holds *)

(** Two pkgers with the same entries. *)
Record same_store (m m' : mem) : Prop := {
  ss_here : m_here m' = m_here m;
  ss_infos : m_infos m' = m_infos m;
  ss_files : forall pt, efile_of <$> file_at m' pt = efile_of <$> file_at m pt
}.

(** Everything stored can be written in JSON, and its printed path resolves
    back to it. *)
Record marshalable (parse : resolver) (m : mem) : Prop := {
  mo_here : info_ok (m_here m);
  mo_infos : forall k i, m_infos m !! k = Some i -> utf8 k /\ info_ok i;
  mo_files : forall pt f, file_at m pt = Some f -> utf8 (path_string pt) /\ efile_ok (efile_of f);
  mo_keys : forall pt f, file_at m pt = Some f -> parse (m_here m) (path_string pt) = Some pt
}.

Lemma wf_file_at m pt : wf m -> is_Some (m_files m !! pt) -> is_Some (file_at m pt).
Proof.
  intros Hw [r Hr]. unfold file_at. rewrite Hr. simpl. by eapply wf_files.
Qed.

Lemma marshalable_distinct parse m : wf m -> marshalable parse m -> prints_distinct m.
Proof.
  intros Hw Hm p q Hp Hq E. apply (wf_file_at m p Hw) in Hp as [f Hf]. apply (wf_file_at m q Hw) in Hq as [g Hg].
  pose proof (mo_keys _ _ Hm _ _ Hf) as E1. pose proof (mo_keys _ _ Hm _ _ Hg) as E2. congruence.
Qed.

Lemma marshal_load parse m fl il order :
  wf m -> marshalable parse m -> fl ≡ₚ map_to_list (m_files m) -> il ≡ₚ map_to_list (m_infos m) ->
  (forall l, order l ≡ₚ l) ->
  exists m', unmarshal_json parse order (marshal_json m fl il) = Done m' /\ wf m' /\ same_store m m'.
Proof.
  intros Hw Hm Hfl Hil Ho. pose proof (marshalable_distinct parse m Hw Hm) as Hd.
  unfold marshal_json. unfold range_infos. rewrite (foldl_insert_perm _ _ Hil).
  set (y := EData (m_infos m) (range_files m fl) (m_here m)).
  assert (Hy : edata_ok y).
  { split; cbn [y_infos y_files y_here y].
    - apply Hm.
    - intros k e H. apply range_files_lookup in H as (pt & f & Hf & -> & ->); [|done..]. by eapply mo_files.
    - apply Hm. }
  rewrite unmarshal_text by done. cbn [y y_infos y_files y_here].
  set (l := order (map_to_list (range_files m fl))).
  assert (Hl : forall k e, (k, e) ∈ l <-> exists pt f, file_at m pt = Some f /\ k = path_string pt /\ e = efile_of f).
  { intros k e. unfold l. rewrite Ho, elem_of_map_to_list. by apply range_files_lookup. }
  set (m0 := Mem (m_here m) (m_infos m) ∅ ∅ 0).
  assert (Hw0 : wf m0) by (split; simpl; intros; by rewrite lookup_empty in *).
  destruct (load_files_spec parse l m0 Hw0) as (m' & H1 & H2 & H3 & H4 & H5 & H6).
  - intros k v H. apply Hl in H as (pt & f & Hf & -> & ->). cbn [m_here m0]. rewrite (mo_keys _ _ Hm _ _ Hf). eauto.
  - assert (Hnd : NoDup l.*1) by (unfold l; rewrite Ho; apply NoDup_fst_map_to_list).
    assert (Hinj : forall k1 v1 k2 v2, (k1, v1) ∈ l -> (k2, v2) ∈ l -> parse (m_here m) k1 = parse (m_here m) k2 -> k1 = k2).
    { intros k1 v1 k2 v2 A1 A2. apply Hl in A1 as (p1 & f1 & F1 & -> & ->). apply Hl in A2 as (p2 & f2 & F2 & -> & ->).
      rewrite (mo_keys _ _ Hm _ _ F1), (mo_keys _ _ Hm _ _ F2). by intros [= ->]. }
    clear -Hnd Hinj. induction l as [|[k v] l IH]; [constructor|]. cbn [fmap list_fmap fst] in Hnd.
    apply NoDup_cons in Hnd as [Hk Hnd]. cbn [map fst]. apply NoDup_cons. split.
    + intros Hin. apply elem_of_list_In, in_map_iff in Hin as ([k2 v2] & E & Hin). apply elem_of_list_In in Hin. cbn [fst] in E.
      assert (k = k2) as <- by (eapply (Hinj k v k2 v2); [by left|by right|by symmetry]).
      apply Hk. apply elem_of_list_fmap. by exists (k, v2).
    + apply IH; [done|]. intros k1 v1 k2 v2 A1 A2. apply (Hinj k1 v1 k2 v2); by right.
  - exists m'. unfold load. fold m0. rewrite H1. split; [done|]. split; [done|]. split; [done|done|].
    intros pt. destruct (file_at m pt) as [f|] eqn:E.
    + rewrite (H5 (path_string pt) (efile_of f) pt).
      * simpl. by rewrite efile_fobj.
      * apply Hl. eauto.
      * exact (mo_keys _ _ Hm _ _ E).
    + rewrite H6; [done|]. intros k v Hin E2. apply Hl in Hin as (q & f & Hf & -> & ->).
      cbn [m_here m0] in E2. rewrite (mo_keys _ _ Hm _ _ Hf) in E2. congruence.
Qed.

(** ** Pkgers with the same entries answer alike *)

Section Same.
  Context (parse : resolver).

  Lemma same_file_some m m' pt f :
    same_store m m' -> file_at m pt = Some f -> exists f', file_at m' pt = Some f' /\ efile_of f' = efile_of f.
  Proof.
    intros H Hf. pose proof (ss_files _ _ H pt) as E. rewrite Hf in E. simpl in E.
    destruct (file_at m' pt) as [f'|]; [|done]. injection E as E1 E2 E3 E4 E5. exists f'. split; [done|].
    unfold efile_of. congruence.
  Qed.
  Lemma same_file_none m m' pt : same_store m m' -> file_at m pt = None -> file_at m' pt = None.
  Proof.
    intros H Hf. pose proof (ss_files _ _ H pt) as E. rewrite Hf in E. by destruct (file_at m' pt).
  Qed.
  Lemma same_store_sym m m' : same_store m m' -> same_store m' m.
  Proof. intros [A1 A2 A3]. split; congruence. Qed.

  Lemma file_at_in m pt : wf m -> is_Some (file_at m pt) <-> is_Some (m_files m !! pt).
  Proof.
    intros Hw. split; [|by apply wf_file_at]. unfold file_at. intros [f Hf].
    destruct (m_files m !! pt); [eauto|done].
  Qed.

  Lemma same_keys m m' : wf m -> wf m' -> same_store m m' -> sorted_keys m' = sorted_keys m.
  Proof.
    intros Hw Hw' H. unfold sorted_keys. f_equal. f_equal. apply set_eq. intros pt.
    rewrite !elem_of_dom, <- !file_at_in by done. rewrite <- !(fmap_is_Some efile_of).
    by rewrite (ss_files _ _ H).
  Qed.

  Lemma same_walk_loop {S} (f : obs_fn S) pt keys skip s m m' :
    same_store m m' ->
    (walk_loop (lift_fn f) pt keys skip s m').1.1 = (walk_loop (lift_fn f) pt keys skip s m).1.1 /\
    (walk_loop (lift_fn f) pt keys skip s m').2 = (walk_loop (lift_fn f) pt keys skip s m).2.
  Proof.
    intros H. revert skip s. induction keys as [|k keys IH]; intros skip s; [done|]. cbn [walk_loop].
    destruct (negb (bool_decide _)); [apply IH|]. destruct (negb (has_prefix _ _)); [apply IH|].
    destruct (has_prefix _ _); [apply IH|].
    destruct (file_at m k) as [x|] eqn:E.
    - destruct (same_file_some _ _ _ _ H E) as (x' & -> & Hx). unfold lift_fn.
      assert (Hi : f_info x' = f_info x) by (by injection Hx). rewrite Hi.
      destruct (f (path_string k) (new_file_info (f_info x)) s) as [s' e].
      destruct e as [[]|]; done || apply IH.
    - by rewrite (same_file_none _ _ _ H E).
  Qed.

  Lemma same_walk {S} (f : obs_fn S) m m' p s :
    wf m -> wf m' -> same_store m m' ->
    (walk parse m' p (lift_fn f) s).1.1 = (walk parse m p (lift_fn f) s).1.1 /\
    (walk parse m' p (lift_fn f) s).2 = (walk parse m p (lift_fn f) s).2.
  Proof.
    intros Hw Hw' H. unfold walk, mem_parse. rewrite (ss_here _ _ H), (same_keys m m') by done.
    destruct (parse (m_here m) p); [|done]. by apply same_walk_loop.
  Qed.

  Lemma file_at_alloc m f pt : wf m -> file_at (alloc m f).1 pt = file_at m pt.
  Proof.
    intros Hw. unfold file_at. simpl. destruct (m_files m !! pt) as [r|] eqn:E; [|done]. simpl.
    pose proof (wf_files_lt _ _ _ Hw E). rewrite lookup_insert_ne; [done|lia].
  Qed.

  Lemma same_alloc m f m' g : wf m -> wf m' -> same_store m m' -> same_store (alloc m f).1 (alloc m' g).1.
  Proof.
    intros Hw Hw' H. split; [apply H|apply H|]. intros pt. rewrite !file_at_alloc by done. apply H.
  Qed.

  (** Readdir's callback observes only. *)
  Definition readdir_obs (her : hinfo) (root : bytes) (parent : path) (count : Z) : obs_fn (list details) :=
    fun path info infos =>
      if (0 <? count)%Z && (Z.of_nat (length infos) =? count)%Z then (infos, Some EEOF)
      else if bool_decide (root = path) then (infos, None)
      else match parse her path with
           | None => (infos, Some EParse)
           | Some pt =>
               if bool_decide (p_name pt = p_name parent) then (infos, None)
               else
                 let infos := infos ++ [info] in
                 if d_isdir info && negb (bool_decide (path = root)) then (infos, Some ESkipDir)
                 else (infos, None)
           end.

  Lemma readdir_fn_obs root parent count n d s m :
    readdir_fn parse root parent count n d s m = lift_fn (readdir_obs (m_here m) root parent count) n d s m.
  Proof.
    unfold readdir_fn, lift_fn, readdir_obs, mem_parse. cbv zeta. destruct (parse (m_here m) n) as [q|];
      repeat match goal with |- context [if ?b then _ else _] => destruct b end; done.
  Qed.

  Lemma walk_loop_readdir root parent count pt keys skip s m :
    walk_loop (readdir_fn parse root parent count) pt keys skip s m =
    walk_loop (lift_fn (readdir_obs (m_here m) root parent count)) pt keys skip s m.
  Proof.
    revert skip s. induction keys as [|k keys IH]; intros skip s; [done|]. cbn [walk_loop].
    destruct (negb (bool_decide _)); [apply IH|]. destruct (negb (has_prefix _ _)); [apply IH|].
    destruct (has_prefix _ _); [apply IH|]. destruct (file_at m k) as [x|]; [|done].
    rewrite readdir_fn_obs.
    destruct (lift_fn _ (path_string k) (new_file_info (f_info x)) s m) as [[s' m1] e] eqn:E.
    assert (m1 = m) as -> by (unfold lift_fn in E; destruct (readdir_obs _ _ _ _ _ _ _); congruence).
    destruct e as [[]|]; done || apply IH.
  Qed.

  Lemma same_readdir m m' r r' f f' c :
    wf m -> wf m' -> same_store m m' ->
    m_heap m !! r = Some f -> m_heap m' !! r' = Some f' -> efile_of f' = efile_of f ->
    readdir parse m' r' c = readdir parse m r c.
  Proof.
    intros Hw Hw' H Hr Hr' He. unfold readdir. rewrite Hr, Hr'.
    assert (Hp : f_path f' = f_path f) by (by injection He).
    assert (Hq : f_parent f' = f_parent f) by (by injection He). rewrite Hp, Hq.
    assert (Hwk : forall m0, walk parse m0 (path_string (f_path f)) (readdir_fn parse (path_string (f_path f)) (f_parent f) c) [] =
      walk parse m0 (path_string (f_path f)) (lift_fn (readdir_obs (m_here m0) (path_string (f_path f)) (f_parent f) c)) []).
    { intros m0. unfold walk. destruct (mem_parse parse m0 _); [|done]. apply walk_loop_readdir. }
    rewrite !Hwk, (ss_here _ _ H).
    destruct (same_walk (readdir_obs (m_here m) (path_string (f_path f)) (f_parent f) c) m m' (path_string (f_path f)) [] Hw Hw' H) as [E1 E2].
    destruct (walk parse m' _ _ _) as [[i1 n1] e1]. destruct (walk parse m _ _ _) as [[i2 n2] e2].
    cbn [fst snd] in E1, E2. by subst.
  Qed.
End Same.
