(** Theorems: Dump (C53). *)
From Verif Require Import Bytes GoPath Here GoTypes Mem MemSpec MemBase WalkSpec MemWalk MemReaddir PropsFiles PropsWalk
  Disk DiskOps Decls DeclsProofs Std PropsStd Dump.

Definition put_all (l : list (bytes * details)) (s : gmap bytes details) : gmap bytes details :=
  foldl (fun s x => <[x.1 := x.2]> s) s l.

Lemma put_all_elem l s q d : NoDup l.*1 -> (forall x, x ∈ l -> s !! x.1 = None) ->
  put_all l s !! q = Some d <-> (q, d) ∈ l \/ s !! q = Some d.
Proof.
  unfold put_all. revert s. induction l as [|[q' d'] l IH]; intros s Hn Hs; cbn [foldl].
  - split; [by right|]. intros [H|H]; [by apply elem_of_nil in H|done].
  - cbn in Hn. apply NoDup_cons in Hn as [Hx Hn]. rewrite IH; [|done|].
    + cbn [fst snd]. rewrite elem_of_cons, lookup_insert_Some. split.
      * intros [H|[[-> ->]|[_ H]]]; [by left; right|by left; left|by right].
      * intros [[[= -> ->]|H]|H]; [right; by left|by left|]. right. right. split; [|done].
        intros ->. specialize (Hs (q, d') (elem_of_list_here _ _)). cbn in Hs. congruence.
    + intros x Hin. cbn [fst snd]. rewrite lookup_insert_ne; [apply Hs; by right|].
      intros ->. apply Hx. by apply elem_of_list_fmap_1.
Qed.

Lemma visit_dump n l s : length l <= n -> visit n dump_fn l s = (put_all (shown <$> l) s, None).
Proof.
  revert l s. induction n as [|n IH]; intros l s Hl.
  - destruct l; [done|cbn in Hl; lia].
  - destruct l as [|[k d] l]; [done|]. cbn [visit dump_fn fmap list_fmap]. rewrite IH by (cbn in Hl; lia). done.
Qed.

Lemma elems_lt_irrefl ws : elems_lt ws ws = false.
Proof. induction ws as [|w ws IH]; [done|]. cbn [elems_lt]. by rewrite bool_decide_eq_true_2. Qed.

(** In-memory: the paths are exactly the printed names of the stored entries of
    the package with absolute names, each with its info, and no two entries
    print alike.

    Full claim: every stored entry of the current package.  An entry can also
    be stored under the empty name; see the refutation. *)
Theorem C53_mem_partial parse m g :
  reachable parse m -> parse (m_here m) (B"/") = Some (Path g (B"/")) ->
  exists paths, dump_mem parse m = Ok (DumpDoc (B"*mem.Pkger") (m_here m) paths) /\
    (forall q d, paths !! q = Some d <->
       exists n, entry_at m (Path g n) d /\ is_rooted n = true /\ q = path_string (Path g n)) /\
    (forall n n', is_rooted n = true -> is_rooted n' = true -> path_string (Path g n) = path_string (Path g n') -> n = n').
Proof.
  intros Hr Hp. pose proof (reachable_wf _ _ Hr) as Hw.
  destruct (listing m (Path g (B"/")) Hw eq_refl) as [HS Hl].
  set (l := entries m (Path g (B"/")) (sorted_keys m)) in *.
  exists (put_all (shown <$> l) ∅). split; [|split].
  - unfold dump_mem. rewrite (walk_visit parse _ m (B"/") _ _ Hw Hp eq_refl). cbn zeta. fold l.
    by rewrite visit_dump.
  - intros q d. rewrite put_all_elem; [|..].
    + rewrite lookup_empty, elem_of_list_fmap. split.
      * intros [([[g' n] d'] & E & Hin)|H]; [|done]. apply Hl in Hin as (He & Hg & Hpre). cbn [p_pkg p_name] in *. subst g'.
        injection E as -> ->. exists n. split; [done|]. split; [|done].
        apply has_prefix_spec in Hpre as [t ->]. done.
      * intros (n & He & Hn & ->). left. exists (Path g n, d). split; [done|]. apply Hl. split; [done|]. split; [done|].
        cbn [p_name]. destruct n as [|c n]; [done|]. cbn in Hn. apply ascii_eqb_spec in Hn as ->. by apply has_prefix_spec; exists n.
    + rewrite <- list_fmap_compose. clear -HS. induction HS as [|x l HS IH HF]; [constructor|].
      cbn. apply NoDup_cons. split; [|done]. intros Hin. apply elem_of_list_fmap in Hin as (y & E & Hin).
      rewrite Forall_forall in HF. specialize (HF _ Hin). cbn in E. rewrite E in HF. by rewrite blt_irrefl in HF.
    + intros x _. apply lookup_empty.
  - intros n n' H1 H2 E. eapply path_string_inj_pkg; [..|exact E]; by intros ->.
Qed.

(** An entry with an empty name: the module directory spelled with its package
    (depends on the recalled resolver).  Dump leaves it out. *)
Theorem C53_refuted :
  exists m, reachable here_parse m /\
    d_isdir <$> (f_info <$> file_at m (Path (B"app") [])) = Some false /\
    match dump_mem here_parse m with
    | Ok d => map_to_list (d_isdir <$> dd_paths d) = [(B"app:/", true)]
    | Err _ => False
    end.
Proof.
  exists (after [OMkdirAll (B"/") 493; OCreate (B"app:/src/app")]).
  split; [apply reachable_run, reach_new|]. by vm_compute.
Qed.

Example C53_ex :
  match dump_mem here_parse tree_ex with
  | Ok d => (map (fun q => d_isdir <$> dd_paths d !! q)
      [B"app:/"; B"app:/foo"; B"app:/foo/a"; B"app:/foo/sub"; B"app:/foo/sub/b"; B"app:/zoo"; B"/foo"]) =
      [Some true; Some true; Some false; Some true; Some false; Some false; None]
      /\ size (dd_paths d) = 6
  | Err _ => False
  end.
Proof. by vm_compute. Qed.

(** On disk: one path per file and directory of the module. *)
Theorem C53_std_partial (parse : resolver) hp fs s s1 g her ds n :
  wf_node fs -> g <> [] -> ds <> [] -> Forall good_elem ds ->
  parse (so_here s) (B"/") = Some (Path g (B"/")) ->
  std_info hp s g = (s1, Ok her) -> h_dir her = abs_name ds ->
  get fs ds = Some n -> all_open n ->
  (forall vs c, get fs (ds ++ vs) = Some c ->
     backslash ∉ abs_name vs /\
     exists n, parse (so_here s) (g ++ colon :: abs_name (ds ++ vs)) = Some (Path g n)) ->
  exists paths, dump_std parse hp fs s = Ok (DumpDoc (B"*stdos.Pkger") (so_here s) paths) /\
    (forall q d, paths !! q = Some d <->
       exists vs c, get fs (ds ++ vs) = Some c /\ q = g ++ colon :: abs_name vs /\ d = info_of (base (abs_name (ds ++ vs))) c) /\
    (forall vs vs', Forall good_elem vs -> Forall good_elem vs' -> g ++ colon :: abs_name vs = g ++ colon :: abs_name vs' -> vs = vs').
Proof.
  intros Hwf Hg0 Hd0 Hds Hp Hi Hd Hn Hop Hpre.
  set (F := (fun (q : bytes) (d : option details) (e : option gerr) (x : gmap bytes details) =>
    match e, d with
    | Some e, _ => (x, Some e)
    | None, Some d => dump_fn (g ++ colon :: abs_name (drop (length ds) (clean_elems q))) d x
    | None, None => (x, None)
    end) : wfunc (gmap bytes details)).
  assert (HF : renames ds g dump_fn F).
  { split; [|done]. intros vs d x Hvs. unfold F. rewrite clean_elems_abs by (by apply Forall_app). by rewrite drop_app. }
  destruct (wf_get _ _ _ Hwf Hn) as [Hwn _].
  pose proof (visited_is_visit (fun _ => false) n Hwn) as [HS Hv].
  set (key := fun x : list bytes * node => (g ++ colon :: abs_name x.1, info_of (base (abs_name (ds ++ x.1))) x.2)).
  set (l := visited (fun _ => false) [] n) in *.
  assert (Hinj : forall vs vs', Forall good_elem vs -> Forall good_elem vs' ->
      g ++ colon :: abs_name vs = g ++ colon :: abs_name vs' -> vs = vs').
  { intros vs vs' H1 H2 E. apply app_inv_head in E. apply abs_name_inj; [done..|congruence]. }
  exists (put_all (key <$> l) ∅). split; [|split; [|done]].
  - unfold dump_std. change (B"/") with (abs_name []) in Hp at 2.
    rewrite (C51_walk_partial parse hp fs s s1 (B"/") g her ds [] dump_fn F ∅) by (try done; by rewrite ?app_nil_r).
    rewrite app_nil_r.
    set (step := fun (x : list bytes * node) (m : gmap bytes details) =>
      <[g ++ colon :: abs_name (drop (length ds) x.1) := info_of (base (abs_name x.1)) x.2]> m).
    destruct (walk_disk_steps fs F (fun _ => True) (fun _ => false) step ds n ∅) as [E _]; try done.
    { intros vs c Hc m _. split; [|done]. unfold F, skip_err, step. cbn [fst snd andb].
      destruct (wf_get _ _ _ Hwn Hc) as [_ Hvs]. rewrite clean_elems_abs by (by apply Forall_app). done. }
    rewrite E. cbn [fst snd]. destruct (info_stays _ _ _ _ _ Hi) as [-> _]. f_equal. f_equal.
    pose proof (visited_shift ds [] n) as Hs. rewrite app_nil_r in Hs. rewrite Hs. fold l. unfold run_steps, put_all.
    generalize (∅ : gmap bytes details) as m. generalize l. clear. induction l as [|[vs c] l IH]; intros m; [done|].
    cbn [map fold_left foldl fmap list_fmap]. rewrite IH. do 2 f_equal. unfold step, key. cbn [fst snd]. by rewrite drop_app.
  - intros q d. rewrite put_all_elem; [|..].
    + rewrite lookup_empty, elem_of_list_fmap. split.
      * intros [([vs c] & E & Hin)|H]; [|done]. apply Hv in Hin as [Hc _]. exists vs, c.
        rewrite get_app, Hn. split; [done|]. by injection E as -> ->.
      * intros (vs & c & Hc & -> & ->). left. exists (vs, c). split; [done|]. apply Hv. rewrite get_app, Hn in Hc.
        split; [done|]. by intros (? & ? & _ & _ & ?).
    + rewrite <- list_fmap_compose. assert (Hgood : forall x, x ∈ l -> Forall good_elem x.1).
      { intros [vs c] Hin. apply Hv in Hin as [Hc _]. by destruct (wf_get _ _ _ Hwn Hc). }
      clear -HS Hgood Hinj. induction HS as [|x l HS IH HF]; [constructor|].
      cbn. apply NoDup_cons. split.
      * intros Hin. apply elem_of_list_fmap in Hin as (y & E & Hin).
        rewrite Forall_forall in HF. specialize (HF _ Hin). cbn in E.
        apply Hinj in E; [|apply Hgood; by left|apply Hgood; by right]. rewrite E in HF. by rewrite elems_lt_irrefl in HF.
      * apply IH. intros y Hy. apply Hgood. by right.
    + intros x _. apply lookup_empty.
Qed.

Example C53_std_ex :
  match dump_std here_parse no_hp (std_app [(B"a", NDir std_meta [(B"x", NFile std_meta (B"1"))])]) (std_new her_ex) with
  | Ok d => map_to_list (d_size <$> dd_paths d) ≡ₚ [(B"app:/", 4096%Z); (B"app:/a", 4096%Z); (B"app:/a/x", 1%Z)]
  | Err _ => False
  end.
Proof. apply (bool_decide_unpack _). by vm_compute. Qed.
