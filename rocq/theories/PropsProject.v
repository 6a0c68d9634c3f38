(** Theorems: a module from its sources to the packed program (C78-C80). *)
From Verif Require Import Bytes GoPath Here GoTypes Mem MemSpec MemBase MemFiles WalkSpec MemWalk Disk Decls DeclsProofs
  PropsParser JsonStr GoQuote Source SourceProofs ParserDirs PropsSource Project.
From Verif Require Import JsonText Embed Marshal MarshalMem PropsEmbed PropsMarshal Pack PropsPack.

Section Found.
  Local Notation Done := Source.Done.
  Context (parse : resolver) (hdir hpkg : bytes -> res hinfo) (fs : node).
  Context (gosrc : bytes -> bytes -> res source).

  (** *** C78 *)

  (** The declarations found in a module are those of the includes and of the
      pkger calls in the .go files of the directories not ignored. *)
  Theorem C78_found_partial dorder her incs rs n ds0 :
    (forall l, dorder l ≡ₚ l) -> wf_node fs -> Forall good_elem rs -> get fs rs = Some n -> n_isdir n = true ->
    h_dir her = abs_name rs ->
    scannable parse hdir hpkg gosrc rs n -> parse_includes parse hpkg her incs = Ok ds0 ->
    exists F, forall fuel, F <= fuel -> exists ds,
      parse_project parse hdir hpkg fs gosrc dorder fuel her incs = Ok ds /\ virtual_first ds /\
      forall d, d ∈ ds <-> included parse hpkg her incs d \/ declared parse hdir hpkg gosrc rs n d.
  Proof. apply project_spec. Qed.

  (** *** C81 *)

  (** Whatever else is in the module, a declaration found is that of an
      include or of a pkger call in a .go file of a directory not ignored. *)
  Theorem C81_only_declared dorder fuel her incs rs n ds :
    (forall l, dorder l ≡ₚ l) -> wf_node fs -> Forall good_elem rs -> get fs rs = Some n -> h_dir her = abs_name rs ->
    (forall vs w s, source_file gosrc rs n vs w s -> objs_ok (s_objs s) /\ idents_ok (s_ast s)) ->
    parse_project parse hdir hpkg fs gosrc dorder fuel her incs = Ok ds ->
    forall d, d ∈ ds -> included parse hpkg her incs d \/ declared parse hdir hpkg gosrc rs n d.
  Proof.
    intros Ho Hwf Hrs Hg Hh Hid E d Hd.
    destruct (project_inv parse hdir hpkg fs gosrc dorder fuel her incs rs n ds Ho Hwf Hrs Hg Hh E) as (H & _).
    destruct (H d Hd) as [?|(vs & w & s & ds' & Hs & Em & Hd')]; [by left|right].
    destruct (Hid vs w s Hs) as [Hob Hi]. unfold decls_map in Em.
    destruct (scan parse hdir hpkg (s_objs s) fuel (abs_name (rs ++ vs ++ [w])) (s_ast s) ([], None)) as [[ds1 e]| |] eqn:Es; [|done..].
    injection Em as ->. destruct (scan_sound _ _ _ _ _ _ _ Hob Hi _ _ Es d Hd') as [Hn|(c & Hc & Hdc)]; [inversion Hn|].
    exists vs, w, s, c. done.
  Qed.

  (** *** C82 *)

  (** A .go file that cannot be read or parsed, in a directory that is not
      ignored, stops the scan with an error. *)
  Theorem C82_unreadable_source dorder fuel her incs rs n vs w i text :
    (forall l, dorder l ≡ₚ l) -> wf_node fs -> Forall good_elem rs -> get fs rs = Some n -> h_dir her = abs_name rs ->
    scanned_dir rs n vs -> has_suffix w (B".go") = true -> get n (vs ++ [w]) = Some (NFile i text) ->
    n_ok i = false \/ (forall s, gosrc (abs_name (rs ++ vs ++ [w])) text <> Ok s) ->
    exists e, parse_project parse hdir hpkg fs gosrc dorder fuel her incs = Err e.
  Proof.
    intros Ho Hwf Hrs Hg Hh Hs Hw Hgw Hbad.
    destruct (parse_project parse hdir hpkg fs gosrc dorder fuel her incs) as [ds|e] eqn:E; [|by exists e]. exfalso.
    destruct (project_inv parse hdir hpkg fs gosrc dorder fuel her incs rs n ds Ho Hwf Hrs Hg Hh E) as (_ & _ & H).
    destruct (H vs w i text Hs Hw Hgw) as (s & ds' & (_ & _ & i' & text' & Hg' & Hok & Hsrc) & _).
    rewrite Hgw in Hg'. injection Hg' as <- <-. destruct Hbad as [?|Hbad]; [congruence|]. by eapply Hbad.
  Qed.

  (** If the scan succeeds, every include and every declaration made from such
      a file is in the result. *)
  Theorem C82_nothing_lost dorder fuel her incs rs n ds :
    (forall l, dorder l ≡ₚ l) -> wf_node fs -> Forall good_elem rs -> get fs rs = Some n -> h_dir her = abs_name rs ->
    parse_project parse hdir hpkg fs gosrc dorder fuel her incs = Ok ds ->
    (forall inc d, inc ∈ incs -> new_include parse hpkg her inc = Ok d -> d ∈ ds) /\
    forall vs w i text, scanned_dir rs n vs -> has_suffix w (B".go") = true -> get n (vs ++ [w]) = Some (NFile i text) ->
      exists s ds', gosrc (abs_name (rs ++ vs ++ [w])) text = Ok s /\
        decls_map parse hdir hpkg (s_objs s) fuel (abs_name (rs ++ vs ++ [w])) (s_ast s) = Done (ds', None) /\
        forall d, d ∈ ds' -> d ∈ ds.
  Proof.
    intros Ho Hwf Hrs Hg Hh E.
    destruct (project_inv parse hdir hpkg fs gosrc dorder fuel her incs rs n ds Ho Hwf Hrs Hg Hh E) as (_ & H1 & H2). split.
    - intros inc d Hi En. apply H1. by exists inc.
    - intros vs w i text Hs Hw Hgw. destruct (H2 vs w i text Hs Hw Hgw) as (s & ds' & (_ & _ & i' & text' & Hg' & _ & Hsrc) & ?).
      rewrite Hgw in Hg'. injection Hg' as <- <-. by exists s, ds'.
  Qed.
End Found.

Section EndToEnd.
  Context (gz : bytes -> bytes) (gunzip : bytes -> res bytes) (parse : resolver).
  Context (hdir hpkg : bytes -> res hinfo) (fs : node) (gosrc : bytes -> bytes -> res source).
  Context (c : hinfo) (rs : list bytes) (mp : bytes) (incs : list bytes).

  (** cmds/pack.go:47-90 up to the writing of the file: parser.Parse and then
      pkger.Stuff. *)
  Definition pack_project (fuel : nat) dorder order rg : res bytes :=
    match parse_project parse hdir hpkg fs gosrc dorder fuel c incs with
    | Err e => Err e
    | Ok ds => stuff parse hdir hpkg fs gz rg order c ds
    end.

  (** A declaration of the module. *)
  Definition project_decl (n : node) (d : decl) : Prop :=
    included parse hpkg c incs d \/ declared parse hdir hpkg gosrc rs n d.

  (** A module that can be scanned, with every packed declaration inside the
      module's own directory under the module's name. *)
  Record project (n : node) : Prop := {
    pr_get : get fs rs = Some n;
    pr_dir : n_isdir n = true;
    pr_here : h_dir c = abs_name rs;
    pr_scan : scannable parse hdir hpkg gosrc rs n;
    pr_incs : forall inc, inc ∈ incs -> exists d, new_include parse hpkg c inc = Ok d;
    pr_decls : forall d, project_decl n d -> is_virtual d = false ->
      exists ns, placed d rs ns /\ pf_path (d_file d) = Path mp (abs_name ns) /\
        forall x, get fs (rs ++ ns) = Some x -> flat parse hdir d rs ns x;
    pr_names : forall h ws x pt, (exists q, hdir q = Ok h) \/ (exists d, project_decl n d /\ h = pf_here (d_file d)) ->
      h_mdir h = abs_name rs -> get fs (rs ++ ws) = Some x ->
      parse h (rel_name ws) = Some pt -> pt = Path mp (abs_name ws);
    pr_echo : get fs (rs ++ rs) = None;
    pr_values : forall d ws, project_decl n d -> is_virtual d = false -> d_value d <> abs_name (rs ++ ws)
  }.

  Lemma includes_ok n : project n -> exists ds0, parse_includes parse hpkg c incs = Ok ds0.
  Proof.
    intros Hp. pose proof (pr_incs _ Hp) as H. clear Hp. induction incs as [|i l IH]; [by exists []|].
    cbn [parse_includes]. destruct (H i ltac:(by left)) as [d ->].
    destruct IH as [ds ->]; [|by eexists]. intros j Hj. apply H. by right.
  Qed.

  Lemma project_found n dorder :
    wf_node fs -> Forall good_elem rs -> project n -> (forall l, dorder l ≡ₚ l) ->
    exists F, forall fuel, F <= fuel -> exists ds,
      parse_project parse hdir hpkg fs gosrc dorder fuel c incs = Ok ds /\ virtual_first ds /\
      (forall d, d ∈ ds <-> project_decl n d) /\ modular parse hdir fs ds /\ echo_free fs ds.
  Proof.
    intros Hwf Hrs Hp Ho. destruct (includes_ok n Hp) as [ds0 Hi].
    destruct (C78_found_partial parse hdir hpkg fs gosrc dorder c incs rs n ds0 Ho Hwf Hrs) as [F HF];
      [apply Hp|apply Hp|apply Hp|apply Hp|done|].
    exists F. intros fuel Hf. destruct (HF fuel Hf) as (ds & E & Hv & Hds). exists ds. split; [done|]. split; [done|].
    split; [exact Hds|].
    assert (Hpl : forall d, d ∈ ds -> is_virtual d = false -> exists ns, placed d rs ns /\
      forall x, get fs (rs ++ ns) = Some x -> flat parse hdir d rs ns x).
    { intros d Hd Hvd. apply Hds in Hd. destruct (pr_decls _ Hp d Hd Hvd) as (ns & ? & _ & ?). by exists ns. }
    split.
    - intros d Hd Hvd. destruct (Hpl d Hd Hvd) as (ns & ? & ?). by exists rs, ns.
    - apply (echo_free_one fs rs ds); [done|apply Hp|]. intros d Hd Hvd. split.
      + destruct (Hpl d Hd Hvd) as (ns & ? & _). by exists ns.
      + intros ws. apply (pr_values _ Hp); [|done]. by apply Hds.
  Qed.

  (** *** C79 *)

  (** A file named by a pkger call in the sources, or below a directory so
      named, and not created by the program, is served by the packed program
      with its contents and details on disk. *)
  Theorem C79_calls_served_partial n dorder order rg uorder :
    packing gz gunzip parse hdir hpkg fs c rs mp rg uorder -> some_order order -> (forall l, dorder l ≡ₚ l) ->
    project n ->
    exists F, forall fuel b, F <= fuel -> pack_project fuel dorder order rg = Ok b ->
      exists m', unmarshal_embed gunzip parse uorder b = Done m' /\
        forall vs w s k args a rest text val ns us i data,
          source_file gosrc rs n vs w s -> (k, args) ∈ all_calls (s_ast s) -> k <> KCreate -> k <> KMkdirAll ->
          args = a :: rest -> text_of (s_objs s) a text -> unquote text = Some val ->
          (forall h, hdir (abs_name (rs ++ vs)) = Ok h -> parse h val = Some (Path mp (abs_name ns))) ->
          Forall good_elem ns -> get fs (rs ++ ns ++ us) = Some (NFile i data) ->
          has_suffix (abs_name (rs ++ ns ++ us)) (B".tmp") = false ->
          (forall d, project_decl n d -> is_virtual d = true -> d_value d <> val /\
             forall v1 v2, us = v1 ++ v2 -> d_value d <> rel_name (ns ++ v1)) ->
          serves parse fs c rs mp m' (ns ++ us) data.
  Proof.
    intros Hpk Ho Hdo Hp. pose proof (pg_wf _ _ _ _ _ _ _ _ _ _ _ Hpk) as Hwf.
    pose proof (ad_rs _ _ _ _ _ (pg_addr _ _ _ _ _ _ _ _ _ _ _ Hpk)) as Hrs.
    destruct (project_found n dorder Hwf Hrs Hp Hdo) as [F HF]. exists F. intros fuel b Hf Hb.
    destruct (HF fuel Hf) as (ds & E & Hvf & Hds & Hmod & Hecho). unfold pack_project in Hb. rewrite E in Hb.
    destruct (C39_declared_partial gz gunzip parse hdir hpkg fs c rs mp rg uorder order ds b) as (m' & Hu & H); try done.
    { intros d Hd Hv. apply Hds in Hd. destruct (pr_decls _ Hp d Hd Hv) as (ns & ? & _). by exists ns. }
    exists m'. split; [done|]. intros vs w s k args a rest text val ns us i data Hs Hc Hk1 Hk2 -> Ht Hq Hpa Hns Hg Htmp Hvirt.
    destruct (sc_calls _ _ _ _ _ _ (pr_scan _ Hp) vs w s (k, a :: rest) Hs Hc) as [d Hd].
    assert (Hpd : project_decl n d). { right. exists vs, w, s, (k, a :: rest). done. }
    pose proof Hd as (Ek & (a' & rest' & text' & Ea & Ht' & Hq') & info & home & Hi & Hpt & Eh & Hhome & Eabs).
    cbn [fst snd] in Ek, Ea. injection Ea as <- <-.
    rewrite (text_of_det _ _ _ _ Ht Ht') in Hq. assert (val = d_value d) as -> by congruence.
    assert (Hv : is_virtual d = false). { unfold is_virtual. rewrite Ek. by destruct k. }
    destruct (pr_decls _ Hp d Hpd Hv) as (ns' & Hpl & Epath & Hflat).
    pose proof Hs as ((( cd & Hcd & Hdir) & _) & _ & i' & t' & Hgs & _ & _).
    assert (Hdn : dirname (abs_name (rs ++ vs ++ [w])) = abs_name (rs ++ vs)).
    { assert (Hgood : Forall good_elem (rs ++ vs ++ [w])).
      { apply (wf_get fs (rs ++ vs ++ [w]) (NFile i' t')); [done|]. by rewrite get_app, (pr_get _ Hp). }
      rewrite !Forall_app in Hgood. destruct Hgood as (? & ? & Hw). apply Forall_cons in Hw as [? _].
      rewrite app_assoc, dirname_snoc; [done|by apply Forall_app|done]. }
    rewrite Hdn in Hi. rewrite (Hpa info Hi), Epath in Hpt. injection Hpt as Hn.
    assert (ns = ns') as <-. { apply abs_name_inj; [done|apply Hpl|]. unfold abs_name. by f_equal. }
    assert (Hgood : Forall good_elem (rs ++ ns ++ us)). { eapply wf_get; [exact Hwf|exact Hg]. }
    apply (H d (ns ++ us) i data); [by apply Hds| |by apply Forall_app in Hgood as [_ ?]|done|done].
    split; [done|]. split.
    { intros [_ (x & Hx & Hxv & Ex)]. apply Hds in Hx. destruct (Hvirt x Hx Hxv) as [Hne _]. done. }
    destruct (get fs (rs ++ ns)) as [x|] eqn:Ex; [|by rewrite app_assoc, get_app, Ex in Hg].
    assert (Hgx : get x us = Some (NFile i data)) by (by rewrite app_assoc, get_app, Ex in Hg).
    exists rs, ns, x. split; [done|]. split; [done|].
    destruct (decide ((k = KWalk) \/ n_isdir x = true)) as [Hkw|Hkw].
    - right. split; [rewrite Ek; destruct Hkw as [-> |]; auto|]. exists us, (NFile i data). split; [done|]. split; [done|].
      intros v1 v2 Ev (y & Hy & Hyv & Ey). apply Hds in Hy. destruct (Hvirt y Hy Hyv) as [_ Hne]. by eapply Hne.
    - left. apply Decidable.not_or in Hkw as [Hkw Hxd]. split; [by rewrite Ek|].
      destruct x as [ix dx|]; [|done]. split; [done|]. destruct us as [|u us]; [by rewrite app_nil_r|done].
  Qed.

  (** *** C80 *)

  Lemma stuff_loop_abs m l l' : pf_abs <$> l = pf_abs <$> l' ->
    stuff_loop parse hdir hpkg fs m l = stuff_loop parse hdir hpkg fs m l'.
  Proof.
    revert m l'. induction l as [|f l IH]; intros m [|f' l'] E; try done.
    cbn in E. injection E as E1 E2. cbn [stuff_loop]. rewrite E1, (IH m l' E2).
    destruct (has_suffix _ _); [done|]. destruct (os_open fs _); [|done]. destruct (add _ _ _ _ _ _ _) as [m1 [e|]]; [done|].
    by apply IH.
  Qed.

  (** The package of a listed file is the declaration's or that of a
      directory. *)
  Lemma walked_here virt d l f :
    wf_node fs -> (exists ws, Forall good_elem ws /\ decl_root d = abs_name ws) ->
    walk_files parse hdir fs virt d = Ok l -> f ∈ l ->
    pf_here f = pf_here (d_file d) \/ exists q, hdir q = Ok (pf_here f).
  Proof.
    intros Hwf (us & Hus & Er). unfold walk_files. rewrite Er.
    set (A := fun h => h = pf_here (d_file d) \/ exists q, hdir q = Ok h).
    pose proof (walk_disk_inv fs (walk_decl_fn parse hdir virt)
      (fun st => A st.1 /\ Forall (fun f => A (pf_here f)) st.2) (abs_name us) (pf_here (d_file d), []) Hwf eq_refl) as H.
    destruct (walk_disk fs (abs_name us) (walk_decl_fn parse hdir virt) (pf_here (d_file d), [])) as [st [e|]]; [done|].
    intros [= <-] Hf. destruct H as [_ H]; [| |by apply clean_abs|split; [by left|constructor]|].
    - intros [e|]; cbn; (split; [by left|constructor]).
    - intros ws c0 e [h fl] _ [Hh Hfl]. cbn [fst snd] in *. unfold walk_decl_fn. destruct e as [e|]; [done|].
      assert (Ha : forall h', (if d_isdir (info_of (base (abs_name (clean_elems (abs_name us) ++ ws))) c0)
        then hdir (abs_name (clean_elems (abs_name us) ++ ws)) else Ok h) = Ok h' -> A h').
      { intros h'. destruct (d_isdir _); [intros E; right; eauto|by intros [= <-]]. }
      destruct (if d_isdir _ then _ else _) as [h'|]; [|done]. specialize (Ha h' eq_refl).
      destruct (parse h' _) as [pt|]; [|done]. case_bool_decide; [done|]. cbn [fst snd]. split; [done|].
      apply Forall_app. split; [done|]. by constructor.
    - rewrite Forall_forall in H. by apply H.
  Qed.

  (** Every listed file has its name in the module. *)
  Lemma canonical_files n order ds l :
    wf_node fs -> project n -> some_order order -> (forall d, d ∈ ds -> project_decl n d) ->
    files parse hdir fs order ds = Ok l ->
    Forall (fun f => exists ws, Forall good_elem ws /\ pf_abs f = abs_name (rs ++ ws) /\ pf_path f = Path mp (abs_name ws)) l.
  Proof.
    intros Hwf Hp Ho Hds H. destruct (files_inv parse hdir fs order ds l Ho H) as (m & E & Hpm & Hk).
    apply Forall_forall. intros f Hf. apply (files_elem l m f Hpm Hk) in Hf.
    set (P := fun f => exists ws, Forall good_elem ws /\ pf_abs f = abs_name (rs ++ ws) /\ pf_path f = Path mp (abs_name ws)).
    change (P f).
    edestruct (collect_from parse hdir fs ∅ ∅ ds m (fun d f => P f)) as [Hn|(d & Hd & Hv & Hown)];
      [|exact E|exact Hf|by rewrite lookup_empty in Hn|done].
    intros d v l' g Hd Hv Hl Hg. destruct (pr_decls _ Hp d (Hds d Hd) Hv) as (ns & Hpl & Epath & Hflat).
    assert (Hw : walk_files parse hdir fs v d = Ok l' -> P g).
    { intros Hw. destruct (get fs (rs ++ ns)) as [x|] eqn:Hgn.
      - destruct (walk_files_flat parse hdir fs d rs ns x v Hwf Hpl Hgn (Hflat x eq_refl)) as (l2 & E2 & _ & Ha).
        rewrite Hw in E2. injection E2 as <-. rewrite Forall_forall in Ha.
        destruct (Ha g Hg) as (vs & y & Hc & Eg & [Edir _] & Ep).
        assert (Hgc : get fs (rs ++ ns ++ vs) = Some y) by (by rewrite app_assoc, get_app, Hgn).
        destruct (wf_get _ _ _ Hwf Hgc) as [_ Hgood]. apply Forall_app in Hgood as [_ Hgood].
        exists (ns ++ vs). split; [done|]. split; [done|]. eapply (pr_names _ Hp); [|done|exact Hgc|done].
        assert (Hroot : exists ws, Forall good_elem ws /\ decl_root d = abs_name ws).
        { exists (rs ++ ns). split; [apply Forall_app; split; apply Hpl|]. by apply placed_root. }
        destruct (walked_here v d l' g Hwf Hroot Hw Hg) as [Eh|[q Hq]]; [right; exists d; auto|left; by exists q].
      - unfold walk_files, walk_disk in Hw. rewrite (placed_root _ _ _ Hpl), find_abs, Hgn in Hw; [done|].
        apply Forall_app; split; apply Hpl. }
    assert (Hop : open_files parse hdir fs v d = Ok l' -> P g).
    { unfold open_files. case_bool_decide; [intros [= <-]; inversion Hg|].
      destruct (os_stat fs (decl_root d)) as [info|] eqn:Es; [|done]. destruct (d_isdir info); [done|].
      intros [= <-]. apply elem_of_list_singleton in Hg. subst g. exists ns. split; [apply Hpl|]. split; [apply Hpl|done]. }
    unfold decl_files in Hl. destruct (dk d); auto.
  Qed.

  Lemma listed_alike n order order' ds ds' :
    wf_node fs -> Forall good_elem rs -> project n -> some_order order -> some_order order' ->
    (forall d, d ∈ ds <-> project_decl n d) -> (forall d, d ∈ ds' <-> project_decl n d) ->
    virtual_first ds -> virtual_first ds' -> modular parse hdir fs ds -> echo_free fs ds ->
    modular parse hdir fs ds' -> echo_free fs ds' ->
    match files parse hdir fs order ds, files parse hdir fs order' ds' with
    | Ok l, Ok l' => pf_abs <$> l = pf_abs <$> l'
    | Err _, Err _ => True
    | _, _ => False
    end.
  Proof.
    intros Hwf Hrs Hp Ho Ho' Hds Hds' Hv Hv' Hm He Hm' He'.
    pose proof (C34_complete_partial parse hdir fs order ds Hwf Ho Hv Hm He) as H.
    pose proof (C34_complete_partial parse hdir fs order' ds' Hwf Ho' Hv' Hm' He') as H'. unfold listing in H, H'.
    assert (Hvn : forall k, virtual_names ds k <-> virtual_names ds' k).
    { intros k. unfold virtual_names. setoid_rewrite Hds. by setoid_rewrite Hds'. }
    assert (Hex : forall d, exempt ds d <-> exempt ds' d).
    { intros d. unfold exempt. by rewrite Hvn. }
    assert (Hre : forall a, (exists d, d ∈ ds /\ reaches fs ds d a) <-> (exists d, d ∈ ds' /\ reaches fs ds' d a)).
    { intros a. unfold reaches. setoid_rewrite Hds. setoid_rewrite Hds'. setoid_rewrite Hex. by setoid_rewrite Hvn. }
    assert (Hmi : (exists d, d ∈ ds /\ missing fs ds d) <-> (exists d, d ∈ ds' /\ missing fs ds' d)).
    { unfold missing. setoid_rewrite Hds. setoid_rewrite Hds'. by setoid_rewrite Hex. }
    destruct (files parse hdir fs order ds) as [l|] eqn:E, (files parse hdir fs order' ds') as [l'|] eqn:E'; try done.
    - pose proof (canonical_files n order ds l Hwf Hp Ho (fun d Hd => proj1 (Hds d) Hd) E) as Hc.
      pose proof (canonical_files n order' ds' l' Hwf Hp Ho' (fun d Hd => proj1 (Hds' d) Hd) E') as Hc'.
      assert (Hscan : forall xs, modular parse hdir fs xs -> forall d, d ∈ xs -> is_virtual d = false -> scanned d).
      { intros xs Hx d Hd Hvd. destruct (Hx d Hd Hvd) as (r & ns & Hpl & _). split.
        - rewrite (pl_dir _ _ _ Hpl). done.
        - rewrite (placed_root _ _ _ Hpl). apply Hpl. }
      destruct (C33_listed_once_sorted_existing parse hdir fs order ds l Hwf Ho (Hscan ds Hm) E) as (Hnd & Hso & _).
      destruct (C33_listed_once_sorted_existing parse hdir fs order' ds' l' Hwf Ho' (Hscan ds' Hm') E') as (Hnd' & Hso' & _).
      assert (Hperm : pf_abs <$> l ≡ₚ pf_abs <$> l').
      { apply NoDup_Permutation; [done|done|]. intros a. rewrite (proj1 H), (proj1 H'). apply Hre. }
      clear H H' E E' Hnd Hnd'.
      (* both are determined by the names within the module *)
      assert (Hws : forall l, Forall (fun f => exists ws, Forall good_elem ws /\ pf_abs f = abs_name (rs ++ ws) /\ pf_path f = Path mp (abs_name ws)) l ->
        exists wss, Forall (Forall good_elem) wss /\ pf_abs <$> l = (fun ws => abs_name (rs ++ ws)) <$> wss /\
          pf_path <$> l = (fun ws => Path mp (abs_name ws)) <$> wss).
      { clear. induction 1 as [|f l (ws & H1 & H2 & H3) _ (wss & IH1 & IH2 & IH3)]; [by exists []|].
        exists (ws :: wss). cbn. rewrite H2, H3, IH2, IH3. split; [by constructor|done]. }
      destruct (Hws l Hc) as (wss & G & A & P). destruct (Hws l' Hc') as (wss' & G' & A' & P').
      assert (Hpw : wss ≡ₚ wss').
      { rewrite A, A' in Hperm.
        assert (Hinj : forall xs ys : list (list bytes), Forall (Forall good_elem) xs -> Forall (Forall good_elem) ys ->
          (fun ws => abs_name (rs ++ ws)) <$> xs ≡ₚ (fun ws => abs_name (rs ++ ws)) <$> ys -> xs ≡ₚ ys).
        { clear -Hrs. intros xs. induction xs as [|x xs IH]; intros ys Gx Gy Hpm.
          - cbn in Hpm. apply Permutation_nil in Hpm. by destruct ys.
          - apply Forall_cons in Gx as [Gx Gxs].
            assert (Hin : abs_name (rs ++ x) ∈ (fun ws => abs_name (rs ++ ws)) <$> ys).
            { rewrite <- Hpm. cbn. by left. }
            apply elem_of_list_fmap in Hin as (y & Ey & Hy). assert (Gy' := Gy). rewrite Forall_forall in Gy'.
            assert (y = x) as ->.
            { apply abs_name_inj in Ey; [by apply app_inv_head in Ey|by apply Forall_app|].
              apply Forall_app. split; [done|by apply Gy']. }
            apply elem_of_Permutation in Hy as [zs Hz]. rewrite Hz. constructor. apply IH; [done| |].
            + rewrite Hz in Gy. by apply Forall_cons in Gy as [_ ?].
            + rewrite Hz in Hpm. cbn in Hpm. by apply Permutation_cons_inv in Hpm. }
        by apply Hinj. }
      rewrite A, A'.
      assert (Hkeys : (fun ws => path_string (Path mp (abs_name ws))) <$> wss = (fun ws => path_string (Path mp (abs_name ws))) <$> wss').
      { assert (Hk : forall l wss, pf_path <$> l = (fun ws => Path mp (abs_name ws)) <$> wss ->
          StronglySorted (fun a b => ble (path_string (pf_path a)) (path_string (pf_path b)) = true) l ->
          StronglySorted (fun a b => ble a b = true) ((fun ws => path_string (Path mp (abs_name ws))) <$> wss)).
        { clear. intros l wss E Hs. revert wss E. induction Hs as [|f l Hs IH HF]; intros [|ws wss] E; try done; cbn; [constructor|].
          cbn in E. injection E as E1 E2. constructor; [by apply IH|].
          apply Forall_fmap. apply Forall_forall. intros w Hw. cbn.
          assert (Hin : Path mp (abs_name w) ∈ pf_path <$> l) by (rewrite E2; apply elem_of_list_fmap; by exists w).
          apply elem_of_list_fmap in Hin as (g & Eg & Hgl). rewrite Forall_forall in HF. specialize (HF g Hgl).
          rewrite E1, <- Eg in HF. exact HF. }
        assert (Hanti : AntiSymm eq (fun a b : bytes => ble a b = true)) by (intros a b; apply ble_antisym).
        apply (StronglySorted_unique (fun a b => ble a b = true)).
        - by apply (Hk l).
        - by apply (Hk l').
        - by rewrite Hpw. }
      assert (wss = wss') as ->; [|done]. clear -Hkeys G G'. revert wss' G' Hkeys.
      induction wss as [|w wss IH]; intros [|w' wss'] G' E; try done. cbn in E. injection E as E1 E2.
      apply Forall_cons in G as [Gw G]. apply Forall_cons in G' as [Gw' G']. f_equal; [|by apply IH].
      apply (path_string_inj_pkg mp) in E1; [|done..]. by apply abs_name_inj.
    - destruct H as [_ H]. apply H. by apply Hmi.
    - destruct H' as [_ H']. apply H'. by apply Hmi.
  Qed.

  (** Whatever the orders in which Go's maps are iterated, packing the same
      module gives the same bytes, or fails each time. *)
  Theorem C80_reproducible_partial n dorder order rg dorder' order' rg' uorder :
    packing gz gunzip parse hdir hpkg fs c rs mp rg uorder -> some_range rg' ->
    some_order order -> some_order order' -> (forall l, dorder l ≡ₚ l) -> (forall l, dorder' l ≡ₚ l) ->
    project n ->
    exists F, forall fuel fuel', F <= fuel -> F <= fuel' ->
      match pack_project fuel dorder order rg, pack_project fuel' dorder' order' rg' with
      | Ok b, Ok b' => b = b'
      | Err _, Err _ => True
      | _, _ => False
      end.
  Proof.
    intros Hpk Hrg' Ho Ho' Hd Hd' Hp. pose proof (pg_wf _ _ _ _ _ _ _ _ _ _ _ Hpk) as Hwf.
    pose proof (ad_rs _ _ _ _ _ (pg_addr _ _ _ _ _ _ _ _ _ _ _ Hpk)) as Hrs.
    destruct (project_found n dorder Hwf Hrs Hp Hd) as [F HF].
    destruct (project_found n dorder' Hwf Hrs Hp Hd') as [F' HF'].
    exists (F `max` F'). intros fuel fuel' Hf Hf'.
    destruct (HF fuel ltac:(lia)) as (ds & E & Hvf & Hds & Hmod & Hecho).
    destruct (HF' fuel' ltac:(lia)) as (ds' & E' & Hvf' & Hds' & Hmod' & Hecho').
    unfold pack_project. rewrite E, E'. unfold stuff, stuffed.
    pose proof (listed_alike n order order' ds ds' Hwf Hrs Hp Ho Ho' Hds Hds' Hvf Hvf' Hmod Hecho Hmod' Hecho') as H.
    destruct (files parse hdir fs order ds) as [l|] eqn:El, (files parse hdir fs order' ds') as [l'|]; try done.
    rewrite (stuff_loop_abs (mem_new c) l l' H). destruct (stuff_loop parse hdir hpkg fs (mem_new c) l') as [m|] eqn:Em; [|done].
    f_equal. pose proof (canonical_files n order ds l Hwf Hp Ho (fun d Hd => proj1 (Hds d) Hd) El) as Hc.
    assert (Hin : inside rs l).
    { eapply Forall_impl; [exact Hc|]. intros f (ws & ? & ? & _). by exists ws. }
    rewrite <- (stuff_loop_abs (mem_new c) l l' H) in Em.
    pose proof (stuff_loop_packed parse hdir hpkg fs c rs mp Hwf (pg_addr _ _ _ _ _ _ _ _ _ _ _ Hpk)
      (pg_skip _ _ _ _ _ _ _ _ _ _ _ Hpk) l (mem_new c) (fun _ => False) m (packed_new _ _ _ _ _ _) Hin Em) as Hm.
    pose proof (packed_marshalable _ _ _ _ _ _ _ (pg_addr _ _ _ _ _ _ _ _ _ _ _ Hpk) m _ (pg_write _ _ _ _ _ _ _ _ _ _ _ Hpk) Hm) as Hma.
    pose proof (pk_wf _ _ _ _ _ _ _ _ Hm) as Hw.
    destruct (pg_range _ _ _ _ _ _ _ _ _ _ _ Hpk m). destruct (Hrg' m).
    symmetry. apply same_marshal; try done. by eapply marshalable_distinct.
  Qed.
End EndToEnd.

(** ** A module *)

(** /src/app: main.go calls pkger.Walk("/img") and pkger.Open("/a.txt"),
    sub/s.go calls pkger.Stat("/img/b.png"), vendor/bad.go cannot be parsed. *)
Definition proj_app : node := NDir wit_meta [(B"a.txt", NFile wit_meta (B"hello"));
  (B"img", NDir wit_meta [(B"b.png", NFile wit_meta (B"PNG"))]);
  (B"main.go", NFile wit_meta (B"main"));
  (B"sub", NDir wit_meta [(B"s.go", NFile wit_meta (B"sub"))]);
  (B"vendor", NDir wit_meta [(B"bad.go", NFile wit_meta (B"bad"))])].
Definition proj_fs : node := NDir wit_meta [(B"src", NDir wit_meta [(B"app", proj_app)])].
Definition proj_main : ast := AOther [src_call "Walk" [str "/img"; AOther [src_call "Open" [str "/a.txt"]]]].
Definition proj_sub : ast := AOther [src_call "Stat" [str "/img/b.png"]].
Definition proj_src : bytes -> bytes -> res source := fun _ text =>
  if bool_decide (text = B"main") then Ok (Src proj_main no_objs)
  else if bool_decide (text = B"sub") then Ok (Src proj_sub no_objs) else Err EParse.

Lemma proj_wf : wf_node proj_fs.
Proof. wf_tac. Qed.
Lemma proj_app_wf : wf_node proj_app.
Proof. wf_tac. Qed.

Lemma proj_all (P : list bytes -> node -> Prop) :
  Forall (fun x => P x.1 x.2) (nodes proj_app) -> forall ws n, get proj_fs (wit_rs ++ ws) = Some n -> P ws n.
Proof.
  intros H ws n Hg. rewrite get_app in Hg. change (get proj_fs wit_rs) with (Some proj_app) in Hg.
  apply (nodes_forall P proj_app); [apply proj_app_wf|done|done].
Qed.

Lemma proj_packing gz gunzip :
  (forall x, gunzip (gz x) = Ok x) ->
  packing gz gunzip here_parse wit_hdir wit_hdir proj_fs her_ex wit_rs (B"app") any_range (fun l => l).
Proof.
  intros Hz. split; [done|done|done|apply proj_wf| | |done].
  - split; [good_elems| |]; apply proj_all; cbn [nodes visited];
      repeat (apply List.Forall_cons; [by vm_compute|]); apply List.Forall_nil.
  - split; [info_tac|intros p i [= <-]; info_tac|intros p i [= <-]; info_tac| |]; apply proj_all; cbn [nodes visited proj_app];
      repeat (apply List.Forall_cons); try apply List.Forall_nil; cbn [fst snd].
    all: try (split; [split; u8|u8]). all: det_tac.
Qed.

Lemma proj_go vs w i text :
  scanned_dir wit_rs proj_app vs -> has_suffix w (B".go") = true -> get proj_app (vs ++ [w]) = Some (NFile i text) ->
  vs = [] /\ w = B"main.go" /\ text = B"main" \/ vs = [B"sub"] /\ w = B"s.go" /\ text = B"sub".
Proof.
  intros (_ & Hi) Hgo Hg.
  assert (H : vs ++ [w] = [B"main.go"] /\ text = B"main" \/ vs ++ [w] = [B"sub"; B"s.go"] /\ text = B"sub" \/
    exists x, vs = B"vendor" :: x).
  { revert Hgo. pose proof (nodes_forall (fun ws n => forall vs w i text, ws = vs ++ [w] -> n = NFile i text -> has_suffix w (B".go") = true ->
      vs ++ [w] = [B"main.go"] /\ text = B"main" \/ vs ++ [w] = [B"sub"; B"s.go"] /\ text = B"sub" \/
      exists x, vs = B"vendor" :: x) proj_app proj_app_wf) as H. refine (fun Hgo => H _ _ _ Hg vs w i text eq_refl eq_refl Hgo).
    clear. cbn [nodes visited proj_app app].
    repeat (apply List.Forall_cons; [intros vs w i text E1 E2 Hgo; cbn [fst snd] in E1, E2|]); [..|apply List.Forall_nil].
    all: try discriminate E2. all: injection E2 as <- <-.
    - apply (app_inj_tail [] vs (B"a.txt") w) in E1 as [<- <-]. discriminate Hgo.
    - apply (app_inj_tail [B"img"] vs (B"b.png") w) in E1 as [<- <-]. discriminate Hgo.
    - left. by rewrite <- E1.
    - right. left. by rewrite <- E1.
    - right. right. apply (app_inj_tail [B"vendor"] vs (B"bad.go") w) in E1 as [<- <-]. by exists []. }
  destruct H as [[E ->]|[[E ->]|[x ->]]].
  - left. by apply (app_inj_tail vs [] w (B"main.go")) in E as [-> ->].
  - right. by apply (app_inj_tail vs [B"sub"] w (B"s.go")) in E as [-> ->].
  - specialize (Hi [B"vendor"] x eq_refl). vm_compute in Hi. discriminate Hi.
Qed.

Lemma proj_source vs w s :
  source_file proj_src wit_rs proj_app vs w s ->
  vs = [] /\ w = B"main.go" /\ s = Src proj_main no_objs \/ vs = [B"sub"] /\ w = B"s.go" /\ s = Src proj_sub no_objs.
Proof.
  intros (Hd & Hgo & i & text & Hg & _ & Hs).
  destruct (proj_go vs w i text Hd Hgo Hg) as [(-> & -> & ->)|(-> & -> & ->)]; [left|right];
    (split; [done|]; split; [done|]); vm_compute in Hs; by injection Hs as <-.
Qed.

Lemma proj_declares abs k s0 rest ns :
  abs_name ns = list_ascii_of_string s0 -> unquote (plain_lit (list_ascii_of_string s0)) = Some (list_ascii_of_string s0) ->
  here_parse her_ex (list_ascii_of_string s0) = Some (Path (B"app") (abs_name ns)) ->
  join2 (B"/src/app") (abs_name ns) = abs_name (wit_rs ++ ns) ->
  declares here_parse wit_hdir wit_hdir no_objs abs (k, str s0 :: rest) (wit_decl k (list_ascii_of_string s0) ns).
Proof.
  intros E1 E2 E3 E4. split; [done|]. split.
  - eexists _, _, (plain_lit (list_ascii_of_string s0)). split; [reflexivity|]. split; [constructor|done].
  - exists her_ex, her_ex. split_and!; [done|done|done|by left|]. cbn. symmetry. exact E4.
Qed.

Definition proj_incs : list bytes := [B"/a.txt"].
Definition proj_ds : list decl :=
  [wit_decl KInclude (B"/a.txt") [B"a.txt"]; wit_decl KWalk (B"/img") [B"img"]; wit_decl KOpen (B"/a.txt") [B"a.txt"];
   wit_decl KStat (B"/img/b.png") [B"img"; B"b.png"]].

Ltac proj_calls H := unfold all_calls in H; vm_compute calls in H; rewrite ?elem_of_cons, elem_of_nil in H.

Lemma proj_call vs w s k : source_file proj_src wit_rs proj_app vs w s -> k ∈ all_calls (s_ast s) ->
  exists d, d ∈ proj_ds /\ declares here_parse wit_hdir wit_hdir (s_objs s) (abs_name (wit_rs ++ vs ++ [w])) k d.
Proof.
  intros Hs Hk. apply proj_source in Hs as [(-> & -> & ->)|(-> & -> & ->)]; cbn [s_ast s_objs] in *.
  - proj_calls Hk. destruct Hk as [-> |[-> |[]]].
    + exists (wit_decl KWalk (B"/img") [B"img"]). split; [right; left|].
      apply (proj_declares _ KWalk "/img" _ [B"img"]); by vm_compute.
    + exists (wit_decl KOpen (B"/a.txt") [B"a.txt"]). split; [right; right; left|].
      apply (proj_declares _ KOpen "/a.txt" _ [B"a.txt"]); by vm_compute.
  - proj_calls Hk. destruct Hk as [-> |[]].
    exists (wit_decl KStat (B"/img/b.png") [B"img"; B"b.png"]). split; [right; right; right; left|].
    apply (proj_declares _ KStat "/img/b.png" _ [B"img"; B"b.png"]); by vm_compute.
Qed.

Lemma proj_decls d :
  project_decl here_parse wit_hdir wit_hdir proj_src her_ex wit_rs proj_incs proj_app d -> d ∈ proj_ds.
Proof.
  intros [(inc & Hi & E)|(vs & w & s & k & Hs & Hk & Hd)].
  - apply elem_of_list_singleton in Hi. subst inc. vm_compute in E. injection E as <-. left.
  - destruct (proj_call vs w s k Hs Hk) as (d' & Hin & Hd'). by rewrite (declares_det _ _ _ _ _ _ _ _ Hd Hd').
Qed.

Lemma proj_scannable : scannable here_parse wit_hdir wit_hdir proj_src wit_rs proj_app.
Proof.
  split.
  - intros vs Hd. exists her_ex. split; [done|]. destruct Hd as ((c & Hc & _) & _). revert vs c Hc.
    apply (nodes_forall _ proj_app proj_app_wf). cbn [nodes visited proj_app app].
    repeat (apply List.Forall_cons; [vm_compute; by eexists|]). apply List.Forall_nil.
  - intros vs c Hc _. revert vs c Hc. apply (nodes_forall _ proj_app proj_app_wf). cbn [nodes visited proj_app app].
    repeat (apply List.Forall_cons; [done|]). apply List.Forall_nil.
  - intros vs w i text Hd Hgo Hg. destruct (proj_go vs w i text Hd Hgo Hg) as [(-> & -> & ->)|(-> & -> & ->)];
      vm_compute; by eexists.
  - intros vs w s Hs. apply proj_source in Hs as [(-> & -> & ->)|(-> & -> & ->)]; cbn [s_ast s_objs];
      (split; [by intros ?|cbn; repeat split; by vm_compute]).
  - intros vs w s k Hs Hk. destruct (proj_call vs w s k Hs Hk) as (d & _ & ?). eauto.
Qed.

Lemma proj_names ws x : get proj_fs (wit_rs ++ ws) = Some x ->
  here_parse her_ex (rel_name ws) = Some (Path (B"app") (abs_name ws)).
Proof.
  revert ws x. apply proj_all. cbn [nodes visited proj_app app].
  repeat (apply List.Forall_cons; [by vm_compute|]). apply List.Forall_nil.
Qed.

Lemma proj_project : project here_parse wit_hdir wit_hdir proj_fs proj_src her_ex wit_rs (B"app") proj_incs proj_app.
Proof.
  split; [done|done|done|apply proj_scannable| | | |done|].
  - intros inc Hi. apply elem_of_list_singleton in Hi. subst inc. vm_compute. by eexists.
  - intros d Hd _. apply proj_decls in Hd.
    assert (Hw : exists k v ns, d = wit_decl k v ns /\ Forall good_elem ns).
    { unfold proj_ds in Hd. rewrite !elem_of_cons, elem_of_nil in Hd.
      destruct Hd as [-> |[-> |[-> |[-> |[]]]]]; eexists _, _, _; (split; [reflexivity|good_elems]). }
    destruct Hw as (k & v & ns & -> & Hns). exists ns. split; [by apply wit_placed|]. split; [done|].
    intros x Hx.
    assert (Hgh : good_here here_parse wit_rs ns x her_ex).
    { split; [done|]. intros vs c Hc. exists (Path (B"app") (abs_name (ns ++ vs))). apply (proj_names _ c).
      by rewrite app_assoc, get_app, Hx. }
    split; [|done|].
    + intros vs c Hc. assert (Hg : get proj_fs (wit_rs ++ ns ++ vs) = Some c) by (by rewrite app_assoc, get_app, Hx).
      revert Hg. generalize (ns ++ vs). clear. intros ws. revert ws c. apply proj_all. cbn [nodes visited proj_app app].
      repeat (apply List.Forall_cons; [done|]). apply List.Forall_nil.
    + intros vs c _ _. by exists her_ex.
  - intros h ws x pt Hh _ Hg. assert (h = her_ex) as ->.
    { destruct Hh as [[q [= ->]]|(d & Hd & ->)]; [done|]. apply proj_decls in Hd. unfold proj_ds in Hd.
      rewrite !elem_of_cons, elem_of_nil in Hd. by destruct Hd as [-> |[-> |[-> |[-> |[]]]]]. }
    rewrite (proj_names ws x Hg). by intros [= <-].
  - intros d ws Hd _. apply proj_decls in Hd. unfold proj_ds in Hd. rewrite !elem_of_cons, elem_of_nil in Hd.
    destruct Hd as [-> |[-> |[-> |[-> |[]]]]]; cbn [d_value wit_decl]; unfold abs_name; destruct ws; cbn; discriminate.
Qed.

Example C78_ex :
  parse_project here_parse wit_hdir wit_hdir proj_fs proj_src (fun l => rev l) 5 her_ex proj_incs =
    Ok [wit_decl KInclude (B"/a.txt") [B"a.txt"]; wit_decl KStat (B"/img/b.png") [B"img"; B"b.png"];
        wit_decl KOpen (B"/a.txt") [B"a.txt"]; wit_decl KWalk (B"/img") [B"img"]].
Proof. by vm_compute. Qed.

(** pkger.Open(pkger.Include("/a.txt")) in main.go: the scan succeeds, but the
    inner call, whose argument is a constant string, is not found ... *)
Definition lost_main : source := Src (AOther [src_call "Open" [src_call "Include" [str "/a.txt"]]]) no_objs.
Definition lost_src : bytes -> bytes -> res source := fun _ text =>
  if bool_decide (text = B"main") then Ok lost_main
  else if bool_decide (text = B"sub") then Ok (Src proj_sub no_objs) else Err EParse.

Lemma lost_source : source_file lost_src wit_rs proj_app [] (B"main.go") lost_main.
Proof.
  split; [split; [by eexists|]|].
  - intros v1 v2 E. symmetry in E. apply app_nil in E as [-> _]. by vm_compute.
  - split; [by vm_compute|]. exists wit_meta, (B"main"). split; [done|]. split; [done|]. by vm_compute.
Qed.

Theorem C78_refuted :
  exists d, declared here_parse wit_hdir wit_hdir lost_src wit_rs proj_app d /\
    forall fuel, 5 <= fuel -> exists ds,
      parse_project here_parse wit_hdir wit_hdir proj_fs lost_src (fun l => l) fuel her_ex [] = Ok ds /\ d ∉ ds.
Proof.
  exists (wit_decl KInclude (B"/a.txt") [B"a.txt"]). split.
  - exists [], (B"main.go"), lost_main, (KInclude, [str "/a.txt"]). split; [apply lost_source|]. split; [right; left|].
    apply (proj_declares _ KInclude "/a.txt" _ [B"a.txt"]); by vm_compute.
  - intros fuel Hf. exists [wit_decl KStat (B"/img/b.png") [B"img"; B"b.png"]]. split.
    + do 5 (destruct fuel as [|fuel]; [lia|]). by vm_compute.
    + rewrite elem_of_list_singleton. discriminate.
Qed.

(** ... and the file it names is not in the packed program. *)
Theorem C79_refuted gz gunzip : (forall x, gunzip (gz x) = Ok x) ->
  exists vs w s, source_file lost_src wit_rs proj_app vs w s /\ (KInclude, [str "/a.txt"]) ∈ all_calls (s_ast s) /\
    is_Some (get proj_fs (wit_rs ++ [B"a.txt"])) /\
    exists b m', pack_project gz here_parse wit_hdir wit_hdir proj_fs lost_src her_ex [] 5 (fun l => l) (fun l => l) any_range = Ok b /\
      unmarshal_embed gunzip here_parse (fun l => l) b = Done m' /\
      seen here_parse m' (B"/a.txt") = None /\ is_Some (seen here_parse m' (B"/img/b.png")).
Proof.
  intros Hz. exists [], (B"main.go"), lost_main. split; [apply lost_source|]. split; [right; left|].
  split; [eexists; by vm_compute|].
  destruct (packs_intro wit_hdir wit_hdir proj_fs her_ex [wit_decl KStat (B"/img/b.png") [B"img"; B"b.png"]] (fun m' =>
     seen here_parse m' (B"/a.txt") = None /\ is_Some (seen here_parse m' (B"/img/b.png")))) with gz gunzip as (b & m' & Eb & Eu & H);
    [vm_compute; split; [done|by eexists]|done|].
  exists b, m'. split; [|exact (conj Eu H)]. unfold pack_project.
  assert (parse_project here_parse wit_hdir wit_hdir proj_fs lost_src (fun l => l) 5 her_ex [] =
    Ok [wit_decl KStat (B"/img/b.png") [B"img"; B"b.png"]]) as -> by (by vm_compute).
  exact Eb.
Qed.

(** C81 and C82: an unreadable vendor/bad.go does not matter, a bad.go beside
    main.go does. *)
Definition bad_fs : node := wit_app [(B"a.txt", NFile wit_meta (B"hello")); (B"bad.go", NFile wit_meta (B"bad"));
  (B"main.go", NFile wit_meta (B"main"))].
Example C81_ex : forall vs w s, source_file proj_src wit_rs proj_app vs w s -> objs_ok (s_objs s) /\ idents_ok (s_ast s).
Proof. apply proj_scannable. Qed.
Example C82_ex :
  wf_node bad_fs /\
  (exists n, get bad_fs wit_rs = Some n /\ scanned_dir wit_rs n [] /\ get n ([] ++ [B"bad.go"]) = Some (NFile wit_meta (B"bad"))) /\
  (forall s, proj_src (B"/src/app/bad.go") (B"bad") <> Ok s) /\
  exists e, parse_project here_parse wit_hdir wit_hdir bad_fs proj_src (fun l => l) 5 her_ex [] = Err e.
Proof.
  split; [wf_tac|]. split.
  - eexists. split; [reflexivity|]. split; [|reflexivity]. split; [by eexists|].
    intros v1 v2 E. symmetry in E. apply app_nil in E as [-> _]. by vm_compute.
  - split; [by vm_compute|]. vm_compute. by eexists.
Qed.

Example C79_ex gz gunzip : (forall x, gunzip (gz x) = Ok x) ->
  packing gz gunzip here_parse wit_hdir wit_hdir proj_fs her_ex wit_rs (B"app") any_range (fun l => l) /\
  project here_parse wit_hdir wit_hdir proj_fs proj_src her_ex wit_rs (B"app") proj_incs proj_app /\
  exists b m', pack_project gz here_parse wit_hdir wit_hdir proj_fs proj_src her_ex proj_incs 5 (fun l => l) (fun l => l) any_range = Ok b /\
    unmarshal_embed gunzip here_parse (fun l => l) b = Done m' /\
    seen here_parse m' (B"/img/b.png") = Some (Details (B"b.png") 3 420 (GoTime 1600000000 0 0) false JNull, B"PNG") /\
    seen here_parse m' (B"/main.go") = None.
Proof.
  intros Hz. split; [by apply proj_packing|]. split; [apply proj_project|].
  destruct (packs_intro wit_hdir wit_hdir proj_fs her_ex
    [wit_decl KInclude (B"/a.txt") [B"a.txt"]; wit_decl KStat (B"/img/b.png") [B"img"; B"b.png"];
     wit_decl KOpen (B"/a.txt") [B"a.txt"]; wit_decl KWalk (B"/img") [B"img"]] (fun m' =>
     seen here_parse m' (B"/img/b.png") = Some (Details (B"b.png") 3 420 (GoTime 1600000000 0 0) false JNull, B"PNG") /\
     seen here_parse m' (B"/main.go") = None)) with gz gunzip as (b & m' & Eb & Eu & H); [by vm_compute|done|].
  exists b, m'. split; [|exact (conj Eu H)]. unfold pack_project.
  assert (parse_project here_parse wit_hdir wit_hdir proj_fs proj_src (fun l => l) 5 her_ex proj_incs =
    Ok [wit_decl KInclude (B"/a.txt") [B"a.txt"]; wit_decl KStat (B"/img/b.png") [B"img"; B"b.png"];
        wit_decl KOpen (B"/a.txt") [B"a.txt"]; wit_decl KWalk (B"/img") [B"img"]]) as -> by (by vm_compute).
  exact Eb.
Qed.

Definition other_range : ranging := Ranging (fun m => rev (map_to_list (m_files m))) (fun m => map_to_list (m_infos m)).

Example C80_ex :
  let text rg order := match stuffed here_parse wit_hdir wit_hdir proj_fs order her_ex (rev proj_ds) with
    | Ok m => Some (marshal_json m (rg_files rg m) (rg_infos rg m)) | Err _ => None end in
  some_range other_range /\ is_Some (text any_range (fun l => l)) /\
  text any_range (fun l => l) = text other_range (fun l => rev l).
Proof.
  split; [|split; [vm_compute; by eexists|by vm_compute]]. intros m. split; [|done]. symmetry. apply Permutation_rev.
Qed.

(** Without the condition on names the order matters: a.go opens the directory
    cmd, b.go a file in it, naming the package of that directory; which of the
    two is looked at last decides which package the file is stored under. *)
Definition two_src : bytes -> bytes -> res source := fun _ text =>
  if bool_decide (text = B"a") then Ok (Src (AOther [src_call "Open" [str "/cmd"]]) no_objs)
  else Ok (Src (AOther [src_call "Open" [str "app/cmd:/cmd/f.txt"]]) no_objs).
Definition two_pkg : bytes -> res hinfo :=
  fun p => if bool_decide (p = B"app/cmd") then Ok cmd_her else Ok her_ex.
Definition two_fs : node := wit_app [(B"a.go", NFile wit_meta (B"a")); (B"b.go", NFile wit_meta (B"b"));
  (B"cmd", NDir wit_meta [(B"f.txt", NFile wit_meta (B"hi"))])].

Lemma two_stuffed dorder (P : bytes -> Prop) :
  match parse_project here_parse cmd_hdir two_pkg two_fs two_src dorder 5 her_ex [] with
  | Err _ => False
  | Ok ds => match stuffed here_parse cmd_hdir two_pkg two_fs (fun l => l) her_ex ds with
             | Err _ => False
             | Ok m => P (marshal_json m (rg_files any_range m) (rg_infos any_range m))
             end
  end ->
  forall gz, exists t, P t /\
    pack_project gz here_parse cmd_hdir two_pkg two_fs two_src her_ex [] 5 dorder (fun l => l) any_range = Ok (encode gz t).
Proof.
  intros H gz. unfold pack_project, stuff. destruct (parse_project _ _ _ _ _ _ _ _ _) as [ds|]; [|done].
  destruct (stuffed _ _ _ _ _ _ _) as [m|]; [|done]. by eexists.
Qed.

Definition two_text (dorder : list (bytes * source) -> list (bytes * source)) : bytes :=
  match parse_project here_parse cmd_hdir two_pkg two_fs two_src dorder 5 her_ex [] with
  | Err _ => []
  | Ok ds => match stuffed here_parse cmd_hdir two_pkg two_fs (fun l => l) her_ex ds with
             | Err _ => []
             | Ok m => marshal_json m (rg_files any_range m) (rg_infos any_range m)
             end
  end.

Theorem C80_order_refuted gz gunzip : (forall x, gunzip (gz x) = Ok x) ->
  exists fs gosrc hdir hpkg dorder dorder' b b',
    wf_node fs /\ (forall l, dorder l ≡ₚ l) /\ (forall l, dorder' l ≡ₚ l) /\
    pack_project gz here_parse hdir hpkg fs gosrc her_ex [] 5 dorder (fun l => l) any_range = Ok b /\
    pack_project gz here_parse hdir hpkg fs gosrc her_ex [] 5 dorder' (fun l => l) any_range = Ok b' /\ b <> b'.
Proof.
  intros Hz.
  destruct (two_stuffed (fun l => l) (fun t => t = two_text (fun l => l))) with gz as (t & Et & Ep); [by vm_compute|].
  destruct (two_stuffed (fun l => rev l) (fun t => t = two_text (fun l => rev l))) with gz as (t' & Et' & Ep'); [by vm_compute|].
  exists two_fs, two_src, cmd_hdir, two_pkg, (fun l => l), (fun l => rev l), (encode gz t), (encode gz t').
  split; [wf_tac|]. split; [done|]. split; [intros l; symmetry; apply Permutation_rev|].
  split; [exact Ep|]. split; [exact Ep'|]. intros E. apply (f_equal (decode gunzip)) in E.
  rewrite !C28_round_trip in E by done. injection E as E. rewrite Et, Et' in E. clear -E. vm_compute in E. discriminate E.
Qed.
