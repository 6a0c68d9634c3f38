(** Theorems: symbolic links (C132, C133). *)
From Verif Require Import Bytes GoPath Here GoTypes Mem MemSpec MemBase WalkSpec JsonStr JsonText Embed Marshal PropsEmbed PropsMarshal
  MemWalk Disk Decls DeclsProofs PropsParser Pack PropsPack GoQuote Source SourceProofs PropsSource ParserDirs Project PropsProject Links LinksProofs.

Lemma abs_name_ne ws : abs_name ws <> [].
Proof. by destruct ws. Qed.

(** *** C132: a symbolic link is packed as the file it leads to *)

(** What the two pkgers answer for [name] is the same, but that one shows the
    details of a link's own entry. *)
Definition seen_alike (parse : resolver) (l : lnode) (lst : list pfile) (c : hinfo) (m m' : mem) (name : bytes) : Prop :=
  match seen parse m name, seen parse m' name with
  | None, None => True
  | Some (x, a), Some (y, b) =>
      a = b /\
      (x = y \/
       exists ws i t j d, left_behind lst ws /\ Forall good_elem ws /\ parse c name = parse c (abs_name ws) /\ lget l ws = Some (LLink i t) /\
         l_at true l (abs_name ws) = Some (LFile j d) /\
         x = link_info ws i t /\
         y = Details (base (abs_name ws)) (Z.of_nat (length d)) (n_mode j) (n_mtime j) false (n_sys j))
  | _, _ => False
  end.

Lemma alike_seen parse l lst c m m' name : mem_alike parse l c (left_behind lst) m m' -> seen_alike parse l lst c m m' name.
Proof.
  intros (H0 & H1 & _ & H3 & H4 & H5). unfold seen_alike, seen, open, mem_parse, file_at. rewrite H0, H1, H3.
  destruct (parse c name) as [pt|] eqn:Ep; [|done]. destruct (m_files m' !! pt) as [r|] eqn:Er; [|done].
  destruct (H5 pt r Er) as [_ HF]. cbn [mbind option_bind].
  destruct (m_heap m !! r) as [x|], (m_heap m' !! r) as [y|]; [|inversion HF|inversion HF|exact I].
  inversion HF as [x0 y0 [Hi Hx] Ex Ey|Ex Ey]; subst. unfold alloc. cbn [m_heap]. rewrite !lookup_insert.
  cbn [fmap option_fmap option_map f_info f_data]. rewrite !new_file_info_id. split; [exact (f_equal f_data Hx)|].
  destruct Hi as [->|(ws & i & t & j & d & HQ & Hg & Hp & H)]; [by left|]. right. exists ws, i, t, j, d.
  do 2 (split; [done|]). split; [congruence|]. done.
Qed.

Local Instance pf_le_trans : Transitive pf_le.
Proof. intros a b c. unfold pf_le. apply ble_trans. Qed.
Local Instance pf_le_total : Total pf_le.
Proof. intros a b. unfold pf_le. apply ble_total. Qed.

Section C132.
  Context (parse : resolver) (hdir hpkg : bytes -> res hinfo).

  (** The full statement: packing a disk with links gives what packing the
      same disk gives when each link is replaced by a copy of the file it leads
      to.  What is missing are the details: those of a link inside a packed
      directory are the link's own unless the link is listed as well, after the
      directory. *)
  Theorem C132_partial l fs order c ds :
    copied l fs -> some_order order -> clean_names ds ->
    l_files parse hdir l order ds = files parse hdir fs order ds /\
    match l_stuffed parse hdir hpkg l order c ds, stuffed parse hdir hpkg fs order c ds with
    | Ok m, Ok m' => forall lst, files parse hdir fs order ds = Ok lst -> forall name, seen_alike parse l lst c m m' name
    | Err e, Err e' => e = e'
    | _, _ => False
    end.
  Proof.
    intros Hcp Ho Hds. pose proof (l_files_same parse hdir l fs Hcp order ds) as E. split; [done|].
    unfold l_stuffed, stuffed. rewrite E. destruct (files parse hdir fs order ds) as [lst|e] eqn:El; [|done].
    pose proof (l_stuff_loop_same parse hdir hpkg l fs Hcp c lst [] (mem_new c) (mem_new c)) as H.
    specialize (H (files_named parse hdir fs (proj2 (proj2 Hcp)) order ds lst Ho Hds El)).
    assert (Hn : mem_alike parse l c (left_behind []) (mem_new c) (mem_new c)).
    { do 5 (split; [done|]). intros pt r Hr. cbn in Hr. by rewrite lookup_empty in Hr. }
    specialize (H Hn). cbn [app] in H.
    destruct (l_stuff_loop parse hdir hpkg l (mem_new c) lst) as [m|], (stuff_loop parse hdir hpkg fs (mem_new c) lst) as [m'|]; try done.
    intros lst' [= <-] name. by apply alike_seen.
  Qed.

  (** If everything listed is in one module and every link that is packed is
      listed itself, under a name that does not end in .tmp, nobody can tell. *)
  Theorem C132_same_partial l fs order c ds lst rs mp m :
    copied l fs -> some_order order -> clean_names ds ->
    files parse hdir fs order ds = Ok lst ->
    (forall pf, pf ∈ lst -> exists vs, pf_abs pf = abs_name (rs ++ vs) /\ pf_path pf = Path mp (abs_name vs) /\ Forall good_elem (rs ++ vs)) ->
    (forall ws i t, lget l ws = Some (LLink i t) -> (exists pf ns us, pf ∈ lst /\ pf_abs pf = abs_name ns /\ ws = ns ++ us) ->
      exists pf, pf ∈ lst /\ pf_abs pf = abs_name ws /\ has_suffix (abs_name ws) (B".tmp") = false) ->
    l_stuffed parse hdir hpkg l order c ds = Ok m ->
    exists m', stuffed parse hdir hpkg fs order c ds = Ok m' /\ forall name, seen parse m name = seen parse m' name.
  Proof.
    intros Hcp Ho Hds Hl Hone Hlinks Hm. destruct (C132_partial l fs order c ds Hcp Ho Hds) as [_ H].
    rewrite Hm in H. destruct (stuffed parse hdir hpkg fs order c ds) as [m'|]; [|done]. exists m'. split; [done|].
    intros name. specialize (H lst Hl name). unfold seen_alike in H.
    destruct (seen parse m name) as [[x a]|], (seen parse m' name) as [[y b]|]; try done. destruct H as [-> H].
    destruct H as [->|(ws & i & t & j & d & Hleft & Hgood & _ & Hlk & _)]; [done|]. exfalso.
    assert (Hsort : StronglySorted pf_le lst).
    { unfold files in Hl. destruct (collect _ _ _ _ _ _) as [mm|]; [|done]. injection Hl as <-.
      apply (StronglySorted_merge_sort pf_le). }
    destruct Hleft as (l1 & pf & l2 & ns & us & -> & Hpf & Hus & -> & Hl2).
    destruct (Hlinks _ _ _ Hlk) as (qf & Hq & Eq & Ht).
    { exists pf, ns, us. split; [|done]. apply elem_of_app. right. left. }
    destruct (Hone pf) as (pv & Ep1 & Ep2 & Gp); [apply elem_of_app; right; left|].
    destruct (Hone qf Hq) as (qv & Eq1 & Eq2 & Gq).
    assert (Ens : ns ++ us = rs ++ qv).
    { apply (f_equal clean_elems) in Eq1 as E1. rewrite Eq, !clean_elems_abs in E1 by done. done. }
    apply Forall_app in Hgood as [Gns Gus]. rewrite Hpf in Ep1. apply (f_equal clean_elems) in Ep1. rewrite !clean_elems_abs in Ep1 by done.
    subst ns. rewrite <- app_assoc in Ens. apply app_inv_head in Ens as <-.
    apply elem_of_app in Hq as [Hq|Hq]; [|apply elem_of_cons in Hq as [->|Hq]].
    - apply elem_of_list_split in Hq as (k1 & k2 & ->). rewrite <- app_assoc in Hsort. cbn [app] in Hsort.
      assert (Hle : pf_le qf pf).
      { clear -Hsort. induction k1 as [|k k1 IH]; cbn [app] in Hsort; apply StronglySorted_inv in Hsort as [H1 H2]; [|by apply IH].
        rewrite Forall_forall in H2. apply H2, elem_of_app. right. left. }
      unfold pf_le in Hle. rewrite Ep2, Eq2 in Hle. apply Forall_app in Gp as [_ Gp]. apply Forall_app in Gq as [_ Gq].
      assert (E : path_string (Path mp (abs_name (pv ++ us))) = path_string (Path mp (abs_name pv))).
      { apply ble_antisym; [done|]. rewrite key_le_pkg by apply abs_name_ne. apply ble_prefix, abs_name_prefix. }
      apply path_string_inj_pkg in E; [|apply abs_name_ne..]. apply (f_equal clean_elems) in E. rewrite !clean_elems_abs in E by done.
      apply Hus. by apply (app_inv_head pv); rewrite app_nil_r.
    - rewrite Hpf in Eq. apply (f_equal clean_elems) in Eq. rewrite !clean_elems_abs in Eq by (done || by rewrite <- app_assoc).
      apply Hus. by apply (app_inv_head (rs ++ pv)); rewrite app_nil_r.
    - apply (Hl2 qf Hq); [by rewrite Eq|done].
  Qed.

  (** Packing succeeds only if every link that is listed, or below what is
      listed, leads to a regular file that can be read: a link to a directory
      or to nothing makes it fail. *)
  Theorem C132_needs l order c ds lst m :
    wf_node (bare l) -> n_isdir (bare l) = true -> (forall p, hpkg p <> Err ESkipDir) ->
    l_files parse hdir l order ds = Ok lst -> l_stuffed parse hdir hpkg l order c ds = Ok m ->
    forall pf ws us i t n, pf ∈ lst -> pf_abs pf = abs_name ws -> Forall good_elem ws ->
      has_suffix (pf_abs pf) (B".tmp") = false ->
      l_at false l (abs_name ws) = Some n -> lget n us = Some (LLink i t) ->
      exists j d, l_at true l (abs_name (ws ++ us)) = Some (LFile j d) /\ n_ok j = true.
  Proof.
    intros Hwf Hd Hs Hl Hm pf ws us i t n Hin E Hws Ht Hn Hu. unfold l_stuffed in Hm. rewrite Hl in Hm.
    by eapply (l_stuff_loop_ok parse hdir hpkg l Hwf Hd Hs).
  Qed.

  (** Without links both disks are the same. *)
  Lemma without_copy l n : forall ws, copy_of l ws (without_links n) n.
  Proof.
    induction n as [i d|i cs IH] using node_ind'; intros ws; [apply copy_file|]. cbn [without_links]. apply copy_dir.
    induction IH as [|x cs Hx _ IHc]; [constructor|]. constructor; [|exact IHc]. split; [done|]. apply Hx.
  Qed.

  Theorem C132_none fs order c ds :
    wf_node fs -> n_isdir fs = true -> some_order order -> clean_names ds ->
    match l_stuffed parse hdir hpkg (without_links fs) order c ds, stuffed parse hdir hpkg fs order c ds with
    | Ok m, Ok m' => forall name, seen parse m name = seen parse m' name
    | Err e, Err e' => e = e'
    | _, _ => False
    end.
  Proof.
    intros Hwf Hd Ho Hds.
    destruct (C132_partial (without_links fs) fs order c ds) as [_ H]; [by split; [apply without_copy|]|done|done|].
    unfold stuffed in *. destruct (files parse hdir fs order ds) as [lst|e]; [|done].
    destruct (l_stuffed _ _ _ _ _ _ _) as [m|], (stuff_loop _ _ _ _ _ _) as [m'|]; try done.
    intros name. specialize (H lst eq_refl name). unfold seen_alike in H.
    destruct (seen parse m name) as [[x a]|], (seen parse m' name) as [[y b]|]; try done. destruct H as [-> [->|H]]; [done|].
    destruct H as (ws & i & t & j & d & _ & _ & _ & Hl & _). exfalso. clear -Hl. revert fs Hl.
    induction ws as [|w ws IH]; intros fs Hl; [by destruct fs|]. destruct fs as [|k cs]; [done|]. cbn [without_links lget] in Hl.
    induction cs as [|[v c] cs IHc]; cbn [map lchild] in Hl; [done|]. case_bool_decide; [by eapply IH|by apply IHc].
  Qed.
End C132.

(** The witnesses: the module in /src/app, which holds links. *)
Definition lnk_meta : meta := Meta 134218239 (GoTime 1600000007 0 0) 0 JNull true.
Definition lnk_app (cs : list (bytes * lnode)) : lnode :=
  LDir wit_meta [(B"etc", LDir wit_meta [(B"motd", LFile wit_meta (B"welcome"))]); (B"src", LDir wit_meta [(B"app", LDir wit_meta cs)])].

Definition l_packs (l : lnode) (ds : list decl) (P : mem -> Prop) : Prop :=
  forall gz gunzip, (forall x, gunzip (gz x) = Ok x) ->
    exists b m', l_stuff here_parse wit_hdir wit_hdir l gz any_range (fun l => l) her_ex ds = Ok b /\
      unmarshal_embed gunzip here_parse (fun l => l) b = Marshal.Done m' /\ P m'.

Lemma l_packs_intro l ds (P : mem -> Prop) :
  match l_stuffed here_parse wit_hdir wit_hdir l (fun l => l) her_ex ds with
  | Ok m => match remake m with Marshal.Done m' => P m' | _ => False end
  | Err _ => False
  end -> l_packs l ds P.
Proof.
  intros H gz gunzip Hz. unfold l_stuff. destruct (l_stuffed _ _ _ _ _ _ _) as [m|]; [|done].
  destruct (remake m) as [m'| |] eqn:E; [|done..]. eexists _, m'. split; [reflexivity|]. split; [|done].
  unfold unmarshal_embed. rewrite C28_round_trip by done. exact E.
Qed.

(** A disk and the same disk with copies for the links. *)
Definition lnk_copy (cs : list (bytes * node)) : node :=
  NDir wit_meta [(B"etc", NDir wit_meta [(B"motd", NFile wit_meta (B"welcome"))]); (B"src", NDir wit_meta [(B"app", NDir wit_meta cs)])].
Ltac copy_tac :=
  cbn [fst snd];
  first
    [ apply copy_file
    | apply copy_link; by vm_compute
    | apply copy_dir; repeat (apply List.Forall2_cons; [split; [done|copy_tac]|]); apply List.Forall2_nil ].
Ltac copied_tac := split; [copy_tac|split; [done|wf_tac]].

(** A link in a packed directory: the bytes are the file's, the details the
    link's. *)
Theorem C132_refuted :
  exists l fs ds, copied l fs /\ Forall scanned ds /\
    (exists x, os_stat fs (B"/src/app/pub/b.tmp") = Ok x /\ l_stat l (B"/src/app/pub/b.tmp") = Ok x /\ d_size x = 5%Z /\ d_mode x = 420%N) /\
    l_packs l ds (fun m' => match seen here_parse m' (B"/pub/b.tmp") with
      | Some (x, data) => data = B"hello" /\ d_size x = 8%Z /\ d_mode x = 134218239%N
      | None => False
      end).
Proof.
  exists (lnk_app [(B"a.txt", LFile wit_meta (B"hello")); (B"pub", LDir wit_meta [(B"b.tmp", LLink lnk_meta (B"../a.txt"))])]),
    (lnk_copy [(B"a.txt", NFile wit_meta (B"hello")); (B"pub", NDir wit_meta [(B"b.tmp", NFile wit_meta (B"hello"))])]),
    [wit_decl KWalk (B"/pub") [B"pub"]].
  split; [copied_tac|]. split; [apply List.Forall_cons; [split; by vm_compute|apply List.Forall_nil]|].
  split; [by eexists|]. apply l_packs_intro. by vm_compute.
Qed.

(** A link to a directory that exists and can be read: whether it is in a
    packed directory or opened itself, packing fails. *)
Theorem C132_directory_refuted :
  exists l, wf_node (bare l) /\ (exists i cs, l_open l (B"/src/app/pub/img") = Ok (LDir i cs) /\ cs <> []) /\
    forall gz rg d, d ∈ [wit_decl KWalk (B"/pub") [B"pub"]; wit_decl KOpen (B"/pub/img") [B"pub"; B"img"]; wit_decl KStat (B"/pub/img") [B"pub"; B"img"]] ->
      l_stuff here_parse wit_hdir wit_hdir l gz rg (fun l => l) her_ex [d] = Err (EPath (B"read") (B"/src/app/pub/img")).
Proof.
  exists (lnk_app [(B"img", LDir wit_meta [(B"b.png", LFile wit_meta (B"PNG"))]); (B"pub", LDir wit_meta [(B"img", LLink lnk_meta (B"../img"))])]).
  split; [wf_tac|]. split; [eexists _, _; split; [by vm_compute|done]|]. intros gz rg d Hd.
  repeat (apply elem_of_cons in Hd as [->|Hd]; [unfold l_stuff; by vm_compute|]). inversion Hd.
Qed.

(** A link that leads out of the module and is itself listed: nobody can tell
    it from a copy. *)
Definition lnk_ex : lnode :=
  lnk_app [(B"pub", LDir wit_meta [(B"day.txt", LLink lnk_meta (B"/etc/motd")); (B"two.txt", LLink lnk_meta (B"./x/../day.txt")); (B"x", LDir wit_meta [])])].
Definition lnk_ex_copy : node :=
  lnk_copy [(B"pub", NDir wit_meta [(B"day.txt", NFile wit_meta (B"welcome")); (B"two.txt", NFile wit_meta (B"welcome")); (B"x", NDir wit_meta [])])].
Example C132_ex :
  copied lnk_ex lnk_ex_copy /\ clean_names [wit_decl KWalk (B"/pub") [B"pub"]] /\
  listing here_parse wit_hdir lnk_ex_copy (fun l => l) [wit_decl KWalk (B"/pub") [B"pub"]] =
    Ok [B"/src/app/pub"; B"/src/app/pub/day.txt"; B"/src/app/pub/two.txt"; B"/src/app/pub/x"] /\
  l_packs lnk_ex [wit_decl KWalk (B"/pub") [B"pub"]] (fun m' => match seen here_parse m' (B"/pub/two.txt") with
      | Some (x, data) => data = B"welcome" /\ d_size x = 7%Z /\ d_mode x = 420%N
      | None => False
      end).
Proof.
  split; [copied_tac|]. split.
  { intros d Hd _. apply elem_of_list_singleton in Hd as ->. exists (wit_rs ++ [B"pub"]). split; [good_elems|done]. }
  split; [by vm_compute|]. apply l_packs_intro. by vm_compute.
Qed.

(** *** C133: scanning a module with symbolic links *)

Section C133.
  Context (parse : resolver) (hdir hpkg : bytes -> res hinfo).
  Context (gosrc : bytes -> bytes -> res source) (dorder : list (bytes * source) -> list (bytes * source)).

  (** The full statement: a module with links is scanned as the same module in
      which each link is replaced by what it leads to.  Proved for links to
      regular files. *)
  Theorem C133_partial l fs fuel her incs :
    copied l fs -> clean (h_dir her) = h_dir her ->
    l_parse_project parse hdir hpkg l gosrc dorder fuel her incs = parse_project parse hdir hpkg fs gosrc dorder fuel her incs.
  Proof. intros. by apply l_parse_project_same. Qed.

  (** A link that ends in .go and leads nowhere (an editor's lock file) in the
      module's directory makes the whole scan fail. *)
  Theorem C133_lock l fuel her incs ws i cs w j t :
    Forall good_elem ws -> h_dir her = abs_name ws -> ignored (abs_name ws) = false ->
    lget l ws = Some (LDir i cs) -> Forall (fun x => good_elem x.1) cs ->
    (w, LLink j t) ∈ cs -> has_suffix w (B".go") = true -> l_at true l (abs_name (ws ++ [w])) = None ->
    exists e, l_parse_project parse hdir hpkg l gosrc dorder fuel her incs = Err e.
  Proof.
    intros Hws Hh Hi Hg Hcs Hin Hgo Hn.
    assert (Hat : forall fl, l_at fl l (abs_name ws) = Some (LDir i cs)).
    { intros fl. unfold l_at. rewrite is_rooted_abs, clean_elems_abs by done.
      pose proof (walk_to_through max_links fl l ws [] Hws []) as H. rewrite app_nil_r in H. rewrite H; [exact Hg|].
      intros v1 v2 -> Hv1. cbn [app]. destruct v2 as [|v v2]; [rewrite app_nil_r in Hg; by eexists _, _|].
      by eapply lget_prefix_dir. }
    unfold l_parse_project, l_parse_all. destruct (parse_includes parse hpkg her incs) as [ds|e]; [|by exists e].
    rewrite Hh. unfold l_stat. rewrite Hat. cbn [d_isdir info_of bare].
    assert (Hscan : exists e, l_scan_dir parse hdir hpkg l gosrc dorder fuel (abs_name ws) = Err e).
    { unfold l_scan_dir, l_parse_dir, l_stat, l_open. rewrite Hat. cbn [d_isdir info_of bare n_meta].
      destruct (hdir (abs_name ws)) as [h|e]; [|by exists e]. destruct (parse h _) as [pt|]; [|by eexists].
      destruct (n_ok i); [|by eexists].
      assert (Hgf : exists e, l_go_files l gosrc (abs_name ws) cs = Err e).
      { clear Hg Hat. induction cs as [|[v c] cs IH]; [inversion Hin|]. apply Forall_cons in Hcs as [Hv Hcs]. cbn [fst] in Hv.
        cbn [l_go_files]. apply elem_of_cons in Hin as [[= <- <-]|Hin].
        - rewrite Hgo. cbn [bare n_isdir negb andb]. unfold l_go_file, l_open. rewrite join2_name by done. rewrite Hn. by eexists.
        - destruct (IH Hcs Hin) as [e He]. rewrite He. destruct (_ && _); [|by exists e]. destruct (l_go_file _ _ _) as [s|e']; by eexists. }
      destruct Hgf as [e ->]. by exists e. }
    destruct Hscan as [e He]. unfold l_walk. rewrite Hat. cbn [bare fwalk].
    destruct (n_ok i).
    - unfold parse_fn at 1. cbn [d_isdir info_of]. rewrite Hi, He. cbn [fst snd]. rewrite bool_decide_eq_false_2 by done. by eexists.
    - cbn [parse_fn]. rewrite bool_decide_eq_false_2 by done. by eexists.
  Qed.
End C133.

(** A module whose directory is reached through a link: os.Stat finds a
    directory, the walk sees a link, and no call is found. *)
Definition lnk_proj : list (bytes * lnode) := [(B"a.txt", LFile wit_meta (B"hello")); (B"main.go", LFile wit_meta (B"main"))].
Theorem C133_refuted :
  exists l her, h_dir her = B"/app" /\ wf_node (bare l) /\
    l_open l (h_dir her) = Ok (LDir wit_meta lnk_proj) /\ l_open l (h_dir her_ex) = Ok (LDir wit_meta lnk_proj) /\
    (exists ds, l_parse_project here_parse wit_hdir wit_hdir l proj_src (fun l => l) 8 her_ex [] = Ok ds /\ length ds = 2%nat) /\
    l_parse_project here_parse (fun _ => Ok her) (fun _ => Ok her) l proj_src (fun l => l) 8 her [] = Ok [].
Proof.
  exists (LDir wit_meta [(B"app", LLink lnk_meta (B"src/app")); (B"src", LDir wit_meta [(B"app", LDir wit_meta lnk_proj)])]),
    (HInfo (B"/app") (B"app") (B"main") (B"app") true (B"/app") (B"/app/go.mod") (B"1.13")).
  split; [done|]. split; [wf_tac|]. split; [by vm_compute|]. split; [by vm_compute|]. split; [|by vm_compute].
  eexists. split; [vm_compute; reflexivity|done].
Qed.

(** A link to a directory of Go files inside the module is not scanned, while
    the directory itself would be. *)
Theorem C133_directory_refuted :
  exists l l', wf_node (bare l) /\ wf_node (bare l') /\
    (exists i cs, l_open l (B"/src/app/sub") = Ok (LDir i cs) /\ l_open l' (B"/src/app/sub") = Ok (LDir i cs)) /\
    (exists d, l_parse_project here_parse wit_hdir wit_hdir l' proj_src (fun l => l) 8 her_ex [] = Ok [d]) /\
    l_parse_project here_parse wit_hdir wit_hdir l proj_src (fun l => l) 8 her_ex [] = Ok [].
Proof.
  exists (LDir wit_meta [(B"lib", LDir wit_meta [(B"s.go", LFile wit_meta (B"sub"))]);
      (B"src", LDir wit_meta [(B"app", LDir wit_meta [(B"sub", LLink lnk_meta (B"../../lib"))])])]),
    (LDir wit_meta [(B"src", LDir wit_meta [(B"app", LDir wit_meta [(B"sub", LDir wit_meta [(B"s.go", LFile wit_meta (B"sub"))])])])]).
  split; [wf_tac|]. split; [wf_tac|]. split; [eexists _, _; split; by vm_compute|]. split; [|by vm_compute].
  eexists. vm_compute. reflexivity.
Qed.

(** A module whose main.go is a link to a file elsewhere is scanned; with a
    lock file beside it it is not. *)
Example C133_ex :
  let l cs := LDir wit_meta [(B"main.txt", LFile wit_meta (B"main"));
    (B"src", LDir wit_meta [(B"app", LDir wit_meta (cs ++ [(B"main.go", LLink lnk_meta (B"../../main.txt"))]))])] in
  copied (l []) (NDir wit_meta [(B"main.txt", NFile wit_meta (B"main"));
    (B"src", NDir wit_meta [(B"app", NDir wit_meta [(B"main.go", NFile wit_meta (B"main"))])])]) /\
  (exists ds, l_parse_project here_parse wit_hdir wit_hdir (l []) proj_src (fun l => l) 8 her_ex [] = Ok ds /\ length ds = 2%nat) /\
  l_at true (l [(B".#main.go", LLink lnk_meta (B"me@host.1234"))]) (B"/src/app/.#main.go") = None /\
  exists e, l_parse_project here_parse wit_hdir wit_hdir (l [(B".#main.go", LLink lnk_meta (B"me@host.1234"))]) proj_src (fun l => l) 8 her_ex [] = Err e.
Proof.
  split; [copied_tac|]. split; [eexists; split; [vm_compute; reflexivity|done]|]. split; [by vm_compute|].
  eexists. vm_compute. reflexivity.
Qed.
