(** Theorems: MkdirAll, Create, File.Open, spellings of paths
    (C14-C17, C23, C46, C47, C55, C58-C60). *)
From Verif Require Import Bytes GoPath Here GoTypes Mem MemSpec MemBase MemFiles WalkSpec MemDirs MemDirs2 PropsFiles.

(** Keeps large computed states out of proof terms. *)
Lemma pair_snd {A B} (p : A * B) (b : B) : p.2 = b -> p = (p.1, b).
Proof. destruct p. by intros <-. Qed.

(** *** C14 *)

(** Full claim: "Create(name) fails if the parent directory is missing or the
    package is unknown; otherwise name becomes an empty regular file with mode
    0644 and no entry other than name and the root directory is affected.  It
    does not replace a directory and does not create below a regular file."
    Proved: everything but the last sentence, which is refuted. *)
Theorem C14_success_partial parse m name now m' h pt :
  reachable parse m -> create parse now m name = (m', Ok h) ->
  parse (m_here m) name = Some pt ->
  is_Some (m_infos m !! p_pkg pt) /\
  (forall n, parse (m_here m) n = Some pt ->
     seen parse m' n = Some (Details (base name) 0 420 now false JNull, [])) /\
  (forall n q, parse (m_here m) n = Some q -> q <> pt -> ~ mk_target parse (m_here m) (B"/") q ->
     seen parse m' n = seen parse m n).
Proof.
  intros Hr Hc Hp. pose proof (reachable_wf _ _ Hr) as Hw.
  destruct (create_file _ _ _ _ _ _ Hw Hc) as (pt' & her & Hp' & Hi & Hf & Hh & Hw' & _ & Hheap).
  rewrite Hp in Hp'. injection Hp' as <-. split; [by eexists|]. split.
  - intros n Hn. apply (seen_handle parse m' n pt h _ ltac:(by rewrite Hh) Hf Hheap).
  - intros n q Hn Hne Hq. pose proof (frame_create parse now m name Hw) as HF. rewrite Hc in HF.
    eapply seen_frame; [exact HF|done|by intros r []|].
    intros q' Hq'. rewrite Hn in Hq'. injection Hq' as <-. cbn [disturbs].
    rewrite Hp. intros [[=]|?]; [by subst|done].
Qed.

(** Create succeeds exactly when the name resolves, its package is known and
    its parent is the root or is stored (once the root directory has been
    made), and MkdirAll("/") returns. *)
Theorem C14_exact parse m name now m1 :
  m1 = (mkdir_all parse (mk_fuel (B"/")) now m (B"/") 493).1 ->
  (mkdir_all parse (mk_fuel (B"/")) now m (B"/") 493).2 <> Some EFuel ->
  (exists m' h, create parse now m name = (m', Ok h)) <->
  exists pt, parse (m_here m) name = Some pt /\ is_Some (m_infos m !! p_pkg pt) /\
    (dirname (p_name pt) = B"/" \/ exists r, stat parse m1 (dirname (p_name pt)) = Ok r).
Proof.
  intros Hm He. rewrite (create_spec parse now m name m1 Hm He).
  assert (Hi : m_infos m1 = m_infos m) by (rewrite Hm; apply mkdir_infos). rewrite Hi. clear Hm.
  destruct (parse (m_here m) name) as [pt|]; [|split; [intros (?&?&?)|intros (?&?&?)]; done].
  destruct (m_infos m !! p_pkg pt) as [her|] eqn:E.
  - cbv zeta. case_bool_decide as Hd.
    + split; [|by eauto]. intros _. exists pt. rewrite E. eauto.
    + destruct (stat parse m1 (dirname (p_name pt))) as [r|e] eqn:Es.
      * split; [|by eauto]. intros _. exists pt. rewrite E, Es. eauto.
      * split; [by intros (?&?&?)|]. intros (q & [= <-] & _ & [?|[r Hr]]); [done|]. congruence.
  - split; [by intros (?&?&?)|]. intros (q & [= <-] & Hs & _). rewrite E in Hs. by destruct Hs.
Qed.

(** A failing Create affects no entry but the root directory's. *)
Theorem C14_failure parse m name now m' e n q :
  reachable parse m -> create parse now m name = (m', Err e) ->
  parse (m_here m) n = Some q -> ~ mk_target parse (m_here m) (B"/") q ->
  seen parse m' n = seen parse m n.
Proof.
  intros Hr Hc Hn Hq. pose proof (reachable_wf _ _ Hr) as Hw.
  pose proof (frame_mkdir parse (mk_fuel (B"/")) now m (B"/") 493 Hw) as HF.
  assert (Hm' : m' = (mkdir_all parse (mk_fuel (B"/")) now m (B"/") 493).1).
  { unfold create in Hc. destruct (mkdir_all parse (mk_fuel (B"/")) now m (B"/") 493) as [m1 e1].
    case_bool_decide; [by simplify_eq/=|]. destruct (mem_parse parse m1 name); [|by simplify_eq/=].
    destruct (mem_info m1 _); [|by simplify_eq/=].
    destruct (if bool_decide _ then _ else _); by simplify_eq/=. }
  rewrite Hm'. eapply seen_frame; [exact HF|done|by intros r []|].
  intros q' Hq'. rewrite Hn in Hq'. by injection Hq' as <-.
Qed.

(* Concrete success and failures. *)
Example C14_ex :
  let m := after [OMkdirAll (B"/d") 493; OCreate (B"/d/keep"); OWrite 2 (B"x"); OClose 2] in
  let '(m', x) := create here_parse t1 m (B"/d/new") in
  x = Ok 4 /\ seen here_parse m' (B"app:/d/new") = Some (Details (B"new") 0 420 t1 false JNull, []) /\
  seen here_parse m' (B"/d/keep") = Some (Details (B"keep") 1 420 t0 false JNull, B"x") /\
  (create here_parse t1 m (B"/none/new")).2 = Err (EMsg could_not_stat) /\
  (create here_parse t1 m (B"lib:/new")).2 = Err (EMsg no_such_pkg) /\
  (create here_parse t1 m (B"::")).2 = Err EParse.
Proof. by vm_compute. Qed.

(* The side condition about the root directory is met by any other path. *)
Example C14_root_targets q : mk_target here_parse her_ex (B"/") q -> q = Path (B"app") (B"/").
Proof.
  intros H. inversion H as [p pt Hp|p pt q' Hp Hn Hm]; subst; vm_compute in Hp; [by injection Hp as <-|].
  injection Hp as <-. exfalso. by apply Hn.
Qed.

Theorem C14_replaces_directory_refuted :
  exists m name now m' h d d',
    reachable here_parse m /\ seen here_parse m name = Some (d, []) /\ d_isdir d = true /\
    create here_parse now m name = (m', Ok h) /\
    seen here_parse m' name = Some (d', []) /\ d_isdir d' = false.
Proof.
  pose (m := after [OMkdirAll (B"/d") 493; OCreate (B"/d/x")]).
  exists m, (B"/d"), t1, (create here_parse t1 m (B"/d")).1, 4,
    (Details (B"d") 0 493 t0 true JNull), (Details (B"d") 0 420 t1 false JNull).
  split; [apply reachable_run, reach_new|].
  split; [by vm_compute|]. split; [done|]. split; [apply pair_snd; by vm_compute|]. split; by vm_compute.
Qed.

Theorem C14_below_file_refuted :
  exists m name now m' h d,
    reachable here_parse m /\ seen here_parse m name = Some (d, []) /\ d_isdir d = false /\
    create here_parse now m (name ++ B"/child") = (m', Ok h).
Proof.
  pose (m := after [OCreate (B"/f")]).
  exists m, (B"/f"), t1, (create here_parse t1 m (B"/f/child")).1, 3, (Details (B"f") 0 420 t0 false JNull).
  split; [apply reachable_run, reach_new|]. split; [by vm_compute|]. split; [done|].
  apply pair_snd; by vm_compute.
Qed.

(** *** C58 *)

(** Full claim: "A fresh pkger for package p can create files of p."
    Proved when the package is the module's root package; refuted otherwise:
    New records the package under its ImportPath while paths resolve to the
    module's path. *)
Theorem C58_own_package_partial her now w :
  h_import her = h_mpath her -> h_dir her <> B"/" -> plain_elem w ->
  dir_ok her (abs_name [w]) -> is_rooted (h_mpath her) = false ->
  exists m' h, create here_parse now (mem_new her) (abs_name [w]) = (m', Ok h).
Proof.
  intros Hi Hd Hw Hdir Hm.
  eapply C14_exact; [done| |].
  - by apply mkdir_mk_fuel.
  - exists (Path (h_mpath her) (abs_name [w])). split; [|split].
    + apply plain_parse; [by constructor|done|done].
    + unfold mem_new. cbn [m_infos p_pkg]. rewrite Hi, lookup_singleton. by eexists.
    + left. cbn [p_name]. apply (dirname_snoc [] w); [constructor|by destruct Hw].
Qed.

Definition her_cmd : hinfo :=
  HInfo (B"/src/app/cmd") (B"app/cmd") (B"main") (B"app") true (B"/src/app") (B"/src/app/go.mod") (B"1.13").

Theorem C58_own_package_refuted :
  exists her now m', h_import her <> h_mpath her /\
    here_parse her (B"/x") = Some (Path (h_mpath her) (B"/x")) /\
    create here_parse now (mem_new her) (B"/x") = (m', Err (EMsg no_such_pkg)).
Proof.
  exists her_cmd, t0, (create here_parse t0 (mem_new her_cmd) (B"/x")).1.
  split; [done|]. split; [by vm_compute|]. apply pair_snd; by vm_compute.
Qed.

Example C58_ex : exists m' h, create here_parse t0 (mem_new her_ex) (B"/x") = (m', Ok h).
Proof. eexists _, 1. apply pair_snd; by vm_compute. Qed.

(** *** C59 *)

(** Full claim: "The Name() reported for a created file is the last element of
    the path it is stored under."  Proved for plain spellings; refuted when
    the resolver rewrites the text. *)
Theorem C59_created_name_partial m now m' h ws w :
  reachable here_parse m -> Forall plain_elem (ws ++ [w]) ->
  dir_ok (m_here m) (abs_name (ws ++ [w])) -> is_rooted (h_mpath (m_here m)) = false ->
  create here_parse now m (abs_name (ws ++ [w])) = (m', Ok h) ->
  exists d, seen here_parse m' (abs_name (ws ++ [w])) = Some (d, []) /\ d_name d = w.
Proof.
  intros Hr HF Hd Hm Hc.
  pose proof (plain_parse (m_here m) (ws ++ [w]) HF Hd Hm) as Hp.
  destruct (C14_success_partial _ _ _ _ _ _ _ Hr Hc Hp) as (_ & Hs & _).
  eexists. split; [by apply Hs|]. simpl. apply base_snoc.
  apply Forall_app in HF as [_ HF]. by apply Forall_cons in HF as [[? _] _].
Qed.

Theorem C59_created_name_refuted :
  exists m name now m' h d pt,
    reachable here_parse m /\ create here_parse now m name = (m', Ok h) /\
    here_parse (m_here m) name = Some pt /\ p_name pt = B"/d/x" /\
    seen here_parse m' (B"/d/x") = Some (d, []) /\ d_name d = B"d\x".
Proof.
  pose (m := after [OMkdirAll (B"/d") 493]).
  exists m, (B"/d\x"), t0, (create here_parse t0 m (B"/d\x")).1, 2,
    (Details (B"d\x") 0 420 t0 false JNull), (Path (B"app") (B"/d/x")).
  split; [apply reachable_run, reach_new|]. split; [apply pair_snd; by vm_compute|]. split; [by vm_compute|].
  split; [done|]. split; by vm_compute.
Qed.

Example C59_ex :
  let '(m, h) := create here_parse t0 (after [OMkdirAll (B"/d") 493]) (abs_name [B"d"; B"a.txt"]) in
  h = Ok 2 /\ (fun x => d_name x.1) <$> seen here_parse m (B"/d/a.txt") = Some (B"a.txt").
Proof. by vm_compute. Qed.

(** *** C15 *)

(** Full claim: "After MkdirAll(p) returns nil, p and each of its ancestors in
    the same package can be opened and is a directory."
    Proved: p itself, for every resolver and argument; all ancestors below the
    root for plain names of the current package.  Refuted: the root, and the
    ancestors of a path of another package. *)
Theorem C15_target parse m p perm now m' pt n :
  reachable parse m -> mkdir_all parse (mk_fuel p) now m p perm = (m', None) ->
  parse (m_here m) p = Some pt -> parse (m_here m) n = Some pt ->
  exists d, seen parse m' n = Some (d, []) /\ d_isdir d = true.
Proof.
  intros Hr Hmk Hp Hn. pose proof (reachable_wf _ _ Hr) as Hw.
  pose proof (mkdir_target _ _ _ _ _ _ _ _ Hw Hp Hmk) as Hd.
  pose proof (mkdir_here parse (mk_fuel p) now m p perm) as Hh. rewrite Hmk in Hh. simpl in Hh.
  rewrite <- Hh in Hn. rewrite (seen_of_file _ _ _ _ _ Hn Hd). by eexists.
Qed.

Theorem C15_C46_ancestors_partial m p perm now ws w :
  reachable here_parse m -> Forall plain_elem (ws ++ [w]) ->
  dir_ok (m_here m) (abs_name (ws ++ [w])) -> is_rooted (h_mpath (m_here m)) = false ->
  here_parse (m_here m) p = Some (Path (h_mpath (m_here m)) (abs_name (ws ++ [w]))) ->
  exists m', mkdir_all here_parse (mk_fuel p) now m p perm = (m', None) /\
    forall vs v, vs ++ [v] `prefix_of` ws ++ [w] ->
      seen here_parse m' (abs_name (vs ++ [v])) = Some (Details v 0 perm now true JNull, []).
Proof.
  intros Hr HF Hd Hm Hp. pose proof (reachable_wf _ _ Hr) as Hw.
  pose proof HF as HF2. apply Forall_app in HF2 as [HFs HFw]. apply Forall_cons in HFw as [HFw _].
  pose proof (mkdir_mk_fuel now m p perm) as Hfuel.
  destruct (mkdir_dirs here_parse (h_mpath (m_here m)) (mk_fuel p + length ws + 1) now perm
    (h_mpath (m_here m)) ws w m p) as (m' & Hmk & Hh & Hi & Hw' & Ho & Hds & _); try done.
  - by apply plain_good.
  - by destruct HFw.
  - apply plain_resolves_dirs; [done| |done]. eapply dir_ok_prefix; [|done]. by apply prefix_app_r.
  - lia.
  - assert (Hmk2 : mkdir_all here_parse (mk_fuel p) now m p perm = (m', None)).
    { rewrite <- Hmk. symmetry. apply mkdir_fuel_mono; [lia|]. apply Hfuel.
      intros E. destruct Hd as [Hd|[_ Hd]]; [by rewrite E in Hd|]. by rewrite E in Hd. }
    exists m'. split; [done|]. intros vs v Hpre.
    assert (Hpp : here_parse (m_here m') (abs_name (vs ++ [v])) =
              Some (Path (h_mpath (m_here m)) (abs_name (vs ++ [v])))).
    { rewrite Hh. apply plain_parse; [|by eapply dir_ok_prefix|done].
      destruct Hpre as [k Hk]. rewrite Hk in HF. by apply Forall_app in HF as [? _]. }
    apply prefix_snoc_inv in Hpre as [Hpre|Hpre].
    + apply app_inj_tail in Hpre as [-> ->]. by rewrite (seen_of_file _ _ _ _ _ Hpp Ho).
    + by rewrite (seen_of_file _ _ _ _ _ Hpp (Hds _ _ Hpre)).
Qed.

Lemma plain_elem_dec_ok w : good_elem w ->
  forallb (fun c => negb (Ascii.eqb c backslash || Ascii.eqb c newline || Ascii.eqb c colon || is_space c)) w = true ->
  plain_elem w.
Proof.
  intros Hg H. rewrite forallb_forall in H.
  assert (HH : forall c, c ∈ w -> c <> backslash /\ c <> newline /\ c <> colon /\ is_space c = false).
  { intros c Hc. apply elem_of_list_In, H, negb_true_iff in Hc.
    rewrite !orb_false_iff in Hc. destruct Hc as [[[H1 H2] H3] H4]. by rewrite !Ascii.eqb_neq in *. }
  split; [done|]. split_and!; try (intros Hc; by destruct (HH _ Hc) as (?&?&?&?)).
  intros c Hc. by destruct (HH c (last_Some_elem_of _ _ Hc)) as (?&?&?&?).
Qed.

Ltac plain := apply plain_elem_dec_ok; [good|by vm_compute].

(* The hypotheses hold of an ordinary call. *)
Example C15_hyps :
  Forall plain_elem ([B"public"; B"img"] ++ [B"v2"]) /\
  dir_ok her_ex (abs_name ([B"public"; B"img"] ++ [B"v2"])) /\ is_rooted (h_mpath her_ex) = false /\
  here_parse her_ex (B"app:/public/./img//v2/") =
    Some (Path (h_mpath her_ex) (abs_name ([B"public"; B"img"] ++ [B"v2"]))).
Proof.
  split; [repeat (constructor; [plain|]); constructor|].
  split; [right; by vm_compute|]. split; by vm_compute.
Qed.

Example C15_ex :
  let m' := after [OMkdirAll (B"app:/public/./img//v2/") 493] in
  seen here_parse m' (B"/public") = Some (Details (B"public") 0 493 t0 true JNull, []) /\
  seen here_parse m' (B"/public/img") = Some (Details (B"img") 0 493 t0 true JNull, []) /\
  seen here_parse m' (B"/public/img/v2") = Some (Details (B"v2") 0 493 t0 true JNull, []).
Proof. by vm_compute. Qed.

Theorem C15_root_refuted :
  exists m p perm now m', reachable here_parse m /\
    here_parse (m_here m) p = Some (Path (B"app") (B"/a/b")) /\
    mkdir_all here_parse (mk_fuel p) now m p perm = (m', None) /\
    here_parse (m_here m) (B"app:/") = Some (Path (B"app") (B"/")) /\
    seen here_parse m' (B"app:/") = None.
Proof.
  exists new_ex, (B"/a/b"), 493%N, t0, (mkdir_all here_parse (mk_fuel (B"/a/b")) t0 new_ex (B"/a/b") 493).1.
  split; [apply reach_new|].
  split; [by vm_compute|]. split; [apply pair_snd; by vm_compute|]. split; by vm_compute.
Qed.

Theorem C15_package_refuted :
  exists m p perm now m' d, reachable here_parse m /\
    here_parse (m_here m) p = Some (Path (B"lib") (B"/a/b")) /\
    mkdir_all here_parse (mk_fuel p) now m p perm = (m', None) /\
    here_parse (m_here m) (B"lib:/a") = Some (Path (B"lib") (B"/a")) /\
    seen here_parse m' (B"lib:/a") = None /\
    (* a directory nobody asked for appears in the current package instead *)
    seen here_parse m (B"app:/a") = None /\ seen here_parse m' (B"app:/a") = Some (d, []).
Proof.
  exists new_ex, (B"lib:/a/b"), 493%N, t0, (mkdir_all here_parse (mk_fuel (B"lib:/a/b")) t0 new_ex (B"lib:/a/b") 493).1,
    (Details (B"a") 0 493 t0 true JNull).
  split; [apply reach_new|].
  split; [by vm_compute|]. split; [apply pair_snd; by vm_compute|]. split; [by vm_compute|].
  split; [by vm_compute|]. split; by vm_compute.
Qed.

(** *** C16 *)

(** Full claim: "If p is already a directory MkdirAll(p) changes nothing and
    returns nil; if p or an ancestor is a regular file it returns an error and
    the file keeps its content; no other entry is affected."
    Proved: the last part - entries other than p and its ancestors (as
    MkdirAll resolves them) answer as before, on success and on failure.
    Refuted: the other two. *)
Theorem C16_others_partial parse m p perm now n q :
  reachable parse m -> parse (m_here m) n = Some q -> ~ mk_target parse (m_here m) p q ->
  seen parse (mkdir_all parse (mk_fuel p) now m p perm).1 n = seen parse m n.
Proof.
  intros Hr Hn Hq. pose proof (reachable_wf _ _ Hr) as Hw.
  eapply seen_frame; [by apply frame_mkdir|done|by intros r []|].
  intros q' Hq'. rewrite Hn in Hq'. by injection Hq' as <-.
Qed.

(** The targets of MkdirAll are the path and its ancestors. *)
Theorem C16_targets her p q ws w :
  Forall plain_elem (ws ++ [w]) -> dir_ok her (abs_name (ws ++ [w])) -> is_rooted (h_mpath her) = false ->
  here_parse her p = Some (Path (h_mpath her) (abs_name (ws ++ [w]))) ->
  mk_target here_parse her p q ->
  exists vs, vs <> [] /\ vs `prefix_of` ws ++ [w] /\ q = Path (h_mpath her) (abs_name vs).
Proof.
  revert p w. induction ws as [|w0 ws IH] using rev_ind; intros p w HF Hd Hm Hp HT;
    (inversion HT as [p' pt Hp'|p' pt q' Hp' Hn HT']; subst; rewrite Hp in Hp'; injection Hp' as <-;
     [eexists; split; [|split; [reflexivity|done]]; intros E; by apply app_nil in E as [_ E]|]).
  - exfalso. apply Hn. cbn [p_name]. apply (f_equal fst (path_split_snoc [] w ltac:(by inversion HF as [|? ? [? _]]))).
  - cbn [p_name] in HT'. rewrite path_split_snoc in HT'.
    2: { apply Forall_app in HF as [_ HF]. by apply Forall_cons in HF as [[? _] _]. }
    cbn [fst] in HT'. rewrite match_snoc in HT'.
    pose proof HF as HF2. apply Forall_app in HF2 as [HF2 _].
    assert (Hd2 : dir_ok her (abs_name (ws ++ [w0]))).
    { eapply dir_ok_prefix; [|exact Hd]. by apply prefix_app_r. }
    destruct (IH (abs_name (ws ++ [w0]) ++ [slash]) w0) as (vs & Hvs & Hpre & ->); try done.
    + by apply plain_parse_slash.
    + exists vs. split; [done|]. split; [|done]. by apply prefix_app_r.
Qed.

Example C16_ex :
  let m := after [OCreate (B"/keep"); OWrite 1 (B"x"); OClose 1] in
  let m' := (mkdir_all here_parse (mk_fuel (B"/a/b")) t1 m (B"/a/b") 493).1 in
  seen here_parse m' (B"/keep") = Some (Details (B"keep") 1 420 t0 false JNull, B"x") /\
  seen here_parse m' (B"/") = seen here_parse m (B"/").
Proof. by vm_compute. Qed.

Theorem C16_clobbers_file_refuted :
  exists m now perm m' d,
    reachable here_parse m /\
    seen here_parse m (B"/f") = Some (Details (B"f") 4 420 t0 false JNull, B"data") /\
    mkdir_all here_parse (mk_fuel (B"/f/sub")) now m (B"/f/sub") perm = (m', None) /\
    seen here_parse m' (B"/f") = Some (d, []) /\ d_isdir d = true.
Proof.
  pose (m := after [OCreate (B"/f"); OWrite 1 (B"data"); OClose 1]).
  exists m, t1, 493%N, (mkdir_all here_parse (mk_fuel (B"/f/sub")) t1 m (B"/f/sub") 493).1,
    (Details (B"f") 0 493 t1 true JNull).
  split; [apply reachable_run, reach_new|]. split; [by vm_compute|]. split; [apply pair_snd; by vm_compute|].
  split; by vm_compute.
Qed.

Theorem C16_existing_dir_refuted :
  exists m now perm m' d d',
    reachable here_parse m /\ seen here_parse m (B"/d") = Some (d, []) /\ d_isdir d = true /\
    mkdir_all here_parse (mk_fuel (B"/d")) now m (B"/d") perm = (m', None) /\
    seen here_parse m' (B"/d") = Some (d', []) /\ d_mode d' <> d_mode d /\ d_mtime d' <> d_mtime d.
Proof.
  pose (m := after [OMkdirAll (B"/d") 448]).
  exists m, t1, 511%N, (mkdir_all here_parse (mk_fuel (B"/d")) t1 m (B"/d") 511).1,
    (Details (B"d") 0 448 t0 true JNull), (Details (B"d") 0 511 t1 true JNull).
  split; [apply reachable_run, reach_new|]. split; [by vm_compute|]. split; [done|].
  split; [apply pair_snd; by vm_compute|]. split; [by vm_compute|]. split; by vm_compute.
Qed.

(** *** C17 *)

(** Full claim: "MkdirAll returns after finitely many recursive calls for
    every argument string."  Proved (for the recalled resolver) unless the
    current package lives in the file-system root; refuted there. *)
Theorem C17_terminates_partial m p perm now :
  h_dir (m_here m) <> B"/" ->
  exists fuel, (mkdir_all here_parse fuel now m p perm).2 <> Some EFuel /\
    (forall fuel', fuel <= fuel' ->
       mkdir_all here_parse fuel' now m p perm = mkdir_all here_parse fuel now m p perm) /\
    fuel = length p + 4.
Proof.
  intros Hd. exists (mk_fuel p). split; [by apply mkdir_mk_fuel|]. split; [|done].
  intros fuel' Hle. apply mkdir_fuel_mono; [done|by apply mkdir_mk_fuel].
Qed.

Example C17_ex : (mkdir_all here_parse 3 t0 new_ex (B"/a/b/c") 493).2 = None /\
  (mkdir_all here_parse 2 t0 new_ex (B"/a/b/c") 493).2 = Some EFuel.
Proof. by vm_compute. Qed.

Theorem C17_diverges_refuted :
  exists m, reachable here_parse m /\
    (forall fuel now perm, (mkdir_all here_parse fuel now m (B"/") perm).2 = Some EFuel) /\
    (forall now name, (create here_parse now m name).2 = Err EFuel).
Proof.
  set (her := HInfo (B"/") (B"app") (B"main") (B"app") true (B"/") (B"/go.mod") (B"1.13")).
  exists (mem_new her). split; [apply reach_new|].
  assert (H : forall fuel now perm, (mkdir_all here_parse fuel now (mem_new her) (B"/") perm).2 = Some EFuel).
  { intros. apply mkdir_diverges; [done|by right]. }
  split; [exact H|]. intros now name. unfold create. specialize (H (mk_fuel (B"/")) now 493%N).
  destruct (mkdir_all here_parse (mk_fuel (B"/")) now (mem_new her) (B"/") 493) as [m1 e].
  simpl in H. subst e. by rewrite bool_decide_eq_true_2.
Qed.

(** *** C46 *)

(** os.FileMode.IsDir (Go standard library): bit 31. *)
Definition mode_is_dir (mode : N) : bool := N.testbit mode 31.

(** Full claim: "For every directory created through MkdirAll, Stat reports
    IsDir() true, Mode().IsDir() true and the base name of the path."
    Proved: IsDir() and the mode being the perm argument, always; the base name
    below the root (C15_C46 above gives it for plain names).
    Refuted: Mode().IsDir(). *)
Theorem C46_dir_partial parse m p perm now m' g ws w r :
  reachable parse m -> mkdir_all parse (mk_fuel p) now m p perm = (m', None) ->
  parse (m_here m) p = Some (Path g (abs_name (ws ++ [w]))) -> good_elem w ->
  stat parse m' p = Ok r ->
  exists d, info_at m' r = Some d /\ d_isdir d = true /\ d_mode d = perm /\ d_name d = w /\ d_mtime d = now.
Proof.
  intros Hr Hmk Hp Hg Hst. pose proof (reachable_wf _ _ Hr) as Hw.
  pose proof (mkdir_target _ _ _ _ _ _ _ _ Hw Hp Hmk) as Hd.
  pose proof (mkdir_here parse (mk_fuel p) now m p perm) as Hh. rewrite Hmk in Hh. simpl in Hh.
  unfold stat, mem_parse in Hst. rewrite Hh, Hp in Hst. unfold dir_object, file_at in Hd.
  destruct (m_files m' !! _) as [r'|]; [|done]. injection Hst as ->. simpl in Hd.
  unfold info_at. rewrite Hd. eexists. split; [done|]. cbn. rewrite path_split_snoc by done. done.
Qed.

Example C46_ex :
  let m := after [OMkdirAll (B"/public/img") 448] in
  stat here_parse m (B"/public/img") = Ok 1 /\
  info_at m 1 = Some (Details (B"img") 0 448 t0 true JNull).
Proof. by vm_compute. Qed.

Theorem C46_mode_refuted :
  exists m d, reachable here_parse m /\ seen here_parse m (B"/d") = Some (d, []) /\
    d_isdir d = true /\ mode_is_dir (d_mode d) = false.
Proof.
  exists (after [OMkdirAll (B"/d") 493]). eexists. split; [apply reachable_run, reach_new|].
  split; [by vm_compute|]. split; by vm_compute.
Qed.

(** *** C47 *)

(** Full claim: "For the current package cur, '/name', 'cur:/name' and
    ':/name' (and unclean spellings of them) resolve to the same entry, and the
    Name() of an opened file resolves back to that file."
    Proved for the recalled resolver and plain names that do not start with the
    text of the package's directory; refuted when they do.  (What is missing
    for "proved" is exactly those names, on which the claim is false.) *)
Theorem C47_spellings_partial her ws s :
  Forall plain_elem ws -> dir_ok her (abs_name ws) -> is_rooted (h_mpath her) = false ->
  plain_pkg (h_mpath her) ->
  (exists t, (t = abs_name ws \/ t = h_mpath her ++ colon :: abs_name ws \/ t = colon :: abs_name ws) /\
     clean (trim_space s) = clean (trim_space t)) ->
  here_parse her s = Some (Path (h_mpath her) (abs_name ws)).
Proof.
  intros HF Hd Hm Hpk (t & Ht & Hcl). rewrite (here_parse_clean her s t Hcl). destruct Ht as [->|[->| ->]].
  - by apply plain_parse.
  - assert (Hps : h_mpath her ++ colon :: abs_name ws = path_string (Path (h_mpath her) (abs_name ws))).
    { unfold path_string. cbn [p_pkg p_name]. destruct Hpk as (vs & Hne & Hg & E & _).
      destruct (h_mpath her); [|done]. symmetry in E. apply join_slash_nil_inv in E; done. }
    rewrite Hps. apply here_parse_canonical. split; [done|]. split; [by apply plain_elems_name|done].
  - by apply colon_parse.
Qed.

Theorem C47_name_partial parse m name m' h n :
  built parse m -> open parse m name = (m', Ok h) -> file_name m' h = Some n ->
  (forall pt, parse (m_here m) name = Some pt -> parse (m_here m) (path_string pt) = Some pt) ->
  parse (m_here m) n = parse (m_here m) name /\ seen parse m n = seen parse m name.
Proof.
  intros Hb Ho Hn Hlaw. destruct (open_ok _ _ _ _ _ Ho) as (pt & f & Hp & Hf & -> & Hheap).
  unfold file_name in Hn. rewrite Hheap in Hn. simpl in Hn. injection Hn as <-.
  rewrite (built_keyed _ _ Hb _ _ Hf).
  assert (E : parse (m_here m) (path_string pt) = parse (m_here m) name) by (rewrite Hp; by apply Hlaw).
  split; [done|]. rewrite !seen_alt. by rewrite E.
Qed.

Example C47_ex :
  here_parse her_ex (B" //public/../public/./a ") = Some (Path (B"app") (B"/public/a")) /\
  here_parse her_ex (B"app:/public/b/../a") = Some (Path (B"app") (B"/public/a")) /\
  here_parse her_ex (B":/public//a") = Some (Path (B"app") (B"/public/a")) /\
  (let m := after [OMkdirAll (B"/public") 493; OCreate (B"/public/a")] in
   let '(m', _) := open here_parse m (B"/public/a") in file_name m' 3 = Some (B"app:/public/a")).
Proof. by vm_compute. Qed.

(* The hypotheses of C47_spellings hold of an ordinary module and path. *)
Example C47_hyps :
  plain_pkg (B"github.com/x/app") /\
  Forall plain_elem [B"public"; B"a b.txt"] /\ dir_ok her_ex (abs_name [B"public"; B"a b.txt"]).
Proof.
  split; [|split].
  - exists [B"github.com"; B"x"; B"app"]. split; [done|]. split; [repeat (constructor; [good|]); constructor|].
    split; [done|]. split_and!; try (intros H; repeat (apply elem_of_cons in H as [H|H]; [done|]); by apply elem_of_nil in H).
    by intros c [= <-].
  - constructor; [plain|]. constructor; [|constructor].
    split; [good|]. split_and!; try (intros H; repeat (apply elem_of_cons in H as [H|H]; [done|]); by apply elem_of_nil in H).
    by intros c [= <-].
  - right. by vm_compute.
Qed.

Theorem C47_dir_prefix_refuted :
  exists her, is_rooted (h_mpath her) = false /\
    here_parse her (B"/srv2/x") = Some (Path (B"2/x") (B"/")) /\
    here_parse her (h_mpath her ++ B":/srv2/x") = Some (Path (h_mpath her) (B"2/x")).
Proof.
  exists (HInfo (B"/srv") (B"app") (B"main") (B"app") true (B"/srv") (B"/srv/go.mod") (B"1.13")).
  split; [done|]. split; by vm_compute.
Qed.

(** *** C60 *)

(** Full claim: "A name containing a colon is stored and found under that name
    (or rejected), it is not mistaken for another file."  Refuted (recalled
    resolver): everything from the colon on is dropped. *)
Theorem C60_colon_refuted :
  exists m d, reachable here_parse m /\
    seen here_parse m (B"/report") = Some (d, B"old") /\
    exists m', (run here_parse m [(t1, OCreate (B"/report:2020")); (t1, OWrite 3 (B"new")); (t1, OClose 3)]).1 = m' /\
      exists d', seen here_parse m' (B"/report") = Some (d', B"new").
Proof.
  exists (after [OCreate (B"/report"); OWrite 1 (B"old"); OClose 1]). eexists.
  split; [apply reachable_run, reach_new|]. split; [by vm_compute|]. eexists. split; [reflexivity|].
  eexists. by vm_compute.
Qed.

(** *** C23 *)

(** The served entry: what File.Open returned is the stored entry [k]. *)
Definition serves (m : mem) (m' : mem) (h : ref) (k : path) : Prop :=
  exists fo fh, file_at m k = Some fo /\ m_heap m' !! h = Some fh /\
    f_info fh = f_info fo /\ f_data fh = (if d_isdir (f_info fo) then [] else f_data fo).

Lemma abs_below ds ns :
  Forall good_elem ds -> at_or_below (abs_name ds) (abs_name (ds ++ ns)).
Proof.
  intros HF. destruct ns as [|n ns]; [left; by rewrite app_nil_r|]. right.
  destruct ds as [|d ds]; [done|].
  rewrite bool_decide_eq_false_2.
  - unfold abs_name. apply has_prefix_spec. rewrite join_slash_app by done.
    exists (join_slash (n :: ns)). rewrite <- app_assoc. done.
  - intros E. change (B"/") with (abs_name []) in E. by apply abs_name_inj in E.
Qed.

(** Full claim: "File.Open(name) on an opened directory only ever returns
    entries inside that directory, whatever the requested name."
    Proved for every resolver, for requests that resolve to a clean name of the
    directory's own package (and for the recalled resolver: rooted requests
    without backslash or colon, on directories recorded for their own
    package).  Refuted for other requests. *)
Theorem C23_C55_contained_partial parse m r f name g ds ns m' h :
  m_heap m !! r = Some f -> f_path f = Path g (abs_name ds) ->
  Forall good_elem ds -> Forall good_elem ns ->
  parse (f_here f) name = Some (Path g (abs_name ns)) -> ns <> ds ->
  parse (m_here m) (path_string (Path g (abs_name (ds ++ ns)))) = Some (Path g (abs_name (ds ++ ns))) ->
  file_open parse m r name = (m', Ok h) ->
  serves m m' h (Path g (abs_name (ds ++ ns))) /\ at_or_below (abs_name ds) (abs_name (ds ++ ns)).
Proof.
  intros Hr Hf Hds Hns Hp Hne HK Ho. split; [|by apply abs_below].
  assert (Hj : join2 (p_name (f_path f)) (p_name (Path g (abs_name ns))) = abs_name (ds ++ ns)).
  { rewrite Hf. cbn [p_name]. by apply clean_join_abs. }
  assert (Hne2 : Path g (abs_name ns) <> f_path f).
  { rewrite Hf. intros E. apply (f_equal p_name) in E. by apply abs_name_inj in E. }
  destruct (file_at m (Path g (abs_name (ds ++ ns)))) as [fo|] eqn:Efo.
  - destruct (file_open_spec parse m r f name _ Hr Hp Hne2 (Path g (abs_name (ds ++ ns))) fo) as
      (m2 & h2 & fh & Ho2 & Hh & Hi & Hd & _); [by rewrite Hj|done|].
    rewrite Ho in Ho2. injection Ho2 as <- <-. exists fo, fh. done.
  - exfalso. rewrite (file_open_missing parse m r f name _ Hr Hp Hne2 (Path g (abs_name (ds ++ ns)))) in Ho;
      [done|by rewrite Hj|done].
Qed.

Theorem C23_C55_http_partial m r f s ds ns :
  m_heap m !! r = Some f -> f_path f = Path (h_mpath (f_here f)) (abs_name ds) ->
  Forall plain_elem ds -> Forall plain_elem ns -> ns <> ds ->
  clean (trim_space s) = abs_name ns ->
  plain_pkg (h_mpath (f_here f)) ->
  dir_ok (f_here f) (abs_name ns) -> dir_ok (m_here m) (abs_name (ds ++ ns)) ->
  match file_open here_parse m r s with
  | (m', Ok h) => serves m m' h (Path (h_mpath (f_here f)) (abs_name (ds ++ ns))) /\
                  at_or_below (abs_name ds) (abs_name (ds ++ ns))
  | (_, Err e) => e = ENotExist /\ file_at m (Path (h_mpath (f_here f)) (abs_name (ds ++ ns))) = None
  end.
Proof.
  intros Hr Hf Hds Hns Hne Hs Hpk Hd1 Hd2.
  assert (Hm : is_rooted (h_mpath (f_here f)) = false).
  { destruct Hpk as (vs & _ & Hg & -> & _). by apply join_slash_rooted. }
  assert (Hp : here_parse (f_here f) s = Some (Path (h_mpath (f_here f)) (abs_name ns))).
  { rewrite (here_parse_clean _ s (abs_name ns)); [by apply plain_parse|].
    rewrite Hs, trim_space_abs by done. by rewrite clean_abs by (by apply plain_good). }
  assert (HK : here_parse (m_here m) (path_string (Path (h_mpath (f_here f)) (abs_name (ds ++ ns)))) =
     Some (Path (h_mpath (f_here f)) (abs_name (ds ++ ns)))).
  { apply here_parse_canonical. split; [done|]. split; [|done].
    apply plain_elems_name. by apply Forall_app. }
  destruct (file_open here_parse m r s) as [m' [h|e]] eqn:Ho.
  - eapply C23_C55_contained_partial; try done; by apply plain_good.
  - assert (Hne2 : Path (h_mpath (f_here f)) (abs_name ns) <> f_path f).
    { rewrite Hf. intros E. apply (f_equal p_name) in E. by apply abs_name_inj in E; try apply plain_good. }
    assert (Hj : join2 (p_name (f_path f)) (p_name (Path (h_mpath (f_here f)) (abs_name ns))) = abs_name (ds ++ ns)).
    { rewrite Hf. cbn [p_name]. apply clean_join_abs; by apply plain_good. }
    destruct (file_at m (Path (h_mpath (f_here f)) (abs_name (ds ++ ns)))) as [fo|] eqn:Efo.
    + destruct (file_open_spec here_parse m r f s _ Hr Hp Hne2 (Path (h_mpath (f_here f)) (abs_name (ds ++ ns))) fo) as
        (m2 & h2 & fh & Ho2 & _); [by rewrite Hj|done|]. congruence.
    + rewrite (file_open_missing here_parse m r f s _ Hr Hp Hne2 (Path (h_mpath (f_here f)) (abs_name (ds ++ ns)))) in Ho;
        [|by rewrite Hj|done]. injection Ho as <- <-. done.
Qed.

(** A served site: directory /pub with a file, a secret beside it. *)
Definition site_ex : mem :=
  after [OMkdirAll (B"/pub") 493; OCreate (B"/pub/a"); OWrite 2 (B"A"); OClose 2;
         OCreate (B"/secret"); OWrite 4 (B"S"); OClose 4; OOpen (B"/pub")].

Example C23_ex :
  (f_path <$> m_heap site_ex !! 5) = Some (Path (B"app") (B"/pub")) /\
  (let '(m', h) := file_open here_parse site_ex 5 (B"/x/../a") in h = Ok 6 /\
     (f_data <$> m_heap m' !! 6) = Some (B"A")) /\
  (file_open here_parse site_ex 5 (B"/../secret")).2 = Err ENotExist /\
  (file_open here_parse site_ex 5 (B"../secret")).2 = Err ENotExist.
Proof. by vm_compute. Qed.

(** With backslashes any file of the package can be reached. *)
Theorem C23_backslash_refuted :
  exists m r f name m' h fh, reachable here_parse m /\
    m_heap m !! r = Some f /\ f_path f = Path (B"app") (B"/pub") /\ d_isdir (f_info f) = true /\
    clean name = name /\ is_rooted name = true /\
    file_open here_parse m r name = (m', Ok h) /\ m_heap m' !! h = Some fh /\
    f_path fh = Path (B"app") (B"/secret") /\ f_data fh = B"S" /\
    ~ at_or_below (B"/pub") (B"/secret").
Proof.
  exists site_ex, 5, (FObj her_ex (Details (B"pub") 0 493 t0 true JNull) (Path (B"app") (B"/pub")) [] zero_path None None),
    (B"/..\secret"), (file_open here_parse site_ex 5 (B"/..\secret")).1, 6,
    (FObj her_ex (Details (B"secret") 1 420 t0 false JNull) (Path (B"app") (B"/secret")) (B"S") zero_path None None).
  split; [apply reachable_run, reach_new|]. split; [by vm_compute|]. split; [done|].
  split; [done|]. split; [by vm_compute|]. split; [done|]. split; [apply pair_snd; by vm_compute|].
  split; [by vm_compute|]. split; [done|]. split; [done|].
  intros [H|H]; by vm_compute in H.
Qed.

(** With a colon the parent directory can be reached. *)
Theorem C23_colon_refuted :
  exists m r f name m' h fh, reachable here_parse m /\
    m_heap m !! r = Some f /\ f_path f = Path (B"app") (B"/pub") /\
    clean name = name /\ is_rooted name = true /\ backslash ∉ name /\
    file_open here_parse m r name = (m', Ok h) /\ m_heap m' !! h = Some fh /\
    f_path fh = Path (B"app") (B"/") /\ ~ at_or_below (B"/pub") (B"/").
Proof.
  exists site_ex, 5, (FObj her_ex (Details (B"pub") 0 493 t0 true JNull) (Path (B"app") (B"/pub")) [] zero_path None None),
    (B"/..:x"), (file_open here_parse site_ex 5 (B"/..:x")).1, 7,
    (FObj her_ex (Details [] 0 493 t0 true JNull) (Path (B"app") (B"/")) [] (Path (B"app") (B"/pub")) None None).
  split; [apply reachable_run, reach_new|]. split; [by vm_compute|]. split; [done|].
  split; [by vm_compute|]. split; [done|]. split.
  { intros H. repeat (apply elem_of_cons in H as [H|H]; [done|]). by apply elem_of_nil in H. }
  split; [apply pair_snd; by vm_compute|].
  split; [by vm_compute|]. split; [done|].
  intros [H|H]; by vm_compute in H.
Qed.

(** Requests naming another package are answered from it. *)
Definition two_pkgs : mem :=
  after [OAdd (Path (B"lib") (B"/pub")) her_ex (Details (B"pub") 0 493 t0 true JNull) [];
         OAdd (Path (B"lib") (B"/pub/key")) her_ex (Details (B"key") 1 420 t0 false JNull) (B"K");
         OMkdirAll (B"/pub") 493; OCreate (B"/pub/key"); OOpen (B"/pub"); OOpen (B"lib:/pub")].

Theorem C23_package_refuted :
  exists m r f name m' h fh, reachable here_parse m /\
    m_heap m !! r = Some f /\ f_path f = Path (B"app") (B"/pub") /\
    file_open here_parse m r name = (m', Ok h) /\ m_heap m' !! h = Some fh /\
    f_path fh = Path (B"lib") (B"/pub/key") /\ f_data fh = B"K".
Proof.
  exists two_pkgs, 5, (FObj her_ex (Details (B"pub") 0 493 t0 true JNull) (Path (B"app") (B"/pub")) [] zero_path None None),
    (B"lib:/key"), (file_open here_parse two_pkgs 5 (B"lib:/key")).1, 7,
    (FObj her_ex (Details (B"key") 1 420 t0 false JNull) (Path (B"lib") (B"/pub/key")) (B"K") zero_path None None).
  split; [apply reachable_run, reach_new|]. split; [by vm_compute|]. split; [done|].
  split; [apply pair_snd; by vm_compute|]. split; [by vm_compute|]. split; by vm_compute.
Qed.

(** A directory made by MkdirAll in another package serves the current
    package's files. *)
Theorem C23_mkdir_package_refuted :
  exists m r f m' h fh, reachable here_parse m /\
    m_heap m !! r = Some f /\ f_path f = Path (B"lib") (B"/d") /\
    file_open here_parse m r (B"/x") = (m', Ok h) /\ m_heap m' !! h = Some fh /\
    f_path fh = Path (B"app") (B"/d/x").
Proof.
  pose (m := after [OMkdirAll (B"lib:/d") 493; OMkdirAll (B"/d") 493; OCreate (B"/d/x"); OOpen (B"lib:/d")]).
  exists m, 4, (FObj her_ex (Details (B"d") 0 493 t0 true JNull) (Path (B"lib") (B"/d")) [] zero_path None None),
    (file_open here_parse m 4 (B"/x")).1, 5,
    (FObj her_ex (Details (B"x") 0 420 t0 false JNull) (Path (B"app") (B"/d/x")) [] zero_path None None).
  split; [apply reachable_run, reach_new|]. split; [by vm_compute|]. split; [done|].
  split; [apply pair_snd; by vm_compute|]. split; by vm_compute.
Qed.

(** *** C55 *)

(** Full claim: "File.Open(name) on an opened directory d answers the entry
    name inside d; in particular when name equals d's own path it answers
    d/name, not d itself."  Proved (C23_C55 above) when name does not resolve
    to d's own path; refuted when it does. *)
Theorem C55_own_path_refuted :
  exists m r f d, reachable here_parse m /\
    m_heap m !! r = Some f /\ f_path f = Path (B"app") (B"/foo") /\
    seen here_parse m (B"/foo/foo") = Some (d, B"inner") /\
    (file_open here_parse m r (B"/foo")).2 = Ok r.
Proof.
  exists (after [OMkdirAll (B"/foo") 493; OCreate (B"/foo/foo"); OWrite 2 (B"inner"); OClose 2; OOpen (B"/foo")]), 3.
  eexists _, _. split; [apply reachable_run, reach_new|]. split; [by vm_compute|]. split; [by vm_compute|].
  split; by vm_compute.
Qed.
