(** Theorems: the errors for names that cannot be parsed and for what does not
    exist (C123, C124). *)
From Verif Require Import Bytes GoPath Here GoTypes WalkSpec Mem MemSpec Disk DiskOps Std Http Errors.
From Verif Require Import MemBase MemFiles MemDirs2 PropsFiles PropsDirs PropsStd Both.

(** ** C123: names that cannot be parsed *)

(** The embedded pkger says so whichever call is given the name; the pkger is
    as before, except that Create has made the package's root by then. *)
Theorem C123_mem {S} (parse : resolver) m name now perm n (wf : walk_fn S) x :
  parse (m_here m) name = None ->
  remove parse m name = (m, Some EParse) /\
  remove_all parse m name = (m, Some EParse) /\
  mkdir_all parse (Datatypes.S n) now m name perm = (m, Some EParse) /\
  stat parse m name = Err EParse /\
  open parse m name = (m, Err (EPath (B"open") name)) /\
  walk parse m name wf x = ((x, m), Some EParse) /\
  (create parse now m name = ((mkdir_all parse (mk_fuel (B"/")) now m (B"/") 493).1, Err EParse) \/
   (create parse now m name).2 = Err EFuel).
Proof.
  intros H. unfold remove, remove_all, stat, open, walk, mem_parse. cbn [mkdir_all]. unfold mem_parse. rewrite H.
  split_and!; try done. unfold create. pose proof (mkdir_here parse (mk_fuel (B"/")) now m (B"/") 493) as Hh.
  destruct (mkdir_all parse _ _ _ _ _) as [m1 e]. cbn [fst] in Hh |- *. case_bool_decide; [by right|left].
  unfold mem_parse. by rewrite Hh, H.
Qed.

(** An opened directory is asked in the name of its file's package. *)
Theorem C123_handle (parse : resolver) m r f name :
  m_heap m !! r = Some f -> parse (f_here f) name = None -> file_open parse m r name = (m, Err EParse).
Proof. intros Hr H. unfold file_open. by rewrite Hr, H. Qed.

(** The on-disk pkger says so too; neither the disk nor the pkger changes. *)
Theorem C123_disk {S} (parse : resolver) nm hp fs s name (wf : bytes -> details -> S -> S * option gerr) x :
  parse (so_here s) name = None ->
  std_create parse nm hp fs s name = (fs, s, Err EParse) /\
  std_mkdir_all parse nm hp fs s name = (fs, s, Some EParse) /\
  std_open parse hp fs s name = (s, Err EParse) /\
  std_stat parse hp fs s name = (s, Err EParse) /\
  std_walk parse hp fs s name wf x = ((x, s), Some EParse) /\
  std_remove parse hp fs s name = (fs, s, Some EParse) /\
  std_remove_all parse hp fs s name = (fs, s, Some EParse).
Proof.
  intros H. unfold std_create, std_mkdir_all, std_open, std_stat, std_walk, std_remove, std_remove_all. rewrite H. done.
Qed.

Example C123_ex :
  here_parse her_ex (B"::") = None /\
  (remove here_parse (after [OCreate (B"/a")]) (B"::")).2 = Some EParse /\
  (open here_parse (after [OCreate (B"/a")]) (B"::")).2 = Err (EPath (B"open") (B"::")) /\
  (std_stat here_parse no_hp (std_app []) (std_new her_ex) (B"::")).2 = Err EParse.
Proof. split_and!; by vm_compute. Qed.

(** That Create changes nothing when it fails is false: it makes the root of
    the package before it looks at the name. *)
Theorem C123_create_refuted :
  exists m name now d d',
    reachable here_parse m /\ here_parse (m_here m) name = None /\
    (create here_parse now m name).2 = Err EParse /\
    seen here_parse m (B"/") = Some (d, []) /\ seen here_parse (create here_parse now m name).1 (B"/") = Some (d', []) /\
    d_mode d <> d_mode d' /\ d_mtime d <> d_mtime d'.
Proof.
  exists (after [OMkdirAll (B"/") 448]), (B"::"), t1, (Details [] 0 448 t0 true JNull), (Details [] 0 493 t1 true JNull).
  split; [apply reachable_run, reach_new|]. split_and!; by vm_compute.
Qed.

(** ** C124: what does not exist *)

(** Nothing is at a path: a directory on the way to it has no such entry. *)
Definition absent (fs : node) (ws : list bytes) : Prop :=
  exists us w vs i cs, ws = us ++ w :: vs /\ get fs us = Some (NDir i cs) /\ child w cs = None.

Lemma absent_missing fs ws : absent fs ws <-> missing fs ws = true.
Proof.
  revert fs. induction ws as [|w ws IH]; intros fs.
  - split; [|done]. intros (us & w & vs & i & cs & E & _). by destruct us.
  - destruct fs as [i d|i cs]; cbn [missing].
    + split; [|done]. intros ([|u us] & w' & vs & i' & cs & E & Hg & _); by simplify_eq/=.
    + destruct (child w cs) as [c|] eqn:Ec.
      * rewrite <- IH. split.
        -- intros ([|u us] & w' & vs & i' & cs' & E & Hg & Hc); simplify_eq/=.
           rewrite Ec in Hg. by exists us, w', vs, i', cs'.
        -- intros (us & w' & vs & i' & cs' & -> & Hg & Hc). exists (w :: us), w', vs, i', cs'. cbn. by rewrite Ec.
      * split; [done|]. intros _. by exists [], w, ws, i, cs.
Qed.

(** Of the three ways not to find something, [missing] is the one. *)
Lemma missing_get fs ws : missing fs ws = true <-> get fs ws = None /\ not_a_dir fs ws = false.
Proof.
  revert fs. induction ws as [|w ws IH]; intros fs; [by split; [|intros []]|].
  destruct fs as [i d|i cs]; cbn [missing get not_a_dir]; [by split; [|intros []]|].
  destruct (child w cs); [apply IH|done].
Qed.

Lemma ferr_missing fs p : is_rooted p = true ->
  match os_ferr fs p with FMissing => true | _ => false end = true <-> absent fs (clean_elems p).
Proof.
  intros Hp. rewrite absent_missing, missing_get. unfold os_ferr, find. rewrite Hp. cbn [andb].
  destruct (get fs (clean_elems p)); [by split; [|intros []]|]. destruct (not_a_dir fs (clean_elems p)); [by split; [|intros []]|done].
Qed.

(** Open of the embedded pkger answers os.ErrNotExist exactly for names that
    parse and stand for nothing. *)
Theorem C124_open parse m name :
  reachable parse m ->
  (exists e, (open parse m name).2 = Err e /\ mem_not_exist e = true) <->
  parse (m_here m) name <> None /\ seen parse m name = None.
Proof.
  intros Hr. pose proof (reachable_wf _ _ Hr) as Hw. rewrite seen_alt. unfold open, mem_parse, mem_not_exist.
  destruct (parse (m_here m) name) as [pt|]; cbn [mbind option_bind].
  2:{ split; [intros (e & [= <-] & He)|intros [? _]]; done. }
  destruct (file_at m pt) as [f|].
  - split; [intros (e & ? & _); done|intros [_ ?]; done].
  - split; [done|]. intros _. by exists ENotExist.
Qed.

Example C124_open_ex :
  let m := after [OCreate (B"/a")] in
  (open here_parse m (B"/b")).2 = Err ENotExist /\ seen here_parse m (B"/b") = None /\ seen here_parse m (B"/a") <> None.
Proof. split_and!; by vm_compute. Qed.

(** Its other calls fail on a name that stands for nothing, but os.IsNotExist
    does not recognise their errors. *)
Theorem C124_refuted :
  exists m now, reachable here_parse m /\
    (forall name, name ∈ [B"/b"; B"/d/b"] -> here_parse (m_here m) name <> None /\ seen here_parse m name = None) /\
    (exists e, stat here_parse m (B"/b") = Err e /\ mem_not_exist e = false) /\
    (exists e, (remove here_parse m (B"/b")).2 = Some e /\ mem_not_exist e = false) /\
    (exists e, (create here_parse now m (B"/d/b")).2 = Err e /\ mem_not_exist e = false).
Proof.
  exists (after [OCreate (B"/a")]), t1. split; [apply reachable_run, reach_new|]. split.
  - intros name H. rewrite !elem_of_cons, elem_of_nil in H. destruct H as [->|[->|[]]]; split; by vm_compute.
  - split_and!; eexists; split; by vm_compute.
Qed.

(** The errors of the on-disk pkger are recognised exactly if nothing is at the
    path the name stands for: for Create, at its directory.  MkdirAll and
    RemoveAll never fail so. *)
Theorem C124_disk parse nm hp fs s s1 p pt her :
  parse (so_here s) p = Some pt -> std_info hp s (p_pkg pt) = (s1, Ok her) ->
  let q := join2 (h_dir her) (p_name pt) in is_rooted q = true ->
  let gone {A} (r : res A) := exists e, r = Err e /\ disk_not_exist fs e = true in
  let gone' (r : option gerr) := exists e, r = Some e /\ disk_not_exist fs e = true in
  (gone (std_open parse hp fs s p).2 <-> absent fs (clean_elems q)) /\
  (gone (std_stat parse hp fs s p).2 <-> absent fs (clean_elems q)) /\
  (gone' (std_remove parse hp fs s p).2 <-> absent fs (clean_elems q)) /\
  (gone (std_create parse nm hp fs s p).2 <-> exists ws w, clean_elems q = ws ++ [w] /\ absent fs ws) /\
  ~ gone' (std_remove_all parse hp fs s p).2 /\
  (is_rooted (join2 (h_dir her) p) = true -> ~ gone' (std_mkdir_all parse nm hp fs s p).2).
Proof.
  intros Hp Hi q Hq gone gone'.
  assert (Hf : forall op r, is_rooted r = true -> disk_not_exist fs (EPath op r) = true <-> absent fs (clean_elems r)).
  { intros op r Hr. by apply ferr_missing. }
  assert (Hfind : find fs q = get fs (clean_elems q)) by (unfold find; by rewrite Hq).
  assert (Habs : absent fs (clean_elems q) -> find fs q = None).
  { intros Ha. apply absent_missing, missing_get in Ha as [Ha _]. by rewrite Hfind. }
  assert (Hupd : forall f n, DiskOps.upd f fs (clean_elems q) = Some n -> absent fs (clean_elems q) -> f None = Some (get n (clean_elems q))).
  { intros f n Hu Ha. apply upd_at in Hu. rewrite <- Hfind, Habs in Hu; done. }
  split_and!.
  - unfold std_open. rewrite Hp, Hi. fold q. unfold os_open. destruct (find fs q) as [n|] eqn:E.
    + split; [|intros Ha; apply Habs in Ha; congruence]. intros (e & He & Hn). destruct (n_ok (n_meta n)); [done|]. cbn in He.
      injection He as <-. by rewrite Hf in Hn.
    + split; [intros (e & [= <-] & Hn); by rewrite Hf in Hn|]. intros Ha. eexists. split; [done|]. by apply Hf.
  - unfold std_stat. rewrite Hp, Hi. fold q. unfold os_stat. destruct (find fs q) as [n|] eqn:E.
    + split; [|intros Ha; apply Habs in Ha; congruence]. by intros (e & He & Hn).
    + split; [intros (e & [= <-] & Hn); by rewrite Hf in Hn|]. intros Ha. eexists. split; [done|]. by apply Hf.
  - unfold std_remove. rewrite Hp, Hi. fold q. unfold os_remove, at_path, or_err. rewrite Hq.
    destruct (DiskOps.upd remove_fn fs (clean_elems q)) as [n|] eqn:E.
    + split; [by intros (e & He & Hn)|]. intros Ha. by apply Hupd in E.
    + split; [intros (e & [= <-] & Hn); by rewrite Hf in Hn|]. intros Ha. eexists. split; [done|]. by apply Hf.
  - unfold std_create. rewrite Hp, Hi. fold q. unfold os_create, at_path, or_err. rewrite Hq.
    destruct (DiskOps.upd (create_fn nm) fs (clean_elems q)) as [n|] eqn:E.
    + split.
      * intros (e & He & Hn). exfalso. pose proof (upd_at _ _ _ _ E) as Eg.
        assert (Hs : exists c, get n (clean_elems q) = Some c).
        { unfold create_fn in Eg. destruct (get fs (clean_elems q)) as [[j d|j cs]|]; [destruct (n_ok j)| |]; try done; injection Eg as Eg; eauto. }
        destruct Hs as [c Hc]. unfold os_stat, find in He. rewrite Hq, Hc in He. done.
      * intros (ws & w & Ew & Ha). exfalso. rewrite Ew in E. apply upd_parent in E as (i & cs & Eg).
        apply absent_missing, missing_get in Ha as [Ha _]. congruence.
    + split.
      * intros (e & [= <-] & Hn). rewrite Hf in Hn by done. destruct Hn as (us & w & vs & i & cs & Ew & Hg & Hc).
        destruct vs as [|x vs _] using rev_ind.
        -- exfalso. rewrite Ew in E. destruct (upd_total (create_fn nm) fs us w i cs (Some (NFile nm [])) Hg) as [n' Hn']; [by rewrite Hc|congruence].
        -- exists (us ++ w :: vs), x. split; [rewrite Ew; by rewrite <- app_assoc|]. by exists us, w, vs, i, cs.
      * intros (ws & w & Ew & us & w' & vs & i & cs & -> & Hg & Hc). eexists. split; [done|]. apply Hf; [done|].
        rewrite Ew. exists us, w', (vs ++ [w]), i, cs. by rewrite <- app_assoc.
  - unfold std_remove_all. rewrite Hp, Hi. fold q. unfold os_remove_all, at_path, or_err. rewrite Hq.
    intros (e & He & Hn). destruct (missing fs (clean_elems q)) eqn:Em; [done|]. destruct (DiskOps.upd _ fs _); [done|].
    injection He as <-. apply Hf in Hn; [|done]. apply absent_missing in Hn. congruence.
  - intros Hr. unfold std_mkdir_all. rewrite Hp, Hi. unfold os_mkdir_all, at_path, or_err. rewrite Hr.
    intros (e & He & Hn). destruct (mkdirs nm fs _) eqn:Em; [done|]. injection He as <-. apply Hf in Hn; [|done].
    apply mkdirs_none in Em as (vs & us & j & d & Ew & Hg). rewrite Ew in Hn. apply absent_missing in Hn.
    clear -Hn Hg. revert fs Hn Hg. induction vs as [|v vs IH]; intros fs Hn Hg; cbn in Hg.
    + injection Hg as ->. by destruct us.
    + destruct fs as [|i cs]; [done|]. cbn in Hn. destruct (child v cs); [by eapply IH|done].
Qed.

(** So is the error of a walk from there, of which the callback knows nothing. *)
Theorem C124_walk {S} parse hp fs s s1 p pt her (wf : bytes -> details -> S -> S * option gerr) x :
  parse (so_here s) p = Some pt -> std_info hp s (p_pkg pt) = (s1, Ok her) ->
  let q := join2 (h_dir her) (p_name pt) in is_rooted q = true -> absent fs (clean_elems q) ->
  exists e, std_walk parse hp fs s p wf x = ((x, s1), Some e) /\ disk_not_exist fs e = true.
Proof.
  intros Hp Hi q Hq Ha. unfold std_walk. rewrite Hp, Hi. fold q. unfold walk_disk.
  assert (find fs q = None) as ->.
  { unfold find. rewrite Hq. apply absent_missing, missing_get in Ha as [Ha _]. done. }
  eexists. split; [done|]. cbn. by apply ferr_missing.
Qed.

Example C124_disk_ex :
  let fs := std_app [(B"a", NFile std_meta (B"1")); (B"d", NDir std_meta [])] in
  let q := B"/src/app/d/b" in
  here_parse her_ex (B"/d/b") = Some (Path (B"app") (B"/d/b")) /\ join2 (h_dir her_ex) (B"/d/b") = q /\
  absent fs (clean_elems q) /\ ~ absent fs (clean_elems (B"/src/app/a/b")) /\
  match (std_stat here_parse no_hp fs (std_new her_ex) (B"/d/b")).2 with
  | Err e => disk_not_exist fs e = true | Ok _ => False end /\
  match (std_stat here_parse no_hp fs (std_new her_ex) (B"/a/b")).2 with
  | Err e => disk_not_exist fs e = false | Ok _ => False end.
Proof.
  split; [by vm_compute|]. split; [by vm_compute|]. split; [by apply absent_missing; vm_compute|].
  split; [rewrite absent_missing; by vm_compute|]. split; by vm_compute.
Qed.
