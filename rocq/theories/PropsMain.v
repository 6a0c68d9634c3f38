(** Theorems: the program as a whole (C75, C88-C91), and concrete cases for
    C83-C87. *)
From Verif Require Import Bytes GoPath Here GoTypes Mem MemSpec MemBase MarshalMem WalkSpec JsonStr JsonText Indent GoTimeFmt Embed Marshal Disk DiskOps Decls DeclsProofs
  Source SourceProofs ParserDirs Project Pack Std Dump Package Cli Cmds PropsCli PropsStd PropsMarshal PropsSource PropsDump PropsParser PropsPack PropsProject PropsCmds.

(** ** Concrete cases for C83-C87 *)

(** The module of PropsProject.v, with a package dep elsewhere. *)
Definition ex_hp : bytes -> res hinfo := fun p => if bool_decide (p = B"app") then Ok her_ex else dep_hp p.
Definition ex_w : world :=
  World her_ex here_parse wit_hdir ex_hp proj_src id id id any_range id (fun _ k => JNum (Z.of_nat k)) 10 wit_meta.

Example C83_ex :
  (forall a i, a ∈ or_dot [B"app"; B"dep"; B"nope"; B"app"] -> known ex_w a = Ok i -> info_ok i) /\
  match run_info ex_w [B"app"; B"dep"; B"nope"; B"app"] with
  | Ret out e => read_all d_hinfo out = Some [her_ex; dep_her] /\ e = Some EParse
  | Quit => False
  end.
Proof.
  split; [|by vm_compute]. intros a i _. unfold known. case_bool_decide; [intros [= <-]; info_tac|].
  cbn [w_hpkg ex_w]. unfold ex_hp, dep_hp. case_bool_decide; [by intros [= <-]; info_tac|]. case_bool_decide; [|done]. intros [= <-]. info_tac.
Qed.

Example C84_ex :
  split_args help_formal [B"--"; B"/a.txt"; B"dep:/x"] [] [B"/a.txt"; B"dep:/x"] /\
  match run_path ex_w [B"--"; B"/a.txt"; B"dep:/x"] with
  | Ret out e => e = None /\
      (read_one (d_map d_path) out ≫= lookup (B"dep:/x")) = Some (Path (B"dep") (B"/x"))
  | Quit => False
  end /\
  run_path ex_w [B"/a.txt"; B":"; B"::"] <> Quit.
Proof.
  split; [exists []; split; [constructor|by right]|]. split; [by vm_compute|]. by vm_compute.
Qed.

Example C85_ex :
  (exists ds, declarations ex_w proj_fs (B".") ds /\ Forall decl_ok ds /\ length ds = 3) /\
  match run_parse ex_w proj_fs [] with
  | Ret out e => e = None /\
      map (fun pd => (pd.1, d_value pd.2)) <$> (read_one (d_map (d_list d_decl)) out ≫= lookup (B".")) =
        Some [(JNum 0, B"/img/b.png"); (JNum 1, B"/a.txt"); (JNum 2, B"/img")]
  | Quit => False
  end /\
  exists e, run_parse ex_w bad_fs [] = Ret [] (Some e).
Proof.
  split.
  - exists (rev (tail proj_ds)). split.
    + exists her_ex. split; [by left|by vm_compute].
    + split; [|done]. cbn [tail proj_ds rev app]. repeat (apply List.Forall_cons; [split; [split; [u8|split; u8|info_tac]|u8]|]).
      apply List.Forall_nil.
  - split; [by vm_compute|]. eexists. by vm_compute.
Qed.

Example C86_ex :
  match run_stat ex_w proj_fs [B"/a.txt"; B"/"; B"/zz"; B"/a.txt"] with
  | Ret out e => map (fun d => (d_name d, d_size d, d_isdir d)) <$> read_all d_details out =
      Some [(B"a.txt", 5%Z, false); (B"a.txt", 5%Z, false); (B"img", 4096%Z, true); (B"main.go", 4%Z, false); (B"sub", 4096%Z, true);
            (B"vendor", 4096%Z, true)] /\ e = Some (EPath (B"open") (B"/src/app/zz"))
  | Quit => False
  end.
Proof. vm_compute. done. Qed.

Example C87_ex :
  match exec_list ex_w proj_fs [B"-include"; B"/main.go"] with
  | (_, Ret out e) => e = None /\
      lines out = [B"app"; B" > app:/a.txt"; B" > app:/img"; B" > app:/img/b.png"; B" > app:/main.go"]
  | (_, Quit) => False
  end /\
  match exec_list ex_w proj_fs [B"-json"] with
  | (_, Ret out e) => e = None /\
      (fun x => (x.1, map pf_abs x.2)) <$> read_one d_listing out =
        Some (B"app", [B"/src/app/a.txt"; B"/src/app/img"; B"/src/app/img/b.png"])
  | (_, Quit) => False
  end /\
  (exec_list ex_w bad_fs []).2 <> Ret [] None.
Proof. vm_compute. done. Qed.

(** A file name may contain a newline; then a line is printed that stands for
    no file (resolver recalled from the dependency). *)
Definition nl_fs : node :=
  wit_app [(B"img", NDir wit_meta [(B"x" ++ [newline] ++ B" > y", wit_file)]); (B"main.go", NFile wit_meta (B"main"))].
Definition nl_src : bytes -> bytes -> res source := fun _ _ => Ok (Src (AOther [src_call "Walk" [str "/img"]]) no_objs).
Definition nl_w : world :=
  World her_ex here_parse wit_hdir no_hp nl_src id id id any_range id (fun _ k => JNum (Z.of_nat k)) 10 wit_meta.
Definition nl_name : bytes := B"x" ++ [newline] ++ B" > y".
Theorem C87_text_refuted :
  exists w fs fl out, wf_node fs /\ to_list w (without_output w fs) [] fl /\ (exec_list w fs []).2 = Ret out None /\
    exists line, line ∈ lines out /\ line <> h_import (w_her w) /\ Forall (fun f => line <> B" > " ++ path_string (pf_path f)) fl.
Proof.
  exists nl_w, nl_fs,
    [PFile (B"/src/app/img") (Path (B"app") (B"/img")) her_ex;
     PFile (B"/src/app/img/" ++ nl_name) (Path (B"app") (B"/img/" ++ nl_name)) her_ex],
    (B"app" ++ [newline] ++ B" > app:/img" ++ [newline] ++ B" > app:/img/" ++ nl_name ++ [newline]).
  split; [wf_tac|]. split; [exists [wit_decl KWalk (B"/img") [B"img"]]; split; by vm_compute|]. split; [by vm_compute|].
  exists (B" > y"). split; [apply (bool_decide_eq_true_1 (B" > y" ∈ _)); by vm_compute|].
  split; [by intros [=]|]. repeat (apply List.Forall_cons; [by vm_compute|]). apply List.Forall_nil.
Qed.

(** ** C72: what `list` does to the disk *)

Lemma rm_beside fs p vs : beside vs (clean_elems p) -> get (rm fs p) vs = get fs vs.
Proof.
  intros Hb. unfold rm, os_remove_all, at_path. destruct (is_rooted p); [|done].
  destruct (DiskOps.missing fs (clean_elems p)); [done|]. destruct (upd _ fs (clean_elems p)) as [n|] eqn:E; [|done].
  cbn [or_err]. by eapply upd_beside.
Qed.

Lemma missing_none n ws : DiskOps.missing n ws = true -> get n ws = None.
Proof.
  revert n. induction ws as [|w ws IH]; intros n; cbn [DiskOps.missing get]; [done|].
  destruct n as [|i cs]; [done|]. destruct (child w cs); [apply IH|done].
Qed.
Lemma upd_at f n ws n' : upd f n ws = Some n' -> f (get n ws) = Some (get n' ws).
Proof.
  intros H. destruct ws as [|w ws]; [|by apply upd_same]. cbn [upd] in H.
  destruct n, n'; cbn [get]; destruct (f _) as [[?|]|]; congruence.
Qed.
Lemma upd_ok f n ps x i cs r : get n ps = Some (NDir i cs) -> f (child x cs) = Some r -> exists n', upd f n (ps ++ [x]) = Some n'.
Proof.
  revert n. induction ps as [|p ps IH]; intros n Hg Hf.
  - destruct n; [done|]. injection Hg as -> ->. cbn [app upd]. rewrite Hf. destruct r; by eexists.
  - cbn [get] in Hg. destruct n as [|j ds]; [done|]. destruct (child p ds) as [c|] eqn:Ec; [|done].
    destruct (IH c Hg Hf) as [c' E]. cbn [app upd]. rewrite Ec.
    destruct (ps ++ [x]) as [|y l] eqn:El; [by destruct ps|]. rewrite E. by eexists.
Qed.

(** Removing a file whose directory exists. *)
Lemma rm_gone fs p ps x i cs : is_rooted p = true -> clean_elems p = ps ++ [x] -> get fs ps = Some (NDir i cs) ->
  get (rm fs p) (clean_elems p) = None /\ exists j ds, get (rm fs p) ps = Some (NDir j ds).
Proof.
  intros Hr Hp Hg. unfold rm, os_remove_all, at_path. rewrite Hr, Hp.
  destruct (DiskOps.missing fs (ps ++ [x])) eqn:Em; [split; [by apply missing_none|by eexists _, _]|].
  destruct (upd_ok (fun _ => Some None) fs ps x i cs None Hg eq_refl) as [n E]. rewrite E. cbn [or_err]. split.
  - apply upd_at in E. by injection E as <-.
  - destruct (upd_above _ _ _ _ ps [x] E eq_refl) as (j & ds & ds' & _ & H); [done|]. by eexists _, _.
Qed.

(** `pkger list` removes the generated file of the package ... *)
Theorem C72_removed w fs listen args sets rest ps x i b :
  split_args list_formal args sets rest -> B"-h" ∉ args ->
  let p := join2 (h_dir (w_her w)) (B"pkged.go") in
  is_rooted p = true -> clean_elems p = ps ++ [x] -> get fs (ps ++ [x]) = Some (NFile i b) ->
  get (f_fs (main w fs listen (B"list" :: args))) (ps ++ [x]) = None.
Proof.
  intros Hs Hh p Hr Hp Hg. unfold main, run_args.
  rewrite (C52_subcommand (B"list") args) by (rewrite !elem_of_cons; auto 10). rewrite bool_decide_eq_false_2 by done.
  unfold exec_sub. rewrite bool_decide_eq_false_2 by (intros [=]). rewrite bool_decide_eq_true_2 by done.
  unfold exec_list. apply C74_flags in Hs. rewrite Hs. change out_name with (B"pkged.go"). fold p.
  assert (Hn : get (rm fs p) (ps ++ [x]) = None).
  { rewrite <- Hp. rewrite get_app in Hg. destruct (get fs ps) as [n|] eqn:En; [|done].
    destruct n as [|j cs]; [done|]. by apply (rm_gone fs p ps x j cs). }
  destruct (scan w _ _ _) as [ds|e]; [|by cbn [main_end f_fs]].
  destruct (files _ _ _ _ _) as [fl|e]; by cbn [main_end f_fs].
Qed.

(** ... and nothing else. *)
Theorem C72_else w fs listen args vs :
  beside vs (clean_elems (join2 (h_dir (w_her w)) (B"pkged.go"))) ->
  get (f_fs (main w fs listen (B"list" :: args))) vs = get fs vs.
Proof.
  intros Hb. unfold main, run_args.
  rewrite (C52_subcommand (B"list") args) by (rewrite !elem_of_cons; auto 10). case_bool_decide; [by cbn [main_end f_fs]|].
  unfold exec_sub. rewrite bool_decide_eq_false_2 by (intros [=]). rewrite bool_decide_eq_true_2 by done.
  unfold exec_list. destruct (parse_flags list_formal args) as [sets rest|]; [|by cbn [main_end f_fs]].
  change out_name with (B"pkged.go"). pose proof (rm_beside fs _ vs Hb) as E.
  destruct (scan w _ _ _) as [ds|e]; [|by cbn [main_end f_fs]].
  destruct (files _ _ _ _ _) as [fl|e]; by cbn [main_end f_fs].
Qed.

(** ** C89: what packing does to the disk *)

Lemma create_beside nm fs p fs' vs : os_create nm fs p = Ok fs' -> beside vs (clean_elems p) -> get fs' vs = get fs vs.
Proof. intros H Hb. apply os_upd_inv in H as [_ H]. by eapply upd_beside. Qed.
Lemma append_beside fs p b fs' vs : append fs p b = Ok fs' -> beside vs (clean_elems p) -> get fs' vs = get fs vs.
Proof. intros H Hb. apply os_upd_inv in H as [_ H]. by eapply upd_beside. Qed.

(** Where one is after following the elements of a path from directory [rs]. *)
Fixpoint cd (rs es : list bytes) : list bytes :=
  match es with
  | [] => rs
  | e :: es => cd (if decide (e = [] \/ e = B".") then rs else if decide (e = B"..") then removelast rs else rs ++ [e]) es
  end.

(** The output is pkged.go, in the directory one gets to by following the value
    of -o from the directory of the package. *)
Theorem C89_place w out rs :
  Forall good_elem rs -> h_dir (w_her w) = abs_name rs ->
  out_path w out = abs_name (cd rs (split_slash out) ++ [B"pkged.go"]).
Proof.
  intros Hg Hd.
  assert (Hf : forall es rs, Forall good_elem rs -> Forall (fun e : bytes => slash ∉ e) es ->
    fold_left (clean_step true) es (rev rs) = rev (cd rs es) /\ Forall good_elem (cd rs es)).
  { clear. induction es as [|e es IH]; intros rs Hr He; [done|]. apply Forall_cons in He as [He Hes]. cbn [fold_left cd].
    unfold clean_step at 2. change (B".") with dot. change (B"..") with dotdot.
    destruct (decide (e = [] \/ e = dot)) as [Ho|Ho].
    - assert (bool_decide (e = []) || bool_decide (e = dot) = true) as ->.
      { apply orb_true_iff. destruct Ho; [left|right]; by apply bool_decide_eq_true_2. }
      by apply IH.
    - assert (bool_decide (e = []) || bool_decide (e = dot) = false) as ->.
      { apply orb_false_iff. split; apply bool_decide_eq_false_2; tauto. }
      destruct (decide (e = dotdot)) as [->|Hn].
      + rewrite bool_decide_eq_true_2 by done. destruct rs as [|r rs _] using rev_ind; [by apply (IH [])|].
        apply Forall_app in Hr as [Hr Hx]. apply Forall_cons in Hx as [Hx _]. rewrite rev_app_distr. cbn [rev app].
        rewrite removelast_last, bool_decide_eq_false_2 by apply Hx. by apply IH.
      + rewrite bool_decide_eq_false_2 by done. replace (e :: rev rs) with (rev (rs ++ [e])) by (by rewrite rev_app_distr).
        apply IH; [|done]. apply Forall_app. split; [done|]. constructor; [|constructor]. split_and!; tauto. }
  assert (Hk : good_elem (B"pkged.go")) by (by apply good_elem_dec_ok).
  unfold out_path. rewrite Hd. destruct out as [|a out].
  - change (cd rs (split_slash [])) with rs.
    rewrite <- (clean_join_abs rs [B"pkged.go"]) by auto.
    change (join2 (abs_name rs) out_name) with (slash :: join_slash (clean_elems (abs_name rs ++ slash :: out_name))).
    change (join2 (abs_name rs) (abs_name [B"pkged.go"])) with
      (slash :: join_slash (clean_elems (abs_name rs ++ slash :: slash :: out_name))).
    unfold clean_elems. change (is_rooted _) with true. by rewrite !split_app_general, !fold_left_app.
  - remember (a :: out) as o eqn:Ho. clear Ho.
    change (join2 (abs_name rs) (o ++ slash :: out_name)) with (clean (abs_name rs ++ slash :: o ++ slash :: out_name)).
    assert (E : clean_elems (abs_name rs ++ slash :: o ++ slash :: out_name) = cd rs (split_slash o) ++ [B"pkged.go"]).
    { unfold clean_elems. change (is_rooted _) with true. rewrite !split_app_general, !fold_left_app.
      pose proof (clean_elems_abs rs Hg) as Hc. unfold clean_elems in Hc. rewrite is_rooted_abs in Hc.
      rewrite <- (rev_involutive (fold_left _ (split_slash (abs_name rs)) _)), Hc.
      destruct (Hf (split_slash o) rs Hg (split_slash_elems o)) as [-> _].
      change (split_slash out_name) with [B"pkged.go"]. cbn [fold_left]. rewrite clean_step_good by done.
      cbn [rev]. by rewrite rev_involutive. }
    change (clean (abs_name rs ++ slash :: o ++ slash :: out_name)) with
      (slash :: join_slash (clean_elems (abs_name rs ++ slash :: o ++ slash :: out_name))). by rewrite E.
Qed.

Example C89_place_ex : Forall good_elem wit_rs /\ h_dir (w_her ex_w) = abs_name wit_rs /\
  out_path ex_w (B"out/./x/../sub/") = B"/src/app/out/sub/pkged.go" /\
  cd wit_rs (split_slash (B"out/./x/../sub/")) = wit_rs ++ [B"out"; B"sub"].
Proof. split; [repeat constructor; by apply good_elem_dec_ok|]. split_and!; by vm_compute. Qed.

(** `pkger` (packing), successful or not, leaves everything beside its output
    as it was. *)
Theorem C89_only_output w fs out incs fs' e vs :
  pack_run w fs out incs = (fs', e) -> beside vs (clean_elems (out_path w out)) -> get fs' vs = get fs vs.
Proof.
  intros H Hb. unfold pack_run in H. set (fp := out_path w out) in *.
  pose proof (rm_beside fs fp vs Hb) as E0. destruct (scan w (rm fs fp) _ _) as [ds|?]; [|by injection H as <- _].
  unfold package_fs in H. destruct (w_hdir w (dirname fp)) as [c|?]; [|by injection H as <- _].
  pose proof (rm_beside (rm fs fp) fp vs Hb) as E1.
  destruct (os_create _ _ fp) as [fs1|?] eqn:H1; [|injection H as <- _; congruence].
  pose proof (create_beside _ _ _ _ _ H1 Hb) as E2.
  destruct (append fs1 fp _) as [fs2|?] eqn:H2; [|injection H as <- _; congruence].
  pose proof (append_beside _ _ _ _ _ H2 Hb) as E3.
  destruct (stuff _ _ _ _ _ _ _ _ _) as [payload|?]; [|injection H as <- _; congruence].
  destruct (append fs2 fp (payload ++ _)) as [fs3|?] eqn:H3; [|injection H as <- _; congruence].
  pose proof (append_beside _ _ _ _ _ H3 Hb) as E4. injection H as <- _. congruence.
Qed.

(** Everything beside [ws] is the same. *)
Definition as_was (fs fs' : node) (ws : list bytes) : Prop := forall vs, beside vs ws -> get fs' vs = get fs vs.

(** If it succeeds, the output is the complete generated file: its package is
    that of the directory it lies in, its payload what Stuff makes of the
    declarations found, on a tree in which the output holds its header. *)
Theorem C89_output w fs out incs fs' :
  pack_run w fs out incs = (fs', None) ->
  exists i c fs1 ds fs2 payload, let fp := out_path w out in
    get fs' (clean_elems fp) = Some (NFile i (pkged_file (h_name c) payload)) /\
    w_hdir w (dirname fp) = Ok c /\
    as_was fs fs1 (clean_elems fp) /\ scan w fs1 (w_her w) incs = Ok ds /\
    as_was fs fs2 (clean_elems fp) /\ get fs2 (clean_elems fp) = Some (NFile i (pkged_header (h_name c) ++ [backquote])) /\
    stuff (w_parse w) (w_hdir w) (w_hpkg w) fs2 (w_gz w) (w_range w) (w_forder w) (w_her w) ds = Ok payload.
Proof.
  intros H. unfold pack_run in H. set (fp := out_path w out) in *.
  destruct (scan w (rm fs fp) _ _) as [ds|?] eqn:Hd; [|done].
  unfold package_fs in H. destruct (w_hdir w (dirname fp)) as [c|?] eqn:Hc; [|done].
  destruct (os_create _ _ fp) as [fs1|?] eqn:H1; [|done].
  destruct (append fs1 fp _) as [fs2|?] eqn:H2; [|done].
  destruct (stuff _ _ _ _ _ _ _ _ _) as [payload|?] eqn:Hp; [|done].
  destruct (append fs2 fp (payload ++ _)) as [fs3|?] eqn:H3; [|done]. injection H as <-.
  assert (Hi : exists i, get fs1 (clean_elems fp) = Some (NFile i [])).
  { apply os_upd_inv in H1 as [_ H1]. apply upd_at in H1. unfold create_fn in H1.
    destruct (get _ _) as [[j d|]|]; [|done|injection H1 as <-; by eexists].
    destruct (n_ok j); [|done]. injection H1 as <-. by eexists. }
  destruct Hi as [i Hi].
  assert (Happ : forall a b d e, append a fp b = Ok d -> get a (clean_elems fp) = Some (NFile i e) ->
    get d (clean_elems fp) = Some (NFile i (e ++ b))).
  { intros a b d e Ha Hg. apply os_upd_inv in Ha as [_ Ha]. apply upd_at in Ha. rewrite Hg in Ha. cbn [append_fn] in Ha. by injection Ha as <-. }
  pose proof (Happ _ _ _ _ H2 Hi) as G2. rewrite header_concat in G2. cbn [app] in G2. pose proof (Happ _ _ _ _ H3 G2) as G3.
  exists i, c, (rm fs fp), ds, fs2, payload. cbv zeta. fold fp. split.
  { rewrite G3. unfold pkged_file, footer_write. by rewrite <- !app_assoc. }
  split; [done|]. split; [intros vs Hb; by apply rm_beside|]. split; [done|]. split; [|done].
  intros vs Hb. rewrite (append_beside _ _ _ _ _ H2 Hb), (create_beside _ _ _ _ _ H1 Hb), !rm_beside by done. done.
Qed.

(** It does succeed, if the directory for the output is there, the module can
    be scanned and packed, and the package of the output is known. *)
Theorem C89_succeeds w fs out incs ps x i cs c :
  let fp := out_path w out in
  is_rooted fp = true -> clean_elems fp = ps ++ [x] -> get fs ps = Some (NDir i cs) -> w_hdir w (dirname fp) = Ok c ->
  (forall fs1, as_was fs fs1 (ps ++ [x]) -> get fs1 (ps ++ [x]) = None -> exists ds, scan w fs1 (w_her w) incs = Ok ds /\
    forall fs2, as_was fs fs2 (ps ++ [x]) -> get fs2 (ps ++ [x]) = Some (NFile (w_new w) (pkged_header (h_name c) ++ [backquote])) ->
      exists payload, stuff (w_parse w) (w_hdir w) (w_hpkg w) fs2 (w_gz w) (w_range w) (w_forder w) (w_her w) ds = Ok payload) ->
  (pack_run w fs out incs).2 = None.
Proof.
  intros fp Hr Hp Hg Hc Hall. unfold pack_run. fold fp.
  destruct (rm_gone fs fp ps x i cs Hr Hp Hg) as [Hn (j & ds' & Hg')]. rewrite Hp in Hn.
  assert (W1 : as_was fs (rm fs fp) (ps ++ [x])) by (intros vs Hb; apply rm_beside; by rewrite Hp).
  destruct (Hall _ W1 Hn) as (ds & -> & Hs). unfold package_fs. rewrite Hc.
  destruct (rm_gone (rm fs fp) fp ps x j ds' Hr Hp Hg') as [Hn' (j' & ds'' & Hg'')]. rewrite Hp in Hn'.
  assert (W2 : as_was fs (rm (rm fs fp) fp) (ps ++ [x])).
  { intros vs Hb. rewrite rm_beside by (by rewrite Hp). by apply W1. }
  revert Hn' Hg'' W2. generalize (rm (rm fs fp) fp). intros fs2 Hn2 Hg2 W2.
  assert (Hch : child x ds'' = None). { rewrite get_app, Hg2 in Hn2. cbn [get] in Hn2. by destruct (child x ds''). }
  destruct (upd_ok (create_fn (w_new w)) fs2 ps x j' ds'' (Some (NFile (w_new w) [])) Hg2) as [fs3 H3]; [by rewrite Hch|].
  unfold os_create, at_path. rewrite Hr, Hp, H3. cbn [or_err].
  assert (G3 : get fs3 (ps ++ [x]) = Some (NFile (w_new w) [])).
  { apply upd_at in H3. rewrite Hn2 in H3. cbn [create_fn] in H3. by injection H3 as <-. }
  assert (W3 : as_was fs fs3 (ps ++ [x])). { intros vs Hb. rewrite (upd_beside _ _ _ _ _ H3 Hb). by apply W2. }
  assert (Happ : forall a b e, get a (ps ++ [x]) = Some (NFile (w_new w) e) ->
    exists d, append a fp b = Ok d /\ get d (ps ++ [x]) = Some (NFile (w_new w) (e ++ b)) /\ (as_was fs a (ps ++ [x]) -> as_was fs d (ps ++ [x]))).
  { intros a b e Ha. unfold append, at_path. rewrite Hr, Hp.
    assert (Hpar : exists k l, get a ps = Some (NDir k l) /\ child x l = Some (NFile (w_new w) e)).
    { rewrite get_app in Ha. destruct (get a ps) as [[|k l]|]; [done| |done]. exists k, l. split; [done|]. cbn [get] in Ha. by destruct (child x l) as [[]|]. }
    destruct Hpar as (k & l & Hk & Hl).
    destruct (upd_ok (append_fn b) a ps x k l (Some (NFile (w_new w) (e ++ b))) Hk) as [d Hd]; [by rewrite Hl|].
    rewrite Hd. exists d. split; [done|]. split.
    - apply upd_at in Hd. rewrite Ha in Hd. cbn [append_fn] in Hd. by injection Hd as <-.
    - intros Wa vs Hb. rewrite (upd_beside _ _ _ _ _ Hd Hb). by apply Wa. }
  destruct (Happ fs3 (concat (header_writes (h_name c))) [] G3) as (fs4 & -> & G4 & W4).
  rewrite header_concat in G4. cbn [app] in G4. destruct (Hs fs4 (W4 W3) G4) as [payload ->].
  destruct (Happ fs4 (payload ++ footer_write) _ G4) as (fs5 & -> & _). done.
Qed.

(** What is found in the generated file [p] by a program built with it. *)
Definition built (gunzip : bytes -> res bytes) (fs : node) (p : bytes) : option mem :=
  match find fs p with
  | Some (NFile _ text) =>
      match first_raw text with
      | Some (_, payload, _) => match unmarshal_embed gunzip here_parse id payload with Marshal.Done m => Some m | _ => None end
      | None => None
      end
  | _ => None
  end.

Example C72_C89_ex :
  let r := main ex_w proj_fs EParse [B"-include"; B"/main.go"] in
  f_status r = 0 /\ clean_elems (out_path ex_w []) = wit_rs ++ [B"pkged.go"] /\ is_rooted (out_path ex_w []) = true /\
  (m ← built Ok (f_fs r) (B"/src/app/pkged.go"); snd <$> seen here_parse m (B"/a.txt")) = Some (B"hello") /\
  let r' := main ex_w (f_fs r) EParse [B"list"] in
  f_status r' = 0 /\ is_Some (find (f_fs r) (B"/src/app/pkged.go")) /\ find (f_fs r') (B"/src/app/pkged.go") = None /\
  find (f_fs r') (B"/src/app/a.txt") = Some (NFile wit_meta (B"hello")).
Proof. vm_compute. repeat split; try done. by eexists. Qed.

(** The full claim, "`pkger list` leaves the package as it was", fails. *)
Theorem C72_removed_refuted :
  exists w fs, let r := main w fs EParse [B"list"] in
    f_status r = 0 /\ is_Some (find fs (B"/src/app/pkged.go")) /\ find (f_fs r) (B"/src/app/pkged.go") = None.
Proof.
  exists ex_w, (f_fs (main ex_w proj_fs EParse [B"-include"; B"/main.go"])). vm_compute. repeat split; try done. by eexists.
Qed.

(** The conditions of [C89_succeeds] can be met: a module without pkger calls. *)
Example C89_succeeds_ex :
  (pack_run (World her_ex here_parse wit_hdir no_hp (fun _ _ => Err EParse) id id id any_range id (fun _ _ => JNull) 3 wit_meta)
    (wit_app [(B"out", NDir wit_meta [])]) (B"out") []).2 = None.
Proof. by vm_compute. Qed.

(** ** C90: the generated file and packing *)

(** With everything included, the program contains a copy of its own generated
    file, cut off after the header; and `list` does not show it (resolver
    recalled from the dependency). *)
Theorem C90_packs_itself_refuted :
  exists w fs, wf_node fs /\
    let r := main w fs EParse [B"-include"; B"/"] in
    f_status r = 0 /\
    (m ← built Ok (f_fs r) (B"/src/app/pkged.go"); snd <$> seen here_parse m (B"/pkged.go")) =
      Some (pkged_header (B"app") ++ [backquote]) /\
    B" > app:/pkged.go" ∉ lines (f_out (main w fs EParse [B"list"; B"-include"; B"/"])).
Proof.
  exists ex_w, proj_fs. split; [apply proj_wf|]. cbv zeta. split; [by vm_compute|]. split; [by vm_compute|].
  apply (bool_decide_eq_false_1 (B" > app:/pkged.go" ∈ _)). by vm_compute.
Qed.

(** It is not packed if no listed file is the output or a directory above it. *)
Theorem C90_not_packed_partial gz gunzip parse hdir hpkg fs c rs mp rg uorder order ds l b os :
  packing gz gunzip parse hdir hpkg fs c rs mp rg uorder ->
  files parse hdir fs order ds = Ok l -> inside rs l ->
  stuff parse hdir hpkg fs gz rg order c ds = Ok b ->
  Forall good_elem os ->
  (forall f ws, f ∈ l -> pf_abs f = abs_name (rs ++ ws) -> Forall good_elem ws -> ~ ws `prefix_of` os) ->
  exists m', unmarshal_embed gunzip parse uorder b = Marshal.Done m' /\ file_at m' (Path mp (abs_name os)) = None.
Proof.
  intros Hp Hl Hin Hs Hos Hno.
  destruct (C41_contents_partial gz gunzip parse hdir hpkg fs c rs mp rg uorder order ds l b Hp Hl Hin Hs) as (m' & Hu & H).
  exists m'. split; [done|]. destruct (file_at m' _) as [x|] eqn:E; [|done]. exfalso.
  destruct (proj1 (H (Path mp (abs_name os)))) as (ns & us & Ep & Hns & [n Hg] & (f & Hf & Ef) & _); [by eexists|].
  assert (Hgd : Forall good_elem (ns ++ us)).
  { destruct (wf_get _ _ _ (pg_wf _ _ _ _ _ _ _ _ _ _ _ Hp) Hg) as [_ Hg']. by apply Forall_app in Hg' as [_ ?]. }
  apply (f_equal p_name) in Ep. cbn [p_name] in Ep. apply abs_name_inj in Ep; [|done..]. subst os.
  apply (Hno f ns Hf Ef Hns). by apply prefix_app_r.
Qed.

(** ** C88: options of subcommands *)

(** The options `serve` declares, serve.go:34. *)
Definition serve_formal (name : bytes) : option flagkind := if bool_decide (name = B"exclude") then Some FString else None.

(** Exec never has them parsed: the option itself is taken for the path. *)
Theorem C88_serve_ignores w fs listen v rest :
  split_args serve_formal [B"-exclude"; v] [(B"exclude", v)] [] /\
  run_serve w fs listen (B"-exclude" :: v :: rest) = run_serve w fs listen [B"-exclude"].
Proof.
  split; [|done]. exists ([B"-exclude"; v] ++ []). split; [|by left].
  apply (os_cons _ [B"-exclude"; v] (B"exclude", v) [] []); [|constructor]. apply (w_sep _ (B"-") (B"exclude") v); [by left| |done].
  split; [done|]. split; [|by intros [=]]. apply (bool_decide_eq_false_1 ("="%char ∈ _)). by vm_compute.
Qed.

(** So with it a directory that can be served is not. *)
Theorem C88_serve_refuted :
  exists w fs out e, run_serve w fs (EMsg (B"listening")) [B"/img"] = Ret out (Some (EMsg (B"listening"))) /\
    out = println (B"app:/img") /\
    run_serve w fs (EMsg (B"listening")) [B"-exclude"; B"x"; B"/img"] = Ret [] (Some e) /\ e <> EMsg (B"listening").
Proof.
  exists ex_w, proj_fs, (println (B"app:/img")), EParse. split; [by vm_compute|]. split; [done|]. split; [by vm_compute|done].
Qed.

(** ** C91: serving from disk *)

(** What lies in a directory. *)
Definition below (d p : bytes) : Prop := clean_elems d `prefix_of` clean_elems p.

(** A request with backslashes leaves the directory served; net/http does not
    clean them away (resolver recalled from the dependency). *)
Definition srv_fs : node :=
  NDir wit_meta [(B"etc", NDir wit_meta [(B"passwd", NFile wit_meta (B"root"))]);
    (B"src", NDir wit_meta [(B"app", NDir wit_meta [(B"pub", NDir wit_meta [(B"f", wit_file)])])])].
Definition escape : bytes := B"/..\..\..\..\etc/passwd".
Theorem C91_backslash_refuted :
  exists f f', (std_open here_parse no_hp srv_fs (std_new her_ex) (B"/pub")).2 = Ok f /\
    sf_os f = B"/src/app/pub" /\ clean escape = escape /\
    (sfile_open here_parse no_hp srv_fs (std_new her_ex) f escape).2 = Ok f' /\ sf_os f' = B"/etc/passwd" /\
    find srv_fs (sf_os f') = Some (NFile wit_meta (B"root")) /\ ~ below (sf_os f) (sf_os f').
Proof.
  eexists _, _. split; [vm_compute; reflexivity|]. split; [done|]. split; [by vm_compute|].
  split; [vm_compute; reflexivity|]. split; [done|]. split; [by vm_compute|].
  unfold below. intros [k Hk]. by vm_compute in Hk.
Qed.

(** Serving the whole module: a request that starts with the module's own
    directory can name any other package. *)
Definition fmt_her : hinfo := HInfo (B"/go/fmt") (B"fmt") (B"fmt") (B"fmt") false (B"/go/fmt") [] (B"1.13").
Definition fmt_hp : bytes -> res hinfo := fun p => if bool_decide (p = B"fmt") then Ok fmt_her else Err EParse.
Definition fmt_fs : node :=
  NDir wit_meta [(B"go", NDir wit_meta [(B"fmt", NDir wit_meta [(B"print.go", NFile wit_meta (B"package"))])]);
    (B"src", NDir wit_meta [(B"app", NDir wit_meta [(B"f", wit_file)])])].
Theorem C91_package_refuted :
  exists f f' name, (std_open here_parse fmt_hp fmt_fs (std_new her_ex) (B"/")).2 = Ok f /\
    sf_os f = B"/src/app" /\ clean name = name /\ backslash ∉ name /\
    (sfile_open here_parse fmt_hp fmt_fs (std_new her_ex) f name).2 = Ok f' /\ sf_os f' = B"/go/fmt/print.go" /\
    ~ below (sf_os f) (sf_os f').
Proof.
  eexists _, _, (B"/src/appfmt:/print.go"). split; [vm_compute; reflexivity|]. split; [done|]. split; [by vm_compute|].
  split; [apply (bool_decide_eq_false_1 (backslash ∈ _)); by vm_compute|].
  split; [vm_compute; reflexivity|]. split; [done|].
  unfold below. intros [k Hk]. by vm_compute in Hk.
Qed.

(** Requests without backslashes, colons and newlines, that do not repeat the
    module's directory, stay below. *)
Theorem C91_inside_partial hp hp' fs her p s' f ds ns vs f' :
  Forall good_elem ds -> Forall good_elem ns -> Forall good_elem vs ->
  std_open here_parse hp fs (std_new her) p = (s', Ok f) ->
  sf_path f = Path (h_mpath her) (abs_name ns) -> h_dir (sf_her f) = abs_name ds ->
  plain_name (abs_name (ns ++ vs)) -> dir_ok her (abs_name (ns ++ vs)) -> colon ∉ abs_name (ns ++ vs) ->
  h_mpath her <> abs_name (ns ++ vs) ->
  (sfile_open here_parse hp' fs s' f (abs_name vs)).2 = Ok f' -> below (sf_os f) (sf_os f') /\ sf_os f' = abs_name (ds ++ ns ++ vs).
Proof.
  intros Hds Hns Hvs Ho Hf Hd H1 H2 H3 H4 H5.
  destruct (C49_current_partial hp hp' fs her p s' f ds ns vs Hds Hns Hvs Ho Hf Hd H1 H2 H3 H4) as (r & Er & H).
  rewrite Er in H5. cbn [snd] in H5. subst r.
  assert (E : sf_os f' = abs_name (ds ++ ns ++ vs)).
  { destruct (find fs _) as [n|]; [|by destruct H]. destruct (n_ok _); [|by destruct H]. destruct H as (g & [= ->] & E & _). done. }
  split; [|done].
  assert (Ef : sf_os f = abs_name (ds ++ ns)).
  { revert Ho. unfold std_open. destruct (here_parse _ p) as [pt|]; [|done]. destruct (std_info _ _ _) as [s'' [i|]]; [|done].
    destruct (os_open fs _); [|done]. intros [= _ <-]. cbn [sf_os sf_her sf_path] in *. rewrite Hf, Hd. cbn [p_name].
    by apply clean_join_abs. }
  unfold below. rewrite E, Ef. rewrite !clean_elems_abs by (repeat (apply Forall_app; split); done).
  rewrite app_assoc. by apply prefix_app_r.
Qed.
Example C91_ex :
  let '(s, r) := std_open here_parse no_hp srv_fs (std_new her_ex) (B"/pub") in
  match r with
  | Ok f => sf_path f = Path (h_mpath her_ex) (abs_name [B"pub"]) /\ h_dir (sf_her f) = abs_name [B"src"; B"app"] /\
      match (sfile_open here_parse no_hp srv_fs s f (abs_name [B"f"])).2 with
      | Ok f' => sf_os f' = B"/src/app/pub/f"
      | Err _ => False
      end
  | Err _ => False
  end.
Proof. by vm_compute. Qed.

(** ** C75: exit status and clean-up *)

(** The commands that succeed. *)
Inductive sub_succeeds (w : world) (fs : node) : bytes -> list bytes -> Prop :=
| ss_info args : Forall (fun a => exists i, known w a = Ok i) (or_dot args) -> sub_succeeds w fs (B"info") args
| ss_stat args : Forall (fun a => exists x, stat_shows w fs a x) (or_dot args) -> sub_succeeds w fs (B"stat") args
| ss_path args sets rest : split_args help_formal args sets rest ->
    on (B"h") sets \/ (rest <> [] /\ Forall (fun a => is_Some (w_parse w (w_her w) a)) rest) -> sub_succeeds w fs (B"path") args
| ss_parse args sets rest : split_args help_formal args sets rest ->
    on (B"h") sets \/ Forall (fun a => exists ds, declarations w fs a ds) (or_dot rest) -> sub_succeeds w fs (B"parse") args
| ss_list args sets rest fl : split_args list_formal args sets rest ->
    to_list w (without_output w fs) (values (B"include") sets) fl -> sub_succeeds w fs (B"list") args.

Inductive succeeds (w : world) (fs : node) (args : list bytes) : Prop :=
| su_help sets rest : split_args root_formal args sets rest -> on (B"h") sets -> succeeds w fs args
| su_pack sets : split_args root_formal args sets [] -> ~ on (B"h") sets ->
    (pack_run w fs (default [] (last (values (B"o") sets))) (values (B"include") sets)).2 = None -> succeeds w fs args
| su_sub_help sets k r : split_args root_formal args sets (k :: r) -> ~ on (B"h") sets ->
    k ∈ [B"serve"; B"stat"; B"info"; B"path"; B"parse"; B"list"] -> B"-h" ∈ r -> succeeds w fs args
| su_sub sets k r : split_args root_formal args sets (k :: r) -> ~ on (B"h") sets ->
    B"-h" ∉ r -> sub_succeeds w fs k r -> succeeds w fs args.

Lemma in_turn_none {A C} (shows : A -> list C -> Prop) (fails : A -> gerr -> Prop) args l e :
  (forall a x e, shows a x -> fails a e -> False) -> in_turn shows fails args l e ->
  e = None <-> Forall (fun a => exists x, shows a x) args.
Proof.
  intros Hex. induction 1 as [|a l e Hf|a x l y e Hs Ht IH].
  - split; [constructor|done].
  - split; [done|]. intros H. apply Forall_cons in H as [[x Hx] _]. by destruct (Hex _ _ _ Hx Hf).
  - rewrite IH. rewrite Forall_cons. split; [intros H; split; [by eexists|done]|by intros [_ ?]].
Qed.

Definition ends_well (r : ended) : Prop := exists out, r = Ret out None.

Lemma stat_exclusive w fs a x e : stat_shows w fs a x -> stat_fails w fs a e -> False.
Proof.
  intros (p & n & Hp & Hok & _) Hf. destruct Hp as [pt i n Hpt Hi Hfd]. destruct Hf as [[Hf _]|(pt' & Hpt' & Hf)]; [congruence|].
  assert (pt' = pt) as -> by congruence. destruct Hf as [Hf|(i' & Hi' & _ & Hno)]; [congruence|].
  assert (i' = i) as -> by congruence. pose proof (Hno n Hfd). congruence.
Qed.

Lemma info_ends w args : ends_well (run_info w args) <-> Forall (fun a => exists i, known w a = Ok i) (or_dot args).
Proof.
  unfold run_info, ends_well. destruct (info_loop_in_turn w _ (or_dot args) (cache_new w)) as (l & e & E & Ht). rewrite E.
  transitivity (e = None). { split; [by intros [? [=]]|intros ->; by eexists]. }
  rewrite (fun H => in_turn_none _ _ _ _ _ H Ht) by (intros a x e' (i & Hi & _) He; congruence).
  apply Forall_iff. intros a. split; [intros (x & i & Hi & _); by eexists|intros [i Hi]; by exists [i], i].
Qed.
Lemma stat_ends w fs args : (forall l, w_rorder w l ≡ₚ l) ->
  ends_well (run_stat w fs args) <-> Forall (fun a => exists x, stat_shows w fs a x) (or_dot args).
Proof.
  intros Hro. unfold run_stat, ends_well. destruct (stat_loop_in_turn w fs _ (or_dot args) Hro (cache_new w)) as (l & e & E & Ht). rewrite E.
  transitivity (e = None). { split; [by intros [? [=]]|intros ->; by eexists]. }
  apply (in_turn_none _ _ _ _ _ (stat_exclusive w fs) Ht).
Qed.
Lemma path_ends w args : ends_well (run_path w args) <-> exists sets rest, split_args help_formal args sets rest /\
    (on (B"h") sets \/ (rest <> [] /\ Forall (fun a => is_Some (w_parse w (w_her w) a)) rest)).
Proof.
  unfold run_path, ends_well. split.
  - intros [out H]. destruct (parse_flags help_formal args) as [sets rest|] eqn:E; [|done]. apply C74_flags in E.
    exists sets, rest. split; [done|]. destruct (bool_var (B"h") sets) eqn:Eh; [left; by apply (bool_var_on _ _ _ _ (B"h") E eq_refl)|]. right.
    destruct rest as [|a rest0] eqn:Er; [done|]. rewrite <- Er in *. split; [by rewrite Er|].
    pose proof (path_loop_spec w ∅ rest) as Hp. destruct (path_loop w ∅ rest); [|done]. apply Hp.
  - intros (sets & rest & E & H). pose proof (bool_var_on _ _ _ _ (B"h") E eq_refl) as Hh. apply C74_flags in E. rewrite E.
    destruct (bool_var (B"h") sets); [by eexists|]. destruct H as [H|[Hne H]]; [by apply Hh in H|].
    destruct rest as [|a rest0] eqn:Er; [done|]. rewrite <- Er in *.
    pose proof (path_loop_spec w ∅ rest) as Hp. destruct (path_loop w ∅ rest); [by eexists|].
    exfalso. apply Exists_exists in Hp as (b & Hb & Ha). rewrite Forall_forall in H. destruct (H b Hb). congruence.
Qed.
Lemma parse_ends w fs args : ends_well (run_parse w fs args) <-> exists sets rest, split_args help_formal args sets rest /\
    (on (B"h") sets \/ Forall (fun a => exists ds, declarations w fs a ds) (or_dot rest)).
Proof.
  unfold run_parse, ends_well. split.
  - intros [out H]. destruct (parse_flags help_formal args) as [sets rest|] eqn:E; [|done]. apply C74_flags in E.
    exists sets, rest. split; [done|]. destruct (bool_var (B"h") sets) eqn:Eh; [left; by apply (bool_var_on _ _ _ _ (B"h") E eq_refl)|]. right.
    pose proof (parse_loop_spec w fs ∅ (or_dot rest)) as Hp. destruct (parse_loop w fs ∅ (or_dot rest)); [|done].
    apply Forall_forall. intros b0 Ha. destruct (proj1 Hp b0 Ha) as (ds & ? & _). by exists ds.
  - intros (sets & rest & E & H). pose proof (bool_var_on _ _ _ _ (B"h") E eq_refl) as Hh. apply C74_flags in E. rewrite E.
    destruct (bool_var (B"h") sets); [by eexists|]. destruct H as [H|H]; [by apply Hh in H|].
    pose proof (parse_loop_spec w fs ∅ (or_dot rest)) as Hp. destruct (parse_loop w fs ∅ (or_dot rest)); [by eexists|].
    exfalso. apply Exists_exists in Hp as (b & Hb & Ha). rewrite Forall_forall in H. by destruct (Ha (H b Hb)).
Qed.
Lemma list_ends w fs args : ends_well (exec_list w fs args).2 <-> exists sets rest fl, split_args list_formal args sets rest /\
    to_list w (without_output w fs) (values (B"include") sets) fl.
Proof.
  unfold exec_list, ends_well. split.
  - intros [out H]. destruct (parse_flags list_formal args) as [sets rest|] eqn:E; [|done]. apply C74_flags in E.
    rewrite list_var_values in H. exists sets, rest. destruct (scan w _ _ _) as [ds|] eqn:Ed; [|done].
    destruct (files _ _ _ _ _) as [fl|] eqn:Ef; [|done]. exists fl. split; [done|]. by exists ds.
  - intros (sets & rest & fl & E & (ds & Hd & Hf)). apply C74_flags in E. rewrite E, list_var_values.
    unfold without_output in Hd, Hf. change out_name with (B"pkged.go"). rewrite Hd, Hf. by eexists.
Qed.

Lemma sub_ends w fs listen k r : (forall l, w_rorder w l ≡ₚ l) -> k ∈ [B"serve"; B"stat"; B"info"; B"path"; B"parse"; B"list"] ->
  ends_well (exec_sub w fs listen k r).2 <-> sub_succeeds w fs k r.
Proof.
  intros Hro Hk. unfold exec_sub. rewrite !elem_of_cons, elem_of_nil in Hk.
  destruct Hk as [-> |[-> |[-> |[-> |[-> |[-> |[]]]]]]];
    repeat (rewrite bool_decide_eq_false_2 by (intros [=])); try rewrite bool_decide_eq_true_2 by done; cbn [snd].
  - split; [|by inversion 1]. intros [out H]. unfold run_serve in H. destruct (or_dot r); [done|].
    destruct (std_open _ _ _ _ _) as [s [f|]]; done.
  - rewrite stat_ends by done. split; [by constructor|by inversion 1].
  - rewrite info_ends. split; [by constructor|by inversion 1].
  - rewrite path_ends. split; [intros (s & x & H1 & H2); by econstructor|inversion 1; by eexists _, _].
  - rewrite parse_ends. split; [intros (s & x & H1 & H2); by econstructor|inversion 1; by eexists _, _].
  - rewrite list_ends. split; [intros (s & x & fl & H1 & H2); by econstructor|inversion 1; by eexists _, _, _].
Qed.

Lemma succ_subs w fs k r : sub_succeeds w fs k r -> k ∈ [B"serve"; B"stat"; B"info"; B"path"; B"parse"; B"list"].
Proof. rewrite !elem_of_cons. destruct 1; auto 10. Qed.

(** Status 0 exactly for the commands that succeed (so `serve`, which only
    ends on an error, never). *)
Theorem C75_status w fs listen args :
  (forall l, w_rorder w l ≡ₚ l) -> f_status (main w fs listen args) = 0 <-> succeeds w fs args.
Proof.
  intros Hro.
  assert (Hm : f_status (main w fs listen args) = 0 <-> ends_well (run_args w fs listen args).2).
  { unfold main, ends_well. destruct (run_args w fs listen args) as [fs' [out [e|]|]]; cbn [main_end f_status snd];
      split; try done; [by intros [? [=]]|by eexists|by intros [? [=]]]. }
  rewrite Hm. unfold run_args.
  assert (Hon : forall sets rest, split_args root_formal args sets rest -> on (B"h") sets \/ ~ on (B"h") sets).
  { intros sets rest Hs. pose proof (bool_var_on _ _ _ _ (B"h") Hs eq_refl) as H. destruct (bool_var (B"h") sets); [left; by apply H|right].
    intros Ho. by apply H in Ho. }
  assert (Hoff : forall sets, ~ on (B"h") sets -> forall v, last (values (B"h") sets) = Some v -> ~ yes v).
  { intros sets Hn v Hv Hy. apply Hn. by exists v. }
  split.
  - intros [out H]. destruct (parse_flags root_formal args) as [sets rest|] eqn:Ep.
    2:{ unfold route in H. by rewrite Ep in H. }
    apply C74_flags in Ep. destruct (Hon _ _ Ep) as [Hh|Hh]; [by eapply su_help|].
    pose proof (proj1 (C52_dispatch _ _ _ _ Ep) eq_refl) as Ha. destruct (route args) as [| |k|o inc|k r|e].
    + inversion Ha.
    + inversion Ha as [v Hv Hy| | | |]. destruct Hh. by exists v.
    + inversion Ha as [| | |k' r Hn Hr Hk Hi|]; subst. by eapply su_sub_help.
    + inversion Ha as [|Hn Hr| | |]; subst. eapply su_pack; [done|done|]. destruct (pack_run w fs _ _). cbn [snd] in *. by injection H.
    + inversion Ha as [| |k' r' Hn Hr Hk Hi| |]; subst. eapply su_sub; [done|done|done|].
      apply (sub_ends w fs listen k r Hro Hk). by exists out.
    + done.
  - intros H. destruct H as [sets rest Hs Hh|sets Hs Hh Hp|sets k r Hs Hh Hk Hi|sets k r Hs Hh Hi Hk].
    + destruct Hh as (v & Hv & Hy). rewrite (proj2 (C52_dispatch _ _ _ RootUsage Hs)) by (by econstructor). by eexists.
    + rewrite (proj2 (C52_dispatch _ _ _ _ Hs) (a_pack _ _ (Hoff _ Hh) eq_refl)).
      destruct (pack_run w fs _ _) as [fs' e]. cbn [snd] in *. subst e. by eexists.
    + rewrite (proj2 (C52_dispatch _ _ _ (SubUsage k) Hs)); [by eexists|]. by eapply a_sub_help; [apply Hoff| | |].
    + rewrite (proj2 (C52_dispatch _ _ _ (RunSub k r) Hs)).
      * apply sub_ends; [done|by eapply succ_subs|done].
      * eapply a_sub; [by apply Hoff|done|by eapply succ_subs|done].
Qed.

(** `go mod tidy` is run once, unless the flag package ends the process for
    options that are not well written, with status 2. *)
Theorem C75_tidied w fs listen args :
  let r := main w fs listen args in
  (f_status r = 2 /\ f_tidied r = 0) \/ (f_status r <= 1 /\ f_tidied r = 1).
Proof.
  unfold main. destruct (run_args w fs listen args) as [fs' [out [e|]|]]; cbn [main_end f_status f_tidied]; auto with lia.
Qed.
Theorem C75_status_2 w fs listen args :
  f_status (main w fs listen args) = 2 <->
    (forall sets rest, ~ split_args root_formal args sets rest) \/
    exists sets k r, split_args root_formal args sets (k :: r) /\ ~ on (B"h") sets /\ B"-h" ∉ r /\
      ((k = B"list" /\ forall sets rest, ~ split_args list_formal r sets rest) \/
       ((k = B"path" \/ k = B"parse") /\ forall sets rest, ~ split_args help_formal r sets rest)).
Proof.
  assert (Hm : f_status (main w fs listen args) = 2 <-> (run_args w fs listen args).2 = Quit).
  { unfold main. destruct (run_args w fs listen args) as [fs' [out [e|]|]]; cbn [main_end f_status snd]; split; done. }
  rewrite Hm. unfold run_args.
  assert (Hbad : forall formal l, parse_flags formal l = FExit <-> forall sets rest, ~ split_args formal l sets rest).
  { intros formal l. split.
    - intros H sets rest Hs. apply C74_flags in Hs. congruence.
    - intros H. destruct (parse_flags formal l) as [sets rest|] eqn:E; [|done]. destruct (H sets rest). by apply C74_flags. }
  assert (Hoff : forall sets, ~ on (B"h") sets -> forall v, last (values (B"h") sets) = Some v -> ~ yes v).
  { intros sets Hn v Hv Hy. apply Hn. by exists v. }
  assert (Hl : forall r, (exec_list w fs r).2 = Quit <-> parse_flags list_formal r = FExit).
  { intros r. unfold exec_list. destruct (parse_flags list_formal r); [|done]. destruct (scan w _ _ _); [|done]. destruct (files _ _ _ _ _); done. }
  assert (Hpa : forall r, run_path w r = Quit <-> parse_flags help_formal r = FExit).
  { intros r. unfold run_path. destruct (parse_flags help_formal r) as [s x|]; [|done]. destruct (bool_var _ _); [done|]. destruct x; [done|].
    destruct (path_loop _ _ _); done. }
  assert (Hpr : forall r, run_parse w fs r = Quit <-> parse_flags help_formal r = FExit).
  { intros r. unfold run_parse. destruct (parse_flags help_formal r) as [s x|]; [|done]. destruct (bool_var _ _); [done|].
    destruct (parse_loop _ _ _ _); done. }
  split.
  - intros H. destruct (parse_flags root_formal args) as [sets rest|] eqn:Ep; [|left; by apply Hbad]. right.
    apply C74_flags in Ep. pose proof (proj1 (C52_dispatch _ _ _ _ Ep) eq_refl) as Ha. destruct (route args) as [| |k|o inc|k r|e].
    + inversion Ha.
    + done.
    + done.
    + destruct (pack_run w fs o inc). done.
    + inversion Ha as [| |k' r' Hn Hr Hk Hi| |]; subst. exists sets, k, r. split; [done|]. split; [by intros (v & Hv & Hy); apply (Hn v)|].
      split; [done|]. unfold exec_sub in H. rewrite !elem_of_cons, elem_of_nil in Hk.
      destruct Hk as [-> |[-> |[-> |[-> |[-> |[-> |[]]]]]]];
        repeat (rewrite bool_decide_eq_false_2 in H by (intros [=])); try rewrite bool_decide_eq_true_2 in H by done; cbn [snd] in H.
      * unfold run_serve in H. destruct (or_dot r); [done|]. destruct (std_open _ _ _ _ _) as [s [f|]]; done.
      * unfold run_stat in H. by destruct (stat_loop _ _ _ _).
      * unfold run_info in H. by destruct (info_loop _ _ _).
      * right. split; [by left|]. apply Hbad. by apply Hpa.
      * right. split; [by right|]. apply Hbad. by apply Hpr.
      * left. split; [done|]. apply Hbad. by apply Hl.
    + done.
  - intros [H|(sets & k & r & Hs & Hh & Hi & H)].
    + apply C52_bad_options in H. by rewrite H.
    + assert (Hk : k ∈ [B"serve"; B"stat"; B"info"; B"path"; B"parse"; B"list"]).
      { rewrite !elem_of_cons. destruct H as [[-> _]|[[-> | ->] _]]; auto 10. }
      rewrite (proj2 (C52_dispatch _ _ _ (RunSub k r) Hs)) by (eapply a_sub; [by apply Hoff|done|done|done]).
      unfold exec_sub. destruct H as [[-> H]|[[-> | ->] H]]; apply Hbad in H;
        repeat (rewrite bool_decide_eq_false_2 by (intros [=])); try rewrite bool_decide_eq_true_2 by done; cbn [snd].
      * by apply Hl.
      * by apply Hpa.
      * by apply Hpr.
Qed.
Example C75_ex :
  let st args := (f_status (main ex_w proj_fs EParse args), f_tidied (main ex_w proj_fs EParse args)) in
  st [] = (0, 1) /\ st [B"-h"] = (0, 1) /\ st [B"-x"] = (2, 0) /\ st [B"list"; B"-x"] = (2, 0) /\ st [B"what"] = (1, 1) /\
  st [B"stat"; B"/a.txt"] = (0, 1) /\ st [B"stat"; B"/b.txt"] = (1, 1) /\ st [B"serve"; B"/img"] = (1, 1) /\
  st [B"serve"; B"/img"; B"-h"] = (0, 1) /\ st [B"path"] = (1, 1) /\ st [B"-include"; B"/zz"] = (1, 1).
Proof. by vm_compute. Qed.

(** ** C53: the text Dump writes *)

Definition d_dump (j : option json) : option dump_doc :=
  l ← d_obj j; t ← d_str (field (B"Type") l); i ← d_hinfo (field (B"Info") l); m ← d_map d_details (field (B"Paths") l);
  Some (DumpDoc t i m).

(** It is one document, which reads back as what was dumped. *)
Theorem C53_text d :
  utf8 (dd_type d) -> info_ok (dd_info d) -> (forall q x, dd_paths d !! q = Some x -> utf8 q /\ details_ok x) ->
  read_one d_dump (dump_text d) = Some d.
Proof.
  intros Ht Hi Hp. unfold dump_text. rewrite read_one_encoded by apply ws_1.
  pose proof (d_map_round d_details j_details (dd_paths d)) as Hm.
  unfold j_dump. cbn [clean_json map fst snd].
  repeat match goal with |- context [sanitize (B ?s)] => change (sanitize (B s)) with (B s) end.
  rewrite (sanitize_utf8 (dd_type d)) by done. unfold d_dump. cbn [d_obj mbind option_bind].
  repeat one_field. cbn [d_str mbind option_bind]. rewrite d_info_round by done. cbn [mbind option_bind].
  rewrite Hm; [by destruct d|]. intros k x Hk. destruct (Hp k x Hk). split; [done|]. by apply d_details_round.
Qed.
Example C53_text_ex :
  match dump_std here_parse no_hp (std_app [(B"a", NDir std_meta [(B"x", NFile std_meta (B"1"))])]) (std_new her_ex) with
  | Ok d => (fun x => (dd_type x, map_to_list (d_size <$> dd_paths x))) <$> read_one d_dump (dump_text d) =
      Some (B"*stdos.Pkger", map_to_list (d_size <$> dd_paths d)) /\ size (dd_paths d) = 3
  | Err _ => False
  end.
Proof. by vm_compute. Qed.
