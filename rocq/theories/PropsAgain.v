(** Theorems: what earlier runs of the pkger command leave behind does not
    change what a run does (C147); what a killed run leaves (C148). *)
From Verif Require Import Bytes GoPath Here GoTypes Mem MemSpec MemBase MarshalMem WalkSpec JsonStr JsonText Indent GoTimeFmt Embed Marshal Disk DiskOps Decls DeclsProofs
  Source SourceProofs ParserDirs Project Pack Std Dump Package Cli Cmds PropsCli PropsStd PropsMarshal PropsSource PropsDump PropsParser PropsPack PropsProject PropsCmds PropsMain.

(** ** Removing what was changed at a path *)

Lemma del_none w cs : child w cs = None -> del w cs = cs.
Proof.
  induction cs as [|[v d] cs IH]; cbn [child del]; [done|]. destruct (bool_decide (w = v)); [done|].
  intros H. by rewrite IH.
Qed.
Lemma del_put w c cs : del w (put w c cs) = del w cs.
Proof.
  induction cs as [|[v d] cs IH]; cbn [put del]; [by rewrite bool_decide_eq_true_2|].
  case_bool_decide as E; [subst; cbn [del]; by rewrite bool_decide_eq_true_2|].
  destruct (blt w v); cbn [del]; rewrite ?(bool_decide_eq_true_2 (w = w)) by done; rewrite (bool_decide_eq_false_2 (w = v)) by done; [done|by rewrite IH].
Qed.
Lemma put_put w c c' cs : put w c (put w c' cs) = put w c cs.
Proof.
  induction cs as [|[v d] cs IH]; cbn [put]; [by rewrite bool_decide_eq_true_2|].
  case_bool_decide as E; [subst; cbn [put]; by rewrite bool_decide_eq_true_2|].
  destruct (blt w v) eqn:Eb; cbn [put]; [by rewrite bool_decide_eq_true_2|].
  rewrite (bool_decide_eq_false_2 (w = v)) by done. by rewrite Eb, IH.
Qed.
Lemma put_same w c i cs : wf_node (NDir i cs) -> child w cs = Some c -> put w c cs = cs.
Proof.
  rewrite wf_dir. intros [Hs _]. induction cs as [|[v d] cs IH]; cbn [child put]; [done|].
  apply StronglySorted_inv in Hs as [Hs Hv]. case_bool_decide as E.
  - subst. by intros [= ->].
  - intros Hc.
    assert (Hvw : blt v w = true). { apply child_elem in Hc. rewrite Forall_forall in Hv. exact (Hv _ Hc). }
    destruct (blt w v) eqn:Eb; [|by rewrite IH].
    exfalso. pose proof (blt_trans v w v Hvw Eb) as Hvv. by rewrite blt_irrefl in Hvv.
Qed.

(** os.RemoveAll at [ws]. *)
Definition clear_at (n : node) (ws : list bytes) : node :=
  if DiskOps.missing n ws then n else match upd (fun _ => Some None) n ws with Some n' => n' | None => n end.
Lemma rm_clear fs p : is_rooted p = true -> rm fs p = clear_at fs (clean_elems p).
Proof.
  intros Hr. unfold rm, os_remove_all, at_path, clear_at. rewrite Hr. destruct (DiskOps.missing _ _); [done|]. by destruct (upd _ _ _).
Qed.
Lemma clear_step i cs w w2 ws c :
  wf_node (NDir i cs) -> child w cs = Some c -> clear_at (NDir i cs) (w :: w2 :: ws) = NDir i (put w (clear_at c (w2 :: ws)) cs).
Proof.
  intros Hw Hc. unfold clear_at. change (DiskOps.missing (NDir i cs) (w :: w2 :: ws)) with (match child w cs with None => true | Some c => DiskOps.missing c (w2 :: ws) end).
  change (upd (fun _ => Some None) (NDir i cs) (w :: w2 :: ws)) with
    (match child w cs with None => None | Some c => match upd (fun _ => Some None) c (w2 :: ws) with Some c' => Some (NDir i (put w c' cs)) | None => None end end).
  rewrite Hc. destruct (DiskOps.missing c (w2 :: ws)); [by rewrite (put_same w c i cs)|].
  destruct (upd _ c (w2 :: ws)); [done|]. by rewrite (put_same w c i cs).
Qed.
Lemma clear_upd f n ws n' : wf_node n -> ws <> [] -> wf_node n' -> upd f n ws = Some n' -> clear_at n' ws = clear_at n ws.
Proof.
  revert n n'. induction ws as [|w ws IH]; intros n n' Hn Hne Hn' H; [done|]. destruct n as [|i cs]; [done|].
  destruct ws as [|w2 ws].
  - cbn [upd] in H.
    assert (Ha : clear_at (NDir i cs) [w] = NDir i (del w cs)).
    { unfold clear_at. cbn [DiskOps.missing upd]. destruct (child w cs) eqn:E; [done|]. by rewrite del_none. }
    rewrite Ha. destruct (f (child w cs)) as [[c|]|]; [| |done]; injection H as <-.
    + unfold clear_at. cbn [DiskOps.missing upd]. rewrite child_put_same. by rewrite del_put.
    + unfold clear_at. cbn [DiskOps.missing]. by rewrite child_del_same.
  - change (upd f (NDir i cs) (w :: w2 :: ws)) with
      (match child w cs with None => None | Some c => match upd f c (w2 :: ws) with Some c' => Some (NDir i (put w c' cs)) | None => None end end) in H.
    destruct (child w cs) as [c|] eqn:Ec; [|done]. destruct (upd f c (w2 :: ws)) as [c'|] eqn:E; [|done]. injection H as <-.
    rewrite (clear_step i cs w w2 ws c Hn Ec), (clear_step i _ w w2 ws c' Hn') by apply child_put_same.
    rewrite put_put. do 2 f_equal. apply (IH c c'); [exact (child_wf i w c cs Hn Ec)|done| |exact E].
    exact (child_wf i w c' _ Hn' (child_put_same w c' cs)).
Qed.

(** ** Runs *)

(** [fs'] is [fs] but for what is at [ws]. *)
Definition same_else (fs fs' : node) (ws : list bytes) : Prop := wf_node fs' /\ clear_at fs' ws = clear_at fs ws.
Lemma same_else_refl fs ws : wf_node fs -> same_else fs fs ws.
Proof. done. Qed.
Lemma same_else_upd f fs fs1 fs2 ws :
  Forall good_elem ws -> ws <> [] ->
  (forall x y, (forall c, x = Some c -> wf_node c) -> f x = Some (Some y) -> wf_node y) ->
  same_else fs fs1 ws -> upd f fs1 ws = Some fs2 -> same_else fs fs2 ws.
Proof.
  intros Hg Hne Hf [H1 H2] H. assert (wf_node fs2) by (by eapply upd_wf). split; [done|]. rewrite <- H2. by eapply clear_upd.
Qed.
Lemma same_else_rm fs fs1 p ws :
  is_rooted p = true -> clean_elems p = ws -> Forall good_elem ws -> ws <> [] -> same_else fs fs1 ws -> same_else fs (rm fs1 p) ws.
Proof.
  intros Hr Hp Hg Hne H. rewrite rm_clear, Hp by done. unfold clear_at. destruct (DiskOps.missing _ _); [done|].
  destruct (upd _ fs1 ws) as [n|] eqn:E; [|done]. eapply same_else_upd; [done|done| |exact H|exact E]. done.
Qed.
Lemma same_else_create i fs fs1 fs2 p ws :
  clean_elems p = ws -> Forall good_elem ws -> ws <> [] -> same_else fs fs1 ws -> os_create i fs1 p = Ok fs2 -> same_else fs fs2 ws.
Proof.
  intros Hp Hg Hne H Hc. apply os_upd_inv in Hc as [_ Hc]. rewrite Hp in Hc. eapply same_else_upd; [done|done| |exact H|exact Hc].
  intros x y _ Hx. unfold create_fn in Hx. destruct x as [[j d|]|]; [|done|by injection Hx as <-]. destruct (n_ok j); [|done]. by injection Hx as <-.
Qed.
Lemma same_else_append b fs fs1 fs2 p ws :
  clean_elems p = ws -> Forall good_elem ws -> ws <> [] -> same_else fs fs1 ws -> append fs1 p b = Ok fs2 -> same_else fs fs2 ws.
Proof.
  intros Hp Hg Hne H Hc. apply os_upd_inv in Hc as [_ Hc]. rewrite Hp in Hc. eapply same_else_upd; [done|done| |exact H|exact Hc].
  intros x y _ Hx. unfold append_fn in Hx. destruct x as [[j d|]|]; [|done..]. by injection Hx as <-.
Qed.
Lemma same_else_pack w fs fs1 out incs ws :
  is_rooted (out_path w out) = true -> clean_elems (out_path w out) = ws -> Forall good_elem ws -> ws <> [] ->
  same_else fs fs1 ws -> same_else fs (pack_run w fs1 out incs).1 ws.
Proof.
  intros Hr Hp Hg Hne H. unfold pack_run. set (fp := out_path w out) in *.
  pose proof (same_else_rm fs fs1 fp ws Hr Hp Hg Hne H) as H1. destruct (scan _ _ _ _) as [ds|]; [|done].
  unfold package_fs. destruct (w_hdir w _) as [c|]; [|done]. pose proof (same_else_rm fs _ fp ws Hr Hp Hg Hne H1) as H2.
  destruct (os_create _ _ fp) as [fs2|] eqn:E2; [|done]. pose proof (same_else_create _ _ _ _ _ _ Hp Hg Hne H2 E2) as H3.
  destruct (append fs2 fp _) as [fs3|] eqn:E3; [|done]. pose proof (same_else_append _ _ _ _ _ _ Hp Hg Hne H3 E3) as H4.
  destruct (stuff _ _ _ _ _ _ _ _ _) as [pl|]; [|done]. destruct (append fs3 fp _) as [fs4|] eqn:E4; [|done].
  exact (same_else_append _ _ _ _ _ _ Hp Hg Hne H4 E4).
Qed.

(** A command line whose output, if it has one, is [dir]/pkged.go: a packing
    run with -o leading to [dir] from the package's directory [rs], a `list` if
    [dir] is that directory, or any other subcommand. *)
Definition meant_for (rs dir : list bytes) (args : list bytes) : Prop :=
  match route args with
  | RunPack out _ => cd rs (split_slash out) = dir
  | RunSub name _ => name = B"list" -> rs = dir
  | _ => True
  end.
(** Earlier runs, each in circumstances of its own: clock, map orders, what go
    list and go/parser answer. *)
Definition after (runs : list (world * gerr * list bytes)) (fs : node) : node :=
  fold_left (fun fs r => f_fs (main r.1.1 fs r.1.2 r.2)) runs fs.

Lemma cd_good rs es : Forall good_elem rs -> Forall (fun e : bytes => slash ∉ e) es -> Forall good_elem (cd rs es).
Proof.
  revert rs. induction es as [|e es IH]; intros rs Hr He; [done|]. apply Forall_cons in He as [He Hes]. cbn [cd]. apply IH; [|done].
  destruct (decide (e = [] \/ e = B".")) as [|Ho]; [done|]. destruct (decide (e = B"..")) as [|Hd].
  - destruct rs as [|x rs' _] using rev_ind; [done|]. rewrite removelast_last. by apply Forall_app in Hr as [? _].
  - apply Forall_app. split; [done|]. apply Forall_cons. split; [|done]. split_and!; try done; tauto.
Qed.

Section Runs.
  Context (rs dir : list bytes) (Hrs : Forall good_elem rs) (Hdir : Forall good_elem dir).
  Let ws : list bytes := dir ++ [B"pkged.go"].
  Lemma ws_good : Forall good_elem ws.
  Proof.
    apply Forall_app. split; [done|]. apply Forall_cons. split; [|done].
    split_and!; try done. apply (bool_decide_eq_false_1 (slash ∈ _)). by vm_compute.
  Qed.
  Lemma ws_ne : ws <> [].
  Proof. unfold ws. by destruct dir. Qed.

  Lemma out_is w out : h_dir (w_her w) = abs_name rs -> cd rs (split_slash out) = dir ->
    is_rooted (out_path w out) = true /\ clean_elems (out_path w out) = ws.
  Proof.
    intros Hd Ho. rewrite (C89_place w out rs Hrs Hd), Ho. fold ws. split; [apply is_rooted_abs|]. apply clean_elems_abs, ws_good.
  Qed.
  Lemma list_is w : h_dir (w_her w) = abs_name rs -> rs = dir ->
    is_rooted (join2 (h_dir (w_her w)) out_name) = true /\ clean_elems (join2 (h_dir (w_her w)) out_name) = ws.
  Proof. intros Hd E. apply (out_is w [] Hd). done. Qed.

  Lemma same_else_main w fs fs1 listen args :
    h_dir (w_her w) = abs_name rs -> meant_for rs dir args -> same_else fs fs1 ws -> same_else fs (f_fs (main w fs1 listen args)) ws.
  Proof.
    intros Hd Hm H. unfold meant_for in Hm.
    assert (Em : f_fs (main w fs1 listen args) = (run_args w fs1 listen args).1).
    { unfold main. destruct (run_args w fs1 listen args) as [fs2 [o e|]]; [by destruct (main_end (REnd e))|by destruct (main_end RExit)]. }
    rewrite Em. unfold run_args. destruct (route args) as [| |name|out incs|name rest|e] eqn:Er; try exact H.
    - destruct (out_is w out Hd Hm) as [O1 O2]. pose proof (same_else_pack w fs fs1 out incs ws O1 O2 ws_good ws_ne H) as H1.
      destruct (pack_run w fs1 out incs) as [fs2 e]. exact H1.
    - unfold exec_sub. case_bool_decide; [exact H|]. case_bool_decide as El.
      + destruct (list_is w Hd (Hm El)) as [O1 O2]. unfold exec_list. destruct (parse_flags list_formal rest) as [sets r|]; [|exact H].
        pose proof (same_else_rm fs fs1 _ ws O1 O2 ws_good ws_ne H) as H1. cbv zeta.
        destruct (scan _ _ _ _) as [ds|]; [|exact H1]. destruct (files _ _ _ _ _) as [fl|]; exact H1.
      + repeat case_bool_decide; exact H.
  Qed.
  Lemma same_else_after runs fs :
    Forall (fun r => h_dir (w_her r.1.1) = abs_name rs /\ meant_for rs dir r.2) runs -> wf_node fs -> same_else fs (after runs fs) ws.
  Proof.
    intros Hr Hw. unfold after. assert (H : same_else fs fs ws) by (by apply same_else_refl). revert H. generalize fs at 2 4 as fs1.
    induction runs as [|r runs IH]; intros fs1 H; [done|]. apply Forall_cons in Hr as [[Hd Hm] Hr]. cbn [fold_left]. apply (IH Hr).
    by apply same_else_main.
  Qed.
End Runs.

(** However often the pkger command was run before in that package, with this
    output, successfully or not, and whatever was looked at: packing now leaves
    the same files, ends the same way and prints the same as if it were run for
    the first time. *)
Theorem C147_again rs dir runs w fs listen args out incs :
  Forall good_elem rs -> wf_node fs -> h_dir (w_her w) = abs_name rs ->
  route args = RunPack out incs -> dir = cd rs (split_slash out) ->
  Forall (fun r => h_dir (w_her r.1.1) = abs_name rs /\ meant_for rs dir r.2) runs ->
  main w (after runs fs) listen args = main w fs listen args.
Proof.
  intros Hrs Hw Hd Hr Ho Hruns. assert (Hdir : Forall good_elem dir).
  { rewrite Ho. apply cd_good; [done|]. apply Forall_forall. intros e He. exact (proj1 (Forall_forall _ _) (split_slash_elems out) e He). }
  destruct (same_else_after rs dir Hrs Hdir runs fs Hruns Hw) as [_ H]. destruct (out_is rs dir Hrs Hdir w out Hd (eq_sym Ho)) as [O1 O2].
  unfold main, run_args. rewrite Hr. unfold pack_run. by rewrite !rm_clear, !O2, H.
Qed.

(** So a second run right after the first changes nothing any more. *)
Theorem C147_twice rs w fs listen args out incs :
  Forall good_elem rs -> wf_node fs -> h_dir (w_her w) = abs_name rs -> route args = RunPack out incs ->
  main w (f_fs (main w fs listen args)) listen args = main w fs listen args.
Proof.
  intros Hrs Hw Hd Hr. apply (C147_again rs (cd rs (split_slash out)) [(w, listen, args)] w fs listen args out incs); try done.
  apply Forall_cons. split; [|done]. split; [done|]. unfold meant_for. cbn [snd]. by rewrite Hr.
Qed.

(** `pkger list` shows the same before and after packing. *)
Theorem C147_list rs runs w fs listen args sets rest :
  Forall good_elem rs -> wf_node fs -> h_dir (w_her w) = abs_name rs ->
  split_args list_formal args sets rest -> B"-h" ∉ args ->
  Forall (fun r => h_dir (w_her r.1.1) = abs_name rs /\ meant_for rs rs r.2) runs ->
  main w (after runs fs) listen (B"list" :: args) = main w fs listen (B"list" :: args).
Proof.
  intros Hrs Hw Hd Hs Hh Hruns. destruct (same_else_after rs rs Hrs Hrs runs fs Hruns Hw) as [_ H].
  destruct (list_is rs rs Hrs Hrs w Hd eq_refl) as [O1 O2]. unfold main, run_args.
  rewrite (C52_subcommand (B"list") args) by (rewrite !elem_of_cons; auto 10). rewrite bool_decide_eq_false_2 by done.
  unfold exec_sub. rewrite bool_decide_eq_false_2 by (intros [=]). rewrite bool_decide_eq_true_2 by done.
  unfold exec_list. apply C74_flags in Hs. rewrite Hs. by rewrite !rm_clear, !O2, H.
Qed.

(** ** Runs that are killed *)

(** What is on disk if a packing run (pack.go:41-60, :125-159) is killed:
    before it changes anything; while os.RemoveAll works (a file is gone at
    once, a directory of that name may then have any contents); before or while a source is parsed; after the
    output is created; with part of the header, or of the payload and what
    follows it, written. *)
Inductive killed (w : world) (fs : node) (out : bytes) (incs : list bytes) : node -> Prop :=
| k_before : killed w fs out incs fs
| k_removing i cs j ds fs1 :
    find fs (out_path w out) = Some (NDir i cs) -> wf_node (NDir j ds) ->
    upd (fun _ => Some (Some (NDir j ds))) fs (clean_elems (out_path w out)) = Some fs1 -> killed w fs out incs fs1
| k_removed : killed w fs out incs (rm fs (out_path w out))
| k_created fs1 : os_create (w_new w) (rm fs (out_path w out)) (out_path w out) = Ok fs1 -> killed w fs out incs fs1
| k_header c fs1 b fs2 :
    w_hdir w (dirname (out_path w out)) = Ok c -> os_create (w_new w) (rm fs (out_path w out)) (out_path w out) = Ok fs1 ->
    b `prefix_of` concat (header_writes (h_name c)) -> append fs1 (out_path w out) b = Ok fs2 -> killed w fs out incs fs2
| k_payload c ds fs1 fs2 payload b fs3 :
    w_hdir w (dirname (out_path w out)) = Ok c -> scan w (rm fs (out_path w out)) (w_her w) incs = Ok ds ->
    os_create (w_new w) (rm fs (out_path w out)) (out_path w out) = Ok fs1 ->
    append fs1 (out_path w out) (concat (header_writes (h_name c))) = Ok fs2 ->
    stuff (w_parse w) (w_hdir w) (w_hpkg w) fs2 (w_gz w) (w_range w) (w_forder w) (w_her w) ds = Ok payload ->
    b `prefix_of` payload ++ footer_write -> append fs2 (out_path w out) b = Ok fs3 -> killed w fs out incs fs3.

Lemma rm_rm fs p : wf_node fs -> is_rooted p = true -> Forall good_elem (clean_elems p) -> clean_elems p <> [] -> rm (rm fs p) p = rm fs p.
Proof.
  intros Hw Hr Hg Hne. destruct (same_else_rm fs fs p _ Hr eq_refl Hg Hne (same_else_refl fs _ Hw)) as [_ H]. by rewrite !rm_clear in * by done.
Qed.

(** A run that is not killed leaves the last of these. *)
Lemma killed_end w fs out incs :
  wf_node fs -> is_rooted (out_path w out) = true -> Forall good_elem (clean_elems (out_path w out)) -> clean_elems (out_path w out) <> [] ->
  killed w fs out incs (pack_run w fs out incs).1.
Proof.
  intros Hw Hr Hg Hne. unfold pack_run. destruct (scan _ _ _ _) as [ds|] eqn:Es; [|apply k_removed]. unfold package_fs.
  destruct (w_hdir w _) as [c|] eqn:Ec; [|apply k_removed]. rewrite rm_rm by done.
  destruct (os_create _ _ _) as [fs1|] eqn:E1; [|apply k_removed].
  destruct (append fs1 _ _) as [fs2|] eqn:E2; [|by eapply k_created].
  assert (Hh : killed w fs out incs fs2) by (by eapply k_header).
  destruct (stuff _ _ _ _ _ _ _ _ _) as [pl|] eqn:E3; [|exact Hh].
  destruct (append fs2 _ _) as [fs3|] eqn:E4; [|exact Hh]. by eapply k_payload.
Qed.
Lemma same_else_killed w fs fs1 fs2 out incs ws :
  is_rooted (out_path w out) = true -> clean_elems (out_path w out) = ws -> Forall good_elem ws -> ws <> [] ->
  same_else fs fs1 ws -> killed w fs1 out incs fs2 -> same_else fs fs2 ws.
Proof.
  intros Hr Hp Hg Hne H Hk. pose proof (same_else_rm fs fs1 _ ws Hr Hp Hg Hne H) as H1.
  assert (Hc : forall fs3, os_create (w_new w) (rm fs1 (out_path w out)) (out_path w out) = Ok fs3 -> same_else fs fs3 ws).
  { intros fs3 E. exact (same_else_create _ _ _ _ _ _ Hp Hg Hne H1 E). }
  destruct Hk as [|i cs j ds fs2 _ Hx E| |fs2 E|c fs2 b fs3 _ E _ Ea|c ds fs2 fs3 pl b fs4 _ _ E Ea _ _ Eb].
  - exact H.
  - rewrite Hp in E. eapply same_else_upd; [exact Hg|exact Hne| |exact H|exact E]. intros y z _ [= <-]. exact Hx.
  - exact H1.
  - by apply Hc.
  - exact (same_else_append _ _ _ _ _ _ Hp Hg Hne (Hc _ E) Ea).
  - exact (same_else_append _ _ _ _ _ _ Hp Hg Hne (same_else_append _ _ _ _ _ _ Hp Hg Hne (Hc _ E) Ea) Eb).
Qed.

(** Whole runs and killed ones, in any order. *)
Inductive history (rs dir : list bytes) (fs : node) : node -> Prop :=
| h_none : history rs dir fs fs
| h_run fs1 w listen args :
    history rs dir fs fs1 -> h_dir (w_her w) = abs_name rs -> meant_for rs dir args -> history rs dir fs (f_fs (main w fs1 listen args))
| h_killed fs1 fs2 w out incs :
    history rs dir fs fs1 -> h_dir (w_her w) = abs_name rs -> cd rs (split_slash out) = dir -> killed w fs1 out incs fs2 -> history rs dir fs fs2.

Lemma same_else_history rs dir : Forall good_elem rs -> Forall good_elem dir ->
  forall fs fs', wf_node fs -> history rs dir fs fs' -> same_else fs fs' (dir ++ [B"pkged.go"]).
Proof.
  intros Hrs Hdir fs fs' Hw Hh. induction Hh as [|fs1 v l a _ IH Hv Hm|fs1 fs2 v o i _ IH Hv Hm Hk].
  - by apply same_else_refl.
  - by apply (same_else_main rs dir Hrs Hdir).
  - destruct (out_is rs dir Hrs Hdir v o Hv Hm) as [O1 O2].
    exact (same_else_killed v fs fs1 fs2 o i _ O1 O2 (ws_good dir Hdir) (ws_ne dir Hdir) IH Hk).
Qed.

(** After a run was killed, or several were, running pkger once more gives what
    it would have given.  ([w] is what go list answers now: if it fails because
    a cut off pkged.go does not parse, pkger.Current fails and packCmd.Exec
    returns before it removes the file, pack.go:42-48; such a run is not one of
    these.) *)
Theorem C147_killed rs dir w fs fs' listen args out incs :
  Forall good_elem rs -> wf_node fs -> h_dir (w_her w) = abs_name rs ->
  route args = RunPack out incs -> dir = cd rs (split_slash out) ->
  history rs dir fs fs' ->
  main w fs' listen args = main w fs listen args.
Proof.
  intros Hrs Hw Hd Hr Ho Hh. assert (Hdir : Forall good_elem dir).
  { rewrite Ho. apply cd_good; [done|]. apply Forall_forall. intros e He. exact (proj1 (Forall_forall _ _) (split_slash_elems out) e He). }
  destruct (same_else_history rs dir Hrs Hdir fs fs' Hw Hh) as [_ H]. destruct (out_is rs dir Hrs Hdir w out Hd (eq_sym Ho)) as [O1 O2].
  unfold main, run_args. rewrite Hr. unfold pack_run. by rewrite !rm_clear, !O2, H.
Qed.

(** `pkger list` too is as if none of them had been. *)
Theorem C147_list_killed rs w fs fs' listen args sets rest :
  Forall good_elem rs -> wf_node fs -> h_dir (w_her w) = abs_name rs ->
  split_args list_formal args sets rest -> B"-h" ∉ args ->
  history rs rs fs fs' ->
  main w fs' listen (B"list" :: args) = main w fs listen (B"list" :: args).
Proof.
  intros Hrs Hw Hd Hs Hh Hhist. destruct (same_else_history rs rs Hrs Hrs fs fs' Hw Hhist) as [_ H].
  destruct (list_is rs rs Hrs Hrs w Hd eq_refl) as [O1 O2]. unfold main, run_args.
  rewrite (C52_subcommand (B"list") args) by (rewrite !elem_of_cons; auto 10). rewrite bool_decide_eq_false_2 by done.
  unfold exec_sub. rewrite bool_decide_eq_false_2 by (intros [=]). rewrite bool_decide_eq_true_2 by done.
  unfold exec_list. apply C74_flags in Hs. rewrite Hs. by rewrite !rm_clear, !O2, H.
Qed.

(** Nor does any file but the output change: whatever the history, each path
    that is neither the output nor above or below it leads to what it led to. *)
Theorem C147_else rs dir fs fs' vs :
  Forall good_elem rs -> Forall good_elem dir -> wf_node fs -> history rs dir fs fs' ->
  beside vs (dir ++ [B"pkged.go"]) -> get fs' vs = get fs vs.
Proof.
  intros Hrs Hdir Hw Hh Hb. destruct (same_else_history rs dir Hrs Hdir fs fs' Hw Hh) as [_ H].
  assert (Hc : forall n, get (clear_at n (dir ++ [B"pkged.go"])) vs = get n vs).
  { intros n. unfold clear_at. destruct (DiskOps.missing _ _); [done|]. destruct (upd _ n _) as [n'|] eqn:E; [|done]. by eapply upd_beside. }
  by rewrite <- (Hc fs'), H, (Hc fs).
Qed.

(** A module packed, looked at, listed and packed with other options: each run
    does work, and what is packed afterwards is as at first. *)
Definition again_src : bytes -> bytes -> res source := fun dir text =>
  match proj_src dir text with Ok s => Ok s | Err _ => Ok (Src (AOther []) no_objs) end.
Definition again_w : world :=
  World her_ex here_parse wit_hdir ex_hp again_src id id id any_range id (fun _ k => JNum (Z.of_nat k)) 10 wit_meta.
Definition again_runs : list (world * gerr * list bytes) :=
  [(again_w, EParse, []); (again_w, EParse, [B"stat"; B"/img"]); (ex_w, EParse, [B"list"]); (again_w, EParse, [B"-o"; B"img/.."; B"-include"; B"/main.go"])].
Example C147_ex :
  wf_node proj_fs /\ h_dir (w_her again_w) = abs_name wit_rs /\ route [] = RunPack [] [] /\
  Forall (fun r => h_dir (w_her r.1.1) = abs_name wit_rs /\ meant_for wit_rs (cd wit_rs (split_slash [])) r.2) again_runs /\
  (let r := main again_w proj_fs EParse [] in
   f_status r = 0 /\ (m ← built Ok (f_fs r) (B"/src/app/pkged.go"); snd <$> seen here_parse m (B"/a.txt")) = Some (B"hello")) /\
  (m ← built Ok (after again_runs proj_fs) (B"/src/app/pkged.go"); snd <$> seen here_parse m (B"/main.go")) = Some (B"main") /\
  (m ← built Ok (f_fs (main again_w (after again_runs proj_fs) EParse [])) (B"/src/app/pkged.go"); snd <$> seen here_parse m (B"/main.go")) = None.
Proof.
  split; [apply proj_wf|]. split; [by vm_compute|]. split; [by vm_compute|]. split; [|by vm_compute].
  repeat (apply Forall_cons; split; [split; [by vm_compute|]|]); [| | | |done]; unfold meant_for; cbn [fst snd].
  - by vm_compute.
  - replace (route [B"stat"; B"/img"]) with (RunSub (B"stat") [B"/img"]) by by vm_compute. done.
  - replace (route [B"list"]) with (RunSub (B"list") []) by by vm_compute. by vm_compute.
  - by vm_compute.
Qed.
Example C147_list_ex :
  split_args list_formal [B"-json"] [(B"json", B"true")] [] /\ B"-h" ∉ [B"-json"] /\
  f_status (main ex_w proj_fs EParse [B"list"; B"-json"]) = 0 /\
  main ex_w (after [(ex_w, EParse, [])] proj_fs) EParse [B"list"; B"-json"] = main ex_w proj_fs EParse [B"list"; B"-json"].
Proof.
  split; [apply C74_flags; by vm_compute|]. split; [apply (bool_decide_eq_false_1 (_ ∈ _)); by vm_compute|]. by vm_compute.
Qed.

(** A run killed in the middle of the header leaves a file that does not parse;
    the next run is as the first. *)
Example C147_killed_ex :
  exists fs', history wit_rs wit_rs proj_fs fs' /\ find fs' (B"/src/app/pkged.go") = Some (NFile wit_meta (B"// Code gen")) /\
    f_status (main again_w fs' EParse []) = 0 /\
    f_out (main again_w fs' EParse [B"list"]) = f_out (main again_w proj_fs EParse [B"list"]) /\
    (m ← built Ok (f_fs (main again_w fs' EParse [])) (B"/src/app/pkged.go"); snd <$> seen here_parse m (B"/a.txt")) = Some (B"hello").
Proof.
  destruct (os_create (w_new again_w) (rm proj_fs (out_path again_w [])) (out_path again_w [])) as [fs1|] eqn:E1; [|by vm_compute in E1].
  destruct (append fs1 (out_path again_w []) (B"// Code gen")) as [fs2|] eqn:E2; [|vm_compute in E1; injection E1 as <-; by vm_compute in E2].
  exists fs2. split.
  - eapply (h_killed _ _ _ proj_fs fs2 again_w [] []); [apply h_none|by vm_compute|done|].
    eapply (k_header _ _ _ _ her_ex); [done|exact E1| |exact E2].
    eexists. vm_compute. reflexivity.
  - vm_compute in E1. injection E1 as <-. vm_compute in E2. injection E2 as <-. by vm_compute.
Qed.
Example C147_else_ex : beside [B"src"; B"app"; B"img"; B"b.png"] (wit_rs ++ [B"pkged.go"]) /\
  is_Some (get proj_fs [B"src"; B"app"; B"img"; B"b.png"]).
Proof.
  split; [|vm_compute; by eexists]. split; intros [k Hk]; by vm_compute in Hk.
Qed.

(** The full claim, "earlier runs leave no trace", fails: what was generated for
    another -o stays, and is packed if the program reaches it. *)
Theorem C147_refuted :
  exists w fs runs listen args out incs,
    wf_node fs /\ route args = RunPack out incs /\
    Forall (fun r => h_dir (w_her r.1.1) = h_dir (w_her w)) runs /\
    f_status (main w fs listen args) = 0 /\ f_status (main w (after runs fs) listen args) = 0 /\
    (m ← built Ok (f_fs (main w fs listen args)) (B"/src/app/pkged.go"); seen here_parse m (B"/img/pkged.go")) = None /\
    is_Some (m ← built Ok (f_fs (main w (after runs fs) listen args)) (B"/src/app/pkged.go"); seen here_parse m (B"/img/pkged.go")).
Proof.
  exists again_w, proj_fs, [(again_w, EParse, [B"-o"; B"img"])], EParse, [], [], [].
  split; [apply proj_wf|]. split; [by vm_compute|]. split; [by repeat constructor|]. do 3 (split; [by vm_compute|]). vm_compute. by eexists.
Qed.

(** ** C148: no half payload *)

Lemma raw_literal_more s t v rest : raw_literal s = Some (v, rest) -> raw_literal (s ++ t) = Some (v, rest ++ t).
Proof.
  revert v rest. induction s as [|c s IH]; intros v rest H; [done|]. cbn [raw_literal app] in *. destruct (Ascii.eqb c backquote); [by injection H as <- <-|].
  destruct (raw_literal s) as [[v' r']|]; [|done]. rewrite (IH v' r' eq_refl). by injection H as <- <-.
Qed.
Lemma first_raw_more s t pre v rest : first_raw s = Some (pre, v, rest) -> first_raw (s ++ t) = Some (pre, v, rest ++ t).
Proof.
  revert pre v rest. induction s as [|c s IH]; intros pre v rest H; [done|]. cbn [first_raw app] in *. destruct (Ascii.eqb c backquote).
  - destruct (raw_literal s) as [[v' r']|] eqn:E; [|done]. rewrite (raw_literal_more s t v' r' E). by injection H as <- <- <-.
  - destruct (first_raw s) as [[[p' v'] r']|]; [|done]. rewrite (IH p' v' r' eq_refl). by injection H as <- <- <-.
Qed.
Lemma first_raw_open pre : Forall (fun c => c <> backquote) pre -> first_raw (pre ++ [backquote]) = None.
Proof. induction 1 as [|c pre H _ IH]; [done|]. cbn [app first_raw]. rewrite (proj2 (Ascii.eqb_neq _ _) H). by rewrite IH. Qed.
Lemma upd_total f n ws x r : get n ws = Some x -> ws <> [] -> f (Some x) = Some r -> exists n', upd f n ws = Some n'.
Proof.
  revert n. induction ws as [|w ws IH]; intros n Hg Hne Hf; [done|]. destruct n as [|i cs]; [done|]. cbn [get] in Hg.
  destruct (child w cs) as [c|] eqn:Ec; [|done]. destruct ws as [|w2 ws].
  - cbn [get] in Hg. assert (c = x) as -> by (destruct c; by injection Hg). cbn [upd]. rewrite Ec, Hf. destruct r; by eexists.
  - destruct (IH c Hg ltac:(done) Hf) as [c' Hc]. exists (NDir i (put w c' cs)).
    change (upd f (NDir i cs) (w :: w2 :: ws)) with
      (match child w cs with None => None | Some c => match upd f c (w2 :: ws) with Some c' => Some (NDir i (put w c' cs)) | None => None end end).
    by rewrite Ec, Hc.
Qed.
Lemma find_upd f fs fs' p : is_rooted p = true -> upd f fs (clean_elems p) = Some fs' -> f (find fs p) = Some (find fs' p).
Proof. intros Hr H. unfold find. rewrite Hr. exact (upd_at f fs _ fs' H). Qed.
Lemma rm_none fs p : is_rooted p = true -> clean_elems p <> [] -> find (rm fs p) p = None.
Proof.
  intros Hr Hne. rewrite rm_clear by done. unfold find. rewrite Hr. unfold clear_at.
  destruct (DiskOps.missing fs (clean_elems p)) eqn:Em; [by apply missing_none|].
  destruct (upd _ fs (clean_elems p)) as [n|] eqn:E; [apply upd_at in E; by injection E as <-|].
  destruct (get fs (clean_elems p)) as [x|] eqn:Eg; [|done]. destruct (upd_total (fun _ => Some None) fs _ x None Eg Hne eq_refl) as [n' Hn]. congruence.
Qed.
Lemma find_append fs p b fs' : append fs p b = Ok fs' -> exists i d, find fs p = Some (NFile i d) /\ find fs' p = Some (NFile i (d ++ b)).
Proof.
  intros H. apply os_upd_inv in H as [Hr H]. pose proof (find_upd _ _ _ _ Hr H) as E. destruct (find fs p) as [[i d|]|]; [|done..].
  exists i, d. split; [done|]. by injection E as <-.
Qed.
Lemma append_any fs p b b' fs' : clean_elems p <> [] -> append fs p b = Ok fs' -> exists fs'', append fs p b' = Ok fs''.
Proof.
  intros Hne H. apply os_upd_inv in H as [Hr H]. pose proof (find_upd _ _ _ _ Hr H) as E. unfold find in E. rewrite Hr in E.
  destruct (get fs (clean_elems p)) as [[i d|]|] eqn:Eg; [|done..].
  destruct (upd_total (append_fn b') fs _ _ (Some (NFile i (d ++ b'))) Eg Hne eq_refl) as [n Hn].
  exists n. unfold append, at_path. rewrite Hr, Hn. done.
Qed.

(** Wherever a packing run is killed: if the output it leaves can be read as Go
    at all, in that its raw string literal is closed, it is that from before, or
    has the literal of the file that the whole run would have left. *)
Theorem C148_whole rs w fs out incs fs' i text pre v post :
  wf_node fs -> Forall good_elem rs -> h_dir (w_her w) = abs_name rs ->
  (forall c, w_hdir w (dirname (out_path w out)) = Ok c -> backquote ∉ h_name c) ->
  killed w fs out incs fs' ->
  find fs' (out_path w out) = Some (NFile i text) -> first_raw text = Some (pre, v, post) ->
  fs' = fs \/
  exists j full more, (pack_run w fs out incs).2 = None /\
    find (pack_run w fs out incs).1 (out_path w out) = Some (NFile j full) /\ full = text ++ more /\ first_raw full = Some (pre, v, post ++ more).
Proof.
  intros Hw Hrs Hd Hn Hk Hf Ht.
  assert (Hdir : Forall good_elem (cd rs (split_slash out))).
  { apply cd_good; [done|]. apply Forall_forall. intros e He. exact (proj1 (Forall_forall _ _) (split_slash_elems out) e He). }
  destruct (out_is rs _ Hrs Hdir w out Hd eq_refl) as [O1 O2]. pose proof (ws_good _ Hdir) as Hg. pose proof (ws_ne _ Hdir) as Hne. rewrite <- O2 in Hg, Hne.
  assert (Hcr : forall fs1, os_create (w_new w) (rm fs (out_path w out)) (out_path w out) = Ok fs1 -> find fs1 (out_path w out) = Some (NFile (w_new w) [])).
  { intros fs1 E. apply os_upd_inv in E as [_ E]. apply (find_upd _ _ _ _ O1) in E. rewrite rm_none in E by done. by injection E as <-. }
  destruct Hk as [|i0 cs j ds fs1 _ _ E| |fs1 E|c fs1 b fs2 Hc E Hb Ea|c ds fs1 fs2 pl b fs3 Hc Hs E Ea Hst Hb Eb].
  - by left.
  - apply (find_upd _ _ _ _ O1) in E. congruence.
  - rewrite rm_none in Hf; [done..|]. all: done.
  - rewrite (Hcr _ E) in Hf. injection Hf as <- <-. done.
  - exfalso. destruct (find_append _ _ _ _ Ea) as (k & d & F1 & F2). rewrite (Hcr _ E) in F1. injection F1 as <- <-. rewrite F2 in Hf. injection Hf as <- <-.
    cbn [app] in Ht. destruct Hb as [t Hb]. apply (first_raw_more _ t) in Ht. rewrite <- Hb, header_concat, first_raw_open in Ht; [done|].
    apply header_plain. apply Forall_forall. intros x Hx ->. exact (Hn c Hc Hx).
  - right. destruct (find_append _ _ _ _ Ea) as (k & d & F1 & F2). rewrite (Hcr _ E) in F1. injection F1 as <- <-. cbn [app] in F2.
    destruct (find_append _ _ _ _ Eb) as (k & d & F3 & F4). rewrite F2 in F3. injection F3 as <- <-. rewrite F4 in Hf. injection Hf as <- <-.
    destruct Hb as [t Hb]. destruct (append_any fs2 (out_path w out) b (pl ++ footer_write) fs3 Hne Eb) as [fs4 E4].
    assert (Hp : pack_run w fs out incs = (fs4, None)).
    { unfold pack_run, package_fs. rewrite Hs, Hc, rm_rm by done. by rewrite E, Ea, Hst, E4. }
    rewrite Hp. cbn [fst snd]. destruct (find_append _ _ _ _ E4) as (k & d & F5 & F6). rewrite F2 in F5. injection F5 as <- <-.
    eexists _, _, t. split; [done|]. split; [exact F6|]. rewrite Hb, (app_assoc _ b t). split; [done|]. by apply first_raw_more.
Qed.

(** A run killed just after the payload: the literal is closed, the file is not
    complete. *)
Example C148_ex :
  exists fs' i text pre v post, killed again_w proj_fs [] [] fs' /\ fs' <> proj_fs /\
    (forall c, w_hdir again_w (dirname (out_path again_w [])) = Ok c -> backquote ∉ h_name c) /\
    find fs' (out_path again_w []) = Some (NFile i text) /\ first_raw text = Some (pre, v, post) /\ post = B")" /\
    (exists m, unmarshal_embed Ok here_parse id v = Marshal.Done m /\ snd <$> seen here_parse m (B"/a.txt") = Some (B"hello")).
Proof.
  destruct (os_create (w_new again_w) (rm proj_fs (out_path again_w [])) (out_path again_w [])) as [fs1|] eqn:E1; [|by vm_compute in E1].
  destruct (scan again_w (rm proj_fs (out_path again_w [])) (w_her again_w) []) as [ds|] eqn:Es; [|by vm_compute in Es].
  destruct (append fs1 (out_path again_w []) (concat (header_writes (h_name her_ex)))) as [fs2|] eqn:E2; [|vm_compute in E1; injection E1 as <-; by vm_compute in E2].
  destruct (stuff (w_parse again_w) (w_hdir again_w) (w_hpkg again_w) fs2 (w_gz again_w) (w_range again_w) (w_forder again_w) (w_her again_w) ds)
    as [pl|] eqn:E3; [|vm_compute in E1; injection E1 as <-; vm_compute in E2; injection E2 as <-; vm_compute in Es; injection Es as <-; by vm_compute in E3].
  destruct (append fs2 (out_path again_w []) (pl ++ [backquote] ++ B")")) as [fs3|] eqn:E4;
    [|vm_compute in E1; injection E1 as <-; vm_compute in E2; injection E2 as <-; by vm_compute in E4].
  exists fs3. do 5 eexists. split; [|split; [|split; [|split; [|split; [|split]]]]].
  - eapply (k_payload _ _ _ _ her_ex ds fs1 fs2 pl); [done|exact Es|exact E1|exact E2|exact E3| |exact E4].
    exists (drop 1 pkged_footer). rewrite <- (app_assoc pl). f_equal.
  - intros ->. destruct (find_append _ _ _ _ E4) as (i & d & _ & F). by vm_compute in F.
  - intros c [= <-]. apply (bool_decide_eq_false_1 (backquote ∈ _)). by vm_compute.
  - vm_compute in E1. injection E1 as <-. vm_compute in E2. injection E2 as <-. vm_compute in Es. injection Es as <-. vm_compute in E3. injection E3 as <-.
    vm_compute in E4. injection E4 as <-. vm_compute. reflexivity.
  - vm_compute. reflexivity.
  - reflexivity.
  - eexists. split; [vm_compute; reflexivity|]. by vm_compute.
Qed.

(** The full claim, "a pkged.go that can be compiled has all the data", fails
    if a write fails: the errors are dropped (pack.go:156, stuff.go:57-58), so the rest is
    written after part of the payload, and the exit is clean. *)
Theorem C148_short_refuted :
  exists name payload ft, let r := package ft None (Ok name) (SOk payload) in
    r.2 = None /\ exists s v, final r.1 = Some s /\ first_raw s = Some (pkged_header name, v, pkged_footer) /\ v <> payload.
Proof.
  exists (B"main"), (B"00ff"), (Faults (fun _ => false) None (fun k => if Nat.eqb k 6 then Some 2 else None)).
  cbv zeta. split; [by vm_compute|]. exists (pkged_file (B"main") (B"00")), (B"00"). split; [by vm_compute|]. split; [by vm_compute|done].
Qed.
