(** Theorems: the in-memory pkger used by several goroutines at once (C102-C107).
    [par] lets any goroutine make its next step; [rtc par c c'] is any
    interleaving that leads from [c] to [c']. *)
From Verif Require Import Bytes GoPath Here GoTypes Mem MemSpec MemBase MemFiles MemFiles2 MemWalk Conc ConcProofs PropsFiles.

(** What the goroutines of [ts] make. *)
Definition makes (t : task) : list job := match t with TMake _ l => l | _ => [] end.
Definition files_made (parse : resolver) (her : hinfo) (ts : list task) : list path :=
  omap (file_of parse her) (concat (makes <$> ts)).
Definition dirs_made (parse : resolver) (her : hinfo) (ts : list task) (q : path) : Prop :=
  mk_target parse her (B"/") q \/
  exists p perm, JDir p perm ∈ concat (makes <$> ts) /\ mk_target parse her p q.
Definition untouched (parse : resolver) (her : hinfo) (ts : list task) (q : path) : Prop :=
  q ∉ files_made parse her ts /\ ~ dirs_made parse her ts q.

(** No file is made twice, nor where somebody makes a directory; whoever makes
    something could do so alone; what is read is not being made. *)
Record sensible (parse : resolver) (m : mem) (ts : list task) : Prop := {
  sn_once : NoDup (files_made parse (m_here m) ts);
  sn_dirs : forall q, q ∈ files_made parse (m_here m) ts -> ~ dirs_made parse (m_here m) ts q;
  sn_alone : forall now l, TMake now l ∈ ts ->
    (alone (work_prog parse (m_here m) now l) m).2 = replicate (length l) true;
  sn_read : forall now name cs, TRead now name cs ∈ ts ->
    exists pt, parse (m_here m) name = Some pt /\ untouched parse (m_here m) ts pt;
  sn_walk : forall cand p, TWalk cand p ∈ ts -> candidates cand /\ is_Some (parse (m_here m) p)
}.

Definition start (parse : resolver) (m : mem) (ts : list task) : mem * list (prog answer) :=
  (m, task_prog parse (m_here m) <$> ts).

Lemma elem_concat {A} (x : A) ls : x ∈ concat ls <-> exists l, x ∈ l /\ l ∈ ls.
Proof.
  induction ls as [|l ls IH]; cbn [concat].
  - split; [intros H; by apply elem_of_nil in H|intros (l & _ & H); by apply elem_of_nil in H].
  - rewrite elem_of_app, IH. split.
    + intros [H|(k & H1 & H2)]; [exists l; split; [done|left]|exists k; split; [done|by right]].
    + intros (k & H1 & H2). apply elem_of_cons in H2 as [->|H2]; [by left|right; by exists k].
Qed.

Section Conc.
  Context (parse : resolver) (m : mem) (ts : list task).
  Context (Hreach : reachable parse m) (Hs : sensible parse m ts).
  Let her := m_here m.
  Let D := dirs_made parse her ts.
  Let Q := untouched parse her ts.
  Let S_ (i : nat) : gset path := match ts !! i with Some t => paths parse her (makes t) | None => ∅ end.
  Let P_ (i : nat) (a : answer) (m' : mem) (O : gset ref) : Prop :=
    match ts !! i with
    | Some (TMake now l) => a = AMade (replicate (length l) true) /\ Forall (fun j => achieved parse her D now j m' O) l
    | Some t => match t with
                | TWalk cand p => exists pt x, parse her p = Some pt /\ a = AWalk x.1 x.2 /\ walked Q m m' pt x
                | _ => a = (alone (task_prog parse her t) m).2
                end
    | None => True
    end.

  Lemma S_files i q : q ∈ S_ i -> q ∈ files_made parse her ts.
  Proof.
    unfold S_. destruct (ts !! i) as [t|] eqn:E; [|set_solver]. unfold paths, files_made.
    rewrite elem_of_list_to_set, !elem_of_list_omap. intros (j & Hj & Hf). exists j. split; [|done].
    apply elem_concat. exists (makes t). split; [done|]. apply elem_of_list_fmap. exists t. split; [done|].
    by eapply elem_of_list_lookup_2.
  Qed.

  Lemma S_disjoint i j : i <> j -> S_ i ## S_ j.
  Proof.
    intros Hn q Hi Hj. unfold S_ in *. destruct (ts !! i) as [t|] eqn:Ei; [|set_solver].
    destruct (ts !! j) as [t'|] eqn:Ej; [|set_solver].
    pose proof (sn_once _ _ _ Hs) as Hnd. fold her in Hnd. unfold files_made in Hnd.
    unfold paths in *. rewrite elem_of_list_to_set in Hi, Hj.
    clear - Hnd Hn Hi Hj Ei Ej. revert i j Hn Ei Ej. induction ts as [|u us IH]; intros i j Hn Ei Ej; [done|].
    cbn [fmap list_fmap concat] in Hnd. rewrite omap_app in Hnd. apply NoDup_app in Hnd as (_ & Hdis & Hnd).
    assert (Hin : forall k v, us !! k = Some v -> q ∈ omap (file_of parse her) (makes v) ->
              q ∈ omap (file_of parse her) (concat (makes <$> us))).
    { intros k v Hk Hq. apply elem_of_list_omap in Hq as (x & Hx & Hf). apply elem_of_list_omap. exists x. split; [|done].
      apply elem_concat. exists (makes v). split; [done|]. apply elem_of_list_fmap. exists v. split; [done|].
      by eapply elem_of_list_lookup_2. }
    destruct i as [|i], j as [|j]; cbn in Ei, Ej; [done|..].
    - injection Ei as ->. by eapply Hdis, Hin.
    - injection Ej as ->. by eapply Hdis, Hin.
    - apply (IH Hnd i j); [by intros ->|done..].
  Qed.

  Lemma D_files i q : D q -> q ∉ S_ i.
  Proof. intros HD Hq. eapply (sn_dirs _ _ _ Hs); [by eapply S_files|exact HD]. Qed.
  Lemma Q_files i q : Q q -> q ∉ S_ i /\ ~ D q.
  Proof. intros [H1 H2]. split; [|done]. intros Hq. by apply H1, (S_files i). Qed.

  Lemma conc_fine : fine P_ (fun i => relies parse D Q (S_ i)) (fun i => does parse D (S_ i)) (apart Q)
                      (start parse m ts).1 (start parse m ts).2.
  Proof.
    pose proof (reachable_wf _ _ Hreach) as Hw.
    apply fine_start; [|by intros pt r HQ Hr Hin; apply elem_of_empty in Hin].
    intros i q Hq. cbn [start fst snd] in Hq |- *. apply list_lookup_fmap_Some in Hq as (t & Ht & ->).
    assert (Hin : t ∈ ts) by (by eapply elem_of_list_lookup_2).
    assert (HDs : D = dirs_made parse her ts) by done.
    unfold P_, S_. rewrite Ht. destruct t as [now l|now name cs|cand p]; cbn [task_prog makes].
    - apply holds_bind. eapply holds_mono; [|apply (holds_work parse her D Q) with (ii := m_infos m) (have := fun q => is_Some (m_files m !! q))].
      + cbv beta. intros bs m1 O (Hw1 & -> & HF). apply holds_ret. intros m2 H2. split; [done|].
        apply relies_rtc in H2; [|done]. apply Forall_forall. intros j Hj.
        eapply achieved_relies; [exact Hj|done| |exact H2]. by eapply Forall_forall in HF.
      + intros q Hq. by left.
      + pose proof (sn_once _ _ _ Hs) as Hnd. fold her in Hnd. unfold files_made in Hnd. clear - Hnd Hin.
        apply elem_of_list_split in Hin as (l1 & l2 & ->). rewrite fmap_app, fmap_cons, concat_app in Hnd. cbn [concat makes] in Hnd.
        rewrite !omap_app in Hnd. by apply NoDup_app in Hnd as (_ & _ & [? _]%NoDup_app).
      + split_and!; done.
      + eapply alone_doable; [..|by apply (sn_alone _ _ _ Hs)]; try done.
        * intros p perm q Hj Hq. right. exists p, perm. split; [|done]. apply elem_concat.
          exists l. split; [done|]. apply elem_of_list_fmap. by exists (TMake now l).
        * intros j pt Hj Hf. apply (sn_dirs _ _ _ Hs). fold her. unfold files_made. apply elem_of_list_omap. exists j.
          split; [|done]. apply elem_concat. exists l. split; [done|]. apply elem_of_list_fmap. by exists (TMake now l).
    - destruct (sn_read _ _ _ Hs now name cs Hin) as (pt & Hpt & HQ).
      pose proof (holds_read parse her D Q ∅ now name cs pt m ∅ Hpt HQ Hw eq_refl) as Hr.
      rewrite alone_bind. cbn [alone]. destruct (holds_alone _ _ _ _ _ _ Hr) as [_ Ha].
      destruct (alone (read_prog parse her now name cs) m) as [m1 x1]. cbn [fst snd alone] in *. subst x1.
      apply holds_bind. eapply holds_mono; [|exact Hr]. cbv beta. intros x m2 O ->. apply holds_ret. done.
    - destruct (sn_walk _ _ _ Hs cand p Hin) as [Hcand [pt Hpt]].
      apply holds_bind. eapply holds_mono; [|apply (holds_bounded parse D Q); [done|done|
        by apply (holds_walk parse her D Q ∅ m cand p pt m ∅ Hpt Hcand Hw)]].
      cbv beta. intros x m2 O (Hx & _ & Hw2). apply holds_ret. intros m3 H3. exists pt, x. split_and!; [done..|].
      apply relies_rtc in H3; [|done]. destruct Hx as (He & keys & H1 & H2 & H4 & H5 & H6).
      split; [done|]. exists keys. split_and!; try done. intros k Hk. destruct H3 as (_ & _ & Hg & _). by apply Hg, H5.
  Qed.

  Lemma conc_done m' qs i a : rtc par (start parse m ts) (m', qs) -> qs !! i = Some (Ret a) -> exists O, P_ i a m' O.
  Proof.
    intros Hr Hi. eapply (fine_done P_ (fun i => relies parse D Q (S_ i)) (fun i => does parse D (S_ i)) (apart Q)); [..|exact Hr|exact conc_fine|exact Hi].
    - intros j O m1 O' m2 H. apply H.
    - intros j k O Oj m1 O' m2 Hn H HJ Hb Hd Hbj. eapply does_relies; [by apply (S_disjoint j k)|by apply D_files|by apply Q_files|done..].
    - intros j O m1 O' m2 H. eapply apart_does; [by apply Q_files|done].
    - intros j O Oj m1 O' m2 H _ HJ _. eapply apart_other; [by apply Q_files|done..].
  Qed.

  Lemma conc_rest m' qs : rtc par (start parse m ts) (m', qs) -> m_here m' = her /\ forall pt, Q pt -> file_at m' pt = file_at m pt.
  Proof.
    intros Hr.
    enough (H : m_here m' = m_here m /\ stable Q m m').
    { destruct H as [Hh Hst]. split; [done|]. intros pt HQ. unfold file_at. destruct (Hst pt HQ) as [-> Ho].
      destruct (m_files m !! pt) as [r|]; [|done]. cbn. by apply Ho. }
    apply (fine_steps P_ (fun i => relies parse D Q (S_ i)) (fun i => does parse D (S_ i)) (apart Q)) with
      (c := start parse m ts) (c' := (m', qs)) (Q := fun m1 m2 => m_here m2 = m_here m1 /\ stable Q m1 m2); try done.
    - intros j O m1 O' m2 H. apply H.
    - intros j k O Oj m1 O' m2 Hn H HJ Hb Hd Hbj. eapply does_relies; [by apply (S_disjoint j k)|by apply D_files|by apply Q_files|done..].
    - intros j O m1 O' m2 H. eapply apart_does; [by apply Q_files|done].
    - intros j O Oj m1 O' m2 H _ HJ _. eapply apart_other; [by apply Q_files|done..].
    - intros m1 m2 m3 [H1 H2] [H3 H4]. split; [congruence|by eapply stable_trans].
    - intros i O m1 O' m2 H HJ Hb. pose proof H as (_ & Hf & _). split; [apply Hf|].
      assert (H0 : relies parse D Q ∅ ∅ m1 m2).
      { eapply does_relies; [..|exact H|exact HJ|]; [set_solver..|apply (Q_files i)|set_solver]. }
      apply H0.
    - exact conc_fine.
  Qed.
End Conc.

(** The answers of the goroutines that have come to an end. *)
Definition answers {A} (qs : list (prog A)) : list (option A) :=
  (fun q => match q with Ret a => Some a | Act _ _ => None end) <$> qs.

(** *** C102 *)

(** Several goroutines making directories and files: every call succeeds, every
    file has the content its goroutine gave it, every directory is there. *)
Theorem C102_makers parse m ts m' qs i now l a :
  reachable parse m -> sensible parse m ts ->
  rtc par (start parse m ts) (m', qs) ->
  ts !! i = Some (TMake now l) -> qs !! i = Some (Ret a) ->
  a = AMade (replicate (length l) true) /\
  (forall name ws, JFile name ws ∈ l ->
     seen parse m' name = Some (Details (base name) (Z.of_nat (length (concat ws))) 420 now false JNull, concat ws)) /\
  (forall p perm, JDir p perm ∈ l -> exists d b, seen parse m' p = Some (d, b) /\ d_isdir d = true).
Proof.
  intros Hr Hs Hp Hi Ha. destruct (conc_done parse m ts Hr Hs m' qs i a Hp Ha) as [O HP]. rewrite Hi in HP.
  destruct (conc_rest parse m ts Hr Hs m' qs Hp) as [Hh _].
  destruct HP as [-> HF]. rewrite Forall_forall in HF. split_and!; [done|..].
  - intros name ws Hin. destruct (HF _ Hin) as (pt & Hpt & r & f & Hown & Hat & (_ & Hd & Hinfo)).
    rewrite <- Hh in Hpt. rewrite (seen_handle parse m' name pt r f Hpt Hat) by apply Hown. by rewrite Hd, Hinfo.
  - intros p perm Hin. destruct (HF _ Hin) as (pt & Hpt & _ & r & f & H1 & H2 & H3).
    rewrite <- Hh in Hpt. rewrite (seen_handle parse m' p pt r f Hpt H1 H2). eauto.
Qed.

(** ... and nothing else changes, at any moment of the run. *)
Theorem C102_rest parse m ts m' qs name pt :
  reachable parse m -> sensible parse m ts ->
  rtc par (start parse m ts) (m', qs) ->
  parse (m_here m) name = Some pt -> untouched parse (m_here m) ts pt ->
  seen parse m' name = seen parse m name.
Proof.
  intros Hr Hs Hp Hpt HQ. destruct (conc_rest parse m ts Hr Hs m' qs Hp) as [Hh Hf].
  rewrite !seen_alt, Hh, Hpt. cbn. by rewrite Hf.
Qed.

(** *** C106 *)

(** Goroutines reading files that nobody makes get what they would get alone. *)
Theorem C106_readers parse m ts m' qs i now name cs a :
  reachable parse m -> sensible parse m ts ->
  rtc par (start parse m ts) (m', qs) ->
  ts !! i = Some (TRead now name cs) -> qs !! i = Some (Ret a) ->
  a = (alone (task_prog parse (m_here m) (TRead now name cs)) m).2.
Proof.
  intros Hr Hs Hp Hi Ha. destruct (conc_done parse m ts Hr Hs m' qs i a Hp Ha) as [O HP]. by rewrite Hi in HP.
Qed.

Lemma alone_uses parse now h cs m :
  alone (uses_prog parse now h cs) m = run parse m ((fun c => (now, cursor_call h c)) <$> cs).
Proof.
  revert m. induction cs as [|c cs IH]; intros m; cbn [uses_prog alone run fmap list_fmap]; [done|].
  rewrite alone_bind. cbn [act alone]. destruct (step parse m (now, cursor_call h c)) as [m1 x]. cbn [fst snd].
  rewrite alone_bind, IH. destruct (run parse m1 _) as [m2 xs]. done.
Qed.

Lemma run_length parse cs m : length (run parse m cs).2 = length cs.
Proof.
  revert m. induction cs as [|c cs IH]; intros m; cbn [run]; [done|].
  destruct (step parse m c) as [m1 x]. specialize (IH m1). destruct (run parse m1 cs). cbn in *. lia.
Qed.

Lemma calls_all now h cs xs : length xs = length cs ->
  cursor_calls h ((fun c => (now, cursor_call h c)) <$> cs) = cs /\
  cursor_answers h ((fun c => (now, cursor_call h c)) <$> cs) xs = xs.
Proof.
  revert xs. induction cs as [|c cs IH]; intros [|x xs] Hl; try done. injection Hl as Hl. destruct (IH xs Hl) as [H1 H2].
  rewrite fmap_cons. destruct c as [n|off wh]; cbn [cursor_call cursor_calls cursor_answers];
    rewrite !decide_True by done; rewrite H1, H2; done.
Qed.

(** That is: the whole file from its beginning, whoever else has it open. *)
Theorem C106_content parse m ts m' qs i now name cs a d b :
  reachable parse m -> sensible parse m ts ->
  rtc par (start parse m ts) (m', qs) ->
  ts !! i = Some (TRead now name cs) -> qs !! i = Some (Ret a) ->
  seen parse m name = Some (d, b) -> b <> [] ->
  a = ARead (Ok (Some d, cursor_run b 0 cs)).
Proof.
  intros Hr Hs Hp Hi Ha Hseen Hb. rewrite (C106_readers parse m ts m' qs i now name cs a) by done.
  pose proof (reachable_wf _ _ Hr) as Hw.
  destruct (seen_open _ _ _ _ _ Hseen) as (m3 & h3 & f & Ho & Hf & Hinf & Hd & _ & Hrd).
  cbn [task_prog]. rewrite alone_bind. unfold read_prog. rewrite alone_bind, alone_open, Ho by done. rewrite alone_bind.
  cbn [look alone]. rewrite Hf. cbn [fmap option_fmap option_map]. rewrite alone_bind, alone_uses.
  pose proof (C03_C04_cursor_snapshot parse m name d b m3 h3 ((fun c => (now, cursor_call h3 c)) <$> cs) Hr Hseen Hb Ho) as Hc.
  assert (HF : Forall (fun c : gotime * op => c.2 <> OClose h3) ((fun c => (now, cursor_call h3 c)) <$> cs)).
  { apply Forall_forall. intros c Hin. apply elem_of_list_fmap in Hin as ([n|off wh] & -> & _); done. }
  specialize (Hc HF). assert (Hl := run_length parse ((fun c => (now, cursor_call h3 c)) <$> cs) m3).
  destruct (run parse m3 ((fun c => (now, cursor_call h3 c)) <$> cs)) as [m4 xs]. cbn [snd] in Hc, Hl.
  rewrite fmap_length in Hl. destruct (calls_all now h3 cs xs Hl) as [H1 H2]. rewrite H1, H2 in Hc.
  rewrite alone_bind, alone_close. destruct (file_close now m4 h3) as [m5 e]. cbn [alone snd]. by rewrite Hc, Hinf.
Qed.

(** *** C104 *)

(** A Walk while others make things: no error; every entry there at the start
    and none that is not there in the end, in the order of their names; entries
    nobody makes with their details. *)
Theorem C104_walk_partial parse m ts m' qs i cand p pt a :
  reachable parse m -> sensible parse m ts ->
  rtc par (start parse m ts) (m', qs) ->
  ts !! i = Some (TWalk cand p) -> qs !! i = Some (Ret a) -> parse (m_here m) p = Some pt ->
  exists l keys, a = AWalk l None /\ StronglySorted key_le keys /\ NoDup keys /\
    (forall k, is_Some (m_files m !! k) -> k ∈ keys) /\ (forall k, k ∈ keys -> is_Some (m_files m' !! k)) /\
    Forall2 (fun k x => x.1 = path_string k /\
               (untouched parse (m_here m) ts k -> exists f, file_at m k = Some f /\ x.2 = new_file_info (f_info f)))
      (filter (walks pt) keys) l.
Proof.
  intros Hr Hs Hp Hi Ha Hpt. destruct (conc_done parse m ts Hr Hs m' qs i a Hp Ha) as [O HP]. rewrite Hi in HP.
  destruct HP as (pt' & [l e] & Hpt' & -> & He & keys & H1 & H2 & H3 & H4 & H5). cbn [fst snd] in *. subst e.
  rewrite Hpt' in Hpt. injection Hpt as ->. exists l, keys. done.
Qed.

(** *** An example *)

(** Two goroutines making things below the same directory, one reading, one
    walking. *)
Definition conc_ex : mem := after [OCreate (B"/a"); OWrite 1 (B"old"); OClose 1].
Definition tasks_ex : list task :=
  [TMake t0 [JDir (B"/x/y") 493; JFile (B"/x/y/f") [B"he"; B"llo"]];
   TMake t0 [JDir (B"/x") 448; JFile (B"/x/g") [B"world"]];
   TRead t0 (B"/a") [CRead 2; CRead 5]; TWalk keys_now (B"/")].

Fixpoint mk_list (fuel : nat) (her : hinfo) (p : bytes) : option (list path) :=
  match fuel with
  | 0 => None
  | S fuel => match here_parse her p with
              | None => Some []
              | Some pt => if bool_decide ((path_split (p_name pt)).1 = B"/") then Some [pt]
                           else cons pt <$> mk_list fuel her (path_split (p_name pt)).1
              end
  end.
Lemma mk_targets fuel her p q l : mk_target here_parse her p q -> mk_list fuel her p = Some l -> q ∈ l.
Proof.
  intros H. revert fuel l. induction H as [p pt Hp|p pt q Hp Hn H IH]; intros [|fuel] l; cbn [mk_list]; try done; rewrite Hp.
  - case_bool_decide; [intros [= <-]; left|]. intros (l' & _ & ->)%fmap_Some. left.
  - rewrite bool_decide_false by done. intros (l' & Hl & ->)%fmap_Some. right. by apply (IH fuel).
Qed.

Lemma sensible_ex : sensible here_parse conc_ex tasks_ex.
Proof.
  assert (Hh : m_here conc_ex = her_ex) by by vm_compute.
  assert (Hd : forall q, dirs_made here_parse her_ex tasks_ex q ->
             p_name q ∈ [B"/"; B"/x"; B"/x/y"]).
  { intros q [H|(p & perm & Hin & H)].
    - eapply (mk_targets 5) in H; [|by vm_compute]. apply elem_of_list_singleton in H as ->. vm_compute. left.
    - cbn [tasks_ex makes fmap list_fmap concat app] in Hin. unfold tasks_ex in Hin. rewrite !elem_of_cons, elem_of_nil in Hin.
      destruct Hin as [[= -> ->]|[[=]|[[= -> ->]|[[=]|[]]]]].
      + eapply (mk_targets 5) in H; [|by vm_compute].
        rewrite !elem_of_cons, elem_of_nil in H. destruct H as [->|[->|[]]]; vm_compute; repeat constructor.
      + eapply (mk_targets 5) in H; [|by vm_compute].
        rewrite !elem_of_cons, elem_of_nil in H. destruct H as [->|[]]; vm_compute; repeat constructor. }
  split; rewrite Hh.
  - apply (bool_decide_eq_true_1 (NoDup (files_made here_parse her_ex tasks_ex))). by vm_compute.
  - intros q Hq HD. apply Hd in HD. revert HD.
    eassert (E : files_made here_parse her_ex tasks_ex = _) by (vm_compute; reflexivity). rewrite E in Hq.
    rewrite !elem_of_cons, elem_of_nil in Hq. destruct Hq as [->|[->|[]]]; apply (bool_decide_eq_true_1 (_ ∉ _)); by vm_compute.
  - intros now l Hin. unfold tasks_ex in Hin. rewrite !elem_of_cons, elem_of_nil in Hin.
    destruct Hin as [[= -> ->]|[[= -> ->]|[[=]|[[=]|[]]]]]; by vm_compute.
  - intros now name cs Hin. unfold tasks_ex in Hin. rewrite !elem_of_cons, elem_of_nil in Hin.
    destruct Hin as [[=]|[[=]|[[= -> -> ->]|[[=]|[]]]]]. eexists. split; [by vm_compute|]. split.
    + apply (bool_decide_eq_true_1 (_ ∉ _)). by vm_compute.
    + intros H%Hd. revert H. apply (bool_decide_eq_true_1 (_ ∉ _)). by vm_compute.
  - intros cand p Hin. unfold tasks_ex in Hin. rewrite !elem_of_cons, elem_of_nil in Hin.
    destruct Hin as [[=]|[[=]|[[=]|[[= -> ->]|[]]]]]. split; [apply keys_now_candidates|]. eexists. by vm_compute.
Qed.

Definition turns : list nat := concat (replicate 40 [0;1;2;3]).
Example C102_C104_C106_ex :
  reachable here_parse conc_ex /\ sensible here_parse conc_ex tasks_ex /\
  exists m' qs, rtc par (start here_parse conc_ex tasks_ex) (m', qs) /\
    answers qs =
      [Some (AMade [true; true]); Some (AMade [true; true]);
       Some (ARead (Ok (Some (Details (B"a") 3 420 t0 false JNull),
                        [RBytes (B"ol") None; RBytes (B"d") None])));
       Some (AWalk [(B"app:/", Details [] 0 493 t0 true JNull);
                    (B"app:/a", Details (B"a") 3 420 t0 false JNull);
                    (B"app:/x", Details (B"x") 0 448 t0 true JNull)] None)] /\
    seen here_parse m' (B"/x/y/f") = Some (Details (B"f") 5 420 t0 false JNull, B"hello") /\
    seen here_parse m' (B"/x/g") = Some (Details (B"g") 5 420 t0 false JNull, B"world") /\
    seen here_parse m' (B"/a") = Some (Details (B"a") 3 420 t0 false JNull, B"old").
Proof.
  split; [apply reachable_run, reach_new|]. split; [apply sensible_ex|].
  exists (run_sched turns (start here_parse conc_ex tasks_ex)).1, (run_sched turns (start here_parse conc_ex tasks_ex)).2.
  split; [rewrite <- surjective_pairing; apply run_sched_par|]. by vm_compute.
Qed.

(** Two calls at once, their answers told apart. *)
Definition both {A C} (p : prog A) (q : prog C) : list (prog (A + C)) :=
  [bind p (fun x => Ret (inl x)); bind q (fun x => Ret (inr x))].

Ltac schedule l :=
  match goal with |- exists m' qs, rtc par ?c _ /\ _ =>
    exists (run_sched l c).1, (run_sched l c).2;
    split; [rewrite <- surjective_pairing; apply run_sched_par|] end.

(** Full claim of C104: a Walk does not fail because of what others do.  It does
    when an entry is removed meanwhile (mem.go:236-239), though a Walk before
    or after would go through, and never comes to the entries behind. *)
Theorem C104_removed_refuted :
  exists m p name l,
    reachable here_parse m /\
    (alone (walk_prog here_parse (m_here m) keys_now p note []) m).2.2 = None /\
    is_Some (seen here_parse m (B"/c")) /\ B"app:/c" ∉ l.*1 /\
    exists m' qs,
      rtc par (m, both (walk_prog here_parse (m_here m) keys_now p note []) (remove_prog here_parse (m_here m) name)) (m', qs) /\
      answers qs = [Some (inl (l, Some ENotExist)); Some (inr None)] /\
      (alone (walk_prog here_parse (m_here m') keys_now p note []) m').2.2 = None /\
      is_Some (seen here_parse m' (B"/c")).
Proof.
  exists (after [OCreate (B"/a"); OCreate (B"/b"); OCreate (B"/c")]), (B"/"), (B"/b").
  exists [(B"app:/", Details [] 0 493 t0 true JNull); (B"app:/a", Details (B"a") 0 420 t0 false JNull)].
  split; [apply reachable_run, reach_new|]. split; [by vm_compute|]. split; [eexists; by vm_compute|].
  split; [apply (bool_decide_eq_true_1 (_ ∉ _)); by vm_compute|].
  schedule [0;0;0;0;0;0;0;1;1;0;0;0;0;0]. split; [by vm_compute|]. split; [by vm_compute|]. eexists; by vm_compute.
Qed.

(** *** C105 *)

(** An Open while the writer closes: the handle reports the size of before and
    holds the content of after (mem.go:185-187, file.go:62-66), which Open alone
    never gives. *)
Theorem C105_refuted :
  exists m name r h,
    reachable here_parse m /\
    exists m' qs,
      rtc par (m, both (open_prog here_parse (m_here m) name) (close_prog t0 r)) (m', qs) /\
      answers qs = [Some (inl (Ok h)); Some (inr None)] /\
      exists f, m_heap m' !! h = Some f /\ f_data f = B"hello" /\ d_size (f_info f) = 0%Z.
Proof.
  exists (after [OCreate (B"/a"); OWrite 1 (B"hello")]), (B"/a"), 1, 2.
  split; [apply reachable_run, reach_new|].
  schedule [0;0;1;1;1;1;1;0]. split; [by vm_compute|]. eexists. split; [by vm_compute|]. by vm_compute.
Qed.

(** *** C107 *)

(** A Create while its directory is removed: both succeed, and the file is there
    without its directory (mem.go:99-120: the parent is looked up first). *)
Theorem C107_refuted :
  exists m name dir r d,
    reachable here_parse m /\
    exists m' qs,
      rtc par (m, both (create_prog here_parse (m_here m) t0 name) (remove_all_prog here_parse (m_here m) keys_now dir)) (m', qs) /\
      answers qs = [Some (inl (Ok r)); Some (inr None)] /\
      seen here_parse m' name = Some (d, []) /\ seen here_parse m' (dirname name) = None /\
      dirname name = dir /\
      (** whichever goes first, this does not happen *)
      seen here_parse (remove_all here_parse (create here_parse t0 m name).1 dir).1 name = None /\
      (create here_parse t0 (remove_all here_parse m dir).1 name).2 = Err (EMsg could_not_stat).
Proof.
  exists (after [OMkdirAll (B"/d") 493]), (B"/d/f"), (B"/d"), 2, (Details (B"f") 0 420 t0 false JNull).
  split; [apply reachable_run, reach_new|].
  schedule [0;0;0;1;1;1;1;0]. split; [by vm_compute|]. by vm_compute.
Qed.

(** *** C103 *)

(** Full claim of C103: of several Removes of one file, one succeeds and the
    others fail as they would one after the other.  Two can succeed (mem.go:62-66:
    Load, then Delete). *)
Theorem C103_once_refuted :
  exists m name,
    reachable here_parse m /\
    (remove here_parse (remove here_parse m name).1 name).2 <> None /\
    exists m' qs,
      rtc par (m, both (remove_prog here_parse (m_here m) name) (remove_prog here_parse (m_here m) name)) (m', qs) /\
      answers qs = [Some (inl None); Some (inr None)].
Proof.
  exists (after [OCreate (B"/a")]), (B"/a").
  split; [apply reachable_run, reach_new|]. split; [by vm_compute|].
  schedule [0;1;0;1]. by vm_compute.
Qed.

(** What goroutines remove. *)
Inductive rm := RmFile (name : bytes) | RmAll (cand : mem -> list path) (name : bytes).
Definition fair (x : rm) : Prop := match x with RmFile _ => True | RmAll cand _ => candidates cand end.
Definition takes (parse : resolver) (her : hinfo) (x : rm) (q : path) : Prop :=
  match x with
  | RmFile n => parse her n = Some q
  | RmAll _ n => exists pt, parse her n = Some pt /\ has_prefix (p_name q) (p_name pt) = true
  end.
Definition rm_prog (parse : resolver) (her : hinfo) (x : rm) : prog (option gerr) :=
  match x with RmFile n => remove_prog parse her n | RmAll cand n => remove_all_prog parse her cand n end.
Fixpoint rms_prog (parse : resolver) (her : hinfo) (l : list rm) : prog (list (option gerr)) :=
  match l with
  | [] => Ret []
  | x :: l => bind (rm_prog parse her x) (fun e => bind (rms_prog parse her l) (fun es => Ret (e :: es)))
  end.

Section Rm.
  Context (parse : resolver) (her : hinfo) (all : list rm).
  Let R (O : gset ref) (m m' : mem) : Prop := m_files m' ⊆ m_files m.
  Let G (O : gset ref) (m : mem) (O' : gset ref) (m' : mem) : Prop :=
    O' = O /\ m_next m' = m_next m /\ m_here m' = m_here m /\ m_heap m' = m_heap m /\ m_files m' ⊆ m_files m /\
    forall q, (forall x, x ∈ all -> ~ takes parse her x q) -> m_files m' !! q = m_files m !! q.

  Lemma R_rtc O m m' : rtc (R O) m m' -> m_files m' ⊆ m_files m.
  Proof. induction 1 as [|m1 m2 m3 H1 _ IH]; [done|]. by etransitivity. Qed.
  Lemma G_refl O m : G O m O m.
  Proof. unfold G. split_and!; done. Qed.
  Lemma G_delete O m k : (exists x, x ∈ all /\ takes parse her x k) -> G O m O (delete_key m k).
  Proof.
    intros (x & Hx & Ht). unfold G, delete_key, set_files. cbn. split_and!; try done; [apply delete_subseteq|].
    intros q Hq. apply lookup_delete_ne. intros ->. by apply (Hq x).
  Qed.
  Lemma gone (m m' : mem) q : m_files m' ⊆ m_files m -> m_files m !! q = None -> m_files m' !! q = None.
  Proof. intros H1 H2. by eapply lookup_weaken_None. Qed.

  (** What removing cannot make false stays. *)
  Lemma kept {A} (K : mem -> Prop) (P : A -> mem -> gset ref -> Prop) p m O :
    (forall m m' : mem, m_files m' ⊆ m_files m -> K m -> K m') -> K m ->
    holds P R G p m O -> holds (fun a m O => P a m O /\ K m) R G p m O.
  Proof.
    intros HK. revert m O. induction p as [a|f q IH]; intros m O H0 H m1 H1.
    - split; [by apply H|]. eapply HK; [|exact H0]. by eapply R_rtc.
    - destruct (H m1 H1) as (O' & HG & Hh). exists O'. split; [done|]. apply IH; [|done].
      destruct HG as (_ & _ & _ & _ & Hsub & _). eapply HK; [exact Hsub|]. eapply HK; [|exact H0]. by eapply R_rtc.
  Qed.

  (** [x] has been removed, and only a file that was there. *)
  Definition removed (m0 : mem) (x : rm) (e : option gerr) (m : mem) : Prop :=
    match x with
    | RmFile n => match parse her n with
                  | None => e = Some EParse
                  | Some q => m_files m !! q = None /\
                              (e = Some (EPath (B"remove") (path_string q)) \/ (e = None /\ is_Some (m_files m0 !! q)))
                  end
    | RmAll _ n => match parse her n with
                 | None => e = Some EParse
                 | Some q => e = None /\ forall k, has_prefix (p_name k) (p_name q) = true -> m_files m !! k = None
                 end
    end.

  Lemma removed_R m0 x e (m m' : mem) : m_files m' ⊆ m_files m -> removed m0 x e m -> removed m0 x e m'.
  Proof.
    intros H. unfold removed. destruct x as [n|cand n]; destruct (parse her n) as [pt|]; try done; intros [H1 H2].
    - split; [by eapply gone|done].
    - split; [done|]. intros k Hk. by eapply gone, H2.
  Qed.

  Lemma holds_delete pt ks m O :
    (forall k, has_prefix (p_name k) (p_name pt) = true -> exists x, x ∈ all /\ takes parse her x k) ->
    holds (fun e m' O => e = None /\ forall k, k ∈ ks -> has_prefix (p_name k) (p_name pt) = true -> m_files m' !! k = None)
      R G (delete_prog pt ks) m O.
  Proof.
    intros Hk. revert m. induction ks as [|k ks IH]; intros m; cbn [delete_prog].
    - apply holds_ret. intros m1 _. split; [done|]. intros k Hin. by apply elem_of_nil in Hin.
    - apply holds_bind, holds_look. intros m1 H1. split; [apply G_refl|]. intros m2 H2.
      assert (Hnext : forall m3, has_prefix (p_name k) (p_name pt) = false \/ m_files m3 !! k = None ->
        holds (fun e m' O => e = None /\ forall k', k' ∈ k :: ks -> has_prefix (p_name k') (p_name pt) = true -> m_files m' !! k' = None)
          R G (delete_prog pt ks) m3 O).
      { intros m3 Hor.
        eapply holds_mono; [|apply (kept (fun m => has_prefix (p_name k) (p_name pt) = false \/ m_files m !! k = None));
          [intros ?? Hsub [?|?]; [by left|right; by eapply gone]|exact Hor|apply IH]].
        cbv beta. intros e m4 O4 [[-> H3] H4]. split; [done|]. intros k' Hin Hpre. apply elem_of_cons in Hin as [->|Hin]; [|by apply H3].
        destruct H4 as [H4|H4]; [congruence|done]. }
      destruct (m_files m1 !! k) as [r|] eqn:Hr; [|apply Hnext; right; apply R_rtc in H2; by eapply gone].
      destruct (has_prefix (p_name k) (p_name pt)) eqn:Hpre; [|apply Hnext; by left].
      apply holds_bind, holds_act. intros m3 H3. exists O. cbn [fst snd].
      split; [by apply G_delete, Hk|]. intros m4 H4. apply Hnext. right.
      apply R_rtc in H4. eapply gone; [exact H4|]. unfold delete_key, set_files. cbn. apply lookup_delete.
  Qed.

  Lemma holds_rm m0 x m O : x ∈ all -> fair x -> m_files m ⊆ m_files m0 ->
    holds (fun e m' O => removed m0 x e m') R G (rm_prog parse her x) m O.
  Proof.
    intros Hx Hfair Hsub. destruct x as [n|cand n]; cbn [rm_prog removed].
    - unfold remove_prog. destruct (parse her n) as [pt|] eqn:Hp; [|by apply holds_ret].
      apply holds_bind, holds_look. intros m1 H1%R_rtc. split; [apply G_refl|]. intros m2 H2%R_rtc.
      destruct (m_files m1 !! pt) as [r|] eqn:Hr.
      + apply holds_act. intros m3 H3%R_rtc. exists O. split; [apply G_delete; by exists (RmFile n)|].
        intros m4 H4%R_rtc. split; [|right; split; [done|]].
        * eapply gone; [exact H4|]. unfold delete_key, set_files. cbn. apply lookup_delete.
        * exists r. eapply lookup_weaken; [|exact Hsub]. by eapply lookup_weaken.
      + apply holds_ret. intros m3 H3%R_rtc. split; [|by left]. eapply gone; [|exact Hr]. by etransitivity.
    - unfold remove_all_prog. destruct (parse her n) as [pt|] eqn:Hp; [|by apply holds_ret].
      apply holds_bind, holds_look. intros m1 H1%R_rtc. split; [apply G_refl|]. intros m2 H2%R_rtc.
      eapply holds_mono; [|apply (kept (fun m => m_files m ⊆ m_files m1)); [intros a b Ha Hb; by etransitivity|done|apply (holds_delete pt (cand m1))]].
      + cbv beta. intros e m3 O3 [[-> H3] H4]. split; [done|].
        intros q Hpre. destruct (m_files m1 !! q) as [r|] eqn:Hq; [|by eapply gone].
        apply H3; [|done]. apply Hfair. by exists r.
      + intros k Hk. exists (RmAll cand n). split; [done|]. exists pt. done.
  Qed.

  Lemma holds_rms m0 l m O : (forall x, x ∈ l -> x ∈ all /\ fair x) -> m_files m ⊆ m_files m0 ->
    holds (fun es m' O => Forall2 (fun x e => removed m0 x e m') l es) R G (rms_prog parse her l) m O.
  Proof.
    revert m O. induction l as [|x l IH]; intros m O Hin Hsub; cbn [rms_prog].
    - apply holds_ret. constructor.
    - apply holds_bind. eapply holds_mono; [|apply (kept (fun m => m_files m ⊆ m_files m0)); [intros a b Ha Hb; by etransitivity|done|
        by apply (holds_rm m0); [apply Hin; left|apply Hin; left|]]].
      cbv beta. intros e m1 O1 [He Hs1]. apply holds_bind.
      eapply holds_mono; [|apply (kept (fun m => removed m0 x e m)); [intros a b; apply removed_R|done|
        apply IH; [intros y Hy; apply Hin; by right|done]]].
      cbv beta. intros es m2 O2 [Hes Hx]. apply holds_ret. intros m3 H3%R_rtc. constructor; [by eapply removed_R|].
      eapply Forall2_impl; [exact Hes|]. intros y ey. by apply removed_R.
  Qed.

  Lemma rms_fine m (ls : list (list rm)) : (forall l x, l ∈ ls -> x ∈ l -> x ∈ all /\ fair x) ->
    fine (fun i es m' O => exists l, ls !! i = Some l /\ Forall2 (fun x e => removed m x e m') l es)
      (fun _ => R) (fun _ => G) (fun _ _ => True) m (rms_prog parse her <$> ls).
  Proof.
    intros Hall. apply fine_start; [|done]. intros i p Hp. apply list_lookup_fmap_Some in Hp as (l & Hl & ->).
    eapply holds_mono; [|apply (holds_rms m l m ∅); [intros x; apply Hall; by eapply elem_of_list_lookup_2|done]].
    cbv beta. intros es m1 O H. by exists l.
  Qed.

  Lemma rms_done m ls m' qs i es : (forall l x, l ∈ ls -> x ∈ l -> x ∈ all /\ fair x) ->
    rtc par (m, rms_prog parse her <$> ls) (m', qs) -> qs !! i = Some (Ret es) ->
    exists l, ls !! i = Some l /\ Forall2 (fun x e => removed m x e m') l es.
  Proof.
    intros Hall Hr Hi.
    eapply (fine_done _ (fun _ => R) (fun _ => G) (fun _ _ => True)) in Hi; [..|exact Hr|by apply rms_fine].
    - destruct Hi as [O H]. exact H.
    - intros j O m1 O' m2 (-> & H & _). split; [lia|]. intros r Hin. by left.
    - intros j k O Oj m1 O' m2 _ H _ _ _ _. apply H.
    - done.
    - done.
  Qed.

  Lemma rms_rest m ls m' qs : (forall l x, l ∈ ls -> x ∈ l -> x ∈ all /\ fair x) ->
    rtc par (m, rms_prog parse her <$> ls) (m', qs) ->
    m_files m' ⊆ m_files m /\ m_heap m' = m_heap m /\ m_here m' = m_here m /\
    forall q, (forall x, x ∈ all -> ~ takes parse her x q) -> m_files m' !! q = m_files m !! q.
  Proof.
    intros Hall Hr.
    eapply (fine_steps _ (fun _ => R) (fun _ => G) (fun _ _ => True)) with (c := (m, rms_prog parse her <$> ls)) (c' := (m', qs))
      (Q := fun m m' => m_files m' ⊆ m_files m /\ m_heap m' = m_heap m /\ m_here m' = m_here m /\
              forall q, (forall x, x ∈ all -> ~ takes parse her x q) -> m_files m' !! q = m_files m !! q);
      [..|exact Hr|by apply rms_fine].
    - intros j O m1 O' m2 (-> & H & _). split; [lia|]. intros r Hin. by left.
    - intros j k O Oj m1 O' m2 _ H _ _ _ _. apply H.
    - done.
    - done.
    - done.
    - intros m1 m2 m3 (H1 & H2 & H3 & H4) (H5 & H6 & H7 & H8). split_and!; [by etransitivity|congruence..|].
      intros q Hq. rewrite H8 by done. by apply H4.
    - intros j O m1 O' m2 (_ & _ & H1 & H2 & H3 & H4) _ _. done.
  Qed.
End Rm.

(** Goroutines removing files and directories: what a goroutine that has ended
    removed is gone for good; Remove said so exactly for files it found, which
    were there at the start; RemoveAll always says so. *)
Theorem C103_removed_partial parse m ls m' qs i l es :
  (forall l x, l ∈ ls -> x ∈ l -> fair x) ->
  rtc par (m, rms_prog parse (m_here m) <$> ls) (m', qs) ->
  ls !! i = Some l -> qs !! i = Some (Ret es) ->
  Forall2 (fun x e =>
    match x with
    | RmFile n => match parse (m_here m) n with
                  | None => e = Some EParse
                  | Some q => m_files m' !! q = None /\
                              (e = Some (EPath (B"remove") (path_string q)) \/ (e = None /\ is_Some (m_files m !! q)))
                  end
    | RmAll _ n => match parse (m_here m) n with
                 | None => e = Some EParse
                 | Some q => e = None /\ forall k, has_prefix (p_name k) (p_name q) = true -> m_files m' !! k = None
                 end
    end) l es.
Proof.
  intros Hf Hr Hl Hi. eapply (rms_done parse (m_here m) (concat ls)) in Hi as (l' & Hl' & HF); [|..|exact Hr].
  - rewrite Hl in Hl'. injection Hl' as <-. exact HF.
  - intros k x Hk Hx. split; [|by eapply Hf]. apply elem_concat. by exists k.
Qed.

(** Nothing else is removed, and nothing changes what is left. *)
Theorem C103_rest parse m ls m' qs k :
  (forall l x, l ∈ ls -> x ∈ l -> fair x) ->
  rtc par (m, rms_prog parse (m_here m) <$> ls) (m', qs) ->
  (forall l x, l ∈ ls -> x ∈ l -> ~ takes parse (m_here m) x k) ->
  file_at m' k = file_at m k.
Proof.
  intros Hf Hr Hk. destruct (rms_rest parse (m_here m) (concat ls) m ls m' qs) as (_ & Hh & _ & H); [|done|].
  - intros l x Hl Hx. split; [|by eapply Hf]. apply elem_concat. by exists l.
  - unfold file_at. rewrite Hh, H; [done|]. intros x Hx. apply elem_concat in Hx as (l & Hx & Hl). by apply (Hk l).
Qed.


(** When all have ended, exactly what somebody removed is gone. *)
Theorem C103_all parse m ls m' qs k :
  (forall l x, l ∈ ls -> x ∈ l -> fair x) ->
  rtc par (m, rms_prog parse (m_here m) <$> ls) (m', qs) ->
  (forall q, q ∈ qs -> exists es, q = Ret es) ->
  is_Some (file_at m' k) -> forall l x, l ∈ ls -> x ∈ l -> ~ takes parse (m_here m) x k.
Proof.
  intros Hf Hr Hend Hk l x Hl Hx Ht. apply elem_of_list_lookup in Hl as [i Hl].
  assert (Hlen : length qs = length ls).
  { clear - Hr. enough (length (m', qs).2 = length (m, rms_prog parse (m_here m) <$> ls).2) as H by (cbn in H; by rewrite fmap_length in H).
    induction Hr as [|c1 c2 c3 H _ IH]; [done|]. rewrite IH. destruct H. cbn. apply insert_length. }
  destruct (lookup_lt_is_Some_2 qs i) as [q Hq]; [rewrite Hlen; by eapply lookup_lt_Some|].
  destruct (Hend q) as [es ->]; [by eapply elem_of_list_lookup_2|].
  pose proof (C103_removed_partial parse m ls m' qs i l es Hf Hr Hl Hq) as HF.
  apply elem_of_list_lookup in Hx as [j Hx]. destruct (Forall2_lookup_l _ _ _ _ _ HF Hx) as (e & _ & He).
  unfold file_at in Hk. destruct x as [n|cand n]; cbn [takes] in Ht.
  - rewrite Ht in He. destruct He as [He _]. rewrite He in Hk. by destruct Hk.
  - destruct Ht as (pt & Hp & Hpre). rewrite Hp in He. destruct He as [_ He]. rewrite (He k Hpre) in Hk. by destruct Hk.
Qed.

Example C103_ex :
  let m := after [OMkdirAll (B"/d") 493; OCreate (B"/d/f"); OCreate (B"/d/g"); OCreate (B"/a")] in
  exists m' qs,
    rtc par (m, rms_prog here_parse (m_here m) <$> [[RmFile (B"/d/f"); RmAll keys_now (B"/d")]; [RmFile (B"/d/g"); RmFile (B"/d/f")]])
      (m', qs) /\
    answers qs = [Some [None; None]; Some [None; Some (EPath (B"remove") (B"app:/d/f"))]] /\
    p_name <$> sorted_keys m' = [B"/"; B"/a"].
Proof. cbv zeta. schedule (concat (replicate 12 [0;1])). by vm_compute. Qed.
