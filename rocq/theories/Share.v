(** Goroutines that keep their handles to themselves.

    A goroutine is a tree of calls ([worker]); it names handles by the order in
    which it got them, so it can only use those it was given at the start and
    those its own calls returned - as Go code without shared variables.  A
    handle may be given to several goroutines at the start (the File behind an
    http.FileServer).  Calls are the programs of atomic steps of Conc.v. *)
From Verif Require Import Bytes GoPath Here GoTypes Mem MemSpec MemBase MemFiles WalkSpec MemWalk Conc PropsFiles PropsConc PropsSerial.
From stdpp Require Import sorting.

(** One question: a call at time [now] ([cand]: the order of a Range; the
    handles in [o] are places in the list of handles), File.Stat and a look at
    the FileInfo, or Pkger.Stat and a look at the FileInfo. *)
Inductive ask :=
| AOp (now : gotime) (cand : mem -> list path) (o : op)
| AInfo (j : ref)
| AStat (name : bytes).

(** The answer: no such handle, what the call returned (a handle as its place),
    a FileInfo. *)
Inductive reply :=
| NoHandle
| Got (x : resp)
| Shown (d : option details)
| NotShown (e : gerr).

Inductive worker (A : Type) :=
| WDone (a : A)
| WAsk (c : ask) (k : reply -> worker A).
Global Arguments WDone {A}. Global Arguments WAsk {A}.

Fixpoint wbind {A C} (p : worker A) (k : A -> worker C) : worker C :=
  match p with
  | WDone a => k a
  | WAsk c q => WAsk c (fun y => wbind (q y) k)
  end.

(** The call with the handles in place. *)
Definition at_slots (hs : list ref) (o : op) : option op :=
  match o with
  | OWrite j b => (fun r => OWrite r b) <$> hs !! j
  | ORead j n => (fun r => ORead r n) <$> hs !! j
  | OSeek j off wh => (fun r => OSeek r off wh) <$> hs !! j
  | OClose j => OClose <$> hs !! j
  | OReaddir j n => (fun r => OReaddir r n) <$> hs !! j
  | OFileOpen j name => (fun r => OFileOpen r name) <$> hs !! j
  | _ => Some o
  end.

(** What the goroutine sees of an answer, and its handles afterwards. *)
Definition hide (hs : list ref) (o : op) (x : resp) : resp * list ref :=
  match o, x with
  | OCreate _, RRef (Ok r) | OOpen _, RRef (Ok r) | OFileOpen _ _, RRef (Ok r) => (RRef (Ok (length hs)), hs ++ [r])
  | OStat _, RRef (Ok _) => (RRef (Ok 0), hs)
  | _, x => (x, hs)
  end.

Section Worker.
  Context (parse : resolver).

  (** The goroutine step by step: one question, all of them. *)
  Definition ask_prog (her : hinfo) (hs : list ref) (c : ask) : prog (list ref * reply) :=
    match c with
    | AOp now cand o =>
        match at_slots hs o with
        | None => Ret (hs, NoHandle)
        | Some o' => bind (call_prog cand parse her (now, o')) (fun x => Ret ((hide hs o x).2, Got (hide hs o x).1))
        end
    | AInfo j =>
        match hs !! j with
        | None => Ret (hs, NoHandle)
        | Some r => bind (look (fun m => info_at m r)) (fun d => Ret (hs, Shown d))
        end
    | AStat name =>
        bind (stat_prog parse her name)
          (fun x => match x with
                    | Err e => Ret (hs, NotShown e)
                    | Ok r => bind (look (fun m => info_at m r)) (fun d => Ret (hs, Shown d))
                    end)
    end.
  Fixpoint worker_prog {A} (her : hinfo) (hs : list ref) (p : worker A) : prog A :=
    match p with
    | WDone a => Ret a
    | WAsk c k => bind (ask_prog her hs c) (fun x => worker_prog her x.1 (k x.2))
    end.

  (** One question with nobody else around: Mem.v. *)
  Definition ask_run (m : mem) (hs : list ref) (c : ask) : mem * list ref * reply :=
    match c with
    | AOp now cand o =>
        match at_slots hs o with
        | None => (m, hs, NoHandle)
        | Some o' => let '(m', x) := step parse m (now, o') in (m', (hide hs o x).2, Got (hide hs o x).1)
        end
    | AInfo j => (m, hs, match hs !! j with None => NoHandle | Some r => Shown (info_at m r) end)
    | AStat name => (m, hs, match stat parse m name with Err e => NotShown e | Ok r => Shown (info_at m r) end)
    end.
  Fixpoint worker_run {A} (m : mem) (hs : list ref) (p : worker A) : mem * list ref * A :=
    match p with
    | WDone a => (m, hs, a)
    | WAsk c k => let '(m', hs', y) := ask_run m hs c in worker_run m' hs' (k y)
    end.
  (** What it works out when left alone. *)
  Definition result {A} (m : mem) (hs : list ref) (p : worker A) : A := (worker_run m hs p).2.

  Lemma worker_run_bind {A C} (p : worker A) (k : A -> worker C) m hs :
    worker_run m hs (wbind p k) = let '(m', hs', a) := worker_run m hs p in worker_run m' hs' (k a).
  Proof.
    revert m hs. induction p as [a|c q IH]; intros m hs; cbn [wbind worker_run]; [done|].
    destruct (ask_run m hs c) as [[m' hs'] y]. apply IH.
  Qed.

  (** ** What a goroutine may do to others *)

  (** Its calls can only change the names in [D]. *)
  Fixpoint only {A} (her : hinfo) (D : path -> Prop) (p : worker A) : Prop :=
    match p with
    | WDone _ => True
    | WAsk c k =>
        (forall now cand o pt, c = AOp now cand o -> disturbs parse her pt o -> D pt) /\ forall y, only her D (k y)
    end.

  (** It opens, stats, reads, seeks, lists and closes; a Range runs over all
      the names there are. *)
  Definition reading (o : op) : Prop :=
    match o with
    | OOpen _ | OStat _ | ORead _ _ | OSeek _ _ _ | OClose _ | OReaddir _ _ | OFileOpen _ _ => True
    | _ => False
    end.
  Fixpoint reads {A} (p : worker A) : Prop :=
    match p with
    | WDone _ => True
    | WAsk c k => (forall now cand o, c = AOp now cand o -> reading o /\ candidates cand) /\ forall y, reads (k y)
    end.

  (** The names a question is about: the one it opens or stats, or all those in
      the directory it lists. *)
  Definition about (m : mem) (hs : list ref) (c : ask) (key : path) : Prop :=
    match c with
    | AOp _ _ (OOpen name) | AOp _ _ (OStat name) | AStat name => parse (m_here m) name = Some key
    | AOp _ _ (OFileOpen j name) =>
        exists r f pt, hs !! j = Some r /\ m_heap m !! r = Some f /\ parse (f_here f) name = Some pt /\ pt <> f_path f /\
          parse (m_here m) (path_string (Path (p_pkg pt) (join2 (p_name (f_path f)) (p_name pt)))) = Some key
    | AOp _ _ (OReaddir j _) =>
        exists r f pt, hs !! j = Some r /\ m_heap m !! r = Some f /\ parse (m_here m) (path_string (f_path f)) = Some pt /\
          p_pkg key = p_pkg pt /\ has_prefix (p_name key) (p_name pt) = true
    | _ => False
    end.
  (** Left alone from [m], it never asks about a name in [D]. *)
  Fixpoint avoids {A} (D : path -> Prop) (m : mem) (hs : list ref) (p : worker A) : Prop :=
    match p with
    | WDone _ => True
    | WAsk c k =>
        (forall key, about m hs c key -> ~ D key) /\
        let '(m', hs', y) := ask_run m hs c in avoids D m' hs' (k y)
    end.
End Worker.

(** A File without content, neither read nor written: the File of a directory,
    as Open and File.Open return it. *)
Definition plain (f : fobj) : Prop := f_data f = [] /\ f_writer f = None /\ f_reader f = None.

Lemma plain_reader f : plain f -> cur_reader f = None.
Proof. intros (E1 & E2 & E3). unfold cur_reader. by rewrite E3, E1. Qed.
Lemma plain_closed f : plain f -> set_closed f = f.
Proof. destruct f. intros (E1 & E2 & E3). cbn in *. unfold set_closed. by subst. Qed.
Lemma plain_read m r f n : m_heap m !! r = Some f -> plain f -> (file_read m r n).1 = m.
Proof. intros E Hp. unfold file_read. by rewrite E, (plain_reader f Hp). Qed.
Lemma plain_seek m r f off wh : m_heap m !! r = Some f -> plain f -> (file_seek m r off wh).1 = m.
Proof. intros E Hp. unfold file_seek. by rewrite E, (plain_reader f Hp). Qed.
Lemma upd_same m r f : m_heap m !! r = Some f -> upd m r f = m.
Proof. intros E. unfold upd. rewrite insert_id by done. by destruct m. Qed.

(** ** Any goroutine keeps to its own handles *)

Section Guards.
  Context (parse : resolver) (her : hinfo) (m0 : mem) (D : path -> Prop).

  (** Others may change anything but these Files of [m0] and what is [own]. *)
  Record env (own : ref -> Prop) (m : mem) : Prop := {
    en_wf : wf m;
    en_here : m_here m = her;
    en_next : m_next m0 <= m_next m;
    en_heap : forall r, r < m_next m0 -> m_heap m !! r = m_heap m0 !! r;
    en_own : forall r, own r -> m_next m0 <= r < m_next m
  }.
  Definition grow (own : ref -> Prop) (m m' : mem) (r : ref) : Prop := own r \/ m_next m <= r < m_next m'.

  Fixpoint guards {A} (own : ref -> Prop) (p : prog A) (Q : (ref -> Prop) -> A -> Prop) : Prop :=
    match p with
    | Ret a => Q own a
    | Act f k => forall m, env own m -> frame parse own D m (f m) /\ guards (grow own m (f m)) (k m) Q
    end.

  Definition more (own own' : ref -> Prop) : Prop := forall r, own r -> own' r.
  Lemma more_grow own m m' : more own (grow own m m').
  Proof. intros r H. by left. Qed.

  Lemma guards_mono {A} own (p : prog A) (Q Q' : (ref -> Prop) -> A -> Prop) :
    (forall own' a, more own own' -> Q own' a -> Q' own' a) -> guards own p Q -> guards own p Q'.
  Proof.
    revert own. induction p as [a|f k IH]; intros own HQ; cbn [guards].
    - apply HQ. by intros r.
    - intros H m Hm. destruct (H m Hm) as [H1 H2]. split; [done|]. eapply IH; [|exact H2].
      intros own' a Hmore. apply HQ. intros r Hr. apply Hmore. by left.
  Qed.
  Lemma guards_bind {A C} own (p : prog A) (k : A -> prog C) (Q : (ref -> Prop) -> C -> Prop) :
    guards own p (fun own' a => guards own' (k a) Q) -> guards own (bind p k) Q.
  Proof.
    revert own. induction p as [a|f q IH]; intros own; cbn [bind guards]; [done|]. intros H m Hm.
    destruct (H m Hm) as [H1 H2]. split; [done|]. by apply IH.
  Qed.
  Lemma guards_look {A} own (f : mem -> A) (Q : (ref -> Prop) -> A -> Prop) :
    (forall own' m, more own own' -> env own m -> Q own' (f m)) -> guards own (look f) Q.
  Proof.
    intros HQ m Hm. split; [apply frame_refl, Hm|]. cbn [guards]. apply HQ; [apply more_grow|done].
  Qed.
  Lemma guards_act {A} own (f : mem -> mem * A) (Q : (ref -> Prop) -> A -> Prop) :
    (forall m, env own m -> frame parse own D m (f m).1 /\ Q (grow own m (f m).1) (f m).2) -> guards own (act f) Q.
  Proof. intros H m Hm. cbn [guards]. by apply H. Qed.

  Definition any {A} (own : ref -> Prop) (a : A) : Prop := True.

  (** A File given to several goroutines. *)
  Definition shared (r : ref) : Prop := exists f, m_heap m0 !! r = Some f /\ plain f.
  Hypothesis W0 : wf m0.
  Lemma shared_now own m r : env own m -> shared r -> exists f, m_heap m !! r = Some f /\ plain f.
  Proof. intros He (f & Hf & Hp). exists f. split; [|done]. rewrite (en_heap _ _ He); [done|]. by eapply wf_next. Qed.

  Lemma guards_mkdir own fuel now p perm : (forall pt, mk_target parse her p pt -> D pt) ->
    guards own (mkdir_prog parse her fuel now p perm) any.
  Proof.
    revert own p. induction fuel as [|fuel IH]; intros own p HD; cbn [mkdir_prog]; [done|].
    destruct (parse her p) as [pt|] eqn:Hp; [|done]. destruct (path_split (p_name pt)) as [dir name] eqn:Hs. apply guards_bind.
    assert (Hact : forall own, guards own (act (fun m : mem => let '(m, r) := alloc m (FObj her (Details name 0 perm now true JNull) pt [] zero_path None None) in
                              (store m pt r, @None gerr))) any).
    { intros own'. apply guards_act. intros m Hm. split; [|done]. apply (frame_alloc_store parse own' D m _ pt (en_wf _ _ Hm)). apply HD. by constructor. }
    case_bool_decide as Hd; cbn [guards]; [apply Hact|]. eapply guards_mono, IH.
    - intros own' [e|] _ _; [done|apply Hact].
    - intros q Hq. apply HD. eapply mt_up; [exact Hp|by rewrite Hs|by rewrite Hs].
  Qed.

  Lemma guards_stat own name : guards own (stat_prog parse her name) any.
  Proof. unfold stat_prog. destruct (parse her name); [|done]. by apply guards_look. Qed.

  (** A File that was just made belongs to the goroutine that made it. *)
  Definition mine (own : ref -> Prop) (x : res ref) : Prop := forall r, x = Ok r -> own r.

  Lemma guards_create own now name : (forall pt, disturbs parse her pt (OCreate name) -> D pt) ->
    guards own (create_prog parse her now name) mine.
  Proof.
    intros HD. unfold create_prog. apply guards_bind. eapply guards_mono, guards_mkdir.
    2: { intros pt H. apply HD. right. done. }
    intros own1 e _ _. case_bool_decide; [by intros ?|]. destruct (parse her name) as [pt|] eqn:Hp; [|by intros ?].
    apply guards_bind, guards_look. intros own2 m2 _ _. destruct (mem_info m2 (p_pkg pt)) as [h|e1]; [|by intros ?]. cbv zeta. apply guards_bind.
    assert (Hst : guards own2 (if bool_decide (dirname (p_name pt) = B"/") then Ret (Ok 0) else stat_prog parse her (dirname (p_name pt))) any).
    { case_bool_decide; [done|apply guards_stat]. }
    eapply guards_mono, Hst. intros own3 [x|e2] _ _; [|by intros ?]. apply guards_act. intros m Hm. split.
    - apply (frame_alloc_store parse own3 D m _ pt (en_wf _ _ Hm)). apply HD. by left.
    - cbn. intros r [= <-]. right. cbn. lia.
  Qed.

  Lemma guards_open own name : guards own (open_prog parse her name) mine.
  Proof.
    unfold open_prog. destruct (parse her name) as [pt|]; [|by intros ?]. apply guards_bind, guards_look. intros own1 m1 _ _.
    destruct (m_files m1 !! pt) as [r|]; [|by intros ?].
    apply guards_bind, guards_look. intros own2 m2 _ _. destruct (f_info <$> m_heap m2 !! r) as [i|]; [|by intros ?]. apply guards_act. intros m Hm.
    destruct (m_heap m !! r) as [f|]; cbn [fst snd]; [|split; [apply frame_refl, Hm|by intros ?]]. split.
    - apply (frame_alloc parse own2 D m _ (en_wf _ _ Hm)).
    - cbn. intros r' [= <-]. right. cbn. lia.
  Qed.

  Lemma guards_remove own name : (forall pt, disturbs parse her pt (ORemove name) -> D pt) -> guards own (remove_prog parse her name) any.
  Proof.
    intros HD. unfold remove_prog. destruct (parse her name) as [pt|] eqn:Hp; [|done]. apply guards_bind, guards_look. intros own1 m1 _ _.
    destruct (m_files m1 !! pt) as [r|]; [|done].
    apply guards_act. intros m Hm. split; [|done]. apply (frame_delete parse own1 D); [apply Hm|]. by apply HD.
  Qed.

  Lemma guards_delete own pt ks : (forall k, has_prefix (p_name k) (p_name pt) = true -> D k) -> guards own (delete_prog pt ks) any.
  Proof.
    intros HD. revert own. induction ks as [|k ks IH]; intros own; cbn [delete_prog]; [done|]. apply guards_bind, guards_look. intros own1 m1 _ _.
    destruct (m_files m1 !! k) as [r|]; [|apply IH].
    destruct (has_prefix (p_name k) (p_name pt)) eqn:E; [|apply IH]. apply guards_bind, guards_act. intros m Hm. split; [|apply IH].
    apply (frame_delete parse own1 D); [apply Hm|]. by apply HD.
  Qed.
  Lemma guards_remove_all own cand name : (forall pt, disturbs parse her pt (ORemoveAll name) -> D pt) ->
    guards own (remove_all_prog parse her cand name) any.
  Proof.
    intros HD. unfold remove_all_prog. destruct (parse her name) as [pt|] eqn:Hp; [|done]. apply guards_bind, guards_look. intros own1 m1 _ _.
    apply guards_delete. intros k Hk. apply HD. by exists pt.
  Qed.

  Lemma guards_range own ks : guards own (range_prog ks) any.
  Proof.
    revert own. induction ks as [|k ks IH]; intros own; cbn [range_prog]; [done|]. apply guards_bind, guards_look. intros own1 m1 _ _.
    apply guards_bind. eapply guards_mono, IH. done.
  Qed.
  Lemma guards_loop {S} own (f : bytes -> details -> S -> S * option gerr) pt ks skip s : guards own (walk_prog_loop f pt ks skip s) any.
  Proof.
    revert own skip s. induction ks as [|k ks IH]; intros own skip s; cbn [walk_prog_loop]; [done|]. destruct (negb _); [apply IH|].
    destruct (negb _); [apply IH|]. destruct (has_prefix _ skip); [apply IH|]. apply guards_bind, guards_look. intros own1 m1 _ _.
    destruct (m_files m1 !! k) as [r|]; [|done].
    apply guards_bind, guards_look. intros own2 m2 _ _. destruct (f_info <$> m_heap m2 !! r) as [i|]; [|done].
    destruct (f _ _ s) as [s1 [[]|]]; try done; apply IH.
  Qed.
  Lemma guards_readdir own cand r n : guards own (readdir_prog parse her cand r n) any.
  Proof.
    unfold readdir_prog. apply guards_bind, guards_look. intros own1 m1 _ _. destruct (m_heap m1 !! r) as [f|]; [|done]. cbv zeta. apply guards_bind.
    unfold walk_prog, keys_prog. apply guards_bind, guards_bind, guards_look. intros own2 m2 _ _. apply guards_bind. eapply guards_mono, guards_range.
    intros own3 l _ _. cbn [guards]. destruct (parse her _); [|done]. by eapply guards_mono, guards_loop.
  Qed.

  Lemma guards_file_open own r name : guards own (file_open_prog parse her r name) (fun own' x => forall r', x = Ok r' -> own' r' \/ r' = r).
  Proof.
    unfold file_open_prog. apply guards_bind, guards_look. intros own1 m1 _ _. destruct (m_heap m1 !! r) as [f|]; [|by intros ?].
    destruct (parse (f_here f) name) as [pt|]; [|by intros ?].
    case_bool_decide; [intros ? [= <-]; by right|]. cbv zeta. apply guards_bind. eapply guards_mono, guards_open. intros own2 [d|e] _ Hd; [|by intros ?].
    apply guards_act. intros m Hm. destruct (m_heap m !! d) as [di|]; cbn [fst snd]; [|split; [apply frame_refl, Hm|by intros]].
    destruct (d_isdir (f_info di)).
    - split; [apply (frame_alloc parse own2 D m _ (en_wf _ _ Hm))|]. cbn. intros r' [= <-]. left. right. cbn. lia.
    - split; [apply frame_refl, Hm|]. intros r' [= <-]. left. left. by apply Hd.
  Qed.

  Lemma guards_set {A} own (a : A) r g : own r \/ (shared r /\ forall f, plain f -> g f = f) ->
    guards own (act (fun m => (set_obj r g m, a))) any.
  Proof.
    intros Hr. apply guards_act. intros m Hm. split; [|done]. cbn [fst]. destruct Hr as [Hr|[Hr Hg]].
    - by apply (frame_set parse own D); [apply Hm|].
    - destruct (shared_now _ _ _ Hm Hr) as (f & Hf & Hp). unfold set_obj. rewrite Hf, (Hg f Hp), upd_same by done. apply frame_refl, Hm.
  Qed.
  Lemma guards_close own now r : own r \/ shared r -> guards own (close_prog now r) any.
  Proof.
    intros Hr. unfold close_prog. apply guards_bind, guards_look. intros own1 m1 Hm1 He. destruct (m_heap m1 !! r) as [f|] eqn:Hf; [|done].
    destruct (f_writer f) as [w|] eqn:Ew.
    - assert (Hown : own r).
      { destruct Hr as [Hr|Hr]; [done|]. destruct (shared_now _ _ _ He Hr) as (f' & Hf' & _ & Hp & _). congruence. }
      do 3 (apply guards_bind; eapply guards_mono; [|apply guards_set; left; by auto]; intros ? [] ? _).
      apply guards_set. left. by auto.
    - apply guards_set. destruct Hr as [Hr|Hr]; [left; by auto|right]. split; [done|]. apply plain_closed.
  Qed.

  Definition made_well (own : ref -> Prop) (o : op) : Prop :=
    forall r, made_on r o -> own r \/ (shared r /\ reading o).

  Lemma guards_call own cand now o : made_well own o -> (forall pt, disturbs parse her pt o -> D pt) ->
    guards own (call_prog cand parse her (now, o)) (fun own' x => forall r, gives o x r -> own' r \/ made_on r o).
  Proof.
    intros HU HD.
    assert (Hst : forall o', (forall r, uses r o' -> own r) -> (forall pt, disturbs parse her pt o' -> D pt) -> (forall x r, ~ gives o' x r) ->
              guards own (act (fun m => step parse m (now, o'))) (fun own' x => forall r, gives o' x r -> own' r \/ made_on r o')).
    { intros o' HU' HD' Hg. apply guards_act. intros m Hm. split; [|intros r H; by apply Hg in H].
      eapply frame_weaken; [..|apply (frame_step parse m (now, o')), Hm]; [apply HU'|]. rewrite (en_here _ _ Hm). apply HD'. }
    destruct o; cbn [call_prog].
    - apply guards_bind. eapply guards_mono; [|by apply guards_create]. intros own' x _ Hx r. cbn. intros [= ->]. left. by apply Hx.
    - apply guards_bind. eapply guards_mono; [|apply guards_mkdir; intros q Hq; by apply HD]. intros ? ? _ _ ? [].
    - apply guards_bind. eapply guards_mono; [|by apply guards_remove]. intros ? ? _ _ ? [].
    - apply guards_bind. eapply guards_mono; [|by apply guards_remove_all]. intros ? ? _ _ ? [].
    - apply guards_bind. eapply guards_mono; [|by apply guards_open]. intros own' x _ Hx r. cbn. intros [= ->]. left. by apply Hx.
    - apply guards_bind. eapply guards_mono; [|by apply guards_stat]. intros ? ? _ _ ? [].
    - match goal with |- context [add_file _ ?p ?h ?i ?d] => apply (Hst (OAdd p h i d)) end; [intros r []|exact HD|]. intros x q [].
    - assert (Ho : own r) by (destruct (HU r eq_refl) as [H|[_ []]]; exact H).
      apply guards_bind. apply guards_act. intros m Hm. split; [|by intros ?].
      pose proof (frame_step parse m (now, OWrite r b) (en_wf _ _ Hm)) as H. cbn [step fst snd] in H. destruct (file_write m r b) as [m1 [x e]]. cbn [fst snd] in *.
      eapply frame_weaken; [..|exact H]; [|by intros]. by intros ? <-.
    - destruct (HU r eq_refl) as [H|[H _]].
      + apply (Hst (ORead r n)); [by intros ? <-|exact HD|]. intros x q [].
      + apply guards_act. intros m Hm. split; [|by intros ? []]. destruct (shared_now _ _ _ Hm H) as (f & Hf & Hp).
        cbn [step]. pose proof (plain_read m r f n Hf Hp) as E. destruct (file_read m r n) as [m1 [x e]]. cbn [fst] in *. subst m1. apply frame_refl, Hm.
    - destruct (HU r eq_refl) as [H|[H _]].
      + apply (Hst (OSeek r off whence)); [by intros ? <-|exact HD|]. intros x q [].
      + apply guards_act. intros m Hm. split; [|by intros ? []]. destruct (shared_now _ _ _ Hm H) as (f & Hf & Hp).
        cbn [step]. pose proof (plain_seek m r f off whence Hf Hp) as E. destruct (file_seek m r off whence) as [m1 [x e]]. cbn [fst] in *. subst m1. apply frame_refl, Hm.
    - apply guards_bind. eapply guards_mono; [|apply guards_close; destruct (HU r eq_refl) as [H|[H _]]; [by left|by right]]. intros ? ? _ _ ? [].
    - apply guards_bind. eapply guards_mono; [|by apply guards_readdir]. intros ? ? _ _ ? [].
    - apply guards_bind. eapply guards_mono; [|by apply guards_file_open]. intros own' x _ Hx q. cbn. intros [= ->].
      destruct (Hx q eq_refl) as [H|H]; [by left|right]. done.
  Qed.

  (** The handles are its own, or shared and it only reads. *)
  Definition fit {A} (own : ref -> Prop) (hs : list ref) (p : worker A) : Prop :=
    Forall own hs \/ (reads p /\ Forall (fun r => own r \/ shared r) hs).

  Lemma at_slots_made hs o o' r : at_slots hs o = Some o' -> made_on r o' -> r ∈ hs.
  Proof.
    destruct o; cbn; try (intros [= <-]; cbn; by intros []).
    all: intros H; apply fmap_Some in H as (q & Hq & ->); cbn; intros <-; by eapply elem_of_list_lookup_2.
  Qed.
  Lemma at_slots_reading hs o o' : at_slots hs o = Some o' -> reading o' <-> reading o.
  Proof. destruct o; cbn; try (intros [= <-]; done). all: intros H; apply fmap_Some in H as (q & Hq & ->); done. Qed.
  Lemma at_slots_disturbs hs o o' pt : at_slots hs o = Some o' -> disturbs parse her pt o' -> disturbs parse her pt o.
  Proof. destruct o; cbn; try (intros [= <-]; done). all: intros H; apply fmap_Some in H as (q & Hq & ->); done. Qed.
  Lemma hide_handles hs o o' x r : at_slots hs o = Some o' -> r ∈ (hide hs o x).2 -> r ∈ hs \/ gives o' x r.
  Proof.
    intros Ho. destruct o; cbn in Ho; destruct x as [?|[q|?]|?|?|?]; cbn [hide snd]; try (intros H; by left).
    - injection Ho as <-. rewrite elem_of_app, elem_of_list_singleton. intros [H| ->]; [by left|by right].
    - injection Ho as <-. rewrite elem_of_app, elem_of_list_singleton. intros [H| ->]; [by left|by right].
    - apply fmap_Some in Ho as (q' & Hq & ->). rewrite elem_of_app, elem_of_list_singleton. intros [H| ->]; [by left|by right].
  Qed.

  Lemma fit_more {A} own own' hs (p q : worker A) : more own own' -> (reads p -> reads q) -> fit own hs p -> fit own' hs q.
  Proof.
    intros Hm Hr [H|[H1 H2]]; [left|right].
    - by eapply Forall_impl; [exact H|].
    - split; [by apply Hr|]. eapply Forall_impl; [exact H2|]. intros r [H|H]; [left|by right]. by apply Hm.
  Qed.

  Lemma guards_worker {A} own hs (p : worker A) : only parse her D p -> fit own hs p -> guards own (worker_prog parse her hs p) any.
  Proof.
    revert own hs. induction p as [a|c k IH]; intros own hs Hd Hf; cbn [worker_prog]; [done|]. destruct Hd as [Hd Hk].
    assert (Hsub : forall own' y, more own own' -> fit own' hs (k y)).
    { intros own' y Hm. eapply fit_more; [exact Hm| |exact Hf]. intros [_ H]. apply H. }
    apply guards_bind. destruct c as [now cand o|j|name]; cbn [ask_prog].
    - destruct (at_slots hs o) as [o'|] eqn:Ho; cbn [guards fst snd]; [|apply IH; [apply Hk|apply Hsub; by intros ?]].
      apply guards_bind. eapply guards_mono; [|apply guards_call].
      + intros own' x Hm Hx. cbn beta in Hx. cbn [guards fst snd]. apply IH; [apply Hk|]. destruct Hf as [Hf|[[Hr1 Hr2] Hf]]; [left|right].
        * apply Forall_forall. intros r Hin. destruct (hide_handles _ _ _ _ _ Ho Hin) as [H|H].
          -- apply Hm. by eapply Forall_forall in Hf.
          -- destruct (Hx r H) as [H'|H']; [done|]. apply (at_slots_made _ _ _ _ Ho) in H'. apply Hm. by eapply Forall_forall in Hf.
        * split; [apply Hr2|]. apply Forall_forall. intros r Hin.
          assert (Hin' : r ∈ hs -> own' r \/ shared r). { intros H. eapply Forall_forall in Hf as [H'|H']; [|by right|exact H]. left. by apply Hm. }
          destruct (hide_handles _ _ _ _ _ Ho Hin) as [H|H]; [by apply Hin'|].
          destruct (Hx r H) as [H'|H']; [by left|]. apply (at_slots_made _ _ _ _ Ho) in H'. by apply Hin'.
      + intros r Hr. apply (at_slots_made _ _ _ _ Ho) in Hr. destruct Hf as [Hf|[[Hr1 _] Hf]]; eapply Forall_forall in Hf; try exact Hr; [by left|].
        destruct Hf as [Hf|Hf]; [by left|right]. split; [done|]. rewrite (at_slots_reading _ _ _ Ho). by eapply Hr1.
      + intros pt Hpt. eapply Hd; [done|]. by eapply at_slots_disturbs.
    - destruct (hs !! j) as [r|]; cbn [guards fst snd]; [|apply IH; [apply Hk|apply Hsub; by intros ?]].
      apply guards_bind, guards_look. intros own' m Hm _. apply IH; [apply Hk|by apply Hsub].
    - apply guards_bind. eapply guards_mono; [|by apply guards_stat]. intros own1 [r|e] Hm1 _; [|apply IH; [apply Hk|by apply Hsub]].
      apply guards_bind, guards_look. intros own' m Hm _. apply IH; [apply Hk|apply Hsub]. intros r' Hr'. by apply Hm, Hm1.
  Qed.

  Lemma env_step own own' m m' : more own own' -> (forall r, own' r -> own r \/ m_next m <= r < m_next m') ->
    env own m -> frame parse own D m m' -> env own' m'.
  Proof.
    intros Hmo Hg He F. pose proof (fr_next _ _ _ _ _ F). pose proof (en_next _ _ He). split.
    - apply F.
    - rewrite (fr_here _ _ _ _ _ F). apply He.
    - lia.
    - intros r Hr. rewrite (fr_heap _ _ _ _ _ F); [by apply He| |lia]. intros Ho. apply (en_own _ _ He) in Ho. lia.
    - intros r Hr. destruct (Hg r Hr) as [Ho|Ho]; [apply (en_own _ _ He) in Ho|]; lia.
  Qed.
End Guards.
