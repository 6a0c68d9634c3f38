(** Theorems: goroutines whose calls do not overlap (C129).

    Conc.v gives the calls of the in-memory pkger as programs of atomic steps.
    Here are the remaining ones, and goroutines that may make any call, choosing
    the next one by the answers to the ones before. *)
From Verif Require Import Bytes GoPath Here GoTypes Mem MemSpec MemBase MemFiles WalkSpec Conc PropsFiles PropsConc.

(** The callback of File.Readdir (file.go:128-155): it parses with fx.Here, which
    never changes. *)
Definition readdir_note (parse : resolver) (her : hinfo) (root : bytes) (parent : path) (count : Z) (path : bytes) (info : details)
    (infos : list details) : list details * option gerr :=
  if (0 <? count)%Z && (Z.of_nat (length infos) =? count)%Z then (infos, Some EEOF)
  else if bool_decide (root = path) then (infos, None)
  else match parse her path with
       | None => (infos, Some EParse)
       | Some pt =>
           if bool_decide (p_name pt = p_name parent) then (infos, None)
           else if d_isdir info && negb (bool_decide (path = root)) then (infos ++ [info], Some ESkipDir)
           else (infos ++ [info], None)
       end.

(** File.Readdir, file.go:125-167: the path and parent are read, then Walk. *)
Definition readdir_prog (parse : resolver) (her : hinfo) (cand : mem -> list path) (r : ref) (count : Z) : prog (list details * option gerr) :=
  bind (look (fun m => m_heap m !! r))
    (fun x => match x with
       | None => Ret ([], Some EBadHandle)
       | Some f =>
           let root := path_string (f_path f) in
           bind (walk_prog parse her cand root (readdir_note parse her root (f_parent f) count) [])
             (fun y => Ret (match y with
                            | (infos, None) => (infos, None)
                            | (infos, Some (EPath _ _)) => (infos, None)
                            | (infos, Some EEOF) => (infos, None)
                            | (_, Some e) => ([], Some e)
                            end))
       end).

(** File.Open, file.go:170-203: Open (:186), then the new File of a directory
    (:194-200), which nobody else has. *)
Definition file_open_prog (parse : resolver) (her : hinfo) (r : ref) (name : bytes) : prog (res ref) :=
  bind (look (fun m => m_heap m !! r))
    (fun x => match x with
       | None => Ret (Err EBadHandle)
       | Some f =>
           match parse (f_here f) name with
           | None => Ret (Err EParse)
           | Some pt =>
               if bool_decide (pt = f_path f) then Ret (Ok r)
               else
                 let pt := Path (p_pkg pt) (join2 (p_name (f_path f)) (p_name pt)) in
                 bind (open_prog parse her (path_string pt))
                   (fun y => match y with
                      | Err e => Ret (Err e)
                      | Ok d =>
                          act (fun m =>
                            match m_heap m !! d with
                            | None => (m, Err EBadHandle)
                            | Some di =>
                                if d_isdir (f_info di) then
                                  let '(m, d2) := alloc m (FObj (f_here di) (new_file_info (f_info di)) pt [] (f_path f) None None) in
                                  (m, Ok d2)
                                else (m, Ok d)
                            end)
                      end)
           end
       end).

(** Any call at time [now].  Read, Seek and Write work on what belongs to the
    handle; Add's Store is one step.  [cand]: the order of a Range. *)
Definition call_prog (cand : mem -> list path) (parse : resolver) (her : hinfo) (c : gotime * op) : prog resp :=
  let '(now, o) := c in
  match o with
  | OCreate name => bind (create_prog parse her now name) (fun x => Ret (RRef x))
  | OMkdirAll p perm => bind (mkdir_prog parse her (mk_fuel p) now p perm) (fun e => Ret (RErr e))
  | ORemove name => bind (remove_prog parse her name) (fun e => Ret (RErr e))
  | ORemoveAll name => bind (remove_all_prog parse her cand name) (fun e => Ret (RErr e))
  | OOpen name => bind (open_prog parse her name) (fun x => Ret (RRef x))
  | OStat name => bind (stat_prog parse her name) (fun x => Ret (RRef x))
  | OAdd pt h info data => act (fun m => (add_file m pt h info data, RErr None))
  | OWrite r b => bind (write_prog r b) (fun x => Ret (RNum (Z.of_nat x.1) x.2))
  | ORead r n => act (fun m => step parse m (now, ORead r n))
  | OSeek r off wh => act (fun m => step parse m (now, OSeek r off wh))
  | OClose r => bind (close_prog now r) (fun e => Ret (RErr e))
  | OReaddir r n => bind (readdir_prog parse her cand r n) (fun x => Ret (RInfos x.1 x.2))
  | OFileOpen r name => bind (file_open_prog parse her r name) (fun x => Ret (RRef x))
  end.

(** A goroutine: its next call depends on the answers so far. *)
Inductive client (A : Type) :=
| CDone (a : A)
| CCall (c : gotime * op) (k : resp -> client A).
Global Arguments CDone {A}. Global Arguments CCall {A}.
Fixpoint client_prog {A} (parse : resolver) (her : hinfo) (p : client A) : prog A :=
  match p with
  | CDone a => Ret a
  | CCall c k => bind (call_prog keys_now parse her c) (fun x => client_prog parse her (k x))
  end.

(** Taking turns: some goroutine makes one whole call, as Mem.v's [step] has it. *)
Inductive serial {A} (parse : resolver) : mem * list (client A) -> mem * list (client A) -> Prop :=
| serial_step m ps i c k : ps !! i = Some (CCall c k) ->
    serial parse (m, ps) ((step parse m c).1, <[i := k (step parse m c).2]> ps).

(** ** C129: calls that do not overlap *)

Lemma alone_note {S} parse (f : bytes -> details -> S -> S * option gerr) (g : walk_fn S) m p s :
  wf m -> (forall n d s, g n d s m = let '(s, e) := f n d s in ((s, m), e)) ->
  alone (walk_prog parse (m_here m) keys_now p f s) m = let '((s', m'), e) := walk parse m p g s in (m', (s', e)).
Proof.
  intros Hw Hg. rewrite alone_walk by done. unfold walk. destruct (mem_parse parse m p) as [pt|]; [|done].
  assert (E : forall ks skip s, walk_loop (fun n d s m => let '(s, e) := f n d s in ((s, m), e)) pt ks skip s m = walk_loop g pt ks skip s m /\
                (walk_loop g pt ks skip s m).1.2 = m).
  { induction ks as [|k ks IH]; intros skip s0; cbn [walk_loop]; [done|]. destruct (negb _); [apply IH|]. destruct (negb _); [apply IH|].
    destruct (has_prefix (p_name k) skip); [apply IH|]. destruct (file_at m k) as [o|]; [|done]. rewrite Hg.
    destruct (f (path_string k) (new_file_info (f_info o)) s0) as [s1 [[]|]]; try done; apply IH. }
  by rewrite (proj1 (E _ _ _)).
Qed.

Lemma walk_same {S} parse (f : bytes -> details -> S -> S * option gerr) (g : walk_fn S) m p s :
  (forall n d s, g n d s m = let '(s, e) := f n d s in ((s, m), e)) -> (walk parse m p g s).1.2 = m.
Proof.
  intros Hg. unfold walk. destruct (mem_parse parse m p) as [pt|]; [|done]. generalize (sorted_keys m) (B"!"). intros ks.
  revert s. induction ks as [|k ks IH]; intros s skip; cbn [walk_loop]; [done|]. destruct (negb _); [apply IH|]. destruct (negb _); [apply IH|].
  destruct (has_prefix (p_name k) skip); [apply IH|]. destruct (file_at m k) as [o|]; [|done]. rewrite Hg.
  destruct (f (path_string k) (new_file_info (f_info o)) s) as [s1 [[]|]]; try done; apply IH.
Qed.

Lemma alone_readdir parse m r count : wf m ->
  alone (readdir_prog parse (m_here m) keys_now r count) m = (m, readdir parse m r count).
Proof.
  intros Hw. unfold readdir_prog, readdir. rewrite alone_bind. cbn [look alone]. destruct (m_heap m !! r) as [f|]; [|done]. cbv zeta. rewrite alone_bind.
  assert (Hg : forall n d s, readdir_fn parse (path_string (f_path f)) (f_parent f) count n d s m =
            let '(s, e) := readdir_note parse (m_here m) (path_string (f_path f)) (f_parent f) count n d s in ((s, m), e)).
  { intros n d s. unfold readdir_fn, readdir_note, mem_parse. destruct (_ && _)%bool; [done|]. case_bool_decide; [done|].
    destruct (parse (m_here m) n) as [pt|]; [|done]. case_bool_decide; [done|]. cbv zeta. by destruct (_ && _)%bool. }
  rewrite (alone_note parse _ _ m _ [] Hw Hg). pose proof (walk_same parse _ _ m (path_string (f_path f)) [] Hg) as E.
  destruct (walk parse m _ _ []) as [[l m'] e]. cbn [fst snd] in E. subst m'. cbn [alone]. by destruct e as [[]|].
Qed.

Lemma alone_file_open parse m r name : wf m ->
  alone (file_open_prog parse (m_here m) r name) m = file_open parse m r name.
Proof.
  intros Hw. unfold file_open_prog, file_open. rewrite alone_bind. cbn [look alone]. destruct (m_heap m !! r) as [f|]; [|done].
  destruct (parse (f_here f) name) as [pt|]; [|done]. case_bool_decide; [done|]. cbv zeta. rewrite alone_bind, alone_open by done.
  destruct (open parse m _) as [m1 [d|e]]; [|done]. cbn [act alone]. destruct (m_heap m1 !! d) as [di|]; [|done]. by destruct (d_isdir (f_info di)).
Qed.

(** A call that nobody interrupts is a call of Mem.v. *)
Lemma alone_call parse m c : wf m -> alone (call_prog keys_now parse (m_here m) c) m = step parse m c.
Proof.
  intros Hw. destruct c as [now o]. destruct o; cbn [call_prog step]; try done; rewrite ?alone_bind.
  - rewrite alone_create. by destruct (create parse now m name).
  - destruct (alone_mkdir parse (mk_fuel p) now m p perm) as [-> _]. by destruct (mkdir_all parse (mk_fuel p) now m p perm).
  - rewrite alone_remove. by destruct (remove parse m name).
  - rewrite alone_remove_all by apply keys_now_candidates. by destruct (remove_all parse m name).
  - rewrite alone_open by done. by destruct (open parse m name).
  - by rewrite alone_stat.
  - cbn [write_prog act alone]. by destruct (file_write m r b) as [m1 [n e]].
  - cbn [act alone step]. by destruct (file_read m r n) as [m1 [x e]].
  - cbn [act alone step]. by destruct (file_seek m r off whence) as [m1 [x e]].
  - rewrite alone_close. by destruct (file_close now m r).
  - rewrite alone_readdir by done. by destruct (readdir parse m r count).
  - rewrite alone_file_open by done. by destruct (file_open parse m r name).
Qed.
Theorem C129_call parse m c : reachable parse m -> alone (call_prog keys_now parse (m_here m) c) m = step parse m c.
Proof. intros Hr. by apply alone_call, (reachable_wf parse). Qed.

Lemma alone_par_call {A B} (p : prog A) (k : A -> prog B) m ps i : ps !! i = Some (bind p k) ->
  rtc par (m, ps) ((alone p m).1, <[i := k (alone p m).2]> ps).
Proof.
  revert m ps. induction p as [a|f q IH]; intros m ps Hi; cbn [bind alone fst snd] in *; [by rewrite list_insert_id|].
  eapply rtc_l; [by constructor|]. rewrite <- (list_insert_insert ps i (k (alone (q m) (f m)).2) (bind (q m) k)). apply IH.
  rewrite list_lookup_insert; [done|by eapply lookup_lt_Some].
Qed.

(** Whatever goroutines taking turns can do, call by call, is one of the things
    they may do at the same time: what the sequential theorems say holds of
    calls that do not overlap. *)
Theorem C129_turns {A} parse m (ps : list (client A)) m' ps' :
  reachable parse m -> rtc (serial parse) (m, ps) (m', ps') ->
  rtc par (m, client_prog parse (m_here m) <$> ps) (m', client_prog parse (m_here m) <$> ps').
Proof.
  intros Hr H. remember (m, ps) as x eqn:Ex. remember (m', ps') as y eqn:Ey. revert m ps Hr Ex.
  induction H as [x|x y' z Hs Hz IH]; intros m ps Hr Ex; subst.
  - injection Ex as -> ->. done.
  - inversion Hs as [m0 ps0 i c k Hi E1 E2]; subst.
    assert (Hh : m_here (step parse m c).1 = m_here m) by apply (frame_step parse m c (reachable_wf _ _ Hr)).
    eapply rtc_transitive; [|rewrite <- Hh; apply IH; [done|by apply reach_step|done]]. rewrite Hh.
    rewrite <- (C129_call parse m c Hr). rewrite list_fmap_insert.
    apply (alone_par_call _ (fun x => client_prog parse (m_here m) (k x))). rewrite list_lookup_fmap, Hi. done.
Qed.

(** ** Calls that overlap but have nothing to do with each other *)

(** The handle a call gives out. *)
Definition gives (o : op) (x : resp) (r : ref) : Prop :=
  match o with OCreate _ | OOpen _ | OFileOpen _ _ => x = RRef (Ok r) | _ => False end.

(** The handles a call is made on. *)
Definition made_on (r : ref) (o : op) : Prop :=
  match o with OFileOpen r' _ | OReaddir r' _ => r' = r | _ => uses r o end.

(** A goroutine that only uses handles in [U], among them those it is given, and
    whose calls can only change the names in [D]. *)
Fixpoint minds {A} (parse : resolver) (her : hinfo) (U : ref -> Prop) (D : path -> Prop) (p : client A) : Prop :=
  match p with
  | CDone _ => True
  | CCall c k =>
      (forall r, made_on r c.2 -> U r) /\ (forall pt, disturbs parse her pt c.2 -> D pt) /\
      forall x, (forall r, gives c.2 x r -> U r) -> minds parse her U D (k x)
  end.

Section Apart.
  Context (parse : resolver) (her : hinfo) (n0 : ref) (U : ref -> Prop) (D : path -> Prop).

  Fixpoint safe {A} (p : prog A) (Q : A -> Prop) : Prop :=
    match p with
    | Ret a => Q a
    | Act f k => forall m, wf m -> m_here m = her -> n0 <= m_next m -> frame parse U D m (f m) /\ safe (k m) Q
    end.

  Lemma safe_mono {A} (p : prog A) (Q Q' : A -> Prop) : (forall a, Q a -> Q' a) -> safe p Q -> safe p Q'.
  Proof.
    intros HQ. induction p as [a|f k IH]; cbn [safe]; [apply HQ|]. intros H m Hw Hh Hn.
    destruct (H m Hw Hh Hn) as [H1 H2]. split; [done|]. by apply IH.
  Qed.
  Lemma safe_bind {A C} (p : prog A) (k : A -> prog C) (Q : C -> Prop) : safe p (fun a => safe (k a) Q) -> safe (bind p k) Q.
  Proof.
    induction p as [a|f q IH]; cbn [bind safe]; [done|]. intros H m Hw Hh Hn.
    destruct (H m Hw Hh Hn) as [H1 H2]. split; [done|]. by apply IH.
  Qed.
  Lemma safe_look {A} (f : mem -> A) (Q : A -> Prop) : (forall a, Q a) -> safe (look f) Q.
  Proof. intros HQ m Hw _ _. split; [by apply frame_refl|]. cbn [safe]. apply HQ. Qed.
  Lemma safe_act {A} (f : mem -> mem * A) (Q : A -> Prop) :
    (forall m, wf m -> m_here m = her -> n0 <= m_next m -> frame parse U D m (f m).1 /\ Q (f m).2) -> safe (act f) Q.
  Proof. intros H m Hw Hh Hn. cbn [safe]. by apply H. Qed.

  Lemma safe_mkdir fuel now p perm : (forall pt, mk_target parse her p pt -> D pt) -> safe (mkdir_prog parse her fuel now p perm) (fun _ => True).
  Proof.
    revert p. induction fuel as [|fuel IH]; intros p HD; cbn [mkdir_prog]; [done|].
    destruct (parse her p) as [pt|] eqn:Hp; [|done]. destruct (path_split (p_name pt)) as [dir name] eqn:Hs. apply safe_bind.
    assert (Hact : safe (act (fun m : mem => let '(m, r) := alloc m (FObj her (Details name 0 perm now true JNull) pt [] zero_path None None) in
                              (store m pt r, @None gerr))) (fun _ => True)).
    { apply safe_act. intros m Hw Hh Hn. split; [|done]. apply (frame_alloc_store parse U D m _ pt Hw). apply HD. by constructor. }
    case_bool_decide as Hd; cbn [safe]; [exact Hact|]. eapply safe_mono, IH.
    - intros [e|] _; [done|exact Hact].
    - intros q Hq. apply HD. eapply mt_up; [exact Hp|by rewrite Hs|by rewrite Hs].
  Qed.

  Lemma safe_stat name : safe (stat_prog parse her name) (fun _ => True).
  Proof. unfold stat_prog. destruct (parse her name); [|done]. by apply safe_look. Qed.

  Context (Hnew : forall r, n0 <= r -> U r).

  Lemma safe_create now name : (forall pt, disturbs parse her pt (OCreate name) -> D pt) ->
    safe (create_prog parse her now name) (fun x => forall r, x = Ok r -> U r).
  Proof.
    intros HD. unfold create_prog. apply safe_bind. eapply safe_mono, safe_mkdir.
    2: { intros pt H. apply HD. right. done. }
    intros e _. case_bool_decide; [by intros ?|]. destruct (parse her name) as [pt|] eqn:Hp; [|by intros ?].
    apply safe_bind, safe_look. intros [h|e1]; [|by intros ?]. cbv zeta. apply safe_bind.
    assert (Hst : safe (if bool_decide (dirname (p_name pt) = B"/") then Ret (Ok 0) else stat_prog parse her (dirname (p_name pt))) (fun _ => True)).
    { case_bool_decide; [done|apply safe_stat]. }
    eapply safe_mono, Hst. intros [x|e2] _; [|by intros ?]. apply safe_act. intros m Hw Hh Hn. split.
    - apply (frame_alloc_store parse U D m _ pt Hw). apply HD. by left.
    - cbn. intros r [= <-]. by apply Hnew.
  Qed.

  Lemma safe_open name : safe (open_prog parse her name) (fun x => forall r, x = Ok r -> U r).
  Proof.
    unfold open_prog. destruct (parse her name) as [pt|]; [|by intros ?]. apply safe_bind, safe_look. intros [r|]; [|by intros ?].
    apply safe_bind, safe_look. intros [i|]; [|by intros ?]. apply safe_act. intros m Hw Hh Hn.
    destruct (m_heap m !! r) as [f|]; cbn [fst snd]; [|split; [by apply frame_refl|by intros]]. split.
    - by apply (frame_alloc parse U D m _).
    - cbn. intros r' [= <-]. by apply Hnew.
  Qed.

  Lemma frame_delete m k : wf m -> D k -> frame parse U D m (delete_key m k).
  Proof.
    intros Hw HD. split; cbn; try done.
    - intros q Hq. rewrite lookup_delete_ne; [done|]. by intros <-.
    - intros q r H. apply lookup_delete_Some in H as [_ H]. by left.
    - apply (wf_subset m); [done|]. apply delete_subseteq.
  Qed.

  Lemma safe_remove name : (forall pt, disturbs parse her pt (ORemove name) -> D pt) -> safe (remove_prog parse her name) (fun _ => True).
  Proof.
    intros HD. unfold remove_prog. destruct (parse her name) as [pt|] eqn:Hp; [|done]. apply safe_bind, safe_look. intros [r|]; [|done].
    apply safe_act. intros m Hw Hh Hn. split; [|done]. apply frame_delete; [done|]. by apply HD.
  Qed.

  Lemma safe_delete pt ks : (forall k, has_prefix (p_name k) (p_name pt) = true -> D k) -> safe (delete_prog pt ks) (fun _ => True).
  Proof.
    intros HD. induction ks as [|k ks IH]; cbn [delete_prog]; [done|]. apply safe_bind, safe_look. intros [r|]; [|done].
    destruct (has_prefix (p_name k) (p_name pt)) eqn:E; [|done]. apply safe_bind, safe_act. intros m Hw Hh Hn. split; [|done].
    apply frame_delete; [done|]. by apply HD.
  Qed.

  Lemma safe_remove_all cand name : (forall pt, disturbs parse her pt (ORemoveAll name) -> D pt) ->
    safe (remove_all_prog parse her cand name) (fun _ => True).
  Proof.
    intros HD. unfold remove_all_prog. destruct (parse her name) as [pt|] eqn:Hp; [|done]. apply safe_bind, safe_look. intros ks.
    apply safe_delete. intros k Hk. apply HD. by exists pt.
  Qed.

  Lemma frame_set m r g : wf m -> U r -> frame parse U D m (set_obj r g m).
  Proof.
    intros Hw HU. unfold set_obj. destruct (m_heap m !! r) as [f|] eqn:E; [|by apply frame_refl]. apply frame_upd; [done| |done]. by rewrite E.
  Qed.

  Lemma safe_close now r : U r -> safe (close_prog now r) (fun _ => True).
  Proof.
    intros HU. unfold close_prog. apply safe_bind, safe_look. intros [f|]; [|done].
    assert (H : forall g, safe (act (fun m => (set_obj r g m, @None gerr))) (fun _ => True)).
    { intros g. apply safe_act. intros m Hw Hh Hn. split; [by apply frame_set|done]. }
    destruct (f_writer f) as [w|]; [|apply H].
    do 3 (apply safe_bind, safe_act; intros ? ? ? ?; split; [by apply frame_set|cbn [snd]]). apply H.
  Qed.

  Lemma safe_range ks : safe (range_prog ks) (fun _ => True).
  Proof.
    induction ks as [|k ks IH]; cbn [range_prog]; [done|]. apply safe_bind, safe_look. intros x. apply safe_bind. eapply safe_mono, IH. done.
  Qed.
  Lemma safe_loop {S} (f : bytes -> details -> S -> S * option gerr) pt ks skip s : safe (walk_prog_loop f pt ks skip s) (fun _ => True).
  Proof.
    revert skip s. induction ks as [|k ks IH]; intros skip s; cbn [walk_prog_loop]; [done|]. destruct (negb _); [apply IH|].
    destruct (negb _); [apply IH|]. destruct (has_prefix _ skip); [apply IH|]. apply safe_bind, safe_look. intros [r|]; [|done].
    apply safe_bind, safe_look. intros [i|]; [|done]. destruct (f _ _ s) as [s1 [[]|]]; try done; apply IH.
  Qed.
  Lemma safe_walk {S} cand p (f : bytes -> details -> S -> S * option gerr) s : safe (walk_prog parse her cand p f s) (fun _ => True).
  Proof.
    unfold walk_prog, keys_prog. apply safe_bind, safe_bind, safe_look. intros ks. apply safe_bind. eapply safe_mono, safe_range.
    intros l _. cbn [safe]. destruct (parse her p); [|done]. apply safe_loop.
  Qed.

  Lemma safe_readdir cand r n : safe (readdir_prog parse her cand r n) (fun _ => True).
  Proof.
    unfold readdir_prog. apply safe_bind, safe_look. intros [f|]; [|done]. cbv zeta. apply safe_bind. by eapply safe_mono, safe_walk.
  Qed.

  Lemma safe_file_open r name : U r -> safe (file_open_prog parse her r name) (fun x => forall r', x = Ok r' -> U r').
  Proof.
    intros HU. unfold file_open_prog. apply safe_bind, safe_look. intros [f|]; [|by intros ?]. destruct (parse (f_here f) name) as [pt|]; [|by intros ?].
    case_bool_decide; [by intros ? [= <-]|]. cbv zeta. apply safe_bind. eapply safe_mono, safe_open. intros [d|e] Hd; [|by intros ?].
    apply safe_act. intros m Hw Hh Hn. destruct (m_heap m !! d) as [di|]; cbn [fst snd]; [|split; [by apply frame_refl|by intros]].
    destruct (d_isdir (f_info di)).
    - split; [by apply (frame_alloc parse U D m _)|]. cbn. intros r' [= <-]. by apply Hnew.
    - split; [by apply frame_refl|]. intros r' [= <-]. by apply Hd.
  Qed.

  Lemma safe_step o now : (forall r, uses r o -> U r) -> (forall pt, disturbs parse her pt o -> D pt) ->
    (forall x r, ~ gives o x r) -> safe (act (fun m => step parse m (now, o))) (fun x => forall r, gives o x r -> U r).
  Proof.
    intros HU HD Hg. apply safe_act. intros m Hw Hh Hn. split; [|intros r H; by apply Hg in H].
    eapply frame_weaken; [..|by apply (frame_step parse m (now, o))]; [apply HU|]. rewrite Hh. apply HD.
  Qed.

  Lemma safe_call cand c : (forall r, made_on r c.2 -> U r) -> (forall pt, disturbs parse her pt c.2 -> D pt) ->
    safe (call_prog cand parse her c) (fun x => forall r, gives c.2 x r -> U r).
  Proof.
    destruct c as [now o]. cbn [snd]. intros HU HD.
    destruct o; cbn [call_prog gives].
    - apply safe_bind. eapply safe_mono; [|by apply safe_create]. intros x Hx r [= ->]. by apply Hx.
    - apply safe_bind. eapply safe_mono; [|apply safe_mkdir; intros q Hq; by apply HD]. intros ? _ ? [].
    - apply safe_bind. eapply safe_mono; [|by apply safe_remove]. intros ? _ ? [].
    - apply safe_bind. eapply safe_mono; [|by apply safe_remove_all]. intros ? _ ? [].
    - apply safe_bind. eapply safe_mono; [|by apply safe_open]. intros x Hx r [= ->]. by apply Hx.
    - apply safe_bind. eapply safe_mono; [|by apply safe_stat]. intros ? _ ? [].
    - match goal with |- context [add_file _ ?p ?h ?i ?d] => apply (safe_step (OAdd p h i d) now) end; [exact HU|exact HD|]. intros x q [].
    - apply safe_bind. apply safe_act. intros m Hw Hh Hn. split; [|by intros ?].
      pose proof (frame_step parse m (now, OWrite r b) Hw) as H. cbn [step fst snd] in H. destruct (file_write m r b) as [m1 [x e]]. cbn [fst snd] in *.
      eapply frame_weaken; [..|exact H]; [apply HU|]. rewrite Hh. apply HD.
    - apply (safe_step (ORead r n) now); [exact HU|exact HD|]. intros x q [].
    - apply (safe_step (OSeek r off whence) now); [exact HU|exact HD|]. intros x q [].
    - apply safe_bind. eapply safe_mono; [|apply safe_close; apply HU; reflexivity]. intros ? _ ? [].
    - apply safe_bind. eapply safe_mono; [|by apply safe_readdir]. intros ? _ ? [].
    - apply safe_bind. eapply safe_mono; [|apply safe_file_open; apply HU; reflexivity]. intros x Hx q [= ->]. by apply Hx.
  Qed.

  Lemma safe_client {A} (p : client A) : minds parse her U D p -> safe (client_prog parse her p) (fun _ => True).
  Proof.
    induction p as [a|c k IH]; cbn [minds client_prog]; [done|]. intros (HU & HD & Hk). apply safe_bind. eapply safe_mono; [|by apply safe_call].
    intros x Hx. cbn beta in Hx. by apply IH, Hk.
  Qed.

  Lemma safe_par {A} m (qs : list (prog A)) m' qs' :
    wf m -> m_here m = her -> n0 <= m_next m -> Forall (fun q => safe q (fun _ => True)) qs -> rtc par (m, qs) (m', qs') -> frame parse U D m m'.
  Proof.
    intros Hw Hh Hn Hq H. remember (m, qs) as x eqn:Ex. remember (m', qs') as y eqn:Ey. revert m qs Hw Hh Hn Hq Ex.
    induction H as [x|x y' z Hs Hz IH]; intros m qs Hw Hh Hn Hq Ex; subst.
    - injection Ex as -> ->. by apply frame_refl.
    - inversion Hs as [m0 ps0 i f k Hi E1 E2]; subst. pose proof (Forall_lookup_1 _ _ _ _ Hq Hi) as Hsf. cbn [safe] in Hsf.
      destruct (Hsf m Hw Hh Hn) as [Hf Hk]. eapply frame_trans; [exact Hf|]. apply (IH eq_refl _ (<[i := k m]> qs)); try done.
      + apply Hf.
      + by rewrite (fr_here _ _ _ _ _ Hf).
      + pose proof (fr_next _ _ _ _ _ Hf). lia.
      + by apply Forall_insert.
  Qed.
End Apart.

(** Goroutines that begin without handles may make any calls at the same time:
    the names that none of their calls could change stand for the same Files with
    the same content as before, no File that was there is changed at all, and no
    name ever stands for nothing. *)
Theorem C129_apart {A} parse m (ps : list (client A)) (D : path -> Prop) m' qs :
  reachable parse m -> Forall (minds parse (m_here m) (fun r => m_next m <= r) D) ps ->
  rtc par (m, client_prog parse (m_here m) <$> ps) (m', qs) ->
  (forall pt, ~ D pt -> m_files m' !! pt = m_files m !! pt /\ file_at m' pt = file_at m pt) /\
  (forall r, r < m_next m -> m_heap m' !! r = m_heap m !! r) /\
  (forall pt, is_Some (m_files m' !! pt) -> is_Some (file_at m' pt)) /\
  m_here m' = m_here m /\ m_infos m' = m_infos m.
Proof.
  intros Hr Hm H. pose proof (reachable_wf _ _ Hr) as Hw.
  assert (F : frame parse (fun r => m_next m <= r) D m m').
  { eapply (safe_par parse (m_here m) (m_next m) _ D m (client_prog parse (m_here m) <$> ps)); [done|done|done| |exact H].
    apply Forall_fmap. eapply Forall_impl; [exact Hm|]. intros p Hp. cbn. by apply (safe_client parse (m_here m) (m_next m) _ D). }
  pose proof (fr_heap _ _ _ _ _ F) as Hheap. cbn beta in Hheap.
  split_and!; try apply F.
  - intros pt HD. pose proof (fr_files _ _ _ _ _ F pt HD) as E. split; [done|]. unfold file_at. rewrite E. destruct (m_files m !! pt) as [r|] eqn:Er; [|done]. cbn.
    apply Hheap; [|by eapply wf_files_lt]. pose proof (wf_files_lt m pt r Hw Er). lia.
  - intros r Hlt. apply Hheap; [lia|done].
  - intros pt [r E]. unfold file_at. rewrite E. cbn. by apply (wf_files m' (fr_wf _ _ _ _ _ F) pt r).
Qed.

(** One goroutine copies /a to /d/b, another removes /c and lists the root: taking
    turns they end as a single-threaded program would, and when their calls
    overlap /a stays as it was. *)
Definition serial_ex : mem := after [OCreate (B"/a"); OWrite 1 (B"old"); OClose 1; OMkdirAll (B"/d") 493; OCreate (B"/c")].
Definition with_ref (x : resp) (k : ref -> client (list resp)) : client (list resp) :=
  match x with RRef (Ok r) => k r | _ => CDone [x] end.
Definition copier : client (list resp) :=
  CCall (t1, OOpen (B"/a")) (fun x => with_ref x (fun h => CCall (t1, ORead h 10) (fun y =>
  CCall (t1, OCreate (B"/d/b")) (fun z => with_ref z (fun g => CCall (t1, OWrite g (B"new")) (fun w =>
  CCall (t1, OClose g) (fun v => CDone [y; w; v]))))))).
Definition remover : client (list resp) := CCall (t1, ORemove (B"/c")) (fun x => CCall (t1, OStat (B"/c")) (fun y => CDone [x; y])).
Definition changed_ex (pt : path) : Prop := p_name pt ∈ [B"/"; B"/d/b"; B"/c"].

Lemma minds_ex : Forall (minds here_parse (m_here serial_ex) (fun r => m_next serial_ex <= r) changed_ex) [copier; remover].
Proof.
  assert (Hh : m_here serial_ex = her_ex) by by vm_compute. rewrite Hh. generalize (m_next serial_ex). intros n0.
  assert (Hroot : forall pt, mk_target here_parse her_ex (B"/") pt -> p_name pt = B"/").
  { intros pt Hmk. eapply (mk_targets 5) in Hmk; [|by vm_compute]. by apply elem_of_list_singleton in Hmk as ->. }
  assert (Hb : here_parse her_ex (B"/d/b") = Some (Path (B"app") (B"/d/b"))) by by vm_compute.
  assert (Hc : here_parse her_ex (B"/c") = Some (Path (B"app") (B"/c"))) by by vm_compute.
  constructor; [|constructor; [|constructor]].
  - cbn [copier minds snd]. split_and!; [intros r []|intros pt []|]. intros [e|[h|e]|b e|z e|l e] Hg; cbn [with_ref minds snd]; try exact I.
    assert (Hh1 : n0 <= h) by (apply Hg; reflexivity). split_and!; [intros r <-; assumption|intros pt []|]. intros y _. split_and!; [intros r []| |].
    { intros pt [H|H].
      - rewrite Hb in H. injection H as <-. right. left.
      - apply Hroot in H. unfold changed_ex. rewrite H. left. }
    intros [e|[g|e]|b e|z e|l e] Hg2; cbn [with_ref minds snd]; try exact I.
    assert (Hh2 : n0 <= g) by (apply Hg2; reflexivity). split_and!; [intros r <-; assumption|intros pt []|]. intros w _.
    split_and!; [intros r <-; assumption|intros pt []|]. intros ? _; exact I.
  - cbn [remover minds snd]. split_and!; [intros r []| |].
    { intros pt H. cbn [disturbs] in H. rewrite Hc in H. injection H as <-. right. right. left. }
    intros x _. split_and!; [intros r []|intros pt []|]. intros ? _; exact I.
Qed.

(** [CCall]s chosen by [sched], one after the other. *)
Fixpoint run_turns {A} (parse : resolver) (sched : list nat) (c : mem * list (client A)) : mem * list (client A) :=
  match sched with
  | [] => c
  | i :: sched =>
      match c.2 !! i with
      | Some (CCall o k) => run_turns parse sched ((step parse c.1 o).1, <[i := k (step parse c.1 o).2]> c.2)
      | _ => run_turns parse sched c
      end
  end.
Lemma run_turns_serial {A} parse sched (c : mem * list (client A)) : rtc (serial parse) c (run_turns parse sched c).
Proof.
  revert c. induction sched as [|i sched IH]; intros [m ts]; cbn [run_turns]; [done|].
  destruct (ts !! i) as [[a|f k]|] eqn:E; cbn [fst snd]; rewrite ?E; try apply IH.
  eapply rtc_l; [|apply IH]. by constructor.
Qed.

Example C129_turns_ex :
  reachable here_parse serial_ex /\
  exists m' ps', rtc (serial here_parse) (serial_ex, [copier; remover]) (m', ps') /\
    (exists x y, ps' = [CDone [RBytes (B"old") None; RNum 3 None; RErr None]; CDone [x; y]] /\ x = RErr None /\ y = RRef (Err (EMsg could_not_stat))) /\
    seen here_parse m' (B"/d/b") = Some (Details (B"b") 3 420 t1 false JNull, B"new").
Proof.
  split; [apply reachable_run, reach_new|].
  exists (run_turns here_parse [0;1;0;0;1;0;0] (serial_ex, [copier; remover])).1, (run_turns here_parse [0;1;0;0;1;0;0] (serial_ex, [copier; remover])).2.
  split; [rewrite <- surjective_pairing; apply run_turns_serial|]. split; [|by vm_compute].
  eexists _, _. by vm_compute.
Qed.

Example C129_apart_ex :
  reachable here_parse serial_ex /\ Forall (minds here_parse (m_here serial_ex) (fun r => m_next serial_ex <= r) changed_ex) [copier; remover] /\
  ~ changed_ex (Path (B"app") (B"/a")) /\
  exists m' qs, rtc par (serial_ex, client_prog here_parse (m_here serial_ex) <$> [copier; remover]) (m', qs) /\
    answers qs = [Some [RBytes (B"old") None; RNum 3 None; RErr None]; Some [RErr None; RRef (Err (EMsg could_not_stat))]] /\
    seen here_parse m' (B"/a") = Some (Details (B"a") 3 420 t0 false JNull, B"old") /\ seen here_parse m' (B"/c") = None.
Proof.
  split; [apply reachable_run, reach_new|]. split; [apply minds_ex|]. split.
  { intros H. apply (bool_decide_eq_true_2 (B"/a" ∈ [B"/"; B"/d/b"; B"/c"])) in H. by vm_compute in H. }
  schedule (concat (replicate 20 [0;1])). by vm_compute.
Qed.
