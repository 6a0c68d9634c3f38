(** Invariants and frame lemmas for the in-memory pkger. *)
From Verif Require Import Bytes GoPath Here GoTypes Mem MemSpec.

Lemma wf_fresh m : wf m -> m_heap m !! m_next m = None.
Proof.
  intros Hw. destruct (m_heap m !! m_next m) eqn:E; [|done].
  pose proof (wf_next m Hw _ _ E). lia.
Qed.

Lemma wf_new her : wf (mem_new her).
Proof. split; simpl; intros; by rewrite lookup_empty in *. Qed.

Lemma wf_files_lt m pt r : wf m -> m_files m !! pt = Some r -> r < m_next m.
Proof. intros Hw H. destruct (wf_files m Hw _ _ H) as [f Hf]. by eapply wf_next. Qed.

Lemma wf_alloc m f : wf m -> wf (alloc m f).1.
Proof.
  intros Hw. split; simpl.
  - intros r g. rewrite lookup_insert_Some. intros [[<- _]|[_ H]]; [lia|].
    pose proof (wf_next m Hw _ _ H). lia.
  - intros pt r H. destruct (decide (r = m_next m)) as [->|Hn].
    + by rewrite lookup_insert.
    + rewrite lookup_insert_ne by done. by eapply wf_files.
  - intros p q r. by apply wf_inj.
Qed.

Lemma wf_alloc_store m f pt : wf m -> wf (store (alloc m f).1 pt (alloc m f).2).
Proof.
  intros Hw. pose proof (wf_alloc m f Hw) as Hw2. split; simpl.
  - apply (wf_next _ Hw2).
  - intros p r. rewrite lookup_insert_Some. intros [[_ <-]|[_ H]].
    + by rewrite lookup_insert.
    + pose proof (wf_files_lt m p r Hw H). rewrite lookup_insert_ne by lia.
      by eapply wf_files.
  - intros p q r. rewrite !lookup_insert_Some. intros [[<- <-]|[Hp H1]] [[<- E]|[Hq H2]].
    + done.
    + pose proof (wf_files_lt m q _ Hw H2). lia.
    + pose proof (wf_files_lt m p _ Hw H1). lia.
    + by eapply wf_inj.
Qed.

Lemma wf_upd m r f : wf m -> is_Some (m_heap m !! r) -> wf (upd m r f).
Proof.
  intros Hw [g Hg]. split; simpl.
  - intros r' f'. rewrite lookup_insert_Some. intros [[<- _]|[_ H]]; by eapply wf_next.
  - intros pt r' H. destruct (decide (r = r')) as [->|Hn].
    + by rewrite lookup_insert.
    + rewrite lookup_insert_ne by done. by eapply wf_files.
  - intros p q r'. by apply wf_inj.
Qed.

Lemma wf_subset m fs : wf m -> fs ⊆ m_files m -> wf (set_files m fs).
Proof.
  intros Hw Hs. split; simpl.
  - apply (wf_next m Hw).
  - intros pt r H. eapply wf_files; [done|]. by eapply lookup_weaken.
  - intros p q r H1 H2. eapply (wf_inj m Hw); by eapply lookup_weaken.
Qed.

(** What a call may change, relative to the state before it: nothing but new
    objects, the objects it uses, and the entries it disturbs. *)
Record frame (parse : resolver) (U : ref -> Prop) (D : path -> Prop) (m m' : mem) : Prop := {
  fr_here : m_here m' = m_here m;
  fr_infos : m_infos m' = m_infos m;
  fr_next : m_next m <= m_next m';
  fr_heap : forall r, ~ U r -> r < m_next m -> m_heap m' !! r = m_heap m !! r;
  fr_dom : forall r, r < m_next m -> is_Some (m_heap m !! r) <-> is_Some (m_heap m' !! r);
  fr_files : forall pt, ~ D pt -> m_files m' !! pt = m_files m !! pt;
  fr_new : forall pt r, m_files m' !! pt = Some r -> m_files m !! pt = Some r \/ m_next m <= r;
  fr_wf : wf m'
}.

Lemma frame_refl parse U D m : wf m -> frame parse U D m m.
Proof. intros Hw. split; try done || lia. intros pt r H. by left. Qed.

Lemma frame_trans parse U D m1 m2 m3 :
  frame parse U D m1 m2 -> frame parse U D m2 m3 -> frame parse U D m1 m3.
Proof.
  intros [A1 B1 C1 D1 E1 F1 N1 G1] [A2 B2 C2 D2 E2 F2 N2 G2]. split.
  - congruence.
  - congruence.
  - lia.
  - intros r HU Hr. rewrite D2 by (done || lia). by apply D1.
  - intros r Hr. rewrite E1 by done. apply E2. lia.
  - intros pt HD. rewrite F2 by done. by apply F1.
  - intros pt r H. destruct (N2 _ _ H) as [H2|H2]; [|right; lia].
    by apply N1.
  - done.
Qed.

Lemma frame_weaken parse (U U' : ref -> Prop) (D D' : path -> Prop) m m' :
  (forall r, U r -> U' r) -> (forall pt, D pt -> D' pt) ->
  frame parse U D m m' -> frame parse U' D' m m'.
Proof.
  intros HU HD [A B C H E F N G]. split; try done.
  - intros r Hr. apply H. naive_solver.
  - intros pt Hp. apply F. naive_solver.
Qed.

Lemma frame_alloc parse U D m f : wf m -> frame parse U D m (alloc m f).1.
Proof.
  intros Hw. split; simpl; try done.
  - lia.
  - intros r _ Hr. rewrite lookup_insert_ne; [done|lia].
  - intros r Hr. rewrite lookup_insert_ne; [done|lia].
  - intros pt r H. by left.
  - by apply (wf_alloc m f).
Qed.

Lemma frame_alloc_store parse U (D : path -> Prop) m f pt :
  wf m -> D pt -> frame parse U D m (store (alloc m f).1 pt (alloc m f).2).
Proof.
  intros Hw HD. split; simpl; try done.
  - lia.
  - intros r _ Hr. rewrite lookup_insert_ne; [done|lia].
  - intros r Hr. rewrite lookup_insert_ne; [done|lia].
  - intros p Hp. rewrite lookup_insert_ne; [done|]. intros <-. done.
  - intros p r. rewrite lookup_insert_Some. intros [[_ <-]|[_ H]]; [by right|by left].
  - by apply (wf_alloc_store m f pt).
Qed.

Lemma frame_upd parse (U : ref -> Prop) D m r f :
  wf m -> is_Some (m_heap m !! r) -> U r -> frame parse U D m (upd m r f).
Proof.
  intros Hw Hs HU. split; simpl; try done.
  - intros r' HU' _. rewrite lookup_insert_ne; [done|]. intros ->. done.
  - intros r' _. destruct (decide (r = r')) as [->|Hn].
    + rewrite lookup_insert. split; eauto.
    + by rewrite lookup_insert_ne.
  - intros pt r' H. by left.
  - by apply wf_upd.
Qed.

Lemma frame_mkdir parse fuel now m p perm :
  wf m ->
  frame parse (fun _ => False) (mk_target parse (m_here m) p) m
    (mkdir_all parse fuel now m p perm).1.
Proof.
  revert m p. induction fuel as [|fuel IH]; intros m p Hw; simpl.
  - by apply frame_refl.
  - unfold mem_parse. destruct (parse (m_here m) p) as [pt|] eqn:Hp; [|by apply frame_refl].
    destruct (path_split (p_name pt)) as [dir name] eqn:Hs.
    case_bool_decide as Hd.
    + apply frame_alloc_store; [done|]. by constructor.
    + pose proof (IH m dir Hw) as IHd.
      destruct (mkdir_all parse fuel now m dir perm) as [m1 e]. simpl in IHd.
      assert (Hw1 : wf m1) by apply IHd.
      assert (HD : frame parse (λ _ : ref, False) (mk_target parse (m_here m) p) m m1).
      { eapply frame_weaken; [..|exact IHd]; [done|].
        intros q Hq. eapply mt_up; [exact Hp|by rewrite Hs|by rewrite Hs]. }
      destruct e as [e|]; [done|].
      eapply frame_trans; [exact HD|].
      apply frame_alloc_store; [done|]. by constructor.
Qed.

Lemma mkdir_here parse fuel now m p perm :
  m_here (mkdir_all parse fuel now m p perm).1 = m_here m.
Proof.
  revert m p. induction fuel as [|fuel IH]; intros m p; simpl; [done|].
  destruct (mem_parse parse m p) as [pt|]; [|done].
  destruct (path_split (p_name pt)) as [dir name].
  case_bool_decide; [done|].
  specialize (IH m dir). destruct (mkdir_all parse fuel now m dir perm) as [m1 [e|]]; done.
Qed.

Lemma frame_create parse now m name :
  wf m ->
  frame parse (fun _ => False) (fun pt => disturbs parse (m_here m) pt (OCreate name)) m
    (create parse now m name).1.
Proof.
  intros Hw. unfold create.
  pose proof (frame_mkdir parse (mk_fuel (B"/")) now m (B"/") 493 Hw) as Hf.
  destruct (mkdir_all parse (mk_fuel (B"/")) now m (B"/") 493) as [m1 e0]. simpl in Hf.
  assert (Hf' : frame parse (fun _ => False) (fun pt => disturbs parse (m_here m) pt (OCreate name)) m m1).
  { eapply frame_weaken; [..|exact Hf]; [done|]. intros pt H. right. done. }
  case_bool_decide; [done|].
  unfold mem_parse. rewrite (fr_here _ _ _ _ _ Hf).
  destruct (parse (m_here m) name) as [pt|] eqn:Hp; [|done].
  destruct (mem_info m1 (p_pkg pt)); [|done].
  destruct (if bool_decide _ then _ else _); [|done].
  eapply frame_trans; [exact Hf'|].
  apply frame_alloc_store; [apply Hf|]. by left.
Qed.

Lemma frame_open parse U D m name : wf m -> frame parse U D m (open parse m name).1.
Proof.
  intros Hw. unfold open. destruct (mem_parse parse m name); [|by apply frame_refl].
  destruct (file_at m _); [|by apply frame_refl]. by apply frame_alloc.
Qed.

Lemma frame_step parse m c :
  wf m ->
  frame parse (fun r => uses r c.2) (fun pt => disturbs parse (m_here m) pt c.2) m
    (step parse m c).1.
Proof.
  intros Hw. destruct c as [now o]. destruct o; simpl.
  - pose proof (frame_create parse now m name Hw) as H.
    destruct (create parse now m name). eapply frame_weaken; [..|exact H]; done.
  - pose proof (frame_mkdir parse (mk_fuel p) now m p perm Hw) as H.
    destruct (mkdir_all parse (mk_fuel p) now m p perm). eapply frame_weaken; [..|exact H]; done.
  - unfold remove, mem_parse. destruct (parse (m_here m) name) as [pt|] eqn:Hp; [|by apply frame_refl].
    destruct (m_files m !! pt) eqn:E; [|by apply frame_refl].
    split; simpl; try done || lia.
    + intros q Hq. rewrite lookup_delete_ne; [done|]. intros ->. done.
    + intros q r'. rewrite lookup_delete_Some. intros [_ H]. by left.
    + apply wf_subset; [done|]. apply delete_subseteq.
  - unfold remove_all, mem_parse. destruct (parse (m_here m) name) as [pt|] eqn:Hp; [|by apply frame_refl].
    split; simpl; try done || lia.
    + intros q Hq. apply option_eq. intros r. rewrite map_filter_lookup_Some. simpl.
      split; [naive_solver|]. intros H. split; [done|].
      destruct (has_prefix (p_name q) (p_name pt)) eqn:E; [|done]. exfalso. eauto.
    + intros q r'. rewrite map_filter_lookup_Some. intros [H _]. by left.
    + apply wf_subset; [done|]. apply map_filter_subseteq.
  - pose proof (frame_open parse (λ r, uses r (OOpen name)) (λ pt, disturbs parse (m_here m) pt (OOpen name)) m name Hw).
    by destruct (open parse m name).
  - by apply frame_refl.
  - unfold add_file. simpl. apply (frame_alloc_store _ _ _ m); done.
  - unfold file_write. destruct (m_heap m !! r) eqn:E; [|by apply frame_refl].
    apply frame_upd; simpl; eauto.
  - unfold file_read. destruct (m_heap m !! r) eqn:E; [|by apply frame_refl].
    destruct (cur_reader f) as [rd|]; [|by apply frame_refl].
    destruct (reader_read rd n) as [rd' [b e]]. apply frame_upd; simpl; eauto.
  - unfold file_seek. destruct (m_heap m !! r) eqn:E; [|by apply frame_refl].
    destruct (cur_reader f) as [rd|]; [|by apply frame_refl].
    destruct (reader_seek rd off whence) as [rd' [b e]]. apply frame_upd; simpl; eauto.
  - unfold file_close. destruct (m_heap m !! r) eqn:E; [|by apply frame_refl].
    destruct (f_writer f); apply frame_upd; simpl; eauto.
  - destruct (readdir parse m r count). by apply frame_refl.
  - unfold file_open. destruct (m_heap m !! r) eqn:E; [|by apply frame_refl].
    destruct (parse (f_here f) name) as [pt|]; [|by apply frame_refl].
    case_bool_decide; [by apply frame_refl|].
    set (nm := path_string _).
    pose proof (frame_open parse (λ r0, uses r0 (OFileOpen r name))
      (λ pt, disturbs parse (m_here m) pt (OFileOpen r name)) m nm Hw) as H1.
    destruct (open parse m nm) as [m1 [d|e]]; [|done]. simpl in H1.
    destruct (m_heap m1 !! d) as [di|]; [|done].
    destruct (d_isdir (f_info di)); [|done].
    eapply frame_trans; [exact H1|]. apply frame_alloc. apply H1.
Qed.

Lemma wf_load_files parse l m m' : wf m -> load_files parse m l = Ok m' -> wf m'.
Proof.
  revert m. induction l as [|[k v] l IH]; intros m Hw; simpl; [congruence|].
  destruct (mem_parse parse m k) as [pt|]; [|done].
  apply IH. apply (wf_alloc_store m _ pt Hw).
Qed.

Lemma reachable_wf parse m : reachable parse m -> wf m.
Proof.
  induction 1.
  - apply wf_new.
  - unfold load in H. eapply wf_load_files; [|exact H]. split; simpl; intros; by rewrite lookup_empty in *.
  - by apply (fr_wf _ _ _ _ _ (frame_step parse m c IHreachable)).
Qed.

Lemma reachable_run parse m cs : reachable parse m -> reachable parse (run parse m cs).1.
Proof.
  revert m. induction cs as [|c cs IH]; intros m Hr; simpl; [done|].
  pose proof (reach_step parse m c Hr) as H1. destruct (step parse m c) as [m1 x]. simpl in H1.
  specialize (IH m1 H1). by destruct (run parse m1 cs).
Qed.

Lemma run_app parse m cs ds :
  run parse m (cs ++ ds) =
  let '(m1, xs) := run parse m cs in let '(m2, ys) := run parse m1 ds in (m2, xs ++ ys).
Proof.
  revert m. induction cs as [|c cs IH]; intros m; simpl.
  - by destruct (run parse m ds).
  - destruct (step parse m c) as [m1 x]. rewrite IH.
    destruct (run parse m1 cs) as [m2 xs]. by destruct (run parse m2 ds).
Qed.

Lemma frame_run parse m cs :
  wf m ->
  frame parse (fun r => exists c, c ∈ cs /\ uses r c.2)
    (fun pt => exists c, c ∈ cs /\ disturbs parse (m_here m) pt c.2) m (run parse m cs).1.
Proof.
  revert m. induction cs as [|c cs IH]; intros m Hw; simpl.
  - by apply frame_refl.
  - pose proof (frame_step parse m c Hw) as H1.
    destruct (step parse m c) as [m1 x] eqn:E. simpl in H1.
    specialize (IH m1 (fr_wf _ _ _ _ _ H1)).
    destruct (run parse m1 cs) as [m2 xs]. simpl in *.
    eapply frame_trans.
    + eapply frame_weaken; [..|exact H1].
      * intros r ?. exists c. split; [by constructor|done].
      * intros pt ?. exists c. split; [by constructor|done].
    + eapply frame_weaken; [..|exact IH].
      * intros r (c' & ? & ?). exists c'. split; [by constructor|done].
      * intros pt (c' & ? & ?). exists c'. rewrite <- (fr_here _ _ _ _ _ H1). split; [by constructor|done].
Qed.
