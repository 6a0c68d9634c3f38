(** Theorems: layered pkgers and the global stack (C24-C27, C61-C64). *)
From Verif Require Import Bytes GoPath Here GoTypes Mem MemSpec MemBase MemFiles WalkSpec MemWalk PropsFiles PropsDirs Wrap Layers Apply.

Section Layers.
  Context {W F I : Type}.
  Implicit Types (disk : pkger W F I) (hist : list (pkger W F I * option gerr)).

  (** *** C24 *)

  (** [hist] is any sequence of Apply calls with any layers.  Whatever the
      answer of Parse, Current, Info, Create, Open or Stat is, it is the answer
      of one layer; the layers applied after it have been asked, the last first,
      and failed; the layers applied before it have not been asked (the world
      is as the answering layer left it).  An error is the oldest layer's. *)
  Theorem C24_most_recent {A} disk hist (o : read_op F I A) w w' r :
    applied hist <> [] -> read o (impl disk (after_applies hist)) w = (w', r) ->
    exists older l newer w1, applied hist = older ++ l :: newer /\
      all_fail (read o) (rev newer) w w1 /\ read o l w1 = (w', r) /\
      ((exists e, r = Err e) -> older = []).
  Proof.
    intros Hne H. rewrite after_applies_stack in H.
    destruct (stack (applied hist)) as [c|] eqn:E.
    - destruct (stack_read o _ c w w' r E H) as (older & l & newer & w1 & ? & ? & ? & He).
      exists older, l, newer, w1. split_and!; try done. intros [e ->]. by eapply He.
    - exfalso. apply Hne. destruct (applied hist) as [|x l _] using rev_ind; [done|].
      by rewrite stack_snoc in E.
  Qed.

  (** Conversely the first layer to succeed, counting from the last applied,
      determines the answer. *)
  Theorem C24_first_success {A} disk hist (o : read_op F I A) older l newer w w1 w' a :
    applied hist = older ++ l :: newer -> all_fail (read o) (rev newer) w w1 ->
    read o l w1 = (w', Ok a) ->
    read o (impl disk (after_applies hist)) w = (w', Ok a).
  Proof.
    intros Ha Hf Hl. rewrite after_applies_stack, Ha. clear Ha hist.
    revert w Hf. induction newer as [|x newer IH] using rev_ind; intros w Hf.
    - simpl in Hf. inversion Hf; subst. rewrite stack_snoc. cbn [impl]. rewrite read_wrap.
      unfold or_parent. by rewrite Hl.
    - rewrite rev_app_distr in Hf. simpl in Hf. inversion Hf as [|? ? ? w2 ? e Hx Hrest]; subst.
      rewrite app_comm_cons, app_assoc, stack_snoc. cbn [impl]. rewrite read_wrap.
      unfold or_parent. rewrite Hx. specialize (IH w2 Hrest).
      destruct (stack (older ++ l :: newer)) as [c|] eqn:E; [exact IH|].
      exfalso. destruct newer as [|y newer _] using rev_ind.
      + by rewrite stack_snoc in E.
      + by rewrite app_comm_cons, app_assoc, stack_snoc in E.
  Qed.

  (** *** C25 *)

  Theorem C25_in_order disk hist o w w' r :
    applied hist <> [] -> mutate o (impl disk (after_applies hist)) w = (w', r) ->
    match r with
    | None => all_ok (mutate o) (rev (applied hist)) w w'
    | Some e => exists older l newer w1, applied hist = older ++ l :: newer /\
        all_ok (mutate o) (rev newer) w w1 /\ mutate o l w1 = (w', Some e)
    end.
  Proof.
    intros Hne H. rewrite after_applies_stack in H.
    destruct (stack (applied hist)) as [c|] eqn:E.
    - destruct (stack_mutate o _ c w w' r E H) as (older & newer & w1 & Ha & Hok & Hr).
      destruct r as [e|].
      + destruct Hr as (l & older' & -> & Hl). exists older', l, newer, w1.
        rewrite Ha, <- app_assoc. done.
      + destruct Hr as [-> ->]. by rewrite Ha.
    - exfalso. apply Hne. destruct (applied hist) as [|x l _] using rev_ind; [done|].
      by rewrite stack_snoc in E.
  Qed.

  Theorem C25_nil_iff disk hist o w :
    applied hist <> [] ->
    ((mutate o (impl disk (after_applies hist)) w).2 = None <->
     exists w', all_ok (mutate o) (rev (applied hist)) w w').
  Proof.
    intros Hne. split.
    - destruct (mutate o (impl disk (after_applies hist)) w) as [w' r] eqn:E. simpl. intros ->.
      apply C25_in_order in E; eauto.
    - intros [w' Hok]. rewrite after_applies_stack.
      destruct (stack (applied hist)) as [c|] eqn:E.
      + cbn [impl]. by rewrite (stack_mutate_ok o _ c w w' E Hok).
      + exfalso. apply Hne. destruct (applied hist) as [|x l _] using rev_ind; [done|].
        by rewrite stack_snoc in E.
  Qed.

  (** *** C27 *)

  (** A failed Apply leaves no trace, wherever it happens. *)
  Theorem C27_error_installs_nothing hist1 hist2 pkg e :
    after_applies (W := W) (F := F) (I := I) (hist1 ++ (pkg, Some e) :: hist2) =
    after_applies (hist1 ++ hist2).
  Proof. rewrite !after_applies_stack. unfold applied. by rewrite !omap_app. Qed.

  (** Only failed Apply calls: the disk serves.  *)
  Theorem C27_disk disk hist :
    (forall x, x ∈ hist -> x.2 <> None) -> impl disk (after_applies hist) = disk.
  Proof.
    intros H. rewrite after_applies_stack.
    assert (Ha : applied hist = []).
    { induction hist as [|[p [e|]] hist IH]; [done|..].
      - apply IH. intros x Hx. apply H. by right.
      - exfalso. by apply (H (p, None)); [left|]. }
    by rewrite Ha.
  Qed.

  (** One successful Apply: the disk has no influence any more. *)
  Theorem C27_no_disk disk1 disk2 hist :
    (exists x, x ∈ hist /\ x.2 = None) ->
    impl disk1 (after_applies hist) = impl disk2 (after_applies hist).
  Proof.
    intros ([p r] & Hx & Hr). simpl in Hr. subst r. rewrite after_applies_stack.
    assert (E : applied hist = [] \/ exists l y, applied hist = l ++ [y]).
    { destruct (applied hist) as [|y l _] using rev_ind; eauto. }
    destruct E as [E|(l & y & ->)].
    - exfalso. apply elem_of_list_split in Hx as (l1 & l2 & ->).
      unfold applied in E. rewrite omap_app in E. by apply app_eq_nil in E as [_ E].
    - by rewrite stack_snoc.
  Qed.
End Layers.

(** Two in-memory layers; the second was applied last. *)
Definition two_layers : option (pkger world hfile details) :=
  after_applies [(mem_layer here_parse 0 t0, None); (mem_layer here_parse 7 t0, Some EParse); (mem_layer here_parse 1 t1, None)].

Definition two_world : world :=
  World [after [OMkdirAll (B"/d") 493; OCreate (B"/d/low"); OCreate (B"/both")];
         after [OCreate (B"/both"); OWrite 1 (B"new"); OClose 1]] [].

Definition content (w : world) (h : hfile) : option bytes :=
  m ← w_mems w !! h.1; f_data <$> m_heap m !! h.2.

Example C24_ex :
  let c := impl (mem_layer here_parse 9 t0) two_layers in
  (read (ROpen (B"/both")) c two_world).2 = Ok (1, 2) /\
  content (read (ROpen (B"/both")) c two_world).1 (1, 2) = Some (B"new") /\
  (read (ROpen (B"/d/low")) c two_world).2 = Ok (0, 5) /\
  (read (ROpen (B"/none")) c two_world).2 = Err ENotExist.
Proof. by vm_compute. Qed.

Example C25_ex :
  let c := impl (mem_layer here_parse 9 t0) two_layers in
  (mutate (MRemove (B"/both")) c two_world).2 = None /\
  (read (ROpen (B"/both")) c (mutate (MRemove (B"/both")) c two_world).1).2 = Err ENotExist /\
  (mutate (MRemove (B"/none")) c two_world).2 = Some (EPath (B"remove") (B"app:/none")).
Proof. by vm_compute. Qed.

Example C27_ex :
  after_applies [(mem_layer here_parse 0 t0, Some EParse); (mem_layer here_parse 1 t0, Some ENotExist)] = None /\
  two_layers <> None.
Proof. split; [reflexivity|discriminate]. Qed.

(** *** C61 *)

(** Full claim: "Remove(name) through a stack succeeds whenever Stat(name)
    through the stack does, and afterwards no layer serves name."
    Proved for in-memory layers: it succeeds exactly if every layer stores the
    name.  Refuted otherwise. *)
Lemma remove_layer parse i now p w m :
  w_mems w !! i = Some m ->
  pk_remove (mem_layer parse i now) p w =
    (World (<[i := (remove parse m p).1]> (w_mems w)) (w_seen w), (remove parse m p).2).
Proof.
  intros Hi. unfold mem_layer, at_layer. cbn [pk_remove]. rewrite Hi.
  by destruct (remove parse m p).
Qed.

Lemma remove_stat parse m p :
  (remove parse m p).2 = None <-> exists r, stat parse m p = Ok r.
Proof.
  unfold remove, stat. destruct (mem_parse parse m p) as [pt|]; [|naive_solver].
  destruct (m_files m !! pt) eqn:E; naive_solver.
Qed.

Theorem C61_all_layers_partial parse n now p w :
  0 < n <= length (w_mems w) ->
  forall c, stack (mem_layers parse n now) = Some c ->
  ((mutate (MRemove p) c w).2 = None <->
   forall i m, i < n -> w_mems w !! i = Some m -> exists r, stat parse m p = Ok r).
Proof.
  revert w. induction n as [|n IH]; intros w Hn c Hc; [lia|].
  rewrite mem_layers_S, stack_snoc in Hc. injection Hc as <-. rewrite mutate_wrap. unfold and_parent.
  destruct (lookup_lt_is_Some_2 (w_mems w) n) as [m Hm]; [lia|].
  cbn [mutate]. rewrite (remove_layer parse n now p w m Hm).
  pose proof (remove_stat parse m p) as Hrs.
  destruct ((remove parse m p).2) as [e|] eqn:Er.
  - simpl. split; [done|]. intros H. destruct (H n m ltac:(lia) Hm) as [r Hr].
    assert (Some e = None) by (apply Hrs; eauto). done.
  - destruct (stack (mem_layers parse n now)) as [c|] eqn:Es; cbn [fmap option_fmap option_map].
    + destruct n as [|n]; [done|].
      change (pk_remove c p ?x) with (mutate (MRemove p) c x).
      etrans; [apply IH; [cbn [w_mems]; rewrite insert_length; lia|done]|].
      cbn [w_mems]. split.
      * intros H i m' Hi Hm'. destruct (decide (i = S n)) as [->|].
        -- rewrite Hm in Hm'. injection Hm' as <-. by apply Hrs.
        -- apply (H i m'); [lia|]. by rewrite list_lookup_insert_ne.
      * intros H i m' Hi Hm'. rewrite list_lookup_insert_ne in Hm' by lia. apply (H i m'); [lia|done].
    + destruct n as [|n]; [|by rewrite mem_layers_S, stack_snoc in Es].
      split; [|done]. intros _ i m' Hi Hm'. assert (i = 0) as -> by lia.
      rewrite Hm in Hm'. injection Hm' as <-. by apply Hrs.
Qed.

Definition two : pkger world hfile details :=
  wrap (stack (mem_layers here_parse 1 t0)) (mem_layer here_parse 1 t0).

Theorem C61_lower_only_refuted :
  exists (c : pkger world hfile details) w p d,
    stack (mem_layers here_parse 2 t0) = Some c /\
    (read (RStat p) c w).2 = Ok d /\
    (mutate (MRemove p) c w).2 <> None /\
    (read (RStat p) c (mutate (MRemove p) c w).1).2 = Ok d.
Proof.
  eexists two, two_world, (B"/d/low"), _. split; [reflexivity|].
  split; [by vm_compute|]. split; [by vm_compute|]. by vm_compute.
Qed.

(** Removing a name stored only in the last layer removes it there and then
    reports an error. *)
Theorem C61_error_after_removal_refuted :
  exists (c : pkger world hfile details) w p d e1 e2,
    stack (mem_layers here_parse 2 t0) = Some c /\
    (read (RStat p) c w).2 = Ok d /\
    (mutate (MRemove p) c w).2 = Some e1 /\
    (read (RStat p) c (mutate (MRemove p) c w).1).2 = Err e2.
Proof.
  eexists two, (World [new_ex; after [OCreate (B"/top")]] []), (B"/top"), _, _, _. split; [reflexivity|].
  split; [by vm_compute|]. split; by vm_compute.
Qed.

Example C61_ex :
  let w := (mutate (MRemove (B"/both")) two two_world).1 in
  (mutate (MRemove (B"/both")) two two_world).2 = None /\
  map (fun m => match stat here_parse m (B"/both") with Ok _ => true | Err _ => false end) (w_mems two_world) = [true; true] /\
  map (fun m => match stat here_parse m (B"/both") with Ok _ => true | Err _ => false end) (w_mems w) = [false; false].
Proof. by vm_compute. Qed.

(** *** C62 *)

(** Full claim: "Walk on a stack calls f once for each name."  Proved: it
    calls f for the listing of each layer, the last applied first.  Refuted:
    a name stored in two layers is visited twice. *)
Definition names_of (l : list (path * details)) : list bytes := map (fun x => path_string x.1) l.

Theorem C62_layer_by_layer_partial parse n now p w (ls : list (list (path * details))) :
  0 < n -> length ls = n ->
  (forall i l, ls !! i = Some l -> exists m pt, w_mems w !! i = Some m /\ reachable parse m /\
     parse (m_here m) p = Some pt /\ is_rooted (p_name pt) = true /\ is_listing m pt l) ->
  forall c, stack (mem_layers parse n now) = Some c ->
  mutate (MWalk p note) c w =
    (World (w_mems w) (w_seen w ++ concat (rev (map names_of ls))), None).
Proof.
  revert w ls. induction n as [|n IH]; intros w ls Hn Hls H c Hc; [lia|].
  rewrite mem_layers_S, stack_snoc in Hc. injection Hc as <-. rewrite mutate_wrap. unfold and_parent.
  destruct ls as [|l ls _] using rev_ind; [done|]. rewrite app_length in Hls. simpl in Hls.
  destruct (H n l) as (m & pt & Hm & Hr & Hp & Hro & Hl).
  { rewrite list_lookup_middle; [done|lia]. }
  pose proof (reachable_wf _ _ Hr) as Hw.
  assert (Hwalk : walk parse m p (lift_fn record_fn) [] = ((shown <$> l, m), None)).
  { rewrite (walk_visit parse _ m p pt) by done. cbv zeta.
    rewrite (listing_unique _ _ _ _ Hl (listing m pt Hw Hro)). by rewrite visit_record. }
  cbn [mutate]. rewrite (note_walk parse n now p w m _ Hm Hwalk).
  assert (Hnames : (shown <$> l).*1 = names_of l).
  { rewrite <- list_fmap_compose. by apply list_fmap_ext. }
  rewrite map_app, rev_app_distr, Hnames. cbn [map rev app concat].
  destruct (stack (mem_layers parse n now)) as [c|] eqn:Es; cbn [fmap option_fmap option_map].
  - destruct n as [|n]; [done|].
    change (pk_walk c p note ?x) with (mutate (MWalk p note) c x).
    erewrite (IH _ ls); [|lia|lia| |done].
    + cbn [w_mems w_seen]. by rewrite <- app_assoc.
    + intros i l' Hi. cbn [w_mems]. apply H. by apply lookup_app_l_Some.
  - destruct n as [|n]; [|by rewrite mem_layers_S, stack_snoc in Es].
    destruct ls; [|simpl in Hls; lia]. simpl. by rewrite app_nil_r.
Qed.

Theorem C62_twice_refuted :
  exists (c : pkger world hfile details) w,
    stack (mem_layers here_parse 2 t0) = Some c /\
    (mutate (MWalk (B"/") note) c w).2 = None /\
    ~ NoDup (w_seen (mutate (MWalk (B"/") note) c w).1).
Proof.
  eexists two, two_world. split; [reflexivity|]. split; [by vm_compute|].
  assert (w_seen (mutate (MWalk (B"/") note) two two_world).1
    = [B"app:/"; B"app:/both"; B"app:/"; B"app:/both"; B"app:/d"; B"app:/d/low"]) as -> by (by vm_compute).
  intros Hd. inversion Hd as [|? ? Hn]. apply Hn. set_solver.
Qed.

Example C62_ex :
  let w := World [after [OCreate (B"/a"); OCreate (B"/z")]; after [OCreate (B"/m")]] [] in
  w_seen (mutate (MWalk (B"/") note) two w).1 = [B"app:/"; B"app:/m"; B"app:/"; B"app:/a"; B"app:/z"].
Proof. by vm_compute. Qed.

(** *** C63 *)

(** Full claim: "Create(name) through a stack followed by Open(name) opens the
    file just created."  Proved if the last applied layer could create it;
    refuted otherwise (an older layer's Create, then the last layer's Open). *)
Lemma create_layer parse i now p w m m' h :
  w_mems w !! i = Some m -> create parse now m p = (m', Ok h) ->
  pk_create (mem_layer parse i now) p w = (World (<[i := m']> (w_mems w)) (w_seen w), Ok (i, h)).
Proof. intros Hi Hc. unfold mem_layer, at_layer. cbn [pk_create]. by rewrite Hi, Hc. Qed.

Lemma open_layer parse i now p w m m' h :
  w_mems w !! i = Some m -> open parse m p = (m', Ok h) ->
  pk_open (mem_layer parse i now) p w = (World (<[i := m']> (w_mems w)) (w_seen w), Ok (i, h)).
Proof. intros Hi Hc. unfold mem_layer, at_layer. cbn [pk_open]. by rewrite Hi, Hc. Qed.

Theorem C63_top_partial parse i now parent p w m m' h pt :
  w_mems w !! i = Some m -> reachable parse m ->
  parse (m_here m) p = Some pt -> create parse now m p = (m', Ok h) ->
  let c := wrap parent (mem_layer parse i now) in
  let '(w1, r1) := read (RCreate p) c w in
  r1 = Ok (i, h) /\
  exists w2 h2, read (ROpen p) c w1 = (w2, Ok (i, h2)) /\ content w2 (i, h2) = Some [].
Proof.
  intros Hi Hr Hp Hc c.
  assert (Hcr : read (RCreate p) c w = (World (<[i := m']> (w_mems w)) (w_seen w), Ok (i, h))).
  { subst c. rewrite read_wrap. unfold or_parent. cbn [read].
    by rewrite (create_layer parse i now p w m m' h Hi Hc). }
  rewrite Hcr. split; [done|].
  assert (Hlt : i < length (w_mems w)) by (by eapply lookup_lt_Some).
  destruct (C14_success_partial _ _ _ _ _ _ _ Hr Hc Hp) as (_ & Hs & _).
  destruct (seen_open _ _ _ _ _ (Hs p Hp)) as (m3 & h3 & f & Ho & Hf & _ & Hd & _).
  do 2 eexists. split.
  { subst c. rewrite read_wrap. unfold or_parent. cbn [read].
    apply (open_layer parse i now p (World (<[i := m']> (w_mems w)) (w_seen w)) m' m3 h3) in Ho;
      [|cbn [w_mems]; by rewrite list_lookup_insert]. by rewrite Ho. }
  unfold content. cbn [w_mems fst snd]. rewrite list_insert_insert. rewrite list_lookup_insert by done.
  simpl. by rewrite Hf, <- Hd.
Qed.

Theorem C63_older_file_refuted :
  exists (c : pkger world hfile details) w p h h2,
    stack (mem_layers here_parse 2 t0) = Some c /\
    (read (RCreate p) c w).2 = Ok h /\
    content (read (RCreate p) c w).1 h = Some [] /\
    (read (ROpen p) c (read (RCreate p) c w).1).2 = Ok h2 /\
    content (read (ROpen p) c (read (RCreate p) c w).1).1 h2 = Some (B"old").
Proof.
  eexists two, (World [after [OMkdirAll (B"/d") 493];
     after [OMkdirAll (B"/d") 493; OCreate (B"/d/x"); OWrite 2 (B"old"); OClose 2; ORemove (B"/d")]] []), (B"/d/x"), _, _.
  split; [reflexivity|]. split; [by vm_compute|]. split; [by vm_compute|]. split; by vm_compute.
Qed.

Example C63_ex :
  let '(w, r) := read (RCreate (B"/both")) two two_world in
  r = Ok (1, 3) /\ content w (1, 3) = Some [] /\
  (let '(w2, r2) := read (ROpen (B"/both")) two w in r2 = Ok (1, 4) /\ content w2 (1, 4) = Some []).
Proof. by vm_compute. Qed.

(** *** C26: goroutines *)

Section Concurrent.
  Context {L : Type}.
  Implicit Types (progs : gmap tid (list (act L))).

  (** In every final state the stack, oldest layer first, merges the layers
      each goroutine applied, in that goroutine's order, each once, and has
      nothing else. *)
  Theorem C26_no_layer_lost progs s :
    greach progs s -> all_done s -> interleaves progs (rev (g_cur s)).
  Proof.
    intros Hr Hd. pose proof (greach_inv _ _ Hr) as HI. exists (g_log s).
    split; [by rewrite (gi_cur _ _ HI), rev_involutive|].
    split; [|apply HI]. intros t p Hp.
    destruct (proj1 (gi_dom _ _ HI t) ltac:(eauto)) as [x Hx].
    rewrite <- (gi_acc _ _ HI t p x Hp Hx).
    destruct (Hd t x Hx) as [[Hpc Htd]|Hpc]; unfold pending; rewrite Hpc; simpl.
    - rewrite Htd. simpl. by rewrite app_nil_r.
    - assert (Ht : t_todo x = []).
      { clear -Hr Hx Hpc. revert t x Hx Hpc. induction Hr as [|s t s' Hr IH Hs]; intros u x Hx Hpc.
        - simpl in Hx. rewrite lookup_fmap in Hx. destruct (progs !! u); [|done]. simpl in Hx. by injection Hx as <-.
        - unfold gstep in Hs. destruct (g_thr s !! t) as [y|] eqn:Hy; simpl in Hs; [|done].
          destruct (decide (u = t)) as [->|Hut].
          + destruct (t_pc y) eqn:Ey; try case_bool_decide; try done;
              try (injection Hs as <-; simpl in Hx; rewrite lookup_insert in Hx; injection Hx as <-; done).
            destruct (t_todo y) as [|[l [|]|] todo]; try done;
              (injection Hs as <-; simpl in Hx; rewrite lookup_insert in Hx; injection Hx as <-; done).
          + assert (Hsame : g_thr s' !! u = g_thr s !! u).
            { destruct (t_pc y); try case_bool_decide; try done;
                try (injection Hs as <-; simpl; by rewrite lookup_insert_ne).
              destruct (t_todo y) as [|[l [|]|] todo]; try done;
                (injection Hs as <-; simpl; by rewrite lookup_insert_ne). }
            rewrite Hsame in Hx. by apply (IH u x). }
      rewrite Ht. simpl. by rewrite app_nil_r.
  Qed.

  (** What that means for a single layer and for the number of layers. *)
  Theorem C26_each_applied progs s l :
    greach progs s -> all_done s ->
    (l ∈ g_cur s <-> exists t p, progs !! t = Some p /\ l ∈ layers p).
  Proof.
    intros Hr Hd. destruct (C26_no_layer_lost progs s Hr Hd) as (log & Hlog & Hby & Hdom).
    assert (Hin : l ∈ g_cur s <-> l ∈ log.*2).
    { rewrite Hlog. rewrite !elem_of_list_In. apply in_rev. }
    rewrite Hin, elem_of_list_fmap. split.
    - intros ([t l'] & -> & Hx). destruct (Hdom t l' Hx) as [p Hp]. exists t, p. split; [done|].
      rewrite <- (Hby t p Hp). unfold by_thread. apply elem_of_list_fmap. exists (t, l').
      split; [done|]. by apply elem_of_list_filter.
    - intros (t & p & Hp & Hl). rewrite <- (Hby t p Hp) in Hl. unfold by_thread in Hl.
      apply elem_of_list_fmap in Hl as (x & -> & Hx). apply elem_of_list_filter in Hx as [_ Hx]. by exists x.
  Qed.

  (** At any time the layers present are those whose Apply has written, and
      the values of [current] over time grow by one layer at the top. *)
  Theorem C26_grows progs s i a b :
    greach progs s -> g_hist s !! i = Some a -> g_hist s !! S i = Some b -> exists l, b = l :: a.
  Proof. intros Hr. apply (gi_next _ _ (greach_inv _ _ Hr)). Qed.

  (** Each finished API call used the value [current] had at a moment between
      the call's start and its end. *)
  Theorem C26_current_during_call progs s t x start cur stop :
    greach progs s -> g_thr s !! t = Some x -> (start, cur, stop) ∈ t_calls x ->
    exists i, start <= i <= stop /\ g_hist s !! i = Some cur.
  Proof. intros Hr Hx Hc. by apply (gi_calls _ _ (greach_inv _ _ Hr) t x). Qed.

  (** *** C27 with goroutines *)

  (** A call that starts after an Apply has written is not served by the disk;
      one that ends before any has written is. *)
  Theorem C27_disk_during_call progs s t x start cur stop :
    greach progs s -> g_thr s !! t = Some x -> (start, cur, stop) ∈ t_calls x ->
    (0 < start -> cur <> []) /\ (stop = 0 -> cur = []).
  Proof.
    intros Hr Hx Hc. pose proof (greach_inv _ _ Hr) as HI.
    destruct (gi_calls _ _ HI t x _ _ _ Hx Hc) as [_ (i & Hi & Hl)]. split.
    - intros Hs ->. apply (hist_empty _ _ _ HI) in Hl. lia.
    - intros ->. assert (i = 0) as -> by lia. rewrite (gi_first _ _ HI) in Hl. by injection Hl.
  Qed.

  (** A goroutine calling Apply with an error panics; nothing shared changes. *)
  Theorem C27_panics (s : gst L) t x l todo :
    g_thr s !! t = Some x -> t_pc x = PIdle -> t_todo x = AApply l true :: todo ->
    exists s', gstep s t = Some s' /\ g_cur s' = g_cur s /\ g_writer s' = g_writer s /\
      g_readers s' = g_readers s /\ t_pc <$> g_thr s' !! t = Some PPanic /\ gstep s' t = None.
  Proof.
    intros Hx Hp Ht. unfold gstep. rewrite Hx. simpl. rewrite Hp, Ht. eexists. split; [done|].
    simpl. rewrite !lookup_insert. done.
  Qed.

  (** *** C64 *)

  (** No deadlock: unless all goroutines are finished, one can take a step,
      even if readers wait for waiting writers. *)
  Theorem C64_no_deadlock progs s :
    greach progs s -> ~ all_done s -> exists t s', gstep s t = Some s' /\ may_rlock s t.
  Proof. intros Hr. apply (progress progs). by apply greach_inv. Qed.

  (** Every schedule ends: no more steps than the goroutines have work. *)
  Theorem C64_terminates (s s' : gst L) ts :
    grun s ts = Some s' ->
    length ts + map_fold (fun _ x n => work x + n) 0 (g_thr s') <= map_fold (fun _ x n => work x + n) 0 (g_thr s).
  Proof.
    revert s. induction ts as [|t ts IH]; intros s; cbn [grun length].
    - intros [= <-]. lia.
    - destruct (gstep s t) as [s1|] eqn:E; simpl; [|done]. intros H%IH.
      destruct (step_work _ _ _ E) as (x & x' & Hx & Hs1 & Hlt). rewrite Hs1 in H.
      rewrite <- insert_delete_insert in H.
      rewrite map_fold_insert_L in H; [|intros; lia|apply lookup_delete].
      assert (Hm : map_fold (fun _ x n => work x + n) 0 (g_thr s) =
        work x + map_fold (fun _ x n => work x + n) 0 (delete t (g_thr s))).
      { rewrite <- (insert_delete (g_thr s) t x Hx) at 1.
        rewrite map_fold_insert_L; [done|intros; lia|apply lookup_delete]. }
      lia.
  Qed.
End Concurrent.

(** Three goroutines; one panics; a call overlaps the second Apply. *)
Definition progs_ex : gmap tid (list (act nat)) :=
  {[ 0 := [AApply 10 false; AApply 11 false]; 1 := [ACall; AApply 20 false; ACall];
     2 := [AApply 30 true; AApply 31 false] ]}.

Definition sched_ex : list tid :=
  [1; 0;0; 2; 0;0;0; 1;1;1; 0;0;0;0;0; 1; 1;1;1;1;1; 1;1;1;1;1].

Example C26_ex :
  match grun (ginit progs_ex) sched_ex with
  | Some s => g_cur s = [20; 11; 10] /\
      (t_calls <$> g_thr s !! 1) = Some [(0, [10], 2); (3, [20; 11; 10], 3)] /\
      Forall (fun x => is_done x.2 = true) (map_to_list (g_thr s))
  | None => False
  end.
Proof. vm_compute. split_and!; [done|done|]. repeat constructor. Qed.

(** The schedule of C26_ex takes all the work there is but that of the
    goroutine that panicked. *)
Example C64_ex :
  let total s := map_fold (fun _ x n => work x + n) 0 (g_thr s) in
  match grun (ginit progs_ex) (take 10 sched_ex) with
  | Some s => (exists t s', gstep s t = Some s') /\ length (take 10 sched_ex) + total s <= total (ginit progs_ex)
  | None => False
  end.
Proof. vm_compute. split; [|lia]. exists 0. by eexists. Qed.
