(** Theorems: the file server of pkger.Dir on a stack of layers (C127). *)
From Verif Require Import Bytes GoPath Here GoTypes GoNum GoTimeFmt Mem MemSpec MemBase MemFiles WalkSpec MemWalk PropsFiles PropsDirs Wrap Layers
  PropsLayers Http HttpProofs HttpRange PropsHttp PropsHttpSame LayersHttp.

(** Full claim: "http.FileServer(pkger.Dir(d)) serves a file below d whenever
    Open of the same file through the stack succeeds."
    Proved: it serves exactly what the last applied layer that has d serves
    alone; refuted beyond that. *)

(** [m'] is [m] after handles were opened, read and closed. *)
Record later (m m' : mem) : Prop := {
  lt_here : m_here m' = m_here m;
  lt_files : m_files m' = m_files m;
  lt_heap h : is_Some (m_heap m !! h) -> is_Some (m_heap m' !! h)
}.

Lemma later_refl m : later m m.
Proof. by split. Qed.

Lemma later_trans m1 m2 m3 : later m1 m2 -> later m2 m3 -> later m1 m3.
Proof. intros [A1 B1 C1] [A2 B2 C2]. split; [congruence|congruence|auto]. Qed.

Lemma later_upd m h f : later m (Mem.upd m h f).
Proof.
  split; [done|done|]. intros h' Hh. cbn. destruct (decide (h' = h)) as [->|]; [rewrite lookup_insert; by eexists|by rewrite lookup_insert_ne].
Qed.

Lemma later_alloc m f : later m (alloc m f).1.
Proof.
  split; [done|done|]. intros h' Hh. cbn. destruct (decide (h' = m_next m)) as [->|]; [rewrite lookup_insert; by eexists|by rewrite lookup_insert_ne].
Qed.

Lemma later_open parse m d : later m (open parse m d).1.
Proof.
  unfold open. destruct (mem_parse parse m d) as [k|]; [|apply later_refl]. destruct (file_at m k) as [f|]; [|apply later_refl]. apply later_alloc.
Qed.

Lemma later_file_open parse m r name : later m (file_open parse m r name).1.
Proof.
  unfold file_open. destruct (m_heap m !! r) as [f|]; [|apply later_refl]. destruct (parse _ _) as [pt|]; [|apply later_refl].
  case_bool_decide; [apply later_refl|]. cbv zeta.
  match goal with |- context [open parse m ?x] => pose proof (later_open parse m x) as Ho; destruct (open parse m x) as [m1 [d|e]]; [|exact Ho] end.
  cbn [fst] in Ho. destruct (m_heap m1 !! d) as [di|]; [|exact Ho]. destruct (d_isdir (f_info di)); [|exact Ho].
  eapply later_trans; [exact Ho|apply later_alloc].
Qed.

Lemma later_read m h n : later m (file_read m h n).1.
Proof.
  unfold file_read. destruct (m_heap m !! h); [|apply later_refl]. destruct (cur_reader _) as [rd|]; [|apply later_refl].
  destruct (reader_read rd n). apply later_upd.
Qed.

Lemma later_seek m h n k : later m (file_seek m h n k).1.
Proof.
  unfold file_seek. destruct (m_heap m !! h); [|apply later_refl]. destruct (cur_reader _) as [rd|]; [|apply later_refl].
  destruct (reader_seek rd n k). apply later_upd.
Qed.

Lemma later_close now m h : later m (file_close now m h).1.
Proof.
  unfold file_close. destruct (m_heap m !! h) as [f|]; [|apply later_refl]. destruct (f_writer f); apply later_upd.
Qed.

(** A directory that opens still opens later. *)
Lemma later_opens parse m m1 d r m' : later m m1 -> open parse m d = (m', Ok r) -> exists m1' r', open parse m1 d = (m1', Ok r').
Proof.
  intros [A B C]. unfold open, mem_parse, file_at. rewrite A, B. destruct (parse _ _) as [pt|]; [|done].
  destruct (m_files m !! pt) as [x|]; [|done]. cbn. destruct (m_heap m !! x) as [f|] eqn:E; [|done]. intros _.
  destruct (C x) as [f' Hf']; [by rewrite E|]. rewrite Hf'. by do 2 eexists.
Qed.

Lemma open_err_same parse m d m' e : open parse m d = (m', Err e) -> m' = m.
Proof. unfold open. destruct (mem_parse _ _ _); [|by intros [= <- _]]. destruct (file_at _ _); [done|by intros [= <- _]]. Qed.

(** [d] is opened by layer [i] of [n], the later ones not having it. *)
Lemma stack_opens parse now n i d w m m' r :
  i < n -> w_mems w !! i = Some m -> open parse m d = (m', Ok r) ->
  (forall j mj, i < j < n -> w_mems w !! j = Some mj -> exists e, (open parse mj d).2 = Err e) ->
  forall c, stack (mem_layers parse n now) = Some c ->
  pk_open c d w = (World (<[i := m']> (w_mems w)) (w_seen w), Ok (i, r)).
Proof.
  intros Hi Hm Ho Hnew. induction n as [|n IH]; [lia|]. intros c Hc. rewrite mem_layers_S, stack_snoc in Hc. injection Hc as <-.
  change (pk_open (wrap ?p ?b) d w) with (or_parent (pk_open b d) ((fun q => pk_open q d) <$> p) w). unfold or_parent.
  destruct (decide (i = n)) as [->|Hne].
  - by rewrite (open_layer parse n now d w m m' r Hm Ho).
  - assert (E : exists e, pk_open (mem_layer parse n now) d w = (w, Err e)).
    { unfold mem_layer, at_layer. cbn [pk_open]. destruct (w_mems w !! n) as [mn|] eqn:En; [|by eexists].
      destruct (Hnew n mn ltac:(lia) En) as [e He]. destruct (open parse mn d) as [x y] eqn:Eo. cbn in He. subst y.
      apply open_err_same in Eo as ->. exists e. rewrite list_insert_id by done. by destruct w. }
    destruct E as [e ->]. destruct (stack (mem_layers parse n now)) as [c|] eqn:Es.
    + cbn. apply IH; [lia| |done]. intros j mj Hj. apply Hnew. lia.
    + destruct n as [|n]; [lia|]. by rewrite mem_layers_S, stack_snoc in Es.
Qed.

Theorem C127_partial parse now disk hist n i mime sniff boundary bufsize w m m' r d :
  applied hist = mem_layers parse n now -> i < n -> w_mems w !! i = Some m -> open parse m d = (m', Ok r) ->
  (forall j mj, i < j < n -> w_mems w !! j = Some mj -> exists e, (open parse mj d).2 = Err e) ->
  forall qs, let alone := serve_all (mem_dir_server parse now d) mime sniff boundary bufsize qs m in
    serve_all (stack_server parse now disk (after_applies hist) d) mime sniff boundary bufsize qs w =
      (World (<[i := alone.1]> (w_mems w)) (w_seen w), alone.2).
Proof.
  intros Ha Hi Hm Ho Hnew qs alone. rewrite after_applies_stack, Ha.
  assert (exists c, stack (mem_layers parse n now) = Some c) as [c Hc].
  { destruct n as [|n]; [lia|]. rewrite mem_layers_S, stack_snoc. by eexists. }
  rewrite Hc.
  assert (Hlt : i < length (w_mems w)) by (by eapply lookup_lt_Some).
  set (up := fun x => World (<[i := x]> (w_mems w)) (w_seen w)).
  assert (Hup : forall x, w_mems (up x) !! i = Some x) by (intros x; cbn; by rewrite list_lookup_insert).
  assert (Hset : forall x y, World (<[i := y]> (w_mems (up x))) (w_seen (up x)) = up y).
  { intros x y. unfold up. cbn. by rewrite list_insert_insert. }
  assert (IO : inside_of (mem_dir_server parse now d) (stack_server parse now disk (Some c) d) (later m) up (fun h => (i, h))).
  { split; cbn [mem_dir_server mem_hfs stack_server o_open o_stat o_list o_read o_seek o_close fst snd].
    - intros s name Hs. unfold stack_dir_open, dir_open, impl, mem_dir_open.
      destruct (later_opens parse m s d r m' Hs Ho) as (s1 & r1 & Ho1).
      rewrite (stack_opens parse now n i d (up s) s s1 r1 Hi (Hup s) Ho1) with (c := c); [|..|done].
      + rewrite Ho1, Hset. unfold layer_file_open, at_layer. cbn [fst snd]. rewrite Hup.
        pose proof (later_file_open parse s1 r1 name) as Hl. pose proof (later_open parse s d) as Hl0. rewrite Ho1 in Hl0. cbn [fst] in Hl0.
        destruct (file_open parse s1 r1 name) as [s2 [h|e]]; cbn [wrap_ref mem_answer fst snd] in *; rewrite Hset;
          (split; [done|by eapply later_trans; [eapply later_trans|]]).
      + intros j mj Hj. unfold up. cbn. rewrite list_lookup_insert_ne by lia. by apply Hnew.
    - intros s h _. by rewrite Hup.
    - intros s h _. by rewrite Hup.
    - intros s h k Hs. unfold at_layer. rewrite Hup. pose proof (later_read s h k) as Hl. destruct (file_read s h k) as [s1 x]. cbn [fst snd] in *.
      rewrite Hset. split; [done|by eapply later_trans].
    - intros s h k Hs. unfold at_layer. rewrite Hup. pose proof (later_seek s h k 0) as Hl. destruct (file_seek s h k 0) as [s1 [x e]]. cbn [fst snd] in *.
      rewrite Hset. split; [done|by eapply later_trans].
    - intros s h Hs. unfold at_layer. rewrite Hup. pose proof (later_close now s h) as Hl. destruct (file_close now s h) as [s1 e]. cbn [fst snd] in *.
      rewrite Hset. split; [done|by eapply later_trans]. }
  assert (Ew : w = up m).
  { unfold up. rewrite list_insert_id by done. by destruct w. }
  rewrite Ew at 1. destruct (serve_all_inside _ _ _ _ _ IO mime sniff boundary bufsize qs m (later_refl m)) as [-> _]. done.
Qed.

(** A file of the last applied layer that has the directory is served with its
    bytes, whatever the layers before it hold. *)
Theorem C127_get_partial parse now disk hist n i mime sniff boundary bufsize w m m' r f g ds q ns fo t lm d :
  applied hist = mem_layers parse n now -> i < n -> w_mems w !! i = Some m -> wf m -> open parse m d = (m', Ok r) ->
  (forall j mj, i < j < n -> w_mems w !! j = Some mj -> exists e, (open parse mj d).2 = Err e) ->
  0 < bufsize -> served m' r f g ds -> means parse (f_here f) (m_here m') g ds ns -> ns <> ds -> asks_file q ns ->
  file_at m' (Path g (abs_name (ds ++ ns))) = Some fo -> d_isdir (f_info fo) = false ->
  q_range q = [] -> q_since q = None ->
  media_type mime sniff (d_name (f_info fo)) (f_data fo) t -> lastmod_header (d_mtime (f_info fo)) lm ->
  (serve (stack_server parse now disk (after_applies hist) d) mime sniff boundary bufsize q w).2 =
    Response 200 (Headers (Some t) lm (Some (num (length (f_data fo)))) None (Some (B"bytes")) None None)
      (if q_head q then [] else f_data fo).
Proof.
  intros Ha Hi Hm Hw Ho Hnew Hb SV Hmn Hne Hq Hf Hd Hr Hs Ht Hl.
  assert (E : forall S H (F : hfs S H) s, [(serve F mime sniff boundary bufsize q s).2] = (serve_all F mime sniff boundary bufsize [q] s).2).
  { intros S H F s. cbn [serve_all]. by destruct (serve F mime sniff boundary bufsize q s). }
  pose proof (C127_partial parse now disk hist n i mime sniff boundary bufsize w m m' r d Ha Hi Hm Ho Hnew [q]) as H1. cbv zeta in H1.
  pose proof (C100_mem parse now mime sniff boundary bufsize m d m' r f Hb Hw Ho (sv_root _ _ _ _ _ SV) (sv_dir _ _ _ _ _ SV) [q]) as H2.
  pose proof (C92_get_partial parse now mime sniff boundary bufsize m' r f g ds q ns fo t lm Hb SV Hmn Hne Hq Hf Hd Hr Hs Ht Hl) as H3.
  assert (X : [(serve (stack_server parse now disk (after_applies hist) d) mime sniff boundary bufsize q w).2] =
    [(serve (mem_server parse now r) mime sniff boundary bufsize q m').2]).
  { rewrite !E, H1. exact H2. }
  injection X as ->. exact H3.
Qed.

(** A directory that no layer has: nothing is found. *)
Theorem C127_nowhere parse now disk hist n mime sniff boundary bufsize w d q :
  applied hist = mem_layers parse n now -> 0 < n <= length (w_mems w) -> has_suffix (url_of q) index_page = false ->
  (forall j mj, j < n -> w_mems w !! j = Some mj -> exists k, parse (m_here mj) d = Some k /\ file_at mj k = None) ->
  serve (stack_server parse now disk (after_applies hist) d) mime sniff boundary bufsize q w = (w, not_found q).
Proof.
  intros Ha Hn Hq Hnone. rewrite after_applies_stack, Ha.
  assert (E : exists c, stack (mem_layers parse n now) = Some c /\ pk_open c d w = (w, Err ENotExist)).
  { clear Ha. induction n as [|n IH]; [lia|]. rewrite mem_layers_S, stack_snoc. eexists. split; [done|].
    change (pk_open (wrap ?p ?b) d w) with (or_parent (pk_open b d) ((fun q => pk_open q d) <$> p) w). unfold or_parent.
    assert (En : pk_open (mem_layer parse n now) d w = (w, Err ENotExist)).
    { unfold mem_layer, at_layer. cbn [pk_open]. destruct (lookup_lt_is_Some_2 (w_mems w) n) as [mn Hmn]; [lia|]. rewrite Hmn.
      destruct (Hnone n mn ltac:(lia) Hmn) as (k & Hk & Hf). unfold open, mem_parse. rewrite Hk, Hf. cbn [wrap_ref].
      rewrite list_insert_id by done. by destruct w. }
    rewrite En. destruct n as [|n]; [done|]. destruct IH as (c & -> & Hc); [lia| |exact Hc]. intros j mj Hj. apply Hnone. lia. }
  destruct E as (c & -> & Hc). unfold url_of in Hq. unfold serve. cbv zeta. rewrite Hq.
  cbn [stack_server o_open]. unfold stack_dir_open, dir_open, impl. rewrite Hc. cbn [mem_ferr to_http_error].
  unfold not_found, shown_to. by destruct (q_head q).
Qed.

(** Two layers that both have /pub, the later one with less in it. *)
Definition thin : mem := (run here_parse (mem_new her_ex) ((fun o => (t9, o)) <$> [OMkdirAll (B"/pub") 493; OCreate (B"/pub/new.txt"); OWrite 2 (B"new"); OClose 2])).1.
Definition other : mem := (run here_parse (mem_new her_ex) ((fun o => (t9, o)) <$> [OMkdirAll (B"/etc") 493])).1.
Definition stack_of (n : nat) : list (pkger world hfile details * option gerr) := (fun l => (l, None)) <$> mem_layers here_parse n t0.
Definition stack_ask (n : nat) (l : list mem) (q : request) : response :=
  (serve (stack_server here_parse t0 (mem_layer here_parse 9 t0) (after_applies (stack_of n)) (B"/pub")) mime_ex sniff_ex (B"XX") 4 q (World l [])).2.

Theorem C127_refuted :
  exists (hist : list (pkger world hfile details * option gerr)) w,
    applied hist = mem_layers here_parse 2 t0 /\
    (exists h, (read (ROpen (B"/pub/a.txt")) (impl (mem_layer here_parse 9 t0) (after_applies hist)) w).2 = Ok h /\
       content (read (ROpen (B"/pub/a.txt")) (impl (mem_layer here_parse 9 t0) (after_applies hist)) w).1 h = Some (B"hello world")) /\
    r_code (serve (stack_server here_parse t0 (mem_layer here_parse 9 t0) (after_applies hist) (B"/pub")) mime_ex sniff_ex (B"XX") 4
      (get_of (B"/a.txt")) w).2 = 404%Z.
Proof.
  exists (stack_of 2), (World [hsite; thin] []). split; [reflexivity|]. split; [exists (0, 14); split; vm_compute; reflexivity|]. vm_compute; reflexivity.
Qed.

(** A later layer without /pub changes nothing. *)
Example C127_ex :
  applied (stack_of 2) = mem_layers here_parse 2 t0 /\
  (exists m', open here_parse hsite (B"/pub") = (m', Ok 14)) /\
  (open here_parse other (B"/pub")).2 = Err ENotExist /\
  r_body (stack_ask 2 [hsite; other] (get_of (B"/a.txt"))) = B"hello world" /\
  r_body (stack_ask 2 [hsite; thin] (get_of (B"/new.txt"))) = B"new" /\
  r_code (stack_ask 2 [other; other] (get_of (B"/a.txt"))) = 404%Z.
Proof.
  split; [reflexivity|]. split; [exists (open here_parse hsite (B"/pub")).1; vm_compute; reflexivity|].
  split_and!; vm_compute; reflexivity.
Qed.
