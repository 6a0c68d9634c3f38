(** Theorems: requests answered at the same time (C135). *)
From Verif Require Import Bytes GoPath Here GoTypes Mem MemSpec MemBase MemFiles MemDirs2 WalkSpec MemWalk Conc PropsFiles PropsConc PropsSerial
  Http HttpProofs HttpMem HttpDisk PropsHttp Share ShareRead PropsShare Requests Precond.

(** The paths of the Files a request opens, given the served File [f0]: the
    name asked for is resolved, joined to the name of [f0] and opened. *)
Definition reached (parse : resolver) (m : mem) (f0 : fobj) (name : bytes) (pth : path) : Prop :=
  exists pt, parse (f_here f0) name = Some pt /\
    let q := Path (p_pkg pt) (join2 (p_name (f_path f0)) (p_name pt)) in
    (pt = f_path f0 /\ pth = f_path f0) \/
    (pt <> f_path f0 /\ (pth = q \/ exists key f, parse (m_here m) (path_string q) = Some key /\ file_at m key = Some f /\ pth = f_path f)).
(** The keys below what a request opens. *)
Definition touches (parse : resolver) (m : mem) (f0 : fobj) (q : request) (key : path) : Prop :=
  exists name pth k, opens q name /\ reached parse m f0 name pth /\ parse (m_here m) (path_string pth) = Some k /\ under k key.

Section Visit.
  Context (parse : resolver) (m0 : mem) (D : path -> Prop) (r : ref) (f0 : fobj) (q : request) (now : gotime) (cand : mem -> list path).
  Hypothesis W0 : wf m0.
  Hypothesis N0 : forall k, is_Some (m_files m0 !! k) -> p_name k <> [].
  Hypothesis Hr : m_heap m0 !! r = Some f0.
  Hypothesis Hc : candidates cand.
  Hypothesis Hap : forall key, touches parse m0 f0 q key -> ~ D key.

  Definition fine (vals : list fobj) (idx : list nat) : Prop :=
    forall j i f, 0 < j -> idx !! j = Some i -> vals !! i = Some f -> exists name, opens q name /\ reached parse m0 f0 name (f_path f).

  Lemma fine_insert vals idx i f f' : fine vals idx -> vals !! i = Some f -> f_path f' = f_path f -> fine (<[i := f']> vals) idx.
  Proof.
    intros Hfi Hi Hp j i' g Hj H1 H2. destruct (decide (i = i')) as [<-|Hn].
    - rewrite list_lookup_insert in H2 by (by eapply lookup_lt_Some). injection H2 as <-. rewrite Hp. by apply (Hfi j i).
    - rewrite list_lookup_insert_ne in H2 by done. by apply (Hfi j i').
  Qed.
  Lemma vread_path f n : f_path (vread f n).1 = f_path f.
  Proof. unfold vread. repeat case_match; done. Qed.
  Lemma vseek_path f off wh : f_path (vseek f off wh).1 = f_path f.
  Proof. unfold vseek. repeat case_match; done. Qed.

  Lemma fine_more vals l idx i : fine vals idx -> (forall i, i ∈ idx -> i < length vals) ->
    (forall f, (vals ++ l) !! i = Some f -> exists name, opens q name /\ reached parse m0 f0 name (f_path f)) -> fine (vals ++ l) (idx ++ [i]).
  Proof.
    intros Hfi Hlt Hnew j i' f Hj H1 H2. apply lookup_app_Some in H1 as [H1|[_ H1]].
    - apply (Hfi j i'); [done..|]. rewrite lookup_app_l in H2; [done|]. apply Hlt. by eapply elem_of_list_lookup_2.
    - apply elem_of_list_lookup_2, elem_of_list_singleton in H1 as ->. by apply Hnew.
  Qed.

  Lemma fine_open vals idx i name : fine vals idx -> (forall i, i ∈ idx -> i < length vals) -> vals !! i = Some f0 -> opens q name ->
    let st := (vgiven (vals, idx) (vfile_open parse (m_here m0) m0 vals i f0 name)).1 in fine st.1 st.2.
  Proof.
    intros Hfi Hlt Hi Ho. unfold vfile_open. destruct (parse (f_here f0) name) as [pt|] eqn:Ept; [|done]. case_bool_decide as Hpt; cbn [vgiven fst snd].
    - rewrite <- (app_nil_r vals). apply fine_more; [done..|]. intros f Hf. rewrite app_nil_r, Hi in Hf. injection Hf as <-. exists name. split; [done|].
      exists pt. split; [done|]. by left.
    - unfold vopen. destruct (parse (m_here m0) _) as [key|] eqn:Ekey; [|done]. destruct (file_at m0 key) as [g|] eqn:Eg; [|done].
      rewrite lookup_app_r, Nat.sub_diag by lia. cbn [lookup list_lookup].
      assert (Hg : exists name, opens q name /\ reached parse m0 f0 name (f_path g)).
      { exists name. split; [done|]. exists pt. split; [done|]. right. split; [done|]. right. by exists key, g. }
      destruct (d_isdir (f_info (opened g))); cbn [vgiven fst snd].
      + rewrite <- app_assoc. apply fine_more; [done..|]. intros f Hf. rewrite app_assoc, lookup_app_r, Nat.sub_diag in Hf by lia. injection Hf as <-.
        exists name. split; [done|]. exists pt. split; [done|]. right. split; [done|]. by left.
      + apply fine_more; [done..|]. intros f Hf. rewrite lookup_app_r, Nat.sub_diag in Hf by lia. by injection Hf as <-.
  Qed.

  Lemma ask_run_more m hs c : exists l, (ask_run parse m hs c).1.2 = hs ++ l.
  Proof.
    destruct c as [now' cand' o|j|name]; cbn [ask_run]; [|exists []; by rewrite app_nil_r..].
    destruct (at_slots hs o) as [o'|]; [|exists []; by rewrite app_nil_r]. destruct (step parse m (now', o')) as [m' x]. cbn [fst snd].
    unfold hide. destruct o, x as [?|[?|?]| | |]; cbn [snd]; first [by eexists [_] | exists []; by rewrite app_nil_r].
  Qed.
  Lemma fine_ask vals idx i0 c vals' idx' y : fine vals idx -> (forall i, i ∈ idx -> i < length vals) -> idx !! 0 = Some i0 -> vals !! i0 = Some f0 ->
    by_name q now cand c -> vask parse (m_here m0) m0 (vals, idx) c = ((vals', idx'), y) -> fine vals' idx' /\ sane (fun j => 0 < j) y.
  Proof.
    intros Hfi Hlt H0 Hf0 Hb Hv. destruct Hb as [Hb|(name & Ho & ->)].
    - destruct c as [now' cand' o|j|name]; [|cbn [vask] in Hv; injection Hv as <- <- <-; split; [done|]; by destruct (vget (vals, idx) j) as [[? ?]|]|done].
      destruct o; try done; cbn [vask] in Hv; unfold vget in Hv; cbn [fst snd] in Hv;
      (match type of Hv with context [idx !! ?j] => destruct (idx !! j) as [i|] eqn:Ei; [|by injection Hv as <- <- <-]; destruct (vals !! i) as [f|] eqn:Ef; [|by injection Hv as <- <- <-]; injection Hv as <- <- <- end).
      + split; [eapply fine_insert; [done..|apply vread_path]|]. unfold vread. intros j. repeat case_match; done.
      + split; [eapply fine_insert; [done..|apply vseek_path]|]. unfold vseek. intros j. repeat case_match; done.
      + split; [by eapply fine_insert|done].
      + done.
    - cbn [vask] in Hv. unfold vget in Hv. cbn [fst snd] in Hv. change (idx !! (0 : ref)) with (idx !! 0) in Hv. rewrite H0, Hf0 in Hv.
      pose proof (fine_open vals idx i0 name Hfi Hlt Hf0 Ho) as Hfo. rewrite Hv in Hfo. split; [exact Hfo|].
      destruct (vfile_open parse (m_here m0) m0 vals i0 f0 name) as [vs [i|e]]; injection Hv as <- <- <-; [|done].
      intros j [= <-]. apply lookup_lt_Some in H0. lia.
  Qed.

  Lemma visit {A} (p : worker A) Q refs vals idx hs m :
    inv (m_here m0) m0 D refs vals m -> placed refs idx hs -> hs !! 0 = Some r -> fine vals idx ->
    each (fun j => 0 < j) (by_name q now cand) p Q -> avoids parse D m hs p.
  Proof.
    revert refs vals idx hs m. induction p as [a|c k IH]; intros refs vals idx hs m Hi Hp H0 Hfi He; cbn [avoids]; [done|]. destruct He as [Hq Hk].
    assert (Hrm : m_heap m !! r = Some f0).
    { rewrite (in_heap _ _ _ _ _ _ Hi); [done|]. apply (wf_next m0 W0 r f0 Hr). }
    assert (Hat : forall (j : ref) r' f, hs !! j = Some r' -> m_heap m !! r' = Some f -> exists i, idx !! j = Some i /\ vals !! i = Some f).
    { intros j r' f Hj Hf. destruct (Forall2_lookup_r _ _ _ _ _ Hp Hj) as (i & Hi1 & Hi2). exists i. split; [done|].
      destruct (Forall2_lookup_l _ _ _ _ _ (in_vals _ _ _ _ _ _ Hi) Hi2) as (g & Hg & Eg & _). rewrite Eg in Hf. by injection Hf as <-. }
    assert (Hlt : forall i, i ∈ idx -> i < length vals).
    { intros i Hin. apply elem_of_list_lookup in Hin as [j Hj]. destruct (Forall2_lookup_l _ _ _ _ _ Hp Hj) as (r' & _ & Hj2).
      rewrite <- (Forall2_length _ _ _ (in_vals _ _ _ _ _ _ Hi)). by eapply lookup_lt_Some. }
    assert (Hab : forall key, about parse m hs c key -> ~ D key).
    { intros key Hk'. apply Hap. destruct Hq as [Hq|(name & Ho & ->)].
      - destruct c as [now' cand' o|j|name]; [|done..]. destruct o as [| | | | | | | | | | |j n|]; try done. cbn in Hk'.
        destruct Hk' as (r' & f & pt & E1 & E2 & E3 & E4). destruct (Hat j r' f E1 E2) as (i & Hi1 & Hi2).
        destruct (Hfi j i f) as (name & Ho & Hre); [by destruct Hq|done..|]. exists name, (f_path f), pt. split_and!; try done. by rewrite <- (in_here _ _ _ _ _ _ Hi).
      - destruct Hk' as (r' & f & pt & E1 & E2 & E3 & E4 & E5). change (hs !! (0 : ref)) with (hs !! 0) in E1. rewrite H0 in E1. injection E1 as <-. rewrite Hrm in E2. injection E2 as <-.
        eexists name, _, key. split; [done|]. split; [exists pt; split; [done|]; right; split; [done|]; by left|]. split; [by rewrite <- (in_here _ _ _ _ _ _ Hi)|].
        split; [done|]. apply has_prefix_refl. }
    assert (Hfa : fair_ask c).
    { destruct Hq as [Hq|(name & _ & ->)]; [|by intros ? ? ? [= <- <- <-]]. intros now' cand' o ->. destruct o; try done; by destruct Hq as (_ & -> & ->). }
    split; [done|].
    destruct (seq_ask parse (m_here m0) m0 D W0 eq_refl N0 refs vals idx hs c m Hi Hp Hfa Hab) as (refs' & vals' & idx' & Hi' & Hp' & Hv).
    destruct (ask_run parse m hs c) as [[m' hs'] y] eqn:Erun. cbn [fst snd] in *.
    destruct (Hat 0 r f0 H0 Hrm) as (i0 & Hi0 & Hv0). destruct (fine_ask vals idx i0 c vals' idx' y Hfi Hlt Hi0 Hv0 Hq Hv) as [Hfi' Hs].
    apply (IH y refs' vals' idx' hs' m'); try done; [|by apply Hk].
    destruct (ask_run_more m hs c) as [l Hl]. rewrite Erun in Hl. cbn [fst snd] in Hl. rewrite Hl. by apply lookup_app_l_Some.
  Qed.
End Visit.

Lemma avoids_none {A} parse m hs (p : worker A) : avoids parse (fun _ => False) m hs p.
Proof. revert m hs. induction p as [a|c k IH]; intros m hs; cbn [avoids]; [done|]. split; [by intros ? ? []|]. destruct (ask_run parse m hs c) as [[m' hs'] y]. apply IH. Qed.

(** ** C135: requests answered at the same time *)

(** A File served while other goroutines answer requests, read, and change the
    names in [D]: a request that opens nothing in [D] is answered as if it were
    the only one. *)
Theorem C135_undisturbed parse now cand mime sniff boundary bufsize m (D : path -> Prop) (ts : list (list ref * worker response)) m' qs i r f0 q k a :
  wf m -> (forall key, is_Some (m_files m !! key) -> p_name key <> []) -> Forall (tame parse m D) ts ->
  ts !! i = Some ([r], request_w now cand mime sniff boundary bufsize q k) -> candidates cand -> m_heap m !! r = Some f0 ->
  (forall key, touches parse m f0 q key -> ~ D key) ->
  rtc par (m, task_of parse m <$> ts) (m', qs) -> qs !! i = Some (Ret a) ->
  a = (serve_k (mem_server parse now r) mime sniff boundary bufsize q k m).2.
Proof.
  intros Hw Hn Ht Hi Hc Hr Hap Hrun Hq. rewrite <- (request_result parse now cand).
  eapply (C134_alone parse m D ts m' qs i [r]); try done; [by apply request_reads|].
  pose proof (Forall_lookup_1 _ _ _ _ Ht Hi) as [[E _]|[_ Hf]]; [done|]. cbn [fst] in Hf. apply Forall_singleton in Hf as (f & Hf & Hpl). rewrite Hr in Hf. injection Hf as <-.
  eapply (visit parse m D r f0 q now cand Hw Hn Hr Hc Hap _ whatever [r] [f0] [0]); [|by constructor|done| |apply request_each].
  - split; try done; [apply NoDup_singleton|]. apply List.Forall2_cons; [|constructor]. split; [done|]. split; [by destruct Hpl as (_ & ? & _)|done].
  - intros [|[|j]] i' f Hj H1 H2; [lia|done|done].
Qed.

(** What a request opens, for names that mean files below the served directory
    (PropsHttp): the name asked for, and index.html in it. *)
Lemma touches_below parse m r f g ds q ns key :
  served m r f g ds -> keyed m -> clean (url_of q) = abs_name ns ->
  means parse (f_here f) (m_here m) g ds ns -> means parse (f_here f) (m_here m) g ds (ns ++ [B"index.html"]) ->
  touches parse m f q key -> p_pkg key = g /\ has_prefix (p_name key) (abs_name (ds ++ ns)) = true.
Proof.
  intros SV Hk Hq M1 M2 (name & pth & k & Ho & Hre & Hp & Hu).
  assert (E : exists ns', (ns' = ns \/ ns' = ns ++ [B"index.html"]) /\ name = abs_name ns').
  { destruct Ho as [->| ->]; fold (url_of q); rewrite Hq; [exists ns; auto|]. exists (ns ++ [B"index.html"]). split; [by right|]. apply trim_slash_abs, M1. }
  destruct E as (ns' & Hns & ->).
  assert (M : means parse (f_here f) (m_here m) g ds ns') by (by destruct Hns as [->| ->]).
  assert (Ep : pth = Path g (abs_name (ds ++ ns'))).
  { destruct M as [Hg Hoth Hn Hp']. pose proof (sv_path _ _ _ _ _ SV) as Hsp. pose proof (sv_good _ _ _ _ _ SV) as Hsg. destruct Hre as (pt & Ept & Hre). rewrite Hn in Ept. injection Ept as <-. cbv zeta in Hre. cbn [p_pkg p_name] in Hre.
    rewrite Hsp in Hre. cbn [p_name] in Hre. destruct Hre as [[E ->]|[E Hre]].
    - apply (f_equal p_name) in E. cbn [p_name] in E. apply abs_name_inj in E; [|done..]. destruct Hoth as [?| ->]; [done|]. by subst ns'.
    - rewrite clean_join_abs in Hre by done. destruct Hre as [->|(key' & fo & E1 & E2 & ->)]; [done|]. rewrite Hp' in E1. injection E1 as <-. by apply Hk. }
  subst pth. rewrite (mn_path _ _ _ _ _ _ M) in Hp. injection Hp as <-. destruct Hu as [Hu1 Hu2]. cbn [p_pkg p_name] in Hu1, Hu2. split; [done|].
  destruct Hns as [->| ->]; [done|]. apply has_prefix_spec in Hu2 as [t ->]. rewrite app_assoc, <- (trim_slash_abs (ds ++ ns)).
  2: { apply Forall_app. split; [apply SV|apply M1]. }
  apply has_prefix_spec. unfold trim_slash. destruct (has_suffix (abs_name (ds ++ ns)) (B"/")) eqn:Es; [|eexists; by rewrite <- app_assoc].
  apply has_suffix_spec in Es as [w Ew]. rewrite Ew. rewrite app_length. cbn [length B]. rewrite take_app_alt by (cbn; lia). exists (B"index.html" ++ t).
  unfold index_page. rewrite <- !app_assoc. done.
Qed.

(** Below a directory that is served, a request for the name [ns] is not
    disturbed by what happens to names that do not begin as [ns] does. *)
Theorem C135_below parse now cand mime sniff boundary bufsize m (D : path -> Prop) (ts : list (list ref * worker response)) m' qs i r f g ds q k ns a :
  served m r f g ds -> keyed m -> (forall key, is_Some (m_files m !! key) -> p_name key <> []) -> Forall (tame parse m D) ts ->
  ts !! i = Some ([r], request_w now cand mime sniff boundary bufsize q k) -> candidates cand ->
  clean (url_of q) = abs_name ns ->
  means parse (f_here f) (m_here m) g ds ns -> means parse (f_here f) (m_here m) g ds (ns ++ [B"index.html"]) ->
  (forall key, p_pkg key = g -> has_prefix (p_name key) (abs_name (ds ++ ns)) = true -> ~ D key) ->
  rtc par (m, task_of parse m <$> ts) (m', qs) -> qs !! i = Some (Ret a) ->
  a = (serve_k (mem_server parse now r) mime sniff boundary bufsize q k m).2.
Proof.
  intros SV Hk Hn Ht Hi Hc Hq M1 M2 HD Hrun Ha. eapply C135_undisturbed; [apply SV|done..|apply SV| |exact Hrun|exact Ha].
  intros key Hto. destruct (touches_below parse m r f g ds q ns key SV Hk Hq M1 M2 Hto). by apply HD.
Qed.

(** Nothing but requests, each with its own order of the names and its own
    served directory: each is answered as if it were the only one, and
    everything is kept. *)
Record hjob := HJob { j_now : gotime; j_cand : mem -> list path; j_root : ref; j_request : request; j_conds : conds }.
Theorem C135_requests parse mime sniff boundary bufsize m (js : list hjob) m' qs :
  wf m -> (forall k, is_Some (m_files m !! k) -> p_name k <> []) ->
  Forall (fun j => candidates (j_cand j) /\ exists f, m_heap m !! j_root j = Some f /\ plain f) js ->
  rtc par (m, (fun j => worker_prog parse (m_here m) [j_root j] (request_w (j_now j) (j_cand j) mime sniff boundary bufsize (j_request j) (j_conds j))) <$> js) (m', qs) ->
  (forall i j a, js !! i = Some j -> qs !! i = Some (Ret a) ->
     a = (serve_k (mem_server parse (j_now j) (j_root j)) mime sniff boundary bufsize (j_request j) (j_conds j) m).2) /\
  m_files m' = m_files m /\ forall r, r < m_next m -> m_heap m' !! r = m_heap m !! r.
Proof.
  intros Hw Hn Hj Hrun.
  set (ts := (fun j => ([j_root j], request_w (j_now j) (j_cand j) mime sniff boundary bufsize (j_request j) (j_conds j))) <$> js).
  assert (Ht : Forall (tame parse m (fun _ => False)) ts).
  { apply Forall_fmap. eapply Forall_impl; [exact Hj|]. intros j [Hc Hf]. right. split; [by apply request_reads|]. by apply Forall_singleton. }
  assert (E : task_of parse m <$> ts = (fun j => worker_prog parse (m_here m) [j_root j] (request_w (j_now j) (j_cand j) mime sniff boundary bufsize (j_request j) (j_conds j))) <$> js).
  { unfold ts. by rewrite <- list_fmap_compose. }
  rewrite <- E in Hrun. split.
  - intros i j a Hi Ha. pose proof (Forall_lookup_1 _ _ _ _ Hj Hi) as (Hc & f & Hf & _).
    eapply (C135_undisturbed parse (j_now j) (j_cand j) mime sniff boundary bufsize m (fun _ => False) ts m' qs i (j_root j) f); try done; [unfold ts; by rewrite list_lookup_fmap, Hi|intros key _ F; exact F].
  - destruct (C134_kept parse m (fun _ => False) ts m' qs Hw Ht Hrun) as (H1 & H2 & _). split; [|done]. apply map_eq. intros k. by apply (H1 k (fun F => F)).
Qed.

(** The same with http.FileServer(pkger.Dir(d)). *)
Record djob := DJob { dj_now : gotime; dj_cand : mem -> list path; dj_dir : bytes; dj_request : request; dj_conds : conds }.
Theorem C135_dirs parse mime sniff boundary bufsize m (js : list djob) m' qs :
  wf m -> (forall k, is_Some (m_files m !! k) -> p_name k <> []) -> Forall (fun j => candidates (dj_cand j)) js ->
  rtc par (m, (fun j => worker_prog parse (m_here m) [] (dir_request_w (dj_now j) (dj_cand j) mime sniff boundary bufsize (dj_dir j) (dj_request j) (dj_conds j))) <$> js) (m', qs) ->
  (forall i j a, js !! i = Some j -> qs !! i = Some (Ret a) ->
     a = (serve_k (mem_dir_server parse (dj_now j) (dj_dir j)) mime sniff boundary bufsize (dj_request j) (dj_conds j) m).2) /\
  m_files m' = m_files m /\ forall r, r < m_next m -> m_heap m' !! r = m_heap m !! r.
Proof.
  intros Hw Hn Hj Hrun.
  set (ts := (fun j => ([] : list ref, dir_request_w (dj_now j) (dj_cand j) mime sniff boundary bufsize (dj_dir j) (dj_request j) (dj_conds j))) <$> js).
  assert (Ht : Forall (tame parse m (fun _ => False)) ts).
  { apply Forall_fmap. eapply Forall_impl; [exact Hj|]. intros j Hc. right. split; [by apply dir_request_reads|]. constructor. }
  assert (E : task_of parse m <$> ts = (fun j => worker_prog parse (m_here m) [] (dir_request_w (dj_now j) (dj_cand j) mime sniff boundary bufsize (dj_dir j) (dj_request j) (dj_conds j))) <$> js).
  { unfold ts. by rewrite <- list_fmap_compose. }
  rewrite <- E in Hrun. split.
  - intros i j a Hi Ha. rewrite <- (dir_request_result parse _ (dj_cand j)).
    eapply (C134_alone parse m (fun _ => False) ts m' qs i []); try done; [unfold ts; by rewrite list_lookup_fmap, Hi| |].
    + apply dir_request_reads. by apply (Forall_lookup_1 _ _ _ _ Hj Hi).
    + apply avoids_none.
  - destruct (C134_kept parse m (fun _ => False) ts m' qs Hw Ht Hrun) as (H1 & H2 & _). split; [|done]. apply map_eq. intros k. by apply (H1 k (fun F => F)).
Qed.

(** ** Examples *)

(** Two requests to /pub, while another goroutine makes and fills a file in
    /pub/docs and removes the one that was there. *)
Definition ex_request (q : request) : worker response := request_w t0 keys_now mime_ex sniff_ex (B"XX") 4 q no_conds.
Definition docs_w : worker response :=
  WAsk (AOp t1 keys_now (OCreate (B"/pub/docs/new"))) (fun _ =>
  WAsk (AOp t1 keys_now (OWrite 0 (B"text"))) (fun _ =>
  WAsk (AOp t1 keys_now (OClose 0)) (fun _ =>
  WAsk (AOp t1 keys_now (ORemove (B"/pub/docs/index.html"))) (fun _ => WDone (Response 0 no_headers []))))).
Definition docs_ex (pt : path) : Prop := p_name pt ∈ [B"/"; B"/pub/docs/new"; B"/pub/docs/index.html"].
Definition requests_ex : list (list ref * worker response) :=
  [([13], ex_request (get_of (B"/a.txt"))); ([13], ex_request (get_of (B"/img/"))); ([], docs_w)].

Lemma hsite_named : forall k, is_Some (m_files hsite !! k) -> p_name k <> [].
Proof.
  assert (E : forallb (fun kv : path * ref => negb (bool_decide (p_name kv.1 = []))) (map_to_list (m_files hsite)) = true) by by vm_compute.
  intros k [r Hk] Hn. apply elem_of_map_to_list, elem_of_list_In in Hk. rewrite forallb_forall in E. apply E in Hk. cbn [fst] in Hk. by rewrite bool_decide_true in Hk.
Qed.
Lemma hsite_keyed : keyed hsite.
Proof. apply (built_keyed here_parse). apply built_run, built_new. Qed.
Lemma hroot_plain : exists f, m_heap hsite !! 13 = Some f /\ plain f.
Proof. exists hroot. by split; [vm_compute|]. Qed.
Lemma requests_tame : Forall (tame here_parse hsite docs_ex) requests_ex.
Proof.
  assert (Hh : m_here hsite = her_ex) by by vm_compute.
  assert (Hroot : forall pt, mk_target here_parse her_ex (B"/") pt -> p_name pt = B"/").
  { intros pt Hmk. eapply (mk_targets 5) in Hmk; [|by vm_compute]. by apply elem_of_list_singleton in Hmk as ->. }
  assert (Hb : here_parse her_ex (B"/pub/docs/new") = Some (Path (B"app") (B"/pub/docs/new"))) by by vm_compute.
  assert (Hc : here_parse her_ex (B"/pub/docs/index.html") = Some (Path (B"app") (B"/pub/docs/index.html"))) by by vm_compute.
  constructor; [|constructor; [|constructor; [|constructor]]].
  - right. split; [apply request_reads, keys_now_candidates|]. apply Forall_singleton, hroot_plain.
  - right. split; [apply request_reads, keys_now_candidates|]. apply Forall_singleton, hroot_plain.
  - left. split; [done|]. rewrite Hh. cbn [snd]. unfold docs_w. cbn [only]. split.
    { intros ? ? ? pt [= <- <- <-] H. cbn [disturbs] in H. destruct H as [H|H].
      - change (here_parse her_ex (B"/pub/docs/new") = Some pt) in H. rewrite Hb in H; injection H as <-; right; left.
      - apply Hroot in H. unfold docs_ex. rewrite H. left. }
    intros y. split; [intros ? ? ? pt [= <- <- <-] []|]. intros y'. split; [intros ? ? ? pt [= <- <- <-] []|]. intros ?. split; [|intros ?; exact I].
    intros ? ? ? pt [= <- <- <-] H. change (here_parse her_ex (B"/pub/docs/index.html") = Some pt) in H. rewrite Hc in H; injection H as <-; right; right; left.
Qed.
Lemma docs_apart p key : existsb (fun n => has_prefix n p) [B"/"; B"/pub/docs/new"; B"/pub/docs/index.html"] = false -> has_prefix (p_name key) p = true -> ~ docs_ex key.
Proof.
  intros E H Hd. unfold docs_ex in Hd. assert (Ht : existsb (fun n => has_prefix n p) [B"/"; B"/pub/docs/new"; B"/pub/docs/index.html"] = true).
  { apply existsb_exists. exists (p_name key). split; [by apply elem_of_list_In|done]. }
  by rewrite E in Ht.
Qed.

Example C135_ex :
  served hsite 13 hroot (B"app") [B"pub"] /\ keyed hsite /\ (forall k, is_Some (m_files hsite !! k) -> p_name k <> []) /\
  Forall (tame here_parse hsite docs_ex) requests_ex /\
  (forall n, n ∈ [B"a.txt"; B"img"] ->
     means here_parse (f_here hroot) (m_here hsite) (B"app") [B"pub"] [n] /\
     means here_parse (f_here hroot) (m_here hsite) (B"app") [B"pub"] ([n] ++ [B"index.html"]) /\
     forall key, p_pkg key = B"app" -> has_prefix (p_name key) (abs_name ([B"pub"] ++ [n])) = true -> ~ docs_ex key) /\
  clean (url_of (get_of (B"/a.txt"))) = abs_name [B"a.txt"] /\ clean (url_of (get_of (B"/img/"))) = abs_name [B"img"] /\
  exists m' qs, rtc par (hsite, task_of here_parse hsite <$> requests_ex) (m', qs) /\
    PropsConc.answers qs =
      [Some (Response 200 (Headers (Some (B"text/plain")) (Some t9_text) (Some (B"11")) None (Some (B"bytes")) None None) (B"hello world"));
       Some (Response 200 (Headers (Some (B"text/html; charset=utf-8")) (Some t9_text) None None None None None)
               (page_text [(B"b<1>", false); (B"sub", true)]));
       Some (Response 0 no_headers [])] /\
    seen here_parse m' (B"/pub/docs/new") = Some (Details (B"new") 4 420 t1 false JNull, B"text") /\
    seen here_parse m' (B"/pub/docs/index.html") = None.
Proof.
  split; [apply hsite_served|]. split; [apply hsite_keyed|]. split; [apply hsite_named|]. split; [apply requests_tame|]. split.
  { intros n Hn. apply elem_of_cons in Hn as [->|Hn]; [|apply elem_of_list_singleton in Hn as ->].
    all: split; [means_tac|]; split; [means_tac|]; intros key _; apply docs_apart; by vm_compute. }
  split; [by vm_compute|]. split; [by vm_compute|]. schedule (concat (replicate 100 [0;1;2])). by vm_compute.
Qed.

(** Both kinds of request at once, none of them alone. *)
Definition jobs_ex : list hjob :=
  [HJob t0 keys_now 13 (get_of (B"/a.txt")) no_conds; HJob t1 (fun m => reverse (keys_now m)) 13 (get_of (B"/img/")) no_conds; HJob t0 keys_now 13 (Request false (B"/a.txt") [] (B"bytes=-2") None) (Conds NoTags None NoTags (IfDate (t_sec t9)));
   HJob t0 keys_now 13 (get_of (B"/a.txt")) (Conds NoTags None AnyTag IfNone)].
Definition djobs_ex : list djob :=
  [DJob t0 keys_now (B"/pub") (get_of (B"/a.txt")) no_conds; DJob t1 keys_now (B"/pub/docs") (get_of (B"/")) no_conds; DJob t0 keys_now (B"/none") (get_of (B"/a.txt")) (Conds AnyTag None NoTags IfNone)].
Example C135_requests_ex :
  Forall (fun j => candidates (j_cand j) /\ exists f, m_heap hsite !! j_root j = Some f /\ plain f) jobs_ex /\ Forall (fun j => candidates (dj_cand j)) djobs_ex /\
  (exists (m' : mem) (qs : list (prog response)), rtc par (hsite, (fun j => worker_prog here_parse (m_here hsite) [j_root j] (request_w (j_now j) (j_cand j) mime_ex sniff_ex (B"XX") 4 (j_request j) (j_conds j))) <$> jobs_ex) (m', qs) /\
    (fun x => option_map (fun y => (r_code y, r_body y)) x) <$> PropsConc.answers qs =
      [Some (200%Z, B"hello world"); Some (200%Z, page_text [(B"b<1>", false); (B"sub", true)]); Some (206%Z, B"ld"); Some (304%Z, [])]) /\
  (exists (m' : mem) (qs : list (prog response)), rtc par (hsite, (fun j => worker_prog here_parse (m_here hsite) [] (dir_request_w (dj_now j) (dj_cand j) mime_ex sniff_ex (B"XX") 4 (dj_dir j) (dj_request j) (dj_conds j))) <$> djobs_ex) (m', qs) /\
    (fun x => option_map (fun y => (r_code y, r_body y)) x) <$> PropsConc.answers qs =
      [Some (200%Z, B"hello world"); Some (200%Z, B"<p>"); Some (404%Z, B"404 page not found" ++ [newline])]).
Proof.
  split.
  { constructor; [|constructor; [|constructor; [|constructor; [|constructor]]]]; (split; [|apply hroot_plain]); try apply keys_now_candidates.
    intros m. cbn [j_cand]. destruct (keys_now_candidates m) as [H1 H2]. split; [by rewrite (reverse_Permutation (keys_now m))|]. intros k Hk. apply elem_of_reverse. by apply H2. }
  split; [constructor; [|constructor; [|constructor; [|constructor]]]; apply keys_now_candidates|]. split.
  - schedule (concat (replicate 100 [2;0;1;3])). by vm_compute.
  - schedule (concat (replicate 100 [0;1;2])). by vm_compute.
Qed.

(** Without [D] kept apart the claim fails: while another goroutine makes
    /pub/img/z and then removes /pub/img/b<1>, the page for /img/ can list
    neither, which it does at no moment; and the request can fail with status
    500 although it would succeed at every moment. *)
Definition swap_w : worker response :=
  WAsk (AOp t1 keys_now (OCreate (B"/pub/img/z"))) (fun _ =>
  WAsk (AOp t1 keys_now (ORemove (B"/pub/img/b<1>"))) (fun _ => WDone (Response 0 no_headers []))).
Theorem C135_torn_refuted :
  exists q (d : worker response),
    let at_ m := (serve (mem_server here_parse t0 13) mime_ex sniff_ex (B"XX") 4 q m).2 in
    let m1 := (step here_parse hsite (t1, OCreate (B"/pub/img/z"))).1 in
    let m2 := (step here_parse m1 (t1, ORemove (B"/pub/img/b<1>"))).1 in
    d = swap_w /\ (worker_run here_parse hsite [] d).1.1 = m2 /\
    (r_code (at_ hsite), r_body (at_ hsite)) = (200%Z, page_text [(B"b<1>", false); (B"sub", true)]) /\
    (r_code (at_ m1), r_body (at_ m1)) = (200%Z, page_text [(B"b<1>", false); (B"sub", true); (B"z", false)]) /\
    (r_code (at_ m2), r_body (at_ m2)) = (200%Z, page_text [(B"sub", true); (B"z", false)]) /\
    (exists (m' : mem) (qs : list (prog response)), rtc par (hsite, task_of here_parse hsite <$> [([13], ex_request q); ([], d)]) (m', qs) /\
       exists x, qs !! 0 = Some (Ret x) /\ r_code x = 200%Z /\ r_body x = page_text [(B"sub", true)]) /\
    (exists (m' : mem) (qs : list (prog response)), rtc par (hsite, task_of here_parse hsite <$> [([13], ex_request q); ([], d)]) (m', qs) /\
       exists x, qs !! 0 = Some (Ret x) /\ r_code x = 500%Z).
Proof.
  exists (get_of (B"/img/")), swap_w. cbv zeta. split; [done|]. split; [by vm_compute|]. split; [by vm_compute|]. split; [by vm_compute|]. split; [by vm_compute|]. split.
  - schedule (replicate 12 0 ++ replicate 30 1 ++ replicate 100 0). eexists. by vm_compute.
  - schedule (replicate 17 0 ++ replicate 30 1 ++ replicate 100 0). eexists. by vm_compute.
Qed.
