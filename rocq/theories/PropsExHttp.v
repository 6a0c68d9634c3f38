(** Theorems: examples/http, which serves the directory "/public" with
    http.FileServer(pkger.Dir("/public")), answers as
    http.FileServer(http.Dir("./public")), packed or not (C146). *)
From Verif Require Import Bytes GoPath Here GoTypes GoNum GoTimeFmt Mem MemSpec MemBase Conc Http HttpProofs HttpMem PropsFiles PropsParser PropsConc PropsHttp
  MarshalMem Marshal Embed Disk Decls Pack PropsPack DiskOps Std PropsStd HttpDisk PropsHttpSame Share ShareRead PropsShare Requests PropsRequests Precond PropsPrecond
  DeclsProofs GoQuote Source SourceProofs ParserDirs PropsSource Project PropsProject PropsServed PropsSame Examples PropsExamples.

(** ** pkger.Dir on the embedded files *)

(** [mem_dir_lawful], keeping what is known of the sizes. *)
Lemma mem_dir_lawful_sz parse now m0 d (sz : details -> bytes -> Prop) :
  wf m0 -> (forall k f, file_at m0 k = Some f -> d_isdir (f_info f) = false -> sz (f_info f) (f_data f)) ->
  (forall K f, mem_parse parse m0 d = Some K -> file_at m0 K = Some f -> d_isdir (f_info f) = true) ->
  lawful (mem_dir_server parse now d) sz (mem_ok m0 None) (mem_isfile m0 None) (mem_isdir parse m0 None) (mem_safe m0 None)
    (dir_site parse m0 d) /\ mem_ok m0 None m0.
Proof.
  intros Hw Hs Hd. split; [|by split; [apply same_as_start|]].
  apply mem_lawful; [done|done|]. intros m name Hok. pose proof Hok as [HA HR]. unfold mem_dir_open, open, dir_site.
  assert (Hmp : mem_parse parse m d = mem_parse parse m0 d).
  { unfold mem_parse. by rewrite (ss_here _ _ (sa_store _ _ HA)). }
  rewrite Hmp. destruct (mem_parse parse m0 d) as [K|] eqn:EK; [|by exists m, (inr FOther)].
  pose proof (ss_files _ _ (sa_store _ _ HA) K) as HK.
  destruct (file_at m0 K) as [fo|] eqn:E0.
  2: { assert (file_at m K = None) as -> by (by destruct (file_at m K)). by exists m, (inr FMissing). }
  destruct (file_at m K) as [fm|] eqn:Em; [|done]. cbn in HK. injection HK as Hi Hh Hp Hda Hpa.
  set (g1 := FObj (f_here fm) _ _ _ _ _ _). cbn [alloc]. set (m1 := Mem _ _ _ _ _). assert (Em1 : m1 = (alloc m g1).1) by done.
  destruct (file_open_site parse m0 None sz Hs m1 (m_next m) g1 (efile_of g1) name) as (m' & x & E & Hok' & Hk & Hx).
  - rewrite Em1. split; [by apply same_as_alloc|done].
  - cbn. by rewrite lookup_insert.
  - done.
  - right. by destruct HA.
  - unfold g1. cbn [efile_of e_info f_info]. rewrite new_file_info_id, Hi. by eapply Hd.
  - exists m', x. split; [done|]. split; [done|]. split.
    + intros h d' l Hdir. apply Hk. rewrite Em1. apply isdir_alloc; [apply HA|done].
    + unfold g1, efile_of in Hx. cbn [f_info f_here f_path f_data f_parent] in Hx. rewrite new_file_info_id, Hi, Hh, Hp, Hda in Hx. done.
Qed.

(** What pkger.Dir(d) finds is what the directory, opened, finds. *)
Lemma dir_site_open parse m d m1 r f :
  wf m -> open parse m d = (m1, Ok r) -> m_heap m1 !! r = Some f ->
  (forall k, file_at m1 k = file_at m k) /\ m_files m1 = m_files m /\
  (forall K f', mem_parse parse m d = Some K -> file_at m K = Some f' -> f_info f' = f_info f) /\
  forall n, dir_site parse m d n = mem_site parse m1 (efile_of f) n.
Proof.
  intros Hw Ho Hr. unfold open in Ho. destruct (mem_parse parse m d) as [K|] eqn:EK; [|done].
  destruct (file_at m K) as [f0|] eqn:Ef; [|done]. rewrite new_file_info_id in Ho.
  set (f1 := FObj (f_here f0) (f_info f0) (f_path f0) (f_data f0) zero_path None None) in *. cbn [alloc] in Ho.
  assert (m1 = (alloc m f1).1) as -> by (by injection Ho). assert (r = m_next m) as -> by (by injection Ho). clear Ho.
  assert (f = f1) as ->. { cbn in Hr. rewrite lookup_insert in Hr. by injection Hr. }
  split; [intros k; by apply file_at_alloc|]. split; [done|]. split.
  { intros K' f' [= <-] Hf'. rewrite Ef in Hf'. by injection Hf' as <-. }
  assert (Hl : forall e, listed_at parse m e = listed_at parse (alloc m f1).1 e).
  { intros e. unfold listed_at.
    rewrite (same_readdir parse (alloc m (FObj (e_here e) (e_info e) (e_path e) (e_data e) (e_parent e) None None)).1
      (alloc (alloc m f1).1 (FObj (e_here e) (e_info e) (e_path e) (e_data e) (e_parent e) None None)).1
      (m_next m) (m_next (alloc m f1).1)
      (FObj (e_here e) (e_info e) (e_path e) (e_data e) (e_parent e) None None)
      (FObj (e_here e) (e_info e) (e_path e) (e_data e) (e_parent e) None None)); [done|..].
    - by apply wf_alloc.
    - by apply wf_alloc, wf_alloc.
    - split; [done|done|]. intros pt. by rewrite !file_at_alloc by (done || by apply wf_alloc).
    - cbn. by rewrite lookup_insert.
    - cbn. by rewrite lookup_insert.
    - done. }
  intros n. unfold dir_site. rewrite EK, Ef. unfold mem_site. cbn [efile_of f1 f_info f_here f_path f_data f_parent e_here e_path e_info].
  destruct (parse _ n) as [pt|]; [|done]. rewrite Hl. destruct (bool_decide _); [done|]. cbv zeta.
  change (mem_parse parse (alloc m f1).1) with (mem_parse parse m). destruct (mem_parse parse m (path_string (Path (p_pkg pt) (join2 (p_name (f_path f0)) (p_name pt))))) as [K'|]; [|done].
  rewrite file_at_alloc by done. destruct (file_at m K') as [x|]; [|done]. by rewrite Hl.
Qed.

(** ** C146 *)

(** What is served: the program of [js] requests, each in a goroutine of its
    own, http.FileServer(pkger.Dir(d)). *)
Definition dir_clients (parse : resolver) (here : hinfo) mime sniff boundary bufsize (d : bytes) (js : list arrival) :=
  (fun j => worker_prog parse here [] (dir_request_w (a_now j) (a_cand j) mime sniff boundary bufsize d (a_request j) (a_conds j))) <$> js.

(** Full claim: "A packed program that serves a packed directory with
    http.FileServer(pkger.Dir(d)) to any number of clients at the same time
    answers each as http.FileServer(http.Dir(d)) on the source tree would alone;
    the embedded files stay as they are."  Under the hypotheses of C95_same. *)
Theorem C146_served_partial gz gunzip parse hdir hpkg fs c rs mp rg uorder order decls l b mime sniff boundary bufsize ds name :
  packing gz gunzip parse hdir hpkg fs c rs mp rg uorder ->
  files parse hdir fs order decls = Ok l -> Pack.inside rs l ->
  stuff parse hdir hpkg fs gz rg order c decls = Ok b ->
  packed_dir fs rs (pf_abs <$> l) ds -> 0 < bufsize ->
  parse c name = Some (Path mp (abs_name ds)) ->
  exists m', unmarshal_embed gunzip parse uorder b = Marshal.Done m' /\
    forall (js : list arrival) m2 qs,
      Forall (fun j => candidates (a_cand j) /\ exists ns, plain_request parse hdir hpkg c mp ds (a_request j) ns) js ->
      rtc par (m', dir_clients parse (m_here m') mime sniff boundary bufsize name js) (m2, qs) ->
      (forall i j a, js !! i = Some j -> qs !! i = Some (Ret a) ->
         a = (serve_k (dir_server fs (abs_name (rs ++ ds))) mime sniff boundary bufsize (a_request j) (a_conds j) (tt, 0)).2) /\
      m_files m2 = m_files m' /\ forall x, x < m_next m' -> m_heap m2 !! x = m_heap m' !! x.
Proof.
  intros Hp Hl Hin Hs HPD Hb Hn.
  destruct (same_sites gz gunzip parse hdir hpkg fs c rs mp rg uorder order decls l b ds name Hp Hl Hin Hs HPD Hn)
    as (m' & m1 & r & f1 & Hu & Ho & SV & Hpl & Hnm & Hsame).
  destruct (stuff_stuffed gz gunzip parse hdir hpkg fs c rs mp rg uorder order decls b Hp Hs l Hl Hin) as (m0 & m'' & _ & Hu' & Hw & _).
  rewrite Hu in Hu'. injection Hu' as <-. clear m0.
  exists m'. split; [done|]. intros js m2 qs Hj Hrun.
  destruct (dir_site_open parse m' name m1 r f1 Hw Ho (sv_root _ _ _ _ _ SV)) as (Hat & Hfi & Hdi & Hsite).
  set (hs := (fun j => DJob (a_now j) (a_cand j) name (a_request j) (a_conds j)) <$> js).
  destruct (C135_dirs parse mime sniff boundary bufsize m' hs m2 qs Hw) as (H1 & H2 & H3).
  { intros k Hk. apply Hnm. by rewrite Hfi. }
  { apply Forall_fmap. eapply Forall_impl; [exact Hj|]. by intros j [Hc _]. }
  { unfold hs. by rewrite <- list_fmap_compose. }
  split; [|done]. intros i j a Hi Ha.
  rewrite (H1 i (DJob (a_now j) (a_cand j) name (a_request j) (a_conds j)) a); [|unfold hs; by rewrite list_lookup_fmap, Hi|done].
  cbn [dj_now dj_dir dj_request dj_conds].
  pose proof (Forall_lookup_1 _ _ _ _ Hj Hi) as (_ & ns & Hq). destruct (Hsame (a_request j) ns Hq) as [S1 S2].
  destruct (mem_dir_lawful_sz parse (a_now j) m' name full_size Hw) as [L1 Hok1].
  { intros k f Hf. rewrite <- Hat in Hf. exact (sv_sized _ _ _ _ _ SV k f Hf). }
  { intros K f HK Hf. rewrite (Hdi K f HK Hf). apply SV. }
  apply (lawful_ext _ _ _ _ _ _ _ _ Hsite) in L1.
  eapply serve_k_same; [exact L1|exact (dir_server_lawful fs (abs_name (rs ++ ds)))|done|done|exact I|done|done].
Qed.

Section Same.
  Context (gz : bytes -> bytes) (gunzip : bytes -> res bytes) (parse : resolver).
  Context (hdir hpkg : bytes -> res hinfo) (fs : node) (gosrc : bytes -> bytes -> res source).
  Context (c : hinfo) (rs : list bytes) (mp : bytes) (incs : list bytes).

  (** Full claim: "examples/http/pkger, packed from its own source, answers every
      request, of any number of clients at the same time, as examples/http/std
      does from the module's directory."  Proved for a module as [project] and
      [packing] describe it, with a directory "public" all of which can be read,
      nothing of which has a name that begins with a directory's beside it, and
      requests as in C95_same. *)
  Theorem C146_http_partial n dorder order rg uorder mime sniff boundary bufsize i cs :
    packing gz gunzip parse hdir hpkg fs c rs mp rg uorder -> some_order order -> (forall l, dorder l ≡ₚ l) ->
    project parse hdir hpkg fs gosrc c rs mp incs n -> rs <> [] -> apart fs rs -> 0 < bufsize ->
    has_main gosrc rs n http_ast -> resolves parse hdir c rs mp (B"/public") [B"public"] ->
    quiet parse hdir hpkg gosrc c rs incs n (B"/public") [B"public"] ->
    get fs (rs ++ [B"public"]) = Some (NDir i cs) ->
    (forall vs x, get fs (rs ++ [B"public"] ++ vs) = Some x -> n_ok (n_meta x) = true) ->
    exists F, forall fuel b, F <= fuel -> pack_project gz parse hdir hpkg fs gosrc c incs fuel dorder order rg = Ok b ->
    exists m', unmarshal_embed gunzip parse uorder b = Marshal.Done m' /\
      forall (js : list arrival) m2 qs,
        Forall (fun j => candidates (a_cand j) /\ exists ns, plain_request parse hdir hpkg c mp [B"public"] (a_request j) ns) js ->
        rtc par (m', dir_clients parse (m_here m') mime sniff boundary bufsize (B"/public") js) (m2, qs) ->
        (forall i j a, js !! i = Some j -> qs !! i = Some (Ret a) ->
           a = (serve_k (dir_server fs (abs_name (rs ++ [B"public"]))) mime sniff boundary bufsize (a_request j) (a_conds j) (tt, 0)).2) /\
        m_files m2 = m_files m' /\ forall x, x < m_next m' -> m_heap m2 !! x = m_heap m' !! x.
  Proof.
    intros Hpk Hord Hdo Hproj Hrs0 Hap Hb Hmain Hres Hq Hg Hopen.
    destruct (PropsExamples.asked gz gunzip parse hdir hpkg fs gosrc c rs mp incs n dorder order rg uorder Hpk Hord Hdo Hproj) as [F HF].
    exists F. intros fuel b Hf Hpb. destruct (HF fuel b Hf Hpb) as (dl & l & Hl & Hin & Hst & Hask).
    apply (C146_served_partial gz gunzip parse hdir hpkg fs c rs mp rg uorder order dl l b mime sniff boundary bufsize [B"public"] (B"/public") Hpk Hl Hin Hst);
      [|done|exact (proj1 Hres)].
    assert (Hcall : abs_name (rs ++ [B"public"]) ∈ pf_abs <$> l).
    { apply (Hask [B"public"] _ (B"/public") Hg); [|done].
      eapply (main_calls parse hdir gosrc c rs mp n http_ast KDir (str "/public") _ (B"/public") [B"public"] Hmain); [left|done|done|constructor|by vm_compute|done]. }
    assert (Hgood : Forall good_elem [B"public"]).
    { destruct (wf_get _ _ _ (pg_wf _ _ _ _ _ _ _ _ _ _ _ Hpk) Hg) as [_ H]. by apply Forall_app in H as [_ H]. }
    split.
    - by eexists _, _.
    - exists [B"public"], [], (NDir i cs). rewrite app_nil_r. split; [done|]. split; [done|]. split; [done|]. split; [|done].
      apply (not_tmp gz gunzip hdir hpkg gosrc rs gz (B"public") []); [done|by vm_compute|]. apply Nat.leb_le. by vm_compute.
    - intros p a1 b1 rest1 i1 cs1 H1 (nn & uu & x & _ & _ & _ & _ & Hx) Hpre. eapply (Hap p a1 b1); [exact H1| |done].
      replace (rs ++ p ++ b1 :: rest1) with ((rs ++ p ++ [b1]) ++ rest1) in Hx by (by rewrite <- !app_assoc).
      rewrite get_app in Hx. by destruct (get fs (rs ++ p ++ [b1])).
    - exact Hopen.
  Qed.

  (** Not packed - run with "go run" - the requests of one client after the
      other are answered as by examples/http/std too. *)
  Theorem C146_dev_partial hp mime sniff boundary bufsize s i cs :
    wf_node fs -> 0 < bufsize -> beside_it c rs mp s -> parse c (B"/public") = Some (Path mp (abs_name [B"public"])) ->
    get fs (rs ++ [B"public"]) = Some (NDir i cs) -> n_ok i = true ->
    forall qs k, Forall (fun q => exists ns, plain_request_disk parse c mp fs rs [B"public"] q ns) qs ->
      (serve_all (std_dir_server parse hp fs (B"/public")) mime sniff boundary bufsize qs (s, k)).2 =
      (serve_all (dir_server fs (abs_name (rs ++ [B"public"]))) mime sniff boundary bufsize qs (tt, 0)).2.
  Proof.
    intros Hwf Hb Hbe Hn Hg Hok qs k Hqs. destruct (wf_get _ _ _ Hwf Hg) as [_ Hgood]. pose proof Hgood as Hgood'. apply Forall_app in Hgood' as [Hrs Hpub].
    pose proof Hbe as [Hh (her & Hi & Hd)].
    assert (exists f, (std_open parse hp fs s (B"/public")).2 = Ok f) as [f Hf].
    { unfold std_open. rewrite Hh, Hn. cbn [p_pkg p_name]. rewrite Hi, Hd, clean_join_abs by done. unfold os_open. rewrite (find_abs fs _ Hgood), Hg. cbn.
      rewrite Hok. by eexists. }
    rewrite (C100_disk parse hp fs mime sniff boundary bufsize s (B"/public") f Hb Hf qs k 0).
    by apply (C95_disk_partial parse hp fs c rs mp mime sniff boundary bufsize s (B"/public") [B"public"] f Hb Hbe).
  Qed.
End Same.

(** ** The example, packed *)

Lemma ex_apart : apart ex_fs wit_rs.
Proof.
  intros p a b i cs Ha [x Hb] Hpre. revert Hpre.
  assert (H : forall ws n, get ex_fs (wit_rs ++ ws) = Some n -> forall ws' n', get ex_fs (wit_rs ++ ws') = Some n' ->
    forall p a b, ws = p ++ [a] -> ws' = p ++ [b] -> n_isdir n = true -> has_prefix b a = true -> b = a).
  { clear. set (P2 := fun (ws : list bytes) (n : node) (ws' : list bytes) (n' : node) => forall p a b,
      ws = p ++ [a] -> ws' = p ++ [b] -> n_isdir n = true -> has_prefix b a = true -> b = a).
    apply (ex_all (fun ws n => forall ws' n', get ex_fs (wit_rs ++ ws') = Some n' -> P2 ws n ws' n')). cbn [nodes visited ex_app ex_public app].
    repeat (apply List.Forall_cons; [cbn [fst snd];
      match goal with |- forall ws' n', _ -> P2 ?ws ?n _ _ => apply (ex_all (P2 ws n)) end; cbn [nodes visited ex_app ex_public app];
      repeat (apply List.Forall_cons; [cbn [fst snd]; intros p a b E1 E2 Hd Hpre; try discriminate Hd|]); try apply List.Forall_nil|]);
      try apply List.Forall_nil.
    all: destruct p as [|p1 [|p2 [|p3 p]]]; cbn in E1, E2; try discriminate E1; try discriminate E2.
    all: injection E1; injection E2; intros; subst; try reflexivity; try (vm_compute in Hpre; discriminate Hpre); try congruence. }
  intros Hpre. by apply (H _ _ Ha _ _ Hb p a b).
Qed.

(** Four clients: the directory, its index.html, a directory without one, the
    end of a file. *)
Definition http_js : list arrival :=
  [Arrival t0 keys_now (get_of (B"/")) no_conds; Arrival t1 (fun m => reverse (keys_now m)) (get_of (B"/index.html")) no_conds;
   Arrival t0 keys_now (get_of (B"/img/")) no_conds; Arrival t0 keys_now (Request false (B"/img/b.png") [] (B"bytes=1-") None) no_conds].
Lemma http_plain j : j ∈ http_js -> candidates (a_cand j) /\
  exists ns, plain_request here_parse wit_hdir wit_hdir her_ex (B"app") [B"public"] (a_request j) ns.
Proof.
  assert (H : forall q ns, clean (url_of q) = abs_name ns -> Forall good_elem ns ->
    Forall (fun us => bool_decide (here_parse her_ex (abs_name us) = Some (Path (B"app") (abs_name us)) /\
      here_parse her_ex (path_string (Path (B"app") (abs_name ([B"public"] ++ us)))) = Some (Path (B"app") (abs_name ([B"public"] ++ us))) /\
      us <> [B"public"]) = true) [ns; ns ++ [B"index.html"]] ->
    plain_request here_parse wit_hdir wit_hdir her_ex (B"app") [B"public"] q ns).
  { intros q ns H1 H2 H3. split; [done|done|]. intros her us Ha Hus. rewrite (img_asked _ Ha). rewrite Forall_forall in H3.
    specialize (H3 us Hus). apply bool_decide_eq_true in H3 as (H3 & H4 & H5). split; [done|]. split; [done|by left]. }
  unfold http_js. rewrite !elem_of_cons, elem_of_nil. intros [-> |[-> |[-> |[-> |[]]]]]; (split; [cbn [a_cand]|cbn [a_request]]); try apply keys_now_candidates.
  2: { intros m. destruct (keys_now_candidates m) as [H1 H2]. split; [by rewrite (reverse_Permutation (keys_now m))|].
       intros k Hk. apply elem_of_reverse. by apply H2. }
  1: exists []. 2: exists [B"index.html"]. 3: exists [B"img"]. 4: exists [B"img"; B"b.png"].
  all: apply H; [by vm_compute|good_elems|repeat (apply List.Forall_cons; [by vm_compute|]); apply List.Forall_nil].
Qed.

Definition http_answers : list (option (Z * bytes)) :=
  [Some (200%Z, B"<html>"); Some (301%Z, []); Some (200%Z, page_text [(B"b.png", false)]); Some (206%Z, B"NG")].
Example C146_ex gz gunzip : (forall x, gunzip (gz x) = Ok x) ->
  packing gz gunzip here_parse wit_hdir wit_hdir ex_fs her_ex wit_rs (B"app") any_range (fun l => l) /\
  project here_parse wit_hdir wit_hdir ex_fs (ex_src http_ast) her_ex wit_rs (B"app") [] ex_app /\ apart ex_fs wit_rs /\
  has_main (ex_src http_ast) wit_rs ex_app http_ast /\
  resolves here_parse wit_hdir her_ex wit_rs (B"app") (B"/public") [B"public"] /\
  quiet here_parse wit_hdir wit_hdir (ex_src http_ast) her_ex wit_rs [] ex_app (B"/public") [B"public"] /\
  get ex_fs (wit_rs ++ [B"public"]) = Some ex_public /\
  (forall vs x, get ex_fs (wit_rs ++ [B"public"] ++ vs) = Some x -> n_ok (n_meta x) = true) /\
  Forall (fun j => candidates (a_cand j) /\ exists ns, plain_request here_parse wit_hdir wit_hdir her_ex (B"app") [B"public"] (a_request j) ns) http_js /\
  exists b m', pack_project gz here_parse wit_hdir wit_hdir ex_fs (ex_src http_ast) her_ex [] 5 (fun l => l) (fun l => l) any_range = Ok b /\
    unmarshal_embed gunzip here_parse (fun l => l) b = Marshal.Done m' /\
    exists m2 qs, rtc par (m', dir_clients here_parse (m_here m') mime_ex sniff_ex (B"XX") 4 (B"/public") http_js) (m2, qs) /\
      (option_map (fun a => (r_code a, r_body a)) <$> PropsConc.answers qs) = http_answers.
Proof.
  intros Hz. split; [by apply ex_packing|]. split; [apply (ex_project http_ast KDir "/public" [] [B"public"]); ex_facts|].
  split; [apply ex_apart|]. split; [apply ex_main_is|]. split; [apply ex_resolves_public|].
  split; [apply (ex_quiet http_ast KDir "/public" [] [B"public"]); ex_facts|]. split; [done|]. split.
  { intros vs x. apply (ex_all (fun _ x => n_ok (n_meta x) = true)). cbn [nodes visited ex_app ex_public app].
    repeat (apply List.Forall_cons; [by vm_compute|]); apply List.Forall_nil. }
  split; [apply Forall_forall; intros j; apply http_plain|].
  set (P := fun m' => (option_map (fun a => (r_code a, r_body a)) <$>
    PropsConc.answers (run_sched (concat (replicate 100 [2;0;3;1])) (m', dir_clients here_parse (m_here m') mime_ex sniff_ex (B"XX") 4 (B"/public") http_js)).2) = http_answers).
  assert (HP : packs wit_hdir wit_hdir ex_fs her_ex [wit_decl KDir (B"/public") [B"public"]] P) by (apply packs_intro; by vm_compute).
  destruct (HP gz gunzip Hz) as (b & m' & Eb & Eu & H). exists b, m'.
  split; [apply (ex_packed gz http_ast KDir (B"/public") [B"public"] b); [by vm_compute|exact Eb]|]. split; [exact Eu|].
  match goal with |- exists m2 qs, rtc par ?c _ /\ _ => exists (run_sched (concat (replicate 100 [2;0;3;1])) c).1, (run_sched (concat (replicate 100 [2;0;3;1])) c).2;
    split; [rewrite <- surjective_pairing; apply run_sched_par|] end.
  exact H.
Qed.

(** The same requests, one after the other, to the program run with "go run". *)
Example C146_dev_ex :
  wf_node ex_fs /\ beside_it her_ex wit_rs (B"app") (std_new her_ex) /\
  Forall (fun q => exists ns, plain_request_disk here_parse her_ex (B"app") ex_fs wit_rs [B"public"] q ns) (a_request <$> http_js) /\
  (fun a => Some (r_code a, r_body a)) <$> (serve_all (std_dir_server here_parse no_hp ex_fs (B"/public")) mime_ex sniff_ex (B"XX") 4
    (a_request <$> http_js) (std_new her_ex, 0)).2 = http_answers.
Proof.
  split; [apply ex_wf|]. split; [split; [done|exists her_ex; split; [by vm_compute|done]]|]. split; [|by vm_compute].
  assert (Hn : forall n ws, not_a_dir n ws = false -> ~ through_file n ws).
  { intros n ws H (us & v & vs & i & data & -> & Hg). revert n H Hg. induction us as [|u us IH]; intros n H Hg.
    - cbn in Hg. injection Hg as ->. done.
    - destruct n as [|j cs]; [done|]. cbn [get not_a_dir app] in *. destruct (child u cs) as [x|]; [|done]. by apply (IH x). }
  assert (H : forall q ns, clean (url_of q) = abs_name ns -> Forall good_elem ns ->
    Forall (fun us => bool_decide (here_parse her_ex (abs_name ([B"public"] ++ us)) = Some (Path (B"app") (abs_name ([B"public"] ++ us)))) = true) [ns; ns ++ [B"index.html"]] ->
    not_a_dir ex_fs (wit_rs ++ [B"public"] ++ ns) = false ->
    plain_request_disk here_parse her_ex (B"app") ex_fs wit_rs [B"public"] q ns).
  { intros q ns H1 H2 H3 H4. split; [done|done| |by apply Hn]. intros us Hus. rewrite Forall_forall in H3. exact (proj1 (bool_decide_eq_true _) (H3 us Hus)). }
  cbn [fmap list_fmap http_js a_request]. repeat (apply List.Forall_cons); [..|apply List.Forall_nil].
  1: exists []. 2: exists [B"index.html"]. 3: exists [B"img"]. 4: exists [B"img"; B"b.png"].
  all: apply H; [by vm_compute|good_elems|repeat (apply List.Forall_cons; [by vm_compute|]); apply List.Forall_nil|by vm_compute].
Qed.

(** Without [apart]: a directory public/foo beside a file public/foo-bar.  The
    page of "/" has both on disk, only the first in the packed program. *)
Theorem C146_refuted :
  exists fs q, wf_node fs /\
    r_body (serve_k (dir_server fs (B"/src/app/public")) mime_ex sniff_ex (B"XX") 4 q no_conds (tt, 0)).2 =
      page_text [(B"foo", true); (B"foo-bar", false)] /\
    forall gz gunzip, (forall x, gunzip (gz x) = Ok x) ->
      exists b m', pack_project gz here_parse wit_hdir wit_hdir fs (ex_src http_ast) her_ex [] 5 (fun l => l) (fun l => l) any_range = Ok b /\
        unmarshal_embed gunzip here_parse (fun l => l) b = Marshal.Done m' /\
        r_body (serve_k (mem_dir_server here_parse t0 (B"/public")) mime_ex sniff_ex (B"XX") 4 q no_conds m').2 = page_text [(B"foo", true)].
Proof.
  exists (ex_with [(B"foo", NDir wit_meta []); (B"foo-bar", NFile wit_meta (B"1"))]), (get_of (B"/")).
  split; [wf_tac|]. split; [by vm_compute|]. intros gz gunzip Hz. set (fs := ex_with _).
  destruct (packs_intro wit_hdir wit_hdir fs her_ex [wit_decl KDir (B"/public") [B"public"]] (fun m' =>
    r_body (serve_k (mem_dir_server here_parse t0 (B"/public")) mime_ex sniff_ex (B"XX") 4 (get_of (B"/")) no_conds m').2 = page_text [(B"foo", true)]))
    with gz gunzip as (b & m' & Eb & Eu & H); [by vm_compute|done|].
  exists b, m'. split; [|exact (conj Eu H)]. unfold pack_project.
  assert (parse_project here_parse wit_hdir wit_hdir fs (ex_src http_ast) (fun l => l) 5 her_ex [] = Ok [wit_decl KDir (B"/public") [B"public"]]) as -> by (by vm_compute).
  exact Eb.
Qed.
