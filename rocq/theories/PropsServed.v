(** Theorems: a packed program serving requests at the same time (C138). *)
From Verif Require Import Bytes GoPath Here GoTypes GoNum GoTimeFmt Mem MemSpec MemBase Conc Http HttpProofs HttpMem PropsFiles PropsParser PropsConc PropsHttp
  MarshalMem Marshal Embed Disk Decls Pack PropsPack DiskOps Std PropsStd HttpDisk PropsHttpSame Share ShareRead PropsShare Requests PropsRequests Precond PropsPrecond
  DeclsProofs GoQuote Source SourceProofs ParserDirs PropsSource Project PropsProject.

(** A request that arrives: the clock, the order in which the names are
    enumerated, the request and its conditions. *)
Record arrival := Arrival { a_now : gotime; a_cand : mem -> list path; a_request : request; a_conds : conds }.

(** Full claim: "A program packed from a directory tree, opening a directory
    that was packed and serving it with http.FileServer to any number of
    clients at the same time, answers every request exactly as
    http.FileServer(http.Dir(d)) on the directory of the source tree answers it
    alone; and the embedded files stay as they are."  Proved under the hypotheses
    of C95_same. *)
Theorem C138_served_partial gz gunzip parse hdir hpkg fs c rs mp rg uorder order decls l b mime sniff boundary bufsize ds name :
  packing gz gunzip parse hdir hpkg fs c rs mp rg uorder ->
  files parse hdir fs order decls = Ok l -> Pack.inside rs l ->
  stuff parse hdir hpkg fs gz rg order c decls = Ok b ->
  packed_dir fs rs (pf_abs <$> l) ds -> 0 < bufsize ->
  parse c name = Some (Path mp (abs_name ds)) ->
  exists m' m1 r, unmarshal_embed gunzip parse uorder b = Marshal.Done m' /\ open parse m' name = (m1, Ok r) /\
    forall (js : list arrival) m2 qs,
      Forall (fun j => candidates (a_cand j) /\ exists ns, plain_request parse hdir hpkg c mp ds (a_request j) ns) js ->
      rtc par (m1, (fun j => worker_prog parse (m_here m1) [r]
                               (request_w (a_now j) (a_cand j) mime sniff boundary bufsize (a_request j) (a_conds j))) <$> js) (m2, qs) ->
      (forall i j a, js !! i = Some j -> qs !! i = Some (Ret a) ->
         a = (serve_k (dir_server fs (abs_name (rs ++ ds))) mime sniff boundary bufsize (a_request j) (a_conds j) (tt, 0)).2) /\
      m_files m2 = m_files m1 /\ forall x, x < m_next m1 -> m_heap m2 !! x = m_heap m1 !! x.
Proof.
  intros Hp Hl Hin Hs HPD Hb Hn.
  destruct (same_sites gz gunzip parse hdir hpkg fs c rs mp rg uorder order decls l b ds name Hp Hl Hin Hs HPD Hn)
    as (m' & m1 & r & f1 & Hu & Ho & SV & Hpl & Hnm & Hsame).
  exists m', m1, r. split; [done|]. split; [done|]. intros js m2 qs Hj Hrun.
  set (hs := (fun j => HJob (a_now j) (a_cand j) r (a_request j) (a_conds j)) <$> js).
  assert (Hh : Forall (fun j => candidates (j_cand j) /\ exists f, m_heap m1 !! j_root j = Some f /\ plain f) hs).
  { apply Forall_fmap. eapply Forall_impl; [exact Hj|]. intros j [Hc _]. split; [done|]. exists f1. split; [apply SV|done]. }
  destruct (C135_requests parse mime sniff boundary bufsize m1 hs m2 qs (sv_wf _ _ _ _ _ SV) Hnm Hh) as (H1 & H2 & H3).
  { unfold hs. by rewrite <- list_fmap_compose. }
  split; [|done]. intros i j a Hi Ha.
  rewrite (H1 i (HJob (a_now j) (a_cand j) r (a_request j) (a_conds j)) a); [|unfold hs; by rewrite list_lookup_fmap, Hi|done]. cbn [j_now j_root j_request j_conds].
  pose proof (Forall_lookup_1 _ _ _ _ Hj Hi) as (_ & ns & Hq). destruct (Hsame (a_request j) ns Hq) as [S1 S2].
  destruct (mem_server_lawful parse (a_now j) m1 r f1) as [L1 Hok1]; [apply SV..|].
  eapply serve_k_same; [exact L1|exact (dir_server_lawful fs (abs_name (rs ++ ds)))|done|done|exact I|done|done].
Qed.

(** "/img" of the packed tree, asked by four clients at the same time. *)
Definition img_js : list arrival :=
  [Arrival t0 keys_now (get_of (B"/b.png")) no_conds; Arrival t1 (fun m => reverse (keys_now m)) (get_of (B"/")) no_conds;
   Arrival t0 keys_now (Request false (B"/b.png") [] (B"bytes=1-") None) no_conds; Arrival t0 keys_now (get_of (B"/b.png")) (Conds NoTags None AnyTag IfNone)].
Example C138_ex :
  packed_dir pack_fs wit_rs (pf_abs <$> img_l) [B"img"] /\
  Forall (fun j => candidates (a_cand j) /\ exists ns, plain_request here_parse wit_hdir wit_hdir her_ex (B"app") [B"img"] (a_request j) ns) img_js /\
  packs wit_hdir wit_hdir pack_fs her_ex pack_ds (fun m' =>
    match open here_parse m' (B"/img") with
    | (m1, Ok r) =>
        exists m2 qs, rtc par (m1, (fun j => worker_prog here_parse (m_here m1) [r]
            (request_w (a_now j) (a_cand j) mime_ex sniff_ex (B"XX") 4 (a_request j) (a_conds j))) <$> img_js) (m2, qs) /\
          PropsConc.answers qs =
            (fun j => Some (serve_k (dir_server pack_fs (B"/src/app/img")) mime_ex sniff_ex (B"XX") 4 (a_request j) (a_conds j) (tt, 0)).2) <$> img_js /\
          (fun x => option_map r_code x) <$> PropsConc.answers qs = [Some 200%Z; Some 200%Z; Some 206%Z; Some 304%Z]
    | _ => False
    end).
Proof.
  split; [apply img_packed_dir|]. split.
  { pose proof img_plain as HP. unfold img_qs in HP. rewrite !Forall_cons in HP. destruct HP as (P1 & P2 & _ & P4 & _).
    apply List.Forall_cons; [|apply List.Forall_cons; [|apply List.Forall_cons; [|apply List.Forall_cons; [|apply List.Forall_nil]]]];
      (split; [|assumption]); try apply keys_now_candidates.
    intros m. cbn [a_cand]. destruct (keys_now_candidates m) as [H1 H2]. split; [by rewrite (reverse_Permutation (keys_now m))|].
    intros k Hk. apply elem_of_reverse. by apply H2. }
  set (P := fun m' => match open here_parse m' (B"/img") with
    | (m1, Ok r) =>
        let qs := (run_sched (concat (replicate 100 [2;0;3;1])) (m1, (fun j => worker_prog here_parse (m_here m1) [r]
            (request_w (a_now j) (a_cand j) mime_ex sniff_ex (B"XX") 4 (a_request j) (a_conds j))) <$> img_js)).2 in
        PropsConc.answers qs =
            (fun j => Some (serve_k (dir_server pack_fs (B"/src/app/img")) mime_ex sniff_ex (B"XX") 4 (a_request j) (a_conds j) (tt, 0)).2) <$> img_js /\
        (fun x => option_map r_code x) <$> PropsConc.answers qs = [Some 200%Z; Some 200%Z; Some 206%Z; Some 304%Z]
    | _ => False
    end).
  assert (HP : packs wit_hdir wit_hdir pack_fs her_ex pack_ds P) by (apply packs_intro; by vm_compute).
  intros gz gunzip Hz. destruct (HP gz gunzip Hz) as (b & m' & H1 & H2 & H3). exists b, m'. split; [done|]. split; [done|].
  unfold P in H3. destruct (open here_parse m' (B"/img")) as [m1 [r|e]]; [|done].
  match goal with |- exists m2 qs, rtc par ?c _ /\ _ => exists (run_sched (concat (replicate 100 [2;0;3;1])) c).1, (run_sched (concat (replicate 100 [2;0;3;1])) c).2;
    split; [rewrite <- surjective_pairing; apply run_sched_par|] end.
  exact H3.
Qed.

(** ** From the sources *)

Section Sources.
  Context (gz : bytes -> bytes) (gunzip : bytes -> res bytes) (parse : resolver).
  Context (hdir hpkg : bytes -> res hinfo) (fs : node) (gosrc : bytes -> bytes -> res source).
  Context (c : hinfo) (rs : list bytes) (mp : bytes) (incs : list bytes).

  (** A source file of the module calls a function of package pkger, other than
      Create and MkdirAll, with the name of the directory [ds]. *)
  Definition calls_for (n : node) (ds : list bytes) (val : bytes) : Prop :=
    exists vs w s k a rest text, source_file gosrc rs n vs w s /\ (k, a :: rest) ∈ all_calls (s_ast s) /\ k <> KCreate /\ k <> KMkdirAll /\
      text_of (s_objs s) a text /\ unquote text = Some val /\
      forall h, hdir (abs_name (rs ++ vs)) = Ok h -> parse h val = Some (Path mp (abs_name ds)).
  (** Nothing in the module has a name that begins with a directory's beside
      it. *)
  Definition apart : Prop :=
    forall p a b i cs, get fs (rs ++ p ++ [a]) = Some (NDir i cs) -> is_Some (get fs (rs ++ p ++ [b])) -> has_prefix b a = true -> b = a.

  (** The whole way: a module whose sources ask for the directory [ds], packed
      with the pkger command, serves [ds] to any number of clients at the same
      time as http.Dir serves it from the module's directory. *)
  Theorem C138_sources_partial n dorder order rg uorder mime sniff boundary bufsize :
    packing gz gunzip parse hdir hpkg fs c rs mp rg uorder -> some_order order -> (forall l, dorder l ≡ₚ l) ->
    project parse hdir hpkg fs gosrc c rs mp incs n -> apart -> 0 < bufsize ->
    exists F, forall fuel b, F <= fuel -> pack_project gz parse hdir hpkg fs gosrc c incs fuel dorder order rg = Ok b ->
      forall ds i cs val name,
        get fs (rs ++ ds) = Some (NDir i cs) -> has_suffix (abs_name (rs ++ ds)) (B".tmp") = false ->
        (forall vs x, get fs (rs ++ ds ++ vs) = Some x -> n_ok (n_meta x) = true) ->
        calls_for n ds val ->
        (forall d, project_decl parse hdir hpkg gosrc c rs incs n d -> is_virtual d = true -> d_value d <> val /\ d_value d <> rel_name ds) ->
        parse c name = Some (Path mp (abs_name ds)) ->
        exists m' m1 r, unmarshal_embed gunzip parse uorder b = Marshal.Done m' /\ open parse m' name = (m1, Ok r) /\
          forall (js : list arrival) m2 qs,
            Forall (fun j => candidates (a_cand j) /\ exists ns, plain_request parse hdir hpkg c mp ds (a_request j) ns) js ->
            rtc par (m1, (fun j => worker_prog parse (m_here m1) [r]
                                     (request_w (a_now j) (a_cand j) mime sniff boundary bufsize (a_request j) (a_conds j))) <$> js) (m2, qs) ->
            (forall i j a, js !! i = Some j -> qs !! i = Some (Ret a) ->
               a = (serve_k (dir_server fs (abs_name (rs ++ ds))) mime sniff boundary bufsize (a_request j) (a_conds j) (tt, 0)).2) /\
            m_files m2 = m_files m1 /\ forall x, x < m_next m1 -> m_heap m2 !! x = m_heap m1 !! x.
  Proof.
    intros Hpk Ho Hdo Hp Hap Hb. pose proof (pg_wf _ _ _ _ _ _ _ _ _ _ _ Hpk) as Hwf.
    pose proof (ad_rs _ _ _ _ _ (pg_addr _ _ _ _ _ _ _ _ _ _ _ Hpk)) as Hrs.
    destruct (project_found parse hdir hpkg fs gosrc c rs mp incs n dorder Hwf Hrs Hp Hdo) as [F HF]. exists F. intros fuel b Hf Hpb.
    destruct (HF fuel Hf) as (dl & E & Hvf & Hds & Hmod & Hecho). unfold pack_project in Hpb. rewrite E in Hpb.
    intros ds i cs val name Hg Htmp Hopen (vs & w & s & k & a & rest & text & Hs & Hc & Hk1 & Hk2 & Ht & Hq & Hpa) Hvirt Hname.
    destruct (sc_calls _ _ _ _ _ _ (pr_scan _ _ _ _ _ _ _ _ _ _ Hp) vs w s (k, a :: rest) Hs Hc) as [d Hd].
    assert (Hpd : project_decl parse hdir hpkg gosrc c rs incs n d). { right. exists vs, w, s, (k, a :: rest). done. }
    pose proof Hd as (Ek & (a' & rest' & text' & Ea & Ht' & Hq') & info & home & Hi & Hpt & Eh & Hhome & Eabs).
    cbn [fst snd] in Ek, Ea. injection Ea as <- <-.
    rewrite (text_of_det _ _ _ _ Ht Ht') in Hq. assert (val = d_value d) as -> by congruence.
    assert (Hv : is_virtual d = false). { unfold is_virtual. rewrite Ek. by destruct k. }
    destruct (pr_decls _ _ _ _ _ _ _ _ _ _ Hp d Hpd Hv) as (ns' & Hpl & Epath & Hflat).
    pose proof Hs as (((cd & Hcd & Hdir) & _) & _ & i' & t' & Hgs & _ & _).
    assert (Hdn : dirname (abs_name (rs ++ vs ++ [w])) = abs_name (rs ++ vs)).
    { assert (Hgood : Forall good_elem (rs ++ vs ++ [w])).
      { apply (wf_get fs (rs ++ vs ++ [w]) (NFile i' t')); [done|]. by rewrite get_app, (pr_get _ _ _ _ _ _ _ _ _ _ Hp). }
      rewrite !Forall_app in Hgood. destruct Hgood as (? & ? & Hw). apply Forall_cons in Hw as [? _].
      rewrite app_assoc, dirname_snoc; [done|by apply Forall_app|done]. }
    assert (Hgood : Forall good_elem ds). { destruct (wf_get _ _ _ Hwf Hg) as [_ H]. by apply Forall_app in H as [_ H]. }
    rewrite Hdn in Hi. rewrite (Hpa info Hi), Epath in Hpt. injection Hpt as Hn.
    assert (ds = ns') as <-. { apply abs_name_inj; [done|apply Hpl|]. unfold abs_name. by f_equal. }
    pose proof (C34_complete_partial parse hdir fs order dl Hwf Ho Hvf Hmod Hecho) as H34. unfold PropsParser.listing in H34.
    pose proof Hpb as Hst. unfold stuff, stuffed in Hst.
    destruct (files parse hdir fs order dl) as [l|] eqn:El; [|done]. clear Hst. destruct H34 as [H34 _].
    assert (Hin : Pack.inside rs l).
    { apply Forall_forall. intros f Hfl.
      destruct (proj1 (H34 (pf_abs f))) as (d' & Hd' & Hr); [apply elem_of_list_fmap; by exists f|].
      destruct Hr as (Hv' & _ & rs' & ns & x & Hpd' & Hgx & Hr). apply Hds in Hd'.
      destruct (pr_decls _ _ _ _ _ _ _ _ _ _ Hp d' Hd' Hv') as (ns2 & Hpl2 & _).
      destruct (placed_unique _ _ _ _ _ Hpd' Hpl2) as [-> ->].
      destruct Hr as [(_ & _ & Ef)|(_ & us & y & Hy & Ef & _)].
      + exists ns2. split; [apply Hpd'|done].
      + exists (ns2 ++ us). split; [|done].
        assert (Hgy : get fs (rs ++ ns2 ++ us) = Some y) by (by rewrite app_assoc, get_app, Hgx).
        destruct (wf_get _ _ _ Hwf Hgy) as [_ Hgd]. by apply Forall_app in Hgd as [_ ?]. }
    assert (Hl : abs_name (rs ++ ds) ∈ pf_abs <$> l).
    { apply H34. exists d. split; [by apply Hds|]. split; [done|]. split.
      { intros [_ (x & Hx & Hxv & Ex)]. apply Hds in Hx. destruct (Hvirt x Hx Hxv) as [Hne _]. done. }
      exists rs, ds, (NDir i cs). split; [done|]. split; [done|]. right. split; [by right|]. exists [], (NDir i cs). split; [done|]. split; [by rewrite app_nil_r|].
      intros v1 v2 Ev (y & Hy & Hyv & Ey). symmetry in Ev. apply app_nil in Ev as [-> ->]. apply Hds in Hy.
      destruct (Hvirt y Hy Hyv) as [_ Hne]. rewrite app_nil_r in Ey. done. }
    apply (C138_served_partial gz gunzip parse hdir hpkg fs c rs mp rg uorder order dl l b mime sniff boundary bufsize ds name Hpk El Hin Hpb); [|done|done].
    split.
    - by eexists _, _.
    - exists ds, [], (NDir i cs). rewrite app_nil_r. split; [done|]. split; [done|]. split; [done|]. split; [exact Htmp|done].
    - intros p a1 b1 rest1 i1 cs1 H1 (nn & uu & x & _ & _ & _ & _ & Hx) Hpre. eapply (Hap p a1 b1); [exact H1| |done].
      replace (rs ++ p ++ b1 :: rest1) with ((rs ++ p ++ [b1]) ++ rest1) in Hx by (by rewrite <- !app_assoc).
      rewrite get_app in Hx. by destruct (get fs (rs ++ p ++ [b1])).
    - exact Hopen.
  Qed.
End Sources.

(** main.go of the example project asks for "/img". *)
Lemma proj_apart : apart proj_fs wit_rs.
Proof.
  intros p a b i cs Ha [x Hb] Hpre. revert Hpre.
  assert (H : forall ws n, get proj_fs (wit_rs ++ ws) = Some n -> forall ws' n', get proj_fs (wit_rs ++ ws') = Some n' ->
    forall p a b, ws = p ++ [a] -> ws' = p ++ [b] -> n_isdir n = true -> has_prefix b a = true -> b = a).
  { clear. set (P2 := fun (ws : list bytes) (n : node) (ws' : list bytes) (n' : node) => forall p a b,
      ws = p ++ [a] -> ws' = p ++ [b] -> n_isdir n = true -> has_prefix b a = true -> b = a).
    apply (proj_all (fun ws n => forall ws' n', get proj_fs (wit_rs ++ ws') = Some n' -> P2 ws n ws' n')). cbn [nodes visited proj_app app].
    repeat (apply List.Forall_cons; [cbn [fst snd];
      match goal with |- forall ws' n', _ -> P2 ?ws ?n _ _ => apply (proj_all (P2 ws n)) end; cbn [nodes visited proj_app app];
      repeat (apply List.Forall_cons; [cbn [fst snd]; intros p a b E1 E2 Hd Hpre; try discriminate Hd|]); try apply List.Forall_nil|]);
      try apply List.Forall_nil.
    all: destruct p as [|p1 [|p2 [|p3 p]]]; cbn in E1, E2; try discriminate E1; try discriminate E2.
    all: injection E1; injection E2; intros; subst; try reflexivity; try (vm_compute in Hpre; discriminate Hpre); try congruence. }
  intros Hpre. by apply (H _ _ Ha _ _ Hb p a b).
Qed.

Example C138_sources_ex :
  apart proj_fs wit_rs /\ get proj_fs (wit_rs ++ [B"img"]) = Some (NDir wit_meta [(B"b.png", NFile wit_meta (B"PNG"))]) /\
  (forall vs x, get proj_fs (wit_rs ++ [B"img"] ++ vs) = Some x -> n_ok (n_meta x) = true) /\
  calls_for here_parse wit_hdir proj_src wit_rs (B"app") proj_app [B"img"] (B"/img") /\
  (forall d, project_decl here_parse wit_hdir wit_hdir proj_src her_ex wit_rs proj_incs proj_app d -> is_virtual d = true ->
     d_value d <> B"/img" /\ d_value d <> rel_name [B"img"]) /\
  forall gz gunzip, (forall x, gunzip (gz x) = Ok x) ->
    packing gz gunzip here_parse wit_hdir wit_hdir proj_fs her_ex wit_rs (B"app") any_range (fun l => l) /\
    project here_parse wit_hdir wit_hdir proj_fs proj_src her_ex wit_rs (B"app") proj_incs proj_app /\
    exists b, pack_project gz here_parse wit_hdir wit_hdir proj_fs proj_src her_ex proj_incs 5 (fun l => l) (fun l => l) any_range = Ok b.
Proof.
  split; [apply proj_apart|]. split; [by vm_compute|]. split.
  { intros vs x. apply (proj_all (fun _ x => n_ok (n_meta x) = true)). cbn [nodes visited proj_app app].
    repeat (apply List.Forall_cons; [by vm_compute|]); apply List.Forall_nil. }
  split.
  { exists [], (B"main.go"), (Src proj_main no_objs), KWalk, (str "/img"), [AOther [src_call "Open" [str "/a.txt"]]], (plain_lit (B"/img")).
    split.
    { split; [split; [by eexists|]|].
      - intros v1 v2 E. symmetry in E. apply app_nil in E as [-> _]. by vm_compute.
      - split; [by vm_compute|]. exists wit_meta, (B"main"). split; [done|]. split; [done|]. by vm_compute. }
    split; [left|]. split; [done|]. split; [done|]. split; [constructor|]. split; [by vm_compute|]. intros h [= <-]. by vm_compute. }
  split.
  { intros d Hd Hv. apply proj_decls in Hd. unfold proj_ds in Hd. rewrite !elem_of_cons, elem_of_nil in Hd.
    destruct Hd as [-> |[-> |[-> |[-> |[]]]]]; discriminate Hv. }
  intros gz gunzip Hz. split; [by apply proj_packing|]. split; [apply proj_project|].
  destruct (C79_ex gz gunzip Hz) as (_ & _ & b & _ & H & _). by exists b.
Qed.
