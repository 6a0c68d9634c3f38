(** Theorems: the embedded file server, the on-disk one and http.Dir give the
    same answers (C95, C100). *)
From Verif Require Import Bytes GoPath Here GoTypes GoNum GoTimeFmt Mem MemSpec MemBase MemFiles MemFiles2 WalkSpec MemWalk MemReaddir
  MemDirs MemDirs2 PropsFiles PropsDirs PropsWalk JsonStr JsonText Embed Marshal MarshalMem PropsEmbed PropsMarshal Disk Decls DeclsProofs PropsParser Pack
  PropsPack DiskOps Std PropsStd PropsDump PropsSame Http HttpProofs HttpRange HttpMem HttpDisk PropsHttp.

(** Two file systems show the same for a name, up to the order in which
    Readdir lists. *)
Definition same_opening (a b : opening) : Prop :=
  match a, b with
  | Missing e, Missing e' => e = e'
  | AFile d data, AFile d' data' => d = d' /\ data = data'
  | ADir d l, ADir d' l' => d_mtime d = d_mtime d' /\ exists l1 l2, l = Some l1 /\ l' = Some l2 /\ list_page l1 = list_page l2
  | _, _ => False
  end.

Lemma dir_answer_same q d d' l l' : d_mtime d = d_mtime d' -> (exists l1 l2, l = Some l1 /\ l' = Some l2 /\ list_page l1 = list_page l2) ->
  dir_answer_of q d l = dir_answer_of q d' l'.
Proof. intros E (l1 & l2 & -> & -> & Hp). unfold dir_answer_of. by rewrite E, Hp. Qed.

Lemma answer_same mime sniff boundary site site' q :
  same_opening (site (clean (url_of q))) (site' (clean (url_of q))) ->
  same_opening (site (trim_slash (clean (url_of q)) ++ index_page)) (site' (trim_slash (clean (url_of q)) ++ index_page)) ->
  answer mime sniff boundary site q = answer mime sniff boundary site' q.
Proof.
  intros H1 H2. unfold answer. f_equal. destruct (has_suffix _ _); [done|].
  destruct (site (clean (url_of q))) as [e|d data|d l], (site' (clean (url_of q))) as [e'|d' data'|d' l']; try done.
  - cbn in H1. by subst.
  - destruct H1 as [-> ->]. done.
  - destruct H1 as [Hm Hl]. destruct (bool_decide _); [|done].
    destruct (site (trim_slash _ ++ _)) as [e|d2 data|d2 l2], (site' (trim_slash _ ++ _)) as [e'|d2' data'|d2' l2']; try done.
    + by apply dir_answer_same.
    + destruct H2 as [-> ->]. done.
    + destruct H2 as [Hm2 Hl2]. by apply dir_answer_same.
Qed.

(** An absolute name that starts with another one lies below it, or a sibling
    of one of its elements starts with that element. *)
Lemma prefix_below ws us : Forall good_elem ws -> Forall good_elem us -> has_prefix (abs_name us) (abs_name ws) = true ->
  (exists vs, us = ws ++ vs) \/
  exists p a b rest more, ws = p ++ a :: more /\ us = p ++ b :: rest /\ has_prefix b a = true /\ a <> b.
Proof.
  intros Hw Hu H. induction ws as [|a ws IH] using rev_ind; [left; by exists us|].
  apply Forall_app in Hw as [Hw Ha]. apply Forall_cons in Ha as [Ha _].
  destruct (IH Hw) as [[vs ->]|(p & x & b & rest & more & -> & -> & Hp & Hx)].
  - eapply has_prefix_trans; [exact H|]. apply abs_name_prefix.
  - destruct vs as [|b vs]; [rewrite app_nil_r in H; by rewrite no_self_prefix in H|].
    apply Forall_app in Hu as [_ Hb]. apply Forall_cons in Hb as [Hb _].
    pose proof (child_prefix ws a b vs Ha Hb H) as Hab. destruct (decide (a = b)) as [->|Hne].
    + left. exists vs. by rewrite <- app_assoc.
    + right. exists ws, a, b, vs, []. done.
  - right. exists p, x, b, rest, (more ++ [a]). by rewrite <- app_assoc.
Qed.

Lemma clean_slash_abs ns : Forall good_elem ns -> clean (slash :: abs_name ns) = abs_name ns.
Proof.
  intros H. rewrite <- (clean_abs ns H) at 2. unfold clean.
  assert (E : clean_elems (slash :: abs_name ns) = clean_elems (abs_name ns)) by done.
  unfold abs_name in *. cbn [is_rooted]. by rewrite E.
Qed.

Lemma get_dir fs ws v : is_Some (get fs (ws ++ [v])) -> exists i cs, get fs ws = Some (NDir i cs).
Proof.
  rewrite get_app. destruct (get fs ws) as [[i d|i cs]|]; intros [x H]; [done|by eexists _, _|done].
Qed.

Section Packed.
  Context (gz : bytes -> bytes) (gunzip : bytes -> res bytes) (parse : resolver).
  Context (hdir hpkg : bytes -> res hinfo) (fs : node).
  Context (c : hinfo) (rs : list bytes) (mp : bytes).

  (** The directory [ds] was packed; nothing that was packed has a sibling
      directory's name as a proper prefix; all of it can be read. *)
  Record packed_dir (L : list bytes) (ds : list bytes) : Prop := {
    pd_dir : exists i cs, get fs (rs ++ ds) = Some (NDir i cs);
    pd_taken : taken fs rs L ds;
    pd_noclash : forall p a b rest i cs, get fs (rs ++ p ++ [a]) = Some (NDir i cs) -> taken fs rs L (p ++ b :: rest) ->
      has_prefix b a = true -> b = a;
    pd_open : forall vs n, get fs (rs ++ ds ++ vs) = Some n -> n_ok (n_meta n) = true
  }.

  Lemma pd_all L ds : packed_dir L ds -> forall vs, is_Some (get fs (rs ++ ds ++ vs)) -> taken fs rs L (ds ++ vs).
  Proof.
    intros H vs [n Hn]. destruct (pd_taken _ _ H) as (ns & us & x & -> & Hl & Hg & Ht & _).
    exists ns, (us ++ vs), n. rewrite <- app_assoc. rewrite <- app_assoc in Hn. done.
  Qed.

  (** The path of the request is clean and resolves in the current package,
      not to the served directory itself. *)
  Record plain_request (ds : list bytes) (q : request) (ns : list bytes) : Prop := {
    pr_clean : clean (url_of q) = abs_name ns;
    pr_good : Forall good_elem ns;
    pr_parse : forall her us, asked hdir hpkg her -> us ∈ [ns; ns ++ [B"index.html"]] ->
      parse her (abs_name us) = Some (Path mp (abs_name us)) /\
      parse c (path_string (Path mp (abs_name (ds ++ us)))) = Some (Path mp (abs_name (ds ++ us))) /\
      (us <> ds \/ ds = [])
  }.

  Lemma named_packed m m' L ds ns i cs :
    packed hdir hpkg fs c rs mp m (taken fs rs L) -> same_store m m' -> addressed parse fs c rs mp -> wf_node fs ->
    packed_dir L ds -> get fs (rs ++ ds ++ ns) = Some (NDir i cs) -> m_here m' = c ->
    named_below parse m' mp (ds ++ ns).
  Proof.
    intros Hpk Hss Had Hwf HPD Hg Hc. pose proof (pd_all _ _ HPD) as Hall. destruct HPD as [Hd _ Hnc Hop].
    set (D := taken fs rs L) in *.
    assert (Hgd : Forall good_elem (ds ++ ns)).
    { destruct (wf_get _ _ _ Hwf Hg) as [_ H]. by apply Forall_app in H as [_ H]. }
    assert (Hent : forall n d, entry_at m' (Path mp n) d -> exists ws x, D ws /\ Forall good_elem ws /\ n = abs_name ws /\
      get fs (rs ++ ws) = Some x /\ d = info_of (base (abs_name (rs ++ ws))) x).
    { intros n d He. destruct (entry_only hdir hpkg fs c rs mp m m' D _ d Hpk Hss He) as (ws & x & H1 & H2 & H3 & H4 & H5).
      injection H3 as ->. by exists ws, x. }
    assert (Hel : forall us d, Forall good_elem us -> entry_at m' (Path mp (abs_name us)) d ->
      exists x, D us /\ get fs (rs ++ us) = Some x /\ d = info_of (base (abs_name (rs ++ us))) x).
    { intros us d Hus He. destruct (Hent _ _ He) as (ws & x & H1 & H2 & H3 & H4). apply abs_name_inj in H3 as <-; [|done|done]. by exists x. }
    assert (Hone : forall v, good_elem v -> Forall good_elem ((ds ++ ns) ++ [v])).
    { intros v Hv. apply Forall_app. split; [done|by constructor]. }
    split.
    - split.
      + intros n d He Hpre. destruct (Hent _ _ He) as (us & x & HD & Hus & -> & Hx & _).
        destruct (prefix_below _ _ Hgd Hus Hpre) as [[vs ->]|(p & a & b & rest & more & E1 & -> & Hab & Hne)].
        { exists vs. apply Forall_app in Hus as [_ Hvs]. done. }
        exfalso. apply Hne. symmetry.
        assert (exists i cs, get fs (rs ++ p ++ [a]) = Some (NDir i cs)) as (i' & cs' & Ha).
        { destruct more as [|y more]; [exists i, cs; by rewrite <- E1|].
          rewrite E1 in Hg. change (p ++ a :: y :: more) with (p ++ [a] ++ [y] ++ more) in Hg.
          rewrite !app_assoc in Hg. rewrite get_app in Hg. destruct (get fs ((((rs ++ p) ++ [a]) ++ [y]))) as [z|] eqn:Ez; [|done].
          destruct (get_dir fs ((rs ++ p) ++ [a]) y) as (i' & cs' & E); [by rewrite Ez|]. exists i', cs'. by rewrite <- app_assoc in E. }
        by eapply Hnc.
      + intros vs v d Hvs Hv Hne He.
        assert (Hgv : Forall good_elem ((ds ++ ns) ++ vs ++ [v])) by (apply Forall_app; split; [done|]; apply Forall_app; split; [done|by constructor]).
        destruct (Hel _ _ Hgv He) as (x & HD & Hx & _).
        rewrite !app_assoc in Hx. destruct (get_dir fs (((rs ++ ds) ++ ns) ++ vs) v) as (i' & cs' & Hdir); [by rewrite Hx|].
        rewrite <- !app_assoc in Hdir. assert (HD' : D (ds ++ ns ++ vs)) by (apply Hall; by rewrite Hdir).
        destruct (entry_same hdir hpkg fs c rs mp m m' D _ Hpk Hss HD') as (n & Hn & _ & He').
        rewrite Hdir in Hn. injection Hn as <-. rewrite <- app_assoc. by eexists.
      + intros v w d d' Hv Hw He Hdd He' Hpre.
        destruct (Hel _ _ (Hone v Hv) He) as (x & HD & Hx & ->).
        destruct (Hel _ _ (Hone w Hw) He') as (x' & HD' & Hx' & ->).
        destruct x as [i1 d1|i1 cs1]; [done|]. by eapply (Hnc (ds ++ ns) v w []).
    - rewrite Hc. by apply (ad_print _ _ _ _ _ Had _ _ Hg).
    - intros [g n] d He Hgg Hpre. cbn [p_pkg p_name] in *. subst g. destruct (Hent _ _ He) as (us & x & HD & Hus & -> & Hx & _).
      rewrite Hc. by apply (ad_print _ _ _ _ _ Had _ _ Hx).
    - intros v d Hv He. destruct (Hel _ _ (Hone v Hv) He) as (x & HD & Hx & ->).
      rewrite app_assoc, base_snoc by done. by destruct x.
  Qed.

  (** Both sites show the same to a plain request. *)
  Lemma same_sites rg uorder order decls l b ds name :
    packing gz gunzip parse hdir hpkg fs c rs mp rg uorder ->
    files parse hdir fs order decls = Ok l -> inside rs l ->
    stuff parse hdir hpkg fs gz rg order c decls = Ok b ->
    packed_dir (pf_abs <$> l) ds ->
    parse c name = Some (Path mp (abs_name ds)) ->
    exists m' m1 r f1, unmarshal_embed gunzip parse uorder b = Done m' /\ open parse m' name = (m1, Ok r) /\ served m1 r f1 mp ds /\
      (f_data f1 = [] /\ f_writer f1 = None /\ f_reader f1 = None) /\ (forall k, is_Some (m_files m1 !! k) -> p_name k <> []) /\
      forall q ns, plain_request ds q ns ->
        same_opening (mem_site parse m1 (efile_of f1) (clean (url_of q))) (disk_site fs (abs_name (rs ++ ds)) (clean (url_of q))) /\
        same_opening (mem_site parse m1 (efile_of f1) (trim_slash (clean (url_of q)) ++ index_page))
          (disk_site fs (abs_name (rs ++ ds)) (trim_slash (clean (url_of q)) ++ index_page)).
  Proof.
    intros Hp Hl Hin Hs HPD Hn.
    destruct (stuff_stuffed gz gunzip parse hdir hpkg fs c rs mp rg uorder order decls b Hp Hs l Hl Hin) as (m & m' & Hpk & Hu & Hw & Hss).
    set (D := taken fs rs (pf_abs <$> l)) in *.
    pose proof (pg_addr _ _ _ _ _ _ _ _ _ _ _ Hp) as Had. pose proof (pg_wf _ _ _ _ _ _ _ _ _ _ _ Hp) as Hwf.
    pose proof (ad_rs _ _ _ _ _ Had) as Hrs.
    pose proof (ss_here _ _ Hss) as Hc. rewrite (pk_here _ _ _ _ _ _ _ _ Hpk) in Hc.
    destruct (pd_dir _ _ HPD) as (i0 & cs0 & Hd0).
    assert (Hds : Forall good_elem ds) by (destruct (wf_get _ _ _ Hwf Hd0) as [_ H]; by apply Forall_app in H as [_ H]).
    (* what is stored *)
    assert (Hst : forall ws, D ws -> exists n fo, get fs (rs ++ ws) = Some n /\ file_at m' (Path mp (abs_name ws)) = Some fo /\
      f_info fo = info_of (base (abs_name (rs ++ ws))) n /\ f_data fo = contents n /\ asked hdir hpkg (f_here fo) /\
      f_path fo = Path mp (abs_name ws)).
    { intros ws HD. destruct (pk_files _ _ _ _ _ _ _ _ Hpk ws HD) as (n & her & _ & Hg & Ha & E). unfold key in E.
      pose proof (ss_files _ _ Hss (Path mp (abs_name ws))) as Es. rewrite E in Es.
      destruct (file_at m' (Path mp (abs_name ws))) as [fo|]; [|done]. cbn in Es. injection Es as E1 E2 E3 E4 E5.
      exists n, fo. rewrite E2. done. }
    assert (HD0 : D ds). { rewrite <- (app_nil_r ds). apply (pd_all _ _ HPD). rewrite app_nil_r, Hd0. done. }
    destruct (Hst ds HD0) as (n0 & f0 & Hg0 & Hf0 & Hi0 & Hda0 & Ha0 & Hpa0).
    assert (n0 = NDir i0 cs0) as -> by congruence.
    set (f1 := FObj (f_here f0) (f_info f0) (f_path f0) (f_data f0) zero_path None None).
    exists m', (alloc m' f1).1, (m_next m'), f1. split; [done|]. split.
    { unfold open, mem_parse. rewrite Hc, Hn, Hf0. cbn [alloc]. rewrite new_file_info_id. done. }
    set (m1 := (alloc m' f1).1).
    assert (Hent1 : forall k, file_at m1 k = file_at m' k) by (intros k; by apply file_at_alloc).
    assert (Hinv : forall k fo, file_at m' k = Some fo -> exists ws, D ws /\ Forall good_elem ws /\ k = Path mp (abs_name ws)).
    { intros k fo Hk. destruct (entry_only hdir hpkg fs c rs mp m m' D k (f_info fo) Hpk Hss) as (ws & n & H1 & H2 & H3 & _).
      - unfold entry_at. by rewrite Hk.
      - by exists ws. }
    assert (SV : served m1 (m_next m') f1 mp ds).
    { split.
      - by apply wf_alloc.
      - intros k fo Hk Hdir. rewrite Hent1 in Hk. destruct (Hinv _ _ Hk) as (ws & HD & _ & ->).
        destruct (Hst ws HD) as (n & fo' & _ & Hk' & E1 & E2 & _). assert (fo' = fo) as -> by congruence. rewrite E1, E2 in *. by destruct n.
      - unfold m1. cbn. by rewrite lookup_insert.
      - done.
      - done.
      - cbn. rewrite Hi0. done.
      - done.
      - done. }
    assert (Hss1 : same_store m m1). { destruct Hss as [S1 S2 S3]. split; [done|done|]. intros pt. by rewrite Hent1. }
    assert (Hc1 : m_here m1 = c) by done.
    split; [done|]. split.
    { cbn. by rewrite Hda0. }
    split.
    { intros k [x Hx] Hk0. destruct (wf_files _ (sv_wf _ _ _ _ _ SV) k x Hx) as [fo Hfo'].
      assert (Hfo : file_at m1 k = Some fo) by (unfold file_at; by rewrite Hx).
      rewrite Hent1 in Hfo. destruct (Hinv _ _ Hfo) as (ws & _ & _ & ->). done. }
    intros q ns [Hcl Hns Hpr].
    (* both sites show the same *)
    assert (Hsite : forall us, Forall good_elem us -> us ∈ [ns; ns ++ [B"index.html"]] ->
      same_opening (mem_site parse m1 (efile_of f1) (abs_name us)) (disk_site fs (abs_name (rs ++ ds)) (abs_name us))).
    { intros us Hus Hin'. destruct (Hpr (f_here f0) us Ha0 Hin') as (P1 & P2 & P3).
      assert (Hmeans : means parse (f_here f1) (m_here m1) mp ds us) by (split; [done|done|done|by rewrite Hc1]).
      assert (Hdisk : disk_site fs (abs_name (rs ++ ds)) (abs_name us) =
        match get fs (rs ++ ds ++ us) with
        | Some n => node_opening (base (abs_name (rs ++ ds ++ us))) n
        | None => Missing FMissing
        end).
      { unfold disk_site. cbv zeta. rewrite clean_slash_abs, clean_join_abs by (done || by apply Forall_app). rewrite <- app_assoc.
        rewrite find_abs by (repeat (apply Forall_app; split; try done)).
        destruct (get fs (rs ++ ds ++ us)) as [n|] eqn:E; [|done]. by rewrite (pd_open _ _ HPD us n E). }
      rewrite Hdisk.
      assert (Hdir : forall i cs e d', get fs (rs ++ ds ++ us) = Some (NDir i cs) -> e_path e = Path mp (abs_name (ds ++ us)) ->
        (e_parent e = zero_path \/ e_parent e = Path mp (abs_name ds)) -> d_mtime d' = n_mtime i ->
        same_opening (ADir d' (listed_at parse m1 e)) (node_opening (base (abs_name (rs ++ ds ++ us))) (NDir i cs))).
      { intros i cs e d' Hg He1 He2 Hmt. cbn [node_opening same_opening]. split; [done|].
        pose proof (named_packed m m1 (pf_abs <$> l) ds us i cs Hpk Hss1 Had Hwf HPD Hg Hc1) as HB.
        destruct (listed_children parse m1 mp (ds ++ us) e) as (ch & Ech & HC).
        - apply SV.
        - by apply Forall_app.
        - done.
        - done.
        - destruct He2 as [?|He2]; [by left|right]. exists ds. split; [done|]. split; [done|]. by exists us.
        - rewrite Ech. eexists _, _. split; [done|]. split; [done|].
          pose proof (children_names m1 mp (ds ++ us) ch (nb_names _ _ _ _ HB) HC) as Hnd.
          destruct (wf_get _ _ _ Hwf Hg) as [Hwd _]. apply wf_dir in Hwd as [HS HF].
          apply list_page_perm; [|done].
          apply NoDup_Permutation.
          + by eapply NoDup_fmap_1.
          + apply (NoDup_fmap_1 d_name). rewrite <- list_fmap_compose.
            assert (Hfst : (d_name ∘ (fun x : bytes * node => info_of x.1 x.2)) <$> cs = cs.*1).
            { apply list_fmap_ext. intros _ [w x] _. by destruct x. }
            rewrite Hfst. clear -HS. induction HS as [|x cs HS IH HF]; [constructor|]. cbn. apply NoDup_cons. split; [|done].
            intros Hx. apply elem_of_list_fmap in Hx as (y & E & Hy). rewrite Forall_forall in HF. specialize (HF _ Hy). cbn beta in HF.
            rewrite E in HF. by rewrite blt_irrefl in HF.
          + intros d. rewrite !elem_of_list_fmap. destruct HC as [_ HC]. split.
            * intros ([k d2] & -> & Hk). apply HC in Hk as (He & v & Hv & ->).
              destruct (entry_only hdir hpkg fs c rs mp m m1 D _ d2 Hpk Hss1 He) as (ws & x & HDx & Hws & Ek & Hx & Ed).
              apply (f_equal p_name) in Ek. cbn [p_name] in Ek.
              apply abs_name_inj in Ek; [|apply Forall_app; split; [by apply Forall_app|by constructor]|done]. subst ws.
              rewrite app_assoc, base_snoc in Ed by done. cbn [snd]. subst d2. exists (v, x). split; [done|].
              rewrite app_assoc, get_app in Hx. rewrite Hg in Hx. cbn [get] in Hx. apply child_elem. by destruct (child v cs).
            * intros ([v x] & -> & Hx). cbn [fst snd].
              assert (Hgx : get fs (rs ++ (ds ++ us) ++ [v]) = Some x).
              { rewrite app_assoc, get_app, Hg. cbn [get]. apply (child_iff v x cs HS) in Hx. by rewrite Hx. }
              assert (HDx : D ((ds ++ us) ++ [v])). { rewrite <- app_assoc. apply (pd_all _ _ HPD). rewrite <- app_assoc in Hgx. by rewrite Hgx. }
              destruct (entry_same hdir hpkg fs c rs mp m m1 D _ Hpk Hss1 HDx) as (x' & Hx' & _ & He).
              assert (x' = x) as -> by congruence.
              rewrite Forall_forall in HF. destruct (HF _ Hx) as [Hv _]. cbn [fst] in Hv.
              rewrite app_assoc, base_snoc in He by done.
              exists (Path mp (abs_name ((ds ++ us) ++ [v])), info_of v x). split; [done|]. apply HC. split; [done|]. by exists v. }
      destruct (decide (us = ds)) as [Eu|Hne].
      - destruct P3 as [?|Ed]; [done|]. rewrite Ed in Eu. subst us.
        rewrite (site_root parse m1 (m_next m') f1 mp ds SV Hmeans Ed).
        rewrite app_nil_r, Hd0. specialize (Hdir i0 cs0 (efile_of f1) (f_info f1)). rewrite app_nil_r in Hdir. apply Hdir; [done|done|by left|].
        cbn. rewrite Hi0. done.
      - rewrite (site_at parse m1 (m_next m') f1 mp ds SV us Hmeans Hne), Hent1.
        destruct (get fs (rs ++ ds ++ us)) as [n|] eqn:Eg.
        + destruct (Hst (ds ++ us)) as (n' & fo & Hg' & Hfo & Hi & Hda & _ & _); [apply (pd_all _ _ HPD); by rewrite Eg|].
          assert (n' = n) as -> by congruence. rewrite Hfo, Hi. destruct n as [i data|i cs].
          * cbn [info_of d_isdir node_opening]. rewrite Hda. done.
          * cbn [info_of d_isdir]. apply Hdir; [done|done|by right|done].
        + destruct (file_at m' (Path mp (abs_name (ds ++ us)))) as [fo|] eqn:Ef; [|done]. exfalso.
          destruct (Hinv _ _ Ef) as (ws & HD & Hws & Ek). apply (f_equal p_name) in Ek. cbn [p_name] in Ek.
          apply abs_name_inj in Ek; [|by apply Forall_app|done]. subst ws.
          destruct (Hst _ HD) as (n & _ & Hn' & _). congruence. }
    rewrite Hcl. split.
    - apply Hsite; [done|by left].
    - rewrite trim_slash_abs by done. apply Hsite; [|by right; left].
      apply Forall_app. split; [done|]. good_elems.
  Qed.

  (** Full claim: "http.FileServer on a directory of the packed pkger answers
      every request, and every sequence of requests, exactly as http.FileServer
      on the same directory of the disk it was packed from (http.Dir)."
      Compare /repo/pkging/pkgtest/http.go:23-60, which asks for one directory.
      Proved for directories [packed_dir] and requests
      whose path resolves in the package ([plain_request]).  Refuted
      otherwise. *)
  Theorem C95_same_partial rg uorder order decls l b now mime sniff boundary bufsize ds name :
    packing gz gunzip parse hdir hpkg fs c rs mp rg uorder ->
    files parse hdir fs order decls = Ok l -> inside rs l ->
    stuff parse hdir hpkg fs gz rg order c decls = Ok b ->
    packed_dir (pf_abs <$> l) ds -> 0 < bufsize ->
    parse c name = Some (Path mp (abs_name ds)) ->
    exists m' m1 r, unmarshal_embed gunzip parse uorder b = Done m' /\ open parse m' name = (m1, Ok r) /\
      forall qs, Forall (fun q => exists ns, plain_request ds q ns) qs ->
        (serve_all (mem_server parse now r) mime sniff boundary bufsize qs m1).2 =
        (serve_all (dir_server fs (abs_name (rs ++ ds))) mime sniff boundary bufsize qs (tt, 0)).2.
  Proof.
    intros Hp Hl Hin Hs HPD Hb Hn.
    destruct (same_sites rg uorder order decls l b ds name Hp Hl Hin Hs HPD Hn) as (m' & m1 & r & f1 & Hu & Ho & SV & _ & _ & Hsame).
    exists m', m1, r. split; [done|]. split; [done|]. intros qs Hqs.
    destruct (mem_server_lawful parse now m1 r f1) as [L1 Hok1]; [apply SV..|].
    destruct (serve_all_answer _ mime sniff boundary bufsize _ _ _ _ _ L1 Hb qs m1 Hok1) as (s1 & E1 & _).
    destruct (serve_all_answer _ mime sniff boundary bufsize _ _ _ _ _ (dir_server_lawful fs (abs_name (rs ++ ds))) Hb qs (tt, 0) I) as (s2 & E2 & _).
    rewrite E1, E2. cbn [snd]. apply list_fmap_ext. intros j q Hq.
    assert (Hq' : exists ns, plain_request ds q ns) by (rewrite Forall_forall in Hqs; eapply Hqs, elem_of_list_lookup_2, Hq).
    destruct Hq' as (ns & Hq'). destruct (Hsame q ns Hq') as [H1 H2]. by apply answer_same.
  Qed.
End Packed.

(** ** The on-disk pkger *)

(** The request's path resolves to the directory's package - File.Open of the
    on-disk pkger joins names and forgets the package (stdos/file.go:47-54) -
    and does not go through a regular file. *)
Definition through_file (fs : node) (ws : list bytes) : Prop :=
  exists us v vs i data, ws = us ++ v :: vs /\ get fs us = Some (NFile i data).
Record plain_request_disk (parse : resolver) (c : hinfo) (mp : bytes) (fs : node) (rs ds : list bytes) (q : request) (ns : list bytes) : Prop := {
  pq_clean : clean (url_of q) = abs_name ns;
  pq_good : Forall good_elem ns;
  pq_parse : forall us, us ∈ [ns; ns ++ [B"index.html"]] ->
    parse c (abs_name (ds ++ us)) = Some (Path mp (abs_name (ds ++ us)));
  pq_dirs : ~ through_file fs (rs ++ ds ++ ns)
}.

Lemma not_a_dir_through ws : forall n, not_a_dir n ws = true -> through_file n ws.
Proof.
  induction ws as [|w ws IH]; intros n; cbn [not_a_dir]; [done|]. destruct n as [i data|i cs].
  - intros _. exists [], w, ws, i, data. done.
  - destruct (child w cs) as [x|] eqn:E; [|done]. intros H. destruct (IH x H) as (us & v & vs & j & data & -> & Hg).
    exists (w :: us), v, vs, j, data. split; [done|]. cbn [get]. by rewrite E.
Qed.

(** Full claim: "http.FileServer on a directory opened with the on-disk pkger
    answers like http.FileServer on http.Dir of that directory."  Proved for
    requests as above; refuted for a path through a regular file (C98). *)
Theorem C95_disk_partial parse hp fs c rs mp mime sniff boundary bufsize s name ds f :
  0 < bufsize -> beside_it c rs mp s -> Forall good_elem rs -> Forall good_elem ds ->
  parse c name = Some (Path mp (abs_name ds)) -> (std_open parse hp fs s name).2 = Ok f ->
  forall qs, Forall (fun q => exists ns, plain_request_disk parse c mp fs rs ds q ns) qs ->
    (serve_all (std_server parse hp fs f) mime sniff boundary bufsize qs (s, 0)).2 =
    (serve_all (dir_server fs (abs_name (rs ++ ds))) mime sniff boundary bufsize qs (tt, 0)).2.
Proof.
  intros Hb [Hh (her & Hi & Hd)] Hrs Hds Hn Hf qs Hqs.
  destruct (serve_all_answer _ mime sniff boundary bufsize _ _ _ _ _ (std_server_lawful parse hp fs s f) Hb qs (s, 0) ltac:(by split)) as (s1 & E1 & _).
  destruct (serve_all_answer _ mime sniff boundary bufsize _ _ _ _ _ (dir_server_lawful fs (abs_name (rs ++ ds))) Hb qs (tt, 0) I) as (s2 & E2 & _).
  rewrite E1, E2. cbn [snd]. apply list_fmap_ext. intros j q Hq.
  assert (Hq' : exists ns, plain_request_disk parse c mp fs rs ds q ns) by (rewrite Forall_forall in Hqs; eapply Hqs, elem_of_list_lookup_2, Hq).
  destruct Hq' as (ns & [Hcl Hns Hpr Hdirs]).
  assert (Hpath : sf_path f = Path mp (abs_name ds)).
  { revert Hf. unfold std_open. rewrite Hh, Hn. cbn [p_pkg p_name]. rewrite Hi. destruct (os_open fs _); [|done]. intros [= <-]. done. }
  assert (Hdisk : forall us, Forall good_elem us -> disk_site fs (abs_name (rs ++ ds)) (abs_name us) =
    match get fs (rs ++ ds ++ us) with
    | Some n => if n_ok (n_meta n) then node_opening (base (abs_name (rs ++ ds ++ us))) n else Missing FDenied
    | None => Missing FMissing
    end).
  { intros us Hus. unfold disk_site. cbv zeta. rewrite clean_slash_abs, clean_join_abs by (done || by apply Forall_app).
    rewrite <- app_assoc, find_abs by (repeat (apply Forall_app; split; try done)). done. }
  assert (Hsite : forall us, Forall good_elem us -> us ∈ [ns; ns ++ [B"index.html"]] ->
    std_site parse hp fs s f (abs_name us) =
    match get fs (rs ++ ds ++ us) with
    | Some n => if n_ok (n_meta n) then node_opening (base (abs_name (rs ++ ds ++ us))) n else Missing FDenied
    | None => Missing (if not_a_dir fs (rs ++ ds ++ us) then FOther else FMissing)
    end).
  { intros us Hus Hin. assert (Hg : Forall good_elem (rs ++ ds ++ us)) by (repeat (apply Forall_app; split; try done)).
    unfold std_site, sfile_open. rewrite Hpath. cbn [p_name].
    rewrite clean_join_abs by done. unfold std_open. rewrite Hh, (Hpr us Hin). cbn [p_pkg p_name]. rewrite Hi, Hd.
    rewrite clean_join_abs by (done || by apply Forall_app). unfold os_open. rewrite (find_abs fs _ Hg).
    destruct (get fs (rs ++ ds ++ us)) as [n|] eqn:Eg.
    - cbn. destruct (n_ok (n_meta n)); cbn [snd std_opening sf_os].
      + by rewrite (find_abs fs _ Hg), Eg.
      + unfold os_ferr. by rewrite (find_abs fs _ Hg), Eg.
    - cbn [snd std_opening]. unfold os_ferr. rewrite (find_abs fs _ Hg), Eg, is_rooted_abs, clean_elems_abs by done. done. }
  assert (Hin1 : Forall good_elem (ns ++ [B"index.html"])) by (apply Forall_app; split; [done|good_elems]).
  assert (Hone : std_site parse hp fs s f (abs_name ns) = disk_site fs (abs_name (rs ++ ds)) (abs_name ns)).
  { rewrite Hsite, Hdisk by (done || by left). destruct (get fs _) as [n|]; [done|].
    destruct (not_a_dir fs (rs ++ ds ++ ns)) eqn:E; [|done]. by apply not_a_dir_through in E. }
  unfold answer. f_equal. destruct (has_suffix _ _); [done|]. rewrite Hcl, Hone, trim_slash_abs by done.
  destruct (disk_site fs (abs_name (rs ++ ds)) (abs_name ns)); [done..|]. destruct (bool_decide _); [|done].
  rewrite Hsite, Hdisk by (done || by right; left). destruct (get fs (rs ++ ds ++ _)) as [n|]; [done|]. done.
Qed.

(** ** C100 *)

(** pkger.Dir(d) - which opens d anew for every file asked for - answers
    like the file server on the directory opened once. *)
Theorem C100_mem parse now mime sniff boundary bufsize m d m1 r f :
  0 < bufsize -> wf m -> open parse m d = (m1, Ok r) -> m_heap m1 !! r = Some f -> d_isdir (f_info f) = true ->
  forall qs, (serve_all (mem_dir_server parse now d) mime sniff boundary bufsize qs m).2 =
    (serve_all (mem_server parse now r) mime sniff boundary bufsize qs m1).2.
Proof.
  intros Hb Hw Ho Hr Hd qs. unfold open in Ho. destruct (mem_parse parse m d) as [K|] eqn:EK; [|done].
  destruct (file_at m K) as [f0|] eqn:Ef; [|done]. rewrite new_file_info_id in Ho.
  set (f1 := FObj (f_here f0) (f_info f0) (f_path f0) (f_data f0) zero_path None None) in *. cbn [alloc] in Ho.
  assert (m1 = (alloc m f1).1) as -> by (by injection Ho). assert (r = m_next m) as -> by (by injection Ho). clear Ho.
  assert (f = f1) as ->.
  { cbn in Hr. rewrite lookup_insert in Hr. by injection Hr. }
  destruct (mem_dir_lawful parse now m d Hw) as [L Hok].
  { intros K' f' [= <-]%(eq_trans (eq_sym EK)) Hf'. rewrite Ef in Hf'. injection Hf' as <-. exact Hd. }
  destruct (mem_server_lawful_sz parse now (alloc m f1).1 (m_next m) f1 (fun _ _ => True)) as [L1 Hok1]; [by apply wf_alloc|done|done|done|done|].
  assert (Hl : forall e, listed_at parse m e = listed_at parse (alloc m f1).1 e).
  { intros e. unfold listed_at.
    rewrite (same_readdir parse (alloc m (FObj (e_here e) (e_info e) (e_path e) (e_data e) (e_parent e) None None)).1
      (alloc (alloc m f1).1 (FObj (e_here e) (e_info e) (e_path e) (e_data e) (e_parent e) None None)).1
      (m_next m) (m_next (alloc m f1).1)
      (FObj (e_here e) (e_info e) (e_path e) (e_data e) (e_parent e) None None)
      (FObj (e_here e) (e_info e) (e_path e) (e_data e) (e_parent e) None None)); [done|..].
    - by apply wf_alloc.
    - by apply wf_alloc, wf_alloc.
    - split; [done|done|]. intros pt. by rewrite !file_at_alloc by (done || by apply wf_alloc).
    - cbn. by rewrite lookup_insert.
    - cbn. by rewrite lookup_insert.
    - done. }
  assert (Hsite : forall n, dir_site parse m d n = mem_site parse (alloc m f1).1 (efile_of f1) n).
  { intros n. unfold dir_site. rewrite EK, Ef. unfold mem_site. cbn [efile_of f1 f_info f_here f_path f_data f_parent e_here e_path e_info].
    destruct (parse _ n) as [pt|]; [|done]. rewrite Hl. destruct (bool_decide _); [done|]. cbv zeta.
    change (mem_parse parse (alloc m f1).1) with (mem_parse parse m). destruct (mem_parse parse m (path_string (Path (p_pkg pt) (join2 (p_name (f_path f0)) (p_name pt))))) as [K'|]; [|done].
    rewrite file_at_alloc by done. destruct (file_at m K') as [x|]; [|done]. by rewrite Hl. }
  apply (lawful_ext _ _ _ _ _ _ _ _ Hsite) in L.
  destruct (serve_all_same _ _ mime sniff boundary bufsize _ _ _ _ _ _ _ _ _ _ _ L L1 Hb qs m _ Hok Hok1) as (s1 & s2 & rs & E1 & E2 & _).
  by rewrite E1, E2.
Qed.

Theorem C100_disk parse hp fs mime sniff boundary bufsize s d f :
  0 < bufsize -> (std_open parse hp fs s d).2 = Ok f ->
  forall qs n k, (serve_all (std_dir_server parse hp fs d) mime sniff boundary bufsize qs (s, n)).2 =
    (serve_all (std_server parse hp fs f) mime sniff boundary bufsize qs (s, k)).2.
Proof.
  intros Hb Ho qs n k.
  destruct (serve_all_answer _ mime sniff boundary bufsize _ _ _ _ _ (std_dir_lawful parse hp fs s d) Hb qs (s, n) ltac:(by split)) as (s1 & E1 & _).
  destruct (serve_all_answer _ mime sniff boundary bufsize _ _ _ _ _ (std_server_lawful parse hp fs s f) Hb qs (s, k) ltac:(by split)) as (s2 & E2 & _).
  rewrite E1, E2. cbn [snd]. apply list_fmap_ext. intros _ q _. unfold answer, std_dir_site. by rewrite Ho.
Qed.

(** ** Concrete cases *)

(** The directory /img of the module of C39_ex, packed because of
    pkger.Walk("/img"). *)
Definition img_qs : list request :=
  [get_of (B"/b.png"); get_of (B"/"); get_of (B"/nope"); Request false (B"/b.png") [] (B"bytes=1-") None; get_of (B"/b.png/")].

Definition img_l : list pfile :=
  [PFile (B"/src/app/a.txt") (Path (B"app") (B"/a.txt")) her_ex;
   PFile (B"/src/app/img") (Path (B"app") (B"/img")) her_ex;
   PFile (B"/src/app/img/b.png") (Path (B"app") (B"/img/b.png")) her_ex].

Lemma img_packed_dir : packed_dir pack_fs wit_rs (pf_abs <$> img_l) [B"img"].
Proof.
  split.
  - by eexists _, _.
  - eexists [B"img"], [], _. split; [done|]. split; [right; left|]. split; [good_elems|]. by split.
  - intros p a b rest i cs Hd (ns & us & n & _ & _ & _ & _ & Hn) Hpre.
    assert (H1 : p ++ [a] = [] \/ p ++ [a] = [B"img"]).
    { apply (pack_all (fun ws n => match n with NDir _ _ => ws = [] \/ ws = [B"img"] | _ => True end)) in Hd; [done|].
      cbn [nodes visited pack_app]. repeat (apply List.Forall_cons; [cbn; tauto|]). apply List.Forall_nil. }
    destruct H1 as [H1|H1]; [by destruct p|].
    destruct p as [|x [|y p]]; [|done|by destruct p]. injection H1 as ->.
    assert (H2 : match (b :: rest) with [] => True | w :: _ => w = B"a.txt" \/ w = B"img" \/ w = B"main.go" end).
    { apply (pack_all (fun ws n => match ws with [] => True | w :: _ => w = B"a.txt" \/ w = B"img" \/ w = B"main.go" end)) in Hn; [exact Hn|].
      cbn [nodes visited pack_app]. repeat (apply List.Forall_cons; [cbn; tauto|]). apply List.Forall_nil. }
    destruct H2 as [-> | [-> | ->]]; [by vm_compute in Hpre|done|by vm_compute in Hpre].
  - intros vs n Hn. apply (pack_all (fun ws n => n_ok (n_meta n) = true)) in Hn; [done|].
    cbn [nodes visited pack_app]. repeat (apply List.Forall_cons; [done|]). apply List.Forall_nil.
Qed.

Lemma img_asked her : asked wit_hdir wit_hdir her -> her = her_ex.
Proof. intros [p [H|H]]; by injection H. Qed.

Lemma img_plain : Forall (fun q => exists ns, plain_request here_parse wit_hdir wit_hdir her_ex (B"app") [B"img"] q ns) img_qs.
Proof.
  assert (H : forall q ns, clean (url_of q) = abs_name ns -> Forall good_elem ns ->
    Forall (fun us => bool_decide (here_parse her_ex (abs_name us) = Some (Path (B"app") (abs_name us)) /\
      here_parse her_ex (path_string (Path (B"app") (abs_name ([B"img"] ++ us)))) = Some (Path (B"app") (abs_name ([B"img"] ++ us))) /\
      us <> [B"img"]) = true) [ns; ns ++ [B"index.html"]] ->
    plain_request here_parse wit_hdir wit_hdir her_ex (B"app") [B"img"] q ns).
  { intros q ns H1 H2 H3. split; [done|done|]. intros her us Ha Hus. rewrite (img_asked _ Ha). rewrite Forall_forall in H3.
    specialize (H3 us Hus). apply bool_decide_eq_true in H3 as (H3 & H4 & H5). split; [done|]. split; [done|by left]. }
  repeat (apply List.Forall_cons); [..|apply List.Forall_nil].
  1: exists [B"b.png"]. 2: exists []. 3: exists [B"nope"]. 4: exists [B"b.png"]. 5: exists [B"b.png"].
  all: apply H; [by vm_compute|good_elems|repeat (apply List.Forall_cons; [by vm_compute|]); apply List.Forall_nil].
Qed.

Example C95_ex :
  files here_parse wit_hdir pack_fs (fun l => l) pack_ds = Ok img_l /\
  packed_dir pack_fs wit_rs (pf_abs <$> img_l) [B"img"] /\
  Forall (fun q => exists ns, plain_request here_parse wit_hdir wit_hdir her_ex (B"app") [B"img"] q ns) img_qs /\
  (r_code <$> (serve_all (dir_server pack_fs (B"/src/app/img")) mime_ex sniff_ex (B"XX") 4 img_qs (tt, 0)).2 =
     [200%Z; 200%Z; 404%Z; 206%Z; 301%Z]) /\
  packs wit_hdir wit_hdir pack_fs her_ex pack_ds (fun m' =>
    match open here_parse m' (B"/img") with
    | (m1, Ok r) =>
        (serve_all (mem_server here_parse t0 r) mime_ex sniff_ex (B"XX") 4 img_qs m1).2 =
        (serve_all (dir_server pack_fs (B"/src/app/img")) mime_ex sniff_ex (B"XX") 4 img_qs (tt, 0)).2
    | _ => False
    end).
Proof.
  split; [by vm_compute|]. split; [apply img_packed_dir|]. split; [apply img_plain|]. split; [by vm_compute|].
  apply packs_intro. by vm_compute.
Qed.

(** A directory beside an entry whose name continues its own is left out of
    the page: the embedded page has one link less (C21). *)
Definition clash_fs : node :=
  wit_app [(B"w", NDir wit_meta [(B"foo", NDir wit_meta []); (B"foo-bar", wit_file)])].
Theorem C95_clash_refuted :
  exists fs ds q, wf_node fs /\
    packs wit_hdir wit_hdir fs her_ex ds (fun m' =>
      match open here_parse m' (B"/w") with
      | (m1, Ok r) =>
          r_body (serve (mem_server here_parse t0 r) mime_ex sniff_ex (B"XX") 4 q m1).2 = page_text [(B"foo", true)] /\
          r_body (serve (dir_server fs (B"/src/app/w")) mime_ex sniff_ex (B"XX") 4 q (tt, 0)).2 =
            page_text [(B"foo", true); (B"foo-bar", false)]
      | _ => False
      end).
Proof.
  exists clash_fs, [wit_decl KWalk (B"/w") [B"w"]], (get_of (B"/")). split; [wf_tac|]. apply packs_intro. by vm_compute.
Qed.

(** For a directory of another package see C49_refuted. *)
Example C95_disk_ex :
  beside_it her_ex wit_rs (B"app") (std_new her_ex) /\
  Forall (fun q => exists ns, plain_request_disk here_parse her_ex (B"app") pack_fs wit_rs [B"img"] q ns)
    [get_of (B"/b.png"); get_of (B"/"); get_of (B"/nope/x")].
Proof.
  split; [apply app_beside|].
  assert (Hn : forall ws, not_a_dir pack_fs ws = false -> ~ through_file pack_fs ws).
  { intros ws H (us & v & vs & i & data & -> & Hg). revert H Hg. generalize pack_fs. induction us as [|u us IH]; intros n H Hg.
    - cbn in Hg. injection Hg as ->. done.
    - cbn [app not_a_dir] in H. cbn [get] in Hg. destruct n as [j d|j cs]; [done|]. destruct (child u cs) as [x|]; [|done]. by apply (IH x). }
  repeat (apply List.Forall_cons); [..|apply List.Forall_nil].
  1: exists [B"b.png"]. 2: exists []. 3: exists [B"nope"; B"x"].
  all: split; [by vm_compute|good_elems| |apply Hn; by vm_compute].
  all: intros us Hus; repeat (apply elem_of_cons in Hus as [-> | Hus]; [by vm_compute|]); by apply elem_of_nil in Hus.
Qed.

Example C100_ex :
  served hsite 13 hroot (B"app") [B"pub"] /\
  (let '(m1, r) := open here_parse hsite (B"/pub") in
   r = Ok 14 /\
   (serve_all (mem_dir_server here_parse t0 (B"/pub")) mime_ex sniff_ex (B"XX") 4 [get_of (B"/a.txt"); get_of (B"/img/")] hsite).2 =
   (serve_all (mem_server here_parse t0 14) mime_ex sniff_ex (B"XX") 4 [get_of (B"/a.txt"); get_of (B"/img/")] m1).2).
Proof. split; [apply hsite_served|]. by vm_compute. Qed.
