(** Theorems: listing a directory on disk, and in memory after the same program
    (C125, C126). *)
From Verif Require Import Bytes GoPath Here GoTypes Mem MemSpec MemBase MemFiles MemDirs MemDirs2 WalkSpec MemWalk MemReaddir JsonStr JsonText Embed
  Marshal MarshalMem PropsEmbed PropsMarshal Disk Decls DeclsProofs PropsParser Pack PropsPack DiskOps Std PropsStd PropsDump PropsSame Both PropsBoth.

(** ** C125: an open directory lists the same in memory and on disk *)

(** The children of [ns] in a tree, each once: name, kind, and size of a file. *)
Definition lists (names : list bytes -> Prop) (T : tree) (ns : list bytes) (l : list (bytes * bool * option Z)) : Prop :=
  NoDup (fst <$> (fst <$> l)) /\
  forall b, b ∈ l <-> exists v e, names (ns ++ [v]) /\ T (ns ++ [v]) = Some e /\ b = entry_brief (ns ++ [v]) e.

(** Opening a directory and reading all of it.  No name may only begin with the
    text of the directory's, nor a child's with that of a sub-directory. *)
Theorem C125_partial parse c rs mp names foreign hp T m fs s ns :
  setting parse c rs mp names -> mem_shows c mp names foreign m T -> keyed m -> disk_shows rs names fs T -> beside_it c rs mp s ->
  mp <> [] -> (forall vs, names vs -> parse c (mp ++ colon :: abs_name vs) = Some (Path mp (abs_name vs))) ->
  names ns -> T ns = Some EDir ->
  (forall vs, names vs -> is_Some (T vs) -> has_prefix (abs_name vs) (abs_name ns) = true -> ns `prefix_of` vs) ->
  (forall x, foreign x -> has_prefix x (abs_name ns) = false) ->
  (forall v w, names (ns ++ [v]) -> names (ns ++ [w]) -> T (ns ++ [v]) = Some EDir -> is_Some (T (ns ++ [w])) -> has_prefix w v = true -> w = v) ->
  exists m1 h in_mem f on_disk,
    open parse m (abs_name ns) = (m1, Ok h) /\ readdir parse m1 h 0 = (in_mem, None) /\
    std_open parse hp fs s (abs_name ns) = (s, Ok f) /\ (sfile_readdir fs f 0).2 = (on_disk, None) /\
    lists names T ns (brief <$> on_disk) /\ lists names T ns (brief <$> in_mem) /\
    brief <$> in_mem ≡ₚ brief <$> on_disk.
Proof.
  intros HS Hm Hk Hd [Hh (her & Hinfo & Hdir)] Hmp0 Hpk Hns HT Hsep Hfor Hclash.
  pose proof (st_rs _ _ _ _ _ HS) as Hrs. destruct (st_good _ _ _ _ _ HS ns Hns) as [Hnsn Hnsg].
  pose proof (ds_wf _ _ _ _ Hd) as Hwf. pose proof (ms_wf _ _ _ _ _ _ Hm) as Hw.
  assert (Hpa : forall vs, path_string (Path mp (abs_name vs)) = mp ++ colon :: abs_name vs).
  { intros vs. unfold path_string. cbn. by destruct mp. }
  (* the disk *)
  pose proof (ds_at _ _ _ _ Hd ns Hns) as Hdn. rewrite HT in Hdn. destruct Hdn as (i & cs & Hg & Hok).
  destruct (wf_get _ _ _ Hwf Hg) as [Hwn _].
  assert (Hdch : forall v x, child v cs = Some x -> names (ns ++ [v]) /\ exists e, T (ns ++ [v]) = Some e /\ brief (info_of v x) = entry_brief (ns ++ [v]) e).
  { intros v x Hx.
    assert (Hgx : get fs (rs ++ ns ++ [v]) = Some x) by (rewrite app_assoc, get_app, Hg; cbn [get]; by rewrite Hx).
    assert (Hn : names (ns ++ [v])) by (eapply ds_only; [exact Hd|done|by eexists]). split; [done|].
    pose proof (ds_at _ _ _ _ Hd _ Hn) as E. rewrite Hgx in E. destruct (T (ns ++ [v])) as [[|b]|]; [| |done]; eexists; (split; [done|]);
      unfold entry_brief; rewrite last_snoc.
    - destruct E as (j & ds & E & _). by injection E as ->.
    - destruct E as (j & E & _). by injection E as ->. }
  assert (Hdl : lists names T ns (brief <$> ((fun x : bytes * node => info_of x.1 x.2) <$> cs))).
  { apply wf_dir in Hwn as [HSo _]. rewrite <- list_fmap_compose. split.
    - rewrite <- !list_fmap_compose. clear -HSo. induction HSo as [|x l HS IH HF]; [constructor|]. cbn. apply NoDup_cons. split; [|done].
      intros Hx. apply elem_of_list_fmap in Hx as (y & E & Hy). destruct x as [v x], y as [w y]. cbn in E. rewrite Forall_forall in HF.
      specialize (HF _ Hy). cbn in HF. assert (v = w) as -> by (by destruct x, y). by rewrite blt_irrefl in HF.
    - intros b. rewrite elem_of_list_fmap. split.
      + intros ([v x] & -> & Hx). apply (child_iff v x cs HSo) in Hx. destruct (Hdch v x Hx) as (Hn & e & He & Hb).
        exists v, e. cbn [compose fst snd]. by rewrite Hb.
      + intros (v & e & Hn & He & ->). pose proof (ds_at _ _ _ _ Hd _ Hn) as E. rewrite He in E.
        assert (exists x, child v cs = Some x) as [x Hx].
        { rewrite app_assoc, get_app, Hg in E. cbn [get] in E. destruct (child v cs); [by eexists|]. by destruct e; [destruct E as (?&?&?&?)|destruct E as (?&?&?)]. }
        exists (v, x). cbn [compose fst snd]. destruct (Hdch v x Hx) as (_ & e' & He' & Hb). rewrite Hb. assert (e' = e) as -> by congruence.
        split; [done|]. by apply child_iff. }
  assert (Hso : exists f, std_open parse hp fs s (abs_name ns) = (s, Ok f) /\ sf_os f = abs_name (rs ++ ns) /\ sf_pos f = 0).
  { unfold std_open. rewrite Hh, (st_parse _ _ _ _ _ HS ns Hns). cbn [p_pkg p_name]. rewrite Hinfo, Hdir, clean_join_abs by done.
    unfold os_open. rewrite find_abs by (by apply Forall_app). rewrite Hg. cbn [n_meta]. rewrite Hok. eexists. split; [done|]. done. }
  destruct Hso as (f & Hso & Hfo & Hfp).
  assert (Hsr : (sfile_readdir fs f 0).2 = ((fun x : bytes * node => info_of x.1 x.2) <$> cs, None)).
  { unfold sfile_readdir. rewrite Hfo, find_abs by (by apply Forall_app). rewrite Hg, Hfp. done. }
  (* memory *)
  pose proof (ms_at _ _ _ _ _ _ Hm ns Hns) as Hmn. rewrite HT in Hmn. destruct Hmn as (fo & Hfo' & _).
  destruct (open parse m (abs_name ns)) as [m1 [h|e]] eqn:Eo.
  2:{ exfalso. unfold open, mem_parse in Eo. rewrite (ms_here _ _ _ _ _ _ Hm), (st_parse _ _ _ _ _ HS ns Hns), Hfo' in Eo. done. }
  destruct (open_ok _ _ _ _ _ Eo) as (pt & fo2 & Hpt & Hfat & Eh & Hheap).
  rewrite (ms_here _ _ _ _ _ _ Hm), (st_parse _ _ _ _ _ HS ns Hns) in Hpt. injection Hpt as <-.
  assert (Hfp2 : f_path fo2 = Path mp (abs_name ns)) by (by apply Hk).
  assert (Hw1 : wf m1 /\ m_here m1 = c /\ forall k, file_at m1 k = file_at m k).
  { unfold open, mem_parse in Eo. rewrite (ms_here _ _ _ _ _ _ Hm), (st_parse _ _ _ _ _ HS ns Hns), Hfo' in Eo.
    set (nf := FObj _ _ _ _ _ _ _) in Eo. destruct (alloc m nf) as [m2 r2] eqn:Ea. injection Eo as <- <-.
    assert (m2 = (alloc m nf).1) as -> by (by rewrite Ea). split; [by apply wf_alloc|]. split; [apply (ms_here _ _ _ _ _ _ Hm)|].
    intros k. by rewrite file_at_alloc. }
  destruct Hw1 as (Hw1 & Hh1 & Hfat1).
  assert (Hent : forall k d, entry_at m1 k d <-> entry_at m k d) by (intros k d; unfold entry_at; by rewrite Hfat1).
  assert (Hat : forall vs e d, names vs -> T vs = Some e -> entry_at m (Path mp (abs_name vs)) d -> brief d = entry_brief vs e).
  { intros vs e d Hn He Hed. pose proof (ms_at _ _ _ _ _ _ Hm vs Hn) as E. rewrite He in E. unfold entry_at in Hed.
    destruct e as [|b]; [destruct E as (g & Ef & E1 & E2)|destruct E as (g & Ef & E1 & E2 & E3 & _)]; rewrite Ef in Hed; injection Hed as <-;
      unfold brief; rewrite E1, E2; [done|by rewrite E3]. }
  assert (Hex : forall vs, names vs -> (exists d, entry_at m (Path mp (abs_name vs)) d) <-> is_Some (T vs)).
  { intros vs Hn. pose proof (ms_at _ _ _ _ _ _ Hm vs Hn) as E. unfold entry_at. destruct (T vs) as [[|b]|].
    - destruct E as (g & -> & _). split; [by eexists|]. intros _. by eexists.
    - destruct E as (g & -> & _). split; [by eexists|]. intros _. by eexists.
    - rewrite E. split; [by intros [d ?]|by intros [? ?]]. }
  assert (Hname : forall k d, entry_at m (Path mp k) d -> has_prefix k (abs_name ns) = true ->
    exists vs, names (ns ++ vs) /\ k = abs_name (ns ++ vs) /\ is_Some (T (ns ++ vs))).
  { intros k d He Hpre. assert (Hs : is_Some (file_at m (Path mp k))) by (unfold entry_at in He; destruct (file_at m (Path mp k)); [by eexists|done]).
    destruct (ms_only _ _ _ _ _ _ Hm k Hs) as [->|[(ws & Hn & ->)|Hf]].
    + exfalso. destruct ns as [|u us]; [done|]. apply has_prefix_length in Hpre. apply List.Forall_cons_iff in Hnsg as [(Hu & _) _].
      destruct u as [|a u]; [done|]. unfold abs_name in Hpre. destruct us; cbn in Hpre; lia.
    + assert (HTe : is_Some (T ws)) by (apply Hex; [done|by eexists]).
      destruct (Hsep ws Hn HTe Hpre) as [vs ->]. by exists vs.
    + by rewrite (Hfor _ Hf) in Hpre. }
  destruct (readdir_children parse m1 h _ mp ns Hw1 Hheap Hfp2 Hnsg) as (chs & Hrd & HchS & Hch).
  { cbn [f_path]. rewrite Hfp2, Hpa, Hh1. by apply Hpk. }
  { split.
    - intros k d He Hpre. apply Hent in He. destruct (Hname k d He Hpre) as (vs & Hn & -> & _). exists vs. split; [|done].
      destruct (st_good _ _ _ _ _ HS _ Hn) as [_ Hgd]. by apply Forall_app in Hgd as [_ ?].
    - intros vs v d Hvs Hv Hvn He. apply Hent in He.
      destruct (Hname _ d He) as (us & Hn & E & HTs); [apply abs_name_prefix|].
      assert (Hus : us = vs ++ [v]).
      { destruct (st_good _ _ _ _ _ HS _ Hn) as [_ Hgd]. apply abs_name_inj in E; [by apply app_inv_head in E| |done].
        apply Forall_app. split; [done|]. apply Forall_app. split; [done|]. by apply Forall_singleton. }
      subst us. assert (Hn' : names (ns ++ vs)).
      { eapply (st_up _ _ _ _ _ HS); [exact Hn| |by destruct ns]. exists [v]. by rewrite app_assoc. }
      pose proof (ds_at _ _ _ _ Hd _ Hn) as E1. pose proof (ds_at _ _ _ _ Hd _ Hn') as E2.
      assert (HD : T (ns ++ vs) = Some EDir).
      { destruct HTs as [e He']. rewrite He' in E1.
        assert (exists x, get fs (rs ++ ns ++ vs ++ [v]) = Some x) as [x Hx]
          by (destruct e; [destruct E1 as (j & ds & E1 & _)|destruct E1 as (j & E1 & _)]; by eexists).
        assert (Hx' : get fs ((rs ++ ns ++ vs) ++ [v]) = Some x) by (rewrite <- Hx; f_equal; by rewrite <- !app_assoc).
        rewrite get_snoc in Hx'. destruct (get fs (rs ++ ns ++ vs)) as [[j b|j ds]|] eqn:E3; [done| |done].
        destruct (T (ns ++ vs)) as [[|b]|]; [done| |done]. destruct E2 as (j' & E2 & _). done. }
      pose proof (ms_at _ _ _ _ _ _ Hm _ Hn') as E3. rewrite HD in E3. destruct E3 as (g & Eg & Hgd & _).
      exists (f_info g). split; [|done]. apply Hent. unfold entry_at. by rewrite Eg.
    - intros v w d d' Hv Hw' He Hdd He' Hpre. apply Hent in He, He'.
      destruct (Hname _ d He) as (us & Hn & E & HTs); [apply abs_name_prefix|].
      destruct (Hname _ d' He') as (us' & Hn' & E' & HTs'); [apply abs_name_prefix|].
      apply abs_name_inj in E; [|apply Forall_app; split; [done|by apply Forall_singleton]|by destruct (st_good _ _ _ _ _ HS _ Hn)].
      apply abs_name_inj in E'; [|apply Forall_app; split; [done|by apply Forall_singleton]|by destruct (st_good _ _ _ _ _ HS _ Hn')].
      apply app_inv_head in E, E'. subst us us'. apply Hclash; try done.
      destruct HTs as [e Hee]. pose proof (Hat _ _ _ Hn Hee He) as Hb. unfold brief in Hb. rewrite Hdd in Hb. by destruct e. }
  { intros [g k] d He Hgk Hpre. cbn [f_path f_parent p_pkg p_name] in *. rewrite Hfp2 in Hgk, Hpre. cbn [p_pkg p_name] in Hgk, Hpre. subst g.
    apply Hent in He. destruct (Hname k d He Hpre) as (vs & Hn & -> & _). split; [rewrite Hpa, Hh1; by apply Hpk|]. right. done. }
  assert (Hml : lists names T ns (brief <$> (snd <$> chs))).
  { assert (Hel : forall k d, (k, d) ∈ chs <-> exists v e, names (ns ++ [v]) /\ T (ns ++ [v]) = Some e /\ k = Path mp (abs_name (ns ++ [v])) /\
      entry_at m k d /\ brief d = entry_brief (ns ++ [v]) e).
    { intros k d. rewrite Hch, Hent. split.
      - intros (He & v & Hv & ->). destruct (Hname _ d He) as (us & Hn & E & [e Hee]); [apply abs_name_prefix|].
        apply abs_name_inj in E; [|apply Forall_app; split; [done|by apply Forall_singleton]|by destruct (st_good _ _ _ _ _ HS _ Hn)].
        apply app_inv_head in E. subst us. exists v, e. split_and!; try done. by apply Hat.
      - intros (v & e & Hn & He & -> & Hed & _). split; [done|]. exists v. split; [|done].
        destruct (st_good _ _ _ _ _ HS _ Hn) as [_ Hgd]. apply Forall_app in Hgd as [_ Hgd]. by apply List.Forall_cons_iff in Hgd as [? _]. }
    rewrite <- list_fmap_compose. split.
    - rewrite <- !list_fmap_compose. clear -HchS Hel. assert (Hin : forall x, x ∈ chs -> exists v e, x.1 = Path mp (abs_name (ns ++ [v])) /\ brief x.2 = entry_brief (ns ++ [v]) e).
      { intros [k d] Hx. apply Hel in Hx as (v & e & _ & _ & -> & _ & Hb). by exists v, e. }
      clear Hel. induction HchS as [|x l HS IH HF]; [constructor|]. cbn. apply NoDup_cons. split; [|apply IH; intros y Hy; apply Hin; by right].
      intros Hx. apply elem_of_list_fmap in Hx as (y & E & Hy). rewrite Forall_forall in HF. specialize (HF _ Hy). cbn in HF.
      destruct (Hin x) as (v & e & E1 & E2); [by left|]. destruct (Hin y) as (v' & e' & E1' & E2'); [by right|].
      assert (E' : (brief x.2).1.1 = (brief y.2).1.1) by exact E. rewrite E2, E2' in E'. assert (v = v') as ->.
      { unfold entry_brief in E'. rewrite !last_snoc in E'. by destruct e, e'. }
      rewrite E1, E1' in HF. by rewrite blt_irrefl in HF.
    - intros b. rewrite elem_of_list_fmap. split.
      + intros ([k d] & -> & Hx). apply Hel in Hx as (v & e & Hn & He & -> & _ & Hb). exists v, e. cbn [compose snd]. by rewrite Hb.
      + intros (v & e & Hn & He & ->). destruct (proj2 (Hex _ Hn) (mk_is_Some _ _ He)) as [d Hed].
        exists (Path mp (abs_name (ns ++ [v])), d). cbn [compose snd]. rewrite (Hat _ _ _ Hn He Hed). split; [done|].
        apply Hel. exists v, e. split_and!; try done. by apply Hat. }
  exists m1, h, (snd <$> chs), f, ((fun x : bytes * node => info_of x.1 x.2) <$> cs). split_and!; try done.
  destruct Hdl as [N1 E1], Hml as [N2 E2]. apply NoDup_Permutation.
  - by do 2 eapply NoDup_fmap_1.
  - by do 2 eapply NoDup_fmap_1.
  - intros b. by rewrite E1, E2.
Qed.

(** After a program that started with nothing, with the recalled resolver. *)
Lemma mem_run_steps (P : mem -> Prop) parse now l m : (forall m c, P m -> P (step parse m c).1) -> P m -> P (mem_run parse now m l).1.
Proof.
  intros Hst. revert m. induction l as [|a l IH]; intros m Hb; [done|]. cbn [mem_run].
  assert (H : P (mem_do parse now m a).1).
  { destruct a as [ns bs|ns|ns|ns|ns sizes|ns]; cbn [mem_do].
    - pose proof (Hst m (now, OCreate (abs_name ns)) Hb) as H1. cbn [step] in H1. destruct (create parse now m (abs_name ns)) as [m1 [h|e]]; [|done].
      cbn [fst] in H1. assert (H2 : P (mem_writes m1 h bs).1).
      { clear -H1 Hst now. revert m1 H1. induction bs as [|b bs IH]; intros m1 H1; [done|]. cbn [mem_writes].
        pose proof (Hst m1 (now, OWrite h b) H1) as H2. cbn [step] in H2. destruct (file_write m1 h b) as [m2 [k e]]. destruct e; [done|]. by apply IH. }
      destruct (mem_writes m1 h bs) as [m2 ok]. pose proof (Hst m2 (now, OClose h) H2) as H3. cbn [step] in H3. by destruct (file_close now m2 h).
    - pose proof (Hst m (now, OMkdirAll (abs_name ns) 493) Hb) as H1. cbn [step] in H1. by destruct (mkdir_all parse _ now m (abs_name ns) 493).
    - pose proof (Hst m (now, ORemove (abs_name ns)) Hb) as H1. cbn [step] in H1. by destruct (remove parse m (abs_name ns)).
    - pose proof (Hst m (now, ORemoveAll (abs_name ns)) Hb) as H1. cbn [step] in H1. by destruct (remove_all parse m (abs_name ns)).
    - pose proof (Hst m (now, OOpen (abs_name ns)) Hb) as H1. cbn [step] in H1. by destruct (open parse m (abs_name ns)) as [m1 [h|e]].
    - done. }
  destruct (mem_do parse now m a) as [m1 x]. specialize (IH m1 H). by destruct (mem_run parse now m1 l).
Qed.
Lemma mem_run_built parse now l m : built parse m -> built parse (mem_run parse now m l).1.
Proof. apply mem_run_steps. intros m' c. apply built_step. Qed.

Theorem C125_fresh_partial (c : hinfo) (rs : list bytes) (top : bytes -> Prop) (nm : meta) (hp : bytes -> res hinfo) (now : gotime) (l : list act) (fs : node) (ns : list bytes) :
  let T := (plan_run (fun _ => None) l).1 in
  rs <> [] -> Forall plain_elem rs -> h_dir c = abs_name rs -> plain_pkg (h_mpath c) -> h_import c = h_mpath c ->
  wf_node fs -> (exists i cs, get fs rs = Some (NDir i cs)) -> (forall t, top t -> get fs (rs ++ [t]) = None) -> n_ok nm = true ->
  Forall (fun a => usable c top (act_name a)) l -> calm_run (fun _ => None) l ->
  usable c top ns -> T ns = Some EDir ->
  (forall vs, usable c top vs -> is_Some (T vs) -> has_prefix (abs_name vs) (abs_name ns) = true -> ns `prefix_of` vs) ->
  (forall v w, usable c top (ns ++ [v]) -> usable c top (ns ++ [w]) -> T (ns ++ [v]) = Some EDir -> is_Some (T (ns ++ [w])) ->
     has_prefix w v = true -> w = v) ->
  let m := (mem_run here_parse now (mem_new c) l).1 in let fs' := (disk_run here_parse nm hp fs (std_new c) l).1.1 in
  exists m1 h in_mem f on_disk,
    open here_parse m (abs_name ns) = (m1, Ok h) /\ readdir here_parse m1 h 0 = (in_mem, None) /\
    std_open here_parse hp fs' (std_new c) (abs_name ns) = (std_new c, Ok f) /\ (sfile_readdir fs' f 0).2 = (on_disk, None) /\
    lists (usable c top) T ns (brief <$> on_disk) /\ lists (usable c top) T ns (brief <$> in_mem) /\
    brief <$> in_mem ≡ₚ brief <$> on_disk.
Proof.
  intros T Hrs Hpl Hd Hpkg Hi Hwf Hroot Hnone Hnm Hl Hc Hns HT Hsep Hclash m fs'.
  assert (Hg : Forall good_elem rs) by (by apply plain_good).
  assert (h_mpath c <> [] /\ is_rooted (h_mpath c) = false) as [Hmne Hm].
  { destruct Hpkg as (gs & Hn0 & Hgs & -> & _). destruct (head_join gs Hgs Hn0) as (x & t & E & Hx). rewrite E. split; [done|].
    cbn [is_rooted]. by apply Ascii.eqb_neq. }
  destruct (C112_fresh_partial c rs top nm hp now l fs) as (m' & fs1 & xs & E1 & E2 & _ & H1 & H2); [done..|].
  pose proof (mem_run_built here_parse now l (mem_new c) (built_new _ c)) as Hb.
  assert (m = m') as -> by (unfold m; by rewrite E1). assert (fs' = fs1) as -> by (unfold fs'; by rewrite E2). rewrite E1 in Hb.
  apply (C125_partial here_parse c rs (h_mpath c) (usable c top) (fun _ => False) hp T m' fs1 (std_new c) ns);
    [by apply here_setting|done|by eapply built_keyed|done| |done| |done|done|done|done|done].
  - split; [done|]. exists c. split; [|done]. by apply new_info.
  - intros vs (Hv & Hk & _). pose proof (here_parse_canonical c (Path (h_mpath c) (abs_name vs))) as Hp. unfold path_string in Hp. cbn [p_pkg p_name] in Hp.
    destruct (h_mpath c) as [|x t] eqn:Em; [done|]. apply Hp. split; [done|]. split; [by apply plain_elems_name|done].
Qed.

(** A directory with two files, a sub-directory with something in it, and one
    made and removed again. *)
Definition list_prog : list act := walk_prog ++ [AWrite [B"data"; B"b"] [B"1"]].
Example C125_ex :
  Forall (fun a => usable her_ex both_top (act_name a)) list_prog /\ calm_run (fun _ => None) list_prog /\
  (plan_run (fun _ => None) list_prog).1 [B"data"] = Some EDir /\
  let m := (mem_run here_parse both_now (mem_new her_ex) list_prog).1 in
  let fs := (disk_run here_parse std_meta no_hp (std_app []) (std_new her_ex) list_prog).1.1 in
  match open here_parse m (B"/data"), std_open here_parse no_hp fs (std_new her_ex) (B"/data") with
  | (m1, Ok h), (_, Ok f) =>
      brief <$> (readdir here_parse m1 h 0).1 = [(B"a.txt", false, Some 3%Z); (B"b", false, Some 1%Z); (B"sub", true, None)] /\
      brief <$> (sfile_readdir fs f 0).2.1 = brief <$> (readdir here_parse m1 h 0).1
  | _, _ => False
  end.
Proof.
  split. { unfold list_prog, walk_prog. cbn [app]. repeat (apply List.Forall_cons || apply List.Forall_nil); cbn [act_name]; usable_tac. }
  split. { apply (calm_check_sound _ []); [by intros vs [e He]|by vm_compute]. }
  split; [by vm_compute|]. vm_compute. done.
Qed.

(** A packed program lists a directory as it would where it was packed. *)
Theorem C125_packed_partial gz gunzip parse hdir hpkg fs c rs mp rg uorder order ds pl b names s nm hp now l ns :
  let T := (plan_run (tree_of fs rs) l).1 in
  packing gz gunzip parse hdir hpkg fs c rs mp rg uorder ->
  files parse hdir fs order ds = Ok pl -> inside rs pl -> stuff parse hdir hpkg fs gz rg order c ds = Ok b ->
  setting parse c rs mp names -> h_import c = mp -> beside_it c rs mp s -> n_ok nm = true ->
  (exists i cs, get fs rs = Some (NDir i cs)) ->
  (forall ns n, names ns -> get fs (rs ++ ns) = Some n -> taken fs rs (pf_abs <$> pl) ns /\ n_ok (n_meta n) = true) ->
  (forall ns v, names ns -> is_Some (get fs (rs ++ ns ++ [v])) -> names (ns ++ [v])) ->
  Forall (fun a => names (act_name a)) l -> calm_run (tree_of fs rs) l ->
  mp <> [] -> (forall vs, names vs -> parse c (mp ++ colon :: abs_name vs) = Some (Path mp (abs_name vs))) ->
  names ns -> T ns = Some EDir ->
  (forall vs, names vs -> is_Some (T vs) -> has_prefix (abs_name vs) (abs_name ns) = true -> ns `prefix_of` vs) ->
  (forall ws, taken fs rs (pf_abs <$> pl) ws -> ws = [] \/ names ws \/ has_prefix (abs_name ws) (abs_name ns) = false) ->
  (forall v w, names (ns ++ [v]) -> names (ns ++ [w]) -> T (ns ++ [v]) = Some EDir -> is_Some (T (ns ++ [w])) -> has_prefix w v = true -> w = v) ->
  exists m' m1 m2 fs1 h in_mem f on_disk,
    unmarshal_embed gunzip parse uorder b = Done m' /\ (mem_run parse now m' l).1 = m1 /\ (disk_run parse nm hp fs s l).1.1 = fs1 /\
    open parse m1 (abs_name ns) = (m2, Ok h) /\ readdir parse m2 h 0 = (in_mem, None) /\
    std_open parse hp fs1 s (abs_name ns) = (s, Ok f) /\ (sfile_readdir fs1 f 0).2 = (on_disk, None) /\
    lists names T ns (brief <$> on_disk) /\ lists names T ns (brief <$> in_mem) /\
    brief <$> in_mem ≡ₚ brief <$> on_disk.
Proof.
  intros T Hp Hl Hin Hs HS Hi Hb Hnm Hroot Htk Hcl Hn Hc Hmp Hpk Hns HT Hsep Hfor Hclash.
  destruct (packed_shows gz gunzip parse hdir hpkg fs c rs mp rg uorder order ds pl b names (fun x => has_prefix x (abs_name ns) = false))
    as (m' & Hu & Hk & H1 & H2); [done..|].
  destruct (C112_partial parse c rs mp names (fun x => has_prefix x (abs_name ns) = false) nm hp now (tree_of fs rs) l m' fs s)
    as (m1 & fs1 & xs & E1 & E2 & _ & H3 & H4); [done..|].
  assert (Hk1 : keyed m1).
  { pose proof (mem_run_steps (fun m => wf m /\ keyed m) parse now l m') as H. rewrite E1 in H. apply H; [|by split; [apply (ms_wf _ _ _ _ _ _ H1)|]].
    intros m0 c0 [Hw0 Hk0]. split; [apply (fr_wf _ _ _ _ _ (frame_step parse m0 c0 Hw0))|by apply keyed_step]. }
  destruct (C125_partial parse c rs mp names (fun x => has_prefix x (abs_name ns) = false) hp T m1 fs1 s ns) as (m2 & h & im & f & od & H); [done..|].
  exists m', m1, m2, fs1, h, im, f, od. rewrite E1, E2. done.
Qed.
Example C125_packed_ex :
  (plan_run (tree_of pack_fs wit_rs) img_prog).1 [B"img"] = Some EDir /\
  packs wit_hdir wit_hdir pack_fs her_ex pack_ds (fun m' =>
    let m := (mem_run here_parse both_now m' img_prog).1 in
    let fs := (disk_run here_parse std_meta no_hp pack_fs (std_new her_ex) img_prog).1.1 in
    match open here_parse m (B"/img"), std_open here_parse no_hp fs (std_new her_ex) (B"/img") with
    | (m1, Ok h), (_, Ok f) =>
        brief <$> (readdir here_parse m1 h 0).1 = [(B"b.png", false, Some 4%Z); (B"c.png", false, Some 2%Z)] /\
        brief <$> (sfile_readdir fs f 0).2.1 = brief <$> (readdir here_parse m1 h 0).1
    | _, _ => False
    end).
Proof. split; [by vm_compute|]. apply packs_intro. vm_compute. done. Qed.

(** Without the conditions, (1) a name that only begins like the directory's is
    listed in memory; (2) a file whose name begins with that of a sub-directory
    is not. *)
Definition listings (l : list act) (p : bytes) : list bytes * list bytes :=
  let m := (mem_run here_parse both_now (mem_new her_ex) l).1 in
  let fs := (disk_run here_parse std_meta no_hp (std_app []) (std_new her_ex) l).1.1 in
  match open here_parse m p, std_open here_parse no_hp fs (std_new her_ex) p with
  | (m1, Ok h), (_, Ok f) => (d_name <$> (readdir here_parse m1 h 0).1, d_name <$> (sfile_readdir fs f 0).2.1)
  | _, _ => ([], [])
  end.
Theorem C125_refuted :
  listings [AMkdir [B"foo"]; AWrite [B"foobar"] [B"x"]] (B"/foo") = ([B"foobar"], []) /\
  listings [AMkdir [B"d"; B"a"]; AWrite [B"d"; B"a.txt"] [B"x"]] (B"/d") = ([B"a"], [B"a"; B"a.txt"]).
Proof. split; by vm_compute. Qed.

(** ** C126: Readdir(n) on disk *)

Fixpoint readdirs (fs : node) (f : sfile) (ns : list nat) : list (list details * option gerr) :=
  match ns with
  | [] => []
  | n :: ns => let '(f, x) := sfile_readdir fs f (Z.of_nat n) in x :: readdirs fs f ns
  end.

(** Calls with positive counts cut the listing into pieces of at most those
    sizes, in order and without gaps, and then answer io.EOF for ever; [lists]
    (C125) says what the listing is. *)
Fixpoint pages {A} (l : list A) (ns : list nat) : list (list A * option gerr) :=
  match ns with
  | [] => []
  | n :: ns => match l with [] => ([], Some EEOF) | _ => (take n l, None) end :: pages (drop n l) ns
  end.

Theorem C126_pages fs f ns l f' :
  sf_pos f = 0 -> sfile_readdir fs f 0 = (f', (l, None)) -> Forall (fun n => 0 < n) ns ->
  readdirs fs f ns = pages l ns.
Proof.
  unfold sfile_readdir. cbn [Z.ltb Z.compare]. destruct (find fs (sf_os f)) as [[|i cs]|] eqn:Ef; [done| |done].
  intros Hp [= _ <-] Hns. rewrite Hp. change (drop 0 cs) with cs.
  set (L := (fun x : bytes * node => info_of x.1 x.2) <$> cs).
  assert (H : forall ks g, Forall (fun n => 0 < n) ks -> sf_os g = sf_os f -> readdirs fs g ks = pages (drop (sf_pos g) L) ks).
  { clear Hns Hp. induction ks as [|n ns' IH]; intros g Hn Hg; [done|]. apply List.Forall_cons_iff in Hn as [Hn Hns]. cbn [readdirs pages].
    unfold sfile_readdir. rewrite Hg, Ef. rewrite fmap_drop. fold L.
    assert (0 <? Z.of_nat n = true)%Z as -> by (apply Z.ltb_lt; lia). rewrite Nat2Z.id. destruct (drop (sf_pos g) L) as [|x r] eqn:Ed.
    - f_equal. rewrite IH by done. rewrite Ed. by rewrite drop_nil.
    - f_equal. rewrite IH by done. cbn [sf_pos]. f_equal. rewrite <- Ed, drop_drop, take_length, drop_length.
      destruct (decide (n <= length L - sf_pos g)); [f_equal; lia|]. rewrite !drop_ge by lia. done. }
  rewrite H by done. by rewrite Hp.
Qed.

(** So together they deliver the listing once. *)
Theorem C126_all fs f ns l f' :
  sf_pos f = 0 -> sfile_readdir fs f 0 = (f', (l, None)) -> Forall (fun n => 0 < n) ns -> length l <= sum_list ns ->
  concat (fst <$> readdirs fs f ns) = l.
Proof.
  intros Hp Hr Hns Hl. rewrite (C126_pages fs f ns l f' Hp Hr Hns). clear -Hns Hl. revert l Hl.
  induction ns as [|n ns IH]; intros l Hl; [by destruct l; cbn in Hl; [|lia]|]. apply List.Forall_cons_iff in Hns as [Hn Hns].
  cbn [pages fmap list_fmap concat]. cbn in Hl. change (list_fmap _ _ fst (pages (drop n l) ns)) with (fst <$> pages (drop n l) ns).
  rewrite IH; [|done|rewrite drop_length; lia]. destruct l as [|x r]; [by rewrite drop_nil|]. cbn [fst]. apply take_drop.
Qed.

Example C126_ex :
  let fs := std_app [(B"a", NFile std_meta (B"1")); (B"b", NDir std_meta []); (B"c", NFile std_meta (B"22"))] in
  match std_open here_parse no_hp fs (std_new her_ex) (B"/") with
  | (_, Ok f) => (fun x : list details * option gerr => (d_name <$> x.1, x.2)) <$> readdirs fs f [2; 5; 1; 1] =
      [([B"a"; B"b"], None); ([B"c"], None); ([], Some EEOF); ([], Some EEOF)]
  | _ => False
  end.
Proof. by vm_compute. Qed.
