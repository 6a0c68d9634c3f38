(** Theorems: packing files into the generated program (C39-C41). *)
From Verif Require Import Bytes GoPath Here GoTypes Mem MemSpec MemBase MemFiles WalkSpec JsonStr JsonText Embed
  Marshal MarshalMem PropsEmbed PropsMarshal Disk Decls DeclsProofs PropsParser Pack.

(** *** C39 *)

Section Faithful.
  Context (gz : bytes -> bytes) (gunzip : bytes -> res bytes) (parse : resolver).
  Context (hdir hpkg : bytes -> res hinfo) (fs : node).
  Context (c : hinfo) (rs : list bytes) (mp : bytes).

  (** The setting: one module in [rs], found by the packing pkger and
      expressible in JSON; gunzip undoes gz. *)
  Record packing (rg : ranging) (uorder : list (bytes * efile) -> list (bytes * efile)) : Prop := {
    pg_gz : forall x, gunzip (gz x) = Ok x;
    pg_range : some_range rg;
    pg_order : forall l, uorder l ≡ₚ l;
    pg_wf : wf_node fs;
    pg_addr : addressed parse fs c rs mp;
    pg_write : writable hdir hpkg fs c rs mp;
    pg_skip : forall p, hpkg p <> Err ESkipDir
  }.

  (** What the packed program's pkger answers for the regular file at [ws]. *)
  Definition serves (m : mem) (ws : list bytes) (data : bytes) : Prop :=
    forall name, parse c name = Some (Path mp (abs_name ws)) ->
      (forall d, os_stat fs (abs_name (rs ++ ws)) = Ok d -> stat_shows parse m name = Ok (Some d)) /\
      seen parse m name = (fun d => (d, data)) <$> (match os_stat fs (abs_name (rs ++ ws)) with Ok d => Some d | _ => None end) /\
      (data <> [] -> forall ns, read_shows parse m name ns = Ok (reads_of data ns)).

  Lemma stuff_stuffed rg uorder order ds b :
    packing rg uorder -> stuff parse hdir hpkg fs gz rg order c ds = Ok b ->
    forall l, files parse hdir fs order ds = Ok l -> inside rs l ->
    exists m m', packed hdir hpkg fs c rs mp m (taken fs rs (pf_abs <$> l)) /\
      unmarshal_embed gunzip parse uorder b = Done m' /\ wf m' /\ same_store m m'.
  Proof.
    intros Hp Hs l Hl Hin. unfold stuff, stuffed in Hs. rewrite Hl in Hs.
    destruct (stuff_loop parse hdir hpkg fs (mem_new c) l) as [m|] eqn:E; [|done]. injection Hs as <-.
    assert (Hpk : packed hdir hpkg fs c rs mp m (taken fs rs (pf_abs <$> l))).
    { eapply packed_ext; [|eapply stuff_loop_packed; [apply Hp|apply Hp|apply Hp|apply packed_new|done|exact E]].
      intros ws. cbn beta. tauto. }
    exists m. destruct (pg_range _ _ Hp m) as [Hf Hi].
    destruct (marshal_load parse m (rg_files rg m) (rg_infos rg m) uorder) as (m' & H1 & H2 & H3).
    - by eapply pk_wf.
    - eapply packed_marshalable; [apply Hp|apply Hp|exact Hpk].
    - done.
    - done.
    - apply Hp.
    - exists m'. split; [done|]. split; [|done]. unfold unmarshal_embed.
      rewrite C28_round_trip by apply Hp. done.
  Qed.

  Theorem C39_faithful_partial rg uorder order ds l b :
    packing rg uorder ->
    files parse hdir fs order ds = Ok l -> inside rs l ->
    stuff parse hdir hpkg fs gz rg order c ds = Ok b ->
    exists m', unmarshal_embed gunzip parse uorder b = Done m' /\
      forall f ws i data, f ∈ l -> pf_abs f = abs_name (rs ++ ws) -> Forall good_elem ws ->
        has_suffix (pf_abs f) (B".tmp") = false ->
        get fs (rs ++ ws) = Some (NFile i data) -> serves m' ws data.
  Proof.
    intros Hp Hl Hin Hs. destruct (stuff_stuffed rg uorder order ds b Hp Hs l Hl Hin) as (m & m' & Hpk & Hu & Hw & Hss).
    exists m'. split; [done|]. intros f ws i data Hf Ea Hws Ht Hg name Hn.
    pose proof (same_answers parse m m' (pk_wf _ _ _ _ _ _ _ _ Hpk) Hw Hss) as Hal.
    rewrite (al_stat _ _ _ Hal), (al_seen _ _ _ Hal).
    destruct (pk_files _ _ _ _ _ _ _ _ Hpk ws) as (n & her & _ & Hg' & _ & Hfile).
    { exists ws, [], (NFile i data). rewrite app_nil_r. split; [done|]. split; [|by rewrite <- Ea].
      apply elem_of_list_fmap. exists f. split; [done|done]. }
    assert (n = NFile i data) as -> by congruence.
    assert (Hgd : Forall good_elem (rs ++ ws)) by (apply Forall_app; split; [apply (ad_rs _ _ _ _ _ (pg_addr _ _ Hp))|done]).
    pose proof (pk_here _ _ _ _ _ _ _ _ Hpk) as Hh.
    assert (Hos : os_stat fs (abs_name (rs ++ ws)) = Ok (info_of (base (abs_name (rs ++ ws))) (NFile i data))).
    { unfold os_stat. by rewrite find_abs, Hg by done. }
    rewrite Hos. cbn [fmap option_fmap option_map].
    split; [|split].
    - intros d [= <-]. unfold stat_shows, stat, mem_parse. rewrite Hh, Hn.
      unfold file_at, key in Hfile. destruct (m_files m !! _) as [r|] eqn:Er; [|done]. cbn in Hfile.
      unfold info_at. by rewrite Hfile.
    - unfold seen, open, mem_parse. rewrite Hh, Hn. unfold key in Hfile. rewrite Hfile. cbn [alloc m_heap]. rewrite lookup_insert.
      cbn. done.
    - intros Hd ns. rewrite (al_open _ _ _ Hal). unfold read_shows, open, mem_parse. rewrite Hh, Hn.
      unfold key in Hfile. rewrite Hfile. cbn [alloc].
      erewrite read_seq_fresh; [|cbn [m_heap]; by rewrite lookup_insert|done|done]. done.
  Qed.

  (** Packing does succeed if all it needs can be read. *)
  Theorem C39_succeeds_partial rg uorder order ds l :
    packing rg uorder -> files parse hdir fs order ds = Ok l -> inside rs l -> packable hdir hpkg fs rs mp l ->
    exists b, stuff parse hdir hpkg fs gz rg order c ds = Ok b.
  Proof.
    intros Hp Hl Hin Hpa. unfold stuff, stuffed. rewrite Hl.
    destruct (stuff_loop_ok parse hdir hpkg fs c rs mp (pg_wf _ _ Hp) (pg_addr _ _ Hp) (pg_skip _ _ Hp) l (mem_new c) (fun _ => False))
      as [m ->]; [apply packed_new|done|done|]. by eexists.
  Qed.

  (** In terms of the declarations (see C34): each regular file that one of
      them reaches is served. *)
  Theorem C39_declared_partial rg uorder order ds b :
    packing rg uorder -> some_order order -> virtual_first ds -> modular parse hdir fs ds -> echo_free fs ds ->
    (forall d, d ∈ ds -> is_virtual d = false -> exists ns, placed d rs ns) ->
    stuff parse hdir hpkg fs gz rg order c ds = Ok b ->
    exists m', unmarshal_embed gunzip parse uorder b = Done m' /\
      forall d ws i data, d ∈ ds -> reaches fs ds d (abs_name (rs ++ ws)) -> Forall good_elem ws ->
        has_suffix (abs_name (rs ++ ws)) (B".tmp") = false ->
        get fs (rs ++ ws) = Some (NFile i data) -> serves m' ws data.
  Proof.
    intros Hp Ho Hvf Hmod Hecho Hpl Hs.
    pose proof (C34_complete_partial parse hdir fs order ds (pg_wf _ _ Hp) Ho Hvf Hmod Hecho) as H34.
    unfold listing in H34. unfold stuff, stuffed in Hs.
    destruct (files parse hdir fs order ds) as [l|] eqn:El; [|done].
    destruct H34 as [H34 _].
    destruct (C39_faithful_partial rg uorder order ds l b Hp El) as (m' & Hu & H).
    - apply Forall_forall. intros f Hf.
      destruct (proj1 (H34 (pf_abs f))) as (d & Hd & Hr); [apply elem_of_list_fmap; by exists f|].
      destruct Hr as (Hv & _ & rs' & ns & n & Hpd & Hg & Hr). destruct (Hpl d Hd Hv) as [ns' Hpd'].
      destruct (placed_unique _ _ _ _ _ Hpd Hpd') as [-> ->].
      destruct Hr as [(_ & _ & E)|(_ & vs & x & Hx & E & _)].
      + exists ns'. split; [apply Hpd|done].
      + exists (ns' ++ vs). split; [|done].
        assert (Hgx : get fs (rs ++ ns' ++ vs) = Some x) by (by rewrite app_assoc, get_app, Hg).
        destruct (wf_get _ _ _ (pg_wf _ _ Hp) Hgx) as [_ Hgd]. by apply Forall_app in Hgd as [_ ?].
    - unfold stuff, stuffed. by rewrite El.
    - exists m'. split; [done|]. intros d ws i data Hd Hr Hws Ht Hg.
      assert (Hin : abs_name (rs ++ ws) ∈ pf_abs <$> l) by (apply H34; by exists d).
      apply elem_of_list_fmap in Hin as (f & Ef & Hf). eapply (H f); eauto. by rewrite <- Ef.
  Qed.

  (** *** C40, C41 *)

  (** What the packed pkger holds: each listed path not ending in .tmp and all
      that is on disk below it. *)
  Theorem C41_contents_partial rg uorder order ds l b :
    packing rg uorder ->
    files parse hdir fs order ds = Ok l -> inside rs l ->
    stuff parse hdir hpkg fs gz rg order c ds = Ok b ->
    exists m', unmarshal_embed gunzip parse uorder b = Done m' /\
      forall pt, is_Some (file_at m' pt) <-> exists ns us, pt = Path mp (abs_name (ns ++ us)) /\ Forall good_elem ns /\
        is_Some (get fs (rs ++ ns ++ us)) /\
        (exists f, f ∈ l /\ pf_abs f = abs_name (rs ++ ns)) /\ has_suffix (abs_name (rs ++ ns)) (B".tmp") = false.
  Proof.
    intros Hp Hl Hin Hs. destruct (stuff_stuffed rg uorder order ds b Hp Hs l Hl Hin) as (m & m' & Hpk & Hu & Hw & Hss).
    exists m'. split; [done|]. intros pt.
    assert (Hsame : is_Some (file_at m' pt) <-> is_Some (file_at m pt)).
    { pose proof (ss_files _ _ Hss pt) as E. rewrite <- !not_eq_None_Some.
      destruct (file_at m' pt), (file_at m pt); done. }
    rewrite Hsame. split.
    - intros H. destruct (pk_only _ _ _ _ _ _ _ _ Hpk pt H) as (ws & (ns & us & n & -> & Hin' & Hns & Ht & Hg) & ->).
      exists ns, us. split; [done|]. split; [done|]. split; [by eexists|]. split; [|done].
      apply elem_of_list_fmap in Hin' as (f & Ef & Hf). by exists f.
    - intros (ns & us & -> & Hns & [n Hg] & (f & Hf & Ef) & Ht).
      destruct (pk_files _ _ _ _ _ _ _ _ Hpk (ns ++ us)) as (n' & her & _ & _ & _ & E); [|by eexists].
      exists ns, us, n. split; [done|]. split; [|done]. rewrite <- Ef. apply elem_of_list_fmap. by exists f.
  Qed.

  (** Without .tmp files, and if with a directory everything below it is
      listed, exactly the listed files are packed. *)
  Theorem C41_exact_partial rg uorder order ds l b :
    packing rg uorder ->
    files parse hdir fs order ds = Ok l -> inside rs l ->
    (forall f, f ∈ l -> has_suffix (pf_abs f) (B".tmp") = false) ->
    (forall f, f ∈ l -> exists ws, pf_abs f = abs_name (rs ++ ws) /\ is_Some (get fs (rs ++ ws)) /\
       forall us, is_Some (get fs (rs ++ ws ++ us)) -> exists g, g ∈ l /\ pf_abs g = abs_name (rs ++ ws ++ us)) ->
    stuff parse hdir hpkg fs gz rg order c ds = Ok b ->
    exists m', unmarshal_embed gunzip parse uorder b = Done m' /\
      forall ws, Forall good_elem ws ->
        is_Some (file_at m' (Path mp (abs_name ws))) <-> exists f, f ∈ l /\ pf_abs f = abs_name (rs ++ ws).
  Proof.
    intros Hp Hl Hin Ht Hcl Hs.
    destruct (C41_contents_partial rg uorder order ds l b Hp Hl Hin Hs) as (m' & Hu & H). exists m'. split; [done|].
    assert (Hgood : forall ws, is_Some (get fs (rs ++ ws)) -> Forall good_elem ws).
    { intros ws [n Hn]. destruct (wf_get _ _ _ (pg_wf _ _ Hp) Hn) as [_ Hgd]. by apply Forall_app in Hgd as [_ ?]. }
    assert (Hinj : forall us vs, Forall good_elem us -> Forall good_elem vs -> abs_name (rs ++ us) = abs_name (rs ++ vs) -> us = vs).
    { intros us vs Hu' Hv E. pose proof (ad_rs _ _ _ _ _ (pg_addr _ _ Hp)) as Hr.
      apply abs_name_inj in E; [by apply app_inv_head in E|by apply Forall_app..]. }
    intros ws Hws. rewrite H. split.
    - intros (ns & us & E & Hns & Hg & (f & Hf & Ef) & _).
      apply (f_equal p_name) in E. cbn [p_name] in E. apply abs_name_inj in E; [subst ws|done|by apply Hgood].
      destruct (Hcl f Hf) as (ns' & Ef' & Hg' & Hbelow).
      assert (ns' = ns) as -> by (apply Hinj; [by apply Hgood|done|congruence]). by apply Hbelow.
    - intros (f & Hf & Ef). exists ws, []. rewrite app_nil_r. split; [done|]. split; [done|].
      destruct (Hcl f Hf) as (ns' & Ef' & Hg' & _).
      assert (ns' = ws) as -> by (apply Hinj; [by apply Hgood|done|congruence]).
      split; [done|]. split; [by exists f|]. rewrite <- Ef. by apply Ht.
  Qed.

  (** In terms of the declarations: if none is of a run-time path and no .tmp
      file is reached, exactly what they reach is packed. *)
  Theorem C41_declared_partial rg uorder order ds b :
    packing rg uorder -> some_order order -> modular parse hdir fs ds -> echo_free fs ds ->
    (forall d, d ∈ ds -> is_virtual d = false /\ exists ns, placed d rs ns) ->
    (forall d a, d ∈ ds -> reaches fs ds d a -> has_suffix a (B".tmp") = false) ->
    stuff parse hdir hpkg fs gz rg order c ds = Ok b ->
    exists m', unmarshal_embed gunzip parse uorder b = Done m' /\
      forall ws, Forall good_elem ws ->
        is_Some (file_at m' (Path mp (abs_name ws))) <-> exists d, d ∈ ds /\ reaches fs ds d (abs_name (rs ++ ws)).
  Proof.
    intros Hp Ho Hmod Hecho Hpl Ht Hs.
    assert (Hvf : virtual_first ds).
    { exists [], ds. split; [done|]. split; [constructor|]. apply Forall_forall. intros d Hd. by apply Hpl. }
    assert (Hnv : forall x, ~ virtual_names ds x).
    { intros x (d & Hd & Hv & _). destruct (Hpl d Hd) as [? _]. congruence. }
    pose proof (C34_complete_partial parse hdir fs order ds (pg_wf _ _ Hp) Ho Hvf Hmod Hecho) as H34.
    unfold listing in H34. unfold stuff, stuffed in Hs.
    destruct (files parse hdir fs order ds) as [l|] eqn:El; [|done]. destruct H34 as [H34 _].
    assert (Hl : forall f, f ∈ l -> exists d ns vs, d ∈ ds /\ reaches fs ds d (pf_abs f) /\ placed d rs ns /\
      is_Some (get fs (rs ++ ns ++ vs)) /\ pf_abs f = abs_name (rs ++ ns ++ vs) /\
      forall us, is_Some (get fs (rs ++ ns ++ vs ++ us)) -> reaches fs ds d (abs_name (rs ++ ns ++ vs ++ us))).
    { intros f Hf. destruct (proj1 (H34 (pf_abs f))) as (d & Hd & Hr); [apply elem_of_list_fmap; by exists f|].
      pose proof Hr as (Hv & Hx & rs' & ns & n & Hpd & Hg & Hr'). destruct (Hpl d Hd) as [_ [ns' Hpd']].
      destruct (placed_unique _ _ _ _ _ Hpd Hpd') as [-> ->]. exists d, ns'.
      destruct Hr' as [(Hk & Hf' & E)|(Hk & vs & x & Hgx & E & Hno)].
      - exists []. rewrite app_nil_r. split_and!; [done|done|done|by eexists|done|].
        intros us [x Hus]. destruct n as [i dat|]; [|done]. rewrite app_assoc, get_app, Hg in Hus.
        destruct us; [|done]. rewrite !app_nil_r. by rewrite <- E.
      - exists vs. rewrite app_assoc, get_app, Hg. split_and!; [done|done|done|by eexists|by rewrite <- app_assoc|].
        intros us [y Hus]. split; [done|]. split; [done|]. exists rs, ns', n. split; [done|]. split; [done|]. right.
        split; [done|]. exists (vs ++ us), y. rewrite !app_assoc, <- (app_assoc (rs ++ ns')), get_app, Hg in Hus.
        split; [done|]. split; [done|]. intros. apply Hnv. }
    destruct (C41_exact_partial rg uorder order ds l b Hp El) as (m' & Hu & H).
    - apply Forall_forall. intros f Hf. destruct (Hl f Hf) as (d & ns & vs & _ & _ & _ & [x Hg] & E & _).
      exists (ns ++ vs). split; [|done]. destruct (wf_get _ _ _ (pg_wf _ _ Hp) Hg) as [_ Hgd].
      by apply Forall_app in Hgd as [_ ?].
    - intros f Hf. destruct (Hl f Hf) as (d & ns & vs & Hd & Hr & _). by eapply Ht.
    - intros f Hf. destruct (Hl f Hf) as (d & ns & vs & Hd & Hr & _ & Hg & E & Hbelow).
      exists (ns ++ vs). split; [done|]. split; [done|]. intros us Hus. rewrite <- app_assoc in *.
      assert (Hin : abs_name (rs ++ ns ++ vs ++ us) ∈ pf_abs <$> l) by (apply H34; exists d; auto).
      apply elem_of_list_fmap in Hin as (g & Eg & Hgl). by exists g.
    - unfold stuff, stuffed. by rewrite El.
    - exists m'. split; [done|]. intros ws Hws. rewrite (H ws Hws), <- H34, elem_of_list_fmap.
      split; intros (f & H1 & H2); exists f; done.
  Qed.

  (** If no directory is listed, no .tmp file is packed. *)
  Theorem C40_no_tmp_partial rg uorder order ds l b :
    packing rg uorder ->
    files parse hdir fs order ds = Ok l -> inside rs l ->
    (forall f, f ∈ l -> exists i d, find fs (pf_abs f) = Some (NFile i d)) ->
    stuff parse hdir hpkg fs gz rg order c ds = Ok b ->
    exists m', unmarshal_embed gunzip parse uorder b = Done m' /\
      forall pt, is_Some (file_at m' pt) -> has_suffix (p_name pt) (B".tmp") = false.
  Proof.
    intros Hp Hl Hin Hreg Hs.
    destruct (C41_contents_partial rg uorder order ds l b Hp Hl Hin Hs) as (m' & Hu & H). exists m'. split; [done|].
    intros pt Hpt. apply H in Hpt as (ns & us & -> & Hns & [n Hg] & (f & Hf & Ef) & Ht). cbn [p_name].
    destruct (Hreg f Hf) as (i & d & Hfd). rewrite Ef, find_abs in Hfd.
    2:{ apply Forall_app. split; [apply (ad_rs _ _ _ _ _ (pg_addr _ _ Hp))|done]. }
    rewrite app_assoc, get_app, Hfd in Hg. destruct us; [|done]. rewrite app_nil_r.
    destruct (has_suffix (abs_name ns) (B".tmp")) eqn:E; [|done]. rewrite <- Ht. symmetry.
    apply has_suffix_spec in E as [t E]. apply has_suffix_spec.
    destruct rs as [|r rs0]; [by exists t|]. destruct ns as [|w ns].
    { exfalso. apply (f_equal length) in E. rewrite app_length in E. cbn in E. lia. }
    rewrite abs_name_app by done. unfold abs_name in E. exists (abs_name (r :: rs0) ++ t). rewrite <- app_assoc, <- E. done.
  Qed.
End Faithful.

(** ** The recalled resolver *)

(** With the recalled resolver a pkger started in the module's directory finds
    every plainly named file of the module that is not itself below a copy of
    that directory's path. *)
Lemma here_addressed fs c rs :
  rs <> [] -> wf_node fs -> plain_name (abs_name rs) -> Forall good_elem rs -> h_dir c = abs_name rs ->
  plain_pkg (h_mpath c) ->
  (forall ws n, get fs (rs ++ ws) = Some n ->
     plain_name (abs_name ws) /\ colon ∉ abs_name ws /\ has_prefix (abs_name ws) (abs_name rs) = false) ->
  addressed here_parse fs c rs (h_mpath c).
Proof.
  intros Hrs Hwf Hpr Hgr Hdir Hmp Hn.
  assert (Hd : forall ws n, get fs (rs ++ ws) = Some n -> dir_ok c (abs_name ws)).
  { intros ws n Hg. destruct (Hn ws n Hg) as (_ & _ & Hx). right. by rewrite Hdir. }
  assert (Hne : forall ws : list bytes, h_mpath c <> abs_name ws).
  { intros ws E. destruct Hmp as (gs & Hg0 & Hgs & Eg & _). destruct (head_join gs Hgs Hg0) as (a & s & E1 & E2).
    rewrite Eg, E1 in E. unfold abs_name in E. congruence. }
  split; [done| |].
  - intros ws n Hg. destruct (Hn ws n Hg) as (Hp & Hc & Hpre). pose proof (Hd ws n Hg) as Hdk.
    rewrite <- (here_parse_plain c (abs_name ws)) by done.
    assert (Hgood : Forall good_elem (rs ++ ws)) by (by destruct (wf_get _ _ _ Hwf Hg)).
    assert (Hlast : forall a, last (abs_name (rs ++ ws)) = Some a -> is_space a = false).
    { destruct ws as [|w ws]; [rewrite app_nil_r; by destruct Hpr as (? & _ & _ & _ & _ & ?)|].
      destruct Hp as (us & _ & _ & _ & _ & Hl). intros a Ha. apply Hl. rewrite abs_name_app in Ha by done.
      change (rel_name (w :: ws)) with (slash :: join_slash (w :: ws)) in Ha. by rewrite last_app_cons in Ha. }
    assert (Hhead : forall n : list bytes, forall a, head (abs_name n) = Some a -> is_space a = false) by (by intros ? ? [= <-]).
    assert (Hno : trim_prefix (abs_name ws) (h_dir c) = abs_name ws).
    { rewrite Hdir. by apply trim_prefix_no. }
    unfold here_parse. rewrite (trim_space_id (abs_name (rs ++ ws))) by (done || apply Hhead).
    rewrite (trim_space_id (abs_name ws)) by (apply Hhead || by destruct Hp as (? & _ & _ & _ & _ & ?)).
    rewrite !clean_abs by (done || by apply Forall_app in Hgood as [_ ?]).
    rewrite Hno, Hdir, abs_name_app, trim_prefix_app by done.
    destruct ws as [|w ws]; [|done]. cbn [rel_name].
    reflexivity.
  - intros ws n Hg. destruct (Hn ws n Hg) as (Hp & Hc & Hpre). apply here_parse_canonical. split; [done|]. split; [done|].
    by eapply Hd.
Qed.

(** ** Concrete cases *)

Definition any_range : ranging := Ranging (fun m => map_to_list (m_files m)) (fun m => map_to_list (m_infos m)).

(** Packing with the current package [c] gives a program whose pkger starts as [m']. *)
Definition packs (hdir hpkg : bytes -> res hinfo) (fs : node) (c : hinfo) (ds : list decl) (P : mem -> Prop) : Prop :=
  forall gz gunzip, (forall x, gunzip (gz x) = Ok x) ->
    exists b m', stuff here_parse hdir hpkg fs gz any_range (fun l => l) c ds = Ok b /\
      unmarshal_embed gunzip here_parse (fun l => l) b = Done m' /\ P m'.

Lemma packs_intro hdir hpkg fs c ds (P : mem -> Prop) :
  match stuffed here_parse hdir hpkg fs (fun l => l) c ds with
  | Ok m => match remake m with Done m' => P m' | _ => False end
  | Err _ => False
  end -> packs hdir hpkg fs c ds P.
Proof.
  intros H gz gunzip Hz. unfold stuff. destruct (stuffed _ _ _ _ _ _ _) as [m|]; [|done].
  destruct (remake m) as [m'| |] eqn:E; [|done..]. eexists _, m'. split; [reflexivity|]. split; [|done].
  unfold unmarshal_embed. rewrite C28_round_trip by done. exact E.
Qed.

Ltac wf_tac := cbn; repeat split; try (apply good_elem_dec_ok; reflexivity);
  repeat (apply SSorted_cons || apply SSorted_nil || apply List.Forall_cons || apply List.Forall_nil); reflexivity.

(** The setting of the theorems is met by a module in /src/app. *)
Definition pack_fs : node :=
  wit_app [(B"a.txt", NFile wit_meta (B"hello")); (B"img", NDir wit_meta [(B"b.png", NFile wit_meta (B"PNG"))]);
           (B"main.go", wit_file)].
Definition pack_ds : list decl := [wit_decl KOpen (B"/a.txt") [B"a.txt"]; wit_decl KWalk (B"/img") [B"img"]].
Lemma pack_wf : wf_node pack_fs.
Proof. wf_tac. Qed.

Definition pack_app : node := NDir wit_meta [(B"a.txt", NFile wit_meta (B"hello"));
  (B"img", NDir wit_meta [(B"b.png", NFile wit_meta (B"PNG"))]); (B"main.go", wit_file)].

Lemma pack_all (P : list bytes -> node -> Prop) :
  Forall (fun x => P x.1 x.2) (nodes pack_app) -> forall ws n, get pack_fs (wit_rs ++ ws) = Some n -> P ws n.
Proof.
  intros H ws n Hg. rewrite get_app in Hg. change (get pack_fs wit_rs) with (Some pack_app) in Hg.
  apply (nodes_forall P pack_app); [|done|done]. wf_tac.
Qed.

Lemma pack_packing gz gunzip :
  (forall x, gunzip (gz x) = Ok x) ->
  packing gz gunzip here_parse wit_hdir wit_hdir pack_fs her_ex wit_rs (B"app") any_range (fun l => l).
Proof.
  intros Hz. split; [done|done|done|apply pack_wf| | |done].
  - split; [good_elems| |]; apply pack_all; cbn [nodes visited];
      repeat (apply List.Forall_cons; [by vm_compute|]); apply List.Forall_nil.
  - split; [info_tac|intros p i [= <-]; info_tac|intros p i [= <-]; info_tac| |]; apply pack_all; cbn [nodes visited pack_app];
      repeat (apply List.Forall_cons); try apply List.Forall_nil; cbn [fst snd].
    all: try (split; [split; u8|u8]). all: det_tac.
Qed.

Example C39_ex :
  wf_node pack_fs /\
  (exists l, files here_parse wit_hdir pack_fs (fun l => l) pack_ds = Ok l /\ length l = 3 /\ inside wit_rs l) /\
  packs wit_hdir wit_hdir pack_fs her_ex pack_ds (fun m' =>
    seen here_parse m' (B"/a.txt") = Some (Details (B"a.txt") 5 420 (GoTime 1600000000 0 0) false JNull, B"hello") /\
    seen here_parse m' (B"/img/b.png") = Some (Details (B"b.png") 3 420 (GoTime 1600000000 0 0) false JNull, B"PNG") /\
    seen here_parse m' (B"/main.go") = None).
Proof.
  split; [apply pack_wf|]. split.
  - exists [PFile (B"/src/app/a.txt") (Path (B"app") (B"/a.txt")) her_ex;
            PFile (B"/src/app/img") (Path (B"app") (B"/img")) her_ex;
            PFile (B"/src/app/img/b.png") (Path (B"app") (B"/img/b.png")) her_ex].
    split; [by vm_compute|]. split; [done|].
    apply List.Forall_cons; [exists [B"a.txt"]|apply List.Forall_cons; [exists [B"img"]|
      apply List.Forall_cons; [exists [B"img"; B"b.png"]|apply List.Forall_nil]]]; (split; [good_elems|done]).
  - apply packs_intro. by vm_compute.
Qed.

(** An empty file cannot be read back: Read fails instead of reporting the end
    of the file. *)
Theorem C39_empty_file_refuted :
  exists fs ds, wf_node fs /\ get fs (wit_rs ++ [B"e.txt"]) = Some (NFile wit_meta []) /\
    (exists d, d ∈ ds /\ reaches fs ds d (B"/src/app/e.txt")) /\
    packs wit_hdir wit_hdir fs her_ex ds (fun m' =>
      read_shows here_parse m' (B"/e.txt") [8] = Ok [([], Some (EMsg unable_to_read))] /\
      reads_of [] [8] = [([], Some EEOF)]).
Proof.
  exists (wit_app [(B"e.txt", NFile wit_meta [])]), [wit_decl KOpen (B"/e.txt") [B"e.txt"]].
  split; [wf_tac|]. split; [done|]. split; [|apply packs_intro; by vm_compute].
  exists (wit_decl KOpen (B"/e.txt") [B"e.txt"]). split; [by left|]. split; [done|]. split.
  { intros [_ (d & Hd & Hv & _)]. apply elem_of_list_singleton in Hd. by subst d. }
  exists wit_rs, [B"e.txt"], (NFile wit_meta []). split; [apply wit_placed; good_elems|]. split; [done|]. by left.
Qed.

(** Packing from a package below the module's directory: the current package
    is /src/app/cmd, the declaration in its source is of the module's /a.txt.
    The file is stored under its absolute path and is not found
    (resolver recalled from the dependency). *)
Definition cmd_her : hinfo :=
  HInfo (B"/src/app/cmd") (B"app/cmd") (B"main") (B"app") true (B"/src/app") (B"/src/app/go.mod") (B"1.13").
Definition cmd_hdir : bytes -> res hinfo :=
  fun p => Ok (if has_prefix p (B"/src/app/cmd") then cmd_her else her_ex).

Theorem C39_sub_package_refuted :
  exists fs ds l, wf_node fs /\ get fs (wit_rs ++ [B"a.txt"]) = Some (NFile wit_meta (B"hello")) /\
    Forall (fun d => pf_here (d_file d) = cmd_her /\ here_parse cmd_her (d_value d) = Some (pf_path (d_file d)) /\
      pf_abs (d_file d) = decl_root d) ds /\
    listing here_parse cmd_hdir fs (fun l => l) ds = Ok l /\ B"/src/app/a.txt" ∈ l /\
    packs cmd_hdir cmd_hdir fs cmd_her ds (fun m' =>
      seen here_parse m' (B"/a.txt") = None /\ seen here_parse m' (B"app:/a.txt") = None /\
      is_Some (seen here_parse m' (B"/src/app/a.txt"))).
Proof.
  exists (wit_app [(B"a.txt", NFile wit_meta (B"hello")); (B"cmd", NDir wit_meta [(B"main.go", wit_file)])]),
    [Decl KOpen (PFile (B"/src/app/a.txt") (Path (B"app") (B"/a.txt")) cmd_her) (B"/a.txt")], [B"/src/app/a.txt"].
  split; [wf_tac|]. split; [done|].
  split; [apply List.Forall_cons; [split; [done|split; by vm_compute]|apply List.Forall_nil]|].
  split; [by vm_compute|]. split; [by left|]. apply packs_intro. vm_compute. split; [done|]. split; [done|]. by eexists.
Qed.

(** A file below a copy of the module directory's own path replaces another
    one (resolver recalled from the dependency). *)
Theorem C39_overwritten_refuted :
  exists fs d, wf_node fs /\ get fs (wit_rs ++ [B"a"]) = Some (NFile wit_meta (B"mine")) /\
    scanned d /\ reaches fs [d] d (B"/src/app/a") /\
    packs wit_hdir wit_hdir fs her_ex [d] (fun m' =>
      snd <$> seen here_parse m' (B"/a") = Some (B"other")).
Proof.
  exists (wit_app [(B"a", NFile wit_meta (B"mine")); (B"src", NDir wit_meta [(B"app", NDir wit_meta [(B"a", NFile wit_meta (B"other"))])])]),
    (wit_decl KWalk (B"/") []).
  split; [wf_tac|]. split; [done|]. split; [split; by vm_compute|]. split; [|apply packs_intro; by vm_compute].
  split; [done|]. split; [by intros [? _]|].
  eexists wit_rs, [], _. split; [apply wit_placed; good_elems|]. split; [reflexivity|]. right. split; [by left|].
  eexists [B"a"], _. split; [reflexivity|]. split; [done|]. intros v1 v2 _ (x & Hx & Hv & _).
  apply elem_of_list_singleton in Hx. by subst x.
Qed.

(** A .tmp file in a packed directory is packed with it ... *)
Theorem C40_refuted :
  exists fs ds, wf_node fs /\ Forall scanned ds /\
    packs wit_hdir wit_hdir fs her_ex ds (fun m' =>
      snd <$> seen here_parse m' (B"/pub/b.tmp") = Some (B"x")).
Proof.
  exists (wit_app [(B"pub", NDir wit_meta [(B"b.tmp", wit_file)])]), [wit_decl KWalk (B"/pub") [B"pub"]].
  split; [wf_tac|]. split; [apply List.Forall_cons; [split; by vm_compute|apply List.Forall_nil]|].
  apply packs_intro. by vm_compute.
Qed.

(** ... while one listed on its own is not. *)
Theorem C41_listed_not_packed_refuted :
  exists fs ds l, wf_node fs /\ Forall scanned ds /\
    listing here_parse wit_hdir fs (fun l => l) ds = Ok l /\ B"/src/app/b.tmp" ∈ l /\
    packs wit_hdir wit_hdir fs her_ex ds (fun m' => seen here_parse m' (B"/b.tmp") = None).
Proof.
  exists (wit_app [(B"b.tmp", wit_file)]), [wit_decl KOpen (B"/b.tmp") [B"b.tmp"]], [B"/src/app/b.tmp"].
  split; [wf_tac|]. split; [apply List.Forall_cons; [split; by vm_compute|apply List.Forall_nil]|].
  split; [by vm_compute|]. split; [by left|]. apply packs_intro. by vm_compute.
Qed.

(** Files below a run-time directory are packed though they are not listed. *)
Theorem C41_packed_not_listed_refuted :
  exists fs ds l, wf_node fs /\ virtual_first ds /\ Forall scanned ds /\
    listing here_parse wit_hdir fs (fun l => l) ds = Ok l /\ B"/src/app/tmp/t.txt" ∉ l /\
    made_at_run_time ds (B"/src/app/tmp/t.txt") /\
    packs wit_hdir wit_hdir fs her_ex ds (fun m' => snd <$> seen here_parse m' (B"/tmp/t.txt") = Some (B"x")).
Proof.
  exists wit_fs, wit_ds, [B"/src/app"; B"/src/app/a.txt"; B"/src/app/pub"; B"/src/app/pub/b.txt"].
  split; [apply wit_wf|]. split.
  { exists [wit_decl KMkdirAll (B"/tmp") [B"tmp"]], [wit_decl KOpen (B"/a.txt") [B"a.txt"]; wit_decl KWalk (B"/") []].
    split; [done|]. split; repeat (apply List.Forall_cons; [done|]); apply List.Forall_nil. }
  split; [repeat (apply List.Forall_cons; [split; by vm_compute|]); apply List.Forall_nil|].
  split; [by vm_compute|]. split.
  { intros H. rewrite !elem_of_cons, elem_of_nil in H. destruct H as [H|[H|[H|[H|[]]]]]; done. }
  split.
  - eexists _, (wit_rs ++ [B"tmp"]), [B"t.txt"]. split; [by left|]. split; [done|]. split; [good_elems|]. done.
  - apply packs_intro. by vm_compute.
Qed.

Example C40_ex :
  exists fs l, wf_node fs /\ files here_parse wit_hdir fs (fun l => l) [wit_decl KOpen (B"/a.txt") [B"a.txt"]; wit_decl KOpen (B"/b.tmp") [B"b.tmp"]] = Ok l /\
    length l = 2 /\ (forall f, f ∈ l -> exists i d, find fs (pf_abs f) = Some (NFile i d)).
Proof.
  exists (wit_app [(B"a.txt", wit_file); (B"b.tmp", wit_file)]),
    [PFile (B"/src/app/a.txt") (Path (B"app") (B"/a.txt")) her_ex; PFile (B"/src/app/b.tmp") (Path (B"app") (B"/b.tmp")) her_ex].
  split; [wf_tac|]. split; [by vm_compute|]. split; [done|].
  intros f Hf. rewrite !elem_of_cons, elem_of_nil in Hf. destruct Hf as [-> |[-> |[]]]; exists wit_meta, (B"x"); by vm_compute.
Qed.

Example C41_ex :
  modular here_parse wit_hdir pack_fs pack_ds /\ echo_free pack_fs pack_ds /\
  Forall (fun d => is_virtual d = false /\ exists ns, placed d wit_rs ns) pack_ds.
Proof.
  split; [eapply wit_modular; [apply pack_wf|reflexivity|by vm_compute|wit_decls]|].
  split; [apply wit_echo_free; [apply pack_wf|reflexivity|wit_decls|by vm_compute]|].
  apply List.Forall_cons; [|apply List.Forall_cons; [|apply List.Forall_nil]]; (split; [done|]);
    eexists; apply wit_placed; good_elems.
Qed.
