(** Theorems: the packed pkger against the disk it was packed from (C54). *)
From Verif Require Import Bytes GoPath Here GoTypes Mem MemSpec MemBase MemFiles WalkSpec MemWalk MemReaddir InStep JsonStr JsonText Embed
  Marshal MarshalMem PropsEmbed PropsMarshal Disk Decls DeclsProofs PropsParser Pack PropsPack DiskOps Std PropsStd PropsDump.

(** What an opened on-disk file delivers. *)
Definition std_reads (fs : node) (f : sfile) (ns : list nat) : list (bytes * option gerr) :=
  match find fs (sf_os f) with
  | Some (NFile _ d) => os_reads (drop (sf_pos f) d) ns
  | _ => []
  end.

Lemma os_reads_same data ns : Forall (fun n => n <> 0) ns -> os_reads data ns = reads_of data ns.
Proof.
  intros H. revert data. induction H as [|n ns Hn _ IH]; intros data; [done|]. cbn [os_reads reads_of].
  destruct n as [|n]; [done|]. destruct data; by rewrite IH.
Qed.

Section Same.
  Context (gz : bytes -> bytes) (gunzip : bytes -> res bytes) (parse : resolver).
  Context (hdir hpkg : bytes -> res hinfo) (fs : node).
  Context (c : hinfo) (rs : list bytes) (mp : bytes).

  (** An on-disk pkger for the same current package, which knows where the
      module is. *)
  Record beside_it (s : sto) : Prop := {
    bi_here : so_here s = c;
    bi_info : exists her, (forall hp, std_info hp s mp = (s, Ok her)) /\ h_dir her = abs_name rs
  }.

  Lemma entry_same m m' D ws :
    packed hdir hpkg fs c rs mp m D -> same_store m m' -> D ws ->
    exists n, get fs (rs ++ ws) = Some n /\ Forall good_elem ws /\
      entry_at m' (Path mp (abs_name ws)) (info_of (base (abs_name (rs ++ ws))) n).
  Proof.
    intros Hpk Hss HD. destruct (pk_files _ _ _ _ _ _ _ _ Hpk ws HD) as (n & her & Hg & Hn & _ & E).
    exists n. split; [done|]. split; [done|]. unfold entry_at. pose proof (ss_files _ _ Hss (Path mp (abs_name ws))) as Es.
    unfold key in E. rewrite E in Es. destruct (file_at m' _) as [f|]; [|done]. cbn in Es |- *. injection Es. intros. congruence.
  Qed.

  Lemma entry_only m m' D pt d :
    packed hdir hpkg fs c rs mp m D -> same_store m m' -> entry_at m' pt d ->
    exists ws n, D ws /\ Forall good_elem ws /\ pt = Path mp (abs_name ws) /\ get fs (rs ++ ws) = Some n /\
      d = info_of (base (abs_name (rs ++ ws))) n.
  Proof.
    intros Hpk Hss He. assert (is_Some (file_at m pt)) as Hs.
    { pose proof (ss_files _ _ Hss pt) as Es. unfold entry_at in He. destruct (file_at m' pt); [|done]. destruct (file_at m pt); [by eexists|done]. }
    destruct (pk_only _ _ _ _ _ _ _ _ Hpk pt Hs) as (ws & HD & ->).
    destruct (entry_same m m' D ws Hpk Hss HD) as (n & Hn & Hg & He'). exists ws, n. split; [done|]. split; [done|].
    split; [done|]. split; [done|]. unfold entry_at in *. unfold key in He. congruence.
  Qed.

  (** Stat, Open and Read: the same answers for everything packed, apart from
      empty files and zero-length reads; and nothing for what is not on disk. *)
  Theorem C54_files_partial rg uorder order ds l b s :
    packing gz gunzip parse hdir hpkg fs c rs mp rg uorder ->
    files parse hdir fs order ds = Ok l -> inside rs l ->
    stuff parse hdir hpkg fs gz rg order c ds = Ok b -> beside_it s ->
    exists m', unmarshal_embed gunzip parse uorder b = Done m' /\
      forall ws name hp, parse c name = Some (Path mp (abs_name ws)) ->
        (taken fs rs (pf_abs <$> l) ws ->
          exists d, std_stat parse hp fs s name = (s, Ok d) /\ stat_shows parse m' name = Ok (Some d)) /\
        (taken fs rs (pf_abs <$> l) ws ->
          forall i data, get fs (rs ++ ws) = Some (NFile i data) -> n_ok i = true ->
          exists f, std_open parse hp fs s name = (s, Ok f) /\ seen parse m' name = Some (sf_info f, data) /\
            forall ns, data <> [] -> Forall (fun n => n <> 0) ns -> read_shows parse m' name ns = Ok (std_reads fs f ns)) /\
        (Forall good_elem ws -> get fs (rs ++ ws) = None ->
          (exists e, std_stat parse hp fs s name = (s, Err e)) /\ (exists e, std_open parse hp fs s name = (s, Err e)) /\
          (exists e, stat_shows parse m' name = Err e) /\ seen parse m' name = None).
  Proof.
    intros Hp Hl Hin Hs [Hh (her & Hinfo & Hdir)].
    destruct (stuff_stuffed gz gunzip parse hdir hpkg fs c rs mp rg uorder order ds b Hp Hs l Hl Hin) as (m & m' & Hpk & Hu & Hw & Hss).
    exists m'. split; [done|]. intros ws name hp Hn.
    pose proof (ad_rs _ _ _ _ _ (pg_addr _ _ _ _ _ _ _ _ _ _ _ Hp)) as Hrs.
    assert (Hsf : Forall good_elem ws -> stands_for parse s name (abs_name (rs ++ ws))).
    { intros Hws. exists (Path mp (abs_name ws)), her. rewrite Hh. split; [done|]. split; [done|]. rewrite Hdir. cbn [p_name]. by rewrite clean_join_abs. }
    pose proof (ss_here _ _ Hss) as Hh'. rewrite (pk_here _ _ _ _ _ _ _ _ Hpk) in Hh'.
    assert (Hfile : forall d, entry_at m' (Path mp (abs_name ws)) d -> stat_shows parse m' name = Ok (Some d)).
    { intros d He. unfold stat_shows, stat, mem_parse. rewrite Hh', Hn. unfold entry_at, file_at in He.
      destruct (m_files m' !! _) as [r|] eqn:Er; [|done]. cbn in He. unfold info_at. by rewrite He. }
    split; [|split].
    - intros HD. destruct (entry_same m m' _ ws Hpk Hss HD) as (n & Hg & Hws & He).
      exists (info_of (base (abs_name (rs ++ ws))) n). rewrite (stat_at _ _ _ _ _ _ (Hsf Hws)). unfold os_stat.
      rewrite find_abs by (by apply Forall_app). rewrite Hg. split; [done|]. by apply Hfile.
    - intros HD i data Hg Hok. destruct (entry_same m m' _ ws Hpk Hss HD) as (n & Hg' & Hws & He).
      assert (n = NFile i data) as -> by congruence.
      assert (Hgd : Forall good_elem (rs ++ ws)) by (by apply Forall_app).
      destruct (open_at parse s name _ hp fs (Hsf Hws)) as [Ho1 Ho2].
      assert (Hos : os_open fs (abs_name (rs ++ ws)) = Ok (NFile i data)).
      { unfold os_open. rewrite find_abs by done. rewrite Hg. cbn. by rewrite Hok. }
      destruct (Ho2 _ Hos) as (f & Hf & Ef & Hfi). exists f. rewrite Ho1, Hos, Hf. split; [done|]. rewrite Hfi.
      destruct (pk_files _ _ _ _ _ _ _ _ Hpk ws HD) as (n & her' & _ & Hg2 & _ & Hfa).
      assert (n = NFile i data) as -> by congruence. unfold key in Hfa. cbn [contents] in Hfa.
      pose proof (same_answers parse m m' (pk_wf _ _ _ _ _ _ _ _ Hpk) Hw Hss) as Hal.
      rewrite (al_seen _ _ _ Hal). pose proof (pk_here _ _ _ _ _ _ _ _ Hpk) as Hhm. split.
      + unfold seen, open, mem_parse. rewrite Hhm, Hn, Hfa. cbn [alloc m_heap]. by rewrite lookup_insert.
      + intros ns Hd Hns. rewrite (al_open _ _ _ Hal). unfold read_shows, open, mem_parse. rewrite Hhm, Hn, Hfa. cbn [alloc].
        erewrite read_seq_fresh; [|cbn [m_heap]; by rewrite lookup_insert|done|done]. cbn [f_data].
        unfold std_reads. rewrite Ef, find_abs, Hg by done.
        assert (Hpos : sf_pos f = 0).
        { revert Hf. unfold std_open. rewrite Hh, Hn. cbn [p_pkg p_name]. rewrite Hinfo. cbv beta iota zeta. destruct (os_open fs (join2 (h_dir her) (abs_name ws))); [|done]. cbn [snd]. intros E. injection E as E. by rewrite <- E. }
        rewrite Hpos, drop_0, os_reads_same by done. done.
    - intros Hws Hg.
      assert (Hno : file_at m' (Path mp (abs_name ws)) = None).
      { destruct (file_at m' (Path mp (abs_name ws))) as [f|] eqn:E; [|done]. exfalso.
        destruct (entry_only m m' _ (Path mp (abs_name ws)) (f_info f) Hpk Hss) as (vs & n & _ & Hvs & Ek & Hgv & _).
        { unfold entry_at. by rewrite E. }
        apply (f_equal p_name) in Ek. cbn [p_name] in Ek. apply abs_name_inj in Ek as ->; [congruence|done..]. }
      assert (Hnf : m_files m' !! Path mp (abs_name ws) = None).
      { destruct (m_files m' !! _) as [r|] eqn:Er; [|done]. destruct (wf_files m' Hw _ _ Er) as [fo Hfo].
        unfold file_at in Hno. rewrite Er in Hno. cbn in Hno. congruence. }
      rewrite (stat_at _ _ _ _ _ _ (Hsf Hws)). destruct (open_at parse s name _ hp fs (Hsf Hws)) as [Ho1 _]. rewrite Ho1.
      unfold os_stat, os_open. rewrite find_abs by (by apply Forall_app). rewrite Hg.
      split; [by eexists|]. split; [by eexists|]. split.
      + unfold stat_shows, stat, mem_parse. rewrite Hh', Hn, Hnf. by eexists.
      + unfold seen, open, mem_parse. rewrite Hh', Hn, Hno. done.
  Qed.

  (** Walk: the same calls; and in the same order exactly when no name sorts
      between a directory's and those of what is in it. *)
  Theorem C54_walk_partial rg uorder order ds l b s :
    packing gz gunzip parse hdir hpkg fs c rs mp rg uorder ->
    files parse hdir fs order ds = Ok l -> inside rs l ->
    stuff parse hdir hpkg fs gz rg order c ds = Ok b -> beside_it s -> rs <> [] -> mp <> [] ->
    exists m', unmarshal_embed gunzip parse uorder b = Done m' /\
      forall ns n name hp, parse c name = Some (Path mp (abs_name ns)) ->
        get fs (rs ++ ns) = Some n -> all_open n ->
        (forall vs, is_Some (get n vs) -> taken fs rs (pf_abs <$> l) (ns ++ vs)) ->
        (forall ws, taken fs rs (pf_abs <$> l) ws -> has_prefix (abs_name ws) (abs_name ns) = true -> exists vs, ws = ns ++ vs) ->
        (forall vs x, get fs (rs ++ ns ++ vs) = Some x ->
           backslash ∉ abs_name (ns ++ vs) /\
           exists n, parse c (mp ++ colon :: abs_name (rs ++ ns ++ vs)) = Some (Path mp n)) ->
        exists on_disk packed,
          std_walk parse hp fs s name record_fn [] = (on_disk, s, None) /\
          walk parse m' name (lift_fn record_fn) [] = ((packed, m'), None) /\
          packed ≡ₚ on_disk /\
          (packed = on_disk <-> in_step (fun vs => is_Some (get n vs))).
  Proof.
    intros Hp Hl Hin Hs [Hh (her & Hinfo & Hdir)] Hrs0 Hmp0.
    destruct (stuff_stuffed gz gunzip parse hdir hpkg fs c rs mp rg uorder order ds b Hp Hs l Hl Hin) as (m & m' & Hpk & Hu & Hw & Hss).
    exists m'. split; [done|]. intros ns n name hp Hn Hg Hop Hall Hsep Hdk.
    pose proof (ad_rs _ _ _ _ _ (pg_addr _ _ _ _ _ _ _ _ _ _ _ Hp)) as Hrs.
    pose proof (pg_wf _ _ _ _ _ _ _ _ _ _ _ Hp) as Hwf.
    destruct (wf_get _ _ _ Hwf Hg) as [Hwn Hgd]. apply Forall_app in Hgd as [_ Hns].
    destruct (C51_names_partial parse hp fs s s name mp her rs ns n) as (lv & [HvS Hv] & Hwalk);
      [done|done|done|done|done|by rewrite Hh|apply Hinfo|done|done|done|by rewrite Hh|].
    set (ent := fun x : list bytes * node => (Path mp (abs_name (ns ++ x.1)), info_of (base (abs_name (rs ++ ns ++ x.1))) x.2)).
    assert (Hps : forall x, path_string (Path mp x) = mp ++ colon :: match x with [] => B"/" | _ => x end).
    { intros x. unfold path_string. cbn. by destruct mp; [|destruct x]. }
    assert (Hshown : map (fun x => (mp ++ colon :: abs_name (ns ++ x.1), info_of (base (abs_name (rs ++ ns ++ x.1))) x.2)) lv = shown <$> (ent <$> lv)).
    { rewrite <- list_fmap_compose. apply map_ext. intros [vs x]. unfold shown, ent. cbn [compose fst snd]. by rewrite Hps. }
    assert (Hgood : forall x, x ∈ lv -> Forall good_elem x.1).
    { intros [vs x] Hx. apply Hv in Hx as [Hx _]. by destruct (wf_get _ _ _ Hwn Hx). }
    destruct (MemWalk.listing m' (Path mp (abs_name ns)) Hw eq_refl) as [HlS Hle].
    set (lm := entries m' (Path mp (abs_name ns)) (sorted_keys m')) in *.
    assert (Heq : forall x, x ∈ lm <-> x ∈ ent <$> lv).
    { intros [k d]. rewrite Hle, elem_of_list_fmap. cbn [p_pkg p_name]. split.
      - intros (He & _ & Hpre). destruct (entry_only m m' _ k d Hpk Hss He) as (ws & x & HD & Hws & -> & Hgx & ->). cbn [p_name] in Hpre.
        destruct (Hsep ws HD Hpre) as [vs ->]. exists (vs, x). split; [done|]. apply Hv.
        rewrite app_assoc, get_app, Hg in Hgx. split; [done|]. by intros (? & ? & _ & _ & ?).
      - intros ([vs x] & E & Hx). apply Hv in Hx as [Hx _]. injection E as -> ->.
        destruct (entry_same m m' _ (ns ++ vs) Hpk Hss (Hall vs (mk_is_Some _ _ Hx))) as (y & Hy & Hgy & He).
        rewrite app_assoc, get_app, Hg, Hx in Hy. injection Hy as <-. split; [done|]. split; [done|].
        cbn [p_name]. apply abs_name_prefix. }
    exists (shown <$> (ent <$> lv)), (shown <$> lm). split; [|split; [|split]].
    - rewrite <- Hshown. exact Hwalk.
    - pose proof (ss_here _ _ Hss) as Hh'. rewrite (pk_here _ _ _ _ _ _ _ _ Hpk) in Hh'.
      rewrite (walk_visit parse _ m' name (Path mp (abs_name ns))) by (done || by rewrite Hh'). cbn zeta. fold lm. by rewrite visit_record.
    - apply fmap_Permutation. apply NoDup_Permutation; [| |exact Heq].
      + clear -HlS. induction HlS as [|x l HS IH HF]; [constructor|]. apply NoDup_cons. split; [|done].
        intros Hx. rewrite Forall_forall in HF. specialize (HF _ Hx). cbn beta in HF. by rewrite blt_irrefl in HF.
      + clear -HvS Hgood Hns. induction HvS as [|x l HS IH HF]; [constructor|]. cbn. apply NoDup_cons. split.
        * intros Hx. apply elem_of_list_fmap in Hx as (y & E & Hy). apply (f_equal (fun z => p_name z.1)) in E. unfold ent in E. cbn [fst p_name] in E.
          apply abs_name_inj in E; [|apply Forall_app; split; [done|apply Hgood; by left]|apply Forall_app; split; [done|apply Hgood; by right]].
          apply app_inv_head in E. rewrite Forall_forall in HF. specialize (HF _ Hy). cbn beta in HF. rewrite E in HF. by rewrite elems_lt_irrefl in HF.
        * apply IH. intros y Hy. apply Hgood. by right.
    - assert (Hst : StronglySorted (fun a b => blt (abs_name (ns ++ a.1)) (abs_name (ns ++ b.1)) = true) lv <-> in_step (fun vs => is_Some (get n vs))).
      { rewrite (sorted_step fst ns lv Hns Hgood HvS). apply in_step_ext. intros ws. split.
        - intros ([vs x] & Hx & <-). apply Hv in Hx as [Hx _]. by eexists.
        - intros [x Hx]. exists (ws, x). split; [|done]. apply Hv. split; [done|]. by intros (? & ? & _ & _ & ?). }
      assert (Hent : StronglySorted (fun a b => blt (path_string a.1) (path_string b.1) = true) (ent <$> lv) <->
        StronglySorted (fun a b => blt (abs_name (ns ++ a.1)) (abs_name (ns ++ b.1)) = true) lv).
      { rewrite sorted_fmap. apply sorted_iff. intros y z. unfold ent. cbn [fst]. rewrite !Hps. unfold abs_name at 1 2. cbv iota.
        rewrite blt_app_common, blt_cons. split; [intros [?|[_ ?]]; [lia|done]|by right]. }
      rewrite <- Hst, <- Hent. split.
      + intros E. apply (sorted_fmap (fun y z : bytes * details => blt y.1 z.1 = true) shown). rewrite <- E. by apply sorted_fmap.
      + intros HT. f_equal. by apply entry_list_unique.
  Qed.
End Same.

(** ** Concrete cases *)

Lemma app_beside : beside_it her_ex wit_rs (B"app") (std_new her_ex).
Proof. split; [done|]. exists her_ex. split; [by apply new_info|done]. Qed.

(** The hypotheses of both theorems hold for the module of C39_ex: what is
    packed is known, and each packed name resolves. *)
Example C54_ex :
  beside_it her_ex wit_rs (B"app") (std_new her_ex) /\
  (forall gz gunzip, (forall x, gunzip (gz x) = Ok x) ->
     packing gz gunzip here_parse wit_hdir wit_hdir pack_fs her_ex wit_rs (B"app") any_range (fun l => l)) /\
  packs wit_hdir wit_hdir pack_fs her_ex pack_ds (fun m' =>
    stat_shows here_parse m' (B"/a.txt") =
      match (std_stat here_parse no_hp pack_fs (std_new her_ex) (B"/a.txt")).2 with Ok d => Ok (Some d) | Err e => Err e end /\
    stat_shows here_parse m' (B"app:/img") =
      match (std_stat here_parse no_hp pack_fs (std_new her_ex) (B"app:/img")).2 with Ok d => Ok (Some d) | Err e => Err e end /\
    read_shows here_parse m' (B"/img/b.png") [2; 2; 2] =
      match (std_open here_parse no_hp pack_fs (std_new her_ex) (B"/img/b.png")).2 with
      | Ok f => Ok (std_reads pack_fs f [2; 2; 2]) | Err e => Err e end /\
    (walk here_parse m' (B"/img") (lift_fn record_fn) []).1.1 =
      (std_walk here_parse no_hp pack_fs (std_new her_ex) (B"/img") record_fn []).1.1 /\
    (walk here_parse m' (B"/img") (lift_fn record_fn) []).1.1.*1 = [B"app:/img"; B"app:/img/b.png"]).
Proof.
  split; [apply app_beside|]. split; [apply pack_packing|]. apply packs_intro. by vm_compute.
Qed.

(** Reading an empty file fails when packed; on disk it ends at once. *)
Theorem C54_empty_refuted :
  exists fs ds f, wf_node fs /\
    (std_open here_parse no_hp fs (std_new her_ex) (B"/e.txt")).2 = Ok f /\ std_reads fs f [8] = [([], Some EEOF)] /\
    packs wit_hdir wit_hdir fs her_ex ds (fun m' =>
      read_shows here_parse m' (B"/e.txt") [8] = Ok [([], Some (EMsg unable_to_read))]).
Proof.
  eexists (wit_app [(B"e.txt", NFile wit_meta [])]), [wit_decl KOpen (B"/e.txt") [B"e.txt"]], _.
  split; [wf_tac|]. split; [by vm_compute|]. split; [by vm_compute|]. apply packs_intro. by vm_compute.
Qed.

(** A zero-length read at the end of a file: no error on disk, io.EOF packed. *)
Theorem C54_zero_read_refuted :
  exists fs ds f, wf_node fs /\
    (std_open here_parse no_hp fs (std_new her_ex) (B"/a")).2 = Ok f /\ std_reads fs f [8; 0] = [(B"x", None); ([], None)] /\
    packs wit_hdir wit_hdir fs her_ex ds (fun m' =>
      read_shows here_parse m' (B"/a") [8; 0] = Ok [(B"x", None); ([], Some EEOF)]).
Proof.
  eexists (wit_app [(B"a", wit_file)]), [wit_decl KOpen (B"/a") [B"a"]], _.
  split; [wf_tac|]. split; [by vm_compute|]. split; [by vm_compute|]. apply packs_intro. by vm_compute.
Qed.

(** Walk visits "/a.txt" before the contents of "/a" when packed, after them on
    disk. *)
Theorem C54_order_refuted :
  exists fs ds, wf_node fs /\
    (std_walk here_parse no_hp fs (std_new her_ex) (B"/") record_fn []).1.1.*1 = [B"app:/"; B"app:/a"; B"app:/a/x"; B"app:/a.txt"] /\
    packs wit_hdir wit_hdir fs her_ex ds (fun m' =>
      (walk here_parse m' (B"/") (lift_fn record_fn) []).1.1.*1 = [B"app:/"; B"app:/a"; B"app:/a.txt"; B"app:/a/x"]).
Proof.
  exists (wit_app [(B"a", NDir wit_meta [(B"x", wit_file)]); (B"a.txt", wit_file)]), [wit_decl KWalk (B"/") []].
  split; [wf_tac|]. split; [by vm_compute|]. apply packs_intro. by vm_compute.
Qed.
