(** Theorems: examples/dynamic, which makes a directory and a file while it
    runs, does the same packed and not packed (C145). *)
From Verif Require Import Bytes GoPath Here GoTypes GoNum WalkSpec Disk DiskOps Decls DeclsProofs Mem MemSpec MemBase MemFiles MarshalMem Marshal PropsMarshal Embed MemDirs
  Pack PropsPack PropsParser Std PropsStd PropsSame Both Handles PropsBoth PropsHandles JsonStr GoQuote Source SourceProofs PropsSource ParserDirs Project PropsProject PropsServed
  Examples PropsExamples.

(** What the pkger made from what was packed shows, for any names: at most what
    is on disk, and all of it where it was packed. *)
Definition entry_of (f : fobj) : entry := if d_isdir (f_info f) then EDir else EFile (f_data f).
Lemma packed_sees gz gunzip parse hdir hpkg fs c rs mp rg uorder order ds pl b names :
  packing gz gunzip parse hdir hpkg fs c rs mp rg uorder ->
  files parse hdir fs order ds = Ok pl -> Pack.inside rs pl -> stuff parse hdir hpkg fs gz rg order c ds = Ok b ->
  setting parse c rs mp names -> h_import c = mp ->
  exists m' T, unmarshal_embed gunzip parse uorder b = Marshal.Done m' /\ mem_shows c mp names (fun _ => True) m' T /\
    (forall ns e, names ns -> T ns = Some e -> tree_of fs rs ns = Some e) /\
    (forall ns, names ns -> taken fs rs (pf_abs <$> pl) ns -> T ns = tree_of fs rs ns).
Proof.
  intros Hp Hl Hin Hs HS Hi.
  destruct (stuff_stuffed gz gunzip parse hdir hpkg fs c rs mp rg uorder order ds b Hp Hs pl Hl Hin) as (m & m' & Hpk & Hu & Hw & Hss).
  assert (Hat : forall ns f, names ns -> file_at m' (Path mp (abs_name ns)) = Some f ->
    exists n, get fs (rs ++ ns) = Some n /\ f_info f = info_of (List.last ns []) n /\ f_data f = contents n).
  { intros ns f Hns Hf. pose proof (ss_files _ _ Hss (Path mp (abs_name ns))) as Es. rewrite Hf in Es.
    destruct (pk_only _ _ _ _ _ _ _ _ Hpk (Path mp (abs_name ns))) as (ws & HD & Ek).
    { destruct (file_at m (Path mp (abs_name ns))); [by eexists|done]. }
    destruct (pk_files _ _ _ _ _ _ _ _ Hpk ws HD) as (n & her & Hgw & Egw & _ & Ew). unfold key in Ek.
    destruct (st_good _ _ _ _ _ HS ns Hns) as [Hne Hg].
    assert (abs_name ns = abs_name ws) as E by congruence. apply abs_name_inj in E; [|done|done]. subst ws.
    destruct (list_snoc_cases ns) as [->|(us & u & ->)]; [done|].
    exists n. split; [done|]. unfold key in Ew. rewrite Ew in Es.
    assert (f_info f = info_of (base (abs_name (rs ++ us ++ [u]))) n /\ f_data f = contents n) as [Ei Ed].
    { unfold efile_of in Es. cbn [fmap option_fmap option_map f_here f_info f_path f_data f_parent] in Es. split; congruence. }
    split; [|done]. rewrite last_snoc. rewrite app_assoc, base_snoc in Ei; [done|].
    apply Forall_app in Hg as [_ Hg]. by apply List.Forall_cons_iff in Hg as [? _]. }
  exists m', (fun ns => entry_of <$> file_at m' (Path mp (abs_name ns))). split; [done|].
  assert (Htree : forall ns e, names ns -> entry_of <$> file_at m' (Path mp (abs_name ns)) = Some e -> tree_of fs rs ns = Some e).
  { intros ns e Hns He. destruct (file_at m' _) as [f|] eqn:Ef; [|done]. destruct (Hat ns f Hns Ef) as (n & Hn & Ei & Ed).
    cbn in He. injection He as <-. unfold tree_of, entry_of. rewrite Hn, Ei, Ed. by destruct n. }
  split; [split|split; [exact Htree|]].
  - done.
  - by rewrite (ss_here _ _ Hss), (pk_here _ _ _ _ _ _ _ _ Hpk).
  - rewrite (ss_infos _ _ Hss), (pk_infos _ _ _ _ _ _ _ _ Hpk), <- Hi, lookup_singleton. by eexists.
  - intros n _. by right; right.
  - intros ns Hns. destruct (file_at m' _) as [f|] eqn:Ef; [|done]. destruct (Hat ns f Hns Ef) as (n & Hn & Ei & Ed).
    cbn. unfold entry_of. rewrite Ei, Ed. destruct n as [i d|i cs]; exists f; rewrite ?Ei; done.
  - intros ns Hns Ht. destruct (pk_files _ _ _ _ _ _ _ _ Hpk _ Ht) as (n & her & _ & En & _ & Ef).
    pose proof (ss_files _ _ Hss (Path mp (abs_name ns))) as Es. unfold key in Ef. rewrite Ef in Es.
    destruct (file_at m' (Path mp (abs_name ns))) as [f|] eqn:Ef'; [|done]. symmetry. apply Htree; [done|]. by rewrite Ef'.
Qed.

(** ** The program *)

(** What it is told: the size of go.mod, that all went well, and "BIZ!!". *)
Definition dynamic_told (size : nat) : list hans :=
  [XAns (AInfo (Some (B"go.mod", false, Some (Z.of_nat size)))); XAns (ADone true); XOk true; XWrote (Some 5); XOk true;
   XOk true; XRead (B"BIZ!!") None; XRead [] (Some EEOF); XOk true].

Definition dyn_names (ns : list bytes) : Prop := ns = dyn_mod \/ (ns <> [] /\ ns `prefix_of` dyn_biz).

Lemma dyn_run (T : tree) chunk maxpos data :
  T dyn_mod = Some (EFile data) -> (forall vs b, vs `prefix_of` dyn_dir -> T vs <> Some (EFile b)) -> T dyn_biz <> Some EDir ->
  5 <= chunk ->
  exists T', calm_hs maxpos T [] (dynamic_run chunk) /\ plan_hs T [] (dynamic_run chunk) = (T', [HX; HX], dynamic_told (length data)) /\
    T' dyn_mod = Some (EFile data) /\ (forall vs, vs `prefix_of` dyn_dir -> T' vs = Some EDir) /\ T' dyn_biz = Some (EFile (B"BIZ!!")).
Proof.
  intros Hm Hd Hb Hc.
  set (T1 := (plan_do T (AMkdir dyn_dir)).1). set (T2 := put T1 dyn_biz (EFile [])). set (T3 := put T2 dyn_biz (EFile (B"BIZ!!"))).
  assert (H1 : T1 dyn_dir = Some EDir) by (unfold T1; cbn [plan_do fst]; by rewrite bool_decide_eq_true_2).
  assert (H1b : T1 dyn_biz = T dyn_biz) by (unfold T1; cbn [plan_do fst]; by rewrite bool_decide_eq_false_2 by (apply (bool_decide_unpack _); by vm_compute)).
  assert (H3 : T3 dyn_biz = Some (EFile (B"BIZ!!"))) by (unfold T3, put; by rewrite bool_decide_eq_true_2).
  assert (Ea : above dyn_biz = dyn_dir) by (by vm_compute).
  assert (S1 : plan_h T [] (HAct (AStat dyn_mod)) = (T, [], XAns (AInfo (Some (B"go.mod", false, Some (Z.of_nat (length data))))))).
  { cbn [plan_h plan_do]. by rewrite Hm. }
  assert (S2 : plan_h T [] (HAct (AMkdir dyn_dir)) = (T1, [], XAns (ADone true))) by done.
  assert (S3 : plan_h T1 [] (HCreate dyn_biz) = (T2, [HW dyn_biz []], XOk true)).
  { cbn [plan_h]. rewrite Ea. unfold dir_at. unfold dyn_dir at 1. by rewrite H1. }
  assert (S4 : plan_h T2 [HW dyn_biz []] (HWrite 0 (B"BIZ!!")) = (T2, [HW dyn_biz (B"BIZ!!")], XWrote (Some 5))) by done.
  assert (S5 : plan_h T2 [HW dyn_biz (B"BIZ!!")] (HClose 0) = (T3, [HX], XOk true)) by done.
  assert (S6 : plan_h T3 [HX] (HOpen dyn_biz) = (T3, [HX; HR dyn_biz (B"BIZ!!") 0], XOk true)) by (cbn [plan_h]; by rewrite H3).
  assert (S7 : plan_h T3 [HX; HR dyn_biz (B"BIZ!!") 0] (HRead 1 chunk) = (T3, [HX; HR dyn_biz (B"BIZ!!") 5], XRead (B"BIZ!!") None)).
  { do 5 (destruct chunk as [|chunk]; [lia|]). by destruct chunk. }
  assert (S8 : plan_h T3 [HX; HR dyn_biz (B"BIZ!!") 5] (HRead 1 chunk) = (T3, [HX; HR dyn_biz (B"BIZ!!") 5], XRead [] (Some EEOF))) by done.
  assert (S9 : plan_h T3 [HX; HR dyn_biz (B"BIZ!!") 5] (HClose 1) = (T3, [HX; HX], XOk true)) by done.
  exists T3. unfold dynamic_run. split; [|split; [|split; [|split]]].
  - cbn [calm_hs]. rewrite S1, S2, S3, S4, S5, S6, S7, S8, S9. split_and!.
    + split; [done|constructor].
    + split; [exact Hd|constructor].
    + split; [split|].
      * intros b. rewrite Ea, H1. discriminate.
      * by rewrite H1b.
      * intros [k [(? & ? & Hk)|(? & Hk)]]; by rewrite lookup_nil in Hk.
    + by eexists _, _.
    + by eexists.
    + cbn [calm_h]. rewrite H3. split; discriminate.
    + split; [lia|by eexists _, _, _].
    + split; [lia|by eexists _, _, _].
    + by eexists.
    + done.
  - cbn [plan_hs]. by rewrite S1, S2, S3, S4, S5, S6, S7, S8, S9.
  - unfold T3, T2, put. rewrite !bool_decide_eq_false_2 by (apply (bool_decide_unpack _); by vm_compute). unfold T1. cbn [plan_do fst].
    rewrite bool_decide_eq_false_2 by (apply (bool_decide_unpack _); by vm_compute). done.
  - intros vs Hv. assert (vs <> dyn_biz). { intros ->. apply prefix_length in Hv. cbn in Hv. lia. }
    unfold T3, T2, put. rewrite !bool_decide_eq_false_2 by done. unfold T1. cbn [plan_do fst]. by rewrite bool_decide_eq_true_2.
  - done.
Qed.

Lemma dyn_names_good ns : dyn_names ns -> ns <> [] /\ Forall good_elem ns.
Proof.
  assert (Forall good_elem dyn_biz) as H by good_elems.
  intros [->|[Hne [k E]]]; [split; [done|good_elems]|]. split; [done|]. rewrite E in H. by apply Forall_app in H as [H _].
Qed.
Lemma dyn_names_up ns vs : dyn_names ns -> vs `prefix_of` ns -> vs <> [] -> dyn_names vs.
Proof.
  intros [->|[Hne Hn]] Hv Hvs; [|right; split; [done|by etrans]]. left.
  destruct vs as [|v vs]; [done|]. destruct Hv as [k E]. cbn in E. injection E as <- E. symmetry in E. by apply app_nil in E as [-> _].
Qed.
Lemma dyn_prefix ns : ns `prefix_of` dyn_biz -> ns `prefix_of` dyn_dir \/ ns = dyn_biz.
Proof.
  intros [k E]. destruct k as [|x k _] using rev_ind; [right; by rewrite app_nil_r in E|]. left.
  rewrite app_assoc in E. unfold dyn_biz in E. apply app_inj_tail in E as [E _]. by exists k.
Qed.

Section Dynamic.
  Context (gz : bytes -> bytes) (gunzip : bytes -> res bytes) (parse : resolver).
  Context (hdir hpkg : bytes -> res hinfo) (gosrc : bytes -> bytes -> res source).
  Context (c : hinfo) (rs : list bytes) (mp : bytes) (incs : list bytes).

  (** The names the program uses mean what they should. *)
  Definition dyn_parses : Prop :=
    Forall good_elem rs /\ parse c (B"/") = Some (Path mp (B"/")) /\
    forall ns, dyn_names ns -> parse c (abs_name ns) = Some (Path mp (abs_name ns)) /\ parse c (abs_name ns ++ [slash]) = Some (Path mp (abs_name ns)).
  (** On disk there is go.mod, and of "foo" only what the program itself makes. *)
  Definition dyn_ready (fs : node) (data : bytes) : Prop :=
    wf_node fs /\ (exists i, get fs (rs ++ dyn_mod) = Some (NFile i data) /\ n_ok i = true) /\
    forall vs x, get fs (rs ++ B"foo" :: vs) = Some x ->
      B"foo" :: vs `prefix_of` dyn_biz /\ n_ok (n_meta x) = true /\ (n_isdir x = false <-> B"foo" :: vs = dyn_biz).

  Lemma dyn_setting : dyn_parses -> setting parse c rs mp dyn_names.
  Proof.
    intros (Hrs & Hroot & H). split; [done|apply dyn_names_good|apply dyn_names_up| | |done]; intros ns Hn; by apply H.
  Qed.
  Lemma dyn_foo ns : ns <> [] -> ns `prefix_of` dyn_biz -> exists vs, ns = B"foo" :: vs.
  Proof. destruct ns as [|v vs]; [done|]. intros _ [k E]. cbn in E. injection E as <- E. by exists vs. Qed.
  Lemma dyn_disk fs data : dyn_ready fs data -> disk_shows rs dyn_names fs (tree_of fs rs).
  Proof.
    intros (Hwf & (i & Hm & Hok) & Hfoo). split; [done| | |].
    - rewrite get_app in Hm. destruct (get fs rs) as [[|i' cs]|]; [done|by eexists _, _|done].
    - intros ns v [->|[Hne Hn]] [x Hx].
      + by rewrite app_assoc, get_app, Hm in Hx.
      + destruct (dyn_foo ns Hne Hn) as [vs ->]. right. split; [by destruct vs|]. by apply (Hfoo (vs ++ [v]) x).
    - intros ns Hns. unfold tree_of. destruct (get fs (rs ++ ns)) as [x|] eqn:Ex; [|done].
      assert (n_ok (n_meta x) = true) as Hx.
      { destruct Hns as [->|[Hne Hn]]; [rewrite Hm in Ex; by injection Ex as <-|].
        destruct (dyn_foo ns Hne Hn) as [vs ->]. by apply (Hfoo vs x). }
      destruct x as [j b|j cs]; [by exists j|by exists j, cs].
  Qed.
  Lemma dyn_tree fs data (T : tree) : dyn_ready fs data ->
    (forall ns e, dyn_names ns -> T ns = Some e -> tree_of fs rs ns = Some e) ->
    (forall vs b, vs `prefix_of` dyn_dir -> vs <> [] -> T vs <> Some (EFile b)) /\ T dyn_biz <> Some EDir.
  Proof.
    intros (_ & _ & Hfoo) HT. split.
    - intros vs b Hv Hne E. assert (Hb : vs `prefix_of` dyn_biz) by (etrans; [exact Hv|by eexists]).
      apply HT in E; [|by right]. unfold tree_of in E. destruct (dyn_foo vs Hne Hb) as [us ->].
      destruct (get fs (rs ++ B"foo" :: us)) as [x|] eqn:Ex; [|done]. destruct x as [j d|]; [|done].
      destruct (Hfoo us _ Ex) as (_ & _ & H & _). specialize (H eq_refl). rewrite H in Hv. apply prefix_length in Hv. cbn in Hv. lia.
    - intros E. apply HT in E; [|right; split; [done|by exists []; rewrite app_nil_r]]. unfold tree_of in E.
      destruct (get fs (rs ++ dyn_biz)) as [x|] eqn:Ex; [|done]. destruct (Hfoo [B"bar"; B"baz"; B"biz.txt"] x Ex) as (_ & _ & _ & H).
      specialize (H eq_refl). by destruct x.
  Qed.

  (** Not packed: what the program is told, and that afterwards it can be run
      again. *)
  Theorem C145_again fs data s nm hp maxpos chunk :
    dyn_parses -> dyn_ready fs data -> beside_it c rs mp s -> n_ok nm = true -> 5 <= chunk ->
    exists fs' ds, disk_hs parse nm hp maxpos fs s [] (dynamic_run chunk) = (fs', s, ds, dynamic_told (length data)) /\
      dyn_ready fs' data /\ exists i, get fs' (rs ++ dyn_biz) = Some (NFile i (B"BIZ!!")).
  Proof.
    intros HP HR Hb Hnm Hch. pose proof (dyn_setting HP) as HS. pose proof (dyn_disk fs data HR) as Hd.
    destruct (dyn_tree fs data (tree_of fs rs) HR) as [Hf Hbz]; [done|].
    pose proof HR as (Hwf & (i & Hm & Hok) & Hfoo).
    destruct (dyn_run (tree_of fs rs) chunk maxpos data) as (T' & Hc & Ep & H1 & H2 & H3).
    { unfold tree_of. by rewrite Hm. }
    { intros vs b Hv. destruct vs as [|v vs]; [|by apply Hf]. unfold tree_of. rewrite app_nil_r. destruct (ds_root _ _ _ _ Hd) as (j & cs & ->). done. }
    { done. }
    { done. }
    pose proof (disk_hprogram parse c rs mp dyn_names HS nm Hnm hp maxpos (dynamic_run chunk) fs s (tree_of fs rs) [] [] (tree_of fs rs)) as H.
    rewrite Ep in H. destruct H as (fs' & ds & Td & E & [Hd' Hsh _]); [split; [done|split; [done|done|done]|done]|done| |done|].
    { repeat apply List.Forall_cons; try apply List.Forall_nil; cbn [hact_names act_name]; try done.
      all: try (by left). all: right; (split; [done|]). all: by apply (bool_decide_unpack _); vm_compute. }
    assert (HT : forall vs, Td vs = T' vs).
    { intros vs. apply Hsh. intros k w Hk. apply elem_of_list_lookup_2 in Hk. repeat (apply elem_of_cons in Hk as [Hk|Hk]; [done|]). by apply elem_of_nil in Hk. }
    assert (Hbiz : exists j, get fs' (rs ++ dyn_biz) = Some (NFile j (B"BIZ!!")) /\ n_ok j = true).
    { pose proof (ds_at _ _ _ _ Hd' dyn_biz) as H. rewrite HT, H3 in H. apply H. right. split; [done|]. by apply (bool_decide_unpack _); vm_compute. }
    exists fs', ds. split; [done|]. split; [|destruct Hbiz as (j & Hj & _); by exists j].
    split; [apply Hd'|]. split.
    { pose proof (ds_at _ _ _ _ Hd' dyn_mod) as H. rewrite HT, H1 in H. destruct H as (j & Hj & Hjo); [by left|]. by exists j. }
    assert (Hn : forall vs x, get fs' (rs ++ B"foo" :: vs) = Some x -> dyn_names (B"foo" :: vs)).
    { intros vs. induction vs as [|v vs IH] using rev_ind; intros x Hx.
      - right. split; [done|]. by apply (bool_decide_unpack _); vm_compute.
      - apply (ds_only _ _ _ _ Hd' (B"foo" :: vs) v); [|by eexists].
        change (B"foo" :: vs ++ [v]) with ((B"foo" :: vs) ++ [v]) in Hx. rewrite app_assoc, get_app in Hx.
        destruct (get fs' (rs ++ B"foo" :: vs)) as [y|] eqn:Ey; [by apply (IH y)|done]. }
    intros vs x Hx. pose proof (Hn vs x Hx) as Hnm'. destruct (Hn vs x Hx) as [Em|[_ Hp]]; [discriminate Em|]. split; [done|].
    pose proof (ds_at _ _ _ _ Hd' _ Hnm') as Ha. rewrite HT, Hx in Ha. destruct (dyn_prefix _ Hp) as [Hp'|E'].
    - rewrite (H2 _ Hp') in Ha. destruct Ha as (j & cs & [= ->] & Hjo). split; [done|]. split; [done|]. intros E'.
      rewrite E' in Hp'. apply prefix_length in Hp'. cbn in Hp'. lia.
    - rewrite E', H3 in Ha. destruct Ha as (j & [= ->] & Hjo). by split.
  Qed.

  (** Full claim: "examples/dynamic does the same packed and not packed".
      Proved for a module as [project] and [packing] describe it, with a go.mod
      that can be read and nothing of its own called "foo"; what the program
      itself made on disk before it was packed may be there.  The text that
      fmt.Println makes of the FileInfo is left out. *)
  Theorem C145_same_partial fs n dorder order rg uorder chunk data :
    packing gz gunzip parse hdir hpkg fs c rs mp rg uorder -> some_order order -> (forall l, dorder l ≡ₚ l) ->
    project parse hdir hpkg fs gosrc c rs mp incs n -> rs <> [] -> h_import c = mp ->
    has_main gosrc rs n dynamic_ast -> resolves parse hdir c rs mp (B"/go.mod") dyn_mod ->
    quiet parse hdir hpkg gosrc c rs incs n (B"/go.mod") dyn_mod ->
    dyn_parses -> dyn_ready fs data -> 5 <= chunk ->
    exists F, forall fuel b, F <= fuel -> pack_project gz parse hdir hpkg fs gosrc c incs fuel dorder order rg = Ok b ->
    exists m', unmarshal_embed gunzip parse uorder b = Marshal.Done m' /\
      (forall now, (mem_hs parse now m' [] (dynamic_run chunk)).2 = dynamic_told (length data)) /\
      (forall s nm hp maxpos, beside_it c rs mp s -> n_ok nm = true ->
        (disk_hs parse nm hp maxpos fs s [] (dynamic_run chunk)).2 = dynamic_told (length data)).
  Proof.
    intros Hpk Hord Hdo Hproj Hrs0 Hi Hmain Hres Hq HP HR Hch.
    destruct (asked gz gunzip parse hdir hpkg fs gosrc c rs mp incs n dorder order rg uorder Hpk Hord Hdo Hproj) as [F HF]. exists F. intros fuel b Hf Hb.
    destruct (HF fuel b Hf Hb) as (dl & l & Hl & Hin & Hst & Hask).
    pose proof HR as (Hwf & (i & Hm & Hok) & Hfoo).
    assert (Hcall : abs_name (rs ++ dyn_mod) ∈ pf_abs <$> l).
    { apply (Hask dyn_mod _ (B"/go.mod") Hm); [|done].
      apply (main_calls parse hdir gosrc c rs mp n dynamic_ast KStat (str "/go.mod") [] (B"/go.mod") dyn_mod Hmain); [left|done|done|constructor|by vm_compute|done]. }
    destruct (packed_sees gz gunzip parse hdir hpkg fs c rs mp rg uorder order dl l b dyn_names Hpk Hl Hin Hst (dyn_setting HP) Hi) as (m' & T & Hu & Hsh & HT1 & HT2).
    set (T0 := fun ns => match ns with [] => None | _ => T ns end).
    assert (Hsh0 : mem_shows c mp dyn_names (fun _ => True) m' T0).
    { destruct Hsh as [? ? ? ? Hat]. split; [done..|]. intros ns Hns. specialize (Hat ns Hns). by destruct ns; [destruct (dyn_names_good [] Hns)|]. }
    assert (HT0 : forall ns e, dyn_names ns -> T0 ns = Some e -> tree_of fs rs ns = Some e). { intros [|v vs] e Hns E; [done|by apply HT1]. }
    destruct (dyn_tree fs data T0 HR HT0) as [Hfl Hbz].
    exists m'. split; [done|]. split.
    - intros now. destruct (dyn_run T0 chunk 0 data) as (T' & Hc & Ep & _).
      { change (T dyn_mod = Some (EFile data)). rewrite HT2; [unfold tree_of; by rewrite Hm|by left|].
        exists dyn_mod, [], (NFile i data). rewrite app_nil_r. split; [done|]. split; [done|]. split; [good_elems|]. split; [|done].
        apply (not_tmp gz gunzip hdir hpkg gosrc rs gz (B"go.mod") []); [done|by vm_compute|]. apply Nat.leb_le. by vm_compute. }
      { intros [|v vs] b' Hv; [done|by apply Hfl]. }
      { done. }
      { done. }
      pose proof (mem_hprogram parse c rs mp dyn_names (dyn_setting HP) now 0 ltac:(lia) (fun _ => True) (dynamic_run chunk) m' T0 [] []) as H.
      rewrite Ep in H. destruct H as (m2 & hs & E1 & _); [split; [done|constructor|done]| |done|by rewrite E1].
      repeat apply List.Forall_cons; try apply List.Forall_nil; cbn [hact_names act_name]; try done.
      all: try (by left). all: right; (split; [done|]). all: by apply (bool_decide_unpack _); vm_compute.
    - intros s nm hp maxpos Hbe Hnm. destruct (C145_again fs data s nm hp maxpos chunk HP HR Hbe Hnm Hch) as (fs' & ds & E & _). by rewrite E.
  Qed.
End Dynamic.

(** ** A module with the program *)

(** /src/app: go.mod and main.go. *)
Definition dyn_app : node := NDir wit_meta [(B"go.mod", NFile wit_meta (B"module app")); (B"main.go", NFile wit_meta (B"main"))].
Definition dyn_fs : node := NDir wit_meta [(B"src", NDir wit_meta [(B"app", dyn_app)])].
Definition dyn_ds : list decl :=
  [wit_decl KStat (B"/go.mod") dyn_mod; wit_decl KMkdirAll (B"/foo/bar/baz") dyn_dir; wit_decl KCreate (B"/foo/bar/baz/biz.txt") dyn_biz;
   wit_decl KOpen (B"/foo/bar/baz/biz.txt") dyn_biz].

Lemma dynfs_wf : wf_node dyn_fs.
Proof. wf_tac. Qed.
Lemma dynapp_wf : wf_node dyn_app.
Proof. wf_tac. Qed.
Lemma dyn_all (P : list bytes -> node -> Prop) :
  Forall (fun x => P x.1 x.2) (nodes dyn_app) -> forall ws n, get dyn_fs (wit_rs ++ ws) = Some n -> P ws n.
Proof.
  intros H ws n Hg. rewrite get_app in Hg. change (get dyn_fs wit_rs) with (Some dyn_app) in Hg.
  apply (nodes_forall P dyn_app); [apply dynapp_wf|done|done].
Qed.
Lemma dyn_packing gz gunzip :
  (forall x, gunzip (gz x) = Ok x) ->
  packing gz gunzip here_parse wit_hdir wit_hdir dyn_fs her_ex wit_rs (B"app") any_range (fun l => l).
Proof.
  intros Hz. split; [done|done|done|apply dynfs_wf| | |done].
  - split; [good_elems| |]; apply dyn_all; cbn [nodes visited];
      repeat (apply List.Forall_cons; [by vm_compute|]); apply List.Forall_nil.
  - split; [info_tac|intros p i [= <-]; info_tac|intros p i [= <-]; info_tac| |]; apply dyn_all; cbn [nodes visited dyn_app];
      repeat (apply List.Forall_cons); try apply List.Forall_nil; cbn [fst snd].
    all: try (split; [split; u8|u8]). all: det_tac.
Qed.
Lemma dyn_disknames ws x : get dyn_fs (wit_rs ++ ws) = Some x ->
  here_parse her_ex (rel_name ws) = Some (Path (B"app") (abs_name ws)).
Proof.
  revert ws x. apply dyn_all. cbn [nodes visited dyn_app app].
  repeat (apply List.Forall_cons; [by vm_compute|]). apply List.Forall_nil.
Qed.
Lemma dyn_go vs w i text : has_suffix w (B".go") = true -> get dyn_app (vs ++ [w]) = Some (NFile i text) -> vs = [] /\ w = B"main.go" /\ text = B"main".
Proof.
  intros Hgo Hg.
  assert (H : vs ++ [w] = [B"main.go"]).
  { revert Hgo. pose proof (nodes_forall (fun ws n => forall vs w i text, ws = vs ++ [w] -> n = NFile i text -> has_suffix w (B".go") = true ->
      vs ++ [w] = [B"main.go"]) dyn_app dynapp_wf) as H. refine (fun Hgo => H _ _ _ Hg vs w i text eq_refl eq_refl Hgo).
    clear. cbn [nodes visited dyn_app app].
    repeat (apply List.Forall_cons; [intros vs w i text E1 E2 Hgo; cbn [fst snd] in E1, E2|]); [..|apply List.Forall_nil].
    all: try discriminate E2.
    - apply (app_inj_tail [] vs (B"go.mod") w) in E1 as [<- <-]. discriminate Hgo.
    - done. }
  apply (app_inj_tail vs [] w (B"main.go")) in H as [-> ->]. split; [done|]. split; [done|].
  cbn in Hg. by injection Hg as <- <-.
Qed.
Lemma dyn_source vs w s :
  source_file (ex_src dynamic_ast) wit_rs dyn_app vs w s -> vs = [] /\ w = B"main.go" /\ s = Src dynamic_ast no_objs.
Proof.
  intros (_ & Hgo & i & text & Hg & _ & Hs). destruct (dyn_go vs w i text Hgo Hg) as (-> & -> & ->). split; [done|]. split; [done|].
  unfold ex_src in Hs. rewrite bool_decide_eq_true_2 in Hs by done. by injection Hs.
Qed.
Lemma dyn_main_is : has_main (ex_src dynamic_ast) wit_rs dyn_app dynamic_ast.
Proof.
  split; [split; [by eexists|]|].
  - intros v1 v2 E. symmetry in E. apply app_nil in E as [-> _]. by vm_compute.
  - split; [by vm_compute|]. exists wit_meta, (B"main"). split; [done|]. split; [done|]. unfold ex_src. by rewrite bool_decide_eq_true_2.
Qed.
Lemma dyn_call vs w s k : source_file (ex_src dynamic_ast) wit_rs dyn_app vs w s -> k ∈ all_calls (s_ast s) ->
  exists d, d ∈ dyn_ds /\ declares here_parse wit_hdir wit_hdir (s_objs s) (abs_name (wit_rs ++ vs ++ [w])) k d.
Proof.
  intros Hs Hk. apply dyn_source in Hs as (-> & -> & ->). cbn [s_ast s_objs] in *.
  assert (E : all_calls dynamic_ast = [(KStat, [str "/go.mod"]); (KMkdirAll, [str "/foo/bar/baz"; ALit (B"0755")]); (KCreate, [str "/foo/bar/baz/biz.txt"]);
    (KOpen, [str "/foo/bar/baz/biz.txt"])]) by (by vm_compute).
  rewrite E in Hk. repeat (apply elem_of_cons in Hk as [->|Hk]); [..|by apply elem_of_nil in Hk].
  - exists (wit_decl KStat (B"/go.mod") dyn_mod). split; [left|]. apply (proj_declares _ KStat "/go.mod" _ dyn_mod); by vm_compute.
  - exists (wit_decl KMkdirAll (B"/foo/bar/baz") dyn_dir). split; [right; left|]. apply (proj_declares _ KMkdirAll "/foo/bar/baz" _ dyn_dir); by vm_compute.
  - exists (wit_decl KCreate (B"/foo/bar/baz/biz.txt") dyn_biz). split; [right; right; left|].
    apply (proj_declares _ KCreate "/foo/bar/baz/biz.txt" _ dyn_biz); by vm_compute.
  - exists (wit_decl KOpen (B"/foo/bar/baz/biz.txt") dyn_biz). split; [right; right; right; left|].
    apply (proj_declares _ KOpen "/foo/bar/baz/biz.txt" _ dyn_biz); by vm_compute.
Qed.
Lemma dyn_decls d :
  project_decl here_parse wit_hdir wit_hdir (ex_src dynamic_ast) her_ex wit_rs [] dyn_app d -> d ∈ dyn_ds.
Proof.
  intros [(inc & Hi & E)|(vs & w & s & k & Hs & Hk & Hd)]; [by apply elem_of_nil in Hi|].
  destruct (dyn_call vs w s k Hs Hk) as (d' & Hin & Hd'). by rewrite (declares_det _ _ _ _ _ _ _ _ Hd Hd').
Qed.
Ltac dyn_each H := repeat (apply elem_of_cons in H as [->|H]); [..|by apply elem_of_nil in H].
Lemma dyn_project : project here_parse wit_hdir wit_hdir dyn_fs (ex_src dynamic_ast) her_ex wit_rs (B"app") [] dyn_app.
Proof.
  split; [done|done|done| | | | |done|].
  - split.
    + intros vs Hd. exists her_ex. split; [done|]. destruct Hd as ((c & Hc & _) & _). revert vs c Hc.
      apply (nodes_forall _ dyn_app dynapp_wf). cbn [nodes visited dyn_app app].
      repeat (apply List.Forall_cons; [vm_compute; by eexists|]). apply List.Forall_nil.
    + intros vs c Hc _. revert vs c Hc. apply (nodes_forall _ dyn_app dynapp_wf). cbn [nodes visited dyn_app app].
      repeat (apply List.Forall_cons; [done|]). apply List.Forall_nil.
    + intros vs w i text _ Hgo Hg. destruct (dyn_go vs w i text Hgo Hg) as (-> & -> & ->). eexists. unfold ex_src. by rewrite bool_decide_eq_true_2.
    + intros vs w s Hs. apply dyn_source in Hs as (-> & -> & ->). cbn [s_ast s_objs]. split; [by intros ?|]. cbn. repeat split; by vm_compute.
    + intros vs w s k Hs Hk. destruct (dyn_call vs w s k Hs Hk) as (d & _ & Hd). by exists d.
  - intros inc Hi. by apply elem_of_nil in Hi.
  - intros d Hd Hv.
    assert (exists k v ns, d = wit_decl k v ns /\ Forall good_elem ns /\ join2 (B"/src/app") (abs_name ns) = abs_name (wit_rs ++ ns)) as (k & v & ns & -> & Hns & E4).
    { apply dyn_decls in Hd. dyn_each Hd; (eexists _, _, _; split; [reflexivity|]; split; [good_elems|by vm_compute]). }
    exists ns. split; [by apply wit_placed|]. split; [done|]. intros x Hx.
    assert (Hgh : good_here here_parse wit_rs ns x her_ex).
    { split; [done|]. intros vs c Hc. exists (Path (B"app") (abs_name (ns ++ vs))). apply (dyn_disknames _ c).
      by rewrite app_assoc, get_app, Hx. }
    split; [|done|].
    + intros vs c Hc. assert (Hg : get dyn_fs (wit_rs ++ ns ++ vs) = Some c) by (by rewrite app_assoc, get_app, Hx).
      revert Hg. generalize (ns ++ vs). clear. intros ws. revert ws c. apply dyn_all. cbn [nodes visited dyn_app app].
      repeat (apply List.Forall_cons; [done|]). apply List.Forall_nil.
    + intros vs c _ _. by exists her_ex.
  - intros h ws x pt Hh _ Hg. assert (h = her_ex) as ->.
    { destruct Hh as [[q [= ->]]|(d & Hd & ->)]; [done|]. apply dyn_decls in Hd. by dyn_each Hd. }
    rewrite (dyn_disknames ws x Hg). by intros [= <-].
  - intros d ws Hd _. apply dyn_decls in Hd. dyn_each Hd; unfold abs_name; destruct ws; cbn; discriminate.
Qed.
Lemma dyn_quiet : quiet here_parse wit_hdir wit_hdir (ex_src dynamic_ast) her_ex wit_rs [] dyn_app (B"/go.mod") dyn_mod.
Proof. intros d Hd Hv. apply dyn_decls in Hd. dyn_each Hd; try discriminate Hv; split; vm_compute; discriminate. Qed.
Lemma dyn_her_parses : dyn_parses here_parse her_ex wit_rs (B"app").
Proof.
  split; [good_elems|]. split; [by vm_compute|]. intros ns [->|[Hne Hp]]; [split; by vm_compute|].
  assert (E : ns = take (length ns) dyn_biz). { destruct Hp as [k ->]. by rewrite take_app. }
  apply prefix_length in Hp. rewrite E. destruct ns as [|? ns]; [done|]. clear -Hp. cbn [length] in *. revert Hp.
  generalize (length ns). intros [|[|[|[|k]]]] Hp; [split; by vm_compute..|]. cbn in Hp. lia.
Qed.
Lemma dyn_is_ready : dyn_ready wit_rs dyn_fs (B"module app").
Proof.
  split; [apply dynfs_wf|]. split; [by exists wit_meta|]. intros vs x Hx. exfalso.
  change (wit_rs ++ B"foo" :: vs) with ((wit_rs ++ [B"foo"]) ++ vs) in Hx. rewrite get_app in Hx.
  change (get dyn_fs (wit_rs ++ [B"foo"])) with (@None node) in Hx. done.
Qed.
Example C145_ex gz gunzip : (forall x, gunzip (gz x) = Ok x) ->
  packing gz gunzip here_parse wit_hdir wit_hdir dyn_fs her_ex wit_rs (B"app") any_range (fun l => l) /\
  project here_parse wit_hdir wit_hdir dyn_fs (ex_src dynamic_ast) her_ex wit_rs (B"app") [] dyn_app /\
  has_main (ex_src dynamic_ast) wit_rs dyn_app dynamic_ast /\ resolves here_parse wit_hdir her_ex wit_rs (B"app") (B"/go.mod") dyn_mod /\
  quiet here_parse wit_hdir wit_hdir (ex_src dynamic_ast) her_ex wit_rs [] dyn_app (B"/go.mod") dyn_mod /\
  dyn_parses here_parse her_ex wit_rs (B"app") /\ dyn_ready wit_rs dyn_fs (B"module app") /\
  (disk_hs here_parse std_meta no_hp (2^40) dyn_fs (std_new her_ex) [] (dynamic_run 5)).2 = dynamic_told 10 /\
  exists b m', pack_project gz here_parse wit_hdir wit_hdir dyn_fs (ex_src dynamic_ast) her_ex [] 5 (fun l => l) (fun l => l) any_range = Ok b /\
    unmarshal_embed gunzip here_parse (fun l => l) b = Marshal.Done m' /\
    (mem_hs here_parse both_now m' [] (dynamic_run 5)).2 = dynamic_told 10.
Proof.
  intros Hz. split; [by apply dyn_packing|]. split; [apply dyn_project|]. split; [apply dyn_main_is|].
  split; [split; [by vm_compute|intros h [= <-]; by vm_compute]|]. split; [apply dyn_quiet|]. split; [apply dyn_her_parses|]. split; [apply dyn_is_ready|].
  split; [by vm_compute|].
  destruct (packs_intro wit_hdir wit_hdir dyn_fs her_ex [wit_decl KMkdirAll (B"/foo/bar/baz") dyn_dir; wit_decl KCreate (B"/foo/bar/baz/biz.txt") dyn_biz;
    wit_decl KStat (B"/go.mod") dyn_mod; wit_decl KOpen (B"/foo/bar/baz/biz.txt") dyn_biz] (fun m' =>
     (mem_hs here_parse both_now m' [] (dynamic_run 5)).2 = dynamic_told 10)) with gz gunzip as (b & m' & Eb & Eu & H); [by vm_compute|done|].
  exists b, m'. split; [|exact (conj Eu H)]. unfold pack_project.
  match type of Eb with stuff _ _ _ _ _ _ _ _ ?ds = _ =>
    assert (parse_project here_parse wit_hdir wit_hdir dyn_fs (ex_src dynamic_ast) (fun l => l) 5 her_ex [] = Ok ds) as -> by (by vm_compute) end.
  exact Eb.
Qed.

(** A file called "foo" beside go.mod: not packed, MkdirAll fails; packed, where
    that file is not, all goes well. *)
Theorem C145_refuted :
  exists fs, wf_node fs /\
    (disk_hs here_parse std_meta no_hp (2^40) fs (std_new her_ex) [] (dynamic_run 5)).2 !! 1 = Some (XAns (ADone false)) /\
    forall gz gunzip, (forall x, gunzip (gz x) = Ok x) ->
      exists b m', pack_project gz here_parse wit_hdir wit_hdir fs (ex_src dynamic_ast) her_ex [] 5 (fun l => l) (fun l => l) any_range = Ok b /\
        unmarshal_embed gunzip here_parse (fun l => l) b = Marshal.Done m' /\
        (mem_hs here_parse both_now m' [] (dynamic_run 5)).2 = dynamic_told 10.
Proof.
  exists (NDir wit_meta [(B"src", NDir wit_meta [(B"app", NDir wit_meta [(B"foo", NFile wit_meta (B"x")); (B"go.mod", NFile wit_meta (B"module app"));
    (B"main.go", NFile wit_meta (B"main"))])])]).
  split; [wf_tac|]. split; [by vm_compute|]. intros gz gunzip Hz. set (fs := NDir _ _).
  destruct (packs_intro wit_hdir wit_hdir fs her_ex [wit_decl KMkdirAll (B"/foo/bar/baz") dyn_dir; wit_decl KCreate (B"/foo/bar/baz/biz.txt") dyn_biz;
    wit_decl KStat (B"/go.mod") dyn_mod; wit_decl KOpen (B"/foo/bar/baz/biz.txt") dyn_biz] (fun m' =>
     (mem_hs here_parse both_now m' [] (dynamic_run 5)).2 = dynamic_told 10)) with gz gunzip as (b & m' & Eb & Eu & H); [by vm_compute|done|].
  exists b, m'. split; [|exact (conj Eu H)]. unfold pack_project.
  match type of Eb with stuff _ _ _ _ _ _ _ _ ?ds = _ =>
    assert (parse_project here_parse wit_hdir wit_hdir fs (ex_src dynamic_ast) (fun l => l) 5 her_ex [] = Ok ds) as -> by (by vm_compute) end.
  exact Eb.
Qed.
