(** Theorems: the programs in /repo/examples do the same with pkger as with
    package os, packed or not (C143). *)
From Verif Require Import Bytes GoPath Here GoTypes GoNum WalkSpec Disk DiskOps Decls DeclsProofs Mem MemSpec MemBase MemFiles MemReaddir InStep MarshalMem Marshal PropsMarshal Embed
  Pack PropsPack PropsParser Std PropsStd PropsSame Handles JsonStr GoQuote Source SourceProofs PropsSource ParserDirs Project PropsProject PropsServed Examples.

(** ** Copying *)

(** What io.Copy makes of a list of reads. *)
Fixpoint of_reads (l : list (bytes * option gerr)) : option (bytes * option gerr) :=
  match l with
  | [] => None
  | (b, None) :: l => match of_reads l with Some (out, e) => Some (b ++ out, e) | None => None end
  | (b, Some e) :: _ => Some (b, if bool_decide (e = EEOF) then None else Some e)
  end.
Lemma of_reads_of data n fuel : 0 < n -> length data < fuel -> of_reads (reads_of data (replicate fuel n)) = Some (data, None).
Proof.
  intros Hn. revert data. induction fuel as [|fuel IH]; intros data Hf; [lia|]. cbn [replicate reads_of].
  destruct data as [|a data]; [done|]. cbn [of_reads]. rewrite IH.
  - by rewrite take_drop.
  - rewrite drop_length. cbn [length] in *. lia.
Qed.
Lemma copy_mem chunk fuel m r : copy (mem_file_read chunk) fuel (m, r) = of_reads (read_seq m r (replicate fuel chunk)).
Proof.
  revert m. induction fuel as [|fuel IH]; intros m; [done|]. cbn [copy replicate read_seq]. unfold mem_file_read at 1. cbn [fst snd].
  destruct (file_read m r chunk) as [m' [b [e|]]]; cbn [of_reads]; [done|]. by rewrite IH.
Qed.
Lemma copy_os chunk fuel i data pos : 0 < chunk -> length (drop pos data) < fuel ->
  copy (os_file_read chunk) fuel (NFile i data, pos) = Some (drop pos data, None).
Proof.
  intros Hc. revert pos. induction fuel as [|fuel IH]; intros pos Hf; [lia|].
  cbn [copy]. unfold os_file_read at 1. destruct (drop pos data) as [|a l] eqn:E; [done|].
  assert (Hd : drop (pos + length (take chunk (a :: l))) data = drop chunk (a :: l)).
  { rewrite <- drop_drop, E, take_length. destruct (decide (chunk <= length (a :: l))); [by rewrite Nat.min_l|].
    rewrite Nat.min_r, !drop_ge by lia. done. }
  rewrite IH by (rewrite Hd, drop_length; cbn [length] in *; lia). by rewrite Hd, take_drop.
Qed.
Lemma copy_dev fs chunk fuel f i data : 0 < chunk -> find fs (sf_os f) = Some (NFile i data) -> length (drop (sf_pos f) data) < fuel ->
  copy (fun f => sfile_read fs f chunk) fuel f = Some (drop (sf_pos f) data, None).
Proof.
  intros Hc. revert f. induction fuel as [|fuel IH]; intros f Hfi Hf; [lia|].
  cbn [copy]. unfold sfile_read at 1. rewrite Hfi. destruct chunk as [|n]; [lia|].
  destruct (drop (sf_pos f) data) as [|a l] eqn:E; [done|].
  assert (Hd : drop (sf_pos f + length (take (S n) (a :: l))) data = drop (S n) (a :: l)).
  { rewrite <- drop_drop, E, take_length. destruct (decide (S n <= length (a :: l))); [by rewrite Nat.min_l|].
    rewrite Nat.min_r, !drop_ge by lia. done. }
  rewrite IH; cbn [sf_os sf_pos]; [by rewrite Hd, take_drop|done|]. rewrite Hd, drop_length. cbn [length] in *. lia.
Qed.

(** ** Walking *)

Lemma mem_rows pt keys skip s m :
  walk_loop mem_walk_fn pt keys skip (s.*2) m =
    let '((x, m'), e) := walk_loop (lift_fn record_fn) pt keys skip s m in ((x.*2, m'), e).
Proof.
  revert skip s. induction keys as [|k keys IH]; intros skip s; cbn [walk_loop]; [done|].
  case_match; [apply IH|]. case_match; [apply IH|]. case_match; [apply IH|]. destruct (file_at m k) as [f|]; [|done].
  unfold mem_walk_fn at 1, lift_fn at 1. cbn [record_fn]. rewrite <- IH, fmap_app. done.
Qed.
Lemma fwalk_proj {S1 S2} (pr : S1 -> S2) (f1 : wfunc S1) (f2 : wfunc S2) :
  (forall p d e s, f2 p d e (pr s) = let '(s', e') := f1 p d e s in (pr s', e')) ->
  forall n p s, fwalk f2 p n (pr s) = let '(s', e') := fwalk f1 p n s in (pr s', e').
Proof.
  intros H n. induction n as [i d|i cs IH] using node_ind'; intros p s; cbn [fwalk]; [apply H|].
  destruct (n_ok i); [|apply H]. rewrite H. destruct (f1 p _ None s) as [s' [e|]]; [done|].
  clear s. revert s'. induction cs as [|x cs IHcs]; intros s'; cbn [walk_children]; [done|]. apply Forall_cons in IH as [Hx IH].
  rewrite Hx. destruct (fwalk f1 (join2 p x.1) x.2 s') as [s2 [e|]].
  - destruct (n_isdir x.2 && bool_decide (e = ESkipDir)); [by apply IHcs|done].
  - by apply IHcs.
Qed.
Lemma dev_rows (parse : resolver) hp fs s p :
  std_walk parse hp fs s p (fun _ d l => (l ++ [d], None)) [] =
    let '((x, s'), e) := std_walk parse hp fs s p record_fn [] in ((x.*2, s'), e).
Proof.
  unfold std_walk. destruct (parse (so_here s) p) as [pt|]; [|done]. destruct (std_info hp s (p_pkg pt)) as [s1 [her|e]]; [|done].
  set (pr := fun x : list (bytes * details) * sto => (x.1.*2, x.2)).
  assert (Hpr : forall q d e x, std_walk_fn parse hp (p_pkg pt) (fun _ d (l : list details) => (l ++ [d], @None gerr)) q d e (pr x) =
    let '(x', e') := std_walk_fn parse hp (p_pkg pt) record_fn q d e x in (pr x', e')).
  { intros q d e [x s2]. unfold std_walk_fn, pr. destruct e as [e|]; [done|]. destruct d as [d|]; [|done]. cbn [fst snd].
    destruct (parse (so_here s2) _) as [pt'|]; [|done]. destruct (std_info hp s2 (p_pkg pt')) as [s3 [i|e]]; [|done].
    cbn [record_fn fst snd]. by rewrite fmap_app. }
  unfold walk_disk. change (@nil details, s1) with (pr ([], s1)).
  destruct (find fs _) as [n|].
  - rewrite (fwalk_proj pr _ _ Hpr). by destruct (fwalk _ _ n _) as [[x s2] e].
  - rewrite Hpr. by destruct (std_walk_fn _ _ _ _ _ _ _ _) as [[x s2] e].
Qed.

(** ** The theorems *)

Section Same.
  Context (gz : bytes -> bytes) (gunzip : bytes -> res bytes) (parse : resolver).
  Context (hdir hpkg : bytes -> res hinfo) (fs : node) (gosrc : bytes -> bytes -> res source).
  Context (c : hinfo) (rs : list bytes) (mp : bytes) (incs : list bytes).
  Context (mode_text : N -> bytes) (time_text : gotime -> bytes) (tabs : bytes -> bytes).

  (** main.go, in the root of the module, is the program [a]. *)
  Definition has_main (n : node) (a : ast) : Prop := source_file gosrc rs n [] (B"main.go") (Src a no_objs).
  (** [name] means the file [ns] of the module. *)
  Definition resolves (name : bytes) (ns : list bytes) : Prop :=
    parse c name = Some (Path mp (abs_name ns)) /\
    forall h, hdir (abs_name rs) = Ok h -> parse h name = Some (Path mp (abs_name ns)).
  (** No call of Create or MkdirAll in the module has that name. *)
  Definition quiet (n : node) (val : bytes) (ns : list bytes) : Prop :=
    forall d, project_decl parse hdir hpkg gosrc c rs incs n d -> is_virtual d = true -> d_value d <> val /\ d_value d <> rel_name ns.

  Lemma asked n dorder order rg uorder :
    packing gz gunzip parse hdir hpkg fs c rs mp rg uorder -> some_order order -> (forall l, dorder l ≡ₚ l) ->
    project parse hdir hpkg fs gosrc c rs mp incs n ->
    exists F, forall fuel b, F <= fuel -> pack_project gz parse hdir hpkg fs gosrc c incs fuel dorder order rg = Ok b ->
      exists dl l, files parse hdir fs order dl = Ok l /\ Pack.inside rs l /\ stuff parse hdir hpkg fs gz rg order c dl = Ok b /\
        forall ds x val, get fs (rs ++ ds) = Some x -> calls_for parse hdir gosrc rs mp n ds val -> quiet n val ds ->
          abs_name (rs ++ ds) ∈ pf_abs <$> l.
  Proof.
    intros Hpk Ho Hdo Hp. pose proof (pg_wf _ _ _ _ _ _ _ _ _ _ _ Hpk) as Hwf.
    pose proof (ad_rs _ _ _ _ _ (pg_addr _ _ _ _ _ _ _ _ _ _ _ Hpk)) as Hrs.
    destruct (project_found parse hdir hpkg fs gosrc c rs mp incs n dorder Hwf Hrs Hp Hdo) as [F HF]. exists F. intros fuel b Hf Hpb.
    destruct (HF fuel Hf) as (dl & E & Hvf & Hds & Hmod & Hecho). unfold pack_project in Hpb. rewrite E in Hpb.
    pose proof (C34_complete_partial parse hdir fs order dl Hwf Ho Hvf Hmod Hecho) as H34. unfold PropsParser.listing in H34.
    pose proof Hpb as Hst. unfold stuff, stuffed in Hst.
    destruct (files parse hdir fs order dl) as [l|] eqn:El; [|done]. clear Hst. destruct H34 as [H34 _].
    exists dl, l. split; [done|]. split; [|split; [done|]].
    { apply Forall_forall. intros f Hfl.
      destruct (proj1 (H34 (pf_abs f))) as (d' & Hd' & Hr); [apply elem_of_list_fmap; by exists f|].
      destruct Hr as (Hv' & _ & rs' & ns & x & Hpd' & Hgx & Hr). apply Hds in Hd'.
      destruct (pr_decls _ _ _ _ _ _ _ _ _ _ Hp d' Hd' Hv') as (ns2 & Hpl2 & _).
      destruct (placed_unique _ _ _ _ _ Hpd' Hpl2) as [-> ->].
      destruct Hr as [(_ & _ & Ef)|(_ & us & y & Hy & Ef & _)].
      + exists ns2. split; [apply Hpd'|done].
      + exists (ns2 ++ us). split; [|done].
        assert (Hgy : get fs (rs ++ ns2 ++ us) = Some y) by (by rewrite app_assoc, get_app, Hgx).
        destruct (wf_get _ _ _ Hwf Hgy) as [_ Hgd]. by apply Forall_app in Hgd as [_ ?]. }
    intros ds x val Hg (vs & w & s & k & a & rest & text & Hs & Hc & Hk1 & Hk2 & Ht & Hq & Hpa) Hvirt.
    destruct (sc_calls _ _ _ _ _ _ (pr_scan _ _ _ _ _ _ _ _ _ _ Hp) vs w s (k, a :: rest) Hs Hc) as [d Hd].
    assert (Hpd : project_decl parse hdir hpkg gosrc c rs incs n d). { right. exists vs, w, s, (k, a :: rest). done. }
    pose proof Hd as (Ek & (a' & rest' & text' & Ea & Ht' & Hq') & info & home & Hi & Hpt & Eh & Hhome & Eabs).
    cbn [fst snd] in Ek, Ea. injection Ea as <- <-.
    rewrite (text_of_det _ _ _ _ Ht Ht') in Hq. assert (val = d_value d) as -> by congruence.
    assert (Hv : is_virtual d = false). { unfold is_virtual. rewrite Ek. by destruct k. }
    destruct (pr_decls _ _ _ _ _ _ _ _ _ _ Hp d Hpd Hv) as (ns' & Hpl & Epath & Hflat).
    pose proof Hs as (((cd & Hcd & Hdir) & _) & _ & i' & t' & Hgs & _ & _).
    assert (Hdn : dirname (abs_name (rs ++ vs ++ [w])) = abs_name (rs ++ vs)).
    { assert (Hgood : Forall good_elem (rs ++ vs ++ [w])).
      { apply (wf_get fs (rs ++ vs ++ [w]) (NFile i' t')); [done|]. by rewrite get_app, (pr_get _ _ _ _ _ _ _ _ _ _ Hp). }
      rewrite !Forall_app in Hgood. destruct Hgood as (? & ? & Hw). apply Forall_cons in Hw as [? _].
      rewrite app_assoc, dirname_snoc; [done|by apply Forall_app|done]. }
    assert (Hgood : Forall good_elem ds). { destruct (wf_get _ _ _ Hwf Hg) as [_ H]. by apply Forall_app in H as [_ H]. }
    rewrite Hdn in Hi. rewrite (Hpa info Hi), Epath in Hpt. injection Hpt as Hn.
    assert (ds = ns') as <-. { apply abs_name_inj; [done|apply Hpl|]. unfold abs_name. by f_equal. }
    apply H34. exists d. split; [by apply Hds|]. split; [done|]. split.
    { intros [_ (y & Hy & Hyv & Ey)]. apply Hds in Hy. destruct (Hvirt y Hy Hyv) as [Hne _]. done. }
    exists rs, ds, x. split; [done|]. split; [done|].
    destruct (decide (dk d = KWalk \/ n_isdir x = true)) as [Hw|Hw].
    - right. split; [exact Hw|]. exists [], x. split; [done|]. split; [by rewrite app_nil_r|].
      intros v1 v2 Ev (y & Hy & Hyv & Ey). symmetry in Ev. apply app_nil in Ev as [-> ->]. apply Hds in Hy.
      destruct (Hvirt y Hy Hyv) as [_ Hne]. rewrite app_nil_r in Ey. done.
    - left. split; [intros H; apply Hw; by left|]. split; [|done]. destruct (n_isdir x); [|done]. exfalso. apply Hw. by right.
  Qed.

  Lemma main_calls n a k arg rest val ds :
    has_main n a -> (k, arg :: rest) ∈ all_calls a -> k <> KCreate -> k <> KMkdirAll ->
    text_of no_objs arg (plain_lit val) -> unquote (plain_lit val) = Some val -> resolves val ds -> calls_for parse hdir gosrc rs mp n ds val.
  Proof.
    intros Hm Hc H1 H2 Ht Hq [_ Hr]. exists [], (B"main.go"), (Src a no_objs), k, arg, rest, (plain_lit val).
    split; [exact Hm|]. do 5 (split; [done|]). intros h. rewrite app_nil_r. apply Hr.
  Qed.

  Definition index : list bytes := [B"public"; B"index.html"].
  Definition index_name : bytes := B"/public/index.html".

  Lemma not_tmp w ws : rs <> [] -> has_suffix (rel_name (w :: ws)) tmp_suffix = false -> length tmp_suffix <= length (rel_name (w :: ws)) ->
    has_suffix (abs_name (rs ++ w :: ws)) tmp_suffix = false.
  Proof.
    intros Hrs Hs Hl. rewrite abs_name_app by done. apply not_true_iff_false. intros H. apply not_true_iff_false in Hs. apply Hs.
    apply has_suffix_spec in H as [x H]. apply has_suffix_spec. exists (drop (length (abs_name rs)) x).
    pose proof (f_equal length H) as Hn. rewrite !app_length in Hn.
    apply (f_equal (drop (length (abs_name rs)))) in H. rewrite drop_app in H. rewrite H, drop_app_le; [done|lia].
  Qed.

  (** What is printed: the report, and for examples/open the file. *)
  Definition stat_printed (x : node) : bytes * option gerr := (report mode_text time_text (info_of (B"index.html") x), None).
  Definition open_printed (i : meta) (data : bytes) : option (bytes * option gerr) :=
    Some (report mode_text time_text (info_of (B"index.html") (NFile i data)) ++ data, None).

  (** Full claim: "examples/open/pkger prints what examples/open/std prints,
      packed or not".  Proved for a file that is not empty and can be read, in a
      module as [project] and [packing] describe it.  [std_name] is
      "./public/index.html" from the module's root. *)
  Theorem C143_open_partial n dorder order rg uorder chunk i data :
    packing gz gunzip parse hdir hpkg fs c rs mp rg uorder -> some_order order -> (forall l, dorder l ≡ₚ l) ->
    project parse hdir hpkg fs gosrc c rs mp incs n -> rs <> [] ->
    has_main n open_ast -> resolves index_name index -> quiet n index_name index ->
    get fs (rs ++ index) = Some (NFile i data) -> n_ok i = true -> data <> [] -> 0 < chunk ->
    exists F, forall fuel b, F <= fuel -> pack_project gz parse hdir hpkg fs gosrc c incs fuel dorder order rg = Ok b ->
    exists m', unmarshal_embed gunzip parse uorder b = Marshal.Done m' /\
      forall cf s hp, length data < cf -> beside_it c rs mp s ->
        std_open_example mode_text time_text chunk fs (abs_name (rs ++ index)) cf = open_printed i data /\
        dev_open_example mode_text time_text parse chunk hp fs s index_name cf = open_printed i data /\
        packed_open_example mode_text time_text parse chunk m' index_name cf = open_printed i data.
  Proof.
    intros Hpk Hord Hdo Hproj Hrs0 Hmain Hres Hq Hg Hok Hne Hch.
    destruct (asked n dorder order rg uorder Hpk Hord Hdo Hproj) as [F HF]. exists F. intros fuel b Hf Hb.
    destruct (HF fuel b Hf Hb) as (dl & l & Hl & Hin & Hst & Hask).
    assert (Hcall : abs_name (rs ++ index) ∈ pf_abs <$> l).
    { apply (Hask index _ index_name Hg); [|done].
      apply (main_calls n open_ast KOpen (str "/public/index.html") [] index_name index Hmain); [left|done|done|constructor|by vm_compute|done]. }
    pose proof (pg_wf _ _ _ _ _ _ _ _ _ _ _ Hpk) as Hwf.
    destruct (wf_get _ _ _ Hwf Hg) as [_ Hgood].
    assert (Htak : taken fs rs (pf_abs <$> l) index).
    { exists index, [], (NFile i data). rewrite app_nil_r. split; [done|]. split; [done|]. split; [by apply Forall_app in Hgood as [_ ?]|]. split; [|done].
      apply not_tmp; [done|by vm_compute|]. apply Nat.leb_le. by vm_compute. }
    destruct (stuff_stuffed gz gunzip parse hdir hpkg fs c rs mp rg uorder order dl b Hpk Hst l Hl Hin) as (m & m' & _ & Hu & _).
    exists m'. split; [done|]. intros cf s hp Hcf Hbe.
    destruct (C54_files_partial gz gunzip parse hdir hpkg fs c rs mp rg uorder order dl l b s Hpk Hl Hin Hst Hbe) as (m2 & Hu2 & H54).
    assert (m2 = m') as -> by congruence.
    assert (Hfind : find fs (abs_name (rs ++ index)) = Some (NFile i data)) by (by rewrite find_abs).
    assert (Hbase : base (abs_name (rs ++ index)) = B"index.html").
    { change index with ([B"public"] ++ [B"index.html"]). rewrite app_assoc. apply base_snoc.
      apply Forall_app in Hgood as [_ Hgood]. unfold index in Hgood. rewrite !Forall_cons in Hgood. apply Hgood. }
    destruct (H54 index index_name hp (proj1 Hres)) as (_ & H & _). destruct (H Htak i data Hg Hok) as (f & Ho & Hsee & _). clear H.
    assert (Hsf : sf_os f = abs_name (rs ++ index) /\ sf_pos f = 0 /\ sf_info f = info_of (B"index.html") (NFile i data)).
    { revert Ho. destruct Hbe as [Hh (her & Hinfo & Hdir)]. unfold std_open. rewrite Hh, (proj1 Hres), Hinfo. cbn [p_name]. rewrite Hdir.
      apply Forall_app in Hgood as [Hg1 Hg2]. rewrite clean_join_abs by done. unfold os_open. rewrite Hfind. cbn [n_meta]. rewrite Hok, new_file_info_id, Hbase.
      intros [= <-]. done. }
    destruct Hsf as (Hsf1 & Hsf2 & Hsf3). split_and!.
    - unfold std_open_example, open_run, os_open. rewrite Hfind, Hbase. cbn [n_meta]. rewrite Hok. rewrite copy_os; [done|done|by rewrite drop_0].
    - unfold dev_open_example, open_run. rewrite Ho, Hsf3. rewrite (copy_dev fs chunk cf f i data); rewrite ?Hsf1, ?Hsf2; done.
    - unfold packed_open_example, open_run. rewrite Hsf3 in Hsee.
      destruct (seen_open _ _ _ _ _ Hsee) as (m3 & h3 & fo & Ho3 & Hfo & Hinf & Hd & _ & Hrd). rewrite Ho3. unfold info_at. rewrite Hfo. cbn.
      rewrite Hinf, copy_mem, (read_seq_fresh m3 h3 fo); [|done|done|congruence]. rewrite Hd, of_reads_of by done. done.
  Qed.

  (** The same for examples/stat, also for an empty file. *)
  Theorem C143_stat_partial n dorder order rg uorder x :
    packing gz gunzip parse hdir hpkg fs c rs mp rg uorder -> some_order order -> (forall l, dorder l ≡ₚ l) ->
    project parse hdir hpkg fs gosrc c rs mp incs n -> rs <> [] ->
    has_main n stat_ast -> resolves index_name index -> quiet n index_name index ->
    get fs (rs ++ index) = Some x ->
    exists F, forall fuel b, F <= fuel -> pack_project gz parse hdir hpkg fs gosrc c incs fuel dorder order rg = Ok b ->
    exists m', unmarshal_embed gunzip parse uorder b = Marshal.Done m' /\
      forall s hp, beside_it c rs mp s ->
        std_stat_example mode_text time_text fs (abs_name (rs ++ index)) = stat_printed x /\
        dev_stat_example mode_text time_text parse hp fs s index_name = stat_printed x /\
        packed_stat_example mode_text time_text parse m' index_name = stat_printed x.
  Proof.
    intros Hpk Hord Hdo Hproj Hrs0 Hmain Hres Hq Hg.
    destruct (asked n dorder order rg uorder Hpk Hord Hdo Hproj) as [F HF]. exists F. intros fuel b Hf Hb.
    destruct (HF fuel b Hf Hb) as (dl & l & Hl & Hin & Hst & Hask).
    assert (Hcall : abs_name (rs ++ index) ∈ pf_abs <$> l).
    { apply (Hask index _ index_name Hg); [|done].
      apply (main_calls n stat_ast KStat (str "/public/index.html") [] index_name index Hmain); [left|done|done|constructor|by vm_compute|done]. }
    pose proof (pg_wf _ _ _ _ _ _ _ _ _ _ _ Hpk) as Hwf.
    destruct (wf_get _ _ _ Hwf Hg) as [_ Hgood].
    assert (Htak : taken fs rs (pf_abs <$> l) index).
    { exists index, [], x. rewrite app_nil_r. split; [done|]. split; [done|]. split; [by apply Forall_app in Hgood as [_ ?]|]. split; [|done].
      apply not_tmp; [done|by vm_compute|]. apply Nat.leb_le. by vm_compute. }
    destruct (stuff_stuffed gz gunzip parse hdir hpkg fs c rs mp rg uorder order dl b Hpk Hst l Hl Hin) as (m & m' & _ & Hu & _).
    exists m'. split; [done|]. intros s hp Hbe.
    destruct (C54_files_partial gz gunzip parse hdir hpkg fs c rs mp rg uorder order dl l b s Hpk Hl Hin Hst Hbe) as (m2 & Hu2 & H54).
    assert (m2 = m') as -> by congruence.
    assert (Hfind : find fs (abs_name (rs ++ index)) = Some x) by (by rewrite find_abs).
    assert (Hbase : base (abs_name (rs ++ index)) = B"index.html").
    { change index with ([B"public"] ++ [B"index.html"]). rewrite app_assoc. apply base_snoc.
      apply Forall_app in Hgood as [_ Hgood]. unfold index in Hgood. rewrite !Forall_cons in Hgood. apply Hgood. }
    destruct (H54 index index_name hp (proj1 Hres)) as (H & _). destruct (H Htak) as (d & Hd & Hsh). clear H.
    assert (Hos : os_stat fs (abs_name (rs ++ index)) = Ok (info_of (B"index.html") x)) by (unfold os_stat; by rewrite Hfind, Hbase).
    assert (d = info_of (B"index.html") x) as ->.
    { rewrite (stat_at parse s index_name (abs_name (rs ++ index)) hp fs) in Hd; [congruence|]. destruct Hbe as [Hh (her & Hinfo & Hdir)].
      exists (Path mp (abs_name index)), her. rewrite Hh. split; [exact (proj1 Hres)|]. split; [done|]. rewrite Hdir. cbn [p_name].
      apply Forall_app in Hgood as [Hg1 Hg2]. by rewrite clean_join_abs. }
    split_and!.
    - unfold std_stat_example. by rewrite Hos.
    - unfold dev_stat_example. by rewrite Hd.
    - unfold packed_stat_example. unfold stat_shows in Hsh. destruct (stat parse m' index_name) as [r|e]; [|done]. by injection Hsh as ->.
  Qed.

  (** The same for examples/walk: packed, the lines are those of the walk with
      path/filepath, in the same order unless a name sorts between a directory's
      and those of what is in it.
      A directory "public" whose files can be read, and nothing else in the
      module has a name that begins with "public". *)
  Theorem C143_walk_partial n dorder order rg uorder x :
    packing gz gunzip parse hdir hpkg fs c rs mp rg uorder -> some_order order -> (forall l, dorder l ≡ₚ l) ->
    project parse hdir hpkg fs gosrc c rs mp incs n -> rs <> [] -> mp <> [] ->
    has_main n walk_ast -> resolves (B"/public") [B"public"] -> quiet n (B"/public") [B"public"] ->
    get fs (rs ++ [B"public"]) = Some x -> all_open x ->
    (forall w, is_Some (get fs (rs ++ [w])) -> has_prefix w (B"public") = true -> w = B"public") ->
    (forall vs y, get fs (rs ++ [B"public"] ++ vs) = Some y ->
       backslash ∉ abs_name ([B"public"] ++ vs) /\
       exists n, parse c (mp ++ colon :: abs_name (rs ++ [B"public"] ++ vs)) = Some (Path mp n)) ->
    exists F, forall fuel b, F <= fuel -> pack_project gz parse hdir hpkg fs gosrc c incs fuel dorder order rg = Ok b ->
    exists m' packed on_disk, unmarshal_embed gunzip parse uorder b = Marshal.Done m' /\
      packed_walk_example mode_text time_text tabs parse m' (B"/public") = (tabs (concat packed), None) /\
      std_walk_example mode_text time_text tabs fs (abs_name (rs ++ [B"public"])) = (tabs (concat on_disk), None) /\
      (forall s hp, beside_it c rs mp s -> dev_walk_example mode_text time_text tabs parse hp fs s (B"/public") = (tabs (concat on_disk), None)) /\
      packed ≡ₚ on_disk /\ (in_step (fun vs => is_Some (get x vs)) -> packed = on_disk) /\
      exists lv, is_visit x (fun _ => false) lv /\
        on_disk = map (fun y => row mode_text time_text (info_of (base (abs_name ([B"public"] ++ y.1))) y.2)) lv.
  Proof.
    intros Hpk Hord Hdo Hproj Hrs0 Hmp0 Hmain Hres Hq Hg Hop Hap Hnames.
    destruct (asked n dorder order rg uorder Hpk Hord Hdo Hproj) as [F HF]. exists F. intros fuel b Hf Hb.
    destruct (HF fuel b Hf Hb) as (dl & l & Hl & Hin & Hst & Hask).
    assert (Hcall : abs_name (rs ++ [B"public"]) ∈ pf_abs <$> l).
    { apply (Hask [B"public"] _ (B"/public") Hg); [|done].
      eapply (main_calls n walk_ast KWalk (str "/public") _ (B"/public") [B"public"] Hmain); [left|done|done|constructor|by vm_compute|done]. }
    pose proof (pg_wf _ _ _ _ _ _ _ _ _ _ _ Hpk) as Hwf.
    destruct (wf_get _ _ _ Hwf Hg) as [Hwx Hgood]. apply Forall_app in Hgood as [Hrs Hpub].
    assert (Htak : forall vs, is_Some (get x vs) -> taken fs rs (pf_abs <$> l) ([B"public"] ++ vs)).
    { intros vs [y Hy]. exists [B"public"], vs, y. split; [done|]. split; [done|]. split; [done|]. split.
      - apply not_tmp; [done|by vm_compute|]. apply Nat.leb_le. by vm_compute.
      - by rewrite app_assoc, get_app, Hg. }
    assert (Hsep : forall ws, taken fs rs (pf_abs <$> l) ws -> has_prefix (abs_name ws) (abs_name [B"public"]) = true -> exists vs, ws = [B"public"] ++ vs).
    { intros ws (? & ? & y & _ & _ & _ & _ & Hy) Hpre. destruct ws as [|w ws]; [vm_compute in Hpre; discriminate Hpre|].
      exists ws. cbn [app]. f_equal. destruct (wf_get _ _ _ Hwf Hy) as [_ H]. apply Forall_app in H as [_ H]. apply Forall_cons in H as [Hw Hws]. apply Hap.
      - change (w :: ws) with ([w] ++ ws) in Hy. rewrite app_assoc, get_app in Hy. by destruct (get fs (rs ++ [w])).
      - apply (child_prefix [] (B"public") w ws); [by apply Forall_cons in Hpub as [? _]|done|done]. }
    set (her := HInfo (abs_name rs) [] [] [] false [] [] []). set (s0 := Sto c {[mp := her]}).
    assert (Hinfo : forall hp, std_info hp s0 mp = (s0, Ok her)) by (intros hp; unfold std_info; cbn; by rewrite lookup_singleton).
    assert (Hs0 : beside_it c rs mp s0) by (split; [done|by exists her]).
    destruct (C54_walk_partial gz gunzip parse hdir hpkg fs c rs mp rg uorder order dl l b s0 Hpk Hl Hin Hst Hs0 Hrs0 Hmp0) as (m' & Hu & H54).
    destruct (H54 [B"public"] x (B"/public") (fun _ => Err EParse) (proj1 Hres) Hg Hop Htak Hsep Hnames) as (od & pk & Hw1 & Hw2 & Hperm & Hsame).
    assert (Hdev : forall s hp, beside_it c rs mp s -> (std_walk parse hp fs s (B"/public") (fun _ d l => (l ++ [d], None)) []) =
      ((walk_disk fs (abs_name (rs ++ [B"public"])) os_walk_fn []).1, s, (walk_disk fs (abs_name (rs ++ [B"public"])) os_walk_fn []).2)).
    { intros s hp [Hh (her' & Hi & Hd)].
      apply (C51_walk_partial parse hp fs s s (B"/public") mp her' rs [B"public"] (fun _ d l => (l ++ [d], None)) os_walk_fn []); rewrite ?Hh; try done.
      exact (proj1 Hres). }
    assert (Hod : walk_disk fs (abs_name (rs ++ [B"public"])) os_walk_fn [] = (od.*2, None)).
    { specialize (Hdev s0 (fun _ => Err EParse) Hs0). rewrite dev_rows, Hw1 in Hdev.
      destruct (walk_disk fs (abs_name (rs ++ [B"public"])) os_walk_fn []) as [r e]. by injection Hdev as -> ->. }
    exists m', (row mode_text time_text <$> pk.*2), (row mode_text time_text <$> od.*2). split; [done|]. split; [|split; [|split; [|split; [|split]]]].
    - unfold packed_walk_example, walk. unfold walk in Hw2. destruct (mem_parse parse m' (B"/public")) as [pt|]; [|done].
      rewrite (mem_rows pt _ _ [] m'). by rewrite Hw2.
    - unfold std_walk_example. by rewrite Hod.
    - intros s hp Hbe. unfold dev_walk_example. rewrite (Hdev s hp Hbe), Hod. done.
    - by rewrite Hperm.
    - intros Hlow. by rewrite (proj2 Hsame Hlow).
    - destruct (C51_names_partial parse (fun _ => Err EParse) fs s0 s0 (B"/public") mp her rs [B"public"] x) as (lv & Hlv & Hwl);
        [done|done|done|done|done|exact (proj1 Hres)|done|done|done|done|done|].
      exists lv. split; [exact Hlv|]. unfold record_fn in Hw1. rewrite Hwl in Hw1. injection Hw1 as <-.
      change (row mode_text time_text <$> (map (fun x0 => (mp ++ colon :: abs_name ([B"public"] ++ x0.1), info_of (base (abs_name (rs ++ [B"public"] ++ x0.1))) x0.2)) lv).*2
        = (fun y : list bytes * node => row mode_text time_text (info_of (base (abs_name ([B"public"] ++ y.1))) y.2)) <$> lv).
      rewrite <- (list_fmap_compose _ snd), <- list_fmap_compose. apply list_fmap_ext.
      intros j [vs y] Hy. apply elem_of_list_lookup_2, Hlv in Hy as [Hy _]. destruct (wf_get _ _ _ Hwx Hy) as [_ Hvs]. cbn [compose fst snd].
      do 2 f_equal. destruct vs as [|w vs _] using rev_ind.
      + rewrite app_nil_r. rewrite base_snoc; [by vm_compute|]. by apply Forall_cons in Hpub as [? _].
      + apply Forall_app in Hvs as [_ Hw]. apply Forall_cons in Hw as [Hw _]. rewrite !app_assoc, !base_snoc by done. done.
  Qed.

  (** The file is not there: package os and pkger, not packed, return the same
      error and print nothing.  (Packing fails then, C34.) *)
  Theorem C143_missing chunk cf s hp :
    Forall good_elem rs -> beside_it c rs mp s ->
    (parse c index_name = Some (Path mp (abs_name index)) -> get fs (rs ++ index) = None ->
      let err op := EPath op (abs_name (rs ++ index)) in
      std_open_example mode_text time_text chunk fs (abs_name (rs ++ index)) cf = Some ([], Some (err (B"open"))) /\
      dev_open_example mode_text time_text parse chunk hp fs s index_name cf = Some ([], Some (err (B"open"))) /\
      std_stat_example mode_text time_text fs (abs_name (rs ++ index)) = ([], Some (err (B"stat"))) /\
      dev_stat_example mode_text time_text parse hp fs s index_name = ([], Some (err (B"stat")))) /\
    (parse c (B"/public") = Some (Path mp (abs_name [B"public"])) -> get fs (rs ++ [B"public"]) = None ->
      let err := EPath (B"lstat") (abs_name (rs ++ [B"public"])) in
      std_walk_example mode_text time_text tabs fs (abs_name (rs ++ [B"public"])) = (tabs [], Some err) /\
      dev_walk_example mode_text time_text tabs parse hp fs s (B"/public") = (tabs [], Some err)).
  Proof.
    intros Hrs [Hh (her & Hinfo & Hdir)]. split.
    - intros Hp Hg err.
      assert (Hi : Forall good_elem index) by good_elems.
      assert (Hf : find fs (abs_name (rs ++ index)) = None) by (rewrite find_abs; [done|by apply Forall_app]).
      unfold std_open_example, dev_open_example, std_stat_example, dev_stat_example, std_open, std_stat, os_open, os_stat.
      rewrite Hh, Hp, Hinfo. cbn [p_pkg p_name]. rewrite ?Hinfo. rewrite Hdir, clean_join_abs by done. rewrite !Hf. done.
    - intros Hp Hg err.
      assert (Hi : Forall good_elem [B"public"]) by good_elems.
      assert (Hf : find fs (abs_name (rs ++ [B"public"])) = None) by (rewrite find_abs; [done|by apply Forall_app]).
      unfold std_walk_example, dev_walk_example, std_walk, walk_disk.
      rewrite Hh, Hp. cbn [p_pkg p_name]. rewrite Hinfo, Hdir, clean_join_abs by done. rewrite !Hf. done.
  Qed.
End Same.

(** ** A module with the example programs *)

Definition ex_meta : meta := Meta 384 (GoTime 1600000001 0 0) 6 JNull true.
(** /src/app: main.go is one of the examples; public/img/b.png and
    public/index.html. *)
Definition ex_public : node := NDir wit_meta [(B"img", NDir wit_meta [(B"b.png", NFile wit_meta (B"PNG"))]); (B"index.html", NFile ex_meta (B"<html>"))].
Definition ex_app : node := NDir wit_meta [(B"main.go", NFile wit_meta (B"main")); (B"public", ex_public)].
Definition ex_fs : node := NDir wit_meta [(B"src", NDir wit_meta [(B"app", ex_app)])].
Definition ex_src (a : ast) : bytes -> bytes -> res source := fun _ text =>
  if bool_decide (text = B"main") then Ok (Src a no_objs) else Err EParse.

Lemma ex_wf : wf_node ex_fs.
Proof. wf_tac. Qed.
Lemma ex_app_wf : wf_node ex_app.
Proof. wf_tac. Qed.
Lemma ex_all (P : list bytes -> node -> Prop) :
  Forall (fun x => P x.1 x.2) (nodes ex_app) -> forall ws n, get ex_fs (wit_rs ++ ws) = Some n -> P ws n.
Proof.
  intros H ws n Hg. rewrite get_app in Hg. change (get ex_fs wit_rs) with (Some ex_app) in Hg.
  apply (nodes_forall P ex_app); [apply ex_app_wf|done|done].
Qed.
Lemma ex_packing gz gunzip :
  (forall x, gunzip (gz x) = Ok x) ->
  packing gz gunzip here_parse wit_hdir wit_hdir ex_fs her_ex wit_rs (B"app") any_range (fun l => l).
Proof.
  intros Hz. split; [done|done|done|apply ex_wf| | |done].
  - split; [good_elems| |]; apply ex_all; cbn [nodes visited];
      repeat (apply List.Forall_cons; [by vm_compute|]); apply List.Forall_nil.
  - split; [info_tac|intros p i [= <-]; info_tac|intros p i [= <-]; info_tac| |]; apply ex_all; cbn [nodes visited ex_app];
      repeat (apply List.Forall_cons); try apply List.Forall_nil; cbn [fst snd].
    all: try (split; [split; u8|u8]). all: det_tac.
Qed.
Lemma ex_names ws x : get ex_fs (wit_rs ++ ws) = Some x ->
  here_parse her_ex (rel_name ws) = Some (Path (B"app") (abs_name ws)).
Proof.
  revert ws x. apply ex_all. cbn [nodes visited ex_app app].
  repeat (apply List.Forall_cons; [by vm_compute|]). apply List.Forall_nil.
Qed.

Section Project.
  Context (a : ast) (k : kind) (s0 : string) (rest : list ast) (ns : list bytes).
  Context (Hcalls : all_calls a = [(k, str s0 :: rest)]) (Hk : k <> KCreate /\ k <> KMkdirAll).
  Context (Hns : Forall good_elem ns) (E1 : abs_name ns = list_ascii_of_string s0)
    (E2 : unquote (plain_lit (list_ascii_of_string s0)) = Some (list_ascii_of_string s0))
    (E3 : here_parse her_ex (list_ascii_of_string s0) = Some (Path (B"app") (abs_name ns)))
    (E4 : join2 (B"/src/app") (abs_name ns) = abs_name (wit_rs ++ ns))
    (E5 : forall ws, list_ascii_of_string s0 <> abs_name (wit_rs ++ ws)).

  Lemma ex_go vs w i text : has_suffix w (B".go") = true -> get ex_app (vs ++ [w]) = Some (NFile i text) -> vs = [] /\ w = B"main.go" /\ text = B"main".
  Proof.
    intros Hgo Hg.
    assert (H : vs ++ [w] = [B"main.go"]).
    { revert Hgo. pose proof (nodes_forall (fun ws n => forall vs w i text, ws = vs ++ [w] -> n = NFile i text -> has_suffix w (B".go") = true ->
        vs ++ [w] = [B"main.go"]) ex_app ex_app_wf) as H. refine (fun Hgo => H _ _ _ Hg vs w i text eq_refl eq_refl Hgo).
      clear. cbn [nodes visited ex_app ex_public app].
      repeat (apply List.Forall_cons; [intros vs w i text E1 E2 Hgo; cbn [fst snd] in E1, E2|]); [..|apply List.Forall_nil].
      all: try discriminate E2.
      - done.
      - apply (app_inj_tail [B"public"; B"img"] vs (B"b.png") w) in E1 as [<- <-]. discriminate Hgo.
      - apply (app_inj_tail [B"public"] vs (B"index.html") w) in E1 as [<- <-]. discriminate Hgo. }
    apply (app_inj_tail vs [] w (B"main.go")) in H as [-> ->]. split; [done|]. split; [done|].
    cbn in Hg. by injection Hg as <- <-.
  Qed.
  Lemma ex_source vs w s :
    source_file (ex_src a) wit_rs ex_app vs w s -> vs = [] /\ w = B"main.go" /\ s = Src a no_objs.
  Proof.
    intros (_ & Hgo & i & text & Hg & _ & Hs). destruct (ex_go vs w i text Hgo Hg) as (-> & -> & ->). split; [done|]. split; [done|].
    unfold ex_src in Hs. rewrite bool_decide_eq_true_2 in Hs by done. by injection Hs.
  Qed.
  Lemma ex_main_is : has_main (ex_src a) wit_rs ex_app a.
  Proof.
    split; [split; [by eexists|]|].
    - intros v1 v2 E. symmetry in E. apply app_nil in E as [-> _]. by vm_compute.
    - split; [by vm_compute|]. exists wit_meta, (B"main"). split; [done|]. split; [done|]. unfold ex_src. by rewrite bool_decide_eq_true_2.
  Qed.
  Lemma ex_call vs w s c : source_file (ex_src a) wit_rs ex_app vs w s -> c ∈ all_calls (s_ast s) ->
    declares here_parse wit_hdir wit_hdir (s_objs s) (abs_name (wit_rs ++ vs ++ [w])) c (wit_decl k (list_ascii_of_string s0) ns).
  Proof.
    intros Hs Hc. apply ex_source in Hs as (-> & -> & ->). cbn [s_ast s_objs] in *. rewrite Hcalls in Hc. apply elem_of_list_singleton in Hc as ->.
    by apply (proj_declares _ k s0 rest ns).
  Qed.
  Lemma ex_decls d :
    project_decl here_parse wit_hdir wit_hdir (ex_src a) her_ex wit_rs [] ex_app d -> d = wit_decl k (list_ascii_of_string s0) ns.
  Proof.
    intros [(inc & Hi & E)|(vs & w & s & c & Hs & Hc & Hd)]; [by apply elem_of_nil in Hi|].
    apply (declares_det _ _ _ _ _ _ _ _ Hd). by eapply ex_call.
  Qed.
  Context (Hids : idents_ok a).
  Lemma ex_scannable : scannable here_parse wit_hdir wit_hdir (ex_src a) wit_rs ex_app.
  Proof.
    split.
    - intros vs Hd. exists her_ex. split; [done|]. destruct Hd as ((c & Hc & _) & _). revert vs c Hc.
      apply (nodes_forall _ ex_app ex_app_wf). cbn [nodes visited ex_app app].
      repeat (apply List.Forall_cons; [vm_compute; by eexists|]). apply List.Forall_nil.
    - intros vs c Hc _. revert vs c Hc. apply (nodes_forall _ ex_app ex_app_wf). cbn [nodes visited ex_app app].
      repeat (apply List.Forall_cons; [done|]). apply List.Forall_nil.
    - intros vs w i text _ Hgo Hg. destruct (ex_go vs w i text Hgo Hg) as (-> & -> & ->). eexists. unfold ex_src. by rewrite bool_decide_eq_true_2.
    - intros vs w s Hs. apply ex_source in Hs as (-> & -> & ->). cbn [s_ast s_objs]. split; [by intros ?|done].
    - intros vs w s c Hs Hc. eexists. by eapply ex_call.
  Qed.
  Lemma ex_virtual : is_virtual (wit_decl k (list_ascii_of_string s0) ns) = false.
  Proof. unfold is_virtual. cbn. destruct Hk. by destruct k. Qed.
  Lemma ex_project : project here_parse wit_hdir wit_hdir ex_fs (ex_src a) her_ex wit_rs (B"app") [] ex_app.
  Proof.
    split; [done|done|done|apply ex_scannable| | | |done|].
    - intros inc Hi. by apply elem_of_nil in Hi.
    - intros d Hd _. apply ex_decls in Hd as ->. exists ns. split; [by apply wit_placed|]. split; [done|].
      intros x Hx.
      assert (Hgh : good_here here_parse wit_rs ns x her_ex).
      { split; [done|]. intros vs c Hc. exists (Path (B"app") (abs_name (ns ++ vs))). apply (ex_names _ c).
        by rewrite app_assoc, get_app, Hx. }
      split; [|done|].
      + intros vs c Hc. assert (Hg : get ex_fs (wit_rs ++ ns ++ vs) = Some c) by (by rewrite app_assoc, get_app, Hx).
        revert Hg. generalize (ns ++ vs). clear. intros ws. revert ws c. apply ex_all. cbn [nodes visited ex_app app].
        repeat (apply List.Forall_cons; [done|]). apply List.Forall_nil.
      + intros vs c _ _. by exists her_ex.
    - intros h ws x pt Hh _ Hg. assert (h = her_ex) as ->.
      { destruct Hh as [[q [= ->]]|(d & Hd & ->)]; [done|]. by apply ex_decls in Hd as ->. }
      rewrite (ex_names ws x Hg). by intros [= <-].
    - intros d ws Hd _. apply ex_decls in Hd as ->. apply E5.
  Qed.
  Lemma ex_quiet val vs : quiet here_parse wit_hdir wit_hdir (ex_src a) her_ex wit_rs [] ex_app val vs.
  Proof. intros d Hd Hv. apply ex_decls in Hd as ->. by rewrite ex_virtual in Hv. Qed.
End Project.

(** The texts of modes and times, for the examples: their numbers. *)
Definition mode_ex (m : N) : bytes := dec_z (Z.of_N m).
Definition time_ex (t : gotime) : bytes := dec_z (t_sec t).

Lemma ex_resolves : resolves here_parse wit_hdir her_ex wit_rs (B"app") index_name index.
Proof. split; [by vm_compute|]. intros h [= <-]. by vm_compute. Qed.
Lemma ex_resolves_public : resolves here_parse wit_hdir her_ex wit_rs (B"app") (B"/public") [B"public"].
Proof. split; [by vm_compute|]. intros h [= <-]. by vm_compute. Qed.

Lemma ex_packed gz a k s0 ns b :
  parse_project here_parse wit_hdir wit_hdir ex_fs (ex_src a) (fun l => l) 5 her_ex [] = Ok [wit_decl k s0 ns] ->
  stuff here_parse wit_hdir wit_hdir ex_fs gz any_range (fun l => l) her_ex [wit_decl k s0 ns] = Ok b ->
  pack_project gz here_parse wit_hdir wit_hdir ex_fs (ex_src a) her_ex [] 5 (fun l => l) (fun l => l) any_range = Ok b.
Proof. intros H1 H2. unfold pack_project. by rewrite H1. Qed.

Ltac ex_facts := first [by vm_compute|good_elems|(split; discriminate)|(intros ws; unfold abs_name; destruct ws; cbn; discriminate)|
  (cbn; repeat split; by vm_compute)].

Definition open_text : bytes :=
  B"Name:  index.html" ++ line ++ B"Size:  6" ++ line ++ B"Mode:  384" ++ line ++ B"ModTime:  1600000001" ++ line ++ B"<html>".
Example C143_open_ex gz gunzip : (forall x, gunzip (gz x) = Ok x) ->
  packing gz gunzip here_parse wit_hdir wit_hdir ex_fs her_ex wit_rs (B"app") any_range (fun l => l) /\
  project here_parse wit_hdir wit_hdir ex_fs (ex_src open_ast) her_ex wit_rs (B"app") [] ex_app /\
  has_main (ex_src open_ast) wit_rs ex_app open_ast /\ resolves here_parse wit_hdir her_ex wit_rs (B"app") index_name index /\
  quiet here_parse wit_hdir wit_hdir (ex_src open_ast) her_ex wit_rs [] ex_app index_name index /\
  get ex_fs (wit_rs ++ index) = Some (NFile ex_meta (B"<html>")) /\
  std_open_example mode_ex time_ex 4 ex_fs (B"/src/app/public/index.html") 7 = Some (open_text, None) /\
  exists b m', pack_project gz here_parse wit_hdir wit_hdir ex_fs (ex_src open_ast) her_ex [] 5 (fun l => l) (fun l => l) any_range = Ok b /\
    unmarshal_embed gunzip here_parse (fun l => l) b = Marshal.Done m' /\
    packed_open_example mode_ex time_ex here_parse 4 m' index_name 7 = Some (open_text, None).
Proof.
  intros Hz. split; [by apply ex_packing|].
  split; [apply (ex_project open_ast KOpen "/public/index.html" [] index); ex_facts|].
  split; [apply ex_main_is|]. split; [apply ex_resolves|].
  split; [apply (ex_quiet open_ast KOpen "/public/index.html" [] index); ex_facts|].
  split; [done|]. split; [by vm_compute|].
  destruct (packs_intro wit_hdir wit_hdir ex_fs her_ex [wit_decl KOpen index_name index] (fun m' =>
     packed_open_example mode_ex time_ex here_parse 4 m' index_name 7 = Some (open_text, None))) with gz gunzip as (b & m' & Eb & Eu & H); [by vm_compute|done|].
  exists b, m'. split; [|exact (conj Eu H)]. apply (ex_packed gz open_ast KOpen index_name index b); [by vm_compute|exact Eb].
Qed.

Definition stat_text : bytes :=
  B"Name:  index.html" ++ line ++ B"Size:  6" ++ line ++ B"Mode:  384" ++ line ++ B"ModTime:  1600000001" ++ line.
Example C143_stat_ex gz gunzip : (forall x, gunzip (gz x) = Ok x) ->
  project here_parse wit_hdir wit_hdir ex_fs (ex_src stat_ast) her_ex wit_rs (B"app") [] ex_app /\
  has_main (ex_src stat_ast) wit_rs ex_app stat_ast /\
  quiet here_parse wit_hdir wit_hdir (ex_src stat_ast) her_ex wit_rs [] ex_app index_name index /\
  std_stat_example mode_ex time_ex ex_fs (B"/src/app/public/index.html") = (stat_text, None) /\
  exists b m', pack_project gz here_parse wit_hdir wit_hdir ex_fs (ex_src stat_ast) her_ex [] 5 (fun l => l) (fun l => l) any_range = Ok b /\
    unmarshal_embed gunzip here_parse (fun l => l) b = Marshal.Done m' /\
    packed_stat_example mode_ex time_ex here_parse m' index_name = (stat_text, None).
Proof.
  intros Hz. split; [apply (ex_project stat_ast KStat "/public/index.html" [] index); ex_facts|].
  split; [apply ex_main_is|].
  split; [apply (ex_quiet stat_ast KStat "/public/index.html" [] index); ex_facts|]. split; [by vm_compute|].
  destruct (packs_intro wit_hdir wit_hdir ex_fs her_ex [wit_decl KStat index_name index] (fun m' =>
     packed_stat_example mode_ex time_ex here_parse m' index_name = (stat_text, None))) with gz gunzip as (b & m' & Eb & Eu & H); [by vm_compute|done|].
  exists b, m'. split; [|exact (conj Eu H)]. apply (ex_packed gz stat_ast KStat index_name index b); [by vm_compute|exact Eb].
Qed.

Definition walk_rest : list ast := match all_calls walk_ast with [(_, _ :: r)] => r | _ => [] end.
Lemma ex_public_wf : wf_node ex_public.
Proof. wf_tac. Qed.
Lemma ex_in_step : in_step (fun vs => is_Some (get ex_public vs)).
Proof.
  intros p a us ch rest vs Hus [x Hx] [y Hy].
  set (Q := fun (w1 w2 : list bytes) => forall p a us ch rest vs, us <> [] -> w1 = p ++ a :: us -> w2 = p ++ (a ++ ch :: rest) :: vs -> False).
  exfalso. assert (H : forall w1 x, get ex_public w1 = Some x -> forall w2 y, get ex_public w2 = Some y -> Q w1 w2);
    [|exact (H _ _ Hx _ _ Hy p a us ch rest vs Hus eq_refl eq_refl)].
  clear. apply (nodes_forall (fun w1 _ => forall w2 y, get ex_public w2 = Some y -> Q w1 w2) ex_public ex_public_wf).
  cbn [nodes visited ex_public app].
  repeat (apply List.Forall_cons; [cbn [fst snd];
    match goal with |- forall w2 y, _ -> Q ?w1 _ => apply (nodes_forall (fun w2 _ => Q w1 w2) ex_public ex_public_wf) end; cbn [nodes visited ex_public app];
    repeat (apply List.Forall_cons; [cbn [fst snd]; intros p a us ch rest vs Hus E1 E2|]); try apply List.Forall_nil|]);
    try apply List.Forall_nil.
  all: destruct p as [|p1 [|p2 [|p3 p]]]; cbn in E1, E2; try discriminate E1; try discriminate E2.
  all: injection E1; injection E2; intros; subst; try done.
Qed.

Definition walk_line (name size mode : bytes) : bytes :=
  name ++ B" " ++ tab ++ B" " ++ size ++ B" " ++ tab ++ B" " ++ mode ++ B" " ++ tab ++ B" 1600000000 " ++ tab ++ line.
Definition walk_text : bytes :=
  walk_line (B"public") (B"4096") (B"420") ++ walk_line (B"img") (B"4096") (B"420") ++
  walk_line (B"b.png") (B"3") (B"420") ++
  B"index.html " ++ tab ++ B" 6 " ++ tab ++ B" 384 " ++ tab ++ B" 1600000001 " ++ tab ++ line.
Example C143_walk_ex gz gunzip : (forall x, gunzip (gz x) = Ok x) ->
  project here_parse wit_hdir wit_hdir ex_fs (ex_src walk_ast) her_ex wit_rs (B"app") [] ex_app /\
  has_main (ex_src walk_ast) wit_rs ex_app walk_ast /\
  resolves here_parse wit_hdir her_ex wit_rs (B"app") (B"/public") [B"public"] /\
  quiet here_parse wit_hdir wit_hdir (ex_src walk_ast) her_ex wit_rs [] ex_app (B"/public") [B"public"] /\
  get ex_fs (wit_rs ++ [B"public"]) = Some ex_public /\ all_open ex_public /\
  (forall w, is_Some (get ex_fs (wit_rs ++ [w])) -> has_prefix w (B"public") = true -> w = B"public") /\
  (forall vs y, get ex_fs (wit_rs ++ [B"public"] ++ vs) = Some y ->
     backslash ∉ abs_name ([B"public"] ++ vs) /\
     exists n, here_parse her_ex (B"app" ++ colon :: abs_name (wit_rs ++ [B"public"] ++ vs)) = Some (Path (B"app") n)) /\
  in_step (fun vs => is_Some (get ex_public vs)) /\
  exists b m', pack_project gz here_parse wit_hdir wit_hdir ex_fs (ex_src walk_ast) her_ex [] 5 (fun l => l) (fun l => l) any_range = Ok b /\
    unmarshal_embed gunzip here_parse (fun l => l) b = Marshal.Done m' /\
    packed_walk_example mode_ex time_ex (fun x => x) here_parse m' (B"/public") =
      std_walk_example mode_ex time_ex (fun x => x) ex_fs (B"/src/app/public") /\
    packed_walk_example mode_ex time_ex (fun x => x) here_parse m' (B"/public") = (walk_text, None).
Proof.
  intros Hz. split; [apply (ex_project walk_ast KWalk "/public" walk_rest [B"public"]); ex_facts|].
  split; [apply ex_main_is|]. split; [apply ex_resolves_public|].
  split; [apply (ex_quiet walk_ast KWalk "/public" walk_rest [B"public"]); ex_facts|]. split; [done|].
  split; [refine (nodes_forall (fun _ x => n_ok (n_meta x) = true) ex_public ex_public_wf _); cbn [nodes visited ex_public app];
    repeat (apply List.Forall_cons; [by vm_compute|]); apply List.Forall_nil|].
  split.
  { intros w [x Hx] Hpre. refine (ex_all (fun ws _ => forall w, ws = [w] -> has_prefix w (B"public") = true -> w = B"public") _ _ x Hx w eq_refl Hpre).
    cbn [nodes visited ex_app ex_public app].
    repeat (apply List.Forall_cons; [cbn [fst snd]; clear; intros w E Hp; try discriminate E|]); [..|apply List.Forall_nil].
    - injection E as <-. discriminate Hp.
    - by injection E as <-. }
  split.
  { intros vs y Hy. refine (ex_all (fun ws _ => forall vs, ws = [B"public"] ++ vs -> backslash ∉ abs_name ([B"public"] ++ vs) /\
     exists n, here_parse her_ex (B"app" ++ colon :: abs_name (wit_rs ++ [B"public"] ++ vs)) = Some (Path (B"app") n)) _ _ y Hy vs eq_refl).
    cbn [nodes visited ex_app ex_public app].
    repeat (apply List.Forall_cons; [cbn [fst snd]; clear; intros vs E; cbn [app] in E; try discriminate E|]); [..|apply List.Forall_nil].
    all: injection E as <-; split; [apply (bool_decide_unpack _); by vm_compute|eexists; by vm_compute]. }
  split; [apply ex_in_step|].
  destruct (packs_intro wit_hdir wit_hdir ex_fs her_ex [wit_decl KWalk (B"/public") [B"public"]] (fun m' =>
    packed_walk_example mode_ex time_ex (fun x => x) here_parse m' (B"/public") =
      std_walk_example mode_ex time_ex (fun x => x) ex_fs (B"/src/app/public") /\
    packed_walk_example mode_ex time_ex (fun x => x) here_parse m' (B"/public") = (walk_text, None))) with gz gunzip as (b & m' & Eb & Eu & H); [by vm_compute|done|].
  exists b, m'. split; [|exact (conj Eu H)]. apply (ex_packed gz walk_ast KWalk (B"/public") [B"public"] b); [by vm_compute|exact Eb].
Qed.

(** An index.html that is not there; and a directory below "public" that cannot
    be read: the walk prints what came before and returns the error. *)
Definition ex_shut : node :=
  NDir wit_meta [(B"src", NDir wit_meta [(B"app", NDir wit_meta [(B"public", NDir wit_meta
    [(B"a", NFile wit_meta (B"1")); (B"b", NDir (Meta 448 (GoTime 1600000000 0 0) 4096 JNull false) []); (B"c", NFile wit_meta (B"22"))])])])].
Example C143_missing_ex :
  Forall good_elem wit_rs /\ beside_it her_ex wit_rs (B"app") (std_new her_ex) /\
  here_parse her_ex index_name = Some (Path (B"app") (abs_name index)) /\ get ex_shut (wit_rs ++ index) = None /\
  std_open_example mode_ex time_ex 4 ex_shut (B"/src/app/public/index.html") 7 = Some ([], Some (EPath (B"open") (B"/src/app/public/index.html"))) /\
  std_stat_example mode_ex time_ex ex_shut (B"/src/app/public/index.html") = ([], Some (EPath (B"stat") (B"/src/app/public/index.html"))) /\
  exists e, std_walk_example mode_ex time_ex (fun x => x) ex_shut (B"/src/app/public") =
      (walk_line (B"public") (B"4096") (B"420") ++ walk_line (B"a") (B"1") (B"420"), Some e) /\
    dev_walk_example mode_ex time_ex (fun x => x) here_parse no_hp ex_shut (std_new her_ex) (B"/public") =
      (walk_line (B"public") (B"4096") (B"420") ++ walk_line (B"a") (B"1") (B"420"), Some e).
Proof.
  split; [good_elems|]. split; [split; [done|exists her_ex; split; [by vm_compute|done]]|]. do 4 (split; [by vm_compute|]).
  eexists. split; vm_compute; reflexivity.
Qed.

(** ** Where they differ *)

Definition ex_with (cs : list (bytes * node)) : node :=
  NDir wit_meta [(B"src", NDir wit_meta [(B"app", NDir wit_meta [(B"main.go", NFile wit_meta (B"main")); (B"public", NDir wit_meta cs)])])].

(** An empty index.html: examples/open/std prints the report and ends well;
    examples/open/pkger, packed, prints the report and fails. *)
Theorem C143_empty_refuted :
  exists fs text, wf_node fs /\ get fs (wit_rs ++ index) = Some (NFile wit_meta []) /\
    std_open_example mode_ex time_ex 4 fs (B"/src/app/public/index.html") 7 = Some (text, None) /\
    forall gz gunzip, (forall x, gunzip (gz x) = Ok x) ->
      exists b m', pack_project gz here_parse wit_hdir wit_hdir fs (ex_src open_ast) her_ex [] 5 (fun l => l) (fun l => l) any_range = Ok b /\
        unmarshal_embed gunzip here_parse (fun l => l) b = Marshal.Done m' /\
        packed_open_example mode_ex time_ex here_parse 4 m' index_name 7 = Some (text, Some (EMsg unable_to_read)).
Proof.
  exists (ex_with [(B"index.html", NFile wit_meta [])]),
    (B"Name:  index.html" ++ line ++ B"Size:  0" ++ line ++ B"Mode:  420" ++ line ++ B"ModTime:  1600000000" ++ line).
  split; [wf_tac|]. split; [done|]. split; [by vm_compute|]. intros gz gunzip Hz.
  set (fs := ex_with _). set (text := _ ++ _).
  destruct (packs_intro wit_hdir wit_hdir fs her_ex [wit_decl KOpen index_name index] (fun m' =>
     packed_open_example mode_ex time_ex here_parse 4 m' index_name 7 = Some (text, Some (EMsg unable_to_read)))) with gz gunzip as (b & m' & Eb & Eu & H);
    [by vm_compute|done|].
  exists b, m'. split; [|exact (conj Eu H)]. unfold pack_project.
  assert (parse_project here_parse wit_hdir wit_hdir fs (ex_src open_ast) (fun l => l) 5 her_ex [] = Ok [wit_decl KOpen index_name index]) as -> by (by vm_compute).
  exact Eb.
Qed.

(** public/a/x and public/a.txt: the lines come in another order. *)
Theorem C143_order_refuted :
  exists fs, wf_node fs /\
    std_walk_example mode_ex time_ex (fun x => x) fs (B"/src/app/public") =
      (walk_line (B"public") (B"4096") (B"420") ++ walk_line (B"a") (B"4096") (B"420") ++ walk_line (B"x") (B"1") (B"420") ++ walk_line (B"a.txt") (B"2") (B"420"), None) /\
    forall gz gunzip, (forall x, gunzip (gz x) = Ok x) ->
      exists b m', pack_project gz here_parse wit_hdir wit_hdir fs (ex_src walk_ast) her_ex [] 5 (fun l => l) (fun l => l) any_range = Ok b /\
        unmarshal_embed gunzip here_parse (fun l => l) b = Marshal.Done m' /\
        packed_walk_example mode_ex time_ex (fun x => x) here_parse m' (B"/public") =
          (walk_line (B"public") (B"4096") (B"420") ++ walk_line (B"a") (B"4096") (B"420") ++ walk_line (B"a.txt") (B"2") (B"420") ++ walk_line (B"x") (B"1") (B"420"), None).
Proof.
  exists (ex_with [(B"a", NDir wit_meta [(B"x", NFile wit_meta (B"1"))]); (B"a.txt", NFile wit_meta (B"22"))]).
  split; [wf_tac|]. split; [by vm_compute|]. intros gz gunzip Hz. set (fs := ex_with _).
  destruct (packs_intro wit_hdir wit_hdir fs her_ex [wit_decl KWalk (B"/public") [B"public"]] (fun m' =>
    packed_walk_example mode_ex time_ex (fun x => x) here_parse m' (B"/public") =
          (walk_line (B"public") (B"4096") (B"420") ++ walk_line (B"a") (B"4096") (B"420") ++ walk_line (B"a.txt") (B"2") (B"420") ++ walk_line (B"x") (B"1") (B"420"), None)))
    with gz gunzip as (b & m' & Eb & Eu & H); [by vm_compute|done|].
  exists b, m'. split; [|exact (conj Eu H)]. unfold pack_project.
  assert (parse_project here_parse wit_hdir wit_hdir fs (ex_src walk_ast) (fun l => l) 5 her_ex [] = Ok [wit_decl KWalk (B"/public") [B"public"]]) as -> by (by vm_compute).
  exact Eb.
Qed.

(** Something else in the module has a name that begins with "public": packed,
    walking "/public" reports it too. *)
Theorem C143_prefix_refuted :
  exists fs, wf_node fs /\
    std_walk_example mode_ex time_ex (fun x => x) fs (B"/src/app/public") =
      (walk_line (B"public") (B"4096") (B"420") ++ walk_line (B"x") (B"1") (B"420"), None) /\
    forall gz gunzip, (forall x, gunzip (gz x) = Ok x) ->
      exists b m', pack_project gz here_parse wit_hdir wit_hdir fs (ex_src walk_ast) her_ex [B"/publicity"] 5 (fun l => l) (fun l => l) any_range = Ok b /\
        unmarshal_embed gunzip here_parse (fun l => l) b = Marshal.Done m' /\
        packed_walk_example mode_ex time_ex (fun x => x) here_parse m' (B"/public") =
          (walk_line (B"public") (B"4096") (B"420") ++ walk_line (B"x") (B"1") (B"420") ++ walk_line (B"publicity") (B"2") (B"420"), None).
Proof.
  exists (NDir wit_meta [(B"src", NDir wit_meta [(B"app", NDir wit_meta [(B"main.go", NFile wit_meta (B"main"));
    (B"public", NDir wit_meta [(B"x", NFile wit_meta (B"1"))]); (B"publicity", NFile wit_meta (B"22"))])])]).
  split; [wf_tac|]. split; [by vm_compute|]. intros gz gunzip Hz. set (fs := NDir _ _).
  destruct (packs_intro wit_hdir wit_hdir fs her_ex [wit_decl KInclude (B"/publicity") [B"publicity"]; wit_decl KWalk (B"/public") [B"public"]] (fun m' =>
    packed_walk_example mode_ex time_ex (fun x => x) here_parse m' (B"/public") =
          (walk_line (B"public") (B"4096") (B"420") ++ walk_line (B"x") (B"1") (B"420") ++ walk_line (B"publicity") (B"2") (B"420"), None)))
    with gz gunzip as (b & m' & Eb & Eu & H); [by vm_compute|done|].
  exists b, m'. split; [|exact (conj Eu H)]. unfold pack_project.
  assert (parse_project here_parse wit_hdir wit_hdir fs (ex_src walk_ast) (fun l => l) 5 her_ex [B"/publicity"] =
    Ok [wit_decl KInclude (B"/publicity") [B"publicity"]; wit_decl KWalk (B"/public") [B"public"]]) as -> by (by vm_compute).
  exact Eb.
Qed.
