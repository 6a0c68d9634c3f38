(** Theorems: the same program on the in-memory pkger and on disk (C112). *)
From Verif Require Import Bytes GoPath Here GoTypes Mem MemSpec MemBase MemFiles MemDirs MemDirs2 WalkSpec MemWalk MemReaddir InStep JsonStr JsonText Embed
  Marshal MarshalMem PropsEmbed PropsMarshal Disk Decls DeclsProofs PropsParser Pack PropsPack DiskOps Std PropsStd PropsDump PropsSame Both.

(** ** C112: a program does the same in memory and on disk *)

(** If both pkgers show the same tree to start with, a calm program gets the
    same answers from both, those the plain tree predicts, and leaves both
    showing the same tree. *)
Theorem C112_partial parse c rs mp names foreign nm hp now T l m fs s :
  setting parse c rs mp names -> mem_shows c mp names foreign m T -> disk_shows rs names fs T ->
  beside_it c rs mp s -> n_ok nm = true ->
  Forall (fun a => names (act_name a)) l -> calm_run T l ->
  exists m' fs' xs, mem_run parse now m l = (m', xs) /\ disk_run parse nm hp fs s l = (fs', s, xs) /\ xs = (plan_run T l).2 /\
    mem_shows c mp names foreign m' (plan_run T l).1 /\ disk_shows rs names fs' (plan_run T l).1.
Proof.
  intros HS Hm Hd Hb Hnm Hl Hc.
  destruct (mem_program parse c rs mp names HS now foreign l m T Hm Hl Hc) as (m' & E1 & H1).
  destruct (disk_program parse c rs mp names HS nm Hnm hp l fs s T Hd Hb Hl Hc) as (fs' & E2 & H2).
  by exists m', fs', (plan_run T l).2.
Qed.

(** With the recalled resolver: plain names that do not begin with the text of
    the module's own directory. *)
Definition usable (c : hinfo) (top : bytes -> Prop) (ns : list bytes) : Prop :=
  Forall plain_elem ns /\ dir_ok c (abs_name ns) /\ exists t us, ns = t :: us /\ top t.

Lemma here_setting (c : hinfo) (rs : list bytes) (top : bytes -> Prop) :
  rs <> [] -> Forall good_elem rs -> h_dir c = abs_name rs -> is_rooted (h_mpath c) = false ->
  setting here_parse c rs (h_mpath c) (usable c top).
Proof.
  intros Hrs Hg Hd Hm. split; [done|..].
  - intros ns (Hp & _ & t & us & -> & _). split; [done|by apply plain_good].
  - intros ns vs (Hp & Hk & t & us & -> & Ht) Hv Hvn. split; [destruct Hv as [k E]; rewrite E in Hp; by apply Forall_app in Hp as [? _]|].
    split; [by eapply dir_ok_prefix|]. destruct vs as [|v vs]; [done|]. exists v, vs. split; [done|].
    by rewrite (prefix_cons_inv_1 _ _ _ _ Hv).
  - intros ns (Hp & Hk & _). by apply plain_parse.
  - intros ns (Hp & Hk & _). by apply plain_parse_slash.
  - change (B"/") with (abs_name []). apply plain_parse; [by constructor| |done]. right. rewrite Hd. split; [done|].
    destruct (has_prefix (abs_name []) (abs_name rs)) eqn:E; [|done]. apply has_prefix_length in E. exfalso.
    destruct rs as [|r rs]; [done|]. destruct (abs_name (r :: rs)) as [|x [|y z]] eqn:E'; [done| |cbn in E; lia].
    apply (abs_name_inj (r :: rs) []) in Hg; [done|by constructor|]. rewrite E'. unfold abs_name in E'. by injection E' as <- _.
Qed.

(** A program that starts with nothing below the names it uses. *)
Theorem C112_fresh_partial (c : hinfo) (rs : list bytes) (top : bytes -> Prop) (nm : meta) (hp : bytes -> res hinfo) (now : gotime) (l : list act) (fs : node) :
  rs <> [] -> Forall good_elem rs -> h_dir c = abs_name rs -> is_rooted (h_mpath c) = false -> h_import c = h_mpath c ->
  wf_node fs -> (exists i cs, get fs rs = Some (NDir i cs)) -> (forall t, top t -> get fs (rs ++ [t]) = None) -> n_ok nm = true ->
  Forall (fun a => usable c top (act_name a)) l -> calm_run (fun _ => None) l ->
  exists m' fs' xs, mem_run here_parse now (mem_new c) l = (m', xs) /\ disk_run here_parse nm hp fs (std_new c) l = (fs', std_new c, xs) /\
    xs = (plan_run (fun _ => None) l).2 /\
    mem_shows c (h_mpath c) (usable c top) (fun _ => False) m' (plan_run (fun _ => None) l).1 /\
    disk_shows rs (usable c top) fs' (plan_run (fun _ => None) l).1.
Proof.
  intros Hrs Hg Hd Hm Hi Hwf Hroot Hnone Hnm Hl Hc.
  assert (Hgone : forall ns, usable c top ns -> get fs (rs ++ ns) = None).
  { intros ns (_ & _ & t & us & -> & Ht). change (t :: us) with ([t] ++ us). by rewrite app_assoc, get_app, Hnone. }
  apply (C112_partial here_parse c rs (h_mpath c) (usable c top) (fun _ => False) nm hp now (fun _ => None) l (mem_new c) fs (std_new c));
    [by apply here_setting|..].
  - split; [apply wf_new|done|cbn; rewrite <- Hi, lookup_singleton; by eexists|..].
    + intros n [f Hf]. unfold file_at in Hf. cbn in Hf. by rewrite lookup_empty in Hf.
    + intros ns _. unfold file_at. cbn. by rewrite lookup_empty.
  - split; [done|done| |exact Hgone]. intros ns v Hn [x Hx]. by rewrite app_assoc, get_app, (Hgone ns Hn) in Hx.
  - split; [done|]. exists c. split; [|done]. by apply new_info.
  - done.
  - done.
  - done.
Qed.

(** What a file tree holds below [rs]. *)
Definition tree_of (fs : node) (rs : list bytes) : tree := fun ns =>
  match get fs (rs ++ ns) with None => None | Some (NDir _ _) => Some EDir | Some (NFile _ b) => Some (EFile b) end.

(** The pkger made from what was packed shows what the disk shows.  [foreign]
    covers the packed names the program does not use. *)
Lemma packed_shows gz gunzip parse hdir hpkg fs c rs mp rg uorder order ds pl b names (foreign : bytes -> Prop) :
  packing gz gunzip parse hdir hpkg fs c rs mp rg uorder ->
  files parse hdir fs order ds = Ok pl -> inside rs pl -> stuff parse hdir hpkg fs gz rg order c ds = Ok b ->
  setting parse c rs mp names -> h_import c = mp ->
  (exists i cs, get fs rs = Some (NDir i cs)) ->
  (forall ns n, names ns -> get fs (rs ++ ns) = Some n -> taken fs rs (pf_abs <$> pl) ns /\ n_ok (n_meta n) = true) ->
  (forall ns v, names ns -> is_Some (get fs (rs ++ ns ++ [v])) -> names (ns ++ [v])) ->
  (forall ws, taken fs rs (pf_abs <$> pl) ws -> ws = [] \/ names ws \/ foreign (abs_name ws)) ->
  exists m', unmarshal_embed gunzip parse uorder b = Done m' /\ keyed m' /\
    mem_shows c mp names foreign m' (tree_of fs rs) /\ disk_shows rs names fs (tree_of fs rs).
Proof.
  intros Hp Hl Hin Hs HS Hi Hroot Htk Hcl Hfor.
  destruct (stuff_stuffed gz gunzip parse hdir hpkg fs c rs mp rg uorder order ds b Hp Hs pl Hl Hin) as (m & m' & Hpk & Hu & Hw & Hss).
  assert (Hback : forall pt f, file_at m' pt = Some f -> exists f0, file_at m pt = Some f0 /\ f_path f = f_path f0).
  { intros pt f Hf. pose proof (ss_files _ _ Hss pt) as Es. rewrite Hf in Es. destruct (file_at m pt) as [f0|]; [|done].
    exists f0. split; [done|]. unfold efile_of in Es. cbn [fmap option_fmap option_map] in Es. congruence. }
  exists m'. split; [done|]. split; [|split].
  - intros pt f Hf. destruct (Hback pt f Hf) as (f0 & Hf0 & ->).
    destruct (pk_only _ _ _ _ _ _ _ _ Hpk pt) as (ws & HD & ->); [by eexists|].
    destruct (pk_files _ _ _ _ _ _ _ _ Hpk ws HD) as (n & her & _ & _ & _ & Ef). rewrite Ef in Hf0. by injection Hf0 as <-.
  - split; [done|by rewrite (ss_here _ _ Hss), (pk_here _ _ _ _ _ _ _ _ Hpk)|..].
    { rewrite (ss_infos _ _ Hss), (pk_infos _ _ _ _ _ _ _ _ Hpk), <- Hi, lookup_singleton. by eexists. }
    { intros n [f Hf]. destruct (Hback _ _ Hf) as (f0 & Hf0 & _).
      destruct (pk_only _ _ _ _ _ _ _ _ Hpk (Path mp n)) as (ws & HD & Ek); [by eexists|].
      unfold key in Ek. assert (n = abs_name ws) as -> by congruence.
      destruct (Hfor ws HD) as [->|[Hn|Hn]]; [by left|right; left; by exists ws|by right; right]. }
    intros ns Hns. unfold tree_of. pose proof (ss_files _ _ Hss (Path mp (abs_name ns))) as Es.
    destruct (st_good _ _ _ _ _ HS ns Hns) as [Hne Hg]. destruct (list_snoc_cases ns) as [->|(us & u & ->)]; [done|].
    destruct (get fs (rs ++ us ++ [u])) as [n|] eqn:En.
    + destruct (Htk _ _ Hns En) as [Ht _]. destruct (pk_files _ _ _ _ _ _ _ _ Hpk _ Ht) as (n' & her & Hgd & En' & _ & Ef).
      assert (n' = n) as -> by congruence. unfold key in Ef. rewrite Ef in Es. destruct (file_at m' _) as [f|]; [|done].
      assert (f_info f = info_of (base (abs_name (rs ++ us ++ [u]))) n /\ f_data f = contents n) as [Ei Ed].
      { unfold efile_of in Es. cbn [fmap option_fmap option_map f_here f_info f_path f_data f_parent] in Es. split; congruence. }
      rewrite app_assoc, base_snoc in Ei.
      2: { apply Forall_app in Hg as [_ Hg]. by apply List.Forall_cons_iff in Hg as [? _]. }
      rewrite last_snoc. destruct n as [i d|i cs]; exists f; rewrite Ei; (split; [done|]); [|done].
      cbn [info_of d_isdir d_name d_size]. done.
    + destruct (file_at m (Path mp (abs_name (us ++ [u])))) as [x|] eqn:Ef.
      * exfalso. destruct (pk_only _ _ _ _ _ _ _ _ Hpk (Path mp (abs_name (us ++ [u])))) as (ws & HD & Ek); [by eexists|].
        destruct (pk_files _ _ _ _ _ _ _ _ Hpk ws HD) as (n & her & Hgw & Egw & _). unfold key in Ek.
        assert (abs_name (us ++ [u]) = abs_name ws) as E by congruence. apply abs_name_inj in E; [|done|done]. congruence.
      * by destruct (file_at m' _).
  - split; [by eapply pg_wf|done|done|]. intros ns Hns. unfold tree_of. destruct (get fs (rs ++ ns)) as [[i d|i cs]|] eqn:E; [..|done].
    + destruct (Htk _ _ Hns E) as [_ Hok]. by exists i.
    + destruct (Htk _ _ Hns E) as [_ Hok]. by exists i, cs.
Qed.

(** A program packed with everything below the names it uses: inside the
    packed program it does what it would have done where it was packed. *)
Theorem C112_packed_partial gz gunzip parse hdir hpkg fs c rs mp rg uorder order ds pl b names s nm hp now l :
  packing gz gunzip parse hdir hpkg fs c rs mp rg uorder ->
  files parse hdir fs order ds = Ok pl -> inside rs pl -> stuff parse hdir hpkg fs gz rg order c ds = Ok b ->
  setting parse c rs mp names -> h_import c = mp -> beside_it c rs mp s -> n_ok nm = true ->
  (exists i cs, get fs rs = Some (NDir i cs)) ->
  (forall ns n, names ns -> get fs (rs ++ ns) = Some n -> taken fs rs (pf_abs <$> pl) ns /\ n_ok (n_meta n) = true) ->
  (forall ns v, names ns -> is_Some (get fs (rs ++ ns ++ [v])) -> names (ns ++ [v])) ->
  Forall (fun a => names (act_name a)) l -> calm_run (tree_of fs rs) l ->
  exists m', unmarshal_embed gunzip parse uorder b = Done m' /\
    (mem_run parse now m' l).2 = (disk_run parse nm hp fs s l).2 /\
    (mem_run parse now m' l).2 = (plan_run (tree_of fs rs) l).2.
Proof.
  intros Hp Hl Hin Hs HS Hi Hb Hnm Hroot Htk Hcl Hn Hc.
  destruct (packed_shows gz gunzip parse hdir hpkg fs c rs mp rg uorder order ds pl b names (fun _ => True)) as (m' & Hu & _ & H1 & H2);
    [done..|auto|]. exists m'. split; [done|].
  destruct (C112_partial parse c rs mp names (fun _ => True) nm hp now (tree_of fs rs) l m' fs s) as (m1 & fs1 & xs & E1 & E2 & Ex & _);
    [done..|by rewrite E1, E2].
Qed.

(** Make a directory, write, read, look, replace, remove. *)
Definition both_prog : list act :=
  [AMkdir [B"data"; B"sub"]; AWrite [B"data"; B"a.txt"] [B"he"; B"llo"]; ARead [B"data"; B"a.txt"] [3; 3; 3];
   AStat [B"data"; B"sub"]; AWrite [B"nope"; B"b"] [B"x"]; AWrite [B"data"; B"a.txt"] [B"bye"]; AStat [B"data"; B"a.txt"];
   ARemove [B"data"; B"sub"]; ARemove [B"data"; B"sub"]; ARemoveAll [B"data"]; ARead [B"data"; B"a.txt"] [1]; AStat [B"data"]].
Definition both_top (t : bytes) : Prop := t = B"data" \/ t = B"nope".
Definition both_now : gotime := GoTime 1600000005 0 0.

Ltac usable_tac := split; [repeat (apply List.Forall_cons || apply List.Forall_nil); (split; [good|repeat split; [apply (bool_decide_eq_true_1 (_ ∉ _)); by vm_compute..|by intros x [= <-]]])|
  split; [right; by vm_compute|eexists _, _; split; [reflexivity|]; by (left + right)]].

Lemma both_usable : Forall (fun a => usable her_ex both_top (act_name a)) both_prog.
Proof. unfold both_prog. repeat (apply List.Forall_cons || apply List.Forall_nil); cbn [act_name]; usable_tac. Qed.

(** Calmness by computation: [D] lists the paths where there may be anything. *)
Definition is_file (e : option entry) : bool := match e with Some (EFile _) => true | _ => false end.
Definition calmb (D : list (list bytes)) (T : tree) (a : act) : bool :=
  match a with
  | AWrite ns _ => negb (is_file (T (above ns))) && match T ns with Some EDir => false | _ => true end
  | AMkdir ns => forallb (fun vs => negb (is_file (T vs))) (inits ns)
  | ARemove ns =>
      match T ns with
      | Some EDir => forallb (fun d => negb (bool_decide (above d = ns)) || match T d with None => true | _ => false end) D
      | _ => true
      end
  | ARemoveAll ns =>
      forallb (fun vs => bool_decide (vs = ns) || negb (is_file (T vs))) (inits ns) &&
      forallb (fun d => negb (has_prefix (abs_name d) (abs_name ns)) || bool_decide (ns `prefix_of` d) || match T d with None => true | _ => false end) D
  | ARead ns sizes =>
      match T ns with Some EDir | Some (EFile []) => false | _ => forallb (fun n => negb (n =? 0)) sizes end
  | AStat _ => true
  end.
Fixpoint calm_check (D : list (list bytes)) (T : tree) (l : list act) : bool :=
  match l with [] => true | a :: l => calmb D T a && calm_check (inits (act_name a) ++ D) (plan_do T a).1 l end.

Lemma calmb_sound D T a : (forall vs, is_Some (T vs) -> vs ∈ D) -> calmb D T a = true -> calm T a.
Proof.
  intros HD. destruct a as [ns bs|ns|ns|ns|ns sizes|ns]; cbn [calmb calm].
  - rewrite andb_true_iff, negb_true_iff. intros [H1 H2]. split; [intros b E; by rewrite E in H1|]. intros E. by rewrite E in H2.
  - rewrite forallb_forall. intros H vs b Hp E. specialize (H vs). rewrite E in H. by specialize (H (proj1 (elem_of_list_In _ _) (proj2 (in_inits _ _) Hp))).
  - intros H E v. rewrite E in H. rewrite forallb_forall in H. destruct (T (ns ++ [v])) as [e|] eqn:Ev; [|done].
    assert (Hin : ns ++ [v] ∈ D) by (apply HD; rewrite Ev; by eexists). specialize (H _ (proj1 (elem_of_list_In _ _) Hin)).
    rewrite above_snoc, bool_decide_eq_true_2, Ev in H by done. done.
  - rewrite andb_true_iff, !forallb_forall. intros [H1 H2]. split.
    + intros vs b Hp Hn E. specialize (H1 vs (proj1 (elem_of_list_In _ _) (proj2 (in_inits _ _) Hp))). rewrite bool_decide_eq_false_2, E in H1 by done. done.
    + intros vs Hs Hpre. specialize (H2 vs (proj1 (elem_of_list_In _ _) (HD vs Hs))). rewrite Hpre in H2. destruct Hs as [e Ee].
      rewrite Ee in H2. cbn [negb orb] in H2. rewrite orb_false_r in H2. by apply bool_decide_eq_true in H2.
  - intros H. destruct (T ns) as [[|[|x b]]|]; [done|done| |]; (split; [done|]; split; [done|]);
      apply Forall_forall; intros n Hn ->; rewrite forallb_forall in H; by specialize (H 0 (proj1 (elem_of_list_In _ _) Hn)).
  - done.
Qed.
Lemma calm_check_sound l D T : (forall vs, is_Some (T vs) -> vs ∈ D) -> calm_check D T l = true -> calm_run T l.
Proof.
  revert D T. induction l as [|a l IH]; intros D T HD H; [done|]. cbn [calm_check] in H. apply andb_true_iff in H as [H1 H2].
  split; [by eapply calmb_sound|]. eapply IH; [|exact H2]. intros vs Hs. apply elem_of_app.
  destruct a as [ns bs|ns|ns|ns|ns sizes|ns]; cbn [plan_do fst act_name] in *; try (right; by apply HD).
  - destruct (dir_at T (above ns)); [|right; by apply HD]. cbn [fst] in Hs. case_bool_decide as E; [left; subst; by apply in_inits|right; by apply HD].
  - case_bool_decide as E; [left; by apply in_inits|right; by apply HD].
  - destruct (T ns); [|right; by apply HD]. cbn [fst] in Hs. case_bool_decide as E; [by destruct Hs|right; by apply HD].
  - case_bool_decide as E; [by destruct Hs|right; by apply HD].
Qed.

Lemma both_calm : calm_run (fun _ => None) both_prog.
Proof. apply (calm_check_sound _ []); [by intros vs [e He]|by vm_compute]. Qed.

Example C112_ex :
  (mem_run here_parse both_now (mem_new her_ex) both_prog).2 =
    (disk_run here_parse std_meta no_hp (std_app [(B"main.go", NFile std_meta (B"package main"))]) (std_new her_ex) both_prog).2 /\
  (mem_run here_parse both_now (mem_new her_ex) both_prog).2 =
    [ADone true; ADone true; ARd (Some [(B"hel", None); (B"lo", None); ([], Some EEOF)]);
     AInfo (Some (B"sub", true, None)); ADone false; ADone true; AInfo (Some (B"a.txt", false, Some 3%Z));
     ADone true; ADone false; ADone true; ARd None; AInfo None].
Proof.
  destruct (C112_fresh_partial her_ex [B"src"; B"app"] both_top std_meta no_hp both_now both_prog
    (std_app [(B"main.go", NFile std_meta (B"package main"))])) as (m' & fs' & xs & E1 & E2 & Ex & _);
    [done|good_elems|done|done|done|wf_tac|by eexists _, _|intros t [-> | ->]; by vm_compute|done|apply both_usable|apply both_calm|].
  rewrite E1, E2. split; [done|]. cbn [snd]. rewrite Ex. by vm_compute.
Qed.

(** The module of C39_ex: "/img" is packed; the program changes it. *)
Definition img_top (t : bytes) : Prop := t = B"img" \/ t = B"new".
Definition packed_prog : list act :=
  [ARead [B"img"; B"b.png"] [2; 2; 2]; AWrite [B"img"; B"b.png"] [B"JPEG"]; AMkdir [B"new"]; AWrite [B"new"; B"x"] [B"1"; B"2"];
   AStat [B"img"; B"b.png"]; ARead [B"new"; B"x"] [4; 4]; ARemove [B"img"; B"b.png"]; ARemove [B"img"]; AStat [B"img"]].
Definition img_pl : list pfile :=
  [PFile (B"/src/app/a.txt") (Path (B"app") (B"/a.txt")) her_ex;
   PFile (B"/src/app/img") (Path (B"app") (B"/img")) her_ex;
   PFile (B"/src/app/img/b.png") (Path (B"app") (B"/img/b.png")) her_ex].
Lemma img_files : files here_parse wit_hdir pack_fs (fun l => l) pack_ds = Ok img_pl /\ inside wit_rs img_pl.
Proof.
  split; [by vm_compute|].
  apply List.Forall_cons; [exists [B"a.txt"]|apply List.Forall_cons; [exists [B"img"]|
  apply List.Forall_cons; [exists [B"img"; B"b.png"]|apply List.Forall_nil]]]; (split; [good_elems|done]).
Qed.
Lemma img_setting : setting here_parse her_ex wit_rs (B"app") (usable her_ex img_top).
Proof. apply (here_setting her_ex wit_rs img_top); [done|good_elems|done|done]. Qed.
Lemma img_which ns n : (exists t us, ns = t :: us /\ img_top t) -> get pack_fs (wit_rs ++ ns) = Some n ->
  ns = [B"img"] /\ n_ok (n_meta n) = true \/ ns = [B"img"; B"b.png"] /\ n_ok (n_meta n) = true.
Proof.
  intros (t & us & -> & Ht) Hg. revert Ht.
  apply (pack_all (fun ws n => forall t us, ws = t :: us -> img_top t -> t :: us = [B"img"] /\ n_ok (n_meta n) = true \/ t :: us = [B"img"; B"b.png"] /\ n_ok (n_meta n) = true))
    with (ws := t :: us) (n := n); [|done|done].
  cbn [nodes visited pack_app]. repeat (apply List.Forall_cons); try apply List.Forall_nil; cbn [fst snd]; intros t' us' E [->| ->];
    (discriminate E || (injection E as <-; cbn; auto)).
Qed.
Lemma img_taken ns n : usable her_ex img_top ns -> get pack_fs (wit_rs ++ ns) = Some n ->
  taken pack_fs wit_rs (pf_abs <$> img_pl) ns /\ n_ok (n_meta n) = true.
Proof.
  intros Hu Hg. destruct (img_which ns n (proj2 (proj2 Hu)) Hg) as [[-> Hok]|[-> Hok]]; (split; [|done]).
  - exists [B"img"], [], n. split; [done|]. split; [apply (bool_decide_eq_true_1 (_ ∈ _)); by vm_compute|]. split; [good_elems|]. split; [by vm_compute|done].
  - exists [B"img"], [B"b.png"], n. split; [done|]. split; [apply (bool_decide_eq_true_1 (_ ∈ _)); by vm_compute|]. split; [good_elems|]. split; [by vm_compute|done].
Qed.
Lemma img_closed ns v : usable her_ex img_top ns -> is_Some (get pack_fs (wit_rs ++ ns ++ [v])) -> usable her_ex img_top (ns ++ [v]).
Proof.
  intros (_ & _ & t & us & -> & Ht) [x Hx].
  destruct (img_which ((t :: us) ++ [v]) x) as [[-> _]|[-> _]]; [by exists t, (us ++ [v])|exact Hx|clear; usable_tac|clear; usable_tac].
Qed.
Lemma img_finite vs : is_Some (tree_of pack_fs wit_rs vs) -> vs ∈ (nodes pack_app).*1.
Proof.
  intros [e He]. unfold tree_of in He. destruct (get pack_fs (wit_rs ++ vs)) as [n|] eqn:E; [|done]. clear He.
  apply (pack_all (fun ws _ => ws ∈ (nodes pack_app).*1)) in E; [exact E|].
  cbn [nodes visited pack_app]. repeat (apply List.Forall_cons; [apply (bool_decide_eq_true_1 (_ ∈ _)); by vm_compute|]). apply List.Forall_nil.
Qed.
(** Everything else that is packed has a name that does not begin with "/img". *)
Lemma img_foreign ws : taken pack_fs wit_rs (pf_abs <$> img_pl) ws ->
  ws = [] \/ usable her_ex img_top ws \/ has_prefix (abs_name ws) (B"/img") = false.
Proof.
  intros (us & vs & n & _ & _ & _ & _ & Hg).
  apply (pack_all (fun ws _ => ws = [] \/ usable her_ex img_top ws \/ has_prefix (abs_name ws) (B"/img") = false)) in Hg; [exact Hg|].
  cbn [nodes visited pack_app]. repeat apply List.Forall_cons; try apply List.Forall_nil; cbn [fst snd].
  all: first [by left|right; right; by vm_compute|right; left; usable_tac].
Qed.

Example C112_packed_ex :
  setting here_parse her_ex wit_rs (B"app") (usable her_ex img_top) /\
  (exists pl, files here_parse wit_hdir pack_fs (fun l => l) pack_ds = Ok pl /\ inside wit_rs pl /\
     forall ns n, usable her_ex img_top ns -> get pack_fs (wit_rs ++ ns) = Some n ->
       taken pack_fs wit_rs (pf_abs <$> pl) ns /\ n_ok (n_meta n) = true) /\
  (forall ns v, usable her_ex img_top ns -> is_Some (get pack_fs (wit_rs ++ ns ++ [v])) -> usable her_ex img_top (ns ++ [v])) /\
  Forall (fun a => usable her_ex img_top (act_name a)) packed_prog /\
  calm_run (tree_of pack_fs wit_rs) packed_prog /\
  packs wit_hdir wit_hdir pack_fs her_ex pack_ds (fun m' =>
    (mem_run here_parse both_now m' packed_prog).2 = (disk_run here_parse std_meta no_hp pack_fs (std_new her_ex) packed_prog).2 /\
    (mem_run here_parse both_now m' packed_prog).2 =
      [ARd (Some [(B"PN", None); (B"G", None); ([], Some EEOF)]); ADone true; ADone true; ADone true;
       AInfo (Some (B"b.png", false, Some 4%Z)); ARd (Some [(B"12", None); ([], Some EEOF)]); ADone true; ADone true; AInfo None]).
Proof.
  split; [apply img_setting|]. split. { exists img_pl. destruct img_files as [H1 H2]. split; [done|]. split; [done|]. apply img_taken. }
  split; [apply img_closed|].
  split. { unfold packed_prog. repeat (apply List.Forall_cons || apply List.Forall_nil); cbn [act_name]; usable_tac. }
  split. { apply (calm_check_sound _ (nodes pack_app).*1); [apply img_finite|by vm_compute]. }
  apply packs_intro. by vm_compute.
Qed.

(** What calmness rules out, each from empty stores: (1) a file inside a file;
    (2) a file over a directory; (3) a directory inside a file; (4) removing a
    directory that is not empty; (5) RemoveAll where another name begins the
    same; (6) RemoveAll below a file; (7) reading an empty file.  The answers
    differ each time. *)
Definition both_differ (l : list act) (x y : ans) : Prop :=
  List.last (mem_run here_parse both_now (mem_new her_ex) l).2 (ADone true) = x /\
  List.last (disk_run here_parse std_meta no_hp (std_app []) (std_new her_ex) l).2 (ADone true) = y /\ x <> y.
Theorem C112_refuted :
  both_differ [AWrite [B"a"] [B"x"]; AWrite [B"a"; B"b"] [B"y"]] (ADone true) (ADone false) /\
  both_differ [AMkdir [B"a"]; AWrite [B"a"] [B"y"]] (ADone true) (ADone false) /\
  both_differ [AWrite [B"a"] [B"x"]; AMkdir [B"a"; B"b"]] (ADone true) (ADone false) /\
  both_differ [AMkdir [B"a"; B"b"]; ARemove [B"a"]] (ADone true) (ADone false) /\
  both_differ [AMkdir [B"a"]; AWrite [B"ab"] [B"x"]; ARemoveAll [B"a"]; AStat [B"ab"]]
    (AInfo None) (AInfo (Some (B"ab", false, Some 1%Z))) /\
  both_differ [AWrite [B"a"] [B"x"]; ARemoveAll [B"a"; B"b"]] (ADone true) (ADone false) /\
  both_differ [AWrite [B"a"] []; ARead [B"a"] [4]] (ARd (Some [([], Some (EMsg unable_to_read))])) (ARd (Some [([], Some EEOF)])).
Proof. unfold both_differ. split_and!; by vm_compute. Qed.

(** ** C113: after a program, both pkgers walk the same tree *)

Definition entry_brief (ns : list bytes) (e : entry) : bytes * bool * option Z :=
  match e with
  | EDir => (List.last ns [], true, None)
  | EFile b => (List.last ns [], false, Some (Z.of_nat (length b)))
  end.
(** The calls of a walk: the printed path, and what is shown of the info. *)
Definition calls (log : list (bytes * details)) : list (bytes * (bytes * bool * option Z)) := (fun x => (x.1, brief x.2)) <$> log.

Lemma sorted_calls {A} (l1 l2 : list A) (f : A -> bytes) :
  StronglySorted (fun a b => blt (f a) (f b) = true) l1 -> StronglySorted (fun a b => blt (f a) (f b) = true) l2 ->
  (forall x, x ∈ l1 <-> x ∈ l2) -> l1 = l2.
Proof.
  revert l2. induction l1 as [|x l1 IH]; intros l2 H1 H2 Heq.
  - destruct l2 as [|y l2]; [done|]. exfalso. apply (not_elem_of_nil y), Heq. constructor.
  - destruct l2 as [|y l2]; [exfalso; apply (not_elem_of_nil x), Heq; constructor|].
    apply StronglySorted_inv in H1 as [H1 F1]. apply StronglySorted_inv in H2 as [H2 F2]. rewrite Forall_forall in F1, F2.
    assert (Hirr : forall a, blt (f a) (f a) = true -> False) by (intros a Ha; by rewrite blt_irrefl in Ha).
    assert (Hasym : forall a b, blt (f a) (f b) = true -> blt (f b) (f a) = true -> False).
    { intros a b Ha Hb. apply blt_spec in Ha as [Ha Hn]. apply blt_spec in Hb as [Hb _]. apply Hn. by apply ble_antisym. }
    assert (x = y) as ->.
    { assert (Hx : x ∈ y :: l2) by (apply Heq; constructor). assert (Hy : y ∈ x :: l1) by (apply Heq; constructor).
      apply elem_of_cons in Hx as [?|Hx]; [done|]. apply elem_of_cons in Hy as [?|Hy]; [done|].
      exfalso. eapply Hasym; [by apply F1|by apply F2]. }
    f_equal. apply IH; [done|done|]. intros z. specialize (Heq z). rewrite !elem_of_cons in Heq. split; intros Hz.
    + destruct Heq as [Heq _]. destruct Heq as [->|?]; [by right| |done]. exfalso. eapply Hirr, F1, Hz.
    + destruct Heq as [_ Heq]. destruct Heq as [->|?]; [by right| |done]. exfalso. eapply Hirr, F2, Hz.
Qed.

(** Walking a name that exists, where no other name begins with its text: both
    pkgers call the function once for each name at or below it with the same
    information; in the same order exactly when no name sorts between a
    directory's and those of what is in it. *)
Theorem C113_partial parse c rs mp names foreign hp T m fs s ns :
  setting parse c rs mp names -> mem_shows c mp names foreign m T -> disk_shows rs names fs T -> beside_it c rs mp s ->
  rs <> [] -> mp <> [] ->
  (forall vs, names vs -> backslash ∉ abs_name vs /\ exists n, parse c (mp ++ colon :: abs_name (rs ++ vs)) = Some (Path mp n)) ->
  names ns -> is_Some (T ns) ->
  (forall vs, names vs -> is_Some (T vs) -> has_prefix (abs_name vs) (abs_name ns) = true -> ns `prefix_of` vs) ->
  (forall x, foreign x -> has_prefix x (abs_name ns) = false) ->
  exists on_disk in_mem,
    std_walk parse hp fs s (abs_name ns) record_fn [] = (on_disk, s, None) /\
    walk parse m (abs_name ns) (lift_fn record_fn) [] = ((in_mem, m), None) /\
    NoDup (calls on_disk).*1 /\
    (forall q b, (q, b) ∈ calls on_disk <->
       exists vs e, names (ns ++ vs) /\ T (ns ++ vs) = Some e /\ q = mp ++ colon :: abs_name (ns ++ vs) /\ b = entry_brief (ns ++ vs) e) /\
    calls in_mem ≡ₚ calls on_disk /\
    (calls in_mem = calls on_disk <-> in_step (fun vs => names (ns ++ vs) /\ is_Some (T (ns ++ vs)))).
Proof.
  intros HS Hm Hd [Hh (her & Hinfo & Hdir)] Hrs0 Hmp0 Hdk Hns HT Hsep Hfor.
  pose proof (st_rs _ _ _ _ _ HS) as Hrs. destruct (st_good _ _ _ _ _ HS ns Hns) as [Hnsn Hnsg].
  pose proof (ds_wf _ _ _ _ Hd) as Hwf.
  assert (exists n, get fs (rs ++ ns) = Some n) as [n Hg].
  { pose proof (ds_at _ _ _ _ Hd ns Hns) as E. destruct HT as [e He]. rewrite He in E. destruct e; [destruct E as (i & cs & E & _)|destruct E as (i & E & _)]; by eexists. }
  destruct (wf_get _ _ _ Hwf Hg) as [Hwn _].
  assert (Hcl : forall vs x, get fs (rs ++ ns ++ vs) = Some x -> names (ns ++ vs)).
  { intros vs. induction vs as [|v vs IH] using rev_ind; intros x Hx; [by rewrite app_nil_r|].
    rewrite (app_assoc ns) in *. eapply ds_only; [exact Hd| |by eexists].
    rewrite app_assoc, get_app in Hx. destruct (get fs (rs ++ ns ++ vs)) as [y|] eqn:E; [|done]. by eapply IH. }
  assert (Hde : forall vs x, get n vs = Some x -> names (ns ++ vs) /\ exists e, T (ns ++ vs) = Some e /\ n_ok (n_meta x) = true /\
      brief (info_of (base (abs_name (rs ++ ns ++ vs))) x) = entry_brief (ns ++ vs) e).
  { intros vs x Hx. assert (Hx' : get fs (rs ++ ns ++ vs) = Some x) by (by rewrite app_assoc, get_app, Hg).
    pose proof (Hcl _ _ Hx') as Hn. split; [done|]. pose proof (ds_at _ _ _ _ Hd _ Hn) as E. rewrite Hx' in E.
    assert (Hb : base (abs_name (rs ++ ns ++ vs)) = List.last (ns ++ vs) []).
    { destruct (st_good _ _ _ _ _ HS _ Hn) as [Hne Hgn]. destruct (list_snoc_cases (ns ++ vs)) as [E'|(us & u & E')]; [done|]. rewrite E' in *.
      rewrite last_snoc, app_assoc, base_snoc; [done|]. apply Forall_app in Hgn as [_ Hgn]. by apply List.Forall_cons_iff in Hgn as [? _]. }
    rewrite Hb. destruct (T (ns ++ vs)) as [[|b]|]; [| |done]; eexists; (split; [done|]).
    - destruct E as (i & cs & E & Hok). by injection E as ->.
    - destruct E as (i & E & Hok). by injection E as ->. }
  destruct (C51_names_partial parse hp fs s s (abs_name ns) mp her rs ns n) as (lv & [HvS Hv] & Hwalk);
    [done|done|done|done|done|rewrite Hh; by eapply st_parse|apply Hinfo|done|done|
     intros vs x Hx; by destruct (Hde vs x Hx) as [_ (e & _ & Hok & _)]|rewrite Hh; intros vs x Hx; eapply Hdk, Hcl, Hx|].
  assert (Hps : forall x, path_string (Path mp x) = mp ++ colon :: match x with [] => B"/" | _ => x end).
  { intros x. unfold path_string. cbn. by destruct mp; [|destruct x]. }
  assert (Hpa : forall vs, path_string (Path mp (abs_name vs)) = mp ++ colon :: abs_name vs) by (intros vs; by rewrite Hps).
  assert (Hgood : forall x, x ∈ lv -> Forall good_elem (ns ++ x.1)).
  { intros [vs x] Hx. apply Hv in Hx as [Hx _]. apply Forall_app. split; [done|]. by destruct (wf_get _ _ _ Hwn Hx). }
  set (log := map _ lv) in Hwalk.
  assert (Hlog : calls log = (fun x => (mp ++ colon :: abs_name (ns ++ x.1), brief (info_of (base (abs_name (rs ++ ns ++ x.1))) x.2))) <$> lv).
  { unfold calls, log. rewrite <- list_fmap_compose. done. }
  assert (Hlogm : forall q b, (q, b) ∈ calls log <->
       exists vs e, names (ns ++ vs) /\ T (ns ++ vs) = Some e /\ q = mp ++ colon :: abs_name (ns ++ vs) /\ b = entry_brief (ns ++ vs) e).
  { intros q b. rewrite Hlog, elem_of_list_fmap. split.
    - intros ([vs x] & E & Hx). apply Hv in Hx as [Hx _]. destruct (Hde vs x Hx) as (Hn & e & He & _ & Hb). exists vs, e.
      split; [done|]. split; [done|]. cbn [fst snd] in E. rewrite Hb in E. by injection E.
    - intros (vs & e & Hn & He & -> & ->). pose proof (ds_at _ _ _ _ Hd _ Hn) as E. rewrite He in E.
      assert (exists x, get fs (rs ++ ns ++ vs) = Some x) as [x Hx].
      { destruct e; [destruct E as (i & cs & E & _)|destruct E as (i & E & _)]; by eexists. }
      rewrite app_assoc, get_app, Hg in Hx. exists (vs, x). destruct (Hde vs x Hx) as (_ & e' & He' & _ & Hb). cbn [fst snd]. rewrite Hb.
      assert (e' = e) as -> by congruence. split; [done|]. apply Hv. split; [done|]. by intros (? & ? & _ & _ & ?). }
  pose proof (ms_wf _ _ _ _ _ _ Hm) as Hw.
  destruct (MemWalk.listing m (Path mp (abs_name ns)) Hw eq_refl) as [HlS Hle].
  set (lm := entries m (Path mp (abs_name ns)) (sorted_keys m)) in *.
  assert (Hcm : calls (shown <$> lm) = (fun x => (path_string x.1, brief x.2)) <$> lm).
  { unfold calls. by rewrite <- list_fmap_compose. }
  assert (Hat : forall vs e d, names vs -> T vs = Some e -> entry_at m (Path mp (abs_name vs)) d -> brief d = entry_brief vs e).
  { intros vs e d Hn He Hed. pose proof (ms_at _ _ _ _ _ _ Hm vs Hn) as E. rewrite He in E. unfold entry_at in Hed.
    destruct e as [|b]; [destruct E as (f & Ef & E1 & E2)|destruct E as (f & Ef & E1 & E2 & E3 & _)]; rewrite Ef in Hed; injection Hed as <-;
      unfold brief; rewrite E1, E2; [done|by rewrite E3]. }
  assert (Hlm : forall k d, (k, d) ∈ lm <-> entry_at m k d /\ exists vs e, names (ns ++ vs) /\ T (ns ++ vs) = Some e /\ k = Path mp (abs_name (ns ++ vs)) /\
      brief d = entry_brief (ns ++ vs) e).
  { intros [g k] d. rewrite Hle. cbn [p_pkg p_name]. split.
    - intros (He & -> & Hpre). split; [done|].
      assert (Hs : is_Some (file_at m (Path mp k))) by (unfold entry_at in He; destruct (file_at m (Path mp k)); [by eexists|done]).
      destruct (ms_only _ _ _ _ _ _ Hm k Hs) as [->|[(ws & Hn & ->)|Hf]].
      + exfalso. destruct ns as [|u us]; [done|]. apply has_prefix_length in Hpre. apply List.Forall_cons_iff in Hnsg as [(Hu & _) _].
        destruct u as [|a u]; [done|]. unfold abs_name in Hpre. destruct us; cbn in Hpre; lia.
      + assert (exists e, T ws = Some e) as [e HTe].
        { pose proof (ms_at _ _ _ _ _ _ Hm ws Hn) as E. destruct (T ws) as [e|]; [by eexists|]. rewrite E in Hs. by destruct Hs. }
        destruct (Hsep ws Hn (mk_is_Some _ _ HTe) Hpre) as [vs ->]. exists vs, e. split; [done|]. split; [done|]. split; [done|]. by apply Hat.
      + by rewrite (Hfor _ Hf) in Hpre.
    - intros (He & vs & e & Hn & HTe & E & _). injection E as -> ->. split; [done|]. split; [done|]. apply abs_name_prefix. }
  assert (Hmm : forall q b, (q, b) ∈ calls (shown <$> lm) <-> (q, b) ∈ calls log).
  { intros q b. rewrite Hlogm, Hcm, elem_of_list_fmap. split.
    - intros ([k d] & E & Hx). apply Hlm in Hx as (_ & vs & e & Hn & He & -> & Hb). exists vs, e. split; [done|]. split; [done|].
      cbn [fst snd] in E. rewrite Hpa, Hb in E. by injection E.
    - intros (vs & e & Hn & He & -> & ->). pose proof (ms_at _ _ _ _ _ _ Hm _ Hn) as E. rewrite He in E.
      assert (exists d, entry_at m (Path mp (abs_name (ns ++ vs))) d) as [d Hed].
      { unfold entry_at. destruct e; [destruct E as (f & Ef & _)|destruct E as (f & Ef & _)]; rewrite Ef; by eexists. }
      exists (Path mp (abs_name (ns ++ vs)), d). cbn [fst snd]. rewrite Hpa, (Hat _ _ _ Hn He Hed). split; [done|]. apply Hlm.
      split; [done|]. exists vs, e. split; [done|]. split; [done|]. split; [done|]. by apply Hat. }
  assert (Hnd1 : NoDup (calls (shown <$> lm)).*1).
  { rewrite Hcm, <- list_fmap_compose. clear -HlS. induction HlS as [|x l HS IH HF]; [constructor|]. cbn. apply NoDup_cons. split; [|done].
    intros Hx. apply elem_of_list_fmap in Hx as (y & E & Hy). cbn [compose fst] in E. rewrite Forall_forall in HF. specialize (HF _ Hy). cbn beta in HF.
    rewrite E in HF. by rewrite blt_irrefl in HF. }
  assert (Hnd2 : NoDup (calls log).*1).
  { rewrite Hlog, <- list_fmap_compose. clear -HvS Hgood. induction HvS as [|x l HS IH HF]; [constructor|]. cbn. apply NoDup_cons. split.
    - intros Hx. apply elem_of_list_fmap in Hx as (y & E & Hy). cbn [compose fst] in E. apply app_inv_head in E. apply (f_equal tail) in E.
      change (abs_name (ns ++ x.1) = abs_name (ns ++ y.1)) in E.
      apply abs_name_inj in E; [|apply Hgood; by left|apply Hgood; by right].
      apply app_inv_head in E. rewrite Forall_forall in HF. specialize (HF _ Hy). cbn beta in HF. rewrite E in HF. by rewrite elems_lt_irrefl in HF.
    - apply IH. intros y Hy. apply Hgood. by right. }
  exists log, (shown <$> lm). split; [exact Hwalk|]. split; [|split; [done|split; [done|split]]].
  - rewrite (walk_visit parse _ m (abs_name ns) (Path mp (abs_name ns)));
      [|done|rewrite (ms_here _ _ _ _ _ _ Hm); by eapply st_parse|done]. cbn zeta. fold lm. by rewrite visit_record.
  - apply NoDup_Permutation; [by eapply NoDup_fmap_1|by eapply NoDup_fmap_1|intros [q b]; apply Hmm].
  - assert (Hst : StronglySorted (fun a b => blt (abs_name (ns ++ a.1)) (abs_name (ns ++ b.1)) = true) lv <->
      in_step (fun vs => names (ns ++ vs) /\ is_Some (T (ns ++ vs)))).
    { rewrite (sorted_step fst ns lv); [|done|intros x Hx; by apply Hgood in Hx as [_ ?]%Forall_app|done]. apply in_step_ext. intros ws. split.
      - intros ([vs x] & Hx & <-). apply Hv in Hx as [Hx _]. destruct (Hde vs x Hx) as (Hn & e & He & _). by split; [|eexists].
      - intros [Hn [e He]]. pose proof (ds_at _ _ _ _ Hd _ Hn) as E. rewrite He in E.
        assert (exists x, get fs (rs ++ ns ++ ws) = Some x) as [x Hx].
        { destruct e; [destruct E as (i & cs & E & _)|destruct E as (i & E & _)]; by eexists. }
        rewrite app_assoc, get_app, Hg in Hx. exists (ws, x). split; [|done]. apply Hv. split; [done|]. by intros (? & ? & _ & _ & ?). }
    assert (Hsm : StronglySorted (fun a b => blt a.1 b.1 = true) (calls (shown <$> lm))).
    { rewrite Hcm. by apply sorted_fmap. }
    rewrite <- Hst. split.
    + intros E. rewrite E, Hlog in Hsm. apply sorted_fmap in Hsm. revert Hsm. apply sorted_iff. intros a b. cbn [fst]. by rewrite blt_under.
    + intros HTs. apply (sorted_calls _ _ (fun x : bytes * (bytes * bool * option Z) => x.1)); [done| |intros [q b]; apply Hmm].
      rewrite Hlog. apply sorted_fmap. revert HTs. apply sorted_iff. intros a b. cbn [fst]. by rewrite blt_under.
Qed.

(** After a program that started with nothing, with the recalled resolver. *)
Theorem C113_fresh_partial (c : hinfo) (rs : list bytes) (top : bytes -> Prop) (nm : meta) (hp : bytes -> res hinfo) (now : gotime) (l : list act) (fs : node) (ns : list bytes) :
  let T := (plan_run (fun _ => None) l).1 in
  rs <> [] -> Forall plain_elem rs -> h_dir c = abs_name rs -> plain_pkg (h_mpath c) -> h_import c = h_mpath c ->
  wf_node fs -> (exists i cs, get fs rs = Some (NDir i cs)) -> (forall t, top t -> get fs (rs ++ [t]) = None) -> n_ok nm = true ->
  Forall (fun a => usable c top (act_name a)) l -> calm_run (fun _ => None) l ->
  usable c top ns -> is_Some (T ns) ->
  (forall vs, usable c top vs -> is_Some (T vs) -> has_prefix (abs_name vs) (abs_name ns) = true -> ns `prefix_of` vs) ->
  exists m' fs' on_disk in_mem,
    (mem_run here_parse now (mem_new c) l).1 = m' /\ (disk_run here_parse nm hp fs (std_new c) l).1.1 = fs' /\
    std_walk here_parse hp fs' (std_new c) (abs_name ns) record_fn [] = (on_disk, std_new c, None) /\
    walk here_parse m' (abs_name ns) (lift_fn record_fn) [] = ((in_mem, m'), None) /\
    NoDup (calls on_disk).*1 /\
    (forall q b, (q, b) ∈ calls on_disk <->
       exists vs e, usable c top (ns ++ vs) /\ T (ns ++ vs) = Some e /\ q = h_mpath c ++ colon :: abs_name (ns ++ vs) /\ b = entry_brief (ns ++ vs) e) /\
    calls in_mem ≡ₚ calls on_disk /\
    (calls in_mem = calls on_disk <-> in_step (fun vs => usable c top (ns ++ vs) /\ is_Some (T (ns ++ vs)))).
Proof.
  intros T Hrs Hpl Hd Hpkg Hi Hwf Hroot Hnone Hnm Hl Hc Hns HT Hsep.
  assert (Hg : Forall good_elem rs) by (by apply plain_good).
  assert (h_mpath c <> [] /\ is_rooted (h_mpath c) = false) as [Hmne Hm].
  { destruct Hpkg as (gs & Hn0 & Hgs & -> & _). destruct (head_join gs Hgs Hn0) as (x & t & E & Hx). rewrite E. split; [done|].
    cbn [is_rooted]. by apply Ascii.eqb_neq. }
  destruct (C112_fresh_partial c rs top nm hp now l fs) as (m' & fs' & xs & E1 & E2 & _ & H1 & H2); [done..|].
  destruct (C113_partial here_parse c rs (h_mpath c) (usable c top) (fun _ => False) hp T m' fs' (std_new c) ns)
    as (od & im & H); [by apply here_setting|done|done| |done|done| |done|done|done|done|].
  - split; [done|]. exists c. split; [|done]. by apply new_info.
  - intros vs (Hv & _). split.
    + apply plain_elem_not; [by intros w (?&?&?)|done|done].
    + eexists. apply here_parse_package; [done| |by rewrite Hd]. apply plain_elems_name. by apply Forall_app.
  - exists m', fs', od, im. rewrite E1, E2. done.
Qed.

(** A directory with a file and a sub-directory, after an update and a
    removal. *)
Definition walk_prog : list act :=
  [AMkdir [B"data"; B"sub"]; AWrite [B"data"; B"a.txt"] [B"hello"]; AWrite [B"data"; B"sub"; B"b"] [B"x"; B"yz"]; AMkdir [B"data"; B"tmp"];
   AWrite [B"data"; B"a.txt"] [B"bye"]; ARemove [B"data"; B"tmp"]].
Example C113_ex :
  Forall (fun a => usable her_ex both_top (act_name a)) walk_prog /\ calm_run (fun _ => None) walk_prog /\
  calls (walk here_parse (mem_run here_parse both_now (mem_new her_ex) walk_prog).1 (B"/data") (lift_fn record_fn) []).1.1 =
    calls (std_walk here_parse no_hp (disk_run here_parse std_meta no_hp (std_app []) (std_new her_ex) walk_prog).1.1
             (std_new her_ex) (B"/data") record_fn []).1.1 /\
  calls (walk here_parse (mem_run here_parse both_now (mem_new her_ex) walk_prog).1 (B"/data") (lift_fn record_fn) []).1.1 =
    [(B"app:/data", (B"data", true, None)); (B"app:/data/a.txt", (B"a.txt", false, Some 3%Z)); (B"app:/data/sub", (B"sub", true, None));
     (B"app:/data/sub/b", (B"b", false, Some 3%Z))].
Proof.
  split. { unfold walk_prog. repeat (apply List.Forall_cons || apply List.Forall_nil); cbn [act_name]; usable_tac. }
  split. { apply (calm_check_sound _ []); [by intros vs [e He]|by vm_compute]. }
  split; by vm_compute.
Qed.

(** A packed program walks what it would walk where it was packed: at once
    ([l] = []) or after changing things. *)
Theorem C113_packed_partial gz gunzip parse hdir hpkg fs c rs mp rg uorder order ds pl b names s nm hp now l ns :
  let T := (plan_run (tree_of fs rs) l).1 in
  packing gz gunzip parse hdir hpkg fs c rs mp rg uorder ->
  files parse hdir fs order ds = Ok pl -> inside rs pl -> stuff parse hdir hpkg fs gz rg order c ds = Ok b ->
  setting parse c rs mp names -> h_import c = mp -> beside_it c rs mp s -> n_ok nm = true ->
  (exists i cs, get fs rs = Some (NDir i cs)) ->
  (forall ns n, names ns -> get fs (rs ++ ns) = Some n -> taken fs rs (pf_abs <$> pl) ns /\ n_ok (n_meta n) = true) ->
  (forall ns v, names ns -> is_Some (get fs (rs ++ ns ++ [v])) -> names (ns ++ [v])) ->
  Forall (fun a => names (act_name a)) l -> calm_run (tree_of fs rs) l ->
  rs <> [] -> mp <> [] ->
  (forall vs, names vs -> backslash ∉ abs_name vs /\ exists n, parse c (mp ++ colon :: abs_name (rs ++ vs)) = Some (Path mp n)) ->
  names ns -> is_Some (T ns) ->
  (forall vs, names vs -> is_Some (T vs) -> has_prefix (abs_name vs) (abs_name ns) = true -> ns `prefix_of` vs) ->
  (forall ws, taken fs rs (pf_abs <$> pl) ws -> ws = [] \/ names ws \/ has_prefix (abs_name ws) (abs_name ns) = false) ->
  exists m' m1 fs1 on_disk in_mem,
    unmarshal_embed gunzip parse uorder b = Done m' /\ (mem_run parse now m' l).1 = m1 /\ (disk_run parse nm hp fs s l).1.1 = fs1 /\
    std_walk parse hp fs1 s (abs_name ns) record_fn [] = (on_disk, s, None) /\
    walk parse m1 (abs_name ns) (lift_fn record_fn) [] = ((in_mem, m1), None) /\
    NoDup (calls on_disk).*1 /\
    (forall q b, (q, b) ∈ calls on_disk <->
       exists vs e, names (ns ++ vs) /\ T (ns ++ vs) = Some e /\ q = mp ++ colon :: abs_name (ns ++ vs) /\ b = entry_brief (ns ++ vs) e) /\
    calls in_mem ≡ₚ calls on_disk /\
    (calls in_mem = calls on_disk <-> in_step (fun vs => names (ns ++ vs) /\ is_Some (T (ns ++ vs)))).
Proof.
  intros T Hp Hl Hin Hs HS Hi Hb Hnm Hroot Htk Hcl Hn Hc Hrs Hmp Hdk Hns HT Hsep Hfor.
  destruct (packed_shows gz gunzip parse hdir hpkg fs c rs mp rg uorder order ds pl b names (fun x => has_prefix x (abs_name ns) = false))
    as (m' & Hu & _ & H1 & H2); [done..|].
  destruct (C112_partial parse c rs mp names (fun x => has_prefix x (abs_name ns) = false) nm hp now (tree_of fs rs) l m' fs s)
    as (m1 & fs1 & xs & E1 & E2 & _ & H3 & H4); [done..|].
  destruct (C113_partial parse c rs mp names (fun x => has_prefix x (abs_name ns) = false) hp T m1 fs1 s ns) as (od & im & H); [done..|].
  exists m', m1, fs1, od, im. rewrite E1, E2. done.
Qed.
(** "/img" is packed; the program rewrites one file and adds another. *)
Definition img_prog : list act := [AWrite [B"img"; B"b.png"] [B"JPEG"]; AWrite [B"img"; B"c.png"] [B"1"; B"2"]].
Example C113_packed_ex :
  Forall (fun a => usable her_ex img_top (act_name a)) img_prog /\ calm_run (tree_of pack_fs wit_rs) img_prog /\
  (forall ws, taken pack_fs wit_rs (pf_abs <$> img_pl) ws -> ws = [] \/ usable her_ex img_top ws \/ has_prefix (abs_name ws) (abs_name [B"img"]) = false) /\
  packs wit_hdir wit_hdir pack_fs her_ex pack_ds (fun m' =>
    calls (walk here_parse (mem_run here_parse both_now m' img_prog).1 (B"/img") (lift_fn record_fn) []).1.1 =
      calls (std_walk here_parse no_hp (disk_run here_parse std_meta no_hp pack_fs (std_new her_ex) img_prog).1.1 (std_new her_ex) (B"/img") record_fn []).1.1 /\
    calls (walk here_parse (mem_run here_parse both_now m' img_prog).1 (B"/img") (lift_fn record_fn) []).1.1 =
      [(B"app:/img", (B"img", true, None)); (B"app:/img/b.png", (B"b.png", false, Some 4%Z)); (B"app:/img/c.png", (B"c.png", false, Some 2%Z))]).
Proof.
  split. { unfold img_prog. repeat (apply List.Forall_cons || apply List.Forall_nil); cbn [act_name]; usable_tac. }
  split. { apply (calm_check_sound _ (nodes pack_app).*1); [apply img_finite|by vm_compute]. }
  split; [apply img_foreign|]. apply packs_intro. by vm_compute.
Qed.

(** Without the conditions: (1) a name that only begins the same is walked in
    memory and not on disk; (2) walking what does not exist is an error on disk
    only; (3) with "a" and "a.txt" the order differs. *)
Definition walks (l : list act) (p : bytes) : list bytes * option gerr * (list bytes * option gerr) :=
  let r1 := walk here_parse (mem_run here_parse both_now (mem_new her_ex) l).1 p (lift_fn record_fn) [] in
  let r2 := std_walk here_parse no_hp (disk_run here_parse std_meta no_hp (std_app []) (std_new her_ex) l).1.1 (std_new her_ex) p record_fn [] in
  (r1.1.1.*1, r1.2, (r2.1.1.*1, r2.2)).
Theorem C113_refuted :
  walks [AMkdir [B"a"]; AWrite [B"ab"] [B"x"]] (B"/a") = ([B"app:/a"; B"app:/ab"], None, ([B"app:/a"], None)) /\
  (exists e, walks [] (B"/a") = ([], None, ([], Some e))) /\
  walks [AMkdir [B"d"; B"a"]; AWrite [B"d"; B"a"; B"x"] [B"1"]; AWrite [B"d"; B"a.txt"] [B"1"]] (B"/d") =
    ([B"app:/d"; B"app:/d/a"; B"app:/d/a.txt"; B"app:/d/a/x"], None,
     ([B"app:/d"; B"app:/d/a"; B"app:/d/a/x"; B"app:/d/a.txt"], None)).
Proof. split; [by vm_compute|]. split; [eexists; by vm_compute|]. by vm_compute. Qed.
