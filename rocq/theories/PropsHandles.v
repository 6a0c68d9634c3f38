(** Theorems: programs that keep files open, in memory and on disk (C128). *)
From Verif Require Import Bytes GoPath Here GoTypes Mem MemSpec MemBase MemFiles MemDirs MemDirs2 WalkSpec MemWalk JsonStr JsonText Embed
  Marshal MarshalMem PropsEmbed PropsMarshal Disk Decls DeclsProofs PropsParser Pack PropsPack DiskOps Std PropsStd PropsDump PropsSame Both PropsBoth Handles.

(** ** C128: open files behave the same in memory and on disk *)

Lemma disk_shows_ext rs names fs T T' : disk_shows rs names fs T -> (forall vs, T vs = T' vs) -> disk_shows rs names fs T'.
Proof. intros [H1 H2 H3 H4] HT. split; [done|done|done|]. intros ns Hn. rewrite <- HT. by apply H4. Qed.

(** Full claim: any program of whole-file actions and of Open, Create, Read,
    Seek, Write and Close on the files it has opened gets the same answers from
    both pkgers.  It is false ([C128_refuted]); here it is for calm programs
    ([calm_hs]), with the answers a plain tree predicts ([plan_hs]).  In the end
    both show the same tree, except that a file still being written shows its
    bytes on disk only. *)
Theorem C128_partial parse c rs mp names foreign nm hp now maxpos T l m fs s :
  setting parse c rs mp names -> mem_shows c mp names foreign m T -> disk_shows rs names fs T ->
  beside_it c rs mp s -> n_ok nm = true -> (maxpos < 2^63)%Z ->
  Forall (fun x => hact_names x names) l -> calm_hs maxpos T [] l ->
  exists m' hs fs' ds Td,
    let '(T', open, xs) := plan_hs T [] l in
    mem_hs parse now m [] l = (m', hs, xs) /\ disk_hs parse nm hp maxpos fs s [] l = (fs', s, ds, xs) /\
    mem_shows c mp names foreign m' T' /\ disk_shows rs names fs' Td /\
    (forall vs, (forall b, HW vs b ∉ open) -> Td vs = T' vs) /\
    (forall vs b, HW vs b ∈ open -> T' vs = Some (EFile []) /\ Td vs = Some (EFile b)).
Proof.
  intros HS Hm Hd Hb Hnm Hmax Hl Hc.
  pose proof (mem_hprogram parse c rs mp names HS now maxpos Hmax foreign l m T [] []) as H1.
  pose proof (disk_hprogram parse c rs mp names HS nm Hnm hp maxpos l fs s T [] [] T) as H2.
  destruct (plan_hs T [] l) as [[T' xs] r].
  destruct H1 as (m' & hs & E1 & [Hm' _ _]); [split; [done|constructor|done]|done|done|].
  destruct H2 as (fs' & ds & Td & E2 & [Hd' Hsh _]); [split; [done|split; [done|done|done]|done]|done|done|done|].
  exists m', hs, fs', ds, Td. split; [done|]. split; [done|]. split; [done|]. split; [done|]. split.
  - intros vs Hv. apply Hsh. intros k w Hk. apply (Hv w). by eapply elem_of_list_lookup_2.
  - intros vs b Hv. apply elem_of_list_lookup in Hv as [k Hk]. by eapply sh_writing.
Qed.

(** From nothing, with the recalled resolver; every file is closed in the end,
    so both show the same tree. *)
Theorem C128_fresh_partial (c : hinfo) (rs : list bytes) (top : bytes -> Prop) (nm : meta) (hp : bytes -> res hinfo) (now : gotime) (maxpos : Z) (l : list hact) (fs : node) :
  rs <> [] -> Forall good_elem rs -> h_dir c = abs_name rs -> is_rooted (h_mpath c) = false -> h_import c = h_mpath c ->
  wf_node fs -> (exists i cs, get fs rs = Some (NDir i cs)) -> (forall t, top t -> get fs (rs ++ [t]) = None) -> n_ok nm = true ->
  (maxpos < 2^63)%Z -> Forall (fun x => hact_names x (usable c top)) l -> calm_hs maxpos (fun _ => None) [] l ->
  (forall vs b, HW vs b ∉ (plan_hs (fun _ => None) [] l).1.2) ->
  exists m' hs fs' ds,
    let '(T', _, xs) := plan_hs (fun _ => None) [] l in
    mem_hs here_parse now (mem_new c) [] l = (m', hs, xs) /\ disk_hs here_parse nm hp maxpos fs (std_new c) [] l = (fs', std_new c, ds, xs) /\
    mem_shows c (h_mpath c) (usable c top) (fun _ => False) m' T' /\ disk_shows rs (usable c top) fs' T'.
Proof.
  intros Hrs Hg Hd Hm Hi Hwf Hroot Hnone Hnm Hmax Hl Hc Hend.
  assert (Hgone : forall ns, usable c top ns -> get fs (rs ++ ns) = None).
  { intros ns (_ & _ & t & us & -> & Ht). change (t :: us) with ([t] ++ us). by rewrite app_assoc, get_app, Hnone. }
  destruct (C128_partial here_parse c rs (h_mpath c) (usable c top) (fun _ => False) nm hp now maxpos (fun _ => None) l (mem_new c) fs (std_new c))
    as (m' & hs & fs' & ds & Td & H); [by apply here_setting| | |split; [done|exists c; split; [by apply new_info|done]]|done|done|done|done|].
  - split; [apply wf_new|done|cbn; rewrite <- Hi, lookup_singleton; by eexists|..].
    + intros n [f Hf]. unfold file_at in Hf. cbn in Hf. by rewrite lookup_empty in Hf.
    + intros ns _. unfold file_at. cbn. by rewrite lookup_empty.
  - split; [done|done| |exact Hgone]. intros ns v Hn [x Hx]. by rewrite app_assoc, get_app, (Hgone ns Hn) in Hx.
  - exists m', hs, fs', ds. destruct (plan_hs (fun _ => None) [] l) as [[T' xs] r]. cbn [fst snd] in Hend.
    destruct H as (E1 & E2 & H1 & H2 & H3 & _). split; [done|]. split; [done|]. split; [done|].
    eapply disk_shows_ext; [done|]. intros vs. by apply H3.
Qed.

(** Calmness by computation, as in PropsBoth.v. *)
#[global] Instance entry_dec : EqDecision entry.
Proof. solve_decision. Defined.
Definition calm_hb (maxpos : Z) (D : list (list bytes)) (T : tree) (hs : list hst) (x : hact) : bool :=
  match x with
  | HAct a => calmb D T a && forallb (fun h => match h with
                | HR ns _ _ => bool_decide ((plan_do T a).1 ns = T ns)
                | HW ns _ => bool_decide ((plan_do T a).1 ns = T ns) && negb (bool_decide (act_name a = ns))
                | HX => true end) hs
  | HOpen ns => match T ns with Some EDir | Some (EFile []) => false | _ => true end
  | HCreate ns => calmb D T (AWrite ns []) &&
      forallb (fun h => match h with HR vs _ _ | HW vs _ => negb (bool_decide (vs = ns)) | HX => true end) hs
  | HRead k n => negb (n =? 0) && match hs !! k with Some (HR _ _ _) => true | _ => false end
  | HSeek k off whence =>
      ((whence =? 0) || (whence =? 1) || (whence =? 2))%Z && (- 2^63 <=? off)%Z &&
      match hs !! k with Some (HR _ b pos) => (target b pos off whence <=? maxpos)%Z | _ => false end
  | HWrite k _ => match hs !! k with Some (HW _ _) => true | _ => false end
  | HClose k => match hs !! k with Some HX | None => false | _ => true end
  end.
Definition touched (x : hact) : list (list bytes) :=
  match x with HAct a => inits (act_name a) | HOpen ns | HCreate ns => inits ns | _ => [] end.
Fixpoint calm_hcheck (maxpos : Z) (D : list (list bytes)) (T : tree) (hs : list hst) (l : list hact) : bool :=
  match l with
  | [] => true
  | x :: l => calm_hb maxpos D T hs x && let '(T', hs', _) := plan_h T hs x in
      forallb (fun h => match h with HW ns _ => bool_decide (is_Some (T' ns)) | _ => true end) hs' &&
      calm_hcheck maxpos (touched x ++ D) T' hs' l
  end.

Lemma calm_hb_sound maxpos D T hs x : (forall vs, is_Some (T vs) -> vs ∈ D) -> calm_hb maxpos D T hs x = true -> calm_h maxpos T hs x.
Proof.
  intros HD. destruct x as [a|ns|ns|k n|k off whence|k b|k]; cbn [calm_hb calm_h].
  - rewrite andb_true_iff, forallb_forall. intros [H1 H2]. split; [by eapply calmb_sound|]. apply Forall_forall. intros h Hh.
    specialize (H2 h (proj1 (elem_of_list_In _ _) Hh)). destruct h as [ns b pos|ns w|]; cbn [undisturbed].
    + by apply bool_decide_eq_true in H2.
    + apply andb_true_iff in H2 as [H2 H3]. apply bool_decide_eq_true in H2. apply negb_true_iff, bool_decide_eq_false in H3. done.
    + done.
  - by destruct (T ns) as [[|[|x b]]|].
  - rewrite andb_true_iff, forallb_forall. intros [H1 H2]. split; [by eapply (calmb_sound D)|]. intros [k [(b & pos & Hk)|(b & Hk)]];
      apply elem_of_list_lookup_2, elem_of_list_In in Hk; specialize (H2 _ Hk); cbn in H2; by rewrite bool_decide_eq_true_2 in H2.
  - rewrite andb_true_iff, negb_true_iff. intros [H1 H2]. split; [by apply Nat.eqb_neq|]. destruct (hs !! k) as [[ns b pos| |]|]; [|done..]. by eexists _, _, _.
  - rewrite !andb_true_iff, !orb_true_iff, !Z.eqb_eq, Z.leb_le. intros [[H1 H2] H3]. split; [tauto|]. split; [done|].
    destruct (hs !! k) as [[ns b pos| |]|]; [|done..]. apply Z.leb_le in H3. by eexists _, _, _.
  - destruct (hs !! k) as [[| ns w|]|]; [done| |done..]. by eexists _, _.
  - destruct (hs !! k) as [[| |]|]; [by eexists..|done|done].
Qed.
Lemma plan_h_dom T hs x D : (forall vs, is_Some (T vs) -> vs ∈ D) -> (forall ns w, HW ns w ∈ hs -> is_Some (T ns)) ->
  forall vs, is_Some ((plan_h T hs x).1.1 vs) -> vs ∈ touched x ++ D.
Proof.
  intros HD Hh vs Hs. apply elem_of_app. destruct x as [a|ns|ns|k n|k off whence|k b|k]; cbn [plan_h touched] in *.
  - destruct a as [ns bs|ns|ns|ns|ns sizes|ns]; cbn [plan_do fst act_name] in *; try (right; by apply HD).
    + destruct (dir_at T (above ns)); [|right; by apply HD]. cbn [fst] in Hs. case_bool_decide as E; [left; subst; by apply in_inits|right; by apply HD].
    + case_bool_decide as E; [left; by apply in_inits|right; by apply HD].
    + destruct (T ns); [|right; by apply HD]. cbn [fst] in Hs. case_bool_decide as E; [by destruct Hs|right; by apply HD].
    + case_bool_decide as E; [by destruct Hs|right; by apply HD].
  - right. apply HD. by destruct (T ns) as [[]|].
  - destruct (dir_at T (above ns)); [|right; by apply HD]. cbn [fst] in Hs. unfold put in Hs. case_bool_decide as E; [left; subst; by apply in_inits|right; by apply HD].
  - right. apply HD. destruct (hs !! k) as [[ns b pos| |]|]; [|done..]. by destruct (drop (Z.to_nat pos) b).
  - right. apply HD. destruct (hs !! k) as [[ns b pos| |]|]; [|done..]. cbv zeta in Hs. by destruct (_ <? _)%Z.
  - right. apply HD. by destruct (hs !! k) as [[| ns w|]|].
  - right. destruct (hs !! k) as [[| ns w|]|] eqn:Ek; [by apply HD| |by apply HD|by apply HD]. cbn [fst] in Hs. unfold put in Hs.
    case_bool_decide as E; [|by apply HD]. subst. apply HD, (Hh ns w). by eapply elem_of_list_lookup_2.
Qed.
Lemma calm_hcheck_sound maxpos l D T hs : (forall vs, is_Some (T vs) -> vs ∈ D) -> (forall ns w, HW ns w ∈ hs -> is_Some (T ns)) ->
  calm_hcheck maxpos D T hs l = true -> calm_hs maxpos T hs l.
Proof.
  revert D T hs. induction l as [|x l IH]; intros D T hs HD Hh H; [done|]. cbn [calm_hcheck calm_hs] in *. apply andb_true_iff in H as [H1 H2].
  split; [by eapply calm_hb_sound|]. pose proof (plan_h_dom T hs x D HD Hh) as HD'. destruct (plan_h T hs x) as [[T' hs'] r]. cbn [fst] in HD'.
  apply andb_true_iff in H2 as [H2 H3]. eapply IH; [exact HD'| |exact H3]. intros ns w Hin. rewrite forallb_forall in H2.
  specialize (H2 _ (proj1 (elem_of_list_In _ _) Hin)). by apply bool_decide_eq_true in H2.
Qed.

(** Copying a file in pieces of four bytes, while a second handle on it reads
    its end, seeks before the beginning, and past the end. *)
Definition copy_prog : list hact :=
  [HAct (AMkdir [B"data"]); HAct (AWrite [B"data"; B"a"] [B"hello world"]);
   HOpen [B"data"; B"a"]; HCreate [B"data"; B"b"]; HOpen [B"data"; B"none"]; HOpen [B"data"; B"a"];
   HRead 0 4; HWrite 1 (B"hell"); HSeek 2 (-5) 2; HRead 2 9; HRead 0 4; HWrite 1 (B"o wo"); HSeek 2 (-12) 1; HSeek 2 20 0; HRead 2 1;
   HAct (AStat [B"data"; B"a"]); HRead 0 4; HWrite 1 (B"rld"); HRead 0 4; HClose 1; HClose 0; HClose 2;
   HAct (AStat [B"data"; B"b"]); HOpen [B"data"; B"b"]; HRead 3 100; HRead 3 100; HClose 3; HAct (ARemove [B"data"; B"a"])].
Lemma copy_usable : Forall (fun x => hact_names x (usable her_ex both_top)) copy_prog.
Proof. unfold copy_prog. repeat (apply List.Forall_cons || apply List.Forall_nil); cbn [hact_names act_name]; done || usable_tac. Qed.
Lemma copy_calm : calm_hs (2^40) (fun _ => None) [] copy_prog.
Proof. apply (calm_hcheck_sound _ _ []); [by intros vs [e He]|by intros ns w H%elem_of_nil|by vm_compute]. Qed.

Example C128_ex :
  (mem_hs here_parse both_now (mem_new her_ex) [] copy_prog).2 =
    (disk_hs here_parse std_meta no_hp (2^40) (std_app [(B"main.go", NFile std_meta (B"package main"))]) (std_new her_ex) [] copy_prog).2 /\
  (mem_hs here_parse both_now (mem_new her_ex) [] copy_prog).2 =
    [XAns (ADone true); XAns (ADone true); XOk true; XOk true; XOk false; XOk true;
     XRead (B"hell") None; XWrote (Some 4); XPos (Some 6%Z); XRead (B"world") None; XRead (B"o wo") None; XWrote (Some 4); XPos None; XPos (Some 20%Z);
     XRead [] (Some EEOF); XAns (AInfo (Some (B"a", false, Some 11%Z))); XRead (B"rld") None; XWrote (Some 3); XRead [] (Some EEOF);
     XOk true; XOk true; XOk true; XAns (AInfo (Some (B"b", false, Some 11%Z))); XOk true; XRead (B"hello world") None; XRead [] (Some EEOF); XOk true;
     XAns (ADone true)].
Proof.
  destruct (C128_fresh_partial her_ex [B"src"; B"app"] both_top std_meta no_hp both_now (2^40) copy_prog
    (std_app [(B"main.go", NFile std_meta (B"package main"))])) as (m' & hs & fs' & ds & H);
    [done|good_elems|done|done|done|wf_tac|by eexists _, _|intros t [-> | ->]; by vm_compute|done|done|apply copy_usable|apply copy_calm| |].
  { intros vs b. assert (E : (plan_hs (fun _ => None) [] copy_prog).1.2 = [HX; HX; HX; HX]) by (by vm_compute). rewrite E.
    intros H. repeat (apply elem_of_cons in H as [H|H]; [done|]). by apply elem_of_nil in H. }
  assert (E : (plan_hs (fun _ => None) [] copy_prog).2 =
    [XAns (ADone true); XAns (ADone true); XOk true; XOk true; XOk false; XOk true;
     XRead (B"hell") None; XWrote (Some 4); XPos (Some 6%Z); XRead (B"world") None; XRead (B"o wo") None; XWrote (Some 4); XPos None; XPos (Some 20%Z);
     XRead [] (Some EEOF); XAns (AInfo (Some (B"a", false, Some 11%Z))); XRead (B"rld") None; XWrote (Some 3); XRead [] (Some EEOF);
     XOk true; XOk true; XOk true; XAns (AInfo (Some (B"b", false, Some 11%Z))); XOk true; XRead (B"hello world") None; XRead [] (Some EEOF); XOk true;
     XAns (ADone true)]) by (by vm_compute).
  destruct (plan_hs (fun _ => None) [] copy_prog) as [[T' st] xs]. destruct H as (E1 & E2 & _). rewrite E1, E2. by split.
Qed.

(** Inside a packed program, open files behave as they would where it was
    packed. *)
Theorem C128_packed_partial gz gunzip parse hdir hpkg fs c rs mp rg uorder order ds pl b names s nm hp now maxpos l :
  packing gz gunzip parse hdir hpkg fs c rs mp rg uorder ->
  files parse hdir fs order ds = Ok pl -> inside rs pl -> stuff parse hdir hpkg fs gz rg order c ds = Ok b ->
  setting parse c rs mp names -> h_import c = mp -> beside_it c rs mp s -> n_ok nm = true -> (maxpos < 2^63)%Z ->
  (exists i cs, get fs rs = Some (NDir i cs)) ->
  (forall ns n, names ns -> get fs (rs ++ ns) = Some n -> taken fs rs (pf_abs <$> pl) ns /\ n_ok (n_meta n) = true) ->
  (forall ns v, names ns -> is_Some (get fs (rs ++ ns ++ [v])) -> names (ns ++ [v])) ->
  Forall (fun x => hact_names x names) l -> calm_hs maxpos (tree_of fs rs) [] l ->
  exists m', unmarshal_embed gunzip parse uorder b = Done m' /\
    (mem_hs parse now m' [] l).2 = (disk_hs parse nm hp maxpos fs s [] l).2 /\
    (mem_hs parse now m' [] l).2 = (plan_hs (tree_of fs rs) [] l).2.
Proof.
  intros Hp Hl Hin Hs HS Hi Hb Hnm Hmax Hroot Htk Hcl Hn Hc.
  destruct (packed_shows gz gunzip parse hdir hpkg fs c rs mp rg uorder order ds pl b names (fun _ => True)) as (m' & Hu & _ & H1 & H2);
    [done..|auto|]. exists m'. split; [done|].
  destruct (C128_partial parse c rs mp names (fun _ => True) nm hp now maxpos (tree_of fs rs) l m' fs s) as (m1 & hs & fs1 & hd & Td & H); [done..|].
  destruct (plan_hs (tree_of fs rs) [] l) as [[T' op] xs]. destruct H as (E1 & E2 & _). by rewrite E1, E2.
Qed.
(** A packed file is read in pieces, with a seek, while it is copied. *)
Definition img_copy : list hact :=
  [HAct (AMkdir [B"new"]); HOpen [B"img"; B"b.png"]; HCreate [B"new"; B"x"]; HRead 0 2; HWrite 1 (B"PN"); HSeek 0 1 0; HRead 0 9; HWrite 1 (B"NG");
   HRead 0 1; HClose 0; HClose 1; HAct (AStat [B"new"; B"x"]); HOpen [B"new"; B"x"]; HRead 2 9; HRead 2 9; HClose 2].
Example C128_packed_ex :
  Forall (fun x => hact_names x (usable her_ex img_top)) img_copy /\ calm_hs (2^40) (tree_of pack_fs wit_rs) [] img_copy /\
  packs wit_hdir wit_hdir pack_fs her_ex pack_ds (fun m' =>
    (mem_hs here_parse both_now m' [] img_copy).2 = (disk_hs here_parse std_meta no_hp (2^40) pack_fs (std_new her_ex) [] img_copy).2 /\
    (mem_hs here_parse both_now m' [] img_copy).2 =
      [XAns (ADone true); XOk true; XOk true; XRead (B"PN") None; XWrote (Some 2); XPos (Some 1%Z); XRead (B"NG") None; XWrote (Some 2);
       XRead [] (Some EEOF); XOk true; XOk true; XAns (AInfo (Some (B"x", false, Some 4%Z))); XOk true; XRead (B"PNNG") None; XRead [] (Some EEOF); XOk true]).
Proof.
  split. { unfold img_copy. repeat (apply List.Forall_cons || apply List.Forall_nil); cbn [hact_names act_name]; first [done|usable_tac]. }
  split. { apply (calm_hcheck_sound _ _ (nodes pack_app).*1); [apply img_finite|by intros ns w H%elem_of_nil|by vm_compute]. }
  apply packs_intro. by vm_compute.
Qed.

(** What calmness rules out: (1) an open file is rewritten: the handle goes on
    reading the old bytes in memory, the new ones on disk; (2) a file is looked at
    before it is closed; (3) or read; (4) a created file is read through its own
    handle; (5) a file opened for reading is written to (which in memory appears
    to work); (6) an empty file is read; (7) a file is closed twice; (8) a closed
    file is read. *)
Definition h_differ (l : list hact) (x y : hans) : Prop :=
  List.last (mem_hs here_parse both_now (mem_new her_ex) [] l).2 (XOk true) = x /\
  List.last (disk_hs here_parse std_meta no_hp (2^40) (std_app []) (std_new her_ex) [] l).2 (XOk true) = y /\ x <> y.
Theorem C128_refuted :
  h_differ [HAct (AWrite [B"a"] [B"old"]); HOpen [B"a"]; HAct (AWrite [B"a"] [B"new"]); HRead 0 9] (XRead (B"old") None) (XRead (B"new") None) /\
  h_differ [HCreate [B"a"]; HWrite 0 (B"xy"); HAct (AStat [B"a"])] (XAns (AInfo (Some (B"a", false, Some 0%Z)))) (XAns (AInfo (Some (B"a", false, Some 2%Z)))) /\
  h_differ [HCreate [B"a"]; HWrite 0 (B"xy"); HOpen [B"a"]; HRead 1 9] (XRead [] (Some (EMsg unable_to_read))) (XRead (B"xy") None) /\
  h_differ [HCreate [B"a"]; HWrite 0 (B"xy"); HRead 0 9] (XRead [] (Some (EMsg unable_to_read))) (XRead [] (Some EEOF)) /\
  h_differ [HAct (AWrite [B"a"] [B"old"]); HOpen [B"a"]; HWrite 0 (B"x")] (XWrote (Some 1)) (XWrote None) /\
  h_differ [HAct (AWrite [B"a"] []); HOpen [B"a"]; HRead 0 9] (XRead [] (Some (EMsg unable_to_read))) (XRead [] (Some EEOF)) /\
  h_differ [HCreate [B"a"]; HClose 0; HClose 0] (XOk true) (XOk false) /\
  h_differ [HAct (AWrite [B"a"] [B"old"]); HOpen [B"a"]; HClose 0; HRead 0 9] (XRead (B"old") None) (XRead [] (Some (EPath (B"read") (B"file already closed")))).
Proof. unfold h_differ. split_and!; by vm_compute. Qed.
