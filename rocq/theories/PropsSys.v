(** Theorems: what becomes of os.FileInfo.Sys in a packed program (C144).

    pkging.NewFileInfo keeps the Sys value of the system (file_info.go:53-65),
    on Linux a *syscall.Stat_t, a struct.  Packing writes it as JSON; loading
    reads it into an interface{}: an object becomes a map, which lists its
    members by key. *)
From Verif Require Import Bytes GoPath Here GoTypes Mem MemSpec MemBase MemFiles MarshalMem JsonStr JsonText JsonSpec RawJson Decode Embed PropsEmbed Marshal PropsMarshal Indent Cmds
  WalkSpec Disk Decls DeclsProofs Pack PropsPack PropsParser Std PropsStd PropsSame MemDirs.

(** ** Specification *)

(** The same file system, every Sys value as it comes back from JSON. *)
Definition remeta (i : meta) : meta := Meta (n_mode i) (n_mtime i) (n_size i) (go_sys (n_sys i)) (n_ok i).
Fixpoint resys (n : node) : node :=
  match n with
  | NFile i d => NFile (remeta i) d
  | NDir i cs => NDir (remeta i) (map (fun x => (x.1, resys x.2)) cs)
  end.
Definition redet (d : details) : details := Details (d_name d) (d_size d) (d_mode d) (d_mtime d) (d_isdir d) (go_sys (d_sys d)).

(** Two JSON values that are the same but for the order of members. *)
Inductive reordered : json -> json -> Prop :=
| ro_same j : reordered j j
| ro_arr l l' : Forall2 reordered l l' -> reordered (JArr l) (JArr l')
| ro_obj l l1 l' : l ≡ₚ l1 -> Forall2 (fun a b => a.1 = b.1 /\ reordered a.2 b.2) l1 l' -> reordered (JObj l) (JObj l').
(** No object names a member twice. *)
Fixpoint one_each (j : json) : Prop :=
  match j with
  | JArr l => fold_right (fun j P => one_each j /\ P) True l
  | JObj l => NoDup l.*1 /\ fold_right (fun kv P => one_each kv.2 /\ P) True l
  | _ => True
  end.

(** ** Proofs: Sys *)

Lemma put_member_keys k x l k' : k' ∈ (put_member k x l).*1 <-> k' = k \/ k' ∈ l.*1.
Proof.
  induction l as [|[k2 x2] l IH]; cbn [put_member fmap list_fmap fst].
  - rewrite elem_of_list_singleton. split; [by left|]. intros [?|H]; [done|]. by apply elem_of_nil in H.
  - destruct (blt k k2); [cbn [fmap list_fmap fst]; by rewrite !elem_of_cons|].
    case_bool_decide as E; cbn [fmap list_fmap fst]; rewrite !elem_of_cons.
    + subst k2. split; [intros [?|?]; auto|]. intros [?|[?|?]]; auto.
    + rewrite IH. split; [intros [?|[?|?]]; auto|intros [?|[?|?]]; auto].
Qed.
Lemma put_member_sorted k x l : StronglySorted (fun a b => blt a b = true) l.*1 -> StronglySorted (fun a b => blt a b = true) (put_member k x l).*1.
Proof.
  induction l as [|[k2 x2] l IH]; intros H; cbn [put_member].
  - repeat constructor.
  - cbn [fmap list_fmap fst] in H. inversion H as [|? ? Hs Hf]; subst.
    destruct (blt k k2) eqn:E.
    + cbn [fmap list_fmap fst]. constructor; [by constructor|]. constructor; [done|].
      eapply Forall_impl; [exact Hf|]. intros a Ha. cbn beta. by eapply blt_trans.
    + case_bool_decide as E2; cbn [fmap list_fmap fst]; [subst; by constructor|].
      constructor; [by apply IH|]. apply Forall_forall. intros a Ha. apply put_member_keys in Ha as [->|Ha].
      * apply blt_spec. unfold blt in E. apply negb_false_iff in E. done.
      * by eapply Forall_forall in Hf.
Qed.
Lemma by_key_is_sorted l : StronglySorted (fun a b => blt a b = true) (by_key l).*1.
Proof.
  unfold by_key. assert (G : forall acc : list (bytes * json), StronglySorted (fun a b => blt a b = true) acc.*1 ->
    StronglySorted (fun a b => blt a b = true) (foldl (fun acc (kv : bytes * json) => put_member kv.1 kv.2 acc) acc l).*1).
  { induction l as [|kv l IH]; intros acc H; cbn [foldl]; [done|]. by apply IH, put_member_sorted. }
  apply G. constructor.
Qed.
Lemma put_member_forall (P : bytes * json -> Prop) k x l : P (k, x) -> Forall P l -> Forall P (put_member k x l).
Proof.
  intros Hx. induction 1 as [|[k2 x2] l H2 Hl IH]; cbn [put_member]; [by constructor|].
  destruct (blt k k2); [by repeat constructor|]. case_bool_decide; by constructor.
Qed.
Lemma by_key_forall (P : bytes * json -> Prop) l : Forall P l -> Forall P (by_key l).
Proof.
  intros H. unfold by_key. assert (G : forall acc, Forall P acc -> Forall P (foldl (fun acc (kv : bytes * json) => put_member kv.1 kv.2 acc) acc l)).
  { induction H as [|[k x] l Hx Hl IH]; intros acc Ha; cbn [foldl]; [done|]. by apply IH, put_member_forall. }
  apply G. constructor.
Qed.
Lemma fold_forall {A} (P : A -> Prop) l : fold_right (fun x Q => P x /\ Q) True l <-> Forall P l.
Proof. induction l as [|x l IH]; cbn [fold_right]; [done|]. by rewrite Forall_cons, IH. Qed.
Lemma fold_members (P : json -> Prop) (l : list (bytes * json)) : fold_right (fun kv Q => P kv.2 /\ Q) True l <-> Forall (fun kv => P kv.2) l.
Proof. induction l as [|x l IH]; cbn [fold_right]; [done|]. by rewrite Forall_cons, IH. Qed.
Lemma fold_named (P : json -> Prop) (l : list (bytes * json)) :
  fold_right (fun kv Q => utf8 kv.1 /\ P kv.2 /\ Q) True l <-> Forall (fun kv => utf8 kv.1 /\ P kv.2) l.
Proof. induction l as [|x l IH]; cbn [fold_right]; [done|]. rewrite Forall_cons, IH. tauto. Qed.

Lemma sys_sorted_go j : sys_sorted (go_sys j).
Proof.
  induction j as [ |b|z|s|l IH|l IH] using json_rec; cbn [go_sys sys_sorted]; try done.
  - apply fold_forall, List.Forall_map. exact IH.
  - split; [apply by_key_is_sorted|]. apply fold_members, by_key_forall, List.Forall_map. eapply Forall_impl; [exact IH|]. done.
Qed.
Lemma sys_ok_go j : sys_ok j -> sys_ok (go_sys j).
Proof.
  induction j as [ |b|z|s|l IH|l IH] using json_rec; cbn [go_sys sys_ok]; intros H; try done.
  - by rewrite sanitize_utf8.
  - apply fold_forall in H. apply fold_forall, List.Forall_map. apply Forall_forall. intros x Hx. cbn.
    eapply Forall_forall in IH; [|exact Hx]. apply IH. by eapply Forall_forall in H.
  - apply fold_named in H. apply fold_named, by_key_forall, List.Forall_map, Forall_forall. intros x Hx. cbn.
    eapply Forall_forall in IH; [|exact Hx]. eapply Forall_forall in H; [|exact Hx]. cbn beta in H. destruct H as [H1 H2].
    rewrite sanitize_utf8 by done. split; [done|]. by apply IH.
Qed.
Lemma sanitize_is_utf8_n n s : length s <= n -> utf8 (sanitize s).
Proof.
  revert s. induction n as [|n IH]; intros s Hn.
  - destruct s; [constructor|simpl in Hn; lia].
  - destruct s as [|a s1]; [constructor|]. cbn [sanitize length] in *.
    destruct (is_ascii a) eqn:Ha; [constructor; [done|apply IH; lia]|].
    assert (Hbad : utf8 (bad_rune ++ sanitize s1)) by (cbn [bad_rune app]; apply u_3; [by vm_compute|apply IH; lia]).
    destruct s1 as [|b s2]; [apply u_3; [by vm_compute|constructor]|]. cbn [length] in *.
    destruct (valid2 a b) eqn:H2; [apply u_2; [done|apply IH; lia]|].
    destruct s2 as [|c s3]; [exact Hbad|]. cbn [length] in *.
    destruct (valid3 a b c) eqn:H3; [apply u_3; [done|apply IH; lia]|].
    destruct s3 as [|d s4]; [exact Hbad|]. cbn [length] in *.
    destruct (valid4 a b c d) eqn:H4; [|exact Hbad]. apply u_4; [done|apply IH; lia].
Qed.
Lemma sanitize_is_utf8 s : utf8 (sanitize s).
Proof. by eapply sanitize_is_utf8_n. Qed.
Lemma sanitize_idem s : sanitize (sanitize s) = sanitize s.
Proof. apply sanitize_utf8, sanitize_is_utf8. Qed.
Lemma go_sys_idem j : go_sys (go_sys j) = go_sys j.
Proof.
  induction j as [ |b|z|s|l IH|l IH] using json_rec; cbn [go_sys]; try done.
  - f_equal. apply sanitize_idem.
  - f_equal. rewrite map_map. apply List.map_ext_Forall. exact IH.
  - f_equal. rewrite (List.map_ext_Forall _ (fun x => x)).
    + rewrite List.map_id. apply by_key_sorted, by_key_is_sorted.
    + apply by_key_forall, List.Forall_map. eapply Forall_impl; [exact IH|]. intros [k x] Hx. cbn in *. by rewrite sanitize_idem, Hx.
Qed.

(** Members that are given once come back with the same values. *)
Lemma put_member_perm k x l : k ∉ l.*1 -> put_member k x l ≡ₚ (k, x) :: l.
Proof.
  induction l as [|[k2 x2] l IH]; intros H; cbn [put_member]; [done|].
  cbn [fmap list_fmap fst] in H. apply not_elem_of_cons in H as [H1 H2].
  destruct (blt k k2); [done|]. rewrite bool_decide_eq_false_2 by done. rewrite IH by done. constructor.
Qed.
Lemma by_key_perm l : NoDup l.*1 -> by_key l ≡ₚ l.
Proof.
  intros H. unfold by_key. enough (G : forall acc : list (bytes * json), (forall k, k ∈ l.*1 -> k ∉ acc.*1) ->
    foldl (fun acc (kv : bytes * json) => put_member kv.1 kv.2 acc) acc l ≡ₚ acc ++ l).
  { rewrite (G []); [done|]. intros k _. apply not_elem_of_nil. }
  induction l as [|[k x] l IH]; intros acc Ha; cbn [foldl]; [by rewrite app_nil_r|].
  cbn [fmap list_fmap fst snd] in *. apply NoDup_cons in H as [Hk H].
  rewrite IH; [|done|].
  - rewrite put_member_perm by (apply Ha; left). cbn [app]. by rewrite Permutation_middle.
  - intros k' Hk' E. apply put_member_keys in E as [->|E]; [done|]. by apply (Ha k'); [right|].
Qed.
Lemma go_sys_reordered j : sys_ok j -> one_each j -> reordered j (go_sys j).
Proof.
  induction j as [ |b|z|s|l IH|l IH] using json_rec; cbn [go_sys sys_ok one_each]; intros H H1; try constructor.
  - rewrite sanitize_utf8 by done. constructor.
  - apply fold_forall in H, H1. induction IH as [|x l Hx _ IHl]; cbn [map]; [constructor|].
    apply Forall_cons in H as [? ?], H1 as [? ?]. constructor; auto.
  - apply fold_named in H. destruct H1 as [Hn H1]. apply fold_members in H1.
    assert (E : map (fun kv : bytes * json => (sanitize kv.1, go_sys kv.2)) l = map (fun kv => (kv.1, go_sys kv.2)) l).
    { apply List.map_ext_Forall. eapply Forall_impl; [exact H|]. intros kv [Hu _]. by rewrite sanitize_utf8. }
    assert (Hp : by_key (map (fun kv : bytes * json => (kv.1, go_sys kv.2)) l) ≡ₚ map (fun kv => (kv.1, go_sys kv.2)) l).
    { apply by_key_perm. rewrite <- list_fmap_compose. exact Hn. }
    rewrite E. apply Permutation_map_inv in Hp as (l1 & E1 & Hp1). rewrite E1.
    apply (ro_obj _ l1); [by symmetry|].
    assert (G : Forall (fun kv : bytes * json => reordered kv.2 (go_sys kv.2)) l1).
    { apply Forall_forall. intros kv Hkv. rewrite Hp1 in Hkv || rewrite <- Hp1 in Hkv.
      eapply Forall_forall in IH; [|exact Hkv]. eapply Forall_forall in H; [|exact Hkv]. eapply Forall_forall in H1; [|exact Hkv]. apply IH; [apply H|done]. }
    clear -G. induction G as [|kv l1 Hk _ IH]; cbn [map]; constructor; auto.
Qed.

(** ** Proofs: the file system *)

Lemma info_resys w n : info_of w (resys n) = redet (info_of w n).
Proof. by destruct n. Qed.
Lemma isdir_resys n : n_isdir (resys n) = n_isdir n.
Proof. by destruct n. Qed.
Lemma ok_resys n : n_ok (n_meta (resys n)) = n_ok (n_meta n).
Proof. by destruct n. Qed.
Lemma contents_resys n : contents (resys n) = contents n.
Proof. by destruct n. Qed.
Lemma child_resys w cs : child w (map (fun x => (x.1, resys x.2)) cs) = resys <$> child w cs.
Proof. induction cs as [|[v c] cs IH]; cbn [child map fst snd]; [done|]. by case_bool_decide. Qed.
Lemma get_resys n ws : get (resys n) ws = resys <$> get n ws.
Proof.
  revert n. induction ws as [|w ws IH]; intros n; [by destruct n|]. destruct n as [i d|i cs]; cbn [resys get]; [done|].
  rewrite child_resys. destruct (child w cs) as [c|]; cbn [fmap option_fmap option_map]; [apply IH|done].
Qed.
Lemma find_resys fs p : find (resys fs) p = resys <$> find fs p.
Proof. unfold find. destruct (is_rooted p); [apply get_resys|done]. Qed.
Lemma fwalk_resys {S1 S2} (pr : S1 -> S2) (f1 : wfunc S1) (f2 : wfunc S2) :
  (forall p d e s, f2 p (redet <$> d) e (pr s) = let '(s', e') := f1 p d e s in (pr s', e')) ->
  forall n p s, fwalk f2 p (resys n) (pr s) = let '(s', e') := fwalk f1 p n s in (pr s', e').
Proof.
  intros H n. induction n as [i d|i cs IH] using node_ind'; intros p s; cbn [fwalk resys]; [exact (H p (Some (info_of (base p) (NFile i d))) None s)|].
  assert (Hi : Some (info_of (base p) (NDir (remeta i) (map (fun x => (x.1, resys x.2)) cs))) = redet <$> Some (info_of (base p) (NDir i cs))) by done.
  rewrite Hi. cbn [remeta n_ok]. destruct (n_ok i); [|apply H]. rewrite H. destruct (f1 p _ None s) as [s' [e|]]; [done|].
  clear s Hi. revert s'. induction cs as [|x cs IHcs]; intros s'; cbn [walk_children map]; [done|]. apply Forall_cons in IH as [Hx IH].
  cbn [fst snd]. rewrite Hx, isdir_resys. destruct (fwalk f1 (join2 p x.1) x.2 s') as [s2 [e|]].
  - destruct (n_isdir x.2 && bool_decide (e = ESkipDir)); [by apply IHcs|done].
  - by apply IHcs.
Qed.
Lemma walk_resys {S1 S2} (pr : S1 -> S2) (f1 : wfunc S1) (f2 : wfunc S2) fs p s :
  (forall p d e s, f2 p (redet <$> d) e (pr s) = let '(s', e') := f1 p d e s in (pr s', e')) ->
  walk_disk (resys fs) p f2 (pr s) = let '(s', e') := walk_disk fs p f1 s in (pr s', e').
Proof.
  intros H. unfold walk_disk. rewrite find_resys. destruct (find fs p) as [n|]; cbn [fmap option_fmap option_map].
  - rewrite (fwalk_resys pr f1 f2 H). by destruct (fwalk f1 p n s).
  - pose proof (H p None (Some (EPath (B"lstat") p)) s) as E. cbn [fmap option_fmap option_map] in E. rewrite E. by destruct (f1 p None _ s).
Qed.
Lemma wf_resys n : wf_node n -> wf_node (resys n).
Proof.
  induction n as [i d|i cs IH] using node_ind'; [done|]. cbn [resys].
  rewrite !wf_dir. intros [H1 H2]. split.
  - clear -H1. induction H1 as [|x cs Hs IHs Hf]; cbn [map]; constructor; [done|]. apply List.Forall_map. exact Hf.
  - apply List.Forall_map, Forall_forall. intros x Hx. eapply Forall_forall in H2; [|exact Hx]. eapply Forall_forall in IH; [|exact Hx].
    destruct H2 as [? ?]. cbn [fst snd]. auto.
Qed.

Section Pack.
  Context (gz : bytes -> bytes) (gunzip : bytes -> res bytes) (parse : resolver) (hdir hpkg : bytes -> res hinfo) (fs : node).

  Lemma stat_resys p : os_stat (resys fs) p = match os_stat fs p with Ok d => Ok (redet d) | Err e => Err e end.
  Proof. unfold os_stat. rewrite find_resys. destruct (find fs p) as [n|]; [|done]. cbn. by rewrite info_resys. Qed.
  Lemma open_resys p : os_open (resys fs) p = match os_open fs p with Ok n => Ok (resys n) | Err e => Err e end.
  Proof. unfold os_open. rewrite find_resys. destruct (find fs p) as [n|]; [|done]. cbn [fmap option_fmap option_map]. rewrite ok_resys. by destruct (n_ok _). Qed.

  Lemma walk_files_resys v d : walk_files parse hdir (resys fs) v d = walk_files parse hdir fs v d.
  Proof.
    unfold walk_files. pose proof (walk_resys (fun x => x) (walk_decl_fn parse hdir v) (walk_decl_fn parse hdir v) fs (decl_root d) (pf_here (d_file d), [])) as E.
    cbv beta in E. rewrite E; [by destruct (walk_disk fs _ _ _) as [s [e|]]|].
    intros p di e [her fl]. by destruct e, di; cbn; repeat case_match; simplify_eq/=.
  Qed.
  Lemma collect_resys ds m v : collect parse hdir (resys fs) m v ds = collect parse hdir fs m v ds.
  Proof.
    revert m v. induction ds as [|d ds IH]; intros m v; cbn [collect]; [done|]. destruct (is_virtual d); [apply IH|].
    assert (decl_files parse hdir (resys fs) v d = decl_files parse hdir fs v d) as ->.
    { unfold decl_files, open_files. rewrite walk_files_resys, stat_resys. destruct (os_stat fs (decl_root d)); [|done]. done. }
    destruct (decl_files parse hdir fs v d); [apply IH|done].
  Qed.
  Lemma files_resys order ds : files parse hdir (resys fs) order ds = files parse hdir fs order ds.
  Proof. unfold files. by rewrite collect_resys. Qed.

  (** ** Proofs: the pkger that is packed *)

  Definition refobj (f : fobj) : fobj :=
    FObj (f_here f) (redet (f_info f)) (f_path f) (f_data f) (f_parent f) (f_writer f) (f_reader f).
  Definition remem (m : mem) : mem := Mem (m_here m) (m_infos m) (m_files m) (refobj <$> m_heap m) (m_next m).
  Lemma remem_new c : remem (mem_new c) = mem_new c.
  Proof. unfold remem, mem_new. cbn. by rewrite fmap_empty. Qed.
  Lemma add_file_resys m pt her d data : add_file (remem m) pt her (redet d) data = remem (add_file m pt her d data).
  Proof. unfold add_file, remem, alloc, store, set_files. cbn. by rewrite fmap_insert. Qed.
  Lemma add_resys m p n : add parse hdir hpkg (resys fs) (remem m) p (resys n) = let '(m', e) := add parse hdir hpkg fs m p n in (remem m', e).
  Proof.
    unfold add. rewrite info_resys. unfold mem_parse. cbn [remem m_here]. destruct (parse (m_here m) p) as [pt|]; [|done].
    cbn [redet d_isdir]. destruct (hdir _) as [her|]; [|done]. destruct (d_isdir _).
    - apply walk_resys. intros q di e m1. unfold add_fn. destruct e as [e|]; [done|]. destruct di as [di|]; [|done]. cbn [fmap option_fmap option_map].
      rewrite open_resys. destruct (os_open fs q) as [x|]; [|done]. unfold mem_parse. cbn [remem m_here]. destruct (parse _ q) as [pq|]; [|done].
      destruct (hpkg _) as [h|]; [|done]. rewrite contents_resys. exact (f_equal (fun m => (m, None)) (add_file_resys m1 pq h di (contents x))).
    - rewrite contents_resys. exact (f_equal (fun m => (m, None)) (add_file_resys m pt her (info_of (base p) n) (contents n))).
  Qed.
  Lemma stuff_loop_resys l m : stuff_loop parse hdir hpkg (resys fs) (remem m) l = match stuff_loop parse hdir hpkg fs m l with Ok m' => Ok (remem m') | Err e => Err e end.
  Proof.
    revert m. induction l as [|f l IH]; intros m; cbn [stuff_loop]; [done|]. destruct (has_suffix _ _); [apply IH|].
    rewrite open_resys. destruct (os_open fs (pf_abs f)) as [n|]; [|done]. rewrite add_resys.
    destruct (add parse hdir hpkg fs m (pf_abs f) n) as [m' [e|]]; [done|apply IH].
  Qed.
End Pack.

(** ** Proofs: reading it back *)

Lemma sorted_entries_strict {A} (m : gmap bytes A) : StronglySorted (fun a b => blt a.1 b.1 = true) (sorted_entries m).
Proof.
  assert (Hn : NoDup (sorted_entries m).*1) by (rewrite sorted_entries_perm; apply NoDup_fst_map_to_list).
  assert (Hs : StronglySorted entry_le (sorted_entries m)).
  { apply StronglySorted_merge_sort; [intros ? ? ?; apply ble_trans|intros x y; apply ble_total]. }
  revert Hn. induction Hs as [|x l Hs IH Hf]; intros Hn; [constructor|]. cbn [fmap list_fmap] in Hn. apply NoDup_cons in Hn as [Hx Hn].
  constructor; [by apply IH|]. apply Forall_forall. intros y Hy. apply blt_spec. split; [by eapply Forall_forall in Hf|].
  intros E. apply Hx. rewrite E. apply elem_of_list_fmap. by exists y.
Qed.
Lemma sorted_entries_fmap {A C} (h : A -> C) (m : gmap bytes A) : sorted_entries (h <$> m) = (fun kv => (kv.1, h kv.2)) <$> sorted_entries m.
Proof.
  assert (Ha : AntiSymm eq (fun a b : bytes * C => blt a.1 b.1 = true)).
  { intros a b H1 H2. apply blt_spec in H1 as [H1 H3]. apply blt_spec in H2 as [H2 _]. by destruct (H3 (ble_antisym _ _ H1 H2)). }
  apply (StronglySorted_unique (fun a b : bytes * C => blt a.1 b.1 = true)).
  - apply sorted_entries_strict.
  - pose proof (sorted_entries_strict m) as H. induction H as [|x l Hs IH Hf]; [constructor|]. cbn [fmap list_fmap]. constructor; [done|].
    apply Forall_fmap. exact Hf.
  - rewrite !sorted_entries_perm, map_to_list_fmap. done.
Qed.
Lemma r_entries_same {A} (f : list rjson -> option A) acc l l' :
  Forall2 (fun a b => a.1 = b.1 /\ f [a.2] = f [b.2]) l l' -> r_entries f acc l = r_entries f acc l'.
Proof.
  intros H. revert acc. induction H as [|[k x] [k' x'] l l' [E1 E2] _ IH]; intros acc; cbn [r_entries]; [done|].
  cbn [fst snd] in *. subst k'. rewrite E2. destruct (f [x']); [apply IH|done].
Qed.

Definition refile (f : efile) : efile := EFile (redet (e_info f)) (e_here f) (e_path f) (e_data f) (e_parent f).
Lemma r_ptr_redet d : Decode.r_info [raw_of (j_details (redet d))] = Decode.r_info [raw_of (j_details d)].
Proof.
  unfold j_details. raw_keys. unfold Decode.r_info, r_ptr. cbn [default from_option id app mbind option_bind]. unfold r_details. given_tac.
  cbn [r_obj app fmap option_fmap option_map mbind option_bind]. given_tac. cbn [redet d_name d_size d_mode d_mtime d_isdir d_sys].
  unfold r_any. cbn [settle]. by rewrite !any_val_raw, go_sys_idem.
Qed.
Lemma r_file_redet f : r_file [raw_of (j_file (refile f))] = r_file [raw_of (j_file f)].
Proof.
  unfold j_file. cbn [raw_of map fst snd].
  repeat match goal with |- context [sanitize (B ?s)] => change (sanitize (B s)) with (B s) end. fold raw_of.
  unfold r_file. cbn [r_obj app fmap option_fmap option_map mbind option_bind]. given_tac.
  cbn [refile e_info e_here e_path e_data e_parent]. by rewrite r_ptr_redet.
Qed.
Lemma r_map_redet m : r_map r_file [raw_of (j_map j_file (refile <$> m))] = r_map r_file [raw_of (j_map j_file m)].
Proof.
  unfold j_map, r_map. cbn [raw_of]. fold raw_of. rewrite sorted_entries_fmap. erewrite r_entries_same; [done|].
  generalize (sorted_entries m). intros l. induction l as [|[k x] l IH]; [constructor|]. cbn [map fmap list_fmap fst snd]. constructor; [|exact IH].
  split; [done|]. apply r_file_redet.
Qed.
Lemma range_remem m l : range_files (remem m) l = refile <$> range_files m l.
Proof.
  unfold range_files. rewrite <- (fmap_empty refile) at 1. generalize (∅ : gmap bytes efile).
  induction l as [|kv l IH]; intros acc; cbn [foldl]; [done|]. cbn [remem m_heap]. rewrite lookup_fmap.
  destruct (m_heap m !! kv.2) as [f|]; cbn [fmap option_fmap option_map]; [|apply IH].
  rewrite <- IH, fmap_insert. done.
Qed.
Lemma unmarshal_remem parse uorder m fl il :
  unmarshal_json parse uorder (marshal_json (remem m) fl il) = unmarshal_json parse uorder (marshal_json m fl il).
Proof.
  unfold unmarshal_json, marshal_json. rewrite !read_raw_write, range_remem. unfold j_edata. cbn [raw_of map fst snd].
  repeat match goal with |- context [sanitize (B ?s)] => change (sanitize (B s)) with (B s) end. fold raw_of.
  unfold r_data. given_tac. cbn [remem m_here y_infos y_files y_here]. by rewrite r_map_redet.
Qed.

(** ** The theorems *)

(** The order of the maps does not depend on the infos of files. *)
Definition steady (rg : ranging) : Prop :=
  forall m m', m_files m = m_files m' -> m_infos m = m_infos m' -> rg_files rg m = rg_files rg m' /\ rg_infos rg m = rg_infos rg m'.

(** A packed program is the one packed from the same files with their Sys
    values as JSON gives them back: all theorems about packed programs whose
    Sys values list members by key hold of it. *)
Theorem C144_same gz gunzip parse hdir hpkg fs rg uorder order c ds :
  (forall x, gunzip (gz x) = Ok x) -> steady rg ->
  match stuff parse hdir hpkg fs gz rg order c ds with
  | Ok b => exists b', stuff parse hdir hpkg (resys fs) gz rg order c ds = Ok b' /\
      unmarshal_embed gunzip parse uorder b = unmarshal_embed gunzip parse uorder b'
  | Err e => stuff parse hdir hpkg (resys fs) gz rg order c ds = Err e
  end.
Proof.
  intros Hz Hrg. unfold stuff, stuffed. rewrite files_resys. destruct (files parse hdir fs order ds) as [l|]; [|done].
  pose proof (stuff_loop_resys parse hdir hpkg fs l (mem_new c)) as E. rewrite remem_new in E. rewrite E.
  destruct (stuff_loop parse hdir hpkg fs (mem_new c) l) as [m|]; [|done]. eexists. split; [done|].
  unfold unmarshal_embed. rewrite !C28_round_trip by done. destruct (Hrg (remem m) m) as [-> ->]; [done|done|]. by rewrite unmarshal_remem.
Qed.

(** What packing needs, whatever the Sys values are. *)
Section Same.
  Context (gz : bytes -> bytes) (gunzip : bytes -> res bytes) (parse : resolver) (hdir hpkg : bytes -> res hinfo) (fs : node).
  Context (c : hinfo) (rs : list bytes) (mp : bytes).

  Record packing_any (rg : ranging) (uorder : list (bytes * efile) -> list (bytes * efile)) : Prop := {
    pa_gz : forall x, gunzip (gz x) = Ok x;
    pa_range : some_range rg;
    pa_steady : steady rg;
    pa_order : forall l, uorder l ≡ₚ l;
    pa_wf : wf_node fs;
    pa_addr : addressed parse fs c rs mp;
    pa_here : info_ok c;
    pa_hdir : forall p i, hdir p = Ok i -> info_ok i;
    pa_hpkg : forall p i, hpkg p = Ok i -> info_ok i;
    pa_pkg : forall ws n, get fs (rs ++ ws) = Some n -> path_ok (Path mp (abs_name ws)) /\ utf8 (path_string (Path mp (abs_name ws)));
    pa_info : forall ws n, get fs (rs ++ ws) = Some n -> details_ok (info_of (base (abs_name (rs ++ ws))) n);
    pa_skip : forall p, hpkg p <> Err ESkipDir
  }.
  Theorem C144_packing rg uorder : packing_any rg uorder -> packing gz gunzip parse hdir hpkg (resys fs) c rs mp rg uorder.
  Proof.
    intros H. assert (Hget : forall ws n', get (resys fs) ws = Some n' -> exists n, get fs ws = Some n /\ n' = resys n).
    { intros ws n'. rewrite get_resys. destruct (get fs ws) as [n|]; [|done]. intros [= <-]. by exists n. }
    split; try apply H.
    - apply wf_resys, H.
    - destruct (pa_addr _ _ H) as [H1 H2 H3]. split; [done|..]; intros ws n' Hn; destruct (Hget _ _ Hn) as (n & Hg & _); eauto.
    - split; try apply H.
      + intros ws n' Hn. destruct (Hget _ _ Hn) as (n & Hg & _). by eapply (pa_pkg _ _ H).
      + intros ws n' Hn. destruct (Hget _ _ Hn) as (n & Hg & ->). rewrite info_resys.
        destruct (pa_info _ _ H _ _ Hg) as [I1 I2 I3 I4 I5]. split; [|apply sys_sorted_go]. split; try done. by apply sys_ok_go.
  Qed.

  Lemma taken_resys l ws : taken (resys fs) rs l ws <-> taken fs rs l ws.
  Proof.
    unfold taken. setoid_rewrite get_resys. split; intros (ns & us & n & E & H1 & H2 & H3 & H4).
    - destruct (get fs (rs ++ ws)) as [x|]; [|done]. by exists ns, us, x.
    - exists ns, us, (resys n). rewrite H4. done.
  Qed.

  (** Stat, and the info and content of an opened file: those of the disk but
      for Sys, which has the same members in another order. *)
  Theorem C144_files_partial rg uorder order ds l b s :
    packing_any rg uorder -> files parse hdir fs order ds = Ok l -> Pack.inside rs l ->
    stuff parse hdir hpkg fs gz rg order c ds = Ok b -> beside_it c rs mp s ->
    exists m', unmarshal_embed gunzip parse uorder b = Done m' /\
      forall ws name hp, parse c name = Some (Path mp (abs_name ws)) -> taken fs rs (pf_abs <$> l) ws ->
        (exists d, std_stat parse hp fs s name = (s, Ok d) /\ stat_shows parse m' name = Ok (Some (redet d)) /\
           sys_sorted (go_sys (d_sys d)) /\ (one_each (d_sys d) -> reordered (d_sys d) (go_sys (d_sys d)))) /\
        (forall i data, get fs (rs ++ ws) = Some (NFile i data) -> n_ok i = true ->
           exists f, std_open parse hp fs s name = (s, Ok f) /\ seen parse m' name = Some (redet (sf_info f), data)).
  Proof.
    intros Hp Hl Hin Hs Hb. pose proof (C144_same gz gunzip parse hdir hpkg fs rg uorder order c ds (pa_gz _ _ Hp) (pa_steady _ _ Hp)) as Hsame.
    rewrite Hs in Hsame. destruct Hsame as (b' & Hs' & Hu).
    destruct (C54_files_partial gz gunzip parse hdir hpkg (resys fs) c rs mp rg uorder order ds l b' s (C144_packing _ _ Hp)) as (m' & Hu' & H);
      [by rewrite files_resys|done|done|done|]. exists m'. split; [congruence|]. intros ws name hp Hn Ht.
    destruct (H ws name hp Hn) as (H1 & H2 & _). rewrite taken_resys in H1, H2. specialize (H1 Ht). specialize (H2 Ht).
    destruct Hb as [Hh (her & Hinfo & Hdir)]. split.
    - destruct H1 as (d' & Hd' & Hst). unfold std_stat in Hd' |- *. rewrite Hh, Hn, Hinfo in *.
      rewrite stat_resys in Hd'. destruct (os_stat fs _) as [d|] eqn:Ed; [|done]. injection Hd' as <-.
      exists (new_file_info d). split; [done|]. split; [done|]. split; [apply sys_sorted_go|]. intros Ho. apply go_sys_reordered; [|done].
      destruct Ht as (ns & us & n & Ews & _ & _ & _ & Hg).
      unfold os_stat in Ed. cbn [p_name] in Ed. rewrite Hdir in Ed.
      destruct (wf_get _ _ _ (pa_wf _ _ Hp) Hg) as [_ Hgood]. pose proof Hgood as Hgood2. apply Forall_app in Hgood2 as [Hg1 Hg2].
      rewrite clean_join_abs, find_abs, Hg in Ed by done. injection Ed as <-. rewrite new_file_info_id.
      apply (pa_info _ _ Hp _ _ Hg).
    - intros i data Hg Hok. destruct (H2 (remeta i) data) as (f' & Hf' & Hseen & _); [by rewrite get_resys, Hg|done|].
      unfold std_open in Hf' |- *. rewrite Hh, Hn, Hinfo in *. rewrite open_resys in Hf'.
      destruct (os_open fs _) as [n|]; [|done]. injection Hf' as <-. eexists. split; [done|]. cbn [sf_info] in *. by rewrite info_resys in Hseen.
  Qed.
End Same.

(** The packed info is the one of the disk exactly when Sys lists its members by key. *)
Theorem C144_exact d : details_ok d -> (redet d = d <-> sys_sorted (d_sys d)).
Proof.
  intros H. split.
  - intros E. rewrite <- E. apply sys_sorted_go.
  - intros Hs. destruct d as [? ? ? ? ? j]. unfold redet. cbn in *. rewrite go_sys_sorted; [done|apply H|done].
Qed.

(** An object read into an interface{}: the members in the order of their
    names, and of a name given more than once the last value. *)
Lemma put_member_elem k x l k' x' : StronglySorted (fun a b => blt a b = true) l.*1 ->
  (k', x') ∈ put_member k x l <-> (k' = k /\ x' = x) \/ (k' <> k /\ (k', x') ∈ l).
Proof.
  induction l as [|[k2 x2] l IH]; intros Hs; cbn [put_member].
  { rewrite elem_of_list_singleton. split; [intros [= -> ->]; by left|]. intros [[-> ->]|[_ H]]; [done|by apply elem_of_nil in H]. }
  cbn [fmap list_fmap fst] in Hs. apply StronglySorted_inv in Hs as [Hs Hf].
  assert (Hlt : forall a y, (a, y) ∈ l -> blt k2 a = true).
  { intros a y Ha. rewrite Forall_forall in Hf. apply Hf. apply elem_of_list_fmap. by exists (a, y). }
  destruct (blt k k2) eqn:Ek.
  - rewrite elem_of_cons. split.
    + intros [[= -> ->]|H]; [by left|]. right. split; [|done]. intros ->. apply elem_of_cons in H as [[= -> _]|H].
      * by rewrite blt_irrefl in Ek.
      * apply Hlt in H. pose proof (blt_trans _ _ _ Ek H) as E. by rewrite blt_irrefl in E.
    + intros [[-> ->]|[_ H]]; [by left|by right].
  - destruct (bool_decide_reflect (k = k2)) as [<-|Hne].
    + rewrite !elem_of_cons. split.
      * intros [[= -> ->]|H]; [by left|]. right. split; [|by right]. intros ->. apply Hlt in H. by rewrite blt_irrefl in H.
      * intros [[-> ->]|[Hk [[= -> _]|H]]]; [by left|done|by right].
    + rewrite !elem_of_cons, IH by done. split.
      * intros [[= -> ->]|[H|[H1 H2]]]; [right; split; [done|by left]|by left|right; split; [done|by right]].
      * intros [H|[H1 [H2|H2]]]; [by right; left|by left|by right; right].
Qed.
Theorem C144_map l :
  StronglySorted (fun a b => blt a b = true) (by_key l).*1 /\
  forall k x, (k, x) ∈ by_key l <-> exists l1 l2, l = l1 ++ (k, x) :: l2 /\ k ∉ l2.*1.
Proof.
  split; [apply by_key_is_sorted|]. intros k x. induction l as [|[k2 x2] l IH] using rev_ind.
  { split; [intros H; by apply elem_of_nil in H|]. intros (l1 & l2 & E & _). by destruct l1. }
  assert (E : by_key (l ++ [(k2, x2)]) = put_member k2 x2 (by_key l)) by (unfold by_key; by rewrite foldl_app).
  rewrite E, put_member_elem by apply by_key_is_sorted. rewrite IH. split.
  - intros [[-> ->]|[Hne (l1 & l2 & -> & H)]].
    + exists l, []. split; [done|]. cbn. apply not_elem_of_nil.
    + exists l1, (l2 ++ [(k2, x2)]). split; [by rewrite <- app_assoc|]. rewrite fmap_app, not_elem_of_app. split; [done|].
      cbn. by rewrite elem_of_list_singleton.
  - intros (l1 & l2 & El & H). destruct (list_snoc_cases l2) as [->|(l3 & y & ->)].
    + apply app_inj_tail in El as [-> [= <- <-]]. by left.
    + change (l1 ++ (k, x) :: l3 ++ [y]) with (l1 ++ ((k, x) :: l3) ++ [y]) in El. rewrite app_assoc in El.
      apply app_inj_tail in El as [-> <-]. rewrite fmap_app, not_elem_of_app in H. destruct H as [H1 H2]. right. split.
      * intros ->. apply H2. cbn. by left.
      * by exists l1, l3.
Qed.
Example C144_map_ex : by_key [(B"b", JNum 1); (B"a", JNum 2); (B"b", JNum 3)] = [(B"a", JNum 2); (B"b", JNum 3)].
Proof. by vm_compute. Qed.

(** ** Concrete cases *)

(** A syscall.Stat_t of Linux, as encoding/json writes it: in the order of the
    struct. *)
Definition stat_time (s : Z) : json := JObj [(B"Sec", JNum s); (B"Nsec", JNum 0)].
Definition stat_t (ino size : Z) : json :=
  JObj [(B"Dev", JNum 2049); (B"Ino", JNum ino); (B"Nlink", JNum 1); (B"Mode", JNum 33188); (B"Uid", JNum 1000); (B"Gid", JNum 1000);
        (B"X__pad0", JNum 0); (B"Rdev", JNum 0); (B"Size", JNum size); (B"Blksize", JNum 4096); (B"Blocks", JNum 8);
        (B"Atim", stat_time 1600000001); (B"Mtim", stat_time 1600000000); (B"Ctim", stat_time 1600000000);
        (B"X__unused", JArr [JNum 0; JNum 0; JNum 0])].
Definition time_back (s : Z) : json := JObj [(B"Nsec", JNum 0); (B"Sec", JNum s)].
Definition stat_back (ino size : Z) : json :=
  JObj [(B"Atim", time_back 1600000001); (B"Blksize", JNum 4096); (B"Blocks", JNum 8); (B"Ctim", time_back 1600000000); (B"Dev", JNum 2049);
        (B"Gid", JNum 1000); (B"Ino", JNum ino); (B"Mode", JNum 33188); (B"Mtim", time_back 1600000000); (B"Nlink", JNum 1); (B"Rdev", JNum 0);
        (B"Size", JNum size); (B"Uid", JNum 1000); (B"X__pad0", JNum 0); (B"X__unused", JArr [JNum 0; JNum 0; JNum 0])].
Definition sys_meta (ino : Z) : meta := Meta 420 (GoTime 1600000000 0 0) 4096 (stat_t ino 5) true.
Definition sys_app : node := NDir (sys_meta 1) [(B"a.txt", NFile (sys_meta 2) (B"hello")); (B"go.mod", NFile (sys_meta 3) (B"module app"))].
Definition sys_fs : node := NDir wit_meta [(B"src", NDir wit_meta [(B"app", sys_app)])].
Definition sys_ds : list decl := [wit_decl KStat (B"/go.mod") [B"go.mod"]; wit_decl KOpen (B"/a.txt") [B"a.txt"]].

Lemma sys_all (P : list bytes -> node -> Prop) :
  Forall (fun x => P x.1 x.2) (nodes sys_app) -> forall ws n, get sys_fs (wit_rs ++ ws) = Some n -> P ws n.
Proof.
  intros H ws n Hg. rewrite get_app in Hg. change (get sys_fs wit_rs) with (Some sys_app) in Hg.
  apply (nodes_forall P sys_app); [|done|done]. wf_tac.
Qed.
Ltac sys_tac := split; cbn [info_of d_name d_size d_mode d_mtime d_sys n_mode n_mtime n_sys n_size sys_meta];
  [u8|vm_compute; split; congruence|by vm_compute|split; [vm_compute; split; congruence|vm_compute; split; congruence|by vm_compute|vm_compute; split; congruence]|
   unfold stat_t, stat_time; cbn [sys_ok fold_right fst snd]; split_and!; first [done|lia|u8]].
Lemma sys_packing gz gunzip : (forall x, gunzip (gz x) = Ok x) ->
  packing_any gz gunzip here_parse wit_hdir wit_hdir sys_fs her_ex wit_rs (B"app") any_range (fun l => l).
Proof.
  intros Hz. split; [done|done|intros m m' E1 E2; cbn; by rewrite E1, E2|done|wf_tac| |info_tac|intros p i [= <-]; info_tac|intros p i [= <-]; info_tac| | |done].
  - split; [good_elems| |]; apply sys_all; cbn [nodes visited];
      repeat (apply List.Forall_cons; [by vm_compute|]); apply List.Forall_nil.
  - apply sys_all; cbn [nodes visited sys_app]; repeat (apply List.Forall_cons); try apply List.Forall_nil; cbn [fst snd]; (split; [split; u8|u8]).
  - apply sys_all; cbn [nodes visited sys_app]; repeat (apply List.Forall_cons); try apply List.Forall_nil; cbn [fst snd]; sys_tac.
Qed.

Definition sys_list : list pfile :=
  [PFile (B"/src/app/a.txt") (Path (B"app") (B"/a.txt")) her_ex; PFile (B"/src/app/go.mod") (Path (B"app") (B"/go.mod")) her_ex].
Definition sys_info (j : json) : details := Details (B"go.mod") 10 420 (GoTime 1600000000 0 0) false j.
Example C144_ex :
  (forall gz gunzip, (forall x, gunzip (gz x) = Ok x) ->
     packing_any gz gunzip here_parse wit_hdir wit_hdir sys_fs her_ex wit_rs (B"app") any_range (fun l => l)) /\
  files here_parse wit_hdir sys_fs (fun l => l) sys_ds = Ok sys_list /\ Pack.inside wit_rs sys_list /\ beside_it her_ex wit_rs (B"app") (std_new her_ex) /\
  (std_stat here_parse no_hp sys_fs (std_new her_ex) (B"/go.mod")).2 = Ok (sys_info (stat_t 3 5)) /\
  packs wit_hdir wit_hdir sys_fs her_ex sys_ds (fun m' =>
    stat_shows here_parse m' (B"/go.mod") = Ok (Some (sys_info (stat_back 3 5))) /\
    seen here_parse m' (B"/a.txt") = Some (Details (B"a.txt") 5 420 (GoTime 1600000000 0 0) false (stat_back 2 5), B"hello")) /\
  redet (sys_info (stat_t 3 5)) = sys_info (stat_back 3 5) /\ one_each (stat_t 3 5) /\
  ~ sys_sorted (stat_t 3 5) /\ sys_sorted (stat_back 3 5).
Proof.
  split; [apply sys_packing|]. split; [by vm_compute|]. split.
  { apply List.Forall_cons; [exists [B"a.txt"]|apply List.Forall_cons; [exists [B"go.mod"]|apply List.Forall_nil]]; (split; [good_elems|done]). }
  split; [apply app_beside|]. split; [by vm_compute|]. split; [apply packs_intro; by vm_compute|]. split; [by vm_compute|]. split.
  { unfold stat_t, stat_time. cbn [one_each fold_right fst snd fmap list_fmap]. split_and!; try done; match goal with |- NoDup ?l => apply (bool_decide_eq_true_1 (NoDup l)); by vm_compute end. }
  split.
  - intros [H _]. cbn [fmap list_fmap fst stat_t] in H. inversion H as [|? ? _ Hf]; subst. do 8 (apply Forall_cons in Hf as [_ Hf]).
    apply Forall_cons in Hf as [Hf _]. by vm_compute in Hf.
  - change (stat_back 3 5) with (go_sys (stat_t 3 5)). apply sys_sorted_go.
Qed.

(** examples/dynamic prints what Stat says of go.mod (main.go:20-24): packed, it
    prints another text. *)
Theorem C144_text_refuted :
  exists fs d, wf_node fs /\ (std_stat here_parse no_hp fs (std_new her_ex) (B"/go.mod")).2 = Ok d /\
    packs wit_hdir wit_hdir fs her_ex [wit_decl KStat (B"/go.mod") [B"go.mod"]] (fun m' =>
      exists d', stat_shows here_parse m' (B"/go.mod") = Ok (Some d') /\ info_string d' <> info_string d /\
        Details (d_name d') (d_size d') (d_mode d') (d_mtime d') (d_isdir d') (d_sys d) = d).
Proof.
  exists sys_fs, (sys_info (stat_t 3 5)). split; [wf_tac|]. split; [by vm_compute|].
  intros gz gunzip Hz.
  destruct (packs_intro wit_hdir wit_hdir sys_fs her_ex [wit_decl KStat (B"/go.mod") [B"go.mod"]]
    (fun m' => stat_shows here_parse m' (B"/go.mod") = Ok (Some (sys_info (stat_back 3 5))))) with gz gunzip as (b & m' & Eb & Eu & H); [by vm_compute|done|].
  exists b, m'. split; [done|]. split; [done|]. exists (sys_info (stat_back 3 5)). split; [done|]. split; [|done].
  refine (bool_decide_eq_false_1 (_ = _) _). by vm_compute.
Qed.
