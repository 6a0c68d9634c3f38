(** Theorems: payloads whose files have no info (C66, C101). *)
From Verif Require Import Bytes GoPath Here GoTypes Mem MemSpec JsonStr JsonText Embed JsonSpec RawJson Marshal WalkSpec MemBase MarshalMem NilInfo
  PropsEmbed PropsMarshal.

(** *** C66 *)

(** UnmarshalEmbed ends with a pkger, an error or a panic on every input ... *)
Theorem C66_total gunzip parse src : exists o, raw_embed gunzip parse src o.
Proof.
  unfold raw_embed, raw_result. destruct (decode gunzip src) as [b|e]; [|by eexists].
  destruct (read_raw b) as [[]|]; try (by eexists). destruct (r_data l) as [[]|]; [|by eexists]. by eexists _, _.
Qed.

(** ... and it panics exactly on encodings of the text null (with any white
    space around it). *)
Theorem C66_only_null gunzip parse src o :
  raw_embed gunzip parse src o ->
  o = Panicked <-> exists b, decode gunzip src = Ok b /\ says_null b.
Proof.
  unfold raw_embed, raw_result. destruct (decode gunzip src) as [b|e].
  2: { intros ->. split; [done|]. by intros (b & ? & _). }
  assert (H : forall j, read_raw b = j -> j <> Some RNull -> (exists b', Ok b = Ok b' /\ says_null b') -> False).
  { intros j Hj Hn (b' & [= <-] & Hb'). apply read_raw_null in Hb'. congruence. }
  destruct (read_raw b) as [[]|] eqn:E; intros Ho; try (subst o; split; [done|]; intros H'; by destruct (H _ eq_refl)).
  - subst o. split; [|done]. intros _. exists b. split; [done|by apply read_raw_null].
  - split; [|intros H'; by destruct (H _ eq_refl)].
    destruct (r_data l) as [[infos files her]|]; [|by subst]. destruct Ho as (es & _ & ->). by destruct (n_load _ _ _ _).
Qed.

(** *** C101 *)

(** The payload gives every file an info, and no null. *)
Definition gives_infos (b : bytes) : Prop :=
  forall l kf fl k v, raw_text b (RObj l) -> (kf, RObj fl) ∈ l -> fold_key kf = B"files" -> (k, v) ∈ fl ->
    exists ml, v = RObj ml /\ (exists ki j, (ki, j) ∈ ml /\ fold_key ki = B"info") /\
      forall ki j, (ki, j) ∈ ml -> fold_key ki = B"info" -> j <> RNull.

Lemma n_load_from parse her es acc fs pt f :
  n_load parse her es acc = Some fs -> fs !! pt = Some f -> acc !! pt = Some f \/ exists k, (k, f) ∈ es.
Proof.
  revert acc. induction es as [|[k v] es IH]; intros acc H Hf; cbn [n_load] in H.
  - injection H as <-. by left.
  - destruct (parse her k) as [q|]; [|done]. destruct (IH _ H Hf) as [Ha|[k' Hk]].
    + destruct (decide (q = pt)) as [->|Hq].
      * rewrite lookup_insert in Ha. injection Ha as ->. right. exists k. by left.
      * rewrite lookup_insert_ne in Ha by done. by left.
    + right. exists k'. by right.
Qed.

Lemma r_entries_from {A} (f : list rjson -> option A) (l : list (bytes * rjson)) (acc m : gmap bytes A) k x :
  r_entries f acc l = Some m -> m !! k = Some x -> acc !! k = Some x \/ exists v, (k, v) ∈ l /\ f [v] = Some x.
Proof.
  revert acc. induction l as [|[k' v] l IH]; intros acc H Hx; cbn [r_entries] in H.
  - injection H as <-. by left.
  - destruct (f [v]) as [y|] eqn:E; [|done]. destruct (IH _ H Hx) as [Ha|(v' & Hin & Hv)].
    + destruct (decide (k' = k)) as [->|Hk].
      * rewrite lookup_insert in Ha. injection Ha as ->. right. exists v. split; [by left|done].
      * rewrite lookup_insert_ne in Ha by done. by left.
    + right. exists v'. split; [by right|done].
Qed.

Lemma r_map_from {A} (f : list rjson -> option A) (js : list rjson) (m : gmap bytes A) k x :
  r_map f js = Some m -> m !! k = Some x -> exists l v, RObj l ∈ js /\ (k, v) ∈ l /\ f [v] = Some x.
Proof.
  unfold r_map. intros H Hx.
  assert (G : forall js (acc : gmap bytes A),
    (fix go (acc : gmap bytes A) (l : list rjson) :=
     match l with
     | [] => Some acc
     | RNull :: l => go ∅ l
     | RObj m :: l => match r_entries f acc m with None => None | Some acc => go acc l end
     | _ => None
     end) acc js = Some m -> acc !! k = Some x \/ exists l v, RObj l ∈ js /\ (k, v) ∈ l /\ f [v] = Some x).
  { clear js H. induction js as [|j js IH]; intros acc H; [injection H as <-; by left|].
    destruct j as [ | | | | |l]; try done.
    - destruct (IH _ H) as [Ha|(l & v & Hl & ?)]; [by rewrite lookup_empty in Ha|]. right. exists l, v. split; [by right|done].
    - destruct (r_entries f acc l) as [acc'|] eqn:E; [|done].
      destruct (IH _ H) as [Ha|(l' & v & Hl & ?)].
      + destruct (r_entries_from _ _ _ _ _ _ E Ha) as [?|(v & Hv & Hf)]; [by left|]. right. exists l, v. split; [by left|done].
      + right. exists l', v. split; [by right|done]. }
  destruct (G js ∅ H) as [Ha|?]; [by rewrite lookup_empty in Ha|done].
Qed.

Lemma given_elem k l j : j ∈ given k l <-> exists k', (k', j) ∈ l /\ fold_key k' = fold_key k.
Proof.
  unfold given. rewrite elem_of_list_fmap. split.
  - intros ([k' j'] & -> & [Hk Hin]%elem_of_list_filter). eauto.
  - intros (k' & Hin & Hk). exists (k', j). split; [done|]. by apply elem_of_list_filter.
Qed.

(** Without a null, a pointer given once is not nil. *)
Lemma r_ptr_some js p : r_ptr js = Some p -> js <> [] -> (forall j, j ∈ js -> j <> RNull) -> p <> None.
Proof.
  unfold r_ptr.
  assert (G : forall js acc p, (fix go (acc : option (list (bytes * rjson))) (l : list rjson) :=
     match l with
     | [] => Some acc
     | RNull :: l => go None l
     | RObj m :: l => go (Some (default [] acc ++ m)) l
     | _ => None
     end) acc js = Some p -> (js <> [] \/ acc <> None) -> (forall j, j ∈ js -> j <> RNull) -> p <> None).
  { clear. induction js as [|j js IH]; intros acc p H Hne Hn; [injection H as <-; by destruct Hne|].
    destruct j as [ | | | | |l]; try done; [by destruct (Hn RNull); [left|]|].
    apply (IH _ _ H); [by right|]. intros j Hj. apply Hn. by right. }
  intros H Hne Hn. apply (G js None); [done|by left|done].
Qed.

Lemma r_file_infos ml f : r_file [RObj ml] = Some f -> r_info (given (B"info") ml) = Some (n_info f).
Proof.
  unfold r_file. cbn [r_obj fmap option_fmap option_map mbind option_bind]. rewrite app_nil_r.
  destruct (r_info _) as [i|]; [|done]. cbn [mbind option_bind].
  destruct (r_hinfo _); [|done]. cbn [mbind option_bind].
  destruct (r_path (given (B"path") ml)); [|done]. cbn [mbind option_bind].
  destruct (r_bytes _); [|done]. cbn [mbind option_bind].
  destruct (r_path (given (B"parent") ml)); [|done]. cbn [mbind option_bind]. by intros [= <-].
Qed.

(** Full claim: "a pkger loaded from an embedded payload never panics, whatever
    the payload".  Proved for payloads that give every file an info; what is
    missing is refuted below. *)
Theorem C101_no_crash_partial parse b p name :
  raw_result parse b (Done p) -> gives_infos b -> n_open parse p name <> Panicked.
Proof.
  intros Hr Hg. unfold raw_result in Hr. destruct (read_raw b) as [[]|] eqn:Eb; try done.
  destruct (r_data l) as [[infos files her]|] eqn:Ed; [|done]. destruct Hr as (es & Hes & Hp).
  destruct (n_load parse her es ∅) as [fs|] eqn:El; [|done]. injection Hp as ->.
  unfold n_open. cbn [g_here g_files]. destruct (parse her name) as [pt|]; [|done].
  destruct (fs !! pt) as [f|] eqn:Efs; [|done]. destruct (n_info f) as [d|] eqn:En; [done|]. exfalso.
  destruct (n_load_from _ _ _ _ _ _ _ El Efs) as [H|[k Hk]]; [by rewrite lookup_empty in H|].
  rewrite Hes in Hk. apply elem_of_map_to_list in Hk.
  unfold r_data in Ed. destruct (r_map r_hinfo _); [|done]. cbn [mbind option_bind] in Ed.
  destruct (r_map r_file (given (B"files") l)) as [files'|] eqn:Ef; [|done]. cbn [mbind option_bind] in Ed.
  destruct (r_hinfo _); [|done]. injection Ed as -> -> ->.
  destruct (r_map_from _ _ _ _ _ Ef Hk) as (fl & v & Hfl & Hv & Hf).
  apply given_elem in Hfl as (kf & Hin & Hkf).
  destruct (Hg l kf fl k v) as (ml & -> & (ki & j & Hki & Hfi) & Hnn); [by apply read_raw_iff|done|done|done|].
  apply r_file_infos in Hf. unfold r_info in Hf. destruct (r_ptr (given (B"info") ml)) as [q|] eqn:Eq; [|done].
  cbn [mbind option_bind] in Hf. destruct q as [ol|]; [destruct (r_details ol); [|done]; rewrite En in Hf; done|].
  apply (r_ptr_some _ _ Eq); [| |done].
  - intros E. assert (Hj : j ∈ given (B"info") ml) by (apply given_elem; eauto). rewrite E in Hj. by apply elem_of_nil in Hj.
  - intros j' (k' & Hk' & Hf')%given_elem. by apply (Hnn k').
Qed.

(** What Pkger.MarshalJSON writes gives every file an info, for every pkger. *)
Theorem C101_own_payload m fl il : gives_infos (marshal_json m fl il).
Proof.
  intros l kf fl' k v Hl Hkf Hff Hin. apply read_raw_iff in Hl. unfold marshal_json in Hl. rewrite read_raw_write in Hl.
  unfold j_edata in Hl. cbn [raw_of map fst snd] in Hl. revert Hl.
  repeat match goal with |- context [sanitize (B ?s)] => change (sanitize (B s)) with (B s) end. fold raw_of.
  intros [= <-]. rewrite !elem_of_cons, elem_of_nil in Hkf.
  destruct Hkf as [[= -> _]|[[= -> ->]|[[= -> _]|[]]]]; [by vm_compute in Hff| |by vm_compute in Hff].
  apply elem_of_list_In, in_map_iff in Hin as ((k1 & v1) & [= <- <-] & Hin).
  apply in_map_iff in Hin as ((k2 & f) & [= <- <-] & _). cbn [fst snd].
  unfold j_file. cbn [raw_of map fst snd].
  repeat match goal with |- context [sanitize (B ?s)] => change (sanitize (B s)) with (B s) end. fold raw_of.
  eexists. split; [done|]. split; [eexists _, _; split; [by left|by vm_compute]|].
  intros ki j Hki Hfi. rewrite !elem_of_cons, elem_of_nil in Hki.
  destruct Hki as [[= -> ->]|[[= -> _]|[[= -> _]|[[= -> _]|[[= -> _]|[]]]]]]; try by vm_compute in Hfi.
Qed.

(** Stat reports such a file as missing. *)
Theorem C101_stat parse p name pt f :
  parse (g_here p) name = Some pt -> g_files p !! pt = Some f ->
  n_stat parse p name = match n_info f with Some d => Done d | None => Failed ENotExist end.
Proof. intros H1 H2. unfold n_stat. by rewrite H1, H2. Qed.

(** Walk visits the entries up to the first one without info and then fails. *)
Theorem C101_walk parse p root pt l e :
  parse (g_here p) root = Some pt -> n_walk parse p root = (l, e) ->
  exists ks rest,
    ks ++ rest = filter (fun k => p_pkg k = p_pkg pt /\ has_prefix (p_name k) (p_name pt) = true /\
                                  has_prefix (p_name k) (B"!") = false)
                   (merge_sort key_le (elements (dom (g_files p)))) /\
    Forall2 (fun k x => x.1 = path_string k /\ exists f, g_files p !! k = Some f /\ n_info f = Some x.2) ks l /\
    ((rest = [] /\ e = None) \/
     (exists k rest' f, rest = k :: rest' /\ g_files p !! k = Some f /\ n_info f = None /\ e = Some ENotExist)).
Proof.
  intros Hp. unfold n_walk. rewrite Hp.
  assert (Hd : Forall (fun k => is_Some (g_files p !! k)) (merge_sort key_le (elements (dom (g_files p))))).
  { apply Forall_forall. intros k Hk. rewrite merge_sort_Permutation in Hk.
    apply elem_of_elements, elem_of_dom in Hk. done. }
  revert l e Hd. induction (merge_sort key_le (elements (dom (g_files p)))) as [|k ks IH]; intros l e Hd H; cbn [n_walk_loop] in H.
  - injection H as <- <-. exists [], []. split_and!; [done|constructor|]. by left.
  - apply Forall_cons in Hd as [Hk Hd]. rewrite filter_cons.
    destruct (bool_decide (p_pkg k = p_pkg pt)) eqn:E1; cbn [negb] in H.
    2: { apply bool_decide_eq_false in E1. rewrite decide_False by tauto. by apply IH. }
    apply bool_decide_eq_true in E1.
    destruct (has_prefix (p_name k) (p_name pt)) eqn:E2; cbn [negb] in H.
    2: { rewrite decide_False by (intros (_ & ? & _); done). by apply IH. }
    destruct (has_prefix (p_name k) (B"!")) eqn:E3.
    { rewrite decide_False by (intros (_ & _ & ?); done). by apply IH. }
    rewrite decide_True by done. destruct Hk as [f Hf]. rewrite Hf in H.
    destruct (n_info f) as [d|] eqn:En.
    + destruct (n_walk_loop p pt ks) as [l' e'] eqn:Ew. injection H as <- <-.
      destruct (IH l' e' Hd eq_refl) as (ks' & rest & H1 & H2 & H3).
      exists (k :: ks'), rest. split_and!; [cbn [app]; by rewrite H1| |done].
      constructor; [|done]. split; [done|]. exists f. cbn [snd]. by rewrite new_file_info_id.
    + injection H as <- <-. eexists [], _. split_and!; [done|constructor|]. right. eauto 10.
Qed.

(** Where no info is missing, Open, Stat and Walk are those of Mem.v. *)
Theorem C101_same parse order b m :
  (forall l, order l ≡ₚ l) -> unmarshal_json parse order b = Done m ->
  exists p, raw_result parse b (Done p) /\
    (forall name, n_open parse p name =
       match open parse m name with
       | (_, Err e) => Failed e
       | (m', Ok r) => match m_heap m' !! r with Some f => Done (nfile_of (efile_of f)) | None => Panicked end
       end) /\
    (forall name, n_stat parse p name =
       match stat parse m name with
       | Err e => Failed e
       | Ok r => match info_at m r with Some d => Done d | None => Panicked end
       end) /\
    (forall root, n_walk parse p root = let '((l, _), e) := walk parse m root (lift_fn record_fn) [] in (l, e)).
Proof.
  intros Ho H. assert (Hw : wf m).
  { unfold unmarshal_json in H. destruct (read_raw b) as [[]|]; try done. destruct (r_data l) as [[]|]; [|done]. case_match; [|done].
    destruct (load parse _ _ _) as [m1|] eqn:El; [|done]. injection H as ->. unfold load in El.
    eapply wf_load_files; [|exact El]. apply wf_nothing. }
  destruct (raw_agrees parse order b m Ho H) as (p & Hr & Hh & _ & Hf). exists p. split; [done|]. split; [|split].
  - intros name. unfold n_open, open, mem_parse. rewrite Hh. destruct (parse (m_here m) name) as [pt|]; [|done]. rewrite Hf.
    destruct (file_at m pt) as [f|]; [|done]. cbn. by rewrite lookup_insert.
  - intros name. unfold n_stat, stat, mem_parse. rewrite Hh. destruct (parse (m_here m) name) as [pt|]; [|done]. rewrite Hf.
    unfold file_at, info_at. destruct (m_files m !! pt) as [r|] eqn:Er; [|done]. destruct (wf_files m Hw _ _ Er) as [f Hr']. cbn. by rewrite Hr'.
  - intros root. unfold n_walk, walk, mem_parse. rewrite Hh. destruct (parse (m_here m) root) as [pt|]; [|done].
    assert (dom (g_files p) = dom (m_files m)) as ->.
    { apply set_eq. intros k. rewrite !elem_of_dom, Hf. unfold file_at. destruct (m_files m !! k) as [r|] eqn:Er; [|by split; intros []].
      destruct (wf_files m Hw _ _ Er) as [f Hr']. cbn. rewrite Hr'. by split; eexists. }
    unfold sorted_keys. generalize (merge_sort key_le (elements (dom (m_files m)))). intros ks.
    assert (G : forall acc, walk_loop (lift_fn record_fn) pt ks (B"!") acc m =
              ((acc ++ (n_walk_loop p pt ks).1, m), (n_walk_loop p pt ks).2)); [|by rewrite G; destruct (n_walk_loop p pt ks)].
    induction ks as [|k ks IH]; intros acc; cbn [walk_loop n_walk_loop]; [by rewrite app_nil_r|].
    destruct (negb _); [apply IH|]. destruct (negb _); [apply IH|]. destruct (has_prefix (p_name k) (B"!")); [apply IH|].
    rewrite Hf. destruct (file_at m k) as [f|]; [|by rewrite app_nil_r]. cbn [lift_fn record_fn fmap option_fmap option_map nfile_of n_info efile_of e_info].
    rewrite IH, <- app_assoc. by destruct (n_walk_loop p pt ks).
Qed.

Definition nil_text : bytes :=
  B"{""files"":{""app:/a"":{""info"":{""details"":{""name"":""a""}},""data"":""eHl6""},""app:/b"":{},""app:/c"":{""info"":{""details"":{""name"":""c""}}}},""here"":{""Dir"":""/src/app"",""ImportPath"":""app"",""Name"":""main"",""Module"":{""Path"":""app"",""Dir"":""/src/app""}}}".

(** One of the outcomes, computed. *)
Definition raw_run (parse : resolver) (b : bytes) : outcome npkg :=
  match read_raw b with
  | Some RNull => Panicked
  | Some (RObj l) =>
      match r_data l with
      | Some (NData infos files her) =>
          match n_load parse her (map_to_list files) ∅ with
          | Some fs => Done (NPkg her infos fs)
          | None => Failed EParse
          end
      | None => Failed bad_json
      end
  | _ => Failed bad_json
  end.

Lemma raw_run_result parse b : raw_result parse b (raw_run parse b).
Proof.
  unfold raw_result, raw_run. destruct (read_raw b) as [[]|]; try done. destruct (r_data l) as [[]|]; [|done]. by eexists.
Qed.

Lemma raw_run_done parse b (P : npkg -> Prop) :
  match raw_run parse b with Done p => P p | _ => False end -> exists p, raw_result parse b (Done p) /\ P p.
Proof.
  pose proof (raw_run_result parse b) as H. destruct (raw_run parse b) as [p| |]; try done. intros HP. by exists p.
Qed.

(** A file given as an empty object loads without error; opening it panics,
    Stat and every Walk that comes across it fail. *)
Theorem C101_open_refuted :
  exists b p, raw_result here_parse b (Done p) /\
    n_open here_parse p (B"/b") = Panicked /\
    n_stat here_parse p (B"/b") = Failed ENotExist /\
    ((n_walk here_parse p (B"/")).1.*1, (n_walk here_parse p (B"/")).2) = ([B"app:/a"], Some ENotExist).
Proof. exists nil_text. apply raw_run_done. by vm_compute. Qed.

(* The hypotheses of the theorems above hold of this text without /b. *)
Definition full_text : bytes :=
  B"{""files"":{""app:/a"":{""info"":{""details"":{""name"":""a""}},""data"":""eHl6""}},""here"":{""Dir"":""/src/app"",""ImportPath"":""app"",""Name"":""main"",""Module"":{""Path"":""app"",""Dir"":""/src/app""}}}".

Example C101_ex :
  gives_infos full_text /\
  exists p, raw_result here_parse full_text (Done p) /\
    match n_open here_parse p (B"/a") with Done f => n_data f = B"xyz" | _ => False end.
Proof.
  split; [|apply raw_run_done; by vm_compute].
  intros l kf fl k v Hl Hkf Hff Hin. apply read_raw_iff in Hl.
  let x := eval vm_compute in (read_raw full_text) in assert (E : read_raw full_text = x) by (by vm_compute).
  rewrite E in Hl. injection Hl as <-. rewrite !elem_of_cons, elem_of_nil in Hkf.
  destruct Hkf as [[= -> ->]|[[= -> _]|[]]]; [|by vm_compute in Hff].
  apply elem_of_list_singleton in Hin as [= -> ->]. eexists. split; [done|]. split; [eexists _, _; split; [by left|by vm_compute]|].
  intros ki j Hki Hfi. rewrite !elem_of_cons, elem_of_nil in Hki.
  destruct Hki as [[= -> ->]|[[= -> _]|[]]]; [done|by vm_compute in Hfi].
Qed.

Example C101_same_ex :
  match unmarshal_json here_parse (fun l => l) full_text with
  | Done m => (walk here_parse m (B"/") (lift_fn record_fn) []).1.1.*1 = [B"app:/a"]
  | _ => False
  end.
Proof. by vm_compute. Qed.

Example C66_texts :
  raw_run here_parse (B" null ") = Panicked /\
  match raw_run here_parse nil_text with Done p => size (g_files p) = 3 | _ => False end.
Proof. by vm_compute. Qed.
