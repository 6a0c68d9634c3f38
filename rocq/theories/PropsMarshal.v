(** Theorems: marshalling the in-memory pkger and re-hydrating it (C30, C31,
    C65-C68). *)
From Verif Require Import Bytes GoPath Here GoTypes GoNum GoTimeFmt Mem MemSpec MemBase MemFiles WalkSpec
  PropsFiles PropsDirs JsonStr JsonText JsonSpec RawJson Embed Marshal MarshalMem PropsEmbed.

(** *** C30 *)

(** What Stat shows. *)
Definition stat_shows (parse : resolver) (m : mem) (n : bytes) : res (option details) :=
  match stat parse m n with Ok r => Ok (info_at m r) | Err e => Err e end.

(** Readdir on a directory opened by name. *)
Definition dir_shows (parse : resolver) (m : mem) (n : bytes) (c : Z) : res (list details * option gerr) :=
  match open parse m n with (m, Ok h) => Ok (readdir parse m h c) | (_, Err e) => Err e end.

(** Opening and reading with buffers of given sizes. *)
Definition read_shows (parse : resolver) (m : mem) (n : bytes) (ns : list nat) : res (list (bytes * option gerr)) :=
  match open parse m n with (m, Ok h) => Ok (read_seq m h ns) | (_, Err e) => Err e end.

Record answers_like (parse : resolver) (m m' : mem) : Prop := {
  al_current : m_here m' = m_here m;
  al_info : forall p, mem_info m' p = mem_info m p;
  al_open : forall n ns, read_shows parse m' n ns = read_shows parse m n ns;
  al_seen : forall n, seen parse m' n = seen parse m n;
  al_stat : forall n, stat_shows parse m' n = stat_shows parse m n;
  al_walk : forall S (f : obs_fn S) n s,
    (walk parse m' n (lift_fn f) s).1.1 = (walk parse m n (lift_fn f) s).1.1 /\
    (walk parse m' n (lift_fn f) s).2 = (walk parse m n (lift_fn f) s).2;
  al_readdir : forall n c, dir_shows parse m' n c = dir_shows parse m n c
}.

Lemma read_seq_alike m m' h h' f ns :
  m_heap m !! h = Some f -> m_heap m' !! h' = Some f -> read_seq m' h' ns = read_seq m h ns.
Proof.
  revert m m' f. induction ns as [|n ns IH]; intros m m' f H H'; [done|]. cbn [read_seq].
  unfold file_read. rewrite H, H'. destruct (cur_reader f) as [rd|].
  - destruct (reader_read rd n) as [rd' out]. f_equal. eapply IH; simpl; by rewrite lookup_insert.
  - f_equal. by eapply IH.
Qed.

Lemma same_answers parse m m' : wf m -> wf m' -> same_store m m' -> answers_like parse m m'.
Proof.
  intros Hw Hw' H.
  assert (Hopen : forall n, match open parse m n, open parse m' n with
    | (m1, Ok h), (m1', Ok h') => wf m1 /\ wf m1' /\ same_store m1 m1' /\ exists f, m_heap m1 !! h = Some f /\ m_heap m1' !! h' = Some f
    | (_, Err e), (_, Err e') => e = e'
    | _, _ => False end).
  { intros n. unfold open, mem_parse. rewrite (ss_here _ _ H). destruct (parse (m_here m) n) as [pt|]; [|done].
    destruct (file_at m pt) as [f|] eqn:E; [|by rewrite (same_file_none _ _ _ H E)].
    destruct (same_file_some _ _ _ _ H E) as (f' & E' & He). rewrite E'. injection He as E1 E2 E3 E4 E5.
    rewrite E1, E2, E3, E4. set (g := FObj _ _ _ _ _ _ _).
    split_and!; [by apply (wf_alloc m g)|by apply (wf_alloc m' g)|by apply (same_alloc m g m' g)|].
    exists g. split; simpl; by rewrite lookup_insert. }
  split.
  - apply H.
  - intros p. unfold mem_info. by rewrite (ss_infos _ _ H).
  - intros n ns. specialize (Hopen n). unfold read_shows. destruct (open parse m n) as [m1 [h|e]], (open parse m' n) as [m1' [h'|e']];
      try done; [|congruence]. destruct Hopen as (_ & _ & _ & f & H1 & H2). f_equal. by eapply read_seq_alike.
  - intros n. specialize (Hopen n). unfold seen. destruct (open parse m n) as [m1 [h|e]], (open parse m' n) as [m1' [h'|e']]; try done.
    destruct Hopen as (_ & _ & _ & f & H1 & H2). by rewrite H1, H2.
  - intros n. unfold stat_shows, stat, mem_parse. rewrite (ss_here _ _ H). destruct (parse (m_here m) n) as [pt|]; [|done].
    pose proof (ss_files _ _ H pt) as E. pose proof (file_at_in m pt Hw) as I. pose proof (file_at_in m' pt Hw') as I'.
    unfold file_at, info_at in *.
    destruct (m_files m !! pt) as [r|] eqn:A, (m_files m' !! pt) as [r'|] eqn:A'; cbn [mbind option_bind] in *.
    + f_equal. destruct (m_heap m !! r), (m_heap m' !! r'); try done. simpl in *. unfold efile_of in E. congruence.
    + destruct (proj2 I) as [f Hf]; [eauto|]. by rewrite Hf in E.
    + destruct (proj2 I') as [f Hf]; [eauto|]. by rewrite Hf in E.
    + done.
  - intros S f n s. by apply same_walk.
  - intros n c. specialize (Hopen n). unfold dir_shows. destruct (open parse m n) as [m1 [h|e]], (open parse m' n) as [m1' [h'|e']];
      try done; [|congruence]. destruct Hopen as (? & ? & ? & f & H1 & H2). f_equal. by eapply same_readdir.
Qed.

(** Full statement: for every reachable state with UTF-8 strings and
    representable times.  Proved when in addition every stored path's printed
    form resolves to that path ([mo_keys]); refuted without. [fl], [il] and
    [order] are any iteration orders of the Go maps involved. *)
Theorem C30_answers_partial parse m fl il order :
  reachable parse m -> marshalable parse m ->
  fl ≡ₚ map_to_list (m_files m) -> il ≡ₚ map_to_list (m_infos m) -> (forall l, order l ≡ₚ l) ->
  exists m', unmarshal_json parse order (marshal_json m fl il) = Done m' /\
    reachable parse m' /\ answers_like parse m m'.
Proof.
  intros Hr Hm Hfl Hil Ho. pose proof (reachable_wf _ _ Hr) as Hw.
  destruct (marshal_load parse m fl il order Hw Hm Hfl Hil Ho) as (m' & H1 & H2 & H3).
  exists m'. split; [done|]. split; [|by apply same_answers].
  unfold unmarshal_json in H1. destruct (read_raw _) as [[]|]; try done. destruct (r_data l) as [y|]; [|done].
  destruct (forallb _ _); [|done].
  destruct (load parse _ _ _) as [m2|] eqn:E; [|done]. injection H1 as ->. by eapply reach_load.
Qed.

(** With the recalled resolver the extra condition holds of canonical paths. *)
Theorem C30_canonical m fl il order :
  reachable here_parse m ->
  info_ok (m_here m) -> (forall k i, m_infos m !! k = Some i -> utf8 k /\ info_ok i) ->
  (forall pt f, file_at m pt = Some f -> canonical (m_here m) pt /\ utf8 (path_string pt) /\ efile_ok (efile_of f)) ->
  fl ≡ₚ map_to_list (m_files m) -> il ≡ₚ map_to_list (m_infos m) -> (forall l, order l ≡ₚ l) ->
  exists m', unmarshal_json here_parse order (marshal_json m fl il) = Done m' /\ answers_like here_parse m m'.
Proof.
  intros Hr H1 H2 H3 Hfl Hil Ho.
  destruct (C30_answers_partial here_parse m fl il order) as (m' & ? & _ & ?); try done; [|eauto].
  split; [done|done|..]; intros pt f Hf; destruct (H3 pt f Hf) as (Hc & ? & ?); [done|by apply here_parse_canonical].
Qed.

(* A state to which the theorem applies. *)
Lemma forall_entries (P : path -> fobj -> Prop) m :
  Forall (fun kv => match m_heap m !! kv.2 with Some f => P kv.1 f | None => True end) (map_to_list (m_files m)) ->
  forall pt f, file_at m pt = Some f -> P pt f.
Proof.
  intros H pt f. unfold file_at. destruct (m_files m !! pt) as [r|] eqn:E; [|done]. simpl. intros Hf.
  rewrite Forall_forall in H. specialize (H (pt, r)). cbn [fst snd] in H. rewrite Hf in H. apply H. by apply elem_of_map_to_list.
Qed.

Definition tree_ex : mem :=
  (run here_parse new_ex [(t0, OMkdirAll (B"/d") 493); (t1, OCreate (B"/d/a.txt")); (t1, OWrite 2 (B"hi")); (t1, OClose 2)]).1.

Ltac u8 := apply sanitize_iff; by vm_compute.
Ltac info_tac := split; u8.
Ltac det_tac := lazymatch goal with |- info_fixed _ => split; [|by vm_compute] | _ => idtac end; split; cbn; [u8|lia|lia|split; [vm_compute; split; congruence|vm_compute; split; congruence|by vm_compute|vm_compute; split; congruence]|done].

(** The stored files of [tree_ex], computed. *)
Ltac entries_of m :=
  apply forall_entries;
  let x := eval vm_compute in (map_to_list (m_files m)) in
    replace (map_to_list (m_files m)) with x by (by vm_compute);
  repeat (apply List.Forall_cons); [..|apply List.Forall_nil]; cbn [fst snd];
  match goal with |- context [m_heap m !! ?r] =>
    let y := eval vm_compute in (m_heap m !! r) in
      replace (m_heap m !! r) with y by (by vm_compute) end; cbv beta iota.

Lemma tree_ex_marshalable : marshalable here_parse tree_ex.
Proof.
  split.
  - info_tac.
  - intros k i Hk. assert (m_infos tree_ex = {[B"app" := her_ex]}) as E by (by vm_compute). rewrite E in Hk.
    apply lookup_singleton_Some in Hk as [<- <-]. split; [u8|info_tac].
  - entries_of tree_ex.
    all: split; [u8|]; unfold efile_of; cbn [f_info f_here f_path f_data f_parent].
    all: split; cbn [e_info e_here e_path e_parent]; [det_tac|info_tac|split; u8|split; u8].
  - entries_of tree_ex; by vm_compute.
Qed.

Definition remake (m : mem) : outcome mem :=
  unmarshal_json here_parse (fun l => l) (marshal_json m (map_to_list (m_files m)) (map_to_list (m_infos m))).

Example C30_example :
  reachable here_parse tree_ex /\ marshalable here_parse tree_ex /\
  match remake tree_ex with
  | Done m' => seen here_parse m' (B"/d/a.txt") = Some (Details (B"a.txt") 2 420 t1 false JNull, B"hi") /\
      d_name <$> (readdir here_parse (open here_parse m' (B"/d")).1 3 0).1 = [B"a.txt"]
  | _ => False
  end.
Proof.
  split; [apply reachable_run, reach_new|]. split; [apply tree_ex_marshalable|]. by vm_compute.
Qed.

Lemma outcome_done {A} (P : A -> Prop) (o : outcome A) :
  match o with Done x => P x | _ => False end -> exists x, o = Done x /\ P x.
Proof. destruct o; [eauto|done|done]. Qed.

(** A name with backslashes is cleaned before the backslashes become slashes
    (resolver recalled from the dependency); its path is stored unclean, and
    reloading moves the file. *)
Definition odd_ex : mem := after [OCreate (B"/a\..\..\b"); OWrite 1 (B"x"); OClose 1].

Theorem C30_refuted :
  exists m n, reachable here_parse m /\ utf8 n /\
    (forall pt f, file_at m pt = Some f -> utf8 (path_string pt) /\ efile_ok (efile_of f)) /\
    seen here_parse m n = Some (Details (B"a\..\..\b") 1 420 t0 false JNull, B"x") /\
    exists m', remake m = Done m' /\ seen here_parse m' n = None.
Proof.
  exists odd_ex, (B"/a\..\..\b"). split; [apply reachable_run, reach_new|]. split; [u8|]. split; [|split; [by vm_compute|]].
  - entries_of odd_ex.
    all: split; [u8|]; unfold efile_of; cbn [f_info f_here f_path f_data f_parent].
    all: split; cbn [e_info e_here e_path e_parent]; [det_tac|info_tac|split; u8|split; u8].
  - apply outcome_done. by vm_compute.
Qed.

(** *** C31 *)

Lemma same_marshal m m' fl fl' il il' :
  wf m -> wf m' -> same_store m m' -> prints_distinct m ->
  fl ≡ₚ map_to_list (m_files m) -> fl' ≡ₚ map_to_list (m_files m') ->
  il ≡ₚ map_to_list (m_infos m) -> il' ≡ₚ map_to_list (m_infos m') ->
  marshal_json m' fl' il' = marshal_json m fl il.
Proof.
  intros Hw Hw' H Hd Hfl Hfl' Hil Hil'. pose proof H as [Hh Hi Hf].
  assert (Hd' : prints_distinct m').
  { intros p q Hp Hq. apply Hd; apply file_at_in; try done.
    - apply (fmap_is_Some efile_of). rewrite <- Hf. apply fmap_is_Some. by apply file_at_in.
    - apply (fmap_is_Some efile_of). rewrite <- Hf. apply fmap_is_Some. by apply file_at_in. }
  unfold marshal_json, range_infos. rewrite (foldl_insert_perm _ _ Hil), (foldl_insert_perm _ _ Hil'), Hi, Hh.
  assert (Hrf : range_files m' fl' = range_files m fl).
  { apply map_eq. intros k. apply option_eq. intros e. rewrite !range_files_lookup by done. split.
    - intros (pt & f & Hfa & -> & ->). destruct (same_file_some _ _ _ _ (same_store_sym _ _ H) Hfa) as (f' & ? & <-). eauto.
    - intros (pt & f & Hfa & -> & ->). destruct (same_file_some _ _ _ _ H Hfa) as (f' & ? & <-). eauto. }
  by rewrite Hrf.
Qed.

(** Full statement: for all pkgers with the same entries.  Proved when
    different stored paths print differently; refuted without. *)
Theorem C31_deterministic_partial parse parse' m m' fl fl' il il' :
  reachable parse m -> reachable parse' m' ->
  m_here m' = m_here m -> m_infos m' = m_infos m ->
  (forall pt, efile_of <$> file_at m' pt = efile_of <$> file_at m pt) ->
  prints_distinct m ->
  fl ≡ₚ map_to_list (m_files m) -> fl' ≡ₚ map_to_list (m_files m') ->
  il ≡ₚ map_to_list (m_infos m) -> il' ≡ₚ map_to_list (m_infos m') ->
  marshal_json m' fl' il' = marshal_json m fl il.
Proof.
  intros Hr Hr' Hh Hi Hf Hd Hfl Hfl' Hil Hil'.
  apply same_marshal; [by eapply reachable_wf|by eapply reachable_wf|by split|done..].
Qed.

(** The iteration orders alone do not matter. *)
Theorem C31_any_order_partial parse m fl fl' il il' :
  reachable parse m -> prints_distinct m ->
  fl ≡ₚ map_to_list (m_files m) -> fl' ≡ₚ map_to_list (m_files m) ->
  il ≡ₚ map_to_list (m_infos m) -> il' ≡ₚ map_to_list (m_infos m) ->
  marshal_json m fl' il' = marshal_json m fl il.
Proof. intros. by eapply C31_deterministic_partial. Qed.

Example C31_example :
  let l := map_to_list (m_files tree_ex) in
  prints_distinct tree_ex /\ length l = 3 /\ rev l <> l /\
  marshal_json tree_ex (rev l) (map_to_list (m_infos tree_ex)) = marshal_json tree_ex l (map_to_list (m_infos tree_ex)).
Proof.
  split; [|by vm_compute].
  eapply (marshalable_distinct here_parse); [|apply tree_ex_marshalable].
  eapply (reachable_wf here_parse), reachable_run, reach_new.
Qed.

(** The root directory can be stored twice, under the names "/" and "" (with
    the recalled resolver); both print as "app:/", and which of the two is
    marshalled depends on the iteration order. *)
Definition twin_ex : mem := after [OMkdirAll (B"app:/src/app") 493].

Theorem C31_refuted :
  exists m fl fl', reachable here_parse m /\ fl ≡ₚ map_to_list (m_files m) /\ fl' ≡ₚ map_to_list (m_files m) /\
    marshal_json m fl (map_to_list (m_infos m)) <> marshal_json m fl' (map_to_list (m_infos m)).
Proof.
  exists twin_ex, (map_to_list (m_files twin_ex)), (rev (map_to_list (m_files twin_ex))).
  split; [apply reachable_run, reach_new|]. split; [done|]. split; [symmetry; apply Permutation_rev|].
  by vm_compute.
Qed.

(** *** C65 *)

(** A string survives JSON exactly when it is valid UTF-8. *)
Theorem C65_text_survives s : read_json (write_json (JStr s)) = Some (JStr s) <-> utf8 s.
Proof.
  rewrite json_round. cbn [clean_json]. rewrite <- sanitize_iff. split; [by intros [= ->]|by intros ->].
Qed.

Example C65_ex :
  let s := ascii_of_N <$> [34; 195; 169; 10; 60; 226; 128; 168]%N in   (* quote, e acute, newline, <, U+2028 *)
  utf8 s /\ read_json (write_json (JStr s)) = Some (JStr s) /\ length (write_json (JStr s)) = 20.
Proof.
  cbv zeta. assert (H : read_json (write_json (JStr (ascii_of_N <$> [34; 195; 169; 10; 60; 226; 128; 168]%N))) =
    Some (JStr (ascii_of_N <$> [34; 195; 169; 10; 60; 226; 128; 168]%N))) by (by vm_compute).
  split; [by apply C65_text_survives|]. split; [done|]. by vm_compute.
Qed.

Definition byte_name (n : N) : bytes := B"/f" ++ [ascii_of_N n].

Definition bytes_ex : mem :=
  after [OCreate (byte_name 255); OWrite 1 (B"x"); OClose 1; OCreate (byte_name 254); OWrite 3 (B"y"); OClose 3].

(** So a file whose name is not valid UTF-8 is not found again after
    reloading, and of two such files one can be lost altogether. *)
Theorem C65_bytes_lost_refuted :
  exists m, reachable here_parse m /\
    seen here_parse m (byte_name 255) = Some (Details (tail (byte_name 255)) 1 420 t0 false JNull, B"x") /\
    seen here_parse m (byte_name 254) = Some (Details (tail (byte_name 254)) 1 420 t0 false JNull, B"y") /\
    size (m_files m) = 3 /\
    exists m', remake m = Done m' /\ size (m_files m') = 2 /\
      seen here_parse m' (byte_name 255) = None /\ seen here_parse m' (byte_name 254) = None.
Proof.
  exists bytes_ex. split; [apply reachable_run, reach_new|]. split; [by vm_compute|]. split; [by vm_compute|]. split; [by vm_compute|].
  apply outcome_done. by vm_compute.
Qed.

(** *** C66 *)

(** UnmarshalJSON panics on the text "null", hence UnmarshalEmbed does on its
    encoding, and the generated program would at start-up. *)
Theorem C66_null gz gunzip parse order :
  (forall x, gunzip (gz x) = Ok x) -> unmarshal_embed gunzip parse order (encode gz (B"null")) = Panicked.
Proof. intros H. unfold unmarshal_embed. rewrite C28_round_trip by done. reflexivity. Qed.
Theorem C66_null_refuted gz gunzip parse order : (forall x, gunzip (gz x) = Ok x) ->
  exists b, unmarshal_embed gunzip parse order b = Panicked.
Proof. intros H. exists (encode gz (B"null")). by apply C66_null. Qed.

(** On any other text it returns a pkger or an error. *)
Theorem C66_no_other_panic_partial parse order b :
  ~ says_null b -> unmarshal_json parse order b <> Panicked.
Proof.
  intros H. unfold unmarshal_json. destruct (read_raw b) as [[]|] eqn:E; try done; [by apply read_raw_null in E|].
  destruct (r_data l); [|done]. destruct (forallb _ _); [|done]. destruct (load _ _ _ _); done.
Qed.

Example C66_ex :
  ~ says_null (B"[1]") /\ unmarshal_json here_parse (fun l => l) (B"[1]") <> Panicked /\
  ~ says_null (B"{}") /\
  match unmarshal_json here_parse (fun l => l) (B"{}") with Done m => size (m_files m) = 0 | _ => False end.
Proof. rewrite <- !read_raw_null. by vm_compute. Qed.

(** *** C67 *)

(** Marshalling a re-hydrated pkger gives the same text again. *)
Theorem C67_remarshal parse m fl il order :
  reachable parse m -> marshalable parse m ->
  fl ≡ₚ map_to_list (m_files m) -> il ≡ₚ map_to_list (m_infos m) -> (forall l, order l ≡ₚ l) ->
  exists m', unmarshal_json parse order (marshal_json m fl il) = Done m' /\
    forall fl' il', fl' ≡ₚ map_to_list (m_files m') -> il' ≡ₚ map_to_list (m_infos m') ->
      marshal_json m' fl' il' = marshal_json m fl il.
Proof.
  intros Hr Hm Hfl Hil Ho. pose proof (reachable_wf _ _ Hr) as Hw.
  destruct (C30_answers_partial parse m fl il order) as (m' & H1 & Hr' & _); [done..|].
  destruct (marshal_load parse m fl il order Hw Hm Hfl Hil Ho) as (m2 & H2 & H3 & H4).
  assert (m2 = m') as -> by congruence. exists m'. split; [done|]. intros fl' il' Hfl' Hil'.
  eapply (C31_deterministic_partial parse parse); try done; [apply H4..|]. by eapply marshalable_distinct.
Qed.

Example C67_example :
  match remake tree_ex with
  | Done m' => marshal_json m' (map_to_list (m_files m')) (map_to_list (m_infos m')) =
      marshal_json tree_ex (map_to_list (m_files tree_ex)) (map_to_list (m_infos tree_ex)) /\
      (1000 <=? length (marshal_json tree_ex (map_to_list (m_files tree_ex)) (map_to_list (m_infos tree_ex))))%nat = true
  | _ => False end.
Proof. by vm_compute. Qed.

(** *** C68 *)

(** From the pkger Stuff marshals to the pkger the generated program starts
    with: the literal of the generated file, handed to UnmarshalEmbed, gives a
    pkger that answers like the original. *)
Theorem C68_end_to_end gz gunzip parse m fl il order name :
  (forall x, gunzip (gz x) = Ok x) -> backquote ∉ name ->
  reachable parse m -> marshalable parse m ->
  fl ≡ₚ map_to_list (m_files m) -> il ≡ₚ map_to_list (m_infos m) -> (forall l, order l ≡ₚ l) ->
  exists pre literal post m',
    first_raw (pkged_file name (encode gz (marshal_json m fl il))) = Some (pre, literal, post) /\
    unmarshal_embed gunzip parse order literal = Done m' /\ answers_like parse m m'.
Proof.
  intros Hgz Hn Hr Hm Hfl Hil Ho.
  destruct (C30_answers_partial parse m fl il order) as (m' & H1 & _ & H2); [done..|].
  eexists _, _, _, m'. split; [by apply C29_payload_intact|]. split; [|done].
  unfold unmarshal_embed. by rewrite C28_round_trip.
Qed.

Example C68_ex :
  let gz := fun x : bytes => rev x in
  let gunzip := fun x : bytes => Ok (rev x) in
  let text := marshal_json tree_ex (map_to_list (m_files tree_ex)) (map_to_list (m_infos tree_ex)) in
  match first_raw (pkged_file (B"main") (encode gz text)) with
  | Some (_, literal, _) =>
      match unmarshal_embed gunzip here_parse (fun l => l) literal with
      | Done m' => seen here_parse m' (B"/d/a.txt") = Some (Details (B"a.txt") 2 420 t1 false JNull, B"hi")
      | _ => False
      end
  | None => False
  end.
Proof. by vm_compute. Qed.
