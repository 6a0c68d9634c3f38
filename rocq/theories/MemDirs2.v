(** Proofs about MkdirAll, Create and File.Open, continued: the recalled
    resolver on plain names, and what the operations do to [seen]. *)
From Verif Require Import Bytes GoPath Here GoTypes Mem MemSpec MemBase MemFiles MemDirs.

(** *** Plain names *)

(** A path element no spelling rule rewrites. *)
Definition plain_elem (w : bytes) : Prop :=
  good_elem w /\ backslash ∉ w /\ newline ∉ w /\ colon ∉ w /\
  (forall c, last w = Some c -> is_space c = false).

Lemma plain_good ws : Forall plain_elem ws -> Forall good_elem ws.
Proof. intros H. eapply Forall_impl; [exact H|]. by intros w [? _]. Qed.

Lemma elem_of_join c ws : c ∈ join_slash ws -> c = slash \/ exists w, w ∈ ws /\ c ∈ w.
Proof.
  induction ws as [|w ws IH]; [by intros ?%elem_of_nil|].
  destruct ws as [|v ws].
  - simpl. intros H. right. exists w. split; [by constructor|done].
  - change (join_slash (w :: v :: ws)) with (w ++ slash :: join_slash (v :: ws)).
    rewrite elem_of_app, elem_of_cons. intros [H|[H|H]].
    + right. exists w. split; [by constructor|done].
    + by left.
    + destruct (IH H) as [->|(x & Hx & Hc)]; [by left|]. right. exists x. split; [by constructor|done].
Qed.

Lemma last_join ws w : w <> [] -> last (join_slash (ws ++ [w])) = last w.
Proof.
  intros Hw. induction ws as [|v ws IH]; [done|].
  destruct ws as [|u ws].
  - cbn [app join_slash]. destruct w as [|c w]; [done|]. change (slash :: c :: w) with ([slash] ++ c :: w).
    rewrite app_assoc. apply last_app_cons.
  - change (join_slash ((v :: u :: ws) ++ [w])) with (v ++ slash :: join_slash ((u :: ws) ++ [w])).
    destruct (join_slash ((u :: ws) ++ [w])) as [|c s] eqn:E; [|rewrite <- IH].
    + exfalso. rewrite last_nil in IH. destruct w as [|c w] using rev_ind; [done|]. by rewrite last_snoc in IH.
    + change (slash :: c :: s) with ([slash] ++ c :: s). rewrite app_assoc. apply last_app_cons.
Qed.

Lemma last_abs ws w : w <> [] -> last (abs_name (ws ++ [w])) = last w.
Proof.
  intros Hw. unfold abs_name. rewrite <- (last_join ws w Hw).
  destruct (join_slash (ws ++ [w])) as [|c s] eqn:E; [|done].
  pose proof (last_join ws w Hw) as H. rewrite E, last_nil in H.
  destruct w as [|c w] using rev_ind; [done|]. by rewrite last_snoc in H.
Qed.

Lemma plain_elem_not c ws :
  (forall w, plain_elem w -> c ∉ w) -> c <> slash -> Forall plain_elem ws -> c ∉ abs_name ws.
Proof.
  intros Hc Hs HF. unfold abs_name. rewrite elem_of_cons. intros [->|H]; [done|].
  apply elem_of_join in H as [->|(w & Hw & H)]; [done|].
  rewrite Forall_forall in HF. by apply (Hc w (HF w Hw)).
Qed.

Lemma plain_elems_name ws : Forall plain_elem ws -> plain_name (abs_name ws).
Proof.
  intros HF. exists ws. split; [by apply plain_good|]. split; [done|].
  split; [apply plain_elem_not; [by intros w (?&?&?)|done|done]|].
  split; [apply plain_elem_not; [by intros w (?&?&?&?)|done|done]|].
  destruct (list_snoc_cases ws) as [-> | (ws0 & w & ->)].
  - intros c [= <-]. done.
  - apply Forall_app in HF as [_ HF]. apply Forall_cons in HF as [(Hg & _ & _ & _ & Hl) _].
    rewrite last_abs; [exact Hl|]. by destruct Hg.
Qed.

Lemma plain_elems_colon ws : Forall plain_elem ws -> colon ∉ abs_name ws.
Proof. apply plain_elem_not; [by intros w (?&?&?&?&?)|done]. Qed.

Lemma dir_ok_prefix her ws vs :
  vs `prefix_of` ws -> dir_ok her (abs_name ws) -> dir_ok her (abs_name vs).
Proof.
  intros [k ->] [H|[H1 H2]]; [by left|right]. split; [done|].
  destruct (has_prefix (abs_name vs) (h_dir her)) eqn:E; [|done].
  rewrite <- H2. symmetry. apply has_prefix_spec in E as [x Hx].
  pose proof (abs_name_prefix vs k) as Hp. apply has_prefix_spec in Hp as [y Hy].
  apply has_prefix_spec. exists (x ++ y). rewrite Hy, Hx. by rewrite app_assoc.
Qed.

(** The resolver only looks at the cleaned text. *)
Lemma here_parse_clean her s t :
  clean (trim_space s) = clean (trim_space t) -> here_parse her s = here_parse her t.
Proof. intros H. unfold here_parse. by rewrite H. Qed.

Lemma plain_parse her ws :
  Forall plain_elem ws -> dir_ok her (abs_name ws) -> is_rooted (h_mpath her) = false ->
  here_parse her (abs_name ws) = Some (Path (h_mpath her) (abs_name ws)).
Proof.
  intros HF Hd Hm. apply here_parse_plain; [by apply plain_elems_name|done|by apply plain_elems_colon|].
  intros E. by rewrite E in Hm.
Qed.

Lemma trim_space_abs ws : Forall plain_elem ws -> trim_space (abs_name ws) = abs_name ws.
Proof.
  intros HF. destruct (plain_elems_name ws HF) as (vs & _ & _ & _ & _ & Hl).
  apply trim_space_id; [by intros c [= <-]|exact Hl].
Qed.

Lemma plain_parse_slash her ws :
  Forall plain_elem ws -> dir_ok her (abs_name ws) -> is_rooted (h_mpath her) = false ->
  here_parse her (abs_name ws ++ [slash]) = Some (Path (h_mpath her) (abs_name ws)).
Proof.
  intros HF Hd Hm. rewrite <- (plain_parse her ws) by done. apply here_parse_clean.
  rewrite trim_space_slash.
  assert (E : trim_left (abs_name ws) = abs_name ws) by (apply trim_left_id; by intros c [= <-]).
  rewrite E, trim_space_abs by done.
  rewrite clean_trailing, clean_abs by (by apply plain_good). done.
Qed.

Lemma plain_resolves_dirs her ws :
  Forall plain_elem ws -> dir_ok her (abs_name ws) -> is_rooted (h_mpath her) = false ->
  resolves_dirs here_parse her (h_mpath her) ws.
Proof.
  intros HF Hd Hm vs Hp _. apply plain_parse_slash; [|by eapply dir_ok_prefix|done].
  destruct Hp as [k ->]. by apply Forall_app in HF as [? _].
Qed.

(** ":/name" *)
Lemma colon_parse her ws :
  Forall plain_elem ws -> dir_ok her (abs_name ws) -> is_rooted (h_mpath her) = false ->
  here_parse her (colon :: abs_name ws) = Some (Path (h_mpath her) (abs_name ws)).
Proof.
  intros HF Hd Hm.
  assert (Hgc : good_elem [colon]).
  { repeat split; try done. rewrite elem_of_list_singleton. done. }
  destruct ws as [|w ws].
  - assert (Hb : here_build her [] [] = Path (h_mpath her) (B"/")).
    { rewrite here_build_eq. cbv zeta. change (hb_name (hb_pick her [] []).2) with (B"/").
      cbn [fst snd hb_pick]. rewrite bool_decide_eq_false_2.
      - cbn [fst snd]. change (has_prefix (B"/") (B"/")) with true. cbv iota. f_equal.
        change (abs_name []) with (B"/") in Hd.
        destruct Hd as [->|[_ Hp]]; [apply trim_prefix_nil|by apply trim_prefix_no].
      - intros E. by rewrite E in Hm. }
    unfold here_parse. change (clean (trim_space (colon :: abs_name []))) with [colon].
    assert (Ht : trim_prefix [colon] (h_dir her) = [colon]).
    { destruct Hd as [->|[Hr _]]; [apply trim_prefix_nil|]. apply trim_prefix_no.
      destruct (h_dir her) as [|c d]; [done|]. simpl in Hr. apply ascii_eqb_spec in Hr as ->. done. }
    rewrite Ht. change (trim_space (replace_byte backslash slash [colon])) with [colon].
    simpl orb. cbv iota. by rewrite Hb.
  - assert (Htr : forall c, last (abs_name (w :: ws)) = Some c -> is_space c = false).
    { destruct (plain_elems_name (w :: ws) HF) as (vs & _ & _ & _ & _ & Hl). exact Hl. }
    assert (Hl2 : last (colon :: abs_name (w :: ws)) = last (abs_name (w :: ws))) by done.
    assert (Hts : trim_space (colon :: abs_name (w :: ws)) = colon :: abs_name (w :: ws)).
    { apply trim_space_id; [by intros c [= <-]|]. by rewrite Hl2. }
    unfold here_parse. rewrite Hts.
    assert (Hcl : clean (colon :: abs_name (w :: ws)) = colon :: abs_name (w :: ws)).
    { change (colon :: abs_name (w :: ws)) with (join_slash ([colon] :: w :: ws)).
      apply clean_join_good; [done|]. constructor; [done|by apply plain_good]. }
    rewrite Hcl.
    assert (Ht : trim_prefix (colon :: abs_name (w :: ws)) (h_dir her) = colon :: abs_name (w :: ws)).
    { destruct Hd as [->|[Hr _]]; [apply trim_prefix_nil|]. apply trim_prefix_no.
      destruct (h_dir her) as [|c d]; [done|]. cbn [is_rooted] in Hr. apply ascii_eqb_spec in Hr as ->. done. }
    rewrite Ht, replace_byte_id, Hts.
    2: { rewrite elem_of_cons. intros [?|H]; [done|].
         revert H. apply plain_elem_not; [by intros v (?&?&?)|done|done]. }
    rewrite bool_decide_eq_false_2 by done.
    rewrite bool_decide_eq_false_2 by done.
    rewrite bool_decide_eq_false_2 by done. cbn [orb].
    pose proof (plain_parse her (w :: ws) HF Hd Hm) as HP. unfold here_parse in HP.
    rewrite trim_space_abs, clean_abs in HP; [|by apply plain_good|done].
    assert (Ht2 : trim_prefix (abs_name (w :: ws)) (h_dir her) = abs_name (w :: ws)).
    { destruct Hd as [->|[_ Hp]]; [apply trim_prefix_nil|by apply trim_prefix_no]. }
    rewrite Ht2, replace_byte_id, trim_space_abs in HP; [|done|].
    2: { apply plain_elem_not; [by intros v (?&?&?)|done|done]. }
    rewrite !bool_decide_eq_false_2 in HP by (unfold abs_name; intros E; discriminate E).
    cbn [orb] in HP. exact HP.
Qed.

(** *** Create *)

Lemma create_spec parse now m name m1 :
  m1 = (mkdir_all parse (mk_fuel (B"/")) now m (B"/") 493).1 ->
  (mkdir_all parse (mk_fuel (B"/")) now m (B"/") 493).2 <> Some EFuel ->
  create parse now m name =
    match parse (m_here m) name with
    | None => (m1, Err EParse)
    | Some pt =>
        match m_infos m1 !! p_pkg pt with
        | None => (m1, Err (EMsg no_such_pkg))
        | Some her =>
            let f := FObj her (Details (base name) 0 420 now false JNull) pt [] zero_path None None in
            let ok := (store (alloc m1 f).1 pt (alloc m1 f).2, Ok (alloc m1 f).2) in
            if bool_decide (dirname (p_name pt) = B"/") then ok
            else match stat parse m1 (dirname (p_name pt)) with
                 | Ok _ => ok
                 | Err e => (m1, Err e)
                 end
        end
    end.
Proof.
  intros -> He. unfold create. pose proof (mkdir_here parse (mk_fuel (B"/")) now m (B"/") 493) as Hh.
  destruct (mkdir_all parse (mk_fuel (B"/")) now m (B"/") 493) as [m1 e]. cbn [fst snd] in *.
  rewrite bool_decide_eq_false_2 by done. unfold mem_parse. rewrite Hh.
  destruct (parse (m_here m) name) as [pt|]; [|done]. unfold mem_info.
  destruct (m_infos m1 !! p_pkg pt) as [her|]; [|done]. cbv zeta.
  case_bool_decide; [done|]. by destruct (stat parse m1 (dirname (p_name pt))).
Qed.

Lemma mkdir_infos parse fuel now m p perm :
  m_infos (mkdir_all parse fuel now m p perm).1 = m_infos m.
Proof.
  revert m p. induction fuel as [|fuel IH]; intros m p; simpl; [done|].
  destruct (mem_parse parse m p) as [pt|]; [|done].
  destruct (path_split (p_name pt)) as [dir name].
  case_bool_decide; [done|]. specialize (IH m dir).
  destruct (mkdir_all parse fuel now m dir perm) as [m1 [e|]]; simpl in *; done.
Qed.

Lemma seen_of_file parse m name pt f :
  parse (m_here m) name = Some pt -> file_at m pt = Some f ->
  seen parse m name = Some (f_info f, f_data f).
Proof. intros Hp Hf. rewrite seen_alt, Hp. simpl. by rewrite Hf. Qed.

Lemma seen_frame parse U D m m' n :
  frame parse U D m m' -> wf m ->
  (forall r, ~ U r) -> (forall pt, parse (m_here m) n = Some pt -> ~ D pt) ->
  seen parse m' n = seen parse m n.
Proof.
  intros HF Hw HU HD. rewrite !seen_alt. rewrite (fr_here _ _ _ _ _ HF).
  destruct (parse (m_here m) n) as [pt|] eqn:Hp; [|done]. simpl. unfold file_at.
  rewrite (fr_files _ _ _ _ _ HF) by (by apply HD).
  destruct (m_files m !! pt) as [r|] eqn:Er; [|done]. simpl.
  rewrite (fr_heap _ _ _ _ _ HF); [done|apply HU|by eapply wf_files_lt].
Qed.

(** The target of a successful MkdirAll. *)
Lemma mkdir_target parse fuel now m p perm m' pt :
  wf m -> parse (m_here m) p = Some pt ->
  mkdir_all parse fuel now m p perm = (m', None) ->
  dir_object m' pt (path_split (p_name pt)).2 perm now.
Proof.
  intros Hw Hp. destruct fuel as [|fuel]; [done|]. cbn [mkdir_all]. unfold mem_parse. rewrite Hp.
  destruct (path_split (p_name pt)) as [dir nm]. case_bool_decide.
  - intros [= <-]. apply file_at_store_same.
  - destruct (mkdir_all parse fuel now m dir perm) as [m1 [e|]]; [done|].
    intros [= <-]. apply file_at_store_same.
Qed.

(** *** File.Open *)

Lemma file_open_spec parse m r f name pt :
  m_heap m !! r = Some f -> parse (f_here f) name = Some pt -> pt <> f_path f ->
  forall K fo, parse (m_here m) (path_string (Path (p_pkg pt) (join2 (p_name (f_path f)) (p_name pt)))) = Some K ->
  file_at m K = Some fo ->
  exists m' h fh, file_open parse m r name = (m', Ok h) /\ m_heap m' !! h = Some fh /\
    f_info fh = f_info fo /\ f_data fh = (if d_isdir (f_info fo) then [] else f_data fo) /\
    f_here fh = f_here fo /\
    f_path fh = (if d_isdir (f_info fo) then Path (p_pkg pt) (join2 (p_name (f_path f)) (p_name pt)) else f_path fo) /\
    f_writer fh = None /\ f_reader fh = None.
Proof.
  intros Hr Hp Hne K fo HK Hfo. unfold file_open. rewrite Hr, Hp.
  rewrite bool_decide_eq_false_2 by done. cbv zeta. unfold open, mem_parse. rewrite HK, Hfo.
  cbn [alloc]. cbn [m_heap]. rewrite lookup_insert. cbn [f_info]. rewrite new_file_info_id.
  destruct (d_isdir (f_info fo)) eqn:Ed.
  - eexists _, _, _. split; [done|]. cbn [m_heap]. rewrite lookup_insert.
    split; [done|]. cbn. rewrite !new_file_info_id. done.
  - eexists _, _, _. split; [done|]. cbn [m_heap]. rewrite lookup_insert. split; [done|]. cbn. done.
Qed.

Lemma file_open_missing parse m r f name pt :
  m_heap m !! r = Some f -> parse (f_here f) name = Some pt -> pt <> f_path f ->
  forall K, parse (m_here m) (path_string (Path (p_pkg pt) (join2 (p_name (f_path f)) (p_name pt)))) = Some K ->
  file_at m K = None -> file_open parse m r name = (m, Err ENotExist).
Proof.
  intros Hr Hp Hne K HK Hfo. unfold file_open. rewrite Hr, Hp.
  rewrite bool_decide_eq_false_2 by done. cbv zeta. unfold open, mem_parse. by rewrite HK, Hfo.
Qed.

(** *** Stored objects know their key *)

Definition keyed (m : mem) : Prop :=
  forall pt f, file_at m pt = Some f -> f_path f = pt.

(** States built by API calls on a new pkger (not loaded from a payload). *)
Inductive built (parse : resolver) : mem -> Prop :=
| built_new her : built parse (mem_new her)
| built_step m c : built parse m -> built parse (step parse m c).1.

Lemma built_reachable parse m : built parse m -> reachable parse m.
Proof. induction 1; by constructor. Qed.

Lemma built_run parse m cs : built parse m -> built parse (run parse m cs).1.
Proof.
  revert m. induction cs as [|c cs IH]; intros m Hr; simpl; [done|].
  pose proof (built_step parse m c Hr) as H1. destruct (step parse m c) as [m1 x]. simpl in H1.
  specialize (IH m1 H1). by destruct (run parse m1 cs).
Qed.

Lemma keyed_store m f pt : wf m -> keyed m -> f_path f = pt ->
  keyed (store (alloc m f).1 pt (alloc m f).2).
Proof.
  intros Hw Hk Hf q g. destruct (decide (q = pt)) as [->|Hne].
  - rewrite file_at_store_same. by intros [= <-].
  - rewrite file_at_store_other by done. apply Hk.
Qed.

Lemma keyed_mkdir parse fuel now m p perm :
  wf m -> keyed m -> keyed (mkdir_all parse fuel now m p perm).1.
Proof.
  revert m p. induction fuel as [|fuel IH]; intros m p Hw Hk; [done|]. cbn [mkdir_all].
  destruct (mem_parse parse m p) as [pt|]; [|done].
  destruct (path_split (p_name pt)) as [dir nm]. case_bool_decide.
  - by apply (keyed_store m).
  - specialize (IH m dir Hw Hk). pose proof (fr_wf _ _ _ _ _ (frame_mkdir parse fuel now m dir perm Hw)) as Hw1.
    destruct (mkdir_all parse fuel now m dir perm) as [m1 [e|]]; [done|].
    by apply (keyed_store m1).
Qed.

Lemma keyed_upd m r f g : keyed m -> m_heap m !! r = Some g -> f_path f = f_path g -> keyed (upd m r f).
Proof.
  intros Hk Hg Hp pt x. unfold file_at, upd. simpl.
  destruct (m_files m !! pt) as [r'|] eqn:E; [|done]. simpl.
  destruct (decide (r' = r)) as [->|Hne].
  - rewrite lookup_insert. intros [= <-]. rewrite Hp. apply (Hk pt). unfold file_at. rewrite E. done.
  - rewrite lookup_insert_ne by done. intros Hx. apply Hk. unfold file_at. by rewrite E.
Qed.

Lemma keyed_alloc m f : wf m -> keyed m -> keyed (alloc m f).1.
Proof.
  intros Hw Hk pt x. unfold file_at, alloc. simpl.
  destruct (m_files m !! pt) as [r'|] eqn:E; [|done]. simpl.
  pose proof (wf_files_lt m pt r' Hw E). rewrite lookup_insert_ne by lia.
  intros Hx. apply Hk. unfold file_at. by rewrite E.
Qed.

Lemma keyed_subset m fs : keyed m -> fs ⊆ m_files m -> keyed (set_files m fs).
Proof.
  intros Hk Hs pt f. unfold file_at, set_files. simpl.
  destruct (fs !! pt) as [r|] eqn:E; [|done]. simpl. intros Hf. apply Hk.
  unfold file_at. by rewrite (lookup_weaken _ _ _ _ E Hs).
Qed.

Lemma keyed_step parse m c : wf m -> keyed m -> keyed (step parse m c).1.
Proof.
  destruct c as [now o]. intros Hw IH. destruct o; cbn [step].
  - unfold create. pose proof (keyed_mkdir parse (mk_fuel (B"/")) now m (B"/") 493 Hw IH) as H1.
    pose proof (fr_wf _ _ _ _ _ (frame_mkdir parse (mk_fuel (B"/")) now m (B"/") 493 Hw)) as Hw1.
    destruct (mkdir_all parse (mk_fuel (B"/")) now m (B"/") 493) as [m1 e]. simpl in H1, Hw1.
    case_bool_decide; [done|].
    destruct (mem_parse parse m1 name) as [pt|]; [|done].
    destruct (mem_info m1 (p_pkg pt)) as [her|e']; [|done].
    destruct (if bool_decide _ then _ else _) as [u|e2]; [|done].
    by apply (keyed_store m1).
  - pose proof (keyed_mkdir parse (mk_fuel p) now m p perm Hw IH).
    by destruct (mkdir_all parse (mk_fuel p) now m p perm).
  - unfold remove. destruct (mem_parse parse m name) as [pt|]; [|done].
    destruct (m_files m !! pt); [|done]. apply keyed_subset; [done|apply delete_subseteq].
  - unfold remove_all. destruct (mem_parse parse m name) as [pt|]; [|done].
    apply keyed_subset; [done|apply map_filter_subseteq].
  - unfold open. destruct (mem_parse parse m name) as [pt|]; [|done].
    destruct (file_at m pt) as [f|]; [|done]. by apply (keyed_alloc m).
  - done.
  - unfold add_file. by apply (keyed_store m).
  - unfold file_write. destruct (m_heap m !! r) as [f|] eqn:E; [|done]. by eapply keyed_upd.
  - unfold file_read. destruct (m_heap m !! r) as [f|] eqn:E; [|done].
    destruct (cur_reader f) as [rd|]; [|done]. destruct (reader_read rd n) as [rd2 [b e]]. by eapply keyed_upd.
  - unfold file_seek. destruct (m_heap m !! r) as [f|] eqn:E; [|done].
    destruct (cur_reader f) as [rd|]; [|done]. destruct (reader_seek rd off whence) as [rd2 [b e]]. by eapply keyed_upd.
  - unfold file_close. destruct (m_heap m !! r) as [f|] eqn:E; [|done].
    destruct (f_writer f); by eapply keyed_upd.
  - by destruct (readdir parse m r count).
  - unfold file_open. destruct (m_heap m !! r) as [f|] eqn:E; [|done].
    destruct (parse (f_here f) name) as [pt|]; [|done]. case_bool_decide; [done|]. cbv zeta.
    unfold open. destruct (mem_parse parse m _) as [K|]; [|done].
    destruct (file_at m K) as [fo|] eqn:EK; [|done]. cbn [alloc]. cbn [m_heap]. rewrite lookup_insert. cbn [f_info].
    assert (Hk1 : keyed (alloc m (FObj (f_here fo) (new_file_info (f_info fo)) (f_path fo) (f_data fo) zero_path None None)).1)
      by (by apply keyed_alloc).
    assert (Hw1 : wf (alloc m (FObj (f_here fo) (new_file_info (f_info fo)) (f_path fo) (f_data fo) zero_path None None)).1)
      by (by apply wf_alloc).
    destruct (d_isdir _); [|exact Hk1]. by apply (keyed_alloc _ _ Hw1 Hk1).
Qed.
Lemma built_keyed parse m : built parse m -> keyed m.
Proof.
  induction 1 as [her|m c Hb IH].
  - intros pt f. unfold file_at. simpl. by rewrite lookup_empty.
  - apply keyed_step; [|done]. apply (reachable_wf parse), built_reachable, Hb.
Qed.
