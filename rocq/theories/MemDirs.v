(** Proofs about MkdirAll, Create and File.Open (C14-C17, C23, C46, C47, C55). *)
From Verif Require Import Bytes GoPath Here GoTypes Mem MemSpec MemBase MemFiles.

(** *** Lengths of cleaned names *)

Definition cost (ws : list bytes) : nat := sum_list_with (fun w => S (length w)) ws.

Lemma cost_app a b : cost (a ++ b) = cost a + cost b.
Proof. unfold cost. apply sum_list_with_app. Qed.

Lemma cost_rev a : cost (rev a) = cost a.
Proof.
  induction a as [|x a IH]; [done|]. change (rev (x :: a)) with (rev a ++ [x]).
  rewrite cost_app, IH. unfold cost. simpl. lia.
Qed.

Lemma join_cost ws : length (join_slash ws) = pred (cost ws).
Proof.
  induction ws as [|w ws IH]; [done|]. destruct ws as [|v ws].
  - unfold cost. simpl. lia.
  - change (join_slash (w :: v :: ws)) with (w ++ slash :: join_slash (v :: ws)).
    rewrite app_length. cbn [length]. rewrite IH.
    unfold cost. simpl. lia.
Qed.

Lemma split_cost s : cost (split_slash s) = S (length s).
Proof.
  pose proof (join_cost (split_slash s)) as H. rewrite join_split in H.
  destruct (split_slash s) eqn:E; [by apply split_slash_nonnil in E|].
  unfold cost in *. simpl in *. lia.
Qed.

Lemma clean_step_cost r out w : cost (clean_step r out w) <= cost out + S (length w).
Proof.
  unfold clean_step. destruct (bool_decide (w = []) || bool_decide (w = dot)); [lia|].
  case_bool_decide as E.
  - subst w. destruct out as [|t out]; [destruct r; unfold cost; simpl; lia|].
    case_bool_decide; unfold cost; simpl; lia.
  - unfold cost. simpl. lia.
Qed.

Lemma fold_clean_cost r ws out : cost (fold_left (clean_step r) ws out) <= cost out + cost ws.
Proof.
  revert out. induction ws as [|w ws IH]; intros out; cbn [fold_left].
  - unfold cost. simpl. lia.
  - etrans; [apply IH|]. pose proof (clean_step_cost r out w). unfold cost in *. simpl. lia.
Qed.

Lemma clean_elems_cost s : cost (clean_elems s) <= S (length s).
Proof.
  unfold clean_elems. rewrite cost_rev. etrans; [apply fold_clean_cost|]. rewrite split_cost. done.
Qed.

Lemma split_rooted s : split_slash (slash :: s) = [] :: split_slash s.
Proof. done. Qed.

Lemma clean_elems_rooted_cost s : cost (clean_elems (slash :: s)) <= S (length s).
Proof.
  unfold clean_elems. rewrite cost_rev, split_rooted. cbn [fold_left]. rewrite clean_step_nil.
  etrans; [apply fold_clean_cost|]. by rewrite split_cost.
Qed.

Lemma clean_elems_trailing s : clean_elems (s ++ [slash]) = rev (fold_left (clean_step (is_rooted (s ++ [slash]))) (split_slash s) []).
Proof.
  unfold clean_elems. change [slash] with (slash :: @nil ascii) at 2.
  rewrite split_app_general, fold_left_app. simpl. by rewrite clean_step_nil.
Qed.

Lemma clean_len s : length (clean s) <= max 1 (length s).
Proof.
  unfold clean. destruct s as [|c s]; [simpl; lia|].
  destruct (is_rooted (c :: s)) eqn:Er.
  - simpl in Er. apply ascii_eqb_spec in Er as ->. cbn [length].
    rewrite join_cost. pose proof (clean_elems_rooted_cost s). lia.
  - pose proof (clean_elems_cost (c :: s)) as Hc. cbv zeta.
    destruct (clean_elems (c :: s)) as [|w ws] eqn:E; [simpl; lia|].
    rewrite join_cost. lia.
Qed.

Lemma clean_len_slash x : x <> [] -> length (clean (x ++ [slash])) <= length x.
Proof.
  intros Hx. unfold clean. destruct x as [|c x]; [done|]. change ((c :: x) ++ [slash]) with (c :: x ++ [slash]).
  cbv iota. destruct (is_rooted (c :: x ++ [slash])) eqn:Er.
  - cbn [length]. rewrite join_cost.
    change (c :: x ++ [slash]) with ((c :: x) ++ [slash]) in *. rewrite clean_elems_trailing, cost_rev, Er.
    simpl in Er. apply ascii_eqb_spec in Er as ->. rewrite split_rooted. cbn [fold_left]. rewrite clean_step_nil.
    pose proof (fold_clean_cost true (split_slash x) []) as H. rewrite split_cost in H. simpl in H. lia.
  - change (c :: x ++ [slash]) with ((c :: x) ++ [slash]) in *. cbv zeta. rewrite clean_elems_trailing, Er.
    pose proof (fold_clean_cost false (split_slash (c :: x)) []) as H. rewrite split_cost in H.
    rewrite <- cost_rev in H.
    destruct (rev (fold_left (clean_step false) (split_slash (c :: x)) [])) as [|w ws] eqn:E; [simpl; lia|].
    rewrite join_cost. change (cost []) with 0 in H. cbn [length] in *. lia.
Qed.

(** *** Lengths of resolved names *)

Lemma trim_left_len s : length (trim_left s) <= length s.
Proof. induction s as [|c s IH]; simpl; [lia|]. destruct (is_space c); simpl; lia. Qed.

Lemma trim_space_len s : length (trim_space s) <= length s.
Proof.
  unfold trim_space. rewrite rev_length. etrans; [apply trim_left_len|].
  rewrite rev_length. apply trim_left_len.
Qed.

Lemma trim_left_slash x : trim_left (x ++ [slash]) = trim_left x ++ [slash].
Proof.
  induction x as [|c x IH]; [done|]. cbn [app trim_left]. destruct (is_space c); [done|done].
Qed.

Lemma trim_space_slash x : trim_space (x ++ [slash]) = trim_left x ++ [slash].
Proof.
  unfold trim_space. rewrite trim_left_slash, rev_app_distr. simpl. by rewrite rev_involutive.
Qed.

Lemma trim_prefix_len s p : length (trim_prefix s p) <= length s.
Proof. unfold trim_prefix. destruct (has_prefix s p); [|done]. rewrite drop_length. lia. Qed.

Lemma replace_byte_len a b s : length (replace_byte a b s) = length s.
Proof. induction s as [|c s IH]; simpl; [done|]. by rewrite IH. Qed.

Lemma span_len f s : length (span f s).1 + length (span f s).2 = length s.
Proof.
  induction s as [|c s IH]; simpl; [done|]. destruct (f c); simpl; [|done].
  destruct (span f s) as [a b]. simpl in *. lia.
Qed.

Lemma drop_colons_len s : length (drop_colons s) <= length s.
Proof. induction s as [|c s IH]; cbn [drop_colons length]; [lia|]. destruct (Ascii.eqb c colon); simpl; lia. Qed.

Lemma path_regexp_len p g n :
  path_regexp p = Some (g, n) ->
  length g <= length p /\ length n <= length p /\ (n = [] \/ is_rooted n = true).
Proof.
  unfold path_regexp. pose proof (drop_colons_len p) as Hd.
  destruct (drop_colons p) as [|c q]; [done|].
  pose proof (span_len (fun c => negb (Ascii.eqb c colon)) (c :: q)) as Hs.
  destruct (span (fun c => negb (Ascii.eqb c colon)) (c :: q)) as [pk rest].
  cbn [fst snd] in Hs. intros [= <- <-]. split; [lia|].
  destruct rest as [|c1 [|c2 t]]; [simpl; split; [lia|by left]..|].
  destruct (Ascii.eqb c1 colon && Ascii.eqb c2 slash) eqn:E; [|simpl; split; [lia|by left]].
  apply andb_true_iff in E as [_ E].
  pose proof (span_len (fun c => negb (Ascii.eqb c newline)) t) as Ht.
  destruct (span (fun c => negb (Ascii.eqb c newline)) t) as [x y]. cbn [fst snd] in Ht.
  destruct x as [|x0 x]; [simpl; split; [lia|by left]|].
  split; [cbn [length] in *; lia|right]. exact E.
Qed.

Definition hb_pick (her : hinfo) (g n : bytes) : bytes * bytes :=
  match g with
  | [] => (h_mpath her, [])
  | c :: _ => if Ascii.eqb c slash then (h_mpath her, g) else (g, n)
  end.
Definition hb_name (n : bytes) : bytes := match n with [] => B"/" | _ => n end.

Lemma here_build_eq her g n :
  here_build her g n =
    let gn := hb_pick her g n in
    let nm := hb_name gn.2 in
    let gn2 := if bool_decide (gn.1 = nm) then (h_mpath her, B"/") else (gn.1, nm) in
    Path gn2.1 (trim_prefix (if has_prefix gn2.2 (B"/") then gn2.2 else slash :: gn2.2) (h_dir her)).
Proof.
  unfold here_build, hb_pick, hb_name. destruct g as [|c g].
  - cbn [fst snd]. case_bool_decide; done.
  - destruct (Ascii.eqb c slash); cbn [fst snd]; [case_bool_decide; done|].
    destruct n; case_bool_decide; done.
Qed.

Lemma here_build_len her g n :
  (n = [] \/ is_rooted n = true) ->
  length (p_name (here_build her g n)) <= max 1 (max (length g) (length n)).
Proof.
  intros Hn. rewrite here_build_eq. cbv zeta.
  set (gn := hb_pick her g n).
  assert (H : length gn.2 <= max (length g) (length n) /\ (gn.2 = [] \/ is_rooted gn.2 = true)).
  { unfold gn, hb_pick. destruct g as [|c g]; [simpl; split; [lia|by left]|].
    destruct (Ascii.eqb c slash) eqn:E; cbn [snd]; (split; [lia|]); [by right|done]. }
  destruct gn as [g1 n1]. cbn [fst snd] in *. destruct H as [Hl Hr].
  unfold hb_name. destruct n1 as [|c n1].
  - case_bool_decide; cbn [p_name fst snd]; change (has_prefix (B"/") (B"/")) with true; cbv iota;
      (etrans; [apply trim_prefix_len|]); change (length (B"/")) with 1; lia.
  - assert (Hp2 : has_prefix (c :: n1) (B"/") = true).
    { destruct Hr as [Hr|Hr]; [done|]. simpl in Hr. apply ascii_eqb_spec in Hr as ->. done. }
    case_bool_decide; cbn [p_name fst snd].
    + change (has_prefix (B"/") (B"/")) with true; cbv iota.
      etrans; [apply trim_prefix_len|]. change (length (B"/")) with 1. lia.
    + rewrite Hp2. etrans; [apply trim_prefix_len|]. lia.
Qed.

Lemma here_parse_len her p pt :
  here_parse her p = Some pt -> length (p_name pt) <= max 1 (length (clean (trim_space p))).
Proof.
  unfold here_parse. set (c := clean (trim_space p)).
  set (q := trim_space (replace_byte backslash slash (trim_prefix c (h_dir her)))).
  assert (Hq : length q <= length c).
  { unfold q. etrans; [apply trim_space_len|]. rewrite replace_byte_len. apply trim_prefix_len. }
  destruct (bool_decide (q = []) || _ || _).
  - intros [= <-]. pose proof (here_build_len her [] [] (or_introl eq_refl)) as H. simpl in H. lia.
  - destruct (path_regexp q) as [[g n]|] eqn:E; [|done]. intros [= <-].
    destruct (path_regexp_len _ _ _ E) as (H1 & H2 & H3).
    pose proof (here_build_len her g n H3). lia.
Qed.

Lemma path_split_cases s :
  (path_split s).1 = [] \/ exists x, (path_split s).1 = x ++ [slash] /\ S (length x) <= length s.
Proof.
  assert (H : match split_last s with None => True | Some (d, f) => exists x, d = x ++ [slash] /\ S (length x) <= length s end).
  { induction s as [|c s IH]; [done|]. cbn [split_last]. destruct (split_last s) as [[d f]|].
    - destruct IH as (x & -> & Hx). exists (c :: x). simpl. split; [done|lia].
    - destruct (Ascii.eqb c slash) eqn:E; [|done]. apply ascii_eqb_spec in E as ->.
      exists []. simpl. split; [done|lia]. }
  unfold path_split. destruct (split_last s) as [[d f]|]; [right; exact H|by left].
Qed.

(** *** C17 *)

Lemma here_parse_empty her : h_dir her <> B"/" -> here_parse her [] = Some (Path (h_mpath her) (B"/")).
Proof.
  intros Hd.
  assert (Hb : here_build her [] [] = Path (h_mpath her) (B"/")).
  { assert (Ht : trim_prefix (B"/") (h_dir her) = B"/").
    { destruct (h_dir her) as [|c d] eqn:E; [done|]. apply trim_prefix_no.
      change (B"/") with [slash]. cbn [has_prefix]. destruct (decide (c = slash)) as [->|Hc].
      - destruct d; [done|]. by rewrite andb_false_r.
      - apply andb_false_iff. left. apply Ascii.eqb_neq. congruence. }
    rewrite here_build_eq. cbv zeta. change (hb_name (hb_pick her [] []).2) with (B"/").
    case_bool_decide; cbn [fst snd hb_pick]; change (has_prefix (B"/") (B"/")) with true; cbv iota;
      by rewrite Ht. }
  unfold here_parse. change (clean (trim_space [])) with dot.
  destruct (has_prefix dot (h_dir her)) eqn:E.
  - destruct (h_dir her) as [|c d] eqn:Ed.
    + by rewrite Hb.
    + change dot with ["."%char] in *. cbn [has_prefix] in E. destruct d as [|d1 d2]; [|cbn [has_prefix] in E; by rewrite andb_false_r in E].
      cbn [has_prefix] in E. rewrite andb_true_r in E. apply ascii_eqb_spec in E as ->. by rewrite Hb.
  - rewrite trim_prefix_no by done. by rewrite Hb.
Qed.

Lemma mkdir_root_name parse fuel now m p perm g :
  parse (m_here m) p = Some (Path g (B"/")) ->
  (mkdir_all parse (S fuel) now m p perm).2 = None.
Proof. intros Hp. cbn [mkdir_all]. unfold mem_parse. by rewrite Hp. Qed.

Lemma mkdir_fuel_enough fuel now m p perm pt :
  h_dir (m_here m) <> B"/" ->
  here_parse (m_here m) p = Some pt -> length (p_name pt) + 2 <= fuel ->
  (mkdir_all here_parse fuel now m p perm).2 <> Some EFuel.
Proof.
  intros Hd. revert p pt. induction fuel as [|fuel IH]; intros p pt Hp Hf; [lia|].
  cbn [mkdir_all]. unfold mem_parse. rewrite Hp.
  destruct (path_split_cases (p_name pt)) as [Hs|(x & Hs & Hx)].
  - destruct (path_split (p_name pt)) as [dir nm]. simpl in Hs. subst dir.
    rewrite bool_decide_eq_false_2 by done.
    pose proof (mkdir_root_name here_parse (pred fuel) now m [] perm (h_mpath (m_here m))
      (here_parse_empty _ Hd)) as H. rewrite Nat.succ_pred in H by lia.
    destruct (mkdir_all here_parse fuel now m [] perm) as [m1 e]. simpl in H. subst e. done.
  - destruct (path_split (p_name pt)) as [dir nm]. simpl in Hs. subst dir.
    case_bool_decide as E; [done|].
    assert (Hxn : x <> []) by (intros ->; done).
    destruct (here_parse (m_here m) (x ++ [slash])) as [pt'|] eqn:Hp'.
    + assert (Hlen : length (p_name pt') <= length x).
      { etrans; [by eapply here_parse_len|]. rewrite trim_space_slash.
        pose proof (trim_left_len x). destruct (trim_left x) as [|c y].
        - change (clean ([] ++ [slash])) with (B"/"). simpl. destruct x; [done|simpl; lia].
        - pose proof (clean_len_slash (c :: y)) as Hc. specialize (Hc ltac:(done)).
          destruct x; [done|]. simpl in *. lia. }
      specialize (IH _ _ Hp'). destruct (mkdir_all here_parse fuel now m (x ++ [slash]) perm) as [m1 [e|]]; [|done].
      simpl in *. apply IH. lia.
    + destruct fuel as [|fuel]; [lia|]. cbn [mkdir_all]. unfold mem_parse. rewrite Hp'. done.
Qed.

Lemma mkdir_mk_fuel now m p perm :
  h_dir (m_here m) <> B"/" ->
  (mkdir_all here_parse (mk_fuel p) now m p perm).2 <> Some EFuel.
Proof.
  intros Hd. destruct (here_parse (m_here m) p) as [pt|] eqn:Hp.
  - eapply mkdir_fuel_enough; [done|exact Hp|]. pose proof (here_parse_len _ _ _ Hp).
    pose proof (clean_len (trim_space p)). pose proof (trim_space_len p). unfold mk_fuel. lia.
  - unfold mk_fuel. rewrite Nat.add_comm. cbn [mkdir_all Nat.add]. unfold mem_parse. by rewrite Hp.
Qed.

(** More fuel never changes an answer that did not run out of it. *)
Lemma mkdir_fuel_mono parse fuel fuel' now m p perm :
  fuel <= fuel' -> (mkdir_all parse fuel now m p perm).2 <> Some EFuel ->
  mkdir_all parse fuel' now m p perm = mkdir_all parse fuel now m p perm.
Proof.
  revert fuel' m p. induction fuel as [|fuel IH]; intros fuel' m p Hle H; [done|].
  destruct fuel' as [|fuel']; [lia|]. cbn [mkdir_all] in *.
  destruct (mem_parse parse m p) as [pt|]; [|done].
  destruct (path_split (p_name pt)) as [dir nm]. case_bool_decide; [done|].
  rewrite (IH fuel'); [done|lia|]. intros E.
  destruct (mkdir_all parse fuel now m dir perm) as [m1 e]. simpl in *. by subst e.
Qed.

Lemma mkdir_diverges fuel now m perm p :
  h_dir (m_here m) = B"/" -> p = [] \/ p = B"/" ->
  (mkdir_all here_parse fuel now m p perm).2 = Some EFuel.
Proof.
  intros Hd. revert p. induction fuel as [|fuel IH]; intros p Hp; [done|].
  cbn [mkdir_all]. unfold mem_parse.
  assert (Hh : exists g, here_parse (m_here m) p = Some (Path g [])).
  { assert (Hb : exists g, here_build (m_here m) [] [] = Path g []).
    { unfold here_build. rewrite Hd. case_bool_decide; eauto. }
    destruct Hb as [g Hb]. exists g. unfold here_parse. rewrite Hd.
    destruct Hp as [-> | ->]; by rewrite <- Hb. }
  destruct Hh as [g Hh]. rewrite Hh. cbn [p_name]. change (path_split []) with (@nil ascii, @nil ascii).
  cbv beta iota. rewrite bool_decide_eq_false_2 by done.
  specialize (IH [] (or_introl eq_refl)).
  destruct (mkdir_all here_parse fuel now m [] perm) as [m1 e]. simpl in IH. by subst e.
Qed.

(** *** C15, C16, C46 *)

(** "abs/" resolves to the directory [abs] of package [g], for every leading
    part of [ws]. *)
Definition resolves_dirs (parse : resolver) (her : hinfo) (g : bytes) (ws : list bytes) : Prop :=
  forall vs, vs `prefix_of` ws -> vs <> [] ->
    parse her (abs_name vs ++ [slash]) = Some (Path g (abs_name vs)).

Lemma resolves_dirs_prefix parse her g ws vs :
  vs `prefix_of` ws -> resolves_dirs parse her g ws -> resolves_dirs parse her g vs.
Proof. intros Hp H us Hu. apply H. by etrans. Qed.

Definition dir_object (m : mem) (pt : path) (nm : bytes) (perm : N) (now : gotime) : Prop :=
  file_at m pt = Some (FObj (m_here m) (Details nm 0 perm now true JNull) pt [] zero_path None None).

Lemma file_at_store_same m f pt : file_at (store (alloc m f).1 pt (alloc m f).2) pt = Some f.
Proof. unfold file_at, store, alloc. simpl. rewrite lookup_insert. simpl. by rewrite lookup_insert. Qed.

Lemma file_at_store_other m f pt q : wf m -> q <> pt ->
  file_at (store (alloc m f).1 pt (alloc m f).2) q = file_at m q.
Proof.
  intros Hw Hne. unfold file_at, store, alloc. simpl. rewrite lookup_insert_ne by done.
  destruct (m_files m !! q) as [r|] eqn:E; [|done]. simpl.
  rewrite lookup_insert_ne; [done|]. pose proof (wf_files_lt m q r Hw E). lia.
Qed.

Lemma list_snoc_cases {A} (l : list A) : l = [] \/ exists l0 x, l = l0 ++ [x].
Proof. destruct l as [|x l _] using rev_ind; eauto. Qed.

Lemma prefix_snoc_inv {A} (l k : list A) x : l `prefix_of` k ++ [x] -> l = k ++ [x] \/ l `prefix_of` k.
Proof.
  intros [t Ht]. destruct (list_snoc_cases t) as [-> | (t0 & y & ->)].
  - left. by rewrite app_nil_r in Ht.
  - right. rewrite app_assoc in Ht. apply app_inj_tail in Ht as [-> _]. by exists t0.
Qed.

Lemma match_snoc {A B} (l : list A) x (a : B) b : match l ++ [x] with [] => a | _ :: _ => b end = b.
Proof. by destruct l. Qed.

Lemma abs_slash_not_root ws w : abs_name (ws ++ [w]) ++ [slash] <> B"/".
Proof.
  unfold abs_name. change (B"/") with [slash]. intros E. apply (f_equal length) in E.
  rewrite app_length in E. simpl in E. lia.
Qed.

Lemma mkdir_dirs parse g fuel now perm : forall gp ws w m p,
  wf m -> Forall good_elem ws -> good_elem w ->
  parse (m_here m) p = Some (Path gp (abs_name (ws ++ [w]))) ->
  resolves_dirs parse (m_here m) g ws -> length ws < fuel ->
  exists m', mkdir_all parse fuel now m p perm = (m', None) /\
    m_here m' = m_here m /\ m_infos m' = m_infos m /\ wf m' /\
    dir_object m' (Path gp (abs_name (ws ++ [w]))) w perm now /\
    (forall vs v, vs ++ [v] `prefix_of` ws ->
       dir_object m' (Path g (abs_name (vs ++ [v]))) v perm now) /\
    (forall q, q <> Path gp (abs_name (ws ++ [w])) ->
       (forall vs, vs `prefix_of` ws -> vs <> [] -> q <> Path g (abs_name vs)) ->
       file_at m' q = file_at m q).
Proof.
  induction fuel as [|fuel IH]; intros gp ws w m p Hw Hws Hgw Hp HR Hf; [lia|].
  cbn [mkdir_all]. unfold mem_parse. rewrite Hp. cbn [p_name]. rewrite path_split_snoc by done.
  destruct (list_snoc_cases ws) as [-> | (ws0 & w' & ->)].
  - rewrite bool_decide_eq_true_2 by done. cbn [app].
    eexists. split; [done|]. split; [done|]. split; [done|]. split; [by apply wf_alloc_store|].
    split; [apply file_at_store_same|]. split.
    + intros vs v Hpre. apply prefix_nil_inv in Hpre. by destruct vs.
    + intros q Hq _. by apply file_at_store_other.
  - rewrite match_snoc. rewrite bool_decide_eq_false_2 by apply abs_slash_not_root.
    pose proof Hws as Hws2.
    apply Forall_app in Hws as [Hws0 Hw']. apply Forall_cons in Hw' as [Hw' _].
    rewrite app_length in Hf. simpl in Hf.
    destruct (IH g ws0 w' m (abs_name (ws0 ++ [w']) ++ [slash]) Hw Hws0 Hw') as
      (m1 & -> & Hh1 & Hi1 & Hw1 & Ho1 & Hd1 & Hr1); [by apply HR; [|by destruct ws0]| |lia|].
    { eapply resolves_dirs_prefix; [|done]. by apply prefix_app_r. }
    eexists (store (alloc m1 _).1 _ (alloc m1 _).2). split; [reflexivity|].
    split; [done|]. split; [done|]. split; [by apply wf_alloc_store|].
    split; [apply file_at_store_same|]. split.
    + intros vs v Hpre. unfold dir_object. rewrite file_at_store_other; [|done|].
      * apply prefix_snoc_inv in Hpre as [Hpre|Hpre].
        -- apply app_inj_tail in Hpre as [-> ->]. exact Ho1.
        -- apply (Hd1 vs v Hpre).
      * intros E. apply (f_equal p_name) in E. apply abs_name_inj in E.
        -- apply prefix_length in Hpre. rewrite E in Hpre. rewrite !app_length in Hpre. simpl in Hpre. lia.
        -- destruct Hpre as [k Hk]. rewrite Hk in Hws2. by apply Forall_app in Hws2 as [? _].
        -- apply Forall_app. split; [done|by constructor].
    + intros q Hq Hq2. rewrite file_at_store_other by done. apply Hr1.
      * apply Hq2; [done|by destruct ws0].
      * intros vs Hvs. apply Hq2. by apply prefix_app_r.
Qed.
