(** Go's lexical path functions ([path] and, on Unix, [path/filepath]).

    Standard-library code, not in /repo: written from the documented algorithm
    of Go 1.13.  Call sites in /repo: path.Split mem.go:131, path.Join
    file.go:180 and stdos/file.go:48, filepath.Join stdos.go:43,94,109,148,170,
    207,222 parser/include.go:35 parser/open.go:58 parser/source.go:191
    parser/walk.go:59, filepath.Dir mem.go:100, filepath.Base mem.go:112,
    parser/parser.go:202; filepath.Clean inside here.Info.Parse. *)
From Verif Require Import Bytes.

(** Split on '/': ["a/b"] -> [["a"];["b"]]; never empty. *)
Fixpoint split_slash (s : bytes) : list bytes :=
  match s with
  | [] => [[]]
  | c :: s' =>
      if Ascii.eqb c slash then [] :: split_slash s'
      else match split_slash s' with
           | [] => [[c]]
           | w :: ws => (c :: w) :: ws
           end
  end.

Fixpoint join_slash (ws : list bytes) : bytes :=
  match ws with
  | [] => []
  | [w] => w
  | w :: ws' => w ++ slash :: join_slash ws'
  end.

Definition dot : bytes := B".".
Definition dotdot : bytes := B"..".

Definition is_rooted (s : bytes) : bool :=
  match s with c :: _ => Ascii.eqb c slash | [] => false end.

(** One element of path.Clean's loop.  [out] is the output stack, innermost
    element first. *)
Definition clean_step (rooted : bool) (out : list bytes) (w : bytes) : list bytes :=
  if bool_decide (w = []) || bool_decide (w = dot) then out
  else if bool_decide (w = dotdot) then
    match out with
    | [] => if rooted then [] else [dotdot]
    | t :: out' => if bool_decide (t = dotdot) then dotdot :: out else out'
    end
  else w :: out.

Definition clean_elems (s : bytes) : list bytes :=
  rev (fold_left (clean_step (is_rooted s)) (split_slash s) []).

(** path.Clean / filepath.Clean *)
Definition clean (s : bytes) : bytes :=
  match s with
  | [] => dot
  | _ =>
      let ws := clean_elems s in
      if is_rooted s then slash :: join_slash ws
      else match ws with [] => dot | _ => join_slash ws end
  end.

(** path.Join / filepath.Join with two elements *)
Definition join2 (a b : bytes) : bytes :=
  match a, b with
  | [], [] => []
  | [], _ => clean b
  | _, _ => clean (a ++ slash :: b)
  end.

(** path.Split: directory part up to and including the last slash. *)
Fixpoint split_last (s : bytes) : option (bytes * bytes) :=
  match s with
  | [] => None
  | c :: s' =>
      match split_last s' with
      | Some (d, f) => Some (c :: d, f)
      | None => if Ascii.eqb c slash then Some ([c], s') else None
      end
  end.

Definition path_split (s : bytes) : bytes * bytes :=
  match split_last s with Some r => r | None => ([], s) end.

Fixpoint drop_slashes (s : bytes) : bytes :=
  match s with
  | c :: s' => if Ascii.eqb c slash then drop_slashes s' else s
  | [] => []
  end.

(** filepath.Base *)
Definition base (s : bytes) : bytes :=
  match s with
  | [] => dot
  | _ =>
      let s1 := rev (drop_slashes (rev s)) in
      match snd (path_split s1) with
      | [] => B"/"
      | f => f
      end
  end.

(** filepath.Dir *)
Definition dirname (s : bytes) : bytes := clean (fst (path_split s)).

(** ** Specification of absolute clean names *)

(** A good path element: not empty, not "." or "..", and without a slash. *)
Definition good_elem (w : bytes) : Prop :=
  w <> [] /\ w <> dot /\ w <> dotdot /\ slash ∉ w.

(** The absolute name with the given elements: [abs_name [a;b]] is "/a/b". *)
Definition abs_name (ws : list bytes) : bytes := slash :: join_slash ws.

(** ** Lemmas *)

Lemma split_slash_nonnil s : split_slash s <> [].
Proof. destruct s as [|c s]; simpl; [done|]. destruct (Ascii.eqb c slash); [done|].
  by destruct (split_slash s). Qed.

Lemma split_slash_noslash w : slash ∉ w -> split_slash w = [w].
Proof.
  induction w as [|c w IH]; simpl; [done|]. rewrite not_elem_of_cons.
  intros [Hc Hw]. destruct (Ascii.eqb_spec c slash) as [->|_]; [done|].
  by rewrite (IH Hw).
Qed.

Lemma split_slash_app w s :
  slash ∉ w -> split_slash (w ++ slash :: s) = w :: split_slash s.
Proof.
  induction w as [|c w IH]; simpl; [done|]. rewrite not_elem_of_cons.
  intros [Hc Hw]. destruct (Ascii.eqb_spec c slash) as [->|_]; [done|].
  by rewrite (IH Hw).
Qed.

Lemma split_join ws :
  ws <> [] -> Forall (fun w => slash ∉ w) ws -> split_slash (join_slash ws) = ws.
Proof.
  induction ws as [|w ws IH]; [done|]. intros _ HF.
  apply Forall_cons in HF as [Hw HF]. destruct ws as [|w' ws].
  - simpl. by apply split_slash_noslash.
  - change (join_slash (w :: w' :: ws)) with (w ++ slash :: join_slash (w' :: ws)).
    rewrite split_slash_app by done. rewrite IH; done.
Qed.

Lemma join_split s : join_slash (split_slash s) = s.
Proof.
  induction s as [|c s IH]; simpl; [done|].
  pose proof (split_slash_nonnil s) as Hn.
  destruct (Ascii.eqb_spec c slash) as [->|Hc].
  - destruct (split_slash s) as [|w ws]; [done|]. simpl in *. by rewrite IH.
  - destruct (split_slash s) as [|w ws]; [done|].
    destruct ws; simpl in *; by rewrite <- IH.
Qed.

Lemma split_slash_elems s : Forall (fun w => slash ∉ w) (split_slash s).
Proof.
  induction s as [|c s IH]; simpl.
  - constructor; [apply not_elem_of_nil|constructor].
  - destruct (Ascii.eqb_spec c slash) as [->|Hc].
    + constructor; [apply not_elem_of_nil|done].
    + destruct (split_slash s) as [|w ws].
      * constructor; [|constructor]. rewrite elem_of_list_singleton. congruence.
      * apply Forall_cons in IH as [Hw HF]. constructor; [|done].
        rewrite not_elem_of_cons. split; [congruence|done].
Qed.

Lemma split_app_general a s : split_slash (a ++ slash :: s) = split_slash a ++ split_slash s.
Proof.
  induction a as [|c a IH]; simpl; [done|].
  destruct (Ascii.eqb_spec c slash) as [->|Hc]; [by rewrite IH|].
  rewrite IH. pose proof (split_slash_nonnil a).
  destruct (split_slash a); done.
Qed.

Lemma clean_step_good r out w : good_elem w -> clean_step r out w = w :: out.
Proof.
  intros (H1 & H2 & H3 & _). unfold clean_step.
  rewrite !bool_decide_eq_false_2 by done. done.
Qed.

Lemma fold_clean_good r ws out :
  Forall good_elem ws -> fold_left (clean_step r) ws out = rev ws ++ out.
Proof.
  revert out; induction ws as [|w ws IH]; intros out HF; simpl; [done|].
  apply Forall_cons in HF as [Hw HF]. rewrite clean_step_good by done.
  rewrite (IH _ HF). by rewrite <- app_assoc.
Qed.

Lemma good_noslash ws : Forall good_elem ws -> Forall (fun w => slash ∉ w) ws.
Proof. intros H. eapply Forall_impl; [exact H|]. intros w (_&_&_&?). done. Qed.

Lemma clean_step_nil r out : clean_step r out [] = out.
Proof. done. Qed.

Lemma clean_elems_abs ws : Forall good_elem ws -> clean_elems (abs_name ws) = ws.
Proof.
  intros HF. unfold clean_elems, abs_name.
  change (is_rooted (slash :: join_slash ws)) with true.
  change (slash :: join_slash ws) with ([] ++ slash :: join_slash ws).
  rewrite split_slash_app by apply not_elem_of_nil. simpl fold_left.
  rewrite clean_step_nil.
  destruct ws as [|w ws]; [done|].
  rewrite split_join; [|done|by apply good_noslash].
  rewrite fold_clean_good by done. rewrite app_nil_r. apply rev_involutive.
Qed.

(** Clean is the identity on clean absolute names. *)
Lemma clean_abs ws : Forall good_elem ws -> clean (abs_name ws) = abs_name ws.
Proof.
  intros HF. unfold clean. fold (abs_name ws).
  change (match abs_name ws with [] => dot | _ :: _ =>
     let ws0 := clean_elems (abs_name ws) in
     if is_rooted (abs_name ws) then slash :: join_slash ws0
     else match ws0 with [] => dot | _ => join_slash ws0 end end)
   with (slash :: join_slash (clean_elems (abs_name ws))).
  by rewrite clean_elems_abs.
Qed.

(** Invariant of Clean's output stack for rooted paths: only good elements. *)
Lemma fold_clean_rooted ws out :
  Forall (fun w => slash ∉ w) ws -> Forall good_elem out ->
  Forall good_elem (fold_left (clean_step true) ws out).
Proof.
  revert out; induction ws as [|w ws IH]; intros out HF Ho; simpl; [done|].
  apply Forall_cons in HF as [Hw HF]. apply IH; [done|].
  unfold clean_step. destruct (bool_decide (w = [])) eqn:E1; simpl; [done|].
  destruct (bool_decide (w = dot)) eqn:E2; simpl; [done|].
  destruct (bool_decide (w = dotdot)) eqn:E3.
  - destruct out as [|t out]; [constructor|].
    apply Forall_cons in Ho as [Ht Ho].
    rewrite bool_decide_eq_false_2; [done|]. by destruct Ht as (_&_&?&_).
  - apply bool_decide_eq_false in E1, E2, E3. constructor; [|done]. done.
Qed.

(** Clean of a rooted path is always a clean absolute name: no "..", no "." *)
Lemma clean_rooted s : is_rooted s = true ->
  exists ws, Forall good_elem ws /\ clean s = abs_name ws.
Proof.
  intros Hr. exists (clean_elems s). split.
  - unfold clean_elems. rewrite Hr. apply Forall_rev, fold_clean_rooted;
      [apply split_slash_elems | constructor].
  - unfold clean. destruct s as [|c s]; [done|]. by rewrite Hr.
Qed.

Lemma is_rooted_abs ws : is_rooted (abs_name ws) = true.
Proof. done. Qed.

Lemma abs_name_nonnil ws : abs_name ws <> [].
Proof. done. Qed.

Lemma join_slash_nil_inv ws : Forall good_elem ws -> join_slash ws = [] -> ws = [].
Proof.
  destruct ws as [|w ws]; [done|]. intros HF H. apply Forall_cons in HF as [(Hw&_) _].
  destruct ws; simpl in H; [done|]. by destruct w.
Qed.

Lemma abs_name_inj ws vs :
  Forall good_elem ws -> Forall good_elem vs -> abs_name ws = abs_name vs -> ws = vs.
Proof.
  intros H1 H2 E. rewrite <- (clean_elems_abs ws), <- (clean_elems_abs vs) by done.
  by rewrite E.
Qed.

Lemma join_slash_app ws vs :
  ws <> [] -> vs <> [] -> join_slash (ws ++ vs) = join_slash ws ++ slash :: join_slash vs.
Proof.
  intros H1 H2. induction ws as [|w ws IH]; [done|]. destruct ws as [|w' ws].
  - simpl. destruct vs; done.
  - change (join_slash ((w :: w' :: ws) ++ vs)) with
      (w ++ slash :: join_slash ((w' :: ws) ++ vs)).
    rewrite IH by done. change (join_slash (w :: w' :: ws)) with
      (w ++ slash :: join_slash (w' :: ws)).
    by rewrite <- app_assoc.
Qed.

Lemma split_last_none s : slash ∉ s -> split_last s = None.
Proof.
  induction s as [|c s IH]; simpl; [done|]. rewrite not_elem_of_cons. intros [Hc Hs].
  rewrite (IH Hs). destruct (Ascii.eqb_spec c slash); [congruence|done].
Qed.

Lemma split_last_app d f : slash ∉ f -> split_last (d ++ slash :: f) = Some (d ++ [slash], f).
Proof.
  intros Hf. induction d as [|c d IH]; simpl.
  - by rewrite split_last_none.
  - by rewrite IH.
Qed.

Lemma path_split_app d f : slash ∉ f -> path_split (d ++ slash :: f) = (d ++ [slash], f).
Proof. intros Hf. unfold path_split. by rewrite split_last_app. Qed.

Lemma path_split_root : path_split (B"/") = (B"/", []).
Proof. done. Qed.

(** path.Split of "/a/../w" *)
Lemma path_split_snoc ws w :
  good_elem w ->
  path_split (abs_name (ws ++ [w])) =
    (match ws with [] => B"/" | _ => abs_name ws ++ [slash] end, w).
Proof.
  intros (_&_&_&Hw). unfold abs_name. destruct ws as [|v ws].
  - simpl. change (slash :: w) with ([] ++ slash :: w). by rewrite path_split_app.
  - rewrite join_slash_app by done. simpl (join_slash [w]).
    change (slash :: join_slash (v :: ws) ++ slash :: w)
      with ((slash :: join_slash (v :: ws)) ++ slash :: w).
    by rewrite path_split_app.
Qed.

Lemma clean_trailing ws :
  Forall good_elem ws -> clean (abs_name ws ++ [slash]) = abs_name ws.
Proof.
  intros HF. unfold clean.
  assert (Hc : clean_elems (abs_name ws ++ [slash]) = ws).
  { unfold clean_elems. change (is_rooted (abs_name ws ++ [slash])) with true.
    change (abs_name ws ++ [slash]) with (abs_name ws ++ slash :: []).
    rewrite split_app_general, fold_left_app. simpl.
    rewrite clean_step_nil. fold (clean_elems (abs_name ws)).
    pose proof (clean_elems_abs ws HF) as H. unfold clean_elems in H.
    change (is_rooted (abs_name ws)) with true in H. exact H. }
  rewrite Hc. done.
Qed.

Lemma dirname_snoc ws w :
  Forall good_elem ws -> good_elem w -> dirname (abs_name (ws ++ [w])) = abs_name ws.
Proof.
  intros HF Hw. unfold dirname. rewrite path_split_snoc by done. cbn [fst].
  destruct ws as [|v ws]; [done|]. by apply clean_trailing.
Qed.

(** Joining a clean directory with any dot-dot free absolute name stays below
    the directory. *)
Lemma clean_join_abs ds ws :
  Forall good_elem ds -> Forall good_elem ws ->
  join2 (abs_name ds) (abs_name ws) = abs_name (ds ++ ws).
Proof.
  intros Hd Hw. unfold join2.
  change (match abs_name ds with [] => _ | _ => clean (abs_name ds ++ slash :: abs_name ws) end)
    with (clean (abs_name ds ++ slash :: abs_name ws)).
  unfold clean.
  assert (Hc : clean_elems (abs_name ds ++ slash :: abs_name ws) = ds ++ ws).
  { unfold clean_elems.
    change (is_rooted (abs_name ds ++ slash :: abs_name ws)) with true.
    rewrite split_app_general, fold_left_app.
    pose proof (clean_elems_abs ds Hd) as H1. pose proof (clean_elems_abs ws Hw) as H2.
    unfold clean_elems in H1, H2.
    change (is_rooted (abs_name ds)) with true in H1.
    change (is_rooted (abs_name ws)) with true in H2.
    assert (H1' : fold_left (clean_step true) (split_slash (abs_name ds)) [] = rev ds).
    { by rewrite <- (rev_involutive (fold_left _ _ _)), H1. }
    rewrite H1'.
    assert (Hs : split_slash (abs_name ws) = [] :: split_slash (join_slash ws)).
    { unfold abs_name. change (slash :: join_slash ws) with ([] ++ slash :: join_slash ws).
      by rewrite split_slash_app by apply not_elem_of_nil. }
    rewrite Hs. simpl. rewrite clean_step_nil. destruct ws as [|w ws].
    - simpl. rewrite clean_step_nil, app_nil_r. apply rev_involutive.
    - rewrite split_join; [|done|by apply good_noslash].
      rewrite fold_clean_good by done. rewrite rev_app_distr, !rev_involutive. done. }
  rewrite Hc. done.
Qed.

Lemma base_snoc ws w : good_elem w -> base (abs_name (ws ++ [w])) = w.
Proof.
  intros Hw. pose proof Hw as (Hn&_&_&Hs).
  unfold base. assert (Hd : drop_slashes (rev (abs_name (ws ++ [w]))) = rev (abs_name (ws ++ [w]))).
  { assert (He : exists p, abs_name (ws ++ [w]) = p ++ w).
    { unfold abs_name. destruct ws as [|v ws]; [by exists [slash]|].
      rewrite join_slash_app by done. simpl (join_slash [w]).
      exists (slash :: join_slash (v :: ws) ++ [slash]). simpl.
      by rewrite <- app_assoc. }
    destruct He as [p ->]. rewrite rev_app_distr.
    destruct w as [|c w] using rev_ind; [done|]. rewrite rev_app_distr. simpl.
    destruct (Ascii.eqb_spec c slash) as [->|]; [|done].
    exfalso. apply Hs. apply elem_of_app. right. by apply elem_of_list_singleton. }
  change (match abs_name (ws ++ [w]) with [] => dot | _ :: _ =>
     let s1 := rev (drop_slashes (rev (abs_name (ws ++ [w])))) in
     match (path_split s1).2 with [] => B"/" | f => f end end)
  with (match (path_split (rev (drop_slashes (rev (abs_name (ws ++ [w])))))).2 with [] => B"/" | f => f end).
  rewrite Hd, rev_involutive, path_split_snoc by done. simpl. by destruct w.
Qed.

(** Examples (tests of the definitions). *)
Example clean_ex1 : clean (B"/a/../../b//./c/") = B"/b/c". Proof. by vm_compute. Qed.
Example clean_ex2 : clean (B"../a/../../b") = B"../../b". Proof. by vm_compute. Qed.
Example clean_ex3 : clean (B"a/..") = B".". Proof. by vm_compute. Qed.
Example clean_ex4 : clean (B"//go.mod") = B"/go.mod". Proof. by vm_compute. Qed.
Example join_ex : join2 (B"/public") (B"/x/../../y") = B"/y". Proof. by vm_compute. Qed.
Example base_ex : base (B":/wilco.band") = B"wilco.band". Proof. by vm_compute. Qed.
Example dir_ex : dirname (B"/a/b/c") = B"/a/b". Proof. by vm_compute. Qed.
Example split_ex : path_split (B"/a/b") = (B"/a/", B"b"). Proof. by vm_compute. Qed.

Lemma abs_name_prefix ws vs : has_prefix (abs_name (ws ++ vs)) (abs_name ws) = true.
Proof.
  unfold abs_name. apply has_prefix_spec.
  destruct vs as [|v vs]; [exists []; by rewrite !app_nil_r|].
  destruct ws as [|w ws]; [by eexists|].
  exists (slash :: join_slash (v :: vs)). rewrite join_slash_app by done. done.
Qed.

(** Deciding [good_elem] on literals. *)
Lemma good_elem_dec_ok w :
  negb (bool_decide (w = [])) && negb (bool_decide (w = dot)) && negb (bool_decide (w = dotdot))
   && negb (bool_decide (slash ∈ w)) = true -> good_elem w.
Proof.
  rewrite !andb_true_iff, !negb_true_iff, !bool_decide_eq_false. unfold good_elem. tauto.
Qed.
Ltac good := repeat constructor; apply good_elem_dec_ok; by vm_compute.
