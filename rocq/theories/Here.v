(** The vocabulary of github.com/gobuffalo/here v0.6.0 used by /repo
    (here/here.go:7-14 re-exports it; go.mod:6 pins it).

    The dependency's source is NOT in /repo.  [hinfo], [path], [path_string]
    follow the shapes visible in /repo (README.md's JSON listings,
    pkging/pkgtest/ref.go:49-61, pkger_test.go:10-44).  The path resolver
    [here.Info.Parse] is a parameter of every model below; [here_parse] is a
    concrete resolver written from memory of v0.6.0, used to show that the
    assumptions made about resolvers can be met and to state the results that
    depend on the resolver's details.  Such results say so. *)
From Verif Require Import Bytes GoPath.

(** here.Info with its here.Module inlined (README.md "pkger parse" listing;
    pkging/pkgtest/ref.go:50-60). *)
Record hinfo := HInfo {
  h_dir : bytes;         (* Info.Dir *)
  h_import : bytes;      (* Info.ImportPath *)
  h_name : bytes;        (* Info.Name *)
  h_mpath : bytes;       (* Info.Module.Path *)
  h_mmain : bool;        (* Info.Module.Main *)
  h_mdir : bytes;        (* Info.Module.Dir *)
  h_mgomod : bytes;      (* Info.Module.GoMod *)
  h_mgover : bytes       (* Info.Module.GoVersion *)
}.

(** here.Path{Pkg, Name} (README.md "Path" objects; pkger_test.go:15-16). *)
Record path := Path { p_pkg : bytes; p_name : bytes }.

Global Instance path_eq_dec : EqDecision path.
Proof. solve_decision. Defined.
Global Instance path_countable : Countable path.
Proof.
  refine (inj_countable' (fun p => (p_pkg p, p_name p)) (fun x => Path x.1 x.2) _).
  by intros [].
Defined.
Global Instance hinfo_eq_dec : EqDecision hinfo.
Proof. solve_decision. Defined.

(** here.Path.String: "pkg:name" (pkger_test.go:42 expects
    "github.com/markbates/pkger:/tmp/test.create"). *)
Definition path_string (p : path) : bytes :=
  let n := match p_name p with [] => B"/" | n => n end in
  match p_pkg p with
  | [] => n
  | g => g ++ colon :: n
  end.

(** A resolver: here.Info.Parse, [None] standing for a non-nil error. *)
Definition resolver := hinfo -> bytes -> option path.

(** ** The recalled resolver (trusted reading of gobuffalo/here v0.6.0) *)

(** unicode.IsSpace restricted to one-byte spaces (simplification: the
    multi-byte Unicode spaces that strings.TrimSpace also strips are kept). *)
Definition is_space (c : ascii) : bool :=
  let n := N_of_ascii c in
  (N.eqb n 32 || (N.leb 9 n && N.leb n 13))%N.

Fixpoint trim_left (s : bytes) : bytes :=
  match s with
  | c :: s' => if is_space c then trim_left s' else s
  | [] => []
  end.

(** strings.TrimSpace *)
Definition trim_space (s : bytes) : bytes := rev (trim_left (rev (trim_left s))).

Fixpoint span (f : ascii -> bool) (s : bytes) : bytes * bytes :=
  match s with
  | c :: s' => if f c then let '(a, b) := span f s' in (c :: a, b) else ([], s)
  | [] => ([], [])
  end.

Fixpoint drop_colons (s : bytes) : bytes :=
  match s with
  | c :: s' => if Ascii.eqb c colon then drop_colons s' else s
  | [] => []
  end.

(** Leftmost match of the regexp ([^:]+)(:(/.+))? : the package group and the
    name group. *)
Definition path_regexp (p : bytes) : option (bytes * bytes) :=
  match drop_colons p with
  | [] => None
  | q =>
      let '(pkg, rest) := span (fun c => negb (Ascii.eqb c colon)) q in
      let name :=
        match rest with
        | c1 :: c2 :: t =>
            if Ascii.eqb c1 colon && Ascii.eqb c2 slash then
              match span (fun c => negb (Ascii.eqb c newline)) t with
              | ([], _) => []
              | (x, _) => c2 :: x
              end
            else []
        | _ => []
        end in
      Some (pkg, name)
  end.

Definition here_build (her : hinfo) (pkg name : bytes) : path :=
  let '(pkg, name) :=
    match pkg with
    | [] => (h_mpath her, [])
    | c :: _ => if Ascii.eqb c slash then (h_mpath her, pkg) else (pkg, name)
    end in
  let name := match name with [] => B"/" | _ => name end in
  let '(pkg, name) :=
    if bool_decide (pkg = name) then (h_mpath her, B"/") else (pkg, name) in
  let name := if has_prefix name (B"/") then name else slash :: name in
  Path pkg (trim_prefix name (h_dir her)).

Definition here_parse : resolver := fun her p =>
  let p := trim_space p in
  let p := clean p in
  let p := trim_prefix p (h_dir her) in
  let p := replace_byte backslash slash p in
  let p := trim_space p in
  if bool_decide (p = []) || bool_decide (p = B":") || bool_decide (p = B".")
  then Some (here_build her [] [])
  else match path_regexp p with
       | None => None
       | Some (pkg, name) => Some (here_build her pkg name)
       end.

(** ** Laws a resolver may satisfy *)

(** A name that no spelling rule rewrites: absolute, clean, without
    backslashes, newlines, or a trailing space. *)
Definition plain_name (n : bytes) : Prop :=
  exists ws, Forall good_elem ws /\ n = abs_name ws /\
    backslash ∉ n /\ newline ∉ n /\
    (forall c, last n = Some c -> is_space c = false).

Definition plain_pkg (g : bytes) : Prop :=
  exists ws, ws <> [] /\ Forall good_elem ws /\ g = join_slash ws /\
    colon ∉ g /\ backslash ∉ g /\ newline ∉ g /\
    (forall c, head g = Some c -> is_space c = false).

(** The module directory is absolute (or unknown) and the name does not begin
    with it. *)
Definition dir_ok (her : hinfo) (n : bytes) : Prop :=
  h_dir her = [] \/ (is_rooted (h_dir her) = true /\ has_prefix n (h_dir her) = false).

(** A path whose printed form resolves back to it. *)
Definition canonical (her : hinfo) (pt : path) : Prop :=
  plain_pkg (p_pkg pt) /\ plain_name (p_name pt) /\ dir_ok her (p_name pt).

(** ** Lemmas about the recalled resolver *)

Lemma trim_left_id s : (forall c, head s = Some c -> is_space c = false) -> trim_left s = s.
Proof. destruct s as [|c s]; simpl; [done|]. intros H. by rewrite (H c). Qed.

Lemma trim_space_id s :
  (forall c, head s = Some c -> is_space c = false) ->
  (forall c, last s = Some c -> is_space c = false) -> trim_space s = s.
Proof.
  intros H1 H2. unfold trim_space. rewrite (trim_left_id s H1).
  rewrite trim_left_id; [apply rev_involutive|].
  intros c Hc. apply H2. rewrite <- Hc. clear.
  destruct s as [|x s] using rev_ind; [done|].
  rewrite rev_app_distr, last_snoc. done.
Qed.

Lemma replace_byte_id a b s : a ∉ s -> replace_byte a b s = s.
Proof.
  induction s as [|c s IH]; simpl; [done|]. rewrite not_elem_of_cons. intros [Hc Hs].
  destruct (Ascii.eqb_spec c a); [congruence|]. by rewrite IH.
Qed.

Lemma span_all (f : ascii -> bool) s : Forall (fun c => f c = true) s -> span f s = (s, []).
Proof.
  induction s as [|c s IH]; simpl; [done|]. intros HF.
  apply Forall_cons in HF as [Hc HF]. by rewrite Hc, (IH HF).
Qed.

Lemma span_stop (f : ascii -> bool) s c t :
  Forall (fun c => f c = true) s -> f c = false -> span f (s ++ c :: t) = (s, c :: t).
Proof.
  induction s as [|d s IH]; simpl.
  - intros _ ->. done.
  - intros HF Hc. apply Forall_cons in HF as [Hd HF]. by rewrite Hd, (IH HF Hc).
Qed.

Lemma not_elem_forall (a : ascii) s :
  a ∉ s -> Forall (fun c => negb (Ascii.eqb c a) = true) s.
Proof.
  induction s as [|c s IH]; [constructor|]. rewrite not_elem_of_cons. intros [Hc Hs].
  constructor; [|by apply IH]. apply negb_true_iff, Ascii.eqb_neq. congruence.
Qed.

Lemma drop_colons_id s : head s <> Some colon -> drop_colons s = s.
Proof.
  destruct s as [|c s]; simpl; [done|]. intros H.
  destruct (Ascii.eqb_spec c colon); [congruence|done].
Qed.

Lemma fold_clean_unrooted_good ws :
  Forall good_elem ws -> fold_left (clean_step false) ws [] = rev ws.
Proof. intros H. rewrite fold_clean_good by done. apply app_nil_r. Qed.

Lemma join_slash_rooted ws : Forall good_elem ws -> is_rooted (join_slash ws) = false.
Proof.
  destruct ws as [|w ws]; [done|]. intros HF. apply Forall_cons in HF as [Hw _].
  destruct Hw as (Hn&_&_&Hs). destruct w as [|c w]; [done|].
  assert (c <> slash) by (intros ->; apply Hs; constructor).
  destruct ws; simpl; by apply Ascii.eqb_neq.
Qed.

Lemma clean_join_good ws :
  ws <> [] -> Forall good_elem ws -> clean (join_slash ws) = join_slash ws.
Proof.
  intros Hn HF. assert (Hj : join_slash ws <> []).
  { intros E. by apply Hn, join_slash_nil_inv. }
  unfold clean. destruct (join_slash ws) as [|c s] eqn:E; [done|].
  rewrite <- E. rewrite (join_slash_rooted ws HF). unfold clean_elems.
  rewrite (join_slash_rooted ws HF), split_join by (done || by apply good_noslash).
  rewrite fold_clean_unrooted_good by done. rewrite rev_involutive. by destruct ws.
Qed.

Lemma good_elem_colon w : good_elem w -> colon ∉ w -> good_elem (w ++ [colon]).
Proof.
  intros (H1&H2&H3&H4) Hc. repeat split.
  - by destruct w.
  - intros E. destruct w as [|a [|b w]]; [done|..]; inversion E.
  - intros E. destruct w as [|a [|b [|d w]]]; [done|..]; inversion E.
  - rewrite elem_of_app, elem_of_list_singleton. intros [?|?]; [done|discriminate].
Qed.

Lemma join_slash_snoc_app ws w x : join_slash (ws ++ [w]) ++ x = join_slash (ws ++ [w ++ x]).
Proof.
  induction ws as [|v ws IH]; [done|]. destruct ws as [|u ws].
  - simpl. by rewrite <- app_assoc.
  - change (join_slash ((v :: u :: ws) ++ [w])) with (v ++ slash :: join_slash ((u :: ws) ++ [w])).
    change (join_slash ((v :: u :: ws) ++ [w ++ x])) with (v ++ slash :: join_slash ((u :: ws) ++ [w ++ x])).
    rewrite <- IH, <- app_assoc. done.
Qed.

Lemma head_join ws : Forall good_elem ws -> ws <> [] -> exists c s, join_slash ws = c :: s /\ c <> slash.
Proof.
  intros HF Hn. pose proof (join_slash_rooted ws HF) as Hr.
  destruct (join_slash ws) as [|c s] eqn:E.
  - by apply join_slash_nil_inv in E.
  - exists c, s. split; [done|]. simpl in Hr. by apply Ascii.eqb_neq.
Qed.

Lemma elem_snd_split (ws : list bytes) (w : bytes) c : c ∉ join_slash (ws ++ [w]) -> c ∉ w.
Proof.
  induction ws as [|v ws IH]; [done|]. intros H. apply IH.
  destruct ws as [|u ws]; simpl in *;
  rewrite elem_of_app, elem_of_cons in H; tauto.
Qed.

Lemma here_build_qualified her (g nm : bytes) ws c s :
  g = c :: s -> c <> slash -> (nm = abs_name ws \/ nm = [] /\ ws = []) ->
  dir_ok her (abs_name ws) ->
  here_build her g nm = Path g (abs_name ws).
Proof.
  intros Ec Hc Hnm Hdir. unfold here_build. rewrite Ec.
  destruct (Ascii.eqb_spec c slash) as [?|_]; [done|].
  assert (Hm : (match nm with [] => B"/" | _ => nm end) = abs_name ws).
  { destruct Hnm as [->|[-> ->]]; done. }
  rewrite Hm.
  rewrite bool_decide_eq_false_2 by (intros E; apply (f_equal head) in E; cbn in E; congruence).
  change (has_prefix (abs_name ws) (B"/")) with true. cbv iota.
  f_equal. destruct Hdir as [->|[_ Hp]]; [apply trim_prefix_nil|by apply trim_prefix_no].
Qed.

(** The recalled resolver maps the printed form of a canonical path to it. *)
Lemma here_parse_canonical her pt :
  canonical her pt -> here_parse her (path_string pt) = Some pt.
Proof.
  destruct pt as [g n]. unfold canonical. cbn [p_pkg p_name].
  intros ((gs & Hgn & Hgs & -> & Hgc & Hgb & Hgl & Hgh) &
    (ws & Hws & -> & Hnb & Hnl & Hns) & Hdir). cbn [p_pkg p_name] in *.
  destruct (head_join gs Hgs Hgn) as (c & s & Ec & Hc).
  assert (HPS : path_string (Path (join_slash gs) (abs_name ws)) =
    join_slash gs ++ colon :: slash :: join_slash ws).
  { unfold path_string. cbn [p_pkg p_name]. rewrite Ec. done. }
  rewrite HPS. clear HPS.
  set (P := join_slash gs ++ colon :: slash :: join_slash ws).
  assert (HheadP : head P = Some c) by (unfold P; by rewrite Ec).
  assert (HlastP : last P = last (abs_name ws)).
  { unfold P, abs_name. change (colon :: slash :: join_slash ws) with ([colon] ++ slash :: join_slash ws).
    rewrite app_assoc. apply last_app_cons. }
  assert (Hsp : is_space c = false) by (apply Hgh; by rewrite Ec).
  (* the cleaned string *)
  destruct gs as [|g1 gs' ] using rev_ind; [done|]. clear IHgs'.
  rename gs' into g0.
  assert (Hg1 : colon ∉ g1) by (by apply (elem_snd_split g0)).
  apply Forall_app in Hgs as [Hg0 Hg1g]. apply Forall_cons in Hg1g as [Hg1g _].
  assert (Hgood : Forall good_elem (g0 ++ [g1 ++ [colon]])).
  { apply Forall_app. split; [done|]. constructor; [by apply good_elem_colon|constructor]. }
  assert (HP : P = join_slash (g0 ++ [g1 ++ [colon]]) ++ slash :: join_slash ws).
  { unfold P. rewrite <- join_slash_snoc_app, <- app_assoc. done. }
  assert (Hclean : clean P = match ws with [] => join_slash (g0 ++ [g1 ++ [colon]]) | _ => P end).
  { rewrite HP. destruct ws as [|w ws].
    - simpl. change [slash] with (slash :: @nil ascii).
      unfold clean. destruct (join_slash (g0 ++ [g1 ++ [colon]]) ++ [slash]) as [|x y] eqn:E.
      + apply app_nil in E as [_ E]. discriminate.
      + rewrite <- E. clear x y E.
        assert (Hr : is_rooted (join_slash (g0 ++ [g1 ++ [colon]]) ++ [slash]) = false).
        { destruct (head_join _ Hgood) as (x & y & E & Hx); [by destruct g0|].
          rewrite E. simpl. by apply Ascii.eqb_neq. }
        rewrite Hr. unfold clean_elems. rewrite Hr.
        change [slash] with (slash :: @nil ascii).
        rewrite split_app_general, fold_left_app.
        rewrite split_join; [|by destruct g0|by apply good_noslash].
        rewrite fold_clean_unrooted_good by done. simpl. rewrite clean_step_nil.
        rewrite rev_involutive. by destruct g0.
    - rewrite <- join_slash_app by (done || by destruct g0).
      rewrite clean_join_good; [done|by destruct g0|].
      apply Forall_app. done. }
  unfold here_parse.
  rewrite (trim_space_id P); [|by intros x Hx; rewrite HheadP in Hx; injection Hx as <-|
    intros x Hx; rewrite HlastP in Hx; by apply Hns].
  rewrite Hclean.
  set (Q := match ws with [] => join_slash (g0 ++ [g1 ++ [colon]]) | _ => P end).
  assert (HheadQ : head Q = Some c).
  { unfold Q. destruct ws; [|done]. rewrite <- join_slash_snoc_app, Ec. done. }
  assert (HlastQ : forall x, last Q = Some x -> is_space x = false).
  { unfold Q. destruct ws as [|w ws].
    - rewrite <- join_slash_snoc_app, last_snoc. intros x [= <-]. done.
    - rewrite HlastP. exact Hns. }
  assert (Htrim : trim_prefix Q (h_dir her) = Q).
  { destruct Hdir as [->|[Hr _]]; [apply trim_prefix_nil|].
    apply trim_prefix_no. revert HheadQ. generalize Q as R. intros R HheadQ.
    destruct (h_dir her) as [|d dd]; [done|].
    simpl in Hr. apply ascii_eqb_spec in Hr as ->.
    destruct R as [|q Q']; [done|]. injection HheadQ as ->. cbn [has_prefix].
    apply andb_false_iff. left. apply Ascii.eqb_neq. congruence. }
  rewrite Htrim.
  assert (HbsQ : backslash ∉ Q).
  { assert (HbP : backslash ∉ P).
    { unfold P. rewrite elem_of_app, elem_of_cons. intros [?|[?|?]]; [done|discriminate|done]. }
    unfold Q. destruct ws; [|done]. rewrite <- join_slash_snoc_app.
    rewrite elem_of_app, elem_of_list_singleton. intros [?|?]; [done|discriminate]. }
  rewrite (replace_byte_id _ _ Q HbsQ).
  rewrite (trim_space_id Q); [|by intros x Hx; rewrite HheadQ in Hx; injection Hx as <-|done].
  assert (Hccol : c <> colon).
  { intros ->. apply Hgc. rewrite Ec. constructor. }
  assert (HQ2 : exists r, Q = join_slash (g0 ++ [g1]) ++ colon :: r /\
     r = match ws with [] => [] | _ => abs_name ws end).
  { unfold Q. destruct ws as [|w ws].
    - exists []. by rewrite <- join_slash_snoc_app.
    - exists (abs_name (w :: ws)). done. }
  destruct HQ2 as (r & HQ & Hr). clearbody Q. clear Hclean.
  rewrite bool_decide_eq_false_2 by (rewrite HQ, Ec; done).
  rewrite bool_decide_eq_false_2 by (rewrite HQ, Ec; intros [= ? ?]; destruct s; done).
  rewrite bool_decide_eq_false_2 by (rewrite HQ, Ec; intros [= ? ?]; destruct s; done).
  simpl orb. cbv iota.
  unfold path_regexp. rewrite drop_colons_id by (rewrite HheadQ; congruence).
  destruct Q as [|q Q'] eqn:EQ; [done|]. rewrite HQ. clear EQ.
  rewrite span_stop; [| by apply not_elem_forall | by vm_compute].
  assert (Hbuild : here_build her (join_slash (g0 ++ [g1])) (match ws with [] => [] | _ => abs_name ws end)
     = Path (join_slash (g0 ++ [g1])) (abs_name ws)).
  { apply (here_build_qualified her _ _ ws c s Ec Hc); [destruct ws; [by right|by left]|done]. }
  rewrite Hr. destruct ws as [|w ws].
  - f_equal. exact Hbuild.
  - unfold abs_name at 1. change (Ascii.eqb colon colon) with true.
    change (Ascii.eqb slash slash) with true. cbv iota. simpl andb. cbv iota.
    assert (Hj : newline ∉ join_slash (w :: ws)).
    { intros Hin. apply Hnl. unfold abs_name. by constructor. }
    rewrite span_all by (by apply not_elem_forall).
    destruct (join_slash (w :: ws)) as [|x y] eqn:E.
    + by apply join_slash_nil_inv in E.
    + f_equal. etransitivity; [|exact Hbuild]. f_equal. unfold abs_name. by rewrite E.
Qed.

(** The plain spelling "/name" resolves to the current module. *)
Lemma here_parse_plain her n :
  plain_name n -> dir_ok her n -> colon ∉ n -> h_mpath her <> n ->
  here_parse her n = Some (Path (h_mpath her) n).
Proof.
  intros (ws & Hws & -> & Hnb & Hnl & Hns) Hdir Hc Hmp.
  unfold here_parse.
  rewrite (trim_space_id (abs_name ws)) by (done || by intros c [= <-]).
  rewrite clean_abs by done.
  assert (Ht : trim_prefix (abs_name ws) (h_dir her) = abs_name ws).
  { destruct Hdir as [->|[_ Hp]]; [apply trim_prefix_nil|by apply trim_prefix_no]. }
  rewrite Ht, replace_byte_id by done.
  rewrite (trim_space_id (abs_name ws)) by (done || by intros c [= <-]).
  rewrite !bool_decide_eq_false_2 by (done || unfold abs_name; intros [= ?]).
  simpl orb. cbv iota. unfold path_regexp.
  rewrite drop_colons_id by done.
  destruct (abs_name ws) as [|a n'] eqn:E; [done|]. rewrite <- E in *. clear a n' E.
  rewrite span_all by (by apply not_elem_forall).
  f_equal. unfold here_build.
  unfold abs_name at 1. change (Ascii.eqb slash slash) with true. cbv beta iota.
  rewrite bool_decide_eq_false_2 by done.
  change (has_prefix (abs_name ws) (B"/")) with true. cbv iota. f_equal. exact Ht.
Qed.

(** Tests of the recalled resolver against the evidence in /repo. *)
Definition her_ex : hinfo :=
  HInfo (B"/src/app") (B"app") (B"app") (B"app") true (B"/src/app") (B"/src/app/go.mod") (B"1.13").

(* pkger_test.go:13-16 *)
Example parse_ex1 : here_parse her_ex (B"github.com/rocket/ship:/little")
  = Some (Path (B"github.com/rocket/ship") (B"/little")). Proof. by vm_compute. Qed.
(* pkging/pkgtest/open.go:28 opens "//go.mod" *)
Example parse_ex2 : here_parse her_ex (B"//go.mod") = Some (Path (B"app") (B"/go.mod")).
Proof. by vm_compute. Qed.
(* pkging/mem/file_test.go:20 *)
Example parse_ex3 : here_parse her_ex (B":/wilco.band") = Some (Path (B"app") (B"/wilco.band")).
Proof. by vm_compute. Qed.
(* pkging/mem/add.go:22 parses absolute file names *)
Example parse_ex4 : here_parse her_ex (B"/src/app/public/a") = Some (Path (B"app") (B"/public/a")).
Proof. by vm_compute. Qed.
Example parse_ex5 : here_parse her_ex (B"app:/") = Some (Path (B"app") (B"/")).
Proof. by vm_compute. Qed.
Example parse_ex6 : here_parse her_ex (B"/a\..\..\b") = Some (Path (B"app") (B"/a/../../b")).
Proof. by vm_compute. Qed.
Example parse_ex7 : here_parse her_ex (B"::") = None.
Proof. by vm_compute. Qed.
