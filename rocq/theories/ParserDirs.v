(** Model of the parser's walk over the module's directories,
    /repo/parser/parser.go:175-242, and of NewInclude (include.go:21-47).

    [pdir] stands for what the callback does with one directory: ParseDir and
    DeclsMap of each of its sources (parser.go:78-126, 215-228): the
    declarations found there, or an error. *)
From Verif Require Import Bytes GoPath Here GoTypes WalkSpec Disk Decls.

(** parser.go:17 *)
Definition ignored_prefixes : list bytes := [B"."; B"_"; B"vendor"; B"node_modules"; B"testdata"].

(** parser.go:208-213 *)
Definition ignored (p : bytes) : bool := existsb (fun x => has_prefix (base p) x) ignored_prefixes.

Section Parser.
  Context (parse : resolver) (hpkg : bytes -> res hinfo) (fs : node) (pdir : bytes -> res (list decl)).

  (** The callback of filepath.Walk, parser.go:199-231.  The state is the list
      of directories given to ParseDir and the declarations found (p.decls
      groups them by name). *)
  Definition parse_fn : wfunc (list bytes * list decl) :=
    fun p info err st =>
      match err, info with
      | Some e, _ => (st, Some e)
      | None, None => (st, Some EBadHandle)
      | None, Some info =>
          if d_isdir info then
            if ignored p then (st, Some ESkipDir)
            else
              match pdir p with
              | Err _ => ((st.1 ++ [p], st.2), Some (EMsg p))    (* a new error, :216, :223 *)
              | Ok ds => ((st.1 ++ [p], st.2 ++ ds), None)
              end
          else (st, None)
      end.

  (** NewInclude, include.go:21-47. *)
  Definition new_include (her : hinfo) (inc : bytes) : res decl :=
    match parse her inc with
    | None => Err EParse
    | Some pt =>
        match (if bool_decide (p_pkg pt = h_import her) then Ok her else hpkg (p_pkg pt)) with
        | Err e => Err e
        | Ok her => Ok (Decl KInclude (PFile (join2 (h_mdir her) (p_name pt)) pt her) inc)
        end
    end.

  (** parseIncludes, parser.go:236-246. *)
  Fixpoint parse_includes (her : hinfo) (incs : list bytes) : res (list decl) :=
    match incs with
    | [] => Ok []
    | i :: incs =>
        match new_include her i with
        | Err e => Err e
        | Ok d => match parse_includes her incs with Ok ds => Ok (d :: ds) | Err e => Err e end
        end
    end.

  (** Parser.parse, parser.go:175-234: directories parsed, declarations. *)
  Definition parse_all (her : hinfo) (incs : list bytes) : res (list bytes * list decl) :=
    match parse_includes her incs with
    | Err e => Err e
    | Ok ds =>
        match os_stat fs (h_dir her) with
        | Err e => Err e
        | Ok fi =>
            if d_isdir fi then
              match walk_disk fs (h_dir her) parse_fn ([], ds) with
              | (st, None) => Ok st
              | (_, Some e) => Err e
              end
            else Err (EMsg (B"is not a directory"))
        end
    end.
End Parser.

(** Parser.Decls, parser.go:137-158, given the declarations in the order they
    were found. *)
Definition by_kind (ds : list decl) (k : kind) : list decl := filter (fun d => dk d = k) ds.

(** ** Specification *)

(** The folders meant by the list in parser.go:17: hidden ones by their first
    letter, the others by name. *)
Definition meant_ignored (w : bytes) : bool :=
  has_prefix w (B".") || has_prefix w (B"_") || bool_decide (w = B"vendor") ||
  bool_decide (w = B"node_modules") || bool_decide (w = B"testdata").

(** Directories of [n] with no element for which [ig] holds on the way. *)
Definition not_ignored (ig : bytes -> bool) (n : node) (vs : list bytes) : Prop :=
  (exists c, get n vs = Some c /\ n_isdir c = true) /\ Forall (fun w => ig w = false) vs.

(** ** Proofs *)

Definition dir_step (pdir : bytes -> res (list decl)) (x : list bytes * node) (st : list bytes * list decl) :
    list bytes * list decl :=
  if n_isdir x.2 && negb (ignored (abs_name x.1)) then
    match pdir (abs_name x.1) with
    | Ok ds => (st.1 ++ [abs_name x.1], st.2 ++ ds)
    | Err _ => st
    end
  else st.

Section Proofs.
  Context (fs : node) (pdir : bytes -> res (list decl)).

  Lemma parse_acts ws c :
    (n_isdir c = true -> ignored (abs_name ws) = false -> exists ds, pdir (abs_name ws) = Ok ds) ->
    acts (parse_fn pdir) (fun _ => True) (fun ws => ignored (abs_name ws)) (dir_step pdir) ws c.
  Proof.
    intros H s _. split; [|done]. unfold parse_fn, dir_step, skip_err. cbn [fst snd].
    assert (E : d_isdir (info_of (base (abs_name ws)) c) = n_isdir c) by (by destruct c). rewrite E.
    destruct (n_isdir c); [|by rewrite andb_false_r]. destruct (ignored (abs_name ws)); [done|].
    cbn [andb negb]. destruct H as [ds ->]; done.
  Qed.

  Definition wanted (x : list bytes * node) : bool := n_isdir x.2 && negb (ignored (abs_name x.1)).

  Lemma run_dir_steps l st :
    Forall (fun x => wanted x = true -> exists ds, pdir (abs_name x.1) = Ok ds) l ->
    (run_steps (dir_step pdir) l st).1 = st.1 ++ (abs_name <$> (filter (fun x => wanted x = true) l).*1) /\
    exists dss, Forall2 (fun p ds => pdir p = Ok ds) (abs_name <$> (filter (fun x => wanted x = true) l).*1) dss /\
      (run_steps (dir_step pdir) l st).2 = st.2 ++ concat dss.
  Proof.
    revert st. induction l as [|x l IH]; intros st HF.
    - cbn. rewrite app_nil_r. split; [done|]. exists []. split; [constructor|]. by rewrite app_nil_r.
    - apply Forall_cons in HF as [Hx HF]. rewrite filter_cons.
      change (run_steps (dir_step pdir) (x :: l) st) with (run_steps (dir_step pdir) l (dir_step pdir x st)).
      destruct (IH (dir_step pdir x st) HF) as (E1 & dss & H2 & E2). rewrite E1, E2. clear IH E1 E2.
      unfold dir_step. fold (wanted x). destruct (wanted x) eqn:Ew.
      + rewrite decide_True by done. destruct (Hx eq_refl) as [ds Eds]. rewrite Eds. cbn [fst snd fmap list_fmap].
        split; [by rewrite <- app_assoc|]. exists (ds :: dss). split; [by constructor|]. by rewrite <- app_assoc.
      + rewrite decide_False by done. split; [done|]. exists dss. done.
  Qed.

  Lemma walk_dirs rs n st :
    Forall good_elem rs -> get fs rs = Some n -> wf_node n -> all_open n ->
    (forall vs c, get n vs = Some c -> n_isdir c = true -> exists ds, pdir (abs_name (rs ++ vs)) = Ok ds) ->
    exists dirs dss,
      walk_disk fs (abs_name rs) (parse_fn pdir) st = ((st.1 ++ (abs_name <$> dirs), st.2 ++ concat dss), None) /\
      Forall2 (fun p ds => pdir p = Ok ds) (abs_name <$> dirs) dss /\
      StronglySorted (fun a b => elems_lt a b = true) dirs /\
      forall ws, ws ∈ dirs <-> exists vs c, ws = rs ++ vs /\ get n vs = Some c /\ n_isdir c = true /\
        forall v1 v2, vs = v1 ++ v2 -> ignored (abs_name (rs ++ v1)) = false.
  Proof.
    intros Hrs Hg Hwf Hop Hpd. set (sk := fun ws => ignored (abs_name ws)).
    destruct (walk_disk_steps fs (parse_fn pdir) (fun _ => True) sk (dir_step pdir) rs n st Hrs Hg Hwf Hop) as [E _];
      [|done|].
    { intros vs c Hc. apply parse_acts. intros Hd _. eauto. }
    destruct (run_dir_steps (visited sk rs n) st) as (E1 & dss & H2 & E2).
    { apply Forall_forall. intros [us c] Hin Hw. apply visited_elem in Hin as (vs & -> & Hc & _); [|done].
      apply (Hpd vs c Hc). by apply andb_true_iff in Hw as [? _]. }
    exists (filter (fun x => wanted x = true) (visited sk rs n)).*1, dss. split.
    { rewrite E. f_equal. rewrite <- E1, <- E2. by destruct (run_steps (dir_step pdir) (visited sk rs n) st). }
    split; [done|]. split.
    - pose proof (visited_sorted sk rs n Hwf) as HS. clear -HS.
      induction HS as [|x l HS IH HF]; [constructor|]. rewrite filter_cons. case_decide; [|done].
      cbn. constructor; [done|]. apply Forall_forall. intros y Hy. apply elem_of_list_fmap in Hy as (z & -> & Hz).
      apply elem_of_list_filter in Hz as [_ Hz]. rewrite Forall_forall in HF. by apply HF.
    - intros ws. rewrite elem_of_list_fmap. split.
      + intros ([us c] & -> & Hin). apply elem_of_list_filter in Hin as [Hw Hin]. cbn [fst].
        apply visited_elem in Hin as (vs & -> & Hc & Hsk); [|done].
        apply andb_true_iff in Hw as [Hd Hi]. apply negb_true_iff in Hi. cbn [fst snd] in *.
        exists vs, c. split_and!; try done. intros v1 v2 ->. destruct v2 as [|x v2].
        * by rewrite app_nil_r in Hi.
        * apply (Hsk v1 (x :: v2) eq_refl). done.
      + intros (vs & c & -> & Hc & Hd & Hi). exists (rs ++ vs, c). split; [done|].
        apply elem_of_list_filter. split.
        * unfold wanted. cbn [fst snd]. rewrite Hd. cbn [andb]. rewrite (Hi vs []); [done|by rewrite app_nil_r].
        * apply visited_elem; [done|]. exists vs. split_and!; try done. intros v1 v2 -> _. by eapply Hi.
  Qed.
End Proofs.
