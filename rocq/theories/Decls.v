(** Model of the declarations found in source code and of the file list
    computed from them: /repo/parser/{decl,open,walk,include,stat,http,create,
    mkdir,file}.go.

    [hdir] is here.Dir (gobuffalo/here, which runs "go list"): an arbitrary
    function.  Source positions are left out.  The order in which a Go map is
    iterated is a parameter ([order]). *)
From Verif Require Import Bytes GoPath Here GoTypes WalkSpec Disk.

(** The seven declaration types.  Include, Stat, Dir (HTTPDecl) and Open share
    OpenDecl.Files (include.go:81-88, stat.go:49-57, http.go:49-57). *)
Inductive kind := KMkdirAll | KCreate | KInclude | KStat | KOpen | KDir | KWalk.
Global Instance kind_eq_dec : EqDecision kind.
Proof. solve_decision. Defined.

(** parser.File, file.go:9-13. *)
Record pfile := PFile { pf_abs : bytes; pf_path : path; pf_here : hinfo }.

(** A Decl: its file and its value (the argument as written). *)
Record decl := Decl { dk : kind; d_file : pfile; d_value : bytes }.

(** decl.go:20-22 (Virtualer: create.go:49-51, mkdir.go:49-51) and :16-18
    (Filer: the others). *)
Definition is_virtual (d : decl) : bool :=
  match dk d with KMkdirAll | KCreate => true | _ => false end.

(** filepath.Join(her.Module.Dir, pt.Name), open.go:58, walk.go:59. *)
Definition decl_root (d : decl) : bytes :=
  join2 (h_mdir (pf_here (d_file d))) (p_name (pf_path (d_file d))).

Section Decls.
  Context (parse : resolver) (hdir : bytes -> res hinfo) (fs : node).

  (** The callback of WalkDecl.Files, walk.go:61-92.  [her] is the variable of
      the enclosing function, reassigned at every directory (:66-71). *)
  Definition walk_decl_fn (virt : gset bytes) : wfunc (hinfo * list pfile) :=
    fun p info err st =>
      let '(her, files) := st in
      match err, info with
      | Some e, _ => (st, Some e)
      | None, None => (st, Some EBadHandle)
      | None, Some info =>
          match (if d_isdir info then hdir p else Ok her) with
          | Err e => (st, Some e)
          | Ok her =>
              let n := trim_prefix p (h_mdir her) in
              match parse her n with
              | None => ((her, files), Some EParse)
              | Some pt =>
                  if bool_decide (n ∈ virt)
                  then ((her, files), if d_isdir info then Some ESkipDir else None)
                  else ((her, files ++ [PFile p pt her]), None)
              end
          end
      end.

  (** WalkDecl.Files, walk.go:53-96. *)
  Definition walk_files (virt : gset bytes) (d : decl) : res (list pfile) :=
    match walk_disk fs (decl_root d) (walk_decl_fn virt) (pf_here (d_file d), []) with
    | (st, None) => Ok st.2
    | (_, Some e) => Err e
    end.

  (** OpenDecl.Files, open.go:50-78. *)
  Definition open_files (virt : gset bytes) (d : decl) : res (list pfile) :=
    if bool_decide (d_value d ∈ virt) then Ok []
    else
      match os_stat fs (decl_root d) with
      | Err e => Err e
      | Ok info => if d_isdir info then walk_files virt d else Ok [d_file d]
      end.

  (** The Filer method of each declaration. *)
  Definition decl_files (virt : gset bytes) (d : decl) : res (list pfile) :=
    match dk d with
    | KWalk => walk_files virt d
    | _ => open_files virt d
    end.

  (** The first loop of Decls.Files, decl.go:30-50: [m] maps absolute paths to
      files, [v] is the set of names left out. *)
  Fixpoint collect (m : gmap bytes pfile) (v : gset bytes) (ds : list decl) : res (gmap bytes pfile) :=
    match ds with
    | [] => Ok m
    | d :: ds =>
        if is_virtual d then collect m ({[d_value d]} ∪ v) ds
        else
          match decl_files v d with
          | Err e => Err e
          | Ok files =>
              collect (fold_left (fun m f => <[pf_abs f := f]> m) files m)
                (fold_left (fun v f => {[pf_abs f]} ∪ v) files v) ds
          end
    end.

  (** The order of decl.go:56-58. *)
  Definition pf_le (a b : pfile) : Prop := ble (path_string (pf_path a)) (path_string (pf_path b)) = true.
  Global Instance pf_le_dec a b : Decision (pf_le a b).
  Proof. unfold pf_le. apply _. Defined.

  (** Decls.Files, decl.go:26-60.  [order] is the map iteration order at
      :53-55; the order of entries with equal paths is unspecified in Go. *)
  Definition files (order : list pfile -> list pfile) (ds : list decl) : res (list pfile) :=
    match collect ∅ ∅ ds with
    | Err e => Err e
    | Ok m => Ok (merge_sort pf_le (order (map_to_list m).*2))
    end.
End Decls.

(** Parser.Decls, parser.go:137-158: the declarations by kind, those creating
    paths first. *)
Definition ordered_kinds : list kind := [KMkdirAll; KCreate; KInclude; KStat; KOpen; KDir; KWalk].
Definition decls_of (dm : kind -> list decl) : list decl := concat (map dm ordered_kinds).

(** ** Specification *)

(** The names a program creates at run time, as written in its source. *)
Definition virtual_names (ds : list decl) (s : bytes) : Prop :=
  exists d, d ∈ ds /\ is_virtual d = true /\ d_value d = s.

(** No declaration of a run-time path comes after one of a packed path. *)
Definition virtual_first (ds : list decl) : Prop :=
  exists vs fs, ds = vs ++ fs /\ Forall (fun d => is_virtual d = true) vs /\
    Forall (fun d => is_virtual d = false) fs.

(** The name of a file relative to the directory [rs] of its module: "" for
    the directory itself, "/a/b" below it. *)
Definition rel_name (ws : list bytes) : bytes := match ws with [] => [] | _ => abs_name ws end.

(** Declaration [d] is of a path with elements [ns] of a module in directory
    [rs] (which is not the root directory). *)
Record placed (d : decl) (rs ns : list bytes) : Prop := {
  pl_rs : Forall good_elem rs;
  pl_ne : rs <> [];
  pl_ns : Forall good_elem ns;
  pl_dir : h_mdir (pf_here (d_file d)) = abs_name rs;
  pl_name : p_name (pf_path (d_file d)) = abs_name ns;
  pl_abs : pf_abs (d_file d) = abs_name (rs ++ ns)
}.

Section Spec.
  Context (parse : resolver) (hdir : bytes -> res hinfo) (fs : node).

  (** [h] describes a package of the module in [rs] and resolves the names of
      the nodes at and below [n], which is at [ns] in that module. *)
  Definition good_here (rs ns : list bytes) (n : node) (h : hinfo) : Prop :=
    h_mdir h = abs_name rs /\
    forall vs c, get n vs = Some c -> is_Some (parse h (rel_name (ns ++ vs))).

  (** The whole tree [n] belongs to one module and can be read. *)
  Record flat (d : decl) (rs ns : list bytes) (n : node) : Prop := {
    fl_open : all_open n;
    fl_here : good_here rs ns n (pf_here (d_file d));
    fl_dirs : forall vs c, get n vs = Some c -> n_isdir c = true ->
      exists h, hdir (abs_name (rs ++ ns ++ vs)) = Ok h /\ good_here rs ns n h
  }.

  (** Every packed declaration is in one module, read without errors, unless
      its path is missing. *)
  Definition modular (ds : list decl) : Prop :=
    forall d, d ∈ ds -> is_virtual d = false ->
      exists rs ns, placed d rs ns /\ forall n, get fs (rs ++ ns) = Some n -> flat d rs ns n.

  (** Absolute paths at and below a packed declaration, and names by which the
      code looks up run-time paths. *)
  Definition region (ds : list decl) (a : bytes) : Prop :=
    exists d rs ns vs, d ∈ ds /\ is_virtual d = false /\ placed d rs ns /\
      is_Some (get fs (rs ++ ns ++ vs)) /\ a = abs_name (rs ++ ns ++ vs).
  Definition looked_up (ds : list decl) (k : bytes) : Prop :=
    (exists d, d ∈ ds /\ is_virtual d = false /\ d_value d = k) \/
    (exists d rs ns vs, d ∈ ds /\ is_virtual d = false /\ placed d rs ns /\
      is_Some (get fs (rs ++ ns ++ vs)) /\ k = rel_name (ns ++ vs)).

  (** No absolute path of a packed file is also the name of a file within a
      module. *)
  Definition echo_free (ds : list decl) : Prop :=
    forall a, region ds a -> ~ looked_up ds a.

  (** [d] is not looked at because the program creates its path. *)
  Definition exempt (ds : list decl) (d : decl) : Prop :=
    dk d <> KWalk /\ virtual_names ds (d_value d).

  (** [d] reaches absolute path [a]: a file opened directly, or a node at or
      below the path with no directory on the way down created at run time. *)
  Definition reaches (ds : list decl) (d : decl) (a : bytes) : Prop :=
    is_virtual d = false /\ ~ exempt ds d /\
    exists rs ns n, placed d rs ns /\ get fs (rs ++ ns) = Some n /\
      ((dk d <> KWalk /\ n_isdir n = false /\ a = abs_name (rs ++ ns)) \/
       ((dk d = KWalk \/ n_isdir n = true) /\
        exists vs c, get n vs = Some c /\ a = abs_name (rs ++ ns ++ vs) /\
          forall v1 v2, vs = v1 ++ v2 -> ~ virtual_names ds (rel_name (ns ++ v1)))).

  (** [d]'s path is missing. *)
  Definition missing (ds : list decl) (d : decl) : Prop :=
    is_virtual d = false /\ ~ exempt ds d /\ find fs (decl_root d) = None.
End Spec.
