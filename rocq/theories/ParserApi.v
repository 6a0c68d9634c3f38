(** Model of a Parser as a value whose methods are called one after the other
    (/repo/parser/parser.go:19-33 and :137-174), and of ParseFile and
    ParseSource (:45-89).

    The disk may change between two calls; [world] is what one call sees.
    [w_dir] stands for ParseDir and DeclsMap of the sources of one directory
    (Project.v).  The texts of errors are left out, as elsewhere; parser.Mode
    is ignored by the code (:88) and by the model. *)
From Verif Require Import Bytes GoPath Here GoTypes WalkSpec Disk Decls DeclsProofs JsonStr GoQuote Source SourceProofs
  ParserDirs Project.

Record world := World { w_fs : node; w_dir : bytes -> res (list decl) }.

(** Parser: decls (in the order found), whether once is done, err. *)
Record pstate := PState { ps_decls : list decl; ps_once : bool; ps_err : option gerr }.
(** New, parser.go:19-24 *)
Definition new_parser : pstate := PState [] false None.

(** The methods, and what they return. *)
Inductive pcall := PDecls | PDeclsMap | PParse.
Inductive panswer :=
| AnsDecls (r : res (list decl))
| AnsMap (m : kind -> list decl) (e : option gerr)
| AnsErr (e : option gerr).

Section Api.
  Context (parse : resolver) (hpkg : bytes -> res hinfo) (her : hinfo) (incs : list bytes).

  (** parseIncludes appending to p.decls, parser.go:231-241. *)
  Fixpoint includes_into (incs : list bytes) (acc : list decl) : list decl * option gerr :=
    match incs with
    | [] => (acc, None)
    | i :: incs =>
        match new_include parse hpkg her i with
        | Err e => (acc, Some e)
        | Ok d => includes_into incs (acc ++ [d])
        end
    end.

  (** Parser.parse, parser.go:172-229: p.decls afterwards and the error. *)
  Definition parse_run (w : world) : list decl * option gerr :=
    match includes_into incs [] with
    | (ds, Some e) => (ds, Some e)
    | (ds, None) =>
        match os_stat (w_fs w) (h_dir her) with
        | Err e => (ds, Some e)
        | Ok fi =>
            if d_isdir fi then
              let '(st, e) := walk_disk (w_fs w) (h_dir her) (parse_fn (w_dir w)) ([], ds) in (st.2, e)
            else (ds, Some (EMsg (B"is not a directory")))
        end
    end.

  (** Parser.Parse, parser.go:165-170. *)
  Definition parse_once (w : world) (st : pstate) : pstate :=
    if ps_once st then st else let '(ds, e) := parse_run w in PState ds true e.

  (** Parser.Decls (:137-158), DeclsMap (:160-163), Parse. *)
  Definition pdo (w : world) (c : pcall) (st : pstate) : pstate * panswer :=
    match c with
    | PDecls =>
        let '(ds, e) := parse_run w in
        (PState ds (ps_once st) (ps_err st),
         AnsDecls (match e with Some e => Err e | None => Ok (decls_of (by_kind ds)) end))
    | PDeclsMap => let st := parse_once w st in (st, AnsMap (by_kind (ps_decls st)) (ps_err st))
    | PParse => let st := parse_once w st in (st, AnsErr (ps_err st))
    end.

  Fixpoint prun (l : list (world * pcall)) (st : pstate) : pstate * list panswer :=
    match l with
    | [] => (st, [])
    | (w, c) :: l => let '(st, a) := pdo w c st in let '(st, r) := prun l st in (st, a :: r)
    end.
End Api.

Section File.
  Context (parse : resolver) (hdir hpkg : bytes -> res hinfo) (fs : node) (gosrc : bytes -> bytes -> res source).

  (** ParseSource, parser.go:45-63; ioutil.ReadFile of a directory fails. *)
  Definition parse_source (abs : bytes) : res source :=
    match os_open fs abs with
    | Err e => Err e
    | Ok (NDir _ _) => Err (EPath (B"read") abs)
    | Ok (NFile _ text) => gosrc abs text
    end.

  (** ParseFile, parser.go:65-89.  The error of Here.Parse (:86) is
      overwritten. *)
  Definition parse_file (abs : bytes) : res source :=
    match os_stat fs abs with
    | Err e => Err e
    | Ok info =>
        if d_isdir info then Err (EMsg (B"is a directory"))
        else match hdir (dirname abs) with Err e => Err e | Ok _ => parse_source abs end
    end.
End File.

(** ** Proofs *)

Lemma includes_into_spec parse hpkg her incs acc :
  match includes_into parse hpkg her incs acc with
  | (ds, None) => exists l, parse_includes parse hpkg her incs = Ok l /\ ds = acc ++ l
  | (_, Some e) => parse_includes parse hpkg her incs = Err e
  end.
Proof.
  revert acc. induction incs as [|i incs IH]; intros acc; cbn [includes_into parse_includes].
  - exists []. by rewrite app_nil_r.
  - destruct (new_include parse hpkg her i) as [d|e]; [|done]. specialize (IH (acc ++ [d])).
    destruct (includes_into parse hpkg her incs (acc ++ [d])) as [ds [e|]]; [by rewrite IH|].
    destruct IH as (l & -> & ->). exists (d :: l). by rewrite <- app_assoc.
Qed.

(** parse_run is parse_all. *)
Lemma parse_run_spec parse hpkg her incs w :
  parse_all parse hpkg (w_fs w) (w_dir w) her incs =
  match parse_run parse hpkg her incs w with
  | (_, Some e) => Err e
  | (ds, None) => match walk_disk (w_fs w) (h_dir her) (parse_fn (w_dir w))
                      ([], (includes_into parse hpkg her incs []).1) with
                  | (st, _) => Ok (st.1, ds)
                  end
  end.
Proof.
  unfold parse_run, parse_all. pose proof (includes_into_spec parse hpkg her incs []) as H.
  destruct (includes_into parse hpkg her incs []) as [ds [e|]]; [by rewrite H|]. destruct H as (l & -> & ->). cbn [app].
  destruct (os_stat (w_fs w) (h_dir her)) as [fi|e]; [|done]. destruct (d_isdir fi); [|done]. cbn [fst].
  destruct (walk_disk (w_fs w) (h_dir her) (parse_fn (w_dir w)) ([], l)) as [[dirs ds] [e|]]; done.
Qed.

Lemma prun_app parse hpkg her incs l1 l2 st :
  prun parse hpkg her incs (l1 ++ l2) st =
  let '(st1, r1) := prun parse hpkg her incs l1 st in
  let '(st2, r2) := prun parse hpkg her incs l2 st1 in (st2, r1 ++ r2).
Proof.
  revert st. induction l1 as [|[w c] l1 IH]; intros st; cbn [prun app].
  - by destruct (prun parse hpkg her incs l2 st).
  - destruct (pdo parse hpkg her incs w c st) as [st1 a]. rewrite IH.
    destruct (prun parse hpkg her incs l1 st1) as [st2 r2].
    by destruct (prun parse hpkg her incs l2 st2) as [st3 r3].
Qed.
