(** Model of the scanner of one source file, /repo/parser/source.go.

    A syntax tree keeps what the scanner looks at: calls, selectors,
    identifiers with the object go/parser resolved them to, and literals; any
    other node is its list of children in the order ast.Walk visits them.
    [hdir], [hpkg] and [parse] stand for here.Dir, here.Package and
    here.Info.Parse.  Positions are left out. *)
From Verif Require Import Bytes GoPath Here GoTypes WalkSpec Disk Decls GoQuote.

Inductive ast :=
| ALit (text : bytes)                         (* *ast.BasicLit: its source text *)
| AIdent (name : bytes) (obj : option nat)    (* *ast.Ident; nil Obj is None *)
| ASel (x : ast) (sel : bytes)                (* *ast.SelectorExpr *)
| ACall (f : ast) (args : list ast)           (* *ast.CallExpr *)
| AOther (cs : list ast).

(** *ast.Object: whether Kind is ast.Con, and Decl's names and values if it is
    an *ast.ValueSpec. *)
Record object := Obj { o_con : bool; o_spec : option (list bytes * list ast) }.

Fixpoint index_of (x : bytes) (l : list bytes) : option nat :=
  match l with
  | [] => None
  | y :: l => if bool_decide (y = x) then Some O else match index_of x l with Some i => Some (S i) | None => None end
  end.

(** A computation that may crash: a run-time panic, or running out of stack
    ([fuel] frames). *)
Inductive run (A : Type) := Done (a : A) | Panic | Overflow.
Global Arguments Done {A}. Global Arguments Panic {A}. Global Arguments Overflow {A}.

(** The names switched on in source.go:93-151. *)
Definition kind_of (name : bytes) : option kind :=
  if bool_decide (name = B"MkdirAll") then Some KMkdirAll
  else if bool_decide (name = B"Create") then Some KCreate
  else if bool_decide (name = B"Include") then Some KInclude
  else if bool_decide (name = B"Stat") then Some KStat
  else if bool_decide (name = B"Open") then Some KOpen
  else if bool_decide (name = B"Dir") then Some KDir
  else if bool_decide (name = B"Walk") then Some KWalk
  else None.

(** source.go:71-90: the call is pkger.Name(...). *)
Definition pkger_call (f : ast) : option kind :=
  match f with
  | ASel (AIdent p _) name => if bool_decide (p = B"pkger") then kind_of name else None
  | _ => None
  end.

(** ast.Walk over a list of children. *)
Definition each {S} (F : ast -> S -> run S) :=
  fix go (l : list ast) (s : S) : run S :=
    match l with
    | [] => Done s
    | x :: l => match F x s with Done s => go l s | Panic => Panic | Overflow => Overflow end
    end.

Section Source.
  Context (parse : resolver) (hdir hpkg : bytes -> res hinfo) (objs : nat -> object).

  (** ParsedSource.valueIdent and valueNode, source.go:36-64. *)
  Fixpoint value_node (fuel : nat) (n : ast) : run bytes :=
    match fuel with
    | O => Overflow
    | S fuel =>
        match n with
        | ALit text => Done text
        | AIdent _ None => Panic                         (* node.Obj.Kind, :38 *)
        | AIdent name (Some o) =>
            if o_con (objs o) then
              match o_spec (objs o) with
              | None => Done name
              | Some (names, values) =>
                  match index_of name names with
                  | None => Done name
                  | Some i =>
                      match values !! i with
                      | Some v => value_node fuel v
                      | None => Panic                    (* x.Values[i], :48 *)
                      end
                  end
              end
            else Done name
        | _ => Done []
        end
    end.

  (** source.go:164-188: the file a value names, seen from source file [abs]. *)
  Definition locate (abs val : bytes) : res pfile :=
    match hdir (dirname abs) with
    | Err e => Err e
    | Ok info =>
        match parse info val with
        | None => Err EParse
        | Some pt =>
            match (if bool_decide (p_pkg pt = h_mpath info) then Ok info else hpkg (p_pkg pt)) with
            | Err e => Err e
            | Ok info => Ok (PFile (join2 (h_mdir info) (p_name pt)) pt info)
            end
        end
    end.

  (** The state of the scan: declarations found, in order (p.decls groups them
      by name), and p.err. *)
  Definition sstate : Type := list decl * option gerr.

  (** What the visitor function does at a call, source.go:153-192: the new
      state, and whether ast.Walk descends. *)
  Definition visit_call (fuel : nat) (abs : bytes) (k : kind) (args : list ast) (st : sstate) : run (sstate * bool) :=
    match args with
    | [] => Done ((st.1, Some (EMsg (B"declarations require at least one argument"))), false)
    | a :: _ =>
        match value_node fuel a with
        | Panic => Panic
        | Overflow => Overflow
        | Done s =>
            match unquote s with
            | None => Done ((st.1, Some (EMsg (B"invalid syntax"))), false)
            | Some val =>
                match locate abs val with
                | Err e => Done ((st.1, Some e), false)
                | Ok f => Done ((st.1 ++ [Decl k f val], st.2), true)
                end
            end
        end
    end.

  (** ast.Walk with the visitor function of source.go:70-193. *)
  Fixpoint scan (fuel : nat) (abs : bytes) (n : ast) (st : sstate) : run sstate :=
    match n with
    | ALit _ | AIdent _ _ => Done st
    | ASel x _ => scan fuel abs x st
    | AOther cs => each (scan fuel abs) cs st
    | ACall f args =>
        match (match pkger_call f with
               | None => Done (st, true)
               | Some k => visit_call fuel abs k args st
               end) with
        | Panic => Panic
        | Overflow => Overflow
        | Done (st, false) => Done st
        | Done (st, true) =>
            match scan fuel abs f st with
            | Done st => each (scan fuel abs) args st
            | Panic => Panic
            | Overflow => Overflow
            end
        end
    end.

  (** ParsedSource.parse (source.go:68-196) returns nil whatever p.err is, and
      Parse (:29-34) stores that nil in p.err: DeclsMap (:198-201) answers the
      declarations and the error. *)
  Definition decls_map (fuel : nat) (abs : bytes) (n : ast) : run (list decl * option gerr) :=
    match scan fuel abs n ([], None) with
    | Done (ds, _) => Done (ds, None)
    | Panic => Panic
    | Overflow => Overflow
    end.
End Source.

(** ** Specification *)

Definition args_list {A} (F : ast -> list A) := fix go (l : list ast) : list A :=
  match l with [] => [] | x :: l => F x ++ go l end.

(** The functions of pkger that name files. *)
Definition file_functions : list (bytes * kind) :=
  [(B"Create", KCreate); (B"Dir", KDir); (B"Include", KInclude); (B"MkdirAll", KMkdirAll);
   (B"Open", KOpen); (B"Stat", KStat); (B"Walk", KWalk)].
Definition function_kind (name : bytes) : option kind :=
  snd <$> head (filter (fun x : bytes * kind => x.1 = name) file_functions).
(** What is called is pkger.Name. *)
Definition called (f : ast) : option kind :=
  match f with
  | ASel (AIdent p _) name => if decide (p = B"pkger") then function_kind name else None
  | _ => None
  end.

(** The pkger calls of a tree, in source order, leaving out those inside a
    call that [bad] marks. *)
Fixpoint calls (bad : kind -> list ast -> bool) (n : ast) : list (kind * list ast) :=
  match n with
  | ALit _ | AIdent _ _ => []
  | ASel x _ => calls bad x
  | AOther cs => args_list (calls bad) cs
  | ACall f args =>
      match called f with
      | None => calls bad f ++ args_list (calls bad) args
      | Some k => (k, args) :: if bad k args then [] else calls bad f ++ args_list (calls bad) args
      end
  end.

Definition all_calls : ast -> list (kind * list ast) := calls (fun _ _ => false).

Section Spec.
  Context (parse : resolver) (hdir hpkg : bytes -> res hinfo) (objs : nat -> object).

  (** The text an argument stands for: a literal's, or that of the constant an
      identifier is bound to. *)
  Inductive text_of : ast -> bytes -> Prop :=
  | t_lit s : text_of (ALit s) s
  | t_con name o names values i v s :
      o_con (objs o) = true -> o_spec (objs o) = Some (names, values) ->
      names !! i = Some name -> (forall j, j < i -> names !! j <> Some name) ->
      values !! i = Some v -> text_of v s -> text_of (AIdent name (Some o)) s.

  (** [d] is the declaration of a call of kind [k] with arguments [args] in
      source file [abs]. *)
  Definition declares (abs : bytes) (c : kind * list ast) (d : decl) : Prop :=
    dk d = c.1 /\
    (exists a rest s, c.2 = a :: rest /\ text_of a s /\ unquote s = Some (d_value d)) /\
    exists info home, hdir (dirname abs) = Ok info /\
      parse info (d_value d) = Some (pf_path (d_file d)) /\
      pf_here (d_file d) = home /\
      (p_pkg (pf_path (d_file d)) = h_mpath info /\ home = info \/
       p_pkg (pf_path (d_file d)) <> h_mpath info /\ hpkg (p_pkg (pf_path (d_file d))) = Ok home) /\
      pf_abs (d_file d) = join2 (h_mdir home) (p_name (pf_path (d_file d))).

  (** Evaluating an argument ends without crashing. *)
  Inductive settles : ast -> Prop :=
  | s_lit s : settles (ALit s)
  | s_sel x w : settles (ASel x w)
  | s_call f args : settles (ACall f args)
  | s_other cs : settles (AOther cs)
  | s_var name o : o_con (objs o) = false -> settles (AIdent name (Some o))
  | s_nospec name o : o_spec (objs o) = None -> settles (AIdent name (Some o))
  | s_noname name o names values : o_spec (objs o) = Some (names, values) -> name ∉ names ->
      settles (AIdent name (Some o))
  | s_con name o names values i v :
      o_spec (objs o) = Some (names, values) -> names !! i = Some name ->
      (forall j, j < i -> names !! j <> Some name) -> values !! i = Some v -> settles v ->
      settles (AIdent name (Some o)).
End Spec.
