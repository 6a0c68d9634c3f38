(** Model of the command line, /repo/cmd/pkger/main.go and
    /repo/cmd/pkger/cmds/pack.go:62-115, list.go.

    The Go standard library's flag package (flag.FlagSet.Parse, parseOne) is
    modelled from its source; the error texts of the flag package and the
    output of Usage are left out. *)
From Verif Require Import Bytes GoPath GoTypes.

(** ** package flag *)

Inductive flagkind := FBool | FString.

(** strconv.ParseBool. *)
Definition parse_bool (v : bytes) : option bool :=
  if bool_decide (v ∈ [B"1"; B"t"; B"T"; B"true"; B"TRUE"; B"True"]) then Some true
  else if bool_decide (v ∈ [B"0"; B"f"; B"F"; B"false"; B"FALSE"; B"False"]) then Some false
  else None.

(** Cut at the first '='. *)
Fixpoint cut_eq (s : bytes) : bytes * option bytes :=
  match s with
  | [] => ([], None)
  | c :: s' => if bool_decide (c = "="%char) then ([], Some s')
               else let '(u, v) := cut_eq s' in (c :: u, v)
  end.

(** The text of an argument, after the hyphens: what parseOne's loop over
    name[1:] makes of it.  The first byte is never taken for '='. *)
Definition name_value (t : bytes) : bytes * option bytes :=
  match t with [] => ([], None) | c :: t' => let '(u, v) := cut_eq t' in (c :: u, v) end.

(** How the first argument is read: not a flag, the terminator, a flag with
    this text after the hyphens, or a syntax error. *)
Inductive argkind := AArg | ATerm | AFlag (text : bytes) | ABad.
Definition classify (s : bytes) : argkind :=
  match s with
  | c :: d :: s' =>
      if bool_decide (c = "-"%char) then
        let t := if bool_decide (d = "-"%char) then s' else d :: s' in
        if bool_decide (s = B"--") then ATerm
        else match t with
             | [] => ABad
             | e :: _ => if bool_decide (e = "-"%char \/ e = "="%char) then ABad else AFlag t
             end
      else AArg
  | _ => AArg
  end.

(** FlagSet.Parse with ExitOnError: the flags set, in order, and the remaining
    arguments; or the process exits with status 2. *)
Inductive flags_end := FDone (sets : list (bytes * bytes)) (rest : list bytes) | FExit.

Definition add_set (nv : bytes * bytes) (r : flags_end) : flags_end :=
  match r with FDone sets rest => FDone (nv :: sets) rest | FExit => FExit end.

Fixpoint parse_flags (formal : bytes -> option flagkind) (args : list bytes) : flags_end :=
  match args with
  | [] => FDone [] []
  | s :: rest =>
      match classify s with
      | AArg => FDone [] args
      | ATerm => FDone [] rest
      | ABad => FExit
      | AFlag t =>
          let '(name, value) := name_value t in
          match formal name with
          | None => FExit                       (* undefined, or -help *)
          | Some FBool =>
              match value with
              | None => add_set (name, B"true") (parse_flags formal rest)
              | Some v => match parse_bool v with
                          | Some _ => add_set (name, v) (parse_flags formal rest)
                          | None => FExit
                          end
              end
          | Some FString =>
              match value with
              | Some v => add_set (name, v) (parse_flags formal rest)
              | None => match rest with
                        | v :: rest' => add_set (name, v) (parse_flags formal rest')
                        | [] => FExit
                        end
              end
          end
      end
  end.

(** Value of a boolean or string variable bound to a flag; of a list (slice,
    pack.go:17-26). *)
Definition bool_var (name : bytes) (sets : list (bytes * bytes)) : bool :=
  fold_left (fun b nv => if bool_decide (nv.1 = name) then default b (parse_bool nv.2) else b) sets false.
Definition string_var (name : bytes) (sets : list (bytes * bytes)) : bytes :=
  fold_left (fun b nv => if bool_decide (nv.1 = name) then nv.2 else b) sets [].
Definition list_var (name : bytes) (sets : list (bytes * bytes)) : list bytes :=
  fold_left (fun b nv => if bool_decide (nv.1 = name) then b ++ [nv.2] else b) sets [].

(** ** Route, pack.go:62-92 *)

(** The flags of the root command, pack.go:105-107. *)
Definition root_formal (name : bytes) : option flagkind :=
  if bool_decide (name = B"h") then Some FBool
  else if bool_decide (name = B"o") then Some FString
  else if bool_decide (name = B"include") then Some FString
  else None.

(** The subcommands, pack.go:97-102, sorted by name. *)
Definition subs : list bytes := [B"info"; B"list"; B"parse"; B"path"; B"serve"; B"stat"].

Fixpoint join_sp (l : list bytes) : bytes :=
  match l with [] => [] | [x] => x | x :: l => x ++ B" " ++ join_sp l end.

Inductive action :=
| Exits                                           (* the flag package ends the process *)
| RootUsage                                       (* prints the usage of every command *)
| SubUsage (name : bytes)
| RunPack (out : bytes) (include : list bytes)    (* packCmd.Exec *)
| RunSub (name : bytes) (args : list bytes)       (* c.Exec(args) *)
| Refuse (e : gerr).                              (* an error, nothing is run *)

Definition route (args : list bytes) : action :=
  match parse_flags root_formal args with
  | FExit => Exits
  | FDone sets rest =>
      if bool_var (B"h") sets then RootUsage
      else match rest with
           | [] => RunPack (string_var (B"o") sets) (list_var (B"include") sets)
           | k :: rest' =>
               if bool_decide (k ∈ subs) then
                 if bool_decide (B"-h" ∈ rest') then SubUsage k else RunSub k rest'
               else Refuse (EMsg (B"unknown arguments: " ++ join_sp rest))
           end
  end.

(** ** The list command, list.go:27-47 and :86-92 *)

Definition list_formal (name : bytes) : option flagkind :=
  if bool_decide (name = B"json") then Some FBool
  else if bool_decide (name = B"include") then Some FString
  else None.

(** What `list` looks for and what becomes of the generated file, [old], of
    the current package: it is removed (list.go:41) before parsing.  Further
    arguments are ignored. *)
Inductive list_run := LExits | LRun (json : bool) (include : list bytes) (left : option bytes).
Definition run_list (old : option bytes) (args : list bytes) : list_run :=
  match parse_flags list_formal args with
  | FExit => LExits
  | FDone sets _ => LRun (bool_var (B"json") sets) (list_var (B"include") sets) None
  end.

(** ** main, main.go:11-36: exit status, and how often `go mod tidy` runs.
    [run] is how run() ends. *)
Inductive run_end := REnd (e : option gerr) | RPanic | RExit.
Definition main_end (r : run_end) : nat * nat :=
  match r with
  | REnd None => (0, 1)
  | REnd (Some _) => (1, 1)
  | RPanic => (1, 1)
  | RExit => (2, 0)
  end.
