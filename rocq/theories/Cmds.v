(** Model of the commands of the pkger program and of what they print:
    /repo/cmd/pkger/cmds/{info,parse,path,serve,stat,list,pack}.go and
    /repo/cmd/pkger/main.go.

    The program contains no pkged.go of its own, so pkger.Open, Info, Parse and
    Current go to the on-disk pkger (pkger.go:16-29, Std.v).  Simplifications:
    while one command runs, here.Dir and here.Package answer each question
    always the same way; writing to standard output does not fail; nothing is
    said about standard error. *)
From Verif Require Import Bytes GoPath Here GoTypes WalkSpec JsonStr JsonText Indent GoTimeFmt Embed Marshal Disk DiskOps Decls
  Source ParserDirs Project Pack Std Package Cli.

(** What a command depends on besides the file system. *)
Record world := World {
  w_her : hinfo;                                            (* here.Current() *)
  w_parse : resolver;                                       (* here.Info.Parse *)
  w_hdir : bytes -> res hinfo;                              (* here.Dir *)
  w_hpkg : bytes -> res hinfo;                              (* here.Package *)
  w_gosrc : bytes -> bytes -> res source;                   (* go/parser.ParseFile *)
  w_dorder : list (bytes * source) -> list (bytes * source);(* map order, parser.go:120-132 *)
  w_forder : list pfile -> list pfile;                      (* map order, decl.go:53-55 *)
  w_rorder : list details -> list details;                  (* the directory order of os.File.Readdir *)
  w_range : ranging;                                        (* map orders of MarshalJSON *)
  w_gz : bytes -> bytes;                                    (* compress/gzip *)
  w_pos : bytes -> nat -> json;                             (* source positions of declarations *)
  w_fuel : nat;                                             (* stack for chains of objects, Source.v *)
  w_new : meta                                              (* metadata of new files *)
}.

(** How Exec ends: it returns, having printed [out]; or the flag package ends
    the process with status 2. *)
Inductive ended := Ret (out : bytes) (e : option gerr) | Quit.

(** The arguments, "." if there are none. *)
Definition or_dot (args : list bytes) : list bytes := match args with [] => [B"."] | _ => args end.

(** The flags of path and parse, path.go:28, parse.go:28. *)
Definition help_formal (name : bytes) : option flagkind :=
  if bool_decide (name = B"h") then Some FBool else None.

(** fmt.Println of one value printed as [s]. *)
Definition println (s : bytes) : bytes := s ++ [newline].

(** FileInfo.String, file_info.go:22-25. *)
Definition info_string (d : details) : bytes := marshal_indent (B"  ") (j_details d).

(** parser.File in JSON (file.go:9-13) and as a string (:15-18). *)
Definition j_pfile (f : pfile) : json :=
  JObj [(B"Abs", JStr (pf_abs f)); (B"Path", j_path (pf_path f)); (B"Here", j_info (pf_here f))].

(** A declaration in JSON: open.go:22-30 and alike in the other six files. *)
Definition type_name (k : kind) : bytes :=
  match k with
  | KMkdirAll => B"pkger.MkdirAll" | KCreate => B"pkger.Create" | KInclude => B"pkger.Include" | KStat => B"pkger.Stat"
  | KOpen => B"pkger.Open" | KDir => B"pkger.Dir" | KWalk => B"pkger.Walk"
  end.
Definition j_decl (pd : json * decl) : json :=
  let '(pos, d) := pd in
  JObj [(B"file", j_pfile (d_file d)); (B"pos", pos); (B"type", JStr (type_name (dk d))); (B"value", JStr (d_value d))].

(** A Go slice; an empty one here is nil. *)
Definition j_slice (l : list json) : json := match l with [] => JNull | _ => JArr l end.

Section Cmds.
  Context (w : world).

  (** infoCmd.Exec, info.go:25-45; [s] is the on-disk pkger. *)
  Fixpoint info_loop (s : sto) (args : list bytes) : bytes * option gerr :=
    match args with
    | [] => ([], None)
    | a :: args =>
        let '(s, r) := std_info (w_hpkg w) s a in
        match r with
        | Err e => ([], Some e)
        | Ok i => let '(out, e) := info_loop s args in (encode_indent (B" ") (j_info i) ++ out, e)
        end
    end.
  Definition run_info (args : list bytes) : ended :=
    let '(out, e) := info_loop (std_new (w_her w)) (or_dot args) in Ret out e.

  (** pathCmd.Exec, path.go:33-61. *)
  Fixpoint path_loop (m : gmap bytes path) (args : list bytes) : option (gmap bytes path) :=
    match args with
    | [] => Some m
    | a :: args => match w_parse w (w_her w) a with None => None | Some pt => path_loop (<[a := pt]> m) args end
    end.
  Definition run_path (args : list bytes) : ended :=
    match parse_flags help_formal args with
    | FExit => Quit
    | FDone sets rest =>
        if bool_var (B"h") sets then Ret [] None
        else
          match rest with
          | [] => Ret [] (Some (EMsg (B"you specify at least one path")))
          | _ =>
              match path_loop ∅ rest with
              | None => Ret [] (Some EParse)
              | Some m => Ret (encode_indent (B" ") (j_map j_path m)) None
              end
          end
    end.

  (** parser.Parse(info, incs...). *)
  Definition scan (fs : node) (info : hinfo) (incs : list bytes) : res (list decl) :=
    parse_project (w_parse w) (w_hdir w) (w_hpkg w) fs (w_gosrc w) (w_dorder w) (w_fuel w) info incs.

  (** parseCmd.Exec, parse.go:33-75. *)
  Definition package_arg (a : bytes) : res hinfo := if bool_decide (a = B".") then w_hdir w a else w_hpkg w a.
  Fixpoint parse_loop (fs : node) (m : gmap bytes (list (json * decl))) (args : list bytes) : res (gmap bytes (list (json * decl))) :=
    match args with
    | [] => Ok m
    | a :: args =>
        match package_arg a with
        | Err e => Err e
        | Ok info =>
            match scan fs info [] with
            | Err e => Err e
            | Ok ds => parse_loop fs (<[a := imap (fun i d => (w_pos w a i, d)) ds]> m) args
            end
        end
    end.
  Definition run_parse (fs : node) (args : list bytes) : ended :=
    match parse_flags help_formal args with
    | FExit => Quit
    | FDone sets rest =>
        if bool_var (B"h") sets then Ret [] None
        else
          match parse_loop fs ∅ (or_dot rest) with
          | Err e => Ret [] (Some e)
          | Ok m => Ret (encode_indent (B" ") (j_map (fun l => j_slice (map j_decl l)) m)) None
          end
    end.

  (** os.File.Readdir(-1) of an opened directory. *)
  Definition readdir_all (fs : node) (p : bytes) : res (list details) :=
    match find fs p with
    | Some (NDir _ cs) => Ok (w_rorder w (map (fun wc => info_of wc.1 wc.2) cs))
    | _ => Err (EPath (B"readdirent") p)
    end.

  (** statCmd.Exec, stat.go:26-57. *)
  Fixpoint stat_loop (fs : node) (s : sto) (args : list bytes) : bytes * option gerr :=
    match args with
    | [] => ([], None)
    | a :: args =>
        let '(s, r) := std_open (w_parse w) (w_hpkg w) fs s a in
        match r with
        | Err e => ([], Some e)
        | Ok f =>
            let fi := sfile_stat f in
            match (if d_isdir fi then readdir_all fs (sf_os f) else Ok [fi]) with
            | Err e => ([], Some e)
            | Ok l =>
                let '(out, e) := stat_loop fs s args in
                (concat (map (fun d => println (info_string (new_file_info d))) l) ++ out, e)
            end
        end
    end.
  Definition run_stat (fs : node) (args : list bytes) : ended :=
    let '(out, e) := stat_loop fs (std_new (w_her w)) (or_dot args) in Ret out e.

  (** serveCmd.Exec, serve.go:43-63, up to http.ListenAndServe, which does not
      return while it works and never returns nil; [listen] is its error. *)
  Definition run_serve (fs : node) (listen : gerr) (args : list bytes) : ended :=
    match or_dot args with
    | [] => Ret [] (Some EBadHandle)
    | a :: _ =>
        match (std_open (w_parse w) (w_hpkg w) fs (std_new (w_her w)) a).2 with
        | Err e => Ret [] (Some e)
        | Ok f => Ret (println (path_string (sf_path f))) (Some listen)
        end
    end.

  (** os.RemoveAll, its error dropped. *)
  Definition rm (fs : node) (p : bytes) : node := match os_remove_all fs p with Ok fs => fs | Err _ => fs end.

  Definition out_name : bytes := B"pkged.go".

  (** listCmd.Exec, list.go:27-84: what it leaves on disk, and how it ends. *)
  Definition list_text (her : hinfo) (fl : list pfile) : bytes :=
    println (h_import her) ++ concat (map (fun f => println (B" > " ++ path_string (pf_path f))) fl).
  Definition j_list (her : hinfo) (fl : list pfile) : json :=
    JObj [(B"ImportPath", JStr (h_import her)); (B"Files", j_slice (map j_pfile fl))].
  Definition exec_list (fs : node) (args : list bytes) : node * ended :=
    match parse_flags list_formal args with
    | FExit => (fs, Quit)
    | FDone sets _ =>
        let fs := rm fs (join2 (h_dir (w_her w)) out_name) in
        match scan fs (w_her w) (list_var (B"include") sets) with
        | Err e => (fs, Ret [] (Some e))
        | Ok ds =>
            match files (w_parse w) (w_hdir w) fs (w_forder w) ds with
            | Err e => (fs, Ret [] (Some e))
            | Ok fl =>
                (fs, Ret (if bool_var (B"json") sets then encode_indent (B" ") (j_list (w_her w) fl)
                          else list_text (w_her w) fl) None)
            end
        end
    end.

  (** filepath.Join(info.Dir, e.out, outName), pack.go:47. *)
  Definition out_path (out : bytes) : bytes :=
    match out with [] => join2 (h_dir (w_her w)) out_name | _ => join2 (h_dir (w_her w)) (out ++ slash :: out_name) end.

  (** Appending to an open file. *)
  Definition append_fn (b : bytes) (x : option node) : option (option node) :=
    match x with Some (NFile i d) => Some (Some (NFile i (d ++ b))) | _ => None end.
  Definition append (fs : node) (p b : bytes) : res node :=
    at_path p (B"write") (fun ws => or_err (B"write") p (upd (append_fn b) fs ws)).

  (** Package, pack.go:125-159, on the file system.  (Failing writes and
      panics are in Package.v; here they do not happen.)  Stuff runs while the
      output holds the header (:150). *)
  Definition package_fs (fs : node) (fp : bytes) (ds : list decl) : node * option gerr :=
    match w_hdir w (dirname fp) with
    | Err e => (fs, Some e)
    | Ok c =>
        let fs := rm fs fp in
        match os_create (w_new w) fs fp with
        | Err e => (fs, Some e)
        | Ok fs =>
            match append fs fp (concat (header_writes (h_name c))) with
            | Err e => (fs, Some e)
            | Ok fs =>
                match stuff (w_parse w) (w_hdir w) (w_hpkg w) fs (w_gz w) (w_range w) (w_forder w) (w_her w) ds with
                | Err e => (fs, Some e)
                | Ok payload =>
                    match append fs fp (payload ++ footer_write) with
                    | Err e => (fs, Some e)
                    | Ok fs => (fs, None)
                    end
                end
            end
        end
    end.

  (** packCmd.Exec, pack.go:41-60. *)
  Definition pack_run (fs : node) (out : bytes) (incs : list bytes) : node * option gerr :=
    let fp := out_path out in
    let fs := rm fs fp in
    match scan fs (w_her w) incs with
    | Err e => (fs, Some e)
    | Ok ds => package_fs fs fp ds
    end.

  (** c.Exec(args) of a subcommand. *)
  Definition exec_sub (fs : node) (listen : gerr) (name : bytes) (args : list bytes) : node * ended :=
    if bool_decide (name = B"info") then (fs, run_info args)
    else if bool_decide (name = B"list") then exec_list fs args
    else if bool_decide (name = B"parse") then (fs, run_parse fs args)
    else if bool_decide (name = B"path") then (fs, run_path args)
    else if bool_decide (name = B"serve") then (fs, run_serve fs listen args)
    else (fs, run_stat fs args).

  (** Route, pack.go:62-92, with the commands it runs. *)
  Definition run_args (fs : node) (listen : gerr) (args : list bytes) : node * ended :=
    match route args with
    | Exits => (fs, Quit)
    | RootUsage | SubUsage _ => (fs, Ret [] None)
    | Refuse e => (fs, Ret [] (Some e))
    | RunPack out incs => let '(fs, e) := pack_run fs out incs in (fs, Ret [] e)
    | RunSub name args => exec_sub fs listen name args
    end.

  (** main, main.go:11-36 (without panics, which Cli.v has): the file system,
      standard output, the exit status and how often `go mod tidy` ran. *)
  Record finish := Finish { f_fs : node; f_out : bytes; f_status : nat; f_tidied : nat }.
  Definition main (fs : node) (listen : gerr) (args : list bytes) : finish :=
    let '(fs, r) := run_args fs listen args in
    match r with
    | Ret out e => let '(st, n) := main_end (REnd e) in Finish fs out st n
    | Quit => let '(st, n) := main_end RExit in Finish fs [] st n
    end.
End Cmds.
