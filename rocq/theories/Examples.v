(** Model of the programs in /repo/examples: open, stat and walk, each written
    once with package os ("std") and once with pkger; dynamic, with pkger only.

    The texts of file modes and times (fmt.Println of os.FileMode and time.Time)
    and text/tabwriter are arbitrary functions.  The programs write to a
    standard output that never fails; log.Fatal is the error returned. *)
From Verif Require Import Bytes GoPath Here GoTypes GoNum Mem Disk DiskOps Std Both Handles Source PropsSource.

Definition line : bytes := [ascii_of_N 10].
Definition tab : bytes := [ascii_of_N 9].

(** io.Copy (package io): reads of [n] bytes, 32 kB in Go, until io.EOF.  [None]
    if [fuel] reads are not enough. *)
Fixpoint copy {X} (read : X -> X * (bytes * option gerr)) (fuel : nat) (x : X) : option (bytes * option gerr) :=
  match fuel with
  | O => None
  | S fuel =>
      match read x with
      | (x, (b, None)) => match copy read fuel x with Some (out, e) => Some (b ++ out, e) | None => None end
      | (_, (b, Some e)) => Some (b, if bool_decide (e = EEOF) then None else Some e)
      end
  end.

Section Print.
  Context (mode_text : N -> bytes) (time_text : gotime -> bytes) (tabs : bytes -> bytes).

  (** The four Println, open/pkger/main.go:30-33, open/std/main.go:27-30,
      stat/pkger/main.go:22-25, stat/std/main.go:21-24.  Println puts a blank
      between its arguments. *)
  Definition report (d : details) : bytes :=
    B"Name:  " ++ d_name d ++ line ++ B"Size:  " ++ dec_z (d_size d) ++ line ++
    B"Mode:  " ++ mode_text (d_mode d) ++ line ++ B"ModTime:  " ++ time_text (d_mtime d) ++ line.
  (** The Fprintf, walk/pkger/main.go:28-34, walk/std/main.go:27-33; here the
      time is formatted as RFC 3339. *)
  Definition row (d : details) : bytes :=
    d_name d ++ B" " ++ tab ++ B" " ++ dec_z (d_size d) ++ B" " ++ tab ++ B" " ++ mode_text (d_mode d) ++ B" " ++ tab ++
    B" " ++ time_text (d_mtime d) ++ B" " ++ tab ++ line.

  (** run, open/pkger/main.go:18-39: what is printed and what is returned. *)
  Definition open_run {X} (opened : res (details * X)) (read : X -> X * (bytes * option gerr)) (fuel : nat) : option (bytes * option gerr) :=
    match opened with
    | Err e => Some ([], Some e)
    | Ok (d, x) => match copy read fuel x with Some (out, e) => Some (report d ++ out, e) | None => None end
    end.
  (** run, stat/pkger/main.go:16-28. *)
  Definition stat_run (stated : res details) : bytes * option gerr :=
    match stated with Err e => ([], Some e) | Ok d => (report d, None) end.
  (** run, walk/pkger/main.go:19-39; w.Flush is deferred. *)
  Definition walk_run (walked : list details * option gerr) : bytes * option gerr :=
    (tabs (concat (map row (walked.1))), walked.2).

  Section Worlds.
    Context (parse : resolver) (chunk : nat).

    (** With package os; [name] is the path "./public/..." seen from the working
        directory. *)
    Definition os_file_read (x : node * nat) : (node * nat) * (bytes * option gerr) :=
      match x with
      | (NFile i b, pos) =>
          match drop pos b with
          | [] => (x, ([], Some EEOF))
          | l => ((NFile i b, pos + length (take chunk l)), (take chunk l, None))
          end
      | (NDir _ _, _) => (x, ([], Some (EPath (B"read") [])))
      end.
    Definition std_open_example (fs : node) (name : bytes) : nat -> option (bytes * option gerr) :=
      open_run (match os_open fs name with Err e => Err e | Ok n => Ok (info_of (base name) n, (n, 0)) end) os_file_read.
    Definition std_stat_example (fs : node) (name : bytes) : bytes * option gerr := stat_run (os_stat fs name).
    Definition os_walk_fn : wfunc (list details) := fun _ d e l =>
      match e, d with
      | Some e, _ => (l, Some e)
      | None, Some d => (l ++ [d], None)
      | None, None => (l, Some EBadHandle)
      end.
    Definition std_walk_example (fs : node) (name : bytes) : bytes * option gerr := walk_run (walk_disk fs name os_walk_fn []).

    (** With pkger and an embedded pkger applied (the packed program). *)
    Definition mem_file_read (x : mem * ref) : (mem * ref) * (bytes * option gerr) :=
      let '(m, y) := file_read x.1 x.2 chunk in ((m, x.2), y).
    Definition packed_open_example (m : mem) (name : bytes) : nat -> option (bytes * option gerr) :=
      open_run (match open parse m name with
                | (_, Err e) => Err e
                | (m, Ok r) => match info_at m r with Some d => Ok (d, (m, r)) | None => Err EBadHandle end
                end) mem_file_read.
    Definition packed_stat_example (m : mem) (name : bytes) : bytes * option gerr :=
      stat_run (match stat parse m name with Err e => Err e | Ok r => match info_at m r with Some d => Ok d | None => Err EBadHandle end end).
    Definition mem_walk_fn : walk_fn (list details) := fun _ d l m => ((l ++ [d], m), None).
    Definition packed_walk_example (m : mem) (name : bytes) : bytes * option gerr :=
      let '((l, _), e) := walk parse m name mem_walk_fn [] in walk_run (l, e).

    (** With pkger and nothing applied (the program as developed). *)
    Definition dev_open_example hp (fs : node) (s : sto) (name : bytes) : nat -> option (bytes * option gerr) :=
      open_run (match std_open parse hp fs s name with (_, Err e) => Err e | (_, Ok f) => Ok (sf_info f, f) end)
        (fun f => sfile_read fs f chunk).
    Definition dev_stat_example hp (fs : node) (s : sto) (name : bytes) : bytes * option gerr :=
      stat_run (std_stat parse hp fs s name).2.
    Definition dev_walk_example hp (fs : node) (s : sto) (name : bytes) : bytes * option gerr :=
      let '((l, _), e) := std_walk parse hp fs s name (fun _ d l => (l ++ [d], None)) [] in walk_run (l, e).
  End Worlds.
End Print.

(** ** The sources of the pkger versions *)

Definition ex_sel (x y : string) : ast := ASel (AIdent (list_ascii_of_string x) None) (list_ascii_of_string y).
Definition ex_id (x : string) : ast := AIdent (list_ascii_of_string x) None.
Definition ex_imports (l : list string) : list ast := (fun s => AOther [str s]) <$> l.
Definition ex_if_err (body : list ast) : ast := AOther [AOther [ex_id "err"; ex_id "nil"]; AOther body].
(** func main() { if err := run(); err != nil { log.Fatal(err) } } *)
Definition ex_main : ast :=
  AOther [ex_id "main"; AOther [AOther [AOther [ex_id "err"; ACall (ex_id "run") []]; ex_if_err [ACall (ex_sel "log" "Fatal") [ex_id "err"]]]]].
Definition ex_println (label method : string) : ast :=
  ACall (ex_sel "fmt" "Println") [str label; ACall (ex_sel "info" method) []].

Definition ex_reports : list ast :=
  [ex_println "Name: " "Name"; ex_println "Size: " "Size"; ex_println "Mode: " "Mode"; ex_println "ModTime: " "ModTime"].
(** open/pkger/main.go *)
Definition open_ast : ast := AOther ([ex_id "main"] ++ ex_imports ["fmt"; "io"; "log"; "os"; "github.com/markbates/pkger"]%string ++
  [ex_main; AOther [ex_id "run"; AOther [ex_id "error"]; AOther ([
     AOther [ex_id "f"; ex_id "err"; src_call "Open" [str "/public/index.html"]]; ex_if_err [ex_id "err"];
     AOther [ACall (ex_sel "f" "Close") []];
     AOther [ex_id "info"; ex_id "err"; ACall (ex_sel "f" "Stat") []]; ex_if_err [ex_id "err"]] ++ ex_reports ++
     [AOther [AOther [ex_id "_"; ex_id "err"; ACall (ex_sel "io" "Copy") [ex_sel "os" "Stdout"; ex_id "f"]]; ex_if_err [ex_id "err"]]; ex_id "nil"])]]).
(** stat/pkger/main.go *)
Definition stat_ast : ast := AOther ([ex_id "main"] ++ ex_imports ["fmt"; "log"; "github.com/markbates/pkger"]%string ++
  [ex_main; AOther [ex_id "run"; AOther [ex_id "error"]; AOther ([
     AOther [ex_id "info"; ex_id "err"; src_call "Stat" [str "/public/index.html"]]; ex_if_err [ex_id "err"]] ++ ex_reports ++ [ex_id "nil"])]]).
(** walk/pkger/main.go *)
Definition walk_ast : ast := AOther ([ex_id "main"] ++ ex_imports ["fmt"; "log"; "os"; "text/tabwriter"; "time"; "github.com/markbates/pkger"]%string ++
  [ex_main; AOther [ex_id "run"; AOther [ex_id "error"]; AOther [
     AOther [ex_id "w"; ACall (ex_sel "tabwriter" "NewWriter") [ex_sel "os" "Stdout"; ALit (B"0"); ALit (B"0"); ALit (B"0"); ALit (B"' '"); ex_sel "tabwriter" "Debug"]];
     AOther [ACall (ex_sel "w" "Flush") []];
     AOther [src_call "Walk" [str "/public";
       AOther [AOther [AOther [ex_id "path"; ex_id "string"; ex_id "info"; ex_sel "os" "FileInfo"; ex_id "err"; ex_id "error"]; ex_id "error"];
         AOther [ex_if_err [ex_id "err"];
           ACall (ex_sel "fmt" "Fprintf") [ex_id "w"; ALit (JsonStr.quote :: B"%s \t %d \t %s \t %s \t\n" ++ [JsonStr.quote]);
             ACall (ex_sel "info" "Name") []; ACall (ex_sel "info" "Size") []; ACall (ex_sel "info" "Mode") [];
             ACall (ASel (ACall (ex_sel "info" "ModTime") []) (B"Format")) [ex_sel "time" "RFC3339"]]; ex_id "nil"]]]]]]]).
(** http/pkger/main.go *)
Definition http_ast : ast := AOther ([ex_id "main"] ++ ex_imports ["log"; "net/http"; "github.com/markbates/pkger"]%string ++
  [ex_main; AOther [ex_id "run"; AOther [ex_id "error"]; AOther [
     AOther [ex_id "dir"; ACall (ex_sel "http" "FileServer") [src_call "Dir" [str "/public"]]];
     AOther [ACall (ex_sel "http" "ListenAndServe") [str ":3000"; ex_id "dir"]]]]]).
(** dynamic/pkger/main.go; the permission 0755 is a literal. *)
Definition dynamic_ast : ast := AOther ([ex_id "main"] ++ ex_imports ["fmt"; "io"; "log"; "os"; "github.com/markbates/pkger"]%string ++
  [ex_main; AOther [ex_id "run"; AOther [ex_id "error"]; AOther [
     AOther [ex_id "info"; ex_id "err"; src_call "Stat" [str "/go.mod"]]; ex_if_err [ex_id "err"];
     ACall (ex_sel "fmt" "Println") [ex_id "info"];
     AOther [AOther [ex_id "err"; src_call "MkdirAll" [str "/foo/bar/baz"; ALit (B"0755")]]; ex_if_err [ex_id "err"]];
     AOther [ex_id "f"; ex_id "err"; src_call "Create" [str "/foo/bar/baz/biz.txt"]]; ex_if_err [ex_id "err"];
     ACall (ex_sel "f" "Write") [AOther [AOther [ex_id "byte"]; str "BIZ!!"]];
     AOther [AOther [ex_id "err"; ACall (ex_sel "f" "Close") []]; ex_if_err [ex_id "err"]];
     AOther [ex_id "f"; ex_id "err"; src_call "Open" [str "/foo/bar/baz/biz.txt"]]; ex_if_err [ex_id "err"];
     ACall (ex_sel "io" "Copy") [ex_sel "os" "Stdout"; ex_id "f"];
     AOther [ACall (ex_sel "f" "Close") []]]]]).

(** run, dynamic/pkger/main.go:18-43, as the calls it makes when none of them
    fails; io.Copy reads until io.EOF, here twice.  What fmt.Println makes of the
    FileInfo is left out: the answer of Stat has its name, size and kind. *)
Definition dyn_mod : list bytes := [B"go.mod"].
Definition dyn_dir : list bytes := [B"foo"; B"bar"; B"baz"].
Definition dyn_biz : list bytes := dyn_dir ++ [B"biz.txt"].
Definition dynamic_run (chunk : nat) : list hact :=
  [HAct (AStat dyn_mod); HAct (AMkdir dyn_dir); HCreate dyn_biz; HWrite 0 (B"BIZ!!"); HClose 0;
   HOpen dyn_biz; HRead 1 chunk; HRead 1 chunk; HClose 1].
