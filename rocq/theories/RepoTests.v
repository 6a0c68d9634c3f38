(** The repository's own unit tests, replayed on the model: what a test of
    /repo asserts is computed here.  A wrong model of a tested function would
    make one of these examples fail.

    The tree below is /repo/pkging/pkgtest/testdata/ref, with short texts in
    place of the large files; the syntax trees are those of its .go files. *)
From Verif Require Import Bytes GoPath Here GoTypes Mem MemSpec MemBase MemFiles WalkSpec MemWalk Disk DiskOps Std Both Handles Decls
  GoQuote Source ParserDirs PropsSource Project JsonStr JsonText Embed Marshal MarshalMem PropsEmbed PropsMarshal Pack PropsPack.
From Verif Require Import Http PropsHttp.
From Verif Require Decode.

(** ** The disk *)

(** os.ModeDir and the permissions of the test data. *)
Definition mode_dir : N := 2147483648.
Definition t_ref : gotime := GoTime 1580000000 7 0.
Definition dir_meta : meta := Meta (mode_dir + 493) t_ref 4096 JNull true.
Definition D (w : string) (cs : list (bytes * node)) : bytes * node := (list_ascii_of_string w, NDir dir_meta cs).
Definition F (w text : string) : bytes * node :=
  (list_ascii_of_string w, NFile (Meta 420 t_ref (Z.of_nat (String.length text)) JNull true) (list_ascii_of_string text)).

Definition ref_tree : list (bytes * node) :=
  [D "actions" [F "actions.go" "src:actions"];
   D "assets" [D "css" [F "_buffalo.scss" "a"; F "application.scss" "bb"]; D "images" [F "favicon.ico" "icon"; F "logo.svg" "<svg/>"];
               D "js" [F "application.js" "js"]];
   F "go.mod" "module app"; F "go.sum" "sums";
   D "locales" [F "all.en-us.yaml" "en"];
   F "main.go" "src:main";
   D "mod" [F "mod.go" "src:mod"];
   D "models" [F "models.go" "src:models"];
   D "public" [D "assets" [F ".keep" ""; F "app.css" "body{}"]; D "images" [F "img1.png" "PNG"]; F "index.html" "<h1>hi</h1>"; F "robots.txt" "no"];
   D "templates" [F "_flash.plush.html" "f"; F "application.plush.html" "a"; F "index.plush.html" "i"];
   D "web" [F "web.go" "src:web"]].

(** After pkgtest.NewRef (ref.go:19-91): the module directory is new and has
    go.mod and go.sum. *)
Definition ref_disk : node :=
  NDir dir_meta [D "w" [F "README.md" "# pkger"; F "go.mod" "module github.com/markbates/pkger";
    D "pkging" [D "pkgtest" [D "testdata" [D "ab12" [F "go.mod" "module app"; F "go.sum" "sums"]; D "ref" ref_tree]]]];
    D "x" [F "go.mod" "module github.com/stretchr/testify"]].

Definition ref_root : bytes := B"/w/pkging/pkgtest/testdata/ref".
Definition ref_dir : bytes := B"/w/pkging/pkgtest/testdata/ab12".
Definition ref_info : hinfo := HInfo ref_dir (B"app") (B"app") (B"app") true ref_dir (ref_dir ++ B"/go.mod") (B"go1.13").
Definition pkger_name : bytes := B"github.com/markbates/pkger".
Definition pkger_info : hinfo := HInfo (B"/w") pkger_name (B"pkger") pkger_name true (B"/w") (B"/w/go.mod") (B"1.13").
Definition testify : bytes := B"github.com/stretchr/testify".
Definition testify_info : hinfo := HInfo (B"/x") testify (B"testify") testify false (B"/x") (B"/x/go.mod") (B"1.13").
(** here.Package and here.Dir, "go list" run in these directories. *)
Definition ref_hpkg (p : bytes) : res hinfo :=
  if bool_decide (p = B"app") then Ok ref_info else if bool_decide (p = pkger_name) then Ok pkger_info
  else if bool_decide (p = testify) then Ok testify_info else Err (EMsg p).
Definition ref_hdir (p : bytes) : res hinfo :=
  if bool_decide (p = ref_dir) then Ok ref_info
  else if has_prefix p (ref_dir ++ B"/") then
    Ok (HInfo p (B"app" ++ trim_prefix p ref_dir) (base p) (B"app") true ref_dir (ref_dir ++ B"/go.mod") (B"go1.13"))
  else if has_prefix p (B"/w") then Ok (HInfo p (pkger_name ++ trim_prefix p (B"/w")) (base p) pkger_name true (B"/w") (B"/w/go.mod") (B"1.13"))
  else if has_prefix p (B"/x") then Ok testify_info else Err (EMsg p).

(** ** Loading files into a pkger *)

(** LoadFiles into the in-memory pkger, load_ref.go:56-142: the infos it
    returns. *)
Definition load_fn (name : bytes) : wfunc (list details * mem) :=
  fun p info err st =>
    match err, info with
    | Some e, _ => (st, Some e)
    | None, None => (st, Some EBadHandle)
    | None, Some info =>
        if has_prefix (base p) (B".") then (st, None)
        else
          let m := st.2 in let infos := st.1 ++ [info] in
          match here_parse (m_here m) (join2 name (trim_prefix p (join2 ref_root name))) with
          | None => ((infos, m), Some EParse)
          | Some pt =>
              if d_isdir info then
                let '(m, e) := mkdir_all here_parse (mk_fuel (p_name pt)) t9 m (p_name pt) (d_mode info) in ((infos, m), e)
              else
                match create here_parse t9 m (p_name pt) with
                | (m, Err e) => ((infos, m), Some e)
                | (m, Ok r) =>
                    let '(m, (_, e)) := file_write m r (match find ref_disk p with Some n => contents n | None => [] end) in
                    let '(m, e') := file_close t9 m r in ((infos, m), e)
                end
          end
    end.
Definition load_files (name : bytes) (m : mem) : (list details * mem) * option gerr :=
  walk_disk ref_disk (join2 ref_root name) (load_fn name) ([], m).

(** LoadFiles into the on-disk pkger. *)
Definition std_load_fn (name : bytes) : wfunc (list details * (node * sto)) :=
  fun p info err st =>
    match err, info with
    | Some e, _ => (st, Some e)
    | None, None => (st, Some EBadHandle)
    | None, Some info =>
        if has_prefix (base p) (B".") then (st, None)
        else
          let '(fs, s) := st.2 in let infos := st.1 ++ [info] in
          match here_parse (so_here s) (join2 name (trim_prefix p (join2 ref_root name))) with
          | None => ((infos, (fs, s)), Some EParse)
          | Some pt =>
              if d_isdir info then
                let '(fs, s, e) := std_mkdir_all here_parse dir_meta ref_hpkg fs s (p_name pt) in ((infos, (fs, s)), e)
              else
                match std_create here_parse (Meta 420 t_ref 0 JNull true) ref_hpkg fs s (p_name pt) with
                | (fs, s, Err e) => ((infos, (fs, s)), Some e)
                | (fs, s, Ok f) =>
                    match sfile_write fs f (match find ref_disk p with Some n => contents n | None => [] end) with
                    | Ok (fs, _) => ((infos, (fs, s)), None)
                    | Err e => ((infos, (fs, s)), Some e)
                    end
                end
          end
    end.
Definition std_load_files (name : bytes) (fs : node) (s : sto) : (list details * (node * sto)) * option gerr :=
  walk_disk fs (join2 ref_root name) (std_load_fn name) ([], (fs, s)).

(** CmpFileInfo, pkgtest.go:63-77. *)
Definition cmp_info (a b : details) : bool :=
  bool_decide (d_isdir a = d_isdir b) && bool_decide (d_name a = d_name b) && negb (bool_decide (d_mtime b = Decode.zero_time))
  && bool_decide (N.testbit (d_mode b) 31 = d_isdir a).
Fixpoint cmp_infos (l l' : list details) : bool :=
  match l, l' with [], [] => true | a :: l, b :: l' => cmp_info a b && cmp_infos l l' | _, _ => false end.

(** The infos a Walk shows. *)
Definition walk_infos (m : mem) (p : bytes) : list details * option gerr :=
  let '((l, _), e) := walk here_parse m p (fun _ info l m => ((l ++ [info], m), None)) [] in (l, e).
Definition std_walk_infos (fs : node) (s : sto) (p : bytes) : list details * option gerr :=
  let '((l, _), e) := std_walk here_parse ref_hpkg fs s p (fun _ info l => (l ++ [info], None)) [] in (l, e).

(** ** The suite of pkging/pkgtest *)

Definition mem_app : mem := mem_new ref_info.
Definition std_app : sto := std_new ref_info.
Definition new_meta : meta := Meta 420 t_ref 0 JNull true.
Definition both_runs (l : list hact) : list hans * list hans :=
  ((mem_hs here_parse t9 mem_app [] l).2, (disk_hs here_parse new_meta ref_hpkg (2^62) ref_disk std_app [] l).2).

(** CreateTest, create.go:12-41; ioutil.ReadAll reads until io.EOF. *)
Example create_test :
  let name := [B"create.test"] in let data := B"/CREATE.TEST" in
  let expected := [XAns (AInfo None); XOk true; XWrote (Some 12); XOk true; XOk true; XRead data None; XRead [] (Some EEOF); XOk true;
                   XAns (AInfo (Some (B"create.test", false, Some 12%Z)))] in
  both_runs [HAct (AStat name); HCreate name; HWrite 0 data; HClose 0; HOpen name; HRead 1 512; HRead 1 512; HClose 1; HAct (AStat name)]
    = (expected, expected).
Proof. by vm_compute. Qed.

(** MkdirAllTest, mkdir_all.go:10-29. *)
Example mkdir_all_test :
  let name := B"/all/this/useless/beauty" in
  (exists e, stat here_parse mem_app name = Err e) /\
  match mkdir_all here_parse (mk_fuel name) t9 mem_app name 493 with
  | (m, None) =>
      match open here_parse m name with
      | (m, Ok r) => file_name m r = Some (B"app:" ++ name) /\ (fun f => d_name (f_info f)) <$> (m_heap m !! r) = Some (B"beauty")
      | _ => False
      end
  | _ => False
  end /\
  (exists e, (std_stat here_parse ref_hpkg ref_disk std_app name).2 = Err e) /\
  match std_mkdir_all here_parse dir_meta ref_hpkg ref_disk std_app name with
  | (fs, s, None) =>
      match std_open here_parse ref_hpkg fs s name with
      | (_, Ok f) => path_string (sf_path f) = B"app:" ++ name /\ d_name (sfile_stat f) = B"beauty"
      | _ => False
      end
  | _ => False
  end.
Proof. vm_compute. repeat split; eexists; reflexivity. Qed.

(** OpenTest, open.go:13-45 (it opens "//go.mod"); StatTest, stat.go:12-25. *)
Example open_test :
  match find ref_disk (ref_dir ++ B"/go.mod") with
  | Some n =>
      let osi := info_of (B"go.mod") n in
      match create here_parse t9 mem_app (B"/go.mod") with
      | (m, Ok r) =>
          let m := (file_close t9 (file_write m r (contents n)).1 r).1 in
          match open here_parse m (B"//go.mod") with
          | (m, Ok h) =>
              (fun f => cmp_info osi (f_info f)) <$> m_heap m !! h = Some true /\
              (file_read m h 512).2 = (contents n, None)
          | _ => False
          end /\
          match stat here_parse m (B"/go.mod") with
          | Ok h => (fun f => cmp_info osi (f_info f)) <$> m_heap m !! h = Some true
          | Err _ => False
          end
      | _ => False
      end /\
      match std_open here_parse ref_hpkg ref_disk std_app (B"//go.mod") with
      | (_, Ok f) => cmp_info osi (sfile_stat f) = true /\ (sfile_read ref_disk f 512).2 = (contents n, None)
      | _ => False
      end
  | None => False
  end.
Proof. vm_compute. repeat split. Qed.

(** RemoveTest, remove.go:10-25, and RemoveAllTest, remove_all.go:10-25. *)
Example remove_test :
  let name := [B"go.mod"] in
  let expected := [XAns (ADone true); XAns (AInfo (Some (B"go.mod", false, Some 10%Z))); XAns (ADone true); XAns (AInfo None)] in
  both_runs (HAct <$> [AWrite name [B"module app"]; AStat name; ARemove name; AStat name]) = (expected, expected).
Proof. by vm_compute. Qed.
Example remove_all_test :
  let name := [B"public"; B"assets"] in
  let expected := [XAns (ADone true); XAns (AInfo (Some (B"assets", true, None))); XAns (ADone true); XAns (AInfo None)] in
  both_runs (HAct <$> [AMkdir name; AStat name; ARemoveAll name; AStat name]) = (expected, expected).
Proof. by vm_compute. Qed.

(** WalkTest, walk.go:11-38. *)
Example walk_test :
  match load_files (B"/public") mem_app with
  | ((exp, m), None) =>
      let '(act, e) := walk_infos m (B"/public") in
      e = None /\ cmp_infos exp act = true /\
      d_name <$> act = [B"public"; B"assets"; B"app.css"; B"images"; B"img1.png"; B"index.html"; B"robots.txt"]
  | _ => False
  end /\
  match std_load_files (B"/public") ref_disk std_app with
  | ((exp, (fs, s)), None) =>
      let '(act, e) := std_walk_infos fs s (B"/public") in e = None /\ d_name <$> act = d_name <$> exp /\ length act = 7
  | _ => False
  end.
Proof. vm_compute. repeat split. Qed.

(** CurrentTest and InfoTest, current.go, info.go. *)
Example info_test : m_here mem_app = ref_info /\ m_infos mem_app !! B"app" = Some ref_info /\
  so_here std_app = ref_info /\ (std_info ref_hpkg std_app (B"app")).2 = Ok ref_info.
Proof. by vm_compute. Qed.

(** HTTPTest, http.go:15-71: the status and the body are those of
    http.FileServer(http.Dir(...)). http.Get follows redirections. *)
Definition asked : list bytes := [B"/"; B"/index.html"; B"/"; B"/images"; B"/images/"; B"/images/img1.png"].
Definition answers {S H} (o : hfs S H) (s : S) : list (Z * bytes) :=
  (fun p => let r := (serve o mime_ex sniff_ex (B"XX") 8 (get_of p) s).2 in (r_code r, r_body r)) <$> asked.
Example http_test :
  match load_files (B"/public") mem_app, std_load_files (B"/public") ref_disk std_app with
  | ((_, m), None), ((_, (fs, s)), None) =>
      match open here_parse m (B"/public"), std_open here_parse ref_hpkg fs s (B"/public") with
      | (m, Ok r), (s, Ok f) =>
          let expected := answers (dir_server fs (ref_dir ++ B"/public")) (tt, 0) in
          expected.*1 = [200; 301; 200; 301; 200; 200]%Z /\
          answers (mem_server here_parse t9 r) m = expected /\ answers (std_server here_parse ref_hpkg fs f) (s, 1) = expected
      | _, _ => False
      end
  | _, _ => False
  end.
Proof. vm_compute. repeat split. Qed.

(** ** pkging/mem *)

(** Test_File_Seek, mem/file_test.go:11-64. *)
Example seek_test :
  let data := B"a shot in the arm" in
  match create here_parse t9 (mem_new pkger_info) (B":/wilco.band") with
  | (m, Ok r) =>
      let m := (file_close t9 (file_write m r data).1 r).1 in
      match open here_parse m (B":/wilco.band") with
      | (m, Ok h) =>
          let '(m, p1) := file_seek m h 0 2 in
          let '(m, p2) := file_seek m h 0 0 in
          let '(m, b1) := file_read m h 512 in
          let '(m, b2) := file_read m h 512 in
          let '(m, p3) := file_seek m h 0 0 in
          let '(m, b3) := file_read m h 512 in
          let '(m, b4) := file_read m h 512 in
          let '(m, b5) := file_read m h 512 in
          let '(m, p4) := file_seek m h 10 0 in
          let '(m, b6) := file_read m h 512 in
          (p1, p2, p3, p4) = ((17%Z, None), (0%Z, None), (0%Z, None), (10%Z, None)) /\
          (b1, b2, b3, b4, b5, b6) =
            ((data, None), ([], Some EEOF), (data, None), ([], Some EEOF), ([], Some EEOF), (B"the arm", None))
      | _ => False
      end
  | _ => False
  end.
Proof. vm_compute. repeat split. Qed.

(** Test_Pkger_Add, mem/add_test.go:12-60: every path under testdata/ref is
    given to Add; Walk("/") then shows as many, in the same order, with the
    same names, sizes, modes and kinds. *)
Definition add_each : wfunc (list details * mem) :=
  fun p info err st =>
    match err, info, find ref_disk p with
    | None, Some info, Some n =>
        let '(m, e) := add here_parse ref_hdir ref_hpkg ref_disk st.2 p n in ((st.1 ++ [info], m), e)
    | _, _, _ => (st, Some EBadHandle)
    end.
Example add_test :
  match walk_disk ref_disk ref_root add_each ([], mem_new pkger_info) with
  | ((exp, m), None) =>
      let '(act, e) := walk_infos m (B"/") in
      e = None /\ length exp = 35 /\
      (fun d => (d_name d, d_size d, d_mode d, d_isdir d)) <$> act = (fun d => (d_name d, d_size d, d_mode d, d_isdir d)) <$> exp
  | _ => False
  end.
Proof. vm_compute. repeat split. Qed.

(** ** The parser and the packer *)

Definition sel (x y : string) : ast := ASel (AIdent (list_ascii_of_string x) None) (list_ascii_of_string y).
Definition id (x : string) : ast := AIdent (list_ascii_of_string x) None.
Definition imports (l : list string) : list ast := (fun s => AOther [str s]) <$> l.
(** if err != nil { ... } *)
Definition if_err (body : list ast) : ast := AOther [AOther [id "err"; id "nil"]; AOther body].
(** func(path string, info os.FileInfo, err error) error { ... } *)
Definition walk_lit (body : list ast) : ast :=
  AOther [AOther [AOther [id "path"; id "string"; id "info"; sel "os" "FileInfo"; id "err"; id "error"]; id "error"]; AOther body].
Definition biz : string := "/foo/bar/baz/biz.txt"%string.

(** testdata/ref/main.go; the constant pathAsset is object 1. *)
Definition main_ast : ast := AOther ([id "main"] ++ imports ["fmt"; "io"; "log"; "os"; "app/actions"; "github.com/markbates/pkger"]%string ++
  [AOther [id "main"; AOther [src_call "Include" [str "/web"];
     AOther [AOther [id "err"; ACall (id "run") []]; if_err [ACall (sel "log" "Fatal") [id "err"]]]]];
   AOther [AOther [AIdent (B"unused") (Some 0); AIdent (B"pathAsset") (Some 1); str ""; str "/assets"]];
   AOther [id "run"; AOther [id "error"];
     AOther [AOther [id "err"; ACall (sel "actions" "WalkTemplates") [sel "os" "Stdout"]; if_err [id "err"]];
       AOther [id "err"; src_call "Walk" [AIdent (B"pathAsset") (Some 1);
         walk_lit [if_err [id "err"]; ACall (sel "fmt" "Println") [id "path"]; id "nil"]]];
       if_err [id "err"]; id "nil"]];
   AOther [id "dynamic"; AOther [id "error"];
     AOther [AOther [id "info"; id "err"; src_call "Stat" [str "/go.mod"]]; if_err [id "err"]; ACall (sel "fmt" "Println") [id "info"];
       AOther [AOther [id "err"; src_call "MkdirAll" [str "/foo/bar/baz"; ALit (B"0755")]]; if_err [id "err"]];
       AOther [id "f"; id "err"; src_call "Create" [str biz]]; if_err [id "err"];
       ACall (sel "f" "Write") [ACall (AOther [id "byte"]) [str "BIZ!!"]];
       AOther [AOther [id "err"; ACall (sel "f" "Close") []]; if_err [id "err"]];
       AOther [id "f"; id "err"; src_call "Open" [str biz]]; if_err [id "err"];
       ACall (sel "io" "Copy") [sel "os" "Stdout"; id "f"]; ACall (sel "f" "Close") []]]]).
Definition main_objs : nat -> object := fun o =>
  if decide (o < 2) then Obj true (Some ([B"unused"; B"pathAsset"], [str ""; str "/assets"])) else Obj false None.

(** actions/actions.go, mod/mod.go, models/models.go, web/web.go *)
Definition actions_ast : ast := AOther ([id "actions"] ++ imports ["fmt"; "io"; "os"; "github.com/markbates/pkger"]%string ++
  [AOther [id "WalkTemplates"; AOther [id "w"; sel "io" "Writer"; id "error"];
     AOther [src_call "Walk" [str "/templates"; walk_lit [if_err [id "err"];
       AOther [id "_"; id "err"; ACall (sel "w" "Write") [ACall (AOther [id "byte"]) [ACall (sel "fmt" "Sprintf") [ALit (quote :: B"%s\n" ++ [quote]); id "path"]]]];
       id "err"]]]]]).
Definition mod_ast : ast := AOther ([id "mod"] ++ imports ["io/ioutil"; "github.com/markbates/pkger"]%string ++
  [AOther [id "Mod"; AOther [id "string"; id "error"];
     AOther [AOther [id "f"; id "err"; src_call "Open" [str "/go.mod"]]; if_err [str ""; id "nil"]; AOther [ACall (sel "f" "Close") []];
       AOther [id "b"; id "err"; ACall (sel "ioutil" "ReadAll") [id "f"]]; if_err [str ""; id "nil"]; ACall (id "string") [id "b"]; id "nil"]]]).
Definition models_ast : ast := AOther ([id "models"] ++ imports ["github.com/markbates/pkger"]%string ++
  [AOther [id "Stat"; AOther [src_call "Stat" [str "/locales/all.en-us.yaml"]]]]).
Definition web_ast : ast := AOther ([id "web"] ++ imports ["net/http"; "github.com/markbates/pkger"]%string ++
  [AOther [id "Serve"; AOther [src_call "Stat" [str "github.com/markbates/pkger:/README.md"];
     AOther [id "dir"; ACall (sel "http" "FileServer") [src_call "Dir" [str "/public"]]];
     ACall (sel "http" "ListenAndServe") [str ":3000"; id "dir"]]]]).
Definition ref_src : bytes -> bytes -> res source := fun _ text =>
  if bool_decide (text = B"src:main") then Ok (Src main_ast main_objs)
  else if bool_decide (text = B"src:actions") then Ok (Src actions_ast no_objs)
  else if bool_decide (text = B"src:mod") then Ok (Src mod_ast no_objs)
  else if bool_decide (text = B"src:models") then Ok (Src models_ast no_objs)
  else if bool_decide (text = B"src:web") then Ok (Src web_ast no_objs)
  else Err EParse.

(** The disk after LoadFiles("/", ref, disk). *)
Definition loaded : node := match std_load_files (B"/") ref_disk std_app with ((_, (fs, _)), _) => fs end.
Definition ref_decls (fs : node) (incs : list bytes) : res (list decl) :=
  parse_project here_parse ref_hdir ref_hpkg fs ref_src (fun l => l) 50 ref_info incs.
Definition ref_files (fs : node) (incs : list bytes) : res (list pfile) :=
  match ref_decls fs incs with Ok ds => files here_parse ref_hdir fs (fun l => l) ds | Err e => Err e end.
Definition count {A} (r : res (list A)) : option nat := match r with Ok l => Some (length l) | Err _ => None end.

(** Test_Parser_Ref, Test_Parser_Ref_Include, Test_Parser_dotGo_Directory,
    parser/parser_test.go:16-97; the counts of Test_Stuff,
    pkgutil/stuff_test.go:30-52. *)
Example load_count : match std_load_files (B"/") ref_disk std_app with ((infos, _), e) => length infos = 34 /\ e = None end.
Proof. vm_compute. repeat split. Qed.
Example parser_ref : count (ref_decls loaded []) = Some 11 /\ count (ref_files loaded []) = Some 25.
Proof. by vm_compute. Qed.
Example parser_ref_include : count (ref_files loaded [testify ++ B":/go.mod"]) = Some 26.
Proof. by vm_compute. Qed.
Example parser_dot_go_directory :
  match os_mkdir_all dir_meta loaded (ref_dir ++ B"/.go") with
  | Ok fs => n_isdir <$> find fs (ref_dir ++ B"/.go") = Some true /\ count (ref_decls fs []) = Some 11
  | Err _ => False
  end.
Proof. vm_compute. repeat split. Qed.

(** Test_Stuff, pkgutil/stuff_test.go:14-73: the packed pkger passes
    CurrentTest, InfoTest, OpenTest and WalkTest, and has /go.mod and
    /public/index.html.  (gzip and hex are left out: C28.) *)
Definition ref_packed : outcome mem :=
  match ref_decls loaded [] with
  | Err e => Failed e
  | Ok ds =>
      match stuffed here_parse ref_hdir ref_hpkg loaded (fun l => l) ref_info ds with
      | Err e => Failed e
      | Ok m => remake m
      end
  end.
Example stuff_test :
  match ref_packed with
  | Done m =>
      m_here m = ref_info /\ m_infos m !! B"app" = Some ref_info /\
      match open here_parse m (B"//go.mod") with
      | (m, Ok h) => (file_read m h 512).2 = (B"module app", None)
      | _ => False
      end /\
      match create here_parse t9 m (B"/go.mod") with
      | (m, Ok r) =>
          match open here_parse (file_close t9 (file_write m r (B"module app")).1 r).1 (B"//go.mod") with
          | (m, Ok h) => (fun f => (d_name (f_info f), d_isdir (f_info f))) <$> m_heap m !! h = Some (B"go.mod", false) /\
              (file_read m h 512).2 = (B"module app", None)
          | _ => False
          end
      | _ => False
      end /\
      match load_files (B"/public") m with
      | ((exp, m), None) =>
          let '(act, e) := walk_infos m (B"/public") in e = None /\ length act = 7 /\ cmp_infos exp act = true
      | _ => False
      end /\
      (exists r, stat here_parse m (B"/go.mod") = Ok r) /\ exists r, stat here_parse m (B"/public/index.html") = Ok r
  | _ => False
  end.
Proof. vm_compute. repeat split; eexists; reflexivity. Qed.

(** Test_Parser_Example_HTTP, parser/parser_test.go:99-129, on
    /repo/examples/http/pkger: five files, all below the module and /public. *)
Definition http_dir : bytes := B"/w/examples/http/pkger".
Definition http_info : hinfo := HInfo http_dir (B"app") (B"main") (B"app") true http_dir (http_dir ++ B"/go.mod") (B"1.13").
Definition http_disk : node :=
  NDir dir_meta [D "w" [D "examples" [D "http" [D "pkger" [F "Dockerfile" "d"; F "Makefile" "m"; F "go.mod" "module app"; F "go.sum" "s";
    F "main.go" "src:http"; D "public" [D "images" [F "img1.png" "1"; F "img2.png" "2"]; F "index.html" "<p>"]]]]]].
Definition http_ast : ast := AOther ([id "main"] ++ imports ["log"; "net/http"; "github.com/markbates/pkger"]%string ++
  [AOther [id "main"; AOther [AOther [id "err"; ACall (id "run") []]; if_err [ACall (sel "log" "Fatal") [id "err"]]]];
   AOther [id "run"; AOther [id "error"];
     AOther [AOther [id "dir"; ACall (sel "http" "FileServer") [src_call "Dir" [str "/public"]]];
       ACall (sel "http" "ListenAndServe") [str ":3000"; id "dir"]]]]).
Definition http_hdir (p : bytes) : res hinfo :=
  Ok (HInfo p (B"app" ++ trim_prefix p http_dir) (base p) (B"app") true http_dir (http_dir ++ B"/go.mod") (B"1.13")).
Example parser_example_http :
  match parse_project here_parse http_hdir ref_hpkg http_disk (fun _ _ => Ok (Src http_ast no_objs)) (fun l => l) 50 http_info [] with
  | Ok ds =>
      match files here_parse http_hdir http_disk (fun l => l) ds with
      | Ok l => length l = 5 /\ forallb (fun f => has_prefix (pf_abs f) http_dir && has_prefix (p_name (pf_path f)) (B"/public")) l = true
      | Err _ => False
      end
  | Err _ => False
  end.
Proof. vm_compute. repeat split. Qed.

(** ** The package functions on disk *)

(** Test_Create, Test_MkdirAll, Test_Stat, Test_Walk, Test_Remove,
    pkger_test.go:36-108 (Test_Parse is Here.parse_ex1). *)
Definition std_pkger : sto := std_new pkger_info.
Example pkger_test :
  (exists e, (std_open here_parse ref_hpkg ref_disk std_pkger (B"/tmp")).2 = Err e) /\
  match std_mkdir_all here_parse dir_meta ref_hpkg ref_disk std_pkger (B"/tmp") with
  | (fs, s, None) =>
      match std_open here_parse ref_hpkg fs s (B"/tmp") with
      | (_, Ok f) => path_string (sf_path f) = pkger_name ++ B":/tmp"
      | _ => False
      end /\
      match std_create here_parse new_meta ref_hpkg fs s (B"/tmp/test.create") with
      | (fs, s, Ok f) =>
          path_string (sf_path f) = pkger_name ++ B":/tmp/test.create" /\
          match std_remove here_parse ref_hpkg fs s (B"/tmp/test.create") with
          | (fs, s, None) => exists e, (std_stat here_parse ref_hpkg fs s (B"/tmp/test.create")).2 = Err e
          | _ => False
          end
      | _ => False
      end
  | _ => False
  end /\
  match std_stat here_parse ref_hpkg ref_disk std_pkger (B"/go.mod") with
  | (_, Ok info) => d_name info = B"go.mod"
  | _ => False
  end /\
  length (std_walk_infos ref_disk std_pkger (B"/pkging/pkgtest/testdata/ref")).1 = 35.
Proof. vm_compute. repeat split; eexists; reflexivity. Qed.
