(** Model of the in-memory pkger: /repo/pkging/mem/{mem,file,add}.go.

    Go pointers to [mem.File] are heap references; the files map maps a
    here.Path to such a reference.  A File's [info *pkging.FileInfo] pointer is
    never shared between two File objects (mem.go:110,147,185, file.go:194,
    add.go:60,86 each allocate a fresh one; embed.go:71 takes the decoder's
    fresh one) and is never reassigned to another pointer (file.go:64-67
    stores the same pointer back), so the info is kept inside the File object
    and a *FileInfo returned by Stat is identified by its File's reference.

    Simplifications: a nil [info] does not occur for files made through the
    API; [pkging] is always the pkger at hand (an unmarshalled file has
    pkging = nil, but it only lives in the map, and mem.go:183-189 sets it on
    every handle handed out); the files map is used sequentially here (see
    Maps.v for its concurrent behaviour); time.Now() is an input [now]. *)
From Verif Require Import Bytes GoPath Here GoTypes.

(** bytes.Reader (Go standard library): the slice and the read offset. *)
Record breader := BReader { r_s : bytes; r_i : Z }.

(** bytes.Reader.Read (Go standard library): [n] is the length of the
    caller's buffer. *)
Definition reader_read (r : breader) (n : nat) : breader * (bytes * option gerr) :=
  if (Z.of_nat (length (r_s r)) <=? r_i r)%Z then (r, ([], Some EEOF))
  else let got := take n (drop (Z.to_nat (r_i r)) (r_s r)) in
       (BReader (r_s r) (r_i r + Z.of_nat (length got))%Z, (got, None)).

(** bytes.Reader.Seek (Go standard library). *)
Definition reader_seek (r : breader) (off : Z) (whence : Z) : breader * (Z * option gerr) :=
  let go abs := if (abs <? 0)%Z then (r, (0%Z, Some ENegSeek))
                else (BReader (r_s r) abs, (abs, None)) in
  if (whence =? 0)%Z then go off
  else if (whence =? 1)%Z then go (wrap64 (r_i r + off))
  else if (whence =? 2)%Z then go (wrap64 (Z.of_nat (length (r_s r)) + off))
  else (r, (0%Z, Some EWhence)).

(** mem.File, file.go:21-30. *)
Record fobj := FObj {
  f_here : hinfo;
  f_info : details;
  f_path : path;
  f_data : bytes;
  f_parent : path;
  f_writer : option bytes;       (* *bytes.Buffer: its contents *)
  f_reader : option breader
}.

Definition ref := nat.

(** mem.Pkger, mem.go:29-33, with the heap of File objects. *)
Record mem := Mem {
  m_here : hinfo;
  m_infos : gmap bytes hinfo;
  m_files : gmap path ref;
  m_heap : gmap ref fobj;
  m_next : ref
}.

Definition zero_path : path := Path [] [].

(** embed.File, pkging/embed/file.go:8-14. *)
Record efile := EFile {
  e_info : details;
  e_here : hinfo;
  e_path : path;
  e_data : bytes;
  e_parent : path
}.

(** The embed.File written for one stored File, mem/embed.go:21-27. *)
Definition efile_of (f : fobj) : efile :=
  EFile (f_info f) (f_here f) (f_path f) (f_data f) (f_parent f).

(** mem.New, mem.go:19-27. *)
Definition mem_new (her : hinfo) : mem :=
  Mem her {[h_import her := her]} ∅ ∅ 0.

Definition set_files (m : mem) (fs : gmap path ref) : mem :=
  Mem (m_here m) (m_infos m) fs (m_heap m) (m_next m).

(** Allocate a File object. *)
Definition alloc (m : mem) (f : fobj) : mem * ref :=
  (Mem (m_here m) (m_infos m) (m_files m) (<[m_next m := f]> (m_heap m)) (S (m_next m)),
   m_next m).

(** Update a File object in place. *)
Definition upd (m : mem) (r : ref) (f : fobj) : mem :=
  Mem (m_here m) (m_infos m) (m_files m) (<[r := f]> (m_heap m)) (m_next m).

(** maps.Files.Store / Delete, internal/maps/files.go:72-74,105-107. *)
Definition store (m : mem) (pt : path) (r : ref) : mem := set_files m (<[pt := r]> (m_files m)).
Definition delete_key (m : mem) (pt : path) : mem := set_files m (delete pt (m_files m)).

(** maps.Files.Keys, internal/maps/files.go:110-120: all keys sorted by their
    printed form.  (The order of two keys printing alike is unspecified in Go;
    merge sort picks one.) *)
Definition key_le (a b : path) : Prop := ble (path_string a) (path_string b) = true.
Global Instance key_le_dec a b : Decision (key_le a b).
Proof. unfold key_le. apply _. Defined.
Definition sorted_keys (m : mem) : list path :=
  merge_sort key_le (elements (dom (m_files m))).

(** maps.Files.Load followed by the dereference. *)
Definition file_at (m : mem) (pt : path) : option fobj :=
  r ← m_files m !! pt; m_heap m !! r.

(** The file table of Pkger.MarshalJSON, mem/embed.go:14-30: one entry per
    stored file under its printed path. *)
Definition marshal_files (m : mem) : gmap bytes efile :=
  list_to_map (omap (fun kv => (fun f => (path_string kv.1, efile_of f)) <$> m_heap m !! kv.2)
                    (map_to_list (m_files m))).

Definition no_such_pkg : bytes := B"no such package".
Definition could_not_stat : bytes := B"could not stat".
Definition unable_to_read : bytes := B"unable to read".

Section Mem.
  Context (parse : resolver).

  (** Pkger.Parse, mem.go:51-53. *)
  Definition mem_parse (m : mem) (p : bytes) : option path := parse (m_here m) p.

  (** Pkger.Info, mem.go:41-48. *)
  Definition mem_info (m : mem) (p : bytes) : res hinfo :=
    match m_infos m !! p with
    | Some i => Ok i
    | None => Err (EMsg no_such_pkg)
    end.

  (** Pkger.Remove, mem.go:56-68. *)
  Definition remove (m : mem) (name : bytes) : mem * option gerr :=
    match mem_parse m name with
    | None => (m, Some EParse)
    | Some pt =>
        match m_files m !! pt with
        | None => (m, Some (EPath (B"remove") (path_string pt)))
        | Some _ => (delete_key m pt, None)
        end
    end.

  (** Pkger.RemoveAll, mem.go:71-85: deletes every key whose Name has the
      resolved Name as a string prefix (the Pkg is not looked at). *)
  Definition remove_all (m : mem) (name : bytes) : mem * option gerr :=
    match mem_parse m name with
    | None => (m, Some EParse)
    | Some pt =>
        (set_files m
           (filter (fun kv => has_prefix (p_name kv.1) (p_name pt) = false) (m_files m)),
         None)
    end.

  (** Pkger.MkdirAll, mem.go:126-162.  The recursive call is on the directory
      part of the resolved Name, without the package.  f.Close() at :156 does
      nothing on a fresh File.  (The assignment to [dir] at :139-141 is dead.) *)
  Fixpoint mkdir_all (fuel : nat) (now : gotime) (m : mem) (p : bytes) (perm : N)
    : mem * option gerr :=
    match fuel with
    | O => (m, Some EFuel)
    | S fuel =>
        match mem_parse m p with
        | None => (m, Some EParse)
        | Some pt =>
            let '(dir, name) := path_split (p_name pt) in
            let '(m, e) :=
              if bool_decide (dir = B"/") then (m, None)
              else mkdir_all fuel now m dir perm in
            match e with
            | Some e => (m, Some e)
            | None =>
                let '(m, r) := alloc m
                  (FObj (m_here m) (Details name 0 perm now true JNull) pt [] zero_path None None) in
                (store m pt r, None)
            end
        end
    end.

  (** Enough fuel for every resolver that does not lengthen names (see
      [mkdir_fuel_enough]). *)
  Definition mk_fuel (p : bytes) : nat := length p + 4.

  (** Pkger.Stat, mem.go:195-205: returns the stored File's info pointer. *)
  Definition stat (m : mem) (name : bytes) : res ref :=
    match mem_parse m name with
    | None => Err EParse
    | Some pt =>
        match m_files m !! pt with
        | Some r => Ok r
        | None => Err (EMsg could_not_stat)
        end
    end.

  (** Pkger.Create, mem.go:88-123.  The error of MkdirAll("/") is dropped (:89);
      only its non-termination is passed on. *)
  Definition create (now : gotime) (m : mem) (name : bytes) : mem * res ref :=
    let '(m, e0) := mkdir_all (mk_fuel (B"/")) now m (B"/") 493 (* 0755 *) in
    if bool_decide (e0 = Some EFuel) then (m, Err EFuel) else
    match mem_parse m name with
    | None => (m, Err EParse)
    | Some pt =>
        match mem_info m (p_pkg pt) with
        | Err e => (m, Err e)
        | Ok her =>
            let dir := dirname (p_name pt) in
            let parent := if bool_decide (dir = B"/") then Ok O else stat m dir in
            match parent with
            | Err e => (m, Err e)
            | Ok _ =>
                let '(m, r) := alloc m
                  (FObj her (Details (base name) 0 420 (* 0644 *) now false JNull) pt [] zero_path None None) in
                (store m pt r, Ok r)
            end
        end
    end.

  (** Pkger.Open, mem.go:165-192: a fresh File sharing the data. *)
  Definition open (m : mem) (name : bytes) : mem * res ref :=
    match mem_parse m name with
    | None => (m, Err (EPath (B"open") name))
    | Some pt =>
        match file_at m pt with
        | None => (m, Err ENotExist)
        | Some f =>
            let '(m, r) := alloc m
              (FObj (f_here f) (new_file_info (f_info f)) (f_path f) (f_data f) zero_path None None) in
            (m, Ok r)
        end
    end.

  (** What a *pkging.FileInfo obtained from Stat shows when read in state [m]
      (its accessors are pkging/file_info.go:27-49). *)
  Definition info_at (m : mem) (r : ref) : option details :=
    f_info <$> m_heap m !! r.

  (** The reader a Read or Seek works on, file.go:34-36 and :73-75. *)
  Definition cur_reader (f : fobj) : option breader :=
    match f_reader f, f_data f with
    | Some rd, _ => Some rd
    | None, [] => None
    | None, d => Some (BReader d 0)
    end.

  (** File.Read, file.go:72-82. *)
  Definition file_read (m : mem) (r : ref) (n : nat) : mem * (bytes * option gerr) :=
    match m_heap m !! r with
    | None => (m, ([], Some EBadHandle))
    | Some f =>
        match cur_reader f with
        | None => (m, ([], Some (EMsg unable_to_read)))
        | Some rd =>
            let '(rd, out) := reader_read rd n in
            (upd m r (FObj (f_here f) (f_info f) (f_path f) (f_data f) (f_parent f)
                        (f_writer f) (Some rd)), out)
        end
    end.

  (** File.Seek, file.go:33-42. *)
  Definition file_seek (m : mem) (r : ref) (off whence : Z) : mem * (Z * option gerr) :=
    match m_heap m !! r with
    | None => (m, (0%Z, Some EBadHandle))
    | Some f =>
        match cur_reader f with
        | None => (m, (0%Z, None))
        | Some rd =>
            let '(rd, out) := reader_seek rd off whence in
            (upd m r (FObj (f_here f) (f_info f) (f_path f) (f_data f) (f_parent f)
                        (f_writer f) (Some rd)), out)
        end
    end.

  (** File.Write, file.go:85-91 (bytes.Buffer.Write always succeeds). *)
  Definition file_write (m : mem) (r : ref) (b : bytes) : mem * (nat * option gerr) :=
    match m_heap m !! r with
    | None => (m, (0, Some EBadHandle))
    | Some f =>
        let w := default [] (f_writer f) in
        (upd m r (FObj (f_here f) (f_info f) (f_path f) (f_data f) (f_parent f)
                    (Some (w ++ b)) (f_reader f)), (length b, None))
    end.

  (** File.Close, file.go:45-69 (a bytes.Reader is not an io.Closer, so
      :50-56 do nothing). *)
  Definition file_close (now : gotime) (m : mem) (r : ref) : mem * option gerr :=
    match m_heap m !! r with
    | None => (m, Some EBadHandle)
    | Some f =>
        match f_writer f with
        | None =>
            (upd m r (FObj (f_here f) (f_info f) (f_path f) (f_data f) (f_parent f) None None), None)
        | Some w =>
            let i := f_info f in
            (upd m r (FObj (f_here f)
                        (Details (d_name i) (Z.of_nat (length w)) (d_mode i) now (d_isdir i) (d_sys i))
                        (f_path f) w (f_parent f) None None), None)
        end
    end.

  (** File.Stat, file.go:99-104; File.Name, :107-109. *)
  Definition file_stat (m : mem) (r : ref) : res ref :=
    match m_heap m !! r with Some _ => Ok r | None => Err EBadHandle end.
  Definition file_name (m : mem) (r : ref) : option bytes :=
    (fun f => path_string (f_path f)) <$> m_heap m !! r.

  (** A filepath.WalkFunc as a state transformer: it gets the name and a fresh
      copy of the info, and may use the pkger ([m]) and its own state ([s]). *)
  Definition walk_fn (S : Type) := bytes -> details -> S -> mem -> (S * mem) * option gerr.

  (** The loop of Pkger.Walk, mem.go:216-250. *)
  Fixpoint walk_loop {S} (wf : walk_fn S) (pt : path) (keys : list path) (skip : bytes)
      (s : S) (m : mem) : (S * mem) * option gerr :=
    match keys with
    | [] => ((s, m), None)
    | k :: keys =>
        if negb (bool_decide (p_pkg k = p_pkg pt)) then walk_loop wf pt keys skip s m
        else if negb (has_prefix (p_name k) (p_name pt)) then walk_loop wf pt keys skip s m
        else if has_prefix (p_name k) skip then walk_loop wf pt keys skip s m
        else
          match file_at m k with
          | None => ((s, m), Some ENotExist)
          | Some f =>
              let '((s, m), e) := wf (path_string k) (new_file_info (f_info f)) s m in
              match e with
              | Some ESkipDir => walk_loop wf pt keys (p_name k) s m
              | Some e => ((s, m), Some e)
              | None => walk_loop wf pt keys skip s m
              end
          end
    end.

  (** Pkger.Walk, mem.go:208-252. *)
  Definition walk {S} (m : mem) (p : bytes) (wf : walk_fn S) (s : S) : (S * mem) * option gerr :=
    match mem_parse m p with
    | None => ((s, m), Some EParse)
    | Some pt => walk_loop wf pt (sorted_keys m) (B"!") s m
    end.

  (** The callback of File.Readdir, file.go:128-155. *)
  Definition readdir_fn (root : bytes) (parent : path) (count : Z) : walk_fn (list details) :=
    fun path info infos m =>
      if (0 <? count)%Z && (Z.of_nat (length infos) =? count)%Z then ((infos, m), Some EEOF)
      else if bool_decide (root = path) then ((infos, m), None)
      else match mem_parse m path with
           | None => ((infos, m), Some EParse)
           | Some pt =>
               if bool_decide (p_name pt = p_name parent) then ((infos, m), None)
               else
                 let infos := infos ++ [info] in
                 if d_isdir info && negb (bool_decide (path = root))
                 then ((infos, m), Some ESkipDir)
                 else ((infos, m), None)
           end.

  (** File.Readdir, file.go:125-167. *)
  Definition readdir (m : mem) (r : ref) (count : Z) : list details * option gerr :=
    match m_heap m !! r with
    | None => ([], Some EBadHandle)
    | Some f =>
        let root := path_string (f_path f) in
        match walk m root (readdir_fn root (f_parent f) count) [] with
        | ((infos, _), None) => (infos, None)
        | ((infos, _), Some (EPath _ _)) => (infos, None)
        | ((infos, _), Some EEOF) => (infos, None)
        | (_, Some e) => ([], Some e)
        end
    end.

  (** File.Open, file.go:170-203 (http.FileSystem). *)
  Definition file_open (m : mem) (r : ref) (name : bytes) : mem * res ref :=
    match m_heap m !! r with
    | None => (m, Err EBadHandle)
    | Some f =>
        match parse (f_here f) name with
        | None => (m, Err EParse)
        | Some pt =>
            if bool_decide (pt = f_path f) then (m, Ok r)
            else
              let pt := Path (p_pkg pt) (join2 (p_name (f_path f)) (p_name pt)) in
              match open m (path_string pt) with
              | (m, Err e) => (m, Err e)
              | (m, Ok d) =>
                  match m_heap m !! d with
                  | None => (m, Err EBadHandle)
                  | Some di =>
                      if d_isdir (f_info di) then
                        let '(m, d2) := alloc m
                          (FObj (f_here di) (new_file_info (f_info di)) pt [] (f_path f) None None) in
                        (m, Ok d2)
                      else (m, Ok d)
                  end
              end
        end
    end.

  (** What Pkger.Add records for one file, add.go:58-74 and :84-100. *)
  Definition add_file (m : mem) (pt : path) (her : hinfo) (info : details) (data : bytes) : mem :=
    let '(m, r) := alloc m
      (FObj her (new_file_info info) pt (if d_isdir info then [] else data) zero_path None None) in
    store m pt r.

  (** The loop of Pkger.UnmarshalJSON, embed.go:63-77,
      over the decoded file table in the order the Go map
      iteration happens to deliver it. *)
  Fixpoint load_files (m : mem) (l : list (bytes * efile)) : res mem :=
    match l with
    | [] => Ok m
    | (k, v) :: l =>
        match mem_parse m k with
        | None => Err EParse
        | Some pt =>
            let '(m, r) := alloc m
              (FObj (e_here v) (e_info v) (e_path v) (e_data v) (e_parent v) None None) in
            load_files (store m pt r) l
        end
    end.

  (** Pkger.UnmarshalJSON after json.Unmarshal, embed.go:56-79. *)
  Definition load (here : hinfo) (infos : gmap bytes hinfo) (l : list (bytes * efile)) : res mem :=
    load_files (Mem here infos ∅ ∅ 0) l.

  (** ** Operations and histories *)
  Inductive op :=
  | OCreate (name : bytes)
  | OMkdirAll (p : bytes) (perm : N)
  | ORemove (name : bytes)
  | ORemoveAll (name : bytes)
  | OOpen (name : bytes)
  | OStat (name : bytes)
  | OAdd (pt : path) (her : hinfo) (info : details) (data : bytes)
  | OWrite (r : ref) (b : bytes)
  | ORead (r : ref) (n : nat)
  | OSeek (r : ref) (off whence : Z)
  | OClose (r : ref)
  | OReaddir (r : ref) (count : Z)
  | OFileOpen (r : ref) (name : bytes).

  Inductive resp :=
  | RErr (e : option gerr)
  | RRef (x : res ref)
  | RBytes (b : bytes) (e : option gerr)
  | RNum (z : Z) (e : option gerr)
  | RInfos (l : list details) (e : option gerr).

  (** One API call at time [now]. *)
  Definition step (m : mem) (c : gotime * op) : mem * resp :=
    let '(now, o) := c in
    match o with
    | OCreate name => let '(m, x) := create now m name in (m, RRef x)
    | OMkdirAll p perm => let '(m, e) := mkdir_all (mk_fuel p) now m p perm in (m, RErr e)
    | ORemove name => let '(m, e) := remove m name in (m, RErr e)
    | ORemoveAll name => let '(m, e) := remove_all m name in (m, RErr e)
    | OOpen name => let '(m, x) := open m name in (m, RRef x)
    | OStat name => (m, RRef (stat m name))
    | OAdd pt her info data => (add_file m pt her info data, RErr None)
    | OWrite r b => let '(m, (n, e)) := file_write m r b in (m, RNum (Z.of_nat n) e)
    | ORead r n => let '(m, (b, e)) := file_read m r n in (m, RBytes b e)
    | OSeek r off wh => let '(m, (z, e)) := file_seek m r off wh in (m, RNum z e)
    | OClose r => let '(m, e) := file_close now m r in (m, RErr e)
    | OReaddir r n => let '(l, e) := readdir m r n in (m, RInfos l e)
    | OFileOpen r name => let '(m, x) := file_open m r name in (m, RRef x)
    end.

  (** A history of calls: final state and responses. *)
  Fixpoint run (m : mem) (cs : list (gotime * op)) : mem * list resp :=
    match cs with
    | [] => (m, [])
    | c :: cs =>
        let '(m, x) := step m c in
        let '(m, xs) := run m cs in (m, x :: xs)
    end.
End Mem.
