(** Model of the on-disk pkger, /repo/pkging/stdos/stdos.go and file.go.

    [parse] is here.Info.Parse and [hp] here.Package (both of gobuffalo/here):
    arbitrary functions; [hp] runs "go list" and may answer differently each
    time, so every operation has its own.  [nm] is the metadata the system
    gives to new files and directories. *)
From Verif Require Import Bytes GoPath Here GoTypes WalkSpec Disk DiskOps.

(** stdos.go:16-19; the map from package to info is maps.Infos. *)
Record sto := Sto { so_here : hinfo; so_infos : gmap bytes hinfo }.

(** New, stdos.go:22-29. *)
Definition std_new (her : hinfo) : sto := Sto her {[h_import her := her]}.

(** Info, stdos.go:72-84. *)
Definition std_info (hp : bytes -> res hinfo) (s : sto) (p : bytes) : sto * res hinfo :=
  match so_infos s !! p with
  | Some info => (s, Ok info)
  | None =>
      match hp p with
      | Err e => (s, Err e)
      | Ok info => (Sto (so_here s) (<[p := info]> (so_infos s)), Ok info)
      end
  end.

(** File, file.go:14-20: the os.File is its path, position and, if opened for
    reading, the node. *)
Record sfile := SFile { sf_os : bytes; sf_pos : nat; sf_info : details; sf_her : hinfo; sf_path : path }.

Section Std.
  Context (parse : resolver) (nm : meta).

  (** Create, stdos.go:32-62. *)
  Definition std_create (hp : bytes -> res hinfo) (fs : node) (s : sto) (name : bytes) : node * sto * res sfile :=
    match parse (so_here s) name with
    | None => (fs, s, Err EParse)
    | Some pt =>
        let '(s, r) := std_info hp s (p_pkg pt) in
        match r with
        | Err e => (fs, s, Err e)
        | Ok her =>
            let name := join2 (h_dir her) (p_name pt) in
            match os_create nm fs name with
            | Err e => (fs, s, Err e)
            | Ok fs =>
                match os_stat fs name with          (* f.Stat() *)
                | Err e => (fs, s, Err e)
                | Ok d => (fs, s, Ok (SFile name 0 (new_file_info d) her pt))
                end
            end
        end
    end.

  (** MkdirAll, stdos.go:87-97: the path given, not the parsed one, is joined. *)
  Definition std_mkdir_all (hp : bytes -> res hinfo) (fs : node) (s : sto) (p : bytes) : node * sto * option gerr :=
    match parse (so_here s) p with
    | None => (fs, s, Some EParse)
    | Some pt =>
        let '(s, r) := std_info hp s (p_pkg pt) in
        match r with
        | Err e => (fs, s, Some e)
        | Ok info =>
            match os_mkdir_all nm fs (join2 (h_dir info) p) with
            | Err e => (fs, s, Some e)
            | Ok fs => (fs, s, None)
            end
        end
    end.

  (** Open, stdos.go:100-130. *)
  Definition std_open (hp : bytes -> res hinfo) (fs : node) (s : sto) (name : bytes) : sto * res sfile :=
    match parse (so_here s) name with
    | None => (s, Err EParse)
    | Some pt =>
        let '(s, r) := std_info hp s (p_pkg pt) in
        match r with
        | Err e => (s, Err e)
        | Ok her =>
            let name := join2 (h_dir her) (p_name pt) in
            match os_open fs name with
            | Err e => (s, Err e)
            | Ok n => (s, Ok (SFile name 0 (new_file_info (info_of (base name) n)) her pt))
            end
        end
    end.

  (** Stat, stdos.go:138-157. *)
  Definition std_stat (hp : bytes -> res hinfo) (fs : node) (s : sto) (name : bytes) : sto * res details :=
    match parse (so_here s) name with
    | None => (s, Err EParse)
    | Some pt =>
        let '(s, r) := std_info hp s (p_pkg pt) in
        match r with
        | Err e => (s, Err e)
        | Ok her =>
            match os_stat fs (join2 (h_dir her) (p_name pt)) with
            | Err e => (s, Err e)
            | Ok d => (s, Ok (new_file_info d))
            end
        end
    end.

  (** The function Walk gives to filepath.Walk, stdos.go:172-189. *)
  Definition std_walk_fn {S} (hp : bytes -> res hinfo) (g : bytes) (wf : bytes -> details -> S -> S * option gerr)
    : wfunc (S * sto) :=
    fun path fi err st =>
      match err, fi with
      | Some e, _ => (st, Some e)
      | None, None => (st, Some EBadHandle)
      | None, Some fi =>
          let '(x, s) := st in
          match parse (so_here s) (g ++ colon :: path) with
          | None => (st, Some EParse)
          | Some pt =>
              let '(s, r) := std_info hp s (p_pkg pt) in
              match r with
              | Err e => ((x, s), Some e)
              | Ok info =>
                  let path := replace_byte backslash slash (trim_prefix path (h_dir info)) in
                  let '(x, e) := wf (path_string (Path (p_pkg pt) path)) (new_file_info fi) x in
                  ((x, s), e)
              end
          end
      end.

  (** Walk, stdos.go:160-193. *)
  Definition std_walk {S} (hp : bytes -> res hinfo) (fs : node) (s : sto) (p : bytes)
      (wf : bytes -> details -> S -> S * option gerr) (x : S) : (S * sto) * option gerr :=
    match parse (so_here s) p with
    | None => ((x, s), Some EParse)
    | Some pt =>
        let '(s, r) := std_info hp s (p_pkg pt) in
        match r with
        | Err e => ((x, s), Some e)
        | Ok info => walk_disk fs (join2 (h_dir info) (p_name pt)) (std_walk_fn hp (p_pkg pt) wf) (x, s)
        end
    end.

  (** Remove, stdos.go:196-208. *)
  Definition std_remove (hp : bytes -> res hinfo) (fs : node) (s : sto) (name : bytes) : node * sto * option gerr :=
    match parse (so_here s) name with
    | None => (fs, s, Some EParse)
    | Some pt =>
        let '(s, r) := std_info hp s (p_pkg pt) in
        match r with
        | Err e => (fs, s, Some e)
        | Ok info =>
            match os_remove fs (join2 (h_dir info) (p_name pt)) with
            | Err e => (fs, s, Some e)
            | Ok fs => (fs, s, None)
            end
        end
    end.

  (** RemoveAll, stdos.go:211-223. *)
  Definition std_remove_all (hp : bytes -> res hinfo) (fs : node) (s : sto) (name : bytes) : node * sto * option gerr :=
    match parse (so_here s) name with
    | None => (fs, s, Some EParse)
    | Some pt =>
        let '(s, r) := std_info hp s (p_pkg pt) in
        match r with
        | Err e => (fs, s, Some e)
        | Ok info =>
            match os_remove_all fs (join2 (h_dir info) (p_name pt)) with
            | Err e => (fs, s, Some e)
            | Ok fs => (fs, s, None)
            end
        end
    end.

  (** File.Open, file.go:47-54. *)
  Definition sfile_open (hp : bytes -> res hinfo) (fs : node) (s : sto) (f : sfile) (name : bytes) : sto * res sfile :=
    std_open hp fs s (join2 (p_name (sf_path f)) name).

  (** File.Stat, file.go:62-73: info is always set, by Create and Open. *)
  Definition sfile_stat (f : sfile) : details := sf_info f.
End Std.

(** Writing through a file that is still at its path (os.File.Write). *)
Definition write_fn (pos : nat) (b : bytes) (x : option node) : option (option node) :=
  match x with
  | Some (NFile i d) => Some (Some (NFile i (take pos d ++ replicate (pos - length d) "000"%char ++ b ++ drop (pos + length b) d)))
  | _ => None
  end.
Definition sfile_write (fs : node) (f : sfile) (b : bytes) : res (node * sfile) :=
  at_path (sf_os f) (B"write") (fun ws =>
    match upd (write_fn (sf_pos f) b) fs ws with
    | Some fs => Ok (fs, SFile (sf_os f) (sf_pos f + length b) (sf_info f) (sf_her f) (sf_path f))
    | None => Err (EPath (B"write") (sf_os f))
    end).

(** os.File.Read: successive reads into buffers of sizes [ns]. *)
Fixpoint os_reads (content : bytes) (ns : list nat) : list (bytes * option gerr) :=
  match ns with
  | [] => []
  | n :: ns =>
      match n, content with
      | O, _ => ([], None) :: os_reads content ns
      | _, [] => ([], Some EEOF) :: os_reads [] ns
      | _, _ => (take n content, None) :: os_reads (drop n content) ns
      end
  end.

(** File.Readdir, file.go:42-44 (os.File.Readdir on an open directory, whose
    position counts the entries read so far).  The system's directory order is
    taken to be that of the tree. *)
Definition sfile_readdir (fs : node) (f : sfile) (count : Z) : sfile * (list details * option gerr) :=
  match find fs (sf_os f) with
  | Some (NDir _ cs) =>
      let rest := (fun x : bytes * node => info_of x.1 x.2) <$> drop (sf_pos f) cs in
      let go l := (SFile (sf_os f) (sf_pos f + length l) (sf_info f) (sf_her f) (sf_path f), (l, None)) in
      if (0 <? count)%Z then
        match rest with [] => (f, ([], Some EEOF)) | _ => go (take (Z.to_nat count) rest) end
      else go rest
  | _ => (f, ([], Some (EPath (B"readdirent") (sf_os f))))
  end.
