(** Symbolic links: what listing, packing and scanning do on a disk that has
    them.

    Disk.v knows files and directories only.  Here a disk may also hold links,
    and the parts of /repo that look at the disk while packing are written
    again over it: OpenDecl.Files and WalkDecl.Files (parser/open.go:50-78,
    walk.go:53-96), Decls.Files (decl.go:26-60), Pkger.Add (mem/add.go), the
    loop of Stuff (pkgutil/stuff.go:25-46), Parser.ParseDir and Parser.parse
    (parser/parser.go:91-135, :175-234).  What does not look at the disk is
    shared with Decls.v, Pack.v, ParserDirs.v and Project.v.

    The rules for following links are those of Linux (path_resolution(7)), from
    memory: os.Stat and os.Open follow links, os.Lstat follows all but the
    last element; filepath.Walk uses Lstat; at most 40 links are followed.  The
    other simplifications of Disk.v stay. *)
From Verif Require Import Bytes GoPath Here GoTypes WalkSpec Disk Mem Decls DeclsProofs Embed Marshal Pack JsonStr GoQuote Source SourceProofs ParserDirs
  Project.

Inductive lnode :=
| LFile (i : meta) (data : bytes)
| LDir (i : meta) (cs : list (bytes * lnode))
| LLink (i : meta) (target : bytes).

Fixpoint lchild (w : bytes) (cs : list (bytes * lnode)) : option lnode :=
  match cs with
  | [] => None
  | (v, c) :: cs => if bool_decide (w = v) then Some c else lchild w cs
  end.

(** What is at a place, following nothing. *)
Fixpoint lget (n : lnode) (ws : list bytes) : option lnode :=
  match ws with
  | [] => Some n
  | w :: ws =>
      match n with
      | LDir _ cs => match lchild w cs with Some c => lget c ws | None => None end
      | _ => None
      end
  end.

(** A node as Lstat and Walk see it: a link is a small file, of the size of its
    target's name, with its own mode and time. *)
Fixpoint bare (n : lnode) : node :=
  match n with
  | LFile i d => NFile i d
  | LDir i cs => NDir i (map (fun x : bytes * lnode => (x.1, bare x.2)) cs)
  | LLink i t => NFile i t
  end.

(** path_resolution(7): [cur] is the directory reached, [todo] the elements
    still to be looked up, [links] how many more links may be followed;
    [follow] tells whether a link as the last element is followed too. *)
Fixpoint walk_to (links : nat) (follow : bool) (fs : lnode) : list bytes -> list bytes -> option lnode :=
  fix go (cur todo : list bytes) : option lnode :=
    match todo with
    | [] => lget fs cur
    | w :: ws =>
        if bool_decide (w = []) || bool_decide (w = dot) then go cur ws
        else if bool_decide (w = dotdot) then go (removelast cur) ws
        else
          match lget fs (cur ++ [w]) with
          | None => None
          | Some (LDir _ _) => go (cur ++ [w]) ws
          | Some (LFile i d) => match ws with [] => Some (LFile i d) | _ => None end
          | Some (LLink i t) =>
              if follow || negb (bool_decide (ws = [])) then
                match links with
                | O => None
                | S links => walk_to links follow fs (if is_rooted t then [] else cur) (split_slash t ++ ws)
                end
              else Some (LLink i t)
          end
    end.

Definition max_links : nat := 40.
Definition l_at (follow : bool) (fs : lnode) (p : bytes) : option lnode :=
  if is_rooted p then walk_to max_links follow fs [] (clean_elems p) else None.

(** os.Stat and os.Open. *)
Definition l_stat (fs : lnode) (p : bytes) : res details :=
  match l_at true fs p with
  | Some n => Ok (info_of (base p) (bare n))
  | None => Err (EPath (B"stat") p)
  end.
Definition l_open (fs : lnode) (p : bytes) : res lnode :=
  match l_at true fs p with
  | Some n => if n_ok (n_meta (bare n)) then Ok n else Err (EPath (B"open") p)
  | None => Err (EPath (B"open") p)
  end.

(** filepath.Walk: Lstat at the root, then the entries as Lstat sees them. *)
Definition l_walk {S} (fs : lnode) (root : bytes) (f : wfunc S) (s : S) : S * option gerr :=
  let '(s, e) :=
    match l_at false fs root with
    | None => f root None (Some (EPath (B"lstat") root)) s
    | Some n => fwalk f root (bare n) s
    end in
  (s, if bool_decide (e = Some ESkipDir) then None else e).

Section Links.
  Context (parse : resolver) (hdir hpkg : bytes -> res hinfo) (fs : lnode).

  (** ** Listing *)

  (** WalkDecl.Files, walk.go:53-96. *)
  Definition l_walk_files (virt : gset bytes) (d : decl) : res (list pfile) :=
    match l_walk fs (decl_root d) (walk_decl_fn parse hdir virt) (pf_here (d_file d), []) with
    | (st, None) => Ok st.2
    | (_, Some e) => Err e
    end.

  (** OpenDecl.Files, open.go:50-78. *)
  Definition l_open_files (virt : gset bytes) (d : decl) : res (list pfile) :=
    if bool_decide (d_value d ∈ virt) then Ok []
    else
      match l_stat fs (decl_root d) with
      | Err e => Err e
      | Ok info => if d_isdir info then l_walk_files virt d else Ok [d_file d]
      end.

  Definition l_decl_files (virt : gset bytes) (d : decl) : res (list pfile) :=
    match dk d with
    | KWalk => l_walk_files virt d
    | _ => l_open_files virt d
    end.

  (** The first loop of Decls.Files, decl.go:30-50. *)
  Fixpoint l_collect (m : gmap bytes pfile) (v : gset bytes) (ds : list decl) : res (gmap bytes pfile) :=
    match ds with
    | [] => Ok m
    | d :: ds =>
        if is_virtual d then l_collect m ({[d_value d]} ∪ v) ds
        else
          match l_decl_files v d with
          | Err e => Err e
          | Ok files =>
              l_collect (fold_left (fun m f => <[pf_abs f := f]> m) files m)
                (fold_left (fun v f => {[pf_abs f]} ∪ v) files v) ds
          end
    end.

  (** Decls.Files, decl.go:26-60. *)
  Definition l_files (order : list pfile -> list pfile) (ds : list decl) : res (list pfile) :=
    match l_collect ∅ ∅ ds with
    | Err e => Err e
    | Ok m => Ok (merge_sort pf_le (order (map_to_list m).*2))
    end.

  (** ** Packing *)

  (** The callback of Pkger.Add's walk, add.go:37-75.  [info] is Lstat's, the
      bytes are read through the link; a directory cannot be read (io.Copy,
      add.go:66). *)
  Definition l_add_fn : wfunc mem :=
    fun p info err m =>
      match err, info with
      | Some e, _ => (m, Some e)
      | None, None => (m, Some EBadHandle)
      | None, Some info =>
          match l_open fs p with
          | Err e => (m, Some e)
          | Ok n =>
              match mem_parse parse m p with
              | None => (m, Some EParse)
              | Some pt =>
                  match hpkg (p_pkg pt) with
                  | Err e => (m, Some e)
                  | Ok her =>
                      if negb (d_isdir info) && n_isdir (bare n) then (m, Some (EPath (B"read") p))
                      else (add_file m pt her info (contents (bare n)), None)
                  end
              end
          end
      end.

  (** One round of Pkger.Add, add.go:18-101: f.Stat (:19) is about what was
      opened, the walk (:37) begins with Lstat. *)
  Definition l_add (m : mem) (p : bytes) (n : lnode) : mem * option gerr :=
    let info := info_of (base p) (bare n) in
    match mem_parse parse m p with
    | None => (m, Some EParse)
    | Some pt =>
        match hdir (if d_isdir info then p else dirname p) with
        | Err e => (m, Some e)
        | Ok her =>
            if d_isdir info then l_walk fs p l_add_fn m
            else (add_file m pt her info (contents (bare n)), None)
        end
    end.

  (** The loop of Stuff, stuff.go:25-46, and Stuff up to the marshalling. *)
  Fixpoint l_stuff_loop (m : mem) (l : list pfile) : res mem :=
    match l with
    | [] => Ok m
    | pf :: l =>
        if has_suffix (pf_abs pf) tmp_suffix then l_stuff_loop m l
        else
          match l_open fs (pf_abs pf) with
          | Err e => Err e
          | Ok n =>
              match l_add m (pf_abs pf) n with
              | (_, Some e) => Err e
              | (m, None) => l_stuff_loop m l
              end
          end
    end.
  Definition l_stuffed (order : list pfile -> list pfile) (c : hinfo) (ds : list decl) : res mem :=
    match l_files order ds with
    | Err e => Err e
    | Ok l => l_stuff_loop (mem_new c) l
    end.
  Definition l_stuff (gz : bytes -> bytes) (rg : ranging) (order : list pfile -> list pfile)
      (c : hinfo) (ds : list decl) : res bytes :=
    match l_stuffed order c ds with
    | Err e => Err e
    | Ok m => Ok (encode gz (marshal_json m (rg_files rg m) (rg_infos rg m)))
    end.

  (** ** Scanning *)

  Context (gosrc : bytes -> bytes -> res source).
  Context (dorder : list (bytes * source) -> list (bytes * source)).

  (** go/parser.ParseDir with the filter of parser.go:111-113: which entries
      are looked at is decided by Lstat, what is read is read through links. *)
  Definition l_go_file (p : bytes) : res source :=
    match l_open fs p with
    | Err e => Err e
    | Ok n => go_file gosrc p (bare n)
    end.
  Fixpoint l_go_files (p : bytes) (cs : list (bytes * lnode)) : res (list (bytes * source)) :=
    match cs with
    | [] => Ok []
    | (w, c) :: cs =>
        if has_suffix w (B".go") && negb (n_isdir (bare c)) then
          match l_go_file (join2 p w) with
          | Err e => Err e
          | Ok s => match l_go_files p cs with Ok l => Ok ((join2 p w, s) :: l) | Err e => Err e end
          end
        else l_go_files p cs
    end.

  (** Parser.ParseDir, parser.go:91-135. *)
  Definition l_parse_dir (p : bytes) : res (list (bytes * source)) :=
    match l_stat fs p with
    | Err e => Err e
    | Ok info =>
        if d_isdir info then
          match hdir p with
          | Err e => Err e
          | Ok her =>
              match parse her (trim_prefix p (dirname p)) with
              | None => Err EParse
              | Some _ =>
                  match l_open fs p with
                  | Err e => Err e
                  | Ok (LDir _ cs) => match l_go_files p cs with Ok l => Ok (dorder l) | Err e => Err e end
                  | Ok _ => Err (EPath (B"readdirent") p)
                  end
              end
          end
        else Err (EMsg (B"is not a directory"))
    end.
  Definition l_scan_dir (fuel : nat) (p : bytes) : res (list decl) :=
    match l_parse_dir p with Err e => Err e | Ok l => scan_sources parse hdir hpkg fuel l end.

  (** Parser.parse, parser.go:175-234, and parser.Parse. *)
  Definition l_parse_all (pdir : bytes -> res (list decl)) (her : hinfo) (incs : list bytes) : res (list bytes * list decl) :=
    match parse_includes parse hpkg her incs with
    | Err e => Err e
    | Ok ds =>
        match l_stat fs (h_dir her) with
        | Err e => Err e
        | Ok fi =>
            if d_isdir fi then
              match l_walk fs (h_dir her) (parse_fn pdir) ([], ds) with
              | (st, None) => Ok st
              | (_, Some e) => Err e
              end
            else Err (EMsg (B"is not a directory"))
        end
    end.
  Definition l_parse_project (fuel : nat) (her : hinfo) (incs : list bytes) : res (list decl) :=
    match l_parse_all (l_scan_dir fuel) her incs with
    | Err e => Err e
    | Ok (_, found) => Ok (decls_of (by_kind found))
    end.
End Links.

(** ** Specification *)

(** [n'] is [n] (which is at [ws]) with every link replaced by a copy of the
    regular file it leads to. *)
Inductive copy_of (fs : lnode) : list bytes -> lnode -> node -> Prop :=
| copy_file ws i d : copy_of fs ws (LFile i d) (NFile i d)
| copy_link ws i t j d : l_at true fs (abs_name ws) = Some (LFile j d) -> copy_of fs ws (LLink i t) (NFile j d)
| copy_dir ws i cs cs' :
    Forall2 (fun x y => x.1 = y.1 /\ copy_of fs (ws ++ [x.1]) x.2 y.2) cs cs' -> copy_of fs ws (LDir i cs) (NDir i cs').

(** A disk without links. *)
Fixpoint without_links (n : node) : lnode :=
  match n with
  | NFile i d => LFile i d
  | NDir i cs => LDir i (map (fun x : bytes * node => (x.1, without_links x.2)) cs)
  end.

(** The details of a link's own entry. *)
Definition link_info (ws : list bytes) (i : meta) (t : bytes) : details :=
  Details (base (abs_name ws)) (Z.of_nat (length t)) (n_mode i) (n_mtime i) false (n_sys i).
