(** Model of pkgutil.Dump, /repo/pkging/pkgutil/dump.go.

    The document Dump encodes: the pkger's Go type, its here.Info and the map
    from printed path to info, and its text (dump.go:42-47; encoding/json is
    in JsonText.v and Indent.v). *)
From Verif Require Import Bytes GoPath Here GoTypes Mem WalkSpec JsonStr JsonText Indent GoTimeFmt Embed Marshal Disk DiskOps Std.

Record dump_doc := DumpDoc { dd_type : bytes; dd_info : hinfo; dd_paths : gmap bytes details }.

(** The callback, dump.go:31-38: it cannot fail, Walk gives it no error. *)
Definition dump_fn : obs_fn (gmap bytes details) := fun path info paths => (<[path := info]> paths, None).

(** Dump, dump.go:13-50, of an in-memory pkger. *)
Definition dump_mem (parse : resolver) (m : mem) : res dump_doc :=
  match walk parse m (B"/") (lift_fn dump_fn) ∅ with
  | ((paths, _), None) => Ok (DumpDoc (B"*mem.Pkger") (m_here m) paths)
  | (_, Some e) => Err e
  end.

(** Dump of an on-disk pkger. *)
Definition dump_std (parse : resolver) (hp : bytes -> res hinfo) (fs : node) (s : sto) : res dump_doc :=
  match std_walk parse hp fs s (B"/") dump_fn ∅ with
  | ((paths, s), None) => Ok (DumpDoc (B"*stdos.Pkger") (so_here s) paths)
  | (_, Some e) => Err e
  end.

(** The document's text. *)
Definition j_dump (d : dump_doc) : json :=
  JObj [(B"Type", JStr (dd_type d)); (B"Info", j_info (dd_info d)); (B"Paths", j_map j_details (dd_paths d))].
Definition dump_text (d : dump_doc) : bytes := encode_indent (B" ") (j_dump d).
