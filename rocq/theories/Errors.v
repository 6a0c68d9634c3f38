(** Model of os.IsNotExist (Go standard library: os/error.go, and the errors
    it looks into) on the errors that the two pkgers return. *)
From Verif Require Import Bytes GoPath Here GoTypes WalkSpec Disk Http.

(** Of an error of the in-memory pkger: only os.ErrNotExist.  The PathErrors it
    makes hold an error of fmt.Errorf (/repo/pkging/mem/mem.go:63) or the
    parser's (mem.go:168-172); Stat's is of fmt.Errorf (mem.go:204). *)
Definition mem_not_exist (e : gerr) : bool := bool_decide (e = ENotExist).

(** Of an error of the on-disk pkger: a PathError of the system, whose errno
    ([os_ferr], from the disk and the path in the error) is ENOENT. *)
Definition disk_not_exist (fs : node) (e : gerr) : bool :=
  match e with
  | ENotExist => true
  | EPath _ p => match os_ferr fs p with FMissing => true | _ => false end
  | _ => false
  end.
