(** Values shared by the models: errors, times, JSON trees, file details. *)
From Verif Require Import Bytes GoPath Here.

(** Go errors, as far as the code under study tells them apart. *)
Inductive gerr :=
| EParse                        (* here.Info.Parse failed *)
| ENotExist                     (* os.ErrNotExist *)
| EEOF                          (* io.EOF *)
| ESkipDir                      (* filepath.SkipDir *)
| EPath (op p : bytes)          (* *os.PathError *)
| EMsg (m : bytes)              (* fmt.Errorf / errors.New value *)
| EUser (n : nat)               (* an error made by the caller's callback *)
| ENegSeek                      (* bytes.Reader.Seek: negative position *)
| EWhence                       (* bytes.Reader.Seek: invalid whence *)
| EFuel                         (* the model ran out of fuel: Go would recurse for ever *)
| EBadHandle.                   (* model only: a handle that was never returned *)

Global Instance gerr_eq_dec : EqDecision gerr.
Proof. solve_decision. Defined.

(** A Go call returning (A, error). *)
Inductive res (A : Type) := Ok (a : A) | Err (e : gerr).
Global Arguments Ok {A}. Global Arguments Err {A}.

(** time.Time: a wall-clock instant with its zone offset in seconds.
    (The monotonic reading is dropped: it is never marshalled or compared by
    the code.) *)
Record gotime := GoTime { t_sec : Z; t_nsec : Z; t_off : Z }.
Global Instance gotime_eq_dec : EqDecision gotime.
Proof. solve_decision. Defined.

(** A JSON value (encoding/json's data model).  Numbers are integers: every
    number the code marshals is an integer. *)
Inductive json :=
| JNull
| JBool (b : bool)
| JNum (z : Z)
| JStr (s : bytes)
| JArr (l : list json)
| JObj (l : list (bytes * json)).

(** pkging.Details, pkging/file_info.go:9-16.  [d_sys] holds the JSON image of
    the Sys value, the only use the code makes of it. *)
Record details := Details {
  d_name : bytes;
  d_size : Z;
  d_mode : N;
  d_mtime : gotime;
  d_isdir : bool;
  d_sys : json
}.

(** pkging.NewFileInfo, pkging/file_info.go:53-65: copies every field. *)
Definition new_file_info (d : details) : details :=
  Details (d_name d) (d_size d) (d_mode d) (d_mtime d) (d_isdir d) (d_sys d).

Lemma new_file_info_id d : new_file_info d = d.
Proof. by destruct d. Qed.

(** int64 wrap-around. *)
Definition wrap64 (z : Z) : Z := ((z + 2^63) `mod` 2^64 - 2^63)%Z.

Lemma wrap64_id z : (- 2^63 <= z < 2^63)%Z -> wrap64 z = z.
Proof. intros H. unfold wrap64. rewrite Z.mod_small; lia. Qed.
