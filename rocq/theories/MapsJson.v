(** Model of the methods of /repo/internal/maps/{infos,files}.go one goroutine
    sees, with MarshalJSON and UnmarshalJSON (which nothing in /repo calls, but
    which json.Marshal finds by their names).  See Maps.v for several
    goroutines.

    [None] is a map whose data pointer is still nil.  encoding/json as in
    Marshal.v.  The order of a Range is arbitrary. *)
From Verif Require Import Bytes GoPath Here GoTypes Mem JsonStr JsonText Embed RawJson Marshal.

(** ** Infos *)
Definition imap : Type := option (gmap bytes hinfo).

(** Data, infos.go:22-32. *)
Definition i_data (st : imap) : gmap bytes hinfo := default ∅ st.

(** MarshalJSON, infos.go:34-41, for a Range in the order [l]: it uses m.data
    without calling Data, so a nil pointer is dereferenced. *)
Definition i_marshal (st : imap) (l : list (bytes * hinfo)) : outcome bytes :=
  match st with
  | None => Panicked
  | Some _ => Done (write_json (j_map j_info (range_infos l)))
  end.

(** UnmarshalJSON, infos.go:43-53: one Store per entry, none without entries.
    The order of the loop does not matter, its keys differ. *)
Definition i_unmarshal (st : imap) (b : bytes) : imap * option gerr :=
  match read_raw b ≫= (fun j => r_map r_hinfo [j]) with
  | None => (st, Some bad_json)
  | Some mm => (if bool_decide (mm = ∅) then st else Some (mm ∪ i_data st), None)
  end.

(** Keys, infos.go:95-103. *)
Global Instance ble_dec a b : Decision (ble a b = true). Proof. apply _. Defined.
Definition i_keys (l : list (bytes * hinfo)) : list bytes := merge_sort (fun a b => ble a b = true) l.*1.

Inductive iop :=
| IStore (k : bytes) (v : hinfo)
| IDelete (k : bytes)
| ILoad (k : bytes)
| IRange                                  (* Range or Keys *)
| IUnmarshal (b : bytes).

(** Every method but the two above starts with Data. *)
Definition i_do (st : imap) (o : iop) : imap :=
  match o with
  | IStore k v => Some (<[k := v]> (i_data st))
  | IDelete k => Some (delete k (i_data st))
  | ILoad _ | IRange => Some (i_data st)
  | IUnmarshal b => (i_unmarshal st b).1
  end.
Definition i_run (st : imap) (l : list iop) : imap := foldl i_do st l.

(** ** Files *)

(** A stored value: a *mem.File, of which json.Marshal writes the one exported
    field Here (mem/file.go:20-29), or the nil interface. *)
Definition fval : Type := option hinfo.
Definition ftab : Type := option (gmap path fval).
Definition f_tab (st : ftab) : gmap path fval := default ∅ st.

Definition j_fval (v : fval) : json :=
  match v with Some h => JObj [(B"Here", j_info h)] | None => JNull end.

(** The map MarshalJSON builds, files.go:36-46: the keys are JSON texts; a later
    entry replaces an earlier one with the same text. *)
Definition f_range (l : list (path * fval)) : gmap bytes fval :=
  foldl (fun acc (kv : path * fval) => <[write_json (j_path kv.1) := kv.2]> acc) ∅ l.

(** MarshalJSON, files.go:35-53. *)
Definition f_marshal (l : list (path * fval)) : bytes := write_json (j_map j_fval (f_range l)).

(** A value of the interface type pkging.File: null is nil, anything else is an
    UnmarshalTypeError, as the interface has methods. *)
Definition r_fval : list rjson -> option fval :=
  settle (fun j => match j with RNull => Some (Some None) | _ => None end) None.

(** The loop of UnmarshalJSON, files.go:61-67, over [l]. *)
Fixpoint f_load (st : ftab) (l : list (bytes * fval)) : ftab * option gerr :=
  match l with
  | [] => (st, None)
  | (k, v) :: l =>
      match read_raw k ≫= (fun j => r_path [j]) with
      | None => (st, Some bad_json)
      | Some pt => f_load (Some (<[pt := v]> (f_tab st))) l
      end
  end.

(** UnmarshalJSON, files.go:55-69; [order] is the order of the loop. *)
Definition f_unmarshal (order : list (bytes * fval) -> list (bytes * fval)) (st : ftab) (b : bytes) : ftab * option gerr :=
  match read_raw b ≫= (fun j => r_map r_fval [j]) with
  | None => (st, Some bad_json)
  | Some mm => f_load st (order (map_to_list mm))
  end.

(** Load, files.go:80-87: a nil interface is not a pkging.File. *)
Definition f_lookup (st : ftab) (k : path) : option hinfo := f_tab st !! k ≫= id.

(** Keys, files.go:113-123, before sorting: Range stops at a value that is not
    a pkging.File, files.go:90-102. *)
Fixpoint f_ranged (l : list (path * fval)) : list path :=
  match l with
  | (k, Some _) :: l => k :: f_ranged l
  | _ => []
  end.
