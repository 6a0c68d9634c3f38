(** Specification of tree walks over a listing of entries. *)
From Verif Require Import Bytes GoPath Here GoTypes Mem.

(** A callback that observes but does not change the pkger. *)
Definition obs_fn (S : Type) := bytes -> details -> S -> S * option gerr.

Definition lift_fn {S} (f : obs_fn S) : walk_fn S :=
  fun n d s m => let '(s, e) := f n d s in ((s, m), e).

(** Visit a list of entries in order: an error stops the visit and is
    returned; SkipDir leaves out the remaining entries whose name starts with
    that of the current one. *)
Fixpoint visit {S} (fuel : nat) (f : obs_fn S) (l : list (path * details)) (s : S) : S * option gerr :=
  match fuel, l with
  | _, [] | O, _ => (s, None)
  | Datatypes.S fuel, (k, d) :: l =>
      let '(s, e) := f (path_string k) d s in
      match e with
      | None => visit fuel f l s
      | Some ESkipDir =>
          visit fuel f (filter (fun x => has_prefix (p_name x.1) (p_name k) = false) l) s
      | Some e => (s, Some e)
      end
  end.

(** [entry_at m k d]: the pkger stores an entry with info [d] under [k]. *)
Definition entry_at (m : mem) (k : path) (d : details) : Prop :=
  f_info <$> file_at m k = Some d.

(** The entries of [pt]'s package whose name starts with [pt]'s name, each
    once, strictly increasing by printed path. *)
Definition is_listing (m : mem) (pt : path) (l : list (path * details)) : Prop :=
  StronglySorted (fun a b => blt (path_string a.1) (path_string b.1) = true) l /\
  forall k d, (k, d) ∈ l <->
    entry_at m k d /\ p_pkg k = p_pkg pt /\ has_prefix (p_name k) (p_name pt) = true.

(** A callback that records its calls and never fails. *)
Definition record_fn : obs_fn (list (bytes * details)) :=
  fun n d s => (s ++ [(n, d)], None).

(** A callback that records its calls and asks to skip some names. *)
Definition record_skip (sk : bytes -> bool) : obs_fn (list (bytes * details)) :=
  fun n d s => (s ++ [(n, d)], if sk n then Some ESkipDir else None).

Definition shown (x : path * details) : bytes * details := (path_string x.1, x.2).

(** [skipped sk l x]: some other entry of the listing for which the callback
    asked to skip has a name that [x]'s name starts with. *)
Definition skipped (sk : bytes -> bool) (l : list (path * details)) (x : path * details) : Prop :=
  Exists (fun y => sk (path_string y.1) = true /\ p_name y.1 <> p_name x.1 /\
                   has_prefix (p_name x.1) (p_name y.1) = true) l.
Global Instance skipped_dec sk l x : Decision (skipped sk l x).
Proof. unfold skipped. apply _. Defined.

(** A callback (which may change the pkger) with a log of the calls made and
    the errors returned. *)
Definition logged {S} (f : walk_fn S) : walk_fn (S * list (bytes * option gerr)) :=
  fun n d s m =>
    let '((s', m'), e) := f n d s.1 m in ((s', s.2 ++ [(n, e)]), m', e).

(** The tree below directory [ws] of package [g] is well formed: names are
    clean paths below it, every entry's parent directory is stored, and no
    sub-directory's name is a proper string prefix of a sibling's. *)
Record tree_below (m : mem) (g : bytes) (ws : list bytes) : Prop := {
  tb_names : forall n d, entry_at m (Path g n) d -> has_prefix n (abs_name ws) = true ->
    exists vs, Forall good_elem vs /\ n = abs_name (ws ++ vs);
  tb_parents : forall vs v d, Forall good_elem vs -> good_elem v -> vs <> [] ->
    entry_at m (Path g (abs_name (ws ++ vs ++ [v]))) d ->
    exists d', entry_at m (Path g (abs_name (ws ++ vs))) d' /\ d_isdir d' = true;
  tb_noclash : forall v w d d', good_elem v -> good_elem w ->
    entry_at m (Path g (abs_name (ws ++ [v]))) d -> d_isdir d = true ->
    entry_at m (Path g (abs_name (ws ++ [w]))) d' -> has_prefix w v = true -> w = v
}.

(** The direct children of directory [ws], each once, in order. *)
Definition is_children (m : mem) (g : bytes) (ws : list bytes) (l : list (path * details)) : Prop :=
  StronglySorted (fun a b => blt (path_string a.1) (path_string b.1) = true) l /\
  forall k d, (k, d) ∈ l <->
    entry_at m k d /\ exists v, good_elem v /\ k = Path g (abs_name (ws ++ [v])).

(** Name [n] is [r] itself or lies below directory [r]. *)
Definition at_or_below (r n : bytes) : Prop :=
  n = r \/ has_prefix n (if bool_decide (r = B"/") then r else r ++ [slash]) = true.

(** The entries at or below [pt], each once, increasing by printed path. *)
Definition is_subtree (m : mem) (pt : path) (l : list (path * details)) : Prop :=
  StronglySorted (fun a b => blt (path_string a.1) (path_string b.1) = true) l /\
  forall k d, (k, d) ∈ l <->
    entry_at m k d /\ p_pkg k = p_pkg pt /\ at_or_below (p_name pt) (p_name k).

(** No entry's name merely continues the text of [r]. *)
Definition separated (m : mem) (g r : bytes) : Prop :=
  forall n d, entry_at m (Path g n) d -> has_prefix n r = true -> at_or_below r n.

(** The order in which filepath.Walk delivers paths, given by their elements:
    a directory before its contents, siblings by name. *)
Fixpoint elems_lt (ws vs : list bytes) : bool :=
  match ws, vs with
  | _, [] => false
  | [], _ :: _ => true
  | w :: ws, v :: vs => if bool_decide (w = v) then elems_lt ws vs else blt w v
  end.

(** No byte of the name sorts before the slash. *)
Definition no_low (s : bytes) : Prop := Forall (fun c => N_of_ascii slash <= N_of_ascii c)%N s.
