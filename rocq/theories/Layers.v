(** The in-memory pkger as a layer of a stack ([mem.Pkger] used as a pkging.Pkger).
    A world holds the contents of any number of in-memory layers and what the
    callbacks have seen. *)
From Verif Require Import Bytes GoPath Here GoTypes Mem MemSpec MemBase MemFiles MemFiles2 WalkSpec MemWalk Wrap.

Record world := World { w_mems : list mem; w_seen : list bytes }.

(** A file handle: its layer and its object there. *)
Definition hfile : Type := nat * ref.

Section Layer.
  Context (parse : resolver).

  Definition at_layer {A} (i : nat) (none : A) (f : mem -> mem * A) (w : world) : world * A :=
    match w_mems w !! i with
    | None => (w, none)
    | Some m => let '(m', a) := f m in (World (<[i := m']> (w_mems w)) (w_seen w), a)
    end.

  Definition wrap_ref (i : nat) (r : res ref) : res hfile :=
    match r with Ok h => Ok (i, h) | Err e => Err e end.

  (** A callback as the walked layer calls it. *)
  Definition layer_cb (i : nat) (wf : wfn world details) : walk_fn world := fun n d w m =>
    let '(w', e) := wf n d (World (<[i := m]> (w_mems w)) (w_seen w)) in
    ((w', default m (w_mems w' !! i)), e).

  (** The methods of mem.Pkger (mem.go:37-252) on layer [i]. *)
  Definition mem_layer (i : nat) (now : gotime) : pkger world hfile details := {|
    pk_parse := fun p => at_layer i (Err EParse) (fun m =>
      (m, match mem_parse parse m p with Some pt => Ok pt | None => Err EParse end));
    pk_current := at_layer i (Err EParse) (fun m => (m, Ok (m_here m)));
    pk_info := fun p => at_layer i (Err EParse) (fun m => (m, mem_info m p));
    pk_create := fun p => at_layer i (Err EParse) (fun m =>
      let '(m, r) := create parse now m p in (m, wrap_ref i r));
    pk_mkdir_all := fun p perm => at_layer i None (fun m => mkdir_all parse (mk_fuel p) now m p perm);
    pk_open := fun p => at_layer i (Err EParse) (fun m =>
      let '(m, r) := open parse m p in (m, wrap_ref i r));
    pk_stat := fun p => at_layer i (Err EParse) (fun m =>
      (m, match stat parse m p with
          | Err e => Err e
          | Ok r => match info_at m r with Some d => Ok d | None => Err EParse end
          end));
    pk_walk := fun p wf w =>
      match w_mems w !! i with
      | None => (w, None)
      | Some m =>
          let '((w', m'), e) := walk parse m p (layer_cb i wf) w in
          (World (<[i := m']> (w_mems w')) (w_seen w'), e)
      end;
    pk_remove := fun p => at_layer i None (fun m => remove parse m p);
    pk_remove_all := fun p => at_layer i None (fun m => remove_all parse m p)
  |}.

  (** Layers 0..n-1, the last one applied last. *)
  Definition mem_layers (n : nat) (now : gotime) : list (pkger world hfile details) :=
    (fun i => mem_layer i now) <$> seq 0 n.

  (** A callback that notes the names it is called with. *)
  Definition note : wfn world details :=
    fun n _ w => (World (w_mems w) (w_seen w ++ [n]), None).

  (** ** Lemmas *)

  Lemma mem_layers_S n now : mem_layers (S n) now = mem_layers n now ++ [mem_layer n now].
  Proof. unfold mem_layers. by rewrite seq_S, fmap_app. Qed.

  Lemma record_extends pt m keys skip y x :
    walk_loop (lift_fn record_fn) pt keys skip y m = ((x, m), None) -> exists l, x = y ++ l.
  Proof.
    revert skip y. induction keys as [|k keys IH]; intros skip y; cbn [walk_loop].
    - intros [= <-]. exists []. by rewrite app_nil_r.
    - case_match; [apply IH|]. case_match; [apply IH|]. case_match; [apply IH|].
      destruct (file_at m k) as [f|]; [|done]. cbn [lift_fn record_fn].
      intros [l ->]%IH. eexists. by rewrite <- app_assoc.
  Qed.

  (** Walking a layer with [note] adds the names of its listing. *)
  Lemma note_walk_loop i pt keys skip w m s l :
    w_mems w !! i = Some m ->
    walk_loop (lift_fn record_fn) pt keys skip s m = ((s ++ l, m), None) ->
    walk_loop (layer_cb i note) pt keys skip w m
    = ((World (w_mems w) (w_seen w ++ l.*1), m), None).
  Proof.
    revert skip w s l. induction keys as [|k keys IH]; intros skip w s l Hi H.
    - cbn [walk_loop] in *. assert (Hs : s ++ l = s ++ []) by (rewrite app_nil_r; congruence).
      apply app_inv_head in Hs as ->. simpl. rewrite app_nil_r. by destruct w.
    - cbn [walk_loop] in *. case_match; [by eapply IH|]. case_match; [by eapply IH|].
      case_match; [by eapply IH|].
      destruct (file_at m k) as [f|]; [|done].
      cbn [lift_fn record_fn] in H.
      assert (Hcb : layer_cb i note (path_string k) (new_file_info (f_info f)) w m =
        ((World (w_mems w) (w_seen w ++ [path_string k]), m), None)).
      { unfold layer_cb. cbn [note w_mems w_seen]. rewrite list_insert_id by done. by rewrite Hi. }
      rewrite Hcb.
      assert (exists l', l = (path_string k, new_file_info (f_info f)) :: l') as [l' ->].
      { apply record_extends in H as [l' Hl]. rewrite <- app_assoc in Hl. apply app_inv_head in Hl. by exists l'. }
      erewrite (IH skip (World (w_mems w) (w_seen w ++ [path_string k])) (s ++ [(path_string k, new_file_info (f_info f))]) l');
        [|done|].
      + cbn [w_mems w_seen]. by rewrite <- app_assoc.
      + rewrite <- app_assoc. exact H.
  Qed.

  Lemma note_walk i now p w m l :
    w_mems w !! i = Some m ->
    walk parse m p (lift_fn record_fn) [] = ((l, m), None) ->
    pk_walk (mem_layer i now) p note w = (World (w_mems w) (w_seen w ++ l.*1), None).
  Proof.
    intros Hi. unfold walk, mem_layer. cbn [pk_walk]. rewrite Hi. unfold walk.
    destruct (mem_parse parse m p) as [pt|]; [|done]. intros H.
    rewrite (note_walk_loop i pt _ _ w m [] l Hi H). cbn [w_mems w_seen]. by rewrite list_insert_id.
  Qed.
End Layer.
