(** Model of layered pkgers: /repo/pkging/wrap.go, and of the global stack of
    /repo/pkger.go and /repo/apply.go (sequential part; see Apply.v for
    goroutines).

    A Pkger (pkging/pkger.go:12-50) is a record of its methods.  They act on an
    arbitrary world [W] (everything observable: all pkgers' contents, the disk,
    the callbacks' own state); [F] and [I] stand for pkging.File and
    os.FileInfo values.  The values returned together with a non-nil error are
    not kept. *)
From Verif Require Import Bytes GoPath Here GoTypes.

Section Wrap.
  Context {W F I : Type}.

  (** filepath.WalkFunc, called on the world. *)
  Definition wfn := bytes -> I -> W -> W * option gerr.

  Record pkger := Pkger {
    pk_parse : bytes -> W -> W * res path;
    pk_current : W -> W * res hinfo;
    pk_info : bytes -> W -> W * res hinfo;
    pk_create : bytes -> W -> W * res F;
    pk_mkdir_all : bytes -> N -> W -> W * option gerr;
    pk_open : bytes -> W -> W * res F;
    pk_stat : bytes -> W -> W * res I;
    pk_walk : bytes -> wfn -> W -> W * option gerr;
    pk_remove : bytes -> W -> W * option gerr;
    pk_remove_all : bytes -> W -> W * option gerr
  }.

  (** The body shared by wrap.go:30-39, 41-50, 52-61, 64-73, 88-97, 100-109:
      a failing base defers to the parent if there is one. *)
  Definition or_parent {A} (base : W -> W * res A) (parent : option (W -> W * res A))
      : W -> W * res A :=
    fun w =>
      match base w with
      | (w, Err e) =>
          match parent with
          | Some p => p w
          | None => (w, Err e)
          end
      | (w, Ok a) => (w, Ok a)
      end.

  (** The body shared by wrap.go:76-85, 112-121, 124-133, 136-145: the base's
      error is returned, otherwise the parent runs too. *)
  Definition and_parent (base : W -> W * option gerr) (parent : option (W -> W * option gerr))
      : W -> W * option gerr :=
    fun w =>
      match base w with
      | (w, Some e) => (w, Some e)
      | (w, None) =>
          match parent with
          | Some p => p w
          | None => (w, None)
          end
      end.

  (** Wrap, wrap.go:11-16 and the methods of withPkger. *)
  Definition wrap (parent : option pkger) (base : pkger) : pkger := {|
    pk_parse := fun p => or_parent (pk_parse base p) ((fun q => pk_parse q p) <$> parent);
    pk_current := or_parent (pk_current base) (pk_current <$> parent);
    pk_info := fun p => or_parent (pk_info base p) ((fun q => pk_info q p) <$> parent);
    pk_create := fun p => or_parent (pk_create base p) ((fun q => pk_create q p) <$> parent);
    pk_mkdir_all := fun p perm =>
      and_parent (pk_mkdir_all base p perm) ((fun q => pk_mkdir_all q p perm) <$> parent);
    pk_open := fun p => or_parent (pk_open base p) ((fun q => pk_open q p) <$> parent);
    pk_stat := fun p => or_parent (pk_stat base p) ((fun q => pk_stat q p) <$> parent);
    pk_walk := fun p wf => and_parent (pk_walk base p wf) ((fun q => pk_walk q p wf) <$> parent);
    pk_remove := fun p => and_parent (pk_remove base p) ((fun q => pk_remove q p) <$> parent);
    pk_remove_all := fun p => and_parent (pk_remove_all base p) ((fun q => pk_remove_all q p) <$> parent)
  |}.

  (** Apply, apply.go:10-19: a non-nil error panics ([None]) before [current]
      is touched. *)
  Definition apply_layer (current : option pkger) (pkg : pkger) (err : option gerr)
      : option (option pkger) :=
    match err with
    | Some _ => None
    | None => Some (Some (wrap current pkg))
    end.

  (** impl, pkger.go:22-29. *)
  Definition impl (disk : pkger) (current : option pkger) : pkger :=
    match current with
    | None => disk
    | Some c => c
    end.

  (** The global [current] (pkger.go:13) after a sequence of Apply calls, the
      panicking ones recovered by their callers. *)
  Definition after_applies (l : list (pkger * option gerr)) : option pkger :=
    fold_left (fun cur x => match apply_layer cur x.1 x.2 with Some c => c | None => cur end) l None.

  (** pkger.Dir.Open, pkger.go:33-39, up to the File.Open it ends with. *)
  Definition dir_open (disk : pkger) (current : option pkger) (d : bytes) : W -> W * res F :=
    pk_open (impl disk current) d.

  (** ** Operations, for stating theorems about all of them at once *)
  Inductive read_op : Type -> Type :=
  | RParse (p : bytes) : read_op path
  | RCurrent : read_op hinfo
  | RInfo (p : bytes) : read_op hinfo
  | RCreate (p : bytes) : read_op F
  | ROpen (p : bytes) : read_op F
  | RStat (p : bytes) : read_op I.

  Definition read {A} (o : read_op A) (q : pkger) : W -> W * res A :=
    match o in read_op A return W -> W * res A with
    | RParse p => pk_parse q p
    | RCurrent => pk_current q
    | RInfo p => pk_info q p
    | RCreate p => pk_create q p
    | ROpen p => pk_open q p
    | RStat p => pk_stat q p
    end.

  Inductive mut_op :=
  | MMkdirAll (p : bytes) (perm : N)
  | MWalk (p : bytes) (wf : wfn)
  | MRemove (p : bytes)
  | MRemoveAll (p : bytes).

  Definition mutate (o : mut_op) (q : pkger) : W -> W * option gerr :=
    match o with
    | MMkdirAll p perm => pk_mkdir_all q p perm
    | MWalk p wf => pk_walk q p wf
    | MRemove p => pk_remove q p
    | MRemoveAll p => pk_remove_all q p
    end.

  (** ** Specification *)

  (** All of [ls] are asked in turn and fail, leading from world [w] to [w']. *)
  Inductive all_fail {A} (f : pkger -> W -> W * res A) : list pkger -> W -> W -> Prop :=
  | af_nil w : all_fail f [] w w
  | af_cons l ls w w1 w2 e : f l w = (w1, Err e) -> all_fail f ls w1 w2 -> all_fail f (l :: ls) w w2.

  (** All of [ls] run in turn and succeed. *)
  Inductive all_ok (f : pkger -> W -> W * option gerr) : list pkger -> W -> W -> Prop :=
  | ao_nil w : all_ok f [] w w
  | ao_cons l ls w w1 w2 : f l w = (w1, None) -> all_ok f ls w1 w2 -> all_ok f (l :: ls) w w2.

  (** The layers successfully applied, oldest first. *)
  Definition applied (l : list (pkger * option gerr)) : list pkger :=
    omap (fun x => match x.2 with None => Some x.1 | Some _ => None end) l.

  (** ** Proofs *)

  Definition stack (ls : list pkger) : option pkger := fold_left (fun cur l => Some (wrap cur l)) ls None.

  Lemma stack_snoc ls l : stack (ls ++ [l]) = Some (wrap (stack ls) l).
  Proof. unfold stack. by rewrite fold_left_app. Qed.

  Lemma after_applies_stack l : after_applies l = stack (applied l).
  Proof.
    induction l as [|[p [e|]] l IH] using rev_ind; [done|..];
      unfold after_applies in *; rewrite fold_left_app; cbn [fold_left fst snd apply_layer]; rewrite IH;
      unfold applied; rewrite omap_app; cbn.
    - by rewrite app_nil_r.
    - by rewrite stack_snoc.
  Qed.

  Lemma read_wrap {A} (o : read_op A) cur l :
    read o (wrap cur l) = or_parent (read o l) (read o <$> cur).
  Proof. by destruct o, cur. Qed.

  Lemma mutate_wrap o cur l :
    mutate o (wrap cur l) = and_parent (mutate o l) (mutate o <$> cur).
  Proof. by destruct o, cur. Qed.

  Lemma stack_read {A} (o : read_op A) ls c w w' r :
    stack ls = Some c -> read o c w = (w', r) ->
    exists older l newer w1, ls = older ++ l :: newer /\
      all_fail (read o) (rev newer) w w1 /\ read o l w1 = (w', r) /\
      (forall e, r = Err e -> older = []).
  Proof.
    revert c w. induction ls as [|l ls IH] using rev_ind; intros c w Hs Hc; [done|].
    rewrite stack_snoc in Hs. injection Hs as <-. rewrite read_wrap in Hc.
    unfold or_parent in Hc. destruct (read o l w) as [w1 [a|e]] eqn:E.
    - exists ls, l, [], w. split; [done|]. split; [constructor|].
      split; [by rewrite <- Hc|]. intros e He. congruence.
    - destruct (stack ls) as [c|] eqn:Es; cbn in Hc.
      + destruct (IH c w1 eq_refl Hc) as (older & l' & newer & w2 & -> & Hf & Hl & He).
        exists older, l', (newer ++ [l]), w2. rewrite <- app_assoc. split; [done|].
        split; [|done]. rewrite rev_app_distr. simpl. by econstructor.
      + exists ls, l, [], w. split; [done|]. split; [constructor|]. split; [congruence|].
        intros _ _. destruct ls as [|? ls] using rev_ind; [done|]. by rewrite stack_snoc in Es.
  Qed.

  Lemma stack_mutate o ls c w w' r :
    stack ls = Some c -> mutate o c w = (w', r) ->
    exists older newer w1, ls = older ++ newer /\ all_ok (mutate o) (rev newer) w w1 /\
      match r with
      | None => older = [] /\ w' = w1
      | Some e => exists l older', older = older' ++ [l] /\ mutate o l w1 = (w', Some e)
      end.
  Proof.
    revert c w. induction ls as [|l ls IH] using rev_ind; intros c w Hs Hc; [done|].
    rewrite stack_snoc in Hs. injection Hs as <-. rewrite mutate_wrap in Hc.
    unfold and_parent in Hc. destruct (mutate o l w) as [w1 [e|]] eqn:E.
    - exists (ls ++ [l]), [], w. injection Hc as <- <-. rewrite app_nil_r. split; [done|].
      split; [constructor|]. eauto.
    - destruct (stack ls) as [c|] eqn:Es; cbn in Hc.
      + destruct (IH c w1 eq_refl Hc) as (older & newer & w2 & -> & Hf & Hr).
        exists older, (newer ++ [l]), w2. rewrite <- app_assoc. split; [done|].
        split; [|done]. rewrite rev_app_distr. simpl. by econstructor.
      + injection Hc as <- <-. exists [], (ls ++ [l]), w1. split; [done|].
        assert (ls = []) as ->.
        { destruct ls as [|? ls] using rev_ind; [done|]. by rewrite stack_snoc in Es. }
        split; [|done]. econstructor; [exact E|constructor].
  Qed.

  Lemma all_ok_det f ls w w1 w2 : all_ok f ls w w1 -> all_ok f ls w w2 -> w1 = w2.
  Proof.
    intros H. revert w2. induction H as [|l ls w w1 w3 Hl H IH]; intros w2 H2; inversion H2; subst; [done|].
    apply IH. congruence.
  Qed.

  Lemma stack_mutate_ok o ls c w w' :
    stack ls = Some c -> all_ok (mutate o) (rev ls) w w' -> mutate o c w = (w', None).
  Proof.
    revert c w. induction ls as [|l ls IH] using rev_ind; intros c w Hs Hok; [done|].
    rewrite stack_snoc in Hs. injection Hs as <-. rewrite mutate_wrap. unfold and_parent.
    rewrite rev_app_distr in Hok. simpl in Hok. inversion Hok as [|? ? ? w1 ? Hl Hrest]; subst.
    rewrite Hl. destruct (stack ls) as [c|] eqn:Es; cbn.
    - by apply IH.
    - destruct ls as [|? ls _] using rev_ind; [|by rewrite stack_snoc in Es].
      simpl in Hrest. by inversion Hrest.
  Qed.
End Wrap.
Global Arguments pkger : clear implicits.
Global Arguments read_op : clear implicits.
Global Arguments mut_op : clear implicits.
Global Arguments wfn : clear implicits.
