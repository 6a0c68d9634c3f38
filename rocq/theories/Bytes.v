(** Go strings and byte slices.

    Go's [string] and [[]byte] are both finite byte sequences; the model uses
    one type for both, [bytes := list ascii] ([ascii] is an 8-bit byte).
    The helpers below model the functions of Go's [strings] package that
    /repo calls; each comment names the call sites. *)
From stdpp Require Export prelude list gmap sorting strings.
From Coq Require Export Ascii.
From Coq Require String.
Export ListNotations.
Close Scope string_scope.
Open Scope list_scope.

Definition bytes := list ascii.

(** Literals: [B"abc"] is the byte sequence of the literal. *)
Definition B (s : String.string) : bytes := String.list_ascii_of_string s.
Arguments B s%string_scope.

Definition slash : ascii := "/"%char.
Definition colon : ascii := ":"%char.
Definition backslash : ascii := "\"%char.
Definition newline : ascii := "010"%char.

(** strings.HasPrefix(s, p): pkging/mem/mem.go:78,221,224, parser/parser.go:204. *)
Fixpoint has_prefix (s p : bytes) {struct p} : bool :=
  match p, s with
  | [], _ => true
  | _ :: _, [] => false
  | a :: p', b :: s' => Ascii.eqb a b && has_prefix s' p'
  end.

(** strings.HasSuffix(s, p): pkging/pkgutil/stuff.go:28. *)
Definition has_suffix (s p : bytes) : bool := has_prefix (rev s) (rev p).

(** strings.TrimPrefix(s, p): parser/walk.go:73, parser/parser.go:86,106,
    pkging/stdos/stdos.go:186. *)
Definition trim_prefix (s p : bytes) : bytes :=
  if has_prefix s p then drop (length p) s else s.

(** strings.ReplaceAll(s, "\\", "/"): pkging/stdos/stdos.go:187. *)
Definition replace_byte (a b : ascii) (s : bytes) : bytes :=
  map (fun c => if Ascii.eqb c a then b else c) s.

(** Byte-wise lexicographic comparison: Go's [<=] and [<] on strings
    (internal/maps/files.go:117, parser/decl.go:57). *)
Fixpoint ble (a b : bytes) : bool :=
  match a, b with
  | [], _ => true
  | _ :: _, [] => false
  | x :: a', y :: b' =>
      match N.compare (N_of_ascii x) (N_of_ascii y) with
      | Lt => true
      | Gt => false
      | Eq => ble a' b'
      end
  end.

Definition blt (a b : bytes) : bool := negb (ble b a).

(** ** Lemmas *)

Lemma ascii_eqb_spec a b : Ascii.eqb a b = true <-> a = b.
Proof. apply Ascii.eqb_eq. Qed.

Lemma N_of_ascii_inj a b : N_of_ascii a = N_of_ascii b -> a = b.
Proof.
  intros H. rewrite <- (ascii_N_embedding a), <- (ascii_N_embedding b).
  by rewrite H.
Qed.

Lemma has_prefix_spec s p : has_prefix s p = true <-> exists t, s = p ++ t.
Proof.
  revert s; induction p as [|a p IH]; intros s; simpl.
  - split; [intros _; by exists s | done].
  - destruct s as [|b s].
    + split; [done | intros [t Ht]; discriminate].
    + rewrite andb_true_iff, ascii_eqb_spec, IH.
      split.
      * intros [-> [t ->]]. by exists t.
      * intros [t Ht]. injection Ht as -> ->. split; [done | by exists t].
Qed.

Lemma has_prefix_app p t : has_prefix (p ++ t) p = true.
Proof. apply has_prefix_spec. by exists t. Qed.

Lemma has_prefix_refl p : has_prefix p p = true.
Proof. rewrite <- (app_nil_r p) at 1. apply has_prefix_app. Qed.

Lemma has_prefix_nil s : has_prefix s [] = true.
Proof. by destruct s. Qed.

Lemma has_prefix_trans a b c :
  has_prefix a b = true -> has_prefix b c = true -> has_prefix a c = true.
Proof.
  rewrite !has_prefix_spec. intros [t ->] [u ->]. exists (u ++ t).
  by rewrite app_assoc.
Qed.

Lemma has_prefix_length s p : has_prefix s p = true -> length p <= length s.
Proof. rewrite has_prefix_spec. intros [t ->]. rewrite app_length. lia. Qed.

Lemma has_prefix_app_common x s p : has_prefix (x ++ s) (x ++ p) = has_prefix s p.
Proof.
  induction x as [|a x IH]; simpl; [done|].
  by rewrite Ascii.eqb_refl, IH.
Qed.

Lemma trim_prefix_app p t : trim_prefix (p ++ t) p = t.
Proof. unfold trim_prefix. rewrite has_prefix_app. apply drop_app. Qed.

Lemma trim_prefix_nil s : trim_prefix s [] = s.
Proof. unfold trim_prefix. rewrite has_prefix_nil. done. Qed.

Lemma trim_prefix_no s p : has_prefix s p = false -> trim_prefix s p = s.
Proof. unfold trim_prefix. by intros ->. Qed.

Lemma has_suffix_spec s p : has_suffix s p = true <-> exists t, s = t ++ p.
Proof.
  unfold has_suffix. rewrite has_prefix_spec. split; intros [t Ht].
  - exists (rev t). rewrite <- (rev_involutive s), Ht, rev_app_distr.
    by rewrite rev_involutive.
  - exists (rev t). by rewrite Ht, rev_app_distr.
Qed.

Lemma ble_refl a : ble a a = true.
Proof. induction a as [|x a IH]; simpl; [done|]. by rewrite N.compare_refl. Qed.

Lemma ble_antisym a b : ble a b = true -> ble b a = true -> a = b.
Proof.
  revert b; induction a as [|x a IH]; intros [|y b]; simpl; try done.
  rewrite (N.compare_antisym (N_of_ascii x) (N_of_ascii y)).
  destruct (N.compare_spec (N_of_ascii x) (N_of_ascii y)) as [E|E|E]; simpl; try done.
  intros H1 H2. f_equal; [by apply N_of_ascii_inj | by apply IH].
Qed.

Lemma ble_trans a b c : ble a b = true -> ble b c = true -> ble a c = true.
Proof.
  revert b c; induction a as [|x a IH]; intros [|y b] [|z c]; simpl; try done.
  destruct (N.compare_spec (N_of_ascii x) (N_of_ascii y)) as [E|E|E]; try done;
  destruct (N.compare_spec (N_of_ascii y) (N_of_ascii z)) as [F|F|F]; try done;
  intros H1 H2;
  destruct (N.compare_spec (N_of_ascii x) (N_of_ascii z)) as [G|G|G]; try done; try lia.
  by apply (IH b).
Qed.

Lemma ble_total a b : ble a b = true \/ ble b a = true.
Proof.
  revert b; induction a as [|x a IH]; intros [|y b]; simpl; auto.
  rewrite (N.compare_antisym (N_of_ascii x) (N_of_ascii y)).
  destruct (N.compare_spec (N_of_ascii x) (N_of_ascii y)) as [E|E|E]; simpl; auto.
Qed.

Lemma ble_app_common x a b : ble (x ++ a) (x ++ b) = ble a b.
Proof. induction x as [|c x IH]; simpl; [done|]. by rewrite N.compare_refl. Qed.

Lemma ble_prefix a b : has_prefix b a = true -> ble a b = true.
Proof.
  rewrite has_prefix_spec. intros [t ->].
  rewrite <- (app_nil_r a) at 1. by rewrite ble_app_common.
Qed.

(** Strings that share a prefix form a contiguous block of the order. *)
Lemma ble_prefix_block p s t :
  ble p s = true -> ble s t = true -> has_prefix t p = true ->
  has_prefix s p = true.
Proof.
  revert s t; induction p as [|a p IH]; intros s t; simpl; [done|].
  destruct s as [|b s]; [done|]. destruct t as [|c t]; simpl; [done|].
  rewrite !andb_true_iff, !ascii_eqb_spec.
  intros H1 H2 [-> H3].
  destruct (N.compare_spec (N_of_ascii c) (N_of_ascii b)) as [E|E|E]; try done.
  - apply N_of_ascii_inj in E as ->.
    rewrite N.compare_refl in H2. split; [done|]. by apply (IH s t).
  - destruct (N.compare_spec (N_of_ascii b) (N_of_ascii c)); try done; lia.
Qed.

Lemma blt_spec a b : blt a b = true <-> ble a b = true /\ a <> b.
Proof.
  unfold blt. rewrite negb_true_iff. split.
  - intros H. split.
    + destruct (ble_total a b) as [?|E]; [done|]. by rewrite E in H.
    + intros ->. by rewrite ble_refl in H.
  - intros [H1 H2]. apply not_true_is_false. intros H3. by apply H2, ble_antisym.
Qed.

Global Instance ble_Rel_trans : Transitive (fun a b => ble a b = true).
Proof. intros a b c. apply ble_trans. Qed.
