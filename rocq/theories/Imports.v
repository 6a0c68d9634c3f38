(** What a pkger call is: a call of a function of the package with the import
    path github.com/markbates/pkger, under the name the source file imports it.
    /repo/parser/source.go:81-90 looks at the name only. *)
From Verif Require Import Bytes GoPath Here GoTypes WalkSpec Disk Decls GoQuote Source SourceProofs.

(** An import declaration: the name given to it, if any ("." for a dot
    import), the import path, and the name in the package's own clause. *)
Record import := Import { im_name : option bytes; im_path : bytes; im_pkg : bytes }.

Definition pkger_path : bytes := B"github.com/markbates/pkger".

(** The file knows package [p] as [x]. *)
Definition imports_as (imps : list import) (x p : bytes) : Prop :=
  exists i, i ∈ imps /\ im_path i = p /\ x = default (im_pkg i) (im_name i).

(** All nodes of a tree. *)
Fixpoint subterms (n : ast) : list ast :=
  n :: match n with
       | ALit _ | AIdent _ _ => []
       | ASel x _ => subterms x
       | ACall f args => subterms f ++ args_list subterms args
       | AOther cs => args_list subterms cs
       end.

(** [f] is the function [k] of package [p].  go/parser resolves identifiers to
    objects of the file's scopes, not to imports: one with an object is a
    variable, constant or function of the file. *)
Definition refers (imps : list import) (p : bytes) (f : ast) (k : kind) : Prop :=
  (exists x name, f = ASel (AIdent x None) name /\ imports_as imps x p /\ function_kind name = Some k) \/
  (exists name, f = AIdent name None /\ imports_as imps (B".") p /\ function_kind name = Some k).

Definition calls_of_package (imps : list import) (p : bytes) (n : ast) (c : kind * list ast) : Prop :=
  exists f, ACall f c.2 ∈ subterms n /\ refers imps p f c.1.

(** No variable, constant or function of the file is called [x]. *)
Definition unshadowed (x : bytes) (n : ast) : Prop := forall o, AIdent x (Some o) ∉ subterms n.

(** ** Proofs *)

Lemma args_list_elem {A} (F : ast -> list A) l y : y ∈ args_list F l <-> exists x, x ∈ l /\ y ∈ F x.
Proof.
  induction l as [|x l IH]; cbn [args_list].
  - split; [intros H; inversion H|]. intros (x & H & _). inversion H.
  - rewrite elem_of_app, IH. split.
    + intros [H|(z & Hz & Hy)]; [exists x; split; [by left|done]|exists z; split; [by right|done]].
    + intros (z & Hz & Hy). apply elem_of_cons in Hz as [->|Hz]; [by left|right; eauto].
Qed.

Lemma subterms_self n : n ∈ subterms n.
Proof. destruct n; left. Qed.

Lemma all_calls_spec n k args :
  (k, args) ∈ all_calls n <-> exists f, ACall f args ∈ subterms n /\ called f = Some k.
Proof.
  unfold all_calls. revert k args. induction n as [t|x o|n w IH|f args IHf IHa|cs IH] using ast_ind'; intros k as'; cbn [calls subterms].
  - split; [intros H; inversion H|]. intros (f & H & _). by apply elem_of_list_singleton in H.
  - split; [intros H; inversion H|]. intros (f & H & _). by apply elem_of_list_singleton in H.
  - split.
    + intros H. apply IH in H as (f & H & E). exists f. split; [by right|done].
    + intros (f & H & E). apply IH. exists f. by apply elem_of_cons in H as [?|H].
  - assert (Hl : (k, as') ∈ args_list (calls (fun _ _ => false)) args <->
      exists g, ACall g as' ∈ args_list subterms args /\ called g = Some k).
    { rewrite args_list_elem. rewrite Forall_forall in IHa. split.
      - intros (x & Hx & H). apply (IHa x Hx) in H as (g & Hg & E). exists g. split; [|done]. apply args_list_elem. eauto.
      - intros (g & Hg & E). apply args_list_elem in Hg as (x & Hx & H). exists x. split; [done|]. apply (IHa x Hx). eauto. }
    assert (Hr : (k, as') ∈ calls (fun _ _ => false) f ++ args_list (calls (fun _ _ => false)) args <->
      exists g, ACall g as' ∈ subterms f ++ args_list subterms args /\ called g = Some k).
    { rewrite elem_of_app, Hl, IHf. setoid_rewrite elem_of_app. split.
      - intros [(g & H & E)|(g & H & E)]; exists g; auto.
      - intros (g & [H|H] & E); [left|right]; eauto. }
    destruct (called f) as [k0|] eqn:Ek; rewrite ?elem_of_cons, Hr; setoid_rewrite elem_of_cons; split.
    + intros [[= -> ->]|(g & H & E)]; [exists f; auto|exists g; auto].
    + intros (g & [[= -> ->]|H] & E); [left; congruence|right; eauto].
    + intros (g & H & E). exists g. auto.
    + intros (g & [[= -> ->]|H] & E); [congruence|eauto].
  - rewrite args_list_elem. rewrite Forall_forall in IH. setoid_rewrite elem_of_cons. split.
    + intros (x & Hx & H). apply (IH x Hx) in H as (g & Hg & E). exists g. split; [|done]. right. apply args_list_elem. eauto.
    + intros (g & [?|Hg] & E); [done|]. apply args_list_elem in Hg as (x & Hx & H). exists x. split; [done|]. apply (IH x Hx). eauto.
Qed.

Lemma subterms_call f args n : ACall f args ∈ subterms n -> forall y, y ∈ subterms f -> y ∈ subterms n.
Proof.
  induction n as [t|x o|n w IH|g as' IHf IHa|cs IH] using ast_ind'; cbn [subterms]; intros H y Hy.
  - by apply elem_of_list_singleton in H.
  - by apply elem_of_list_singleton in H.
  - apply elem_of_cons in H as [?|H]; [done|]. right. by apply IH.
  - apply elem_of_cons in H as [[= -> ->]|H]; [right; apply elem_of_app; by left|]. right.
    apply elem_of_app in H as [H|H]; apply elem_of_app; [left; by apply IHf|right].
    apply args_list_elem in H as (x & Hx & H). apply args_list_elem. exists x. split; [done|].
    rewrite Forall_forall in IHa. by apply (IHa x Hx).
  - apply elem_of_cons in H as [?|H]; [done|]. right. apply args_list_elem in H as (x & Hx & H).
    apply args_list_elem. exists x. split; [done|]. rewrite Forall_forall in IH. by apply (IH x Hx).
Qed.

Lemma calls_of_package_spec imps n :
  imports_as imps (B"pkger") pkger_path -> (forall x, imports_as imps x pkger_path -> x = B"pkger") ->
  unshadowed (B"pkger") n ->
  forall c, c ∈ all_calls n <-> calls_of_package imps pkger_path n c.
Proof.
  intros H1 H2 Hu [k args]. rewrite all_calls_spec. unfold calls_of_package. cbn [fst snd]. split; intros (f & Hf & E); exists f; (split; [done|]).
  - left. unfold called in E. destruct f as [| |[|x o| | |] name| |]; try done.
    case_decide as Ex; [|done]. subst x.
    destruct o as [o|]; [|exists (B"pkger"), name; done]. exfalso. apply (Hu o). apply (subterms_call _ _ _ Hf). cbn. right. left.
  - destruct E as [(x & name & -> & Hi & Hk)|(name & -> & Hi & _)].
    + apply H2 in Hi as ->. cbn. done.
    + apply H2 in Hi. discriminate.
Qed.
