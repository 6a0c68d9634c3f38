(** Model of Package and packCmd.Exec, /repo/cmd/pkger/cmds/pack.go:41-60 and
    :125-159: writing the generated file.

    What is modelled is the content of the output path over time: [None] when
    there is no file.  Every byte written is one step, so that a crash can
    leave any prefix.  Which operations fail, and how many bytes a failing
    write stores first, are inputs ([faults]).  Stuff (stuff.go) writes its
    result with one Write whose error it drops (:57-58). *)
From Verif Require Import Bytes GoPath Here GoTypes Embed.

(** How Stuff ends before it writes anything: with its result, an error, or a
    panic. *)
Inductive stuff_end := SOk (payload : bytes) | SErr (e : gerr) | SPanic.

Record faults := Faults {
  ft_rm : nat -> bool;              (* the k-th os.RemoveAll fails *)
  ft_create : option gerr;          (* os.Create fails *)
  ft_write : nat -> option nat      (* the k-th write fails after this many bytes *)
}.
Definition no_faults : faults := Faults (fun _ => false) None (fun _ => None).

(** The contents seen while [bs] is appended to [cur]. *)
Fixpoint growing (cur bs : bytes) : list (option bytes) :=
  match bs with [] => [] | b :: bs => Some (cur ++ [b]) :: growing (cur ++ [b]) bs end.

(** What the k-th write, of [b], stores. *)
Definition stored (ft : faults) (k : nat) (b : bytes) : bytes :=
  match ft_write ft k with None => b | Some n => take (Nat.min n (pred (length b))) b end.

(** Successive writes, numbered from [k]; their errors are dropped
    (pack.go:143-148,156).  Result: the states seen, and the content. *)
Fixpoint writes (ft : faults) (k : nat) (cur : bytes) (l : list bytes) : list (option bytes) * bytes :=
  match l with
  | [] => ([], cur)
  | b :: l =>
      let '(tr, fin) := writes ft (S k) (cur ++ stored ft k b) l in
      (growing cur (stored ft k b) ++ tr, fin)
  end.

(** The six header writes, pack.go:143-148. *)
Definition header_writes (name : bytes) : list bytes :=
  [B"// Code generated by pkger; DO NOT EDIT." ++ nl ++ nl;
   B"// +build !skippkger" ++ nl ++ nl;
   B"package " ++ name ++ nl ++ nl;
   B"import (" ++ nl ++ [tab; dquote] ++ B"github.com/markbates/pkger" ++ [dquote] ++ nl ++ [tab];
   [dquote] ++ B"github.com/markbates/pkger/pkging/mem" ++ [dquote] ++ nl ++ B")" ++ nl ++ nl;
   B"var _ = pkger.Apply(mem.UnmarshalEmbed([]byte(" ++ [backquote]].
Definition footer_write : bytes := [backquote] ++ pkged_footer.

(** os.RemoveAll(out), its error dropped. *)
Definition remove_out (ft : faults) (k : nat) (s : option bytes) : option bytes :=
  if ft_rm ft k then s else None.

(** Package, pack.go:125-159: the states of the output path after each step,
    oldest first, and the error returned.  [old] is its content at the start,
    [cname] the result of here.Dir(filepath.Dir(out)). *)
Definition package (ft : faults) (old : option bytes) (cname : res bytes) (st : stuff_end)
  : list (option bytes) * option gerr :=
  match cname with
  | Err e => ([old], Some e)
  | Ok name =>
      let s1 := remove_out ft 0 old in
      match ft_create ft with
      | Some e => ([old; s1], Some e)
      | None =>
          let '(tr, cur) := writes ft 0 [] (header_writes name) in
          let pre := [old; s1; Some []] ++ tr in
          match st with
          | SPanic => (pre ++ [remove_out ft 1 (Some cur)], None)      (* :135-139 *)
          | SErr e => (pre, Some e)
          | SOk payload =>
              let '(tr', _) := writes ft 6 cur [payload; footer_write] in
              (pre ++ tr', None)
          end
      end
  end.

(** packCmd.Exec, pack.go:41-60: [parsed] is the error of parser.Parse. *)
Definition exec_pack (ft : faults) (old : option bytes) (parsed : option gerr) (cname : res bytes) (st : stuff_end)
  : list (option bytes) * option gerr :=
  let s0 := remove_out ft 2 old in
  match parsed with
  | Some e => ([old; s0], Some e)
  | None => let '(tr, e) := package ft s0 cname st in (old :: tr, e)
  end.

(** The content after the call. *)
Definition final (tr : list (option bytes)) : option bytes := default None (last tr).

(** ** Proofs *)

Lemma growing_last cur bs : last (growing cur bs) = match bs with [] => None | _ => Some (Some (cur ++ bs)) end.
Proof.
  revert cur. induction bs as [|b bs IH]; intros cur; [done|]. cbn [growing].
  destruct bs as [|b' bs]; [done|].
  cbn [growing] in *. specialize (IH (cur ++ [b])). rewrite last_cons. rewrite IH. by rewrite <- app_assoc.
Qed.

Lemma growing_elem cur bs x : x ∈ growing cur bs <-> exists u v, bs = u ++ v /\ u <> [] /\ x = Some (cur ++ u).
Proof.
  revert cur. induction bs as [|b bs IH]; intros cur; cbn [growing].
  - rewrite elem_of_nil. split; [done|]. intros (u & v & E & Hn & _). by destruct u.
  - rewrite elem_of_cons, IH. split.
    + intros [->|(u & v & -> & Hn & ->)]; [by exists [b], bs|]. exists (b :: u), v. by rewrite <- app_assoc.
    + intros (u & v & E & Hn & ->). destruct u as [|b' u]; [done|]. injection E as <- ->.
      destruct u as [|c u]; [by left|]. right. exists (c :: u), v. by rewrite <- app_assoc.
Qed.

(** What the writes leave behind. *)
Lemma writes_final ft k cur l : default (Some cur) (last (writes ft k cur l).1) = Some (writes ft k cur l).2.
Proof.
  revert k cur. induction l as [|b l IH]; intros k cur; [done|]. cbn [writes].
  set (done := stored ft k b).
  specialize (IH (S k) (cur ++ done)). destruct (writes ft (S k) (cur ++ done) l) as [tr fin]. cbn [fst snd] in *.
  rewrite last_app. destruct (last tr) as [x|]; cbn [default] in *; [done|].
  rewrite growing_last. destruct done; cbn; [by rewrite app_nil_r in IH|done].
Qed.

Lemma writes_ok ft k cur l : (forall j, k <= j < k + length l -> ft_write ft j = None) -> (writes ft k cur l).2 = cur ++ concat l.
Proof.
  revert k cur. induction l as [|b l IH]; intros k cur H; cbn [writes concat].
  - by rewrite app_nil_r.
  - assert (stored ft k b = b) as -> by (unfold stored; rewrite H by (cbn; lia); done). destruct (writes ft (S k) (cur ++ b) l) as [tr fin] eqn:E. cbn [snd].
    specialize (IH (S k) (cur ++ b)). rewrite E in IH. cbn [snd] in IH. rewrite IH; [by rewrite <- app_assoc|].
    intros j Hj. apply H. cbn. lia.
Qed.

(** Every state during the writes is a prefix of what a fault-free run would
    have at some point, or more precisely of the bytes stored so far. *)
Lemma writes_elem ft k cur l x :
  x ∈ (writes ft k cur l).1 -> exists u, x = Some (cur ++ u).
Proof.
  revert k cur. induction l as [|b l IH]; intros k cur; cbn [writes].
  - intros H. inversion H.
  - set (done := stored ft k b).
    specialize (IH (S k) (cur ++ done)). destruct (writes ft (S k) (cur ++ done) l) as [tr fin]. cbn [fst] in *.
    rewrite elem_of_app, growing_elem. intros [(u & v & _ & _ & ->)|H]; [by exists u|].
    destruct (IH H) as [u ->]. exists (done ++ u). by rewrite <- app_assoc.
Qed.

Lemma header_concat name : concat (header_writes name) = pkged_header name ++ [backquote].
Proof.
  unfold header_writes, pkged_header. cbn [concat]. rewrite app_nil_r. by rewrite <- !app_assoc.
Qed.
