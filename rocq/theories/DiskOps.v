(** The file system operations that change the tree (Go standard library,
    Unix): os.Create, os.MkdirAll, os.Remove, os.RemoveAll, and writing
    through an open file.

    Simplifications, besides those of Disk.v: permissions stop nothing but
    opening; a directory's own size and times are not updated when its entries
    change; the metadata of new entries is a parameter; "/" cannot be
    removed. *)
From Verif Require Import Bytes GoPath Here GoTypes WalkSpec Disk.

(** Entries kept sorted by name. *)
Fixpoint put (w : bytes) (c : node) (cs : list (bytes * node)) : list (bytes * node) :=
  match cs with
  | [] => [(w, c)]
  | (v, d) :: cs' =>
      if bool_decide (w = v) then (w, c) :: cs'
      else if blt w v then (w, c) :: cs else (v, d) :: put w c cs'
  end.
Fixpoint del (w : bytes) (cs : list (bytes * node)) : list (bytes * node) :=
  match cs with
  | [] => []
  | (v, d) :: cs => if bool_decide (w = v) then del w cs else (v, d) :: del w cs
  end.

(** Change the entry at a path below [n]: [f] is given what is there, and says
    what is to be there.  The directory containing it must exist. *)
Fixpoint upd (f : option node -> option (option node)) (n : node) (ws : list bytes) : option node :=
  match ws with
  | [] => match f (Some n) with Some (Some n') => Some n' | _ => None end
  | w :: ws' =>
      match n with
      | NFile _ _ => None
      | NDir i cs =>
          match ws' with
          | [] => match f (child w cs) with
                  | Some (Some c) => Some (NDir i (put w c cs))
                  | Some None => Some (NDir i (del w cs))
                  | None => None
                  end
          | _ => match child w cs with
                 | None => None
                 | Some c => match upd f c ws' with
                             | Some c' => Some (NDir i (put w c' cs))
                             | None => None
                             end
                 end
          end
      end
  end.

(** The path of a system call. *)
Definition at_path {A} (p : bytes) (op : bytes) (k : list bytes -> res A) : res A :=
  if is_rooted p then k (clean_elems p) else Err (EPath op p).
Definition or_err {A} (op p : bytes) (x : option A) : res A :=
  match x with Some x => Ok x | None => Err (EPath op p) end.

(** os.Create: truncate or make the file. *)
Definition create_fn (i : meta) (x : option node) : option (option node) :=
  match x with
  | None => Some (Some (NFile i []))
  | Some (NFile j _) => if n_ok j then Some (Some (NFile j [])) else None
  | Some (NDir _ _) => None
  end.
Definition os_create (i : meta) (fs : node) (p : bytes) : res node :=
  at_path p (B"open") (fun ws => or_err (B"open") p (upd (create_fn i) fs ws)).

(** os.Remove: a file or an empty directory. *)
Definition remove_fn (x : option node) : option (option node) :=
  match x with
  | Some (NFile _ _) | Some (NDir _ []) => Some None
  | _ => None
  end.
Definition os_remove (fs : node) (p : bytes) : res node :=
  at_path p (B"remove") (fun ws => or_err (B"remove") p (upd remove_fn fs ws)).

(** Nothing is at [ws] because a directory on the way is missing (as opposed
    to a file being in the way). *)
Fixpoint missing (n : node) (ws : list bytes) : bool :=
  match ws with
  | [] => false
  | w :: ws =>
      match n with
      | NFile _ _ => false
      | NDir _ cs => match child w cs with None => true | Some c => missing c ws end
      end
  end.

(** os.RemoveAll: nil if there is nothing. *)
Definition os_remove_all (fs : node) (p : bytes) : res node :=
  at_path p (B"unlinkat") (fun ws =>
    if missing fs ws then Ok fs else or_err (B"unlinkat") p (upd (fun _ => Some None) fs ws)).

(** os.MkdirAll. *)
Fixpoint chain (i : meta) (ws : list bytes) : node :=
  NDir i (match ws with [] => [] | w :: ws => [(w, chain i ws)] end).
Fixpoint mkdirs (i : meta) (n : node) (ws : list bytes) : option node :=
  match n, ws with
  | NFile _ _, _ => None
  | NDir _ _, [] => Some n
  | NDir j cs, w :: ws =>
      match child w cs with
      | None => Some (NDir j (put w (chain i ws) cs))
      | Some c => match mkdirs i c ws with
                  | Some c' => Some (NDir j (put w c' cs))
                  | None => None
                  end
      end
  end.
Definition os_mkdir_all (i : meta) (fs : node) (p : bytes) : res node :=
  at_path p (B"mkdir") (fun ws => or_err (B"mkdir") p (mkdirs i fs ws)).

(** ** Proofs *)

Lemma child_put_same w c cs : child w (put w c cs) = Some c.
Proof.
  induction cs as [|[v d] cs IH]; cbn [put child].
  - by rewrite bool_decide_eq_true_2.
  - case_bool_decide as E; [cbn [child]; by rewrite bool_decide_eq_true_2|].
    destruct (blt w v); cbn [child]; [by rewrite bool_decide_eq_true_2|]. by rewrite bool_decide_eq_false_2.
Qed.
Lemma child_put_ne w v c cs : v <> w -> child v (put w c cs) = child v cs.
Proof.
  intros Hn. induction cs as [|[u d] cs IH]; cbn [put child].
  - by rewrite bool_decide_eq_false_2.
  - case_bool_decide as E; [subst u; cbn [child]; by rewrite !bool_decide_eq_false_2|].
    destruct (blt w u); cbn [child]; [by rewrite (bool_decide_eq_false_2 (v = w))|]. by rewrite IH.
Qed.
Lemma child_del_same w cs : child w (del w cs) = None.
Proof.
  induction cs as [|[v d] cs IH]; cbn [del child]; [done|]. case_bool_decide as E; [done|].
  cbn [child]. by rewrite bool_decide_eq_false_2.
Qed.
Lemma child_del_ne w v cs : v <> w -> child v (del w cs) = child v cs.
Proof.
  intros Hn. induction cs as [|[u d] cs IH]; cbn [del child]; [done|]. case_bool_decide as E.
  - subst u. by rewrite (bool_decide_eq_false_2 (v = w)).
  - cbn [child]. by rewrite IH.
Qed.

(** What is at the changed path. *)
Lemma upd_same f n ws n' : upd f n ws = Some n' -> ws <> [] -> f (get n ws) = Some (get n' ws).
Proof.
  revert n n'. induction ws as [|w ws IH]; intros n n' H Hne; [done|]. cbn [upd] in H.
  destruct n as [|i cs]; [done|]. destruct ws as [|w' ws].
  - cbn [get]. destruct (f (child w cs)) as [[c|]|] eqn:E; [| |done]; injection H as <-; cbn [get].
    + rewrite child_put_same. by destruct (child w cs).
    + rewrite child_del_same. by destruct (child w cs).
  - destruct (child w cs) as [c|] eqn:Ec; [|done].
    destruct (upd f c (w' :: ws)) as [c'|] eqn:E; [|done]. injection H as <-.
    change (get (NDir i cs) (w :: w' :: ws)) with (match child w cs with Some c => get c (w' :: ws) | None => None end).
    change (get (NDir i (put w c' cs)) (w :: w' :: ws)) with
      (match child w (put w c' cs) with Some c => get c (w' :: ws) | None => None end).
    rewrite Ec, child_put_same. by apply IH.
Qed.

(** Paths beside the changed one are as they were. *)
Definition beside (vs ws : list bytes) : Prop := ~ vs `prefix_of` ws /\ ~ ws `prefix_of` vs.
Lemma upd_beside f n ws n' vs : upd f n ws = Some n' -> beside vs ws -> get n' vs = get n vs.
Proof.
  revert n n' vs. induction ws as [|w ws IH]; intros n n' vs H [H1 H2]; [destruct H2; apply prefix_nil|].
  destruct vs as [|v vs]; [destruct H1; apply prefix_nil|]. cbn [upd] in H.
  destruct n as [|i cs]; [done|].
  assert (Hv : v <> w \/ (v = w /\ beside vs ws)).
  { destruct (decide (v = w)) as [->|]; [right|by left]. split; [done|]. split; intros Hp; [apply H1|apply H2]; by apply prefix_cons. }
  destruct ws as [|w' ws].
  - destruct Hv as [Hv|[_ [_ []]]]; [|apply prefix_nil].
    destruct (f (child w cs)) as [[c|]|]; [| |done]; injection H as <-; cbn [get]; [by rewrite child_put_ne|by rewrite child_del_ne].
  - destruct (child w cs) as [c|] eqn:Ec; [|done].
    destruct (upd f c (w' :: ws)) as [c'|] eqn:E; [|done]. injection H as <-. cbn [get].
    destruct Hv as [Hv|[-> Hb]]; [by rewrite child_put_ne|]. rewrite child_put_same, Ec. by eapply IH.
Qed.

(** The directories above it stay, with what they report. *)
Lemma upd_above f n ws n' vs us : upd f n ws = Some n' -> ws = vs ++ us -> us <> [] ->
  exists i cs cs', get n vs = Some (NDir i cs) /\ get n' vs = Some (NDir i cs').
Proof.
  revert n n' vs. induction ws as [|w ws IH]; intros n n' vs H E Hu.
  { symmetry in E. apply app_eq_nil in E as [_ ->]. done. }
  cbn [upd] in H. destruct n as [|i cs]; [done|]. destruct vs as [|v vs].
  - cbn [get]. destruct ws as [|w' ws].
    + destruct (f (child w cs)) as [[c|]|]; [| |done]; injection H as <-; by eexists _, _, _.
    + destruct (child w cs) as [c|]; [|done]. destruct (upd f c (w' :: ws)) as [c'|]; [|done].
      injection H as <-. by eexists _, _, _.
  - injection E as -> ->. destruct (vs ++ us) as [|w' ws] eqn:Evs; [apply app_eq_nil in Evs as [_ ->]; done|].
    destruct (child v cs) as [c|] eqn:Ec; [|done]. destruct (upd f c (w' :: ws)) as [c'|] eqn:E; [|done].
    injection H as <-. cbn [get]. rewrite Ec, child_put_same. by eapply IH.
Qed.

Lemma chain_get i ws vs us : ws = vs ++ us -> get (chain i ws) vs = Some (chain i us).
Proof.
  revert ws. induction vs as [|v vs IH]; intros ws ->; [done|]. cbn [app chain get child].
  rewrite bool_decide_eq_true_2 by done. by apply IH.
Qed.
Lemma chain_dir i ws : exists cs, chain i ws = NDir i cs.
Proof. destruct ws; by eexists. Qed.

(** After mkdirs every directory on the way exists. *)
Lemma mkdirs_dir i n ws n' vs us : mkdirs i n ws = Some n' -> ws = vs ++ us ->
  exists j cs, get n' vs = Some (NDir j cs) /\ (get n vs = None -> j = i) /\
    (forall x, get n vs = Some x -> n_isdir x = true /\ n_meta x = j).
Proof.
  revert n n' vs. induction ws as [|w ws IH]; intros n n' vs H E.
  { symmetry in E. apply app_eq_nil in E as [-> ->]. destruct n as [|j cs]; [done|]. injection H as <-.
    exists j, cs. split; [done|]. split; [done|]. by intros x [= <-]. }
  destruct n as [|j cs]; [done|]. cbn [mkdirs] in H. destruct vs as [|v vs].
  - destruct (child w cs) as [c|]; [destruct (mkdirs i c ws) as [c'|]; [|done]|]; injection H as <-;
      (eexists _, _; split; [done|]; split; [done|]; by intros x [= <-]).
  - injection E as -> E. cbn [get]. destruct (child v cs) as [c|] eqn:Ec.
    + destruct (mkdirs i c ws) as [c'|] eqn:Em; [|done]. injection H as <-. cbn [get]. rewrite child_put_same.
      by eapply IH.
    + injection H as <-. cbn [get]. rewrite child_put_same, (chain_get i ws vs us E).
      destruct (chain_dir i us) as [cs' ->]. by exists i, cs'.
Qed.

(** Nothing that was there is lost. *)
Lemma mkdirs_keeps i n ws n' vs : mkdirs i n ws = Some n' ->
  match get n vs with
  | Some (NFile j d) => get n' vs = Some (NFile j d)
  | Some (NDir j _) => exists cs, get n' vs = Some (NDir j cs)
  | None => True
  end.
Proof.
  revert n n' vs. induction ws as [|w ws IH]; intros n n' vs H.
  { destruct n; [done|]. injection H as <-. destruct (get _ vs) as [[]|]; eauto. }
  destruct n as [|j cs]; [done|]. cbn [mkdirs] in H. destruct vs as [|v vs].
  - cbn [get]. destruct (child w cs) as [c|]; [destruct (mkdirs i c ws) as [c'|]; [|done]|]; injection H as <-; by eexists.
  - cbn [get]. destruct (decide (v = w)) as [->|Hv].
    + destruct (child w cs) as [c|] eqn:Ec; [|done].
      destruct (mkdirs i c ws) as [c'|] eqn:Em; [|done]. injection H as <-. cbn [get]. rewrite child_put_same. by eapply IH.
    + assert (exists c', n' = NDir j (put w c' cs)) as [c' ->].
      { destruct (child w cs) as [c|]; [destruct (mkdirs i c ws) as [c'|]; [|done]|]; injection H as <-; by eexists. }
      cbn [get]. rewrite child_put_ne by done. destruct (child v cs) as [c|]; [|done]. destruct (get c vs) as [[]|]; eauto.
Qed.

(** Failure of mkdirs: a file is in the way. *)
Lemma mkdirs_none i n ws : mkdirs i n ws = None <-> exists vs us j d, ws = vs ++ us /\ get n vs = Some (NFile j d).
Proof.
  revert n. induction ws as [|w ws IH]; intros n.
  { destruct n as [j d|j cs]; cbn [mkdirs].
    - split; [|done]. intros _. by exists [], [], j, d.
    - split; [done|]. intros (vs & us & j' & d & E & H). symmetry in E. apply app_eq_nil in E as [-> _]. done. }
  destruct n as [j d|j cs]; cbn [mkdirs].
  - split; [|done]. intros _. by exists [], (w :: ws), j, d.
  - destruct (child w cs) as [c|] eqn:Ec.
    + destruct (mkdirs i c ws) as [c'|] eqn:Em.
      * split; [done|]. intros (vs & us & j' & d & E & H). destruct vs as [|v vs]; [done|]. injection E as <- E.
        cbn [get] in H. rewrite Ec in H. assert (mkdirs i c ws = None) by (apply IH; by exists vs, us, j', d). congruence.
      * split; [|done]. intros _. destruct (proj1 (IH c) Em) as (vs & us & j' & d & -> & H).
        exists (w :: vs), us, j', d. split; [done|]. cbn [get]. by rewrite Ec.
    + split; [done|]. intros (vs & us & j' & d & E & H). destruct vs as [|v vs]; [done|]. injection E as <- E.
      cbn [get] in H. by rewrite Ec in H.
Qed.

(** Well-formedness is kept. *)
Lemma put_elem x w c cs : x ∈ put w c cs -> x = (w, c) \/ x ∈ cs.
Proof.
  induction cs as [|[v d] cs IH]; cbn [put]; [rewrite elem_of_list_singleton; by left|].
  case_bool_decide; [|destruct (blt w v)]; rewrite !elem_of_cons; [tauto..|]. intros [->|Hx]; [auto|]. destruct (IH Hx); auto.
Qed.
Lemma del_elem x w cs : x ∈ del w cs -> x ∈ cs.
Proof.
  induction cs as [|[v d] cs IH]; cbn [del]; [done|]. case_bool_decide; rewrite ?elem_of_cons; [auto|].
  intros [->|Hx]; auto.
Qed.
Lemma put_sorted w c cs :
  StronglySorted (fun a b : bytes * node => blt a.1 b.1 = true) cs ->
  StronglySorted (fun a b : bytes * node => blt a.1 b.1 = true) (put w c cs).
Proof.
  induction 1 as [|[v d] cs HS IH HF]; cbn [put]; [repeat constructor|].
  case_bool_decide as E; [subst v; by constructor|]. destruct (blt w v) eqn:Eb.
  - constructor; [by constructor|]. constructor; [done|]. eapply Forall_impl; [exact HF|]. intros x. cbn. intros Hx. by eapply blt_trans.
  - constructor; [done|]. apply Forall_forall. intros x Hx. apply put_elem in Hx as [->|Hx].
    + cbn. unfold blt in *. apply negb_false_iff in Eb. apply negb_true_iff. apply not_true_is_false. intros Hb.
      apply E. by apply ble_antisym.
    + rewrite Forall_forall in HF. by apply HF.
Qed.
Lemma del_sorted w cs :
  StronglySorted (fun a b : bytes * node => blt a.1 b.1 = true) cs ->
  StronglySorted (fun a b : bytes * node => blt a.1 b.1 = true) (del w cs).
Proof.
  induction 1 as [|[v d] cs HS IH HF]; cbn [del]; [constructor|]. case_bool_decide; [done|].
  constructor; [done|]. apply Forall_forall. intros x Hx. rewrite Forall_forall in HF. apply HF. by eapply del_elem.
Qed.

Lemma put_wf i w c cs : wf_node (NDir i cs) -> good_elem w -> wf_node c -> wf_node (NDir i (put w c cs)).
Proof.
  rewrite !wf_dir. intros [HS HF] Hw Hc. split; [by apply put_sorted|]. apply Forall_forall.
  intros x Hx. apply put_elem in Hx as [->|Hx]; [done|]. rewrite Forall_forall in HF. by apply HF.
Qed.
Lemma del_wf i w cs : wf_node (NDir i cs) -> wf_node (NDir i (del w cs)).
Proof.
  rewrite !wf_dir. intros [HS HF]. split; [by apply del_sorted|]. apply Forall_forall.
  intros x Hx. apply del_elem in Hx. rewrite Forall_forall in HF. by apply HF.
Qed.
Lemma child_wf i w c cs : wf_node (NDir i cs) -> child w cs = Some c -> wf_node c.
Proof.
  rewrite wf_dir. intros [_ HF] Hc. apply child_elem in Hc. rewrite Forall_forall in HF. by apply (HF _ Hc).
Qed.

Lemma upd_wf f n ws n' : wf_node n -> Forall good_elem ws ->
  (forall x y, (forall c, x = Some c -> wf_node c) -> f x = Some (Some y) -> wf_node y) ->
  upd f n ws = Some n' -> wf_node n'.
Proof.
  intros Hn Hws Hf. revert n n' Hn. induction ws as [|w ws IH]; intros n n' Hn H; cbn [upd] in H.
  - destruct (f (Some n)) as [[x|]|] eqn:E; [|done..]. injection H as <-. eapply Hf; [|exact E]. by intros c [= <-].
  - apply Forall_cons in Hws as [Hw Hws]. destruct n as [|i cs]; [done|]. destruct ws as [|w' ws].
    + destruct (f (child w cs)) as [[x|]|] eqn:E; [| |done]; injection H as <-; [|by apply del_wf].
      apply put_wf; [done|done|]. eapply Hf; [|exact E]. intros c Hc. by eapply child_wf.
    + destruct (child w cs) as [c|] eqn:Ec; [|done]. destruct (upd f c (w' :: ws)) as [c'|] eqn:E; [|done].
      injection H as <-. apply put_wf; [done|done|]. eapply IH; [done| |exact E]. by eapply child_wf.
Qed.
Lemma chain_wf i ws : Forall good_elem ws -> wf_node (chain i ws).
Proof.
  induction 1 as [|w ws Hw _ IH]; [by repeat constructor|]. change (wf_node (NDir i [(w, chain i ws)])).
  apply wf_dir. split; [repeat constructor|]. apply List.Forall_cons; [done|apply List.Forall_nil].
Qed.
Lemma mkdirs_wf i n ws n' : wf_node n -> Forall good_elem ws -> mkdirs i n ws = Some n' -> wf_node n'.
Proof.
  intros Hn Hws. revert n n' Hn. induction ws as [|w ws IH]; intros n n' Hn H.
  - destruct n; [done|]. by injection H as <-.
  - apply Forall_cons in Hws as [Hw Hws]. destruct n as [|j cs]; [done|]. cbn [mkdirs] in H.
    destruct (child w cs) as [c|] eqn:Ec.
    + destruct (mkdirs i c ws) as [c'|] eqn:E; [|done]. injection H as <-. apply put_wf; [done|done|].
      eapply IH; [done| |exact E]. by eapply child_wf.
    + injection H as <-. apply put_wf; [done|done|]. by apply chain_wf.
Qed.
