(** Reasoning about interleaved programs: what holds of each goroutine whatever
    the others do, as long as they keep to what each relies on. *)
From Verif Require Import Bytes GoPath Here GoTypes Mem MemSpec MemBase MemFiles MemWalk Conc.

(** [holds P R G p m O]: started in [m] owning the objects [O], [p] makes only
    steps in [G] and ends with [P], if between its steps others make steps in [R]. *)
Fixpoint holds {A} (P : A -> mem -> gset ref -> Prop) (R : gset ref -> mem -> mem -> Prop)
    (G : gset ref -> mem -> gset ref -> mem -> Prop) (p : prog A) (m : mem) (O : gset ref) : Prop :=
  forall m1, rtc (R O) m m1 ->
    match p with
    | Ret a => P a m1 O
    | Act f k => exists O', G O m1 O' (f m1) /\ holds P R G (k m1) (f m1) O'
    end.

Lemma holds_env {A} P R G (p : prog A) m m1 O : rtc (R O) m m1 -> holds P R G p m O -> holds P R G p m1 O.
Proof. intros H1 H. destruct p; intros m2 H2; apply H; by etransitivity. Qed.

Lemma holds_mono {A} (P P' : A -> mem -> gset ref -> Prop) R G p m O :
  (forall a m O, P a m O -> P' a m O) -> holds P R G p m O -> holds P' R G p m O.
Proof.
  intros HP. revert m O. induction p as [a|f k IH]; intros m O H m1 H1; specialize (H m1 H1).
  - by apply HP.
  - destruct H as (O' & HG & H). exists O'. split; [done|]. by apply IH.
Qed.

Lemma holds_bind {A C} (P : C -> mem -> gset ref -> Prop) R G (p : prog A) (k : A -> prog C) m O :
  holds (fun a m O => holds P R G (k a) m O) R G p m O -> holds P R G (bind p k) m O.
Proof.
  revert m O. induction p as [a|f q IH]; intros m O H; cbn [bind].
  - specialize (H m (rtc_refl _ _)). exact H.
  - intros m1 H1. destruct (H m1 H1) as (O' & HG & H2). exists O'. split; [done|]. by apply IH.
Qed.

Lemma holds_ret {A} (P : A -> mem -> gset ref -> Prop) R G a m O :
  (forall m1, rtc (R O) m m1 -> P a m1 O) -> holds P R G (Ret a) m O.
Proof. intros H m1 H1. by apply H. Qed.

Lemma holds_act {A} (P : A -> mem -> gset ref -> Prop) R G (f : mem -> mem * A) m O :
  (forall m1, rtc (R O) m m1 -> exists O', G O m1 O' (f m1).1 /\ forall m2, rtc (R O') (f m1).1 m2 -> P (f m1).2 m2 O') ->
  holds P R G (act f) m O.
Proof. intros H m1 H1. destruct (H m1 H1) as (O' & HG & HP). exists O'. split; [done|]. by apply holds_ret. Qed.

Lemma holds_look {A} (P : A -> mem -> gset ref -> Prop) R (G : gset ref -> mem -> gset ref -> mem -> Prop) (f : mem -> A) m O :
  (forall m1, rtc (R O) m m1 -> G O m1 O m1 /\ forall m2, rtc (R O) m1 m2 -> P (f m1) m2 O) ->
  holds P R G (look f) m O.
Proof. intros H m1 H1. destruct (H m1 H1) as [HG HP]. exists O. split; [done|]. by apply holds_ret. Qed.

Definition bounded (O : gset ref) (m : mem) : Prop := forall r, r ∈ O -> r < m_next m.
(** What a step adds to the objects owned is new. *)
Definition gets (O : gset ref) (m : mem) (O' : gset ref) (m' : mem) : Prop :=
  m_next m <= m_next m' /\ forall r, r ∈ O' -> r ∈ O \/ (m_next m <= r /\ r < m_next m').

Lemma bounded_gets O m O' m' : bounded O m -> gets O m O' m' -> bounded O' m'.
Proof. intros Hb [Hn H] r Hr. destruct (H r Hr) as [H1|[? ?]]; [|lia]. specialize (Hb r H1). lia. Qed.

(** Goroutines that respect each other all end with their conditions. *)
Section Par.
  Context {A : Type} (P : nat -> A -> mem -> gset ref -> Prop).
  Context (R : nat -> gset ref -> mem -> mem -> Prop) (G : nat -> gset ref -> mem -> gset ref -> mem -> Prop).
  Context (J : gset ref -> mem -> Prop).
  Context (Hgets : forall i O m O' m', G i O m O' m' -> gets O m O' m').
  Context (HGR : forall i j O Oj m O' m', i <> j -> G i O m O' m' -> J O m -> bounded O m ->
    Oj ## O -> bounded Oj m -> R j Oj m m').
  Context (HJ : forall i O m O' m', G i O m O' m' -> J O m -> J O' m').
  Context (HJ' : forall i O Oj m O' m', G i O m O' m' -> J O m -> J Oj m -> bounded Oj m -> J Oj m').

  Definition fine_at (Os : list (gset ref)) (m : mem) (ts : list (prog A)) : Prop :=
    length Os = length ts /\
    (forall i p O, ts !! i = Some p -> Os !! i = Some O -> holds (P i) (R i) (G i) p m O /\ bounded O m /\ J O m) /\
    (forall i j Oi Oj, i <> j -> Os !! i = Some Oi -> Os !! j = Some Oj -> Oi ## Oj).
  Definition fine (m : mem) (ts : list (prog A)) : Prop := exists Os, fine_at Os m ts.

  Lemma fine_at_step Os c c' : par c c' -> fine_at Os c.1 c.2 ->
    exists i O O', Os !! i = Some O /\ G i O c.1 O' c'.1 /\ fine_at (<[i := O']> Os) c'.1 c'.2.
  Proof.
    intros Hs (Hlen & Hf & Hdis). destruct Hs as [m ts i f k Hi]. cbn [fst snd] in *.
    assert (Hlt : i < length Os) by (rewrite Hlen; by eapply lookup_lt_Some).
    destruct (lookup_lt_is_Some_2 Os i Hlt) as [O HO].
    destruct (Hf i _ _ Hi HO) as (Hh & Hb & HJO).
    destruct (Hh m (rtc_refl _ _)) as (O' & HG & Hk). pose proof (Hgets _ _ _ _ _ HG) as Hg.
    exists i, O, O'. split; [done|]. split; [done|]. split_and!.
    - by rewrite !insert_length.
    - intros j p Oj Hj HOj. destruct (decide (i = j)) as [<-|Hn].
      + rewrite list_lookup_insert in Hj by (by eapply lookup_lt_Some).
        rewrite list_lookup_insert in HOj by done. injection Hj as <-. injection HOj as <-.
        split_and!; [done|by eapply bounded_gets|by eapply HJ].
      + rewrite list_lookup_insert_ne in Hj by done. rewrite list_lookup_insert_ne in HOj by done. destruct (Hf j _ _ Hj HOj) as (Hhj & Hbj & HJj).
        split_and!.
        * eapply holds_env; [|done]. apply rtc_once. apply (HGR i j O _ _ O'); try done. apply (Hdis j i); [by intros ->|done..].
        * intros r Hr. specialize (Hbj r Hr). destruct Hg as [Hg _]. lia.
        * by eapply HJ'.
    - assert (Hfresh : forall j Oj, i <> j -> Os !! j = Some Oj -> O' ## Oj).
      { intros j Oj Hn HOj r Hr1 Hr2. destruct Hg as [_ Hg]. destruct (Hg r Hr1) as [Hr|[Hr _]].
        - by apply (Hdis i j O Oj Hn HO HOj r).
        - assert (exists p, ts !! j = Some p) as [p Hp]. { apply lookup_lt_is_Some_2. rewrite <- Hlen. by eapply lookup_lt_Some. }
          destruct (Hf j _ _ Hp HOj) as (_ & Hbj & _). specialize (Hbj r Hr2). lia. }
      intros j j' Oj Oj' Hn Hj Hj'. destruct (decide (i = j)) as [<-|Hij].
      + rewrite list_lookup_insert in Hj by done. injection Hj as <-. rewrite list_lookup_insert_ne in Hj' by done. by apply (Hfresh j').
      + rewrite list_lookup_insert_ne in Hj by done. destruct (decide (i = j')) as [<-|Hij'].
        * rewrite list_lookup_insert in Hj' by done. injection Hj' as <-. symmetry. by apply (Hfresh j).
        * rewrite list_lookup_insert_ne in Hj' by done. by apply (Hdis j j').
  Qed.

  Lemma fine_step c c' : par c c' -> fine c.1 c.2 -> fine c'.1 c'.2.
  Proof. intros Hs [Os Hf]. destruct (fine_at_step Os c c' Hs Hf) as (i & O & O' & _ & _ & H). by eexists. Qed.

  Lemma fine_run c c' : rtc par c c' -> fine c.1 c.2 -> fine c'.1 c'.2.
  Proof. induction 1; eauto using fine_step. Qed.

  Lemma fine_start m ts :
    (forall i p, ts !! i = Some p -> holds (P i) (R i) (G i) p m ∅) -> J ∅ m -> fine m ts.
  Proof.
    intros H HJ0. exists (replicate (length ts) ∅). split_and!.
    - by rewrite replicate_length.
    - intros i p O Hp HO. apply lookup_replicate in HO as [-> _]. split_and!; [apply H, Hp| |apply HJ0].
      intros r Hr. by apply elem_of_empty in Hr.
    - intros i j Oi Oj _ Hi Hj. apply lookup_replicate in Hi as [-> _]. clear. set_solver.
  Qed.

  Lemma fine_done c m ts i a : rtc par c (m, ts) -> fine c.1 c.2 -> ts !! i = Some (Ret a) -> exists O, P i a m O.
  Proof.
    intros H Hf Hi. destruct (fine_run _ _ H Hf) as (Os & Hlen & Hall & _). cbn [fst snd] in *.
    destruct (lookup_lt_is_Some_2 Os i) as [O HO]; [rewrite Hlen; by eapply lookup_lt_Some|].
    exists O. apply (Hall i _ _ Hi HO). done.
  Qed.

  (** Every step taken is one that some goroutine is allowed. *)
  Lemma fine_steps c c' (Q : mem -> mem -> Prop) :
    (forall m, Q m m) -> (forall m1 m2 m3, Q m1 m2 -> Q m2 m3 -> Q m1 m3) ->
    (forall i O m O' m', G i O m O' m' -> J O m -> bounded O m -> Q m m') ->
    rtc par c c' -> fine c.1 c.2 -> Q c.1 c'.1.
  Proof.
    intros Hr Ht HG Hrtc. induction Hrtc as [c|c c1 c' Hs Hrtc IH]; intros Hf; [done|].
    pose proof (fine_step _ _ Hs Hf) as Hf1. eapply Ht; [|by apply IH]. clear IH Hf1 Hrtc.
    destruct Hs as [m ts i f k Hi]. cbn [fst snd] in *. destruct Hf as (Os & Hlen & Hall & _).
    destruct (lookup_lt_is_Some_2 Os i) as [O HO]; [rewrite Hlen; by eapply lookup_lt_Some|].
    destruct (Hall i _ _ Hi HO) as (Hh & Hb & HJO). destruct (Hh m (rtc_refl _ _)) as (O' & Hg & _). by eapply HG.
  Qed.
End Par.

(** ** Goroutines that make, read and walk *)

Section Work.
  Context (parse : resolver) (her : hinfo).
  (** [D]: the directories that MkdirAll may make, among them the root.
      [Q]: the paths nobody makes. *)
  Context (D Q : path -> Prop).

  Definition dir_at (pt : path) (m : mem) : Prop :=
    exists r f, m_files m !! pt = Some r /\ m_heap m !! r = Some f /\ d_isdir (f_info f) = true.
  Definition grows (m m' : mem) : Prop :=
    (forall pt, is_Some (m_files m !! pt) -> is_Some (m_files m' !! pt)) /\
    (forall pt, D pt -> dir_at pt m -> dir_at pt m').
  Definition stable (m m' : mem) : Prop :=
    forall pt, Q pt -> m_files m' !! pt = m_files m !! pt /\
      forall r, m_files m !! pt = Some r -> m_heap m' !! r = m_heap m !! r.
  (** The objects owned are not those of [Q]. *)
  Definition apart (O : gset ref) (m : mem) : Prop := forall pt r, Q pt -> m_files m !! pt = Some r -> r ∉ O.

  (** What a goroutine creating the paths [S] does, and what it relies on. *)
  Definition does (S : gset path) (O : gset ref) (m : mem) (O' : gset ref) (m' : mem) : Prop :=
    wf m /\ frame parse (fun r => r ∈ O) (fun pt => pt ∈ S \/ D pt) m m' /\ grows m m' /\ gets O m O' m'.
  Definition relies (S : gset path) (O : gset ref) (m m' : mem) : Prop :=
    wf m /\ frame parse (fun r => r ∉ O) (fun pt => pt ∉ S) m m' /\ grows m m' /\ stable m m'.

  Lemma grows_trans m1 m2 m3 : grows m1 m2 -> grows m2 m3 -> grows m1 m3.
  Proof. intros [H1 H1'] [H2 H2']. split; [intros pt H; by apply H2, H1|intros pt HD H; by apply H2', H1']. Qed.
  Lemma stable_trans m1 m2 m3 : stable m1 m2 -> stable m2 m3 -> stable m1 m3.
  Proof.
    intros H1 H2 pt HQ. destruct (H1 pt HQ) as [F1 G1]. destruct (H2 pt HQ) as [F2 G2]. split; [congruence|].
    intros r Hr. rewrite G2 by congruence. by apply G1.
  Qed.
  Lemma stable_refl m : stable m m.
  Proof. by intros pt. Qed.

  Lemma does_relies S S' O O' Oj m m' :
    S ## S' -> (forall q, D q -> q ∉ S') -> (forall q, Q q -> q ∉ S /\ ~ D q) ->
    does S O m O' m' -> apart O m -> Oj ## O -> relies S' Oj m m'.
  Proof.
    intros Hd Hr HQ (Hw & Hf & Hg & _) Ha Hj. split_and!; [done| |done|].
    - eapply frame_weaken; [| |exact Hf].
      + intros r H1 H2. by apply (Hj r).
      + intros pt [Hpt|Hpt]; [set_solver|by apply Hr].
    - intros pt Hpt. destruct (HQ pt Hpt) as [H1 H2]. split.
      + apply (fr_files _ _ _ _ _ Hf). by intros [?|?].
      + intros r Hrr. apply (fr_heap _ _ _ _ _ Hf); [by eapply Ha|]. destruct (wf_files m Hw _ _ Hrr) as [f Hff]. by eapply wf_next.
  Qed.

  Lemma apart_does S O O' m m' :
    (forall q, Q q -> q ∉ S /\ ~ D q) -> does S O m O' m' -> apart O m -> apart O' m'.
  Proof.
    intros HQ (Hw & Hf & _ & Hn & Hgets) Ha pt r Hpt Hr Hin. destruct (HQ pt Hpt) as [H1 H2].
    rewrite (fr_files _ _ _ _ _ Hf) in Hr by (by intros [?|?]).
    destruct (Hgets r Hin) as [?|[? _]]; [by eapply Ha|].
    destruct (wf_files m Hw _ _ Hr) as [f Hff]. pose proof (wf_next m Hw _ _ Hff). lia.
  Qed.
  Lemma apart_other S O Oj O' m m' :
    (forall q, Q q -> q ∉ S /\ ~ D q) -> does S O m O' m' -> apart Oj m -> apart Oj m'.
  Proof.
    intros HQ (Hw & Hf & _) Ha pt r Hpt Hr. destruct (HQ pt Hpt) as [H1 H2].
    rewrite (fr_files _ _ _ _ _ Hf) in Hr by (by intros [?|?]). by eapply Ha.
  Qed.

  Lemma relies_sub (S S' : gset path) O1 O2 m m' : S' ⊆ S -> O2 ⊆ O1 -> relies S O1 m m' -> relies S' O2 m m'.
  Proof.
    intros Hs Ho (Hw & Hf & Hg & Hst). split_and!; [done| |done|done]. eapply frame_weaken; [| |exact Hf].
    - intros r Hn Hr. apply Hn. by apply Ho.
    - intros pt Hn Hr. apply Hn. by apply Hs.
  Qed.

  Lemma does_sub (S S' : gset path) O m O' m' : S ⊆ S' -> does S O m O' m' -> does S' O m O' m'.
  Proof.
    intros Hs (Hw & Hf & Hg & Hst). split_and!; [done| |done|done]. eapply frame_weaken; [| |exact Hf]; [done|].
    intros pt [Hr|Hr]; [left; by apply Hs|by right].
  Qed.
  Lemma does_more (S : gset path) O1 O m O' m' : bounded O1 m -> does S O m O' m' -> does S (O1 ∪ O) m (O1 ∪ O') m'.
  Proof.
    intros Hb (Hw & Hf & Hg & Hn & Hst). split_and!; [done| |done|]. eapply frame_weaken; [| |exact Hf]; [set_solver|done].
    split; [done|]. intros r Hr. apply elem_of_union in Hr as [Hr|Hr]; [set_solver|]. destruct (Hst r Hr); set_solver.
  Qed.

  Lemma relies_refl S O m : wf m -> relies S O m m.
  Proof. intros Hw. split_and!; [done|by apply frame_refl|done|apply stable_refl]. Qed.

  Lemma relies_trans S O m1 m2 m3 : relies S O m1 m2 -> relies S O m2 m3 -> relies S O m1 m3.
  Proof.
    intros (Hw & Hf & Hg & Hs) (Hw2 & Hf2 & Hg2 & Hs2).
    split_and!; [done| |by eapply grows_trans|by eapply stable_trans]. by eapply frame_trans.
  Qed.

  Lemma relies_rtc S O m m' : wf m -> rtc (relies S O) m m' -> relies S O m m'.
  Proof.
    intros Hw. induction 1 as [m|m m1 m2 H1 H2 IH]; [by apply relies_refl|].
    eapply relies_trans; [exact H1|]. apply IH. destruct H1 as (_ & Hf & _). apply Hf.
  Qed.

  Lemma relies_wf S O m m' : relies S O m m' -> wf m'.
  Proof. intros (_ & Hf & _). apply Hf. Qed.

  Lemma bounded_relies S O O1 m m' : relies S O m m' -> bounded O1 m -> bounded O1 m'.
  Proof. intros (_ & Hf & _) Hb r Hr. specialize (Hb r Hr). pose proof (fr_next _ _ _ _ _ Hf). lia. Qed.
  Lemma bounded_does S O O' O1 m m' : does S O m O' m' -> bounded O1 m -> bounded O1 m'.
  Proof. intros (_ & Hf & _) Hb r Hr. specialize (Hb r Hr). pose proof (fr_next _ _ _ _ _ Hf). lia. Qed.

  (** Keeping a fact about one's own paths and objects [O1] while a part of the
      work is done with other ones. *)
  Lemma holds_keep {A} (P : A -> mem -> gset ref -> Prop) (S S2 : gset path) (K : mem -> Prop) O1 p m O2 :
    S2 ⊆ S ->
    (forall O m m', O1 ⊆ O -> K m -> relies S O m m' -> K m') ->
    (forall O m O' m', O1 ## O -> bounded O1 m -> K m -> does S2 O m O' m' -> K m') ->
    wf m -> K m -> O1 ## O2 -> bounded O1 m ->
    holds P (relies S2) (does S2) p m O2 ->
    holds (fun a m O => exists O2', O = O1 ∪ O2' /\ O1 ## O2' /\ bounded O1 m /\ P a m O2' /\ K m) (relies S) (does S) p m (O1 ∪ O2).
  Proof.
    intros Hsub HKR HKG. revert m O2.
    assert (Hrtc : forall m m1 O2, rtc (relies S (O1 ∪ O2)) m m1 -> wf m -> K m -> bounded O1 m ->
              rtc (relies S2 O2) m m1 /\ K m1 /\ bounded O1 m1 /\ wf m1).
    { intros m m1 O2 H Hw HK Hb. apply relies_rtc in H; [|done]. split_and!.
      - apply rtc_once. eapply relies_sub; [done| |exact H]. set_solver.
      - eapply HKR; [|done|exact H]. set_solver.
      - by eapply bounded_relies.
      - by eapply relies_wf. }
    induction p as [a|f k IH]; intros m O2 Hw HK Hd Hb H m1 H1; destruct (Hrtc _ _ _ H1 Hw HK Hb) as (H2 & HK1 & Hb1 & Hw1);
      specialize (H m1 H2).
    - by exists O2.
    - destruct H as (O2' & HG & H). exists (O1 ∪ O2'). split; [apply does_more; [done|]; by eapply does_sub|].
      apply IH; [apply HG|by eapply HKG| |by eapply bounded_does|done].
      destruct HG as (_ & _ & _ & _ & Hgets). intros r Hr1 Hr2. destruct (Hgets r Hr2) as [?|[? _]]; [by apply (Hd r)|].
      specialize (Hb1 r Hr1). lia.
  Qed.

  (** The simple case: no objects to be kept. *)
  Lemma holds_keep0 {A} (P : A -> mem -> gset ref -> Prop) (S S2 : gset path) (K : mem -> Prop) p m O :
    S2 ⊆ S ->
    (forall O m m', K m -> relies S O m m' -> K m') ->
    (forall O m O' m', K m -> does S2 O m O' m' -> K m') ->
    wf m -> K m ->
    holds P (relies S2) (does S2) p m O ->
    holds (fun a m O => P a m O /\ K m) (relies S) (does S) p m O.
  Proof.
    intros Hs HR HG Hw HK H. rewrite <- (left_id_L ∅ (∪) O).
    eapply holds_mono; [|apply (holds_keep P S S2 K ∅ p m O); try done].
    - cbv beta. intros a m1 O1 (O2 & -> & _ & _ & H1). by rewrite (left_id_L ∅ (∪) O2).
    - intros O1 m1 m2 _. apply HR.
    - intros O1 m1 O1' m2 _ _. apply HG.
  Qed.

  (** Object [r] is one's own, and is [f]; no entry of [D] is that object. *)
  Definition no_dir (r : ref) (m : mem) : Prop := forall q, D q -> m_files m !! q <> Some r.
  Definition own (r : ref) (f : fobj) (m : mem) (O : gset ref) : Prop :=
    wf m /\ m_here m = her /\ r ∈ O /\ m_heap m !! r = Some f /\ no_dir r m.
  Definition at_ (pt : path) (r : ref) (m : mem) : Prop := m_files m !! pt = Some r.

  Lemma own_frame U Ds O1 r f m m' : ~ U r -> own r f m O1 -> frame parse U Ds m m' -> own r f m' O1.
  Proof.
    intros Hs (Hw & Hh & Hr & Hf & Hnd) Hfr.
    split_and!; [apply Hfr|by rewrite (fr_here _ _ _ _ _ Hfr)|done| |].
    - rewrite (fr_heap _ _ _ _ _ Hfr); [done..|by eapply wf_next].
    - intros q HD Hq. destruct (fr_new _ _ _ _ _ Hfr _ _ Hq) as [?|Hn]; [by eapply Hnd|].
      pose proof (wf_next m Hw _ _ Hf). lia.
  Qed.
  Lemma own_relies S O O1 r f m m' : O1 ⊆ O -> own r f m O1 -> relies S O m m' -> own r f m' O1.
  Proof. intros Hs Ho (_ & Hfr & _). eapply own_frame; [|done|exact Hfr]. intros Hn. apply Hn, Hs, Ho. Qed.
  Lemma own_does S O O' O1 r f m m' : O1 ## O -> own r f m O1 -> does S O m O' m' -> own r f m' O1.
  Proof. intros Hs Ho (_ & Hfr & _). eapply own_frame; [|done|exact Hfr]. intros Hn. apply (Hs r); [apply Ho|done]. Qed.
  Lemma own_rtc S O r f m m' : own r f m O -> rtc (relies S O) m m' -> own r f m' O.
  Proof. intros H H1. eapply own_relies; [done|done|]. apply relies_rtc; [apply H|done]. Qed.
  Lemma at_relies (S : gset path) O pt r m m' : pt ∈ S -> at_ pt r m -> relies S O m m' -> at_ pt r m'.
  Proof. intros Hp Ha (_ & Hfr & _). unfold at_. rewrite (fr_files _ _ _ _ _ Hfr); [done|]. by intros Hn. Qed.
  Lemma at_does (S : gset path) O O' pt r m m' : pt ∉ S -> ~ D pt -> at_ pt r m -> does S O m O' m' -> at_ pt r m'.
  Proof. intros Hp HD Ha (_ & Hfr & _). unfold at_. rewrite (fr_files _ _ _ _ _ Hfr); [done|]. by intros [?|?]. Qed.

  Lemma gets_refl O m : gets O m O m.
  Proof. split; [done|]. intros r Hr. by left. Qed.
  Lemma does_refl S O m : wf m -> does S O m O m.
  Proof. intros Hw. split_and!; [done|by apply frame_refl|done|apply gets_refl]. Qed.

  (** A new object that is stored nowhere. *)
  Lemma does_alloc S O m f : wf m -> does S O m (O ∪ {[m_next m]}) (alloc m f).1.
  Proof.
    intros Hw. assert (Hf : frame parse (fun r => r ∈ O) (fun pt => pt ∈ S \/ D pt) m (alloc m f).1).
    { by apply frame_alloc. }
    split_and!; [done|done| |].
    - split; [done|]. intros pt HD (r & g & H1 & H2 & H3). exists r, g. split_and!; [done| |done]. cbn.
      rewrite lookup_insert_ne; [done|]. pose proof (wf_next m Hw _ _ H2). lia.
    - split; [cbn; lia|]. intros r Hr. apply elem_of_union in Hr as [Hr|Hr]; [by left|right].
      apply elem_of_singleton in Hr as ->. cbn. lia.
  Qed.

  (** Storing a new object at [pt]: a file of one's own, or a directory. *)
  Lemma does_store (S : gset path) O pt m f :
    wf m -> (pt ∈ S /\ ~ D pt) \/ (D pt /\ d_isdir (f_info f) = true) ->
    does S O m (O ∪ {[m_next m]}) (store (alloc m f).1 pt (alloc m f).2).
  Proof.
    intros Hw Hp. split_and!; [done|apply frame_alloc_store; [done|naive_solver]| |].
    - split.
      + intros q Hq. cbn. destruct (decide (pt = q)) as [->|]; [rewrite lookup_insert; eauto|by rewrite lookup_insert_ne].
      + intros q HD (r & g & H1 & H2 & H3). unfold dir_at. cbn. destruct (decide (pt = q)) as [->|].
        * destruct Hp as [[_ ?]|[_ Hp]]; [done|]. exists (m_next m), f. by rewrite !lookup_insert.
        * exists r, g. rewrite lookup_insert_ne by done. split_and!; [done| |done].
          rewrite lookup_insert_ne; [done|]. pose proof (wf_next m Hw _ _ H2). lia.
    - split; [cbn; lia|]. intros r Hr. apply elem_of_union in Hr as [Hr|Hr]; [by left|right].
      apply elem_of_singleton in Hr as ->. cbn. lia.
  Qed.
  (** The same without keeping the object: a directory. *)
  Lemma does_less S O m O1 O' m' : O1 ⊆ O' -> does S O m O' m' -> does S O m O1 m'.
  Proof. intros Hs (H1 & H2 & H3 & H4 & H5). split_and!; [done..|]. split; [done|]. intros r Hr. by apply H5, Hs. Qed.

  Lemma does_upd (S : gset path) O r f g m : own r f m O -> does S O m O (upd m r g).
  Proof.
    intros (Hw & Hh & Hr & Hf & Hnd). split_and!; [done| | |].
    - split; cbn; try done.
      + intros r' Hn _. rewrite lookup_insert_ne; [done|]. intros <-. by apply Hn.
      + intros r' _. destruct (decide (r = r')) as [<-|].
        * rewrite lookup_insert. split; [eauto|]. intros _. by exists f.
        * by rewrite lookup_insert_ne.
      + intros q r' H. by left.
      + apply wf_upd; [done|]. by exists f.
    - split; [done|]. intros q HD (r' & f' & H1 & H2 & H3). exists r', f'. cbn. split_and!; [done| |done].
      rewrite lookup_insert_ne; [done|]. intros <-. by apply (Hnd q).
    - split; [done|]. intros r' Hr'. by left.
  Qed.

  Lemma own_upd r f g m O : own r f m O -> own r g (upd m r g) O.
  Proof. intros (Hw & Hh & Hr & Hf & Hnd). split_and!; [apply wf_upd; [done|by exists f]|done|done| |done]. apply heap_upd. Qed.
  (** *** Create *)
  Definition parent_there (pt : path) (m : mem) : Prop :=
    dirname (p_name pt) = B"/" \/ exists d, parse her (dirname (p_name pt)) = Some d /\ is_Some (m_files m !! d).

  Definition ready (pt : path) (h : hinfo) (m : mem) : Prop :=
    wf m /\ m_here m = her /\ m_infos m !! p_pkg pt = Some h /\ parent_there pt m.

  Lemma ready_does S O O' pt h m m' : does S O m O' m' -> ready pt h m -> ready pt h m'.
  Proof.
    intros (_ & Hf & Hg & _) (Hw & Hh & Hi & Hp). split_and!.
    - apply Hf.
    - by rewrite (fr_here _ _ _ _ _ Hf).
    - by rewrite (fr_infos _ _ _ _ _ Hf).
    - destruct Hp as [Hp|(d & Hd & Hs)]; [by left|]. right. exists d. split; [done|]. by apply Hg.
  Qed.
  Lemma ready_relies S O pt h m m' : relies S O m m' -> ready pt h m -> ready pt h m'.
  Proof.
    intros (_ & Hf & Hg & _) (Hw & Hh & Hi & Hp). split_and!.
    - apply Hf.
    - by rewrite (fr_here _ _ _ _ _ Hf).
    - by rewrite (fr_infos _ _ _ _ _ Hf).
    - destruct Hp as [Hp|(d & Hd & Hs)]; [by left|]. right. exists d. split; [done|]. by apply Hg.
  Qed.
  Lemma ready_rtc S O pt h m m' : rtc (relies S O) m m' -> ready pt h m -> ready pt h m'.
  Proof. intros H Hr. eapply ready_relies; [|done]. apply relies_rtc; [apply Hr|done]. Qed.

  (** *** MkdirAll *)
  Fixpoint mk_err (fuel : nat) (p : bytes) : option gerr :=
    match fuel with
    | O => Some EFuel
    | S fuel =>
        match parse her p with
        | None => Some EParse
        | Some pt => let dir := (path_split (p_name pt)).1 in
                     if bool_decide (dir = B"/") then None else mk_err fuel dir
        end
    end.

  Lemma mkdir_err fuel now m p perm : m_here m = her -> (mkdir_all parse fuel now m p perm).2 = mk_err fuel p.
  Proof.
    intros Hh. revert p. induction fuel as [|fuel IH]; intros p; cbn [mk_err mkdir_all]; [done|].
    unfold mem_parse. rewrite Hh. destruct (parse her p) as [pt|]; [|done].
    destruct (path_split (p_name pt)) as [dir name]. cbn [fst].
    case_bool_decide; [done|]. specialize (IH dir). destruct (mkdir_all parse fuel now m dir perm) as [m1 [e|]]; done.
  Qed.

  Lemma mkdir_new fuel now m p perm q : m_here m = her ->
    is_Some (m_files (mkdir_all parse fuel now m p perm).1 !! q) ->
    is_Some (m_files m !! q) \/ (mk_err fuel p = None /\ mk_target parse her p q).
  Proof.
    intros Hh. revert p. induction fuel as [|fuel IH]; intros p; cbn [mkdir_all mk_err]; [by left|].
    unfold mem_parse. rewrite Hh. destruct (parse her p) as [pt|] eqn:Hp; [|by left].
    destruct (path_split (p_name pt)) as [dir name] eqn:E. assert (Hs : (path_split (p_name pt)).1 = dir) by (by rewrite E). cbn [fst].
    case_bool_decide as Hdir.
    - cbn. destruct (decide (pt = q)) as [->|Hn]; [right|rewrite lookup_insert_ne by done; by left]. split; [done|by constructor].
    - specialize (IH dir). pose proof (mkdir_err fuel now m dir perm Hh) as He.
      destruct (mkdir_all parse fuel now m dir perm) as [m1 e]. cbn [fst snd] in *. subst e.
      assert (Hup : mk_target parse her dir q -> mk_target parse her p q).
      { intros Hq. eapply mt_up; [done|by rewrite Hs|by rewrite Hs]. }
      destruct (mk_err fuel dir) eqn:He.
      + intros Hq. destruct (IH Hq) as [?|[? _]]; [by left|done].
      + cbn. destruct (decide (pt = q)) as [->|Hn]; [right; split; [done|by constructor]|].
        rewrite lookup_insert_ne by done. intros Hq. destruct (IH Hq) as [?|[_ ?]]; [by left|right]. split; [done|by apply Hup].
  Qed.

  (** Well-formed, of the current directory [her], with the infos [ii] and at
      least the entries [have]. *)
  Definition inv (ii : gmap bytes hinfo) (have : path -> Prop) (m : mem) : Prop :=
    wf m /\ m_here m = her /\ m_infos m = ii /\ forall q, have q -> is_Some (m_files m !! q).

  Lemma inv_does S O O' ii have m m' : inv ii have m -> does S O m O' m' -> inv ii have m'.
  Proof.
    intros (Hw & Hh & Hi & Hf) (_ & Hfr & Hg & _). split_and!; [apply Hfr| | |].
    - by rewrite (fr_here _ _ _ _ _ Hfr).
    - by rewrite (fr_infos _ _ _ _ _ Hfr).
    - intros q Hq. by apply Hg, Hf.
  Qed.
  Lemma inv_relies S O ii have m m' : inv ii have m -> relies S O m m' -> inv ii have m'.
  Proof.
    intros (Hw & Hh & Hi & Hf) (_ & Hfr & Hg & _). split_and!; [apply Hfr| | |].
    - by rewrite (fr_here _ _ _ _ _ Hfr).
    - by rewrite (fr_infos _ _ _ _ _ Hfr).
    - intros q Hq. by apply Hg, Hf.
  Qed.
  Lemma inv_rtc S O ii have m m' : inv ii have m -> rtc (relies S O) m m' -> inv ii have m'.
  Proof. intros H H1. eapply inv_relies; [done|]. apply relies_rtc; [apply H|done]. Qed.

  Lemma holds_mkdir S ii have fuel now p perm m O :
    inv ii have m -> (forall q, mk_target parse her p q -> D q) ->
    holds (fun e m _ => e = mk_err fuel p /\ inv ii have m /\
                      (e = None -> inv ii (fun q => have q \/ mk_target parse her p q) m /\
                                   forall q, mk_target parse her p q -> dir_at q m))
      (relies S) (does S) (mkdir_prog parse her fuel now p perm) m O.
  Proof.
    revert p m O. induction fuel as [|fuel IH]; intros p m O Hi HD; cbn [mkdir_prog mk_err].
    { apply holds_ret. intros m1 H1. split_and!; [done| |done]. by eapply inv_rtc. }
    destruct (parse her p) as [pt|] eqn:Hp.
    2: { apply holds_ret. intros m1 H1. split_and!; [done| |done]. by eapply inv_rtc. }
    destruct (path_split (p_name pt)) as [dir name] eqn:E. cbn [fst].
    assert (Hsplit : (path_split (p_name pt)).1 = dir) by (by rewrite E).
    apply holds_bind.
    apply (holds_mono (fun e m _ => e = (if bool_decide (dir = B"/") then None else mk_err fuel dir) /\ inv ii have m /\
             (e = None -> inv ii (fun q => have q \/ (dir <> B"/" /\ mk_target parse her dir q)) m /\
                forall q, dir <> B"/" -> mk_target parse her dir q -> dir_at q m))).
    - clear m O Hi. intros e m O (-> & Hi & Hn). destruct (if bool_decide (dir = B"/") then None else mk_err fuel dir) as [e|].
      { apply holds_ret. intros m1 H1. split_and!; [done| |done]. by eapply inv_rtc. }
      destruct (Hn eq_refl) as [Hn' Hdir]. clear Hn. rename Hn' into Hn. apply holds_act. intros m1 H1. pose proof (inv_rtc _ _ _ _ _ _ Hn H1) as Hn1.
      set (f := FObj _ _ _ _ _ _ _). change (let '(m0, r) := alloc m1 f in (store m0 pt r, @None gerr))
        with (store (alloc m1 f).1 pt (alloc m1 f).2, @None gerr). cbn [fst snd].
      assert (Hd : does S O m1 O (store (alloc m1 f).1 pt (alloc m1 f).2)).
      { eapply does_less; [|apply does_store]; [set_solver|apply Hn1|]. right. split; [|done]. apply HD. by constructor. }
      exists O. split; [done|]. intros m2 H2. pose proof (inv_rtc _ _ _ _ _ _ (inv_does _ _ _ _ _ _ _ Hn1 Hd) H2) as Hn2.
      assert (Hg1 : grows m m1). { apply (relies_rtc S O); [apply Hn|done]. }
      assert (Hr2 : relies S O (store (alloc m1 f).1 pt (alloc m1 f).2) m2) by (apply relies_rtc; [apply Hd|done]).
      assert (Hdirs : forall q, mk_target parse her p q -> dir_at q m2).
      { intros q Hq. pose proof (HD q Hq) as HDq.
        destruct Hq as [p pt' Hp' | p pt' q Hp' Hd' Hq']; assert (pt' = pt) as -> by congruence.
        * apply Hr2; [done|]. exists (m_next m1), f. cbn. by rewrite !lookup_insert.
        * apply Hr2; [done|]. apply Hd; [done|]. apply Hg1; [done|]. rewrite Hsplit in Hd', Hq'. by apply Hdir. }
      split; [done|]. split; [|intros _; split; [|done]].
      + destruct Hn2 as (Hw3 & Hh3 & Hi3 & Hf3). split_and!; [done..|]. intros q Hq. apply Hf3. by left.
      + destruct Hn2 as (Hw2 & Hh2 & Hi2 & Hf2). split_and!; [done..|]. intros q [Hq|Hq]; [by apply Hf2; left|].
        destruct (Hdirs q Hq) as (r & ? & Hr & _). by exists r.
    - case_bool_decide as Hdir.
      + apply holds_ret. intros m1 H1. pose proof (inv_rtc _ _ _ _ _ _ Hi H1) as (Hw1 & Hh1 & Hi1 & Hf1).
        split_and!; [done|done|]. intros _. split; [|done]. split_and!; [done..|]. intros q [Hq|[Hq _]]; [by apply Hf1|done].
      + eapply holds_mono; [|apply (IH dir m O Hi)].
        * cbv beta. intros e m1 _ (-> & Hi1 & Hn1). split_and!; [done..|]. intros He. destruct (Hn1 He) as ((Hw2 & Hh2 & Hi2 & Hf2) & Hd2).
          split; [|intros q _; apply Hd2]. split_and!; [done..|]. intros q [Hq|[_ Hq]]; apply Hf2; [by left|by right].
        * intros q Hq. apply HD. eapply mt_up; [done|by rewrite Hsplit|]. by rewrite Hsplit.
  Qed.

  (** What Create needs: that its MkdirAll("/") comes to an end. *)
  Context (HDroot : forall q, mk_target parse her (B"/") q -> D q).

  (** If MkdirAll("/") succeeds, what it makes is there. *)
  Definition rooted (ii : gmap bytes hinfo) (m : mem) : Prop :=
    mk_err (mk_fuel (B"/")) (B"/") = None -> inv ii (mk_target parse her (B"/")) m.
  Lemma rooted_relies S O ii m m' : rooted ii m -> relies S O m m' -> rooted ii m'.
  Proof. intros H Hr He. eapply inv_relies; [by apply H|done]. Qed.
  Lemma rooted_does S O O' ii m m' : rooted ii m -> does S O m O' m' -> rooted ii m'.
  Proof. intros H Hr He. eapply inv_does; [by apply H|done]. Qed.

  (** What Create needs before its MkdirAll("/"). *)
  Definition unready (pt : path) (h : hinfo) (m : mem) : Prop :=
    wf m /\ m_here m = her /\ m_infos m !! p_pkg pt = Some h /\
    (dirname (p_name pt) = B"/" \/
     exists d, parse her (dirname (p_name pt)) = Some d /\
       (is_Some (m_files m !! d) \/ (mk_err (mk_fuel (B"/")) (B"/") = None /\ mk_target parse her (B"/") d))).
  Lemma unready_does S O O' pt h m m' : does S O m O' m' -> unready pt h m -> unready pt h m'.
  Proof.
    intros (_ & Hf & Hg & _) (Hw & Hh & Hi & Hp). split_and!; [apply Hf|..].
    - by rewrite (fr_here _ _ _ _ _ Hf).
    - by rewrite (fr_infos _ _ _ _ _ Hf).
    - destruct Hp as [Hp|(d & Hd & [Hs|Hs])]; [by left|right..]; exists d; (split; [done|]); [left|by right]. by apply Hg.
  Qed.
  Lemma unready_relies S O pt h m m' : relies S O m m' -> unready pt h m -> unready pt h m'.
  Proof.
    intros (_ & Hf & Hg & _) (Hw & Hh & Hi & Hp). split_and!; [apply Hf|..].
    - by rewrite (fr_here _ _ _ _ _ Hf).
    - by rewrite (fr_infos _ _ _ _ _ Hf).
    - destruct Hp as [Hp|(d & Hd & [Hs|Hs])]; [by left|right..]; exists d; (split; [done|]); [left|by right]. by apply Hg.
  Qed.
  Lemma unready_ready pt h ii m : unready pt h m -> rooted ii m -> ready pt h m.
  Proof.
    intros (Hw & Hh & Hi & Hp) Hr. split_and!; [done..|].
    destruct Hp as [Hp|(d & Hd & [Hs|[He Hs]])]; [by left|right..]; exists d; (split; [done|]); [done|]. by apply (Hr He).
  Qed.

  Definition created (pt : path) (h : hinfo) (now : gotime) (name : bytes) : fobj :=
    FObj h (Details (base name) 0 420 now false JNull) pt [] zero_path None None.

  Lemma holds_create now name pt h m O :
    mk_err (mk_fuel (B"/")) (B"/") <> Some EFuel ->
    parse her name = Some pt -> ~ D pt -> unready pt h m ->
    holds (fun x m' O' => (exists r, x = Ok r /\ own r (created pt h now name) m' O' /\ at_ pt r m') /\ rooted (m_infos m) m')
      (relies {[pt]}) (does {[pt]}) (create_prog parse her now name) m O.
  Proof.
    intros Hfuel Hn HnD Hr. unfold create_prog. apply holds_bind. eapply holds_mono;
      [|eapply (holds_keep0 _ {[pt]} {[pt]} (unready pt h)); [done|..|exact Hr|apply (holds_mkdir _ (m_infos m) (fun _ => False))]].
    2: { intros O1 m1 m2 H1 H2. by eapply unready_relies. } 2: { intros O1 m1 O1' m2 H1 H2. by eapply unready_does. }
    2: { apply Hr. } 2: { split_and!; try apply Hr; done. } 2: done.
    clear Hr O. cbv beta. intros e m0 O [(-> & _ & Hi) Hr]. rewrite bool_decide_eq_false_2 by done. rewrite Hn.
    assert (Hroot : rooted (m_infos m) m0).
    { intros He. destruct (Hi He) as ((? & ? & ? & Hf) & _). split_and!; [done..|]. intros q Hq. apply Hf. by right. }
    eapply unready_ready in Hr; [|exact Hroot].
    eapply (holds_keep0 _ {[pt]} {[pt]} (rooted (m_infos m))); [done|..|apply Hr|exact Hroot|].
    { intros O1 m1 m2. apply rooted_relies. } { intros O1 m1 O1' m2. apply rooted_does. }
    clear m Hi Hroot. rename m0 into m.
    apply holds_bind. apply holds_look. intros m1 H1. pose proof (ready_rtc _ _ _ _ _ _ H1 Hr) as Hr1.
    split; [apply does_refl, Hr1|]. intros m2 H2. pose proof (ready_rtc _ _ _ _ _ _ H2 Hr1) as Hr2.
    unfold mem_info. destruct Hr1 as (_ & _ & Hi & _). rewrite Hi.
    apply holds_bind.
    apply (holds_mono (fun (x : res ref) m _ => (exists r, x = Ok r) /\ ready pt h m)).
    - clear - HnD. intros x m O [[r0 ->] Hr]. apply holds_act. intros m1 H1. pose proof (ready_rtc _ _ _ _ _ _ H1 Hr) as Hr1.
      change (FObj h (Details (base name) 0 420 now false JNull) pt [] zero_path None None) with (created pt h now name).
      set (f := created pt h now name). change (let '(m0, r) := alloc m1 f in (store m0 pt r, Ok r))
        with (store (alloc m1 f).1 pt (alloc m1 f).2, Ok (alloc m1 f).2). cbn [fst snd].
      assert (Hd : does {[pt]} O m1 (O ∪ {[m_next m1]}) (store (alloc m1 f).1 pt (alloc m1 f).2)).
      { apply does_store; [apply Hr1|left; split; [by apply elem_of_singleton|done]]. }
      eexists. split; [exact Hd|]. intros m2 H2. exists (alloc m1 f).2. split; [done|]. split.
      + eapply own_rtc; [|exact H2]. split_and!; [apply Hd|apply Hr1|set_solver|cbn; by rewrite lookup_insert|].
        intros q HD Hq. apply HnD. assert (q = pt) as <-; [|done]. eapply (wf_inj (store (alloc m1 f).1 pt (alloc m1 f).2)); [apply Hd|exact Hq|].
        cbn. by rewrite lookup_insert.
      + eapply at_relies; [by apply elem_of_singleton| |apply relies_rtc; [apply Hd|exact H2]].
        unfold at_. cbn. by rewrite lookup_insert.
    - case_bool_decide as Hdir.
      + apply holds_ret. intros m3 H3. split; [eauto|]. by eapply ready_rtc.
      + destruct Hr2 as (Hw2 & Hh2 & Hi2 & Hp2). destruct Hp2 as [Hp2|(d & Hd & Hs)]; [done|].
        unfold stat_prog. rewrite Hd. apply holds_look. intros m3 H3.
        assert (Hr2 : ready pt h m2) by (split_and!; try done; right; by exists d).
        pose proof (ready_rtc _ _ _ _ _ _ H3 Hr2) as Hr3. split; [apply does_refl, Hr3|].
        intros m4 H4. split; [|by eapply ready_rtc].
        destruct (relies_rtc _ _ _ _ Hw2 H3) as (_ & _ & Hg & _). destruct (proj1 Hg d Hs) as [r3 ->]. by exists r3.
  Qed.

  (** *** Write and Close *)
  Definition with_writer (f : fobj) (w : option bytes) : fobj :=
    FObj (f_here f) (f_info f) (f_path f) (f_data f) (f_parent f) w (f_reader f).

  Lemma holds_writes S r f ws m O :
    own r f m O ->
    holds (fun _ m O => own r (match ws with [] => f | _ => with_writer f (Some (default [] (f_writer f) ++ concat ws)) end) m O)
      (relies S) (does S) (writes_prog r ws) m O.
  Proof.
    revert f m O. induction ws as [|w ws IH]; intros f m O H; cbn [writes_prog].
    - apply holds_ret. intros m1 H1. by eapply own_rtc.
    - apply holds_bind. unfold write_prog. apply holds_act. intros m1 H1.
      pose proof (own_rtc _ _ _ _ _ _ H H1) as Ha. pose proof Ha as (_ & _ & _ & Hf & _).
      unfold file_write. rewrite Hf. cbn [fst snd].
      fold (with_writer f (Some (default [] (f_writer f) ++ w))).
      exists O. split; [by eapply does_upd|]. intros m2 H2.
      eapply holds_mono; [|apply (IH (with_writer f (Some (default [] (f_writer f) ++ w))))].
      + cbv beta. intros _ m3 O3 H3. cbn [concat]. destruct ws as [|w' ws].
        * cbn [concat]. by rewrite app_nil_r.
        * cbn [with_writer f_writer default from_option id] in H3. by rewrite <- app_assoc in H3.
      + eapply own_rtc; [|exact H2]. by eapply own_upd.
  Qed.

  (** A handle closed after the writes [ws]. *)
  Definition closed (f g : fobj) (now : gotime) (b : bytes) : Prop :=
    f_path g = f_path f /\ f_here g = f_here f /\ f_data g = b /\
    f_info g = Details (d_name (f_info f)) (Z.of_nat (length b)) (d_mode (f_info f)) now
                 (d_isdir (f_info f)) (d_sys (f_info f)).

  Lemma holds_set S r f g m O :
    own r f m O -> forall {A} (a : A), holds (fun a' m O => a' = a /\ own r (g f) m O) (relies S) (does S) (act (fun m => (set_obj r g m, a))) m O.
  Proof.
    intros H A a. apply holds_act. intros m1 H1. pose proof (own_rtc _ _ _ _ _ _ H H1) as Ha.
    cbn [fst snd]. rewrite (set_obj_some r g m1 f) by apply Ha.
    exists O. split; [by eapply does_upd|]. intros m2 H2. split; [done|].
    eapply own_rtc; [|exact H2]. by eapply own_upd.
  Qed.

  Lemma holds_close S r f now m O :
    own r f m O ->
    holds (fun e m O => exists g, e = None /\ own r g m O /\
             match f_writer f with Some w => closed f g now w | None => g = set_closed f end)
      (relies S) (does S) (close_prog now r) m O.
  Proof.
    intros H. unfold close_prog. apply holds_bind. apply holds_look. intros m1 H1.
    pose proof (own_rtc _ _ _ _ _ _ H H1) as Ha. split; [apply does_refl, Ha|]. intros m2 H2.
    pose proof (own_rtc _ _ _ _ _ _ Ha H2) as Hb. destruct Ha as (_ & _ & _ & -> & _).
    destruct (f_writer f) as [w|] eqn:Ew.
    - apply holds_bind. eapply holds_mono; [|by apply holds_set]. cbv beta. intros [] m3 O3 [_ H3].
      apply holds_bind. eapply holds_mono; [|by apply holds_set]. cbv beta. intros [] m4 O4 [_ H4].
      apply holds_bind. eapply holds_mono; [|by apply holds_set]. cbv beta. intros [] m5 O5 [_ H5].
      eapply holds_mono; [|by apply holds_set]. cbv beta. intros e m6 O6 [-> H6].
      eexists. split; [done|]. split; [exact H6|]. done.
    - eapply holds_mono; [|by apply holds_set]. cbv beta. intros e m6 O6 [-> H6]. eauto.
  Qed.

  (** *** A file made by Create, Write, Close *)
  Definition made_obj (pt : path) (name : bytes) (now : gotime) (ws : list bytes) (f : fobj) : Prop :=
    f_path f = pt /\ f_data f = concat ws /\
    f_info f = Details (base name) (Z.of_nat (length (concat ws))) 420 now false JNull.
  Definition made (pt : path) (name : bytes) (now : gotime) (ws : list bytes) (m : mem) (O : gset ref) : Prop :=
    exists r f, own r f m O /\ at_ pt r m /\ made_obj pt name now ws f.

  Lemma holds_make now name pt h ws m O :
    mk_err (mk_fuel (B"/")) (B"/") <> Some EFuel ->
    parse her name = Some pt -> ~ D pt -> unready pt h m ->
    holds (fun b m' O => (b = true /\ made pt name now ws m' O) /\ rooted (m_infos m) m')
      (relies {[pt]}) (does {[pt]}) (make_prog parse her now name ws) m O.
  Proof.
    intros Hfuel Hn HnD Hr. unfold make_prog. apply holds_bind. eapply holds_mono; [|by apply holds_create].
    cbv beta. intros x m1 O1 ((r & -> & H1 & Hat) & Hroot).
    eapply (holds_keep0 _ {[pt]} {[pt]} (rooted (m_infos m))); [done|..|apply H1|exact Hroot|].
    { intros O2 m2 m3. apply rooted_relies. } { intros O2 m2 O3 m3. apply rooted_does. }
    apply (holds_mono (fun b m' O => (b = true /\ exists f, own r f m' O /\ made_obj pt name now ws f) /\ at_ pt r m')).
    { intros b m' O' [[-> (f & Hf & Hm)] Ha]. split; [done|]. by exists r, f. }
    eapply (holds_keep0 _ {[pt]} ∅ (at_ pt r)); [set_solver|..|apply H1|exact Hat|].
    { intros O2 m2 m3 H2 H3. eapply at_relies; [by apply elem_of_singleton|done..]. }
    { intros O2 m2 O3 m3 H2 H3. eapply at_does; [|done..]. set_solver. }
    apply holds_bind. eapply holds_mono; [|by apply holds_writes].
    cbv beta. intros _ m2 O2 H2. apply holds_bind. eapply holds_mono; [|by apply holds_close].
    cbv beta. intros e m3 O3 (g & -> & H3 & Hg). apply holds_ret. intros m4 H4. split; [done|].
    pose proof (own_rtc _ _ _ _ _ _ H3 H4) as H5. exists g. split; [done|].
    destruct ws as [|w ws].
    - cbn in Hg. by subst g.
    - cbn [f_writer with_writer] in Hg. by destruct Hg as (G1 & G2 & G3 & G4).
  Qed.

  Lemma made_relies (S : gset path) O O1 pt name now ws m m' :
    pt ∈ S -> O1 ⊆ O -> made pt name now ws m O1 -> relies S O m m' -> made pt name now ws m' O1.
  Proof.
    intros Hp Ho (r & f & H & Ha & Hrest) Hr. exists r, f. split_and!; [by eapply own_relies|by eapply at_relies|done].
  Qed.
  Lemma made_does S O O' O1 pt name now ws m m' :
    pt ∉ S -> ~ D pt -> O1 ## O -> made pt name now ws m O1 -> does S O m O' m' -> made pt name now ws m' O1.
  Proof.
    intros Hp HD Ho (r & f & H & Ha & Hrest) Hr. exists r, f. split_and!; [by eapply own_does|by eapply at_does|done].
  Qed.
  Lemma made_more pt name now ws m O O1 : O ⊆ O1 -> made pt name now ws m O -> made pt name now ws m O1.
  Proof. intros Ho (r & f & (H1 & H2 & H3 & H4) & Hrest). exists r, f. split; [|done]. split_and!; try done; [by apply Ho|apply H4..]. Qed.

  (** *** A goroutine making several directories and files *)

  Definition file_of (j : job) : option path :=
    match j with JDir _ _ => None | JFile name _ => parse her name end.
  Definition paths (l : list job) : gset path := list_to_set (omap file_of l).

  Definition parent_in (have : path -> Prop) (pt : path) : Prop :=
    dirname (p_name pt) = B"/" \/
    exists d, parse her (dirname (p_name pt)) = Some d /\
      (have d \/ (mk_err (mk_fuel (B"/")) (B"/") = None /\ mk_target parse her (B"/") d)).

  Definition with_file (have : path -> Prop) (pt q : path) : Prop :=
    have q \/ q = pt \/ (mk_err (mk_fuel (B"/")) (B"/") = None /\ mk_target parse her (B"/") q).

  (** What the jobs need, if the entries [have] are there and the packages are
      those of [ii]. *)
  Fixpoint doable (ii : gmap bytes hinfo) (have : path -> Prop) (l : list job) : Prop :=
    match l with
    | [] => True
    | JDir p perm :: l =>
        mk_err (mk_fuel p) p = None /\ (forall q, mk_target parse her p q -> D q) /\
        doable ii (fun q => have q \/ mk_target parse her p q) l
    | JFile name ws :: l =>
        exists pt, parse her name = Some pt /\ ~ D pt /\ is_Some (ii !! p_pkg pt) /\ parent_in have pt /\
          mk_err (mk_fuel (B"/")) (B"/") <> Some EFuel /\
          doable ii (with_file have pt) l
    end.

  (** What they achieve. *)
  Definition achieved (now : gotime) (j : job) (m : mem) (O : gset ref) : Prop :=
    match j with
    | JDir p perm => exists pt, parse her p = Some pt /\ D pt /\ dir_at pt m
    | JFile name ws => exists pt, parse her name = Some pt /\ made pt name now ws m O
    end.

  Lemma paths_in l j pt : j ∈ l -> file_of j = Some pt -> pt ∈ paths l.
  Proof. intros H1 H2. apply elem_of_list_to_set, elem_of_list_omap. by exists j. Qed.

  Lemma achieved_relies l now j m m' O O1 :
    j ∈ l -> O1 ⊆ O -> achieved now j m O1 -> relies (paths l) O m m' -> achieved now j m' O1.
  Proof.
    intros Hj Ho H Hr. destruct j as [p perm|name ws]; destruct H as (pt & Hp & H); exists pt; (split; [done|]).
    - destruct Hr as (_ & _ & Hg & _), H as [HD H]. split; [done|]. by apply Hg.
    - eapply made_relies; [by eapply paths_in|done..].
  Qed.
  Lemma achieved_more now j m O O1 : O ⊆ O1 -> achieved now j m O -> achieved now j m O1.
  Proof.
    intros Ho. destruct j as [p perm|name ws]; [done|]. intros (pt & Hp & H). exists pt. split; [done|]. by eapply made_more.
  Qed.

  (** What is owned is there. *)
  Lemma holds_bounded {A} (P : A -> mem -> gset ref -> Prop) S p m O :
    wf m -> bounded O m -> holds P (relies S) (does S) p m O ->
    holds (fun a m O => P a m O /\ bounded O m /\ wf m) (relies S) (does S) p m O.
  Proof.
    revert m O. induction p as [a|f k IH]; intros m O Hw Hb H m1 H1; pose proof (relies_rtc _ _ _ _ Hw H1) as Hr; specialize (H m1 H1).
    - split_and!; [done|by eapply bounded_relies|by eapply relies_wf].
    - destruct H as (O' & HG & H). exists O'. split; [done|]. apply IH; [apply HG| |done].
      eapply bounded_gets; [|apply HG]. by eapply bounded_relies.
  Qed.

  Lemma holds_keep1 {A} (P : A -> mem -> gset ref -> Prop) (S S2 : gset path) (K : mem -> Prop) O1 p m :
    S2 ⊆ S ->
    (forall O m m', O1 ⊆ O -> K m -> relies S O m m' -> K m') ->
    (forall O m O' m', O1 ## O -> bounded O1 m -> K m -> does S2 O m O' m' -> K m') ->
    wf m -> K m -> bounded O1 m ->
    holds P (relies S2) (does S2) p m ∅ ->
    holds (fun a m O => exists O2', O = O1 ∪ O2' /\ O1 ## O2' /\ bounded O1 m /\ P a m O2' /\ K m) (relies S) (does S) p m O1.
  Proof.
    intros H1 H2 H3 H4 H5 H6 H7. assert (Hd : O1 ## ∅) by set_solver.
    pose proof (holds_keep P S S2 K O1 p m ∅ H1 H2 H3 H4 H5 Hd H6 H7) as H. by rewrite (right_id_L ∅ (∪) O1) in H.
  Qed.

  Lemma holds_work ii have now l m :
    NoDup (omap file_of l) -> inv ii have m -> doable ii have l ->
    holds (fun bs m O => wf m /\ bs = replicate (length l) true /\ Forall (fun j => achieved now j m O) l)
      (relies (paths l)) (does (paths l)) (work_prog parse her now l) m ∅.
  Proof.
    revert have m. induction l as [|j l IH]; intros have m Hnd Hi Hd; cbn [work_prog].
    { apply holds_ret. intros m1 H1. split_and!; [|done|constructor]. eapply relies_wf, relies_rtc; [apply Hi|done]. }
    assert (HlS : paths l ⊆ paths (j :: l)).
    { unfold paths. cbn. destruct (file_of j); set_solver. }
    assert (Hnd' : NoDup (omap file_of l)).
    { cbn in Hnd. destruct (file_of j); [by apply NoDup_cons in Hnd as [_ ?]|done]. }
    apply holds_bind.
    apply (holds_mono (fun b m O => b = true /\ bounded O m /\ achieved now j m O /\ exists have', inv ii have' m /\ doable ii have' l)).
    - clear m Hi. intros b m O1 (-> & Hb & Ha & have' & Hi & Hd'). apply holds_bind.
      apply (holds_mono (fun bs m O => wf m /\ bs = replicate (length l) true /\ Forall (fun j' => achieved now j' m O) (j :: l))).
      + clear m Hb Ha Hi. intros bs m O (Hw & -> & HF). apply holds_ret. intros m1 H1.
        pose proof (relies_rtc _ _ _ _ Hw H1) as Hr. split_and!; [by eapply relies_wf|done|].
        apply Forall_forall. intros j' Hj'. eapply achieved_relies; [exact Hj'|done| |exact Hr]. by eapply Forall_forall in HF.
      + eapply holds_mono; [|
          apply (holds_keep1 (fun bs m O => wf m /\ bs = replicate (length l) true /\ Forall (fun j => achieved now j m O) l)
                   (paths (j :: l)) (paths l) (fun m => achieved now j m O1) O1)].
        * cbv beta. intros bs m2 O (O2 & -> & _ & _ & (Hw2 & -> & HF) & Ha2). split_and!; [done..|]. constructor.
          -- eapply achieved_more; [|done]. set_solver.
          -- eapply Forall_impl; [exact HF|]. intros j'. apply achieved_more. set_solver.
        * done.
        * intros O m2 m3 Hs H1 H2. eapply achieved_relies; [by left|done..].
        * intros O m2 O' m3 Hs _ H1 H2. destruct j as [p perm|name ws]; destruct H1 as (pt & Hp & H1); exists pt; (split; [done|]).
          -- destruct H2 as (_ & _ & Hg & _), H1 as [HD H1]. split; [done|]. by apply Hg.
          -- cbn in Hd. destruct Hd as (pt' & Hp' & Hn & _). assert (pt' = pt) as -> by congruence.
             eapply made_does; [|done..]. unfold paths. rewrite elem_of_list_to_set. cbn in Hnd. rewrite Hp in Hnd.
             by apply NoDup_cons in Hnd as [? _].
        * apply Hi.
        * done.
        * done.
        * by eapply IH.
    - destruct j as [p perm|name ws]; cbn in Hd.
      + destruct Hd as (He & HD & Hl). apply holds_bind.
        eapply holds_mono; [|apply holds_bounded; [apply Hi|done|by apply (holds_mkdir _ ii have)]].
        clear m Hi. cbv beta. intros e m O ((-> & _ & Hn) & Hb & _). destruct (Hn He) as [Hn' Hdirs]. apply holds_ret. intros m1 H1.
        assert (Hr : relies (paths (JDir p perm :: l)) O m m1) by (apply relies_rtc; [apply Hn'|done]).
        pose proof (inv_rtc _ _ _ _ _ _ Hn' H1) as Hn1. split_and!; [by rewrite He|by eapply bounded_relies| |by eexists].
        assert (exists pt, parse her p = Some pt) as [pt Hp].
        { destruct (parse her p) as [pt|] eqn:Ep; [eauto|]. destruct (mk_fuel p); cbn [mk_err] in He; [done|]. by rewrite Ep in He. }
        exists pt. assert (mk_target parse her p pt) by (by constructor). split_and!; [done|by apply HD|].
        apply Hr; [by apply HD|by apply Hdirs].
      + destruct Hd as (pt & Hp & Hn & [h Hh] & Hpar & Hfuel & Hl).
        assert (Hr : unready pt h m).
        { destruct Hi as (Hw & Hhr & <- & Hf). split_and!; [done..|]. destruct Hpar as [?|(d & Hd & [Hv|Hv])]; [by left|right..];
            exists d; (split; [done|]); [left; by apply Hf|by right]. }
        assert (HptS : {[pt]} ⊆ paths (JFile name ws :: l)).
        { unfold paths. cbn. rewrite Hp. set_solver. }
        eapply holds_mono; [|apply holds_bounded; [apply Hi|done|eapply (holds_keep0 _ _ {[pt]} (inv ii have));
          [done|..|apply Hi|exact Hi|by eapply holds_make]]].
        * cbv beta. intros b m1 O1 [[[[-> Hm] Hroot] Hi1] [Hb1 _]]. split_and!; [done|done|by exists pt|]. exists (with_file have pt).
          split; [|done]. destruct Hi1 as (Hw1 & Hh1 & Hi1 & Hf1). split_and!; [done..|].
          intros q [Hq|[->|[He Hq]]].
          -- by apply Hf1.
          -- destruct Hm as (r & f & _ & Hr' & _). by exists r.
          -- by apply (Hroot He).
        * intros O1 m1 m2. apply inv_relies.
        * intros O1 m1 O1' m2. apply inv_does.
  Qed.

  (** *** What succeeds alone can be done *)

  Lemma alone_writes r ws m : wf m ->
    let m' := (alone (writes_prog r ws) m).1 in
    wf m' /\ m_files m' = m_files m /\ m_here m' = m_here m /\ m_infos m' = m_infos m.
  Proof.
    revert m. induction ws as [|w ws IH]; intros m Hw; cbn [writes_prog alone]; [done|].
    rewrite alone_bind. unfold write_prog. cbn [act alone].
    assert (Hfw : wf (file_write m r w).1 /\ m_files (file_write m r w).1 = m_files m /\
                  m_here (file_write m r w).1 = m_here m /\ m_infos (file_write m r w).1 = m_infos m).
    { unfold file_write. destruct (m_heap m !! r) eqn:E; [|done]. split_and!; [|done..]. apply wf_upd; [done|]. by rewrite E. }
    destruct Hfw as (H1 & H2 & H3 & H4). destruct (IH _ H1) as (G1 & G2 & G3 & G4). cbn zeta.
    split_and!; [done|..]; congruence.
  Qed.

  Lemma alone_closed now r m : wf m ->
    let m' := (alone (close_prog now r) m).1 in
    wf m' /\ m_files m' = m_files m /\ m_here m' = m_here m /\ m_infos m' = m_infos m.
  Proof.
    intros Hw. rewrite alone_close. unfold file_close. destruct (m_heap m !! r) as [f|] eqn:E; [|done].
    destruct (f_writer f); cbn zeta; (split_and!; [|done..]; apply wf_upd; [done|]; by rewrite E).
  Qed.

  Lemma alone_doable ii (have : path -> Prop) now l m :
    wf m -> m_here m = her -> m_infos m = ii -> (forall q, is_Some (m_files m !! q) -> have q) ->
    (forall p perm q, JDir p perm ∈ l -> mk_target parse her p q -> D q) ->
    (forall j pt, j ∈ l -> file_of j = Some pt -> ~ D pt) ->
    (alone (work_prog parse her now l) m).2 = replicate (length l) true -> doable ii have l.
  Proof.
    revert have m. induction l as [|j l IH]; intros have m Hw Hh Hi Hf HDs HFs; cbn [work_prog doable]; [done|].
    rewrite alone_bind.
    destruct (alone _ m) as [m1 b] eqn:E. rewrite alone_bind.
    destruct (alone (work_prog parse her now l) m1) as [m2 bs] eqn:E2. cbn [alone snd length replicate]. intros [= -> Hbs].
    assert (Hgo : forall have' : path -> Prop, wf m1 -> m_here m1 = her -> m_infos m1 = ii -> (forall q, is_Some (m_files m1 !! q) -> have' q) -> doable ii have' l).
    { intros have' Hw1 Hh1 Hi1 Hf1. apply (IH have' m1); try done.
      - intros p perm q Hp. apply (HDs p perm). by right.
      - intros j' pt Hj'. apply HFs. by right.
      - by rewrite E2. }
    destruct j as [p perm|name ws].
    - rewrite alone_bind in E. destruct (alone_mkdir parse (mk_fuel p) now m p perm) as [Hm Hh1]. rewrite Hh in Hm, Hh1. rewrite Hm in E.
      pose proof (mkdir_err (mk_fuel p) now m p perm Hh) as He.
      pose proof (frame_mkdir parse (mk_fuel p) now m p perm Hw) as Hfr.
      destruct (mkdir_all parse (mk_fuel p) now m p perm) as [m1' e] eqn:Em. cbn [alone fst snd] in *. injection E as -> Hb.
      apply bool_decide_eq_true in Hb as ->. split_and!; [done| |].
      + intros q Hq. eapply HDs; [by left|done].
      + apply Hgo; [apply Hfr|done|by rewrite (fr_infos _ _ _ _ _ Hfr)|]. intros q Hq.
        destruct (mkdir_new (mk_fuel p) now m p perm q Hh) as [?|[_ ?]]; [|left; by apply Hf|by right]. by rewrite Em.
    - unfold make_prog in E. rewrite alone_bind in E. pose proof (alone_create parse now m name) as Hac. rewrite Hh in Hac. rewrite Hac in E. clear Hac.
      destruct (create parse now m name) as [mc [r|e]] eqn:Hc; [|by injection E].
      rewrite alone_bind in E. destruct (create_ok _ _ _ _ _ _ Hw Hc) as (pt & h & m0 & Hp & Hm0 & Hip & Hpar & _ & Hmc). rewrite Hh in Hp.
      pose proof (frame_create parse now m name Hw) as Hfr. rewrite Hc in Hfr. cbn [fst] in Hfr.
      assert (Hwc : wf mc) by apply Hfr.
      destruct (alone_writes r ws mc Hwc) as (W1 & W2 & W3 & W4).
      destruct (alone (writes_prog r ws) mc) as [mw []]. cbn [fst] in *. rewrite alone_bind in E.
      destruct (alone_closed now r mw W1) as (K1 & K2 & K3 & K4).
      destruct (alone (close_prog now r) mw) as [mk ek]. cbn [fst] in *. cbn [alone] in E. injection E as ->.
      assert (Hnew : forall q, is_Some (m_files m0 !! q) -> have q \/
                (mk_err (mk_fuel (B"/")) (B"/") = None /\ mk_target parse her (B"/") q)).
      { intros q Hq. rewrite Hm0 in Hq. destruct (mkdir_new _ now m _ 493 q Hh Hq) as [?|?]; [left; by apply Hf|by right]. }
      exists pt. split_and!.
      + done.
      + eapply HFs; [by left|done].
      + rewrite Hi in Hip. by exists h.
      + destruct Hpar as [?|[r0 Hs]]; [by left|right]. unfold stat, mem_parse in Hs. rewrite Hm0, mkdir_here, Hh in Hs.
        destruct (parse her (dirname (p_name pt))) as [d|] eqn:Hd; [|done]. exists d. split; [done|].
        apply Hnew. rewrite Hm0. destruct (m_files _ !! d); [eauto|done].
      + rewrite <- (mkdir_err (mk_fuel (B"/")) now m (B"/") 493 Hh). intros He. unfold create in Hc.
        destruct (mkdir_all parse (mk_fuel (B"/")) now m (B"/") 493) as [m3 e3]. cbn [snd] in He. subst e3. done.
      + apply Hgo; [done|..].
        * rewrite K3, W3, (fr_here _ _ _ _ _ Hfr). done.
        * rewrite K4, W4, (fr_infos _ _ _ _ _ Hfr). done.
        * intros q Hq. rewrite K2, W2, Hmc in Hq. cbn in Hq. destruct (decide (pt = q)) as [->|Hn]; [right; by left|].
          rewrite lookup_insert_ne in Hq by done. destruct (Hnew q Hq); [by left|right; by right].
  Qed.

  (** *** A goroutine reading a file that nobody makes *)

  Lemma stable_at S O pt m m' : Q pt -> rtc (relies S O) m m' -> wf m -> m_here m = her ->
    wf m' /\ m_here m' = her /\ m_files m' !! pt = m_files m !! pt /\
    forall r, m_files m !! pt = Some r -> m_heap m' !! r = m_heap m !! r.
  Proof.
    intros HQ H Hw Hh. apply relies_rtc in H; [|done]. destruct H as (_ & Hf & _ & Hs). destruct (Hs pt HQ) as [H1 H2].
    split_and!; [apply Hf|by rewrite (fr_here _ _ _ _ _ Hf)|done|done].
  Qed.

  Definition with_reader (f : fobj) (rd : option breader) : fobj :=
    FObj (f_here f) (f_info f) (f_path f) (f_data f) (f_parent f) (f_writer f) rd.
  Definition obj_call (c : cursor_op) (f : fobj) : fobj * resp :=
    match c, cur_reader f with
    | CRead n, None => (f, RBytes [] (Some (EMsg unable_to_read)))
    | CRead n, Some rd => let '(rd, (b, e)) := reader_read rd n in (with_reader f (Some rd), RBytes b e)
    | CSeek off wh, None => (f, RNum 0 None)
    | CSeek off wh, Some rd => let '(rd, (z, e)) := reader_seek rd off wh in (with_reader f (Some rd), RNum z e)
    end.
  Fixpoint obj_calls (cs : list cursor_op) (f : fobj) : list resp :=
    match cs with
    | [] => []
    | c :: cs => (obj_call c f).2 :: obj_calls cs (obj_call c f).1
    end.

  Lemma upd_same m r f : m_heap m !! r = Some f -> upd m r f = m.
  Proof. intros H. unfold upd. rewrite insert_id by done. by destruct m. Qed.

  Lemma step_call now m h c f : m_heap m !! h = Some f ->
    step parse m (now, cursor_call h c) = (upd m h (obj_call c f).1, (obj_call c f).2).
  Proof.
    intros Hf. destruct c as [n|off wh]; cbn [step cursor_call obj_call].
    - unfold file_read. rewrite Hf. destruct (cur_reader f) as [rd|]; [|cbn; by rewrite upd_same].
      by destruct (reader_read rd n) as [rd' [b e]].
    - unfold file_seek. rewrite Hf. destruct (cur_reader f) as [rd|]; [|cbn; by rewrite upd_same].
      by destruct (reader_seek rd off wh) as [rd' [b e]].
  Qed.

  Lemma holds_uses S now h cs f m O :
    own h f m O ->
    holds (fun xs m O => xs = obj_calls cs f /\ exists g, own h g m O) (relies S) (does S) (uses_prog parse now h cs) m O.
  Proof.
    revert f m O. induction cs as [|c cs IH]; intros f m O H; cbn [uses_prog].
    - apply holds_ret. intros m1 H1. split; [done|]. exists f. by eapply own_rtc.
    - apply holds_bind. apply holds_act. intros m1 H1. pose proof (own_rtc _ _ _ _ _ _ H H1) as Ha.
      rewrite (step_call now m1 h c f) by apply Ha. cbn [fst snd]. exists O. split; [by eapply does_upd|].
      intros m2 H2. apply holds_bind. eapply holds_mono; [|apply (IH (obj_call c f).1)].
      + cbv beta. intros xs m3 O3 [-> (g & Hg)]. apply holds_ret. intros m4 H4. split; [done|]. exists g. by eapply own_rtc.
      + eapply own_rtc; [|exact H2]. by eapply own_upd.
  Qed.

  (** The answer, from the entry. *)
  Definition opened (f : fobj) : fobj := FObj (f_here f) (new_file_info (f_info f)) (f_path f) (f_data f) zero_path None None.
  Definition read_of (cs : list cursor_op) (x : option fobj) : res (option details * list resp) :=
    match x with
    | None => Err ENotExist
    | Some f => Ok (Some (f_info (opened f)), obj_calls cs (opened f))
    end.

  Lemma holds_read S now name cs pt m O :
    parse her name = Some pt -> Q pt -> wf m -> m_here m = her ->
    holds (fun x _ _ => x = read_of cs (file_at m pt)) (relies S) (does S) (read_prog parse her now name cs) m O.
  Proof.
    intros Hp HQ Hw Hh. unfold read_prog, open_prog. rewrite Hp. apply holds_bind, holds_bind. apply holds_look.
    intros m1 H1. destruct (stable_at _ _ _ _ _ HQ H1 Hw Hh) as (Hw1 & Hh1 & Hf1 & Ho1).
    split; [by apply does_refl|]. intros m2 H2. unfold file_at. rewrite Hf1.
    destruct (m_files m !! pt) as [r|] eqn:Hr; [|apply holds_ret; intros m3 _; by apply holds_ret].
    cbn [mbind option_bind].
    destruct (wf_files m Hw _ _ Hr) as [f Hf]. rewrite Hf. rewrite <- (Ho1 r eq_refl) in Hf.
    destruct (stable_at _ _ _ _ _ HQ H2 Hw1 Hh1) as (Hw2 & Hh2 & Hf2 & Ho2). rewrite Hf1 in Hf2. rewrite <- (Ho2 r Hf1) in Hf.
    clear - HQ Hw2 Hh2 Hf2 Hf. apply holds_bind. apply holds_look. intros m3 H3.
    destruct (stable_at _ _ _ _ _ HQ H3 Hw2 Hh2) as (Hw3 & Hh3 & Hf3 & Ho3). rewrite Hf2 in Hf3. rewrite <- (Ho3 r Hf2) in Hf.
    split; [by apply does_refl|]. intros m4 H4. rewrite Hf. cbn [fmap option_fmap option_map].
    destruct (stable_at _ _ _ _ _ HQ H4 Hw3 Hh3) as (Hw4 & Hh4 & Hf4 & Ho4). rewrite Hf3 in Hf4. rewrite <- (Ho4 r Hf3) in Hf.
    clear - HQ Hw4 Hh4 Hf4 Hf. apply holds_act. intros m5 H5.
    destruct (stable_at _ _ _ _ _ HQ H5 Hw4 Hh4) as (Hw5 & Hh5 & Hf5 & Ho5). rewrite Hf4 in Hf5. rewrite <- (Ho5 r Hf4) in Hf.
    rewrite Hf. fold (opened f).
    change (let '(m0, h) := alloc m5 (opened f) in (m0, Ok h)) with ((alloc m5 (opened f)).1, @Ok ref (m_next m5)). cbn [fst snd].
    eexists. split; [by apply does_alloc|]. intros m6 H6.
    assert (Hown : own (m_next m5) (opened f) m6 (O ∪ {[m_next m5]})).
    { eapply own_rtc; [|exact H6]. split_and!.
      - by apply wf_alloc.
      - done.
      - set_solver.
      - cbn. by rewrite lookup_insert.
      - intros q HD Hq. cbn in Hq. destruct (wf_files m5 Hw5 _ _ Hq) as [g Hg]. pose proof (wf_next m5 Hw5 _ _ Hg). lia. }
    clear - Hown. apply holds_bind. apply holds_look. intros m7 H7. pose proof (own_rtc _ _ _ _ _ _ Hown H7) as Hown7.
    split; [apply does_refl, Hown7|]. intros m8 H8. pose proof (own_rtc _ _ _ _ _ _ Hown7 H8) as Hown8.
    destruct Hown7 as (_ & _ & _ & -> & _). cbn [fmap option_fmap option_map].
    apply holds_bind. eapply holds_mono; [|by apply holds_uses]. cbv beta. intros xs m9 O9 [-> (g & Hg)].
    apply holds_bind. eapply holds_mono; [|by eapply holds_close]. cbv beta. intros _ m10 O10 _. by apply holds_ret.
  Qed.

  (** *** A goroutine walking *)

  Definition walks (pt k : path) : Prop :=
    p_pkg k = p_pkg pt /\ has_prefix (p_name k) (p_name pt) = true /\ has_prefix (p_name k) (B"!") = false.
  Global Instance walks_dec pt k : Decision (walks pt k).
  Proof. unfold walks. apply _. Defined.

  (** [x] shows entry [k] as it is in [m], if nobody makes it. *)
  Definition shows (m : mem) (k : path) (x : bytes * details) : Prop :=
    x.1 = path_string k /\ (Q k -> exists f, file_at m k = Some f /\ x.2 = new_file_info (f_info f)).

  Lemma holds_walk_loop S m0 pt keys s m O :
    wf m -> (forall k, k ∈ keys -> is_Some (m_files m !! k)) ->
    (forall k, Q k -> file_at m k = file_at m0 k) ->
    holds (fun x m' O => x.2 = None /\ (exists l, x.1 = s ++ l /\ Forall2 (shows m0) (filter (walks pt) keys) l) /\
             (forall k, k ∈ keys -> is_Some (m_files m' !! k)))
      (relies S) (does S) (walk_prog_loop note pt keys (B"!") s) m O.
  Proof.
    intros Hw Hk HQ.
    enough (H : holds (fun x m' O => (x.2 = None /\ (exists l, x.1 = s ++ l /\ Forall2 (shows m0) (filter (walks pt) keys) l)) /\
                         (forall k, k ∈ keys -> is_Some (m_files m' !! k)))
                  (relies S) (does S) (walk_prog_loop note pt keys (B"!") s) m O).
    { eapply holds_mono; [|exact H]. cbv beta. intros x m' O' [[? ?] ?]. done. }
    eapply (holds_keep0 _ S S (fun m => forall k, k ∈ keys -> is_Some (m_files m !! k))); [done|..|done|done|].
    { intros O1 m1 m2 H (_ & _ & Hg & _) k Hkk. by apply Hg, H. }
    { intros O1 m1 O2 m2 H (_ & _ & Hg & _) k Hkk. by apply Hg, H. }
    revert s m O Hw Hk HQ. induction keys as [|k keys IH]; intros s m O Hw Hk HQ; cbn [walk_prog_loop].
    { apply holds_ret. intros m1 _. split; [done|]. exists []. rewrite app_nil_r. split; [done|constructor]. }
    assert (Hk' : forall k, k ∈ keys -> is_Some (m_files m !! k)) by (intros k' Hkk; apply Hk; by right).
    case_bool_decide as Hpkg; cbn [negb].
    2: { eapply holds_mono; [|by apply IH]. cbv beta. rewrite filter_cons_False; [done|]. by intros (? & _). }
    destruct (has_prefix (p_name k) (p_name pt)) eqn:Hpre; cbn [negb].
    2: { eapply holds_mono; [|by apply IH]. cbv beta. rewrite filter_cons_False; [done|]. intros (_ & ? & _). congruence. }
    destruct (has_prefix (p_name k) (B"!")) eqn:Hsk.
    { eapply holds_mono; [|by apply IH]. cbv beta. rewrite filter_cons_False; [done|]. intros (_ & _ & ?). congruence. }
    rewrite filter_cons_True by done.
    (* from here on the state only grows, and the entries of [Q] stay *)
    assert (Hnext : forall m1 m2 O, wf m1 -> rtc (relies S O) m1 m2 ->
              (forall k', k' ∈ k :: keys -> is_Some (m_files m1 !! k')) -> (forall k, Q k -> file_at m1 k = file_at m0 k) ->
              wf m2 /\ (forall k', k' ∈ k :: keys -> is_Some (m_files m2 !! k')) /\ (forall k, Q k -> file_at m2 k = file_at m0 k)).
    { clear. intros m1 m2 O Hw Hr Hk HQ. apply relies_rtc in Hr; [|done]. destruct Hr as (_ & Hf & Hg & Hs).
      split_and!; [apply Hf|intros k' Hkk; by apply Hg, Hk|]. intros k' HQk. rewrite <- HQ by done. unfold file_at.
      destruct (Hs k' HQk) as [-> Hh]. destruct (m_files m1 !! k') as [r|] eqn:E; [|done]. cbn. by apply Hh. }
    apply holds_bind. apply holds_look. intros m1 H1. destruct (Hnext _ _ _ Hw H1 Hk HQ) as (Hw1 & Hk1 & HQ1).
    split; [by apply does_refl|]. intros m2 H2. destruct (Hnext _ _ _ Hw1 H2 Hk1 HQ1) as (Hw2 & Hk2 & HQ2).
    destruct (Hk1 k) as [r Hr]; [by left|]. rewrite Hr.
    destruct (wf_files m1 Hw1 _ _ Hr) as [f1 Hf1].
    assert (Hf2 : is_Some (m_heap m2 !! r)).
    { pose proof (relies_rtc _ _ _ _ Hw1 H2) as (_ & Hfr & _). apply (fr_dom _ _ _ _ _ Hfr); [by eapply wf_next|by exists f1]. }
    assert (HQr2 : Q k -> m_files m2 !! k = Some r).
    { intros HQk. pose proof (relies_rtc _ _ _ _ Hw1 H2) as (_ & _ & _ & Hst). destruct (Hst k HQk) as [-> _]. done. }
    apply holds_bind. apply holds_look. intros m3 H3. destruct (Hnext _ _ _ Hw2 H3 Hk2 HQ2) as (Hw3 & Hk3 & HQ3).
    split; [by apply does_refl|]. intros m4 H4. destruct (Hnext _ _ _ Hw3 H4 Hk3 HQ3) as (Hw4 & Hk4 & HQ4).
    assert (exists f, m_heap m3 !! r = Some f) as [f Hf].
    { destruct Hf2 as [f2 Hf2]. pose proof (relies_rtc _ _ _ _ Hw2 H3) as (_ & Hfr & _).
      apply (fr_dom _ _ _ _ _ Hfr); [by eapply wf_next|by exists f2]. }
    assert (HQr3 : Q k -> file_at m0 k = Some f).
    { intros HQk. rewrite <- HQ3 by done. unfold file_at. pose proof (relies_rtc _ _ _ _ Hw2 H3) as (_ & _ & _ & Hst).
      destruct (Hst k HQk) as [-> _]. by rewrite (HQr2 HQk). }
    rewrite Hf. cbn [fmap option_fmap option_map note].
    eapply holds_mono; [|apply IH; [done| |done]].
    - cbv beta. intros x m5 O5 [He (l & Hl & HF)]. split; [done|]. eexists. split; [rewrite Hl, <- app_assoc; done|].
      cbn [app]. constructor; [|done]. split; [done|]. intros HQk. exists f. split; [by apply HQr3|done].
    - intros k' Hkk. apply Hk4. by right.
  Qed.

  (** The keys walked: all those there at the beginning, and none that is not
      there in the end; in order. *)
  Definition walked (m0 m : mem) (pt : path) (x : list (bytes * details) * option gerr) : Prop :=
    x.2 = None /\ exists keys, StronglySorted key_le keys /\ NoDup keys /\
      (forall k, is_Some (m_files m0 !! k) -> k ∈ keys) /\ (forall k, k ∈ keys -> is_Some (m_files m !! k)) /\
      Forall2 (shows m0) (filter (walks pt) keys) x.1.

  Lemma sublist_nodup (l ks : list path) : l `sublist_of` ks -> NoDup ks -> NoDup l.
  Proof.
    induction 1 as [|k l ks H IH|k l ks H IH]; intros Hn; [done|..]; apply NoDup_cons in Hn as [H1 H2]; [|by apply IH].
    constructor; [|by apply IH]. intros Hin. apply H1. by eapply elem_of_submseteq, sublist_submseteq.
  Qed.

  Lemma holds_range S ks m O :
    wf m ->
    holds (fun l m' O' => O' = O /\ relies S O m m' /\ l `sublist_of` ks /\ (forall k, k ∈ l -> is_Some (m_files m' !! k)) /\
             (forall k, k ∈ ks -> is_Some (m_files m !! k) -> k ∈ l))
      (relies S) (does S) (range_prog ks) m O.
  Proof.
    revert m. induction ks as [|k ks IH]; intros m Hw; cbn [range_prog].
    - apply holds_ret. intros m1 H1. split_and!; [done|by apply relies_rtc|constructor|..]; intros k Hk; by apply elem_of_nil in Hk.
    - apply holds_bind, holds_look. intros m1 H1. pose proof (relies_rtc _ _ _ _ Hw H1) as R1. pose proof (relies_wf _ _ _ _ R1) as Hw1.
      split; [by apply does_refl|]. intros m2 H2. pose proof (relies_rtc _ _ _ _ Hw1 H2) as R2. pose proof (relies_wf _ _ _ _ R2) as Hw2.
      apply holds_bind. eapply holds_mono; [|by apply IH]. cbv beta. intros l m3 O3 (-> & R3 & Hs & Hl & Hk).
      pose proof (relies_wf _ _ _ _ R3) as Hw3. apply holds_ret. intros m4 H4. pose proof (relies_rtc _ _ _ _ Hw3 H4) as R4.
      assert (R02 : relies S O m m2) by (by eapply relies_trans).
      assert (R24 : relies S O m2 m4) by (by eapply relies_trans).
      assert (Hrest : forall k', k' ∈ ks -> is_Some (m_files m !! k') -> k' ∈ l).
      { intros k' Hin H. apply Hk; [done|]. destruct R02 as (_ & _ & Hg & _). by apply Hg. }
      assert (Hthere : forall k', k' ∈ l -> is_Some (m_files m4 !! k')).
      { intros k' Hin. destruct R4 as (_ & _ & Hg & _). by apply Hg, Hl. }
      split_and!; [done|by eapply relies_trans|..].
      + destruct (m_files m1 !! k); by constructor.
      + intros k' Hin. destruct (m_files m1 !! k) as [r|] eqn:E; [|by apply Hthere].
        apply elem_of_cons in Hin as [->|Hin]; [|by apply Hthere].
        destruct R2 as (_ & _ & Hg2 & _), R24 as (_ & _ & Hg4 & _). apply Hg4, Hg2. by exists r.
      + intros k' Hin H. apply elem_of_cons in Hin as [->|Hin].
        * destruct R1 as (_ & _ & Hg & _). destruct (proj1 Hg k H) as [r ->]. left.
        * destruct (m_files m1 !! k); [right|]; by apply Hrest.
  Qed.

  Lemma holds_walk S m0 cand p pt m O :
    parse her p = Some pt -> candidates cand -> wf m -> (forall k, is_Some (m_files m0 !! k) -> is_Some (m_files m !! k)) ->
    (forall k, Q k -> file_at m k = file_at m0 k) ->
    holds (fun x m' O => walked m0 m' pt x) (relies S) (does S) (walk_prog parse her cand p note []) m O.
  Proof.
    intros Hp Hc Hw Hd HQ. unfold walk_prog, keys_prog. apply holds_bind, holds_bind, holds_look. intros m1 H1.
    pose proof (relies_rtc _ _ _ _ Hw H1) as R1. pose proof (relies_wf _ _ _ _ R1) as Hw1.
    split; [by apply does_refl|]. intros m2 H2. pose proof (relies_rtc _ _ _ _ Hw1 H2) as R2. pose proof (relies_wf _ _ _ _ R2) as Hw2.
    apply holds_bind. eapply holds_mono; [|by apply (holds_range S (cand m1) m2 O)]. cbv beta. intros l m3 O3 (-> & R3 & Hs & Hl & Hk).
    apply holds_ret. intros m4 H4. pose proof (relies_wf _ _ _ _ R3) as Hw3. pose proof (relies_rtc _ _ _ _ Hw3 H4) as R4.
    rewrite Hp. assert (R04 : relies S O m m4) by (do 3 (eapply relies_trans; [eassumption|]); done).
    eapply holds_mono; [|apply (holds_walk_loop S m0 pt (merge_sort key_le l) [] m4 O)].
    - cbv beta. intros x m5 O5 (He & (l' & Hl' & HF) & Hk'). split; [done|]. exists (merge_sort key_le l). split_and!.
      + apply (StronglySorted_merge_sort key_le).
      + rewrite merge_sort_Permutation. eapply sublist_nodup; [exact Hs|apply Hc].
      + intros k Hk0. rewrite merge_sort_Permutation. destruct R1 as (_ & _ & Hg1 & _), R2 as (_ & _ & Hg2 & _).
        apply Hk; [apply Hc|apply Hg2]; by apply Hg1, Hd.
      + done.
      + cbn [app] in Hl'. by rewrite Hl'.
    - by eapply relies_wf.
    - intros k Hin. rewrite merge_sort_Permutation in Hin. destruct R4 as (_ & _ & Hg & _). by apply Hg, Hl.
    - intros k HQk. rewrite <- HQ by done. unfold file_at. destruct R04 as (_ & _ & _ & Hst).
      destruct (Hst k HQk) as [-> Hh]. destruct (m_files m !! k) as [r|] eqn:E; [|done]. cbn. by apply Hh.
  Qed.
End Work.

(** Running alone is one way of running. *)
Lemma holds_alone {A} (P : A -> mem -> gset ref -> Prop) R G (p : prog A) m O :
  holds P R G p m O -> exists O', P (alone p m).2 (alone p m).1 O'.
Proof.
  revert m O. induction p as [a|f k IH]; intros m O H; specialize (H m (rtc_refl _ _)); cbn [alone].
  - by exists O.
  - destruct H as (O' & _ & H). by eapply IH.
Qed.
