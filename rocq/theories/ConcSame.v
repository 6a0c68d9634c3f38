(** Goroutines that make files of the same name at the same time. *)
From Verif Require Import Bytes GoPath Here GoTypes Mem MemSpec MemBase MemFiles MemWalk Conc ConcProofs.

Section Same.
  Context (parse : resolver) (her : hinfo).
  (** The directories Create makes. *)
  Let D := mk_target parse her (B"/").
  Let Q (_ : path) := False.
  Notation relies := (relies parse D Q). Notation does := (does parse D).
  (** Where reference numbers started. *)
  Context (N0 : nat).

  (** A step that stores only objects it then owns, but for directories. *)
  Definition puts (S : gset path) (O : gset ref) (m : mem) (O' : gset ref) (m' : mem) : Prop :=
    does S O m O' m' /\ O ⊆ O' /\ forall q r, ~ D q -> m_files m' !! q = Some r -> m_files m !! q = Some r \/ r ∈ O'.

  Lemma does_puts S O m O' m' : O ⊆ O' -> does ∅ O m O' m' -> puts S O m O' m'.
  Proof.
    intros HO H. split; [eapply does_sub; [|exact H]; set_solver|]. split; [done|]. intros q r HD Hq. left.
    destruct H as (_ & Hf & _). rewrite (fr_files _ _ _ _ _ Hf) in Hq; [done|]. intros [?|?]; [set_solver|done].
  Qed.

  (** Keeping a fact about the objects owned, and all these objects. *)
  Lemma holds_side {A} (P : A -> mem -> gset ref -> Prop) (S : gset path) (K : mem -> gset ref -> Prop) p m O :
    (forall O m m', bounded O m -> K m O -> relies ∅ O m m' -> K m' O) ->
    (forall O m O' m', bounded O m -> K m O -> does ∅ O m O' m' -> K m' O') ->
    wf m -> bounded O m -> K m O ->
    holds P (relies ∅) (does ∅) p m O ->
    holds (fun a m O => (exists O1, O1 ⊆ O /\ P a m O1) /\ K m O /\ bounded O m /\ wf m) (relies ∅) (puts S) p m O.
  Proof.
    intros HR HG Hw Hb HK H.
    enough (Hgen : forall O1 O2, O1 ⊆ O2 -> wf m -> bounded O2 m -> K m O2 -> holds P (relies ∅) (does ∅) p m O1 ->
      holds (fun a m O => (exists O1, O1 ⊆ O /\ P a m O1) /\ K m O /\ bounded O m /\ wf m) (relies ∅) (puts S) p m O2)
      by (by apply (Hgen O O)).
    clear Hw Hb HK H O. revert m. induction p as [a|f k IH]; intros m O O2 HO Hw Hb HK H m1 H1;
      pose proof (relies_rtc _ _ _ _ _ _ _ Hw H1) as Hr;
      assert (Hr' : relies ∅ O m m1) by (eapply relies_sub; [done|exact HO|exact Hr]); specialize (H m1 (rtc_once _ _ Hr')).
    - split_and!; [by exists O|eapply HR; [exact Hb|exact HK|exact Hr]|eapply bounded_relies; [exact Hr|exact Hb]|eapply relies_wf; exact Hr].
    - destruct H as (O' & Hg & H). assert (Hb1 : bounded O2 m1) by (eapply bounded_relies; [exact Hr|exact Hb]).
      assert (Hg2 : does ∅ O2 m1 (O2 ∪ O') (f m1)).
      { pose proof (does_more parse D ∅ O2 O m1 O' (f m1) Hb1 Hg) as Hm.
        by rewrite (union_comm_L O2 O), (subseteq_union_1_L O O2) in Hm. }
      exists (O2 ∪ O'). split; [apply does_puts; [set_solver|done]|].
      apply (IH _ (f m1) O'); [set_solver|apply Hg|eapply bounded_gets; [exact Hb1|apply Hg2]| |done].
      eapply HG; [exact Hb1| |exact Hg2]. eapply HR; [exact Hb|exact HK|exact Hr].
  Qed.

  (** Of the objects owned, none is stored as a file; or [r] only, at [pt]. *)
  Definition unstored (m : mem) (O : gset ref) : Prop := forall q r, ~ D q -> m_files m !! q = Some r -> r ∉ O.
  Definition sole (pt : path) (r : ref) (m : mem) (O : gset ref) : Prop :=
    forall q r', ~ D q -> m_files m !! q = Some r' -> r' ∈ O -> r' = r /\ q = pt.
  (** What is at [pt] is new. *)
  Definition fresh_at (pt : path) (m : mem) : Prop := N0 <= m_next m /\ exists r, m_files m !! pt = Some r /\ N0 <= r.

  Lemma old_entry m m' U Ds q r O : frame parse U Ds m m' -> bounded O m -> m_files m' !! q = Some r -> r ∈ O -> m_files m !! q = Some r.
  Proof. intros Hf Hb Hq Hr. destruct (fr_new _ _ _ _ _ Hf _ _ Hq) as [?|Hn]; [done|]. specialize (Hb r Hr). lia. Qed.
  Lemma unstored_relies O m m' : bounded O m -> unstored m O -> relies ∅ O m m' -> unstored m' O.
  Proof. intros Hb H (_ & Hf & _) q r HD Hq Hr. eapply (H q r); [done| |done]. by eapply old_entry. Qed.
  Lemma sole_relies pt r0 O m m' : bounded O m -> sole pt r0 m O -> relies ∅ O m m' -> sole pt r0 m' O.
  Proof. intros Hb H (_ & Hf & _) q r HD Hq Hr. eapply (H q r); [done| |done]. by eapply old_entry. Qed.
  Lemma does_entry O m O' m' q r : does ∅ O m O' m' -> ~ D q -> m_files m' !! q = Some r -> r ∈ O' -> m_files m !! q = Some r /\ r ∈ O.
  Proof.
    intros (Hw & Hf & _ & _ & Hgets) HD Hq Hr. rewrite (fr_files _ _ _ _ _ Hf) in Hq by (intros [?|?]; [set_solver|done]).
    split; [done|]. destruct (Hgets r Hr) as [?|[? _]]; [done|]. destruct (wf_files m Hw _ _ Hq) as [f Hff].
    pose proof (wf_next m Hw _ _ Hff). lia.
  Qed.
  Lemma unstored_does O m O' m' : unstored m O -> does ∅ O m O' m' -> unstored m' O'.
  Proof. intros H Hd q r HD Hq Hr. destruct (does_entry _ _ _ _ _ _ Hd HD Hq Hr). by eapply (H q r). Qed.
  Lemma sole_does pt r0 O m O' m' : sole pt r0 m O -> does ∅ O m O' m' -> sole pt r0 m' O'.
  Proof. intros H Hd q r HD Hq Hr. destruct (does_entry _ _ _ _ _ _ Hd HD Hq Hr). by eapply (H q r). Qed.
  Lemma fresh_frame U Ds pt m m' : fresh_at pt m -> frame parse U Ds m m' -> is_Some (m_files m' !! pt) -> fresh_at pt m'.
  Proof.
    intros (Hn & r & Hr & Hr0) Hf [r' Hr']. pose proof (fr_next _ _ _ _ _ Hf). split; [lia|]. exists r'. split; [done|].
    destruct (fr_new _ _ _ _ _ Hf _ _ Hr') as [?|?]; [|lia]. by assert (r' = r) as -> by congruence.
  Qed.
  Lemma fresh_relies S O pt m m' : fresh_at pt m -> relies S O m m' -> fresh_at pt m'.
  Proof. intros H (_ & Hf & Hg & _). eapply fresh_frame; [done|exact Hf|]. apply Hg. destruct H as (_ & r & ? & _). by exists r. Qed.
  Lemma fresh_does S O O' pt m m' : fresh_at pt m -> does S O m O' m' -> fresh_at pt m'.
  Proof. intros H (_ & Hf & Hg & _). eapply fresh_frame; [done|exact Hf|]. apply Hg. destruct H as (_ & r & ? & _). by exists r. Qed.

  Notation own := (own her D). Notation unready := (unready parse her). Notation ready := (ready parse her).

  (** *** Create *)
  Lemma holds_create_same (S : gset path) now name pt h m O :
    mk_err parse her (mk_fuel (B"/")) (B"/") <> Some EFuel ->
    parse her name = Some pt -> pt ∈ S -> ~ D pt -> unready pt h m -> N0 <= m_next m ->
    bounded O m -> unstored m O ->
    holds (fun x m' O' => exists r, x = Ok r /\ own r (created pt h now name) m' O' /\ sole pt r m' O' /\ fresh_at pt m' /\ bounded O' m')
      (relies ∅) (puts S) (create_prog parse her now name) m O.
  Proof.
    intros Hfuel Hn HS HnD Hr HN Hb Hu. unfold create_prog. apply holds_bind.
    set (K := fun m O => unready pt h m /\ unstored m O /\ N0 <= m_next m).
    eapply holds_mono; [|eapply (holds_side _ S K); [..|apply Hr|exact Hb|split_and!; done|
      apply (holds_mkdir parse her D Q ∅ (m_infos m) (fun _ => False))]].
    2: { intros O1 m1 m2 Hb1 (H1 & H2 & H3) H4. split_and!; [by eapply unready_relies|by eapply unstored_relies|].
         pose proof (fr_next _ _ _ _ _ (proj1 (proj2 H4))). lia. }
    2: { intros O1 m1 O1' m2 Hb1 (H1 & H2 & H3) H4. split_and!; [by eapply unready_does|by eapply unstored_does|].
         pose proof (fr_next _ _ _ _ _ (proj1 (proj2 H4))). lia. }
    2: { split_and!; try apply Hr; done. } 2: done.
    clear Hr O Hb Hu HN. cbv beta. intros e m0 O ((Ox & _ & -> & _ & Hi) & (Hr & Hu & HN) & Hb & Hw). rewrite bool_decide_eq_false_2 by done. rewrite Hn.
    assert (Hroot : rooted parse her (m_infos m) m0).
    { intros He. destruct (Hi He) as ((? & ? & ? & Hf) & _). split_and!; [done..|]. intros q Hq. apply Hf. by right. }
    eapply unready_ready in Hr; [|exact Hroot]. clear m Hi Hroot. rename m0 into m.
    set (K2 := fun m O => ready pt h m /\ unstored m O /\ N0 <= m_next m /\ bounded O m).
    assert (HK2 : forall O m m', K2 m O -> rtc (relies ∅ O) m m' -> K2 m' O).
    { intros O1 m1 m2 (H1 & H2 & H3 & H4) H5. apply relies_rtc in H5; [|apply H1]. split_and!.
      - by eapply ready_relies.
      - by eapply unstored_relies.
      - pose proof (fr_next _ _ _ _ _ (proj1 (proj2 H5))). lia.
      - by eapply bounded_relies. }
    assert (H0 : K2 m O) by done. clear Hr Hu HN Hb Hw.
    apply holds_bind. apply holds_look. intros m1 H1. pose proof (HK2 _ _ _ H0 H1) as Hk1.
    split; [apply does_puts; [done|]; apply does_refl, Hk1|]. intros m2 H2. pose proof (HK2 _ _ _ Hk1 H2) as Hk2.
    unfold mem_info. destruct Hk1 as ((_ & _ & Hi & _) & _). rewrite Hi.
    apply holds_bind.
    apply (holds_mono (fun (x : res ref) m O => (exists r, x = Ok r) /\ K2 m O)).
    - clear - HnD HS HK2. intros x m O [[r0 ->] Hk]. apply holds_act. intros m1 H1. pose proof (HK2 _ _ _ Hk H1) as (Hr1 & Hu1 & HN1 & Hb1).
      change (FObj h (Details (base name) 0 420 now false JNull) pt [] zero_path None None) with (created pt h now name).
      set (f := created pt h now name). change (let '(m0, r) := alloc m1 f in (store m0 pt r, Ok r))
        with (store (alloc m1 f).1 pt (alloc m1 f).2, Ok (alloc m1 f).2). cbn [fst snd].
      assert (Hd : does S O m1 (O ∪ {[m_next m1]}) (store (alloc m1 f).1 pt (alloc m1 f).2)).
      { apply (does_store parse D Q); [exact (proj1 Hr1)|left; by split]. }
      assert (Hb2 : bounded (O ∪ {[m_next m1]}) (store (alloc m1 f).1 pt (alloc m1 f).2)).
      { eapply bounded_gets; [exact Hb1|apply Hd]. }
      eexists. split.
      { split; [exact Hd|]. split; [set_solver|]. intros q r HD Hq. cbn in Hq. destruct (decide (pt = q)) as [<-|Hne].
        - rewrite lookup_insert in Hq. injection Hq as <-. right. set_solver.
        - rewrite lookup_insert_ne in Hq by done. by left. }
      intros m2 H2. exists (alloc m1 f).2. split; [done|].
      assert (Hr2 : relies ∅ (O ∪ {[m_next m1]}) (store (alloc m1 f).1 pt (alloc m1 f).2) m2) by (apply relies_rtc; [apply Hd|done]).
      split_and!.
      + eapply own_rtc; [|exact H2]. split_and!; [apply Hd|apply Hr1|set_solver|cbn; by rewrite lookup_insert|].
        intros q HD Hq. apply HnD. assert (q = pt) as <-; [|done]. eapply (wf_inj (store (alloc m1 f).1 pt (alloc m1 f).2)); [apply Hd|exact Hq|].
        cbn. by rewrite lookup_insert.
      + eapply sole_relies; [exact Hb2| |exact Hr2]. intros q r' HD Hq Hr'. cbn in Hq |- *. destruct (decide (pt = q)) as [<-|Hne].
        * rewrite lookup_insert in Hq. injection Hq as <-. done.
        * rewrite lookup_insert_ne in Hq by done. apply elem_of_union in Hr' as [Hr'|Hr']; [exfalso; by eapply (Hu1 q r')|].
          apply elem_of_singleton in Hr' as ->. exfalso. destruct (wf_files m1 (proj1 Hr1) _ _ Hq) as [f' Hf']. pose proof (wf_next m1 (proj1 Hr1) _ _ Hf'). lia.
      + eapply fresh_relies; [|exact Hr2]. split; [cbn; lia|]. exists (m_next m1). cbn. by rewrite lookup_insert.
      + by eapply bounded_relies.
    - case_bool_decide as Hdir.
      + apply holds_ret. intros m3 H3. split; [eauto|]. by eapply HK2.
      + pose proof Hk2 as ((Hw2 & Hh2 & Hi2 & Hp2) & _). destruct Hp2 as [Hp2|(d & Hd & Hs)]; [done|].
        unfold stat_prog. rewrite Hd. apply holds_look. intros m3 H3.
        pose proof (HK2 _ _ _ Hk2 H3) as Hk3. split; [apply does_puts; [done|]; apply does_refl, Hk3|].
        intros m4 H4. split; [|by eapply HK2].
        destruct (relies_rtc _ _ _ _ _ _ _ Hw2 H3) as (_ & _ & Hg & _). destruct (proj1 Hg d Hs) as [r3 ->]. by exists r3.
  Qed.

  Lemma holds_make_same (S : gset path) now name pt h ws m O :
    mk_err parse her (mk_fuel (B"/")) (B"/") <> Some EFuel ->
    parse her name = Some pt -> pt ∈ S -> ~ D pt -> unready pt h m -> N0 <= m_next m ->
    bounded O m -> unstored m O ->
    holds (fun b m' O' => b = true /\ fresh_at pt m' /\
             exists r f, own r f m' O' /\ sole pt r m' O' /\ made_obj pt name now ws f)
      (relies ∅) (puts S) (make_prog parse her now name ws) m O.
  Proof.
    intros Hfuel Hn HS HnD Hr HN Hb Hu. unfold make_prog. apply holds_bind. eapply holds_mono; [|by eapply holds_create_same].
    clear. cbv beta. intros x m1 O1 (r & -> & H1 & Hs & Hf & Hb).
    eapply holds_mono; [|apply (holds_side (fun b m' O => b = true /\ exists f, own r f m' O /\ made_obj pt name now ws f) S
      (fun m O => sole pt r m O /\ fresh_at pt m)); [..|apply H1|exact Hb|done|]].
    - cbv beta. intros b m' O' ((O2 & HO1 & -> & f & (G1 & G2 & G3 & G4 & G5) & Hf2) & (H2 & H3) & _). split_and!; [done..|].
      exists r, f. split; [|done]. split_and!; [done..|by apply HO1|done|done].
    - intros O2 m2 m3 Hb2 [H2 H3] H4. split; [by eapply sole_relies|by eapply fresh_relies].
    - intros O2 m2 O3 m3 Hb2 [H2 H3] H4. split; [by eapply sole_does|by eapply fresh_does].
    - apply holds_bind. eapply holds_mono; [|by apply holds_writes].
      cbv beta. intros _ m2 O2 H2. apply holds_bind. eapply holds_mono; [|by apply holds_close].
      cbv beta. intros e m3 O3 (g & -> & H3 & Hg). apply holds_ret. intros m4 H4. split; [done|].
      pose proof (own_rtc _ _ _ _ _ _ _ _ _ _ H3 H4) as H5. exists g. split; [done|].
      destruct ws as [|w ws].
      + cbn in Hg. by subst g.
      + cbn [f_writer with_writer] in Hg. by destruct Hg as (G1 & G2 & G3 & G4).
  Qed.
End Same.
