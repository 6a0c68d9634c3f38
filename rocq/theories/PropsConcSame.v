(** Theorems: goroutines making files of the same name at the same time (C118). *)
From Verif Require Import Bytes GoPath Here GoTypes Mem MemSpec MemBase MemFiles MemFiles2 MemWalk Conc ConcProofs ConcSame PropsFiles PropsConc.

(** A goroutine that makes one file: the time on its clock, the name it gives
    and what it writes. *)
Record maker := Maker { k_now : gotime; k_name : bytes; k_ws : list bytes }.
Definition maker_prog (parse : resolver) (her : hinfo) (k : maker) : prog bool :=
  make_prog parse her (k_now k) (k_name k) (k_ws k).
(** What is to be seen of a file that [k] made. *)
Definition result_of (k : maker) : details * bytes :=
  (Details (base (k_name k)) (Z.of_nat (length (concat (k_ws k)))) 420 (k_now k) false JNull, concat (k_ws k)).

(** Each could make its file alone, and none of them where Create makes the root
    directory. *)
Definition able (parse : resolver) (m : mem) (k : maker) : Prop :=
  (alone (maker_prog parse (m_here m) k) m).2 = true /\
  forall pt, parse (m_here m) (k_name k) = Some pt -> ~ mk_target parse (m_here m) (B"/") pt.

Section Same.
  Context (parse : resolver) (m0 : mem) (ks : list maker).
  Context (Hreach : reachable parse m0) (Hable : Forall (able parse m0) ks).
  Let her := m_here m0.
  Let D := mk_target parse her (B"/").
  Let Q (_ : path) := False.
  Let N0 := m_next m0.
  Let S_ : gset path := list_to_set (omap (fun k => parse her (k_name k)) ks).
  Let P_ (i : nat) (b : bool) (m : mem) (O : gset ref) : Prop :=
    forall k, ks !! i = Some k -> exists pt, parse her (k_name k) = Some pt /\ ~ D pt /\ b = true /\ fresh_at N0 pt m /\
      exists r f, own her D r f m O /\ sole parse her pt r m O /\ made_obj pt (k_name k) (k_now k) (k_ws k) f.
  Let R_ (_ : nat) := relies parse D Q ∅.
  Let G_ (_ : nat) := puts parse her S_.
  Let J_ (O : gset ref) (m : mem) : Prop := True.

  Lemma same_able k : k ∈ ks -> exists pt h, parse her (k_name k) = Some pt /\ pt ∈ S_ /\ ~ D pt /\
    mk_err parse her (mk_fuel (B"/")) (B"/") <> Some EFuel /\ unready parse her pt h m0.
  Proof.
    intros Hk. rewrite Forall_forall in Hable. destruct (Hable k Hk) as [Ha HnD]. fold her in Ha, HnD.
    pose proof (reachable_wf _ _ Hreach) as Hw.
    destruct (alone_doable parse her D (m_infos m0) (fun q => is_Some (m_files m0 !! q)) (k_now k) [JFile (k_name k) (k_ws k)] m0) as
      (pt & Hpt & HD & [h Hh] & Hpar & Hfuel & _); [done..| | | |].
    - intros p perm q Hj. apply elem_of_list_singleton in Hj. done.
    - intros j pt Hj. apply elem_of_list_singleton in Hj as ->. apply HnD.
    - cbn [work_prog]. rewrite alone_bind. fold (maker_prog parse her k). destruct (alone (maker_prog parse her k) m0) as [m1 b].
      cbn [snd] in Ha. by subst b.
    - exists pt, h. split_and!; [done| |done..].
      unfold S_. rewrite elem_of_list_to_set, elem_of_list_omap. by exists k.
  Qed.

  Lemma same_fine : fine_at P_ R_ G_ J_ (replicate (length ks) ∅) m0 (maker_prog parse her <$> ks).
  Proof.
    split_and!.
    - by rewrite replicate_length, fmap_length.
    - intros i p O Hp HO. apply lookup_replicate in HO as [-> _]. split; [|split; [intros r Hr; by apply elem_of_empty in Hr|done]].
      apply list_lookup_fmap_Some in Hp as (k & Hk & ->).
      destruct (same_able k) as (pt & h & Hpt & HS & HnD & Hfuel & Hu); [by eapply elem_of_list_lookup_2|].
      eapply holds_mono; [|eapply (holds_make_same parse her N0 S_); try done].
      + cbv beta. intros b m O (-> & Hf & Hx) k' Hk'. rewrite Hk in Hk'. injection Hk' as <-. exists pt. done.
    - intros i j Oi Oj _ Hi Hj. apply lookup_replicate in Hi as [-> _]. clear. set_solver.
  Qed.

  (** What holds all the time. *)
  Definition kept (Os : list (gset ref)) (m : mem) : Prop :=
    wf m /\ m_here m = her /\ N0 <= m_next m /\
    (forall i O r, Os !! i = Some O -> r ∈ O -> N0 <= r) /\
    (forall q r, ~ D q -> m_files m !! q = Some r -> r < N0 \/ exists i O, Os !! i = Some O /\ r ∈ O) /\
    (forall q, q ∉ S_ -> ~ D q -> file_at m q = file_at m0 q /\ m_files m !! q = m_files m0 !! q).

  Lemma kept_start : kept (replicate (length ks) ∅) m0.
  Proof.
    pose proof (reachable_wf _ _ Hreach) as Hw. split_and!; try done.
    - intros i O r HO Hr. apply lookup_replicate in HO as [-> _]. by apply elem_of_empty in Hr.
    - intros q r _ Hq. left. destruct (wf_files m0 Hw _ _ Hq) as [f Hf]. by eapply wf_next.
  Qed.

  Lemma kept_step Os i O O' m m' : Os !! i = Some O -> G_ i O m O' m' -> kept Os m -> kept (<[i := O']> Os) m'.
  Proof.
    intros HO ((Hw & Hf & _ & Hn & Hgets) & Hsub & Hput) (_ & Hh & HN & Hlow & Hin & Hrest).
    assert (Hlt : i < length Os) by (by eapply lookup_lt_Some). split_and!.
    - apply Hf.
    - by rewrite (fr_here _ _ _ _ _ Hf).
    - lia.
    - intros j Oj r Hj Hr. destruct (decide (i = j)) as [<-|Hne].
      + rewrite list_lookup_insert in Hj by done. injection Hj as <-. destruct (Hgets r Hr) as [?|[? _]]; [by eapply Hlow|lia].
      + rewrite list_lookup_insert_ne in Hj by done. by eapply Hlow.
    - intros q r HD Hq. destruct (Hput q r HD Hq) as [H|H].
      + destruct (Hin q r HD H) as [?|(j & Oj & Hj & Hr)]; [by left|right]. destruct (decide (i = j)) as [<-|Hne].
        * exists i, O'. rewrite list_lookup_insert by done. split; [done|]. apply Hsub. by simplify_eq.
        * exists j, Oj. by rewrite list_lookup_insert_ne.
      + right. exists i, O'. by rewrite list_lookup_insert.
    - intros q HS HD. destruct (Hrest q HS HD) as [H1 H2].
      assert (H3 : m_files m' !! q = m_files m !! q) by (apply (fr_files _ _ _ _ _ Hf); by intros [?|?]).
      split; [|congruence]. rewrite <- H1. unfold file_at. rewrite H3. destruct (m_files m !! q) as [r|] eqn:E; [|done]. cbn.
      destruct (wf_files m Hw _ _ E) as [f Hff].
      apply (fr_heap _ _ _ _ _ Hf); [|by eapply wf_next]. intros Hr. pose proof (Hlow _ _ _ HO Hr) as Hlo.
      pose proof (reachable_wf _ _ Hreach) as Hw0. symmetry in H2. destruct (wf_files m0 Hw0 _ _ H2) as [f0 Hf0].
      pose proof (wf_next m0 Hw0 _ _ Hf0). unfold N0 in Hlo. lia.
  Qed.

  Lemma same_run c : rtc par (m0, maker_prog parse her <$> ks) c ->
    exists Os, fine_at P_ R_ G_ J_ Os c.1 c.2 /\ kept Os c.1.
  Proof.
    intros H. remember (m0, maker_prog parse her <$> ks) as c0 eqn:E.
    assert (H0 : exists Os, fine_at P_ R_ G_ J_ Os c0.1 c0.2 /\ kept Os c0.1).
    { subst c0. eexists. split; [exact same_fine|exact kept_start]. }
    clear E. induction H as [c|c c1 c2 Hs _ IH]; [done|]. apply IH. destruct H0 as (Os & Hfi & Hk).
    destruct (fine_at_step P_ R_ G_ J_) with (Os := Os) (c := c) (c' := c1) as (i & O & O' & HO & HG & Hfi'); [..|done|done|].
    - intros j O m O' m' [HG _]. apply HG.
    - intros j j' O Oj m O' m' _ [HG _] _ _ Hd _. eapply (does_relies parse D Q S_ ∅); [set_solver|set_solver|by intros ? []|exact HG|by intros ? ? []|done].
    - done.
    - done.
    - exists (<[i := O']> Os). split; [done|]. by eapply kept_step.
  Qed.

  Lemma same_end m qs : rtc par (m0, maker_prog parse her <$> ks) (m, qs) -> (forall q, q ∈ qs -> exists b, q = Ret b) ->
    m_here m = her /\ (forall q, q ∈ qs -> q = Ret true) /\
    forall k pt, k ∈ ks -> parse her (k_name k) = Some pt ->
      exists k', k' ∈ ks /\ parse her (k_name k') = Some pt /\ seen parse m (k_name k) = Some (result_of k').
  Proof.
    intros Hrun Hend. destruct (same_run _ Hrun) as (Os & (Hlen & Hfi & _) & (Hw & Hh & HN & Hlow & Hin & _)). cbn [fst snd] in *.
    assert (Hlq : length qs = length ks).
    { assert (Hl : forall c c' : mem * list (prog bool), rtc par c c' -> length c'.2 = length c.2).
      { clear. induction 1 as [|c c1 c2 Hs _ IH]; [done|]. rewrite IH. destruct Hs. cbn. by rewrite insert_length. }
      specialize (Hl _ _ Hrun). cbn in Hl. by rewrite fmap_length in Hl. }
    assert (HP : forall i q O k, qs !! i = Some q -> Os !! i = Some O -> ks !! i = Some k -> exists b, q = Ret b /\ P_ i b m O).
    { intros i q O k Hq HO Hk. destruct (Hend q) as [b ->]; [by eapply elem_of_list_lookup_2|]. exists b. split; [done|].
      destruct (Hfi i _ _ Hq HO) as (Hh' & _). by apply (Hh' m). }
    assert (Hall : forall i, i < length ks -> exists q O k, qs !! i = Some q /\ Os !! i = Some O /\ ks !! i = Some k).
    { intros i Hi. destruct (lookup_lt_is_Some_2 qs i) as [q Hq]; [lia|]. destruct (lookup_lt_is_Some_2 Os i) as [O HO]; [lia|].
      destruct (lookup_lt_is_Some_2 ks i) as [k Hk]; [lia|]. by exists q, O, k. }
    split_and!; [done|..].
    - intros q Hq. apply elem_of_list_lookup in Hq as [i Hq].
      destruct (Hall i) as (q' & O & k & Hq' & HO & Hk); [rewrite <- Hlq; by eapply lookup_lt_Some|].
      rewrite Hq in Hq'. injection Hq' as <-. destruct (HP _ _ _ _ Hq HO Hk) as (b & -> & Hb).
      destruct (Hb k Hk) as (_ & _ & _ & -> & _). done.
    - intros k pt Hk Hpt. apply elem_of_list_lookup in Hk as [i Hk].
      destruct (Hall i) as (q & O & k1 & Hq & HO & Hk1); [by eapply lookup_lt_Some|]. rewrite Hk in Hk1. injection Hk1 as <-.
      destruct (HP _ _ _ _ Hq HO Hk) as (b & _ & Hb). destruct (Hb k Hk) as (pt' & Hpt' & HnD & _ & (_ & r & Hr & Hr0) & _).
      rewrite Hpt in Hpt'. injection Hpt' as <-.
      destruct (Hin pt r HnD Hr) as [?|(j & Oj & HOj & Hrj)]; [lia|].
      destruct (Hall j) as (q2 & O2 & k2 & Hq2 & HO2 & Hk2); [rewrite <- Hlq, <- Hlen; by eapply lookup_lt_Some|].
      rewrite HOj in HO2. injection HO2 as <-. destruct (HP _ _ _ _ Hq2 HOj Hk2) as (b2 & _ & Hb2).
      destruct (Hb2 k2 Hk2) as (pt2 & Hpt2 & _ & _ & _ & r2 & f & Hown & Hsole & (_ & Hd & Hi)).
      destruct (Hsole pt r HnD Hr Hrj) as [-> ->].
      exists k2. split_and!; [by eapply elem_of_list_lookup_2|done|]. rewrite <- Hh in Hpt.
      rewrite (seen_handle parse m (k_name k) pt2 r2 f Hpt Hr) by apply Hown. by rewrite Hd, Hi.
  Qed.

  Lemma same_rest m qs : rtc par (m0, maker_prog parse her <$> ks) (m, qs) -> m_here m = her /\
    forall pt, (forall k, k ∈ ks -> parse her (k_name k) <> Some pt) -> ~ D pt -> file_at m pt = file_at m0 pt.
  Proof.
    intros Hrun. destruct (same_run _ Hrun) as (Os & _ & (_ & Hh & _ & _ & _ & Hrest)). split; [done|]. intros pt Hpt HD.
    apply Hrest; [|done]. unfold S_. rewrite elem_of_list_to_set, elem_of_list_omap. intros (k & Hk & Hx). by apply (Hpt k).
  Qed.
End Same.

(** *** C118 *)

(** Whatever names the goroutines give, equal or not: when all have ended, every
    one has succeeded, and of each file there is to be seen exactly what one of
    the goroutines that gave this name wrote, with the size and time that belong
    to it.  Nothing is mixed and nothing is cut short. *)
Theorem C118_whole parse m ks m' qs :
  reachable parse m -> Forall (able parse m) ks ->
  rtc par (m, maker_prog parse (m_here m) <$> ks) (m', qs) -> (forall q, q ∈ qs -> exists b, q = Ret b) ->
  (forall q, q ∈ qs -> q = Ret true) /\
  forall k, k ∈ ks -> exists k', k' ∈ ks /\ parse (m_here m) (k_name k') = parse (m_here m) (k_name k) /\
    seen parse m' (k_name k) = Some (result_of k').
Proof.
  intros Hr Ha Hrun Hend. destruct (same_end parse m ks Hr Ha m' qs Hrun Hend) as (_ & H1 & H2). split; [done|].
  intros k Hk. destruct (same_able parse m ks Hr Ha k Hk) as (pt & h & Hpt & _).
  destruct (H2 k pt Hk Hpt) as (k' & ? & ? & ?). exists k'. by rewrite Hpt.
Qed.

(** ... and at every moment the files of other names are as they were. *)
Theorem C118_rest parse m ks m' qs name pt :
  reachable parse m -> Forall (able parse m) ks ->
  rtc par (m, maker_prog parse (m_here m) <$> ks) (m', qs) ->
  parse (m_here m) name = Some pt -> (forall k, k ∈ ks -> parse (m_here m) (k_name k) <> Some pt) ->
  ~ mk_target parse (m_here m) (B"/") pt ->
  seen parse m' name = seen parse m name.
Proof.
  intros Hr Ha Hrun Hpt Hks HD. destruct (same_rest parse m ks Hr Ha m' qs Hrun) as [Hh Hf].
  rewrite !seen_alt, Hh, Hpt. cbn. by rewrite Hf.
Qed.

(** Two goroutines making /a, which is there already, at once, and a third
    making /b.  Whichever of the two stores its file last wins. *)
Definition t_late : gotime := GoTime 1579096800 5 0.
Definition makers_ex : list maker :=
  [Maker t0 (B"/a") [B"he"; B"llo"]; Maker t_late (B"/a") [B"world!"]; Maker t0 (B"/b") [B"b"]].
Definition turns_ex (first : nat) : list nat := replicate 4 first ++ concat (replicate 40 [0;1;2]).
Example C118_ex :
  reachable here_parse conc_ex /\ Forall (able here_parse conc_ex) makers_ex /\
  forall first x, (first, x) ∈ [(0, (Details (B"a") 6 420 t_late false JNull, B"world!"));
                                (1, (Details (B"a") 5 420 t0 false JNull, B"hello"))] ->
  exists m' qs, rtc par (conc_ex, maker_prog here_parse her_ex <$> makers_ex) (m', qs) /\
    answers qs = [Some true; Some true; Some true] /\
    seen here_parse m' (B"/a") = Some x /\
    seen here_parse m' (B"/b") = Some (Details (B"b") 1 420 t0 false JNull, B"b").
Proof.
  split; [apply reachable_run, reach_new|]. split.
  - assert (Hh : m_here conc_ex = her_ex) by by vm_compute.
    apply Forall_forall. intros k Hk. unfold makers_ex in Hk. rewrite !elem_of_cons, elem_of_nil in Hk. unfold able. rewrite Hh.
    assert (Hroot : forall pt, mk_target here_parse her_ex (B"/") pt -> p_name pt = B"/").
    { intros pt Hmk. eapply (mk_targets 5) in Hmk; [|by vm_compute]. by apply elem_of_list_singleton in Hmk as ->. }
    destruct Hk as [->|[->|[->|[]]]]; (split; [by vm_compute|]); intros pt Hpt Hmk%Hroot;
      vm_compute in Hpt; by injection Hpt as <-.
  - intros first x Hin.
    exists (run_sched (turns_ex first) (conc_ex, maker_prog here_parse her_ex <$> makers_ex)).1,
      (run_sched (turns_ex first) (conc_ex, maker_prog here_parse her_ex <$> makers_ex)).2.
    split; [rewrite <- surjective_pairing; apply run_sched_par|].
    rewrite !elem_of_cons, elem_of_nil in Hin. destruct Hin as [[= -> ->]|[[= -> ->]|[]]]; by vm_compute.
Qed.
