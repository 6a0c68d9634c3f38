(** Model of the global stack of layers under concurrent use:
    /repo/apply.go:10-19 (Apply) and /repo/pkger.go:13-29 (current, gil, impl).

    Goroutines are threads stepping one atomic action at a time.  [current]
    is a list of layers, most recent first; [] is the nil interface (impl then
    answers [disk]).  What a layer is does not matter here, so layers have an
    arbitrary type [L].  The fields marked ghost record history for the
    theorems; no step looks at them. *)
From Verif Require Import Bytes.

Section Apply.
  Context {L : Type}.
  Definition tid := nat.

  (** What a goroutine does: Apply(l, err) or one API call (all API functions
      of pkger.go:41-100 call impl() once and then use its result). *)
  Inductive act := AApply (l : L) (err : bool) | ACall.

  Inductive pc :=
  | PIdle
  | PWantW (l : L)                     (* before gil.Lock(), apply.go:15 *)
  | PLock (l : L)                      (* lock held, current not read yet *)
  | PRead (l : L) (cur : list L)       (* argument of Wrap evaluated, apply.go:17 *)
  | PWrote                             (* current assigned, before Unlock *)
  | PWantR (start : nat)               (* before gil.RLock(), pkger.go:23 *)
  | PRLock (start : nat)               (* read lock held *)
  | PSnap (start : nat) (cur : list L) (* current read, before RUnlock *)
  | PUse (start : nat) (cur : list L)  (* using the implementation read *)
  | PPanic.                            (* apply.go:12 *)

  Record thr := Thr {
    t_todo : list act;
    t_pc : pc;
    t_calls : list (nat * list L * nat)  (* ghost: finished API calls: when started, stack used, when ended *)
  }.

  Record gst := GSt {
    g_cur : list L;
    g_writer : option tid;
    g_readers : gset tid;
    g_thr : gmap tid thr;
    g_hist : list (list L);    (* ghost: all values of [current], oldest first *)
    g_log : list (tid * L)     (* ghost: the assignments made, oldest first *)
  }.

  Definition set_thr (s : gst) (t : tid) (x : thr) : gst :=
    GSt (g_cur s) (g_writer s) (g_readers s) (<[t := x]> (g_thr s)) (g_hist s) (g_log s).

  (** The index of the current value in the history. *)
  Definition now (s : gst) : nat := pred (length (g_hist s)).

  (** One atomic step of goroutine [t]; [None]: it is blocked or finished.
      sync.RWMutex: Lock waits for no writer and no reader, RLock for no
      writer.  (The real RLock also waits for pending writers; this only
      removes schedules, see [may_rlock].) *)
  Definition gstep (s : gst) (t : tid) : option gst :=
    x ← g_thr s !! t;
    let go pc := Thr (t_todo x) pc (t_calls x) in
    match t_pc x with
    | PIdle =>
        match t_todo x with
        | [] => None
        | AApply l true :: _ => Some (set_thr s t (Thr [] PPanic (t_calls x)))
        | AApply l false :: todo => Some (set_thr s t (Thr todo (PWantW l) (t_calls x)))
        | ACall :: todo => Some (set_thr s t (Thr todo (PWantR (now s)) (t_calls x)))
        end
    | PWantW l =>
        if bool_decide (g_writer s = None /\ g_readers s = ∅)
        then Some (GSt (g_cur s) (Some t) (g_readers s) (<[t := go (PLock l)]> (g_thr s)) (g_hist s) (g_log s))
        else None
    | PLock l => Some (set_thr s t (go (PRead l (g_cur s))))
    | PRead l cur =>
        Some (GSt (l :: cur) (g_writer s) (g_readers s) (<[t := go PWrote]> (g_thr s))
                (g_hist s ++ [l :: cur]) (g_log s ++ [(t, l)]))
    | PWrote =>
        Some (GSt (g_cur s) None (g_readers s) (<[t := go PIdle]> (g_thr s)) (g_hist s) (g_log s))
    | PWantR start =>
        if bool_decide (g_writer s = None)
        then Some (GSt (g_cur s) (g_writer s) ({[t]} ∪ g_readers s) (<[t := go (PRLock start)]> (g_thr s))
                     (g_hist s) (g_log s))
        else None
    | PRLock start => Some (set_thr s t (go (PSnap start (g_cur s))))
    | PSnap start cur =>
        Some (GSt (g_cur s) (g_writer s) (g_readers s ∖ {[t]}) (<[t := go (PUse start cur)]> (g_thr s))
                (g_hist s) (g_log s))
    | PUse start cur =>
        Some (set_thr s t (Thr (t_todo x) PIdle (t_calls x ++ [(start, cur, now s)])))
    | PPanic => None
    end.

  (** The program start: nothing applied, every goroutine about to run. *)
  Definition ginit (progs : gmap tid (list act)) : gst :=
    GSt [] None ∅ ((fun p => Thr p PIdle []) <$> progs) [[]] [].

  (** Any interleaving. *)
  Inductive greach (progs : gmap tid (list act)) : gst -> Prop :=
  | gr_init : greach progs (ginit progs)
  | gr_step s t s' : greach progs s -> gstep s t = Some s' -> greach progs s'.

  (** Running a given schedule (for examples). *)
  Fixpoint grun (s : gst) (ts : list tid) : option gst :=
    match ts with
    | [] => Some s
    | t :: ts => s' ← gstep s t; grun s' ts
    end.

  Lemma grun_reach progs s ts s' : greach progs s -> grun s ts = Some s' -> greach progs s'.
  Proof.
    revert s. induction ts as [|t ts IH]; intros s Hr; simpl; [by intros [= <-]|].
    destruct (gstep s t) as [s1|] eqn:E; simpl; [|done]. apply IH. by econstructor.
  Qed.

  (** ** Specification *)

  (** The layers a goroutine applies successfully: those before the first
      Apply with an error, which panics. *)
  Fixpoint layers (p : list act) : list L :=
    match p with
    | [] => []
    | AApply l false :: p => l :: layers p
    | AApply _ true :: _ => []
    | ACall :: p => layers p
    end.

  Definition thread_done (x : thr) : Prop := (t_pc x = PIdle /\ t_todo x = []) \/ t_pc x = PPanic.
  Definition all_done (s : gst) : Prop := forall t x, g_thr s !! t = Some x -> thread_done x.

  (** What thread [t] contributed to a log. *)
  Definition by_thread (t : tid) (log : list (tid * L)) : list L :=
    (filter (fun x => x.1 = t) log).*2.

  (** [interleaves progs ls]: [ls] merges the programs' layers, each goroutine's
      in its own order, each exactly once. *)
  Definition interleaves (progs : gmap tid (list act)) (ls : list L) : Prop :=
    exists log : list (tid * L), log.*2 = ls /\
      (forall t p, progs !! t = Some p -> by_thread t log = layers p) /\
      (forall t l, (t, l) ∈ log -> is_Some (progs !! t)).

  (** ** The invariant *)

  Definition holds_w (x : thr) : bool :=
    match t_pc x with PLock _ | PRead _ _ | PWrote => true | _ => false end.
  Definition holds_r (x : thr) : bool :=
    match t_pc x with PRLock _ | PSnap _ _ => true | _ => false end.
  Definition pending (x : thr) : list L :=
    match t_pc x with PWantW l | PLock l | PRead l _ => [l] | _ => [] end.

  Definition seen_between (hist : list (list L)) (a : nat) (cur : list L) (b : nat) : Prop :=
    exists i, a <= i <= b /\ hist !! i = Some cur.

  Definition pc_ok (s : gst) (x : thr) : Prop :=
    match t_pc x with
    | PRead _ cur => cur = g_cur s
    | PWantR a | PRLock a => a <= now s
    | PSnap a cur | PUse a cur => a <= now s /\ seen_between (g_hist s) a cur (now s)
    | _ => True
    end.

  Record ginv (progs : gmap tid (list act)) (s : gst) : Prop := {
    gi_dom : forall t, is_Some (progs !! t) <-> is_Some (g_thr s !! t);
    gi_w : forall t x, g_thr s !! t = Some x -> (g_writer s = Some t <-> holds_w x = true);
    gi_wdom : forall t, g_writer s = Some t -> is_Some (g_thr s !! t);
    gi_r : forall t x, g_thr s !! t = Some x -> (t ∈ g_readers s <-> holds_r x = true);
    gi_rdom : forall t, t ∈ g_readers s -> is_Some (g_thr s !! t);
    gi_excl : g_writer s <> None -> g_readers s = ∅;
    gi_last : last (g_hist s) = Some (g_cur s);
    gi_first : g_hist s !! 0 = Some [];
    gi_next : forall i a b, g_hist s !! i = Some a -> g_hist s !! S i = Some b -> exists l, b = l :: a;
    gi_pc : forall t x, g_thr s !! t = Some x -> pc_ok s x;
    gi_calls : forall t x a cur b, g_thr s !! t = Some x -> (a, cur, b) ∈ t_calls x ->
       b <= now s /\ seen_between (g_hist s) a cur b;
    gi_cur : g_cur s = rev (g_log s).*2;
    gi_acc : forall t p x, progs !! t = Some p -> g_thr s !! t = Some x ->
       by_thread t (g_log s) ++ pending x ++ layers (t_todo x) = layers p;
    gi_log : forall t l, (t, l) ∈ g_log s -> is_Some (progs !! t)
  }.

  Lemma last_index {A} (l : list A) x : last l = Some x -> l !! pred (length l) = Some x.
  Proof. by rewrite last_lookup. Qed.

  Lemma seen_between_mono h h' a c b b' :
    b <= b' -> seen_between h a c b -> seen_between (h ++ h') a c b'.
  Proof. intros Hb (i & Hi & Hl). exists i. split; [lia|]. by apply lookup_app_l_Some. Qed.

  Lemma ginv_init progs : ginv progs (ginit progs).
  Proof.
    split; simpl; try done.
    - intros t. rewrite lookup_fmap. by rewrite fmap_is_Some.
    - intros t x. rewrite lookup_fmap. destruct (progs !! _); simpl; [|done]; intros [= <-]. done.
    - intros t x. rewrite lookup_fmap. destruct (progs !! _); simpl; [|done]; intros [= <-]. simpl. set_solver.
    - intros t x. rewrite lookup_fmap. destruct (progs !! _); simpl; [|done]; intros [= <-]. done.
    - intros t x a c b. rewrite lookup_fmap. destruct (progs !! _); simpl; [|done]; intros [= <-]. simpl. by intros ?%elem_of_nil.
    - intros t p x Hp. rewrite lookup_fmap, Hp. simpl. by intros [= <-].
    - by intros t l ?%elem_of_nil.
  Qed.

  Lemma by_thread_snoc t t' l log :
    by_thread t (log ++ [(t', l)]) = by_thread t log ++ (if decide (t' = t) then [l] else []).
  Proof.
    unfold by_thread. rewrite filter_app, fmap_app. f_equal.
    rewrite filter_cons. simpl. by destruct (decide (t' = t)).
  Qed.

  (** Updating one thread's control state. *)
  Ltac upd_thr t :=
    let t' := fresh "t'" in let x' := fresh "x'" in
    intros t' x'; destruct (decide (t' = t)) as [->|];
    [rewrite lookup_insert; intros [= <-]|rewrite lookup_insert_ne by done].

  Lemma ginv_step progs s t s' : ginv progs s -> gstep s t = Some s' -> ginv progs s'.
  Proof.
    intros [Hdom Hw Hwd Hr Hrd Hex Hla Hfi Hne Hpc Hca Hcu Hac Hlo]. unfold gstep.
    destruct (g_thr s !! t) as [x|] eqn:Hx; simpl; [|done].
    pose proof (Hw t x Hx) as Hwt. pose proof (Hr t x Hx) as Hrt. pose proof (Hpc t x Hx) as Hpt.
    unfold pc_ok in Hpt. unfold holds_w in Hwt. unfold holds_r in Hrt.
    assert (Hd2 : forall y, forall u, is_Some (progs !! u) <-> is_Some (<[t:=y]> (g_thr s) !! u)).
    { intros y u. rewrite Hdom. destruct (decide (u = t)) as [->|].
      - rewrite lookup_insert, Hx. split; eauto.
      - by rewrite lookup_insert_ne. }
    assert (Hd3 : forall y u, is_Some (g_thr s !! u) -> is_Some (<[t:=y]> (g_thr s) !! u)).
    { intros y u. rewrite <- Hdom. apply Hd2. }
    assert (Hlen : 0 < length (g_hist s)).
    { destruct (g_hist s); [done|simpl; lia]. }
    assert (Hacc : forall y, pending y = pending x -> layers (t_todo y) = layers (t_todo x) ->
      forall u p z, progs !! u = Some p -> <[t:=y]> (g_thr s) !! u = Some z ->
        by_thread u (g_log s) ++ pending z ++ layers (t_todo z) = layers p).
    { intros y Hpe Hto u p z Hu. destruct (decide (u = t)) as [->|].
      - rewrite lookup_insert. intros [= <-]. rewrite Hpe, Hto. by apply Hac.
      - rewrite lookup_insert_ne by done. by apply Hac. }
    assert (Hcalls : forall y, t_calls y = t_calls x ->
      forall u z a c b, <[t:=y]> (g_thr s) !! u = Some z -> (a, c, b) ∈ t_calls z ->
        b <= now s /\ seen_between (g_hist s) a c b).
    { intros y Hy u z a c b. destruct (decide (u = t)) as [->|].
      - rewrite lookup_insert. intros [= <-]. rewrite Hy. by apply (Hca t).
      - rewrite lookup_insert_ne by done. by apply Hca. }
    destruct (t_pc x) as [|l|l|l cur| |a|a|a cur|a cur|] eqn:Ep; try done.
    - (* idle *)
      destruct (t_todo x) as [|[l [|]|] todo] eqn:Et; [done|..]; intros [= <-];
        (split; cbn [set_thr g_cur g_writer g_readers g_thr g_hist g_log]; try done);
        try (by upd_thr t; [done|apply Hw]); try (by upd_thr t; [done|apply Hr]);
        try (intros u Hu; by apply Hd3, Hwd); try (intros u Hu; by apply Hd3, Hrd);
        try (by apply Hcalls).
      + upd_thr t; [done|]. apply Hpc.
      + apply Hacc; [unfold pending; by rewrite Ep|by rewrite ?Et].
      + upd_thr t; [done|]. apply Hpc.
      + intros u p z Hu. destruct (decide (u = t)) as [->|].
        * rewrite lookup_insert. intros [= <-]. rewrite <- (Hac t p x Hu Hx). unfold pending. rewrite Ep, Et. done.
        * rewrite lookup_insert_ne by done. by apply Hac.
      + upd_thr t; [unfold pc_ok; simpl; done|]. apply Hpc.
      + apply Hacc; [unfold pending; by rewrite Ep|by rewrite ?Et].
    - (* lock *)
      case_bool_decide as Hfree; [|done]. destruct Hfree as [Hfw Hfr]. intros [= <-].
      split; cbn [g_cur g_writer g_readers g_thr g_hist g_log]; try done.
      + upd_thr t; [done|]. intros Hx'. rewrite <- (Hw t' x' Hx'), Hfw. split; [intros [=]; by subst|done].
      + intros u [= <-]. rewrite lookup_insert. eauto.
      + upd_thr t; [done|]. apply Hr.
      + intros u Hu. by apply Hd3, Hrd.
      + upd_thr t; [done|]. apply Hpc.
      + by apply Hcalls.
      + apply Hacc; [unfold pending; by rewrite Ep|done].
    - (* read current *)
      intros [= <-]. split; cbn [set_thr g_cur g_writer g_readers g_thr g_hist g_log]; try done.
      + upd_thr t; [done|]. apply Hw.
      + intros u Hu. by apply Hd3, Hwd.
      + upd_thr t; [done|]. apply Hr.
      + intros u Hu. by apply Hd3, Hrd.
      + upd_thr t; [done|]. apply Hpc.
      + by apply Hcalls.
      + apply Hacc; [unfold pending; by rewrite Ep|done].
    - (* write current *)
      intros [= <-]. subst cur.
      assert (Hwr : g_writer s = Some t) by (by apply Hwt).
      assert (Hnor : g_readers s = ∅) by (apply Hex; by rewrite Hwr).
      assert (Hnow : now (GSt (l :: g_cur s) (g_writer s) (g_readers s)
         (<[t:={| t_todo := t_todo x; t_pc := PWrote; t_calls := t_calls x |}]> (g_thr s))
         (g_hist s ++ [l :: g_cur s]) (g_log s ++ [(t, l)])) = S (now s)).
      { unfold now. simpl. rewrite app_length. simpl. lia. }
      split; try rewrite Hnow; cbn [g_cur g_writer g_readers g_thr g_hist g_log]; try done.
      + upd_thr t; [done|]. apply Hw.
      + intros u Hu. by apply Hd3, Hwd.
      + upd_thr t; [done|]. apply Hr.
      + intros u Hu. by apply Hd3, Hrd.
      + by rewrite last_snoc.
      + by apply lookup_app_l_Some.
      + intros i a b Ha Hb. destruct (decide (S i < length (g_hist s))) as [Hi|Hi].
        * rewrite lookup_app_l in Ha by lia. rewrite lookup_app_l in Hb by lia. by apply (Hne i).
        * assert (Hi2 : S i = length (g_hist s)).
          { apply lookup_lt_Some in Hb. rewrite app_length in Hb. simpl in Hb. lia. }
          rewrite lookup_app_l in Ha by lia. rewrite Hi2, list_lookup_middle in Hb by done.
          apply last_index in Hla. rewrite <- Hi2 in Hla. simpl in Hla. rewrite Hla in Ha.
          injection Ha as <-. injection Hb as <-. by eexists.
      + upd_thr t; [done|]. intros Hx'. specialize (Hpc t' x' Hx').
        assert (Hnw : holds_w x' = false).
        { destruct (holds_w x') eqn:E; [|done]. exfalso. apply (Hw t' x' Hx') in E. congruence. }
        unfold pc_ok in *. rewrite Hnow. cbn [g_cur g_hist]. unfold holds_w in Hnw.
        destruct (t_pc x'); try done; try lia.
        * destruct Hpc as [? Hs]. split; [lia|]. eapply seen_between_mono; [|exact Hs]. lia.
        * destruct Hpc as [? Hs]. split; [lia|]. eapply seen_between_mono; [|exact Hs]. lia.
      + intros u z a c b Hz Hin. destruct (fun y Hy => Hcalls y Hy u z a c b) with (2 := Hz) (3 := Hin) as [? Hs]; [done|]. rewrite ?Hnow.
        split; [lia|]. by eapply seen_between_mono.
      + rewrite fmap_app, rev_app_distr. simpl. by rewrite Hcu.
      + intros u p z Hu. rewrite by_thread_snoc. destruct (decide (u = t)) as [->|Hut].
        * rewrite lookup_insert. intros [= <-]. rewrite decide_True by done.
          rewrite <- (Hac t p x Hu Hx). unfold pending. rewrite Ep. simpl. by rewrite <- app_assoc.
        * rewrite lookup_insert_ne, decide_False by done. rewrite app_nil_r. by apply Hac.
      + intros u l'. rewrite elem_of_app, elem_of_list_singleton. intros [Hin|[= -> ->]]; [by eapply Hlo|].
        apply Hdom. by rewrite Hx.
    - (* unlock *)
      intros [= <-]. assert (Hwr : g_writer s = Some t) by (by apply Hwt).
      split; cbn [g_cur g_writer g_readers g_thr g_hist g_log]; try done.
      + upd_thr t; [done|]. intros Hx'. rewrite <- (Hw t' x' Hx'), Hwr. split; [done|congruence].
      + upd_thr t; [done|]. apply Hr.
      + intros u Hu. by apply Hd3, Hrd.
      + upd_thr t; [done|]. apply Hpc.
      + by apply Hcalls.
      + apply Hacc; [unfold pending; by rewrite Ep|done].
    - (* rlock *)
      case_bool_decide as Hfw; [|done]. intros [= <-].
      split; cbn [g_cur g_writer g_readers g_thr g_hist g_log]; try done.
      + upd_thr t; [done|]. apply Hw.
      + intros u Hu. by apply Hd3, Hwd.
      + upd_thr t; [simpl; set_solver|]. intros Hx'. rewrite <- (Hr t' x' Hx'). set_solver.
      + intros u. rewrite elem_of_union, elem_of_singleton. intros [->|Hu].
        * by rewrite lookup_insert.
        * by apply Hd3, Hrd.
      + upd_thr t; [done|]. apply Hpc.
      + by apply Hcalls.
      + apply Hacc; [unfold pending; by rewrite Ep|done].
    - (* snapshot *)
      intros [= <-]. split; cbn [set_thr g_cur g_writer g_readers g_thr g_hist g_log]; try done.
      + upd_thr t; [done|]. apply Hw.
      + intros u Hu. by apply Hd3, Hwd.
      + upd_thr t; [done|]. apply Hr.
      + intros u Hu. by apply Hd3, Hrd.
      + upd_thr t; [|apply Hpc]. unfold pc_ok. simpl. split; [done|].
        exists (now s). split; [done|]. by apply last_index.
      + by apply Hcalls.
      + apply Hacc; [unfold pending; by rewrite Ep|done].
    - (* runlock *)
      intros [= <-]. split; cbn [g_cur g_writer g_readers g_thr g_hist g_log]; try done.
      + upd_thr t; [done|]. apply Hw.
      + intros u Hu. by apply Hd3, Hwd.
      + upd_thr t; [simpl; set_solver|]. intros Hx'. rewrite <- (Hr t' x' Hx'). set_solver.
      + intros u. rewrite elem_of_difference. intros [Hu _]. by apply Hd3, Hrd.
      + intros Hn. rewrite (Hex Hn). set_solver.
      + upd_thr t; [done|]. apply Hpc.
      + by apply Hcalls.
      + apply Hacc; [unfold pending; by rewrite Ep|done].
    - (* the call returns *)
      intros [= <-]. split; cbn [set_thr g_cur g_writer g_readers g_thr g_hist g_log]; try done.
      + upd_thr t; [done|]. apply Hw.
      + intros u Hu. by apply Hd3, Hwd.
      + upd_thr t; [done|]. apply Hr.
      + intros u Hu. by apply Hd3, Hrd.
      + upd_thr t; [done|]. apply Hpc.
      + intros u z a' c b. destruct (decide (u = t)) as [->|].
        * rewrite lookup_insert. intros [= <-]. cbn [t_calls]. rewrite elem_of_app, elem_of_list_singleton.
          intros [Hin|[= -> -> ->]]; [by apply (Hca t x)|]. split; [done|]. by destruct Hpt.
        * rewrite lookup_insert_ne by done. by apply Hca.
      + apply Hacc; [unfold pending; by rewrite Ep|done].
  Qed.

  Lemma greach_inv progs s : greach progs s -> ginv progs s.
  Proof. induction 1; [apply ginv_init|by eapply ginv_step]. Qed.

  Lemma hist_empty progs s i : ginv progs s -> g_hist s !! i = Some [] -> i = 0.
  Proof.
    intros HI. destruct i as [|i]; [done|]. intros H.
    destruct (g_hist s !! i) as [a|] eqn:E.
    - destruct (gi_next _ _ HI i a [] E H) as [l Hl]. done.
    - apply lookup_ge_None in E. apply lookup_lt_Some in H. lia.
  Qed.

  Lemma hist_length progs s i a : ginv progs s -> g_hist s !! i = Some a -> length a = i.
  Proof.
    intros HI. revert a. induction i as [|i IH]; intros a Ha.
    - rewrite (gi_first _ _ HI) in Ha. by injection Ha as <-.
    - destruct (g_hist s !! i) as [b|] eqn:E.
      + destruct (gi_next _ _ HI i b a E Ha) as [l ->]. simpl. by rewrite (IH b).
      + apply lookup_ge_None in E. apply lookup_lt_Some in Ha. lia.
  Qed.

  (** ** Progress *)

  (** The extra condition of the real RLock: it waits while a writer is
      waiting. *)
  Definition may_rlock (s : gst) (t : tid) : Prop :=
    match g_thr s !! t with
    | Some x => match t_pc x with
                | PWantR _ => forall u y l, g_thr s !! u = Some y -> t_pc y <> PWantW l
                | _ => True
                end
    | None => True
    end.

  Definition is_done (x : thr) : bool :=
    match t_pc x with
    | PIdle => match t_todo x with [] => true | _ => false end
    | PPanic => true
    | _ => false
    end.

  Lemma is_done_spec x : is_done x = true <-> thread_done x.
  Proof.
    unfold is_done, thread_done. destruct (t_pc x), (t_todo x); naive_solver.
  Qed.

  Definition wants_w (x : thr) : bool := match t_pc x with PWantW _ => true | _ => false end.

  Lemma progress progs s :
    ginv progs s -> ~ all_done s -> exists t s', gstep s t = Some s' /\ may_rlock s t.
  Proof.
    intros HI Hnd.
    (* a thread that does not wait for the lock can move *)
    assert (Hmove : forall t x, g_thr s !! t = Some x -> ~ thread_done x ->
      (forall l, t_pc x <> PWantW l) -> (forall a, t_pc x <> PWantR a) ->
      exists s', gstep s t = Some s' /\ may_rlock s t).
    { intros t x Hx Hn H1 H2. unfold gstep, may_rlock. rewrite Hx. simpl.
      destruct (t_pc x) eqn:Ep; eauto; try (by exfalso; eapply H1); try (by exfalso; eapply H2).
      - destruct (t_todo x) as [|[l [|]|] todo] eqn:Et; eauto. exfalso. apply Hn. left. done.
      - exfalso. apply Hn. by right. }
    destruct (g_writer s) as [t|] eqn:Ew.
    - destruct (gi_wdom _ _ HI t Ew) as [x Hx]. pose proof (proj1 (gi_w _ _ HI t x Hx) Ew) as Hh.
      exists t. apply (Hmove t x Hx); intros; unfold holds_w, thread_done in *; destruct (t_pc x); naive_solver.
    - destruct (decide (g_readers s = ∅)) as [Er|Er].
      + (* the lock is free *)
        destruct (decide (map_Forall (fun _ x => wants_w x = false) (g_thr s))) as [Hnw|Hw].
        * destruct (decide (map_Forall (fun _ x => is_done x = true) (g_thr s))) as [Hd|Hd].
          { exfalso. apply Hnd. intros t x Hx. apply is_done_spec. by apply (Hd t x). }
          apply map_not_Forall in Hd as (t & x & Hx & Hdn); [|apply _].
          assert (Hdn' : ~ thread_done x) by (by rewrite <- is_done_spec).
          exists t. destruct (t_pc x) eqn:Ep; try (by apply (Hmove t x Hx Hdn'); intros; congruence).
          -- specialize (Hnw t x Hx). unfold wants_w in Hnw. by rewrite Ep in Hnw.
          -- unfold gstep, may_rlock. rewrite Hx. simpl. rewrite Ep.
             rewrite bool_decide_eq_true_2 by done. eexists. split; [done|].
             intros u y l Hy Hp. specialize (Hnw u y Hy). unfold wants_w in Hnw. by rewrite Hp in Hnw.
        * apply map_not_Forall in Hw as (t & x & Hx & Hw); [|apply _].
          exists t. unfold gstep, may_rlock. rewrite Hx. unfold wants_w in Hw. simpl.
          destruct (t_pc x); try done. rewrite bool_decide_eq_true_2 by done. eauto.
      + apply set_choose_L in Er as [t Ht]. destruct (gi_rdom _ _ HI t Ht) as [x Hx].
        pose proof (proj1 (gi_r _ _ HI t x Hx) Ht) as Hh.
        exists t. apply (Hmove t x Hx); intros; unfold holds_r, thread_done in *; destruct (t_pc x); naive_solver.
  Qed.

  (** Every schedule is finite: each step uses up some of the remaining work. *)
  Definition work_pc (p : pc) : nat :=
    match p with
    | PIdle => 0 | PWantW _ => 4 | PLock _ => 3 | PRead _ _ => 2 | PWrote => 1
    | PWantR _ => 4 | PRLock _ => 3 | PSnap _ _ => 2 | PUse _ _ => 1 | PPanic => 0
    end.
  Definition work (x : thr) : nat := 5 * length (t_todo x) + work_pc (t_pc x).

  Lemma step_work s t s' :
    gstep s t = Some s' ->
    exists x x', g_thr s !! t = Some x /\ g_thr s' = <[t := x']> (g_thr s) /\ work x' < work x.
  Proof.
    unfold gstep, work. destruct (g_thr s !! t) as [x|]; simpl; [|done].
    destruct (t_pc x) eqn:Ep; try case_bool_decide; try done;
      try (intros [= <-]; do 2 eexists; split; [done|split; [done|]]; rewrite ?Ep; simpl; lia).
    destruct (t_todo x) as [|[l [|]|] todo] eqn:Et; [done|..];
      intros [= <-]; do 2 eexists; (split; [done|split; [done|]]); rewrite ?Ep, ?Et; simpl; lia.
  Qed.
End Apply.

Arguments act : clear implicits.
Arguments thr : clear implicits.
Arguments gst : clear implicits.
Arguments pc : clear implicits.
