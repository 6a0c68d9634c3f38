(** Theorems: concurrent stores into one pkger (C44). *)
From Verif Require Import Bytes GoPath Here GoTypes Maps.

Section Maps.
  Context {V : Type}.
  Implicit Types (s : shared V) (ths : list (thread V)) (todos : list (list (path * V))).

  (** Goroutine [i] stores the entries [todos !! i], in order. *)
  Definition stores todos (k : path) (v : V) : Prop := exists i l, todos !! i = Some l /\ (k, v) ∈ l.

  (** What has been stored so far, given what is left to do. *)
  Definition stored_by todos ths (k : path) (v : V) : Prop :=
    exists i l l' th, todos !! i = Some l /\ ths !! i = Some th /\ l = l' ++ th_todo th /\ (k, v) ∈ l'.

  Record so_far (ld : path -> option V) o d todos s ths : Prop := {
    sf_once : sh_once s = Some o;
    sf_done : o ∈ sh_done s;
    sf_data : sh_data s = Some d;
    sf_len : length ths = length todos;
    sf_pc : Forall (fun th => settled o d (th_pc th)) ths;
    sf_todo : forall i l th, todos !! i = Some l -> ths !! i = Some th -> exists l', l = l' ++ th_todo th;
    sf_load : forall k, (exists v, load s k = Some v /\ stored_by todos ths k v) \/
                        (load s k = ld k /\ forall v, ~ stored_by todos ths k v)
  }.

  Lemma so_far_step ld o d todos s ths s' ths' :
    so_far ld o d todos s ths -> step (s, ths) (s', ths') -> so_far ld o d todos s' ths'.
  Proof.
    intros [H1 H2 H3 H4 H5 H6 H7] (i & th & s1 & th' & Hi & Hs & [= -> ->]). cbn [fst snd] in *.
    rewrite Forall_lookup in H5. pose proof (H5 i th Hi) as Hp.
    destruct (used_step o d s th s1 th' H1 H2 H3 Hp Hs) as (G1 & G2 & G3 & G4 & G5).
    assert (Hil : i < length todos) by (rewrite <- H4; by eapply lookup_lt_Some).
    assert (Hlen : i < length ths) by lia.
    destruct (todos !! i) as [li|] eqn:Eli; [|apply lookup_ge_None in Eli; lia].
    destruct (H6 i li th Eli Hi) as [done Hdone].
    assert (Hmono : forall k v, stored_by todos ths k v -> stored_by todos (<[i:=th']> ths) k v).
    { intros k v (j & l & l' & t & Hj & Hjt & El & Hk). destruct (decide (j = i)) as [->|Hji].
      - assert (t = th) as -> by congruence. assert (l = li) as -> by congruence.
        destruct G5 as [[Et _]|(k0 & v0 & Et & _)].
        + exists i, li, l', th'. split; [done|]. split; [by apply list_lookup_insert|]. by rewrite Et.
        + exists i, li, (l' ++ [(k0, v0)]), th'. split; [done|]. split; [by apply list_lookup_insert|].
          split; [rewrite El, Et; by rewrite <- app_assoc|]. apply elem_of_app. by left.
      - exists j, l, l', t. split; [done|]. by rewrite list_lookup_insert_ne. }
    split; try done.
    - by rewrite insert_length.
    - apply Forall_lookup. intros j t Hj. apply list_lookup_insert_Some in Hj as [(<- & <- & _)|[_ Hj]]; [done|by eapply H5].
    - intros j l t Hl Hj. apply list_lookup_insert_Some in Hj as [(<- & <- & _)|[_ Hj]]; [|by eapply H6].
      assert (l = li) as -> by congruence. destruct G5 as [[Et _]|(k0 & v0 & Et & _)].
      + exists done. by rewrite Et.
      + exists (done ++ [(k0, v0)]). rewrite <- app_assoc. cbn. by rewrite <- Et.
    - intros k. destruct G5 as [[Et El]|(k0 & v0 & Et & El & En)].
      + rewrite El. destruct (H7 k) as [(v & Hv & Hst)|[Hl Hn]]; [left; exists v; auto|].
        right. split; [done|]. intros v (j & l & l' & t & Hj & Hjt & E & Hk). apply (Hn v).
        apply list_lookup_insert_Some in Hjt as [(<- & <- & _)|[_ Hjt]]; [|by exists j, l, l', t].
        exists i, l, l', th. split; [done|]. split; [done|]. by rewrite <- Et.
      + destruct (decide (k = k0)) as [->|Hk].
        * left. exists v0. split; [done|]. exists i, li, (done ++ [(k0, v0)]), th'. split; [done|].
          split; [by apply list_lookup_insert|]. split; [rewrite Hdone, Et; by rewrite <- app_assoc|].
          apply elem_of_app. right. by left.
        * rewrite En by done. destruct (H7 k) as [(v & Hv & Hst)|[Hl Hn]]; [left; exists v; auto|].
          right. split; [done|]. intros v (j & l & l' & t & Hj & Hjt & E & Hkl). apply (Hn v).
          apply list_lookup_insert_Some in Hjt as [(<- & <- & _)|[_ Hjt]]; [|by exists j, l, l', t].
          assert (l = li) as -> by congruence.
          exists i, li, done, th. split; [done|]. split; [done|]. split; [done|].
          assert (l' = done ++ [(k0, v0)]) as ->.
          { apply (app_inv_tail (th_todo th')). rewrite <- E, Hdone, Et. by rewrite <- app_assoc. }
          apply elem_of_app in Hkl as [?|Hkl]; [done|]. apply elem_of_list_singleton in Hkl. congruence.
  Qed.

  Lemma so_far_run ld o d todos c c' :
    rtc step c c' -> so_far ld o d todos c.1 c.2 -> so_far ld o d todos c'.1 c'.2.
  Proof.
    induction 1 as [|[s ths] [s' ths'] c'' H _ IH]; [done|]. intros Hs. apply IH. by eapply so_far_step.
  Qed.

  (** A pkger that has been used before: whatever the schedule, when all
      goroutines have finished, each key that one of them stored has a value
      that one of them stored, and the others are as they were. *)
  Theorem C44_used_partial s todos s' ths' :
    used s -> rtc step (s, start <$> todos) (s', ths') -> finished ths' ->
    forall k, ((exists v, stores todos k v) -> exists v, load s' k = Some v /\ stores todos k v) /\
              ((forall v, ~ stores todos k v) -> load s' k = load s k).
  Proof.
    intros (o & d & H1 & H2 & H3) Hr Hf k.
    assert (Hs : so_far (load s) o d todos s (start <$> todos)).
    { split; try done.
      - by rewrite fmap_length.
      - apply Forall_fmap, Forall_true. intros l. by left.
      - intros i l th Hl Hi. rewrite list_lookup_fmap, Hl in Hi. injection Hi as <-. by exists [].
      - intros k'. right. split; [done|]. intros v (i & l & l' & th & Hl & Hi & E & Hk).
        rewrite list_lookup_fmap, Hl in Hi. injection Hi as <-. cbn [th_todo start] in E.
        assert (l' = []) as ->; [|by apply elem_of_nil in Hk].
        apply (f_equal length) in E. rewrite app_length in E. destruct l'; [done|cbn in E; lia]. }
    apply (so_far_run _ _ _ _ _ _ Hr) in Hs. cbn [fst snd] in Hs.
    assert (Hst : forall v, stored_by todos ths' k v <-> stores todos k v).
    { intros v. split.
      - intros (i & l & l' & th & Hl & Hi & -> & Hk). exists i, (l' ++ th_todo th). split; [done|]. apply elem_of_app. by left.
      - intros (i & l & Hl & Hk). destruct (ths' !! i) as [th|] eqn:Hi.
        + exists i, l, l, th. split; [done|]. split; [done|]. split; [|done].
          unfold finished in Hf. rewrite Forall_lookup in Hf. rewrite (Hf i th Hi). by rewrite app_nil_r.
        + apply lookup_ge_None in Hi. rewrite (sf_len _ _ _ _ _ _ Hs) in Hi. apply lookup_ge_None in Hi. congruence. }
    destruct (sf_load _ _ _ _ _ _ Hs k) as [(v & Hv & Hby)|[Hl Hn]].
    - split; [intros _; exists v; split; [done|by apply Hst]|]. intros Hno. destruct (Hno v). by apply Hst.
    - split; [|done]. intros (v & Hv). destruct (Hn v). by apply Hst.
  Qed.

  (** So each of several entries with different keys is found afterwards. *)
  Theorem C44_nothing_lost_partial s todos s' ths' :
    used s -> rtc step (s, start <$> todos) (s', ths') -> finished ths' ->
    (forall k v v', stores todos k v -> stores todos k v' -> v = v') ->
    forall k v, stores todos k v -> load s' k = Some v.
  Proof.
    intros Hu Hr Hf Hd k v Hk. destruct (C44_used_partial s todos s' ths' Hu Hr Hf k) as [H _].
    destruct H as (v' & Hv' & Hs); [by exists v|]. by rewrite (Hd k v v').
  Qed.

  (** ** A fresh pkger *)

  (** No goroutine crashes, whatever the schedule. *)
  Definition sane s (th : thread V) : Prop :=
    match th_pc th with
    | PTest | PMakeOnce => True
    | PLoadOnce | PDo _ | PTestData _ | PMakeData _ => sh_once s <> None
    | PDone _ | PLoadData | PStore _ => sh_once s <> None /\ sh_data s <> None
    | PCrash => False
    end.
  Definition sound s ths : Prop :=
    (sh_done s <> ∅ -> sh_once s <> None /\ sh_data s <> None) /\ Forall (sane s) ths.

  Lemma sane_mono s s' th :
    (sh_once s <> None -> sh_once s' <> None) -> (sh_data s <> None -> sh_data s' <> None) -> sane s th -> sane s' th.
  Proof. intros H1 H2. unfold sane. destruct (th_pc th); tauto. Qed.

  Lemma sound_step s ths s' ths' : sound s ths -> step (s, ths) (s', ths') -> sound s' ths'.
  Proof.
    intros [Hd Hs] (i & th & s1 & th' & Hi & Hst & [= -> ->]). cbn [fst snd] in *.
    assert (Hth : sane s th) by (rewrite Forall_lookup in Hs; by eapply Hs).
    assert (H : (sh_once s <> None -> sh_once s1 <> None) /\ (sh_data s <> None -> sh_data s1 <> None) /\
      (sh_done s1 <> ∅ -> sh_once s1 <> None /\ sh_data s1 <> None) /\ sane s1 th').
    { unfold step1, sane, goto in *. destruct th as [[|[k v] todo] p]; cbn [th_todo th_pc] in *; [done|].
      destruct p as [| | |o|o|o|o| |e|].
      - injection Hst as <- <-. cbn. destruct (sh_once s) eqn:E; auto.
      - injection Hst as <- <-. cbn. split; [done|]. split; [done|]. split; [|done]. intros Hn. split; [done|]. by apply Hd.
      - injection Hst as <- <-. cbn. destruct (sh_once s) eqn:E; [|done]. auto.
      - case_bool_decide as Hin.
        + injection Hst as <- <-. cbn. split; [done|]. split; [done|]. split; [done|]. apply Hd. set_solver.
        + case_bool_decide; [done|]. injection Hst as <- <-. cbn. auto.
      - injection Hst as <- <-. cbn. split; [done|]. split; [done|]. split; [done|]. destruct (sh_data s) eqn:E; auto.
      - injection Hst as <- <-. cbn. auto.
      - injection Hst as <- <-. cbn. tauto.
      - injection Hst as <- <-. cbn. destruct Hth as [Ho Hda]. split; [done|]. split; [done|]. split; [done|].
        destruct (sh_data s) eqn:E; done.
      - injection Hst as <- <-. cbn. auto.
      - done. }
    destruct H as (G1 & G2 & G3 & G4). split; [done|]. apply Forall_insert; [|done].
    eapply Forall_impl; [exact Hs|]. intros t. by apply sane_mono.
  Qed.

  Theorem C44_no_crash todos s' ths' :
    rtc step (@fresh V, start <$> todos) (s', ths') -> Forall (fun th => th_pc th <> PCrash) ths'.
  Proof.
    intros Hr. assert (H : sound s' ths').
    { change (sound (s', ths').1 (s', ths').2).
      assert (H0 : sound (@fresh V, start <$> todos).1 (@fresh V, start <$> todos).2).
      { split; [cbn; done|]. apply Forall_fmap, Forall_true. done. }
      revert H0. induction Hr as [|[s ths] [s1 ths1] c'' H _ IH]; [done|]. intros H0. apply IH. by eapply sound_step. }
    destruct H as [_ H]. eapply Forall_impl; [exact H|]. intros th Hs E. unfold sane in Hs. by rewrite E in Hs.
  Qed.

  (** One goroutine alone initialises the pkger and loses nothing. *)
  Definition alone s (th : thread V) (kv : path * V) todo : Prop :=
    th_todo th = kv :: todo /\
    match th_pc th with
    | PTest | PMakeOnce => s = fresh
    | PLoadOnce => sh_once s = Some 0 /\ sh_data s = None /\ sh_locked s = ∅ /\ sh_done s = ∅
    | PDo o => o = 0 /\ sh_once s = Some 0 /\ sh_data s = None /\ sh_locked s = ∅ /\ sh_done s = ∅
    | PTestData o => o = 0 /\ sh_once s = Some 0 /\ sh_data s = None
    | PMakeData o => o = 0 /\ sh_once s = Some 0
    | PDone o => o = 0 /\ sh_once s = Some 0 /\ is_Some (sh_data s)
    | PLoadData => used s
    | PStore d => used s /\ sh_data s = Some d
    | PCrash => False
    end.

  Lemma alone_step s th kv todo s' th' :
    alone s th kv todo -> step1 s th = Some (s', th') ->
    alone s' th' kv todo \/ (used s' /\ th' = Thread todo PTest /\ load s' kv.1 = Some kv.2).
  Proof.
    intros [Ht Hp] Hs. unfold step1 in Hs. rewrite Ht in Hs. destruct kv as [k v].
    unfold alone. destruct th as [td p]. cbn [th_todo th_pc goto] in *. subst td.
    destruct p as [| | |o|o|o|o| |e|].
    - subst s. injection Hs as <- <-. cbn. left. done.
    - subst s. injection Hs as <- <-. cbn. left. done.
    - destruct Hp as (H1 & H2 & H3 & H4). rewrite H1 in Hs. injection Hs as <- <-. cbn. left. done.
    - destruct Hp as (-> & H1 & H2 & H3 & H4). rewrite H3, H4 in Hs.
      rewrite bool_decide_eq_false_2 in Hs by apply not_elem_of_empty.
      injection Hs as <- <-. cbn. left. done.
    - destruct Hp as (-> & H1 & H2). rewrite H2 in Hs. injection Hs as <- <-. cbn. left. done.
    - destruct Hp as (-> & H1). injection Hs as <- <-. cbn. left. eauto.
    - destruct Hp as (-> & H1 & [d H2]). injection Hs as <- <-. cbn. left. split; [done|].
      exists 0, d. cbn. split; [done|]. split; [set_solver|done].
    - destruct Hp as (o & d & H1 & H2 & H3). rewrite H3 in Hs. injection Hs as <- <-. cbn. left.
      split; [done|]. split; [|done]. by exists o, d.
    - destruct Hp as [(o & d & H1 & H2 & H3) He]. injection Hs as <- <-. right. split; [by exists o, d|].
      split; [done|]. unfold load. cbn. rewrite He, lookup_insert. cbn. by rewrite lookup_insert.
    - done.
  Qed.

  (** If the first Store of all has returned before any other begins, nothing
      is lost afterwards. *)
  Theorem C44_first_alone_partial kv s' th' :
    rtc step (@fresh V, [start [kv]]) (s', [th']) -> th_todo th' = [] -> used s' /\ load s' kv.1 = Some kv.2.
  Proof.
    intros Hr Hf.
    enough (H : alone s' th' kv [] \/ (used s' /\ th' = Thread [] PTest /\ load s' kv.1 = Some kv.2)).
    { destruct H as [[Ht _]|(? & _ & ?)]; [by rewrite Hf in Ht|done]. }
    clear Hf.
    enough (H : forall c, rtc step (@fresh V, [start [kv]]) c -> forall s' th', c = (s', [th']) ->
      alone s' th' kv [] \/ (used s' /\ th' = Thread [] PTest /\ load s' kv.1 = Some kv.2)) by (by eapply H).
    clear. apply (rtc_ind_r (fun c => forall s' th', c = (s', [th']) ->
      alone s' th' kv [] \/ (used s' /\ th' = Thread [] PTest /\ load s' kv.1 = Some kv.2))).
    - intros s' th' [= <- <-]. left. done.
    - intros [s2 ths2] c3 _ (i & th & s1 & th1 & Hi & Hst & ->) IH s' th' [= -> Eth]. cbn [fst snd] in *.
      assert (exists t, ths2 = [t]) as [t ->].
      { apply (f_equal length) in Eth. rewrite insert_length in Eth. destruct ths2 as [|t [|]]; try done. by exists t. }
      destruct i; [|done]. injection Hi as ->. injection Eth as ->.
      destruct (IH s2 th eq_refl) as [Ha|(Hu & -> & Hl)]; [|done].
      by eapply alone_step.
  Qed.
End Maps.

Lemma run_ends (c : shared nat * list (thread nat)) sched (P : shared nat -> bool) :
  match run sched c with
  | Some (s', ths') => forallb (fun th => match th_todo th with [] => true | _ => false end) ths' && P s'
  | None => false
  end = true ->
  exists s' ths', rtc step c (s', ths') /\ finished ths' /\ P s' = true.
Proof.
  destruct (run sched c) as [[s' ths']|] eqn:E; [|done]. rewrite andb_true_iff. intros [H1 H2].
  exists s', ths'. split; [by eapply run_steps|]. split; [|done].
  apply Forall_forall. intros th Hth. rewrite forallb_forall in H1. specialize (H1 th (proj1 (elem_of_list_In _ _) Hth)).
  by destruct (th_todo th).
Qed.

(** Two goroutines use a fresh pkger: the second finds m.once empty before the
    first has set it, replaces it later, and both make a map.  An entry is
    gone although both stores have returned. *)
Theorem C44_refuted :
  exists s' ths', rtc step (@fresh nat, [start [(Path (B"app") (B"/a"), 1)]; start [(Path (B"app") (B"/b"), 2)]]) (s', ths') /\
    finished ths' /\ load s' (Path (B"app") (B"/a")) = None.
Proof.
  set (c := (@fresh nat, [start [(Path (B"app") (B"/a"), 1)]; start [(Path (B"app") (B"/b"), 2)]])).
  destruct (run_ends c [0; 1; 0; 0; 0; 0; 1; 1; 1; 1; 0; 0; 0; 0; 1; 1; 1; 1]
    (fun s => bool_decide (load s (Path (B"app") (B"/a")) = None))) as (s' & ths' & H1 & H2 & H3); [by vm_compute|].
  exists s', ths'. split; [done|]. split; [done|]. by apply bool_decide_eq_true in H3.
Qed.

Example C44_ex :
  let todos := [[(Path (B"app") (B"/a"), 1); (Path (B"app") (B"/c"), 3)]; [(Path (B"app") (B"/b"), 2)]] in
  let s := Shared (Some 0) (Some 1) {[0]} ∅ {[1 := ∅]} 2 in
  used s /\ exists s' ths', rtc step (s, start <$> todos) (s', ths') /\ finished ths'.
Proof.
  cbv zeta. split; [exists 0, 1; split; [done|]; split; [cbn; set_solver|done]|].
  set (c := (_, _)).
  destruct (run_ends c [0; 1; 0; 0; 1; 1; 0; 0; 1; 1; 0; 0; 0; 0; 0] (fun _ => true)) as (s' & ths' & H1 & H2 & _); [by vm_compute|].
  by exists s', ths'.
Qed.
