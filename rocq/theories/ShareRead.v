(** Goroutines that only read: what others do elsewhere does not show.

    [vask] answers a question from the state [m0] at the start and the Files
    behind the handles alone; a reading goroutine gets these answers from the
    programs of atomic steps ([gets_ask]) and from Mem.v ([seq_ask]). *)
From Verif Require Import Bytes GoPath Here GoTypes Mem MemSpec MemBase MemFiles WalkSpec MemWalk Conc PropsFiles PropsConc PropsSerial Share.
From stdpp Require Import sorting.

(** ** Sorting the names of a directory *)

Lemma filter_strongly {A} (R : relation A) (P : A -> Prop) `{!forall x, Decision (P x)} l : StronglySorted R l -> StronglySorted R (filter P l).
Proof.
  induction 1 as [|x l Hs IH Hx]; [constructor|]. rewrite filter_cons. case_decide; [|done]. constructor; [done|].
  apply Forall_forall. intros y Hy. apply elem_of_list_filter in Hy as [_ Hy]. by eapply Forall_forall in Hx.
Qed.
Lemma sorted_once (l1 l2 : list path) :
  (forall a b, a ∈ l1 -> b ∈ l1 -> path_string a = path_string b -> a = b) ->
  StronglySorted key_le l1 -> StronglySorted key_le l2 -> l1 ≡ₚ l2 -> l1 = l2.
Proof.
  intros Hi H1 H2 Hp.
  set (R := fun a b : path => key_le a b /\ (path_string a = path_string b -> a = b)).
  assert (HR : forall l, (forall a b, a ∈ l -> b ∈ l -> path_string a = path_string b -> a = b) -> StronglySorted key_le l -> StronglySorted R l).
  { clear. intros l Hi H. induction H as [|x l Hs IH Hx]; [constructor|]. constructor.
    - apply IH. intros a b Ha Hb. apply Hi; by right.
    - apply Forall_forall. intros y Hy. split; [by eapply Forall_forall in Hx|]. apply Hi; [by left|by right]. }
  assert (HA : AntiSymm eq R).
  { intros a b [Ha1 Ha2] [Hb1 Hb2]. apply Ha2. by apply ble_antisym. }
  apply (StronglySorted_unique R); [by apply HR| |done]. apply HR; [|done]. intros a b Ha Hb. apply Hi; by rewrite Hp.
Qed.

(** The names Walk of [pt] comes to. *)
Definition under (pt k : path) : Prop := p_pkg k = p_pkg pt /\ has_prefix (p_name k) (p_name pt) = true.
Global Instance under_dec pt k : Decision (under pt k).
Proof. unfold under. apply _. Defined.

Lemma walk_under {S} (wf : walk_fn S) pt ks skip s m : walk_loop wf pt ks skip s m = walk_loop wf pt (filter (under pt) ks) skip s m.
Proof.
  revert skip s m. induction ks as [|k ks IH]; intros skip s m; [done|]. rewrite filter_cons. cbn [walk_loop].
  destruct (decide (under pt k)) as [[H1 H2]|Hn]; cbn [walk_loop].
  - rewrite bool_decide_eq_true_2 by done. rewrite H2. cbn [negb]. destruct (has_prefix (p_name k) skip); [apply IH|].
    destruct (file_at m k); [|done]. destruct (wf _ _ s m) as [[s' m'] [[]|]]; try done; apply IH.
  - destruct (decide (p_pkg k = p_pkg pt)) as [E|E].
    + rewrite bool_decide_eq_true_2 by done. cbn [negb]. destruct (has_prefix (p_name k) (p_name pt)) eqn:E2; [by destruct Hn|]. apply IH.
    + rewrite bool_decide_eq_false_2 by done. apply IH.
Qed.

(** ** The Files behind the handles *)

Section Read.
  Context (parse : resolver) (her : hinfo) (m0 : mem) (D : path -> Prop).
  Hypothesis W0 : wf m0.
  Hypothesis H0 : m_here m0 = her.
  Hypothesis N0 : forall k, is_Some (m_files m0 !! k) -> p_name k <> [].

  Definition behind (m : mem) (r : ref) (f : fobj) : Prop :=
    m_heap m !! r = Some f /\ f_writer f = None /\ (r < m_next m0 -> plain f).
  Record inv (refs : list ref) (vals : list fobj) (m : mem) : Prop := {
    in_wf : wf m;
    in_here : m_here m = her;
    in_next : m_next m0 <= m_next m;
    in_heap : forall r, r < m_next m0 -> m_heap m !! r = m_heap m0 !! r;
    in_files : forall pt, ~ D pt -> m_files m !! pt = m_files m0 !! pt;
    in_nodup : NoDup refs;
    in_vals : Forall2 (behind m) refs vals
  }.
  Definition ours (refs : list ref) (r : ref) : Prop := r ∈ refs /\ m_next m0 <= r.

  Fixpoint gets {A} (refs : list ref) (vals : list fobj) (p : prog A) (Q : list ref -> list fobj -> A -> Prop) : Prop :=
    match p with
    | Ret a => Q refs vals a
    | Act f k => forall m, inv refs vals m -> exists refs' vals',
        inv refs' vals' (f m) /\ frame parse (ours refs) (fun _ => False) m (f m) /\
        (forall r, r ∈ refs' -> r ∈ refs \/ m_next m <= r) /\ gets refs' vals' (k m) Q
    end.

  Lemma gets_mono {A} refs vals (p : prog A) (Q Q' : list ref -> list fobj -> A -> Prop) :
    (forall refs' vals' a, Q refs' vals' a -> Q' refs' vals' a) -> gets refs vals p Q -> gets refs vals p Q'.
  Proof.
    intros HQ. revert refs vals. induction p as [a|f k IH]; intros refs vals; cbn [gets]; [apply HQ|].
    intros H m Hm. destruct (H m Hm) as (refs' & vals' & H1 & H2 & H3 & H4). exists refs', vals'. split_and!; try done. by apply IH.
  Qed.
  Lemma gets_bind {A C} refs vals (p : prog A) (k : A -> prog C) (Q : list ref -> list fobj -> C -> Prop) :
    gets refs vals p (fun refs' vals' a => gets refs' vals' (k a) Q) -> gets refs vals (bind p k) Q.
  Proof.
    revert refs vals. induction p as [a|f q IH]; intros refs vals; cbn [bind gets]; [done|].
    intros H m Hm. destruct (H m Hm) as (refs' & vals' & H1 & H2 & H3 & H4). exists refs', vals'. split_and!; try done. by apply IH.
  Qed.
  Lemma gets_look {A} refs vals (f : mem -> A) (Q : list ref -> list fobj -> A -> Prop) : (forall m, inv refs vals m -> Q refs vals (f m)) -> gets refs vals (look f) Q.
  Proof. intros H m Hm. exists refs, vals. split_and!; [done|apply frame_refl, Hm|by left|]. by apply H. Qed.
  Lemma gets_act {A} refs vals (f : mem -> mem * A) (Q : list ref -> list fobj -> A -> Prop) :
    (forall m, inv refs vals m -> exists refs' vals',
       inv refs' vals' (f m).1 /\ frame parse (ours refs) (fun _ => False) m (f m).1 /\
       (forall r, r ∈ refs' -> r ∈ refs \/ m_next m <= r) /\ Q refs' vals' (f m).2) -> gets refs vals (act f) Q.
  Proof. intros H m Hm. by apply H. Qed.

  Lemma inv_lt refs vals m r : inv refs vals m -> r ∈ refs -> r < m_next m.
  Proof.
    intros Hi Hr. apply elem_of_list_lookup in Hr as [i Hr]. destruct (Forall2_lookup_l _ _ _ _ _ (in_vals _ _ _ Hi) Hr) as (f & _ & Hf & _).
    by eapply wf_next; [apply Hi|].
  Qed.
  Lemma inv_alloc refs vals m f : inv refs vals m -> f_writer f = None -> inv (refs ++ [m_next m]) (vals ++ [f]) (alloc m f).1.
  Proof.
    intros Hi Hf. pose proof (in_next _ _ _ Hi). split; cbn.
    - apply (wf_alloc m f), Hi.
    - apply Hi.
    - lia.
    - intros r Hr. rewrite lookup_insert_ne by lia. by apply Hi.
    - apply Hi.
    - apply NoDup_app. split_and!; [apply Hi| |apply NoDup_singleton].
      intros r Hr ->%elem_of_list_singleton. pose proof (inv_lt _ _ _ _ Hi Hr). lia.
    - apply Forall2_app.
      + assert (Hin : forall r, r ∈ refs -> r < m_next m) by (intros r; by apply (inv_lt _ _ _ _ Hi)).
        apply Forall2_same_length_lookup. split; [apply (Forall2_length _ _ _ (in_vals _ _ _ Hi))|].
        intros i r g Hr Hg. destruct (Forall2_lookup_lr _ _ _ _ _ _ (in_vals _ _ _ Hi) Hr Hg) as (E & E2 & E3). split; [|done]. cbn.
        rewrite lookup_insert_ne; [done|]. apply elem_of_list_lookup_2, Hin in Hr. lia.
      + constructor; [|constructor]. split_and!; [cbn; by rewrite lookup_insert|done|lia].
  Qed.

  (** ** Opening *)

  Definition opened (f : fobj) : fobj := FObj (f_here f) (new_file_info (f_info f)) (f_path f) (f_data f) zero_path None None.
  Definition vopen (vals : list fobj) (name : bytes) : list fobj * res nat :=
    match parse her name with
    | None => (vals, Err (EPath (B"open") name))
    | Some pt => match file_at m0 pt with
                 | None => (vals, Err ENotExist)
                 | Some f => (vals ++ [opened f], Ok (length vals))
                 end
    end.

  Lemma inv_file refs vals m pt : inv refs vals m -> ~ D pt -> m_files m !! pt = m_files m0 !! pt /\
    forall r, m_files m0 !! pt = Some r -> m_heap m !! r = file_at m0 pt /\ is_Some (file_at m0 pt).
  Proof.
    intros Hi HD. split; [by apply Hi|]. intros r Hr. unfold file_at. rewrite Hr. cbn. split; [|by eapply wf_files].
    apply Hi. by eapply wf_files_lt.
  Qed.

  Definition same_res (refs' : list ref) (x : res nat) (y : res ref) : Prop :=
    match x, y with
    | Ok i, Ok h => refs' !! i = Some h
    | Err e, Err e' => e = e'
    | _, _ => False
    end.

  Lemma gets_open refs vals name : (forall pt, parse her name = Some pt -> ~ D pt) -> length refs = length vals ->
    gets refs vals (open_prog parse her name) (fun refs' vals' x =>
      vals' = (vopen vals name).1 /\ same_res refs' (vopen vals name).2 x /\ length refs' = length vals' /\ exists l, refs' = refs ++ l).
  Proof.
    intros HD Hlen. unfold open_prog, vopen. destruct (parse her name) as [pt|] eqn:Hp.
    2: { cbn. split_and!; try done. exists []. by rewrite app_nil_r. }
    specialize (HD pt eq_refl). apply gets_bind, gets_look. intros m1 Hi1. destruct (inv_file _ _ _ pt Hi1 HD) as [Ef Eh]. rewrite Ef.
    destruct (m_files m0 !! pt) as [r|] eqn:Er.
    2: { unfold file_at. rewrite Er. cbn. split_and!; try done. exists []. by rewrite app_nil_r. }
    apply gets_bind, gets_look. intros m2 Hi2. destruct (inv_file _ _ _ pt Hi2 HD) as [_ Eh2]. destruct (Eh2 r Er) as [E2 [f Hf]]. rewrite Hf in E2 |- *.
    rewrite E2. cbn [fmap option_fmap option_map].
    apply gets_act. intros m Hi. destruct (inv_file _ _ _ pt Hi HD) as [_ Eh3]. destruct (Eh3 r Er) as [E3 _]. rewrite Hf in E3. rewrite E3. cbn [fst snd].
    exists (refs ++ [m_next m]), (vals ++ [opened f]). split_and!.
    - by apply (inv_alloc _ _ m (opened f) Hi).
    - apply (frame_alloc parse _ _ m (opened f)), Hi.
    - intros r' [H|H]%elem_of_app; [by left|]. apply elem_of_list_singleton in H as ->. by right.
    - done.
    - cbn. rewrite lookup_app_r by lia. by rewrite Hlen, Nat.sub_diag.
    - rewrite !app_length. cbn. lia.
    - by eexists.
  Qed.

  (** ** Walking *)

  Lemma gets_range refs vals ks : gets refs vals (range_prog ks) (fun refs' vals' l =>
    refs' = refs /\ vals' = vals /\ l `sublist_of` ks /\ forall k, ~ D k -> (k ∈ l <-> k ∈ ks /\ is_Some (m_files m0 !! k))).
  Proof.
    induction ks as [|k ks IH]; cbn [range_prog gets].
    - split_and!; try done. intros k _. rewrite elem_of_nil. tauto.
    - apply gets_bind, gets_look. intros m Hi. apply gets_bind. eapply gets_mono; [|exact IH].
      intros refs' vals' l (-> & -> & Hs & Hl). cbn [gets]. split_and!; [done..| |].
      + destruct (m_files m !! k); by constructor.
      + intros q Hq. destruct (decide (q = k)) as [->|Hn].
        * rewrite (in_files _ _ _ Hi k Hq). destruct (m_files m0 !! k) as [r|] eqn:E.
          -- split; [intros _|by intros; left]. split; [by left|by eexists].
          -- rewrite (Hl k Hq), E. split; intros [_ [? [=]]].
        * transitivity (q ∈ l); [|rewrite (Hl q Hq), elem_of_cons; tauto].
          destruct (m_files m !! k); [|done]. rewrite elem_of_cons. tauto.
  Qed.

  Lemma gets_keys refs vals cand : candidates cand -> gets refs vals (keys_prog cand) (fun refs' vals' ks =>
    refs' = refs /\ vals' = vals /\ forall pt, (forall k, under pt k -> ~ D k) -> filter (under pt) ks = filter (under pt) (sorted_keys m0)).
  Proof.
    intros Hc. unfold keys_prog. apply gets_bind, gets_look. intros m Hi. apply gets_bind. eapply gets_mono; [|apply gets_range].
    intros refs' vals' l (-> & -> & Hs & Hl). cbn [gets]. split_and!; [done..|]. intros pt HD.
    assert (E0 : forall k, k ∈ sorted_keys m0 <-> is_Some (m_files m0 !! k)).
    { intros k. unfold sorted_keys. by rewrite merge_sort_Permutation, elem_of_elements, elem_of_dom. }
    assert (El : forall k, under pt k -> (k ∈ merge_sort key_le l <-> is_Some (m_files m0 !! k))).
    { intros k Hk. rewrite merge_sort_Permutation, (Hl k (HD k Hk)). split; [by intros [_ ?]|]. intros H. split; [|done].
      apply (proj2 (Hc m)). by rewrite (in_files _ _ _ Hi k (HD k Hk)). }
    symmetry. apply sorted_once.
    - intros [g1 n1] [g2 n2] [[U1 _] Ha]%elem_of_list_filter [[U2 _] Hb]%elem_of_list_filter E. apply E0, N0 in Ha. apply E0, N0 in Hb.
      cbn in *. subst. f_equal. by apply path_string_inj_pkg in E.
    - apply filter_strongly. apply (StronglySorted_merge_sort key_le).
    - apply filter_strongly. apply (StronglySorted_merge_sort key_le).
    - apply NoDup_Permutation.
      + apply NoDup_filter. unfold sorted_keys. rewrite merge_sort_Permutation. apply NoDup_elements.
      + apply NoDup_filter. rewrite merge_sort_Permutation. clear Hl El. destruct (Hc m) as [Hnd _].
        revert Hnd. clear -Hs. induction Hs as [|x l1 l2 Hs IH|x l1 l2 Hs IH]; [done|..]; intros [Hx Hnd]%NoDup_cons; [|by apply IH].
        apply NoDup_cons. split; [|by apply IH]. intros Hin. apply Hx. by apply (elem_of_submseteq l1 l2 x Hin), sublist_submseteq.
      + intros k. rewrite !elem_of_list_filter. split; intros [H1 H2]; (split; [done|]).
        * by apply El, E0.
        * apply E0. by apply El.
  Qed.

  Definition lift {S} (f : bytes -> details -> S -> S * option gerr) : walk_fn S := fun n d s m => let '(s, e) := f n d s in ((s, m), e).

  Lemma lift_loop {S} (f : bytes -> details -> S -> S * option gerr) pt ks skip s m : (walk_loop (lift f) pt ks skip s m).1.2 = m.
  Proof.
    revert skip s. induction ks as [|k ks IH]; intros skip s; cbn [walk_loop]; [done|]. destruct (negb _); [apply IH|]. destruct (negb _); [apply IH|].
    destruct (has_prefix (p_name k) skip); [apply IH|]. destruct (file_at m k) as [o|]; [|done]. unfold lift.
    destruct (f (path_string k) (new_file_info (f_info o)) s) as [s1 [[]|]]; try done; apply IH.
  Qed.

  Lemma gets_loop {S} refs vals (f : bytes -> details -> S -> S * option gerr) pt ks skip s : (forall k, under pt k -> ~ D k) ->
    gets refs vals (walk_prog_loop f pt ks skip s) (fun refs' vals' x =>
      refs' = refs /\ vals' = vals /\ x = ((walk_loop (lift f) pt ks skip s m0).1.1, (walk_loop (lift f) pt ks skip s m0).2)).
  Proof.
    intros HD. revert skip s. induction ks as [|k ks IH]; intros skip s; cbn [walk_prog_loop walk_loop]; [done|].
    destruct (bool_decide (p_pkg k = p_pkg pt)) eqn:E1; cbn [negb]; [|apply IH]. apply bool_decide_eq_true in E1.
    destruct (has_prefix (p_name k) (p_name pt)) eqn:E2; cbn [negb]; [|apply IH].
    destruct (has_prefix (p_name k) skip); [apply IH|]. specialize (HD k (conj E1 E2)).
    apply gets_bind, gets_look. intros m1 Hi1. destruct (inv_file _ _ _ k Hi1 HD) as [Ef _]. rewrite Ef.
    destruct (m_files m0 !! k) as [r|] eqn:Er; [|unfold file_at; by rewrite Er].
    apply gets_bind, gets_look. intros m2 Hi2. destruct (inv_file _ _ _ k Hi2 HD) as [_ Eh]. destruct (Eh r Er) as [-> [o Ho]]. rewrite Ho.
    cbn [fmap option_fmap option_map]. 
    change (lift f (path_string k) (new_file_info (f_info o)) s m0) with (let '(s, e) := f (path_string k) (new_file_info (f_info o)) s in ((s, m0), e)).
    destruct (f (path_string k) (new_file_info (f_info o)) s) as [s1 [[]|]]; try done; apply IH.
  Qed.

  Lemma gets_walk {S} refs vals cand (f : bytes -> details -> S -> S * option gerr) p s : candidates cand ->
    (forall pt, parse her p = Some pt -> forall k, under pt k -> ~ D k) ->
    gets refs vals (walk_prog parse her cand p f s) (fun refs' vals' x =>
      refs' = refs /\ vals' = vals /\ x = ((walk parse m0 p (lift f) s).1.1, (walk parse m0 p (lift f) s).2)).
  Proof.
    intros Hc HD. unfold walk_prog. apply gets_bind. eapply gets_mono; [|by apply gets_keys]. intros refs' vals' ks (-> & -> & Hk). unfold walk, mem_parse. rewrite H0.
    destruct (parse her p) as [pt|]; [|done]. specialize (HD pt eq_refl). specialize (Hk pt HD).
    rewrite (walk_under _ pt (sorted_keys m0)), <- Hk, <- walk_under. by apply gets_loop.
  Qed.

  Definition vreaddir (f : fobj) (count : Z) : list details * option gerr :=
    let root := path_string (f_path f) in
    match walk parse m0 root (lift (readdir_note parse her root (f_parent f) count)) [] with
    | ((infos, _), None) => (infos, None)
    | ((infos, _), Some (EPath _ _)) => (infos, None)
    | ((infos, _), Some EEOF) => (infos, None)
    | (_, Some e) => ([], Some e)
    end.

  Lemma gets_readdir refs vals cand i r f n : candidates cand -> refs !! i = Some r -> vals !! i = Some f ->
    (forall pt, parse her (path_string (f_path f)) = Some pt -> forall k, under pt k -> ~ D k) ->
    gets refs vals (readdir_prog parse her cand r n) (fun refs' vals' x => refs' = refs /\ vals' = vals /\ x = vreaddir f n).
  Proof.
    intros Hc Hr Hf HD. unfold readdir_prog, vreaddir. apply gets_bind, gets_look. intros m Hi.
    destruct (Forall2_lookup_lr _ _ _ _ _ _ (in_vals _ _ _ Hi) Hr Hf) as (E & _). rewrite E. cbv zeta. apply gets_bind.
    eapply gets_mono; [|by apply gets_walk]. intros refs' vals' x (-> & -> & ->). cbn [gets]. split_and!; [done..|].
    destruct (walk parse m0 _ _ []) as [[l m'] e]. cbn [fst snd]. by destruct e as [[]|].
  Qed.

  (** ** Using a handle *)

  Lemma inv_upd refs vals m i r f f' : inv refs vals m -> refs !! i = Some r -> vals !! i = Some f -> f_writer f' = None -> (plain f -> f' = f) ->
    inv refs (<[i := f']> vals) (upd m r f') /\ frame parse (ours refs) (fun _ => False) m (upd m r f').
  Proof.
    intros Hi Hr Hf Hw Hp. destruct (Forall2_lookup_lr _ _ _ _ _ _ (in_vals _ _ _ Hi) Hr Hf) as (E & _ & Hpl).
    destruct (decide (r < m_next m0)) as [Hlt|Hge].
    { rewrite (Hp (Hpl Hlt)), upd_same, list_insert_id by done. split; [done|]. apply frame_refl, Hi. }
    split.
    - split; cbn; try apply Hi.
      + apply wf_upd; [apply Hi|by eexists].
      + intros q Hq. rewrite lookup_insert_ne by lia. by apply Hi.
      + apply Forall2_same_length_lookup. split; [rewrite insert_length; apply (Forall2_length _ _ _ (in_vals _ _ _ Hi))|].
        intros j q g Hq Hg. destruct (decide (j = i)) as [->|Hn].
        * rewrite Hr in Hq. injection Hq as <-. rewrite list_lookup_insert in Hg by (by eapply lookup_lt_Some). injection Hg as <-.
          split_and!; [cbn; by rewrite lookup_insert|done|lia].
        * rewrite list_lookup_insert_ne in Hg by done. destruct (Forall2_lookup_lr _ _ _ _ _ _ (in_vals _ _ _ Hi) Hq Hg) as (Eq & Hq2).
          split; [|done]. cbn. rewrite lookup_insert_ne; [done|]. intros <-. apply Hn. by eapply NoDup_lookup; [apply Hi|..].
    - apply frame_upd; [apply Hi|by eexists|]. split; [by eapply elem_of_list_lookup_2|lia].
  Qed.

  Definition with_reader (f : fobj) (rd : breader) : fobj := FObj (f_here f) (f_info f) (f_path f) (f_data f) (f_parent f) (f_writer f) (Some rd).
  Definition vread (f : fobj) (n : nat) : fobj * resp :=
    match cur_reader f with
    | None => (f, RBytes [] (Some (EMsg unable_to_read)))
    | Some rd => let '(rd', (b, e)) := reader_read rd n in (with_reader f rd', RBytes b e)
    end.
  Definition vseek (f : fobj) (off wh : Z) : fobj * resp :=
    match cur_reader f with
    | None => (f, RNum 0 None)
    | Some rd => let '(rd', (z, e)) := reader_seek rd off wh in (with_reader f rd', RNum z e)
    end.

  Lemma gets_use refs vals i r f (f' : fobj) (y : resp) (g : mem -> mem * resp) :
    refs !! i = Some r -> vals !! i = Some f -> (f_writer f = None -> f_writer f' = None) -> (plain f -> f' = f) ->
    (forall m, m_heap m !! r = Some f -> g m = (upd m r f', y)) ->
    gets refs vals (act g) (fun refs' vals' x => refs' = refs /\ vals' = <[i := f']> vals /\ x = y).
  Proof.
    intros Hr Hf Hw Hp Hg. apply gets_act. intros m Hi. destruct (Forall2_lookup_lr _ _ _ _ _ _ (in_vals _ _ _ Hi) Hr Hf) as (E & Ew & _).
    rewrite (Hg m E). cbn [fst snd]. exists refs, (<[i := f']> vals). destruct (inv_upd _ _ _ i r f f' Hi Hr Hf (Hw Ew) Hp). split_and!; try done. by left.
  Qed.

  Lemma gets_read refs vals i r f now n : refs !! i = Some r -> vals !! i = Some f ->
    gets refs vals (act (fun m => step parse m (now, ORead r n))) (fun refs' vals' x => refs' = refs /\ vals' = <[i := (vread f n).1]> vals /\ x = (vread f n).2).
  Proof.
    intros Hr Hf. apply (gets_use refs vals i r f); [done..| | |].
    - unfold vread. destruct (cur_reader f) as [rd|]; [|done]. by destruct (reader_read rd n) as [? [? ?]].
    - intros Hp. unfold vread. by rewrite (plain_reader f Hp).
    - intros m E. cbn [step]. unfold file_read, vread. rewrite E. destruct (cur_reader f) as [rd|]; [|by rewrite upd_same].
      by destruct (reader_read rd n) as [? [? ?]].
  Qed.
  Lemma gets_seek refs vals i r f now off wh : refs !! i = Some r -> vals !! i = Some f ->
    gets refs vals (act (fun m => step parse m (now, OSeek r off wh)))
      (fun refs' vals' x => refs' = refs /\ vals' = <[i := (vseek f off wh).1]> vals /\ x = (vseek f off wh).2).
  Proof.
    intros Hr Hf. apply (gets_use refs vals i r f); [done..| | |].
    - unfold vseek. destruct (cur_reader f) as [rd|]; [|done]. by destruct (reader_seek rd off wh) as [? [? ?]].
    - intros Hp. unfold vseek. by rewrite (plain_reader f Hp).
    - intros m E. cbn [step]. unfold file_seek, vseek. rewrite E. destruct (cur_reader f) as [rd|]; [|by rewrite upd_same].
      by destruct (reader_seek rd off wh) as [? [? ?]].
  Qed.
  Lemma gets_close refs vals i r f now : refs !! i = Some r -> vals !! i = Some f ->
    gets refs vals (close_prog now r) (fun refs' vals' x => refs' = refs /\ vals' = <[i := set_closed f]> vals /\ x = None).
  Proof.
    intros Hr Hf. unfold close_prog. apply gets_bind, gets_look. intros m Hi.
    destruct (Forall2_lookup_lr _ _ _ _ _ _ (in_vals _ _ _ Hi) Hr Hf) as (E & Ew & _). rewrite E, Ew. apply gets_act. intros m1 Hi1.
    destruct (Forall2_lookup_lr _ _ _ _ _ _ (in_vals _ _ _ Hi1) Hr Hf) as (E1 & Ew1 & _). unfold set_obj. rewrite E1. cbn [fst snd].
    exists refs, (<[i := set_closed f]> vals). destruct (inv_upd _ _ _ i r f (set_closed f) Hi1 Hr Hf eq_refl (plain_closed f)). split_and!; try done. by left.
  Qed.

  Definition vfile_open (vals : list fobj) (i : nat) (f : fobj) (name : bytes) : list fobj * res nat :=
    match parse (f_here f) name with
    | None => (vals, Err EParse)
    | Some pt =>
        if bool_decide (pt = f_path f) then (vals, Ok i)
        else
          let pt := Path (p_pkg pt) (join2 (p_name (f_path f)) (p_name pt)) in
          match vopen vals (path_string pt) with
          | (vals, Err e) => (vals, Err e)
          | (vals, Ok d) =>
              match vals !! d with
              | None => (vals, Err EBadHandle)
              | Some di =>
                  if d_isdir (f_info di)
                  then (vals ++ [FObj (f_here di) (new_file_info (f_info di)) pt [] (f_path f) None None], Ok (length vals))
                  else (vals, Ok d)
              end
          end
    end.

  Lemma gets_file_open refs vals i r f name : refs !! i = Some r -> vals !! i = Some f -> length refs = length vals ->
    (forall pt key, parse (f_here f) name = Some pt -> pt <> f_path f ->
       parse her (path_string (Path (p_pkg pt) (join2 (p_name (f_path f)) (p_name pt)))) = Some key -> ~ D key) ->
    gets refs vals (file_open_prog parse her r name) (fun refs' vals' x =>
      vals' = (vfile_open vals i f name).1 /\ same_res refs' (vfile_open vals i f name).2 x /\ length refs' = length vals' /\ exists l, refs' = refs ++ l).
  Proof.
    intros Hr Hf Hlen HD. unfold file_open_prog, vfile_open. apply gets_bind, gets_look. intros m Hi.
    destruct (Forall2_lookup_lr _ _ _ _ _ _ (in_vals _ _ _ Hi) Hr Hf) as (E & _). rewrite E.
    assert (Hnil : exists l, refs = refs ++ l) by (exists []; by rewrite app_nil_r).
    destruct (parse (f_here f) name) as [pt|]; [|done]. specialize (HD pt). case_bool_decide as Hpt; [done|]. cbv zeta.
    set (q := Path (p_pkg pt) (join2 (p_name (f_path f)) (p_name pt))) in *. apply gets_bind.
    eapply gets_mono; [|apply gets_open; [|done]]; [|intros key Hk; by apply (HD key)].
    intros refs1 vals1 x (Ev & Hx & Hl1 & l1 & Er1). destruct (vopen vals (path_string q)) as [vals2 [d|e]]; cbn [fst snd] in *; subst vals2.
    2: { destruct x as [?|e']; [done|]. cbn in Hx. subst e'. cbn. split_and!; try done. by exists l1. }
    destruct x as [h|?]; [|done]. cbn in Hx. apply gets_act. intros m1 Hi1.
    destruct (Forall2_lookup_l _ _ _ _ _ (in_vals _ _ _ Hi1) Hx) as (di & Hdi & Edi & _). rewrite Hdi, Edi.
    destruct (d_isdir (f_info di)); cbn [fst snd].
    - set (nf := FObj (f_here di) (new_file_info (f_info di)) q [] (f_path f) None None).
      exists (refs1 ++ [m_next m1]), (vals1 ++ [nf]). split_and!.
      + by apply (inv_alloc _ _ m1 nf Hi1).
      + apply (frame_alloc parse _ _ m1 nf), Hi1.
      + intros r' [H|H]%elem_of_app; [by left|]. apply elem_of_list_singleton in H as ->. by right.
      + done.
      + cbn. rewrite lookup_app_r by lia. by rewrite Hl1, Nat.sub_diag.
      + rewrite !app_length. cbn. lia.
      + exists (l1 ++ [m_next m1]). by rewrite Er1, app_assoc.
    - exists refs1, vals1. split_and!; try done; [apply frame_refl, Hi1|by left|by exists l1].
  Qed.

  (** ** Questions *)

  Definition vstate := (list fobj * list nat)%type.
  Definition vget (st : vstate) (j : ref) : option (nat * fobj) :=
    match st.2 !! j with
    | None => None
    | Some i => match st.1 !! i with None => None | Some f => Some (i, f) end
    end.
  Definition vgiven (st : vstate) (x : list fobj * res nat) : vstate * reply :=
    match x with
    | (vals, Ok i) => ((vals, st.2 ++ [i]), Got (RRef (Ok (length st.2))))
    | (vals, Err e) => ((vals, st.2), Got (RRef (Err e)))
    end.
  Definition vask (st : vstate) (c : ask) : vstate * reply :=
    match c with
    | AOp _ _ o =>
        match o with
        | OOpen name => vgiven st (vopen st.1 name)
        | OStat name => (st, Got (RRef (match stat parse m0 name with Ok _ => Ok 0 | Err e => Err e end)))
        | ORead j n => match vget st j with
                       | None => (st, NoHandle)
                       | Some (i, f) => ((<[i := (vread f n).1]> st.1, st.2), Got (vread f n).2)
                       end
        | OSeek j off wh => match vget st j with
                            | None => (st, NoHandle)
                            | Some (i, f) => ((<[i := (vseek f off wh).1]> st.1, st.2), Got (vseek f off wh).2)
                            end
        | OClose j => match vget st j with
                      | None => (st, NoHandle)
                      | Some (i, f) => ((<[i := set_closed f]> st.1, st.2), Got (RErr None))
                      end
        | OReaddir j n => match vget st j with
                          | None => (st, NoHandle)
                          | Some (i, f) => (st, Got (RInfos (vreaddir f n).1 (vreaddir f n).2))
                          end
        | OFileOpen j name => match vget st j with
                              | None => (st, NoHandle)
                              | Some (i, f) => vgiven st (vfile_open st.1 i f name)
                              end
        | _ => (st, NoHandle)
        end
    | AInfo j => (st, match vget st j with None => NoHandle | Some (_, f) => Shown (Some (f_info f)) end)
    | AStat name => (st, match stat parse m0 name with Err e => NotShown e | Ok r => Shown (info_at m0 r) end)
    end.

  (** The handles [hs] are those at the places [idx]. *)
  Definition placed (refs : list ref) (idx : list nat) (hs : list ref) : Prop := Forall2 (fun i r => refs !! i = Some r) idx hs.

  Lemma placed_more refs l idx hs : placed refs idx hs -> placed (refs ++ l) idx hs.
  Proof. intros H. eapply Forall2_impl; [exact H|]. cbn. intros i r Hr. by apply lookup_app_l_Some. Qed.

  Lemma placed_get refs vals idx hs m (j : ref) : inv refs vals m -> placed refs idx hs ->
    match vget (vals, idx) j, hs !! j with
    | Some (i, f), Some r => refs !! i = Some r /\ vals !! i = Some f /\ m_heap m !! r = Some f
    | None, None => True
    | _, _ => False
    end.
  Proof.
    intros Hi Hp. unfold vget. cbn [fst snd]. destruct (idx !! j) as [i|] eqn:Ei.
    - destruct (Forall2_lookup_l _ _ _ _ _ Hp Ei) as (r & Er & Hr). change (hs !! (j : ref) = Some r) in Er. rewrite Er.
      destruct (Forall2_lookup_l _ _ _ _ _ (in_vals _ _ _ Hi) Hr) as (f & Ef & Hf & _). by rewrite Ef.
    - destruct (hs !! j) as [r|] eqn:Ej; [|done]. destruct (Forall2_lookup_r _ _ _ _ _ Hp Ej) as (i & Hi2 & _).
      change (idx !! (j : ref) = Some i) in Hi2. congruence.
  Qed.

  Lemma inv_stat refs vals m name : inv refs vals m -> (forall pt, parse her name = Some pt -> ~ D pt) ->
    stat parse m name = stat parse m0 name /\ forall r, stat parse m0 name = Ok r -> info_at m r = info_at m0 r.
  Proof.
    intros Hi HD. unfold stat, mem_parse. rewrite (in_here _ _ _ Hi), H0. destruct (parse her name) as [pt|]; [|done].
    specialize (HD pt eq_refl). rewrite (in_files _ _ _ Hi pt HD). split; [done|]. intros r. destruct (m_files m0 !! pt) as [r'|] eqn:E; [|done].
    intros [= <-]. unfold info_at. rewrite (in_heap _ _ _ Hi); [done|]. by eapply wf_files_lt.
  Qed.
  Lemma gets_stat refs vals name : (forall pt, parse her name = Some pt -> ~ D pt) ->
    gets refs vals (stat_prog parse her name) (fun refs' vals' x => refs' = refs /\ vals' = vals /\ x = stat parse m0 name).
  Proof.
    intros HD. unfold stat_prog. unfold stat, mem_parse. rewrite H0. destruct (parse her name) as [pt|]; [|done]. specialize (HD pt eq_refl).
    apply gets_look. intros m Hi. by rewrite (in_files _ _ _ Hi pt HD).
  Qed.

  (** The question [c] is about no name in [D]. *)
  Definition clear_of (vals : list fobj) (idx : list nat) (c : ask) : Prop :=
    exists m hs refs, inv refs vals m /\ placed refs idx hs /\ forall key, about parse m hs c key -> ~ D key.
  Definition fair_ask (c : ask) : Prop := forall now cand o, c = AOp now cand o -> reading o /\ candidates cand.

  Definition answers (vals : list fobj) (idx : list nat) (c : ask) (refs' : list ref) (vals' : list fobj) (a : list ref * reply) : Prop :=
    exists idx', vask (vals, idx) c = ((vals', idx'), a.2) /\ placed refs' idx' a.1 /\ length refs' = length vals'.

  Lemma placed_given refs vals idx hs refs' vals' (x : res nat) (y : res ref) o :
    placed refs idx hs -> same_res refs' x y -> length refs' = length vals' -> (exists l, refs' = refs ++ l) ->
    (exists n, o = OOpen n) \/ (exists j n, o = OFileOpen j n) ->
    exists idx', vgiven (vals, idx) (vals', x) = ((vals', idx'), Got (hide hs o (RRef y)).1) /\ placed refs' idx' (hide hs o (RRef y)).2 /\ length refs' = length vals'.
  Proof.
    intros Hp Hs Hl [l ->] Ho. unfold vgiven. cbn [fst snd]. destruct x as [i|e], y as [h|e']; cbn in Hs; try done.
    - exists (idx ++ [i]). assert (E : hide hs o (RRef (Ok h)) = (RRef (Ok (length hs)), hs ++ [h])) by (destruct Ho as [[? ->]|(? & ? & ->)]; done).
      rewrite E. cbn [fst snd]. split_and!; [by rewrite (Forall2_length _ _ _ Hp)| |done]. apply Forall2_app; [by apply placed_more|by repeat constructor].
    - subst e'. exists idx. assert (E : hide hs o (RRef (Err e)) = (RRef (Err e), hs)) by (destruct Ho as [[? ->]|(? & ? & ->)]; done).
      rewrite E. cbn [fst snd]. split_and!; [done| |done]. by apply placed_more.
  Qed.

  Lemma gets_ask refs vals idx hs c : placed refs idx hs -> length refs = length vals -> (forall i, i ∈ idx -> i < length vals) ->
    fair_ask c -> clear_of vals idx c -> gets refs vals (ask_prog parse her hs c) (answers vals idx c).
  Proof.
    intros Hp Hlen Hlt Hfair (ms & hss & refss & His & Hps & HD).
    (* the handle at a place *)
    assert (Hget : forall j : ref, match vget (vals, idx) j, hs !! j with
              | Some (i, f), Some r => refs !! i = Some r /\ vals !! i = Some f /\ exists s, hss !! j = Some s /\ m_heap ms !! s = Some f
              | None, None => True
              | _, _ => False end).
    { intros j. pose proof (placed_get _ _ _ _ _ j His Hps) as H. destruct (vget (vals, idx) j) as [[i f]|] eqn:E.
      - destruct (hss !! j) as [s|]; [|done]. destruct H as (_ & Hf & Hs). unfold vget in E. cbn [fst snd] in E.
        destruct (idx !! j) as [i'|] eqn:Ei; [|done]. destruct (vals !! i') as [f'|] eqn:Ef; [|done]. injection E as -> ->.
        destruct (Forall2_lookup_l _ _ _ _ _ Hp Ei) as (r & Er & Hr). change (hs !! (j : ref) = Some r) in Er. rewrite Er. split_and!; [done..|]. by exists s.
      - unfold vget in E. cbn [fst snd] in E. destruct (idx !! j) as [i'|] eqn:Ei.
        + destruct (vals !! i') as [f'|] eqn:Ef; [done|]. apply lookup_ge_None in Ef. apply elem_of_list_lookup_2, Hlt in Ei. lia.
        + destruct (hs !! j) as [r|] eqn:Ej; [|done]. destruct (Forall2_lookup_r _ _ _ _ _ Hp Ej) as (i & Hi2 & _).
          change (idx !! (j : ref) = Some i) in Hi2. congruence. }
    destruct c as [now cand o|j|name]; cbn [ask_prog].
    - destruct (Hfair _ _ _ eq_refl) as [Hr Hc]. destruct o; try done; cbn [at_slots call_prog].
      + (* Open *)
        apply gets_bind, gets_bind. eapply gets_mono; [|apply gets_open; [|done]].
        * intros refs' vals' x (-> & Hx & Hl & Hl2). cbn [gets]. unfold answers. cbn [vask fst snd].
          destruct (vopen vals name) as [vals' x'] eqn:Ev. cbn [fst snd] in *.
          eapply placed_given; [exact Hp|done..|]. left. by eexists.
        * intros pt Hpt. apply HD. cbn. by rewrite (in_here _ _ _ His).
      + (* Stat *)
        apply gets_bind, gets_bind. eapply gets_mono; [|apply gets_stat].
        * intros refs' vals' x (-> & -> & ->). cbn [gets]. exists idx. cbn [vask fst snd]. split_and!; [|..|done].
          -- by destruct (stat parse m0 name).
          -- by destruct (stat parse m0 name).
        * intros pt Hpt. apply HD. cbn. by rewrite (in_here _ _ _ His).
      + (* Read *)
        specialize (Hget r). unfold answers. cbn [vask]. destruct (vget (vals, idx) r) as [[i f]|], (hs !! r) as [h|] eqn:Eh; try done; cbn [fmap option_fmap option_map].
        2: { cbn [gets]. by exists idx. }
        destruct Hget as (Hr1 & Hf & _). apply gets_bind. eapply gets_mono; [|by apply gets_read].
        intros refs' vals' x (-> & -> & ->). cbn [gets hide fst snd]. exists idx. split_and!; [done..|]. by rewrite insert_length.
      + specialize (Hget r). unfold answers. cbn [vask]. destruct (vget (vals, idx) r) as [[i f]|], (hs !! r) as [h|] eqn:Eh; try done; cbn [fmap option_fmap option_map].
        2: { cbn [gets]. by exists idx. }
        destruct Hget as (Hr1 & Hf & _). apply gets_bind. eapply gets_mono; [|by apply gets_seek].
        intros refs' vals' x (-> & -> & ->). cbn [gets hide fst snd]. exists idx. split_and!; [done..|]. by rewrite insert_length.
      + specialize (Hget r). unfold answers. cbn [vask]. destruct (vget (vals, idx) r) as [[i f]|], (hs !! r) as [h|] eqn:Eh; try done; cbn [fmap option_fmap option_map].
        2: { cbn [gets]. by exists idx. }
        destruct Hget as (Hr1 & Hf & _). apply gets_bind, gets_bind. eapply gets_mono; [|by apply gets_close].
        intros refs' vals' x (-> & -> & ->). cbn [gets hide fst snd]. exists idx. split_and!; [done..|]. by rewrite insert_length.
      + (* Readdir *)
        pose proof (Hget r) as Hg. unfold answers. cbn [vask]. destruct (vget (vals, idx) r) as [[i f]|] eqn:Ev, (hs !! r) as [h|] eqn:Eh; try done; cbn [fmap option_fmap option_map].
        2: { cbn [gets]. by exists idx. }
        destruct Hg as (Hr1 & Hf & s & Hs & Hsf). apply gets_bind, gets_bind. eapply gets_mono; [|apply (gets_readdir refs vals cand i); try done].
        * intros refs' vals' x (-> & -> & ->). cbn [gets hide fst snd]. by exists idx.
        * intros pt Hpt k [Hk1 Hk2]. apply HD. cbn. exists s, f, pt. by rewrite (in_here _ _ _ His).
      + (* File.Open *)
        pose proof (Hget r) as Hg. unfold answers. cbn [vask]. destruct (vget (vals, idx) r) as [[i f]|] eqn:Ev, (hs !! r) as [h|] eqn:Eh; try done; cbn [fmap option_fmap option_map].
        2: { cbn [gets]. by exists idx. }
        destruct Hg as (Hr1 & Hf & s & Hs & Hsf). apply gets_bind, gets_bind. eapply gets_mono; [|apply (gets_file_open refs vals i h f); try done].
        * intros refs' vals' x (-> & Hx & Hl & Hl2). cbn [gets fst snd]. destruct (vfile_open vals i f name) as [vals' x'] eqn:Evo. cbn [fst snd] in *.
          eapply placed_given; [exact Hp|done..|]. right. by eexists _, _.
        * intros pt key H1 H2 H3. apply HD. cbn. exists s, f, pt. by rewrite (in_here _ _ _ His).
    - specialize (Hget j). unfold answers. cbn [vask]. destruct (vget (vals, idx) j) as [[i f]|], (hs !! j) as [h|] eqn:Eh; try done.
      2: { cbn [gets]. by exists idx. }
      destruct Hget as (Hr1 & Hf & _). apply gets_bind, gets_look. intros m Hi. cbn [gets fst snd]. exists idx. split_and!; [|done..].
      destruct (Forall2_lookup_lr _ _ _ _ _ _ (in_vals _ _ _ Hi) Hr1 Hf) as (E & _). unfold info_at. by rewrite E.
    - assert (HDs : forall pt, parse her name = Some pt -> ~ D pt) by (intros pt Hpt; apply HD; cbn; by rewrite (in_here _ _ _ His)).
      apply gets_bind. eapply gets_mono; [|by apply gets_stat]. intros refs' vals' x (-> & -> & ->). unfold answers. cbn [vask].
      destruct (stat parse m0 name) as [r|e] eqn:Es; [|cbn [gets]; by exists idx].
      apply gets_bind, gets_look. intros m Hi. cbn [gets fst snd]. exists idx. split_and!; [|done..].
      by rewrite (proj2 (inv_stat _ _ _ name Hi HDs) r Es).
  Qed.

  Lemma alone_gets {A} refs vals (p : prog A) Q m : gets refs vals p Q -> inv refs vals m ->
    exists refs' vals', inv refs' vals' (alone p m).1 /\ Q refs' vals' (alone p m).2.
  Proof.
    revert refs vals m. induction p as [a|f k IH]; intros refs vals m; cbn [gets alone fst snd]; [by exists refs, vals|].
    intros H Hi. destruct (H m Hi) as (refs' & vals' & H1 & _ & _ & H4). by eapply IH.
  Qed.

  (** A question nobody interrupts. *)
  Lemma alone_ask m hs c : wf m -> m_here m = her -> (forall now cand o, c = AOp now cand o -> cand = keys_now) ->
    alone (ask_prog parse her hs c) m = ((ask_run parse m hs c).1.1, ((ask_run parse m hs c).1.2, (ask_run parse m hs c).2)).
  Proof.
    intros Hw Hh Hc. destruct c as [now cand o|j|name]; cbn [ask_prog ask_run].
    - destruct (at_slots hs o) as [o'|]; [|done]. rewrite alone_bind. rewrite (Hc _ _ _ eq_refl), <- Hh, (alone_call parse m (now, o') Hw).
      by destruct (step parse m (now, o')) as [m' x].
    - by destruct (hs !! j).
    - rewrite alone_bind, <- Hh, alone_stat. by destruct (stat parse m name).
  Qed.
  Definition evenly (c : ask) : ask := match c with AOp now _ o => AOp now keys_now o | c => c end.

  Lemma seq_ask refs vals idx hs c m : inv refs vals m -> placed refs idx hs -> fair_ask c -> (forall key, about parse m hs c key -> ~ D key) ->
    exists refs' vals' idx', inv refs' vals' (ask_run parse m hs c).1.1 /\ placed refs' idx' (ask_run parse m hs c).1.2 /\
      vask (vals, idx) c = ((vals', idx'), (ask_run parse m hs c).2).
  Proof.
    intros Hi Hp Hf HD.
    assert (Ec : ask_run parse m hs c = ask_run parse m hs (evenly c)) by (by destruct c).
    assert (Ev : vask (vals, idx) c = vask (vals, idx) (evenly c)) by (by destruct c).
    assert (HD' : forall key, about parse m hs (evenly c) key -> ~ D key) by (destruct c; exact HD).
    rewrite Ec, Ev. assert (Hf' : fair_ask (evenly c)).
    { destruct c; [|done..]. intros ? ? ? [= <- <- <-]. split; [by eapply Hf|apply keys_now_candidates]. }
    assert (Hlen : length refs = length vals) by (eapply Forall2_length, in_vals, Hi).
    assert (Hg : gets refs vals (ask_prog parse her hs (evenly c)) (answers vals idx (evenly c))).
    { apply gets_ask; [done..| |done|].
      - intros i Hin. apply elem_of_list_lookup in Hin as [j Hj]. destruct (Forall2_lookup_l _ _ _ _ _ Hp Hj) as (r & _ & Hr).
        apply lookup_lt_Some in Hr. lia.
      - by exists m, hs, refs. }
    destruct (alone_gets _ _ _ _ m Hg Hi) as (refs' & vals' & Hi' & idx' & Hv & Hp' & _).
    assert (Ea := alone_ask m hs (evenly c) (in_wf _ _ _ Hi) (in_here _ _ _ Hi) ltac:(intros ? ? ?; destruct c; cbn; congruence)).
    rewrite Ea in Hi', Hp', Hv.
    by exists refs', vals', idx'.
  Qed.

  (** A reading goroutine works out, whatever happens elsewhere, what it works
      out alone. *)
  Lemma gets_worker {A} (p : worker A) refs vals idx hs m refss hss :
    reads p -> placed refs idx hs -> length refs = length vals ->
    inv refss vals m -> placed refss idx hss -> avoids parse D m hss p ->
    gets refs vals (worker_prog parse her hs p) (fun _ _ a => a = result parse m hss p).
  Proof.
    revert refs vals idx hs m refss hss. induction p as [a|c k IH]; intros refs vals idx hs m refss hss Hr Hp Hlen Hi Hps Ha; cbn [worker_prog]; [done|].
    destruct Hr as [Hr Hk]. destruct Ha as [Ha1 Ha2].
    apply gets_bind. eapply gets_mono; [|apply gets_ask; [exact Hp|exact Hlen| |exact Hr|by exists m, hss, refss]].
    2: { intros i Hin. apply elem_of_list_lookup in Hin as [j Hj]. destruct (Forall2_lookup_l _ _ _ _ _ Hp Hj) as (r & _ & Hj2).
         apply lookup_lt_Some in Hj2. lia. }
    intros refs' vals' [hs' y] (idx' & Hv & Hp' & Hlen'). cbn [fst snd] in *.
    destruct (seq_ask refss vals idx hss c m Hi Hps Hr Ha1) as (refss' & vals'' & idx'' & Hi' & Hps' & Hv').
    rewrite Hv in Hv'. injection Hv' as <- <- Hy. unfold result. cbn [worker_run].
    destruct (ask_run parse m hss c) as [[m' hss'] y']. cbn [fst snd] in *. subst y'.
    by apply (IH y refs' vals' idx' hs' m' refss' hss').
  Qed.

  Lemma inv_other refs vals m m' (own : ref -> Prop) : inv refs vals m -> (forall r, own r -> r ∉ refs /\ m_next m0 <= r) -> frame parse own D m m' -> inv refs vals m'.
  Proof.
    intros Hi Ho F. pose proof (fr_next _ _ _ _ _ F). pose proof (in_next _ _ _ Hi). split.
    - apply F.
    - rewrite (fr_here _ _ _ _ _ F). apply Hi.
    - lia.
    - intros r Hr. rewrite (fr_heap _ _ _ _ _ F); [by apply Hi| |lia]. intros Hx. apply Ho in Hx. lia.
    - intros pt HD. rewrite (fr_files _ _ _ _ _ F pt HD). by apply Hi.
    - apply Hi.
    - apply Forall2_same_length_lookup. split; [apply (Forall2_length _ _ _ (in_vals _ _ _ Hi))|].
      intros i r f Hr Hf. destruct (Forall2_lookup_lr _ _ _ _ _ _ (in_vals _ _ _ Hi) Hr Hf) as (E & E2). split; [|done].
      rewrite (fr_heap _ _ _ _ _ F); [done| |by eapply wf_next; [apply Hi|]]. intros Hx. apply Ho in Hx as [Hx _]. apply Hx. by eapply elem_of_list_lookup_2.
  Qed.
End Read.
