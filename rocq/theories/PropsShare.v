(** Theorems: goroutines that read while others work elsewhere (C134). *)
From Verif Require Import Bytes GoPath Here GoTypes Mem MemSpec MemBase MemFiles WalkSpec MemWalk Conc PropsFiles PropsConc PropsSerial Share ShareRead.

Section Together.
  Context (parse : resolver) (m0 : mem) (D : path -> Prop) {A : Type}.
  Hypothesis W0 : wf m0.
  Hypothesis N0 : forall k, is_Some (m_files m0 !! k) -> p_name k <> [].

  (** A goroutine with the handles it begins with: one that may change names in
      [D] and begins without handles, or one that only reads and begins with
      Files that have no content (directories). *)
  Definition tame (t : list ref * worker A) : Prop :=
    (t.1 = [] /\ only parse (m_here m0) D t.2) \/
    (reads t.2 /\ Forall (fun r => exists f, m_heap m0 !! r = Some f /\ plain f) t.1).
  Definition task_of (t : list ref * worker A) : prog A := worker_prog parse (m_here m0) t.1 t.2.

  Lemma reads_only (p : worker A) : reads p -> only parse (m_here m0) D p.
  Proof.
    induction p as [a|c k IH]; cbn; [done|]. intros [Hc Hk]. split; [|intros y; apply IH, Hk].
    intros now cand o pt Eo. destruct (Hc now cand o Eo) as [Hr _]. by destruct o.
  Qed.

  Lemma tame_guards t : tame t -> guards parse (m_here m0) m0 D (fun _ => False) (task_of t) any.
  Proof.
    intros [[E H]|[H1 H2]]; apply guards_worker; try done.
    - left. by rewrite E.
    - by apply reads_only.
    - right. split; [done|]. eapply Forall_impl; [exact H2|]. intros r H. by right.
  Qed.

  Lemma run_guards (own : nat -> ref -> Prop) m (qs : list (prog A)) m' qs' :
    (forall j q, qs !! j = Some q -> guards parse (m_here m0) m0 D (own j) q any) -> (forall j, env (m_here m0) m0 (own j) m) ->
    rtc par (m, qs) (m', qs') -> frame parse (fun r => m_next m0 <= r) D m m'.
  Proof.
    intros Hg He H. remember (m, qs) as x eqn:Ex. remember (m', qs') as y eqn:Ey. revert own m qs Hg He Ex.
    induction H as [x|x y' z Hs Hz IH]; intros own m qs Hg He Ex; subst.
    - injection Ex as -> ->. apply frame_refl, (He 0).
    - inversion Hs as [m1 ps0 i f k Hi E1 E2]; subst. pose proof (Hg i _ Hi) as Hgi. cbn [guards] in Hgi.
      destruct (Hgi m (He i)) as [Hf Hk]. eapply frame_trans.
      + eapply frame_weaken; [..|exact Hf]; [|done]. intros r Hr. apply (en_own _ _ _ _ (He i)) in Hr. lia.
      + apply (IH eq_refl (fun j => if decide (j = i) then grow (own i) m (f m) else own j) (f m) (<[i := k m]> qs)); [| |done].
        * intros j q Hq. destruct (decide (j = i)) as [->|Hn].
          -- rewrite list_lookup_insert in Hq by (by eapply lookup_lt_Some). injection Hq as <-. done.
          -- rewrite list_lookup_insert_ne in Hq by done. by apply Hg.
        * intros j. pose proof (env_step parse (m_here m0) m0 D (own i) (grow (own i) m (f m)) m (f m)) as Hst.
          assert (Hei : env (m_here m0) m0 (grow (own i) m (f m)) (f m)) by (apply Hst; [apply more_grow|done|apply He|done]).
          destruct (decide (j = i)) as [->|Hn]; [done|]. split; try apply Hei.
          intros r Hr. apply (en_own _ _ _ _ (He j)) in Hr. pose proof (fr_next _ _ _ _ _ Hf). lia.
  Qed.

  Lemma run_gets i (own : nat -> ref -> Prop) refs vals (res : A) m (qs : list (prog A)) m' qs' q :
    qs !! i = Some q -> gets parse (m_here m0) m0 D refs vals q (fun _ _ a => a = res) -> inv (m_here m0) m0 D refs vals m ->
    (forall j q, j <> i -> qs !! j = Some q -> guards parse (m_here m0) m0 D (own j) q any) ->
    (forall j r, own j r -> m_next m0 <= r < m_next m /\ r ∉ refs) ->
    rtc par (m, qs) (m', qs') -> forall a, qs' !! i = Some (Ret a) -> a = res.
  Proof.
    intros Hq Hget Hinv Hg Ho H. remember (m, qs) as x eqn:Ex. remember (m', qs') as y eqn:Ey. revert own refs vals m qs q Hq Hget Hinv Hg Ho Ex.
    induction H as [x|x y' z Hs Hz IH]; intros own refs vals m qs q Hq Hget Hinv Hg Ho Ex a Ha; subst.
    - injection Ex as -> ->. rewrite Hq in Ha. injection Ha as ->. done.
    - inversion Hs as [m1 ps0 j f k Hj E1 E2]; subst. destruct (decide (j = i)) as [->|Hn].
      + rewrite Hq in Hj. injection Hj as ->. cbn [gets] in Hget. destruct (Hget m Hinv) as (refs' & vals' & Hi' & Hf & Hfr & Hk).
        apply (IH eq_refl own refs' vals' (f m) (<[i := k m]> qs) (k m)); try done.
        * by rewrite list_lookup_insert by (by eapply lookup_lt_Some).
        * intros j q Hj Hqj. rewrite list_lookup_insert_ne in Hqj by done. by apply Hg.
        * intros j r Hr. destruct (Ho j r Hr) as [H1 H2]. pose proof (fr_next _ _ _ _ _ Hf). split; [lia|].
          intros Hin. destruct (Hfr r Hin) as [H3|H3]; [done|lia].
      + pose proof (Hg j _ Hn Hj) as Hgj. cbn [guards] in Hgj.
        assert (He : env (m_here m0) m0 (own j) m) by (split; try apply Hinv; intros r Hr; by apply (Ho j)).
        destruct (Hgj m He) as [Hf Hk].
        apply (IH eq_refl (fun j' => if decide (j' = j) then grow (own j) m (f m) else own j') refs vals (f m) (<[j := k m]> qs) q); try done.
        * by rewrite list_lookup_insert_ne.
        * eapply inv_other; [exact Hinv| |exact Hf]. intros r Hr. apply (Ho j) in Hr as [? ?]. split; [done|lia].
        * intros j' q' Hj' Hqj. destruct (decide (j' = j)) as [->|Hn'].
          -- rewrite list_lookup_insert in Hqj by (by eapply lookup_lt_Some). injection Hqj as <-. done.
          -- rewrite list_lookup_insert_ne in Hqj by done. by apply Hg.
        * intros j' r Hr. pose proof (fr_next _ _ _ _ _ Hf). destruct (decide (j' = j)) as [->|Hn'].
          -- destruct Hr as [Hr|Hr]; [destruct (Ho j r Hr) as [H1 H2]; split; [lia|done]|]. split; [pose proof (in_next _ _ _ _ _ _ Hinv); lia|].
             intros Hin. pose proof (inv_lt _ _ _ _ _ _ _ Hinv Hin). lia.
          -- destruct (Ho j' r Hr) as [H1 H2]. split; [lia|done].
  Qed.

  Lemma places (hs refs : list ref) : hs ⊆ refs -> exists idx, placed refs idx hs.
  Proof.
    induction hs as [|r hs IH]; intros Hs; [by exists []; constructor|]. destruct IH as [idx Hi]; [intros q Hq; apply Hs; by right|].
    destruct (elem_of_list_lookup_1 refs r) as [j Hj]; [apply Hs; by left|]. exists (j :: idx). by apply List.Forall2_cons.
  Qed.
  Lemma start_inv hs : Forall (fun r => exists f, m_heap m0 !! r = Some f /\ plain f) hs ->
    exists vals, inv (m_here m0) m0 D (remove_dups hs) vals m0.
  Proof.
    intros Hf.
    assert (Hv : exists vals, Forall2 (behind m0 m0) (remove_dups hs) vals).
    { assert (Hf' : Forall (fun r => exists f, m_heap m0 !! r = Some f /\ plain f) (remove_dups hs)).
      { apply Forall_forall. intros r Hr. rewrite elem_of_remove_dups in Hr. rewrite Forall_forall in Hf. exact (Hf r Hr). }
      revert Hf'. generalize (remove_dups hs). intros hs' Hf'. induction Hf' as [|r l (f & H1 & H2) _ (vals & IH)]; [by exists []; constructor|]. exists (f :: vals). apply List.Forall2_cons; [|done].
      split_and!; [done|by destruct H2 as (_ & ? & _)|done]. }
    destruct Hv as [vals Hv]. exists vals. split; try done. apply NoDup_remove_dups.
  Qed.
End Together.

(** ** C134: reading while others work *)

(** Whatever other goroutines do to names in [D], and whatever others read from
    the same directories: a goroutine that only reads, and never asks about
    names in [D], works out what it would have worked out alone. *)
Theorem C134_alone {A} parse m (D : path -> Prop) (ts : list (list ref * worker A)) m' qs i hs p a :
  wf m -> (forall k, is_Some (m_files m !! k) -> p_name k <> []) -> Forall (tame parse m D) ts ->
  ts !! i = Some (hs, p) -> reads p -> avoids parse D m hs p ->
  rtc par (m, task_of parse m <$> ts) (m', qs) -> qs !! i = Some (Ret a) ->
  a = result parse m hs p.
Proof.
  intros Hw Hn Ht Hi Hr Ha H Hq.
  assert (Hf : Forall (fun r => exists f, m_heap m !! r = Some f /\ plain f) hs).
  { pose proof (Forall_lookup_1 _ _ _ _ Ht Hi) as [[E _]|[_ Hf]]; [cbn in E; by subst|done]. }
  destruct (start_inv m D Hw hs Hf) as [vals Hinv]. destruct (places hs (remove_dups hs)) as [idx Hp]; [intros r; by rewrite elem_of_remove_dups|].
  pose proof (Forall2_length _ _ _ (in_vals _ _ _ _ _ _ Hinv)) as Hlen.
  eapply (run_gets parse m D i (fun (_ : nat) (_ : ref) => False) (remove_dups hs) vals _ m (task_of parse m <$> ts) m' qs (task_of parse m (hs, p))); [by rewrite list_lookup_fmap, Hi|..|exact H|exact Hq].
  - by eapply gets_worker.
  - done.
  - intros j q _ Hj. rewrite list_lookup_fmap in Hj. apply fmap_Some in Hj as (t & Hj & ->). apply tame_guards; [done|]. by eapply Forall_lookup_1.
  - done.
Qed.

(** Such goroutines change nothing outside [D], and no File that was there. *)
Theorem C134_kept {A} parse m (D : path -> Prop) (ts : list (list ref * worker A)) m' qs :
  wf m -> Forall (tame parse m D) ts -> rtc par (m, task_of parse m <$> ts) (m', qs) ->
  (forall pt, ~ D pt -> m_files m' !! pt = m_files m !! pt /\ file_at m' pt = file_at m pt) /\
  (forall r, r < m_next m -> m_heap m' !! r = m_heap m !! r) /\
  (forall pt, is_Some (m_files m' !! pt) -> is_Some (file_at m' pt)) /\
  m_here m' = m_here m /\ m_infos m' = m_infos m.
Proof.
  intros Hw Ht H.
  assert (F : frame parse (fun r => m_next m <= r) D m m').
  { eapply (run_guards parse m D (fun (_ : nat) (_ : ref) => False)); [| |exact H].
    - intros j q Hj. rewrite list_lookup_fmap in Hj. apply fmap_Some in Hj as (t & Hj & ->). apply tame_guards; [done|]. by eapply Forall_lookup_1.
    - intros j. by split. }
  pose proof (fr_heap _ _ _ _ _ F) as Hheap. cbn beta in Hheap.
  split_and!; try apply F.
  - intros pt HD. pose proof (fr_files _ _ _ _ _ F pt HD) as E. split; [done|]. unfold file_at. rewrite E. destruct (m_files m !! pt) as [r|] eqn:Er; [|done]. cbn.
    apply Hheap; [|by eapply wf_files_lt]. pose proof (wf_files_lt m pt r Hw Er). lia.
  - intros r Hlt. apply Hheap; [lia|done].
  - intros pt [r E]. unfold file_at. rewrite E. cbn. by apply (wf_files m' (fr_wf _ _ _ _ _ F) pt r).
Qed.

(** One goroutine reads /a, two others make and fill /d/b and remove /c. *)
Definition reader_w : worker (list reply) :=
  WAsk (AStat (B"/a")) (fun y1 =>
  WAsk (AOp t1 keys_now (OOpen (B"/a"))) (fun y2 =>
  WAsk (AOp t1 keys_now (ORead 0 2)) (fun y3 =>
  WAsk (AOp t1 keys_now (ORead 0 5)) (fun y4 =>
  WAsk (AInfo 0) (fun y5 => WDone [y1; y2; y3; y4; y5]))))).
Definition writer_w : worker (list reply) :=
  WAsk (AOp t1 keys_now (OCreate (B"/d/b"))) (fun _ =>
  WAsk (AOp t1 keys_now (OWrite 0 (B"new"))) (fun y2 =>
  WAsk (AOp t1 keys_now (OClose 0)) (fun y3 => WDone [y2; y3]))).
Definition remover_w : worker (list reply) :=
  WAsk (AOp t1 keys_now (ORemove (B"/c"))) (fun y => WDone [y]).
Definition share_tasks : list (list ref * worker (list reply)) := [([], reader_w); ([], writer_w); ([], remover_w)].

Lemma share_tame : Forall (tame here_parse serial_ex changed_ex) share_tasks.
Proof.
  assert (Hh : m_here serial_ex = her_ex) by by vm_compute.
  assert (Hroot : forall pt, mk_target here_parse her_ex (B"/") pt -> p_name pt = B"/").
  { intros pt Hmk. eapply (mk_targets 5) in Hmk; [|by vm_compute]. by apply elem_of_list_singleton in Hmk as ->. }
  assert (Hb : here_parse her_ex (B"/d/b") = Some (Path (B"app") (B"/d/b"))) by by vm_compute.
  assert (Hc : here_parse her_ex (B"/c") = Some (Path (B"app") (B"/c"))) by by vm_compute.
  constructor; [|constructor; [|constructor; [|constructor]]]; unfold tame; rewrite Hh; cbn [fst snd].
  - right. split; [|constructor]. cbn [reader_w reads]. split; [done|]. intros ?.
    repeat (split; [intros ? ? ? [= <- <- <-]; split; [exact I|apply keys_now_candidates]|intros ?]). split; [done|]. intros ?. exact I.
  - left. split; [done|]. cbn [writer_w only]. split.
    { intros ? ? ? pt [= <- <- <-] H. cbn [disturbs] in H. destruct H as [H|H]; [change (here_parse her_ex (B"/d/b") = Some pt) in H; rewrite Hb in H; injection H as <-; right; left|]. apply Hroot in H. unfold changed_ex. rewrite H. left. }
    intros y. split; [intros ? ? ? pt [= <- <- <-] []|]. intros y'. split; [intros ? ? ? pt [= <- <- <-] []|]. intros ?. exact I.
  - left. split; [done|]. cbn [remover_w only]. split; [|intros ?; exact I].
    intros ? ? ? pt [= <- <- <-] H. change (here_parse her_ex (B"/c") = Some pt) in H. rewrite Hc in H. injection H as <-. right. right. left.
Qed.
Lemma share_avoids : avoids here_parse changed_ex serial_ex [] reader_w.
Proof.
  assert (Ha : here_parse her_ex (B"/a") = Some (Path (B"app") (B"/a"))) by by vm_compute.
  assert (Hn : ~ changed_ex (Path (B"app") (B"/a"))).
  { intros H. apply (bool_decide_eq_true_2 (B"/a" ∈ [B"/"; B"/d/b"; B"/c"])) in H. by vm_compute in H. }
  assert (Hh : m_here serial_ex = her_ex) by by vm_compute.
  assert (Hask : forall key, here_parse (m_here serial_ex) (B"/a") = Some key -> ~ changed_ex key).
  { rewrite Hh, Ha. intros key [= <-]. exact Hn. }
  assert (Hrest : forall y, avoids here_parse changed_ex serial_ex []
    (WAsk (AOp t1 keys_now (OOpen (B"/a"))) (fun y2 => WAsk (AOp t1 keys_now (ORead 0 2)) (fun y3 =>
     WAsk (AOp t1 keys_now (ORead 0 5)) (fun y4 => WAsk (AInfo 0) (fun y5 => WDone [y; y2; y3; y4; y5])))))).
  { intros y. cbn [avoids]. split; [exact Hask|].
    destruct (ask_run here_parse _ _ _) as [[m1 hs1] y1]. split; [intros ? []|].
    destruct (ask_run here_parse _ _ _) as [[m2 hs2] y2]. split; [intros ? []|].
    destruct (ask_run here_parse _ _ _) as [[m3 hs3] y3]. split; [intros ? []|]. exact I. }
  split; [exact Hask|]. apply Hrest.
Qed.
Example C134_ex :
  wf serial_ex /\ (forall k, is_Some (m_files serial_ex !! k) -> p_name k <> []) /\
  Forall (tame here_parse serial_ex changed_ex) share_tasks /\ reads reader_w /\ avoids here_parse changed_ex serial_ex [] reader_w /\
  exists m' qs, rtc par (serial_ex, task_of here_parse serial_ex <$> share_tasks) (m', qs) /\
    (let d := Details (B"a") 3 420 t0 false JNull in
     PropsConc.answers qs = [Some [Shown (Some d); Got (RRef (Ok 0)); Got (RBytes (B"ol") None); Got (RBytes (B"d") None); Shown (Some d)];
                   Some [Got (RNum 3 None); Got (RErr None)]; Some [Got (RErr None)]]) /\
    result here_parse serial_ex [] reader_w =
      [Shown (Some (Details (B"a") 3 420 t0 false JNull)); Got (RRef (Ok 0)); Got (RBytes (B"ol") None); Got (RBytes (B"d") None);
       Shown (Some (Details (B"a") 3 420 t0 false JNull))] /\
    seen here_parse m' (B"/d/b") = Some (Details (B"b") 3 420 t1 false JNull, B"new") /\ seen here_parse m' (B"/c") = None.
Proof.
  split; [eapply reachable_wf, reachable_run, reach_new|]. split.
  { assert (E : forallb (fun kv : path * ref => negb (bool_decide (p_name kv.1 = []))) (map_to_list (m_files serial_ex)) = true) by by vm_compute.
    intros k [r Hk] Hn. apply elem_of_map_to_list, elem_of_list_In in Hk. rewrite forallb_forall in E. apply E in Hk. cbn [fst] in Hk. by rewrite bool_decide_true in Hk. }
  split; [apply share_tame|]. split.
  { pose proof share_tame as H. inversion H as [|? ? [[_ H1]|[H1 _]] _]; subst; [|exact H1].
    cbn [reader_w reads]. split; [done|]. intros ?. repeat (split; [intros ? ? ? [= <- <- <-]; split; [exact I|apply keys_now_candidates]|intros ?]). split; [done|]. intros ?. exact I. }
  split; [apply share_avoids|]. schedule (concat (replicate 20 [0;1;2])). by vm_compute.
Qed.
