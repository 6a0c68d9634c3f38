(** Model of the lazily initialised maps, /repo/internal/maps/files.go:17-33
    and :107-110 (infos.go:16-32,:100-103 is the same code for another type).

    Each read and write of a field, and each sync.Map operation, is one step;
    steps of different goroutines interleave in any order (sequential
    consistency: what the Go memory model leaves undefined for such races is
    not used).  sync.Once.Do is: return if done, otherwise wait for the lock,
    run the function, mark as done (its double check of the flag is one step
    here). *)
From Verif Require Import Bytes GoPath Here GoTypes.

Section Maps.
  Context {V : Type}.

  (** Shared state: the fields once and data (addresses of allocated objects),
      which Onces are done or locked, and the contents of the sync.Maps. *)
  Record shared := Shared {
    sh_once : option nat;
    sh_data : option nat;
    sh_done : gset nat;
    sh_locked : gset nat;
    sh_maps : gmap nat (gmap path V);
    sh_next : nat                    (* next free address *)
  }.
  Definition fresh : shared := Shared None None ∅ ∅ ∅ 0.

  (** Where a goroutine is in Store(key, value) = Data().Store(key, value). *)
  Inductive pc :=
  | PTest                  (* if m.once == nil                files.go:23 *)
  | PMakeOnce              (*   m.once = &sync.Once{}         files.go:24 *)
  | PLoadOnce              (* m.once.Do(...): read m.once     files.go:26 *)
  | PDo (o : nat)          (* enter Do                                    *)
  | PTestData (o : nat)    (*   if m.data == nil              files.go:27 *)
  | PMakeData (o : nat)    (*     m.data = &sync.Map{}        files.go:28 *)
  | PDone (o : nat)        (* leave Do                                    *)
  | PLoadData              (* return m.data                   files.go:31 *)
  | PStore (d : nat)       (* data.Store(key, value)          files.go:109 *)
  | PCrash.                (* nil pointer dereference                     *)

  (** A goroutine: the entries it still has to store, one after the other. *)
  Record thread := Thread { th_todo : list (path * V); th_pc : pc }.
  Definition start (todo : list (path * V)) : thread := Thread todo PTest.

  Definition goto (th : thread) (p : pc) : thread := Thread (th_todo th) p.

  (** One step of a goroutine; [None] if it has finished, crashed or waits. *)
  Definition step1 (s : shared) (th : thread) : option (shared * thread) :=
    match th_todo th with
    | [] => None
    | (k, v) :: todo =>
        match th_pc th with
        | PTest => Some (s, goto th (match sh_once s with None => PMakeOnce | Some _ => PLoadOnce end))
        | PMakeOnce =>
            Some (Shared (Some (sh_next s)) (sh_data s) (sh_done s) (sh_locked s) (sh_maps s) (S (sh_next s)),
                  goto th PLoadOnce)
        | PLoadOnce => Some (s, goto th (match sh_once s with None => PCrash | Some o => PDo o end))
        | PDo o =>
            if bool_decide (o ∈ sh_done s) then Some (s, goto th PLoadData)
            else if bool_decide (o ∈ sh_locked s) then None
            else Some (Shared (sh_once s) (sh_data s) (sh_done s) ({[o]} ∪ sh_locked s) (sh_maps s) (sh_next s),
                       goto th (PTestData o))
        | PTestData o => Some (s, goto th (match sh_data s with None => PMakeData o | Some _ => PDone o end))
        | PMakeData o =>
            Some (Shared (sh_once s) (Some (sh_next s)) (sh_done s) (sh_locked s)
                         (<[sh_next s := ∅]> (sh_maps s)) (S (sh_next s)),
                  goto th (PDone o))
        | PDone o =>
            Some (Shared (sh_once s) (sh_data s) ({[o]} ∪ sh_done s) (sh_locked s ∖ {[o]}) (sh_maps s) (sh_next s),
                  goto th PLoadData)
        | PLoadData => Some (s, goto th (match sh_data s with None => PCrash | Some d => PStore d end))
        | PStore d =>
            Some (Shared (sh_once s) (sh_data s) (sh_done s) (sh_locked s)
                         (<[d := <[k := v]> (default ∅ (sh_maps s !! d))]> (sh_maps s)) (sh_next s),
                  Thread todo PTest)
        | PCrash => None
        end
    end.

  (** A run: some goroutine makes the next step. *)
  Definition step (c c' : shared * list thread) : Prop :=
    exists i th s' th', c.2 !! i = Some th /\ step1 c.1 th = Some (s', th') /\ c' = (s', <[i := th']> c.2).

  (** The scheduler chooses goroutine [i]: for running concrete schedules. *)
  Fixpoint run (sched : list nat) (c : shared * list thread) : option (shared * list thread) :=
    match sched with
    | [] => Some c
    | i :: sched =>
        match c.2 !! i with
        | None => None
        | Some th => match step1 c.1 th with
                     | None => None
                     | Some (s', th') => run sched (s', <[i := th']> c.2)
                     end
        end
    end.

  (** Load(key), files.go:82-89, once nothing else runs. *)
  Definition load (s : shared) (k : path) : option V :=
    match sh_data s with
    | None => None
    | Some d => default ∅ (sh_maps s !! d) !! k
    end.

  Definition finished (ths : list thread) : Prop := Forall (fun th => th_todo th = []) ths.

  Lemma run_steps c c' sched : run sched c = Some c' -> rtc step c c'.
  Proof.
    revert c. induction sched as [|i sched IH]; intros c; cbn [run]; [by intros [= ->]|].
    destruct (c.2 !! i) as [th|] eqn:Ei; [|done]. destruct (step1 c.1 th) as [[s' th']|] eqn:Es; [|done].
    intros H. eapply rtc_l; [|by apply IH]. by exists i, th, s', th'.
  Qed.

  (** ** A pkger that has been used *)

  (** Initialised: the once is done and there is a map. *)
  Definition used (s : shared) : Prop :=
    exists o d, sh_once s = Some o /\ o ∈ sh_done s /\ sh_data s = Some d.

  (** Where goroutines can be then. *)
  Definition settled (o d : nat) (p : pc) : Prop :=
    p = PTest \/ p = PLoadOnce \/ p = PDo o \/ p = PLoadData \/ p = PStore d.

  Lemma used_step o d s th s' th' :
    sh_once s = Some o -> o ∈ sh_done s -> sh_data s = Some d -> settled o d (th_pc th) ->
    step1 s th = Some (s', th') ->
    sh_once s' = Some o /\ o ∈ sh_done s' /\ sh_data s' = Some d /\ settled o d (th_pc th') /\
    ((th_todo th' = th_todo th /\ load s' = load s) \/
     exists k v, th_todo th = (k, v) :: th_todo th' /\ load s' k = Some v /\
       forall k', k' <> k -> load s' k' = load s k').
  Proof.
    intros Ho Hd Hm Hp. unfold step1. destruct th as [[|[k v] todo] p]; cbn [th_todo th_pc] in *; [done|].
    destruct Hp as [-> |[-> |[-> |[-> | ->]]]].
    - rewrite Ho. intros [= <- <-]. cbn. unfold settled. eauto 12.
    - rewrite Ho. intros [= <- <-]. cbn. unfold settled. eauto 12.
    - rewrite bool_decide_eq_true_2 by done. intros [= <- <-]. cbn. unfold settled. eauto 12.
    - rewrite Hm. intros [= <- <-]. cbn. unfold settled. eauto 12.
    - intros [= <- <-]. cbn. split; [done|]. split; [done|]. split; [done|]. split; [by left|].
      right. exists k, v. split; [done|]. unfold load. cbn. rewrite Hm, lookup_insert. cbn.
      split; [by rewrite lookup_insert|]. intros k' Hk. by rewrite lookup_insert_ne.
  Qed.
End Maps.
Arguments shared : clear implicits.
Arguments thread : clear implicits.
