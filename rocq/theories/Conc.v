(** The in-memory pkger used by several goroutines: /repo/pkging/mem/{mem,file}.go
    with every access to the shared maps and to the fields of shared Files as a
    step of its own.

    A call is a program of atomic steps; the steps of different goroutines
    interleave in any order.  Simplifications: the maps have been used before
    (see Maps.v for their first use); sync.Map's Load, Store and Delete are
    single steps; Range first takes a list of keys, then looks up one after the
    other (a key deleted and stored again meanwhile is found; Go may also miss
    it); fields of Files are read and written
    under sequential consistency (where Go's memory model calls it a race,
    theorems here show one possible interleaving); fx.Here is never written, so
    it is a parameter.  Memory a goroutine has not yet shared (a File before its
    Store, a buffer) is changed together with the next shared access.

    [alone_...] below: without interference the programs are the sequential
    model of Mem.v. *)
From Verif Require Import Bytes GoPath Here GoTypes Mem MemSpec.

Inductive prog (A : Type) :=
| Ret (a : A)
| Act (f : mem -> mem) (k : mem -> prog A).    (* new state, and how to go on; both from the old state *)
Global Arguments Ret {A}. Global Arguments Act {A}.

Fixpoint bind {A C} (p : prog A) (k : A -> prog C) : prog C :=
  match p with
  | Ret a => k a
  | Act f q => Act f (fun m => bind (q m) k)
  end.

(** One atomic step with a result. *)
Definition act {A} (f : mem -> mem * A) : prog A := Act (fun m => (f m).1) (fun m => Ret (f m).2).
Definition look {A} (f : mem -> A) : prog A := Act (fun m => m) (fun m => Ret (f m)).

(** Running a program with nobody else around. *)
Fixpoint alone {A} (p : prog A) (m : mem) : mem * A :=
  match p with
  | Ret a => (m, a)
  | Act f k => alone (k m) (f m)
  end.

(** ** Goroutines *)

(** Some goroutine makes its next step. *)
Inductive par {A} : mem * list (prog A) -> mem * list (prog A) -> Prop :=
| par_step m ts i f k : ts !! i = Some (Act f k) -> par (m, ts) (f m, <[i := k m]> ts).

(** The scheduler chooses goroutine [i]: for running concrete schedules. *)
Fixpoint run_sched {A} (sched : list nat) (c : mem * list (prog A)) : mem * list (prog A) :=
  match sched with
  | [] => c
  | i :: sched =>
      match c.2 !! i with
      | Some (Act f k) => run_sched sched (f c.1, <[i := k c.1]> c.2)
      | _ => run_sched sched c
      end
  end.

Lemma run_sched_par {A} sched (c : mem * list (prog A)) : rtc par c (run_sched sched c).
Proof.
  revert c. induction sched as [|i sched IH]; intros [m ts]; cbn [run_sched]; [done|].
  destruct (ts !! i) as [[a|f k]|] eqn:E; cbn [fst snd]; rewrite ?E; try apply IH.
  eapply rtc_l; [|apply IH]. by constructor.
Qed.

(** The keys a Range runs over, in its order: all those stored when it begins,
    and perhaps others, as sync.Map keeps entries of deleted keys. *)
Definition candidates (cand : mem -> list path) : Prop :=
  forall m, NoDup (cand m) /\ forall k, is_Some (m_files m !! k) -> k ∈ cand m.
Definition keys_now (m : mem) : list path := elements (dom (m_files m)).

(** What a goroutine may be asked to make: MkdirAll of [p], or Create of [name],
    a Write for each of [ws], and Close. *)
Inductive job := JDir (p : bytes) (perm : N) | JFile (name : bytes) (ws : list bytes).

(** ... and what goroutines may do: make these, read a file, or walk. *)
Inductive task :=
| TMake (now : gotime) (l : list job)
| TRead (now : gotime) (name : bytes) (cs : list cursor_op)
| TWalk (cand : mem -> list path) (p : bytes).
Inductive answer :=
| AMade (bs : list bool)
| ARead (x : res (option details * list resp))
| AWalk (l : list (bytes * details)) (e : option gerr).

Section Calls.
  Context (parse : resolver) (her : hinfo).

  (** Pkger.MkdirAll, mem.go:126-162: one Store per directory. *)
  Fixpoint mkdir_prog (fuel : nat) (now : gotime) (p : bytes) (perm : N) : prog (option gerr) :=
    match fuel with
    | O => Ret (Some EFuel)
    | S fuel =>
        match parse her p with
        | None => Ret (Some EParse)
        | Some pt =>
            let '(dir, name) := path_split (p_name pt) in
            bind (if bool_decide (dir = B"/") then Ret None else mkdir_prog fuel now dir perm)
              (fun e => match e with
                        | Some e => Ret (Some e)
                        | None =>
                            act (fun m =>
                              let '(m, r) := alloc m
                                (FObj her (Details name 0 perm now true JNull) pt [] zero_path None None) in
                              (store m pt r, None))
                        end)
        end
    end.

  (** Pkger.Stat, mem.go:195-205: one Load. *)
  Definition stat_prog (name : bytes) : prog (res ref) :=
    match parse her name with
    | None => Ret (Err EParse)
    | Some pt => look (fun m => match m_files m !! pt with
                                | Some r => Ok r
                                | None => Err (EMsg could_not_stat)
                                end)
    end.

  (** Pkger.Create, mem.go:88-123: MkdirAll("/"), a Load of the infos, the Stat
      of the parent, one Store. *)
  Definition create_prog (now : gotime) (name : bytes) : prog (res ref) :=
    bind (mkdir_prog (mk_fuel (B"/")) now (B"/") 493)
      (fun e0 =>
         if bool_decide (e0 = Some EFuel) then Ret (Err EFuel) else
         match parse her name with
         | None => Ret (Err EParse)
         | Some pt =>
             bind (look (fun m => mem_info m (p_pkg pt)))
               (fun i => match i with
                  | Err e => Ret (Err e)
                  | Ok h =>
                      let dir := dirname (p_name pt) in
                      bind (if bool_decide (dir = B"/") then Ret (Ok O) else stat_prog dir)
                        (fun parent => match parent with
                           | Err e => Ret (Err e)
                           | Ok _ =>
                               act (fun m =>
                                 let '(m, r) := alloc m
                                   (FObj h (Details (base name) 0 420 now false JNull) pt [] zero_path None None) in
                                 (store m pt r, Ok r))
                           end)
                  end)
         end).

  (** Pkger.Remove, mem.go:56-68: a Load, then a Delete. *)
  Definition remove_prog (name : bytes) : prog (option gerr) :=
    match parse her name with
    | None => Ret (Some EParse)
    | Some pt =>
        bind (look (fun m => m_files m !! pt))
          (fun x => match x with
                    | None => Ret (Some (EPath (B"remove") (path_string pt)))
                    | Some _ => act (fun m => (delete_key m pt, None))
                    end)
    end.

  (** Pkger.Open, mem.go:165-192: a Load; then the info is copied (:185), then
      the data is taken (:187). *)
  Definition open_prog (name : bytes) : prog (res ref) :=
    match parse her name with
    | None => Ret (Err (EPath (B"open") name))
    | Some pt =>
        bind (look (fun m => m_files m !! pt))
          (fun x => match x with
             | None => Ret (Err ENotExist)
             | Some r =>
                 bind (look (fun m => f_info <$> m_heap m !! r))
                   (fun i => match i with
                      | None => Ret (Err EBadHandle)
                      | Some i =>
                          act (fun m =>
                            match m_heap m !! r with
                            | None => (m, Err EBadHandle)
                            | Some f =>
                                let '(m, h) := alloc m
                                  (FObj (f_here f) (new_file_info i) (f_path f) (f_data f) zero_path None None) in
                                (m, Ok h)
                            end)
                      end)
             end)
    end.

  (** File.Write, file.go:85-91: the buffer belongs to the handle. *)
  Definition write_prog (r : ref) (b : bytes) : prog (nat * option gerr) :=
    act (fun m => file_write m r b).

  (** Changing one field of a File. *)
  Definition set_obj (r : ref) (g : fobj -> fobj) (m : mem) : mem :=
    match m_heap m !! r with None => m | Some f => upd m r (g f) end.
  Definition set_data (b : bytes) (f : fobj) : fobj :=
    FObj (f_here f) (f_info f) (f_path f) b (f_parent f) (f_writer f) (f_reader f).
  Definition set_info (g : details -> details) (f : fobj) : fobj :=
    FObj (f_here f) (g (f_info f)) (f_path f) (f_data f) (f_parent f) (f_writer f) (f_reader f).
  Definition set_closed (f : fobj) : fobj :=
    FObj (f_here f) (f_info f) (f_path f) (f_data f) (f_parent f) None None.

  (** File.Close, file.go:45-69: data (:62), size (:65) and time (:66) are set
      one after the other, then the reader and writer are dropped (:46-49). *)
  Definition close_prog (now : gotime) (r : ref) : prog (option gerr) :=
    bind (look (fun m => m_heap m !! r))
      (fun x => match x with
         | None => Ret (Some EBadHandle)
         | Some f =>
             match f_writer f with
             | None => act (fun m => (set_obj r set_closed m, None))
             | Some w =>
                 bind (act (fun m => (set_obj r (set_data w) m, ())))
                   (fun _ => bind (act (fun m => (set_obj r (set_info (fun i =>
                               Details (d_name i) (Z.of_nat (length w)) (d_mode i) (d_mtime i) (d_isdir i) (d_sys i))) m, ())))
                   (fun _ => bind (act (fun m => (set_obj r (set_info (fun i =>
                               Details (d_name i) (d_size i) (d_mode i) now (d_isdir i) (d_sys i))) m, ())))
                   (fun _ => act (fun m => (set_obj r set_closed m, None)))))
             end
         end).

  (** The loop of Pkger.Walk, mem.go:216-250: a Load per key, then its info is
      read.  The callback [f] runs without touching the pkger. *)
  Fixpoint walk_prog_loop {S} (f : bytes -> details -> S -> S * option gerr) (pt : path) (keys : list path)
      (skip : bytes) (s : S) : prog (S * option gerr) :=
    match keys with
    | [] => Ret (s, None)
    | k :: keys =>
        if negb (bool_decide (p_pkg k = p_pkg pt)) then walk_prog_loop f pt keys skip s
        else if negb (has_prefix (p_name k) (p_name pt)) then walk_prog_loop f pt keys skip s
        else if has_prefix (p_name k) skip then walk_prog_loop f pt keys skip s
        else
          bind (look (fun m => m_files m !! k))
            (fun x => match x with
               | None => Ret (s, Some ENotExist)
               | Some r =>
                   bind (look (fun m => f_info <$> m_heap m !! r))
                     (fun i => match i with
                        | None => Ret (s, Some ENotExist)
                        | Some i =>
                            let '(s, e) := f (path_string k) (new_file_info i) s in
                            match e with
                            | Some ESkipDir => walk_prog_loop f pt keys (p_name k) s
                            | Some e => Ret (s, Some e)
                            | None => walk_prog_loop f pt keys skip s
                            end
                        end)
               end)
    end.

  (** sync.Map.Range over the keys [ks], collecting those found; Files.Keys,
      internal/maps/files.go:110-120. *)
  Fixpoint range_prog (ks : list path) : prog (list path) :=
    match ks with
    | [] => Ret []
    | k :: ks =>
        bind (look (fun m => m_files m !! k))
          (fun x => bind (range_prog ks) (fun l => Ret (match x with None => l | Some _ => k :: l end)))
    end.
  Definition keys_prog (cand : mem -> list path) : prog (list path) :=
    bind (look cand) (fun ks => bind (range_prog ks) (fun l => Ret (merge_sort key_le l))).

  (** Pkger.Walk, mem.go:208-252: Keys (:209) comes first. *)
  Definition walk_prog {S} (cand : mem -> list path) (p : bytes) (f : bytes -> details -> S -> S * option gerr) (s : S) :
      prog (S * option gerr) :=
    bind (keys_prog cand)
      (fun keys => match parse her p with
                   | None => Ret (s, Some EParse)
                   | Some pt => walk_prog_loop f pt keys (B"!") s
                   end).

  (** Pkger.RemoveAll, mem.go:71-85: Range, with a Delete for each key found that
      has the prefix. *)
  Fixpoint delete_prog (pt : path) (ks : list path) : prog (option gerr) :=
    match ks with
    | [] => Ret None
    | k :: ks =>
        bind (look (fun m => m_files m !! k))
          (fun x => match x with
             | None => delete_prog pt ks
             | Some _ =>
                 if has_prefix (p_name k) (p_name pt)
                 then bind (act (fun m => (delete_key m k, ()))) (fun _ => delete_prog pt ks)
                 else delete_prog pt ks
             end)
    end.
  Definition remove_all_prog (cand : mem -> list path) (name : bytes) : prog (option gerr) :=
    match parse her name with
    | None => Ret (Some EParse)
    | Some pt => bind (look cand) (delete_prog pt)
    end.

  (** Creating one file: Create, the writes, Close. *)
  Fixpoint writes_prog (r : ref) (ws : list bytes) : prog () :=
    match ws with
    | [] => Ret ()
    | w :: ws => bind (write_prog r w) (fun _ => writes_prog r ws)
    end.
  Definition make_prog (now : gotime) (name : bytes) (ws : list bytes) : prog bool :=
    bind (create_prog now name)
      (fun x => match x with
                | Err _ => Ret false
                | Ok r => bind (writes_prog r ws) (fun _ => bind (close_prog now r) (fun _ => Ret true))
                end).

  (** A goroutine creating directories and files one after the other. *)
  Fixpoint work_prog (now : gotime) (l : list job) : prog (list bool) :=
    match l with
    | [] => Ret []
    | j :: l =>
        bind (match j with
              | JDir p perm => bind (mkdir_prog (mk_fuel p) now p perm) (fun e => Ret (bool_decide (e = None)))
              | JFile name ws => make_prog now name ws
              end) (fun b => bind (work_prog now l) (fun bs => Ret (b :: bs)))
    end.

  (** A goroutine reading a file: Open, Stat of the handle, Reads and Seeks,
      Close.  Nobody else has the handle, so a Read (file.go:72-82) or Seek
      (file.go:33-42) of it is one step. *)
  Definition cursor_call (h : ref) (c : cursor_op) : op :=
    match c with CRead n => ORead h n | CSeek off wh => OSeek h off wh end.
  Fixpoint uses_prog (now : gotime) (h : ref) (cs : list cursor_op) : prog (list resp) :=
    match cs with
    | [] => Ret []
    | c :: cs =>
        bind (act (fun m => step parse m (now, cursor_call h c)))
          (fun x => bind (uses_prog now h cs) (fun xs => Ret (x :: xs)))
    end.
  Definition read_prog (now : gotime) (name : bytes) (cs : list cursor_op) : prog (res (option details * list resp)) :=
    bind (open_prog name)
      (fun x => match x with
         | Err e => Ret (Err e)
         | Ok h =>
             bind (look (fun m => f_info <$> m_heap m !! h))
               (fun d => bind (uses_prog now h cs)
               (fun xs => bind (close_prog now h) (fun _ => Ret (Ok (d, xs)))))
         end).

  (** What the goroutines of a program may be busy with. *)
  Definition note (n : bytes) (d : details) (l : list (bytes * details)) : list (bytes * details) * option gerr :=
    (l ++ [(n, d)], None).
  Definition task_prog (t : task) : prog answer :=
    match t with
    | TMake now l => bind (work_prog now l) (fun bs => Ret (AMade bs))
    | TRead now name cs => bind (read_prog now name cs) (fun x => Ret (ARead x))
    | TWalk cand p => bind (walk_prog cand p note []) (fun x => Ret (AWalk x.1 x.2))
    end.
End Calls.

(** ** Without interference: the sequential model *)

Lemma alone_bind {A C} (p : prog A) (k : A -> prog C) m :
  alone (bind p k) m = let '(m', a) := alone p m in alone (k a) m'.
Proof. revert m. induction p as [a|f q IH]; intros m; cbn [bind alone]; [done|]. apply IH. Qed.

Lemma alone_mkdir parse fuel now m p perm :
  alone (mkdir_prog parse (m_here m) fuel now p perm) m = mkdir_all parse fuel now m p perm /\
  m_here (mkdir_all parse fuel now m p perm).1 = m_here m.
Proof.
  revert p. induction fuel as [|fuel IH]; intros p; cbn [mkdir_prog mkdir_all]; [done|].
  unfold mem_parse. destruct (parse (m_here m) p) as [pt|]; [|done].
  destruct (path_split (p_name pt)) as [dir name]. rewrite alone_bind.
  destruct (bool_decide (dir = B"/")); [done|].
  destruct (IH dir) as [-> Hh]. destruct (mkdir_all parse fuel now m dir perm) as [m1 [e|]]; [done|].
  cbn in *. by rewrite Hh.
Qed.

Lemma alone_stat parse m name : alone (stat_prog parse (m_here m) name) m = (m, stat parse m name).
Proof. unfold stat_prog, stat, mem_parse. by destruct (parse (m_here m) name). Qed.

Lemma alone_create parse now m name :
  alone (create_prog parse (m_here m) now name) m = create parse now m name.
Proof.
  unfold create_prog, create. rewrite alone_bind.
  destruct (alone_mkdir parse (mk_fuel (B"/")) now m (B"/") 493) as [-> Hh].
  destruct (mkdir_all parse (mk_fuel (B"/")) now m (B"/") 493) as [m1 e0]. cbn [fst] in Hh.
  destruct (bool_decide (e0 = Some EFuel)); [done|]. unfold mem_parse. rewrite <- Hh.
  destruct (parse (m_here m1) name) as [pt|]; [|done]. rewrite alone_bind. cbn [look alone].
  destruct (mem_info m1 (p_pkg pt)) as [h|e]; [|done]. rewrite alone_bind.
  destruct (bool_decide (dirname (p_name pt) = B"/")); [done|].
  rewrite alone_stat. by destruct (stat parse m1 (dirname (p_name pt))).
Qed.

Lemma alone_remove parse m name : alone (remove_prog parse (m_here m) name) m = remove parse m name.
Proof.
  unfold remove_prog, remove, mem_parse. destruct (parse (m_here m) name) as [pt|]; [|done].
  rewrite alone_bind. cbn [look alone]. by destruct (m_files m !! pt).
Qed.

Lemma alone_open parse m name : wf m -> alone (open_prog parse (m_here m) name) m = open parse m name.
Proof.
  intros Hw. unfold open_prog, open, mem_parse, file_at. destruct (parse (m_here m) name) as [pt|]; [|done].
  rewrite alone_bind. cbn [look alone]. destruct (m_files m !! pt) as [r|] eqn:E; [|done].
  destruct (wf_files m Hw _ _ E) as [f Hf]. rewrite alone_bind. cbn [look alone mbind option_bind].
  rewrite Hf. cbn. by rewrite Hf.
Qed.

Lemma upd_upd m r f g : upd (upd m r f) r g = upd m r g.
Proof. unfold upd. cbn. by rewrite insert_insert. Qed.

Lemma set_obj_some r g m f : m_heap m !! r = Some f -> set_obj r g m = upd m r (g f).
Proof. unfold set_obj. by intros ->. Qed.
Lemma heap_upd m r f : m_heap (upd m r f) !! r = Some f.
Proof. unfold upd. cbn. by rewrite lookup_insert. Qed.

Lemma alone_close now m r : alone (close_prog now r) m = file_close now m r.
Proof.
  unfold close_prog, file_close. rewrite alone_bind. cbn [look alone].
  destruct (m_heap m !! r) as [f|] eqn:Hf; [|done]. destruct (f_writer f) as [w|].
  - rewrite !alone_bind. cbn [act alone fst snd]. rewrite !alone_bind. cbn [act alone fst snd].
    rewrite !alone_bind. cbn [act alone fst snd].
    rewrite (set_obj_some r _ m f Hf). rewrite (set_obj_some r _ _ _ (heap_upd _ _ _)), upd_upd.
    rewrite (set_obj_some r _ _ _ (heap_upd _ _ _)), upd_upd.
    rewrite (set_obj_some r _ _ _ (heap_upd _ _ _)), upd_upd. done.
  - cbn [act alone fst snd]. by rewrite (set_obj_some r _ m f Hf).
Qed.

Lemma alone_remove_all parse cand m name : candidates cand ->
  alone (remove_all_prog parse (m_here m) cand name) m = remove_all parse m name.
Proof.
  intros Hc. unfold remove_all_prog, remove_all, mem_parse. destruct (parse (m_here m) name) as [pt|]; [|done].
  rewrite alone_bind. cbn [look alone].
  assert (H : forall ks m0, alone (delete_prog pt ks) m0 =
    (set_files m0 (filter (fun kv => kv.1 ∉ ks \/ has_prefix (p_name kv.1) (p_name pt) = false) (m_files m0)), None)).
  { induction ks as [|k ks IH]; intros m0; cbn [delete_prog].
    - cbn [alone]. f_equal. rewrite map_filter_id; [by destruct m0|]. intros i x _. left. apply not_elem_of_nil.
    - rewrite alone_bind. cbn [look alone].
      assert (Hsame : m_files m0 !! k = None \/ has_prefix (p_name k) (p_name pt) = false ->
        alone (delete_prog pt ks) m0 =
        (set_files m0 (filter (fun kv => kv.1 ∉ k :: ks \/ has_prefix (p_name kv.1) (p_name pt) = false) (m_files m0)), None)).
      { intros Hk. rewrite IH. f_equal. unfold set_files. f_equal. apply map_eq. intros i. apply option_eq. intros x.
        rewrite !map_filter_lookup_Some. cbn. rewrite not_elem_of_cons. split; intros [H1 H2]; (split; [done|]); [|tauto].
        destruct (decide (i = k)) as [->|Hn]; [|tauto]. destruct Hk as [Hk|Hk]; [congruence|by right]. }
      destruct (m_files m0 !! k) as [r|] eqn:Hk; [|apply Hsame; by left].
      destruct (has_prefix (p_name k) (p_name pt)) eqn:Hp; [|apply Hsame; by right].
      rewrite alone_bind. cbn [act alone fst snd]. rewrite IH. f_equal. unfold delete_key, set_files. cbn.
      f_equal. apply map_eq. intros i. apply option_eq. intros x.
      rewrite !map_filter_lookup_Some. cbn. rewrite lookup_delete_Some, not_elem_of_cons.
      split; [intros [[? ?] ?]; split; [done|]; naive_solver|]. intros [H1 [[H2 H3]|H2]]; [auto|].
      split; [|by right]. split; [|done]. intros ->. congruence. }
  rewrite H. f_equal. unfold set_files. f_equal. apply map_eq. intros i. apply option_eq. intros x.
  rewrite !map_filter_lookup_Some. cbn. split; intros [H1 H2]; (split; [done|]); [|by right].
  destruct H2 as [H2|H2]; [|done]. destruct H2. destruct (Hc m) as [_ Hall]. apply Hall. by exists x.
Qed.

Lemma alone_range ks m : alone (range_prog ks) m = (m, filter (fun k => is_Some (m_files m !! k)) ks).
Proof.
  induction ks as [|k ks IH]; cbn [range_prog]; [done|]. rewrite alone_bind. cbn [look alone]. rewrite alone_bind, IH.
  cbn [alone]. rewrite filter_cons. destruct (m_files m !! k) as [r|].
  - by rewrite decide_True by (by exists r).
  - rewrite decide_False; [done|]. by intros [??].
Qed.
Lemma keys_now_candidates : candidates keys_now.
Proof.
  intros m. unfold keys_now. split; [apply NoDup_elements|]. intros k Hk. apply elem_of_elements. by apply elem_of_dom.
Qed.
Lemma alone_keys m : alone (keys_prog keys_now) m = (m, sorted_keys m).
Proof.
  unfold keys_prog. rewrite alone_bind. cbn [look alone]. rewrite alone_bind, alone_range. cbn [alone].
  unfold sorted_keys, keys_now. f_equal. f_equal.
  assert (H : Forall (fun k => is_Some (m_files m !! k)) (elements (dom (m_files m)))).
  { apply Forall_forall. intros k Hk. apply elem_of_dom. by apply elem_of_elements in Hk. }
  induction H as [|k ks Hk _ IH]; [done|]. by rewrite filter_cons_True, IH by done.
Qed.

Lemma alone_walk_loop {S} (f : bytes -> details -> S -> S * option gerr) pt keys skip s m :
  wf m ->
  alone (walk_prog_loop f pt keys skip s) m =
  let '((s', m'), e) := walk_loop (fun n d s m => let '(s, e) := f n d s in ((s, m), e)) pt keys skip s m in (m', (s', e)).
Proof.
  intros Hw. revert skip s. induction keys as [|k keys IH]; intros skip s; cbn [walk_prog_loop walk_loop]; [done|].
  destruct (negb (bool_decide (p_pkg k = p_pkg pt))); [apply IH|].
  destruct (negb (has_prefix (p_name k) (p_name pt))); [apply IH|].
  destruct (has_prefix (p_name k) skip); [apply IH|].
  rewrite alone_bind. cbn [look alone]. unfold file_at.
  destruct (m_files m !! k) as [r|] eqn:E; [|done]. destruct (wf_files m Hw _ _ E) as [o Ho].
  rewrite alone_bind. cbn [look alone mbind option_bind]. rewrite Ho. cbn [fmap option_fmap option_map].
  destruct (f (path_string k) (new_file_info (f_info o)) s) as [s1 [[]|]]; try done; apply IH.
Qed.

Lemma alone_walk {S} parse (f : bytes -> details -> S -> S * option gerr) m p s :
  wf m ->
  alone (walk_prog parse (m_here m) keys_now p f s) m =
  let '((s', m'), e) := walk parse m p (fun n d s m => let '(s, e) := f n d s in ((s, m), e)) s in (m', (s', e)).
Proof.
  intros Hw. unfold walk_prog, walk, mem_parse. rewrite alone_bind, alone_keys.
  destruct (parse (m_here m) p) as [pt|]; [|done]. by apply alone_walk_loop.
Qed.
