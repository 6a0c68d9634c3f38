(** Theorems: file contents, handles, Stat, Remove (C01-C13, C45).
    [parse] is any path resolver (here.Info.Parse); [reachable parse m] is any
    state a program can bring the in-memory pkger into. *)
From Verif Require Import Bytes GoPath Here GoTypes Mem MemSpec MemBase MemFiles MemFiles2.

Definition t0 : gotime := GoTime 0 0 0.
Definition t1 : gotime := GoTime 1 0 0.
Definition new_ex : mem := mem_new her_ex.
Definition after (cs : list op) : mem := (run here_parse new_ex ((fun o => (t0, o)) <$> cs)).1.

(** *** C01 *)

(** Whatever happens between Create, the writes, Close and the Open - as long
    as no call replaces or removes the entry and the handle is closed once -
    the content is the concatenation of the data written. *)
Theorem C01_roundtrip parse m name now m1 h pt cs1 now2 cs2 name2 :
  reachable parse m ->
  create parse now m name = (m1, Ok h) ->
  parse (m_here m) name = Some pt -> parse (m_here m) name2 = Some pt ->
  Forall (fun c => ~ disturbs parse (m_here m) pt c.2 /\ c.2 <> OClose h) cs1 ->
  Forall (fun c => ~ disturbs parse (m_here m) pt c.2 /\ c.2 <> OClose h) cs2 ->
  exists m3 h3,
    open parse (run parse m1 (cs1 ++ (now2, OClose h) :: cs2)).1 name2 = (m3, Ok h3) /\
    (written h cs1 <> [] -> forall ns, read_seq m3 h3 ns = reads_of (written h cs1) ns) /\
    (written h cs1 = [] -> forall ns, Forall (fun x => x.1 = []) (read_seq m3 h3 ns)).
Proof.
  intros Hr Hc Hp Hp2 H1 H2.
  destruct (created_content parse m name now m1 h cs1 now2 cs2 name2 pt) as (d & Hs & _);
    try done; try (by eapply reachable_wf); unfold undisturbed;
    try (eapply Forall_impl; [eassumption|naive_solver]).
  destruct (seen_open _ _ _ _ _ Hs) as (m3 & h3 & f & Ho & Hf & _ & Hd & _ & Hrd).
  exists m3, h3. split_and!; [done|..].
  - intros Hn ns. rewrite <- Hd. by apply read_seq_fresh; rewrite ?Hd.
  - intros Hn ns. rewrite (read_seq_empty m3 h3 f ns Hf Hrd) by congruence.
    by apply Forall_replicate.
Qed.

(** ... and reading with enough non-empty buffers returns all of it. *)
Theorem C01_read_all content ns :
  Forall (fun n => 0 < n) ns -> length content <= length ns ->
  concat (fst <$> reads_of content ns) = content.
Proof. apply reads_of_concat. Qed.

(* Non-vacuity: interleaved handles, a decoy file, odd buffer sizes. *)
Example C01_ex :
  let '(m1, h) := (step here_parse new_ex (t0, OCreate (B"/a.txt"))) in
  h = RRef (Ok 1) /\
  let cs1 := [(t0, OWrite 1 (B"hel")); (t0, OCreate (B"/b")); (t0, OWrite 3 (B"zz")); (t0, OWrite 1 (B"lo"))] in
  let cs2 := [(t0, OClose 3); (t0, ORemove (B"/b"))] in
  let m2 := (run here_parse m1 (cs1 ++ (t1, OClose 1) :: cs2)).1 in
  let '(m3, h3) := open here_parse m2 (B"app:/a.txt") in
  h3 = Ok 4 /\ read_seq m3 4 [2;2;2;2] =
    [(B"he", None); (B"ll", None); (B"o", None); ([], Some EEOF)].
Proof. by vm_compute. Qed.

(* The hypotheses of C01 hold of that run. *)
Example C01_hyps :
  forall c, c ∈ [(t0, OWrite 1 (B"hel")); (t0, OCreate (B"/b")); (t0, OWrite 3 (B"zz"))] ->
    ~ disturbs here_parse her_ex (Path (B"app") (B"/a.txt")) c.2 /\ c.2 <> OClose 1.
Proof.
  intros c Hc. repeat (apply elem_of_cons in Hc as [->|Hc]); try (by apply elem_of_nil in Hc);
    (split; [|done]); simpl; try tauto.
  intros [H|H]; [by vm_compute in H|].
  inversion H as [p pt Hp|p pt q Hp Hn Hm]; subst; vm_compute in Hp; [done|].
  injection Hp as <-. by apply Hn.
Qed.

(** *** C02 *)

(** Full claim: "once all bytes have been delivered every further Read returns
    0 bytes and io.EOF, including for a file with no bytes at all".
    Proved for non-empty files (a corollary of C03 as well); refuted for empty
    ones: Read then fails with another error. *)
Theorem C02_eof_partial parse m name d b m1 h ns ms :
  reachable parse m -> seen parse m name = Some (d, b) -> b <> [] ->
  open parse m name = (m1, Ok h) ->
  concat (fst <$> read_seq m1 h ns) = b ->
  drop (length ns) (read_seq m1 h (ns ++ ms)) = replicate (length ms) ([], Some EEOF).
Proof.
  intros Hr Hs Hb Ho. destruct (seen_open _ _ _ _ _ Hs) as (m' & h' & f & Ho' & Hf & _ & Hd & _ & Hrd).
  rewrite Ho in Ho'. injection Ho' as <- <-.
  rewrite !(read_seq_fresh m1 h f) by congruence. rewrite Hd. apply reads_of_eof.
Qed.

Example C02_eof_ex :
  let m := after [OCreate (B"/a"); OWrite 1 (B"xyz"); OClose 1] in
  seen here_parse m (B"/a") = Some (Details (B"a") 3 420 t0 false JNull, B"xyz") /\
  let '(m1, _) := open here_parse m (B"/a") in
  read_seq m1 2 [2;1;0;5;1] = [(B"xy", None); (B"z", None); ([], Some EEOF); ([], Some EEOF); ([], Some EEOF)].
Proof. by vm_compute. Qed.

Theorem C02_eof_empty_refuted :
  exists m name d m1 h,
    reachable here_parse m /\ seen here_parse m name = Some (d, []) /\
    d_isdir d = false /\ d_size d = 0%Z /\
    open here_parse m name = (m1, Ok h) /\
    (file_read m1 h 8).2 = ([], Some (EMsg unable_to_read)).
Proof.
  exists (after [OCreate (B"/a"); OWrite 1 []; OClose 1]), (B"/a"), (Details (B"a") 0 420 t0 false JNull).
  eexists _, _. split; [apply reachable_run, reach_new|].
  split; [by vm_compute|]. split; [done|]. split; [done|]. split; [by vm_compute|]. by vm_compute.
Qed.

(** *** C03, C04 *)

(** The answers to all Read and Seek calls on an opened handle, within any
    history of API calls on the same pkger (not closing the handle), are those
    of a cursor over the content at the time of Open. *)
Theorem C03_C04_cursor_snapshot parse m name d b m1 h cs :
  reachable parse m -> seen parse m name = Some (d, b) -> b <> [] ->
  open parse m name = (m1, Ok h) ->
  Forall (fun c => c.2 <> OClose h) cs ->
  cursor_answers h cs (run parse m1 cs).2 = cursor_run b 0 (cursor_calls h cs).
Proof.
  intros Hr Hs Hb Ho HF. pose proof (reachable_wf _ _ Hr) as Hw.
  destruct (seen_open _ _ _ _ _ Hs) as (m' & h' & f & Ho' & Hf & _ & Hd & _ & Hrd).
  rewrite Ho in Ho'. injection Ho' as <- <-.
  destruct (open_unstored _ _ _ _ _ Hw Ho) as (_ & _ & Hw1 & _).
  apply (cursor_run_handle parse m1 cs h f); try done.
  unfold cur_reader. rewrite Hrd, Hd. by destruct b.
Qed.

(** For a file without content the full claim of C03 ("any interleaving of Read
    and Seek calls returns exactly what a cursor over the immutable content
    would") fails: every Read reports an error other than io.EOF and every Seek
    answers position 0 without error, whatever it was asked. *)
Theorem C03_empty parse m name d m1 h cs :
  reachable parse m -> seen parse m name = Some (d, []) ->
  open parse m name = (m1, Ok h) ->
  Forall (fun c => c.2 <> OClose h) cs ->
  cursor_answers h cs (run parse m1 cs).2 =
  (fun c => match c with
            | CRead _ => RBytes [] (Some (EMsg unable_to_read))
            | CSeek _ _ => RNum 0 None
            end) <$> cursor_calls h cs.
Proof.
  intros Hr Hs Ho HF. pose proof (reachable_wf _ _ Hr) as Hw.
  destruct (seen_open _ _ _ _ _ Hs) as (m' & h' & f & Ho' & Hf & _ & Hd & _ & Hrd).
  rewrite Ho in Ho'. injection Ho' as <- <-.
  destruct (open_unstored _ _ _ _ _ Hw Ho) as (_ & _ & Hw1 & _).
  apply (cursor_run_empty parse m1 cs h f); try done.
  unfold cur_reader. by rewrite Hrd, Hd.
Qed.

Theorem C03_empty_refuted :
  exists m name d m1 h,
    reachable here_parse m /\ seen here_parse m name = Some (d, []) /\
    open here_parse m name = (m1, Ok h) /\
    (* a negative position, an unknown whence and a position past the end are
       all answered with "now at 0" *)
    (step here_parse m1 (t0, OSeek h (-1) 0)).2 = RNum 0 None /\
    (step here_parse m1 (t0, OSeek h 0 7)).2 = RNum 0 None /\
    (step here_parse m1 (t0, OSeek h 5 0)).2 = RNum 0 None /\
    cursor_run [] 0 [CSeek (-1) 0; CSeek 0 7; CSeek 5 0] =
      [RNum 0 (Some ENegSeek); RNum 0 (Some EWhence); RNum 5 None].
Proof.
  exists (after [OCreate (B"/a"); OWrite 1 []; OClose 1]), (B"/a"), (Details (B"a") 0 420 t0 false JNull).
  eexists _, _. split; [apply reachable_run, reach_new|].
  split; [by vm_compute|]. split; [by vm_compute|]. by vm_compute.
Qed.

(** The info reported by the handle is a snapshot too. *)
Theorem C04_info_snapshot parse m name d b m1 h cs :
  reachable parse m -> seen parse m name = Some (d, b) ->
  open parse m name = (m1, Ok h) ->
  Forall (fun c => c.2 <> OClose h) cs ->
  info_at (run parse m1 cs).1 h = Some d.
Proof.
  intros Hr Hs Ho HF. pose proof (reachable_wf _ _ Hr) as Hw.
  destruct (seen_open _ _ _ _ _ Hs) as (m' & h' & f & Ho' & Hf & Hi & _).
  rewrite Ho in Ho'. injection Ho' as <- <-.
  destruct (open_unstored _ _ _ _ _ Hw Ho) as (_ & _ & Hw1 & _).
  unfold info_at. rewrite (run_handle parse m1 cs h f Hw1 Hf). simpl.
  destruct (fobj_run_keep h cs f HF) as (-> & _). by rewrite Hi.
Qed.

Example C03_C04_ex :
  let m := after [OCreate (B"/a"); OWrite 1 (B"abcdef"); OClose 1] in
  let '(m1, _) := open here_parse m (B"/a") in
  let cs := (fun o => (t0, o)) <$>
     [ORead 2 2; OCreate (B"/a"); OSeek 2 (-1) 2; ORemoveAll (B"/"); ORead 2 5; OSeek 2 (-9) 1;
      OWrite 1 (B"XX"); OClose 1; OSeek 2 1 0; ORead 2 3] in
  cursor_answers 2 cs (run here_parse m1 cs).2 =
    [RBytes (B"ab") None; RNum 5 None; RBytes (B"f") None; RNum 0 (Some ENegSeek);
     RNum 1 None; RBytes (B"bcd") None].
Proof. by vm_compute. Qed.

(** *** C05 *)

(** Until the created handle is closed, the name shows the empty file made by
    Create, whatever is written. *)
Theorem C05_invisible_before_close parse m name now m1 h pt cs name2 :
  reachable parse m ->
  create parse now m name = (m1, Ok h) ->
  parse (m_here m) name = Some pt -> parse (m_here m) name2 = Some pt ->
  Forall (fun c => ~ disturbs parse (m_here m) pt c.2 /\ c.2 <> OClose h) cs ->
  exists d, seen parse (run parse m1 cs).1 name2 = Some (d, []) /\ d_size d = 0%Z.
Proof.
  intros Hr Hc Hp Hp2 HF. pose proof (reachable_wf _ _ Hr) as Hw.
  destruct (create_file _ _ _ _ _ _ Hw Hc) as (pt' & her & Hp' & _ & Hfi & Hh & Hw1 & _ & Hf).
  assert (pt' = pt) as -> by congruence.
  assert (HU : undisturbed parse (m_here m1) pt cs).
  { rewrite Hh. eapply Forall_impl; [exact HF|]. naive_solver. }
  assert (HN : Forall (not_close h) cs).
  { eapply Forall_impl; [exact HF|]. unfold not_close. naive_solver. }
  pose proof (run_files_keep parse m1 cs pt Hw1 HU) as Hfi2. rewrite Hfi in Hfi2.
  pose proof (run_handle parse m1 cs h _ Hw1 Hf) as Hrun.
  assert (Hp3 : parse (m_here (run parse m1 cs).1) name2 = Some pt)
    by (by rewrite (fr_here _ _ _ _ _ (frame_run parse m1 cs Hw1)), Hh).
  rewrite (seen_handle parse _ name2 pt h _ Hp3 Hfi2 Hrun).
  match goal with |- context [fobj_run h cs ?f0] =>
    destruct (fobj_run_keep h cs f0 HN) as (-> & -> & _) end. by eexists.
Qed.

(** More generally no call but Close of the stored handle, or one that
    replaces or removes the entry, changes what a name shows. *)
Theorem C05_only_close_publishes parse m c name pt :
  reachable parse m -> parse (m_here m) name = Some pt ->
  ~ disturbs parse (m_here m) pt c.2 ->
  (forall h, stat parse m name = Ok h -> c.2 <> OClose h) ->
  seen parse (step parse m c).1 name = seen parse m name.
Proof.
  intros Hr Hp Hd Hn. apply (seen_step parse m c name pt); try done; [by eapply reachable_wf|].
  intros h Hh. apply Hn. unfold stat, mem_parse. by rewrite Hp, Hh.
Qed.

Example C05_ex :
  let m := after [OCreate (B"/a"); OWrite 1 (B"new")] in
  seen here_parse m (B"/a") = Some (Details (B"a") 0 420 t0 false JNull, []) /\
  seen here_parse (step here_parse m (t1, OClose 1)).1 (B"/a")
    = Some (Details (B"a") 3 420 t1 false JNull, B"new").
Proof. by vm_compute. Qed.

(** *** C06 *)

(** At any later time, no call on a handle that Open returned changes what any
    name shows. *)
Theorem C06_open_read_only parse m name m1 h cs c name2 :
  reachable parse m -> open parse m name = (m1, Ok h) -> uses h c.2 ->
  let m2 := (run parse m1 cs).1 in
  seen parse (step parse m2 c).1 name2 = seen parse m2 name2 /\
  stat parse (step parse m2 c).1 name2 = stat parse m2 name2 /\
  (forall h', h' <> h -> h' < m_next m2 ->
     m_heap (step parse m2 c).1 !! h' = m_heap m2 !! h').
Proof.
  intros Hr Ho Hu m2. pose proof (reachable_wf _ _ Hr) as Hw.
  destruct (open_unstored _ _ _ _ _ Hw Ho) as (Hun & Hlt & Hw1 & _).
  pose proof (fr_wf _ _ _ _ _ (frame_run parse m1 cs Hw1)) as Hw2.
  pose proof (unstored_run parse m1 cs h Hw1 Hlt Hun) as Hun2. fold m2 in Hw2, Hun2.
  pose proof (frame_step parse m2 c Hw2) as Hf. split_and!.
  - by apply (unstored_use parse m2 c h).
  - unfold stat, mem_parse. rewrite (fr_here _ _ _ _ _ Hf).
    destruct (parse (m_here m2) name2) as [pt|]; [|done].
    by rewrite (fr_files _ _ _ _ _ Hf) by (by eapply uses_no_disturb).
  - intros h' Hne Hlt'. apply (fr_heap _ _ _ _ _ Hf); [|done].
    intros Hu'. apply Hne. destruct (c.2); simpl in *; naive_solver.
Qed.

Example C06_ex :
  let m := after [OCreate (B"/a"); OWrite 1 (B"abc"); OClose 1; OOpen (B"/a"); OWrite 2 (B"EVIL"); OClose 2] in
  seen here_parse m (B"/a") = Some (Details (B"a") 3 420 t0 false JNull, B"abc").
Proof. by vm_compute. Qed.

(** *** C07 *)

(** Full claim: "After Close, Read, Write and Seek on the same handle do not
    succeed".  Refuted: the handle stays fully usable; writing to it and
    closing it again even replaces the stored content. *)
Theorem C07_refuted :
  exists m h, reachable here_parse m /\
    (exists m0, reachable here_parse m0 /\ m = (file_close t0 m0 h).1 /\ (file_close t0 m0 h).2 = None) /\
    (file_read m h 2).2 = (B"ab", None) /\
    (file_seek m h 1 0).2 = (1%Z, None) /\
    (file_write m h (B"zz")).2 = (2, None) /\
    seen here_parse m (B"/a") = Some (Details (B"a") 3 420 t0 false JNull, B"abc") /\
    seen here_parse (file_close t1 (file_write m h (B"zz")).1 h).1 (B"/a")
      = Some (Details (B"a") 2 420 t1 false JNull, B"zz").
Proof.
  exists (after [OCreate (B"/a"); OWrite 1 (B"abc"); OClose 1]), 1.
  split; [apply reachable_run, reach_new|]. split.
  - exists (after [OCreate (B"/a"); OWrite 1 (B"abc")]). split; [apply reachable_run, reach_new|].
    by vm_compute.
  - by vm_compute.
Qed.

(** *** C08 *)

(** In every state built by API calls (Add recording true sizes), the size of
    a file is the length of its content. *)
Theorem C08_size parse her cs name d b :
  Forall (fun c => honest c.2) cs ->
  seen parse (run parse (mem_new her) cs).1 name = Some (d, b) -> d_isdir d = false ->
  d_size d = Z.of_nat (length b).
Proof.
  intros HF Hs Hd.
  assert (H : sizes_ok (run parse (mem_new her) cs).1).
  { apply sizes_run; [|done]. intros r f. simpl. by rewrite lookup_empty. }
  rewrite seen_alt in Hs. destruct (parse _ name) as [pt|]; [|done]. simpl in Hs.
  destruct (file_at _ pt) as [f|] eqn:E; [|done]. simpl in Hs. injection Hs as <- <-.
  unfold file_at in E. destruct (m_files _ !! pt) as [r|]; [|done]. simpl in E.
  by apply (H r f).
Qed.

Example C08_ex :
  let m := after [OCreate (B"/a"); OWrite 1 (B"abc"); OClose 1; OWrite 1 (B"pending")] in
  seen here_parse m (B"/a") = Some (Details (B"a") 3 420 t0 false JNull, B"abc").
Proof. by vm_compute. Qed.

(** *** C09 *)

Theorem C09_open_stat parse m name :
  reachable parse m ->
  (forall d b, seen parse m name = Some (d, b) ->
     exists r, stat parse m name = Ok r /\ info_at m r = Some d) /\
  (forall r, stat parse m name = Ok r ->
     exists m1 h d, open parse m name = (m1, Ok h) /\ file_stat m1 h = Ok h /\
       info_at m1 h = Some d /\ info_at m r = Some d).
Proof.
  intros Hr. pose proof (reachable_wf _ _ Hr) as Hw. split.
  - intros d b. rewrite seen_alt. unfold stat, mem_parse.
    destruct (parse (m_here m) name) as [pt|]; [|done]. simpl. unfold file_at.
    destruct (m_files m !! pt) as [r|]; [|done]. simpl.
    destruct (m_heap m !! r) as [f|] eqn:E; [|done]. simpl. intros [= <- _].
    exists r. split; [done|]. unfold info_at. by rewrite E.
  - intros r. unfold stat, open, mem_parse.
    destruct (parse (m_here m) name) as [pt|]; [|done]. unfold file_at.
    destruct (m_files m !! pt) as [r'|] eqn:Er; [|done]. simpl. intros [= ->].
    destruct (wf_files m Hw _ _ Er) as [f Hf]. rewrite Hf. simpl.
    eexists _, _, (f_info f). split; [done|]. unfold file_stat, info_at. simpl.
    rewrite lookup_insert, Hf. simpl. by rewrite new_file_info_id.
Qed.

Example C09_ex :
  stat here_parse (after [OCreate (B"/a")]) (B":/a") = Ok 1 /\
  stat here_parse (after [OCreate (B"/a")]) (B"/b") = Err (EMsg could_not_stat) /\
  seen here_parse (after [OCreate (B"/a")]) (B"/b") = None.
Proof. by vm_compute. Qed.

(** *** C10 *)

(** Full claim: a FileInfo obtained from Stat does not change later.  Proved
    for the info of an opened handle (C04_info_snapshot) and, by construction,
    for Walk, which passes copies; refuted for Pkger.Stat, whose result is the
    stored file's own record and changes when a writer closes. *)
Theorem C10_stat_stable_partial parse m name r d cs :
  reachable parse m -> stat parse m name = Ok r -> info_at m r = Some d ->
  Forall (fun c => c.2 <> OClose r) cs ->
  info_at (run parse m cs).1 r = Some d.
Proof.
  intros Hr Hs Hi HF. pose proof (reachable_wf _ _ Hr) as Hw. unfold info_at in *.
  destruct (m_heap m !! r) as [f|] eqn:E; [|done]. simpl in Hi.
  rewrite (run_handle parse m cs r f Hw E). simpl.
  destruct (fobj_run_keep r cs f HF) as (-> & _). done.
Qed.

Theorem C10_stat_refuted :
  exists m r d d', reachable here_parse m /\ stat here_parse m (B"/a") = Ok r /\
    info_at m r = Some d /\ info_at (step here_parse m (t1, OClose 1)).1 r = Some d' /\
    d_size d <> d_size d' /\ d_mtime d <> d_mtime d'.
Proof.
  exists (after [OCreate (B"/a"); OWrite 1 (B"abc")]), 1. eexists _, _.
  split; [apply reachable_run, reach_new|]. split; [by vm_compute|].
  split; [by vm_compute|]. split; [by vm_compute|]. by vm_compute.
Qed.

Example C10_ex :
  let m := after [OCreate (B"/a"); OWrite 1 (B"abc"); OClose 1] in
  let cs := [(t1, OCreate (B"/b")); (t1, OWrite 3 (B"x")); (t1, OClose 3); (t1, ORemove (B"/a"))] in
  stat here_parse m (B"/a") = Ok 1 /\
  info_at m 1 = Some (Details (B"a") 3 420 t0 false JNull) /\
  info_at (run here_parse m cs).1 1 = info_at m 1 /\ stat here_parse (run here_parse m cs).1 (B"/a") = Err (EMsg could_not_stat).
Proof. by vm_compute. Qed.

(** *** C11 *)

Theorem C11_remove parse m name :
  reachable parse m ->
  ((remove parse m name).2 = None <-> exists r, stat parse m name = Ok r) /\
  ((remove parse m name).2 <> None -> (remove parse m name).1 = m) /\
  ((remove parse m name).2 = None -> forall name2,
     seen parse (remove parse m name).1 name2 =
       if decide (parse (m_here m) name2 = parse (m_here m) name) then None
       else seen parse m name2).
Proof.
  intros Hr. split_and!.
  - unfold remove, stat, mem_parse. destruct (parse (m_here m) name) as [pt|]; [|naive_solver].
    destruct (m_files m !! pt); naive_solver.
  - unfold remove, mem_parse. destruct (parse (m_here m) name) as [pt|]; [|done].
    by destruct (m_files m !! pt).
  - intros H name2. destruct (remove parse m name) as [m' e] eqn:E. simpl in H. subst.
    by apply remove_seen.
Qed.

Example C11_ex :
  let m := after [OCreate (B"/a"); OCreate (B"/ab"); ORemove (B"/a")] in
  seen here_parse m (B"/a") = None /\ is_Some (seen here_parse m (B"/ab")) /\
  (remove here_parse m (B"/a")).2 = Some (EPath (B"remove") (B"app:/a")).
Proof. vm_compute. repeat split; eauto. Qed.

(** *** C12 *)

(** Full claim: "Remove(name) fails and changes nothing when name is a
    directory that still has entries below it".  Refuted: it succeeds and
    leaves the entries without their directory. *)
Theorem C12_refuted :
  exists m d b f, reachable here_parse m /\
    seen here_parse m (B"/d") = Some (d, b) /\ d_isdir d = true /\
    seen here_parse m (B"/d/x") = Some f /\
    (remove here_parse m (B"/d")).2 = None /\
    seen here_parse (remove here_parse m (B"/d")).1 (B"/d") = None /\
    seen here_parse (remove here_parse m (B"/d")).1 (B"/d/x") = Some f.
Proof.
  exists (after [OMkdirAll (B"/d") 493; OCreate (B"/d/x")]). eexists _, _, _.
  split; [apply reachable_run, reach_new|]. by vm_compute.
Qed.

(** *** C13 *)

(** Full claim: "After RemoveAll(path) the entry and everything below it are
    gone, every other entry is untouched, and the call returns nil".
    Proved: returns nil; the entry and everything below are gone; entries
    whose name does not start with the path's name are untouched.  Refuted for
    the rest: names that merely start with the same letters, and entries of
    other packages, are removed too. *)
Theorem C13_remove_all_partial parse m name pt ws :
  reachable parse m -> parse (m_here m) name = Some pt ->
  Forall good_elem ws -> p_name pt = abs_name ws ->
  (remove_all parse m name).2 = None /\
  (forall name2 q vs, parse (m_here m) name2 = Some q -> p_name q = abs_name (ws ++ vs) ->
     Forall good_elem vs -> seen parse (remove_all parse m name).1 name2 = None) /\
  (forall name2 q, parse (m_here m) name2 = Some q -> has_prefix (p_name q) (p_name pt) = false ->
     seen parse (remove_all parse m name).1 name2 = seen parse m name2).
Proof.
  intros Hr Hp Hg Hn. split_and!.
  - unfold remove_all, mem_parse. by rewrite Hp.
  - intros name2 q vs Hq Hqn Hv. rewrite (remove_all_seen parse m name pt name2 q Hp Hq).
    replace (has_prefix (p_name q) (p_name pt)) with true; [done|]. symmetry.
    rewrite Hqn, Hn. apply abs_name_prefix.
  - intros name2 q Hq Hf. rewrite (remove_all_seen parse m name pt name2 q Hp Hq). by rewrite Hf.
Qed.

Example C13_ex :
  let m := after [OMkdirAll (B"/d/e") 493; OCreate (B"/d/e/x"); OCreate (B"/z"); ORemoveAll (B"/d")] in
  seen here_parse m (B"/d") = None /\ seen here_parse m (B"/d/e/x") = None /\
  is_Some (seen here_parse m (B"/z")).
Proof. vm_compute. repeat split; eauto. Qed.

Theorem C13_refuted :
  exists m f g, reachable here_parse m /\
    seen here_parse m (B"/foobar") = Some f /\
    seen here_parse m (B"lib:/foo") = Some g /\
    seen here_parse (remove_all here_parse m (B"app:/foo")).1 (B"/foobar") = None /\
    seen here_parse (remove_all here_parse m (B"app:/foo")).1 (B"lib:/foo") = None.
Proof.
  exists (after [OCreate (B"/foobar"); OMkdirAll (B"lib:/foo") 493]). eexists _, _.
  split; [apply reachable_run, reach_new|]. by vm_compute.
Qed.

(** *** C45 *)

(** Once the name no longer answers with a created handle's own entry (it was
    removed or replaced), nothing done with that handle changes what any name
    shows, at any later time. *)
Theorem C45_stale_handle parse m name now m1 h cs1 cs2 c name2 :
  reachable parse m -> create parse now m name = (m1, Ok h) ->
  let m2 := (run parse m1 cs1).1 in
  stat parse m2 name <> Ok h ->
  uses h c.2 ->
  let m3 := (run parse m2 cs2).1 in
  seen parse (step parse m3 c).1 name2 = seen parse m3 name2.
Proof.
  intros Hr Hc m2 Hs Hu m3. pose proof (reachable_wf _ _ Hr) as Hw.
  destruct (create_file _ _ _ _ _ _ Hw Hc) as (pt & her & Hp & _ & Hfi & Hh & Hw1 & _ & Hf).
  pose proof (frame_run parse m1 cs1 Hw1) as Hf1. fold m2 in Hf1.
  pose proof (fr_wf _ _ _ _ _ Hf1) as Hw2.
  assert (Hlt : h < m_next m1) by (by eapply wf_next).
  assert (Hun : unstored m2 h).
  { intros q Hq. destruct (fr_new _ _ _ _ _ Hf1 _ _ Hq) as [Hq1|]; [|lia].
    assert (q = pt) as -> by (by eapply (wf_inj m1 Hw1)).
    apply Hs. unfold stat, mem_parse. by rewrite (fr_here _ _ _ _ _ Hf1), Hh, Hp, Hq. }
  assert (Hlt2 : h < m_next m2) by (pose proof (fr_next _ _ _ _ _ Hf1); lia).
  pose proof (frame_run parse m2 cs2 Hw2) as Hf2. fold m3 in Hf2.
  apply (unstored_use parse m3 c h); [apply Hf2|by apply unstored_run|done].
Qed.

Example C45_ex :
  let m := after [OCreate (B"/a"); OWrite 1 (B"old"); ORemove (B"/a"); OCreate (B"/a"); OWrite 3 (B"new"); OClose 3; OClose 1] in
  stat here_parse m (B"/a") <> Ok 1 /\
  seen here_parse m (B"/a") = Some (Details (B"a") 3 420 t0 false JNull, B"new").
Proof. by vm_compute. Qed.
