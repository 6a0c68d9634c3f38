(** Proofs about file handles and contents (properties C01-C10, C45). *)
From Verif Require Import Bytes GoPath Here GoTypes Mem MemSpec MemBase.

(** How one call changes the File object [h]. *)
Definition fobj_step (h : ref) (c : gotime * op) (f : fobj) : fobj :=
  match c.2 with
  | OWrite r b =>
      if decide (r = h) then
        FObj (f_here f) (f_info f) (f_path f) (f_data f) (f_parent f)
          (Some (default [] (f_writer f) ++ b)) (f_reader f)
      else f
  | ORead r n =>
      if decide (r = h) then
        match cur_reader f with
        | None => f
        | Some rd => FObj (f_here f) (f_info f) (f_path f) (f_data f) (f_parent f)
                       (f_writer f) (Some (reader_read rd n).1)
        end
      else f
  | OSeek r off wh =>
      if decide (r = h) then
        match cur_reader f with
        | None => f
        | Some rd => FObj (f_here f) (f_info f) (f_path f) (f_data f) (f_parent f)
                       (f_writer f) (Some (reader_seek rd off wh).1)
        end
      else f
  | OClose r =>
      if decide (r = h) then
        match f_writer f with
        | None => FObj (f_here f) (f_info f) (f_path f) (f_data f) (f_parent f) None None
        | Some w =>
            FObj (f_here f)
              (Details (d_name (f_info f)) (Z.of_nat (length w)) (d_mode (f_info f)) c.1
                 (d_isdir (f_info f)) (d_sys (f_info f)))
              (f_path f) w (f_parent f) None None
        end
      else f
  | _ => f
  end.

Definition fobj_run (h : ref) (cs : list (gotime * op)) (f : fobj) : fobj :=
  fold_left (fun f c => fobj_step h c f) cs f.

Lemma fobj_run_app h cs1 c cs2 f :
  fobj_run h (cs1 ++ c :: cs2) f = fobj_run h cs2 (fobj_step h c (fobj_run h cs1 f)).
Proof. unfold fobj_run. by rewrite fold_left_app. Qed.

Lemma step_handle parse m c h f :
  wf m -> m_heap m !! h = Some f -> m_heap (step parse m c).1 !! h = Some (fobj_step h c f).
Proof.
  intros Hw Hf.
  assert (Hlt : h < m_next m) by (by eapply wf_next).
  pose proof (frame_step parse m c Hw) as Hfr.
  destruct c as [now o].
  assert (Hnu : ~ uses h o -> m_heap (step parse m (now, o)).1 !! h = Some f).
  { intros Hn. by rewrite (fr_heap _ _ _ _ _ Hfr h Hn Hlt). }
  destruct o; try (by (apply Hnu; intros [])); unfold fobj_step; cbn [snd fst];
    (destruct (decide (r = h)) as [->|Hne]; [|by apply Hnu]); clear Hnu Hfr; cbn [step].
  - unfold file_write. rewrite Hf. simpl. by rewrite lookup_insert.
  - unfold file_read. rewrite Hf. destruct (cur_reader f) as [rd|]; [|done].
    destruct (reader_read rd n) as [rd' [b e]]. simpl. by rewrite lookup_insert.
  - unfold file_seek. rewrite Hf. destruct (cur_reader f) as [rd|]; [|done].
    destruct (reader_seek rd off whence) as [rd' [b e]]. simpl. by rewrite lookup_insert.
  - unfold file_close. rewrite Hf. destruct (f_writer f); simpl; by rewrite lookup_insert.
Qed.

Lemma run_handle parse m cs h f :
  wf m -> m_heap m !! h = Some f -> m_heap (run parse m cs).1 !! h = Some (fobj_run h cs f).
Proof.
  revert m f. induction cs as [|c cs IH]; intros m f Hw Hf; simpl; [done|].
  pose proof (step_handle parse m c h f Hw Hf) as H1.
  pose proof (fr_wf _ _ _ _ _ (frame_step parse m c Hw)) as Hw1.
  destruct (step parse m c) as [m1 x]. simpl in *.
  specialize (IH m1 _ Hw1 H1). by destruct (run parse m1 cs).
Qed.

Definition not_close (h : ref) (c : gotime * op) : Prop := c.2 <> OClose h.

Lemma fobj_step_keep h c f :
  not_close h c ->
  f_info (fobj_step h c f) = f_info f /\ f_data (fobj_step h c f) = f_data f /\
  f_path (fobj_step h c f) = f_path f /\ f_here (fobj_step h c f) = f_here f /\
  f_parent (fobj_step h c f) = f_parent f.
Proof.
  destruct c as [now o]. unfold not_close, fobj_step. simpl. intros Hn.
  destruct o; try done; destruct (decide (r = h)) as [->|]; try done; by destruct (cur_reader f).
Qed.

Lemma fobj_run_keep h cs f :
  Forall (not_close h) cs ->
  f_info (fobj_run h cs f) = f_info f /\ f_data (fobj_run h cs f) = f_data f /\
  f_path (fobj_run h cs f) = f_path f /\ f_here (fobj_run h cs f) = f_here f /\
  f_parent (fobj_run h cs f) = f_parent f.
Proof.
  revert f. induction cs as [|c cs IH]; intros f HF; [done|].
  apply Forall_cons in HF as [Hc HF]. simpl.
  destruct (fobj_step_keep h c f Hc) as (A&B&C&D&E).
  destruct (IH (fobj_step h c f) HF) as (A'&B'&C'&D'&E'). repeat split; congruence.
Qed.

Lemma fobj_run_writer h cs f :
  Forall (not_close h) cs ->
  f_writer (fobj_run h cs f) = Some (default [] (f_writer f) ++ written h cs) \/
  (f_writer (fobj_run h cs f) = f_writer f /\ written h cs = []).
Proof.
  revert f. induction cs as [|c cs IH]; intros f HF; simpl; [by right|].
  apply Forall_cons in HF as [Hc HF]. specialize (IH (fobj_step h c f) HF).
  destruct c as [now o]. unfold fobj_step in *. simpl in *.
  destruct o; try exact IH.
  - destruct (decide (r = h)) as [->|]; [|exact IH]. simpl in IH. left.
    destruct IH as [->|[-> ->]]; simpl; by rewrite <- ?app_assoc, ?app_nil_r.
  - destruct (decide (r = h)) as [->|]; [|exact IH]. by destruct (cur_reader f).
  - destruct (decide (r = h)) as [->|]; [|exact IH]. by destruct (cur_reader f).
  - destruct (decide (r = h)) as [->|]; [|exact IH]. by destruct Hc.
Qed.

(** *** What Open sees *)

Lemma seen_alt parse m name :
  seen parse m name =
  pt ← parse (m_here m) name; f ← file_at m pt; Some (f_info f, f_data f).
Proof.
  unfold seen, open, mem_parse. destruct (parse (m_here m) name) as [pt|]; simpl; [|done].
  destruct (file_at m pt) as [f|]; simpl; [|done].
  rewrite lookup_insert. simpl. by rewrite new_file_info_id.
Qed.

Lemma open_ok parse m name m' h :
  open parse m name = (m', Ok h) ->
  exists pt f, parse (m_here m) name = Some pt /\ file_at m pt = Some f /\ h = m_next m /\
    m_heap m' !! h = Some (FObj (f_here f) (f_info f) (f_path f) (f_data f) zero_path None None).
Proof.
  unfold open, mem_parse. destruct (parse (m_here m) name) as [pt|]; [|done].
  destruct (file_at m pt) as [f|] eqn:E; [|done]. simpl. intros [= <- <-].
  exists pt, f. simpl. rewrite lookup_insert, new_file_info_id. done.
Qed.

Lemma seen_open parse m name d b :
  seen parse m name = Some (d, b) ->
  exists m' h f, open parse m name = (m', Ok h) /\ m_heap m' !! h = Some f /\
    f_info f = d /\ f_data f = b /\ f_writer f = None /\ f_reader f = None.
Proof.
  unfold seen. destruct (open parse m name) as [m' [h|e]] eqn:E; [|done].
  destruct (open_ok _ _ _ _ _ E) as (pt & f & _ & _ & _ & Hf).
  rewrite Hf. simpl. intros [= <- <-]. by eexists m', h, _.
Qed.

(** *** Reading *)

Lemma read_seq_cursor m h f content pos ns :
  m_heap m !! h = Some f -> cur_reader f = Some (BReader content pos) -> (0 <= pos)%Z ->
  read_seq m h ns = reads_of (drop (Z.to_nat pos) content) ns.
Proof.
  revert m f pos. induction ns as [|n ns IH]; intros m f pos Hf Hr Hp; simpl; [done|].
  unfold file_read. rewrite Hf, Hr. unfold reader_read. simpl.
  destruct (Z.leb_spec (Z.of_nat (length content)) pos) as [Hle|Hlt].
  - rewrite (drop_ge content) by lia. f_equal.
    etransitivity; [eapply IH; [simpl; by rewrite lookup_insert|done|done]|].
    by rewrite drop_ge by lia.
  - destruct (drop (Z.to_nat pos) content) as [|x xs] eqn:E.
    { apply (f_equal length) in E. rewrite drop_length in E. simpl in E. lia. }
    f_equal. rewrite <- E.
    etransitivity; [eapply IH; [simpl; by rewrite lookup_insert|done|lia]|].
    f_equal. rewrite drop_drop. rewrite take_length, drop_length.
    destruct (decide (n <= length content - Z.to_nat pos)).
    + f_equal. lia.
    + rewrite !drop_ge by lia. done.
Qed.

Lemma read_seq_fresh m h f ns :
  m_heap m !! h = Some f -> f_reader f = None -> f_data f <> [] ->
  read_seq m h ns = reads_of (f_data f) ns.
Proof.
  intros Hf Hr Hd. rewrite (read_seq_cursor m h f (f_data f) 0 ns); [done|done| |lia].
  unfold cur_reader. rewrite Hr. by destruct (f_data f).
Qed.

Lemma read_seq_empty m h f ns :
  m_heap m !! h = Some f -> f_reader f = None -> f_data f = [] ->
  read_seq m h ns = replicate (length ns) ([], Some (EMsg unable_to_read)).
Proof.
  intros Hf Hr Hd. induction ns as [|n ns IH]; simpl; [done|].
  unfold file_read. rewrite Hf. unfold cur_reader. rewrite Hr, Hd. by rewrite IH.
Qed.

(** The whole content comes back, whatever the buffer sizes. *)
Lemma reads_of_concat content ns :
  Forall (fun n => 0 < n) ns -> length content <= length ns ->
  concat (fst <$> reads_of content ns) = content.
Proof.
  revert content. induction ns as [|n ns IH]; intros content HF Hl; simpl in *.
  - destruct content; [done|simpl in Hl; lia].
  - apply Forall_cons in HF as [Hn HF].
    destruct content as [|x xs].
    + simpl. apply IH; [done|simpl; lia].
    + cbn [fmap list_fmap concat fst]. rewrite IH; [apply take_drop|done|].
      rewrite drop_length. simpl in *. lia.
Qed.

(** *** Create *)

Lemma create_ok parse now m name m' h :
  wf m -> create parse now m name = (m', Ok h) ->
  exists pt her m1, parse (m_here m) name = Some pt /\
    m1 = (mkdir_all parse (mk_fuel (B"/")) now m (B"/") 493).1 /\
    m_infos m !! p_pkg pt = Some her /\
    (dirname (p_name pt) = B"/" \/ exists r, stat parse m1 (dirname (p_name pt)) = Ok r) /\
    h = m_next m1 /\
    m' = store (alloc m1 (FObj her (Details (base name) 0 420 now false JNull) pt [] zero_path None None)).1 pt h.
Proof.
  intros Hw. unfold create.
  pose proof (frame_mkdir parse (mk_fuel (B"/")) now m (B"/") 493 Hw) as Hf.
  destruct (mkdir_all parse (mk_fuel (B"/")) now m (B"/") 493) as [m1 e0]. simpl in Hf.
  case_bool_decide; [done|].
  unfold mem_parse. rewrite (fr_here _ _ _ _ _ Hf).
  destruct (parse (m_here m) name) as [pt|] eqn:Hp; [|done].
  unfold mem_info. rewrite (fr_infos _ _ _ _ _ Hf).
  destruct (m_infos m !! p_pkg pt) as [her|] eqn:Hi; [|done].
  destruct (if bool_decide _ then _ else _) eqn:Hs; [|done].
  simpl. intros [= <- <-]. exists pt, her, m1. split_and!; try done.
  case_bool_decide; [by left|]. right. eauto.
Qed.

Lemma create_file parse now m name m' h :
  wf m -> create parse now m name = (m', Ok h) ->
  exists pt her, parse (m_here m) name = Some pt /\ m_infos m !! p_pkg pt = Some her /\
    m_files m' !! pt = Some h /\ m_here m' = m_here m /\ wf m' /\ m_next m <= h /\
    m_heap m' !! h = Some (FObj her (Details (base name) 0 420 now false JNull) pt [] zero_path None None).
Proof.
  intros Hw Hc. destruct (create_ok _ _ _ _ _ _ Hw Hc) as (pt & her & m1 & Hp & Hm1 & Hi & _ & Hh & Hm').
  pose proof (frame_create parse now m name Hw) as Hf. rewrite Hc in Hf. simpl in Hf.
  exists pt, her. split_and!; try done.
  - rewrite Hm'. simpl. by rewrite lookup_insert.
  - apply Hf.
  - apply Hf.
  - rewrite Hh, Hm1. apply (fr_next _ _ _ _ _ (frame_mkdir parse _ now m (B"/") 493 Hw)).
  - rewrite Hm'. simpl. rewrite Hh. by rewrite lookup_insert.
Qed.

(** *** C01 *)

Definition undisturbed parse (her : hinfo) (pt : path) (cs : list (gotime * op)) : Prop :=
  Forall (fun c => ~ disturbs parse her pt c.2) cs.

Lemma run_files_keep parse m cs pt :
  wf m -> undisturbed parse (m_here m) pt cs ->
  m_files (run parse m cs).1 !! pt = m_files m !! pt.
Proof.
  intros Hw HU. apply (fr_files _ _ _ _ _ (frame_run parse m cs Hw)).
  intros (c & Hc & Hd). by apply (proj1 (Forall_forall _ _) HU c Hc).
Qed.

Lemma fobj_close h now f :
  f_info (fobj_step h (now, OClose h) f) =
    match f_writer f with
    | None => f_info f
    | Some w => Details (d_name (f_info f)) (Z.of_nat (length w)) (d_mode (f_info f)) now
                 (d_isdir (f_info f)) (d_sys (f_info f))
    end /\
  f_data (fobj_step h (now, OClose h) f) = match f_writer f with None => f_data f | Some w => w end /\
  f_writer (fobj_step h (now, OClose h) f) = None /\
  f_reader (fobj_step h (now, OClose h) f) = None.
Proof. unfold fobj_step. simpl. rewrite decide_True by done. by destruct (f_writer f). Qed.

Lemma seen_handle parse m name pt h f :
  parse (m_here m) name = Some pt -> m_files m !! pt = Some h -> m_heap m !! h = Some f ->
  seen parse m name = Some (f_info f, f_data f).
Proof.
  intros Hp Hfi Hh. rewrite seen_alt, Hp. simpl. unfold file_at. rewrite Hfi. simpl.
  by rewrite Hh.
Qed.

(** Writes through a created handle become the file's content at Close, and
    nothing else. *)
Lemma created_content parse m name now m1 h cs1 now2 cs2 name2 pt :
  wf m -> create parse now m name = (m1, Ok h) ->
  parse (m_here m) name = Some pt -> parse (m_here m) name2 = Some pt ->
  undisturbed parse (m_here m) pt cs1 -> Forall (not_close h) cs1 ->
  undisturbed parse (m_here m) pt cs2 -> Forall (not_close h) cs2 ->
  exists d, seen parse (run parse m1 (cs1 ++ (now2, OClose h) :: cs2)).1 name2
    = Some (d, written h cs1) /\ d_size d = Z.of_nat (length (written h cs1)) /\
      d_isdir d = false /\ d_mode d = 420%N.
Proof.
  intros Hw Hc Hp Hp2 HU1 HN1 HU2 HN2.
  destruct (create_file _ _ _ _ _ _ Hw Hc) as (pt' & her & Hp' & _ & Hfi & Hh & Hw1 & _ & Hf).
  assert (pt' = pt) as -> by congruence.
  set (cs := cs1 ++ (now2, OClose h) :: cs2).
  assert (Hfi2 : m_files (run parse m1 cs).1 !! pt = Some h).
  { rewrite run_files_keep; [done|done|]. rewrite Hh. unfold cs, undisturbed.
    apply Forall_app. split; [done|]. constructor; [|done]. by intros []. }
  pose proof (run_handle parse m1 cs h _ Hw1 Hf) as Hrun.
  pose proof (frame_run parse m1 cs Hw1) as Hfr.
  assert (Hp3 : parse (m_here (run parse m1 cs).1) name2 = Some pt).
  { rewrite (fr_here _ _ _ _ _ Hfr), Hh. done. }
  rewrite (seen_handle parse _ name2 pt h _ Hp3 Hfi2 Hrun).
  unfold cs. set (f0 := FObj _ _ _ _ _ _ _). rewrite fobj_run_app.
  destruct (fobj_run_keep h cs2 (fobj_step h (now2, OClose h) (fobj_run h cs1 f0)) HN2) as (Ai&Ad&_).
  rewrite Ai, Ad. clear Ai Ad.
  destruct (fobj_close h now2 (fobj_run h cs1 f0)) as (Ci&Cd&_). rewrite Ci, Cd.
  destruct (fobj_run_keep h cs1 f0 HN1) as (Bi&Bd&_). rewrite Bi, Bd.
  destruct (fobj_run_writer h cs1 f0 HN1) as [->|[-> ->]]; simpl.
  - eexists. split; [done|]. done.
  - eexists. split; [done|]. done.
Qed.

(** *** Frame for what is seen *)

Lemma seen_step parse m c name pt :
  wf m -> parse (m_here m) name = Some pt ->
  ~ disturbs parse (m_here m) pt c.2 ->
  (forall h, m_files m !! pt = Some h -> not_close h c) ->
  seen parse (step parse m c).1 name = seen parse m name.
Proof.
  intros Hw Hp Hd Hn. pose proof (frame_step parse m c Hw) as Hfr.
  rewrite !seen_alt, (fr_here _ _ _ _ _ Hfr), Hp. simpl. unfold file_at.
  rewrite (fr_files _ _ _ _ _ Hfr pt Hd).
  destruct (m_files m !! pt) as [h|] eqn:E; simpl; [|done].
  destruct (wf_files m Hw _ _ E) as [f Hf]. rewrite Hf, (step_handle parse m c h f Hw Hf). simpl.
  destruct (fobj_step_keep h c f (Hn h eq_refl)) as (-> & -> & _). done.
Qed.

(** *** Cursor *)

Lemma cursor_run_handle parse m cs h f content pos :
  wf m -> m_heap m !! h = Some f -> cur_reader f = Some (BReader content pos) ->
  Forall (not_close h) cs ->
  cursor_answers h cs (run parse m cs).2 = cursor_run content pos (cursor_calls h cs).
Proof.
  revert m f pos. induction cs as [|[now o] cs IH]; intros m f pos Hw Hf Hr HF; [done|].
  apply Forall_cons in HF as [Hn HF].
  pose proof (step_handle parse m (now, o) h f Hw Hf) as H1.
  pose proof (fr_wf _ _ _ _ _ (frame_step parse m (now, o) Hw)) as Hw1.
  cbn [run]. destruct (step parse m (now, o)) as [m1 x] eqn:Es. simpl in H1, Hw1.
  specialize (IH m1 (fobj_step h (now, o) f)).
  destruct (run parse m1 cs) as [m2 xs] eqn:Er. simpl in IH. cbn [snd].
  assert (Hsame : cur_reader (fobj_step h (now, o) f) = Some (BReader content pos) ->
    cursor_answers h cs xs = cursor_run content pos (cursor_calls h cs)).
  { intros Hc. by apply IH. }
  unfold fobj_step in *. cbn [snd fst] in *.
  destruct o; cbn [cursor_answers cursor_calls]; try (by apply Hsame).
  - apply Hsame. destruct (decide (r = h)); [|done]. exact Hr.
  - destruct (decide (r = h)) as [->|]; [|by apply Hsame].
    cbn [cursor_run cursor_step].
    cbn [step] in Es. unfold file_read in Es. cbn [snd] in *. rewrite Hf, Hr in Es. rewrite Hr in IH.
    revert Es IH H1 Hw1 Er Hsame. rewrite Hr. unfold reader_read. simpl.
    destruct (Z.of_nat (length content) <=? pos)%Z; intros [= <- <-] IH H1 Hw1 Er _.
    + f_equal. by apply IH.
    + f_equal. apply IH; done.
  - destruct (decide (r = h)) as [->|]; [|by apply Hsame].
    cbn [cursor_run cursor_step].
    cbn [step] in Es. unfold file_seek in Es. cbn [snd] in *. rewrite Hf, Hr in Es. rewrite Hr in IH.
    revert Es IH H1 Hw1 Er Hsame. rewrite Hr. unfold reader_seek. simpl.
    destruct (whence =? 0)%Z; [|destruct (whence =? 1)%Z; [|destruct (whence =? 2)%Z]];
      try (destruct (_ <? 0)%Z); intros [= <- <-] IH H1 Hw1 Er _; f_equal; by apply IH.
  - destruct (decide (r = h)) as [->|]; [|by apply Hsame]. by destruct Hn.
Qed.

(** A handle without content and without reader stays like that until it is
    closed. *)
Lemma cursor_run_empty parse m cs h f :
  wf m -> m_heap m !! h = Some f -> cur_reader f = None ->
  Forall (not_close h) cs ->
  cursor_answers h cs (run parse m cs).2 =
  (fun c => match c with
            | CRead _ => RBytes [] (Some (EMsg unable_to_read))
            | CSeek _ _ => RNum 0 None
            end) <$> cursor_calls h cs.
Proof.
  revert m f. induction cs as [|[now o] cs IH]; intros m f Hw Hf Hr HF; [done|].
  apply Forall_cons in HF as [Hn HF].
  pose proof (step_handle parse m (now, o) h f Hw Hf) as H1.
  pose proof (fr_wf _ _ _ _ _ (frame_step parse m (now, o) Hw)) as Hw1.
  cbn [run]. destruct (step parse m (now, o)) as [m1 x] eqn:Es. simpl in H1, Hw1.
  specialize (IH m1 (fobj_step h (now, o) f)).
  destruct (run parse m1 cs) as [m2 xs] eqn:Er. simpl in IH. cbn [snd].
  assert (Hc : cur_reader (fobj_step h (now, o) f) = None).
  { unfold fobj_step. cbn [snd]. destruct o; try done; destruct (decide (r = h)) as [->|]; try done;
      rewrite ?Hr; done. }
  specialize (IH Hw1 H1 Hc HF).
  destruct o; cbn [cursor_answers cursor_calls]; try done;
    (destruct (decide (r = h)) as [->|]; [|done]); cbn [step] in Es.
  - unfold file_read in Es. rewrite Hf, Hr in Es. injection Es as <- <-. cbn. by f_equal.
  - unfold file_seek in Es. rewrite Hf, Hr in Es. injection Es as <- <-. cbn. by f_equal.
Qed.

(** *** Reaching the end *)

Lemma reads_of_nil ns : reads_of [] ns = replicate (length ns) ([], Some EEOF).
Proof. induction ns as [|n ns IH]; simpl; [done|]. by rewrite IH. Qed.

Lemma reads_of_cons b n ns :
  reads_of b (n :: ns) =
    (take n b, if decide (b = []) then Some EEOF else None) :: reads_of (drop n b) ns.
Proof. destruct b; simpl; [by rewrite take_nil, drop_nil|done]. Qed.

Lemma reads_of_app b ns ms :
  reads_of b (ns ++ ms) = reads_of b ns ++ reads_of (drop (sum_list ns) b) ms.
Proof.
  revert b. induction ns as [|n ns IH]; intros b; [done|].
  cbn [app]. rewrite !reads_of_cons. simpl. by rewrite IH, drop_drop.
Qed.

Lemma reads_of_length b ns : length (reads_of b ns) = length ns.
Proof. revert b. induction ns as [|n ns IH]; intros b; [done|]. rewrite reads_of_cons. simpl. by rewrite IH. Qed.

Lemma reads_of_take b ns : concat (fst <$> reads_of b ns) = take (sum_list ns) b.
Proof.
  revert b. induction ns as [|n ns IH]; intros b; [done|].
  rewrite reads_of_cons. simpl. rewrite IH. clear.
  revert n. induction b as [|x b IHb]; intros n; simpl; [by rewrite drop_nil, !take_nil|].
  destruct n as [|n]; simpl; [done|]. f_equal. apply IHb.
Qed.

Lemma reads_of_eof b ns ms :
  concat (fst <$> reads_of b ns) = b ->
  drop (length ns) (reads_of b (ns ++ ms)) = replicate (length ms) ([], Some EEOF).
Proof.
  intros H. rewrite reads_of_app. rewrite <- (reads_of_length b ns) at 1.
  rewrite drop_app. rewrite reads_of_take in H.
  apply (f_equal length) in H. rewrite take_length in H. rewrite drop_ge by lia.
  apply reads_of_nil.
Qed.
