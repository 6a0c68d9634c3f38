(** More proofs about handles, sizes, Stat, Remove and RemoveAll. *)
From Verif Require Import Bytes GoPath Here GoTypes Mem MemSpec MemBase MemFiles.

(** *** Handles that are not in the files map *)

Definition unstored (m : mem) (h : ref) : Prop := forall pt, m_files m !! pt <> Some h.

Lemma unstored_step parse m c h :
  wf m -> h < m_next m -> unstored m h -> unstored (step parse m c).1 h.
Proof.
  intros Hw Hlt Hu pt H.
  destruct (fr_new _ _ _ _ _ (frame_step parse m c Hw) _ _ H); [by eapply Hu|lia].
Qed.

Lemma unstored_run parse m cs h :
  wf m -> h < m_next m -> unstored m h -> unstored (run parse m cs).1 h.
Proof.
  intros Hw Hlt Hu pt H.
  destruct (fr_new _ _ _ _ _ (frame_run parse m cs Hw) _ _ H); [by eapply Hu|lia].
Qed.

Lemma uses_no_disturb parse her pt o r : uses r o -> ~ disturbs parse her pt o.
Proof. destruct o; simpl; naive_solver. Qed.

(** Using a handle that is not in the map changes nothing any name shows. *)
Lemma unstored_use parse m c h name :
  wf m -> unstored m h -> uses h c.2 ->
  seen parse (step parse m c).1 name = seen parse m name.
Proof.
  intros Hw Hu Hc. destruct (parse (m_here m) name) as [pt|] eqn:Hp.
  - apply (seen_step parse m c name pt Hw Hp).
    + by eapply uses_no_disturb.
    + intros h' Hh' Hcl. rewrite Hcl in Hc. simpl in Hc. subst. by eapply Hu.
  - rewrite !seen_alt. rewrite (fr_here _ _ _ _ _ (frame_step parse m c Hw)), Hp. done.
Qed.

Lemma open_unstored parse m name m' h :
  wf m -> open parse m name = (m', Ok h) -> unstored m' h /\ h < m_next m' /\ wf m' /\ m_files m' = m_files m /\ m_here m' = m_here m.
Proof.
  intros Hw Ho. pose proof (frame_open parse (fun _ => False) (fun _ => False) m name Hw) as Hf.
  unfold open, mem_parse in *. destruct (parse (m_here m) name) as [pt|] eqn:Hp; [|done].
  destruct (file_at m pt) as [f|] eqn:E; [|done]. simpl in *. injection Ho as <- <-. simpl.
  split_and!; try done; [|lia|apply Hf].
  intros q H. simpl in H. pose proof (wf_files_lt _ _ _ Hw H). lia.
Qed.

Lemma seen_open_same parse m name m' x name2 :
  wf m -> open parse m name = (m', x) -> seen parse m' name2 = seen parse m name2.
Proof.
  intros Hw Ho.
  pose proof (frame_open parse (fun _ => False) (fun _ => False) m name Hw) as Hf. rewrite Ho in Hf.
  simpl in Hf. rewrite !seen_alt. rewrite (fr_here _ _ _ _ _ Hf).
  destruct (parse (m_here m) name2) as [pt|]; simpl; [|done]. unfold file_at.
  rewrite (fr_files _ _ _ _ _ Hf) by tauto.
  destruct (m_files m !! pt) as [r|] eqn:E; simpl; [|done].
  by rewrite (fr_heap _ _ _ _ _ Hf) by (tauto || by eapply wf_files_lt).
Qed.

(** *** Sizes *)

Definition size_ok (f : fobj) : Prop :=
  d_isdir (f_info f) = false -> d_size (f_info f) = Z.of_nat (length (f_data f)).

Definition sizes_ok (m : mem) : Prop := forall r f, m_heap m !! r = Some f -> size_ok f.

Lemma sizes_alloc m f : sizes_ok m -> size_ok f -> sizes_ok (alloc m f).1.
Proof.
  intros H Hf r g. simpl. rewrite lookup_insert_Some. intros [[_ <-]|[_ Hg]]; [done|by eapply H].
Qed.

Lemma sizes_upd m r f : sizes_ok m -> size_ok f -> sizes_ok (upd m r f).
Proof.
  intros H Hf r' g. simpl. rewrite lookup_insert_Some. intros [[_ <-]|[_ Hg]]; [done|by eapply H].
Qed.

Lemma sizes_mkdir parse fuel now m p perm :
  sizes_ok m -> sizes_ok (mkdir_all parse fuel now m p perm).1.
Proof.
  revert m p. induction fuel as [|fuel IH]; intros m p H; simpl; [done|].
  destruct (mem_parse parse m p) as [pt|]; [|done].
  destruct (path_split (p_name pt)) as [dir name]. case_bool_decide.
  - apply (sizes_alloc m); done.
  - specialize (IH m dir H). destruct (mkdir_all parse fuel now m dir perm) as [m1 [e|]]; [done|].
    apply (sizes_alloc m1); done.
Qed.

(** An Add whose recorded size is the number of bytes it copied. *)
Definition honest (o : op) : Prop :=
  match o with
  | OAdd _ _ info data => d_isdir info = false -> d_size info = Z.of_nat (length data)
  | _ => True
  end.

Lemma sizes_open parse m name : sizes_ok m -> sizes_ok (open parse m name).1.
Proof.
  intros H. unfold open. destruct (mem_parse parse m name) as [pt|]; [|done].
  destruct (file_at m pt) as [f|] eqn:E; [|done]. apply (sizes_alloc m); [done|].
  rewrite new_file_info_id. unfold size_ok. simpl.
  unfold file_at in E. destruct (m_files m !! pt); [|done]. by eapply H.
Qed.

Lemma sizes_step parse m c : sizes_ok m -> honest c.2 -> sizes_ok (step parse m c).1.
Proof.
  intros H Hh. destruct c as [now o]. destruct o; simpl in *.
  - unfold create. pose proof (sizes_mkdir parse (mk_fuel (B"/")) now m (B"/") 493 H) as H1.
    destruct (mkdir_all parse (mk_fuel (B"/")) now m (B"/") 493) as [m1 e]. simpl in H1.
    case_bool_decide; [done|]. destruct (mem_parse parse m1 name) as [pt|]; [|done].
    destruct (mem_info m1 (p_pkg pt)); [|done]. destruct (if bool_decide _ then _ else _); [|done].
    apply (sizes_alloc m1); done.
  - pose proof (sizes_mkdir parse (mk_fuel p) now m p perm H). by destruct (mkdir_all _ _ _ _ _ _).
  - unfold remove. destruct (mem_parse parse m name) as [pt|]; [|done]. by destruct (m_files m !! pt).
  - unfold remove_all. by destruct (mem_parse parse m name) as [pt|].
  - pose proof (sizes_open parse m name H). by destruct (open parse m name).
  - done.
  - unfold add_file. simpl. apply (sizes_alloc m); [done|]. rewrite new_file_info_id.
    unfold size_ok. simpl. intros Hd. rewrite Hd. by apply Hh.
  - unfold file_write. destruct (m_heap m !! r) as [f|] eqn:E; [|done].
    apply sizes_upd; [done|]. unfold size_ok. simpl. by eapply H.
  - unfold file_read. destruct (m_heap m !! r) as [f|] eqn:E; [|done].
    destruct (cur_reader f) as [rd|]; [|done]. destruct (reader_read rd n) as [rd' [b e]].
    apply sizes_upd; [done|]. unfold size_ok. simpl. by eapply H.
  - unfold file_seek. destruct (m_heap m !! r) as [f|] eqn:E; [|done].
    destruct (cur_reader f) as [rd|]; [|done]. destruct (reader_seek rd off whence) as [rd' [b e]].
    apply sizes_upd; [done|]. unfold size_ok. simpl. by eapply H.
  - unfold file_close. destruct (m_heap m !! r) as [f|] eqn:E; [|done].
    destruct (f_writer f); (apply sizes_upd; [done|]); unfold size_ok; simpl; [done|]. by eapply H.
  - by destruct (readdir parse m r count).
  - unfold file_open. destruct (m_heap m !! r) as [f|] eqn:E; [|done].
    destruct (parse (f_here f) name) as [pt|]; [|done]. case_bool_decide; [done|].
    set (nm := path_string _). pose proof (sizes_open parse m nm H) as H1.
    destruct (open parse m nm) as [m1 [d|e]]; [|done]. simpl in H1.
    destruct (m_heap m1 !! d) as [di|] eqn:Ed; [|done].
    destruct (d_isdir (f_info di)) eqn:Edir; [|done].
    apply (sizes_alloc m1); [done|]. rewrite new_file_info_id. unfold size_ok. simpl. congruence.
Qed.

Lemma sizes_run parse m cs :
  sizes_ok m -> Forall (fun c => honest c.2) cs -> sizes_ok (run parse m cs).1.
Proof.
  revert m. induction cs as [|c cs IH]; intros m H HF; simpl; [done|].
  apply Forall_cons in HF as [Hc HF]. pose proof (sizes_step parse m c H Hc) as H1.
  destruct (step parse m c) as [m1 x]. specialize (IH m1 H1 HF). by destruct (run parse m1 cs).
Qed.

(** *** Remove, RemoveAll *)

Lemma remove_seen parse m name name2 m' :
  remove parse m name = (m', None) ->
  seen parse m' name2 =
    if decide (parse (m_here m) name2 = parse (m_here m) name) then None else seen parse m name2.
Proof.
  unfold remove, mem_parse. destruct (parse (m_here m) name) as [pt|] eqn:Hp; [|done].
  destruct (m_files m !! pt) as [r|] eqn:E; [|done]. intros [= <-].
  rewrite !seen_alt. simpl. destruct (parse (m_here m) name2) as [q|]; simpl.
  - unfold file_at. simpl. destruct (decide (Some q = Some pt)) as [[= ->]|Hne].
    + by rewrite lookup_delete.
    + rewrite lookup_delete_ne by congruence. done.
  - done.
Qed.

Lemma remove_all_seen parse m name pt name2 q :
  parse (m_here m) name = Some pt -> parse (m_here m) name2 = Some q ->
  seen parse (remove_all parse m name).1 name2 =
    if has_prefix (p_name q) (p_name pt) then None else seen parse m name2.
Proof.
  intros Hp Hq. unfold remove_all, mem_parse. rewrite Hp. simpl. rewrite !seen_alt. simpl.
  rewrite Hq. simpl. unfold file_at. simpl.
  destruct (has_prefix (p_name q) (p_name pt)) eqn:E.
  - replace (filter _ _ !! q) with (@None ref); [done|]. symmetry.
    apply map_filter_lookup_None. right. intros r _. simpl. rewrite E. done.
  - replace (filter (fun kv : path * ref => has_prefix (p_name kv.1) (p_name pt) = false) (m_files m) !! q)
      with (m_files m !! q); [done|].
    apply option_eq. intros r. rewrite map_filter_lookup_Some. simpl. naive_solver.
Qed.
