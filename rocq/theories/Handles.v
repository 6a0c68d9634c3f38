(** Programs that keep files open, on the in-memory pkger and on disk.

    To the whole-file actions of Both.v come Open, Create, and Read, Seek,
    Write and Close on any of the files opened so far (numbered in the order
    they were opened).  [mem_h] carries one out with pkging/mem (Mem.v),
    [disk_h] with pkging/stdos (Std.v; file.go embeds *os.File, so Read, Seek
    and Write are those of os.File); [plan_h] says on a plain tree what a user
    expects of both. *)
From Verif Require Import Bytes GoPath Here GoTypes Mem MemSpec MemBase MemFiles MemDirs MemDirs2 WalkSpec Disk DiskOps Std PropsStd PropsSame Both.

Inductive hact :=
| HAct (a : act)
| HOpen (ns : list bytes)
| HCreate (ns : list bytes)
| HRead (k n : nat)                    (* Read into a buffer of n bytes *)
| HSeek (k : nat) (off whence : Z)
| HWrite (k : nat) (b : bytes)
| HClose (k : nat).
Inductive hans :=
| XAns (x : ans)
| XOk (ok : bool)
| XRead (b : bytes) (e : option gerr)
| XPos (x : option Z)
| XWrote (x : option nat).

(** ** The expectation *)

(** An open file: read at a position, or being written; or closed. *)
Inductive hst := HR (ns : list bytes) (b : bytes) (pos : Z) | HW (ns : list bytes) (b : bytes) | HX.

Definition put (T : tree) (ns : list bytes) (e : entry) : tree := fun vs => if bool_decide (vs = ns) then Some e else T vs.
Definition target (b : bytes) (pos off whence : Z) : Z :=
  (if whence =? 0 then off else if whence =? 1 then pos + off else Z.of_nat (length b) + off)%Z.

Definition plan_h (T : tree) (hs : list hst) (x : hact) : tree * list hst * hans :=
  match x with
  | HAct a => let '(T, x) := plan_do T a in (T, hs, XAns x)
  | HOpen ns =>
      match T ns with
      | Some (EFile b) => (T, hs ++ [HR ns b 0], XOk true)
      | _ => (T, hs, XOk false)
      end
  | HCreate ns =>
      if dir_at T (above ns) then (put T ns (EFile []), hs ++ [HW ns []], XOk true) else (T, hs, XOk false)
  | HRead k n =>
      match hs !! k with
      | Some (HR ns b pos) =>
          match drop (Z.to_nat pos) b with
          | [] => (T, hs, XRead [] (Some EEOF))
          | l => (T, <[k := HR ns b (pos + Z.of_nat (length (take n l)))]> hs, XRead (take n l) None)
          end
      | _ => (T, hs, XOk false)
      end
  | HSeek k off whence =>
      match hs !! k with
      | Some (HR ns b pos) =>
          let t := target b pos off whence in
          if (t <? 0)%Z then (T, hs, XPos None) else (T, <[k := HR ns b t]> hs, XPos (Some t))
      | _ => (T, hs, XOk false)
      end
  | HWrite k b =>
      match hs !! k with
      | Some (HW ns w) => (T, <[k := HW ns (w ++ b)]> hs, XWrote (Some (length b)))
      | _ => (T, hs, XOk false)
      end
  | HClose k =>
      match hs !! k with
      | Some (HR ns b pos) => (T, <[k := HX]> hs, XOk true)
      | Some (HW ns w) => (put T ns (EFile w), <[k := HX]> hs, XOk true)
      | _ => (T, hs, XOk false)
      end
  end.
Fixpoint plan_hs (T : tree) (hs : list hst) (l : list hact) : tree * list hst * list hans :=
  match l with
  | [] => (T, hs, [])
  | x :: l => let '(T, hs, r) := plan_h T hs x in let '(T, hs, rs) := plan_hs T hs l in (T, hs, r :: rs)
  end.

(** Where the two pkgers part: besides [calm], an open file is not changed
    except through its handle, and not looked at while it is being written; an
    empty file is not opened for reading; files opened for reading are only read,
    created ones only written; nothing is done to a closed file; positions are
    ones the file system can hold ([maxpos]). *)
Definition undisturbed (T T' : tree) (a : act) (h : hst) : Prop :=
  match h with
  | HR ns _ _ => T' ns = T ns
  | HW ns _ => T' ns = T ns /\ act_name a <> ns
  | HX => True
  end.
Definition names_open (hs : list hst) (ns : list bytes) : Prop :=
  exists k, (exists b pos, hs !! k = Some (HR ns b pos)) \/ exists b, hs !! k = Some (HW ns b).
Definition calm_h (maxpos : Z) (T : tree) (hs : list hst) (x : hact) : Prop :=
  match x with
  | HAct a => calm T a /\ Forall (undisturbed T (plan_do T a).1 a) hs
  | HOpen ns => T ns <> Some EDir /\ T ns <> Some (EFile [])
  | HCreate ns => calm T (AWrite ns []) /\ ~ names_open hs ns
  | HRead k n => n <> 0 /\ exists ns b pos, hs !! k = Some (HR ns b pos)
  | HSeek k off whence =>
      (whence = 0 \/ whence = 1 \/ whence = 2)%Z /\ (- 2^63 <= off)%Z /\
      exists ns b pos, hs !! k = Some (HR ns b pos) /\ (target b pos off whence <= maxpos)%Z
  | HWrite k _ => exists ns w, hs !! k = Some (HW ns w)
  | HClose k => exists h, hs !! k = Some h /\ h <> HX
  end.
Fixpoint calm_hs (maxpos : Z) (T : tree) (hs : list hst) (l : list hact) : Prop :=
  match l with
  | [] => True
  | x :: l => calm_h maxpos T hs x /\ let '(T, hs, _) := plan_h T hs x in calm_hs maxpos T hs l
  end.
Definition hact_names (x : hact) (names : list bytes -> Prop) : Prop :=
  match x with HAct a => names (act_name a) | HOpen ns | HCreate ns => names ns | _ => True end.

(** ** The two programs *)

(** os.File.Read, for a file that is still at its path. *)
Definition sfile_read (fs : node) (f : sfile) (n : nat) : sfile * (bytes * option gerr) :=
  match find fs (sf_os f) with
  | Some (NFile _ b) =>
      match n, drop (sf_pos f) b with
      | O, _ => (f, ([], None))
      | _, [] => (f, ([], Some EEOF))
      | _, l => (SFile (sf_os f) (sf_pos f + length (take n l)) (sf_info f) (sf_her f) (sf_path f), (take n l, None))
      end
  | _ => (f, ([], Some (EPath (B"read") (sf_os f))))
  end.

(** os.File.Seek (lseek); positions up to [maxpos], whence 0, 1 or 2 (Linux
    knows others). *)
Definition sfile_seek (maxpos : Z) (fs : node) (f : sfile) (off whence : Z) : sfile * option Z :=
  match find fs (sf_os f) with
  | Some (NFile _ b) =>
      let t := target b (Z.of_nat (sf_pos f)) off whence in
      if ((0 <=? whence) && (whence <=? 2) && (0 <=? t) && (t <=? maxpos))%Z
      then (SFile (sf_os f) (Z.to_nat t) (sf_info f) (sf_her f) (sf_path f), Some t) else (f, None)
  | _ => (f, None)
  end.

(** A handle on disk: the file and whether it may be written (os.Create) or not
    (os.Open); None once closed. *)
Notation dhandle := (option (sfile * bool)) (only parsing).

Section Programs.
  Context (parse : resolver) (nm : meta) (hp : bytes -> res hinfo) (now : gotime) (maxpos : Z).

  Definition mem_h (m : mem) (hs : list ref) (x : hact) : mem * list ref * hans :=
    match x with
    | HAct a => let '(m, x) := mem_do parse now m a in (m, hs, XAns x)
    | HOpen ns =>
        match open parse m (abs_name ns) with
        | (m, Ok h) => (m, hs ++ [h], XOk true)
        | (m, Err _) => (m, hs, XOk false)
        end
    | HCreate ns =>
        match create parse now m (abs_name ns) with
        | (m, Ok h) => (m, hs ++ [h], XOk true)
        | (m, Err _) => (m, hs, XOk false)
        end
    | HRead k n =>
        match hs !! k with
        | Some h => let '(m, (b, e)) := file_read m h n in (m, hs, XRead b e)
        | None => (m, hs, XOk false)
        end
    | HSeek k off whence =>
        match hs !! k with
        | Some h => let '(m, (p, e)) := file_seek m h off whence in (m, hs, XPos (match e with None => Some p | Some _ => None end))
        | None => (m, hs, XOk false)
        end
    | HWrite k b =>
        match hs !! k with
        | Some h => let '(m, (n, e)) := file_write m h b in (m, hs, XWrote (match e with None => Some n | Some _ => None end))
        | None => (m, hs, XOk false)
        end
    | HClose k =>
        match hs !! k with
        | Some h => let '(m, e) := file_close now m h in (m, hs, XOk (bool_decide (e = None)))
        | None => (m, hs, XOk false)
        end
    end.
  Fixpoint mem_hs (m : mem) (hs : list ref) (l : list hact) : mem * list ref * list hans :=
    match l with
    | [] => (m, hs, [])
    | x :: l => let '(m, hs, r) := mem_h m hs x in let '(m, hs, rs) := mem_hs m hs l in (m, hs, r :: rs)
    end.

  Definition disk_h (fs : node) (s : sto) (hs : list dhandle) (x : hact) : node * sto * list dhandle * hans :=
    match x with
    | HAct a => let '(fs, s, x) := disk_do parse nm hp fs s a in (fs, s, hs, XAns x)
    | HOpen ns =>
        match std_open parse hp fs s (abs_name ns) with
        | (s, Ok f) => (fs, s, hs ++ [Some (f, false)], XOk true)
        | (s, Err _) => (fs, s, hs, XOk false)
        end
    | HCreate ns =>
        match std_create parse nm hp fs s (abs_name ns) with
        | (fs, s, Ok f) => (fs, s, hs ++ [Some (f, true)], XOk true)
        | (fs, s, Err _) => (fs, s, hs, XOk false)
        end
    | HRead k n =>
        match hs !! k with
        | Some (Some (f, w)) => let '(f, (b, e)) := sfile_read fs f n in (fs, s, <[k := Some (f, w)]> hs, XRead b e)
        | Some None => (fs, s, hs, XRead [] (Some (EPath (B"read") (B"file already closed"))))
        | None => (fs, s, hs, XOk false)
        end
    | HSeek k off whence =>
        match hs !! k with
        | Some (Some (f, w)) => let '(f, p) := sfile_seek maxpos fs f off whence in (fs, s, <[k := Some (f, w)]> hs, XPos p)
        | Some None => (fs, s, hs, XPos None)
        | None => (fs, s, hs, XOk false)
        end
    | HWrite k b =>
        match hs !! k with
        | Some (Some (f, true)) =>
            match sfile_write fs f b with
            | Ok (fs, f) => (fs, s, <[k := Some (f, true)]> hs, XWrote (Some (length b)))
            | Err _ => (fs, s, hs, XWrote None)
            end
        | Some _ => (fs, s, hs, XWrote None)
        | None => (fs, s, hs, XOk false)
        end
    | HClose k =>
        match hs !! k with
        | Some (Some _) => (fs, s, <[k := None]> hs, XOk true)
        | _ => (fs, s, hs, XOk false)
        end
    end.
  Fixpoint disk_hs (fs : node) (s : sto) (hs : list dhandle) (l : list hact) : node * sto * list dhandle * list hans :=
    match l with
    | [] => (fs, s, hs, [])
    | x :: l => let '(fs, s, hs, r) := disk_h fs s hs x in let '(fs, s, hs, rs) := disk_hs fs s hs l in (fs, s, hs, r :: rs)
    end.
End Programs.

(** ** Proofs: the in-memory pkger *)
Lemma read_pos b pos n : (0 <= pos)%Z ->
  reader_read (BReader b pos) n =
    match drop (Z.to_nat pos) b with
    | [] => (BReader b pos, ([], Some EEOF))
    | l => (BReader b (pos + Z.of_nat (length (take n l))), (take n l, None))
    end.
Proof.
  intros Hp. unfold reader_read. cbn [r_s r_i]. destruct (Z.leb_spec (Z.of_nat (length b)) pos) as [H|H].
  - by rewrite drop_ge by lia.
  - destruct (drop (Z.to_nat pos) b) as [|x l] eqn:E; [|done]. apply (f_equal length) in E. rewrite drop_length in E. cbn in E. lia.
Qed.

Lemma seek_pos b pos off whence maxpos : (0 <= pos)%Z -> (maxpos < 2^63)%Z ->
  (whence = 0 \/ whence = 1 \/ whence = 2)%Z -> (- 2^63 <= off)%Z -> (target b pos off whence <= maxpos)%Z ->
  reader_seek (BReader b pos) off whence =
    if (target b pos off whence <? 0)%Z then (BReader b pos, (0%Z, Some ENegSeek))
    else (BReader b (target b pos off whence), (target b pos off whence, None)).
Proof.
  intros Hp Hmax Hw Hoff Ht. unfold reader_seek, target in *. cbn [r_s r_i].
  destruct Hw as [-> | [-> | ->]]; cbn [Z.eqb Pos.eqb] in *; [done|rewrite wrap64_id by lia; done|].
  rewrite wrap64_id by lia. done.
Qed.

Section MemSide.
  Context (parse : resolver) (c : hinfo) (rs : list bytes) (mp : bytes) (names : list bytes -> Prop).
  Context (HS : setting parse c rs mp names).
  Context (now : gotime) (maxpos : Z) (Hmax : (maxpos < 2^63)%Z).
  Notation key ns := (Path mp (abs_name ns)).
  Context (foreign : bytes -> Prop).
  Notation mem_shows := (mem_shows c mp names foreign).

  Definition mem_handle (m : mem) (T : tree) (h : ref) (x : hst) : Prop :=
    h < m_next m /\
    match x with
    | HX => True
    | HR ns b pos => (0 <= pos)%Z /\ b <> [] /\ (forall k, m_files m !! k <> Some h) /\
        exists f, m_heap m !! h = Some f /\ f_data f = b /\ f_writer f = None /\
          ((f_reader f = None /\ pos = 0%Z) \/ f_reader f = Some (BReader b pos))
    | HW ns w => names ns /\ m_files m !! key ns = Some h /\ T ns = Some (EFile []) /\
        exists f, m_heap m !! h = Some f /\ default [] (f_writer f) = w
    end.
  Record mem_open (m : mem) (T : tree) (hs : list ref) (xs : list hst) : Prop := {
    mo_shows : mem_shows m T;
    mo_nodup : NoDup hs;
    mo_each : Forall2 (mem_handle m T) hs xs
  }.

  (** What an action leaves alone. *)
  Definition act_op (a : act) : op :=
    match a with
    | AWrite ns _ => OCreate (abs_name ns)
    | AMkdir ns => OMkdirAll (abs_name ns) 493
    | ARemove ns => ORemove (abs_name ns)
    | ARemoveAll ns => ORemoveAll (abs_name ns)
    | ARead ns _ => OOpen (abs_name ns)
    | AStat ns => OStat (abs_name ns)
    end.

  Lemma writes_frame (U : ref -> Prop) (D : path -> Prop) m h bs : wf m -> is_Some (m_heap m !! h) -> U h ->
    frame parse U D m (mem_writes m h bs).1 /\ is_Some (m_heap (mem_writes m h bs).1 !! h).
  Proof.
    revert m. induction bs as [|b bs IH]; intros m Hw [f Hf] HU; cbn [mem_writes].
    - split; [by apply frame_refl|by eexists].
    - unfold file_write. rewrite Hf. cbv zeta.
      match goal with |- context [mem_writes ?m1 h bs] => set (m1' := m1) end.
      assert (Hfr : frame parse U D m m1') by (apply frame_upd; [done|by eexists|done]).
      destruct (IH m1') as [H1 H2]; [apply Hfr|unfold m1'; cbn; rewrite lookup_insert; by eexists|done|].
      split; [by eapply frame_trans|done].
  Qed.

  Lemma create_fresh m name m1 h : wf m -> create parse now m name = (m1, Ok h) ->
    exists pt, parse (m_here m) name = Some pt /\ m_next m <= h /\ h < m_next m1 /\ m_files m1 !! pt = Some h /\
      exists f, m_heap m1 !! h = Some f /\ f_data f = [] /\ f_writer f = None.
  Proof.
    intros Hw E. unfold create in E. pose proof (frame_mkdir parse (mk_fuel (B"/")) now m (B"/") 493 Hw) as Hf.
    destruct (mkdir_all parse (mk_fuel (B"/")) now m (B"/") 493) as [m0 e0]. cbn [fst] in Hf.
    pose proof (fr_next _ _ _ _ _ Hf) as Hnx. case_bool_decide; [done|].
    unfold mem_parse in E. rewrite (fr_here _ _ _ _ _ Hf) in E. destruct (parse (m_here m) name) as [pt|]; [|done].
    destruct (mem_info m0 (p_pkg pt)) as [her|]; [|done]. cbv zeta in E.
    destruct (if bool_decide _ then _ else _); [|done]. cbn [alloc] in E. injection E as <- <-. exists pt. cbn.
    split; [done|]. split; [lia|]. split; [lia|]. rewrite !lookup_insert. split; [done|]. by eexists.
  Qed.

  Lemma act_frame m a : wf m ->
    frame parse (fun r => m_next m <= r) (fun pt => disturbs parse (m_here m) pt (act_op a)) m (mem_do parse now m a).1.
  Proof.
    intros Hw. destruct a as [ns bs|ns|ns|ns|ns sizes|ns]; cbn [mem_do act_op].
    - pose proof (frame_create parse now m (abs_name ns) Hw) as Hf.
      destruct (create parse now m (abs_name ns)) as [m1 [h|e]] eqn:E; cbn [fst] in *.
      2: { eapply frame_weaken; [..|exact Hf]; [by intros ? []|done]. }
      destruct (create_fresh _ _ _ _ Hw E) as (_ & _ & Hh & _ & _ & f0 & Hs & _).
      assert (Hs' : is_Some (m_heap m1 !! h)) by (by eexists).
      assert (Hf1 : frame parse (fun r => m_next m <= r) (fun pt => disturbs parse (m_here m) pt (OCreate (abs_name ns))) m m1).
      { eapply frame_weaken; [..|exact Hf]; [by intros ? []|done]. }
      destruct (writes_frame (fun r => m_next m <= r) (fun pt => disturbs parse (m_here m) pt (OCreate (abs_name ns))) m1 h bs) as [Hf2 [f2 Hs2]];
        [apply Hf1|done|done|].
      destruct (mem_writes m1 h bs) as [m2 ok]. cbn [fst] in *. unfold file_close. rewrite Hs2.
      destruct (f_writer f2); cbn [fst]; (eapply frame_trans; [exact Hf1|]; eapply frame_trans; [exact Hf2|];
        apply frame_upd; [apply Hf2|by eexists|done]).
    - pose proof (frame_mkdir parse (mk_fuel (abs_name ns)) now m (abs_name ns) 493 Hw) as Hf.
      destruct (mkdir_all parse (mk_fuel (abs_name ns)) now m (abs_name ns) 493) as [m1 e]. cbn [fst] in *.
      eapply frame_weaken; [..|exact Hf]; [by intros ? []|done].
    - pose proof (frame_step parse m (now, ORemove (abs_name ns)) Hw) as Hf. cbn [step fst snd] in Hf.
      destruct (remove parse m (abs_name ns)) as [m1 e]. cbn [fst] in *. eapply frame_weaken; [..|exact Hf]; [by intros ? []|done].
    - pose proof (frame_step parse m (now, ORemoveAll (abs_name ns)) Hw) as Hf. cbn [step fst snd] in Hf.
      destruct (remove_all parse m (abs_name ns)) as [m1 e]. cbn [fst] in *. eapply frame_weaken; [..|exact Hf]; [by intros ? []|done].
    - pose proof (frame_open parse (fun r => m_next m <= r) (fun pt => disturbs parse (m_here m) pt (OOpen (abs_name ns))) m (abs_name ns) Hw) as Hf.
      destruct (open parse m (abs_name ns)) as [m1 [h|e]]; exact Hf.
    - by apply frame_refl.
  Qed.

  Lemma target_of_mkdir vs p q : names vs -> parse c p = Some (key vs) -> mk_target parse c p q ->
    exists ws, ws `prefix_of` vs /\ names ws /\ q = key ws.
  Proof.
    revert p. induction vs as [|v vs IH] using rev_ind; intros p Hn Hp HT; [by destruct (st_good _ _ _ _ _ HS _ Hn)|].
    inversion HT as [p' pt Hp'|p' pt q' Hp' Hne HT']; subst; rewrite Hp in Hp'; injection Hp' as <-; [by exists (vs ++ [v])|].
    destruct (st_good _ _ _ _ _ HS _ Hn) as [_ Hg]. apply Forall_app in Hg as [_ Hv]. apply List.Forall_cons_iff in Hv as [Hv _].
    cbn [p_name] in *. rewrite path_split_snoc in HT', Hne by done. cbn [fst] in *. destruct vs as [|u us]; [done|].
    assert (Hnu : names (u :: us)) by (eapply st_up; [done|exact Hn|by eexists|done]).
    destruct (IH _ Hnu (st_slash _ _ _ _ _ HS _ Hnu) HT') as (ws & Hpre & Hws & ->). exists ws. split; [by apply prefix_app_r|done].
  Qed.

  Lemma root_target q : mk_target parse c (B"/") q -> q = Path mp (B"/").
  Proof.
    intros HT. inversion HT as [p' pt Hp'|p' pt q' Hp' Hne HT']; subst; rewrite (st_root _ _ _ _ _ HS) in Hp'; injection Hp' as <-; [done|].
    by destruct Hne.
  Qed.

  (** A file being written stays stored. *)
  Lemma writing_kept T a ns : names (act_name a) -> names ns -> T ns = Some (EFile []) -> calm T a ->
    (plan_do T a).1 ns = T ns -> act_name a <> ns -> ~ disturbs parse c (key ns) (act_op a).
  Proof.
    intros Hna Hn HT Hc Hk Hne Hd. destruct a as [vs bs|vs|vs|vs|vs sizes|vs]; cbn [act_name act_op disturbs] in *.
    - destruct Hd as [Hd|Hd].
      + rewrite (st_parse _ _ _ _ _ HS _ Hna) in Hd. apply (inj Some) in Hd. by apply Hne, (key_inj parse c rs mp names HS).
      + apply root_target in Hd. by apply (key_root parse c rs mp names HS) in Hd.
    - destruct (target_of_mkdir vs _ _ Hna (st_parse _ _ _ _ _ HS _ Hna) Hd) as (ws & Hpre & Hws & E).
      apply (key_inj parse c rs mp names HS) in E as ->; [|done|done]. by eapply Hc.
    - rewrite (st_parse _ _ _ _ _ HS _ Hna) in Hd. apply (inj Some) in Hd. by apply Hne, (key_inj parse c rs mp names HS).
    - destruct Hd as (q & Hq & Hpre). rewrite (st_parse _ _ _ _ _ HS _ Hna) in Hq. injection Hq as <-. cbn [p_name] in Hpre.
      destruct Hc as [_ Hc]. cbn [plan_do fst] in Hk. rewrite bool_decide_eq_true_2 in Hk; [congruence|].
      apply Hc; [by eexists|done].
    - done.
    - done.
  Qed.

  (** Updating an object that is not stored shows nothing. *)
  Lemma shows_upd_hidden m T h f : mem_shows m T -> is_Some (m_heap m !! h) -> (forall k, m_files m !! k <> Some h) -> mem_shows (Mem.upd m h f) T.
  Proof.
    intros Hm Hs Hh. apply (mem_keep parse c rs mp names HS foreign m); [done|apply wf_upd; [apply Hm|done]|done|done|].
    intros pt _. unfold file_at. cbn. destruct (m_files m !! pt) as [r|] eqn:E; [|done]. cbn. rewrite lookup_insert_ne; [done|]. intros ->. by apply (Hh pt).
  Qed.
  (** So does a change of writer or reader. *)
  Lemma shows_upd_same m T h f f' : mem_shows m T -> m_heap m !! h = Some f -> f_info f' = f_info f -> f_data f' = f_data f -> mem_shows (Mem.upd m h f') T.
  Proof.
    intros [Hw Hh Hi Ho Ha] Hf E1 E2. split; [apply wf_upd; [done|by eexists]|done|done|..].
    - intros n [x Hx]. apply Ho. unfold file_at in *. cbn in Hx. destruct (m_files m !! Path mp n) as [r|]; [|done]. cbn in *.
      destruct (decide (r = h)) as [->|]; [by eexists|]. rewrite lookup_insert_ne in Hx by done. by eexists.
    - intros ns Hn. specialize (Ha ns Hn). unfold file_at in *. cbn. destruct (m_files m !! key ns) as [r|]; [|done]. cbn in *.
      destruct (decide (r = h)) as [->|]; [|by rewrite lookup_insert_ne]. rewrite lookup_insert. rewrite Hf in Ha.
      destruct (T ns) as [[|b]|]; [|..|done].
      + destruct Ha as (x & [= <-] & H1 & H2). exists f'. by rewrite E1.
      + destruct Ha as (x & [= <-] & H1 & H2 & H3 & H4). exists f'. by rewrite E1, E2.
  Qed.

  Lemma handles_upd m T T' h f' hs xs k x : mem_open m T hs xs -> hs !! k = Some h ->
    (forall ns h', names ns -> m_files m !! key ns = Some h' -> h' <> h -> T' ns = T ns) ->
    mem_shows (Mem.upd m h f') T' -> mem_handle (Mem.upd m h f') T' h x -> mem_open (Mem.upd m h f') T' hs (<[k := x]> xs).
  Proof.
    intros [Hm Hnd He] Hk HT Hm' Hx. split; [done|done|]. apply Forall2_same_length_lookup_2.
    { rewrite insert_length. by eapply Forall2_length. }
    intros i h' x' Hi Hx'. destruct (decide (i = k)) as [->|Hik].
    - rewrite list_lookup_insert in Hx'; [|apply lookup_lt_Some in Hk; by rewrite <- (Forall2_length _ _ _ He)]. congruence.
    - rewrite list_lookup_insert_ne in Hx' by done. pose proof (Forall2_lookup_lr _ _ _ _ _ _ He Hi Hx') as [Hlt Hh'].
      assert (Hne : h' <> h). { intros ->. apply Hik. by eapply NoDup_lookup. }
      split; [done|]. destruct x' as [ns b pos|ns w|]; [|..|done]; cbn [Mem.upd m_heap m_files]; rewrite lookup_insert_ne by done; [exact Hh'|].
      destruct Hh' as (Hn & Hf & HTn & Hf'). split; [done|]. split; [done|]. split; [|done]. by rewrite (HT ns h').
  Qed.

  Lemma open_frame (D : path -> Prop) m m' T T' hs xs :
    mem_open m T hs xs -> frame parse (fun r => m_next m <= r) D m m' -> mem_shows m' T' ->
    (forall ns w, HW ns w ∈ xs -> names ns -> T ns = Some (EFile []) -> T' ns = T ns /\ ~ D (key ns)) -> mem_open m' T' hs xs.
  Proof.
    intros [Hm Hnd He] Hf Hm' HD. split; [done|done|]. apply Forall2_same_length_lookup_2; [by eapply Forall2_length|].
    intros i h x Hi Hx. pose proof (Forall2_lookup_lr _ _ _ _ _ _ He Hi Hx) as [Hlt Hh].
    pose proof (fr_next _ _ _ _ _ Hf) as Hnx. split; [lia|]. destruct x as [ns b pos|ns w|]; [|..|done].
    - destruct Hh as (H1 & H2 & H3 & H4). rewrite (fr_heap _ _ _ _ _ Hf) by (done || lia). split; [done|]. split; [done|]. split; [|done].
      intros q Hq. destruct (fr_new _ _ _ _ _ Hf _ _ Hq) as [Hq'|]; [by apply (H3 q)|lia].
    - destruct Hh as (H1 & H2 & H3 & H4). rewrite (fr_heap _ _ _ _ _ Hf) by (done || lia).
      destruct (HD ns w) as [HT HDn]; [by eapply elem_of_list_lookup_2|done|done|].
      rewrite (fr_files _ _ _ _ _ Hf _ HDn), HT. done.
  Qed.

  Lemma open_snoc m T hs xs h x : mem_open m T hs xs -> (forall y, y ∈ hs -> y < h) -> mem_handle m T h x -> mem_open m T (hs ++ [h]) (xs ++ [x]).
  Proof.
    intros [Hm Hnd He] Hlt Hx. split; [done| |by apply Forall2_app; [|constructor]].
    apply NoDup_app. split; [done|]. split; [|apply NoDup_singleton]. intros y Hy Hy'%elem_of_list_singleton. subst y. specialize (Hlt _ Hy). lia.
  Qed.

  Lemma open_lt m T hs xs h : mem_open m T hs xs -> h ∈ hs -> h < m_next m.
  Proof.
    intros [_ _ He] Hh. apply elem_of_list_lookup in Hh as [i Hi]. destruct (Forall2_lookup_l _ _ _ _ _ He Hi) as (x & _ & H & _). done.
  Qed.

  Lemma shows_upd_file m T ns h f w f' : mem_shows m T -> names ns -> m_files m !! key ns = Some h -> m_heap m !! h = Some f ->
    d_isdir (f_info f') = false -> d_name (f_info f') = List.last ns [] -> d_size (f_info f') = Z.of_nat (length w) -> f_data f' = w ->
    mem_shows (Mem.upd m h f') (put T ns (EFile w)).
  Proof.
    intros [Hw Hh Hi Ho Ha] Hn Hk Hf E1 E2 E3 E4. split; [apply wf_upd; [done|by eexists]|done|done|..].
    - intros n [x Hx]. apply Ho. unfold file_at in *. cbn in Hx. destruct (m_files m !! Path mp n) as [r|]; [|done]. cbn in *.
      destruct (decide (r = h)) as [->|]; [by eexists|]. rewrite lookup_insert_ne in Hx by done. by eexists.
    - intros vs Hvs. unfold put. case_bool_decide as E.
      + subst vs. exists f'. unfold file_at. cbn. rewrite Hk. cbn. by rewrite lookup_insert.
      + specialize (Ha vs Hvs). unfold file_at in *. cbn. destruct (m_files m !! key vs) as [r|] eqn:Er; [|done]. cbn in *.
        rewrite lookup_insert_ne; [done|]. intros <-. apply E. apply (key_inj parse c rs mp names HS); [done|done|]. by eapply wf_inj.
  Qed.

  Lemma mem_hstep m T hs xs x : mem_open m T hs xs -> hact_names x names -> calm_h maxpos T xs x ->
    let '(T', xs', r) := plan_h T xs x in
    exists m' hs', mem_h parse now m hs x = (m', hs', r) /\ mem_open m' T' hs' xs'.
  Proof.
    intros Ho Hn Hc. pose proof Ho as [Hm Hnd He]. pose proof (ms_wf _ _ _ _ _ _ Hm) as Hw. pose proof (ms_here _ _ _ _ _ _ Hm) as Hh.
    destruct x as [a|ns|ns|k n|k off whence|k b|k]; cbn [hact_names] in Hn.
    - destruct Hc as [Hc Hu]. cbn [plan_h]. destruct (mem_act parse c rs mp names HS now foreign m T a Hm Hn Hc) as (m' & E & Hm').
      pose proof (act_frame m a Hw) as Hf. rewrite E in Hf. cbn [fst] in Hf.
      destruct (plan_do T a) as [T' r] eqn:Ep. cbn [fst snd] in *. exists m', hs. cbn [mem_h]. rewrite E. split; [done|].
      eapply open_frame; [done|exact Hf|done|]. intros ns w Hin Hns HT. rewrite Forall_forall in Hu. destruct (Hu _ Hin) as [HT' Hna].
      split; [done|]. rewrite Hh. eapply writing_kept; [done|done|exact HT|done| |done]. by rewrite Ep.
    - destruct Hc as [Hc1 Hc2]. cbn [plan_h mem_h]. pose proof (ms_at _ _ _ _ _ _ Hm ns Hn) as Hat.
      pose proof (frame_open parse (fun r => m_next m <= r) (fun _ => False) m (abs_name ns) Hw) as Hf.
      pose proof (mem_act parse c rs mp names HS now foreign m T (ARead ns []) Hm Hn (conj Hc1 (conj Hc2 (List.Forall_nil _)))) as Ha. cbn [mem_do plan_do fst snd] in Ha.
      unfold open, mem_parse in *. rewrite Hh, (st_parse _ _ _ _ _ HS _ Hn) in *. destruct (T ns) as [[|b]|] eqn:ET; [done| |].
      + destruct Hat as (f & Hat & _ & _ & _ & Hd). rewrite Hat in *. cbn [alloc] in *.
        destruct Ha as (m' & E & Hm'). apply (f_equal fst) in E; cbn [fst] in E; subst m'. cbn [fst] in Hf. eexists _, _. split; [done|]. apply open_snoc.
        * eapply open_frame; [done|exact Hf|done|]. intros vs w _ _ HT. split; [done|tauto].
        * intros y Hy. by eapply open_lt.
        * split; [cbn; lia|]. split; [done|]. split; [congruence|]. split.
          { intros q Hq. cbn in Hq. apply (wf_files_lt _ _ _ Hw) in Hq. lia. }
          eexists. split; [cbn; by rewrite lookup_insert|]. split; [done|]. split; [done|]. by left.
      + rewrite Hat. by exists m, hs.
    - destruct Hc as [Hc1 Hc2]. cbn [plan_h mem_h].
      destruct (mem_act parse c rs mp names HS now foreign m T (AWrite ns []) Hm Hn Hc1) as (m' & E & Hm'). cbn [mem_do plan_do] in E, Hm'.
      pose proof (frame_create parse now m (abs_name ns) Hw) as Hf.
      assert (HD : forall vs w, HW vs w ∈ xs -> names vs -> ~ disturbs parse c (key vs) (OCreate (abs_name ns)) /\ vs <> ns).
      { intros vs w Hin Hvs. assert (Hne : vs <> ns). { intros ->. apply Hc2. apply elem_of_list_lookup in Hin as [i Hi]. exists i. right. by exists w. }
        split; [|done]. intros [Hd|Hd].
        - rewrite (st_parse _ _ _ _ _ HS _ Hn) in Hd. apply (inj Some) in Hd. by apply Hne, (key_inj parse c rs mp names HS).
        - apply root_target in Hd. by apply (key_root parse c rs mp names HS) in Hd. }
      destruct (create parse now m (abs_name ns)) as [m1 [h|e]] eqn:Ec; cbn [fst] in Hf.
      + destruct (create_fresh _ _ _ _ Hw Ec) as (pt & Hpt & Hge & Hlt & Hst & f & Hhf & Hfd & Hfw).
        rewrite Hh, (st_parse _ _ _ _ _ HS _ Hn) in Hpt. injection Hpt as <-.
        cbn [mem_writes] in E. unfold file_close in E. rewrite Hhf, Hfw in E.
        destruct (dir_at T (above ns)); [|done]. cbn [fst snd] in *. injection E as <-. exists m1, (hs ++ [h]). split; [done|].
        assert (Hm1 : mem_shows m1 (put T ns (EFile []))).
        { change (fun vs => if bool_decide (vs = ns) then Some (EFile (concat [])) else T vs) with (put T ns (EFile [])) in Hm'.
          eapply (shows_upd_same _ _ h _ f) in Hm'; [|cbn; by rewrite lookup_insert|done|done].
          unfold Mem.upd in Hm'. cbn in Hm'. rewrite insert_insert, insert_id in Hm' by done. by destruct m1. }
        apply open_snoc.
        * eapply open_frame; [done| |done|].
          { eapply frame_weaken; [..|exact Hf]; [by intros ? []|intros ? H; exact H]. }
          cbn. intros vs w Hin Hvs HT. destruct (HD vs w Hin Hvs) as [Hd Hne]. rewrite Hh. split; [|done]. unfold put. by rewrite bool_decide_eq_false_2.
        * intros y Hy. pose proof (open_lt _ _ _ _ _ Ho Hy). lia.
        * split; [done|]. split; [done|]. split; [done|]. split; [unfold put; by rewrite bool_decide_eq_true_2|]. exists f. by rewrite Hfw.
      + destruct (dir_at T (above ns)); [done|]. cbn [fst snd] in *. injection E as <-. exists m1, hs. split; [done|].
        eapply open_frame; [done| |done|].
        { eapply frame_weaken; [..|exact Hf]; [by intros ? []|intros ? H; exact H]. }
        cbn. intros vs w Hin Hvs HT. destruct (HD vs w Hin Hvs) as [Hd Hne]. by rewrite Hh.
    - destruct Hc as (Hn0 & ns & b & pos & Hx). cbn [plan_h mem_h]. rewrite Hx. destruct (Forall2_lookup_r _ _ _ _ _ He Hx) as (h & Hk & Hlt & Hp & Hb & Hns & f & Hf & Hd & Hwr & Hr).
      rewrite Hk. unfold file_read. rewrite Hf.
      assert (cur_reader f = Some (BReader b pos)) as ->.
      { unfold cur_reader. destruct Hr as [[-> ->]| ->]; [|done]. rewrite Hd. by destruct b. }
      rewrite read_pos by done. destruct (drop (Z.to_nat pos) b) as [|y l] eqn:Ed.
      + eexists _, _. split; [done|]. rewrite <- (list_insert_id _ _ _ Hx). apply (handles_upd _ T); [done|done|done|..].
        * apply shows_upd_hidden; [done|by eexists|done].
        * split; [done|]. split; [done|]. split; [done|]. split; [done|]. eexists. split; [cbn; by rewrite lookup_insert|]. split; [done|]. split; [done|]. by right.
      + eexists _, _. split; [done|]. apply (handles_upd _ T); [done|done|done|..].
        * apply shows_upd_hidden; [done|by eexists|done].
        * split; [done|]. split; [lia|]. split; [done|]. split; [done|]. eexists. split; [cbn; by rewrite lookup_insert|]. split; [done|]. split; [done|]. by right.
    - destruct Hc as (Hwh & Hoff & ns & b & pos & Hx & Ht). cbn [plan_h mem_h]. rewrite Hx.
      destruct (Forall2_lookup_r _ _ _ _ _ He Hx) as (h & Hk & Hlt & Hp & Hb & Hns & f & Hf & Hd & Hwr & Hr).
      rewrite Hk. unfold file_seek. rewrite Hf.
      assert (cur_reader f = Some (BReader b pos)) as ->.
      { unfold cur_reader. destruct Hr as [[-> ->]| ->]; [|done]. rewrite Hd. by destruct b. }
      rewrite (seek_pos b pos off whence maxpos) by done. destruct (Z.ltb_spec (target b pos off whence) 0) as [Hneg|Hpos].
      + eexists _, _. split; [done|]. rewrite <- (list_insert_id _ _ _ Hx). apply (handles_upd _ T); [done|done|done|..].
        * apply shows_upd_hidden; [done|by eexists|done].
        * split; [done|]. split; [done|]. split; [done|]. split; [done|]. eexists. split; [cbn; by rewrite lookup_insert|]. split; [done|]. split; [done|]. by right.
      + eexists _, _. split; [done|]. apply (handles_upd _ T); [done|done|done|..].
        * apply shows_upd_hidden; [done|by eexists|done].
        * split; [done|]. split; [done|]. split; [done|]. split; [done|]. eexists. split; [cbn; by rewrite lookup_insert|]. split; [done|]. split; [done|]. by right.
    - destruct Hc as (ns & w & Hx). cbn [plan_h mem_h]. rewrite Hx. destruct (Forall2_lookup_r _ _ _ _ _ He Hx) as (h & Hk & Hlt & Hns & Hst & HT & f & Hf & Hwr).
      rewrite Hk. unfold file_write. rewrite Hf. cbv zeta. eexists _, _. split; [done|]. apply (handles_upd _ T); [done|done|done|..].
      + eapply shows_upd_same; done.
      + split; [done|]. split; [done|]. split; [done|]. split; [done|]. eexists. split; [cbn; by rewrite lookup_insert|]. cbn. by rewrite Hwr.
    - destruct Hc as (x & Hx & Hnx). cbn [plan_h mem_h]. rewrite Hx. destruct (Forall2_lookup_r _ _ _ _ _ He Hx) as (h & Hk & Hlt & Hh').
      rewrite Hk. destruct x as [ns b pos|ns w|]; [..|done].
      + destruct Hh' as (Hp & Hb & Hns & f & Hf & Hd & Hwr & Hr). unfold file_close. rewrite Hf, Hwr. eexists _, _. split; [done|].
        apply (handles_upd _ T); [done|done|done| |done]. apply shows_upd_hidden; [done|by eexists|done].
      + destruct Hh' as (Hns & Hst & HT & f & Hf & Hwr). unfold file_close. rewrite Hf.
        pose proof (ms_at _ _ _ _ _ _ Hm ns Hns) as Hat. rewrite HT in Hat. unfold file_at in Hat. rewrite Hst in Hat. cbn in Hat. rewrite Hf in Hat.
        destruct Hat as (f0 & [= <-] & Hd1 & Hd2 & Hd3 & Hd4).
        assert (HT' : forall vs h', names vs -> m_files m !! key vs = Some h' -> h' <> h -> put T ns (EFile w) vs = T vs).
        { intros vs h' Hvs Hf' Hne. unfold put. rewrite bool_decide_eq_false_2; [done|]. intros ->. congruence. }
        destruct (f_writer f) as [w'|]; cbn in Hwr; subst w; (eexists _, _; split; [done|]; apply (handles_upd _ T); [done|done|exact HT'| |done];
          eapply shows_upd_file; [done|done|done|done|..]; cbn; done).
  Qed.

  Lemma mem_hprogram l m T hs xs : mem_open m T hs xs -> Forall (fun x => hact_names x names) l -> calm_hs maxpos T xs l ->
    let '(T', xs', r) := plan_hs T xs l in
    exists m' hs', mem_hs parse now m hs l = (m', hs', r) /\ mem_open m' T' hs' xs'.
  Proof.
    revert m T hs xs. induction l as [|x l IH]; intros m T hs xs Ho Hl Hc; [by exists m, hs|].
    apply List.Forall_cons_iff in Hl as [Hn Hl]. destruct Hc as [Hc1 Hc2]. cbn [mem_hs plan_hs].
    pose proof (mem_hstep m T hs xs x Ho Hn Hc1) as Hs. destruct (plan_h T xs x) as [[T1 xs1] r1]. destruct Hs as (m1 & hs1 & -> & Ho1).
    pose proof (IH m1 T1 hs1 xs1 Ho1 Hl Hc2) as Hs. destruct (plan_hs T1 xs1 l) as [[T2 xs2] r2]. destruct Hs as (m2 & hs2 & -> & Ho2).
    by exists m2, hs2.
  Qed.
End MemSide.

(** ** Proofs: the disk *)

(** On disk a file being written already shows what has been written. *)
Record shadow (T Td : tree) (xs : list hst) : Prop := {
  sh_writing : forall k vs w, xs !! k = Some (HW vs w) -> T vs = Some (EFile []) /\ Td vs = Some (EFile w);
  sh_other : forall vs, (forall k w, xs !! k <> Some (HW vs w)) -> Td vs = T vs;
  sh_once : forall i j vs w w', xs !! i = Some (HW vs w) -> xs !! j = Some (HW vs w') -> i = j
}.
Definition writing (xs : list hst) (vs : list bytes) : Prop := exists k w, xs !! k = Some (HW vs w).
Lemma writing_dec xs vs : writing xs vs \/ (forall k w, xs !! k <> Some (HW vs w)).
Proof.
  induction xs as [|x xs IH]; [right; by intros k w|]. destruct IH as [(k & w & H)|H]; [left; by exists (S k), w|].
  assert ((exists w, x = HW vs w) \/ forall w, x <> HW vs w) as [[w ->]|Hx].
  { destruct x as [ns b pos|ns w|]; [by right| |by right]. destruct (decide (ns = vs)) as [->|]; [left; by exists w|right; congruence]. }
  - left. by exists 0, w.
  - right. intros [|k] w; [cbn; intros [= E]; by apply (Hx w)|apply H].
Qed.

Section Shadow.
  Context (T Td : tree) (xs : list hst) (Hs : shadow T Td xs).
  Lemma sh_cases vs : Td vs = T vs \/ (writing xs vs /\ T vs = Some (EFile []) /\ exists w, Td vs = Some (EFile w)).
  Proof.
    destruct (writing_dec xs vs) as [(k & w & H)|H]; [|left; by apply Hs]. right. destruct (sh_writing _ _ _ Hs _ _ _ H) as [H1 H2].
    split; [by exists k, w|]. split; [done|by exists w].
  Qed.
  Lemma sh_file vs b : Td vs = Some (EFile b) -> exists b', T vs = Some (EFile b').
  Proof. intros H. destruct (sh_cases vs) as [E|(_ & E & _)]; [exists b; congruence|by eexists]. Qed.
  Lemma sh_dir vs : Td vs = Some EDir <-> T vs = Some EDir.
  Proof. destruct (sh_cases vs) as [E|(_ & E & w & E')]; [by rewrite E|]. by rewrite E, E'. Qed.
  Lemma sh_none vs : Td vs = None <-> T vs = None.
  Proof. destruct (sh_cases vs) as [E|(_ & E & w & E')]; [by rewrite E|]. by rewrite E, E'. Qed.
  Lemma sh_dir_at vs : dir_at Td vs = dir_at T vs.
  Proof.
    destruct vs as [|v vs]; [done|]. unfold dir_at. destruct (sh_cases (v :: vs)) as [E|(_ & E & w & E')]; [by rewrite E|]. by rewrite E, E'.
  Qed.

  Lemma sh_calm a : calm T a -> ~ writing xs (act_name a) \/ (exists ns bs, a = AWrite ns bs) -> calm Td a.
  Proof.
    intros Hc Hw. destruct a as [ns bs|ns|ns|ns|ns sizes|ns]; cbn [calm act_name] in *.
    - destruct Hc as [H1 H2]. split; [intros b E; destruct (sh_file _ _ E) as [b' E']; by eapply H1|]. by rewrite sh_dir.
    - intros vs b Hp E. destruct (sh_file _ _ E) as [b' E']. by eapply Hc.
    - intros E v. apply sh_none, Hc, sh_dir, E.
    - destruct Hc as [H1 H2]. split; [intros vs b Hp Hn E; destruct (sh_file _ _ E) as [b' E']; by eapply H1|].
      intros vs [e He] Hp. apply H2; [|done]. destruct (T vs) eqn:E; [by eexists|]. apply sh_none in E. congruence.
    - destruct Hw as [Hw|(? & ? & ?)]; [|done]. destruct Hc as (H1 & H2 & H3). destruct (sh_cases ns) as [->|(Hx & _)]; [done|by destruct Hw].
    - done.
  Qed.

  Lemma plan_shadow a : calm T a -> Forall (undisturbed T (plan_do T a).1 a) xs ->
    calm Td a /\ (plan_do Td a).2 = (plan_do T a).2 /\ shadow (plan_do T a).1 (plan_do Td a).1 xs.
  Proof.
    intros Hc Hu.
    assert (Hna : ~ writing xs (act_name a)).
    { intros (k & w & Hk). rewrite Forall_lookup in Hu. by destruct (Hu _ _ Hk) as [_ ?]. }
    assert (HT' : forall k vs w, xs !! k = Some (HW vs w) -> (plan_do T a).1 vs = T vs /\ act_name a <> vs).
    { intros k vs w Hk. rewrite Forall_lookup in Hu. by apply (Hu _ _ Hk). }
    assert (Hself : Td (act_name a) = T (act_name a)) by (destruct (sh_cases (act_name a)) as [E|[E _]]; [done|by destruct Hna]).
    split; [by apply sh_calm; [|left]|]. clear Hu.
    assert (forall (T' Td' : tree), (plan_do T a).1 = T' ->
      (forall k vs w, xs !! k = Some (HW vs w) -> Td' vs = Td vs) ->
      (forall vs, (forall k w, xs !! k <> Some (HW vs w)) -> Td' vs = T' vs) -> shadow T' Td' xs) as Hmk.
    { intros T' Td' E1 H1 H2. split.
      - intros k vs w Hk. destruct (HT' _ _ _ Hk) as [Ht _]. rewrite E1 in Ht. rewrite Ht, (H1 _ _ _ Hk). by eapply sh_writing.
      - done.
      - apply Hs. }
    destruct a as [ns bs|ns|ns|ns|ns sizes|ns]; cbn [plan_do act_name] in *.
    - rewrite (sh_dir_at (above ns)). destruct (dir_at T (above ns)); cbn [fst snd] in *; [|by split].
      split; [done|]. apply Hmk; [done|..].
      + intros k vs w Hk. destruct (HT' _ _ _ Hk) as [_ Hne]. by rewrite bool_decide_eq_false_2.
      + intros vs Hvs. case_bool_decide; [done|by apply Hs].
    - split; [done|]. cbn [fst] in *. apply Hmk; [done|..].
      + intros k vs w Hk. destruct (HT' _ _ _ Hk) as [Ht _]. destruct (sh_writing _ _ _ Hs _ _ _ Hk) as [Ht' _]. case_bool_decide; [congruence|done].
      + intros vs Hvs. case_bool_decide; [done|by apply Hs].
    - rewrite Hself. destruct (T ns); cbn [fst snd] in *; [|by split]. split; [done|]. apply Hmk; [done|..].
      + intros k vs w Hk. destruct (HT' _ _ _ Hk) as [_ Hne]. by rewrite bool_decide_eq_false_2.
      + intros vs Hvs. case_bool_decide; [done|by apply Hs].
    - split; [done|]. cbn [fst] in *. apply Hmk; [done|..].
      + intros k vs w Hk. destruct (HT' _ _ _ Hk) as [Ht _]. destruct (sh_writing _ _ _ Hs _ _ _ Hk) as [Ht' _]. case_bool_decide; [congruence|done].
      + intros vs Hvs. case_bool_decide; [done|by apply Hs].
    - by rewrite Hself.
    - by rewrite Hself.
  Qed.
End Shadow.

Lemma write_ok fs f b fs' f' : sfile_write fs f b = Ok (fs', f') -> sf_os f' = sf_os f /\ sf_pos f' = sf_pos f + length b.
Proof. unfold sfile_write, at_path. destruct (is_rooted (sf_os f)); [|done]. destruct (DiskOps.upd _ _ _); [|done]. by intros [= <- <-]. Qed.

Section DiskSide.
  Context (parse : resolver) (c : hinfo) (rs : list bytes) (mp : bytes) (names : list bytes -> Prop).
  Context (HS : setting parse c rs mp names).
  Context (nm : meta) (Hnm : n_ok nm = true) (hp : bytes -> res hinfo) (maxpos : Z).
  Notation disk_shows := (disk_shows rs names).

  Definition disk_handle (T : tree) (d : dhandle) (x : hst) : Prop :=
    match x, d with
    | HX, None => True
    | HR ns b pos, Some (f, false) => names ns /\ T ns = Some (EFile b) /\ b <> [] /\ sf_os f = abs_name (rs ++ ns) /\ Z.of_nat (sf_pos f) = pos
    | HW ns w, Some (f, true) => names ns /\ sf_os f = abs_name (rs ++ ns) /\ sf_pos f = length w
    | _, _ => False
    end.
  Record disk_open (fs : node) (T : tree) (ds : list dhandle) (xs : list hst) (Td : tree) : Prop := {
    do_shows : disk_shows fs Td;
    do_shadow : shadow T Td xs;
    do_each : Forall2 (disk_handle T) ds xs
  }.

  Lemma each_insert T T' ds xs k d x : Forall2 (disk_handle T) ds xs -> is_Some (xs !! k) ->
    (forall i ns b pos, i <> k -> xs !! i = Some (HR ns b pos) -> T ns = Some (EFile b) -> b <> [] -> T' ns = T ns) ->
    disk_handle T' d x -> Forall2 (disk_handle T') (<[k := d]> ds) (<[k := x]> xs).
  Proof.
    intros He [x0 Hk] HT Hx. apply Forall2_same_length_lookup_2; [rewrite !insert_length; by eapply Forall2_length|].
    intros i d' x' Hd Hx'. pose proof (lookup_lt_Some _ _ _ Hk) as Hlt. destruct (decide (i = k)) as [->|Hik].
    - rewrite list_lookup_insert in Hd by (by rewrite (Forall2_length _ _ _ He)). rewrite list_lookup_insert in Hx' by done. congruence.
    - rewrite list_lookup_insert_ne in Hd by done. rewrite list_lookup_insert_ne in Hx' by done. pose proof (Forall2_lookup_lr _ _ _ _ _ _ He Hd Hx') as H.
      destruct x' as [ns b pos|ns w|]; [|exact H|exact H]. destruct d' as [[f []]|]; [done| |done]. cbn in H |- *.
      destruct H as (H1 & H2 & H3 & H4). split; [done|]. by rewrite (HT i ns b pos).
  Qed.
  Lemma each_change T T' ds xs : Forall2 (disk_handle T) ds xs ->
    (forall i ns b pos, xs !! i = Some (HR ns b pos) -> T ns = Some (EFile b) -> b <> [] -> T' ns = T ns) -> Forall2 (disk_handle T') ds xs.
  Proof.
    intros He HT. apply Forall2_same_length_lookup_2; [by eapply Forall2_length|]. intros i d' x' Hd Hx'.
    pose proof (Forall2_lookup_lr _ _ _ _ _ _ He Hd Hx') as H.
    destruct x' as [ns b pos|ns w|]; [|exact H|exact H]. destruct d' as [[f []]|]; [done| |done]. cbn in H |- *.
    destruct H as (H1 & H2 & H3 & H4). split; [done|]. by rewrite (HT i ns b pos).
  Qed.

  (** Changing a handle that is not, and does not become, one of a file being written. *)
  Lemma shadow_insert T Td xs k x : shadow T Td xs -> (forall vs w, xs !! k <> Some (HW vs w)) -> (forall vs w, x <> HW vs w) -> shadow T Td (<[k := x]> xs).
  Proof.
    intros [H1 H2 H3] Hk Hx.
    assert (E : forall i vs w, <[k := x]> xs !! i = Some (HW vs w) <-> xs !! i = Some (HW vs w)).
    { intros i vs w. destruct (decide (i = k)) as [->|]; [|by rewrite list_lookup_insert_ne].
      split; [|intros H; by apply Hk in H]. intros H. destruct (decide (k < length xs)) as [Hl|Hl].
      - rewrite list_lookup_insert in H by done. injection H as E. by apply Hx in E.
      - rewrite lookup_ge_None_2 in H; [done|]. rewrite insert_length. lia. }
    split.
    - intros i vs w Hi. apply E in Hi. by eapply H1.
    - intros vs Hv. apply H2. intros i w Hi. apply (Hv i w). by apply E.
    - intros i j vs w w' Hi Hj. apply E in Hi, Hj. by eapply H3.
  Qed.

  Lemma disk_hstep fs s T ds xs Td x : disk_open fs T ds xs Td -> beside_it c rs mp s -> hact_names x names -> calm_h maxpos T xs x ->
    let '(T', xs', r) := plan_h T xs x in
    exists fs' ds' Td', disk_h parse nm hp maxpos fs s ds x = (fs', s, ds', r) /\ disk_open fs' T' ds' xs' Td'.
  Proof.
    intros Ho Hb Hn Hc. pose proof Ho as [Hd Hsh He].
    pose proof (st_rs _ _ _ _ _ HS) as Hrs.
    assert (Hfs : forall X ns, names ns -> find X (abs_name (rs ++ ns)) = get X (rs ++ ns)).
    { intros X ns Hns. apply find_abs. apply Forall_app. split; [done|]. by apply (st_good _ _ _ _ _ HS). }
    assert (Hjoin : forall ns, names ns -> join2 (abs_name rs) (abs_name ns) = abs_name (rs ++ ns)).
    { intros ns Hns. apply clean_join_abs; [done|]. by apply (st_good _ _ _ _ _ HS). }
    assert (Hread : forall k ns b pos, xs !! k = Some (HR ns b pos) -> exists f i, ds !! k = Some (Some (f, false)) /\
              find fs (sf_os f) = Some (NFile i b) /\ Z.of_nat (sf_pos f) = pos /\ names ns /\ T ns = Some (EFile b) /\ b <> [] /\ sf_os f = abs_name (rs ++ ns)).
    { intros k ns b pos Hx. destruct (Forall2_lookup_r _ _ _ _ _ He Hx) as ([[f []]|] & Hk & Hh); [done| |done]. destruct Hh as (H1 & H2 & H3 & H4 & H5).
      assert (Td ns = Some (EFile b)) as HTd. { destruct (sh_cases T Td xs Hsh ns) as [E|(_ & E & _)]; congruence. }
      pose proof (ds_at _ _ _ _ Hd ns H1) as Hat. rewrite HTd in Hat. destruct Hat as (i & Hat & _). exists f, i. rewrite H4, Hfs by done. done. }
    destruct x as [a|ns|ns|k n|k off whence|k b|k]; cbn [hact_names] in Hn.
    - destruct Hc as [Hc Hu]. cbn [plan_h disk_h]. destruct (plan_shadow T Td xs Hsh a Hc Hu) as (Hc' & Ea & Hsh').
      destruct (disk_act parse c rs mp names HS nm Hnm hp fs s Td a Hd Hb Hn Hc') as (fs' & E & Hd'). rewrite Ea in E.
      destruct (plan_do T a) as [T' r] eqn:Ep. cbn [fst snd] in *. rewrite E. exists fs', ds, (plan_do Td a).1. split; [done|]. split; [done|done|].
      eapply each_change; [done|]. intros i ns b pos Hi _ _. rewrite Forall_lookup in Hu. by apply (Hu _ _ Hi).
    - destruct Hc as [Hc1 Hc2]. cbn [plan_h disk_h]. destruct Hb as [Hh (her & Hinfo & Hdir)].
      unfold std_open. rewrite Hh, (st_parse _ _ _ _ _ HS _ Hn). cbn [p_pkg p_name]. rewrite Hinfo, Hdir, Hjoin by done.
      unfold os_open. rewrite Hfs by done. pose proof (ds_at _ _ _ _ Hd ns Hn) as Hat.
      assert (Td ns = T ns) as HTd by (destruct (sh_cases T Td xs Hsh ns) as [E|(_ & E & _)]; congruence).
      rewrite HTd in Hat. destruct (T ns) as [[|b]|] eqn:ET; [done| |].
      + destruct Hat as (i & -> & Hok). cbn [n_meta]. rewrite Hok. eexists _, _, Td. split; [done|]. split; [done|..].
        * destruct Hsh as [H1 H2 H3].
          assert (E : forall i vs w, (xs ++ [HR ns b 0]) !! i = Some (HW vs w) <-> xs !! i = Some (HW vs w)).
          { intros j vs w. destruct (decide (j < length xs)) as [Hl|Hl]; [by rewrite lookup_app_l|]. rewrite lookup_app_r by lia.
            rewrite (lookup_ge_None_2 xs) by lia. destruct (j - length xs) as [|[]]; done. }
          split.
          -- intros j vs w Hi. apply E in Hi. by eapply H1.
          -- intros vs Hv. apply H2. intros j w Hi. apply (Hv j w). by apply E.
          -- intros j j' vs w w' Hi Hj. apply E in Hi, Hj. by eapply H3.
        * apply Forall2_app; [done|]. constructor; [|done]. cbn. split; [done|]. split; [done|]. split; [congruence|]. done.
      + rewrite Hat. by exists fs, ds, Td.
    - destruct Hc as [Hc1 Hc2]. cbn [plan_h disk_h].
      assert (Hcd : calm Td (AWrite ns [])) by (eapply sh_calm; [done|done|right; by eexists _, _]).
      destruct (disk_act parse c rs mp names HS nm Hnm hp fs s Td (AWrite ns []) Hd Hb Hn Hcd) as (fs' & E & Hd'). cbn [disk_do plan_do] in E, Hd'.
      rewrite (sh_dir_at T Td xs Hsh (above ns)) in E, Hd'.
      assert (Hnw : forall k w, xs !! k <> Some (HW ns w)) by (intros k w Hk; apply Hc2; exists k; right; by eexists).
      assert (Hnr : forall k b pos, xs !! k <> Some (HR ns b pos)) by (intros k b pos Hk; apply Hc2; exists k; left; by eexists _, _).
      destruct (std_create parse nm hp fs s (abs_name ns)) as [[fs1 s1] [f|e]] eqn:Ec.
      + cbn [disk_writes] in E. destruct (dir_at T (above ns)); [|done]. cbn [fst snd] in *. injection E as <- <-.
        exists fs1, (ds ++ [Some (f, true)]), (put Td ns (EFile [])). split; [done|].
        assert (Hf : sf_os f = abs_name (rs ++ ns) /\ sf_pos f = 0).
        { destruct Hb as [Hh (her & Hinfo & Hdir)]. unfold std_create in Ec. rewrite Hh, (st_parse _ _ _ _ _ HS _ Hn) in Ec. cbn [p_pkg p_name] in Ec.
          rewrite Hinfo, Hdir, Hjoin in Ec by done. destruct (os_create nm fs _); [|done]. destruct (os_stat _ _); [|done]. by injection Ec as _ <-. }
        split; [done|..].
        * destruct Hsh as [H1 H2 H3].
          assert (EE : forall i vs w, (xs ++ [HW ns []]) !! i = Some (HW vs w) <-> xs !! i = Some (HW vs w) \/ (i = length xs /\ vs = ns /\ w = [])).
          { intros j vs w. destruct (decide (j < length xs)) as [Hl|Hl]; [rewrite lookup_app_l by done; intuition lia|]. rewrite lookup_app_r by lia.
            rewrite (lookup_ge_None_2 xs) by lia. destruct (j - length xs) as [|[]] eqn:Ej; cbn; split; try done.
            - intros [= <- <-]. right. split; [lia|done].
            - by intros [?|(_ & -> & ->)].
            - intros [?|(-> & _)]; [done|lia].
            - intros [?|(-> & _)]; [done|lia]. }
          split.
          -- intros j vs w Hi. apply EE in Hi as [Hi|(_ & -> & ->)]; unfold put.
             ++ rewrite bool_decide_eq_false_2; [by eapply H1|]. intros ->. by apply Hnw in Hi.
             ++ by rewrite bool_decide_eq_true_2.
          -- intros vs Hv. unfold put. case_bool_decide; [done|]. apply H2. intros j w Hi. apply (Hv j w). apply EE. by left.
          -- intros j j' vs w w' Hi Hj. apply EE in Hi as [Hi|(-> & -> & ->)]; apply EE in Hj as [Hj|(-> & E2 & ->)]; [by eapply H3|..|done].
             ++ subst vs. by apply Hnw in Hi.
             ++ by apply Hnw in Hj.
        * apply Forall2_app; [|constructor; [|done]; split; [done|]; by destruct Hf].
          eapply each_change; [done|]. intros i vs b pos Hi _ _. unfold put. rewrite bool_decide_eq_false_2; [done|]. intros ->. by apply Hnr in Hi.
      + destruct (dir_at T (above ns)); [done|]. cbn [fst snd] in *. injection E as <- <-. by exists fs1, ds, Td.
    - destruct Hc as (Hn0 & ns & b & pos & Hx). cbn [plan_h disk_h]. rewrite Hx. destruct (Hread _ _ _ _ Hx) as (f & i & Hk & Hf & Hpos & Hns & HT & Hb0 & Hos).
      rewrite Hk. unfold sfile_read. rewrite Hf. assert (Z.to_nat pos = sf_pos f) as Hp' by lia. rewrite Hp'.
      destruct n as [|n]; [done|]. destruct (drop (sf_pos f) b) as [|y l] eqn:Ed.
      + exists fs, ds, Td. split; [|done]. cbv beta iota. do 2 f_equal. apply (list_insert_id _ _ _ Hk).
      + eexists _, _, Td. split; [done|]. split; [done|apply shadow_insert; [done|congruence|done]|].
        apply (each_insert T); [done|by eexists|done|]. cbn [disk_handle sf_os sf_pos]. split; [done|]. split; [done|]. split; [done|]. split; [done|].
        rewrite Nat2Z.inj_add. by rewrite Hpos.
    - destruct Hc as (Hwh & Hoff & ns & b & pos & Hx & Ht). cbn [plan_h disk_h]. rewrite Hx.
      destruct (Hread _ _ _ _ Hx) as (f & i & Hk & Hf & Hpos & Hns & HT & Hb0 & Hos). rewrite Hk. unfold sfile_seek. rewrite Hf, Hpos.
      assert ((0 <=? whence) && (whence <=? 2) = true)%Z as -> by (destruct Hwh as [-> | [-> | ->]]; done). cbn [andb].
      rewrite (proj2 (Z.leb_le (target b pos off whence) maxpos)) by done. rewrite andb_true_r.
      destruct (Z.ltb_spec (target b pos off whence) 0) as [Hneg|Hge].
      + rewrite (proj2 (Z.leb_gt 0 (target b pos off whence))) by done. exists fs, ds, Td. split; [|done]. cbv beta iota. do 2 f_equal. apply (list_insert_id _ _ _ Hk).
      + rewrite (proj2 (Z.leb_le 0 (target b pos off whence))) by done. eexists _, _, Td. split; [done|].
        split; [done|apply shadow_insert; [done|congruence|done]|]. apply (each_insert T); [done|by eexists|done|].
        cbn [disk_handle sf_os sf_pos]. split; [done|]. split; [done|]. split; [done|]. split; [done|]. lia.
    - destruct Hc as (ns & w & Hx). cbn [plan_h disk_h]. rewrite Hx. destruct (Forall2_lookup_r _ _ _ _ _ He Hx) as ([[f []]|] & Hk & Hh); [|done|done].
      destruct Hh as (Hns & Hos & Hpos). rewrite Hk. destruct (sh_writing _ _ _ Hsh _ _ _ Hx) as [HT HTd].
      pose proof (ds_at _ _ _ _ Hd ns Hns) as Hat. rewrite HTd in Hat. destruct Hat as (i & Hat & Hok).
      destruct (st_good _ _ _ _ _ HS _ Hns) as [Hne Hg].
      assert (Hwne : rs ++ ns <> []) by (intros E; apply app_eq_nil in E as [_ E]; done).
      destruct (disk_writes_end fs f (rs ++ ns) [b] i w) as (fs' & E & Hg' & Hr & Hw'); [by apply Forall_app|done|done|done|done|].
      cbn [disk_writes concat] in E, Hg'. rewrite app_nil_r in Hg'. destruct (sfile_write fs f b) as [[fs1 f1]|] eqn:Ew; [|done]. injection E as ->.
      destruct (write_ok _ _ _ _ _ Ew) as [Ho1 Hp1].
      eexists _, _, (put Td ns (EFile (w ++ b))). split; [done|]. split.
      + apply (disk_change parse c rs mp names HS hp fs fs' Td _ ns); [done|apply Hw', Hd|done|done|..].
        * intros vs Hv. unfold put. rewrite bool_decide_eq_false_2; [done|]. by intros ->.
        * unfold put. rewrite bool_decide_eq_true_2, Hg' by done. by exists i.
        * intros us Hus. rewrite app_assoc. apply get_below; [done|]. right. left. eauto.
        * intros us Hus Hnu. unfold put. rewrite bool_decide_eq_false_2.
          2: { intros E'. apply (f_equal length) in E'. rewrite app_length in E'. destruct us; [done|]. cbn in E'. lia. }
          eapply (disk_below rs names); [done|done|done|]. right. left. eauto.
      + pose proof (lookup_lt_Some _ _ _ Hx) as Hlt.
        assert (EE : forall j vs v, <[k := HW ns (w ++ b)]> xs !! j = Some (HW vs v) ->
                  (j = k /\ vs = ns /\ v = w ++ b) \/ (j <> k /\ vs <> ns /\ xs !! j = Some (HW vs v))).
        { intros j vs v Hj. destruct (decide (j = k)) as [->|Hjk].
          - rewrite list_lookup_insert in Hj by done. left. by injection Hj as <- <-.
          - rewrite list_lookup_insert_ne in Hj by done. right. split; [done|]. split; [|done]. intros ->. apply Hjk. by eapply sh_once. }
        split.
        * intros j vs v Hj. unfold put. destruct (EE _ _ _ Hj) as [(-> & -> & ->)|(_ & Hvn & Hj')].
          -- by rewrite bool_decide_eq_true_2.
          -- rewrite bool_decide_eq_false_2 by done. by eapply sh_writing.
        * intros vs Hv. unfold put. case_bool_decide as E.
          -- exfalso. subst vs. apply (Hv k (w ++ b)). by rewrite list_lookup_insert.
          -- apply Hsh. intros j v Hj. apply (Hv j v). rewrite list_lookup_insert_ne; [done|]. congruence.
        * intros j j' vs v v' Hj Hj'. destruct (EE _ _ _ Hj) as [(-> & -> & ->)|(Hjk & Hvn & Hj1)]; destruct (EE _ _ _ Hj') as [(-> & E1 & ->)|(Hjk' & Hvn' & Hj1')]; [done|done|done|].
          by eapply sh_once.
      + apply (each_insert T); [done|by eexists|done|]. cbn. split; [done|]. rewrite Ho1, Hp1, app_length. split; [done|lia].
    - destruct Hc as (x & Hx & Hnx). cbn [plan_h disk_h]. rewrite Hx. destruct x as [ns b pos|ns w|]; [..|done].
      + destruct (Hread _ _ _ _ Hx) as (f & i & Hk & Hf & Hpos & Hns & HT & Hb0 & Hos). rewrite Hk. eexists _, _, Td. split; [done|].
        split; [done|apply shadow_insert; [done|congruence|done]|]. by apply (each_insert T); [|eexists| |].
      + destruct (Forall2_lookup_r _ _ _ _ _ He Hx) as ([[f []]|] & Hk & Hh); [|done|done]. rewrite Hk. eexists _, _, Td. split; [done|].
        destruct (sh_writing _ _ _ Hsh _ _ _ Hx) as [HT HTd]. pose proof (lookup_lt_Some _ _ _ Hx) as Hlt.
        assert (EE : forall j vs v, <[k := HX]> xs !! j = Some (HW vs v) -> j <> k /\ vs <> ns /\ xs !! j = Some (HW vs v)).
        { intros j vs v Hj. destruct (decide (j = k)) as [->|Hjk]; [by rewrite list_lookup_insert in Hj|].
          rewrite list_lookup_insert_ne in Hj by done. split; [done|]. split; [|done]. intros ->. apply Hjk. by eapply sh_once. }
        split; [done|split|].
        * intros j vs v Hj. destruct (EE _ _ _ Hj) as (Hjk & Hvn & Hj'). unfold put. rewrite bool_decide_eq_false_2 by done. by eapply sh_writing.
        * intros vs Hv. unfold put. case_bool_decide as E; [by subst|]. apply Hsh. intros j v Hj. apply (Hv j v).
          rewrite list_lookup_insert_ne; [done|]. congruence.
        * intros j j' vs v v' Hj Hj'. destruct (EE _ _ _ Hj) as (_ & _ & H1). destruct (EE _ _ _ Hj') as (_ & _ & H2). by eapply sh_once.
        * apply (each_insert T); [done|by eexists| |done]. intros j vs b pos Hjk Hj HTv Hb0. unfold put. rewrite bool_decide_eq_false_2; [done|]. congruence.
  Qed.

  Lemma disk_hprogram l fs s T ds xs Td : disk_open fs T ds xs Td -> beside_it c rs mp s -> Forall (fun x => hact_names x names) l -> calm_hs maxpos T xs l ->
    let '(T', xs', r) := plan_hs T xs l in
    exists fs' ds' Td', disk_hs parse nm hp maxpos fs s ds l = (fs', s, ds', r) /\ disk_open fs' T' ds' xs' Td'.
  Proof.
    revert fs T ds xs Td. induction l as [|x l IH]; intros fs T ds xs Td Ho Hb Hl Hc; [by exists fs, ds, Td|].
    apply List.Forall_cons_iff in Hl as [Hn Hl]. destruct Hc as [Hc1 Hc2]. cbn [disk_hs plan_hs].
    pose proof (disk_hstep fs s T ds xs Td x Ho Hb Hn Hc1) as Hs. destruct (plan_h T xs x) as [[T1 xs1] r1]. destruct Hs as (fs1 & ds1 & Td1 & -> & Ho1).
    pose proof (IH fs1 T1 ds1 xs1 Td1 Ho1 Hb Hl Hc2) as Hs. destruct (plan_hs T1 xs1 l) as [[T2 xs2] r2]. destruct Hs as (fs2 & ds2 & Td2 & -> & Ho2).
    by exists fs2, ds2, Td2.
  Qed.
End DiskSide.
