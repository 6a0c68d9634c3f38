(** The same program on the in-memory pkger and on disk.

    A program is a list of whole-file actions on the current module: write a
    file (Create, Write..., Close), MkdirAll, Remove, RemoveAll, read a file
    (Open, Read...), Stat.  [mem_do] carries one out with pkging/mem (Mem.v),
    [disk_do] with pkging/stdos (Std.v); [plan_do] says on a plain tree what a
    user expects of both. *)
From Verif Require Import Bytes GoPath Here GoTypes Mem MemSpec MemBase MemFiles MemDirs MemDirs2 WalkSpec Disk DiskOps Std PropsStd PropsSame.

(** ** The expectation *)
Inductive entry := EDir | EFile (data : bytes).
(** What is at each path below the module's directory. *)
Definition tree := list bytes -> option entry.

Inductive act :=
| AWrite (ns : list bytes) (bs : list bytes)
| AMkdir (ns : list bytes)
| ARemove (ns : list bytes)
| ARemoveAll (ns : list bytes)
| ARead (ns : list bytes) (sizes : list nat)
| AStat (ns : list bytes).
Inductive ans :=
| ADone (ok : bool)
| ARd (x : option (list (bytes * option gerr)))
| AInfo (x : option (bytes * bool * option Z)).  (* name, IsDir, Size of a file *)

Definition dir_at (T : tree) (ns : list bytes) : bool :=
  match ns with [] => true | _ => match T ns with Some EDir => true | _ => false end end.
Definition above (ns : list bytes) : list bytes := take (length ns - 1) ns.

Definition plan_do (T : tree) (a : act) : tree * ans :=
  match a with
  | AWrite ns bs =>
      if dir_at T (above ns) then (fun vs => if bool_decide (vs = ns) then Some (EFile (concat bs)) else T vs, ADone true)
      else (T, ADone false)
  | AMkdir ns => (fun vs => if bool_decide (vs `prefix_of` ns) then Some EDir else T vs, ADone true)
  | ARemove ns =>
      match T ns with
      | None => (T, ADone false)
      | Some _ => (fun vs => if bool_decide (vs = ns) then None else T vs, ADone true)
      end
  | ARemoveAll ns => (fun vs => if bool_decide (ns `prefix_of` vs) then None else T vs, ADone true)
  | ARead ns sizes => (T, ARd (match T ns with Some (EFile b) => Some (reads_of b sizes) | _ => None end))
  | AStat ns =>
      (T, AInfo (match T ns with
                 | None => None
                 | Some EDir => Some (List.last ns [], true, None)
                 | Some (EFile b) => Some (List.last ns [], false, Some (Z.of_nat (length b)))
                 end))
  end.
Fixpoint plan_run (T : tree) (l : list act) : tree * list ans :=
  match l with
  | [] => (T, [])
  | a :: l => let '(T, x) := plan_do T a in let '(T, xs) := plan_run T l in (T, x :: xs)
  end.

(** Where the two pkgers part: a file is not made in a file or over a
    directory; no directory is made in or over a file; a removed directory is
    empty; below no file is anything removed, and no other name begins with the
    text of the removed one; reads are of non-empty files, into non-empty
    buffers. *)
Definition calm (T : tree) (a : act) : Prop :=
  match a with
  | AWrite ns _ => (forall b, T (above ns) <> Some (EFile b)) /\ T ns <> Some EDir
  | AMkdir ns => forall vs b, vs `prefix_of` ns -> T vs <> Some (EFile b)
  | ARemove ns => T ns = Some EDir -> forall v, T (ns ++ [v]) = None
  | ARemoveAll ns =>
      (forall vs b, vs `prefix_of` ns -> vs <> ns -> T vs <> Some (EFile b)) /\
      (forall vs, is_Some (T vs) -> has_prefix (abs_name vs) (abs_name ns) = true -> ns `prefix_of` vs)
  | ARead ns sizes => T ns <> Some EDir /\ T ns <> Some (EFile []) /\ Forall (fun n => n <> 0) sizes
  | AStat _ => True
  end.
Fixpoint calm_run (T : tree) (l : list act) : Prop :=
  match l with [] => True | a :: l => calm T a /\ calm_run (plan_do T a).1 l end.

Definition act_name (a : act) : list bytes :=
  match a with AWrite ns _ | AMkdir ns | ARemove ns | ARemoveAll ns | ARead ns _ | AStat ns => ns end.

(** ** The two programs *)
Definition brief (d : details) : bytes * bool * option Z :=
  (d_name d, d_isdir d, if d_isdir d then None else Some (d_size d)).

Section Both.
  Context (parse : resolver) (nm : meta) (hp : bytes -> res hinfo) (now : gotime).

  Fixpoint mem_writes (m : mem) (h : ref) (bs : list bytes) : mem * bool :=
    match bs with
    | [] => (m, true)
    | b :: bs =>
        let '(m, (_, e)) := file_write m h b in
        match e with Some _ => (m, false) | None => mem_writes m h bs end
    end.
  Definition mem_do (m : mem) (a : act) : mem * ans :=
    match a with
    | AWrite ns bs =>
        match create parse now m (abs_name ns) with
        | (m, Err _) => (m, ADone false)
        | (m, Ok h) =>
            let '(m, ok) := mem_writes m h bs in
            let '(m, e) := file_close now m h in (m, ADone (ok && bool_decide (e = None)))
        end
    | AMkdir ns => let '(m, e) := mkdir_all parse (mk_fuel (abs_name ns)) now m (abs_name ns) 493 in (m, ADone (bool_decide (e = None)))
    | ARemove ns => let '(m, e) := remove parse m (abs_name ns) in (m, ADone (bool_decide (e = None)))
    | ARemoveAll ns => let '(m, e) := remove_all parse m (abs_name ns) in (m, ADone (bool_decide (e = None)))
    | ARead ns sizes =>
        match open parse m (abs_name ns) with
        | (m, Err _) => (m, ARd None)
        | (m, Ok h) => (m, ARd (Some (read_seq m h sizes)))
        end
    | AStat ns =>
        (m, AInfo (match stat parse m (abs_name ns) with Err _ => None | Ok r => brief <$> info_at m r end))
    end.
  Fixpoint mem_run (m : mem) (l : list act) : mem * list ans :=
    match l with
    | [] => (m, [])
    | a :: l => let '(m, x) := mem_do m a in let '(m, xs) := mem_run m l in (m, x :: xs)
    end.

  Fixpoint disk_writes (fs : node) (f : sfile) (bs : list bytes) : node * bool :=
    match bs with
    | [] => (fs, true)
    | b :: bs => match sfile_write fs f b with Err _ => (fs, false) | Ok (fs, f) => disk_writes fs f bs end
    end.
  Definition disk_do (fs : node) (s : sto) (a : act) : node * sto * ans :=
    match a with
    | AWrite ns bs =>
        match std_create parse nm hp fs s (abs_name ns) with
        | (fs, s, Err _) => (fs, s, ADone false)
        | (fs, s, Ok f) => let '(fs, ok) := disk_writes fs f bs in (fs, s, ADone ok)
        end
    | AMkdir ns => let '(fs, s, e) := std_mkdir_all parse nm hp fs s (abs_name ns) in (fs, s, ADone (bool_decide (e = None)))
    | ARemove ns => let '(fs, s, e) := std_remove parse hp fs s (abs_name ns) in (fs, s, ADone (bool_decide (e = None)))
    | ARemoveAll ns => let '(fs, s, e) := std_remove_all parse hp fs s (abs_name ns) in (fs, s, ADone (bool_decide (e = None)))
    | ARead ns sizes =>
        match std_open parse hp fs s (abs_name ns) with
        | (s, Err _) => (fs, s, ARd None)
        | (s, Ok f) => (fs, s, ARd (Some (std_reads fs f sizes)))
        end
    | AStat ns =>
        match std_stat parse hp fs s (abs_name ns) with
        | (s, Err _) => (fs, s, AInfo None)
        | (s, Ok d) => (fs, s, AInfo (Some (brief d)))
        end
    end.
  Fixpoint disk_run (fs : node) (s : sto) (l : list act) : node * sto * list ans :=
    match l with
    | [] => (fs, s, [])
    | a :: l => let '(fs, s, x) := disk_do fs s a in let '(fs, s, xs) := disk_run fs s l in (fs, s, x :: xs)
    end.
End Both.

(** ** What a store shows *)
Section Shows.
  Context (parse : resolver) (c : hinfo) (rs : list bytes) (mp : bytes) (names : list bytes -> Prop) (foreign : bytes -> Prop).

  (** The names a program uses: closed upwards, resolved to the current module
      with and without a trailing slash. *)
  Record setting : Prop := {
    st_rs : Forall good_elem rs;
    st_good : forall ns, names ns -> ns <> [] /\ Forall good_elem ns;
    st_up : forall ns vs, names ns -> vs `prefix_of` ns -> vs <> [] -> names vs;
    st_parse : forall ns, names ns -> parse c (abs_name ns) = Some (Path mp (abs_name ns));
    st_slash : forall ns, names ns -> parse c (abs_name ns ++ [slash]) = Some (Path mp (abs_name ns));
    st_root : parse c (B"/") = Some (Path mp (B"/"))
  }.

  (** [foreign]: names in the module that the program has nothing to do with. *)
  Record mem_shows (m : mem) (T : tree) : Prop := {
    ms_wf : wf m;
    ms_here : m_here m = c;
    ms_info : is_Some (m_infos m !! mp);
    ms_only : forall n, is_Some (file_at m (Path mp n)) -> n = B"/" \/ (exists ns, names ns /\ n = abs_name ns) \/ foreign n;
    ms_at : forall ns, names ns ->
      match T ns with
      | None => file_at m (Path mp (abs_name ns)) = None
      | Some EDir => exists f, file_at m (Path mp (abs_name ns)) = Some f /\ d_isdir (f_info f) = true /\
          d_name (f_info f) = List.last ns []
      | Some (EFile b) => exists f, file_at m (Path mp (abs_name ns)) = Some f /\ d_isdir (f_info f) = false /\
          d_name (f_info f) = List.last ns [] /\ d_size (f_info f) = Z.of_nat (length b) /\ f_data f = b
      end
  }.

  Definition disk_entry (x : option node) (e : option entry) : Prop :=
    match e with
    | None => x = None
    | Some EDir => exists i cs, x = Some (NDir i cs) /\ n_ok i = true
    | Some (EFile b) => exists i, x = Some (NFile i b) /\ n_ok i = true
    end.
  Record disk_shows (fs : node) (T : tree) : Prop := {
    ds_wf : wf_node fs;
    ds_root : exists i cs, get fs rs = Some (NDir i cs);
    ds_only : forall ns v, names ns -> is_Some (get fs (rs ++ ns ++ [v])) -> names (ns ++ [v]);
    ds_at : forall ns, names ns -> disk_entry (get fs (rs ++ ns)) (T ns)
  }.
End Shows.

(** ** Proofs: the tree on disk *)
Lemma get_app n ws vs : get n (ws ++ vs) = match get n ws with Some x => get x vs | None => None end.
Proof.
  revert n. induction ws as [|w ws IH]; intros n; [done|]. cbn [app get]. destruct n as [|i cs]; [done|].
  destruct (child w cs); [apply IH|done].
Qed.
Lemma get_snoc n ws w : get n (ws ++ [w]) = match get n ws with Some (NDir _ cs) => child w cs | _ => None end.
Proof. rewrite get_app. destruct (get n ws) as [[]|]; cbn [get]; [done| |done]. by destruct (child w cs). Qed.
Lemma upd_total f n ws w i cs y :
  get n ws = Some (NDir i cs) -> f (child w cs) = Some y -> exists n', DiskOps.upd f n (ws ++ [w]) = Some n'.
Proof.
  revert n. induction ws as [|v ws IH]; intros n H Hf.
  - cbn in H. injection H as ->. cbn [app DiskOps.upd]. rewrite Hf. destruct y; by eexists.
  - cbn [get] in H. destruct n as [|j ds]; [done|]. cbn [app DiskOps.upd]. rewrite match_snoc.
    destruct (child v ds) as [x|]; [|done]. destruct (IH x H Hf) as [x' ->]. by eexists.
Qed.
Lemma upd_parent f n ws w n' : DiskOps.upd f n (ws ++ [w]) = Some n' -> exists i cs, get n ws = Some (NDir i cs).
Proof. intros H. destruct (upd_above _ _ _ _ ws [w] H) as (i & cs & cs' & E & _); [done|done|]. by exists i, cs. Qed.

Lemma mkdirs_other i n ws n' vs : mkdirs i n ws = Some n' -> ~ vs `prefix_of` ws -> get n' vs = get n vs.
Proof.
  revert n n' vs. induction ws as [|w ws IH]; intros n n' vs H Hn.
  { destruct n; [done|]. by injection H as <-. }
  destruct n as [|j cs]; [done|]. destruct vs as [|v vs]; [destruct Hn; apply prefix_nil|].
  cbn [mkdirs] in H. destruct (decide (v = w)) as [->|Hv].
  - assert (Hn' : ~ vs `prefix_of` ws) by (intros Hp; apply Hn; by apply prefix_cons).
    destruct (child w cs) as [x|] eqn:Ec.
    + destruct (mkdirs i x ws) as [x'|] eqn:Em; [|done]. injection H as <-. cbn [get]. rewrite child_put_same, Ec. by eapply IH.
    + injection H as <-. cbn [get]. rewrite child_put_same, Ec. clear -Hn'. revert ws Hn'.
      induction vs as [|v vs IH]; intros ws Hn; [destruct Hn; apply prefix_nil|].
      destruct ws as [|w ws]; cbn [chain get child]; [done|]. case_bool_decide as E; [|done]. subst w. apply IH.
      intros Hp. apply Hn. by apply prefix_cons.
  - destruct (child w cs) as [x|]; [destruct (mkdirs i x ws) as [x'|]; [|done]|]; injection H as <-; cbn [get]; by rewrite child_put_ne.
Qed.

Lemma missing_get n ws : DiskOps.missing n ws = true -> get n ws = None.
Proof.
  revert n. induction ws as [|w ws IH]; intros n; [done|]. cbn [DiskOps.missing get]. destruct n as [|i cs]; [done|].
  destruct (child w cs); [apply IH|done].
Qed.
Lemma get_missing n ws : get n ws = None -> DiskOps.missing n ws = true \/ exists vs i b, vs `prefix_of` ws /\ vs <> ws /\ get n vs = Some (NFile i b).
Proof.
  revert n. induction ws as [|w ws IH]; intros n; [done|]. cbn [DiskOps.missing get]. destruct n as [i b|i cs].
  - intros _. right. exists [], i, b. split; [apply prefix_nil|]. done.
  - destruct (child w cs) as [x|] eqn:Ec; [|by left]. intros H. destruct (IH x H) as [E|(vs & j & b & Hp & Hne & Hg)]; [by left|].
    right. exists (w :: vs), j, b. split; [by apply prefix_cons|]. split; [congruence|]. cbn [get]. by rewrite Ec.
Qed.

(** What an update leaves at every path. *)
Lemma upd_get f n ws n' vs : DiskOps.upd f n ws = Some n' -> ws <> [] ->
  (forall us, vs = ws ++ us -> get n' vs = match get n' ws with Some x => get x us | None => None end) /\
  (~ ws `prefix_of` vs ->
     get n' vs = get n vs \/ (vs `prefix_of` ws /\ exists i cs cs', get n vs = Some (NDir i cs) /\ get n' vs = Some (NDir i cs'))).
Proof.
  intros H Hne. split.
  - intros us ->. apply get_app.
  - intros Hn. destruct (decide (vs `prefix_of` ws)) as [[us E]|Hp]; [right|left; by eapply upd_beside].
    split; [by exists us|]. eapply upd_above; [exact H|exact E|]. intros ->. rewrite app_nil_r in E. subst. by destruct Hn.
Qed.

(** ** Proofs: the in-memory pkger *)
Lemma frame_file_at parse (U : ref -> Prop) (D : path -> Prop) m m' pt : frame parse U D m m' -> wf m -> ~ D pt ->
  (forall r, m_files m !! pt = Some r -> ~ U r) -> file_at m' pt = file_at m pt.
Proof.
  intros Hf Hw HD HU. unfold file_at. rewrite (fr_files _ _ _ _ _ Hf pt HD).
  destruct (m_files m !! pt) as [r|] eqn:E; [|done]. cbn [mbind option_bind].
  apply (fr_heap _ _ _ _ _ Hf); [by apply HU|by eapply wf_files_lt].
Qed.

Lemma last_snoc {A} (ws : list A) w d : List.last (ws ++ [w]) d = w.
Proof. apply List.last_last. Qed.
Lemma above_snoc ws w : above (ws ++ [w]) = ws.
Proof. unfold above. rewrite app_length. cbn. rewrite Nat.add_sub. by rewrite take_app. Qed.

Definition inits (ns : list bytes) : list (list bytes) := (fun k => take k ns) <$> seq 0 (S (length ns)).
Lemma in_inits vs ns : vs ∈ inits ns <-> vs `prefix_of` ns.
Proof.
  unfold inits. rewrite elem_of_list_fmap. split.
  - intros (k & -> & _). exists (drop k ns). by rewrite take_drop.
  - intros [k ->]. exists (length vs). split; [by rewrite take_app|]. apply elem_of_seq. rewrite app_length. lia.
Qed.

Section MemSide.
  Context (parse : resolver) (c : hinfo) (rs : list bytes) (mp : bytes) (names : list bytes -> Prop).
  Context (HS : setting parse c rs mp names).
  Context (now : gotime).
  Notation key ns := (Path mp (abs_name ns)).
  Context (foreign : bytes -> Prop).
  Notation mem_shows := (mem_shows c mp names foreign).

  Lemma key_inj ns vs : names ns -> names vs -> key ns = key vs -> ns = vs.
  Proof.
    intros Hn Hv [= E]. apply abs_name_inj; [by apply (st_good _ _ _ _ _ HS)|by apply (st_good _ _ _ _ _ HS)|].
    unfold abs_name. by rewrite E.
  Qed.
  Lemma key_root ns : names ns -> key ns <> Path mp (B"/").
  Proof.
    intros Hn [= E]. destruct (st_good _ _ _ _ _ HS ns Hn) as [Hne Hg].
    apply Hne. apply abs_name_inj; [done|done|]. unfold abs_name. by rewrite E.
  Qed.

  Lemma mem_keep m m' T : mem_shows m T -> wf m' -> m_here m' = m_here m -> m_infos m' = m_infos m ->
    (forall pt, pt <> Path mp (B"/") -> file_at m' pt = file_at m pt) -> mem_shows m' T.
  Proof.
    intros [Hw Hh Hi Ho Ha] Hw' Hh' Hi' Hk. split; [done|congruence|by rewrite Hi'|..].
    - intros n Hn. destruct (decide (n = B"/")) as [->|Hne]; [by left|]. apply Ho. rewrite <- Hk by congruence. done.
    - intros ns Hn. rewrite (Hk (key ns) (key_root ns Hn)). by apply Ha.
  Qed.

  (** The root directory made by Create. *)
  Lemma mkdir_root m : wf m -> m_here m = c ->
    let r := mkdir_all parse (mk_fuel (B"/")) now m (B"/") 493 in
    r.2 = None /\ wf r.1 /\ m_here r.1 = m_here m /\ m_infos r.1 = m_infos m /\ m_next m <= m_next r.1 /\
    forall pt, pt <> Path mp (B"/") -> file_at r.1 pt = file_at m pt.
  Proof.
    intros Hw Hh r. pose proof (frame_mkdir parse (mk_fuel (B"/")) now m (B"/") 493 Hw) as Hf. fold r in Hf.
    split.
    - unfold r. change (mk_fuel (B"/")) with 5. cbn [mkdir_all]. unfold mem_parse.
      rewrite Hh, (st_root _ _ _ _ _ HS). cbn [p_name]. by change (path_split (B"/")) with (B"/", @nil ascii).
    - split; [apply Hf|]. split; [apply Hf|]. split; [apply Hf|]. split; [apply Hf|]. intros k Hk.
      eapply frame_file_at; [exact Hf|done| |by intros ? _ []].
      rewrite Hh. intros Ht. inversion_clear Ht as [? ? Hp|? pt ? Hp Hne Hq].
      + rewrite (st_root _ _ _ _ _ HS) in Hp. apply (inj Some) in Hp. by destruct Hk.
      + rewrite (st_root _ _ _ _ _ HS) in Hp. injection Hp as <-. by destruct Hne.
  Qed.

  Lemma writes_end m h f bs : m_heap m !! h = Some f ->
    exists m' f', mem_writes m h bs = (m', true) /\ m_heap m' !! h = Some f' /\
      f_info f' = f_info f /\ f_data f' = f_data f /\ default [] (f_writer f') = default [] (f_writer f) ++ concat bs /\
      (f_writer f' = None -> f_writer f = None /\ bs = []) /\
      m_files m' = m_files m /\ m_here m' = m_here m /\ m_infos m' = m_infos m /\ m_next m' = m_next m /\
      (forall r, r <> h -> m_heap m' !! r = m_heap m !! r) /\ (wf m -> wf m').
  Proof.
    revert m f. induction bs as [|b bs IH]; intros m f Hf; cbn [mem_writes].
    - exists m, f. rewrite app_nil_r. split_and!; done.
    - unfold file_write. rewrite Hf. cbv zeta.
      destruct (IH (Mem.upd m h (FObj (f_here f) (f_info f) (f_path f) (f_data f) (f_parent f)
                    (Some (default [] (f_writer f) ++ b)) (f_reader f))) _ ltac:(cbn; by rewrite lookup_insert))
        as (m' & f' & E & Hf' & Ei & Ed & Ew & En & Efi & Eh & Einf & Enx & Er & Hwf).
      exists m', f'. split; [exact E|]. split; [done|]. split; [done|]. split; [done|].
      split; [rewrite Ew; cbn; by rewrite <- app_assoc|].
      split; [intros Hn; by destruct (En Hn) as [? _]|].
      split; [done|]. split; [done|]. split; [done|]. split; [done|].
      split; [intros r Hr; rewrite Er by done; cbn; by rewrite lookup_insert_ne|].
      intros Hw. apply Hwf. apply wf_upd; [done|by eexists].
  Qed.

  Lemma mem_act m T a : mem_shows m T -> names (act_name a) -> calm T a ->
    exists m', mem_do parse now m a = (m', (plan_do T a).2) /\ mem_shows m' (plan_do T a).1.
  Proof.
    intros Hm Hn Hc. pose proof Hm as [Hw Hh Hi Hon Ha].
    pose proof (st_parse _ _ _ _ _ HS _ Hn) as Hp. destruct (st_good _ _ _ _ _ HS _ Hn) as [Hne Hg].
    destruct a as [ns bs|ns|ns|ns|ns sizes|ns]; cbn [act_name] in *; cbn [mem_do plan_do].
    - (* write *)
      destruct (list_snoc_cases ns) as [->|(us & u & ->)]; [done|].
      apply Forall_app in Hg as [Hus Hu]. apply List.Forall_cons_iff in Hu as [Hu _].
      rewrite above_snoc. destruct Hc as [Hc1 Hc2]. rewrite above_snoc in Hc1.
      destruct (mkdir_root m Hw Hh) as (Hr & Hw1 & Hh1 & Hi1 & Hnx & Hk1).
      rewrite (create_spec _ _ _ _ _ eq_refl) by (by rewrite Hr). rewrite Hh, Hp. cbn [p_pkg p_name]. rewrite Hi1.
      destruct Hi as [her Hher]. rewrite Hher. cbv zeta. rewrite dirname_snoc by done.
      set (m1 := (mkdir_all parse (mk_fuel (B"/")) now m (B"/") 493).1) in *.
      set (f0 := FObj her (Details (base (abs_name (us ++ [u]))) 0 420 now false JNull) (key (us ++ [u])) [] zero_path None None).
      set (m2 := store (alloc m1 f0).1 (key (us ++ [u])) (alloc m1 f0).2).
      assert (Hgo : (if bool_decide (abs_name us = B"/") then (m2, Ok (alloc m1 f0).2)
                     else match stat parse m1 (abs_name us) with Ok _ => (m2, Ok (alloc m1 f0).2) | Err e => (m1, Err e) end) =
                    if dir_at T us then (m2, Ok (alloc m1 f0).2) else (m1, Err (EMsg could_not_stat))).
      { destruct us as [|v us]; [done|]. rewrite bool_decide_eq_false_2.
        2: { intros E. apply (abs_name_inj (v :: us) []) in E; [done|done|by constructor]. }
        assert (Hnu : names (v :: us)) by (eapply st_up; [done|exact Hn|by eexists|done]).
        unfold stat, mem_parse. rewrite Hh1, Hh, (st_parse _ _ _ _ _ HS _ Hnu).
        unfold dir_at. specialize (Ha _ Hnu). pose proof (Hk1 _ (key_root _ Hnu)) as Hk. unfold file_at in Hk, Ha.
        destruct (T (v :: us)) as [[|b]|] eqn:ET.
        - destruct Ha as (f & Hf & _). rewrite Hf in Hk. destruct (m_files m1 !! _); [done|by cbn in Hk].
        - by destruct (Hc1 b).
        - rewrite Ha in Hk. destruct (m_files m1 !! _) as [r|] eqn:Er; [|done]. exfalso.
          destruct (wf_files m1 Hw1 _ _ Er) as [x Hx]. cbn in Hk. by rewrite Hx in Hk. }
      rewrite Hgo. clear Hgo. destruct (dir_at T us) eqn:Hd.
      + (* created *)
        assert (Hw2 : wf m2) by (by apply (wf_alloc_store m1 f0)).
        assert (Hheap : m_heap m2 !! (alloc m1 f0).2 = Some f0) by (cbn; by rewrite lookup_insert).
        destruct (writes_end m2 (alloc m1 f0).2 f0 bs Hheap)
          as (m3 & f3 & E3 & Hf3 & Ei3 & Ed3 & Ew3 & En3 & Efi & Eh & Einf & Enx & Er & Hwf3).
        rewrite E3. unfold file_close. rewrite Hf3.
        set (i := f_info f3).
        set (f4 := match f_writer f3 with
                   | None => FObj (f_here f3) i (f_path f3) (f_data f3) (f_parent f3) None None
                   | Some w => FObj (f_here f3) (Details (d_name i) (Z.of_nat (length w)) (d_mode i) now (d_isdir i) (d_sys i))
                                 (f_path f3) w (f_parent f3) None None end).
        exists (Mem.upd m3 (alloc m1 f0).2 f4). split; [unfold f4; by destruct (f_writer f3)|]. cbn [fst].
        assert (Hkey : m_files m3 !! key (us ++ [u]) = Some (alloc m1 f0).2) by (rewrite Efi; cbn; by rewrite lookup_insert).
        assert (Hoth : forall k, k <> key (us ++ [u]) -> file_at (Mem.upd m3 (alloc m1 f0).2 f4) k = file_at m1 k).
        { intros k Hkv. unfold file_at. cbn [Mem.upd m_files m_heap]. rewrite Efi.
          change (m_files m2) with (<[key (us ++ [u]) := (alloc m1 f0).2]> (m_files m1)). rewrite lookup_insert_ne by done.
          destruct (m_files m1 !! k) as [r|] eqn:Er1; [|done]. cbn [mbind option_bind].
          pose proof (wf_files_lt _ _ _ Hw1 Er1) as Hlt.
          assert (Hnr : r <> (alloc m1 f0).2) by (cbn; lia).
          rewrite lookup_insert_ne by (cbn in *; lia). rewrite Er by done. unfold m2. cbn. rewrite lookup_insert_ne by (cbn in *; lia). done. }
        split.
        * apply wf_upd; [by apply Hwf3|by eexists].
        * cbn [Mem.upd m_here]. rewrite Eh. cbn. congruence.
        * cbn [Mem.upd m_infos]. rewrite Einf. cbn. rewrite Hi1. by eexists.
        * intros n Hs. destruct (decide (Path mp n = key (us ++ [u]))) as [Ek|Ek].
          { right. left. exists (us ++ [u]). split; [done|]. congruence. }
          rewrite (Hoth _ Ek) in Hs. destruct (decide (n = B"/")) as [->|Hnr]; [by left|]. apply Hon. by rewrite Hk1 in Hs by congruence.
        * intros vs Hvs. case_bool_decide as Ev.
          -- subst vs. exists f4. split.
             { unfold file_at. cbn [Mem.upd m_files m_heap]. rewrite Hkey. cbn. by rewrite lookup_insert. }
             unfold f4, i. destruct (f_writer f3) as [w|] eqn:Ewr; cbn [f_info f_data d_isdir d_name d_size]; rewrite Ei3.
             ++ cbn in Ew3. subst w. unfold f0. cbn [f_info d_isdir d_name]. rewrite base_snoc, last_snoc by done. done.
             ++ destruct (En3 eq_refl) as [_ ->]. rewrite Ed3. unfold f0. cbn [f_info f_data d_isdir d_name d_size]. rewrite base_snoc, last_snoc by done. done.
          -- assert (Hkv : key vs <> key (us ++ [u])) by (intros E; by apply Ev, key_inj).
             rewrite (Hoth _ Hkv), (Hk1 _ (key_root _ Hvs)). by apply Ha.
      + exists m1. split; [done|]. apply (mem_keep m); done.
    - (* mkdir *)
      destruct (list_snoc_cases ns) as [->|(us & u & ->)]; [done|].
      apply Forall_app in Hg as [Hus Hu]. apply List.Forall_cons_iff in Hu as [Hu _].
      destruct (mkdir_dirs parse mp (mk_fuel (abs_name (us ++ [u]))) now 493 mp us u m (abs_name (us ++ [u])))
        as (m' & E & Hh' & Hi' & Hw' & Ht & Hup & Hoth); [done|done|done|by rewrite Hh| |..].
      { rewrite Hh. intros vs Hv Hvn. apply (st_slash _ _ _ _ _ HS). eapply st_up; [done|exact Hn| |done].
        by apply prefix_app_r. }
      { unfold mk_fuel. assert (length us < length (abs_name (us ++ [u]))); [|lia]. clear -Hu. unfold abs_name. cbn [length].
        induction us as [|v us IH]; cbn [length]; [lia|]. cbn [app].
        assert (exists x, join_slash (v :: us ++ [u]) = x ++ slash :: join_slash (us ++ [u])) as [x ->].
        { destruct us as [|v' us]; by eexists v. }
        rewrite app_length. cbn [length]. lia. }
      rewrite E. exists m'. split; [done|]. cbn [fst].
      assert (Hups : forall ws, ws `prefix_of` us -> ws <> [] -> names ws).
      { intros ws Hws Hwn. eapply st_up; [done|exact Hn|by apply prefix_app_r|done]. }
      split; [done|congruence|by rewrite Hi'| |].
      { intros n Hs. destruct (decide (Path mp n = key (us ++ [u]))) as [Ek|Ek].
        { right. left. exists (us ++ [u]). split; [done|]. congruence. }
        destruct (decide (Exists (fun k => k <> [] /\ n = abs_name k) (inits us))) as [Hex|Hex].
        { right. left. apply Exists_exists in Hex as (k & Hk & Hkn & ->). exists k. split; [|done]. by apply Hups; [apply in_inits|]. }
        apply Hon. rewrite <- Hoth; [done|done|]. intros vs Hvs Hvn Eq. apply Hex, Exists_exists. exists vs.
        split; [by apply in_inits|]. split; [done|]. congruence. }
      intros vs Hvs. case_bool_decide as Hpre.
      + destruct (st_good _ _ _ _ _ HS vs Hvs) as [Hvn Hvg]. destruct (list_snoc_cases vs) as [->|(xs & x & ->)]; [done|].
        rewrite last_snoc. destruct (prefix_snoc_inv _ _ _ Hpre) as [Eq|Hpre'].
        * apply app_inj_tail in Eq as [-> ->]. eexists. split; [exact Ht|]. done.
        * eexists. split; [by apply (Hup xs x)|]. done.
      + assert (Hsame : file_at m' (key vs) = file_at m (key vs)); [|rewrite Hsame; by apply Ha].
        apply Hoth.
        * intros Ek. apply Hpre. apply key_inj in Ek; [by subst|done|done].
        * intros ws Hws Hwn Ek. apply Hpre. apply key_inj in Ek; [subst; by apply prefix_app_r|done|by apply Hups].
    - (* remove *)
      pose proof (Ha ns Hn) as Hat. unfold remove, mem_parse. rewrite Hh, Hp.
      destruct (T ns) as [e|] eqn:ET.
      + assert (is_Some (m_files m !! key ns)) as [r Hr].
        { unfold file_at in Hat. destruct (m_files m !! key ns) as [r|]; [by eexists|]. destruct e; by destruct Hat as (? & ? & _). }
        rewrite Hr. exists (delete_key m (key ns)). split; [done|]. cbn [fst].
        assert (Hat' : forall vs, names vs -> file_at (delete_key m (key ns)) (key vs) = if bool_decide (vs = ns) then None else file_at m (key vs)).
        { intros vs Hvs. unfold file_at, delete_key. cbn. case_bool_decide as E.
          - subst. by rewrite lookup_delete.
          - rewrite lookup_delete_ne; [done|]. intros Ek. apply E. symmetry. by apply key_inj. }
        split.
        * pose proof (frame_step parse m (now, ORemove (abs_name ns)) Hw) as Hf. cbn [step fst snd] in Hf.
          unfold remove, mem_parse in Hf. rewrite Hh, Hp, Hr in Hf. apply Hf.
        * done.
        * done.
        * intros n [f Hf]. apply Hon. unfold file_at, delete_key, set_files in *. cbn [m_files m_heap] in *.
          destruct (decide (key ns = Path mp n)) as [Ek|Ek]; [rewrite Ek in Hf; by rewrite lookup_delete in Hf|]. rewrite lookup_delete_ne in Hf by done. by exists f.
        * intros vs Hvs. rewrite (Hat' vs Hvs). case_bool_decide; [done|by apply Ha].
      + assert (m_files m !! key ns = None) as ->.
        { unfold file_at in Hat. destruct (m_files m !! key ns) as [r|] eqn:Er; [|done]. destruct (wf_files m Hw _ _ Er) as [x Hx].
          cbn in Hat. by rewrite Hx in Hat. }
        by exists m.
    - (* remove all *)
      unfold remove_all, mem_parse. rewrite Hh, Hp. cbn [p_name]. eexists. split; [done|]. cbn [fst].
      destruct Hc as [_ Hc]. split.
      + pose proof (frame_step parse m (now, ORemoveAll (abs_name ns)) Hw) as Hf. cbn [step fst snd] in Hf.
        unfold remove_all, mem_parse in Hf. rewrite Hh, Hp in Hf. cbn [p_name] in Hf. apply Hf.
      + done.
      + done.
      + intros n [f Hf]. apply Hon. unfold file_at, set_files in *. cbn [m_files m_heap] in *.
        destruct (filter (fun kv : path * ref => has_prefix (p_name kv.1) (abs_name ns) = false) (m_files m) !! Path mp n) as [r|] eqn:Er; [|done].
        apply map_filter_lookup_Some in Er as [Er _]. rewrite Er. by exists f.
      + intros vs Hvs.
        assert (Hat : file_at (set_files m (filter (fun kv => has_prefix (p_name kv.1) (abs_name ns) = false) (m_files m))) (key vs) =
                  if has_prefix (abs_name vs) (abs_name ns) then None else file_at m (key vs)).
        { unfold file_at, set_files. cbn [m_files m_heap]. destruct (has_prefix (abs_name vs) (abs_name ns)) eqn:Epre.
          - assert (E : filter (fun kv : path * ref => has_prefix (p_name kv.1) (abs_name ns) = false) (m_files m) !! key vs = None);
              [|by rewrite E].
            apply map_filter_lookup_None. right. intros r _ H. cbn [fst p_name] in H. congruence.
          - destruct (m_files m !! key vs) as [r|] eqn:Er.
            + assert (E : filter (fun kv : path * ref => has_prefix (p_name kv.1) (abs_name ns) = false) (m_files m) !! key vs = Some r);
                [|by rewrite E]. by apply map_filter_lookup_Some.
            + assert (E : filter (fun kv : path * ref => has_prefix (p_name kv.1) (abs_name ns) = false) (m_files m) !! key vs = None);
                [|by rewrite E]. apply map_filter_lookup_None. by left. }
        rewrite Hat. case_bool_decide as Hpre.
        * assert (has_prefix (abs_name vs) (abs_name ns) = true) as ->; [|done]. destruct Hpre as [t ->].
          destruct (list_snoc_cases ns) as [->|(us & u & ->)]; [done|]. destruct t as [|w t]; [rewrite app_nil_r; apply has_prefix_refl|].
          apply has_prefix_spec. exists (slash :: join_slash (w :: t)). unfold abs_name. cbn [app]. f_equal.
          rewrite <- app_assoc. clear. induction us as [|v us IH]; [done|]. cbn [app].
          destruct us as [|v' us]; cbn [app] in *; [|]; cbn [join_slash] in *; rewrite <- ?app_assoc; cbn [app]; by rewrite <- ?IH.
        * destruct (has_prefix (abs_name vs) (abs_name ns)) eqn:Epre; [|by apply Ha].
          destruct (T vs) as [e|] eqn:ET; [|done]. destruct Hpre. apply Hc; [by eexists|done].
    - (* read *)
      destruct Hc as (Hc1 & Hc2 & Hc3). pose proof (Ha ns Hn) as Hat. unfold open, mem_parse. rewrite Hh, Hp.
      destruct (T ns) as [[|b]|] eqn:ET; [done| |].
      + destruct Hat as (f & Hf & _ & _ & _ & Hd). rewrite Hf. cbn [alloc].
        eexists. split.
        { f_equal. f_equal. f_equal. erewrite read_seq_fresh; [|cbn; by rewrite lookup_insert|done|].
          - cbn [f_data]. by rewrite Hd.
          - cbn [f_data]. rewrite Hd. congruence. }
        cbn [fst]. pose proof (frame_open parse (fun _ => False) (fun _ => False) m (abs_name ns) Hw) as Hfr.
        unfold open, mem_parse in Hfr. rewrite Hh, Hp, Hf in Hfr. cbn [alloc fst] in Hfr.
        apply (mem_keep m); [done|apply Hfr|done|done|]. intros vs _. eapply frame_file_at; [exact Hfr|done|tauto|by intros ? _ []].
      + rewrite Hat. by exists m.
    - (* stat *)
      exists m. split; [|done]. f_equal. f_equal. pose proof (Ha ns Hn) as Hat. unfold stat, mem_parse. rewrite Hh, Hp.
      unfold file_at in Hat. destruct (T ns) as [[|b]|].
      + destruct Hat as (f & Hf & Hd & Hnm). destruct (m_files m !! key ns) as [r|]; [|done]. cbn in Hf. unfold info_at. rewrite Hf. cbn.
        unfold brief. by rewrite Hd, Hnm.
      + destruct Hat as (f & Hf & Hd & Hnm & Hsz & _). destruct (m_files m !! key ns) as [r|]; [|done]. cbn in Hf. unfold info_at. rewrite Hf. cbn.
        unfold brief. by rewrite Hd, Hnm, Hsz.
      + destruct (m_files m !! key ns) as [r|] eqn:Er; [|done]. destruct (wf_files m Hw _ _ Er) as [x Hx].
        cbn in Hat. by rewrite Hx in Hat.
  Qed.

  Lemma mem_program l m T : mem_shows m T -> Forall (fun a => names (act_name a)) l -> calm_run T l ->
    exists m', mem_run parse now m l = (m', (plan_run T l).2) /\ mem_shows m' (plan_run T l).1.
  Proof.
    revert m T. induction l as [|a l IH]; intros m T Hm Hl Hc; [by exists m|].
    apply List.Forall_cons_iff in Hl as [Hn Hl]. destruct Hc as [Hc1 Hc2]. cbn [mem_run plan_run].
    destruct (mem_act m T a Hm Hn Hc1) as (m1 & -> & Hm1). destruct (plan_do T a) as [T1 x]. cbn [fst snd] in *.
    destruct (IH m1 T1 Hm1 Hl Hc2) as (m2 & -> & Hm2). destruct (plan_run T1 l) as [T2 xs]. by exists m2.
  Qed.
End MemSide.

(** ** Proofs: the disk *)
Lemma at_abs {A} ws op (k : list bytes -> res A) : Forall good_elem ws -> at_path (abs_name ws) op k = k ws.
Proof. intros H. unfold at_path. by rewrite is_rooted_abs, clean_elems_abs. Qed.
Lemma get_parent n ws w x : get n (ws ++ [w]) = Some x -> exists i cs, get n ws = Some (NDir i cs) /\ child w cs = Some x.
Proof. rewrite get_snoc. destruct (get n ws) as [[|i cs]|]; [done| |done]. intros H. by exists i, cs. Qed.
Lemma get_below n ws us : us <> [] -> (get n ws = None \/ (exists i b, get n ws = Some (NFile i b)) \/ exists i, get n ws = Some (NDir i [])) ->
  get n (ws ++ us) = None.
Proof. intros Hu H. rewrite get_app. destruct us as [|u us]; [done|]. destruct H as [->|[(i & b & ->)|(i & ->)]]; done. Qed.
Lemma entry_none e : disk_entry None e -> e = None.
Proof. destruct e as [[|b]|]; cbn; [intros (? & ? & ? & _); done|intros (? & ? & _); done|done]. Qed.
Lemma prefix_app_cases {A} (vs rs ns : list A) : vs `prefix_of` rs ++ ns -> vs `prefix_of` rs \/ exists us, vs = rs ++ us /\ us `prefix_of` ns.
Proof.
  revert vs. induction rs as [|r rs IH]; intros vs H; [right; by exists vs|]. destruct vs as [|v vs]; [left; apply prefix_nil|].
  cbn in H. pose proof (prefix_cons_inv_1 _ _ _ _ H) as ->. apply prefix_cons_inv_2 in H. destruct (IH _ H) as [Hp|(us & -> & Hp)].
  - left. by apply prefix_cons.
  - right. by exists us.
Qed.

(** Outside [ws] nothing changes but directories' entries. *)
Definition rest (fs fs' : node) (ws : list bytes) : Prop :=
  forall vs, ~ ws `prefix_of` vs -> get fs' vs = get fs vs \/ exists i cs cs', get fs vs = Some (NDir i cs) /\ get fs' vs = Some (NDir i cs').
Lemma upd_rest f n ws n' : DiskOps.upd f n ws = Some n' -> ws <> [] -> rest n n' ws.
Proof. intros H Hne vs Hv. destruct (proj2 (upd_get f n ws n' vs H Hne) Hv) as [E|[_ E]]; [by left|by right]. Qed.
Lemma rest_trans a b d ws : rest a b ws -> rest b d ws -> rest a d ws.
Proof.
  intros H1 H2 vs Hv. destruct (H1 vs Hv) as [E1|(i & cs & cs' & E1 & E1')]; destruct (H2 vs Hv) as [E2|(j & ds & ds' & E2 & E2')].
  - left. congruence.
  - right. exists j, ds, ds'. split; congruence.
  - right. exists i, cs, cs'. split; congruence.
  - right. exists i, cs, ds'. split; [done|]. congruence.
Qed.

Lemma disk_writes_end fs f ws bs i d :
  Forall good_elem ws -> ws <> [] -> sf_os f = abs_name ws -> get fs ws = Some (NFile i d) -> sf_pos f = length d ->
  exists fs', disk_writes fs f bs = (fs', true) /\ get fs' ws = Some (NFile i (d ++ concat bs)) /\ rest fs fs' ws /\ (wf_node fs -> wf_node fs').
Proof.
  intros Hg Hne. revert fs f d. induction bs as [|b bs IH]; intros fs f d Ho Hf Hp; cbn [disk_writes concat].
  - exists fs. rewrite app_nil_r. split; [done|]. split; [done|]. split; [|done]. intros vs _. by left.
  - unfold sfile_write. rewrite Ho, at_abs by done. destruct (list_snoc_cases ws) as [->|(us & u & ->)]; [done|].
    destruct (get_parent _ _ _ _ Hf) as (j & cs & Hpar & Hch).
    destruct (upd_total (write_fn (sf_pos f) b) fs us u j cs (Some (NFile i (d ++ b))) Hpar) as [fs1 Hu].
    { rewrite Hch. cbn [write_fn]. rewrite Hp. rewrite Nat.sub_diag. cbn [replicate app]. rewrite firstn_all.
      rewrite drop_ge by lia. by rewrite app_nil_r. }
    rewrite Hu. pose proof (upd_same _ _ _ _ Hu Hne) as Hs. rewrite Hf in Hs. cbn [write_fn] in Hs.
    rewrite Hp, Nat.sub_diag in Hs. cbn [replicate app] in Hs. rewrite firstn_all, drop_ge, app_nil_r in Hs by lia. injection Hs as Hs.
    destruct (IH fs1 (SFile (abs_name (us ++ [u])) (sf_pos f + length b) (sf_info f) (sf_her f) (sf_path f)) (d ++ b)) as (fs2 & E & Hg2 & Hr & Hw2);
      [done|done|cbn; rewrite app_length; lia|].
    exists fs2. split; [exact E|]. split; [by rewrite Hg2, <- app_assoc|].
    split; [eapply rest_trans; [by eapply upd_rest|done]|]. intros Hw. apply Hw2. eapply upd_wf; [exact Hw|done| |exact Hu].
    intros [[]|] y _ Hy; [|done..]. by injection Hy as <-.
Qed.

Section DiskSide.
  Context (parse : resolver) (c : hinfo) (rs : list bytes) (mp : bytes) (names : list bytes -> Prop).
  Context (HS : setting parse c rs mp names).
  Context (nm : meta) (Hnm : n_ok nm = true) (hp : bytes -> res hinfo).
  Notation disk_shows := (disk_shows rs names).

  Lemma disk_change fs fs' T T' ns :
    disk_shows fs T -> wf_node fs' -> names ns -> rest fs fs' (rs ++ ns) ->
    (forall vs, ~ ns `prefix_of` vs -> T' vs = T vs) ->
    disk_entry (get fs' (rs ++ ns)) (T' ns) ->
    (forall us, us <> [] -> get fs' (rs ++ ns ++ us) = None) ->
    (forall us, us <> [] -> names (ns ++ us) -> T' (ns ++ us) = None) -> disk_shows fs' T'.
  Proof.
    intros [Hwf Hroot Honly Hat] Hwf' Hn Hr Ho Hself Hb HbT. destruct (st_good _ _ _ _ _ HS _ Hn) as [Hne Hg].
    assert (Hnp : forall vs, rs ++ ns `prefix_of` rs ++ vs -> ns `prefix_of` vs) by (intros vs; by apply prefix_app_inv).
    split; [done|..].
    - destruct Hroot as (i & cs & E). destruct (Hr rs) as [Er|(j & ds & ds' & Er & Er')].
      + intros Hp. apply prefix_length in Hp. rewrite app_length in Hp. destruct ns; [done|]. cbn in Hp. lia.
      + exists i, cs. congruence.
      + by exists j, ds'.
    - intros vs v Hvs [x Hx]. destruct (decide (ns `prefix_of` vs ++ [v])) as [[us E]|Hp].
      + destruct (decide (us = [])) as [->|Hu]; [rewrite app_nil_r in E; by rewrite E|]. rewrite E, Hb in Hx by done. done.
      + apply Honly; [done|].
        destruct (Hr (rs ++ vs ++ [v])) as [E|(i & cs & cs' & E & _)]; [by intros ?%Hnp|rewrite <- E; by eexists|rewrite E; by eexists].
    - intros vs Hv. destruct (decide (ns `prefix_of` vs)) as [[us ->]|Hp].
      + destruct (decide (us = [])) as [->|Hu]; [by rewrite app_nil_r|]. rewrite Hb, HbT by done. done.
      + rewrite Ho by done. specialize (Hat vs Hv). destruct (Hr (rs ++ vs)) as [E|(i & cs & cs' & E & E')]; [by intros ?%Hnp|by rewrite E|].
        rewrite E in Hat. rewrite E'. destruct (T vs) as [[|b]|]; cbn in Hat |- *.
        * destruct Hat as (? & ? & [= <- <-] & Hok). by exists i, cs'.
        * by destruct Hat as (? & ? & _).
        * done.
  Qed.

  Lemma disk_below fs T ns us : disk_shows fs T -> names (ns ++ us) -> us <> [] ->
    (get fs (rs ++ ns) = None \/ (exists i b, get fs (rs ++ ns) = Some (NFile i b)) \/ exists i, get fs (rs ++ ns) = Some (NDir i [])) ->
    T (ns ++ us) = None.
  Proof.
    intros [_ _ _ Hat] Hn Hu H. specialize (Hat _ Hn). rewrite app_assoc, get_below in Hat by done. by apply entry_none.
  Qed.

  Lemma disk_act fs s T a : disk_shows fs T -> beside_it c rs mp s -> names (act_name a) -> calm T a ->
    exists fs', disk_do parse nm hp fs s a = (fs', s, (plan_do T a).2) /\ disk_shows fs' (plan_do T a).1.
  Proof.
    intros Hd [Hh (her & Hinfo & Hdir)] Hn Hc. pose proof Hd as [Hwf Hroot Honly Hat].
    pose proof (st_parse _ _ _ _ _ HS _ Hn) as Hp. destruct (st_good _ _ _ _ _ HS _ Hn) as [Hne Hg].
    pose proof (st_rs _ _ _ _ _ HS) as Hrs.
    assert (Hall : Forall good_elem (rs ++ act_name a)) by (by apply Forall_app).
    assert (Hfs : forall X : node, find X (abs_name (rs ++ act_name a)) = get X (rs ++ act_name a)) by (intros X; by apply find_abs).
    assert (Hwne : rs ++ act_name a <> []) by (intros E; apply app_eq_nil in E as [_ E]; done).
    assert (Hdirat : forall us u, act_name a = us ++ [u] -> dir_at T us = true -> exists i cs, get fs (rs ++ us) = Some (NDir i cs)).
    { intros us u E Hdu. destruct us as [|v us]; [by rewrite app_nil_r|]. assert (Hnu : names (v :: us)).
      { eapply st_up; [done|exact Hn|rewrite E; by eexists|done]. }
      specialize (Hat _ Hnu). unfold dir_at in Hdu. destruct (T (v :: us)) as [[]|]; [|done..]. destruct Hat as (i & cs & E' & _). by exists i, cs. }
    destruct a as [ns bs|ns|ns|ns|ns sizes|ns]; cbn [act_name] in *; cbn [disk_do plan_do].
    - (* write *)
      destruct (list_snoc_cases ns) as [->|(us & u & ->)]; [done|]. destruct Hc as [Hc1 Hc2]. rewrite above_snoc in *.
      unfold std_create. rewrite Hh, Hp. cbn [p_pkg p_name]. rewrite Hinfo, Hdir, clean_join_abs by done. unfold os_create.
      rewrite at_abs by done. specialize (Hat _ Hn) as Hself. destruct (dir_at T us) eqn:Hdu.
      + destruct (Hdirat us u eq_refl Hdu) as (i & cs & Hpar). pose proof (get_snoc fs (rs ++ us) u) as Hch. rewrite Hpar, <- app_assoc in Hch.
        assert (exists j, create_fn nm (child u cs) = Some (Some (NFile j [])) /\ n_ok j = true) as (j & Hcf & Hj).
        { rewrite <- Hch. destruct (T (us ++ [u])) as [[|b]|]; [done| |].
          - destruct Hself as (j & -> & Hj). cbn [create_fn]. rewrite Hj. by exists j.
          - rewrite Hself. by exists nm. }
        destruct (upd_total (create_fn nm) fs (rs ++ us) u i cs _ Hpar Hcf) as [fs1 Hu]. rewrite <- app_assoc in Hu. rewrite Hu. cbn [or_err].
        pose proof (upd_same _ _ _ _ Hu Hwne) as Hs. rewrite Hch, Hcf in Hs. injection Hs as Hs. symmetry in Hs.
        unfold os_stat. rewrite Hfs, Hs.
        destruct (disk_writes_end fs1 (SFile (abs_name (rs ++ us ++ [u])) 0 (new_file_info (info_of (base (abs_name (rs ++ us ++ [u]))) (NFile j []))) her (Path mp (abs_name (us ++ [u]))))
                   (rs ++ us ++ [u]) bs j [] Hall Hwne eq_refl Hs eq_refl) as (fs2 & E & Hg2 & Hr & Hw2).
        rewrite E. exists fs2. split; [done|]. cbn [fst].
        apply (disk_change fs fs2 T _ (us ++ [u])); [done| |done|eapply rest_trans; [by eapply upd_rest|done]|..].
        * apply Hw2. eapply upd_wf; [exact Hwf|done| |exact Hu]. intros x y _ Hy. unfold create_fn in Hy.
          destruct x as [[i0 d0|]|]; [destruct (n_ok i0); [|done]|done|]; by injection Hy as <-.
        * intros vs Hv. rewrite bool_decide_eq_false_2; [done|]. by intros ->.
        * rewrite bool_decide_eq_true_2 by done. rewrite Hg2. by exists j.
        * intros ws Hws. rewrite app_assoc. apply get_below; [done|]. right. left. eauto.
        * intros ws Hws Hnw. rewrite bool_decide_eq_false_2.
          2: { intros E'. apply (f_equal length) in E'. rewrite app_length in E'. destruct ws; [done|]. cbn in E'. lia. }
          eapply disk_below; [done|done|done|]. destruct (T (us ++ [u])) as [[|b]|]; [done| |by left].
          destruct Hself as (j' & E' & _). right. left. eauto.
      + destruct (DiskOps.upd (create_fn nm) fs (rs ++ us ++ [u])) as [x|] eqn:Hu; [exfalso|by exists fs].
        rewrite app_assoc in Hu. apply upd_parent in Hu as (i & cs & Hpar). destruct us as [|v us]; [done|].
        assert (Hnu : names (v :: us)) by (eapply st_up; [done|exact Hn|by eexists|done]).
        specialize (Hat _ Hnu). rewrite Hpar in Hat. unfold dir_at in Hdu. destruct (T (v :: us)) as [[|b]|]; [done| |done].
        by destruct Hat as (? & ? & _).
    - (* mkdir *)
      unfold std_mkdir_all. rewrite Hh, Hp. cbn [p_pkg]. rewrite Hinfo, Hdir, clean_join_abs by done. unfold os_mkdir_all. rewrite at_abs by done.
      destruct (mkdirs nm fs (rs ++ ns)) as [fs'|] eqn:Em; cbn [or_err].
      2: { exfalso. apply mkdirs_none in Em as (vs & us & j & b & E & Hf). destruct (prefix_app_cases vs rs ns) as [[t Ht]|(ws & -> & Hws)].
           { by exists us. }
           - destruct Hroot as (i & cs & Hroot). rewrite Ht, get_app, Hf in Hroot. destruct t; [|done]. done.
           - destruct ws as [|w ws]; [rewrite app_nil_r in Hf; destruct Hroot as (i & cs & Hroot); congruence|].
             assert (Hnw : names (w :: ws)) by (eapply st_up; [done|exact Hn|done|done]).
             specialize (Hat _ Hnw). rewrite Hf in Hat. pose proof (Hc (w :: ws) b Hws) as Hx. destruct (T (w :: ws)) as [[|b']|].
             + by destruct Hat as (? & ? & ? & _).
             + destruct Hat as (? & [= <- <-] & _). done.
             + done. }
      exists fs'. split; [done|]. cbn [fst]. split.
      + by eapply mkdirs_wf.
      + destruct (mkdirs_dir _ _ _ _ rs ns Em eq_refl) as (j & cs & E & _). by exists j, cs.
      + intros vs v Hvs [x Hx]. destruct (decide (vs ++ [v] `prefix_of` ns)) as [Hv|Hv].
        * eapply st_up; [done|exact Hn|done|by destruct vs].
        * apply Honly; [done|]. rewrite <- (mkdirs_other _ _ _ _ (rs ++ vs ++ [v]) Em); [by eexists|].
          intros H. apply Hv. by eapply prefix_app_inv.
      + intros vs Hvs. case_bool_decide as Hv.
        * destruct Hv as [us E]. destruct (mkdirs_dir _ _ _ _ (rs ++ vs) us Em) as (j & cs & E' & Hnew & Hold); [by rewrite E, app_assoc|].
          exists j, cs. split; [done|]. specialize (Hat vs Hvs). pose proof (Hc vs) as Hx. destruct (T vs) as [[|b]|].
          -- destruct Hat as (i & ds & Hgi & Hi). destruct (Hold _ Hgi) as [_ <-]. done.
          -- exfalso. eapply Hx; [by exists us|done].
          -- by rewrite (Hnew Hat).
        * rewrite (mkdirs_other _ _ _ _ (rs ++ vs) Em); [by apply Hat|]. intros H. apply Hv. by eapply prefix_app_inv.
    - (* remove *)
      unfold std_remove. rewrite Hh, Hp. cbn [p_pkg p_name]. rewrite Hinfo, Hdir, clean_join_abs by done. unfold os_remove. rewrite at_abs by done.
      pose proof (Hat ns Hn) as Hself. destruct (T ns) as [e|] eqn:ET.
      + assert (exists n, get fs (rs ++ ns) = Some n /\ remove_fn (Some n) = Some None /\
                  ((exists i b, n = NFile i b) \/ exists i, n = NDir i [])) as (n & Hgn & Hrf & Hshape).
        { destruct e as [|b].
          - destruct Hself as (i & cs & E & _). exists (NDir i cs). split; [done|]. assert (cs = []) as ->; [|split; [done|]; right; by exists i].
            destruct cs as [|[v x] cs]; [done|]. exfalso. specialize (Hc ET v).
            assert (Hgv : get fs (rs ++ ns ++ [v]) = Some x).
            { rewrite app_assoc, get_snoc, E. cbn [child]. by rewrite bool_decide_eq_true_2. }
            specialize (Hat _ (Honly ns v Hn (mk_is_Some _ _ Hgv))). rewrite Hc, Hgv in Hat. done.
          - destruct Hself as (i & E & _). exists (NFile i b). split; [done|]. split; [done|]. left. eauto. }
        destruct (list_snoc_cases ns) as [->|(us & u & ->)]; [done|]. rewrite app_assoc in Hgn. destruct (get_parent _ _ _ _ Hgn) as (i & cs & Hpar & Hch).
        destruct (upd_total remove_fn fs (rs ++ us) u i cs None Hpar) as [fs' Hu]; [by rewrite Hch|]. rewrite <- app_assoc in Hu, Hgn. rewrite Hu. cbn [or_err].
        pose proof (upd_same _ _ _ _ Hu Hwne) as Hs. rewrite Hgn, Hrf in Hs. injection Hs as Hs. symmetry in Hs.
        exists fs'. split; [done|]. cbn [fst]. apply (disk_change fs fs' T _ (us ++ [u])); [done| |done|by eapply upd_rest|..].
        * eapply upd_wf; [exact Hwf|done| |exact Hu]. intros x y _ Hy. unfold remove_fn in Hy. by destruct x as [[|? []]|].
        * intros vs Hv. rewrite bool_decide_eq_false_2; [done|]. by intros ->.
        * by rewrite bool_decide_eq_true_2.
        * intros ws Hws. rewrite app_assoc. apply get_below; [done|by left].
        * intros ws Hws Hnw. rewrite bool_decide_eq_false_2.
          2: { intros E'. apply (f_equal length) in E'. rewrite app_length in E'. destruct ws; [done|]. cbn in E'. lia. }
          eapply disk_below; [done|done|done|]. right. rewrite Hgn. destruct Hshape as [(j & b & ->)|(j & ->)]; [left|right]; eauto.
      + destruct (DiskOps.upd remove_fn fs (rs ++ ns)) as [x|] eqn:Hu; [exfalso|by exists fs].
        apply upd_same in Hu; [|done]. cbn in Hself. by rewrite Hself in Hu.
    - (* remove all *)
      unfold std_remove_all. rewrite Hh, Hp. cbn [p_pkg p_name]. rewrite Hinfo, Hdir, clean_join_abs by done. unfold os_remove_all. rewrite at_abs by done.
      assert (exists fs', (if DiskOps.missing fs (rs ++ ns) then Ok fs else or_err (B"unlinkat") (abs_name (rs ++ ns)) (DiskOps.upd (fun _ => Some None) fs (rs ++ ns))) = Ok fs' /\
                rest fs fs' (rs ++ ns) /\ get fs' (rs ++ ns) = None /\ wf_node fs') as (fs' & E & Hr & Hgone & Hwf').
      { destruct (DiskOps.missing fs (rs ++ ns)) eqn:Em.
        - exists fs. split; [done|]. split; [by left|]. split; [by apply missing_get|done].
        - destruct (get fs (rs ++ ns)) as [n|] eqn:Hgn.
          + destruct (list_snoc_cases ns) as [->|(us & u & ->)]; [done|]. rewrite app_assoc in Hgn. destruct (get_parent _ _ _ _ Hgn) as (i & cs & Hpar & _).
            destruct (upd_total (fun _ => Some None) fs (rs ++ us) u i cs None Hpar eq_refl) as [fs' Hu]. rewrite <- app_assoc in Hu. rewrite Hu.
            exists fs'. split; [done|]. split; [by eapply upd_rest|]. pose proof (upd_same _ _ _ _ Hu Hwne) as Hs. split; [by injection Hs as <-|].
            by eapply upd_wf; [exact Hwf|done| |exact Hu].
          + exfalso. destruct (get_missing _ _ Hgn) as [E|(vs & i & b & Hpre & Hvn & Hf)]; [congruence|].
            destruct (prefix_app_cases vs rs ns Hpre) as [[t Ht]|(ws & -> & Hws)].
            * destruct Hroot as (j & cs & Hroot). rewrite Ht, get_app, Hf in Hroot. destruct t; done.
            * destruct ws as [|w ws]; [rewrite app_nil_r in Hf; destruct Hroot as (j & cs & Hroot); congruence|].
              assert (Hnw : names (w :: ws)) by (eapply st_up; [done|exact Hn|done|done]).
              specialize (Hat _ Hnw). rewrite Hf in Hat. destruct Hc as [Hc _]. pose proof (Hc (w :: ws) b Hws ltac:(congruence)) as Hx.
              destruct (T (w :: ws)) as [[|b']|]; [by destruct Hat as (? & ? & ? & _)| |done].
              destruct Hat as (? & [= <- <-] & _). done. }
      rewrite E. exists fs'. split; [done|]. cbn [fst]. apply (disk_change fs fs' T _ ns); [done|done|done|done|..].
      + intros vs Hv. by rewrite bool_decide_eq_false_2.
      + by rewrite bool_decide_eq_true_2.
      + intros ws Hws. rewrite app_assoc. apply get_below; [done|by left].
      + intros ws _ _. rewrite bool_decide_eq_true_2; [done|]. by exists ws.
    - (* read *)
      destruct Hc as (Hc1 & Hc2 & Hc3). unfold std_open. rewrite Hh, Hp. cbn [p_pkg p_name]. rewrite Hinfo, Hdir, clean_join_abs by done.
      unfold os_open. rewrite Hfs. exists fs. split; [|done]. pose proof (Hat ns Hn) as Hself. destruct (T ns) as [[|b]|]; [done| |].
      + destruct Hself as (i & Hgi & Hok). rewrite Hgi. cbn [n_meta]. rewrite Hok. f_equal. f_equal. f_equal. unfold std_reads. cbn [sf_os sf_pos].
        rewrite Hfs, Hgi, drop_0. by rewrite os_reads_same.
      + by rewrite Hself.
    - (* stat *)
      unfold std_stat. rewrite Hh, Hp. cbn [p_pkg p_name]. rewrite Hinfo, Hdir, clean_join_abs by done.
      unfold os_stat. rewrite Hfs. exists fs. split; [|done]. pose proof (Hat ns Hn) as Hself.
      destruct (list_snoc_cases ns) as [->|(us & u & ->)]; [done|]. apply Forall_app in Hg as [_ Hu]. apply List.Forall_cons_iff in Hu as [Hu _].
      rewrite last_snoc. destruct (T (us ++ [u])) as [[|b]|].
      + destruct Hself as (i & cs & Hgi & _). rewrite Hgi, new_file_info_id. cbn [info_of]. by rewrite app_assoc, base_snoc.
      + destruct Hself as (i & Hgi & _). rewrite Hgi, new_file_info_id. cbn [info_of]. by rewrite app_assoc, base_snoc.
      + by rewrite Hself.
  Qed.

  Lemma disk_program l fs s T : disk_shows fs T -> beside_it c rs mp s -> Forall (fun a => names (act_name a)) l -> calm_run T l ->
    exists fs', disk_run parse nm hp fs s l = (fs', s, (plan_run T l).2) /\ disk_shows fs' (plan_run T l).1.
  Proof.
    revert fs T. induction l as [|a l IH]; intros fs T Hm Hb Hl Hc; [by exists fs|].
    apply List.Forall_cons_iff in Hl as [Hn Hl]. destruct Hc as [Hc1 Hc2]. cbn [disk_run plan_run].
    destruct (disk_act fs s T a Hm Hb Hn Hc1) as (fs1 & -> & Hm1). destruct (plan_do T a) as [T1 x]. cbn [fst snd] in *.
    destruct (IH fs1 T1 Hm1 Hb Hl Hc2) as (fs2 & -> & Hm2). destruct (plan_run T1 l) as [T2 xs]. by exists fs2.
  Qed.
End DiskSide.
