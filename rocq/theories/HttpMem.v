(** The in-memory pkger behind the file server: its methods keep to the
    contents of the pkger, request after request. *)
From Verif Require Import Bytes GoPath Here GoTypes GoNum Mem MemSpec MemBase MarshalMem Disk DiskOps Std Http HttpProofs.

Section MemSite.
  Context (parse : resolver) (now : gotime) (m0 : mem).
  Hypothesis W0 : wf m0.

  (** What Readdir(-1) lists on a handle with these fields. *)
  Definition listed_at (e : efile) : option (list details) :=
    match readdir parse (alloc m0 (FObj (e_here e) (e_info e) (e_path e) (e_data e) (e_parent e) None None)).1 (m_next m0) (-1) with
    | (l, None) => Some l
    | _ => None
    end.

  (** What File.Open(name) on the opened directory [e0] shows. *)
  Definition mem_site (e0 : efile) (name : bytes) : opening :=
    match parse (e_here e0) name with
    | None => Missing FOther
    | Some pt =>
        if bool_decide (pt = e_path e0) then ADir (e_info e0) (listed_at e0)
        else
          let pt := Path (p_pkg pt) (join2 (p_name (e_path e0)) (p_name pt)) in
          match mem_parse parse m0 (path_string pt) with
          | None => Missing FOther
          | Some K =>
              match file_at m0 K with
              | None => Missing FMissing
              | Some f =>
                  if d_isdir (f_info f) then ADir (f_info f) (listed_at (EFile (f_info f) (f_here f) pt [] (e_path e0)))
                  else AFile (f_info f) (f_data f)
              end
          end
    end.

  (** The contents are those of [m0]. *)
  Record same_as (m : mem) : Prop := {
    sa_wf : wf m;
    sa_store : same_store m0 m;
    sa_files : m_files m = m_files m0;
    sa_next : m_next m0 <= m_next m
  }.

  (** All stored files have their size. *)
  Definition sized : Prop := forall k f, file_at m0 k = Some f -> d_isdir (f_info f) = false ->
    d_size (f_info f) = Z.of_nat (length (f_data f)).

  (** [rt]: the opened directory, if it is kept between requests. *)
  Context (rt : option (ref * efile)).
  Definition root_ok (m : mem) : Prop :=
    match rt with
    | Some (r, e) => exists f, m_heap m !! r = Some f /\ efile_of f = e /\ f_writer f = None
    | None => True
    end.
  Definition mem_ok (m : mem) : Prop := same_as m /\ root_ok m.
  Definition mem_safe (h : ref) : Prop := (exists e, rt = Some (h, e)) \/ m_next m0 <= h.
  Definition mem_isfile (m : mem) (h : ref) (d : details) (data : bytes) (pos : nat) : Prop :=
    m_next m0 <= h /\ (forall e, rt <> Some (h, e)) /\ exists f, m_heap m !! h = Some f /\ f_info f = d /\ f_data f = data /\
      match f_reader f with
      | None => data = [] \/ pos = 0
      | Some rd => rd = BReader data (Z.of_nat pos)
      end.
  Definition mem_isdir (m : mem) (h : ref) (d : details) (l : option (list details)) : Prop :=
    mem_safe h /\ exists f, m_heap m !! h = Some f /\ f_info f = d /\ l = listed_at (efile_of f).

  Lemma same_as_start : same_as m0.
  Proof. by split. Qed.

  Lemma stored_old k r : m_files m0 !! k = Some r -> r < m_next m0.
  Proof. by apply wf_files_lt. Qed.

  Lemma same_as_alloc m f : same_as m -> same_as (alloc m f).1.
  Proof.
    intros [Hw Hs Hf Hn]. split; [by apply wf_alloc| |done|cbn; lia].
    destruct Hs as [S1 S2 S3]. split; [done|done|]. intros pt. by rewrite file_at_alloc.
  Qed.

  (** An object that is not stored may change. *)
  Lemma same_as_upd m h f : same_as m -> m_next m0 <= h -> is_Some (m_heap m !! h) -> same_as (Mem.upd m h f).
  Proof.
    intros [Hw Hs Hf Hn] Hh Hi. split; [by apply wf_upd| |done|done].
    destruct Hs as [S1 S2 S3]. split; [done|done|]. intros pt. rewrite <- S3. unfold file_at. cbn [Mem.upd m_files m_heap].
    rewrite Hf. destruct (m_files m0 !! pt) as [r|] eqn:E; [|done]. cbn.
    apply stored_old in E. rewrite lookup_insert_ne; [done|lia].
  Qed.

  (** So may the reader of any object. *)
  Lemma same_as_upd_keep m h g f : same_as m -> m_heap m !! h = Some g -> efile_of f = efile_of g -> same_as (Mem.upd m h f).
  Proof.
    intros [Hw Hs Hf Hn] Hh He. split; [apply wf_upd; [done|by eexists]| |done|done].
    destruct Hs as [S1 S2 S3]. split; [done|done|]. intros pt. rewrite <- S3. unfold file_at. cbn [Mem.upd m_files m_heap].
    destruct (m_files m !! pt) as [r|]; [|done]. cbn.
    destruct (decide (r = h)) as [->|Hr]; [by rewrite lookup_insert, Hh; cbn; rewrite He|by rewrite lookup_insert_ne].
  Qed.

  Lemma root_alloc m f : wf m -> root_ok m -> root_ok (alloc m f).1.
  Proof.
    intros Hw. unfold root_ok. destruct rt as [[r e]|]; [|done]. intros (g & Hg & H). exists g. split; [|done]. cbn [alloc fst m_heap].
    rewrite lookup_insert_ne; [done|]. apply wf_fresh in Hw. congruence.
  Qed.

  Lemma isdir_alloc m f h d l : wf m -> mem_isdir m h d l -> mem_isdir (alloc m f).1 h d l.
  Proof.
    intros Hw (Hs & g & Hg & H). split; [done|]. exists g. split; [|done]. cbn [alloc fst m_heap].
    rewrite lookup_insert_ne; [done|]. apply wf_fresh in Hw. congruence.
  Qed.

  Lemma list_isdir m h f : same_as m -> m_heap m !! h = Some f ->
    match readdir parse m h (-1) with (l, None) => Some l | _ => None end = listed_at (efile_of f).
  Proof.
    intros HA Hf. unfold listed_at.
    set (f' := FObj _ _ _ _ _ _ _). rewrite (same_readdir parse (alloc m0 f').1 m (m_next m0) h f' f); [done|by apply wf_alloc|apply HA| |cbn; by rewrite lookup_insert|done|done].
    destruct HA as [_ [S1 S2 S3] _ _]. split; [done|done|]. intros pt. by rewrite file_at_alloc.
  Qed.

  Context (sz : details -> bytes -> Prop).
  Hypothesis Hsz : forall k f, file_at m0 k = Some f -> d_isdir (f_info f) = false -> sz (f_info f) (f_data f).

  (** File.Open on a directory. *)
  Lemma file_open_site m r f e0 name :
    mem_ok m -> m_heap m !! r = Some f -> efile_of f = e0 -> mem_safe r -> d_isdir (e_info e0) = true ->
    exists m' x, mem_answer (file_open parse m r name) = (m', x) /\ mem_ok m' /\
      (forall h d l, mem_isdir m h d l -> mem_isdir m' h d l) /\
      match mem_site e0 name with
      | Missing e => x = inr e
      | AFile d data => exists h, x = inl h /\ mem_isfile m' h d data 0 /\ d_isdir d = false /\ sz d data
      | ADir d l => exists h, x = inl h /\ mem_isdir m' h d l /\ d_isdir d = true
      end.
  Proof.
    intros [HA HR] Hr <- Hsr Hd0. unfold file_open, mem_site. rewrite Hr. cbn [efile_of e_here e_path e_info].
    destruct (parse (f_here f) name) as [pt|]; [|by exists m, (inr FOther)].
    destruct (bool_decide (pt = f_path f)) eqn:Eb.
    { exists m, (inl r). split; [done|]. split; [done|]. split; [done|]. exists r. split; [done|]. split; [|done]. split; [done|]. by exists f. }
    clear Eb. cbv zeta. set (pt' := Path _ _). unfold open.
    assert (Hmp : mem_parse parse m (path_string pt') = mem_parse parse m0 (path_string pt')).
    { unfold mem_parse. by rewrite (ss_here _ _ (sa_store _ HA)). }
    rewrite Hmp. destruct (mem_parse parse m0 (path_string pt')) as [K|]; [|by exists m, (inr FOther)].
    pose proof (ss_files _ _ (sa_store _ HA) K) as HK.
    destruct (file_at m0 K) as [fo|] eqn:E0.
    2: { assert (file_at m K = None) as -> by (by destruct (file_at m K)). by exists m, (inr FMissing). }
    destruct (file_at m K) as [fm|] eqn:Em; [|done]. cbn in HK. injection HK as Hi Hh Hp Hda Hpa.
    set (g1 := FObj (f_here fm) _ _ _ _ _ _).
    assert (HA1 : same_as (alloc m g1).1) by (by apply same_as_alloc).
    assert (HR1 : root_ok (alloc m g1).1) by (apply root_alloc; [apply HA|done]).
    cbn [alloc]. cbn [m_heap]. rewrite lookup_insert. cbn [f_info g1]. rewrite new_file_info_id, Hi.
    destruct (d_isdir (f_info fo)) eqn:Ed.
    - set (g2 := FObj _ _ pt' _ _ _ _). set (m2 := Mem _ _ _ _ _).
      assert (Em2 : m2 = (alloc (alloc m g1).1 g2).1) by done.
      exists m2, (inl (Datatypes.S (m_next m))). split; [done|]. rewrite Em2. split; [split; [by apply same_as_alloc|by apply root_alloc; [apply HA1|]]|].
      split. { intros h d l Hdir. apply isdir_alloc; [apply HA1|]. apply isdir_alloc; [apply HA|done]. }
      exists (Datatypes.S (m_next m)). split; [done|]. split; [|done]. split; [right; destruct HA; lia|].
      exists g2. split; [cbn; by rewrite lookup_insert|]. split; [cbn; by rewrite new_file_info_id|].
      unfold g2, efile_of. cbn. by rewrite !new_file_info_id, Hh.
    - set (m2 := Mem _ _ _ _ _). assert (Em2 : m2 = (alloc m g1).1) by done.
      exists m2, (inl (m_next m)). split; [done|]. rewrite Em2. split; [done|].
      split. { intros h d l Hdir. apply isdir_alloc; [apply HA|done]. }
      exists (m_next m). split; [done|]. split.
      + split; [by destruct HA|]. split.
        { intros e Ert. unfold root_ok in HR. rewrite Ert in HR. destruct HR as (g & Hg & _). rewrite wf_fresh in Hg by apply HA. done. }
        exists g1. split; [cbn; by rewrite lookup_insert|]. unfold g1. cbn. rewrite new_file_info_id. split; [done|]. split; [done|]. by right.
      + split; [done|]. by apply (Hsz K).
  Qed.

  (** The laws that do not depend on how files are opened. *)
  Lemma mem_lawful (opn : mem -> bytes -> mem * (ref + ferr)) site :
    (forall m name, mem_ok m -> exists m' x, opn m name = (m', x) /\ mem_ok m' /\
      (forall h d l, mem_isdir m h d l -> mem_isdir m' h d l) /\
      match site name with
      | Missing e => x = inr e
      | AFile d data => exists h, x = inl h /\ mem_isfile m' h d data 0 /\ d_isdir d = false /\ sz d data
      | ADir d l => exists h, x = inl h /\ mem_isdir m' h d l /\ d_isdir d = true
      end) ->
    lawful (mem_hfs parse now opn) sz mem_ok mem_isfile mem_isdir mem_safe site.
  Proof.
    intros Hop. split.
    - exact Hop.
    - intros s h d data pos (_ & _ & f & Hf & <- & _). cbn. unfold info_at. by rewrite Hf.
    - intros s h d l (_ & f & Hf & <- & _). cbn. unfold info_at. by rewrite Hf.
    - intros s h d l [HA _] (_ & f & Hf & _ & ->). cbn. by apply list_isdir.
    - intros s h d data pos n [HA HR] (Hn & Hnr & f & Hf & Hi & Hd & Hrd) Hpos. cbn [o_read mem_hfs]. unfold file_read. rewrite Hf.
      destruct (cur_reader f) as [rd|] eqn:Ecr.
      + assert (Erd : rd = BReader data (Z.of_nat pos)).
        { unfold cur_reader in Ecr. destruct (f_reader f) as [x|]; [by injection Ecr as ->|]. rewrite Hd in Ecr. destruct data as [|b data]; [done|].
          injection Ecr as <-. destruct Hrd as [?| ->]; done. }
        subst rd. unfold reader_read. cbn [r_s r_i]. rewrite Nat2Z.id.
        assert (HR' : forall x, root_ok (Mem.upd s h x)).
        { intros x. unfold root_ok in *. destruct rt as [[r e]|]; [|done]. destruct HR as (g & Hg & H). exists g. split; [|done].
          cbn. rewrite lookup_insert_ne; [done|]. intros ->. by eapply Hnr. }
        destruct (Z.leb_spec (Z.of_nat (length data)) (Z.of_nat pos)) as [Hle|Hlt].
        * eexists _, h, (Some EEOF). rewrite drop_ge by lia. rewrite take_nil. split; [done|]. split; [split; [apply same_as_upd; [done|done|by eexists]|apply HR']|].
          split; [|done]. split; [done|]. split; [done|]. eexists. cbn [Mem.upd m_heap]. rewrite lookup_insert. split; [done|]. cbn. by rewrite Nat.add_0_r.
        * eexists _, h, None. split; [done|]. split; [split; [apply same_as_upd; [done|done|by eexists]|apply HR']|].
          split.
          { split; [done|]. split; [done|]. eexists. cbn [Mem.upd m_heap]. rewrite lookup_insert. split; [done|]. cbn [f_info f_data f_reader]. split; [done|]. split; [done|].
            f_equal. lia. }
          split; [by intros [? ?]|]. intros E. apply (f_equal length) in E. rewrite drop_length in E. cbn in E. lia.
      + assert (data = []) as ->.
        { unfold cur_reader in Ecr. destruct (f_reader f); [done|]. rewrite Hd in Ecr. by destruct data. }
        eexists s, h, _. rewrite drop_nil, take_nil. split; [done|]. split; [done|]. split; [|split; [done|intros; by eexists]].
        split; [done|]. split; [done|]. exists f. split; [done|]. split; [done|]. split; [done|].
        unfold cur_reader in Ecr. destruct (f_reader f); [done|]. by left.
    - intros s h d data pos off [HA HR] (Hn & Hnr & f & Hf & Hi & Hd & Hrd) Hoff. cbn [o_seek mem_hfs]. unfold file_seek. rewrite Hf.
      destruct (cur_reader f) as [rd|] eqn:Ecr.
      + assert (Erd : r_s rd = data).
        { unfold cur_reader in Ecr. destruct (f_reader f) as [x|]; [by injection Ecr as ->; subst|]. rewrite Hd in Ecr. destruct data as [|b data]; [done|].
          by injection Ecr as <-. }
        unfold reader_seek. cbn [Z.eqb]. destruct (Z.ltb_spec off 0); [lia|]. eexists _, h. split; [done|]. split; [split|].
        * apply same_as_upd; [done|done|by eexists].
        * unfold root_ok in *. destruct rt as [[r e]|]; [|done]. destruct HR as (g & Hg & H'). exists g. split; [|done].
          cbn. rewrite lookup_insert_ne; [done|]. intros ->. by eapply Hnr.
        * split; [done|]. split; [done|]. eexists. cbn [Mem.upd m_heap]. rewrite lookup_insert. split; [done|]. cbn [f_info f_data f_reader]. split; [done|]. split; [done|].
          rewrite Erd. f_equal. lia.
      + assert (data = []) as ->.
        { unfold cur_reader in Ecr. destruct (f_reader f); [done|]. rewrite Hd in Ecr. by destruct data. }
        exists s, h. split; [done|]. split; [done|]. split; [done|]. split; [done|]. exists f. split; [done|]. split; [done|]. split; [done|].
        unfold cur_reader in Ecr. destruct (f_reader f); [done|]. by left.
    - intros s h d data pos (H & _). by right.
    - intros s h d l (H & _). done.
    - intros s h [HA HR] Hs. cbn [o_close mem_hfs]. unfold file_close. destruct (m_heap s !! h) as [f|] eqn:Ef; [|done].
      destruct (f_writer f) as [w|] eqn:Ew; cbn [fst].
      + destruct Hs as [[e He]|Hge].
        { unfold root_ok in HR. rewrite He in HR. destruct HR as (g & Hg & _ & Hwn). congruence. }
        split; [apply same_as_upd; [done|done|by eexists]|].
        unfold root_ok in *. destruct rt as [[r e]|]; [|done]. destruct HR as (g & Hg & He & Hwn).
        destruct (decide (r = h)) as [->|Hne]; [congruence|]. exists g. cbn. by rewrite lookup_insert_ne by done.
      + split; [by eapply same_as_upd_keep|].
        unfold root_ok in *. destruct rt as [[r e]|]; [|done]. destruct HR as (g & Hg & He & Hwn).
        destruct (decide (r = h)) as [->|Hne].
        * eexists. cbn. rewrite lookup_insert. split; [done|]. split; [|done]. rewrite <- He. assert (g = f) as -> by congruence. done.
        * exists g. cbn. by rewrite lookup_insert_ne by done.
  Qed.
End MemSite.

(** http.FileServer(f). *)
Lemma mem_server_lawful_sz parse now m0 r f (sz : details -> bytes -> Prop) :
  wf m0 -> (forall k f, file_at m0 k = Some f -> d_isdir (f_info f) = false -> sz (f_info f) (f_data f)) ->
  m_heap m0 !! r = Some f -> f_writer f = None -> d_isdir (f_info f) = true ->
  let rt := Some (r, efile_of f) in
  lawful (mem_server parse now r) sz (mem_ok m0 rt) (mem_isfile m0 rt) (mem_isdir parse m0 rt) (mem_safe m0 rt)
    (mem_site parse m0 (efile_of f)) /\ mem_ok m0 rt m0.
Proof.
  intros Hw Hs Hr Hwr Hd rt. split.
  - apply mem_lawful; [done|done|]. intros m name Hok. pose proof Hok as [HA HR]. destruct HR as (g & Hg & He & _).
    eapply (file_open_site parse m0 rt sz Hs m r g); [done|done|done|left; by eexists|done].
  - split; [by apply same_as_start|]. exists f. done.
Qed.

Lemma mem_server_lawful parse now m0 r f :
  wf m0 -> sized m0 -> m_heap m0 !! r = Some f -> f_writer f = None -> d_isdir (f_info f) = true ->
  let rt := Some (r, efile_of f) in
  lawful (mem_server parse now r) full_size (mem_ok m0 rt) (mem_isfile m0 rt) (mem_isdir parse m0 rt) (mem_safe m0 rt)
    (mem_site parse m0 (efile_of f)) /\ mem_ok m0 rt m0.
Proof. intros Hw Hs. by apply mem_server_lawful_sz. Qed.

(** http.FileServer(pkger.Dir(d)). *)
Definition dir_site (parse : resolver) (m0 : mem) (d name : bytes) : opening :=
  match mem_parse parse m0 d with
  | None => Missing FOther
  | Some K =>
      match file_at m0 K with
      | None => Missing FMissing
      | Some f => mem_site parse m0 (EFile (f_info f) (f_here f) (f_path f) (f_data f) zero_path) name
      end
  end.

Lemma mem_dir_lawful parse now m0 d :
  wf m0 ->
  (forall K f, mem_parse parse m0 d = Some K -> file_at m0 K = Some f -> d_isdir (f_info f) = true) ->
  lawful (mem_dir_server parse now d) (fun _ _ => True) (mem_ok m0 None) (mem_isfile m0 None) (mem_isdir parse m0 None) (mem_safe m0 None)
    (dir_site parse m0 d) /\ mem_ok m0 None m0.
Proof.
  intros Hw Hd. split; [|by split; [apply same_as_start|]].
  apply mem_lawful; [done|done|]. intros m name Hok. pose proof Hok as [HA HR]. unfold mem_dir_open, open, dir_site.
  assert (Hmp : mem_parse parse m d = mem_parse parse m0 d).
  { unfold mem_parse. by rewrite (ss_here _ _ (sa_store _ _ HA)). }
  rewrite Hmp. destruct (mem_parse parse m0 d) as [K|] eqn:EK; [|by exists m, (inr FOther)].
  pose proof (ss_files _ _ (sa_store _ _ HA) K) as HK.
  destruct (file_at m0 K) as [fo|] eqn:E0.
  2: { assert (file_at m K = None) as -> by (by destruct (file_at m K)). by exists m, (inr FMissing). }
  destruct (file_at m K) as [fm|] eqn:Em; [|done]. cbn in HK. injection HK as Hi Hh Hp Hda Hpa.
  set (g1 := FObj (f_here fm) _ _ _ _ _ _). cbn [alloc]. set (m1 := Mem _ _ _ _ _). assert (Em1 : m1 = (alloc m g1).1) by done.
  destruct (file_open_site parse m0 None (fun _ _ => True) ltac:(done) m1 (m_next m) g1 (efile_of g1) name) as (m' & x & E & Hok' & Hk & Hx).
  - rewrite Em1. split; [by apply same_as_alloc|done].
  - cbn. by rewrite lookup_insert.
  - done.
  - right. by destruct HA.
  - unfold g1. cbn [efile_of e_info f_info]. rewrite new_file_info_id, Hi. by eapply Hd.
  - exists m', x. split; [done|]. split; [done|]. split.
    + intros h d' l Hdir. apply Hk. rewrite Em1. apply isdir_alloc; [apply HA|done].
    + unfold g1, efile_of in Hx. cbn [f_info f_here f_path f_data f_parent] in Hx. rewrite new_file_info_id, Hi, Hh, Hp, Hda in Hx. done.
Qed.
