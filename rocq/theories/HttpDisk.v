(** The disk behind the file server: http.Dir and the on-disk pkger. *)
From Verif Require Import Bytes GoPath Here GoTypes GoNum Mem Disk DiskOps Std Http HttpProofs.

(** What an opened node shows. *)
Definition node_opening (w : bytes) (n : node) : opening :=
  match n with
  | NFile _ data => AFile (info_of w n) data
  | NDir _ cs => ADir (info_of w n) (Some ((fun x => info_of x.1 x.2) <$> cs))
  end.

(** http.Dir(d). *)
Definition disk_site (fs : node) (d name : bytes) : opening :=
  let p := join2 d (clean (slash :: name)) in
  match find fs p with
  | Some n => if n_ok (n_meta n) then node_opening (base p) n else Missing FDenied
  | None => Missing FMissing
  end.

Definition os_isfile {A} (s : A * nat) (h : ofile) (d : details) (data : bytes) (pos : nat) : Prop :=
  exists i, of_node h = NFile i data /\ d = info_of (of_name h) (NFile i data) /\ of_pos h = pos.
Definition os_isdir {A} (s : A * nat) (h : ofile) (d : details) (l : option (list details)) : Prop :=
  exists i cs, of_node h = NDir i cs /\ d = info_of (of_name h) (NDir i cs) /\ l = Some ((fun x => info_of x.1 x.2) <$> cs).

Lemma os_lawful {A} (opn : A * nat -> bytes -> A * nat * (ofile + ferr)) (ok : A -> Prop) site :
  (forall s name, ok s.1 -> exists s' x, opn s name = (s', x) /\ ok s'.1 /\
    match site name with
    | Missing e => x = inr e
    | AFile d data => exists i w, x = inl (OFile w (NFile i data) 0) /\ d = info_of w (NFile i data)
    | ADir d l => exists i cs w, x = inl (OFile w (NDir i cs) 0) /\ d = info_of w (NDir i cs) /\ l = Some ((fun x => info_of x.1 x.2) <$> cs)
    end) ->
  lawful (os_hfs opn) full_size (fun s => ok s.1) os_isfile os_isdir (fun _ => True) site.
Proof.
  intros Hop. split.
  - intros s name Hok. destruct (Hop s name Hok) as (s' & x & E & Hok' & Hx). exists s', x. split; [done|]. split; [done|].
    split; [done|]. destruct (site name) as [e|d data|d l]; [done|..].
    + destruct Hx as (i & w & -> & ->). eexists. split; [done|]. split; [by exists i|]. done.
    + destruct Hx as (i & cs & w & -> & -> & ->). eexists. split; [done|]. split; [by exists i, cs|]. done.
  - intros s h d data pos (i & E & -> & _). cbn. by rewrite E.
  - intros s h d l (i & cs & E & -> & _). cbn. by rewrite E.
  - intros s h d l _ (i & cs & E & _ & ->). cbn. by rewrite E.
  - intros s h d data pos n Hok (i & E & -> & <-) Hn. cbn [o_read os_hfs]. rewrite E.
    destruct n as [|n]; [lia|]. destruct (drop (of_pos h) data) as [|c t] eqn:Ed.
    + eexists s, h, _. rewrite take_nil. split; [done|]. split; [done|]. split; [|split; [done|intros; by eexists]].
      exists i. cbn. rewrite Nat.add_0_r. done.
    + eexists s, _, None. split; [done|]. split; [done|]. split; [|by split; [intros [? ?]|]].
      exists i. done.
  - intros s h d data pos off Hok (i & E & -> & <-) Ho. cbn [o_seek os_hfs]. destruct (Z.ltb_spec off 0); [lia|].
    eexists s, _. split; [done|]. split; [done|]. by exists i.
  - done.
  - done.
  - intros s h Hok _. done.
Qed.

Lemma dir_server_lawful fs d :
  lawful (dir_server fs d) full_size (fun s => True) os_isfile os_isdir (fun _ => True) (disk_site fs d).
Proof.
  apply (os_lawful _ (fun _ => True)). intros [[] n] name _. unfold disk_site, dir_answer. cbv zeta. cbn [snd].
  set (p := join2 _ _). destruct (find fs p) as [nd|]; [|by eexists (tt, n), _].
  destruct (n_ok (n_meta nd)); [|by eexists (tt, n), _].
  eexists (tt, Datatypes.S n), _. split; [done|]. split; [done|]. unfold node_opening. destruct nd as [i data|i cs].
  - by eexists i, _.
  - by eexists i, cs, _.
Qed.

(** The on-disk pkger: the infos it has looked up stay as they are. *)
Definition std_same (hp : bytes -> res hinfo) (s0 s : sto) : Prop :=
  so_here s = so_here s0 /\ forall p, (std_info hp s p).2 = (std_info hp s0 p).2.

Lemma std_same_info hp s0 s p : std_same hp s0 s -> std_same hp s0 (std_info hp s p).1.
Proof.
  intros [H1 H2]. unfold std_info at 1. destruct (so_infos s !! p) as [i|] eqn:E; [done|].
  destruct (hp p) as [i|e] eqn:Ep; [|done]. split; [done|]. intros q. rewrite <- H2. cbn [fst].
  unfold std_info at 1. cbn [so_infos]. destruct (decide (p = q)) as [->|Hne].
  - rewrite lookup_insert. unfold std_info. by rewrite E, Ep.
  - rewrite lookup_insert_ne by done. unfold std_info. destruct (so_infos s !! q); [done|]. by destruct (hp q).
Qed.

Lemma std_open_same parse hp fs s0 s name : std_same hp s0 s ->
  std_same hp s0 (std_open parse hp fs s name).1 /\ (std_open parse hp fs s name).2 = (std_open parse hp fs s0 name).2.
Proof.
  intros H. pose proof H as [H1 H2]. unfold std_open. rewrite H1. destruct (parse (so_here s0) name) as [pt|]; [|done].
  pose proof (std_same_info hp s0 s (p_pkg pt) H) as H3. specialize (H2 (p_pkg pt)).
  destruct (std_info hp s (p_pkg pt)) as [s1 r1]. destruct (std_info hp s0 (p_pkg pt)) as [s2 r2]. cbn [fst snd] in *. subst r2.
  destruct r1 as [her|e]; [|done]. destruct (os_open _ _); done.
Qed.

Definition std_opening (fs : node) (r : res sfile) : opening :=
  match r with
  | Ok f => match find fs (sf_os f) with Some nd => node_opening (base (sf_os f)) nd | None => Missing FOther end
  | Err (EPath op p) => Missing (if bool_decide (op = B"open") then os_ferr fs p else FOther)
  | Err _ => Missing FOther
  end.
Definition std_site parse hp fs (s0 : sto) (f : sfile) (name : bytes) : opening :=
  std_opening fs (sfile_open parse hp fs s0 f name).2.

Lemma std_answer_ok hp fs s0 x n :
  std_same hp s0 x.1 ->
  exists s' y, std_answer fs x n = (s', y) /\ std_same hp s0 s'.1 /\
    match std_opening fs x.2 with
    | Missing e => y = inr e
    | AFile d data => exists i w, y = inl (OFile w (NFile i data) 0) /\ d = info_of w (NFile i data)
    | ADir d l => exists i cs w, y = inl (OFile w (NDir i cs) 0) /\ d = info_of w (NDir i cs) /\ l = Some ((fun x => info_of x.1 x.2) <$> cs)
    end.
Proof.
  intros H. destruct x as [s [f|e]]; cbn [fst] in H; unfold std_answer, std_opening; cbn [snd].
  - destruct (find fs (sf_os f)) as [nd|]; [|by eexists _, _].
    eexists _, _. split; [done|]. split; [done|]. unfold node_opening. destruct nd as [i data|i cs].
    + by eexists i, _.
    + by eexists i, cs, _.
  - destruct e; by eexists _, _.
Qed.

Lemma std_server_lawful parse hp fs s0 f :
  lawful (std_server parse hp fs f) full_size (fun s => std_same hp s0 s.1) os_isfile os_isdir (fun _ => True) (std_site parse hp fs s0 f).
Proof.
  apply (os_lawful _ (std_same hp s0)). intros [s n] name Hok. unfold std_site. cbn [fst snd] in *. unfold sfile_open.
  destruct (std_open_same parse hp fs s0 s (join2 (p_name (sf_path f)) name) Hok) as [H1 H2]. rewrite <- H2.
  by apply std_answer_ok.
Qed.

Definition std_dir_site parse hp fs (s0 : sto) (d name : bytes) : opening :=
  match (std_open parse hp fs s0 d).2 with
  | Ok f => std_site parse hp fs s0 f name
  | x => std_opening fs x
  end.

Lemma std_dir_lawful parse hp fs s0 d :
  lawful (std_dir_server parse hp fs d) full_size (fun s => std_same hp s0 s.1) os_isfile os_isdir (fun _ => True) (std_dir_site parse hp fs s0 d).
Proof.
  apply (os_lawful _ (std_same hp s0)). intros [s n] name Hok. unfold std_dir_site. cbn [fst snd] in *.
  destruct (std_open_same parse hp fs s0 s d Hok) as [H1 H2]. rewrite <- H2.
  destruct (std_open parse hp fs s d) as [s1 [f|e]] eqn:E; cbn [fst snd] in *.
  - unfold std_site, sfile_open. destruct (std_open_same parse hp fs s0 s1 (join2 (p_name (sf_path f)) name) H1) as [H3 H4]. rewrite <- H4.
    by apply std_answer_ok.
  - by apply (std_answer_ok hp fs s0 (s1, Err e)).
Qed.

(** *** Descriptors *)

(** If opening a file opens [extra] descriptors too many (in the states [okA]), a
    request through [os_hfs] leaves [extra] more of them open for each file it
    opened: one or two, unless it is for an index.html. *)
Section Count.
  Context {A} (opn : A * nat -> bytes -> A * nat * (ofile + ferr)).
  Context (mime sniff : bytes -> bytes) (boundary : bytes) (bufsize : nat).
  Context (okA : A -> Prop) (extra : nat).
  Hypothesis Hop : forall s name, okA s.1 -> match opn s name with
    | (s', inl _) => okA s'.1 /\ s'.2 = Datatypes.S (extra + s.2)
    | (s', inr _) => okA s'.1 /\ s'.2 = extra + s.2
    end.

  Lemma copy_n_count fuel buf s h left : (copy_n (os_hfs opn) fuel buf s h left).1.1 = s.
  Proof.
    revert s h left. induction fuel as [|fuel IH]; intros s h left; [done|]. destruct left as [|left]; [done|]. cbn [copy_n].
    destruct (o_read (os_hfs opn) s h (Nat.min buf (Datatypes.S left))) as [[s1 h1] [b e]] eqn:E.
    assert (s1 = s) as ->.
    { revert E. cbn [o_read os_hfs]. destruct (of_node h); [|by intros [= <- <- <- <-]].
      destruct (Nat.min _ _); [by intros [= <- <- <- <-]|]. destruct (drop _ _); by intros [= <- <- <- <-]. }
    destruct e; [done|]. specialize (IH s h1 (Datatypes.S left - length b)). destruct (copy_n _ _ _ _ _ _) as [[s2 h2] b2]. done.
  Qed.

  Lemma seek_count s h off : (o_seek (os_hfs opn) s h off).1.1 = s.
  Proof. cbn [o_seek os_hfs]. by destruct (off <? 0)%Z. Qed.

  Lemma write_parts_count l : forall first ctype size s h, (write_parts (os_hfs opn) boundary bufsize first ctype size s h l).1.1 = s.
  Proof.
    induction l as [|r l IH]; intros first ctype size s h; [done|]. cbn [write_parts].
    pose proof (seek_count s h (g_start r)) as Hs. destruct (o_seek _ _ _ _) as [[s1 h1] k]. cbn in Hs. subst s1.
    destruct k; [|done]. pose proof (copy_n_count (1 + Z.to_nat (g_len r)) bufsize s h1 (Z.to_nat (g_len r))) as Hc.
    destruct (copy_n _ _ _ _ _ _) as [[s2 h2] b]. cbn in Hc. subst s2.
    destruct (_ <? _)%nat; [done|]. specialize (IH false ctype size s h2). destruct (write_parts _ _ _ _ _ _ _ _ _) as [[s3 h3] b3]. done.
  Qed.

  Lemma serve_content_count q d s h : (serve_content (os_hfs opn) mime sniff boundary bufsize q d s h).1 = s.
  Proof.
    unfold serve_content. destruct (unmodified _ _); [done|].
    set (pre := match mime (path_ext (d_name d)) with [] => _ | _ => _ end).
    assert (Hpre : pre.1.1.1 = s).
    { unfold pre. destruct (mime _); [|done]. pose proof (copy_n_count 513 512 s h 512) as Hc.
      destruct (copy_n _ _ _ _ _ _) as [[s1 h1] b]. cbn in Hc. subst s1. pose proof (seek_count s h1 0) as Hs.
      destruct (o_seek _ _ _ _) as [[s2 h2] k]. done. }
    clearbody pre. destruct pre as [[[s1 h1] ct] k]. cbn in Hpre. subst s1. destruct k; [|done]. cbn [negb].
    destruct (_ <? 0)%Z; [done|].
    destruct (parse_range _ _) as [l| |]; [|done|done].
    destruct (if (_ <? _)%Z then [] else l) as [|r [|r2 l2]].
    - destruct (q_head q); [done|]. pose proof (copy_n_count (1 + Z.to_nat (d_size d)) bufsize s h1 (Z.to_nat (d_size d))) as Hc.
      destruct (copy_n _ _ _ _ _ _) as [[s2 h2] b]. done.
    - pose proof (seek_count s h1 (g_start r)) as Hs. destruct (o_seek _ _ _ _) as [[s2 h2] k]. cbn in Hs. subst s2.
      destruct k; [|done]. destruct (q_head q); [done|].
      pose proof (copy_n_count (1 + Z.to_nat (g_len r)) bufsize s h2 (Z.to_nat (g_len r))) as Hc.
      destruct (copy_n _ _ _ _ _ _) as [[s3 h3] b]. done.
    - pose proof (write_parts_count (r :: r2 :: l2) true ct (d_size d) s h1) as Hc.
      destruct (write_parts _ _ _ _ _ _ _ _ _) as [[s3 h3] b]. done.
  Qed.

  Lemma serve_count q s : okA s.1 ->
    okA (serve (os_hfs opn) mime sniff boundary bufsize q s).1.1 /\
    exists j, (has_suffix (url_of q) index_page = false -> 1 <= j) /\ j <= 2 /\
      (serve (os_hfs opn) mime sniff boundary bufsize q s).1.2 = j * extra + s.2.
  Proof.
    intros Hok. unfold serve. fold (url_of q). set (url := url_of q). destruct (has_suffix url index_page).
    { split; [done|]. exists 0. split; [done|]. split; [lia|done]. }
    change (o_open (os_hfs opn)) with opn.
    pose proof (Hop s (clean url) Hok) as H1. destruct (opn s (clean url)) as [s1 [h|e]]; destruct H1 as [Hok1 H1].
    2: { split; [done|]. exists 1. split; [lia|]. split; [lia|]. cbn. rewrite H1. lia. }
    assert (H2 : okA (serve_opened (os_hfs opn) mime sniff boundary bufsize q (clean url) url s1 h).1.1 /\
      exists j, j <= 1 /\ (serve_opened (os_hfs opn) mime sniff boundary bufsize q (clean url) url s1 h).1.2 = j * extra + s1.2).
    { unfold serve_opened. cbn [o_stat os_hfs]. destruct (_ && _); [split; [done|]; exists 0; split; [lia|done]|].
      destruct (_ && _); [split; [done|]; exists 0; split; [lia|done]|].
      destruct (negb _); [rewrite serve_content_count; split; [done|]; exists 0; split; [lia|done]|].
      change (o_open (os_hfs opn)) with opn.
      pose proof (Hop s1 (trim_slash (clean url) ++ index_page) Hok1) as H2. destruct (opn s1 _) as [s2 [h2|e2]]; destruct H2 as [Hok2 H2].
      - cbn [o_stat os_hfs]. destruct (d_isdir _).
        + destruct (unmodified _ _); cbn; (split; [done|]); exists 1; (split; [lia|]); rewrite H2; cbn; lia.
        + pose proof (serve_content_count q (info_of (of_name h2) (of_node h2)) s2 h2) as H3. destruct (serve_content _ _ _ _ _ _ _ _ _) as [s3 r]. cbn in H3 |- *. subst s3.
          split; [done|]. exists 1. split; [lia|]. rewrite H2. cbn. lia.
      - cbv zeta. destruct (unmodified _ _); cbn; (split; [done|]); exists 1; (split; [lia|]); rewrite H2; lia. }
    destruct (serve_opened _ _ _ _ _ _ _ _ _ _) as [s2 r]. cbn [fst snd] in H2. destruct H2 as (Hok2 & j & Hj & H2). cbn.
    split; [done|]. exists (Datatypes.S j). split; [lia|]. split; [lia|]. rewrite H2, H1. destruct j as [|[|j]]; cbn; lia.
  Qed.

  Lemma serve_all_count qs s : okA s.1 ->
    Forall (fun q => has_suffix (url_of q) index_page = false) qs ->
    (serve_all (os_hfs opn) mime sniff boundary bufsize qs s).1.2 >= length qs * extra + s.2.
  Proof.
    intros Hok HF. revert s Hok. induction HF as [|q qs Hq HF IH]; intros s Hok; [cbn; lia|]. cbn [serve_all].
    destruct (serve_count q s Hok) as (H1 & j & H2 & H3 & H4). destruct (serve _ _ _ _ _ _ _) as [s1 r]. cbn [fst snd] in *.
    specialize (IH s1 H1). destruct (serve_all _ _ _ _ _ _ _) as [s2 rs]. cbn [fst snd length] in *. specialize (H2 Hq). nia.
  Qed.
End Count.

Lemma serve_all_none {A} (opn : A * nat -> bytes -> A * nat * (ofile + ferr)) mime sniff boundary bufsize qs s :
  (forall s name, match opn s name with
    | (s', inl _) => s'.2 = Datatypes.S s.2
    | (s', inr _) => s'.2 = s.2
    end) ->
  (serve_all (os_hfs opn) mime sniff boundary bufsize qs s).1.2 = s.2.
Proof.
  intros Hop. revert s. induction qs as [|q qs IH]; intros s; [done|]. cbn [serve_all].
  destruct (serve_count opn mime sniff boundary bufsize (fun _ => True) 0) with (q := q) (s := s) as (_ & j & _ & _ & H).
  { intros s' name _. specialize (Hop s' name). by destruct (opn s' name) as [? [?|?]]. }
  { done. }
  destruct (serve _ _ _ _ _ _ _) as [s1 r]. cbn [fst snd] in H. specialize (IH s1). destruct (serve_all _ _ _ _ _ _ _) as [s2 rs]. cbn [fst snd] in *. lia.
Qed.
