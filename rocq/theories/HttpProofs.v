(** Lemmas about the file server of Http.v: on a file system whose methods
    answer as they should, a request is answered as [answer] says. *)
From Verif Require Import Bytes GoPath Here GoTypes GoNum GoTimeFmt Mem Disk DiskOps Std Http.

(** What Open shows for a name: an error, a file with its content, or a
    directory with what Readdir lists. *)
Inductive opening :=
| Missing (e : ferr)
| AFile (d : details) (data : bytes)
| ADir (d : details) (l : option (list details)).

(** The size stated is the length. *)
Definition full_size (d : details) (data : bytes) : Prop := d_size d = Z.of_nat (length data).

(** A file system that keeps to [site], whose files satisfy [sz]: [ok] is its invariant, [isfile] and
    [isdir] say what a handle stands for, files with their position; a [safe]
    handle may be closed. *)
Record lawful {S H} (F : hfs S H) (sz : details -> bytes -> Prop) (ok : S -> Prop) (isfile : S -> H -> details -> bytes -> nat -> Prop)
    (isdir : S -> H -> details -> option (list details) -> Prop) (safe : H -> Prop) (site : bytes -> opening) : Prop := {
  lw_open : forall s name, ok s ->
    exists s' x, o_open F s name = (s', x) /\ ok s' /\
      (forall h d l, isdir s h d l -> isdir s' h d l) /\
      match site name with
      | Missing e => x = inr e
      | AFile d data => exists h, x = inl h /\ isfile s' h d data 0 /\ d_isdir d = false /\ sz d data
      | ADir d l => exists h, x = inl h /\ isdir s' h d l /\ d_isdir d = true
      end;
  lw_stat_file : forall s h d data pos, isfile s h d data pos -> o_stat F s h = inl d;
  lw_stat_dir : forall s h d l, isdir s h d l -> o_stat F s h = inl d;
  lw_list : forall s h d l, ok s -> isdir s h d l -> o_list F s h = l;
  lw_read : forall s h d data pos n, ok s -> isfile s h d data pos -> 0 < n ->
    exists s' h' e, o_read F s h n = (s', h', (take n (drop pos data), e)) /\ ok s' /\
      isfile s' h' d data (pos + length (take n (drop pos data))) /\
      (is_Some e <-> drop pos data = []);
  lw_seek : forall s h d data pos off, ok s -> isfile s h d data pos -> (0 <= off)%Z ->
    exists s' h', o_seek F s h off = (s', h', true) /\ ok s' /\ isfile s' h' d data (Z.to_nat off);
  lw_safe_file : forall s h d data pos, isfile s h d data pos -> safe h;
  lw_safe_dir : forall s h d l, isdir s h d l -> safe h;
  lw_close : forall s h, ok s -> safe h -> ok (o_close F s h)
}.

(** A part of the content. *)
Definition slice (data : bytes) (start len : Z) : bytes := take (Z.to_nat len) (drop (Z.to_nat start) data).

Section Answer.
  Context (mime sniff : bytes -> bytes) (boundary : bytes).

  Definition type_of (d : details) (data : bytes) : bytes :=
    match mime (path_ext (d_name d)) with [] => sniff (take 512 data) | t => t end.

  Fixpoint parts_body (first : bool) (ctype : bytes) (data : bytes) (l : list hrange) : bytes :=
    match l with
    | [] => parts_end boundary
    | r :: l => part_header boundary first ctype r (Z.of_nat (length data)) ++ slice data (g_start r) (g_len r) ++ parts_body false ctype data l
    end.

  Definition content_answer (q : request) (d : details) (data : bytes) : response :=
    let hd := with_lastmod (lastmod_of (d_mtime d)) no_headers in
    let ctype := type_of d data in
    let size := Z.of_nat (length data) in
    if unmodified q (d_mtime d) then not_modified hd
    else
      match parse_range (q_range q) size with
      | RInvalid => http_error (with_ctype (Some ctype) hd) (B"invalid range") 416
      | RNoOverlap => http_error (with_crange (Some (B"bytes */" ++ dec_z size)) (with_ctype (Some ctype) hd))
                        (B"invalid range: failed to overlap") 416
      | RGood l =>
          match (if (size <? sum_len l)%Z then [] else l) with
          | [] => Response 200 (Headers (Some ctype) (h_lastmod hd) (Some (dec_z size)) None (Some (B"bytes")) None None) data
          | [r] => Response 206 (Headers (Some ctype) (h_lastmod hd) (Some (dec_z (g_len r))) (Some (content_range r size)) (Some (B"bytes")) None None)
                     (slice data (g_start r) (g_len r))
          | l => Response 206 (Headers (Some (B"multipart/byteranges; boundary=" ++ boundary)) (h_lastmod hd)
                     (Some (dec_z (parts_size boundary true ctype size l))) None (Some (B"bytes")) None None)
                     (take (Z.to_nat (parts_size boundary true ctype size l)) (parts_body true ctype data l))
          end
      end.

  Definition dir_answer_of (q : request) (d : details) (l : option (list details)) : response :=
    if unmodified q (d_mtime d) then not_modified no_headers
    else let hd := with_lastmod (lastmod_of (d_mtime d)) no_headers in
         match l with
         | None => http_error hd (B"Error reading directory") 500
         | Some l => Response 200 (with_ctype (Some (B"text/html; charset=utf-8")) hd) (list_page l)
         end.

  (** The path a request is about. *)
  Definition url_of (q : request) : bytes := if has_prefix (q_path q) (B"/") then q_path q else slash :: q_path q.

  Definition answer (site : bytes -> opening) (q : request) : response :=
    let url := url_of q in
    let dirurl := bool_decide (last url = Some slash) in
    shown_to q
      (if has_suffix url index_page then redirect q (B"./")
       else match site (clean url) with
            | Missing e => to_http_error e
            | AFile d data => if dirurl then redirect q (B"../" ++ base url) else content_answer q d data
            | ADir d l =>
                if dirurl then
                  match site (trim_slash (clean url) ++ index_page) with
                  | Missing _ => dir_answer_of q d l
                  | AFile d2 data => content_answer q d2 data
                  | ADir d2 l2 => dir_answer_of q d2 l2
                  end
                else redirect q (base url ++ [slash])
            end).
End Answer.

Lemma cut_at_app sep s a b : cut_at sep s = Some (a, b) -> s = a ++ sep :: b.
Proof.
  revert a b. induction s as [|c s IH]; intros a b; cbn; [done|].
  destruct (Ascii.eqb_spec c sep) as [->|Hc]; [by intros [= <- <-]|].
  destruct (cut_at sep s) as [[x y]|]; [|done]. intros [= <- <-]. by rewrite (IH x y).
Qed.

(** Every range that parseRange returns lies in the content. *)
Definition in_content (size : Z) (r : hrange) : Prop := (0 <= g_start r)%Z /\ (g_start r + g_len r <= size)%Z.

Lemma parse_range1_in size w r : (0 <= size)%Z -> parse_range1 size w = ORange r -> in_content size r.
Proof.
  intros Hs. unfold parse_range1. destruct (trim_space w) as [|c t]; [done|].
  destruct (cut_at _ _) as [[a b]|]; [|done]. destruct (trim_space a) as [|x y].
  - destruct (parse_int _) as [i|]; [|done]. intros [= <-]. unfold in_content. cbn [g_start g_len]. lia.
  - destruct (parse_int (x :: y)) as [i|]; [|done]. destruct (Z.ltb_spec i 0); [done|].
    destruct (Z.leb_spec size i); [done|]. destruct (trim_space b) as [|u v].
    + intros [= <-]. unfold in_content. cbn [g_start g_len]. lia.
    + destruct (parse_int (u :: v)) as [j|]; [|done]. destruct (Z.ltb_spec j i); [done|].
      intros [= <-]. unfold in_content. cbn [g_start g_len]. lia.
Qed.

Lemma parse_range_loop_in size ws bey acc l :
  (0 <= size)%Z -> Forall (in_content size) acc -> parse_range_loop size ws bey acc = RGood l -> Forall (in_content size) l.
Proof.
  intros Hs. revert bey acc. induction ws as [|w ws IH]; intros bey acc Ha; cbn [parse_range_loop].
  - destruct acc; [by destruct bey; [|intros [= <-]]|by intros [= <-]].
  - destruct (parse_range1 size w) as [| |r|] eqn:E; [by apply IH|by apply IH| |done].
    apply IH. apply Forall_app. split; [done|]. constructor; [|done]. by eapply parse_range1_in.
Qed.

Lemma parse_range_in s size l : (0 <= size)%Z -> parse_range s size = RGood l -> Forall (in_content size) l.
Proof.
  intros Hs. unfold parse_range. destruct s as [|c t]; [intros [= <-]; constructor|].
  destruct (has_prefix _ _); [|done]. apply parse_range_loop_in; [done|constructor].
Qed.

Section Serve.
  Context {S H : Type} (F : hfs S H) (mime sniff : bytes -> bytes) (boundary : bytes) (bufsize : nat).
  Context (ok : S -> Prop) (isfile : S -> H -> details -> bytes -> nat -> Prop)
    (isdir : S -> H -> details -> option (list details) -> Prop) (safe : H -> Prop) (site : bytes -> opening).
  Context (sz : details -> bytes -> Prop).
  Hypothesis L : lawful F sz ok isfile isdir safe site.
  Hypothesis Hbuf : 0 < bufsize.

  Lemma copy_n_ok fuel buf s h d data pos left :
    0 < buf -> left < fuel -> ok s -> isfile s h d data pos ->
    exists s' h', copy_n F fuel buf s h left = (s', h', take left (drop pos data)) /\ ok s' /\
      isfile s' h' d data (pos + length (take left (drop pos data))).
  Proof.
    intros Hb. revert s h pos left. induction fuel as [|fuel IH]; intros s h pos left Hf Hok Hh; [lia|].
    destruct left as [|left].
    - cbn [copy_n]. exists s, h. rewrite take_0. cbn. by rewrite Nat.add_0_r.
    - cbn [copy_n]. set (k := Nat.min buf (Datatypes.S left)).
      destruct (lw_read _ _ _ _ _ _ _ L s h d data pos k Hok Hh) as (s' & h' & e & E & Hok' & Hh' & He); [unfold k; lia|].
      rewrite E. destruct e as [e|].
      + destruct He as [He _]. rewrite He in * by done. rewrite !take_nil in *. exists s', h'. done.
      + assert (Hd : drop pos data <> []). { intros Hd. apply He in Hd. by destruct Hd. }
        set (b := take k (drop pos data)) in *.
        assert (Hbl : 0 < length b).
        { unfold b. rewrite take_length. destruct (drop pos data); [done|]. cbn. unfold k. lia. }
        assert (Hbk : length b <= k). { unfold b. rewrite take_length. lia. }
        destruct (IH s' h' (pos + length b) (Datatypes.S left - length b)) as (s2 & h2 & E2 & Hok2 & Hh2); [lia|done|done|].
        rewrite E2. exists s2, h2.
        assert (Ht : b ++ take (Datatypes.S left - length b) (drop (pos + length b) data) = take (Datatypes.S left) (drop pos data)).
        { destruct (decide (length (drop pos data) <= k)) as [Hl|Hl].
          - unfold b at 1. rewrite take_ge by done. rewrite <- (drop_drop data). unfold b. rewrite (take_ge (drop pos data) k) by done.
            rewrite drop_all, take_nil, app_nil_r. rewrite take_ge by (unfold k in Hl; lia). done.
          - assert (Hlb : length b = k). { unfold b. rewrite take_length. lia. }
            rewrite Hlb. unfold b. rewrite <- (drop_drop data), take_take_drop. f_equal. unfold k. lia. }
        rewrite Ht. split; [done|]. split; [done|]. rewrite <- Ht, app_length, Nat.add_assoc. done.
  Qed.

  Lemma slice_length data r : in_content (Z.of_nat (length data)) r -> length (slice data (g_start r) (g_len r)) = Z.to_nat (g_len r).
  Proof. intros [H1 H2]. unfold slice. rewrite take_length, drop_length. lia. Qed.

  Lemma write_parts_ok l : forall first ctype s h d data pos,
    ok s -> isfile s h d data pos -> Forall (in_content (Z.of_nat (length data))) l ->
    exists s' h' pos', write_parts F boundary bufsize first ctype (Z.of_nat (length data)) s h l = (s', h', parts_body boundary first ctype data l) /\
      ok s' /\ isfile s' h' d data pos'.
  Proof.
    induction l as [|r l IH]; intros first ctype s h d data pos Hok Hh Hl.
    - exists s, h, pos. done.
    - apply Forall_cons in Hl as [Hr Hl]. cbn [write_parts parts_body].
      destruct (lw_seek _ _ _ _ _ _ _ L s h d data pos (g_start r) Hok Hh) as (s1 & h1 & E1 & Hok1 & Hh1); [apply Hr|].
      rewrite E1.
      destruct (copy_n_ok (1 + Z.to_nat (g_len r)) bufsize s1 h1 d data (Z.to_nat (g_start r)) (Z.to_nat (g_len r)) Hbuf ltac:(lia) Hok1 Hh1) as (s2 & h2 & E2 & Hok2 & Hh2).
      rewrite E2. fold (slice data (g_start r) (g_len r)) in *. rewrite (slice_length data r Hr), Nat.ltb_irrefl.
      destruct (IH false ctype s2 h2 d data _ Hok2 Hh2 Hl) as (s3 & h3 & p3 & E3 & Hok3 & Hh3). rewrite E3.
      exists s3, h3, p3. done.
  Qed.

  Lemma shown_idem q r : shown_to q (shown_to q r) = shown_to q r.
  Proof. unfold shown_to. by destruct (q_head q). Qed.

  Lemma serve_content_ok q d s h data :
    ok s -> isfile s h d data 0 -> d_size d = Z.of_nat (length data) ->
    exists s' r, serve_content F mime sniff boundary bufsize q d s h = (s', r) /\
      shown_to q r = shown_to q (content_answer mime sniff boundary q d data) /\ ok s'.
  Proof.
    intros Hok Hh Hsz. unfold serve_content, content_answer. destruct (unmodified q (d_mtime d)); [by eexists _, _|].
    set (pre := match mime (path_ext (d_name d)) with [] => _ | _ => _ end).
    assert (Hpre : exists s1 h1, pre = (s1, h1, type_of mime sniff d data, true) /\ ok s1 /\ isfile s1 h1 d data 0).
    { unfold pre, type_of. destruct (mime (path_ext (d_name d))) as [|c t]; [|by exists s, h].
      destruct (copy_n_ok 513 512 s h d data 0 512 ltac:(lia) ltac:(lia) Hok Hh) as (s1 & h1 & E1 & Hok1 & Hh1).
      rewrite E1. cbv beta iota zeta. destruct (lw_seek _ _ _ _ _ _ _ L s1 h1 d data _ 0 Hok1 Hh1 ltac:(lia)) as (s2 & h2 & E2 & Hok2 & Hh2). rewrite E2.
      exists s2, h2. rewrite drop_0. done. }
    clearbody pre. destruct Hpre as (s1 & h1 & -> & Hok1 & Hh1). cbv beta iota. cbn [negb]. rewrite Hsz.
    destruct (Z.ltb_spec (Z.of_nat (length data)) 0); [lia|].
    set (ct := type_of mime sniff d data).
    destruct (parse_range (q_range q) (Z.of_nat (length data))) as [l| |] eqn:Epr; [|by eexists _, _|by eexists _, _].
    assert (Hl : Forall (in_content (Z.of_nat (length data))) l) by (eapply parse_range_in; [lia|done]).
    assert (Hl2 : Forall (in_content (Z.of_nat (length data))) (if (Z.of_nat (length data) <? sum_len l)%Z then [] else l)).
    { by destruct (_ <? _)%Z. }
    revert Hl2. generalize (if (Z.of_nat (length data) <? sum_len l)%Z then [] else l). clear l Epr Hl. intros l Hl.
    destruct l as [|r l]; [|destruct l as [|r2 l]].
    - unfold shown_to. destruct (q_head q) eqn:Eq.
      + eexists _, _. split; [done|]. done.
      + destruct (copy_n_ok (1 + Z.to_nat (Z.of_nat (length data))) bufsize s1 h1 d data 0 (Z.to_nat (Z.of_nat (length data))) Hbuf ltac:(lia) Hok1 Hh1) as (s2 & h2 & E2 & Hok2 & Hh2).
        rewrite E2. eexists _, _. split; [done|]. split; [|done]. f_equal. rewrite drop_0. apply take_ge. lia.
    - apply Forall_cons in Hl as [Hr _].
      destruct (lw_seek _ _ _ _ _ _ _ L s1 h1 d data _ (g_start r) Hok1 Hh1) as (s2 & h2 & E2 & Hok2 & Hh2); [apply Hr|].
      rewrite E2. unfold shown_to. destruct (q_head q) eqn:Eq.
      + eexists _, _. split; [done|]. done.
      + destruct (copy_n_ok (1 + Z.to_nat (g_len r)) bufsize s2 h2 d data (Z.to_nat (g_start r)) (Z.to_nat (g_len r)) Hbuf ltac:(lia) Hok2 Hh2) as (s3 & h3 & E3 & Hok3 & Hh3).
        rewrite E3. eexists _, _. split; [done|]. done.
    - destruct (write_parts_ok (r :: r2 :: l) true ct s1 h1 d data 0 Hok1 Hh1 Hl) as (s2 & h2 & p2 & E2 & Hok2 & Hh2).
      rewrite E2. eexists _, _. split; [done|]. split; [|done]. unfold shown_to. by destruct (q_head q).
  Qed.

End Serve.

(** Files that state their length. *)
Section Serve2.
  Context {S H : Type} (F : hfs S H) (mime sniff : bytes -> bytes) (boundary : bytes) (bufsize : nat).
  Context (ok : S -> Prop) (isfile : S -> H -> details -> bytes -> nat -> Prop)
    (isdir : S -> H -> details -> option (list details) -> Prop) (safe : H -> Prop) (site : bytes -> opening).
  Hypothesis L : lawful F full_size ok isfile isdir safe site.
  Hypothesis Hbuf : 0 < bufsize.

  Theorem serve_answer q s : ok s ->
    exists s', serve F mime sniff boundary bufsize q s = (s', answer mime sniff boundary site q) /\ ok s'.
  Proof.
    pose proof (lw_close _ _ _ _ _ _ _ L) as CL. pose proof (lw_safe_file _ _ _ _ _ _ _ L) as SF. pose proof (lw_safe_dir _ _ _ _ _ _ _ L) as SD.
    intros Hok. unfold serve, answer. fold (url_of q). set (url := url_of q).
    destruct (has_suffix url index_page); [by eexists|].
    destruct (lw_open _ _ _ _ _ _ _ L s (clean url) Hok) as (s1 & x & E & Hok1 & _ & Hx). rewrite E.
    destruct (site (clean url)) as [e|d data|d l].
    - subst x. by eexists.
    - destruct Hx as (h & -> & Hh & Hd & Hsz). unfold serve_opened. rewrite (lw_stat_file _ _ _ _ _ _ _ L _ _ _ _ _ Hh), Hd. cbn [negb andb].
      case_bool_decide as Hu.
      + eexists. split; [done|]. by apply CL; eauto.
      + destruct (serve_content_ok F mime sniff boundary bufsize _ _ _ _ _ _ L Hbuf q d s1 h data Hok1 Hh Hsz) as (s2 & r & E2 & Hr & Hok2). rewrite E2.
        eexists. rewrite Hr. split; [done|]. by apply CL; eauto.
    - destruct Hx as (h & -> & Hh & Hd). unfold serve_opened. rewrite (lw_stat_dir _ _ _ _ _ _ _ L _ _ _ _ Hh), Hd. cbn [negb andb].
      case_bool_decide as Hu; cbn [negb].
      2: { eexists. split; [done|]. by apply CL; eauto. }
      destruct (lw_open _ _ _ _ _ _ _ L s1 (trim_slash (clean url) ++ index_page) Hok1) as (s2 & x & E2 & Hok2 & Hkeep & Hx). rewrite E2.
      pose proof (Hkeep _ _ _ Hh) as Hh2.
      assert (Hli : forall s h d l, ok s -> isdir s h d l ->
        (if unmodified q (d_mtime d) then (s, not_modified no_headers)
         else (s, dir_list F (with_lastmod (lastmod_of (d_mtime d)) no_headers) s h)) = (s, dir_answer_of q d l)).
      { intros s0 h0 d0 l0 Hk0 Hd0. unfold dir_answer_of, dir_list. rewrite (lw_list _ _ _ _ _ _ _ L _ _ _ _ Hk0 Hd0). by destruct (unmodified _ _). }
      destruct (site (trim_slash (clean url) ++ index_page)) as [e|d2 data|d2 l2].
      + subst x. cbv zeta. rewrite (Hli _ _ _ _ Hok2 Hh2). eexists. split; [done|]. by apply CL; eauto.
      + destruct Hx as (h2 & -> & Hf2 & Hd2 & Hsz). rewrite (lw_stat_file _ _ _ _ _ _ _ L _ _ _ _ _ Hf2), Hd2.
        destruct (serve_content_ok F mime sniff boundary bufsize _ _ _ _ _ _ L Hbuf q d2 s2 h2 data Hok2 Hf2 Hsz) as (s3 & r & E3 & Hr & Hok3). rewrite E3.
        eexists. rewrite Hr. split; [done|]. by apply CL; [apply CL|]; eauto.
      + destruct Hx as (h2 & -> & Hf2 & Hd2). rewrite (lw_stat_dir _ _ _ _ _ _ _ L _ _ _ _ Hf2), Hd2. rewrite (Hli _ _ _ _ Hok2 Hf2).
        eexists. split; [done|]. by apply CL; [apply CL|]; eauto.
  Qed.

  Lemma serve_all_answer qs s : ok s ->
    exists s', serve_all F mime sniff boundary bufsize qs s = (s', answer mime sniff boundary site <$> qs) /\ ok s'.
  Proof.
    revert s. induction qs as [|q qs IH]; intros s Hok; [by exists s|]. cbn [serve_all].
    destruct (serve_answer q s Hok) as (s1 & E & Hok1). rewrite E.
    destruct (IH s1 Hok1) as (s2 & E2 & Hok2). rewrite E2. by exists s2.
  Qed.
End Serve2.

(** Two file systems with the same site, whatever sizes it states, give the same
    answers. *)
Section Det.
  Context {S1 H1 S2 H2 : Type} (F1 : hfs S1 H1) (F2 : hfs S2 H2) (mime sniff : bytes -> bytes) (boundary : bytes) (bufsize : nat).
  Context (ok1 : S1 -> Prop) (isfile1 : S1 -> H1 -> details -> bytes -> nat -> Prop)
    (isdir1 : S1 -> H1 -> details -> option (list details) -> Prop) (safe1 : H1 -> Prop).
  Context (ok2 : S2 -> Prop) (isfile2 : S2 -> H2 -> details -> bytes -> nat -> Prop)
    (isdir2 : S2 -> H2 -> details -> option (list details) -> Prop) (safe2 : H2 -> Prop) (site : bytes -> opening).
  Context (sz1 sz2 : details -> bytes -> Prop).
  Hypothesis L1 : lawful F1 sz1 ok1 isfile1 isdir1 safe1 site.
  Hypothesis L2 : lawful F2 sz2 ok2 isfile2 isdir2 safe2 site.
  Hypothesis Hbuf : 0 < bufsize.

  (** The same bytes from both, and both go on. *)
  Lemma copy_n_det fuel buf s1 h1 s2 h2 d data pos left :
    0 < buf -> left < fuel -> ok1 s1 -> isfile1 s1 h1 d data pos -> ok2 s2 -> isfile2 s2 h2 d data pos ->
    exists s1' h1' s2' h2' b pos', copy_n F1 fuel buf s1 h1 left = (s1', h1', b) /\ copy_n F2 fuel buf s2 h2 left = (s2', h2', b) /\
      ok1 s1' /\ isfile1 s1' h1' d data pos' /\ ok2 s2' /\ isfile2 s2' h2' d data pos'.
  Proof.
    intros Hb Hl Ho1 Hf1 Ho2 Hf2.
    destruct (copy_n_ok F1 _ _ _ _ _ _ _ L1 Hbuf fuel buf s1 h1 d data pos left Hb Hl Ho1 Hf1) as (s1' & h1' & E1 & A1 & B1).
    destruct (copy_n_ok F2 _ _ _ _ _ _ _ L2 Hbuf fuel buf s2 h2 d data pos left Hb Hl Ho2 Hf2) as (s2' & h2' & E2 & A2 & B2).
    eexists _, _, _, _, _, _. done.
  Qed.

  Lemma seek_det s1 h1 s2 h2 d data pos off :
    ok1 s1 -> isfile1 s1 h1 d data pos -> ok2 s2 -> isfile2 s2 h2 d data pos -> (0 <= off)%Z ->
    exists s1' h1' s2' h2' pos', o_seek F1 s1 h1 off = (s1', h1', true) /\ o_seek F2 s2 h2 off = (s2', h2', true) /\
      ok1 s1' /\ isfile1 s1' h1' d data pos' /\ ok2 s2' /\ isfile2 s2' h2' d data pos'.
  Proof.
    intros Ho1 Hf1 Ho2 Hf2 H.
    destruct (lw_seek _ _ _ _ _ _ _ L1 s1 h1 d data pos off Ho1 Hf1 H) as (s1' & h1' & E1 & A1 & B1).
    destruct (lw_seek _ _ _ _ _ _ _ L2 s2 h2 d data pos off Ho2 Hf2 H) as (s2' & h2' & E2 & A2 & B2).
    eexists _, _, _, _, _. done.
  Qed.

  Lemma write_parts_det l : forall first ctype size s1 h1 s2 h2 d data pos,
    ok1 s1 -> isfile1 s1 h1 d data pos -> ok2 s2 -> isfile2 s2 h2 d data pos -> Forall (in_content size) l ->
    exists s1' h1' s2' h2' b, write_parts F1 boundary bufsize first ctype size s1 h1 l = (s1', h1', b) /\
      write_parts F2 boundary bufsize first ctype size s2 h2 l = (s2', h2', b) /\ ok1 s1' /\ ok2 s2'.
  Proof.
    induction l as [|r l IH]; intros first ctype size s1 h1 s2 h2 d data pos A1 B1 A2 B2 Hl.
    - eexists _, _, _, _, _. done.
    - apply Forall_cons in Hl as [Hr Hl]. cbn [write_parts].
      destruct (seek_det s1 h1 s2 h2 d data pos (g_start r) A1 B1 A2 B2) as (s3 & h3 & s4 & h4 & p4 & E1 & E2 & A3 & B3 & A4 & B4); [apply Hr|].
      rewrite E1, E2.
      destruct (copy_n_det (1 + Z.to_nat (g_len r)) bufsize s3 h3 s4 h4 d data p4 (Z.to_nat (g_len r)) Hbuf ltac:(lia) A3 B3 A4 B4)
        as (s5 & h5 & s6 & h6 & b & p6 & E3 & E4 & A5 & B5 & A6 & B6).
      rewrite E3, E4. destruct (Nat.ltb (length b) (Z.to_nat (g_len r))); [by eexists _, _, _, _, _|].
      destruct (IH false ctype size s5 h5 s6 h6 d data p6 A5 B5 A6 B6 Hl) as (s7 & h7 & s8 & h8 & b' & E5 & E6 & A7 & A8).
      rewrite E5, E6. by eexists _, _, _, _, _.
  Qed.

  Lemma serve_content_det q d s1 h1 s2 h2 data :
    ok1 s1 -> isfile1 s1 h1 d data 0 -> ok2 s2 -> isfile2 s2 h2 d data 0 ->
    exists s1' s2' r, serve_content F1 mime sniff boundary bufsize q d s1 h1 = (s1', r) /\
      serve_content F2 mime sniff boundary bufsize q d s2 h2 = (s2', r) /\ ok1 s1' /\ ok2 s2'.
  Proof.
    intros A1 B1 A2 B2. unfold serve_content. destruct (unmodified q (d_mtime d)); [by eexists _, _, _|].
    set (pre1 := match mime (path_ext (d_name d)) with [] => _ | _ => _ end).
    set (pre2 := match mime (path_ext (d_name d)) with [] => let '(_, _, _) := copy_n F2 _ _ _ _ _ in _ | _ => _ end).
    assert (Hpre : exists s3 h3 s4 h4 ct, pre1 = (s3, h3, ct, true) /\ pre2 = (s4, h4, ct, true) /\
              ok1 s3 /\ isfile1 s3 h3 d data 0 /\ ok2 s4 /\ isfile2 s4 h4 d data 0).
    { unfold pre1, pre2. destruct (mime (path_ext (d_name d))) as [|c t]; [|by eexists _, _, _, _, _].
      destruct (copy_n_det 513 512 s1 h1 s2 h2 d data 0 512 ltac:(lia) ltac:(lia) A1 B1 A2 B2) as (s5 & h5 & s6 & h6 & b & p6 & E3 & E4 & A5 & B5 & A6 & B6).
      rewrite E3, E4.
      destruct (lw_seek _ _ _ _ _ _ _ L1 s5 h5 d data p6 0 A5 B5 ltac:(lia)) as (s7 & h7 & E5 & A7 & B7).
      destruct (lw_seek _ _ _ _ _ _ _ L2 s6 h6 d data p6 0 A6 B6 ltac:(lia)) as (s8 & h8 & E6 & A8 & B8).
      rewrite E5, E6. by eexists _, _, _, _, _. }
    clearbody pre1 pre2. destruct Hpre as (s3 & h3 & s4 & h4 & ct & -> & -> & A3 & B3 & A4 & B4). cbv beta iota. cbn [negb].
    destruct (Z.ltb_spec (d_size d) 0); [by eexists _, _, _|].
    destruct (parse_range (q_range q) (d_size d)) as [l| |] eqn:Epr; [|by eexists _, _, _..].
    assert (Hl : Forall (in_content (d_size d)) l) by (by eapply parse_range_in).
    assert (Hl2 : Forall (in_content (d_size d)) (if (d_size d <? sum_len l)%Z then [] else l)).
    { by destruct (_ <? _)%Z. }
    revert Hl2. generalize (if (d_size d <? sum_len l)%Z then [] else l). clear l Epr Hl. intros l Hl.
    destruct l as [|r l]; [|destruct l as [|r2 l]].
    - destruct (q_head q) eqn:Eq; [by eexists _, _, _|].
      destruct (copy_n_det (1 + Z.to_nat (d_size d)) bufsize s3 h3 s4 h4 d data 0 (Z.to_nat (d_size d)) Hbuf ltac:(lia) A3 B3 A4 B4)
        as (s5 & h5 & s6 & h6 & b & p6 & E3 & E4 & A5 & B5 & A6 & B6).
      rewrite E3, E4. by eexists _, _, _.
    - apply Forall_cons in Hl as [Hr _].
      destruct (seek_det s3 h3 s4 h4 d data 0 (g_start r) A3 B3 A4 B4) as (s5 & h5 & s6 & h6 & p6 & E1 & E2 & A5 & B5 & A6 & B6); [apply Hr|].
      rewrite E1, E2. destruct (q_head q) eqn:Eq; [by eexists _, _, _|].
      destruct (copy_n_det (1 + Z.to_nat (g_len r)) bufsize s5 h5 s6 h6 d data p6 (Z.to_nat (g_len r)) Hbuf ltac:(lia) A5 B5 A6 B6)
        as (s7 & h7 & s8 & h8 & b & p8 & E3 & E4 & A7 & B7 & A8 & B8).
      rewrite E3, E4. by eexists _, _, _.
    - destruct (write_parts_det (r :: r2 :: l) true ct (d_size d) s3 h3 s4 h4 d data 0 A3 B3 A4 B4 Hl) as (s5 & h5 & s6 & h6 & b & E3 & E4 & A5 & A6).
      rewrite E3, E4. by eexists _, _, _.
  Qed.

  Theorem serve_same q s1 s2 : ok1 s1 -> ok2 s2 ->
    exists s1' s2' r, serve F1 mime sniff boundary bufsize q s1 = (s1', r) /\ serve F2 mime sniff boundary bufsize q s2 = (s2', r) /\ ok1 s1' /\ ok2 s2'.
  Proof.
    pose proof (lw_close _ _ _ _ _ _ _ L1) as C1. pose proof (lw_safe_file _ _ _ _ _ _ _ L1) as SF1. pose proof (lw_safe_dir _ _ _ _ _ _ _ L1) as SD1.
    pose proof (lw_close _ _ _ _ _ _ _ L2) as C2. pose proof (lw_safe_file _ _ _ _ _ _ _ L2) as SF2. pose proof (lw_safe_dir _ _ _ _ _ _ _ L2) as SD2.
    intros K1 K2. unfold serve. fold (url_of q). set (url := url_of q).
    destruct (has_suffix url index_page); [by eexists _, _, _|].
    destruct (lw_open _ _ _ _ _ _ _ L1 s1 (clean url) K1) as (s3 & x3 & E3 & K3 & _ & X3). rewrite E3.
    destruct (lw_open _ _ _ _ _ _ _ L2 s2 (clean url) K2) as (s4 & x4 & E4 & K4 & _ & X4). rewrite E4.
    destruct (site (clean url)) as [e|d data|d l].
    - subst x3 x4. by eexists _, _, _.
    - destruct X3 as (h3 & -> & B3 & Hd & _). destruct X4 as (h4 & -> & B4 & _ & _). unfold serve_opened.
      rewrite (lw_stat_file _ _ _ _ _ _ _ L1 _ _ _ _ _ B3), (lw_stat_file _ _ _ _ _ _ _ L2 _ _ _ _ _ B4), Hd. cbn [negb andb].
      case_bool_decide as Hu.
      + eexists _, _, _. do 2 (split; [done|]). split; [by apply C1; eauto|by apply C2; eauto].
      + destruct (serve_content_det q d s3 h3 s4 h4 data K3 B3 K4 B4) as (s5 & s6 & r & E5 & E6 & K5 & K6). rewrite E5, E6.
        eexists _, _, _. do 2 (split; [done|]). split; [by apply C1; eauto|by apply C2; eauto].
    - destruct X3 as (h3 & -> & B3 & Hd). destruct X4 as (h4 & -> & B4 & _). unfold serve_opened.
      rewrite (lw_stat_dir _ _ _ _ _ _ _ L1 _ _ _ _ B3), (lw_stat_dir _ _ _ _ _ _ _ L2 _ _ _ _ B4), Hd. cbn [negb andb].
      case_bool_decide as Hu; cbn [negb].
      2: { eexists _, _, _. do 2 (split; [done|]). split; [by apply C1; eauto|by apply C2; eauto]. }
      destruct (lw_open _ _ _ _ _ _ _ L1 s3 (trim_slash (clean url) ++ index_page) K3) as (s5 & x5 & E5 & K5 & Kp5 & X5). rewrite E5.
      destruct (lw_open _ _ _ _ _ _ _ L2 s4 (trim_slash (clean url) ++ index_page) K4) as (s6 & x6 & E6 & K6 & Kp6 & X6). rewrite E6.
      pose proof (Kp5 _ _ _ B3) as D3. pose proof (Kp6 _ _ _ B4) as D4.
      assert (Hli1 : forall s h d l, ok1 s -> isdir1 s h d l ->
        (if unmodified q (d_mtime d) then (s, not_modified no_headers)
         else (s, dir_list F1 (with_lastmod (lastmod_of (d_mtime d)) no_headers) s h)) = (s, dir_answer_of q d l)).
      { intros s0 h0 d0 l0 Hk0 Hd0. unfold dir_answer_of, dir_list. rewrite (lw_list _ _ _ _ _ _ _ L1 _ _ _ _ Hk0 Hd0). by destruct (unmodified _ _). }
      assert (Hli2 : forall s h d l, ok2 s -> isdir2 s h d l ->
        (if unmodified q (d_mtime d) then (s, not_modified no_headers)
         else (s, dir_list F2 (with_lastmod (lastmod_of (d_mtime d)) no_headers) s h)) = (s, dir_answer_of q d l)).
      { intros s0 h0 d0 l0 Hk0 Hd0. unfold dir_answer_of, dir_list. rewrite (lw_list _ _ _ _ _ _ _ L2 _ _ _ _ Hk0 Hd0). by destruct (unmodified _ _). }
      destruct (site (trim_slash (clean url) ++ index_page)) as [e|d2 data|d2 l2].
      + subst x5 x6. cbv zeta. rewrite (Hli1 _ _ _ _ K5 D3), (Hli2 _ _ _ _ K6 D4).
        eexists _, _, _. do 2 (split; [done|]). split; [by apply C1; eauto|by apply C2; eauto].
      + destruct X5 as (h5 & -> & B5 & Hd5 & _). destruct X6 as (h6 & -> & B6 & _ & _).
        rewrite (lw_stat_file _ _ _ _ _ _ _ L1 _ _ _ _ _ B5), (lw_stat_file _ _ _ _ _ _ _ L2 _ _ _ _ _ B6), Hd5.
        destruct (serve_content_det q d2 s5 h5 s6 h6 data K5 B5 K6 B6) as (s7 & s8 & r & E7 & E8 & K7 & K8). rewrite E7, E8.
        eexists _, _, _. do 2 (split; [done|]). split; [by apply C1; [apply C1|]; eauto|by apply C2; [apply C2|]; eauto].
      + destruct X5 as (h5 & -> & B5 & Hd5). destruct X6 as (h6 & -> & B6 & _).
        rewrite (lw_stat_dir _ _ _ _ _ _ _ L1 _ _ _ _ B5), (lw_stat_dir _ _ _ _ _ _ _ L2 _ _ _ _ B6), Hd5.
        rewrite (Hli1 _ _ _ _ K5 B5), (Hli2 _ _ _ _ K6 B6).
        eexists _, _, _. do 2 (split; [done|]). split; [by apply C1; [apply C1|]; eauto|by apply C2; [apply C2|]; eauto].
  Qed.

  Lemma serve_all_same qs s1 s2 : ok1 s1 -> ok2 s2 ->
    exists s1' s2' rs, serve_all F1 mime sniff boundary bufsize qs s1 = (s1', rs) /\ serve_all F2 mime sniff boundary bufsize qs s2 = (s2', rs) /\ ok1 s1' /\ ok2 s2'.
  Proof.
    revert s1 s2. induction qs as [|q qs IH]; intros s1 s2 K1 K2; [by eexists _, _, _|]. cbn [serve_all].
    destruct (serve_same q s1 s2 K1 K2) as (s3 & s4 & r & E3 & E4 & K3 & K4). rewrite E3, E4.
    destruct (IH s3 s4 K3 K4) as (s5 & s6 & rs & E5 & E6 & K5 & K6). rewrite E5, E6. by eexists _, _, _.
  Qed.
End Det.

(** Each request is answered as if it were the first. *)
Lemma serve_all_first {S H} (F : hfs S H) mime sniff boundary bufsize sz ok isfile isdir safe site :
  lawful F sz ok isfile isdir safe site -> 0 < bufsize -> forall qs s s0, ok s0 -> ok s ->
  exists s', serve_all F mime sniff boundary bufsize qs s =
    (s', (fun q => (serve F mime sniff boundary bufsize q s0).2) <$> qs) /\ ok s'.
Proof.
  intros L Hb qs s s0 K0. revert s. induction qs as [|q qs IH]; intros s K; [by eexists|]. cbn [serve_all].
  destruct (serve_same F F mime sniff boundary bufsize _ _ _ _ _ _ _ _ _ _ _ L L Hb q s s0 K K0) as (s1 & s2 & r & E1 & E2 & K1 & _).
  rewrite E1. destruct (IH s1 K1) as (s3 & E3 & K3). rewrite E3, fmap_cons, E2. by eexists.
Qed.

Lemma lawful_ext {S H} (F : hfs S H) sz ok isfile isdir safe site site' :
  (forall n, site n = site' n) -> lawful F sz ok isfile isdir safe site -> lawful F sz ok isfile isdir safe site'.
Proof.
  intros He [L1 L2 L3 L4 L5 L6 L7 L8 L9]. split; try done. intros s n Hok.
  destruct (L1 s n Hok) as (s' & x & H1 & H2 & H3 & H4). exists s', x. by rewrite <- He.
Qed.
