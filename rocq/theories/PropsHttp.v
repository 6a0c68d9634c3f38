(** Theorems: the file server of the standard library on top of pkger's files
    (C92-C99). *)
From Verif Require Import Bytes GoPath Here GoTypes GoNum GoTimeFmt Mem MemSpec MemBase MemFiles MemFiles2 WalkSpec MemWalk MemReaddir
  MemDirs MemDirs2 PropsFiles PropsDirs PropsWalk JsonStr JsonText Embed Marshal MarshalMem PropsEmbed PropsMarshal Disk Decls DeclsProofs PropsParser Pack
  PropsPack DiskOps Std PropsStd PropsDump PropsSame Http HttpProofs HttpRange HttpMem HttpDisk.

(** ** What is served *)

(** The directory [ds] of package [g], opened as [r]: nothing was written to
    it, and every stored file states its length. *)
Record served (m : mem) (r : ref) (f : fobj) (g : bytes) (ds : list bytes) : Prop := {
  sv_wf : wf m;
  sv_sized : sized m;
  sv_root : m_heap m !! r = Some f;
  sv_path : f_path f = Path g (abs_name ds);
  sv_good : Forall good_elem ds;
  sv_dir : d_isdir (f_info f) = true;
  sv_writer : f_writer f = None;
  sv_parent : f_parent f = zero_path
}.

(** The name [ns] means the file [ds ++ ns]: it does not resolve to another
    package, nor to the served directory itself (unless that is the root). *)
Record means (parse : resolver) (here1 here2 : hinfo) (g : bytes) (ds ns : list bytes) : Prop := {
  mn_good : Forall good_elem ns;
  mn_other : ns <> ds \/ ds = [];
  mn_name : parse here1 (abs_name ns) = Some (Path g (abs_name ns));
  mn_path : parse here2 (path_string (Path g (abs_name (ds ++ ns)))) = Some (Path g (abs_name (ds ++ ns)))
}.

(** A request for the file [ns]: the path of the URL does not end in a slash
    nor in /index.html. *)
Definition asks_file (q : request) (ns : list bytes) : Prop :=
  clean (url_of q) = abs_name ns /\ last (url_of q) <> Some slash /\ has_suffix (url_of q) index_page = false.

(** A request for the directory [ns]. *)
Definition asks_dir (q : request) (ns : list bytes) : Prop :=
  clean (url_of q) = abs_name ns /\ last (url_of q) = Some slash.

(** The media type: by the extension of the name if that is known, otherwise
    by the first 512 bytes. *)
Definition media_type (mime sniff : bytes -> bytes) (name data t : bytes) : Prop :=
  (mime (path_ext name) <> [] /\ t = mime (path_ext name)) \/ (mime (path_ext name) = [] /\ t = sniff (take 512 data)).

Lemma type_of_media mime sniff d data : media_type mime sniff (d_name d) data (type_of mime sniff d data).
Proof. unfold media_type, type_of. destruct (mime _) eqn:E; [by right|left]. done. Qed.

Lemma type_of_unique mime sniff d data t : media_type mime sniff (d_name d) data t -> t = type_of mime sniff d data.
Proof. unfold media_type, type_of. intros [[H ->]|[H ->]]; [by destruct (mime _)|by rewrite H]. Qed.

(** ** The parts of C92-C96 about one request to the in-memory pkger *)

Lemma trim_slash_abs ns : Forall good_elem ns -> trim_slash (abs_name ns) ++ index_page = abs_name (ns ++ [B"index.html"]).
Proof.
  intros Hg. destruct (list_snoc_cases ns) as [-> | (us & u & ->)]; [done|].
  apply Forall_app in Hg as [_ Hu]. apply Forall_cons in Hu as [Hu _].
  assert (E : has_suffix (abs_name (us ++ [u])) (B"/") = false).
  { destruct (has_suffix (abs_name (us ++ [u])) (B"/")) eqn:E; [|done]. exfalso.
    assert (Hl : last (abs_name (us ++ [u])) = Some slash).
    { revert E. generalize (abs_name (us ++ [u])). intros s E. unfold has_suffix in E. apply has_prefix_spec in E as [t Et]. cbn in Et.
      rewrite <- (rev_involutive s), Et. cbn [rev]. by rewrite last_snoc. }
    rewrite last_abs in Hl by apply Hu. apply last_Some_elem_of in Hl. by apply Hu. }
  unfold trim_slash. rewrite E. clear E.
  assert (J : forall ws w, ws <> [] -> join_slash (ws ++ [w]) = join_slash ws ++ slash :: w).
  { clear. intros ws w. induction ws as [|x [|y ws] IH]; intros Hn; [done|done|].
    change (join_slash (x :: (y :: ws) ++ [w]) = (x ++ slash :: join_slash (y :: ws)) ++ slash :: w).
    change (join_slash (x :: (y :: ws) ++ [w])) with (x ++ slash :: join_slash ((y :: ws) ++ [w])).
    rewrite IH by done. by rewrite <- app_assoc. }
  unfold abs_name. rewrite (J (us ++ [u]) (B"index.html")) by (by destruct us). done.
Qed.

Section OneRequest.
  Context (parse : resolver) (now : gotime) (mime sniff : bytes -> bytes) (boundary : bytes) (bufsize : nat).
  Hypothesis Hbuf : 0 < bufsize.
  Context (m : mem) (r : ref) (f : fobj) (g : bytes) (ds : list bytes).
  Hypothesis SV : served m r f g ds.

  Definition reply (q : request) : response := (serve (mem_server parse now r) mime sniff boundary bufsize q m).2.

  Lemma reply_answer q : reply q = answer mime sniff boundary (mem_site parse m (efile_of f)) q.
  Proof.
    destruct SV. destruct (mem_server_lawful parse now m r f) as [L Hok]; [done..|].
    unfold reply. destruct (serve_answer _ mime sniff boundary bufsize _ _ _ _ _ L Hbuf q m Hok) as (s' & -> & _). done.
  Qed.

  Lemma site_at ns : means parse (f_here f) (m_here m) g ds ns -> ns <> ds ->
    mem_site parse m (efile_of f) (abs_name ns) =
    match file_at m (Path g (abs_name (ds ++ ns))) with
    | None => Missing FMissing
    | Some fo =>
        if d_isdir (f_info fo)
        then ADir (f_info fo) (listed_at parse m (EFile (f_info fo) (f_here fo) (Path g (abs_name (ds ++ ns))) [] (f_path f)))
        else AFile (f_info fo) (f_data fo)
    end.
  Proof.
    intros [Hg Ho Hn Hp] Hne. destruct SV. unfold mem_site. cbn [efile_of e_here e_path e_info]. rewrite Hn.
    rewrite bool_decide_eq_false_2; [|rewrite sv_path0; intros E; apply (f_equal p_name) in E; cbn in E; by apply abs_name_inj in E].
    cbv zeta. cbn [p_pkg p_name]. rewrite sv_path0. cbn [p_name]. rewrite clean_join_abs by done.
    unfold mem_parse. by rewrite Hp.
  Qed.

  Lemma site_root : means parse (f_here f) (m_here m) g ds [] -> ds = [] ->
    mem_site parse m (efile_of f) (abs_name []) = ADir (f_info f) (listed_at parse m (efile_of f)).
  Proof.
    intros [Hg Ho Hn Hp] Hd. destruct SV. unfold mem_site. cbn [efile_of e_here e_path e_info]. rewrite Hn.
    subst ds. rewrite sv_path0. by rewrite bool_decide_eq_true_2.
  Qed.

  Lemma file_reply q ns fo :
    means parse (f_here f) (m_here m) g ds ns -> ns <> ds -> asks_file q ns ->
    file_at m (Path g (abs_name (ds ++ ns))) = Some fo -> d_isdir (f_info fo) = false ->
    reply q = shown_to q (content_answer mime sniff boundary q (f_info fo) (f_data fo)).
  Proof.
    intros Hm Hne (H1 & H2 & H3) Hf Hd. rewrite reply_answer. unfold answer. rewrite H3, H1.
    rewrite (site_at ns Hm Hne), Hf, Hd. by rewrite bool_decide_eq_false_2.
  Qed.
End OneRequest.

(** ** C92 *)

(** Full claim: "GET of an embedded file returns status 200, the file's bytes
    and nothing else, with its length, its media type and its modification
    time; HEAD returns the same headers without a body."  Proved for names
    that mean a file below the served directory ([means]), for pkgers whose
    files state their length (all but those made by Add with a wrong size).
    Refuted otherwise. *)
Definition lastmod_header (t : gotime) (x : option bytes) : Prop :=
  (zero_time t = true /\ x = None) \/ (zero_time t = false /\ x = Some (http_date t)).

Lemma lastmod_ok t x : lastmod_header t x <-> x = lastmod_of t.
Proof. unfold lastmod_header, lastmod_of. destruct (zero_time t); naive_solver. Qed.

Theorem C92_get_partial parse now mime sniff boundary bufsize m r f g ds q ns fo t lm :
  0 < bufsize -> served m r f g ds ->
  means parse (f_here f) (m_here m) g ds ns -> ns <> ds -> asks_file q ns ->
  file_at m (Path g (abs_name (ds ++ ns))) = Some fo -> d_isdir (f_info fo) = false ->
  q_range q = [] -> q_since q = None ->
  media_type mime sniff (d_name (f_info fo)) (f_data fo) t -> lastmod_header (d_mtime (f_info fo)) lm ->
  (serve (mem_server parse now r) mime sniff boundary bufsize q m).2 =
    Response 200 (Headers (Some t) lm (Some (num (length (f_data fo)))) None (Some (B"bytes")) None None)
      (if q_head q then [] else f_data fo).
Proof.
  intros Hb SV Hm Hne Hq Hf Hd Hr Hs Ht Hl. fold (reply parse now mime sniff boundary bufsize m r q).
  rewrite (file_reply parse now mime sniff boundary bufsize Hb m r f g ds SV q ns fo Hm Hne Hq Hf Hd).
  apply type_of_unique in Ht as ->. apply lastmod_ok in Hl as ->.
  unfold content_answer, unmodified. rewrite Hs, Hr. cbn [parse_range sum_len fold_right].
  assert (E : dec_z (Z.of_nat (length (f_data fo))) = num (length (f_data fo))).
  { unfold dec_z, num. destruct (Z.ltb_spec (Z.of_nat (length (f_data fo))) 0); [lia|]. by rewrite <- nat_N_Z, N2Z.id. }
  destruct (Z.ltb_spec (Z.of_nat (length (f_data fo))) 0); [lia|]. rewrite E. unfold shown_to. by destruct (q_head q).
Qed.

(** ** C93 *)

Lemma dec_num n : dec_z (Z.of_nat n) = num n.
Proof. unfold dec_z, num. destruct (Z.ltb_spec (Z.of_nat n) 0); [lia|]. by rewrite <- nat_N_Z, N2Z.id. Qed.

(** "bytes first-last/size". *)
Definition crange (size : nat) (x : nat * bytes) : bytes :=
  B"bytes " ++ num x.1 ++ "-"%char :: num (x.1 + length x.2 - 1) ++ slash :: num size.

(** A multipart/byteranges body. *)
Definition part_text (boundary ctype : bytes) (size : nat) (x : nat * bytes) : bytes :=
  B"--" ++ boundary ++ crlf ++ B"Content-Range: " ++ crange size x ++ crlf ++ B"Content-Type: " ++ ctype ++ crlf ++ crlf ++ x.2.
Definition multipart (boundary ctype : bytes) (size : nat) (l : list (nat * bytes)) : bytes :=
  concat ((fun x => part_text boundary ctype size x ++ crlf) <$> l) ++ B"--" ++ boundary ++ B"--" ++ crlf.

Lemma crange_ok size (x : nat * bytes) : x.2 <> [] -> content_range (to_range x) (Z.of_nat size) = crange size x.
Proof.
  destruct x as [a p]. cbn [snd]. intros H. unfold content_range, crange, to_range. cbn [g_start g_len fst snd].
  assert (E : (Z.of_nat a + Z.of_nat (length p) - 1 = Z.of_nat (a + length p - 1))%Z).
  { destruct p; [done|]. cbn [length]. lia. }
  by rewrite E, !dec_num.
Qed.

Lemma parts_multipart boundary ctype data l :
  Forall (fun x : nat * bytes => x.2 <> [] /\ slice data (Z.of_nat x.1) (Z.of_nat (length x.2)) = x.2) l -> l <> [] ->
  parts_body boundary true ctype data (to_range <$> l) = multipart boundary ctype (length data) l.
Proof.
  intros H Hn.
  assert (G : forall l, Forall (fun x : nat * bytes => x.2 <> [] /\ slice data (Z.of_nat x.1) (Z.of_nat (length x.2)) = x.2) l ->
    parts_body boundary false ctype data (to_range <$> l) = crlf ++ multipart boundary ctype (length data) l).
  { clear. intros l H. induction H as [|x l [Hx Hs] H IH]; [done|].
    cbn [fmap list_fmap parts_body]. change (list_fmap _ _ to_range l) with (to_range <$> l) || idtac. rewrite IH.
    unfold part_header. rewrite (crange_ok _ x Hx). unfold to_range at 1 2. cbn [g_start g_len]. rewrite Hs.
    unfold multipart. cbn [fmap list_fmap concat]. unfold part_text. rewrite <- !app_assoc. done. }
  destruct H as [|x l [Hx Hs] H]; [done|]. cbn [fmap list_fmap parts_body]. rewrite (G l H).
  unfold part_header. rewrite (crange_ok _ x Hx). unfold to_range at 1 2. cbn [g_start g_len]. rewrite Hs.
  unfold multipart. cbn [fmap list_fmap concat]. unfold part_text. rewrite <- !app_assoc. done.
Qed.

Lemma wanted_in data x y : wanted data x = Some y -> in_content (Z.of_nat (length data)) (to_range y).
Proof.
  unfold wanted, in_content, to_range. destruct x as [a b|a|n]; try case_decide; intros [= <-]; cbn [g_start g_len fst snd];
    rewrite ?take_length, drop_length; lia.
Qed.

Lemma omap_slices data l : Forall (fun y : nat * bytes => slice data (Z.of_nat y.1) (Z.of_nat (length y.2)) = y.2 /\
  in_content (Z.of_nat (length data)) (to_range y)) (omap (wanted data) l).
Proof.
  apply Forall_forall. intros y Hy. apply elem_of_list_omap in Hy as (x & _ & Hx).
  split; [by eapply wanted_slice|by eapply wanted_in].
Qed.

Lemma wanted_nonnil data x y : data <> [] -> rspec_ok x -> wanted data x = Some y -> y.2 <> [].
Proof.
  intros Hd. unfold wanted. destruct x as [a b|a|n]; cbn [rspec_ok]; intros Hx; try case_decide; intros [= <-]; cbn [snd];
    intros E; apply (f_equal length) in E; rewrite ?take_length, drop_length in E; cbn [length] in E; try lia.
  destruct data; [done|]. cbn [length] in E. lia.
Qed.

Lemma sum_len_ok (l : list (nat * bytes)) : sum_len (to_range <$> l) = Z.of_nat (sum_list (length <$> l.*2)).
Proof. induction l as [|x l IH]; [done|]. cbn [fmap list_fmap sum_len fold_right sum_list]. unfold sum_len in IH. cbn in IH |- *. rewrite IH. lia. Qed.

(** Full claim: "A Range request for an embedded file is answered with exactly
    the bytes asked for: one range with status 206, those bytes and a
    Content-Range naming them; several with a multipart body of all of them in
    the order asked; ranges all beyond the end with status 416; ranges longer
    than the file altogether with the whole file."  Proved under the hypotheses
    of C92, for non-empty files. *)
Theorem C93_range_partial parse now mime sniff boundary bufsize m r f g ds q ns fo t lm l :
  0 < bufsize -> served m r f g ds ->
  means parse (f_here f) (m_here m) g ds ns -> ns <> ds -> asks_file q ns ->
  file_at m (Path g (abs_name (ds ++ ns))) = Some fo -> d_isdir (f_info fo) = false -> f_data fo <> [] ->
  l <> [] -> Forall rspec_ok l -> q_range q = range_text l -> q_since q = None -> q_head q = false ->
  media_type mime sniff (d_name (f_info fo)) (f_data fo) t -> lastmod_header (d_mtime (f_info fo)) lm ->
  let size := length (f_data fo) in
  (serve (mem_server parse now r) mime sniff boundary bufsize q m).2 =
    match omap (wanted (f_data fo)) l with
    | [] => Response 416 (Headers (Some (B"text/plain; charset=utf-8")) lm None (Some (B"bytes */" ++ num size)) None None (Some (B"nosniff")))
              (B"invalid range: failed to overlap" ++ [newline])
    | [x] => Response 206 (Headers (Some t) lm (Some (num (length x.2))) (Some (crange size x)) (Some (B"bytes")) None None) x.2
    | ps =>
        if decide (sum_list (length <$> ps.*2) <= size) then
          Response 206 (Headers (Some (B"multipart/byteranges; boundary=" ++ boundary)) lm
                         (Some (num (length (multipart boundary t size ps)))) None (Some (B"bytes")) None None)
            (multipart boundary t size ps)
        else Response 200 (Headers (Some t) lm (Some (num size)) None (Some (B"bytes")) None None) (f_data fo)
    end.
Proof.
  intros Hb SV Hm Hne Hq Hf Hd Hdata Hl Hok Hr Hs Hh Ht Hlm size. fold (reply parse now mime sniff boundary bufsize m r q).
  rewrite (file_reply parse now mime sniff boundary bufsize Hb m r f g ds SV q ns fo Hm Hne Hq Hf Hd).
  apply type_of_unique in Ht as ->. apply lastmod_ok in Hlm as ->.
  unfold content_answer, unmodified, shown_to. rewrite Hs, Hr, Hh, (parse_range_text _ l Hl Hok).
  pose proof (omap_slices (f_data fo) l) as HS.
  assert (HN : Forall (fun y : nat * bytes => y.2 <> []) (omap (wanted (f_data fo)) l)).
  { apply Forall_forall. intros y Hy. apply elem_of_list_omap in Hy as (x & Hx & Hy). rewrite Forall_forall in Hok. eapply wanted_nonnil; eauto. }
  destruct (omap (wanted (f_data fo)) l) as [|x ps].
  - by rewrite dec_num.
  - cbv iota. rewrite sum_len_ok. destruct ps as [|y ps].
    + apply Forall_cons in HS as [[Hx Hin] _]. apply Forall_cons in HN as [Hxn _].
      assert (length x.2 <= size). { destruct Hin as [H1 H2]. cbn in H1, H2. unfold size. lia. }
      assert (Hlt : (Z.of_nat (length (f_data fo)) <? Z.of_nat (sum_list (length <$> [x].*2)))%Z = false).
      { apply Z.ltb_ge. cbn. unfold size in *. lia. }
      rewrite Hlt. change (to_range <$> [x]) with [to_range x]. cbv iota.
      rewrite crange_ok by done. cbn [g_len g_start to_range]. by rewrite dec_num, Hx.
    + case_decide as Hsum; fold size.
      * rewrite (proj2 (Z.ltb_ge (Z.of_nat size) (Z.of_nat (sum_list (length <$> (x :: y :: ps).*2))))) by (apply inj_le; exact Hsum).
        change (to_range <$> x :: y :: ps) with (to_range x :: to_range y :: (to_range <$> ps)). cbv iota.
        change (to_range x :: to_range y :: (to_range <$> ps)) with (to_range <$> x :: y :: ps).
        set (all := x :: y :: ps) in *.
        assert (HF : Forall (fun x : nat * bytes => x.2 <> [] /\ slice (f_data fo) (Z.of_nat x.1) (Z.of_nat (length x.2)) = x.2) all).
        { apply Forall_forall. intros z Hz. rewrite Forall_forall in HS, HN. split; [by apply HN|by apply HS]. }
        pose proof (parts_multipart boundary (type_of mime sniff (f_info fo) (f_data fo)) (f_data fo) all HF ltac:(done)) as E. fold size in E.
        pose proof (parts_body_length boundary true (type_of mime sniff (f_info fo) (f_data fo)) (f_data fo) (to_range <$> all)) as E2.
        fold size in E2. rewrite E2, E. 2: { apply Forall_fmap. eapply Forall_impl; [exact HS|]. by intros z [_ Hz]. }
        2: { apply Forall_fmap, Forall_true. intros z. cbn. lia. }
        rewrite dec_num, Nat2Z.id, take_ge by done. done.
      * rewrite (proj2 (Z.ltb_lt (Z.of_nat size) (Z.of_nat (sum_list (length <$> (x :: y :: ps).*2)))))
          by (apply inj_lt; apply Nat.nle_gt; exact Hsum). by rewrite dec_num.
Qed.

(** ** C96 *)

(** Full claim: "A request with If-Modified-Since is answered with status 304
    and no body if the file's modification time, in seconds, is not after that
    date; otherwise as if the header were absent."  Proved under the hypotheses
    of C92; a file without a modification time (the zero time or the Unix
    epoch) is always sent. *)
Theorem C96_since_partial parse now mime sniff boundary bufsize m r f g ds q ns fo since :
  0 < bufsize -> served m r f g ds ->
  means parse (f_here f) (m_here m) g ds ns -> ns <> ds -> asks_file q ns ->
  file_at m (Path g (abs_name (ds ++ ns))) = Some fo -> d_isdir (f_info fo) = false ->
  q_since q = Some since ->
  let answer_to q := (serve (mem_server parse now r) mime sniff boundary bufsize q m).2 in
  (zero_time (d_mtime (f_info fo)) = false -> (t_sec (d_mtime (f_info fo)) <= since)%Z ->
     answer_to q = Response 304 (Headers None (Some (http_date (d_mtime (f_info fo)))) None None None None None) []) /\
  (zero_time (d_mtime (f_info fo)) = true \/ (since < t_sec (d_mtime (f_info fo)))%Z ->
     answer_to q = answer_to (Request (q_head q) (q_path q) (q_query q) (q_range q) None)).
Proof.
  intros Hb SV Hm Hne Hq Hf Hd Hs answer_to.
  assert (Hr : forall q, asks_file q ns -> answer_to q = shown_to q (content_answer mime sniff boundary q (f_info fo) (f_data fo))).
  { intros q' Hq'. apply (file_reply parse now mime sniff boundary bufsize Hb m r f g ds SV q' ns fo Hm Hne Hq' Hf Hd). }
  split.
  - intros Hz Ht. rewrite (Hr q Hq). unfold content_answer, unmodified, shown_to. rewrite Hs, Hz. cbn [negb andb].
    destruct (Z.ltb_spec (t_sec (d_mtime (f_info fo))) (since + 1)); [|lia]. unfold lastmod_of. rewrite Hz. by destruct (q_head q).
  - intros Hz. rewrite (Hr q Hq), Hr; [|exact Hq].
    assert (Hu : unmodified q (d_mtime (f_info fo)) = false).
    { unfold unmodified. rewrite Hs. destruct Hz as [-> | Hlt]; [done|].
      destruct (Z.ltb_spec (t_sec (d_mtime (f_info fo))) (since + 1)); [lia|]. by rewrite andb_false_r. }
    unfold content_answer. rewrite Hu. done.
Qed.

(** ** C94 *)

(** The page for a list of names, each with whether it is a directory. *)
Definition item_text (x : bytes * bool) : bytes :=
  let name := x.1 ++ if x.2 then B"/" else [] in
  B"<a href=""" ++ url_string name ++ B""">" ++ html_escape name ++ B"</a>" ++ [newline].
Definition page_text (l : list (bytes * bool)) : bytes :=
  B"<pre>" ++ [newline] ++ concat (item_text <$> l) ++ B"</pre>" ++ [newline].

(** The direct children of directory [ws], each once, by name. *)
Definition is_entries (m : mem) (g : bytes) (ws : list bytes) (l : list (bytes * bool)) : Prop :=
  StronglySorted (fun a b => blt a.1 b.1 = true) l /\
  forall v b, (v, b) ∈ l <-> good_elem v /\ exists d, entry_at m (Path g (abs_name (ws ++ [v]))) d /\ d_isdir d = b.

Global Instance name_le_trans : Transitive name_le.
Proof. intros a b c. unfold name_le. apply ble_trans. Qed.
Global Instance name_le_total : Total name_le.
Proof. intros a b. unfold name_le. apply ble_total. Qed.

Lemma strict_of_sorted (l : list details) :
  StronglySorted name_le l -> NoDup (d_name <$> l) -> StronglySorted (fun a b => blt (d_name a) (d_name b) = true) l.
Proof.
  intros HS. induction HS as [|x l HS IH HF]; intros Hn; [constructor|]. cbn in Hn. apply NoDup_cons in Hn as [Hx Hn].
  constructor; [by apply IH|]. apply Forall_forall. intros y Hy. rewrite Forall_forall in HF. apply blt_spec. split; [by apply HF|].
  intros E. apply Hx. rewrite E. by apply elem_of_list_fmap_1.
Qed.

(** What is on the page for some infos with distinct names. *)
Lemma page_of (l : list details) : NoDup (d_name <$> l) ->
  exists l' : list (bytes * bool), list_page l = page_text l' /\ StronglySorted (fun a b => blt a.1 b.1 = true) l' /\
    l' ≡ₚ (fun d => (d_name d, d_isdir d)) <$> l.
Proof.
  intros Hn. exists ((fun d => (d_name d, d_isdir d)) <$> merge_sort name_le l). split; [|split].
  - unfold list_page, page_text. rewrite <- list_fmap_compose. do 4 f_equal. apply list_fmap_ext. intros _ d _.
    unfold link, item_text, compose, entry_name. cbn [fst snd]. by destruct (d_isdir d); rewrite ?app_nil_r.
  - assert (HS : StronglySorted (fun a b => blt (d_name a) (d_name b) = true) (merge_sort name_le l)).
    { apply strict_of_sorted; [apply (StronglySorted_merge_sort name_le)|]. by rewrite merge_sort_Permutation. }
    induction HS as [|x l' HS IH HF]; [constructor|]. cbn. constructor; [done|]. apply Forall_fmap. eapply Forall_impl; [exact HF|]. done.
  - by rewrite merge_sort_Permutation.
Qed.

(** The page only depends on which infos there are. *)
Lemma list_page_perm l1 l2 : l1 ≡ₚ l2 -> NoDup (d_name <$> l1) -> list_page l1 = list_page l2.
Proof.
  intros HP Hn. unfold list_page. do 4 f_equal.
  assert (H1 : StronglySorted (fun a b => blt (d_name a) (d_name b) = true) (merge_sort name_le l1)).
  { apply strict_of_sorted; [apply (StronglySorted_merge_sort name_le)|]. by rewrite merge_sort_Permutation. }
  assert (H2 : StronglySorted (fun a b => blt (d_name a) (d_name b) = true) (merge_sort name_le l2)).
  { apply strict_of_sorted; [apply (StronglySorted_merge_sort name_le)|]. by rewrite merge_sort_Permutation, <- HP. }
  assert (HP' : merge_sort name_le l1 ≡ₚ merge_sort name_le l2) by (by rewrite !merge_sort_Permutation).
  clear HP Hn. revert H1 H2 HP'. generalize (merge_sort name_le l1) (merge_sort name_le l2). clear l1 l2.
  intros l1 l2 H1. revert l2. induction H1 as [|x l1 H1 IH HF]; intros l2 H2 HP.
  - by apply Permutation_nil in HP as ->.
  - destruct H2 as [|y l2 H2 HF2]; [symmetry in HP; by apply Permutation_nil_cons in HP|].
    assert (x = y) as ->.
    { assert (Hx : x ∈ y :: l2) by (rewrite <- HP; by left). assert (Hy : y ∈ x :: l1) by (rewrite HP; by left).
      apply elem_of_cons in Hx as [->|Hx]; [done|]. apply elem_of_cons in Hy as [->|Hy]; [done|].
      rewrite Forall_forall in HF, HF2. specialize (HF _ Hy). specialize (HF2 _ Hx). cbn beta in HF, HF2.
      apply blt_spec in HF as [HF Hne]. apply blt_spec in HF2 as [HF2 _]. exfalso. apply Hne. by apply ble_antisym. }
    rewrite !fmap_cons. f_equal. apply IH; [done|]. by apply Permutation_cons_inv in HP.
Qed.

Lemma entry_alloc m o k d : wf m -> entry_at (alloc m o).1 k d <-> entry_at m k d.
Proof. intros Hw. unfold entry_at. by rewrite file_at_alloc. Qed.

Lemma tree_alloc m o g ws : wf m -> tree_below m g ws -> tree_below (alloc m o).1 g ws.
Proof.
  intros Hw [H1 H2 H3]. split.
  - intros n d He. rewrite entry_alloc in He by done. eauto.
  - intros vs v d Hvs Hv Hn He. rewrite entry_alloc in He by done. destruct (H2 vs v d Hvs Hv Hn He) as (d' & He' & Hd').
    exists d'. by rewrite entry_alloc.
  - intros v w d d' Hv Hw' He Hd He'. rewrite entry_alloc in He, He' by done. eauto.
Qed.

(** Everything below the directory resolves to itself, and its entries bear
    their own names. *)
Record named_below (parse : resolver) (m : mem) (g : bytes) (ws : list bytes) : Prop := {
  nb_tree : tree_below m g ws;
  nb_self : parse (m_here m) (path_string (Path g (abs_name ws))) = Some (Path g (abs_name ws));
  nb_resolve : forall k d, entry_at m k d -> p_pkg k = g -> has_prefix (p_name k) (abs_name ws) = true ->
    parse (m_here m) (path_string k) = Some k;
  nb_names : forall v d, good_elem v -> entry_at m (Path g (abs_name (ws ++ [v]))) d -> d_name d = v
}.

Lemma listed_children parse m g ws e :
  wf m -> Forall good_elem ws -> named_below parse m g ws -> e_path e = Path g (abs_name ws) ->
  (e_parent e = zero_path \/ exists us, Forall good_elem us /\ e_parent e = Path g (abs_name us) /\ exists vs, ws = us ++ vs) ->
  exists cs, listed_at parse m e = Some (snd <$> cs) /\ is_children m g ws cs.
Proof.
  intros Hw Hws [HT Hs HR HN] Hp Hpa. unfold listed_at. set (o := FObj _ _ _ _ _ _ _).
  assert (Hw1 : wf (alloc m o).1) by (by apply wf_alloc).
  destruct (readdir_children parse (alloc m o).1 (m_next m) o g ws) as (cs & E & Hc).
  - done.
  - cbn. by rewrite lookup_insert.
  - done.
  - done.
  - change (f_path o) with (e_path e). by rewrite Hp.
  - by apply tree_alloc.
  - intros k d He Hg Hpre. change (f_path o) with (e_path e) in *. change (f_parent o) with (e_parent e). rewrite Hp in *. cbn [p_pkg p_name] in Hg, Hpre.
    rewrite entry_alloc in He by done. split; [by eapply HR|].
    destruct k as [g' n]. cbn [p_pkg p_name] in *. subst g'. destruct (tb_names _ _ _ HT n d He Hpre) as (vs & Hvs & ->).
    destruct Hpa as [->|(us & Hus & -> & us' & ->)]; [by right|]. destruct vs as [|v vs]; [left; by rewrite app_nil_r|].
    right. cbn [p_name]. intros E. apply abs_name_inj in E; [|apply Forall_app; by split|done].
    rewrite <- app_assoc in E. apply (f_equal length) in E. rewrite !app_length in E. cbn in E. lia.
  - rewrite readdir_nonpos by done. rewrite E. exists cs. split; [done|]. destruct Hc as [Hc1 Hc2]. split; [done|].
    intros k d. rewrite Hc2. by rewrite entry_alloc.
Qed.

Lemma children_names m g ws cs :
  (forall v d, good_elem v -> entry_at m (Path g (abs_name (ws ++ [v]))) d -> d_name d = v) ->
  is_children m g ws cs -> NoDup (d_name <$> (snd <$> cs)).
Proof.
  intros HN [HS HC].
  assert (Hin : forall x, x ∈ cs -> exists v, good_elem v /\ x.1 = Path g (abs_name (ws ++ [v])) /\ d_name x.2 = v).
  { intros [k d] Hx. apply HC in Hx as (He & v & Hv & ->). exists v. split; [done|]. split; [done|]. by apply HN. }
  clear HC HN. induction HS as [|x l HS IH HF]; [constructor|]. cbn. apply NoDup_cons. split.
  - intros Hx. apply elem_of_list_fmap in Hx as (d & E & Hd). apply elem_of_list_fmap in Hd as (y & -> & Hy).
    destruct (Hin x ltac:(by left)) as (v & _ & E1 & E2). destruct (Hin y ltac:(by right)) as (w & _ & E3 & E4).
    rewrite Forall_forall in HF. specialize (HF _ Hy). cbn beta in HF.
    assert (v = w) as -> by congruence. rewrite E1, E3 in HF. by rewrite blt_irrefl in HF.
  - apply IH. intros y Hy. apply Hin. by right.
Qed.

Lemma page_children parse m g ws cs :
  named_below parse m g ws -> is_children m g ws cs ->
  exists l, list_page (snd <$> cs) = page_text l /\ is_entries m g ws l.
Proof.
  intros HB HC. destruct (page_of (snd <$> cs)) as (l & E & HS & HP); [by eapply children_names; [apply (nb_names _ _ _ _ HB)|]|].
  exists l. split; [done|]. split; [done|]. intros v b. rewrite HP, <- list_fmap_compose, elem_of_list_fmap. destruct HC as [_ HC]. split.
  - intros ([k d] & E' & Hin). cbn in E'. injection E' as -> ->. apply HC in Hin as (He & v & Hv & ->).
    rewrite (nb_names _ _ _ _ HB v d Hv He). split; [done|]. by exists d.
  - intros (Hv & d & He & <-). exists (Path g (abs_name (ws ++ [v])), d). cbn. rewrite (nb_names _ _ _ _ HB v d Hv He). split; [done|].
    apply HC. split; [done|]. by exists v.
Qed.

(** The directory [ns] below the served one, with its info [d]. *)
Definition shows_dir (m : mem) (f : fobj) (g : bytes) (ds ns : list bytes) (d : details) : Prop :=
  (ns = ds /\ ds = [] /\ d = f_info f) \/
  (ns <> ds /\ exists fo, file_at m (Path g (abs_name (ds ++ ns))) = Some fo /\ d = f_info fo /\ d_isdir d = true).

Lemma site_shows parse m r f g ds ns d :
  served m r f g ds -> means parse (f_here f) (m_here m) g ds ns -> shows_dir m f g ds ns d ->
  exists e, mem_site parse m (efile_of f) (abs_name ns) = ADir d (listed_at parse m e) /\ e_path e = Path g (abs_name (ds ++ ns)) /\
    (e_parent e = zero_path \/ e_parent e = Path g (abs_name ds)).
Proof.
  intros SV Hm [(-> & -> & ->)|(Hne & fo & Hf & -> & Hd)].
  - rewrite (site_root parse m r f g [] SV Hm eq_refl). exists (efile_of f). split; [done|]. cbn. split; [apply SV|]. left. apply SV.
  - rewrite (site_at parse m r f g ds SV ns Hm Hne), Hf, Hd. eexists. split; [done|]. cbn. split; [done|]. right. apply SV.
Qed.

Lemma asks_dir_index q ns : asks_dir q ns -> has_suffix (url_of q) index_page = false.
Proof.
  intros [_ Hl]. destruct (has_suffix (url_of q) index_page) eqn:E; [|done]. apply has_suffix_spec in E as [t Et]. rewrite Et in Hl.
  unfold index_page in Hl. rewrite last_app in Hl. done.
Qed.

(** Full claim: "GET of an embedded directory (URL ending in a slash) without
    index.html returns a page listing exactly its direct children by name,
    sub-directories with a slash; if it has an index.html that is returned
    instead; without the slash the client is redirected to the URL with it, and
    a file asked for with a slash to the one without."  Proved under the
    hypotheses of C92 for directories whose subtree is well formed (C21).
    Refuted otherwise. *)
Theorem C94_list_partial parse now mime sniff boundary bufsize m r f g ds q ns d lm :
  0 < bufsize -> served m r f g ds ->
  means parse (f_here f) (m_here m) g ds ns -> means parse (f_here f) (m_here m) g ds (ns ++ [B"index.html"]) ->
  ns ++ [B"index.html"] <> ds -> asks_dir q ns -> shows_dir m f g ds ns d ->
  named_below parse m g (ds ++ ns) ->
  file_at m (Path g (abs_name (ds ++ ns ++ [B"index.html"]))) = None ->
  q_since q = None -> lastmod_header (d_mtime d) lm ->
  exists l, is_entries m g (ds ++ ns) l /\
    (serve (mem_server parse now r) mime sniff boundary bufsize q m).2 =
      Response 200 (Headers (Some (B"text/html; charset=utf-8")) lm None None None None None) (if q_head q then [] else page_text l).
Proof.
  intros Hb SV Hm Hi Hie Hq Hd HB Hno Hs Hl. apply lastmod_ok in Hl as ->.
  destruct (site_shows _ _ _ _ _ _ _ _ SV Hm Hd) as (e & E & Hp & Hpa).
  destruct (listed_children parse m g (ds ++ ns) e) as (cs & Ec & HC).
  - apply SV.
  - apply Forall_app. split; [apply SV|apply Hm].
  - done.
  - done.
  - destruct Hpa as [?|Hpa]; [by left|right]. exists ds. split; [apply SV|]. split; [done|]. by exists ns.
  - destruct (page_children parse m g (ds ++ ns) cs HB HC) as (l & El & Hen). exists l. split; [done|].
    fold (reply parse now mime sniff boundary bufsize m r q). rewrite (reply_answer parse now mime sniff boundary bufsize Hb m r f g ds SV).
    unfold answer. rewrite (asks_dir_index q ns Hq). destruct Hq as [Hq1 Hq2]. rewrite Hq1, E, Hq2, bool_decide_eq_true_2 by done.
    rewrite trim_slash_abs by apply Hm. rewrite (site_at parse m r f g ds SV _ Hi Hie), Hno.
    unfold dir_answer_of, unmodified. rewrite Hs, Ec, El. unfold shown_to. by destruct (q_head q).
Qed.

Theorem C94_index_partial parse now mime sniff boundary bufsize m r f g ds q ns d fo t lm :
  0 < bufsize -> served m r f g ds ->
  means parse (f_here f) (m_here m) g ds ns -> means parse (f_here f) (m_here m) g ds (ns ++ [B"index.html"]) ->
  ns ++ [B"index.html"] <> ds -> asks_dir q ns -> shows_dir m f g ds ns d ->
  file_at m (Path g (abs_name (ds ++ ns ++ [B"index.html"]))) = Some fo -> d_isdir (f_info fo) = false ->
  q_range q = [] -> q_since q = None ->
  media_type mime sniff (d_name (f_info fo)) (f_data fo) t -> lastmod_header (d_mtime (f_info fo)) lm ->
  (serve (mem_server parse now r) mime sniff boundary bufsize q m).2 =
    Response 200 (Headers (Some t) lm (Some (num (length (f_data fo)))) None (Some (B"bytes")) None None)
      (if q_head q then [] else f_data fo).
Proof.
  intros Hb SV Hm Hi Hie Hq Hd Hfo Hdir Hr Hs Ht Hl. apply lastmod_ok in Hl as ->. apply type_of_unique in Ht as ->.
  destruct (site_shows _ _ _ _ _ _ _ _ SV Hm Hd) as (e & E & Hp & Hpa).
  fold (reply parse now mime sniff boundary bufsize m r q). rewrite (reply_answer parse now mime sniff boundary bufsize Hb m r f g ds SV).
  unfold answer. rewrite (asks_dir_index q ns Hq). destruct Hq as [Hq1 Hq2]. rewrite Hq1, E, Hq2, bool_decide_eq_true_2 by done.
  rewrite trim_slash_abs by apply Hm. rewrite (site_at parse m r f g ds SV _ Hi Hie), Hfo, Hdir.
  unfold content_answer, unmodified. rewrite Hs, Hr. cbn [parse_range sum_len fold_right].
  destruct (Z.ltb_spec (Z.of_nat (length (f_data fo))) 0); [lia|]. rewrite dec_num. unfold shown_to. by destruct (q_head q).
Qed.

Definition query_text (q : request) : bytes := match q_query q with [] => [] | s => "?"%char :: s end.

Theorem C94_redirect_partial parse now mime sniff boundary bufsize m r f g ds q ns :
  0 < bufsize -> served m r f g ds -> means parse (f_here f) (m_here m) g ds ns ->
  let moved to := Response 301 (Headers None None None None None (Some to) None) [] in
  let answer_to q := (serve (mem_server parse now r) mime sniff boundary bufsize q m).2 in
  (forall d, asks_file q ns -> shows_dir m f g ds ns d -> answer_to q = moved (base (url_of q) ++ B"/" ++ query_text q)) /\
  (forall fo, asks_dir q ns -> ns <> ds -> file_at m (Path g (abs_name (ds ++ ns))) = Some fo -> d_isdir (f_info fo) = false ->
     answer_to q = moved (B"../" ++ base (url_of q) ++ query_text q)) /\
  (has_suffix (url_of q) (B"/index.html") = true -> answer_to q = moved (B"./" ++ query_text q)).
Proof.
  intros Hb SV Hm moved answer_to.
  assert (Ha : answer_to q = answer mime sniff boundary (mem_site parse m (efile_of f)) q).
  { apply (reply_answer parse now mime sniff boundary bufsize Hb m r f g ds SV). }
  assert (Hmv : forall to, shown_to q (redirect q to) = moved (to ++ query_text q)).
  { intros to. unfold shown_to, redirect, query_text, moved. destruct (q_query q); rewrite ?app_nil_r; by destruct (q_head q). }
  rewrite Ha. unfold answer. split; [|split].
  - intros d (Hq1 & Hq2 & Hq3) Hd. destruct (site_shows _ _ _ _ _ _ _ _ SV Hm Hd) as (e & E & _).
    rewrite Hq3, Hq1, E, bool_decide_eq_false_2 by done. rewrite Hmv. by rewrite <- app_assoc.
  - intros fo Hq Hne Hf Hd. rewrite (asks_dir_index q ns Hq). destruct Hq as [Hq1 Hq2].
    rewrite Hq1, (site_at parse m r f g ds SV ns Hm Hne), Hf, Hd, Hq2, bool_decide_eq_true_2 by done. rewrite Hmv. by rewrite <- app_assoc.
  - intros Hq. unfold index_page. rewrite Hq. apply Hmv.
Qed.

(** ** C97 *)

(** Full claim: "Serving any sequence of requests leaves no file open."  Proved
    for http.FileServer on a file opened with the on-disk pkger (and for
    http.Dir); refuted for pkger.Dir, which opens the directory for every
    request and never closes it (pkger.go:35-41). *)
Theorem C97_closed_partial parse hp fs f mime sniff boundary bufsize qs s n :
  (serve_all (std_server parse hp fs f) mime sniff boundary bufsize qs (s, n)).1.2 = n.
Proof.
  unfold std_server. rewrite serve_all_none; [done|].
  intros [s0 n0] name. unfold std_answer. cbn [fst snd].
  destruct (sfile_open parse hp fs s0 f name) as [s1 [f1|e]].
  - destruct (find fs (sf_os f1)); done.
  - destruct e; done.
Qed.

Theorem C97_reference fs d mime sniff boundary bufsize qs s n :
  (serve_all (dir_server fs d) mime sniff boundary bufsize qs (s, n)).1.2 = n.
Proof.
  unfold dir_server. rewrite serve_all_none; [done|].
  intros [s0 n0] name. unfold dir_answer. cbn [fst snd].
  destruct (find fs _) as [nd|]; [|done]. by destruct (n_ok _).
Qed.

(** With pkger.Dir every request leaves at least one more file open. *)
Theorem C97_leaks parse hp fs d f mime sniff boundary bufsize qs s n :
  (std_open parse hp fs s d).2 = Ok f ->
  Forall (fun q => has_suffix (url_of q) (B"/index.html") = false) qs ->
  length qs + n <= (serve_all (std_dir_server parse hp fs d) mime sniff boundary bufsize qs (s, n)).1.2.
Proof.
  intros Hd Hq. unfold std_dir_server. set (opn := fun (s : sto * nat) (name : bytes) => _).
  assert (Hop : forall (x : sto * nat) name, std_same hp s x.1 -> match opn x name with
    | (s', inl _) => std_same hp s s'.1 /\ s'.2 = Datatypes.S (1 + x.2)
    | (s', inr _) => std_same hp s s'.1 /\ s'.2 = 1 + x.2
    end).
  { intros [s0 n0] name Hs. unfold opn. cbn [fst snd] in *. destruct (std_open_same parse hp fs s s0 d Hs) as [H1 H2]. rewrite Hd in H2.
    destruct (std_open parse hp fs s0 d) as [s1 [f1|e]]; cbn [fst snd] in *; [|done].
    unfold sfile_open. destruct (std_open_same parse hp fs s s1 (join2 (p_name (sf_path f1)) name) H1) as [H3 _].
    destruct (std_open parse hp fs s1 _) as [s2 [f2|e]]; cbn [fst snd] in *; unfold std_answer.
    - destruct (find fs (sf_os f2)); cbn; (split; [done|lia]).
    - destruct e; cbn; (split; [done|lia]). }
  pose proof (serve_all_count opn mime sniff boundary bufsize (std_same hp s) 1 Hop qs (s, n)) as H.
  cbn [fst snd] in H. specialize (H ltac:(by split) Hq). lia.
Qed.

(** ** C98 *)

(** Full claim: "A request for something that does not exist is answered with
    status 404."  Proved for the in-memory pkger under [means]; refuted for
    names that do not resolve (status 500), and on disk for names that go
    through a regular file (status 500, where http.Dir answers 404). *)
Definition not_found (q : request) : response :=
  Response 404 (Headers (Some (B"text/plain; charset=utf-8")) None None None None None (Some (B"nosniff")))
    (if q_head q then [] else B"404 page not found" ++ [newline]).

Theorem C98_missing_partial parse now mime sniff boundary bufsize m r f g ds q ns :
  0 < bufsize -> served m r f g ds -> means parse (f_here f) (m_here m) g ds ns -> ns <> ds ->
  clean (url_of q) = abs_name ns -> has_suffix (url_of q) (B"/index.html") = false ->
  file_at m (Path g (abs_name (ds ++ ns))) = None ->
  (serve (mem_server parse now r) mime sniff boundary bufsize q m).2 = not_found q.
Proof.
  intros Hb SV Hm Hne Hq Hi Hf. fold (reply parse now mime sniff boundary bufsize m r q).
  rewrite (reply_answer parse now mime sniff boundary bufsize Hb m r f g ds SV). unfold answer, index_page. rewrite Hi, Hq.
  rewrite (site_at parse m r f g ds SV ns Hm Hne), Hf. unfold shown_to, not_found. by destruct (q_head q).
Qed.

(** ** C99 *)

(** Each request is answered on its own: however many requests came before, and
    whatever they were, a request gets the answer it would have got first; and
    serving changes no file. *)
Theorem C99_independent parse now mime sniff boundary bufsize m r f qs :
  0 < bufsize -> wf m -> m_heap m !! r = Some f -> f_writer f = None -> d_isdir (f_info f) = true ->
  exists m', serve_all (mem_server parse now r) mime sniff boundary bufsize qs m =
      (m', (fun q => (serve (mem_server parse now r) mime sniff boundary bufsize q m).2) <$> qs) /\
    same_store m m' /\ exists f', m_heap m' !! r = Some f' /\ efile_of f' = efile_of f.
Proof.
  intros Hb Hw Hr Hwr Hd.
  destruct (mem_server_lawful_sz parse now m r f (fun _ _ => True) Hw ltac:(done) Hr Hwr Hd) as [L Hok].
  destruct (serve_all_first _ mime sniff boundary bufsize _ _ _ _ _ _ L Hb qs m m Hok Hok) as (m' & E & [[Hw' Hss Hf' Hn'] (f' & Hf2 & He & Hwn)]).
  exists m'. split; [done|]. split; [done|]. by exists f'.
Qed.

(** ** Concrete cases *)

(** A directory tree given by its names, checked by computation. *)
Definition dir_at (m : mem) (g : bytes) (us : list bytes) : bool :=
  match file_at m (Path g (abs_name us)) with Some f => d_isdir (f_info f) | None => false end.
Definition tree_check (parse : resolver) (m : mem) (g : bytes) (ws : list bytes) (L : list (list bytes)) : bool :=
  let below us := bool_decide (take (length ws) us = ws) in
  let kid us := below us && Nat.eqb (length us) (Datatypes.S (length ws)) in
  bool_decide (sorted_keys m = (fun vs => Path g (abs_name vs)) <$> L) &&
  forallb (forallb (fun u => bool_decide (good_elem u))) L &&
  forallb (fun us => implb (has_prefix (abs_name us) (abs_name ws)) (below us)) L &&
  forallb (fun us => implb (below us && Nat.leb (length ws + 2) (length us)) (dir_at m g (take (length us - 1) us))) L &&
  forallb (fun us => forallb (fun us' =>
    implb (kid us && kid us' && dir_at m g us && has_prefix (default [] (last us')) (default [] (last us))) (bool_decide (us' = us))) L) L &&
  forallb (fun us => bool_decide (parse (m_here m) (path_string (Path g (abs_name us))) = Some (Path g (abs_name us)))) (ws :: L) &&
  forallb (fun us => implb (kid us) (bool_decide ((d_name ∘ f_info) <$> file_at m (Path g (abs_name us)) = last us))) L.

Lemma tree_checked parse m g ws L : Forall good_elem ws -> tree_check parse m g ws L = true -> named_below parse m g ws.
Proof.
  intros Hws H. unfold tree_check in H. cbv zeta in H. repeat (apply andb_true_iff in H as [H ?]).
  rename H into HK, H0 into HN, H1 into HR, H2 into HC, H3 into HP, H4 into HB, H5 into HG.
  apply bool_decide_eq_true in HK.
  assert (HG' : Forall (Forall good_elem) L).
  { apply Forall_forall. intros us Hus. apply Forall_forall. intros u Hu. rewrite forallb_forall in HG.
    specialize (HG us). rewrite <- elem_of_list_In in HG. specialize (HG Hus). rewrite forallb_forall in HG.
    specialize (HG u). rewrite <- elem_of_list_In in HG. by apply HG, bool_decide_eq_true in Hu. }
  assert (Hent : forall k d, entry_at m k d -> exists us, us ∈ L /\ k = Path g (abs_name us)).
  { intros k d He. assert (Hk : k ∈ sorted_keys m).
    { apply sorted_keys_elem. unfold entry_at, file_at in He. destruct (m_files m !! k); [by eexists|done]. }
    rewrite HK in Hk. apply elem_of_list_fmap in Hk as (us & -> & Hus). by exists us. }
  assert (Hel : forall us d, Forall good_elem us -> entry_at m (Path g (abs_name us)) d -> us ∈ L).
  { intros us d Hus He. destruct (Hent _ _ He) as (vs & Hvs & E). apply key_inj in E; [by subst|done|].
    rewrite Forall_forall in HG'. by apply HG'. }
  assert (Hall : forall (P : list bytes -> bool) us, forallb P L = true -> us ∈ L -> P us = true).
  { intros P us HF Hus. rewrite forallb_forall in HF. apply HF. by apply elem_of_list_In. }
  assert (Hdir : forall us d, entry_at m (Path g (abs_name us)) d -> dir_at m g us = d_isdir d).
  { intros us d He. unfold entry_at in He. unfold dir_at. destruct (file_at m _); [|done]. cbn in He. by injection He as ->. }
  assert (Hkid : forall v, bool_decide (take (length ws) (ws ++ [v]) = ws) && Nat.eqb (length (ws ++ [v])) (Datatypes.S (length ws)) = true).
  { intros v. rewrite take_app, bool_decide_eq_true_2 by done. rewrite app_length, Nat.add_1_r. cbn [andb]. by apply Nat.eqb_eq. }
  assert (Hone : forall v, good_elem v -> Forall good_elem (ws ++ [v])).
  { intros v Hv. apply Forall_app. split; [done|by constructor]. }
  split.
  - split.
    + intros n d He Hpre. destruct (Hent _ _ He) as (us & Hus & [= ->]).
      pose proof (Hall _ us HB Hus) as E. cbn beta in E. rewrite Hpre in E. cbn in E. apply bool_decide_eq_true in E.
      exists (drop (length ws) us). rewrite Forall_forall in HG'. split; [apply Forall_drop; by apply HG'|].
      rewrite <- E at 1. by rewrite take_drop.
    + intros vs v d Hvs Hv Hne He.
      assert (Hin : ws ++ vs ++ [v] ∈ L). { eapply Hel; [|exact He]. apply Forall_app. split; [done|]. apply Forall_app. split; [done|by constructor]. }
      pose proof (Hall _ _ HP Hin) as E. cbn beta in E.
      rewrite take_app, bool_decide_eq_true_2 in E by done. rewrite !app_length in E. cbn [length] in E.
      assert (Hlen : Nat.leb (length ws + 2) (length ws + (length vs + 1)) = true) by (apply Nat.leb_le; destruct vs; [done|cbn; lia]).
      rewrite Hlen in E. cbn [andb implb] in E.
      assert (Et : take (length ws + (length vs + 1) - 1) (ws ++ vs ++ [v]) = ws ++ vs).
      { rewrite app_assoc. apply take_app_alt. rewrite app_length. lia. }
      rewrite Et in E. unfold dir_at in E. unfold entry_at. destruct (file_at m _) as [x|]; [|done]. by exists (f_info x).
    + intros v w d d' Hv Hw He Hd He' Hpre.
      assert (Hin : ws ++ [v] ∈ L) by (eapply Hel; [by apply Hone|done]).
      assert (Hin' : ws ++ [w] ∈ L) by (eapply Hel; [by apply Hone|done]).
      pose proof (Hall _ _ (Hall _ _ HC Hin) Hin') as E. cbn beta in E.
      rewrite !Hkid, (Hdir _ _ He), Hd, !last_snoc in E. cbn [andb default] in E. cbn [option_map from_option] in E.
      change (implb (has_prefix w v) (bool_decide (ws ++ [w] = ws ++ [v])) = true) in E. rewrite Hpre in E. cbn in E.
      apply bool_decide_eq_true in E. apply app_inv_head in E. by injection E.
  - cbn [forallb] in HR. apply andb_true_iff in HR as [HR _]. by apply bool_decide_eq_true in HR.
  - intros k d He Hg Hpre. destruct (Hent _ _ He) as (us & Hus & ->). cbn [forallb] in HR. apply andb_true_iff in HR as [_ HR].
    pose proof (Hall _ _ HR Hus) as E. by apply bool_decide_eq_true in E.
  - intros v d Hv He. assert (Hin : ws ++ [v] ∈ L) by (eapply Hel; [by apply Hone|done]).
    pose proof (Hall _ _ HN Hin) as E. cbn beta in E. rewrite Hkid in E. cbn [implb] in E. apply bool_decide_eq_true in E.
    rewrite last_snoc in E. unfold entry_at in He. destruct (file_at m _) as [x|]; [|done]. cbn in E, He. injection He as <-. by injection E.
Qed.

(** A pkger made by calls that state lengths truthfully. *)
Lemma sized_run her cs : Forall (fun c => honest c.2) cs -> sized (run here_parse (mem_new her) cs).1.
Proof.
  intros HF k f Hk Hd. unfold file_at in Hk. destruct (m_files _ !! k) as [r|]; [|done]. cbn in Hk.
  assert (H0 : sizes_ok (mem_new her)) by (intros r' f' H'; cbn in H'; by rewrite lookup_empty in H').
  apply (sizes_run here_parse _ cs H0 HF _ _ Hk Hd).
Qed.

(** /pub with a text, a directory with a page, a directory without. *)
Definition t9 : gotime := GoTime 1579096800 5 0.
Definition hsite_calls : list (gotime * op) :=
  (fun o => (t9, o)) <$> [OMkdirAll (B"/pub/img") 493; OMkdirAll (B"/pub/docs") 493;
   OCreate (B"/pub/a.txt"); OWrite 5 (B"hello world"); OClose 5;
   OCreate (B"/pub/docs/index.html"); OWrite 7 (B"<p>"); OClose 7; OCreate (B"/pub/img/b<1>"); OMkdirAll (B"/pub/img/sub") 493;
   OOpen (B"/pub")].
Definition hsite : mem := (run here_parse (mem_new her_ex) hsite_calls).1.
Definition hroot : fobj := FObj her_ex (Details (B"pub") 0 493 t9 true JNull) (Path (B"app") (B"/pub")) [] zero_path None None.

(** The media types of the examples. *)
Definition mime_ex (e : bytes) : bytes :=
  if bool_decide (e = B".txt") then B"text/plain" else if bool_decide (e = B".html") then B"text/html" else [].
Definition sniff_ex (b : bytes) : bytes := B"application/octet-stream".
Definition get_of (p : bytes) : request := Request false p [] [] None.
Definition ask (q : request) : response := (serve (mem_server here_parse t0 13) mime_ex sniff_ex (B"XX") 4 q hsite).2.
Definition t9_text : bytes := B"Wed, 15 Jan 2020 14:00:00 GMT".

Ltac honest_tac := repeat (apply List.Forall_cons; [exact I|]); apply List.Forall_nil.
Lemma hsite_served : served hsite 13 hroot (B"app") [B"pub"].
Proof.
  split; [eapply reachable_wf, reachable_run, reach_new|apply (sized_run her_ex hsite_calls); unfold hsite_calls; cbn [fmap list_fmap]; honest_tac|by vm_compute|done|good_elems|done..].
Qed.

Lemma hsite_means ns : Forall good_elem ns -> ns <> [B"pub"] ->
  bool_decide (here_parse her_ex (abs_name ns) = Some (Path (B"app") (abs_name ns))) = true ->
  bool_decide (here_parse her_ex (path_string (Path (B"app") (abs_name ([B"pub"] ++ ns)))) = Some (Path (B"app") (abs_name ([B"pub"] ++ ns)))) = true ->
  means here_parse (f_here hroot) (m_here hsite) (B"app") [B"pub"] ns.
Proof.
  intros H1 H2 H3 H4. apply bool_decide_eq_true in H3, H4. split; [done|by left|exact H3|exact H4].
Qed.

Ltac means_tac := apply hsite_means; [good_elems|done|by vm_compute|by vm_compute].

Example C92_ex :
  served hsite 13 hroot (B"app") [B"pub"] /\
  means here_parse (f_here hroot) (m_here hsite) (B"app") [B"pub"] [B"a.txt"] /\
  asks_file (get_of (B"/x/../a.txt")) [B"a.txt"] /\
  (f_data <$> file_at hsite (Path (B"app") (abs_name [B"pub"; B"a.txt"]))) = Some (B"hello world") /\
  ask (get_of (B"/x/../a.txt")) =
    Response 200 (Headers (Some (B"text/plain")) (Some t9_text) (Some (B"11")) None (Some (B"bytes")) None None) (B"hello world") /\
  ask (Request true (B"a.txt") [] [] None) =
    Response 200 (Headers (Some (B"text/plain")) (Some t9_text) (Some (B"11")) None (Some (B"bytes")) None None) [].
Proof.
  split; [apply hsite_served|]. split; [means_tac|]. split; [|by vm_compute].
  split; [by vm_compute|]. split; [by vm_compute|by vm_compute].
Qed.

(** Add takes the length it is given (pkging/mem/add.go): the file server then
    sends that many bytes. *)
Definition short_ex : mem :=
  after [OMkdirAll (B"/") 493; OAdd (Path (B"app") (B"/a.txt")) her_ex (Details (B"a.txt") 2 420 t0 false JNull) (B"hello"); OOpen (B"/")].
Theorem C92_size_refuted :
  exists m r f fo, reachable here_parse m /\ m_heap m !! r = Some f /\ f_path f = Path (B"app") (B"/") /\ d_isdir (f_info f) = true /\
    file_at m (Path (B"app") (B"/a.txt")) = Some fo /\ f_data fo = B"hello" /\
    r_code (serve (mem_server here_parse t0 r) mime_ex sniff_ex (B"XX") 4 (get_of (B"/a.txt")) m).2 = 200%Z /\
    r_body (serve (mem_server here_parse t0 r) mime_ex sniff_ex (B"XX") 4 (get_of (B"/a.txt")) m).2 = B"he".
Proof.
  exists short_ex, 2, (FObj her_ex (Details [] 0 493 t0 true JNull) (Path (B"app") (B"/")) [] zero_path None None),
    (FObj her_ex (Details (B"a.txt") 2 420 t0 false JNull) (Path (B"app") (B"/a.txt")) (B"hello") zero_path None None).
  split; [apply reachable_run, reach_new|]. split; [by vm_compute|]. split; [done|]. split; [done|]. split; [by vm_compute|].
  split; [done|]. split; [by vm_compute|by vm_compute].
Qed.

(** The served directory itself answers to its own path: a file server on /a
    shows for /a/ what is in /a, not what is in /a/a (C55). *)
Definition twice_ex : mem := after [OMkdirAll (B"/a/a/in") 493; OOpen (B"/a")].
Theorem C94_own_path_refuted :
  exists m r f, reachable here_parse m /\ served m r f (B"app") [B"a"] /\
    named_below here_parse m (B"app") [B"a"; B"a"] /\
    (exists d, entry_at m (Path (B"app") (abs_name [B"a"; B"a"; B"in"])) d) /\
    asks_dir (get_of (B"/a/")) [B"a"] /\
    r_body (serve (mem_server here_parse t0 r) mime_ex sniff_ex (B"XX") 4 (get_of (B"/a/")) m).2 =
      B"<pre>" ++ [newline] ++ B"<a href=""a/"">a/</a>" ++ [newline] ++ B"</pre>" ++ [newline].
Proof.
  exists twice_ex, 3, (FObj her_ex (Details (B"a") 0 493 t0 true JNull) (Path (B"app") (B"/a")) [] zero_path None None).
  split; [apply reachable_run, reach_new|]. split.
  { split; [eapply reachable_wf, reachable_run, reach_new|apply (sized_run her_ex ((fun o => (t0, o)) <$> [OMkdirAll (B"/a/a/in") 493; OOpen (B"/a")])); cbn [fmap list_fmap]; honest_tac|by vm_compute|done|good_elems|done..]. }
  split.
  { apply (tree_checked _ _ _ _ [[B"a"]; [B"a"; B"a"]; [B"a"; B"a"; B"in"]]); [good_elems|by vm_compute]. }
  split; [eexists; by vm_compute|]. split; [split; by vm_compute|by vm_compute].
Qed.

Example C93_ex :
  let q r := Request false (B"/a.txt") [] r None in
  range_text [RFromTo 2 4; RLast 3] = B"bytes=2-4,-3" /\
  omap (wanted (B"hello world")) [RFromTo 2 4; RLast 3] = [(2, B"llo"); (8, B"rld")] /\
  ask (q (range_text [RFromTo 2 4])) =
    Response 206 (Headers (Some (B"text/plain")) (Some t9_text) (Some (B"3")) (Some (B"bytes 2-4/11")) (Some (B"bytes")) None None) (B"llo") /\
  ask (q (range_text [RFrom 6])) =
    Response 206 (Headers (Some (B"text/plain")) (Some t9_text) (Some (B"5")) (Some (B"bytes 6-10/11")) (Some (B"bytes")) None None) (B"world") /\
  r_code (ask (q (range_text [RFrom 11]))) = 416%Z /\
  r_body (ask (q (range_text [RFrom 1; RFrom 2]))) = B"hello world" /\
  r_body (ask (q (range_text [RFromTo 2 4; RLast 3]))) =
    B"--XX" ++ crlf ++ B"Content-Range: bytes 2-4/11" ++ crlf ++ B"Content-Type: text/plain" ++ crlf ++ crlf ++ B"llo" ++ crlf ++
    B"--XX" ++ crlf ++ B"Content-Range: bytes 8-10/11" ++ crlf ++ B"Content-Type: text/plain" ++ crlf ++ crlf ++ B"rld" ++ crlf ++
    B"--XX--" ++ crlf.
Proof. by vm_compute. Qed.

(** The last bytes of an empty file: net/http names a range that ends before
    it starts. *)
Theorem C93_empty_refuted :
  exists q fo, file_at hsite (Path (B"app") (abs_name [B"pub"; B"img"; B"b<1>"])) = Some fo /\ f_data fo = [] /\
    asks_file q [B"img"; B"b<1>"] /\ q_range q = range_text [RLast 5] /\
    r_code (ask q) = 206%Z /\ h_crange (r_headers (ask q)) = Some (B"bytes 0--1/0").
Proof.
  eexists (Request false (B"/img/b<1>") [] (B"bytes=-5") None), _. split; [by vm_compute|]. split; [done|].
  split; [split; [by vm_compute|split; by vm_compute]|]. by vm_compute.
Qed.

Example C96_ex :
  zero_time t9 = false /\
  ask (Request false (B"/a.txt") [] [] (Some 1579096800%Z)) =
    Response 304 (Headers None (Some t9_text) None None None None None) [] /\
  ask (Request false (B"/a.txt") [] [] (Some 1579096799%Z)) = ask (get_of (B"/a.txt")).
Proof. by vm_compute. Qed.

(** Without the words "in seconds" the claim fails: a file modified within the
    second of that date, after it, is answered with 304; and a file from the
    Unix epoch (isZeroTime) is never answered
    with 304. *)
Theorem C96_fraction_refuted :
  exists q since fo,
    q_since q = Some since /\ file_at hsite (Path (B"app") (B"/pub/a.txt")) = Some fo /\ asks_file q [B"a.txt"] /\
    t_sec (d_mtime (f_info fo)) = since /\ (0 < t_nsec (d_mtime (f_info fo)))%Z /\
    r_code (ask q) = 304%Z.
Proof.
  exists (Request false (B"/a.txt") [] [] (Some 1579096800%Z)), 1579096800%Z. eexists. split; [done|].
  split; [by vm_compute|]. by vm_compute.
Qed.

Theorem C96_epoch_refuted :
  exists m r f fo q since,
    served m r f (B"app") [B"pub"] /\ q_since q = Some since /\ asks_file q [B"a"] /\
    file_at m (Path (B"app") (B"/pub/a")) = Some fo /\ (t_sec (d_mtime (f_info fo)) < since)%Z /\
    r_code (serve (mem_server here_parse t0 r) mime_ex sniff_ex (B"XX") 4 q m).2 = 200%Z.
Proof.
  set (cs := (fun o => (t0, o)) <$> [OMkdirAll (B"/pub") 493; OCreate (B"/pub/a"); OWrite 2 (B"x"); OClose 2; OOpen (B"/pub")]).
  exists (run here_parse (mem_new her_ex) cs).1, 3. do 2 eexists. exists (Request false (B"/a") [] [] (Some 1579096800%Z)), 1579096800%Z.
  split; [|split; [done|split; [by vm_compute|split; [by vm_compute|by vm_compute]]]].
  split; [eapply reachable_wf, reachable_run, reach_new|apply (sized_run her_ex cs); unfold cs; cbn [fmap list_fmap]; honest_tac|by vm_compute|done|good_elems|done..].
Qed.

Definition hsite_names : list (list bytes) :=
  [[]; [B"pub"]; [B"pub"; B"a.txt"]; [B"pub"; B"docs"]; [B"pub"; B"docs"; B"index.html"]; [B"pub"; B"img"]; [B"pub"; B"img"; B"b<1>"];
   [B"pub"; B"img"; B"sub"]].

Example C94_ex :
  means here_parse (f_here hroot) (m_here hsite) (B"app") [B"pub"] [B"img"] /\
  means here_parse (f_here hroot) (m_here hsite) (B"app") [B"pub"] [B"img"; B"index.html"] /\
  asks_dir (get_of (B"/img/")) [B"img"] /\
  named_below here_parse hsite (B"app") [B"pub"; B"img"] /\
  page_text [(B"b<1>", false); (B"sub", true)] =
    B"<pre>" ++ [newline] ++ B"<a href=""b%3C1%3E"">b&lt;1&gt;</a>" ++ [newline] ++ B"<a href=""sub/"">sub/</a>" ++ [newline] ++ B"</pre>" ++ [newline] /\
  ask (get_of (B"/img/")) =
    Response 200 (Headers (Some (B"text/html; charset=utf-8")) (Some t9_text) None None None None None)
      (page_text [(B"b<1>", false); (B"sub", true)]) /\
  ask (get_of (B"/docs/")) =
    Response 200 (Headers (Some (B"text/html")) (Some t9_text) (Some (B"3")) None (Some (B"bytes")) None None) (B"<p>") /\
  ask (Request false (B"/img") (B"a=1") [] None) = Response 301 (Headers None None None None None (Some (B"img/?a=1")) None) [] /\
  ask (get_of (B"/a.txt/")) = Response 301 (Headers None None None None None (Some (B"../a.txt")) None) [] /\
  ask (get_of (B"/docs/index.html")) = Response 301 (Headers None None None None None (Some (B"./")) None) [].
Proof.
  split; [means_tac|]. split; [means_tac|]. split; [split; by vm_compute|]. split.
  { apply (tree_checked _ _ _ _ hsite_names); [good_elems|by vm_compute]. }
  by vm_compute.
Qed.

(** The page for /foo is missing the children of /foo when a sibling's name
    starts with "foo" and is listed before them (C21). *)
Definition clash_ex : mem := after [OMkdirAll (B"/w/foo") 493; OCreate (B"/w/foo-bar"); OOpen (B"/w")].
Theorem C94_prefix_refuted :
  exists m r f d, reachable here_parse m /\ served m r f (B"app") [B"w"] /\
    entry_at m (Path (B"app") (abs_name [B"w"; B"foo-bar"])) d /\
    r_code (serve (mem_server here_parse t0 r) mime_ex sniff_ex (B"XX") 4 (get_of (B"/")) m).2 = 200%Z /\
    r_body (serve (mem_server here_parse t0 r) mime_ex sniff_ex (B"XX") 4 (get_of (B"/")) m).2 =
      B"<pre>" ++ [newline] ++ B"<a href=""foo/"">foo/</a>" ++ [newline] ++ B"</pre>" ++ [newline].
Proof.
  exists clash_ex, 4, (FObj her_ex (Details (B"w") 0 493 t0 true JNull) (Path (B"app") (B"/w")) [] zero_path None None),
    (Details (B"foo-bar") 0 420 t0 false JNull).
  split; [apply reachable_run, reach_new|]. split.
  { split; [eapply reachable_wf, reachable_run, reach_new|apply (sized_run her_ex ((fun o => (t0, o)) <$> [OMkdirAll (B"/w/foo") 493; OCreate (B"/w/foo-bar"); OOpen (B"/w")])); cbn [fmap list_fmap]; honest_tac|by vm_compute|done|good_elems|done..]. }
  split; [by vm_compute|]. split; by vm_compute.
Qed.

(** One request, one file left open. *)
Theorem C97_refuted :
  exists fs d q, (serve (std_dir_server here_parse no_hp fs d) mime_ex sniff_ex (B"XX") 4 q (std_new her_ex, 0)).1.2 = 1 /\
    r_code (serve (std_dir_server here_parse no_hp fs d) mime_ex sniff_ex (B"XX") 4 q (std_new her_ex, 0)).2 = 200%Z.
Proof. exists pack_fs, (B"/img"), (get_of (B"/b.png")). by vm_compute. Qed.

Example C97_ex :
  match std_open here_parse no_hp pack_fs (std_new her_ex) (B"/img") with
  | (s, Ok f) =>
      (serve_all (std_server here_parse no_hp pack_fs f) mime_ex sniff_ex (B"XX") 4 [get_of (B"/b.png"); get_of (B"/"); get_of (B"/x")] (s, 1)).1.2 = 1 /\
      r_code <$> (serve_all (std_server here_parse no_hp pack_fs f) mime_ex sniff_ex (B"XX") 4 [get_of (B"/b.png"); get_of (B"/"); get_of (B"/x")] (s, 1)).2 =
        [200%Z; 200%Z; 404%Z]
  | _ => False
  end /\
  (serve_all (std_dir_server here_parse no_hp pack_fs (B"/img")) mime_ex sniff_ex (B"XX") 4
    [get_of (B"/b.png"); get_of (B"/"); get_of (B"/x")] (std_new her_ex, 0)).1.2 = 4.
Proof. by vm_compute. Qed.

Example C98_ex :
  means here_parse (f_here hroot) (m_here hsite) (B"app") [B"pub"] [B"img"; B"zz"] /\
  file_at hsite (Path (B"app") (abs_name [B"pub"; B"img"; B"zz"])) = None /\
  ask (get_of (B"/img/zz/")) = not_found (get_of (B"/img/zz/")).
Proof. split; [means_tac|]. by vm_compute. Qed.

(** Where http.Dir says 404, a name here.Parse cannot read gives 500 ... *)
Definition unreadable : bytes := B"/src/app::".
Theorem C98_unreadable_refuted :
  exists q, r_code (ask q) = 500%Z /\
    r_code (serve (dir_server pack_fs (B"/src/app")) mime_ex sniff_ex (B"XX") 4 q (tt, 0)).2 = 404%Z.
Proof. exists (get_of unreadable). by vm_compute. Qed.

(** ... a colon and all after it is taken off (here.Parse), so that a file is
    shown ... *)
Theorem C98_colon_refuted :
  exists q, file_at hsite (Path (B"app") (B"/pub" ++ q_path q)) = None /\
    r_code (ask q) = 200%Z /\ r_body (ask q) = B"hello world" /\
    r_code (serve (dir_server pack_fs (B"/src/app")) mime_ex sniff_ex (B"XX") 4 q (tt, 0)).2 = 404%Z.
Proof. exists (get_of (B"/a.txt:x")). by vm_compute. Qed.

(** ... and on disk 500 is also the answer for a name below a regular file. *)
Theorem C98_not_a_dir_refuted :
  exists fs f q, wf_node fs /\ (std_open here_parse no_hp fs (std_new her_ex) (B"/img")).2 = Ok f /\
    find fs (sf_os f ++ q_path q) = None /\
    r_code (serve (std_server here_parse no_hp fs f) mime_ex sniff_ex (B"XX") 4 q (std_new her_ex, 1)).2 = 500%Z /\
    r_code (serve (dir_server fs (sf_os f)) mime_ex sniff_ex (B"XX") 4 q (tt, 0)).2 = 404%Z.
Proof.
  eexists pack_fs, _, (get_of (B"/b.png/x")). split; [apply pack_wf|]. split; [by vm_compute|]. by vm_compute.
Qed.

Example C99_ex :
  let qs := [get_of (B"/a.txt"); get_of (B"/img/"); Request false (B"/a.txt") [] (B"bytes=-2") None; get_of (B"/a.txt")] in
  r_body <$> (serve_all (mem_server here_parse t0 13) mime_ex sniff_ex (B"XX") 4 qs hsite).2 =
    [B"hello world"; page_text [(B"b<1>", false); (B"sub", true)]; B"ld"; B"hello world"].
Proof. by vm_compute. Qed.
