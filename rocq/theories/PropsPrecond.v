(** Theorems: conditional requests (C136) and resumed downloads (C137). *)
From Verif Require Import Bytes GoPath Here GoTypes GoNum GoTimeFmt Mem MemSpec MemBase Http HttpProofs HttpMem HttpRange PropsFiles PropsParser PropsHttp
  MarshalMem Marshal Embed Disk Decls Pack PropsPack DiskOps Std PropsStd HttpDisk PropsHttpSame Precond.

(** ** C136: conditional requests *)

(** An entity tag, as RFC 7232 writes it: quoted, perhaps marked weak. *)
Definition is_tag (a : bytes) : Prop := exists b, a = B"""" ++ b ++ B"""" \/ a = B"W/""" ++ b ++ B"""".
Definition tags_ok (x : tags) : Prop := match x with Tags l => Forall is_tag l | _ => True end.

(** RFC 7232 (section 6) for a file of date [lm], time [t], that has no entity
    tag: If-Match fails unless it is "*"; without it If-Unmodified-Since fails
    for a newer file. *)
Definition passes (k : conds) (t : gotime) (lm : option bytes) : Prop :=
  k_match k = AnyTag \/
  k_match k = NoTags /\ forall s, k_unmod k = Some s -> lm <> None -> (t_sec t <= s)%Z.
(** If-None-Match takes the place of If-Modified-Since. *)
Definition keeps_since (k : conds) (since since' : option Z) : Prop :=
  k_none k = NoTags /\ since' = since \/ k_none k <> NoTags /\ since' = None.
(** RFC 7233 (3.2): Range counts if the date of If-Range is the file's. *)
Definition fresh (k : conds) (t : gotime) : Prop :=
  k_range k = IfNone \/ k_range k = IfDate (t_sec t) /\ ~ (t_sec t = -62135596800 /\ t_nsec t = 0)%Z.   (* not the zero time *)
Definition keeps_range (k : conds) (t : gotime) (range range' : bytes) : Prop :=
  fresh k t /\ range' = range \/ ~ fresh k t /\ range' = [].

Lemma strong_none a : strong_match a own_tag = false.
Proof. unfold strong_match, own_tag. case_bool_decide as E; [by subst|done]. Qed.
Lemma weak_none a : is_tag a -> weak_match a own_tag = false.
Proof.
  intros [b [-> | ->]]; unfold weak_match, own_tag, weak_tag; apply bool_decide_eq_false_2.
  - cbn [app]. by destruct (has_prefix _ _) eqn:E.
  - done.
Qed.
Lemma existsb_none {A} (f : A -> bool) (l : list A) : Forall (fun a => f a = false) l -> existsb f l = false.
Proof. induction 1 as [|a l H _ IH]; [done|]. cbn. by rewrite H. Qed.

Lemma check_range_spec k t : match check_range k t with CFalse => ~ fresh k t | _ => fresh k t end.
Proof.
  unfold check_range, fresh. destruct (k_range k) as [|a|s]; [by left|rewrite strong_none; intros [?|[? _]]; done|].
  unfold year_one. change (- 86400 * unix_day)%Z with (-62135596800)%Z.
  destruct (Z.eqb_spec (t_sec t) (-62135596800)) as [E1|E1]; destruct (Z.eqb_spec (t_nsec t) 0) as [E2|E2]; cbn [andb].
  1: { intros [?|[_ H]]; [done|]. by apply H. }
  all: destruct (Z.eqb_spec (t_sec t) s) as [<-|E3]; [right; split; [done|]; by intros [??]|intros [?|[[= ->] _]]; done].
Qed.
Lemma check_pass_spec k t lm : lastmod_header t lm ->
  match (match check_match k with CNone => check_unmod k t | x => x end) with CFalse => ~ passes k t lm | _ => passes k t lm end.
Proof.
  intros Hl. unfold check_match, passes. destruct (k_match k) as [| |l].
  - unfold check_unmod. destruct (k_unmod k) as [s|]; [|right; by split].
    destruct Hl as [[Hz ->]|[Hz ->]]; rewrite Hz; [right; split; [done|]; intros s' _ []; done|].
    destruct (Z.ltb_spec (t_sec t) (s + 1)).
    + right. split; [done|]. intros s' [= <-] _. lia.
    + intros [?|[_ H1]]; [done|]. specialize (H1 s eq_refl ltac:(done)). lia.
  - by left.
  - rewrite existsb_none by (apply Forall_true; intros a; apply strong_none). intros [?|[? _]]; done.
Qed.
Lemma check_none_spec k : tags_ok (k_none k) ->
  match k_none k with NoTags => check_none k = CNone | AnyTag => check_none k = CFalse | Tags _ => check_none k = CTrue end.
Proof.
  unfold check_none. destruct (k_none k) as [| |l]; [done|done|]. intros Hn.
  rewrite existsb_none; [done|]. eapply Forall_impl; [exact Hn|]. intros a. apply weak_none.
Qed.

Lemma check_conds_spec q k t lm :
  tags_ok (k_none k) -> lastmod_header t lm ->
  (~ passes k t lm -> check_conds q k t = Failed) /\
  (passes k t lm -> k_none k = AnyTag -> check_conds q k t = NotChanged) /\
  (passes k t lm -> k_none k <> AnyTag -> forall range since, keeps_range k t (q_range q) range -> keeps_since k (q_since q) since ->
     check_conds q k t = Proceed range since).
Proof.
  intros Hn Hl. pose proof (check_pass_spec k t lm Hl) as HP. pose proof (check_none_spec k Hn) as HN. pose proof (check_range_spec k t) as HR.
  assert (HR' : forall range, keeps_range k t (q_range q) range ->
    match q_range q with [] => [] | r => match check_range k t with CFalse => [] | _ => r end end = range).
  { intros range Hr. unfold keeps_range in Hr. destruct (q_range q) as [|c x]; [by destruct Hr as [[_ ->]|[_ ->]]|].
    destruct (check_range k t); destruct Hr as [[Hf ->]|[Hf ->]]; done. }
  unfold check_conds. destruct (match check_match k with CNone => check_unmod k t | x => x end).
  3: { split; [done|]. split; intros; contradiction. }
  all: split; [intros; contradiction|]; split; [intros _ E; rewrite E in HN; by rewrite HN|].
  all: intros _ Hne range since Hr Hs; unfold keeps_since in Hs.
  all: destruct (k_none k) as [| |l]; [|done|]; rewrite HN; specialize (HR' range Hr); cbv zeta in HR' |- *; rewrite HR'; destruct Hs as [[Hs ->]|[Hs ->]]; done.
Qed.

Section Conditional.
  Context (parse : resolver) (now : gotime) (mime sniff : bytes -> bytes) (boundary : bytes) (bufsize : nat).

  (** A conditional request for a file of time [t] is answered as the RFCs say. *)
  Definition judged (m : mem) (r : ref) (q : request) (k : conds) (t : gotime) (lm : option bytes) : Prop :=
    let answer_to := (serve_k (mem_server parse now r) mime sniff boundary bufsize q k m).2 in
    (~ passes k t lm -> answer_to = Response 412 (Headers None lm None None None None None) []) /\
    (passes k t lm -> k_none k = AnyTag -> answer_to = Response 304 (Headers None lm None None None None None) []) /\
    (passes k t lm -> k_none k <> AnyTag -> forall range since, keeps_range k t (q_range q) range -> keeps_since k (q_since q) since ->
       answer_to = (serve (mem_server parse now r) mime sniff boundary bufsize (Request (q_head q) (q_path q) (q_query q) range since) m).2).
  Lemma judged_time m r q k t lm :
    file_time (mem_server parse now r) q m = Some t -> tags_ok (k_none k) -> lastmod_header t lm -> judged m r q k t lm.
  Proof.
    intros Et Hn Hl. destruct (check_conds_spec q k t lm Hn Hl) as (C1 & C2 & C3). apply lastmod_ok in Hl. unfold judged. rewrite serve_k_reduce, Et.
    split; [|split].
    - intros Hp. rewrite (C1 Hp), Hl. done.
    - intros Hp Hk. rewrite (C2 Hp Hk), Hl. done.
    - intros Hp Hk range since Hr Hs. by rewrite (C3 Hp Hk range since Hr Hs).
  Qed.

  (** Full claim: "A conditional request is answered as RFC 7232 and RFC 7233
      say for files without entity tags: 412 if If-Match names tags or the file
      is newer than If-Unmodified-Since; 304 for If-None-Match: *; otherwise like
      the request without the conditions, without If-Modified-Since if there is
      an If-None-Match, and without Range unless If-Range gives the file's
      date."  Proved under the hypotheses of C92. *)
  Theorem C136_conditions_partial m r f g ds q k ns fo lm :
    0 < bufsize -> served m r f g ds ->
    means parse (f_here f) (m_here m) g ds ns -> ns <> ds -> asks_file q ns ->
    file_at m (Path g (abs_name (ds ++ ns))) = Some fo -> d_isdir (f_info fo) = false ->
    tags_ok (k_none k) -> lastmod_header (d_mtime (f_info fo)) lm ->
    judged m r q k (d_mtime (f_info fo)) lm.
  Proof.
    intros Hb SV Hm Hne (H1 & H2 & H3) Hf Hd Hn Hl. apply judged_time; [|done|done].
    pose proof SV as [S1 S2 S3 S4 S5 S6 S7 S8]. destruct (mem_server_lawful parse now m r f) as [L Hok]; [done..|].
    rewrite (file_time_site _ _ _ _ _ _ _ q m L Hok). unfold site_time.
    rewrite H3, H1, (site_at parse m r f g ds SV ns Hm Hne), Hf, Hd. by rewrite bool_decide_eq_false_2.
  Qed.
  (** The page of a directory that has an index.html (C94). *)
  Theorem C136_index_partial m r f g ds q k ns d fo lm :
    0 < bufsize -> served m r f g ds ->
    means parse (f_here f) (m_here m) g ds ns -> means parse (f_here f) (m_here m) g ds (ns ++ [B"index.html"]) ->
    ns ++ [B"index.html"] <> ds -> asks_dir q ns -> shows_dir m f g ds ns d ->
    file_at m (Path g (abs_name (ds ++ ns ++ [B"index.html"]))) = Some fo -> d_isdir (f_info fo) = false ->
    tags_ok (k_none k) -> lastmod_header (d_mtime (f_info fo)) lm ->
    judged m r q k (d_mtime (f_info fo)) lm.
  Proof.
    intros Hb SV Hm Hi Hie Hq Hsd Hf Hd Hn Hl. apply judged_time; [|done|done].
    pose proof SV as [S1 S2 S3 S4 S5 S6 S7 S8]. destruct (mem_server_lawful parse now m r f) as [L Hok]; [done..|].
    destruct (site_shows _ _ _ _ _ _ _ _ SV Hm Hsd) as (e & E & _).
    rewrite (file_time_site _ _ _ _ _ _ _ q m L Hok). unfold site_time. rewrite (asks_dir_index q ns Hq). destruct Hq as [Hq1 Hq2].
    rewrite Hq1, E, Hq2, bool_decide_eq_true_2, trim_slash_abs by (done || apply Hm). by rewrite (site_at parse m r f g ds SV _ Hi Hie), Hf, Hd.
  Qed.
  (** Conditions do not count for redirects and for pages made from the names
      in a directory. *)
  Theorem C136_pages_partial m r f g ds q k ns :
    0 < bufsize -> served m r f g ds -> means parse (f_here f) (m_here m) g ds ns ->
    (exists d, asks_file q ns /\ shows_dir m f g ds ns d) \/
    (exists fo, asks_dir q ns /\ ns <> ds /\ file_at m (Path g (abs_name (ds ++ ns))) = Some fo /\ d_isdir (f_info fo) = false) \/
    has_suffix (url_of q) (B"/index.html") = true \/
    (exists d, asks_dir q ns /\ shows_dir m f g ds ns d /\ means parse (f_here f) (m_here m) g ds (ns ++ [B"index.html"]) /\
       ns ++ [B"index.html"] <> ds /\ file_at m (Path g (abs_name (ds ++ ns ++ [B"index.html"]))) = None) ->
    (serve_k (mem_server parse now r) mime sniff boundary bufsize q k m).2 = (serve (mem_server parse now r) mime sniff boundary bufsize q m).2.
  Proof.
    intros Hb SV Hm Hcase. rewrite serve_k_reduce.
    assert (Et : file_time (mem_server parse now r) q m = None); [|by rewrite Et].
    pose proof SV as [S1 S2 S3 S4 S5 S6 S7 S8]. destruct (mem_server_lawful parse now m r f) as [L Hok]; [done..|].
    rewrite (file_time_site _ _ _ _ _ _ _ q m L Hok). unfold site_time.
    destruct Hcase as [(d & (Hq1 & Hq2 & Hq3) & Hd)|[(fo & Hq & Hne & Hf & Hd)|[Hq|(d & Hq & Hd & Hi & Hie & Hno)]]].
    - destruct (site_shows _ _ _ _ _ _ _ _ SV Hm Hd) as (e & E & _). by rewrite Hq3, Hq1, E, bool_decide_eq_false_2.
    - rewrite (asks_dir_index q ns Hq). destruct Hq as [Hq1 Hq2].
      by rewrite Hq1, (site_at parse m r f g ds SV ns Hm Hne), Hf, Hd, Hq2, bool_decide_eq_true_2.
    - unfold index_page. by rewrite Hq.
    - destruct (site_shows _ _ _ _ _ _ _ _ SV Hm Hd) as (e & E & _). rewrite (asks_dir_index q ns Hq). destruct Hq as [Hq1 Hq2].
      rewrite Hq1, E, Hq2, bool_decide_eq_true_2, trim_slash_abs by (done || apply Hm). by rewrite (site_at parse m r f g ds SV _ Hi Hie), Hno.
  Qed.

  (** Without conditions it is the request of Http.v; and conditions do not
      count where nothing is found. *)
  Theorem C136_none q m r : serve_k (mem_server parse now r) mime sniff boundary bufsize q no_conds m = serve (mem_server parse now r) mime sniff boundary bufsize q m.
  Proof. apply serve_k_none. Qed.
  Theorem C136_missing_partial m r f g ds q k ns :
    0 < bufsize -> served m r f g ds -> means parse (f_here f) (m_here m) g ds ns -> ns <> ds ->
    clean (url_of q) = abs_name ns -> has_suffix (url_of q) (B"/index.html") = false ->
    file_at m (Path g (abs_name (ds ++ ns))) = None ->
    (serve_k (mem_server parse now r) mime sniff boundary bufsize q k m).2 = not_found q.
  Proof.
    intros Hb SV Hm Hne H1 H3 Hf. rewrite serve_k_reduce.
    assert (Et : file_time (mem_server parse now r) q m = None).
    { pose proof SV as [S1 S2 S3 S4 S5 S6 S7 S8]. destruct (mem_server_lawful parse now m r f) as [L Hok]; [done..|].
      rewrite (file_time_site _ _ _ _ _ _ _ q m L Hok). unfold site_time, index_page.
      by rewrite H3, H1, (site_at parse m r f g ds SV ns Hm Hne), Hf. }
    rewrite Et. by eapply C98_missing_partial.
  Qed.
End Conditional.

(** Two file systems that show the same answer conditional requests alike. *)
Lemma site_time_same site site' q :
  same_opening (site (clean (url_of q))) (site' (clean (url_of q))) ->
  same_opening (site (trim_slash (clean (url_of q)) ++ index_page)) (site' (trim_slash (clean (url_of q)) ++ index_page)) ->
  site_time site q = site_time site' q.
Proof.
  intros H1 H2. unfold site_time. destruct (has_suffix _ _); [done|].
  destruct (site (clean (url_of q))) as [e|d data|d l], (site' (clean (url_of q))) as [e'|d' data'|d' l']; try done.
  - by destruct H1 as [-> _].
  - destruct (bool_decide _); [|done].
    destruct (site (trim_slash _ ++ _)) as [e|d2 data|d2 l2], (site' (trim_slash _ ++ _)) as [e'|d2' data'|d2' l2']; try done.
    by destruct H2 as [-> _].
Qed.
Lemma serve_k_same {S H S' H'} (F : hfs S H) (F' : hfs S' H') mime sniff boundary bufsize
    ok isf isd safe site ok' isf' isd' safe' site' q k s s' :
  lawful F full_size ok isf isd safe site -> lawful F' full_size ok' isf' isd' safe' site' -> 0 < bufsize -> ok s -> ok' s' ->
  same_opening (site (clean (url_of q))) (site' (clean (url_of q))) ->
  same_opening (site (trim_slash (clean (url_of q)) ++ index_page)) (site' (trim_slash (clean (url_of q)) ++ index_page)) ->
  (serve_k F mime sniff boundary bufsize q k s).2 = (serve_k F' mime sniff boundary bufsize q k s').2.
Proof.
  intros L L' Hb Ho Ho' H1 H2.
  assert (HS : forall range since, (serve F mime sniff boundary bufsize (with_conds q range since) s).2 =
    (serve F' mime sniff boundary bufsize (with_conds q range since) s').2).
  { intros range since.
    destruct (serve_answer F mime sniff boundary bufsize ok isf isd safe site L Hb (with_conds q range since) s Ho) as (s1 & -> & _).
    destruct (serve_answer F' mime sniff boundary bufsize ok' isf' isd' safe' site' L' Hb (with_conds q range since) s' Ho') as (s2 & -> & _).
    cbn [snd]. by apply answer_same. }
  rewrite !serve_k_reduce, (file_time_site F full_size ok isf isd safe site q s L Ho), (file_time_site F' full_size ok' isf' isd' safe' site' q s' L' Ho').
  rewrite (site_time_same site site' q H1 H2).
  destruct (site_time site' q) as [t|].
  - cbv zeta. destruct (check_conds q k t); [done|done|apply HS].
  - specialize (HS (q_range q) (q_since q)). by destruct q.
Qed.

(** Full claim: "A conditional request is answered by the packed pkger as by
    http.Dir of the directory it was packed from."  Proved under the hypotheses
    of C95_same. *)
Theorem C136_same_partial gz gunzip parse hdir hpkg fs c rs mp rg uorder order decls l b now mime sniff boundary bufsize ds name :
  packing gz gunzip parse hdir hpkg fs c rs mp rg uorder ->
  files parse hdir fs order decls = Ok l -> Pack.inside rs l ->
  stuff parse hdir hpkg fs gz rg order c decls = Ok b ->
  packed_dir fs rs (pf_abs <$> l) ds -> 0 < bufsize ->
  parse c name = Some (Path mp (abs_name ds)) ->
  exists m' m1 r, unmarshal_embed gunzip parse uorder b = Done m' /\ open parse m' name = (m1, Ok r) /\
    forall q k ns, plain_request parse hdir hpkg c mp ds q ns ->
      (serve_k (mem_server parse now r) mime sniff boundary bufsize q k m1).2 =
      (serve_k (dir_server fs (abs_name (rs ++ ds))) mime sniff boundary bufsize q k (tt, 0)).2.
Proof.
  intros Hp Hl Hin Hs HPD Hb Hn.
  destruct (same_sites gz gunzip parse hdir hpkg fs c rs mp rg uorder order decls l b ds name Hp Hl Hin Hs HPD Hn) as (m' & m1 & r & f1 & Hu & Ho & SV & _ & _ & Hsame).
  exists m', m1, r. split; [done|]. split; [done|]. intros q k ns Hq. destruct (Hsame q ns Hq) as [H1 H2].
  destruct (mem_server_lawful parse now m1 r f1) as [L1 Hok1]; [apply SV..|].
  eapply serve_k_same; [exact L1|exact (dir_server_lawful fs (abs_name (rs ++ ds)))|done|done|exact I|done|done].
Qed.

(** "/img/b.png" of the packed tree: asked for with conditions. *)
Definition img_ks : list conds :=
  [no_conds; Conds (Tags [B"""v1"""]) None NoTags IfNone; Conds NoTags (Some 0%Z) NoTags IfNone; Conds NoTags None AnyTag IfNone;
   Conds NoTags None NoTags (IfDate 5)].
Example C136_same_ex :
  packed_dir pack_fs wit_rs (pf_abs <$> img_l) [B"img"] /\
  (exists ns, plain_request here_parse wit_hdir wit_hdir her_ex (B"app") [B"img"] (get_of (B"/b.png")) ns) /\
  ((fun k => r_code (serve_k (dir_server pack_fs (B"/src/app/img")) mime_ex sniff_ex (B"XX") 4 (get_of (B"/b.png")) k (tt, 0)).2) <$> img_ks =
     [200; 412; 412; 304; 200]%Z) /\
  packs wit_hdir wit_hdir pack_fs her_ex pack_ds (fun m' =>
    match open here_parse m' (B"/img") with
    | (m1, Ok r) =>
        (fun k => (serve_k (mem_server here_parse t0 r) mime_ex sniff_ex (B"XX") 4 (get_of (B"/b.png")) k m1).2) <$> img_ks =
        (fun k => (serve_k (dir_server pack_fs (B"/src/app/img")) mime_ex sniff_ex (B"XX") 4 (get_of (B"/b.png")) k (tt, 0)).2) <$> img_ks
    | _ => False
    end).
Proof.
  split; [apply img_packed_dir|]. split; [exact (List.Forall_inv img_plain)|]. split; [by vm_compute|].
  apply packs_intro. by vm_compute.
Qed.

(** ** C137: resumed downloads *)

(** A client that has the first bytes of an older version asks for the rest,
    giving the date of its version; what it then has. *)
Definition resume (path : bytes) (n : nat) : request := Request false path [] (range_text [RFrom n]) None.
Definition if_range (date : Z) : conds := Conds NoTags None NoTags (IfDate date).
Definition assembled (have : bytes) (x : response) : option bytes :=
  if bool_decide (r_code x = 206%Z) then Some (have ++ r_body x)
  else if bool_decide (r_code x = 200%Z) then Some (r_body x) else None.

(** Full claim: "Resuming a download with If-Range yields the file as it is now,
    whatever version the first part came from."  Refuted: dates are compared by
    the second.  Proved if versions of one second are the same. *)
Theorem C137_resume_partial parse now mime sniff boundary bufsize m r f g ds path ns fo (old : bytes) (told : gotime) n :
  0 < bufsize -> served m r f g ds ->
  means parse (f_here f) (m_here m) g ds ns -> ns <> ds -> asks_file (resume path n) ns ->
  file_at m (Path g (abs_name (ds ++ ns))) = Some fo -> d_isdir (f_info fo) = false ->
  n < length old -> small n -> t_sec told <> (-62135596800)%Z ->
  (t_sec (d_mtime (f_info fo)) = t_sec told -> f_data fo = old) ->
  assembled (take n old) (serve_k (mem_server parse now r) mime sniff boundary bufsize (resume path n) (if_range (t_sec told)) m).2 = Some (f_data fo).
Proof.
  intros Hb SV Hm Hne Hq Hf Hd Hn Hsm H1 Hv.
  set (t := d_mtime (f_info fo)) in *.
  destruct (C136_conditions_partial parse now mime sniff boundary bufsize m r f g ds (resume path n) (if_range (t_sec told)) ns fo (lastmod_of t))
    as (_ & _ & HC); [done..|by apply lastmod_ok|].
  assert (Hpass : passes (if_range (t_sec told)) t (lastmod_of t)) by (by right).
  assert (Hlm : lastmod_header t (lastmod_of t)) by (by apply lastmod_ok).
  pose proof (type_of_media mime sniff (f_info fo) (f_data fo)) as Hmt.
  destruct (decide (t_sec t = t_sec told)) as [E|E].
  - rewrite (HC Hpass ltac:(done) (range_text [RFrom n]) None).
    2: { left. split; [|done]. right. fold t. rewrite E. split; [done|]. intros [? _]. by apply H1. }
    2: { by left. }
    specialize (Hv E).
    change (assembled (take n old) (serve (mem_server parse now r) mime sniff boundary bufsize (resume path n) m).2 = Some (f_data fo)).
    pose proof (C93_range_partial parse now mime sniff boundary bufsize m r f g ds (resume path n) ns fo (type_of mime sniff (f_info fo) (f_data fo)) (lastmod_of t) [RFrom n] Hb SV Hm Hne Hq Hf Hd) as H93.
    cbv zeta in H93. rewrite H93; [|by rewrite Hv; destruct old; [cbn in Hn; lia|]|done|by apply List.Forall_cons; [|apply List.Forall_nil]|done|done|done|exact Hmt|exact Hlm].
    cbn [omap list_omap wanted]. rewrite Hv, decide_True by done. unfold assembled. cbn [r_code r_body snd].
    rewrite bool_decide_eq_true_2 by done. by rewrite take_drop.
  - rewrite (HC Hpass ltac:(done) [] None).
    2: { right. split; [|done]. intros [?|[[= ?] _]]; [done|]. by apply E. }
    2: { by left. }
    change (assembled (take n old) (serve (mem_server parse now r) mime sniff boundary bufsize (Request false path [] [] None) m).2 = Some (f_data fo)).
    rewrite (C92_get_partial parse now mime sniff boundary bufsize m r f g ds (Request false path [] [] None) ns fo (type_of mime sniff (f_info fo) (f_data fo)) (lastmod_of t) Hb SV Hm Hne Hq Hf Hd eq_refl eq_refl Hmt Hlm).
    done.
Qed.

(** The site of C92_ex: "/a.txt" holds "hello world" since [t9]. *)
Definition ask_k (q : request) (k : conds) : response := (serve_k (mem_server here_parse t0 13) mime_ex sniff_ex (B"XX") 4 q k hsite).2.
Example C136_ex :
  asks_file (get_of (B"/a.txt")) [B"a.txt"] /\
  let gone code := Response code (Headers None (Some t9_text) None None None None None) [] in
  let whole := ask (get_of (B"/a.txt")) in
  r_body whole = B"hello world" /\
  ask_k (get_of (B"/a.txt")) (Conds (Tags [B"""v1"""]) None NoTags IfNone) = gone 412%Z /\
  ask_k (get_of (B"/a.txt")) (Conds AnyTag (Some 0%Z) NoTags IfNone) = whole /\
  ask_k (get_of (B"/a.txt")) (Conds NoTags (Some (t_sec t9 - 1)%Z) NoTags IfNone) = gone 412%Z /\
  ask_k (get_of (B"/a.txt")) (Conds NoTags (Some (t_sec t9)) NoTags IfNone) = whole /\
  ask_k (get_of (B"/a.txt")) (Conds NoTags None AnyTag IfNone) = gone 304%Z /\
  ask_k (Request false (B"/a.txt") [] [] (Some (t_sec t9))) (Conds NoTags None (Tags [B"W/""v1"""]) IfNone) = whole /\
  ask_k (Request false (B"/a.txt") [] [] (Some (t_sec t9))) no_conds = gone 304%Z /\
  ask_k (resume (B"/a.txt") 6) (if_range (t_sec t9 - 1)) = whole /\
  r_body (ask_k (resume (B"/a.txt") 6) (if_range (t_sec t9))) = B"world" /\
  ask_k (resume (B"/a.txt") 6) (Conds NoTags None NoTags (IfTag (B"""v1"""))) = whole /\
  ask_k (get_of (B"/docs/")) (Conds NoTags None AnyTag IfNone) = gone 304%Z /\
  ask_k (get_of (B"/img/")) (Conds (Tags [B"""v1"""]) None AnyTag IfNone) = ask (get_of (B"/img/")) /\
  ask_k (get_of (B"/img")) (Conds (Tags [B"""v1"""]) None AnyTag IfNone) = ask (get_of (B"/img")).
Proof. split; [split; [by vm_compute|split; by vm_compute]|]. vm_compute. split_and!; done. Qed.

Example C137_ex :
  served hsite 13 hroot (B"app") [B"pub"] /\ means here_parse (f_here hroot) (m_here hsite) (B"app") [B"pub"] [B"a.txt"] /\
  asks_file (resume (B"/a.txt") 6) [B"a.txt"] /\
  assembled (B"hello ") (ask_k (resume (B"/a.txt") 6) (if_range (t_sec t9))) = Some (B"hello world") /\
  assembled (B"HALLO ") (ask_k (resume (B"/a.txt") 6) (if_range (t_sec t9 - 60))) = Some (B"hello world").
Proof.
  split; [apply hsite_served|]. split; [means_tac|]. split; [split; [by vm_compute|split; by vm_compute]|]. by vm_compute.
Qed.

(** An older version of the same second: the client ends up with half of each. *)
Theorem C137_mixed_refuted :
  exists m r f ns fo old told n path,
    served m r f (B"app") [B"pub"] /\ means here_parse (f_here f) (m_here m) (B"app") [B"pub"] ns /\ asks_file (resume path n) ns /\
    file_at m (Path (B"app") (abs_name ([B"pub"] ++ ns))) = Some fo /\ d_isdir (f_info fo) = false /\ n < length old /\
    t_sec told = t_sec (d_mtime (f_info fo)) /\ (t_nsec told < t_nsec (d_mtime (f_info fo)))%Z /\
    exists x, assembled (take n old) (serve_k (mem_server here_parse t0 r) mime_ex sniff_ex (B"XX") 4 (resume path n) (if_range (t_sec told)) m).2 = Some x /\
      x <> old /\ x <> f_data fo.
Proof.
  eexists hsite, 13, hroot, [B"a.txt"], _, (B"HALLO WELT!"), (GoTime (t_sec t9) 4 0), 6, (B"/a.txt").
  split; [apply hsite_served|]. split; [means_tac|]. split; [split; [by vm_compute|split; by vm_compute]|].
  split; [by vm_compute|]. split; [done|]. split; [cbn; lia|]. split; [done|]. split; [done|].
  exists (B"HALLO world"). split; [by vm_compute|]. by split.
Qed.
