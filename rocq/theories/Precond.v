(** Conditional requests: net/http's checkPreconditions (fs.go of Go 1.13,
    recalled from memory) in front of serveContent.

    Http.v knows If-Modified-Since only.  Here a request also carries If-Match,
    If-Unmodified-Since, If-None-Match and If-Range.  Simplified: entity tags
    are given read (scanETag), dates as seconds, so headers that cannot be read
    are not here.  Pkger sets no Etag header, so the tag of a file is empty. *)
From Verif Require Import Bytes GoPath Here GoTypes GoTimeFmt Mem Http HttpProofs.

(** If-Match and If-None-Match: absent, "*", a list of tags. *)
Inductive tags := NoTags | AnyTag | Tags (l : list bytes).
(** If-Range: absent, a tag, a date. *)
Inductive range_if := IfNone | IfTag (t : bytes) | IfDate (s : Z).

Record conds := Conds {
  k_match : tags;
  k_unmod : option Z;
  k_none : tags;
  k_range : range_if
}.
Definition no_conds : conds := Conds NoTags None NoTags IfNone.

Inductive cond := CNone | CTrue | CFalse.

(** The Etag header of the response: nobody sets one. *)
Definition own_tag : bytes := [].

(** etagStrongMatch, etagWeakMatch. *)
Definition strong_match (a b : bytes) : bool :=
  bool_decide (a = b) && match a with c :: _ => Ascii.eqb c """"%char | [] => false end.
Definition weak_tag (a : bytes) : bytes := if has_prefix a (B"W/") then drop 2 a else a.
Definition weak_match (a b : bytes) : bool := bool_decide (weak_tag a = weak_tag b).

(** checkIfMatch. *)
Definition check_match (k : conds) : cond :=
  match k_match k with
  | NoTags => CNone
  | AnyTag => CTrue
  | Tags l => if existsb (fun a => strong_match a own_tag) l then CTrue else CFalse
  end.
(** checkIfUnmodifiedSince. *)
Definition check_unmod (k : conds) (t : gotime) : cond :=
  match k_unmod k with
  | None => CNone
  | Some s => if zero_time t then CNone else if (t_sec t <? s + 1)%Z then CTrue else CFalse
  end.
(** checkIfNoneMatch. *)
Definition check_none (k : conds) : cond :=
  match k_none k with
  | NoTags => CNone
  | AnyTag => CFalse
  | Tags l => if existsb (fun a => weak_match a own_tag) l then CFalse else CTrue
  end.
(** checkIfRange; time.Time.IsZero is year 1. *)
Definition year_one (t : gotime) : bool := ((t_sec t =? - 86400 * unix_day) && (t_nsec t =? 0))%Z.
Definition check_range (k : conds) (t : gotime) : cond :=
  match k_range k with
  | IfNone => CNone
  | IfTag a => if strong_match a own_tag then CTrue else CFalse
  | IfDate s => if year_one t then CFalse else if (t_sec t =? s)%Z then CTrue else CFalse
  end.

(** checkPreconditions: done with 412 or 304, or go on with a Range header and
    an If-Modified-Since header (left out when If-None-Match takes its place;
    serveContent's own test of it comes first in Http.v). *)
Inductive verdict := Failed | NotChanged | Proceed (range : bytes) (since : option Z).
Definition check_conds (q : request) (k : conds) (t : gotime) : verdict :=
  let ch := match check_match k with CNone => check_unmod k t | x => x end in
  match ch with
  | CFalse => Failed
  | _ =>
      match check_none k with
      | CFalse => NotChanged
      | x =>
          let since := match x with CNone => q_since q | _ => None end in
          let range := match q_range q with
                       | [] => []
                       | r => match check_range k t with CFalse => [] | _ => r end
                       end in
          Proceed range since
      end
  end.

Definition with_conds (q : request) (range : bytes) (since : option Z) : request :=
  Request (q_head q) (q_path q) (q_query q) range since.

Section ServerK.
  Context {S H : Type} (F : hfs S H) (mime sniff : bytes -> bytes) (boundary : bytes) (bufsize : nat).

  (** serveContent. *)
  Definition content_k (q : request) (k : conds) (d : details) (s : S) (h : H) : S * response :=
    let hd := with_lastmod (lastmod_of (d_mtime d)) no_headers in
    match check_conds q k (d_mtime d) with
    | Failed => (s, Response 412 hd [])
    | NotChanged => (s, not_modified hd)
    | Proceed range since => serve_content F mime sniff boundary bufsize (with_conds q range since) d s h
    end.

  (** serveFile after the file was opened, as Http.serve_opened: for a page of a
      directory only If-Modified-Since counts. *)
  Definition opened_k (q : request) (k : conds) (name url : bytes) (s : S) (h : H) : S * response :=
    match o_stat F s h with
    | inr e => (s, to_http_error e)
    | inl d =>
        let dirurl := bool_decide (last url = Some slash) in
        if d_isdir d && negb dirurl then (s, redirect q (base url ++ [slash]))
        else if negb (d_isdir d) && dirurl then (s, redirect q (B"../" ++ base url))
        else if negb (d_isdir d) then content_k q k d s h
        else
          let '(s, ff) := o_open F s (trim_slash name ++ index_page) in
          let list_it (s : S) :=
            if unmodified q (d_mtime d) then (s, not_modified no_headers)
            else (s, dir_list F (with_lastmod (lastmod_of (d_mtime d)) no_headers) s h) in
          match ff with
          | inr _ => list_it s
          | inl h2 =>
              match o_stat F s h2 with
              | inr _ => let '(s, r) := list_it s in (o_close F s h2, r)
              | inl d2 =>
                  let '(s, r) :=
                    if d_isdir d2 then
                      if unmodified q (d_mtime d2) then (s, not_modified no_headers)
                      else (s, dir_list F (with_lastmod (lastmod_of (d_mtime d2)) no_headers) s h2)
                    else content_k q k d2 s h2 in
                  (o_close F s h2, r)
              end
          end
    end.

  (** fileHandler.ServeHTTP and serveFile. *)
  Definition serve_k (q : request) (k : conds) (s : S) : S * response :=
    let url := if has_prefix (q_path q) (B"/") then q_path q else slash :: q_path q in
    let name := clean url in
    let '(s, r) :=
      if has_suffix url index_page then (s, redirect q (B"./"))
      else
        match o_open F s name with
        | (s, inr e) => (s, to_http_error e)
        | (s, inl h) => let '(s, r) := opened_k q k name url s h in (o_close F s h, r)
        end in
    (s, shown_to q r).

  (** ** Proofs *)

  (** The request's file: its time, if it is answered with the content of one. *)
  Definition file_time (q : request) (s : S) : option gotime :=
    let url := url_of q in
    if has_suffix url index_page then None
    else
      match o_open F s (clean url) with
      | (_, inr _) => None
      | (s, inl h) =>
          match o_stat F s h with
          | inr _ => None
          | inl d =>
              if d_isdir d then
                if bool_decide (last url = Some slash) then
                  match o_open F s (trim_slash (clean url) ++ index_page) with
                  | (s, inl h2) => match o_stat F s h2 with inl d2 => if d_isdir d2 then None else Some (d_mtime d2) | _ => None end
                  | _ => None
                  end
                else None
              else if bool_decide (last url = Some slash) then None else Some (d_mtime d)
          end
      end.

  Lemma serve_k_none q s : serve_k q no_conds s = serve F mime sniff boundary bufsize q s.
  Proof.
    assert (E : forall d s h, content_k q no_conds d s h = serve_content F mime sniff boundary bufsize q d s h).
    { intros d s0 h. unfold content_k, check_conds. cbn. f_equal. unfold with_conds. destruct q as [a b c r e]. cbn. by destruct r. }
    unfold serve_k, serve. destruct (has_suffix _ _); [done|]. destruct (o_open F s _) as [s1 [h|e]]; [|done].
    assert (E2 : opened_k q no_conds (clean (if has_prefix (q_path q) (B"/") then q_path q else slash :: q_path q))
      (if has_prefix (q_path q) (B"/") then q_path q else slash :: q_path q) s1 h =
      serve_opened F mime sniff boundary bufsize q (clean (if has_prefix (q_path q) (B"/") then q_path q else slash :: q_path q))
      (if has_prefix (q_path q) (B"/") then q_path q else slash :: q_path q) s1 h); [|by rewrite E2].
    unfold opened_k, serve_opened. destruct (o_stat F s1 h) as [d|e]; [|done]. rewrite E.
    destruct (d_isdir d && _); [done|]. destruct (negb (d_isdir d) && _); [done|]. destruct (negb (d_isdir d)); [done|].
    destruct (o_open F s1 _) as [s2 [h2|e2]]; [|done]. destruct (o_stat F s2 h2) as [d2|e2]; [|done]. by rewrite E.
  Qed.

  (** The answer to a conditional request in terms of one without. *)
  Lemma serve_k_reduce q k s :
    (serve_k q k s).2 =
    match file_time q s with
    | None => (serve F mime sniff boundary bufsize q s).2
    | Some t =>
        let hd := with_lastmod (lastmod_of t) no_headers in
        match check_conds q k t with
        | Failed => Response 412 hd []
        | NotChanged => not_modified hd
        | Proceed range since => (serve F mime sniff boundary bufsize (with_conds q range since) s).2
        end
    end.
  Proof.
    assert (Hs : forall (r : response), r_body r = [] -> shown_to q r = r).
    { intros [c h b] E. cbn in E. subst b. unfold shown_to. by destruct (q_head q). }
    unfold serve_k, file_time, serve, url_of. cbn [with_conds q_path q_head].
    set (url := if has_prefix (q_path q) (B"/") then q_path q else slash :: q_path q).
    destruct (has_suffix url index_page) eqn:Ei; [done|].
    destruct (o_open F s (clean url)) as [s1 [h|e]] eqn:Eo; [|done].
    unfold opened_k, serve_opened. destruct (o_stat F s1 h) as [d|e] eqn:Es; [|done].
    destruct (d_isdir d) eqn:Ed; cbn [negb andb].
    - destruct (bool_decide (last url = Some slash)) eqn:El; cbn [negb]; [|done].
      destruct (o_open F s1 (trim_slash (clean url) ++ index_page)) as [s2 [h2|e2]] eqn:Eo2.
      2: { by destruct (unmodified q (d_mtime d)). }
      destruct (o_stat F s2 h2) as [d2|e2] eqn:Es2.
      2: { by destruct (unmodified q (d_mtime d)). }
      destruct (d_isdir d2) eqn:Ed2.
      { by destruct (unmodified q (d_mtime d2)). }
      unfold content_k. destruct (check_conds q k (d_mtime d2)) as [| |range since].
      + cbn [snd]. by rewrite Hs.
      + cbn [snd]. by rewrite Hs.
      + rewrite ?Eo2, ?Es2, ?Ed2.
        by destruct (serve_content F mime sniff boundary bufsize (with_conds q range since) d2 s2 h2).
    - destruct (bool_decide (last url = Some slash)) eqn:El; [done|].
      unfold content_k. destruct (check_conds q k (d_mtime d)) as [| |range since].
      + cbn [snd]. by rewrite Hs.
      + cbn [snd]. by rewrite Hs.
      + by destruct (serve_content F mime sniff boundary bufsize (with_conds q range since) d s1 h).
  Qed.

  (** The request's file on a file system that keeps to a site. *)
  Definition site_time (site : bytes -> opening) (q : request) : option gotime :=
    let url := url_of q in
    if has_suffix url index_page then None
    else match site (clean url) with
         | Missing _ => None
         | AFile d _ => if bool_decide (last url = Some slash) then None else Some (d_mtime d)
         | ADir _ _ =>
             if bool_decide (last url = Some slash) then
               match site (trim_slash (clean url) ++ index_page) with AFile d _ => Some (d_mtime d) | _ => None end
             else None
         end.
  Lemma file_time_site sz ok isfile isdir safe site q s :
    lawful F sz ok isfile isdir safe site -> ok s -> file_time q s = site_time site q.
  Proof.
    intros L Hok. unfold file_time, site_time. destruct (has_suffix _ _); [done|].
    destruct (lw_open _ _ _ _ _ _ _ L s (clean (url_of q)) Hok) as (s1 & x & -> & Hok1 & _ & Hx).
    destruct (site (clean (url_of q))) as [e|d data|d l].
    - by subst x.
    - destruct Hx as (h & -> & Hf & Hd & _). rewrite (lw_stat_file _ _ _ _ _ _ _ L _ _ _ _ _ Hf), Hd. done.
    - destruct Hx as (h & -> & Hf & Hd). rewrite (lw_stat_dir _ _ _ _ _ _ _ L _ _ _ _ Hf), Hd.
      destruct (bool_decide _); [|done].
      destruct (lw_open _ _ _ _ _ _ _ L s1 (trim_slash (clean (url_of q)) ++ index_page) Hok1) as (s2 & x & -> & _ & _ & Hx).
      destruct (site (trim_slash _ ++ _)) as [e|d2 data|d2 l2].
      + by subst x.
      + destruct Hx as (h2 & -> & Hf2 & Hd2 & _). by rewrite (lw_stat_file _ _ _ _ _ _ _ L _ _ _ _ _ Hf2), Hd2.
      + destruct Hx as (h2 & -> & Hf2 & Hd2). by rewrite (lw_stat_dir _ _ _ _ _ _ _ L _ _ _ _ Hf2), Hd2.
  Qed.
End ServerK.
