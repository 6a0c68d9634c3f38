(** Requests to the file server as goroutines: net/http serves every request in
    a goroutine of its own (server.go, Server.Serve), so several of them use one
    File of the in-memory pkger at the same time.

    [serve_w] is Precond.v's [serve_k] (Http.v's [serve] with conditions) as a tree of calls (Share.v): the handles it
    opens are its own, the directory is shared.  [serve_alone]: with nobody else
    around it is [serve_k]. *)
From Verif Require Import Bytes GoPath Here GoTypes GoNum GoTimeFmt Mem MemSpec MemBase Conc PropsSerial Share ShareRead Http HttpProofs Precond.

Section Requests.
  Context (parse : resolver) (now : gotime) (cand : mem -> list path).
  Context (mime sniff : bytes -> bytes) (boundary : bytes) (bufsize : nat).
  Context (wopen : bytes -> worker (ref + ferr)).            (* the Open of the http.FileSystem *)

  Definition w_stat (j : ref) : worker (details + ferr) :=
    WAsk (AInfo j) (fun y => WDone (match y with Shown (Some d) => inl d | _ => inr FOther end)).
  Definition w_list (j : ref) : worker (option (list details)) :=
    WAsk (AOp now cand (OReaddir j (-1))) (fun y => WDone (match y with Got (RInfos l None) => Some l | _ => None end)).
  Definition w_read (j : ref) (n : nat) : worker (bytes * option gerr) :=
    WAsk (AOp now cand (ORead j n)) (fun y => WDone (match y with Got (RBytes b e) => (b, e) | _ => ([], Some EBadHandle) end)).
  Definition w_seek (j : ref) (off : Z) : worker bool :=
    WAsk (AOp now cand (OSeek j off 0)) (fun y => WDone (match y with Got (RNum _ None) => true | _ => false end)).
  Definition w_close (j : ref) : worker () := WAsk (AOp now cand (OClose j)) (fun _ => WDone ()).

  (** Http.copy_n. *)
  Fixpoint copy_w (fuel : nat) (buf : nat) (j : ref) (left : nat) : worker bytes :=
    match fuel, left with
    | O, _ | _, O => WDone []
    | Datatypes.S fuel, _ =>
        wbind (w_read j (Nat.min buf left))
          (fun x => match x.2 with
                    | Some _ => WDone x.1
                    | None => wbind (copy_w fuel buf j (left - length x.1)) (fun b' => WDone (x.1 ++ b'))
                    end)
    end.

  (** Http.write_parts. *)
  Fixpoint parts_w (first : bool) (ctype : bytes) (size : Z) (j : ref) (l : list hrange) : worker bytes :=
    match l with
    | [] => WDone (parts_end boundary)
    | r :: l =>
        let hd := part_header boundary first ctype r size in
        wbind (w_seek j (g_start r))
          (fun ok : bool =>
             if ok then
               let n := Z.to_nat (g_len r) in
               wbind (copy_w (1 + n) bufsize j n)
                 (fun b => if Nat.ltb (length b) n then WDone (hd ++ b)
                           else wbind (parts_w false ctype size j l) (fun rest => WDone (hd ++ b ++ rest)))
             else WDone hd)
    end.

  (** Http.serve_content. *)
  Definition content_w (q : request) (d : details) (j : ref) : worker response :=
    let hd := with_lastmod (lastmod_of (d_mtime d)) no_headers in
    if unmodified q (d_mtime d) then WDone (not_modified hd)
    else
      wbind (match mime (path_ext (d_name d)) with
             | [] => wbind (copy_w 513 512 j 512) (fun b => wbind (w_seek j 0) (fun ok => WDone (sniff b, ok)))
             | t => WDone (t, true)
             end)
        (fun '(ctype, ok) =>
           if negb ok then WDone (http_error hd (B"seeker can't seek") 500)
           else
             let hd := with_ctype (Some ctype) hd in
             let size := d_size d in
             if (size <? 0)%Z then
               WDone (Response 200 (Headers (Some ctype) (h_lastmod hd) None None None None None) [])
             else
             match parse_range (q_range q) size with
             | RInvalid => WDone (http_error hd (B"invalid range") 416)
             | RNoOverlap => WDone (http_error (with_crange (Some (B"bytes */" ++ dec_z size)) hd)
                                      (B"invalid range: failed to overlap") 416)
             | RGood l =>
                 let l := if (size <? sum_len l)%Z then [] else l in
                 let finish (code : Z) (ct cr : option bytes) (n : Z) (body : bytes) :=
                   WDone (Response code (Headers ct (h_lastmod hd) (Some (dec_z n)) cr (Some (B"bytes")) None None)
                            (if q_head q then [] else body)) in
                 match l with
                 | [] =>
                     let n := Z.to_nat size in
                     wbind (if q_head q then WDone ([] : bytes) else copy_w (1 + n) bufsize j n)
                       (fun b => finish 200%Z (Some ctype) None size b)
                 | [r] =>
                     wbind (w_seek j (g_start r))
                       (fun ok : bool =>
                          if ok then
                            let n := Z.to_nat (g_len r) in
                            wbind (if q_head q then WDone ([] : bytes) else copy_w (1 + n) bufsize j n)
                              (fun b => finish 206%Z (Some ctype) (Some (content_range r size)) (g_len r) b)
                          else WDone (http_error hd (B"seek failed") 416))
                 | _ =>
                     let n := parts_size boundary true ctype size l in
                     wbind (parts_w true ctype size j l)
                       (fun b => finish 206%Z (Some (B"multipart/byteranges; boundary=" ++ boundary)) None n (take (Z.to_nat n) b))
                 end
             end).

  (** Precond.content_k. *)
  Definition content_kw (q : request) (k : conds) (d : details) (j : ref) : worker response :=
    let hd := with_lastmod (lastmod_of (d_mtime d)) no_headers in
    match check_conds q k (d_mtime d) with
    | Precond.Failed => WDone (Response 412 hd [])
    | NotChanged => WDone (not_modified hd)
    | Proceed range since => content_w (with_conds q range since) d j
    end.

  (** Http.dir_list. *)
  Definition dir_w (hd : headers) (j : ref) : worker response :=
    wbind (w_list j)
      (fun x => WDone (match x with
                       | None => http_error hd (B"Error reading directory") 500
                       | Some l => Response 200 (with_ctype (Some (B"text/html; charset=utf-8")) hd) (list_page l)
                       end)).

  (** Precond.opened_k. *)
  Definition opened_w (q : request) (k : conds) (name url : bytes) (j : ref) : worker response :=
    wbind (w_stat j)
      (fun x => match x with
         | inr e => WDone (to_http_error e)
         | inl d =>
             let dirurl := bool_decide (last url = Some slash) in
             if d_isdir d && negb dirurl then WDone (redirect q (base url ++ [slash]))
             else if negb (d_isdir d) && dirurl then WDone (redirect q (B"../" ++ base url))
             else if negb (d_isdir d) then content_kw q k d j
             else
               wbind (wopen (trim_slash name ++ index_page))
                 (fun ff =>
                    let list_it :=
                      if unmodified q (d_mtime d) then WDone (not_modified no_headers)
                      else dir_w (with_lastmod (lastmod_of (d_mtime d)) no_headers) j in
                    match ff with
                    | inr _ => list_it
                    | inl j2 =>
                        wbind (w_stat j2)
                          (fun x2 =>
                             wbind (match x2 with
                                    | inr _ => list_it
                                    | inl d2 =>
                                        if d_isdir d2 then
                                          if unmodified q (d_mtime d2) then WDone (not_modified no_headers)
                                          else dir_w (with_lastmod (lastmod_of (d_mtime d2)) no_headers) j2
                                        else content_kw q k d2 j2
                                    end)
                               (fun r => wbind (w_close j2) (fun _ => WDone r)))
                    end)
         end).

  (** Precond.serve_k. *)
  Definition serve_w (q : request) (k : conds) : worker response :=
    let url := if has_prefix (q_path q) (B"/") then q_path q else slash :: q_path q in
    let name := clean url in
    wbind (if has_suffix url index_page then WDone (redirect q (B"./"))
           else
             wbind (wopen name)
               (fun x => match x with
                  | inr e => WDone (to_http_error e)
                  | inl j => wbind (opened_w q k name url j) (fun r => wbind (w_close j) (fun _ => WDone r))
                  end))
      (fun r => WDone (shown_to q r)).

  (** ** With nobody else around *)

  Context (good : list ref -> Prop) (open : mem -> bytes -> mem * (ref + ferr)).
  Hypothesis good_more : forall hs l, good hs -> good (hs ++ l).
  Hypothesis Hopen : forall m hs name, good hs -> exists l,
    match worker_run parse m hs (wopen name) with
    | (m', hs', inl j) => hs' = hs ++ l /\ exists h, open m name = (m', inl h) /\ hs' !! j = Some h
    | (m', hs', inr e) => hs' = hs ++ l /\ open m name = (m', inr e)
    end.
  Notation F := (mem_hfs parse now open).

  Lemma run_stat m hs (j : ref) h : hs !! j = Some h -> worker_run parse m hs (w_stat j) = (m, hs, o_stat F m h).
  Proof. intros E. cbn. rewrite E. cbn. by destruct (info_at m h). Qed.
  Lemma run_list m hs (j : ref) h : hs !! j = Some h -> worker_run parse m hs (w_list j) = (m, hs, o_list F m h).
  Proof. intros E. cbn. rewrite E. cbn. by destruct (readdir parse m h (-1)) as [l [e|]]. Qed.
  Lemma run_read m hs (j : ref) h n : hs !! j = Some h -> exists m' x, o_read F m h n = (m', h, x) /\ worker_run parse m hs (w_read j n) = (m', hs, x).
  Proof. intros E. cbn. rewrite E. cbn. destruct (file_read m h n) as [m' [b e]]. by exists m', (b, e). Qed.
  Lemma run_seek m hs (j : ref) h off : hs !! j = Some h -> exists m' x, o_seek F m h off = (m', h, x) /\ worker_run parse m hs (w_seek j off) = (m', hs, x).
  Proof. intros E. cbn. rewrite E. cbn. destruct (file_seek m h off 0) as [m' [z e]]. exists m', (match e with None => true | _ => false end). by destruct e. Qed.
  Lemma run_close m hs (j : ref) h : hs !! j = Some h -> worker_run parse m hs (w_close j) = (o_close F m h, hs, ()).
  Proof. intros E. cbn. rewrite E. cbn. by destruct (file_close now m h) as [m' e]. Qed.

  Lemma run_copy fuel buf m hs (j : ref) h left : hs !! j = Some h ->
    exists m' b, copy_n F fuel buf m h left = (m', h, b) /\ worker_run parse m hs (copy_w fuel buf j left) = (m', hs, b).
  Proof.
    intros E. revert m left. induction fuel as [|fuel IH]; intros m left; cbn [copy_n copy_w]; [by exists m, []|].
    destruct left as [|left]; [by exists m, []|]. rewrite worker_run_bind.
    destruct (run_read m hs j h (Nat.min buf (Datatypes.S left)) E) as (m1 & [b e] & -> & ->). cbn [fst snd]. destruct e as [e|]; [by exists m1, b|].
    rewrite worker_run_bind. destruct (IH m1 (Datatypes.S left - length b)) as (m2 & b2 & -> & ->). by exists m2, (b ++ b2).
  Qed.

  Lemma run_parts first ctype size m hs (j : ref) h l : hs !! j = Some h ->
    exists m' b, write_parts F boundary bufsize first ctype size m h l = (m', h, b) /\
      worker_run parse m hs (parts_w first ctype size j l) = (m', hs, b).
  Proof.
    intros E. revert first m. induction l as [|r l IH]; intros first m; cbn [write_parts parts_w]; [by eexists _, _|].
    rewrite worker_run_bind. destruct (run_seek m hs j h (g_start r) E) as (m1 & ok & -> & ->). destruct ok; [|by eexists _, _].
    cbv zeta. rewrite worker_run_bind. destruct (run_copy (1 + Z.to_nat (g_len r)) bufsize m1 hs j h (Z.to_nat (g_len r)) E) as (m2 & b & -> & ->).
    destruct (Nat.ltb (length b) (Z.to_nat (g_len r))); [by eexists _, _|]. rewrite worker_run_bind.
    destruct (IH false m2) as (m3 & b3 & -> & ->). by eexists _, _.
  Qed.

  Lemma run_content q d m hs (j : ref) h : hs !! j = Some h ->
    worker_run parse m hs (content_w q d j) =
    ((serve_content F mime sniff boundary bufsize q d m h).1, hs, (serve_content F mime sniff boundary bufsize q d m h).2).
  Proof.
    intros E. unfold content_w, serve_content. cbv zeta. destruct (unmodified q (d_mtime d)); [done|]. rewrite worker_run_bind.
    set (T := match mime (path_ext (d_name d)) with
              | [] => let '(s, h, b) := copy_n F 513 512 m h 512 in let '(s, h, ok) := o_seek F s h 0 in (s, h, sniff b, ok)
              | t => (m, h, t, true)
              end).
    assert (HT : exists m1 ctype ok, T = (m1, h, ctype, ok) /\
      worker_run parse m hs (match mime (path_ext (d_name d)) with
             | [] => wbind (copy_w 513 512 j 512) (fun b => wbind (w_seek j 0) (fun ok => WDone (sniff b, ok)))
             | t => WDone (t, true)
             end) = (m1, hs, (ctype, ok))).
    { unfold T. destruct (mime (path_ext (d_name d))) as [|x t]; [|by eexists _, _, _]. rewrite worker_run_bind.
      destruct (run_copy 513 512 m hs j h 512 E) as (m1 & b & -> & ->). rewrite worker_run_bind.
      destruct (run_seek m1 hs j h 0 E) as (m2 & ok & -> & ->). by eexists _, _, _. }
    destruct HT as (m1 & ctype & ok & -> & ->). destruct ok; cbn [negb]; [|done]. destruct (d_size d <? 0)%Z; [done|].
    destruct (parse_range (q_range q) (d_size d)) as [l| |]; [|done..].
    destruct (if (d_size d <? sum_len l)%Z then [] else l) as [|r [|r2 l2]].
    - rewrite worker_run_bind. destruct (q_head q); [done|]. destruct (run_copy (1 + Z.to_nat (d_size d)) bufsize m1 hs j h (Z.to_nat (d_size d)) E) as (m2 & b & -> & ->). done.
    - rewrite worker_run_bind. destruct (run_seek m1 hs j h (g_start r) E) as (m2 & ok & -> & ->). destruct ok; [|done].
      rewrite worker_run_bind. destruct (q_head q); [done|]. destruct (run_copy (1 + Z.to_nat (g_len r)) bufsize m2 hs j h (Z.to_nat (g_len r)) E) as (m3 & b & -> & ->). done.
    - rewrite worker_run_bind. destruct (run_parts true ctype (d_size d) m1 hs j h (r :: r2 :: l2) E) as (m2 & b & -> & ->). done.
  Qed.

  Lemma run_content_k q k d m hs (j : ref) h : hs !! j = Some h ->
    worker_run parse m hs (content_kw q k d j) =
    ((content_k F mime sniff boundary bufsize q k d m h).1, hs, (content_k F mime sniff boundary bufsize q k d m h).2).
  Proof. intros E. unfold content_kw, content_k. cbv zeta. destruct (check_conds q k (d_mtime d)); [done|done|]. by rewrite (run_content _ d m hs j h E). Qed.

  Lemma run_dir hd m hs (j : ref) h : hs !! j = Some h -> worker_run parse m hs (dir_w hd j) = (m, hs, dir_list F hd m h).
  Proof. intros E. unfold dir_w. rewrite worker_run_bind, (run_list m hs j h E). done. Qed.

  Lemma run_opened q k name url m hs (j : ref) h : good hs -> hs !! j = Some h -> exists l,
    worker_run parse m hs (opened_w q k name url j) =
    ((opened_k F mime sniff boundary bufsize q k name url m h).1, hs ++ l, (opened_k F mime sniff boundary bufsize q k name url m h).2).
  Proof.
    intros Hg E. unfold opened_w, opened_k. cbv zeta. rewrite worker_run_bind, (run_stat m hs j h E).
    assert (Hnil : forall x y, exists l : list ref, (x, hs, y) = (x, hs ++ l, y) :> mem * list ref * response) by (intros x y; exists []; by rewrite app_nil_r).
    destruct (o_stat F m h) as [d|e]; [|apply Hnil].
    destruct (d_isdir d && negb (bool_decide (last url = Some slash))); [apply Hnil|].
    destruct (negb (d_isdir d) && bool_decide (last url = Some slash)); [apply Hnil|].
    destruct (negb (d_isdir d)); [rewrite (run_content_k q k d m hs j h E); apply Hnil|].
    rewrite worker_run_bind. destruct (Hopen m hs (trim_slash name ++ index_page) Hg) as [l Ho]. cbn [o_open mem_hfs].
    destruct (worker_run parse m hs (wopen (trim_slash name ++ index_page))) as [[m1 hs1] [j2|e]].
    - destruct Ho as (-> & h2 & -> & E2). rewrite worker_run_bind, (run_stat m1 (hs ++ l) j2 h2 E2), worker_run_bind.
      assert (E' : (hs ++ l) !! j = Some h) by (by apply lookup_app_l_Some). exists l.
      destruct (o_stat F m1 h2) as [d2|e2].
      + destruct (d_isdir d2).
        * destruct (unmodified q (d_mtime d2)).
          -- cbn [worker_run]. by rewrite worker_run_bind, (run_close m1 _ j2 h2 E2).
          -- rewrite (run_dir _ m1 _ j2 h2 E2). by rewrite worker_run_bind, (run_close m1 _ j2 h2 E2).
        * rewrite (run_content_k q k d2 m1 _ j2 h2 E2). rewrite worker_run_bind, (run_close _ _ j2 h2 E2).
          by destruct (content_k F mime sniff boundary bufsize q k d2 m1 h2).
      + destruct (unmodified q (d_mtime d)).
        * cbn [worker_run]. by rewrite worker_run_bind, (run_close m1 _ j2 h2 E2).
        * rewrite (run_dir _ m1 _ j h E'). by rewrite worker_run_bind, (run_close m1 _ j2 h2 E2).
    - destruct Ho as (-> & ->). assert (E' : (hs ++ l) !! j = Some h) by (by apply lookup_app_l_Some). exists l.
      destruct (unmodified q (d_mtime d)); [done|]. by rewrite (run_dir _ m1 _ j h E').
  Qed.

  Lemma serve_run q k m hs : good hs -> exists hs', worker_run parse m hs (serve_w q k) =
    ((serve_k F mime sniff boundary bufsize q k m).1, hs', (serve_k F mime sniff boundary bufsize q k m).2).
  Proof.
    intros Hg. unfold serve_w, serve_k. cbv zeta. rewrite worker_run_bind.
    destruct (has_suffix _ index_page); [by eexists|]. rewrite worker_run_bind. cbn [o_open mem_hfs].
    destruct (Hopen m hs (clean (if has_prefix (q_path q) (B"/") then q_path q else slash :: q_path q)) Hg) as [l Ho].
    destruct (worker_run parse m hs (wopen _)) as [[m1 hs1] [j|e]].
    - destruct Ho as (-> & h & -> & E). rewrite worker_run_bind.
      destruct (run_opened q k (clean (if has_prefix (q_path q) (B"/") then q_path q else slash :: q_path q))
                  (if has_prefix (q_path q) (B"/") then q_path q else slash :: q_path q) m1 (hs ++ l) j h) as [l2 ->]; [by apply good_more|done|].
      rewrite worker_run_bind. destruct (opened_k F mime sniff boundary bufsize q k _ _ m1 h) as [m2 resp]. cbn [fst snd].
      rewrite (run_close m2 _ j h) by (by apply lookup_app_l_Some). by eexists.
    - destruct Ho as (-> & ->). by eexists.
  Qed.
End Requests.

(** ** Which questions a request asks *)

(** As long as the replies give handles in [G], [p] asks only questions in [P], and ends
    with a result in [Q]. *)
Definition sane (G : ref -> Prop) (y : reply) : Prop := forall j, y = Got (RRef (Ok j)) -> G j.
Fixpoint each {A} (G : ref -> Prop) (P : ask -> Prop) (p : worker A) (Q : A -> Prop) : Prop :=
  match p with
  | WDone a => Q a
  | WAsk c k => P c /\ forall y, sane G y -> each G P (k y) Q
  end.
Definition whatever {A} (a : A) : Prop := True.
Definition goods (G : ref -> Prop) (x : ref + ferr) : Prop := match x with inl j => G j | inr _ => True end.
Lemma each_bind {A C} G P (p : worker A) (k : A -> worker C) (R : A -> Prop) (Q : C -> Prop) : each G P p R -> (forall a, R a -> each G P (k a) Q) -> each G P (wbind p k) Q.
Proof.
  intros Hp Hk. induction p as [a|c q IH]; cbn [wbind each] in *; [by apply Hk|]. destruct Hp as [Hc Hq]. split; [done|]. intros y Hy. apply IH. by apply Hq.
Qed.

Lemma each_reads {A} (p : worker A) Q : each (fun _ => True) fair_ask p Q -> reads p.
Proof. induction p as [a|c k IH]; cbn; [done|]. intros [Hc Hk]. split; [exact Hc|]. intros y. by apply IH, Hk. Qed.

(** The questions a request asks about the handles it opened. *)
Definition on_handle (G : ref -> Prop) (now : gotime) (cand : mem -> list path) (c : ask) : Prop :=
  match c with
  | AInfo j => G j
  | AOp now' cand' (ORead j _ | OSeek j _ _ | OClose j | OReaddir j _) => G j /\ now' = now /\ cand' = cand
  | _ => False
  end.
(** The names a request opens. *)
Definition opens (q : request) (name : bytes) : Prop :=
  let at_ := clean (if has_prefix (q_path q) (B"/") then q_path q else slash :: q_path q) in
  name = at_ \/ name = trim_slash at_ ++ index_page.

Section Each.
  Context (now : gotime) (cand : mem -> list path).
  Context (mime sniff : bytes -> bytes) (boundary : bytes) (bufsize : nat).
  Context (wopen : bytes -> worker (ref + ferr)) (G : ref -> Prop) (P : ask -> Prop).
  Hypothesis HP : forall c, on_handle G now cand c -> P c.

  Ltac one := split; [by apply HP|done].
  Ltac bind_any := apply (each_bind _ _ _ _ whatever).
  Lemma each_copy fuel buf j left : G j -> each G P (copy_w now cand fuel buf j left) whatever.
  Proof.
    intros Hj. revert left. induction fuel as [|fuel IH]; intros left; cbn [copy_w]; [done|]. destruct left; [done|]. bind_any; [one|].
    intros [b e] _. cbn [fst snd]. destruct e; [done|]. by bind_any.
  Qed.
  Lemma each_seek j off : G j -> each G P (w_seek now cand j off) whatever.
  Proof. intros Hj. one. Qed.
  Lemma each_close {A} j (a : A) : G j -> each G P (wbind (w_close now cand j) (fun _ => WDone a)) whatever.
  Proof. intros Hj. bind_any; [one|done]. Qed.
  Lemma each_parts first ctype size j l : G j -> each G P (parts_w now cand boundary bufsize first ctype size j l) whatever.
  Proof.
    intros Hj. revert first. induction l as [|r l IH]; intros first; cbn [parts_w]; [done|]. bind_any; [by apply each_seek|]. intros [|] _; [|done].
    bind_any; [by apply each_copy|]. intros b _. destruct (Nat.ltb _ _); [done|]. by bind_any.
  Qed.
  Lemma each_content q d j : G j -> each G P (content_w now cand mime sniff boundary bufsize q d j) whatever.
  Proof.
    intros Hj. unfold content_w. cbv zeta. destruct (unmodified q (d_mtime d)); [done|]. bind_any.
    - destruct (mime _); [|done]. bind_any; [by apply each_copy|]. intros b _. bind_any; [by apply each_seek|done].
    - intros [ctype ok] _. destruct (negb ok); [done|]. destruct (_ <? 0)%Z; [done|]. destruct (parse_range _ _) as [l| |]; [|done..].
      destruct (if (_ <? _)%Z then _ else _) as [|r [|r2 l2]].
      + bind_any; [|done]. destruct (q_head q); [done|by apply each_copy].
      + bind_any; [by apply each_seek|]. intros [|] _; [|done]. bind_any; [|done]. destruct (q_head q); [done|by apply each_copy].
      + bind_any; [by apply each_parts|done].
  Qed.
  Lemma each_content_k q k d j : G j -> each G P (content_kw now cand mime sniff boundary bufsize q k d j) whatever.
  Proof. intros Hj. unfold content_kw. cbv zeta. destruct (check_conds q k (d_mtime d)); [done|done|by apply each_content]. Qed.
  Lemma each_dir hd j : G j -> each G P (dir_w now cand hd j) whatever.
  Proof. intros Hj. bind_any; [one|done]. Qed.
  Lemma each_opened q k name url j : G j -> each G P (wopen (trim_slash name ++ index_page)) (goods G) ->
    each G P (opened_w now cand mime sniff boundary bufsize wopen q k name url j) whatever.
  Proof.
    intros Hj Ho. unfold opened_w. bind_any; [one|]. intros [d|e] _; [|done]. cbv zeta. destruct (d_isdir d && _); [done|]. destruct (negb (d_isdir d) && _); [done|].
    destruct (negb (d_isdir d)); [by apply each_content_k|]. eapply each_bind; [apply Ho|]. intros [j2|e]; cbn [goods].
    - intros Hj2. bind_any; [one|]. intros x2 _. bind_any; [|intros r _; by apply each_close].
      destruct x2 as [d2|e].
      + destruct (d_isdir d2); [|by apply each_content_k]. destruct (unmodified q (d_mtime d2)); [done|by apply each_dir].
      + destruct (unmodified q (d_mtime d)); [done|by apply each_dir].
    - intros _. destruct (unmodified q (d_mtime d)); [done|by apply each_dir].
  Qed.
  Lemma each_serve q k : (forall name, opens q name -> each G P (wopen name) (goods G)) ->
    each G P (serve_w now cand mime sniff boundary bufsize wopen q k) whatever.
  Proof.
    intros Ho. unfold serve_w. cbv zeta. bind_any; [|done]. destruct (has_suffix _ _); [done|]. eapply each_bind; [apply Ho; by left|]. intros [j|e]; cbn [goods]; [|done]. intros Hj.
    bind_any; [|intros r _; by apply each_close]. apply each_opened; [done|]. apply Ho. by right.
  Qed.
End Each.

(** ** The two file systems *)

Definition ref_answer (y : reply) : ref + ferr :=
  match y with
  | Got (RRef (Ok j)) => inl j
  | Got (RRef (Err e)) => inr (mem_ferr e)
  | _ => inr FOther
  end.
(** http.FileServer(f): the File is the goroutine's handle 0. *)
Definition file_wopen (now : gotime) (cand : mem -> list path) (name : bytes) : worker (ref + ferr) :=
  WAsk (AOp now cand (OFileOpen 0 name)) (fun y => WDone (ref_answer y)).
(** http.FileServer(pkger.Dir(d)), pkger.go:35-41. *)
Definition dir_wopen (now : gotime) (cand : mem -> list path) (d name : bytes) : worker (ref + ferr) :=
  WAsk (AOp now cand (OOpen d))
    (fun y => match ref_answer y with
              | inl j => WAsk (AOp now cand (OFileOpen j name)) (fun y => WDone (ref_answer y))
              | inr e => WDone (inr e)
              end).

Definition request_w (now : gotime) (cand : mem -> list path) mime sniff boundary bufsize (q : request) (k : conds) : worker response :=
  serve_w now cand mime sniff boundary bufsize (file_wopen now cand) q k.
Definition dir_request_w (now : gotime) (cand : mem -> list path) mime sniff boundary bufsize (d : bytes) (q : request) (k : conds) : worker response :=
  serve_w now cand mime sniff boundary bufsize (dir_wopen now cand d) q k.

Lemma request_result parse now cand mime sniff boundary bufsize q k m r :
  result parse m [r] (request_w now cand mime sniff boundary bufsize q k) = (serve_k (mem_server parse now r) mime sniff boundary bufsize q k m).2.
Proof.
  unfold result, request_w, mem_server.
  destruct (serve_run parse now cand mime sniff boundary bufsize (file_wopen now cand) (fun hs => hs !! 0 = Some r)
              (fun m name => mem_answer (file_open parse m r name))) with (q := q) (k := k) (m := m) (hs := [r]) as [hs' ->]; try done.
  - intros hs l H. by apply lookup_app_l_Some.
  - intros m1 hs name H. cbn [file_wopen worker_run ask_run at_slots]. change (hs !! (0 : ref)) with (hs !! 0). rewrite H. cbn [fmap option_fmap option_map step].
    destruct (file_open parse m1 r name) as [m2 [h|e]]; cbn.
    + exists [h]. split; [done|]. exists h. split; [done|]. rewrite lookup_app_r by lia. by rewrite Nat.sub_diag.
    + exists []. by rewrite app_nil_r.
Qed.
Lemma dir_request_result parse now cand mime sniff boundary bufsize d q k m :
  result parse m [] (dir_request_w now cand mime sniff boundary bufsize d q k) = (serve_k (mem_dir_server parse now d) mime sniff boundary bufsize q k m).2.
Proof.
  unfold result, dir_request_w, mem_dir_server.
  destruct (serve_run parse now cand mime sniff boundary bufsize (dir_wopen now cand d) (fun _ => True)
              (fun m name => mem_answer (mem_dir_open parse d m name))) with (q := q) (k := k) (m := m) (hs := @nil ref) as [hs' ->]; try done.
  intros m1 hs name _. unfold mem_dir_open. cbn [dir_wopen worker_run ask_run at_slots step].
  destruct (open parse m1 d) as [m2 [h|e]]; cbn [hide fst snd ref_answer worker_run].
  - cbn [ask_run at_slots]. rewrite lookup_app_r by lia. rewrite Nat.sub_diag. cbn [lookup list_lookup fmap option_fmap option_map step].
    destruct (file_open parse m2 h name) as [m3 [h3|e]]; cbn.
    + exists [h; h3]. rewrite <- app_assoc. split; [done|]. exists h3. split; [done|]. rewrite app_assoc, lookup_app_r by (rewrite app_length; cbn; lia).
      rewrite app_length. cbn. by rewrite Nat.add_comm, Nat.sub_diag.
    + exists [h]. done.
  - exists []. by rewrite app_nil_r.
Qed.

(** ** What the two kinds of request ask *)

Definition by_name (q : request) (now : gotime) (cand : mem -> list path) (c : ask) : Prop :=
  on_handle (fun j => 0 < j) now cand c \/ exists name, opens q name /\ c = AOp now cand (OFileOpen 0 name).
Lemma request_each now cand mime sniff boundary bufsize q k :
  each (fun j => 0 < j) (by_name q now cand) (request_w now cand mime sniff boundary bufsize q k) whatever.
Proof.
  apply each_serve; [by left|]. intros name Ho. split; [right; by exists name|]. intros y Hy. cbn [each]. destruct y as [|x|d|e]; try done.
  destruct x as [e|[j|e]|b e|z e|l e]; cbn; try done. by apply Hy.
Qed.
Lemma on_handle_fair now cand c : candidates cand -> on_handle (fun _ => True) now cand c -> fair_ask c.
Proof. intros Hc H now' cand' o ->. destruct o; try done; by destruct H as (_ & -> & ->). Qed.
Lemma goods_any x : goods (fun _ => True) x.
Proof. by destruct x. Qed.
Lemma request_reads now cand mime sniff boundary bufsize q k : candidates cand -> reads (request_w now cand mime sniff boundary bufsize q k).
Proof.
  intros Hc. eapply each_reads. apply each_serve; [intros c; by apply on_handle_fair|]. intros name _. split; [by intros ? ? ? [= <- <- <-]|].
  intros y _. apply goods_any.
Qed.
Lemma dir_request_reads now cand mime sniff boundary bufsize d q k : candidates cand -> reads (dir_request_w now cand mime sniff boundary bufsize d q k).
Proof.
  intros Hc. eapply each_reads. apply each_serve; [intros c; by apply on_handle_fair|]. intros name _. split; [by intros ? ? ? [= <- <- <-]|].
  intros y _. destruct (ref_answer y); [|done]. split; [by intros ? ? ? [= <- <- <-]|]. intros y' _. apply goods_any.
Qed.
