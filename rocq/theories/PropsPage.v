(** Theorems: what a browser makes of the page of a directory (C114). *)
From Verif Require Import Bytes GoPath Here GoTypes GoNum GoTimeFmt Mem MemSpec MemBase MemFiles MemFiles2 WalkSpec MemWalk MemReaddir
  MemDirs MemDirs2 PropsFiles PropsDirs PropsWalk PropsMarshal Disk PropsParser PropsStd Http HttpProofs HttpRange HttpMem HttpDisk PropsHttp.

(** ** What a browser does *)

(** Text between tags: the text [s] shows as [t]. *)
Inductive displays : bytes -> bytes -> Prop :=
| DNil : displays [] []
| DAmp s t : displays s t -> displays (B"&amp;" ++ s) ("&"%char :: t)
| DLt s t : displays s t -> displays (B"&lt;" ++ s) ("<"%char :: t)
| DGt s t : displays s t -> displays (B"&gt;" ++ s) (">"%char :: t)
| DQuot s t : displays s t -> displays (B"&#34;" ++ s) ("034"%char :: t)
| DApos s t : displays s t -> displays (B"&#39;" ++ s) ("'"%char :: t)
| DByte c s t : c <> "&"%char -> c <> "<"%char -> displays s t -> displays (c :: s) (c :: t).

(** A preformatted list of links: for each its reference and its text. *)
Inductive links : bytes -> list (bytes * bytes) -> Prop :=
| LEnd : links (B"</pre>" ++ [newline]) []
| LLink u h s l : "034"%char ∉ u -> "<"%char ∉ h -> links s l ->
    links (B"<a href=""" ++ u ++ B""">" ++ h ++ B"</a>" ++ newline :: s) ((u, h) :: l).
Definition page_of_links (p : bytes) (l : list (bytes * bytes)) : Prop := exists s, p = B"<pre>" ++ newline :: s /\ links s l.

(** Percent-decoding. *)
Definition hex_value (c : ascii) : option N :=
  let n := N_of_ascii c in
  if ((48 <=? n) && (n <=? 57))%N then Some (n - 48)%N
  else if ((65 <=? n) && (n <=? 70))%N then Some (n - 55)%N
  else if ((97 <=? n) && (n <=? 102))%N then Some (n - 87)%N
  else None.
Fixpoint unpercent (s : bytes) : option bytes :=
  match s with
  | [] => Some []
  | c :: s' =>
      if Ascii.eqb c "%"%char then
        match s' with
        | a :: b :: s'' =>
            match hex_value a, hex_value b, unpercent s'' with
            | Some x, Some y, Some t => Some (ascii_of_N (16 * x + y) :: t)
            | _, _, _ => None
            end
        | _ => None
        end
      else match unpercent s' with Some t => Some (c :: t) | None => None end
  end.

(** A relative reference to something in the same directory: without scheme,
    query or fragment.  Its name there. *)
Definition has_scheme (u : bytes) : Prop := exists a b, u = a ++ colon :: b /\ slash ∉ a.
Definition refers (u name : bytes) : Prop :=
  ~ has_scheme u /\ "?"%char ∉ u /\ "#"%char ∉ u /\ is_rooted u = false /\
  unpercent (if has_prefix u (B"./") then drop 2 u else u) = Some name.

(** ** Proofs *)
Lemma all_bytes (p : ascii -> bool) : forallb p (ascii_of_nat <$> seq 0 256) = true -> forall c, p c = true.
Proof.
  rewrite forallb_forall. intros H c. apply H. apply elem_of_list_In, elem_of_list_fmap. exists (nat_of_ascii c).
  split; [by rewrite ascii_nat_embedding|]. apply elem_of_seq. pose proof (nat_ascii_bounded c). lia.
Qed.

Lemma unpercent_escape s : unpercent (url_escape s) = Some s.
Proof.
  induction s as [|c s IH]; [done|]. cbn [url_escape]. destruct (path_byte c) eqn:E.
  - cbn [unpercent]. assert (Ascii.eqb c "%"%char = false) as ->; [|by rewrite IH].
    assert (negb (path_byte c && Ascii.eqb c "%"%char) = true) as H.
    { apply (all_bytes (fun c => negb (path_byte c && Ascii.eqb c "%"%char))). by vm_compute. }
    rewrite E in H. by destruct (Ascii.eqb c _).
  - cbn [unpercent]. rewrite IH.
    assert (H : match hex_value (upper_hex (N_of_ascii c / 16)), hex_value (upper_hex (N_of_ascii c mod 16)) with
      | Some x, Some y => Ascii.eqb (ascii_of_N (16 * x + y)) c | _, _ => false end = true).
    { apply (all_bytes (fun c => match hex_value (upper_hex (N_of_ascii c / 16)), hex_value (upper_hex (N_of_ascii c mod 16)) with
      | Some x, Some y => Ascii.eqb (ascii_of_N (16 * x + y)) c | _, _ => false end)). by vm_compute. }
    destruct (hex_value (upper_hex (N_of_ascii c / 16))), (hex_value (upper_hex (N_of_ascii c mod 16))); [|done..].
    apply Ascii.eqb_eq in H. by rewrite H.
Qed.

Lemma escape_byte x s : x ∈ url_escape s -> (path_byte x || bool_decide (x = "%"%char)) = true.
Proof.
  induction s as [|c s IH]; [by intros ?%elem_of_nil|]. cbn [url_escape]. destruct (path_byte c) eqn:E.
  - intros [->|H]%elem_of_cons; [by rewrite E|by apply IH].
  - assert (H : path_byte (upper_hex (N_of_ascii c / 16)) && path_byte (upper_hex (N_of_ascii c mod 16)) = true).
    { apply (all_bytes (fun c => path_byte (upper_hex (N_of_ascii c / 16)) && path_byte (upper_hex (N_of_ascii c mod 16)))). by vm_compute. }
    apply andb_true_iff in H as [H1 H2].
    intros [->|[->|[->|H]%elem_of_cons]%elem_of_cons]%elem_of_cons; [done|by rewrite H1|by rewrite H2|by apply IH].
Qed.
Lemma escape_not x s : (path_byte x || bool_decide (x = "%"%char)) = false -> x ∉ url_escape s.
Proof. intros H Hx. apply escape_byte in Hx. congruence. Qed.

(** The raw reference before url.URL.String looks at colons. *)
Definition raw_ref (s : bytes) : bytes := if bool_decide (s = B"*") then s else url_escape s.
Lemma raw_not x s : (path_byte x || bool_decide (x = "%"%char)) = false -> x <> "*"%char -> x ∉ raw_ref s.
Proof.
  intros H Hx. unfold raw_ref. destruct (decide (s = B"*")) as [->|E].
  - rewrite bool_decide_eq_true_2 by done. by intros ?%elem_of_list_singleton.
  - rewrite bool_decide_eq_false_2 by done. by apply escape_not.
Qed.
Lemma raw_decode s : unpercent (raw_ref s) = Some s.
Proof. unfold raw_ref. case_bool_decide as E; [by subst|apply unpercent_escape]. Qed.

Lemma cut_at_some sep s a b : cut_at sep s = Some (a, b) -> s = a ++ sep :: b /\ sep ∉ a.
Proof.
  revert a b. induction s as [|c s IH]; intros a b; [done|]. cbn [cut_at]. destruct (Ascii.eqb c sep) eqn:E.
  - intros [= <- <-]. apply Ascii.eqb_eq in E as ->. split; [done|]. by intros ?%elem_of_nil.
  - destruct (cut_at sep s) as [[a' b']|]; [|done]. intros [= <- <-]. destruct (IH a' b' eq_refl) as [-> Hn]. split; [done|].
    intros [->|H]%elem_of_cons; [by rewrite Ascii.eqb_refl in E|done].
Qed.
Lemma cut_at_none sep s : cut_at sep s = None -> sep ∉ s.
Proof.
  induction s as [|c s IH]; [by intros _ ?%elem_of_nil|]. cbn [cut_at]. destruct (Ascii.eqb c sep) eqn:E; [done|].
  destruct (cut_at sep s) as [[a' b']|]; [done|]. intros _ [->|H]%elem_of_cons; [by rewrite Ascii.eqb_refl in E|by apply IH].
Qed.

(** The reference for a name leads to that name. *)
Lemma ref_of v (d : bool) : good_elem v -> refers (url_string (v ++ if d then B"/" else [])) (v ++ if d then B"/" else []).
Proof.
  intros (Hne & Hdot & _ & Hsl). set (name := v ++ _).
  assert (Hr : is_rooted (raw_ref name) = false /\ has_prefix (raw_ref name) (B"./") = false).
  { destruct v as [|c v]; [done|]. unfold raw_ref. case_bool_decide as E; [by rewrite E|].
    unfold name. cbn [app url_escape]. destruct (path_byte c) eqn:Ec; [|done].
    split; [cbn [is_rooted]; apply Ascii.eqb_neq; intros ->; apply Hsl, elem_of_list_here|].
    apply not_true_iff_false. intros Hp. apply has_prefix_spec in Hp as [t Ht]. change (B"./" ++ t) with ("."%char :: slash :: t) in Ht.
    injection Ht as -> Ht. destruct v as [|c' v]; [done|]. cbn [app url_escape] in Ht. destruct (path_byte c') eqn:Ec'; [|done].
    injection Ht as -> Ht. apply Hsl, elem_of_list_further, elem_of_list_here. }
  destruct Hr as [Hr Hp].
  assert (Hq : "?"%char ∉ raw_ref name) by (by apply raw_not).
  assert (Hh : "#"%char ∉ raw_ref name) by (by apply raw_not).
  pose proof (raw_decode name) as Hdec. fold (raw_ref name). unfold url_string. fold (raw_ref name).
  destruct (cut_at colon (raw_ref name)) as [[a b]|] eqn:Ec.
  - apply cut_at_some in Ec as [E Hn].
    assert (Hsa : slash ∉ a).
    { intros Hin.
      assert (Hx : forall s a b, raw_ref s = a ++ colon :: b -> slash ∈ a -> exists s1 s2, s = s1 ++ slash :: s2 /\ s2 <> []).
      { clear. intros s a b. unfold raw_ref. case_bool_decide as E; [subst; intros H; destruct a as [|? [|]]; [by intros ?%elem_of_nil|done|done]|]. clear E.
        revert a. induction s as [|c s IH]; intros a; cbn [url_escape]; [by destruct a|].
        destruct (path_byte c) eqn:Ec.
        - destruct a as [|x a]; [by intros _ ?%elem_of_nil|]. intros [= <- E] [Hx|Hin]%elem_of_cons.
          + exists [], s. split; [by rewrite Hx|]. intros ->. by destruct a.
          + destruct (IH a E Hin) as (s1 & s2 & -> & Hn). by exists (c :: s1), s2.
        - destruct a as [|x [|y [|z a]]]; [by intros _ ?%elem_of_nil|..].
          + intros [= <- E _]. exfalso. revert E. 
            assert (H : negb (Ascii.eqb (upper_hex (N_of_ascii c / 16)) colon) = true).
            { apply (all_bytes (fun c => negb (Ascii.eqb (upper_hex (N_of_ascii c / 16)) colon))). by vm_compute. }
            intros E. rewrite E in H. done.
          + intros [= <- _ E _]. exfalso.
            assert (H : negb (Ascii.eqb (upper_hex (N_of_ascii c mod 16)) colon) = true).
            { apply (all_bytes (fun c => negb (Ascii.eqb (upper_hex (N_of_ascii c mod 16)) colon))). by vm_compute. }
            by rewrite E in H.
          + assert (H : negb (Ascii.eqb (upper_hex (N_of_ascii c / 16)) slash) && negb (Ascii.eqb (upper_hex (N_of_ascii c mod 16)) slash) = true).
            { apply (all_bytes (fun c => negb (Ascii.eqb (upper_hex (N_of_ascii c / 16)) slash) && negb (Ascii.eqb (upper_hex (N_of_ascii c mod 16)) slash))). by vm_compute. }
            intros [= <- E1 E2 E]. rewrite E1, E2 in H. apply andb_true_iff in H as [H1 H2].
            intros [Hx|[Hx|[Hx|Hin]%elem_of_cons]%elem_of_cons]%elem_of_cons; [done|by rewrite <- Hx in H1|by rewrite <- Hx in H2|].
            destruct (IH a E Hin) as (s1 & s2 & -> & Hn). by exists (c :: s1), s2. }
      destruct (Hx name a b E Hin) as (s1 & s2 & E' & Hne2). unfold name in E'. destruct d.
      - destruct s2 as [|y s3 _] using rev_ind; [done|]. change (slash :: s3 ++ [y]) with ((slash :: s3) ++ [y]) in E'.
        rewrite app_assoc in E'. apply app_inj_tail in E' as [E' _]. apply Hsl. rewrite E'. apply elem_of_app; right; apply elem_of_list_here.
      - rewrite app_nil_r in E'. apply Hsl. rewrite E'. apply elem_of_app; right; apply elem_of_list_here. }
    rewrite bool_decide_eq_false_2 by done. split; [|split; [|split; [|split]]].
    + intros (x & y & E' & Hx). destruct x as [|? [|? x]]; [done|done|]. injection E' as <- <- _. apply Hx, elem_of_list_further, elem_of_list_here.
    + intros [|[|]%elem_of_cons]%elem_of_cons; done.
    + intros [|[|]%elem_of_cons]%elem_of_cons; done.
    + done.
    + exact Hdec.
  - apply cut_at_none in Ec. split; [|split; [done|split; [done|split; [done|]]]].
    + intros (x & y & E' & _). apply Ec. rewrite E'. apply elem_of_app; right; apply elem_of_list_here.
    + by rewrite Hp.
Qed.

Lemma displays_escape s : displays (html_escape s) s.
Proof.
  induction s as [|c s IH]; [constructor|]. change (html_escape (c :: s)) with (html_byte c ++ html_escape s). unfold html_byte.
  destruct (Ascii.eqb_spec c "&"%char) as [->|H1]; [by constructor|].
  destruct (Ascii.eqb_spec c "<"%char) as [->|H2]; [by constructor|].
  destruct (Ascii.eqb_spec c ">"%char) as [->|H3]; [by constructor|].
  destruct (Ascii.eqb_spec c "034"%char) as [->|H4]; [by constructor|].
  destruct (Ascii.eqb_spec c "'"%char) as [->|H5]; [by constructor|]. by constructor.
Qed.
Lemma escape_no_tag s : "<"%char ∉ html_escape s.
Proof.
  induction s as [|c s IH]; [by intros ?%elem_of_nil|]. change (html_escape (c :: s)) with (html_byte c ++ html_escape s).
  intros [H|H]%elem_of_app; [|done].
  assert (Hb : forallb (fun x => negb (Ascii.eqb x "<"%char)) (html_byte c) = true).
  { apply (all_bytes (fun c => forallb (fun x => negb (Ascii.eqb x "<"%char)) (html_byte c))). by vm_compute. }
  rewrite forallb_forall in Hb. by specialize (Hb _ (proj1 (elem_of_list_In _ _) H)).
Qed.
Lemma url_no_quote s : "034"%char ∉ url_string s.
Proof.
  assert (H : "034"%char ∉ raw_ref s) by (by apply raw_not). unfold url_string. fold (raw_ref s).
  destruct (cut_at colon (raw_ref s)) as [[a b]|]; [|done]. case_bool_decide; [done|].
  by intros [|[|]%elem_of_cons]%elem_of_cons.
Qed.

(** A page has one reading. *)
Lemma displays_unique s t1 t2 : displays s t1 -> displays s t2 -> t1 = t2.
Proof.
  intros H. revert t2. induction H as [|s t H IH|s t H IH|s t H IH|s t H IH|s t H IH|c s t H1 H2 H IH]; intros t2 H'.
  - by inversion H'.
  - inversion H'; subst; try done. f_equal. by apply IH.
  - inversion H'; subst; try done. f_equal. by apply IH.
  - inversion H'; subst; try done. f_equal. by apply IH.
  - inversion H'; subst; try done. f_equal. by apply IH.
  - inversion H'; subst; try done. f_equal. by apply IH.
  - inversion H'; subst; try done. f_equal. by apply IH.
Qed.
Lemma split_unique (x : ascii) (a b a' b' : bytes) : x ∉ a -> x ∉ a' -> a ++ x :: b = a' ++ x :: b' -> a = a' /\ b = b'.
Proof.
  revert a'. induction a as [|c a IH]; intros [|c' a'] H H' E; cbn [app] in E.
  - injection E as ->. done.
  - injection E as <- _. destruct H'. apply elem_of_list_here.
  - injection E as -> _. destruct H. apply elem_of_list_here.
  - injection E as <- E. destruct (IH a') as [-> ->]; [by intros ?; apply H, elem_of_list_further|by intros ?; apply H', elem_of_list_further|done|done].
Qed.
Lemma links_inv s l : links s l ->
  (s = B"</pre>" ++ [newline] /\ l = []) \/
  exists u h s' l', s = B"<a href=""" ++ u ++ B""">" ++ h ++ B"</a>" ++ newline :: s' /\ l = (u, h) :: l' /\
    "034"%char ∉ u /\ "<"%char ∉ h /\ links s' l'.
Proof. intros [|u h s' l' Hu Hh H]; [by left|right]. by exists u, h, s', l'. Qed.
Lemma links_unique s l1 l2 : links s l1 -> links s l2 -> l1 = l2.
Proof.
  intros H. revert l2. induction H as [|u h s l Hu Hh H IH]; intros l2 H'.
  - apply links_inv in H' as [[_ ->]|(u & h & s' & l' & E & _)]; done.
  - apply links_inv in H' as [[E _]|(u' & h' & s' & l' & E & -> & Hu' & Hh' & H')]; [done|].
    apply app_inv_head in E. change (B""">") with ["034"%char; ">"%char] in E. cbn [app] in E.
    destruct (split_unique _ _ _ _ _ Hu Hu' E) as [-> E2]. injection E2 as E2.
    change (B"</a>") with ["<"%char; "/"%char; "a"%char; ">"%char] in E2. cbn [app] in E2.
    destruct (split_unique _ _ _ _ _ Hh Hh' E2) as [-> E3]. injection E3 as ->. f_equal. by apply IH.
Qed.
Lemma page_unique p l1 l2 : page_of_links p l1 -> page_of_links p l2 -> l1 = l2.
Proof.
  intros (s & -> & H1) (s' & E & H2). apply app_inv_head in E. injection E as <-. by eapply links_unique.
Qed.

(** ** C114: the links of the page of a directory lead to its children *)

(** Any page listing proper names has one link per name, in that order, which
    displays the name (with a slash for a directory) and refers to it. *)
Theorem C114_links (l : list (bytes * bool)) :
  Forall (fun x => good_elem x.1) l ->
  exists refs, page_of_links (page_text l) refs /\
    Forall2 (fun (r : bytes * bytes) (x : bytes * bool) => displays r.2 (x.1 ++ if x.2 then B"/" else []) /\ refers r.1 (x.1 ++ if x.2 then B"/" else [])) refs l.
Proof.
  intros HF. exists ((fun x : bytes * bool => (url_string (x.1 ++ if x.2 then B"/" else []), html_escape (x.1 ++ if x.2 then B"/" else []))) <$> l). split.
  - exists (concat (item_text <$> l) ++ B"</pre>" ++ [newline]). split; [done|]. clear HF. induction l as [|[v d] l IH]; [constructor|].
    cbn [fmap list_fmap concat]. unfold item_text at 1. cbn [fst snd]. rewrite <- !app_assoc.
    apply (LLink (url_string _) (html_escape _)); [apply url_no_quote|apply escape_no_tag|exact IH].
  - induction HF as [|[v d] l Hv HF IH]; cbn [fmap list_fmap]; constructor; [|done]. cbn [fst snd] in *.
    split; [apply displays_escape|by apply ref_of].
Qed.

(** A name appended to the URL of a directory. *)
Lemma clean_below u ns v :
  is_rooted u = true -> last u = Some slash -> clean u = abs_name ns -> Forall good_elem ns -> good_elem v ->
  clean (u ++ v) = abs_name (ns ++ [v]).
Proof.
  intros Hr Hl Hc Hns Hv. destruct u as [|y a _] using rev_ind; [done|]. rewrite last_snoc in Hl. injection Hl as ->.
  assert (Ens : clean_elems (a ++ [slash]) = ns).
  { apply abs_name_inj; [|done|].
    - unfold clean_elems. rewrite Hr. apply Forall_rev, fold_clean_rooted; [apply split_slash_elems|constructor].
    - rewrite <- Hc. unfold clean. rewrite Hr. by destruct a. }
  assert (Hr' : is_rooted ((a ++ [slash]) ++ v) = true) by (by destruct a).
  assert (Hes : clean_elems ((a ++ [slash]) ++ v) = clean_elems (a ++ [slash]) ++ [v]).
  { unfold clean_elems. rewrite Hr, Hr'. rewrite <- app_assoc. cbn [app]. rewrite !split_app_general.
    rewrite (split_slash_noslash v) by apply Hv. cbn [split_slash]. rewrite !fold_left_app. cbn [fold_left].
    rewrite clean_step_good by done. by rewrite clean_step_nil. }
  unfold clean. rewrite Hr', Hes, Ens. by destruct a.
Qed.

Lemma child_asked q ns v :
  asks_dir q ns -> Forall good_elem ns -> good_elem v ->
  (v <> B"index.html" -> asks_file (get_of (url_of q ++ v)) (ns ++ [v])) /\
  asks_dir (get_of (url_of q ++ v ++ B"/")) (ns ++ [v]).
Proof.
  intros [Hc Hl] Hns Hv.
  assert (Hr : is_rooted (url_of q) = true /\ has_prefix (url_of q) (B"/") = true).
  { unfold url_of. destruct (has_prefix (q_path q) (B"/")) eqn:E; [|done]. split; [|done].
    apply has_prefix_spec in E as [t ->]. done. }
  destruct Hr as [Hr Hp].
  assert (Hu : forall x, url_of (get_of (url_of q ++ x)) = url_of q ++ x).
  { intros x. unfold url_of at 1. cbn [get_of q_path]. assert (has_prefix (url_of q ++ x) (B"/") = true) as ->; [|done].
    apply has_prefix_spec in Hp as [t ->]. apply has_prefix_spec. exists (t ++ x). by rewrite app_assoc. }
  split.
  - intros Hi. unfold asks_file. rewrite Hu. split; [by apply clean_below|]. split.
    + destruct v as [|y w _] using rev_ind; [by destruct Hv|]. rewrite app_assoc, last_snoc. intros [= ->].
      destruct Hv as (_ & _ & _ & Hs). apply Hs, elem_of_app. right. apply elem_of_list_here.
    + apply not_true_iff_false. intros H. apply has_suffix_spec in H as [x Hx].
      destruct (url_of q) as [|y a _] using rev_ind; [done|]. rewrite last_snoc in Hl. injection Hl as ->.
      rewrite <- app_assoc in Hx. change (index_page) with (slash :: B"index.html") in Hx. cbn [app] in Hx.
      apply (f_equal path_split) in Hx. rewrite !path_split_app in Hx; [|by apply (bool_decide_eq_true_1 (_ ∉ _)); vm_compute|apply Hv].
      by injection Hx.
  - unfold asks_dir. rewrite Hu. split; [|change (B"/") with [slash]; by rewrite app_assoc, last_snoc].
    destruct (url_of q) as [|y a _] using rev_ind; [done|]. rewrite last_snoc in Hl. injection Hl as ->.
    rewrite app_assoc. rewrite <- (clean_below (a ++ [slash]) ns v) by (done || by rewrite last_snoc).
    unfold clean. assert (Hr2 : forall x, is_rooted ((a ++ [slash]) ++ x) = true) by (intros x; by destruct a).
    rewrite <- app_assoc. rewrite !Hr2. 
    assert (clean_elems ((a ++ [slash]) ++ v ++ B"/") = clean_elems ((a ++ [slash]) ++ v)) as ->; [|by destruct a].
    unfold clean_elems. rewrite !Hr2. rewrite (app_assoc _ v). change (B"/") with (slash :: []). rewrite split_app_general. cbn [split_slash].
    rewrite fold_left_app. cbn [fold_left]. by rewrite clean_step_nil.
Qed.

(** The page of an embedded directory, read by a browser: exactly the children,
    sorted; and following the link of a file gets its contents. *)
Theorem C114_follow_partial parse now mime sniff boundary bufsize m r f g ds q ns d :
  0 < bufsize -> served m r f g ds ->
  means parse (f_here f) (m_here m) g ds ns -> means parse (f_here f) (m_here m) g ds (ns ++ [B"index.html"]) ->
  ns ++ [B"index.html"] <> ds -> asks_dir q ns -> shows_dir m f g ds ns d ->
  named_below parse m g (ds ++ ns) ->
  file_at m (Path g (abs_name (ds ++ ns ++ [B"index.html"]))) = None ->
  q_since q = None -> q_head q = false ->
  exists l refs, is_entries m g (ds ++ ns) l /\
    page_of_links (r_body (serve (mem_server parse now r) mime sniff boundary bufsize q m).2) refs /\
    Forall2 (fun (r : bytes * bytes) (x : bytes * bool) => displays r.2 (x.1 ++ if x.2 then B"/" else []) /\ refers r.1 (x.1 ++ if x.2 then B"/" else [])) refs l /\
    forall v fo, good_elem v -> file_at m (Path g (abs_name (ds ++ ns ++ [v]))) = Some fo -> d_isdir (f_info fo) = false ->
      means parse (f_here f) (m_here m) g ds (ns ++ [v]) -> ns ++ [v] <> ds ->
      exists u h, (u, h) ∈ refs /\ displays h v /\ refers u v /\
        forall name, refers u name ->
          let ans := (serve (mem_server parse now r) mime sniff boundary bufsize (get_of (url_of q ++ name)) m).2 in
          r_code ans = 200%Z /\ r_body ans = f_data fo.
Proof.
  intros Hb SV Hm Hi Hie Hq Hd HB Hno Hs Hhead.
  destruct (C94_list_partial parse now mime sniff boundary bufsize m r f g ds q ns d (lastmod_of (d_mtime d))) as (l & Hl & E);
    [done..|by apply lastmod_ok|].
  destruct (C114_links l) as (refs & Hrefs & H2).
  { apply Forall_forall. intros [v b] Hx. by apply Hl in Hx as [? _]. }
  exists l, refs. split; [done|]. split; [rewrite E, Hhead; exact Hrefs|]. split; [done|].
  intros v fo Hv Hf Hfd Hmv Hne.
  assert (Hx : (v, false) ∈ l).
  { apply Hl. split; [done|]. exists (f_info fo). split; [|done]. unfold entry_at. rewrite <- app_assoc. by rewrite Hf. }
  apply elem_of_list_lookup in Hx as [i Hx]. destruct (Forall2_lookup_r _ _ _ _ _ H2 Hx) as ([u h] & Hr & Hdis & Href).
  cbn [fst snd] in Hdis, Href. rewrite app_nil_r in Hdis, Href.
  exists u, h. split; [by eapply elem_of_list_lookup_2|]. split; [done|]. split; [done|]. intros name Hn.
  assert (name = v) as ->.
  { destruct Hn as (_ & _ & _ & _ & E1), Href as (_ & _ & _ & _ & E2). congruence. }
  assert (v <> B"index.html") as Hvi by (intros ->; congruence).
  destruct (child_asked q ns v Hq) as [Ha _]; [apply Hm|done|]. specialize (Ha Hvi).
  cbv zeta. erewrite C92_get_partial; [|done|done|exact Hmv|done|exact Ha|exact Hf|done|done|done|apply type_of_media|by apply lastmod_ok].
  done.
Qed.

(** A name with bytes that mean something in HTML and in URLs. *)
Definition odd_name : bytes := B"b<1>?50%""#.txt".
Definition odd_calls : list (gotime * op) := (fun o => (t9, o)) <$>
  [OMkdirAll (B"/pub/sub") 493; OCreate (B"/pub/" ++ odd_name); OWrite 3 (B"hello"); OClose 3; OOpen (B"/pub")].
Definition odd_site : mem := (run here_parse (mem_new her_ex) odd_calls).1.
Definition odd_ask (q : request) : response := (serve (mem_server here_parse t9 4) mime_ex sniff_ex (B"XX") 4 q odd_site).2.
Example C114_ex :
  served odd_site 4 hroot (B"app") [B"pub"] /\ asks_dir (get_of (B"/")) [] /\ (exists d, shows_dir odd_site hroot (B"app") [B"pub"] [] d) /\
  named_below here_parse odd_site (B"app") [B"pub"] /\
  means here_parse (f_here hroot) (m_here odd_site) (B"app") [B"pub"] [odd_name] /\
  page_of_links (r_body (odd_ask (get_of (B"/")))) [(B"b%3C1%3E%3F50%25%22%23.txt", B"b&lt;1&gt;?50%&#34;#.txt"); (B"sub/", B"sub/")] /\
  displays (B"b&lt;1&gt;?50%&#34;#.txt") odd_name /\ refers (B"b%3C1%3E%3F50%25%22%23.txt") odd_name /\
  r_body (odd_ask (get_of (B"/" ++ odd_name))) = B"hello".
Proof.
  split.
  { split; [eapply reachable_wf, reachable_run, reach_new|apply (sized_run her_ex odd_calls); unfold odd_calls; cbn [fmap list_fmap]; honest_tac|
      by vm_compute|done|good_elems|done..]. }
  split; [split; by vm_compute|]. split.
  { eexists. right. split; [done|]. eexists. split; [by vm_compute|]. by split. }
  split. { apply (tree_checked _ _ _ _ [[]; [B"pub"]; [B"pub"; odd_name]; [B"pub"; B"sub"]]); [good_elems|by vm_compute]. }
  split. { split; [good_elems|by left|by vm_compute|by vm_compute]. }
  split.
  { eexists. split; [by vm_compute|].
    apply (LLink (B"b%3C1%3E%3F50%25%22%23.txt") (B"b&lt;1&gt;?50%&#34;#.txt")); [apply (bool_decide_eq_true_1 (_ ∉ _)); by vm_compute..|].
    apply (LLink (B"sub/") (B"sub/")); [apply (bool_decide_eq_true_1 (_ ∉ _)); by vm_compute..|]. constructor. }
  split. { exact (displays_escape odd_name). }
  split; [|by vm_compute].
  pose proof (ref_of odd_name false) as H. rewrite app_nil_r in H. apply H. good.
Qed.
