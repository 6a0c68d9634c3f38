(** Model of packing: /repo/pkging/mem/add.go (Pkger.Add over real files) and
    /repo/pkging/pkgutil/stuff.go (Stuff).

    [hdir] and [hpkg] are here.Dir and here.Package (gobuffalo/here, which run
    "go list"): arbitrary functions.  Reading a file that could be opened does
    not fail (simplification: io.Copy's error at add.go:66,92 never happens).
    The orders in which MarshalJSON ranges over the two maps are parameters. *)
From Verif Require Import Bytes GoPath Here GoTypes Mem MemSpec MemBase MemFiles WalkSpec JsonStr JsonText Embed Marshal MarshalMem
  Disk Decls.

(** What io.Copy reads from an open file. *)
Definition contents (n : node) : bytes := match n with NFile _ d => d | NDir _ _ => [] end.

Definition tmp_suffix : bytes := B".tmp".

(** How MarshalJSON happens to iterate over the two maps. *)
Record ranging := Ranging {
  rg_files : mem -> list (path * ref);
  rg_infos : mem -> list (bytes * hinfo)
}.

Section Pack.
  Context (parse : resolver) (hdir hpkg : bytes -> res hinfo) (fs : node).

  (** The callback of Pkger.Add's walk, add.go:37-75. *)
  Definition add_fn : wfunc mem :=
    fun p info err m =>
      match err, info with
      | Some e, _ => (m, Some e)
      | None, None => (m, Some EBadHandle)
      | None, Some info =>
          match os_open fs p with
          | Err e => (m, Some e)
          | Ok n =>
              match mem_parse parse m p with
              | None => (m, Some EParse)
              | Some pt =>
                  match hpkg (p_pkg pt) with
                  | Err e => (m, Some e)
                  | Ok her => (add_file m pt her info (contents n), None)
                  end
              end
          end
      end.

  (** One round of Pkger.Add, add.go:18-101, for the file [n] opened as [p]. *)
  Definition add (m : mem) (p : bytes) (n : node) : mem * option gerr :=
    let info := info_of (base p) n in
    match mem_parse parse m p with
    | None => (m, Some EParse)
    | Some pt =>
        match hdir (if d_isdir info then p else dirname p) with
        | Err e => (m, Some e)
        | Ok her =>
            if d_isdir info then walk_disk fs p add_fn m
            else (add_file m pt her info (contents n), None)
        end
    end.

  (** The loop of Stuff, stuff.go:25-46. *)
  Fixpoint stuff_loop (m : mem) (l : list pfile) : res mem :=
    match l with
    | [] => Ok m
    | pf :: l =>
        if has_suffix (pf_abs pf) tmp_suffix then stuff_loop m l
        else
          match os_open fs (pf_abs pf) with
          | Err e => Err e
          | Ok n =>
              match add m (pf_abs pf) n with
              | (_, Some e) => Err e
              | (m, None) => stuff_loop m l
              end
          end
    end.

  (** Stuff up to the marshalling, stuff.go:15-46. *)
  Definition stuffed (order : list pfile -> list pfile) (c : hinfo) (ds : list decl) : res mem :=
    match files parse hdir fs order ds with
    | Err e => Err e
    | Ok l => stuff_loop (mem_new c) l
    end.

  (** Stuff, stuff.go:14-60: what it writes. *)
  Definition stuff (gz : bytes -> bytes) (rg : ranging) (order : list pfile -> list pfile)
      (c : hinfo) (ds : list decl) : res bytes :=
    match stuffed order c ds with
    | Err e => Err e
    | Ok m => Ok (encode gz (marshal_json m (rg_files rg m) (rg_infos rg m)))
    end.
End Pack.

(** ** Specification *)

(** A map is iterated in some order. *)
Definition some_range (rg : ranging) : Prop :=
  forall m, rg_files rg m ≡ₚ map_to_list (m_files m) /\ rg_infos rg m ≡ₚ map_to_list (m_infos m).

(** The pkger in question finds the files of the directory [rs] under package
    [mp], by their absolute path and by their printed path. *)
Record addressed (parse : resolver) (fs : node) (c : hinfo) (rs : list bytes) (mp : bytes) : Prop := {
  ad_rs : Forall good_elem rs;
  ad_abs : forall ws n, get fs (rs ++ ws) = Some n ->
    parse c (abs_name (rs ++ ws)) = Some (Path mp (abs_name ws));
  ad_print : forall ws n, get fs (rs ++ ws) = Some n ->
    parse c (path_string (Path mp (abs_name ws))) = Some (Path mp (abs_name ws))
}.

(** Everything that could be packed from [rs] can be written in JSON. *)
Record writable (hdir hpkg : bytes -> res hinfo) (fs : node) (c : hinfo) (rs : list bytes) (mp : bytes) : Prop := {
  wr_here : info_ok c;
  wr_hdir : forall p i, hdir p = Ok i -> info_ok i;
  wr_hpkg : forall p i, hpkg p = Ok i -> info_ok i;
  wr_pkg : forall ws n, get fs (rs ++ ws) = Some n -> path_ok (Path mp (abs_name ws)) /\
    utf8 (path_string (Path mp (abs_name ws)));
  wr_info : forall ws n, get fs (rs ++ ws) = Some n -> info_fixed (info_of (base (abs_name (rs ++ ws))) n)
}.

(** What packing the list [l] of files, all below [rs], takes: each listed path
    not ending in .tmp and, if it is a directory, everything below it. *)
Definition taken (fs : node) (rs : list bytes) (l : list bytes) (ws : list bytes) : Prop :=
  exists ns us n, ws = ns ++ us /\ abs_name (rs ++ ns) ∈ l /\ Forall good_elem ns /\
    has_suffix (abs_name (rs ++ ns)) tmp_suffix = false /\
    get fs (rs ++ ws) = Some n.

Definition is_ok {A} (r : res A) : Prop := exists x, r = Ok x.

(** ** Proofs *)

Definition no_skip : list bytes -> bool := fun _ => false.

Lemma fwalk_no_skip {S} (f : wfunc S) p n s s' :
  (forall p i e s, e <> Some ESkipDir -> (f p i e s).2 <> Some ESkipDir) -> fwalk f p n s <> (s', Some ESkipDir).
Proof.
  intros Hns. revert p s s'. induction n as [i d|i cs IH] using node_ind'; intros p s1 s2 E2; cbn [fwalk] in E2.
  - apply (Hns p (Some (info_of (base p) (NFile i d))) None s1); [done|]. by rewrite E2.
  - destruct (n_ok i); [|by eapply (Hns p _ (Some (EPath (B"open") p))); [done|rewrite E2]].
    destruct (f p _ None s1) as [s3 [e|]] eqn:E3.
    { injection E2 as -> ->. by eapply (Hns p _ None); [done|rewrite E3]. }
    clear E3. revert s3 E2. induction cs as [|[v d] cs IHc]; intros s3 E2; cbn [walk_children fst snd] in E2; [done|].
    inversion IH as [|? ? IH1 IH2]; subst.
    destruct (fwalk f (join2 p v) d s3) as [s4 [e|]] eqn:E4.
    + destruct (n_isdir d && bool_decide (e = ESkipDir)) eqn:Eb.
      * by apply (IHc IH2 s4).
      * injection E2 as -> ->. by apply (IH1 _ _ _ E4).
    + by apply (IHc IH2 s4).
Qed.

(** A walk that ends without error has called the function successfully for
    every node. *)
Lemma fwalk_all {S} (f : wfunc S) (I : S -> list (list bytes * node) -> Prop) ws n s D :
  Forall good_elem ws -> wf_node n ->
  (forall vs c e s s' D, get n vs = Some c -> I s D ->
     f (abs_name (ws ++ vs)) (Some (info_of (base (abs_name (ws ++ vs))) c)) e s = (s', None) ->
     e = None /\ I s' (D ++ [(ws ++ vs, c)])) ->
  (forall p i e s, e <> Some ESkipDir -> (f p i e s).2 <> Some ESkipDir) ->
  I s D -> forall s', fwalk f (abs_name ws) n s = (s', None) ->
  I s' (D ++ visited no_skip ws n).
Proof.
  revert ws s D. induction n as [i d|i cs IH] using node_ind'; intros ws s D Hws Hwf Hf Hns HI s' E.
  - cbn [fwalk] in E. destruct (Hf [] _ None s s' D eq_refl HI) as [_ H]; [by rewrite app_nil_r|].
    by rewrite app_nil_r in H.
  - cbn [fwalk] in E. destruct (n_ok i) eqn:Eo.
    + destruct (f (abs_name ws) _ None s) as [s1 [e|]] eqn:E1; [done|].
      destruct (Hf [] _ None s s1 D eq_refl HI) as [_ HI1]; [by rewrite app_nil_r|].
      rewrite app_nil_r in HI1. cbn [visited]. unfold no_skip at 1.
      replace (D ++ (ws, NDir i cs) :: concat (map (fun x => visited no_skip (ws ++ [x.1]) x.2) cs))
        with ((D ++ [(ws, NDir i cs)]) ++ concat (map (fun x => visited no_skip (ws ++ [x.1]) x.2) cs))
        by (by rewrite <- app_assoc).
      set (D1 := D ++ [(ws, NDir i cs)]) in *. clearbody D1. clear E1 HI.
      apply wf_dir in Hwf as [HS HF].
      assert (Hch : forall w c, (w, c) ∈ cs -> child w cs = Some c).
      { clear -HS. induction cs as [|[v d] cs IHc]; intros w c Hin; [inversion Hin|]. cbn [child].
        apply StronglySorted_inv in HS as [HS HF]. apply elem_of_cons in Hin as [[= -> ->]|Hin].
        - by rewrite bool_decide_eq_true_2.
        - rewrite bool_decide_eq_false_2; [by apply IHc|]. intros ->. rewrite Forall_forall in HF.
          specialize (HF _ Hin). cbn in HF. by rewrite blt_irrefl in HF. }
      assert (Hf' : forall w c, (w, c) ∈ cs -> forall vs c' e s s' D, get c vs = Some c' -> I s D ->
        f (abs_name ((ws ++ [w]) ++ vs)) (Some (info_of (base (abs_name ((ws ++ [w]) ++ vs))) c')) e s = (s', None) ->
        e = None /\ I s' (D ++ [((ws ++ [w]) ++ vs, c')])).
      { intros w c Hin vs c' e t t' Dx Hg. rewrite <- app_assoc. apply (Hf (w :: vs)).
        cbn [get]. by rewrite (Hch w c Hin). }
      clear Hf Hch HS. revert s1 D1 HI1 E IH HF Hf'. induction cs as [|[w c] cs IHc]; intros s1 D1 HI1 E IH HF Hf'.
      * cbn [walk_children] in E. injection E as <-. cbn [map concat]. by rewrite app_nil_r.
      * cbn [walk_children fst snd] in E. inversion IH as [|? ? IH1 IH2]; subst. inversion HF as [|? ? [Hgw Hgc] HF2]; subst.
        cbn [fst snd] in *. rewrite join2_name in E by done.
        destruct (fwalk f (abs_name (ws ++ [w])) c s1) as [s2 [e|]] eqn:E2.
        -- destruct (n_isdir c && bool_decide (e = ESkipDir)) eqn:Eb; [|done]. exfalso.
           apply andb_true_iff in Eb as [_ Eb]. apply bool_decide_eq_true in Eb. subst e.
           by apply (fwalk_no_skip f (abs_name (ws ++ [w])) c s1 s2).
        -- cbn [map concat]. rewrite app_assoc. eapply (IHc s2).
           ++ eapply (IH1 (ws ++ [w]) s1 D1); [by apply Forall_app; split; [|constructor]|done| |done|done|done].
              apply Hf'. by left.
           ++ exact E.
           ++ exact IH2.
           ++ exact HF2.
           ++ intros w' c' Hin. apply Hf'. by right.
    + destruct (Hf [] _ (Some (EPath (B"open") (abs_name ws))) s s' D eq_refl HI) as [? _]; [by rewrite app_nil_r|done].
Qed.

Section Packed.
  Context (parse : resolver) (hdir hpkg : bytes -> res hinfo) (fs : node).
  Context (c : hinfo) (rs : list bytes) (mp : bytes).

  Definition key (ws : list bytes) : path := Path mp (abs_name ws).

  (** Where the Here of a packed file comes from. *)
  Definition asked (her : hinfo) : Prop := exists p, hdir p = Ok her \/ hpkg p = Ok her.

  (** The pkger after the nodes in [D] have been added. *)
  Record packed (m : mem) (D : list bytes -> Prop) : Prop := {
    pk_wf : wf m;
    pk_here : m_here m = c;
    pk_infos : m_infos m = {[h_import c := c]};
    pk_files : forall ws, D ws -> exists n her,
      Forall good_elem ws /\ get fs (rs ++ ws) = Some n /\ asked her /\
      file_at m (key ws) = Some (FObj her (info_of (base (abs_name (rs ++ ws))) n) (key ws) (contents n) zero_path None None);
    pk_only : forall pt, is_Some (file_at m pt) -> exists ws, D ws /\ pt = key ws
  }.

  Lemma packed_ext m (D D' : list bytes -> Prop) : (forall ws, D ws <-> D' ws) -> packed m D -> packed m D'.
  Proof.
    intros H [H1 H2 H3 H4 H5]. split; try done.
    - intros ws Hws. by apply H4, H.
    - intros pt Hp. destruct (H5 pt Hp) as (ws & Hw & E). exists ws. split; [by apply H|done].
  Qed.

  Lemma packed_new : packed (mem_new c) (fun _ => False).
  Proof.
    split; [apply wf_new|done|done|done|].
    - intros pt [f Hf]. unfold file_at in Hf. simpl in Hf. by rewrite lookup_empty in Hf.
  Qed.

  Lemma add_file_eq m pt her info data :
    add_file m pt her info data =
    store (alloc m (FObj her (new_file_info info) pt (if d_isdir info then [] else data) zero_path None None)).1 pt
      (alloc m (FObj her (new_file_info info) pt (if d_isdir info then [] else data) zero_path None None)).2.
  Proof. done. Qed.

  Lemma packed_add m D ws n her :
    packed m D -> Forall good_elem ws -> get fs (rs ++ ws) = Some n -> asked her ->
    packed (add_file m (key ws) her (info_of (base (abs_name (rs ++ ws))) n) (contents n)) (fun vs => D vs \/ vs = ws).
  Proof.
    intros [H1 H2 H3 H4 H5] Hws Hg Ha. rewrite add_file_eq, new_file_info_id.
    set (fo := FObj _ _ _ _ _ _ _).
    assert (Hne : forall vs, Forall good_elem vs -> vs <> ws -> key ws <> key vs).
    { intros vs Hvs Hn E. apply (f_equal p_name) in E. apply Hn. symmetry. by apply abs_name_inj. }
    split.
    - by apply wf_alloc_store.
    - done.
    - done.
    - intros vs Hv. destruct (decide (vs = ws)) as [->|Hn].
      + exists n, her. split_and!; [done|done|done|]. rewrite file_at_store_eq. unfold fo. clear. by destruct n.
      + destruct Hv as [Hv|?]; [|done]. destruct (H4 vs Hv) as (n' & her' & Hgd & Hg' & Ha' & Hf).
        exists n', her'. split_and!; try done. rewrite file_at_store_ne; [done|done|by apply Hne].
    - intros pt Hp. destruct (decide (key ws = pt)) as [<-|Hn].
      + exists ws. split; [by right|done].
      + rewrite file_at_store_ne in Hp by done. destruct (H5 pt Hp) as (vs & Hv & E). exists vs. split; [by left|done].
  Qed.

  Context (Hwf : wf_node fs) (Had : addressed parse fs c rs mp) (Hskip : forall p, hpkg p <> Err ESkipDir).

  Lemma add_packed m D ws n m' :
    packed m D -> get fs (rs ++ ws) = Some n ->
    add parse hdir hpkg fs m (abs_name (rs ++ ws)) n = (m', None) ->
    packed m' (fun vs => D vs \/ exists us x, vs = ws ++ us /\ get fs (rs ++ vs) = Some x).
  Proof.
    intros Hp Hg E. unfold add in E. unfold mem_parse in E. rewrite (pk_here _ _ Hp) in E.
    rewrite (ad_abs _ _ _ _ _ Had ws n Hg) in E.
    destruct (wf_get _ _ _ Hwf Hg) as [Hwfn Hgood]. pose proof Hgood as Hgood2.
    apply Forall_app in Hgood2 as [Hrs Hws].
    destruct (hdir (if d_isdir (info_of (base (abs_name (rs ++ ws))) n) then abs_name (rs ++ ws) else dirname (abs_name (rs ++ ws))))
      as [her|] eqn:Eh; [|done].
    destruct n as [i d|i cs].
    - cbn [info_of d_isdir] in E. injection E as <-.
      eapply packed_ext; [|eapply (packed_add m D ws (NFile i d) her); try done; eexists; left; exact Eh].
      intros vs. split; intros [H|H]; [by left| |by left|].
      + subst vs. right. exists [], (NFile i d). by rewrite app_nil_r.
      + right. destruct H as (us & x & -> & Hx). rewrite app_assoc, get_app, Hg in Hx.
        destruct us; [by rewrite app_nil_r|done].
    - cbn [info_of d_isdir] in E. unfold walk_disk in E. rewrite find_abs, Hg in E by done.
      destruct (fwalk (add_fn parse hpkg fs) (abs_name (rs ++ ws)) (NDir i cs) m) as [s e] eqn:Ew.
      assert (Hns : forall p i e s, e <> Some ESkipDir -> (add_fn parse hpkg fs p i e s).2 <> Some ESkipDir).
      { intros p i0 e0 s0 He. unfold add_fn. destruct e0 as [e0|], i0; cbn [snd]; try done.
        unfold os_open. destruct (find fs p) as [x|]; [|done]. destruct (n_ok (n_meta x)); [|done].
        destruct (mem_parse parse s0 p) as [pt|]; [|done]. pose proof (Hskip (p_pkg pt)) as Hs.
        destruct (hpkg (p_pkg pt)); [done|]. cbn [snd]. congruence. }
      assert (He : e = None).
      { destruct e as [e|]; [|done]. destruct (decide (e = ESkipDir)) as [->|Hn].
        - by apply (fwalk_no_skip _ _ _ _ _ Hns) in Ew.
        - rewrite bool_decide_eq_false_2 in E by congruence. congruence. }
      subst e. cbn in E. injection E as <-.
      pose proof (fwalk_all (add_fn parse hpkg fs)
        (fun m L => packed m (fun vs => D vs \/ exists x, (rs ++ vs, x) ∈ L)) (rs ++ ws) (NDir i cs) m [] Hgood Hwfn) as H.
      eapply packed_ext; [|apply H; [|exact Hns| |exact Ew]]; clear H.
      + intros vs. cbn [app]. apply or_iff_compat_l. split.
        * intros [x Hx]. apply visited_elem in Hx as (us & E & Hx & _); [|done].
          rewrite <- app_assoc in E. apply app_inv_head in E. subst vs. exists us, x. split; [done|].
          by rewrite app_assoc, get_app, Hg.
        * intros (us & x & -> & Hx). exists x. apply visited_elem; [done|]. exists us. rewrite app_assoc.
          split; [done|]. rewrite app_assoc, get_app, Hg in Hx. split; [done|]. intros. done.
      + intros vs x e0 s0 s' L Hx Hpk Hf. unfold add_fn in Hf. destruct e0; [done|]. split; [done|].
        assert (Hgx : get fs (rs ++ ws ++ vs) = Some x) by (by rewrite app_assoc, get_app, Hg).
        destruct (wf_get _ _ _ Hwf Hgx) as [_ Hgd]. pose proof Hgd as Hgd2. apply Forall_app in Hgd2 as [_ Hgv].
        rewrite <- app_assoc in Hf. unfold os_open in Hf. rewrite find_abs, Hgx in Hf by done.
        destruct (n_ok (n_meta x)); [|done]. unfold mem_parse in Hf. rewrite (pk_here _ _ Hpk) in Hf.
        rewrite (ad_abs _ _ _ _ _ Had _ _ Hgx) in Hf. destruct (hpkg _) as [her'|] eqn:Ehp; [|done]. injection Hf as <-.
        eapply packed_ext; [|eapply packed_add; [exact Hpk|exact Hgv|exact Hgx|by exists (p_pkg (Path mp (abs_name (ws ++ vs)))); right]].
        intros us. cbn beta. split.
        * intros [[H1|[y Hy]]|H1]; [by left|right; exists y; apply elem_of_app; by left|].
          subst us. right. exists x. rewrite <- app_assoc. apply elem_of_app. right. by apply elem_of_list_singleton.
        * intros [H1|[y Hy]]; [by left; left|]. apply elem_of_app in Hy as [Hy|Hy]; [left; right; by exists y|].
          right. apply elem_of_list_singleton in Hy. injection Hy as Hy _. rewrite <- app_assoc in Hy.
          by apply app_inv_head in Hy.
      + eapply packed_ext; [|exact Hp]. intros vs. split; [by left|]. intros [?|[x Hx]]; [done|inversion Hx].
  Qed.

  (** Every listed file is below [rs]. *)
  Definition inside (l : list pfile) : Prop :=
    Forall (fun f => exists ws, Forall good_elem ws /\ pf_abs f = abs_name (rs ++ ws)) l.

  Lemma taken_cons f l ws :
    taken fs rs (pf_abs <$> f :: l) ws <-> taken fs rs [pf_abs f] ws \/ taken fs rs (pf_abs <$> l) ws.
  Proof.
    unfold taken. split.
    - intros (ns & us & n & E & Hin & H). apply elem_of_cons in Hin as [Hin|Hin].
      + left. exists ns, us, n. rewrite Hin at 1. split; [done|]. split; [by left|done].
      + right. exists ns, us, n. done.
    - intros [(ns & us & n & E & Hin & H)|(ns & us & n & E & Hin & H)]; exists ns, us, n; (split; [done|]);
        (split; [|done]).
      + apply elem_of_list_singleton in Hin. rewrite Hin. by left.
      + by right.
  Qed.

  Lemma taken_one f ws us :
    Forall good_elem ws -> pf_abs f = abs_name (rs ++ ws) ->
    taken fs rs [pf_abs f] us <-> has_suffix (pf_abs f) tmp_suffix = false /\
      exists vs n, us = ws ++ vs /\ get fs (rs ++ us) = Some n.
  Proof.
    intros Hws Ea. unfold taken. split.
    - intros (ns & vs & n & -> & Hin & Hns & Hs & Hg). apply elem_of_list_singleton in Hin.
      assert (ns = ws) as ->.
      { rewrite Ea in Hin. apply abs_name_inj in Hin; [by apply app_inv_head in Hin|..];
          (apply Forall_app; split; [apply Had|done]). }
      rewrite Ea. split; [done|]. by exists vs, n.
    - intros (Hs & vs & n & -> & Hg). exists ws, vs, n. split; [done|]. split; [rewrite Ea; by left|].
      rewrite <- Ea. done.
  Qed.

  Lemma stuff_loop_packed l m D m' :
    packed m D -> inside l -> stuff_loop parse hdir hpkg fs m l = Ok m' ->
    packed m' (fun ws => D ws \/ taken fs rs (pf_abs <$> l) ws).
  Proof.
    revert m D. induction l as [|f l IH]; intros m D Hp Hin E.
    - cbn in E. injection E as <-. eapply packed_ext; [|exact Hp]. intros ws. split; [by left|].
      intros [?|(ns & us & n & _ & H & _)]; [done|inversion H].
    - inversion Hin as [|? ? (ws & Hws & Ea) Hin']; subst. cbn [stuff_loop] in E.
      destruct (has_suffix (pf_abs f) tmp_suffix) eqn:Es.
      + eapply packed_ext; [|eapply IH; [exact Hp|done|exact E]]. intros us. rewrite taken_cons, (taken_one f ws us) by done.
        rewrite Es. split; [intros [?|?]; [by left|by right; right]|intros [?|[[? _]|?]]; [by left|done|by right]].
      + assert (Hgd : Forall good_elem (rs ++ ws)) by (apply Forall_app; split; [apply Had|done]).
        unfold os_open in E. rewrite Ea, find_abs in E by done.
        destruct (get fs (rs ++ ws)) as [n|] eqn:Hg; [|done]. destruct (n_ok (n_meta n)); [|done].
        destruct (add parse hdir hpkg fs m (abs_name (rs ++ ws)) n) as [m1 [e|]] eqn:Eadd; [done|].
        pose proof (add_packed m D ws n m1 Hp Hg Eadd) as Hp1.
        eapply packed_ext; [|eapply IH; [exact Hp1|done|exact E]]. intros us. cbn beta.
        rewrite taken_cons, (taken_one f ws us) by done. rewrite Es.
        split; [intros [[?|?]|?]; [by left|by right; left|by right; right]
               |intros [?|[[_ ?]|?]]; [by left; left|by left; right|by right]].
  Qed.

  Lemma packed_marshalable m D : writable hdir hpkg fs c rs mp -> packed m D -> marshalable parse m.
  Proof.
    intros Hw [H1 H2 H3 H4 H5].
    assert (Hf : forall pt f, file_at m pt = Some f -> exists ws n her, Forall good_elem ws /\ pt = key ws /\
      get fs (rs ++ ws) = Some n /\ asked her /\
      f = FObj her (info_of (base (abs_name (rs ++ ws))) n) (key ws) (contents n) zero_path None None).
    { intros pt f Hf. destruct (H5 pt ltac:(eauto)) as (ws & Hd & ->).
      destruct (H4 ws Hd) as (n & her & Hg & Hn & Ha & Hf'). exists ws, n, her. split_and!; try done. congruence. }
    split.
    - rewrite H2. apply Hw.
    - intros k i. rewrite H3. intros H. apply lookup_singleton_Some in H as [<- <-]. split; apply Hw.
    - intros pt f Hpt. destruct (Hf pt f Hpt) as (ws & n & her & Hgd & -> & Hg & Ha & ->).
      destruct (wr_pkg _ _ _ _ _ _ Hw ws n Hg) as [Hk Hs]. split; [done|]. split; cbn [efile_of e_info e_here e_path e_parent f_info f_here f_path f_parent].
      + by eapply wr_info.
      + destruct Ha as [p [Hp|Hp]]; [by eapply wr_hdir|by eapply wr_hpkg].
      + done.
      + split; apply u_nil.
    - intros pt f Hpt. destruct (Hf pt f Hpt) as (ws & n & her & Hgd & -> & Hg & Ha & ->). rewrite H2.
      by eapply (ad_print _ _ _ _ _ Had).
  Qed.

  (** *** Packing succeeds *)

  (** Everything to be packed may be opened and the packages asked about exist. *)
  Record packable (l : list pfile) : Prop := {
    pa_exists : forall ws, Forall good_elem ws -> abs_name (rs ++ ws) ∈ pf_abs <$> l ->
      has_suffix (abs_name (rs ++ ws)) tmp_suffix = false -> is_Some (get fs (rs ++ ws));
    pa_open : forall ws n, taken fs rs (pf_abs <$> l) ws -> get fs (rs ++ ws) = Some n -> n_ok (n_meta n) = true;
    pa_hdir : forall ws n, taken fs rs (pf_abs <$> l) ws -> get fs (rs ++ ws) = Some n ->
      is_ok (hdir (if n_isdir n then abs_name (rs ++ ws) else dirname (abs_name (rs ++ ws))));
    pa_hpkg : is_ok (hpkg mp)
  }.

  Lemma packable_tail f l : packable (f :: l) -> packable l.
  Proof.
    intros [H1 H2 H3 H4]. split; [| | |done].
    - intros ws Hws Hin. apply H1; [done|]. by right.
    - intros ws n Ht. apply H2. apply taken_cons. by right.
    - intros ws n Ht. apply H3. apply taken_cons. by right.
  Qed.

  Lemma stuff_loop_ok l m D :
    packed m D -> inside l -> packable l -> is_ok (stuff_loop parse hdir hpkg fs m l).
  Proof.
    revert m D. induction l as [|f l IH]; intros m D Hp Hin Hpk; [by eexists|].
    inversion Hin as [|? ? (ws & Hws & Ea) Hin']; subst. cbn [stuff_loop].
    pose proof (packable_tail _ _ Hpk) as Hpk'.
    destruct (has_suffix (pf_abs f) tmp_suffix) eqn:Es; [by eapply IH|].
    assert (Hgd : Forall good_elem (rs ++ ws)) by (apply Forall_app; split; [apply Had|done]).
    destruct (pa_exists _ Hpk ws Hws) as [n Hg]; [rewrite <- Ea; by left|by rewrite <- Ea|].
    assert (Ht : forall us x, get fs (rs ++ ws ++ us) = Some x -> taken fs rs (pf_abs <$> f :: l) (ws ++ us)).
    { intros us x Hx. apply taken_cons. left. rewrite (taken_one f ws) by done. split; [done|]. by exists us, x. }
    assert (Htn : taken fs rs (pf_abs <$> f :: l) ws).
    { specialize (Ht [] n). rewrite app_nil_r in Ht. auto. }
    unfold os_open. rewrite Ea, find_abs, Hg, (pa_open _ Hpk ws n Htn Hg) by done.
    destruct (add parse hdir hpkg fs m (abs_name (rs ++ ws)) n) as [m1 e] eqn:Eadd.
    destruct e as [e|]; [exfalso|eapply IH; [|done|done]; by eapply add_packed].
    unfold add in Eadd. unfold mem_parse in Eadd. rewrite (pk_here _ _ Hp) in Eadd.
    rewrite (ad_abs _ _ _ _ _ Had ws n Hg) in Eadd.
    pose proof (pa_hdir _ Hpk ws n Htn Hg) as Hh.
    destruct (wf_get _ _ _ Hwf Hg) as [Hwfn _]. destruct (pa_hpkg _ Hpk) as [ph Ehp].
    destruct n as [i d|i cs]; cbn [info_of d_isdir n_isdir] in *; destruct Hh as [her Eh]; rewrite Eh in Eadd; [done|].
    destruct (walk_disk_steps fs (add_fn parse hpkg fs) (fun m => m_here m = c) no_skip
      (fun x m => add_file m (key (drop (length rs) x.1)) ph (info_of (base (abs_name x.1)) x.2) (contents x.2))
      (rs ++ ws) (NDir i cs) m) as [E _]; try done.
    - intros vs x Hx. apply (pa_open _ Hpk (ws ++ vs)); [|by rewrite app_assoc, get_app, Hg].
      apply (Ht vs x). by rewrite app_assoc, get_app, Hg.
    - intros vs x Hx s Hs. unfold add_fn, os_open. 
      assert (Hgx : get fs (rs ++ ws ++ vs) = Some x) by (by rewrite app_assoc, get_app, Hg).
      destruct (wf_get _ _ _ Hwf Hgx) as [_ Hgdx]. rewrite <- app_assoc. rewrite find_abs, Hgx by done.
      rewrite (pa_open _ Hpk (ws ++ vs) x (Ht vs x Hgx) Hgx). unfold mem_parse. rewrite Hs.
      rewrite (ad_abs _ _ _ _ _ Had _ _ Hgx). cbn [p_pkg]. rewrite Ehp. cbn [fst snd].
      rewrite drop_app. unfold skip_err. done.
    - by apply Hp.
    - rewrite E in Eadd. done.
  Qed.
End Packed.
