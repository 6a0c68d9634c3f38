(** Model of the scan of a whole module: Parser.ParseDir
    (/repo/parser/parser.go:91-135) put into Parser.parse (ParserDirs.v).

    [gosrc] stands for go/parser.ParseFile: the syntax tree of a file's text,
    or an error.  go/parser.ParseDir is modelled from the Go standard library:
    it parses the files of the directory whose name ends in ".go" and fails if
    one of them does not parse.  The sources come out of two Go maps
    (parser.go:120-132); [dorder] is the order.  A crash of the scanner ends
    the scan as an error does. *)
From Verif Require Import Bytes GoPath Here GoTypes WalkSpec Disk Decls DeclsProofs JsonStr GoQuote Source SourceProofs ParserDirs.

(** A parsed source file: its syntax tree and the objects of its identifiers. *)
Record source := Src { s_ast : ast; s_objs : nat -> object }.

Definition crashed : gerr := EMsg (B"panic").

Section Project.
  Context (parse : resolver) (hdir hpkg : bytes -> res hinfo) (fs : node).
  Context (gosrc : bytes -> bytes -> res source).
  Context (dorder : list (bytes * source) -> list (bytes * source)).

  (** go/parser.ParseFile of one directory entry. *)
  Definition go_file (p : bytes) (c : node) : res source :=
    match c with
    | NFile i text => if n_ok i then gosrc p text else Err (EPath (B"open") p)
    | NDir _ _ => Err (EPath (B"read") p)
    end.

  (** go/parser.ParseDir with the filter of parser.go:111-113. *)
  Fixpoint go_files (p : bytes) (cs : list (bytes * node)) : res (list (bytes * source)) :=
    match cs with
    | [] => Ok []
    | (w, c) :: cs =>
        if has_suffix w (B".go") && negb (n_isdir c) then
          match go_file (join2 p w) c with
          | Err e => Err e
          | Ok s => match go_files p cs with Ok l => Ok ((join2 p w, s) :: l) | Err e => Err e end
          end
        else go_files p cs
    end.

  (** Parser.ParseDir, parser.go:91-135. *)
  Definition parse_dir (p : bytes) : res (list (bytes * source)) :=
    match os_stat fs p with
    | Err e => Err e
    | Ok info =>
        if d_isdir info then
          match hdir p with
          | Err e => Err e
          | Ok her =>
              match parse her (trim_prefix p (dirname p)) with
              | None => Err EParse
              | Some _ =>
                  match os_open fs p with
                  | Err e => Err e
                  | Ok (NFile _ _) => Err (EPath (B"readdirent") p)
                  | Ok (NDir _ cs) => match go_files p cs with Ok l => Ok (dorder l) | Err e => Err e end
                  end
              end
          end
        else Err (EMsg (B"is not a directory"))
    end.

  (** The loop over the sources, parser.go:220-228. *)
  Fixpoint scan_sources (fuel : nat) (l : list (bytes * source)) : res (list decl) :=
    match l with
    | [] => Ok []
    | (abs, s) :: l =>
        match decls_map parse hdir hpkg (s_objs s) fuel abs (s_ast s) with
        | Done (ds, None) => match scan_sources fuel l with Ok ds' => Ok (ds ++ ds') | Err e => Err e end
        | Done (_, Some e) => Err e
        | Panic | Overflow => Err crashed
        end
    end.
  Definition scan_dir (fuel : nat) (p : bytes) : res (list decl) :=
    match parse_dir p with Err e => Err e | Ok l => scan_sources fuel l end.

  (** parser.Parse, parser.go:35-43 and :137-158. *)
  Definition parse_project (fuel : nat) (her : hinfo) (incs : list bytes) : res (list decl) :=
    match parse_all parse hpkg fs (scan_dir fuel) her incs with
    | Err e => Err e
    | Ok (_, found) => Ok (decls_of (by_kind found))
    end.
End Project.

(** ** Specification *)

Section Spec.
  Context (parse : resolver) (hdir hpkg : bytes -> res hinfo) (gosrc : bytes -> bytes -> res source).

  (** The directories scanned below [n], which is at [rs]: those not passing
      through an ignored name. *)
  Definition scanned_dir (rs : list bytes) (n : node) (vs : list bytes) : Prop :=
    (exists c, get n vs = Some c /\ n_isdir c = true) /\
    forall v1 v2, vs = v1 ++ v2 -> ignored (abs_name (rs ++ v1)) = false.

  (** [s] is the source file at [vs ++ [w]]. *)
  Definition source_file (rs : list bytes) (n : node) (vs : list bytes) (w : bytes) (s : source) : Prop :=
    scanned_dir rs n vs /\ has_suffix w (B".go") = true /\
    exists i text, get n (vs ++ [w]) = Some (NFile i text) /\ n_ok i = true /\
      gosrc (abs_name (rs ++ vs ++ [w])) text = Ok s.

  (** The module can be scanned: its directories resolve, its .go files parse
      and each pkger call in them names a path. *)
  Record scannable (rs : list bytes) (n : node) : Prop := {
    sc_dir : forall vs, scanned_dir rs n vs -> exists her,
      hdir (abs_name (rs ++ vs)) = Ok her /\
      is_Some (parse her (trim_prefix (abs_name (rs ++ vs)) (dirname (abs_name (rs ++ vs)))));
    sc_open : forall vs c, get n vs = Some c ->
      (forall v1 v2, vs = v1 ++ v2 -> v2 <> [] -> ignored (abs_name (rs ++ v1)) = false) -> n_ok (n_meta c) = true;
    sc_parse : forall vs w i text, scanned_dir rs n vs -> has_suffix w (B".go") = true ->
      get n (vs ++ [w]) = Some (NFile i text) -> exists s, gosrc (abs_name (rs ++ vs ++ [w])) text = Ok s;
    sc_idents : forall vs w s, source_file rs n vs w s -> objs_ok (s_objs s) /\ idents_ok (s_ast s);
    sc_calls : forall vs w s c, source_file rs n vs w s -> c ∈ all_calls (s_ast s) ->
      exists d, declares parse hdir hpkg (s_objs s) (abs_name (rs ++ vs ++ [w])) c d
  }.

  (** [d] is the declaration of a call in the module, or of an include. *)
  Definition declared (rs : list bytes) (n : node) (d : decl) : Prop :=
    exists vs w s c, source_file rs n vs w s /\ c ∈ all_calls (s_ast s) /\
      declares parse hdir hpkg (s_objs s) (abs_name (rs ++ vs ++ [w])) c d.
  Definition included (her : hinfo) (incs : list bytes) (d : decl) : Prop :=
    exists inc, inc ∈ incs /\ new_include parse hpkg her inc = Ok d.
End Spec.

(** ** Proofs *)

(** Walks, looking only at what is visited. *)
Definition on_the_way (sk : list bytes -> bool) (ws vs : list bytes) : Prop :=
  forall v1 v2, vs = v1 ++ v2 -> v2 <> [] -> sk (ws ++ v1) = false.

Lemma fwalk_steps_way {S} (f : wfunc S) I sk step ws n s :
  Forall good_elem ws -> wf_node n ->
  (forall vs c, get n vs = Some c -> on_the_way sk ws vs -> n_ok (n_meta c) = true) ->
  (forall vs c, get n vs = Some c -> on_the_way sk ws vs -> acts f I sk step (ws ++ vs) c) -> I s ->
  fwalk f (abs_name ws) n s = (run_steps step (visited sk ws n) s, skip_err sk ws n) /\
  I (run_steps step (visited sk ws n) s).
Proof.
  assert (Hnil : forall ws, on_the_way sk ws []).
  { intros us v1 v2 E. symmetry in E. apply app_nil in E as [_ ->]. done. }
  revert ws s. induction n as [i d|i cs IH] using node_ind'; intros ws s Hws Hwf Hop Hact Hs.
  - specialize (Hact [] _ eq_refl (Hnil ws)). rewrite app_nil_r in Hact. exact (Hact s Hs).
  - assert (Hok : n_ok i = true) by (by apply (Hop [] _ eq_refl (Hnil ws))).
    cbn [fwalk visited]. rewrite Hok.
    destruct (Hact [] _ eq_refl (Hnil ws) s Hs) as [E1 H1]. rewrite app_nil_r in E1, H1.
    rewrite E1. unfold skip_err. cbn [n_isdir]. rewrite andb_true_r.
    destruct (sk ws) eqn:Esk; [done|].
    unfold run_steps. cbn [fold_left]. fold (@run_steps S (list bytes * node) step).
    apply wf_dir in Hwf as [HS HF].
    apply (walk_children_steps _ I step (fun x => visited sk (ws ++ [x.1]) x.2) (fun x => sk (ws ++ [x.1])));
      [|done].
    rewrite Forall_forall in IH, HF. apply Forall_forall. intros [w c] Hin s' Hs'.
    cbn [fst snd]. destruct (HF _ Hin) as [Hw Hwc]. cbn [fst snd] in *.
    rewrite join2_name by done.
    assert (Hget : forall vs d, get c vs = Some d -> get (NDir i cs) (w :: vs) = Some d).
    { intros vs d Hg. cbn [get]. apply (child_iff w c cs HS) in Hin. by rewrite Hin. }
    assert (Hway : forall vs, on_the_way sk (ws ++ [w]) vs -> on_the_way sk ws (w :: vs)).
    { intros vs H [|x v1] v2 E Hn; [by rewrite app_nil_r|]. injection E as <- ->.
      change (w :: v1) with ([w] ++ v1). rewrite app_assoc. by eapply H. }
    apply (IH _ Hin (ws ++ [w]) s'); [|done|..|done].
    + apply Forall_app. split; [done|]. by constructor.
    + intros vs d Hg Hy. apply (Hop (w :: vs)); [by apply Hget|by apply Hway].
    + intros vs d Hg Hy. rewrite <- app_assoc. apply Hact; [by apply Hget|by apply Hway].
Qed.

Lemma walk_disk_steps_way {S} fs (f : wfunc S) I sk step ws n s :
  Forall good_elem ws -> get fs ws = Some n -> wf_node n ->
  (forall vs c, get n vs = Some c -> on_the_way sk ws vs -> n_ok (n_meta c) = true) ->
  (forall vs c, get n vs = Some c -> on_the_way sk ws vs -> acts f I sk step (ws ++ vs) c) -> I s ->
  walk_disk fs (abs_name ws) f s = (run_steps step (visited sk ws n) s, None) /\
  I (run_steps step (visited sk ws n) s).
Proof.
  intros Hws Hg Hwf Hop Hact Hs. unfold walk_disk. rewrite find_abs, Hg by done.
  destruct (fwalk_steps_way f I sk step ws n s) as [E H]; [done..|].
  rewrite E. unfold skip_err. split; [|done]. by destruct (sk ws && n_isdir n).
Qed.

Section Proofs.
  Context (parse : resolver) (hdir hpkg : bytes -> res hinfo) (fs : node).
  Context (gosrc : bytes -> bytes -> res source).

  (** What the walk over the directories finds. *)
  Lemma walk_found pdir rs n st :
    Forall good_elem rs -> get fs rs = Some n -> wf_node n ->
    (forall vs c, get n vs = Some c ->
      (forall v1 v2, vs = v1 ++ v2 -> v2 <> [] -> ignored (abs_name (rs ++ v1)) = false) -> n_ok (n_meta c) = true) ->
    (forall vs, scanned_dir rs n vs -> exists ds, pdir (abs_name (rs ++ vs)) = Ok ds) ->
    exists dirs found,
      walk_disk fs (abs_name rs) (parse_fn pdir) st = ((st.1 ++ (abs_name <$> dirs), st.2 ++ found), None) /\
      (forall ws, ws ∈ dirs <-> exists vs, ws = rs ++ vs /\ scanned_dir rs n vs) /\
      forall d, d ∈ found <-> exists vs ds, scanned_dir rs n vs /\ pdir (abs_name (rs ++ vs)) = Ok ds /\ d ∈ ds.
  Proof.
    intros Hrs Hg Hwf Hop Hpd. set (sk := fun ws => ignored (abs_name ws)).
    assert (Hscan : forall vs c, get n vs = Some c -> on_the_way sk rs vs -> n_isdir c = true -> sk (rs ++ vs) = false ->
      scanned_dir rs n vs).
    { intros vs c Hc Hw Hd Hi. split; [by exists c|]. intros v1 v2 ->. destruct v2 as [|x v2].
      - rewrite app_nil_r in Hi. exact Hi.
      - by apply (Hw v1 (x :: v2)). }
    destruct (walk_disk_steps_way fs (parse_fn pdir) (fun _ => True) sk (dir_step pdir) rs n st Hrs Hg Hwf) as [E _];
      [| |done|].
    { intros vs c Hc Hw. by apply (Hop vs). }
    { intros vs c Hc Hw. apply parse_acts. intros Hd Hi. apply Hpd. by eapply Hscan. }
    assert (Hvis : forall x, x ∈ filter (fun x => wanted x = true) (visited sk rs n) <->
      exists vs, x.1 = rs ++ vs /\ get n vs = Some x.2 /\ scanned_dir rs n vs).
    { intros [us c]. rewrite elem_of_list_filter, visited_elem by done. cbn [fst snd]. unfold wanted. cbn [fst snd].
      rewrite andb_true_iff, negb_true_iff. split.
      - intros [[Hd Hi] (vs & -> & Hc & Hw)]. exists vs. split; [done|]. split; [done|]. by eapply Hscan.
      - intros (vs & -> & Hc & (c' & Hc' & Hd) & Hs). assert (c' = c) as -> by congruence. split.
        + split; [done|]. apply (Hs vs []). by rewrite app_nil_r.
        + exists vs. split; [done|]. split; [done|]. intros v1 v2 Ev _. by apply (Hs v1 v2). }
    destruct (run_dir_steps pdir (visited sk rs n) st) as (E1 & dss & H2 & E2).
    { apply Forall_forall. intros x Hin Hw. destruct (proj1 (Hvis x)) as (vs & Ex & _ & Hs).
      - by apply elem_of_list_filter.
      - rewrite Ex. by apply Hpd. }
    exists (filter (fun x => wanted x = true) (visited sk rs n)).*1, (concat dss). split.
    { rewrite E. f_equal. rewrite <- E1, <- E2. by destruct (run_steps (dir_step pdir) (visited sk rs n) st). }
    assert (Hdirs : forall ws, ws ∈ (filter (fun x => wanted x = true) (visited sk rs n)).*1 <->
      exists vs, ws = rs ++ vs /\ scanned_dir rs n vs).
    { intros ws. rewrite elem_of_list_fmap. split.
      - intros (x & -> & Hx). apply Hvis in Hx as (vs & Ex & _ & Hs). eauto.
      - intros (vs & -> & Hs). pose proof Hs as ((c & Hc & _) & _). exists (rs ++ vs, c). split; [done|].
        apply Hvis. exists vs. done. }
    split; [done|]. intros d. rewrite elem_of_list_In, in_concat. split.
    - intros (ds & Hds & Hd). apply elem_of_list_In in Hds, Hd.
      apply elem_of_list_lookup in Hds as [i Hi]. destruct (Forall2_lookup_r _ _ _ _ _ H2 Hi) as (p & Hp & Ep).
      apply elem_of_list_lookup_2, elem_of_list_fmap in Hp as (ws & -> & Hws). apply Hdirs in Hws as (vs & -> & Hs). eauto.
    - intros (vs & ds & Hs & Ep & Hd).
      assert (Hin : abs_name (rs ++ vs) ∈ abs_name <$> (filter (fun x => wanted x = true) (visited sk rs n)).*1).
      { apply elem_of_list_fmap. exists (rs ++ vs). split; [done|]. apply Hdirs. eauto. }
      apply elem_of_list_lookup in Hin as [i Hi]. destruct (Forall2_lookup_l _ _ _ _ _ H2 Hi) as (ds' & Hds' & Ep').
      assert (ds' = ds) as -> by congruence. exists ds. rewrite <- !elem_of_list_In. split; [|done].
      by eapply elem_of_list_lookup_2.
  Qed.

  (** Declarations are determined by their call. *)
  Lemma text_of_det objs a s s' : text_of objs a s -> text_of objs a s' -> s = s'.
  Proof.
    intros H. revert s'. induction H as [s|name o names values i v s Hc Hs Hn Hl Hv Ht IH]; intros s'.
    - by inversion 1.
    - inversion 1 as [|? ? ns vs j v' ? Hc' Hs' Hn' Hl' Hv' Ht']; subst.
      rewrite Hs in Hs'. injection Hs' as <- <-.
      assert (j = i) as ->.
      { destruct (Nat.lt_trichotomy i j) as [?|[?|?]]; [exfalso; by eapply Hl'|done|exfalso; by eapply Hl]. }
      rewrite Hv in Hv'. injection Hv' as <-. by apply IH.
  Qed.
  Lemma declares_det objs abs c d d' :
    declares parse hdir hpkg objs abs c d -> declares parse hdir hpkg objs abs c d' -> d = d'.
  Proof.
    destruct d as [k [fa fp fh] v], d' as [k' [fa' fp' fh'] v']. unfold declares.
    cbn [dk d_value d_file pf_abs pf_path pf_here].
    intros (-> & (a & r & s & Ea & Ht & Hu) & i & h & Hi & Hp & -> & Hh & ->)
      (-> & (a' & r' & s' & Ea' & Ht' & Hu') & i' & h' & Hi' & Hp' & -> & Hh' & ->).
    rewrite Ea in Ea'. injection Ea' as <- <-. rewrite (text_of_det _ _ _ _ Ht Ht') in Hu.
    assert (v = v') as -> by congruence. assert (i' = i) as -> by congruence. assert (fp' = fp) as -> by congruence.
    assert (h' = h) as ->; [|done]. destruct Hh as [[? ?]|[? ?]], Hh' as [[? ?]|[? ?]]; congruence.
  Qed.

  Lemma go_files_spec p cs :
    (forall w c, (w, c) ∈ cs -> has_suffix w (B".go") = true -> n_isdir c = false -> exists s, go_file gosrc (join2 p w) c = Ok s) ->
    exists l, go_files gosrc p cs = Ok l /\
      forall abs s, (abs, s) ∈ l <-> exists w c, (w, c) ∈ cs /\ has_suffix w (B".go") = true /\ n_isdir c = false /\
        abs = join2 p w /\ go_file gosrc (join2 p w) c = Ok s.
  Proof.
    induction cs as [|[w c] cs IH]; intros H.
    - exists []. split; [done|]. intros abs s. split; [intros Hx; inversion Hx|]. intros (w & c & Hx & _). inversion Hx.
    - destruct IH as (l & El & Hl). { intros w' c' Hin. apply H. by right. }
      cbn [go_files]. destruct (has_suffix w (B".go") && negb (n_isdir c)) eqn:Eb.
      + apply andb_true_iff in Eb as [Ew Ec]. apply negb_true_iff in Ec.
        destruct (H w c) as [s Es]; [by left|done|done|]. rewrite Es, El. exists ((join2 p w, s) :: l). split; [done|].
        intros abs s'. rewrite elem_of_cons, Hl. split.
        * intros [[= -> ->]|(w' & c' & Hin & ?)]; [exists w, c; split; [by left|done]|exists w', c'; split; [by right|done]].
        * intros (w' & c' & Hin & H1 & H2 & H3 & H4). apply elem_of_cons in Hin as [[= -> ->]|Hin]; [left; congruence|].
          right. exists w', c'. done.
      + rewrite El. exists l. split; [done|]. intros abs s. rewrite Hl. split.
        * intros (w' & c' & Hin & ?). exists w', c'. split; [by right|done].
        * intros (w' & c' & Hin & H1 & H2 & H3 & H4). exists w', c'. split; [|done].
          apply elem_of_cons in Hin as [[= -> ->]|Hin]; [|done]. rewrite H1, H2 in Eb. done.
  Qed.

  (** One directory. *)
  Lemma parse_dir_spec dorder rs n vs :
    (forall l, dorder l ≡ₚ l) -> wf_node fs -> Forall good_elem rs -> get fs rs = Some n ->
    scannable parse hdir hpkg gosrc rs n -> scanned_dir rs n vs ->
    exists l, parse_dir parse hdir fs gosrc dorder (abs_name (rs ++ vs)) = Ok l /\
      forall abs s, (abs, s) ∈ l <-> exists w, abs = abs_name (rs ++ vs ++ [w]) /\ source_file gosrc rs n vs w s.
  Proof.
    intros Ho Hwf Hrs Hg Hsc Hd. pose proof Hd as ((c & Hc & Hdir) & Hign).
    assert (Hgc : get fs (rs ++ vs) = Some c) by (by rewrite get_app, Hg).
    destruct (wf_get _ _ _ Hwf Hgc) as [Hwc Hgood].
    assert (Hok : n_ok (n_meta c) = true).
    { apply (sc_open _ _ _ _ _ _ Hsc vs c Hc). intros v1 v2 E _. by eapply Hign. }
    destruct (sc_dir _ _ _ _ _ _ Hsc vs Hd) as (her & Hh & pt & Hp).
    unfold parse_dir, os_stat, os_open. rewrite find_abs, Hgc by done.
    assert (d_isdir (info_of (base (abs_name (rs ++ vs))) c) = true) as -> by (by destruct c).
    rewrite Hh, Hp. cbn [n_meta]. rewrite Hok. destruct c as [i t|i cs]; [done|]. cbn [n_meta] in *.
    apply wf_dir in Hwc as [HS HF]. rewrite Forall_forall in HF.
    assert (Hch : forall w d, (w, d) ∈ cs <-> get n (vs ++ [w]) = Some d).
    { intros w d. rewrite get_app, Hc. cbn [get]. rewrite <- (child_iff w d cs HS). destruct (child w cs); done. }
    assert (Hj : forall w d, (w, d) ∈ cs -> join2 (abs_name (rs ++ vs)) w = abs_name (rs ++ vs ++ [w])).
    { intros w d Hin. destruct (HF _ Hin) as [Hw _]. rewrite join2_name by done. by rewrite app_assoc. }
    assert (Hopen : forall w d, (w, d) ∈ cs -> n_ok (n_meta d) = true).
    { intros w d Hin. apply (sc_open _ _ _ _ _ _ Hsc (vs ++ [w]) d); [by apply Hch|].
      intros v1 v2 E Hn. destruct v2 as [|x v2 _] using rev_ind; [done|]. rewrite app_assoc in E.
      apply app_inj_tail in E as [E _]. by eapply Hign. }
    destruct (go_files_spec (abs_name (rs ++ vs)) cs) as (l & El & Hl).
    { intros w d Hin Hw Hdd. destruct d as [j text|]; [|done]. unfold go_file. cbn [n_meta] in *.
      pose proof (Hopen _ _ Hin) as Hoj. cbn [n_meta] in Hoj. rewrite Hoj, (Hj _ _ Hin).
      apply (sc_parse _ _ _ _ _ _ Hsc vs w j text Hd Hw). by apply Hch. }
    rewrite El. exists (dorder l). split; [done|]. intros abs s. rewrite Ho, Hl. split.
    - intros (w & d & Hin & Hw & Hdd & -> & Es). exists w. split; [by apply (Hj w d)|]. split; [done|]. split; [done|].
      destruct d as [j text|]; [|done]. exists j, text. split; [by apply Hch|].
      unfold go_file in Es. pose proof (Hopen _ _ Hin) as Hoj. cbn [n_meta] in Hoj. rewrite Hoj in Es. split; [done|].
      by rewrite (Hj w _ Hin) in Es.
    - intros (w & -> & _ & Hw & j & text & Hgw & Hoj & Es). apply Hch in Hgw as Hin. exists w, (NFile j text).
      split; [done|]. split; [done|]. split; [done|]. split; [symmetry; by eapply Hj|].
      unfold go_file. rewrite Hoj, (Hj _ _ Hin). done.
  Qed.

  Lemma scan_sources_spec (l : list (bytes * source)) :
    (forall abs s, (abs, s) ∈ l -> objs_ok (s_objs s) /\ idents_ok (s_ast s) /\
      forall c, c ∈ all_calls (s_ast s) -> exists d, declares parse hdir hpkg (s_objs s) abs c d) ->
    exists F ds, (forall fuel, F <= fuel -> scan_sources parse hdir hpkg fuel l = Ok ds) /\
      forall d, d ∈ ds <-> exists abs s c, (abs, s) ∈ l /\ c ∈ all_calls (s_ast s) /\
        declares parse hdir hpkg (s_objs s) abs c d.
  Proof.
    induction l as [|[abs s] l IH]; intros H.
    - exists 0, []. split; [done|]. intros d. split; [intros Hx; inversion Hx|]. intros (a & s & c & Hx & _). inversion Hx.
    - destruct IH as (F & ds & E & Hds). { intros a' s' Hin. apply H. by right. }
      destruct (H abs s ltac:(by left)) as (Hob & Hid & Hc).
      destruct (scans_all parse hdir hpkg (s_objs s) abs (fun _ _ => false) (s_ast s) Hob Hid) as (F1 & ds1 & H1 & H2).
      { apply Forall_forall. intros c Hin. destruct (Hc c Hin) as [d Hd]. split.
        - destruct Hd as (_ & (a & rest & t & Ea & Ht & _) & _). rewrite Ea. cbn. constructor; [|constructor].
          by eapply text_of_settles.
        - split; eauto. }
      assert (Hall : forall l, kept (fun _ _ => false) l = l).
      { clear. induction l as [|x l IH]; [done|]. unfold kept in *. rewrite filter_cons, decide_True by done. by rewrite IH. }
      rewrite Hall in H1. exists (F1 `max` F), (ds1 ++ ds). split.
      + intros fuel HF. cbn [scan_sources]. unfold decls_map. destruct (H2 fuel ([], None)) as [e ->]; [lia|].
        rewrite E by lia. done.
      + intros d. rewrite elem_of_app, Hds. split.
        * intros [Hd|(a & s' & c & Hin & ?)]; [|exists a, s', c; split; [by right|done]].
          apply elem_of_list_lookup in Hd as [i Hi]. destruct (Forall2_lookup_r _ _ _ _ _ H1 Hi) as (c & Hci & Hd).
          exists abs, s, c. split; [by left|]. split; [by eapply elem_of_list_lookup_2|done].
        * intros (a & s' & c & Hin & Hca & Hd). apply elem_of_cons in Hin as [[= -> ->]|Hin]; [left|right; eauto 10].
          apply elem_of_list_lookup in Hca as [i Hi]. destruct (Forall2_lookup_l _ _ _ _ _ H1 Hi) as (d' & Hdi & Hd').
          rewrite (declares_det _ _ _ _ _ Hd Hd'). by eapply elem_of_list_lookup_2.
  Qed.

  Lemma scan_dir_spec dorder rs n vs :
    (forall l, dorder l ≡ₚ l) -> wf_node fs -> Forall good_elem rs -> get fs rs = Some n ->
    scannable parse hdir hpkg gosrc rs n -> scanned_dir rs n vs ->
    exists F ds, (forall fuel, F <= fuel -> scan_dir parse hdir hpkg fs gosrc dorder fuel (abs_name (rs ++ vs)) = Ok ds) /\
      forall d, d ∈ ds <-> exists w s c, source_file gosrc rs n vs w s /\ c ∈ all_calls (s_ast s) /\
        declares parse hdir hpkg (s_objs s) (abs_name (rs ++ vs ++ [w])) c d.
  Proof.
    intros Ho Hwf Hrs Hg Hsc Hd. destruct (parse_dir_spec dorder rs n vs Ho Hwf Hrs Hg Hsc Hd) as (l & El & Hl).
    destruct (scan_sources_spec l) as (F & ds & E & Hds).
    { intros abs s Hin. apply Hl in Hin as (w & -> & Hs). destruct (sc_idents _ _ _ _ _ _ Hsc vs w s Hs).
      split; [done|]. split; [done|]. intros c Hc. by apply (sc_calls _ _ _ _ _ _ Hsc vs w s c). }
    exists F, ds. split.
    - intros fuel HF. unfold scan_dir. rewrite El. by apply E.
    - intros d. rewrite Hds. split.
      + intros (abs & s & c & Hin & ?). apply Hl in Hin as (w & -> & Hs). eauto.
      + intros (w & s & c & Hs & ?). exists (abs_name (rs ++ vs ++ [w])), s, c. split; [|done]. apply Hl. eauto.
  Qed.

  Lemma parse_includes_spec her incs ds :
    parse_includes parse hpkg her incs = Ok ds -> forall d, d ∈ ds <-> included parse hpkg her incs d.
  Proof.
    unfold included. revert ds. induction incs as [|i incs IH]; intros ds; cbn [parse_includes].
    - intros [= <-] d. split; [intros H; inversion H|]. intros (i & H & _). inversion H.
    - destruct (new_include parse hpkg her i) as [d0|] eqn:E0; [|done].
      destruct (parse_includes parse hpkg her incs) as [ds'|]; [|done]. intros [= <-] d. rewrite elem_of_cons, (IH _ eq_refl).
      split.
      + intros [->|(j & Hj & ?)]; [exists i; split; [by left|done]|exists j; split; [by right|done]].
      + intros (j & Hj & E). apply elem_of_cons in Hj as [->|Hj]; [left; congruence|right; eauto].
  Qed.

  Lemma by_kind_all found d : d ∈ decls_of (by_kind found) <-> d ∈ found.
  Proof.
    unfold decls_of. rewrite elem_of_list_In, in_concat. split.
    - intros (l & Hl & Hd). apply in_map_iff in Hl as (k & <- & _). apply elem_of_list_In, elem_of_list_filter in Hd. by destruct Hd.
    - intros Hd. exists (by_kind found (dk d)). split.
      + apply in_map. unfold ordered_kinds. destruct (dk d); cbn; tauto.
      + apply elem_of_list_In, elem_of_list_filter. done.
  Qed.

  (** The stack depth needed for finitely many directories. *)
  Lemma fuel_for {A} (l : list A) (P : A -> nat -> Prop) :
    (forall x, x ∈ l -> exists F, forall fuel, F <= fuel -> P x fuel) ->
    exists F, forall fuel, F <= fuel -> forall x, x ∈ l -> P x fuel.
  Proof.
    induction l as [|x l IH]; intros H; [exists 0; intros ? ? y Hy; inversion Hy|].
    destruct IH as [F HF]. { intros y Hy. apply H. by right. }
    destruct (H x ltac:(by left)) as [F' HF']. exists (F `max` F'). intros fuel Hf y Hy.
    apply elem_of_cons in Hy as [->|Hy]; [apply HF'; lia|apply HF; [lia|done]].
  Qed.

  Lemma project_spec dorder her incs rs n ds0 :
    (forall l, dorder l ≡ₚ l) -> wf_node fs -> Forall good_elem rs -> get fs rs = Some n -> n_isdir n = true ->
    h_dir her = abs_name rs ->
    scannable parse hdir hpkg gosrc rs n -> parse_includes parse hpkg her incs = Ok ds0 ->
    exists F, forall fuel, F <= fuel -> exists ds,
      parse_project parse hdir hpkg fs gosrc dorder fuel her incs = Ok ds /\ virtual_first ds /\
      forall d, d ∈ ds <-> included parse hpkg her incs d \/ declared parse hdir hpkg gosrc rs n d.
  Proof.
    intros Ho Hwf Hrs Hg Hd Hh Hsc Hi.
    assert (Hwn : wf_node n) by (by destruct (wf_get _ _ _ Hwf Hg)).
    set (sk := fun ws => ignored (abs_name ws)).
    destruct (fuel_for (visited sk rs n) (fun x fuel => forall vs, x.1 = rs ++ vs -> scanned_dir rs n vs ->
      exists ds, scan_dir parse hdir hpkg fs gosrc dorder fuel (abs_name (rs ++ vs)) = Ok ds /\
        forall d, d ∈ ds <-> exists w s c, source_file gosrc rs n vs w s /\ c ∈ all_calls (s_ast s) /\
          declares parse hdir hpkg (s_objs s) (abs_name (rs ++ vs ++ [w])) c d)) as [F HF].
    { intros [us c] Hin. apply visited_elem in Hin as (vs & -> & Hc & Hw); [|done]. cbn [fst].
      destruct (decide (ignored (abs_name (rs ++ vs)) = false /\ n_isdir c = true)) as [[Hig Hdc]|Hn].
      - assert (Hs : scanned_dir rs n vs).
        { split; [by exists c|]. intros v1 v2 ->. destruct v2 as [|x v2]; [by rewrite app_nil_r in Hig|]. by eapply (Hw v1 (x :: v2)). }
        destruct (scan_dir_spec dorder rs n vs Ho Hwf Hrs Hg Hsc Hs) as (F & ds & E & Hds).
        exists F. intros fuel Hf vs' Evs _. apply app_inv_head in Evs as <-. exists ds. split; [by apply E|done].
      - exists 0. intros fuel _ vs' Evs Hs. apply app_inv_head in Evs as <-. exfalso. apply Hn.
        destruct Hs as ((c' & Hc' & Hdc) & Hs). assert (c' = c) as -> by congruence. split; [|done].
        apply (Hs vs []). by rewrite app_nil_r. }
    assert (Hin : forall vs, scanned_dir rs n vs -> exists c, (rs ++ vs, c) ∈ visited sk rs n).
    { intros vs Hs. pose proof Hs as ((c & Hc & _) & Hs2). exists c. apply visited_elem; [done|]. exists vs.
      split; [done|]. split; [done|]. intros v1 v2 E _. by apply (Hs2 v1 v2). }
    exists F. intros fuel Hf. specialize (HF fuel Hf).
    destruct (walk_found (scan_dir parse hdir hpkg fs gosrc dorder fuel) rs n ([], ds0)) as (dirs & found & E & _ & Hfound);
      [done|done|done|by apply (sc_open _ _ _ _ _ _ Hsc)| |].
    { intros vs Hs. destruct (Hin vs Hs) as [c Hc]. destruct (HF _ Hc vs eq_refl Hs) as (ds & ? & _). eauto. }
    unfold parse_project, parse_all. rewrite Hi, Hh. unfold os_stat. rewrite find_abs, Hg by done.
    assert (d_isdir (info_of (base (abs_name rs)) n) = true) as -> by (by destruct n).
    rewrite E. cbn [fst snd app]. eexists. split; [done|]. split.
    - exists (by_kind (ds0 ++ found) KMkdirAll ++ by_kind (ds0 ++ found) KCreate),
        (concat (map (by_kind (ds0 ++ found)) [KInclude; KStat; KOpen; KDir; KWalk])).
      split; [unfold decls_of, ordered_kinds; cbn [map concat]; by rewrite <- app_assoc|].
      assert (Hk : forall k, Forall (fun d => dk d = k) (by_kind (ds0 ++ found) k)).
      { intros k. apply Forall_forall. intros d Hdd. apply elem_of_list_filter in Hdd. by destruct Hdd. }
      split.
      + apply Forall_app. split; (eapply Forall_impl; [apply Hk|]); intros d Ek; unfold is_virtual; by rewrite Ek.
      + cbn [map concat]. rewrite !Forall_app.
        split_and!; try apply Forall_nil_2; (eapply Forall_impl; [apply Hk|]); intros d Ek; unfold is_virtual; by rewrite Ek.
    - intros d. rewrite by_kind_all, elem_of_app, (parse_includes_spec _ _ _ Hi), Hfound. unfold declared.
      split; intros [Hx|Hx]; [by left| |by left|].
      + destruct Hx as (vs & ds & Hs & Ep & Hdd). destruct (Hin vs Hs) as [c Hc].
        destruct (HF _ Hc vs eq_refl Hs) as (ds' & Ep' & Hds'). assert (ds' = ds) as -> by congruence.
        apply Hds' in Hdd as (w & s & cc & ?). right. eauto 10.
      + destruct Hx as (vs & w & s & cc & Hsf & Hcc & Hdd). right. pose proof Hsf as [Hs _].
        destruct (Hin vs Hs) as [c Hc]. destruct (HF _ Hc vs eq_refl Hs) as (ds' & Ep' & Hds').
        exists vs, ds'. split; [done|]. split; [done|]. apply Hds'. by exists w, s, cc.
  Qed.

  (** ** A scan that ends without an error *)

  Lemma value_sound objs fuel a s :
    value_node objs fuel a = Done s -> idents_ok a -> objs_ok objs -> text_of objs a s \/ unquote s = None.
  Proof.
    intros Hv Hi Ho. revert a Hv Hi. induction fuel as [|fuel IH]; intros a; [done|].
    destruct a as [t|x [o|]|x w|f args|cs]; cbn [value_node]; try (intros [= <-]; by right); try done.
    { intros [= <-] _. left. apply t_lit. }
    intros Hv Hi. cbn [idents_ok] in Hi. destruct (o_con (objs o)) eqn:Ec; [|injection Hv as <-; by right].
    destruct (o_spec (objs o)) as [[names values]|] eqn:Es; [|injection Hv as <-; by right].
    destruct (index_of x names) as [i|] eqn:Ei; [|injection Hv as <-; by right].
    destruct (values !! i) as [v|] eqn:Ev; [|done].
    apply index_of_some in Ei as [E1 E2]. specialize (Ho _ _ _ Es). rewrite Forall_forall in Ho.
    destruct (IH v Hv) as [Ht|Hn]; [apply Ho; by eapply elem_of_list_lookup_2| |by right].
    left. by eapply t_con.
  Qed.

  Lemma visit_sound objs fuel abs k args st st' b :
    visit_call parse hdir hpkg objs fuel abs k args st = Done (st', b) -> Forall idents_ok args -> objs_ok objs ->
    forall d, d ∈ st'.1 -> d ∈ st.1 \/ declares parse hdir hpkg objs abs (k, args) d.
  Proof.
    unfold visit_call. destruct args as [|a args]; [intros [= <- <-]; by left|].
    intros H Hi Ho d Hd. apply Forall_cons in Hi as [Hi _].
    destruct (value_node objs fuel a) as [s| |] eqn:Ev; [|done..].
    destruct (unquote s) as [val|] eqn:Eu; [|injection H as <- <-; by left].
    destruct (value_sound objs fuel a s Ev Hi Ho) as [Ht|Hn]; [|congruence].
    destruct (locate parse hdir hpkg abs val) as [f|] eqn:El; [|injection H as <- <-; by left].
    injection H as <- <-. cbn [fst] in Hd. apply elem_of_app in Hd as [Hd|Hd]; [by left|].
    apply elem_of_list_singleton in Hd. subst d. right. split; [done|]. split; [by exists a, args, s|].
    unfold locate in El. cbn [d_value d_file]. destruct (hdir (dirname abs)) as [info|] eqn:Eh; [|done].
    destruct (parse info val) as [pt|] eqn:Ep; [|done]. case_bool_decide as Eb.
    - injection El as <-. exists info, info. cbn. split_and!; try done. by left.
    - destruct (hpkg (p_pkg pt)) as [home|] eqn:Ehp; [|done]. injection El as <-.
      exists info, home. cbn. split_and!; try done. by right.
  Qed.

  Lemma scan_sound objs fuel abs n : objs_ok objs -> idents_ok n -> forall st st',
    scan parse hdir hpkg objs fuel abs n st = Done st' ->
    forall d, d ∈ st'.1 -> d ∈ st.1 \/ exists c, c ∈ all_calls n /\ declares parse hdir hpkg objs abs c d.
  Proof.
    intros Ho. unfold all_calls.
    assert (Heach : forall l, Forall (fun n => idents_ok n -> forall st st', scan parse hdir hpkg objs fuel abs n st = Done st' ->
        forall d, d ∈ st'.1 -> d ∈ st.1 \/ exists c, c ∈ calls (fun _ _ => false) n /\ declares parse hdir hpkg objs abs c d) l ->
      Forall idents_ok l -> forall st st', each (scan parse hdir hpkg objs fuel abs) l st = Done st' ->
        forall d, d ∈ st'.1 -> d ∈ st.1 \/ exists c, c ∈ args_list (calls (fun _ _ => false)) l /\ declares parse hdir hpkg objs abs c d).
    { induction l as [|x l IHl]; intros HF Hi st st'; cbn [each args_list].
      - intros [= <-]. by left.
      - apply Forall_cons in HF as [Hx HF]. apply Forall_cons in Hi as [Hix Hi].
        destruct (scan parse hdir hpkg objs fuel abs x st) as [st1| |] eqn:E1; [|done..]. intros E d Hd.
        destruct (IHl HF Hi st1 st' E d Hd) as [H1|(c & Hc & ?)].
        + destruct (Hx Hix st st1 E1 d H1) as [?|(c & Hc & ?)]; [by left|]. right. exists c. split; [|done].
          apply elem_of_app. by left.
        + right. exists c. split; [|done]. apply elem_of_app. by right. }
    induction n as [t|x o|x w IH|f args IHf IHargs|cs IH] using ast_ind'; intros Hi st st'; cbn [scan calls].
    - intros [= <-]. by left.
    - intros [= <-]. by left.
    - by apply IH.
    - cbn [idents_ok] in Hi. destruct Hi as [Hif Hia]. apply all_forall in Hia.
      assert (Hbody : forall st st' : sstate, match scan parse hdir hpkg objs fuel abs f st with
          | Done st => each (scan parse hdir hpkg objs fuel abs) args st | Panic => Panic | Overflow => Overflow end = Done st' ->
        forall d, d ∈ st'.1 -> d ∈ st.1 \/ exists c, c ∈ calls (fun _ _ => false) f ++ args_list (calls (fun _ _ => false)) args /\
          declares parse hdir hpkg objs abs c d).
      { intros s1 s2 E d Hd. destruct (scan parse hdir hpkg objs fuel abs f s1) as [s3| |] eqn:E1; [|done..].
        destruct (Heach args IHargs Hia s3 s2 E d Hd) as [H1|(c & Hc & ?)].
        - destruct (IHf Hif s1 s3 E1 d H1) as [?|(c & Hc & ?)]; [by left|]. right. exists c. split; [|done].
          apply elem_of_app. by left.
        - right. exists c. split; [|done]. apply elem_of_app. by right. }
      rewrite <- pkger_call_called. destruct (pkger_call f) as [k|].
      + destruct (visit_call parse hdir hpkg objs fuel abs k args st) as [[s1 b]| |] eqn:Ev; [|done..].
        pose proof (visit_sound objs fuel abs k args st s1 b Ev Hia Ho) as Hvs.
        destruct b.
        * intros E d Hd. destruct (Hbody s1 st' E d Hd) as [H1|(c & Hc & ?)].
          -- destruct (Hvs d H1) as [?|?]; [by left|]. right. exists (k, args). split; [by left|done].
          -- right. exists c. split; [by right|done].
        * intros [= <-] d Hd. destruct (Hvs d Hd) as [?|?]; [by left|]. right. exists (k, args). split; [by left|done].
      + apply Hbody.
    - cbn [idents_ok] in Hi. apply all_forall in Hi. by apply Heach.
  Qed.

  Lemma scanned_child rs i cs vs w c :
    StronglySorted (fun a b => blt a.1 b.1 = true) cs -> (w, c) ∈ cs -> ignored (abs_name rs) = false ->
    scanned_dir rs (NDir i cs) (w :: vs) <-> scanned_dir (rs ++ [w]) c vs.
  Proof.
    intros HS Hin Hr. apply (child_iff w c cs HS) in Hin. unfold scanned_dir. cbn [get]. rewrite Hin. split.
    - intros [H1 H2]. split; [done|]. intros v1 v2 ->. rewrite <- app_assoc. by apply (H2 (w :: v1) v2).
    - intros [H1 H2]. split; [done|]. intros [|x v1] v2 E; [by rewrite app_nil_r|]. injection E as <- ->.
      specialize (H2 v1 v2 eq_refl). by rewrite <- app_assoc in H2.
  Qed.

  (** The walk found the declarations of the directories scanned, all of which
      were scanned. *)
  Definition scan_result (pdir : bytes -> res (list decl)) (rs : list bytes) (n : node) (found : list decl) : Prop :=
    (forall d, d ∈ found -> exists vs ds, scanned_dir rs n vs /\ pdir (abs_name (rs ++ vs)) = Ok ds /\ d ∈ ds) /\
    (forall vs, scanned_dir rs n vs -> exists ds c, get n vs = Some c /\ n_ok (n_meta c) = true /\
       pdir (abs_name (rs ++ vs)) = Ok ds /\ forall d, d ∈ ds -> d ∈ found).

  Lemma fwalk_result pdir rs n st st' r :
    Forall good_elem rs -> wf_node n ->
    fwalk (parse_fn pdir) (abs_name rs) n st = (st', r) -> r = None \/ r = Some ESkipDir ->
    (r = Some ESkipDir -> n_isdir n = true) /\ exists found, st'.2 = st.2 ++ found /\ scan_result pdir rs n found.
  Proof.
    revert rs st st' r. induction n as [i d|i cs IH] using node_ind'; intros rs st st' r Hrs Hwf E Hr.
    - cbn in E. injection E as <- <-. split; [done|]. exists []. rewrite app_nil_r. split; [done|]. split.
      + intros x Hx. inversion Hx.
      + intros vs ((c & Hc & Hd) & _). destruct vs; [|done]. injection Hc as <-. done.
    - split; [done|]. cbn [fwalk] in E. destruct (n_ok i) eqn:Hok; [|cbn in E; injection E as <- <-; by destruct Hr].
      unfold parse_fn at 1 in E. cbn [info_of d_isdir] in E. destruct (ignored (abs_name rs)) eqn:Hig.
      { injection E as <- <-. exists []. rewrite app_nil_r. split; [done|]. split; [intros x Hx; inversion Hx|].
        intros vs (_ & H). specialize (H [] vs eq_refl). rewrite app_nil_r in H. congruence. }
      destruct (pdir (abs_name rs)) as [ds|] eqn:Epd; [|injection E as <- <-; by destruct Hr].
      apply wf_dir in Hwf as [HS HF].
      assert (Hsub : forall cs0, (forall x, x ∈ cs0 -> x ∈ cs) -> forall st st' r,
        walk_children (fun x => fwalk (parse_fn pdir) (join2 (abs_name rs) x.1) x.2) cs0 st = (st', r) ->
        r = None \/ r = Some ESkipDir ->
        exists found, st'.2 = st.2 ++ found /\
          (forall d, d ∈ found -> exists w c vs ds, (w, c) ∈ cs0 /\ scanned_dir (rs ++ [w]) c vs /\
             pdir (abs_name ((rs ++ [w]) ++ vs)) = Ok ds /\ d ∈ ds) /\
          (forall w c vs, (w, c) ∈ cs0 -> scanned_dir (rs ++ [w]) c vs -> exists ds x, get c vs = Some x /\
             n_ok (n_meta x) = true /\ pdir (abs_name ((rs ++ [w]) ++ vs)) = Ok ds /\ forall d, d ∈ ds -> d ∈ found)).
      { clear E st st' r Hr. induction cs0 as [|[w c] cs0 IHcs]; intros Hin st st' r.
        - intros [= <- <-] _. exists []. rewrite app_nil_r. split; [done|]. split; [intros d Hd; inversion Hd|].
          intros w c vs Hx. inversion Hx.
        - cbn [walk_children fst snd]. rewrite Forall_forall in IH, HF. destruct (HF _ (Hin _ ltac:(by left))) as [Hw Hwc].
          cbn [fst snd] in Hw, Hwc. rewrite join2_name by done.
          destruct (fwalk (parse_fn pdir) (abs_name (rs ++ [w])) c st) as [s1 e1] eqn:E1. intros E Hr.
          assert (Hg : Forall good_elem (rs ++ [w])) by (apply Forall_app; split; [done|by constructor]).
          assert (He : e1 = None \/ e1 = Some ESkipDir).
          { destruct e1 as [e1|]; [|by left]. right. destruct (n_isdir c && _) eqn:Eb.
            - apply andb_true_iff in Eb as [_ Eb]. by apply bool_decide_eq_true_1 in Eb as ->.
            - injection E as <- <-. by destruct Hr. }
          destruct (IH _ (Hin _ ltac:(by left)) (rs ++ [w]) st s1 e1 Hg Hwc E1 He) as (Hsk & f1 & Ef1 & Hf1 & Hf1').
          assert (E' : walk_children (fun x => fwalk (parse_fn pdir) (join2 (abs_name rs) x.1) x.2) cs0 s1 = (st', r)).
          { destruct He as [-> | ->]; [done|]. cbn [snd] in Hsk. rewrite (Hsk eq_refl) in E.
            by rewrite bool_decide_eq_true_2 in E. }
          destruct (IHcs (fun x Hx => Hin x (elem_of_list_further _ _ _ Hx)) s1 st' r E' Hr) as (f2 & Ef2 & Hf2 & Hf2').
          exists (f1 ++ f2). rewrite Ef2, Ef1, app_assoc. split; [done|]. split.
          + intros d Hd. apply elem_of_app in Hd as [Hd|Hd].
            * destruct (Hf1 d Hd) as (vs & ds' & ? & ? & ?). exists w, c, vs, ds'. split; [by left|done].
            * destruct (Hf2 d Hd) as (w' & c' & vs & ds' & ? & ?). exists w', c', vs, ds'. split; [by right|done].
          + intros w' c' vs Hx Hs. apply elem_of_cons in Hx as [[= -> ->]|Hx].
            * destruct (Hf1' vs Hs) as (ds' & x & ? & ? & ? & Hd). exists ds', x. split_and!; [done..|].
              intros d ?. apply elem_of_app. left. by apply Hd.
            * destruct (Hf2' w' c' vs Hx Hs) as (ds' & x & ? & ? & ? & Hd). exists ds', x. split_and!; [done..|].
              intros d ?. apply elem_of_app. right. by apply Hd. }
      destruct (Hsub cs (fun x Hx => Hx) (st.1 ++ [abs_name rs], st.2 ++ ds) st' r E Hr) as (f2 & Ef2 & Hf2 & Hf2').
      exists (ds ++ f2). cbn [snd] in Ef2. rewrite Ef2, app_assoc. split; [done|]. split.
      + intros d Hd. apply elem_of_app in Hd as [Hd|Hd].
        * exists [], ds. rewrite app_nil_r. split; [|done]. split; [by eexists|].
          intros v1 v2 Ev. symmetry in Ev. apply app_nil in Ev as [-> _]. by rewrite app_nil_r.
        * destruct (Hf2 d Hd) as (w & c & vs & ds' & Hin & Hs & Ep & Hd'). exists (w :: vs), ds'.
          split; [by apply (scanned_child rs i cs vs w c HS Hin Hig)|]. rewrite <- app_assoc in Ep. done.
      + intros [|w vs] Hs.
        * exists ds, (NDir i cs). rewrite app_nil_r. split_and!; [done..|]. intros d Hd. apply elem_of_app. by left.
        * pose proof Hs as ((x & Hx & _) & _). cbn [get] in Hx. destruct (child w cs) as [c|] eqn:Ec; [|done].
          assert (Hin : (w, c) ∈ cs) by (by apply (child_iff w c cs HS)).
          apply (scanned_child rs i cs vs w c HS Hin Hig) in Hs.
          destruct (Hf2' w c vs Hin Hs) as (ds' & y & Hy & ? & Ep & Hd). exists ds', y. cbn [get]. rewrite Ec.
          rewrite <- app_assoc in Ep. split_and!; [done..|]. intros d ?. apply elem_of_app. right. by apply Hd.
  Qed.

  Lemma go_files_inv p cs l :
    go_files gosrc p cs = Ok l ->
    (forall abs s, (abs, s) ∈ l -> exists w c, (w, c) ∈ cs /\ has_suffix w (B".go") = true /\ n_isdir c = false /\
       abs = join2 p w /\ go_file gosrc (join2 p w) c = Ok s) /\
    (forall w c, (w, c) ∈ cs -> has_suffix w (B".go") = true -> n_isdir c = false ->
       exists s, go_file gosrc (join2 p w) c = Ok s /\ (join2 p w, s) ∈ l).
  Proof.
    revert l. induction cs as [|[w c] cs IH]; intros l; cbn [go_files].
    - intros [= <-]. split; [intros ? ? Hx; inversion Hx|]. intros ? ? Hx. inversion Hx.
    - destruct (has_suffix w (B".go") && negb (n_isdir c)) eqn:Eb.
      + apply andb_true_iff in Eb as [Ew Ec]. apply negb_true_iff in Ec.
        destruct (go_file gosrc (join2 p w) c) as [s|] eqn:Es; [|done].
        destruct (go_files gosrc p cs) as [l'|]; [|done]. intros [= <-]. destruct (IH l' eq_refl) as [H1 H2]. split.
        * intros abs s' Hx. apply elem_of_cons in Hx as [[= -> ->]|Hx].
          -- exists w, c. split; [by left|done].
          -- destruct (H1 _ _ Hx) as (w' & c' & ? & ?). exists w', c'. split; [by right|done].
        * intros w' c' Hx Hw' Hc'. apply elem_of_cons in Hx as [[= -> ->]|Hx].
          -- exists s. split; [done|]. by left.
          -- destruct (H2 _ _ Hx Hw' Hc') as (s' & ? & ?). exists s'. split; [done|]. by right.
      + intros E. destruct (IH l E) as [H1 H2]. split.
        * intros abs s' Hx. destruct (H1 _ _ Hx) as (w' & c' & ? & ?). exists w', c'. split; [by right|done].
        * intros w' c' Hx Hw' Hc'. apply elem_of_cons in Hx as [[= -> ->]|Hx]; [by rewrite Hw', Hc' in Eb|]. by apply H2.
  Qed.

  Lemma scan_sources_inv fuel l ds :
    scan_sources parse hdir hpkg fuel l = Ok ds ->
    (forall d, d ∈ ds -> exists abs s ds', (abs, s) ∈ l /\ decls_map parse hdir hpkg (s_objs s) fuel abs (s_ast s) = Done (ds', None) /\ d ∈ ds') /\
    (forall abs s, (abs, s) ∈ l -> exists ds', decls_map parse hdir hpkg (s_objs s) fuel abs (s_ast s) = Done (ds', None) /\
       forall d, d ∈ ds' -> d ∈ ds).
  Proof.
    revert ds. induction l as [|[abs s] l IH]; intros ds; cbn [scan_sources].
    - intros [= <-]. split; [intros ? Hx; inversion Hx|]. intros ? ? Hx. inversion Hx.
    - destruct (decls_map parse hdir hpkg (s_objs s) fuel abs (s_ast s)) as [[ds1 [e|]]| |] eqn:E1; [done| |done..].
      destruct (scan_sources parse hdir hpkg fuel l) as [ds2|]; [|done]. intros [= <-]. destruct (IH ds2 eq_refl) as [H1 H2]. split.
      + intros d Hd. apply elem_of_app in Hd as [Hd|Hd].
        * exists abs, s, ds1. split; [by left|done].
        * destruct (H1 d Hd) as (a & s' & ds' & ? & ?). exists a, s', ds'. split; [by right|done].
      + intros a s' Hx. apply elem_of_cons in Hx as [[= -> ->]|Hx].
        * exists ds1. split; [done|]. intros d ?. apply elem_of_app. by left.
        * destruct (H2 a s' Hx) as (ds' & ? & Hd). exists ds'. split; [done|]. intros d ?. apply elem_of_app. right. by apply Hd.
  Qed.

  (** What one directory contributes. *)
  Lemma scan_dir_inv dorder fuel rs n vs ds :
    (forall l, dorder l ≡ₚ l) -> wf_node fs -> Forall good_elem rs -> get fs rs = Some n -> scanned_dir rs n vs ->
    scan_dir parse hdir hpkg fs gosrc dorder fuel (abs_name (rs ++ vs)) = Ok ds ->
    (forall d, d ∈ ds -> exists w s ds', source_file gosrc rs n vs w s /\
       decls_map parse hdir hpkg (s_objs s) fuel (abs_name (rs ++ vs ++ [w])) (s_ast s) = Done (ds', None) /\ d ∈ ds') /\
    (forall w i text, has_suffix w (B".go") = true -> get n (vs ++ [w]) = Some (NFile i text) ->
       exists s ds', source_file gosrc rs n vs w s /\
         decls_map parse hdir hpkg (s_objs s) fuel (abs_name (rs ++ vs ++ [w])) (s_ast s) = Done (ds', None) /\
         forall d, d ∈ ds' -> d ∈ ds).
  Proof.
    intros Ho Hwf Hrs Hg Hd. pose proof Hd as ((c & Hc & Hdir) & _).
    assert (Hgc : get fs (rs ++ vs) = Some c) by (by rewrite get_app, Hg).
    destruct (wf_get _ _ _ Hwf Hgc) as [Hwc Hgood].
    unfold scan_dir, parse_dir, os_stat, os_open. rewrite find_abs, Hgc by done.
    destruct (d_isdir _); [|done]. destruct (hdir _) as [her|]; [|done]. destruct (parse her _) as [pt|]; [|done].
    destruct (n_ok (n_meta c)); [|done]. destruct c as [|i cs]; [done|].
    destruct (go_files gosrc (abs_name (rs ++ vs)) cs) as [l|] eqn:El; [|done]. intros Es.
    apply wf_dir in Hwc as [HS HF]. rewrite Forall_forall in HF.
    assert (Hch : forall w d, (w, d) ∈ cs <-> get n (vs ++ [w]) = Some d).
    { intros w d. rewrite get_app, Hc. cbn [get]. rewrite <- (child_iff w d cs HS). destruct (child w cs); done. }
    assert (Hj : forall w d, (w, d) ∈ cs -> join2 (abs_name (rs ++ vs)) w = abs_name (rs ++ vs ++ [w])).
    { intros w d Hin. destruct (HF _ Hin) as [Hw _]. rewrite join2_name by done. by rewrite app_assoc. }
    destruct (go_files_inv _ _ _ El) as [G1 G2]. destruct (scan_sources_inv _ _ _ Es) as [S1 S2].
    assert (Hsf : forall w c s, (w, c) ∈ cs -> has_suffix w (B".go") = true -> go_file gosrc (join2 (abs_name (rs ++ vs)) w) c = Ok s ->
      source_file gosrc rs n vs w s).
    { intros w c s Hin Hw Hs. split; [done|]. split; [done|]. rewrite (Hj _ _ Hin) in Hs. apply Hch in Hin.
      destruct c as [j t|]; [|done]. exists j, t. unfold go_file in Hs. by destruct (n_ok j). }
    split.
    - intros d Hdd. destruct (S1 d Hdd) as (abs & s & ds' & Hin & Em & Hds). rewrite Ho in Hin.
      destruct (G1 _ _ Hin) as (w & c & Hcs & Hw & _ & -> & Egf). exists w, s, ds'. split; [by eapply Hsf|].
      rewrite (Hj _ _ Hcs) in Em. done.
    - intros w j text Hw Hgw. apply Hch in Hgw as Hin. destruct (G2 w _ Hin Hw eq_refl) as (s & Egf & Hl).
      destruct (S2 (join2 (abs_name (rs ++ vs)) w) s) as (ds' & Em & Hds); [by rewrite Ho|]. exists s, ds'. split; [by eapply Hsf|].
      rewrite (Hj _ _ Hin) in Em. done.
  Qed.

  Lemma project_inv dorder fuel her incs rs n ds :
    (forall l, dorder l ≡ₚ l) -> wf_node fs -> Forall good_elem rs -> get fs rs = Some n -> h_dir her = abs_name rs ->
    parse_project parse hdir hpkg fs gosrc dorder fuel her incs = Ok ds ->
    (forall d, d ∈ ds -> included parse hpkg her incs d \/ exists vs w s ds', source_file gosrc rs n vs w s /\
       decls_map parse hdir hpkg (s_objs s) fuel (abs_name (rs ++ vs ++ [w])) (s_ast s) = Done (ds', None) /\ d ∈ ds') /\
    (forall d, included parse hpkg her incs d -> d ∈ ds) /\
    (forall vs w i text, scanned_dir rs n vs -> has_suffix w (B".go") = true -> get n (vs ++ [w]) = Some (NFile i text) ->
       exists s ds', source_file gosrc rs n vs w s /\
         decls_map parse hdir hpkg (s_objs s) fuel (abs_name (rs ++ vs ++ [w])) (s_ast s) = Done (ds', None) /\
         forall d, d ∈ ds' -> d ∈ ds).
  Proof.
    intros Ho Hwf Hrs Hg Hh. unfold parse_project, parse_all.
    destruct (parse_includes parse hpkg her incs) as [ds0|] eqn:Ei; [|done].
    rewrite Hh. unfold os_stat. rewrite find_abs, Hg by done. destruct (d_isdir _); [|done].
    unfold walk_disk. rewrite find_abs, Hg by done.
    destruct (fwalk (parse_fn (scan_dir parse hdir hpkg fs gosrc dorder fuel)) (abs_name rs) n ([], ds0)) as [st r] eqn:Ew.
    destruct (wf_get _ _ _ Hwf Hg) as [Hwn _]. intros H.
    assert (Hr : (r = None \/ r = Some ESkipDir) /\ decls_of (by_kind st.2) = ds).
    { case_bool_decide as Eb; destruct st as [st1 st2]; [injection H as <-; auto|]. destruct r as [e|]; [done|]. injection H as <-. auto. }
    destruct Hr as [Hr <-]. clear H.
    destruct (fwalk_result _ _ _ _ _ _ Hrs Hwn Ew Hr) as (_ & found & Ef & R1 & R2). cbn [snd] in Ef.
    pose proof (parse_includes_spec _ _ _ Ei) as Hi. split; [|split].
    - intros d Hd. rewrite by_kind_all, Ef, elem_of_app in Hd. destruct Hd as [Hd|Hd]; [left; by apply Hi|right].
      destruct (R1 d Hd) as (vs & ds' & Hs & Ep & Hd'). destruct (scan_dir_inv _ _ _ _ _ _ Ho Hwf Hrs Hg Hs Ep) as [H _].
      destruct (H d Hd') as (w & s & ds2 & ?). by exists vs, w, s, ds2.
    - intros d Hd. rewrite by_kind_all, Ef, elem_of_app. left. by apply Hi.
    - intros vs w i text Hs Hw Hgw. destruct (R2 vs Hs) as (ds' & c & _ & _ & Ep & Hd).
      destruct (scan_dir_inv _ _ _ _ _ _ Ho Hwf Hrs Hg Hs Ep) as [_ H].
      destruct (H w i text Hw Hgw) as (s & ds2 & Hsf & Em & Hds). exists s, ds2. split; [done|]. split; [done|].
      intros d Hdd. rewrite by_kind_all, Ef, elem_of_app. right. by apply Hd, Hds.
  Qed.
End Proofs.
