(** Theorems: scanning source files and directories (C36-C38, C70, C71). *)
From Verif Require Import Bytes GoPath Here GoTypes WalkSpec Disk Decls DeclsProofs PropsParser
  JsonStr GoQuote Source SourceProofs ParserDirs.

(** *** C36 *)
Section Scan.
  Context (parse : resolver) (hdir hpkg : bytes -> res hinfo) (objs : nat -> object).

  (** If every pkger call's argument is a constant string naming a file, the
      scan finds one declaration per call, in source order. *)
  Theorem C36_found abs n :
    objs_ok objs -> idents_ok n ->
    (forall c, c ∈ all_calls n -> exists d, declares parse hdir hpkg objs abs c d) ->
    exists F ds, Forall2 (declares parse hdir hpkg objs abs) (all_calls n) ds /\
      forall fuel, F <= fuel -> decls_map parse hdir hpkg objs fuel abs n = Done (ds, None).
  Proof.
    intros Ho Hi Hc.
    destruct (scans_all parse hdir hpkg objs abs (fun _ _ => false) n Ho Hi) as (F & ds & H1 & H2).
    { apply Forall_forall. intros c Hin. destruct (Hc c Hin) as [d Hd]. split.
      - destruct Hd as (_ & (a & rest & s & E & Ht & _) & _). rewrite E. cbn. constructor; [|constructor].
        by eapply text_of_settles.
      - split; eauto. }
    exists F, ds. split.
    - assert (Hall : forall l, kept (fun _ _ => false) l = l).
      { clear. induction l as [|x l IH]; [done|]. unfold kept in *. rewrite filter_cons, decide_True by done.
        by rewrite IH. }
      by rewrite Hall in H1.
    - intros fuel HF. unfold decls_map. destruct (H2 fuel ([], None) HF) as [e ->]. done.
  Qed.

  (** In general it finds those of the calls that can be resolved, except those
      nested inside a call that cannot; [bad] says which cannot. *)
  Theorem C36_found_partial abs n bad :
    objs_ok objs -> idents_ok n ->
    (forall k args, (k, args) ∈ calls bad n ->
       Forall (settles objs) (take 1 args) /\
       (bad k args = false <-> exists d, declares parse hdir hpkg objs abs (k, args) d)) ->
    exists F ds,
      Forall2 (declares parse hdir hpkg objs abs) (filter (fun c => bad c.1 c.2 = false) (calls bad n)) ds /\
      forall fuel, F <= fuel -> decls_map parse hdir hpkg objs fuel abs n = Done (ds, None).
  Proof.
    intros Ho Hi Hc.
    destruct (scans_all parse hdir hpkg objs abs bad n Ho Hi) as (F & ds & H1 & H2).
    { apply Forall_forall. intros [k args] Hin. by apply Hc. }
    exists F, ds. split; [exact H1|]. intros fuel HF. unfold decls_map.
    destruct (H2 fuel ([], None) HF) as [e ->]. done.
  Qed.

  (** *** C37 *)

  (** The scan ends normally if evaluating the arguments does. *)
  Theorem C37_no_crash_partial abs n bad :
    objs_ok objs -> idents_ok n ->
    (forall k args, (k, args) ∈ calls bad n ->
       Forall (settles objs) (take 1 args) /\
       (bad k args = false <-> exists d, declares parse hdir hpkg objs abs (k, args) d)) ->
    exists F out, forall fuel, F <= fuel -> decls_map parse hdir hpkg objs fuel abs n = Done out.
  Proof.
    intros Ho Hi Hc. destruct (C36_found_partial abs n bad Ho Hi Hc) as (F & ds & _ & H). eauto.
  Qed.
End Scan.

(** Sources used as witnesses: one file with the given nodes. *)
Definition src_call (name : string) (args : list ast) : ast :=
  ACall (ASel (AIdent (B"pkger") None) (list_ascii_of_string name)) args.
Definition str (s : string) : ast := ALit (plain_lit (list_ascii_of_string s)).
Definition wit_abs : bytes := B"/src/app/main.go".
Definition no_pkg : bytes -> res hinfo := fun _ => Err ENotExist.
Definition no_objs : nat -> object := fun _ => Obj false None.

(** const dir = "/pub"; pkger.Walk(dir, f(pkger.Open("/a.txt"))) *)
Definition ex_objs : nat -> object := fun o =>
  if decide (o = 0) then Obj true (Some ([B"dir"], [str "/pub"])) else Obj false None.
Definition ex_src : ast :=
  AOther [str "/pub";
    src_call "Walk" [AIdent (B"dir") (Some 0);
                     ACall (AIdent (B"f") (Some 1)) [src_call "Open" [str "/a.txt"]]]].

Example C36_ex :
  idents_ok ex_src /\ objs_ok ex_objs /\
  all_calls ex_src = [(KWalk, [AIdent (B"dir") (Some 0); ACall (AIdent (B"f") (Some 1)) [src_call "Open" [str "/a.txt"]]]);
                      (KOpen, [str "/a.txt"])] /\
  (forall c, c ∈ all_calls ex_src -> exists d, declares here_parse wit_hdir no_pkg ex_objs wit_abs c d) /\
  decls_map here_parse wit_hdir no_pkg ex_objs 5 wit_abs ex_src =
    Done ([wit_decl KWalk (B"/pub") [B"pub"]; wit_decl KOpen (B"/a.txt") [B"a.txt"]], None).
Proof.
  split; [cbn; repeat split; by vm_compute|]. split.
  { intros o names values. unfold ex_objs. case_decide; cbn; [|done]. intros [= <- <-]. by constructor. }
  split; [done|]. split; [|by vm_compute].
  intros c Hc. unfold all_calls in Hc. vm_compute calls in Hc. rewrite !elem_of_cons, elem_of_nil in Hc. destruct Hc as [-> |[-> |[]]].
  - exists (wit_decl KWalk (B"/pub") [B"pub"]). split; [done|]. split.
    + eexists _, _, (plain_lit (B"/pub")). split; [reflexivity|]. split; [|by vm_compute].
      eapply (t_con ex_objs _ 0 _ _ 0); try reflexivity; [lia|]. constructor.
    + exists her_ex, her_ex. split_and!; first [done | by left].
  - exists (wit_decl KOpen (B"/a.txt") [B"a.txt"]). split; [done|]. split.
    + eexists _, _, (plain_lit (B"/a.txt")). split; [reflexivity|]. split; [constructor|by vm_compute].
    + exists her_ex, her_ex. split_and!; first [done | by left].
Qed.

(** A call whose argument is a variable is dropped without an error. *)
Theorem C36_errors_lost_refuted :
  exists n c, idents_ok n /\ c ∈ all_calls n /\
    (forall hpkg d, ~ declares here_parse wit_hdir hpkg no_objs wit_abs c d) /\
    forall fuel, 1 <= fuel -> decls_map here_parse wit_hdir no_pkg no_objs fuel wit_abs n = Done ([], None).
Proof.
  exists (src_call "Open" [AIdent (B"path") (Some 0)]), (KOpen, [AIdent (B"path") (Some 0)]).
  split; [cbn; repeat split; by vm_compute|]. split; [by left|]. split.
  - intros hpkg d (_ & (a & rest & s & [= <- <-] & Ht & _) & _). inversion Ht; subst. done.
  - intros [|fuel] HF; [lia|]. by vm_compute.
Qed.

(** So is a call without argument. *)
Theorem C36_no_argument_refuted :
  exists n c, idents_ok n /\ c ∈ all_calls n /\ c.2 = [] /\
    forall fuel, decls_map here_parse wit_hdir no_pkg no_objs fuel wit_abs n = Done ([], None).
Proof.
  exists (src_call "Open" []), (KOpen, []). split; [cbn; repeat split; by vm_compute|].
  split; [by left|]. split; [done|]. intros [|fuel]; by vm_compute.
Qed.

(** pkger.Open(pkger.Include("/a.txt")): the nested call, which alone would be
    found, is lost too. *)
Theorem C36_nested_lost_refuted :
  exists n c d, idents_ok n /\ c ∈ all_calls n /\
    declares here_parse wit_hdir no_pkg no_objs wit_abs c d /\
    forall fuel, 1 <= fuel -> decls_map here_parse wit_hdir no_pkg no_objs fuel wit_abs n = Done ([], None).
Proof.
  exists (src_call "Open" [src_call "Include" [str "/a.txt"]]), (KInclude, [str "/a.txt"]),
    (wit_decl KInclude (B"/a.txt") [B"a.txt"]).
  split; [cbn; repeat split; by vm_compute|]. split; [right; by left|]. split.
  - split; [done|]. split.
    + eexists _, _, (plain_lit (B"/a.txt")). split; [reflexivity|]. split; [constructor|by vm_compute].
    + exists her_ex, her_ex. split_and!; first [done | by left].
  - intros [|fuel] HF; [lia|]. by vm_compute.
Qed.

(** A constant declared in another file of the package: go/parser leaves its
    Obj nil. *)
Theorem C37_other_file_refuted :
  exists n, idents_ok n /\
    forall fuel, 1 <= fuel -> decls_map here_parse wit_hdir no_pkg no_objs fuel wit_abs n = Panic.
Proof.
  exists (src_call "Open" [AIdent (B"dir") None]).
  split; [cbn; repeat split; by vm_compute|]. intros [|fuel] HF; [lia|]. by vm_compute.
Qed.

(** const ( a = "/a.txt"; b ); pkger.Open(b): b repeats "/a.txt" and has no
    value of its own in the tree. *)
Definition repeat_objs : nat -> object := fun o =>
  if decide (o = 0) then Obj true (Some ([B"a"], [str "/a.txt"])) else Obj true (Some ([B"b"], [])).
Theorem C37_repeated_const_refuted :
  exists n, idents_ok n /\ objs_ok repeat_objs /\
    forall fuel, 1 <= fuel -> decls_map here_parse wit_hdir no_pkg repeat_objs fuel wit_abs n = Panic.
Proof.
  exists (src_call "Open" [AIdent (B"b") (Some 1)]). split; [cbn; repeat split; by vm_compute|]. split.
  { intros o names values. unfold repeat_objs. case_decide; cbn; intros [= <- <-]; by repeat constructor. }
  intros [|fuel] HF; [lia|]. by vm_compute.
Qed.

(** const a = b; const b = a; pkger.Open(a): the recursion does not end. *)
Definition cycle_objs : nat -> object := fun o =>
  if decide (o = 0) then Obj true (Some ([B"a"], [AIdent (B"b") (Some 1)]))
  else Obj true (Some ([B"b"], [AIdent (B"a") (Some 0)])).
Theorem C37_cycle_refuted :
  exists n, idents_ok n /\ objs_ok cycle_objs /\
    forall fuel, decls_map here_parse wit_hdir no_pkg cycle_objs fuel wit_abs n = Overflow.
Proof.
  exists (src_call "Open" [AIdent (B"a") (Some 0)]). split; [cbn; repeat split; by vm_compute|]. split.
  { intros o names values. unfold cycle_objs. case_decide; cbn; intros [= <- <-]; repeat constructor; by vm_compute. }
  intros fuel. unfold decls_map. cbn [src_call scan].
  assert (H : forall fuel, value_node cycle_objs fuel (AIdent (B"a") (Some 0)) = Overflow /\
                           value_node cycle_objs fuel (AIdent (B"b") (Some 1)) = Overflow).
  { clear. induction fuel as [|fuel [IH1 IH2]]; [done|].
    split; [exact IH2|exact IH1]. }
  change (pkger_call (ASel (AIdent (B"pkger") None) (list_ascii_of_string "Open"))) with (Some KOpen).
  cbn [visit_call]. destruct (H fuel) as [-> _]. done.
Qed.

Example C37_ex : Forall (settles ex_objs) (take 1 [AIdent (B"dir") (Some 0)]).
Proof. constructor; [|constructor]. eapply (s_con ex_objs _ 0 _ _ 0); try reflexivity; [lia|]. constructor. Qed.

(** *** C71: literals are read as Go reads them *)

(** A string written with every byte escaped, in back quotes or as it stands
    is the value of its declaration. *)
Theorem C71_literal_value s :
  unquote (hex_lit s) = Some s /\ (plain_ok s -> unquote (plain_lit s) = Some s) /\
  (raw_ok s -> unquote (raw_lit s) = Some s).
Proof. split; [apply unquote_hex|]. split; [apply unquote_plain|apply unquote_raw]. Qed.

Example C71_ex : plain_ok (B"/public/index.html") /\ raw_ok (B"/a\b") /\ unquote (quote :: B"/café\t\101\\" ++ [quote]) =
  Some (B"/caf" ++ [ascii_of_N 195; ascii_of_N 169; ascii_of_N 9] ++ B"A\").
Proof.
  split; [split; [apply ascii_utf8; repeat (apply List.Forall_cons; [done|]); apply List.Forall_nil|
    repeat (apply List.Forall_cons; [done|]); apply List.Forall_nil]|].
  split; [repeat (apply List.Forall_cons; [done|]); apply List.Forall_nil|]. by vm_compute.
Qed.

(** *** C38 *)

(** What [ignored] in the theorems below means: the last element of the path
    begins with one of the five texts.  The root directory is not ignored. *)
Theorem C38_ignored ws w :
  Forall good_elem ws -> good_elem w ->
  (ignored (abs_name (ws ++ [w])) = true <->
   exists p t, p ∈ [B"."; B"_"; B"vendor"; B"node_modules"; B"testdata"] /\ w = p ++ t) /\
  ignored (abs_name []) = false.
Proof.
  intros Hs Hw. split; [|by vm_compute]. unfold ignored. rewrite base_snoc by done. rewrite existsb_exists. split.
  - intros (p & Hp & H). apply has_prefix_spec in H as [t ->]. exists p, t. split; [|done]. by apply elem_of_list_In.
  - intros (p & t & Hp & ->). exists p. split; [by apply elem_of_list_In in Hp|apply has_prefix_app].
Qed.

Example C38_ignored_ex :
  ignored (B"/src/app/testdata") = true /\ ignored (B"/src/app/vendors") = true /\ ignored (B"/src/app/data") = false.
Proof. by vm_compute. Qed.

Section Dirs.
  Context (parse : resolver) (hpkg : bytes -> res hinfo) (fs : node) (pdir : bytes -> res (list decl)).

  (** The directories parsed, exactly. *)
  Theorem C38_visits_exact_partial her rs n :
    wf_node fs -> Forall good_elem rs -> h_dir her = abs_name rs -> get fs rs = Some n -> n_isdir n = true ->
    all_open n ->
    (forall vs c, get n vs = Some c -> n_isdir c = true -> exists ds, pdir (abs_name (rs ++ vs)) = Ok ds) ->
    exists dirs dss,
      parse_all parse hpkg fs pdir her [] = Ok (abs_name <$> dirs, concat dss) /\
      Forall2 (fun p ds => pdir p = Ok ds) (abs_name <$> dirs) dss /\
      StronglySorted (fun a b => elems_lt a b = true) dirs /\
      forall ws, ws ∈ dirs <-> exists vs c, ws = rs ++ vs /\ get n vs = Some c /\ n_isdir c = true /\
        forall v1 v2, vs = v1 ++ v2 -> ignored (abs_name (rs ++ v1)) = false.
  Proof.
    intros Hwf Hrs Ed Hg Hd Hop Hpd. destruct (wf_get _ _ _ Hwf Hg) as [Hn _].
    destruct (walk_dirs fs pdir rs n ([], []) Hrs Hg Hn Hop Hpd) as (dirs & dss & E & H1 & H2 & H3).
    exists dirs, dss. split; [|done]. unfold parse_all. cbn [parse_includes]. rewrite Ed.
    unfold os_stat. rewrite find_abs, Hg by done. destruct n; [done|]. cbn [info_of d_isdir]. by rewrite E.
  Qed.

  Lemma ignored_snoc ws w : good_elem w -> Forall good_elem ws ->
    ignored (abs_name (ws ++ [w])) = existsb (fun x => has_prefix w x) ignored_prefixes.
  Proof. intros Hw Hs. unfold ignored. by rewrite base_snoc. Qed.

  (** The claim, when the root's own name is not ignored and no directory's
      name merely starts like an ignored one. *)
  Theorem C38_visits_partial her rs n :
    wf_node fs -> Forall good_elem rs -> h_dir her = abs_name rs -> get fs rs = Some n -> n_isdir n = true ->
    all_open n ->
    (forall vs c, get n vs = Some c -> n_isdir c = true -> exists ds, pdir (abs_name (rs ++ vs)) = Ok ds) ->
    ignored (abs_name rs) = false ->
    (forall vs w c, get n (vs ++ [w]) = Some c -> n_isdir c = true ->
       existsb (fun x => has_prefix w x) ignored_prefixes = meant_ignored w) ->
    exists dirs dss,
      parse_all parse hpkg fs pdir her [] = Ok (abs_name <$> dirs, concat dss) /\
      Forall2 (fun p ds => pdir p = Ok ds) (abs_name <$> dirs) dss /\ NoDup dirs /\
      forall ws, ws ∈ dirs <-> exists vs, ws = rs ++ vs /\ not_ignored meant_ignored n vs.
  Proof.
    intros Hwf Hrs Ed Hg Hd Hop Hpd Hroot Hsame.
    destruct (C38_visits_exact_partial her rs n Hwf Hrs Ed Hg Hd Hop Hpd) as (dirs & dss & E & H1 & HS & H).
    exists dirs, dss. split; [done|]. split; [done|]. split.
    { clear -HS. induction HS as [|x l HS IH HF]; constructor; [|done]. intros Hin.
      rewrite Forall_forall in HF. specialize (HF x Hin). clear -HF. induction x as [|a x IH]; [done|].
      cbn in HF. rewrite bool_decide_eq_true_2 in HF by done. by apply IH. }
    destruct (wf_get _ _ _ Hwf Hg) as [Hn _].
    assert (Hstep : forall v1 v2 c, get n (v1 ++ v2) = Some c -> n_isdir c = true ->
      exists c1, get n v1 = Some c1 /\ n_isdir c1 = true).
    { intros v1 v2 c Hc Hdc. rewrite get_app in Hc. destruct (get n v1) as [c1|] eqn:E1; [|done].
      exists c1. split; [done|]. destruct v2; [by injection Hc as ->|]. by destruct c1. }
    intros ws. rewrite H. split.
    - intros (vs & c & -> & Hc & Hdc & Hi). exists vs. split; [done|]. split; [eauto|].
      apply Forall_lookup. intros i w Hw. rewrite <- (take_drop_middle vs i w Hw) in *.
      set (v1 := take i vs) in *. set (v2 := drop (S i) vs) in *.
      change (v1 ++ w :: v2) with (v1 ++ [w] ++ v2) in *. rewrite app_assoc in Hc.
      destruct (Hstep (v1 ++ [w]) v2 c Hc Hdc) as (c1 & Hc1 & Hd1).
      rewrite <- (Hsame v1 w c1 Hc1 Hd1).
      destruct (wf_get _ _ _ Hn Hc1) as [_ Hgood]. apply Forall_app in Hgood as [Hg1 Hgw].
      apply Forall_cons in Hgw as [Hgw _].
      rewrite <- (ignored_snoc (rs ++ v1) w) by (try done; by apply Forall_app).
      rewrite <- app_assoc. apply (Hi (v1 ++ [w]) v2). by rewrite <- app_assoc.
    - intros (vs & -> & (c & Hc & Hdc) & HF). exists vs, c. split_and!; try done.
      intros v1 v2 ->. destruct v1 as [|w v1 _] using rev_ind; [by rewrite app_nil_r|].
      destruct (Hstep (v1 ++ [w]) v2 c Hc Hdc) as (c1 & Hc1 & Hd1).
      destruct (wf_get _ _ _ Hn Hc1) as [_ Hgood]. apply Forall_app in Hgood as [Hg1 Hgw].
      apply Forall_cons in Hgw as [Hgw _].
      rewrite app_assoc, ignored_snoc by (try done; by apply Forall_app).
      rewrite (Hsame v1 w c1 Hc1 Hd1). apply Forall_app in HF as [HF _]. apply Forall_app in HF as [_ HF].
      by apply Forall_cons in HF as [? _].
  Qed.
End Dirs.

Definition dir_of (cs : list (bytes * node)) : node := NDir wit_meta cs.
Definition scan_fs : node :=
  wit_app [(B".git", dir_of []); (B"cmd", dir_of [(B"x", dir_of [])]); (B"main.go", wit_file);
           (B"vendor", dir_of [(B"y", dir_of [])])].

Lemma scan_wf : wf_node scan_fs.
Proof.
  cbn. repeat split; try (apply good_elem_dec_ok; reflexivity);
    repeat (apply SSorted_cons || apply SSorted_nil || apply List.Forall_cons || apply List.Forall_nil); reflexivity.
Qed.

Example C38_ex : wf_node scan_fs /\ ignored (abs_name wit_rs) = false /\
  (forall n vs w c, get scan_fs wit_rs = Some n -> get n (vs ++ [w]) = Some c -> n_isdir c = true ->
     existsb (fun x => has_prefix w x) ignored_prefixes = meant_ignored w) /\
  parse_all here_parse no_pkg scan_fs (fun _ => Ok []) her_ex [] =
    Ok ([B"/src/app"; B"/src/app/cmd"; B"/src/app/cmd/x"], []).
Proof.
  split; [apply scan_wf|]. split; [by vm_compute|]. split; [|by vm_compute].
  intros n vs w c Hg Hc Hd. pose proof (wf_get _ _ _ scan_wf Hg) as [Hn _].
  apply (nodes_forall (fun vs c => forall w, last vs = Some w -> n_isdir c = true ->
     existsb (fun x => has_prefix w x) ignored_prefixes = meant_ignored w) n Hn) with (vs ++ [w]) c w in Hc;
    [done| |by rewrite last_snoc|done].
  injection Hg as <-. vm_compute nodes.
  repeat (apply List.Forall_cons; [intros x E Hx; cbn [fst snd] in E, Hx; try discriminate E; try discriminate Hx;
    injection E as <-; by vm_compute|]). apply List.Forall_nil.
Qed.

(** A directory called "vendors" is skipped. *)
Theorem C38_prefix_refuted :
  exists fs ws, wf_node fs /\ (exists c, get fs (wit_rs ++ ws) = Some c /\ n_isdir c = true) /\
    Forall (fun w => meant_ignored w = false) (wit_rs ++ ws) /\
    exists dirs ds, parse_all here_parse no_pkg fs (fun _ => Ok []) her_ex [] = Ok (dirs, ds) /\
      abs_name (wit_rs ++ ws) ∉ dirs.
Proof.
  exists (wit_app [(B"vendors", dir_of [])]), [B"vendors"]. split.
  { cbn. repeat split; try (apply good_elem_dec_ok; reflexivity);
    repeat (apply SSorted_cons || apply SSorted_nil || apply List.Forall_cons || apply List.Forall_nil); reflexivity. }
  split; [eexists; split; reflexivity|].
  split; [repeat (apply List.Forall_cons; [by vm_compute|]); apply List.Forall_nil|].
  exists [B"/src/app"], []. split; [by vm_compute|]. rewrite elem_of_list_singleton. by vm_compute.
Qed.

(** A module in a directory called "vendored" is not scanned at all. *)
Definition vend_her : hinfo :=
  HInfo (B"/src/vendored") (B"app") (B"app") (B"app") true (B"/src/vendored") (B"/src/vendored/go.mod") (B"1.13").
Theorem C38_root_refuted :
  exists fs pdir d, wf_node fs /\ os_stat fs (h_dir vend_her) = Ok (info_of (B"vendored") (dir_of [])) /\
    pdir (h_dir vend_her) = Ok [d] /\
    parse_all here_parse no_pkg fs pdir vend_her [] = Ok ([], []).
Proof.
  exists (dir_of [(B"src", dir_of [(B"vendored", dir_of [])])]), (fun _ => Ok [wit_decl KWalk (B"/") []]),
    (wit_decl KWalk (B"/") []). split.
  { cbn. repeat split; try (apply good_elem_dec_ok; reflexivity);
    repeat (apply SSorted_cons || apply SSorted_nil || apply List.Forall_cons || apply List.Forall_nil); reflexivity. }
  split; [by vm_compute|]. split; [done|]. by vm_compute.
Qed.

(** *** C35, from the scanner's point of view *)

(** Whatever order the scanner finds the declarations in. *)
Theorem C35_discovery_order_partial parse hdir fs order order' ds ds' :
  wf_node fs -> some_order order -> some_order order' -> ds ≡ₚ ds' ->
  modular parse hdir fs (decls_of (by_kind ds)) -> echo_free fs (decls_of (by_kind ds)) ->
  match listing parse hdir fs order (decls_of (by_kind ds)), listing parse hdir fs order' (decls_of (by_kind ds')) with
  | Ok l, Ok l' => l ≡ₚ l'
  | Err _, Err _ => True
  | _, _ => False
  end.
Proof.
  intros Hwf Ho Ho' Hp Hm He. apply C35_order_irrelevant_partial; try done.
  - intros k. apply Forall_forall. intros d Hd. by apply elem_of_list_filter in Hd as [? _].
  - intros k. unfold by_kind. by rewrite Hp.
Qed.

Example C35_ex : wit_ds = decls_of (by_kind (reverse wit_ds)).
Proof. by vm_compute. Qed.

(** *** C70: includes on the command line *)

(** An include given on the command line names the same file as
    pkger.Include in a source file of that directory, if the directory is the
    module's root package. *)
Theorem C70_include_like_source_partial parse hdir hpkg her abs inc :
  hdir (dirname abs) = Ok her -> h_import her = h_mpath her ->
  match new_include parse hpkg her inc with
  | Ok d => dk d = KInclude /\ d_value d = inc /\ locate parse hdir hpkg abs inc = Ok (d_file d)
  | Err e => locate parse hdir hpkg abs inc = Err e
  end.
Proof.
  intros Hh He. unfold new_include, locate. rewrite Hh. destruct (parse her inc) as [pt|]; [|done].
  rewrite He. destruct (if bool_decide (p_pkg pt = h_mpath her) then Ok her else hpkg (p_pkg pt)); done.
Qed.

(** In another directory of the module it asks for the module's root package,
    which need not exist. *)
Definition cmd_her : hinfo :=
  HInfo (B"/src/app/cmd") (B"app/cmd") (B"main") (B"app") true (B"/src/app") (B"/src/app/go.mod") (B"1.13").
Theorem C70_include_like_source_refuted :
  exists hdir hpkg abs inc f e, hdir (dirname abs) = Ok cmd_her /\
    locate here_parse hdir hpkg abs inc = Ok f /\ new_include here_parse hpkg cmd_her inc = Err e.
Proof.
  exists (fun _ => Ok cmd_her), no_pkg, (B"/src/app/cmd/main.go"), (B"/a.txt"),
    (PFile (B"/src/app/a.txt") (Path (B"app") (B"/a.txt")) cmd_her), ENotExist.
  split; [done|]. split; by vm_compute.
Qed.

Example C70_ex : wit_hdir (dirname wit_abs) = Ok her_ex /\ h_import her_ex = h_mpath her_ex.
Proof. done. Qed.
