(** Theorems: the parser's methods called several times, and single source
    files (C108-C111). *)
From Verif Require Import Bytes GoPath Here GoTypes Mem MemSpec MemBase MemFiles WalkSpec MemWalk Disk Decls DeclsProofs
  PropsParser JsonStr GoQuote Source SourceProofs ParserDirs PropsSource Project.
From Verif Require Import JsonText Embed Marshal MarshalMem PropsEmbed PropsMarshal Pack PropsPack PropsProject ParserApi Imports.

Section Api.
  Context (parse : resolver) (hpkg : bytes -> res hinfo) (her : hinfo) (incs : list bytes).

  (** *** C108 *)

  (** Whatever was called before and whatever was on the disk then, Decls
      answers what parser.Parse answers for the disk now. *)
  Theorem C108_afresh hdir gosrc dorder fuel fs hist :
    exists before,
      (prun parse hpkg her incs (hist ++ [(World fs (scan_dir parse hdir hpkg fs gosrc dorder fuel), PDecls)]) new_parser).2 =
      before ++ [AnsDecls (parse_project parse hdir hpkg fs gosrc dorder fuel her incs)].
  Proof.
    rewrite prun_app. destruct (prun parse hpkg her incs hist new_parser) as [st r]. exists r. cbn [prun pdo].
    unfold parse_project. pose proof (parse_run_spec parse hpkg her incs (World fs (scan_dir parse hdir hpkg fs gosrc dorder fuel))) as H.
    cbn [w_fs w_dir] in H. rewrite H.
    destruct (parse_run parse hpkg her incs (World fs _)) as [ds [e|]]; [done|].
    by destruct (walk_disk _ _ _ _).
  Qed.

  (** *** C109 *)

  (** As long as Decls is not called, every call answers what the first one
      found, whatever happens on the disk since. *)
  Theorem C109_once_partial hist w c :
    Forall (fun x => x.2 <> PDecls) hist -> c <> PDecls ->
    (prun parse hpkg her incs ((w, c) :: hist) new_parser).2 =
    (fun x => match x.2 with
              | PParse => AnsErr (parse_run parse hpkg her incs w).2
              | _ => AnsMap (by_kind (parse_run parse hpkg her incs w).1) (parse_run parse hpkg her incs w).2
              end) <$> ((w, c) :: hist).
  Proof.
    intros Hh Hc. destruct (parse_run parse hpkg her incs w) as [ds e] eqn:E.
    assert (H : forall l, Forall (fun x => x.2 <> PDecls) l ->
      prun parse hpkg her incs l (PState ds true e) =
      (PState ds true e, (fun x => match x.2 with PParse => AnsErr e | _ => AnsMap (by_kind ds) e end) <$> l)).
    { induction l as [|[w' c'] l IH]; intros Hl; [done|]. apply Forall_cons in Hl as [Hc' Hl]. cbn [snd] in Hc'.
      cbn [prun fmap list_fmap snd]. destruct c'; [done|..]; cbn; by rewrite (IH Hl). }
    cbn [prun fmap list_fmap fst snd].
    destruct c; [done|..]; cbn [pdo]; unfold parse_once; cbn [ps_once new_parser]; rewrite E; by rewrite (H hist Hh).
  Qed.

  (** DeclsMap and Decls on the same disk: the lists of the map, in the order
      of Decls, are what Decls returns. *)
  Theorem C109_agree w m :
    (pdo parse hpkg her incs w PDeclsMap new_parser).2 = AnsMap m None ->
    (pdo parse hpkg her incs w PDecls new_parser).2 =
      AnsDecls (Ok (m KMkdirAll ++ m KCreate ++ m KInclude ++ m KStat ++ m KOpen ++ m KDir ++ m KWalk)).
  Proof.
    unfold pdo, parse_once. cbn [ps_once new_parser].
    destruct (parse_run parse hpkg her incs w) as [ds e]. cbn. intros [= <- ->]. by rewrite app_nil_r.
  Qed.
End Api.

(** With Decls in between, DeclsMap answers the declarations of the later
    scan with the error (here none) of the first one. *)
Definition api_world (ds : res (list decl)) : world := World (NDir wit_meta [(B"src", NDir wit_meta [(B"app", NDir wit_meta [])])]) (fun _ => ds).
Definition api_d : decl := wit_decl KOpen (B"/a.txt") [B"a.txt"].

Theorem C109_refuted :
  exists w1 w2 m1 m2,
    (prun here_parse wit_hdir her_ex [] [(w1, PDeclsMap); (w2, PDecls); (w2, PDeclsMap)] new_parser).2 =
      [AnsMap m1 None; AnsDecls (Ok (m2 KOpen)); AnsMap m2 None] /\ m1 KOpen <> m2 KOpen.
Proof.
  exists (api_world (Ok [])), (api_world (Ok [api_d])), (by_kind []), (by_kind [api_d]).
  split; [by vm_compute|]. vm_compute. discriminate.
Qed.
(** Likewise a scan that failed: DeclsMap reports no error. *)
Theorem C109_error_refuted :
  exists w1 w2 m1 m2 e,
    (prun here_parse wit_hdir her_ex [] [(w1, PDeclsMap); (w2, PDecls); (w2, PDeclsMap)] new_parser).2 =
      [AnsMap m1 None; AnsDecls (Err e); AnsMap m2 None] /\ m1 KOpen = [api_d] /\ m2 KOpen = [].
Proof.
  exists (api_world (Ok [api_d])), (api_world (Err EParse)), (by_kind [api_d]), (by_kind []), (EMsg (B"/src/app")).
  split; by vm_compute.
Qed.

Example C108_C109_ex :
  (prun here_parse wit_hdir her_ex [B"/a.txt"]
     [(api_world (Err EParse), PDecls); (api_world (Ok [api_d]), PParse); (api_world (Ok []), PParse); (api_world (Ok [api_d]), PDecls)]
     new_parser).2 =
  [AnsDecls (Err (EMsg (B"/src/app"))); AnsErr None; AnsErr None;
   AnsDecls (Ok [wit_decl KInclude (B"/a.txt") [B"a.txt"]; api_d])].
Proof. by vm_compute. Qed.

Section File.
  Context (parse : resolver) (hdir hpkg : bytes -> res hinfo) (fs : node) (gosrc : bytes -> bytes -> res source).

  (** *** C110 *)

  (** A source file parsed by ParseFile is the one ParseDir finds in its
      directory: the same syntax tree under the same name, so the same
      declarations. *)
  Theorem C110_same dorder vs w l s :
    (forall l, dorder l ≡ₚ l) -> wf_node fs -> Forall good_elem vs -> good_elem w -> has_suffix w (B".go") = true ->
    parse_dir parse hdir fs gosrc dorder (abs_name vs) = Ok l ->
    parse_file hdir fs gosrc (abs_name (vs ++ [w])) = Ok s <-> (abs_name (vs ++ [w]), s) ∈ l.
  Proof.
    intros Ho Hwf Hvs Hw Hgo. unfold parse_dir, os_stat, os_open. rewrite find_abs by done.
    destruct (get fs vs) as [c|] eqn:Hg; [|done]. destruct (wf_get _ _ _ Hwf Hg) as [Hwc _].
    assert (Ed : forall x, d_isdir (info_of x c) = n_isdir c) by (by destruct c). rewrite Ed.
    destruct (n_isdir c) eqn:Edir; [|done]. destruct c as [|i cs]; [done|].
    destruct (hdir (abs_name vs)) as [her|] eqn:Eh; [|done].
    destruct (parse her _) as [pt|]; [|done]. destruct (n_ok _) eqn:Eok; [|done].
    destruct (go_files gosrc (abs_name vs) cs) as [l0|] eqn:El; [|done]. intros [= <-]. rewrite Ho.
    apply wf_dir in Hwc as [HS HF]. rewrite Forall_forall in HF.
    assert (Hj : forall w', good_elem w' -> join2 (abs_name vs) w' = abs_name (vs ++ [w'])) by (intros; by rewrite join2_name).
    apply go_files_inv in El as [H1 H2].
    assert (Hgood : Forall good_elem (vs ++ [w])) by (apply Forall_app; split; [done|by constructor]).
    unfold parse_file, os_stat. rewrite find_abs, get_app, Hg by done. cbn [get].
    assert (Hdn : dirname (abs_name (vs ++ [w])) = abs_name vs) by (by rewrite dirname_snoc).
    split.
    - destruct (child w cs) as [c|] eqn:Ec; [|done].
      assert (Hc : d_isdir (info_of (base (abs_name (vs ++ [w]))) c) = n_isdir c) by (by destruct c). rewrite Hc, Hdn, Eh.
      destruct (n_isdir c) eqn:Ecd; [done|]. intros Hs. apply (child_iff w c cs HS) in Ec.
      destruct (H2 w c Ec Hgo Ecd) as (s' & Es' & Hin). rewrite Hj in Es', Hin by done.
      enough (s' = s) by (by subst). revert Hs Es'. unfold parse_source, os_open. rewrite find_abs, get_app, Hg by done. cbn [get].
      apply (child_iff w c cs HS) in Ec. rewrite Ec. unfold go_file. destruct c as [j t|]; [|done]. cbn [n_meta].
      destruct (n_ok j); [|done]. intros -> [= ->]. done.
    - intros Hin. destruct (H1 _ _ Hin) as (w' & c & Hc & Hw' & Ecd & Ea & Es). destruct (HF _ Hc) as [Hgw' _]. cbn [fst] in Hgw'.
      rewrite Hj in Ea, Es by done. assert (w' = w) as ->.
      { apply abs_name_inj in Ea; [|done|apply Forall_app; split; [done|by constructor]]. by apply app_inj_tail in Ea as [_ ->]. }
      apply (child_iff w c cs HS) in Hc. rewrite Hc.
      assert (Hi : d_isdir (info_of (base (abs_name (vs ++ [w]))) c) = n_isdir c) by (by destruct c). rewrite Hi, Ecd, Hdn, Eh.
      unfold parse_source, os_open. rewrite find_abs, get_app, Hg by done. cbn [get]. rewrite Hc.
      unfold go_file in Es. destruct c as [j t|]; [|done]. cbn [n_meta]. by destruct (n_ok j).
  Qed.

  (** What ParseFile does not find in its place it refuses. *)
  Theorem C110_refuses vs :
    Forall good_elem vs -> (forall i text, get fs vs <> Some (NFile i text)) ->
    exists e, parse_file hdir fs gosrc (abs_name vs) = Err e.
  Proof.
    intros Hvs Hno. unfold parse_file, os_stat. rewrite find_abs by done. destruct (get fs vs) as [[i t|i cs]|] eqn:E; [by destruct (Hno i t)|by eexists..].
  Qed.
End File.

Example C110_ex :
  parse_file wit_hdir proj_fs proj_src (B"/src/app/sub/s.go") = Ok (Src proj_sub no_objs) /\
  (exists l, parse_dir here_parse wit_hdir proj_fs proj_src (fun l => l) (B"/src/app/sub") = Ok l) /\
  (exists e, parse_file wit_hdir proj_fs proj_src (B"/src/app/sub") = Err e).
Proof. vm_compute. split; [done|]. split; by eexists. Qed.

(** *** C111 *)

(** If a file imports pkger under its own name only, and declares nothing of
    that name, the calls looked at are exactly those of package pkger. *)
Theorem C111_pkger_calls_partial imps n :
  imports_as imps (B"pkger") pkger_path -> (forall x, imports_as imps x pkger_path -> x = B"pkger") ->
  unshadowed (B"pkger") n ->
  forall c, c ∈ all_calls n <-> calls_of_package imps pkger_path n c.
Proof. apply calls_of_package_spec. Qed.

Definition imps_ex : list import :=
  [Import None (B"fmt") (B"fmt"); Import None (B"github.com/markbates/pkger") (B"pkger")].
Ltac sub_elem := vm_compute subterms; repeat first [left | right].
Ltac not_shadowed := let H := fresh in intros ? H; vm_compute subterms in H; rewrite ?elem_of_cons, elem_of_nil in H; naive_solver.

Example C111_ex :
  imports_as imps_ex (B"pkger") pkger_path /\ (forall x, imports_as imps_ex x pkger_path -> x = B"pkger") /\
  unshadowed (B"pkger") proj_main /\
  calls_of_package imps_ex pkger_path proj_main (KOpen, [str "/a.txt"]).
Proof.
  split. { exists (Import None (B"github.com/markbates/pkger") (B"pkger")). split; [right; left|]. done. }
  split.
  { intros x (i & Hi & Ep & ->). unfold imps_ex in Hi. rewrite !elem_of_cons, elem_of_nil in Hi. by destruct Hi as [-> |[-> |[]]]. }
  split; [not_shadowed|].
  apply (C111_pkger_calls_partial imps_ex proj_main).
  - exists (Import None (B"github.com/markbates/pkger") (B"pkger")). split; [right; left|]. done.
  - intros x (i & Hi & Ep & ->). unfold imps_ex in Hi. rewrite !elem_of_cons, elem_of_nil in Hi. by destruct Hi as [-> |[-> |[]]].
  - not_shadowed.
  - vm_compute all_calls. right. left.
Qed.

(** import p "github.com/markbates/pkger": p.Open("/a.txt") is not found. *)
Theorem C111_renamed_refuted :
  exists imps n c, calls_of_package imps pkger_path n c /\ c ∉ all_calls n /\
    forall fuel, decls_map here_parse wit_hdir wit_hdir no_objs fuel wit_abs n = Source.Done ([], None).
Proof.
  exists [Import (Some (B"p")) (B"github.com/markbates/pkger") (B"pkger")],
    (ACall (ASel (AIdent (B"p") None) (B"Open")) [str "/a.txt"]), (KOpen, [str "/a.txt"]). split; [|split].
  - exists (ASel (AIdent (B"p") None) (B"Open")). split; [apply subterms_self|]. left. exists (B"p"), (B"Open"). split; [done|].
    split; [|done]. eexists. split; [left|]. done.
  - vm_compute all_calls. apply not_elem_of_nil.
  - intros [|fuel]; by vm_compute.
Qed.

(** A file with a variable of its own called pkger, importing nothing:
    pkger.Open("/a.txt"), a method call, is taken for a declaration. *)
Theorem C111_shadowed_refuted :
  exists n c d, (forall p, ~ calls_of_package [] p n c) /\ c ∈ all_calls n /\
    forall fuel, 1 <= fuel -> decls_map here_parse wit_hdir wit_hdir no_objs fuel wit_abs n = Source.Done ([d], None).
Proof.
  exists (ACall (ASel (AIdent (B"pkger") (Some 0)) (B"Open")) [str "/a.txt"]), (KOpen, [str "/a.txt"]),
    (wit_decl KOpen (B"/a.txt") [B"a.txt"]). split; [|split].
  - intros p (f & _ & [(x & name & _ & (i & Hi & _) & _)|(name & _ & (i & Hi & _) & _)]); inversion Hi.
  - vm_compute all_calls. left.
  - intros [|fuel] Hf; [lia|]. by vm_compute.
Qed.
