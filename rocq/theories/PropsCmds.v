(** Theorems: the commands and what they print (C83-C87). *)
From Verif Require Import Bytes GoPath Here GoTypes WalkSpec JsonStr JsonText Indent GoTimeFmt Embed Marshal Disk DiskOps Decls DeclsProofs
  Source SourceProofs ParserDirs Project Pack Std Package Cli Cmds PropsCli PropsStd.

(** ** Specification *)

(** The arguments are dealt with in turn until one fails: what has been shown
    for them, and the error. *)
Inductive in_turn {A C} (shows : A -> list C -> Prop) (fails : A -> gerr -> Prop) : list A -> list C -> option gerr -> Prop :=
| it_nil : in_turn shows fails [] [] None
| it_fail a l e : fails a e -> in_turn shows fails (a :: l) [] (Some e)
| it_show a x l y e : shows a x -> in_turn shows fails l y e -> in_turn shows fails (a :: l) (x ++ y) e.

(** What is known about a package: the current one, or what "go list" says. *)
Definition known (w : world) (p : bytes) : res hinfo :=
  if bool_decide (p = h_import (w_her w)) then Ok (w_her w) else w_hpkg w p.

(** Reading a sequence of JSON documents, all of the same kind. *)
Definition read_all {A} (f : option json -> option A) (out : bytes) : option (list A) :=
  l ← read_stream out; mapM (fun j => f (Some j)) l.

(** Reading a single document. *)
Definition read_one {A} (f : option json -> option A) (out : bytes) : option A :=
  match read_stream out with Some [j] => f (Some j) | _ => None end.

(** ** Proofs *)

Lemma ws_1 : all_ws (B" "). Proof. by repeat constructor. Qed.
Lemma ws_2 : all_ws (B"  "). Proof. by repeat constructor. Qed.

Lemma read_all_encoded {A} (f : option json -> option A) (g : A -> json) ind (l : list A) :
  all_ws ind -> Forall (fun x => f (Some (clean_json (g x))) = Some x) l ->
  read_all f (concat (map (fun x => encode_indent ind (g x)) l)) = Some l.
Proof.
  intros Hw Hf. unfold read_all. rewrite <- (map_map g (encode_indent ind)), encode_stream by done.
  cbn [mbind option_bind]. induction Hf as [|x l Hx Hf IH]; [done|]. cbn [map mapM]. rewrite Hx, IH. done.
Qed.

Lemma read_one_encoded {A} (f : option json -> option A) ind j :
  all_ws ind -> read_one f (encode_indent ind j) = f (Some (clean_json j)).
Proof.
  intros Hw. unfold read_one. pose proof (encode_stream ind [j] Hw) as H. cbn [map concat] in H. rewrite app_nil_r in H. by rewrite H.
Qed.

(** The cache of the on-disk pkger never shows. *)
Definition cache_ok (w : world) (s : sto) : Prop :=
  so_here s = w_her w /\ so_infos s !! h_import (w_her w) = Some (w_her w) /\
  forall p i, so_infos s !! p = Some i -> known w p = Ok i.

Lemma cache_new w : cache_ok w (std_new (w_her w)).
Proof.
  split; [done|]. cbn [so_infos std_new]. split; [by rewrite lookup_singleton|].
  intros p i H. apply lookup_singleton_Some in H as [<- <-]. unfold known. by rewrite bool_decide_eq_true_2.
Qed.

Lemma cache_info w s p : cache_ok w s -> exists s', std_info (w_hpkg w) s p = (s', known w p) /\ cache_ok w s'.
Proof.
  intros (H1 & H2 & H3). unfold std_info. destruct (so_infos s !! p) as [i|] eqn:E.
  - exists s. rewrite (H3 p i E). done.
  - assert (known w p = w_hpkg w p) as Hk.
    { unfold known. rewrite bool_decide_eq_false_2; [done|]. intros ->. congruence. }
    rewrite Hk. destruct (w_hpkg w p) as [i|e] eqn:Ei; [|by exists s].
    exists (Sto (so_here s) (<[p := i]> (so_infos s))). split; [done|]. split; [done|]. cbn [so_infos].
    assert (p <> h_import (w_her w)) by (intros ->; congruence).
    split; [by rewrite lookup_insert_ne|]. intros q j Hq.
    apply lookup_insert_Some in Hq as [[<- <-]|[_ Hq]]; [by rewrite Hk|by apply H3].
Qed.

(** ** C83: `pkger info` *)

Lemma info_loop_in_turn w s args : cache_ok w s ->
  exists l e, info_loop w s args = (concat (map (fun i => encode_indent (B" ") (j_info i)) l), e) /\
    in_turn (fun a x => exists i, known w a = Ok i /\ x = [i]) (fun a e => known w a = Err e) args l e.
Proof.
  revert s. induction args as [|a args IH]; intros s Hs; cbn [info_loop].
  - exists [], None. split; [done|constructor].
  - destruct (cache_info w s a Hs) as (s' & E & Hs'). rewrite E. destruct (known w a) as [i|e] eqn:Ek.
    + destruct (IH s' Hs') as (l & e & El & Ht). rewrite El. exists (i :: l), e. split; [done|].
      apply (it_show _ _ a [i]); [by exists i|done].
    + exists [], (Some e). split; [done|]. by constructor.
Qed.

(** `pkger info a...` prints, for each argument in turn, a JSON document that
    reads back as what is known about that package; it ends at the first
    argument nothing is known about, with that error. *)
Theorem C83_info w args :
  (forall a i, a ∈ or_dot args -> known w a = Ok i -> info_ok i) ->
  exists out e l, run_info w args = Ret out e /\ read_all d_hinfo out = Some l /\
    in_turn (fun a x => exists i, known w a = Ok i /\ x = [i]) (fun a e => known w a = Err e) (or_dot args) l e.
Proof.
  intros Hok. unfold run_info. destruct (info_loop_in_turn w _ (or_dot args) (cache_new w)) as (l & e & E & Ht).
  rewrite E. eexists _, e, l. split; [done|]. split; [|done].
  apply read_all_encoded; [apply ws_1|]. clear E.
  induction Ht as [|a args' e Hf|a x args' y e (i & Hi & ->) Ht IH]; [constructor..|].
  constructor.
  - apply d_info_round. apply (Hok a i); [left|done].
  - apply IH. intros b j Hb. apply Hok. by right.
Qed.

(** In particular, no error means that every argument has its document. *)
Theorem C83_complete w args out :
  run_info w args = Ret out None -> (forall a i, a ∈ or_dot args -> known w a = Ok i -> info_ok i) ->
  exists l, read_all d_hinfo out = Some l /\ Forall2 (fun a i => known w a = Ok i) (or_dot args) l.
Proof.
  intros Hr Hok. destruct (C83_info w args Hok) as (out' & e & l & Hr' & Hl & Ht). rewrite Hr in Hr'. injection Hr' as <- <-.
  exists l. split; [done|]. clear -Ht. remember None as e eqn:He. induction Ht as [|a l' e' Hf|a x args' y e (i & Hi & ->) Ht IH]; [constructor|done|].
  cbn [app]. constructor; [done|]. by apply IH.
Qed.

(** ** C84: `pkger path` *)

Lemma path_loop_spec w m args :
  match path_loop w m args with
  | Some m' => Forall (fun a => is_Some (w_parse w (w_her w) a)) args /\
               forall a, m' !! a = if bool_decide (a ∈ args) then w_parse w (w_her w) a else m !! a
  | None => Exists (fun a => w_parse w (w_her w) a = None) args
  end.
Proof.
  revert m. induction args as [|a args IH]; intros m; cbn [path_loop].
  - split; [constructor|]. intros a. rewrite bool_decide_eq_false_2; [done|]. apply not_elem_of_nil.
  - destruct (w_parse w (w_her w) a) as [pt|] eqn:E; [|by constructor].
    specialize (IH (<[a := pt]> m)). destruct (path_loop w (<[a := pt]> m) args) as [m'|]; [|by right].
    destruct IH as [IH1 IH2]. split; [by constructor|]. intros b. rewrite IH2.
    destruct (decide (b ∈ args)) as [Hb|Hb].
    + rewrite !bool_decide_eq_true_2; [done|by right|done].
    + rewrite (bool_decide_eq_false_2 (b ∈ args)) by done. destruct (decide (b = a)) as [->|Hn].
      * rewrite bool_decide_eq_true_2 by left. by rewrite lookup_insert, E.
      * rewrite bool_decide_eq_false_2 by (rewrite elem_of_cons; intros [?|?]; done). by rewrite lookup_insert_ne.
Qed.

(** The last value given for a yes/no option is a yes. *)
Definition on (name : bytes) (sets : list (bytes * bytes)) : Prop := exists v, last (values name sets) = Some v /\ yes v.

Lemma bool_var_on formal args sets rest name : split_args formal args sets rest -> formal name = Some FBool ->
  bool_var name sets = true <-> on name sets.
Proof. intros (opts & Ho & _) Hf. by apply (bool_var_values formal name opts). Qed.
Lemma bool_var_off formal args sets rest name : split_args formal args sets rest -> formal name = Some FBool ->
  ~ on name sets -> bool_var name sets = false.
Proof. intros Hs Hf Hn. apply not_true_is_false. by rewrite (bool_var_on _ _ _ _ _ Hs Hf). Qed.

(** `pkger path a...` prints one document, which maps every argument (and
    nothing else) to the path it stands for ... *)
Theorem C84_paths w args sets rest :
  split_args help_formal args sets rest -> ~ on (B"h") sets -> rest <> [] ->
  Forall (fun a => utf8 a /\ exists pt, w_parse w (w_her w) a = Some pt /\ path_ok pt) rest ->
  exists out m, run_path w args = Ret out None /\ read_one (d_map d_path) out = Some m /\
    forall a, m !! a = if bool_decide (a ∈ rest) then w_parse w (w_her w) a else None.
Proof.
  intros Hs Hh Hne Hall. apply (bool_var_off _ _ _ _ (B"h") Hs eq_refl) in Hh. apply C74_flags in Hs. unfold run_path. rewrite Hs, Hh.
  destruct rest as [|a0 rest0] eqn:Er; [done|]. rewrite <- Er in *.
  pose proof (path_loop_spec w ∅ rest) as Hp. destruct (path_loop w ∅ rest) as [m|].
  - destruct Hp as [_ Hm]. eexists _, m. split; [done|]. split; [|intros a; rewrite Hm; by case_bool_decide].
    rewrite read_one_encoded by apply ws_1. apply d_map_round. intros k pt Hk. rewrite Hm in Hk.
    case_bool_decide as Hin; [|done]. rewrite Forall_forall in Hall. destruct (Hall k Hin) as (Hu & pt' & E & Hok).
    split; [done|]. rewrite E in Hk. injection Hk as ->. by apply d_path_round.
  - exfalso. apply Exists_exists in Hp as (a & Hin & Ha). rewrite Forall_forall in Hall.
    destruct (Hall a Hin) as (_ & pt & E & _). congruence.
Qed.

(** ... and prints nothing but fails if one of them stands for none, or if
    there are no arguments. *)
Theorem C84_all_or_nothing w args sets rest :
  split_args help_formal args sets rest -> ~ on (B"h") sets ->
  rest = [] \/ Exists (fun a => w_parse w (w_her w) a = None) rest ->
  exists e, run_path w args = Ret [] (Some e).
Proof.
  intros Hs Hh Hbad. apply (bool_var_off _ _ _ _ (B"h") Hs eq_refl) in Hh. apply C74_flags in Hs. unfold run_path. rewrite Hs, Hh.
  destruct rest as [|a0 rest0] eqn:Er; [by eexists|]. rewrite <- Er in *.
  pose proof (path_loop_spec w ∅ rest) as Hp. destruct (path_loop w ∅ rest) as [m|]; [|by eexists].
  exfalso. destruct Hp as [Hp _]. destruct Hbad as [->|Hb]; [done|].
  apply Exists_exists in Hb as (a & Hin & Ha). rewrite Forall_forall in Hp. destruct (Hp a Hin) as [pt E]. congruence.
Qed.

(** ** C85: `pkger parse` *)

(** Readers of what `parse` and `list` print. *)
Definition d_list {A} (f : option json -> option A) (j : option json) : option (list A) :=
  match j with
  | None | Some JNull => Some []
  | Some (JArr l) => mapM (fun j => f (Some j)) l
  | _ => None
  end.
Definition d_pfile (j : option json) : option pfile :=
  l ← d_obj j; abs ← d_str (field (B"Abs") l); pt ← d_path (field (B"Path") l); her ← d_hinfo (field (B"Here") l);
  Some (PFile abs pt her).
Definition d_kind (s : bytes) : option kind :=
  if bool_decide (s = B"pkger.MkdirAll") then Some KMkdirAll
  else if bool_decide (s = B"pkger.Create") then Some KCreate
  else if bool_decide (s = B"pkger.Include") then Some KInclude
  else if bool_decide (s = B"pkger.Stat") then Some KStat
  else if bool_decide (s = B"pkger.Open") then Some KOpen
  else if bool_decide (s = B"pkger.Dir") then Some KDir
  else if bool_decide (s = B"pkger.Walk") then Some KWalk
  else None.
Definition d_decl (j : option json) : option (json * decl) :=
  l ← d_obj j; s ← d_str (field (B"type") l); k ← d_kind s; f ← d_pfile (field (B"file") l);
  v ← d_str (field (B"value") l); p ← field (B"pos") l; Some (p, Decl k f v).

Record pfile_ok (f : pfile) : Prop := { pfo_abs : utf8 (pf_abs f); pfo_path : path_ok (pf_path f); pfo_here : info_ok (pf_here f) }.
Definition decl_ok (d : decl) : Prop := pfile_ok (d_file d) /\ utf8 (d_value d).

Lemma d_pfile_round f : pfile_ok f -> d_pfile (Some (clean_json (j_pfile f))) = Some f.
Proof.
  intros [H1 H2 H3]. unfold j_pfile. cbn [clean_json map fst snd].
  repeat match goal with |- context [sanitize (B ?s)] => change (sanitize (B s)) with (B s) end.
  rewrite (sanitize_utf8 (pf_abs f)) by done. unfold d_pfile. cbn [d_obj mbind option_bind].
  repeat one_field. cbn [d_str mbind option_bind]. rewrite d_path_round by done. cbn [mbind option_bind].
  rewrite d_info_round by done. by destruct f.
Qed.

Lemma d_decl_round p d : decl_ok d -> clean_json p = p -> d_decl (Some (clean_json (j_decl (p, d)))) = Some (p, d).
Proof.
  intros [H1 H2] Hp. unfold j_decl. cbn [clean_json map fst snd].
  repeat match goal with |- context [sanitize (B ?s)] => change (sanitize (B s)) with (B s) end.
  rewrite Hp. assert (sanitize (type_name (dk d)) = type_name (dk d)) as -> by (by destruct (dk d)).
  rewrite (sanitize_utf8 (d_value d)) by done. unfold d_decl. cbn [d_obj mbind option_bind].
  repeat one_field. cbn [d_str mbind option_bind].
  assert (d_kind (type_name (dk d)) = Some (dk d)) as -> by (by destruct (dk d)). cbn [mbind option_bind].
  rewrite d_pfile_round by done. by destruct d.
Qed.

Lemma d_list_round {A} (f : option json -> option A) (g : A -> json) (l : list A) :
  Forall (fun x => f (Some (clean_json (g x))) = Some x) l -> d_list f (Some (clean_json (j_slice (map g l)))) = Some l.
Proof.
  intros H. destruct l as [|x l]; [done|]. change (j_slice (map g (x :: l))) with (JArr (map g (x :: l))).
  cbn [clean_json d_list]. induction H as [|y k Hy H IH]; [done|]. cbn [map mapM]. rewrite Hy, IH. done.
Qed.

(** The package an argument of `parse` stands for, and its declarations. *)
Definition package_of (w : world) (a : bytes) (i : hinfo) : Prop :=
  (a = B"." /\ w_hdir w a = Ok i) \/ (a <> B"." /\ w_hpkg w a = Ok i).
Definition declarations (w : world) (fs : node) (a : bytes) (ds : list decl) : Prop :=
  exists i, package_of w a i /\ scan w fs i [] = Ok ds.

Lemma package_arg_spec w a i : package_arg w a = Ok i <-> package_of w a i.
Proof.
  unfold package_arg, package_of. case_bool_decide as H; split.
  - by left.
  - by intros [[_ ?]|[? _]].
  - by right.
  - by intros [[? _]|[_ ?]].
Qed.

Lemma parse_loop_spec w fs m args :
  match parse_loop w fs m args with
  | Ok m' => (forall a, a ∈ args -> exists ds, declarations w fs a ds /\ m' !! a = Some (imap (fun i d => (w_pos w a i, d)) ds)) /\
             (forall a, a ∉ args -> m' !! a = m !! a)
  | Err e => Exists (fun a => ~ exists ds, declarations w fs a ds) args
  end.
Proof.
  revert m. induction args as [|a args IH]; intros m; cbn [parse_loop].
  - split; [intros a Ha; by apply not_elem_of_nil in Ha|done].
  - destruct (package_arg w a) as [i|e] eqn:Ea.
    2:{ left. intros (ds & i & Hi & _). apply package_arg_spec in Hi. congruence. }
    destruct (scan w fs i []) as [ds|e] eqn:Es.
    2:{ left. intros (ds & i' & Hi & Hs). apply package_arg_spec in Hi. rewrite Ea in Hi. injection Hi as ->. congruence. }
    set (v := imap _ ds). specialize (IH (<[a := v]> m)). destruct (parse_loop w fs (<[a := v]> m) args) as [m'|]; [|by right].
    destruct IH as [IH1 IH2]. split.
    + intros b Hb. destruct (decide (b ∈ args)) as [H|H]; [by apply IH1|].
      apply elem_of_cons in Hb as [->|?]; [|done]. exists ds. split; [exists i; split; [by apply package_arg_spec|done]|].
      rewrite IH2 by done. by rewrite lookup_insert.
    + intros b Hb. apply not_elem_of_cons in Hb as [Hn Hb]. rewrite IH2 by done. by rewrite lookup_insert_ne.
Qed.

(** `pkger parse p...` prints one document, which maps every argument (and
    nothing else) to the declarations of that package, in order, each with its
    position ... *)
Theorem C85_parse w fs args sets rest :
  split_args help_formal args sets rest -> ~ on (B"h") sets ->
  (forall a, a ∈ or_dot rest -> utf8 a /\ exists ds, declarations w fs a ds) ->
  (forall a ds, a ∈ or_dot rest -> declarations w fs a ds -> Forall decl_ok ds) ->
  (forall a k, clean_json (w_pos w a k) = w_pos w a k) ->
  exists out m, run_parse w fs args = Ret out None /\ read_one (d_map (d_list d_decl)) out = Some m /\
    forall a, match m !! a with
              | Some l => a ∈ or_dot rest /\ declarations w fs a l.*2 /\ forall k p d, l !! k = Some (p, d) -> p = w_pos w a k
              | None => a ∉ or_dot rest
              end.
Proof.
  intros Hs Hh Hall Hok Hpos. apply (bool_var_off _ _ _ _ (B"h") Hs eq_refl) in Hh. apply C74_flags in Hs. unfold run_parse. rewrite Hs, Hh.
  pose proof (parse_loop_spec w fs ∅ (or_dot rest)) as Hp. destruct (parse_loop w fs ∅ (or_dot rest)) as [m|e].
  2:{ exfalso. apply Exists_exists in Hp as (a & Hin & Ha). by destruct (Hall a Hin). }
  destruct Hp as [H1 H2]. exists (encode_indent (B" ") (j_map (fun l => j_slice (map j_decl l)) m)), m.
  split; [done|]. split.
  - rewrite read_one_encoded by apply ws_1. apply d_map_round. intros a l Hl.
    destruct (decide (a ∈ or_dot rest)) as [Hin|Hin]; [|by rewrite H2 in Hl].
    split; [by apply Hall|]. destruct (H1 a Hin) as (ds & Hds & E). rewrite E in Hl. injection Hl as <-.
    apply d_list_round. apply Forall_lookup. intros k [p d] Hk. rewrite list_lookup_imap in Hk.
    destruct (ds !! k) as [d'|] eqn:Ed; [|done]. injection Hk as <- <-. apply d_decl_round; [|apply Hpos].
    pose proof (Hok a ds Hin Hds) as HF. rewrite Forall_lookup in HF. by apply (HF k).
  - intros a. destruct (m !! a) as [l|] eqn:El.
    + destruct (decide (a ∈ or_dot rest)) as [Hin|Hin]; [|by rewrite H2 in El].
      destruct (H1 a Hin) as (ds & Hds & E). rewrite E in El. injection El as <-. split; [done|]. split.
      * rewrite <- list_fmap_imap || idtac. replace ((imap (fun i d => (w_pos w a i, d)) ds).*2) with ds; [done|].
        symmetry. apply list_eq. intros k. rewrite list_lookup_fmap, list_lookup_imap. by destruct (ds !! k).
      * intros k p d Hk. rewrite list_lookup_imap in Hk. destruct (ds !! k); [|done]. by injection Hk as <- _.
    + intros Hin. destruct (H1 a Hin) as (ds & _ & E). congruence.
Qed.

(** ... and prints nothing but fails if one of the packages cannot be scanned. *)
Theorem C85_all_or_nothing w fs args sets rest :
  split_args help_formal args sets rest -> ~ on (B"h") sets ->
  Exists (fun a => ~ exists ds, declarations w fs a ds) (or_dot rest) ->
  exists e, run_parse w fs args = Ret [] (Some e).
Proof.
  intros Hs Hh Hbad. apply (bool_var_off _ _ _ _ (B"h") Hs eq_refl) in Hh. apply C74_flags in Hs. unfold run_parse. rewrite Hs, Hh.
  pose proof (parse_loop_spec w fs ∅ (or_dot rest)) as Hp. destruct (parse_loop w fs ∅ (or_dot rest)) as [m|e]; [|by eexists].
  exfalso. destruct Hp as [Hp _]. apply Exists_exists in Hbad as (a & Hin & Ha). destruct (Hp a Hin) as (ds & Hd & _).
  apply Ha. by exists ds.
Qed.

(** ** C86: `pkger stat` *)

(** What an argument of `stat` names: a path of a known package, and the file
    or directory found there. *)
Inductive place (w : world) (fs : node) (a : bytes) : bytes -> node -> Prop :=
| place_at pt i n : w_parse w (w_her w) a = Some pt -> known w (p_pkg pt) = Ok i ->
    find fs (join2 (h_dir i) (p_name pt)) = Some n -> place w fs a (join2 (h_dir i) (p_name pt)) n.

(** What is shown for it. *)
Definition stat_shows (w : world) (fs : node) (a : bytes) (x : list details) : Prop :=
  exists p n, place w fs a p n /\ n_ok (n_meta n) = true /\
    match n with
    | NFile _ _ => x = [info_of (base p) n]
    | NDir _ cs => x ≡ₚ map (fun wc => info_of wc.1 wc.2) cs
    end.
Definition stat_fails (w : world) (fs : node) (a : bytes) (e : gerr) : Prop :=
  (w_parse w (w_her w) a = None /\ e = EParse) \/
  (exists pt, w_parse w (w_her w) a = Some pt /\
     (known w (p_pkg pt) = Err e \/
      exists i, known w (p_pkg pt) = Ok i /\ let p := join2 (h_dir i) (p_name pt) in e = EPath (B"open") p /\
        forall n, find fs p = Some n -> n_ok (n_meta n) = false)).

Lemma stat_loop_in_turn w fs s args : (forall l, w_rorder w l ≡ₚ l) -> cache_ok w s ->
  exists l e, stat_loop w fs s args = (concat (map (fun d => encode_indent (B"  ") (j_details d)) l), e) /\
    in_turn (stat_shows w fs) (stat_fails w fs) args l e.
Proof.
  intros Hro. revert s. induction args as [|a args IH]; intros s Hs; cbn [stat_loop].
  - exists [], None. split; [done|constructor].
  - unfold std_open. destruct Hs as (Hh & Hs). rewrite Hh. destruct (w_parse w (w_her w) a) as [pt|] eqn:Ep.
    2:{ exists [], (Some EParse). split; [done|]. constructor. by left. }
    destruct (cache_info w s (p_pkg pt) (conj Hh Hs)) as (s' & E & Hs'). rewrite E.
    destruct (known w (p_pkg pt)) as [i|e] eqn:Ek.
    2:{ exists [], (Some e). split; [done|]. constructor. right. exists pt. split; [done|]. by left. }
    set (p := join2 (h_dir i) (p_name pt)). unfold os_open. destruct (find fs p) as [n|] eqn:Ef.
    2:{ exists [], (Some (EPath (B"open") p)). split; [done|]. constructor. right. exists pt. split; [done|]. right.
        exists i. split; [done|]. cbv zeta. split; [done|]. fold p. intros n. by rewrite Ef. }
    destruct (n_ok (n_meta n)) eqn:En.
    2:{ exists [], (Some (EPath (B"open") p)). split; [done|]. constructor. right. exists pt. split; [done|]. right.
        exists i. split; [done|]. cbv zeta. split; [done|]. fold p. intros n'. rewrite Ef. by intros [= <-]. }
    cbn [sf_os sf_info sfile_stat]. rewrite new_file_info_id. destruct (IH s' Hs') as (l & e & El & Ht). rewrite El.
    assert (Hpl : place w fs a p n) by (by econstructor).
    assert (Hmap : forall k, concat (map (fun d => println (info_string (new_file_info d))) k) =
      concat (map (fun d => encode_indent (B"  ") (j_details d)) k)).
    { done. }
    destruct n as [im data|im cs].
    + cbn [info_of d_isdir]. eexists ([info_of (base p) (NFile im data)] ++ l), e.
      split; [rewrite Hmap, map_app, concat_app; done|]. constructor; [|done]. exists p, (NFile im data). done.
    + cbn [info_of d_isdir]. unfold readdir_all. rewrite Ef.
      eexists (w_rorder w (map (fun wc => info_of wc.1 wc.2) cs) ++ l), e.
      split; [rewrite Hmap, map_app, concat_app; done|]. constructor; [|done]. exists p, (NDir im cs).
      split; [done|]. split; [done|]. apply Hro.
Qed.

(** `pkger stat a...` prints, for each argument in turn, the details of the
    file there, or of every entry of the directory there; each is a JSON
    document that reads back as those details.  It ends at the first argument
    that cannot be opened. *)
Theorem C86_stat w fs args :
  (forall l, w_rorder w l ≡ₚ l) ->
  (forall a x d, a ∈ or_dot args -> stat_shows w fs a x -> d ∈ x -> details_ok d) ->
  exists out e l, run_stat w fs args = Ret out e /\ read_all d_details out = Some l /\
    in_turn (stat_shows w fs) (stat_fails w fs) (or_dot args) l e.
Proof.
  intros Hro Hok. unfold run_stat. destruct (stat_loop_in_turn w fs _ (or_dot args) Hro (cache_new w)) as (l & e & E & Ht).
  rewrite E. eexists _, e, l. split; [done|]. split; [|done].
  apply read_all_encoded; [apply ws_2|]. clear E.
  induction Ht as [|a args' e Hf|a x args' y e Hx Ht IH]; [constructor..|].
  apply Forall_app. split.
  - apply Forall_forall. intros d Hd. apply d_details_round. apply (Hok a x d); [left|done|done].
  - apply IH. intros b x' d Hb. apply Hok. by right.
Qed.

(** FileInfo.String is a document that reads back. *)
Theorem C86_string d : details_ok d -> exists j, read_json (info_string d) = Some j /\ d_details (Some j) = Some d.
Proof.
  intros H. exists (clean_json (j_details d)). split; [apply marshal_indent_round, ws_2|by apply d_details_round].
Qed.

(** ** C87: `pkger list` *)

(** What `list` has to show. *)
Definition to_list (w : world) (fs : node) (incs : list bytes) (fl : list pfile) : Prop :=
  exists ds, scan w fs (w_her w) incs = Ok ds /\ files (w_parse w) (w_hdir w) fs (w_forder w) ds = Ok fl.

(** The lines of a text. *)
Fixpoint lines_from (cur s : bytes) : list bytes :=
  match s with
  | [] => match cur with [] => [] | _ => [cur] end
  | c :: s => if Ascii.eqb c newline then cur :: lines_from [] s else lines_from (cur ++ [c]) s
  end.
Definition lines (s : bytes) : list bytes := lines_from [] s.

Lemma lines_println cur x s : newline ∉ x -> lines_from cur (println x ++ s) = (cur ++ x) :: lines_from [] s.
Proof.
  unfold println. revert cur. induction x as [|c x IH]; intros cur Hx.
  - cbn [app lines_from]. change (Ascii.eqb newline newline) with true. by rewrite app_nil_r.
  - apply not_elem_of_cons in Hx as [Hc Hx]. cbn [app lines_from].
    assert (Ascii.eqb c newline = false) as -> by (apply Ascii.eqb_neq; congruence).
    change ((x ++ [newline]) ++ s) with ((x ++ [newline]) ++ s). rewrite IH by done. by rewrite <- app_assoc.
Qed.

(** The module after the file generated last time is gone. *)
Definition without_output (w : world) (fs : node) : node := rm fs (join2 (h_dir (w_her w)) (B"pkged.go")).

(** Without -json: the import path, then one line per file. *)
Theorem C87_text_partial w fs args sets rest fl :
  split_args list_formal args sets rest -> ~ on (B"json") sets ->
  to_list w (without_output w fs) (values (B"include") sets) fl ->
  newline ∉ h_import (w_her w) -> Forall (fun f => newline ∉ path_string (pf_path f)) fl ->
  exists out, exec_list w fs args = (without_output w fs, Ret out None) /\
    lines out = h_import (w_her w) :: map (fun f => B" > " ++ path_string (pf_path f)) fl.
Proof.
  intros Hs Hj (ds & Hd & Hf) Hn Hall. apply (bool_var_off _ _ _ _ (B"json") Hs eq_refl) in Hj. apply C74_flags in Hs.
  unfold exec_list. rewrite Hs, list_var_values, Hj. unfold without_output in *. change out_name with (B"pkged.go"). rewrite Hd, Hf.
  eexists. split; [done|]. unfold lines, list_text. rewrite lines_println by done. cbn [app]. f_equal.
  clear -Hall. induction Hall as [|f fl Hf Hall IH]; [done|]. cbn [map concat]. rewrite lines_println; [by rewrite IH|].
  intros H. apply elem_of_app in H as [H|H]; [|done]. revert H. apply (bool_decide_eq_false_1 (newline ∈ B" > ")). by vm_compute.
Qed.

(** With -json: a document that reads back as the list of files. *)
Definition d_listing (j : option json) : option (bytes * list pfile) :=
  l ← d_obj j; i ← d_str (field (B"ImportPath") l); fl ← d_list d_pfile (field (B"Files") l); Some (i, fl).

Theorem C87_json w fs args sets rest fl :
  split_args list_formal args sets rest -> on (B"json") sets ->
  to_list w (without_output w fs) (values (B"include") sets) fl ->
  utf8 (h_import (w_her w)) -> Forall pfile_ok fl ->
  exists out, exec_list w fs args = (without_output w fs, Ret out None) /\
    read_one d_listing out = Some (h_import (w_her w), fl).
Proof.
  intros Hs Hj (ds & Hd & Hf) Hu Hall. apply (bool_var_on _ _ _ _ (B"json") Hs eq_refl) in Hj. apply C74_flags in Hs.
  unfold exec_list. rewrite Hs, list_var_values, Hj. unfold without_output in *. change out_name with (B"pkged.go"). rewrite Hd, Hf.
  eexists. split; [done|]. rewrite read_one_encoded by apply ws_1. unfold j_list. cbn [clean_json map fst snd].
  repeat match goal with |- context [sanitize (B ?s)] => change (sanitize (B s)) with (B s) end.
  rewrite (sanitize_utf8 (h_import _)) by done. unfold d_listing. cbn [d_obj mbind option_bind].
  repeat one_field. cbn [d_str mbind option_bind]. rewrite d_list_round; [done|].
  eapply Forall_impl; [exact Hall|]. intros f. apply d_pfile_round.
Qed.

(** In it Files is an array, unless there are no files: then it is null. *)
Theorem C87_array w fs args sets rest fl :
  split_args list_formal args sets rest -> on (B"json") sets ->
  to_list w (without_output w fs) (values (B"include") sets) fl ->
  exists out l v, exec_list w fs args = (without_output w fs, Ret out None) /\
    read_stream out = Some [JObj l] /\ field (B"Files") l = Some v /\
    match v with JArr a => length a = length fl /\ fl <> [] | JNull => fl = [] | _ => False end.
Proof.
  intros Hs Hj (ds & Hd & Hf). apply (bool_var_on _ _ _ _ (B"json") Hs eq_refl) in Hj. apply C74_flags in Hs.
  unfold exec_list. rewrite Hs, list_var_values, Hj. unfold without_output in *. change out_name with (B"pkged.go"). rewrite Hd, Hf.
  eexists _, _, _. split; [done|]. split.
  { pose proof (encode_stream (B" ") [j_list (w_her w) fl] (ws_1)) as H. cbn [map concat] in H. rewrite app_nil_r in H. exact H. }
  unfold j_list. cbn [clean_json map fst snd].
  repeat match goal with |- context [sanitize (B ?s)] => change (sanitize (B s)) with (B s) end.
  split; [one_field; done|]. destruct fl as [|f fl]; [done|]. cbn [map j_slice clean_json length]. split; [|done]. f_equal.
  etransitivity; [apply map_length|]. apply map_length.
Qed.

(** If there is nothing to show, it fails and prints nothing. *)
Theorem C87_failure w fs args sets rest :
  split_args list_formal args sets rest ->
  (~ exists fl, to_list w (without_output w fs) (values (B"include") sets) fl) ->
  exists e, exec_list w fs args = (without_output w fs, Ret [] (Some e)).
Proof.
  intros Hs Hn. apply C74_flags in Hs. unfold exec_list. rewrite Hs, list_var_values. unfold without_output, to_list in *.
  change out_name with (B"pkged.go").
  destruct (scan w _ (w_her w) _) as [ds|e] eqn:Ed; [|by eexists].
  destruct (files _ _ _ _ ds) as [fl|e] eqn:Ef; [|by eexists]. exfalso. apply Hn. exists fl, ds. done.
Qed.
