(** The file system as /repo sees it: os.Stat, os.Open, ioutil reads and
    filepath.Walk (Go standard library, Unix).

    A file system is a tree.  Simplifications: no symbolic links or special
    files; a directory's entries are kept sorted by name (readDirNames sorts
    them before Walk uses them); relative paths, which would start at the
    process's working directory, name nothing; the only failure besides a
    missing path is a node that may not be opened ([n_ok]); nothing else
    changes the tree while the modelled code runs. *)
From Verif Require Import Bytes GoPath Here GoTypes WalkSpec.

(** What os.FileInfo reports apart from name, directory flag and, for files,
    size. *)
Record meta := Meta { n_mode : N; n_mtime : gotime; n_size : Z; n_sys : json; n_ok : bool }.

Inductive node :=
| NFile (i : meta) (data : bytes)
| NDir (i : meta) (cs : list (bytes * node)).

Definition n_meta (n : node) : meta := match n with NFile i _ | NDir i _ => i end.
Definition n_isdir (n : node) : bool := match n with NDir _ _ => true | _ => false end.

(** The os.FileInfo of a node reached under base name [w]. *)
Definition info_of (w : bytes) (n : node) : details :=
  match n with
  | NFile i data => Details w (Z.of_nat (length data)) (n_mode i) (n_mtime i) false (n_sys i)
  | NDir i _ => Details w (n_size i) (n_mode i) (n_mtime i) true (n_sys i)
  end.

Fixpoint child (w : bytes) (cs : list (bytes * node)) : option node :=
  match cs with
  | [] => None
  | (v, c) :: cs => if bool_decide (w = v) then Some c else child w cs
  end.

Fixpoint get (n : node) (ws : list bytes) : option node :=
  match ws with
  | [] => Some n
  | w :: ws =>
      match n with
      | NFile _ _ => None
      | NDir _ cs => match child w cs with Some c => get c ws | None => None end
      end
  end.

(** The node at a path. *)
Definition find (fs : node) (p : bytes) : option node :=
  if is_rooted p then get fs (clean_elems p) else None.

(** os.Stat and os.Lstat. *)
Definition os_stat (fs : node) (p : bytes) : res details :=
  match find fs p with
  | Some n => Ok (info_of (base p) n)
  | None => Err (EPath (B"stat") p)
  end.

(** os.Open: the node behind the descriptor. *)
Definition os_open (fs : node) (p : bytes) : res node :=
  match find fs p with
  | Some n => if n_ok (n_meta n) then Ok n else Err (EPath (B"open") p)
  | None => Err (EPath (B"open") p)
  end.

(** filepath.WalkFunc. *)
Definition wfunc (S : Type) := bytes -> option details -> option gerr -> S -> S * option gerr.

(** The loop of filepath.walk over a directory's entries: SkipDir from a
    sub-directory is dropped, any other error ends the loop. *)
Definition walk_children {S} (F : bytes * node -> S -> S * option gerr) :=
  fix go (cs : list (bytes * node)) (s : S) : S * option gerr :=
    match cs with
    | [] => (s, None)
    | x :: cs =>
        let '(s, e) := F x s in
        match e with
        | None => go cs s
        | Some e => if n_isdir x.2 && bool_decide (e = ESkipDir) then go cs s else (s, Some e)
        end
    end.

(** filepath.walk (Go 1.13). *)
Fixpoint fwalk {S} (f : wfunc S) (p : bytes) (n : node) (s : S) : S * option gerr :=
  match n with
  | NFile _ _ => f p (Some (info_of (base p) n)) None s
  | NDir i cs =>
      if n_ok i then
        let '(s, e) := f p (Some (info_of (base p) n)) None s in
        match e with
        | Some e => (s, Some e)
        | None => walk_children (fun x => fwalk f (join2 p x.1) x.2) cs s
        end
      else f p (Some (info_of (base p) n)) (Some (EPath (B"open") p)) s
  end.

(** filepath.Walk. *)
Definition walk_disk {S} (fs : node) (root : bytes) (f : wfunc S) (s : S) : S * option gerr :=
  let '(s, e) :=
    match find fs root with
    | None => f root None (Some (EPath (B"lstat") root)) s
    | Some n => fwalk f root n s
    end in
  (s, if bool_decide (e = Some ESkipDir) then None else e).

(** ** Specification *)

(** A well-formed tree: entry names are proper and strictly increasing. *)
Fixpoint wf_node (n : node) : Prop :=
  match n with
  | NFile _ _ => True
  | NDir _ cs =>
      StronglySorted (fun a b => blt a.1 b.1 = true) cs /\
      (fix all (cs : list (bytes * node)) : Prop :=
         match cs with [] => True | (w, c) :: cs => good_elem w /\ wf_node c /\ all cs end) cs
  end.

(** Everything below (and including) [n] may be opened. *)
Definition all_open (n : node) : Prop :=
  forall ws c, get n ws = Some c -> n_ok (n_meta c) = true.

(** The nodes a walk calls its function for when the function asks to skip
    the directories in [sk]: paths relative to the root of the walk. *)
Definition under (sk : list bytes -> bool) (ws : list bytes) : Prop :=
  exists vs us, ws = vs ++ us /\ us <> [] /\ sk vs = true.

(** Exactly the nodes not strictly below a skipped one, each once, a directory
    before its contents, siblings by name. *)
Definition is_visit (n : node) (sk : list bytes -> bool) (l : list (list bytes * node)) : Prop :=
  StronglySorted (fun a b => elems_lt a.1 b.1 = true) l /\
  forall ws c, (ws, c) ∈ l <-> get n ws = Some c /\ ~ under sk ws.

(** ** Proofs *)

Lemma node_ind' (P : node -> Prop) :
  (forall i d, P (NFile i d)) ->
  (forall i cs, Forall (fun x => P x.2) cs -> P (NDir i cs)) ->
  forall n, P n.
Proof.
  intros HF HD. fix IH 1. intros [i d|i cs]; [apply HF|]. apply HD.
  induction cs as [|[w c] cs IHcs]; constructor; [apply IH|exact IHcs].
Qed.

Lemma wf_dir i cs : wf_node (NDir i cs) <->
  StronglySorted (fun a b => blt a.1 b.1 = true) cs /\
  Forall (fun x => good_elem x.1 /\ wf_node x.2) cs.
Proof.
  cbn [wf_node]. apply and_iff_compat_l. induction cs as [|[w c] cs IH]; [done|].
  rewrite Forall_cons, <- IH. cbn. tauto.
Qed.

Lemma child_elem w c cs : child w cs = Some c -> (w, c) ∈ cs.
Proof.
  induction cs as [|[v d] cs IH]; cbn; [done|]. case_bool_decide as E.
  - intros [= ->]. subst. by constructor.
  - intros H. constructor. by apply IH.
Qed.

Lemma blt_irrefl a : blt a a = false.
Proof. unfold blt. by rewrite ble_refl. Qed.
Lemma blt_trans a b c : blt a b = true -> blt b c = true -> blt a c = true.
Proof.
  rewrite !blt_spec. intros [H1 N1] [H2 N2]. split; [by eapply ble_trans|].
  intros ->. apply N2. by apply ble_antisym.
Qed.

Lemma child_iff w c cs :
  StronglySorted (fun a b => blt a.1 b.1 = true) cs -> child w cs = Some c <-> (w, c) ∈ cs.
Proof.
  induction cs as [|[v d] cs IH]; intros HS; [cbn; split; [done|intros H; inversion H]|].
  apply StronglySorted_inv in HS as [HS HF]. cbn [child]. rewrite elem_of_cons. case_bool_decide as E.
  - subst v. split; [intros [= ->]; by left|]. intros [[= ->]|Hin]; [done|].
    rewrite Forall_forall in HF. specialize (HF _ Hin). cbn in HF. by rewrite blt_irrefl in HF.
  - rewrite IH by done. split; [by right|]. intros [[= -> ->]|?]; done.
Qed.

Lemma wf_get n ws c : wf_node n -> get n ws = Some c -> wf_node c /\ Forall good_elem ws.
Proof.
  revert n. induction ws as [|w ws IH]; intros n Hw; cbn [get]; [intros [= ->]; done|].
  destruct n as [|i cs]; [done|]. apply wf_dir in Hw as [HS HF].
  destruct (child w cs) as [d|] eqn:E; [|done]. intros Hg. apply child_elem in E.
  rewrite Forall_forall in HF. destruct (HF _ E) as [H1 H2]. cbn in *.
  destruct (IH d H2 Hg). split; [done|]. by constructor.
Qed.

Lemma get_app n ws vs : get n (ws ++ vs) = match get n ws with Some c => get c vs | None => None end.
Proof.
  revert n. induction ws as [|w ws IH]; intros n; [done|]. cbn [app get].
  destruct n as [|i cs]; [done|]. destruct (child w cs); [apply IH|done].
Qed.

Lemma find_abs fs ws : Forall good_elem ws -> find fs (abs_name ws) = get fs ws.
Proof. intros H. unfold find. rewrite is_rooted_abs, clean_elems_abs by done. done. Qed.

(** The walk as a list, skipping below the paths in [sk]. *)
Fixpoint visited (sk : list bytes -> bool) (ws : list bytes) (n : node) : list (list bytes * node) :=
  (ws, n) ::
  match n with
  | NFile _ _ => []
  | NDir _ cs => if sk ws then [] else concat (map (fun x => visited sk (ws ++ [x.1]) x.2) cs)
  end.

Definition skip_err (sk : list bytes -> bool) (ws : list bytes) (n : node) : option gerr :=
  if sk ws && n_isdir n then Some ESkipDir else None.

(** A callback that asks to skip exactly the directories in [sk], and
    otherwise only updates its state. *)
Definition acts {S} (f : wfunc S) (I : S -> Prop) (sk : list bytes -> bool)
    (step : list bytes * node -> S -> S) (ws : list bytes) (n : node) : Prop :=
  forall s, I s ->
    f (abs_name ws) (Some (info_of (base (abs_name ws)) n)) None s = (step (ws, n) s, skip_err sk ws n) /\
    I (step (ws, n) s).

Definition run_steps {S X} (step : X -> S -> S) (l : list X) (s : S) : S :=
  fold_left (fun s x => step x s) l s.

Lemma join2_name ws w : Forall good_elem ws -> good_elem w -> join2 (abs_name ws) w = abs_name (ws ++ [w]).
Proof.
  intros Hs Hw. assert (E : join2 (abs_name ws) w = join2 (abs_name ws) (abs_name [w])).
  { unfold join2. destruct Hw as (Hn & _). destruct w as [|a w]; [done|].
    unfold abs_name at 1 3. cbn [app]. unfold abs_name. cbn [join_slash].
    unfold clean. cbn [app]. unfold is_rooted. 
    assert (Hc : clean_elems (slash :: join_slash ws ++ slash :: a :: w) =
                 clean_elems (slash :: join_slash ws ++ slash :: slash :: a :: w)).
    { unfold clean_elems. f_equal. cbn [is_rooted].
      change (slash :: join_slash ws ++ slash :: a :: w) with ((slash :: join_slash ws) ++ slash :: a :: w).
      change (slash :: join_slash ws ++ slash :: slash :: a :: w)
        with ((slash :: join_slash ws) ++ slash :: ([] ++ slash :: a :: w)).
      rewrite !split_app_general, !fold_left_app. done. }
    rewrite Hc. done. }
  rewrite E. apply clean_join_abs; [done|]. by constructor.
Qed.

Lemma walk_children_steps {S} (F : bytes * node -> S -> S * option gerr) (I : S -> Prop)
    (step : list bytes * node -> S -> S) (V : bytes * node -> list (list bytes * node))
    (K : bytes * node -> bool) cs s :
  Forall (fun x => forall s, I s ->
    F x s = (run_steps step (V x) s, if K x && n_isdir x.2 then Some ESkipDir else None) /\
    I (run_steps step (V x) s)) cs ->
  I s ->
  walk_children F cs s = (run_steps step (concat (map V cs)) s, None) /\
  I (run_steps step (concat (map V cs)) s).
Proof.
  revert s. induction cs as [|x cs IH]; intros s HF Hs; [done|].
  apply Forall_cons in HF as [Hx HF]. destruct (Hx s Hs) as [E1 H1].
  cbn [walk_children map concat]. rewrite E1. unfold run_steps. rewrite fold_left_app.
  fold (@run_steps S (list bytes * node) step).
  change (fold_left (fun s x => step x s) (V x) s) with (run_steps step (V x) s).
  destruct (IH (run_steps step (V x) s) HF H1) as [E2 H2].
  destruct (K x), (n_isdir x.2); cbn; by rewrite E2.
Qed.

Lemma fwalk_steps {S} (f : wfunc S) I sk step ws n s :
  Forall good_elem ws -> wf_node n -> all_open n ->
  (forall vs c, get n vs = Some c -> acts f I sk step (ws ++ vs) c) -> I s ->
  fwalk f (abs_name ws) n s = (run_steps step (visited sk ws n) s, skip_err sk ws n) /\
  I (run_steps step (visited sk ws n) s).
Proof.
  revert ws s. induction n as [i d|i cs IH] using node_ind'; intros ws s Hws Hwf Hop Hact Hs.
  - specialize (Hact [] _ eq_refl). rewrite app_nil_r in Hact. exact (Hact s Hs).
  - assert (Hok : n_ok i = true) by (by apply (Hop [] _ eq_refl)).
    cbn [fwalk visited]. rewrite Hok.
    destruct (Hact [] _ eq_refl s Hs) as [E1 H1]. rewrite app_nil_r in E1, H1.
    rewrite E1. unfold skip_err. cbn [n_isdir]. rewrite andb_true_r.
    destruct (sk ws) eqn:Esk; [done|].
    unfold run_steps. cbn [fold_left]. fold (@run_steps S (list bytes * node) step).
    apply wf_dir in Hwf as [HS HF].
    apply (walk_children_steps _ I step (fun x => visited sk (ws ++ [x.1]) x.2) (fun x => sk (ws ++ [x.1])));
      [|done].
    rewrite Forall_forall in IH, HF. apply Forall_forall. intros [w c] Hin s' Hs'.
    cbn [fst snd]. destruct (HF _ Hin) as [Hw Hwc]. cbn [fst snd] in *.
    rewrite join2_name by done.
    assert (Hget : forall vs d, get c vs = Some d -> get (NDir i cs) (w :: vs) = Some d).
    { intros vs d Hg. cbn [get]. apply (child_iff w c cs HS) in Hin. by rewrite Hin. }
    apply (IH _ Hin (ws ++ [w]) s'); [|done|..|done].
    + apply Forall_app. split; [done|]. by constructor.
    + intros vs d Hg. by apply (Hop (w :: vs)), Hget.
    + intros vs d Hg. rewrite <- app_assoc. by apply Hact, Hget.
Qed.

(** ** The visit list meets its specification *)

Lemma elem_concat_map {A B} (f : A -> list B) l y : y ∈ concat (map f l) <-> exists x, x ∈ l /\ y ∈ f x.
Proof.
  induction l as [|x l IH]; cbn [map concat].
  - split; [intros H; inversion H|intros (x & H & _); inversion H].
  - rewrite elem_of_app, IH. split.
    + intros [H|(z & Hz & H)]; [exists x; split; [by left|done]|exists z; split; [by right|done]].
    + intros (z & Hz & H). apply elem_of_cons in Hz as [->|Hz]; [by left|right; eauto].
Qed.

Lemma visited_elem sk ws n us c :
  wf_node n ->
  (us, c) ∈ visited sk ws n <->
  exists vs, us = ws ++ vs /\ get n vs = Some c /\
    forall v1 v2, vs = v1 ++ v2 -> v2 <> [] -> sk (ws ++ v1) = false.
Proof.
  revert ws us. induction n as [i d|i cs IH] using node_ind'; intros ws us Hwf; cbn [visited].
  - rewrite elem_of_list_singleton. split.
    + intros [= -> ->]. exists []. rewrite app_nil_r. split; [done|]. split; [done|].
      intros v1 v2 E. symmetry in E. apply app_nil in E as [_ ->]. done.
    + intros (vs & -> & Hg & _). destruct vs as [|v vs]; [|done]. injection Hg as <-. by rewrite app_nil_r.
  - apply wf_dir in Hwf as [HS HF]. rewrite elem_of_cons. split.
    + intros [[= -> ->]|Hin].
      * exists []. rewrite app_nil_r. split; [done|]. split; [done|].
        intros v1 v2 E. symmetry in E. apply app_nil in E as [_ ->]. done.
      * destruct (sk ws) eqn:Esk; [inversion Hin|].
        apply elem_concat_map in Hin as ([w d] & Hin & Hv). cbn [fst snd] in Hv.
        rewrite Forall_forall in IH, HF. destruct (HF _ Hin) as [_ Hwd]. cbn in Hwd.
        apply (IH _ Hin) in Hv as (vs & -> & Hg & Hsk); [|done].
        exists (w :: vs). rewrite <- app_assoc. split; [done|]. split.
        { cbn [get]. apply (child_iff w d cs HS) in Hin. by rewrite Hin. }
        intros [|x v1] v2 E Hn; [by rewrite app_nil_r|]. injection E as <- ->.
        change (w :: v1) with ([w] ++ v1). rewrite app_assoc. by eapply Hsk.
    + intros (vs & -> & Hg & Hsk). destruct vs as [|w vs].
      * injection Hg as <-. rewrite app_nil_r. by left.
      * right. assert (Esk : sk ws = false).
        { specialize (Hsk [] (w :: vs) eq_refl). rewrite app_nil_r in Hsk. by apply Hsk. }
        rewrite Esk. cbn [get] in Hg. destruct (child w cs) as [d|] eqn:E; [|done].
        apply (child_iff w d cs HS) in E. apply elem_concat_map. exists (w, d). split; [done|].
        cbn [fst snd]. rewrite Forall_forall in IH, HF. destruct (HF _ E) as [_ Hwd]. cbn in Hwd.
        apply (IH _ E); [done|]. exists vs. rewrite <- app_assoc. split; [done|]. split; [done|].
        intros v1 v2 -> Hn. rewrite <- app_assoc. eapply (Hsk (w :: v1) v2); done.
Qed.

Lemma elems_lt_app ws us vs : elems_lt (ws ++ us) (ws ++ vs) = elems_lt us vs.
Proof.
  induction ws as [|w ws IH]; [done|]. cbn [app elems_lt]. by rewrite bool_decide_eq_true_2.
Qed.

Lemma visited_below sk ws n us c : (us, c) ∈ visited sk ws n -> exists vs, us = ws ++ vs.
Proof.
  revert ws. induction n as [i d|i cs IH] using node_ind'; intros ws; cbn [visited].
  - intros H. apply elem_of_list_singleton in H as [= -> _]. exists []. by rewrite app_nil_r.
  - intros H. apply elem_of_cons in H as [[= -> _]|H]; [exists []; by rewrite app_nil_r|].
    destruct (sk ws); [inversion H|].
    apply elem_concat_map in H as ([w d] & Hin & Hv). rewrite Forall_forall in IH.
    apply (IH _ Hin) in Hv as (vs & ->). exists (w :: vs). by rewrite <- app_assoc.
Qed.

Lemma sorted_app {A} (R : A -> A -> Prop) l k :
  StronglySorted R l -> StronglySorted R k -> (forall x y, x ∈ l -> y ∈ k -> R x y) -> StronglySorted R (l ++ k).
Proof.
  intros Hl Hk Hx. induction Hl as [|x l Hl IH HF]; [done|]. cbn. constructor.
  - apply IH. intros y z Hy Hz. apply Hx; [by constructor|done].
  - apply Forall_app. split; [done|]. apply Forall_forall. intros y Hy. apply Hx; [by left|done].
Qed.

Lemma visited_sorted sk ws n :
  wf_node n -> StronglySorted (fun a b => elems_lt a.1 b.1 = true) (visited sk ws n).
Proof.
  revert ws. induction n as [i d|i cs IH] using node_ind'; intros ws Hwf; cbn [visited].
  - constructor; constructor.
  - apply wf_dir in Hwf as [HS HF]. constructor.
    + destruct (sk ws); [constructor|].
      induction cs as [|[w c] cs IHcs]; cbn [map concat fst snd]; [constructor|].
      apply Forall_cons in IH as [IHc IH]. apply Forall_cons in HF as [[Hw Hwc] HF].
      apply StronglySorted_inv in HS as [HS Hlt].
      apply sorted_app; [by apply IHc|by apply IHcs|].
      intros [us x] [us' y] H1 H2. cbn [fst].
      apply visited_below in H1 as (vs & ->).
      apply elem_concat_map in H2 as ([w' c'] & Hin & H2). apply visited_below in H2 as (vs' & ->).
      rewrite <- !app_assoc, elems_lt_app. cbn [app elems_lt fst].
      rewrite Forall_forall in Hlt. specialize (Hlt _ Hin). cbn in Hlt.
      rewrite bool_decide_eq_false_2; [done|]. intros ->. by rewrite blt_irrefl in Hlt.
    + destruct (sk ws); [constructor|]. apply Forall_forall. intros [us x] H. cbn [fst].
      apply elem_concat_map in H as ([w c] & _ & H). apply visited_below in H as (vs & ->).
      rewrite <- app_assoc, <- (app_nil_r ws) at 1. by rewrite elems_lt_app.
Qed.

(** The visit list, relative to the root of the walk. *)
Lemma visited_is_visit sk n : wf_node n -> is_visit n sk (visited sk [] n).
Proof.
  intros Hwf. split; [by apply visited_sorted|]. intros ws c. rewrite visited_elem by done. split.
  - intros (vs & -> & Hg & Hsk). split; [done|]. intros (v1 & v2 & E & Hn & Hs). cbn in E.
    specialize (Hsk v1 v2 E Hn). cbn in Hsk. congruence.
  - intros [Hg Hu]. exists ws. split; [done|]. split; [done|]. intros v1 v2 -> Hn. cbn.
    destruct (sk v1) eqn:E; [|done]. exfalso. apply Hu. by exists v1, v2.
Qed.

Lemma walk_disk_steps {S} fs (f : wfunc S) I sk step ws n s :
  Forall good_elem ws -> get fs ws = Some n -> wf_node n -> all_open n ->
  (forall vs c, get n vs = Some c -> acts f I sk step (ws ++ vs) c) -> I s ->
  walk_disk fs (abs_name ws) f s = (run_steps step (visited sk ws n) s, None) /\
  I (run_steps step (visited sk ws n) s).
Proof.
  intros Hws Hg Hwf Hop Hact Hs. unfold walk_disk. rewrite find_abs, Hg by done.
  destruct (fwalk_steps f I sk step ws n s) as [E H]; [done..|].
  rewrite E. unfold skip_err. split; [|done]. by destruct (sk ws && n_isdir n).
Qed.

(** Whatever the callback answers, its state only changes by calls on nodes of
    the tree. *)
Lemma fwalk_inv {S} (f : wfunc S) (P : S -> Prop) ws n s :
  Forall good_elem ws -> wf_node n ->
  (forall vs c e s, get n vs = Some c -> P s ->
     P (f (abs_name (ws ++ vs)) (Some (info_of (base (abs_name (ws ++ vs))) c)) e s).1) ->
  P s -> P (fwalk f (abs_name ws) n s).1.
Proof.
  revert ws s. induction n as [i d|i cs IH] using node_ind'; intros ws s Hws Hwf Hf Hs.
  - specialize (Hf [] _ None s eq_refl Hs). by rewrite app_nil_r in Hf.
  - pose proof (fun e => Hf [] _ e s eq_refl Hs) as H0. rewrite app_nil_r in H0.
    cbn [fwalk]. destruct (n_ok i); [|apply H0].
    specialize (H0 None). destruct (f (abs_name ws) _ None s) as [s1 [e|]]; [done|]. cbn [fst] in H0.
    apply wf_dir in Hwf as [HS HF].
    assert (Hget : forall w c vs d, (w, c) ∈ cs -> get c vs = Some d -> get (NDir i cs) (w :: vs) = Some d).
    { intros w c vs d Hin Hg. cbn [get]. apply (child_iff w c cs HS) in Hin. by rewrite Hin. }
    clear HS Hs. revert s1 H0 Hf Hget. generalize (NDir i cs) as N. intros N.
    induction cs as [|[w c] cs IHcs]; intros s1 H1 Hf Hget; [done|].
    apply Forall_cons in IH as [IHc IH]. apply Forall_cons in HF as [[Hw Hwc] HF]. cbn [fst snd] in *.
    cbn [walk_children fst snd]. rewrite join2_name by done.
    assert (H2 : P (fwalk f (abs_name (ws ++ [w])) c s1).1).
    { apply IHc; [|done| |done].
      - apply Forall_app. split; [done|]. by constructor.
      - intros vs d e s2 Hg Hp. rewrite <- app_assoc. apply Hf; [|done]. eapply Hget; [by left|done]. }
    destruct (fwalk f (abs_name (ws ++ [w])) c s1) as [s2 e]. cbn [fst] in H2.
    assert (Hrec : P (walk_children (fun x => fwalk f (join2 (abs_name ws) x.1) x.2) cs s2).1).
    { apply IHcs; try done. intros w' c' vs d Hin. apply Hget. by right. }
    destruct e as [e|]; [|done]. by destruct (n_isdir c && _).
Qed.

Lemma walk_disk_inv {S} fs (f : wfunc S) (P : S -> Prop) p s :
  wf_node fs -> is_rooted p = true ->
  (forall e, P (f p None e s).1) ->
  (forall ws c e s, get fs (clean_elems p ++ ws) = Some c -> P s ->
     P (f (abs_name (clean_elems p ++ ws)) (Some (info_of (base (abs_name (clean_elems p ++ ws))) c)) e s).1) ->
  clean p = p -> P s -> P (walk_disk fs p f s).1.
Proof.
  intros Hwf Hr H0 Hf Hc Hs. unfold walk_disk, find. rewrite Hr.
  destruct (clean_rooted p Hr) as (ws & Hws & E). rewrite Hc in E. subst p.
  rewrite clean_elems_abs in * by done.
  destruct (get fs ws) as [n|] eqn:Hg.
  - destruct (wf_get _ _ _ Hwf Hg) as [Hn _].
    pose proof (fwalk_inv f P ws n s Hws Hn) as H. destruct (fwalk f (abs_name ws) n s) as [s1 e]. cbn in *.
    apply H; [|done]. intros vs c e' s' Hv Hp. apply Hf; [|done]. rewrite get_app, Hg. done.
  - specialize (H0 (Some (EPath (B"lstat") (abs_name ws)))). by destruct (f _ None _ s).
Qed.
