(** Proofs about Links.v. *)
From Verif Require Import Bytes GoPath Here GoTypes WalkSpec Disk Mem Decls DeclsProofs Pack JsonStr GoQuote Source SourceProofs ParserDirs
  Project Links.

(** ** Following links *)

Lemma lget_app n ws vs : lget n (ws ++ vs) = match lget n ws with Some c => lget c vs | None => None end.
Proof.
  revert n. induction ws as [|w ws IH]; intros n; [done|]. cbn [app lget].
  destruct n as [|i cs|]; [done| |done]. destruct (lchild w cs); [apply IH|done].
Qed.

Lemma walk_to_nil k fl fs cur : walk_to k fl fs cur [] = lget fs cur.
Proof. by destruct k. Qed.
Lemma walk_to_cons k fl fs cur w ws : good_elem w ->
  walk_to k fl fs cur (w :: ws) =
    match lget fs (cur ++ [w]) with
    | None => None
    | Some (LDir _ _) => walk_to k fl fs (cur ++ [w]) ws
    | Some (LFile i d) => match ws with [] => Some (LFile i d) | _ => None end
    | Some (LLink i t) =>
        if fl || negb (bool_decide (ws = [])) then
          match k with
          | O => None
          | S k => walk_to k fl fs (if is_rooted t then [] else cur) (split_slash t ++ ws)
          end
        else Some (LLink i t)
    end.
Proof.
  intros (H1 & H2 & H3 & _). destruct k; cbn [walk_to];
    rewrite (bool_decide_eq_false_2 _ H1), (bool_decide_eq_false_2 _ H2), (bool_decide_eq_false_2 _ H3); done.
Qed.

(** Nothing is below a file. *)
Lemma walk_to_beyond k fl fs ws : Forall good_elem ws -> ws <> [] -> forall cur todo i d,
  walk_to k true fs cur todo = Some (LFile i d) -> walk_to k fl fs cur (todo ++ ws) = None.
Proof.
  intros Hws Hne. induction k as [|k IHk].
  all: intros cur todo; revert cur; induction todo as [|w todo IH]; intros cur i d H.
  1, 3: rewrite walk_to_nil in H; cbn [app]; destruct ws as [|v vs]; [done|]; apply Forall_cons in Hws as [Hv _];
    rewrite walk_to_cons by done; by rewrite lget_app, H.
  all: cbn [walk_to app] in H |- *.
  all: destruct (bool_decide (w = []) || bool_decide (w = dot)); [by apply (IH _ _ _ H)|].
  all: destruct (bool_decide (w = dotdot)); [by apply (IH _ _ _ H)|].
  all: destruct (lget fs (cur ++ [w])) as [[j e|j cs|j t]|]; [| | |done].
  all: try (destruct todo; [|done]; cbn [app]; destruct ws; [done|done]).
  all: try by apply (IH _ _ _ H).
  all: rewrite orb_true_l in H.
  all: assert (En : bool_decide (todo ++ ws = []) = false) by (apply bool_decide_eq_false_2; intros E; by apply app_nil in E as [_ E]).
  all: rewrite En, orb_true_r; try done.
  rewrite app_assoc. by eapply IHk.
Qed.

(** Through directories. *)
Lemma walk_to_through k fl fs ws rest : Forall good_elem ws -> forall cur,
  (forall v1 v2, ws = v1 ++ v2 -> v1 <> [] -> exists i cs, lget fs (cur ++ v1) = Some (LDir i cs)) ->
  walk_to k fl fs cur (ws ++ rest) = walk_to k fl fs (cur ++ ws) rest.
Proof.
  intros Hws. induction ws as [|w ws IH]; intros cur Hd; [by rewrite app_nil_r|].
  apply Forall_cons in Hws as [Hw Hws]. cbn [app]. rewrite walk_to_cons by done.
  destruct (Hd [w] ws eq_refl) as (i & cs & E); [done|]. rewrite E, IH; [by rewrite <- app_assoc|done|].
  intros v1 v2 -> Hn. destruct (Hd (w :: v1) v2 eq_refl) as (j & ds & E2); [done|]. exists j, ds. by rewrite <- app_assoc.
Qed.

(** ** The copied disk *)

Lemma copy_dirs fs ws i cs n' : copy_of fs ws (LDir i cs) n' -> exists cs', n' = NDir i cs' /\
  Forall2 (fun x y => x.1 = y.1 /\ copy_of fs (ws ++ [x.1]) x.2 y.2) cs cs'.
Proof. intros H. inversion H; subst. by eexists. Qed.

Lemma copy_child fs ws cs cs' w :
  Forall2 (fun x y => x.1 = y.1 /\ copy_of fs (ws ++ [x.1]) x.2 y.2) cs cs' ->
  match child w cs' with
  | None => lchild w cs = None
  | Some c' => exists c, lchild w cs = Some c /\ copy_of fs (ws ++ [w]) c c'
  end.
Proof.
  induction 1 as [|[v c] [v' c'] cs cs' [Hv Hc] HF IH]; cbn [child lchild fst snd] in *; [done|]. subst v'.
  case_bool_decide as E; [|done]. subst v. by exists c.
Qed.

(** What is seen when the last link is followed. *)
Definition resolved (fs : lnode) (ws : list bytes) (c : lnode) (c' : node) : Prop :=
  match c' with
  | NFile j d => c = LFile j d
  | NDir i cs' => exists cs, c = LDir i cs /\ copy_of fs ws c c' /\ lget fs ws = Some c
  end.

Lemma copy_to fs fl ws : Forall good_elem ws -> forall cur n n', Forall good_elem cur ->
  copy_of fs cur n n' -> lget fs cur = Some n ->
  (forall v1 v2, cur = v1 ++ v2 -> v1 <> [] -> v2 <> [] -> exists i cs, lget fs v1 = Some (LDir i cs)) ->
  (ws = [] -> exists i cs, n = LDir i cs) ->
  match get n' ws with
  | None => match n with LDir _ _ => walk_to max_links fl fs cur ws = None /\ lget fs (cur ++ ws) = None | _ => True end
  | Some c' => match n with
      | LDir _ _ => exists c, walk_to max_links fl fs cur ws = Some c /\
          (if fl then resolved fs (cur ++ ws) c c' else copy_of fs (cur ++ ws) c c' /\ lget fs (cur ++ ws) = Some c)
      | _ => True end
  end.
Proof.
  intros Hws. induction ws as [|w ws IH]; intros cur n n' Hcur Hc Hg Hpre H0.
  - destruct (H0 eq_refl) as (i & cs & ->). cbn [get]. apply copy_dirs in Hc as Hc'. destruct Hc' as (cs' & -> & HF).
    exists (LDir i cs). rewrite walk_to_nil, app_nil_r. split; [done|]. destruct fl; [|done]. by exists cs.
  - apply Forall_cons in Hws as [Hw Hws]. destruct n as [i d|i cs|i t].
    1, 3: by destruct (get n' (w :: ws)).
    apply copy_dirs in Hc as (cs' & -> & HF). cbn [get]. pose proof (copy_child _ _ _ _ w HF) as Hch.
    assert (Hpre' : forall v1 v2, cur ++ [w] = v1 ++ v2 -> v1 <> [] -> v2 <> [] -> exists i cs, lget fs v1 = Some (LDir i cs)).
    { intros v1 v2 E H1 H2. destruct (exists_last H2) as (v3 & x & ->). rewrite app_assoc in E.
      apply app_inj_tail in E as [E _]. destruct v3 as [|y v3].
      - rewrite app_nil_r in E. subst v1. by eexists _, _.
      - by apply (Hpre v1 (y :: v3)). }
    assert (Hthru : forall k fl rest, walk_to k fl fs [] (cur ++ rest) = walk_to k fl fs cur rest).
    { intros k fl' rest. rewrite walk_to_through; [done|done|]. intros v1 v2 E Hn. cbn [app].
      destruct v2 as [|y v2]; [rewrite app_nil_r in E; subst v1; by eexists _, _|by apply (Hpre v1 (y :: v2))]. }
    rewrite walk_to_cons by done.
    assert (Hgw : lget fs (cur ++ [w]) = lchild w cs).
    { rewrite lget_app, Hg. cbn [lget]. by destruct (lchild w cs). }
    assert (Hgw' : forall c, lchild w cs = Some c -> lget fs (cur ++ w :: ws) = lget c ws).
    { intros c E. change (w :: ws) with ([w] ++ ws). rewrite app_assoc, lget_app, Hgw, E. done. }
    destruct (child w cs') as [c'|]; [|rewrite Hgw, Hch; split; [done|];
      change (w :: ws) with ([w] ++ ws); by rewrite app_assoc, lget_app, Hgw, Hch].
    destruct Hch as (c & Ec & Hcc). rewrite Hgw, Ec, (Hgw' _ Ec).
    inversion Hcc; subst.
    + destruct ws as [|v ws]; cbn [get]; [|done]. eexists. split; [done|]. by destruct fl.
    + match goal with Hl : l_at _ _ _ = _ |- _ =>
        unfold l_at in Hl; rewrite is_rooted_abs, clean_elems_abs in Hl
          by (apply Forall_app; split; [done|by constructor]); rewrite Hthru in Hl; rename Hl into HL end.
      destruct ws as [|v ws]; cbn [get lget].
      * destruct fl.
        -- rewrite walk_to_cons in HL by done. rewrite Hgw, Ec in HL. cbn [orb] in HL |- *. rewrite HL. by eexists.
        -- cbn [orb bool_decide negb]. eexists. rewrite (bool_decide_eq_true_2 ([] = [])) by done. cbn [negb]. split; [done|]. done.
      * split; [|done].
        pose proof (walk_to_beyond max_links fl fs (v :: ws) Hws ltac:(done) cur [w] _ _ HL) as HB.
        cbn [app] in HB. rewrite walk_to_cons in HB by done. rewrite Hgw, Ec in HB. done.
    + match goal with HF2 : Forall2 _ ?a ?b |- context [NDir ?j ?b] =>
        pose proof (IH Hws (cur ++ [w]) (LDir j a) (NDir j b)) as HI end.
      assert (Hgood : Forall good_elem (cur ++ [w])) by (apply Forall_app; split; [done|by constructor]).
      specialize (HI Hgood Hcc (eq_trans Hgw Ec) Hpre' (fun _ => ex_intro _ _ (ex_intro _ _ eq_refl))).
      assert (Hg3 : lget fs ((cur ++ [w]) ++ ws) = lget (LDir i0 cs0) ws) by (by rewrite lget_app, Hgw, Ec).
      rewrite Hg3 in HI. rewrite <- (app_assoc cur [w] ws) in HI. cbn [app] in HI.
      destruct (get (NDir i0 cs'0) ws) as [c''|] eqn:Eg; [|done].
      destruct HI as (c & Ew & HI). exists c. split; [done|]. destruct fl; [|done].
      unfold resolved in HI |- *. destruct c''; [done|]. destruct HI as (cs7 & -> & H1 & H2).
      exists cs7. done.
Qed.

(** [fs] is the disk [l] with its links replaced by copies. *)
Definition copied (l : lnode) (fs : node) : Prop := copy_of l [] l fs /\ n_isdir fs = true /\ wf_node fs.

Lemma copied_at l fs fl p : copied l fs ->
  match find fs p with
  | None => l_at fl l p = None
  | Some c' => exists c, l_at fl l p = Some c /\
      (if fl then resolved l (clean_elems p) c c' else copy_of l (clean_elems p) c c' /\ lget l (clean_elems p) = Some c)
  end.
Proof.
  intros (Hc & Hd & _). unfold find, l_at. destruct (is_rooted p) eqn:Er; [|done].
  assert (Hg : Forall good_elem (clean_elems p)).
  { unfold clean_elems. rewrite Er. apply Forall_rev, fold_clean_rooted; [apply split_slash_elems|constructor]. }
  assert (Hl : exists i cs, l = LDir i cs).
  { inversion Hc; subst; [done..|]. by eexists _, _. }
  pose proof (copy_to l fl (clean_elems p) Hg [] l fs ltac:(constructor) Hc eq_refl) as H. cbn [app] in H.
  destruct Hl as (i & cs & El).
  assert (H' : match get fs (clean_elems p) with
    | None => walk_to max_links fl l [] (clean_elems p) = None /\ lget l (clean_elems p) = None
    | Some c' => exists c, walk_to max_links fl l [] (clean_elems p) = Some c /\
        (if fl then resolved l (clean_elems p) c c' else copy_of l (clean_elems p) c c' /\ lget l (clean_elems p) = Some c)
    end).
  { rewrite El in H |- *. apply H; [|intros _; by eexists _, _].
    intros v1 v2 E H1. symmetry in E. by apply app_nil in E as [-> _]. }
  by destruct (get fs (clean_elems p)); [|apply H'].
Qed.

Lemma resolved_info l ws c c' w : resolved l ws c c' -> info_of w (bare c) = info_of w c'.
Proof. destruct c' as [j d|i cs']; cbn [resolved]; [by intros ->|]. by intros (cs & -> & _). Qed.
Lemma resolved_meta l ws c c' : resolved l ws c c' -> n_meta (bare c) = n_meta c'.
Proof. destruct c' as [j d|i cs']; cbn [resolved]; [by intros ->|]. by intros (cs & -> & _). Qed.
Lemma resolved_isdir l ws c c' : resolved l ws c c' -> n_isdir (bare c) = n_isdir c'.
Proof. destruct c' as [j d|i cs']; cbn [resolved]; [by intros ->|]. by intros (cs & -> & _). Qed.
Lemma resolved_contents l ws c c' : resolved l ws c c' -> contents (bare c) = contents c'.
Proof. destruct c' as [j d|i cs']; cbn [resolved]; [by intros ->|]. by intros (cs & -> & _). Qed.

Lemma copied_stat l fs p : copied l fs -> l_stat l p = os_stat fs p.
Proof.
  intros H. pose proof (copied_at l fs true p H) as Ha. unfold l_stat, os_stat.
  destruct (find fs p) as [c'|]; [|by rewrite Ha]. destruct Ha as (c & -> & Hs). by rewrite (resolved_info _ _ _ _ _ Hs).
Qed.
Lemma copied_open l fs p : copied l fs ->
  match os_open fs p with
  | Err e => l_open l p = Err e
  | Ok c' => exists c, l_open l p = Ok c /\ resolved l (clean_elems p) c c'
  end.
Proof.
  intros H. pose proof (copied_at l fs true p H) as Ha. unfold l_open, os_open.
  destruct (find fs p) as [c'|]; [|by rewrite Ha]. destruct Ha as (c & -> & Hs). rewrite (resolved_meta _ _ _ _ Hs).
  destruct (n_ok (n_meta c')); [|done]. by exists c.
Qed.

(** ** Two walks side by side *)

Lemma copy_isdir fs ws n n' : copy_of fs ws n n' -> n_isdir (bare n) = n_isdir n'.
Proof. intros H. by inversion H. Qed.

Lemma lchild_elem (cs : list (bytes * lnode)) (cs' : list (bytes * node)) (P : bytes * lnode -> bytes * node -> Prop) w c :
  Forall2 P cs cs' -> (forall x y, P x y -> x.1 = y.1) ->
  StronglySorted (fun a b : bytes * node => blt a.1 b.1 = true) cs' -> (w, c) ∈ cs -> lchild w cs = Some c.
Proof.
  intros HF HP. induction HF as [|[v d] [v' d'] cs cs' Hx HF IH]; intros HS Hin; [inversion Hin|].
  apply StronglySorted_inv in HS as [HS Hlt]. cbn [lchild]. apply elem_of_cons in Hin as [[= -> ->]|Hin].
  - by rewrite bool_decide_eq_true_2.
  - case_bool_decide as E; [|by apply IH]. subst v. exfalso.
    pose proof (HP _ _ Hx) as Hv. cbn [fst] in Hv. subst v'.
    apply elem_of_list_lookup in Hin as (k & Hk). apply (Forall2_lookup_l _ _ _ _ _ HF) in Hk as ([u e] & Hk & Hu).
    apply HP in Hu. cbn [fst] in Hu. subst u. rewrite Forall_forall in Hlt.
    apply elem_of_list_lookup_2 in Hk. specialize (Hlt _ Hk). cbn [fst] in Hlt. by rewrite blt_irrefl in Hlt.
Qed.

Lemma fwalk_copy {S S'} (f : wfunc S) (f' : wfunc S') (R : S -> S' -> Prop) fs n' : forall n ws s s',
  copy_of fs ws n n' -> wf_node n' -> Forall good_elem ws -> lget fs ws = Some n ->
  (forall vs c c' e s s', copy_of fs (ws ++ vs) c c' -> get n' vs = Some c' -> lget fs (ws ++ vs) = Some c -> R s s' ->
     let p := abs_name (ws ++ vs) in
     R (f p (Some (info_of (base p) (bare c))) e s).1 (f' p (Some (info_of (base p) c')) e s').1 /\
     (f p (Some (info_of (base p) (bare c))) e s).2 = (f' p (Some (info_of (base p) c')) e s').2) ->
  R s s' ->
  R (fwalk f (abs_name ws) (bare n) s).1 (fwalk f' (abs_name ws) n' s').1 /\
  (fwalk f (abs_name ws) (bare n) s).2 = (fwalk f' (abs_name ws) n' s').2.
Proof.
  induction n' as [i d|i cs' IH] using node_ind'; intros n ws s s' Hc Hwf Hws Hg Hf HR.
  - specialize (Hf [] n (NFile i d) None s s'). rewrite app_nil_r in Hf. specialize (Hf Hc eq_refl Hg HR).
    inversion Hc; subst; cbn [bare fwalk] in *; exact Hf.
  - inversion Hc as [| |ws0 i0 cs cs0 HF]; subst. cbn [bare fwalk].
    assert (H0 : forall e, let p := abs_name ws in
      R (f p (Some (info_of (base p) (bare (LDir i cs)))) e s).1 (f' p (Some (info_of (base p) (NDir i cs'))) e s').1 /\
      (f p (Some (info_of (base p) (bare (LDir i cs)))) e s).2 = (f' p (Some (info_of (base p) (NDir i cs'))) e s').2).
    { intros e. specialize (Hf [] (LDir i cs) (NDir i cs') e s s'). rewrite app_nil_r in Hf. by apply Hf. }
    cbn [bare] in H0.
    destruct (n_ok i); [|apply H0]. specialize (H0 None). cbv zeta in H0.
    destruct (f (abs_name ws) (Some (info_of _ (NDir i (map _ cs)))) None s) as [s1 e1].
    destruct (f' (abs_name ws) (Some (info_of _ (NDir i cs'))) None s') as [s1' e1'].
    cbn [fst snd] in H0. destruct H0 as [HR1 He]. subst e1'. destruct e1 as [e1|]; [done|].
    apply wf_dir in Hwf as [HS HW].
    assert (Hget : forall w c vs d, (w, c) ∈ cs' -> get c vs = Some d -> get (NDir i cs') (w :: vs) = Some d).
    { intros w c vs d Hin Hg1. cbn [get]. apply (child_iff w c cs' HS) in Hin. by rewrite Hin. }
    assert (Hlget : forall w c vs, (w, c) ∈ cs -> lget fs (ws ++ w :: vs) = lget c vs).
    { intros w c vs Hin. rewrite lget_app, Hg. cbn [lget]. by rewrite (lchild_elem cs cs' _ w c HF ltac:(by intros ?? [? _]) HS Hin). }
    clear Hc HS Hg HR. revert Hget Hf. generalize (NDir i cs') as N. intros N Hget Hf. revert s1 s1' HR1.
    induction HF as [|[w c] [w' c'] cs cs' [Hw Hcc] HF IHF]; intros s1 s1' HR1; [done|].
    cbn [fst snd] in Hw, Hcc. subst w'.
    apply Forall_cons in IH as [IHc IH]. apply Forall_cons in HW as [[Hgw Hwc] HW]. cbn [fst snd] in IHc, Hgw, Hwc.
    cbn [map walk_children fst snd]. rewrite join2_name by done.
    assert (Hgood : Forall good_elem (ws ++ [w])) by (apply Forall_app; split; [done|by constructor]).
    assert (H2 : R (fwalk f (abs_name (ws ++ [w])) (bare c) s1).1 (fwalk f' (abs_name (ws ++ [w])) c' s1').1 /\
      (fwalk f (abs_name (ws ++ [w])) (bare c) s1).2 = (fwalk f' (abs_name (ws ++ [w])) c' s1').2).
    { apply IHc; [done..| | |done].
      - rewrite Hlget with (c := c); [done|by left].
      - intros vs d d' e s2 s2' H1 H2 H3 H4. rewrite <- app_assoc in *. apply Hf; [done| |done..].
        eapply Hget; [by left|done]. }
    destruct (fwalk f _ (bare c) s1) as [s2 e2], (fwalk f' _ c' s1') as [s2' e2']. cbn [fst snd] in H2.
    destruct H2 as [HR2 <-].
    assert (Hrec : R (walk_children (fun x => fwalk f (join2 (abs_name ws) x.1) x.2) (map (fun x => (x.1, bare x.2)) cs) s2).1
        (walk_children (fun x => fwalk f' (join2 (abs_name ws) x.1) x.2) cs' s2').1 /\
      (walk_children (fun x => fwalk f (join2 (abs_name ws) x.1) x.2) (map (fun x => (x.1, bare x.2)) cs) s2).2 =
        (walk_children (fun x => fwalk f' (join2 (abs_name ws) x.1) x.2) cs' s2').2).
    { apply IHF; [done|done| | |done].
      - intros v d vs Hin. apply Hlget. by right.
      - intros v d vs d' Hin. apply Hget. by right. }
    destruct e2 as [e2|]; [|exact Hrec]. rewrite (copy_isdir _ _ _ _ Hcc).
    destruct (n_isdir c' && bool_decide (e2 = ESkipDir)); [exact Hrec|done].
Qed.

Lemma walk_copy {S S'} (f : wfunc S) (f' : wfunc S') (R : S -> S' -> Prop) l fs p s s' :
  copied l fs -> clean p = p \/ is_rooted p = false ->
  (R (f p None (Some (EPath (B"lstat") p)) s).1 (f' p None (Some (EPath (B"lstat") p)) s').1 /\
   (f p None (Some (EPath (B"lstat") p)) s).2 = (f' p None (Some (EPath (B"lstat") p)) s').2) ->
  (forall ws vs c c' e s s', p = abs_name ws -> Forall good_elem (ws ++ vs) ->
     copy_of l (ws ++ vs) c c' -> get fs (ws ++ vs) = Some c' -> lget l (ws ++ vs) = Some c -> R s s' ->
     let p := abs_name (ws ++ vs) in
     R (f p (Some (info_of (base p) (bare c))) e s).1 (f' p (Some (info_of (base p) c')) e s').1 /\
     (f p (Some (info_of (base p) (bare c))) e s).2 = (f' p (Some (info_of (base p) c')) e s').2) ->
  R s s' ->
  R (l_walk l p f s).1 (walk_disk fs p f' s').1 /\ (l_walk l p f s).2 = (walk_disk fs p f' s').2.
Proof.
  intros Hcp Hp H0 Hf HR. unfold l_walk, walk_disk. pose proof (copied_at l fs false p Hcp) as Ha.
  destruct (find fs p) as [n'|] eqn:Efi.
  - destruct Ha as (n & En & Hc & Hg). rewrite En.
    assert (Hr : is_rooted p = true) by (unfold find in Efi; by destruct (is_rooted p)).
    destruct Hp as [Hp|Hp]; [|congruence].
    destruct (clean_rooted p Hr) as (ws & Hws & E). rewrite Hp in E. subst p.
    rewrite clean_elems_abs in Hc, Hg by done. rewrite find_abs in Efi by done.
    destruct Hcp as (_ & _ & Hwf). destruct (wf_get _ _ _ Hwf Efi) as [Hwn _].
    pose proof (fwalk_copy f f' R l n' n ws s s' Hc Hwn Hws Hg) as H.
    destruct (fwalk f (abs_name ws) (bare n) s) as [s1 e1], (fwalk f' (abs_name ws) n' s') as [s1' e1']. cbn [fst snd] in *.
    destruct H as [H1 ->]; [|done|done]. intros vs c c' e t t' H1 H2 H3 H4. apply Hf; [done| |done| |done|done].
    + destruct (wf_get _ _ _ Hwn H2). by apply Forall_app.
    + by rewrite get_app, Efi.
  - rewrite Ha. destruct (f p None _ s) as [s1 e1], (f' p None _ s') as [s1' e1']. cbn [fst snd] in *.
    by destruct H0 as [? ->].
Qed.

(** ** Listing *)


Lemma fold_clean_elems r ws : Forall (fun w => slash ∉ w) ws -> forall out, Forall (fun w : bytes => w <> [] /\ slash ∉ w) out ->
  Forall (fun w : bytes => w <> [] /\ slash ∉ w) (fold_left (clean_step r) ws out).
Proof.
  induction 1 as [|w ws Hw _ IH]; intros out Ho; cbn [fold_left]; [done|]. apply IH.
  unfold clean_step. case_bool_decide as E1; cbn [orb]; [done|]. case_bool_decide as E2; cbn [orb]; [done|].
  case_bool_decide as E3; [|by constructor].
  assert (Hd : dotdot <> [] /\ slash ∉ dotdot) by (split; [done|]; unfold dotdot; cbn; set_solver).
  destruct out as [|t out]; [destruct r; [constructor|constructor; [done|constructor]]|].
  case_bool_decide; [by constructor|]. by apply Forall_cons in Ho as [_ Ho].
Qed.

Lemma join2_shape a b : clean (join2 a b) = join2 a b \/ is_rooted (join2 a b) = false.
Proof.
  assert (Hc : forall x, clean (clean x) = clean x \/ is_rooted (clean x) = false).
  { intros x. destruct (is_rooted x) eqn:E.
    - left. destruct (clean_rooted x E) as (ws & Hws & ->). by apply clean_abs.
    - right. unfold clean. destruct x as [|a0 x]; [done|]. rewrite E.
      assert (HF : Forall (fun w : bytes => w <> [] /\ slash ∉ w) (clean_elems (a0 :: x))).
      { unfold clean_elems. rewrite E. apply Forall_rev, fold_clean_elems; [apply split_slash_elems|constructor]. }
      destruct (clean_elems (a0 :: x)) as [|w ws]; [done|]. apply Forall_cons in HF as [[Hn Hs] _].
      destruct w as [|c w]; [done|]. assert (Hcs : c <> slash) by (intros ->; apply Hs; by left).
      destruct ws; cbn [join_slash app is_rooted]; by apply Ascii.eqb_neq. }
  unfold join2. destruct a as [|a0 a]; [destruct b as [|b0 b]; [by right|]|]; apply Hc.
Qed.

(** ** Listing *)

Section Listing.
  Context (parse : resolver) (hdir : bytes -> res hinfo) (l : lnode) (fs : node) (Hcp : copied l fs).

  Lemma walk_decl_fn_isdir virt p i i' e st : d_isdir i = d_isdir i' ->
    walk_decl_fn parse hdir virt p (Some i) e st = walk_decl_fn parse hdir virt p (Some i') e st.
  Proof. intros H. unfold walk_decl_fn. by rewrite H. Qed.

  Lemma info_isdir w n : d_isdir (info_of w n) = n_isdir n.
  Proof. by destruct n. Qed.

  Lemma l_walk_files_same virt d : l_walk_files parse hdir l virt d = walk_files parse hdir fs virt d.
  Proof.
    unfold l_walk_files, walk_files.
    destruct (walk_copy (walk_decl_fn parse hdir virt) (walk_decl_fn parse hdir virt) eq l fs (decl_root d)
      (pf_here (d_file d), []) (pf_here (d_file d), []) Hcp (join2_shape _ _)) as [H1 H2]; [done| |done|].
    - intros ws vs c c' e s s' _ _ Hcc _ _ <-. cbv zeta.
      rewrite (walk_decl_fn_isdir virt _ _ (info_of (base (abs_name (ws ++ vs))) c')); [done|].
      rewrite !info_isdir. by eapply copy_isdir.
    - destruct (l_walk _ _ _ _) as [s1 e1], (walk_disk _ _ _ _) as [s2 e2]. cbn [fst snd] in H1, H2. by subst.
  Qed.
  Lemma l_decl_files_same virt d : l_decl_files parse hdir l virt d = decl_files parse hdir fs virt d.
  Proof.
    unfold l_decl_files, decl_files, l_open_files, open_files.
    rewrite (copied_stat l fs _ Hcp), l_walk_files_same. done.
  Qed.
  Lemma l_files_same order ds : l_files parse hdir l order ds = files parse hdir fs order ds.
  Proof.
    unfold l_files, files. assert (E : forall m v, l_collect parse hdir l m v ds = collect parse hdir fs m v ds).
    { induction ds as [|d ds' IH]; intros m v; cbn [l_collect collect]; [done|]. rewrite l_decl_files_same.
      destruct (is_virtual d); [apply IH|]. destruct (decl_files parse hdir fs v d); [apply IH|done]. }
    by rewrite E.
  Qed.
End Listing.

(** The listed paths are clean. *)
Definition clean_names (ds : list decl) : Prop :=
  forall d, d ∈ ds -> is_virtual d = false -> exists ws, Forall good_elem ws /\ pf_abs (d_file d) = abs_name ws.
Definition named (pf : pfile) : Prop := exists ws, Forall good_elem ws /\ pf_abs pf = abs_name ws.

Section Names.
  Context (parse : resolver) (hdir : bytes -> res hinfo) (fs : node) (Hwf : wf_node fs).

  Lemma walk_files_named virt d lst : walk_files parse hdir fs virt d = Ok lst -> Forall named lst.
  Proof.
    unfold walk_files. intros H. destruct (walk_disk fs (decl_root d) _ _) as [st [e|]] eqn:E; [done|]. injection H as <-.
    destruct (join2_shape (h_mdir (pf_here (d_file d))) (p_name (pf_path (d_file d)))) as [Hc|Hr]; fold (decl_root d) in *.
    - destruct (is_rooted (decl_root d)) eqn:Er.
      + pose proof (walk_disk_inv fs (walk_decl_fn parse hdir virt) (fun st => Forall named st.2) (decl_root d) (pf_here (d_file d), [])
          Hwf Er) as HI. rewrite E in HI. cbn [fst snd] in HI. apply HI; [| |done|by constructor].
        * intros [e|]; by constructor.
        * intros ws c e [her files] Hg Hf. destruct (wf_get _ _ _ Hwf Hg) as [_ Hgood]. cbn [snd] in Hf.
          unfold walk_decl_fn. destruct e as [e|]; [done|]. destruct (if d_isdir _ then _ else _) as [h|]; [|done].
          destruct (parse h _) as [pt|]; [|done]. case_bool_decide; [done|]. cbn [fst snd].
          apply Forall_app. split; [done|]. apply List.Forall_cons; [|apply List.Forall_nil]. by eexists.
      + unfold walk_disk, find in E. by rewrite Er in E.
    - unfold walk_disk, find in E. by rewrite Hr in E.
  Qed.

  Lemma files_named order ds lst : (forall l, order l ≡ₚ l) -> clean_names ds ->
    files parse hdir fs order ds = Ok lst -> Forall named lst.
  Proof.
    intros Ho Hds. unfold files. destruct (collect parse hdir fs ∅ ∅ ds) as [m|] eqn:E; [|done]. intros [= <-].
    rewrite merge_sort_Permutation, Ho.
    assert (Hm : forall m0 v ds0, clean_names ds0 -> map_Forall (fun _ => named) m0 -> forall m1, collect parse hdir fs m0 v ds0 = Ok m1 ->
      map_Forall (fun _ => named) m1).
    { intros m0 v ds0. revert m0 v. induction ds0 as [|d ds0 IH]; intros m0 v Hd0 Hm0 m1 Hc; cbn [collect] in Hc.
      - by injection Hc as <-.
      - assert (Hd1 : clean_names ds0) by (intros x Hx; apply Hd0; by right).
        destruct (is_virtual d) eqn:Ev; [by eapply IH|].
        destruct (decl_files parse hdir fs v d) as [l|] eqn:El; [|done]. eapply IH; [done| |exact Hc].
        assert (Hl : Forall named l).
        { unfold decl_files in El. destruct (Hd0 d ltac:(by left) Ev) as (ws & Hws & Habs).
          assert (Hopen : open_files parse hdir fs v d = Ok l -> Forall named l).
          { unfold open_files. case_bool_decide; [intros [= <-]; constructor|]. destruct (os_stat fs (decl_root d)); [|done].
            destruct (d_isdir _); [by apply walk_files_named|]. intros [= <-]. apply List.Forall_cons; [|apply List.Forall_nil]. by exists ws. }
          destruct (dk d); (by apply Hopen) || by eapply walk_files_named. }
        clear -Hl Hm0. revert m0 Hm0. induction Hl as [|x l Hx _ IHl]; intros m0 Hm0; cbn [fold_left]; [done|].
        apply IHl. by apply map_Forall_insert_2. }
    specialize (Hm ∅ ∅ ds Hds ltac:(apply map_Forall_empty) m E). apply Forall_forall. intros x Hx.
    apply elem_of_list_fmap in Hx as ([k y] & -> & Hx). apply elem_of_map_to_list in Hx. by apply (Hm k).
  Qed.
End Names.

(** ** Scanning *)

Section Scanning.
  Context (parse : resolver) (hdir hpkg : bytes -> res hinfo) (l : lnode) (fs : node) (Hcp : copied l fs).
  Context (gosrc : bytes -> bytes -> res source) (dorder : list (bytes * source) -> list (bytes * source)).

  Lemma parse_fn_isdir pdir p i i' e st : d_isdir i = d_isdir i' ->
    parse_fn pdir p (Some i) e st = parse_fn pdir p (Some i') e st.
  Proof. intros H. unfold parse_fn. by rewrite H. Qed.

  Lemma l_go_files_same ws i cs cs' : Forall good_elem ws -> get fs ws = Some (NDir i cs') ->
    Forall2 (fun x y => x.1 = y.1 /\ copy_of l (ws ++ [x.1]) x.2 y.2) cs cs' ->
    l_go_files l gosrc (abs_name ws) cs = go_files gosrc (abs_name ws) cs'.
  Proof.
    intros Hws Hg HF. destruct Hcp as (_ & _ & Hwf). destruct (wf_get _ _ _ Hwf Hg) as [Hwd _].
    apply wf_dir in Hwd as [HS HW].
    assert (Hget : forall w c, (w, c) ∈ cs' -> get fs (ws ++ [w]) = Some c).
    { intros w c Hin. rewrite get_app, Hg. cbn [get]. apply (child_iff w c cs' HS) in Hin. by rewrite Hin. }
    clear HS Hg. induction HF as [|[w c] [w' c'] cs cs' [Hw Hc] HF IH]; cbn [l_go_files go_files]; [done|].
    cbn [fst snd] in Hw, Hc. subst w'. apply Forall_cons in HW as [[Hgw _] HW]. cbn [fst] in Hgw.
    rewrite (copy_isdir _ _ _ _ Hc), (IH HW) by (intros v d Hin; apply Hget; by right).
    destruct (has_suffix w (B".go") && negb (n_isdir c')) eqn:E; [|done].
    assert (Ef : l_go_file l gosrc (join2 (abs_name ws) w) = go_file gosrc (join2 (abs_name ws) w) c').
    { rewrite join2_name by done. unfold l_go_file. pose proof (copied_open l fs (abs_name (ws ++ [w])) Hcp) as Ho.
      unfold os_open in Ho. rewrite find_abs in Ho by (apply Forall_app; split; [done|by constructor]).
      rewrite (Hget w c') in Ho by (by left). apply andb_prop in E as [_ E].
      destruct c' as [j d|]; [|done]. cbn [n_meta] in Ho. destruct (n_ok j) eqn:Ej.
      - destruct Ho as (c2 & -> & Hs). cbn [resolved] in Hs. subst c2. done.
      - rewrite Ho. cbn [go_file]. by rewrite Ej. }
    by rewrite Ef.
  Qed.

  Lemma l_scan_dir_same fuel ws : Forall good_elem ws ->
    l_scan_dir parse hdir hpkg l gosrc dorder fuel (abs_name ws) = scan_dir parse hdir hpkg fs gosrc dorder fuel (abs_name ws).
  Proof.
    intros Hws. unfold l_scan_dir, scan_dir, l_parse_dir, parse_dir. rewrite (copied_stat l fs _ Hcp).
    destruct (os_stat fs (abs_name ws)) as [info|]; [|done]. destruct (d_isdir info); [|done].
    destruct (hdir (abs_name ws)); [|done]. destruct (parse _ _); [|done].
    pose proof (copied_open l fs (abs_name ws) Hcp) as Ho. rewrite clean_elems_abs in Ho by done.
    destruct (os_open fs (abs_name ws)) as [c'|e] eqn:Eo; [|by rewrite Ho]. destruct Ho as (c & -> & Hs).
    destruct c' as [j d|j cs']; cbn [resolved] in Hs; [by subst c|]. destruct Hs as (cs & -> & Hc & _).
    apply copy_dirs in Hc as (cs2 & [= <-] & HF).
    rewrite (l_go_files_same ws j cs cs'); [done|done| |done].
    unfold os_open in Eo. rewrite find_abs in Eo by done. destruct (get fs ws) as [n|]; [|done].
    destruct (n_ok (n_meta n)); [|done]. by injection Eo as ->.
  Qed.

  Lemma l_parse_project_same fuel her incs : clean (h_dir her) = h_dir her ->
    l_parse_project parse hdir hpkg l gosrc dorder fuel her incs = parse_project parse hdir hpkg fs gosrc dorder fuel her incs.
  Proof.
    intros Hd. unfold l_parse_project, parse_project, l_parse_all, parse_all.
    destruct (parse_includes parse hpkg her incs) as [ds|]; [|done]. rewrite (copied_stat l fs _ Hcp).
    destruct (os_stat fs (h_dir her)) as [fi|]; [|done]. destruct (d_isdir fi); [|done].
    destruct (walk_copy (parse_fn (l_scan_dir parse hdir hpkg l gosrc dorder fuel)) (parse_fn (scan_dir parse hdir hpkg fs gosrc dorder fuel))
      eq l fs (h_dir her) ([], ds) ([], ds) Hcp (or_introl Hd)) as [H1 H2]; [done| |done|].
    - intros ws vs c c' e s s' _ Hgood Hcc _ _ <-. cbv zeta.
      rewrite (parse_fn_isdir _ _ _ (info_of (base (abs_name (ws ++ vs))) c'))
        by (rewrite !info_isdir; by eapply copy_isdir).
      unfold parse_fn. rewrite l_scan_dir_same by done. done.
    - destruct (l_walk _ _ _ _) as [s1 e1], (walk_disk _ _ _ _) as [s2 e2]. cbn [fst snd] in H1, H2. by subst.
  Qed.
End Scanning.

(** ** Packing *)

(** The link at [ws] is strictly below a listed directory and not itself listed
    after it. *)
Definition left_behind (lst : list pfile) (ws : list bytes) : Prop :=
  exists l1 pf l2 ns us, lst = l1 ++ pf :: l2 /\ pf_abs pf = abs_name ns /\ us <> [] /\ ws = ns ++ us /\
    forall pf', pf' ∈ l2 -> has_suffix (pf_abs pf') (B".tmp") = false -> pf_abs pf' <> abs_name ws.

(** The details [x] of what is packed as [pt] are [y], or they are those of a
    link that [Q] allows while [y] are those of the file it leads to. *)
Definition info_alike (parse : resolver) (l : lnode) (Q : list bytes -> Prop) (here : hinfo) (pt : path) (x y : details) : Prop :=
  x = y \/ exists ws i t j d, Q ws /\ Forall good_elem ws /\ parse here (abs_name ws) = Some pt /\ lget l ws = Some (LLink i t) /\
    l_at true l (abs_name ws) = Some (LFile j d) /\
    x = link_info ws i t /\ y = Details (base (abs_name ws)) (Z.of_nat (length d)) (n_mode j) (n_mtime j) false (n_sys j).

(** The same file, but for its details. *)
Definition obj_alike (parse : resolver) (l : lnode) (Q : list bytes -> Prop) (here : hinfo) (pt : path) (x y : fobj) : Prop :=
  info_alike parse l Q here pt (f_info x) (f_info y) /\
  x = FObj (f_here y) (f_info x) (f_path y) (f_data y) (f_parent y) (f_writer y) (f_reader y).
Definition mem_alike (parse : resolver) (l : lnode) (c : hinfo) (Q : list bytes -> Prop) (m m' : mem) : Prop :=
  m_here m = c /\ m_here m' = c /\ m_infos m = m_infos m' /\ m_files m = m_files m' /\ m_next m = m_next m' /\
  forall pt (r : ref), m_files m' !! pt = Some r -> (r < m_next m')%nat /\
    option_Forall2 (obj_alike parse l Q c pt) (m_heap m !! r) (m_heap m' !! r).

Lemma info_alike_weaken parse l (Q Q' : list bytes -> Prop) here pt x y :
  (forall ws i t j d, Q ws -> Forall good_elem ws -> parse here (abs_name ws) = Some pt -> lget l ws = Some (LLink i t) ->
    l_at true l (abs_name ws) = Some (LFile j d) -> Q' ws) ->
  info_alike parse l Q here pt x y -> info_alike parse l Q' here pt x y.
Proof.
  intros H [->|(ws & i & t & j & d & HQ & Hg & Hp & Hl & Ha & H1)]; [by left|]. right. exists ws, i, t, j, d.
  split; [by eapply H|done].
Qed.

Lemma mem_alike_weaken parse l c (Q Q' : list bytes -> Prop) m m' :
  (forall pt ws i t j d, Q ws -> Forall good_elem ws -> parse c (abs_name ws) = Some pt -> lget l ws = Some (LLink i t) ->
    l_at true l (abs_name ws) = Some (LFile j d) -> Q' ws) ->
  mem_alike parse l c Q m m' -> mem_alike parse l c Q' m m'.
Proof.
  intros H (H0 & H1 & H2 & H3 & H4 & H5). do 5 (split; [done|]). intros pt r Hr. destruct (H5 pt r Hr) as [Hlt HF]. split; [done|].
  inversion HF as [x y Hxy Ex Ey|Ex Ey]; constructor. destruct Hxy as [Hi Hx]. split; [|done].
  eapply info_alike_weaken; [|exact Hi]. intros. by eapply H.
Qed.

(** What is at [pt] is replaced, everything else stays. *)
Lemma alike_add_file parse l c (Q Q' : list bytes -> Prop) m m' pt her i i' b :
  mem_alike parse l c Q m m' -> info_alike parse l Q' c pt i i' -> d_isdir i = d_isdir i' ->
  (forall ws j d, Q ws -> Forall good_elem ws -> parse c (abs_name ws) <> Some pt -> l_at true l (abs_name ws) = Some (LFile j d) -> Q' ws) ->
  mem_alike parse l c Q' (add_file m pt her i b) (add_file m' pt her i' b).
Proof.
  intros (H0 & H1 & H2 & H3 & H4 & H5) Hi Hd HQ. unfold add_file, alloc, store, set_files.
  split; [done|]. split; [done|]. split; [done|]. cbn [m_files m_next m_heap m_here]. rewrite H3, H4, Hd. split; [done|]. split; [done|].
  intros qt r Hr. destruct (decide (pt = qt)) as [<-|Hne].
  - rewrite lookup_insert in Hr. injection Hr as <-. split; [lia|].
    rewrite !lookup_insert. constructor. unfold obj_alike. cbn [f_info f_here f_path f_data f_parent f_writer f_reader].
    rewrite !new_file_info_id. done.
  - rewrite lookup_insert_ne in Hr by done. destruct (H5 qt r Hr) as [Hlt HF]. split; [lia|].
    rewrite !lookup_insert_ne by lia. inversion HF as [x y Hxy Ex Ey|Ex Ey]; constructor. destruct Hxy as [Hx1 Hx2].
    split; [|done]. eapply info_alike_weaken; [|exact Hx1]. intros ws k t j d Hq Hg Hp Hl Ha. eapply HQ; [done|done| |done]. congruence.
Qed.

Section Packing.
  Context (parse : resolver) (hdir hpkg : bytes -> res hinfo) (l : lnode) (fs : node) (Hcp : copied l fs).

  Lemma copy_info ws c c' : copy_of l ws c c' ->
    info_of (base (abs_name ws)) (bare c) = info_of (base (abs_name ws)) c' \/
    exists i t j d, c = LLink i t /\ c' = NFile j d /\ l_at true l (abs_name ws) = Some (LFile j d).
  Proof. intros H. inversion H; subst; [by left| |by left]. right. by eexists _, _, _, _. Qed.

  (** One listed path. *)
  Definition after_one (Q : list bytes -> Prop) (ws vs : list bytes) : Prop :=
    Q vs /\ abs_name ws <> abs_name vs \/ exists us, us <> [] /\ vs = ws ++ us.

  Lemma l_add_same c Q ws m m' : Forall good_elem ws -> mem_alike parse l c Q m m' ->
    match os_open fs (abs_name ws) with
    | Err e => l_open l (abs_name ws) = Err e
    | Ok n' => exists n, l_open l (abs_name ws) = Ok n /\
        (l_add parse hdir hpkg l m (abs_name ws) n).2 = (add parse hdir hpkg fs m' (abs_name ws) n').2 /\
        ((l_add parse hdir hpkg l m (abs_name ws) n).2 = None ->
         mem_alike parse l c (after_one Q ws) (l_add parse hdir hpkg l m (abs_name ws) n).1 (add parse hdir hpkg fs m' (abs_name ws) n').1)
    end.
  Proof.
    intros Hws Hm. pose proof (copied_open l fs (abs_name ws) Hcp) as Ho.
    destruct (os_open fs (abs_name ws)) as [n'|e] eqn:Eo; [|done]. destruct Ho as (n & En & Hs). exists n. split; [done|].
    rewrite clean_elems_abs in Hs by done.
    unfold l_add, add, mem_parse. rewrite (resolved_info _ _ _ _ _ Hs), (resolved_contents _ _ _ _ Hs).
    pose proof Hm as (H0 & H1 & _). rewrite H0, H1. destruct (parse c (abs_name ws)) as [pt|] eqn:Ept; [|done].
    destruct (hdir _) as [her|]; [|done]. rewrite info_isdir.
    destruct (n_isdir n') eqn:Ed.
    - destruct n' as [|j cs']; [done|]. cbn [resolved] in Hs. destruct Hs as (cs & -> & Hc & Hg).
      assert (Hm2 : mem_alike parse l c (after_one Q ws) m m').
      { eapply mem_alike_weaken; [|exact Hm]. intros qt vs i t k d Hq _ _ _ Ha. left. split; [done|]. intros Ev.
        unfold l_open in En. rewrite Ev, Ha in En. cbn in En. by destruct (n_ok k). }
      destruct (walk_copy (l_add_fn parse hpkg l) (add_fn parse hpkg fs) (mem_alike parse l c (after_one Q ws)) l fs (abs_name ws) m m' Hcp)
        as [HA HB]; [|done| |done|by split].
      + left. by apply clean_abs.
      + intros vs0 vs n1 n1' e s s' Evs Hgood Hcc Hget Hlget Hss. apply (f_equal clean_elems) in Evs.
        apply Forall_app in Hgood as Hg2. rewrite !clean_elems_abs in Evs by (done || apply Hg2). subst vs0. cbv zeta.
        unfold l_add_fn, add_fn. destruct e as [e|]; [done|].
        pose proof (copied_open l fs (abs_name (ws ++ vs)) Hcp) as Ho. unfold os_open in Ho |- *.
        rewrite find_abs, Hget in Ho |- * by done. 
        destruct (n_ok (n_meta n1')); [|by rewrite Ho]. destruct Ho as (c2 & -> & Hs2).
        unfold mem_parse. pose proof Hss as (G0 & G1 & _). rewrite G0, G1.
        destruct (parse c (abs_name (ws ++ vs))) as [pt'|] eqn:Ept'; [|done].
        destruct (hpkg (p_pkg pt')) as [her'|]; [|done].
        rewrite !info_isdir, (copy_isdir _ _ _ _ Hcc), (resolved_isdir _ _ _ _ Hs2), (resolved_contents _ _ _ _ Hs2).
        rewrite andb_comm, andb_negb_r. cbn [fst snd]. split; [|done].
        eapply alike_add_file; [exact Hss| |by rewrite !info_isdir, (copy_isdir _ _ _ _ Hcc)|done].
        destruct (copy_info _ _ _ Hcc) as [E|(i & t & j' & d & -> & -> & E)]; [by left|].
        right. exists (ws ++ vs), i, t, j', d. split; [|done]. right. exists vs.
        split; [|done]. intros ->. rewrite app_nil_r in Hlget. congruence.
    - cbn [fst snd]. split; [done|]. intros _. eapply alike_add_file; [exact Hm|by left|done|].
      intros vs j d Hq _ Hne _. left. split; [done|]. intros E. rewrite <- E in Hne. congruence.
  Qed.

  Lemma left_behind_snoc lst pf ws vs : pf_abs pf = abs_name ws ->
    after_one (left_behind lst) ws vs -> left_behind (lst ++ [pf]) vs.
  Proof.
    intros E [[(l1 & qf & l2 & ns & us & -> & H1 & H2 & H3 & H4) Hne]|(us & Hus & ->)].
    - exists l1, qf, (l2 ++ [pf]), ns, us. split; [by rewrite <- app_assoc|]. do 3 (split; [done|]).
      intros pf' Hin Ht. apply elem_of_app in Hin as [Hin|Hin]; [by apply H4|]. apply elem_of_list_singleton in Hin. subst pf'. congruence.
    - exists lst, pf, [], ws, us. do 4 (split; [done|]). intros pf' Hin. inversion Hin.
  Qed.
  Lemma left_behind_tmp lst pf vs : has_suffix (pf_abs pf) (B".tmp") = true -> left_behind lst vs -> left_behind (lst ++ [pf]) vs.
  Proof.
    intros E (l1 & qf & l2 & ns & us & -> & H1 & H2 & H3 & H4).
    exists l1, qf, (l2 ++ [pf]), ns, us. split; [by rewrite <- app_assoc|]. do 3 (split; [done|]).
    intros pf' Hin Ht. apply elem_of_app in Hin as [Hin|Hin]; [by apply H4|]. apply elem_of_list_singleton in Hin. subst pf'. congruence.
  Qed.

  Lemma l_stuff_loop_same c todo : forall lst m m', Forall named todo -> mem_alike parse l c (left_behind lst) m m' ->
    match l_stuff_loop parse hdir hpkg l m todo, stuff_loop parse hdir hpkg fs m' todo with
    | Ok m1, Ok m1' => mem_alike parse l c (left_behind (lst ++ todo)) m1 m1'
    | Err e, Err e' => e = e'
    | _, _ => False
    end.
  Proof.
    induction todo as [|pf todo IH]; intros lst m m' Habs Hm; cbn [l_stuff_loop stuff_loop]; [by rewrite app_nil_r|].
    apply Forall_cons in Habs as [(ws & Hws & E) Habs].
    replace (lst ++ pf :: todo) with ((lst ++ [pf]) ++ todo) by (by rewrite <- app_assoc).
    destruct (has_suffix (pf_abs pf) tmp_suffix) eqn:Et.
    { apply IH; [done|]. eapply mem_alike_weaken; [|exact Hm]. intros qt vs i t j d Hq _ _ _ _. by apply left_behind_tmp. }
    rewrite E. pose proof (l_add_same c (left_behind lst) ws m m' Hws Hm) as H.
    destruct (os_open fs (abs_name ws)) as [n'|e]; [|by rewrite H]. destruct H as (n & -> & H2 & H3).
    destruct (l_add parse hdir hpkg l m (abs_name ws) n) as [m1 e1], (add parse hdir hpkg fs m' (abs_name ws) n') as [m1' e1'].
    cbn [fst snd] in H2, H3. subst e1'. destruct e1; [done|]. apply IH; [done|].
    eapply mem_alike_weaken; [|by apply H3]. intros qt vs i t j d Hq _ _ _ _. by eapply left_behind_snoc.
  Qed.
End Packing.

(** ** When packing succeeds *)

Lemma lget_prefix_dir fs v1 v2 n : lget fs (v1 ++ v2) = Some n -> v2 <> [] -> exists i cs, lget fs v1 = Some (LDir i cs).
Proof.
  rewrite lget_app. destruct (lget fs v1) as [c|]; [|done]. destruct v2 as [|v v2]; [done|]. intros H _.
  destruct c as [|i cs|]; [done| |done]. by eexists _, _.
Qed.

(** Following links never ends in one. *)
Lemma walk_to_no_link fs i t : forall k cur todo, (exists j cs, lget fs cur = Some (LDir j cs)) ->
  (exists j cs, fs = LDir j cs) -> walk_to k true fs cur todo <> Some (LLink i t).
Proof.
  induction k as [|k IHk]; intros cur todo; revert cur; induction todo as [|w todo IH]; intros cur (j & cs & Hc) Hfs H.
  1, 3: rewrite walk_to_nil, Hc in H; done.
  all: cbn [walk_to] in H.
  all: destruct (bool_decide (w = []) || bool_decide (w = dot)); [eapply IH; [|done|exact H]; by eexists _, _|].
  all: destruct (bool_decide (w = dotdot)); [eapply IH; [|done|exact H]|].
  1, 3: destruct cur as [|x cur _] using rev_ind; [by eexists _, _|rewrite removelast_last; by eapply lget_prefix_dir].
  all: destruct (lget fs (cur ++ [w])) as [[a b|a b|a b]|] eqn:E; [by destruct todo| | |done].
  1, 3: eapply IH; [|done|exact H]; by eexists _, _.
  all: rewrite orb_true_l in H; try done.
  eapply IHk; [|done|exact H]. destruct (is_rooted b); [|by eexists _, _].
  destruct Hfs as (x & y & ->). by eexists _, _.
Qed.

(** What is not a link is seen alike with and without following. *)
Lemma walk_to_mono fs n : (forall i t, n <> LLink i t) -> forall k cur todo,
  walk_to k false fs cur todo = Some n -> walk_to k true fs cur todo = Some n.
Proof.
  intros Hn. induction k as [|k IHk]; intros cur todo; revert cur; induction todo as [|w todo IH]; intros cur H.
  1, 3: by rewrite walk_to_nil in *.
  all: cbn [walk_to] in H |- *.
  all: destruct (bool_decide (w = []) || bool_decide (w = dot)); [by apply IH|].
  all: destruct (bool_decide (w = dotdot)); [by apply IH|].
  all: destruct (lget fs (cur ++ [w])) as [[a b|a b|a b]|] eqn:E; [done|by apply IH| |done].
  all: cbn [orb] in H |- *; destruct (negb (bool_decide (todo = []))); try done.
  2: by apply IHk.
  all: injection H as <-; by destruct (Hn a b).
Qed.

Lemma bare_get n ws : get (bare n) ws = bare <$> lget n ws.
Proof.
  revert n. induction ws as [|w ws IH]; intros n; [done|]. destruct n as [i d|i cs|i t]; cbn [bare get lget]; [done| |done].
  assert (E : child w (map (fun x => (x.1, bare x.2)) cs) = bare <$> lchild w cs).
  { induction cs as [|[v c] cs IHc]; cbn [map child lchild fst snd]; [done|]. by case_bool_decide. }
  rewrite E. destruct (lchild w cs); cbn; [apply IH|done].
Qed.

Section Succeeding.
  Context (parse : resolver) (hdir hpkg : bytes -> res hinfo) (l : lnode) (Hl : wf_node (bare l)) (Hd : n_isdir (bare l) = true).
  Context (Hnh : forall p, hpkg p <> Err ESkipDir).

  Lemma l_add_fn_no_skip p i e s : e <> Some ESkipDir -> (l_add_fn parse hpkg l p i e s).2 <> Some ESkipDir.
  Proof.
    intros He. unfold l_add_fn. destruct e as [e|]; [done|]. destruct i as [i|]; [|done].
    unfold l_open. destruct (l_at true l p) as [n|]; [|done]. destruct (n_ok _); [|done].
    destruct (mem_parse parse s p) as [pt|]; [|done]. pose proof (Hnh (p_pkg pt)) as Hh. destruct (hpkg (p_pkg pt)) as [h|e].
    - by destruct (_ && _).
    - cbn [snd]. congruence.
  Qed.

  Lemma l_open_link p n i t : l_open l p = Ok n -> is_rooted p = true -> n <> LLink i t.
  Proof.
    unfold l_open, l_at. intros H Hr. rewrite Hr in H.
    destruct (walk_to max_links true l [] (clean_elems p)) as [x|] eqn:E; [|done].
    destruct (n_ok _); [|done]. injection H as ->. intros ->.
    assert (Hfs : exists j cs, l = LDir j cs) by (destruct l as [|j cs|]; [done|by eexists _, _|done]).
    eapply walk_to_no_link; [|exact Hfs|exact E]. exact (ltac:(destruct Hfs as (j & cs & ->); by eexists _, _)).
  Qed.

  Lemma walk_to_physical k fl n : forall cur todo, lget l cur <> None ->
    walk_to k fl l cur todo = Some n -> exists vs, lget l vs = Some n.
  Proof.
    induction k as [|k IHk]; intros cur todo; revert cur; induction todo as [|w todo IH]; intros cur Hc H.
    1, 3: rewrite walk_to_nil in H; by exists cur.
    all: cbn [walk_to] in H.
    all: destruct (bool_decide (w = []) || bool_decide (w = dot)); [by eapply IH|].
    all: destruct (bool_decide (w = dotdot)); [eapply IH; [|exact H]|].
    1, 3: destruct cur as [|x cur _] using rev_ind; [done|rewrite removelast_last; rewrite lget_app in Hc; by destruct (lget l cur)].
    all: destruct (lget l (cur ++ [w])) as [[a b|a b|a b]|] eqn:E; [| | |done].
    1, 4: destruct todo; [|done]; injection H as <-; by exists (cur ++ [w]).
    1, 3: eapply IH; [|exact H]; congruence.
    all: destruct (fl || _); [|injection H as <-; by exists (cur ++ [w])]; try done.
    eapply IHk; [|exact H]. by destruct (is_rooted b).
  Qed.

  Lemma l_add_ok m ws n m1 us i t n0 : Forall good_elem ws -> l_open l (abs_name ws) = Ok n ->
    l_add parse hdir hpkg l m (abs_name ws) n = (m1, None) ->
    l_at false l (abs_name ws) = Some n0 -> lget n0 us = Some (LLink i t) ->
    exists j d, l_at true l (abs_name (ws ++ us)) = Some (LFile j d) /\ n_ok j = true.
  Proof.
    intros Hws Ho Ha H0 Hu.
    assert (Hwf : wf_node (bare n0)).
    { unfold l_at in H0. destruct (is_rooted _); [|done]. apply walk_to_physical in H0 as (vs & Hv); [|done].
      apply (wf_get (bare l) vs); [done|]. by rewrite bare_get, Hv. }
    assert (Hfn : forall vs s s', Forall good_elem vs ->
      l_add_fn parse hpkg l (abs_name (ws ++ vs)) (Some (info_of (base (abs_name (ws ++ vs))) (NFile i t))) None s = (s', None) ->
      exists j d, l_at true l (abs_name (ws ++ vs)) = Some (LFile j d) /\ n_ok j = true).
    { intros vs s s' Hvs Hf. unfold l_add_fn in Hf. destruct (l_open l (abs_name (ws ++ vs))) as [n2|] eqn:E2; [|done].
      pose proof (fun i t => l_open_link (abs_name (ws ++ vs)) n2 i t E2 (is_rooted_abs _)) as Hnl. destruct (mem_parse parse s _); [|done]. destruct (hpkg _); [|done].
      cbn [d_isdir info_of negb andb] in Hf. unfold l_open in E2.
      destruct (l_at true l (abs_name (ws ++ vs))) as [n3|]; [|done]. destruct (n_ok (n_meta (bare n3))) eqn:Ok3; [|done].
      injection E2 as ->. destruct n2 as [j d|j cs|j u]; [by exists j, d|done|].
      exfalso. by apply (Hnl j u). }
    destruct n as [j d|j cs|j u].
    - (* a file was opened *)
      assert (us = [] /\ exists i t, n0 = LLink i t) as [-> _].
      { destruct n0 as [a b|a b|a b].
        - destruct us; done.
        - exfalso. unfold l_open, l_at in Ho. unfold l_at in H0. rewrite is_rooted_abs in Ho, H0.
          rewrite (walk_to_mono l (LDir a b) ltac:(done) _ _ _ H0) in Ho. by destruct (n_ok _).
        - destruct us; [|done]. split; [done|]. by eexists _, _. }
      rewrite app_nil_r. unfold l_open in Ho. destruct (l_at true l (abs_name ws)) as [x|]; [|done].
      destruct (n_ok (n_meta (bare x))) eqn:Ok; [|done]. injection Ho as ->. by exists j, d.
    - (* a directory was opened *)
      unfold l_add in Ha. destruct (mem_parse parse m (abs_name ws)); [|done]. cbn [bare] in Ha. rewrite info_isdir in Ha.
      cbn [n_isdir] in Ha. destruct (hdir (abs_name ws)); [|done]. unfold l_walk in Ha. rewrite H0 in Ha.
      destruct (fwalk (l_add_fn parse hpkg l) (abs_name ws) (bare n0) m) as [m2 e2] eqn:Ef.
      assert (e2 = None) as ->.
      { destruct e2 as [e|]; [|done]. exfalso. case_bool_decide as Eb; [|done]. injection Eb as ->.
        eapply fwalk_no_skip; [exact l_add_fn_no_skip|exact Ef]. }
      pose proof (fwalk_all (l_add_fn parse hpkg l)
        (fun _ D => forall vs c, (vs, c) ∈ D -> exists us s s', vs = ws ++ us /\ Forall good_elem us /\
           l_add_fn parse hpkg l (abs_name vs) (Some (info_of (base (abs_name vs)) c)) None s = (s', None))
        ws (bare n0) m []) as HI.
      specialize (HI Hws Hwf). cbv beta in HI.
      assert (Hall : forall vs c, (vs, c) ∈ [] ++ visited no_skip ws (bare n0) -> exists us s s', vs = ws ++ us /\ Forall good_elem us /\
           l_add_fn parse hpkg l (abs_name vs) (Some (info_of (base (abs_name vs)) c)) None s = (s', None)).
      { apply HI with (s' := m2); [| |by intros vs c Hin; inversion Hin|done].
        - intros vs c e s s' D Hg HD Hf.
          destruct e as [e|]; [done|]. split; [done|]. intros vs' c' Hin. apply elem_of_app in Hin as [Hin|Hin]; [by apply HD|].
          apply elem_of_list_singleton in Hin as [= -> ->]. exists vs, s, s'. split; [done|]. split; [|done].
          by apply (wf_get _ _ _ Hwf Hg).
        - exact l_add_fn_no_skip. }
      destruct (Hall (ws ++ us) (NFile i t)) as (us' & s & s' & E & Hgu & Hf).
      { cbn [app]. apply visited_elem; [done|]. exists us. split; [done|]. split; [by rewrite bare_get, Hu|done]. }
      apply app_inv_head in E as <-. by eapply Hfn.
    - exfalso. by eapply l_open_link.
  Qed.

  Lemma l_stuff_loop_ok lst : forall m m1, l_stuff_loop parse hdir hpkg l m lst = Ok m1 ->
    forall pf ws us i t n0, pf ∈ lst -> has_suffix (pf_abs pf) tmp_suffix = false -> pf_abs pf = abs_name ws -> Forall good_elem ws ->
    l_at false l (abs_name ws) = Some n0 -> lget n0 us = Some (LLink i t) ->
    exists j d, l_at true l (abs_name (ws ++ us)) = Some (LFile j d) /\ n_ok j = true.
  Proof.
    induction lst as [|qf lst IH]; intros m m1 H pf ws us i t n0 Hin Ht E Hws Hn Hu; [inversion Hin|].
    cbn [l_stuff_loop] in H. apply elem_of_cons in Hin as [<-|Hin].
    - rewrite Ht, E in H. destruct (l_open l (abs_name ws)) as [n|] eqn:Eo; [|done].
      destruct (l_add parse hdir hpkg l m (abs_name ws) n) as [m2 [e|]] eqn:Ea; [done|].
      by eapply l_add_ok.
    - destruct (has_suffix (pf_abs qf) tmp_suffix); [by eapply IH|].
      destruct (l_open l (pf_abs qf)) as [n|]; [|done].
      destruct (l_add parse hdir hpkg l m (pf_abs qf) n) as [m2 [e|]]; [done|]. by eapply IH.
  Qed.
End Succeeding.
