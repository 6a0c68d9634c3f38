(** Theorems: the on-disk pkger (C48-C51, C76, C77). *)
From Verif Require Import Bytes GoPath Here GoTypes WalkSpec Disk DiskOps Decls DeclsProofs Std.

Lemma upd_at f n ws n' : upd f n ws = Some n' -> f (get n ws) = Some (get n' ws).
Proof.
  intros H. destruct ws as [|w ws]; [|by apply upd_same].
  cbn in *. destruct (f (Some n)) as [[x|]|]; [|done..]. by injection H as ->.
Qed.

(** ** C50: the cache *)

(** A history of calls Info(p), each with what here.Package would answer at
    that time: the answers, and which calls ran here.Package. *)
Fixpoint infos (s : sto) (l : list ((bytes -> res hinfo) * bytes)) : list (res hinfo * bool) :=
  match l with
  | [] => []
  | (hp, p) :: l =>
      let ran := match so_infos s !! p with Some _ => false | None => true end in
      let '(s, r) := std_info hp s p in (r, ran) :: infos s l
  end.

(** The first successful resolution of [p] in a history. *)
Fixpoint first_ok (p : bytes) (l : list ((bytes -> res hinfo) * bytes)) : option hinfo :=
  match l with
  | [] => None
  | (hp, q) :: l =>
      if bool_decide (q = p) then match hp p with Ok i => Some i | Err _ => first_ok p l end else first_ok p l
  end.

Lemma first_ok_app p l l' : first_ok p (l ++ l') = match first_ok p l with Some i => Some i | None => first_ok p l' end.
Proof.
  induction l as [|[hp q] l IH]; [done|]. cbn [app first_ok]. case_bool_decide; [destruct (hp p); done|done].
Qed.

Lemma infos_at s l k hp p :
  l !! k = Some (hp, p) ->
  infos s l !! k =
    Some (match so_infos s !! p with
          | Some i => (Ok i, false)
          | None => match first_ok p (take k l) with
                    | Some i => (Ok i, false)
                    | None => (hp p, true)
                    end
          end).
Proof.
  revert s k. induction l as [|[hp0 q] l IH]; intros s k Hk; [done|]. cbn [infos].
  destruct (std_info hp0 s q) as [s' r] eqn:E. destruct k as [|k].
  - injection Hk as -> ->. cbn [take first_ok lookup list_lookup]. unfold std_info in E.
    destruct (so_infos s !! p) as [i|]; [by injection E as <- <-|]. by destruct (hp p); injection E as <- <-.
  - cbn in Hk. change (((r, match so_infos s !! q with Some _ => false | None => true end) :: infos s' l) !! S k) with (infos s' l !! k).
    rewrite (IH s' k Hk). cbn [take first_ok]. unfold std_info in E.
    destruct (so_infos s !! q) as [i|] eqn:Eq.
    + injection E as <- <-. case_bool_decide as Hq; [subst q; by rewrite Eq|done].
    + destruct (hp0 q) as [i|e] eqn:Eh; injection E as <- <-.
      * cbn [so_infos]. case_bool_decide as Hq; [subst q; by rewrite lookup_insert, Eh, Eq|]. by rewrite lookup_insert_ne.
      * case_bool_decide as Hq; [subst q; by rewrite Eh|done].
Qed.

(** For a pkger made by New: Info answers the value of the current package,
    or the first success so far, or else asks again; exactly then. *)
Theorem C50_answers her l k hp p :
  l !! k = Some (hp, p) ->
  infos (std_new her) l !! k =
    Some (if bool_decide (p = h_import her) then (Ok her, false)
          else match first_ok p (take k l) with
               | Some i => (Ok i, false)
               | None => (hp p, true)
               end).
Proof.
  intros Hk. rewrite (infos_at _ _ _ _ _ Hk). cbn [so_infos std_new]. case_bool_decide as E.
  - subst p. by rewrite lookup_singleton.
  - by rewrite lookup_singleton_ne.
Qed.

(** So a package is resolved successfully at most once ... *)
Theorem C50_once her l j k hp hp' p i i' :
  j < k -> l !! j = Some (hp, p) -> l !! k = Some (hp', p) ->
  infos (std_new her) l !! j = Some (Ok i, true) -> infos (std_new her) l !! k = Some (i', true) -> False.
Proof.
  intros Hjk Hj Hk H1 H2. rewrite (C50_answers her l j hp p Hj) in H1. rewrite (C50_answers her l k hp' p Hk) in H2.
  case_bool_decide; [done|]. destruct (first_ok p (take j l)) as [x|] eqn:E1; [done|]. injection H1 as H1.
  assert (Hs : take k l = take j l ++ (hp, p) :: drop (S j) (take k l)).
  { assert (Hl : take k l !! j = Some (hp, p)) by (by rewrite lookup_take).
    rewrite <- (take_drop_middle (take k l) j (hp, p) Hl) at 1. by rewrite take_take, Nat.min_l by lia. }
  rewrite Hs, first_ok_app, E1 in H2. cbn [first_ok] in H2. rewrite bool_decide_eq_true_2 in H2 by done.
  rewrite H1 in H2. done.
Qed.

(** ... and the answer never changes after the first success. *)
Theorem C50_stable her l j k hp hp' p i :
  j <= k -> l !! j = Some (hp, p) -> l !! k = Some (hp', p) ->
  fst <$> infos (std_new her) l !! j = Some (Ok i) -> fst <$> infos (std_new her) l !! k = Some (Ok i).
Proof.
  intros Hjk Hj Hk H1. rewrite (C50_answers her l j hp p Hj) in H1. rewrite (C50_answers her l k hp' p Hk).
  case_bool_decide; [done|]. cbn [fmap option_fmap option_map] in *.
  destruct (decide (j = k)) as [->|]; [assert (hp = hp') as -> by congruence; done|].
  assert (Hs : take k l = take j l ++ (hp, p) :: drop (S j) (take k l)).
  { assert (Hl : take k l !! j = Some (hp, p)) by (rewrite lookup_take; [done|lia]).
    rewrite <- (take_drop_middle (take k l) j (hp, p) Hl) at 1. by rewrite take_take, Nat.min_l by lia. }
  rewrite Hs, first_ok_app. destruct (first_ok p (take j l)) as [x|]; [done|]. cbn [first_ok].
  rewrite bool_decide_eq_true_2 by done. injection H1 as H1. by rewrite H1.
Qed.

Example C50_ex :
  let down : bytes -> res hinfo := fun _ => Err EParse in
  let up : bytes -> res hinfo := fun p => Ok (HInfo (B"/go/" ++ p) p (B"x") p false [] [] []) in
  let late : bytes -> res hinfo := fun p => Ok (HInfo (B"/else") p (B"x") p false [] [] []) in
  let l := [(up, B"app"); (down, B"dep"); (up, B"dep"); (late, B"dep"); (down, B"dep")] in
  snd <$> infos (std_new (HInfo (B"/src/app") (B"app") (B"main") (B"app") true (B"/src/app") [] [])) l =
    [false; true; true; false; false] /\
  (fun r => match r.1 with Ok i => h_dir i | Err _ => [] end) <$>
    infos (std_new (HInfo (B"/src/app") (B"app") (B"main") (B"app") true (B"/src/app") [] [])) l =
    [B"/src/app"; []; B"/go/dep"; B"/go/dep"; B"/go/dep"].
Proof. by vm_compute. Qed.

(** ** C48: one path, one file *)

(** After a successful Info the same answer is given whatever happens. *)
Lemma info_stays hp s p s' i : std_info hp s p = (s', Ok i) ->
  so_here s' = so_here s /\ forall hp', std_info hp' s' p = (s', Ok i).
Proof.
  unfold std_info. destruct (so_infos s !! p) as [j|] eqn:E.
  - intros [= <- <-]. split; [done|]. intros hp'. by rewrite E.
  - destruct (hp p) as [j|]; [|done]. intros [= <- <-]. cbn. split; [done|]. intros hp'. by rewrite lookup_insert.
Qed.

Section Std.
  Context (parse : resolver) (nm : meta).

  (** The file on disk that a path stands for. *)
  Definition stands_for (s : sto) (p t : bytes) : Prop :=
    exists pt her, parse (so_here s) p = Some pt /\ (forall hp, std_info hp s (p_pkg pt) = (s, Ok her)) /\
      t = join2 (h_dir her) (p_name pt).

  Lemma stat_at s p t hp fs : stands_for s p t -> std_stat parse hp fs s p = (s, os_stat fs t).
  Proof.
    intros (pt & her & Hp & Hi & ->). unfold std_stat. rewrite Hp, Hi.
    destruct (os_stat fs _) as [d|]; [by rewrite new_file_info_id|done].
  Qed.
  Lemma open_at s p t hp fs : stands_for s p t ->
    std_open parse hp fs s p = (s, match os_open fs t with Ok n => (std_open parse hp fs s p).2 | Err e => Err e end) /\
    (forall n, os_open fs t = Ok n -> exists f, (std_open parse hp fs s p).2 = Ok f /\ sf_os f = t /\ sf_info f = info_of (base t) n).
  Proof.
    intros (pt & her & Hp & Hi & ->). unfold std_open. rewrite Hp, Hi.
    destruct (os_open fs _) as [n|e]; (split; [done|]); [|done].
    intros m [= <-]. eexists. split; [done|]. cbn [sf_os sf_info]. by rewrite new_file_info_id.
  Qed.

  Lemma create_inv hp fs s p fs' s' f :
    std_create parse nm hp fs s p = (fs', s', Ok f) ->
    exists t, stands_for s' p t /\ sf_os f = t /\ os_create nm fs t = Ok fs' /\ os_stat fs' t = Ok (sf_info f) /\ sf_pos f = 0.
  Proof.
    unfold std_create. destruct (parse (so_here s) p) as [pt|] eqn:Hp; [|done].
    destruct (std_info hp s (p_pkg pt)) as [s1 [her|]] eqn:Hi; [|done].
    destruct (os_create nm fs _) as [fs1|] eqn:Hc; [|done].
    destruct (os_stat fs1 _) as [d|] eqn:Hs; [|done]. intros [= <- <- <-].
    apply info_stays in Hi as [Hh Hi]. eexists. split; [|split; [done|]].
    - exists pt, her. rewrite Hh. done.
    - cbn [sf_info]. rewrite new_file_info_id. done.
  Qed.
  Lemma remove_inv hp fs s p fs' s' :
    std_remove parse hp fs s p = (fs', s', None) -> exists t, stands_for s' p t /\ os_remove fs t = Ok fs'.
  Proof.
    unfold std_remove. destruct (parse (so_here s) p) as [pt|] eqn:Hp; [|done].
    destruct (std_info hp s (p_pkg pt)) as [s1 [her|]] eqn:Hi; [|done].
    destruct (os_remove fs _) as [fs1|] eqn:Hc; [|done]. intros [= <- <-].
    apply info_stays in Hi as [Hh Hi]. eexists. split; [|done]. exists pt, her. rewrite Hh. done.
  Qed.
  Lemma remove_all_inv hp fs s p fs' s' :
    std_remove_all parse hp fs s p = (fs', s', None) -> exists t, stands_for s' p t /\ os_remove_all fs t = Ok fs'.
  Proof.
    unfold std_remove_all. destruct (parse (so_here s) p) as [pt|] eqn:Hp; [|done].
    destruct (std_info hp s (p_pkg pt)) as [s1 [her|]] eqn:Hi; [|done].
    destruct (os_remove_all fs _) as [fs1|] eqn:Hc; [|done]. intros [= <- <-].
    apply info_stays in Hi as [Hh Hi]. eexists. split; [|done]. exists pt, her. rewrite Hh. done.
  Qed.
  Lemma mkdir_inv hp fs s p fs' s' :
    std_mkdir_all parse nm hp fs s p = (fs', s', None) ->
    exists pt her, parse (so_here s') p = Some pt /\ (forall hp', std_info hp' s' (p_pkg pt) = (s', Ok her)) /\
      os_mkdir_all nm fs (join2 (h_dir her) p) = Ok fs'.
  Proof.
    unfold std_mkdir_all. destruct (parse (so_here s) p) as [pt|] eqn:Hp; [|done].
    destruct (std_info hp s (p_pkg pt)) as [s1 [her|]] eqn:Hi; [|done].
    destruct (os_mkdir_all nm fs _) as [fs1|] eqn:Hc; [|done]. intros [= <- <-].
    apply info_stays in Hi as [Hh Hi]. exists pt, her. rewrite Hh. done.
  Qed.

  Lemma os_upd_inv op p f fs fs' :
    at_path p op (fun ws => or_err op p (upd f fs ws)) = Ok fs' ->
    is_rooted p = true /\ upd f fs (clean_elems p) = Some fs'.
  Proof.
    unfold at_path, or_err. destruct (is_rooted p); [|done]. destruct (upd f fs _); [|done]. by intros [= ->].
  Qed.

  (** After Create(p), Stat(p) and Open(p) find an empty file; the resolver and
      the package lookup are arbitrary, the latter may even change. *)
  Theorem C48_create hp hp' fs s p fs' s' f :
    n_ok nm = true -> std_create parse nm hp fs s p = (fs', s', Ok f) ->
    std_stat parse hp' fs' s' p = (s', Ok (sf_info f)) /\ d_isdir (sf_info f) = false /\ d_size (sf_info f) = 0%Z /\
    exists f', std_open parse hp' fs' s' p = (s', Ok f') /\ sf_os f' = sf_os f /\ sf_info f' = sf_info f /\
      exists i, find fs' (sf_os f') = Some (NFile i []).
  Proof.
    intros Hnm H. apply create_inv in H as (t & Hsf & Et & Hc & Hs & Hpos).
    apply os_upd_inv in Hc as [Hr Hu]. pose proof (upd_at _ _ _ _ Hu) as Ha.
    assert (exists i, get fs' (clean_elems t) = Some (NFile i []) /\ n_ok i = true) as (i & Hg & Hok).
    { unfold create_fn in Ha. destruct (get fs (clean_elems t)) as [[j d|]|]; [|done|].
      - destruct (n_ok j) eqn:Ej; [|done]. injection Ha as Ha. exists j. by rewrite <- Ha.
      - injection Ha as Ha. exists nm. by rewrite <- Ha. }
    assert (Hf : find fs' t = Some (NFile i [])) by (unfold find; by rewrite Hr).
    rewrite (stat_at _ _ _ _ _ Hsf). rewrite Hs. split; [done|].
    unfold os_stat in Hs. rewrite Hf in Hs. injection Hs as Hs. rewrite <- Hs. split; [done|]. split; [done|].
    destruct (open_at s' p t hp' fs' Hsf) as [Ho1 Ho2].
    assert (Hop : os_open fs' t = Ok (NFile i [])) by (unfold os_open; rewrite Hf; cbn; by rewrite Hok).
    destruct (Ho2 _ Hop) as (f' & Hf' & E1 & E2). exists f'. rewrite Ho1, Hop, Hf'. split; [done|].
    split; [congruence|]. split; [done|]. exists i. by rewrite E1.
  Qed.

  (** Stat and Open agree. *)
  Theorem C48_open_stat hp hp' fs s p s' f :
    std_open parse hp fs s p = (s', Ok f) -> std_stat parse hp' fs s' p = (s', Ok (sf_info f)).
  Proof.
    unfold std_open. destruct (parse (so_here s) p) as [pt|] eqn:Hp; [|done].
    destruct (std_info hp s (p_pkg pt)) as [s1 [her|]] eqn:Hi; [|done].
    destruct (os_open fs _) as [n|] eqn:Ho; [|done]. intros [= <- <-].
    apply info_stays in Hi as [Hh Hi]. unfold std_stat. rewrite Hh, Hp, Hi.
    unfold os_open in Ho. unfold os_stat. destruct (find fs _) as [m|]; [|done].
    destruct (n_ok (n_meta m)); [|done]. by injection Ho as ->.
  Qed.

  (** After Remove(p) or RemoveAll(p) neither finds anything. *)
  Theorem C48_remove hp hp' fs s p fs' s' :
    std_remove parse hp fs s p = (fs', s', None) ->
    (exists e, std_stat parse hp' fs' s' p = (s', Err e)) /\ (exists e, std_open parse hp' fs' s' p = (s', Err e)).
  Proof.
    intros H. apply remove_inv in H as (t & Hsf & Hc). apply os_upd_inv in Hc as [Hr Hu].
    pose proof (upd_at _ _ _ _ Hu) as Ha.
    assert (Hf : find fs' t = None).
    { unfold find. rewrite Hr. unfold remove_fn in Ha. destruct (get fs (clean_elems t)) as [[|? []]|]; try done; by injection Ha as <-. }
    rewrite (stat_at _ _ _ _ _ Hsf). destruct (open_at s' p t hp' fs' Hsf) as [Ho1 _]. rewrite Ho1.
    unfold os_stat, os_open. rewrite Hf. eauto.
  Qed.
  Theorem C48_remove_all hp hp' fs s p fs' s' :
    std_remove_all parse hp fs s p = (fs', s', None) ->
    (exists e, std_stat parse hp' fs' s' p = (s', Err e)) /\ (exists e, std_open parse hp' fs' s' p = (s', Err e)).
  Proof.
    intros H. apply remove_all_inv in H as (t & Hsf & Hc).
    assert (Hf : find fs' t = None).
    { unfold os_remove_all, at_path, or_err in Hc. unfold find. destruct (is_rooted t); [|done].
      destruct (DiskOps.missing fs (clean_elems t)) eqn:Em.
      - injection Hc as <-. clear Hsf. revert Em. generalize (clean_elems t) as ws. generalize fs as n.
        intros n ws. revert n. induction ws as [|w ws IH]; intros n; [done|]. cbn [DiskOps.missing get]. destruct n as [|i cs]; [done|].
        destruct (child w cs); [apply IH|done].
      - destruct (upd _ fs _) as [x|] eqn:Hu; [|done]. injection Hc as ->. apply upd_at in Hu. by injection Hu as <-. }
    rewrite (stat_at _ _ _ _ _ Hsf). destruct (open_at s' p t hp' fs' Hsf) as [Ho1 _]. rewrite Ho1.
    unfold os_stat, os_open. rewrite Hf. eauto.
  Qed.

  (** MkdirAll(p): so too if joining p itself and joining the parsed name give
      the same place. *)
  Theorem C48_mkdir_partial hp hp' fs s p fs' s' pt her :
    n_ok nm = true -> all_open fs ->
    std_mkdir_all parse nm hp fs s p = (fs', s', None) ->
    parse (so_here s) p = Some pt -> so_infos s' !! p_pkg pt = Some her ->
    join2 (h_dir her) p = join2 (h_dir her) (p_name pt) ->
    exists d f, std_stat parse hp' fs' s' p = (s', Ok d) /\ d_isdir d = true /\
      std_open parse hp' fs' s' p = (s', Ok f) /\ sf_info f = d.
  Proof.
    intros Hnm Hop H Hp0 Hcache Hj.
    assert (Hsame : so_here s' = so_here s).
    { unfold std_mkdir_all in H. rewrite Hp0 in H. destruct (std_info hp s (p_pkg pt)) as [s1 [her1|]] eqn:Hi; [|done].
      destruct (os_mkdir_all nm fs _); [|done]. injection H as _ <-. by apply info_stays in Hi as [? _]. }
    apply mkdir_inv in H as (pt' & her' & Hp & Hi & Hm). rewrite Hsame, Hp0 in Hp. injection Hp as <-.
    assert (her' = her) as ->.
    { specialize (Hi hp'). unfold std_info in Hi. rewrite Hcache in Hi. by injection Hi. }
    rewrite Hj in Hm. assert (Hsf : stands_for s' p (join2 (h_dir her) (p_name pt))).
    { exists pt, her. rewrite Hsame. done. }
    set (t := join2 (h_dir her) (p_name pt)) in *. unfold os_mkdir_all, at_path, or_err in Hm.
    destruct (is_rooted t) eqn:Hr; [|done]. destruct (mkdirs nm fs (clean_elems t)) as [x|] eqn:Em; [|done]. injection Hm as ->.
    destruct (mkdirs_dir _ _ _ _ (clean_elems t) [] Em) as (j & cs & Hg & Hnew & Hold); [by rewrite app_nil_r|].
    assert (Hok : n_ok j = true).
    { destruct (get fs (clean_elems t)) as [y|] eqn:Ey; [|by rewrite Hnew].
      destruct (Hold y eq_refl) as [_ <-]. by eapply Hop. }
    assert (Hf : find fs' t = Some (NDir j cs)) by (unfold find; by rewrite Hr).
    assert (Hopen : os_open fs' t = Ok (NDir j cs)) by (unfold os_open; rewrite Hf; cbn; by rewrite Hok).
    destruct (open_at s' p t hp' fs' Hsf) as [Ho1 Ho2]. destruct (Ho2 _ Hopen) as (f & Hfo & _ & Hinfo).
    exists (info_of (base t) (NDir j cs)), f. rewrite (stat_at _ _ _ _ _ Hsf), Ho1, Hopen, Hfo.
    unfold os_stat. rewrite Hf. done.
  Qed.

  (** ** C76: other files are left alone *)

  (** [q] lies neither above nor below [t]. *)
  Definition apart (q t : bytes) : Prop := beside (clean_elems q) (clean_elems t).

  Lemma apart_upd op p f fs fs' q :
    at_path p op (fun ws => or_err op p (upd f fs ws)) = Ok fs' -> apart q p -> find fs' q = find fs q.
  Proof.
    intros H Ha. apply os_upd_inv in H as [_ H]. unfold find. destruct (is_rooted q); [|done]. by eapply upd_beside.
  Qed.

  Theorem C76_create hp fs s p fs' s' f q :
    std_create parse nm hp fs s p = (fs', s', Ok f) -> apart q (sf_os f) -> find fs' q = find fs q.
  Proof. intros H Ha. apply create_inv in H as (t & _ & <- & Hc & _ & _). by eapply apart_upd. Qed.
  Theorem C76_remove hp fs s p fs' s' t q :
    std_remove parse hp fs s p = (fs', s', None) -> stands_for s' p t -> apart q t -> find fs' q = find fs q.
  Proof.
    intros H (pt & her & Hp & Hi & ->) Ha. apply remove_inv in H as (t' & (pt' & her' & Hp' & Hi' & ->) & Hc).
    assert (pt' = pt) as -> by congruence. pose proof (Hi (fun _ => Err EParse)) as E. rewrite Hi' in E. injection E as ->.
    by eapply apart_upd.
  Qed.
  Theorem C76_remove_all hp fs s p fs' s' t q :
    std_remove_all parse hp fs s p = (fs', s', None) -> stands_for s' p t -> apart q t -> find fs' q = find fs q.
  Proof.
    intros H (pt & her & Hp & Hi & ->) Ha. apply remove_all_inv in H as (t' & (pt' & her' & Hp' & Hi' & ->) & Hc).
    assert (pt' = pt) as -> by congruence. pose proof (Hi (fun _ => Err EParse)) as E. rewrite Hi' in E. injection E as ->.
    unfold os_remove_all, at_path, or_err in Hc. unfold find. destruct (is_rooted (join2 _ _)); [|done].
    destruct (DiskOps.missing fs _); [by injection Hc as ->|]. destruct (upd _ fs _) as [x|] eqn:Hu; [|done]. injection Hc as ->.
    destruct (is_rooted q); [|done]. by eapply upd_beside.
  Qed.
  (** MkdirAll loses nothing, wherever it makes directories. *)
  Theorem C76_mkdir hp fs s p fs' s' q i d :
    std_mkdir_all parse nm hp fs s p = (fs', s', None) -> find fs q = Some (NFile i d) -> find fs' q = Some (NFile i d).
  Proof.
    intros H Hf. apply mkdir_inv in H as (pt & her & _ & _ & Hm). unfold os_mkdir_all, at_path, or_err in Hm.
    destruct (is_rooted (join2 (h_dir her) p)); [|done]. destruct (mkdirs nm fs _) as [x|] eqn:Em; [|done]. injection Hm as ->.
    unfold find in *. destruct (is_rooted q); [|done]. pose proof (mkdirs_keeps _ _ _ _ (clean_elems q) Em) as Hk.
    by rewrite Hf in Hk.
  Qed.
  (** A failing operation changes nothing. *)
  Theorem C76_failure hp fs s p fs' s' e :
    (std_create parse nm hp fs s p = (fs', s', Err e) -> fs' = fs) /\
    (std_remove parse hp fs s p = (fs', s', Some e) -> fs' = fs) /\
    (std_remove_all parse hp fs s p = (fs', s', Some e) -> fs' = fs) /\
    (std_mkdir_all parse nm hp fs s p = (fs', s', Some e) -> fs' = fs).
  Proof.
    unfold std_create, std_remove, std_remove_all, std_mkdir_all.
    destruct (parse (so_here s) p) as [pt|]; [|split_and!; by intros [= <- _ _]].
    destruct (std_info hp s (p_pkg pt)) as [s1 [her|]]; [|split_and!; by intros [= <- _ _]].
    split; [|split; [|split]].
    - destruct (os_create nm fs _) as [fs1|] eqn:Hc; [|by intros [= <- _ _]].
      destruct (os_stat fs1 _) as [d|] eqn:Hs; [done|]. exfalso.
      apply os_upd_inv in Hc as [Hr Hu]. pose proof (upd_at _ _ _ _ Hu) as Ha.
      unfold os_stat, find in Hs. rewrite Hr in Hs. destruct (get fs1 _) as [n|] eqn:Eg; [done|].
      try rewrite Eg in Ha. unfold create_fn in Ha. destruct (get fs _) as [[j ?|]|]; [destruct (n_ok j); done|done|done].
    - destruct (os_remove fs _); [done|by intros [= <- _ _]].
    - destruct (os_remove_all fs _); [done|by intros [= <- _ _]].
    - destruct (os_mkdir_all nm fs _); [done|by intros [= <- _ _]].
  Qed.
End Std.

(** *** With the recalled resolver *)

(** The cache after New: the current package is known. *)
Lemma new_info her g : h_import her = g -> forall hp, std_info hp (std_new her) g = (std_new her, Ok her).
Proof. intros <- hp. unfold std_info. cbn [so_infos std_new]. by rewrite lookup_singleton. Qed.

(** A plain name: MkdirAll makes the directory that Stat and Open find. *)
Theorem C48_mkdir_plain_partial nm hp hp' fs her n fs' s' :
  h_import her = h_mpath her -> plain_name n -> dir_ok her n -> colon ∉ n -> h_mpath her <> n ->
  n_ok nm = true -> all_open fs ->
  std_mkdir_all here_parse nm hp fs (std_new her) n = (fs', s', None) ->
  exists d f, std_stat here_parse hp' fs' s' n = (s', Ok d) /\ d_isdir d = true /\
    std_open here_parse hp' fs' s' n = (s', Ok f) /\ sf_info f = d.
Proof.
  intros Hi Hn Hd Hc Hm Hnm Hop H.
  pose proof (here_parse_plain her n Hn Hd Hc Hm) as Hp.
  assert (s' = std_new her) as ->.
  { unfold std_mkdir_all in H. cbn [so_here std_new] in H. rewrite Hp in H. cbn [p_pkg] in H.
    change (Sto her {[h_import her := her]}) with (std_new her) in H.
    rewrite (new_info her _ Hi) in H. destruct (os_mkdir_all _ _ _); [|done]. by injection H as _ <-. }
  eapply (C48_mkdir_partial here_parse nm hp hp' fs (std_new her) n fs' (std_new her) _ her); [done..|exact Hp| |done].
  cbn [p_pkg so_infos std_new]. rewrite <- Hi. apply lookup_singleton.
Qed.

Definition no_hp : bytes -> res hinfo := fun _ => Err EParse.
Definition std_app (cs : list (bytes * node)) : node :=
  NDir (Meta 493 (GoTime 1600000000 0 0) 4096 JNull true)
    [(B"src", NDir (Meta 493 (GoTime 1600000000 0 0) 4096 JNull true)
       [(B"app", NDir (Meta 493 (GoTime 1600000000 0 0) 4096 JNull true) cs)])].
Definition std_meta : meta := Meta 420 (GoTime 1600000001 0 0) 4096 JNull true.

(** In general it does not: the package of a qualified path is made a
    directory name, and an absolute path is nested below itself. *)
Theorem C48_mkdir_refuted :
  exists p q fs,
    let r := std_mkdir_all here_parse std_meta no_hp fs (std_new her_ex) p in
    let r' := std_mkdir_all here_parse std_meta no_hp fs (std_new her_ex) q in
    here_parse her_ex p = Some (Path (B"app") (B"/x")) /\ here_parse her_ex q = Some (Path (B"app") (B"/x")) /\
    r.2 = None /\
    (std_stat here_parse no_hp r.1.1 r.1.2 p).2 = Err (EPath (B"stat") (B"/src/app/x")) /\
    n_isdir <$> find r.1.1 (B"/src/app/app:/x") = Some true /\
    r'.2 = None /\
    (std_stat here_parse no_hp r'.1.1 r'.1.2 q).2 = Err (EPath (B"stat") (B"/src/app/x")) /\
    n_isdir <$> find r'.1.1 (B"/src/app/src/app/x") = Some true.
Proof. exists (B"app:/x"), (B"/src/app/x"), (std_app []). by vm_compute. Qed.

(** Create, write nothing, look, remove, look again. *)
Example C48_ex :
  let fs := std_app [(B"a.txt", NFile std_meta (B"hello"))] in
  let r := std_create here_parse std_meta no_hp fs (std_new her_ex) (B"app:/a.txt") in
  let fs' := r.1.1 in
  d_size <$> (match r.2 with Ok f => Some (sf_info f) | Err _ => None end) = Some 0%Z /\
  (match (std_stat here_parse no_hp fs' (std_new her_ex) (B"/a.txt")).2 with Ok d => d_size d | Err _ => 99 end = 0)%Z /\
  (std_remove here_parse no_hp fs' (std_new her_ex) (B"/a.txt")).2 = None /\
  (std_remove here_parse no_hp fs' (std_new her_ex) (B"/b.txt")).2 <> None /\
  (std_remove_all here_parse no_hp fs' (std_new her_ex) (B"/b.txt")).2 = None /\
  (std_mkdir_all here_parse std_meta no_hp fs' (std_new her_ex) (B"/x/y")).2 = None /\
  (std_mkdir_all here_parse std_meta no_hp fs' (std_new her_ex) (B"/a.txt/y")).2 <> None.
Proof. by vm_compute. Qed.

(** ** C49: files below an opened directory *)

(** If the joined name is resolved to the directory's package, File.Open opens
    the file of that package. *)
Theorem C49_partial parse hp hp' fs s p s' f name ds ns vs :
  Forall good_elem ds -> Forall good_elem ns -> Forall good_elem vs ->
  std_open parse hp fs s p = (s', Ok f) ->
  h_dir (sf_her f) = abs_name ds -> p_name (sf_path f) = abs_name ns -> name = abs_name vs ->
  parse (so_here s) (abs_name (ns ++ vs)) = Some (Path (p_pkg (sf_path f)) (abs_name (ns ++ vs))) ->
  exists r, sfile_open parse hp' fs s' f name = (s', r) /\
    match find fs (abs_name (ds ++ ns ++ vs)) with
    | Some n => if n_ok (n_meta n)
                then exists f', r = Ok f' /\ sf_os f' = abs_name (ds ++ ns ++ vs) /\
                       sf_info f' = info_of (base (abs_name (ds ++ ns ++ vs))) n /\ p_pkg (sf_path f') = p_pkg (sf_path f)
                else exists e, r = Err e
    | None => exists e, r = Err e
    end.
Proof.
  intros Hds Hns Hvs Ho Hd Hn -> Hp. unfold std_open in Ho.
  destruct (parse (so_here s) p) as [pt|] eqn:Hp0; [|done].
  destruct (std_info hp s (p_pkg pt)) as [s1 [her|]] eqn:Hi; [|done].
  destruct (os_open fs _) as [n0|] eqn:Hos; [|done]. injection Ho as <- <-. cbn [sf_her sf_path] in *.
  apply info_stays in Hi as [Hh Hi]. unfold sfile_open. cbn [sf_path]. rewrite Hn, clean_join_abs by done.
  unfold std_open. rewrite Hh, Hp. cbn [p_pkg p_name]. rewrite Hi, Hd, clean_join_abs by (done || by apply Forall_app).
  unfold os_open. destruct (find fs (abs_name (ds ++ ns ++ vs))) as [n|]; [|eexists; split; [done|]; by eexists].
  destruct (n_ok (n_meta n)); (eexists; split; [done|]); [|by eexists].
  eexists. split; [done|]. cbn [sf_os sf_info sf_path p_pkg]. by rewrite new_file_info_id.
Qed.

(** With the recalled resolver: so for directories of the current module. *)
Theorem C49_current_partial hp hp' fs her p s' f ds ns vs :
  Forall good_elem ds -> Forall good_elem ns -> Forall good_elem vs ->
  std_open here_parse hp fs (std_new her) p = (s', Ok f) ->
  sf_path f = Path (h_mpath her) (abs_name ns) -> h_dir (sf_her f) = abs_name ds ->
  plain_name (abs_name (ns ++ vs)) -> dir_ok her (abs_name (ns ++ vs)) -> colon ∉ abs_name (ns ++ vs) ->
  h_mpath her <> abs_name (ns ++ vs) ->
  exists r, sfile_open here_parse hp' fs s' f (abs_name vs) = (s', r) /\
    match find fs (abs_name (ds ++ ns ++ vs)) with
    | Some n => if n_ok (n_meta n)
                then exists f', r = Ok f' /\ sf_os f' = abs_name (ds ++ ns ++ vs) /\
                       sf_info f' = info_of (base (abs_name (ds ++ ns ++ vs))) n /\ p_pkg (sf_path f') = h_mpath her
                else exists e, r = Err e
    | None => exists e, r = Err e
    end.
Proof.
  intros Hds Hns Hvs Ho Hf Hd Hpl Hdo Hc Hm.
  pose proof (C49_partial here_parse hp hp' fs (std_new her) p s' f (abs_name vs) ds ns vs) as H.
  rewrite Hf in H. cbn [p_pkg p_name so_here std_new] in H. apply H; try done. by apply here_parse_plain.
Qed.

(** Not for a dependency: the file served is the current module's. *)
Definition dep_her : hinfo := HInfo (B"/go/dep") (B"dep") (B"dep") (B"dep") true (B"/go/dep") [] (B"1.13").
Definition dep_hp : bytes -> res hinfo := fun p => if bool_decide (p = B"dep") then Ok dep_her else Err EParse.
Definition dep_fs : node :=
  let m := Meta 493 (GoTime 1600000000 0 0) 4096 JNull true in
  NDir m [(B"go", NDir m [(B"dep", NDir m [(B"pub", NDir m [(B"f", NFile m (B"theirs"))])])]);
          (B"src", NDir m [(B"app", NDir m [(B"pub", NDir m [(B"f", NFile m (B"mine"))])])])].

Theorem C49_refuted :
  exists s f f', std_open here_parse dep_hp dep_fs (std_new her_ex) (B"dep:/pub") = (s, Ok f) /\
    sf_path f = Path (B"dep") (B"/pub") /\ sf_os f = B"/go/dep/pub" /\
    find dep_fs (B"/go/dep/pub/f") <> None /\
    (sfile_open here_parse dep_hp dep_fs s f (B"/f")).2 = Ok f' /\
    sf_path f' = Path (B"app") (B"/pub/f") /\ sf_os f' = B"/src/app/pub/f".
Proof.
  destruct (std_open here_parse dep_hp dep_fs (std_new her_ex) (B"dep:/pub")) as [s r] eqn:E.
  assert (r = (std_open here_parse dep_hp dep_fs (std_new her_ex) (B"dep:/pub")).2) as Hr by (by rewrite E).
  vm_compute in Hr.
  assert (Hs : so_here s = her_ex /\ forall hp, std_info hp s (B"app") = (s, Ok her_ex)).
  { revert E. unfold std_open. change (here_parse (so_here (std_new her_ex)) (B"dep:/pub")) with (Some (Path (B"dep") (B"/pub"))).
    cbn [p_pkg p_name]. unfold std_info at 1. cbn [so_infos std_new]. rewrite lookup_singleton_ne by (intros [=]).
    change (dep_hp (B"dep")) with (Ok dep_her). cbv beta iota.
    destruct (os_open dep_fs _); intros [= <- _]; (split; [done|]); intros hp; unfold std_info; cbn [so_infos];
      rewrite lookup_insert_ne by (intros [=]); cbn [so_infos std_new]; by rewrite lookup_singleton. }
  destruct Hs as [Hs1 Hs2]. destruct r as [f|]; [|done].
  exists s, f. eexists. split; [done|]. injection Hr as ->. split; [done|]. split; [done|]. split; [by vm_compute|].
  split; [|split].
  - unfold sfile_open. cbn [sf_path p_name]. change (join2 _ (B"/f")) with (B"/pub/f").
    unfold std_open. rewrite Hs1. change (here_parse her_ex (B"/pub/f")) with (Some (Path (B"app") (B"/pub/f"))).
    cbn [p_pkg p_name]. rewrite Hs2. vm_compute. reflexivity.
  - done.
  - done.
Qed.

Example C49_ex :
  let '(s, r) := std_open here_parse no_hp dep_fs (std_new her_ex) (B"/pub") in
  match r with
  | Ok f => sf_path f = Path (h_mpath her_ex) (abs_name [B"pub"]) /\ h_dir (sf_her f) = abs_name [B"src"; B"app"] /\
      match (sfile_open here_parse no_hp dep_fs s f (abs_name [B"f"])).2 with
      | Ok f' => sf_os f' = B"/src/app/pub/f" /\ d_size (sf_info f') = 4%Z
      | Err _ => False
      end
  | Err _ => False
  end.
Proof. by vm_compute. Qed.

(** ** C51: Walk *)

Lemma walk_children_sim {S T} (F : bytes * node -> S * T -> (S * T) * option gerr) (G : bytes * node -> S -> S * option gerr) t cs x :
  Forall (fun y => forall x, F y (x, t) = ((G y x).1, t, (G y x).2)) cs ->
  walk_children F cs (x, t) = ((walk_children G cs x).1, t, (walk_children G cs x).2).
Proof.
  revert x. induction cs as [|y cs IH]; intros x HF; [done|]. apply Forall_cons in HF as [Hy HF].
  cbn [walk_children]. rewrite Hy. destruct (G y x) as [x' [e|]]; cbn [fst snd]; [|by apply IH].
  destruct (n_isdir y.2 && _); [by apply IH|done].
Qed.

Lemma fwalk_sim {S T} (f : wfunc (S * T)) (g : wfunc S) t ws n x :
  Forall good_elem ws -> wf_node n ->
  (forall vs c e x, get n vs = Some c ->
     let q := abs_name (ws ++ vs) in let d := Some (info_of (base q) c) in
     f q d e (x, t) = ((g q d e x).1, t, (g q d e x).2)) ->
  fwalk f (abs_name ws) n (x, t) = ((fwalk g (abs_name ws) n x).1, t, (fwalk g (abs_name ws) n x).2).
Proof.
  revert ws x. induction n as [i d|i cs IH] using node_ind'; intros ws x Hws Hwf Hf.
  - specialize (Hf [] _ None x eq_refl). by rewrite app_nil_r in Hf.
  - pose proof (fun e => Hf [] _ e x eq_refl) as H0. rewrite app_nil_r in H0. cbn zeta in H0.
    cbn [fwalk]. destruct (n_ok i); [|apply H0]. rewrite (H0 None).
    destruct (g (abs_name ws) _ None x) as [x1 [e|]]; [done|]. cbn [fst snd].
    apply wf_dir in Hwf as [HS HF]. apply walk_children_sim. rewrite Forall_forall in IH, HF. apply Forall_forall.
    intros [w c] Hin x2. cbn [fst snd]. destruct (HF _ Hin) as [Hw Hwc]. cbn [fst snd] in *. rewrite join2_name by done.
    apply (IH _ Hin); [|done|].
    + apply Forall_app. split; [done|]. by constructor.
    + intros vs d e x3 Hg. rewrite <- app_assoc. apply Hf. cbn [get app].
      apply (child_iff w c cs HS) in Hin. by rewrite Hin.
Qed.

(** [F] is the callback of filepath.Walk that gives [wf] names relative to the
    package directory [ds], and stops at errors. *)
Definition renames {S} (ds : list bytes) (g : bytes) (wf : bytes -> details -> S -> S * option gerr) (F : wfunc S) : Prop :=
  (forall vs d x, Forall good_elem vs -> F (abs_name (ds ++ vs)) (Some d) None x = wf (g ++ colon :: abs_name vs) d x) /\
  (forall q d e x, F q d (Some e) x = (x, Some e)).

Theorem C51_walk_partial {S} (parse : resolver) hp fs s s1 p g her ds ns (wf : bytes -> details -> S -> S * option gerr) F x :
  wf_node fs -> g <> [] -> ds <> [] -> Forall good_elem ds -> Forall good_elem ns ->
  parse (so_here s) p = Some (Path g (abs_name ns)) ->
  std_info hp s g = (s1, Ok her) -> h_dir her = abs_name ds ->
  (* names on disk have no backslash, and the resolver keeps the package *)
  (forall vs c, get fs (ds ++ ns ++ vs) = Some c ->
     backslash ∉ abs_name (ns ++ vs) /\
     exists n, parse (so_here s) (g ++ colon :: abs_name (ds ++ ns ++ vs)) = Some (Path g n)) ->
  renames ds g wf F ->
  std_walk parse hp fs s p wf x =
    ((walk_disk fs (abs_name (ds ++ ns)) F x).1, s1, (walk_disk fs (abs_name (ds ++ ns)) F x).2).
Proof.
  intros Hwf Hg0 Hd0 Hds Hns Hp Hi Hd Hpre [HF1 HF2]. unfold std_walk. rewrite Hp. cbn [p_pkg p_name].
  rewrite Hi, Hd, clean_join_abs by done. destruct (info_stays _ _ _ _ _ Hi) as [Hh Hi'].
  assert (Hdn : Forall good_elem (ds ++ ns)) by (by apply Forall_app).
  unfold walk_disk. rewrite find_abs by done. destruct (get fs (ds ++ ns)) as [n|] eqn:En.
  - rewrite (fwalk_sim _ F s1 (ds ++ ns) n x Hdn).
    + by destruct (fwalk F (abs_name (ds ++ ns)) n x) as [x' e].
    + by destruct (wf_get _ _ _ Hwf En).
    + intros vs c e y Hc. cbn zeta. destruct e as [e|]; [by rewrite HF2|].
      assert (Hget : get fs (ds ++ ns ++ vs) = Some c) by (by rewrite app_assoc, get_app, En).
      destruct (wf_get _ _ _ Hwf Hget) as [_ Hgood]. apply Forall_app in Hgood as [_ Hgood].
      destruct (Hpre _ _ Hget) as [Hb [nn Hpp]]. rewrite <- app_assoc, HF1 by done.
      unfold std_walk_fn. rewrite Hh, Hpp. cbn [p_pkg]. rewrite Hi', Hd. rewrite trim_rel by done.
      rewrite new_file_info_id.
      assert (path_string (Path g (replace_byte backslash slash (rel_name (ns ++ vs)))) = g ++ colon :: abs_name (ns ++ vs)) as ->.
      { unfold path_string. cbn [p_name p_pkg]. destruct g as [|c0 g]; [done|].
        destruct (ns ++ vs) as [|v us]; [done|]. cbn [rel_name]. rewrite replace_byte_id by done. done. }
      by destruct (wf _ _ y) as [y' e'].
  - rewrite HF2. done.
Qed.

(** *** With the recalled resolver *)

Lemma fold_clean_unrooted (ws out : list bytes) :
  Forall (fun w => slash ∉ w) ws -> Forall (fun w : bytes => slash ∉ w /\ w <> []) out ->
  Forall (fun w : bytes => slash ∉ w /\ w <> []) (fold_left (clean_step false) ws out).
Proof.
  revert out. induction ws as [|w ws IH]; intros out HF Ho; [done|]. apply Forall_cons in HF as [Hw HF].
  cbn [fold_left]. apply IH; [done|]. unfold clean_step.
  destruct (bool_decide (w = [])) eqn:E1; cbn [orb]; [done|]. destruct (bool_decide (w = dot)); [done|].
  apply bool_decide_eq_false in E1.
  assert (Hdd : slash ∉ dotdot /\ dotdot <> []) by (split; [|done]; by apply (bool_decide_unpack _)).
  destruct (bool_decide (w = dotdot)).
  - destruct out as [|t out]; [by constructor|]. destruct (bool_decide (t = dotdot)); [by constructor|].
    by apply Forall_cons in Ho as [_ Ho].
  - by constructor.
Qed.

Lemma clean_relative s : is_rooted s = false -> is_rooted (clean s) = false.
Proof.
  intros Hr. unfold clean. destruct s as [|c s]; [done|]. rewrite Hr.
  assert (HF : Forall (fun w : bytes => slash ∉ w /\ w <> []) (clean_elems (c :: s))).
  { unfold clean_elems. rewrite Hr. apply Forall_rev, fold_clean_unrooted; [apply split_slash_elems|constructor]. }
  destruct (clean_elems (c :: s)) as [|w ws]; [done|]. apply Forall_cons in HF as [[H1 H2] _].
  destruct w as [|a w]; [done|]. apply not_elem_of_cons in H1 as [H1 _].
  destruct ws; cbn [join_slash app is_rooted]; by apply Ascii.eqb_neq.
Qed.

(** The directory of the module only shortens the name. *)
Lemma here_parse_dir her her0 s :
  h_dir her0 = [] -> h_mpath her0 = h_mpath her -> is_rooted (h_dir her) = true -> is_rooted (trim_space s) = false ->
  here_parse her s = (fun pt => Path (p_pkg pt) (trim_prefix (p_name pt) (h_dir her))) <$> here_parse her0 s.
Proof.
  intros Hd Hm Hr Hs. unfold here_parse. rewrite Hd, trim_prefix_nil.
  assert (Ht : trim_prefix (clean (trim_space s)) (h_dir her) = clean (trim_space s)).
  { apply trim_prefix_no. apply clean_relative in Hs. destruct (h_dir her) as [|a l]; [done|].
    cbn in Hr. apply ascii_eqb_spec in Hr as ->. destruct (clean (trim_space s)) as [|b t]; [done|].
    cbn [has_prefix]. cbn [is_rooted] in Hs. by rewrite Ascii.eqb_sym, Hs. }
  rewrite Ht.
  assert (Hb : forall g n, here_build her g n = Path (p_pkg (here_build her0 g n)) (trim_prefix (p_name (here_build her0 g n)) (h_dir her))).
  { intros g n. unfold here_build. rewrite Hm, Hd.
    set (gn := match g with [] => _ | _ => _ end). destruct gn as [g' n'].
    set (gn := if bool_decide _ then _ else _). destruct gn as [g'' n'']. by rewrite trim_prefix_nil. }
  destruct (bool_decide _ || _ || _); [cbn [fmap option_fmap option_map]; by rewrite Hb|].
  destruct (path_regexp _) as [[g n]|]; [|done]. cbn [fmap option_fmap option_map]. by rewrite Hb.
Qed.

Lemma here_parse_package her g n :
  plain_pkg g -> plain_name n -> is_rooted (h_dir her) = true ->
  here_parse her (g ++ colon :: n) = Some (Path g (trim_prefix n (h_dir her))).
Proof.
  intros Hg Hn Hr.
  set (her0 := HInfo [] (h_import her) (h_name her) (h_mpath her) (h_mmain her) (h_mdir her) (h_mgomod her) (h_mgover her)).
  assert (Hgn : exists c t, g = c :: t /\ c <> slash /\ is_space c = false).
  { destruct Hg as (gs & Hn0 & Hgs & -> & _ & _ & _ & Hh). destruct (head_join gs Hgs Hn0) as (c & t & E & Hc).
    exists c, t. split; [done|]. split; [done|]. apply Hh. by rewrite E. }
  destruct Hgn as (c & t & Eg & Hc & Hsp).
  assert (Hps : path_string (Path g n) = g ++ colon :: n).
  { unfold path_string. cbn [p_pkg p_name]. rewrite Eg. by destruct Hn as (ws & _ & -> & _). }
  assert (Htr : trim_space (g ++ colon :: n) = g ++ colon :: n).
  { apply trim_space_id; [rewrite Eg; by intros x [= <-]|]. destruct Hn as (ws & _ & -> & _ & _ & Hl).
    intros x Hx. apply Hl. rewrite <- Hx. unfold abs_name.
    change (g ++ colon :: slash :: join_slash ws) with (g ++ [colon] ++ slash :: join_slash ws). rewrite app_assoc.
    symmetry. apply last_app_cons. }
  rewrite (here_parse_dir her her0); [|done|done|done|].
  - rewrite <- Hps, here_parse_canonical; [done|]. split; [done|]. split; [done|]. by left.
  - rewrite Htr, Eg. cbn [app is_rooted]. by apply Ascii.eqb_neq.
Qed.

(** Names of an ordinary module tree: no walk entry is renamed. *)
Theorem C51_walk_here_partial {S} hp fs s s1 p g her ds ns (wf : bytes -> details -> S -> S * option gerr) F x :
  wf_node fs -> plain_pkg g -> ds <> [] -> Forall good_elem ds -> Forall good_elem ns ->
  is_rooted (h_dir (so_here s)) = true ->
  here_parse (so_here s) p = Some (Path g (abs_name ns)) ->
  std_info hp s g = (s1, Ok her) -> h_dir her = abs_name ds ->
  (forall vs c, get fs (ds ++ ns ++ vs) = Some c -> plain_name (abs_name (ds ++ ns ++ vs))) ->
  renames ds g wf F ->
  std_walk here_parse hp fs s p wf x =
    ((walk_disk fs (abs_name (ds ++ ns)) F x).1, s1, (walk_disk fs (abs_name (ds ++ ns)) F x).2).
Proof.
  intros Hwf Hg Hd0 Hds Hns Hr Hp Hi Hd Hpl HF.
  eapply C51_walk_partial; try done.
  - destruct Hg as (gs & Hn & Hgs & -> & _). intros E. by apply join_slash_nil_inv in E.
  - intros vs c Hc. pose proof (Hpl _ _ Hc) as Hn. split.
    + destruct Hn as (_ & _ & _ & Hb & _). intros Hin. apply Hb.
      rewrite abs_name_app by done. apply elem_of_app. right.
      destruct (ns ++ vs) as [|u us]; [|done].
      vm_compute in Hin. apply elem_of_list_singleton in Hin. done.
    + eexists. by apply here_parse_package.
Qed.

Lemma visited_shift us ws n :
  visited (fun _ => false) (us ++ ws) n = map (fun x => (us ++ x.1, x.2)) (visited (fun _ => false) ws n).
Proof.
  revert us ws. induction n as [i d|i cs IH] using node_ind'; intros us ws; cbn [visited map]; [done|]. f_equal.
  induction cs as [|[w c] cs IHcs]; [done|]. apply Forall_cons in IH as [Hc IH]. cbn [map concat fst snd].
  rewrite map_app, IHcs by done. f_equal. rewrite <- app_assoc. apply Hc.
Qed.

(** The names reported: one per file and directory, parents first, siblings by
    name. *)
Theorem C51_names_partial (parse : resolver) hp fs s s1 p g her ds ns n :
  wf_node fs -> g <> [] -> ds <> [] -> Forall good_elem ds -> Forall good_elem ns ->
  parse (so_here s) p = Some (Path g (abs_name ns)) ->
  std_info hp s g = (s1, Ok her) -> h_dir her = abs_name ds ->
  get fs (ds ++ ns) = Some n -> all_open n ->
  (forall vs c, get fs (ds ++ ns ++ vs) = Some c ->
     backslash ∉ abs_name (ns ++ vs) /\
     exists n, parse (so_here s) (g ++ colon :: abs_name (ds ++ ns ++ vs)) = Some (Path g n)) ->
  exists l, is_visit n (fun _ => false) l /\
    std_walk parse hp fs s p (fun q d log => (log ++ [(q, d)], None)) [] =
      ((map (fun x => (g ++ colon :: abs_name (ns ++ x.1), info_of (base (abs_name (ds ++ ns ++ x.1))) x.2)) l), s1, None).
Proof.
  intros Hwf Hg0 Hd0 Hds Hns Hp Hi Hd Hn Hop Hpre.
  set (wf := fun (q : bytes) (d : details) (log : list (bytes * details)) => (log ++ [(q, d)], @None gerr)).
  set (F := (fun (q : bytes) (d : option details) (e : option gerr) (x : list (bytes * details)) =>
    match e, d with
    | Some e, _ => (x, Some e)
    | None, Some d => wf (g ++ colon :: abs_name (drop (length ds) (clean_elems q))) d x
    | None, None => (x, None)
    end) : wfunc (list (bytes * details))).
  assert (HF : renames ds g wf F).
  { split; [|done]. intros vs d x Hvs. unfold F. rewrite clean_elems_abs by (by apply Forall_app). by rewrite drop_app. }
  exists (visited (fun _ => false) [] n). destruct (wf_get _ _ _ Hwf Hn) as [Hwn Hdn].
  split; [by apply visited_is_visit|].
  rewrite (C51_walk_partial parse hp fs s s1 p g her ds ns wf F []) by done.
  set (step := fun (x : list bytes * node) (log : list (bytes * details)) =>
     log ++ [(g ++ colon :: abs_name (drop (length ds) x.1), info_of (base (abs_name x.1)) x.2)]).
  destruct (walk_disk_steps fs F (fun _ => True) (fun _ => false) step (ds ++ ns) n []) as [E _]; try done.
  - intros vs c Hc log _. split; [|done]. unfold F, skip_err, step. cbn [fst snd andb].
    destruct (wf_get _ _ _ Hwn Hc) as [_ Hvs]. rewrite clean_elems_abs by (by apply Forall_app). done.
  - rewrite E. cbn [fst snd]. f_equal. f_equal.
    assert (Hv : visited (fun _ => false) (ds ++ ns) n = map (fun x => (ds ++ ns ++ x.1, x.2)) (visited (fun _ => false) [] n)).
    { rewrite <- (app_nil_r (ds ++ ns)), visited_shift. apply map_ext. intros [vs c]. cbn. by rewrite app_assoc. }
    rewrite Hv. unfold run_steps.
    assert (Hl : forall l log, fold_left (fun s x => step x s) (map (fun x : list bytes * node => (ds ++ ns ++ x.1, x.2)) l) log =
      log ++ map (fun x => (g ++ colon :: abs_name (ns ++ x.1), info_of (base (abs_name (ds ++ ns ++ x.1))) x.2)) l).
    { induction l as [|[vs c] l IH]; intros log; cbn [map fold_left]; [by rewrite app_nil_r|].
      rewrite IH. unfold step at 1. cbn [fst snd]. rewrite drop_app. by rewrite <- app_assoc. }
    by rewrite Hl.
Qed.

Example C51_ex :
  let fs := std_app [(B"a", NDir std_meta [(B"x", NFile std_meta (B"1"))]); (B"a.txt", NFile std_meta (B"22"))] in
  (std_walk here_parse no_hp fs (std_new her_ex) (B"/") (fun q d log => (log ++ [(q, d_size d)], None)) []).1.1 =
    [(B"app:/", 4096%Z); (B"app:/a", 4096%Z); (B"app:/a/x", 1%Z); (B"app:/a.txt", 2%Z)] /\
  (std_walk here_parse no_hp fs (std_new her_ex) (B"/a") (fun q d log => (log ++ [(q, d_size d)], None)) []).1.1 =
    [(B"app:/a", 4096%Z); (B"app:/a/x", 1%Z)] /\
  (std_walk here_parse no_hp fs (std_new her_ex) (B"/none") (fun q d log => (log ++ [(q, d_size d)], None)) []).1.1 = [] /\
  (std_walk here_parse no_hp fs (std_new her_ex) (B"/none") (fun q d log => (log ++ [(q, d_size d)], None)) []).2
    = Some (EPath (B"lstat") (B"/src/app/none")).
Proof. by vm_compute. Qed.

(** With a backslash in a file name, or the module in "/", names are wrong:
    two files are reported under one name; the slash is missing. *)
Theorem C51_refuted :
  (exists fs, wf_node fs /\
    (std_walk here_parse no_hp fs (std_new her_ex) (B"/a") (fun q d log => (log ++ [(q, d_name d)], None)) []).1.1 =
      [(B"app:/a", B"a"); (B"app:/a/b", B"b"); (B"app:/a/b/c", B"c"); (B"app:/a/b/c", B"b\c")]) /\
  exists her fs, h_dir her = B"/" /\
    (std_walk here_parse no_hp fs (std_new her) (B"/") (fun q d log => (log ++ [q], None)) []).1.1 = [B"app:/"; B"app:f"].
Proof.
  split.
  - exists (std_app [(B"a", NDir std_meta [(B"b", NDir std_meta [(B"c", NFile std_meta [])]); (B"b\c", NFile std_meta [])])]).
    split; [|by vm_compute].
    cbn. repeat split; try (apply good_elem_dec_ok; reflexivity);
      repeat (apply SSorted_cons || apply SSorted_nil || apply List.Forall_cons || apply List.Forall_nil); reflexivity.
  - exists (HInfo (B"/") (B"app") (B"app") (B"app") true (B"/") [] []), (NDir std_meta [(B"f", NFile std_meta [])]).
    split; [done|]. by vm_compute.
Qed.

(** ** C77: Stat of an open file *)

(** What File.Stat answers never changes, whatever happens to the file ... *)
Theorem C77_frozen fs f b fs' f' : sfile_write fs f b = Ok (fs', f') -> sfile_stat f' = sfile_stat f.
Proof.
  unfold sfile_write, at_path. destruct (is_rooted _); [|done]. destruct (upd _ _ _); [|done]. by intros [= _ <-].
Qed.

(** ... although the disk and the pkger's Stat know better. *)
Theorem C77_fresh parse hp hp' nm fs s p fs1 s1 f b fs2 f2 :
  std_create parse nm hp fs s p = (fs1, s1, Ok f) -> sfile_write fs1 f b = Ok (fs2, f2) ->
  exists d, std_stat parse hp' fs2 s1 p = (s1, Ok d) /\ d_size d = Z.of_nat (length b) /\ d_isdir d = false.
Proof.
  intros Hc Hw. apply create_inv in Hc as (t & Hsf & Et & Hc & Hs & Hpos).
  apply os_upd_inv in Hc as [Hr Hu]. pose proof (upd_at _ _ _ _ Hu) as Ha.
  assert (exists i, get fs1 (clean_elems t) = Some (NFile i [])) as (i & Hg).
  { unfold create_fn in Ha. destruct (get fs (clean_elems t)) as [[j d|]|]; [|done|].
    - destruct (n_ok j) eqn:Ej; [|done]. injection Ha as Ha. exists j. by rewrite <- Ha.
    - injection Ha as Ha. exists nm. by rewrite <- Ha. }
  unfold sfile_write, at_path in Hw. rewrite Et, Hr in Hw.
  destruct (upd _ fs1 (clean_elems t)) as [fs3|] eqn:Hu2; [|done]. injection Hw as -> <-.
  apply upd_at in Hu2. rewrite Hg in Hu2. cbn [write_fn] in Hu2. injection Hu2 as Hu2.
  rewrite (stat_at _ _ _ _ _ _ Hsf). unfold os_stat, find. rewrite Hr, <- Hu2.
  eexists. split; [done|]. split; [|done]. cbn [info_of d_size]. rewrite !app_length, take_nil, drop_nil, replicate_length. cbn [length].
  rewrite Hpos. cbn. lia.
Qed.

(** So it is out of date after the first Write. *)
Theorem C77_refuted :
  exists f fs2 f2 d,
    let r := std_create here_parse std_meta no_hp (std_app []) (std_new her_ex) (B"/a") in
    r.2 = Ok f /\ sfile_write r.1.1 f (B"hello") = Ok (fs2, f2) /\
    (std_stat here_parse no_hp fs2 r.1.2 (B"/a")).2 = Ok d /\ d_size d = 5%Z /\ d_size (sfile_stat f2) = 0%Z.
Proof. do 4 eexists. cbv zeta. split; [by vm_compute|]. split; [by vm_compute|]. split; [by vm_compute|]. by vm_compute. Qed.

(** Two writes: the handle's info stays, Stat by name follows. *)
Example C77_ex :
  let r := std_create here_parse std_meta no_hp (std_app []) (std_new her_ex) (B"/a") in
  match r.2 with
  | Ok f =>
      match sfile_write r.1.1 f (B"hello") with
      | Ok (fs2, f2) =>
          match sfile_write fs2 f2 (B" world") with
          | Ok (fs3, f3) => sfile_stat f3 = sfile_stat f /\
              match (std_stat here_parse no_hp fs3 r.1.2 (B"/a")).2 with Ok d => d_size d = 11%Z | Err _ => False end
          | Err _ => False
          end
      | Err _ => False
      end
  | Err _ => False
  end.
Proof. by vm_compute. Qed.

(** C76: a neighbour is untouched. *)
Example C76_ex :
  let fs := std_app [(B"a", NDir std_meta [(B"x", NFile std_meta (B"1"))]); (B"b", NFile std_meta (B"22"))] in
  let fs' := (std_create here_parse std_meta no_hp fs (std_new her_ex) (B"/a/y")).1.1 in
  let fs'' := (std_remove_all here_parse no_hp fs' (std_new her_ex) (B"/a")).1.1 in
  find fs' (B"/src/app/a/y") = Some (NFile std_meta []) /\ find fs' (B"/src/app/a/x") = find fs (B"/src/app/a/x") /\
  find fs'' (B"/src/app/a/x") = None /\ find fs'' (B"/src/app/b") = Some (NFile std_meta (B"22")).
Proof. by vm_compute. Qed.
