(** Theorems: what a payload's JSON may look like (C120, C121). *)
From Coq Require Import ZifyN.
From Verif Require Import Bytes GoPath Here GoTypes Mem MemSpec GoNum GoTimeFmt JsonStr JsonText Embed JsonSpec RawJson Base64 Marshal NilInfo
  PropsEmbed PropsMarshal PropsNil.

(** ** Specification *)

(** The names of the fields of embed.Data, embed.File, pkging.FileInfo,
    pkging.Details, here.Info, here.Module and here.Path, in lower case. *)
Definition field_names : list bytes :=
  [B"infos"; B"files"; B"here"; B"info"; B"her"; B"path"; B"data"; B"parent"; B"details";
   B"name"; B"size"; B"mode"; B"mod_time"; B"is_dir"; B"sys";
   B"dir"; B"importpath"; B"module"; B"main"; B"gomod"; B"goversion"; B"pkg"].

(** An object stands for a struct, or for a map with string keys: [true]. *)
Definition inner (map : bool) (k : bytes) : bool :=
  if map then false else bool_decide (fold_key k ∈ [B"infos"; B"files"]).
(** The values of these members are looked at as they are spelled. *)
Definition literal (map : bool) (k : bytes) : Prop := map = false /\ fold_key k ∈ [B"mod_time"; B"sys"].
(** Keys that mean the same: letter case does not matter in a struct. *)
Definition same_key (map : bool) (k k' : bytes) : Prop := if map then k = k' else fold_key k = fold_key k'.

(** Two trees that say the same. *)
Inductive alike : bool -> rjson -> rjson -> Prop :=
| al_refl m j : alike m j j
| al_trans m j1 j2 j3 : alike m j1 j2 -> alike m j2 j3 -> alike m j1 j3
| al_str m w w' s : jstr w s -> jstr w' s -> alike m (RStr w) (RStr w')
| al_obj m l l' : alikes m l l' -> alike m (RObj l) (RObj l')
with alikes : bool -> list (bytes * rjson) -> list (bytes * rjson) -> Prop :=
| als_nil m : alikes m [] []
| als_trans m l1 l2 l3 : alikes m l1 l2 -> alikes m l2 l3 -> alikes m l1 l3
| als_cons m k k' v l l' : same_key m k k' -> alikes m l l' -> alikes m ((k, v) :: l) ((k', v) :: l')
| als_value m k v v' l l' : ~ literal m k -> alike (inner m k) v v' -> alikes m l l' -> alikes m ((k, v) :: l) ((k, v') :: l')
| als_swap m k v k' v' l : ~ same_key m k k' -> alikes m ((k, v) :: (k', v') :: l) ((k', v') :: (k, v) :: l)
| als_add k v l : fold_key k ∉ field_names -> alikes false l ((k, v) :: l)
| als_drop k v l : fold_key k ∉ field_names -> alikes false ((k, v) :: l) l.

(** [j'] is [j] with a null in one place where a struct had no such member. *)
Inductive null_added : bool -> rjson -> rjson -> Prop :=
| na_here k l : (forall k' v, (k', v) ∈ l -> fold_key k' <> fold_key k) ->
    null_added false (RObj l) (RObj ((k, RNull) :: l))
| na_inside m k v v' l1 l2 :
    m = true \/ fold_key k <> B"sys" /\ (forall k' v, (k', v) ∈ l1 ++ l2 -> fold_key k' <> fold_key k) ->
    null_added (inner m k) v v' ->
    null_added m (RObj (l1 ++ (k, v) :: l2)) (RObj (l1 ++ (k, v') :: l2)).

(** ** Proofs *)

Scheme alike_mind := Induction for alike Sort Prop
  with alikes_mind := Induction for alikes Sort Prop.
Combined Scheme alike_ind2 from alike_mind, alikes_mind.

Lemma jstr_fun w s s' : jstr w s -> jstr w s' -> s = s'.
Proof. intros H1%(fun H => jstr_read w s H []) H2%(fun H => jstr_read w s' H []). congruence. Qed.
Lemma str_val_jstr w s : jstr w s -> str_val w = Some s.
Proof. intros H. unfold str_val. by rewrite (jstr_read w s H []). Qed.

Lemma alikes_refl m l : alikes m l l.
Proof.
  induction l as [|[k v] l IH]; [constructor|]. apply als_cons; [|done]. by destruct m.
Qed.
Lemma alikes_app m l l' r r' : alikes m l l' -> alikes m r r' -> alikes m (l ++ r) (l' ++ r').
Proof.
  intros H Hr. eapply als_trans with (l ++ r').
  - clear H. induction l as [|[k v] l IH]; [done|]. cbn [app]. apply als_cons; [by destruct m|done].
  - clear Hr. induction H as [m|m l1 l2 l3 _ IH1 _ IH2|m k k' v l l' Hk _ IH|m k v v' l l' Hk Hv _ IH|m k v k' v' l Hk|k v l Hk|k v l Hk]; cbn [app].
    + apply alikes_refl.
    + by eapply als_trans.
    + by apply als_cons.
    + by apply als_value.
    + by apply als_swap.
    + by apply als_add.
    + by apply als_drop.
Qed.

Lemma alike_cases m j j' : alike m j j' ->
  j = j' \/ (exists w w' s, j = RStr w /\ j' = RStr w' /\ jstr w s /\ jstr w' s) \/
  (exists l l', j = RObj l /\ j' = RObj l' /\ alikes m l l').
Proof.
  induction 1 as [m j|m j1 j2 j3 _ IH1 _ IH2|m w w' s H1 H2|m l l' H]; [by left| |right; left; eauto 10|right; right; eauto].
  destruct IH1 as [->|[(w1 & w2 & s & -> & -> & H1 & H2)|(l1 & l2 & -> & -> & H)]]; [done|..].
  - destruct IH2 as [<-|[(w3 & w4 & s' & E & -> & H3 & H4)|(? & ? & E & _)]]; [right; left; eauto 10| |done].
    injection E as <-. rewrite (jstr_fun w2 s' s H3 H2) in H4. right; left. eauto 10.
  - destruct IH2 as [<-|[(w3 & w4 & s' & E & _)|(l3 & l4 & E & -> & H')]]; [right; right; eauto 10|done|].
    injection E as <-. right; right. exists l1, l4. split_and!; [done|done|by eapply als_trans].
Qed.

(** The values given for a field of a struct. *)
Lemma given_same k k' v l : given k ((k', v) :: l) = (if bool_decide (fold_key k' = fold_key k) then [v] else []) ++ given k l.
Proof. case_bool_decide; [by rewrite given_hd|by rewrite given_tl]. Qed.

Lemma given_alike l l' k : alikes false l l' -> fold_key k ∈ field_names ->
  Forall2 (fun v v' => alike (inner false k) v v' /\ (literal false k -> v = v')) (given k l) (given k l').
Proof.
  intros H Hk. remember false as m eqn:Em.
  induction H as [m|m l1 l2 l3 _ IH1 _ IH2|m k1 k2 v l l' H _ IH|m k1 v v' l l' Hl Hv _ IH|m k1 v k2 v' l H|k1 v l H|k1 v l H];
    try (subst m; specialize (IH eq_refl)).
  - constructor.
  - specialize (IH1 Em). specialize (IH2 Em). revert IH2. generalize (given k l3). induction IH1 as [|v1 v2 vs1 vs2 [H1 H1'] _ IH]; intros vs3 H3;
      inversion H3 as [|? v3 ? vs3' [H2 H2'] Hr]; subst; constructor; [|by apply IH].
    split; [by eapply al_trans|]. intros Hn. by rewrite H1', H2'.
  - cbn [same_key] in H. rewrite !given_same, H. apply Forall2_app; [|done]. case_bool_decide; repeat constructor.
  - rewrite !given_same. apply Forall2_app; [|done]. case_bool_decide as He; [|constructor]. constructor; [|constructor].
    assert (inner false k1 = inner false k) as <- by (unfold inner; by rewrite He).
    assert (literal false k1 <-> literal false k) as Hlk by (unfold literal; by rewrite He). split; [done|]. intros Hlit. by destruct Hl; apply Hlk.
  - subst m. cbn [same_key] in H. rewrite !given_same, !app_assoc.
    assert (Hr : forall l : list rjson, Forall2 (fun v v' => alike (inner false k) v v' /\ (literal false k -> v = v')) l l).
    { induction l0; constructor; [|done]. split; [constructor|done]. }
    case_bool_decide as E1; case_bool_decide as E2; try (apply Hr). congruence.
  - rewrite given_tl; [|by intros E; apply H; rewrite E].
    generalize (given k l). induction l0; constructor; [|done]. split; [constructor|done].
  - rewrite given_tl; [|by intros E; apply H; rewrite E].
    generalize (given k l). induction l0; constructor; [|done]. split; [constructor|done].
Qed.

Lemma settle_ext {A} (f : rjson -> option (option A)) (R : rjson -> rjson -> Prop) x js js' :
  (forall j j', R j j' -> f j = f j') -> Forall2 R js js' -> settle f x js = settle f x js'.
Proof.
  intros Hf H. revert x. induction H as [|j j' js js' Hj _ IH]; intros x; [done|]. cbn [settle]. rewrite (Hf _ _ Hj).
  destruct (f j') as [[y|]|]; [apply IH|apply IH|done].
Qed.
Lemma settle_alike {A} (f : rjson -> option (option A)) m x js js' :
  (forall l, f (RObj l) = None) -> (forall w w' s, jstr w s -> jstr w' s -> f (RStr w) = f (RStr w')) ->
  Forall2 (alike m) js js' -> settle f x js = settle f x js'.
Proof.
  intros H1 H2. apply settle_ext. intros j j' [->|[(w & w' & s & -> & -> & Hw & Hw')|(l & l' & -> & -> & _)]]%alike_cases; [done| |by rewrite !H1].
  by eapply H2.
Qed.

Definition opt2 {A C} (R : A -> C -> Prop) (x : option A) (y : option C) : Prop :=
  match x, y with Some a, Some b => R a b | None, None => True | _, _ => False end.

Lemma r_obj_alike m js js' : Forall2 (alike m) js js' -> opt2 (alikes m) (r_obj js) (r_obj js').
Proof.
  induction 1 as [|j j' js js' Hj _ IH]; [apply alikes_refl|].
  destruct (alike_cases _ _ _ Hj) as [<-|[(w & w' & s & -> & -> & _)|(l & l' & -> & -> & Hl)]]; cbn [r_obj]; [|done|].
  - destruct j; try done. destruct (r_obj js), (r_obj js'); try done. cbn in *. apply alikes_app; [apply alikes_refl|done].
  - destruct (r_obj js), (r_obj js'); try done. cbn in *. by apply alikes_app.
Qed.
Lemma r_ptr_alike m js js' : Forall2 (alike m) js js' -> opt2 (opt2 (alikes m)) (r_ptr js) (r_ptr js').
Proof.
  unfold r_ptr. match goal with |- Forall2 _ _ _ -> opt2 _ (?g None js) _ => assert (G : forall js js' acc acc', Forall2 (alike m) js js' ->
    opt2 (alikes m) acc acc' -> opt2 (opt2 (alikes m)) (g acc js) (g acc' js')) end.
  { clear js js'. intros js js' acc acc' H. revert acc acc'. induction H as [|j j' js js' Hj _ IH]; intros acc acc' Ha; [done|].
    assert (Hd : alikes m (default [] acc) (default [] acc')) by (destruct acc, acc'; try done; constructor).
    destruct (alike_cases _ _ _ Hj) as [<-|[(w & w' & s & -> & -> & _)|(l & l' & -> & -> & Hl)]]; [|done|].
    - destruct j; try done; [by apply IH|]. apply IH. cbn. apply alikes_app; [done|apply alikes_refl].
    - apply IH. cbn. by apply alikes_app. }
  intros H. by apply G.
Qed.

Lemma forall2_left (k : bytes) (l l' : list rjson) (P : rjson -> rjson -> Prop) :
  Forall2 (fun v v' => alike (inner false k) v v' /\ P v v') l l' -> Forall2 (alike (inner false k)) l l'.
Proof. intros H. eapply Forall2_impl; [exact H|]. by intros ? ? [? _]. Qed.

Lemma r_str_alike m js js' : Forall2 (alike m) js js' -> r_str js = r_str js'.
Proof. apply settle_alike; [done|]. intros w w' s H H'. by rewrite (str_val_jstr w s), (str_val_jstr w' s). Qed.
Lemma r_bool_alike m js js' : Forall2 (alike m) js js' -> r_bool js = r_bool js'.
Proof. by apply settle_alike. Qed.
Lemma r_int64_alike m js js' : Forall2 (alike m) js js' -> r_int64 js = r_int64 js'.
Proof. by apply settle_alike. Qed.
Lemma r_uint32_alike m js js' : Forall2 (alike m) js js' -> r_uint32 js = r_uint32 js'.
Proof. by apply settle_alike. Qed.
Lemma r_bytes_alike m js js' : Forall2 (alike m) js js' -> r_bytes js = r_bytes js'.
Proof. apply settle_alike; [done|]. intros w w' s H H'. by rewrite (str_val_jstr w s), (str_val_jstr w' s). Qed.

Ltac in_names := apply elem_of_list_In; vm_compute; tauto.
(** One field of a struct: both lists of values give the same. *)
Ltac field_alike H lem :=
  match goal with |- context [given ?k ?l] =>
    match type of H with alikes false l ?l' =>
      let G := fresh in assert (G := forall2_left _ _ _ _ (given_alike l l' k H ltac:(in_names)));
      rewrite (lem _ _ _ G); clear G end end.

Lemma r_hinfo_alike js js' : Forall2 (alike false) js js' -> r_hinfo js = r_hinfo js'.
Proof.
  intros H%r_obj_alike. unfold r_hinfo. destruct (r_obj js) as [l|], (r_obj js') as [l'|]; try done. cbn [opt2] in H. cbn [mbind option_bind].
  do 3 (field_alike H r_str_alike).
  destruct (r_str (given (B"Dir") l')); [|done]. destruct (r_str (given (B"ImportPath") l')); [|done]. destruct (r_str (given (B"Name") l')); [|done].
  cbn [mbind option_bind].
  pose proof (r_obj_alike _ _ _ (forall2_left _ _ _ _ (given_alike l l' (B"Module") H ltac:(in_names)))) as Hm.
  destruct (r_obj (given (B"Module") l)) as [ml|], (r_obj (given (B"Module") l')) as [ml'|]; try done. cbn [mbind option_bind].
  change (alikes false ml ml') in Hm. do 1 (field_alike Hm r_str_alike). do 1 (field_alike Hm r_bool_alike). do 3 (field_alike Hm r_str_alike). done.
Qed.

Lemma r_path_alike js js' : Forall2 (alike false) js js' -> r_path js = r_path js'.
Proof.
  intros H%r_obj_alike. unfold r_path. destruct (r_obj js) as [l|], (r_obj js') as [l'|]; try done. cbn [opt2] in H. cbn [mbind option_bind].
  by do 2 (field_alike H r_str_alike).
Qed.

Lemma literal_eq k l l' : literal false k -> Forall2 (fun v v' => alike (inner false k) v v' /\ (literal false k -> v = v')) l l' -> l = l'.
Proof. intros Hk. induction 1 as [|v v' l l' [_ H] _ IH]; [done|]. by rewrite H, IH. Qed.

Lemma r_info_alike js js' : Forall2 (alike false) js js' -> r_info js = r_info js'.
Proof.
  intros H%r_ptr_alike. unfold r_info. destruct (r_ptr js) as [[ol|]|], (r_ptr js') as [[ol'|]|]; try done. cbn [opt2] in H. cbn [mbind option_bind].
  f_equal. unfold r_details.
  pose proof (r_obj_alike _ _ _ (forall2_left _ _ _ _ (given_alike ol ol' (B"details") H ltac:(in_names)))) as Hm. clear H.
  destruct (r_obj (given _ ol)) as [l|], (r_obj (given _ ol')) as [l'|]; try done. cbn [mbind option_bind].
  change (alikes false l l') in Hm.
  rewrite (literal_eq (B"mod_time") (given (B"mod_time") l) (given (B"mod_time") l')); [|split; [done|in_names]|apply given_alike; [done|in_names]].
  rewrite (literal_eq (B"sys") (given (B"sys") l) (given (B"sys") l')); [|split; [done|in_names]|apply given_alike; [done|in_names]].
  field_alike Hm r_str_alike. field_alike Hm r_int64_alike. field_alike Hm r_uint32_alike. field_alike Hm r_bool_alike. done.
Qed.

Lemma r_file_alike js js' : Forall2 (alike false) js js' -> r_file js = r_file js'.
Proof.
  intros H%r_obj_alike. unfold r_file. destruct (r_obj js) as [l|], (r_obj js') as [l'|]; try done. cbn [opt2] in H. cbn [mbind option_bind].
  pose proof (forall2_left _ _ _ _ (given_alike l l' (B"info") H ltac:(in_names))) as H1. rewrite (r_info_alike _ _ H1).
  pose proof (forall2_left _ _ _ _ (given_alike l l' (B"her") H ltac:(in_names))) as H2. rewrite (r_hinfo_alike _ _ H2).
  pose proof (forall2_left _ _ _ _ (given_alike l l' (B"path") H ltac:(in_names))) as H3. rewrite (r_path_alike _ _ H3).
  pose proof (forall2_left _ _ _ _ (given_alike l l' (B"parent") H ltac:(in_names))) as H4. rewrite (r_path_alike _ _ H4).
  field_alike H r_bytes_alike. done.
Qed.

Lemma r_entries_alike {A} (f : list rjson -> option A) (l l' : list (bytes * rjson)) (acc : gmap bytes A) :
  (forall js js', Forall2 (alike false) js js' -> f js = f js') -> alikes true l l' -> r_entries f acc l = r_entries f acc l'.
Proof.
  intros Hf H. remember true as m eqn:Em. revert acc.
  induction H as [m|m l1 l2 l3 _ IH1 _ IH2|m k1 k2 v l l' H _ IH|m k1 v v' l l' Hl Hv _ IH|m k1 v k2 v' l H|k1 v l H|k1 v l H];
    intros acc; try done; try (subst m; specialize (IH eq_refl)).
  - by rewrite IH1, IH2.
  - cbn [same_key] in H. subst k2. cbn [r_entries]. destruct (f [v]); [apply IH|done].
  - cbn [r_entries]. change (inner true k1) with false in Hv. rewrite (Hf [v] [v']) by (by constructor; [|constructor]). destruct (f [v']); [apply IH|done].
  - subst m. cbn [same_key] in H. cbn [r_entries]. destruct (f [v]), (f [v']); try done. by rewrite insert_commute.
Qed.
Lemma r_map_alike {A} (f : list rjson -> option A) js js' :
  (forall js js', Forall2 (alike false) js js' -> f js = f js') -> Forall2 (alike true) js js' -> r_map f js = r_map f js'.
Proof.
  intros Hf. unfold r_map. match goal with |- _ -> ?g ∅ js = _ => assert (G : forall acc, Forall2 (alike true) js js' -> g acc js = g acc js'); [|apply G] end.
  intros acc H. revert acc. induction H as [|j j' js js' Hj _ IH]; intros acc; [done|].
  destruct (alike_cases _ _ _ Hj) as [<-|[(w & w' & s & -> & -> & _)|(l & l' & -> & -> & Hl)]]; [|done|].
  - destruct j; try done. destruct (r_entries f acc l); [apply IH|done].
  - rewrite (r_entries_alike f l l') by done. destruct (r_entries f acc l'); [apply IH|done].
Qed.

Lemma r_data_alike l l' : alikes false l l' -> r_data l = r_data l'.
Proof.
  intros H. unfold r_data.
  pose proof (forall2_left _ _ _ _ (given_alike l l' (B"infos") H ltac:(in_names))) as H1. rewrite (r_map_alike r_hinfo _ _ r_hinfo_alike H1).
  pose proof (forall2_left _ _ _ _ (given_alike l l' (B"files") H ltac:(in_names))) as H2. rewrite (r_map_alike r_file _ _ r_file_alike H2).
  pose proof (forall2_left _ _ _ _ (given_alike l l' (B"here") H ltac:(in_names))) as H3. by rewrite (r_hinfo_alike _ _ H3).
Qed.

Lemma not_elem_of_names k : existsb (fun x => bool_decide (fold_key k = x)) field_names = false -> fold_key k ∉ field_names.
Proof.
  intros H Hin. assert (Ht : existsb (fun x => bool_decide (fold_key k = x)) field_names = true); [|congruence].
  apply existsb_exists. exists (fold_key k). split; [by apply elem_of_list_In|]. by apply bool_decide_eq_true.
Qed.

(** *** A null where nothing was *)

Lemma given_none k l : (forall k' v, (k', v) ∈ l -> fold_key k' <> fold_key k) -> given k l = [].
Proof.
  intros H. destruct (given k l) as [|v r] eqn:E; [done|]. exfalso.
  assert (Hv : v ∈ given k l) by (rewrite E; left). apply given_elem in Hv as (k' & Hin & Hk). by apply (H k' v).
Qed.
Lemma given_app k l r : given k (l ++ r) = given k l ++ given k r.
Proof. unfold given. by rewrite filter_app, fmap_app. Qed.

(** A decoder for which null is like nothing. *)
Definition nullable {A} (m : bool) (D : list rjson -> option A) : Prop :=
  D [RNull] = D [] /\ forall v v', null_added m v v' -> D [v] = D [v'].

Lemma given_null {A} (D : list rjson -> option A) k l l' :
  null_added false (RObj l) (RObj l') -> nullable (inner false k) D -> fold_key k <> B"sys" -> D (given k l) = D (given k l').
Proof.
  intros H [Hn Hv] Hsys. inversion H as [k0 l0 Hno|m0 k0 v v' l1 l2 Hu Hin]; subst; clear H.
  - rewrite given_same. case_bool_decide as E; [|done]. rewrite (given_none k l); [by cbn [app]; rewrite Hn|]. rewrite <- E. done.
  - destruct Hu as [|[_ Hu]]; [done|]. rewrite !given_app, !given_same. case_bool_decide as E; [|done].
    rewrite (given_none k l1), (given_none k l2).
    + cbn [app]. apply Hv. unfold inner in *. by rewrite E in Hin.
    + rewrite <- E. intros k' w Hw. apply (Hu k' w). apply elem_of_app. by right.
    + rewrite <- E. intros k' w Hw. apply (Hu k' w). apply elem_of_app. by left.
Qed.

Lemma null_added_objs m v v' : null_added m v v' -> exists l l', v = RObj l /\ v' = RObj l'.
Proof. intros H. inversion H; eauto. Qed.

Lemma scalar_nullable {A} m (D : list rjson -> option A) : D [RNull] = D [] -> (forall l, D [RObj l] = None) -> nullable m D.
Proof. intros H1 H2. split; [done|]. intros v v' (l & l' & -> & ->)%null_added_objs. by rewrite !H2. Qed.
Lemma str_nullable m : nullable m r_str. Proof. by apply scalar_nullable. Qed.
Lemma bool_nullable m : nullable m r_bool. Proof. by apply scalar_nullable. Qed.
Lemma int_nullable m : nullable m r_int64. Proof. by apply scalar_nullable. Qed.
Lemma uint_nullable m : nullable m r_uint32. Proof. by apply scalar_nullable. Qed.
Lemma time_nullable m : nullable m r_time. Proof. by apply scalar_nullable. Qed.
Lemma bytes_nullable m : nullable m r_bytes. Proof. by apply scalar_nullable. Qed.

Ltac field_null H lem := match goal with |- context [?D (given ?k ?l)] =>
  match type of H with null_added false (RObj l) (RObj ?l') =>
    rewrite (given_null D k l l' H) by (lazymatch goal with |- _ <> _ => vm_compute; discriminate | |- _ => apply lem end) end end.

(** A struct of which each field can be null. *)
Lemma struct_nullable {A} (F : list (bytes * rjson) -> option A) (D : list rjson -> option A) :
  (forall js, D js = r_obj js ≫= F) -> (forall l l', null_added false (RObj l) (RObj l') -> F l = F l') -> nullable false D.
Proof.
  intros HD HF. split; [by rewrite !HD|]. intros v v' H. destruct (null_added_objs _ _ _ H) as (l & l' & -> & ->).
  rewrite !HD. cbn [r_obj fmap option_fmap option_map mbind option_bind]. rewrite !app_nil_r. by apply HF.
Qed.

Definition module_fields (ml : list (bytes * rjson)) :=
  mp ← r_str (given (B"Path") ml); mm ← r_bool (given (B"Main") ml); md ← r_str (given (B"Dir") ml);
  mg ← r_str (given (B"GoMod") ml); mv ← r_str (given (B"GoVersion") ml); Some (mp, mm, md, mg, mv).
Lemma module_nullable : nullable false (fun js => r_obj js ≫= module_fields).
Proof.
  apply (struct_nullable module_fields); [done|]. intros l l' H. unfold module_fields.
  field_null H str_nullable. field_null H bool_nullable. do 3 field_null H str_nullable. done.
Qed.
Lemma hinfo_nullable : nullable false r_hinfo.
Proof.
  set (F := fun l : list (bytes * rjson) =>
    dir ← r_str (given (B"Dir") l); imp ← r_str (given (B"ImportPath") l); name ← r_str (given (B"Name") l);
    x ← (r_obj (given (B"Module") l) ≫= module_fields);
    let '(mp, mm, md, mg, mv) := x in Some (HInfo dir imp name mp mm md mg mv)).
  apply (struct_nullable F).
  - intros js. unfold r_hinfo, F. destruct (r_obj js) as [l|]; [|done]. cbn [mbind option_bind].
    destruct (r_str (given (B"Dir") l)); [|done]. destruct (r_str (given (B"ImportPath") l)); [|done].
    destruct (r_str (given (B"Name") l)); [|done]. cbn [mbind option_bind].
    destruct (r_obj (given (B"Module") l)) as [ml|]; [|done]. cbn [mbind option_bind]. unfold module_fields.
    destruct (r_str (given (B"Path") ml)); [|done]. destruct (r_bool (given (B"Main") ml)); [|done].
    destruct (r_str (given (B"Dir") ml)); [|done]. destruct (r_str (given (B"GoMod") ml)); [|done].
    by destruct (r_str (given (B"GoVersion") ml)).
  - intros l l' H. unfold F. do 3 field_null H str_nullable.
    pose proof (given_null (fun js => r_obj js ≫= module_fields) (B"Module") l l' H module_nullable ltac:(vm_compute; discriminate)) as E.
    cbv beta in E. by rewrite E.
Qed.
Lemma path_nullable : nullable false r_path.
Proof.
  apply (struct_nullable (fun l => g ← r_str (given (B"Pkg") l); n ← r_str (given (B"Name") l); Some (Path g n))); [done|].
  intros l l' H. by do 2 field_null H str_nullable.
Qed.

Definition detail_fields (l : list (bytes * rjson)) : option details :=
  name ← r_str (given (B"name") l); size ← r_int64 (given (B"size") l); mode ← r_uint32 (given (B"mode") l);
  mt ← r_time (given (B"mod_time") l); dir ← r_bool (given (B"is_dir") l); sys ← r_any (given (B"sys") l);
  Some (Details name size mode mt dir sys).
Lemma given_null_sys l l' : null_added false (RObj l) (RObj l') -> r_any (given (B"sys") l) = r_any (given (B"sys") l').
Proof.
  intros H. inversion H as [k0 l0 Hno|m0 k0 v v' l1 l2 Hu Hin]; subst; clear H.
  - rewrite given_same. case_bool_decide as E; [|done]. rewrite (given_none (B"sys") l); [done|]. rewrite <- E. done.
  - destruct Hu as [|[Hs _]]; [done|]. rewrite !given_app, !given_same. rewrite bool_decide_eq_false_2; [done|exact Hs].
Qed.
Lemma details_nullable : nullable false (fun js => r_obj js ≫= detail_fields).
Proof.
  apply (struct_nullable detail_fields); [done|]. intros l l' H. unfold detail_fields. rewrite (given_null_sys _ _ H).
  field_null H str_nullable. field_null H int_nullable. field_null H uint_nullable. field_null H time_nullable. field_null H bool_nullable. done.
Qed.
Lemma info_nullable : nullable false r_info.
Proof.
  split; [done|]. intros v v' H. destruct (null_added_objs _ _ _ H) as (l & l' & -> & ->).
  unfold r_info, r_ptr. cbn [default from_option id app mbind option_bind]. f_equal.
  exact (given_null (fun js => r_obj js ≫= detail_fields) (B"details") l l' H details_nullable ltac:(vm_compute; discriminate)).
Qed.
Lemma file_nullable : nullable false r_file.
Proof.
  apply (struct_nullable (fun l => info ← r_info (given (B"info") l); her ← r_hinfo (given (B"her") l); pt ← r_path (given (B"path") l);
    data ← r_bytes (given (B"data") l); par ← r_path (given (B"parent") l); Some (JFile info her pt data par))); [done|].
  intros l l' H. field_null H info_nullable. field_null H hinfo_nullable. field_null H path_nullable. field_null H bytes_nullable.
  by field_null H path_nullable.
Qed.
Lemma map_nullable {A} (f : list rjson -> option A) : nullable false f -> nullable true (r_map f).
Proof.
  intros [_ Hf]. split; [done|]. intros v v' H. destruct (null_added_objs _ _ _ H) as (l & l' & -> & ->).
  inversion H as [|m0 k0 w w' l1 l2 _ Hin]; subst; clear H. unfold r_map.
  assert (E : forall l1 acc, r_entries f acc (l1 ++ (k0, w) :: l2) = r_entries f acc (l1 ++ (k0, w') :: l2)).
  { clear l1. induction l1 as [|[k x] l1 IH]; intros acc; cbn [app r_entries].
    - change (inner true k0) with false in Hin. by rewrite (Hf w w').
    - destruct (f [x]); [apply IH|done]. }
  by rewrite E.
Qed.
Lemma r_data_null l l' : null_added false (RObj l) (RObj l') -> r_data l = r_data l'.
Proof.
  intros H. unfold r_data.
  rewrite (given_null (r_map r_hinfo) (B"infos") l l' H) by (lazymatch goal with |- _ <> _ => vm_compute; discriminate | |- _ => apply (map_nullable r_hinfo), hinfo_nullable end).
  rewrite (given_null (r_map r_file) (B"files") l l' H) by (lazymatch goal with |- _ <> _ => vm_compute; discriminate | |- _ => apply (map_nullable r_file), file_nullable end).
  rewrite (given_null r_hinfo (B"here") l l' H) by (lazymatch goal with |- _ <> _ => vm_compute; discriminate | |- _ => apply hinfo_nullable end). done.
Qed.

(** ** C120: any spelling of a payload's JSON loads the same *)

Definition loads_same (parse : resolver) (b b' : bytes) : Prop :=
  (forall order, unmarshal_json parse order b = unmarshal_json parse order b') /\
  forall o, raw_result parse b o <-> raw_result parse b' o.

Lemma loads_same_raw parse b b' j j' :
  raw_text b j -> raw_text b' j' ->
  j = j' \/ (exists l l', j = RObj l /\ j' = RObj l' /\ r_data l = r_data l') \/ (exists w w', j = RStr w /\ j' = RStr w') -> loads_same parse b b'.
Proof.
  intros H%read_raw_iff H'%read_raw_iff Hj. unfold loads_same, unmarshal_json, raw_result. rewrite H, H'.
  destruct Hj as [->|[(l & l' & -> & -> & E)|(w & w' & -> & ->)]]; [done| |done]. by rewrite E.
Qed.

(** Only the text of a JSON object loads at all ... *)
Theorem C120_only parse b p : raw_result parse b (Done p) -> exists l, raw_text b (RObj l).
Proof. unfold raw_result. destruct (read_raw b) as [[]|] eqn:E; try done. intros _. exists l. by apply read_raw_iff. Qed.

(** ... which is what MarshalJSON writes. *)
Theorem C120_written m fl il :
  exists i f h, raw_text (marshal_json m fl il) (RObj [(B"infos", i); (B"files", f); (B"here", h)]) /\
    json_text (marshal_json m fl il) (clean_json (j_edata (EData (range_infos il) (range_files m fl) (m_here m)))).
Proof.
  unfold marshal_json. set (y := EData (range_infos il) (range_files m fl) (m_here m)).
  exists (raw_of (j_map j_info (y_infos y))), (raw_of (j_map j_file (y_files y))), (raw_of (j_info (y_here y))).
  split; [|apply read_json_iff, json_round]. apply read_raw_iff. rewrite read_raw_write. unfold j_edata. cbn [raw_of map fst snd].
  by repeat match goal with |- context [sanitize (B ?s)] => change (sanitize (B s)) with (B s) end.
Qed.

(** Full statement: two texts with the same JSON value load the same.  Proved
    for all ways to write the text: white space, spellings of keys and strings,
    order of members, letter case of the fields' names, unknown members; but
    mod_time has to be spelled alike (refuted below otherwise), and so has sys
    (its order is kept in this model; Go makes a map of it). *)
Theorem C120_same_partial parse b b' j j' :
  raw_text b j -> raw_text b' j' -> alike false j j' -> loads_same parse b b'.
Proof.
  intros H H' Hj. apply (loads_same_raw parse b b' j j' H H').
  destruct (alike_cases _ _ _ Hj) as [->|[(w & w' & s & -> & -> & _)|(l & l' & -> & -> & Hl)]]; [by left|right; right; eauto|].
  right; left. exists l, l'. split_and!; [done|done|by apply r_data_alike].
Qed.

(** The time of a file, spelled with an escape, makes the payload unreadable. *)
Definition time_pre : bytes := B"{""files"":{""app:/a"":{""info"":{""details"":{""name"":""a"",""mod_time"":""".
Definition time_post : bytes := B"""}}}},""here"":{""Dir"":""/src/app"",""ImportPath"":""app"",""Module"":{""Path"":""app"",""Dir"":""/src/app""}}}".
Theorem C120_time_refuted :
  exists pre post w w' s p, jstr w s /\ jstr w' s /\
    raw_result here_parse (pre ++ w ++ post) (Done p) /\ size (g_files p) = 1 /\
    forall o, raw_result here_parse (pre ++ w' ++ post) o -> o = Failed bad_json.
Proof.
  assert (Hw : forall w s, unesc (w ++ [quote]) = Some (s, []) -> jstr w s).
  { intros w s H. apply (read_jstr _ _ _ _ (le_n _)) in H as (u & E & H). by apply app_inj_tail in E as [-> _]. }
  assert (G : exists p, raw_result here_parse (time_pre ++ B"2020-05-06T07:08:09Z" ++ time_post) (Done p) /\ size (g_files p) = 1)
    by (apply raw_run_done; by vm_compute).
  destruct G as (p & Hp & Hs).
  exists time_pre, time_post, (B"2020-05-06T07:08:09Z"), (B"2020-05-06T07:08:09\u005a"), (B"2020-05-06T07:08:09Z"), p.
  split; [apply Hw; by vm_compute|]. split; [apply Hw; by vm_compute|]. split; [done|]. split; [done|].
  intros o. unfold raw_result.
  assert (E : match read_raw (time_pre ++ B"2020-05-06T07:08:09\u005a" ++ time_post) with Some (RObj l) => r_data l = None | _ => False end) by by vm_compute.
  destruct (read_raw _) as [[]|]; try done. by rewrite E.
Qed.

(* Two texts that say the same in different ways. *)
Definition odd_text : bytes :=
  B" { ""note"":[1.5e3], ""HERE"" : {""Dir"":""\/src/app"",""ImportPath"":""app"",""Name"":""main"",""Module"":{""Path"":""app"",""Dir"":""/src/app""}} ,""files"":{""app:/a"":{""info"":{""details"":{""name"":""a""}},""data"":""eHl6""}}}".
Lemma jstr_computed w s : unesc (w ++ [quote]) = Some (s, []) -> jstr w s.
Proof. intros H. apply (read_jstr _ _ _ _ (le_n _)) in H as (u & E & H). by apply app_inj_tail in E as [-> _]. Qed.
Lemma free_key k : existsb (fun x => bool_decide (fold_key k = x)) [B"mod_time"; B"sys"] = false -> ~ literal false k.
Proof.
  intros H [_ Hk]. assert (Ht : existsb (fun x => bool_decide (fold_key k = x)) [B"mod_time"; B"sys"] = true); [|congruence].
  apply existsb_exists. exists (fold_key k). split; [by apply elem_of_list_In|]. by apply bool_decide_eq_true.
Qed.
Example C120_ex :
  exists j j', raw_text full_text j /\ raw_text odd_text j' /\ alike false j j' /\
    match raw_run here_parse odd_text with Done p => map_to_list (n_data <$> g_files p) = [(Path (B"app") (B"/a"), B"xyz")] | _ => False end.
Proof.
  let x := eval vm_compute in (read_raw full_text) in match x with Some ?j => exists j end.
  let x := eval vm_compute in (read_raw odd_text) in match x with Some ?j => exists j end.
  split; [apply read_raw_iff; by vm_compute|]. split; [apply read_raw_iff; by vm_compute|]. split; [|by vm_compute].
  apply al_obj. eapply als_trans; [|apply als_add, not_elem_of_names; by vm_compute].
  eapply als_trans; [apply als_swap; vm_compute; discriminate|].
  eapply als_trans; [|apply als_cons with (k := B"here"); [by vm_compute|apply alikes_refl]].
  apply als_value; [apply free_key; by vm_compute| |apply alikes_refl]. apply al_obj.
  apply als_value; [apply free_key; by vm_compute| |apply alikes_refl]. apply al_str with (B"/src/app"); apply jstr_computed; by vm_compute.
Qed.

(** ** C121: null for a field of a struct is like leaving the field out *)

Theorem C121_null parse b b' j j' :
  raw_text b j -> raw_text b' j' -> null_added false j j' -> loads_same parse b b'.
Proof.
  intros H H' Hj. apply (loads_same_raw parse b b' j j' H H'). right; left.
  destruct (null_added_objs _ _ _ Hj) as (l & l' & -> & ->). exists l, l'. split_and!; [done|done|by apply r_data_null].
Qed.

(** What is left out is zero; for the time that is the year 1. *)
Theorem C121_zero l f :
  r_file [RObj l] = Some f ->
  (forall k v, (k, v) ∈ l -> fold_key k = B"info" -> exists ol, v = RObj ol /\ forall k' v', (k', v') ∈ ol -> fold_key k' <> B"details") ->
  match n_info f with
  | None => forall k v, (k, v) ∈ l -> fold_key k <> B"info"
  | Some d => d_name d = [] /\ d_size d = 0%Z /\ d_mode d = 0%N /\ d_isdir d = false /\ d_sys d = JNull /\
      format_time (d_mtime d) = B"0001-01-01T00:00:00Z"
  end.
Proof.
  intros Hf H. apply r_file_infos in Hf. unfold r_info in Hf.
  assert (Hall : forall v, v ∈ given (B"info") l -> exists ol, v = RObj ol /\ forall k' v', (k', v') ∈ ol -> fold_key k' <> B"details").
  { intros v (k & Hin & Hk)%given_elem. by apply (H k v). }
  assert (Hp : match r_ptr (given (B"info") l) with
               | Some None => given (B"info") l = []
               | Some (Some ol) => forall k' v', (k', v') ∈ ol -> fold_key k' <> B"details"
               | None => False end).
  { unfold r_ptr. revert Hall. generalize (given (B"info") l). intros js.
    match goal with |- _ -> match ?g None js with _ => _ end => assert (G : forall js acc,
      (forall v, v ∈ js -> exists ol, v = RObj ol /\ forall k' v', (k', v') ∈ ol -> fold_key k' <> B"details") ->
      (forall k' v', (k', v') ∈ default [] acc -> fold_key k' <> B"details") ->
      match g acc js with
      | Some None => js = [] /\ acc = None
      | Some (Some ol) => forall k' v', (k', v') ∈ ol -> fold_key k' <> B"details"
      | None => False end) end.
    { clear. induction js as [|j js IH]; intros acc Hj Ha; [by destruct acc|].
      destruct (Hj j) as (ol & -> & Hol); [by left|]. pose proof (IH (Some (default [] acc ++ ol))) as G.
      match goal with |- match ?g with _ => _ end => destruct g as [[x|]|] eqn:E end.
      - apply G; [intros v Hv; apply Hj; by right|]. intros k' v' [Hk|Hk]%elem_of_app; [by apply (Ha k' v')|by apply (Hol k' v')].
      - destruct G as [_ G]; [intros v Hv; apply Hj; by right| |done]. intros k' v' [Hk|Hk]%elem_of_app; [by apply (Ha k' v')|by apply (Hol k' v')].
      - apply G; [intros v Hv; apply Hj; by right|]. intros k' v' [Hk|Hk]%elem_of_app; [by apply (Ha k' v')|by apply (Hol k' v')]. }
    intros Hj. specialize (G js None Hj). cbn [default from_option] in G.
    match goal with |- match ?g with _ => _ end => destruct g as [[x|]|] end.
    - apply G. intros k' v' Hk. by apply elem_of_nil in Hk.
    - apply G. intros k' v' Hk. by apply elem_of_nil in Hk.
    - apply G. intros k' v' Hk. by apply elem_of_nil in Hk. }
  destruct (r_ptr (given (B"info") l)) as [[ol|]|]; [| |done]; cbn [mbind option_bind] in Hf.
  - unfold r_details in Hf. rewrite (given_none (B"details") ol) in Hf by exact Hp.
    cbn in Hf. injection Hf as <-. split_and!; done.
  - injection Hf as <-. intros k v Hin Hk. assert (Hv : v ∈ given (B"info") l) by (apply given_elem; eauto).
    rewrite Hp in Hv. by apply elem_of_nil in Hv.
Qed.

Example C121_ex :
  exists j j', raw_text (B"{""files"":{""app:/b"":{""data"":""eA==""}}}") j /\
    raw_text (B"{""files"":{""app:/b"":{""Info"":null,""data"":""eA==""}}}") j' /\ null_added false j j' /\
    r_file [RObj [(B"info", RObj [])]] = Some (JFile (Some (Details [] 0 0 zero_time false JNull)) (HInfo [] [] [] [] false [] [] []) zero_path [] zero_path).
Proof.
  let x := eval vm_compute in (read_raw (B"{""files"":{""app:/b"":{""data"":""eA==""}}}")) in match x with Some ?j => exists j end.
  let x := eval vm_compute in (read_raw (B"{""files"":{""app:/b"":{""Info"":null,""data"":""eA==""}}}")) in match x with Some ?j => exists j end.
  split; [apply read_raw_iff; by vm_compute|]. split; [apply read_raw_iff; by vm_compute|]. split; [|by vm_compute].
  apply (na_inside false _ _ _ [] []). { right. split; [by vm_compute|]. intros k v Hin. by apply elem_of_nil in Hin. }
  change (inner false _) with true. apply (na_inside true _ _ _ [] []); [by left|]. change (inner true _) with false.
  apply na_here. intros k v Hin. apply elem_of_list_singleton in Hin as [= -> ->]. by vm_compute.
Qed.

(** ** C122: a file's data is standard base64 *)

Definition b64_alphabet : bytes := B"ABCDEFGHIJKLMNOPQRSTUVWXYZabcdefghijklmnopqrstuvwxyz0123456789+/".
Definition sextet (c : ascii) (n : N) : Prop := b64_alphabet !! N.to_nat n = Some c.
Definition octet (c : ascii) : N := N_of_ascii c.

(** RFC 4648: groups of four letters for three bytes, the last one filled up
    with "=".  The bits of the last letter that no byte needs are not looked at. *)
Inductive base64 : bytes -> bytes -> Prop :=
| b64_nil : base64 [] []
| b64_one a b x y u r : sextet a x -> sextet b y -> (x * 64 + y = octet u * 16 + r)%N -> (r < 16)%N ->
    base64 [a; b; "="%char; "="%char] [u]
| b64_two a b c x y z u v r : sextet a x -> sextet b y -> sextet c z ->
    ((x * 64 + y) * 64 + z = (octet u * 256 + octet v) * 4 + r)%N -> (r < 4)%N ->
    base64 [a; b; c; "="%char] [u; v]
| b64_more a b c d x y z w u v t s o : sextet a x -> sextet b y -> sextet c z -> sextet d w ->
    (((x * 64 + y) * 64 + z) * 64 + w = (octet u * 256 + octet v) * 256 + octet t)%N ->
    base64 s o -> base64 (a :: b :: c :: d :: s) (u :: v :: t :: o).

Lemma sextet_val c n : sextet c n <-> b64_val c = Some n.
Proof.
  unfold sextet. split.
  - intros H. assert (Hn : N.to_nat n < 64) by (apply lookup_lt_Some in H; by vm_compute in H).
    assert (Hs : (n < 64)%N) by lia. apply small_enum in Hs. change (N.to_nat 64) with 64 in Hs. simpl in Hs.
    repeat (apply elem_of_cons in Hs as [->|Hs]); try (by apply elem_of_nil in Hs); vm_compute in H; injection H as <-; by vm_compute.
  - assert (Hb : match b64_val c with Some n => bool_decide (b64_alphabet !! N.to_nat n = Some c) = true | None => True end)
      by (by destruct c as [[] [] [] [] [] [] [] []]).
    intros E. rewrite E in Hb. by apply bool_decide_eq_true in Hb.
Qed.
Lemma sextet_lt c n : b64_val c = Some n -> (n < 64)%N.
Proof. intros H%sextet_val. unfold sextet in H. apply lookup_lt_Some in H. change (length b64_alphabet) with 64 in H. lia. Qed.
Lemma sextet_not_eq c n : b64_val c = Some n -> c <> "="%char.
Proof. by intros H ->. Qed.
Lemma octet_eq n c : (n < 256)%N -> n = octet c -> ascii_of_N n = c.
Proof. intros _ ->. apply ascii_N_embedding. Qed.
Lemma octet_of n : (n < 256)%N -> octet (ascii_of_N n) = n.
Proof. apply N_ascii_embedding. Qed.
Lemma octet_lt c : (octet c < 256)%N.
Proof. apply ascii_lt_256. Qed.

Lemma split_n (n k : N) : (0 < k)%N -> exists q r, (n / k = q /\ n mod k = r /\ n = k * q + r /\ r < k)%N.
Proof. intros H. exists (n / k)%N, (n mod k)%N. split_and!; [done|done|apply N.div_mod; lia|apply N.mod_lt; lia]. Qed.
Ltac refold := repeat match goal with |- context [match ?x with 0%N => 0%N | N.pos q => N.pos (4 * q) end] => change (match x with 0%N => 0%N | N.pos q => N.pos (4 * q) end) with (4 * x)%N end.
Ltac quot n k := let E1 := fresh in let E2 := fresh in let q := fresh "q" in let r := fresh "r" in destruct (split_n n k) as (q & r & E1 & E2 & ? & ?); [done|]; rewrite ?E1, ?E2; clear E1 E2.
Lemma groups_base64 n s o : length s <= n -> b64_groups s = Some o <-> base64 s o.
Proof.
  revert s o. induction n as [|n IH]; intros s o Hn.
  { destruct s; [|simpl in Hn; lia]. cbn. split; [intros [= <-]; constructor|by inversion 1]. }
  split.
  - destruct s as [|a [|b [|c [|d s]]]]; try done; [intros [= <-]; constructor|]. cbn [b64_groups].
    destruct (b64_val a) as [x|] eqn:Ea; [|done]. destruct (b64_val b) as [y|] eqn:Eb; [|done].
    pose proof (sextet_lt _ _ Ea) as Hx. pose proof (sextet_lt _ _ Eb) as Hy.
    destruct (b64_val c) as [z|] eqn:Ec.
    + pose proof (sextet_lt _ _ Ec) as Hz. destruct (b64_val d) as [w|] eqn:Ed.
      * pose proof (sextet_lt _ _ Ed) as Hw. destruct (b64_groups s) as [r|] eqn:Es; [|done]. intros [= <-].
        apply b64_more with x y z w; try (by apply sextet_val); [|apply IH; [simpl in Hn; lia|done]].
        rewrite !octet_of by (by apply N.mod_lt). refold. quot y 16%N. quot z 4%N. rewrite !N.mod_small by lia. lia.
      * destruct (Ascii.eqb_spec d c_eq) as [->|]; [|done]. destruct s; [|done]. cbn [andb]. intros [= <-].
        apply b64_two with x y z (z mod 4)%N; try (by apply sextet_val); [rewrite !octet_of by (by apply N.mod_lt)|]; refold;
          quot y 16%N; quot z 4%N; rewrite ?N.mod_small by lia; lia.
    + destruct (Ascii.eqb_spec c c_eq) as [->|]; [|done]. destruct (Ascii.eqb_spec d c_eq) as [->|]; [|done]. destruct s; [|done].
      cbn [andb]. intros [= <-]. apply b64_one with x y (y mod 16)%N; try (by apply sextet_val); [rewrite !octet_of by (by apply N.mod_lt)|]; refold;
        quot y 16%N; rewrite ?N.mod_small by lia; lia.
  - intros H. destruct H as [|a b x y u r Ha Hb E Hr|a b c x y z u v r Ha Hb Hc E Hr|a b c d x y z w u v t s o Ha Hb Hc Hd E Hs]; [done|..].
    all: apply sextet_val in Ha, Hb; try apply sextet_val in Hc; try apply sextet_val in Hd; cbn [b64_groups]; rewrite Ha, Hb; try rewrite Hc; try rewrite Hd.
    all: pose proof (sextet_lt _ _ Ha); pose proof (sextet_lt _ _ Hb); try pose proof (sextet_lt _ _ Hc); try pose proof (sextet_lt _ _ Hd).
    all: refold; pose proof (octet_lt u); try pose proof (octet_lt v); try pose proof (octet_lt t).
    + change (b64_val "="%char) with (@None N). change (Ascii.eqb "="%char c_eq) with true. cbn [andb]. f_equal. f_equal. apply octet_eq; euclid.
    + change (b64_val "="%char) with (@None N). change (Ascii.eqb "="%char c_eq) with true. cbn [andb]. f_equal. f_equal; [|f_equal]; apply octet_eq; euclid.
    + apply IH in Hs; [|simpl in Hn; lia]. rewrite Hs. f_equal. f_equal; [|f_equal; [|f_equal]]; apply octet_eq; euclid.
Qed.

(** Line breaks in the text do not count. *)
Definition no_break (c : ascii) : Prop := c <> ascii_of_N 13 /\ c <> ascii_of_N 10.
Theorem C122_base64 w t d :
  jstr w t -> r_bytes [RStr w] = Some d <-> base64 (filter no_break (t : list ascii)) d.
Proof.
  assert (Hf : forall t : list ascii, skip_breaks t = filter no_break t).
  { clear t. induction t as [|c t IH]; [done|]. cbn [skip_breaks].
    assert (Hc : ((N_of_ascii c =? 13) || (N_of_ascii c =? 10))%N = negb (bool_decide (no_break c))) by (by destruct c as [[] [] [] [] [] [] [] []]).
    rewrite Hc, IH. case_bool_decide; [by rewrite filter_cons_True|by rewrite filter_cons_False]. }
  intros Hw. unfold r_bytes. cbn [settle]. rewrite (str_val_jstr w t Hw). cbn [mbind option_bind].
  unfold b64_decode. rewrite Hf, <- (groups_base64 _ _ _ (le_n _)). by destruct (b64_groups _).
Qed.

(** MarshalJSON writes it so. *)
Theorem C122_written d : base64 (b64_encode d) d.
Proof. apply (groups_base64 _ _ _ (le_n _)), b64_groups_round. Qed.

Example C122_ex :
  r_bytes [RStr (B"eH\nl6")] = Some (B"xyz") /\ r_bytes [RStr (B"eHl:")] = None /\ r_bytes [RStr (B"eHk")] = None /\
  r_bytes [RStr (B"eHl=")] = Some (B"xy") /\ r_bytes [RArr [RNum (B"120"); RNum (B"121")]] = Some (B"xy").
Proof. by vm_compute. Qed.

(** ** C65: what UTF-8 is *)

(** The strings that survive JSON (C65_text_survives) are the sequences of
    Unicode scalar values in the encoding of RFC 3629. *)
Theorem C65_utf8 s : utf8 s <-> exists rs, Forall scalar rs /\ s = concat (utf8_form <$> rs).
Proof. apply utf8_forms. Qed.

(** The JSON texts this development reads are those of RFC 8259. *)
Theorem C65_json t j : read_json t = Some j <-> json_text t j.
Proof. apply read_json_iff. Qed.

Example C65_grammar_ex : utf8_form 8364 = ascii_of_N <$> [226; 130; 172]%N /\ scalar 8364 /\ json_text (B" [1 , ""€""]") (JArr [JNum 1; JStr (utf8_form 8364)]).
Proof. split; [by vm_compute|]. split; [unfold scalar; lia|]. apply read_json_iff. by vm_compute. Qed.
