(** Theorems: the lexical path functions do what their documentation says, and
    cleaning a path does not change where it leads (C141). *)
From Verif Require Import Bytes GoPath Here GoTypes WalkSpec Disk.

(** ** Specification *)

(** The elements of a path: what stands between its slashes. *)
Inductive listed : list bytes -> bytes -> Prop :=
| l_one w : slash ∉ w -> listed [w] w
| l_more w ws s : slash ∉ w -> listed ws s -> listed (w :: ws) (w ++ slash :: s).

Definition rooted (s : bytes) : Prop := exists t, s = slash :: t.
Definition a_name (w : bytes) : Prop := w <> [] /\ w <> B"." /\ w <> B"..".

(** The rules in the documentation of path.Clean, "applied iteratively until no
    further processing can be done". *)
Inductive rule (r : bool) : list bytes -> list bytes -> Prop :=
| r_slashes xs ys : rule r (xs ++ [] :: ys) (xs ++ ys)
| r_dot xs ys : rule r (xs ++ B"." :: ys) (xs ++ ys)
| r_inner xs w ys : a_name w -> rule r (xs ++ w :: B".." :: ys) (xs ++ ys)
| r_root ys : r = true -> rule r (B".." :: ys) ys.
Definition processed (r : bool) (ws : list bytes) : Prop := forall vs, ~ rule r ws vs.

(** The path with these elements: "." if there is nothing left. *)
Inductive spelled : bool -> list bytes -> bytes -> Prop :=
| sp_dot : spelled false [] (B".")
| sp_rel ws s : listed ws s -> spelled false ws s
| sp_root : spelled true [] (B"/")
| sp_abs ws s : listed ws s -> spelled true ws (slash :: s).

(** Where a path leads, element by element, in a tree without symbolic links:
    the nodes from the root to where one is, the last one first.  Only in a
    directory can one go on, even to ".". *)
Fixpoint go (at_ : list node) (ws : list bytes) : option (list node) :=
  match ws, at_ with
  | [], _ => Some at_
  | w :: ws, NDir _ cs :: up =>
      if decide (w = [] \/ w = B".") then go at_ ws
      else if decide (w = B"..") then go (match up with [] => at_ | _ => up end) ws
      else match child w cs with Some c => go (c :: at_) ws | None => None end
  | _, _ => None
  end.
Definition leads (fs : node) (ws : list bytes) (n : node) : Prop := exists up, go [fs] ws = Some (n :: up).

(** ** Proofs *)

Lemma listed_split s : listed (split_slash s) s.
Proof.
  induction s as [|c s IH]; [constructor; apply not_elem_of_nil|]. cbn [split_slash]. destruct (Ascii.eqb_spec c slash) as [->|Hc].
  - apply (l_more [] _ s); [apply not_elem_of_nil|done].
  - inversion IH as [w Hw E1 E2|w ws s' Hw H E1 E2].
    + constructor. apply not_elem_of_cons. split; [congruence|done].
    + apply (l_more (c :: w)); [|done]. apply not_elem_of_cons. split; [congruence|done].
Qed.
Lemma listed_is ws s : listed ws s -> ws = split_slash s.
Proof.
  induction 1 as [w Hw|w ws s Hw _ IH]; [by rewrite split_slash_noslash|]. by rewrite split_slash_app, IH.
Qed.
Lemma listed_join ws s : listed ws s -> s = join_slash ws.
Proof. intros H. rewrite (listed_is ws s H). symmetry. apply join_split. Qed.
Lemma join_listed ws : ws <> [] -> Forall (fun w => slash ∉ w) ws -> listed ws (join_slash ws).
Proof. intros Hn HF. rewrite <- (split_join ws Hn HF) at 1. apply listed_split. Qed.

Lemma step_skip r out w : w = [] \/ w = B"." -> clean_step r out w = out.
Proof. intros [->| ->]; done. Qed.
Lemma step_name r out w : a_name w -> clean_step r out w = w :: out.
Proof.
  intros (H1 & H2 & H3). unfold clean_step. rewrite (bool_decide_eq_false_2 (w = [])), (bool_decide_eq_false_2 (w = dot)), (bool_decide_eq_false_2 (w = dotdot)) by done. done.
Qed.
Lemma name_cases w : w = [] \/ w = B"." \/ w = B".." \/ a_name w.
Proof.
  unfold a_name. destruct (decide (w = [])); [auto|]. destruct (decide (w = B".")); [auto|]. destruct (decide (w = B"..")); [auto|]. right; right; right. done.
Qed.
Definition cleaned (r : bool) (ws : list bytes) : list bytes := rev (fold_left (clean_step r) ws []).
Lemma rule_cleaned r ws vs : rule r ws vs -> cleaned r ws = cleaned r vs.
Proof.
  unfold cleaned. intros [xs ys|xs ys|xs w ys Hw|ys ->].
  - by rewrite !fold_left_app.
  - by rewrite !fold_left_app.
  - rewrite !fold_left_app. cbn [fold_left]. rewrite (step_name r _ w) by done. destruct Hw as (_ & _ & H3).
    set (out := fold_left (clean_step r) xs []). change (clean_step r (w :: out) (B"..")) with (if bool_decide (w = dotdot) then dotdot :: w :: out else out).
    by rewrite bool_decide_eq_false_2.
  - done.
Qed.
(** Results: names, after leading ".." if not rooted. *)
Definition result_of (r : bool) (ws : list bytes) : Prop :=
  exists k ns, ws = replicate k (B"..") ++ ns /\ Forall a_name ns /\ (r = true -> k = 0).
Lemma up_elem k : forall x, x ∈ replicate k (B"..") -> x = B"..".
Proof. intros x H. by apply elem_of_replicate in H as [-> _]. Qed.
Lemma result_processed r ws : result_of r ws -> processed r ws.
Proof.
  intros (k & ns & E & Hns & Hk) vs H. rewrite Forall_forall in Hns.
  assert (Hin : forall x, x ∈ replicate k (B"..") ++ ns -> x = B".." \/ a_name x).
  { intros x [Hx|Hx]%elem_of_app; [left; by eapply up_elem|right; by apply Hns]. }
  destruct H as [xs ys|xs ys|xs w ys Hw|ys Hr].
  - assert (Hx : [] ∈ replicate k (B"..") ++ ns) by (rewrite <- E; apply elem_of_app; right; left). apply Hin in Hx as [Hx|(Hx & _)]; done.
  - assert (Hx : B"." ∈ replicate k (B"..") ++ ns) by (rewrite <- E; apply elem_of_app; right; left). apply Hin in Hx as [Hx|(_ & Hx & _)]; done.
  - (* a name is followed by names only *)
    clear Hin Hk. revert xs E. induction k as [|k IH]; intros xs E.
    + cbn [replicate app] in E. assert (Hx : B".." ∈ ns) by (rewrite <- E; apply elem_of_app; right; right; left). apply Hns in Hx as (_ & _ & Hx). done.
    + destruct xs as [|x xs]; cbn [replicate app] in E; injection E as E1 E2; [destruct Hw as (_ & _ & Hw); done|]. by eapply IH.
  - rewrite Hk in E by done. cbn [replicate app] in E. assert (Hx : B".." ∈ ns) by (rewrite <- E; left). apply Hns in Hx as (_ & _ & Hx). done.
Qed.
Lemma cleaned_result r ws : result_of r (cleaned r ws).
Proof.
  unfold cleaned. assert (G : forall ws out, result_of r (rev out) -> result_of r (rev (fold_left (clean_step r) ws out))).
  2: { apply G. exists 0, []. split; [done|]. split; [constructor|done]. }
  clear ws. induction ws as [|w ws IH]; intros out Ho; [done|]. cbn [fold_left]. apply IH. clear IH ws.
  destruct (name_cases w) as [->|[->|[->|Hw]]]; [done|done| |].
  - destruct Ho as (k & ns & E & Hns & Hk). destruct out as [|t out].
    + change (clean_step r [] (B"..")) with (if r then [] else [B".."]). destruct r; [by exists 0, []|]. exists 1, []. split; [done|]. split; [constructor|done].
    + change (clean_step r (t :: out) (B"..")) with (if bool_decide (t = dotdot) then dotdot :: t :: out else out). cbn [rev] in E.
      destruct ns as [|x ns _] using rev_ind.
      * rewrite app_nil_r in E. destruct k as [|k]; [by destruct (rev out)|].
        assert (Et : t = B".."). { apply (up_elem (S k)). rewrite <- E. apply elem_of_app. right. left. }
        rewrite bool_decide_eq_true_2 by done. exists (S (S k)), []. split; [|split; [constructor|intros Hr; by apply Hk in Hr]].
        cbn [rev]. rewrite E, app_nil_r. change [dotdot] with (replicate 1 (B"..")). rewrite <- replicate_add. f_equal. lia.
      * rewrite app_assoc in E. apply app_inj_tail in E as [E ->]. apply Forall_app in Hns as [Hns Hx]. inversion Hx as [|? ? (_ & _ & Hx') _]; subst.
        rewrite bool_decide_eq_false_2 by done. exists k, ns. done.
  - rewrite step_name by done. destruct Ho as (k & ns & E & Hns & Hk). exists k, (ns ++ [w]). cbn [rev]. rewrite E, <- app_assoc.
    split; [done|]. split; [|done]. apply Forall_app. split; [done|]. by constructor.
Qed.
Lemma result_cleaned r ws : result_of r ws -> cleaned r ws = ws.
Proof.
  intros (k & ns & -> & Hns & Hk). unfold cleaned. rewrite fold_left_app.
  assert (E : fold_left (clean_step r) (replicate k (B"..")) [] = replicate k (B"..")).
  { destruct r; [by rewrite Hk|]. clear. assert (G : forall j k, fold_left (clean_step false) (replicate k (B"..")) (replicate j (B"..")) = replicate (k + j) (B"..")).
    { intros j k'. revert j. induction k' as [|k' IH]; intros j; [done|]. cbn [replicate fold_left].
      assert (E : clean_step false (replicate j (B"..")) (B"..") = replicate (S j) (B"..")) by (by destruct j). rewrite E, IH. f_equal. lia. }
    specialize (G 0 k). cbn [replicate] in G. rewrite G. f_equal. lia. }
  rewrite E. assert (G : forall ns out, Forall a_name ns -> fold_left (clean_step r) ns out = rev ns ++ out).
  { clear. induction ns as [|w ns IH]; intros out H; [done|]. apply Forall_cons in H as [Hw H]. cbn [fold_left rev]. rewrite step_name, IH by done. by rewrite <- app_assoc. }
  rewrite G by done. rewrite rev_app_distr, rev_involutive. f_equal. clear. induction k as [|k IH]; [done|]. cbn [replicate rev]. rewrite IH.
  change [B".."] with (replicate 1 (B"..")). rewrite <- replicate_add. replace (k + 1) with (S k) by lia. done.
Qed.
(** Every list can be processed to the end. *)
Lemma reaches r ws : rtc (rule r) ws (cleaned r ws).
Proof.
  assert (G : forall ws out, result_of r (rev out) -> rtc (rule r) (rev out ++ ws) (rev (fold_left (clean_step r) ws out))).
  2: { apply (G ws []). exists 0, []. split; [done|]. split; [constructor|done]. }
  clear ws. induction ws as [|w ws IH]; intros out Ho; [cbn [fold_left]; by rewrite app_nil_r|]. cbn [fold_left].
  assert (Hn : result_of r (rev (clean_step r out w))).
  { pose proof (cleaned_result r (rev out ++ [w])) as H. unfold cleaned in H. rewrite fold_left_app in H. cbn [fold_left] in H.
    pose proof (result_cleaned r (rev out) Ho) as E. unfold cleaned in E. apply (f_equal (@rev bytes)) in E. rewrite !rev_involutive in E. by rewrite E in H. }
  specialize (IH _ Hn). destruct (name_cases w) as [->|[->|[->|Hw]]].
  - eapply rtc_l; [apply r_slashes|]. done.
  - eapply rtc_l; [apply r_dot|]. done.
  - destruct out as [|t out].
    + change (clean_step r [] (B"..")) with (if r then [] else [B".."]) in *. destruct r; [|done]. eapply rtc_l; [by apply r_root|done].
    + change (clean_step r (t :: out) (B"..")) with (if bool_decide (t = dotdot) then dotdot :: t :: out else out) in *. case_bool_decide as Ht.
      * cbn [rev] in IH |- *. by rewrite <- !app_assoc in *.
      * cbn [rev] in *. rewrite <- app_assoc. cbn [app]. eapply rtc_l; [apply r_inner|done].
        destruct Ho as (k & ns & E & Hns & _). assert (Hin : t ∈ replicate k (B"..") ++ ns) by (rewrite <- E; apply elem_of_app; right; left).
        apply elem_of_app in Hin as [Hin|Hin]; [apply up_elem in Hin; done|]. rewrite Forall_forall in Hns. by apply Hns.
  - rewrite step_name in * by done. cbn [rev] in IH. by rewrite <- app_assoc in IH.
Qed.
Lemma rtc_cleaned r ws vs : rtc (rule r) ws vs -> cleaned r ws = cleaned r vs.
Proof. induction 1 as [|x y z H _ IH]; [done|]. by rewrite (rule_cleaned _ _ _ H). Qed.
Lemma processed_result r ws : processed r ws -> cleaned r ws = ws.
Proof. intros H. pose proof (reaches r ws) as HR. inversion HR as [|? y ? Hy]; [congruence|]. by apply H in Hy. Qed.

Lemma cleaned_slash r ws : Forall (fun w => slash ∉ w) ws -> Forall (fun w => slash ∉ w) (cleaned r ws).
Proof.
  intros H. unfold cleaned. apply Forall_rev. assert (G : forall ws out, Forall (fun w => slash ∉ w) ws -> Forall (fun w => slash ∉ w) out -> Forall (fun w => slash ∉ w) (fold_left (clean_step r) ws out)).
  2: { apply G; [done|constructor]. }
  clear. induction ws as [|w ws IH]; intros out Hw Ho; [done|]. apply Forall_cons in Hw as [Hw Hws]. cbn [fold_left]. apply IH; [done|].
  destruct (name_cases w) as [->|[->|[->|Hn]]]; [done|done| |rewrite step_name by done; by constructor].
  destruct out as [|t out].
  - change (clean_step r [] (B"..")) with (if r then [] else [B".."]). destruct r; [constructor|]. by constructor.
  - change (clean_step r (t :: out) (B"..")) with (if bool_decide (t = dotdot) then dotdot :: t :: out else out). case_bool_decide; [by constructor|].
    by apply Forall_cons in Ho as [_ Ho].
Qed.
Lemma rooted_dec s : (rooted s /\ is_rooted s = true) \/ (~ rooted s /\ is_rooted s = false).
Proof.
  destruct s as [|c s]; [right; split; [by intros [t H]|done]|]. cbn [is_rooted]. destruct (Ascii.eqb_spec c slash) as [->|Hc].
  - left. split; [by exists s|done].
  - right. split; [|done]. intros [t [= E _]]. done.
Qed.

Lemma spelled_is r ws t : spelled r ws t -> t = if r then slash :: join_slash ws else match ws with [] => dot | _ => join_slash ws end.
Proof. intros [|vs x Hx| |vs x Hx]; [done| |done|by rewrite <- (listed_join _ _ Hx)]. rewrite <- (listed_join _ _ Hx). by inversion Hx. Qed.

(** ** C141 *)

(** path.Clean: processing the elements by the documented rules, in any order,
    to the end, gives one result, which is printed. *)
Theorem C141_clean s ws (r : bool) : listed ws s -> (r = true <-> rooted s) ->
  (exists vs, rtc (rule r) ws vs /\ processed r vs /\ spelled r vs (clean s)) /\
  (forall vs t, rtc (rule r) ws vs -> processed r vs -> spelled r vs t -> t = clean s).
Proof.
  intros Hl Hr. assert (Er : is_rooted s = r). { destruct (rooted_dec s) as [[H1 H2]|[H1 H2]]; rewrite H2; destruct r; try done; [by apply Hr in H1|exfalso; by apply H1, Hr]. }
  assert (Ec : clean_elems s = cleaned r ws) by (unfold clean_elems, cleaned; by rewrite Er, (listed_is ws s Hl)).
  assert (Hs : Forall (fun w => slash ∉ w) (cleaned r ws)). { apply cleaned_slash. rewrite (listed_is ws s Hl). apply split_slash_elems. }
  assert (Hn : s = [] -> cleaned r ws = [] /\ r = false). { intros ->. rewrite (listed_is _ _ Hl). by rewrite <- Er. }
  assert (Hsp : forall t, spelled r (cleaned r ws) t <-> t = clean s).
  { intros t. unfold clean. rewrite Ec, Er. split.
    - intros H. rewrite (spelled_is _ _ _ H). destruct s; [by destruct (Hn eq_refl) as [-> ->]|]. done.
    - intros ->. destruct s as [|c s']; [destruct (Hn eq_refl) as [-> ->]; constructor|]. destruct r.
      + destruct (cleaned true ws) as [|v vs'] eqn:E; [constructor|]. constructor. by apply join_listed.
      + destruct (cleaned false ws) as [|v vs'] eqn:E; [constructor|]. constructor. by apply join_listed. }
  split.
  - exists (cleaned r ws). split; [apply reaches|]. split; [apply result_processed, cleaned_result|]. by apply Hsp.
  - intros vs t Hvs Hp Ht. apply rtc_cleaned in Hvs. rewrite (processed_result r vs Hp) in Hvs. apply Hsp. by rewrite Hvs.
Qed.

Theorem C141_idempotent s : clean (clean s) = clean s.
Proof.
  destruct (rooted_dec s) as [[Hr _]|[Hr _]].
  - destruct (C141_clean s _ true (listed_split s)) as [(vs & H1 & H2 & H3) _]; [by split|].
    assert (exists ws, listed ws (clean s) /\ rtc (rule true) ws vs /\ rooted (clean s)) as (ws & Hl & Hw & Hr').
    { inversion H3 as [| |E1 E2|? t Ht E1 E2].
      - exists [[]; []]. split; [apply (l_more [] [[]] []); [apply not_elem_of_nil|constructor; apply not_elem_of_nil]|].
        split; [|by eexists]. eapply rtc_l; [apply (r_slashes true [] [[]])|]. eapply rtc_l; [apply (r_slashes true [] [])|]. constructor.
      - exists ([] :: vs). split; [apply (l_more [] vs t); [apply not_elem_of_nil|done]|]. split; [|by eexists]. eapply rtc_l; [apply (r_slashes true [] vs)|]. constructor. }
    symmetry. by apply (proj2 (C141_clean (clean s) ws true Hl ltac:(done)) vs).
  - destruct (C141_clean s _ false (listed_split s)) as [(vs & H1 & H2 & H3) _]; [done|].
    assert (exists ws, listed ws (clean s) /\ rtc (rule false) ws vs /\ ~ rooted (clean s)) as (ws & Hl & Hw & Hr').
    { inversion H3 as [E1 E2|? t Ht E1 E2| |].
      - exists [B"."]. split; [constructor; by apply not_elem_of_cons; split; [|apply not_elem_of_nil]|].
        split; [|by intros [t [=]]]. eapply rtc_l; [apply (r_dot false [] [])|]. constructor.
      - exists vs. split; [done|]. split; [constructor|]. intros [u Hu]. subst t. rewrite Hu in Ht.
        apply listed_is in Ht. cbn [split_slash] in Ht. rewrite Ascii.eqb_refl in Ht. subst vs. apply (H2 (split_slash u)). apply (r_slashes false []). }
    symmetry. apply (proj2 (C141_clean (clean s) ws false Hl ltac:(done)) vs); done.
Qed.

(** Following a path leads to where the cleaned path leads. *)
Inductive trail (fs : node) : list bytes -> list node -> Prop :=
| tr_root : trail fs [] [fs]
| tr_in w out i cs c up : trail fs out (NDir i cs :: up) -> a_name w -> child w cs = Some c -> trail fs (w :: out) (c :: NDir i cs :: up).
Lemma trail_get fs out n up : trail fs out (n :: up) -> get fs (rev out) = Some n.
Proof.
  intros H. remember (n :: up) as st eqn:E. revert n up E. induction H as [|w out i cs c up' H IH _ Hc]; intros n up E; injection E as <- <-; [done|].
  cbn [rev]. rewrite get_app, (IH _ _ eq_refl). cbn [get]. by rewrite Hc.
Qed.
Lemma go_trail fs ws : forall out st st', trail fs out st -> go st ws = Some st' -> trail fs (fold_left (clean_step true) ws out) st'.
Proof.
  induction ws as [|w ws IH]; intros out st st' Ht Hg; [cbn [go fold_left] in *; by injection Hg as <-|].
  cbn [go] in Hg. destruct st as [|[i d|i cs] up]; [done|done|]. cbn [fold_left]. destruct (name_cases w) as [->|[->|[->|Hw]]].
  - rewrite decide_True in Hg by auto. by eapply IH.
  - rewrite decide_True in Hg by auto. by eapply IH.
  - rewrite decide_False in Hg by (by intros [?|?]). rewrite decide_True in Hg by done. eapply IH; [|exact Hg].
    inversion Ht as [|w out' i' cs' c up' Ht' Hw Hc]; subst.
    + done.
    + change (clean_step true (w :: out') (B"..")) with (if bool_decide (w = dotdot) then dotdot :: w :: out' else out').
      destruct Hw as (_ & _ & Hw). by rewrite bool_decide_eq_false_2.
  - destruct Hw as (H1 & H2 & H3). rewrite decide_False in Hg by (by intros [?|?]). rewrite decide_False in Hg by done.
    destruct (child w cs) as [c|] eqn:Ec; [|done]. eapply IH; [|exact Hg]. rewrite step_name by done. by constructor.
Qed.
Lemma leads_get fs ws n : leads fs ws n -> get fs (cleaned true ws) = Some n.
Proof. intros [up H]. eapply trail_get. eapply go_trail; [constructor|exact H]. Qed.
Theorem C141_leads fs s ws n : rooted s -> listed ws s -> leads fs ws n -> find fs s = Some n /\ find fs (clean s) = Some n.
Proof.
  intros Hr Hl Hg. apply leads_get in Hg. destruct (rooted_dec s) as [[_ E]|[H _]]; [|done].
  assert (Hf : forall s', is_rooted s' = true -> cleaned true (split_slash s') = cleaned true ws -> find fs s' = Some n).
  { intros s' E' Ec. unfold find. rewrite E'. unfold clean_elems. rewrite E'. unfold cleaned in Ec. rewrite Ec. exact Hg. }
  split; [apply Hf; [done|by rewrite (listed_is _ _ Hl)]|].
  destruct (clean_rooted s E) as (vs & Hvs & Ecl). apply Hf; [by rewrite Ecl|].
  pose proof (clean_elems_abs vs Hvs) as Ea. unfold clean_elems in Ea. rewrite is_rooted_abs in Ea. rewrite Ecl. unfold cleaned. rewrite Ea.
  destruct s as [|c s']; [done|]. unfold clean in Ecl. rewrite E in Ecl. assert (Eg : abs_name (clean_elems (c :: s')) = abs_name vs) by exact Ecl.
  apply abs_name_inj in Eg; [| |done]. { rewrite <- Eg. unfold clean_elems. by rewrite E, <- (listed_is _ _ Hl). }
  unfold clean_elems. rewrite E. apply Forall_rev, fold_clean_rooted; [apply split_slash_elems|constructor].
Qed.
(** path.Join: first along one path, then from there along the other. *)
Theorem C141_join fs a b ws vs n : rooted a -> listed ws a -> listed vs b -> leads fs (ws ++ vs) n -> find fs (join2 a b) = Some n.
Proof.
  intros [t ->] Ha Hb Hg. assert (Hl : listed (ws ++ vs) ((slash :: t) ++ slash :: b)).
  { clear Hg. revert Hb. induction Ha as [w Hw|w ws s Hw Ha IH]; intros Hb; [by constructor|]. cbn [app]. rewrite <- app_assoc. cbn [app]. constructor; [done|by apply IH]. }
  change (join2 (slash :: t) b) with (clean ((slash :: t) ++ slash :: b)). eapply C141_leads; [by eexists|exact Hl|done].
Qed.
(** A path without "." and "..", with single slashes, leads where it says. *)
Theorem C141_names fs t ws n : Forall a_name ws -> listed ws t -> leads fs ws n <-> find fs (slash :: t) = Some n.
Proof.
  intros Hn Hl. assert (Hs : Forall (fun w => slash ∉ w) ws) by (rewrite (listed_is _ _ Hl); apply split_slash_elems).
  assert (Hg : Forall good_elem ws). { rewrite Forall_forall in Hn, Hs |- *. intros w Hw. destruct (Hn w Hw) as (H1 & H2 & H3). split_and!; auto. }
  assert (E : find fs (slash :: t) = get fs ws).
  { rewrite (listed_join _ _ Hl). change (slash :: join_slash ws) with (abs_name ws). unfold find. by rewrite is_rooted_abs, clean_elems_abs. }
  rewrite E. clear E Hl Hs Hg t. split.
  - intros H. apply leads_get in H. rewrite result_cleaned in H; [done|]. by exists 0, ws.
  - unfold leads. intros H. assert (G : forall ws cur up, Forall a_name ws -> get cur ws = Some n -> exists up', go (cur :: up) ws = Some (n :: up')).
    { clear. induction ws as [|w ws IH]; intros cur up Hn H; [cbn [get] in H; injection H as <-; by exists up|].
      apply Forall_cons in Hn as [(H1 & H2 & H3) Hn]. cbn [get go] in *. destruct cur as [i d|i cs]; [done|].
      rewrite decide_False by (by intros [?|?]). rewrite decide_False by done. destruct (child w cs) as [c|]; [|done]. by apply IH. }
    by apply G.
Qed.

(** path.Split, filepath.Base, filepath.Dir. *)
Theorem C141_split s d f : path_split s = (d, f) <-> s = d ++ f /\ slash ∉ f /\ (d = [] \/ exists d', d = d' ++ [slash]).
Proof.
  assert (G : (slash ∉ s /\ path_split s = ([], s)) \/ exists d' f', slash ∉ f' /\ s = d' ++ slash :: f' /\ path_split s = (d' ++ [slash], f')).
  { clear d f. induction s as [|c s IH]; [left; split; [apply not_elem_of_nil|done]|]. destruct IH as [[Hn E]|(d' & f' & Hf & -> & E)].
    - destruct (decide (c = slash)) as [->|Hc].
      + right. exists [], s. split; [done|]. split; [done|]. by apply (path_split_app []).
      + left. assert (slash ∉ c :: s) by (apply not_elem_of_cons; split; [congruence|done]). split; [done|]. unfold path_split. by rewrite split_last_none.
    - right. exists (c :: d'), f'. split; [done|]. split; [done|]. by apply (path_split_app (c :: d')). }
  split.
  - intros H. destruct G as [[Hn E]|(d' & f' & Hf & -> & E)]; rewrite E in H; injection H as <- <-.
    + split; [done|]. split; [done|by left].
    + split; [by rewrite <- app_assoc|]. split; [done|]. right. by exists d'.
  - intros (-> & Hf & [->|[d' ->]]); [unfold path_split; by rewrite split_last_none|]. rewrite <- app_assoc. by apply path_split_app.
Qed.
Theorem C141_dir s d f : s = d ++ f -> slash ∉ f -> (d = [] \/ exists d', d = d' ++ [slash]) -> dirname s = clean d.
Proof. intros H1 H2 H3. unfold dirname. by rewrite (proj2 (C141_split s d f)). Qed.
Lemma drop_slashes_rep k s : drop_slashes (replicate k slash ++ s) = drop_slashes s.
Proof. induction k as [|k IH]; [done|]. cbn [replicate app drop_slashes]. by rewrite Ascii.eqb_refl. Qed.
Lemma rev_rep k : rev (replicate k slash) = replicate k slash.
Proof.
  induction k as [|k IH]; [done|]. cbn [replicate rev]. rewrite IH. change [slash] with (replicate 1 slash). rewrite <- replicate_add.
  by replace (k + 1) with (S k) by lia.
Qed.
Theorem C141_base :
  base [] = B"." /\ (forall k, base (replicate (S k) slash) = B"/") /\
  (forall d w k, slash ∉ w -> w <> [] -> (d = [] \/ exists d', d = d' ++ [slash]) -> base (d ++ w ++ replicate k slash) = w).
Proof.
  split; [done|]. split.
  - intros k. unfold base. cbn [replicate]. change (slash :: replicate k slash) with (replicate (S k) slash). rewrite rev_rep, <- (app_nil_r (replicate (S k) slash)).
    by rewrite drop_slashes_rep.
  - intros d w k Hw Hne Hd. assert (E : rev (drop_slashes (rev (d ++ w ++ replicate k slash))) = d ++ w).
    { rewrite !rev_app_distr, rev_rep, <- app_assoc, drop_slashes_rep. destruct w as [|c w _] using rev_ind; [done|].
      rewrite (rev_app_distr w). cbn [rev app drop_slashes]. rewrite not_elem_of_app, not_elem_of_cons in Hw. destruct Hw as (_ & Hc & _).
      rewrite (proj2 (Ascii.eqb_neq c slash)) by congruence. cbn [rev]. rewrite rev_app_distr, !rev_involutive. by rewrite <- app_assoc. }
    unfold base. rewrite E. rewrite (proj2 (C141_split (d ++ w) d w)) by done. cbn [snd].
    destruct (d ++ w ++ replicate k slash) as [|c x] eqn:En; [apply app_eq_nil in En as [_ En]; by apply app_eq_nil in En as [En _]|]. by destruct w.
Qed.

(** "Cleaning does not change what a path leads to" fails for a path that leads
    nowhere: without the directory "missing" it is "a" that is found. *)
Definition small_meta : meta := Meta 420 (GoTime 1600000000 0 0) 4096 JNull true.
Definition small_disk : node :=
  NDir small_meta [(B"a", NFile small_meta (B"x")); (B"d", NDir small_meta [])].
Theorem C141_nowhere_refuted : exists s ws n,
  rooted s /\ listed ws s /\ find small_disk (clean s) = Some n /\ forall n', ~ leads small_disk ws n'.
Proof.
  exists (B"/missing/../a"), [[]; B"missing"; B".."; B"a"], (NFile small_meta (B"x")).
  split; [by eexists|]. split; [exact (listed_split (B"/missing/../a"))|]. split; [done|]. intros n' [up H]. by vm_compute in H.
Qed.
Example C141_ex :
  listed [[]; B"d"; B"."; []; B".."; B".."; B"a"] (B"/d/.//../../a") /\
  leads small_disk [[]; B"d"; B"."; []; B".."; B".."; B"a"] (NFile small_meta (B"x")) /\
  rtc (rule true) [[]; B"d"; B"."; []; B".."; B".."; B"a"] [B"a"] /\ clean (B"/d/.//../../a") = B"/a" /\
  clean (B"../x/../../y/") = B"../../y" /\ clean [] = B"." /\ clean (B"x/..") = B"." /\ clean (B"/..") = B"/" /\
  join2 (B"/d") (B"../a") = B"/a" /\ base (B"/d/a//") = B"a" /\ dirname (B"/d/a") = B"/d" /\ dirname (B"/d/") = B"/d" /\
  path_split (B"/d/a") = (B"/d/", B"a").
Proof.
  split; [exact (listed_split (B"/d/.//../../a"))|]. split; [by eexists; vm_compute|].
  split. { exact (reaches true [[]; B"d"; B"."; []; B".."; B".."; B"a"]). }
  by vm_compute.
Qed.
