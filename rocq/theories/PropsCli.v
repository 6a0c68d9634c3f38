(** Theorems: the command line (C52, C72, C74, C75). *)
From Verif Require Import Bytes GoPath GoTypes Cli.

(** ** Specification: how options are written *)

Definition hyphens (d : bytes) : Prop := d = B"-" \/ d = B"--".
Definition word (n : bytes) : Prop := n <> [] /\ "="%char ∉ n /\ head n <> Some "-"%char.
Definition yes (v : bytes) : Prop := v ∈ [B"1"; B"t"; B"T"; B"true"; B"TRUE"; B"True"].
Definition no (v : bytes) : Prop := v ∈ [B"0"; B"f"; B"F"; B"false"; B"FALSE"; B"False"].

(** The ways of writing one option, and what it sets. *)
Inductive written (formal : bytes -> option flagkind) : list bytes -> bytes * bytes -> Prop :=
| w_on d n : hyphens d -> word n -> formal n = Some FBool -> written formal [d ++ n] (n, B"true")
| w_bool d n v : hyphens d -> word n -> formal n = Some FBool -> yes v \/ no v -> written formal [d ++ n ++ B"=" ++ v] (n, v)
| w_eq d n v : hyphens d -> word n -> formal n = Some FString -> written formal [d ++ n ++ B"=" ++ v] (n, v)
| w_sep d n v : hyphens d -> word n -> formal n = Some FString -> written formal [d ++ n; v] (n, v).
Inductive options (formal : bytes -> option flagkind) : list bytes -> list (bytes * bytes) -> Prop :=
| os_nil : options formal [] []
| os_cons o nv os nvs : written formal o nv -> options formal os nvs -> options formal (o ++ os) (nv :: nvs).

(** Not to be read as an option. *)
Definition plain (a : bytes) : Prop := a = B"-" \/ head a <> Some "-"%char.

(** Options, then either a plain argument or nothing, or "--" and anything. *)
Definition split_args formal (args : list bytes) (sets : list (bytes * bytes)) (rest : list bytes) : Prop :=
  exists opts, options formal opts sets /\
    ((args = opts ++ rest /\ match rest with [] => True | a :: _ => plain a end) \/ args = opts ++ B"--" :: rest).

(** The values given for an option, in order. *)
Fixpoint values (name : bytes) (sets : list (bytes * bytes)) : list bytes :=
  match sets with
  | [] => []
  | nv :: sets => if bool_decide (nv.1 = name) then nv.2 :: values name sets else values name sets
  end.

(** ** Proofs about package flag *)

Lemma cut_eq_word u v : "="%char ∉ u -> cut_eq (u ++ B"=" ++ v) = (u, Some v).
Proof.
  induction u as [|c u IH]; intros H; [done|]. rewrite not_elem_of_cons in H. destruct H as [Hc H].
  cbn [app cut_eq]. rewrite bool_decide_eq_false_2 by congruence. cbn [app] in IH. rewrite IH by done. done.
Qed.
Lemma cut_eq_none u : "="%char ∉ u -> cut_eq u = (u, None).
Proof.
  induction u as [|c u IH]; intros H; [done|]. rewrite not_elem_of_cons in H. destruct H as [Hc H].
  cbn [app cut_eq]. rewrite bool_decide_eq_false_2 by congruence. rewrite IH by done. done.
Qed.
Lemma cut_eq_spec s u v : cut_eq s = (u, v) ->
  "="%char ∉ u /\ s = match v with None => u | Some v => u ++ B"=" ++ v end.
Proof.
  revert u v. induction s as [|c s IH]; intros u v; cbn [cut_eq].
  - intros [= <- <-]. split; [apply not_elem_of_nil|done].
  - case_bool_decide as Hc.
    + intros [= <- <-]. subst c. split; [apply not_elem_of_nil|done].
    + destruct (cut_eq s) as [u' v'] eqn:E. intros [= <- <-]. destruct (IH u' v' eq_refl) as [Hu ->].
      split; [rewrite not_elem_of_cons; split; [congruence|done]|]. by destruct v'.
Qed.

Lemma name_value_eq n v : word n -> name_value (n ++ B"=" ++ v) = (n, Some v).
Proof.
  intros (Hn & He & Hh). destruct n as [|c n]; [done|]. rewrite not_elem_of_cons in He. destruct He as [_ He].
  cbn [app name_value]. pose proof (cut_eq_word n v He) as H. cbn [app] in H. by rewrite H.
Qed.
Lemma name_value_none n : word n -> name_value n = (n, None).
Proof.
  intros (Hn & He & Hh). destruct n as [|c n]; [done|]. rewrite not_elem_of_cons in He. destruct He as [_ He].
  cbn [name_value]. by rewrite cut_eq_none.
Qed.
Lemma name_value_spec t n v : name_value t = (n, v) -> t <> [] -> head t <> Some "-"%char -> head t <> Some "="%char ->
  word n /\ t = match v with None => n | Some v => n ++ B"=" ++ v end.
Proof.
  destruct t as [|c t]; [done|]. cbn [name_value head]. destruct (cut_eq t) as [u v'] eqn:E. intros [= <- <-] _ H1 H2.
  apply cut_eq_spec in E as [Hu ->]. split.
  - split; [done|]. split; [|cbn; congruence]. rewrite not_elem_of_cons. split; [congruence|done].
  - by destruct v'.
Qed.

Lemma word_head n : word n -> exists c n', n = c :: n' /\ c <> "-"%char /\ c <> "="%char.
Proof.
  intros (Hn & He & Hh). destruct n as [|c n]; [done|]. rewrite not_elem_of_cons in He.
  exists c, n. split; [done|]. split; [cbn in Hh; congruence|]. destruct He; congruence.
Qed.
Lemma classify_flag d n x : hyphens d -> word n -> classify (d ++ n ++ x) = AFlag (n ++ x).
Proof.
  intros Hd Hn. apply word_head in Hn as (c & n' & -> & H1 & H2). destruct Hd as [-> | ->]; cbn [B String.list_ascii_of_string app classify].
  - rewrite bool_decide_eq_true_2 by done. rewrite (bool_decide_eq_false_2 (c = "-"%char)) by done.
    rewrite bool_decide_eq_false_2 by (intros E; injection E as E; done).
    rewrite bool_decide_eq_false_2 by (intros [?|?]; done). done.
  - rewrite bool_decide_eq_true_2 by done.
    rewrite bool_decide_eq_false_2 by done.
    rewrite bool_decide_eq_false_2 by (intros [?|?]; done). done.
Qed.
Ltac split_cases :=
  repeat first [done | case_bool_decide | match goal with |- context [match ?x with [] => _ | _ :: _ => _ end] => destruct x end].
Lemma classify_plain a : classify a = AArg <-> plain a.
Proof.
  unfold plain. destruct a as [|c [|d s]]; [split; [by right|done]| |].
  - split; [|done]. intros _. destruct (decide (c = "-"%char)) as [->|Hc]; [by left|right; cbn; congruence].
  - cbn [classify head]. case_bool_decide as Hc.
    + subst c. split.
      * intros E. exfalso. revert E. split_cases.
      * intros [H|H]; [done|]. by destruct H.
    + split; [|done]. intros _. right. congruence.
Qed.
Lemma classify_term a : classify a = ATerm <-> a = B"--".
Proof.
  split; [|by intros ->]. destruct a as [|c [|d s]]; [done..|]. cbn [classify].
  split_cases.
Qed.
Lemma classify_flag_inv a t : classify a = AFlag t ->
  exists d, hyphens d /\ a = d ++ t /\ t <> [] /\ head t <> Some "-"%char /\ head t <> Some "="%char.
Proof.
  destruct a as [|c [|d s]]; [done..|]. cbn [classify].
  destruct (decide (c = "-"%char)) as [->|Hc]; [|by rewrite bool_decide_eq_false_2].
  rewrite (bool_decide_eq_true_2 ("-"%char = "-"%char)) by done. destruct (decide (d = "-"%char)) as [->|Hd].
  - rewrite (bool_decide_eq_true_2 ("-"%char = "-"%char)) by done. destruct s as [|e s]; [case_bool_decide; done|].
    rewrite bool_decide_eq_false_2 by done. case_bool_decide as He; [done|]. intros [= <-].
    exists (B"--"). split; [by right|]. split; [done|]. split; [done|]. cbn [head]. split; intros [= ->]; apply He; auto.
  - rewrite (bool_decide_eq_false_2 (d = "-"%char)) by done. case_bool_decide; [done|]. case_bool_decide as He; [done|]. intros [= <-].
    exists (B"-"). split; [by left|]. split; [done|]. split; [done|]. cbn [head]. split; intros [= ->]; apply He; auto.
Qed.

Lemma parse_bool_yes v : parse_bool v = Some true <-> yes v.
Proof.
  unfold parse_bool, yes. case_bool_decide; [done|]. case_bool_decide; split; done.
Qed.
Lemma parse_bool_some v : is_Some (parse_bool v) <-> yes v \/ no v.
Proof.
  unfold parse_bool, yes, no. case_bool_decide; [split; [by left|by eexists]|].
  case_bool_decide; [split; [by right|by eexists]|]. split; [by intros [? ?]|]. by intros [?|?].
Qed.

Lemma parse_flags_written formal o nv rest : written formal o nv ->
  parse_flags formal (o ++ rest) = add_set nv (parse_flags formal rest).
Proof.
  intros H. destruct H as [d n Hd Hn Hf|d n v Hd Hn Hf Hv|d n v Hd Hn Hf|d n v Hd Hn Hf]; cbn [app parse_flags].
  - pose proof (classify_flag d n [] Hd Hn) as E. rewrite app_nil_r in E. rewrite E, name_value_none, Hf by done. done.
  - rewrite classify_flag, name_value_eq, Hf by done. apply parse_bool_some in Hv as [b ->]. done.
  - rewrite classify_flag, name_value_eq, Hf by done. done.
  - pose proof (classify_flag d n [] Hd Hn) as E. rewrite app_nil_r in E. rewrite E, name_value_none, Hf by done. done.
Qed.
Lemma parse_flags_options formal os nvs rest : options formal os nvs ->
  parse_flags formal (os ++ rest) = fold_right add_set (parse_flags formal rest) nvs.
Proof.
  induction 1 as [|o nv os nvs Ho _ IH]; [done|]. rewrite <- app_assoc, (parse_flags_written _ _ _ _ Ho). by rewrite IH.
Qed.
Lemma fold_add_set nvs sets rest : fold_right add_set (FDone sets rest) nvs = FDone (nvs ++ sets) rest.
Proof. induction nvs as [|nv nvs IH]; [done|]. cbn. by rewrite IH. Qed.

Lemma split_cons formal o nv args sets rest :
  written formal o nv -> split_args formal args sets rest -> split_args formal (o ++ args) (nv :: sets) rest.
Proof.
  intros Ho (opts & Hos & H). exists (o ++ opts). split; [by constructor|].
  destruct H as [[-> H]| ->]; [left; split; [by rewrite app_assoc|done]|right; by rewrite app_assoc].
Qed.

(** FlagSet.Parse reads exactly the option lists written as above. *)
Theorem C74_flags formal args sets rest :
  parse_flags formal args = FDone sets rest <-> split_args formal args sets rest.
Proof.
  split.
  - remember (length args) as k eqn:Hk. revert args Hk sets rest.
    induction k as [k IH] using lt_wf_ind. intros [|s args] -> sets rest; cbn [parse_flags].
    { intros [= <- <-]. exists []. split; [constructor|]. by left. }
    destruct (classify s) as [| |t|] eqn:Ec.
    + intros [= <- <-]. apply classify_plain in Ec. exists []. split; [constructor|]. by left.
    + intros [= <- <-]. apply classify_term in Ec as ->. exists []. split; [constructor|]. by right.
    + apply classify_flag_inv in Ec as (d & Hd & -> & Ht1 & Ht2 & Ht3).
      destruct (name_value t) as [n v] eqn:En. apply name_value_spec in En as [Hn Et]; [|done..].
      destruct (formal n) as [[]|] eqn:Hf; [| |done].
      * destruct v as [v|].
        -- destruct (parse_bool v) as [b|] eqn:Eb; [|done].
           destruct (parse_flags formal args) as [sets' rest'|] eqn:E; [|done]. intros [= <- <-].
           apply (split_cons formal [d ++ t]); [rewrite Et; constructor; try done; apply parse_bool_some; by eexists|].
           eapply IH; [|done|done]. cbn; lia.
        -- destruct (parse_flags formal args) as [sets' rest'|] eqn:E; [|done]. intros [= <- <-].
           apply (split_cons formal [d ++ t]); [rewrite Et; by constructor|].
           eapply IH; [|done|done]. cbn; lia.
      * destruct v as [v|].
        -- destruct (parse_flags formal args) as [sets' rest'|] eqn:E; [|done]. intros [= <- <-].
           apply (split_cons formal [d ++ t]); [rewrite Et; by constructor|].
           eapply IH; [|done|done]. cbn; lia.
        -- destruct args as [|v args]; [done|].
           destruct (parse_flags formal args) as [sets' rest'|] eqn:E; [|done]. intros [= <- <-].
           apply (split_cons formal [d ++ t; v]); [rewrite Et; by constructor|].
           eapply IH; [|done|done]. cbn; lia.
    + done.
  - intros (opts & Ho & [[-> Hr]| ->]); rewrite (parse_flags_options _ _ _ _ Ho).
    + assert (parse_flags formal rest = FDone [] rest) as ->.
      { destruct rest as [|a rest]; [done|]. cbn [parse_flags]. apply classify_plain in Hr. by rewrite Hr. }
      rewrite fold_add_set. by rewrite app_nil_r.
    + cbn [parse_flags]. change (classify (B"--")) with ATerm. cbn beta iota. rewrite fold_add_set. by rewrite app_nil_r.
Qed.

(** ** C52: dispatch *)

Lemma string_var_values name sets : string_var name sets = default [] (last (values name sets)).
Proof.
  unfold string_var. enough (H : forall x, fold_left (fun b nv => if bool_decide (nv.1 = name) then nv.2 else b) sets x = default x (last (values name sets))) by apply H.
  induction sets as [|nv sets IH]; intros x; [done|]. cbn [fold_left values]. case_bool_decide; [|apply IH].
  rewrite IH, last_cons. by destruct (last _).
Qed.
Lemma list_var_values name sets : list_var name sets = values name sets.
Proof.
  unfold list_var. enough (H : forall x, fold_left (fun b nv => if bool_decide (nv.1 = name) then b ++ [nv.2] else b) sets x = x ++ values name sets) by apply H.
  induction sets as [|nv sets IH]; intros x; [by rewrite app_nil_r|]. cbn [fold_left values]. case_bool_decide; [|apply IH].
  rewrite IH. by rewrite <- app_assoc.
Qed.
Lemma bool_var_values formal name opts sets : options formal opts sets -> formal name = Some FBool ->
  bool_var name sets = true <-> exists v, last (values name sets) = Some v /\ yes v.
Proof.
  intros Ho Hf. unfold bool_var.
  enough (H : forall x, fold_left (fun b nv => if bool_decide (nv.1 = name) then default b (parse_bool nv.2) else b) sets x = true <->
    match last (values name sets) with Some v => yes v | None => x = true end).
  { rewrite H. destruct (last (values name sets)) as [v|].
    - split; [intros Hv; by exists v|]. by intros (? & [= <-] & ?).
    - split; [done|]. by intros (? & ? & _). }
  induction Ho as [|o nv os nvs Hw _ IH]; intros x; [done|]. cbn [fold_left values]. case_bool_decide as Hn; [|apply IH].
  rewrite IH, last_cons. destruct (last (values name nvs)) as [w|]; [done|].
  assert (Hb : is_Some (parse_bool nv.2)).
  { destruct Hw as [d n Hd Hw' Hk|d n v Hd Hw' Hk Hv|d n v Hd Hw' Hk|d n v Hd Hw' Hk]; cbn [fst snd] in *; subst; [by eexists|by apply parse_bool_some|congruence..]. }
  destruct Hb as [b Hb]. rewrite Hb. cbn [default]. rewrite <- parse_bool_yes, Hb. split; [intros <-|intros [= <-]]; done.
Qed.

(** What the command line asks for: independent of how it is read. *)
Inductive asks (sets : list (bytes * bytes)) (rest : list bytes) : action -> Prop :=
| a_help v : last (values (B"h") sets) = Some v -> yes v -> asks sets rest RootUsage
| a_pack : (forall v, last (values (B"h") sets) = Some v -> ~ yes v) -> rest = [] ->
    asks sets rest (RunPack (default [] (last (values (B"o") sets))) (values (B"include") sets))
| a_sub k r : (forall v, last (values (B"h") sets) = Some v -> ~ yes v) -> rest = k :: r ->
    k ∈ [B"serve"; B"stat"; B"info"; B"path"; B"parse"; B"list"] -> B"-h" ∉ r -> asks sets rest (RunSub k r)
| a_sub_help k r : (forall v, last (values (B"h") sets) = Some v -> ~ yes v) -> rest = k :: r ->
    k ∈ [B"serve"; B"stat"; B"info"; B"path"; B"parse"; B"list"] -> B"-h" ∈ r -> asks sets rest (SubUsage k)
| a_unknown k r : (forall v, last (values (B"h") sets) = Some v -> ~ yes v) -> rest = k :: r ->
    k ∉ [B"serve"; B"stat"; B"info"; B"path"; B"parse"; B"list"] ->
    asks sets rest (Refuse (EMsg (B"unknown arguments: " ++ join_sp rest))).

Lemma subs_same k : k ∈ subs <-> k ∈ [B"serve"; B"stat"; B"info"; B"path"; B"parse"; B"list"].
Proof. unfold subs. rewrite !elem_of_cons. intuition. Qed.

Lemma root_h : root_formal (B"h") = Some FBool.
Proof. done. Qed.

(** The action for every well-written command line. *)
Theorem C52_dispatch args sets rest a :
  split_args root_formal args sets rest -> route args = a <-> asks sets rest a.
Proof.
  intros Hs. assert (Hp := proj2 (C74_flags _ _ _ _) Hs). unfold route. rewrite Hp.
  destruct Hs as (opts & Ho & _). pose proof (bool_var_values _ _ _ _ Ho root_h) as Hb.
  rewrite string_var_values, list_var_values.
  destruct (bool_var (B"h") sets) eqn:Eh.
  - destruct (proj1 Hb eq_refl) as (v & Hl & Hy). split.
    + intros <-. by eapply a_help.
    + intros H. destruct H as [v' Hv' Hy'|Hn|k r Hn|k r Hn|k r Hn]; [done|exfalso; by eapply Hn..].
  - assert (Hn : forall v, last (values (B"h") sets) = Some v -> ~ yes v).
    { intros v Hl Hy. enough (false = true) by done. apply Hb. by exists v. }
    destruct rest as [|k r].
    { split; [intros <-; by apply a_pack|]. intros H. destruct H as [v Hv Hy|_ _|k r _ E|k r _ E|k r _ E]; [by destruct (Hn v)|done..]. }
    pose proof (subs_same k) as Hk. case_bool_decide as Hin.
    + case_bool_decide as Hh.
      * split; [intros <-; eapply a_sub_help; [done|done|by apply Hk|done]|]. intros H.
        destruct H as [v Hv Hy|_ E|k' r' _ [= <- <-] ? ?|k' r' _ [= <- <-] ? ?|k' r' _ [= <- <-] Hnk]; [by destruct (Hn v)|done|done|done|by destruct Hnk; apply Hk].
      * split; [intros <-; eapply a_sub; [done|done|by apply Hk|done]|]. intros H.
        destruct H as [v Hv Hy|_ E|k' r' _ [= <- <-] ? ?|k' r' _ [= <- <-] ? ?|k' r' _ [= <- <-] Hnk]; [by destruct (Hn v)|done|done|done|by destruct Hnk; apply Hk].
    + split; [intros <-; eapply a_unknown; [done|done|by rewrite <- Hk]|]. intros H.
      destruct H as [v Hv Hy|_ E|k' r' _ [= <- <-] Hk' ?|k' r' _ [= <- <-] Hk' ?|k' r' _ [= <- <-] Hnk]; [by destruct (Hn v)|done|by apply Hk in Hk'|by apply Hk in Hk'|done].
Qed.

(** Anything else ends the process before a command runs. *)
Theorem C52_bad_options args :
  route args = Exits <-> forall sets rest, ~ split_args root_formal args sets rest.
Proof.
  split.
  - intros H sets rest Hs. apply (C52_dispatch _ _ _ _ Hs) in H. inversion H.
  - intros H. unfold route. destruct (parse_flags root_formal args) as [sets rest|] eqn:E; [|done].
    destruct (H sets rest). by apply C74_flags.
Qed.

Lemma split_plain formal k r : plain k -> split_args formal (k :: r) [] (k :: r).
Proof. intros Hk. exists []. split; [constructor|]. by left. Qed.
Lemma no_help v : last (values (B"h") []) = Some v -> ~ yes v.
Proof. done. Qed.

(** The claim as worded: without options. *)
Theorem C52_no_arguments : route [] = RunPack [] [].
Proof. done. Qed.
Theorem C52_subcommand k r :
  k ∈ [B"serve"; B"stat"; B"info"; B"path"; B"parse"; B"list"] ->
  route (k :: r) = if bool_decide (B"-h" ∈ r) then SubUsage k else RunSub k r.
Proof.
  intros Hk. assert (Hp : plain k).
  { rewrite !elem_of_cons, elem_of_nil in Hk. destruct Hk as [-> |[-> |[-> |[-> |[-> |[-> |[]]]]]]]; by right. }
  apply (C52_dispatch _ _ _ _ (split_plain root_formal k r Hp)). case_bool_decide.
  - by eapply a_sub_help.
  - by eapply a_sub.
Qed.
Theorem C52_unknown k r :
  plain k -> k ∉ [B"serve"; B"stat"; B"info"; B"path"; B"parse"; B"list"] ->
  route (k :: r) = Refuse (EMsg (B"unknown arguments: " ++ join_sp (k :: r))).
Proof.
  intros Hp Hk. apply (C52_dispatch _ _ _ _ (split_plain root_formal k r Hp)).
  by eapply a_unknown.
Qed.

Example C52_ex :
  split_args root_formal [B"-o"; B"cmd/x"; B"--include=/a"; B"-include"; B"/b"; B"-h=F"]
    [(B"o", B"cmd/x"); (B"include", B"/a"); (B"include", B"/b"); (B"h", B"F")] [] /\
  route [B"-o"; B"cmd/x"; B"--include=/a"; B"-include"; B"/b"; B"-h=F"] = RunPack (B"cmd/x") [B"/a"; B"/b"] /\
  route [B"list"; B"-json"] = RunSub (B"list") [B"-json"] /\
  route [B"list"; B"-json"; B"-h"] = SubUsage (B"list") /\
  route [B"pack"; B"x"] = Refuse (EMsg (B"unknown arguments: pack x")) /\
  route [B"-json"; B"list"] = Exits.
Proof.
  split; [by apply C74_flags|]. by vm_compute.
Qed.

(** ** C74: options given before a subcommand are dropped *)
Theorem C74_dropped opts sets k r :
  options root_formal opts sets -> (forall v, last (values (B"h") sets) = Some v -> ~ yes v) ->
  k ∈ [B"serve"; B"stat"; B"info"; B"path"; B"parse"; B"list"] ->
  route (opts ++ k :: r) = route (k :: r).
Proof.
  intros Ho Hn Hk. assert (Hp : plain k).
  { rewrite !elem_of_cons, elem_of_nil in Hk. destruct Hk as [-> |[-> |[-> |[-> |[-> |[-> |[]]]]]]]; by right. }
  assert (Hs : split_args root_formal (opts ++ k :: r) sets (k :: r)) by (exists opts; split; [done|by left]).
  rewrite (C52_subcommand k r Hk). apply (C52_dispatch _ _ _ _ Hs). case_bool_decide.
  - by eapply a_sub_help.
  - by eapply a_sub.
Qed.
Example C74_ex :
  options root_formal [B"-include"; B"/x"] [(B"include", B"/x")] /\
  route [B"-include"; B"/x"; B"list"] = RunSub (B"list") [].
Proof.
  split; [|by vm_compute]. change ([B"-include"; B"/x"]) with ([B"-" ++ B"include"; B"/x"] ++ []).
  constructor; [|constructor]. constructor; [by left| |done]. split; [done|]. split; [|done].
  cbn [B String.list_ascii_of_string]. rewrite !not_elem_of_cons. repeat split; try done. apply not_elem_of_nil.
Qed.

Theorem C74_dropped_refuted :
  exists opts sets k, options root_formal opts sets /\ last (values (B"include") sets) = Some (B"/x") /\
    route (opts ++ [k]) = RunSub k [] /\ route [k] = RunSub k [].
Proof.
  exists [B"-include"; B"/x"], [(B"include", B"/x")], (B"list"). split; [apply C74_ex|]. by vm_compute.
Qed.

(** ** C72: `pkger list` *)

(** The includes given to `list` are the ones it looks for ... *)
Theorem C72_includes args sets rest old :
  split_args list_formal args sets rest ->
  exists json, run_list old args = LRun json (values (B"include") sets) None.
Proof.
  intros Hs. apply C74_flags in Hs. unfold run_list. rewrite Hs, list_var_values. by eexists.
Qed.
Example C72_ex :
  split_args list_formal [B"-json"; B"-include"; B"/a"] [(B"json", B"true"); (B"include", B"/a")] [] /\
  run_list (Some (B"x")) [B"-json"; B"-include"; B"/a"] = LRun true [B"/a"] None.
Proof. split; [by apply C74_flags|by vm_compute]. Qed.

(** ** C75: how the program ends *)

(** Status 0 exactly for success; the module is tidied exactly once ... *)
Theorem C75_status_partial r : (main_end r).1 = 0 <-> r = REnd None.
Proof. destruct r as [[e|]| |]; cbn; split; intros; done. Qed.
Theorem C75_tidied_partial r : r <> RExit -> (main_end r).2 = 1.
Proof. destruct r as [[e|]| |]; done. Qed.
(** ... except when the flag package ends the process. *)
Theorem C75_exit_refuted : exists args, route args = Exits /\ (main_end RExit).2 = 0.
Proof. exists [B"-x"]. by vm_compute. Qed.
