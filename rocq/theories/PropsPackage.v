(** Theorems: writing the generated file (C42, C43). *)
From Verif Require Import Bytes GoPath Here GoTypes Embed PropsEmbed Package.

(** *** C42 *)

(** Nothing, or a complete generated file. *)
Definition none_or_complete (s : option bytes) : Prop :=
  s = None \/ exists name payload, s = Some (pkged_file name payload).

Lemma complete_last name payload : last (pkged_file name payload) = Some newline.
Proof.
  unfold pkged_file, pkged_footer, nl. rewrite !app_assoc. by rewrite last_snoc.
Qed.

Lemma prefix_incomplete s : last s <> Some newline -> ~ none_or_complete (Some s).
Proof. intros H [?|(name & payload & [= E])]; [done|]. apply H. rewrite E. apply complete_last. Qed.

(** The content at the end of a call, when no write fails. *)
Lemma package_final ft old name payload :
  ft_create ft = None -> (forall k, k < 8 -> ft_write ft k = None) ->
  final (package ft old (Ok name) (SOk payload)).1 = Some (pkged_file name payload).
Proof.
  intros Hc Hw. unfold package. rewrite Hc.
  pose proof (writes_ok ft 0 [] (header_writes name) ltac:(cbn; intros; apply Hw; lia)) as H1.
  destruct (writes ft 0 [] (header_writes name)) as [tr cur]. cbn [snd app] in H1. subst cur.
  pose proof (writes_ok ft 6 (concat (header_writes name)) [payload; footer_write] ltac:(cbn; intros; apply Hw; lia)) as H2.
  pose proof (writes_final ft 6 (concat (header_writes name)) [payload; footer_write]) as H3.
  assert (Hne : last (writes ft 6 (concat (header_writes name)) [payload; footer_write]).1 <> None).
  { cbn [writes fst]. intros E. apply last_None in E. apply app_eq_nil in E as [_ E]. apply app_eq_nil in E as [E _].
    unfold stored in E. rewrite (Hw 7) in E by lia. done. }
  destruct (writes ft 6 (concat (header_writes name)) [payload; footer_write]) as [tr' fin].
  cbn [fst snd] in *. subst fin. unfold final. rewrite last_app.
  destruct (last tr') as [x|]; [|done].
  cbn [default] in *. rewrite H3, header_concat. cbn [concat]. unfold pkged_file, footer_write. f_equal.
  rewrite app_nil_r, <- !app_assoc. done.
Qed.

(** After a call in which no write and no removal fails and Stuff does not
    return an error there is no file, or a complete one; if the call fails
    before that, what was there before may remain. *)
Theorem C42_final_partial ft old cname st :
  (forall k, k < 8 -> ft_write ft k = None) -> (forall k, ft_rm ft k = false) -> (forall e, st <> SErr e) ->
  final (package ft old cname st).1 = None \/
  (final (package ft old cname st).1 = old /\ (package ft old cname st).2 <> None) \/
  exists name payload, cname = Ok name /\ st = SOk payload /\
    final (package ft old cname st).1 = Some (pkged_file name payload) /\ (package ft old cname st).2 = None.
Proof.
  intros Hw Hr Hs. destruct cname as [name|e]; [|right; left; by split].
  destruct (ft_create ft) as [e|] eqn:Hc.
  { left. unfold package. rewrite Hc. unfold remove_out. rewrite Hr. done. }
  destruct st as [payload|e|].
  - right. right. exists name, payload. split; [done|]. split; [done|]. split; [by apply package_final|].
    unfold package. rewrite Hc. destruct (writes _ _ _ _). by destruct (writes _ _ _ _).
  - by destruct (Hs e).
  - left. unfold package. rewrite Hc. destruct (writes _ _ _ _) as [tr cur]. unfold final, remove_out.
    rewrite !Hr. cbn [fst]. rewrite last_snoc. done.
Qed.

(** A process that dies right after creating the file leaves it empty: for
    every package and payload, with no other fault. *)
Theorem C42_crash_refuted name payload :
  exists s, s ∈ (package no_faults None (Ok name) (SOk payload)).1 /\ ~ none_or_complete s.
Proof.
  exists (Some []). split; [|by apply prefix_incomplete].
  unfold package. cbn [ft_create no_faults]. destruct (writes _ _ _ _) as [tr cur]. destruct (writes _ _ _ _) as [tr' ?].
  cbn [fst app]. right. right. by left.
Qed.

(** So does one that dies after the header, or anywhere before the last byte. *)
Theorem C42_every_prefix name payload u v :
  pkged_file name payload = u ++ v ->
  Some u ∈ (package no_faults None (Ok name) (SOk payload)).1.
Proof.
  intros E. unfold package. cbn [ft_create no_faults].
  assert (Hcut : forall k cur l u v, concat l = u ++ v -> u <> [] -> Some (cur ++ u) ∈ (writes no_faults k cur l).1).
  { clear. intros k cur l. revert k cur. induction l as [|b l IH]; intros k cur u v E Hu.
    - cbn in E. symmetry in E. by apply app_eq_nil in E as [? _].
    - cbn [writes concat] in *. change (stored no_faults k b) with b.
      pose proof (IH (S k) (cur ++ b)) as IH'. destruct (writes no_faults (S k) (cur ++ b) l) as [tr fin]. cbn [fst] in *.
      rewrite elem_of_app, growing_elem. apply app_eq_app in E as (x & [[-> E]|[-> E]]).
      + left. exists u, x. done.
      + destruct x as [|a x]; [left; exists b, []; rewrite !app_nil_r in *; done|].
        right. rewrite app_assoc. apply (IH' (a :: x) v); done. }
  destruct u as [|a u].
  { destruct (writes _ _ _ _) as [tr cur]. destruct (writes _ _ _ _) as [tr' ?].
    cbn [fst app]. right. right. by left. }
  destruct (writes no_faults 0 [] (header_writes name)) as [tr cur] eqn:E1.
  pose proof (writes_ok no_faults 0 [] (header_writes name) ltac:(done)) as H1. rewrite E1 in H1. cbn [snd app] in H1.
  subst cur. pose proof (Hcut 0 [] (header_writes name)) as C1. rewrite E1 in C1. cbn [fst app] in C1.
  destruct (writes no_faults 6 (concat (header_writes name)) [payload; footer_write]) as [tr' fin] eqn:E2.
  pose proof (Hcut 6 (concat (header_writes name)) [payload; footer_write]) as C2. rewrite E2 in C2. cbn [fst] in C2.
  assert (Eall : pkged_file name payload = concat (header_writes name) ++ concat [payload; footer_write]).
  { rewrite header_concat. cbn [concat]. unfold pkged_file, footer_write. rewrite app_nil_r, <- !app_assoc. done. }
  rewrite Eall in E. cbn [fst]. apply elem_of_app.
  apply app_eq_app in E as (x & [[Eh Ev]|[Eu Ep]]).
  - left. cbn [app]. right. right. right. by eapply C1.
  - destruct x as [|b x].
    + left. cbn [app]. right. right. right. rewrite app_nil_r in Eu. rewrite Eu. eapply (C1 _ []); [by rewrite app_nil_r|].
      by rewrite <- Eu.
    + right. rewrite Eu. by eapply C2.
Qed.

(** When Stuff fails the header stays behind. *)
Theorem C42_stuff_error name e :
  (package no_faults None (Ok name) (SErr e)).2 = Some e /\
  ~ none_or_complete (final (package no_faults None (Ok name) (SErr e)).1).
Proof.
  unfold package. cbn [ft_create no_faults].
  destruct (writes no_faults 0 [] (header_writes name)) as [tr cur] eqn:E1.
  pose proof (writes_ok no_faults 0 [] (header_writes name) ltac:(done)) as H1. rewrite E1 in H1. cbn [snd app] in H1.
  subst cur. pose proof (writes_final no_faults 0 [] (header_writes name)) as H2. rewrite E1 in H2.
  cbn [fst snd] in *. split; [done|]. unfold final. cbn [app]. rewrite !last_cons.
  destruct (last tr) as [x|]; cbn [default] in *.
  - rewrite H2. apply prefix_incomplete. rewrite header_concat, last_snoc. done.
  - apply prefix_incomplete. done.
Qed.
Theorem C42_stuff_error_refuted :
  exists name e, let r := package no_faults None (Ok name) (SErr e) in r.2 = Some e /\ ~ none_or_complete (final r.1).
Proof. exists (B"main"), EParse. apply C42_stuff_error. Qed.

(** *** C43 *)

(** Failures to find the package, to create the file and to collect the data
    are reported; if no error is reported, no write failed and nothing
    panicked, the file is complete. *)
Theorem C43_reported_partial ft old cname st :
  (forall k, k < 8 -> ft_write ft k = None) -> st <> SPanic ->
  ((package ft old cname st).2 = None <->
   exists name payload, cname = Ok name /\ ft_create ft = None /\ st = SOk payload) /\
  ((package ft old cname st).2 = None ->
   exists name payload, cname = Ok name /\ st = SOk payload /\
     final (package ft old cname st).1 = Some (pkged_file name payload)).
Proof.
  intros Hw Hp.
  assert (H : (package ft old cname st).2 = None <->
    exists name payload, cname = Ok name /\ ft_create ft = None /\ st = SOk payload).
  { unfold package. destruct cname as [name|e]; [|split; [done|by intros (? & ? & ? & _)]].
    destruct (ft_create ft) as [e|]; [split; [done|by intros (? & ? & _ & ? & _)]|].
    destruct (writes _ _ _ _) as [tr cur]. destruct st as [payload|e|]; [|split; [done|by intros (? & ? & _ & _ & ?)]|done].
    destruct (writes _ _ _ _) as [tr' ?]. split; [|done]. intros _. by exists name, payload. }
  split; [done|]. intros He. apply H in He as (name & payload & -> & Hc & ->).
  exists name, payload. split; [done|]. split; [done|]. by apply package_final.
Qed.

Lemma writes_short ft k cur l :
  length (writes ft k cur l).2 <= length cur + length (concat l) /\
  forall j n b, ft_write ft j = Some n -> k <= j -> l !! (j - k) = Some b -> b <> [] ->
    length (writes ft k cur l).2 < length cur + length (concat l).
Proof.
  revert k cur. induction l as [|b l IH]; intros k cur; cbn [writes concat].
  - cbn [snd]. split; [cbn; lia|]. intros j n b _ _ H. by rewrite lookup_nil in H.
  - assert (Hs : length (stored ft k b) <= length b).
    { unfold stored. destruct (ft_write ft k); [rewrite take_length|]; lia. }
    specialize (IH (S k) (cur ++ stored ft k b)). destruct (writes ft (S k) (cur ++ stored ft k b) l) as [tr fin].
    cbn [snd] in *. rewrite !app_length in *. destruct IH as [IH1 IH2]. split; [lia|].
    intros j n b' Hj Hkj Hb Hne. destruct (decide (j = k)) as [->|Hjk].
    + rewrite Nat.sub_diag in Hb. injection Hb as ->.
      assert (length (stored ft k b') < length b'); [|lia].
      unfold stored. rewrite Hj, take_length. destruct b'; [done|]. cbn. lia.
    + replace (j - k) with (S (j - S k)) in Hb by lia. cbn in Hb.
      specialize (IH2 j n b' Hj ltac:(lia) Hb Hne). lia.
Qed.

(** Any failing write goes unreported and leaves less than the whole file. *)
Theorem C43_write (name payload : bytes) ft k n :
  ft_create ft = None -> ft_write ft k = Some n -> k < 8 -> (k = 6 -> payload <> []) ->
  (package ft None (Ok name) (SOk payload)).2 = None /\
  exists s, final (package ft None (Ok name) (SOk payload)).1 = Some s /\ length s < length (pkged_file name payload).
Proof.
  intros Hc Hw Hk Hpl. unfold package. rewrite Hc.
  pose proof (writes_short ft 0 [] (header_writes name)) as S1.
  pose proof (writes_final ft 0 [] (header_writes name)) as F1.
  destruct (writes ft 0 [] (header_writes name)) as [tr cur]. destruct S1 as [S1 S2].
  match goal with |- context [writes ft 6 cur ?l] =>
    pose proof (writes_short ft 6 cur l) as S3; pose proof (writes_final ft 6 cur l) as F2;
    destruct (writes ft 6 cur l) as [tr' fin] end.
  destruct S3 as [S3 S4]. cbn [fst snd] in *.
  split; [done|]. exists fin.
  assert (Eall : pkged_file name payload = concat (header_writes name) ++ concat [payload; footer_write]).
  { rewrite header_concat. cbn [concat]. unfold pkged_file, footer_write. rewrite app_nil_r, <- !app_assoc. done. }
  split.
  - unfold final. cbn [app]. rewrite !last_cons, last_app. destruct (last tr') as [x|] eqn:El; cbn [default] in *; [done|]. destruct (last tr) as [y|]; cbn [default] in *; exact (eq_trans F1 F2).
  - rewrite Eall, app_length. destruct (decide (k < 6)) as [Hk6|Hk6].
    + assert (exists b, header_writes name !! (k - 0) = Some b /\ b <> []) as (b & Hb & Hne).
      { do 6 (destruct k as [|k]; [eexists; split; [reflexivity|done]|]). lia. }
      specialize (S2 k n b Hw ltac:(lia) Hb Hne). cbn [length] in *. lia.
    + assert (exists b, [payload; footer_write] !! (k - 6) = Some b /\ b <> []) as (b & Hb & Hne).
      { destruct (decide (k = 6)) as [->|]; [exists payload; auto|].
        assert (k = 7) as -> by lia. exists footer_write. done. }
      specialize (S4 k n b Hw ltac:(lia) Hb Hne). cbn [length] in *. lia.
Qed.
Theorem C43_write_refuted :
  exists name payload ft k n, ft_write ft k = Some n /\ k < 8 /\
    let r := package ft None (Ok name) (SOk payload) in
    r.2 = None /\ exists s, final r.1 = Some s /\ length s < length (pkged_file name payload).
Proof.
  exists (B"main"), (B"00ff"), (Faults (fun _ => false) None (fun k => if Nat.eqb k 6 then Some 2 else None)), 6, 2.
  split; [done|]. split; [lia|]. by apply (C43_write _ _ _ 6 2); [..|lia|].
Qed.

(** A panic during packing is swallowed: no error, and no file. *)
Theorem C43_panic name :
  package no_faults None (Ok name) SPanic = ((package no_faults None (Ok name) SPanic).1, None) /\
  final (package no_faults None (Ok name) SPanic).1 = None.
Proof.
  unfold package. cbn [ft_create no_faults]. destruct (writes _ _ _ _) as [tr cur]. split; [done|].
  unfold final. cbn [fst]. by rewrite last_snoc.
Qed.
Theorem C43_panic_refuted :
  exists name, let r := package no_faults None (Ok name) SPanic in r.2 = None /\ final r.1 = None.
Proof. exists (B"main"). destruct (C43_panic (B"main")) as [-> H]. exact (conj eq_refl H). Qed.

(** *** C73 *)

(** A run of `pkger` that fails while looking for declarations deletes the
    file generated by the previous run. *)
Theorem C73_previous_output ft old e cname st :
  (forall k, ft_rm ft k = false) ->
  exec_pack ft old (Some e) cname st = ([old; None], Some e).
Proof. intros Hr. unfold exec_pack, remove_out. by rewrite Hr. Qed.
Theorem C73_previous_output_refuted :
  exists old e name, let r := exec_pack no_faults (Some old) (Some e) (Ok name) (SOk (B"00ff")) in r.2 = Some e /\ final r.1 = None.
Proof. exists (B"old"), EParse, (B"main"). by vm_compute. Qed.

(** A run that succeeds leaves the new file, whatever was there before. *)
Theorem C73_replaced_partial ft old name payload :
  ft_create ft = None -> (forall k, k < 8 -> ft_write ft k = None) ->
  (exec_pack ft old None (Ok name) (SOk payload)).2 = None /\
  final (exec_pack ft old None (Ok name) (SOk payload)).1 = Some (pkged_file name payload).
Proof.
  intros Hc Hw. unfold exec_pack. pose proof (package_final ft (remove_out ft 2 old) name payload Hc Hw) as H.
  destruct (package ft (remove_out ft 2 old) (Ok name) (SOk payload)) as [tr e] eqn:E. cbn [fst snd] in *. split.
  - unfold package in E. rewrite Hc in E. destruct (writes _ _ _ _) as [? cur]. destruct (writes _ _ _ _). by injection E as _ <-.
  - unfold final in *. rewrite last_cons. by destruct (last tr).
Qed.

Example C73_ex :
  let r := exec_pack no_faults (Some (B"old")) None (Ok (B"main")) (SOk (B"00ff")) in
  r.2 = None /\ final r.1 = Some (pkged_file (B"main") (B"00ff")) /\
  exec_pack no_faults (Some (B"old")) (Some EParse) (Ok (B"main")) (SOk (B"00ff")) = ([Some (B"old"); None], Some EParse).
Proof. by vm_compute. Qed.

Example C42_ex :
  let r := package no_faults (Some (B"old")) (Ok (B"main")) (SOk (B"00ff")) in
  r.2 = None /\ final r.1 = Some (pkged_file (B"main") (B"00ff")) /\ length r.1 = 3 + length (pkged_file (B"main") (B"00ff")).
Proof. by vm_compute. Qed.

Example C43_ex :
  let ft := Faults (fun _ => false) None (fun k => if Nat.eqb k 6 then Some 2 else None) in
  let r := package ft None (Ok (B"main")) (SOk (B"00ff")) in
  r.2 = None /\ final r.1 = Some (pkged_file (B"main") (B"00")).
Proof. by vm_compute. Qed.
