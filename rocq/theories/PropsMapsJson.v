(** The JSON of the maps in internal/maps. *)
From Verif Require Import Bytes GoPath Here GoTypes Mem JsonStr JsonText Embed JsonSpec RawJson Marshal MapsJson MemBase MemSpec.
From Coq Require Import Sorting.Sorted.

(** ** Specification *)

(** What can be written as JSON and is not changed by it. *)
Definition infos_ok (m : gmap bytes hinfo) : Prop := forall k i, m !! k = Some i -> utf8 k /\ info_ok i.

(** A call that stores nothing and leaves a fresh map without its sync.Map:
    UnmarshalJSON of null, of an object without members, or of a text that is
    not an object of infos. *)
Definition quiet (o : iop) : Prop :=
  match o with
  | IUnmarshal b =>
      forall k v l, raw_text b (RObj ((k, v) :: l)) -> exists k' v', (k', v') ∈ (k, v) :: l /\ r_hinfo [v'] = None
  | _ => False
  end.

(** ** Proofs *)
Global Instance ble_tot : Total (fun a b => ble a b = true).
Proof. intros a b. apply ble_total. Qed.
Global Instance ble_trn : Transitive (fun a b => ble a b = true).
Proof. intros a b c. apply ble_trans. Qed.
Lemma range_infos_perm (m : gmap bytes hinfo) l : l ≡ₚ map_to_list m -> range_infos l = m.
Proof. apply foldl_insert_perm. Qed.

Lemma r_entries_empty {A} (f : list rjson -> option A) (l : list (bytes * rjson)) (acc m : gmap bytes A) :
  r_entries f acc l = Some m -> m = ∅ -> acc = ∅ /\ l = [].
Proof.
  revert acc. induction l as [|[k v] l IH]; intros acc H Hm; cbn [r_entries] in H; [by injection H as ->|].
  destruct (f [v]) as [x|]; [|done]. destruct (IH _ H Hm) as [Ha _]. by apply insert_non_empty in Ha.
Qed.
Lemma r_entries_none {A} (f : list rjson -> option A) (l : list (bytes * rjson)) (acc : gmap bytes A) :
  r_entries f acc l = None <-> exists k v, (k, v) ∈ l /\ f [v] = None.
Proof.
  revert acc. induction l as [|[k v] l IH]; intros acc; cbn [r_entries].
  - split; [done|]. intros (k & v & H & _). by apply elem_of_nil in H.
  - destruct (f [v]) as [x|] eqn:E.
    + rewrite IH. split; intros (k' & v' & H & Hf); exists k', v'; [split; [by right|done]|].
      apply elem_of_cons in H as [[= -> ->]|H]; [congruence|done].
    + split; [|done]. intros _. exists k, v. split; [by left|done].
Qed.

Lemma quiet_spec o : (i_do None o = None) <-> quiet o.
Proof.
  destruct o as [k v|k|k| |b]; cbn [i_do quiet]; try (split; done). unfold i_unmarshal.
  assert (Hr : forall l, raw_text b (RObj l) <-> read_raw b = Some (RObj l)) by (intros l; symmetry; apply read_raw_iff).
  destruct (read_raw b) as [j|] eqn:E; cbn [mbind option_bind fst].
  2: { split; [|done]. intros _ k v l H. by apply Hr in H. }
  destruct j as [ |x|z|s|l|l]; try (split; [intros _ k v l' H; by apply Hr in H|done]).
  unfold r_map. destruct (r_entries r_hinfo ∅ l) as [mm|] eqn:Em; cbn [fst].
  - case_bool_decide as Hb.
    + split; [|done]. intros _ k v l' H. apply Hr in H as [= ->]. by destruct (r_entries_empty _ _ _ _ Em Hb) as [_ ?].
    + split; [done|]. intros H. exfalso. destruct l as [|[k v] l]; [by injection Em as <-|].
      assert (Hn : r_entries r_hinfo ∅ ((k, v) :: l) = None) by (apply r_entries_none, H, Hr; done). congruence.
  - split; [|done]. intros _ k v l' H. apply Hr in H as [= ->]. by apply r_entries_none in Em.
Qed.
Lemma i_do_some m o : is_Some (i_do (Some m) o).
Proof.
  destruct o; cbn [i_do]; try by eexists. unfold i_unmarshal.
  destruct (read_raw b ≫= _); cbn [fst]; [case_bool_decide|]; by eexists.
Qed.
Lemma i_run_some m ops : is_Some (i_run (Some m) ops).
Proof.
  revert m. induction ops as [|o ops IH]; intros m; [by eexists|]. cbn. destruct (i_do_some m o) as [m' ->]. apply IH.
Qed.

(** ** C116: the JSON of an Infos map reads back as that map *)

Theorem C116_round_partial (m : gmap bytes hinfo) (st : imap) l :
  infos_ok m -> l ≡ₚ map_to_list m ->
  exists b r, i_marshal (Some m) l = Done b /\ i_unmarshal st b = (r, None) /\
    forall k, i_data r !! k = match m !! k with Some i => Some i | None => i_data st !! k end.
Proof.
  intros Hok Hl. exists (write_json (j_map j_info m)). unfold i_marshal, i_unmarshal. rewrite (range_infos_perm m l Hl), read_raw_write.
  assert (Hd : r_map r_hinfo [raw_of (j_map j_info m)] = Some m).
  { rewrite (r_map_round r_hinfo id); [by rewrite map_fmap_id|]. intros k i Hi. destruct (Hok k i Hi). split; [done|by apply r_info_round]. }
  cbn [mbind option_bind]. rewrite Hd. eexists. split; [done|]. split; [done|]. intros k.
  case_bool_decide as He.
  - subst m. by rewrite lookup_empty.
  - cbn [i_data default from_option id]. destruct (m !! k) as [i|] eqn:E; [by apply lookup_union_Some_l|].
    by rewrite lookup_union_r.
Qed.

(** The text does not depend on the order of the Range. *)
Theorem C116_order (m : gmap bytes hinfo) l l' :
  l ≡ₚ map_to_list m -> l' ≡ₚ map_to_list m -> i_marshal (Some m) l = i_marshal (Some m) l'.
Proof. intros H H'. unfold i_marshal. by rewrite (range_infos_perm m l), (range_infos_perm m l'). Qed.

(** Keys: every key once, in order. *)
Theorem C116_keys (m : gmap bytes hinfo) l :
  l ≡ₚ map_to_list m ->
  StronglySorted (fun a b => ble a b = true) (i_keys l) /\ NoDup (i_keys l) /\ forall k, k ∈ i_keys l <-> is_Some (m !! k).
Proof.
  intros Hl. assert (Hp : i_keys l ≡ₚ (map_to_list m).*1) by (unfold i_keys; rewrite merge_sort_Permutation; by rewrite Hl).
  split; [|split].
  - apply (StronglySorted_merge_sort (fun a b => ble a b = true)).
  - rewrite Hp. apply NoDup_fst_map_to_list.
  - intros k. rewrite Hp, elem_of_list_fmap. split.
    + intros ([k' i] & -> & H). apply elem_of_map_to_list in H. by eexists.
    + intros [i Hi]. exists (k, i). split; [done|]. by apply elem_of_map_to_list.
Qed.

(** MarshalJSON of a map panics exactly if nothing but UnmarshalJSON without
    result has been called on it. *)
Theorem C116_panics ops l : i_marshal (i_run None ops) l = Panicked <-> Forall quiet ops.
Proof.
  induction ops as [|o ops IH]; [by split|]. cbn. destruct (i_do None o) as [m|] eqn:E.
  - destruct (i_run_some m ops) as [m' Hm]. unfold i_run in Hm. rewrite Hm. split; [done|]. intros [H _]%Forall_cons.
    apply quiet_spec in H. congruence.
  - fold (i_run None ops). rewrite IH, Forall_cons. apply quiet_spec in E. tauto.
Qed.

(** So it panics for a map that was read, without error, from its own JSON. *)
Theorem C116_refuted :
  exists l b, i_marshal (Some ∅) l = Done b /\ (i_unmarshal None b).2 = None /\
    i_marshal (i_unmarshal None b).1 [] = Panicked.
Proof. exists [], (B"{}"). by vm_compute. Qed.

Definition info_ex : hinfo := HInfo (B"/src/app") (B"app") (B"main") (B"app") true (B"/src/app") (B"/src/app/go.mod") (B"1.13").
Definition infos_ex : gmap bytes hinfo := {[B"app" := info_ex]}.
Example C116_ex :
  infos_ok infos_ex /\ [(B"app", info_ex)] ≡ₚ map_to_list infos_ex /\
  i_run None [IUnmarshal (B"{}"); ILoad (B"x"); IStore (B"app") info_ex] = Some infos_ex /\
  quiet (IUnmarshal (B"{}")) /\ quiet (IUnmarshal (B"[1]")) /\ ~ quiet (ILoad (B"x")) /\
  i_keys [(B"b", info_ex); (B"a", info_ex)] = [B"a"; B"b"].
Proof.
  split; [|split; [|split; [|split; [|split; [|split]]]]].
  - intros k i Hi. unfold infos_ex in Hi. apply lookup_singleton_Some in Hi as [<- <-]. split; [apply ascii_utf8; repeat constructor|].
    split; apply ascii_utf8; repeat constructor.
  - unfold infos_ex. by rewrite map_to_list_singleton.
  - by vm_compute.
  - apply quiet_spec. by vm_compute.
  - apply quiet_spec. by vm_compute.
  - intros H. exact H.
  - by vm_compute.
Qed.

(** ** C117: the JSON of a Files map reads back as that map *)

Lemma path_text_inj p q : path_ok p -> path_ok q -> write_json (j_path p) = write_json (j_path q) -> p = q.
Proof.
  intros Hp Hq H. assert (E : clean_json (j_path p) = clean_json (j_path q)).
  { pose proof (json_round (j_path p)) as H1. rewrite H, json_round in H1. apply (inj Some) in H1. done. }
  pose proof (d_path_round p Hp) as H1. rewrite E, d_path_round in H1 by done. by injection H1.
Qed.

Lemma f_range_lookup (l : list (path * fval)) (k : path) (v : fval) (acc : gmap bytes fval) :
  NoDup l.*1 -> Forall (fun x : path * fval => path_ok x.1) l -> (k, v) ∈ l ->
  foldl (fun acc (kv : path * fval) => <[write_json (j_path kv.1) := kv.2]> acc) acc l !! write_json (j_path k) = Some v.
Proof.
  intros Hn Hok Hin.
  assert (Hout : forall l (acc : gmap bytes fval), Forall (fun x : path * fval => path_ok x.1) l -> path_ok k -> k ∉ l.*1 ->
    foldl (fun acc (kv : path * fval) => <[write_json (j_path kv.1) := kv.2]> acc) acc l !! write_json (j_path k) = acc !! write_json (j_path k)).
  { clear. induction l as [|[k' v'] l IH]; intros acc Hok Hk Hni; [done|]. cbn [foldl fst snd].
    apply Forall_cons in Hok as [H1 H2]. cbn [fmap list_fmap fst] in Hni. apply not_elem_of_cons in Hni as [Hne Hni].
    rewrite IH by done. apply lookup_insert_ne. intros E. apply Hne. symmetry. by eapply path_text_inj. }
  revert acc. induction l as [|[k' v'] l IH]; intros acc; [by apply elem_of_nil in Hin|].
  cbn [foldl fst snd]. apply Forall_cons in Hok as [H1 H2]. cbn [fmap list_fmap fst] in Hn. apply NoDup_cons in Hn as [Hni Hn].
  apply elem_of_cons in Hin as [[= -> ->]|Hin]; [|by apply IH].
  rewrite Hout by done. apply lookup_insert.
Qed.

(** As soon as it holds one file, it does not: reading fails and changes
    nothing, whatever the receiver. *)
Theorem C117_never (m : gmap path fval) l order st k h :
  (forall k, is_Some (m !! k) -> path_ok k) -> l ≡ₚ map_to_list m -> m !! k = Some (Some h) ->
  f_unmarshal order st (f_marshal l) = (st, Some bad_json).
Proof.
  intros Hok Hl Hk. unfold f_unmarshal, f_marshal. rewrite read_raw_write. cbn [mbind option_bind].
  unfold j_map, r_map. cbn [raw_of]. fold raw_of.
  assert (Hr : f_range l !! write_json (j_path k) = Some (Some h)).
  { apply f_range_lookup.
    - rewrite Hl. apply NoDup_fst_map_to_list.
    - apply Forall_forall. intros [p v] Hin. rewrite Hl in Hin. apply elem_of_map_to_list in Hin. apply Hok. by eexists.
    - rewrite Hl. by apply elem_of_map_to_list. }
  apply elem_of_map_to_list in Hr. rewrite <- sorted_entries_perm in Hr.
  assert (Hn : forall l acc, (exists k v, (k, v) ∈ l /\ r_fval [v] = None) -> r_entries r_fval acc l = None) by (intros; by apply r_entries_none).
  rewrite Hn; [done|]. eexists _, _. split.
  - apply elem_of_list_fmap. eexists (_, _). split; [done|]. apply elem_of_list_fmap. eexists (_, _). split; [done|exact Hr].
  - done.
Qed.

(** Reading null entries stores them; Keys then stops at one of them, so what
    it lists depends on the order of sync.Map's Range. *)
Definition null_text : bytes := write_json (JObj [(write_json (j_path (Path (B"app") (B"/b"))), JNull)]).
Theorem C117_null_refuted :
  exists m l l', (f_unmarshal id (Some {[Path (B"app") (B"/a") := Some info_ex]}) null_text) = (Some m, None) /\
    l ≡ₚ map_to_list m /\ l' ≡ₚ map_to_list m /\ f_lookup (Some m) (Path (B"app") (B"/a")) = Some info_ex /\
    f_ranged l = [Path (B"app") (B"/a")] /\ f_ranged l' = [].
Proof.
  exists (<[Path (B"app") (B"/b") := None]> {[Path (B"app") (B"/a") := Some info_ex]}),
    [(Path (B"app") (B"/a"), Some info_ex); (Path (B"app") (B"/b"), None)], [(Path (B"app") (B"/b"), None); (Path (B"app") (B"/a"), Some info_ex)].
  split; [by vm_compute|].
  assert (H : map_to_list (<[Path (B"app") (B"/b") := None]> ({[Path (B"app") (B"/a") := Some info_ex]} : gmap path fval)) ≡ₚ
    [(Path (B"app") (B"/b"), None); (Path (B"app") (B"/a"), Some info_ex)]).
  { rewrite map_to_list_insert by (by apply lookup_singleton_ne). by rewrite map_to_list_singleton. }
  split; [rewrite H; apply perm_swap|]. split; [symmetry; exact H|]. by vm_compute.
Qed.

Example C117_ex :
  let k := Path (B"app") (B"/a") in
  path_ok k /\ [(k, Some info_ex)] ≡ₚ map_to_list ({[k := Some info_ex]} : gmap path fval) /\
  has_prefix (f_marshal [(k, Some info_ex)]) (B"{""{\""Pkg\"":\""app\"",\""Name\"":\""/a\""}"":{""Here"":{""Dir"":""/src/app""") = true.
Proof.
  split; [split; apply ascii_utf8; repeat constructor|]. split; [by rewrite map_to_list_singleton|by vm_compute].
Qed.
