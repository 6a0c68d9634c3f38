(** Model of /repo/pkging/mem/embed.go (MarshalJSON, UnmarshalJSON,
    UnmarshalEmbed) with the struct types it marshals:
    pkging/embed/{embed,file}.go, pkging/{file_info,mod_time}.go and the
    dependency's here.Info, here.Module, here.Path (their JSON field names and
    order are those of the listings in README.md:289-303).

    encoding/json is modelled from the Go standard library; see Decode.v for how
    a text is stored into these structs.  Simplification: a file without "info"
    is refused here (Go stores a nil info, see NilInfo.v).  The two Go values
    nil and []byte{} are one, written as null. *)
From Verif Require Import Bytes GoPath Here GoTypes Mem GoNum GoTimeFmt JsonStr JsonText Base64 Embed JsonSpec RawJson.
From Verif Require Export Decode.

(** embed.Data, embed.go:51-55. *)
Record edata := EData {
  y_infos : gmap bytes hinfo;
  y_files : gmap bytes efile;
  y_here : hinfo
}.

(** ** Marshalling *)

Definition j_info (i : hinfo) : json :=
  JObj [(B"Dir", JStr (h_dir i)); (B"ImportPath", JStr (h_import i));
        (B"Module", JObj [(B"Path", JStr (h_mpath i)); (B"Main", JBool (h_mmain i));
                          (B"Dir", JStr (h_mdir i)); (B"GoMod", JStr (h_mgomod i));
                          (B"GoVersion", JStr (h_mgover i))]);
        (B"Name", JStr (h_name i))].

Definition j_path (p : path) : json :=
  JObj [(B"Pkg", JStr (p_pkg p)); (B"Name", JStr (p_name p))].

(** file_info.go:9-20, mod_time.go:12-15. *)
Definition j_details (d : details) : json :=
  JObj [(B"details",
    JObj [(B"name", JStr (d_name d)); (B"size", JNum (d_size d)); (B"mode", JNum (Z.of_N (d_mode d)));
          (B"mod_time", JStr (format_time (d_mtime d))); (B"is_dir", JBool (d_isdir d));
          (B"sys", d_sys d)])].

Definition j_data (b : bytes) : json :=
  match b with [] => JNull | _ => JStr (b64_encode b) end.

(** embed/file.go:8-14. *)
Definition j_file (f : efile) : json :=
  JObj [(B"info", j_details (e_info f)); (B"her", j_info (e_here f)); (B"path", j_path (e_path f));
        (B"data", j_data (e_data f)); (B"parent", j_path (e_parent f))].

(** A Go map with string keys: json.Marshal sorts the keys. *)
Definition entry_le {A} (a b : bytes * A) : Prop := ble a.1 b.1 = true.
Global Instance entry_le_dec {A} (a b : bytes * A) : Decision (entry_le a b).
Proof. unfold entry_le. apply _. Defined.
Definition sorted_entries {A} (m : gmap bytes A) : list (bytes * A) := merge_sort entry_le (map_to_list m).
Definition j_map {A} (f : A -> json) (m : gmap bytes A) : json :=
  JObj (map (fun kv => (kv.1, f kv.2)) (sorted_entries m)).

Definition j_edata (y : edata) : json :=
  JObj [(B"infos", j_map j_info (y_infos y)); (B"files", j_map j_file (y_files y));
        (B"here", j_info (y_here y))].

(** The map built by one Range over the files, embed.go:14-30: [l] lists the
    stored (path, file) pairs in the order Range delivers them; a later entry
    replaces an earlier one with the same printed path. *)
Definition range_files (m : mem) (l : list (path * ref)) : gmap bytes efile :=
  foldl (fun acc kv => match m_heap m !! kv.2 with
                       | Some f => <[path_string kv.1 := efile_of f]> acc
                       | None => acc
                       end) ∅ l.

(** The same for the infos, embed.go:32-36. *)
Definition range_infos (l : list (bytes * hinfo)) : gmap bytes hinfo :=
  foldl (fun acc kv => <[kv.1 := kv.2]> acc) ∅ l.

(** Pkger.MarshalJSON, embed.go:13-43, for given Range orders. *)
Definition marshal_json (m : mem) (fl : list (path * ref)) (il : list (bytes * hinfo)) : bytes :=
  write_json (j_edata (EData (range_infos il) (range_files m fl) (m_here m))).

(** ** Reading a JSON tree back

    Used to say what the texts written above and by the commands mean.  A member
    is found by its exact name, and the last one counts. *)

Fixpoint field (k : bytes) (l : list (bytes * json)) : option json :=
  match l with
  | [] => None
  | (k', v) :: l =>
      match field k l with
      | Some x => Some x
      | None => if bool_decide (k = k') then Some v else None
      end
  end.

(** Readers of Go values; a missing field or null leaves the zero value. *)
Definition d_str (j : option json) : option bytes :=
  match j with
  | None | Some JNull => Some []
  | Some (JStr s) => Some s
  | _ => None
  end.
Definition d_bool (j : option json) : option bool :=
  match j with
  | None | Some JNull => Some false
  | Some (JBool b) => Some b
  | _ => None
  end.
Definition d_int (lo hi : Z) (j : option json) : option Z :=
  match j with
  | None | Some JNull => Some 0%Z
  | Some (JNum z) => if (lo <=? z)%Z && (z <? hi)%Z then Some z else None
  | _ => None
  end.
Definition d_time (j : option json) : option gotime :=
  match j with
  | None | Some JNull => Some zero_time
  | Some (JStr s) => parse_time s
  | _ => None
  end.
Definition d_obj (j : option json) : option (list (bytes * json)) :=
  match j with
  | None | Some JNull => Some []
  | Some (JObj l) => Some l
  | _ => None
  end.

Definition d_hinfo (j : option json) : option hinfo :=
  l ← d_obj j;
  dir ← d_str (field (B"Dir") l); imp ← d_str (field (B"ImportPath") l); name ← d_str (field (B"Name") l);
  ml ← d_obj (field (B"Module") l);
  mp ← d_str (field (B"Path") ml); mm ← d_bool (field (B"Main") ml); md ← d_str (field (B"Dir") ml);
  mg ← d_str (field (B"GoMod") ml); mv ← d_str (field (B"GoVersion") ml);
  Some (HInfo dir imp name mp mm md mg mv).

Definition d_path (j : option json) : option path :=
  l ← d_obj j; g ← d_str (field (B"Pkg") l); n ← d_str (field (B"Name") l); Some (Path g n).

Definition d_details (j : option json) : option details :=
  match j with
  | None | Some JNull => None
  | _ =>
      ol ← d_obj j; l ← d_obj (field (B"details") ol);
      name ← d_str (field (B"name") l); size ← d_int (- 2^63) (2^63) (field (B"size") l);
      mode ← d_int 0 (2^32) (field (B"mode") l); mt ← d_time (field (B"mod_time") l);
      dir ← d_bool (field (B"is_dir") l);
      Some (Details name size (Z.to_N mode) mt dir (default JNull (field (B"sys") l)))
  end.

Fixpoint d_entries {A} (f : option json -> option A) (l : list (bytes * json)) : option (list (bytes * A)) :=
  match l with
  | [] => Some []
  | (k, v) :: l => x ← f (Some v); r ← d_entries f l; Some ((k, x) :: r)
  end.

(** A Go map: a later entry with the same key wins. *)
Definition d_map {A} (f : option json -> option A) (j : option json) : option (gmap bytes A) :=
  l ← d_obj j; es ← d_entries f l; Some (foldl (fun acc (kv : bytes * A) => <[kv.1 := kv.2]> acc) ∅ es).

(** ** Unmarshalling *)

(** How a call ends. *)
Inductive outcome (A : Type) := Done (x : A) | Failed (e : gerr) | Panicked.
Global Arguments Done {A}. Global Arguments Failed {A}. Global Arguments Panicked {A}.

Definition bad_json : gerr := EMsg (B"json").

(** A file that was given an info. *)
Definition whole (f : nfile) : option efile :=
  d ← n_info f; Some (EFile d (n_here f) (n_path f) (n_data f) (n_parent f)).
Definition has_info (kv : bytes * nfile) : bool := match n_info kv.2 with Some _ => true | None => false end.

(** Pkger.UnmarshalJSON, embed.go:46-79.  [order] is the order in which the
    range loop visits the file table.  The text null makes y nil (:47-53), so
    :57 dereferences a nil pointer. *)
Definition unmarshal_json (parse : resolver) (order : list (bytes * efile) -> list (bytes * efile))
    (b : bytes) : outcome mem :=
  match read_raw b with
  | Some RNull => Panicked
  | Some (RObj l) =>
      match r_data l with
      | Some y =>
          if forallb has_info (map_to_list (nd_files y)) then
            match load parse (nd_here y) (nd_infos y) (order (map_to_list (omap whole (nd_files y)))) with
            | Ok m => Done m
            | Err e => Failed e
            end
          else Failed bad_json
      | None => Failed bad_json
      end
  | _ => Failed bad_json
  end.

(** UnmarshalEmbed, embed.go:81-92. *)
Definition unmarshal_embed (gunzip : bytes -> res bytes) (parse : resolver)
    (order : list (bytes * efile) -> list (bytes * efile)) (src : bytes) : outcome mem :=
  match decode gunzip src with
  | Err e => Failed e
  | Ok b => unmarshal_json parse order b
  end.

(** ** Specification: what the JSON form can hold *)

Record info_ok (i : hinfo) : Prop := {
  io_dir : utf8 (h_dir i); io_import : utf8 (h_import i); io_name : utf8 (h_name i);
  io_mpath : utf8 (h_mpath i); io_mdir : utf8 (h_mdir i); io_gomod : utf8 (h_mgomod i);
  io_gover : utf8 (h_mgover i)
}.
Definition path_ok (p : path) : Prop := utf8 (p_pkg p) /\ utf8 (p_name p).

(** A Sys value whose strings are UTF-8 and whose numbers float64 holds. *)
Fixpoint sys_ok (j : json) : Prop :=
  match j with
  | JNum z => (- 2^53 <= z <= 2^53)%Z
  | JStr s => utf8 s
  | JArr l => fold_right (fun j P => sys_ok j /\ P) True l
  | JObj l => fold_right (fun kv P => utf8 kv.1 /\ sys_ok kv.2 /\ P) True l
  | _ => True
  end.

(** A Sys value that comes back from its JSON form as it was: its objects list
    their members by key.  (The Stat_t of Linux does not; see PropsSys.v.) *)
Fixpoint sys_sorted (j : json) : Prop :=
  match j with
  | JArr l => fold_right (fun j P => sys_sorted j /\ P) True l
  | JObj l => StronglySorted (fun a b => blt a b = true) l.*1 /\ fold_right (fun kv P => sys_sorted kv.2 /\ P) True l
  | _ => True
  end.

Record details_ok (d : details) : Prop := {
  do_name : utf8 (d_name d);
  do_size : (- 2^63 <= d_size d < 2^63)%Z;
  do_mode : (d_mode d < 2^32)%N;
  do_time : representable (d_mtime d);
  do_sys : sys_ok (d_sys d)
}.

Definition info_fixed (d : details) : Prop := details_ok d /\ sys_sorted (d_sys d).

Record efile_ok (f : efile) : Prop := {
  eo_info : info_fixed (e_info f); eo_here : info_ok (e_here f);
  eo_path : path_ok (e_path f); eo_parent : path_ok (e_parent f)
}.

Record edata_ok (y : edata) : Prop := {
  yo_infos : forall k i, y_infos y !! k = Some i -> utf8 k /\ info_ok i;
  yo_files : forall k f, y_files y !! k = Some f -> utf8 k /\ efile_ok f;
  yo_here : info_ok (y_here y)
}.

(** ** Proofs: the JSON layer *)

Lemma clean_sys j : sys_ok j -> clean_json j = j.
Proof.
  induction j as [ |b|z|s|l IH|l IH] using json_rec; cbn [sys_ok clean_json]; intros H; try done.
  - f_equal. by apply sanitize_utf8.
  - f_equal. induction IH as [|x l Hx Hl IHl]; [done|]. cbn [fold_right] in H. destruct H as [H1 H2].
    cbn [map]. rewrite Hx, IHl by done. done.
  - f_equal. induction IH as [|[k x] l Hx Hl IHl]; [done|]. cbn [fold_right fst snd] in H. destruct H as (H1 & H2 & H3).
    cbn [map fst snd] in *. rewrite Hx, IHl, sanitize_utf8 by done. done.
Qed.

Lemma put_member_last k x l : Forall (fun kv => blt kv.1 k = true) l -> put_member k x l = l ++ [(k, x)].
Proof.
  induction 1 as [|[k' x'] l Hk _ IH]; [done|]. cbn [fst] in Hk. cbn [put_member].
  apply blt_spec in Hk as [Hle Hne]. rewrite bool_decide_eq_false_2 by done.
  assert (blt k k' = false) as ->; [|by rewrite IH]. unfold blt. by rewrite Hle.
Qed.
Lemma by_key_sorted l : StronglySorted (fun a b => blt a b = true) l.*1 -> by_key l = l.
Proof.
  intros H. unfold by_key.
  enough (G : forall acc, Forall (fun kv : bytes * json => Forall (fun kv' : bytes * json => blt kv'.1 kv.1 = true) acc) l ->
    foldl (fun acc kv => put_member kv.1 kv.2 acc) acc l = acc ++ l).
  { rewrite (G []); [done|]. by apply Forall_true. }
  induction l as [|[k x] l IH]; intros acc Hacc; cbn [foldl]; [by rewrite app_nil_r|].
  cbn [fmap list_fmap fst] in H. inversion H as [|? ? Hs Hf]; subst. apply Forall_cons in Hacc as [Hk Hacc].
  cbn [fst snd] in *. rewrite put_member_last by done. rewrite IH; [by rewrite <- app_assoc|done|].
  apply Forall_forall. intros kv Hkv. apply Forall_app. split; [by eapply Forall_forall in Hacc|].
  apply Forall_singleton. cbn [fst]. eapply Forall_forall in Hf; [exact Hf|]. apply elem_of_list_fmap. by exists kv.
Qed.
Lemma go_sys_sorted j : sys_ok j -> sys_sorted j -> go_sys j = j.
Proof.
  induction j as [ |b|z|s|l IH|l IH] using json_rec; cbn [sys_ok sys_sorted go_sys]; intros H Hs; try done.
  - f_equal. by apply sanitize_utf8.
  - f_equal. induction IH as [|x l Hx Hl IHl]; [done|]. cbn [fold_right] in H, Hs. destruct H as [H1 H2], Hs as [S1 S2].
    cbn [map]. rewrite Hx, IHl by done. done.
  - destruct Hs as [Hsort Hs]. f_equal.
    assert (map (fun kv : bytes * json => (sanitize kv.1, go_sys kv.2)) l = l) as ->; [|by apply by_key_sorted].
    clear Hsort. induction IH as [|[k x] l Hx Hl IHl]; [done|]. cbn [fold_right fst snd] in H, Hs. destruct H as (H1 & H2 & H3), Hs as [S1 S2].
    cbn [map fst snd] in *. rewrite Hx, IHl, sanitize_utf8 by done. done.
Qed.

Ltac clean_keys :=
  cbn [clean_json map fst snd];
  repeat match goal with |- context [sanitize (B ?s)] => change (sanitize (B s)) with (B s) end.

(** Looking up the fields of the objects written above. *)
Lemma field_hd k v l : field k l = None -> field k ((k, v) :: l) = Some v.
Proof. intros H. cbn [field]. by rewrite H, bool_decide_eq_true_2. Qed.
Lemma field_tl k k' v l x : field k l = x -> k <> k' -> field k ((k', v) :: l) = x.
Proof. intros H Hk. cbn [field]. rewrite H. destruct x; [done|]. by rewrite bool_decide_eq_false_2. Qed.

Ltac field_tac := first [apply field_hd; field_tac | apply field_tl; [field_tac|discriminate] | apply (eq_refl : field _ [] = None)].
Ltac one_field := match goal with |- context [field ?k ?l] => let H := fresh in
  eassert (H : field k l = _) by field_tac; rewrite H; clear H end.

Lemma d_info_round i : info_ok i -> d_hinfo (Some (clean_json (j_info i))) = Some i.
Proof.
  intros H. unfold j_info. clean_keys. rewrite !sanitize_utf8 by apply H. unfold d_hinfo. cbn [d_obj mbind option_bind].
  repeat (one_field; cbn [d_str d_bool d_obj mbind option_bind]). by destruct i.
Qed.

Lemma d_path_round p : path_ok p -> d_path (Some (clean_json (j_path p))) = Some p.
Proof.
  intros H. unfold j_path. clean_keys. rewrite !sanitize_utf8 by apply H. unfold d_path. cbn [d_obj mbind option_bind].
  repeat (one_field; cbn [d_str mbind option_bind]). by destruct p.
Qed.

Definition ascii_text (s : bytes) : Prop := Forall (fun c => is_ascii c = true) s.
(** Text that is its own spelling. *)
Definition safe_text (s : bytes) : Prop := Forall (fun c => is_ascii c && html_safe c = true) s.

Lemma safe_ascii s : safe_text s -> ascii_text s.
Proof. intros H. eapply Forall_impl; [exact H|]. intros c Hc. by apply andb_true_iff in Hc as [? _]. Qed.
Lemma esc_safe s : safe_text s -> esc s = s.
Proof.
  induction 1 as [|c s [H1 H2]%andb_true_iff _ IH]; [done|]. cbn [esc]. unfold esc_ascii. by rewrite H1, H2, IH.
Qed.

Lemma digits_safe s : Forall (fun c => is_digit c = true) s -> safe_text s.
Proof.
  intros H. eapply Forall_impl; [exact H|]. intros c Hc.
  assert (Hb : is_digit c && negb (is_ascii c && html_safe c) = false) by (by destruct c as [[] [] [] [] [] [] [] []]).
  rewrite Hc in Hb. by destruct (is_ascii c && html_safe c).
Qed.

Lemma append_int_safe w z : safe_text (append_int w z).
Proof.
  unfold append_int. destruct (z <? 0)%Z; [constructor; [done|]|]; apply digits_safe, pad_digits.
Qed.

Lemma format_nano_safe ns : safe_text (format_nano ns).
Proof.
  unfold format_nano. assert (H : safe_text (rev (trim_zeros_rev (rev (append_int 9 ns))))).
  { destruct (trim_zeros_rev_spec (rev (append_int 9 ns))) as [k Hk].
    pose proof (append_int_safe 9 ns) as Ha. rewrite <- (rev_involutive (append_int 9 ns)), Hk in Ha.
    rewrite rev_app_distr in Ha. apply Forall_app in Ha as [Ha _]. exact Ha. }
  destruct (rev _); [done|]. constructor; done.
Qed.

Lemma format_time_safe t : safe_text (format_time t).
Proof.
  unfold format_time. destruct (civil _) as [[y m] d]. cbv zeta.
  repeat first [apply append_int_safe | apply Forall_app; split | constructor; [done|]].
  - apply format_nano_safe.
  - unfold format_zone. destruct (_ =? 0)%Z; [repeat constructor|]. cbv zeta.
    apply List.Forall_cons; [by destruct (_ <? 0)%Z|].
    apply Forall_app; split; [apply append_int_safe|]. constructor; [done|]. apply append_int_safe.
Qed.
Lemma format_time_ascii t : ascii_text (format_time t).
Proof. apply safe_ascii, format_time_safe. Qed.

Lemma d_details_round d : details_ok d -> d_details (Some (clean_json (j_details d))) = Some d.
Proof.
  intros [H1 H2 H3 H4 H5]. unfold j_details. clean_keys.
  rewrite (sanitize_utf8 (d_name d)), (sanitize_utf8 (format_time _)), (clean_sys (d_sys d)) by (done || apply ascii_utf8, format_time_ascii).
  unfold d_details. cbn [d_obj mbind option_bind]. one_field. cbn [d_obj mbind option_bind].
  repeat one_field. cbn [d_str d_int d_time d_bool].
  rewrite time_round by done.
  destruct (Z.leb_spec (- 2^63) (d_size d)); [|lia]. destruct (Z.ltb_spec (d_size d) (2^63)); [|lia].
  destruct (Z.leb_spec 0 (Z.of_N (d_mode d))); [|lia]. destruct (Z.ltb_spec (Z.of_N (d_mode d)) (2^32)); [|lia].
  cbn [andb mbind option_bind default from_option id]. rewrite N2Z.id. by destruct d.
Qed.

Lemma b64_ascii s : ascii_text (b64_encode s).
Proof.
  eapply Forall_impl; [apply b64_encode_plain|]. intros c H. apply elem_of_existsb in H.
  assert (Hb : existsb (Ascii.eqb c) (B"ABCDEFGHIJKLMNOPQRSTUVWXYZabcdefghijklmnopqrstuvwxyz0123456789+/=") && negb (is_ascii c) = false)
    by (by destruct c as [[] [] [] [] [] [] [] []]).
  rewrite H in Hb. simpl in Hb. by destruct (is_ascii c).
Qed.

(** Go maps built entry by entry. *)
Lemma foldl_insert_app {A} (acc : gmap bytes A) l :
  foldl (fun acc (kv : bytes * A) => <[kv.1 := kv.2]> acc) acc l = list_to_map (rev l) ∪ acc.
Proof.
  revert acc. induction l as [|[k v] l IH]; intros acc; cbn [foldl rev fst snd].
  - rewrite list_to_map_nil. by rewrite map_empty_union.
  - rewrite IH, list_to_map_app, <- map_union_assoc. f_equal.
    by rewrite list_to_map_cons, list_to_map_nil, <- insert_union_l, map_empty_union.
Qed.

Lemma foldl_insert_perm {A} (m : gmap bytes A) l :
  l ≡ₚ map_to_list m -> foldl (fun acc (kv : bytes * A) => <[kv.1 := kv.2]> acc) ∅ l = m.
Proof.
  intros Hp. rewrite foldl_insert_app, map_union_empty.
  rewrite <- (list_to_map_to_list m).
  assert (Hr : rev l ≡ₚ map_to_list m) by (rewrite <- Hp; symmetry; apply Permutation_rev).
  apply list_to_map_proper; [|done]. rewrite Hr. apply NoDup_fst_map_to_list.
Qed.

Lemma d_entries_round {A} (f : option json -> option A) (g : A -> json) l :
  Forall (fun kv => utf8 kv.1 /\ f (Some (clean_json (g kv.2))) = Some kv.2) l ->
  d_entries f (map (fun kv => (sanitize kv.1, clean_json kv.2)) (map (fun kv => (kv.1, g kv.2)) l)) = Some l.
Proof.
  induction 1 as [|[k v] l [H1 H2] Hl IH]; [done|]. cbn [map d_entries fst snd] in *.
  rewrite H2. cbn [mbind option_bind]. rewrite IH. cbn [mbind option_bind]. by rewrite sanitize_utf8.
Qed.

Lemma sorted_entries_perm {A} (m : gmap bytes A) : sorted_entries m ≡ₚ map_to_list m.
Proof. apply merge_sort_Permutation. Qed.

Lemma d_map_round {A} (f : option json -> option A) (g : A -> json) (m : gmap bytes A) :
  (forall k x, m !! k = Some x -> utf8 k /\ f (Some (clean_json (g x))) = Some x) ->
  d_map f (Some (clean_json (j_map g m))) = Some m.
Proof.
  intros H. unfold j_map. cbn [clean_json]. unfold d_map. cbn [d_obj mbind option_bind].
  rewrite d_entries_round; [cbn [mbind option_bind]; f_equal; apply foldl_insert_perm, sorted_entries_perm|].
  apply Forall_forall. intros [k x] Hin. rewrite sorted_entries_perm in Hin.
  apply H. by apply elem_of_map_to_list.
Qed.

(** *** The same for the decoders of UnmarshalJSON *)

Ltac raw_keys :=
  cbn [raw_of map fst snd];
  repeat match goal with |- context [sanitize (B ?s)] => change (sanitize (B s)) with (B s) end.

Lemma r_info_round i : info_ok i -> r_hinfo [raw_of (j_info i)] = Some i.
Proof.
  intros H. unfold j_info. raw_keys. unfold r_hinfo. cbn [r_obj app fmap option_fmap option_map mbind option_bind].
  given_tac. rewrite !r_str_esc, !sanitize_utf8 by apply H. cbn [r_obj app fmap option_fmap option_map mbind option_bind].
  given_tac. rewrite !r_str_esc, !sanitize_utf8 by apply H. cbn [mbind option_bind r_bool settle]. by destruct i.
Qed.

Lemma r_path_round p : path_ok p -> r_path [raw_of (j_path p)] = Some p.
Proof.
  intros H. unfold j_path. raw_keys. unfold r_path. cbn [r_obj app fmap option_fmap option_map mbind option_bind].
  given_tac. rewrite !r_str_esc, !sanitize_utf8 by apply H. cbn [mbind option_bind]. by destruct p.
Qed.

Lemma r_ptr_round d : info_fixed d -> Decode.r_info [raw_of (j_details d)] = Some (Some d).
Proof.
  intros [[H1 H2 H3 H4 H5] H6]. unfold j_details. raw_keys. unfold Decode.r_info, r_ptr.
  cbn [default from_option id app mbind option_bind]. unfold r_details. given_tac.
  cbn [r_obj app fmap option_fmap option_map mbind option_bind]. given_tac.
  rewrite !r_str_esc, !sanitize_utf8 by done. unfold r_int64, r_uint32, r_time, r_bool, r_any. cbn [settle mbind option_bind].
  rewrite int_val_dec, esc_safe, time_round by (done || apply format_time_safe).
  cbn [mbind option_bind fmap option_fmap option_map].
  destruct (Z.leb_spec (- 2^63) (d_size d)); [|lia]. destruct (Z.ltb_spec (d_size d) (2^63)); [|lia]. cbn [andb in_range].
  assert (dec_z (Z.of_N (d_mode d)) = dec (d_mode d)) as ->.
  { unfold dec_z. destruct (Z.ltb_spec (Z.of_N (d_mode d)) 0); [lia|]. by rewrite N2Z.id. }
  rewrite uint_val_dec. cbn [mbind option_bind]. destruct (N.ltb_spec (d_mode d) (2^32)); [|lia]. cbn [in_range mbind option_bind].
  rewrite any_val_raw, (go_sys_sorted (d_sys d)) by done. cbn [mbind option_bind fmap option_fmap option_map]. by destruct d.
Qed.

Lemma r_bytes_round b : r_bytes [raw_of (j_data b)] = Some b.
Proof.
  destruct b as [|c b]; [done|]. unfold j_data. cbn [raw_of]. unfold r_bytes. cbn [settle].
  rewrite str_val_esc, sanitize_utf8 by apply ascii_utf8, b64_ascii. cbn [mbind option_bind]. by rewrite b64_round.
Qed.

Definition nfile_of (e : efile) : nfile := JFile (Some (e_info e)) (e_here e) (e_path e) (e_data e) (e_parent e).
Lemma whole_nfile e : whole (nfile_of e) = Some e.
Proof. by destruct e. Qed.

Lemma r_file_round f : efile_ok f -> r_file [raw_of (j_file f)] = Some (nfile_of f).
Proof.
  intros [H1 H2 H3 H4]. unfold j_file. cbn [raw_of map fst snd].
  repeat match goal with |- context [sanitize (B ?s)] => change (sanitize (B s)) with (B s) end. fold raw_of.
  unfold r_file. cbn [r_obj app fmap option_fmap option_map mbind option_bind]. given_tac.
  rewrite r_ptr_round, r_info_round, !r_path_round, r_bytes_round by done. done.
Qed.

Lemma r_map_round {A C} (f : list rjson -> option C) (h : A -> C) (g : A -> json) (m : gmap bytes A) :
  (forall k x, m !! k = Some x -> utf8 k /\ f [raw_of (g x)] = Some (h x)) ->
  r_map f [raw_of (j_map g m)] = Some (h <$> m).
Proof.
  intros H. unfold j_map, r_map. cbn [raw_of]. fold raw_of.
  assert (Hall : Forall (fun kv : bytes * A => utf8 kv.1 /\ f [raw_of (g kv.2)] = Some (h kv.2)) (sorted_entries m)).
  { apply Forall_forall. intros [k x] Hin. rewrite sorted_entries_perm in Hin. apply H. by apply elem_of_map_to_list. }
  assert (He : forall l (acc : gmap bytes A), Forall (fun kv : bytes * A => utf8 kv.1 /\ f [raw_of (g kv.2)] = Some (h kv.2)) l ->
    r_entries f (h <$> acc) (map (fun kv => (sanitize kv.1, raw_of kv.2)) (map (fun kv => (kv.1, g kv.2)) l)) =
    Some (h <$> foldl (fun acc (kv : bytes * A) => <[kv.1 := kv.2]> acc) acc l)).
  { clear. intros l acc H. revert acc. induction H as [|[k v] l [H1 H2] Hl IH]; intros acc; [done|].
    cbn [map r_entries foldl fst snd] in *. rewrite H2, sanitize_utf8 by done. rewrite <- fmap_insert. apply IH. }
  rewrite <- (fmap_empty h), He by done. f_equal. f_equal. apply foldl_insert_perm, sorted_entries_perm.
Qed.

Lemma r_data_round y : edata_ok y ->
  exists l, raw_of (j_edata y) = RObj l /\ r_data l = Some (NData (y_infos y) (nfile_of <$> y_files y) (y_here y)).
Proof.
  intros [H1 H2 H3]. unfold j_edata. cbn [raw_of map fst snd].
  repeat match goal with |- context [sanitize (B ?s)] => change (sanitize (B s)) with (B s) end. fold raw_of.
  eexists. split; [done|]. unfold r_data. given_tac.
  rewrite (r_map_round r_hinfo id j_info); [|intros k i Hi; destruct (H1 k i Hi); split; [done|by apply r_info_round]].
  rewrite (r_map_round r_file nfile_of j_file); [|intros k i Hi; destruct (H2 k i Hi); split; [done|by apply r_file_round]].
  rewrite r_info_round by done. cbn [mbind option_bind]. by rewrite map_fmap_id.
Qed.

Lemma has_info_nfile (m : gmap bytes efile) : forallb has_info (map_to_list (nfile_of <$> m)) = true.
Proof.
  apply forallb_forall. intros [k f] Hin%elem_of_list_In. apply elem_of_map_to_list in Hin. rewrite lookup_fmap in Hin.
  destruct (m !! k) as [e|]; [|done]. by injection Hin as <-.
Qed.
Lemma omap_whole (m : gmap bytes efile) : omap whole (nfile_of <$> m) = m.
Proof.
  apply map_eq. intros k. rewrite lookup_omap, lookup_fmap. destruct (m !! k) as [e|]; [|done]. apply whole_nfile.
Qed.

Lemma unmarshal_text parse order y :
  edata_ok y ->
  unmarshal_json parse order (write_json (j_edata y)) =
    match load parse (y_here y) (y_infos y) (order (map_to_list (y_files y))) with
    | Ok m => Done m | Err e => Failed e end.
Proof.
  intros H. unfold unmarshal_json. rewrite read_raw_write.
  destruct (r_data_round y H) as (l & -> & ->). cbn [nd_files nd_infos nd_here].
  by rewrite has_info_nfile, omap_whole.
Qed.
