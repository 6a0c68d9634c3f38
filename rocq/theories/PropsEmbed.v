(** Theorems: the embedded form (C28-C32). *)
From Verif Require Import Bytes GoPath Here GoTypes GoNum GoTimeFmt Embed.

(** *** C28 *)

(** Whatever compressor is used, as long as it can be undone. *)
Theorem C28_round_trip (gz : bytes -> bytes) (gunzip : bytes -> res bytes) b :
  (forall x, gunzip (gz x) = Ok x) -> decode gunzip (encode gz b) = Ok b.
Proof. intros Hgz. unfold decode, encode. by rewrite hex_round, Hgz. Qed.

Theorem C28_decode_fails (gunzip : bytes -> res bytes) src :
  Nat.odd (length src) = true \/ (exists c, c ∈ src /\ ~ is_hex c) ->
  exists e, decode gunzip src = Err e.
Proof.
  intros H. unfold decode. destruct (hex_decode src) as [d|e] eqn:E; [|eauto].
  apply hex_decode_ok in E as [Hf Hl]. exfalso. destruct H as [H|(c & Hc & Hn)].
  - rewrite Hl, Nat.odd_mul in H. by simpl in H.
  - rewrite Forall_forall in Hf. auto.
Qed.

(** The hexadecimal layer refuses nothing else. *)
Theorem C28_decode_hex (gunzip : bytes -> res bytes) src :
  Nat.even (length src) = true -> (forall c, c ∈ src -> is_hex c) ->
  exists d, length src = 2 * length d /\ decode gunzip src = gunzip d.
Proof.
  intros Hl Hf. destruct (hex_decode_total src) as [d Hd]; [by apply Forall_forall|done|].
  exists d. unfold decode. rewrite Hd. split; [|done]. by apply hex_decode_ok in Hd as [_ ?].
Qed.

(* A toy compressor with the assumed property that is not the identity. *)
Definition toy_gz (b : bytes) : bytes := "z"%char :: b.
Definition toy_gunzip (b : bytes) : res bytes :=
  match b with c :: b => if Ascii.eqb c "z"%char then Ok b else Err EEOF | [] => Err EEOF end.
Example C28_example :
  (forall x, toy_gunzip (toy_gz x) = Ok x) /\
  encode toy_gz (B"hi") = B"7a6869" /\ decode toy_gunzip (B"7a6869") = Ok (B"hi") /\
  decode toy_gunzip (B"7A6869") = Ok (B"hi") /\
  decode toy_gunzip (B"7a686") = Err (EMsg odd_length) /\
  decode toy_gunzip (B"7a68g9") = Err (EMsg invalid_byte).
Proof. split_and!; by vm_compute. Qed.

(** *** C29 *)

(** Reading the generated file as Go source, its first raw string literal has
    exactly the bytes Stuff wrote as its value. *)
Theorem C29_payload_intact gz name b :
  backquote ∉ name ->
  first_raw (pkged_file name (encode gz b)) = Some (pkged_header name, encode gz b, pkged_footer).
Proof.
  intros Hn. unfold pkged_file. apply first_raw_app.
  - apply header_plain. apply Forall_forall. intros c Hc ->. done.
  - eapply Forall_impl; [apply hex_encode_lower|]. intros c. apply lower_hex_plain.
Qed.

(** No character of the payload is one that a raw string literal drops or ends
    at, or that is not ASCII. *)
Theorem C29_payload_characters gz b c : c ∈ encode gz b -> c ∈ B"0123456789abcdef".
Proof. intros H. pose proof (hex_encode_lower (gz b)) as HF. rewrite Forall_forall in HF. by apply HF. Qed.

Example C29_example : backquote ∉ B"main" /\
  first_raw (pkged_file (B"main") (encode toy_gz (B"`" ++ [ascii_of_N 13]))) =
    Some (pkged_header (B"main"), B"7a600d", pkged_footer).
Proof.
  split; [|by vm_compute].
  intros H. apply elem_of_existsb in H. by vm_compute in H.
Qed.

(** *** C32 *)

(** Full statement: [forall t, 0 <= t_nsec t < 10^9 -> parse_time (format_time t) = Some t].
    It holds for the years 0 to 9999 and zone offsets of whole minutes below 100
    hours ... *)
Theorem C32_round_trip_partial t :
  (0 <= t_nsec t < 1000000000)%Z -> (0 <= year_of t <= 9999)%Z -> (t_off t mod 60 = 0)%Z ->
  (-360000 < t_off t < 360000)%Z -> parse_time (format_time t) = Some t.
Proof. intros. by apply time_round. Qed.

Example C32_example :
  let t := GoTime 951782399 120000000 (-34200) in
  format_time t = B"2000-02-28T14:29:59.12-09:30" /\ year_of t = 2000%Z /\
  parse_time (format_time t) = Some t.
Proof. split_and!; by vm_compute. Qed.

(** ... later years are written with five digits, which are not read back ... *)
Theorem C32_late_year_refuted :
  exists t, (0 <= t_nsec t < 1000000000)%Z /\ t_off t = 0%Z /\ year_of t = 10000%Z /\
    parse_time (format_time t) = None.
Proof. exists (GoTime 253402300800 0 0). by vm_compute. Qed.

(** ... and an offset with seconds loses them, moving the instant. *)
Theorem C32_zone_seconds_refuted :
  exists t t', (0 <= t_nsec t < 1000000000)%Z /\ year_of t = 1880%Z /\
    parse_time (format_time t) = Some t' /\ t_sec t' <> t_sec t /\ t_off t' <> t_off t.
Proof.
  exists (GoTime (-2840140800) 0 1172), (GoTime (-2840140768) 0 1140). by vm_compute.
Qed.
