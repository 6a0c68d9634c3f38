(** Model of /repo/pkging/embed/embed.go (Encode, Decode) and of the text of
    the generated file, /repo/cmd/pkger/cmds/pack.go:122-159.

    encoding/hex is modelled from the Go standard library.  compress/gzip is a
    pair of functions; the theorems assume of them only that decompressing a
    compressed text gives the text back. *)
From Verif Require Import Bytes GoPath Here GoTypes.

(** hex.hextable. *)
Definition hex_char (n : N) : ascii :=
  ascii_of_N (if (n <? 10)%N then 48 + n else 87 + n)%N.

(** hex.fromHexChar. *)
Definition from_hex (c : ascii) : option N :=
  let n := N_of_ascii c in
  if (48 <=? n)%N && (n <=? 57)%N then Some (n - 48)%N
  else if (97 <=? n)%N && (n <=? 102)%N then Some (n - 87)%N
  else if (65 <=? n)%N && (n <=? 70)%N then Some (n - 55)%N
  else None.

(** hex.EncodeToString. *)
Fixpoint hex_encode (s : bytes) : bytes :=
  match s with
  | [] => []
  | c :: s => hex_char (N_of_ascii c / 16) :: hex_char (N_of_ascii c mod 16) :: hex_encode s
  end.

Definition invalid_byte : bytes := B"encoding/hex: invalid byte".
Definition odd_length : bytes := B"encoding/hex: odd length hex string".

(** hex.Decode into a buffer of length hex.DecodedLen (embed.go:13-17). *)
Fixpoint hex_decode (s : bytes) : res bytes :=
  match s with
  | [] => Ok []
  | [a] =>
      match from_hex a with
      | None => Err (EMsg invalid_byte)
      | Some _ => Err (EMsg odd_length)
      end
  | a :: b :: s =>
      match from_hex a, from_hex b with
      | Some x, Some y =>
          match hex_decode s with
          | Ok d => Ok (ascii_of_N (16 * x + y) :: d)
          | Err e => Err e
          end
      | _, _ => Err (EMsg invalid_byte)
      end
  end.

Section Codec.
  Context (gz : bytes -> bytes) (gunzip : bytes -> res bytes).

  (** Encode, embed.go:32-49.  Writing to a bytes.Buffer does not fail. *)
  Definition encode (b : bytes) : bytes := hex_encode (gz b).

  (** Decode, embed.go:12-30. *)
  Definition decode (src : bytes) : res bytes :=
    match hex_decode src with
    | Err e => Err e
    | Ok dst => gunzip dst
    end.
End Codec.

(** The header Package writes, pack.go:143-148, for package name [name]. *)
Definition dquote : ascii := ascii_of_N 34.
Definition tab : ascii := ascii_of_N 9.
Definition backquote : ascii := ascii_of_N 96.
Definition nl : bytes := [newline].

Definition pkged_header (name : bytes) : bytes :=
  B"// Code generated by pkger; DO NOT EDIT." ++ nl ++ nl ++
  B"// +build !skippkger" ++ nl ++ nl ++
  B"package " ++ name ++ nl ++ nl ++
  B"import (" ++ nl ++ [tab; dquote] ++ B"github.com/markbates/pkger" ++ [dquote] ++ nl ++ [tab] ++
  [dquote] ++ B"github.com/markbates/pkger/pkging/mem" ++ [dquote] ++ nl ++ B")" ++ nl ++ nl ++
  B"var _ = pkger.Apply(mem.UnmarshalEmbed([]byte(".

Definition pkged_footer : bytes := B")))" ++ nl.

(** The whole file, pack.go:143-156: Stuff writes [payload]. *)
Definition pkged_file (name payload : bytes) : bytes :=
  pkged_header name ++ [backquote] ++ payload ++ [backquote] ++ pkged_footer.

(** ** Specification: Go's raw string literals
    (Go language specification, "String literals"): the text up to the next
    back quote; carriage returns are dropped from the value. *)
Fixpoint raw_literal (s : bytes) : option (bytes * bytes) :=
  match s with
  | [] => None
  | c :: s =>
      if Ascii.eqb c backquote then Some ([], s)
      else
        match raw_literal s with
        | None => None
        | Some (v, rest) => Some (if Ascii.eqb c (ascii_of_N 13) then v else c :: v, rest)
        end
  end.

(** The first raw string literal of a text that has no back quote in other
    tokens or comments: text before it, its value, text after it. *)
Fixpoint first_raw (s : bytes) : option (bytes * bytes * bytes) :=
  match s with
  | [] => None
  | c :: s =>
      if Ascii.eqb c backquote
      then match raw_literal s with Some (v, rest) => Some ([], v, rest) | None => None end
      else match first_raw s with Some (pre, v, rest) => Some (c :: pre, v, rest) | None => None end
  end.

(** Hexadecimal digits, either case. *)
Definition is_hex (c : ascii) : Prop :=
  c ∈ B"0123456789abcdefABCDEF".
Definition is_lower_hex (c : ascii) : Prop := c ∈ B"0123456789abcdef".

(** ** Lemmas *)

Lemma elem_of_existsb c (l : bytes) : c ∈ l <-> existsb (Ascii.eqb c) l = true.
Proof.
  rewrite existsb_exists. split.
  - intros H. exists c. split; [by apply elem_of_list_In|]. by apply Ascii.eqb_eq.
  - intros (x & Hx & Heq). apply Ascii.eqb_eq in Heq as ->. by apply elem_of_list_In.
Qed.

Lemma is_hex_from c : is_hex c <-> is_Some (from_hex c).
Proof.
  unfold is_hex. rewrite elem_of_existsb.
  assert (H : existsb (Ascii.eqb c) (B"0123456789abcdefABCDEF") =
    match from_hex c with Some _ => true | None => false end)
    by (by destruct c as [[] [] [] [] [] [] [] []]).
  rewrite H. destruct (from_hex c) as [n|]; split; intros Hx; [by exists n|reflexivity|discriminate|by destruct Hx].
Qed.

Lemma hex_char_spec (n : N) : (n < 16)%N -> from_hex (hex_char n) = Some n /\ is_lower_hex (hex_char n).
Proof.
  intros H. assert (Hn : n ∈ (N.of_nat <$> seq 0 16)).
  { apply elem_of_list_fmap. exists (N.to_nat n). split; [lia|]. apply elem_of_seq. lia. }
  simpl in Hn. repeat (apply elem_of_cons in Hn as [->|Hn]); try (by apply elem_of_nil in Hn);
    (split; [by vm_compute|]); unfold is_lower_hex; apply elem_of_existsb; by vm_compute.
Qed.

Lemma ascii_lt_256 c : (N_of_ascii c < 256)%N.
Proof. apply N_ascii_bounded. Qed.

Lemma hex_round s : hex_decode (hex_encode s) = Ok s.
Proof.
  induction s as [|c s IH]; [done|]. cbn [hex_encode hex_decode].
  pose proof (ascii_lt_256 c) as Hc.
  destruct (hex_char_spec (N_of_ascii c / 16)) as [-> _]; [apply N.div_lt_upper_bound; lia|].
  destruct (hex_char_spec (N_of_ascii c mod 16)) as [-> _]; [apply N.mod_lt; lia|].
  rewrite IH. rewrite <- N.div_mod by lia. by rewrite ascii_N_embedding.
Qed.

Lemma hex_encode_lower s : Forall is_lower_hex (hex_encode s).
Proof.
  induction s as [|c s IH]; [constructor|]. cbn [hex_encode]. pose proof (ascii_lt_256 c) as Hc.
  constructor; [|constructor; [|done]].
  - apply hex_char_spec. apply N.div_lt_upper_bound; lia.
  - apply hex_char_spec. apply N.mod_lt; lia.
Qed.

Lemma hex_encode_length s : length (hex_encode s) = 2 * length s.
Proof. induction s as [|c s IH]; [done|]. cbn [hex_encode length]. rewrite IH. lia. Qed.

(** Two bytes at a time. *)
Lemma pair_ind (P : bytes -> Prop) :
  P [] -> (forall a, P [a]) -> (forall a b s, P s -> P (a :: b :: s)) -> forall s, P s.
Proof.
  intros H0 H1 H2. assert (H : forall s, P s /\ forall a, P (a :: s)).
  { induction s as [|a s [IH1 IH2]]; split; auto. }
  intros s. apply H.
Qed.

Lemma hex_decode_ok s d :
  hex_decode s = Ok d -> Forall is_hex s /\ length s = 2 * length d.
Proof.
  revert d. induction s as [|a|a b s IH] using pair_ind; intros d; cbn [hex_decode].
  - intros [= <-]. by split.
  - by destruct (from_hex a).
  - destruct (from_hex a) as [x|] eqn:Ea; [|done]. destruct (from_hex b) as [y|] eqn:Eb; [|done].
    destruct (hex_decode s) as [d'|]; [|done]. intros [= <-]. destruct (IH d' eq_refl) as [H1 H2].
    split; [|simpl; lia]. constructor; [|constructor; [|done]]; apply is_hex_from; eauto.
Qed.

Lemma hex_decode_total s :
  Forall is_hex s -> Nat.even (length s) = true -> exists d, hex_decode s = Ok d.
Proof.
  revert s. apply (pair_ind (fun s => Forall is_hex s -> Nat.even (length s) = true -> exists d, hex_decode s = Ok d));
    [|intros a|intros a b s IH]; cbn [hex_decode]; intros Hf Hl.
  - eauto.
  - done.
  - inversion Hf as [|? ? Ha Hf']; subst. inversion Hf' as [|? ? Hb Hf'']; subst.
    apply is_hex_from in Ha as [x ->]. apply is_hex_from in Hb as [y ->].
    destruct (IH Hf'' Hl) as [d ->]. eauto.
Qed.

Lemma raw_literal_app v rest :
  Forall (fun c => c <> backquote /\ c <> ascii_of_N 13) v ->
  raw_literal (v ++ backquote :: rest) = Some (v, rest).
Proof.
  induction 1 as [|c v [H1 H2] Hv IH]; [done|]. cbn [app raw_literal].
  rewrite (proj2 (Ascii.eqb_neq _ _) H1), (proj2 (Ascii.eqb_neq _ _) H2). by rewrite IH.
Qed.

Lemma first_raw_app pre v rest :
  Forall (fun c => c <> backquote) pre ->
  Forall (fun c => c <> backquote /\ c <> ascii_of_N 13) v ->
  first_raw (pre ++ backquote :: v ++ backquote :: rest) = Some (pre, v, rest).
Proof.
  intros Hp Hv. induction Hp as [|c pre H1 Hp IH]; cbn [app first_raw].
  - change (Ascii.eqb backquote backquote) with true. cbv iota. by rewrite raw_literal_app.
  - rewrite (proj2 (Ascii.eqb_neq _ _) H1). by rewrite IH.
Qed.

Lemma lower_hex_plain c : is_lower_hex c -> c <> backquote /\ c <> ascii_of_N 13.
Proof.
  unfold is_lower_hex. vm_compute. intros H.
  repeat (apply elem_of_cons in H as [->|H]; [done|]). by apply elem_of_nil in H.
Qed.

(** A boolean test, so that literals can be checked by computation. *)
Definition no_bq (s : bytes) : bool := forallb (fun c => negb (Ascii.eqb c backquote)) s.

Lemma no_bq_spec s : no_bq s = true -> Forall (fun c => c <> backquote) s.
Proof.
  unfold no_bq. rewrite forallb_forall, Forall_forall. intros H c Hc.
  specialize (H c (proj1 (elem_of_list_In _ _) Hc)). apply negb_true_iff, Ascii.eqb_neq in H. done.
Qed.

Lemma header_plain name : Forall (fun c => c <> backquote) name -> Forall (fun c => c <> backquote) (pkged_header name).
Proof.
  intros Hn. unfold pkged_header. repeat (apply Forall_app; split); try done; apply no_bq_spec; by vm_compute.
Qed.
