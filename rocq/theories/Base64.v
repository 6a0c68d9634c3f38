(** encoding/base64's StdEncoding (Go standard library): how encoding/json
    writes and reads a []byte. *)
From Coq Require Import ZifyN.
From Verif Require Import Bytes Embed.

Definition b64_char (n : N) : ascii :=
  ascii_of_N (if n <? 26 then 65 + n else if n <? 52 then 71 + n
              else if n <? 62 then n - 4 else if n =? 62 then 43 else 47)%N.

Definition b64_val (c : ascii) : option N :=
  let n := N_of_ascii c in
  if ((65 <=? n) && (n <=? 90))%N then Some (n - 65)%N
  else if ((97 <=? n) && (n <=? 122))%N then Some (n - 71)%N
  else if ((48 <=? n) && (n <=? 57))%N then Some (n + 4)%N
  else if (n =? 43)%N then Some 62%N
  else if (n =? 47)%N then Some 63%N
  else None.

Definition c_eq : ascii := "="%char.

(** Encoding.EncodeToString. *)
Fixpoint b64_encode (s : bytes) : bytes :=
  match s with
  | [] => []
  | [a] =>
      let a := N_of_ascii a in
      [b64_char (a / 4); b64_char (a mod 4 * 16); c_eq; c_eq]
  | [a; b] =>
      let a := N_of_ascii a in let b := N_of_ascii b in
      [b64_char (a / 4); b64_char (a mod 4 * 16 + b / 16); b64_char (b mod 16 * 4); c_eq]
  | a :: b :: c :: s =>
      let a := N_of_ascii a in let b := N_of_ascii b in let c := N_of_ascii c in
      b64_char (a / 4) :: b64_char (a mod 4 * 16 + b / 16) ::
      b64_char (b mod 16 * 4 + c / 64) :: b64_char (c mod 64) :: b64_encode s
  end.

(** Encoding.Decode on text without line breaks. *)
Fixpoint b64_groups (s : bytes) : option bytes :=
  match s with
  | [] => Some []
  | a :: b :: c :: d :: s =>
      match b64_val a, b64_val b with
      | Some x, Some y =>
          let o1 := ascii_of_N ((4 * x + y / 16) mod 256) in
          match b64_val c with
          | None =>
              if Ascii.eqb c c_eq && Ascii.eqb d c_eq && match s with [] => true | _ => false end
              then Some [o1] else None
          | Some z =>
              let o2 := ascii_of_N ((y mod 16 * 16 + z / 4) mod 256) in
              match b64_val d with
              | None =>
                  if Ascii.eqb d c_eq && match s with [] => true | _ => false end
                  then Some [o1; o2] else None
              | Some w =>
                  match b64_groups s with
                  | Some r => Some (o1 :: o2 :: ascii_of_N ((z mod 4 * 64 + w) mod 256) :: r)
                  | None => None
                  end
              end
          end
      | _, _ => None
      end
  | _ => None
  end.

(** Encoding.Decode skips carriage returns and newlines. *)
Fixpoint skip_breaks (s : bytes) : bytes :=
  match s with
  | [] => []
  | c :: s => if (N_of_ascii c =? 13)%N || (N_of_ascii c =? 10)%N then skip_breaks s else c :: skip_breaks s
  end.
Definition b64_decode (s : bytes) : option bytes := b64_groups (skip_breaks s).

(** ** Proofs *)

Lemma small_enum (n k : N) : (n < k)%N -> n ∈ (N.of_nat <$> seq 0 (N.to_nat k)).
Proof. intros H. apply elem_of_list_fmap. exists (N.to_nat n). split; [lia|]. apply elem_of_seq. lia. Qed.

Definition b64_plain (c : ascii) : Prop := c ∈ B"ABCDEFGHIJKLMNOPQRSTUVWXYZabcdefghijklmnopqrstuvwxyz0123456789+/=".

Lemma b64_char_spec n : (n < 64)%N -> b64_val (b64_char n) = Some n /\ b64_plain (b64_char n).
Proof.
  intros H. apply small_enum in H. change (N.to_nat 64) with 64 in H. simpl in H.
  repeat (apply elem_of_cons in H as [->|H]); try (by apply elem_of_nil in H);
    (split; [by vm_compute|]); unfold b64_plain; apply elem_of_existsb; by vm_compute.
Qed.

Lemma three_ind (P : bytes -> Prop) :
  P [] -> (forall a, P [a]) -> (forall a b, P [a; b]) -> (forall a b c s, P s -> P (a :: b :: c :: s)) -> forall s, P s.
Proof.
  intros H0 H1 H2 H3. assert (H : forall s, P s /\ (forall a, P (a :: s)) /\ forall a b, P (a :: b :: s)).
  { induction s as [|a s (IH1 & IH2 & IH3)]; split_and!; auto. }
  intros s. apply H.
Qed.

Ltac byte_bound a := let H := fresh in pose proof (ascii_lt_256 a) as H.
Ltac euclid := zify; Z.to_euclidean_division_equations; lia.

Lemma b64_groups_round s : b64_groups (b64_encode s) = Some s.
Proof.
  revert s. apply (three_ind (fun s => b64_groups (b64_encode s) = Some s)); [done|..].
  - intros a. byte_bound a. cbn [b64_encode b64_groups].
    destruct (b64_char_spec (N_of_ascii a / 4)) as [-> _]; [euclid|].
    destruct (b64_char_spec (N_of_ascii a mod 4 * 16)) as [-> _]; [euclid|].
    change (b64_val c_eq) with (@None N). change (Ascii.eqb c_eq c_eq) with true. cbn [andb].
    f_equal. f_equal. rewrite <- (ascii_N_embedding a) at 3. f_equal. euclid.
  - intros a b. byte_bound a. byte_bound b. cbn [b64_encode b64_groups].
    destruct (b64_char_spec (N_of_ascii a / 4)) as [-> _]; [euclid|].
    destruct (b64_char_spec (N_of_ascii a mod 4 * 16 + N_of_ascii b / 16)) as [-> _]; [euclid|].
    destruct (b64_char_spec (N_of_ascii b mod 16 * 4)) as [-> _]; [euclid|].
    change (b64_val c_eq) with (@None N). change (Ascii.eqb c_eq c_eq) with true. cbn [andb].
    f_equal. f_equal; [|f_equal].
    + rewrite <- (ascii_N_embedding a) at 3. f_equal. euclid.
    + rewrite <- (ascii_N_embedding b) at 3. f_equal. euclid.
  - intros a b c s IH. byte_bound a. byte_bound b. byte_bound c. cbn [b64_encode b64_groups].
    destruct (b64_char_spec (N_of_ascii a / 4)) as [-> _]; [euclid|].
    destruct (b64_char_spec (N_of_ascii a mod 4 * 16 + N_of_ascii b / 16)) as [-> _]; [euclid|].
    destruct (b64_char_spec (N_of_ascii b mod 16 * 4 + N_of_ascii c / 64)) as [-> _]; [euclid|].
    destruct (b64_char_spec (N_of_ascii c mod 64)) as [-> _]; [euclid|].
    rewrite IH. f_equal. f_equal; [|f_equal; [|f_equal]].
    + rewrite <- (ascii_N_embedding a) at 3. f_equal. euclid.
    + rewrite <- (ascii_N_embedding b) at 3. f_equal. euclid.
    + rewrite <- (ascii_N_embedding c) at 3. f_equal. euclid.
Qed.

Lemma b64_encode_plain s : Forall b64_plain (b64_encode s).
Proof.
  assert (Heq : b64_plain c_eq) by (unfold b64_plain; apply elem_of_existsb; by vm_compute).
  revert s. apply (three_ind (fun s => Forall b64_plain (b64_encode s))); [constructor|..].
  - intros a. byte_bound a. cbn [b64_encode]. repeat first [exact Heq|apply List.Forall_nil|apply List.Forall_cons|apply b64_char_spec; euclid].
  - intros a b. byte_bound a. byte_bound b. cbn [b64_encode]. repeat first [exact Heq|apply List.Forall_nil|apply List.Forall_cons|apply b64_char_spec; euclid].
  - intros a b c s IH. byte_bound a. byte_bound b. byte_bound c. cbn [b64_encode]. repeat first [exact Heq|exact IH|apply List.Forall_nil|apply List.Forall_cons|apply b64_char_spec; euclid].
Qed.

Lemma b64_plain_not_break c : b64_plain c -> N_of_ascii c <> 13%N /\ N_of_ascii c <> 10%N.
Proof.
  intros H. apply elem_of_existsb in H. assert (Hb : existsb (Ascii.eqb c) (B"ABCDEFGHIJKLMNOPQRSTUVWXYZabcdefghijklmnopqrstuvwxyz0123456789+/=") && ((N_of_ascii c =? 13) || (N_of_ascii c =? 10))%N = false)
    by (by destruct c as [[] [] [] [] [] [] [] []]).
  rewrite H in Hb. simpl in Hb. apply orb_false_iff in Hb as [?%N.eqb_neq ?%N.eqb_neq]. done.
Qed.

Lemma skip_breaks_id s : Forall b64_plain s -> skip_breaks s = s.
Proof.
  induction 1 as [|c s Hc Hs IH]; [done|]. cbn [skip_breaks]. apply b64_plain_not_break in Hc as [H1 H2].
  rewrite (proj2 (N.eqb_neq _ _) H1), (proj2 (N.eqb_neq _ _) H2), IH. done.
Qed.

Lemma b64_round s : b64_decode (b64_encode s) = Some s.
Proof.
  unfold b64_decode. rewrite skip_breaks_id by apply b64_encode_plain. apply b64_groups_round.
Qed.

Example b64_ex : b64_encode (B"hello") = B"aGVsbG8=" /\ b64_decode (B"aGVsbG8=") = Some (B"hello").
Proof. by vm_compute. Qed.
