(** Strings in encoding/json (Go standard library): how a Go string is written
    (encodeState.string with HTML escaping, as json.Marshal does) and read back
    (unquoteBytes), and Go's UTF-8 (package unicode/utf8). *)
From Verif Require Import Bytes.

Definition code (c : ascii) : N := N_of_ascii c.
Definition between (a : N) (c : ascii) (b : N) : bool := (a <=? code c)%N && (code c <=? b)%N.
Definition cont (c : ascii) : bool := between 128 c 191.

(** utf8.DecodeRune's tables: valid two, three and four byte sequences. *)
Definition valid2 (a b : ascii) : bool := between 194 a 223 && cont b.
Definition valid3 (a b c : ascii) : bool :=
  ((code a =? 224)%N && between 160 b 191 ||
   between 225 a 236 && cont b ||
   (code a =? 237)%N && between 128 b 159 ||
   between 238 a 239 && cont b) && cont c.
Definition valid4 (a b c d : ascii) : bool :=
  ((code a =? 240)%N && between 144 b 191 ||
   between 241 a 243 && cont b ||
   (code a =? 244)%N && between 128 b 143) && cont c && cont d.
Definition is_ascii (a : ascii) : bool := (code a <? 128)%N.

(** ** Specification: UTF-8 text *)
Inductive utf8 : bytes -> Prop :=
| u_nil : utf8 []
| u_1 a s : is_ascii a = true -> utf8 s -> utf8 (a :: s)
| u_2 a b s : valid2 a b = true -> utf8 s -> utf8 (a :: b :: s)
| u_3 a b c s : valid3 a b c = true -> utf8 s -> utf8 (a :: b :: c :: s)
| u_4 a b c d s : valid4 a b c d = true -> utf8 s -> utf8 (a :: b :: c :: d :: s).

(** ** Writing *)

Definition hexd (n : N) : ascii := ascii_of_N (if (n <? 10)%N then 48 + n else 87 + n)%N.
Definition bsl : ascii := backslash.
Definition quote : ascii := ascii_of_N 34.

(** A byte that needs an escape: not in json.htmlSafeSet. *)
Definition html_safe (c : ascii) : bool :=
  (32 <=? code c)%N && negb (Ascii.eqb c quote) && negb (Ascii.eqb c bsl) &&
  negb (Ascii.eqb c "<"%char) && negb (Ascii.eqb c ">"%char) && negb (Ascii.eqb c "&"%char).

Definition esc_ascii (c : ascii) : bytes :=
  if html_safe c then [c]
  else if Ascii.eqb c bsl || Ascii.eqb c quote then [bsl; c]
  else if (code c =? 10)%N then [bsl; "n"%char]
  else if (code c =? 13)%N then [bsl; "r"%char]
  else if (code c =? 9)%N then [bsl; "t"%char]
  else [bsl; "u"%char; "0"%char; "0"%char; hexd (code c / 16); hexd (code c mod 16)].

Definition esc_bad : bytes := bsl :: B"ufffd".

(** U+2028 and U+2029 are written as escapes. *)
Definition line_sep (a b c : ascii) : bool :=
  (code a =? 226)%N && (code b =? 128)%N && ((code c =? 168)%N || (code c =? 169)%N).
Definition esc_sep (c : ascii) : bytes := bsl :: B"u202" ++ [hexd (code c mod 16)].

(** The body of encodeState.string. *)
Fixpoint esc (s : bytes) : bytes :=
  match s with
  | [] => []
  | a :: s1 =>
      if is_ascii a then esc_ascii a ++ esc s1
      else
        match s1 with
        | [] => esc_bad
        | b :: s2 =>
            if valid2 a b then a :: b :: esc s2
            else
              match s2 with
              | [] => esc_bad ++ esc s1
              | c :: s3 =>
                  if valid3 a b c then (if line_sep a b c then esc_sep c else [a; b; c]) ++ esc s3
                  else
                    match s3 with
                    | [] => esc_bad ++ esc s1
                    | d :: s4 =>
                        if valid4 a b c d then a :: b :: c :: d :: esc s4
                        else esc_bad ++ esc s1
                    end
              end
        end
  end.

Definition json_string (s : bytes) : bytes := quote :: esc s ++ [quote].

(** ** Reading *)

Definition hex_of (c : ascii) : option N :=
  if between 48 c 57 then Some (code c - 48)%N
  else if between 97 c 102 then Some (code c - 87)%N
  else if between 65 c 70 then Some (code c - 55)%N
  else None.

Definition hex4 (a b c d : ascii) : option N :=
  match hex_of a, hex_of b, hex_of c, hex_of d with
  | Some x, Some y, Some z, Some w => Some (((x * 16 + y) * 16 + z) * 16 + w)%N
  | _, _, _, _ => None
  end.

(** utf8.EncodeRune, for code points up to 0x10ffff that are no surrogates. *)
Definition encode_rune (r : N) : bytes :=
  if (r <? 128)%N then [ascii_of_N r]
  else if (r <? 2048)%N then [ascii_of_N (192 + r / 64); ascii_of_N (128 + r mod 64)]
  else if (r <? 65536)%N then
    [ascii_of_N (224 + r / 4096); ascii_of_N (128 + r / 64 mod 64); ascii_of_N (128 + r mod 64)]
  else [ascii_of_N (240 + r / 262144); ascii_of_N (128 + r / 4096 mod 64);
        ascii_of_N (128 + r / 64 mod 64); ascii_of_N (128 + r mod 64)].

Definition bad_rune : bytes := encode_rune 65533.
Definition surrogate (r : N) : bool := (55296 <=? r)%N && (r <? 57344)%N.

(** utf16.DecodeRune: a code point, or none. *)
Definition pair_rune (r r2 : N) : option N :=
  if (r <? 56320)%N && (56320 <=? r2)%N && (r2 <? 57344)%N
  then Some ((r - 55296) * 1024 + (r2 - 56320) + 65536)%N else None.

Definition cons_res (h : bytes) (x : option (bytes * bytes)) : option (bytes * bytes) :=
  match x with Some (v, r) => Some (h ++ v, r) | None => None end.

(** unquoteBytes from after the opening quote up to the closing one: the value
    and the remaining text. *)
Fixpoint unesc (s : bytes) : option (bytes * bytes) :=
  match s with
  | [] => None
  | a :: s1 =>
      if Ascii.eqb a quote then Some ([], s1)
      else if Ascii.eqb a bsl then
        match s1 with
        | [] => None
        | e :: s2 =>
            if Ascii.eqb e quote || Ascii.eqb e bsl || Ascii.eqb e "/"%char then cons_res [e] (unesc s2)
            else if Ascii.eqb e "b"%char then cons_res [ascii_of_N 8] (unesc s2)
            else if Ascii.eqb e "f"%char then cons_res [ascii_of_N 12] (unesc s2)
            else if Ascii.eqb e "n"%char then cons_res [ascii_of_N 10] (unesc s2)
            else if Ascii.eqb e "r"%char then cons_res [ascii_of_N 13] (unesc s2)
            else if Ascii.eqb e "t"%char then cons_res [ascii_of_N 9] (unesc s2)
            else if Ascii.eqb e "u"%char then
              match s2 with
              | h1 :: h2 :: h3 :: h4 :: s3 =>
                  match hex4 h1 h2 h3 h4 with
                  | None => None
                  | Some r =>
                      if surrogate r then
                        match s3 with
                        | x :: y :: g1 :: g2 :: g3 :: g4 :: s4 =>
                            if Ascii.eqb x bsl && Ascii.eqb y "u"%char then
                              match hex4 g1 g2 g3 g4 with
                              | None => None
                              | Some r2 =>
                                  match pair_rune r r2 with
                                  | Some p => cons_res (encode_rune p) (unesc s4)
                                  | None => cons_res bad_rune (unesc s3)
                                  end
                              end
                            else cons_res bad_rune (unesc s3)
                        | _ => cons_res bad_rune (unesc s3)
                        end
                      else cons_res (encode_rune r) (unesc s3)
                  end
              | _ => None
              end
            else None
        end
      else if (code a <? 32)%N then None
      else if is_ascii a then cons_res [a] (unesc s1)
      else
        match s1 with
        | [] => None
        | b :: s2 =>
            if valid2 a b then cons_res [a; b] (unesc s2)
            else
              match s2 with
              | [] => cons_res bad_rune (unesc s1)
              | c :: s3 =>
                  if valid3 a b c then cons_res [a; b; c] (unesc s3)
                  else
                    match s3 with
                    | [] => cons_res bad_rune (unesc s1)
                    | d :: s4 =>
                        if valid4 a b c d then cons_res [a; b; c; d] (unesc s4)
                        else cons_res bad_rune (unesc s1)
                    end
              end
        end
  end.

(** What writing and reading back makes of a string: every byte that is not
    part of a UTF-8 sequence becomes U+FFFD. *)
Fixpoint sanitize (s : bytes) : bytes :=
  match s with
  | [] => []
  | a :: s1 =>
      if is_ascii a then a :: sanitize s1
      else
        match s1 with
        | [] => bad_rune
        | b :: s2 =>
            if valid2 a b then a :: b :: sanitize s2
            else
              match s2 with
              | [] => bad_rune ++ sanitize s1
              | c :: s3 =>
                  if valid3 a b c then a :: b :: c :: sanitize s3
                  else
                    match s3 with
                    | [] => bad_rune ++ sanitize s1
                    | d :: s4 =>
                        if valid4 a b c d then a :: b :: c :: d :: sanitize s4
                        else bad_rune ++ sanitize s1
                    end
              end
        end
  end.

(** ** Proofs *)

(** Case analysis over all bytes. *)
Ltac all_bytes c := destruct c as [[] [] [] [] [] [] [] []].

Lemma esc_ascii_round a s :
  is_ascii a = true -> unesc (esc_ascii a ++ s) = cons_res [a] (unesc s).
Proof. intros H. all_bytes a; first [discriminate H | reflexivity]. Qed.

Lemma non_ascii_head a : is_ascii a = false ->
  Ascii.eqb a quote = false /\ Ascii.eqb a bsl = false /\ (code a <? 32)%N = false.
Proof. intros H. all_bytes a; first [discriminate H | done]. Qed.

Lemma esc_bad_round s : unesc (esc_bad ++ s) = cons_res bad_rune (unesc s).
Proof. reflexivity. Qed.

Lemma esc_sep_round a b c s :
  line_sep a b c = true -> unesc (esc_sep c ++ s) = cons_res [a; b; c] (unesc s).
Proof.
  unfold line_sep. rewrite !andb_true_iff, orb_true_iff, !N.eqb_eq. intros [[Ha Hb] Hc].
  assert (a = ascii_of_N 226) as -> by (rewrite <- Ha; symmetry; apply ascii_N_embedding).
  assert (b = ascii_of_N 128) as -> by (rewrite <- Hb; symmetry; apply ascii_N_embedding).
  destruct Hc as [Hc|Hc].
  - assert (c = ascii_of_N 168) as -> by (rewrite <- Hc; symmetry; apply ascii_N_embedding). reflexivity.
  - assert (c = ascii_of_N 169) as -> by (rewrite <- Hc; symmetry; apply ascii_N_embedding). reflexivity.
Qed.

Lemma valid2_not_ascii a b : valid2 a b = true -> is_ascii a = false.
Proof. unfold valid2, between, is_ascii. rewrite !andb_true_iff, !N.leb_le, N.ltb_ge. lia. Qed.

Lemma valid3_lead a b c : valid3 a b c = true -> (224 <= code a <= 239)%N.
Proof. unfold valid3, between. rewrite !andb_true_iff, !orb_true_iff, !andb_true_iff, !N.leb_le, !N.eqb_eq. lia. Qed.
Lemma valid4_lead a b c d : valid4 a b c d = true -> (240 <= code a <= 244)%N.
Proof. unfold valid4, between. rewrite !andb_true_iff, !orb_true_iff, !andb_true_iff, !N.leb_le, !N.eqb_eq. lia. Qed.
Lemma valid2_lead a b : valid2 a b = true -> (194 <= code a <= 223)%N.
Proof. unfold valid2, between. rewrite !andb_true_iff, !N.leb_le. lia. Qed.

Lemma lead_false2 a b : (224 <= code a)%N -> valid2 a b = false.
Proof. intros H. destruct (valid2 a b) eqn:E; [|done]. apply valid2_lead in E. lia. Qed.
Lemma lead_false3 a b c : (240 <= code a)%N -> valid3 a b c = false.
Proof. intros H. destruct (valid3 a b c) eqn:E; [|done]. apply valid3_lead in E. lia. Qed.
Lemma lead_ascii a : (128 <= code a)%N -> is_ascii a = false.
Proof. intros H. apply N.ltb_ge. done. Qed.

Lemma unesc_2 a b s : valid2 a b = true -> unesc (a :: b :: s) = cons_res [a; b] (unesc s).
Proof.
  intros H. pose proof (valid2_lead _ _ H) as Hl. pose proof (lead_ascii a ltac:(lia)) as Ha.
  destruct (non_ascii_head a Ha) as (H1 & H2 & H3). cbn [unesc]. by rewrite H1, H2, H3, Ha, H.
Qed.
Lemma unesc_3 a b c s : valid3 a b c = true -> unesc (a :: b :: c :: s) = cons_res [a; b; c] (unesc s).
Proof.
  intros H. pose proof (valid3_lead _ _ _ H) as Hl. pose proof (lead_ascii a ltac:(lia)) as Ha.
  destruct (non_ascii_head a Ha) as (H1 & H2 & H3). cbn [unesc].
  by rewrite H1, H2, H3, Ha, (lead_false2 a b), H by lia.
Qed.
Lemma unesc_4 a b c d s : valid4 a b c d = true -> unesc (a :: b :: c :: d :: s) = cons_res [a; b; c; d] (unesc s).
Proof.
  intros H. pose proof (valid4_lead _ _ _ _ H) as Hl. pose proof (lead_ascii a ltac:(lia)) as Ha.
  destruct (non_ascii_head a Ha) as (H1 & H2 & H3). cbn [unesc].
  by rewrite H1, H2, H3, Ha, (lead_false2 a b), (lead_false3 a b c), H by lia.
Qed.

Lemma cons_res_app x y r : cons_res x (cons_res y r) = cons_res (x ++ y) r.
Proof. destruct r as [[v t]|]; simpl; [|done]. by rewrite app_assoc. Qed.

Lemma esc_round_n n s rest : length s <= n -> unesc (esc s ++ quote :: rest) = Some (sanitize s, rest).
Proof.
  revert s. induction n as [|n IH]; intros s Hn.
  - destruct s; [|simpl in Hn; lia]. reflexivity.
  - destruct s as [|a s1]; [reflexivity|]. cbn [esc sanitize]. cbn [length] in Hn.
    destruct (is_ascii a) eqn:Ha.
    { rewrite <- app_assoc, esc_ascii_round by done. rewrite IH by lia. reflexivity. }
    assert (Hbad : unesc ((esc_bad ++ esc s1) ++ quote :: rest) = Some (bad_rune ++ sanitize s1, rest)).
    { rewrite <- app_assoc, esc_bad_round, IH by lia. reflexivity. }
    destruct s1 as [|b s2]; [reflexivity|]. cbn [length] in Hn.
    destruct (valid2 a b) eqn:H2.
    { cbn [app]. rewrite unesc_2 by done. rewrite IH by lia. reflexivity. }
    destruct s2 as [|c s3]; [exact Hbad|]. cbn [length] in Hn.
    destruct (valid3 a b c) eqn:H3.
    { rewrite <- app_assoc. destruct (line_sep a b c) eqn:Hs.
      - rewrite (esc_sep_round a b c) by done. rewrite IH by lia. reflexivity.
      - cbn [app]. rewrite unesc_3 by done. rewrite IH by lia. reflexivity. }
    destruct s3 as [|d s4]; [exact Hbad|]. cbn [length] in Hn.
    destruct (valid4 a b c d) eqn:H4; [|exact Hbad].
    cbn [app]. rewrite unesc_4 by done. rewrite IH by lia. reflexivity.
Qed.

Lemma esc_round s rest : unesc (esc s ++ quote :: rest) = Some (sanitize s, rest).
Proof. by eapply esc_round_n. Qed.

Lemma sanitize_utf8 s : utf8 s -> sanitize s = s.
Proof.
  induction 1 as [|a s Ha H IH|a b s Hv H IH|a b c s Hv H IH|a b c d s Hv H IH]; [done|..]; cbn [sanitize].
  - by rewrite Ha, IH.
  - pose proof (valid2_lead _ _ Hv). rewrite lead_ascii by lia. by rewrite Hv, IH.
  - pose proof (valid3_lead _ _ _ Hv). rewrite lead_ascii, lead_false2 by lia. by rewrite Hv, IH.
  - pose proof (valid4_lead _ _ _ _ Hv). rewrite lead_ascii, lead_false2, lead_false3 by lia. by rewrite Hv, IH.
Qed.

Lemma ascii_utf8 s : Forall (fun c => is_ascii c = true) s -> utf8 s.
Proof. induction 1; by constructor. Qed.

Lemma bad_rune_length : length bad_rune = 3.
Proof. reflexivity. Qed.

(** Bytes outside UTF-8 sequences never survive. *)
Lemma sanitize_grows n s :
  length s <= n -> length s <= length (sanitize s) /\ (length (sanitize s) = length s -> utf8 s).
Proof.
  revert s. induction n as [|n IH]; intros s Hn.
  - destruct s; [|simpl in Hn; lia]. split; [done|]. intros _. constructor.
  - destruct s as [|a s1]; [split; [done|intros _; constructor]|]. cbn [sanitize length] in *.
    destruct (is_ascii a) eqn:Ha.
    { destruct (IH s1 ltac:(lia)) as [H1 H2]. cbn [length]. split; [lia|]. intros H. constructor; [done|apply H2; lia]. }
    assert (Hbad : S (length s1) <= length (bad_rune ++ sanitize s1) /\
      (length (bad_rune ++ sanitize s1) = S (length s1) -> utf8 (a :: s1))).
    { rewrite app_length, bad_rune_length. destruct (IH s1 ltac:(lia)) as [H1 H2]. split; lia. }
    destruct s1 as [|b s2]; [rewrite bad_rune_length; cbn [length]; split; [lia|done]|]. cbn [length] in *.
    destruct (valid2 a b) eqn:H2.
    { destruct (IH s2 ltac:(lia)) as [H3 H4]. cbn [length]. split; [lia|]. intros H. apply u_2; [done|apply H4; lia]. }
    destruct s2 as [|c s3]; [exact Hbad|]. cbn [length] in *.
    destruct (valid3 a b c) eqn:H3.
    { destruct (IH s3 ltac:(lia)) as [H4 H5]. cbn [length]. split; [lia|]. intros H. apply u_3; [done|apply H5; lia]. }
    destruct s3 as [|d s4]; [exact Hbad|]. cbn [length] in *.
    destruct (valid4 a b c d) eqn:H4; [|exact Hbad].
    destruct (IH s4 ltac:(lia)) as [H5 H6]. cbn [length]. split; [lia|]. intros H. apply u_4; [done|apply H6; lia].
Qed.

Lemma sanitize_iff s : sanitize s = s <-> utf8 s.
Proof.
  split; [|apply sanitize_utf8]. intros H. apply (sanitize_grows (length s) s); [done|]. by rewrite H.
Qed.
