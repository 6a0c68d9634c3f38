(** JSON texts as RFC 8259 and package encoding/json define them, apart from the
    model's reader, and that the reader reads exactly these. *)
From Verif Require Import Bytes GoPath Here GoTypes GoNum JsonStr JsonText GoQuote Quote.

(** ** UTF-8 (RFC 3629, section 3) *)

Definition scalar (r : N) : Prop := (r < 55296 \/ 57344 <= r <= 1114111)%N.
Definition utf8_form (r : N) : bytes :=
  ascii_of_N <$>
    (if decide (r < 128)%N then [r]
     else if decide (r < 2048)%N then [192 + r / 64; 128 + r mod 64]
     else if decide (r < 65536)%N then [224 + r / 4096; 128 + r / 64 mod 64; 128 + r mod 64]
     else [240 + r / 262144; 128 + r / 4096 mod 64; 128 + r / 64 mod 64; 128 + r mod 64])%N.

(** ** Grammar *)

Definition white (w : bytes) : Prop := Forall (fun c => c ∈ ascii_of_N <$> [32; 9; 10; 13]%N) w.

(** [w] does not begin with the UTF-8 form of a character. *)
Definition no_char (w : bytes) : Prop := ~ exists r w', scalar r /\ w = utf8_form r ++ w'.
(** \uXXXX *)
Definition u4 (h : bytes) (r : N) : Prop := hexnum h r /\ length h = 4.
Definition high (r : N) : Prop := (55296 <= r < 56320)%N.
Definition low (r : N) : Prop := (56320 <= r < 57344)%N.

Definition json_escapes : list (ascii * N) :=
  [(quote, 34); (bsl, 92); ("/"%char, 47); ("b"%char, 8); ("f"%char, 12); ("n"%char, 10); ("r"%char, 13); ("t"%char, 9)]%N.

(** What is between the quotes, and its value.  The last three cases are the
    ones encoding/json documents: bytes that are not UTF-8 and lone surrogates
    count as U+FFFD. *)
Inductive jstr : bytes -> bytes -> Prop :=
| js_nil : jstr [] []
| js_char r w s : scalar r -> (32 <= r)%N -> r <> 34%N -> r <> 92%N -> jstr w s ->
    jstr (utf8_form r ++ w) (utf8_form r ++ s)
| js_simple e n w s : (e, n) ∈ json_escapes -> jstr w s -> jstr (bsl :: e :: w) (ascii_of_N n :: s)
| js_u h r w s : u4 h r -> scalar r -> jstr w s -> jstr (bsl :: "u"%char :: h ++ w) (utf8_form r ++ s)
| js_pair h1 r1 h2 r2 w s : u4 h1 r1 -> high r1 -> u4 h2 r2 -> low r2 -> jstr w s ->
    jstr (bsl :: "u"%char :: h1 ++ bsl :: "u"%char :: h2 ++ w)
      (utf8_form (65536 + (r1 - 55296) * 1024 + (r2 - 56320)) ++ s)
| js_bad a w s : (128 <= code a)%N -> no_char (a :: w) -> jstr w s -> jstr (a :: w) (utf8_form 65533 ++ s)
| js_low h r w s : u4 h r -> low r -> jstr w s -> jstr (bsl :: "u"%char :: h ++ w) (utf8_form 65533 ++ s)
| js_high h r w s : u4 h r -> high r ->
    (~ exists h2 r2 w', w = bsl :: "u"%char :: h2 ++ w' /\ u4 h2 r2 /\ low r2) ->
    jstr w s -> jstr (bsl :: "u"%char :: h ++ w) (utf8_form 65533 ++ s).

(** Decimal numbers without leading zeros. *)
Inductive decnum : bytes -> N -> Prop :=
| dn_nil : decnum [] 0
| dn_snoc w v c d : decnum w v -> B"0123456789" !! d = Some c -> decnum (w ++ [c]) (v * 10 + N.of_nat d)%N.
Definition jnat (t : bytes) (n : N) : Prop :=
  decnum t n /\ t <> [] /\ (forall t', t = "0"%char :: t' -> t' = []).
Inductive jint : bytes -> Z -> Prop :=
| ji_pos t n : jnat t n -> jint t (Z.of_N n)
| ji_neg t n : jnat t n -> jint ("-"%char :: t) (- Z.of_N n).

(** Values, the inside of arrays and of objects. *)
Inductive jval : bytes -> json -> Prop :=
| v_null : jval (B"null") JNull
| v_true : jval (B"true") (JBool true)
| v_false : jval (B"false") (JBool false)
| v_int t z : jint t z -> jval t (JNum z)
| v_str w s : jstr w s -> jval (quote :: w ++ [quote]) (JStr s)
| v_arr0 w : white w -> jval ("["%char :: w ++ ["]"%char]) (JArr [])
| v_arr t l : jelems t l -> jval ("["%char :: t ++ ["]"%char]) (JArr l)
| v_obj0 w : white w -> jval ("{"%char :: w ++ ["}"%char]) (JObj [])
| v_obj t l : jmembers t l -> jval ("{"%char :: t ++ ["}"%char]) (JObj l)
with jelems : bytes -> list json -> Prop :=
| je_one w1 t w2 j : white w1 -> jval t j -> white w2 -> jelems (w1 ++ t ++ w2) [j]
| je_more w1 t w2 j e l : white w1 -> jval t j -> white w2 -> jelems e l ->
    jelems (w1 ++ t ++ w2 ++ ","%char :: e) (j :: l)
with jmembers : bytes -> list (bytes * json) -> Prop :=
| jm_one w1 k s w2 w3 t w4 j : white w1 -> jstr k s -> white w2 -> white w3 -> jval t j -> white w4 ->
    jmembers (w1 ++ quote :: k ++ quote :: w2 ++ ":"%char :: w3 ++ t ++ w4) [(s, j)]
| jm_more w1 k s w2 w3 t w4 j e l : white w1 -> jstr k s -> white w2 -> white w3 -> jval t j -> white w4 ->
    jmembers e l ->
    jmembers (w1 ++ quote :: k ++ quote :: w2 ++ ":"%char :: w3 ++ t ++ w4 ++ ","%char :: e) ((s, j) :: l).

(** A whole text and its value. *)
Definition json_text (t : bytes) (j : json) : Prop :=
  exists w1 v w2, t = w1 ++ v ++ w2 /\ white w1 /\ jval v j /\ white w2.

Scheme jval_mind := Induction for jval Sort Prop
  with jelems_mind := Induction for jelems Sort Prop
  with jmembers_mind := Induction for jmembers Sort Prop.
Combined Scheme json_mind from jval_mind, jelems_mind, jmembers_mind.

(** ** The validity tests of the model are UTF-8 *)

Lemma utf8_form_enc r : utf8_form r = encode_rune r.
Proof.
  unfold utf8_form, encode_rune. destruct (decide (r < 128)%N), (N.ltb_spec r 128); try lia; [done|].
  destruct (decide (r < 2048)%N), (N.ltb_spec r 2048); try lia; [done|].
  destruct (decide (r < 65536)%N), (N.ltb_spec r 65536); try lia; done.
Qed.

Lemma code_of n : (n < 256)%N -> code (ascii_of_N n) = n.
Proof. apply N_ascii_embedding. Qed.

Lemma char_scalar r x : char_of r x -> scalar r /\ utf8_form r = x.
Proof.
  intros H. destruct (char_put r x H) as [E Hr]. rewrite utf8_form_enc. unfold put_rune in E.
  assert (Hs : surrogate r = false).
  { unfold surrogate. apply not_true_iff_false. rewrite andb_true_iff, N.leb_le, N.ltb_lt. intros Hs.
    destruct H as [a Ha|a b H|a b c H|a b c d H].
    - unfold is_ascii in Ha. apply N.ltb_lt in Ha. lia.
    - destruct (rune2_ok _ _ H). lia.
    - pose proof H as H'. unfold valid3 in H'. rewrite !andb_true_iff, !orb_true_iff, !andb_true_iff in H'. unfold cont in H'.
      rewrite !between_spec, !N.eqb_eq in H'. unfold rune3 in Hs. lia.
    - destruct (rune4_ok _ _ _ _ H). lia. }
  rewrite Hs in E. rewrite (proj2 (N.ltb_ge 1114111 r)) in E by lia. cbn [orb] in E. split; [|done].
  unfold surrogate in Hs. apply not_true_iff_false in Hs. rewrite andb_true_iff, N.leb_le, N.ltb_lt in Hs. unfold scalar. lia.
Qed.

Lemma split64 r : exists q m, (r / 64 = q /\ r mod 64 = m /\ r = 64 * q + m /\ m < 64)%N.
Proof. exists (r / 64)%N, (r mod 64)%N. split_and!; [done|done|by apply N.div_mod|by apply N.mod_lt]. Qed.

Lemma scalar_char r : scalar r -> char_of r (utf8_form r).
Proof.
  intros Hs. rewrite utf8_form_enc. unfold encode_rune. unfold scalar in Hs.
  destruct (N.ltb_spec r 128).
  { rewrite <- (code_of r) at 1 by lia. apply ch_1. unfold is_ascii. rewrite code_of by lia. by apply N.ltb_lt. }
  assert (E1 : (r / 4096 = r / 64 / 64)%N) by (by rewrite N.div_div). assert (E2 : (r / 262144 = r / 64 / 64 / 64)%N) by (by rewrite !N.div_div).
  rewrite E1, E2. clear E1 E2.
  destruct (split64 r) as (q & m & -> & -> & Er & Hm). destruct (split64 q) as (q1 & m1 & -> & -> & Eq & Hm1).
  destruct (split64 q1) as (q2 & m2 & -> & -> & Eq1 & Hm2).
  destruct (N.ltb_spec r 2048).
  { set (a := ascii_of_N (192 + q)). set (b := ascii_of_N (128 + m)).
    assert (Ha : code a = (192 + q)%N) by (apply code_of; lia). assert (Hb : code b = (128 + m)%N) by (apply code_of; lia).
    assert (E : r = rune2 a b) by (unfold rune2; lia). rewrite E at 1. apply ch_2. unfold valid2, cont.
    rewrite andb_true_iff, !between_spec. lia. }
  destruct (N.ltb_spec r 65536).
  { set (a := ascii_of_N (224 + q1)). set (b := ascii_of_N (128 + m1)). set (c := ascii_of_N (128 + m)).
    assert (Ha : code a = (224 + q1)%N) by (apply code_of; lia). assert (Hb : code b = (128 + m1)%N) by (apply code_of; lia).
    assert (Hc : code c = (128 + m)%N) by (apply code_of; lia).
    assert (E : r = rune3 a b c) by (unfold rune3; lia). rewrite E at 1. apply ch_3. unfold valid3, cont.
    rewrite !andb_true_iff, !orb_true_iff, !andb_true_iff, !between_spec, !N.eqb_eq. lia. }
  set (a := ascii_of_N (240 + q2)). set (b := ascii_of_N (128 + m2)). set (c := ascii_of_N (128 + m1)). set (d := ascii_of_N (128 + m)).
  assert (Ha : code a = (240 + q2)%N) by (apply code_of; lia). assert (Hb : code b = (128 + m2)%N) by (apply code_of; lia).
  assert (Hc : code c = (128 + m1)%N) by (apply code_of; lia). assert (Hd : code d = (128 + m)%N) by (apply code_of; lia).
  assert (E : r = rune4 a b c d) by (unfold rune4; lia). rewrite E at 1. apply ch_4. unfold valid4, cont.
  rewrite !andb_true_iff, !orb_true_iff, !andb_true_iff, !between_spec, !N.eqb_eq. lia.
Qed.

(** The model's notion of UTF-8 text. *)
Lemma utf8_forms s : utf8 s <-> exists rs, Forall scalar rs /\ s = concat (utf8_form <$> rs).
Proof.
  split.
  - assert (Hc : forall r x s, char_of r x -> (exists rs, Forall scalar rs /\ s = concat (utf8_form <$> rs)) ->
      exists rs, Forall scalar rs /\ x ++ s = concat (utf8_form <$> rs)).
    { intros r x s' H (rs & H1 & ->). destruct (char_scalar r x H) as [Hs <-]. exists (r :: rs). split; [by constructor|done]. }
    induction 1 as [|a s Ha _ IH|a b s H _ IH|a b c s H _ IH|a b c d s H _ IH].
    + by exists [].
    + by apply (Hc (code a) [a]); [constructor|].
    + by apply (Hc (rune2 a b) [a; b]); [constructor|].
    + by apply (Hc (rune3 a b c) [a; b; c]); [constructor|].
    + by apply (Hc (rune4 a b c d) [a; b; c; d]); [constructor|].
  - intros (rs & Hs & ->). induction Hs as [|r rs Hr _ IH]; [constructor|]. cbn.
    destruct (scalar_char r Hr); cbn; by constructor.
Qed.

(** ** Strings *)

Lemma no_char_tests w : no_char w ->
  match w with
  | a :: b :: c :: d :: _ => valid2 a b = false /\ valid3 a b c = false /\ valid4 a b c d = false
  | [a; b; c] => valid2 a b = false /\ valid3 a b c = false
  | [a; b] => valid2 a b = false
  | _ => True
  end.
Proof.
  intros H. assert (Hc : forall r x w', char_of r x -> w <> x ++ w').
  { intros r x w' Hx ->. apply H. destruct (char_scalar r x Hx) as [Hs <-]. by exists r, w'. }
  assert (H2 : forall a b w', w = a :: b :: w' -> valid2 a b = false).
  { intros a b w' ->. apply not_true_iff_false. intros Hv. by apply (Hc _ [a; b] w' (ch_2 _ _ Hv)). }
  assert (H3 : forall a b c w', w = a :: b :: c :: w' -> valid3 a b c = false).
  { intros a b c w' ->. apply not_true_iff_false. intros Hv. by apply (Hc _ [a; b; c] w' (ch_3 _ _ _ Hv)). }
  assert (H4 : forall a b c d w', w = a :: b :: c :: d :: w' -> valid4 a b c d = false).
  { intros a b c d w' ->. apply not_true_iff_false. intros Hv. by apply (Hc _ [a; b; c; d] w' (ch_4 _ _ _ _ Hv)). }
  destruct w as [|a [|b [|c [|d w]]]]; split_and?; eauto.
Qed.

(** A closing quote does not complete a character. *)
Lemma quote_no2 a : valid2 a quote = false.
Proof. unfold valid2. by rewrite andb_comm. Qed.
Lemma quote_no3 a b c : b = quote \/ c = quote -> valid3 a b c = false.
Proof.
  intros H. apply not_true_iff_false. intros Hv. destruct (valid3_conts _ _ _ Hv). by destruct H; subst.
Qed.
Lemma quote_no4 a b c d : b = quote \/ c = quote \/ d = quote -> valid4 a b c d = false.
Proof.
  intros H. apply not_true_iff_false. intros Hv. destruct (valid4_conts _ _ _ _ Hv) as (? & ? & ?). by destruct H as [|[|]]; subst.
Qed.

Lemma unesc_bad a w r : (128 <= code a)%N -> no_char (a :: w) ->
  unesc (a :: w ++ quote :: r) = cons_res bad_rune (unesc (w ++ quote :: r)).
Proof.
  intros Ha Hn. apply no_char_tests in Hn. pose proof (lead_ascii a Ha) as Hi.
  assert (Hq : Ascii.eqb a quote = false) by (by apply high_lead).
  assert (Hb : Ascii.eqb a bsl = false) by (destruct (Ascii.eqb_spec a bsl); [by subst a|done]).
  assert (H32 : (code a <? 32)%N = false) by (apply N.ltb_ge; lia).
  destruct w as [|b [|c [|d w]]]; cbn [app]; cbn [unesc]; rewrite Hq, Hb, H32, Hi.
  - rewrite quote_no2. destruct r as [|x r]; [done|]. rewrite quote_no3 by (by left). destruct r as [|y r]; [done|].
    rewrite quote_no4 by (by left). done.
  - rewrite Hn. rewrite quote_no3 by (by right). destruct r as [|x r]; [done|]. rewrite quote_no4 by (by right; left). done.
  - destruct Hn as [-> ->]. rewrite quote_no4 by (by right; right). done.
  - destruct Hn as (-> & -> & ->). done.
Qed.

Lemma u4_hex h r : u4 h r -> exists a b c d, h = [a; b; c; d] /\ hex4 a b c d = Some r.
Proof.
  intros [Hh Hl]. destruct h as [|a [|b [|c [|d [|]]]]]; try done. exists a, b, c, d. split; [done|].
  destruct (hexnum_reads _ _ Hh) as [Ht _]. specialize (Ht []). cbn in Ht. unfold hex4.
  destruct (hex_of a) as [x|]; [|done]. destruct (hex_of b) as [y|]; [|done].
  destruct (hex_of c) as [z|]; [|done]. destruct (hex_of d) as [u|]; [|done].
  injection Ht as <-. done.
Qed.

Lemma hex_digit c x : hex_of c = Some x ->
  exists d, x = N.of_nat d /\ (B"0123456789abcdef" !! d = Some c \/ B"0123456789ABCDEF" !! d = Some c).
Proof.
  intros H. exists (N.to_nat x). split; [lia|]. destruct c as [[] [] [] [] [] [] [] []]; vm_compute in H;
    first [discriminate H|injection H as <-; first [left; reflexivity|right; reflexivity]].
Qed.
Lemma hex_u4 a b c d r : hex4 a b c d = Some r -> u4 [a; b; c; d] r /\ (r < 65536)%N.
Proof.
  unfold hex4. destruct (hex_of a) as [x|] eqn:Ea; [|done]. destruct (hex_of b) as [y|] eqn:Eb; [|done].
  destruct (hex_of c) as [z|] eqn:Ec; [|done]. destruct (hex_of d) as [u|] eqn:Ed; [|done]. intros [= <-].
  destruct (hex_digit _ _ Ea) as (n1 & -> & H1). destruct (hex_digit _ _ Eb) as (n2 & -> & H2).
  destruct (hex_digit _ _ Ec) as (n3 & -> & H3). destruct (hex_digit _ _ Ed) as (n4 & -> & H4).
  assert (Hlt : forall n e, B"0123456789abcdef" !! n = Some e \/ B"0123456789ABCDEF" !! n = Some e -> n < 16).
  { intros n e [H|H]; apply lookup_lt_Some in H; exact H. }
  pose proof (Hlt _ _ H1). pose proof (Hlt _ _ H2). pose proof (Hlt _ _ H3). pose proof (Hlt _ _ H4).
  split; [split; [|done]|lia].
  apply (hn_snoc [a; b; c]); [|done]. apply (hn_snoc [a; b]); [|done]. apply (hn_snoc [a]); [|done].
  replace (N.of_nat n1) with (0 * 16 + N.of_nat n1)%N by lia. apply (hn_snoc []); [constructor|done].
Qed.

Lemma surrogate_scalar r : (r < 65536)%N -> surrogate r = false -> scalar r.
Proof.
  intros Hr Hs. unfold surrogate in Hs. apply not_true_iff_false in Hs. rewrite andb_true_iff, N.leb_le, N.ltb_lt in Hs. unfold scalar. lia.
Qed.
Lemma scalar_surrogate r : scalar r -> surrogate r = false.
Proof.
  intros Hs. unfold surrogate. apply not_true_iff_false. rewrite andb_true_iff, N.leb_le, N.ltb_lt. unfold scalar in Hs. lia.
Qed.
Lemma surrogate_cases r : surrogate r = true <-> high r \/ low r.
Proof. unfold surrogate, high, low. rewrite andb_true_iff, N.leb_le, N.ltb_lt. lia. Qed.
Lemma pair_some r r2 p : surrogate r = true -> pair_rune r r2 = Some p <->
  high r /\ low r2 /\ p = (65536 + (r - 55296) * 1024 + (r2 - 56320))%N.
Proof.
  rewrite surrogate_cases. unfold pair_rune, high, low. intros Hr.
  destruct (N.ltb_spec r 56320), (N.leb_spec 56320 r2), (N.ltb_spec r2 57344); cbn [andb];
    (split; [intros [= <-]|intros (? & ? & ->)]); try (f_equal; lia); lia.
Qed.

Lemma unesc_unfold h1 h2 h3 h4 s3 : unesc (bsl :: "u"%char :: h1 :: h2 :: h3 :: h4 :: s3) =
  match hex4 h1 h2 h3 h4 with
  | None => None
  | Some r =>
      if surrogate r then
        match s3 with
        | x :: y :: g1 :: g2 :: g3 :: g4 :: s4 =>
            if Ascii.eqb x bsl && Ascii.eqb y "u"%char then
              match hex4 g1 g2 g3 g4 with
              | None => None
              | Some r2 => match pair_rune r r2 with Some p => cons_res (encode_rune p) (unesc s4) | None => cons_res bad_rune (unesc s3) end
              end
            else cons_res bad_rune (unesc s3)
        | _ => cons_res bad_rune (unesc s3)
        end
      else cons_res (encode_rune r) (unesc s3)
  end.
Proof. reflexivity. Qed.

(** Unescaping up to the closing quote. *)
Lemma unesc_u h r w : u4 h r -> scalar r ->
  unesc (bsl :: "u"%char :: h ++ w) = cons_res (utf8_form r) (unesc w).
Proof.
  intros Hh Hs. destruct (u4_hex h r Hh) as (a & b & c & d & -> & E). cbn [app]. rewrite unesc_unfold, E, scalar_surrogate by done. by rewrite utf8_form_enc.
Qed.
Lemma unesc_pair h1 r1 h2 r2 w : u4 h1 r1 -> high r1 -> u4 h2 r2 -> low r2 ->
  unesc (bsl :: "u"%char :: h1 ++ bsl :: "u"%char :: h2 ++ w) =
    cons_res (utf8_form (65536 + (r1 - 55296) * 1024 + (r2 - 56320))) (unesc w).
Proof.
  intros H1 Hh H2 Hl. destruct (u4_hex _ _ H1) as (a & b & c & d & -> & E1). destruct (u4_hex _ _ H2) as (a' & b' & c' & d' & -> & E2).
  cbn [app]. assert (Hs : surrogate r1 = true) by (apply surrogate_cases; by left). rewrite unesc_unfold, E1, Hs.
  change (Ascii.eqb bsl bsl && Ascii.eqb "u"%char "u"%char) with true. cbv iota. rewrite E2.
  rewrite (proj2 (pair_some r1 r2 _ Hs)) by done. by rewrite utf8_form_enc.
Qed.
Lemma unesc_lone h r w rest : u4 h r -> surrogate r = true ->
  (high r -> ~ exists h2 r2 w', w = bsl :: "u"%char :: h2 ++ w' /\ u4 h2 r2 /\ low r2) ->
  (exists v, unesc (w ++ quote :: rest) = Some v) ->
  unesc (bsl :: "u"%char :: h ++ w ++ quote :: rest) = cons_res bad_rune (unesc (w ++ quote :: rest)).
Proof.
  intros Hh Hs Hno [v Hv]. destruct (u4_hex h r Hh) as (a & b & c & d & -> & E). cbn [app]. rewrite unesc_unfold, E, Hs. remember (w ++ quote :: rest) as s eqn:Es.
  destruct s as [|x [|y [|g1 [|g2 [|g3 [|g4 s4]]]]]]; try done.
  destruct (Ascii.eqb_spec x bsl) as [->|]; [|done]. destruct (Ascii.eqb_spec y "u"%char) as [->|]; [|done]. cbn [andb].
  assert (Hg : exists r2, hex4 g1 g2 g3 g4 = Some r2).
  { rewrite unesc_unfold in Hv. destruct (hex4 g1 g2 g3 g4) as [r2|]; [by exists r2|done]. }
  destruct Hg as [r2 Hg]. rewrite Hg. destruct (pair_rune r r2) as [p|] eqn:Ep; [|done].
  apply pair_some in Ep as (H1 & H2 & _); [|done]. exfalso. apply (Hno H1). destruct (hex_u4 _ _ _ _ _ Hg) as [Hu _].
  (* the four digits lie before the closing quote *)
  assert (Hq : quote ∉ [g1; g2; g3; g4]).
  { intros Hq. unfold hex4 in Hg. rewrite !elem_of_cons, elem_of_nil in Hq.
    destruct Hq as [<-|[<-|[<-|[<-|[]]]]]; change (hex_of quote) with (@None N) in Hg;
      repeat match type of Hg with context [hex_of ?z] => destruct (hex_of z) end; done. }
  rewrite !elem_of_cons in Hq.
  destruct w as [|w1 [|w2 [|w3 [|w4 [|w5 [|w6 w]]]]]]; cbn [app] in Es; injection Es; intros; subst; try done;
    try (exfalso; apply Hq; tauto).
  by exists [w3; w4; w5; w6], r2, w.
Qed.

Lemma jstr_read w s : jstr w s -> forall r, unesc (w ++ quote :: r) = Some (s, r).
Proof.
  induction 1 as [|r w s Hr H32 Hq Hb _ IH|e n w s He _ IH|h r w s Hh Hr _ IH|h1 r1 h2 r2 w s H1 Hh H2 Hl _ IH|a w s Ha Hn _ IH|h r w s Hh Hl _ IH|h r w s Hh Hl Hno _ IH];
    intros rest.
  - done.
  - rewrite <- app_assoc. pose proof (scalar_char r Hr) as Hc. remember (utf8_form r) as x eqn:Ex. clear Ex.
    destruct Hc as [a Ha|a b H|a b c H|a b c d H]; cbn [app].
    + assert (E1 : Ascii.eqb a quote = false) by (destruct (Ascii.eqb_spec a quote); [by subst a|done]).
      assert (E2 : Ascii.eqb a bsl = false) by (destruct (Ascii.eqb_spec a bsl); [by subst a|done]).
      cbn [unesc]. rewrite E1, E2, Ha, (proj2 (N.ltb_ge (code a) 32)) by done. by rewrite IH.
    + rewrite unesc_2 by done. by rewrite IH.
    + rewrite unesc_3 by done. by rewrite IH.
    + rewrite unesc_4 by done. by rewrite IH.
  - unfold json_escapes in He. rewrite !elem_of_cons, elem_of_nil in He. cbn [app].
    destruct He as [[= -> ->]|[[= -> ->]|[[= -> ->]|[[= -> ->]|[[= -> ->]|[[= -> ->]|[[= -> ->]|[[= -> ->]|[]]]]]]]]]; cbn [unesc];
      repeat match goal with |- context [Ascii.eqb ?x ?y] => first [change (Ascii.eqb x y) with true|change (Ascii.eqb x y) with false] end;
      cbn [orb]; by rewrite IH.
  - cbn [app]. rewrite <- app_assoc, (unesc_u h r) by done. by rewrite IH.
  - cbn [app]. rewrite <- app_assoc. cbn [app]. rewrite <- app_assoc. rewrite (unesc_pair h1 r1 h2 r2) by done. by rewrite IH.
  - cbn [app]. rewrite unesc_bad by done. rewrite IH. unfold bad_rune. by rewrite utf8_form_enc.
  - cbn [app]. rewrite <- app_assoc, (unesc_lone h r); [|done|apply surrogate_cases; by right|unfold high, low in *; lia|by rewrite IH; eexists].
    rewrite IH. unfold bad_rune. by rewrite utf8_form_enc.
  - cbn [app]. rewrite <- app_assoc, (unesc_lone h r); [|done|apply surrogate_cases; by left|done|by rewrite IH; eexists].
    rewrite IH. unfold bad_rune. by rewrite utf8_form_enc.
Qed.

Lemma cons_res_some h x v r : cons_res h x = Some (v, r) -> exists v', x = Some (v', r) /\ v = h ++ v'.
Proof. destruct x as [[v' r']|]; [|done]. cbn. intros [= <- <-]. by exists v'. Qed.

Lemma no_char_of (w : bytes) :
  (forall r x w', char_of r x -> w <> x ++ w') -> no_char w.
Proof. intros H (r & w' & Hr & ->). by apply (H r (utf8_form r) w' (scalar_char r Hr)). Qed.

Lemma read_jstr n s v r : length s <= n -> unesc s = Some (v, r) -> exists w, s = w ++ quote :: r /\ jstr w v.
Proof.
  revert s v r. induction n as [|n IH]; intros s v r Hn H; (destruct s as [|a s]; [done|]); [simpl in Hn; lia|].
  cbn [length] in Hn. cbn [unesc] in H.
  destruct (Ascii.eqb_spec a quote) as [->|Hq]; [injection H as <- <-; exists []; split; [done|constructor]|].
  destruct (Ascii.eqb_spec a bsl) as [->|Hb].
  - destruct s as [|e s]; [done|]. cbn [length] in Hn.
    assert (Hs : forall m, (e, m) ∈ json_escapes -> cons_res [ascii_of_N m] (unesc s) = Some (v, r) ->
      exists w, bsl :: e :: s = w ++ quote :: r /\ jstr w v).
    { intros m Hm Hc. apply cons_res_some in Hc as (v' & Hc & ->). apply IH in Hc as (w & -> & Hw); [|lia].
      exists (bsl :: e :: w). split; [done|by apply js_simple]. }
    destruct (Ascii.eqb_spec e quote) as [->|]; [by apply (Hs 34%N); [vm_compute; repeat constructor|]|].
    destruct (Ascii.eqb_spec e bsl) as [->|]; [by apply (Hs 92%N); [vm_compute; repeat constructor|]|].
    destruct (Ascii.eqb_spec e "/"%char) as [->|]; [by apply (Hs 47%N); [vm_compute; repeat constructor|]|].
    cbn [orb] in H.
    destruct (Ascii.eqb_spec e "b"%char) as [->|]; [by apply (Hs 8%N); [vm_compute; repeat constructor|]|].
    destruct (Ascii.eqb_spec e "f"%char) as [->|]; [by apply (Hs 12%N); [vm_compute; repeat constructor|]|].
    destruct (Ascii.eqb_spec e "n"%char) as [->|]; [by apply (Hs 10%N); [vm_compute; repeat constructor|]|].
    destruct (Ascii.eqb_spec e "r"%char) as [->|]; [by apply (Hs 13%N); [vm_compute; repeat constructor|]|].
    destruct (Ascii.eqb_spec e "t"%char) as [->|]; [by apply (Hs 9%N); [vm_compute; repeat constructor|]|].
    destruct (Ascii.eqb_spec e "u"%char) as [->|]; [|done].
    destruct s as [|h1 [|h2 [|h3 [|h4 s3]]]]; try done. cbn [length] in Hn.
    destruct (hex4 h1 h2 h3 h4) as [c|] eqn:Ex; [|done]. destruct (hex_u4 _ _ _ _ _ Ex) as [Hu Hlt].
    destruct (surrogate c) eqn:Es.
    2:{ apply cons_res_some in H as (v' & H & ->). apply IH in H as (w & -> & Hw); [|lia].
        exists (bsl :: "u"%char :: [h1; h2; h3; h4] ++ w). split; [done|]. rewrite <- utf8_form_enc.
        apply js_u; [done|by apply surrogate_scalar|done]. }
    assert (Hbad : cons_res bad_rune (unesc s3) = Some (v, r) ->
      (high c -> ~ exists g r2 w', s3 = bsl :: "u"%char :: g ++ w' /\ u4 g r2 /\ low r2) ->
      exists w, bsl :: "u"%char :: h1 :: h2 :: h3 :: h4 :: s3 = w ++ quote :: r /\ jstr w v).
    { intros Hc Hno. apply cons_res_some in Hc as (v' & Hc & ->). apply IH in Hc as (w & -> & Hw); [|lia].
      exists (bsl :: "u"%char :: [h1; h2; h3; h4] ++ w). split; [done|]. unfold bad_rune. rewrite <- utf8_form_enc.
      apply surrogate_cases in Es as [Hh|Hl]; [|by eapply js_low].
      apply (js_high _ c); [done|done| |done]. intros (g & r2 & w' & -> & Hg & Hl). apply (Hno Hh). cbn [app].
      rewrite <- app_assoc. by exists g, r2, (w' ++ quote :: r). }
    assert (Hshort : length s3 < 6 -> high c -> ~ exists g r2 w', s3 = bsl :: "u"%char :: g ++ w' /\ u4 g r2 /\ low r2).
    { intros Hl _ (g & r2 & w' & -> & [_ Hg] & _). cbn [length] in Hl. rewrite app_length in Hl. lia. }
    destruct s3 as [|x [|y [|g1 [|g2 [|g3 [|g4 s4]]]]]]; try (apply Hbad; [done|apply Hshort; cbn [length]; lia]). clear Hshort.
    destruct (Ascii.eqb_spec x bsl) as [->|Hx].
    2:{ apply Hbad; [done|]. intros _ (g & r2 & w' & [=] & _). congruence. }
    destruct (Ascii.eqb_spec y "u"%char) as [->|Hy].
    2:{ apply Hbad; [done|]. intros _ (g & r2 & w' & [=] & _). congruence. }
    cbn [andb] in H. destruct (hex4 g1 g2 g3 g4) as [r2|] eqn:Eg; [|done]. destruct (hex_u4 _ _ _ _ _ Eg) as [Hu2 _].
    destruct (pair_rune c r2) as [p|] eqn:Ep.
    + apply pair_some in Ep as (Hh & Hl & ->); [|done]. apply cons_res_some in H as (v' & H & ->).
      cbn [length] in Hn. apply IH in H as (w & -> & Hw); [|lia].
      exists (bsl :: "u"%char :: [h1; h2; h3; h4] ++ bsl :: "u"%char :: [g1; g2; g3; g4] ++ w). split; [done|].
      rewrite <- utf8_form_enc. by apply js_pair.
    + apply Hbad; [done|]. intros Hh (g & r3 & w' & [=Eq] & Hg & Hl).
      destruct (u4_hex _ _ Hg) as (? & ? & ? & ? & -> & Hx). cbn [app] in Eq. injection Eq; intros; subst.
      rewrite Hx in Eg. injection Eg as ->.
      assert (pair_rune c r2 = Some (65536 + (c - 55296) * 1024 + (r2 - 56320))%N) by (by apply pair_some). congruence.
  - destruct (code a <? 32)%N eqn:E32; [done|]. apply N.ltb_ge in E32.
    assert (Hchar : forall k x s', char_of k x -> (32 <= k)%N -> k <> 34%N -> k <> 92%N -> a :: s = x ++ s' -> length s' <= n ->
      cons_res x (unesc s') = Some (v, r) -> exists w, a :: s = w ++ quote :: r /\ jstr w v).
    { intros k x s' Hc Hk1 Hk2 Hk3 E Hl Hs. apply cons_res_some in Hs as (v' & Hs & ->). apply IH in Hs as (w & -> & Hw); [|done].
      destruct (char_scalar k x Hc) as [Hk <-]. exists (utf8_form k ++ w). split; [by rewrite E, <- app_assoc|by apply js_char]. }
    destruct (is_ascii a) eqn:Ea.
    { apply (Hchar (code a) [a] s); [by constructor|done| | |done|lia|done].
      - intros E. apply Hq. by rewrite <- (code_ascii a), E.
      - intros E. apply Hb. by rewrite <- (code_ascii a), E. }
    assert (Ha : (128 <= code a)%N) by (unfold is_ascii in Ea; by apply N.ltb_ge in Ea).
    assert (Hbad : cons_res bad_rune (unesc s) = Some (v, r) -> no_char (a :: s) -> exists w, a :: s = w ++ quote :: r /\ jstr w v).
    { intros Hc Hno. apply cons_res_some in Hc as (v' & Hc & ->). apply IH in Hc as (w & -> & Hw); [|lia].
      exists (a :: w). split; [done|]. unfold bad_rune. rewrite <- utf8_form_enc. apply js_bad; [done| |done].
      intros (k & w' & Hk & E). apply Hno. exists k, (w' ++ quote :: r). split; [done|]. rewrite app_assoc, <- E. done. }
    assert (Hno : forall b c d, a :: s = a :: b ++ c ++ d -> True) by done. clear Hno.
    assert (Hone : forall k x w', char_of k x -> a :: s = x ++ w' -> 2 <= length x).
    { intros k x w' Hc E. destruct Hc as [a' Ha'|? ? ?|? ? ? ?|? ? ? ? ?]; cbn [length]; try lia. injection E as -> _. congruence. }
    destruct s as [|b s2].
    { done. }
    cbn [length] in Hn. destruct (valid2 a b) eqn:E2.
    { destruct (rune2_ok a b E2) as [Hr _]. apply (Hchar (rune2 a b) [a; b] s2); [by constructor|lia|lia|lia|done|lia|done]. }
    destruct s2 as [|c s3].
    { apply Hbad; [done|]. apply no_char_of. intros k x w' Hc E. destruct Hc as [? ?|? ? ?|? ? ? ?|? ? ? ? ?]; injection E; intros; subst; congruence. }
    cbn [length] in Hn. destruct (valid3 a b c) eqn:E3.
    { destruct (rune3_ok a b c E3) as [Hr _]. apply (Hchar (rune3 a b c) [a; b; c] s3); [by constructor|lia|lia|lia|done|lia|done]. }
    destruct s3 as [|d s4].
    { apply Hbad; [done|]. apply no_char_of. intros k x w' Hc E. destruct Hc as [? ?|? ? ?|? ? ? ?|? ? ? ? ?]; injection E; intros; subst; congruence. }
    cbn [length] in Hn. destruct (valid4 a b c d) eqn:E4.
    { destruct (rune4_ok a b c d E4) as [Hr _]. apply (Hchar (rune4 a b c d) [a; b; c; d] s4); [by constructor|lia|lia|lia|done|lia|done]. }
    apply Hbad; [done|]. apply no_char_of. intros k x w' Hc E. destruct Hc as [? ?|? ? ?|? ? ? ?|? ? ? ? ?]; injection E; intros; subst; congruence.
Qed.

(** ** White space and numbers *)

Lemma white_ws w : white w <-> Forall (fun c => is_ws c = true) w.
Proof.
  unfold white. split; intros H; eapply Forall_impl; [exact H| |exact H|]; clear H; intros c; unfold is_ws; rewrite !orb_true_iff, !N.eqb_eq.
  - cbn. rewrite !elem_of_cons, elem_of_nil. intros [->|[->|[->|[->|[]]]]]; vm_compute; tauto.
  - intros H. rewrite <- (code_ascii c). destruct H as [[[->| ->]| ->]| ->]; vm_compute; repeat constructor.
Qed.
Lemma skip_white w s : white w -> skip_ws (w ++ s) = skip_ws s.
Proof. intros H. apply white_ws in H. induction H as [|c w Hc _ IH]; [done|]. cbn. by rewrite Hc. Qed.
Lemma skip_split s : exists w, white w /\ s = w ++ skip_ws s /\ match skip_ws s with [] => True | c :: _ => is_ws c = false end.
Proof.
  induction s as [|c s (w & Hw & E & Hh)]; [by exists []; split; [constructor|]|]. cbn. destruct (is_ws c) eqn:Ec.
  - exists (c :: w). split; [|cbn; by rewrite <- E]. apply white_ws. constructor; [done|by apply white_ws].
  - exists []. split; [constructor|]. done.
Qed.

Lemma dval_snoc w c : dval (w ++ [c]) = (dval w * 10 + digit_val c)%N.
Proof. unfold dval. rewrite fold_left_app. cbn [fold_left]. lia. Qed.
Lemma decnum_digits t n : decnum t n -> Forall (fun c => is_digit c = true) t /\ dval t = n.
Proof.
  assert (Hd : forall d c, B"0123456789" !! d = Some c -> is_digit c = true /\ digit_val c = N.of_nat d).
  { intros d c. do 10 (destruct d as [|d]; [by intros [= <-]|]). done. }
  induction 1 as [|w v c d _ [IH1 IH2] Hc]; [done|]. destruct (Hd d c Hc) as [H1 H2]. split.
  - apply Forall_app. by split; [|constructor].
  - by rewrite dval_snoc, IH2, H2.
Qed.
Lemma digits_decnum t : Forall (fun c => is_digit c = true) t -> decnum t (dval t).
Proof.
  intros H. induction t as [|c t IH] using rev_ind; [constructor|]. apply Forall_app in H as [H1 H2]. inversion H2 as [|? ? Hc]; subst.
  assert (Hd : exists d, B"0123456789" !! d = Some c /\ digit_val c = N.of_nat d).
  { exists (N.to_nat (digit_val c)). destruct c as [[] [] [] [] [] [] [] []]; vm_compute in Hc; first [discriminate Hc|by split]. }
  destruct Hd as (d & Hd & E). rewrite dval_snoc, E. apply dn_snoc; [by apply IH|done].
Qed.

Lemma jnat_read t n r : jnat t n -> stops r -> read_nat (t ++ r) = Some (n, r).
Proof.
  intros (Hd & Hne & Hz) Hr. destruct (decnum_digits t n Hd) as [Hds <-]. unfold read_nat.
  rewrite span_digits_app; [|done|by destruct r; [|destruct Hr]]. destruct t as [|c t]; [done|].
  assert (E : match c :: t with c :: _ :: _ => Ascii.eqb c "0"%char | _ => false end = false).
  { destruct t as [|c' t]; [done|]. apply Ascii.eqb_neq. intros ->. by specialize (Hz _ eq_refl). }
  rewrite E. destruct r as [|x r]; [done|]. by destruct Hr as (_ & -> & -> & ->).
Qed.
Lemma span_digits_split s d r : span_digits s = (d, r) -> s = d ++ r /\ Forall (fun c => is_digit c = true) d.
Proof.
  revert d r. induction s as [|c s IH]; intros d r; cbn; [by intros [= <- <-]|]. destruct (is_digit c) eqn:Ec.
  - destruct (span_digits s) as [d' r'] eqn:Es. intros [= <- <-]. destruct (IH _ _ eq_refl) as [-> H]. split; [done|by constructor].
  - intros [= <- <-]. done.
Qed.
Lemma read_jnat s n r : read_nat s = Some (n, r) -> exists t, s = t ++ r /\ jnat t n.
Proof.
  unfold read_nat. destruct (span_digits s) as [d r'] eqn:Es. destruct (span_digits_split _ _ _ Es) as [-> Hd].
  destruct d as [|c d]; [done|]. set (z := match c :: d with c :: _ :: _ => Ascii.eqb c "0"%char | _ => false end).
  destruct z eqn:Ez; [done|]. intros H.
  assert (Hn : n = dval (c :: d) /\ r = r').
  { destruct r' as [|x r']; [by injection H as <- <-|]. destruct (Ascii.eqb x "."%char || Ascii.eqb x "e"%char || Ascii.eqb x "E"%char); [done|].
    by injection H as <- <-. }
  destruct Hn as [-> ->]. exists (c :: d). split; [done|]. split; [by apply digits_decnum|]. split; [done|].
  intros t' [= -> ->]. unfold z in Ez. destruct t'; [done|]. by change (Ascii.eqb "0"%char "0"%char) with true in Ez.
Qed.

(** ** Values *)

Lemma ws_stops w r : white w -> stops r -> stops (w ++ r).
Proof.
  intros Hw Hr. destruct w as [|c w]; [done|]. inversion Hw as [|? ? Hc _]; subst. cbn in Hc. rewrite !elem_of_cons, elem_of_nil in Hc.
  destruct Hc as [->|[->|[->|[->|[]]]]]; done.
Qed.

Lemma jnat_head t n : jnat t n -> exists c t', t = c :: t' /\ is_digit c = true.
Proof.
  intros (Hd & Hne & _). destruct (decnum_digits t n Hd) as [Hds _]. destruct t as [|c t]; [done|]. inversion Hds. by exists c, t.
Qed.
(** How a value begins. *)
Lemma jval_head t j : jval t j -> exists c t', t = c :: t' /\ is_ws c = false /\ Ascii.eqb c c_rbrack = false /\ Ascii.eqb c c_rbrace = false.
Proof.
  intros H. destruct H as [ | | |t z H|w s _|w _|t l _|w _|t l _]; try (by do 2 eexists).
  destruct H as [t n H|t n H]; [|by do 2 eexists]. destruct (jnat_head t n H) as (c & t' & -> & Hc). exists c, t'.
  split; [done|]. rewrite (digit_not_ws c Hc), !(digit_not c) by done. done.
Qed.

Lemma jint_value f t z r : jint t z -> stops r -> read_value (S f) (t ++ r) = Some (JNum z, r).
Proof.
  intros H Hr. destruct H as [t n H|t n H].
  - destruct (jnat_head t n H) as (c & t' & E & Hc). rewrite E. cbn [app]. cbn [read_value skip_ws].
    rewrite (digit_not_ws c Hc). rewrite !(digit_not c) by done.
    unfold read_num. rewrite (digit_not c) by done. rewrite app_comm_cons, <- E. by rewrite (jnat_read t n).
  - cbn [app]. cbn [read_value]. change (skip_ws ("-"%char :: t ++ r)) with ("-"%char :: t ++ r).
    cbv beta iota. change (Ascii.eqb "-"%char quote) with false. change (Ascii.eqb "-"%char c_lbrace) with false.
    change (Ascii.eqb "-"%char c_lbrack) with false. change (Ascii.eqb "-"%char "n"%char) with false.
    change (Ascii.eqb "-"%char "t"%char) with false. change (Ascii.eqb "-"%char "f"%char) with false.
    cbv iota. unfold read_num. change (Ascii.eqb "-"%char "-"%char) with true. cbv iota. by rewrite (jnat_read t n).
Qed.

Lemma value_white f w s : white w -> read_value f (w ++ s) = read_value f s.
Proof. intros Hw. destruct f as [|f]; [done|]. cbn [read_value]. by rewrite skip_white. Qed.
Lemma elems_white f w s : white w -> read_elems f (w ++ s) = read_elems f s.
Proof. intros Hw. destruct f as [|f]; [done|]. cbn [read_elems]. by rewrite value_white. Qed.
Lemma members_white f w s : white w -> read_members f (w ++ s) = read_members f s.
Proof. intros Hw. destruct f as [|f]; [done|]. cbn [read_members]. by rewrite skip_white. Qed.

Lemma grammar_read :
  (forall t j, jval t j -> forall f r, length t <= f -> stops r -> read_value f (t ++ r) = Some (j, r)) /\
  (forall t l, jelems t l -> forall f r, S (length t) <= f -> read_elems f (t ++ c_rbrack :: r) = Some (l, r)) /\
  (forall t l, jmembers t l -> forall f r, S (length t) <= f -> read_members f (t ++ c_rbrace :: r) = Some (l, r)).
Proof.
  assert (Hhead : forall f c s, is_ws c = false -> read_value (S f) (c :: s) =
    match c :: s with [] => None | c :: r =>
      if Ascii.eqb c quote then match unesc r with Some (v, r) => Some (JStr v, r) | None => None end
      else if Ascii.eqb c c_lbrace then
            match skip_ws r with
            | c2 :: r2 => if Ascii.eqb c2 c_rbrace then Some (JObj [], r2)
                else match read_members f r with Some (l, r) => Some (JObj l, r) | None => None end
            | [] => None end
      else if Ascii.eqb c c_lbrack then
            match skip_ws r with
            | c2 :: r2 => if Ascii.eqb c2 c_rbrack then Some (JArr [], r2)
                else match read_elems f r with Some (l, r) => Some (JArr l, r) | None => None end
            | [] => None end
      else if Ascii.eqb c "n"%char then read_lit (B"null") JNull (c :: r)
      else if Ascii.eqb c "t"%char then read_lit (B"true") (JBool true) (c :: r)
      else if Ascii.eqb c "f"%char then read_lit (B"false") (JBool false) (c :: r)
      else read_num (c :: r) end).
  { intros f c s Hc. cbn [read_value]. by rewrite skip_ws_head. }
  apply json_mind.
  - intros [|f] r Hf _; [simpl in Hf; lia|]. reflexivity.
  - intros [|f] r Hf _; [simpl in Hf; lia|]. reflexivity.
  - intros [|f] r Hf _; [simpl in Hf; lia|]. reflexivity.
  - intros t z H [|f] r Hf Hr; [|by apply jint_value]. destruct (jval_head t _ (v_int t z H)) as (c & t' & -> & _). simpl in Hf. lia.
  - intros w s H [|f] r Hf Hr; [simpl in Hf; lia|]. cbn [app]. rewrite Hhead by done. cbv beta iota.
    change (Ascii.eqb quote quote) with true. cbv iota. rewrite <- app_assoc. cbn [app]. by rewrite (jstr_read w s H).
  - intros w Hw [|f] r Hf Hr; [simpl in Hf; lia|]. cbn [app]. rewrite Hhead by done. cbv beta iota.
    change (Ascii.eqb "["%char quote) with false. change (Ascii.eqb "["%char c_lbrace) with false. change (Ascii.eqb "["%char c_lbrack) with true.
    cbv iota. rewrite <- app_assoc. cbn [app]. rewrite skip_white by done. by rewrite skip_ws_head.
  - intros t l He IH [|f] r Hf Hr; [simpl in Hf; lia|]. cbn [app]. rewrite Hhead by done. cbv beta iota.
    change (Ascii.eqb "["%char quote) with false. change (Ascii.eqb "["%char c_lbrace) with false. change (Ascii.eqb "["%char c_lbrack) with true.
    cbv iota. rewrite <- app_assoc. cbn [app].
    assert (Hh : exists c s, skip_ws (t ++ "]"%char :: r) = c :: s /\ Ascii.eqb c c_rbrack = false).
    { destruct He as [w1 v w2 j Hw1 Hv _|w1 v w2 j e l Hw1 Hv _ _]; destruct (jval_head v j Hv) as (c & v' & -> & H1 & H2 & _);
        rewrite <- !app_assoc, skip_white by done; cbn [app]; rewrite skip_ws_head by done; by do 2 eexists. }
    destruct Hh as (c & s & -> & ->). cbn [length] in Hf. rewrite app_length in Hf. cbn [length] in Hf.
    change "]"%char with c_rbrack. rewrite IH by lia. done.
  - intros w Hw [|f] r Hf Hr; [simpl in Hf; lia|]. cbn [app]. rewrite Hhead by done. cbv beta iota.
    change (Ascii.eqb "{"%char quote) with false. change (Ascii.eqb "{"%char c_lbrace) with true.
    cbv iota. rewrite <- app_assoc. cbn [app]. rewrite skip_white by done. by rewrite skip_ws_head.
  - intros t l He IH [|f] r Hf Hr; [simpl in Hf; lia|]. cbn [app]. rewrite Hhead by done. cbv beta iota.
    change (Ascii.eqb "{"%char quote) with false. change (Ascii.eqb "{"%char c_lbrace) with true.
    cbv iota. rewrite <- app_assoc. cbn [app].
    assert (Hh : exists s, skip_ws (t ++ "}"%char :: r) = quote :: s).
    { destruct He as [w1 k s w2 w3 v w4 j Hw1 _ _ _ _ _|w1 k s w2 w3 v w4 j e l Hw1 _ _ _ _ _ _]; rewrite <- !app_assoc, skip_white by done;
        cbn [app]; rewrite skip_ws_head by done; by eexists. }
    destruct Hh as (s & ->). change (Ascii.eqb quote c_rbrace) with false. cbv iota. cbn [length] in Hf. rewrite app_length in Hf. cbn [length] in Hf.
    change "}"%char with c_rbrace. rewrite IH by lia. done.
  - intros w1 t w2 j Hw1 Hv IH Hw2 [|f] r Hf; [lia|]. rewrite <- !app_assoc. rewrite elems_white by done. cbn [read_elems].
    rewrite !app_length in Hf. rewrite IH; [|lia|by apply ws_stops]. rewrite skip_white by done. by rewrite skip_ws_head.
  - intros w1 t w2 j e l Hw1 Hv IH Hw2 He IHe [|f] r Hf; [lia|]. rewrite <- !app_assoc. rewrite elems_white by done. cbn [read_elems app].
    repeat (rewrite app_length in Hf || (progress cbn [length] in Hf)).
    destruct (jval_head t j Hv) as (c & t' & E & _). assert (1 <= length t) by (rewrite E; simpl; lia).
    rewrite IH; [|lia|by apply ws_stops]. rewrite skip_white by done. rewrite skip_ws_head by done.
    change (Ascii.eqb ","%char c_comma) with true. cbv iota. rewrite IHe by lia. done.
  - intros w1 k s w2 w3 t w4 j Hw1 Hk Hw2 Hw3 Hv IH Hw4 [|f] r Hf; [lia|].
    rewrite <- !app_assoc. rewrite members_white by done. cbn [app]. rewrite <- !app_assoc. cbn [app]. rewrite <- !app_assoc. cbn [app]. rewrite <- !app_assoc.
    cbn [read_members]. rewrite skip_ws_head by done. change (Ascii.eqb quote quote) with true. cbv iota.
    rewrite (jstr_read k s Hk). rewrite skip_white by done. rewrite skip_ws_head by done. change (Ascii.eqb ":"%char colon) with true. cbv iota.
    rewrite value_white by done. repeat (rewrite app_length in Hf || (progress cbn [length] in Hf)).
    rewrite IH; [|lia|by apply ws_stops]. rewrite skip_white by done. by rewrite skip_ws_head.
  - intros w1 k s w2 w3 t w4 j e l Hw1 Hk Hw2 Hw3 Hv IH Hw4 He IHe [|f] r Hf; [lia|].
    rewrite <- !app_assoc. rewrite members_white by done. cbn [app]. rewrite <- !app_assoc. cbn [app]. rewrite <- !app_assoc. cbn [app]. rewrite <- !app_assoc.
    cbn [read_members]. rewrite skip_ws_head by done. change (Ascii.eqb quote quote) with true. cbv iota.
    rewrite (jstr_read k s Hk). rewrite skip_white by done. rewrite skip_ws_head by done. change (Ascii.eqb ":"%char colon) with true. cbv iota.
    rewrite value_white by done. repeat (rewrite app_length in Hf || (progress cbn [length] in Hf)).
    rewrite IH; [|lia|by apply ws_stops]. rewrite skip_white by done. cbn [app]. rewrite skip_ws_head by done.
    change (Ascii.eqb ","%char c_comma) with true. cbv iota. rewrite IHe by lia. done.
Qed.

Lemma read_grammar f :
  (forall s j r, read_value f s = Some (j, r) -> exists w t, s = w ++ t ++ r /\ white w /\ jval t j) /\
  (forall s l r, read_elems f s = Some (l, r) -> exists t, s = t ++ c_rbrack :: r /\ jelems t l) /\
  (forall s l r, read_members f s = Some (l, r) -> exists t, s = t ++ c_rbrace :: r /\ jmembers t l).
Proof.
  induction f as [|f (IHv & IHe & IHm)]; [done|]. split_and!.
  - intros s j r H. cbn [read_value] in H. destruct (skip_split s) as (w & Hw & E & _). exists w. rewrite E.
    destruct (skip_ws s) as [|c s']; [done|]. clear E s.
    assert (Hlit : forall x y v, read_lit x v (y :: s') = Some (j, r) -> jval x v -> exists t, w ++ y :: s' = w ++ t ++ r /\ white w /\ jval t j).
    { intros x y v Hx Hv. unfold read_lit in Hx. destruct (has_prefix (y :: s') x) eqn:Hp; [|done]. injection Hx as <- Hr.
      apply has_prefix_spec in Hp as [z Hz]. exists x. rewrite Hz in Hr |- *. rewrite drop_app in Hr. by subst z. }
    destruct (Ascii.eqb_spec c quote) as [->|Hq].
    { destruct (unesc s') as [[v r']|] eqn:Eu; [|done]. injection H as <- <-. destruct (read_jstr _ _ _ _ (le_n _) Eu) as (x & -> & Hx).
      exists (quote :: x ++ [quote]). cbn [app]. rewrite <- app_assoc. split; [done|]. split; [done|by constructor]. }
    destruct (Ascii.eqb_spec c c_lbrace) as [->|Hlb].
    { destruct (skip_split s') as (w' & Hw' & E & _). destruct (skip_ws s') as [|c2 r2]; [done|].
      destruct (Ascii.eqb_spec c2 c_rbrace) as [->|].
      - injection H as <- <-. rewrite E. exists (c_lbrace :: w' ++ [c_rbrace]). cbn [app]. rewrite <- app_assoc. split; [done|]. split; [done|by apply v_obj0].
      - destruct (read_members f s') as [[l r']|] eqn:Em; [|done]. injection H as <- <-. apply IHm in Em as (t & -> & Ht).
        exists (c_lbrace :: t ++ [c_rbrace]). cbn [app]. rewrite <- app_assoc. split; [done|]. split; [done|by apply v_obj]. }
    destruct (Ascii.eqb_spec c c_lbrack) as [->|Hlk].
    { destruct (skip_split s') as (w' & Hw' & E & _). destruct (skip_ws s') as [|c2 r2]; [done|].
      destruct (Ascii.eqb_spec c2 c_rbrack) as [->|].
      - injection H as <- <-. rewrite E. exists (c_lbrack :: w' ++ [c_rbrack]). cbn [app]. rewrite <- app_assoc. split; [done|]. split; [done|by apply v_arr0].
      - destruct (read_elems f s') as [[l r']|] eqn:Em; [|done]. injection H as <- <-. apply IHe in Em as (t & -> & Ht).
        exists (c_lbrack :: t ++ [c_rbrack]). cbn [app]. rewrite <- app_assoc. split; [done|]. split; [done|by apply v_arr]. }
    destruct (Ascii.eqb_spec c "n"%char) as [->|Hn]; [apply (Hlit _ _ _ H); constructor|].
    destruct (Ascii.eqb_spec c "t"%char) as [->|Ht]; [apply (Hlit _ _ _ H); constructor|].
    destruct (Ascii.eqb_spec c "f"%char) as [->|Hf]; [apply (Hlit _ _ _ H); constructor|].
    unfold read_num in H. destruct (Ascii.eqb_spec c "-"%char) as [->|Hd].
    + destruct (read_nat s') as [[n r']|] eqn:En; [|done]. injection H as <- <-. apply read_jnat in En as (t & -> & Hn').
      exists ("-"%char :: t). split; [done|]. split; [done|]. constructor. by constructor.
    + destruct (read_nat (c :: s')) as [[n r']|] eqn:En; [|done]. injection H as <- <-. apply read_jnat in En as (t & -> & Hn').
      exists t. split; [done|]. split; [done|]. constructor. by constructor.
  - intros s l r H. cbn [read_elems] in H. destruct (read_value f s) as [[v s1]|] eqn:Ev; [|done]. apply IHv in Ev as (w & t & -> & Hw & Ht).
    destruct (skip_split s1) as (w2 & Hw2 & E & _). destruct (skip_ws s1) as [|c3 s2]; [done|]. rewrite E.
    destruct (Ascii.eqb_spec c3 c_comma) as [->|_].
    + destruct (read_elems f s2) as [[l' r']|] eqn:Ee; [|done]. injection H as <- <-. apply IHe in Ee as (e & -> & He).
      exists (w ++ t ++ w2 ++ c_comma :: e). split; [by rewrite <- !app_assoc|by apply je_more].
    + destruct (Ascii.eqb_spec c3 c_rbrack) as [->|_]; [|done]. injection H as <- <-. exists (w ++ t ++ w2). split; [by rewrite <- !app_assoc|by apply je_one].
  - intros s l r H. cbn [read_members] in H. destruct (skip_split s) as (w1 & Hw1 & E & _). destruct (skip_ws s) as [|c s0]; [done|]. rewrite E. clear E.
    destruct (Ascii.eqb_spec c quote) as [->|_]; [|done]. destruct (unesc s0) as [[k s1]|] eqn:Eu; [|done].
    destruct (read_jstr _ _ _ _ (le_n _) Eu) as (x & -> & Hx). clear Eu.
    destruct (skip_split s1) as (w2 & Hw2 & E & _). destruct (skip_ws s1) as [|c2 s2]; [done|]. rewrite E. clear E.
    destruct (Ascii.eqb_spec c2 colon) as [->|_]; [|done]. destruct (read_value f s2) as [[v s3]|] eqn:Ev; [|done].
    apply IHv in Ev as (w3 & t & -> & Hw3 & Ht).
    destruct (skip_split s3) as (w4 & Hw4 & E & _). destruct (skip_ws s3) as [|c3 s4]; [done|]. rewrite E. clear E.
    destruct (Ascii.eqb_spec c3 c_comma) as [->|_].
    + destruct (read_members f s4) as [[l' r']|] eqn:Ee; [|done]. injection H as <- <-. apply IHm in Ee as (e & -> & He).
      exists (w1 ++ quote :: x ++ quote :: w2 ++ ":"%char :: w3 ++ t ++ w4 ++ ","%char :: e).
      split; [|by apply jm_more]. repeat (rewrite <- app_assoc || (progress cbn [app])). done.
    + destruct (Ascii.eqb_spec c3 c_rbrace) as [->|_]; [|done]. injection H as <- <-.
      exists (w1 ++ quote :: x ++ quote :: w2 ++ ":"%char :: w3 ++ t ++ w4).
      split; [|by apply jm_one]. repeat (rewrite <- app_assoc || (progress cbn [app])). done.
Qed.

(** A whole text. *)
Lemma read_json_iff t j : read_json t = Some j <-> json_text t j.
Proof.
  unfold read_json, json_text. split.
  - destruct (read_value _ t) as [[v r]|] eqn:Ev; [|done]. destruct (skip_ws r) as [|] eqn:Es; [|done]. intros [= ->].
    destruct (read_grammar (S (length t))) as [H _]. apply H in Ev as (w & x & -> & Hw & Hx).
    destruct (skip_split r) as (w2 & Hw2 & E & _). rewrite Es, app_nil_r in E. subst r. by exists w, x, w2.
  - intros (w1 & v & w2 & -> & Hw1 & Hv & Hw2). rewrite value_white by done. destruct grammar_read as [H _].
    rewrite (H v j Hv); [|rewrite !app_length; lia|]. { rewrite <- (app_nil_r w2), skip_white by done. done. }
    rewrite <- (app_nil_r w2). by apply ws_stops.
Qed.
