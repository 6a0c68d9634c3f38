(** Model of strconv.Unquote (Go standard library), which /repo applies to the
    source text of string literals (parser/source.go:66). *)
From Verif Require Import Bytes JsonStr.

Definition backquote : ascii := ascii_of_N 96.
Definition apos : ascii := ascii_of_N 39.
Definition carriage : ascii := ascii_of_N 13.
Definition linefeed : ascii := ascii_of_N 10.

(** utf8.EncodeRune. *)
Definition put_rune (r : N) : bytes := if surrogate r || (1114111 <? r)%N then bad_rune else encode_rune r.

(** [n] hexadecimal digits. *)
Fixpoint take_hex (n : nat) (v : N) (s : bytes) : option (N * bytes) :=
  match n with
  | O => Some (v, s)
  | S n =>
      match s with
      | [] => None
      | c :: s => match hex_of c with Some x => take_hex n (v * 16 + x)%N s | None => None end
      end
  end.

Definition octal (c : ascii) : option N := if between 48 c 55 then Some (code c - 48)%N else None.

(** What follows a backslash: the bytes denoted and the rest. *)
Definition unq_escape (q e : ascii) (s : bytes) : option (bytes * bytes) :=
  match e with
  | "a"%char => Some ([ascii_of_N 7], s)
  | "b"%char => Some ([ascii_of_N 8], s)
  | "f"%char => Some ([ascii_of_N 12], s)
  | "n"%char => Some ([ascii_of_N 10], s)
  | "r"%char => Some ([ascii_of_N 13], s)
  | "t"%char => Some ([ascii_of_N 9], s)
  | "v"%char => Some ([ascii_of_N 11], s)
  | "x"%char => match take_hex 2 0 s with Some (v, s) => Some ([ascii_of_N v], s) | None => None end
  | "u"%char => match take_hex 4 0 s with Some (v, s) => Some (put_rune v, s) | None => None end
  | "U"%char =>
      match take_hex 8 0 s with
      | Some (v, s) => if (1114111 <? v)%N then None else Some (put_rune v, s)
      | None => None
      end
  | _ =>
      if Ascii.eqb e bsl then Some ([bsl], s)
      else if Ascii.eqb e apos || Ascii.eqb e quote then if Ascii.eqb e q then Some ([e], s) else None
      else
        match octal e, s with
        | Some x, c1 :: c2 :: s =>
            match octal c1, octal c2 with
            | Some y, Some z =>
                let v := (x * 64 + y * 8 + z)%N in
                if (255 <? v)%N then None else Some ([ascii_of_N v], s)
            | _, _ => None
            end
        | _, _ => None
        end
  end.

(** utf8.DecodeRuneInString followed by EncodeRune: a valid sequence is kept,
    an invalid byte becomes U+FFFD. *)
Definition unq_multi (c : ascii) (s1 : bytes) : bytes * bytes :=
  match s1 with
  | [] => (bad_rune, s1)
  | b :: s2 =>
      if valid2 c b then ([c; b], s2)
      else
        match s2 with
        | [] => (bad_rune, s1)
        | d :: s3 =>
            if valid3 c b d then ([c; b; d], s3)
            else
              match s3 with
              | [] => (bad_rune, s1)
              | e :: s4 => if valid4 c b d e then ([c; b; d; e], s4) else (bad_rune, s1)
              end
        end
  end.

(** strconv.UnquoteChar. *)
Definition unq_char (q c : ascii) (s : bytes) : option (bytes * bytes) :=
  if Ascii.eqb c q then None
  else if negb (is_ascii c) then Some (unq_multi c s)
  else if negb (Ascii.eqb c bsl) then Some ([c], s)
  else match s with [] => None | e :: s => unq_escape q e s end.

(** The loop of Unquote; every step consumes a byte. *)
Fixpoint unq_loop (fuel : nat) (q : ascii) (s : bytes) : option bytes :=
  match fuel, s with
  | _, [] => Some []
  | O, _ => None
  | S fuel, c :: s =>
      match unq_char q c s with
      | None => None
      | Some (out, s) =>
          if Ascii.eqb q apos && negb (bool_decide (s = [])) then None
          else match unq_loop fuel q s with Some r => Some (out ++ r) | None => None end
      end
  end.

Fixpoint mem_byte (c : ascii) (s : bytes) : bool :=
  match s with [] => false | a :: s => Ascii.eqb a c || mem_byte c s end.
Fixpoint drop_byte (c : ascii) (s : bytes) : bytes :=
  match s with [] => [] | a :: s => if Ascii.eqb a c then drop_byte c s else a :: drop_byte c s end.
Fixpoint unsnoc (s : bytes) : option (bytes * ascii) :=
  match s with
  | [] => None
  | a :: s => match unsnoc s with None => Some ([], a) | Some (x, z) => Some (a :: x, z) end
  end.

(** strconv.Unquote. *)
Definition unquote (s : bytes) : option bytes :=
  match s with
  | [] => None
  | q :: s =>
      match unsnoc s with
      | None => None
      | Some (s, z) =>
          if negb (Ascii.eqb q z) then None
          else if Ascii.eqb q backquote then if mem_byte backquote s then None else Some (drop_byte carriage s)
          else if negb (Ascii.eqb q quote || Ascii.eqb q apos) then None
          else if mem_byte linefeed s then None
          else unq_loop (length s) q s
      end
  end.

(** ** Specification: ways to write a string in Go *)

(** In double quotes as it stands. *)
Definition plain_lit (s : bytes) : bytes := quote :: s ++ [quote].
Definition plain_ok (s : bytes) : Prop :=
  utf8 s /\ Forall (fun c => c <> quote /\ c <> bsl /\ c <> linefeed) s.
(** In back quotes. *)
Definition raw_lit (s : bytes) : bytes := backquote :: s ++ [backquote].
Definition raw_ok (s : bytes) : Prop := Forall (fun c => c <> backquote /\ c <> carriage) s.
(** Every byte as a hexadecimal escape. *)
Definition hex_lit (s : bytes) : bytes :=
  quote :: concat (map (fun c => [bsl; "x"%char; hexd (code c / 16); hexd (code c mod 16)]) s) ++ [quote].

(** ** Proofs *)

Lemma unsnoc_snoc s z : unsnoc (s ++ [z]) = Some (s, z).
Proof. induction s as [|a s IH]; [done|]. cbn. by rewrite IH. Qed.

Lemma mem_byte_false c s : Forall (fun a => a <> c) s -> mem_byte c s = false.
Proof.
  induction 1 as [|a s Ha _ IH]; [done|]. cbn. rewrite IH.
  destruct (Ascii.eqb_spec a c); [done|]. done.
Qed.
Lemma drop_byte_none c s : Forall (fun a => a <> c) s -> drop_byte c s = s.
Proof.
  induction 1 as [|a s Ha _ IH]; [done|]. cbn. destruct (Ascii.eqb_spec a c); [done|]. by rewrite IH.
Qed.

Lemma unquote_raw s : raw_ok s -> unquote (raw_lit s) = Some s.
Proof.
  intros H. unfold unquote, raw_lit. rewrite unsnoc_snoc.
  change (Ascii.eqb backquote backquote) with true. cbn [negb].
  rewrite mem_byte_false, drop_byte_none; [done| |]; eapply Forall_impl; try exact H; cbn; tauto.
Qed.

Lemma unq_loop_plain s n :
  utf8 s -> Forall (fun c => c <> quote /\ c <> bsl /\ c <> linefeed) s -> length s <= n ->
  unq_loop n quote s = Some s.
Proof.
  intros Hu. revert n.
  assert (Hq : Ascii.eqb quote apos = false) by reflexivity.
  assert (Hlead : forall c, is_ascii c = false -> Ascii.eqb c quote = false).
  { intros c Hc. destruct (Ascii.eqb_spec c quote); [subst c; done|done]. }
  induction Hu as [|a s Ha Hu IH|a b s Hv Hu IH|a b c s Hv Hu IH|a b c d s Hv Hu IH]; intros n HF Hn;
    (destruct n as [|n]; [cbn in Hn; try lia; done|]); [done| | | |];
    cbn [unq_loop]; unfold unq_char; rewrite ?Hq; cbn [andb].
  - apply Forall_cons in HF as [(H1 & H2 & _) HF].
    destruct (Ascii.eqb_spec a quote); [done|]. destruct (Ascii.eqb_spec a bsl); [done|].
    rewrite Ha. cbn [negb]. rewrite IH; [done|done|cbn in Hn; lia].
  - rewrite Hlead, (valid2_not_ascii _ _ Hv) by (by eapply valid2_not_ascii). cbn [negb]. unfold unq_multi. rewrite Hv.
    rewrite IH; [done| |cbn in Hn; lia]. by do 2 apply Forall_cons in HF as [_ HF].
  - assert (Hna : is_ascii a = false) by (apply lead_ascii; pose proof (valid3_lead _ _ _ Hv); lia).
    assert (H2 : valid2 a b = false) by (apply lead_false2; pose proof (valid3_lead _ _ _ Hv); lia).
    rewrite Hlead, Hna by done. cbn [negb]. unfold unq_multi. rewrite H2, Hv.
    rewrite IH; [done| |cbn in Hn; lia]. by do 3 apply Forall_cons in HF as [_ HF].
  - assert (Hna : is_ascii a = false) by (apply lead_ascii; pose proof (valid4_lead _ _ _ _ Hv); lia).
    assert (H2 : valid2 a b = false) by (apply lead_false2; pose proof (valid4_lead _ _ _ _ Hv); lia).
    assert (H3 : valid3 a b c = false) by (apply lead_false3; pose proof (valid4_lead _ _ _ _ Hv); lia).
    rewrite Hlead, Hna by done. cbn [negb]. unfold unq_multi. rewrite H2, H3, Hv.
    rewrite IH; [done| |cbn in Hn; lia]. by do 4 apply Forall_cons in HF as [_ HF].
Qed.

Lemma unquote_plain s : plain_ok s -> unquote (plain_lit s) = Some s.
Proof.
  intros [Hu HF]. unfold unquote, plain_lit. rewrite unsnoc_snoc.
  change (Ascii.eqb quote quote) with true. change (Ascii.eqb quote backquote) with false. cbn [negb orb].
  rewrite mem_byte_false by (eapply Forall_impl; [exact HF|]; cbn; tauto).
  by apply unq_loop_plain.
Qed.

Lemma hex_pair c : take_hex 2 0 [hexd (code c / 16); hexd (code c mod 16)] = Some (code c, []).
Proof. by destruct c as [[] [] [] [] [] [] [] []]. Qed.

Lemma take_hex_app n v s t v' : take_hex n v s = Some (v', []) -> take_hex n v (s ++ t) = Some (v', t).
Proof.
  revert v s. induction n as [|n IH]; intros v s; cbn.
  - by intros [= -> ->].
  - destruct s as [|c s]; [done|]. cbn. destruct (hex_of c); [|done]. apply IH.
Qed.

Lemma unquote_hex s : unquote (hex_lit s) = Some s.
Proof.
  unfold unquote, hex_lit. rewrite unsnoc_snoc.
  change (Ascii.eqb quote quote) with true. change (Ascii.eqb quote backquote) with false. cbn [negb orb].
  rewrite mem_byte_false.
  - assert (H : forall n, length s <= n -> unq_loop n quote
      (concat (map (fun c => [bsl; "x"%char; hexd (code c / 16); hexd (code c mod 16)]) s)) = Some s).
    { induction s as [|c s IH]; intros n Hn; [by destruct n|]. destruct n as [|n]; [cbn in Hn; lia|].
      cbn [map concat app unq_loop].
      change (unq_char quote bsl ("x"%char :: hexd (code c / 16) :: hexd (code c mod 16) ::
        concat (map (fun c => [bsl; "x"%char; hexd (code c / 16); hexd (code c mod 16)]) s)))
        with (match take_hex 2 0 ([hexd (code c / 16); hexd (code c mod 16)] ++
           concat (map (fun c => [bsl; "x"%char; hexd (code c / 16); hexd (code c mod 16)]) s)) with
           Some (v, s) => Some ([ascii_of_N v], s) | None => None end).
      rewrite (take_hex_app _ _ _ _ _ (hex_pair c)).
      change (Ascii.eqb quote apos) with false. cbn [andb]. rewrite IH by (cbn in Hn; lia).
      cbn [app]. f_equal. f_equal. unfold code. apply ascii_N_embedding. }
    apply H. clear H. induction s as [|c s IH]; [done|]. cbn [map concat length]. rewrite app_length. cbn [length]. lia.
  - induction s as [|c s IH]; [constructor|]. cbn [map concat]. apply Forall_app. split; [|done].
    destruct c as [[] [] [] [] [] [] [] []]; repeat constructor; done.
Qed.

(** A name of letters is not a literal. *)
Lemma unquote_head q s : q <> quote -> q <> apos -> q <> backquote -> unquote (q :: s) = None.
Proof.
  intros H1 H2 H3. unfold unquote. destruct (unsnoc s) as [[t z]|]; [|done].
  destruct (negb (Ascii.eqb q z)); [done|].
  destruct (Ascii.eqb_spec q backquote); [done|]. destruct (Ascii.eqb_spec q quote); [done|].
  destruct (Ascii.eqb_spec q apos); [done|]. done.
Qed.
