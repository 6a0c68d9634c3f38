(** Theorems: nothing but a string literal is read as one (C142). *)
From Verif Require Import Bytes GoQuote JsonStr Quote.

(** ** Specification *)

(** The text has an escape of a surrogate, which is no code point: "\ud800". *)
Definition has_surrogate (text : bytes) : Prop :=
  exists w h rest r, (55296 <= r < 57344)%N /\ hexnum h r /\
    (text = w ++ bsl :: "u"%char :: h ++ rest /\ length h = 4 \/
     text = w ++ bsl :: "U"%char :: h ++ rest /\ length h = 8).

(** A rune literal, 'a', and not a string. *)
Definition in_apostrophes (text : bytes) : Prop := exists w, text = apos :: w ++ [apos].

(** ** Proofs *)

Lemma code_of n : (n < 256)%N -> code (ascii_of_N n) = n.
Proof. apply N_ascii_embedding. Qed.

Lemma encode_char r : (r <= 1114111)%N -> surrogate r = false -> char_of r (encode_rune r).
Proof.
  intros Hr Hs. unfold surrogate in Hs. unfold encode_rune.
  assert (Hs' : (r < 55296 \/ 57344 <= r)%N).
  { apply andb_false_iff in Hs. rewrite N.leb_gt, N.ltb_ge in Hs. done. }
  pose proof (N.div_mod r 64 ltac:(done)) as E1. pose proof (N.mod_lt r 64 ltac:(done)) as L1.
  pose proof (N.div_mod (r / 64) 64 ltac:(done)) as E2. pose proof (N.mod_lt (r / 64) 64 ltac:(done)) as L2.
  pose proof (N.div_mod (r / 64 / 64) 64 ltac:(done)) as E3. pose proof (N.mod_lt (r / 64 / 64) 64 ltac:(done)) as L3.
  change 262144%N with (64 * (64 * 64))%N. change 4096%N with (64 * 64)%N. rewrite <- !N.div_div by done.
  revert E1 L1 E2 L2 E3 L3. generalize (r / 64 / 64 / 64)%N. generalize (r / 64 / 64 mod 64)%N.
  generalize (r / 64 / 64)%N. generalize (r / 64 mod 64)%N. generalize (r / 64)%N. generalize (r mod 64)%N.
  intros m0 q1 m1 q2 m2 q3 E1 L1 E2 L2 E3 L3.
  destruct (N.ltb_spec r 128); [|destruct (N.ltb_spec r 2048); [|destruct (N.ltb_spec r 65536)]].
  - rewrite <- (code_of r) at 1 by lia. constructor. unfold is_ascii. rewrite code_of by lia. by apply N.ltb_lt.
  - replace r with (rune2 (ascii_of_N (192 + q1)) (ascii_of_N (128 + m0))) at 1 by (unfold rune2; rewrite !code_of by lia; lia).
    constructor. unfold valid2, cont. rewrite andb_true_iff, !between_spec, !code_of by lia. lia.
  - replace r with (rune3 (ascii_of_N (224 + q2)) (ascii_of_N (128 + m1)) (ascii_of_N (128 + m0))) at 1
      by (unfold rune3; rewrite !code_of by lia; lia).
    constructor. unfold valid3, cont. rewrite !andb_true_iff, !orb_true_iff, !andb_true_iff, !between_spec, !N.eqb_eq, !code_of by lia. lia.
  - replace r with (rune4 (ascii_of_N (240 + q3)) (ascii_of_N (128 + m2)) (ascii_of_N (128 + m1)) (ascii_of_N (128 + m0))) at 1
      by (unfold rune4; rewrite !code_of by lia; lia).
    constructor. unfold valid4, cont. rewrite !andb_true_iff, !orb_true_iff, !andb_true_iff, !between_spec, !N.eqb_eq, !code_of by lia. lia.
Qed.

Lemma hex_digit c x : hex_of c = Some x -> is_ascii c = true /\
  exists d, x = N.of_nat d /\ (B"0123456789abcdef" !! d = Some c \/ B"0123456789ABCDEF" !! d = Some c).
Proof.
  intros H. cut (is_ascii c = true /\ (B"0123456789abcdef" !! N.to_nat x = Some c \/ B"0123456789ABCDEF" !! N.to_nat x = Some c)).
  { intros [Ha Hd]. split; [done|]. exists (N.to_nat x). by rewrite N2Nat.id. }
  revert H. destruct c as [[] [] [] [] [] [] [] []]; vm_compute; intros [= <-]; split; auto.
Qed.

Lemma take_hex_inv n v s r t : take_hex n v s = Some (r, t) ->
  exists h, s = h ++ t /\ length h = n /\ Forall (fun c => is_ascii c = true) h /\ forall p, hexnum p v -> hexnum (p ++ h) r.
Proof.
  revert v s. induction n as [|n IH]; intros v s; cbn [take_hex].
  - intros [= <- <-]. exists []. split_and!; [done..|]. intros p. by rewrite app_nil_r.
  - destruct s as [|c s]; [done|]. destruct (hex_of c) as [x|] eqn:Hx; [|done]. intros H.
    destruct (IH _ _ H) as (h & -> & Hl & Ha & Hp). destruct (hex_digit c x Hx) as (Hc & d & -> & Hd).
    exists (c :: h). split_and!; [done|cbn; lia|by constructor|]. intros p Hv.
    change (c :: h) with ([c] ++ h). rewrite app_assoc. apply Hp. by constructor.
Qed.
Lemma take_hex_num n s r t : take_hex n 0 s = Some (r, t) ->
  exists h, s = h ++ t /\ length h = n /\ Forall (fun c => is_ascii c = true) h /\ hexnum h r.
Proof.
  intros H. destruct (take_hex_inv _ _ _ _ _ H) as (h & ? & ? & ? & Hp). exists h. split_and!; [done..|]. apply (Hp []). constructor.
Qed.

Lemma octal_inv c x : octal c = Some x -> (x < 8)%N /\ c = ascii_of_N (48 + x) /\ is_ascii c = true.
Proof.
  unfold octal. destruct (between 48 c 55) eqn:H; [|done]. apply between_spec in H. intros [= <-].
  split_and!; [lia| |unfold is_ascii; apply N.ltb_lt; lia]. symmetry. by apply ascii_at; lia.
Qed.

(** UnquoteChar's switch, as a chain of tests. *)
Lemma escape_cases e s : unq_escape quote e s =
  match list_find (fun p : ascii * N => e = p.1) simple_escapes with
  | Some (_, (_, n)) => Some ([ascii_of_N n], s)
  | None =>
      if Ascii.eqb e "x"%char then match take_hex 2 0 s with Some (v, s) => Some ([ascii_of_N v], s) | None => None end
      else if Ascii.eqb e "u"%char then match take_hex 4 0 s with Some (v, s) => Some (put_rune v, s) | None => None end
      else if Ascii.eqb e "U"%char then
        match take_hex 8 0 s with Some (v, s) => if (1114111 <? v)%N then None else Some (put_rune v, s) | None => None end
      else
        match octal e, s with
        | Some x, c1 :: c2 :: s =>
            match octal c1, octal c2 with
            | Some y, Some z => if (255 <? x * 64 + y * 8 + z)%N then None else Some ([ascii_of_N (x * 64 + y * 8 + z)], s)
            | _, _ => None
            end
        | _, _ => None
        end
  end.
Proof. by destruct e as [[] [] [] [] [] [] [] []]. Qed.

Lemma surr_app a w b : has_surrogate w -> has_surrogate (a ++ w ++ b).
Proof.
  intros (x & h & rest & r & Hr & Hh & [[-> Hl]|[-> Hl]]); exists (a ++ x), h, (rest ++ b), r; (split; [done|]); (split; [done|]);
    [left|right]; (split; [|done]); by rewrite <- !app_assoc, <- !app_comm_cons, <- !app_assoc.
Qed.

Lemma escape_inv e s x t : unq_escape quote e s = Some (x, t) -> is_ascii e = true /\
  exists h, s = h ++ t /\ Forall (fun c => is_ascii c = true) h /\
    ((forall w v, lit w v -> lit (bsl :: e :: h ++ w) (x ++ v)) \/ has_surrogate (bsl :: e :: h)).
Proof.
  rewrite escape_cases. destruct (list_find _ _) as [[i [e' n]]|] eqn:Hf.
  { apply list_find_Some in Hf as (Hi & He & _). cbn in He. subst e'. apply elem_of_list_lookup_2 in Hi. intros [= <- <-].
    split.
    - unfold simple_escapes in Hi. rewrite !elem_of_cons, elem_of_nil in Hi.
      by destruct Hi as [[= -> ->]|[[= -> ->]|[[= -> ->]|[[= -> ->]|[[= -> ->]|[[= -> ->]|[[= -> ->]|[[= -> ->]|[[= -> ->]|[]]]]]]]]]].
    - exists []. split_and!; [done|constructor|]. left. intros w v Hw. by apply l_simple. }
  clear Hf. destruct (Ascii.eqb_spec e "x"%char) as [->|_].
  { destruct (take_hex 2 0 s) as [[v s']|] eqn:Hh; [|done]. intros [= <- <-]. destruct (take_hex_num _ _ _ _ Hh) as (h & -> & Hl & Ha & Hn).
    split; [done|]. exists h. split_and!; [done..|]. left. intros w v' Hw. by apply l_hex. }
  assert (Hrune : forall v, (v <= 1114111)%N -> char_of v (put_rune v) \/ (55296 <= v < 57344)%N).
  { intros v Hv. unfold put_rune. rewrite (proj2 (N.ltb_ge 1114111 v)) by lia. destruct (surrogate v) eqn:Hs; cbn [orb].
    - right. unfold surrogate in Hs. rewrite andb_true_iff, N.leb_le, N.ltb_lt in Hs. done.
    - left. by apply encode_char. }
  destruct (Ascii.eqb_spec e "u"%char) as [->|_].
  { destruct (take_hex 4 0 s) as [[v s']|] eqn:Hh; [|done]. intros [= <- <-]. destruct (take_hex_num _ _ _ _ Hh) as (h & -> & Hl & Ha & Hn).
    split; [done|]. exists h. split_and!; [done..|]. destruct (Hrune v) as [Hc|Hs].
    - clear -Hn Hl. assert (Hb : forall h v, hexnum h v -> (v < 16 ^ N.of_nat (length h))%N).
      { induction 1 as [|w u c d _ IH Hd]; [done|]. rewrite app_length. cbn [length]. rewrite Nat.add_comm. cbn [plus].
        rewrite Nat2N.inj_succ, N.pow_succ_r'. assert (d < 16) by (destruct Hd as [Hd|Hd]; by apply lookup_lt_Some in Hd). lia. }
      specialize (Hb h v Hn). rewrite Hl in Hb. change (16 ^ N.of_nat 4)%N with 65536%N in Hb. lia.
    - left. intros w v' Hw. by apply (l_u h v).
    - right. exists [], h, [], v. split; [done|]. split; [done|]. left. by rewrite app_nil_r. }
  destruct (Ascii.eqb_spec e "U"%char) as [->|_].
  { destruct (take_hex 8 0 s) as [[v s']|] eqn:Hh; [|done]. destruct (N.ltb_spec 1114111 v) as [|Hv]; [done|].
    intros [= <- <-]. destruct (take_hex_num _ _ _ _ Hh) as (h & -> & Hl & Ha & Hn).
    split; [done|]. exists h. split_and!; [done..|]. destruct (Hrune v Hv) as [Hc|Hs].
    - left. intros w v' Hw. by apply (l_U h v).
    - right. exists [], h, [], v. split; [done|]. split; [done|]. right. by rewrite app_nil_r. }
  destruct (octal e) as [a|] eqn:Ha; [|done]. destruct s as [|c1 [|c2 s]]; [done..|].
  destruct (octal c1) as [b|] eqn:Hb; [|done]. destruct (octal c2) as [c|] eqn:Hc; [|done].
  destruct (N.ltb_spec 255 (a * 64 + b * 8 + c)); [done|]. intros [= <- <-].
  destruct (octal_inv _ _ Ha) as (La & Ea & Aa), (octal_inv _ _ Hb) as (Lb & Eb & Ab), (octal_inv _ _ Hc) as (Lc & Ec & Ac).
  split; [done|]. exists [c1; c2]. split_and!; [done|by repeat constructor|]. left. intros w v Hw. subst e c1 c2. cbn [app].
  apply l_octal; [lia|done].
Qed.

Lemma utf8_tail a s : is_ascii a = true -> utf8 (a :: s) -> utf8 s.
Proof.
  intros Ha H. inversion H as [|? ? _ Hs|? b s' Hv _ E|? b c s' Hv _ E|? b c d s' Hv _ E]; subst; [done|exfalso..].
  - by rewrite (valid2_not_ascii _ _ Hv) in Ha.
  - rewrite lead_ascii in Ha; [done|]. pose proof (valid3_lead _ _ _ Hv). lia.
  - rewrite lead_ascii in Ha; [done|]. pose proof (valid4_lead _ _ _ _ Hv). lia.
Qed.
Lemma utf8_tails h s : Forall (fun c => is_ascii c = true) h -> utf8 (h ++ s) -> utf8 s.
Proof. induction 1 as [|a h Ha _ IH]; [done|]. intros H. apply IH. by apply (utf8_tail a). Qed.
Lemma utf8_init w q : is_ascii q = true -> utf8 (w ++ [q]) -> utf8 w.
Proof.
  intros Hq H. remember (w ++ [q]) as t eqn:E. revert w E.
  induction H as [|a s Ha H IH|a b s Hv H IH|a b c s Hv H IH|a b c d s Hv H IH]; intros w E.
  - by destruct w.
  - destruct w as [|x w]; [constructor|]. injection E as -> ->. constructor; [done|by apply IH].
  - destruct w as [|x [|y w]]; [done|exfalso|].
    + injection E as -> <- ->. unfold valid2 in Hv. rewrite andb_true_iff in Hv. destruct Hv as [_ Hv]. by rewrite (cont_high _ Hv) in Hq.
    + injection E as -> -> ->. constructor; [done|by apply IH].
  - destruct (valid3_conts _ _ _ Hv) as [Hb Hc]. destruct w as [|x [|y [|z w]]]; [done| |exfalso|].
    + done.
    + injection E as -> -> <- ->. by rewrite Hc in Hq.
    + injection E as -> -> -> ->. constructor; [done|by apply IH].
  - destruct (valid4_conts _ _ _ _ Hv) as (Hb & Hc & Hd). destruct w as [|x [|y [|z [|t w]]]]; [done..|exfalso|].
    + injection E as -> -> -> <- ->. by rewrite Hd in Hq.
    + injection E as -> -> -> -> ->. constructor; [done|by apply IH].
Qed.

Lemma loop_inv n w s : utf8 w -> linefeed ∉ w -> unq_loop n quote w = Some s -> lit w s \/ has_surrogate w.
Proof.
  revert w s. induction n as [|n IH]; intros w s Hu Hl.
  { destruct w; [|done]. intros [= <-]. left. constructor. }
  assert (Hgo : forall r x w', char_of r x -> r <> code quote -> r <> code bsl -> r <> code linefeed -> w = x ++ w' -> utf8 w' ->
    (match unq_loop n quote w' with Some r => Some (x ++ r) | None => None end) = Some s -> lit w s \/ has_surrogate w).
  { intros r x w' Hc H1 H2 H3 -> Hw'. destruct (unq_loop n quote w') as [v|] eqn:Hv; [|done]. intros [= <-].
    destruct (IH w' v Hw') as [Hi|Hi]; [intros ?; apply Hl; apply elem_of_app; by right|done|left; by apply (l_char r)|].
    right. rewrite <- (app_nil_r w'). by apply surr_app. }
  assert (Hhigh : forall r : N, (128 <= r)%N -> r <> code quote /\ r <> code bsl /\ r <> code linefeed).
  { intros r Hr. split_and!; intros ->; by vm_compute in Hr. }
  destruct Hu as [|a w Ha Hu|a b w Hv Hu|a b c w Hv Hu|a b c d w Hv Hu]; cbn [unq_loop].
  - intros [= <-]. left. constructor.
  - unfold unq_char. destruct (Ascii.eqb_spec a quote) as [|Hq]; [done|]. rewrite Ha. cbn [negb].
    destruct (Ascii.eqb_spec a bsl) as [->|Hb]; cbn [negb].
    + destruct w as [|e w]; [done|]. destruct (unq_escape quote e w) as [[x t]|] eqn:He; [|done].
      change (Ascii.eqb quote apos) with false. cbn [andb]. destruct (unq_loop n quote t) as [v|] eqn:Hv; [|done]. intros [= <-].
      destruct (escape_inv _ _ _ _ He) as (Hae & h & -> & Hh & Hlit). apply utf8_tail in Hu; [|done]. apply utf8_tails in Hu; [|done].
      destruct Hlit as [Hlit|Hs].
      * destruct (IH t v Hu) as [Hi|Hi]; [intros ?; apply Hl; rewrite !elem_of_cons, elem_of_app; auto|done|left; by apply Hlit|].
        right. rewrite <- (app_nil_r t). apply (surr_app (bsl :: e :: h) t [] Hi).
      * right. apply (surr_app [] (bsl :: e :: h) t Hs).
    + change (Ascii.eqb quote apos) with false. cbn [andb].
      assert (Hne : forall z, a <> z -> code a <> code z).
      { intros z Hz E. apply Hz. by rewrite <- (code_ascii a), E, code_ascii. }
      apply (Hgo (code a) [a] w); [by constructor|by apply Hne|by apply Hne| |done|done].
      apply Hne. intros ->. apply Hl. by left.
  - pose proof (valid2_not_ascii _ _ Hv) as Hna. unfold unq_char. rewrite high_lead, Hna by done. cbn [negb]. unfold unq_multi. rewrite Hv.
    change (Ascii.eqb quote apos) with false. cbn [andb]. destruct (rune2_ok _ _ Hv) as [Hr _]. destruct (Hhigh (rune2 a b)) as (? & ? & ?); [lia|].
    apply (Hgo (rune2 a b) [a; b] w); by try constructor.
  - pose proof (valid3_lead _ _ _ Hv) as Hd. assert (Hna : is_ascii a = false) by (apply lead_ascii; lia).
    unfold unq_char. rewrite high_lead, Hna by done. cbn [negb]. unfold unq_multi. rewrite lead_false2, Hv by lia.
    change (Ascii.eqb quote apos) with false. cbn [andb]. destruct (rune3_ok _ _ _ Hv) as [Hr _]. destruct (Hhigh (rune3 a b c)) as (? & ? & ?); [lia|].
    apply (Hgo (rune3 a b c) [a; b; c] w); by try constructor.
  - pose proof (valid4_lead _ _ _ _ Hv) as Hd. assert (Hna : is_ascii a = false) by (apply lead_ascii; lia).
    unfold unq_char. rewrite high_lead, Hna by done. cbn [negb]. unfold unq_multi. rewrite lead_false2, lead_false3, Hv by lia.
    change (Ascii.eqb quote apos) with false. cbn [andb]. destruct (rune4_ok _ _ _ _ Hv) as [Hr _]. destruct (Hhigh (rune4 a b c d)) as (? & ? & ?); [lia|].
    apply (Hgo (rune4 a b c d) [a; b; c; d] w); by try constructor.
Qed.

Lemma unsnoc_inv s x z : unsnoc s = Some (x, z) -> s = x ++ [z].
Proof.
  revert x z. induction s as [|a s IH]; intros x z; cbn [unsnoc]; [done|]. destruct (unsnoc s) as [[y t]|] eqn:E.
  - intros [= <- <-]. by rewrite (IH y t eq_refl).
  - intros [= <- <-]. destruct s as [|b s]; [done|]. cbn in E. by destruct (unsnoc s) as [[]|].
Qed.
Lemma mem_byte_not c s : mem_byte c s = false -> c ∉ s.
Proof.
  induction s as [|a s IH]; [intros _; apply not_elem_of_nil|]. cbn. rewrite orb_false_iff. intros [Ha Hs]. rewrite elem_of_cons.
  intros [->|H]; [|by apply IH]. by rewrite Ascii.eqb_refl in Ha.
Qed.

(** *** C142: nothing but a string literal is read as one *)

Theorem C142_only text s : utf8 text -> unquote text = Some s ->
  literal text s \/ has_surrogate text \/ in_apostrophes text.
Proof.
  intros Hu. unfold unquote. destruct text as [|q text]; [done|]. destruct (unsnoc text) as [[w z]|] eqn:E; [|done].
  apply unsnoc_inv in E as ->. destruct (Ascii.eqb_spec q z) as [<-|]; [|done]. cbn [negb].
  destruct (Ascii.eqb_spec q backquote) as [->|_].
  { destruct (mem_byte backquote w) eqn:Hm; [done|]. intros [= <-]. left. rewrite drop_filter. constructor. by apply mem_byte_not. }
  destruct (Ascii.eqb_spec q quote) as [->|_].
  - cbn [orb negb]. destruct (mem_byte linefeed w) eqn:Hm; [done|]. intros Hw. apply mem_byte_not in Hm.
    apply utf8_tail in Hu; [|done]. apply utf8_init in Hu; [|done].
    destruct (loop_inv _ _ _ Hu Hm Hw) as [Hi|Hi]; [left; by constructor|]. right. left. apply (surr_app [quote] w [quote] Hi).
  - cbn [orb]. destruct (Ascii.eqb_spec q apos) as [->|]; [|done]. intros _. right. right. by exists w.
Qed.

(** For what the Go compiler takes as a string literal, Unquote and the Go
    specification agree on which texts these are and on their values. *)
Theorem C142_exact text s : utf8 text -> ~ has_surrogate text -> ~ in_apostrophes text ->
  unquote text = Some s <-> literal text s.
Proof.
  intros Hu Hs Ha. split; [|apply unquote_literal]. intros H. by destruct (C142_only text s Hu H) as [?|[?|?]].
Qed.

(** A literal has one value. *)
Theorem C142_one text s s' : literal text s -> literal text s' -> s = s'.
Proof. intros H H'. apply unquote_literal in H, H'. congruence. Qed.

(** Each of the three conditions is needed. *)

Lemma char_no_surrogate r x : char_of r x -> ~ (55296 <= r < 57344)%N.
Proof.
  intros [a Ha|a b Hv|a b c Hv|a b c d Hv].
  - unfold is_ascii in Ha. apply N.ltb_lt in Ha. lia.
  - pose proof (rune2_ok _ _ Hv). lia.
  - unfold valid3 in Hv. rewrite !andb_true_iff, !orb_true_iff, !andb_true_iff in Hv. unfold cont in Hv.
    rewrite !between_spec, !N.eqb_eq in Hv. unfold rune3. lia.
  - pose proof (rune4_ok _ _ _ _ Hv). lia.
Qed.

(** "\ud800" is not a Go literal. *)
Theorem C142_surrogate_refuted : exists text s,
  utf8 text /\ ~ in_apostrophes text /\ unquote text = Some s /\ forall s', ~ literal text s'.
Proof.
  exists (quote :: (bsl :: B"ud800") ++ [quote]), bad_rune. split_and!.
  - repeat (apply u_1; [done|]). constructor.
  - by intros [w [= ? ?]].
  - by vm_compute.
  - intros s' H. remember (quote :: (bsl :: B"ud800") ++ [quote]) as t eqn:E.
    destruct H as [w s' H|w H]; [|by injection E]. injection E as E.
    change (w ++ [quote] = [bsl; "u"%char; "d"%char; "8"%char; "0"%char; "0"%char] ++ [quote]) in E. apply app_inj_tail in E as [E _].
    destruct H as [|r x w s' Hc H1 H2 H3 H|e n w s' He H|a b c w s' Ha H|h v w s' Hh Hl H|h r x w s' Hh Hl Hc H|h r x w s' Hh Hl Hc H]; [done|..].
    + destruct Hc as [a Ha|a b Hv|a b c Hv|a b c d Hv]; cbn [app] in E.
      * injection E as -> _. done.
      * injection E as -> -> _. done.
      * injection E as -> -> -> _. done.
      * injection E as -> -> -> -> _. done.
    + injection E as -> _. unfold simple_escapes in He. rewrite !elem_of_cons, elem_of_nil in He.
      by destruct He as [[=]|[[=]|[[=]|[[=]|[[=]|[[=]|[[=]|[[=]|[[=]|[]]]]]]]]]].
    + assert (Hx : ascii_of_N (48 + a) = "u"%char) by (by injection E). apply (f_equal code) in Hx. rewrite code_of in Hx by lia.
      change (code "u") with 117%N in Hx. lia.
    + done.
    + destruct h as [|h1 [|h2 [|h3 [|h4 [|]]]]]; try done. cbn [app] in E. injection E as -> -> -> -> ->.
      destruct (hexnum_reads _ _ Hh) as [Hr _]. specialize (Hr []). cbn [app length] in Hr.
      assert (E : take_hex 4 0 (B"d800") = Some (55296%N, [])) by reflexivity.
      change (B"d800") with ["d"%char; "8"%char; "0"%char; "0"%char] in E. rewrite E in Hr. injection Hr as <-.
      by apply (char_no_surrogate _ _ Hc).
    + done.
Qed.

(** 'a' is a number for Go, and the path "a" for Unquote. *)
Theorem C142_apostrophe_refuted : exists text s,
  utf8 text /\ ~ has_surrogate text /\ unquote text = Some s /\ forall s', ~ literal text s'.
Proof.
  exists [apos; "a"%char; apos], (B"a"). split_and!.
  - repeat (apply u_1; [done|]). constructor.
  - intros (w & h & rest & r & _ & _ & [[E _]|[E _]]); (destruct w as [|? [|? [|? [|? ?]]]]; discriminate E).
  - by vm_compute.
  - intros s' H. remember [apos; "a"%char; apos] as t eqn:E. destruct H; discriminate E.
Qed.

(** A lone byte 255 between quotes is no Go text; Unquote reads the replacement character. *)
Theorem C142_bytes_refuted : exists text s,
  ~ in_apostrophes text /\ ~ has_surrogate text /\ unquote text = Some s /\ forall s', ~ literal text s'.
Proof.
  exists [quote; ascii_of_N 255; quote], bad_rune. split_and!.
  - by intros [w [= ? ?]].
  - intros (w & h & rest & r & _ & _ & [[E _]|[E _]]); (destruct w as [|? [|? [|? [|? ?]]]]; discriminate E).
  - by vm_compute.
  - intros s' H. remember [quote; ascii_of_N 255; quote] as t eqn:E. destruct H as [w s' H|w H]; [|discriminate E].
    injection E as E. change (w ++ [quote] = [ascii_of_N 255] ++ [quote]) in E. apply app_inj_tail in E as [E _].
    destruct H as [|r x w s' Hc H1 H2 H3 H|e n w s' He H|a b c w s' Ha H|h v w s' Hh Hl H|h r x w s' Hh Hl Hc H|h r x w s' Hh Hl Hc H];
      try discriminate E.
    destruct Hc as [a Ha|a b Hv|a b c Hv|a b c d Hv]; cbn [app] in E; try discriminate E. injection E as -> _. done.
Qed.

(** Texts that are refused: a quote inside, an unknown escape, an octal escape
    over 255, a code point that does not exist, a number, an open quote. *)
Example C142_ex :
  unquote (quote :: B"a\x41" ++ [quote]) = Some (B"aA") /\ literal (quote :: B"a\x41" ++ [quote]) (B"aA") /\
  Forall (fun text => forall s, ~ literal text s)
    [quote :: [quote] ++ [quote]; quote :: B"\q" ++ [quote]; quote :: B"\400" ++ [quote]; quote :: B"\U00110000" ++ [quote];
     quote :: B"\'" ++ [quote]; quote :: B"\x4" ++ [quote]; quote :: [linefeed] ++ [quote]; B"12"; quote :: B"a"; [quote]; []].
Proof.
  split; [by vm_compute|]. split.
  - destruct (C142_only (quote :: B"a\x41" ++ [quote]) (B"aA")) as [H|[H|H]]; [|by vm_compute|done|exfalso|exfalso].
    + repeat (apply u_1; [done|]). constructor.
    + destruct H as (w & h & rest & r & _ & _ & H).
      do 9 (destruct w as [|? w]; [destruct H as [[E _]|[E _]]; discriminate E|]). destruct H as [[E _]|[E _]]; discriminate E.
    + destruct H as [w E]. discriminate E.
  - repeat (constructor; [intros s H; apply unquote_literal in H; by vm_compute in H|]). constructor.
Qed.
