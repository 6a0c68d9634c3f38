(** JSON texts as encoding/json's scanner sees them (Go 1.13, scanner.go): every
    string and number keeps its spelling, for the decoders look at it. *)
From Verif Require Import Bytes GoPath Here GoTypes GoNum JsonStr JsonText GoQuote Quote JsonSpec.

(** A text's tree.  Keys are given by their values, strings and numbers by what
    the text says (strings without their quotes). *)
Inductive rjson :=
| RNull
| RBool (b : bool)
| RNum (raw : bytes)
| RStr (raw : bytes)
| RArr (l : list rjson)
| RObj (l : list (bytes * rjson)).

(** ** Reading *)

(** ".5", "e-7": parts of a number that may be missing. *)
Definition read_digits (pre : bytes) (s : bytes) : option (bytes * bytes) :=
  match span_digits s with
  | ([], _) => None
  | (d, r) => Some (pre ++ d, r)
  end.
Definition read_frac (s : bytes) : option (bytes * bytes) :=
  match s with
  | c :: t => if Ascii.eqb c "."%char then read_digits [c] t else Some ([], s)
  | [] => Some ([], [])
  end.
Definition read_exp (s : bytes) : option (bytes * bytes) :=
  match s with
  | c :: t =>
      if Ascii.eqb c "e"%char || Ascii.eqb c "E"%char then
        match t with
        | d :: u => if Ascii.eqb d "+"%char || Ascii.eqb d "-"%char then read_digits [c; d] u else read_digits [c] t
        | [] => None
        end
      else Some ([], s)
  | [] => Some ([], [])
  end.
(** Digits without a leading zero: a zero stands alone. *)
Definition read_whole (s : bytes) : option (bytes * bytes) :=
  match s with
  | c :: t => if Ascii.eqb c "0"%char then Some ([c], t) else read_digits [] s
  | [] => None
  end.
Definition read_unsigned (pre s : bytes) : option (bytes * bytes) :=
  match read_whole s with
  | None => None
  | Some (w, s) =>
      match read_frac s with
      | None => None
      | Some (f, s) => match read_exp s with None => None | Some (e, s) => Some (pre ++ w ++ f ++ e, s) end
      end
  end.
Definition read_number (s : bytes) : option (bytes * bytes) :=
  match s with
  | c :: t => if Ascii.eqb c "-"%char then read_unsigned [c] t else read_unsigned [] s
  | [] => None
  end.

(** A string from after its opening quote: spelling, value and what follows. *)
Definition read_string (s : bytes) : option (bytes * bytes * bytes) :=
  match unesc s with
  | Some (v, r) => Some (take (length s - S (length r)) s, v, r)
  | None => None
  end.

Definition read_word (w : bytes) (v : rjson) (s : bytes) : option (rjson * bytes) :=
  if has_prefix s w then Some (v, drop (length w) s) else None.

Fixpoint raw_value (fuel : nat) (s : bytes) : option (rjson * bytes) :=
  match fuel with
  | O => None
  | S fuel =>
      match skip_ws s with
      | [] => None
      | c :: r =>
          if Ascii.eqb c quote then
            match read_string r with Some (w, _, r) => Some (RStr w, r) | None => None end
          else if Ascii.eqb c c_lbrace then
            match skip_ws r with
            | c2 :: r2 =>
                if Ascii.eqb c2 c_rbrace then Some (RObj [], r2)
                else match raw_members fuel r with Some (l, r) => Some (RObj l, r) | None => None end
            | [] => None
            end
          else if Ascii.eqb c c_lbrack then
            match skip_ws r with
            | c2 :: r2 =>
                if Ascii.eqb c2 c_rbrack then Some (RArr [], r2)
                else match raw_elems fuel r with Some (l, r) => Some (RArr l, r) | None => None end
            | [] => None
            end
          else if Ascii.eqb c "n"%char then read_word (B"null") RNull (c :: r)
          else if Ascii.eqb c "t"%char then read_word (B"true") (RBool true) (c :: r)
          else if Ascii.eqb c "f"%char then read_word (B"false") (RBool false) (c :: r)
          else match read_number (c :: r) with Some (w, r) => Some (RNum w, r) | None => None end
      end
  end
with raw_members (fuel : nat) (s : bytes) : option (list (bytes * rjson) * bytes) :=
  match fuel with
  | O => None
  | S fuel =>
      match skip_ws s with
      | c :: r =>
          if Ascii.eqb c quote then
            match read_string r with
            | None => None
            | Some (_, k, r) =>
                match skip_ws r with
                | c2 :: r =>
                    if Ascii.eqb c2 colon then
                      match raw_value fuel r with
                      | None => None
                      | Some (v, r) =>
                          match skip_ws r with
                          | c3 :: r =>
                              if Ascii.eqb c3 c_comma then
                                match raw_members fuel r with
                                | Some (l, r) => Some ((k, v) :: l, r)
                                | None => None
                                end
                              else if Ascii.eqb c3 c_rbrace then Some ([(k, v)], r)
                              else None
                          | [] => None
                          end
                      end
                    else None
                | [] => None
                end
            end
          else None
      | [] => None
      end
  end
with raw_elems (fuel : nat) (s : bytes) : option (list rjson * bytes) :=
  match fuel with
  | O => None
  | S fuel =>
      match raw_value fuel s with
      | None => None
      | Some (v, r) =>
          match skip_ws r with
          | c3 :: r =>
              if Ascii.eqb c3 c_comma then
                match raw_elems fuel r with
                | Some (l, r) => Some (v :: l, r)
                | None => None
                end
              else if Ascii.eqb c3 c_rbrack then Some ([v], r)
              else None
          | [] => None
          end
      end
  end.

(** A whole text: checkValid, scanner.go:29-42. *)
Definition read_raw (s : bytes) : option rjson :=
  match raw_value (S (length s)) s with
  | Some (j, r) => match skip_ws r with [] => Some j | _ => None end
  | None => None
  end.

(** ** Specification: the grammar of RFC 8259, with spellings *)

Definition digits (d : bytes) : Prop := d <> [] /\ exists n, decnum d n.
Inductive jfrac : bytes -> Prop :=
| jf_none : jfrac []
| jf_some d : digits d -> jfrac ("."%char :: d).
Inductive jexp : bytes -> Prop :=
| jx_none : jexp []
| jx_some e d : e ∈ B"eE" -> digits d -> jexp (e :: d)
| jx_sign e s d : e ∈ B"eE" -> s ∈ B"+-" -> digits d -> jexp (e :: s :: d).
Inductive jnumber : bytes -> Prop :=
| jn_pos w n f e : jnat w n -> jfrac f -> jexp e -> jnumber (w ++ f ++ e)
| jn_neg w n f e : jnat w n -> jfrac f -> jexp e -> jnumber ("-"%char :: w ++ f ++ e).

Inductive rval : bytes -> rjson -> Prop :=
| rv_null : rval (B"null") RNull
| rv_true : rval (B"true") (RBool true)
| rv_false : rval (B"false") (RBool false)
| rv_num t : jnumber t -> rval t (RNum t)
| rv_str w s : jstr w s -> rval (quote :: w ++ [quote]) (RStr w)
| rv_arr0 w : white w -> rval ("["%char :: w ++ ["]"%char]) (RArr [])
| rv_arr t l : relems t l -> rval ("["%char :: t ++ ["]"%char]) (RArr l)
| rv_obj0 w : white w -> rval ("{"%char :: w ++ ["}"%char]) (RObj [])
| rv_obj t l : rmembers t l -> rval ("{"%char :: t ++ ["}"%char]) (RObj l)
with relems : bytes -> list rjson -> Prop :=
| re_one w1 t w2 j : white w1 -> rval t j -> white w2 -> relems (w1 ++ t ++ w2) [j]
| re_more w1 t w2 j e l : white w1 -> rval t j -> white w2 -> relems e l ->
    relems (w1 ++ t ++ w2 ++ ","%char :: e) (j :: l)
with rmembers : bytes -> list (bytes * rjson) -> Prop :=
| rm_one w1 k s w2 w3 t w4 j : white w1 -> jstr k s -> white w2 -> white w3 -> rval t j -> white w4 ->
    rmembers (w1 ++ quote :: k ++ quote :: w2 ++ ":"%char :: w3 ++ t ++ w4) [(s, j)]
| rm_more w1 k s w2 w3 t w4 j e l : white w1 -> jstr k s -> white w2 -> white w3 -> rval t j -> white w4 ->
    rmembers e l ->
    rmembers (w1 ++ quote :: k ++ quote :: w2 ++ ":"%char :: w3 ++ t ++ w4 ++ ","%char :: e) ((s, j) :: l).

(** A whole text. *)
Definition raw_text (t : bytes) (j : rjson) : Prop :=
  exists w1 v w2, t = w1 ++ v ++ w2 /\ white w1 /\ rval v j /\ white w2.

Scheme rval_mind := Induction for rval Sort Prop
  with relems_mind := Induction for relems Sort Prop
  with rmembers_mind := Induction for rmembers Sort Prop.
Combined Scheme raw_mind from rval_mind, relems_mind, rmembers_mind.

(** ** Proofs *)

Lemma read_string_jstr w s r : jstr w s -> read_string (w ++ quote :: r) = Some (w, s, r).
Proof.
  intros H. unfold read_string. rewrite (jstr_read w s H). f_equal. f_equal. f_equal.
  rewrite app_length. cbn [length]. replace (length w + S (length r) - S (length r)) with (length w) by lia. by rewrite take_app.
Qed.
Lemma jstr_read_string s w v r : read_string s = Some (w, v, r) -> s = w ++ quote :: r /\ jstr w v.
Proof.
  unfold read_string. destruct (unesc s) as [[v' r']|] eqn:E; [|done]. intros [= <- -> ->].
  destruct (read_jstr _ _ _ _ (le_n _) E) as (w & -> & H). rewrite app_length. cbn [length].
  replace (length w + S (length r) - S (length r)) with (length w) by lia. by rewrite take_app.
Qed.

Lemma digits_spec d : digits d <-> d <> [] /\ Forall (fun c => is_digit c = true) d.
Proof.
  split; intros [H1 H2]; (split; [done|]).
  - destruct H2 as [n Hn]. by destruct (decnum_digits _ _ Hn).
  - eexists. by apply digits_decnum.
Qed.
(** What may follow the digits of a number. *)
Definition no_digit (r : bytes) : Prop := match r with [] => True | c :: _ => is_digit c = false end.
Lemma read_digits_ok pre d r : digits d -> no_digit r -> read_digits pre (d ++ r) = Some (pre ++ d, r).
Proof.
  intros [Hne Hd]%digits_spec Hr. unfold read_digits. rewrite span_digits_app by done. by destruct d.
Qed.
Lemma ok_read_digits pre s w r : read_digits pre s = Some (w, r) -> exists d, s = d ++ r /\ w = pre ++ d /\ digits d.
Proof.
  unfold read_digits. destruct (span_digits s) as [d r'] eqn:E. destruct (span_digits_split _ _ _ E) as [-> Hd].
  destruct d as [|c d]; [done|]. intros [= <- <-]. exists (c :: d). split_and!; [done|done|]. by apply digits_spec.
Qed.

Lemma stops_no_digit r : stops r -> no_digit r.
Proof. destruct r; [done|]. by intros [? _]. Qed.
Lemma jexp_no_digit e r : jexp e -> no_digit r -> no_digit (e ++ r).
Proof.
  intros He Hr. destruct He as [|c d Hc _|c s d Hc _ _]; [done|..]; cbn [app no_digit]; cbn in Hc; rewrite !elem_of_cons, elem_of_nil in Hc;
    by destruct Hc as [->|[->|[]]].
Qed.
Lemma jfrac_no_digit f r : jfrac f -> no_digit r -> no_digit (f ++ r).
Proof. intros Hf Hr. by destruct Hf. Qed.

Lemma read_exp_ok e r : jexp e -> stops r -> read_exp (e ++ r) = Some (e, r).
Proof.
  intros He Hr. destruct He as [|c d Hc Hd|c s d Hc Hs Hd].
  - destruct r as [|x r]; [done|]. destruct Hr as (_ & _ & H1 & H2). cbn. by rewrite H1, H2.
  - assert (E : Ascii.eqb c "e"%char || Ascii.eqb c "E"%char = true).
    { cbn in Hc. rewrite !elem_of_cons, elem_of_nil in Hc. by destruct Hc as [->|[->|[]]]. }
    cbn [app read_exp]. rewrite E. pose proof Hd as [Hne Hds]%digits_spec. destruct d as [|x d]; [done|]. cbn [app].
    inversion Hds as [|? ? Hx _]; subst. rewrite !(digit_not x) by done. cbn [orb].
    change (x :: d ++ r) with ((x :: d) ++ r). rewrite read_digits_ok by (done || by apply stops_no_digit). done.
  - assert (E : Ascii.eqb c "e"%char || Ascii.eqb c "E"%char = true).
    { cbn in Hc. rewrite !elem_of_cons, elem_of_nil in Hc. by destruct Hc as [->|[->|[]]]. }
    assert (E2 : Ascii.eqb s "+"%char || Ascii.eqb s "-"%char = true).
    { cbn in Hs. rewrite !elem_of_cons, elem_of_nil in Hs. by destruct Hs as [->|[->|[]]]. }
    cbn [app read_exp]. rewrite E, E2. rewrite read_digits_ok by (done || by apply stops_no_digit). done.
Qed.
Lemma ok_read_exp s e r : read_exp s = Some (e, r) -> s = e ++ r /\ jexp e.
Proof.
  destruct s as [|c t]; cbn [read_exp]; [intros [= <- <-]; by split; [|constructor]|].
  destruct (Ascii.eqb c "e"%char || Ascii.eqb c "E"%char) eqn:E; [|intros [= <- <-]; by split; [|constructor]].
  assert (Hc : c ∈ B"eE").
  { apply orb_true_iff in E as [E|E]; apply Ascii.eqb_eq in E as ->; vm_compute; repeat constructor. }
  destruct t as [|d u]; [done|]. destruct (Ascii.eqb d "+"%char || Ascii.eqb d "-"%char) eqn:E2.
  - assert (Hd : d ∈ B"+-").
    { apply orb_true_iff in E2 as [E2|E2]; apply Ascii.eqb_eq in E2 as ->; vm_compute; repeat constructor. }
    intros H. apply ok_read_digits in H as (x & -> & -> & Hx). split; [done|by apply jx_sign].
  - intros H. apply ok_read_digits in H as (x & -> & -> & Hx). split; [done|by apply jx_some].
Qed.
Lemma read_frac_ok f r : jfrac f -> (forall x r', r = x :: r' -> Ascii.eqb x "."%char = false) -> no_digit r -> read_frac (f ++ r) = Some (f, r).
Proof.
  intros Hf Hdot Hr. destruct Hf as [|d Hd].
  - cbn [app]. destruct r as [|x r]; [done|]. cbn. by rewrite (Hdot x r).
  - cbn [app read_frac]. change (Ascii.eqb "."%char "."%char) with true. cbv iota. by rewrite read_digits_ok.
Qed.
Lemma ok_read_frac s f r : read_frac s = Some (f, r) -> s = f ++ r /\ jfrac f.
Proof.
  destruct s as [|c t]; cbn [read_frac]; [intros [= <- <-]; by split; [|constructor]|].
  destruct (Ascii.eqb_spec c "."%char) as [->|]; [|intros [= <- <-]; by split; [|constructor]].
  intros H. apply ok_read_digits in H as (x & -> & -> & Hx). split; [done|by constructor].
Qed.
Lemma jnat_digits w n : jnat w n -> digits w.
Proof. intros (H1 & H2 & _). split; [done|by exists n]. Qed.
Lemma read_whole_ok w n r : jnat w n -> no_digit r -> read_whole (w ++ r) = Some (w, r).
Proof.
  intros Hw Hr. pose proof Hw as (_ & Hne & Hz). destruct w as [|c w]; [done|]. cbn [app read_whole].
  destruct (Ascii.eqb_spec c "0"%char) as [->|_].
  - by rewrite (Hz w eq_refl).
  - change (c :: w ++ r) with ((c :: w) ++ r). by rewrite (read_digits_ok []) by (done || by eapply jnat_digits).
Qed.
Lemma ok_read_whole s w r : read_whole s = Some (w, r) -> s = w ++ r /\ exists n, jnat w n.
Proof.
  destruct s as [|c t]; cbn [read_whole]; [done|]. destruct (Ascii.eqb_spec c "0"%char) as [->|Hc].
  - intros [= <- <-]. split; [done|]. exists 0%N. split_and!; [|done|by intros t' [= <-]]. by apply (dn_snoc [] 0 "0"%char 0); [constructor|].
  - intros H. apply ok_read_digits in H as (d & E & -> & Hne & n & Hn). cbn [app]. split; [done|]. exists n. split_and!; [done|done|].
    intros t' ->. cbn [app] in E. congruence.
Qed.

Lemma read_unsigned_ok pre w n f e r : jnat w n -> jfrac f -> jexp e -> stops r ->
  read_unsigned pre ((w ++ f ++ e) ++ r) = Some (pre ++ w ++ f ++ e, r).
Proof.
  intros Hw Hf He Hr. unfold read_unsigned. rewrite <- !app_assoc.
  pose proof (jexp_no_digit e r He (stops_no_digit r Hr)) as H1.
  rewrite (read_whole_ok w n) by (done || by apply jfrac_no_digit). rewrite read_frac_ok; [|done| |done].
  - by rewrite read_exp_ok.
  - intros x r' E. destruct He as [|c d Hc _|c s d Hc _ _]; cbn [app] in E.
    + subst r. by destruct Hr as (_ & -> & _).
    + injection E as <- _. cbn in Hc. rewrite !elem_of_cons, elem_of_nil in Hc. by destruct Hc as [->|[->|[]]].
    + injection E as <- _. cbn in Hc. rewrite !elem_of_cons, elem_of_nil in Hc. by destruct Hc as [->|[->|[]]].
Qed.
Lemma jnat_not_minus w n r : jnat w n -> exists c t, w ++ r = c :: t /\ is_digit c = true.
Proof. intros H. destruct (jnat_head w n H) as (c & t & -> & Hc). by exists c, (t ++ r). Qed.
Lemma read_number_ok t r : jnumber t -> stops r -> read_number (t ++ r) = Some (t, r).
Proof.
  intros Ht Hr. destruct Ht as [w n f e Hw Hf He|w n f e Hw Hf He].
  - unfold read_number. rewrite <- app_assoc. destruct (jnat_not_minus w n ((f ++ e) ++ r) Hw) as (c & u & E & Hc). rewrite E.
    rewrite (digit_not c) by done. rewrite <- E. rewrite app_assoc. by rewrite (read_unsigned_ok [] w n f e r).
  - cbn [app read_number]. change (Ascii.eqb "-"%char "-"%char) with true. cbv iota. by rewrite (read_unsigned_ok _ w n f e r).
Qed.
Lemma ok_read_unsigned pre s w r : read_unsigned pre s = Some (w, r) ->
  exists x n f e, s = x ++ f ++ e ++ r /\ w = pre ++ x ++ f ++ e /\ jnat x n /\ jfrac f /\ jexp e.
Proof.
  unfold read_unsigned. destruct (read_whole s) as [[x s1]|] eqn:E1; [|done]. destruct (read_frac s1) as [[f s2]|] eqn:E2; [|done].
  destruct (read_exp s2) as [[e s3]|] eqn:E3; [|done]. intros [= <- <-].
  apply ok_read_whole in E1 as [-> [n Hn]]. apply ok_read_frac in E2 as [-> Hf]. apply ok_read_exp in E3 as [-> He].
  by exists x, n, f, e.
Qed.
Lemma ok_read_number s t r : read_number s = Some (t, r) -> s = t ++ r /\ jnumber t.
Proof.
  destruct s as [|c s]; [done|]. cbn [read_number]. destruct (Ascii.eqb_spec c "-"%char) as [->|_]; intros H;
    apply ok_read_unsigned in H as (x & n & f & e & E & -> & Hx & Hf & He).
  - rewrite E. split; [cbn [app]; by rewrite <- !app_assoc|]. by apply (jn_neg x n).
  - rewrite E. split; [cbn [app]; by rewrite <- !app_assoc|]. by apply (jn_pos x n).
Qed.

Lemma jnumber_head t : jnumber t -> exists c t', t = c :: t' /\ (is_digit c = true \/ c = "-"%char).
Proof.
  intros [w n f e Hw _ _|w n f e _ _ _]; [|by do 2 eexists; split; [|right]].
  destruct (jnat_head w n Hw) as (c & u & -> & Hc). exists c, (u ++ f ++ e). split; [done|by left].
Qed.
Lemma rval_head t j : rval t j -> exists c t', t = c :: t' /\ is_ws c = false /\ Ascii.eqb c c_rbrack = false /\ Ascii.eqb c c_rbrace = false.
Proof.
  intros H. destruct H as [ | | |t H|w s _|w _|t l _|w _|t l _]; try (by do 2 eexists).
  destruct (jnumber_head t H) as (c & t' & -> & [Hc| ->]); [|by do 2 eexists]. exists c, t'. split; [done|].
  rewrite (digit_not_ws c Hc), !(digit_not c) by done. done.
Qed.

Lemma raw_number f t r : jnumber t -> stops r -> raw_value (S f) (t ++ r) = Some (RNum t, r).
Proof.
  intros H Hr. pose proof (read_number_ok t r H Hr) as E. destruct (jnumber_head t H) as (c & t' & -> & Hc).
  cbn [app] in *. cbn [raw_value]. destruct Hc as [Hc| ->].
  - cbn [skip_ws]. rewrite (digit_not_ws c Hc). rewrite !(digit_not c) by done. by rewrite E.
  - change (skip_ws ("-"%char :: t' ++ r)) with ("-"%char :: t' ++ r). cbv beta iota.
    change (Ascii.eqb "-"%char quote) with false. change (Ascii.eqb "-"%char c_lbrace) with false.
    change (Ascii.eqb "-"%char c_lbrack) with false. change (Ascii.eqb "-"%char "n"%char) with false.
    change (Ascii.eqb "-"%char "t"%char) with false. change (Ascii.eqb "-"%char "f"%char) with false. cbv iota. by rewrite E.
Qed.

Lemma raw_value_white f w s : white w -> raw_value f (w ++ s) = raw_value f s.
Proof. intros Hw. destruct f as [|f]; [done|]. cbn [raw_value]. by rewrite skip_white. Qed.
Lemma raw_elems_white f w s : white w -> raw_elems f (w ++ s) = raw_elems f s.
Proof. intros Hw. destruct f as [|f]; [done|]. cbn [raw_elems]. by rewrite raw_value_white. Qed.
Lemma raw_members_white f w s : white w -> raw_members f (w ++ s) = raw_members f s.
Proof. intros Hw. destruct f as [|f]; [done|]. cbn [raw_members]. by rewrite skip_white. Qed.

Lemma raw_grammar_read :
  (forall t j, rval t j -> forall f r, length t <= f -> stops r -> raw_value f (t ++ r) = Some (j, r)) /\
  (forall t l, relems t l -> forall f r, S (length t) <= f -> raw_elems f (t ++ c_rbrack :: r) = Some (l, r)) /\
  (forall t l, rmembers t l -> forall f r, S (length t) <= f -> raw_members f (t ++ c_rbrace :: r) = Some (l, r)).
Proof.
  assert (Hhead : forall f c s, is_ws c = false -> raw_value (S f) (c :: s) =
    match c :: s with [] => None | c :: r =>
      if Ascii.eqb c quote then match read_string r with Some (w, _, r) => Some (RStr w, r) | None => None end
      else if Ascii.eqb c c_lbrace then
            match skip_ws r with
            | c2 :: r2 => if Ascii.eqb c2 c_rbrace then Some (RObj [], r2)
                else match raw_members f r with Some (l, r) => Some (RObj l, r) | None => None end
            | [] => None end
      else if Ascii.eqb c c_lbrack then
            match skip_ws r with
            | c2 :: r2 => if Ascii.eqb c2 c_rbrack then Some (RArr [], r2)
                else match raw_elems f r with Some (l, r) => Some (RArr l, r) | None => None end
            | [] => None end
      else if Ascii.eqb c "n"%char then read_word (B"null") RNull (c :: r)
      else if Ascii.eqb c "t"%char then read_word (B"true") (RBool true) (c :: r)
      else if Ascii.eqb c "f"%char then read_word (B"false") (RBool false) (c :: r)
      else match read_number (c :: r) with Some (w, r) => Some (RNum w, r) | None => None end end).
  { intros f c s Hc. cbn [raw_value]. by rewrite skip_ws_head. }
  apply raw_mind.
  - intros [|f] r Hf _; [simpl in Hf; lia|]. reflexivity.
  - intros [|f] r Hf _; [simpl in Hf; lia|]. reflexivity.
  - intros [|f] r Hf _; [simpl in Hf; lia|]. reflexivity.
  - intros t H [|f] r Hf Hr; [|by apply raw_number]. destruct (rval_head t _ (rv_num t H)) as (c & t' & -> & _). simpl in Hf. lia.
  - intros w s H [|f] r Hf Hr; [simpl in Hf; lia|]. cbn [app]. rewrite Hhead by done. cbv beta iota.
    change (Ascii.eqb quote quote) with true. cbv iota. rewrite <- app_assoc. cbn [app]. by rewrite (read_string_jstr w s r H).
  - intros w Hw [|f] r Hf Hr; [simpl in Hf; lia|]. cbn [app]. rewrite Hhead by done. cbv beta iota.
    change (Ascii.eqb "["%char quote) with false. change (Ascii.eqb "["%char c_lbrace) with false. change (Ascii.eqb "["%char c_lbrack) with true.
    cbv iota. rewrite <- app_assoc. cbn [app]. rewrite skip_white by done. by rewrite skip_ws_head.
  - intros t l He IH [|f] r Hf Hr; [simpl in Hf; lia|]. cbn [app]. rewrite Hhead by done. cbv beta iota.
    change (Ascii.eqb "["%char quote) with false. change (Ascii.eqb "["%char c_lbrace) with false. change (Ascii.eqb "["%char c_lbrack) with true.
    cbv iota. rewrite <- app_assoc. cbn [app].
    assert (Hh : exists c s, skip_ws (t ++ "]"%char :: r) = c :: s /\ Ascii.eqb c c_rbrack = false).
    { destruct He as [w1 v w2 j Hw1 Hv _|w1 v w2 j e l Hw1 Hv _ _]; destruct (rval_head v j Hv) as (c & v' & -> & H1 & H2 & _);
        rewrite <- !app_assoc, skip_white by done; cbn [app]; rewrite skip_ws_head by done; by do 2 eexists. }
    destruct Hh as (c & s & -> & ->). cbn [length] in Hf. rewrite app_length in Hf. cbn [length] in Hf.
    change "]"%char with c_rbrack. rewrite IH by lia. done.
  - intros w Hw [|f] r Hf Hr; [simpl in Hf; lia|]. cbn [app]. rewrite Hhead by done. cbv beta iota.
    change (Ascii.eqb "{"%char quote) with false. change (Ascii.eqb "{"%char c_lbrace) with true.
    cbv iota. rewrite <- app_assoc. cbn [app]. rewrite skip_white by done. by rewrite skip_ws_head.
  - intros t l He IH [|f] r Hf Hr; [simpl in Hf; lia|]. cbn [app]. rewrite Hhead by done. cbv beta iota.
    change (Ascii.eqb "{"%char quote) with false. change (Ascii.eqb "{"%char c_lbrace) with true.
    cbv iota. rewrite <- app_assoc. cbn [app].
    assert (Hh : exists s, skip_ws (t ++ "}"%char :: r) = quote :: s).
    { destruct He as [w1 k s w2 w3 v w4 j Hw1 _ _ _ _ _|w1 k s w2 w3 v w4 j e l Hw1 _ _ _ _ _ _]; rewrite <- !app_assoc, skip_white by done;
        cbn [app]; rewrite skip_ws_head by done; by eexists. }
    destruct Hh as (s & ->). change (Ascii.eqb quote c_rbrace) with false. cbv iota. cbn [length] in Hf. rewrite app_length in Hf. cbn [length] in Hf.
    change "}"%char with c_rbrace. rewrite IH by lia. done.
  - intros w1 t w2 j Hw1 Hv IH Hw2 [|f] r Hf; [lia|]. rewrite <- !app_assoc. rewrite raw_elems_white by done. cbn [raw_elems].
    rewrite !app_length in Hf. rewrite IH; [|lia|by apply ws_stops]. rewrite skip_white by done. by rewrite skip_ws_head.
  - intros w1 t w2 j e l Hw1 Hv IH Hw2 He IHe [|f] r Hf; [lia|]. rewrite <- !app_assoc. rewrite raw_elems_white by done. cbn [raw_elems app].
    repeat (rewrite app_length in Hf || (progress cbn [length] in Hf)).
    destruct (rval_head t j Hv) as (c & t' & E & _). assert (1 <= length t) by (rewrite E; simpl; lia).
    rewrite IH; [|lia|by apply ws_stops]. rewrite skip_white by done. rewrite skip_ws_head by done.
    change (Ascii.eqb ","%char c_comma) with true. cbv iota. rewrite IHe by lia. done.
  - intros w1 k s w2 w3 t w4 j Hw1 Hk Hw2 Hw3 Hv IH Hw4 [|f] r Hf; [lia|].
    rewrite <- !app_assoc. rewrite raw_members_white by done. cbn [app]. rewrite <- !app_assoc. cbn [app]. rewrite <- !app_assoc. cbn [app]. rewrite <- !app_assoc.
    cbn [raw_members]. rewrite skip_ws_head by done. change (Ascii.eqb quote quote) with true. cbv iota.
    rewrite (read_string_jstr k s _ Hk). rewrite skip_white by done. rewrite skip_ws_head by done. change (Ascii.eqb ":"%char colon) with true. cbv iota.
    rewrite raw_value_white by done. repeat (rewrite app_length in Hf || (progress cbn [length] in Hf)).
    rewrite IH; [|lia|by apply ws_stops]. rewrite skip_white by done. by rewrite skip_ws_head.
  - intros w1 k s w2 w3 t w4 j e l Hw1 Hk Hw2 Hw3 Hv IH Hw4 He IHe [|f] r Hf; [lia|].
    rewrite <- !app_assoc. rewrite raw_members_white by done. cbn [app]. rewrite <- !app_assoc. cbn [app]. rewrite <- !app_assoc. cbn [app]. rewrite <- !app_assoc.
    cbn [raw_members]. rewrite skip_ws_head by done. change (Ascii.eqb quote quote) with true. cbv iota.
    rewrite (read_string_jstr k s _ Hk). rewrite skip_white by done. rewrite skip_ws_head by done. change (Ascii.eqb ":"%char colon) with true. cbv iota.
    rewrite raw_value_white by done. repeat (rewrite app_length in Hf || (progress cbn [length] in Hf)).
    rewrite IH; [|lia|by apply ws_stops]. rewrite skip_white by done. cbn [app]. rewrite skip_ws_head by done.
    change (Ascii.eqb ","%char c_comma) with true. cbv iota. rewrite IHe by lia. done.
Qed.

Lemma read_raw_grammar f :
  (forall s j r, raw_value f s = Some (j, r) -> exists w t, s = w ++ t ++ r /\ white w /\ rval t j) /\
  (forall s l r, raw_elems f s = Some (l, r) -> exists t, s = t ++ c_rbrack :: r /\ relems t l) /\
  (forall s l r, raw_members f s = Some (l, r) -> exists t, s = t ++ c_rbrace :: r /\ rmembers t l).
Proof.
  induction f as [|f (IHv & IHe & IHm)]; [done|]. split_and!.
  - intros s j r H. cbn [raw_value] in H. destruct (skip_split s) as (w & Hw & E & _). exists w. rewrite E.
    destruct (skip_ws s) as [|c s']; [done|]. clear E s.
    assert (Hlit : forall x y v, read_word x v (y :: s') = Some (j, r) -> rval x v -> exists t, w ++ y :: s' = w ++ t ++ r /\ white w /\ rval t j).
    { intros x y v Hx Hv. unfold read_word in Hx. destruct (has_prefix (y :: s') x) eqn:Hp; [|done]. injection Hx as <- Hr.
      apply has_prefix_spec in Hp as [z Hz]. exists x. rewrite Hz in Hr |- *. rewrite drop_app in Hr. by subst z. }
    destruct (Ascii.eqb_spec c quote) as [->|Hq].
    { destruct (read_string s') as [[[x v] r']|] eqn:Eu; [|done]. injection H as <- <-. apply jstr_read_string in Eu as [-> Hx].
      exists (quote :: x ++ [quote]). cbn [app]. rewrite <- app_assoc. split; [done|]. split; [done|by apply (rv_str x v)]. }
    destruct (Ascii.eqb_spec c c_lbrace) as [->|Hlb].
    { destruct (skip_split s') as (w' & Hw' & E & _). destruct (skip_ws s') as [|c2 r2]; [done|].
      destruct (Ascii.eqb_spec c2 c_rbrace) as [->|].
      - injection H as <- <-. rewrite E. exists (c_lbrace :: w' ++ [c_rbrace]). cbn [app]. rewrite <- app_assoc. split; [done|]. split; [done|by apply rv_obj0].
      - destruct (raw_members f s') as [[l r']|] eqn:Em; [|done]. injection H as <- <-. apply IHm in Em as (t & -> & Ht).
        exists (c_lbrace :: t ++ [c_rbrace]). cbn [app]. rewrite <- app_assoc. split; [done|]. split; [done|by apply rv_obj]. }
    destruct (Ascii.eqb_spec c c_lbrack) as [->|Hlk].
    { destruct (skip_split s') as (w' & Hw' & E & _). destruct (skip_ws s') as [|c2 r2]; [done|].
      destruct (Ascii.eqb_spec c2 c_rbrack) as [->|].
      - injection H as <- <-. rewrite E. exists (c_lbrack :: w' ++ [c_rbrack]). cbn [app]. rewrite <- app_assoc. split; [done|]. split; [done|by apply rv_arr0].
      - destruct (raw_elems f s') as [[l r']|] eqn:Em; [|done]. injection H as <- <-. apply IHe in Em as (t & -> & Ht).
        exists (c_lbrack :: t ++ [c_rbrack]). cbn [app]. rewrite <- app_assoc. split; [done|]. split; [done|by apply rv_arr]. }
    destruct (Ascii.eqb_spec c "n"%char) as [->|Hn]; [apply (Hlit _ _ _ H); constructor|].
    destruct (Ascii.eqb_spec c "t"%char) as [->|Ht]; [apply (Hlit _ _ _ H); constructor|].
    destruct (Ascii.eqb_spec c "f"%char) as [->|Hf]; [apply (Hlit _ _ _ H); constructor|].
    destruct (read_number (c :: s')) as [[x r']|] eqn:En; [|done]. injection H as <- <-. apply ok_read_number in En as [-> Hx].
    exists x. split; [done|]. split; [done|by constructor].
  - intros s l r H. cbn [raw_elems] in H. destruct (raw_value f s) as [[v s1]|] eqn:Ev; [|done]. apply IHv in Ev as (w & t & -> & Hw & Ht).
    destruct (skip_split s1) as (w2 & Hw2 & E & _). destruct (skip_ws s1) as [|c3 s2]; [done|]. rewrite E.
    destruct (Ascii.eqb_spec c3 c_comma) as [->|_].
    + destruct (raw_elems f s2) as [[l' r']|] eqn:Ee; [|done]. injection H as <- <-. apply IHe in Ee as (e & -> & He).
      exists (w ++ t ++ w2 ++ c_comma :: e). split; [by rewrite <- !app_assoc|by apply re_more].
    + destruct (Ascii.eqb_spec c3 c_rbrack) as [->|_]; [|done]. injection H as <- <-. exists (w ++ t ++ w2). split; [by rewrite <- !app_assoc|by apply re_one].
  - intros s l r H. cbn [raw_members] in H. destruct (skip_split s) as (w1 & Hw1 & E & _). destruct (skip_ws s) as [|c s0]; [done|]. rewrite E. clear E.
    destruct (Ascii.eqb_spec c quote) as [->|_]; [|done]. destruct (read_string s0) as [[[x k] s1]|] eqn:Eu; [|done].
    apply jstr_read_string in Eu as [-> Hx].
    destruct (skip_split s1) as (w2 & Hw2 & E & _). destruct (skip_ws s1) as [|c2 s2]; [done|]. rewrite E. clear E.
    destruct (Ascii.eqb_spec c2 colon) as [->|_]; [|done]. destruct (raw_value f s2) as [[v s3]|] eqn:Ev; [|done].
    apply IHv in Ev as (w3 & t & -> & Hw3 & Ht).
    destruct (skip_split s3) as (w4 & Hw4 & E & _). destruct (skip_ws s3) as [|c3 s4]; [done|]. rewrite E. clear E.
    destruct (Ascii.eqb_spec c3 c_comma) as [->|_].
    + destruct (raw_members f s4) as [[l' r']|] eqn:Ee; [|done]. injection H as <- <-. apply IHm in Ee as (e & -> & He).
      exists (w1 ++ quote :: x ++ quote :: w2 ++ ":"%char :: w3 ++ t ++ w4 ++ ","%char :: e).
      split; [|by apply rm_more]. repeat (rewrite <- app_assoc || (progress cbn [app])). done.
    + destruct (Ascii.eqb_spec c3 c_rbrace) as [->|_]; [|done]. injection H as <- <-.
      exists (w1 ++ quote :: x ++ quote :: w2 ++ ":"%char :: w3 ++ t ++ w4).
      split; [|by apply rm_one]. repeat (rewrite <- app_assoc || (progress cbn [app])). done.
Qed.

(** A whole text. *)
Lemma read_raw_iff t j : read_raw t = Some j <-> raw_text t j.
Proof.
  unfold read_raw, raw_text. split.
  - destruct (raw_value _ t) as [[v r]|] eqn:Ev; [|done]. destruct (skip_ws r) as [|] eqn:Es; [|done]. intros [= ->].
    destruct (read_raw_grammar (S (length t))) as [H _]. apply H in Ev as (w & x & -> & Hw & Hx).
    destruct (skip_split r) as (w2 & Hw2 & E & _). rewrite Es, app_nil_r in E. subst r. by exists w, x, w2.
  - intros (w1 & v & w2 & -> & Hw1 & Hv & Hw2). rewrite raw_value_white by done. destruct raw_grammar_read as [H _].
    rewrite (H v j Hv); [|rewrite !app_length; lia|]. { rewrite <- (app_nil_r w2), skip_white by done. done. }
    rewrite <- (app_nil_r w2). by apply ws_stops.
Qed.

(** The text null, with any white space around it. *)
Definition says_null (t : bytes) : Prop := exists w1 w2, white w1 /\ white w2 /\ t = w1 ++ B"null" ++ w2.
Lemma read_raw_null t : read_raw t = Some RNull <-> says_null t.
Proof.
  rewrite read_raw_iff. split.
  - intros (w1 & v & w2 & -> & H1 & Hv & H2). exists w1, w2. split_and!; [done|done|]. by inversion Hv.
  - intros (w1 & w2 & H1 & H2 & ->). exists w1, (B"null"), w2. split_and!; [done|done|constructor|done].
Qed.
