(** JSON text (encoding/json): how a tree is written and read back. *)
From Verif Require Import Bytes GoPath Here GoTypes GoNum JsonStr.

(** ** Writing *)

Definition c_comma : ascii := ","%char.
Definition c_lbrace : ascii := "{"%char.
Definition c_rbrace : ascii := "}"%char.
Definition c_lbrack : ascii := "["%char.
Definition c_rbrack : ascii := "]"%char.

Fixpoint join_comma (l : list bytes) : bytes :=
  match l with
  | [] => []
  | [x] => x
  | x :: l => x ++ c_comma :: join_comma l
  end.

(** Compact output, as json.Marshal produces it. *)
Fixpoint write_json (j : json) : bytes :=
  match j with
  | JNull => B"null"
  | JBool true => B"true"
  | JBool false => B"false"
  | JNum z => dec_z z
  | JStr s => json_string s
  | JArr l => c_lbrack :: join_comma (map write_json l) ++ [c_rbrack]
  | JObj l => c_lbrace :: join_comma (map (fun kv => json_string kv.1 ++ colon :: write_json kv.2) l) ++ [c_rbrace]
  end.

(** ** Reading *)

Definition is_ws (c : ascii) : bool :=
  (code c =? 32)%N || (code c =? 9)%N || (code c =? 10)%N || (code c =? 13)%N.

Fixpoint skip_ws (s : bytes) : bytes :=
  match s with
  | c :: t => if is_ws c then skip_ws t else s
  | [] => []
  end.

(** A number: an integer without leading zeros.  (Fractions and exponents are
    refused here; Go reads them, but nothing this code marshals has them.) *)
Definition read_nat (s : bytes) : option (N * bytes) :=
  match span_digits s with
  | ([], _) => None
  | (d, r) =>
      if match d with c :: _ :: _ => Ascii.eqb c "0"%char | _ => false end then None
      else
        match r with
        | c :: _ => if Ascii.eqb c "."%char || Ascii.eqb c "e"%char || Ascii.eqb c "E"%char
                    then None else Some (dval d, r)
        | [] => Some (dval d, r)
        end
  end.

Definition read_num (s : bytes) : option (json * bytes) :=
  match s with
  | c :: t =>
      if Ascii.eqb c "-"%char
      then match read_nat t with Some (n, r) => Some (JNum (- Z.of_N n), r) | None => None end
      else match read_nat s with Some (n, r) => Some (JNum (Z.of_N n), r) | None => None end
  | [] => None
  end.

Definition read_lit (lit : bytes) (v : json) (s : bytes) : option (json * bytes) :=
  if has_prefix s lit then Some (v, drop (length lit) s) else None.

(** Values, object members (from after '{' or ',') and array elements. *)
Fixpoint read_value (fuel : nat) (s : bytes) : option (json * bytes) :=
  match fuel with
  | O => None
  | S fuel =>
      match skip_ws s with
      | [] => None
      | c :: r =>
          if Ascii.eqb c quote then
            match unesc r with Some (v, r) => Some (JStr v, r) | None => None end
          else if Ascii.eqb c c_lbrace then
            match skip_ws r with
            | c2 :: r2 =>
                if Ascii.eqb c2 c_rbrace then Some (JObj [], r2)
                else match read_members fuel r with Some (l, r) => Some (JObj l, r) | None => None end
            | [] => None
            end
          else if Ascii.eqb c c_lbrack then
            match skip_ws r with
            | c2 :: r2 =>
                if Ascii.eqb c2 c_rbrack then Some (JArr [], r2)
                else match read_elems fuel r with Some (l, r) => Some (JArr l, r) | None => None end
            | [] => None
            end
          else if Ascii.eqb c "n"%char then read_lit (B"null") JNull (c :: r)
          else if Ascii.eqb c "t"%char then read_lit (B"true") (JBool true) (c :: r)
          else if Ascii.eqb c "f"%char then read_lit (B"false") (JBool false) (c :: r)
          else read_num (c :: r)
      end
  end
with read_members (fuel : nat) (s : bytes) : option (list (bytes * json) * bytes) :=
  match fuel with
  | O => None
  | S fuel =>
      match skip_ws s with
      | c :: r =>
          if Ascii.eqb c quote then
            match unesc r with
            | None => None
            | Some (k, r) =>
                match skip_ws r with
                | c2 :: r =>
                    if Ascii.eqb c2 colon then
                      match read_value fuel r with
                      | None => None
                      | Some (v, r) =>
                          match skip_ws r with
                          | c3 :: r =>
                              if Ascii.eqb c3 c_comma then
                                match read_members fuel r with
                                | Some (l, r) => Some ((k, v) :: l, r)
                                | None => None
                                end
                              else if Ascii.eqb c3 c_rbrace then Some ([(k, v)], r)
                              else None
                          | [] => None
                          end
                      end
                    else None
                | [] => None
                end
            end
          else None
      | [] => None
      end
  end
with read_elems (fuel : nat) (s : bytes) : option (list json * bytes) :=
  match fuel with
  | O => None
  | S fuel =>
      match read_value fuel s with
      | None => None
      | Some (v, r) =>
          match skip_ws r with
          | c3 :: r =>
              if Ascii.eqb c3 c_comma then
                match read_elems fuel r with
                | Some (l, r) => Some (v :: l, r)
                | None => None
                end
              else if Ascii.eqb c3 c_rbrack then Some ([v], r)
              else None
          | [] => None
          end
      end
  end.

(** A whole text: json.Unmarshal into an interface. *)
Definition read_json (s : bytes) : option json :=
  match read_value (S (length s)) s with
  | Some (j, r) => match skip_ws r with [] => Some j | _ => None end
  | None => None
  end.

(** What reading back makes of a tree: its strings are sanitized. *)
Fixpoint clean_json (j : json) : json :=
  match j with
  | JStr s => JStr (sanitize s)
  | JArr l => JArr (map clean_json l)
  | JObj l => JObj (map (fun kv => (sanitize kv.1, clean_json kv.2)) l)
  | j => j
  end.

(** ** Proofs *)

Lemma json_rec (P : json -> Prop) :
  P JNull -> (forall b, P (JBool b)) -> (forall z, P (JNum z)) -> (forall s, P (JStr s)) ->
  (forall l, Forall P l -> P (JArr l)) -> (forall l, Forall (fun kv => P kv.2) l -> P (JObj l)) ->
  forall j, P j.
Proof.
  intros H1 H2 H3 H4 H5 H6. fix IH 1. intros [ | b | z | s | l | l]; [apply H1|apply H2|apply H3|apply H4|..].
  - apply H5. induction l as [|j l IHl]; constructor; [apply IH|apply IHl].
  - apply H6. induction l as [|[k j] l IHl]; constructor; [apply IH|apply IHl].
Qed.

(** How deep reading recurses. *)
Fixpoint depth (j : json) : nat :=
  match j with
  | JArr l => S (fold_right (fun j n => S (depth j + n)) 0 l)
  | JObj l => S (fold_right (fun kv n => S (depth kv.2 + n)) 0 l)
  | _ => 1
  end.

(** What may follow a number. *)
Definition stops (r : bytes) : Prop :=
  match r with
  | [] => True
  | c :: _ => is_digit c = false /\ Ascii.eqb c "."%char = false /\ Ascii.eqb c "e"%char = false /\ Ascii.eqb c "E"%char = false
  end.

Lemma read_nat_dec n r : stops r -> read_nat (dec n ++ r) = Some (n, r).
Proof.
  intros Hr. unfold read_nat. rewrite span_digits_app; [|apply dec_digits|by destruct r; [|destruct Hr]].
  destruct (dec n) as [|c d] eqn:E; [by apply dec_nonempty in E|].
  assert (Hz : match d with [] => false | _ :: _ => Ascii.eqb c "0"%char end = false).
  { destruct d; [done|]. apply Ascii.eqb_neq. intros ->. by destruct (dec_lead n _ _ E eq_refl). }
  assert (Hz' : (match c :: d with c :: _ :: _ => Ascii.eqb c "0"%char | _ => false end) = false) by exact Hz.
  rewrite Hz'. rewrite <- E, dec_val. destruct r as [|x r]; [done|].
  destruct Hr as (_ & -> & -> & ->). done.
Qed.

Lemma dec_head n : exists c d, dec n = c :: d /\ is_digit c = true.
Proof.
  destruct (dec n) as [|c d] eqn:E; [by apply dec_nonempty in E|]. exists c, d. split; [done|].
  pose proof (dec_digits n) as H. rewrite E in H. by inversion H.
Qed.

Lemma digit_not c x : is_digit c = true -> is_digit x = false -> Ascii.eqb c x = false.
Proof. intros H1 H2. apply Ascii.eqb_neq. intros ->. congruence. Qed.

Lemma digit_not_ws c : is_digit c = true -> is_ws c = false.
Proof. unfold is_digit, is_ws, code. rewrite andb_true_iff, !N.leb_le, !orb_false_iff, !N.eqb_neq. lia. Qed.

Lemma read_value_num f z r : stops r -> read_value (S f) (dec_z z ++ r) = Some (JNum z, r).
Proof.
  intros Hr. unfold dec_z. destruct (Z.ltb_spec z 0).
  - rewrite <- app_comm_cons. cbn [read_value]. change (skip_ws ("-"%char :: dec (Z.to_N (- z)) ++ r)) with ("-"%char :: dec (Z.to_N (- z)) ++ r).
    cbv beta iota. change (Ascii.eqb "-"%char quote) with false. change (Ascii.eqb "-"%char c_lbrace) with false.
    change (Ascii.eqb "-"%char c_lbrack) with false. change (Ascii.eqb "-"%char "n"%char) with false.
    change (Ascii.eqb "-"%char "t"%char) with false. change (Ascii.eqb "-"%char "f"%char) with false.
    cbv iota. unfold read_num. change (Ascii.eqb "-"%char "-"%char) with true. cbv iota.
    rewrite read_nat_dec by done. f_equal. f_equal. f_equal. lia.
  - destruct (dec_head (Z.to_N z)) as (c & d & E & Hc). rewrite E. rewrite <- app_comm_cons. cbn [read_value skip_ws].
    rewrite (digit_not_ws c Hc). rewrite !(digit_not c) by done.
    unfold read_num. rewrite (digit_not c) by done. rewrite app_comm_cons, <- E, read_nat_dec by done.
    f_equal. f_equal. f_equal. lia.
Qed.

Lemma write_head j : exists c t, write_json j = c :: t /\ is_ws c = false /\
  Ascii.eqb c c_rbrack = false /\ Ascii.eqb c c_rbrace = false.
Proof.
  destruct j as [ |[]|z|s|l|l]; try (by do 2 eexists).
  cbn [write_json]. unfold dec_z. destruct (z <? 0)%Z; [by do 2 eexists|].
  destruct (dec_head (Z.to_N z)) as (c & d & -> & Hc). exists c, d. split; [done|].
  rewrite (digit_not_ws c Hc), !(digit_not c) by done. done.
Qed.

Lemma skip_ws_head c t : is_ws c = false -> skip_ws (c :: t) = c :: t.
Proof. intros H. simpl. by rewrite H. Qed.

Lemma stops_comma r : stops (c_comma :: r). Proof. done. Qed.
Lemma stops_rbrace r : stops (c_rbrace :: r). Proof. done. Qed.
Lemma stops_rbrack r : stops (c_rbrack :: r). Proof. done. Qed.

Definition reads (j : json) : Prop := forall f r, depth j <= f -> stops r ->
  read_value f (write_json j ++ r) = Some (clean_json j, r).

Lemma read_elems_ok l f r :
  l <> [] -> Forall reads l -> fold_right (fun j n => S (depth j + n)) 0 l <= f ->
  read_elems f (join_comma (map write_json l) ++ c_rbrack :: r) = Some (map clean_json l, r).
Proof.
  intros Hne Hl. revert f. induction Hl as [|j l Hj Hl IH]; intros f Hf; [done|].
  cbn [fold_right] in Hf. destruct f as [|f]; [lia|]. cbn [read_elems map].
  destruct l as [|j2 l].
  - cbn [join_comma map]. rewrite (Hj f) by (simpl in Hf; lia || apply stops_rbrack).
    rewrite skip_ws_head by done. reflexivity.
  - assert (Hjc : join_comma (write_json j :: map write_json (j2 :: l)) ++ c_rbrack :: r =
      write_json j ++ c_comma :: (join_comma (map write_json (j2 :: l)) ++ c_rbrack :: r)).
    { cbn [join_comma map]. by rewrite <- app_assoc. }
    rewrite Hjc. rewrite (Hj f); [|lia|apply stops_comma]. rewrite skip_ws_head by done.
    change (Ascii.eqb c_comma c_comma) with true. cbv iota. rewrite IH; [reflexivity|done|lia].
Qed.

Lemma read_members_ok l f r :
  l <> [] -> Forall (fun kv : bytes * json => reads kv.2) l ->
  fold_right (fun (kv : bytes * json) n => S (depth kv.2 + n)) 0 l <= f ->
  read_members f (join_comma (map (fun kv => json_string kv.1 ++ colon :: write_json kv.2) l) ++ c_rbrace :: r) =
    Some (map (fun kv => (sanitize kv.1, clean_json kv.2)) l, r).
Proof.
  intros Hne Hl. revert f. induction Hl as [|[k j] l Hj Hl IH]; intros f Hf; [done|].
  cbn [fold_right snd] in Hf. destruct f as [|f]; [lia|]. cbn [snd] in Hj.
  set (tl := match l with [] => c_rbrace :: r | _ => c_comma ::
     (join_comma (map (fun kv => json_string kv.1 ++ colon :: write_json kv.2) l) ++ c_rbrace :: r) end).
  assert (Hjc : join_comma (map (fun kv => json_string kv.1 ++ colon :: write_json kv.2) ((k, j) :: l)) ++ c_rbrace :: r =
    quote :: (esc k ++ quote :: (colon :: (write_json j ++ tl)))).
  { unfold tl. destruct l as [|kv l]; cbn [join_comma map fst snd]; unfold json_string;
      rewrite <- !app_assoc, <- ?app_comm_cons, <- !app_assoc; reflexivity. }
  rewrite Hjc. cbn [read_members]. rewrite skip_ws_head by done.
  change (Ascii.eqb quote quote) with true. cbv iota. rewrite esc_round. rewrite skip_ws_head by done.
  change (Ascii.eqb colon colon) with true. cbv iota.
  assert (Hst : stops tl) by (by unfold tl; destruct l). rewrite (Hj f); [|lia|done].
  unfold tl. destruct l as [|kv l].
  - rewrite skip_ws_head by done. reflexivity.
  - rewrite skip_ws_head by done. change (Ascii.eqb c_comma c_comma) with true. cbv iota.
    rewrite IH; [reflexivity|done|lia].
Qed.

Lemma read_write j : reads j.
Proof.
  induction j as [ |b|z|s|l IH|l IH] using json_rec; intros f r Hf Hr; (destruct f as [|f]; [simpl in Hf; lia|]).
  - reflexivity.
  - by destruct b.
  - by apply read_value_num.
  - cbn [write_json clean_json]. unfold json_string. rewrite <- app_comm_cons, <- app_assoc. cbn [app].
    cbn [read_value]. rewrite skip_ws_head by done. change (Ascii.eqb quote quote) with true. cbv iota.
    by rewrite esc_round.
  - cbn [write_json clean_json]. rewrite <- app_comm_cons, <- app_assoc. cbn [app]. cbn [read_value].
    rewrite skip_ws_head by done. change (Ascii.eqb c_lbrack quote) with false.
    change (Ascii.eqb c_lbrack c_lbrace) with false. change (Ascii.eqb c_lbrack c_lbrack) with true. cbv iota.
    destruct l as [|j l]; [reflexivity|].
    assert (Hh : exists c t, join_comma (map write_json (j :: l)) ++ c_rbrack :: r = c :: t /\
      is_ws c = false /\ Ascii.eqb c c_rbrack = false).
    { destruct (write_head j) as (c & t & E & H1 & H2 & _). cbn [map]. destruct l; cbn [map join_comma]; rewrite E; by do 2 eexists. }
    destruct Hh as (c & t & E & H1 & H2). rewrite E. rewrite skip_ws_head by done. rewrite H2. rewrite <- E.
    cbn [depth] in Hf. rewrite read_elems_ok; [reflexivity|done|done|lia].
  - cbn [write_json clean_json]. rewrite <- app_comm_cons, <- app_assoc. cbn [app]. cbn [read_value].
    rewrite skip_ws_head by done. change (Ascii.eqb c_lbrace quote) with false.
    change (Ascii.eqb c_lbrace c_lbrace) with true. cbv iota.
    destruct l as [|[k j] l]; [reflexivity|].
    assert (Hh : exists t, join_comma (map (fun kv => json_string kv.1 ++ colon :: write_json kv.2) ((k, j) :: l)) ++ c_rbrace :: r = quote :: t).
    { cbn [map]. destruct l; cbn [map join_comma fst]; unfold json_string; by eexists. }
    destruct Hh as (t & E). rewrite E. rewrite skip_ws_head by done.
    change (Ascii.eqb quote c_rbrace) with false. cbv iota. rewrite <- E.
    cbn [depth] in Hf. rewrite read_members_ok; [reflexivity|done|done|lia].
Qed.

Lemma json_string_pos s : 2 <= length (json_string s).
Proof. unfold json_string. cbn [length]. rewrite app_length. simpl. lia. Qed.

(** The text is longer than the reading is deep. *)
Lemma join_length (l : list bytes) : fold_right (fun x n => S (length x + n)) 0 l <= S (length (join_comma l)).
Proof.
  induction l as [|x l IH]; [simpl; lia|]. cbn [fold_right]. destruct l as [|y l].
  - simpl. lia.
  - change (join_comma (x :: y :: l)) with (x ++ c_comma :: join_comma (y :: l)).
    rewrite app_length. cbn [length]. lia.
Qed.

Lemma depth_length j : depth j <= length (write_json j).
Proof.
  induction j as [ |b|z|s|l IH|l IH] using json_rec; cbn [depth write_json].
  - simpl. lia.
  - destruct b; simpl; lia.
  - unfold dec_z. pose proof (dec_nonempty (Z.to_N z)) as H. destruct (z <? 0)%Z; [simpl; lia|].
    destruct (dec (Z.to_N z)); [done|simpl; lia].
  - pose proof (json_string_pos s). lia.
  - cbn [length]. rewrite app_length. cbn [length].
    pose proof (join_length (map write_json l)) as Hj.
    assert (Hs : fold_right (fun j n => S (depth j + n)) 0 l <= fold_right (fun x n => S (length x + n)) 0 (map write_json l)).
    { clear Hj. induction IH as [|j l H1 H2 IH2]; cbn [fold_right map]; lia. }
    lia.
  - cbn [length]. rewrite app_length. cbn [length].
    set (g := fun kv : bytes * json => json_string kv.1 ++ colon :: write_json kv.2).
    pose proof (join_length (map g l)) as Hj.
    assert (Hs : fold_right (fun (kv : bytes * json) n => S (depth kv.2 + n)) 0 l <= fold_right (fun x n => S (length x + n)) 0 (map g l)).
    { clear Hj. induction IH as [|j l H1 H2 IH2]; cbn [fold_right map]; [lia|].
      assert (length (write_json j.2) <= length (g j)) by (unfold g; rewrite app_length; cbn [length]; lia). lia. }
    lia.
Qed.

(** Reading back what was written. *)
Lemma json_round j : read_json (write_json j) = Some (clean_json j).
Proof.
  unfold read_json. pose proof (depth_length j) as Hd.
  rewrite <- (app_nil_r (write_json j)) at 2.
  rewrite (read_write j); [reflexivity|lia|done].
Qed.
