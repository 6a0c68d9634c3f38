(** Indented JSON: json.Indent (Go standard library, encoding/json/indent.go)
    as used by json.MarshalIndent (FileInfo.String, /repo/pkging/file_info.go:22-25)
    and by json.Encoder with SetIndent (/repo/pkging/pkgutil/dump.go:48-50,
    /repo/cmd/pkger/cmds/{info,list,parse,path}.go).

    Indent runs the JSON scanner over the text; for the valid compact texts it
    is given here, the scanner's answers are determined by whether the byte is
    inside a string. *)
From Verif Require Import Bytes GoPath Here GoTypes GoNum JsonStr JsonText.

Inductive qstate := QOut | QIn | QEsc.

(** newline, indent.go. *)
Definition nlind (ind : bytes) (d : nat) : bytes := newline :: concat (replicate d ind).

Definition closing (c : ascii) : bool := Ascii.eqb c c_rbrace || Ascii.eqb c c_rbrack.

(** The loop of Indent with prefix "": [need] is needIndent. *)
Fixpoint indent (ind : bytes) (d : nat) (need : bool) (q : qstate) (s : bytes) : bytes :=
  match s with
  | [] => []
  | c :: s =>
      match q with
      | QIn => c :: indent ind d need (if Ascii.eqb c quote then QOut else if Ascii.eqb c bsl then QEsc else QIn) s
      | QEsc => c :: indent ind d need QIn s
      | QOut =>
          if is_ws c then indent ind d need QOut s
          else
            let opens := need && negb (closing c) in
            let d := if opens then S d else d in
            let pre := if opens then nlind ind d else [] in
            if Ascii.eqb c c_lbrace || Ascii.eqb c c_lbrack then pre ++ c :: indent ind d true QOut s
            else if Ascii.eqb c c_comma then pre ++ c :: nlind ind d ++ indent ind d false QOut s
            else if Ascii.eqb c colon then pre ++ c :: " "%char :: indent ind d false QOut s
            else if closing c then
              if need then c :: indent ind d false QOut s
              else nlind ind (pred d) ++ c :: indent ind (pred d) false QOut s
            else pre ++ c :: indent ind d false (if Ascii.eqb c quote then QIn else QOut) s
      end
  end.

(** json.MarshalIndent(v, "", ind). *)
Definition marshal_indent (ind : bytes) (j : json) : bytes := indent ind 0 false QOut (write_json j).

(** Encoder.Encode after SetIndent("", ind): one document and a newline. *)
Definition encode_indent (ind : bytes) (j : json) : bytes := marshal_indent ind j ++ [newline].

(** ** Specification: reading a stream of documents (json.Decoder) *)
Fixpoint read_docs (n fuel : nat) (s : bytes) : option (list json) :=
  match skip_ws s with
  | [] => Some []
  | _ =>
      match fuel with
      | O => None
      | S fuel =>
          match read_value n s with
          | None => None
          | Some (j, r) => match read_docs n fuel r with Some l => Some (j :: l) | None => None end
          end
      end
  end.
Definition read_stream (s : bytes) : option (list json) := read_docs (S (length s)) (S (length s)) s.

(** ** The layout *)

Fixpoint write_indent (ind : bytes) (d : nat) (j : json) : bytes :=
  match j with
  | JArr [] => [c_lbrack; c_rbrack]
  | JObj [] => [c_lbrace; c_rbrace]
  | JArr l => c_lbrack :: join_comma (map (fun x => nlind ind (S d) ++ write_indent ind (S d) x) l) ++ nlind ind d ++ [c_rbrack]
  | JObj l => c_lbrace :: join_comma (map (fun kv => nlind ind (S d) ++ json_string kv.1 ++ colon :: " "%char :: write_indent ind (S d) kv.2) l) ++
      nlind ind d ++ [c_rbrace]
  | _ => write_json j
  end.

(** Text that stays as it is inside a string. *)
Definition passes (x : bytes) : Prop :=
  forall ind d need r, indent ind d need QIn (x ++ r) = x ++ indent ind d need QIn r.

Lemma passes_nil : passes []. Proof. done. Qed.
Lemma passes_app x y : passes x -> passes y -> passes (x ++ y).
Proof. intros Hx Hy ind d need r. by rewrite <- !app_assoc, Hx, Hy. Qed.
Lemma passes_cons a x : Ascii.eqb a quote = false -> Ascii.eqb a bsl = false -> passes x -> passes (a :: x).
Proof. intros H1 H2 Hx ind d need r. cbn [app indent]. by rewrite H1, H2, Hx. Qed.
Lemma passes_high a x : (128 <= code a)%N -> passes x -> passes (a :: x).
Proof. intros H. destruct (non_ascii_head a (lead_ascii a H)) as (? & ? & _). by apply passes_cons. Qed.
Lemma passes_ascii a : is_ascii a = true -> passes (esc_ascii a).
Proof. intros H ind d need r. all_bytes a; first [discriminate H | reflexivity]. Qed.
Lemma passes_sep c : passes (esc_sep c).
Proof.
  unfold esc_sep. intros ind d need r. all_bytes c; reflexivity.
Qed.
Lemma passes_bad : passes esc_bad. Proof. intros ind d need r. reflexivity. Qed.

Lemma cont_high c : cont c = true -> (128 <= code c)%N.
Proof. unfold cont, between. rewrite andb_true_iff, !N.leb_le. lia. Qed.
Lemma valid2_high a b : valid2 a b = true -> (128 <= code a)%N /\ (128 <= code b)%N.
Proof. unfold valid2, cont, between. rewrite !andb_true_iff, !N.leb_le. lia. Qed.
Lemma valid3_high a b c : valid3 a b c = true -> (128 <= code a)%N /\ (128 <= code b)%N /\ (128 <= code c)%N.
Proof. unfold valid3, cont, between. rewrite !andb_true_iff, !orb_true_iff, !andb_true_iff, !N.leb_le, !N.eqb_eq. lia. Qed.
Lemma valid4_high a b c d : valid4 a b c d = true ->
  (128 <= code a)%N /\ (128 <= code b)%N /\ (128 <= code c)%N /\ (128 <= code d)%N.
Proof. unfold valid4, cont, between. rewrite !andb_true_iff, !orb_true_iff, !andb_true_iff, !N.leb_le, !N.eqb_eq. lia. Qed.

Lemma passes_esc_n n s : length s <= n -> passes (esc s).
Proof.
  revert s. induction n as [|n IH]; intros s Hn.
  - destruct s; [apply passes_nil|simpl in Hn; lia].
  - destruct s as [|a s1]; [apply passes_nil|]. cbn [esc]. cbn [length] in Hn.
    destruct (is_ascii a) eqn:Ha; [apply passes_app; [by apply passes_ascii|apply IH; lia]|].
    assert (Hbad : passes (esc_bad ++ esc s1)) by (apply passes_app; [apply passes_bad|apply IH; lia]).
    destruct s1 as [|b s2]; [apply passes_bad|]. cbn [length] in Hn.
    destruct (valid2 a b) eqn:H2.
    { apply valid2_high in H2 as [??]. do 2 (apply passes_high; [done|]). apply IH. lia. }
    destruct s2 as [|c s3]; [exact Hbad|]. cbn [length] in Hn.
    destruct (valid3 a b c) eqn:H3.
    { apply passes_app; [|apply IH; lia]. destruct (line_sep a b c); [apply passes_sep|].
      apply valid3_high in H3 as (? & ? & ?). do 3 (apply passes_high; [done|]). apply passes_nil. }
    destruct s3 as [|d s4]; [exact Hbad|]. cbn [length] in Hn.
    destruct (valid4 a b c d) eqn:H4; [|exact Hbad].
    apply valid4_high in H4 as (? & ? & ? & ?). do 4 (apply passes_high; [done|]). apply IH. lia.
Qed.

(** What Indent puts before a value after an opening bracket. *)
Definition lead (ind : bytes) (d : nat) (need : bool) : bytes := if need then nlind ind (S d) else [].
Definition deep (d : nat) (need : bool) : nat := if need then S d else d.

Lemma indent_string ind d need s r :
  indent ind d need QOut (json_string s ++ r) = lead ind d need ++ json_string s ++ indent ind (deep d need) false QOut r.
Proof.
  unfold json_string. cbn [app indent]. change (is_ws quote) with false. change (closing quote) with false.
  change (Ascii.eqb quote c_lbrace || Ascii.eqb quote c_lbrack) with false. change (Ascii.eqb quote c_comma) with false.
  change (Ascii.eqb quote colon) with false. change (Ascii.eqb quote quote) with true. cbv iota.
  rewrite andb_true_r. unfold lead, deep. rewrite <- app_assoc. cbn [app].
  assert (E : forall k, indent ind k false QIn (esc s ++ quote :: r) = (esc s ++ [quote]) ++ indent ind k false QOut r).
  { intros k. rewrite (passes_esc_n (length s) s (le_n _)). rewrite <- app_assoc. reflexivity. }
  rewrite E. by destruct need.
Qed.

(** Letters and digits stay as they are. *)
Definition plain (c : ascii) : bool :=
  negb (is_ws c || closing c || Ascii.eqb c c_lbrace || Ascii.eqb c c_lbrack || Ascii.eqb c c_comma ||
        Ascii.eqb c colon || Ascii.eqb c quote).

Lemma plain_step ind d need c s : plain c = true ->
  indent ind d need QOut (c :: s) = lead ind d need ++ c :: indent ind (deep d need) false QOut s.
Proof.
  unfold plain. rewrite negb_true_iff, !orb_false_iff. intros ((((((H1 & H2) & H3) & H4) & H5) & H6) & H7).
  cbn [indent]. rewrite H1, H2, H3, H4, H5, H6, H7. cbn [orb negb]. rewrite andb_true_r. by destruct need.
Qed.

Lemma plain_run ind d s r : Forall (fun c => plain c = true) s ->
  indent ind d false QOut (s ++ r) = s ++ indent ind d false QOut r.
Proof.
  induction 1 as [|c s Hc _ IH]; [done|]. cbn [app]. rewrite plain_step by done. cbn [lead deep app]. by rewrite IH.
Qed.

Lemma plain_text ind d need s r : s <> [] -> Forall (fun c => plain c = true) s ->
  indent ind d need QOut (s ++ r) = lead ind d need ++ s ++ indent ind (deep d need) false QOut r.
Proof.
  destruct 2 as [|c s Hc Hs]; [done|]. cbn [app]. rewrite plain_step by done. by rewrite plain_run.
Qed.

Lemma plain_digit c : is_digit c = true -> plain c = true.
Proof. intros H. all_bytes c; first [discriminate H | reflexivity]. Qed.

Lemma plain_num z : dec_z z <> [] /\ Forall (fun c => plain c = true) (dec_z z).
Proof.
  assert (H : forall n, Forall (fun c => plain c = true) (dec n)).
  { intros n. eapply Forall_impl; [apply dec_digits|]. intros c. apply plain_digit. }
  unfold dec_z. destruct (z <? 0)%Z; (split; [|by try constructor]).
  - done.
  - apply dec_nonempty.
Qed.

Definition indents (j : json) : Prop := forall ind d need r,
  indent ind d need QOut (write_json j ++ r) =
    lead ind d need ++ write_indent ind (deep d need) j ++ indent ind (deep d need) false QOut r.

Lemma indent_open ind d need c s : Ascii.eqb c c_lbrace || Ascii.eqb c c_lbrack = true -> is_ws c = false -> closing c = false ->
  indent ind d need QOut (c :: s) = lead ind d need ++ c :: indent ind (deep d need) true QOut s.
Proof. intros H1 H2 H3. cbn [indent]. rewrite H2, H3, H1. cbn [negb]. rewrite andb_true_r. by destruct need. Qed.

Lemma indent_comma ind d s : indent ind d false QOut (c_comma :: s) = c_comma :: nlind ind d ++ indent ind d false QOut s.
Proof. reflexivity. Qed.
Lemma indent_colon ind d s : indent ind d false QOut (colon :: s) = colon :: " "%char :: indent ind d false QOut s.
Proof. reflexivity. Qed.

Lemma indent_close ind d c s : closing c = true ->
  indent ind d false QOut (c :: s) = nlind ind (pred d) ++ c :: indent ind (pred d) false QOut s.
Proof. intros H. all_bytes c; first [discriminate H | reflexivity]. Qed.
Lemma indent_close_empty ind d c s : closing c = true ->
  indent ind d true QOut (c :: s) = c :: indent ind d false QOut s.
Proof. intros H. all_bytes c; first [discriminate H | reflexivity]. Qed.

(** A non-empty list of items between brackets. *)
Lemma indent_items {A} (w : A -> bytes) (v : nat -> A -> bytes) ind d c l r :
  closing c = true -> l <> [] ->
  Forall (fun x => forall e need r, indent ind e need QOut (w x ++ r) =
    lead ind e need ++ v (deep e need) x ++ indent ind (deep e need) false QOut r) l ->
  forall need : bool, indent ind (if need then d else S d) need QOut (join_comma (map w l) ++ c :: r) =
    (if need then join_comma (map (fun x => nlind ind (S d) ++ v (S d) x) l)
     else match l with [] => [] | x :: l' => join_comma (v (S d) x :: map (fun x => nlind ind (S d) ++ v (S d) x) l') end) ++
    nlind ind d ++ c :: indent ind d false QOut r.
Proof.
  intros Hc Hne HF. induction HF as [|x l Hx HF IH]; [done|]. intros need.
  assert (Hd : deep (if need then d else S d) need = S d) by (by destruct need).
  assert (Hl : lead ind (if need then d else S d) need = if need then nlind ind (S d) else []) by (by destruct need).
  destruct l as [|y l].
  - cbn [map join_comma]. rewrite Hx, Hd, Hl. rewrite indent_close by done. cbn [pred].
    destruct need; by rewrite <- ?app_assoc.
  - change (join_comma (map w (x :: y :: l))) with (w x ++ c_comma :: join_comma (map w (y :: l))).
    rewrite <- app_assoc. rewrite Hx, Hd, Hl. rewrite <- app_comm_cons, indent_comma.
    assert (Hn : y :: l <> []) by done. specialize (IH Hn false). cbv iota in IH. rewrite IH.
    cbn [map]. destruct need; cbn [join_comma]; destruct l as [|z l]; cbn [map join_comma];
      rewrite <- ?app_assoc, <- ?app_comm_cons, <- ?app_assoc; reflexivity.
Qed.

Lemma indent_write j : indents j.
Proof.
  assert (Hne : forall A (x : A) l, x :: l <> []) by done.
  induction j as [ |b|z|s|l IH|l IH] using json_rec; intros ind d need r.
  - cbn [write_json write_indent]. apply plain_text; [done|]. repeat constructor.
  - destruct b; cbn [write_json write_indent]; (apply plain_text; [done|]; repeat constructor).
  - cbn [write_json write_indent]. destruct (plain_num z). by apply plain_text.
  - cbn [write_json write_indent]. apply indent_string.
  - cbn [write_json]. rewrite <- app_comm_cons, <- app_assoc. rewrite indent_open by done. cbn [app].
    destruct l as [|x l].
    + cbn [map join_comma app]. rewrite indent_close_empty by done. reflexivity.
    + pose proof (indent_items write_json (fun d x => write_indent ind d x) ind (deep d need) c_rbrack (x :: l) r eq_refl (Hne _ x l)) as H.
      assert (Hi : Forall (fun x => forall e need r, indent ind e need QOut (write_json x ++ r) =
        lead ind e need ++ write_indent ind (deep e need) x ++ indent ind (deep e need) false QOut r) (x :: l)).
      { eapply Forall_impl; [exact IH|]. intros y Hy e nd r'. apply Hy. }
      specialize (H Hi true). cbv iota in H. rewrite H.
      change (write_indent ind (deep d need) (JArr (x :: l))) with (c_lbrack ::
        join_comma (map (fun y => nlind ind (S (deep d need)) ++ write_indent ind (S (deep d need)) y) (x :: l)) ++ nlind ind (deep d need) ++ [c_rbrack]).
      f_equal. rewrite <- app_comm_cons, <- !app_assoc. reflexivity.
  - cbn [write_json]. rewrite <- app_comm_cons, <- app_assoc. rewrite indent_open by done. change ([c_rbrace] ++ r) with (c_rbrace :: r).
    destruct l as [|x l].
    + cbn [map join_comma app]. rewrite indent_close_empty by done. reflexivity.
    + pose proof (indent_items (fun kv : bytes * json => json_string kv.1 ++ colon :: write_json kv.2)
        (fun d kv => json_string kv.1 ++ colon :: " "%char :: write_indent ind d kv.2) ind (deep d need) c_rbrace (x :: l) r eq_refl (Hne _ x l)) as H.
      assert (Hi : Forall (fun kv : bytes * json => forall e need r,
        indent ind e need QOut ((json_string kv.1 ++ colon :: write_json kv.2) ++ r) =
        lead ind e need ++ (json_string kv.1 ++ colon :: " "%char :: write_indent ind (deep e need) kv.2) ++
        indent ind (deep e need) false QOut r) (x :: l)).
      { eapply Forall_impl; [exact IH|]. intros [k y] Hy e nd r'. cbn [fst snd] in *.
        rewrite <- app_assoc, <- app_comm_cons. rewrite indent_string, indent_colon, (Hy ind (deep e nd) false).
        cbn [lead deep app]. rewrite <- !app_assoc. reflexivity. }
      specialize (H Hi true). cbv iota in H. etransitivity; [apply (f_equal (fun z => lead ind d need ++ c_lbrace :: z)); exact H|]. cbv beta.
      change (write_indent ind (deep d need) (JObj (x :: l))) with (c_lbrace ::
        join_comma (map (fun kv => nlind ind (S (deep d need)) ++ json_string kv.1 ++ colon :: " "%char :: write_indent ind (S (deep d need)) kv.2) (x :: l)) ++
        nlind ind (deep d need) ++ [c_rbrace]).
      f_equal. rewrite <- app_comm_cons, <- !app_assoc. reflexivity.
Qed.

(** The text MarshalIndent produces. *)
Lemma marshal_indent_layout ind j : marshal_indent ind j = write_indent ind 0 j.
Proof.
  unfold marshal_indent. rewrite <- (app_nil_r (write_json j)). rewrite (indent_write j ind 0 false []). cbn [lead deep app indent].
  by rewrite app_nil_r.
Qed.

(** ** Reading the layout back *)

Definition all_ws (s : bytes) : Prop := Forall (fun c => is_ws c = true) s.

Lemma skip_ws_app s r : all_ws s -> skip_ws (s ++ r) = skip_ws r.
Proof. induction 1 as [|c s Hc _ IH]; [done|]. cbn [app skip_ws]. by rewrite Hc. Qed.

Lemma nlind_ws ind d : all_ws ind -> all_ws (nlind ind d).
Proof.
  intros H. unfold nlind. constructor; [done|]. induction d as [|d IH]; cbn [replicate concat]; [constructor|].
  apply Forall_app. by split.
Qed.

Lemma skip_nlind ind d r : all_ws ind -> skip_ws (nlind ind d ++ r) = skip_ws r.
Proof. intros H. apply skip_ws_app. by apply nlind_ws. Qed.

Lemma read_value_ws f s t : skip_ws s = skip_ws t -> read_value f s = read_value f t.
Proof. intros H. destruct f; [done|]. cbn [read_value]. by rewrite H. Qed.

Lemma read_value_nlind f ind d s : all_ws ind -> read_value f (nlind ind d ++ s) = read_value f s.
Proof. intros H. apply read_value_ws. by apply skip_nlind. Qed.

Lemma indent_head ind d j : exists c t, write_indent ind d j = c :: t /\ is_ws c = false /\
  Ascii.eqb c c_rbrack = false /\ Ascii.eqb c c_rbrace = false.
Proof.
  destruct j as [ |b|z|s|l|l].
  1-4: apply write_head.
  - destruct l; cbn [write_indent]; by do 2 eexists.
  - destruct l; cbn [write_indent]; by do 2 eexists.
Qed.

Definition reads_at (ind : bytes) (j : json) : Prop := forall d f r, depth j <= f -> stops r ->
  read_value f (write_indent ind d j ++ r) = Some (clean_json j, r).

Lemma stops_nlind ind d r : stops (nlind ind d ++ r). Proof. done. Qed.

Lemma read_elems_indent ind d l f r : all_ws ind ->
  l <> [] -> Forall (reads_at ind) l -> fold_right (fun j n => S (depth j + n)) 0 l <= f ->
  read_elems f (join_comma (map (fun x => nlind ind (S d) ++ write_indent ind (S d) x) l) ++ nlind ind d ++ c_rbrack :: r) =
    Some (map clean_json l, r).
Proof.
  intros Hw Hne Hl. revert f. induction Hl as [|j l Hj Hl IH]; intros f Hf; [done|].
  cbn [fold_right] in Hf. destruct f as [|f]; [lia|]. cbn [read_elems map].
  destruct l as [|j2 l].
  - cbn [join_comma map]. rewrite <- app_assoc, read_value_nlind by done.
    rewrite (Hj _ f) by (simpl in Hf; lia || apply stops_nlind). rewrite skip_nlind by done.
    rewrite skip_ws_head by done. reflexivity.
  - set (g := fun x => nlind ind (S d) ++ write_indent ind (S d) x).
    assert (Hjc : join_comma (g j :: map g (j2 :: l)) ++ nlind ind d ++ c_rbrack :: r =
      nlind ind (S d) ++ write_indent ind (S d) j ++ c_comma :: (join_comma (map g (j2 :: l)) ++ nlind ind d ++ c_rbrack :: r)).
    { cbn [join_comma map]. unfold g at 1. by rewrite <- !app_assoc. }
    unfold g in Hjc at 1. rewrite Hjc. rewrite read_value_nlind by done.
    rewrite (Hj _ f); [|lia|apply stops_comma]. rewrite skip_ws_head by done.
    change (Ascii.eqb c_comma c_comma) with true. cbv iota. unfold g. rewrite IH; [reflexivity|done|lia].
Qed.

Lemma read_members_indent ind d l f r : all_ws ind ->
  l <> [] -> Forall (fun kv : bytes * json => reads_at ind kv.2) l ->
  fold_right (fun (kv : bytes * json) n => S (depth kv.2 + n)) 0 l <= f ->
  read_members f (join_comma (map (fun kv => nlind ind (S d) ++ json_string kv.1 ++ colon :: " "%char :: write_indent ind (S d) kv.2) l) ++
      nlind ind d ++ c_rbrace :: r) =
    Some (map (fun kv => (sanitize kv.1, clean_json kv.2)) l, r).
Proof.
  intros Hw Hne Hl. revert f. induction Hl as [|[k j] l Hj Hl IH]; intros f Hf; [done|].
  cbn [fold_right snd] in Hf. destruct f as [|f]; [lia|]. cbn [snd] in Hj.
  set (g := fun kv : bytes * json => nlind ind (S d) ++ json_string kv.1 ++ colon :: " "%char :: write_indent ind (S d) kv.2) in *.
  set (tl := match l with [] => nlind ind d ++ c_rbrace :: r | _ => c_comma :: (join_comma (map g l) ++ nlind ind d ++ c_rbrace :: r) end).
  assert (Hjc : join_comma (map g ((k, j) :: l)) ++ nlind ind d ++ c_rbrace :: r =
    nlind ind (S d) ++ quote :: (esc k ++ quote :: (colon :: " "%char :: (write_indent ind (S d) j ++ tl)))).
  { unfold tl. destruct l as [|kv l]; cbn [join_comma map]; unfold g at 1; cbn [fst snd]; unfold json_string;
      rewrite <- !app_assoc, <- ?app_comm_cons, <- !app_assoc, <- ?app_comm_cons, <- ?app_assoc; reflexivity. }
  rewrite Hjc. cbn [read_members]. rewrite skip_nlind by done. rewrite skip_ws_head by done.
  change (Ascii.eqb quote quote) with true. cbv iota. rewrite esc_round. rewrite skip_ws_head by done.
  change (Ascii.eqb colon colon) with true. cbv iota.
  assert (Hst : stops tl) by (unfold tl; destruct l; [apply stops_nlind|apply stops_comma]).
  rewrite (read_value_ws f (" "%char :: write_indent ind (S d) j ++ tl) (write_indent ind (S d) j ++ tl)) by reflexivity.
  rewrite (Hj _ f); [|lia|done].
  unfold tl. destruct l as [|kv l].
  - rewrite skip_nlind by done. rewrite skip_ws_head by done. reflexivity.
  - rewrite skip_ws_head by done. change (Ascii.eqb c_comma c_comma) with true. cbv iota.
    rewrite IH; [reflexivity|done|lia].
Qed.

Lemma read_indent ind j : all_ws ind -> reads_at ind j.
Proof.
  intros Hw. induction j as [ |b|z|s|l IH|l IH] using json_rec; intros d f r Hf Hr.
  - by apply (read_write JNull).
  - by apply (read_write (JBool b)).
  - by apply (read_write (JNum z)).
  - by apply (read_write (JStr s)).
  - destruct l as [|j l]; [by apply (read_write (JArr []))|]. destruct f as [|f]; [simpl in Hf; lia|].
    set (g := fun x => nlind ind (S d) ++ write_indent ind (S d) x).
    change (write_indent ind d (JArr (j :: l))) with (c_lbrack :: join_comma (map g (j :: l)) ++ nlind ind d ++ [c_rbrack]).
    rewrite <- app_comm_cons, <- !app_assoc. cbn [app]. cbn [read_value].
    rewrite skip_ws_head by done. change (Ascii.eqb c_lbrack quote) with false.
    change (Ascii.eqb c_lbrack c_lbrace) with false. change (Ascii.eqb c_lbrack c_lbrack) with true. cbv iota.
    assert (Hh : exists c t, skip_ws (join_comma (map g (j :: l)) ++ nlind ind d ++ c_rbrack :: r) = c :: t /\
      Ascii.eqb c c_rbrack = false).
    { destruct (indent_head ind (S d) j) as (c & t & E & H1 & H2 & _). cbn [map].
      destruct l; cbn [map join_comma]; unfold g at 1; rewrite <- !app_assoc, skip_nlind by done; rewrite E;
        rewrite <- ?app_comm_cons, skip_ws_head by done; by do 2 eexists. }
    destruct Hh as (c & t & E & H2). rewrite E, H2.
    cbn [depth] in Hf. unfold g. rewrite read_elems_indent; [reflexivity|done|done|done|lia].
  - destruct l as [|kv l]; [by apply (read_write (JObj []))|]. destruct f as [|f]; [simpl in Hf; lia|].
    set (g := fun kv : bytes * json => nlind ind (S d) ++ json_string kv.1 ++ colon :: " "%char :: write_indent ind (S d) kv.2).
    change (write_indent ind d (JObj (kv :: l))) with (c_lbrace :: join_comma (map g (kv :: l)) ++ nlind ind d ++ [c_rbrace]).
    rewrite <- app_comm_cons, <- !app_assoc. cbn [app]. cbn [read_value].
    rewrite skip_ws_head by done. change (Ascii.eqb c_lbrace quote) with false.
    change (Ascii.eqb c_lbrace c_lbrace) with true. cbv iota.
    assert (Hh : exists t, skip_ws (join_comma (map g (kv :: l)) ++ nlind ind d ++ c_rbrace :: r) = quote :: t).
    { cbn [map]. destruct l; cbn [map join_comma]; unfold g at 1; rewrite <- !app_assoc, skip_nlind by done; unfold json_string;
        rewrite <- ?app_comm_cons, skip_ws_head by done; by eexists. }
    destruct Hh as (t & E). rewrite E. change (Ascii.eqb quote c_rbrace) with false. cbv iota.
    cbn [depth] in Hf. unfold g. rewrite read_members_indent; [reflexivity|done|done|done|lia].
Qed.

(** The layout is longer than the reading is deep. *)
Lemma depth_indent ind d j : depth j <= length (write_indent ind d j).
Proof.
  revert d. induction j as [ |b|z|s|l IH|l IH] using json_rec; intros d.
  - apply (depth_length JNull).
  - apply (depth_length (JBool b)).
  - apply (depth_length (JNum z)).
  - apply (depth_length (JStr s)).
  - destruct l as [|x l]; [apply (depth_length (JArr []))|].
    set (g := fun x => nlind ind (S d) ++ write_indent ind (S d) x).
    change (write_indent ind d (JArr (x :: l))) with (c_lbrack :: join_comma (map g (x :: l)) ++ nlind ind d ++ [c_rbrack]).
    cbn [depth length]. rewrite !app_length. cbn [length].
    pose proof (join_length (map g (x :: l))) as Hj.
    assert (Hs : fold_right (fun j n => S (depth j + n)) 0 (x :: l) <= fold_right (fun x n => S (length x + n)) 0 (map g (x :: l))).
    { clear Hj. induction IH as [|j l' H1 H2 IH2]; cbn [fold_right map]; [lia|].
      assert (depth j <= length (g j)) by (unfold g; rewrite app_length; specialize (H1 (S d)); lia). lia. }
    lia.
  - destruct l as [|x l]; [apply (depth_length (JObj []))|].
    set (g := fun kv : bytes * json => nlind ind (S d) ++ json_string kv.1 ++ colon :: " "%char :: write_indent ind (S d) kv.2).
    change (write_indent ind d (JObj (x :: l))) with (c_lbrace :: join_comma (map g (x :: l)) ++ nlind ind d ++ [c_rbrace]).
    cbn [depth length]. rewrite !app_length. cbn [length].
    pose proof (join_length (map g (x :: l))) as Hj.
    assert (Hs : fold_right (fun (kv : bytes * json) n => S (depth kv.2 + n)) 0 (x :: l) <= fold_right (fun x n => S (length x + n)) 0 (map g (x :: l))).
    { clear Hj. induction IH as [|j l' H1 H2 IH2]; cbn [fold_right map]; [lia|].
      assert (depth j.2 <= length (g j)) by (unfold g; rewrite !app_length; cbn [length]; specialize (H1 (S d)); lia). lia. }
    lia.
Qed.

(** Indented documents read back: json.Unmarshal of MarshalIndent. *)
Lemma marshal_indent_round ind j : all_ws ind -> read_json (marshal_indent ind j) = Some (clean_json j).
Proof.
  intros Hw. rewrite marshal_indent_layout. unfold read_json. pose proof (depth_indent ind 0 j) as Hd.
  rewrite <- (app_nil_r (write_indent ind 0 j)) at 2.
  rewrite (read_indent ind j Hw); [reflexivity|lia|done].
Qed.

(** A stream of documents reads back. *)
Lemma encode_stream ind l : all_ws ind -> read_stream (concat (map (encode_indent ind) l)) = Some (map clean_json l).
Proof.
  intros Hw. unfold read_stream. set (s := concat (map (encode_indent ind) l)).
  assert (Hnl : forall n f s, read_docs n f ([newline] ++ s) = read_docs n f s).
  { clear. intros n f s. destruct f; cbn [read_docs]; (change (skip_ws ([newline] ++ s)) with (skip_ws s)); [done|].
    destruct (skip_ws s); [done|]. by rewrite (read_value_ws n ([newline] ++ s) s eq_refl). }
  assert (H : forall n f l, length l <= f -> Forall (fun j => depth j <= n) l ->
    read_docs n f (concat (map (encode_indent ind) l)) = Some (map clean_json l)).
  { intros n f l' Hf Hn. revert f Hf. induction Hn as [|j l' Hj _ IH]; intros f Hf; [by destruct f|].
    cbn [length] in Hf. destruct f as [|f]; [lia|]. cbn [map concat]. unfold encode_indent at 1. rewrite marshal_indent_layout.
    rewrite <- !app_assoc. destruct (indent_head ind 0 j) as (c & t & E & Hc & _).
    cbn [read_docs]. rewrite E at 1. rewrite <- app_comm_cons, skip_ws_head by done.
    rewrite (read_indent ind j Hw); [|done|done]. rewrite Hnl, IH by lia. done. }
  assert (Hle : Forall (fun j => depth j <= length s) l /\ length l <= length s).
  { unfold s. clear. induction l as [|j l [IH1 IH2]]; [done|]. cbn [map concat length]. unfold encode_indent at 1 3.
    rewrite marshal_indent_layout, !app_length. pose proof (depth_indent ind 0 j). cbn [length].
    split; [|lia]. constructor; [lia|]. eapply Forall_impl; [exact IH1|]. simpl. lia. }
  destruct Hle as [H1 H2]. apply H; [lia|]. eapply Forall_impl; [exact H1|]. simpl. lia.
Qed.
