(** Theorems: string literals and the texts of declarations (C71, C119). *)
From Verif Require Import Bytes Here GoTypes Disk Decls GoQuote JsonStr Source Quote PropsParser PropsSource.

(** *** C71: every literal is read as Go reads it *)

Theorem C71_every text s : literal text s -> unquote text = Some s.
Proof. apply unquote_literal. Qed.

(** Two bytes é, a tab, the letter A as an octal escape, é as a \u escape, one
    raw byte. *)
Definition every_text : bytes :=
  quote :: ([ascii_of_N 195; ascii_of_N 169] ++ B"\t\101\u00E9\xfF") ++ [quote].
Definition every_value : bytes :=
  [ascii_of_N 195; ascii_of_N 169; ascii_of_N 9; ascii_of_N 65; ascii_of_N 195; ascii_of_N 169; ascii_of_N 255].
Lemma hn_cons4 a b c d (x y z t : nat) :
  B"0123456789abcdef" !! x = Some a \/ B"0123456789ABCDEF" !! x = Some a ->
  B"0123456789abcdef" !! y = Some b \/ B"0123456789ABCDEF" !! y = Some b ->
  B"0123456789abcdef" !! z = Some c \/ B"0123456789ABCDEF" !! z = Some c ->
  B"0123456789abcdef" !! t = Some d \/ B"0123456789ABCDEF" !! t = Some d ->
  hexnum [a; b; c; d] ((((0 * 16 + N.of_nat x) * 16 + N.of_nat y) * 16 + N.of_nat z) * 16 + N.of_nat t)%N.
Proof.
  intros Ha Hb Hc Hd. apply (hn_snoc [a; b; c] _ d t); [|done]. apply (hn_snoc [a; b] _ c z); [|done].
  apply (hn_snoc [a] _ b y); [|done]. apply (hn_snoc [] _ a x); [constructor|done].
Qed.
Example C71_every_ex : literal every_text every_value /\ unquote every_text = Some every_value /\
  literal (backquote :: [ascii_of_N 97; carriage; bsl] ++ [backquote]) [ascii_of_N 97; bsl].
Proof.
  assert (H : literal every_text every_value).
  { apply lt_interpreted. apply (l_char 233 [ascii_of_N 195; ascii_of_N 169]); [by apply (ch_2 (ascii_of_N 195) (ascii_of_N 169))|done..|].
    apply (l_simple "t"%char 9); [by vm_compute; repeat constructor|].
    apply (l_octal 1 0 1); [done|].
    apply (l_u (B"00E9") 233 [ascii_of_N 195; ascii_of_N 169]);
      [apply (hn_cons4 _ _ _ _ 0 0 14 9); by (left + right)|done|by apply (ch_2 (ascii_of_N 195) (ascii_of_N 169))|].
    apply (l_hex (B"fF") 255 []); [|done|constructor].
    apply (hn_snoc (B"f") 15 "F"%char 15); [apply (hn_snoc [] 0 "f"%char 15); [constructor|by left]|by right]. }
  split; [done|]. split; [by apply C71_every|]. apply (lt_raw [ascii_of_N 97; carriage; bsl]).
  rewrite !elem_of_cons, elem_of_nil. by intros [?|[?|[?|[]]]].
Qed.

(** *** C119: an Include or Stat declaration shows the call that makes it *)

Section Shown.
  Context (parse : resolver) (hdir hpkg : bytes -> res hinfo) (objs : nat -> object) (other : N -> bool).

  (** The text is the call, with a literal whose value is the declaration's. *)
  Theorem C119_text v :
    (exists l, include_string other v = B"pkger.Include(" ++ l ++ B")" /\ literal l v) /\
    (exists l, stat_string other v = B"pkger.Stat(" ++ l ++ B")" /\ literal l v).
  Proof. split; (eexists; split; [reflexivity|]); apply lt_interpreted, q_lit. Qed.

  (** Any source that makes the call shown gets the declaration back. *)
  Theorem C119_again k (name : bytes) abs v f l obj fuel :
    (k, name) ∈ [(KInclude, B"Include"); (KStat, B"Stat")] ->
    (match k with KInclude => include_string other v | _ => stat_string other v end) = B"pkger." ++ name ++ B"(" ++ l ++ B")" ->
    locate parse hdir hpkg abs v = Ok f ->
    decls_map parse hdir hpkg objs (S fuel) abs (ACall (ASel (AIdent (B"pkger") obj) name) [ALit l]) =
      Done ([Decl k f v], None).
  Proof.
    intros Hk Hl Hf.
    assert (l = go_quote other v) as ->.
    { rewrite !elem_of_cons, elem_of_nil in Hk. destruct Hk as [[= -> ->]|[[= -> ->]|[]]];
      unfold include_string, stat_string in Hl; change (B"pkger." ++ ?n ++ B"(" ++ l ++ B")") with ((B"pkger." ++ n ++ B"(") ++ l ++ B")") in Hl; symmetry in Hl; by apply app_inv_head, app_inv_tail in Hl. }
    assert (Hu : unquote (go_quote other v) = Some v) by (apply unquote_literal, lt_interpreted, q_lit).
    rewrite !elem_of_cons, elem_of_nil in Hk. destruct Hk as [[= -> ->]|[[= -> ->]|[]]];
      unfold decls_map; cbn [scan pkger_call]; rewrite bool_decide_eq_true_2 by done;
      [change (kind_of (B"Include")) with (Some KInclude)|change (kind_of (B"Stat")) with (Some KStat)];
      cbn [visit_call value_node]; rewrite Hu, Hf; by cbn.
  Qed.
End Shown.

(** A name with a quote, a tab, é and a byte that is not UTF-8. *)
Definition odd_name : bytes :=
  B"/a" ++ [quote; ascii_of_N 9; ascii_of_N 195; ascii_of_N 169; ascii_of_N 255] ++ B".txt".
Example C119_ex :
  include_string (fun _ => true) odd_name =
    B"pkger.Include(" ++ quote :: B"/a\" ++ quote :: B"\t" ++ [ascii_of_N 195; ascii_of_N 169] ++ B"\xff.txt" ++ quote :: B")" /\
  stat_string (fun _ => false) odd_name =
    B"pkger.Stat(" ++ quote :: B"/a\" ++ quote :: B"\t\u00e9\xff.txt" ++ quote :: B")" /\
  exists f, locate here_parse wit_hdir no_pkg wit_abs odd_name = Ok f.
Proof. split; [by vm_compute|]. split; [by vm_compute|]. eexists. by vm_compute. Qed.
