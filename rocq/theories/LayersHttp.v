(** http.FileServer(pkger.Dir(d)) on a stack of in-memory layers:
    /repo/pkger.go:33-39 on top of /repo/pkging/wrap.go:88-97 and
    /repo/pkging/mem/file.go.  The directory is opened through the stack; what
    is then asked of it goes to the File of the layer that answered. *)
From Verif Require Import Bytes GoPath Here GoTypes GoNum GoTimeFmt Mem MemSpec MemBase Wrap Layers Http.

(** File.Open (mem/file.go:170-203) on a handle of one of the layers. *)
Definition layer_file_open (parse : resolver) (w : world) (h : hfile) (name : bytes) : world * res hfile :=
  at_layer h.1 (Err EBadHandle) (fun m => let '(m, r) := file_open parse m h.2 name in (m, wrap_ref h.1 r)) w.

(** pkger.Dir.Open, pkger.go:33-39. *)
Definition stack_dir_open (parse : resolver) (disk : pkger world hfile details) (current : option (pkger world hfile details))
    (d : bytes) (w : world) (name : bytes) : world * res hfile :=
  match dir_open disk current d w with
  | (w, Err e) => (w, Err e)
  | (w, Ok h) => layer_file_open parse w h name
  end.

(** http.FileServer(pkger.Dir(d)); the methods of the Files as in [mem_hfs]. *)
Definition stack_server (parse : resolver) (now : gotime) (disk : pkger world hfile details)
    (current : option (pkger world hfile details)) (d : bytes) : hfs world hfile := {|
  o_open := fun w name =>
    match stack_dir_open parse disk current d w name with
    | (w, Ok h) => (w, inl h)
    | (w, Err e) => (w, inr (mem_ferr e))
    end;
  o_stat := fun w h => match m ← w_mems w !! h.1; info_at m h.2 with Some d => inl d | None => inr FOther end;
  o_list := fun w h =>
    match w_mems w !! h.1 with
    | Some m => match readdir parse m h.2 (-1) with (l, None) => Some l | _ => None end
    | None => None
    end;
  o_read := fun w h n =>
    let '(w, x) := at_layer h.1 ([], Some EBadHandle) (fun m => file_read m h.2 n) w in (w, h, x);
  o_seek := fun w h off =>
    let '(w, (_, e)) := at_layer h.1 (0%Z, Some EBadHandle) (fun m => file_seek m h.2 off 0) w in
    (w, h, match e with None => true | _ => false end);
  o_close := fun w h => (at_layer h.1 None (fun m => file_close now m h.2) w).1
|}.

(** ** One file system inside another *)

(** If the methods of [F2] on states [up s] do what those of [F1] do on [s],
    serving from [F2] is serving from [F1]. *)
Record inside_of {S1 H1 S2 H2} (F1 : hfs S1 H1) (F2 : hfs S2 H2) (P : S1 -> Prop) (up : S1 -> S2) (hup : H1 -> H2) : Prop := {
  io_open s n : P s -> o_open F2 (up s) n =
    (up (o_open F1 s n).1, match (o_open F1 s n).2 with inl h => inl (hup h) | inr e => inr e end) /\ P (o_open F1 s n).1;
  io_stat s h : P s -> o_stat F2 (up s) (hup h) = o_stat F1 s h;
  io_list s h : P s -> o_list F2 (up s) (hup h) = o_list F1 s h;
  io_read s h n : P s -> o_read F2 (up s) (hup h) n =
    (up (o_read F1 s h n).1.1, hup (o_read F1 s h n).1.2, (o_read F1 s h n).2) /\ P (o_read F1 s h n).1.1;
  io_seek s h n : P s -> o_seek F2 (up s) (hup h) n =
    (up (o_seek F1 s h n).1.1, hup (o_seek F1 s h n).1.2, (o_seek F1 s h n).2) /\ P (o_seek F1 s h n).1.1;
  io_close s h : P s -> o_close F2 (up s) (hup h) = up (o_close F1 s h) /\ P (o_close F1 s h)
}.

Section Inside.
  Context {S1 H1 S2 H2} (F1 : hfs S1 H1) (F2 : hfs S2 H2) (P : S1 -> Prop) (up : S1 -> S2) (hup : H1 -> H2).
  Context (IO : inside_of F1 F2 P up hup).
  Context (mime sniff : bytes -> bytes) (boundary : bytes) (bufsize : nat).

  Lemma copy_n_inside fuel buf s h left : P s ->
    let x := copy_n F1 fuel buf s h left in
    copy_n F2 fuel buf (up s) (hup h) left = (up x.1.1, hup x.1.2, x.2) /\ P x.1.1.
  Proof.
    revert s h left. induction fuel as [|fuel IH]; intros s h left Hp; [done|]. cbn [copy_n]. destruct left as [|left]; [done|].
    destruct (io_read _ _ _ _ _ IO s h (Nat.min buf (S left)) Hp) as [-> Hp'].
    destruct (o_read F1 s h (Nat.min buf (S left))) as [[s1 h1] [b e]]. cbn [fst snd] in *.
    destruct e as [e|]; [done|]. destruct (IH s1 h1 (S left - length b) Hp') as [-> Hp2].
    by destruct (copy_n F1 fuel buf s1 h1 (S left - length b)) as [[s2 h2] b2].
  Qed.

  Lemma write_parts_inside l first ctype size s h : P s ->
    let x := write_parts F1 boundary bufsize first ctype size s h l in
    write_parts F2 boundary bufsize first ctype size (up s) (hup h) l = (up x.1.1, hup x.1.2, x.2) /\ P x.1.1.
  Proof.
    revert first s h. induction l as [|r l IH]; intros first s h Hp; [done|]. cbn [write_parts].
    destruct (io_seek _ _ _ _ _ IO s h (g_start r) Hp) as [-> Hp'].
    destruct (o_seek F1 s h (g_start r)) as [[s1 h1] ok]. cbn [fst snd] in *. destruct ok; [|done].
    destruct (copy_n_inside (1 + Z.to_nat (g_len r)) bufsize s1 h1 (Z.to_nat (g_len r)) Hp') as [-> Hp2].
    destruct (copy_n F1 (1 + Z.to_nat (g_len r)) bufsize s1 h1 (Z.to_nat (g_len r))) as [[s2 h2] b]. cbn [fst snd] in *.
    case_match; [done|]. destruct (IH false s2 h2 Hp2) as [-> Hp3].
    by destruct (write_parts F1 boundary bufsize false ctype size s2 h2 l) as [[s3 h3] b3].
  Qed.

  Lemma serve_content_inside q d s h : P s ->
    let x := serve_content F1 mime sniff boundary bufsize q d s h in
    serve_content F2 mime sniff boundary bufsize q d (up s) (hup h) = (up x.1, x.2) /\ P x.1.
  Proof.
    intros Hp. unfold serve_content. case_match; [done|].
    set (T1 := match mime (path_ext (d_name d)) with [] => _ | _ => (s, h, _, true) end).
    set (T2 := match mime (path_ext (d_name d)) with [] => _ | _ => (up s, hup h, _, true) end).
    assert (HT : T2 = (up T1.1.1.1, hup T1.1.1.2, T1.1.2, T1.2) /\ P T1.1.1.1).
    { subst T1 T2. destruct (mime (path_ext (d_name d))); [|done].
      destruct (copy_n_inside 513 512 s h 512 Hp) as [-> Hp1]. destruct (copy_n F1 513 512 s h 512) as [[s1 h1] b]. cbn [fst snd] in *.
      destruct (io_seek _ _ _ _ _ IO s1 h1 0%Z Hp1) as [-> Hp2]. by destruct (o_seek F1 s1 h1 0) as [[s2 h2] ok]. }
    clearbody T1 T2. destruct T1 as [[[s1 h1] ctype] ok]. cbn [fst snd] in HT. destruct HT as [-> Hp1].
    destruct (negb ok); [done|]. cbv zeta. destruct (d_size d <? 0)%Z; [done|].
    destruct (parse_range (q_range q) (d_size d)) as [l| |]; try done.
    match goal with |- context [match ?x with [] => _ | _ => _ end] => set (L := x) end. clearbody L.
    destruct L as [|r [|r2 L]].
    - destruct (q_head q); [done|].
      destruct (copy_n_inside (1 + Z.to_nat (d_size d)) bufsize s1 h1 (Z.to_nat (d_size d)) Hp1) as [-> Hp2].
      by destruct (copy_n F1 _ _ s1 h1 _) as [[s2 h2] b].
    - destruct (io_seek _ _ _ _ _ IO s1 h1 (g_start r) Hp1) as [-> Hp2]. destruct (o_seek F1 s1 h1 (g_start r)) as [[s2 h2] ok2]. cbn [fst snd] in *.
      destruct ok2; [|done]. destruct (q_head q); [done|].
      destruct (copy_n_inside (1 + Z.to_nat (g_len r)) bufsize s2 h2 (Z.to_nat (g_len r)) Hp2) as [-> Hp3].
      by destruct (copy_n F1 _ _ s2 h2 _) as [[s3 h3] b].
    - destruct (write_parts_inside (r :: r2 :: L) true ctype (d_size d) s1 h1 Hp1) as [-> Hp2].
      by destruct (write_parts F1 boundary bufsize true ctype (d_size d) s1 h1 (r :: r2 :: L)) as [[s2 h2] b].
  Qed.

  Lemma dir_list_inside hd s h : P s -> dir_list F2 hd (up s) (hup h) = dir_list F1 hd s h.
  Proof. intros Hp. unfold dir_list. by rewrite (io_list _ _ _ _ _ IO). Qed.

  Lemma serve_opened_inside q name url s h : P s ->
    let x := serve_opened F1 mime sniff boundary bufsize q name url s h in
    serve_opened F2 mime sniff boundary bufsize q name url (up s) (hup h) = (up x.1, x.2) /\ P x.1.
  Proof.
    intros Hp. unfold serve_opened. rewrite (io_stat _ _ _ _ _ IO) by done.
    destruct (o_stat F1 s h) as [d|e]; [|done]. case_match; [done|]. case_match; [done|]. case_match; [by apply serve_content_inside|].
    destruct (io_open _ _ _ _ _ IO s (trim_slash name ++ index_page) Hp) as [-> Hp1].
    destruct (o_open F1 s (trim_slash name ++ index_page)) as [s1 [h2|e]]; cbn [fst snd] in *.
    - rewrite (io_stat _ _ _ _ _ IO) by done. destruct (o_stat F1 s1 h2) as [d2|e].
      + destruct (d_isdir d2).
        * destruct (unmodified q (d_mtime d2)); [|rewrite dir_list_inside by done];
            (destruct (io_close _ _ _ _ _ IO s1 h2 Hp1) as [-> Hp3]; done).
        * destruct (serve_content_inside q d2 s1 h2 Hp1) as [-> Hp2].
          destruct (serve_content F1 mime sniff boundary bufsize q d2 s1 h2) as [s2 r]. cbn [fst snd] in *.
          destruct (io_close _ _ _ _ _ IO s2 h2 Hp2) as [-> Hp3]. done.
      + destruct (unmodified q (d_mtime d)); [|rewrite dir_list_inside by done];
          (destruct (io_close _ _ _ _ _ IO s1 h2 Hp1) as [-> Hp3]; done).
    - destruct (unmodified q (d_mtime d)); [done|]. by rewrite dir_list_inside.
  Qed.

  Lemma serve_inside q s : P s ->
    let x := serve F1 mime sniff boundary bufsize q s in
    serve F2 mime sniff boundary bufsize q (up s) = (up x.1, x.2) /\ P x.1.
  Proof.
    intros Hp. unfold serve. cbv zeta. destruct (has_suffix _ index_page); [done|].
    match goal with |- context [o_open F1 s ?n] => set (name := n) end.
    destruct (io_open _ _ _ _ _ IO s name Hp) as [-> Hp1].
    destruct (o_open F1 s name) as [s1 [h|e]]; cbn [fst snd] in *; [|done].
    match goal with |- context [serve_opened F1 _ _ _ _ q name ?u s1 h] => destruct (serve_opened_inside q name u s1 h Hp1) as [-> Hp2] end.
    destruct (serve_opened F1 mime sniff boundary bufsize q name _ s1 h) as [s2 r]. cbn [fst snd] in *.
    destruct (io_close _ _ _ _ _ IO s2 h Hp2) as [-> Hp3]. done.
  Qed.

  Lemma serve_all_inside qs s : P s ->
    let x := serve_all F1 mime sniff boundary bufsize qs s in
    serve_all F2 mime sniff boundary bufsize qs (up s) = (up x.1, x.2) /\ P x.1.
  Proof.
    revert s. induction qs as [|q qs IH]; intros s Hp; [done|]. cbn [serve_all].
    destruct (serve_inside q s Hp) as [-> Hp1]. destruct (serve F1 mime sniff boundary bufsize q s) as [s1 r]. cbn [fst snd] in *.
    destruct (IH s1 Hp1) as [-> Hp2]. by destruct (serve_all F1 mime sniff boundary bufsize qs s1) as [s2 rs].
  Qed.
End Inside.
