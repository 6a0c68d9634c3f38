(** How encoding/json (Go 1.13, decode.go) stores a text into the structs of
    this code: pkging/embed/{embed,file}.go, pkging/{file_info,mod_time}.go and
    the dependency's here.Info, here.Module, here.Path.

    A member of an object belongs to the field whose name its key is, ignoring
    case (decode.go:687-702).  A field may be given several times; [given] lists
    the values in the order of the text.  null leaves strings, numbers, booleans
    and structs as they are and clears pointers, maps, slices and interfaces; a
    further object is decoded into the struct or map already there.

    A value stored in an interface{} is kept as the JSON that it would be
    written as: the members of an object, a map in Go, are listed by key.

    Simplifications: numbers in Sys that are not integers are refused (Go makes
    them float64; integers are exact there up to 2^53); null in an array given
    for a []byte counts as 0.  nil and []byte{} are one value, written as null. *)
From Verif Require Import Bytes GoPath Here GoTypes Mem GoNum GoTimeFmt JsonStr JsonText Base64 Embed JsonSpec RawJson.

(** ** Field names *)

Definition lower (c : ascii) : ascii := if between 65 c 90 then ascii_of_N (code c + 32) else c.

(** A key up to letter case: foldFunc, fold.go:28-110.  For s and k also the
    letters U+017F and U+212A count. *)
Fixpoint fold_key (s : bytes) : bytes :=
  match s with
  | [] => []
  | a :: t =>
      match t with
      | [] => [lower a]
      | b :: u =>
          if (code a =? 197)%N && (code b =? 191)%N then "s"%char :: fold_key u
          else
            match u with
            | [] => lower a :: fold_key t
            | c :: v =>
                if (code a =? 226)%N && (code b =? 132)%N && (code c =? 170)%N then "k"%char :: fold_key v
                else lower a :: fold_key t
            end
      end
  end.

Definition given (k : bytes) (l : list (bytes * rjson)) : list rjson :=
  (filter (fun kv : bytes * rjson => fold_key kv.1 = fold_key k) l).*2.

(** ** Values *)

(** The value of a string's spelling. *)
Definition str_val (raw : bytes) : option bytes :=
  match unesc (raw ++ [quote]) with Some (v, _) => Some v | None => None end.
(** strconv.ParseInt, ParseUint of a number's spelling. *)
Definition int_val (raw : bytes) : option Z :=
  match read_num raw with Some (JNum z, []) => Some z | _ => None end.
Definition uint_val (raw : bytes) : option N :=
  match read_nat raw with Some (n, []) => Some n | _ => None end.

(** What one value does to a variable: fail, leave it, or set it. *)
Fixpoint settle {A} (f : rjson -> option (option A)) (x : A) (l : list rjson) : option A :=
  match l with
  | [] => Some x
  | j :: l => match f j with None => None | Some None => settle f x l | Some (Some y) => settle f y l end
  end.

Definition r_str : list rjson -> option bytes :=
  settle (fun j => match j with RNull => Some None | RStr w => Some <$> str_val w | _ => None end) [].
Definition r_bool : list rjson -> option bool :=
  settle (fun j => match j with RNull => Some None | RBool b => Some (Some b) | _ => None end) false.
(** int64 and uint32: decode.go:943-967. *)
Definition in_range {A} (b : bool) (x : A) : option (option A) := if b then Some (Some x) else None.
Definition r_int64 : list rjson -> option Z :=
  settle (fun j => match j with
                   | RNull => Some None
                   | RNum w => z ← int_val w; in_range ((- 2^63 <=? z)%Z && (z <? 2^63)%Z) z
                   | _ => None end) 0%Z.
Definition r_uint32 : list rjson -> option N :=
  settle (fun j => match j with
                   | RNull => Some None
                   | RNum w => n ← uint_val w; in_range (n <? 2^32)%N n
                   | _ => None end) 0%N.

Definition zero_time : gotime := GoTime (-62135596800) 0 0.
(** ModTime.UnmarshalJSON, mod_time.go:17-24: time.Time.UnmarshalJSON leaves a
    zero time alone for null, and parses the spelling, not the value, of a
    string. *)
Definition r_time : list rjson -> option gotime :=
  settle (fun j => match j with RNull => Some (Some zero_time) | RStr w => Some <$> parse_time w | _ => None end) zero_time.

(** A []byte: base64 (decode.go:911-919), or an array of numbers. *)
Fixpoint r_octets (l : list rjson) : option bytes :=
  match l with
  | [] => Some []
  | RNull :: l => cons (ascii_of_N 0) <$> r_octets l
  | RNum w :: l => n ← uint_val w; if (n <? 256)%N then cons (ascii_of_N n) <$> r_octets l else None
  | _ => None
  end.
Definition r_bytes : list rjson -> option bytes :=
  settle (fun j => match j with
                   | RNull => Some (Some [])
                   | RStr w => v ← str_val w; Some <$> b64_decode v
                   | RArr l => Some <$> r_octets l
                   | _ => None end) [].

(** The members of a map[string]interface{}, as json.Marshal will write them:
    by key, and a key given again has the last value. *)
Fixpoint put_member (k : bytes) (x : json) (l : list (bytes * json)) : list (bytes * json) :=
  match l with
  | [] => [(k, x)]
  | (k', x') :: l =>
      if blt k k' then (k, x) :: (k', x') :: l
      else if bool_decide (k = k') then (k, x) :: l
      else (k', x') :: put_member k x l
  end.
Definition by_key (l : list (bytes * json)) : list (bytes * json) := foldl (fun acc kv => put_member kv.1 kv.2 acc) [] l.

(** An interface{}. *)
Fixpoint any_val (j : rjson) : option json :=
  match j with
  | RNull => Some JNull
  | RBool b => Some (JBool b)
  | RNum w => JNum <$> int_val w
  | RStr w => JStr <$> str_val w
  | RArr l => JArr <$> (fix go (l : list rjson) : option (list json) :=
                match l with [] => Some [] | j :: l => x ← any_val j; r ← go l; Some (x :: r) end) l
  | RObj l => (fun l => JObj (by_key l)) <$> (fix go (l : list (bytes * rjson)) : option (list (bytes * json)) :=
                match l with [] => Some [] | (k, j) :: l => x ← any_val j; r ← go l; Some ((k, x) :: r) end) l
  end.
Definition r_any : list rjson -> option json := settle (fun j => Some <$> any_val j) JNull.

(** The members given for a struct, in the order they are stored. *)
Fixpoint r_obj (l : list rjson) : option (list (bytes * rjson)) :=
  match l with
  | [] => Some []
  | RNull :: l => r_obj l
  | RObj m :: l => app m <$> r_obj l
  | _ => None
  end.
(** For a pointer to a struct: nil, or the members stored since it was made. *)
Definition r_ptr : list rjson -> option (option (list (bytes * rjson))) :=
  (fix go (acc : option (list (bytes * rjson))) (l : list rjson) :=
     match l with
     | [] => Some acc
     | RNull :: l => go None l
     | RObj m :: l => go (Some (default [] acc ++ m)) l
     | _ => None
     end) None.

(** A map with string keys: every value is decoded into a new variable. *)
Fixpoint r_entries {A} (f : list rjson -> option A) (acc : gmap bytes A) (l : list (bytes * rjson)) : option (gmap bytes A) :=
  match l with
  | [] => Some acc
  | (k, v) :: l => match f [v] with None => None | Some x => r_entries f (<[k := x]> acc) l end
  end.
Definition r_map {A} (f : list rjson -> option A) : list rjson -> option (gmap bytes A) :=
  (fix go (acc : gmap bytes A) (l : list rjson) :=
     match l with
     | [] => Some acc
     | RNull :: l => go ∅ l
     | RObj m :: l => match r_entries f acc m with None => None | Some acc => go acc l end
     | _ => None
     end) ∅.

(** ** The structs *)

(** here.Info with its Module. *)
Definition r_hinfo (js : list rjson) : option hinfo :=
  l ← r_obj js;
  dir ← r_str (given (B"Dir") l); imp ← r_str (given (B"ImportPath") l); name ← r_str (given (B"Name") l);
  ml ← r_obj (given (B"Module") l);
  mp ← r_str (given (B"Path") ml); mm ← r_bool (given (B"Main") ml); md ← r_str (given (B"Dir") ml);
  mg ← r_str (given (B"GoMod") ml); mv ← r_str (given (B"GoVersion") ml);
  Some (HInfo dir imp name mp mm md mg mv).

(** here.Path. *)
Definition r_path (js : list rjson) : option path :=
  l ← r_obj js; g ← r_str (given (B"Pkg") l); n ← r_str (given (B"Name") l); Some (Path g n).

(** pkging.FileInfo, file_info.go:9-20. *)
Definition r_details (ol : list (bytes * rjson)) : option details :=
  l ← r_obj (given (B"details") ol);
  name ← r_str (given (B"name") l); size ← r_int64 (given (B"size") l); mode ← r_uint32 (given (B"mode") l);
  mt ← r_time (given (B"mod_time") l); dir ← r_bool (given (B"is_dir") l); sys ← r_any (given (B"sys") l);
  Some (Details name size mode mt dir sys).

(** A *pkging.FileInfo. *)
Definition r_info (js : list rjson) : option (option details) :=
  p ← r_ptr js; match p with None => Some None | Some ol => Some <$> r_details ol end.

(** embed.File, pkging/embed/file.go:8-14, with its Info pointer; also the part
    of mem.File that mem/embed.go:69-75 sets. *)
Record nfile := JFile {
  n_info : option details;
  n_here : hinfo;
  n_path : path;
  n_data : bytes;
  n_parent : path
}.
Definition r_file (js : list rjson) : option nfile :=
  l ← r_obj js;
  info ← r_info (given (B"info") l); her ← r_hinfo (given (B"her") l); pt ← r_path (given (B"path") l);
  data ← r_bytes (given (B"data") l); par ← r_path (given (B"parent") l);
  Some (JFile info her pt data par).

(** embed.Data, embed.go:51-55. *)
Record ndata := NData {
  nd_infos : gmap bytes hinfo;
  nd_files : gmap bytes nfile;
  nd_here : hinfo
}.
Definition r_data (l : list (bytes * rjson)) : option ndata :=
  infos ← r_map r_hinfo (given (B"infos") l); files ← r_map r_file (given (B"files") l);
  her ← r_hinfo (given (B"here") l); Some (NData infos files her).

(** ** Proofs: decoding what encoding/json writes *)

Definition raw_of : json -> rjson :=
  fix go (j : json) : rjson :=
  match j with
  | JNull => RNull
  | JBool b => RBool b
  | JNum z => RNum (dec_z z)
  | JStr s => RStr (esc s)
  | JArr l => RArr (map go l)
  | JObj l => RObj (map (fun kv => (sanitize kv.1, go kv.2)) l)
  end.

Lemma esc_jstr s : jstr (esc s) (sanitize s).
Proof.
  pose proof (esc_round s []) as H. apply (read_jstr _ _ _ _ (le_n _)) in H as (w & E & H).
  apply app_inj_tail in E as [-> _]. exact H.
Qed.
Lemma str_val_esc s : str_val (esc s) = Some (sanitize s).
Proof. unfold str_val. by rewrite esc_round. Qed.
Lemma dec_jnat n : jnat (dec n) n.
Proof.
  pose proof (read_nat_dec n [] I) as H. apply read_jnat in H as (t & E & H). rewrite !app_nil_r in E. by subst.
Qed.
Lemma dec_z_number z : jnumber (dec_z z).
Proof.
  unfold dec_z. destruct (z <? 0)%Z.
  - rewrite <- (app_nil_r (dec _)). apply (jn_neg _ (Z.to_N (- z)) [] []); [apply dec_jnat|constructor|constructor].
  - rewrite <- (app_nil_r (dec _)). apply (jn_pos _ (Z.to_N z) [] []); [apply dec_jnat|constructor|constructor].
Qed.
Lemma int_val_dec z : int_val (dec_z z) = Some z.
Proof.
  pose proof (read_value_num 0 z [] I) as H. rewrite app_nil_r in H. revert H. unfold int_val, dec_z. destruct (Z.ltb_spec z 0).
  - intros _. cbn [read_num]. change (Ascii.eqb "-"%char "-"%char) with true. cbv iota.
    rewrite <- (app_nil_r (dec _)), read_nat_dec by done. f_equal. lia.
  - intros _. destruct (dec_head (Z.to_N z)) as (c & d & E & Hc). rewrite E. cbn [read_num]. rewrite (digit_not c) by done.
    rewrite <- E, <- (app_nil_r (dec _)), read_nat_dec by done. f_equal. lia.
Qed.
Lemma uint_val_dec n : uint_val (dec n) = Some n.
Proof. unfold uint_val. by rewrite <- (app_nil_r (dec n)), read_nat_dec. Qed.
Lemma white_nil : white []. Proof. constructor. Qed.

Lemma rval_write j : rval (write_json j) (raw_of j).
Proof.
  induction j as [ |b|z|s|l IH|l IH] using json_rec; cbn [write_json raw_of].
  - constructor.
  - destruct b; constructor.
  - apply rv_num, dec_z_number.
  - apply (rv_str _ _ (esc_jstr s)).
  - destruct l as [|x l]; [apply (rv_arr0 []), white_nil|]. apply rv_arr. cbn [map].
    revert x IH. induction l as [|y l IHl]; intros x IH; apply Forall_cons in IH as [Hx Hl].
    + cbn [map join_comma]. rewrite <- (app_nil_r (write_json x)). apply (re_one []); [apply white_nil|done|apply white_nil].
    + change (join_comma (write_json x :: map write_json (y :: l))) with (write_json x ++ c_comma :: join_comma (map write_json (y :: l))).
      apply (re_more [] _ []); [apply white_nil|done|apply white_nil|]. by apply IHl.
  - destruct l as [|[k x] l]; [apply (rv_obj0 []), white_nil|]. apply rv_obj. cbn [map fst snd].
    revert k x IH. induction l as [|[k' y] l IHl]; intros k x IH; apply Forall_cons in IH as [Hx Hl]; cbn [snd] in Hx.
    + cbn [map join_comma]. unfold json_string. rewrite <- app_comm_cons, <- app_assoc. cbn [app].
      rewrite <- (app_nil_r (write_json x)).
      apply (rm_one [] _ _ [] []); try apply white_nil; [apply esc_jstr|done].
    + cbn [map fst snd]. match goal with |- rmembers (join_comma (?a :: ?b :: ?c)) _ => change (join_comma (a :: b :: c)) with (a ++ c_comma :: join_comma (b :: c)) end.
      unfold json_string at 1. rewrite <- !app_assoc. cbn [app]. rewrite <- !app_assoc. cbn [app].
      apply (rm_more [] _ _ [] [] _ []); try apply white_nil; [apply esc_jstr|done|]. by apply IHl.
Qed.

Lemma read_raw_write j : read_raw (write_json j) = Some (raw_of j).
Proof.
  apply read_raw_iff. exists [], (write_json j), []. rewrite app_nil_r. split_and!; [done|apply white_nil|apply rval_write|apply white_nil].
Qed.

(** What Sys becomes: by its JSON image. *)
Fixpoint go_sys (j : json) : json :=
  match j with
  | JStr s => JStr (sanitize s)
  | JArr l => JArr (map go_sys l)
  | JObj l => JObj (by_key (map (fun kv => (sanitize kv.1, go_sys kv.2)) l))
  | j => j
  end.
Lemma any_val_raw j : any_val (raw_of j) = Some (go_sys j).
Proof.
  induction j as [ |b|z|s|l IH|l IH] using json_rec; cbn [raw_of any_val go_sys]; try done.
  - by rewrite int_val_dec.
  - by rewrite str_val_esc.
  - match goal with |- JArr <$> ?g (map raw_of l) = _ => assert (H : g (map raw_of l) = Some (map go_sys l)) end.
    { induction IH as [|x l Hx Hl IHl]; [done|]. cbn [map]. rewrite Hx. cbn [mbind option_bind]. by rewrite IHl. }
    by rewrite H.
  - match goal with |- _ <$> ?g ?x = Some (JObj (by_key ?y)) => assert (H : g x = Some y) end.
    { induction IH as [|[k x] l Hx Hl IHl]; [done|]. cbn [map fst snd] in *. rewrite Hx. cbn [mbind option_bind]. by rewrite IHl. }
    by rewrite H.
Qed.

(** Finding the fields of an object. *)
Lemma given_hd k k' v l : fold_key k' = fold_key k -> given k ((k', v) :: l) = v :: given k l.
Proof. intros H. unfold given. by rewrite filter_cons_True. Qed.
Lemma given_tl k k' v l : fold_key k' <> fold_key k -> given k ((k', v) :: l) = given k l.
Proof. intros H. unfold given. by rewrite filter_cons_False. Qed.

Ltac given_tac :=
  repeat first [rewrite given_hd by (by vm_compute)
               |rewrite given_tl by (vm_compute; discriminate)
               |change (given _ []) with (@nil rjson)].

Lemma r_str_esc s : r_str [RStr (esc s)] = Some (sanitize s).
Proof. unfold r_str. cbn [settle]. by rewrite str_val_esc. Qed.

Lemma r_entries_raw {A} (f : list rjson -> option A) (g : A -> json) (l : list (bytes * A)) (acc : gmap bytes A) :
  Forall (fun kv : bytes * A => utf8 kv.1 /\ f [raw_of (g kv.2)] = Some kv.2) l ->
  r_entries f acc (map (fun kv => (sanitize kv.1, raw_of kv.2)) (map (fun kv => (kv.1, g kv.2)) l)) =
    Some (foldl (fun acc (kv : bytes * A) => <[kv.1 := kv.2]> acc) acc l).
Proof.
  intros H. revert acc. induction H as [|[k v] l [H1 H2] Hl IH]; intros acc; [done|]. cbn [map r_entries foldl fst snd] in *.
  rewrite H2, sanitize_utf8 by done. apply IH.
Qed.
