(** net/http's file server on top of a pkger file (README.md "http.FileServer",
    /repo/examples/http/pkger/main.go, /repo/pkging/pkgtest/http.go, /repo/pkger.go:35-41).

    The server itself is Go standard library code (net/http/fs.go of Go 1.13),
    recalled from memory: fileHandler.ServeHTTP, serveFile, serveContent,
    dirList, parseRange, toHTTPError, http.Dir.  It is a client of the methods
    Open, Stat, Readdir, Read, Seek and Close of /repo's files; the theorems
    say what a request gets when those methods are /repo's.

    Simplifications: a request has a method (GET or HEAD), a decoded URL path, a
    query, a Range header and an If-Modified-Since header whose date has been
    read ([q_since], Unix seconds); the other conditional headers are absent.
    The response is what the handler sets and writes; fields that the server
    adds itself (Date, Connection, a Content-Length it counts itself) are left
    out.  mime.TypeByExtension and http.DetectContentType are arbitrary
    functions.  Writing to the client never fails.  One request at a time. *)
From Verif Require Import Bytes GoPath Here GoTypes GoNum GoTimeFmt Mem Disk DiskOps Std.

(** *** Texts *)

(** path.Ext: from the last dot of the last element. *)
Fixpoint ext_of (s : bytes) : option bytes :=
  match s with
  | [] => None
  | c :: s' =>
      match ext_of s' with
      | Some e => Some e
      | None => if Ascii.eqb c "."%char then Some s else None
      end
  end.
Definition path_ext (s : bytes) : bytes := default [] (ext_of (path_split s).2).

(** strings.Split(s, sep) for a one-byte separator. *)
Fixpoint split_on (sep : ascii) (s : bytes) : list bytes :=
  match s with
  | [] => [[]]
  | c :: s' =>
      if Ascii.eqb c sep then [] :: split_on sep s'
      else match split_on sep s' with
           | [] => [[c]]
           | w :: ws => (c :: w) :: ws
           end
  end.

(** Before and after the first separator. *)
Fixpoint cut_at (sep : ascii) (s : bytes) : option (bytes * bytes) :=
  match s with
  | [] => None
  | c :: s' =>
      if Ascii.eqb c sep then Some ([], s')
      else match cut_at sep s' with Some (a, b) => Some (c :: a, b) | None => None end
  end.

(** strconv.ParseInt(s, 10, 64). *)
Definition parse_digits (s : bytes) : option N :=
  match s with
  | [] => None
  | _ => if forallb is_digit s then Some (dval s) else None
  end.
Definition parse_int (s : bytes) : option Z :=
  let '(neg, t) :=
    match s with
    | c :: t => if Ascii.eqb c "-"%char then (true, t) else if Ascii.eqb c "+"%char then (false, t) else (false, s)
    | [] => (false, s)
    end in
  match parse_digits t with
  | None => None
  | Some n =>
      let z := if (neg : bool) then (- Z.of_N n)%Z else Z.of_N n in
      if ((- 2 ^ 63 <=? z) && (z <? 2 ^ 63))%Z then Some z else None
  end.

(** Time.UTC().Format(http.TimeFormat): "Mon, 02 Jan 2006 15:04:05 GMT". *)
Definition day_name (d : Z) : bytes :=
  match (d mod 7)%Z with
  | 0%Z => B"Mon" | 1%Z => B"Tue" | 2%Z => B"Wed" | 3%Z => B"Thu" | 4%Z => B"Fri" | 5%Z => B"Sat" | _ => B"Sun"
  end.
Definition month_name (m : Z) : bytes :=
  match m with
  | 1%Z => B"Jan" | 2%Z => B"Feb" | 3%Z => B"Mar" | 4%Z => B"Apr" | 5%Z => B"May" | 6%Z => B"Jun"
  | 7%Z => B"Jul" | 8%Z => B"Aug" | 9%Z => B"Sep" | 10%Z => B"Oct" | 11%Z => B"Nov" | _ => B"Dec"
  end.
Definition http_date (t : gotime) : bytes :=
  let s := t_sec t in
  let day := (s / 86400 + unix_day)%Z in
  let '(y, m, d) := civil day in
  let sod := (s mod 86400)%Z in
  day_name day ++ B", " ++ append_int 2 d ++ B" " ++ month_name m ++ B" " ++ append_int 4 y ++ B" " ++
  append_int 2 (sod / 3600) ++ colon :: append_int 2 (sod mod 3600 / 60) ++ colon :: append_int 2 (sod mod 60) ++ B" GMT".

(** isZeroTime. *)
Definition zero_time (t : gotime) : bool :=
  ((t_sec t =? - 86400 * unix_day) || (t_sec t =? 0))%Z && (t_nsec t =? 0)%Z.

(** url.shouldEscape in mode encodePath, and url.escape. *)
Definition path_byte (c : ascii) : bool :=
  let n := N_of_ascii c in
  ((97 <=? n) && (n <=? 122) || (65 <=? n) && (n <=? 90) || is_digit c)%N ||
  bool_decide (c ∈ B"-_.~$&+,/:;=@").
Definition upper_hex (n : N) : ascii := if (n <? 10)%N then ascii_of_N (48 + n) else ascii_of_N (55 + n).
Fixpoint url_escape (s : bytes) : bytes :=
  match s with
  | [] => []
  | c :: s =>
      if path_byte c then c :: url_escape s
      else "%"%char :: upper_hex (N_of_ascii c / 16) :: upper_hex (N_of_ascii c mod 16) :: url_escape s
  end.

(** (&url.URL{Path: s}).String(). *)
Definition url_string (s : bytes) : bytes :=
  let p := if bool_decide (s = B"*") then s else url_escape s in
  match cut_at colon p with
  | Some (a, _) => if bool_decide (slash ∈ a) then p else B"./" ++ p
  | None => p
  end.

(** htmlReplacer. *)
Definition html_byte (c : ascii) : bytes :=
  if Ascii.eqb c "&"%char then B"&amp;"
  else if Ascii.eqb c "<"%char then B"&lt;"
  else if Ascii.eqb c ">"%char then B"&gt;"
  else if Ascii.eqb c "034"%char then B"&#34;"
  else if Ascii.eqb c "'"%char then B"&#39;"
  else [c].
Definition html_escape (s : bytes) : bytes := concat (html_byte <$> s).

(** *** Ranges *)

(** httpRange. *)
Record hrange := HRange { g_start : Z; g_len : Z }.

Inductive ranges := RGood (l : list hrange) | RNoOverlap | RInvalid.

(** One element of the loop of parseRange: nothing, a range, a range beyond the
    content, or an error. *)
Inductive one_range := OSkip | OBeyond | ORange (r : hrange) | OBad.
Definition parse_range1 (size : Z) (ra : bytes) : one_range :=
  match trim_space ra with
  | [] => OSkip
  | ra =>
      match cut_at "-"%char ra with
      | None => OBad
      | Some (a, b) =>
          match trim_space a, trim_space b with
          | [], e =>
              match parse_int e with
              | None => OBad
              | Some i => let i := Z.min i size in ORange (HRange (size - i) (size - (size - i)))
              end
          | st, e =>
              match parse_int st with
              | None => OBad
              | Some i =>
                  if (i <? 0)%Z then OBad
                  else if (size <=? i)%Z then OBeyond
                  else match e with
                       | [] => ORange (HRange i (size - i))
                       | _ =>
                           match parse_int e with
                           | None => OBad
                           | Some j =>
                               if (j <? i)%Z then OBad
                               else ORange (HRange i (Z.min j (size - 1) - i + 1))
                           end
                       end
              end
          end
      end
  end.

Fixpoint parse_range_loop (size : Z) (ws : list bytes) (beyond : bool) (acc : list hrange) : ranges :=
  match ws with
  | [] => match acc with [] => if beyond then RNoOverlap else RGood [] | _ => RGood acc end
  | w :: ws =>
      match parse_range1 size w with
      | OSkip => parse_range_loop size ws beyond acc
      | OBeyond => parse_range_loop size ws true acc
      | ORange r => parse_range_loop size ws beyond (acc ++ [r])
      | OBad => RInvalid
      end
  end.

(** parseRange. *)
Definition parse_range (s : bytes) (size : Z) : ranges :=
  match s with
  | [] => RGood []
  | _ =>
      if has_prefix s (B"bytes=") then parse_range_loop size (split_on ","%char (drop 6 s)) false []
      else RInvalid
  end.

(** httpRange.contentRange. *)
Definition content_range (r : hrange) (size : Z) : bytes :=
  B"bytes " ++ dec_z (g_start r) ++ "-"%char :: dec_z (g_start r + g_len r - 1) ++ slash :: dec_z size.

(** *** Requests and responses *)

Record request := Request {
  q_head : bool;             (* HEAD rather than GET *)
  q_path : bytes;            (* URL.Path *)
  q_query : bytes;           (* URL.RawQuery *)
  q_range : bytes;           (* the Range header *)
  q_since : option Z         (* If-Modified-Since *)
}.

Record headers := Headers {
  h_ctype : option bytes;
  h_lastmod : option bytes;
  h_clen : option bytes;
  h_crange : option bytes;
  h_accept : option bytes;
  h_location : option bytes;
  h_nosniff : option bytes
}.
Definition no_headers : headers := Headers None None None None None None None.
Definition with_ctype (x : option bytes) (h : headers) : headers :=
  Headers x (h_lastmod h) (h_clen h) (h_crange h) (h_accept h) (h_location h) (h_nosniff h).
Definition with_lastmod (x : option bytes) (h : headers) : headers :=
  Headers (h_ctype h) x (h_clen h) (h_crange h) (h_accept h) (h_location h) (h_nosniff h).
Definition with_crange (x : option bytes) (h : headers) : headers :=
  Headers (h_ctype h) (h_lastmod h) (h_clen h) x (h_accept h) (h_location h) (h_nosniff h).

Record response := Response { r_code : Z; r_headers : headers; r_body : bytes }.

(** http.Error, on the headers already set. *)
Definition http_error (h : headers) (msg : bytes) (code : Z) : response :=
  Response code
    (Headers (Some (B"text/plain; charset=utf-8")) (h_lastmod h) (h_clen h) (h_crange h) (h_accept h) (h_location h) (Some (B"nosniff")))
    (msg ++ [newline]).

(** localRedirect. *)
Definition redirect (q : request) (to : bytes) : response :=
  let to := match q_query q with [] => to | s => to ++ "?"%char :: s end in
  Response 301 (Headers None None None None None (Some to) None) [].

(** writeNotModified. *)
Definition not_modified (h : headers) : response :=
  Response 304 (Headers None (h_lastmod h) None (h_crange h) (h_accept h) (h_location h) (h_nosniff h)) [].

(** How an error looks to toHTTPError: os.IsNotExist, os.IsPermission, or
    neither. *)
Inductive ferr := FMissing | FDenied | FOther.
Definition to_http_error (e : ferr) : response :=
  match e with
  | FMissing => http_error no_headers (B"404 page not found") 404
  | FDenied => http_error no_headers (B"403 Forbidden") 403
  | FOther => http_error no_headers (B"500 Internal Server Error") 500
  end.

(** *** The file system behind the server *)

(** An http.FileSystem with its http.Files: [S] is its state, [H] a file
    handle. *)
Record hfs (S H : Type) := HFs {
  o_open : S -> bytes -> S * (H + ferr);
  o_stat : S -> H -> details + ferr;
  o_list : S -> H -> option (list details);                      (* Readdir(-1); None: an error *)
  o_read : S -> H -> nat -> S * H * (bytes * option gerr);
  o_seek : S -> H -> Z -> S * H * bool;                          (* Seek(off, io.SeekStart); false: an error *)
  o_close : S -> H -> S
}.
Global Arguments o_open {S H}. Global Arguments o_stat {S H}. Global Arguments o_list {S H}.
Global Arguments o_read {S H}. Global Arguments o_seek {S H}. Global Arguments o_close {S H}.

(** setLastModified. *)
Definition lastmod_of (t : gotime) : option bytes := if zero_time t then None else Some (http_date t).

(** checkIfModifiedSince = condFalse. *)
Definition unmodified (q : request) (t : gotime) : bool :=
  match q_since q with
  | None => false
  | Some s => negb (zero_time t) && (t_sec t <? s + 1)%Z
  end.

(** dirList: the page for a sorted list of entries. *)
Definition entry_name (d : details) : bytes := if d_isdir d then d_name d ++ [slash] else d_name d.
Definition link (d : details) : bytes :=
  B"<a href=""" ++ url_string (entry_name d) ++ B""">" ++ html_escape (entry_name d) ++ B"</a>" ++ [newline].
Definition name_le (a b : details) : Prop := ble (d_name a) (d_name b) = true.
Global Instance name_le_dec a b : Decision (name_le a b).
Proof. unfold name_le. apply _. Defined.
Definition list_page (l : list details) : bytes :=
  B"<pre>" ++ newline :: concat (link <$> merge_sort name_le l) ++ B"</pre>" ++ [newline].

Definition crlf : bytes := ["013"%char; newline].
Definition index_page : bytes := B"/index.html".

(** What a response shows: HEAD has no body. *)
Definition shown_to (q : request) (r : response) : response :=
  if q_head q then Response (r_code r) (r_headers r) [] else r.

Section Server.
  Context {S H : Type} (F : hfs S H).
  Context (mime : bytes -> bytes)          (* mime.TypeByExtension *)
          (sniff : bytes -> bytes)         (* http.DetectContentType *)
          (boundary : bytes)               (* the random multipart boundary *)
          (bufsize : nat).                 (* the copy buffer: 32 KB *)

  (** io.CopyN / io.ReadFull: reads of at most [buf] bytes until [left] bytes
      are there or Read fails. *)
  Fixpoint copy_n (fuel : nat) (buf : nat) (s : S) (h : H) (left : nat) : S * H * bytes :=
    match fuel, left with
    | O, _ | _, O => (s, h, [])
    | Datatypes.S fuel, _ =>
        let '(s, h, (b, e)) := o_read F s h (Nat.min buf left) in
        match e with
        | Some _ => (s, h, b)
        | None => let '(s, h, b') := copy_n fuel buf s h (left - length b) in (s, h, b ++ b')
        end
    end.

  (** The header of one part of a multipart answer (multipart.Writer.CreatePart). *)
  Definition part_header (first : bool) (ctype : bytes) (r : hrange) (size : Z) : bytes :=
    (if first then [] else crlf) ++ B"--" ++ boundary ++ crlf ++
    B"Content-Range: " ++ content_range r size ++ crlf ++ B"Content-Type: " ++ ctype ++ crlf ++ crlf.
  Definition parts_end : bytes := crlf ++ B"--" ++ boundary ++ B"--" ++ crlf.

  (** The goroutine of serveContent that writes the parts; a failing or short
      copy ends it. *)
  Fixpoint write_parts (first : bool) (ctype : bytes) (size : Z) (s : S) (h : H) (l : list hrange) : S * H * bytes :=
    match l with
    | [] => (s, h, parts_end)
    | r :: l =>
        let hd := part_header first ctype r size in
        let '(s, h, ok) := o_seek F s h (g_start r) in
        if (ok : bool) then
          let n := Z.to_nat (g_len r) in
          let '(s, h, b) := copy_n (1 + n) bufsize s h n in
          if (Nat.ltb (length b) n) then (s, h, hd ++ b)
          else let '(s, h, rest) := write_parts false ctype size s h l in (s, h, hd ++ b ++ rest)
        else (s, h, hd)
    end.

  (** rangesMIMESize. *)
  Fixpoint parts_size (first : bool) (ctype : bytes) (size : Z) (l : list hrange) : Z :=
    match l with
    | [] => Z.of_nat (length parts_end)
    | r :: l => (Z.of_nat (length (part_header first ctype r size)) + g_len r + parts_size false ctype size l)%Z
    end.

  Definition sum_len (l : list hrange) : Z := fold_right (fun r a => (g_len r + a)%Z) 0%Z l.

  (** serveContent, size given by Stat. *)
  Definition serve_content (q : request) (d : details) (s : S) (h : H) : S * response :=
    let hd := with_lastmod (lastmod_of (d_mtime d)) no_headers in
    if unmodified q (d_mtime d) then (s, not_modified hd)
    else
      let '(s, h, ctype, ok) :=
        match mime (path_ext (d_name d)) with
        | [] =>
            let '(s, h, b) := copy_n 513 512 s h 512 in
            let '(s, h, ok) := o_seek F s h 0 in
            (s, h, sniff b, ok)
        | t => (s, h, t, true)
        end in
      if negb ok then (s, http_error hd (B"seeker can't seek") 500)
      else
        let hd := with_ctype (Some ctype) hd in
        let size := d_size d in
        if (size <? 0)%Z then
          (s, Response 200 (Headers (Some ctype) (h_lastmod hd) None None None None None) [])
        else
        match parse_range (q_range q) size with
        | RInvalid => (s, http_error hd (B"invalid range") 416)
        | RNoOverlap => (s, http_error (with_crange (Some (B"bytes */" ++ dec_z size)) hd)
                              (B"invalid range: failed to overlap") 416)
        | RGood l =>
            let l := if (size <? sum_len l)%Z then [] else l in
            let finish (code : Z) (ct cr : option bytes) (n : Z) (s : S) (body : bytes) :=
              (s, Response code (Headers ct (h_lastmod hd) (Some (dec_z n)) cr (Some (B"bytes")) None None)
                    (if q_head q then [] else body)) in
            match l with
            | [] =>
                let n := Z.to_nat size in
                let '(s, h, b) := if q_head q then (s, h, []) else copy_n (1 + n) bufsize s h n in
                finish 200%Z (Some ctype) None size s b
            | [r] =>
                let '(s, h, ok) := o_seek F s h (g_start r) in
                if (ok : bool) then
                  let n := Z.to_nat (g_len r) in
                  let '(s, h, b) := if q_head q then (s, h, []) else copy_n (1 + n) bufsize s h n in
                  finish 206%Z (Some ctype) (Some (content_range r size)) (g_len r) s b
                else (s, http_error hd (B"seek failed") 416)
            | _ =>
                let n := parts_size true ctype size l in
                let '(s, h, b) := write_parts true ctype size s h l in
                finish 206%Z (Some (B"multipart/byteranges; boundary=" ++ boundary)) None n s (take (Z.to_nat n) b)
            end
        end.

  (** dirList. *)
  Definition dir_list (hd : headers) (s : S) (h : H) : response :=
    match o_list F s h with
    | None => http_error hd (B"Error reading directory") 500
    | Some l => Response 200 (with_ctype (Some (B"text/html; charset=utf-8")) hd) (list_page l)
    end.

  (** strings.TrimSuffix(name, "/"). *)
  Definition trim_slash (name : bytes) : bytes :=
    if has_suffix name (B"/") then take (length name - 1) name else name.

  (** serveFile after the file was opened: [name] is the cleaned path, [url]
      the path of the URL. *)
  Definition serve_opened (q : request) (name url : bytes) (s : S) (h : H) : S * response :=
    match o_stat F s h with
    | inr e => (s, to_http_error e)
    | inl d =>
        let dirurl := bool_decide (last url = Some slash) in
        if d_isdir d && negb dirurl then (s, redirect q (base url ++ [slash]))
        else if negb (d_isdir d) && dirurl then (s, redirect q (B"../" ++ base url))
        else if negb (d_isdir d) then serve_content q d s h
        else
          let '(s, ff) := o_open F s (trim_slash name ++ index_page) in
          let list_it (s : S) :=
            if unmodified q (d_mtime d) then (s, not_modified no_headers)
            else (s, dir_list (with_lastmod (lastmod_of (d_mtime d)) no_headers) s h) in
          match ff with
          | inr _ => list_it s
          | inl h2 =>
              match o_stat F s h2 with
              | inr _ => let '(s, r) := list_it s in (o_close F s h2, r)
              | inl d2 =>
                  let '(s, r) :=
                    if d_isdir d2 then
                      if unmodified q (d_mtime d2) then (s, not_modified no_headers)
                      else (s, dir_list (with_lastmod (lastmod_of (d_mtime d2)) no_headers) s h2)
                    else serve_content q d2 s h2 in
                  (o_close F s h2, r)
              end
          end
    end.

  (** fileHandler.ServeHTTP and serveFile. *)
  Definition serve (q : request) (s : S) : S * response :=
    let url := if has_prefix (q_path q) (B"/") then q_path q else slash :: q_path q in
    let name := clean url in
    let '(s, r) :=
      if has_suffix url index_page then (s, redirect q (B"./"))
      else
        match o_open F s name with
        | (s, inr e) => (s, to_http_error e)
        | (s, inl h) => let '(s, r) := serve_opened q name url s h in (o_close F s h, r)
        end in
    (s, shown_to q r).

  (** A sequence of requests. *)
  Fixpoint serve_all (qs : list request) (s : S) : S * list response :=
    match qs with
    | [] => (s, [])
    | q :: qs => let '(s, r) := serve q s in let '(s, rs) := serve_all qs s in (s, r :: rs)
    end.
End Server.

(** *** The file systems *)

(** How the errors of the in-memory pkger look to net/http: os.ErrNotExist is
    recognised; a *os.PathError holds the resolver's error (mem.go:168-172). *)
Definition mem_ferr (e : gerr) : ferr := match e with ENotExist => FMissing | _ => FOther end.
Definition mem_answer (x : mem * res ref) : mem * (ref + ferr) :=
  match x with (m, Ok h) => (m, inl h) | (m, Err e) => (m, inr (mem_ferr e)) end.

(** The methods of the in-memory File shared by the two servers below. *)
Definition mem_hfs (parse : resolver) (now : gotime) (open : mem -> bytes -> mem * (ref + ferr)) : hfs mem ref := {|
  o_open := open;
  o_stat := fun m h => match info_at m h with Some d => inl d | None => inr FOther end;
  o_list := fun m h => match readdir parse m h (-1) with (l, None) => Some l | _ => None end;
  o_read := fun m h n => let '(m, x) := file_read m h n in (m, h, x);
  o_seek := fun m h off => let '(m, (_, e)) := file_seek m h off 0 in (m, h, match e with None => true | _ => false end);
  o_close := fun m h => (file_close now m h).1
|}.

(** http.FileServer(f) for a File f of the in-memory pkger. *)
Definition mem_server parse now (r : ref) : hfs mem ref :=
  mem_hfs parse now (fun m name => mem_answer (file_open parse m r name)).

(** http.FileServer(pkger.Dir(d)) with the in-memory pkger as the only layer
    (pkger.go:35-41). *)
Definition mem_dir_open parse (d : bytes) (m : mem) (name : bytes) : mem * res ref :=
  match open parse m d with
  | (m, Err e) => (m, Err e)
  | (m, Ok r) => file_open parse m r name
  end.
Definition mem_dir_server parse now (d : bytes) : hfs mem ref :=
  mem_hfs parse now (fun m name => mem_answer (mem_dir_open parse d m name)).

(** An open descriptor: the node, its base name, the position. *)
Record ofile := OFile { of_name : bytes; of_node : node; of_pos : nat }.

(** Why os.Open fails: nothing there, an element of the path is not a
    directory (ENOTDIR, which os.IsNotExist does not recognise), or no
    permission. *)
Fixpoint not_a_dir (n : node) (ws : list bytes) : bool :=
  match ws with
  | [] => false
  | w :: ws =>
      match n with
      | NFile _ _ => true
      | NDir _ cs => match child w cs with Some c => not_a_dir c ws | None => false end
      end
  end.
Definition os_ferr (fs : node) (p : bytes) : ferr :=
  match find fs p with
  | Some _ => FDenied
  | None => if is_rooted p && not_a_dir fs (clean_elems p) then FOther else FMissing
  end.

(** The methods of os.File on a descriptor; [n] counts the open descriptors.
    Readdir lists the directory in the order of the disk. *)
Definition os_hfs {A} (open : A * nat -> bytes -> A * nat * (ofile + ferr)) : hfs (A * nat) ofile := {|
  o_open := open;
  o_stat := fun _ h => inl (info_of (of_name h) (of_node h));
  o_list := fun _ h => match of_node h with NDir _ cs => Some ((fun x => info_of x.1 x.2) <$> cs) | _ => None end;
  o_read := fun s h n =>
    match of_node h with
    | NFile _ data =>
        match n, drop (of_pos h) data with
        | O, _ => (s, h, ([], None))
        | _, [] => (s, h, ([], Some EEOF))
        | _, rest => (s, OFile (of_name h) (of_node h) (of_pos h + length (take n rest)), (take n rest, None))
        end
    | NDir _ _ => (s, h, ([], Some (EPath (B"read") (of_name h))))
    end;
  o_seek := fun s h off =>
    if (off <? 0)%Z then (s, h, false) else (s, OFile (of_name h) (of_node h) (Z.to_nat off), true);
  o_close := fun s h => (s.1, pred s.2)
|}.

(** http.FileServer(f) for a File f of the on-disk pkger (stdos/file.go:47-54):
    its errors are those of os.Open, unless here.Package or the resolver
    failed. *)
Definition std_answer (fs : node) (x : sto * res sfile) (n : nat) : sto * nat * (ofile + ferr) :=
  match x with
  | (s, Ok f) =>
      match find fs (sf_os f) with
      | Some nd => (s, Datatypes.S n, inl (OFile (base (sf_os f)) nd 0))
      | None => (s, n, inr FOther)
      end
  | (s, Err (EPath op p)) => (s, n, inr (if bool_decide (op = B"open") then os_ferr fs p else FOther))
  | (s, Err _) => (s, n, inr FOther)
  end.
Definition std_server parse hp fs (f : sfile) : hfs (sto * nat) ofile :=
  os_hfs (fun s name => std_answer fs (sfile_open parse hp fs s.1 f name) s.2).

(** http.FileServer(pkger.Dir(d)) with the on-disk pkger: Dir.Open never closes
    the directory it opens (pkger.go:35-41). *)
Definition std_dir_server parse hp fs (d : bytes) : hfs (sto * nat) ofile :=
  os_hfs (fun s name =>
    match std_open parse hp fs s.1 d with
    | (st, Ok f) => std_answer fs (sfile_open parse hp fs st f name) (Datatypes.S s.2)
    | x => std_answer fs x s.2
    end).

(** http.Dir(d): the reference of /repo/pkging/pkgtest/http.go:23.  Its
    mapDirOpenError turns ENOTDIR into os.ErrNotExist. *)
Definition dir_answer (fs : node) (p : bytes) (n : nat) : unit * nat * (ofile + ferr) :=
  match find fs p with
  | Some nd => if n_ok (n_meta nd) then (tt, Datatypes.S n, inl (OFile (base p) nd 0)) else (tt, n, inr FDenied)
  | None => (tt, n, inr FMissing)
  end.
Definition dir_server fs (d : bytes) : hfs (unit * nat) ofile :=
  os_hfs (fun s name => dir_answer fs (join2 d (clean (slash :: name))) s.2).
