(** * Messages: content_encoding.py and message.py. *)
From Verif Require Import PyStr Regex Grammar Note PyLib Utils FieldAttrs Types Fields1 Fields2 Fields3 Framework Checks.
Open Scope N_scope.

(** Attribute assignments on a message. *)
Definition m_set_clen (x : N) (m : mstate) : mstate :=
  mkMsg (m_type m) (m_start m) (m_no_content m) (m_version m) (m_base m) (m_headers m) (m_trailers m) x (m_hashed m) (m_hash m) (m_charenc m) (m_sample m) (m_complete m) (m_pipeline m) (m_dec_len m) (m_dec_hashed m) (m_dec_hash m) (m_method m) (m_iri m) (m_uri m) (m_status_str m) (m_status m) (m_phrase m) (m_head m) (m_caching m) (m_notes m).
Definition m_set_hashed (x : bytes) (m : mstate) : mstate :=
  mkMsg (m_type m) (m_start m) (m_no_content m) (m_version m) (m_base m) (m_headers m) (m_trailers m) (m_clen m) x (m_hash m) (m_charenc m) (m_sample m) (m_complete m) (m_pipeline m) (m_dec_len m) (m_dec_hashed m) (m_dec_hash m) (m_method m) (m_iri m) (m_uri m) (m_status_str m) (m_status m) (m_phrase m) (m_head m) (m_caching m) (m_notes m).
Definition m_set_hash (x : option bytes) (m : mstate) : mstate :=
  mkMsg (m_type m) (m_start m) (m_no_content m) (m_version m) (m_base m) (m_headers m) (m_trailers m) (m_clen m) (m_hashed m) x (m_charenc m) (m_sample m) (m_complete m) (m_pipeline m) (m_dec_len m) (m_dec_hashed m) (m_dec_hash m) (m_method m) (m_iri m) (m_uri m) (m_status_str m) (m_status m) (m_phrase m) (m_head m) (m_caching m) (m_notes m).
Definition m_set_charenc (x : option str) (m : mstate) : mstate :=
  mkMsg (m_type m) (m_start m) (m_no_content m) (m_version m) (m_base m) (m_headers m) (m_trailers m) (m_clen m) (m_hashed m) (m_hash m) x (m_sample m) (m_complete m) (m_pipeline m) (m_dec_len m) (m_dec_hashed m) (m_dec_hash m) (m_method m) (m_iri m) (m_uri m) (m_status_str m) (m_status m) (m_phrase m) (m_head m) (m_caching m) (m_notes m).
Definition m_set_sample (x : bytes) (m : mstate) : mstate :=
  mkMsg (m_type m) (m_start m) (m_no_content m) (m_version m) (m_base m) (m_headers m) (m_trailers m) (m_clen m) (m_hashed m) (m_hash m) (m_charenc m) x (m_complete m) (m_pipeline m) (m_dec_len m) (m_dec_hashed m) (m_dec_hash m) (m_method m) (m_iri m) (m_uri m) (m_status_str m) (m_status m) (m_phrase m) (m_head m) (m_caching m) (m_notes m).
Definition m_set_complete (x : bool) (m : mstate) : mstate :=
  mkMsg (m_type m) (m_start m) (m_no_content m) (m_version m) (m_base m) (m_headers m) (m_trailers m) (m_clen m) (m_hashed m) (m_hash m) (m_charenc m) (m_sample m) x (m_pipeline m) (m_dec_len m) (m_dec_hashed m) (m_dec_hash m) (m_method m) (m_iri m) (m_uri m) (m_status_str m) (m_status m) (m_phrase m) (m_head m) (m_caching m) (m_notes m).
Definition m_set_pipeline (x : option (list stage)) (m : mstate) : mstate :=
  mkMsg (m_type m) (m_start m) (m_no_content m) (m_version m) (m_base m) (m_headers m) (m_trailers m) (m_clen m) (m_hashed m) (m_hash m) (m_charenc m) (m_sample m) (m_complete m) x (m_dec_len m) (m_dec_hashed m) (m_dec_hash m) (m_method m) (m_iri m) (m_uri m) (m_status_str m) (m_status m) (m_phrase m) (m_head m) (m_caching m) (m_notes m).
Definition m_set_dec_len (x : N) (m : mstate) : mstate :=
  mkMsg (m_type m) (m_start m) (m_no_content m) (m_version m) (m_base m) (m_headers m) (m_trailers m) (m_clen m) (m_hashed m) (m_hash m) (m_charenc m) (m_sample m) (m_complete m) (m_pipeline m) x (m_dec_hashed m) (m_dec_hash m) (m_method m) (m_iri m) (m_uri m) (m_status_str m) (m_status m) (m_phrase m) (m_head m) (m_caching m) (m_notes m).
Definition m_set_dec_hashed (x : bytes) (m : mstate) : mstate :=
  mkMsg (m_type m) (m_start m) (m_no_content m) (m_version m) (m_base m) (m_headers m) (m_trailers m) (m_clen m) (m_hashed m) (m_hash m) (m_charenc m) (m_sample m) (m_complete m) (m_pipeline m) (m_dec_len m) x (m_dec_hash m) (m_method m) (m_iri m) (m_uri m) (m_status_str m) (m_status m) (m_phrase m) (m_head m) (m_caching m) (m_notes m).
Definition m_set_dec_hash (x : option bytes) (m : mstate) : mstate :=
  mkMsg (m_type m) (m_start m) (m_no_content m) (m_version m) (m_base m) (m_headers m) (m_trailers m) (m_clen m) (m_hashed m) (m_hash m) (m_charenc m) (m_sample m) (m_complete m) (m_pipeline m) (m_dec_len m) (m_dec_hashed m) x (m_method m) (m_iri m) (m_uri m) (m_status_str m) (m_status m) (m_phrase m) (m_head m) (m_caching m) (m_notes m).
Definition m_set_method (x : option str) (m : mstate) : mstate :=
  mkMsg (m_type m) (m_start m) (m_no_content m) (m_version m) (m_base m) (m_headers m) (m_trailers m) (m_clen m) (m_hashed m) (m_hash m) (m_charenc m) (m_sample m) (m_complete m) (m_pipeline m) (m_dec_len m) (m_dec_hashed m) (m_dec_hash m) x (m_iri m) (m_uri m) (m_status_str m) (m_status m) (m_phrase m) (m_head m) (m_caching m) (m_notes m).
Definition m_set_iri (x : option str) (m : mstate) : mstate :=
  mkMsg (m_type m) (m_start m) (m_no_content m) (m_version m) (m_base m) (m_headers m) (m_trailers m) (m_clen m) (m_hashed m) (m_hash m) (m_charenc m) (m_sample m) (m_complete m) (m_pipeline m) (m_dec_len m) (m_dec_hashed m) (m_dec_hash m) (m_method m) x (m_uri m) (m_status_str m) (m_status m) (m_phrase m) (m_head m) (m_caching m) (m_notes m).
Definition m_set_uri (x : option str) (m : mstate) : mstate :=
  mkMsg (m_type m) (m_start m) (m_no_content m) (m_version m) (m_base m) (m_headers m) (m_trailers m) (m_clen m) (m_hashed m) (m_hash m) (m_charenc m) (m_sample m) (m_complete m) (m_pipeline m) (m_dec_len m) (m_dec_hashed m) (m_dec_hash m) (m_method m) (m_iri m) x (m_status_str m) (m_status m) (m_phrase m) (m_head m) (m_caching m) (m_notes m).
Definition m_set_status_str (x : option str) (m : mstate) : mstate :=
  mkMsg (m_type m) (m_start m) (m_no_content m) (m_version m) (m_base m) (m_headers m) (m_trailers m) (m_clen m) (m_hashed m) (m_hash m) (m_charenc m) (m_sample m) (m_complete m) (m_pipeline m) (m_dec_len m) (m_dec_hashed m) (m_dec_hash m) (m_method m) (m_iri m) (m_uri m) x (m_status m) (m_phrase m) (m_head m) (m_caching m) (m_notes m).
Definition m_set_status (x : option Z) (m : mstate) : mstate :=
  mkMsg (m_type m) (m_start m) (m_no_content m) (m_version m) (m_base m) (m_headers m) (m_trailers m) (m_clen m) (m_hashed m) (m_hash m) (m_charenc m) (m_sample m) (m_complete m) (m_pipeline m) (m_dec_len m) (m_dec_hashed m) (m_dec_hash m) (m_method m) (m_iri m) (m_uri m) (m_status_str m) x (m_phrase m) (m_head m) (m_caching m) (m_notes m).
Definition m_set_phrase (x : option str) (m : mstate) : mstate :=
  mkMsg (m_type m) (m_start m) (m_no_content m) (m_version m) (m_base m) (m_headers m) (m_trailers m) (m_clen m) (m_hashed m) (m_hash m) (m_charenc m) (m_sample m) (m_complete m) (m_pipeline m) (m_dec_len m) (m_dec_hashed m) (m_dec_hash m) (m_method m) (m_iri m) (m_uri m) (m_status_str m) (m_status m) x (m_head m) (m_caching m) (m_notes m).
Definition m_set_caching (x : option caching) (m : mstate) : mstate :=
  mkMsg (m_type m) (m_start m) (m_no_content m) (m_version m) (m_base m) (m_headers m) (m_trailers m) (m_clen m) (m_hashed m) (m_hash m) (m_charenc m) (m_sample m) (m_complete m) (m_pipeline m) (m_dec_len m) (m_dec_hashed m) (m_dec_hash m) (m_method m) (m_iri m) (m_uri m) (m_status_str m) (m_status m) (m_phrase m) (m_head m) x (m_notes m).
Definition m_set_version (x : str) (m : mstate) : mstate :=
  mkMsg (m_type m) (m_start m) (m_no_content m) x (m_base m) (m_headers m) (m_trailers m) (m_clen m) (m_hashed m) (m_hash m) (m_charenc m) (m_sample m) (m_complete m) (m_pipeline m) (m_dec_len m) (m_dec_hashed m) (m_dec_hash m) (m_method m) (m_iri m) (m_uri m) (m_status_str m) (m_status m) (m_phrase m) (m_head m) (m_caching m) (m_notes m).

(** ** content_encoding.py *)

Definition max_decompressed : N := 104857600.  (* content_encoding.py:14 *)
(** content_encoding.py:168-176, 178-186: skip a zero-terminated string *)
Fixpoint skip_zero (b : bytes) : option bytes :=
  match b with
  | [] => None
  | c :: b' => if c =? 0 then Some b' else skip_zero b'
  end.
Definition skip_if (flag bit : N) (f : bytes -> option bytes) (b : bytes) : option bytes :=
  if N.testbit flag bit then f b else Some b.
Definition skip_n (n : nat) (b : bytes) : option bytes :=
  if Nat.ltb (length b) n then None else Some (skipn n b).
(** content_encoding.py:158-166 *)
Definition skip_extra (b : bytes) : option bytes :=
  match b with
  | x :: y :: b' => skip_n (N.to_nat (x + 256 * y)) b'
  | _ => None
  end.
Definition hex_digit (n : N) : N := if n <? 10 then 48 + n else 87 + n.
Definition hex (b : bytes) : str := flat_map (fun c => [hex_digit (c / 16); hex_digit (c mod 16)]) b.
Inductive gzhead := GzMore | GzBad (why : str) | GzOk (rest : bytes).
(** content_encoding.py:133-193 [_read_gzip_header]: IndexError is [GzMore],
    IOError is [GzBad]; the flags in the order FEXTRA, FNAME, FCOMMENT, FHCRC *)
Definition gzip_header (b : bytes) : gzhead :=
  match b with
  | m1 :: m2 :: meth :: flag :: _ :: _ :: _ :: _ :: _ :: _ :: rest =>
      if negb ((m1 =? 31) && (m2 =? 139))
      then GzBad (u "Not a gzip header (magic is hex " ++ hex [m1; m2] ++ u ", should be 1f8b)")
      else if negb (meth =? 8) then GzBad (u "Unknown compression method")
      else
        match (match skip_if flag 2 skip_extra rest with
               | Some r => match skip_if flag 3 skip_zero r with
                           | Some r => match skip_if flag 4 skip_zero r with
                                       | Some r => skip_if flag 1 (skip_n 2) r
                                       | None => None
                                       end
                           | None => None
                           end
               | None => None
               end) with
        | Some r => GzOk r
        | None => GzMore
        end
  | _ => GzMore
  end.

(** [while True: ...] with at most [p] rounds: [inl] is the state to go on with. *)
Fixpoint iter_until {S R} (p : positive) (f : S -> S + R) (s : S) : S + R :=
  match p with
  | xH => f s
  | xO p' => match iter_until p' f s with inl s' => iter_until p' f s' | r => r end
  | xI p' => match f s with
             | inl s1 => match iter_until p' f s1 with inl s2 => iter_until p' f s2 | r => r end
             | r => r
             end
  end.

(** What a decoder adds: a note class and its variables. *)
Definition snote := (nid * vars)%type.
(** The state of the decompression loop of one gzip call: inputs so far, total
    decompressed, outputs passed on, the next input, first round. *)
Definition gzst := (list bytes * N * list bytes * bytes * bool)%type.
Definition gzres := (list bytes * N * list bytes * bool * list snote)%type.
(** content_encoding.py:110-131, one call of [decompress] and what follows *)
Definition gzip_step (e : env) (clen : N) (chunk : bytes) (s : gzst) : gzst + gzres :=
  let '(hist, total, outs, input, first) := s in
  match e_inflate e hist input with
  | inr err =>
      inr (hist ++ [input], total, outs, false,
           [(BAD_ZLIB, [vs "zlib_error" err; vs "ok_zlib_len" (f_num (Z.of_N clen));
                        vs "chunk_sample" (e_display e chunk)])])
  | inl (out, tail) =>
      let hist := hist ++ [input] in
      match out with
      | [] => if first && nonempty tail then inl (hist, total, outs, tail, false)
              else inr (hist, total, outs, true, [])
      | _ =>
          let total := total + N.of_nat (length out) in
          if max_decompressed <? total
          then inr (hist, total, outs, false, [(DECOMPRESSION_LIMIT, [])])
          else if nonempty tail then inl (hist, total, outs ++ [out], tail, false)
               else inr (hist, total, outs ++ [out], true, [])
      end
  end.
(** Each round but the first passes on at least one byte and the total stays
    under the limit, so this many rounds are never used up ([gzip_rounds_enough]). *)
Definition gzip_rounds : positive := 104857602.
Definition gzip_loop (e : env) (clen : N) (hist : list bytes) (total : N) (chunk : bytes) : gzres :=
  match iter_until gzip_rounds (gzip_step e clen chunk) (hist, total, [], chunk, true) with
  | inr r => r
  | inl (hist, total, outs, _, _) => (hist, total, outs, false, [])
  end.
(** content_encoding.py:88-131 [GzipProcessor.__call__], 218-243
    [BrotliProcessor.__call__]: what is passed to the next processor, the
    decoder's own note (after everything it passed on), the new state *)
Definition stage_feed (e : env) (clen : N) (s : stage) (chunk : bytes) : list bytes * list snote * stage :=
  match s with
  | Gzip hist in_gz buf total ok =>
      if negb ok then ([], [], s)
      else
        let run hist total chunk :=
          let '(hist, total, outs, ok, ns) := gzip_loop e clen hist total chunk in
          (outs, ns, Gzip hist true [] total ok) in
        if in_gz then run hist total chunk
        else match gzip_header (buf ++ chunk) with
             | GzMore => ([], [], Gzip hist false (buf ++ chunk) total true)
             | GzBad why => ([], [(BAD_GZIP, [vs "gzip_error" why])], Gzip hist false [] total false)
             | GzOk rest => run hist total rest
             end
  | Brotli hist total ok =>
      if negb ok then ([], [], s)
      else match e_brotli e hist chunk with
           | inr err =>
               ([], [(BAD_BROTLI, [vs "brotli_error" err; vs "ok_brotli_len" (f_num (Z.of_N clen));
                                   vs "chunk_sample" (e_display e chunk)])], Brotli (hist ++ [chunk]) total false)
           | inl [] => ([], [], Brotli (hist ++ [chunk]) total true)
           | inl out =>
               let total := total + N.of_nat (length out) in
               if max_decompressed <? total
               then ([], [(DECOMPRESSION_LIMIT, [])], Brotli (hist ++ [chunk]) total false)
               else ([out], [], Brotli (hist ++ [chunk]) total true)
           end
  end.
Fixpoint stage_feeds (e : env) (clen : N) (s : stage) (chunks : list bytes) : list bytes * list snote * stage :=
  match chunks with
  | [] => ([], [], s)
  | c :: cs =>
      let '(o1, n1, s1) := stage_feed e clen s c in
      let '(o2, n2, s2) := stage_feeds e clen s1 cs in
      (o1 ++ o2, n1 ++ n2, s2)
  end.
(** A whole pipeline, outermost decoder first.  A decoder adds at most one note
    and passes nothing on after it, so its note follows every note its output
    causes further on; feeding the decoders one after the other gives the notes
    in the order of the nested calls. *)
Fixpoint pipe_feed (e : env) (clen : N) (st : list stage) (chunks : list bytes)
  : list bytes * list snote * list stage :=
  match st with
  | [] => (chunks, [], [])
  | s :: st' =>
      let '(outs, own, s') := stage_feeds e clen s chunks in
      let '(res, ns, st'') := pipe_feed e clen st' outs in
      (res, ns ++ own, s' :: st'')
  end.

Definition content_sample_size : nat := N.to_nat 8192.  (* message.py:176 *)
(** content_encoding.py:66-70 [_sink_process], message.py:178-183
    [_content_sample_processor] *)
Definition sink (chunk : bytes) (m : mstate) : mstate :=
  m_set_sample (m_sample m ++ firstn (content_sample_size - length (m_sample m)) chunk)
    (m_set_dec_len (m_dec_len m + N.of_nat (length chunk))
       (m_set_dec_hashed (m_dec_hashed m ++ chunk) m)).
(** content_encoding.py:41-64 [_build_pipeline] *)
Definition stage_of (coding : str) : list stage :=
  if str_in coding [u "gzip"; u "x-gzip"] then [Gzip [] false [] 0 true]
  else if str_eqb coding (u "br") then [Brotli [] 0 true]
  else [].
Definition build_pipeline (m : mstate) : res (list stage) :=
  rmap (fun l => rev (flat_map (fun v => match v with VStr s => stage_of s | _ => [] end) l))
       (as_list (get_or m "content-encoding" (VList []))).
Definition ce_events (l : list snote) : list sev :=
  map (fun n : snote => (u "field-content-encoding", [], ENote (fst n) None (snd n) [])) l.
(** content_encoding.py:31-36 [feed_content] *)
Definition decode_content (e : env) (chunk : bytes) (m : mstate) : mstate * res unit :=
  match (match m_pipeline m with Some st => Ok st | None => build_pipeline m end) with
  | Err x => (m, Err x)
  | Ok st =>
      let '(outs, ns, st') := pipe_feed e (m_clen m) st [chunk] in
      (m_emit (ce_events ns) (m_set_pipeline (Some st') (fold_left (fun m o => sink o m) outs m)), Ok tt)
  end.

(** ** message.py *)

(** message.py:57-91, 200-204, 268-274 *)
Definition new_message (t : mtype) (start : option Q) (no_content : bool) : mstate :=
  mkMsg t start no_content [] [] (new_section false) (new_section true)
        0 [] None None [] false None 0 [] None None None None None None None false None [].

(** message.py:99-113 *)
Definition process_headers (e : env) (rel : option mstate) (headers : list (bytes * bytes)) (m : mstate)
  : mstate * res unit :=
  match process e rel false m headers with
  | (m1, Err x) => (m1, Err x)
  | (m1, Ok _) =>
      match m_get m1 "content-type" with
      | None => (m1, Ok tt)
      | Some v =>
          match rbind (index v 1) as_dict with
          | Err x => (m1, Err x)
          | Ok params =>
              match dget (u "charset") params with
              | Some (VStr enc) =>
                  match e_codec e enc with
                  | Ok _ => (m_set_charenc (Some enc) m1, Ok tt)
                  | Err ELookup | Err EType => (m1, Ok tt)
                  | Err x => (m1, Err x)
                  end
              | _ => (m1, Ok tt)
              end
          end
      end
  end.

(** message.py:115-124 *)
Definition feed_content (e : env) (chunk : bytes) (m : mstate) : mstate * res unit :=
  let m1 := m_set_clen (m_clen m + N.of_nat (length chunk)) m in
  if m_no_content m then (m1, Ok tt)
  else decode_content e chunk (m_set_hashed (m_hashed m1 ++ chunk) m1).

(** util.py:15-28 *)
Definition sub_delims : string := "!$&'()*+,;=".
Definition iri_pchar : string := "-.+~!$&'()*+,;=:@%".
Definition iri_to_uri (e : env) (iri : str) : res str :=
  rbind (e_urlsplit e iri) (fun p =>
  rbind (match split1 58 (u_netloc p) with
         | Some (host, port) => rmap (fun h => h ++ [58] ++ port) (e_idna e host)
         | None => e_idna e (u_netloc p)
         end) (fun authority =>
    Ok (e_unsplit e (mkUrl (u_scheme p) authority (e_quote e (u_path p) (u iri_pchar ++ u "/"))
                           (e_quote e (u_query p) (u iri_pchar ++ u "/?"))
                           (e_quote e (u_frag p) (u iri_pchar ++ u "/?")))))).

Definition note_msg (subj : string) (cls : nid) (vrs : vars) (m : mstate) : mstate :=
  m_emit [(u subj, [], ENote cls None vrs [])] m.
Definition max_uri_chars : nat := N.to_nat 8000.  (* message.py:198 *)
(** message.py:212-228 *)
Definition set_uri (e : env) (iri : str) (m : mstate) : mstate * res unit :=
  let m := m_set_iri (Some iri) m in
  match iri_to_uri e iri with
  | Err x =>
      if is_ValueError x then (m_set_uri (Some iri) (note_msg "uri" URI_BAD_SYNTAX [] m), Ok tt)
      else (m, Err x)
  | Ok uri =>
      let m := if match_ws_dollar rfc3986_URI uri then m else note_msg "uri" URI_BAD_SYNTAX [] m in
      let uri := match split1 35 uri with Some (a, _) => a | None => uri end in
      let m := m_set_uri (Some uri) m in
      (if Nat.ltb max_uri_chars (length uri)
       then note_msg "uri" URI_TOO_LONG [vs "uri_len" (f_num (Z.of_nat (length uri)))] m
       else m, Ok tt)
  end.
(** message.py:207-210 *)
Definition process_request_topline (e : env) (method iri version : bytes) (m : mstate) : mstate * res unit :=
  match set_uri e (e_utf8 e iri) (m_set_method (Some (decode_ascii_replace method)) m) with
  | (m1, Ok _) => (m_set_version (decode_ascii_replace version) m1, Ok tt)
  | r => r
  end.
(** message.py:285-301 *)
Definition process_response_topline (version status : bytes) (phrase : option bytes) (m : mstate) : mstate :=
  let s := decode_ascii_replace status in
  let m := m_set_status_str (Some s) (m_set_version (decode_ascii_replace version) m) in
  let m := match py_int s with
           | Some z => m_set_status (Some z) m
           | None => note_msg "status" STATUS_CODE_NON_NUMERIC [] m
           end in
  match phrase with
  | Some (c :: b) =>
      match decode_ascii_strict (c :: b) with
      | Some p => m_set_phrase (Some p) m
      | None => note_msg "status" STATUS_PHRASE_ENCODING []
                  (m_set_phrase (Some (decode_ascii_replace (c :: b))) m)
      end
  | _ => m
  end.

(** message.py:167-169, 230-231, 303-308 *)
Definition can_have_content (m : mstate) : bool :=
  match m_type m with
  | MResponse => negb (m_head m) && negb (status_is_in [304]%Z (m_status m))
  | _ => true
  end.

(** Run a check whose events go straight to [message.notes]. *)
Definition run_check {A} (w : W A) (m : mstate) : mstate * res A :=
  (m_emit (tag [] [] (fst w)) m, snd w).
Definition then_ (r : mstate * res unit) (k : mstate -> mstate * res unit) : mstate * res unit :=
  match r with (m, Ok _) => k m | r => r end.

(** message.py:241-259 *)
Definition undefined_content : list str := map u ["GET"; "HEAD"; "DELETE"; "CONNECT"; "TRACE"]%string.
Definition request_post_checks (m : mstate) : mstate * res unit :=
  then_ (run_check (check_preflight_request m) m) (fun m =>
    let m := if m_has m "user-agent" then m else note_msg "field-user-agent" MISSING_USER_AGENT [] m in
    (match m_method m with
     | Some s =>
         if (0 <? m_clen m) && str_in s undefined_content && negb (m_no_content m)
         then note_msg "message" REQUEST_CONTENT_NOT_DEFINED [vs "method" s] m
         else m
     | None => m
     end, Ok tt)).
(** message.py:310-316; the second component is the related request, to which
    cache.py:74 may add a note *)
Definition response_post_checks (e : env) (rel : option mstate) (m : mstate)
  : mstate * option mstate * res unit :=
  match run_check (check_preflight_response m rel) m with
  | (m, Err x) => (m, rel, Err x)
  | (m, Ok _) =>
      let '(l, lreq, r) := cache_check m rel in
      let m := m_emit (tag [] [] l) m in
      let rel := option_map (m_emit (tag [] [] lreq)) rel in
      match r with
      | Err x => (m, rel, Err x)
      | Ok k =>
          let m := m_set_caching (Some k) m in
          let '(m, r) :=
            then_ (run_check (check_status m rel) m) (fun m =>
              if m_no_content m then (m, Ok tt)
              else then_ (run_check (verify_content_type e m) m) (fun m => run_check (verify_charset e m) m)) in
          (m, rel, r)
      end
  end.
Definition post_checks (e : env) (rel : option mstate) (m : mstate) : mstate * option mstate * res unit :=
  match m_type m with
  | MRequest => let '(m, r) := request_post_checks m in (m, rel, r)
  | MResponse => response_post_checks e rel m
  | MMessage => (m, rel, Ok tt)
  end.

(** message.py:156-165: post_check of one handler *)
Definition post_one (e : env) (rel : option mstate) (tr : bool) (m : mstate) (h : handler) : mstate * res unit :=
  match h_val h with
  | VNone => (m, Ok tt)
  | _ =>
      let '(l, r) := post_of (h_cls h) (mkCx e m rel) h in
      (m_emit (tag (field_subj h) (sec_base tr h) l) m, r)
  end.
Fixpoint post_all (e : env) (rel : option mstate) (tr : bool) (m : mstate) (l : list (str * handler))
  : mstate * res unit :=
  match l with
  | [] => (m, Ok tt)
  | (_, h) :: l' => then_ (post_one e rel tr m h) (fun m => post_all e rel tr m l')
  end.

(** message.py:135-153 *)
Definition check_content_length (m : mstate) : mstate :=
  if can_have_content m then
    match m_get m "content-length" with
    | Some v =>
        if m_no_content m then m
        else if match v with VInt z => Z.eqb z (Z.of_N (m_clen m)) | _ => false end
             then note_msg "field-content-length" CL_CORRECT [] m
             else note_msg "field-content-length" CL_INCORRECT
                    [vs "content_length" (f_num (Z.of_N (m_clen m)))] m
    | None => m
    end
  else if (0 <? m_clen m) && negb (m_no_content m)
       then note_msg "message" CONTENT_NOT_ALLOWED [] m
       else m.
(** message.py:126-165 [finish_content]: the message, the related message *)
Definition finish_content (e : env) (rel : option mstate) (complete : bool)
    (trailers : list (bytes * bytes)) (m : mstate) : mstate * option mstate * res unit :=
  let m := m_set_hash (Some (e_md5 e (m_hashed m))) (m_set_complete complete m) in
  match (match trailers with [] => (m, Ok tt) | _ => process e rel true m trailers end) with
  | (m, Err x) => (m, rel, Err x)
  | (m, Ok _) =>
      let m := check_content_length (m_set_dec_hash (Some (e_md5 e (m_dec_hashed m))) m) in
      let '(m, rel, r) := post_checks e rel m in
      match r with
      | Err x => (m, rel, Err x)
      | Ok _ =>
          let '(m, r) :=
            then_ (post_all e rel false m (s_handlers (m_headers m)))
                  (fun m => post_all e rel true m (s_handlers (m_trailers m))) in
          (m, rel, r)
      end
  end.

(** Feeding a list of chunks, one [feed_content] each. *)
Fixpoint feed_all (e : env) (chunks : list bytes) (m : mstate) : mstate * res unit :=
  match chunks with
  | [] => (m, Ok tt)
  | c :: cs => then_ (feed_content e c m) (feed_all e cs)
  end.
