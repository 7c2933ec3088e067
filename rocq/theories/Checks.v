(** * Whole-message checks: cors.py, cache.py, status.py, content_type.py,
    charset.py.  They add notes directly to [message.notes]: [EMsg] events. *)
From Verif Require Import PyStr Regex Grammar Note PyLib Utils FieldAttrs Types Fields1 Fields2 Fields3 Framework.
Open Scope N_scope.

Definition msg (subj : string) (cls : nid) (vrs : vars) : W unit := tell [EMsg (u subj) cls vrs].
Definition m_has (m : mstate) (k : string) : bool := dmem (u k) (s_parsed (m_headers m)).
Definition m_get (m : mstate) (k : string) : option pyval := dget (u k) (s_parsed (m_headers m)).
Definition method_is (m : mstate) (k : string) : bool :=
  match m_method m with Some s => str_eqb s (u k) | None => false end.

(** ** cors.py *)

(** cors.py:5-13 *)
Definition is_preflight (m : mstate) : bool :=
  method_is m "OPTIONS" && m_has m "origin" && m_has m "access-control-request-method".
(** cors.py:16-49 *)
Definition check_preflight_request (m : mstate) : W unit :=
  when (is_preflight m)
    (msg "method field-access-control-request-method field-access-control-request-headers"
         CORS_PREFLIGHT_REQUEST []) ;;;
  let has_method := m_has m "access-control-request-method" in
  let has_headers := m_has m "access-control-request-headers" in
  when (has_method || has_headers)
    (when (negb (method_is m "OPTIONS"))
       (msg "method" CORS_PREFLIGHT_REQ_METHOD_WRONG
          [vl "field_name" "Access-Control-Request-Method"; vv "method" (opt_str (m_method m))]) ;;;
     when (negb (m_has m "origin"))
       (msg "field-origin" CORS_PREFLIGHT_REQ_NO_ORIGIN [vl "field_name" "Access-Control-Request-Method"]) ;;;
     when (negb has_method)
       (msg "field-access-control-request-headers" CORS_PREFLIGHT_REQ_NO_METHOD
          [vl "field_name" "Access-Control-Request-Headers"])).
(** cors.py:52-83 *)
Definition preflight_only : list string :=
  ["access-control-allow-headers"; "access-control-allow-methods"; "access-control-max-age"]%string.
Definition check_preflight_response (m : mstate) (rel : option mstate) : W unit :=
  (if match rel with Some r => is_preflight r | None => false end
   then msg "" CORS_PREFLIGHT_RESPONSE []
   else
     bad <- lift (mapR (fun k => match dget (u k) (s_handlers (m_headers m)) with
                                 | Some h => Ok (h_canon h)
                                 | None => Err EKey
                                 end) (filter (m_has m) preflight_only)) ;;
     when (nonempty bad)
       (msg "header-access-control-allow-headers" CORS_PREFLIGHT_ONLY [vs "headers" (join (u ", ") bad)])) ;;;
  match m_get m "access-control-allow-origin" with
  | Some (VStr s) =>
      when (has_chr 32 s || has_chr 44 s)
           (msg "header-access-control-allow-origin" ACAO_MULTIPLE_VALUES [])
  | _ => ret tt
  end.

(** ** cache.py *)

Definition cacheable_methods : list str := map u ["GET"; "HEAD"]%string.      (* cache.py:9 *)
Definition heuristic_status : list Z := [200; 203; 206; 300; 301; 410]%Z.     (* cache.py:10 *)
Definition status_is_in (l : list Z) (s : option Z) : bool :=
  match s with Some z => existsb (Z.eqb z) l | None => false end.

(** A Python number: int or float. *)
Inductive num := NInt (z : Z) | NFloat (q : Q).
Definition num_q (n : num) : Q := match n with NInt z => inject_Z z | NFloat q => q end.
(** [a - n] for an int [a]: float arithmetic if [n] is a float (overflow is an
    error; rounding is ignored) *)
Definition int_sub (a : Z) (n : num) : res num :=
  match n with
  | NInt z => Ok (NInt (a - z))
  | NFloat q => rmap (fun x => NFloat (x - q)%Q) (int_to_float a)
  end.
Definition num_int (n : num) : Z := match n with NInt z => z | NFloat q => q_trunc q end.
Definition num_pos (n : num) : bool := q_gt (num_q n) 0.

(** cache.py:24-38: what the checker reads from the response and the request *)
Record cin := mkCin {
  i_age : pyval; i_date : pyval; i_expires : pyval; i_lm : pyval; i_etag : pyval;
  i_vary : pyval; i_cc : dict pyval;
  i_names : list str;          (* lower-cased header names *)
  i_status : option Z;
  i_req : option mstate;
  i_req_time : option Q; i_resp_time : option Q }.
Definition get_or (m : mstate) (k : string) (d : pyval) : pyval :=
  match m_get m k with Some v => v | None => d end.
Definition lower_names (m : mstate) : list str := map (fun nv => lower (fst nv)) (s_text (m_headers m)).
Definition cache_in (m : mstate) (rel : option mstate) : res cin :=
  rmap (fun pairs =>
          mkCin (get_or m "age" (VInt 0)) (get_or m "date" VNone) (get_or m "expires" VNone)
                (get_or m "last-modified" VNone) (get_or m "etag" VNone) (get_or m "vary" (VList []))
                (dupdate [] pairs) (lower_names m) (m_status m) rel
                (match rel with Some r => m_start r | None => None end) (m_start m))
       (cc_pairs (get_or m "cache-control" (VList []))).
Definition cc_has (i : cin) (k : string) : bool := dmem (u k) (i_cc i).

(** cache.py:51-64 *)
Definition check_basic (i : cin) : W bool :=
  star <- lift (py_in (u "*") (i_vary i)) ;;
  if star then ret false
  else
    when (negb (str_in (u "date") (i_names i)))
      (msg "" DATE_CLOCKLESS [] ;;;
       when (str_in (u "expires") (i_names i) || str_in (u "last-modified") (i_names i))
            (msg "field-expires field-last-modified" DATE_CLOCKLESS_BAD_HDR [])) ;;;
    ret true.

(** cache.py:68-75: the note goes to the request *)
Definition method_uncacheable (i : cin) : option str :=
  match i_req i with
  | Some r => match m_method r with
              | Some s => if nonempty s && negb (str_in s cacheable_methods) then Some s else None
              | None => None
              end
  | None => None
  end.
(** cache.py:66-123 after the method test: (go on, store_private, store_shared) *)
Definition check_storable (i : cin) : W (bool * bool * bool) :=
  if cc_has i "no-store" then
    msg "field-cache-control" STORE_NO_STORE [] ;;; ret (false, false, false)
  else if cc_has i "private" then
    msg "field-cache-control" STORE_PRIVATE_CC [] ;;;
    when (cc_has i "public") (msg "field-cache-control" STORE_PRIVATE_PUBLIC_CONFLICT []) ;;;
    ret (true, true, false)
  else if match i_req i with Some r => str_in (u "authorization") (lower_names r) | None => false end then
    let auth d := (msg "field-cache-control" STORE_PUBLIC_AUTH [vl "directive" d] ;;; ret (true, true, true)) in
    if cc_has i "public" then auth "public"%string
    else if cc_has i "must-revalidate" then auth "must-revalidate"%string
    else if cc_has i "s-maxage" then auth "s-maxage"%string
    else msg "field-cache-control" STORE_PRIVATE_AUTH [] ;;; ret (true, true, false)
  else if cc_has i "public" || cc_has i "private" || truthy (i_expires i) || cc_has i "max-age"
          || status_is_in heuristic_status (i_status i) then
    msg "field-cache-control" STORE_STORABLE [] ;;; ret (true, true, true)
  else if cc_has i "s-maxage" then
    msg "field-cache-control" STORE_STORABLE_SHARED_ONLY [] ;;; ret (true, true, true)
  else
    msg "field-cache-control" STORE_UNSTORABLE [] ;;; ret (false, true, true).

(** [v or d] where a missing or empty value is falsy *)
Definition int_or (v : pyval) (d : Z) : res Z :=
  if truthy v then as_int v else Ok d.
(** cache.py:125-146 *)
Definition check_age (i : cin) : W num :=
  apparent <- lift (match q_truthy (i_resp_time i) with
                    | Some t =>
                        if truthy (i_date i)
                        then rmap (fun d => if (0 <? d)%Z then Z.max 0 (q_trunc t - d) else 0%Z) (as_int (i_date i))
                        else Ok 0%Z
                    | None => Ok 0%Z
                    end) ;;
  corrected <- lift (match q_truthy (i_req_time i), q_truthy (i_resp_time i) with
                     | Some a, Some b =>
                         rbind (as_int (i_age i)) (fun z =>
                           rmap (fun x => NFloat (x + (b - a))%Q) (int_to_float z))
                     | _, _ => match i_age i with
                               | VNone => Ok (NInt 0)
                               | v => rmap NInt (as_int v)
                               end
                     end) ;;
  let age := if q_gt (num_q corrected) (inject_Z apparent) then corrected else NInt apparent in
  when (Qle_bool 1 (num_q age))
       (msg "field-age field-date" CURRENT_AGE [vv "age" (relative_time (num_q age) 0 0)]) ;;;
  ret age.

(** cache.py:148-171: the two lifetimes, whether they are explicit, and the
    subject of the notes *)
Definition expires_present (i : cin) : bool := str_in (u "expires") (i_names i).
Definition cc_int (i : cin) (k : string) : res (option Z) :=
  match dget (u k) (i_cc i) with
  | Some v => rmap Some (as_int v)
  | None => Ok None
  end.
Record fresh := mkFresh { f_priv : Z; f_shared : Z; f_explicit : bool; f_subj : list str }.
Definition lifetimes (i : cin) : res fresh :=
  rbind (match q_truthy (i_resp_time i) with
         | Some t =>
             if expires_present i
             then rbind (int_or (i_expires i) 0) (fun x =>
                    rmap (fun d => mkFresh (x - d) (x - d) true [u "field-date"; u "field-expires"])
                         (int_or (i_date i) (q_trunc t)))
             else Ok (mkFresh 0 0 false [u "field-date"])
         | None => Ok (mkFresh 0 0 false [u "field-date"])
         end) (fun f0 =>
  rbind (cc_int i "max-age") (fun ma =>
  rbind (cc_int i "s-maxage") (fun sm =>
    let f1 := match ma with
              | Some z => mkFresh z z true (f_subj f0 ++ [u "field-cache-control"])
              | None => f0
              end in
    Ok (match sm with
        | Some z => mkFresh (f_priv f1) z true (f_subj f1 ++ [u "field-cache-control"])
        | None => f1
        end)))).
Definition rel_int (z : Z) : pyval := relative_time (inject_Z z) 0 0.
Definition fresh_word (b : bool) : pyval := VStr (if b then u "fresh" else u "stale").
(** cache.py:173-236; the result: go on, is_fresh, is_shared_fresh *)
Definition check_freshness (i : cin) (age : num) (f : fresh) : W (bool * bool * bool) :=
  left <- lift (int_sub (f_priv f) age) ;;
  sleft <- lift (int_sub (f_shared f) age) ;;
  let is_fresh := num_pos left in
  let is_shared := num_pos sleft in
  let left_str := rel_int (Z.abs (num_int left)) in
  let sleft_str := rel_int (Z.abs (num_int sleft)) in
  let subj := join (u " ") (f_subj f) in
  let age_str := relative_time (num_q age) 0 0 in
  if cc_has i "no-cache" then
    (match i_lm i, i_etag i with
     | VNone, VNone => msg "field-cache-control" FRESHNESS_NO_CACHE_NO_VALIDATOR []
     | _, _ => msg "field-cache-control" FRESHNESS_NO_CACHE []
     end) ;;;
    ret (false, is_fresh, is_shared)
  else
    heuristic <-
      (if f_explicit f then
         (if negb (f_shared f =? f_priv f)%Z then
            tell [EMsg subj FRESHNESS_SHARED_PRIVATE
                    [vv "fresh_lifetime" (rel_int (f_priv f)); vv "fresh_left" left_str;
                     vv "share_lifetime" (rel_int (f_shared f)); vv "share_left" sleft_str;
                     vv "private_status" (fresh_word is_fresh); vv "shared_status" (fresh_word is_shared)]]
          else
            tell [EMsg subj (if is_fresh || is_shared then FRESHNESS_FRESH else FRESHNESS_STALE_ALREADY)
                    [vv "freshness_lifetime" (rel_int (f_priv f)); vv "freshness_left" left_str;
                     vv "current_age" age_str]]) ;;;
         when (cc_has i "max-age" && expires_present i)
              (msg "field-expires field-cache-control" CC_AND_EXPIRES []) ;;;
         ret false
       else if status_is_in heuristic_status (i_status i) then
         msg "field-last-modified" FRESHNESS_HEURISTIC [] ;;; ret true
       else msg "" FRESHNESS_NONE [] ;;; ret false) ;;
    when (cc_has i "public" && (f_explicit f || heuristic))
         (msg "field-cache-control" STORE_PUBLIC_UNNECESSARY []) ;;;
    ret (true, is_fresh, is_shared).
(** cache.py:238-260 *)
Definition check_stale (i : cin) (f : fresh) (is_fresh is_shared : bool) : W unit :=
  let cc n := msg "field-cache-control" n [] in
  when (cc_has i "stale-while-revalidate") (cc STALE_WHILE_REVALIDATE) ;;;
  if cc_has i "stale-if-error" then cc STALE_IF_ERROR
  else if cc_has i "must-revalidate" then
    (if is_fresh then cc FRESH_MUST_REVALIDATE else when (f_explicit f) (cc STALE_MUST_REVALIDATE))
  else if cc_has i "proxy-revalidate" || cc_has i "s-maxage" then
    (if is_shared then cc FRESH_PROXY_REVALIDATE else when (f_explicit f) (cc STALE_PROXY_REVALIDATE))
  else cc STALE_SERVABLE.

(** cache.py:13-49: the notes for the response, the note for the request if
    any, and the attributes of the finished checker *)
Definition cache_check (m : mstate) (rel : option mstate) : list ev * list ev * res caching :=
  match cache_in m rel with
  | Err e => ([], [], Err e)
  | Ok i =>
      let '(l1, r1) := check_basic i in
      match r1 with
      | Err e => (l1, [], Err e)
      | Ok false => (l1, [], Ok (mkCaching 0 false false 0 0))
      | Ok true =>
          match method_uncacheable i with
          | Some meth =>
              (l1, [EMsg (u "method") STORE_METHOD_UNCACHEABLE [vs "method" meth]],
               Ok (mkCaching 0 false false 0 0))
          | None =>
              let '(l2, r2) :=
                (st <- check_storable i ;;
                 let '(go, sp, ss) := st in
                 if negb go then ret (mkCaching 0 sp ss 0 0)
                 else
                   age <- check_age i ;;
                   f <- lift (lifetimes i) ;;
                   x <- check_freshness i age f ;;
                   let '(go, fr, sh) := x in
                   when go (check_stale i f fr sh) ;;;
                   ret (mkCaching (num_q age) sp ss (f_priv f) (f_shared f))) in
              (l1 ++ l2, [], r2)
          end
      end
  end.

(** ** status.py *)

(** status.py:17-33 [get_header] *)
Definition get_header (m : mstate) (name : string) : list str :=
  map strip (flat_map (fun nv : str * str =>
                         if str_eqb (lower (fst nv)) (u name) then split_all 44 (snd nv) else [])
                      (s_text (m_headers m))).
Definition safe_methods : list str := map u ["GET"; "HEAD"; "OPTIONS"; "TRACE"]%string.  (* status.py:14 *)
(** status.py:20-314 [StatusChecker] *)
Definition check_status (m : mstate) (rel : option mstate) : W unit :=
  let st := match m_status m with Some z => z | None => 0%Z end in
  let note (subj : string) n vrs := tell [EMsg (u subj) n (vv "status" (VInt st) :: vrs)] in
  let simple n := note ""%string n [] in
  let req (f : mstate -> bool) := match rel with Some r => f r | None => false end in
  let lacks name := req (fun r => negb (nonempty (get_header r name))) in
  let no_location := when (negb (m_has m "location")) (note "field-location"%string REDIRECT_WITHOUT_LOCATION []) in
  match m_status m with
  | None => note "status"%string STATUS_NONSTANDARD []
  | Some z =>
      match z with
      | 100%Z => when (req (fun r => negb (str_in (u "100-continue") (get_header r "expect"))))
                      (note "status"%string UNEXPECTED_CONTINUE [])
      | 101%Z => when (lacks "upgrade"%string) (note "status"%string UPGRADE_NOT_REQUESTED [])
      | 102%Z => ret tt
      | 103%Z => simple STATUS_EARLY_HINTS
      | 104%Z => simple STATUS_UPLOAD_RESUMPTION_SUPPORTED
      | 200%Z => ret tt
      | 201%Z =>
          when (req (fun r => match m_method r with Some s => str_in s safe_methods | None => false end))
               (note "status"%string CREATED_SAFE_METHOD
                  [vs "method" (match rel with
                                | Some r => match m_method r with Some s => s | None => [] end
                                | None => [] end)]) ;;;
          when (negb (m_has m "location")) (note "field-location"%string CREATED_WITHOUT_LOCATION [])
      | 202%Z | 203%Z | 204%Z | 205%Z => ret tt
      | 206%Z =>
          when (lacks "range"%string) (simple PARTIAL_NOT_REQUESTED) ;;;
          when (negb (m_has m "content-range")) (note "field-location"%string PARTIAL_WITHOUT_RANGE [])
      | 207%Z => ret tt
      | 208%Z => simple STATUS_ALREADY_REPORTED
      | 226%Z | 300%Z => ret tt
      | 301%Z | 302%Z | 303%Z => no_location
      | 304%Z =>
          when (negb (m_has m "date")) (note "status"%string NO_DATE_304 []) ;;;
          let bad := filter (m_has m) ["content-type"; "content-encoding"; "content-language"]%string in
          when (nonempty bad)
               (note "field-content-type"%string HEADER_SHOULD_NOT_BE_IN_304
                  [vv "headers" (markdown_list (map u bad) bt)])
      | 305%Z => simple STATUS_DEPRECATED
      | 306%Z => simple STATUS_RESERVED
      | 307%Z | 308%Z => no_location
      | 400%Z => simple STATUS_BAD_REQUEST
      | 401%Z | 402%Z => ret tt
      | 403%Z => simple STATUS_FORBIDDEN
      | 404%Z => simple STATUS_NOT_FOUND
      | 405%Z =>
          let method := match rel with Some r => m_method r | None => Some (u "request") end in
          hit <- lift (match method, m_get m "allow" with
                       | Some (c :: s), Some a => py_in (c :: s) a
                       | _, _ => Ok false
                       end) ;;
          if hit then note "field-allow"%string STATUS_405_METHOD_IN_ALLOW [vv "method" (opt_str method)]
          else note ""%string STATUS_METHOD_NOT_ALLOWED [vv "method" (opt_str method)]
      | 406%Z =>
          if req (fun r => negb (existsb (fun h => nonempty (get_header r h))
                                   ["accept"; "accept-charset"; "accept-encoding"; "accept-language"]%string))
          then simple STATUS_406_WITHOUT_NEGOTIATION
          else simple STATUS_NOT_ACCEPTABLE
      | 407%Z | 408%Z => ret tt
      | 409%Z => simple STATUS_CONFLICT
      | 410%Z => simple STATUS_GONE
      | 411%Z => ret tt
      | 412%Z =>
          if req (fun r => negb (existsb (fun h => nonempty (get_header r h))
                                   ["if-match"; "if-none-match"; "if-modified-since";
                                    "if-unmodified-since"; "if-range"]%string))
          then simple STATUS_412_WITHOUT_PRECONDITION
          else simple STATUS_PRECONDITION_FAILED
      | 413%Z => simple STATUS_REQUEST_ENTITY_TOO_LARGE
      | 414%Z =>
          note "uri"%string STATUS_URI_TOO_LONG
            [vs "uri_len" (match rel with
                           | Some r => match m_uri r with
                                       | Some (c :: s) => u "(" ++ dec_nat (S (length s)) ++ u " characters)"
                                       | _ => []
                                       end
                           | None => []
                           end)]
      | 415%Z => simple STATUS_UNSUPPORTED_MEDIA_TYPE
      | 416%Z => when (lacks "range"%string) (simple STATUS_416_WITHOUT_RANGE)
      | 417%Z =>
          match rel with
          | Some r =>
              let ex := get_header r "expect" in
              if negb (nonempty ex) then simple STATUS_417_WITHOUT_EXPECT
              else if str_in (u "100-continue") ex then simple STATUS_417_WITH_100_CONTINUE
              else simple STATUS_EXPECTATION_FAILED
          | None => simple STATUS_EXPECTATION_FAILED
          end
      | 418%Z => simple STATUS_IM_A_TEAPOT
      | 421%Z => simple STATUS_MISDIRECTED_REQUEST
      | 422%Z | 423%Z | 424%Z => ret tt
      | 425%Z => simple STATUS_TOO_EARLY
      | 426%Z => ret tt
      | 428%Z => simple STATUS_PRECONDITION_REQUIRED
      | 429%Z => simple STATUS_TOO_MANY_REQUESTS
      | 431%Z => simple STATUS_REQUEST_HEADER_FIELDS_TOO_LARGE
      | 451%Z => simple STATUS_UNAVAILABLE_FOR_LEGAL_REASONS
      | 500%Z => simple STATUS_INTERNAL_SERVICE_ERROR
      | 501%Z => simple STATUS_NOT_IMPLEMENTED
      | 502%Z => simple STATUS_BAD_GATEWAY
      | 503%Z => simple STATUS_SERVICE_UNAVAILABLE
      | 504%Z => simple STATUS_GATEWAY_TIMEOUT
      | 505%Z => simple STATUS_VERSION_NOT_SUPPORTED
      | 506%Z | 507%Z => ret tt
      | 508%Z => simple STATUS_LOOP_DETECTED
      | 510%Z => ret tt
      | 511%Z => simple STATUS_NETWORK_AUTHENTICATION_REQUIRED
      | _ => note "status"%string STATUS_NONSTANDARD []
      end
  end.

(** ** content_type.py, charset.py *)

(** content_type.py:25-29, charset.py:44-48 *)
Definition no_full_content (m : mstate) : bool :=
  match m_status m with
  | Some z => existsb (Z.eqb z) [204; 205; 304; 206]%Z || ((100 <=? z)%Z && (z <? 199)%Z)
  | None => false
  end || m_head m.
Definition hash_present (m : mstate) : bool :=
  match m_hash m with Some h => nonempty h | None => false end.
(** content_type.py:18-59 *)
Definition verify_content_type (e : env) (m : mstate) : W unit :=
  if negb (hash_present m) || no_full_content m then ret tt
  else match m_get m "content-type" with
       | None => ret tt
       | Some v =>
           t <- lift (index v 0) ;;
           if negb (truthy t) then ret tt
           else
             declared <- lift (as_str t) ;;
             match e_sniff e (m_sample m) declared with
             | None => ret tt
             | Some sniffed =>
                 if str_eqb sniffed declared then ret tt
                 else if str_eqb declared (u "text/html")
                         && str_in sniffed [u "application/rss+xml"; u "application/atom+xml"]
                 then ret tt
                 else msg "content-type" CONTENT_TYPE_MISMATCH
                        [vs "declared_type" declared; vs "sniffed_type" sniffed]
             end
       end.

(** charset.py:16-25 *)
Definition requires_utf8 (t : str) : bool :=
  str_in t [u "application/json"; u "text/json"]
  || endswith (u "+json") (match split1 47 t with Some (_, b) => b | None => t end).
(** charset.py:28-32 [_canonical]: LookupError and TypeError are caught *)
Definition canonical (e : env) (name : str) : W (option str) :=
  match e_codec e name with
  | Ok s => ret (Some s)
  | Err ELookup | Err EType => ret None
  | Err x => raise x
  end.
(** [try: b.decode(c) except (UnicodeDecodeError, LookupError): None] *)
Definition try_decode (e : env) (c : str) (b : bytes) : W (option str) :=
  match e_decode e c b with
  | Ok s => ret (Some s)
  | Err EDecode | Err ELookup => ret None
  | Err x => raise x
  end.
(** charset.py:123-137 *)
Definition compatible (e : env) (declared detected : str) (sample : bytes) : W bool :=
  a <- try_decode e declared sample ;;
  match a with
  | None => ret false
  | Some x =>
      b <- try_decode e detected sample ;;
      ret (match b with Some y => str_eqb x y | None => false end)
  end.
(** charset.py:35-120 *)
Definition verify_charset (e : env) (m : mstate) : W unit :=
  if negb (hash_present m) || negb (nonempty (m_sample m)) || no_full_content m then ret tt
  else match m_get m "content-type" with
       | None => ret tt
       | Some v =>
           t <- lift (index v 0) ;;
           p <- lift (index v 1) ;;
           if negb (truthy t) then ret tt
           else
             declared <- lift (as_str t) ;;
             params <- lift (as_dict p) ;;
             let raw := match dget (u "charset") params with Some x => x | None => VNone end in
             eff <- (if requires_utf8 declared
                     then ret (Some (u "utf-8", match raw with VNone => true | _ => false end))
                     else if startswith (u "text/") declared && truthy raw
                          then s <- lift (as_str raw) ;; ret (Some (s, false))
                          else ret None) ;;
             match eff with
             | None => ret tt
             | Some (eff, implicit) =>
                 dc <- canonical e eff ;;
                 match dc with
                 | None => ret tt
                 | Some dc =>
                     let sample := m_sample m in
                     if forallb ascii_space sample then ret tt
                     else if forallb (fun b => b <? 128) sample then ret tt
                     else
                       dec <- try_decode e eff sample ;;
                       let '(det, conf) := e_chardet e sample in
                       detc <- (match det with
                                | Some (c :: s) => canonical e (c :: s)
                                | _ => ret None
                                end) ;;
                       match dec with
                       | None =>
                           msg "content-type" CHARSET_UNDECODABLE
                             [vs "declared_charset" eff;
                              vs "detected_charset" (match det with Some (c :: s) => c :: s | _ => u "unknown" end)]
                       | Some _ =>
                           match detc with
                           | Some (c :: s) =>
                               if str_eqb (c :: s) dc || negb (Qle_bool (1 # 2) conf) then ret tt
                               else
                                 ok <- compatible e dc (c :: s) sample ;;
                                 if ok then ret tt
                                 else if implicit then
                                   msg "content-type" CHARSET_IMPLICIT_MISMATCH
                                     [vs "media_type" declared; vs "declared_charset" eff;
                                      vv "detected_charset" (opt_str det)]
                                 else
                                   msg "content-type" CHARSET_MISMATCH
                                     [vs "declared_charset" eff; vv "detected_charset" (opt_str det)]
                           | _ => ret tt
                           end
                       end
                 end
             end
       end.
