(** * Field linters, accept .. content_range (httplint/field/parsers/*.py).

    [p_x] models [x.parse], [ev_x] models [x.evaluate] (it returns the new
    [self.value]), [pc_x] models [x.post_check].  A Structured Field's evaluate
    gets the parsed value in typed form (it only ever runs right after a
    successful parse, structured_field.py:83-84). *)
From Verif Require Import PyStr Regex Grammar Note PyLib Utils FieldAttrs Types.
Open Scope N_scope.

Definition ref_of (f : fname) : string := fa_ref (attrs f).

(** [try: a, b = s.split(c, 1) except ValueError: a, b = s, ""]. *)
Definition split_or (c : N) (s : str) : str * str :=
  match split1 c s with Some p => p | None => (s, []) end.

(** Parts of a Structured Field member as Python sees them. *)
Definition mem_head (m : member) : pyval :=
  match m with
  | MItem b _ => bare_val b
  | MInner l _ => VList (map (fun bp => item_val (fst bp) (snd bp)) l)
  end.
Definition mem_params (m : member) : sfparams :=
  match m with MItem _ p => p | MInner _ p => p end.
(** The Python dict of parameters. *)
Definition params_dict (p : sfparams) : dict pyval :=
  dupdate [] (map (fun kv => (fst kv, bare_val (snd kv))) p).
Definition sf_list_val (l : list member) : pyval := VList (map member_val l).
Definition sf_dict_val (d : dict member) : pyval :=
  VDict (map (fun kv => (fst kv, member_val (snd kv))) d).

(** isinstance(v, Token), isinstance(v, str) *)
Definition is_token (v : pyval) : bool := match v with VToken _ => true | _ => false end.
Definition is_str (v : pyval) : bool := match v with VStr _ | VMd _ => true | _ => false end.
Definition is_list (v : pyval) : bool := match v with VList _ => true | _ => false end.
Definition is_int (v : pyval) : bool := match v with VInt _ | VBool _ => true | _ => false end.
Definition is_true (v : pyval) : bool := match v with VBool true => true | _ => false end.

(** [self.message.caching.store_shared or ...store_private], false while there
    is no caching attribute. *)
Definition cacheable (c : cx) : bool :=
  match m_caching (cx_msg c) with
  | Some k => c_store_shared k || c_store_private k
  | None => false
  end.
(** [headers.parsed.get(k, [])]. *)
Definition hdr_list (c : cx) (k : string) : pyval :=
  match hdr c k with Some v => v | None => VList [] end.

(** ** accept.py *)

(** accept.py:46-58, accept_language.py:43-55: the q parameter.  The
    dictionary without "q", and the q value or None; [true] says it was bad. *)
Definition pop {A} (k : str) (d : dict A) : dict A := filter (fun kv => negb (str_eqb k (fst kv))) d.
Definition q_value (q : option str) : option pyfloat :=
  match q with
  | None => None
  | Some s =>
      if Nat.ltb 5 (length s) then None
      else match py_float s with
           | Some (FFin x) => if Qle_bool 0 x && Qle_bool x 1 then Some (FFin x) else None
           | _ => None
           end
  end.
Definition kq : str := u "q".
(** accept.py:35-60 *)
Definition p_accept (c : cx) (h : handler) (v : str) : W pyval :=
  p <- parse_media_type (cx_env c) v (Some ACCEPT_BAD_SYNTAX) (Some (ref_of F_accept)) true
         (NoStarList [kq]) ;;
  let '(mt, d) := p in
  match dget kq d with
  | None => ret (VTuple [VStr mt; param_dict_val d; VNone])
  | Some q =>
      match q_value q with
      | Some f => ret (VTuple [VStr mt; param_dict_val (pop kq d); VFloat f])
      | None => add_note BAD_Q_VALUE [vs "media_type" mt] ;;;
                ret (VTuple [VStr mt; param_dict_val (pop kq d); VNone])
      end
  end.

(** accept_ch.py:30-38 *)
Definition ev_accept_ch (c : cx) (h : handler) (l : list member) : W unit :=
  when (existsb (fun m => negb (is_token (mem_head m))) l)
       (add_note ACCEPT_CH_BAD_TYPE [vl "ref_uri" (ref_of F_accept_ch)]).
(** [v in l] for [v] a bare item or an inner list, [l] a list of strings. *)
Definition val_in (v : pyval) (l : pyval) : res bool :=
  match l with
  | VList xs => Ok (match str_of v with
                    | Some s => existsb (fun x => eq_text x s) xs
                    | None => false end)
  | _ => Err EType
  end.
(** accept_ch.py:40-64 *)
Definition pc_accept_ch (c : cx) (h : handler) : W unit :=
  match cx_rel c with
  | Some r =>
      match m_uri r with
      | Some uri => when (nonempty uri && startswith (u "http:") (lower uri))
                         (add_note ACCEPT_CH_IN_PLAIN_HTTP [])
      | None => ret tt
      end
  | None => ret tt
  end ;;;
  if cacheable c then
    let vary := hdr_list c "vary" in
    items <- lift (heads (h_val h)) ;;
    missing <- foldW (fun acc i =>
                        b <- lift (val_in i vary) ;;
                        if b then ret acc
                        else s <- lift (py_str (cx_env c) i) ;; ret (acc ++ [s])) items [] ;;
    when (nonempty missing)
         (add_note ACCEPT_CH_MISSING_VARY [vs "missing_fields" (join (u ", ") missing)])
  else ret tt.

(** accept_encoding.py:25-32, te.py:24-31 *)
Definition p_q_params (c : cx) (h : handler) (v : str) : W pyval :=
  let '(enc, ps) := split_or 59 v in
  d <- parse_params (cx_env c) ps (NoStarList [kq]) DSemi ;;
  ret (VTuple [VStr (lower enc); param_dict_val d]).

(** accept_language.py:33-61 *)
Definition p_accept_language (c : cx) (h : handler) (v : str) : W pyval :=
  let '(lang, ps) := split_or 59 v in
  let lang := lower lang in
  d <- parse_params (cx_env c) ps (NoStarList [kq]) DSemi ;;
  qv <- match dget kq d with
        | None => ret VNone
        | Some q => match q_value q with
                    | Some f => ret (VFloat f)
                    | None => add_note BAD_Q_VALUE_accept_language [vs "language" lang] ;;; ret VNone
                    end
        end ;;
  when (nonempty (pop kq d))
       (add_note ACCEPT_LANGUAGE_BAD_SYNTAX [vl "ref_uri" (ref_of F_accept_language)]) ;;;
  ret (VTuple [VStr lang; qv]).

(** accept_patch.py:27-28 *)
Definition p_accept_patch (c : cx) (h : handler) (v : str) : W pyval :=
  p <- parse_media_type (cx_env c) v (Some ACCEPT_PATCH_BAD_SYNTAX) (Some (ref_of F_accept_patch))
         false NoStarNone ;;
  ret (media_type_val p).
(** accept_post.py:28-35 *)
Definition p_accept_post (c : cx) (h : handler) (v : str) : W pyval :=
  p <- parse_media_type (cx_env c) v (Some ACCEPT_POST_BAD_SYNTAX) (Some (ref_of F_accept_post))
         true NoStarNone ;;
  ret (media_type_val p).

(** accept_query.py:29-52; returns the normalised list *)
Definition ev_accept_query (c : cx) (h : handler) (l : list member) : W pyval :=
  items <- mapW (fun m =>
     let v := mem_head m in
     match v with
     | VToken s | VStr s =>
         let mr := lower s in
         check_media_type mr (Some ACCEPT_QUERY_BAD_SYNTAX) (Some (ref_of F_accept_query)) true true ;;;
         ret (VTuple [match v with VToken _ => VToken mr | _ => VStr mr end; VDict (params_dict (mem_params m))])
     | _ => s <- lift (py_str (cx_env c) v) ;;
            add_note ACCEPT_QUERY_BAD_TYPE [vs "value" s] ;;;
            ret (member_val m)
     end) l ;;
  ret (VList items).

(** accept_ranges.py:22-26 *)
Definition p_accept_ranges (c : cx) (h : handler) (v : str) : W pyval :=
  let v := lower v in
  when (negb (str_in v [u "bytes"; u "none"])) (add_note UNKNOWN_RANGE [vs "range" v]) ;;;
  ret (VStr v).

(** list_field.py:16-21, singleton_field.py:19-24, broken_field.py:19-22 (the default) *)
Definition p_id (c : cx) (h : handler) (v : str) : W pyval := ret (VStr v).
(** access_control_allow_headers.py:23-24, access_control_request_headers.py:24-25,
    content_language.py:22-23, pragma.py:25-26, referrer_policy.py:18-19, vary.py:22-23 *)
Definition p_lower (c : cx) (h : handler) (v : str) : W pyval := ret (VStr (lower v)).

(** access_control_allow_credentials.py:23-26 *)
Definition p_acac (c : cx) (h : handler) (v : str) : W pyval :=
  if str_eqb v (u "true") then ret (VStr (u "true")) else raise EValue.

(** cors.py:93-104: the request's origin as text *)
Definition origin_text (e : env) (v : pyval) : res str :=
  match v with
  | VNone => Ok (u "null")
  | VOrigin s h p => Ok (s ++ u "://" ++ h ++ match p with Some n => u ":" ++ dec_Z n | None => [] end)
  | _ => py_str e v
  end.
Definition hdr_acao : str := u "header-access-control-allow-origin".
(** cors.py:87-133 [check_access_control_allow_origin] *)
Definition check_acao (c : cx) (acao : str) : W unit :=
  match cx_rel c with
  | None => ret tt
  | Some r =>
      match rel_hdr r "origin" with
      | None => ret tt
      | Some o =>
          os <- lift (origin_text (cx_env c) o) ;;
          if str_eqb acao (u "null") then tell [EMsg hdr_acao CORS_ORIGIN_NULL []]
          else if str_eqb acao (u "*") then tell [EMsg hdr_acao CORS_ORIGIN_STAR []]
          else if str_eqb acao os then tell [EMsg hdr_acao CORS_ORIGIN_MATCH [vs "origin" os]]
          else tell [EMsg hdr_acao CORS_ORIGIN_MISMATCH [vs "origin" os; vs "acao_value" acao]]
      end
  end.
(** access_control_allow_origin.py:29-30 *)
Definition ev_acao (c : cx) (h : handler) : W unit :=
  s <- lift (py_str (cx_env c) (h_val h)) ;; check_acao c s.

(** access_control_max_age.py:25-35 *)
Definition p_acma (c : cx) (h : handler) (v : str) : W pyval :=
  let ref := [vl "ref_uri" (ref_of F_access_control_max_age)] in
  match py_int v with
  | None => add_note CORS_MAX_AGE_INVALID ref ;;; raise EValue
  | Some z => if (z <? 0)%Z then add_note CORS_MAX_AGE_NEGATIVE ref ;;; raise EValue
              else ret (VInt z)
  end.

(** age.py:23-34 *)
Definition p_age (c : cx) (h : handler) (v : str) : W pyval :=
  match py_int v with
  | None => add_note AGE_NOT_INT [] ;;; raise EValue
  | Some z =>
      if (z <? 0)%Z then add_note AGE_NEGATIVE [] ;;; raise EValue
      else when (2147483648 <? z)%Z (add_note AGE_LARGE []) ;;; ret (VInt z)
  end.

(** alt_svc.py:28-39 *)
Definition p_alt_svc (c : cx) (h : handler) (v : str) : W pyval :=
  if str_eqb v (u "clear") then ret (VStr (u "clear"))
  else if negb (has_chr 61 v) then raise EValue
  else ret (VStr v).
(** alt_svc.py:41-45 *)
Definition ev_alt_svc (c : cx) (h : handler) : W unit :=
  match h_val h with
  | VList l => when (existsb (fun x => eq_text x (u "clear")) l && Nat.ltb 1 (length l))
                    (add_note ALTSVC_CLEAR_LIST [])
  | _ => ret tt
  end.

(** available_dictionary.py:26-29 *)
Definition ev_available_dictionary (c : cx) (h : handler) (b : bare) (p : sfparams) : W unit :=
  match b with
  | BBytes _ => ret tt
  | _ => add_note AVAILABLE_DICTIONARY_BAD_TYPE [vs "got" (type_name (bare_val b))]
  end.
(** available_dictionary.py:31-42 *)
Definition pc_available_dictionary (c : cx) (h : handler) : W unit :=
  if negb (is_request c) then ret tt
  else
    l <- lift (as_list (hdr_list c "accept-encoding")) ;;
    has <- foldW (fun b x =>
                    if b : bool then ret true
                    else p <- lift (as_pair x) ;;
                         ret (existsb (eq_text (fst p)) [u "dcb"; u "dcz"])) l false ;;
    when (negb has) (add_note AVAILABLE_DICTIONARY_MISSING_AE []).

(** ** cache_control.py *)
Inductive cctype := CCNone | CCInt | CCQuoted.
(** cache_control.py:17-36: valid in requests, valid in responses, value type *)
Definition known_cc : list (str * (bool * bool * cctype)) :=
  map (fun p => (u (fst p), snd p))
  [("immutable", (false, true, CCNone)); ("max-age", (true, true, CCInt));
   ("max-stale", (true, false, CCInt)); ("min-fresh", (true, false, CCInt));
   ("must-revalidate", (false, true, CCNone)); ("must-understand", (false, true, CCNone));
   ("no-cache", (true, true, CCQuoted)); ("no-store", (true, true, CCNone));
   ("no-transform", (true, true, CCNone)); ("only-if-cached", (true, false, CCNone));
   ("private", (false, true, CCQuoted)); ("proxy-revalidate", (false, true, CCNone));
   ("public", (false, true, CCNone)); ("s-maxage", (false, true, CCInt));
   ("stale-if-error", (false, true, CCInt)); ("stale-while-revalidate", (false, true, CCInt));
   ("pre-check", (false, true, CCInt)); ("post-check", (false, true, CCInt))]%string.
Definition cc_type_str (t : cctype) : string :=
  match t with CCNone => "none" | CCInt => "integer" | CCQuoted => "quoted string" end.
(** cache_control.py:40-82 *)
Definition conflicting_cc : list (str * list str) :=
  map (fun p => (u (fst p), map u (snd p)))
  [("no-store", ["immutable"; "max-age"; "must-revalidate"; "no-cache"; "private";
                 "proxy-revalidate"; "public"; "s-maxage"; "stale-if-error";
                 "stale-while-revalidate"; "pre-check"; "post-check"]);
   ("no-cache", ["immutable"; "max-age"; "must-revalidate"; "proxy-revalidate"; "s-maxage";
                 "stale-if-error"; "stale-while-revalidate"; "pre-check"; "post-check"]);
   ("must-revalidate", ["immutable"; "stale-if-error"; "stale-while-revalidate"; "pre-check";
                        "post-check"])]%string.

(** cache_control.py:96-132.  [int(None)] is a TypeError (caught);
    [unquote_string(None)] is "None". *)
Definition p_cache_control (c : cx) (h : handler) (v : str) : W pyval :=
  let '(name, val) := match split1 61 v with
                      | Some (a, b) => (a, Some b)
                      | None => (v, None)
                      end in
  let lname := lower name in
  when (negb (str_eqb name lname))
       (add_note CC_MISCAP [vs "directive_lower" lname; vs "directive" name]) ;;;
  match dget lname known_cc with
  | None => ret (VTuple [VStr lname; opt_str val])
  | Some (_, _, CCNone) =>
      match val with
      | Some _ => add_note CC_SHOULD_NOT_HAVE_VALUE [vs "directive" lname]
      | None => ret tt
      end ;;;
      ret (VTuple [VStr lname; opt_str val])
  | Some (_, _, CCInt) =>
      match (match val with Some s => py_int s | None => None end) with
      | Some z =>
          when (2147483648 <? z)%Z (add_note CC_MAX_AGE_TOO_LARGE [vs "directive" lname]) ;;;
          ret (VTuple [VStr lname; VInt z])
      | None =>
          add_note CC_BAD_VALUE_TYPE [vs "directive" lname; vl "expected_type" (cc_type_str CCInt);
                                      vv "value" (opt_str val)] ;;;
          raise EValue
      end
  | Some (_, _, CCQuoted) =>
      ret (VTuple [VStr lname; VStr (match val with Some s => unquote_string s | None => u "None" end)])
  end.

(** The (directive, value) pairs of a parsed Cache-Control. *)
Definition cc_pair (v : pyval) : res (str * pyval) :=
  match v with VTuple [VStr d; x] => Ok (d, x) | _ => Err EType end.
Definition cc_pairs (v : pyval) : res (list (str * pyval)) := rbind (as_list v) (mapR cc_pair).

(** cache_control.py:139-149: the first entry of the table that applies *)
Fixpoint first_conflict (e : env) (cc : list str) (tab : list (str * list str))
  : option (str * list str) :=
  match tab with
  | [] => None
  | (d, pot) :: tab' =>
      if str_in d cc then
        match py_set e (filter (fun x => str_in x pot) cc) with
        | [] => first_conflict e cc tab'
        | l => Some (d, l)
        end
      else first_conflict e cc tab'
  end.
(** cache_control.py:151-176, one directive *)
Definition cc_one (c : cx) (cc : list str) (d : str) : W unit :=
  let k := dget d known_cc in
  let inreq := match k with Some (a, _, _) => a | None => true end in
  let inres := match k with Some (_, b, _) => b | None => true end in
  if is_request c && negb inreq then
    add_note CC_WRONG_MESSAGE [vs "directive" d; vl "other_message" "response"]
  else if is_response c && negb inres then
    add_note CC_WRONG_MESSAGE [vs "directive" d; vl "other_message" "request"]
  else when (dmem d known_cc && Nat.ltb 1 (count_str d cc)) (add_note CC_DUP [vs "directive" d]).
(** cache_control.py:178-198 *)
Definition cc_checks (cc : list str) (ccd : dict pyval) : W unit :=
  let pre := u "pre-check" in let post := u "post-check" in
  if str_in pre cc || str_in post cc then
    if negb (str_in pre cc) || negb (str_in post cc) then add_note CHECK_SINGLE []
    else match dget pre ccd, dget post ccd with
         | Some VNone, _ | _, Some VNone => ret tt
         | Some (VInt a), Some (VInt b) =>
             if ((a =? 0) && (b =? 0))%Z%bool then add_note CHECK_ALL_ZERO []
             else if (a <? b)%Z then add_note CHECK_POST_BIGGER []
             else if (b =? 0)%Z then add_note CHECK_POST_ZERO []
             else add_note CHECK_POST_PRE [vv "pre_check" (VInt a); vv "post_check" (VInt b)]
         | None, _ | _, None => raise EKey
         | _, _ => raise EType
         end
  else ret tt.
(** cache_control.py:134-198 *)
Definition ev_cache_control (c : cx) (h : handler) : W unit :=
  ps <- lift (cc_pairs (h_val h)) ;;
  let cc := map fst ps in
  let ccd := dupdate [] ps in
  (if is_response c then
     match first_conflict (cx_env c) cc conflicting_cc with
     | Some (d, l) => add_note CC_CONFLICTING [vs "directive" d; vv "conflicts" (markdown_list l bt)]
     | None => ret tt
     end
   else ret tt) ;;;
  iterW (cc_one c cc) (py_set (cx_env c) cc) ;;;
  cc_checks cc ccd.

(** The sorted set of the type names of the items that are not strings. *)
Definition bad_types (l : list member) : list str :=
  py_sorted (dedup (map type_name (filter (fun v => negb (is_str v)) (map mem_head l)))).
(** cache_group_invalidation.py:24-43 *)
Definition ev_cache_group_invalidation (c : cx) (h : handler) (l : list member) : W unit :=
  match cx_rel c with
  | Some r => match m_method r with
              | Some m => when (nonempty m && str_in m [u "GET"; u "HEAD"; u "OPTIONS"; u "TRACE"])
                               (add_note CACHE_GROUP_INVALIDATION_IGNORED [vs "method" m])
              | None => ret tt
              end
  | None => ret tt
  end ;;;
  when (nonempty (bad_types l))
       (add_note CACHE_GROUP_INVALIDATION_BAD_TYPE
          [vl "expected" "string"; vs "got" (join (u ", ") (bad_types l))]).
(** cache_groups.py:23-36 *)
Definition ev_cache_groups (c : cx) (h : handler) (l : list member) : W unit :=
  when (nonempty (bad_types l))
       (add_note CACHE_GROUPS_BAD_TYPE
          [vl "expected" "string"; vs "got" (join (u ", ") (bad_types l))]).

(** cache_status.py:50-92 *)
Definition cache_status_params : list (str * known_param) :=
  let tok l := map (fun p => (u (fst p), snd p)) l in
  [(u "hit", mkKnown [TBool] [] None (Some ("The response was served from the cache.", None)%string));
   (u "fwd", mkKnown [TToken]
      (map u ["bypass"; "method"; "uri-miss"; "vary-miss"; "miss"; "request"; "stale"; "partial"]%string)
      (Some (tok
       [("bypass", "The cache was configured to bypass the cache.");
        ("method", "The request method's semantics require the request to be forwarded.");
        ("uri-miss", "The cache did not contain a response for the URI.");
        ("vary-miss", "The cache contained a response for the URI, but it could not be selected.");
        ("miss", "The cache did not contain a response.");
        ("request", "The cache was requested to forward the request.");
        ("stale", "The cache contained a stale response.");
        ("partial", "The cache contained a partial response.")]%string)) None);
   (u "fwd-status", mkKnown [TInt] [] None (Some ("The status code of the forwarded request was ", Some ".")%string));
   (u "ttl", mkKnown [TInt] [] None (Some ("The response's remaining time-to-live was ", Some " seconds.")%string));
   (u "stored", mkKnown [TBool] [] None (Some ("The response was stored in the cache.", None)%string));
   (u "collapsed", mkKnown [TBool] [] None (Some ("The request was collapsed with another request.", None)%string));
   (u "key", mkKnown [TStr] [] None (Some ("The cache key was `", Some "`.")%string));
   (u "detail", mkKnown [TToken; TStr] [] None (Some ("Additional details: ", Some "")%string))].

(** cache_status.py:30-47 and proxy_status.py:28-45, which are the same code *)
Definition target_text (e : env) (v : pyval) : res str :=
  match v with VBytes b => Ok (decode_ascii_replace b) | _ => py_str e v end.
Definition ev_status_list (c : cx) (known : list (str * known_param)) (present unk bad : nid)
    (l : list member) : W unit :=
  lines <- mapW (fun m =>
      t <- lift (target_text (cx_env c) (mem_head m)) ;;
      p <- check_sf_params (cx_env c) (params_dict (mem_params m)) known unk bad ;;
      ret (u "**" ++ t ++ u "**:" ++ [10] ++ p)) l ;;
  when (nonempty lines) (add_note present [vs "status" (join [10; 10] lines)]).
Definition ev_cache_status (c : cx) (h : handler) (l : list member) : W unit :=
  ev_status_list c cache_status_params CACHE_STATUS CACHE_STATUS_UNKNOWN_PARAM
    CACHE_STATUS_BAD_PARAM_VAL l.

(** cdn_cache_control.py:27-70 *)
Definition ev_cdn_cache_control (c : cx) (h : handler) (d : dict member) : W unit :=
  add_note CDN_CACHE_CONTROL_PRESENT [] ;;;
  iterW (fun km : str * member =>
    let name := lower (fst km) in
    let v := mem_head (snd km) in
    let bad t := add_note BAD_CDN_CC_TYPE [vs "bad_directive" name; vl "expected_type" t] in
    match dget name known_cc with
    | None => ret tt
    | Some (_, _, CCNone) => when (negb (is_true v)) (bad "no value"%string)
    | Some (_, _, CCInt) => when (negb (is_int v)) (bad (cc_type_str CCInt))
    | Some (_, _, CCQuoted) =>
        when (negb (is_str v) && negb (is_true v && str_in name [u "no-cache"; u "private"]))
             (bad "a string"%string)
    end) d.

(** clear_site_data.py:23 *)
Definition csd_known : list str :=
  map u ["cache"; "cookies"; "storage"; "executionContexts"; "*"]%string.
(** clear_site_data.py:29-46; an unquoted known value is recorded on the instance *)
Definition p_clear_site_data (c : cx) (h : handler) (v : str) : W pyval :=
  let quoted := match v with
                | 34 :: _ :: _ => match last_chr v with Some 34 => true | _ => false end
                | _ => false
                end in
  let value := if quoted then mid v else v in
  when (negb quoted && str_in value csd_known) (tell [EMark (VStr value)]) ;;;
  if negb (nonempty value) then add_note CSD_EMPTY [] ;;; ret (VStr value)
  else when (negb (str_in value csd_known)) (add_note CSD_UNKNOWN_VALUE [vs "value" value]) ;;;
       ret (VStr value).
Definition marked_strs (h : handler) : list str :=
  flat_map (fun se => match snd se with EMark (VStr s) => [s] | _ => [] end) (h_aux h).
(** clear_site_data.py:48-56 *)
Definition ev_clear_site_data (c : cx) (h : handler) : W unit :=
  let unq := marked_strs h in
  when (nonempty unq) (add_note CSD_UNQUOTED [vs "values" (join (u ", ") unq)]) ;;;
  l <- lift (strs (h_val h)) ;;
  match l with
  | [] => add_note CSD_EMPTY []
  | _ =>
      let valid := filter (fun v => str_in v csd_known && negb (str_in v unq)) l in
      when (nonempty valid)
           (add_note CSD_PRESENT [vs "values" (join (u ", ") (map (fun v => bt ++ v ++ bt) valid))])
  end.

(** content_disposition.py:27-44 *)
Definition p_content_disposition (c : cx) (h : handler) (v : str) : W pyval :=
  let '(disp, ps) := split_or 59 v in
  let disp := lower disp in
  d <- parse_params (cx_env c) ps NoStarNone DSemi ;;
  when (negb (str_in disp [u "inline"; u "attachment"]))
       (add_note DISPOSITION_UNKNOWN [vs "disposition" disp]) ;;;
  when (str_eqb disp (u "attachment") && negb (dmem (u "filename") d))
       (add_note DISPOSITION_OMITS_FILENAME []) ;;;
  let get k := match dget (u k) d with Some (Some s) => s | _ => [] end in
  let filename := get "filename"%string in
  let star := get "filename*"%string in
  when (has_chr 37 filename) (add_note DISPOSITION_FILENAME_PERCENT []) ;;;
  when (has_chr 47 filename || (nonempty star && has_sub [92; 92] star))
       (add_note DISPOSITION_FILENAME_PATH_CHAR []) ;;;
  ret (VTuple [VStr disp; param_dict_val d]).

(** The related request of a response, if it is one
    ([(response := self.message.as_response) and response.request and
    response.request.message_type == "request"]). *)
Definition related_request (c : cx) : option mstate :=
  if is_response c then
    match cx_rel c with
    | Some r => match m_type r with MRequest => Some r | _ => None end
    | None => None
    end
  else None.
Definition rel_list (r : mstate) (k : string) : pyval :=
  match rel_hdr r k with Some v => v | None => VList [] end.
(** content_encoding.py (parsers):31-44 *)
Definition p_content_encoding (c : cx) (h : handler) (v : str) : W pyval :=
  match related_request c with
  | Some r =>
      ae <- lift (heads (rel_list r "accept-encoding")) ;;
      when (negb (existsb (fun x => eq_text x (lower v)) ae))
           (add_note ENCODING_UNWANTED [vs "coding" v])
  | None => ret tt
  end ;;;
  ret (VStr (lower v)).
(** content_encoding.py (parsers):46-57 *)
Definition pc_content_encoding (c : cx) (h : handler) : W unit :=
  if negb (is_response c) then ret tt
  else
    ce <- lift (as_list (hdr_list c "content-encoding")) ;;
    if existsb (fun x => existsb (eq_text x) [u "dcb"; u "dcz"]) ce && cacheable c then
      b <- lift (py_in (u "available-dictionary") (hdr_list c "vary")) ;;
      when (negb b) (add_note DICTIONARY_COMPRESSED_MISSING_VARY [])
    else ret tt.

(** content_language.py:25-35 *)
Definition ev_content_language (c : cx) (h : handler) : W unit :=
  l <- lift (strs (h_val h)) ;;
  iterW (fun x => add_note CONTENT_LANGUAGE_DUP [vs "lang" x])
        (py_set (cx_env c) (dups l)).

(** content_length.py:27-35 *)
Definition p_content_length (c : cx) (h : handler) (v : str) : W pyval :=
  match py_int v with
  | None => add_note CL_BAD_SYNTAX [] ;;; raise EValue
  | Some z => when (9223372036854775807 <? z)%Z (add_note CL_TOO_LARGE []) ;;; ret (VInt z)
  end.
(** content_length.py:37-39 *)
Definition ev_content_length (c : cx) (h : handler) : W unit :=
  when (has_hdr c "transfer-encoding") (add_note CL_AND_TE_PRESENT []).

(** content_range.py:91-98; the outer option is "not noted as wrong" *)
Definition cr_length (s : str) : W (option Z) :=
  if str_eqb s [42] then add_note CONTENT_RANGE_UNKNOWN_LENGTH [] ;;; ret None
  else if negb (py_isdigit s) then add_note RANGE_INVALID_INTEGER [vs "value" s] ;;; ret None
  else z <- lift (int_of s) ;; ret (Some z).
(** content_range.py:100-118 *)
Definition cr_range (rng : str) : W (option (Z * Z)) :=
  if str_eqb rng [42] then ret None
  else match split1 45 rng with
       | None => add_note RANGE_MISSING_HYPHEN [vs "value" rng] ;;; ret None
       | Some (a, b) =>
           if negb (py_isdigit a) then add_note RANGE_INVALID_INTEGER [vs "value" a] ;;; ret None
           else if negb (py_isdigit b) then add_note RANGE_INVALID_INTEGER [vs "value" b] ;;; ret None
           else x <- lift (int_of a) ;; y <- lift (int_of b) ;; ret (Some (x, y))
       end.
Definition status_in (c : cx) (l : list Z) : bool :=
  match m_status (cx_msg c) with Some z => existsb (Z.eqb z) l | None => false end.
Definition opt_int (o : option Z) : pyval := match o with Some z => VInt z | None => VNone end.
(** content_range.py:37-83 *)
Definition p_content_range (c : cx) (h : handler) (v : str) : W pyval :=
  when (is_response c && negb (status_in c [206; 416]%Z)) (add_note CONTENT_RANGE_MEANINGLESS []) ;;;
  match split1 32 v with
  | None => when (has_chr 47 v) (add_note CONTENT_RANGE_MISSING_UNIT []) ;;; raise EValue
  | Some (unit, rest) =>
      match split1 47 rest with
      | None => add_note CONTENT_RANGE_MISSING_SLASH [] ;;; raise EValue
      | Some (rng, len) =>
          if str_eqb rng [42] && str_eqb len [42] then
            add_note CONTENT_RANGE_INVALID_ASTERISK [] ;;; raise EValue
          else
            cl <- cr_length len ;;
            if (match cl with None => true | Some _ => false end) && negb (str_eqb len [42])
            then raise EValue
            else
              r <- cr_range rng ;;
              (if str_eqb rng [42] then
                 when (is_response c && status_in c [206]%Z)
                      (add_note CONTENT_RANGE_UNSATISFIED_BAD_SC [])
               else match r with
                    | None => raise EValue
                    | Some (a, b) =>
                        when (b <? a)%Z (add_note RANGE_INVALID []) ;;;
                        when (match cl with Some n => (n <=? b)%Z | None => false end)
                             (add_note RANGE_INVALID [])
                    end) ;;;
              ret (VTuple [VStr unit; opt_int (option_map fst r); opt_int (option_map snd r); opt_int cl])
      end
  end.
