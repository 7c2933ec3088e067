(** * Field linters, content_security_policy .. use_as_dictionary
    (httplint/field/parsers/*.py).  Naming as in Fields1.v. *)
From Verif Require Import PyStr Regex Grammar Note PyLib Utils FieldAttrs Types Fields1.
Open Scope N_scope.

(** [self.message.headers.parsed.get("reporting-endpoints")], its keys if truthy. *)
Definition endpoint_names (c : cx) : res (list str) :=
  match hdr c "reporting-endpoints" with
  | None => Ok []
  | Some v => if truthy v then rmap keys (as_dict v) else Ok []
  end.

(** ** content_security_policy.py *)

(** [s.split(None, 1)] of a stripped, nonempty string. *)
Fixpoint split_ws1 (s : str) : str * str :=
  match s with
  | [] => ([], [])
  | c :: s' => if isspace c then ([], lstrip s) else let '(a, b) := split_ws1 s' in (c :: a, b)
  end.
(** content_security_policy.py:177-179 *)
Definition star_list (l : list str) : pyval :=
  VMd (join [10] (map (fun i => u "* `" ++ i ++ u "`") (map (remove_chr 96) l))).
Definition k_rot := u "report_only_text".
Definition ro_text : string := "

Browsers will only report violations of this policy, not enforce it.".
(** content_security_policy.py:40-55; the directives and the repeated names *)
Fixpoint csp_directives (ds : list str) (acc : dict str) (dup : list str) : dict str * list str :=
  match ds with
  | [] => (acc, dup)
  | d :: ds' =>
      let d := strip d in
      if negb (nonempty d) then csp_directives ds' acc dup
      else let '(n, v) := split_ws1 d in
           let n := lower n in
           if dmem n acc then csp_directives ds' acc (dup ++ [n])
           else csp_directives ds' (dset n v acc) dup
  end.
Definition str_dict_val (d : dict str) : pyval := VDict (map (fun kv => (fst kv, VStr (snd kv))) d).
(** content_security_policy.py:40-68; [rot] is report_only_text *)
Definition p_csp (rot : string) (c : cx) (h : handler) (v : str) : W pyval :=
  let '(d, dup) := csp_directives (split_all 59 v) [] [] in
  when (nonempty dup)
       (tell [EDefer CSP_DUPLICATE_DIRECTIVE None
                [vv "directives_list" (star_list dup); vs "report_only_text" (u rot)]]) ;;;
  ret (str_dict_val d).
Definition csp_pair (kv : str * pyval) : res (str * str) := rmap (fun s => (fst kv, s)) (as_str (snd kv)).
Definition csp_pairs (v : pyval) : res (list (str * str)) :=
  rbind (as_list v) (fun l =>
    rmap (@List.concat _) (mapR (fun x => rbind (as_dict x) (mapR csp_pair)) l)).
Definition names_where (f : str * str -> bool) (l : list (str * str)) : list str :=
  map fst (filter f l).
Definition deferred (h : handler) : list (nid * vars) :=
  flat_map (fun se => match snd se with EDefer n _ vs => [(n, vs)] | _ => [] end) (h_aux h).
(** content_security_policy.py:70-136; [ro], [rot] are report_only_string and
    report_only_text *)
Definition ev_csp (ro rot : string) (c : cx) (h : handler) : W unit :=
  if negb (truthy (h_val h)) then ret tt
  else
    l <- lift (csp_pairs (h_val h)) ;;
    let t := vs "report_only_text" (u rot) in
    let wide := names_where (fun nv => str_in (fst nv) [u "script-src"; u "style-src"; u "object-src"]
                                       && str_in (u "*") (words (snd nv))) l in
    let inline := names_where (fun nv => has_sub (u "'unsafe-inline'") (snd nv)) l in
    let eval := names_where (fun nv => has_sub (u "'unsafe-eval'") (snd nv)) l in
    let http := names_where (fun nv => str_in (u "http:") (words (snd nv))) l in
    let kid n xs := if nonempty xs then [(n, [vv "directives_list" (star_list xs); t])] else [] in
    tell [ENote CONTENT_SECURITY_POLICY None [vs "report_only" (u ro); t]
            (deferred h
             ++ (if existsb (fun nv => str_eqb (fst nv) (u "report-uri")) l
                 then [(CSP_DEPRECATED_REPORT_URI, [t])] else [])
             ++ kid CSP_WIDE_OPEN wide ++ kid CSP_UNSAFE_INLINE inline
             ++ kid CSP_UNSAFE_EVAL eval ++ kid CSP_HTTP_URI http)].
(** content_security_policy.py:138-175 *)
Definition pc_csp (rot : string) (c : cx) (h : handler) : W unit :=
  if negb (truthy (h_val h)) then ret tt
  else
    eps <- lift (endpoint_names c) ;;
    l <- lift (csp_pairs (h_val h)) ;;
    iterW (fun nv : str * str =>
             when (str_eqb (fst nv) (u "report-to") && negb (str_in (snd nv) eps))
                  (tell [EKid CONTENT_SECURITY_POLICY CSP_REPORT_TO_MISSING
                           [vs "endpoint" (snd nv); vs "report_only_text" (u rot)]])) l.
(** content_security_policy_report_only.py:20-21 *)
Definition csp_ro : string := " for reporting only".

(** content_type.py (parsers):29-30 *)
Definition p_content_type (c : cx) (h : handler) (v : str) : W pyval :=
  p <- parse_media_type (cx_env c) v None None false (NoStarList [u "charset"]) ;;
  ret (media_type_val p).

(** cookie.py:26-55: the (name, value) pairs *)
Definition cookie_pair (item : str) : list pyval :=
  let item := strip item in
  if negb (nonempty item) then []
  else match split1 61 item with
       | Some (n, v) => [VTuple [VStr n; VStr v]]
       | None => [VTuple [VStr []; VStr item]]
       end.
Definition p_cookie (c : cx) (h : handler) (v : str) : W pyval :=
  ret (VList (flat_map cookie_pair (split_all 59 v))).

(** ** cross_origin_embedder_policy.py, cross_origin_opener_policy.py *)
(** 31-63 of both files; [tab] maps a token to its note *)
Definition ev_cop (tab : list (str * nid)) (bad : nid) (ro rot : string) (b : bare) : W unit :=
  let bad_note := add_note bad [vv "value" (bare_val b); vs "report_only" (u ro)] in
  match b with
  | BTok t => match dget t tab with
              | Some n => add_note n [vs "report_only" (u ro); vs "report_only_text" (u rot)]
              | None => bad_note
              end
  | _ => bad_note
  end.
Definition coep_tab : list (str * nid) :=
  [(u "require-corp", COEP_REQUIRE_CORP); (u "credentialless", COEP_CREDENTIALLESS);
   (u "unsafe-none", COEP_UNSAFE_NONE)].
Definition coop_tab : list (str * nid) :=
  [(u "same-origin", COOP_SAME_ORIGIN); (u "same-origin-allow-popups", COOP_SAME_ORIGIN_ALLOW_POPUPS);
   (u "unsafe-none", COOP_UNSAFE_NONE)].
Definition cop_ro : string := " (for reporting only)".
(** 65-84 of both files *)
Definition pc_cop (missing : nid) (ro : string) (c : cx) (h : handler) : W unit :=
  p <- lift (index (h_val h) 1) ;;
  d <- lift (as_dict p) ;;
  match dget (u "report-to") d with
  | None => ret tt
  | Some rt =>
      if negb (truthy rt) then ret tt
      else
        eps <- lift (endpoint_names c) ;;
        when (negb (existsb (eq_text rt) eps))
             (add_note missing [vv "endpoint" rt; vs "report_only" (u ro)])
  end.
Definition has_handler (c : cx) (k : string) : bool := dmem (u k) (s_handlers (m_headers (cx_msg c))).
Definition ev_coep (c : cx) (h : handler) (b : bare) (p : sfparams) : W unit :=
  ev_cop coep_tab CROSS_ORIGIN_EMBEDDER_POLICY_BAD_VALUE "" "" b.
Definition ev_coop (c : cx) (h : handler) (b : bare) (p : sfparams) : W unit :=
  ev_cop coop_tab CROSS_ORIGIN_OPENER_POLICY_BAD_VALUE "" "" b.
(** cross_origin_embedder_policy_report_only.py:25-31 *)
Definition ev_coep_ro (c : cx) (h : handler) (b : bare) (p : sfparams) : W unit :=
  when (has_handler c "cross-origin-embedder-policy") (add_note COEP_REPORT_ONLY_DUPLICATE []) ;;;
  ev_cop coep_tab CROSS_ORIGIN_EMBEDDER_POLICY_BAD_VALUE cop_ro ro_text b.
(** cross_origin_opener_policy_report_only.py:25-31 *)
Definition ev_coop_ro (c : cx) (h : handler) (b : bare) (p : sfparams) : W unit :=
  when (has_handler c "cross-origin-opener-policy") (add_note COOP_REPORT_ONLY_DUPLICATE []) ;;;
  ev_cop coop_tab CROSS_ORIGIN_OPENER_POLICY_BAD_VALUE cop_ro ro_text b.

(** cross_origin_resource_policy.py:29-37 *)
Definition ev_corp (c : cx) (h : handler) : W unit :=
  let t := vs "report_only_text" [] in
  if eq_text (h_val h) (u "same-origin") then add_note CORP_SAME_ORIGIN [t]
  else if eq_text (h_val h) (u "same-site") then add_note CORP_SAME_SITE [t]
  else if eq_text (h_val h) (u "cross-origin") then add_note CORP_CROSS_ORIGIN [t]
  else add_note CROSS_ORIGIN_RESOURCE_POLICY_BAD_VALUE [vv "value" (h_val h)].

(** ** Dates *)
Definition cat_of (f : fname) : category := fa_cat (attrs f).
(** date.py:27-28, expires.py:23-24, last_modified.py:24-25, sunset.py:17-18 *)
Definition p_date (f : fname) (c : cx) (h : handler) (v : str) : W pyval :=
  z <- parse_http_date v (Some (cat_of f)) ;; ret (VInt z).
(** [int(x)]-like reading of a parsed number *)
Definition as_int (v : pyval) : res Z :=
  match v with VInt z => Ok z | VBool b => Ok (if b then 1 else 0)%Z | _ => Err EType end.
(** [x] if it is not None and not 0 *)
Definition q_truthy (q : option Q) : option Q :=
  match q with Some x => if Qeq_bool x 0 then None else Some x | None => None end.
Definition max_clock_skew : Z := 5.
(** date.py:30-42 *)
Definition ev_date (c : cx) (h : handler) : W unit :=
  match q_truthy (m_start (cx_msg c)) with
  | Some st =>
      if is_response c && truthy (h_val h) then
        v <- lift (as_int (h_val h)) ;;
        age <- (match hdr c "age" with
                | Some a => if truthy a then lift (as_int a) else ret 0%Z
                | None => ret 0%Z
                end) ;;
        let skew := (v - q_trunc st + age)%Z in
        if ((max_clock_skew <? age) && (age - skew <? max_clock_skew))%Z%bool then
          tell [EMsg (u "field-date field-age") AGE_PENALTY []]
        else if (max_clock_skew <? Z.abs skew)%Z then
          add_note DATE_INCORRECT
            [vv "clock_skew_string" (relative_time (inject_Z skew) 0 2)]
        else add_note DATE_CORRECT []
      else ret tt
  | None => ret tt
  end.
(** last_modified.py:27-40 *)
Definition ev_last_modified (c : cx) (h : handler) : W unit :=
  if truthy (h_val h) then
    lm <- lift (as_int (h_val h)) ;;
    sd <- (match hdr c "date" with
           | Some d => if truthy d then z <- lift (as_int d) ;; ret (Some (inject_Z z))
                       else ret (q_truthy (m_start (cx_msg c)))
           | None => ret (q_truthy (m_start (cx_msg c)))
           end) ;;
    match sd with
    | None => ret tt
    | Some d =>
        if q_gt (inject_Z lm) d then add_note LM_FUTURE []
        else add_note LM_PRESENT [vv "last_modified_string" (relative_time (inject_Z lm) d 1)]
    end
  else ret tt.
(** sunset.py:20-22 *)
Definition ev_sunset (c : cx) (h : handler) : W unit :=
  match q_truthy (m_start (cx_msg c)) with
  | Some st =>
      if truthy (h_val h) then
        v <- lift (as_int (h_val h)) ;;
        when (q_gt st (inject_Z v)) (add_note SUNSET_PAST [])
      else ret tt
  | None => ret tt
  end.
(** [dt.isoformat()] is [str(dt)] with a T for the blank between the date and
    the time; the text itself is left to the oracle. *)
Definition isoformat (e : env) (z : Z) : str := map (fun c => if c =? 32 then 84 else c) (e_repr e (VDate z)).
(** deprecation.py:25-42 *)
Definition ev_deprecation (c : cx) (h : handler) (b : bare) (p : sfparams) : W unit :=
  match b with
  | BDate z =>
      match q_truthy (m_start (cx_msg c)) with
      | Some st =>
          let d := [vs "date" (isoformat (cx_env c) z)] in
          if q_gt (inject_Z z) st then add_note DEPRECATION_FUTURE d else add_note DEPRECATION_PAST d
      | None => ret tt
      end
  | BBool true => add_note DEPRECATION_TRUE []
  | BBool false => add_note DEPRECATION_BAD_TYPE [vl "item_type" "Boolean False"]
  | _ => add_note DEPRECATION_BAD_TYPE [vs "item_type" (type_name (bare_val b))]
  end.

(** etag.py:25-28 *)
Definition p_etag (c : cx) (h : handler) (v : str) : W pyval :=
  if str_eqb (firstn 2 v) (u "W/") then ret (VTuple [VBool true; VStr (unquote_string (skipn 2 v))])
  else ret (VTuple [VBool false; VStr (unquote_string v)]).

(** expect.py:21-32 *)
Definition ev_expect (c : cx) (h : handler) : W unit :=
  when (str_eqb (m_version (cx_msg c)) (u "1.0")) (add_note EXPECT_HTTP_1_0 []) ;;;
  l <- lift (strs (h_val h)) ;;
  let unk := filter (fun x => negb (str_eqb (lower x) (u "100-continue"))) l in
  when (nonempty unk) (add_note EXPECT_UNKNOWN [vs "expectation" (join (u ", ") unk)]).

(** keep_alive.py:30-37 *)
Definition p_keep_alive (c : cx) (h : handler) (v : str) : W pyval :=
  match split1 61 v with
  | Some (a, b) => ret (VTuple [VStr (lower a); VStr (unquote_string b)])
  | None => ret (VTuple [VStr (lower v); VNone])
  end.

(** ** link.py *)
(** [str(x)] of a parameter value *)
Definition opt_text (o : option str) : str := match o with Some s => s | None => u "None" end.
(** link.py:29-48 *)
Definition p_link (c : cx) (h : handler) (v : str) : W pyval :=
  let '(lv, ps) := split_or 59 v in
  let lv := mid (strip lv) in
  d <- parse_params (cx_env c) ps
         (NoStarList (map u ["rel"; "rev"; "anchor"; "hreflang"; "type"; "media"]%string)) DSemi ;;
  match dget (u "rev") d with
  | Some r => add_note LINK_REV [vs "link" lv; vs "rev" (opt_text r)]
  | None => ret tt
  end ;;;
  match dget (u "anchor") d with
  | Some (Some a) =>
      when (nonempty a && negb (match_ws_dollar rfc3986_URI_reference a))
           (add_note LINK_BAD_ANCHOR [vs "link" lv; vs "anchor" a])
  | _ => ret tt
  end ;;;
  match dget (u "type") d with
  | Some (Some t) =>
      when (nonempty t && negb (match_ws_dollar rfc9110_media_type t))
           (add_note LINK_BAD_TYPE [vs "link" lv; vs "type" t])
  | _ => ret tt
  end ;;;
  ret (VTuple [VStr lv; param_dict_val d]).
(** A parsed (text, parameters) pair. *)
Definition text_params (v : pyval) : res (str * dict pyval) :=
  match v with VTuple [VStr s; VDict d] => Ok (s, d) | _ => Err EType end.
Definition hint_names : list str := map u ["preload"; "preconnect"; "dns-prefetch"]%string.
(** [urlsplit(urljoin(base, url)).scheme.lower()] *)
Definition target_scheme (c : cx) (url : str) : res str :=
  rbind (e_urljoin (cx_env c) (m_base (cx_msg c)) url) (fun t =>
    rmap (fun p => lower (u_scheme p)) (e_urlsplit (cx_env c) t)).
(** link.py:50-81 *)
Definition ev_link (c : cx) (h : handler) : W unit :=
  l <- lift (rbind (as_list (h_val h)) (mapR text_params)) ;;
  (* every (token, link, scheme) in order *)
  found <- foldW (fun acc (x : str * dict pyval) =>
      match dget (u "rel") (snd x) with
      | Some (VStr rel) =>
          foldW (fun acc tok =>
                   if str_in tok hint_names then
                     sch <- lift (target_scheme c (fst x)) ;;
                     ret (acc ++ [(tok, fst x, sch)])
                   else ret acc) (words (lower rel)) acc
      | _ => ret acc
      end) l [] ;;
  let is_bad (t : str * str * str) :=
    nonempty (snd t) && negb (str_in (snd t) [u "http"; u "https"]) in
  iterW (fun t : str * str * str =>
           add_note LINK_BAD_HINT_TARGET
             [vs "rel" (fst (fst t)); vs "link" (snd (fst t)); vs "scheme" (snd t)])
        (filter is_bad found) ;;;
  let good := filter (fun t => negb (is_bad t)) found in
  let targets n := map (fun t : str * str * str => snd (fst t))
                       (filter (fun t => str_eqb (fst (fst t)) n) good) in
  let present := filter (fun n => nonempty (targets n)) hint_names in
  when (nonempty present)
    (add_note LINK_RESOURCE_HINTS
       [vs "hints" (join (u ", ") present);
        vv "detail_lines"
          (VMd (join [10] (map (fun n => u "- `" ++ n ++ u "`: "
                 ++ join (u ", ") (map (fun t => bt ++ remove_chr 96 t ++ bt) (targets n))) present)))]).

(** location.py:25-44 *)
Definition p_location (c : cx) (h : handler) (v : str) : W pyval :=
  when (is_response c && negb (status_in c [201; 300; 301; 302; 303; 305; 307; 308]%Z))
       (add_note LOCATION_UNDEFINED []) ;;;
  (if negb (match_ws_dollar rfc3986_URI v) then
     f <- lift (e_urljoin (cx_env c) (m_base (cx_msg c)) v) ;;
     add_note LOCATION_NOT_ABSOLUTE [vs "full_uri" f]
   else ret tt) ;;;
  ret (VStr v).

(** max_forwards.py:29-31 *)
Definition ev_max_forwards (c : cx) (h : handler) : W unit :=
  when (negb (match m_method (cx_msg c) with
              | Some m => str_in m [u "TRACE"; u "OPTIONS"] | None => false end))
       (add_note MAX_FORWARDS_IGNORED []).

(** ** nel.py *)
(** [0.0 <= x <= 1.0] *)
Definition in_unit (v : pyval) : bool :=
  match v with
  | VBool _ => true
  | VInt z => ((0 <=? z) && (z <=? 1))%Z%bool
  | VFloat (FFin q) => Qle_bool 0 q && Qle_bool q 1
  | _ => false
  end.
Definition is_bool (v : pyval) : bool := match v with VBool _ => true | _ => false end.
Definition is_num (v : pyval) : bool := match v with VInt _ | VBool _ | VFloat _ => true | _ => false end.
(** nel.py:56-72: a required member; the result is "clean" *)
Definition json_req (miss bad : nid) (d : dict pyval) (k : string) (ok : pyval -> bool) (exp : string)
  : W bool :=
  match dget (u k) d with
  | None => add_note miss [vl "key" k] ;;; ret false
  | Some v => if ok v then ret true
              else add_note bad [vl "key" k; vl "expected" exp] ;;; ret false
  end.
(** nel.py:80-102 *)
Definition nel_fraction (d : dict pyval) (k details : string) : W bool :=
  match dget (u k) d with
  | None => ret true
  | Some v =>
      if negb (is_num v) then add_note NEL_BAD_TYPE [vl "key" k; vl "expected" "number"] ;;; ret false
      else if negb (in_unit v) then
        add_note NEL_BAD_VALUE [vl "key" k; vl "details" details] ;;; ret false
      else ret true
  end.
(** nel.py:48-104, one policy *)
Definition nel_policy (v : pyval) : W unit :=
  match v with
  | VDict d =>
      a <- json_req NEL_MISSING_KEY NEL_BAD_TYPE d "report_to" is_str "string" ;;
      b <- json_req NEL_MISSING_KEY NEL_BAD_TYPE d "max_age" is_int "integer" ;;
      i <- (match dget (u "include_subdomains") d with
            | Some x => if is_bool x then ret true
                        else add_note NEL_BAD_TYPE [vl "key" "include_subdomains"; vl "expected" "boolean"] ;;;
                             ret false
            | None => ret true
            end) ;;
      s <- nel_fraction d "success_fraction" "itmust be between 0.0 and 1.0" ;;
      f <- nel_fraction d "failure_fraction" "it must be between 0.0 and 1.0" ;;
      tell [EMark (VBool (a && b && i && s && f))]
  | _ => add_note NEL_BAD_STRUCTURE [] ;;; tell [EMark (VBool false)]
  end.
(** nel.py:42-104 *)
Definition ev_nel (c : cx) (h : handler) : W unit :=
  l <- lift (as_list (h_val h)) ;; iterW nel_policy l.
Definition marked_bools (h : handler) : list bool :=
  flat_map (fun se => match snd se with EMark (VBool b) => [b] | _ => [] end) (h_aux h).
(** nel.py:15-27 *)
Definition valid_endpoints (c : cx) (d : dict pyval) : W (list str) :=
  foldW (fun acc (kv : str * pyval) =>
    url <- lift (index (snd kv) 0) ;;
    match url with
    | VStr s =>
        sch <- lift (target_scheme c s) ;;
        if nonempty sch && negb (str_in sch [u "https"; u "wss"]) then ret acc
        else ret (acc ++ [fst kv])
    | _ => ret acc
    end) d [].
(** nel.py:122-130 *)
Fixpoint nel_resolve (eps valid : list str) (clean : list bool) (idx : nat) (l : list pyval)
  : W (list str) :=
  match l with
  | [] => ret []
  | v :: l' =>
      r <- (match v with
            | VDict d =>
                match dget (u "report_to") d with
                | Some (VStr rt) =>
                    if negb (nonempty rt) then ret []
                    else if negb (str_in rt eps) then
                      add_note NEL_REPORT_TO_MISSING [vl "key" "report_to"; vs "value" rt] ;;; ret []
                    else if str_in rt valid then
                      match nth_error clean idx with
                      | Some true => ret [rt]
                      | Some false => ret []
                      | None => raise EIndex
                      end
                    else ret []
                | _ => ret []
                end
            | _ => ret []
            end) ;;
      rs <- nel_resolve eps valid clean (S idx) l' ;;
      ret (r ++ rs)
  end.
(** nel.py:106-136 *)
Definition pc_nel (c : cx) (h : handler) : W unit :=
  if negb (truthy (h_val h)) then ret tt
  else
    eps <- lift (endpoint_names c) ;;
    valid <- (match hdr c "reporting-endpoints" with
              | Some v => if truthy v then d <- lift (as_dict v) ;; valid_endpoints c d else ret []
              | None => ret []
              end) ;;
    l <- lift (as_list (h_val h)) ;;
    res <- nel_resolve eps valid (marked_bools h) 0 l ;;
    when (nonempty res)
         (add_note NEL_CONFIGURED [vs "endpoints" (join (u ", ") (map (fun e => bt ++ e ++ bt) res))]).

(** ** origin.py *)
(** origin.py:34-37 (re.VERBOSE only) *)
Definition serialized_origin_re : re :=
  seqs [rfc3986_scheme; lit "://"; rfc3986_host; Opt (Seq (chr 58) rfc3986_port)].
(** The groups of a successful match, read off the text: a scheme has no colon,
    a host has none outside an IP literal's brackets, [$] may leave one
    trailing newline. *)
Definition origin_groups (s : str) : str * str * str :=
  let s := match last_chr s with Some 10 => removelast s | _ => s end in
  match split1 58 s with
  | Some (sch, rest) =>
      let rest := skipn 2 rest in
      match rest with
      | 91 :: _ => match split1 93 rest with
                   | Some (h, t) => (sch, h ++ [93], skipn 1 t)
                   | None => (sch, rest, [])
                   end
      | _ => match split1 58 rest with
             | Some (h, p) => (sch, h, p)
             | None => (sch, rest, [])
             end
      end
  | None => (s, [], [])
  end.
(** origin.py:39-57 *)
Definition p_origin (c : cx) (h : handler) (v : str) : W pyval :=
  if str_eqb v (u "null") then ret VNone
  else
    let os := split_all 32 v in
    when (Nat.ltb 1 (length os)) (add_note ORIGIN_MULTIPLE_VALUES []) ;;;
    let o := hd [] os in
    if match_dollar serialized_origin_re o then
      let '(sch, host, port) := origin_groups o in
      p <- (if nonempty port then z <- lift (int_of port) ;; ret (Some z) else ret None) ;;
      ret (VOrigin (lower sch) (lower host) p)
    else add_note BAD_ORIGIN_SYNTAX [vs "value" o] ;;; raise EValue.

(** ** permissions_policy.py *)
(** permissions_policy.py:127-138 *)
Definition sensitive_features : list str :=
  map u ["camera"; "microphone"; "geolocation"; "payment"; "usb"; "serial"; "magnetometer";
         "accelerometer"; "gyroscope"; "screen-wake-lock"]%string.
(** permissions_policy.py:29-71, one feature: the sub-notes *)
Definition pp_item (e : env) (feature : str) (b : bare) : res (list (nid * vars)) :=
  let f := vs "feature" feature in
  match b with
  | BTok t => Ok (if str_in t [u "self"; u "src"] then []
                  else [(PERMISSIONS_POLICY_UNKNOWN_TOKEN, [vs "token" t; f])])
  | BStr s => Ok (if str_in s [u "self"; u "src"; u "*"; u "none"]
                  then [(PERMISSIONS_POLICY_QUOTED_KEYWORD, [vs "value" s; f])] else [])
  | _ => rmap (fun t => [(PERMISSIONS_POLICY_INVALID_ITEM_TYPE, [vs "item" t; f])]) (py_str e (bare_val b))
  end.
Definition pp_feature (e : env) (km : str * member) : res (list (nid * vars)) :=
  let f := vs "feature" (fst km) in
  let bad := [(PERMISSIONS_POLICY_INVALID_VALUE, [f])] in
  match snd km with
  | MInner l _ => rmap (@List.concat _) (mapR (fun bp => pp_item e (fst km) (fst bp)) l)
  | MItem (BTok t) _ =>
      Ok (if negb (str_eqb t (u "*")) then bad
          else if str_in (fst km) sensitive_features then [(PERMISSIONS_POLICY_WILDCARD, [f])] else [])
  | MItem _ _ => Ok bad
  end.
(** permissions_policy.py:25-71 *)
Definition ev_permissions_policy (c : cx) (h : handler) (d : dict member) : W unit :=
  match d with
  | [] => ret tt
  | _ => kids <- lift (mapR (pp_feature (cx_env c)) d) ;;
         tell [ENote PERMISSIONS_POLICY_PRESENT None [] (List.concat kids)]
  end.

(** pragma.py:28-31 *)
Definition ev_pragma (c : cx) (h : handler) : W unit :=
  l <- lift (as_list (h_val h)) ;;
  when (existsb (fun x => negb (eq_text x (u "no-cache"))) l) (add_note PRAGMA_OTHER []).

(** proxy_status.py:48-110 *)
Definition proxy_status_params : list (str * known_param) :=
  let tok l := map (fun p => (u (fst p), snd p)) l in
  [(u "error", mkKnown [TToken] []
      (Some (tok
       [("dns_timeout", "The proxy encountered a timeout when trying to resolve the hostname.");
        ("dns_error", "The proxy encountered a DNS error.");
        ("destination_not_found", "The proxy could not determine the IP address of the next hop.");
        ("destination_unavailable", "The proxy could not connect to the next hop.");
        ("destination_ip_prohibited", "The proxy was configured to block access to the next hop IP.");
        ("destination_ip_unroutable", "The proxy could not route packets to the next hop IP.");
        ("connection_refused", "The proxy's connection to the next hop was refused.");
        ("connection_terminated", "The proxy's connection to the next hop was closed.");
        ("connection_timeout", "The proxy's connection to the next hop timed out.");
        ("connection_read_timeout", "The proxy encountered a timeout while waiting for data.");
        ("connection_write_timeout", "The proxy encountered a timeout while writing data.");
        ("connection_limit_reached", "The proxy reached a limit on open connections.");
        ("tls_protocol_error", "The proxy encountered a TLS error.");
        ("tls_certificate_error", "The proxy encountered a certificate error.");
        ("tls_alert_received", "The proxy received a TLS alert.");
        ("http_request_error", "The proxy encountered an error while generating the request.");
        ("http_request_denied", "The proxy denied the request.");
        ("http_response_incomplete", "The proxy received an incomplete response.");
        ("http_response_header_section_size", "The proxy received a header section that was too large.");
        ("http_response_header_size", "The proxy received a header that was too large.");
        ("http_response_body_size", "The proxy received a body that was too large.");
        ("http_response_transfer_coding", "The proxy encountered an error decoding the transfer coding.");
        ("http_response_content_coding", "The proxy encountered an error decoding the content coding.");
        ("http_response_timeout", "The proxy encountered a timeout while waiting for the response.");
        ("http_upgrade_failed", "The proxy failed to upgrade the connection.");
        ("http_protocol_error", "The proxy encountered a protocol error.");
        ("proxy_internal_error", "The proxy encountered an internal error.");
        ("proxy_configuration_error", "The proxy encountered a configuration error.");
        ("proxy_loop_detected", "The proxy detected a loop.")]%string))
      (Some ("The error was `", Some "`.")%string));
   (u "next-hop", mkKnown [TToken; TStr] [] None (Some ("The next hop was `", Some "`.")%string));
   (u "next-protocol", mkKnown [TToken] [] None (Some ("The next protocol was `", Some "`.")%string));
   (u "received-status", mkKnown [TInt] [] None (Some ("The received status code was ", Some ".")%string));
   (u "details", mkKnown [TToken; TStr] [] None (Some ("Additional details: ", Some "")%string))].
(** proxy_status.py:28-45 *)
Definition ev_proxy_status (c : cx) (h : handler) (l : list member) : W unit :=
  ev_status_list c proxy_status_params PROXY_STATUS PROXY_STATUS_UNKNOWN_PARAM
    PROXY_STATUS_BAD_PARAM_VAL l.

(** ** range.py *)
Definition range_bad {A} (problem : string) : W A :=
  add_note RANGE_BAD_SYNTAX [vl "ref_uri" (ref_of F_range); vl "problem" problem] ;;; raise EValue.
(** range.py:54-72 *)
Definition range_pos (s : str) (problem : string) : W (option Z) :=
  if negb (nonempty s) then ret None
  else if negb (py_isdigit s) then range_bad problem
  else z <- lift (int_of s) ;; ret (Some z).
(** range.py:40-89 *)
Definition range_one (rng : str) : W pyval :=
  let rng := strip rng in
  match split1 45 rng with
  | None => range_bad "the range specifier must contain a hyphen"
  | Some (a, b) =>
      x <- range_pos a "the first position in the range must be an integer" ;;
      y <- range_pos b "the last position in the range must be an integer" ;;
      match x, y with
      | None, None => range_bad "at least one of the first or last positions must be specified"
      | _, _ =>
          when (match x, y with Some f, Some l => (l <? f)%Z | _, _ => false end)
               (add_note RANGE_INVALID_range []) ;;;
          ret (VTuple [opt_int x; opt_int y])
      end
  end.
(** range.py:28-91; the RangeValue is a tuple *)
Definition p_range (c : cx) (h : handler) (v : str) : W pyval :=
  match split1 61 v with
  | None => range_bad "the range specifier must contain an equals sign"
  | Some (unit, rest) =>
      l <- mapW range_one (split_all 44 rest) ;;
      ret (VTuple [VStr unit; VList l])
  end.

(** referer.py:22-46; [urlparse]'s scheme and netloc are [urlsplit]'s *)
Definition ev_referer (c : cx) (h : handler) : W unit :=
  if negb (is_request c) then ret tt
  else match h_val h, m_uri (cx_msg c) with
       | VStr r, Some q =>
           if negb (nonempty r) || negb (nonempty q) then ret tt
           else match e_urlsplit (cx_env c) r, e_urlsplit (cx_env c) q with
                | Ok pr, Ok pq =>
                    if str_in (lower (u_scheme pr)) [u "https"; u "wss"] then
                      when (str_in (lower (u_scheme pq)) [u "http"; u "ws"])
                           (add_note REFERER_SECURE_TO_INSECURE []) ;;;
                      when (negb (str_eqb (u_scheme pr) (u_scheme pq)
                                  && str_eqb (u_netloc pr) (u_netloc pq)))
                           (add_note REFERER_SECURE_TO_DIFFERENT_ORIGIN [])
                    else ret tt
                | Err e, _ => if is_ValueError e then ret tt else raise e
                | _, Err e => if is_ValueError e then ret tt else raise e
                end
       | _, _ => ret tt
       end.

(** referrer_policy.py:90-107 *)
Definition strict_referrer : list str :=
  map u ["no-referrer"; "same-origin"; "strict-origin"; "strict-origin-when-cross-origin"]%string.
Definition valid_referrer : list str :=
  map u ["no-referrer"; "no-referrer-when-downgrade"; "same-origin"; "origin"; "strict-origin";
         "origin-when-cross-origin"; "strict-origin-when-cross-origin"; "unsafe-url"]%string.
(** referrer_policy.py:21-40 *)
Definition ev_referrer_policy (c : cx) (h : handler) : W unit :=
  l <- lift (strs (h_val h)) ;;
  iterW (fun t => when (negb (str_in t valid_referrer)) (add_note REFERRER_POLICY_UNKNOWN [vs "policy" t])) l ;;;
  let valid := filter (fun t => str_in t valid_referrer) l in
  match valid with
  | [] => add_note REFERRER_POLICY_EMPTY []
  | _ =>
      let eff := last valid [] in
      when (Nat.ltb 1 (length valid)) (add_note REFERRER_POLICY_MULTIPLE [vs "effective" eff]) ;;;
      if str_eqb eff (u "unsafe-url") then add_note REFERRER_POLICY_UNSAFE []
      else when (str_in eff strict_referrer) (add_note REFERRER_POLICY_STRICT [vs "policy" eff])
  end.

(** report_to.py:16-47 *)
Definition report_endpoint (v : pyval) : W unit :=
  match v with
  | VDict d =>
      match dget (u "url") d with
      | None => add_note REPORT_TO_MISSING_KEY [vl "key" "endpoints[].url"]
      | Some x => when (negb (is_str x))
                       (add_note REPORT_TO_BAD_TYPE [vl "key" "endpoints[].url"; vl "expected" "string"])
      end
  | _ => add_note REPORT_TO_BAD_STRUCTURE [vl "details" "Endpoints must be objects."]
  end.
Definition report_group (v : pyval) : W unit :=
  match v with
  | VDict d =>
      _ <- json_req REPORT_TO_MISSING_KEY REPORT_TO_BAD_TYPE d "max_age" is_int "integer" ;;
      match dget (u "endpoints") d with
      | None => add_note REPORT_TO_MISSING_KEY [vl "key" "endpoints"]
      | Some (VList l) => iterW report_endpoint l
      | Some _ => add_note REPORT_TO_BAD_TYPE [vl "key" "endpoints"; vl "expected" "list"]
      end
  | _ => add_note REPORT_TO_BAD_STRUCTURE []
  end.
Definition ev_report_to (c : cx) (h : handler) : W unit :=
  l <- lift (as_list (h_val h)) ;; iterW report_group l.

(** [urlsplit(urljoin(base, url)).scheme] is set and not https or wss *)
Definition not_secure (c : cx) (url : str) : res bool :=
  rmap (fun s => nonempty s && negb (str_in s [u "https"; u "wss"])) (target_scheme c url).
(** reporting_endpoints.py:25-41 *)
Definition ev_reporting_endpoints (c : cx) (h : handler) (d : dict member) : W unit :=
  iterW (fun km : str * member =>
    match mem_head (snd km) with
    | VStr url => b <- lift (not_secure c url) ;;
                  when b (add_note ENDPOINT_NOT_SECURE [vs "name" (fst km); vs "url" url])
    | v => add_note BAD_REPORTING_ENDPOINT_SYNTAX
             [vs "name" (fst km); vv "value" v; vs "found_type" (type_name v)]
    end) d.
(** speculation_rules.py:27-41 *)
Definition ev_speculation_rules (c : cx) (h : handler) (l : list member) : W unit :=
  iterW (fun m =>
    match mem_head m with
    | VStr url => b <- lift (not_secure c url) ;;
                  when b (add_note SPECULATION_RULE_NOT_SECURE [vs "url" url])
    | v => add_note SPECULATION_RULES_BAD_TYPE [vv "value" v; vs "found_type" (type_name v)]
    end) l.

(** server.py:19-26 *)
Definition p_server (c : cx) (h : handler) (v : str) : W pyval :=
  when (Nat.ltb 64 (length v))
       (add_note SERVER_TOO_LONG [vs "server_string" v;
                                  vs "server_length" (f_comma (length v) ++ u " bytes")]) ;;;
  ret (VStr v).

(** server_timing.py:28-37 *)
Definition p_server_timing (c : cx) (h : handler) (v : str) : W pyval :=
  let '(m, ps) := split_or 59 v in
  d <- parse_params (cx_env c) ps (NoStarList [u "desc"]) DSemi ;;
  ret (VTuple [VStr (strip m); param_dict_val d]).
(** server_timing.py:39-58 *)
Definition ev_server_timing (c : cx) (h : handler) : W unit :=
  l <- lift (rbind (as_list (h_val h)) (mapR text_params)) ;;
  iterW (fun x : str * dict pyval =>
    let m := vs "metric" (fst x) in
    match dget (u "dur") (snd x) with
    | None | Some VNone => add_note SERVER_TIMING_MISSING_DUR [m]
    | Some (VStr d) =>
        when (match py_float d with None => true | Some _ => false end)
             (add_note SERVER_TIMING_BAD_PARAM [m; vl "param" "dur"; vs "value" d])
    | Some _ => raise EType
    end ;;;
    when (negb (dmem (u "desc") (snd x))) (add_note SERVER_TIMING_MISSING_DESC [m])) l.

(** tcn.py:18-24 *)
Definition p_tcn (c : cx) (h : handler) (v : str) : W pyval :=
  add_note UNNECESSARY_HEADER [vs "header_name" (h_wire h)] ;;; ret (VStr v).
(** unnecessary.py:38-39: returns None *)
Definition p_unnecessary (c : cx) (h : handler) (v : str) : W pyval :=
  add_note UNNECESSARY_HEADER [vs "header_name" (h_wire h)] ;;; ret VNone.
(** deprecated.py, [DeprecatedField.parse]: returns None *)
Definition p_none (c : cx) (h : handler) (v : str) : W pyval := ret VNone.

(** transfer_encoding.py:37-46 *)
Definition p_transfer_encoding (c : cx) (h : handler) (v : str) : W pyval :=
  let '(coding, ps) := split_or 59 v in
  d <- parse_params (cx_env c) ps NoStarTrue DSemi ;;
  when (nonempty d) (add_note TRANSFER_CODING_PARAM []) ;;;
  ret (VTuple [VStr (lower coding); param_dict_val d]).
(** transfer_encoding.py:48-65 *)
Definition ev_transfer_encoding (c : cx) (h : handler) : W unit :=
  l <- lift (rbind (as_list (h_val h)) (mapR text_params)) ;;
  let codings := map fst l in
  let unw := py_set (cx_env c)
               (filter (fun x => negb (str_in x [u "chunked"; u "identity"])) codings) in
  unw <- (match unw, related_request c with
          | _ :: _, Some r =>
              te <- lift (heads (rel_list r "te")) ;;
              ret (py_set (cx_env c) (filter (fun x => negb (existsb (fun t => eq_text t x) te)) unw))
          | _, _ => ret unw
          end) ;;
  iterW (fun x => add_note TRANSFER_CODING_UNWANTED [vs "coding" x]) unw ;;;
  when (str_in (u "identity") codings) (add_note TRANSFER_CODING_IDENTITY []).

(** use_as_dictionary.py:50-75; a Dictionary member is always a tuple, so the
    first branch (59-67) is never taken *)
Definition uad_check (v : pyval) (ok : bool) (exp : string) : W unit :=
  when (negb ok)
       (add_note USE_AS_DICTIONARY_BAD_TYPE
          [vv "param" v; vl "expected" exp; vs "got" (type_name v)]).
(** use_as_dictionary.py:26-48 *)
Definition ev_use_as_dictionary (c : cx) (h : handler) (d : dict member) : W unit :=
  iterW (fun km : str * member =>
    let v := mem_head (snd km) in
    if str_in (fst km) [u "match"; u "id"; u "type"] then uad_check v (is_str v) "str"
    else if str_eqb (fst km) (u "match-dest") then
      let ok := match snd km with
                | MItem (BStr _) _ => true
                | MInner l _ => forallb (fun bp : bare * sfparams => is_str (bare_val (fst bp))) l
                | _ => false
                end in
      when (negb ok) (add_note USE_AS_DICTIONARY_BAD_MATCH_DEST [vs "got" (type_name v)])
    else if str_eqb (fst km) (u "ttl") then uad_check v (is_int v) "int"
    else ret tt) d.

(** vary.py:25-38; returns the de-duplicated value *)
Definition ev_vary (c : cx) (h : handler) : W pyval :=
  l <- lift (strs (h_val h)) ;;
  let d := dedup l in
  when (negb (Nat.eqb (length l) (length d))) (add_note VARY_DUPLICATE []) ;;;
  when (str_in (u "*") d) (add_note VARY_ASTERISK []) ;;;
  when (Nat.ltb 3 (length d))
       (add_note VARY_COMPLEX [vs "vary_count" (f_num (Z.of_nat (length d)))]) ;;;
  when (str_in (u "user-agent") d) (add_note VARY_USER_AGENT []) ;;;
  when (str_in (u "host") d) (add_note VARY_HOST []) ;;;
  when (str_in (u "negotiate") d) (add_note VARY_NEGOTIATE []) ;;;
  ret (VList (map VStr d)).

(** via.py:22-24 *)
Definition ev_via (c : cx) (h : handler) : W unit :=
  l <- lift (strs (h_val h)) ;;
  add_note VIA_PRESENT
    [vs "via_list" (u "<ul>" ++ join [10] (map (fun v => u "<li><code>" ++ v ++ u "</code></li>") l)
                    ++ u "</ul>")].

(** x_content_type_options.py:17-21 *)
Definition ev_xcto (c : cx) (h : handler) : W unit :=
  l <- lift (as_list (h_val h)) ;;
  if existsb (fun x => eq_text x (u "nosniff")) l then add_note CONTENT_TYPE_OPTIONS []
  else add_note CONTENT_TYPE_OPTIONS_UNKNOWN [].

(** x_frame_options.py:37-38 *)
Definition p_xfo (c : cx) (h : handler) (v : str) : W pyval := ret (VStr (upper v)).
(** x_frame_options.py:40-46 *)
Definition ev_xfo (c : cx) (h : handler) : W unit :=
  s <- lift (as_str (h_val h)) ;;
  if has_sub (u "DENY") s then add_note FRAME_OPTIONS_DENY []
  else if has_sub (u "SAMEORIGIN") s then add_note FRAME_OPTIONS_SAMEORIGIN []
  else add_note FRAME_OPTIONS_UNKNOWN [].
