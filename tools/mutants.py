# One realistic bug per entry: (id, property, file, definition, old text, new text, the claim it breaks)
M = []
def mut(prop, file, defn, old, new, claim):
    M.append(("M%02d" % (len(M) + 1), prop, file, defn, old, new, claim))

mut("C36","Framework","field_line","max_field_size <? size","max_field_size <=? size","FIELD_TOO_LARGE only above 8192 bytes")
mut("C36","Framework","s_line","(s_size s + size)","(size)","section size counts every line")
mut("C36","Framework","section_size","max_total_size <? size","max_total_size <=? size","FIELD_SECTION_TOO_LARGE only above 32768 bytes")
mut("C09","Framework","s_line","s_text s ++ [nv]","nv :: s_text s","text keeps the order of the lines")
mut("C09","Framework","read_value","(decode_latin1 value, [ENote FIELD_VALUE_ENCODING","(decode_ascii_ignore value, [ENote FIELD_VALUE_ENCODING","values are decoded byte for byte")
mut("C09","Framework","read_name","(s, [ENote FIELD_NAME_ENCODING None [(k_field_name, VStr s)] []])","(s, [])","FIELD_NAME_ENCODING is reported for a non-ASCII name")
mut("C09","Framework","field_line","(m_emit (tag subj [] l5) m2, S offset, Ok tt)","(m_emit (tag subj [] l5) m2, offset, Ok tt)","each line's notes are about that line (offset-N)")
mut("C18","Framework","pre_check","(h, [ENote FIELD_NAME_BAD_SYNTAX None [] []], false)","(h, [ENote FIELD_NAME_BAD_SYNTAX None [] []], true)","the value of a line with an invalid name is ignored")
mut("C18","Framework","pre_check","negb (match_dollar (nocase rfc9110_token) (h_wire h))","negb (nonempty (h_wire h))","an invalid name is one that is not a token")
mut("C19","Framework","pre_check","| MResponse, _, false | MMessage, _, false =>","| MResponse, _, false =>","request-only fields are reported in anything but a request")
mut("C19","Framework","pre_check","(h_set_val h VNone, [ENote RESPONSE_HDR_IN_REQUEST cat [] []], false)","(h, [ENote RESPONSE_HDR_IN_REQUEST cat [] []], false)","a misplaced field's value is None")
mut("C13","Framework","singleton_finish","| (raw, _) :: more =>\n      let a","| (raw0, _) :: more =>\n      let raw := fst (last more (raw0, 0%nat)) in\n      let a","a singleton field has its first line's value")
mut("C13","Framework","singleton_finish","match more with [] => [] | _ => [ENote SINGLE_HEADER_REPEAT","match more with [] | [_] => [] | _ => [ENote SINGLE_HEADER_REPEAT","SINGLE_HEADER_REPEAT from the second line on")
mut("C40","Framework","singleton_finish","else if fa_report a then [ENote BAD_SYNTAX None [v_ref h] []] else []","else []","BAD_SYNTAX is reported for a singleton outside its grammar")
mut("C40","Framework","list_syntax","if match_ws_dollar r v then ret tt","if match_dollar r v || match_ws_dollar r v || str_eqb v [] then ret tt","BAD_SYNTAX exactly outside the grammar (an equivalent edit except on the empty element)")
mut("C14","Framework","append_val","VList (l ++ [v])","VList (v :: l)","list fields keep the order of their elements")
mut("C14","Framework","sf_finish","let combined := strip (join (u \", \") raws) in","let combined := strip (join (u \",\") raws) in","Structured Field lines are joined with comma and space")
mut("C11","Framework","field_line","let key := lower sname in","let key := sname in","names differing in case share one handler")
mut("C11","Framework","finish_one","dset (h_norm h') (h_val h')","dset (h_wire h') (h_val h')","one entry in parsed per case-folded name")
mut("C12","Framework","name_token","lower (replace_chr 45 95 name)","replace_chr 45 95 name","any letter case resolves to the same class")
mut("C12","Framework","find_class","else if str_in (lower name) (map u unnecessary_fields) then F__unnecessary","else","unnecessary names are handled by the unnecessary class")
mut("C03","Message","check_content_length","if m_no_content m then m\n        else if","if","no Content-Length verdict with no_content")
mut("C03","Message","check_content_length","Z.eqb z (Z.of_N (m_clen m))","Z.leb (Z.of_N (m_clen m)) z","CL_CORRECT only if the value equals the number of bytes")
mut("C05","Message","check_content_length","else if (0 <? m_clen m) && negb (m_no_content m)\n       then note_msg \"message\" CONTENT_NOT_ALLOWED","else if (0 <? m_clen m)\n       then note_msg \"message\" CONTENT_NOT_ALLOWED","CONTENT_NOT_ALLOWED never with no_content")
mut("C05","Message","can_have_content","status_is_in [304]%Z","status_is_in [204; 304]%Z","only HEAD and 304 responses may not have content")
mut("C05","Message","undefined_content","[\"GET\"; \"HEAD\"; \"DELETE\"; \"CONNECT\"; \"TRACE\"]%string.\nDefinition request_post","[\"GET\"; \"HEAD\"; \"CONNECT\"; \"TRACE\"]%string.\nDefinition request_post","REQUEST_CONTENT_NOT_DEFINED for DELETE")
mut("C04","Message","feed_content","if m_no_content m then (m1, Ok tt)","if m_no_content m then (m_set_hashed (m_hashed m1 ++ chunk) m1, Ok tt)","no byte is hashed with no_content")
mut("C01","Message","feed_content","m_set_clen (m_clen m + N.of_nat (length chunk)) m","m_set_clen (N.max (m_clen m) (N.of_nat (length chunk))) m","content_length is the total fed")
mut("C02","Message","sink","firstn (content_sample_size - length (m_sample m)) chunk","(if Nat.ltb (length (m_sample m)) content_sample_size then chunk else [])","the sample is at most 8192 bytes")
mut("C02","Message","sink","m_sample m ++ firstn","firstn content_sample_size (m_sample m) ++ firstn","(equivalent edit: control)")
mut("C25","Message","gzip_header","match skip_if flag 3 skip_zero r with\n                           | Some r => match skip_if flag 4 skip_zero r with","match skip_if flag 3 skip_zero r with\n                           | Some r => match skip_if flag 5 skip_zero r with","FCOMMENT is bit 4")
mut("C25","Message","skip_extra","x + 256 * y","256 * x + y","the extra field's length is little-endian")
mut("C25","Message","stage_feed","| GzMore => ([], [], Gzip hist false (buf ++ chunk) total true)","| GzMore => ([], [], Gzip hist false chunk total true)","a header may be spread over chunks")
mut("C26","Message","gzip_step","then inr (hist, total, outs, false, [(DECOMPRESSION_LIMIT, [])])","then inr (hist, total, outs ++ [out], false, [(DECOMPRESSION_LIMIT, [])])","nothing beyond 100MB is passed on")
mut("C26","Message","stage_feed","Brotli (hist ++ [chunk]) total false)\n           | inl []","Brotli (hist ++ [chunk]) total true)\n           | inl []","a decoder stops after an error")
mut("C27","Message","build_pipeline","rev (flat_map","(flat_map","the last coding is undone first")
mut("C35","Message","set_uri","match split1 35 uri with Some (a, _) => a | None => uri end","uri","uri has no fragment")
mut("C35","Message","set_uri","Nat.ltb max_uri_chars (length uri)","Nat.leb max_uri_chars (length uri)","URI_TOO_LONG only above 8000 characters")
mut("C37","Message","process_response_topline","| None => note_msg \"status\" STATUS_CODE_NON_NUMERIC [] m","| None => m","STATUS_CODE_NON_NUMERIC is reported")
mut("C24","Checks","is_preflight","method_is m \"OPTIONS\" && m_has m \"origin\" && m_has","method_is m \"OPTIONS\" && m_has","a preflight has an Origin")
mut("C24","Checks","preflight_only","\"access-control-allow-methods\"; \"access-control-max-age\"]","\"access-control-allow-methods\"]","Access-Control-Max-Age is preflight-only")
mut("C20","Checks","check_storable","else if cc_has i \"must-revalidate\" then auth","else if cc_has i \"proxy-revalidate\" then auth","must-revalidate makes an authenticated response shareable")
mut("C20","Checks","method_uncacheable","nonempty s && negb (str_in s cacheable_methods)","nonempty s && str_in s cacheable_methods","only GET and HEAD responses are stored")
mut("C21","Checks","check_age","if q_gt (num_q corrected) (inject_Z apparent) then corrected else NInt apparent","if q_gt (num_q corrected) (inject_Z apparent) then NInt apparent else corrected","the age is the larger of the two")
mut("C22","Checks","lifetimes","| Some z => mkFresh (f_priv f1) z true","| Some z => mkFresh z z true","s-maxage is for shared caches only")
mut("C22","Checks","check_freshness","if is_fresh || is_shared then FRESHNESS_FRESH","if negb is_fresh || is_shared then FRESHNESS_FRESH","a stale response is not reported fresh")
mut("C20","Checks","check_stale","if cc_has i \"stale-if-error\" then cc STALE_IF_ERROR","if cc_has i \"stale-if-error\" && is_fresh then cc STALE_IF_ERROR","STALE_IF_ERROR whenever the directive is there")
mut("C23","Checks","check_status","| 307%Z | 308%Z => no_location","| 307%Z => no_location\n      | 308%Z => ret tt","308 needs a Location")
mut("C23","Checks","check_status","when (negb (m_has m \"content-range\")) (note","when (m_has m \"content-range\") (note","PARTIAL_WITHOUT_RANGE iff there is no Content-Range")
mut("C30","Fields1","known_cc","(\"s-maxage\", (false, true, CCInt))","(\"s-maxage\", (false, true, CCNone))","s-maxage takes a number")
mut("C30","Fields1","conflicting_cc","\"stale-while-revalidate\"; \"pre-check\"; \"post-check\"]);\n   (\"no-cache\"","\"stale-while-revalidate\"; \"pre-check\"]);\n   (\"no-cache\"","no-store overrides post-check")
mut("C30","Fields1","cc_one","is_response c && negb inres","is_response c && negb inreq","max-stale in a response is in the wrong message")
mut("C30","Fields1","p_cache_control","let lname := lower name in\n  when (negb (str_eqb name lname))","let lname := name in\n  when (negb (str_eqb name (lower name)))","directive names are lower-cased")
mut("C31","Fields2","ev_vary","Nat.ltb 3 (length d)","Nat.ltb 3 (length l)","VARY_COMPLEX counts distinct names")
mut("C31","Fields2","ev_vary","ret (VList (map VStr d)).","ret (VList (map VStr l)).","duplicates are dropped")
mut("C24","Fields1","check_acao","if str_eqb acao (u \"null\") then tell [EMsg hdr_acao CORS_ORIGIN_NULL []]\n          else if str_eqb acao (u \"*\") then tell [EMsg hdr_acao CORS_ORIGIN_STAR []]\n          else if str_eqb acao os","if str_eqb acao (u \"*\") then tell [EMsg hdr_acao CORS_ORIGIN_NULL []]\n          else if str_eqb acao os","ACAO null and star are told apart")
mut("C29","Fields1","p_age","if (z <? 0)%Z then add_note AGE_NEGATIVE","if (z <=? 0)%Z then add_note AGE_NEGATIVE","Age 0 is accepted")
mut("C28","Utils","parse_http_date","if (68 <? y)%Z","if (70 <? y)%Z","two-digit years from 69 mean 19xx")
mut("C16","Utils","unquote_string","| Some 34, Some 34 => unescape (mid s)","| Some 34, Some 34 => mid s","escapes are undone")
mut("C15","Utils","split_list_field","filter nonempty (map strip","filter (fun s => Nat.ltb 1 (length s)) (map strip","one-character elements are kept")
mut("C17","Utils","parse_param","let k_norm := lower key in","let k_norm := key in","parameter names are case-insensitive")
mut("C17","Utils","parse_param","else ret (dset k_norm (Some (unquote_string val)) d)","else ret (if dmem k_norm d then d else dset k_norm (Some (unquote_string val)) d)","the last occurrence counts")
mut("C38","Utils","restricted_name_max_len",":= 127.",":= 128.","names above 127 characters are too long")
mut("C07","Note","mk_note","Some c => if category_eqb (nid_category cls) GENERAL then c else nid_category cls","Some c => c","the category argument counts only for GENERAL notes")
mut("C07","Note","mk_note","dupdate (default_vars t) vrs in","dupdate vrs (default_vars t) in","the caller's variables win over the defaults")
mut("C06","Fields1","check_acao","[vs \"origin\" os; vs \"acao_value\" acao]","[vs \"origin\" os]","every template variable has a value")
mut("C08","Utils","markdown_list","(remove_chr 96 i)","i","MarkdownSafe values hold no backtick inside code spans")
mut("C32","Fields1","p_cache_control","raise EValue\n      end\n  | Some (_, _, CCQuoted)","raise EType\n      end\n  | Some (_, _, CCQuoted)","a bad Cache-Control number does not raise")
mut("C32","Framework","singleton_finish","Err e => if is_ValueError e then (evs, h_set_val h1 VNone, Ok tt) else (evs, h1, Err e)","Err e => (evs, h1, Err e)","a ValueError in parse does not escape")
# second batch
mut("C12","Framework","find_class","str_in (lower name) (map u unnecessary_fields)","str_in name (map u unnecessary_fields)","unnecessary names are recognized in any letter case")
mut("C44","Fields2","ev_xfo","if has_sub (u \"DENY\") s then add_note FRAME_OPTIONS_DENY []\n  else if has_sub (u \"SAMEORIGIN\") s then add_note FRAME_OPTIONS_SAMEORIGIN []","if has_sub (u \"SAMEORIGIN\") s then add_note FRAME_OPTIONS_SAMEORIGIN []\n  else if has_sub (u \"DENY\") s then add_note FRAME_OPTIONS_DENY []","DENY wins over SAMEORIGIN")
mut("C44","Fields2","p_xfo","ret (VStr (upper v))","ret (VStr v)","X-Frame-Options ignores case")
mut("C44","Fields2","ev_xcto","if existsb (fun x => eq_text x (u \"nosniff\")) l","if forallb (fun x => eq_text x (u \"nosniff\")) l","one nosniff element is enough")
mut("C44","Fields2","ev_referrer_policy","let eff := last valid [] in","let eff := hd [] valid in","the last recognized policy is the effective one")
mut("C44","Fields2","strict_referrer","\"no-referrer\"; \"same-origin\"; \"strict-origin\"; \"strict-origin-when-cross-origin\"]","\"no-referrer\"; \"same-origin\"; \"strict-origin\"]","strict-origin-when-cross-origin is a strict policy")
mut("C44","Fields2","ev_corp","eq_text (h_val h) (u \"same-site\")","eq_text (h_val h) (u \"same_site\")","same-site is recognized")
mut("C45","Fields1","p_content_range","(n <=? b)%Z","(n <? b)%Z","the last position is below the length")
mut("C45","Fields1","p_content_range","when (b <? a)%Z (add_note RANGE_INVALID [])","when (b <=? a)%Z (add_note RANGE_INVALID [])","a range of one byte is valid")
mut("C45","Fields1","p_content_range","status_in c [206; 416]%Z","status_in c [206]%Z","Content-Range means something on 416")
mut("C45","Fields1","cr_range","RANGE_INVALID_INTEGER [vs \"value\" b]","RANGE_INVALID_INTEGER [vs \"value\" a]","the note shows the bad number")
mut("C45","Fields2","range_one","(l <? f)%Z","(l <=? f)%Z","bytes=5-5 is valid")
mut("C45","Fields2","range_one","let rng := strip rng in","let rng := rng in","white space around a range is ignored")
mut("C45","Fields2","p_range","split_all 44 rest","[rest]","ranges are separated by commas")
mut("C45","Fields1","p_accept_ranges","[u \"bytes\"; u \"none\"]","[u \"bytes\"]","none is a known range unit")
mut("C46","Fields2","p_origin","ret (VOrigin (lower sch) (lower host) p)","ret (VOrigin (lower sch) host p)","an origin's host is lower-cased")
mut("C46","Fields2","p_origin","when (Nat.ltb 1 (length os))","when (Nat.ltb 2 (length os))","two origins are reported")
mut("C46","Fields2","origin_groups","| 91 :: _ => match split1 93 rest with","| 91 :: _ => match split1 58 rest with","an IPv6 literal keeps its colons")
mut("C46","Fields2","p_location","[201; 300; 301; 302; 303; 305; 307; 308]%Z","[201; 300; 301; 302; 303; 307; 308]%Z","Location is defined for 305")
mut("C46","Fields2","ev_referer","str_in (lower (u_scheme pq)) [u \"http\"; u \"ws\"]","str_in (lower (u_scheme pq)) [u \"http\"]","ws is insecure")
mut("C46","Fields2","ev_referer","negb (str_eqb (u_scheme pr) (u_scheme pq)\n                                  && str_eqb","negb (str_eqb (u_scheme pr) (u_scheme pq)\n                                  || str_eqb","same origin needs the same scheme and host")
mut("C46","Fields2","ev_expect","negb (str_eqb (lower x) (u \"100-continue\"))","negb (str_eqb x (u \"100-continue\"))","100-Continue ignores case")
mut("C46","Fields2","ev_max_forwards","[u \"TRACE\"; u \"OPTIONS\"]","[u \"TRACE\"]","Max-Forwards is for OPTIONS too")
mut("C47","Fields2","ev_transfer_encoding","[u \"chunked\"; u \"identity\"]","[u \"chunked\"]","identity is not unwanted")
mut("C47","Fields2","ev_transfer_encoding","filter (fun x => negb (existsb (fun t => eq_text t x) te)) unw","filter (fun x => existsb (fun t => eq_text t x) te) unw","codings in TE are wanted")
mut("C47","Fields2","p_transfer_encoding","ret (VTuple [VStr (lower coding); param_dict_val d])","ret (VTuple [VStr coding; param_dict_val d])","codings ignore case")
mut("C48","Fields1","p_content_disposition","when (str_eqb disp (u \"attachment\") && negb (dmem (u \"filename\") d))","when (negb (dmem (u \"filename\") d))","only attachments need a filename")
mut("C48","Fields1","p_content_disposition","when (has_chr 37 filename)","when (has_chr 37 star)","the percent check is on filename")
mut("C48","Fields1","p_content_disposition","when (has_chr 47 filename ||","when (has_chr 47 star ||","the path check is on filename")
mut("C49","Fields3","loose_date_parse","((70 <=? y) && (y <=? 99))","((69 <=? y) && (y <=? 99))","year 69 means 2069")
mut("C49","Fields3","loose_date_parse","(y <? 1601)%Z","(y <=? 1601)%Z","the year 1601 is accepted")
mut("C49","Fields3","loose_date_parse","else if (59 <? sec)%Z","else if (60 <? sec)%Z","second 60 is refused")
mut("C49","Fields3","is_delim","((59 <=? c) && (c <=? 64))","((58 <=? c) && (c <=? 64))","a colon does not separate tokens")
mut("C49","Fields3","cookie_attribute","q_gt (inject_Z z) (t + inject_Z cookie_limit)%Q && negb ltn","q_gt (inject_Z z) (inject_Z cookie_limit)%Q && negb ltn","Expires is compared with the start time plus 400 days")
mut("C49","Fields3","cookie_attribute","let long := (cookie_limit <? z)%Z && negb ltn in","let long := (cookie_limit <? z)%Z in","one lifetime note per cookie")
mut("C49","Fields3","cookie_attribute","AStr (if a0 =? 46 then rest else avalue)","AStr avalue","a leading dot is dropped from Domain")
mut("C49","Fields3","check_prefixes","if startswith (u \"__host-\") n then\n    when (negb (has_attr \"Secure\" \"\" l))","if startswith (u \"__Host-\") n then\n    when (negb (has_attr \"Secure\" \"\" l))","prefixes ignore case")
mut("C49","Fields3","check_prefixes","when (negb (has_attr \"Path\" \"/\" l))","when (has_attr \"Path\" \"/\" l)","__Host- needs Path=/")
mut("C49","Fields3","cookie_loop","(lower n :: seen) (snd r)","(n :: seen) (snd r)","attributes repeat in any letter case")
mut("C49","Fields3","loose_parse","has_attr \"SameSite\" \"None\" l && negb","has_attr \"SameSite\" \"Lax\" l && negb","SameSite=None needs Secure")
mut("C49","Fields3","loose_parse","Nat.ltb 128 (length value)","Nat.ltb 128 (length name)","the value's length is checked")
mut("C49","Fields3","is_hardened","has_attr \"Secure\" \"\" l && has_attr \"HttpOnly\" \"\" l\n  &&","has_attr \"Secure\" \"\" l &&","a hardened cookie is HttpOnly")
mut("C49","Fields3","ev_set_cookie","py_sorted (dups names)","dups names","repeated names are listed in order")
mut("C34","Cli","response_topline","[u \"1.0\"; u \"1.1\"; u \"2\"]","[u \"1.0\"; u \"1.1\"]","HTTP/2 status lines are accepted")
mut("C34","Cli","request_topline","match brsplit req_line with","match bsplit req_line with","the version is the last word")
mut("C34","Cli","note_insert","str_leb (cat_text (n_cat x)) (cat_text (n_cat y))","str_leb (cat_text (n_cat y)) (cat_text (n_cat x))","categories are printed in order")
mut("C34","Cli","print_notes","| Some c => if category_eqb (n_cat n) c then []","| Some c => if category_eqb (n_cat n) c then nl","one heading per category")
mut("C34","Cli","print_kids","let '(out, r) := print_kids e l' in","let '(out, r) := (@nil N, Ok tt) in","every sub-note is printed")
mut("C42","Locale","translate","match lookup c m with Some t => utf8 t | None => u m end","match lookup c m with Some t => utf8 t | None => [] end","untranslated messages fall back to English")
mut("C42","Locale","utf8_points","((c - 192) * 64 + (d - 128))","((c - 192) * 32 + (d - 128))","catalogues are UTF-8")
mut("C42","Locale","detail_in","translate c (nid_text cls)","translate c (nid_summary cls)","the detail is the translated text")
mut("C41","Describe","get_field_description","if fname_eqb (find_class name) F__unknown then None\n  else ","","unknown names have no description")
mut("C41","Describe","unnecessary_texts","(\"x-runtime\", ","(\"x-run-time\", ","X-Runtime is described")
mut("C41","Describe","describe_as","slookup norm unnecessary_texts","slookup canon unnecessary_texts","descriptions ignore case")
mut("C29","Fields1","p_content_length","(9223372036854775807 <? z)%Z","(9223372036854775807 <=? z)%Z","2^63-1 is not too large")
mut("C29","Fields1","p_acma","CORS_MAX_AGE_NEGATIVE ref ;;; raise EValue","CORS_MAX_AGE_NEGATIVE ref ;;; ret (VInt z)","a bad Access-Control-Max-Age has no value")
mut("C07","Note","default_vars","u \"message_type\"","u \"message\"","every note knows the message type")
mut("C01","Message","feed_content","m_set_hashed (m_hashed m1 ++ chunk)","m_set_hashed chunk","the hash covers every chunk")
mut("C08","Note","coerce","remove_chr 96","(fun s : str => s)","backticks are removed from plain values")
mut("C50","Fields1","q_value","Nat.ltb 5 (length s)","Nat.ltb 6 (length s)","a q value has at most five characters")
mut("C50","Fields1","q_value","Qle_bool 0 x && Qle_bool x 1","Qle_bool 0 x","a q value is at most 1")
mut("C50","Fields1","p_accept_language","| None => add_note BAD_Q_VALUE_accept_language [vs \"language\" lang] ;;; ret VNone","| None => ret VNone","a bad weight is reported")
mut("C51","Fields1","ev_alt_svc","Nat.ltb 1 (length l)","Nat.ltb 2 (length l)","clear with one other entry is reported")
mut("C51","Fields2","p_server","Nat.ltb 64 (length v)","Nat.leb 64 (length v)","64 characters are not too long")
mut("C51","Fields2","ev_vary","Nat.ltb 3 (length d)","Nat.ltb 3 (length l)","repeated names count once for VARY_COMPLEX")
mut("C52","Fields2","p_link","nonempty t && negb (match_ws_dollar rfc9110_media_type t)","nonempty t && negb (match_ws_dollar rfc3986_URI_reference t)","the type parameter must be a media type")
mut("C52","Fields2","ev_link","words (lower rel)","[lower rel]","rel is a list of relation types")
mut("C52","Fields2","ev_link","negb (str_in (snd t) [u \"http\"; u \"https\"])","negb (str_in (snd t) [u \"https\"])","http is a permitted scheme for a hint")
mut("C53","Fields2","ev_deprecation","q_gt (inject_Z z) st then add_note DEPRECATION_FUTURE","q_gt st (inject_Z z) then add_note DEPRECATION_FUTURE","a date after now is in the future")
mut("C53","Fields1","ev_cdn_cache_control","str_in name [u \"no-cache\"; u \"private\"]","str_in name [u \"no-cache\"]","private may have no value")
mut("C53","Fields2","ev_use_as_dictionary","| MItem (BStr _) _ => true","| MItem (BStr _) _ => false","a string is a permitted match-dest")
mut("C53","Fields1","ev_cache_group_invalidation","u \"GET\"; u \"HEAD\"; u \"OPTIONS\"; u \"TRACE\"","u \"GET\"; u \"HEAD\"; u \"OPTIONS\"","TRACE is a safe method")
mut("C53","Fields2","not_secure","rmap (fun s => nonempty s && negb (str_in s [u \"https\"; u \"wss\"]))","rmap (fun s => nonempty s && negb (str_in s [u \"https\"]))","wss is a secure scheme")
mut("C54","Fields3","ev_hsts","(z <? hsts_min)%Z","(z <=? hsts_min)%Z","hsts_min seconds are long enough")
mut("C54","Fields3","ev_hsts","negb (status_in c [301]%Z)","negb (status_in c [301; 302]%Z)","only 301 may carry the field over HTTP")
mut("C54","Fields3","hsts_loop","HSTS_VALUE_NOT_ALLOWED [vl \"directive\" \"preload\"]","HSTS_VALUE_NOT_ALLOWED [vl \"directive\" \"includeSubDomains\"]","the note names preload")
mut("C54","Fields3","p_hsts","ret (removelast ds)","ret ds","a trailing semicolon adds no directive")
mut("C54","Fields3","ev_hsts","hs_sub s && long then","long then","preload needs includeSubDomains")
mut("C56","Fields2","pp_item","[u \"self\"; u \"src\"] then []","[u \"self\"] then []","src is a known token")
mut("C56","Fields2","pp_item","[u \"self\"; u \"src\"; u \"*\"; u \"none\"]","[u \"self\"; u \"src\"; u \"*\"]","a quoted none is reported")
mut("C56","Fields2","pp_feature","if negb (str_eqb t (u \"*\")) then bad","if negb (str_eqb t (u \"*\")) then []","another token is invalid")
mut("C57","Fields2","coep_tab","(u \"unsafe-none\", COEP_UNSAFE_NONE)]","(u \"unsafe-nona\", COEP_UNSAFE_NONE)]","unsafe-none is a known value")
mut("C57","Fields2","pc_cop","when (negb (existsb (eq_text rt) eps))","when (existsb (eq_text rt) eps)","an endpoint that is not configured is reported")
mut("C57","Fields2","ev_coop_ro","has_handler c \"cross-origin-opener-policy\"","has_handler c \"cross-origin-embedder-policy\"","the note looks for the enforced field of the same kind")
mut("C58","Fields1","pc_accept_ch","startswith (u \"http:\") (lower uri)","startswith (u \"http\") (lower uri)","https is not plain HTTP")
mut("C58","Fields1","pc_available_dictionary","(existsb (eq_text (fst p)) [u \"dcb\"; u \"dcz\"])","(existsb (eq_text (fst p)) [u \"dcb\"])","dcz is a dictionary coding")
mut("C58","Fields1","p_content_encoding","eq_text x (lower v)","eq_text x v","codings ignore case")
mut("C59","Fields2","nel_policy","NEL_BAD_TYPE d \"max_age\" is_int \"integer\"","NEL_BAD_TYPE d \"max_age\" is_num \"integer\"","max_age is an integer")
mut("C59","Fields2","in_unit","((0 <=? z) && (z <=? 1))","((0 <=? z) && (z <=? 2))","a fraction is at most 1")
mut("C59","Fields2","nel_resolve","| Some true => ret [rt]\n                      | Some false => ret []","| Some _ => ret [rt]","only clean policies are configured")
mut("C59","Fields2","valid_endpoints","negb (str_in sch [u \"https\"; u \"wss\"]) then ret acc","negb (str_in sch [u \"https\"]) then ret acc","wss endpoints are usable")
mut("C59","Fields2","report_group","add_note REPORT_TO_MISSING_KEY [vl \"key\" \"endpoints\"]","ret tt","endpoints are required")
mut("C60","Fields2","ev_csp","[u \"script-src\"; u \"style-src\"; u \"object-src\"]","[u \"script-src\"; u \"object-src\"]","style-src * is too wide")
mut("C60","Fields2","csp_directives","let n := lower n in","let n := n in","directive names ignore case")
mut("C60","Fields2","csp_directives","csp_directives ds' acc (dup ++ [n])","csp_directives ds' (dset n v acc) (dup ++ [n])","the first of repeated directives counts")
mut("C60","Fields2","ev_csp","str_in (u \"http:\") (words (snd nv))","has_sub (u \"http:\") (snd nv)","http: is a word of its own")
mut("C60","Fields2","pc_csp","negb (str_in (snd nv) eps)","str_in (snd nv) eps","an endpoint that is not configured is reported")
mut("C61","Fields1","csd_known","\"executionContexts\"","\"executioncontexts\"","executionContexts is known")
mut("C61","Fields1","ev_clear_site_data","str_in v csd_known && negb (str_in v unq)","str_in v csd_known","unquoted values are not listed as present")
mut("C61","Fields1","p_clear_site_data","let value := if quoted then mid v else v in","let value := v in","quotes are removed")
mut("C62","Fields2","max_clock_skew",":= 5.",":= 4.","five seconds of skew are tolerated")
mut("C62","Fields2","ev_date","(v - q_trunc st + age)%Z","(v - q_trunc st - age)%Z","the age is added to the date")
mut("C62","Fields2","ev_last_modified","if q_gt (inject_Z lm) d then","if q_gt d (inject_Z lm) then","a later date is in the future")
mut("C62","Fields2","ev_sunset","q_gt st (inject_Z v)","q_gt (inject_Z v) st","an earlier date is past")
mut("C63","Checks","verify_content_type","[u \"application/rss+xml\"; u \"application/atom+xml\"]","[u \"application/rss+xml\"]","Atom feeds as HTML are not reported")
mut("C63","Checks","verify_content_type","vs \"declared_type\" declared; vs \"sniffed_type\" sniffed","vs \"declared_type\" sniffed; vs \"sniffed_type\" declared","the note shows the declared and the sniffed type")
mut("C63","Checks","requires_utf8","endswith (u \"+json\")","endswith (u \"json\")","only +json suffixes imply UTF-8")
mut("C63","Checks","verify_charset","negb (Qle_bool (1 # 2) conf)","negb (Qle_bool (1 # 3) conf)","the detector must be half sure")
mut("C63","Checks","verify_charset","else if implicit then","else if negb implicit then","the implicit note is for types without a charset")
mut("C63","Checks","compatible","Some y => str_eqb x y","Some y => true","compatible codecs read the same text")
mut("C63","Message","process_headers","| Ok _ => (m_set_charenc (Some enc) m1, Ok tt)","| Ok enc => (m_set_charenc (Some enc) m1, Ok tt)","character_encoding is the parameter as written")
mut("C64","Fields1","ev_content_length","has_hdr c \"transfer-encoding\"","has_hdr c \"content-encoding\"","the note looks at Transfer-Encoding")
mut("C55","Fields2","ev_referrer_policy","last valid []","hd [] valid","the last known policy is in effect")
mut("C55","Fields1","p_content_disposition","vs \"disposition\" disp","vs \"disposition\" v","the note shows the disposition type")
mut("C51","Fields2","ev_server_timing","negb (dmem (u \"desc\") (snd x))","negb (dmem (u \"dur\") (snd x))","a metric without desc is reported")
mut("C67","Framework","list_syntax","context_lines bad 20 v","context_lines bad 35 v","the excerpt of a bad list member shows 20 characters either side")
mut("C67","Framework","list_syntax","dec_nat (S bad) ++ u \":\"","dec_nat bad ++ u \":\"","positions in BAD_SYNTAX_DETAILED count from 1")
mut("C67","Framework","context_lines","repeat 32 (bad - start)","repeat 32 bad","the caret stands below the bad character")
mut("C67","Framework","handler_ref","match dep_info (h_norm h) with Some (_, _, r) => r","match dep_info (h_norm h) with Some (r, _, _) => r","FIELD_DEPRECATED shows the reference of the field")
mut("C67","Framework","pre_check","| MRequest, false, _ => (h_set_val h VNone, [ENote RESPONSE_HDR_IN_REQUEST cat [] []], false)","| MRequest, _, false => (h_set_val h VNone, [ENote RESPONSE_HDR_IN_REQUEST cat [] []], false)","RESPONSE_HDR_IN_REQUEST is about fields not defined for requests")
mut("C68","Checks","int_sub","NInt (a - z)","NInt (z - a)","the time left is the lifetime minus the age")
mut("C68","Checks","check_storable","if cc_has i \"public\" then auth \"public\"%string\n    else if cc_has i \"must-revalidate\" then auth \"must-revalidate\"%string","if cc_has i \"must-revalidate\" then auth \"must-revalidate\"%string\n    else if cc_has i \"public\" then auth \"public\"%string","STORE_PUBLIC_AUTH names public first")
mut("C68","Checks","check_freshness","let left_str := rel_int (Z.abs (num_int left)) in","let left_str := rel_int (num_int left) in","freshness_left shows how long, without sign")
mut("C68","Checks","check_freshness","vv \"share_lifetime\" (rel_int (f_shared f))","vv \"share_lifetime\" (rel_int (f_priv f))","share_lifetime is the shared lifetime")
mut("C68","Checks","check_freshness","let is_shared := num_pos sleft in","let is_shared := num_pos left in","the shared status is that of the shared lifetime")
mut("C68","Checks","lifetimes","mkFresh (f_priv f1) z true (f_subj f1 ++ [u \"field-cache-control\"])","mkFresh z z true (f_subj f1 ++ [u \"field-cache-control\"])","s-maxage is the lifetime for shared caches only")
mut("C68","Checks","lifetimes","mkFresh z z true (f_subj f0 ++ [u \"field-cache-control\"])","mkFresh z z true (f_subj f0)","the freshness note points at Cache-Control when max-age counts")
mut("C68","Checks","check_age","rmap (fun d => if (0 <? d)%Z then Z.max 0 (q_trunc t - d) else 0%Z)","rmap (fun d => if (0 <? d)%Z then q_trunc t - d else 0%Z)%Z","the apparent age is not negative")
mut("C68","Checks","check_age","if q_gt (num_q corrected) (inject_Z apparent) then corrected else NInt apparent","if q_gt (num_q corrected) (inject_Z apparent) then NInt apparent else corrected","the current age is the larger of the two")
mut("C68","Checks","check_age","NFloat (x + (b - a))%Q","NFloat (x + (a - b))%Q","the delay between request and response is added to Age")
mut("C69","Fields3","cookie_attribute","vv \"duration\" (relative_time (inject_Z z)\n                                           (match now with Some t => t | None => 0 end) 0)","vv \"duration\" (relative_time (inject_Z z)\n                                           0 0)","the duration of Expires counts from the response")
mut("C69","Fields3","cookie_attribute","[cn; vs \"attribute_name\" aname; vs \"attribute_value\" avalue]","[cn; vs \"attribute_name\" n; vs \"attribute_value\" avalue]","the attribute is shown as spelled")
mut("C69","Fields3","cookie_attribute","[cn; vs \"attribute_name\" aname; vs \"attribute_value\" avalue] ;;; ret ([], ltn)","[cn; vs \"attribute_name\" aname; vs \"attribute_value\" v] ;;; ret ([], ltn)","the SameSite value is shown as spelled")
mut("C69","Fields3","loose_parse","f_comma (length value) ++ u \" bytes\"","f_comma (length s) ++ u \" bytes\"","set_cookie_value_length is the length of the value")
mut("C69","Fields3","cookie_loop","[vs \"cookie_name\" cname; vs \"attribute\" n]","[vs \"cookie_name\" cname; vs \"attribute\" (lower n)]","a repeated attribute is shown as spelled")
mut("C69","Fields3","cookie_loop","(lower n :: seen) (snd r)","(lower n :: seen) false","one lifetime note per line")
mut("C69","PyLib","group3","a :: b :: c :: 44 :: group3 f (skipn 3 rd)","a :: b :: c :: 46 :: group3 f (skipn 3 rd)","digits are grouped with commas")
mut("C69","PyLib","group3","a :: b :: c :: (_ :: _) as r =>","a :: b :: c :: _ as r =>","no comma before the first digit")
mut("C66","Framework","sf_result","Some p => context_lines p 35 combined","Some p => context_lines p 20 combined","the excerpt of a structured field error shows 35 characters either side")
mut("C66","Fields2","isoformat","if c =? 32 then 84 else c","if c =? 32 then 32 else c","Deprecation dates are shown with a T")
mut("C66","Fields2","ev_deprecation","if q_gt (inject_Z z) st then","if q_gt st (inject_Z z) then","DEPRECATION_FUTURE is about dates after the response")
mut("C70","Utils","parse_param","split_max 3 39 val","split_max 2 39 val","an extended value has exactly two apostrophes")
mut("C70","Utils","parse_param","let val := if quoted then mid val else val in","let val := if quoted then unquote_string val else val in","escapes in a quoted extended value are kept")
mut("C70","Utils","parse_param","let base := removelast k_norm in","let base := removelast key in","the rule about asterisks ignores case")
mut("C70","Utils","parse_param","else ret (dset k_norm (Some (e_unquote e esc_v)) d)","else ret (dset base (Some (e_unquote e esc_v)) d)","the entry of an extended parameter has the name with asterisk")
mut("C70","Utils","parse_param","add_note PARAM_STAR_NOCHARSET [(k_param, VStr k_norm)] ;;; ret d","add_note PARAM_STAR_NOCHARSET [(k_param, VStr k_norm)] ;;; ret (dset k_norm (Some (e_unquote e esc_v)) d)","a value without charset gives no entry")
mut("C70","Utils","parse_param","let enc := lower enc in","let enc := enc in","the charset ignores case")
mut("C70","Utils","parse_param","add_note PARAM_STAR_BAD [(k_param, VStr base)]","add_note PARAM_STAR_BAD [(k_param, VStr k_norm)]","PARAM_STAR_BAD shows the name without asterisk")
mut("C71","Fields2","p_etag","VStr (unquote_string (skipn 2 v))","VStr (unquote_string v)","a weak entity tag has no W/ in its value")
mut("C71","Fields2","p_keep_alive","ret (VTuple [VStr (lower a); VStr (unquote_string b)])","ret (VTuple [VStr (lower a); VStr b])","Keep-Alive values are unquoted")
mut("C71","Fields1","p_alt_svc","if str_eqb v (u \"clear\") then ret (VStr (u \"clear\"))\n  else if negb (has_chr 61 v)","if str_eqb (lower v) (u \"clear\") then ret (VStr (u \"clear\"))\n  else if negb (has_chr 61 v)","only clear in lower case is a member without an equals sign")
mut("C71","Fields1","p_clear_site_data","let value := if quoted then mid v else v in","let value := if quoted then v else v in","quotes are taken off")
mut("C71","Fields1","p_acac","if str_eqb v (u \"true\") then ret (VStr (u \"true\")) else raise EValue","if str_eqb (lower v) (u \"true\") then ret (VStr (u \"true\")) else raise EValue","only true in lower case counts")
mut("C72","Checks","check_preflight_request","vv \"method\" (opt_str (m_method m))","vv \"method\" (VStr (u \"OPTIONS\"))","the method of the request is shown")
mut("C72","Checks","check_preflight_request","CORS_PREFLIGHT_REQ_NO_METHOD\n          [vl \"field_name\" \"Access-Control-Request-Headers\"]","CORS_PREFLIGHT_REQ_NO_METHOD\n          [vl \"field_name\" \"Access-Control-Request-Method\"]","the note names the field that is there")
mut("C72","Checks","check_preflight_response","Some h => Ok (h_canon h)","Some h => Ok (h_wire h)","names are canonical")
mut("C72","Checks","preflight_only","[\"access-control-allow-headers\"; \"access-control-allow-methods\"; \"access-control-max-age\"]%string","[\"access-control-allow-methods\"; \"access-control-allow-headers\"; \"access-control-max-age\"]%string","the names are in a fixed order")
mut("C72","Checks","check_preflight_response","join (u \", \") bad","join (u \",\") bad","names are separated by comma and space")
mut("C72","Fields2","p_server","f_comma (length v) ++ u \" bytes\"","f_comma 64 ++ u \" bytes\"","the length of the member is shown")
mut("C72","Fields1","cc_checks","vv \"pre_check\" (VInt a); vv \"post_check\" (VInt b)","vv \"pre_check\" (VInt b); vv \"post_check\" (VInt a)","pre-check and post-check are shown under their names")
mut("C73","Fields1","p_content_encoding","(add_note ENCODING_UNWANTED [vs \"coding\" v])\n  | None => ret tt\n  end ;;;\n  ret (VStr (lower v))","(add_note ENCODING_UNWANTED [vs \"coding\" v])\n  | None => ret tt\n  end ;;;\n  ret (VStr v)","codings are in lower case")
mut("C73","Fields3","hsts_loop","ret (mkHsts (hs_max s) true (hs_pre s))","ret (mkHsts (hs_max s) true true)","preload is recorded only if it is there")
mut("C73","Fields3","hsts_loop","hsts_loop ds' (n :: seen) s'","hsts_loop ds' seen s'","the first directive counts")
mut("C73","Fields2","p_location","ret (VStr v).\n\n(** max_forwards.py:29-31 *)","ret VNone.\n\n(** max_forwards.py:29-31 *)","the value is the text")
mut("C73","Framework","json_finish","VList (map json_val l)","VList (map json_val (rev l))","the JSON list is in order")
# definitions without a seeded bug so far
mut("C38", "Utils", "check_media_type", "(existsb (fun n => Nat.ltb restricted_name_max_len (length n)) names)", "(existsb (fun n => Nat.leb restricted_name_max_len (length n)) names)", "MEDIA_TYPE_LONG_NAME only above 127 characters")
mut("C38", "Utils", "check_media_type", "if has_star && (negb allow_wildcard || (str_eqb ty star && negb (str_eqb sub star)))", "if has_star && negb allow_wildcard", "*/html is not a media range")
mut("C49", "Fields3", "cookie_month", "index_of (lower (firstn 3 s)) (firstn 12 monthnames) 1%Z", "index_of (lower s) (firstn 12 monthnames) 1%Z", "a month is read from its first three letters")
mut("C49", "Fields3", "match_time", "if forallb is_digit [a; b; c; d; e; f] then", "if forallb is_digit [a; b; c; d; e] then", "a time is six digits")
mut("C49", "Fields3", "match_day", "match firstn 2 (lead_digits s) with [] => None", "match lead_digits s with [] => None", "a day is at most two digits")
mut("C49", "Fields3", "match_year", "match firstn 4 (lead_digits s) with [] | [_] => None", "match firstn 4 (lead_digits s) with [] => None", "a year has at least two digits")
mut("C28", "PyLib", "parsedate", "if (68 <? y)%Z then y + 1900 else y + 2000", "if (70 <? y)%Z then y + 1900 else y + 2000", "two-digit years 69 and 70 are of the last century")
mut("C28", "PyLib", "timegm", "+ d - 1) * 24 + h) * 60 + mi) * 60 + s", "+ d) * 24 + h) * 60 + mi) * 60 + s", "the first day of a month is day one")
mut("C28", "PyLib", "leap", "(negb (y mod 100 =? 0) || (y mod 400 =? 0))", "(negb (y mod 100 =? 0))", "2000 is a leap year")
mut("C45", "Fields1", "cr_length", "if str_eqb s [42] then add_note CONTENT_RANGE_UNKNOWN_LENGTH [] ;;; ret None\n  else", "", "an asterisk means an unknown length")
mut("C45", "Fields2", "range_pos", "if negb (nonempty s) then ret None\n  else if negb (py_isdigit s)", "if negb (py_isdigit s)", "a position may be left out")
mut("C59", "Fields2", "ev_nel", "l <- lift (as_list (h_val h)) ;; iterW nel_policy l.", "l <- lift (as_list (h_val h)) ;; iterW nel_policy (firstn 1 l).", "every policy is judged")
mut("C51", "Fields2", "ev_via", "(map (fun v => u \"<li><code>\" ++ v ++ u \"</code></li>\") l)", "(map (fun v => u \"<li><code>\" ++ v ++ u \"</code></li>\") (rev l))", "VIA_PRESENT lists the members in order")
mut("C57", "Fields2", "ev_coep", "ev_cop coep_tab CROSS_ORIGIN_EMBEDDER_POLICY_BAD_VALUE \"\" \"\" b.", "ev_cop coop_tab CROSS_ORIGIN_EMBEDDER_POLICY_BAD_VALUE \"\" \"\" b.", "COEP values are those of COEP")
mut("C57", "Fields2", "ev_cop", "| None => bad_note\n              end\n  | _ => bad_note", "| None => bad_note\n              end\n  | _ => ret tt", "a value that is not a token is bad")
mut("C57", "Fields2", "ev_coop_ro", "when (has_handler c \"cross-origin-opener-policy\")", "when (has_handler c \"cross-origin-embedder-policy\")", "the duplicate is of the same policy")
mut("C44", "Fields2", "ev_corp", "else if eq_text (h_val h) (u \"same-site\") then add_note CORP_SAME_SITE [t]\n", "", "same-site is a known value")
mut("C34", "Cli", "note_insert", "if str_leb (cat_text (n_cat x)) (cat_text (n_cat y)) then x :: l", "if negb (str_leb (cat_text (n_cat y)) (cat_text (n_cat x))) then x :: l", "notes of a category stay in order")
mut("C34", "Cli", "input_end", "print_notes e None (sort_notes (m_notes m))", "print_notes e None (m_notes m)", "notes are grouped by category")
mut("C34", "Cli", "print_notes", "| Some c => if category_eqb (n_cat n) c then []", "| Some c => if true then []", "each category has its heading")
mut("C26", "Message", "gzip_loop", "match iter_until gzip_rounds (gzip_step e clen chunk) (hist, total, [], chunk, true) with", "match iter_until gzip_rounds (gzip_step e clen chunk) (hist, 0, [], chunk, true) with", "the bound is on the whole output")
mut("C26", "Message", "stage_feed", "let total := total + N.of_nat (length out) in\n               if max_decompressed <? total\n               then ([],", "let total := N.of_nat (length out) in\n               if max_decompressed <? total\n               then ([],", "the bound on brotli output is on the whole output")
mut("C35", "Message", "iri_to_uri", "(e_quote e (u_query p) (u iri_pchar ++ u \"/?\"))", "(e_quote e (u_query p) (u iri_pchar ++ u \"/\"))", "a question mark in the query is kept")
mut("C35", "Message", "max_uri_chars", "N.to_nat 8000.", "N.to_nat 8001.", "URI_TOO_LONG above 8000 characters")
mut("C37", "Message", "process_response_topline", "| None => note_msg \"status\" STATUS_CODE_NON_NUMERIC [] m\n           end in", "| None => m\n           end in", "STATUS_CODE_NON_NUMERIC is reported")
mut("C20", "Checks", "heuristic_status", "[200; 203; 206; 300; 301; 410]%Z", "[200; 203; 206; 300; 301; 404; 410]%Z", "heuristic freshness only for six status codes")
mut("C20", "Checks", "cacheable_methods", "[\"GET\"; \"HEAD\"]%string.", "[\"GET\"; \"HEAD\"; \"POST\"]%string.", "POST is not cacheable")
mut("C22", "Checks", "fresh_word", "(if b then u \"fresh\" else u \"stale\")", "(if b then u \"stale\" else u \"fresh\")", "fresh and stale are not swapped")
mut("C21", "Checks", "check_basic", "if star then ret false\n  else", "", "Vary: * stops the caching checks")
mut("C54", "Fields3", "hsts_min", "Definition hsts_min : Z := 1536000.", "Definition hsts_min : Z := 15360000.", "HSTS_SHORT below 1536000 seconds")
mut("C54", "Fields3", "invalidating", "HSTS_DUPLICATE_DIRECTIVE | HSTS_BAD_MAX_AGE | HSTS_VALUE_NOT_ALLOWED => true", "HSTS_DUPLICATE_DIRECTIVE | HSTS_BAD_MAX_AGE => true", "a value where none is allowed invalidates the policy")
mut("C60", "Fields2", "split_ws1", "c :: s' => if isspace c then ([], lstrip s)", "c :: s' => if isspace c then ([], s')", "the value of a directive starts after all the spaces")
mut("C63", "Fields2", "p_content_type", "false (NoStarList [u \"charset\"]) ;;\n  ret (media_type_val p).", "false (NoStarList []) ;;\n  ret (media_type_val p).", "charset may not be extended")
mut("C49", "Fields3", "cookie_limit", "Definition cookie_limit : Z := 34560000.", "Definition cookie_limit : Z := 31536000.", "the limit is 400 days")
mut("C28", "Fields2", "cat_of", "Definition cat_of (f : fname) : category := fa_cat (attrs f).", "Definition cat_of (f : fname) : category := GENERAL.", "a date note has the category of its field")
mut("C55", "Framework", "type_text", "if tr then u \"trailer\" else u \"header\"", "if tr then u \"header\" else u \"trailer\"", "field_type says header or trailer")
mut("C66", "Framework", "dup_events", "(u \"context\", VStr (snd kc))", "(u \"context\", VStr (fst kc))", "DUPLICATE_KEY shows its context")
mut("C51", "Fields2", "ev_xcto", "if existsb (fun x => eq_text x (u \"nosniff\")) l", "if forallb (fun x => eq_text x (u \"nosniff\")) l", "one nosniff is enough")
mut("C44", "Fields2", "ev_xfo", "if has_sub (u \"DENY\") s then add_note FRAME_OPTIONS_DENY []\n  else ", "", "DENY is known")
mut("C44", "Fields2", "p_xfo", "ret (VStr (upper v)).", "ret (VStr v).", "X-Frame-Options ignores case")
mut("C31", "Fields2", "ev_vary", "(Nat.ltb 3 (length d))", "(Nat.leb 3 (length d))", "VARY_COMPLEX above three names")
mut("C25", "Message", "stage_feed", "match gzip_header (buf ++ chunk) with", "match gzip_header chunk with", "the header is read from everything fed so far")
mut("C02", "Message", "feed_content", "m_set_clen (m_clen m + N.of_nat (length chunk)) m", "m_set_clen (N.of_nat (length chunk)) m", "the content length counts every chunk")
mut("C74", "Framework", "pre_check", "let cat := Some (handler_cat h) in", "let cat : option category := None in", "a deprecated field's note has its category")
mut("C74", "Framework", "singleton_finish", "if fa_report a then [ENote BAD_SYNTAX None [v_ref h] []] else []", "if fa_report a then [ENote BAD_SYNTAX (Some (handler_cat h)) [v_ref h] []] else []", "the syntax of a field with one value is General")
mut("C74", "Note", "mk_note", "if category_eqb (nid_category cls) GENERAL then c else nid_category cls", "c", "a kind with a category keeps it")
mut("C74", "Framework", "handler_cat", "Some (_, c, _) => c | None => GENERAL end", "Some (_, c, _) => GENERAL | None => GENERAL end", "a deprecated field has its table's category")
mut("C74", "Fields2", "p_date", "z <- parse_http_date v (Some (cat_of f)) ;; ret (VInt z).", "z <- parse_http_date v None ;; ret (VInt z).", "a date's note has its field's category")
mut("C74", "Fields2", "p_link", "add_note LINK_REV [vs \"link\" lv; vs \"rev\" (opt_text r)]", "tell [ENote LINK_REV (Some CACHING) [vs \"link\" lv; vs \"rev\" (opt_text r)] []]", "a general note of a field is General")
mut("C74", "Fields2", "cat_of", "Definition cat_of (f : fname) : category := fa_cat (attrs f).", "Definition cat_of (f : fname) : category := CACHING.", "a date's note has its field's category")
M = [x for x in M if x[3] != "?"]
