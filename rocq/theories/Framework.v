(** * The field framework (httplint/field/*.py): finding handlers, reading
    field lines, finishing a section.

    [sev] is one event of field code together with the subject and the
    keyword arguments of the [functools.partial] it goes through. *)
From Verif Require Import PyStr Regex Grammar Note PyLib Utils FieldAttrs Types Fields1 Fields2 Fields3.
Open Scope N_scope.

(** ** Dispatch: which methods each field class overrides *)

(** [parse] of the class (identity where it is not overridden:
    list_field.py:18-23, singleton_field.py:20-25, broken_field.py:21-24). *)
Definition parse_of (f : fname) : cx -> handler -> str -> W pyval :=
  match f with
  | F_accept => p_accept
  | F_accept_encoding | F_te => p_q_params
  | F_accept_language => p_accept_language
  | F_accept_patch => p_accept_patch
  | F_accept_post => p_accept_post
  | F_accept_ranges => p_accept_ranges
  | F_access_control_allow_headers | F_access_control_request_headers | F_content_language
  | F_pragma | F_referrer_policy | F_vary => p_lower
  | F_access_control_allow_credentials => p_acac
  | F_access_control_max_age => p_acma
  | F_age => p_age
  | F_alt_svc => p_alt_svc
  | F_cache_control => p_cache_control
  | F_clear_site_data => p_clear_site_data
  | F_content_disposition => p_content_disposition
  | F_content_encoding => p_content_encoding
  | F_content_length => p_content_length
  | F_content_range => p_content_range
  | F_content_security_policy => p_csp ""
  | F_content_security_policy_report_only => p_csp ro_text
  | F_content_type => p_content_type
  | F_cookie => p_cookie
  | F_date => p_date F_date
  | F_expires => p_date F_expires
  | F_last_modified => p_date F_last_modified
  | F_sunset => p_date F_sunset
  | F_etag => p_etag
  | F_keep_alive => p_keep_alive
  | F_link => p_link
  | F_location => p_location
  | F_origin => p_origin
  | F_range => p_range
  | F_server => p_server
  | F_server_timing => p_server_timing
  | F_set_cookie => p_set_cookie
  | F_strict_transport_security => p_hsts
  | F_tcn => p_tcn
  | F_transfer_encoding => p_transfer_encoding
  | F_x_frame_options => p_xfo
  | F__unnecessary => p_unnecessary
  | F__deprecated => p_none
  | _ => p_id
  end.

(** [evaluate] of the classes that are not Structured Fields; the result is the
    new [self.value]. *)
Definition keep (h : handler) (m : W unit) : W pyval := m ;;; ret (h_val h).
Definition eval_of (f : fname) (c : cx) (h : handler) : W pyval :=
  match f with
  | F_access_control_allow_origin => keep h (ev_acao c h)
  | F_alt_svc => keep h (ev_alt_svc c h)
  | F_cache_control => keep h (ev_cache_control c h)
  | F_clear_site_data => keep h (ev_clear_site_data c h)
  | F_content_language => keep h (ev_content_language c h)
  | F_content_length => keep h (ev_content_length c h)
  | F_content_security_policy => keep h (ev_csp "" "" c h)
  | F_content_security_policy_report_only => keep h (ev_csp csp_ro ro_text c h)
  | F_cross_origin_resource_policy => keep h (ev_corp c h)
  | F_date => keep h (ev_date c h)
  | F_expect => keep h (ev_expect c h)
  | F_last_modified => keep h (ev_last_modified c h)
  | F_link => keep h (ev_link c h)
  | F_max_forwards => keep h (ev_max_forwards c h)
  | F_nel => keep h (ev_nel c h)
  | F_pragma => keep h (ev_pragma c h)
  | F_referer => keep h (ev_referer c h)
  | F_referrer_policy => keep h (ev_referrer_policy c h)
  | F_report_to => keep h (ev_report_to c h)
  | F_server_timing => keep h (ev_server_timing c h)
  | F_set_cookie => keep h (ev_set_cookie c h)
  | F_strict_transport_security => keep h (ev_hsts c h)
  | F_sunset => keep h (ev_sunset c h)
  | F_transfer_encoding => keep h (ev_transfer_encoding c h)
  | F_vary => ev_vary c h
  | F_via => keep h (ev_via c h)
  | F_x_content_type_options => keep h (ev_xcto c h)
  | F_x_frame_options => keep h (ev_xfo c h)
  | _ => ret (h_val h)
  end.
(** [evaluate] of the Structured Field classes, by top-level type. *)
Definition eval_item (f : fname) (c : cx) (h : handler) (b : bare) (p : sfparams) : W pyval :=
  match f with
  | F_available_dictionary => keep h (ev_available_dictionary c h b p)
  | F_cross_origin_embedder_policy => keep h (ev_coep c h b p)
  | F_cross_origin_opener_policy => keep h (ev_coop c h b p)
  | F_cross_origin_embedder_policy_report_only => keep h (ev_coep_ro c h b p)
  | F_cross_origin_opener_policy_report_only => keep h (ev_coop_ro c h b p)
  | F_deprecation => keep h (ev_deprecation c h b p)
  | _ => ret (h_val h)
  end.
Definition eval_list (f : fname) (c : cx) (h : handler) (l : list member) : W pyval :=
  match f with
  | F_accept_ch => keep h (ev_accept_ch c h l)
  | F_accept_query => ev_accept_query c h l
  | F_cache_group_invalidation => keep h (ev_cache_group_invalidation c h l)
  | F_cache_groups => keep h (ev_cache_groups c h l)
  | F_cache_status => keep h (ev_cache_status c h l)
  | F_proxy_status => keep h (ev_proxy_status c h l)
  | F_speculation_rules => keep h (ev_speculation_rules c h l)
  | _ => ret (h_val h)
  end.
Definition eval_dict (f : fname) (c : cx) (h : handler) (d : dict member) : W pyval :=
  match f with
  | F_cdn_cache_control => keep h (ev_cdn_cache_control c h d)
  | F_permissions_policy => keep h (ev_permissions_policy c h d)
  | F_reporting_endpoints => keep h (ev_reporting_endpoints c h d)
  | F_use_as_dictionary => keep h (ev_use_as_dictionary c h d)
  | _ => ret (h_val h)
  end.
(** [post_check] *)
Definition post_of (f : fname) (c : cx) (h : handler) : W unit :=
  match f with
  | F_accept_ch => pc_accept_ch c h
  | F_available_dictionary => pc_available_dictionary c h
  | F_content_encoding => pc_content_encoding c h
  | F_content_security_policy => pc_csp "" c h
  | F_content_security_policy_report_only => pc_csp ro_text c h
  | F_cross_origin_embedder_policy => pc_cop COEP_REPORT_TO_MISSING "" c h
  | F_cross_origin_embedder_policy_report_only => pc_cop COEP_REPORT_TO_MISSING cop_ro c h
  | F_cross_origin_opener_policy => pc_cop COOP_REPORT_TO_MISSING "" c h
  | F_cross_origin_opener_policy_report_only => pc_cop COOP_REPORT_TO_MISSING cop_ro c h
  | F_nel => pc_nel c h
  | _ => ret tt
  end.

(** ** Finding a handler *)

Definition slookup {A} (k : str) (l : list (string * A)) : option A :=
  dget k (map (fun kv => (u (fst kv), snd kv)) l).
(** finder.py:83-88 *)
Definition name_token (name : str) : str := lower (replace_chr 45 95 name).
(** finder.py:54-56, 75-76 *)
Definition alias (t : str) : str :=
  match slookup t field_aliases with Some s => u s | None => t end.
(** finder.py:67-81, and 58-60: the module and the class have the same name *)
Definition find_module (name : str) : option fname :=
  let t := name_token name in
  if startswith (u "_") t then None
  else find (fun f => str_eqb (u (fa_module (attrs f))) (alias t)) module_fields.
(** finder.py:49-65; [F__unknown] is UnknownHttpField (finder.py:41) *)
Definition find_class (name : str) : fname :=
  match find_module name with
  | Some f => f
  | None =>
      if dmem (lower name) (map (fun kv => (u (fst kv), snd kv)) deprecated_fields) then F__deprecated
      else if str_in (lower name) (map u unnecessary_fields) then F__unnecessary
      else F__unknown
  end.

(** deprecated.py:205-212: canonical name, category and reference of a
    DeprecatedField. *)
Definition dep_info (h_norm : str) : option (string * category * string) := slookup h_norm deprecated_fields.
Definition handler_cat (h : handler) : category :=
  match h_cls h with
  | F__deprecated => match dep_info (h_norm h) with Some (_, c, _) => c | None => GENERAL end
  | f => fa_cat (attrs f)
  end.
Definition handler_ref (h : handler) : string :=
  match h_cls h with
  | F__deprecated => match dep_info (h_norm h) with Some (_, _, r) => r | None => "" end
  | f => fa_ref (attrs f)
  end.
(** field/__init__.py:100-106, deprecated.py:205-210, unnecessary.py:33-36,
    singleton_field.py:16-18, broken_field.py:17-19, structured_field.py:23-25;
    [self.value = []] *)
Definition new_handler (name : str) : handler :=
  let f := find_class name in
  let wire := strip name in
  let norm := lower wire in
  let canon := match f with
               | F__deprecated => match dep_info norm with Some (c, _, _) => u c | None => wire end
               | _ => match fa_canon (attrs f) with Some c => u c | None => wire end
               end in
  mkHandler f wire norm canon (VList []) [] false [].

(** finder.py:33-47 [find_handler] *)
Definition find_handler (s : section) (name : str) : section * handler :=
  match dget (lower name) (s_handlers s) with
  | Some h => (s, h)
  | None =>
      let h := new_handler name in
      (s_set_handlers s (dset (lower name) h (s_handlers s)), h)
  end.

(** ** Notes from events *)

Definition sev := (str * vars * ev)%type.
Definition offset_subj (n : nat) : str := u "offset-" ++ dec_nat n.
Definition field_subj (h : handler) : str := u "field-" ++ lower (h_canon h).
Definition k_field_name : str := u "field_name".
Definition k_field_type : str := u "field_type".
(** section.py:63-66, list_field.py:29-33, broken_field.py:37-41 *)
Definition line_base (h : handler) : vars := [(k_field_name, VStr (h_canon h))].
(** section.py:91-96, message.py:158-163 *)
Definition type_text (tr : bool) : str := if tr then u "trailer" else u "header".
Definition sec_base (tr : bool) (h : handler) : vars :=
  [(k_field_name, VStr (h_canon h)); (k_field_type, VStr (type_text tr))].
Definition tag (subj : str) (base : vars) (l : list ev) : list sev := map (fun e => (subj, base, e)) l.

Fixpoint attach (t : mtype) (parent cls : nid) (vrs : vars) (l : list note) : option (list note) :=
  match l with
  | [] => None
  | n :: l' =>
      if nid_eqb (n_cls n) parent
      then Some (mkNote (n_cls n) (n_subj n) (n_cat n) (n_vars n)
                        (n_kids n ++ [(cls, dupdate (n_vars n) vrs)]) :: l')
      else match attach t parent cls vrs l' with Some r => Some (n :: r) | None => None end
  end.
(** note.py:73-86 [Notes.add] for one event; see [ev] in Note.v. *)
Definition emit_one (t : mtype) (ns : list note) (s : sev) : list note :=
  let '(subj, base, e) := s in
  match e with
  | ENote cls cat vrs kids => ns ++ [mk_note t subj cls cat (dupdate base vrs) kids]
  | EMsg subj' cls vrs => ns ++ [mk_note t subj' cls None vrs []]
  | EKid parent cls vrs =>
      match attach t parent cls vrs ns with
      | Some ns' => ns'
      | None => ns ++ [mk_note t subj cls None (dupdate base vrs) []]
      end
  | EDefer _ _ _ | EMark _ => ns
  end.
Definition emit (t : mtype) (ns : list note) (l : list sev) : list note := fold_left (emit_one t) l ns.
(** What a handler instance remembers. *)
Definition aux_of (l : list sev) : list (str * ev) :=
  flat_map (fun s : sev => match s with
                           | (subj, _, EDefer a b c) => [(subj, EDefer a b c)]
                           | (subj, _, EMark v) => [(subj, EMark v)]
                           | _ => []
                           end) l.

(** ** One field line *)

(** field/__init__.py:126-151 and deprecated.py:217-234 [pre_check]: the
    handler, its notes, and whether processing goes on *)
Definition pre_check (t : mtype) (h : handler) : handler * list ev * bool :=
  let a := attrs (h_cls h) in
  let cat := Some (handler_cat h) in
  match t, fa_req a, fa_resp a with
  | MRequest, false, _ => (h_set_val h VNone, [ENote RESPONSE_HDR_IN_REQUEST cat [] []], false)
  | MResponse, _, false | MMessage, _, false =>
      (h_set_val h VNone, [ENote REQUEST_HDR_IN_RESPONSE cat [] []], false)
  | _, _, _ =>
      if negb (match_dollar (nocase rfc9110_token) (h_wire h)) then (h, [ENote FIELD_NAME_BAD_SYNTAX None [] []], false)
      else if fa_dep a
           then (h, [ENote FIELD_DEPRECATED cat [(u "deprecation_ref", VStr (u (handler_ref h)))] []], true)
           else (h, [], true)
  end.

(** [s[a:b]] *)
Definition slice (a b : nat) (s : str) : str := firstn (b - a) (skipn a s).
Definition context_lines (bad width : nat) (s : str) : str :=
  let start := (bad - width)%nat in
  u "

    " ++ slice start (Nat.min (length s) (bad + width)) s ++ u "
    " ++ repeat 32 (bad - start) ++ u "^".
Definition v_ref (h : handler) : str * pyval := (u "ref_uri", VStr (u (handler_ref h))).
(** list_field.py:35-63: the syntax check of one list member *)
Definition list_syntax (h : handler) (v : str) : W unit :=
  let a := attrs (h_cls h) in
  match fa_syntax a with
  | None => ret tt
  | Some r =>
      if match_ws_dollar r v then ret tt
      else match match_prefix (Seq (Star ws) r) v with
           | Some bad =>
               match nth_error v bad with
               | None => raise EIndex
               | Some ch =>
                   tell [ENote BAD_SYNTAX_DETAILED (Some (handler_cat h))
                           [v_ref h; (u "value", VStr v);
                            (u "problem", VStr (u "The invalid character '" ++ [ch] ++ u "' was found at position "
                                                ++ dec_nat (S bad) ++ u ":" ++ context_lines bad 20 v))] []]
               end
           | None => when (fa_report a) (tell [ENote BAD_SYNTAX (Some (handler_cat h)) [v_ref h] []])
           end
  end.
(** list_field.py:35-68: one list member; [None] if parse raised ValueError *)
Definition list_member (c : cx) (h : handler) (v : str) : W (option pyval) :=
  list_syntax h v ;;;
  catch_value (x <- parse_of (h_cls h) c h (strip v) ;; ret (Some x)) (ret None).
Definition append_val (h : handler) (v : pyval) : handler :=
  match h_val h with
  | VList l => h_set_val h (VList (l ++ [v]))
  | _ => h
  end.
(** list_field.py:25-68 *)
Fixpoint list_input (c : cx) (subj : str) (h : handler) (l : list str) : list sev * handler * res unit :=
  match l with
  | [] => ([], h, Ok tt)
  | v :: l' =>
      let '(evs, r) := list_member c h v in
      let evs := tag subj (line_base h) evs in
      let h1 := h_add_aux h (aux_of evs) in
      match r with
      | Err e => (evs, h1, Err e)
      | Ok o =>
          let h2 := match o with Some x => append_val h1 x | None => h1 end in
          let '(evs', h', r') := list_input c subj h2 l' in
          (evs ++ evs', h', r')
      end
  end.
(** [handle_input]: list_field.py:25, singleton_field.py:27-28,
    broken_field.py:26-27, structured_field.py:27-29, json_field.py:18-19,
    finder.py:103-104 *)
Definition handle_input (c : cx) (h : handler) (v : str) (offset : nat) : list sev * handler * res unit :=
  match kind_of (h_cls h) with
  | KList => list_input c (offset_subj offset) h (split_list_field v)
  | KSingleton | KBroken => ([], h_add_raw h (v, offset), Ok tt)
  | KSF _ => ([], h_set_sf (append_val h (VStr v)) false, Ok tt)
  | KJson => ([], append_val h (VStr v), Ok tt)
  | KUnknown => ([], h, Ok tt)
  end.

(** ** Finishing a field *)

(** Run an evaluate and store its value. *)
Definition finish_eval (subj : str) (base : vars) (h : handler) (m : W pyval)
  : list sev * handler * res unit :=
  let '(l, r) := m in
  let l := tag subj base l in
  let h' := h_add_aux h (aux_of l) in
  match r with
  | Ok v => (l, h_set_val h' v, Ok tt)
  | Err e => (l, h', Err e)
  end.
Definition prefix_events (l : list sev) (r : list sev * handler * res unit) : list sev * handler * res unit :=
  let '(l', h, x) := r in (l ++ l', h, x).
(** field/__init__.py:153-159 *)
Definition base_finish (c : cx) (subj : str) (base : vars) (h : handler) : list sev * handler * res unit :=
  match h_val h with
  | VNone => ([], h, Ok tt)
  | _ => finish_eval subj base h (eval_of (h_cls h) c h)
  end.
(** singleton_field.py:30-48 *)
Definition singleton_finish (c : cx) (subj : str) (base : vars) (h : handler) : list sev * handler * res unit :=
  match h_raw h with
  | [] => ([], h_set_val h VNone, Ok tt)
  | (raw, _) :: more =>
      let a := attrs (h_cls h) in
      let l1 := match more with [] => [] | _ => [ENote SINGLE_HEADER_REPEAT None [] []] end in
      let l2 := match fa_syntax a with
                | Some r => if match_ws_dollar r raw then []
                            else if fa_report a then [ENote BAD_SYNTAX None [v_ref h] []] else []
                | None => []
                end in
      let '(l3, r) := parse_of (h_cls h) c h (strip raw) in
      let evs := tag subj base (l1 ++ l2 ++ l3) in
      let h1 := h_add_aux h (aux_of evs) in
      match r with
      | Ok v => prefix_events evs (base_finish c subj base (h_set_val h1 v))
      | Err e => if is_ValueError e then (evs, h_set_val h1 VNone, Ok tt) else (evs, h1, Err e)
      end
  end.
(** broken_field.py:30-49 *)
Fixpoint broken_values (c : cx) (h : handler) (l : list (str * nat)) (acc : list pyval)
  : list sev * handler * res (list pyval) :=
  match l with
  | [] => ([], h, Ok acc)
  | (raw, off) :: l' =>
      let l1 := match fa_syntax (attrs (h_cls h)) with
                | Some r => if match_ws_dollar r raw then [] else [ENote BAD_SYNTAX None [v_ref h] []]
                | None => []
                end in
      let '(l2, r) := parse_of (h_cls h) c h (strip raw) in
      let evs := tag (offset_subj off) (line_base h) (l1 ++ l2) in
      let h1 := h_add_aux h (aux_of evs) in
      match r with
      | Err e => if is_ValueError e
                 then let '(evs', h', r') := broken_values c h1 l' acc in (evs ++ evs', h', r')
                 else (evs, h1, Err e)
      | Ok v => let '(evs', h', r') := broken_values c h1 l' (acc ++ [v]) in (evs ++ evs', h', r')
      end
  end.
Definition broken_finish (c : cx) (subj : str) (base : vars) (h : handler) : list sev * handler * res unit :=
  let '(evs, h1, r) := broken_values c h (h_raw h) [] in
  match r with
  | Err e => (evs, h1, Err e)
  | Ok l => prefix_events evs (base_finish c subj base (h_set_val h1 (VList l)))
  end.
(** The raw values a Structured Field or JSON handler has collected. *)
Definition raw_texts (v : pyval) : option (list str) :=
  match v with
  | VList (x :: l) =>
      (fix go (l : list pyval) : option (list str) :=
         match l with
         | [] => Some []
         | VStr s :: l' => match go l' with Some r => Some (s :: r) | None => None end
         | _ => None
         end) (x :: l)
  | _ => None
  end.
Definition dup_events (d : list (str * str)) : list ev :=
  map (fun kc => ENote DUPLICATE_KEY None [(u "key", VStr (fst kc)); (u "context", VStr (snd kc))] []) d.
(** structured_field.py:49-81 *)
Definition sf_error (h : handler) (problem context : str) : ev :=
  ENote STRUCTURED_FIELD_PARSE_ERROR (Some (handler_cat h))
    [(u "problem", VStr problem); (u "context", VStr context)] [].
Definition sf_result {A} (subj : str) (base : vars) (h : handler) (combined : str) (r : sfres A)
    (value : A -> pyval) (ev : handler -> A -> W pyval) : list sev * handler * res unit :=
  let h := h_set_sf h true in
  match r with
  | SFOk v d =>
      prefix_events (tag subj base (dup_events d))
                    (let h' := h_set_val h (value v) in finish_eval subj base h' (ev h' v))
  | SFErr d problem pos =>
      let context := match pos with Some p => context_lines p 35 combined | None => [] end in
      (tag subj base (dup_events d ++ [sf_error h problem context]), h_set_val h VNone, Ok tt)
  | SFOther d problem => (tag subj base (dup_events d ++ [sf_error h problem []]), h_set_val h VNone, Ok tt)
  end.
(** structured_field.py:31-84.  A Python dict is built key by key. *)
Definition sf_finish (t : sftype) (c : cx) (subj : str) (base : vars) (h : handler)
  : list sev * handler * res unit :=
  if negb (truthy (h_val h)) then ([], h, Ok tt)
  else if h_sf h then ([], h, Ok tt)
  else match raw_texts (h_val h) with
       | None => ([], h, Err EType)
       | Some raws =>
           let combined := strip (join (u ", ") raws) in
           match t with
           | SFItem => sf_result subj base h combined (e_sf_item (cx_env c) combined)
                         (fun bp => item_val (fst bp) (snd bp))
                         (fun h' bp => eval_item (h_cls h) c h' (fst bp) (snd bp))
           | SFList => sf_result subj base h combined (e_sf_list (cx_env c) combined)
                         sf_list_val (fun h' l => eval_list (h_cls h) c h' l)
           | SFDict => sf_result subj base h combined (e_sf_dict (cx_env c) combined)
                         (fun l => sf_dict_val (dupdate [] l))
                         (fun h' l => eval_dict (h_cls h) c h' (dupdate [] l))
           end
       end.
(** json_field.py:21-33 *)
Definition json_finish (c : cx) (subj : str) (base : vars) (h : handler) : list sev * handler * res unit :=
  if negb (truthy (h_val h)) then ([], h, Ok tt)
  else match raw_texts (h_val h) with
       | None => ([], h, Err EType)
       | Some raws =>
           match e_json (cx_env c) (u "[" ++ join (u ", ") raws ++ u "]") with
           | JOk l => base_finish c subj base (h_set_val h (VList (map json_val l)))
           | JErr msg =>
               (tag subj base [ENote BAD_JSON (Some (handler_cat h)) [(u "error", VStr msg)] []],
                h_set_val h VNone, Ok tt)
           | JRaise e => ([], h, Err e)
           end
       end.
Definition finish_handler (c : cx) (subj : str) (base : vars) (h : handler) : list sev * handler * res unit :=
  match kind_of (h_cls h) with
  | KSingleton => singleton_finish c subj base h
  | KBroken => broken_finish c subj base h
  | KSF t => sf_finish t c subj base h
  | KJson => json_finish c subj base h
  | KList | KUnknown => base_finish c subj base h
  end.

(** ** A field section *)

Definition sec (tr : bool) (m : mstate) : section := if tr then m_trailers m else m_headers m.
Definition m_set_sec (tr : bool) (s : section) (m : mstate) : mstate :=
  mkMsg (m_type m) (m_start m) (m_no_content m) (m_version m) (m_base m)
        (if tr then m_headers m else s) (if tr then s else m_trailers m)
        (m_clen m) (m_hashed m) (m_hash m) (m_charenc m) (m_sample m) (m_complete m)
        (m_pipeline m) (m_dec_len m) (m_dec_hashed m) (m_dec_hash m)
        (m_method m) (m_iri m) (m_uri m) (m_status_str m) (m_status m) (m_phrase m) (m_head m)
        (m_caching m) (m_notes m).
Definition m_set_notes (ns : list note) (m : mstate) : mstate :=
  mkMsg (m_type m) (m_start m) (m_no_content m) (m_version m) (m_base m)
        (m_headers m) (m_trailers m)
        (m_clen m) (m_hashed m) (m_hash m) (m_charenc m) (m_sample m) (m_complete m)
        (m_pipeline m) (m_dec_len m) (m_dec_hashed m) (m_dec_hash m)
        (m_method m) (m_iri m) (m_uri m) (m_status_str m) (m_status m) (m_phrase m) (m_head m)
        (m_caching m) ns.
Definition m_emit (l : list sev) (m : mstate) : mstate := m_set_notes (emit (m_type m) (m_notes m) l) m.

Definition s_line (s : section) (size : N) (nv : str * str) : section :=
  mkSection (s_trailer s) (s_text s ++ [nv]) (s_parsed s) (s_size s + size) (s_handlers s).
Definition put_handler (k : str) (h : handler) (s : section) : section :=
  s_set_handlers s (dset k h (s_handlers s)).
Definition max_field_size : N := 8192.   (* section.py:23 *)
Definition max_total_size : N := 32768.  (* section.py:24 *)

(** section.py:49-55: the decoded name and its note *)
Definition read_name (name : bytes) : str * list ev :=
  match decode_ascii_strict name with
  | Some s => (s, [])
  | None => let s := decode_ascii_ignore name in
            (s, [ENote FIELD_NAME_ENCODING None [(k_field_name, VStr s)] []])
  end.
(** section.py:56-60 *)
Definition read_value (field_name : str) (value : bytes) : str * list ev :=
  match decode_ascii_strict value with
  | Some s => (s, [])
  | None => (decode_latin1 value, [ENote FIELD_VALUE_ENCODING None [(k_field_name, VStr field_name)] []])
  end.
(** section.py:43-78: one field line; the message, the next offset *)
Definition field_line (e : env) (rel : option mstate) (tr : bool) (m : mstate) (offset : nat)
    (raw : bytes * bytes) : mstate * nat * res unit :=
  let '(name, value) := raw in
  let subj := offset_subj offset in
  let size := N.of_nat (length name + length value) in
  let '(sname, l1) := read_name name in
  let '(svalue, l2) := read_value sname value in
  let s1 := s_line (sec tr m) size (sname, svalue) in
  let '(s2, h) := find_handler s1 sname in
  let key := lower sname in
  let '(h1, l3, go) := pre_check (m_type m) h in
  let m1 := m_set_sec tr (put_handler key h1 s2)
              (m_emit (tag subj [] (l1 ++ l2) ++ tag subj (line_base h) l3) m) in
  if negb go then (m1, offset, Ok tt)
  else
    let '(l4, h2, r) := handle_input (mkCx e m1 rel) h1 svalue offset in
    let m2 := m_emit l4 (m_set_sec tr (put_handler key h2 (sec tr m1)) m1) in
    match r with
    | Err x => (m2, offset, Err x)
    | Ok _ =>
        let l5 := if max_field_size <? size
                  then [ENote FIELD_TOO_LARGE None
                          [(k_field_name, VStr (h_canon h)); (u "field_size", VStr (f_num (Z.of_N size)))] []]
                  else [] in
        (m_emit (tag subj [] l5) m2, S offset, Ok tt)
    end.
Fixpoint field_lines (e : env) (rel : option mstate) (tr : bool) (m : mstate) (offset : nat)
    (l : list (bytes * bytes)) : mstate * res unit :=
  match l with
  | [] => (m, Ok tt)
  | raw :: l' =>
      let '(m', o', r) := field_line e rel tr m offset raw in
      match r with
      | Err x => (m', Err x)
      | Ok _ => field_lines e rel tr m' o' l'
      end
  end.
(** section.py:88-98: finish one handler and record its value *)
Definition finish_one (e : env) (rel : option mstate) (tr : bool) (m : mstate) (kh : str * handler)
  : mstate * res unit :=
  let '(k, h) := kh in
  let '(l, h', r) := finish_handler (mkCx e m rel) (field_subj h) (sec_base tr h) h in
  let m1 := m_emit l (m_set_sec tr (put_handler k h' (sec tr m)) m) in
  match r with
  | Err x => (m1, Err x)
  | Ok _ =>
      let s := sec tr m1 in
      (m_set_sec tr (s_set_parsed s (dset (h_norm h') (h_val h') (s_parsed s))) m1, Ok tt)
  end.
Fixpoint finish_all (e : env) (rel : option mstate) (tr : bool) (m : mstate) (l : list (str * handler))
  : mstate * res unit :=
  match l with
  | [] => (m, Ok tt)
  | kh :: l' =>
      match finish_one e rel tr m kh with
      | (m', Ok _) => finish_all e rel tr m' l'
      | r => r
      end
  end.
(** section.py:80-86 *)
Definition section_size (tr : bool) (m : mstate) : mstate :=
  let size := s_size (sec tr m) in
  if max_total_size <? size
  then m_emit [(u "field-block", [],
                ENote FIELD_SECTION_TOO_LARGE None
                  [(k_field_type, VStr (type_text tr)); (u "section_size", VStr (f_num (Z.of_N size)))] [])] m
  else m.
(** section.py:35-98 [FieldSection.process], for one call per section: the
    handlers are finished from the state they have after the last line. *)
Definition process (e : env) (rel : option mstate) (tr : bool) (m : mstate) (l : list (bytes * bytes))
  : mstate * res unit :=
  match field_lines e rel tr m 0 l with
  | (m1, Err x) => (m1, Err x)
  | (m1, Ok _) =>
      let m2 := section_size tr m1 in
      finish_all e rel tr m2 (s_handlers (sec tr m2))
  end.
