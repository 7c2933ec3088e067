(** * field/utils.py and the parts of util.py that fields use. *)
From Verif Require Import PyStr Regex Grammar Note PyLib.
Open Scope N_scope.

Definition k_param := u "param".
Definition k_value := u "value".

(** field/utils.py:129-144 [unquote_string] on a string.  [re.sub(r"\\(.)",
    r"\1", s)]: the dot does not match a newline. *)
Fixpoint unescape (s : str) : str :=
  match s with
  | [] => []
  | c :: s' =>
      if c =? 92 then
        match s' with
        | [] => [c]
        | d :: s'' => if d =? 10 then c :: d :: unescape s'' else d :: unescape s''
        end
      else c :: unescape s'
  end.
Definition unquote_string (instr : str) : str :=
  let s := strip instr in
  if negb (nonempty s) || str_eqb s [42] then s
  else match first_chr s, last_chr s with
       | Some 34, Some 34 => unescape (mid s)
       | _, _ => s
       end.

(** field/utils.py:147-158 [split_string]; [re.VERBOSE] only, so case-sensitive. *)
Definition split_string (instr : str) (item split : re) : list str :=
  match instr with
  | [] => []
  | _ => map strip (findall item (look_split_end split) instr)
  end.

(** field/utils.py:161-174 [split_list_field]. *)
Definition split_list_field (v : str) : list str :=
  filter nonempty (map strip (findall (nocase utils_list_item)
                                      (look_split_end (nocase utils_list_split)) v)).

(** The [nostar] argument of [parse_params]: None, True, or a list of names. *)
Inductive nostar := NoStarNone | NoStarTrue | NoStarList (l : list str).
Definition nostar_hit (n : nostar) (k : str) : bool :=
  match n with
  | NoStarNone => false
  | NoStarTrue => true
  | NoStarList l => nonempty l && str_in k l
  end.
(** The [delim] argument: ";" (default) or ",". *)
Inductive delim := DSemi | DComma.
Definition delim_re (d : delim) : re :=
  match d with DSemi => utils_param_split | DComma => utils_param_split_comma end.

(** field/utils.py:187-226: one parameter.  The dictionary maps a name to its
    value or None. *)
Definition parse_param (e : env) (n : nostar) (d : dict (option str)) (param : str)
  : W (dict (option str)) :=
  match split1 61 param with
  | None => ret (dset (lower param) None d)
  | Some (key, val) =>
      let k_norm := lower key in
      when (dmem k_norm d) (add_note PARAM_REPEATS [(k_param, VStr k_norm)]) ;;;
      match first_chr val, last_chr val, last_chr key with
      | Some v0, Some vn, Some kn =>
          when ((v0 =? 39) && (vn =? 39))
            (add_note PARAM_SINGLE_QUOTED
               [(k_param, VStr k_norm); (u "param_val", VStr val);
                (u "param_val_unquoted", VStr (mid val))]) ;;;
          if kn =? 42 then
            let base := removelast k_norm in
            if nostar_hit n base then
              add_note PARAM_STAR_BAD [(k_param, VStr base)] ;;; ret d
            else
              let quoted := (v0 =? 34) && (vn =? 34) in
              when quoted (add_note PARAM_STAR_QUOTED [(k_param, VStr k_norm)]) ;;;
              let val := if quoted then mid val else val in
              match split_max 3 39 val with
              | [enc; lang; esc_v] =>
                  let enc := lower enc in
                  if str_eqb enc [] then
                    add_note PARAM_STAR_NOCHARSET [(k_param, VStr k_norm)] ;;; ret d
                  else if negb (str_in enc [u "utf-8"]) then
                    add_note PARAM_STAR_CHARSET [(k_param, VStr k_norm); (u "enc", VStr enc)] ;;; ret d
                  else ret (dset k_norm (Some (e_unquote e esc_v)) d)
              | _ => add_note PARAM_STAR_ERROR [(k_param, VStr k_norm)] ;;; ret d
              end
          else ret (dset k_norm (Some (unquote_string val)) d)
      | _, _, _ => raise EIndex
      end
  end.
(** field/utils.py:177-227 [parse_params]. *)
Definition parse_params (e : env) (instr : str) (n : nostar) (dl : delim) : W (dict (option str)) :=
  foldW (parse_param e n) (split_string instr rfc9110_parameter (delim_re dl)) [].

Definition opt_str (o : option str) : pyval := match o with Some s => VStr s | None => VNone end.
Definition param_dict_val (d : dict (option str)) : pyval :=
  VDict (map (fun kv => (fst kv, opt_str (snd kv))) d).

(** field/utils.py:49-105 [check_media_type]. *)
Definition restricted_name_max_len : nat := 127.  (* syntax/rfc6838.py:42 *)
Definition check_media_type (mt : str) (bad : option nid) (ref : option string)
    (allow_wildcard check_token : bool) : W unit :=
  let bad_syntax :=
    match bad with
    | None => ret tt
    | Some n => add_note n ((k_value, VStr mt)
                            :: match ref with Some r => [(u "ref_uri", VStr (u r))] | None => [] end)
    end in
  let '(ty, slash, sub) := partition_chr 47 mt in
  if negb (nonempty slash && nonempty ty && nonempty sub) || has_chr 47 sub then bad_syntax
  else
    let star := [42] in
    let has_star := str_in star [ty; sub] in
    if has_star && (negb allow_wildcard || (str_eqb ty star && negb (str_eqb sub star)))
    then bad_syntax
    else
      let names := if has_star then filter (fun n => negb (str_eqb n star)) [ty; sub] else [ty; sub] in
      let tokens := filter (match_dollar (nocase rfc9110_token)) names in
      if negb (Nat.eqb (length tokens) (length names)) && check_token then bad_syntax
      else
        let names := if negb (Nat.eqb (length tokens) (length names)) then tokens else names in
        when (existsb (fun n => Nat.ltb restricted_name_max_len (length n)) names)
             (add_note MEDIA_TYPE_LONG_NAME [(k_value, VStr mt)]) ;;;
        when (existsb (fun n => negb (match_dollar (nocase utils_restricted_name_unbounded) n)) names)
             (add_note MEDIA_TYPE_BAD_NAME [(k_value, VStr mt)]).

(** field/utils.py:24-46 [parse_media_type]. *)
Definition parse_media_type (e : env) (v : str) (bad : option nid) (ref : option string)
    (allow_wildcard : bool) (n : nostar) : W (str * dict (option str)) :=
  let '(mt, ps) := match split1 59 v with Some (a, b) => (a, b) | None => (v, []) end in
  let mt := lower (strip mt) in
  check_media_type mt bad ref allow_wildcard false ;;;
  d <- parse_params e ps n DSemi ;;
  ret (mt, d).
Definition media_type_val (p : str * dict (option str)) : pyval :=
  VTuple [VStr (fst p); param_dict_val (snd p)].

(** field/utils.py:108-126 [parse_http_date].  [date_tuple[0] < 100] cannot hold
    after [parsedate] but is modelled. *)
Definition parse_http_date (v : str) (cat : option category) : W Z :=
  if negb (match_dollar (nocase rfc9110_HTTP_date) v) then
    tell [ENote BAD_DATE_SYNTAX cat [] []] ;;; raise EValue
  else
    when (match_dollar (nocase rfc9110_obs_date) v) (tell [ENote DATE_OBSOLETE cat [] []]) ;;;
    match parsedate v with
    | None => raise EValue
    | Some (y, mo, d, h, mi, s) =>
        let y := if (y <? 100)%Z then (if (68 <? y)%Z then y + 1900 else y + 2000)%Z else y in
        lift (timegm y mo d h mi s)
    end.

(** ** Structured Field helpers *)

(** Python types tested with [isinstance]; a bool is an int. *)
Inductive ptype := TBool | TInt | TStr | TToken.
Definition isinst (t : ptype) (v : pyval) : bool :=
  match t, v with
  | TBool, VBool _ | TInt, VInt _ | TInt, VBool _ | TStr, VStr _ | TStr, VMd _
  | TToken, VToken _ => true
  | _, _ => false
  end.
(** [v == Token("...")]/[v == "..."]: http_sf's Token and DisplayString are
    UserStrings, which equal strings with the same text. *)
Definition str_of (v : pyval) : option str :=
  match v with VStr s | VToken s | VDisplay s | VMd s => Some s | _ => None end.
Definition eq_text (v : pyval) (s : str) : bool :=
  match str_of v with Some t => str_eqb t s | None => false end.

(** What a known parameter demands: field/parsers/cache_status.py:50-92,
    proxy_status.py KNOWN_PARAMS.  [kp_desc] is a template with at most one %s:
    [(prefix, Some suffix)], or [(text, None)] without a %s. *)
Record known_param := mkKnown {
  kp_types : list ptype;                       (* empty: no "type" *)
  kp_values : list str;                        (* empty: no "values" *)
  kp_vdesc : option (list (str * string));     (* "value_desc" *)
  kp_desc : option (string * option string)
}.
(** [desc % v]: with a [%s] the value is formatted; without one, any value is
    one too many, TypeError. *)
Definition fmt_desc (e : env) (d : string * option string) (v : pyval) : res str :=
  match d with
  | (p, Some s) => rmap (fun x => u p ++ x ++ u s) (py_str e v)
  | (p, None) => Err EType
  end.
(** The unformatted template text. *)
Definition desc_text (d : string * option string) : str :=
  match d with (p, Some s) => u p ++ u "%s" ++ u s | (p, None) => u p end.

Definition code_line (name val : str) : str := u "* `" ++ name ++ u "`: `" ++ val ++ u "`".

(** field/utils.py:241-281: the body of the loop, for one parameter. *)
Definition check_sf_param (e : env) (known : list (str * known_param)) (unk bad : nid)
    (kv : str * pyval) : W str :=
  let '(name, v) := kv in
  let line := rmap (code_line name) (py_str e v) in
  match dget name known with
  | None => add_note unk [(k_param, VStr name)] ;;; lift line
  | Some kp =>
      if nonempty (kp_types kp) && negb (existsb (fun t => isinst t v) (kp_types kp)) then
        add_note bad [(k_param, VStr name); (k_value, v)] ;;; lift line
      else if nonempty (kp_values kp) && negb (existsb (eq_text v) (kp_values kp)) then
        add_note bad [(k_param, VStr name); (k_value, v)] ;;; lift line
      else match kp_vdesc kp with
           | Some vd =>
               match str_of v with
               | Some t => match dget t vd with
                           | Some d => ret (u "* " ++ u d)
                           | None => lift line
                           end
               | None => lift line
               end
           | None =>
               match kp_desc kp with
               | Some d =>
                   match v with
                   | VBool true => ret (u "* " ++ desc_text d)
                   | _ => lift (rmap (fun x => u "* " ++ x) (fmt_desc e d v))
                   end
               | None =>
                   match v with
                   | VBool true => ret (u "* `" ++ name ++ u "`")
                   | _ => lift line
                   end
               end
           end
  end.
(** field/utils.py:230-283 [check_sf_params]. *)
Definition check_sf_params (e : env) (params : list (str * pyval)) (known : list (str * known_param))
    (unk bad : nid) : W str :=
  l <- mapW (check_sf_param e known unk bad) params ;;
  ret (join [10] l).

(** util.py:61-70 [markdown_list]. *)
Definition md_item (markup i : str) : str := u "- " ++ markup ++ i ++ markup.
Definition markdown_list (l : list str) (markup : str) : pyval :=
  VMd (join [10] (map (fun i => md_item markup (remove_chr 96 i)) l)).
Definition bt : str := [96].

(** util.py:99-107 [relative_time]. *)
Definition relative_time (utime now : Q) (sign : Z) : pyval := VRel utime now sign.

(** [type(v).__name__]. *)
Definition type_name (v : pyval) : str :=
  u match v with
    | VNone => "NoneType" | VBool _ => "bool" | VInt _ => "int" | VFloat _ => "float"
    | VDec _ => "Decimal" | VStr _ => "str" | VBytes _ => "bytes" | VToken _ => "Token"
    | VDisplay _ => "DisplayString" | VDate _ => "datetime" | VTuple _ => "tuple"
    | VList _ => "list" | VDict _ => "dict" | VMd _ => "MarkdownSafe"
    | VRel _ _ _ => "RelativeTime" | VOrigin _ _ _ => "OriginValue"
    end%string.

(** ** Reading parsed values (Python attribute errors made explicit) *)
Definition as_dict (v : pyval) : res (list (str * pyval)) :=
  match v with VDict d => Ok d | _ => Err EAttr end.
Definition as_list (v : pyval) : res (list pyval) :=
  match v with VList l | VTuple l => Ok l | _ => Err EType end.
(** [v[i]]. *)
Definition index (v : pyval) (i : nat) : res pyval :=
  match v with
  | VList l | VTuple l => match nth_error l i with Some x => Ok x | None => Err EIndex end
  | VStr s => match nth_error s i with Some c => Ok (VStr [c]) | None => Err EIndex end
  | VDict _ => Err EKey
  | _ => Err EType
  end.

(** [s in v]. *)
Definition py_in (s : str) (v : pyval) : res bool :=
  match v with
  | VList l | VTuple l => Ok (existsb (fun x => eq_text x s) l)
  | VDict d => Ok (dmem s d)
  | VStr t => Ok (has_sub s t)
  | _ => Err EType
  end.
Fixpoint mapR {A B} (f : A -> res B) (l : list A) : res (list B) :=
  match l with
  | [] => Ok []
  | a :: l' => rbind (f a) (fun b => rmap (cons b) (mapR f l'))
  end.
(** [[x[0] for x in v]]. *)
Definition heads (v : pyval) : res (list pyval) := rbind (as_list v) (mapR (fun x => index x 0)).
(** The strings of a list of strings. *)
Definition as_str (v : pyval) : res str :=
  match v with VStr s => Ok s | _ => Err EAttr end.
Definition strs (v : pyval) : res (list str) := rbind (as_list v) (mapR as_str).
(** A (key, value) pair. *)
Definition as_pair (v : pyval) : res (pyval * pyval) :=
  match v with VTuple [a; b] => Ok (a, b) | _ => Err EType end.

(** Note variables. *)
Definition vs (k : string) (s : str) : str * pyval := (u k, VStr s).
Definition vl (k s : string) : str * pyval := (u k, VStr (u s)).
Definition vv (k : string) (v : pyval) : str * pyval := (u k, v).
