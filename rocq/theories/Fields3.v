(** * set_cookie.py and strict_transport_security.py (httplint/field/parsers). *)
From Verif Require Import PyStr Regex Grammar Note PyLib Utils FieldAttrs Types Fields1 Fields2.
Open Scope N_scope.

(** ** set_cookie.py *)

(** [deferred_add_note], set_cookie.py:40-43 *)
Definition defer (n : nid) (vrs : vars) : W unit := tell [EDefer n None vrs].

(** set_cookie.py:305: the characters that separate date tokens *)
Definition is_delim (c : N) : bool :=
  (c =? 9) || ((32 <=? c) && (c <=? 47)) || ((59 <=? c) && (c <=? 64)) || ((91 <=? c) && (c <=? 96))
  || ((123 <=? c) && (c <=? 126)).
(** [re.split(DELIMITER, s)]: one piece more than there are delimiters *)
Fixpoint split_delims (s : str) : list str :=
  match s with
  | [] => [[]]
  | c :: s' =>
      if is_delim c then [] :: split_delims s'
      else match split_delims s' with
           | p :: ps => (c :: p) :: ps
           | [] => [[c]]
           end
  end.
(** The digits a string starts with ([\d] on Latin-1 text is 0-9). *)
Fixpoint lead_digits (s : str) : str :=
  match s with c :: s' => if is_digit c then c :: lead_digits s' else [] | [] => [] end.
Definition num (s : str) : Z := Z.of_N (digits_val s).
(** [^(\d{2}:\d{2}:\d{2})(?:\D)?] *)
Definition match_time (s : str) : option (Z * Z * Z) :=
  match s with
  | a :: b :: 58 :: c :: d :: 58 :: e :: f :: _ =>
      if forallb is_digit [a; b; c; d; e; f] then Some (num [a; b], num [c; d], num [e; f]) else None
  | _ => None
  end.
(** [^(\d\d?)(?:\D)?] *)
Definition match_day (s : str) : option Z :=
  match firstn 2 (lead_digits s) with [] => None | d => Some (num d) end.
(** [^(\d{2,4})(?:\D)?] *)
Definition match_year (s : str) : option Z :=
  match firstn 4 (lead_digits s) with [] | [_] => None | d => Some (num d) end.
(** set_cookie.py:307-320 *)
Definition cookie_month (s : str) : option Z :=
  index_of (lower (firstn 3 s)) (firstn 12 monthnames) 1%Z.
Record dparts := mkD { d_time : option (Z * Z * Z); d_day : option Z; d_mon : option Z; d_year : option Z }.
(** set_cookie.py:335-360, one token *)
Definition date_token (p : dparts) (t : str) : dparts :=
  match d_time p, match_time t with
  | None, Some x => mkD (Some x) (d_day p) (d_mon p) (d_year p)
  | _, _ =>
      match d_day p, match_day t with
      | None, Some x => mkD (d_time p) (Some x) (d_mon p) (d_year p)
      | _, _ =>
          match d_mon p, cookie_month t with
          | None, Some x => mkD (d_time p) (d_day p) (Some x) (d_year p)
          | _, _ =>
              match d_year p, match_year t with
              | None, Some x => mkD (d_time p) (d_day p) (d_mon p) (Some x)
              | _, _ => p
              end
          end
      end
  end.
(** set_cookie.py:323-396; an error is a ValueError with its text *)
Definition loose_date_parse (s : str) : Z + str :=
  let p := fold_left date_token (split_delims s) (mkD None None None None) in
  let miss {A} (o : option A) (n : string) := match o with None => [u n] | Some _ => [] end in
  match d_time p, d_day p, d_mon p, d_year p with
  | Some (h, mi, sec), Some d, Some mo, Some y =>
      let y := if ((70 <=? y) && (y <=? 99))%Z%bool then (y + 1900)%Z else y in
      let y := if ((0 <=? y) && (y <=? 69))%Z%bool then (y + 2000)%Z else y in
      let bad z n := inr (dec_Z z ++ u " is out of range for " ++ u n) in
      if negb ((1 <=? d) && (d <=? 31))%Z%bool then bad d "day_of_month"%string
      else if (y <? 1601)%Z then bad y "year"%string
      else if (23 <? h)%Z then bad h "hour"%string
      else if (59 <? mi)%Z then bad mi "minute"%string
      else if (59 <? sec)%Z then bad sec "second"%string
      else match timegm y mo d h mi sec with
           | Ok z => inl z
           | Err _ => inr (u "year is out of range")
           end
  | _, _, _, _ =>
      inr (u "didn't have a: "
           ++ join (u ",") (miss (d_time p) "time"%string ++ miss (d_day p) "day"%string
                            ++ miss (d_mon p) "month"%string ++ miss (d_year p) "year"%string))
  end.

(** A cookie attribute. *)
Inductive aval := AStr (s : str) | AInt (z : Z).
Definition attr := (str * aval)%type.
Definition has_attr (k v : string) (l : list attr) : bool :=
  existsb (fun a => str_eqb (fst a) (u k)
                    && match snd a with AStr s => str_eqb s (u v) | AInt _ => false end) l.
(** [s[: s.rindex("/")]] *)
Definition up_to_last (c : N) (s : str) : str := join [c] (removelast (split_all c s)).
Definition cookie_limit : Z := 34560000.  (* 400 days *)

(** set_cookie.py:169-279; returns the attribute to append and the new
    lifetime_note_added *)
Definition cookie_attribute (path : str) (now : option Q) (cname : str) (ltn : bool)
    (aname avalue : str) : W (list attr * bool) :=
  let n := lower aname in
  let cn := vs "cookie_name" cname in
  let is k := str_eqb n (u k) in
  if is "expires"%string then
    match loose_date_parse avalue with
    | inr why => defer SET_COOKIE_BAD_DATE [vs "why" why; cn] ;;; ret ([], ltn)
    | inl z =>
        let long := match q_truthy now with
                    | Some t => q_gt (inject_Z z) (t + inject_Z cookie_limit)%Q && negb ltn
                    | None => false
                    end in
        when long (defer SET_COOKIE_LIFETIME_TOO_LONG
                     [cn; vv "duration" (relative_time (inject_Z z)
                                           (match now with Some t => t | None => 0 end) 0)]) ;;;
        ret ([(u "Expires", AInt z)], ltn || long)
    end
  else if is "max-age"%string then
    match avalue with
    | [] => defer SET_COOKIE_EMPTY_MAX_AGE [cn] ;;; ret ([], ltn)
    | a0 :: _ =>
        when ((a0 =? 48) && Nat.ltb 1 (length avalue)) (defer SET_COOKIE_LEADING_ZERO_MAX_AGE [cn]) ;;;
        if negb (py_isdigit avalue) then defer SET_COOKIE_NON_DIGIT_MAX_AGE [cn] ;;; ret ([], ltn)
        else
          z <- lift (int_of avalue) ;;
          let long := (cookie_limit <? z)%Z && negb ltn in
          when long (defer SET_COOKIE_LIFETIME_TOO_LONG
                       [cn; vv "duration" (relative_time (inject_Z z) 0 0)]) ;;;
          ret ([(u "Max-Age", AInt z)], ltn || long)
    end
  else if is "domain"%string then
    match avalue with
    | [] => defer SET_COOKIE_EMPTY_DOMAIN [cn] ;;; ret ([], ltn)
    | a0 :: rest => ret ([(u "Domain", AStr (if a0 =? 46 then rest else avalue))], ltn)
    end
  else if is "path"%string then
    let p := match avalue with
             | 47 :: _ => avalue
             | _ => if Nat.ltb (length (filter (N.eqb 47) path)) 2 then u "/" else up_to_last 47 path
             end in
    ret ([(u "Path", AStr p)], ltn)
  else if is "secure"%string then ret ([(u "Secure", AStr [])], ltn)
  else if is "httponly"%string then ret ([(u "HttpOnly", AStr [])], ltn)
  else if is "samesite"%string then
    let v := lower avalue in
    if str_eqb v (u "strict") then ret ([(u "SameSite", AStr (u "Strict"))], ltn)
    else if str_eqb v (u "none") then ret ([(u "SameSite", AStr (u "None"))], ltn)
    else if str_in v [u "lax"; []] then ret ([(u "SameSite", AStr (u "Lax"))], ltn)
    else defer SET_COOKIE_UNKNOWN_ATTRIBUTE_VALUE
           [cn; vs "attribute_name" aname; vs "attribute_value" avalue] ;;; ret ([], ltn)
  else if is "partitioned"%string then ret ([(u "Partitioned", AStr [])], ltn)
  else if is "priority"%string then defer SET_COOKIE_PRIORITY [cn] ;;; ret ([], ltn)
  else if is "version"%string then defer SET_COOKIE_VERSION [cn] ;;; ret ([], ltn)
  else defer SET_COOKIE_UNKNOWN_ATTRIBUTE [cn; vs "attribute" aname] ;;; ret ([], ltn).

(** The pieces the loop of set_cookie.py:119-123 visits. *)
Definition cookie_avs (s : str) : list str :=
  match s with
  | [] => []
  | _ => let l := split_all 59 s in
         match last l [] with [] => removelast l | _ => l end
  end.
(** set_cookie.py:119-151 *)
Fixpoint cookie_loop (path : str) (now : option Q) (cname : str) (avs : list str)
    (seen : list str) (ltn : bool) : W (list attr) :=
  match avs with
  | [] => ret []
  | av :: avs' =>
      let '(n, v) := split_or 61 av in
      let n := strip n in let v := strip v in
      when (str_in (lower n) seen)
           (defer SET_COOKIE_ATTRIBUTE_DUP [vs "cookie_name" cname; vs "attribute" n]) ;;;
      r <- cookie_attribute path now cname ltn n v ;;
      rest <- cookie_loop path now cname avs' (lower n :: seen) (snd r) ;;
      ret (fst r ++ rest)
  end.
(** set_cookie.py:282-302 *)
Definition check_prefixes (cname : str) (l : list attr) : W unit :=
  let n := lower cname in
  let cn := vs "cookie_name" cname in
  when (startswith (u "__secure-") n && negb (has_attr "Secure" "" l))
       (defer SET_COOKIE_PREFIX_SECURE_MISSING [cn]) ;;;
  if startswith (u "__host-") n then
    when (negb (has_attr "Secure" "" l)) (defer SET_COOKIE_PREFIX_SECURE_MISSING [cn]) ;;;
    when (negb (has_attr "Path" "/" l)) (defer SET_COOKIE_PREFIX_HOST_BAD_PATH [cn]) ;;;
    iterW (fun a : attr => when (str_eqb (fst a) (u "Domain"))
                                (defer SET_COOKIE_PREFIX_HOST_BAD_DOMAIN [cn])) l
  else ret tt.
(** set_cookie.py:79-166 *)
Definition loose_parse (s : str) (path : str) (now : option Q) : W (str * str * list attr) :=
  let '(nv, attrs) := split_or 59 s in
  let '(name, value) := match split1 61 nv with Some p => p | None => ([], nv) end in
  let name := strip name in let value := strip value in
  let cn := vs "cookie_name" name in
  if negb (nonempty name) && negb (nonempty value) then
    defer SET_COOKIE_NO_NAME [] ;;; raise EValue
  else
    when (Nat.ltb (N.to_nat 4096) (length name + length value)) (defer SET_COOKIE_TOO_LARGE [cn]) ;;;
    when (Nat.ltb 128 (length value))
         (defer SET_COOKIE_VALUE_TOO_LARGE
            [cn; vs "set_cookie_value_length" (f_comma (length value) ++ u " bytes")]) ;;;
    l <- cookie_loop path now name (cookie_avs attrs) [] false ;;
    when (has_attr "SameSite" "None" l && negb (has_attr "Secure" "" l))
         (defer SET_COOKIE_NOT_SECURE [cn]) ;;;
    when (has_attr "Partitioned" "" l && negb (has_attr "Secure" "" l))
         (defer SET_COOKIE_PARTITIONED_NO_SECURE [cn]) ;;;
    check_prefixes name l ;;;
    ret (name, value, l).
Definition aval_val (a : aval) : pyval := match a with AStr s => VStr s | AInt z => VInt z end.
Definition cookie_val (k : str * str * list attr) : pyval :=
  let '(n, v, l) := k in
  VTuple [VStr n; VStr v; VList (map (fun a => VTuple [VStr (fst a); aval_val (snd a)]) l)].
(** set_cookie.py:39-46 *)
Definition p_set_cookie (c : cx) (h : handler) (v : str) : W pyval :=
  p <- lift (e_urlsplit (cx_env c) (m_base (cx_msg c))) ;;
  k <- loose_parse v (u_path p) (m_start (cx_msg c)) ;;
  ret (cookie_val k).

(** Reading cookies back. *)
Definition as_attr (v : pyval) : res attr :=
  match v with
  | VTuple [VStr k; VStr s] => Ok (k, AStr s)
  | VTuple [VStr k; VInt z] => Ok (k, AInt z)
  | _ => Err EType
  end.
Definition as_cookie (v : pyval) : res (str * list attr) :=
  match v with
  | VTuple [VStr n; _; VList l] => rmap (fun a => (n, a)) (mapR as_attr l)
  | _ => Err EType
  end.
(** set_cookie.py:72-76 *)
Definition is_hardened (l : list attr) : bool :=
  has_attr "Secure" "" l && has_attr "HttpOnly" "" l
  && (has_attr "SameSite" "Strict" l || has_attr "SameSite" "Lax" l).
(** set_cookie.py:48-69; a deferred note goes out through the [add_note] that
    was in force when its line was parsed (broken_field.py:36-42) *)
Definition ev_set_cookie (c : cx) (h : handler) : W unit :=
  l <- lift (rbind (as_list (h_val h)) (mapR as_cookie)) ;;
  let names := map fst l in
  when (nonempty (dups names))
       (add_note SET_COOKIE_NAME_DUP [vs "cookie_names" (join (u ", ") (py_sorted (dups names)))]) ;;;
  let hard := map fst (filter (fun k : str * list attr => is_hardened (snd k)) l) in
  when (nonempty hard)
       (add_note SET_COOKIE_HARDENED
          [vv "cookie_names" (VMd (join (u ", ") (map (fun n => bt ++ remove_chr 96 n ++ bt) hard)))]) ;;;
  tell (flat_map (fun se : str * ev =>
                    match snd se with
                    | EDefer n _ vrs => [EMsg (fst se) n (vs "field_name" (h_canon h) :: vrs)]
                    | _ => []
                    end) (h_aux h)).

(** ** strict_transport_security.py *)
Record hsts := mkHsts { hs_max : option Z; hs_sub : bool; hs_pre : bool }.
Definition hsts_val (s : hsts) : pyval :=
  VDict [(u "max-age", opt_int (hs_max s)); (u "includesubdomains", VBool (hs_sub s));
         (u "preload", VBool (hs_pre s))].
(** strict_transport_security.py:45-75 *)
Fixpoint hsts_loop (ds : list str) (seen : list str) (s : hsts) : W hsts :=
  match ds with
  | [] => ret s
  | d :: ds' =>
      let '(n, value) := match split1 61 d with
                         | Some (a, b) => (a, Some (strip b))
                         | None => (d, None)
                         end in
      let n := lower (strip n) in
      if str_in n seen then
        defer HSTS_DUPLICATE_DIRECTIVE [vs "directive" n] ;;; hsts_loop ds' seen s
      else
        s' <- (if str_eqb n (u "max-age") then
                 match (match value with Some v => py_int v | None => None end) with
                 | Some z => ret (mkHsts (Some z) (hs_sub s) (hs_pre s))
                 | None => defer HSTS_BAD_MAX_AGE [vs "max_age" (opt_text value)] ;;; ret s
                 end
               else if str_eqb n (u "includesubdomains") then
                 match value with
                 | Some _ => defer HSTS_VALUE_NOT_ALLOWED [vl "directive" "includeSubDomains"]
                 | None => ret tt
                 end ;;; ret (mkHsts (hs_max s) true (hs_pre s))
               else if str_eqb n (u "preload") then
                 match value with
                 | Some _ => defer HSTS_VALUE_NOT_ALLOWED [vl "directive" "preload"]
                 | None => ret tt
                 end ;;; ret (mkHsts (hs_max s) (hs_sub s) true)
               else ret s) ;;
        hsts_loop ds' (n :: seen) s'
  end.
(** strict_transport_security.py:33-77 *)
Definition p_hsts (c : cx) (h : handler) (v : str) : W pyval :=
  let ds := map strip (split_all 59 v) in
  ds <- (match last ds [] with
         | [] => defer HSTS_TRAILING_SEMICOLON [] ;;; ret (removelast ds)
         | _ => ret ds
         end) ;;
  s <- hsts_loop ds [] (mkHsts None false false) ;;
  ret (hsts_val s).
Definition as_hsts (v : pyval) : res hsts :=
  match v with
  | VDict [(_, m); (_, VBool s); (_, VBool p)] =>
      match m with
      | VInt z => Ok (mkHsts (Some z) s p)
      | VNone => Ok (mkHsts None s p)
      | _ => Err EType
      end
  | _ => Err EType
  end.
Definition hsts_min : Z := 1536000.
Definition invalidating (n : nid) : bool :=
  match n with HSTS_DUPLICATE_DIRECTIVE | HSTS_BAD_MAX_AGE | HSTS_VALUE_NOT_ALLOWED => true | _ => false end.
(** strict_transport_security.py:79-151 *)
Definition ev_hsts (c : cx) (h : handler) : W unit :=
  if negb (truthy (h_val h)) then ret tt
  else
    s <- lift (as_hsts (h_val h)) ;;
    let defs := deferred h in
    let long := match hs_max s with Some z => (hsts_min <=? z)%Z | None => false end in
    let k1 := if hs_pre s then if hs_sub s && long then HSTS_PRELOAD else HSTS_PRELOAD_NOT_SUITABLE
              else HSTS_NO_PRELOAD in
    let bad_ma := existsb (fun d : nid * vars => match fst d with HSTS_BAD_MAX_AGE => true | _ => false end) defs in
    let k2 := match hs_max s with
              | None => if bad_ma then [] else [HSTS_NO_MAX_AGE]
              | Some z => if (z =? 0)%Z then [HSTS_MAX_AGE_ZERO]
                          else if (z <? hsts_min)%Z then [HSTS_SHORT_MAX_AGE] else []
              end in
    let k3 := if hs_sub s then HSTS_SUBDOMAINS else HSTS_NO_SUBDOMAINS in
    let over := startswith (u "http:") (m_base (cx_msg c)) && is_response c
                && negb (status_in c [301]%Z) in
    let k4 := if over then [HSTS_OVER_HTTP] else [] in
    let valid := negb (match hs_max s with None => true | Some _ => false end) && negb over
                 && negb (existsb (fun d : nid * vars => invalidating (fst d)) defs)
                 && negb (existsb (fun n => invalidating (n_cls n)) (m_notes (cx_msg c))) in
    tell [ENote (if valid then HSTS_VALID else HSTS_INVALID) None []
            (defs ++ map (fun n => (n, [])) ([k1] ++ k2 ++ [k3] ++ k4))].
