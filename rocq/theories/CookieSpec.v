(** * Specification of Set-Cookie (C49). *)
From Coq Require Import Sorted.
From Verif Require Import PyStr Regex Grammar Note PyLib Utils FieldAttrs Types Fields1 Fields2 Fields3 Framework NumLemmas FieldSpec FieldDue OwnLemmas.
From Verif Require DateLemmas.
Open Scope N_scope.

(** What is before and after the first [c]. *)
Fixpoint before (c : N) (s : str) : str := match s with [] => [] | x :: s' => if x =? c then [] else x :: before c s' end.
Fixpoint after (c : N) (s : str) : str := match s with [] => [] | x :: s' => if x =? c then s' else after c s' end.
(** An attribute: its name and its value. *)
Definition piece := (str * str)%type.
Definition read_piece (s : str) : piece := (strip (before 61 s), strip (after 61 s)).
(** The attributes are separated by semicolons; a last one that is empty does not count. *)
Definition attribute_texts (s : str) : list str := let l := split_all 59 s in match last l [] with [] => removelast l | _ => l end.
Record line_of_cookie := mkLine { l_name : str; l_value : str; l_pieces : list piece }.
Definition read_cookie (v : str) : line_of_cookie :=
  let nv := before 59 v in
  let '(n, w) := if has_chr 61 nv then (before 61 nv, after 61 nv) else ([], nv) in
  mkLine (strip n) (strip w) (map read_piece (attribute_texts (after 59 v))).
Definition nameless (l : line_of_cookie) : bool := negb (nonempty (l_name l)) && negb (nonempty (l_value l)).
(** Attribute names are in any letter case. *)
Definition attr_is (k : string) (p : piece) : bool := str_eqb (lower (fst p)) (u k).
Definition known_attributes : list string := ["expires"; "max-age"; "domain"; "path"; "secure"; "httponly"; "samesite"; "partitioned"; "priority"; "version"]%string.
(** A Max-Age of digits that are no number (superscripts, over 4300 digits): the line is given up there. *)
Definition all_digits (s : str) : bool := nonempty s && py_isdigit s.
Definition chokes (p : piece) : bool := attr_is "max-age" p && all_digits (snd p) && match py_int (snd p) with None => true | Some _ => false end.
Fixpoint live (ps : list piece) : list piece := match ps with [] => [] | p :: r => p :: if chokes p then [] else live r end.
Definition whole (l : line_of_cookie) : bool := negb (nameless l) && negb (existsb chokes (l_pieces l)).
(** More than 400 days. *)
Definition days_400 : Z := 34560000.
Definition too_long (now : option Q) (p : piece) : bool :=
  (attr_is "expires" p && match loose_date_parse (snd p), q_truthy now with inl z, Some t => q_gt (inject_Z z) (t + inject_Z days_400)%Q | _, _ => false end)
  || (attr_is "max-age" p && all_digits (snd p) && match py_int (snd p) with Some z => (days_400 <? z)%Z | None => false end).
(** The attributes whose name has been there before. *)
Fixpoint again (seen : list str) (ps : list piece) : list piece :=
  match ps with [] => [] | p :: r => (if existsb (str_eqb (lower (fst p))) seen then [p] else []) ++ again (lower (fst p) :: seen) r end.
(** Where a cookie is sent: the path given, or that of the response. *)
Definition cookie_path (path v : str) : str :=
  match v with
  | 47 :: _ => v
  | _ => if Nat.ltb (List.length (filter (N.eqb 47) path)) 2 then u "/" else join [47] (removelast (split_all 47 path))
  end.
Definition some_attr (k : string) (ok : str -> bool) (ps : list piece) : bool := existsb (fun p => attr_is k p && ok (snd p)) ps.
Definition any_value (_ : str) : bool := true.
Definition same_site (l : list string) (v : str) : bool := one_of l (lower v).
Definition secure (ps : list piece) : bool := some_attr "secure" any_value ps.
Definition is_prefix (p : string) (n : str) : bool := startswith (u p) (lower n).

(** The notes of one class about one line: for each, the variable called attribute. *)
Definition cookie_classes : list nid :=
  [SET_COOKIE_NO_NAME; SET_COOKIE_TOO_LARGE; SET_COOKIE_VALUE_TOO_LARGE; SET_COOKIE_ATTRIBUTE_DUP; SET_COOKIE_BAD_DATE; SET_COOKIE_EMPTY_MAX_AGE;
   SET_COOKIE_LEADING_ZERO_MAX_AGE; SET_COOKIE_NON_DIGIT_MAX_AGE; SET_COOKIE_LIFETIME_TOO_LONG; SET_COOKIE_EMPTY_DOMAIN; SET_COOKIE_UNKNOWN_ATTRIBUTE_VALUE;
   SET_COOKIE_PRIORITY; SET_COOKIE_VERSION; SET_COOKIE_UNKNOWN_ATTRIBUTE; SET_COOKIE_NOT_SECURE; SET_COOKIE_PARTITIONED_NO_SECURE; SET_COOKIE_PREFIX_SECURE_MISSING;
   SET_COOKIE_PREFIX_HOST_BAD_PATH; SET_COOKIE_PREFIX_HOST_BAD_DOMAIN].
Definition times (b : bool) : list (option str) := if b then [None] else [].
Definition each (b : piece -> bool) (ps : list piece) : list (option str) := flat_map (fun p => times (b p)) ps.
Definition cookie_due (path : str) (now : option Q) (l : line_of_cookie) (c : nid) : list (option str) :=
  let ps := live (l_pieces l) in
  if nameless l then times (nid_eqb c SET_COOKIE_NO_NAME)
  else match c with
  | SET_COOKIE_TOO_LARGE => times (4096 <? N.of_nat (List.length (l_name l) + List.length (l_value l)))
  | SET_COOKIE_VALUE_TOO_LARGE => times (128 <? N.of_nat (List.length (l_value l)))
  (* what single attributes ask for *)
  | SET_COOKIE_ATTRIBUTE_DUP => map (fun p => Some (fst p)) (again [] ps)
  | SET_COOKIE_BAD_DATE => each (fun p => attr_is "expires" p && match loose_date_parse (snd p) with inr _ => true | inl _ => false end) ps
  | SET_COOKIE_EMPTY_MAX_AGE => each (fun p => attr_is "max-age" p && negb (nonempty (snd p))) ps
  | SET_COOKIE_LEADING_ZERO_MAX_AGE => each (fun p => attr_is "max-age" p && match snd p with 48 :: _ :: _ => true | _ => false end) ps
  | SET_COOKIE_NON_DIGIT_MAX_AGE => each (fun p => attr_is "max-age" p && nonempty (snd p) && negb (all_digits (snd p))) ps
  | SET_COOKIE_EMPTY_DOMAIN => each (fun p => attr_is "domain" p && negb (nonempty (snd p))) ps
  | SET_COOKIE_UNKNOWN_ATTRIBUTE_VALUE => each (fun p => attr_is "samesite" p && negb (same_site ["strict"; "lax"; "none"; ""]%string (snd p))) ps
  | SET_COOKIE_PRIORITY => each (attr_is "priority") ps
  | SET_COOKIE_VERSION => each (attr_is "version") ps
  | SET_COOKIE_UNKNOWN_ATTRIBUTE => flat_map (fun p => if one_of known_attributes (lower (fst p)) then [] else [Some (fst p)]) ps
  (* once for a cookie *)
  | SET_COOKIE_LIFETIME_TOO_LONG => times (existsb (too_long now) ps)
  (* what the attributes together ask for *)
  | SET_COOKIE_NOT_SECURE => times (whole l && some_attr "samesite" (same_site ["none"]%string) ps && negb (secure ps))
  | SET_COOKIE_PARTITIONED_NO_SECURE => times (whole l && some_attr "partitioned" any_value ps && negb (secure ps))
  | SET_COOKIE_PREFIX_SECURE_MISSING => times (whole l && (is_prefix "__secure-" (l_name l) || is_prefix "__host-" (l_name l)) && negb (secure ps))
  | SET_COOKIE_PREFIX_HOST_BAD_PATH => times (whole l && is_prefix "__host-" (l_name l) && negb (some_attr "path" (fun v => str_eqb (cookie_path path v) (u "/")) ps))
  | SET_COOKIE_PREFIX_HOST_BAD_DOMAIN => each (fun p => whole l && is_prefix "__host-" (l_name l) && attr_is "domain" p && nonempty (snd p)) ps
  | _ => []
  end.
(** The path of the base URI; a base URI that cannot be split gives all cookies up. *)
Definition base_path (e : env) (base : str) : option str := match e_urlsplit e base with Ok p => Some (u_path p) | Err _ => None end.
Definition cookie_notes (e : env) (t : mtype) (now : option Q) (base : str) (c : nid) (l : list rawline) : list (nid * str * list (option pyval)) :=
  match base_path e base with
  | None => []
  | Some path => flat_map (fun rn => let k := read_cookie (strip (value_of (fst rn))) in
      map (fun a => (c, at_offset (snd rn), [if nameless k then None else Some (VStr (l_name k)); option_map VStr a])) (cookie_due path now k c)) (field_lines_of t (u "set-cookie") l)
  end.

(** ** The cookies *)
(** A domain without the dot in front. *)
Definition undotted (d : str) : str := match d with 46 :: d' => d' | _ => d end.
Definition attr_value (path : str) (p : piece) : option (str * aval) :=
  if attr_is "expires" p then match loose_date_parse (snd p) with inl z => Some (u "Expires", AInt z) | inr _ => None end
  else if attr_is "max-age" p then if all_digits (snd p) then option_map (fun z => (u "Max-Age", AInt z)) (py_int (snd p)) else None
  else if attr_is "domain" p then if nonempty (snd p) then Some (u "Domain", AStr (undotted (snd p))) else None
  else if attr_is "path" p then Some (u "Path", AStr (cookie_path path (snd p)))
  else if attr_is "secure" p then Some (u "Secure", AStr [])
  else if attr_is "httponly" p then Some (u "HttpOnly", AStr [])
  else if attr_is "partitioned" p then Some (u "Partitioned", AStr [])
  else if attr_is "samesite" p then
    if same_site ["strict"]%string (snd p) then Some (u "SameSite", AStr (u "Strict"))
    else if same_site ["none"]%string (snd p) then Some (u "SameSite", AStr (u "None"))
    else if same_site ["lax"; ""]%string (snd p) then Some (u "SameSite", AStr (u "Lax")) else None
  else None.
Definition attrs_of (path : str) (l : line_of_cookie) : list (str * aval) := flat_map (fun p => match attr_value path p with Some a => [a] | None => [] end) (l_pieces l).
(** The lines of a section that give cookies. *)
Definition cookies (e : env) (base : str) (vs : list str) : list line_of_cookie :=
  match base_path e base with None => [] | Some _ => filter whole (map (fun v => read_cookie (strip v)) vs) end.
Definition cookie_value (path : str) (l : line_of_cookie) : pyval :=
  VTuple [VStr (l_name l); VStr (l_value l); VList (map (fun a => VTuple [VStr (fst a); match snd a with AStr s => VStr s | AInt z => VInt z end]) (attrs_of path l))].
(** The value of the field: one item for each cookie. *)
Definition cookie_values (e : env) (base : str) (vs : list str) : list pyval := match base_path e base with None => [] | Some path => map (cookie_value path) (cookies e base vs) end.
Definition hardened (l : line_of_cookie) : bool :=
  secure (l_pieces l) && some_attr "httponly" any_value (l_pieces l) && some_attr "samesite" (same_site ["strict"; "lax"; ""]%string) (l_pieces l).
(** Names that are used more than once, in alphabetical order. *)
Definition used_twice (ns ds : list str) : Prop := Sorted (fun a b => str_leb a b = true) ds /\ NoDup ds /\ forall x, In x ds <-> (2 <= count_occ (list_eq_dec N.eq_dec) ns x)%nat.
(** Notes about all the cookies of a section. *)
Definition quoted (n : str) : str := [96] ++ filter (fun c => negb (c =? 96)) n ++ [96].
Definition name_notes (ds : list str) (cs : list line_of_cookie) : list (nid * str * list (option pyval)) :=
  let hs := map l_name (filter hardened cs) in
  (if nonempty ds then [(SET_COOKIE_NAME_DUP, about_field (u "set-cookie"), [Some (VStr (join (u ", ") ds))])] else [])
  ++ if nonempty hs then [(SET_COOKIE_HARDENED, about_field (u "set-cookie"), [Some (VMd (join (u ", ") (map quoted hs)))])] else [].
(** ** The date of Expires *)
(** Wdy, DD-Mon-YYYY HH:MM:SS GMT in its usual variants: a weekday, a day, a month and
    a year between spaces or hyphens, a time, and then anything. *)
Definition cookie_date (t : DateLemmas.stamp) (v : str) : Prop :=
  exists wd sep d1 d2 mon rest, v = wd ++ sep ++ DateLemmas.t_dd t ++ [d1] ++ mon ++ [d2] ++ DateLemmas.t_yy t ++ u " " ++ DateLemmas.clock t ++ rest
    /\ In (lower wd) (DateLemmas.day_names ++ DateLemmas.long_day_names) /\ In sep [u ", "; u " "] /\ In d1 [32; 45] /\ In d2 [32; 45]
    /\ DateLemmas.digs 2 (DateLemmas.t_dd t) /\ DateLemmas.month_is (DateLemmas.t_m t) mon
    /\ (DateLemmas.digs 2 (DateLemmas.t_yy t) \/ DateLemmas.digs 4 (DateLemmas.t_yy t)) /\ DateLemmas.clock_ok t
    /\ (rest = [] \/ exists r, rest = 32 :: r).
(** Years below 100 are of 1970 to 2069. *)
Definition cookie_year (y : Z) : Z := (if y <=? 69 then y + 2000 else if y <=? 99 then y + 1900 else y)%Z.
