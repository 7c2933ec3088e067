(** * Specification of what the notes about Set-Cookie show (C69). *)
From Verif Require Import PyStr Regex Grammar NoteTable Note PyLib Utils FieldAttrs Types Fields1 Fields2 Fields3 Framework NumLemmas FieldSpec FieldDue OwnLemmas CookieSpec.
Open Scope N_scope.

(** What a note tells: its class, and what it shows under which name. *)
Definition tell := (nid * list (string * pyval))%type.
Definition shown_vars : list string := ["cookie_name"; "attribute"; "attribute_name"; "attribute_value"; "set_cookie_value_length"; "duration"; "why"; "cookie_names"]%string.
Fixpoint found (k : string) (l : list (string * pyval)) : option pyval := match l with [] => None | (k', v) :: r => if String.eqb k k' then Some v else found k r end.
Definition shows (l : list (string * pyval)) : list (option pyval) := map (fun k => found k l) shown_vars.
(** The notes this is about: all of those of Set-Cookie. *)
Definition of_cookies (c : nid) : bool := String.eqb (nid_file c) "field/parsers/set_cookie.py".

Section Line.
  Variables (path : str) (now : option Q) (l : line_of_cookie).
  Let named : string * pyval := ("cookie_name"%string, VStr (l_name l)).
  Definition note_if (b : bool) (c : nid) (more : list (string * pyval)) : list tell := if b then [(c, named :: more)] else [].
  (** How long the cookie lives: until when, counted from when. *)
  Definition lives (p : piece) : pyval :=
    if attr_is "expires" p then match loose_date_parse (snd p) with inl z => VRel (inject_Z z) (match now with Some t => t | None => 0%Q end) 0 | inr _ => VNone end
    else match py_int (snd p) with Some z => VRel (inject_Z z) 0 0 | None => VNone end.
  (** What one attribute asks for; [told]: a lifetime was too long before. *)
  Definition piece_tells (told : bool) (p : piece) : list tell :=
    let v := snd p in
    (if attr_is "expires" p then match loose_date_parse v with inr why => note_if true SET_COOKIE_BAD_DATE [("why"%string, VStr why)] | inl _ => [] end else [])
    ++ note_if (attr_is "max-age" p && negb (nonempty v)) SET_COOKIE_EMPTY_MAX_AGE []
    ++ note_if (attr_is "max-age" p && match v with 48 :: _ :: _ => true | _ => false end) SET_COOKIE_LEADING_ZERO_MAX_AGE []
    ++ note_if (attr_is "max-age" p && nonempty v && negb (all_digits v)) SET_COOKIE_NON_DIGIT_MAX_AGE []
    ++ note_if (too_long now p && negb told) SET_COOKIE_LIFETIME_TOO_LONG [("duration"%string, lives p)]
    ++ note_if (attr_is "domain" p && negb (nonempty v)) SET_COOKIE_EMPTY_DOMAIN []
    ++ note_if (attr_is "samesite" p && negb (same_site ["strict"; "lax"; "none"; ""]%string v)) SET_COOKIE_UNKNOWN_ATTRIBUTE_VALUE
         [("attribute_name"%string, VStr (fst p)); ("attribute_value"%string, VStr v)]
    ++ note_if (attr_is "priority" p) SET_COOKIE_PRIORITY []
    ++ note_if (attr_is "version" p) SET_COOKIE_VERSION []
    ++ note_if (negb (one_of known_attributes (lower (fst p)))) SET_COOKIE_UNKNOWN_ATTRIBUTE [("attribute"%string, VStr (fst p))].
  (** The attributes in order; [seen]: the names so far. *)
  Fixpoint pieces_tell (seen : list str) (told : bool) (ps : list piece) : list tell :=
    match ps with
    | [] => []
    | p :: r => note_if (existsb (str_eqb (lower (fst p))) seen) SET_COOKIE_ATTRIBUTE_DUP [("attribute"%string, VStr (fst p))]
                ++ piece_tells told p ++ pieces_tell (lower (fst p) :: seen) (told || too_long now p) r
    end.
  (** What the attributes together ask for. *)
  Definition all_tell : list tell :=
    let ps := l_pieces l in
    let host := is_prefix "__host-" (l_name l) in
    note_if (some_attr "samesite" (same_site ["none"]%string) ps && negb (secure ps)) SET_COOKIE_NOT_SECURE []
    ++ note_if (some_attr "partitioned" any_value ps && negb (secure ps)) SET_COOKIE_PARTITIONED_NO_SECURE []
    ++ note_if ((is_prefix "__secure-" (l_name l) || host) && negb (secure ps)) SET_COOKIE_PREFIX_SECURE_MISSING []
    ++ note_if (host && negb (some_attr "path" (fun v => str_eqb (cookie_path path v) (u "/")) ps)) SET_COOKIE_PREFIX_HOST_BAD_PATH []
    ++ flat_map (fun p => note_if (host && attr_is "domain" p && nonempty (snd p)) SET_COOKIE_PREFIX_HOST_BAD_DOMAIN []) ps.
  (** One line. *)
  Definition line_tells : list tell :=
    if nameless l then [(SET_COOKIE_NO_NAME, [])]
    else note_if (4096 <? N.of_nat (List.length (l_name l) + List.length (l_value l))) SET_COOKIE_TOO_LARGE []
      ++ note_if (128 <? N.of_nat (List.length (l_value l))) SET_COOKIE_VALUE_TOO_LARGE [("set_cookie_value_length"%string, VStr (f_comma (List.length (l_value l)) ++ u " bytes"))]
      ++ pieces_tell [] false (live (l_pieces l))
      ++ if whole l then all_tell else [].
End Line.
(** All the cookies of a section. *)
Definition names_tell (ds : list str) (cs : list line_of_cookie) : list tell :=
  let hs := map l_name (filter hardened cs) in
  (if nonempty ds then [(SET_COOKIE_NAME_DUP, [("cookie_names"%string, VStr (join (u ", ") ds))])] else [])
  ++ if nonempty hs then [(SET_COOKIE_HARDENED, [("cookie_names"%string, VMd (join (u ", ") (map quoted hs)))])] else [].
(** A section: first the notes about the field, then those of each line. *)
Definition heard_of (subj : str) (l : list tell) : list (nid * str * list (option pyval)) := map (fun x => (fst x, subj, shows (snd x))) l.
Definition section_tells (e : env) (t : mtype) (now : option Q) (base : str) (ds : list str) (l : list rawline) : list (nid * str * list (option pyval)) :=
  match base_path e base with
  | None => []
  | Some path =>
      heard_of (about_field (u "set-cookie")) (names_tell ds (cookies e base (values (u "set-cookie") l)))
      ++ flat_map (fun rn => heard_of (at_offset (snd rn)) (line_tells path now (read_cookie (strip (value_of (fst rn)))))) (field_lines_of t (u "set-cookie") l)
  end.
(** A number with a comma before every three digits from the right. *)
Definition with_commas (digits s : str) : Prop :=
  exists g gs, s = join [44] (g :: gs) /\ digits = List.concat (g :: gs) /\ (1 <= List.length g <= 3)%nat /\ Forall (fun x => List.length x = 3%nat) gs.
