(** * Specification of Origin, Location, Referer, Expect and Max-Forwards (C46). *)
From Verif Require Import PyStr Regex Grammar Note PyLib Utils FieldAttrs Types Framework NumLemmas FieldSpec FieldDue RangeSpec.
Open Scope N_scope.

(** ** Origin *)
(** scheme "://" host [":" port], in the grammars of RFC 3986 as the code
    transcribes them; a final newline is ignored. *)
Definition origin_text (o sch host : str) (port : option str) : Prop :=
  lang rfc3986_scheme sch /\ lang rfc3986_host host /\ (match port with Some p => lang rfc3986_port p | None => True end)
  /\ exists eol, (eol = [] \/ eol = [10]) /\ o = sch ++ u "://" ++ host ++ match port with Some p => 58 :: p | None => [] end ++ eol.
(** [o] is the text before the first space. *)
Definition first_word (v o : str) : Prop := (o = v /\ ~ In 32 v) \/ exists rest, cut_at 32 v o rest.
Definition port_number (port : option str) (z : option Z) : Prop :=
  match port with Some (c :: p) => exists x, numeral (c :: p) x /\ z = Some x | _ => z = None end.
Inductive origin_of : str -> list nid -> option (str * str * option Z) -> Prop :=
| origin_null : origin_of (u "null") [] None
| origin_bad v o several : v <> u "null" -> first_word v o -> (several = true <-> In 32 v) -> (forall sch host port, ~ origin_text o sch host port) ->
    origin_of v (only several ORIGIN_MULTIPLE_VALUES ++ [BAD_ORIGIN_SYNTAX]) None
| origin_long v o several sch host port : v <> u "null" -> first_word v o -> (several = true <-> In 32 v) -> origin_text o sch host port -> (forall z, ~ port_number port z) ->
    origin_of v (only several ORIGIN_MULTIPLE_VALUES) None
| origin_ok v o several sch host port z : v <> u "null" -> first_word v o -> (several = true <-> In 32 v) -> origin_text o sch host port -> port_number port z ->
    origin_of v (only several ORIGIN_MULTIPLE_VALUES) (Some (lower sch, lower host, z)).
Definition origin_classes : list nid := [ORIGIN_MULTIPLE_VALUES; BAD_ORIGIN_SYNTAX].

(** ** Location *)
Definition is_uri (v : str) : Prop := exists a w b, v = a ++ w ++ b /\ forallb isspace a = true /\ forallb isspace b = true /\ lang rfc3986_URI w.
Definition with_location : list Z := [201; 300; 301; 302; 303; 305; 307; 308]%Z.
(** [undefined]: a response with another status. [joined]: the value resolved against the base URI. *)
Definition location_of (undefined : bool) (joined : str -> res str) (v : str) (l : list nid) : Prop :=
  exists l', l = only undefined LOCATION_UNDEFINED ++ l'
    /\ ((is_uri v \/ exists x, joined v = Err x) /\ l' = [] \/ (~ is_uri v /\ exists full, joined v = Ok full) /\ l' = [LOCATION_NOT_ABSOLUTE]).
Definition location_classes : list nid := [LOCATION_UNDEFINED; LOCATION_NOT_ABSOLUTE].

(** ** Referer *)
(** [from], [to]: the parts of the referring and of the requested URI, if there are such URIs. *)
Definition referer_due (from to : option urlparts) : list nid :=
  match from, to with
  | Some f, Some t =>
      if one_of ["https"%string; "wss"%string] (lower (u_scheme f)) then
        only (one_of ["http"%string; "ws"%string] (lower (u_scheme t))) REFERER_SECURE_TO_INSECURE
        ++ only (negb (str_eqb (u_scheme f) (u_scheme t) && str_eqb (u_netloc f) (u_netloc t))) REFERER_SECURE_TO_DIFFERENT_ORIGIN
      else []
  | _, _ => []
  end.
Definition parts (e : env) (s : str) : option urlparts := match s with [] => None | _ => match e_urlsplit e s with Ok p => Some p | Err _ => None end end.
Definition referer_classes : list nid := [REFERER_SECURE_TO_INSECURE; REFERER_SECURE_TO_DIFFERENT_ORIGIN].

(** ** Expect and Max-Forwards *)
Definition expect_classes : list nid := [EXPECT_HTTP_1_0; EXPECT_UNKNOWN].
Definition expect_due (version : str) (vs : list str) : list nid :=
  only (one_of ["1.0"%string] version) EXPECT_HTTP_1_0 ++ only (existsb (fun v => negb (one_of ["100-continue"%string] (lower v))) vs) EXPECT_UNKNOWN.
Definition forwards_due (method : option str) : list nid :=
  only (negb (match method with Some m => one_of ["TRACE"%string; "OPTIONS"%string] m | None => false end)) MAX_FORWARDS_IGNORED.
