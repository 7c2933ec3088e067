(** * Specification of Link (C52). *)
From Verif Require Import PyStr Regex Grammar Note PyLib Utils FieldAttrs Types Framework NumLemmas FieldSpec FieldDue CodingSpec PlainSpec.
Open Scope N_scope.

(** White space around a word of the language of [g]. *)
Definition spaced (g : re) (v : str) : Prop := exists a w b, v = a ++ w ++ b /\ forallb isspace a = true /\ forallb isspace b = true /\ lang g w.
Definition link_params (e : env) (m : str) : dict (option str) := parameters e (NoStarList (map u ["rel"; "rev"; "anchor"; "hreflang"; "type"; "media"]%string)) m.
(** The target: what is before the first semicolon, without its first and last character (the angle brackets). *)
Definition link_target (m : str) : str := removelast (tl (strip (before_semi m))).
(** About each link, at its line. *)
Definition link_classes : list nid := [LINK_REV; LINK_BAD_ANCHOR; LINK_BAD_TYPE].
Definition link_due (e : env) (m : str) (l : list nid) : Prop :=
  exists b1 b2 b3, l = only b1 LINK_REV ++ only b2 LINK_BAD_ANCHOR ++ only b3 LINK_BAD_TYPE
    /\ (b1 = true <-> dget (u "rev") (link_params e m) <> None)
    /\ (b2 = true <-> exists s, dget (u "anchor") (link_params e m) = Some (Some s) /\ s <> [] /\ ~ spaced rfc3986_URI_reference s)
    /\ (b3 = true <-> exists s, dget (u "type") (link_params e m) = Some (Some s) /\ s <> [] /\ ~ spaced rfc9110_media_type s).
(** Resource hints: each of the relation types preload, preconnect and dns-prefetch of each link, with its target. *)
Definition hint_types : list string := ["preload"; "preconnect"; "dns-prefetch"]%string.
Definition hints_of (e : env) (m : str) : list (str * str) :=
  map (fun w => (w, link_target m)) (filter (one_of hint_types) (words (lower (text_of (link_params e m) "rel")))).
(** The scheme of a target resolved against the base URI. *)
Definition scheme_of (e : env) (base : str) (h : str * str) (s : str) : Prop :=
  exists full p, e_urljoin e base (snd h) = Ok full /\ e_urlsplit e full = Ok p /\ s = lower (u_scheme p).
Definition bad_scheme (s : str) : bool := nonempty s && negb (one_of ["http"; "https"]%string s).
Definition hint_classes : list nid := [LINK_BAD_HINT_TARGET; LINK_RESOURCE_HINTS].
(** One note for each hint with another scheme than http or https; one for all others, if there are any,
    naming their types (keys: rel, link, scheme, hints). *)
Definition hints_due (e : env) (base : str) (ms : list str) (l : list (nid * list (option pyval))) : Prop :=
  exists schemes, Forall2 (scheme_of e base) (flat_map (hints_of e) ms) schemes
    /\ let found := combine (flat_map (hints_of e) ms) schemes in
       let good := filter (fun x => negb (bad_scheme (snd x))) found in
       let types := filter (fun w => existsb (fun x => str_eqb (fst (fst x)) w) good) (map u hint_types) in
       l = map (fun x => (LINK_BAD_HINT_TARGET, [Some (VStr (fst (fst x))); Some (VStr (snd (fst x))); Some (VStr (snd x)); None])) (filter (fun x => bad_scheme (snd x)) found)
           ++ told_once (nonempty good) LINK_RESOURCE_HINTS [None; None; None; Some (VStr (join (u ", ") types))].
(** Every hint's target can be resolved and split. *)
Definition resolves (e : env) (base : str) (ms : list str) : Prop := Forall (fun h => exists s, scheme_of e base h s) (flat_map (hints_of e) ms).
