(** * Specification of the structured fields' own notes (C53). *)
From Coq Require Import QArith Sorting.Sorted.
From Verif Require Import PyStr Regex Grammar Note PyLib Utils FieldAttrs Types Fields1 Framework NumLemmas FieldSpec FieldDue CodingSpec PlainSpec LinkSpec.
Open Scope N_scope.

(** All lines of a section together are one text. *)
Definition sf_text (k : string) (l : list rawline) : str := strip (join (u ", ") (values (u k) l)).
Definition sf_told (k : string) (due : str -> list (nid * list (option pyval))) (l : list rawline) : list (nid * str * list (option pyval)) :=
  match values (u k) l with
  | [] => []
  | _ => map (fun x => (fst x, about_field (u k), snd x)) (due (sf_text k l))
  end.
(** What is due for a text, given what is due for the Item, List or Dictionary the library reads in it; nothing if it reads none. *)
Definition item_rule (e : env) (R : bare -> list (nid * list (option pyval)) -> Prop) (s : str) (l : list (nid * list (option pyval))) : Prop :=
  match e_sf_item e s with SFOk bp _ => R (fst bp) l | _ => l = [] end.
Definition list_rule (e : env) (R : list member -> list (nid * list (option pyval)) -> Prop) (s : str) (l : list (nid * list (option pyval))) : Prop :=
  match e_sf_list e s with SFOk ms _ => R ms l | _ => l = [] end.
(** A Dictionary's entries: the last value of each key, in the order of the first occurrences. *)
Definition dict_rule (e : env) (R : list (str * member) -> list (nid * list (option pyval)) -> Prop) (s : str) (l : list (nid * list (option pyval))) : Prop :=
  match e_sf_dict e s with SFOk d _ => R (dupdate [] d) l | _ => l = [] end.
(** Each member in turn. *)
Definition each {A} (R : A -> list (nid * list (option pyval)) -> Prop) (ms : list A) (l : list (nid * list (option pyval))) : Prop :=
  exists parts, Forall2 R ms parts /\ l = concat parts.

(** Python's names for the types. *)
Definition bare_kind (b : bare) : string :=
  match b with
  | BInt _ => "int" | BDec _ => "Decimal" | BStr _ => "str" | BTok _ => "Token" | BBytes _ => "bytes" | BBool _ => "bool" | BDate _ => "datetime" | BDisp _ => "DisplayString"
  end.
Definition kind (m : member) : string := match m with MItem b _ => bare_kind b | MInner _ _ => "list" end.
Definition is_string (m : member) (s : str) : Prop := exists p, m = MItem (BStr s) p.

(** Deprecation: a date is compared with the start of the message, if that is known and not 0. *)
Definition deprecation_classes : list nid := [DEPRECATION_FUTURE; DEPRECATION_PAST; DEPRECATION_TRUE; DEPRECATION_BAD_TYPE].
Definition deprecation_due (start : option Q) (b : bare) (l : list (nid * list (option pyval))) : Prop :=
  exists b1 b2 b3 b4, l = told_once b1 DEPRECATION_FUTURE [] ++ told_once b2 DEPRECATION_PAST [] ++ told_once b3 DEPRECATION_TRUE [] ++ told_once b4 DEPRECATION_BAD_TYPE []
    /\ (b1 = true <-> exists z st, b = BDate z /\ start = Some st /\ ~ (st == 0)%Q /\ (st < inject_Z z)%Q)
    /\ (b2 = true <-> exists z st, b = BDate z /\ start = Some st /\ ~ (st == 0)%Q /\ (inject_Z z <= st)%Q)
    /\ (b3 = true <-> b = BBool true)
    /\ (b4 = true <-> b <> BBool true /\ forall z, b <> BDate z).

(** Accept-Query: tokens or strings that are media ranges. *)
Definition query_classes : list nid := [ACCEPT_QUERY_BAD_SYNTAX; ACCEPT_QUERY_BAD_TYPE].
Definition word_of (m : member) (s : str) : Prop := exists p, m = MItem (BStr s) p \/ m = MItem (BTok s) p.
Definition query_due (m : member) (l : list (nid * list (option pyval))) : Prop :=
  exists b1 b2, l = told_once b1 ACCEPT_QUERY_BAD_SYNTAX [] ++ told_once b2 ACCEPT_QUERY_BAD_TYPE []
    /\ (b1 = true <-> exists s, word_of m s /\ forall ty sub, ~ media_range true true (lower s) ty sub)
    /\ (b2 = true <-> forall s, ~ word_of m s).

(** Cache-Groups and Cache-Group-Invalidation: strings. The note names the other types, in alphabetical order. *)
Definition other_types (ms : list member) (types : list str) : Prop :=
  Sorted.Sorted (fun a b => str_leb a b = true) types /\ NoDup types /\ forall ty, In ty types <-> exists m, In m ms /\ (forall s, ~ is_string m s) /\ ty = u (kind m).
Definition groups_due (c : nid) (ms : list member) (l : list (nid * list (option pyval))) : Prop :=
  exists types, other_types ms types /\ l = told_once (nonempty types) c [Some (VStr (join (u ", ") types))].
(** Invalidation does nothing if the request's method is safe. *)
Definition safe_method (rel : option mstate) : Prop := exists r, rel = Some r /\ exists m, m_method r = Some m /\ one_of ["GET"; "HEAD"; "OPTIONS"; "TRACE"]%string m = true.
Definition invalidation_classes : list nid := [CACHE_GROUP_INVALIDATION_IGNORED; CACHE_GROUP_INVALIDATION_BAD_TYPE].
Definition invalidation_due (rel : option mstate) (ms : list member) (l : list (nid * list (option pyval))) : Prop :=
  exists b l2, l = told_once b CACHE_GROUP_INVALIDATION_IGNORED [None] ++ l2 /\ (b = true <-> safe_method rel) /\ groups_due CACHE_GROUP_INVALIDATION_BAD_TYPE ms l2.

(** Reporting-Endpoints and Speculation-Rules: strings that are secure URLs. *)
Definition insecure (e : env) (base url : str) : Prop :=
  exists full p, e_urljoin e base url = Ok full /\ e_urlsplit e full = Ok p /\ u_scheme p <> [] /\ one_of ["https"; "wss"]%string (lower (u_scheme p)) = false.
Definition splits (e : env) (base url : str) : Prop := exists full p, e_urljoin e base url = Ok full /\ e_urlsplit e full = Ok p.
Definition endpoint_classes : list nid := [ENDPOINT_NOT_SECURE; BAD_REPORTING_ENDPOINT_SYNTAX].
Definition endpoint_due (e : env) (base : str) (km : str * member) (l : list (nid * list (option pyval))) : Prop :=
  exists b1 b2, l = told_once b1 ENDPOINT_NOT_SECURE [Some (VStr (fst km))] ++ told_once b2 BAD_REPORTING_ENDPOINT_SYNTAX [Some (VStr (fst km))]
    /\ (b1 = true <-> exists s, is_string (snd km) s /\ insecure e base s)
    /\ (b2 = true <-> forall s, ~ is_string (snd km) s).
Definition rules_classes : list nid := [SPECULATION_RULE_NOT_SECURE; SPECULATION_RULES_BAD_TYPE].
Definition rules_due (e : env) (base : str) (m : member) (l : list (nid * list (option pyval))) : Prop :=
  exists b1 b2, l = told_once b1 SPECULATION_RULE_NOT_SECURE [] ++ told_once b2 SPECULATION_RULES_BAD_TYPE []
    /\ (b1 = true <-> exists s, is_string m s /\ insecure e base s)
    /\ (b2 = true <-> forall s, ~ is_string m s).
Definition urls_split (e : env) (base : str) (ms : list member) : Prop := forall m s, In m ms -> is_string m s -> splits e base s.

(** CDN-Cache-Control: always a note, and one for each directive with a value of the wrong type. *)
Definition bare_directives : list string := ["immutable"; "must-revalidate"; "must-understand"; "no-store"; "no-transform"; "only-if-cached"; "proxy-revalidate"; "public"]%string.
Definition number_directives : list string := ["max-age"; "max-stale"; "min-fresh"; "s-maxage"; "stale-if-error"; "stale-while-revalidate"; "pre-check"; "post-check"]%string.
Definition text_directives : list string := ["no-cache"; "private"]%string.
Definition is_yes (m : member) : Prop := exists p, m = MItem (BBool true) p.
(** True and false are integers in Python. *)
Definition is_number (m : member) : Prop := exists p, (exists z, m = MItem (BInt z) p) \/ exists b, m = MItem (BBool b) p.
Definition cdn_classes : list nid := [CDN_CACHE_CONTROL_PRESENT; BAD_CDN_CC_TYPE].
Definition directive_due (km : str * member) (l : list (nid * list (option pyval))) : Prop :=
  exists b, l = told_once b BAD_CDN_CC_TYPE [Some (VStr (lower (fst km)))]
    /\ (b = true <-> one_of bare_directives (lower (fst km)) = true /\ ~ is_yes (snd km)
                     \/ one_of number_directives (lower (fst km)) = true /\ ~ is_number (snd km)
                     \/ one_of text_directives (lower (fst km)) = true /\ ~ is_yes (snd km) /\ forall s, ~ is_string (snd km) s).
Definition cdn_due (d : list (str * member)) (l : list (nid * list (option pyval))) : Prop :=
  exists l2, l = (CDN_CACHE_CONTROL_PRESENT, [None]) :: l2 /\ each directive_due d l2.

(** Use-As-Dictionary. *)
Definition dictionary_classes : list nid := [USE_AS_DICTIONARY_BAD_TYPE; USE_AS_DICTIONARY_BAD_MATCH_DEST].
Definition destinations (m : member) : Prop := (exists s, is_string m s) \/ exists l p, m = MInner l p /\ forall bp, In bp l -> exists s, fst bp = BStr s.
Definition use_due (km : str * member) (l : list (nid * list (option pyval))) : Prop :=
  exists b1 b2, l = told_once b1 USE_AS_DICTIONARY_BAD_TYPE [] ++ told_once b2 USE_AS_DICTIONARY_BAD_MATCH_DEST []
    /\ (b1 = true <-> one_of ["match"; "id"; "type"]%string (fst km) = true /\ (forall s, ~ is_string (snd km) s) \/ fst km = u "ttl" /\ ~ is_number (snd km))
    /\ (b2 = true <-> fst km = u "match-dest" /\ ~ destinations (snd km)).

(** Cache-Status and Proxy-Status: the parameters known, the types they may have and, if given, the values. *)
Definition fits (t : string) (b : bare) : bool :=
  match b with
  | BBool _ => String.eqb t "bool" || String.eqb t "int"
  | BInt _ => String.eqb t "int"
  | BStr _ => String.eqb t "str"
  | BTok _ => String.eqb t "Token"
  | _ => false
  end.
Definition param_table := list (string * (list string * list string)).
Definition cache_table : param_table :=
  [("hit", (["bool"], []));
   ("fwd", (["Token"], ["bypass"; "method"; "uri-miss"; "vary-miss"; "miss"; "request"; "stale"; "partial"]));
   ("fwd-status", (["int"], [])); ("ttl", (["int"], [])); ("stored", (["bool"], [])); ("collapsed", (["bool"], [])); ("key", (["str"], [])); ("detail", (["Token"; "str"], []))]%string.
Definition proxy_table : param_table :=
  [("error", (["Token"], [])); ("next-hop", (["Token"; "str"], [])); ("next-protocol", (["Token"], [])); ("received-status", (["int"], [])); ("details", (["Token"; "str"], []))]%string.
Definition allowed (types vals : list string) (b : bare) : Prop :=
  (exists t, In t types /\ fits t b = true) /\ (vals = [] \/ exists s, In b [BTok s; BStr s; BDisp s] /\ one_of vals s = true).
Definition param_due (tab : param_table) (unk bad : nid) (kv : str * bare) (l : list (nid * list (option pyval))) : Prop :=
  match find (fun row => str_eqb (fst kv) (u (fst row))) tab with
  | None => l = [(unk, [Some (VStr (fst kv))])]
  | Some row => exists b, l = told_once b bad [Some (VStr (fst kv))] /\ (b = false <-> allowed (fst (snd row)) (snd (snd row)) (snd kv))
  end.
Definition attributes (m : member) : list (str * bare) := dupdate [] (match m with MItem _ p | MInner _ p => p end).
Definition status_due (tab : param_table) (present unk bad : nid) (ms : list member) (l : list (nid * list (option pyval))) : Prop :=
  exists l2, l = l2 ++ told_once (nonempty ms) present [None] /\ each (fun m => each (param_due tab unk bad) (attributes m)) ms l2.
(** A boolean parameter that is false cannot be shown (TypeError). *)
Definition shown (flags : list string) (ms : list member) : Prop := forall m k, In m ms -> In (k, BBool false) (attributes m) -> one_of flags k = false.
Definition cache_classes : list nid := [CACHE_STATUS; CACHE_STATUS_UNKNOWN_PARAM; CACHE_STATUS_BAD_PARAM_VAL].
Definition proxy_classes : list nid := [PROXY_STATUS; PROXY_STATUS_UNKNOWN_PARAM; PROXY_STATUS_BAD_PARAM_VAL].
