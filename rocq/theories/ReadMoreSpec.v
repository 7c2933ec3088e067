(** * Specification of the values of Content-Encoding, Location, Strict-Transport-Security, NEL and Report-To (C73). *)
From Verif Require Import PyStr Regex Grammar Note PyLib Utils FieldAttrs Types Framework NumLemmas FieldSpec FieldDue OriginSpec HstsSpec.
Open Scope N_scope.

(** Location: the text, if it is a URI or can be resolved against the base URI. *)
Definition location_read (joined : str -> res str) (v : str) (x : pyval) : Prop :=
  ((is_uri v \/ exists full, joined v = Ok full) /\ x = VStr v) \/ (~ is_uri v /\ (exists problem, joined v = Err problem) /\ x = VNone).
(** Strict-Transport-Security: the number of the first max-age, and whether the other two directives are there. *)
Definition hsts_value (v : str) (x : pyval) : Prop :=
  exists ds trailing age, hsts_read v ds trailing
    /\ (match age with VInt z => exists s, first_named "max-age" ds = Some (Some s) /\ int_text s z
                     | VNone => forall s z, first_named "max-age" ds = Some (Some s) -> ~ int_text s z | _ => False end)
    /\ x = VDict [(u "max-age", age); (u "includesubdomains", VBool (has "includesubdomains" ds)); (u "preload", VBool (has "preload" ds))].
(** JSON fields: the lines, with commas, in brackets, are a JSON list. *)
Definition json_lines (l : list str) : str := u "[" ++ join (u ", ") l ++ u "]".
