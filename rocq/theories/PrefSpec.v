(** * Specification of Accept, Accept-Language, Accept-Encoding, TE, Accept-Patch and Accept-Post (C50). *)
From Coq Require Import QArith.
From Verif Require Import PyStr Regex Grammar Note PyLib Utils FieldAttrs Types Framework NumLemmas FieldSpec FieldDue CodingSpec.
Open Scope N_scope.

(** A quality value: at most five characters that Python's [float] reads as a number from 0 to 1
    (what that means for decimal numerals is [C50_quality]). *)
Definition quality (s : str) (x : Q) : Prop := (List.length s <= 5)%nat /\ py_float s = Some (FFin x) /\ (0 <= x)%Q /\ (x <= 1)%Q.
(** The parameters of an element ("q*" is not an extended q). *)
Definition weighed (e : env) (v : str) : dict (option str) := parameters e (NoStarList [u "q"]) v.
(** The element has a q parameter, but not a quality value. *)
Definition bad_weight (e : env) (v : str) : Prop :=
  match dget (u "q") (weighed e v) with
  | None => False
  | Some None => True
  | Some (Some s) => forall x, ~ quality s x
  end.
(** What is shown of it. *)
Definition weight_value (e : env) (v : str) (q : pyval) : Prop :=
  match dget (u "q") (weighed e v) with
  | Some (Some s) => (exists x, quality s x /\ q = VFloat (FFin x)) \/ (forall x, ~ quality s x) /\ q = VNone
  | _ => q = VNone
  end.
Definition without_q (d : dict (option str)) : dict (option str) := filter (fun kv => negb (str_eqb (u "q") (fst kv))) d.
(** The type of an element. *)
Definition type_of (v : str) : str := lower (strip (before_semi v)).

Definition accept_classes : list nid := [ACCEPT_BAD_SYNTAX; BAD_Q_VALUE].
Definition accept_element (e : env) (v : str) (l : list nid) : Prop :=
  exists b1 b2, l = only b1 ACCEPT_BAD_SYNTAX ++ only b2 BAD_Q_VALUE
    /\ (b1 = true <-> forall ty sub, ~ media_range true false (type_of v) ty sub)
    /\ (b2 = true <-> bad_weight e v).
Definition accept_value (e : env) (v : str) (x : pyval) : Prop :=
  exists q, weight_value e v q /\ x = VTuple [VStr (type_of v); param_dict_val (without_q (weighed e v)); q].

Definition language_classes : list nid := [BAD_Q_VALUE_accept_language; ACCEPT_LANGUAGE_BAD_SYNTAX].
Definition language_element (e : env) (v : str) (l : list nid) : Prop :=
  exists b1 b2, l = only b1 BAD_Q_VALUE_accept_language ++ only b2 ACCEPT_LANGUAGE_BAD_SYNTAX
    /\ (b1 = true <-> bad_weight e v)
    /\ (b2 = true <-> exists k, k <> u "q" /\ dget k (weighed e v) <> None).
Definition language_value (e : env) (v : str) (x : pyval) : Prop :=
  exists q, weight_value e v q /\ x = VTuple [VStr (lower (before_semi v)); q].

(** Accept-Patch (no wildcards) and Accept-Post (wildcards allowed). *)
Definition type_element (wild : bool) (c : nid) (v : str) (l : list nid) : Prop :=
  exists b, l = only b c /\ (b = true <-> forall ty sub, ~ media_range wild false (type_of v) ty sub).
(** The notes about the elements of list field [k] in a section. *)
Definition element_notes (t : mtype) (k : string) (due : str -> list nid) (headers trailers : list rawline) : list (nid * str) :=
  member_due t (u k) due headers ++ member_due t (u k) due trailers.
