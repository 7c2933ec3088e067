(** * Specification of Permissions-Policy (C56). *)
From Verif Require Import PyStr Regex Note PyLib Utils FieldAttrs Types Framework FieldSpec FieldDue PlainSpec KidSpec SFSpec.
Open Scope N_scope.

(** Variables shown: feature, token, value, item. *)
Definition policy_vars : list str := [u "feature"; u "token"; u "value"; u "item"].
(** How Python shows a value of a structured field that is neither a token nor a string. *)
Definition shown (e : env) (b : bare) (s : str) : Prop :=
  match b with
  | BInt z => s = dec_Z z
  | BBool true => s = u "True" | BBool false => s = u "False"
  | BDec q => s = e_float_str e (VDec q)
  | BDisp d => s = d
  | BBytes _ | BDate _ => s = e_repr e (bare_val b)
  | BStr _ | BTok _ => False
  end.
(** One member of an allowlist in parentheses: a token other than self and src, a keyword in quotes, or neither token nor string. *)
Definition allow_due (e : env) (feature : str) (b : bare) (l : list (nid * list (option pyval))) : Prop :=
  let f := Some (VStr feature) in
  (exists t, b = BTok t /\ l = told_once (negb (one_of ["self"; "src"]%string t)) PERMISSIONS_POLICY_UNKNOWN_TOKEN [f; Some (VStr t); None; None])
  \/ (exists s, b = BStr s /\ l = told_once (one_of ["self"; "src"; "*"; "none"]%string s) PERMISSIONS_POLICY_QUOTED_KEYWORD [f; None; Some (VStr s); None])
  \/ (exists s, shown e b s /\ l = [(PERMISSIONS_POLICY_INVALID_ITEM_TYPE, [f; None; None; Some (VStr s)])]).
Definition is_star (m : member) : Prop := exists p, m = MItem (BTok [42]) p.
Definition is_inner (m : member) : Prop := exists l p, m = MInner l p.
Definition sensitive : list string :=
  ["camera"; "microphone"; "geolocation"; "payment"; "usb"; "serial"; "magnetometer"; "accelerometer"; "gyroscope"; "screen-wake-lock"]%string.
(** One feature: the members of its list, or else: a value that is not the token *; the token * for a sensitive feature. *)
Definition feature_due (e : env) (km : str * member) (l : list (nid * list (option pyval))) : Prop :=
  let f := [Some (VStr (fst km)); None; None; None] in
  exists li b1 b2,
    l = li ++ told_once b1 PERMISSIONS_POLICY_INVALID_VALUE f ++ told_once b2 PERMISSIONS_POLICY_WILDCARD f
    /\ (forall ms p, snd km = MInner ms p -> each (allow_due e (fst km)) (map fst ms) li)
    /\ (~ is_inner (snd km) -> li = [])
    /\ (b1 = true <-> ~ is_inner (snd km) /\ ~ is_star (snd km))
    /\ (b2 = true <-> is_star (snd km) /\ one_of sensitive (fst km) = true).
(** The notes about a text: one if the library reads a Dictionary that is not empty, with the others under it. *)
Definition policy_due (e : env) (s : str) (l : list (nid * list (nid * list (option pyval)))) : Prop :=
  match e_sf_dict e s with
  | SFOk ((_ :: _) as d) _ => exists kids, each (feature_due e) (dupdate [] d) kids /\ l = [(PERMISSIONS_POLICY_PRESENT, kids)]
  | _ => l = []
  end.
Definition deep_told (k : string) (blank : list (option pyval)) (due : str -> list (nid * list (nid * list (option pyval)))) (l : list rawline) : list heard_note :=
  match values (u k) l with
  | [] => []
  | _ => map (fun x => (fst x, about_field (u k), blank, snd x)) (due (sf_text k l))
  end.
Definition policy_classes : list nid :=
  [PERMISSIONS_POLICY_PRESENT; PERMISSIONS_POLICY_UNKNOWN_TOKEN; PERMISSIONS_POLICY_QUOTED_KEYWORD; PERMISSIONS_POLICY_INVALID_ITEM_TYPE; PERMISSIONS_POLICY_INVALID_VALUE; PERMISSIONS_POLICY_WILDCARD].
