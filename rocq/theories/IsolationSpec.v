(** * Specification of Cross-Origin-Embedder-Policy and Cross-Origin-Opener-Policy, with their report-only forms (C57). *)
From Coq Require Import QArith.
From Verif Require Import PyStr Regex Note PyLib Utils FieldAttrs Types Framework FieldSpec FieldDue PlainSpec SFSpec.
Open Scope N_scope.

(** The notes about a field as a whole. *)
Definition about (k : string) (ns : list note) : list note := filter (fun n => str_eqb (n_subj n) (about_field (u k))) ns.
(** What is due for a text, given what is due for the Item the library reads in it; nothing if it reads none. *)
Definition item_says (e : env) (R : bare -> sfparams -> list (nid * list (option pyval)) -> Prop) (s : str) (l : list (nid * list (option pyval))) : Prop :=
  match e_sf_item e s with SFOk bp _ => R (fst bp) (snd bp) l | _ => l = [] end.
(** Variables shown: report_only, report_only_text, value, endpoint. *)
Definition isolation_vars : list str := [u "report_only"; u "report_only_text"; u "value"; u "endpoint"].
Definition only_short : str := u " (for reporting only)".
Definition only_long : str := [10; 10] ++ u "Browsers will only report violations of this policy, not enforce it.".
(** The value: one note for each known token, another for everything else. *)
Definition policy_value_due (names : list (string * nid)) (bad : nid) (ro rot : str) (b : bare) (l : list (nid * list (option pyval))) : Prop :=
  (exists s n, b = BTok (u s) /\ In (s, n) names /\ l = [(n, [Some (VStr ro); Some (VStr rot); None; None])])
  \/ (forall s n, In (s, n) names -> b <> BTok (u s)) /\ l = [(bad, [Some (VStr ro); None; Some (bare_val b); None])].
(** A parameter's value: the last one given counts. *)
Definition param (p : sfparams) (k : string) (b : bare) : Prop := exists p1 p2, p = p1 ++ (u k, b) :: p2 /\ ~ In (u k) (map fst p2).
Definition bare_text (b : bare) : option str := match b with BStr s | BTok s | BDisp s => Some s | _ => None end.
(** Values Python takes for false. *)
Definition falsy (b : bare) : Prop := b = BBool false \/ b = BInt 0 \/ (exists q, b = BDec q /\ (q == 0)%Q) \/ bare_text b = Some [] \/ b = BBytes [].
(** The endpoints the headers define. *)
Definition endpoint (e : env) (headers : list rawline) (n : str) : Prop :=
  values (u "reporting-endpoints") headers <> [] /\ exists d dups, e_sf_dict e (sf_text "reporting-endpoints" headers) = SFOk d dups /\ In n (map fst d).
Definition report_to_due (missing : nid) (ro : str) (e : env) (headers : list rawline) (p : sfparams) (l : list (nid * list (option pyval))) : Prop :=
  (exists b, param p "report-to" b /\ ~ falsy b /\ (forall s, bare_text b = Some s -> ~ endpoint e headers s) /\ l = [(missing, [Some (VStr ro); None; None; Some (bare_val b)])])
  \/ (forall b, param p "report-to" b -> falsy b \/ exists s, bare_text b = Some s /\ endpoint e headers s) /\ l = [].

Definition embedder_names : list (string * nid) := [("require-corp", COEP_REQUIRE_CORP); ("credentialless", COEP_CREDENTIALLESS); ("unsafe-none", COEP_UNSAFE_NONE)]%string.
Definition opener_names : list (string * nid) := [("same-origin", COOP_SAME_ORIGIN); ("same-origin-allow-popups", COOP_SAME_ORIGIN_ALLOW_POPUPS); ("unsafe-none", COOP_UNSAFE_NONE)]%string.
Definition embedder_classes : list nid := [COEP_REQUIRE_CORP; COEP_CREDENTIALLESS; COEP_UNSAFE_NONE; CROSS_ORIGIN_EMBEDDER_POLICY_BAD_VALUE; COEP_REPORT_TO_MISSING; COEP_REPORT_ONLY_DUPLICATE].
Definition opener_classes : list nid := [COOP_SAME_ORIGIN; COOP_SAME_ORIGIN_ALLOW_POPUPS; COOP_UNSAFE_NONE; CROSS_ORIGIN_OPENER_POLICY_BAD_VALUE; COOP_REPORT_TO_MISSING; COOP_REPORT_ONLY_DUPLICATE].
(** In the report-only form there is one more note if the headers have the other form as well. *)
Definition also_due (other : string) (dup : nid) (headers : list rawline) (R : bare -> list (nid * list (option pyval)) -> Prop) (b : bare) (l : list (nid * list (option pyval))) : Prop :=
  exists d l2, l = told_once d dup [None; None; None; None] ++ l2 /\ (d = true <-> values (u other) headers <> []) /\ R b l2.
