(** * Specification of NEL and Report-To (C59). *)
From Coq Require Import QArith.
From Verif Require Import PyStr Regex Note PyLib Utils FieldAttrs Types Framework FieldSpec FieldDue PlainSpec SFSpec IsolationSpec.
Open Scope N_scope.

(** The values a section has for the field, as one JSON array; what is due for it goes by what the JSON library reads. *)
Definition json_array (k : string) (l : list rawline) : str := u "[" ++ join (u ", ") (values (u k) l) ++ u "]".
Definition json_rule (e : env) (R : list json -> list (nid * list (option pyval)) -> Prop) (s : str) (l : list (nid * list (option pyval))) : Prop :=
  match e_json e s with JOk js => R js l | _ => l = [] end.
Definition json_told (k : string) (d : str -> list (nid * list (option pyval))) (l : list rawline) : list (nid * str * list (option pyval)) :=
  match values (u k) l with [] => [] | _ => map (fun x => (fst x, about_field (u k), snd x)) (d (json_array k l)) end.

(** The value of a key: the last one given counts. *)
Definition last_of {A} (d : list (str * A)) (k : str) (a : A) : Prop := exists d1 d2, d = d1 ++ (k, a) :: d2 /\ ~ In k (map fst d2).
Definition has (d : list (str * json)) (k : string) (j : json) : Prop := last_of d (u k) j.
Definition text (j : json) : Prop := exists s, j = JStr s.
(** A bool is an int, too. *)
Definition whole (j : json) : Prop := (exists z, j = JInt z) \/ exists b, j = JBool b.
Definition yesno (j : json) : Prop := exists b, j = JBool b.
Definition number (j : json) : Prop := whole j \/ exists f, j = JFloat f.
Definition between01 (j : json) : Prop := yesno j \/ j = JInt 0 \/ j = JInt 1 \/ exists q, j = JFloat (FFin q) /\ (0 <= q <= 1)%Q.

(** Variables shown: key, expected, details, value, endpoints. *)
Definition json_vars : list str := [u "key"; u "expected"; u "details"; u "value"; u "endpoints"].
Definition nel_shows (a b c d e : option str) : list (option pyval) := map (option_map VStr) [a; b; c; d; e].
Definition no_key (n : nid) (k : string) : nid * list (option pyval) := (n, nel_shows (Some (u k)) None None None None).
Definition bad_type (n : nid) (k expected : string) : nid * list (option pyval) := (n, nel_shows (Some (u k)) (Some (u expected)) None None None).
Definition bad_value (k details : string) : nid * list (option pyval) := (NEL_BAD_VALUE, nel_shows (Some (u k)) None (Some (u details)) None None).
(** A note if it is the case. *)
Definition due_if (A : Prop) (n : nid * list (option pyval)) (l : list (nid * list (option pyval))) : Prop := A /\ l = [n] \/ ~ A /\ l = [].

Definition required (miss bad : nid) (d : list (str * json)) (k : string) (ok : json -> Prop) (expected : string) (l : list (nid * list (option pyval))) : Prop :=
  exists l1 l2, l = l1 ++ l2 /\ due_if (forall j, ~ has d k j) (no_key miss k) l1 /\ due_if (exists j, has d k j /\ ~ ok j) (bad_type bad k expected) l2.
Definition optional (d : list (str * json)) (k : string) (ok : json -> Prop) (expected : string) : list (nid * list (option pyval)) -> Prop :=
  due_if (exists j, has d k j /\ ~ ok j) (bad_type NEL_BAD_TYPE k expected).
Definition fraction (d : list (str * json)) (k details : string) (l : list (nid * list (option pyval))) : Prop :=
  exists l1 l2, l = l1 ++ l2 /\ optional d k number "number" l1 /\ due_if (exists j, has d k j /\ number j /\ ~ between01 j) (bad_value k details) l2.
(** What is due for one NEL policy. *)
Definition policy_due (j : json) (l : list (nid * list (option pyval))) : Prop :=
  match j with
  | JDict d => exists l1 l2 l3 l4 l5, l = l1 ++ l2 ++ l3 ++ l4 ++ l5
      /\ required NEL_MISSING_KEY NEL_BAD_TYPE d "report_to" text "string" l1
      /\ required NEL_MISSING_KEY NEL_BAD_TYPE d "max_age" whole "integer" l2
      /\ optional d "include_subdomains" yesno "boolean" l3
      /\ fraction d "success_fraction" "itmust be between 0.0 and 1.0" l4
      /\ fraction d "failure_fraction" "it must be between 0.0 and 1.0" l5
  | _ => l = [(NEL_BAD_STRUCTURE, nel_shows None None None None None)]
  end.
(** The endpoint it names. *)
Definition names (j : json) (n : str) : Prop := exists d, j = JDict d /\ has d "report_to" (JStr n) /\ n <> [].
(** Endpoints of the headers whose value is a String; resolved against the base URI it does not have a scheme other than https and wss. *)
Definition secure_endpoint (e : env) (base : str) (headers : list rawline) (n : str) : Prop :=
  values (u "reporting-endpoints") headers <> [] /\ exists d dups m s, e_sf_dict e (sf_text "reporting-endpoints" headers) = SFOk d dups /\ last_of d n m /\ is_string m s /\ ~ insecure e base s.
Definition endpoints_split (e : env) (base : str) (headers : list rawline) : Prop :=
  forall d dups, e_sf_dict e (sf_text "reporting-endpoints" headers) = SFOk d dups -> urls_split e base (map snd d).
(** It can be used: nothing was due for the policy itself, and its endpoint is defined and secure. *)
Definition usable (e : env) (base : str) (headers : list rawline) (j : json) (n : str) : Prop :=
  names j n /\ policy_due j [] /\ secure_endpoint e base headers n.
Definition nel_later_due (e : env) (base : str) (headers : list rawline) (js : list json) (l : list (nid * list (option pyval))) : Prop :=
  exists l1 used l2, l = l1 ++ l2
    /\ each (fun j l => (exists n, names j n /\ ~ endpoint e headers n /\ l = [(NEL_REPORT_TO_MISSING, nel_shows (Some (u "report_to")) None None (Some n) None)])
                       \/ (forall n, names j n -> endpoint e headers n) /\ l = []) js l1
    /\ (exists parts, used = concat parts /\ Forall2 (fun j p => (exists n, usable e base headers j n /\ p = [n]) \/ (forall n, ~ usable e base headers j n) /\ p = []) js parts)
    /\ due_if (used <> []) (NEL_CONFIGURED, nel_shows None None None None (Some (join (u ", ") (map (fun n => u "`" ++ n ++ u "`") used)))) l2.
Definition nel_classes : list nid := [NEL_BAD_STRUCTURE; NEL_MISSING_KEY; NEL_BAD_TYPE; NEL_BAD_VALUE; NEL_CONFIGURED; NEL_REPORT_TO_MISSING].

(** ** Report-To *)
Definition report_to_classes : list nid := [REPORT_TO_BAD_STRUCTURE; REPORT_TO_MISSING_KEY; REPORT_TO_BAD_TYPE].
(** ... of one endpoint, and of one group. *)
Definition target_due (j : json) (l : list (nid * list (option pyval))) : Prop :=
  match j with
  | JDict d => exists l1 l2, l = l1 ++ l2 /\ due_if (forall j, ~ has d "url" j) (no_key REPORT_TO_MISSING_KEY "endpoints[].url") l1
                 /\ due_if (exists j, has d "url" j /\ ~ text j) (bad_type REPORT_TO_BAD_TYPE "endpoints[].url" "string") l2
  | _ => l = [(REPORT_TO_BAD_STRUCTURE, nel_shows None None (Some (u "Endpoints must be objects.")) None None)]
  end.
Definition report_group_due (j : json) (l : list (nid * list (option pyval))) : Prop :=
  match j with
  | JDict d => exists l1 l2 l3, l = l1 ++ l2 ++ l3
      /\ required REPORT_TO_MISSING_KEY REPORT_TO_BAD_TYPE d "max_age" whole "integer" l1
      /\ required REPORT_TO_MISSING_KEY REPORT_TO_BAD_TYPE d "endpoints" (fun j => exists ts, j = JList ts) "list" l2
      /\ ((exists ts, has d "endpoints" (JList ts) /\ each target_due ts l3) \/ (forall ts, ~ has d "endpoints" (JList ts)) /\ l3 = [])
  | _ => l = [(REPORT_TO_BAD_STRUCTURE, nel_shows None None None None None)]
  end.
