(** * Specification of Content-Security-Policy and Content-Security-Policy-Report-Only (C60). *)
From Verif Require Import PyStr NoteTable Note PyLib Utils FieldAttrs Types FieldSpec FieldDue KidSpec.
Open Scope N_scope.

(** ** The directives of a policy *)
Fixpoint up_to_space (s : str) : str := match s with [] => [] | c :: s' => if isspace c then [] else c :: up_to_space s' end.
Fixpoint from_space (s : str) : str := match s with [] => [] | c :: s' => if isspace c then s else from_space s' end.
(** The directives a policy states: name in lower case, and value. *)
Definition stated (policy : str) : list (str * str) :=
  flat_map (fun d => let d := strip d in match d with [] => [] | _ => [(lower (up_to_space d), lstrip (from_space d))] end) (split_all 59 policy).
(** Those in force are the first of each name; the names of the others are repeated. *)
Fixpoint split_first (before : list str) (l : list (str * str)) : list (str * str) * list str :=
  match l with
  | [] => ([], [])
  | (n, v) :: l' => let '(a, b) := split_first (n :: before) l' in if existsb (str_eqb n) before then (a, n :: b) else ((n, v) :: a, b)
  end.
Definition in_force (policy : str) : list (str * str) := fst (split_first [] (stated policy)).
Definition repeated (policy : str) : list str := snd (split_first [] (stated policy)).

(** ** Weaknesses *)
(** [w] is one of the words of [v]. *)
Definition word_of (w v : str) : Prop :=
  exists a b, v = a ++ w ++ b /\ w <> [] /\ forallb (fun c => negb (isspace c)) w = true
    /\ (a = [] \/ exists a' c, a = a' ++ [c] /\ isspace c = true) /\ (b = [] \/ exists c b', b = c :: b' /\ isspace c = true).
Definition is_wide (d : str * str) : Prop := In (fst d) [u "script-src"; u "style-src"; u "object-src"] /\ word_of (u "*") (snd d).
Definition is_inline (d : str * str) : Prop := occurs (u "'unsafe-inline'") (snd d).
Definition is_eval (d : str * str) : Prop := occurs (u "'unsafe-eval'") (snd d).
Definition is_http (d : str * str) : Prop := word_of (u "http:") (snd d).
Record weaknesses := { wide : str * str -> bool; inline : str * str -> bool; evals : str * str -> bool; http : str * str -> bool }.
Definition decides {A} (f : A -> bool) (Q : A -> Prop) : Prop := forall x, f x = true <-> Q x.
Definition weak_ok (w : weaknesses) : Prop := decides (wide w) is_wide /\ decides (inline w) is_inline /\ decides (evals w) is_eval /\ decides (http w) is_http.

(** ** The notes *)
(** Variables shown: report_only, report_only_text, directives_list, endpoint. *)
Definition csp_vars : list str := [u "report_only"; u "report_only_text"; u "directives_list"; u "endpoint"].
Definition csp_names : list str := [u "content-security-policy"; u "content-security-policy-report-only"].
Definition for_reports (k : str) : bool := str_eqb k (u "content-security-policy-report-only").
Definition only_words (k : str) : str := if for_reports k then u " for reporting only" else [].
Definition only_note (k : str) : str := if for_reports k then [10; 10] ++ u "Browsers will only report violations of this policy, not enforce it." else [].
(** A Markdown list of names in backticks. *)
Definition bullets (l : list str) : pyval := VMd (join [10] (map (fun n => u "* `" ++ filter (fun c => negb (c =? 96)) n ++ u "`") l)).
Definition sub_note (k : str) (n : nid) (names : list str) : nid * list (option pyval) := (n, [Some (VStr (only_words k)); Some (VStr (only_note k)); Some (bullets names); None]).
Definition sub_if (k : str) (n : nid) (names : list str) : list (nid * list (option pyval)) := match names with [] => [] | _ => [sub_note k n names] end.
(** The sub-notes of a field with these policies. *)
Definition csp_subs (w : weaknesses) (k : str) (policies : list str) : list (nid * list (option pyval)) :=
  let ds := flat_map in_force policies in
  flat_map (fun p => sub_if k CSP_DUPLICATE_DIRECTIVE (repeated p)) policies
  ++ (if existsb (fun d => str_eqb (fst d) (u "report-uri")) ds then [(CSP_DEPRECATED_REPORT_URI, [Some (VStr (only_words k)); Some (VStr (only_note k)); None; None])] else [])
  ++ sub_if k CSP_WIDE_OPEN (map fst (filter (wide w) ds)) ++ sub_if k CSP_UNSAFE_INLINE (map fst (filter (inline w) ds))
  ++ sub_if k CSP_UNSAFE_EVAL (map fst (filter (evals w) ds)) ++ sub_if k CSP_HTTP_URI (map fst (filter (http w) ds)).
(** One note for each of the two fields in a section that has at least one policy, in the order the fields come. *)
Definition csp_fields (l : list rawline) : list str := filter (fun k => existsb (str_eqb k) csp_names) (fields_in l).
Definition csp_main (w : weaknesses) (l : list rawline) : list heard_note :=
  flat_map (fun k => match members k l with
                     | [] => []
                     | ps => [(CONTENT_SECURITY_POLICY, about_field k, [Some (VStr (only_words k)); Some (VStr (only_note k)); None; None], csp_subs w k ps)]
                     end) (csp_fields l).
(** The endpoints named by report-to that are not known, with the field's text. *)
Definition csp_missing (known : str -> bool) (l : list rawline) : list (str * str) :=
  flat_map (fun k => map (fun d => (snd d, only_note k)) (filter (fun d => str_eqb (fst d) (u "report-to") && negb (known (snd d))) (flat_map in_force (members k l)))) (csp_fields l).
(** They are sub-notes of the first note, whichever field they come from. *)
Definition with_missing (ms : list (str * str)) (ns : list heard_note) : list heard_note :=
  match ns with
  | (n, s, vs, subs) :: ns' => (n, s, vs, subs ++ map (fun m => (CSP_REPORT_TO_MISSING, [nth 0 vs None; Some (VStr (snd m)); None; Some (VStr (fst m))])) ms) :: ns'
  | [] => []
  end.
