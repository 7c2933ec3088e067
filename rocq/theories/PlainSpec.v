(** * Specification of Alt-Svc, Content-Language, Pragma, Server, Server-Timing and Via (C51). *)
From Verif Require Import PyStr Regex Grammar Note PyLib Utils FieldAttrs Types Framework NumLemmas FieldSpec FieldDue CodingSpec.
Open Scope N_scope.

(** The notes about list field [k] as a whole, with what they show: [due] says which, given its members. *)
Definition list_told (k : string) (due : list str -> list (nid * list (option pyval))) (l : list rawline) : list (nid * str * list (option pyval)) :=
  match values (u k) l with
  | [] => []
  | _ => map (fun x => (fst x, about_field (u k), snd x)) (due (members (u k) l))
  end.
Definition told_once (b : bool) (c : nid) (vs : list (option pyval)) : list (nid * list (option pyval)) := if b then [(c, vs)] else [].

(** Alt-Svc: members without an equals sign other than "clear" are dropped; "clear" must be alone. *)
Definition kept_services (ms : list str) : list str := filter (fun m => str_eqb m (u "clear") || has_chr 61 m) ms.
Definition services_due (ms : list str) (l : list (nid * list (option pyval))) : Prop :=
  exists b, l = told_once b ALTSVC_CLEAR_LIST [] /\ (b = true <-> In (u "clear") (kept_services ms) /\ (2 <= List.length (kept_services ms))%nat).
(** Content-Language: one note for each language tag given twice, in any letter case. *)
Definition languages_due (ms : list str) (l : list (nid * list (option pyval))) : Prop :=
  exists twice, l = map (fun x => (CONTENT_LANGUAGE_DUP, [Some (VStr x)])) twice /\ NoDup twice
    /\ forall x, In x twice <-> (2 <= count_occ (list_eq_dec N.eq_dec) (map lower ms) x)%nat.
(** Pragma: one note if there is anything but no-cache. *)
Definition pragma_due (ms : list str) (l : list (nid * list (option pyval))) : Prop :=
  exists b, l = told_once b PRAGMA_OTHER [] /\ (b = true <-> exists m, In m ms /\ lower m <> u "no-cache").
(** Via: always a note, with an HTML list of the members. *)
Definition via_due (ms : list str) : list (nid * list (option pyval)) :=
  [(VIA_PRESENT, [Some (VStr (u "<ul>" ++ join [10] (map (fun m => u "<li><code>" ++ m ++ u "</code></li>") ms) ++ u "</ul>"))])].
(** Server: each member of more than 64 characters. *)
Definition server_due (m : str) (l : list nid) : Prop := exists b, l = only b SERVER_TOO_LONG /\ (b = true <-> (64 < List.length m)%nat).
(** Server-Timing: for each metric, in order. *)
Definition timing_classes : list nid := [SERVER_TIMING_MISSING_DUR; SERVER_TIMING_BAD_PARAM; SERVER_TIMING_MISSING_DESC].
Definition metric_due (e : env) (m : str) (l : list (nid * list (option pyval))) : Prop :=
  let d := parameters e (NoStarList [u "desc"]) m in let name := Some (VStr (strip (before_semi m))) in
  exists b1 b2 b3, l = told_once b1 SERVER_TIMING_MISSING_DUR [name] ++ told_once b2 SERVER_TIMING_BAD_PARAM [name] ++ told_once b3 SERVER_TIMING_MISSING_DESC [name]
    /\ (b1 = true <-> forall s, dget (u "dur") d <> Some (Some s))
    /\ (b2 = true <-> exists s, dget (u "dur") d = Some (Some s) /\ py_float s = None)
    /\ (b3 = true <-> dget (u "desc") d = None).
Definition timing_due (e : env) (ms : list str) (l : list (nid * list (option pyval))) : Prop :=
  exists parts, Forall2 (metric_due e) ms parts /\ l = concat parts.
