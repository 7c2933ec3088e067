(** * Specification of Clear-Site-Data (C61). *)
From Verif Require Import PyStr NoteTable Note PyLib Utils FieldAttrs Types FieldSpec FieldDue PlainSpec ShowSpec.
Open Scope N_scope.

Definition clear_known : list str := [u "cache"; u "cookies"; u "storage"; u "executionContexts"; u "*"].
(** A member in double quotes. *)
Definition in_quotes (m d : str) : Prop := m = [34] ++ d ++ [34].
(** The kind of data a member names. *)
Definition data_of (m d : str) : Prop := in_quotes m d \/ ((forall x, ~ in_quotes m x) /\ d = m).
(** It should have been in quotes. *)
Definition bare_data (m : str) : Prop := In m clear_known /\ forall x, ~ in_quotes m x.
(** The note about one member ("value" and "values" are shown). *)
Definition member_clear (m : str) (l : list (nid * list (option pyval))) : Prop :=
  exists d, data_of m d /\
    ((d = [] /\ l = [(CSD_EMPTY, [None; None])])
     \/ (d <> [] /\ ~ In d clear_known /\ l = [(CSD_UNKNOWN_VALUE, [text d; None])])
     \/ (In d clear_known /\ l = [])).
(** The notes about the field: the members without quotes; nothing to clear; what is cleared. *)
Definition whole_clear (ms : list str) (l : list (nid * list (option pyval))) : Prop :=
  exists bare ds,
    (exists b, (forall m, b m = true <-> bare_data m) /\ bare = filter b ms)
    /\ Forall2 data_of ms ds
    /\ exists cleared, (exists b, (forall d, b d = true <-> In d clear_known /\ ~ In d bare) /\ cleared = filter b ds)
    /\ l = (match bare with [] => [] | _ => [(CSD_UNQUOTED, [None; text (join (u ", ") bare)])] end)
           ++ match ms, cleared with
              | [], _ => [(CSD_EMPTY, [None; None])]
              | _, [] => []
              | _, _ => [(CSD_PRESENT, [None; text (join (u ", ") (map (fun d => u "`" ++ d ++ u "`") cleared))])]
              end.
