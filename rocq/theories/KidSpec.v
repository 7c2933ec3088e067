(** * Notes with the sub-notes under them (C54 and later). *)
From Verif Require Import PyStr Note Types.
Open Scope N_scope.

(** A note: its class, subject, some of its variables, and the classes and variables of its sub-notes. *)
Definition heard_note : Type := nid * str * list (option pyval) * list (nid * list (option pyval)).
Definition deep (ks : list str) (n : note) : heard_note :=
  (n_cls n, n_subj n, map (fun k => dget k (n_vars n)) ks, map (fun kd => (fst kd, map (fun k => dget k (snd kd)) ks)) (n_kids n)).
Definition heard_deep (P : nid -> bool) (ks : list str) (ns : list note) : list heard_note := map (deep ks) (filter (fun n => P (n_cls n)) ns).
