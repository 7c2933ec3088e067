(** * Specification vocabulary: the notes due for one field of a section. *)
From Verif Require Import PyStr Regex Note PyLib Utils FieldAttrs Types Framework FieldSpec.
Open Scope N_scope.

(** The text of a singleton field: its first line, without surrounding whitespace. *)
Definition first_line (k : str) (l : list rawline) : option str := match values k l with v :: _ => Some (strip v) | [] => None end.
(** The members of a list field: those of all its lines, in order, without surrounding whitespace. *)
Definition members (k : str) (l : list rawline) : list str := map strip (flat_map split_list_field (values k l)).
(** The notes (class and subject) about the field as a whole, in one section. *)
Definition single_due (k : str) (due : str -> list nid) (l : list rawline) : list (nid * str) :=
  match first_line k l with Some v => map (fun c => (c, about_field k)) (due v) | None => [] end.
Definition list_due (k : str) (due : list str -> list nid) (l : list rawline) : list (nid * str) :=
  match values k l with [] => [] | _ => map (fun c => (c, about_field k)) (due (members k l)) end.
(** The notes about single members of a list field, at the lines they are in. *)
Definition member_due (t : mtype) (k : str) (due : str -> list nid) (l : list rawline) : list (nid * str) :=
  flat_map (fun rn => flat_map (fun v => map (fun c => (c, at_offset (snd rn))) (due (strip v))) (split_list_field (value_of (fst rn)))) (field_lines_of t k l).
(** [s] occurs in [t]. *)
Definition occurs (s t : str) : Prop := exists a b, t = a ++ s ++ b.
Definition one_of (l : list string) (s : str) : bool := existsb (fun x => str_eqb s (u x)) l.
Definition only (b : bool) (c : nid) : list nid := if b then [c] else [].
