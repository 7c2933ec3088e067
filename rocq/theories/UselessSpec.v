(** * Specification of the notes on fields that can be removed (C65). *)
From Verif Require Import PyStr PyLib NoteTable Note Utils Types FieldSpec FieldDue ClockSpec.
Open Scope N_scope.
Definition removable : list string :=
  ["tcn"; "x-aspnet-version"; "x-aspnetmvc-version"; "x-powered-by"; "x-generator"; "x-drupal-cache"; "x-varnish"; "x-mod-pagespeed"; "x-pingback";
   "x-runtime"; "x-rack-cache"; "x-content-encoded-by"; "x-backend-server"]%string.
(** The name of the first line of a field, as written. *)
Definition spelling (k : str) (l : list rawline) : str :=
  match find (fun r => str_eqb (key_of r) k) l with Some r => strip (name_of r) | None => k end.
(** One note for each element of each processed line, about that line, showing the
    name as the field's first line in the section [l] spells it. *)
Definition removable_says (t : mtype) (l : list rawline) : list tale :=
  flat_map (fun rn : rawline * nat =>
    if one_of removable (key_of (fst rn)) && processed t (name_of (fst rn)) then
      map (fun _ => (UNNECESSARY_HEADER, at_offset (snd rn), [Some (VStr (spelling (key_of (fst rn)) l))])) (split_list_field (value_of (fst rn)))
    else []) (numbered t 0 l).
