(** * Specification of the categories of notes (C74). *)
From Verif Require Import PyStr Note NoteTable PyLib Utils FieldAttrs Types Framework FieldSpec.
Open Scope N_scope.

(** The category of a field; that of a deprecated field without a module of its own is in the table of deprecated fields. *)
Definition category_of (k : str) : category :=
  match find_class k with
  | F__deprecated => match slookup (strip k) deprecated_fields with Some (_, c, _) => c | None => GENERAL end
  | f => fa_cat (attrs f)
  end.
(** The general notes that are filed with the field they are about ... *)
Definition with_field : list nid :=
  [REQUEST_HDR_IN_RESPONSE; RESPONSE_HDR_IN_REQUEST; FIELD_DEPRECATED; BAD_SYNTAX_DETAILED; STRUCTURED_FIELD_PARSE_ERROR; BAD_JSON].
(** ... and those that are not. *)
Definition apart_from_field : list nid :=
  [FIELD_NAME_BAD_SYNTAX; FIELD_NAME_ENCODING; FIELD_VALUE_ENCODING; FIELD_TOO_LARGE; FIELD_SECTION_TOO_LARGE; SINGLE_HEADER_REPEAT; DUPLICATE_KEY].
(** A note about line [o], a line of the field [k]; a note about the field [k]. *)
Definition about_a_line (t : mtype) (raws : list rawline) (n : note) (k : str) : Prop :=
  exists r o, In (r, o) (numbered t 0 raws) /\ n_subj n = at_offset o /\ k = key_of r.
Definition about_a_field (raws : list rawline) (n : note) (k : str) : Prop := In k (fields_in raws) /\ n_subj n = about_field k.
Definition filed (t : mtype) (headers trailers : list rawline) (n : note) : Prop :=
  (nid_category (n_cls n) <> GENERAL -> n_cat n = nid_category (n_cls n))
  /\ (In (n_cls n) with_field -> exists raws k, (raws = headers \/ raws = trailers) /\ (about_a_line t raws n k \/ about_a_field raws n k) /\ n_cat n = category_of k)
  /\ (In (n_cls n) apart_from_field -> n_cat n = GENERAL)
  (* BAD_SYNTAX: with the field if it is about a line (of a list field), not if it is about the field (which has one value) *)
  /\ (n_cls n = BAD_SYNTAX -> exists raws k, (raws = headers \/ raws = trailers)
        /\ (about_a_line t raws n k /\ n_cat n = category_of k \/ about_a_field raws n k /\ n_cat n = GENERAL)).
