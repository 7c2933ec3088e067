(** * What may differ between two runs of the same program *)
From Coq Require Import Permutation.
From Verif Require Import PyStr NoteTable Note Utils Types Framework.
Open Scope N_scope.

(** The same libraries, with another iteration order of Python's sets of strings
    (each Python process draws its own hash seed). *)
Definition with_order (order : str -> N) (e : env) : env :=
  mkEnv (e_sf_item e) (e_sf_list e) (e_sf_dict e) (e_json e) (e_urlsplit e) (e_urljoin e) (e_quote e) (e_unquote e)
    (e_unsplit e) (e_idna e) (e_utf8 e) (e_codec e) (e_decode e) (e_chardet e) (e_sniff e) order (e_b64 e) (e_md5 e)
    (e_float_str e) (e_reltime e) (e_repr e) (e_display e) (e_inflate e) (e_brotli e).

(** The classes of notes whose order among themselves a run may choose. *)
Definition unordered : list nid :=
  [CC_CONFLICTING; CC_WRONG_MESSAGE; CC_DUP; CONTENT_LANGUAGE_DUP; TRANSFER_CODING_UNWANTED].
Definition ordered_notes (ns : list note) : list note := filter (fun n => negb (existsb (nid_eqb (n_cls n)) unordered)) ns.
Definition unordered_notes (ns : list note) : list note := filter (fun n => existsb (nid_eqb (n_cls n)) unordered) ns.

(** The same note; the items of CC_CONFLICTING's list of conflicting directives
    may come in another order. *)
Definition same_note_but_order (n n' : note) : Prop :=
  n' = n
  \/ n_cls n = CC_CONFLICTING /\ n_cls n' = CC_CONFLICTING /\ n_subj n' = n_subj n /\ n_cat n' = n_cat n /\ n_kids n' = n_kids n
     /\ (forall k, k <> u "conflicts" -> dget k (n_vars n') = dget k (n_vars n))
     /\ exists l l', Permutation l l' /\ dget (u "conflicts") (n_vars n) = Some (markdown_list l (u "`"))
          /\ dget (u "conflicts") (n_vars n') = Some (markdown_list l' (u "`")).
Definition rearranged {A} (R : A -> A -> Prop) (l l' : list A) : Prop := exists l0, Permutation l l0 /\ Forall2 R l0 l'.

(** The same notes: in the same order, but for those of the classes above. *)
Definition same_notes (ns ns' : list note) : Prop :=
  ordered_notes ns' = ordered_notes ns /\ rearranged same_note_but_order (unordered_notes ns) (unordered_notes ns').
(** The same linter but for that. *)
Definition same_linter (m m' : mstate) : Prop := m' = m_set_notes (m_notes m') m /\ same_notes (m_notes m) (m_notes m').
Definition same_related (r r' : option mstate) : Prop :=
  match r, r' with None, None => True | Some m, Some m' => same_linter m m' | _, _ => False end.
