(** * Vocabulary for the properties of field lines: C09-C14, C18, C19, C36, C40. *)
From Verif Require Import PyStr Regex NoteTable Note PyLib Utils FieldAttrs Types Framework Checks Message Session LexLemmas ParamLemmas.
Open Scope N_scope.

(** A raw field line is a pair of byte strings; bytes and characters are numbers. *)
Notation rawline := (bytes * bytes)%type.
Definition ascii (b : bytes) : bool := forallb (fun c => c <? 128) b.
(** The name as recorded: without the bytes that are not ASCII; the value: byte for byte. *)
Definition name_of (r : rawline) : str := filter (fun c => c <? 128) (fst r).
Definition value_of (r : rawline) : str := snd r.
(** The name of the field a line belongs to: in lower case. *)
Definition key_of (r : rawline) : str := lower (name_of r).
Definition total_size (l : list rawline) : N := fold_right (fun r n => N.of_nat (length (fst r) + length (snd r)) + n) 0 l.

(** May a field be used in this type of message? (A plain message counts as a response.) *)
Definition allowed (t : mtype) (f : fname) : bool := match t with MRequest => fa_req (attrs f) | _ => fa_resp (attrs f) end.
Definition is_token (s : str) : bool := nonempty s && forallb tchar s.
(** A line is processed if its field is allowed and its name, stripped, is a token. *)
Definition processed (t : mtype) (n : str) : bool := allowed t (find_class n) && is_token (strip n).
(** Lines are numbered from 0; a line that is not processed does not advance the number. *)
Fixpoint numbered (t : mtype) (o : nat) (l : list rawline) : list (rawline * nat) :=
  match l with
  | [] => []
  | r :: rs => (r, o) :: numbered t (if processed t (name_of r) then S o else o) rs
  end.
(** offset-N *)
Definition at_offset (n : nat) : str := u "offset-" ++ dec_nat n.
(** The lines of a section for which [b] holds, by their numbers. *)
Definition lines_where (t : mtype) (b : rawline -> bool) (l : list rawline) : list str :=
  map (fun rn => at_offset (snd rn)) (filter (fun rn => b (fst rn)) (numbered t 0 l)).

(** The different fields of a section, in order of appearance. *)
Definition fields_in (l : list rawline) : list str :=
  fold_left (fun ks r => if str_in (key_of r) ks then ks else ks ++ [key_of r]) l [].
(** The values of a field's lines. *)
Definition values (k : str) (l : list rawline) : list str := map value_of (filter (fun r => str_eqb (key_of r) k) l).
Definition field_lines_of (t : mtype) (k : str) (l : list rawline) : list (rawline * nat) := filter (fun rn => str_eqb (key_of (fst rn)) k) (numbered t 0 l).

(** The subjects of the notes of class [c], in order. *)
Definition subjects (c : nid) (ns : list note) : list str := map n_subj (filter (fun n => nid_eqb (n_cls n) c) ns).

(** [v] is in the language of [g], ignoring surrounding white space and letter case. *)
Definition in_grammar (g : re) (v : str) : Prop :=
  exists a w b w', v = a ++ w ++ b /\ all_space a /\ all_space b /\ lower w' = lower w /\ lang g w'.

(** ** Runs *)
(** A complete linting session, without a Python exception, of a message of type
    [t] received at [start] with the base address [base]; whatever its top line,
    content, options and related message. *)
Definition run_of (e : env) (t : mtype) (start : option Q) (base : str) (headers trailers : list rawline) (m' : mstate) : Prop :=
  exists rel top chunks complete nc head rel',
    lint e rel top headers chunks complete trailers (new_linter t start nc head base) = (m', rel', Ok tt).
(** The parsed value of field [k] in the header or the trailer section. *)
Definition value_in (trailer : bool) (k : str) (m : mstate) : option pyval :=
  dget k (s_parsed (if trailer then m_trailers m else m_headers m)).
(** [k] is not also spelled with white space around it (no parser of HTTP lets such names through). *)
Definition unpadded (k : str) (l : list rawline) : Prop := strip k = k /\ Forall (fun r => strip (key_of r) = k -> key_of r = k) l.
(** The subject of a note about a field as a whole. *)
Definition about_field (k : str) : str :=
  u "field-" ++ lower (match fa_canon (attrs (find_class k)) with Some c => u c | None => strip k end).

(** ** Syntax *)
(** [v] is in the language of the field's grammar, ignoring surrounding white
    space (a field without a declared grammar takes everything). *)
Definition fits (f : fname) (v : str) : Prop :=
  match fa_syntax (attrs f) with
  | None => True
  | Some g => exists a w b, v = a ++ w ++ b /\ all_space a /\ all_space b /\ lang g w
  end.
(** Some beginning of [v] is. *)
Definition begins (f : fname) (v : str) : Prop :=
  match fa_syntax (attrs f) with
  | None => True
  | Some g => exists a w rest, v = a ++ w ++ rest /\ all_space a /\ lang g w
  end.
(** One subject for every element of a processed list field for which [b] holds. *)
Definition elements_where (t : mtype) (b : fname -> str -> bool) (l : list rawline) : list str :=
  flat_map (fun rn => let f := find_class (name_of (fst rn)) in
    if processed t (name_of (fst rn)) && match kind_of f with KList => true | _ => false end
    then map (fun _ => at_offset (snd rn)) (filter (b f) (split_list_field (value_of (fst rn)))) else []) (numbered t 0 l).
(** One for every processed singleton field whose first line [b] holds for. *)
Definition singletons_where (t : mtype) (b : fname -> str -> bool) (l : list rawline) : list str :=
  flat_map (fun k => let f := find_class k in
    if processed t k && match kind_of f with KSingleton => true | _ => false end
    then match values k l with v :: _ => if b f v then [about_field k] else [] | [] => [] end else []) (fields_in l).
