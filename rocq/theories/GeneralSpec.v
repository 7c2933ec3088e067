(** * Specification of what the general notes about fields show (C67). *)
From Verif Require Import PyStr Regex Grammar Note PyLib Utils FieldAttrs Types Framework LexLemmas ParamLemmas FieldSpec ClockSpec.
Open Scope N_scope.

Definition general_classes : list nid :=
  [BAD_SYNTAX_DETAILED; BAD_SYNTAX; FIELD_DEPRECATED; FIELD_TOO_LARGE; FIELD_SECTION_TOO_LARGE; DUPLICATE_KEY; STRUCTURED_FIELD_PARSE_ERROR; BAD_JSON].
Definition general_keys : list str := map u ["ref_uri"; "value"; "problem"; "deprecation_ref"; "field_size"; "section_size"; "key"; "context"; "error"]%string.
(** A note of class [c] about [s] that shows exactly these values. *)
Definition shown_value (l : list (string * str)) (k : str) : option pyval :=
  match find (fun x => str_eqb k (u (fst x))) l with Some x => Some (VStr (snd x)) | None => None end.
Definition shows (c : nid) (s : str) (l : list (string * str)) : tale := (c, s, map (shown_value l) general_keys).

(** The reference of a field: for a deprecated one without a module of its own, that of the table of deprecated fields. *)
Definition reference (k : str) : str :=
  u match find_class k with
    | F__deprecated => match slookup (strip k) deprecated_fields with Some (_, _, r) => r | None => ""%string end
    | f => fa_ref (attrs f)
    end.
(** The text around a position, with a mark below it: at most [w] characters before it and [w] from it on. *)
Definition excerpt (w : nat) (s : str) (p : nat) : str :=
  [10; 10] ++ repeat 32 4 ++ skipn (p - w) (firstn (p + w) s) ++ [10] ++ repeat 32 4 ++ repeat 32 (Nat.min p w) ++ [94].

(** ** A line *)
(** [pre] is white space and a word of the field's grammar. *)
Definition opens (f : fname) (pre : str) : Prop :=
  match fa_syntax (attrs f) with Some g => exists a w, pre = a ++ w /\ all_space a /\ lang g w | None => False end.
Definition element_says (k s v : str) (l : list tale) : Prop :=
  let f := find_class k in
  fits f v /\ l = []
  \/ ~ fits f v /\ (exists pre ch rest, v = pre ++ ch :: rest /\ opens f pre
       /\ l = [shows BAD_SYNTAX_DETAILED s [("ref_uri"%string, reference k); ("value"%string, v);
                 ("problem"%string, u "The invalid character '" ++ [ch] ++ u "' was found at position " ++ dec_nat (S (length pre)) ++ u ":" ++ excerpt 20 v (length pre))]])
  \/ ~ fits f v /\ ~ begins f v /\ l = if fa_report (attrs f) then [shows BAD_SYNTAX s [("ref_uri"%string, reference k)]] else [].
Definition line_says (t : mtype) (rn : rawline * nat) (l : list tale) : Prop :=
  let k := key_of (fst rn) in
  let f := find_class k in
  let s := at_offset (snd rn) in
  let size := N.of_nat (length (fst (fst rn)) + length (snd (fst rn))) in
  if processed t k then
    exists parts, Forall2 (element_says k s) (match kind_of f with KList => split_list_field (value_of (fst rn)) | _ => [] end) parts
      /\ l = (if fa_dep (attrs f) then [shows FIELD_DEPRECATED s [("deprecation_ref"%string, reference k)]] else [])
             ++ concat parts
             ++ (if 8192 <? size then [shows FIELD_TOO_LARGE s [("field_size"%string, f_num (Z.of_N size))]] else [])
  else l = [].

(** ** A field *)
Definition duplicates (s : str) (d : list (str * str)) : list tale := map (fun kc => shows DUPLICATE_KEY s [("key", fst kc); ("context", snd kc)]%string) d.
(** What the library for structured fields answers about a text. *)
Definition answer_says {A} (s text : str) (r : sfres A) : list tale :=
  match r with
  | SFOk _ d => duplicates s d
  | SFErr d problem pos =>
      duplicates s d ++ [shows STRUCTURED_FIELD_PARSE_ERROR s [("problem", problem); ("context", match pos with Some p => excerpt 35 text p | None => [] end)]%string]
  | SFOther d problem => duplicates s d ++ [shows STRUCTURED_FIELD_PARSE_ERROR s [("problem", problem); ("context", [])]%string]
  end.
Definition field_says (e : env) (t : mtype) (raws : list rawline) (k : str) (l : list tale) : Prop :=
  let f := find_class k in
  let s := about_field k in
  let vals := values k raws in
  if processed t k then
    match kind_of f with
    | KSingleton =>
        exists v more, vals = v :: more
          /\ (fits f v /\ l = [] \/ ~ fits f v /\ l = if fa_report (attrs f) then [shows BAD_SYNTAX s [("ref_uri"%string, reference k)]] else [])
    | KSF ty =>
        let text := strip (join (u ", ") vals) in
        l = match ty with
            | SFItem => answer_says s text (e_sf_item e text)
            | SFList => answer_says s text (e_sf_list e text)
            | SFDict => answer_says s text (e_sf_dict e text)
            end
    | KJson => l = match e_json e (u "[" ++ join (u ", ") vals ++ u "]") with JErr msg => [shows BAD_JSON s [("error"%string, msg)]] | _ => [] end
    | _ => l = []
    end
  else l = [].

(** ** A section: its lines, its size, its fields. *)
Definition section_says (e : env) (t : mtype) (raws : list rawline) (l : list tale) : Prop :=
  exists parts fparts,
    Forall2 (line_says t) (numbered t 0 raws) parts
    /\ Forall2 (field_says e t raws) (fields_in raws) fparts
    /\ l = concat parts
           ++ (if 32768 <? total_size raws then [shows FIELD_SECTION_TOO_LARGE (u "field-block") [("section_size"%string, f_num (Z.of_N (total_size raws)))]] else [])
           ++ concat fparts.
