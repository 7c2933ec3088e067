(** * Specification of what notes show (C55): for each note of a field, the variables that
    name the text at fault. *)
From Verif Require Import PyStr Regex Grammar Note PyLib Utils FieldAttrs Types Framework NumLemmas FieldSpec ListSpec FieldDue RangeSpec OriginSpec CodingSpec PrefSpec PlainSpec LinkSpec.
Open Scope N_scope.

(** The notes of a section about a singleton field, and about members of a list field, with what they show. *)
Definition single_told (k : string) (due : str -> list (nid * list (option pyval))) (l : list rawline) : list (nid * str * list (option pyval)) :=
  match first_line (u k) l with Some v => map (fun x => (fst x, about_field (u k), snd x)) (due v) | None => [] end.
Definition member_told (t : mtype) (k : string) (due : str -> list (nid * list (option pyval))) (l : list rawline) : list (nid * str * list (option pyval)) :=
  flat_map (fun rn => flat_map (fun v => map (fun x => (fst x, at_offset (snd rn), snd x)) (due (strip v))) (split_list_field (value_of (fst rn)))) (field_lines_of t (u k) l).
Definition text (s : str) : option pyval := Some (VStr s).
(** Every note due shows what [shows] demands. *)
Definition showing {V} (shows : V -> nid -> list (option pyval) -> Prop) (due : V -> list (nid * list (option pyval))) : Prop := forall v c w, In (c, w) (due v) -> shows v c w.

(** Content-Range ("value"): the length that is no number, or else the range without a hyphen or its first part that is no number. *)
Definition at_fault (v : str) (c : nid) (x : str) : Prop :=
  exists unit rest r n, cut_at 32 v unit rest /\ cut_at 47 rest r n
    /\ ((c = RANGE_INVALID_INTEGER /\ x = n /\ n <> star /\ ~ digit_like n)
        \/ ((n = star \/ exists z, numeral n z)
            /\ ((c = RANGE_MISSING_HYPHEN /\ x = r /\ r <> star /\ ~ In 45 r)
                \/ (c = RANGE_INVALID_INTEGER /\ exists a b, cut_at 45 r a b /\ ((x = a /\ ~ digit_like a) \/ (x = b /\ digit_like a /\ ~ digit_like b)))))).
Definition content_range_shows (v : str) (c : nid) (w : list (option pyval)) : Prop :=
  match c with RANGE_INVALID_INTEGER | RANGE_MISSING_HYPHEN => exists x, w = [text x] /\ at_fault v c x | _ => w = [None] end.
(** Range ("problem"). *)
Definition range_shows (v : str) (c : nid) (w : list (option pyval)) : Prop :=
  match c with
  | RANGE_BAD_SYNTAX => exists p, w = [text (u p)] /\
      ((p = "the range specifier must contain an equals sign"%string /\ ~ In 61 v)
       \/ exists unit rest s, cut_at 61 v unit rest /\ In s (split_all 44 rest)
           /\ ((p = "the range specifier must contain a hyphen"%string /\ ~ In 45 (strip s))
               \/ exists a b, cut_at 45 (strip s) a b
                  /\ ((p = "the first position in the range must be an integer"%string /\ a <> [] /\ ~ digit_like a)
                      \/ (p = "the last position in the range must be an integer"%string /\ b <> [] /\ ~ digit_like b)
                      \/ (p = "at least one of the first or last positions must be specified"%string /\ a = [] /\ b = []))))
  | _ => w = [None]
  end.
(** Accept-Ranges ("range"). *)
Definition accept_ranges_shows (v : str) (c : nid) (w : list (option pyval)) : Prop := w = [text (lower v)].
(** Content-Disposition ("disposition"). *)
Definition disposition_shows (v : str) (c : nid) (w : list (option pyval)) : Prop :=
  w = [match c with DISPOSITION_UNKNOWN => text (lower (before_semi v)) | _ => None end].
(** Cross-Origin-Resource-Policy ("value"). *)
Definition corp_shows (v : str) (c : nid) (w : list (option pyval)) : Prop := w = [match c with CROSS_ORIGIN_RESOURCE_POLICY_BAD_VALUE => text v | _ => None end].
(** Expect ("expectation"): the members that are not known, in order. *)
Definition expect_shows (ms : list str) (c : nid) (w : list (option pyval)) : Prop :=
  w = [match c with EXPECT_UNKNOWN => text (join (u ", ") (filter (fun x => negb (one_of ["100-continue"%string] (lower x))) ms)) | _ => None end].
(** Location ("full_uri"): the value resolved against the base URI. *)
Definition location_shows (joined : str -> res str) (v : str) (c : nid) (w : list (option pyval)) : Prop :=
  match c with LOCATION_NOT_ABSOLUTE => exists full, joined v = Ok full /\ w = [text full] | _ => w = [None] end.
(** Origin ("value"): the text before the first space. *)
Definition origin_shows (v : str) (c : nid) (w : list (option pyval)) : Prop :=
  match c with BAD_ORIGIN_SYNTAX => exists o, first_word v o /\ w = [text o] | _ => w = [None] end.
(** Accept ("media_type", "value"), Accept-Patch and Accept-Post ("value"), and Accept-Language ("language"). *)
Definition accept_shows (v : str) (c : nid) (w : list (option pyval)) : Prop := w = match c with BAD_Q_VALUE => [text (type_of v); None] | _ => [None; text (type_of v)] end.
Definition type_shows (v : str) (c : nid) (w : list (option pyval)) : Prop := w = [text (type_of v)].
Definition language_shows (v : str) (c : nid) (w : list (option pyval)) : Prop := w = [match c with BAD_Q_VALUE_accept_language => text (lower (before_semi v)) | _ => None end].
(** Server ("server_string"). *)
Definition server_shows (v : str) (c : nid) (w : list (option pyval)) : Prop := w = [text v].
(** Link ("link", "rev", "anchor", "type"). *)
Definition link_shows (e : env) (v : str) (c : nid) (w : list (option pyval)) : Prop :=
  let got k x := dget (u k) (link_params e v) = Some x in let tg := text (link_target v) in
  match c with
  | LINK_REV => exists r, got "rev"%string r /\ w = [tg; text (match r with Some s => s | None => u "None" end); None; None]
  | LINK_BAD_ANCHOR => exists a, got "anchor"%string (Some a) /\ w = [tg; None; text a; None]
  | LINK_BAD_TYPE => exists y, got "type"%string (Some y) /\ w = [tg; None; None; text y]
  | _ => False
  end.
(** Cache-Control ("directive_lower", "value", "expected_type", "other_message", "conflicts"), about one element; *)
Definition cc_shows (v : str) (c : nid) (w : list (option pyval)) : Prop :=
  match c with
  | CC_MISCAP => w = [text (cc_name v); None; None; None; None]
  | CC_BAD_VALUE_TYPE => w = [None; Some (match snd (cut v) with Some s => VStr s | None => VNone end); text (u "integer"); None; None]
  | _ => w = [None; None; None; None; None]
  end.
(** about the field: in which messages the directive is used; which of the directives that count are overridden, each once. *)
Definition counting (ms : list str) : list str := map cc_name (filter (fun v => match cc_value v with Some _ => true | None => false end) ms).
Definition cc_whole_shows (t : mtype) (ms : list str) (c : nid) (w : list (option pyval)) : Prop :=
  match c with
  | CC_WRONG_MESSAGE => w = [None; None; None; text (u (match t with MRequest => "response" | _ => "request" end)); None]
  | CC_CONFLICTING => exists d pot l, In (d, pot) overrides /\ In (u d) (counting ms) /\ NoDup l /\ (forall x, In x l <-> In x (map u pot) /\ In x (counting ms))
                       /\ w = [None; None; None; None; Some (markdown_list l [96])]
  | _ => w = [None; None; None; None; None]
  end.
(** Vary ("vary_count"): how many different names. *)
Definition vary_shows (ms : list str) (c : nid) (w : list (option pyval)) : Prop :=
  match c with
  | VARY_COMPLEX => exists names, NoDup names /\ (forall x, In x names <-> In x (map lower ms)) /\ w = [text (dec_Z (Z.of_nat (List.length names)))]
  | _ => w = [None]
  end.
(** Referrer-Policy ("policy", "effective"): the unknown policy; of the known ones, the last. *)
Definition referrer_shows (known : list string) (ms : list str) (c : nid) (w : list (option pyval)) : Prop :=
  match c with
  | REFERRER_POLICY_UNKNOWN => exists p, In p (map lower ms) /\ one_of known p = false /\ w = [text p; None]
  | REFERRER_POLICY_MULTIPLE => exists a p b, map lower ms = a ++ p :: b /\ one_of known p = true /\ forallb (fun x => negb (one_of known x)) b = true /\ w = [None; text p]
  | REFERRER_POLICY_STRICT => exists a p b, map lower ms = a ++ p :: b /\ one_of known p = true /\ forallb (fun x => negb (one_of known x)) b = true /\ w = [text p; None]
  | _ => w = [None; None]
  end.
