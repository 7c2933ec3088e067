(** * Specification of Content-Range, Range and Accept-Ranges (C45). *)
From Verif Require Import PyStr Regex Note PyLib Utils FieldAttrs Types Framework NumLemmas FieldSpec FieldDue.
Open Scope N_scope.

(** A number: 1 to 4300 ASCII digits, and its decimal value. *)
Definition numeral (s : str) (z : Z) : Prop := digits s /\ N.of_nat (length s) <= 4300 /\ z = Z.of_N (decimal s).
(** What the code takes for a number: also superscript digits, and any length;
    the text is then given up without a note if it is no [numeral]. *)
Definition digit_like (s : str) : Prop := s <> [] /\ Forall (fun c => 48 <= c <= 57 \/ c = 178 \/ c = 179 \/ c = 185) s.
Definition given_up (s : str) : Prop := digit_like s /\ forall z, ~ numeral s z.
(** [s] is [a], then the first [c] of [s], then [b]. *)
Definition cut_at (c : N) (s a b : str) : Prop := s = a ++ c :: b /\ ~ In c a.
Definition star : str := [42].

(** ** Content-Range *)
Inductive length_part : str -> list nid -> option (option Z) -> Prop :=
| len_star : length_part star [CONTENT_RANGE_UNKNOWN_LENGTH] (Some None)
| len_number s z : numeral s z -> length_part s [] (Some (Some z))
| len_given_up s : given_up s -> length_part s [] None
| len_bad s : s <> star -> ~ digit_like s -> length_part s [RANGE_INVALID_INTEGER] None.
Inductive range_part : str -> list nid -> option (option (Z * Z)) -> Prop :=
| rng_star : range_part star [] (Some None)
| rng_pair s a b x y : cut_at 45 s a b -> numeral a x -> numeral b y -> range_part s [] (Some (Some (x, y)))
| rng_given_up s a b : cut_at 45 s a b -> digit_like a -> digit_like b -> given_up a \/ given_up b -> range_part s [] None
| rng_bad s a b : cut_at 45 s a b -> ~ digit_like a \/ ~ digit_like b -> range_part s [RANGE_INVALID_INTEGER] None
| rng_whole s : s <> star -> ~ In 45 s -> range_part s [RANGE_MISSING_HYPHEN] None.
(** The notes of a text in a message ([here]: a response of that status, if any)
    and what it means: unit, range, length. *)
Inductive content_range_of (response : bool) (status : option Z) : str -> list nid -> option (str * option (Z * Z) * option Z) -> Prop :=
| cr_no_unit v : ~ In 32 v -> ~ In 47 v -> content_range_of response status v [] None
| cr_slash_only v : ~ In 32 v -> In 47 v -> content_range_of response status v [CONTENT_RANGE_MISSING_UNIT] None
| cr_no_slash v unit rest : cut_at 32 v unit rest -> ~ In 47 rest -> content_range_of response status v [CONTENT_RANGE_MISSING_SLASH] None
| cr_stars v unit rest : cut_at 32 v unit rest -> cut_at 47 rest star star -> content_range_of response status v [CONTENT_RANGE_INVALID_ASTERISK] None
| cr_bad_length v unit rest r n l : cut_at 32 v unit rest -> cut_at 47 rest r n -> length_part n l None -> content_range_of response status v l None
| cr_bad_range v unit rest r n l n' l' : cut_at 32 v unit rest -> cut_at 47 rest r n -> length_part n l (Some n') -> range_part r l' None ->
    content_range_of response status v (l ++ l') None
| cr_unsatisfied v unit rest n z : cut_at 32 v unit rest -> cut_at 47 rest star n -> numeral n z ->
    content_range_of response status v (only (response && match status with Some s => Z.eqb s 206 | None => false end) CONTENT_RANGE_UNSATISFIED_BAD_SC) (Some (unit, None, Some z))
| cr_full v unit rest r n l n' x y : cut_at 32 v unit rest -> cut_at 47 rest r n -> length_part n l (Some n') -> range_part r [] (Some (Some (x, y))) ->
    content_range_of response status v
      (l ++ only (y <? x)%Z RANGE_INVALID ++ only (match n' with Some z => (z <=? y)%Z | None => false end) RANGE_INVALID) (Some (unit, Some (x, y), n')).
Definition content_range_classes : list nid :=
  [CONTENT_RANGE_MEANINGLESS; CONTENT_RANGE_MISSING_UNIT; CONTENT_RANGE_MISSING_SLASH; CONTENT_RANGE_INVALID_ASTERISK; CONTENT_RANGE_UNKNOWN_LENGTH; CONTENT_RANGE_UNSATISFIED_BAD_SC;
   RANGE_INVALID_INTEGER; RANGE_MISSING_HYPHEN; RANGE_INVALID].

(** ** Range *)
(** One range: first and last position, at least one of them. *)
Definition position (s : str) (z : option Z) : Prop := (s = [] /\ z = None) \/ exists x, numeral s x /\ z = Some x.
Inductive one_range : str -> list nid -> option (option Z * option Z) -> Prop :=
| one_ok s a b x y : cut_at 45 (strip s) a b -> position a x -> position b y -> (x, y) <> (None, None) ->
    one_range s (only (match x, y with Some f, Some l => (l <? f)%Z | _, _ => false end) RANGE_INVALID_range) (Some (x, y))
| one_empty s a b : cut_at 45 (strip s) a b -> a = [] -> b = [] -> one_range s [RANGE_BAD_SYNTAX] None
| one_whole s : ~ In 45 (strip s) -> one_range s [RANGE_BAD_SYNTAX] None
| one_bad_first s a b : cut_at 45 (strip s) a b -> a <> [] -> ~ digit_like a -> one_range s [RANGE_BAD_SYNTAX] None
| one_bad_last s a b x : cut_at 45 (strip s) a b -> position a x -> b <> [] -> ~ digit_like b -> one_range s [RANGE_BAD_SYNTAX] None
| one_given_up s a b : cut_at 45 (strip s) a b -> given_up a \/ (exists x, position a x) /\ given_up b -> one_range s [] None.
(** The ranges of a specifier, up to the first that is no range. *)
Inductive ranges : list str -> list nid -> option (list (option Z * option Z)) -> Prop :=
| ranges_nil : ranges [] [] (Some [])
| ranges_stop s ss l : one_range s l None -> ranges (s :: ss) l None
| ranges_fail s ss l r l' : one_range s l (Some r) -> ranges ss l' None -> ranges (s :: ss) (l ++ l') None
| ranges_cons s ss l r l' rs : one_range s l (Some r) -> ranges ss l' (Some rs) -> ranges (s :: ss) (l ++ l') (Some (r :: rs)).
Inductive range_of : str -> list nid -> option (str * list (option Z * option Z)) -> Prop :=
| range_no_unit v : ~ In 61 v -> range_of v [RANGE_BAD_SYNTAX] None
| range_bad v unit rest l : cut_at 61 v unit rest -> ranges (split_all 44 rest) l None -> range_of v l None
| range_ok v unit rest l rs : cut_at 61 v unit rest -> ranges (split_all 44 rest) l (Some rs) -> range_of v l (Some (unit, rs)).
Definition range_classes : list nid := [RANGE_BAD_SYNTAX; RANGE_INVALID_range].

(** ** Accept-Ranges *)
Definition accept_ranges_due (v : str) : list nid := only (negb (one_of ["bytes"%string; "none"%string] (lower v))) UNKNOWN_RANGE.
