(** * Specification of Vary (C31) and Cache-Control (C30). *)
From Verif Require Import PyStr NoteTable Note PyLib Utils FieldAttrs Types FieldSpec.
Open Scope N_scope.

(** Each text once, at its first place. *)
Fixpoint once_each (l : list str) : list str :=
  match l with
  | [] => []
  | x :: l' => x :: filter (fun y => negb (str_eqb y x)) (once_each l')
  end.
Definition has_name (l : list str) (n : string) : bool := existsb (str_eqb (u n)) l.
(** The classes whose conditions hold. *)
Definition due (l : list (nid * bool)) : list nid := map fst (filter snd l).

(** ** Vary *)
(** The names listed in the lines [vs] of a Vary field, in lower case. *)
Definition vary_names (vs : list str) : list str := map (fun v => lower (strip v)) (flat_map split_list_field vs).
Definition vary_classes : list nid := [VARY_DUPLICATE; VARY_ASTERISK; VARY_COMPLEX; VARY_USER_AGENT; VARY_HOST; VARY_NEGOTIATE].
Definition vary_due (names : list str) : list nid :=
  let once := once_each names in
  due [(VARY_DUPLICATE, negb (length once =? length names)%nat); (VARY_ASTERISK, has_name once "*"); (VARY_COMPLEX, (3 <? length once)%nat);
       (VARY_USER_AGENT, has_name once "user-agent"); (VARY_HOST, has_name once "host"); (VARY_NEGOTIATE, has_name once "negotiate")].

(** ** Cache-Control *)
(** [cut s]: before and after the first "=". *)
Fixpoint cut (s : str) : str * option str :=
  match s with
  | [] => ([], None)
  | c :: s' => if c =? 61 then ([], Some s') else let '(a, b) := cut s' in (c :: a, b)
  end.
(** Directives that take a number, none, or a quoted list of fields. *)
Definition numeric : list string := ["max-age"; "max-stale"; "min-fresh"; "s-maxage"; "stale-if-error"; "stale-while-revalidate"; "pre-check"; "post-check"]%string.
Definition flags : list string := ["immutable"; "must-revalidate"; "must-understand"; "no-store"; "no-transform"; "only-if-cached"; "proxy-revalidate"; "public"]%string.
Definition listing : list string := ["no-cache"; "private"]%string.
Definition is_one_of (l : list string) (d : str) : bool := existsb (fun s => str_eqb (u s) d) l.
Definition a_known (d : str) : bool := is_one_of (numeric ++ flags ++ listing) d.
(** Those that may not be used in requests, in responses. *)
Definition response_only : list string :=
  ["immutable"; "must-revalidate"; "must-understand"; "private"; "proxy-revalidate"; "public"; "s-maxage"; "stale-if-error";
   "stale-while-revalidate"; "pre-check"; "post-check"]%string.
Definition request_only : list string := ["max-stale"; "min-fresh"; "only-if-cached"]%string.
Definition misplaced (t : mtype) (d : str) : bool :=
  match t with MRequest => is_one_of response_only d | MResponse => is_one_of request_only d | MMessage => false end.
(** What each overrides, the most significant first. *)
Definition overrides : list (string * list string) :=
  [("no-store", ["immutable"; "max-age"; "must-revalidate"; "no-cache"; "private"; "proxy-revalidate"; "public"; "s-maxage"; "stale-if-error";
                 "stale-while-revalidate"; "pre-check"; "post-check"]);
   ("no-cache", ["immutable"; "max-age"; "must-revalidate"; "proxy-revalidate"; "s-maxage"; "stale-if-error"; "stale-while-revalidate"; "pre-check"; "post-check"]);
   ("must-revalidate", ["immutable"; "stale-if-error"; "stale-while-revalidate"; "pre-check"; "post-check"])]%string.

(** One element (stripped): its directive, its value if the element is kept. *)
Definition cc_name (v : str) : str := lower (fst (cut v)).
Definition or_none (o : option str) : pyval := match o with Some s => VStr s | None => VNone end.
Definition cc_value (v : str) : option pyval :=
  if is_one_of numeric (cc_name v)
  then match snd (cut v) with Some s => option_map VInt (py_int s) | None => None end
  else if is_one_of listing (cc_name v)
  then Some (VStr (match snd (cut v) with Some s => unquote_string s | None => u "None" end))
  else Some (or_none (snd (cut v))).
(** The directives of a field with the lines [vs]. *)
Definition cc_entries (vs : list str) : list (str * pyval) :=
  flat_map (fun v => match cc_value (strip v) with Some x => [(cc_name (strip v), x)] | None => [] end) (flat_map split_list_field vs).
Definition cc_parsed (vs : list str) : pyval := VList (map (fun dx => VTuple [VStr (fst dx); snd dx]) (cc_entries vs)).

Definition cc_classes : list nid := [CC_MISCAP; CC_SHOULD_NOT_HAVE_VALUE; CC_MAX_AGE_TOO_LARGE; CC_BAD_VALUE_TYPE; CC_CONFLICTING; CC_WRONG_MESSAGE; CC_DUP;
  CHECK_SINGLE; CHECK_ALL_ZERO; CHECK_POST_BIGGER; CHECK_POST_ZERO; CHECK_POST_PRE].
(** The notes about one element, with the directive they name. *)
Definition number_in (v : str) : option Z := match snd (cut v) with Some s => py_int s | None => None end.
Definition element_due (v : str) : list (nid * str) :=
  (if str_eqb (fst (cut v)) (cc_name v) then [] else [(CC_MISCAP, fst (cut v))])
  ++ map (fun c => (c, cc_name v))
       (due [(CC_SHOULD_NOT_HAVE_VALUE, is_one_of flags (cc_name v) && match snd (cut v) with Some _ => true | None => false end);
             (CC_BAD_VALUE_TYPE, is_one_of numeric (cc_name v) && match number_in v with Some _ => false | None => true end);
             (CC_MAX_AGE_TOO_LARGE, is_one_of numeric (cc_name v) && match number_in v with Some z => (2147483648 <? z)%Z | None => false end)]).
(** The conflict: the first directive that is present with one it overrides. *)
Definition conflict (ds : list str) : list (nid * option str) :=
  match find (fun o => has_name ds (fst o) && existsb (has_name ds) (snd o)) overrides with
  | Some o => [(CC_CONFLICTING, Some (u (fst o)))]
  | None => []
  end.
(** One of the different directives of the field. *)
Definition directive_due (t : mtype) (ds : list str) (d : str) : list (nid * option str) :=
  if misplaced t d then [(CC_WRONG_MESSAGE, Some d)]
  else if a_known d && (2 <=? length (filter (str_eqb d) ds))%nat then [(CC_DUP, Some d)] else [].
(** pre-check and post-check: the last values count. *)
Definition last_number (d : string) (es : list (str * pyval)) : option Z :=
  match find (fun p => str_eqb (fst p) (u d)) (rev es) with Some (_, VInt z) => Some z | _ => None end.
Definition check_due (es : list (str * pyval)) : list nid :=
  match last_number "pre-check" es, last_number "post-check" es with
  | None, None => []
  | Some pre, Some post =>
      if ((pre =? 0) && (post =? 0))%Z%bool then [CHECK_ALL_ZERO] else if (pre <? post)%Z then [CHECK_POST_BIGGER]
      else if (post =? 0)%Z then [CHECK_POST_ZERO] else [CHECK_POST_PRE]
  | _, _ => [CHECK_SINGLE]
  end.
