(** * Specification of the notes on Date, Last-Modified and Sunset (C62). *)
From Coq Require Import QArith.
From Verif Require Import PyStr Regex Grammar Note PyLib Utils FieldAttrs Types NumLemmas FieldSpec FieldDue DateLemmas PropDate ShowSpec.
Open Scope N_scope.

(** [v] is an HTTP date and names the second [z]; years below 100 are of the century that ends in 2068. *)
Definition moment (v : str) (z : Z) : Prop :=
  exists s year, (imf_date s v \/ rfc850_date s v \/ asctime_date s v)
    /\ Z.of_nat year = (let y := num (t_yy s) in if (100 <=? y)%Z then y else if (y <=? 68)%Z then (2000 + y)%Z else (1900 + y)%Z)
    /\ z = at_epoch s year.
(** The moment of the field's first line (None: there is none, or it is the second 0 itself). *)
Definition dated (k : string) (l : list rawline) (o : option Z) : Prop :=
  match first_line (u k) l, o with
  | Some v, Some z => moment v z /\ z <> 0%Z
  | Some v, None => forall z, moment v z -> z = 0%Z
  | None, o => o = None
  end.
(** The caller said when the message started ([now]; 0 counts as not saying). *)
Definition clock_of (start now : option Q) : Prop :=
  match start with Some q => (Qeq q 0 /\ now = None) \/ (~ Qeq q 0 /\ now = start) | None => now = None end.
Definition whole_seconds (q : Q) : Z := Z.quot (Qnum q) (Zpos (Qden q)).
(** The lines before the first line of field [k]. *)
Fixpoint ahead (k : str) (l : list rawline) : list rawline :=
  match l with [] => [] | r :: l' => if str_eqb (key_of r) k then [] else r :: ahead k l' end.
(** The header lines whose values the code of a field [k] can see when it looks at the
    headers: those before its own first line if it is a header itself; all, if it is a trailer. *)
Definition seen_by (k : string) (trailer : bool) (headers : list rawline) : list rawline := if trailer then headers else ahead (u k) headers.
(** The Age stated by the lines [l]: 0 when there is none or it is no number of seconds. *)
Definition stated_age (l : list rawline) (a : Z) : Prop :=
  match first_line (u "age") l with
  | Some v => (int_text v a /\ (0 <= a)%Z) \/ ((forall z, int_text v z -> (z < 0)%Z) /\ a = 0%Z)
  | None => a = 0%Z
  end.
Notation tale := (nid * str * list (option pyval))%type.
(** Date, in a response: when the Date is less than five seconds old although the Age is
    over five, the Age has been counted from a wrong clock; otherwise Date and Age together
    must agree with the clock within five seconds. *)
Definition date_says (t : mtype) (now : option Q) (age : Z) (date : option Z) (r : list tale) : Prop :=
  match t, now, date with
  | MResponse, Some n, Some d =>
      let n := whole_seconds n in
      if (5 <? age)%Z && (n - d <? 5)%Z then r = [(AGE_PENALTY, u "field-date field-age", [None])]
      else if (5 <? Z.abs (d + age - n))%Z then r = [(DATE_INCORRECT, about_field (u "date"), [Some (VRel (inject_Z (d + age - n)) 0 2)])]
      else r = [(DATE_CORRECT, about_field (u "date"), [None])]
  | _, _, _ => r = []
  end.
(** Last-Modified: compared with the Date or, without one, with the clock. *)
Definition modified_says (now : option Q) (date lm : option Z) (r : list tale) : Prop :=
  match lm, match date with Some d => Some (inject_Z d) | None => now end with
  | Some z, Some n => (Qlt n (inject_Z z) /\ r = [(LM_FUTURE, about_field (u "last-modified"), [None])])
                      \/ (Qle (inject_Z z) n /\ r = [(LM_PRESENT, about_field (u "last-modified"), [Some (VRel (inject_Z z) n 1)])])
  | _, _ => r = []
  end.
(** Sunset: already past? *)
Definition sunset_says (now : option Q) (sunset : option Z) (r : list tale) : Prop :=
  match now, sunset with
  | Some n, Some z => (Qlt (inject_Z z) n /\ r = [(SUNSET_PAST, about_field (u "sunset"), [])]) \/ (Qle n (inject_Z z) /\ r = [])
  | _, _ => r = []
  end.
