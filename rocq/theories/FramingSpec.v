(** * Specification of the note on Content-Length beside Transfer-Encoding (C64). *)
From Verif Require Import PyStr Note NumLemmas FieldSpec FieldDue ClockSpec.
Open Scope N_scope.
(** The lines [l] have a Content-Length whose first value is a number ([int_text]: see C29),
    and Transfer-Encoding is among the header lines [seen] that its code can see. *)
Definition framed_twice (l seen : list rawline) : Prop :=
  (exists v z, first_line (u "content-length") l = Some v /\ int_text v z) /\ values (u "transfer-encoding") seen <> [].
Definition framing_says (l seen : list rawline) (r : list tale) : Prop :=
  (framed_twice l seen /\ r = [(CL_AND_TE_PRESENT, about_field (u "content-length"), [])]) \/ (~ framed_twice l seen /\ r = []).
