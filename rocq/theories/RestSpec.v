(** * Specification of what the notes about CORS preflights, Server and pre-check/post-check show (C72). *)
From Verif Require Import PyStr Regex Grammar NoteTable Note PyLib Utils FieldAttrs Types Framework Message Session FieldSpec ListSpec ShowSpec CookieShowSpec StatusSpec.
Open Scope N_scope.

(** Something that is there if a condition holds, and only then. *)
Definition if_so {A} (P : Prop) (n : A) (l : list A) : Prop := (P /\ l = [n]) \/ (~ P /\ l = []).
Definition of_preflights : list nid :=
  [CORS_PREFLIGHT_REQUEST; CORS_PREFLIGHT_REQ_METHOD_WRONG; CORS_PREFLIGHT_REQ_NO_ORIGIN; CORS_PREFLIGHT_REQ_NO_METHOD;
   CORS_PREFLIGHT_RESPONSE; CORS_PREFLIGHT_ONLY; ACAO_MULTIPLE_VALUES].
Definition about_preflights (ns : list note) : list note := filter (fun n => existsb (nid_eqb (n_cls n)) of_preflights) ns.
(** A note of the message itself. *)
Definition plain_note (t : mtype) (subject : string) (c : nid) (vars : list (string * pyval)) : note :=
  mk_note t (u subject) c None (map (fun p => (u (fst p), snd p)) vars) [].
(** A request has the fields with these names. *)
Definition a_preflight (m : mstate) : Prop :=
  m_method m = Some (u "OPTIONS") /\ has_field m "origin" /\ has_field m "access-control-request-method".
Definition looks_like_one (m : mstate) : Prop := has_field m "access-control-request-method" \/ has_field m "access-control-request-headers".
Definition method_shown (m : mstate) : pyval := match m_method m with Some s => VStr s | None => VNone end.
(** The names of the fields that are for answers to preflights only, of those the response has. *)
Definition misplaced_names (m : mstate) (l : list str) : Prop :=
  exists a b c, l = a ++ b ++ c
    /\ if_so (has_field m "access-control-allow-headers") (u "Access-Control-Allow-Headers") a
    /\ if_so (has_field m "access-control-allow-methods") (u "Access-Control-Allow-Methods") b
    /\ if_so (has_field m "access-control-max-age") (u "Access-Control-Max-Age") c.

(** Server ("server_string", "server_length"): the member and its length, with commas. *)
Definition too_long_shows (v : str) (c : nid) (w : list (option pyval)) : Prop :=
  c = SERVER_TOO_LONG /\ (64 < length v)%nat
  /\ exists ds s, with_commas ds s /\ Forall (fun c => is_digit c = true) ds /\ digits_val ds = N.of_nat (length v) /\ w = [text v; text (s ++ u " bytes")].
(** pre-check and post-check ("pre_check", "post_check"): the last number a member gives. *)
Definition gives (d : string) (v : str) (z : Z) : Prop := cc_name v = u d /\ number_in v = Some z.
Definition last_given (d : string) (ms : list str) (z : Z) : Prop :=
  exists a v b, ms = a ++ v :: b /\ gives d v z /\ forall w y, In w b -> ~ gives d w y.
Definition both_shown (ms : list str) (c : nid) (w : list (option pyval)) : Prop :=
  c = CHECK_POST_PRE /\ exists a b, last_given "pre-check" ms a /\ last_given "post-check" ms b /\ (b <= a)%Z /\ b <> 0%Z
    /\ w = [Some (VInt a); Some (VInt b)].
