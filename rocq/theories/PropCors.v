(** * C24: how Access-Control-Allow-Origin relates to the request's Origin. *)
From Verif Require Import PyStr Regex Grammar NoteTable Note PyLib Utils FieldAttrs Types Fields1 Fields2 Fields3 Framework Checks Message
  EvLogic NoteLemmas TestEnv LexLemmas ParamLemmas NumLemmas NameLemmas FrameLemmas PassParse PassEval PassFrame PassSec PassProc PassRun Session SessionLemmas
  SectionLemmas SecNotes SecValues LintLemmas FieldSpec PropFields PropValues PropNames PropStatus OwnLemmas ListSpec PropLists.
Open Scope N_scope.

Definition origin_classes : list nid := [CORS_ORIGIN_NULL; CORS_ORIGIN_STAR; CORS_ORIGIN_MATCH; CORS_ORIGIN_MISMATCH].
(** The Origin of the request as text; [None]: the request has no Origin (or
    there is no request).  An Origin "null", and one that could not be parsed,
    counts as "null". *)
Definition request_origin (e : env) (rel : option mstate) : option str :=
  match rel with
  | None => None
  | Some r =>
      match dget (u "origin") (s_parsed (m_headers r)) with
      | None => None
      | Some (VOrigin scheme host port) => Some (scheme ++ u "://" ++ host ++ match port with Some n => u ":" ++ dec_Z n | None => [] end)
      | Some VNone => Some (u "null")
      | Some v => match py_str e v with Ok s => Some s | Err _ => None end
      end
  end.
(** The one note about the first line of the field in a section. *)
Definition origin_verdict (e : env) (rel : option mstate) (l : list rawline) : list (nid * str) :=
  match request_origin e rel, values (u "access-control-allow-origin") l with
  | Some o, v :: _ =>
      [(if str_eqb (strip v) (u "null") then CORS_ORIGIN_NULL else if str_eqb (strip v) (u "*") then CORS_ORIGIN_STAR
        else if str_eqb (strip v) o then CORS_ORIGIN_MATCH else CORS_ORIGIN_MISMATCH, u "header-access-control-allow-origin")]
  | _, _ => []
  end.
Definition acao_q (e : env) (rel : option mstate) (v : pyval) : W pyval :=
  (s <- lift (py_str e v) ;; check_acao (mkCx e (new_linter MResponse None false false []) rel) s) ;;; ret v.
Lemma acao_section e rel l :
  map fst (single_says (classes origin_classes) [] (u "access-control-allow-origin") (fun v => ret (VStr v)) (acao_q e rel) l) = origin_verdict e rel l.
Proof.
  unfold single_says, origin_verdict, request_origin. destruct (values _ l) as [|v more].
  - match goal with |- _ = match ?x with _ => _ end => destruct x end; reflexivity.
  - cbn [ret fst snd app]. unfold acao_q. cbn [py_str]. rewrite lift_ok. unfold check_acao. cbn [cx_rel cx_env]. destruct rel as [r|]; [|reflexivity].
    change (rel_hdr r "origin") with (dget (u "origin") (s_parsed (m_headers r))). destruct (dget (u "origin") _) as [o|]; [|reflexivity].
    assert (K : forall os, map fst (speak (classes origin_classes) [] (about_field (u "access-control-allow-origin"))
       (fst ((if str_eqb (strip v) (u "null") then tell [EMsg hdr_acao CORS_ORIGIN_NULL []] else if str_eqb (strip v) (u "*") then tell [EMsg hdr_acao CORS_ORIGIN_STAR []]
              else if str_eqb (strip v) os then tell [EMsg hdr_acao CORS_ORIGIN_MATCH [vs "origin" os]]
              else tell [EMsg hdr_acao CORS_ORIGIN_MISMATCH [vs "origin" os; vs "acao_value" (strip v)]]) ;;; ret (VStr (strip v)))))
       = [(if str_eqb (strip v) (u "null") then CORS_ORIGIN_NULL else if str_eqb (strip v) (u "*") then CORS_ORIGIN_STAR
        else if str_eqb (strip v) os then CORS_ORIGIN_MATCH else CORS_ORIGIN_MISMATCH, u "header-access-control-allow-origin")]).
    { intros os. destruct (str_eqb (strip v) (u "null")); [reflexivity|]. destruct (str_eqb (strip v) (u "*")); [reflexivity|]. destruct (str_eqb (strip v) os); reflexivity. }
    unfold origin_text. destruct o; try (rewrite lift_ok; apply K); try (destruct (py_str e _) as [os|x]; [rewrite lift_ok; apply K|reflexivity]).
Qed.
(** Exactly one of the four notes for each section that has the field, if the
    request has an Origin; none otherwise. *)
Theorem C24_origin : forall e rel top headers chunks complete trailers t start nc head base m' rel',
  lint e rel top headers chunks complete trailers (new_linter t start nc head base) = (m', rel', Ok tt) -> t <> MRequest ->
  hyphened (u "access-control-allow-origin") headers -> hyphened (u "access-control-allow-origin") trailers ->
  reports origin_classes (m_notes m') = origin_verdict e rel headers ++ origin_verdict e rel trailers.
Proof.
  intros e rel top headers chunks complete trailers t start nc head base m' rel' E Ht H1 H2. rewrite (reports_heard _ []).
  rewrite (single_own (classes origin_classes) [] F_access_control_allow_origin (u "access-control-allow-origin") (fun v => ret (VStr v)) (acao_q e rel) e rel top headers chunks complete trailers t start nc head base m' rel' E).
  - rewrite map_app, !acao_section. reflexivity.
  - apply mine_b_ok. vm_compute. reflexivity.
  - apply quiet_b_ok. vm_compute. reflexivity.
  - reflexivity.
  - reflexivity.
  - vm_compute. tauto.
  - reflexivity.
  - reflexivity.
  - reflexivity.
  - destruct t; [congruence|reflexivity|reflexivity].
  - exact H1.
  - exact H2.
  - reflexivity.
  - intros v. constructor.
  - reflexivity.
  - intros v. unfold acao_q. destruct (py_str e v) as [s|x]; [|constructor]. rewrite lift_ok. unfold check_acao. cbn [cx_rel cx_env].
    destruct rel as [r|]; [|constructor]. destruct (rel_hdr r "origin") as [o|]; [|constructor]. destruct (origin_text e o) as [os|x]; [|constructor]. rewrite lift_ok.
    destruct (str_eqb s (u "null")); [repeat constructor|]. destruct (str_eqb s (u "*")); [repeat constructor|]. destruct (str_eqb s os); repeat constructor.
Qed.
Print Assumptions C24_origin.
(** What the notes show: the request's origin, the field's value. *)
Definition shown_in : list str := [u "origin"; u "acao_value"].
Definition origin_note (o v : str) : nid * str * list (option pyval) :=
  if str_eqb v (u "null") then (CORS_ORIGIN_NULL, u "header-access-control-allow-origin", [None; None])
  else if str_eqb v (u "*") then (CORS_ORIGIN_STAR, u "header-access-control-allow-origin", [None; None])
  else if str_eqb v o then (CORS_ORIGIN_MATCH, u "header-access-control-allow-origin", [Some (VStr o); None])
  else (CORS_ORIGIN_MISMATCH, u "header-access-control-allow-origin", [Some (VStr o); Some (VStr v)]).
Definition origin_tales (e : env) (rel : option mstate) (l : list rawline) : list (nid * str * list (option pyval)) :=
  match request_origin e rel, values (u "access-control-allow-origin") l with
  | Some o, v :: _ => [origin_note o (strip v)]
  | _, _ => []
  end.
Lemma acao_shown e rel l :
  single_says (classes origin_classes) shown_in (u "access-control-allow-origin") (fun v => ret (VStr v)) (acao_q e rel) l = origin_tales e rel l.
Proof.
  unfold single_says, origin_tales, origin_note, request_origin. destruct (values _ l) as [|v more].
  - match goal with |- _ = match ?x with _ => _ end => destruct x end; reflexivity.
  - cbn [ret fst snd app]. unfold acao_q. cbn [py_str]. rewrite lift_ok. unfold check_acao. cbn [cx_rel cx_env]. destruct rel as [r|]; [|reflexivity].
    change (rel_hdr r "origin") with (dget (u "origin") (s_parsed (m_headers r))). destruct (dget (u "origin") _) as [o|]; [|reflexivity].
    assert (K : forall os, speak (classes origin_classes) shown_in (about_field (u "access-control-allow-origin"))
       (fst ((if str_eqb (strip v) (u "null") then tell [EMsg hdr_acao CORS_ORIGIN_NULL []] else if str_eqb (strip v) (u "*") then tell [EMsg hdr_acao CORS_ORIGIN_STAR []]
              else if str_eqb (strip v) os then tell [EMsg hdr_acao CORS_ORIGIN_MATCH [vs "origin" os]]
              else tell [EMsg hdr_acao CORS_ORIGIN_MISMATCH [vs "origin" os; vs "acao_value" (strip v)]]) ;;; ret (VStr (strip v))))
       = [origin_note os (strip v)]).
    { intros os. unfold origin_note. destruct (str_eqb (strip v) (u "null")); [reflexivity|]. destruct (str_eqb (strip v) (u "*")); [reflexivity|]. destruct (str_eqb (strip v) os); reflexivity. }
    unfold origin_text. destruct o; try (rewrite lift_ok; apply K); try (destruct (py_str e _) as [os|x]; [rewrite lift_ok; apply K|reflexivity]).
Qed.
Theorem C24_shown : forall e rel top headers chunks complete trailers t start nc head base m' rel',
  lint e rel top headers chunks complete trailers (new_linter t start nc head base) = (m', rel', Ok tt) -> t <> MRequest ->
  hyphened (u "access-control-allow-origin") headers -> hyphened (u "access-control-allow-origin") trailers ->
  heard (classes origin_classes) [u "origin"; u "acao_value"] (m_notes m') = origin_tales e rel headers ++ origin_tales e rel trailers.
Proof.
  change [u "origin"; u "acao_value"] with shown_in. intros e rel top headers chunks complete trailers t start nc head base m' rel' E Ht H1 H2.
  rewrite (single_own (classes origin_classes) shown_in F_access_control_allow_origin (u "access-control-allow-origin") (fun v => ret (VStr v)) (acao_q e rel) e rel top headers chunks complete trailers t start nc head base m' rel' E).
  - rewrite !acao_shown. reflexivity.
  - apply mine_b_ok. vm_compute. reflexivity.
  - apply quiet_b_ok. vm_compute. reflexivity.
  - reflexivity.
  - reflexivity.
  - vm_compute. tauto.
  - reflexivity.
  - reflexivity.
  - reflexivity.
  - destruct t; [congruence|reflexivity|reflexivity].
  - exact H1.
  - exact H2.
  - reflexivity.
  - intros v. constructor.
  - reflexivity.
  - intros v. unfold acao_q. destruct (py_str e v) as [s|x]; [|constructor]. rewrite lift_ok. unfold check_acao. cbn [cx_rel cx_env].
    destruct rel as [r|]; [|constructor]. destruct (rel_hdr r "origin") as [o|]; [|constructor]. destruct (origin_text e o) as [os|x]; [|constructor]. rewrite lift_ok.
    destruct (str_eqb s (u "null")); [repeat constructor|]. destruct (str_eqb s (u "*")); [repeat constructor|]. destruct (str_eqb s os); repeat constructor.
Qed.
Print Assumptions C24_shown.
Example C24_origin_ex :
  let req := fst (fst (lint env0 None (TopRequest (u "GET") (u "/a") (u "1.1")) [(u "Host", u "a"); (u "Origin", u "HTTPS://A.example:8080")] [] true [] (new_linter MRequest None false false []))) in
  let resp v := let '(m, _, r) := code_run (Some req) "200" [("Access-Control-Allow-Origin", v)]%string in (r, map fst (reports origin_classes (m_notes m))) in
  request_origin env0 (Some req) = Some (u "https://a.example:8080")
  /\ resp "https://a.example:8080"%string = (Ok tt, [CORS_ORIGIN_MATCH]) /\ resp "https://a.example"%string = (Ok tt, [CORS_ORIGIN_MISMATCH])
  /\ resp "*"%string = (Ok tt, [CORS_ORIGIN_STAR]) /\ resp "null"%string = (Ok tt, [CORS_ORIGIN_NULL])
  /\ hyphened (u "access-control-allow-origin") [(u "Access-Control-Allow-Origin", u "*")].
Proof. cbv zeta. repeat split; try (vm_compute; reflexivity). repeat constructor. Qed.
Example C24_shown_ex :
  let req := fst (fst (lint env0 None (TopRequest (u "GET") (u "/a") (u "1.1")) [(u "Host", u "a"); (u "Origin", u "HTTPS://A.example:8080")] [] true [] (new_linter MRequest None false false []))) in
  let resp v := let '(m, _, r) := code_run (Some req) "200" [("Access-Control-Allow-Origin", v)]%string in map snd (heard (classes origin_classes) shown_in (m_notes m)) in
  resp "https://a.example:8080"%string = [[Some (VStr (u "https://a.example:8080")); None]]
  /\ resp " https://a.example "%string = [[Some (VStr (u "https://a.example:8080")); Some (VStr (u "https://a.example"))]].
Proof. cbv zeta. split; vm_compute; reflexivity. Qed.
