(** * C64: Content-Length and Transfer-Encoding together. *)
From Coq Require Import Lia ZifyBool.
From Verif Require Import PyStr Regex Grammar NoteTable Note PyLib Utils FieldAttrs Types Fields1 Fields2 Fields3 Framework Checks Message
  EvLogic NoteLemmas TestEnv LexLemmas ParamLemmas NumLemmas NameLemmas FrameLemmas ContentLemmas BodyLemmas PassParse PassEval PassFrame PassSec PassProc PassRun Session SessionLemmas
  SectionLemmas SecNotes SecValues LintLemmas FieldSpec PropFields PropValues PropNames PropParse OwnLemmas ListSpec PropLists PropCC ListExamples FieldExamples PropInts FieldDue OwnTac OwnMore KidSpec OwnFull OwnAt
  ClockSpec PropClock FramingSpec.
Open Scope N_scope.

Notation TP := (classes [CL_AND_TE_PRESENT]).
Definition framed_b (l seen : list rawline) : bool :=
  match first_line (u "content-length") l with Some v => match py_int v with Some _ => nonempty (values (u "transfer-encoding") seen) | None => false end | None => false end.
Lemma framed_iff l seen : framed_b l seen = true <-> framed_twice l seen.
Proof.
  unfold framed_b, framed_twice, first_line. destruct (values (u "content-length") l) as [|raw more]; [split; [discriminate|intros [(v & z & H & _) _]; discriminate H]|].
  destruct (int_cases raw) as [(z & -> & H & U)|[-> N]].
  - destruct (values (u "transfer-encoding") seen) as [|v vl]; [split; [discriminate|intros [_ C]; destruct (C eq_refl)]|]. split; [intros _|reflexivity]. split; [eauto|discriminate].
  - split; [discriminate|]. intros [(v & z & Hv & H) _]. injection Hv as <-. destruct (N _ H).
Qed.
Definition framing_tale (l seen : list rawline) : list tale := if framed_b l seen then [(CL_AND_TE_PRESENT, about_field (u "content-length"), [])] else [].
Lemma framing_ok l seen : framing_says l seen (framing_tale l seen).
Proof. unfold framing_says, framing_tale. rewrite <- framed_iff. destruct (framed_b l seen); [left|right]; split; (reflexivity || discriminate). Qed.

Theorem C64_framing : forall e rel top headers chunks complete trailers t start nc head base m' rel',
  lint e rel top headers chunks complete trailers (new_linter t start nc head base) = (m', rel', Ok tt) ->
  hyphened (u "content-length") headers -> hyphened (u "content-length") trailers -> unpadded (u "transfer-encoding") headers ->
  exists rh rt, heard TP [] (m_notes m') = rh ++ rt
    /\ framing_says headers (seen_by "content-length" false headers) rh
    /\ framing_says trailers (seen_by "content-length" true headers) rt.
Proof.
  intros e rel top headers chunks complete trailers t start nc head base m' rel' E Hy1 Hy2 U. set (f := F_content_length). set (k := u "content-length").
  exists (framing_tale headers (seen_by "content-length" false headers)), (framing_tale trailers (seen_by "content-length" true headers)).
  split; [|split; apply framing_ok].
  assert (HP : mine TP f) by (apply mine_b_ok; vm_compute; reflexivity). assert (HQ : quiet TP) by (apply quiet_b_ok; vm_compute; reflexivity). assert (In_ : In f module_fields) by (vm_compute; tauto).
  assert (S : forall l, hyphened k l -> spelled f k l) by (intros l Hl; apply hyphened_spelled; [exact In_|reflexivity|reflexivity|exact Hl]).
  destruct (lint_at TP f k e rel top headers chunks complete trailers t start nc head base m' rel' E HP HQ (or_introl eq_refl) eq_refl (S _ Hy1) (S _ Hy2)) as (mh & mt & a & a' & b & b' & T1 & T2 & Y1 & Y2 & Hh & R1 & R2 & N).
  assert (R : run_of e t start base headers trailers m') by (exists rel, top, chunks, complete, nc, head, rel'; exact E).
  assert (G : forall tr m evs evs', m_type m = t -> (tr = true -> m_headers m = m_headers m') -> field_at e rel tr m m' k (section_lines tr headers trailers) evs evs' ->
    heard TP [] (emit (m_type m) [] evs) ++ heard TP [] (emit (m_type m) [] evs') = framing_tale (section_lines tr headers trailers) (seen_by "content-length" tr headers)).
  { intros tr m evs evs' Tm Hm Rm. assert (Hpr : processed (m_type m) k = true) by (destruct (m_type m); reflexivity).
    destruct (single_heard TP [] f k e rel tr m m' (section_lines tr headers trailers) evs evs' HP eq_refl In_ eq_refl eq_refl Hpr) as (mi & A1 & A2 & A3 & h & Hc & A4); [| |exact Rm|].
    - intros c h0 v. cbn [parse_of f]. unfold p_content_length. destruct (py_int v) as [z|]; [|repeat constructor]. destruct (9223372036854775807 <? z)%Z; repeat constructor.
    - intros c h0. change (eval_of f c h0) with (keep h0 (ev_content_length c h0)). rewrite keep_fst. unfold ev_content_length. destruct (has_hdr c _); repeat constructor.
    - rewrite A4. clear A4. unfold framing_tale, framed_b, first_line. fold k. destruct (values k (section_lines tr headers trailers)) as [|raw more] eqn:Ev; [reflexivity|].
      cbv zeta. cbn [parse_of f]. unfold p_content_length. destruct (int_cases raw) as [(z & -> & _)|[-> _]]; [|reflexivity].
      assert (X : dget (u "transfer-encoding") (s_parsed (m_headers mi)) = if nonempty (values (u "transfer-encoding") (seen_by "content-length" tr headers)) then value_in false (u "transfer-encoding") m' else None).
      { apply (seen_header e t start base headers trailers m' tr "content-length" (u "transfer-encoding") mi R U); [discriminate|fold k; congruence| |].
        - intros ->. apply A3. congruence.
        - intros ->. rewrite <- (Hm eq_refl). exact (f_equal (fun x => x) A2). }
      assert (X2 : dmem (u "transfer-encoding") (s_parsed (m_headers mi)) = nonempty (values (u "transfer-encoding") (seen_by "content-length" tr headers))).
      { unfold dmem. rewrite X. pose proof (seen_first "content-length" tr (u "transfer-encoding") headers ltac:(discriminate)) as Sf. destruct (values _ (seen_by _ _ _)) as [|w ws]; [reflexivity|]. cbn [nonempty].
        rewrite (run_value _ _ _ _ _ _ _ false _ R U). cbn [section_lines]. destruct Sf as (mo & ->). reflexivity. }
      assert (Ev2 : forall h1, fst (eval_of f (mkCx e mi rel) h1) = if nonempty (values (u "transfer-encoding") (seen_by "content-length" tr headers)) then [ENote CL_AND_TE_PRESENT None [] []] else []).
      { intros h1. change (eval_of f (mkCx e mi rel) h1) with (keep h1 (ev_content_length (mkCx e mi rel) h1)). rewrite keep_fst. unfold ev_content_length, has_hdr. cbn [cx_msg]. rewrite X2. destruct (nonempty _); reflexivity. }
      destruct (9223372036854775807 <? z)%Z; cbn [when add_note tell bind ret fst snd app]; rewrite Ev2; destruct (nonempty _); reflexivity. }
  change (classes [CL_AND_TE_PRESENT]) with TP. rewrite heard_sel, N, !map_app, <- !heard_sel. f_equal.
  - rewrite <- T1 at 1 2. apply (G false mh a a' T1); [discriminate|exact R1].
  - rewrite <- T2 at 1 2. apply (G true mt b b' T2); [intros _; exact Hh|exact R2].
Qed.
Print Assumptions C64_framing.
(** ** Examples: the order of the lines decides *)
Definition framing_notes (hs trs : list (string * string)) := let '(m, _, r) := lint env0 None (TopResponse (u "1.1") (u "200") None) (raws hs) [] true (raws trs) (new_linter MResponse None false false []) in
  (r, heard TP [] (m_notes m)).
Example C64_ex : framing_notes [("Transfer-Encoding", "chunked"); ("Content-Length", " 10")]%string [] = (Ok tt, [(CL_AND_TE_PRESENT, u "field-content-length", [])]).
Proof. vm_compute. reflexivity. Qed.
Example C64_ex_order : framing_notes [("Content-Length", "10"); ("Transfer-Encoding", "chunked")]%string [] = (Ok tt, []).
Proof. vm_compute. reflexivity. Qed.
Example C64_ex_bad : framing_notes [("Transfer-Encoding", "chunked"); ("Content-Length", "ten"); ("Content-Length", "10")]%string [] = (Ok tt, []).
Proof. vm_compute. reflexivity. Qed.
Example C64_ex_trailer : framing_notes [("Transfer-Encoding", "chunked")]%string [("Content-Length", "10")]%string = (Ok tt, [(CL_AND_TE_PRESENT, u "field-content-length", [])]).
Proof. vm_compute. reflexivity. Qed.
Example C64_ex_hyps : let hs := raws [("Transfer-Encoding", "chunked"); ("Content-Length", " 10")]%string in
  hyphened (u "content-length") hs /\ unpadded (u "transfer-encoding") hs /\ framed_twice hs (seen_by "content-length" false hs).
Proof.
  split; [|split].
  - repeat constructor; vm_compute; intros H; try discriminate H; reflexivity.
  - split; [reflexivity|repeat constructor; vm_compute; intros H; try discriminate H; reflexivity].
  - apply framed_iff. vm_compute. reflexivity.
Qed.
