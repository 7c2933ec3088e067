(** * C10: which field line an "offset-N" subject is about. *)
From Verif Require Import PyStr Regex NoteTable Note PyLib Utils FieldAttrs Types Framework Checks Message EvLogic TestEnv PassFrame Session
  SectionLemmas SecNotes LintLemmas FieldSpec PropFields FieldExamples OffsetLemmas.
From Coq Require Import Lia.
Open Scope N_scope.

(** The lines of a section that are processed (FieldSpec.processed), in order. *)
Definition processed_lines (t : mtype) (l : list rawline) : list rawline := filter (fun r => processed t (name_of r)) l.
(** [c] is one of the notes about field lines in general: those of the modules
    section, __init__, singleton_field, structured_field and json_field of httplint.field. *)
Definition general (c : nid) : Prop :=
  In (nid_file c) ["field/section.py"; "field/__init__.py"; "field/singleton_field.py"; "field/structured_field.py"; "field/json_field.py"]%string.
(** What a note of class [c] about line number [n] of the lines [l] can be about:
    the [n]-th processed line, if it is one of that line's field's own notes; if it is
    a general one, that line or a line before it that was not processed. *)
Definition about_line (t : mtype) (l : list rawline) (n : nat) (c : nid) : Prop :=
  (exists r, nth_error (processed_lines t l) n = Some r /\ own (find_class (name_of r)) c = true)
  \/ general c /\ exists r, In (r, n) (numbered t 0 l).

Lemma general_eq c : framework c = true -> general c.
Proof.
  unfold framework, general. intros H. apply existsb_exists in H as (f & Hf & E). apply String.eqb_eq in E. rewrite E. exact Hf.
Qed.
(** Processed lines are numbered consecutively from 0. *)
Lemma numbered_nth t l : forall o r n, In (r, n) (numbered t o l) -> processed t (name_of r) = true ->
  (o <= n)%nat /\ nth_error (processed_lines t l) (n - o) = Some r.
Proof.
  induction l as [|r0 l IH]; intros o r n Hi Hp; [destruct Hi|]. cbn [numbered] in Hi. unfold processed_lines. cbn [filter].
  destruct Hi as [Hi|Hi].
  - injection Hi as -> ->. rewrite Hp, Nat.sub_diag. split; [lia|reflexivity].
  - destruct (processed t (name_of r0)); apply IH in Hi as [H1 H2]; try exact Hp.
    + split; [lia|]. replace (n - o)%nat with (S (n - S o)) by lia. exact H2.
    + split; [exact H1|exact H2].
Qed.
(** C10: every note whose subject begins with "offset-" has as its subject offset-N,
    for a line numbered N of the header or the trailer section that it can be about. *)
Theorem C10_offsets e t start base headers trailers m' : run_of e t start base headers trailers m' ->
  forall n, In n (m_notes m') -> startswith (u "offset-") (n_subj n) = true ->
  exists N, n_subj n = at_offset N /\ (about_line t headers N (n_cls n) \/ about_line t trailers N (n_cls n)).
Proof.
  intros (rel & top & chunks & complete & nc & head & rel' & E) n Hn Hs.
  set (Q := fun x c => offless x \/ exists N, x = at_offset N /\ (about_line t headers N c \/ about_line t trailers N c)).
  assert (L : forall l x c, placedq t (placed t 0 l) x c -> exists N, x = at_offset N /\ about_line t l N c).
  { intros l x c ([r N] & Hi & -> & Hc). rewrite numbered_eq in Hi. cbn [fst snd] in *. exists N. split; [reflexivity|]. rewrite name_eq in Hc. destruct Hc as [Hc|[Ha Hc]].
    - right. split; [apply general_eq, Hc|exists r; exact Hi].
    - left. rewrite processed_eq in Ha. destruct (numbered_nth t l 0 r N Hi Ha) as [_ H]. rewrite Nat.sub_0_r in H. exists r. split; [exact H|exact Hc]. }
  assert (X : Forall (notq Q) (m_notes m')).
  { apply (lint_lineq _ _ _ _ _ _ _ _ _ _ _ _ _ _ Q E).
    - intros x c Hx. left. exact Hx.
    - intros x c Hx. right. apply L in Hx as (N & -> & H). exists N. split; [reflexivity|left; exact H].
    - intros x c Hx. right. apply L in Hx as (N & -> & H). exists N. split; [reflexivity|right; exact H]. }
  rewrite Forall_forall in X. destruct (X n Hn) as [H|H]; [|exact H]. unfold offless in H. rewrite H in Hs. discriminate.
Qed.
Print Assumptions C10_offsets.
(** Two such numbers of one section name the same line. *)
Theorem C10_one_line t l N r r' : In (r, N) (numbered t 0 l) -> In (r', N) (numbered t 0 l) ->
  processed t (name_of r) = true -> processed t (name_of r') = true -> r = r'.
Proof.
  intros H1 H2 P1 P2. apply (numbered_nth t l 0 _ _ H1) in P1 as [_ P1]. apply (numbered_nth t l 0 _ _ H2) in P2 as [_ P2]. congruence.
Qed.
Print Assumptions C10_one_line.
(** Lines 1 and 2 are not processed: the third cookie line, line 4, is offset-2. *)
Definition offset_sample : list rawline :=
  raws [("Cache-Control", "Public"); ("Host", "a"); ("B ad", "b"); ("Set-Cookie", "a=b; Version=1"); ("Set-Cookie", "c=d; Max-Age=; Priority=high"); ("Age", "1")]%string.
Example C10_ex : let '(m, _, r) := lint env0 None NoTop offset_sample [] true [] (new_linter MResponse None false false []) in
  r = Ok tt
  /\ map (fun n => (n_subj n, n_cls n)) (filter (fun n => startswith (u "offset-") (n_subj n)) (m_notes m))
     = map (fun p => (u (fst p), snd p)) [("offset-0", CC_MISCAP); ("offset-1", REQUEST_HDR_IN_RESPONSE); ("offset-1", FIELD_NAME_BAD_SYNTAX);
         ("offset-1", SET_COOKIE_VERSION); ("offset-2", SET_COOKIE_EMPTY_MAX_AGE); ("offset-2", SET_COOKIE_PRIORITY)]%string
  /\ nth_error (processed_lines MResponse offset_sample) 2 = Some (u "Set-Cookie", u "c=d; Max-Age=; Priority=high")
  /\ own (find_class (u "Set-Cookie")) SET_COOKIE_PRIORITY = true.
Proof. vm_compute. repeat split. Qed.
