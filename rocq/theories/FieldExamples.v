(** * Concrete runs that meet the hypotheses of the field properties. *)
From Verif Require Import PyStr Regex Grammar NoteTable Note PyLib Utils FieldAttrs Types Fields1 Fields2 Fields3 Framework Checks Message
  EvLogic TestEnv LexLemmas ParamLemmas NameLemmas PassProc Session SecNotes LintLemmas PropRun FieldSpec PropFields PropValues PropNames PropSyntax.
From Coq Require Import Lia.
Open Scope N_scope.

Definition raws (l : list (string * string)) : list rawline := map (fun h => (u (fst h), u (snd h))) l.
Definition big : bytes := repeat 65 (N.to_nat 9000).
Definition sample : list rawline :=
  raws [("Vary", "Accept, *"); ("vary", "User-Agent"); ("Age", "5"); ("AGE", "6"); ("Ho st", "a"); ("Host", "x"); ("Allow", "GET, @")]%string
  ++ [([65; 200], [233]); (u "X-Big", big)].
(** Line 4 ("Ho st") and line 5 (Host in a response) are not numbered. *)
Example fields_ex : let '(m, _, r) := lint env0 None (TopResponse (u "1.1") (u "200") None) sample [] true (raws [("Age", "x")]%string) (new_linter MResponse None false false []) in
  r = Ok tt
  /\ nth_error (s_text (m_headers m)) 7 = Some ([65], [233])
  /\ subjects FIELD_NAME_ENCODING (m_notes m) = [u "offset-5"] /\ subjects FIELD_VALUE_ENCODING (m_notes m) = [u "offset-5"]
  /\ subjects FIELD_TOO_LARGE (m_notes m) = [u "offset-6"]
  /\ subjects FIELD_NAME_BAD_SYNTAX (m_notes m) = [u "offset-4"]
  /\ subjects REQUEST_HDR_IN_RESPONSE (m_notes m) = [u "offset-4"]
  /\ subjects SINGLE_HEADER_REPEAT (m_notes m) = [u "field-age"]
  /\ subjects BAD_SYNTAX (m_notes m) = [u "offset-4"] /\ subjects AGE_NOT_INT (m_notes m) = [u "field-age"]
  /\ value_in false (u "age") m = Some (VInt 5) /\ value_in false (u "ho st") m = Some (VList []) /\ value_in false (u "host") m = Some VNone
  /\ value_in false (u "vary") m = Some (VList [VStr (u "accept"); VStr (u "*"); VStr (u "user-agent")]).
Proof. vm_compute. repeat split. Qed.
(** The hypotheses of the value theorems. *)
Example run_of_ex : exists m, run_of env0 MResponse None [] sample (raws [("Age", "x")]%string) m.
Proof.
  unfold run_of. destruct (lint env0 None (TopResponse (u "1.1") (u "200") None) sample [] true (raws [("Age", "x")]%string) (new_linter MResponse None false false []))
    as [[m rel] r] eqn:E.
  assert (r = Ok tt) by (apply (f_equal snd) in E; revert E; vm_compute; congruence). subst r.
  exists m, None, (TopResponse (u "1.1") (u "200") None), [], true, false, false, rel. exact E.
Qed.
Lemma unpadded_dec k l : str_eqb (strip k) k && forallb (fun r => negb (str_eqb (strip (key_of r)) k) || str_eqb (key_of r) k) l = true -> unpadded k l.
Proof.
  intros H. apply andb_prop in H as [H1 H2]. apply str_eqb_eq in H1. split; [exact H1|]. rewrite forallb_forall in H2. apply Forall_forall. intros r Hr E.
  specialize (H2 r Hr). rewrite E, str_eqb_refl in H2. apply str_eqb_eq, H2.
Qed.
Example unpadded_ex : unpadded (u "age") sample /\ unpadded (u "vary") sample /\ unpadded (u "ho st") sample.
Proof. repeat split; apply unpadded_dec; vm_compute; reflexivity. Qed.
(** Two ways of writing one list: a quoted comma, empty elements, three lines or one. *)
Example C14_ex :
  let g1 := [[u " a "; u "b=""x,y"""]; [u ""]; [u "c"]] in let g2 := [concat g1] in
  Forall (Forall segment) g1 /\ map (join comma) g1 = [u " a ,b=""x,y"""; u ""; u "c"] /\ map (join comma) g2 = [u " a ,b=""x,y"",,c"]
  /\ kind_of (find_class (u "cache-control")) = KList
  /\ (let run := fun h => let '(m, _, r) := response_run env0 None h [] in (value_in false (u "cache-control") m, r) in
      run [("Cache-Control", " a ,b=""x,y"""); ("Cache-control", ""); ("cache-control", "c")]%string = run [("Cache-Control", " a ,b=""x,y"",,c")]%string
      /\ snd (run [("Cache-Control", "c")]%string) = Ok tt).
Proof.
  cbv zeta. split; [|vm_compute; repeat split].
  assert (S : forall s, forallb (fun c => negb (c =? 34) && negb (c =? 44)) s = true -> segment s).
  { induction s as [|c s IH]; intros H; [constructor|]. cbn [forallb] in H. apply andb_prop in H as [H1 H2]. apply andb_prop in H1 as [H0 H1].
    apply Bool.negb_true_iff, N.eqb_neq in H0, H1. constructor; auto. }
  assert (Q : segment (u "b=""x,y""")).
  { apply (seg_chr 98); [discriminate|discriminate|]. apply (seg_chr 61); [discriminate|discriminate|].
    refine (seg_quoted [(120, false); (44, false); (121, false)] [] _ seg_nil).
    repeat (apply Forall_cons; [unfold q_ok, qdtext; cbn; lia|]). apply Forall_nil. }
  repeat (apply Forall_cons; [repeat (apply Forall_cons; [first [exact Q|apply S; reflexivity]|]); apply Forall_nil|]). apply Forall_nil.
Qed.
(** A change of letter case. *)
Example C11_ex : Forall2 recased (raws [("VARY", "a"); ("Age", "1")]%string) (raws [("Vary", "a"); ("aGE", "1")]%string).
Proof. repeat constructor. Qed.
(** In a request, Set-Cookie is misplaced but its checks run on an empty list. *)
Theorem C19_refuted : let '(m, _, r) := lint env0 None (TopRequest (u "GET") (u "/") (u "1.1")) (raws [("Set-Cookie", "a=b"); ("Vary", "a")]%string) [] true [] (new_linter MRequest None false false []) in
  r = Ok tt /\ subjects RESPONSE_HDR_IN_REQUEST (m_notes m) = [u "offset-0"; u "offset-0"]
  /\ value_in false (u "set-cookie") m = Some (VList []) /\ value_in false (u "vary") m = Some VNone.
Proof. vm_compute. repeat split. Qed.
Print Assumptions C19_refuted.
