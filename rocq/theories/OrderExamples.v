(** * Concrete runs for C33, and the order dependence that remains. *)
From Coq Require Import Permutation String.
From Verif Require Import PyStr Regex Grammar NoteTable Note PyLib Utils FieldAttrs Types Fields1 Fields2 Fields3 Framework Checks Message
  EvLogic TestEnv Session SecNotes LintLemmas PropRun FieldSpec PropNames FieldExamples PropStatus OwnLemmas ListExamples PropOrder.
Open Scope N_scope.

Definition one : list rawline := raws [("Vary", "*"); ("Date", "x"); ("Age", "-1"); ("vary", "a"); ("A b", "c"); ("Allow", "@")]%string.
Definition two : list rawline := raws [("A b", "c"); ("Age", "-1"); ("Vary", "*"); ("Allow", "@"); ("vary", "a"); ("Date", "x")]%string.
Definition run_two (l : list rawline) := lint env0 None (TopResponse (u "1.1") (u "200") None) l [] true [] (new_linter MResponse None false false []).
Example C33_hyp : snd (run_two one) = Ok tt /\ snd (run_two two) = Ok tt /\ In (find_class (u "vary")) module_fields /\ ~ In (find_class (u "vary")) social
  /\ hyphened (u "vary") one /\ hyphened (u "vary") two /\ values (u "vary") one = values (u "vary") two /\ reordered one two.
Proof.
  split; [vm_compute; reflexivity|]. split; [vm_compute; reflexivity|]. split; [vm_compute; tauto|].
  split; [intros H; apply (in_map (fname_eqb F_vary)) in H; vm_compute in H; repeat destruct H as [H|H]; try discriminate H; exact H|].
  split; [apply hyphened_dec; vm_compute; reflexivity|]. split; [apply hyphened_dec; vm_compute; reflexivity|]. split; [vm_compute; reflexivity|].
  split.
  - unfold one, two, raws. cbn [map fst snd]. 
    match goal with |- Permutation [?a; ?b; ?c; ?d; ?x; ?y] _ => generalize a b c d x y end. intros a b c d x y.
    eapply Permutation_trans; [|apply Permutation_sym, (Permutation_app_comm [x; c; a; y; d; b] [])]. cbn.
    apply Permutation_sym. apply (Permutation_cons_app [a; b; c; d] [y] x). cbn. apply (Permutation_cons_app [a; b] [d; y] c). cbn.
    apply perm_skip. apply (Permutation_cons_app [b; d] [] y). cbn. constructor.
  - intros k. unfold one, two, raws. cbn [map fst snd filter].
    repeat match goal with |- context [str_eqb (key_of ?r) k] => let v := eval vm_compute in (key_of r) in change (key_of r) with v end.
    repeat match goal with |- context [str_eqb ?v k] => let H := fresh in destruct (str_eqb v k) eqn:H; [apply str_eqb_eq in H; subst k; reflexivity|clear H] end; reflexivity.
Qed.
(** Content-Length's value is judged with what of Transfer-Encoding is parsed by then. *)
Theorem C33_refuted : let a := raws [("Content-Length", "0"); ("Transfer-Encoding", "chunked")]%string in let b := rev a in
  let got l := let '(m, _, r) := run_two l in (r, filter (fun c => nid_eqb c CL_AND_TE_PRESENT) (map n_cls (m_notes m))) in
  got a <> got b /\ fst (got a) = Ok tt /\ fst (got b) = Ok tt.
Proof. vm_compute. repeat split. discriminate. Qed.
Print Assumptions C33_refuted.
