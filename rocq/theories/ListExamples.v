(** * Concrete runs that meet the hypotheses of C30 and C31. *)
From Verif Require Import PyStr NoteTable Note FieldAttrs Types Framework Message TestEnv Session LintLemmas PropRun FieldSpec PropFields PropNames FieldExamples OwnLemmas ListSpec PropLists PropCC.
Open Scope N_scope.

Lemma hyphened_dec k l : forallb (fun r => negb (str_eqb (token_of (name_of r)) (token_of k)) || str_eqb (key_of r) k) l = true -> hyphened k l.
Proof.
  intros H. rewrite forallb_forall in H. apply Forall_forall. intros r Hr E. specialize (H r Hr). rewrite E, str_eqb_refl in H. apply str_eqb_eq, H.
Qed.
Definition cc_sample : list rawline :=
  raws [("Cache-Control", "Max-Age=60, no-store, max-age=x"); ("Age", "1"); ("cache-control", "max-age=9999999999, public=1, min-fresh=2, private=""a, b"", pre-check=3")]%string.
Example C30_hyp : hyphened (u "cache-control") cc_sample.
Proof. apply hyphened_dec. vm_compute. reflexivity. Qed.
Example C30_ex : let '(m, _, r) := lint env0 None NoTop cc_sample [] true [] (new_linter MResponse None false false []) in
  r = Ok tt
  /\ value_in false (u "cache-control") m = Some (VList (map (fun p => VTuple [VStr (u (fst p)); snd p])
       [("max-age", VInt 60); ("no-store", VNone); ("max-age", VInt 9999999999); ("public", VStr (u "1")); ("min-fresh", VInt 2); ("private", VStr (u "a, b")); ("pre-check", VInt 3)]%string))
  /\ map (fun x => (fst x, match snd x with [Some (VStr d)] => Some d | _ => None end)) (heard (classes cc_classes) [u "directive"] (m_notes m))
     = map (fun x => (fst (fst x), u (snd (fst x)), option_map u (snd x)))
       [(CC_MISCAP, "offset-0", Some "Max-Age"); (CC_BAD_VALUE_TYPE, "offset-0", Some "max-age"); (CC_MAX_AGE_TOO_LARGE, "offset-2", Some "max-age");
        (CC_SHOULD_NOT_HAVE_VALUE, "offset-2", Some "public"); (CC_CONFLICTING, "field-cache-control", Some "no-store"); (CC_DUP, "field-cache-control", Some "max-age");
        (CC_WRONG_MESSAGE, "field-cache-control", Some "min-fresh"); (CHECK_SINGLE, "field-cache-control", None)]%string.
Proof. vm_compute. repeat split. Qed.
Example C31_ex : let '(m, _, r) := lint env0 None NoTop (raws [("Vary", "Accept, Host,  accept"); ("VARY", "User-Agent, X, *")]%string) [] true [] (new_linter MResponse None false false []) in
  r = Ok tt /\ value_in false (u "vary") m = Some (VList (map (fun s => VStr (u s)) ["accept"; "host"; "user-agent"; "x"; "*"]%string))
  /\ reports vary_classes (m_notes m) = map (fun c => (c, u "field-vary")) [VARY_DUPLICATE; VARY_ASTERISK; VARY_COMPLEX; VARY_USER_AGENT; VARY_HOST].
Proof. vm_compute. repeat split. Qed.
