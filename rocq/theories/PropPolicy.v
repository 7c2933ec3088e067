(** * C44: X-Frame-Options, X-Content-Type-Options, Cross-Origin-Resource-Policy, Referrer-Policy. *)
From Verif Require Import PyStr Regex Grammar NoteTable Note PyLib Utils FieldAttrs Types Fields1 Fields2 Fields3 Framework Checks Message
  EvLogic TestEnv Session SecNotes LintLemmas FieldSpec PropNames OwnLemmas ListSpec PropLists PropCC ListExamples FieldExamples PropInts FieldDue OwnTac PropStatus.
Open Scope N_scope.

(** ** Specification *)
Definition frame_classes : list nid := [FRAME_OPTIONS_DENY; FRAME_OPTIONS_SAMEORIGIN; FRAME_OPTIONS_UNKNOWN].
(** One note, that about the first of DENY and SAMEORIGIN that occurs anywhere in the text, in any case. *)
Definition frame_due (v : str) (r : list nid) : Prop :=
  (occurs (u "DENY") (upper v) /\ r = [FRAME_OPTIONS_DENY])
  \/ (~ occurs (u "DENY") (upper v) /\ occurs (u "SAMEORIGIN") (upper v) /\ r = [FRAME_OPTIONS_SAMEORIGIN])
  \/ (~ occurs (u "DENY") (upper v) /\ ~ occurs (u "SAMEORIGIN") (upper v) /\ r = [FRAME_OPTIONS_UNKNOWN]).
Definition sniff_classes : list nid := [CONTENT_TYPE_OPTIONS; CONTENT_TYPE_OPTIONS_UNKNOWN].
Definition sniff_due (vs : list str) : list nid := [if existsb (one_of ["nosniff"%string]) vs then CONTENT_TYPE_OPTIONS else CONTENT_TYPE_OPTIONS_UNKNOWN].
Definition corp_classes : list nid := [CORP_SAME_ORIGIN; CORP_SAME_SITE; CORP_CROSS_ORIGIN; CROSS_ORIGIN_RESOURCE_POLICY_BAD_VALUE].
Definition corp_due (v : str) : list nid :=
  [if one_of ["same-origin"%string] v then CORP_SAME_ORIGIN else if one_of ["same-site"%string] v then CORP_SAME_SITE
   else if one_of ["cross-origin"%string] v then CORP_CROSS_ORIGIN else CROSS_ORIGIN_RESOURCE_POLICY_BAD_VALUE].
Definition referrer_classes : list nid := [REFERRER_POLICY_UNKNOWN; REFERRER_POLICY_EMPTY; REFERRER_POLICY_MULTIPLE; REFERRER_POLICY_UNSAFE; REFERRER_POLICY_STRICT].
Definition policies : list string :=
  ["no-referrer"; "no-referrer-when-downgrade"; "same-origin"; "origin"; "strict-origin"; "origin-when-cross-origin"; "strict-origin-when-cross-origin"; "unsafe-url"]%string.
Definition careful : list string := ["no-referrer"; "same-origin"; "strict-origin"; "strict-origin-when-cross-origin"]%string.
(** One note for each unknown policy; then about the known ones, of which the last counts. *)
Definition referrer_due (vs : list str) : list nid :=
  let ps := map lower vs in let known := filter (one_of policies) ps in
  map (fun _ => REFERRER_POLICY_UNKNOWN) (filter (fun p => negb (one_of policies p)) ps)
  ++ match rev known with
     | [] => [REFERRER_POLICY_EMPTY]
     | last :: others => only (negb (match others with [] => true | _ => false end)) REFERRER_POLICY_MULTIPLE
                         ++ only (one_of ["unsafe-url"%string] last) REFERRER_POLICY_UNSAFE ++ only (one_of careful last) REFERRER_POLICY_STRICT
     end.

(** ** X-Frame-Options *)
Definition frame_b (v : str) : list nid := [if has_sub (u "DENY") (upper v) then FRAME_OPTIONS_DENY else if has_sub (u "SAMEORIGIN") (upper v) then FRAME_OPTIONS_SAMEORIGIN else FRAME_OPTIONS_UNKNOWN].
Lemma frame_b_due v r : frame_due v r <-> r = frame_b v.
Proof.
  unfold frame_due, frame_b. rewrite <- !has_sub_occurs. destruct (has_sub (u "DENY") (upper v)), (has_sub (u "SAMEORIGIN") (upper v)); intuition congruence.
Qed.
Theorem C44_frame_options : forall e rel top headers chunks complete trailers t start nc head base m' rel',
  lint e rel top headers chunks complete trailers (new_linter t start nc head base) = (m', rel', Ok tt) -> t <> MRequest ->
  hyphened (u "x-frame-options") headers -> hyphened (u "x-frame-options") trailers ->
  exists due, (forall v, frame_due v (due v))
    /\ reports frame_classes (m_notes m') = single_due (u "x-frame-options") due headers ++ single_due (u "x-frame-options") due trailers.
Proof.
  intros e rel top headers chunks complete trailers t start nc head base m' rel' E Ht H1 H2. exists frame_b. split; [intros v; apply frame_b_due; reflexivity|].
  apply (single_run_due frame_classes F_x_frame_options (u "x-frame-options") e rel top headers chunks complete trailers t start nc head base m' rel' E).
  - destruct t; [congruence|vm_compute; reflexivity|vm_compute; reflexivity].
  - intros x. unfold eva. cbn [eval_of]. unfold keep, ev_xfo. nks.
  - exact H1.
  - exact H2.
  - reflexivity.
  - intros v. unfold par, eva. cbn [parse_of eval_of]. unfold p_xfo, keep, ev_xfo, frame_b. cbn [snd fst ret Types.h_val blank_of as_str app]. rewrite lift_ok.
    destruct (has_sub (u "DENY") (upper v)); [reflexivity|]. destruct (has_sub (u "SAMEORIGIN") (upper v)); reflexivity.
Qed.
Print Assumptions C44_frame_options.

(** ** X-Content-Type-Options *)
Theorem C44_content_type_options : forall e rel top headers chunks complete trailers t start nc head base m' rel',
  lint e rel top headers chunks complete trailers (new_linter t start nc head base) = (m', rel', Ok tt) -> t <> MRequest ->
  hyphened (u "x-content-type-options") headers -> hyphened (u "x-content-type-options") trailers ->
  reports sniff_classes (m_notes m') = list_due (u "x-content-type-options") sniff_due headers ++ list_due (u "x-content-type-options") sniff_due trailers.
Proof.
  intros e rel top headers chunks complete trailers t start nc head base m' rel' E Ht H1 H2.
  rewrite (list_run_due sniff_classes F_x_content_type_options (u "x-content-type-options") e rel top headers chunks complete trailers t start nc head base m' rel' E) with (due1 := fun _ => []) (due := sniff_due).
  - rewrite !member_none. reflexivity.
  - its_type.
  - intros x. unfold eva. cbn [eval_of]. unfold keep, ev_xcto. nks.
  - exact H1.
  - exact H2.
  - reflexivity.
  - reflexivity.
  - intros vs. unfold par, eva. cbn [parse_of eval_of]. unfold p_id, keep, ev_xcto. rewrite (strs_back (fun v => v)). cbn [Types.h_val blank_of as_list]. rewrite lift_ok, map_id. unfold sniff_due.
    replace (existsb (fun x => eq_text x (u "nosniff")) (map VStr vs)) with (existsb (one_of ["nosniff"%string]) vs); [destruct (existsb _ vs); reflexivity|].
    induction vs as [|v vs IH]; [reflexivity|]. cbn [map existsb]. rewrite <- IH, one_single. reflexivity.
Qed.
Print Assumptions C44_content_type_options.

(** ** Cross-Origin-Resource-Policy *)
Theorem C44_resource_policy : forall e rel top headers chunks complete trailers t start nc head base m' rel',
  lint e rel top headers chunks complete trailers (new_linter t start nc head base) = (m', rel', Ok tt) -> t <> MRequest ->
  hyphened (u "cross-origin-resource-policy") headers -> hyphened (u "cross-origin-resource-policy") trailers ->
  reports corp_classes (m_notes m') = single_due (u "cross-origin-resource-policy") corp_due headers ++ single_due (u "cross-origin-resource-policy") corp_due trailers.
Proof.
  intros e rel top headers chunks complete trailers t start nc head base m' rel' E Ht H1 H2.
  apply (single_run_due corp_classes F_cross_origin_resource_policy (u "cross-origin-resource-policy") e rel top headers chunks complete trailers t start nc head base m' rel' E).
  - its_type.
  - intros x. unfold eva. cbn [eval_of]. unfold keep, ev_corp. nks.
  - exact H1.
  - exact H2.
  - reflexivity.
  - intros v. unfold par, eva. cbn [parse_of eval_of]. unfold p_id, keep, ev_corp, corp_due. cbn [snd fst ret Types.h_val blank_of app]. rewrite !one_single. unfold eq_text. cbn [str_of].
    destruct (str_eqb v (u "same-origin")); [reflexivity|]. destruct (str_eqb v (u "same-site")); [reflexivity|]. destruct (str_eqb v (u "cross-origin")); reflexivity.
Qed.
Print Assumptions C44_resource_policy.

(** ** Referrer-Policy *)
Theorem C44_referrer_policy : forall e rel top headers chunks complete trailers t start nc head base m' rel',
  lint e rel top headers chunks complete trailers (new_linter t start nc head base) = (m', rel', Ok tt) -> t <> MRequest ->
  hyphened (u "referrer-policy") headers -> hyphened (u "referrer-policy") trailers ->
  reports referrer_classes (m_notes m') = list_due (u "referrer-policy") referrer_due headers ++ list_due (u "referrer-policy") referrer_due trailers.
Proof.
  intros e rel top headers chunks complete trailers t start nc head base m' rel' E Ht H1 H2.
  rewrite (list_run_due referrer_classes F_referrer_policy (u "referrer-policy") e rel top headers chunks complete trailers t start nc head base m' rel' E) with (due1 := fun _ => []) (due := referrer_due).
  - rewrite !member_none. reflexivity.
  - its_type.
  - intros x. unfold eva. cbn [eval_of]. unfold keep, ev_referrer_policy. nks.
  - exact H1.
  - exact H2.
  - reflexivity.
  - reflexivity.
  - intros vs. unfold par, eva. cbn [parse_of eval_of]. rewrite keep_fst. unfold p_lower, ev_referrer_policy. rewrite strs_back. cbn [Types.h_val blank_of]. rewrite strs_list, lift_ok. unfold referrer_due.
    cbv zeta. generalize (map lower vs). clear vs. intros ps.
    assert (V : forall p, str_in p valid_referrer = one_of policies p) by (intros p; apply (str_in_one policies)).
    assert (S : forall p, str_in p strict_referrer = one_of careful p) by (intros p; apply (str_in_one careful)).
    rewrite (filter_ext _ _ V). set (known := filter (one_of policies) ps).
    rewrite bind_iter by (intros a; destruct (negb _); reflexivity). rewrite speak_app, !map_app. f_equal.
    + clear known. induction ps as [|p ps IH]; [reflexivity|]. cbn [flat_map filter]. rewrite speak_app, map_app, IH, V. destruct (negb (one_of policies p)); reflexivity.
    + clearbody known. destruct known as [|a k0] eqn:Ek; [reflexivity|].
      assert (R : rev known = last known [] :: rev (removelast known)). { rewrite (app_removelast_last (l := known) []) at 1 by (subst; discriminate). apply rev_unit. }
      rewrite Ek in R. rewrite R. set (eff := last (a :: k0) []).
      assert (Len : Nat.ltb 1 (length (a :: k0)) = negb (match rev (removelast (a :: k0)) with [] => true | _ => false end)).
      { assert (RN : forall l : list str, (match rev l with [] => true | _ => false end) = (match l with [] => true | _ => false end)).
        { intros [|x l]; [reflexivity|]. cbn [rev]. destruct (rev l ++ [x]) eqn:Er; [apply app_eq_nil in Er as [_ Er]; discriminate|reflexivity]. }
        rewrite RN. destruct k0; reflexivity. }
      rewrite Len, S, !one_single. destruct (negb _); destruct (str_eqb eff (u "unsafe-url")) eqn:Eu.
      1, 3: apply str_eqb_eq in Eu; rewrite Eu; reflexivity.
      all: destruct (one_of careful eff); reflexivity.
Qed.
Print Assumptions C44_referrer_policy.
Definition policy_sample : list rawline :=
  raws [("X-Frame-Options", "SameOrigin"); ("X-Content-Type-Options", "a, nosniff"); ("Cross-Origin-Resource-Policy", "same-site"); ("Referrer-Policy", "Origin, x"); ("x-frame-options", "deny"); ("referrer-policy", "strict-origin")]%string.
Example C44_ex : let '(m, _, r) := lint env0 None NoTop policy_sample [] true (raws [("Referrer-Policy", "y")]%string) (new_linter MResponse None false false []) in
  r = Ok tt /\ map fst (reports frame_classes (m_notes m)) = [FRAME_OPTIONS_SAMEORIGIN] /\ map fst (reports sniff_classes (m_notes m)) = [CONTENT_TYPE_OPTIONS]
  /\ reports corp_classes (m_notes m) = [(CORP_SAME_SITE, u "field-cross-origin-resource-policy")]
  /\ map fst (reports referrer_classes (m_notes m)) = [REFERRER_POLICY_UNKNOWN; REFERRER_POLICY_MULTIPLE; REFERRER_POLICY_STRICT; REFERRER_POLICY_UNKNOWN; REFERRER_POLICY_EMPTY].
Proof. vm_compute. repeat split. Qed.
Example C44_hyp : hyphened (u "x-frame-options") policy_sample /\ hyphened (u "referrer-policy") policy_sample /\ hyphened (u "cross-origin-resource-policy") policy_sample.
Proof. repeat split; apply hyphened_dec; vm_compute; reflexivity. Qed.
