(** * C74: general notes of the files about single fields. *)
From Verif Require Import PyStr NoteTable Note PyLib Utils FieldAttrs Types Framework Message TestEnv EvLogic NameLemmas Session LintLemmas PassFrame PassFrame FiledSpec FiledPass FiledDate FieldExamples ListExamples.
Open Scope N_scope.

(** The general notes about the one field they belong to, other than the two about dates. *)
Definition of_a_field : list nid := filter own_general all_nids.
Lemma frame_in n : framework n = true -> In n (BAD_SYNTAX :: with_field ++ apart_from_field).
Proof.
  intros F. assert (X : forallb (fun n => if framework n then existsb (nid_eqb n) (BAD_SYNTAX :: with_field ++ apart_from_field) else true) all_nids = true) by (vm_compute; reflexivity).
  rewrite forallb_forall in X. specialize (X n (all_nids_complete n)). cbv beta in X. rewrite F in X. apply existsb_exists in X as (x & Hx & Ex). apply nid_eqb_eq in Ex. subst x. exact Hx.
Qed.
Theorem C74_of_a_field : forall n, In n of_a_field <->
  nid_category n = GENERAL /\ String.prefix "field/" (nid_file n) = true /\ ~ In n (BAD_SYNTAX :: with_field ++ apart_from_field) /\ n <> BAD_DATE_SYNTAX /\ n <> DATE_OBSOLETE.
Proof.
  intros n. split.
  - intros H. assert (X : forallb (fun n => category_eqb (nid_category n) GENERAL && String.prefix "field/" (nid_file n) && negb (existsb (nid_eqb n) (BAD_SYNTAX :: with_field ++ apart_from_field)) && negb (about_date n)) of_a_field = true) by (vm_compute; reflexivity).
    rewrite forallb_forall in X. specialize (X n H). cbv beta in X. rewrite !Bool.andb_true_iff, !Bool.negb_true_iff in X. destruct X as (((A & B) & C) & D). split; [destruct (nid_category n); (reflexivity || discriminate A)|]. split; [exact B|].
    split; [|split; intros ->; discriminate D]. intros I. apply Bool.not_true_iff_false in C. apply C. apply existsb_exists. exists n. split; [exact I|]. destruct (nid_eqb n n) eqn:Z; [reflexivity|]. pose proof (proj2 (nid_eqb_eq n n) eq_refl). congruence.
  - intros (A & B & C & D1 & D2). unfold of_a_field. apply filter_In. split; [apply all_nids_complete|]. unfold own_general. rewrite A, B. cbn [category_eqb andb].
    assert (F : framework n = false) by (destruct (framework n) eqn:F; [|reflexivity]; exfalso; apply C, frame_in, F).
    rewrite F. assert (Dd : about_date n = false) by (destruct n; (reflexivity || contradiction)). rewrite Dd. reflexivity.
Qed.
Lemma in_own n : In n of_a_field -> own_general n = true.
Proof.
  intros H. apply C74_of_a_field in H. destruct H as (A & B & C & D1 & D2). unfold own_general. rewrite A, B. cbn [category_eqb andb].
  destruct (framework n) eqn:F.
  - exfalso. apply C. apply frame_in, F.
  - assert (Dd : about_date n = false) by (destruct n; (reflexivity || contradiction)). rewrite Dd. reflexivity.
Qed.
Theorem C74_own : forall e rel top headers chunks complete trailers t start nc head base m' rel' n,
  lint e rel top headers chunks complete trailers (new_linter t start nc head base) = (m', rel', Ok tt) ->
  In n (m_notes m') -> In (n_cls n) of_a_field -> n_cat n = GENERAL.
Proof.
  intros e rel top headers chunks complete trailers t start nc head base m' rel' n E Hn I. pose proof (lint_plain _ _ _ _ _ _ _ _ _ _ _ _ _ _ E) as P. rewrite Forall_forall in P.
  apply (P n Hn), in_own, I.
Qed.
Print Assumptions C74_own.
(** The notes about dates. *)
Theorem C74_dates : forall e rel top headers chunks complete trailers t start nc head base m' rel' n,
  lint e rel top headers chunks complete trailers (new_linter t start nc head base) = (m', rel', Ok tt) ->
  In n (m_notes m') -> n_cls n = BAD_DATE_SYNTAX \/ n_cls n = DATE_OBSOLETE ->
  exists raws k, (raws = headers \/ raws = trailers) /\ about_a_field raws n k
    /\ In (find_class k) [F_date; F_expires; F_last_modified; F_sunset] /\ n_cat n = category_of k.
Proof.
  intros e rel top headers chunks complete trailers t start nc head base m' rel' n E Hn I. pose proof (lint_dated _ _ _ _ _ _ _ _ _ _ _ _ _ _ E) as P. rewrite Forall_forall in P.
  destruct (P n Hn) as (k & [Hk Hd] & Hs & Hc); [destruct I as [-> | ->]; reflexivity|].
  assert (Hi : In (find_class k) [F_date; F_expires; F_last_modified; F_sunset]) by (destruct (find_class k); (discriminate Hd || (cbn; auto))).
  destruct Hk as [Hk|Hk]; [exists headers, k|exists trailers, k]; (split; [auto|]); (split; [split; assumption|]); split; assumption.
Qed.
Print Assumptions C74_dates.
(** ** Example: general notes of fields filed under caching and under security; a date has the category of its field. *)
Definition own_notes (hs : list (string * string)) := let '(m, _, r) := lint env0 None (TopResponse (u "1.1") (u "200") None) (raws hs) [] true [] (new_linter MResponse None false false []) in
  (r, map (fun n => (n_cls n, n_cat n)) (filter (fun n => existsb (nid_eqb (n_cls n)) (BAD_DATE_SYNTAX :: of_a_field)) (m_notes m))).
Example C74_own_ex : own_notes [("Via", "1.1 a"); ("Expires", "tomorrow"); ("Last-Modified", "tomorrow"); ("Content-Type", "text/plain;a=1;a=2"); ("Link", "<a>; rev=b")]%string
  = (Ok tt, [(LINK_REV, GENERAL); (VIA_PRESENT, GENERAL); (BAD_DATE_SYNTAX, CACHING); (BAD_DATE_SYNTAX, CACHING); (PARAM_REPEATS, GENERAL)]).
Proof. vm_compute. reflexivity. Qed.
