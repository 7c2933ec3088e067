(** * Which notes a session can have. *)
From Verif Require Import PyStr Regex Note PyLib Utils FieldAttrs Types Framework Checks Message Session
  EvLogic NoteLemmas ContentLemmas FrameLemmas BodyLemmas PassFrame PassSec PassProc PassMsg PassRun.
Open Scope N_scope.

(** [P] and [F] have no class in common. *)
Definition apart (P F : nid -> bool) : Prop := forall n, F n = true -> P n = false.
Lemma apart_among l F : forallb (fun n => negb (F n)) l = true -> apart (among l) F.
Proof.
  intros H n Hn. rewrite forallb_forall in H. destruct (among l n) eqn:E; [|reflexivity].
  apply among_In in E. specialize (H n E). rewrite Hn in H. discriminate.
Qed.
Lemma off_among l : forallb (fun n => negb (String.prefix "field/" (nid_file n))) l = true -> off_field (among l).
Proof.
  intros H. apply off_prefix. intros n Hn. apply among_In in Hn. rewrite forallb_forall in H. specialize (H n Hn).
  destruct (String.prefix _ _); [discriminate|reflexivity].
Qed.

(** A session goes through the states of [linted]. *)
Lemma feed_all_linted e rel chunks : forall m m', linted e rel Headed m -> feed_all e chunks m = (m', Ok tt) -> linted e rel Headed m'.
Proof.
  induction chunks as [|c cs IH]; intros m m' H E; cbn [feed_all] in E; [injection E as <-; exact H|].
  destruct (feed_content e c m) as [m1 [x|x]] eqn:Ec; cbn [then_] in E; [|discriminate].
  apply (IH m1 m'); [|exact E]. change Headed with (after (Ok x) Headed). apply (L_feed e rel m c m1 (Ok x) H Ec).
Qed.
Lemma lint_stages e rel top headers chunks complete trailers t start nc head base m' rel' :
  lint e rel top headers chunks complete trailers (new_linter t start nc head base) = (m', rel', Ok tt) ->
  exists p m0 m1 m, (p = Fresh \/ p = Started) /\ linted e rel p m0 /\ start_line e top (new_linter t start nc head base) = (m0, Ok tt)
    /\ process_headers e rel headers m0 = (m1, Ok tt) /\ feed_all e chunks m1 = (m, Ok tt)
    /\ linted e rel Headed m1 /\ linted e rel Headed m /\ finish_content e rel complete trailers m = (m', rel', Ok tt).
Proof.
  unfold lint. pose proof (L_new e rel t start nc head base) as H0. set (mm := new_linter t start nc head base) in *. clearbody mm.
  destruct (start_line e top mm) as [m0 [[]|x]] eqn:E0; cbn [then_]; [|discriminate].
  destruct (process_headers e rel headers m0) as [m1 [[]|x]] eqn:E1; cbn [then_]; [|discriminate].
  destruct (feed_all e chunks m1) as [m [[]|x]] eqn:E2; [|discriminate]. intros E3.
  assert (S : exists p, (p = Fresh \/ p = Started) /\ linted e rel p m0).
  { destruct top as [|a b c|a b c]; cbn [start_line] in E0.
    - exists Fresh. injection E0 as <-. auto.
    - exists Started. split; [auto|]. change Started with (after (Ok tt) Started). apply (L_request e rel _ _ _ _ _ _ H0 E0).
    - exists Started. split; [auto|]. injection E0 as <-. apply L_response, H0. }
  destruct S as (p & Hp & S).
  assert (S1 : linted e rel Headed m1) by (change Headed with (after (Ok tt) Headed); apply (L_headers e rel p _ _ _ _ S Hp E1)).
  exists p, m0, m1, m. split; [exact Hp|]. split; [exact S|]. split; [first [reflexivity|exact E0]|]. split; [exact E1|]. split; [exact E2|].
  split; [exact S1|]. split; [apply (feed_all_linted e rel chunks m1 m S1 E2)|exact E3].
Qed.

(** What stays the same throughout. *)
Definition setup (m : mstate) := (m_type m, m_start m, m_no_content m, m_head m, m_base m).
Lemma setup_top e a b c m : setup (fst (process_request_topline e a b c m)) = setup m.
Proof.
  unfold process_request_topline, set_uri. destruct (iri_to_uri _ _) as [uri|x]; [|destruct (is_ValueError x)]; cbn [fst]; auto.
  destruct (match_ws_dollar _ _); destruct (Nat.ltb _ _); cbn [fst]; auto.
Qed.
Lemma setup_status a b c m : setup (process_response_topline a b c m) = setup m.
Proof.
  unfold process_response_topline. destruct (py_int _); destruct c as [[|x c]|]; auto; destruct (decode_ascii_strict _); auto.
Qed.
Lemma setup_start e top m : setup (fst (start_line e top m)) = setup m.
Proof. destruct top; cbn [start_line]; [reflexivity|apply setup_top|apply setup_status]. Qed.
Lemma setup_headers e rel l m : setup (fst (process_headers e rel l m)) = setup m.
Proof. rewrite (process_headers_frame e rel l m). reflexivity. Qed.
Lemma setup_feed e l m : setup (fst (feed_all e l m)) = setup m.
Proof. rewrite (feed_all_body e l m). reflexivity. Qed.
Lemma setup_finish e rel c tr m : setup (fst (fst (finish_content e rel c tr m))) = setup m.
Proof. destruct (finish_content_frame e rel c tr m) as [-> _]. reflexivity. Qed.

(** ** Notes of classes in [P] before the end *)
Lemma early_sel P e rel p m : off_field P -> apart P (among top_classes) -> apart P (in_file dec_file) ->
  linted e rel p m -> (p = Fresh \/ p = Started \/ p = Headed) -> sel P (m_notes m) = [].
Proof.
  intros HP Ht Hd. induction 1 as [t start nc head base|m a b c m' r H IH E|m a b c H IH|p m raws m' r H IH Hp E
                 |m chunk m' r H IH E|m complete trailers m' rel' r H IH E]; intros Hq.
  - reflexivity.
  - pose proof (request_topline_pass e a b c m) as P0. rewrite E in P0. rewrite (mnoted_sel _ _ _ _ Ht (proj1 P0)). auto.
  - rewrite (mnoted_sel _ _ _ _ Ht (response_topline_pass a b c m)). auto.
  - destruct (linted_inv _ _ _ _ H) as [_ U0].
    assert (U : untouched m) by (destruct Hp; subst p; exact U0). destruct U as (U1 & _).
    pose proof (process_headers_pass (fun _ => True) (fun _ => True) e rel m raws) as P0. rewrite U1 in P0. specialize (P0 eq_refl).
    rewrite E in P0. destruct P0 as [N _]; [apply Forall_forall; auto|]. rewrite (noted_sel _ _ _ HP N). apply IH. destruct Hp; auto.
  - pose proof (feed_pass e chunk m) as P0. rewrite E in P0. rewrite (mnoted_sel _ _ _ _ Hd (proj1 P0)). auto.
  - destruct r; cbn in Hq; destruct Hq as [?|[?|?]]; discriminate.
Qed.
(** ... and at the end *)
Lemma finish_sel P e rel complete trailers m m' rel' : off_field P -> apart P post_files ->
  linted e rel Headed m -> finish_content e rel complete trailers m = (m', rel', Ok tt) ->
  exists m2, m_notes (check_content_length m2) = m_notes m2 ++ skipn (length (m_notes m2)) (m_notes (check_content_length m2))
  /\ sel P (m_notes m2) = sel P (m_notes m) /\ sel P (m_notes m') = sel P (m_notes (check_content_length m2))
  /\ setup m2 = setup m /\ m_headers m2 = m_headers m /\ m_clen m2 = m_clen m /\ m_status m2 = m_status m.
Proof.
  intros HP Hf H E. destruct (linted_inv _ _ _ _ H) as [_ (A & B & C)].
  destruct (finish_pass_stages (fun _ => True) (fun _ => True) e rel complete trailers m m' rel' (Ok tt) A B) as (m0 & m1 & -> & N & S & D & _).
  { apply Forall_forall. auto. }
  { exact E. }
  destruct D as [((x & Hx) & _)|(m2 & m3 & -> & N2 & F2 & _ & N3 & _ & _)]; [discriminate|].
  eexists. split; [|split; [|split; [|split; [|split; [|split]]]]].
  3: { rewrite (noted_sel _ _ _ HP N3), (mnoted_sel _ _ _ _ Hf N2). reflexivity. }
  2: { cbn [m_notes m_set_dec_hash]. rewrite (noted_sel _ _ _ HP N). reflexivity. }
  - set (m2 := m_set_dec_hash _ m1). clearbody m2.
    assert (X : exists l, m_notes (check_content_length m2) = m_notes m2 ++ l).
    { unfold check_content_length. repeat match goal with |- context [if ?b then _ else _] => destruct b | |- context [match m_get ?a ?b with _ => _ end] => destruct (m_get a b) end;
        try (eexists; reflexivity); exists []; rewrite app_nil_r; reflexivity. }
    destruct X as [l ->]. rewrite skipn_app, skipn_all, Nat.sub_diag. reflexivity.
  - rewrite S. reflexivity.
  - rewrite S. reflexivity.
  - rewrite S. reflexivity.
  - rewrite S. reflexivity.
Qed.

(** The state before [finish_content] of a session that did not raise. *)
Lemma lint_facts e rel top headers chunks complete trailers t start nc head base m' rel' :
  lint e rel top headers chunks complete trailers (new_linter t start nc head base) = (m', rel', Ok tt) ->
  setup m' = (t, start, nc, head, base) /\ m_clen m' = N.of_nat (length (concat chunks))
  /\ exists m, linted e rel Headed m /\ finish_content e rel complete trailers m = (m', rel', Ok tt)
       /\ setup m = setup m' /\ m_headers m' = m_headers m /\ m_status m' = m_status m /\ m_method m' = m_method m /\ m_clen m' = m_clen m
       /\ (nc = true -> m_hashed m = [] /\ m_sample m = [] /\ m_dec_hashed m = [] /\ m_pipeline m = None).
Proof.
  intros E. destruct (lint_stages _ _ _ _ _ _ _ _ _ _ _ _ _ _ E) as (p & m0 & m1 & m & Hp & L0 & E0 & E1 & E2 & L1 & L2 & E3).
  pose proof (setup_start e top (new_linter t start nc head base)) as S0. rewrite E0 in S0.
  pose proof (setup_headers e rel headers m0) as S1. rewrite E1 in S1.
  pose proof (setup_feed e chunks m1) as S2. rewrite E2 in S2.
  pose proof (setup_finish e rel complete trailers m) as S3. rewrite E3 in S3. cbn [fst] in *.
  assert (SS : setup m' = (t, start, nc, head, base)) by (rewrite S3, S2, S1, S0; reflexivity).
  assert (B0 : m_clen m0 = 0 /\ m_hashed m0 = [] /\ m_sample m0 = [] /\ m_dec_hashed m0 = [] /\ m_pipeline m0 = None).
  { destruct top as [|a b c|a b c]; cbn [start_line] in E0.
    - injection E0 as <-. repeat split.
    - unfold process_request_topline, set_uri in E0.
      destruct (iri_to_uri _ _) as [uri|x]; [|destruct (is_ValueError x)].
      + destruct (match_ws_dollar _ _), (Nat.ltb _ _); injection E0 as <-; repeat split.
      + injection E0 as <-; repeat split.
      + discriminate.
    - injection E0 as <-. unfold process_response_topline. destruct (py_int _); destruct c as [[|y c]|]; try destruct (decode_ascii_strict _); repeat split. }
  assert (B1 : m_clen m1 = 0 /\ m_hashed m1 = [] /\ m_sample m1 = [] /\ m_dec_hashed m1 = [] /\ m_pipeline m1 = None).
  { pose proof (process_headers_frame e rel headers m0) as F. rewrite E1 in F. cbn [fst] in F. rewrite F. exact B0. }
  assert (CL : m_clen m = N.of_nat (length (concat chunks))).
  { pose proof (feed_all_length e chunks m1) as F. rewrite E2 in F. destruct (F eq_refl) as [F1 _]. cbn [fst] in F1. rewrite F1.
    destruct B1 as (-> & _). lia. }
  destruct (finish_content_frame e rel complete trailers m) as [F3 _]. rewrite E3 in F3. cbn [fst] in F3.
  assert (C3 : m_clen m' = m_clen m) by (rewrite F3; reflexivity).
  split; [exact SS|]. split; [rewrite C3; exact CL|]. exists m. split; [exact L2|]. split; [exact E3|]. split; [symmetry; exact S3|].
  split; [rewrite F3; reflexivity|]. split; [rewrite F3; reflexivity|]. split; [rewrite F3; reflexivity|]. split; [exact C3|].
  intros ->. assert (N1 : m_no_content m1 = true) by (assert (X : setup m1 = (t, start, true, head, base)) by (rewrite S1, S0; reflexivity); injection X as _ _ X _ _; exact X).
  rewrite (feed_all_no_content e chunks m1 N1) in E2. injection E2 as <-. cbn. tauto.
Qed.
