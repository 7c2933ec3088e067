(** * Properties of request and status lines: C35, C37. *)
From Verif Require Import PyStr Regex Grammar Note PyLib Utils FieldAttrs Types Framework Checks Message Session
  EvLogic NoteLemmas TestEnv ContentLemmas LexLemmas ParamLemmas NumLemmas FrameLemmas BodyLemmas PassFrame PassSec PassProc PassMsg PassRun
  SessionLemmas EndLemmas PropBody.
Open Scope N_scope.

(** The classes [P] that only the top line can report. *)
Lemma lint_top P e rel top headers chunks complete trailers t start nc head base m' rel' :
  off_field P -> apart P (in_file dec_file) -> apart P (among [CL_CORRECT; CL_INCORRECT; CONTENT_NOT_ALLOWED]) -> apart P post_files ->
  lint e rel top headers chunks complete trailers (new_linter t start nc head base) = (m', rel', Ok tt) ->
  exists m0, start_line e top (new_linter t start nc head base) = (m0, Ok tt)
    /\ sel P (m_notes m') = sel P (m_notes m0)
    /\ m_method m' = m_method m0 /\ m_version m' = m_version m0 /\ m_uri m' = m_uri m0 /\ m_iri m' = m_iri m0
    /\ m_status m' = m_status m0 /\ m_status_str m' = m_status_str m0 /\ m_phrase m' = m_phrase m0.
Proof.
  intros O1 O3 O4 O5 E.
  destruct (lint_stages _ _ _ _ _ _ _ _ _ _ _ _ _ _ E) as (p & m0 & m1 & m & Hp & L0 & E0 & E1 & E2 & L1 & L2 & E3).
  exists m0. split; [exact E0|].
  destruct (linted_inv _ _ _ _ L0) as [_ U0].
  assert (U : untouched m0) by (destruct Hp; subst p; exact U0). destruct U as (U1 & _).
  pose proof (process_headers_pass (fun _ => True) (fun _ => True) e rel m0 headers) as P0. rewrite U1 in P0. specialize (P0 eq_refl).
  rewrite E1 in P0. destruct P0 as [N _]; [apply Forall_forall; auto|].
  pose proof (process_headers_frame e rel headers m0) as F1. rewrite E1 in F1. cbn [fst] in F1.
  pose proof (feed_all_body e chunks m1) as F2. rewrite E2 in F2. cbn [fst] in F2.
  assert (S2 : sel P (m_notes m) = sel P (m_notes m1)).
  { clear - E2 O3 L1. revert m1 E2 L1. induction chunks as [|c cs IH]; intros m1 E2 L1; cbn [feed_all] in E2; [injection E2 as <-; reflexivity|].
    pose proof (feed_pass e c m1) as Q. destruct (feed_content e c m1) as [m2 [x|x]] eqn:Ec; cbn [then_] in E2; [|discriminate].
    assert (L2 : linted e rel Headed m2) by (change Headed with (after (Ok x) Headed); apply (L_feed e rel m1 c m2 (Ok x) L1 Ec)).
    rewrite (IH m2 E2 L2). apply (mnoted_sel _ _ _ _ O3 (proj1 Q)). }
  destruct (finish_sel P e rel complete trailers m m' rel' O1 O5 L2 E3) as (m2 & _ & G1 & G2 & _).
  destruct (finish_content_frame e rel complete trailers m) as [F3 _]. rewrite E3 in F3. cbn [fst] in F3.
  split.
  { rewrite G2. assert (G3 : sel P (m_notes (check_content_length m2)) = sel P (m_notes m2)).
    { destruct (content_length_pass m2) as [Z|(n & En & Ek & ->)].
      + apply (mnoted_sel _ _ _ _) with (2 := Z). intros n Hn. apply O4, among_In. apply among_In in Hn. cbn in Hn |- *. tauto.
      + rewrite sel_app. unfold sel at 2. cbn [filter]. rewrite (O4 (n_cls n)); [apply app_nil_r|]. apply among_In. rewrite En. cbn. auto. }
    rewrite G3, G1, S2. apply (noted_sel _ _ _ O1 N). }
  rewrite F3. cbn. rewrite F2. cbn. rewrite F1. cbn. repeat split.
Qed.
Lemma top_only l : incl l top_classes -> forall Q : Prop,
  (off_field (among l) -> apart (among l) (in_file dec_file) -> apart (among l) (among [CL_CORRECT; CL_INCORRECT; CONTENT_NOT_ALLOWED]) ->
   apart (among l) post_files -> Q) -> Q.
Proof.
  intros Hi Q K.
  assert (W : forall F, apart (among top_classes) F -> apart (among l) F).
  { intros F H n Hn. specialize (H n Hn). destruct (among l n) eqn:E; [|reflexivity]. apply among_In, Hi, among_In in E. congruence. }
  apply K; [|apply W, apart_among; cls..].
  assert (O : off_field (among top_classes)) by (apply off_among; cls). intros n Hn. specialize (O n Hn).
  destruct (among l n) eqn:E; [|reflexivity]. apply among_In, Hi, among_In in E. congruence.
Qed.
Lemma split1_none c s : split1 c s = None <-> ~ In c s.
Proof.
  induction s as [|x s IH]; cbn [split1 In]; [tauto|]. destruct (N.eqb_spec x c) as [->|Hn].
  - split; [discriminate|tauto].
  - destruct (split1 c s) as [[a b]|]; [|tauto]. split; [discriminate|]. intros H. exfalso. assert (X : Some (a, b) = None) by (apply IH; tauto). discriminate.
Qed.
Lemma split1_some c s : forall a b, split1 c s = Some (a, b) -> s = a ++ c :: b /\ ~ In c a.
Proof.
  induction s as [|x s IH]; intros a b; cbn [split1]; [discriminate|]. destruct (N.eqb_spec x c) as [->|Hn].
  - intros H. injection H as <- <-. split; [reflexivity|tauto].
  - destruct (split1 c s) as [[a' b']|] eqn:E; [|discriminate]. intros H. injection H as <- <-. destruct (IH _ _ eq_refl) as [-> H].
    split; [reflexivity|]. intros [X|X]; congruence || contradiction.
Qed.

(** ** C35 *)
(** A byte that is not ASCII is shown as U+FFFD. *)
Definition shown (b : bytes) : str := map (fun c => if c <? 128 then c else 65533) b.
Definition reported (c : nid) (m : mstate) : Prop := exists n, In n (m_notes m) /\ n_cls n = c.
(** [uri] is [s] up to its first '#'. *)
Definition fragmentless (s uri : str) : Prop := ~ In 35 uri /\ (s = uri \/ exists frag, s = uri ++ 35 :: frag).
Lemma reported_sel c m : reported c m <-> of_classes [c] (m_notes m) <> [].
Proof.
  split.
  - intros (n & Hn & <-) E. assert (X : In n (of_classes [n_cls n] (m_notes m))) by (apply filter_In; split; [exact Hn|cbn; rewrite nid_eqb_refl; reflexivity]).
    rewrite E in X. destruct X.
  - intros H. destruct (of_classes [c] (m_notes m)) as [|n l] eqn:E; [congruence|].
    assert (X : In n (of_classes [c] (m_notes m))) by (rewrite E; left; reflexivity).
    apply filter_In in X as [X Y]. exists n. split; [exact X|]. cbn in Y. rewrite orb_false_r in Y. apply nid_eqb_eq in Y. exact Y.
Qed.
Theorem C35_request : forall e rel method iri version headers chunks complete trailers t start nc head base m' rel',
  lint e rel (TopRequest method iri version) headers chunks complete trailers (new_linter t start nc head base) = (m', rel', Ok tt) ->
  m_method m' = Some (shown method) /\ m_version m' = shown version
  /\ match iri_to_uri e (e_utf8 e iri) with
     | Ok s => exists uri, m_uri m' = Some uri /\ fragmentless s uri
         /\ (reported URI_TOO_LONG m' <-> 8000 < N.of_nat (length uri))
         /\ (reported URI_BAD_SYNTAX m' <-> match_ws_dollar rfc3986_URI s = false)
     | Err _ => m_uri m' = Some (e_utf8 e iri) /\ reported URI_BAD_SYNTAX m' /\ ~ reported URI_TOO_LONG m'
     end
  /\ (length (of_classes [URI_TOO_LONG] (m_notes m')) <= 1)%nat /\ (length (of_classes [URI_BAD_SYNTAX] (m_notes m')) <= 1)%nat.
Proof.
  intros e rel method iri version headers chunks complete trailers t start nc head base m' rel' E.
  assert (T : forall c, In c [URI_TOO_LONG; URI_BAD_SYNTAX] -> exists m0, start_line e (TopRequest method iri version) (new_linter t start nc head base) = (m0, Ok tt)
            /\ of_classes [c] (m_notes m') = of_classes [c] (m_notes m0)
            /\ m_method m' = m_method m0 /\ m_version m' = m_version m0 /\ m_uri m' = m_uri m0).
  { intros c Hc. apply (top_only [c]); [intros x [<-|[]]; cbn in *; tauto|]. intros O1 O2 O3 O4.
    destruct (lint_top _ _ _ _ _ _ _ _ _ _ _ _ _ _ _ O1 O2 O3 O4 E) as (m0 & X & Y & Z1 & Z2 & Z3 & _). eauto 8. }
  destruct (T URI_TOO_LONG) as (m0 & E0 & N1 & M1 & M2 & M3); [left; reflexivity|].
  destruct (T URI_BAD_SYNTAX) as (m0' & E0' & N2 & _); [right; left; reflexivity|].
  assert (m0' = m0) by congruence. subst m0'. clear T E0' E.
  assert (R1 := reported_sel URI_TOO_LONG m'). rewrite N1 in R1.
  assert (R2 := reported_sel URI_BAD_SYNTAX m'). rewrite N2 in R2.
  rewrite M1, M2, M3, N1, N2. clear M1 M2 M3 N1 N2.
  cbn [start_line] in E0. unfold process_request_topline, set_uri in E0.
  destruct (iri_to_uri e (e_utf8 e iri)) as [s|x] eqn:Ei.
  - cbv zeta in E0. set (ma := m_set_iri _ _) in E0.
    set (mb := if match_ws_dollar rfc3986_URI s then ma else _) in E0.
    set (uri := match split1 35 s with Some (a, _) => a | None => s end) in E0.
    set (mc := m_set_uri (Some uri) mb) in E0.
    set (md := if Nat.ltb max_uri_chars (length uri) then _ else _) in E0.
    injection E0 as <-.
    assert (Fu : fragmentless s uri).
    { unfold uri. destruct (split1 35 s) as [[a b]|] eqn:Es.
      - apply split1_some in Es as [-> Hn]. split; [exact Hn|]. right. eauto.
      - apply split1_none in Es. split; auto. }
    clearbody uri.
    assert (Nb : m_notes mb = if match_ws_dollar rfc3986_URI s then [] else [mk_note t (u "uri") URI_BAD_SYNTAX None [] []])
      by (unfold mb; destruct (match_ws_dollar _ _); reflexivity).
    assert (Nd : m_notes md = m_notes mb ++ if Nat.ltb max_uri_chars (length uri) then [mk_note t (u "uri") URI_TOO_LONG None [vs "uri_len" (f_num (Z.of_nat (length uri)))] []] else []).
    { unfold md. destruct (Nat.ltb _ _); [|rewrite app_nil_r; reflexivity]. unfold note_msg. rewrite notes_emit.
      cbn [emit fold_left emit_one]. unfold mc, mb. destruct (match_ws_dollar _ _); reflexivity. }
    assert (Md : m_method md = Some (shown method)) by (unfold md, mc, mb; destruct (Nat.ltb _ _), (match_ws_dollar _ _); reflexivity).
    assert (Ud : m_uri md = Some uri) by (unfold md, mc, mb; destruct (Nat.ltb _ _); reflexivity).
    clearbody md. cbn [m_method m_set_version m_version m_uri m_notes] in *.
    assert (B : Nat.ltb max_uri_chars (length uri) = true <-> 8000 < N.of_nat (length uri)) by (rewrite Nat.ltb_lt; unfold max_uri_chars; lia).
    change (m_notes (m_set_version (decode_ascii_replace version) md)) with (m_notes md).
    change (m_method (m_set_version (decode_ascii_replace version) md)) with (m_method md).
    change (m_uri (m_set_version (decode_ascii_replace version) md)) with (m_uri md).
    change (m_notes (m_set_version (decode_ascii_replace version) md)) with (m_notes md) in R1, R2.
    rewrite Md, Nd, Nb in *. split; [reflexivity|]. split; [reflexivity|].
    unfold of_classes in *. rewrite !filter_app in *.
    split; [exists uri; split; [exact Ud|]; split; [exact Fu|]; split|split].
    + rewrite R1, <- B. clear. destruct (match_ws_dollar _ _), (Nat.ltb _ _); cbn; (split; congruence).
    + rewrite R2. clear. destruct (match_ws_dollar _ _), (Nat.ltb _ _); cbn; (split; congruence).
    + destruct (match_ws_dollar _ _), (Nat.ltb _ _); cbn; lia.
    + destruct (match_ws_dollar _ _), (Nat.ltb _ _); cbn; lia.
  - destruct (is_ValueError x); [|discriminate]. injection E0 as <-. rewrite R1, R2. cbn. repeat split; try congruence; try lia.
Qed.
Print Assumptions C35_request.
Definition uri_run (e : env) (iri : bytes) :=
  lint e None (TopRequest (u "GET") iri (u "1.1")) [] [] true [] (new_linter MRequest None false false []).
Example C35_request_ex : let '(m, _, r) := uri_run env0 (u "/a#b") in
  r = Ok tt /\ iri_to_uri env0 (u "/a#b") = Ok (u "/a#b") /\ m_uri m = Some (u "/a").
Proof. vm_compute. repeat split. Qed.
(** So the uri has a fragment when the target cannot be converted. *)
Definition env_bad_url : env :=
  env_with (e_sf_list env0) (e_json env0) (fun _ => Err EValue) (e_codec env0) (e_decode env0).
Theorem C35_refuted : let '(m, _, r) := uri_run env_bad_url (u "http://[a#b") in
  r = Ok tt /\ exists uri, m_uri m = Some uri /\ In 35 uri.
Proof. vm_compute. split; [reflexivity|]. eexists. split; [reflexivity|]. repeat (first [left; reflexivity|right]). Qed.
Print Assumptions C35_refuted.

(** ** C37 *)
Lemma drop_while_split p (s : str) : exists a, s = a ++ drop_while p s /\ forallb p a = true.
Proof.
  induction s as [|c s (a & E & H)]; [exists []; auto|]. cbn. destruct (p c) eqn:Ep; [|exists []; auto].
  exists (c :: a). cbn. rewrite Ep. split; [f_equal; exact E|exact H].
Qed.
Lemma drop_while_app p (a s : str) : forallb p a = true -> drop_while p (a ++ s) = drop_while p s.
Proof. induction a as [|c a IH]; intros H; cbn in *; [reflexivity|]. apply andb_true_iff in H as [-> H]. auto. Qed.
Lemma drop_while_first p (s : str) c : first_chr (drop_while p s) = Some c -> p c = false.
Proof. induction s as [|x s IH]; cbn; [discriminate|]. destruct (p x) eqn:E; [exact IH|]. cbn. intros H. injection H as ->. exact E. Qed.
Lemma forallb_rev {A} p (a : list A) : forallb p (rev a) = forallb p a.
Proof. induction a as [|c a IH]; [reflexivity|]. cbn. rewrite forallb_app, IH. cbn. rewrite andb_true_r. apply andb_comm. Qed.
Lemma grouped_chars s ds : grouped s ds -> forall c, In c s -> is_digit c = true \/ c = 95.
Proof.
  intros (gs & _ & Hg & -> & _). induction Hg as [|g gs [_ Hg] _ IH]; intros c; [intros []|].
  assert (D : In c g -> is_digit c = true) by (rewrite forallb_forall in Hg; apply Hg).
  destruct gs as [|g2 gs]; [cbn; auto|]. change (join uscore (g :: g2 :: gs)) with (g ++ 95 :: join uscore (g2 :: gs)).
  rewrite in_app_iff. intros [H|[<-|H]]; auto.
Qed.
Lemma grouped_last s ds : grouped s ds -> exists c, last_chr s = Some c /\ is_digit c = true.
Proof.
  intros (gs & Hne & Hg & -> & _). induction Hg as [|g gs [Hn Hg] _ IH]; [congruence|].
  destruct gs as [|g2 gs].
  - cbn. unfold last_chr. destruct (rev g) as [|c r] eqn:E; [apply (f_equal (@rev N)) in E; rewrite rev_involutive in E; contradiction|].
    exists c. split; [reflexivity|]. rewrite forallb_forall in Hg. apply Hg, in_rev. rewrite E. left. reflexivity.
  - destruct IH as (c & E & H); [congruence|]. exists c. split; [|exact H].
    change (join uscore (g :: g2 :: gs)) with (g ++ 95 :: join uscore (g2 :: gs)). unfold last_chr in *. rewrite rev_app_distr.
    cbn [rev]. destruct (rev (join uscore (g2 :: gs))); [discriminate|exact E].
Qed.
Lemma digit_space c : is_digit c = true -> isspace c = false.
Proof.
  intros Hc. unfold is_digit in Hc. apply andb_true_iff in Hc as [H1 H2]. apply N.leb_le in H1, H2.
  unfold isspace. rewrite !orb_false_iff, !andb_false_iff, !N.eqb_neq, !N.leb_gt. lia.
Qed.
Lemma grouped_first s ds : grouped s ds -> exists c, first_chr s = Some c /\ is_digit c = true.
Proof.
  intros (gs & Hne & Hg & -> & _). destruct Hg as [|g gs [Hn Hg] _]; [congruence|]. destruct g as [|c g]; [congruence|].
  cbn in Hg. apply andb_true_iff in Hg as [Hc _]. exists c. destruct gs; auto.
Qed.
Lemma int_text_stripped s z : int_text s z -> stripped s.
Proof.
  intros (sgn & body & ds & -> & Hg & _ & Hs).
  destruct (grouped_last _ _ Hg) as (l & El & Hl). destruct (grouped_first _ _ Hg) as (f & Ef & Hf).
  assert (Hb : body <> []) by (intros ->; discriminate).
  split; intros c Hc.
  - destruct Hs as [[[->| ->] _]|[-> _]]; cbn [app first_chr] in Hc.
    + assert (c = f) by congruence. subst c. apply digit_space, Hf.
    + injection Hc as <-. reflexivity.
    + injection Hc as <-. reflexivity.
  - apply digit_space. unfold last_chr in *. rewrite rev_app_distr in Hc. destruct (rev body) as [|x r]; [discriminate|].
    cbn in Hc. injection Hc as <-. injection El as ->. exact Hl.
Qed.
Lemma is_ascii_app a b : is_ascii (a ++ b) = is_ascii a && is_ascii b.
Proof. apply forallb_app. Qed.
(** What [int()] makes of a string, spaces included. *)
Lemma py_int_full s z : py_int s = Some z <->
  exists a t b, s = a ++ t ++ b /\ forallb (if is_ascii s then ascii_space else isspace) (a ++ b) = true /\ int_text t z.
Proof.
  set (sp := if is_ascii s then ascii_space else isspace).
  destruct (drop_while_split sp s) as (a & Ea & Ha).
  destruct (drop_while_split sp (rev (drop_while sp s))) as (rb & Eb & Hb).
  set (t := rev (drop_while sp (rev (drop_while sp s)))).
  assert (Es : s = a ++ t ++ rev rb).
  { unfold t. rewrite <- rev_app_distr, <- Eb, rev_involutive. exact Ea. }
  assert (F1 : forall c, first_chr t = Some c -> sp c = false).
  { intros c Hc. apply (drop_while_first sp s).
    assert (X : drop_while sp s = t ++ rev rb) by (unfold t; rewrite <- rev_app_distr, <- Eb, rev_involutive; reflexivity).
    rewrite X. destruct t; [discriminate|exact Hc]. }
  assert (F2 : forall c, last_chr t = Some c -> sp c = false).
  { intros c Hc. unfold t, last_chr in Hc. rewrite rev_involutive in Hc. apply (drop_while_first sp (rev (drop_while sp s))).
    unfold first_chr. destruct (drop_while sp (rev _)); [discriminate|exact Hc]. }
  assert (I : forall c, sp c = false -> (if is_ascii t then ascii_space else isspace) c = false).
  { intros c. unfold sp. destruct (is_ascii s) eqn:E.
    - rewrite Es, !is_ascii_app in E. apply andb_true_iff in E as [_ E]. apply andb_true_iff in E as [-> _]. auto.
    - destruct (is_ascii t); [apply ascii_space_space|auto]. }
  assert (Q : rev (drop_while (if is_ascii t then ascii_space else isspace) (rev (drop_while (if is_ascii t then ascii_space else isspace) t))) = t)
    by (apply drop_both; auto).
  assert (P : py_int s = py_int t) by (unfold py_int; cbv zeta; fold sp; fold t; rewrite Q; reflexivity).
  rewrite P, (py_int_spec0 t z Q). split.
  - intros H. exists a, t, (rev rb). split; [exact Es|]. split; [|exact H]. rewrite forallb_app, forallb_rev, Ha, Hb. reflexivity.
  - intros (a' & t' & b' & E' & H' & Hi). enough (X : t = t') by (rewrite X; exact Hi).
    rewrite forallb_app in H'. apply andb_true_iff in H' as [Ha' Hb']. destruct (int_text_stripped _ _ Hi) as [S1 S2].
    assert (V : forall c, isspace c = false -> sp c = false) by (unfold sp; destruct (is_ascii s); auto using ascii_space_space).
    unfold t. rewrite E'. rewrite (drop_while_app sp a' (t' ++ b')) by exact Ha'.
    assert (Ht : t' <> []). { intros ->. destruct Hi as (sg & bo & ds & E0 & Hg & _). destruct (grouped_first _ _ Hg) as (f & Ef & _). destruct sg, bo; discriminate. }
    assert (D1 : drop_while sp (t' ++ b') = t' ++ b').
    { destruct t' as [|c t']; [congruence|]. apply drop_while_id, V, S1. reflexivity. }
    rewrite D1, rev_app_distr, (drop_while_app sp (rev b')) by (rewrite forallb_rev; exact Hb').
    assert (D2 : drop_while sp (rev t') = rev t').
    { unfold last_chr in S2. destruct (rev t') as [|c r] eqn:Er; [reflexivity|]. apply drop_while_id, V, S2. reflexivity. }
    rewrite D2, rev_involutive. reflexivity.
Qed.
Lemma int_text_ascii t z : int_text t z -> is_ascii t = true.
Proof.
  intros (sgn & body & ds & -> & Hg & _ & Hs). rewrite is_ascii_app. apply andb_true_iff. split.
  - destruct Hs as [[[->| ->] _]|[-> _]]; reflexivity.
  - apply forallb_forall. intros c Hc. destruct (grouped_chars _ _ Hg c Hc) as [H| ->]; [|reflexivity].
    unfold is_digit in H. apply andb_true_iff in H as [H1 H2]. apply N.leb_le in H1, H2. apply N.ltb_lt. lia.
Qed.
Lemma non_ascii (p : str) : is_ascii p = false -> exists c, In c p /\ 128 <= c.
Proof.
  intros H. unfold is_ascii in H. induction p as [|c p IH]; [discriminate|]. cbn in H. apply andb_false_iff in H as [H|H].
  - exists c. apply N.ltb_ge in H. cbn. auto.
  - destruct (IH H) as (x & Hx & Hge). exists x. cbn. auto.
Qed.
Lemma shown_ascii b : is_ascii b = true -> shown b = b.
Proof. unfold shown, is_ascii. induction b as [|c b IH]; intros H; cbn in *; [reflexivity|]. apply andb_true_iff in H as [-> H]. f_equal. auto. Qed.
(** [int_text t z]: an optional sign and at most 4300 decimal digits with single
    underscores between them, denoting [z] (NumLemmas.v). *)
Definition integer_text (s : bytes) (z : Z) : Prop :=
  exists a t b, s = a ++ t ++ b /\ forallb ascii_space (a ++ b) = true /\ int_text t z.
Lemma status_int s z : py_int (decode_ascii_replace s) = Some z <-> integer_text s z.
Proof.
  change (decode_ascii_replace s) with (shown s). rewrite py_int_full. unfold integer_text. destruct (is_ascii s) eqn:E.
  - rewrite (shown_ascii s E), E. reflexivity.
  - split.
    + intros (a & t & b & Es & Hs & Ht). exfalso.
      assert (X : exists c, In c s /\ c <? 128 = false).
      { clear - E. unfold is_ascii in E. induction s as [|c s IH]; [discriminate|]. cbn in E. apply andb_false_iff in E as [E|E]; [exists c; cbn; auto|].
        destruct (IH E) as (x & Hx & H). exists x. cbn. auto. }
      destruct X as (c & Hc & H128).
      assert (In 65533 (shown s)) as Hin. { unfold shown. apply in_map_iff. exists c. rewrite H128. auto. }
      rewrite Es, !in_app_iff in Hin. pose proof (int_text_ascii _ _ Ht) as Ha. unfold is_ascii in Ha. rewrite forallb_forall in Ha, Hs.
      assert (Y : (if is_ascii (shown s) then ascii_space else isspace) 65533 = false) by (destruct (is_ascii (shown s)); reflexivity).
      destruct Hin as [H|[H|H]]; [|apply Ha in H; discriminate|]; rewrite (Hs 65533) in Y; try discriminate; apply in_or_app; auto.
    + intros (a & t & b & Es & Hs & Ht). exfalso. pose proof (int_text_ascii _ _ Ht) as Ha.
      assert (W : forall l, forallb ascii_space l = true -> is_ascii l = true).
      { intros l Hl. unfold is_ascii. rewrite forallb_forall in *. intros c Hc. specialize (Hl c Hc). unfold ascii_space in Hl.
        apply orb_true_iff in Hl. rewrite andb_true_iff, N.eqb_eq, !N.leb_le in Hl. apply N.ltb_lt. lia. }
      rewrite forallb_app in Hs. apply andb_true_iff in Hs as [H1 H2]. rewrite Es, !is_ascii_app, Ha, (W a H1), (W b H2) in E. discriminate.
Qed.
Theorem C37_status_line : forall e rel version status phrase headers chunks complete trailers t start nc head base m' rel',
  lint e rel (TopResponse version status phrase) headers chunks complete trailers (new_linter t start nc head base) = (m', rel', Ok tt) ->
  m_version m' = shown version /\ m_status_str m' = Some (shown status)
  /\ (forall z, m_status m' = Some z <-> integer_text status z)
  /\ (reported STATUS_CODE_NON_NUMERIC m' <-> forall z, ~ integer_text status z)
  /\ m_phrase m' = (match phrase with Some (c :: b) => Some (shown (c :: b)) | _ => None end)
  /\ (reported STATUS_PHRASE_ENCODING m' <-> exists p c, phrase = Some p /\ In c p /\ 128 <= c)
  /\ (length (of_classes [STATUS_CODE_NON_NUMERIC] (m_notes m')) <= 1)%nat /\ (length (of_classes [STATUS_PHRASE_ENCODING] (m_notes m')) <= 1)%nat.
Proof.
  intros e rel version status phrase headers chunks complete trailers t start nc head base m' rel' E.
  assert (T : forall c, In c [STATUS_CODE_NON_NUMERIC; STATUS_PHRASE_ENCODING] -> exists m0, start_line e (TopResponse version status phrase) (new_linter t start nc head base) = (m0, Ok tt)
            /\ of_classes [c] (m_notes m') = of_classes [c] (m_notes m0)
            /\ m_version m' = m_version m0 /\ m_status m' = m_status m0 /\ m_status_str m' = m_status_str m0 /\ m_phrase m' = m_phrase m0).
  { intros c Hc. apply (top_only [c]); [intros x [<-|[]]; cbn in *; tauto|]. intros O1 O2 O3 O4.
    destruct (lint_top _ _ _ _ _ _ _ _ _ _ _ _ _ _ _ O1 O2 O3 O4 E) as (m0 & X & Y & Z1 & Z2 & Z3 & Z4 & Z5 & Z6 & Z7). eauto 8. }
  destruct (T STATUS_CODE_NON_NUMERIC) as (m0 & E0 & N1 & M1 & M2 & M3 & M4); [left; reflexivity|].
  destruct (T STATUS_PHRASE_ENCODING) as (m0' & E0' & N2 & _); [right; left; reflexivity|].
  assert (m0' = m0) by congruence. subst m0'. clear T E0' E.
  rewrite !reported_sel, N1, N2, M1, M2, M3, M4. clear M1 M2 M3 M4 N1 N2.
  cbn [start_line] in E0. unfold process_response_topline in E0. cbv zeta in E0.
  pose proof (status_int status) as SI.
  set (ma := m_set_status_str _ _) in E0.
  set (mb := match py_int (decode_ascii_replace status) with Some z => m_set_status (Some z) ma | None => _ end) in E0.
  assert (B : m_version mb = shown version /\ m_status_str mb = Some (shown status) /\ m_status mb = py_int (decode_ascii_replace status) /\ m_phrase mb = None
              /\ m_type mb = t /\ m_notes mb = match py_int (decode_ascii_replace status) with Some _ => [] | None => [mk_note t (u "status") STATUS_CODE_NON_NUMERIC None [] []] end).
  { unfold mb. destruct (py_int _); repeat split. }
  destruct B as (B1 & B2 & B3 & B4 & B5 & B6). clearbody mb.
  assert (NN : (forall z, ~ integer_text status z) <-> py_int (decode_ascii_replace status) = None).
  { destruct (py_int (decode_ascii_replace status)) as [z|]; split; intros H; try reflexivity; try discriminate.
    - destruct (H z). apply SI. reflexivity.
    - intros z Hz. apply SI in Hz. discriminate. }
  assert (PP : (exists p c, phrase = Some p /\ In c p /\ 128 <= c) <-> match phrase with Some p => is_ascii p = false | None => False end).
  { destruct phrase as [p|]; [|split; [intros (? & ? & ? & _); discriminate|intros []]]. split.
    - intros (q & c & Eq & Hc & H). injection Eq as <-. destruct (is_ascii p) eqn:Ep; [|reflexivity]. unfold is_ascii in Ep. rewrite forallb_forall in Ep.
      specialize (Ep c Hc). apply N.ltb_lt in Ep. lia.
    - intros H. destruct (non_ascii p H) as (c & Hc & Hge). eauto. }
  rewrite NN, PP. clear NN PP.
  assert (Fin : m_version m0 = m_version mb /\ m_status_str m0 = m_status_str mb /\ m_status m0 = m_status mb
     /\ m_phrase m0 = (match phrase with Some (c :: b) => Some (shown (c :: b)) | _ => None end)
     /\ m_notes m0 = m_notes mb ++ match phrase with Some p => if is_ascii p then [] else [mk_note t (u "status") STATUS_PHRASE_ENCODING None [] []] | None => [] end).
  { destruct phrase as [[|c b]|]; [injection E0 as <-; cbn; rewrite app_nil_r; auto| |injection E0 as <-; rewrite app_nil_r; auto].
    unfold decode_ascii_strict in E0. set (w := c :: b) in *. destruct (is_ascii w) eqn:Ew; injection E0 as <-.
    - rewrite app_nil_r, (shown_ascii w Ew). repeat split.
    - unfold note_msg. rewrite notes_emit. cbn [emit fold_left emit_one m_notes m_type m_set_phrase m_emit m_set_notes m_version m_status_str m_status m_phrase].
      rewrite B5. repeat split. }
  destruct Fin as (-> & -> & -> & -> & ->). rewrite B1, B2, B3, B6. unfold of_classes. rewrite !filter_app.
  split; [reflexivity|]. split; [reflexivity|]. split; [exact SI|].
  destruct (py_int _); (destruct phrase as [p|]; [destruct (is_ascii p)|]); cbn; repeat split; try congruence; try lia; try contradiction.
Qed.
Print Assumptions C37_status_line.
Definition status_run (s : bytes) (p : option bytes) :=
  lint env0 None (TopResponse (u "1.1") s p) [] [] true [] (new_linter MResponse None false false []).
Example C37_status_line_ex :
  (let '(m, _, r) := status_run (u "200") (Some (u "OK")) in r = Ok tt /\ m_status m = Some 200%Z)
  /\ (let '(m, _, r) := status_run (u "2x0") (Some [79; 233]) in r = Ok tt /\ m_status m = None
      /\ map n_cls (of_classes [STATUS_CODE_NON_NUMERIC; STATUS_PHRASE_ENCODING] (m_notes m)) = [STATUS_CODE_NON_NUMERIC; STATUS_PHRASE_ENCODING]).
Proof. vm_compute. repeat split. Qed.
(** A three-digit status is its decimal value. *)
Theorem C37_three_digits : forall a b c, is_digit a = true -> is_digit b = true -> is_digit c = true ->
  integer_text [a; b; c] (Z.of_N ((a - 48) * 100 + (b - 48) * 10 + (c - 48))).
Proof.
  intros a b c Ha Hb Hc. exists [], [a; b; c], []. split; [reflexivity|]. split; [reflexivity|].
  replace ((a - 48) * 100 + (b - 48) * 10 + (c - 48)) with (decimal [a; b; c]) by (cbn [decimal length]; cbn; lia).
  apply digits_int; [|cbn; lia]. split; [discriminate|]. cbn. rewrite Ha, Hb, Hc. reflexivity.
Qed.
Print Assumptions C37_three_digits.
