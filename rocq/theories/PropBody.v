(** * Properties of the body checks: C03, C04, C05. *)
From Verif Require Import PyStr Regex Note PyLib Utils FieldAttrs Types Framework Checks Message Session
  EvLogic NoteLemmas TestEnv ContentLemmas FrameLemmas BodyLemmas PassFrame PassSec PassProc PassMsg PassRun SessionLemmas.
Open Scope N_scope.

(** The notes of the given classes, in order. *)
Definition of_classes (l : list nid) (ns : list note) : list note := filter (fun n => existsb (nid_eqb (n_cls n)) l) ns.
(** A response that must not have content: to HEAD, or 304. *)
Definition bodiless (m : mstate) : Prop := m_type m = MResponse /\ (m_head m = true \/ m_status m = Some 304%Z).
Definition received (m : mstate) (k : string) (v : pyval) : Prop := dget (u k) (s_parsed (m_headers m)) = Some v.

Lemma bodiless_can m : can_have_content m = false <-> bodiless m.
Proof.
  unfold can_have_content, bodiless, status_is_in. destruct (m_type m); [split; [discriminate|intros [? _]; discriminate]| |split; [discriminate|intros [? _]; discriminate]].
  rewrite Bool.andb_false_iff, !Bool.negb_false_iff.
  assert (E : (match m_status m with Some z => existsb (Z.eqb z) [304%Z] | None => false end) = true <-> m_status m = Some 304%Z).
  { destruct (m_status m) as [z|]; cbn; [|split; discriminate]. rewrite Bool.orb_false_r, Z.eqb_eq. split; [intros ->; reflexivity|intros H; injection H; auto]. }
  rewrite E. tauto.
Qed.
Definition len_classes := [CL_CORRECT; CL_INCORRECT; CONTENT_NOT_ALLOWED].
Ltac cls := vm_compute; reflexivity.
Lemma len_off l : incl l len_classes -> off_field (among l) /\ apart (among l) (among top_classes) /\ apart (among l) (in_file dec_file) /\ apart (among l) post_files.
Proof.
  intros Hi.
  assert (W : forall F, apart (among len_classes) F -> apart (among l) F).
  { intros F H n Hn. specialize (H n Hn). destruct (among l n) eqn:E; [|reflexivity]. apply among_In, Hi, among_In in E. congruence. }
  split; [|split; [|split]].
  - assert (O : off_field (among len_classes)) by (apply off_among; cls). intros n Hn. specialize (O n Hn).
    destruct (among l n) eqn:E; [|reflexivity]. apply among_In, Hi, among_In in E. congruence.
  - apply W, apart_among. cls.
  - apply W, apart_among. cls.
  - apply W, apart_among. cls.
Qed.
(** What check_content_length adds, for the classes it can add. *)
Lemma finish_len l e rel complete trailers m m' rel' : incl l len_classes ->
  linted e rel Headed m -> finish_content e rel complete trailers m = (m', rel', Ok tt) ->
  of_classes l (m_notes m')
  = sel (among l)
      (if can_have_content m then
         match m_get m "content-length" with
         | Some v =>
             if m_no_content m then []
             else if match v with VInt z => Z.eqb z (Z.of_N (m_clen m)) | _ => false end
                  then [mk_note (m_type m) (u "field-content-length") CL_CORRECT None [] []]
                  else [mk_note (m_type m) (u "field-content-length") CL_INCORRECT None [vs "content_length" (f_num (Z.of_N (m_clen m)))] []]
         | None => []
         end
       else if (0 <? m_clen m) && negb (m_no_content m)
            then [mk_note (m_type m) (u "message") CONTENT_NOT_ALLOWED None [] []]
            else []).
Proof.
  intros Hl H E. destruct (len_off l Hl) as (O1 & O2 & O3 & O4).
  destruct (finish_sel (among l) e rel complete trailers m m' rel' O1 O4 H E) as (m2 & _ & S1 & S2 & S3 & S4 & S5 & S6).
  change (of_classes l (m_notes m')) with (sel (among l) (m_notes m')). rewrite S2. clear S2.
  rewrite (early_sel (among l) e rel Headed m O1 O2 O3 H) in S1 by auto.
  injection S3 as T3 _ N3 H3 _.
  unfold check_content_length. unfold m_get. rewrite S4, S5, N3.
  replace (can_have_content m2) with (can_have_content m) by (unfold can_have_content; rewrite T3, H3, S6; reflexivity).
  assert (X : forall sj n vrs, dupdate [] vrs = vrs -> sel (among l) (m_notes (note_msg sj n vrs m2)) = sel (among l) [mk_note (m_type m) (u sj) n None vrs []]).
  { intros sj n vrs Hn. unfold note_msg. rewrite notes_emit. cbn [emit fold_left emit_one]. rewrite sel_app, S1, T3, Hn. reflexivity. }
  destruct (can_have_content m).
  - destruct (dget _ _) as [v|]; [|exact S1]. destruct (m_no_content m); [exact S1|].
    destruct (match v with VInt z => _ | _ => _ end); apply X; reflexivity.
  - destruct (_ && _); [|exact S1]. apply X. reflexivity.
Qed.

(** ** C03 *)
(** A session that ran to the end: a fresh linter, at most one top line, the
    headers, the chunks, the trailers. *)
Theorem C03_verdict : forall e rel top headers chunks complete trailers t start nc head base m' rel',
  lint e rel top headers chunks complete trailers (new_linter t start nc head base) = (m', rel', Ok tt) ->
  (forall v, received m' "content-length" v -> ~ bodiless m' -> nc = false ->
     exists n, of_classes [CL_CORRECT; CL_INCORRECT] (m_notes m') = [n]
       /\ (n_cls n = CL_CORRECT <-> v = VInt (Z.of_nat (length (concat chunks)))))
  /\ ((forall v, ~ received m' "content-length" v) \/ bodiless m' \/ nc = true ->
      of_classes [CL_CORRECT; CL_INCORRECT] (m_notes m') = []).
Proof.
  intros e rel top headers chunks complete trailers t start nc head base m' rel' E.
  destruct (lint_facts _ _ _ _ _ _ _ _ _ _ _ _ _ _ E) as (S & C & m & L & F & SM & H & St & _ & C2 & _).
  rewrite (finish_len [CL_CORRECT; CL_INCORRECT] e rel complete trailers m m' rel') by
    (try assumption; intros x [<-|[<-|[]]]; cbn; auto).
  assert (B : can_have_content m = false <-> bodiless m').
  { rewrite bodiless_can. unfold bodiless. injection SM as T _ _ Hd _. rewrite T, Hd, St. reflexivity. }
  assert (S2 : setup m = (t, start, nc, head, base)) by congruence. injection S2 as T _ N _ _. rewrite N.
  unfold received, m_get. rewrite H. rewrite <- C2, C.
  replace (Z.of_N (N.of_nat (length (concat chunks)))) with (Z.of_nat (length (concat chunks))) by lia.
  split.
  - intros v -> Hb ->. destruct (can_have_content m); [|destruct Hb; apply B; reflexivity].
    destruct v; try (eexists; split; [reflexivity|]; cbn; split; discriminate).
    destruct (Z.eqb_spec z (Z.of_nat (length (concat chunks)))) as [<-|Hz].
    + eexists. split; [reflexivity|]. cbn. tauto.
    + eexists. split; [reflexivity|]. cbn. split; [discriminate|]. intros X. injection X. contradiction.
  - intros [Hv|[Hb| ->]].
    + destruct (can_have_content m); [|destruct (_ && _); reflexivity].
      destruct (dget _ _) as [v|]; [destruct (Hv v eq_refl)|reflexivity].
    + apply B in Hb. rewrite Hb. destruct (_ && _); reflexivity.
    + rewrite Bool.andb_false_r. destruct (can_have_content m); [|reflexivity]. destruct (dget _ _); reflexivity.
Qed.
Print Assumptions C03_verdict.
Definition cl_run (v : string) (chunks : list string) :=
  lint env0 None (TopRequest (u "POST") (u "/a") (u "1.1")) [(u "Host", u "example"); (u "Content-Length", u v)]
       (map u chunks) true [] (new_linter MRequest None false false []).
Example C03_correct_ex : snd (cl_run "5" ["he"%string; "llo"%string]) = Ok tt
  /\ map n_cls (of_classes [CL_CORRECT; CL_INCORRECT] (m_notes (fst (fst (cl_run "5" ["he"%string; "llo"%string]))))) = [CL_CORRECT]
  /\ map n_cls (of_classes [CL_CORRECT; CL_INCORRECT] (m_notes (fst (fst (cl_run "6" ["he"%string; "llo"%string]))))) = [CL_INCORRECT].
Proof. vm_compute. repeat split. Qed.

(** ** C05 *)
Theorem C05_not_allowed : forall e rel top headers chunks complete trailers t start nc head base m' rel',
  lint e rel top headers chunks complete trailers (new_linter t start nc head base) = (m', rel', Ok tt) ->
  (bodiless m' /\ concat chunks <> [] /\ nc = false ->
     exists n, of_classes [CONTENT_NOT_ALLOWED] (m_notes m') = [n])
  /\ (~ (bodiless m' /\ concat chunks <> [] /\ nc = false) -> of_classes [CONTENT_NOT_ALLOWED] (m_notes m') = []).
Proof.
  intros e rel top headers chunks complete trailers t start nc head base m' rel' E.
  destruct (lint_facts _ _ _ _ _ _ _ _ _ _ _ _ _ _ E) as (S & C & m & L & F & SM & H & St & _ & C2 & _).
  rewrite (finish_len [CONTENT_NOT_ALLOWED] e rel complete trailers m m' rel') by
    (try assumption; intros x [<-|[]]; cbn; auto).
  assert (B : can_have_content m = false <-> bodiless m').
  { rewrite bodiless_can. unfold bodiless. injection SM as T _ _ Hd _. rewrite T, Hd, St. reflexivity. }
  assert (S2 : setup m = (t, start, nc, head, base)) by congruence. injection S2 as T _ N _ _. rewrite N.
  assert (X : sel (among [CONTENT_NOT_ALLOWED])
                (match m_get m "content-length" with
                 | Some v => if nc then [] else if match v with VInt z => Z.eqb z (Z.of_N (m_clen m)) | _ => false end
                      then [mk_note (m_type m) (u "field-content-length") CL_CORRECT None [] []]
                      else [mk_note (m_type m) (u "field-content-length") CL_INCORRECT None [vs "content_length" (f_num (Z.of_N (m_clen m)))] []]
                 | None => []
                 end) = []).
  { destruct (m_get m _); [|reflexivity]. destruct nc; [reflexivity|]. destruct (match p with VInt _ => _ | _ => _ end); reflexivity. }
  rewrite <- C2, C in *.
  split.
  - intros (Hb & Hc & ->). apply B in Hb. rewrite Hb. destruct (concat chunks) as [|c cs]; [contradiction|]. cbn [length]. eexists. reflexivity.
  - intros Hn. destruct (can_have_content m); [exact X|]. destruct nc; [rewrite Bool.andb_false_r; reflexivity|].
    destruct (concat chunks) as [|c cs]; [reflexivity|]. destruct Hn. split; [apply B; reflexivity|]. split; [discriminate|reflexivity].
Qed.
Print Assumptions C05_not_allowed.
Example C05_not_allowed_ex :
  let r := lint env0 None (TopResponse (u "1.1") (u "304") None) [] [u "x"] true [] (new_linter MResponse None false false []) in
  snd r = Ok tt /\ map n_cls (of_classes [CONTENT_NOT_ALLOWED] (m_notes (fst (fst r)))) = [CONTENT_NOT_ALLOWED].
Proof. vm_compute. repeat split. Qed.

Lemma early0_sel P e rel p m : apart P (among top_classes) -> linted e rel p m -> p = Fresh \/ p = Started -> sel P (m_notes m) = [].
Proof.
  intros Ht. induction 1 as [t start nc head base|m a b c m' r H IH E|m a b c H IH|p m raws m' r H IH Hp E
                 |m chunk m' r H IH E|m complete trailers m' rel' r H IH E]; intros Hq.
  - reflexivity.
  - pose proof (request_topline_pass e a b c m) as P0. rewrite E in P0. rewrite (mnoted_sel _ _ _ _ Ht (proj1 P0)). auto.
  - rewrite (mnoted_sel _ _ _ _ Ht (response_topline_pass a b c m)). auto.
  - destruct r; cbn in Hq; destruct Hq; discriminate.
  - destruct r; cbn in Hq; destruct Hq; discriminate.
  - destruct r; cbn in Hq; destruct Hq; discriminate.
Qed.
(** Any session up to the state in which the checks at the end run. *)
Lemma lint_end P e rel top headers chunks complete trailers t start nc head base m' rel' :
  off_field P -> apart P (among top_classes) -> nc = true \/ apart P (in_file dec_file) -> apart P (among [CL_CORRECT; CL_INCORRECT; CONTENT_NOT_ALLOWED]) ->
  lint e rel top headers chunks complete trailers (new_linter t start nc head base) = (m', rel', Ok tt) ->
  exists m2 m3 r3, sel P (m_notes m2) = [] /\ setup m2 = setup m' /\ m_clen m2 = m_clen m' /\ m_method m2 = m_method m'
    /\ post_checks e rel m2 = (m3, rel', r3) /\ sel P (m_notes m') = sel P (m_notes m3).
Proof.
  intros O1 O2 O3 O4 E. destruct (lint_facts _ _ _ _ _ _ _ _ _ _ _ _ _ _ E) as (SM & _).
  destruct (lint_stages _ _ _ _ _ _ _ _ _ _ _ _ _ _ E) as (p & m0 & m1 & m & Hp & L0 & E0 & E1 & E2 & L1 & L2 & E3).
  pose proof (setup_start e top (new_linter t start nc head base)) as S0. rewrite E0 in S0.
  pose proof (setup_headers e rel headers m0) as S1. rewrite E1 in S1.
  assert (X : sel P (m_notes m) = []).
  { assert (X0 : sel P (m_notes m0) = []) by (apply (early0_sel P e rel p m0 O2 L0 Hp)).
    destruct (linted_inv _ _ _ _ L0) as [_ U0].
    assert (U : untouched m0) by (destruct Hp; subst p; exact U0). destruct U as (U1 & _).
    pose proof (process_headers_pass (fun _ => True) (fun _ => True) e rel m0 headers) as P0. rewrite U1 in P0. specialize (P0 eq_refl).
    rewrite E1 in P0. destruct P0 as [N _]; [apply Forall_forall; auto|].
    assert (X1 : sel P (m_notes m1) = []) by (rewrite (noted_sel _ _ _ O1 N); exact X0).
    destruct O3 as [-> |O3].
    - assert (N1 : m_no_content m1 = true) by (assert (Y : setup m1 = (t, start, true, head, base)) by (cbn [fst] in *; rewrite S1, S0; reflexivity); injection Y as _ _ Y _ _; exact Y).
      rewrite (feed_all_no_content e chunks m1 N1) in E2. injection E2 as <-. exact X1.
    - apply (early_sel P e rel Headed m); auto. }
  destruct (linted_inv _ _ _ _ L2) as [_ (A & B & C)].
  destruct (finish_content_frame e rel complete trailers m) as [F3 _]. rewrite E3 in F3. cbn [fst] in F3.
  destruct (finish_pass_stages (fun _ => True) (fun _ => True) e rel complete trailers m m' rel' (Ok tt) A B) as (ma & mb & -> & N & S & D & _).
  { apply Forall_forall. auto. }
  { exact E3. }
  destruct D as [((x & Hx) & _)|(mc & m3 & -> & N2 & F2 & _ & N3 & F4 & r3 & E4 & _)]; [discriminate|].
  match type of E4 with post_checks _ _ (check_content_length ?x) = _ => set (mc := x) in * end.
  pose proof (check_content_length_frame mc) as Fc.
  exists (check_content_length mc), m3, r3. split; [|split; [|split; [|split; [|split; [exact E4|apply (noted_sel _ _ _ O1 N3)]]]]].
  - assert (Y : sel P (m_notes mc) = []) by (unfold mc; cbn [m_notes m_set_dec_hash]; rewrite (noted_sel _ _ _ O1 N); exact X).
    destruct (content_length_pass mc) as [Z|(n & En & Ek & ->)].
    + rewrite (mnoted_sel _ _ _ _) with (2 := Z); [exact Y|]. intros n Hn. apply O4, among_In. apply among_In in Hn. cbn in Hn |- *. tauto.
    + rewrite sel_app, Y. unfold sel. cbn [filter app]. rewrite (O4 (n_cls n)); [reflexivity|]. apply among_In. rewrite En. cbn. auto.
  - rewrite Fc. unfold setup, mc. rewrite F3. cbn. rewrite S. reflexivity.
  - rewrite Fc. unfold mc. rewrite F3. cbn. rewrite S. reflexivity.
  - rewrite Fc. unfold mc. rewrite F3. cbn. rewrite S. reflexivity.
Qed.
Theorem C05_not_defined : forall e rel top headers chunks complete trailers t start nc head base m' rel',
  lint e rel top headers chunks complete trailers (new_linter t start nc head base) = (m', rel', Ok tt) ->
  let has := t = MRequest /\ (exists s, m_method m' = Some s /\ In s (map u ["GET"; "HEAD"; "DELETE"; "CONNECT"; "TRACE"]%string))
             /\ concat chunks <> [] /\ nc = false in
  (has -> exists n, of_classes [REQUEST_CONTENT_NOT_DEFINED] (m_notes m') = [n])
  /\ (~ has -> of_classes [REQUEST_CONTENT_NOT_DEFINED] (m_notes m') = []).
Proof.
  intros e rel top headers chunks complete trailers t start nc head base m' rel' E. cbv zeta.
  destruct (lint_facts _ _ _ _ _ _ _ _ _ _ _ _ _ _ E) as (SM & CL & _).
  change (of_classes [REQUEST_CONTENT_NOT_DEFINED]) with (sel (among [REQUEST_CONTENT_NOT_DEFINED])).
  set (P := among [REQUEST_CONTENT_NOT_DEFINED]).
  assert (O1 : off_field P) by (apply off_among; cls).
  assert (O2 : apart P (among top_classes)) by (apply apart_among; cls).
  assert (O3 : apart P (in_file dec_file)) by (apply apart_among; cls).
  assert (O4 : apart P (among [CL_CORRECT; CL_INCORRECT; CONTENT_NOT_ALLOWED])) by (apply apart_among; cls).
  destruct (lint_end P _ _ _ _ _ _ _ _ _ _ _ _ _ _ O1 O2 (or_intror O3) O4 E) as (m2 & m3 & r3 & X & SS & CC & MM & E4 & ->).
  rewrite SM in SS. injection SS as T _ N _ _. unfold post_checks in E4. rewrite T in E4. rewrite <- MM. rewrite <- CC in CL.
  destruct t.
  - unfold request_post_checks in E4. destruct (wp_preflight_request (fun _ => False) m2) as [H1 H2].
    pose proof (mnoted_run _ _ m2 H1) as M1. unfold run_check in *. cbn [fst] in M1.
    destruct (check_preflight_request m2) as [l [x|x]]; cbn [fst snd then_] in *; [|destruct H2].
    set (ma := m_emit _ m2) in *. set (mb := if m_has ma _ then _ else _) in E4.
    assert (Xb : sel P (m_notes mb) = [] /\ m_method mb = m_method m2 /\ m_clen mb = m_clen m2 /\ m_no_content mb = m_no_content m2).
    { assert (Xa : sel P (m_notes ma) = []).
      { rewrite (mnoted_sel P _ _ _) with (2 := M1); [exact X|]. apply apart_among. cls. }
      unfold mb. destruct (m_has ma _); [repeat split; exact Xa|]. repeat split.
      unfold note_msg. rewrite notes_emit. cbn [emit fold_left emit_one]. rewrite sel_app, Xa. reflexivity. }
    destruct Xb as (Xb & B1 & B2 & B3). rewrite B1, B2, B3, N in E4.
    injection E4 as <- _ _.
    split.
    + intros (_ & (s & Es & Hs) & Hc & ->). rewrite Es. apply str_in_In in Hs.
      rewrite CL. destruct (concat chunks) as [|c cs]; [contradiction|]. cbn [length]. eexists.
      match goal with |- context [0 <? ?x] => replace (0 <? x) with true by (symmetry; apply N.ltb_lt; lia) end. cbn [negb andb].
      match goal with |- context [if ?b then _ else _] => replace b with true by (symmetry; rewrite Bool.andb_true_r; exact Hs) end.
      unfold note_msg. rewrite notes_emit. cbn [emit fold_left emit_one]. rewrite sel_app, Xb. reflexivity.
    + intros Hn. destruct (m_method m2) as [s|]; [|exact Xb].
      match goal with |- context [if ?b then _ else _] => destruct b eqn:Eb end; [|exact Xb]. destruct Hn.
      apply andb_prop in Eb as [Eb E3]. apply andb_prop in Eb as [E5 E6]. split; [reflexivity|]. split.
      * exists s. split; [reflexivity|]. apply str_in_In. exact E6.
      * destruct nc; [discriminate|]. split; [|reflexivity]. intros Z. rewrite CL, Z in E5. discriminate.
  - split; [intros [Z _]; discriminate|]. intros _. pose proof (response_post_pass (fun _ => True) e rel m2) as R. rewrite E4 in R.
    destruct R as [R _]. rewrite (mnoted_sel P _ _ _) with (2 := R); [exact X|]. apply apart_among. cls.
  - split; [intros [Z _]; discriminate|]. intros _. injection E4 as <- _ _. exact X.
Qed.
Print Assumptions C05_not_defined.
Example C05_not_defined_ex :
  let r := lint env0 None (TopRequest (u "GET") (u "/a") (u "1.1")) [] [u "x"] true [] (new_linter MRequest None false false []) in
  snd r = Ok tt /\ map n_cls (of_classes [REQUEST_CONTENT_NOT_DEFINED] (m_notes (fst (fst r)))) = [REQUEST_CONTENT_NOT_DEFINED].
Proof. vm_compute. repeat split. Qed.

(** ** C04 *)
(** The classes about the body: length, coding, content type, charset, content
    that is forbidden or has no meaning. *)
Definition about_body (n : nid) : bool :=
  among [CL_CORRECT; CL_INCORRECT; CONTENT_NOT_ALLOWED; REQUEST_CONTENT_NOT_DEFINED] n
  || in_file "content_encoding.py" n || in_file "content_type.py" n || in_file "charset.py" n.
Definition checked_late : list nid := filter (fun n => about_body n && negb (among len_classes n)) all_nids.
Definition quiet_files (n : nid) : bool :=
  in_file "field/cors.py" n || in_file "cache.py" n || in_file "status.py" n || among [MISSING_USER_AGENT] n.
Ltac inq := let n := fresh in let H := fresh in intros n H; unfold quiet_files; rewrite H; rewrite ?Bool.orb_true_r; reflexivity.
Lemma post_quiet e rel m : m_no_content m = true -> mnoted quiet_files m (fst (fst (post_checks e rel m))).
Proof.
  intros Hn. unfold post_checks. destruct (m_type m); [| |apply mnoted_refl].
  - unfold request_post_checks. destruct (wp_preflight_request (fun _ => False) m) as [H1 H2].
    pose proof (mnoted_run _ _ m H1) as N. unfold run_check in *. cbn [fst] in N.
    destruct (check_preflight_request m) as [l [x|x]]; cbn [fst snd then_] in *; [|destruct H2].
    set (m1 := m_emit _ m) in *.
    assert (N1 : mnoted quiet_files m m1) by (eapply mnoted_sub; [|exact N]; inq).
    set (m2 := if m_has _ _ then _ else _).
    assert (N2 : mnoted quiet_files m m2 /\ m_no_content m2 = true).
    { unfold m2. destruct (m_has _ _); [auto|]. split; [|exact Hn].
      apply (mnoted_trans _ m m1); [reflexivity|exact N1|]. mnote. }
    destruct N2 as [N2 N3]. destruct (m_method m2); [|exact N2]. rewrite N3. rewrite Bool.andb_false_r. exact N2.
  - unfold response_post_checks. destruct (wp_preflight_response m rel) as [H1 H2].
    pose proof (mnoted_run _ _ m H1) as N. unfold run_check in N |- *. cbn [fst] in N.
    destruct (check_preflight_response m rel) as [l [x|x]]; cbn [fst snd] in *; set (m1 := m_emit _ m) in *;
      assert (N1 : mnoted quiet_files m m1) by (eapply mnoted_sub; [|exact N]; inq); clear N; [|exact N1].
    pose proof (cache_events m1 rel) as Hc.
    destruct (cache_check m1 rel) as [[lc lreq] rc]. destruct Hc as [C1 C2]. apply tag_mse in C1, C2.
    set (m2 := m_emit (tag [] [] lc) m1).
    assert (N2 : mnoted quiet_files m m2).
    { apply (mnoted_trans _ m m1); [reflexivity|exact N1|]. apply mnoted_emit. eapply Forall_impl; [|exact C1].
      intros s. apply mse_sub. inq. }
    set (rel2 := option_map _ rel). destruct rc as [k|y]; [|exact N2].
    set (m3 := m_set_caching (Some k) m2).
    assert (N3 : mnoted quiet_files m m3) by exact N2.
    destruct (wp_status_checks m3 rel2) as [S1 S2]. pose proof (mnoted_run _ _ m3 S1) as N. unfold run_check in N. cbn [fst] in N.
    destruct (check_status m3 rel2) as [ls [z|z]]; cbn [fst snd then_] in *; set (m4 := m_emit _ m3) in *;
      assert (N4 : mnoted quiet_files m m4)
        by (apply (mnoted_trans _ m m3); [reflexivity|exact N3|]; eapply mnoted_sub; [|exact N]; inq); clear N; [|exact N4].
    assert (Hm : m_no_content m4 = true) by exact Hn. rewrite Hm. exact N4.
Qed.
Theorem C04_notes : forall e rel top headers chunks complete trailers t start head base m' rel',
  lint e rel top headers chunks complete trailers (new_linter t start true head base) = (m', rel', Ok tt) ->
  forall n, In n (m_notes m') -> about_body (n_cls n) = false.
Proof.
  intros e rel top headers chunks complete trailers t start head base m' rel' E.
  destruct (lint_facts _ _ _ _ _ _ _ _ _ _ _ _ _ _ E) as (SM & CL & _).
  assert (V : forall x : list note, of_classes [CL_CORRECT; CL_INCORRECT] x = [] -> of_classes [CONTENT_NOT_ALLOWED] x = [] ->
              sel (among checked_late) x = [] -> forall n, In n x -> about_body (n_cls n) = false).
  { intros x H1 H2 H3 n Hn. destruct (about_body (n_cls n)) eqn:Ea; [|reflexivity]. exfalso.
    destruct (among len_classes (n_cls n)) eqn:El.
    - apply among_In in El. destruct El as [El|[El|[El|[]]]].
      + assert (Z : In n (of_classes [CL_CORRECT; CL_INCORRECT] x)) by (apply filter_In; rewrite <- El; auto). rewrite H1 in Z. destruct Z.
      + assert (Z : In n (of_classes [CL_CORRECT; CL_INCORRECT] x)) by (apply filter_In; rewrite <- El; auto). rewrite H1 in Z. destruct Z.
      + assert (Z : In n (of_classes [CONTENT_NOT_ALLOWED] x)) by (apply filter_In; rewrite <- El; auto). rewrite H2 in Z. destruct Z.
    - assert (Z : In n (sel (among checked_late) x)); [|rewrite H3 in Z; destruct Z]. apply filter_In. split; [exact Hn|].
      apply among_In, filter_In. split; [apply all_nids_complete|]. rewrite Ea, El. reflexivity. }
  apply V.
  - apply (C03_verdict _ _ _ _ _ _ _ _ _ _ _ _ _ _ E). auto.
  - apply (C05_not_allowed _ _ _ _ _ _ _ _ _ _ _ _ _ _ E). intros (_ & _ & Z). discriminate.
  - assert (O1 : off_field (among checked_late)) by (apply off_among; cls).
    assert (O2 : apart (among checked_late) (among top_classes)) by (apply apart_among; cls).
    assert (O4 : apart (among checked_late) (among [CL_CORRECT; CL_INCORRECT; CONTENT_NOT_ALLOWED])) by (apply apart_among; cls).
    assert (O5 : apart (among checked_late) quiet_files) by (apply apart_among; cls).
    destruct (lint_end _ _ _ _ _ _ _ _ _ _ _ _ _ _ _ O1 O2 (or_introl eq_refl) O4 E) as (m2 & m3 & r3 & X & SS & CC & MM & E4 & ->).
    rewrite SM in SS. injection SS as T _ N _ _. pose proof (post_quiet e rel m2 N) as Q. rewrite E4 in Q. cbn [fst] in Q.
    rewrite (mnoted_sel _ _ _ _ O5 Q). exact X.
Qed.
Print Assumptions C04_notes.
Lemma finish_hash e rel complete trailers m m' rel' : linted e rel Headed m ->
  finish_content e rel complete trailers m = (m', rel', Ok tt) ->
  m_hash m' = Some (e_md5 e (m_hashed m)) /\ m_dec_hash m' = Some (e_md5 e (m_dec_hashed m)).
Proof.
  intros L E. destruct (linted_inv _ _ _ _ L) as [_ (A & B & C)].
  destruct (finish_pass_stages (fun _ => True) (fun _ => True) e rel complete trailers m m' rel' (Ok tt) A B) as (ma & mb & -> & N & S & D & _).
  { apply Forall_forall. auto. }
  { exact E. }
  destruct D as [((x & Hx) & _)|(mc & m3 & -> & N2 & F2 & _ & N3 & F4 & r3 & E4 & _)]; [discriminate|].
  match type of E4 with post_checks _ _ (check_content_length ?x) = _ => set (mc := x) in * end.
  pose proof (check_content_length_frame mc) as Fc. rewrite F4. cbn. rewrite F2. cbn. rewrite Fc. unfold mc. cbn. split; [rewrite S|]; reflexivity.
Qed.
(** Nothing fed is hashed (in either hash), sampled, or given to a decoder. *)
Theorem C04_bytes : forall e rel top headers chunks complete trailers t start head base m' rel',
  lint e rel top headers chunks complete trailers (new_linter t start true head base) = (m', rel', Ok tt) ->
  m_hash m' = Some (e_md5 e []) /\ m_dec_hash m' = Some (e_md5 e []) /\ m_sample m' = [] /\ m_pipeline m' = None
  /\ m_clen m' = N.of_nat (length (concat chunks)).
Proof.
  intros e rel top headers chunks complete trailers t start head base m' rel' E.
  destruct (lint_facts _ _ _ _ _ _ _ _ _ _ _ _ _ _ E) as (SM & CL & m & L & F & _ & _ & _ & _ & _ & B).
  destruct (B eq_refl) as (B1 & B2 & B3 & B4).
  destruct (finish_content_frame e rel complete trailers m) as [F3 _]. rewrite F in F3. cbn [fst] in F3.
  assert (H : m_hash m' = Some (e_md5 e (m_hashed m)) /\ m_dec_hash m' = Some (e_md5 e (m_dec_hashed m))).
  { apply (finish_hash e rel complete trailers m m' rel' L F). }
  destruct H as [-> ->]. rewrite B1, B3. split; [reflexivity|]. split; [reflexivity|]. split; [rewrite F3; exact B2|]. split; [rewrite F3; exact B4|exact CL].
Qed.
Print Assumptions C04_bytes.
Example C04_ex :
  let r := lint env0 None (TopResponse (u "1.1") (u "304") None) [(u "Content-Length", u "7"); (u "Content-Encoding", u "gzip")] [u "x"] true []
                (new_linter MResponse None true false []) in
  snd r = Ok tt /\ existsb (fun n => about_body (n_cls n)) (m_notes (fst (fst r))) = false /\ m_notes (fst (fst r)) <> [].
Proof. vm_compute. repeat split. discriminate. Qed.
