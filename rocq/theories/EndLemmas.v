(** * What the checks at the end of a session see and report. *)
From Verif Require Import PyStr Regex Note PyLib Utils FieldAttrs Types Framework Checks Message Session
  EvLogic NoteLemmas ContentLemmas FrameLemmas BodyLemmas PassFrame PassSec PassProc PassMsg PassRun SessionLemmas.
Open Scope N_scope.

(** The notes that events of a whole-message check become. *)
Definition msg_notes (t : mtype) (l : list ev) : list note :=
  flat_map (fun e => match e with EMsg s c v => [mk_note t s c None v []] | _ => [] end) l.
Lemma emit_msgs file t l : Forall (mev file) l -> forall ns, emit t ns (tag [] [] l) = ns ++ msg_notes t l.
Proof.
  unfold emit, tag, msg_notes. induction 1 as [|x l H _ IH]; intros ns; cbn [map fold_left flat_map]; [rewrite app_nil_r; reflexivity|].
  destruct x; try destruct H. cbn [emit_one]. rewrite IH, <- app_assoc. reflexivity.
Qed.
Lemma msg_notes_cls t l : map n_cls (msg_notes t l) = flat_map (fun e => match e with EMsg _ c _ => [c] | _ => [] end) l.
Proof. unfold msg_notes. induction l as [|e l IH]; [reflexivity|]. cbn [flat_map]. rewrite map_app, IH. destruct e; reflexivity. Qed.
Lemma msg_notes_app t a b : msg_notes t (a ++ b) = msg_notes t a ++ msg_notes t b.
Proof. unfold msg_notes. apply flat_map_app. Qed.
Lemma msg_notes_in file t l n : Forall (mev file) l -> In n (msg_notes t l) -> nid_file (n_cls n) = file.
Proof.
  intros H Hn. unfold msg_notes in Hn. apply in_flat_map in Hn as (e & He & Hn). rewrite Forall_forall in H. specialize (H e He).
  destruct e; try contradiction. destruct Hn as [<-|[]]. destruct H as [H _]. exact H.
Qed.
Lemma sel_all P (l : list note) : (forall n, In n l -> P (n_cls n) = true) -> sel P l = l.
Proof. unfold sel. induction l as [|n l IH]; intros H; cbn; [reflexivity|]. rewrite (H n) by (left; reflexivity). f_equal. apply IH. intros x Hx. apply H. right. exact Hx. Qed.
Lemma sel_none P (l : list note) : (forall n, In n l -> P (n_cls n) = false) -> sel P l = [].
Proof. unfold sel. induction l as [|n l IH]; intros H; cbn; [reflexivity|]. rewrite (H n) by (left; reflexivity). apply IH. intros x Hx. apply H. right. exact Hx. Qed.
Lemma sel_file_msgs f t l : Forall (mev f) l -> sel (in_file f) (msg_notes t l) = msg_notes t l.
Proof. intros H. apply sel_all. intros n Hn. unfold in_file. rewrite (msg_notes_in f t l n H Hn). apply String.eqb_refl. Qed.

(** The state in which the checks at the end run. *)
Lemma lint_end_ok P e rel top headers chunks complete trailers t start nc head base m' rel' :
  off_field P -> apart P (among top_classes) -> apart P (in_file dec_file) -> apart P (among [CL_CORRECT; CL_INCORRECT; CONTENT_NOT_ALLOWED]) ->
  lint e rel top headers chunks complete trailers (new_linter t start nc head base) = (m', rel', Ok tt) ->
  exists m2 m3, sel P (m_notes m2) = [] /\ caching_only m2 m3 /\ notes_only m3 m' /\ m_type m2 = t
    /\ post_checks e rel m2 = (m3, rel', Ok tt) /\ sel P (m_notes m') = sel P (m_notes m3).
Proof.
  intros O1 O2 O3 O4 E.
  destruct (lint_stages _ _ _ _ _ _ _ _ _ _ _ _ _ _ E) as (p & m0 & m1 & m & Hp & L0 & E0 & E1 & E2 & L1 & L2 & E3).
  assert (X : sel P (m_notes m) = []) by (apply (early_sel P e rel Headed m); auto).
  assert (T : m_type m' = t) by (destruct (lint_facts _ _ _ _ _ _ _ _ _ _ _ _ _ _ E) as (SM & _); injection SM as -> _ _ _ _; reflexivity).
  destruct (linted_inv _ _ _ _ L2) as [_ (A & B & C)].
  destruct (finish_pass_stages (fun _ => True) (fun _ => True) e rel complete trailers m m' rel' (Ok tt) A B) as (ma & mb & -> & N & S & D & _).
  { apply Forall_forall. auto. }
  { exact E3. }
  destruct D as [((x & Hx) & _)|(mc & m3 & -> & N2 & F2 & _ & N3 & F4 & r3 & E4 & R)]; [discriminate|].
  rewrite (R eq_refl) in E4.
  match type of E4 with post_checks _ _ (check_content_length ?x) = _ => set (mc := x) in * end.
  exists (check_content_length mc), m3.
  split; [|split; [exact F2|split; [exact F4|split; [|split; [exact E4|apply (noted_sel _ _ _ O1 N3)]]]]].
  - assert (Y : sel P (m_notes mc) = []) by (unfold mc; cbn [m_notes m_set_dec_hash]; rewrite (noted_sel _ _ _ O1 N); exact X).
    destruct (content_length_pass mc) as [Z|(n & En & Ek & ->)].
    + rewrite (mnoted_sel _ _ _ _) with (2 := Z); [exact Y|]. intros n Hn. apply O4, among_In. apply among_In in Hn. cbn in Hn |- *. tauto.
    + rewrite sel_app, Y. unfold sel. cbn [filter app]. rewrite (O4 (n_cls n)); [reflexivity|]. apply among_In. rewrite En. cbn. auto.
  - rewrite <- T, F4. cbn. rewrite F2. reflexivity.
Qed.

Lemma off_own (P : nid -> bool) : (forall n, P n = true -> framework n = false /\ forall f, own f n = false) -> off_field P.
Proof.
  intros H n [Hf|[f Hf]]; destruct (P n) eqn:E; try reflexivity; destruct (H n E) as [H1 H2]; [congruence|rewrite H2 in Hf; discriminate].
Qed.
Lemma preflight_off : off_field (among preflight_classes).
Proof.
  apply off_own. intros n Hn. apply among_In in Hn. cbn in Hn.
  repeat (destruct Hn as [<-|Hn]; [split; [vm_compute; reflexivity|]; intros f; destruct f; vm_compute; reflexivity|]). destruct Hn.
Qed.
Ltac cls := vm_compute; reflexivity.

(** Everything about a response. *)
Lemma lint_response e rel top headers chunks complete trailers start nc head base m' rel' :
  lint e rel top headers chunks complete trailers (new_linter MResponse start nc head base) = (m', rel', Ok tt) ->
  exists lp lc lreq k ls,
    check_preflight_response m' rel = (lp, Ok tt) /\ cache_check m' rel = (lc, lreq, Ok k) /\ check_status m' rel = (ls, Ok tt)
    /\ m_caching m' = Some k /\ rel' = option_map (m_emit (tag [] [] lreq)) rel
    /\ sel (among preflight_classes) (m_notes m') = msg_notes MResponse lp
    /\ sel (in_file "cache.py") (m_notes m') = msg_notes MResponse lc
    /\ sel (in_file "status.py") (m_notes m') = msg_notes MResponse ls
    /\ Forall (mev "cache.py") lreq.
Proof.
  intros E.
  assert (K : forall P, off_field P -> apart P (among top_classes) -> apart P (in_file dec_file) ->
     apart P (among [CL_CORRECT; CL_INCORRECT; CONTENT_NOT_ALLOWED]) -> apart P (in_file "content_type.py") -> apart P (in_file "charset.py") ->
     exists lp lc lreq k ls,
    check_preflight_response m' rel = (lp, Ok tt) /\ cache_check m' rel = (lc, lreq, Ok k) /\ check_status m' rel = (ls, Ok tt)
    /\ m_caching m' = Some k /\ rel' = option_map (m_emit (tag [] [] lreq)) rel
    /\ sel P (m_notes m') = sel P (msg_notes MResponse lp ++ msg_notes MResponse lc ++ msg_notes MResponse ls)
    /\ Forall (mev "field/cors.py") lp /\ Forall (mev "cache.py") lc /\ Forall (mev "status.py") ls /\ Forall (mev "cache.py") lreq).
  { intros P O1 O2 O3 O4 O5 O6.
    destruct (lint_end_ok P _ _ _ _ _ _ _ _ _ _ _ _ _ _ O1 O2 O3 O4 E) as (m2 & m3 & X & F2 & F3 & T & E4 & ->).
    unfold post_checks in E4. rewrite T in E4. unfold response_post_checks in E4.
    assert (R : exists ns, m' = m_set_notes ns (m_set_caching (m_caching m3) m2)).
    { exists (m_notes m'). exact (eq_trans F3 (f_equal (m_set_notes (m_notes m')) F2)). }
    destruct (wp_preflight_response m2 rel) as [H1 _]. unfold run_check in E4.
    assert (V1 : check_preflight_response m' rel = check_preflight_response m2 rel) by (destruct R as [ns ->]; reflexivity).
    destruct (check_preflight_response m2 rel) as [lp [[]|x]]; cbn [fst snd] in *; [|discriminate].
    set (ma := m_emit _ m2) in E4. pose proof (cache_events ma rel) as Hc.
    assert (V2 : cache_check m' rel = cache_check ma rel) by (destruct R as [ns ->]; reflexivity).
    destruct (cache_check ma rel) as [[lc lreq] rc]. destruct Hc as [C1 C2].
    set (rel2 := option_map _ rel) in E4. destruct rc as [k|y]; [|discriminate].
    set (mb := m_set_caching (Some k) _) in E4.
    assert (V3 : check_status mb rel2 = check_status m' rel) by (destruct R as [ns ->]; unfold rel2; destruct rel; reflexivity).
    destruct (wp_status_checks mb rel2) as [S1 _]. rewrite V3 in *. clear V3.
    destruct (check_status m' rel) as [ls [[]|z]]; cbn [fst snd then_] in *; [|discriminate].
    set (mc := m_emit _ mb) in E4.
    assert (Z : m_caching mc = Some k /\ sel P (m_notes mc) = sel P (msg_notes MResponse lp ++ msg_notes MResponse lc ++ msg_notes MResponse ls)).
    { split; [reflexivity|]. unfold mc. rewrite notes_emit. cbn [m_type mb m_set_caching m_emit m_set_notes ma]. rewrite T.
      rewrite (emit_msgs _ _ _ S1). unfold mb. cbn [m_notes m_set_caching]. rewrite notes_emit. change (m_type ma) with (m_type m2). rewrite T.
      rewrite (emit_msgs _ _ _ C1). unfold ma. rewrite notes_emit, T, (emit_msgs _ _ _ H1), !sel_app, X. cbn [app]. rewrite app_assoc. reflexivity. }
    exists lp, lc, lreq, k, ls. destruct Z as [Z1 Z2].
    assert (W : (m_caching m3 = Some k /\ rel' = rel2) /\ sel P (m_notes m3) = sel P (m_notes mc)).
    { destruct (m_no_content mc); [injection E4 as <- <-; auto|].
      destruct (wp_content_type e mc) as [T1 _]. pose proof (mnoted_run _ _ mc T1) as N1. unfold run_check in N1. cbn [fst] in N1.
      destruct (verify_content_type e mc) as [lt [z|z]]; cbn [fst snd then_] in *; [|discriminate].
      set (md := m_emit (tag [] [] lt) mc) in *.
      destruct (wp_charset (fun _ => True) e md) as [U1 _]. pose proof (mnoted_run _ _ md U1) as N2. unfold run_check in N2. cbn [fst] in N2.
      destruct (verify_charset e md) as [lu [w|w]]; cbn [fst snd then_] in *; [|discriminate].
      injection E4 as <- <-. split; [split; [exact Z1|reflexivity]|].
      rewrite (mnoted_sel _ _ _ _ O6 N2), (mnoted_sel _ _ _ _ O5 N1). reflexivity. }
    destruct W as [[W1 W2] W3].
    assert (Wk : m_caching m' = Some k) by (rewrite F3; exact W1).
    repeat (split; [first [assumption|congruence]|]). exact C2. }
  destruct (K (among preflight_classes)) as (lp & lc & lreq & k & ls & A1 & A2 & A3 & A4 & A5 & A6 & A7 & A8 & A9 & A10);
    [apply preflight_off|apply apart_among; cls..|].
  assert (M1 : forall f t l, Forall (mev f) l -> apart (among preflight_classes) (in_file f) -> sel (among preflight_classes) (msg_notes t l) = []).
  { intros f t l Hl Hf. apply sel_none. intros n Hn. apply Hf. unfold in_file. rewrite (msg_notes_in f t l n Hl Hn). apply String.eqb_refl. }
  exists lp, lc, lreq, k, ls. repeat (split; [assumption|]).
  assert (A6' : sel (among preflight_classes) (m_notes m') = msg_notes MResponse lp).
  { rewrite A6, !sel_app, (M1 "cache.py"%string _ lc A8) by (apply apart_among; cls).
    rewrite (M1 "status.py"%string _ ls A9) by (apply apart_among; cls). rewrite !app_nil_r. apply sel_all.
    intros n Hn. apply among_In. unfold check_preflight_response in A1. revert A1 Hn. clear.
    intros A1 Hn.
    assert (G : Forall (fun e => match e with EMsg _ c _ => In c preflight_classes | _ => False end) lp).
    { assert (W : wp (fun e => match e with EMsg _ c _ => In c preflight_classes | _ => False end) (fun _ => True) (fun _ => True)
                   (check_preflight_response m' rel)).
      { unfold check_preflight_response, msg, when. apply wp_seq.
        - destruct (match rel with Some r => is_preflight r | None => false end); [apply wp_tell; [constructor; [cbn; tauto|constructor]|exact I]|].
          apply (wp_bind_lift _ _ (fun _ => True)); [destruct (mapR _ _); exact I|]. intros. destruct (nonempty _); [apply wp_tell; [constructor; [cbn; tauto|constructor]|exact I]|apply wp_ret; exact I].
        - destruct (m_get m' _) as [[]|]; try (apply wp_ret; exact I). destruct (_ || _); [|apply wp_ret; exact I].
          apply wp_tell; [constructor; [cbn; tauto|constructor]|exact I]. }
      destruct W as [W _]. unfold check_preflight_response in W. rewrite A1 in W. exact W. }
    unfold msg_notes in Hn. apply in_flat_map in Hn as (ev & He & Hn). rewrite Forall_forall in G. specialize (G ev He).
    destruct ev; try contradiction. destruct Hn as [<-|[]]. exact G. }
  split; [exact A6'|].
  assert (Q : forall P, off_field P -> apart P (among top_classes) -> apart P (in_file dec_file) ->
     apart P (among [CL_CORRECT; CL_INCORRECT; CONTENT_NOT_ALLOWED]) -> apart P (in_file "content_type.py") -> apart P (in_file "charset.py") ->
     sel P (m_notes m') = sel P (msg_notes MResponse lp ++ msg_notes MResponse lc ++ msg_notes MResponse ls)).
  { intros P O1 O2 O3 O4 O5 O6. destruct (K P O1 O2 O3 O4 O5 O6) as (lp2 & lc2 & lreq2 & k2 & ls2 & B1 & B2 & B3 & _ & _ & B6 & _).
    assert (lp2 = lp) by congruence. assert (lc2 = lc) by congruence. assert (ls2 = ls) by congruence. subst. exact B6. }
  assert (FF : forall f g, f <> g -> apart (in_file f) (in_file g)).
  { intros f g Hne n Hn. unfold in_file in *. apply String.eqb_eq in Hn. apply String.eqb_neq. congruence. }
  assert (OF : forall f, String.prefix "field/" f = false -> off_field (in_file f)).
  { intros f Hf. apply off_prefix. intros n Hn. unfold in_file in Hn. apply String.eqb_eq in Hn. rewrite Hn. exact Hf. }
  assert (AL : forall f l, forallb (fun n => negb (in_file f n)) l = true -> apart (in_file f) (among l)).
  { intros f l Hl n Hn. apply among_In in Hn. rewrite forallb_forall in Hl. specialize (Hl n Hn). destruct (in_file f n); [discriminate|reflexivity]. }
  assert (SF : forall f g t l, f <> g -> Forall (mev g) l -> sel (in_file f) (msg_notes t l) = []).
  { intros f g t l Hne Hl. apply sel_none. intros n Hn. unfold in_file. rewrite (msg_notes_in g t l n Hl Hn). apply String.eqb_neq. congruence. }
  split; [|split].
  - rewrite (Q (in_file "cache.py")); [|apply OF; reflexivity|apply AL; cls|apply FF; discriminate|apply AL; cls|apply FF; discriminate|apply FF; discriminate].
    rewrite !sel_app, (SF "cache.py"%string "field/cors.py"%string _ lp), (SF "cache.py"%string "status.py"%string _ ls), sel_file_msgs by (assumption || discriminate).
    rewrite app_nil_r. reflexivity.
  - rewrite (Q (in_file "status.py")); [|apply OF; reflexivity|apply AL; cls|apply FF; discriminate|apply AL; cls|apply FF; discriminate|apply FF; discriminate].
    rewrite !sel_app, (SF "status.py"%string "field/cors.py"%string _ lp), (SF "status.py"%string "cache.py"%string _ lc), sel_file_msgs by (assumption || discriminate).
    reflexivity.
  - exact A10.
Qed.

(** Everything about a request. *)
Lemma lint_request e rel top headers chunks complete trailers start nc head base m' rel' :
  lint e rel top headers chunks complete trailers (new_linter MRequest start nc head base) = (m', rel', Ok tt) ->
  rel' = rel /\ exists lp, check_preflight_request m' = (lp, Ok tt)
    /\ sel (among preflight_classes) (m_notes m') = sel (among preflight_classes) (msg_notes MRequest lp).
Proof.
  intros E.
  destruct (lint_end_ok (among preflight_classes) _ _ _ _ _ _ _ _ _ _ _ _ _ _ preflight_off
              ltac:(apply apart_among; cls) ltac:(apply apart_among; cls) ltac:(apply apart_among; cls) E) as (m2 & m3 & X & F2 & F3 & T & E4 & ->).
  unfold post_checks in E4. rewrite T in E4. unfold request_post_checks in E4.
  assert (R : exists ns, m' = m_set_notes ns (m_set_caching (m_caching m3) m2)).
  { exists (m_notes m'). exact (eq_trans F3 (f_equal (m_set_notes (m_notes m')) F2)). }
  assert (V1 : check_preflight_request m' = check_preflight_request m2) by (destruct R as [ns ->]; reflexivity).
  destruct (wp_preflight_request (fun _ => False) m2) as [H1 H2]. unfold run_check in E4. rewrite V1.
  destruct (check_preflight_request m2) as [lp [[]|x]]; cbn [fst snd then_] in *; [|destruct H2].
  set (ma := m_emit _ m2) in E4. set (mb := if m_has ma _ then _ else _) in E4.
  injection E4 as <- <-. split; [reflexivity|]. exists lp. split; [reflexivity|].
  assert (Xa : sel (among preflight_classes) (m_notes ma) = sel (among preflight_classes) (msg_notes MRequest lp)).
  { unfold ma. rewrite notes_emit, T, (emit_msgs _ _ _ H1), sel_app, X. reflexivity. }
  assert (Xb : sel (among preflight_classes) (m_notes mb) = sel (among preflight_classes) (msg_notes MRequest lp)).
  { unfold mb. destruct (m_has ma _); [exact Xa|]. unfold note_msg. rewrite notes_emit. cbn [emit fold_left emit_one]. rewrite sel_app, Xa. apply app_nil_r. }
  destruct (m_method mb); [|exact Xb]. destruct (_ && _); [|exact Xb].
  unfold note_msg. rewrite notes_emit. cbn [emit fold_left emit_one]. rewrite sel_app, Xb. apply app_nil_r.
Qed.
