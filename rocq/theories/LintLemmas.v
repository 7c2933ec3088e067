(** * A whole run, section by section. *)
From Verif Require Import PyStr Regex Grammar NoteTable Note PyLib Utils FieldAttrs Types Fields1 Fields2 Fields3 Framework Checks Message
  EvLogic NoteLemmas ContentLemmas FrameLemmas BodyLemmas NameLemmas PassParse PassEval PassSF PassFrame PassSec PassProc PassMsg Session PassRun
  SessionLemmas SectionLemmas SecNotes SecValues.
Open Scope N_scope.

(** ** The per-field checks at the end *)
Definition has_post (f : fname) : bool :=
  match f with
  | F_accept_ch | F_available_dictionary | F_content_encoding | F_content_security_policy | F_content_security_policy_report_only
  | F_cross_origin_embedder_policy | F_cross_origin_embedder_policy_report_only | F_cross_origin_opener_policy
  | F_cross_origin_opener_policy_report_only | F_nel => true
  | _ => false
  end.
Definition posted (t : mtype) (s : sev) : Prop := exists f, has_post f = true /\ wrong t f = false /\ fev f (snd s) /\ exists c h, In (snd s) (fst (post_of f c h)).
(** A field whose code after the sections says nothing of these classes. *)
Definition mute_post (P : nid -> bool) (f : fname) : Prop := forall c h, Forall (fun x => Forall (fun n => P n = false) (ev_cls x)) (fst (post_of f c h)).
Lemma post_kind f : has_post f = true -> kind_of f <> KBroken.
Proof. destruct f; intros H; first [discriminate H|vm_compute; discriminate]. Qed.
Lemma post_none f c h : has_post f = false -> post_of f c h = ret tt.
Proof. destruct f; intros H; first [discriminate H|reflexivity]. Qed.
Lemma post_one_events e rel tr m h m' r : fin_ok (m_type m) h -> shunned (m_type m) h -> post_one e rel tr m h = (m', r) ->
  exists evs, m_notes m' = emit (m_type m) (m_notes m) evs /\ Forall (posted (m_type m)) evs.
Proof.
  intros (Hv & Ha & Hm) Hsh E. unfold post_one in E.
  assert (N0 : exists evs, m_notes m = emit (m_type m) (m_notes m) evs /\ Forall (posted (m_type m)) evs) by (exists []; split; [reflexivity|constructor]).
  assert (X : h_val h <> VNone -> forall l, post_of (h_cls h) (mkCx e m rel) h = (l, r) ->
     exists evs, m_notes (m_emit (tag (field_subj h) (sec_base tr h) l) m) = emit (m_type m) (m_notes m) evs /\ Forall (posted (m_type m)) evs).
  { intros Hn l El. exists (tag (field_subj h) (sec_base tr h) l). split; [reflexivity|].
    destruct (has_post (h_cls h)) eqn:Hp; [|rewrite (post_none _ _ _ Hp) in El; injection El as <- _; constructor].
    destruct (post_pass (h_cls h) (mkCx e m rel) h Hv Hn Hm) as [P1 _]. rewrite El in P1. cbn [fst] in P1.
    unfold tag. apply Forall_map, Forall_forall. intros a Ha0. rewrite Forall_forall in P1. specialize (P1 a Ha0) as Hx. exists (h_cls h). split; [exact Hp|]. split; [|split; [exact Hx|exists (mkCx e m rel), h; rewrite El; exact Ha0]].
    destruct (wrong (m_type m) (h_cls h)) eqn:W; [|reflexivity]. destruct (Hn (Hsh W (post_kind _ Hp))). }
  destruct (h_val h) eqn:Ev; try (injection E as <- <-; exact N0);
    (destruct (post_of (h_cls h) (mkCx e m rel) h) as [le r0]; injection E as <- ->; apply X; [discriminate|reflexivity]).
Qed.
Lemma post_all_events e rel tr l : forall m m', Forall (fun kh => fin_ok (m_type m) (snd kh) /\ shunned (m_type m) (snd kh)) l -> post_all e rel tr m l = (m', Ok tt) ->
  exists evs, m_notes m' = emit (m_type m) (m_notes m) evs /\ Forall (posted (m_type m)) evs.
Proof.
  induction l as [|[k h] l IH]; intros m m' H E; cbn [post_all] in E.
  - injection E as <-. exists []. split; [reflexivity|constructor].
  - inversion H as [|? ? H1 H2]; subst. cbn [snd] in H1. destruct H1 as [H1 H1s]. pose proof (post_one_frame e rel tr m h) as Fr.
    destruct (post_one e rel tr m h) as [m1 [[]|x]] eqn:E1; cbn [then_] in E; [|discriminate].
    destruct (post_one_events e rel tr m h m1 _ H1 H1s E1) as (evs1 & N1 & P1). cbn [fst] in Fr.
    assert (T : m_type m1 = m_type m) by (rewrite Fr; reflexivity). specialize (IH m1 m'). rewrite T in IH.
    destruct (IH H2 E) as (evs2 & N2 & P2). exists (evs1 ++ evs2). rewrite emit_app, <- N1. split; [exact N2|apply Forall_app; auto].
Qed.
Lemma posted_calm t l : Forall (posted t) l -> Forall (calm_ev framework) l.
Proof.
  apply Forall_impl. intros [[subj base] e] (f & _ & _ & He & _). unfold calm_ev. cbn [snd] in *. destruct e; auto.
  destruct He as (H1 & H2 & _). split; eapply own_framework; eassumption.
Qed.
Lemma posted_briefs t l : Forall (posted t) l -> briefs l = [].
Proof.
  induction 1 as [|[[subj base] e] l (f & _ & _ & He & _) _ IH]; [reflexivity|]. change ((subj, base, e) :: l) with (tag subj base [e] ++ l).
  rewrite briefs_app, IH, app_nil_r. apply (briefs_fev f). constructor; [exact He|constructor].
Qed.
Lemma posted_off t P f l : mine P f -> has_post f = false \/ wrong t f = true \/ mute_post P f -> Forall (posted t) l -> Forall (not_cls P) l.
Proof.
  intros [HP _] Hf. apply Forall_impl. intros [[subj base] e] (g & Hg & Hw & He & c & h & Hi). unfold not_cls. cbn [snd] in *.
  destruct (fname_eqb g f) eqn:Egf.
  { apply fname_eqb_eq in Egf. subst g. destruct Hf as [Hf|[Hf|Hf]]; [congruence|congruence|]. specialize (Hf c h). rewrite Forall_forall in Hf. apply Hf, Hi. }
  assert (O : forall n, own g n = true -> P n = false).
  { intros n Hn. destruct (P n) eqn:E; [|reflexivity]. apply HP in E as [_ E]. rewrite (E _ Hn) in Egf. rewrite (proj2 (fname_eqb_eq f f) eq_refl) in Egf. discriminate. }
  destruct e; cbn [ev_cls fev] in *; repeat constructor; apply O; apply He.
Qed.

(** ** The stages of a run *)
(** Classes only fields report. *)
Definition quiet (P : nid -> bool) : Prop :=
  apart P (among top_classes) /\ apart P (in_file dec_file) /\ apart P post_files
  /\ P CL_CORRECT = false /\ P CL_INCORRECT = false /\ P CONTENT_NOT_ALLOWED = false.
Lemma start_sel P e top m m' r : apart P (among top_classes) -> start_line e top m = (m', r) -> sel P (m_notes m') = sel P (m_notes m).
Proof.
  intros HP. destruct top as [|a b c|a b c]; cbn [start_line].
  - intros E. injection E as <- _. reflexivity.
  - intros E. pose proof (request_topline_pass e a b c m) as P0. rewrite E in P0. apply (mnoted_sel _ _ _ _ HP (proj1 P0)).
  - intros E. injection E as <- _. apply (mnoted_sel _ _ _ _ HP (response_topline_pass a b c m)).
Qed.
Lemma feed_all_sel P e chunks : apart P (in_file dec_file) -> forall m m' r, feed_all e chunks m = (m', r) -> sel P (m_notes m') = sel P (m_notes m).
Proof.
  intros HP. induction chunks as [|c cs IH]; intros m m' r E; cbn [feed_all] in E; [injection E as <- _; reflexivity|].
  pose proof (feed_pass e c m) as P0. destruct (feed_content e c m) as [m1 [x|x]]; cbn [then_] in E.
  - rewrite (IH _ _ _ E). apply (mnoted_sel _ _ _ _ HP (proj1 P0)).
  - injection E as <- _. apply (mnoted_sel _ _ _ _ HP (proj1 P0)).
Qed.
Lemma length_sel P m : quiet P -> sel P (m_notes (check_content_length m)) = sel P (m_notes m).
Proof.
  intros (_ & _ & _ & H1 & H2 & H3). destruct (content_length_pass m) as [N|(n & E & _ & ->)].
  - apply (mnoted_sel P (among [CL_CORRECT; CL_INCORRECT])); [|exact N]. intros n Hn. apply existsb_exists in Hn as (x & Hx & En). apply nid_eqb_eq in En. subst.
    destruct Hx as [<-|[<-|[]]]; assumption.
  - rewrite sel_app. unfold sel at 2. cbn [filter]. rewrite E, H3, app_nil_r. reflexivity.
Qed.
Lemma process_nil e rel tr m : sec tr m = new_section tr -> process e rel tr m [] = (m, Ok tt).
Proof.
  intros H. unfold process. cbn [field_lines]. unfold section_size. rewrite H. cbn [s_size new_section]. change (max_total_size <? 0) with false. cbv iota. rewrite H. reflexivity.
Qed.
(** The sections of a run: each is processed once, in a new state; nothing else
    touches them or adds notes of classes in a quiet [P]. *)
Definition sections (e : env) (rel : option mstate) (headers trailers : list (bytes * bytes)) (t : mtype) (start : option Q) (base : str)
    (m' : mstate) (mh mh' mt mt' : mstate) : Prop :=
  m_headers mh = new_section false /\ process e rel false mh headers = (mh', Ok tt) /\ m_headers m' = m_headers mh'
  /\ m_trailers mt = new_section true /\ process e rel true mt trailers = (mt', Ok tt) /\ m_trailers m' = m_trailers mt'
  /\ m_headers mt = m_headers mh'
  /\ core mh = new_linter t start false false base /\ core mt = new_linter t start false false base
  /\ m_type mh = t /\ m_type mt = t
  /\ (forall P, quiet P -> sel P (m_notes mh) = [] /\ sel P (m_notes mt) = sel P (m_notes mh'))
  /\ exists evs, Forall (posted t) evs /\ forall P, quiet P -> Forall (fun s => calm_ev P s \/ not_cls P s) evs ->
       sel P (m_notes m') = sel P (emit t (m_notes mt') evs).
Lemma sel_emit_same P t l : forall a b, sel P a = sel P b -> Forall (fun s => calm_ev P s \/ not_cls P s) l -> sel P (emit t a l) = sel P (emit t b l).
Proof.
  induction l as [|s l IH]; intros a b E H; [exact E|]. inversion H as [|? ? [Hs|Hs] Hl]; subst.
  - change (emit t a (s :: l)) with (emit t (emit t a [s]) l). change (emit t b (s :: l)) with (emit t (emit t b [s]) l). apply IH; [|exact Hl].
    rewrite (emit_sel_add P t [s] a), (emit_sel_add P t [s] b), E by (constructor; [exact Hs|constructor]). reflexivity.
  - change (emit t a (s :: l)) with (emit t (emit t a [s]) l). change (emit t b (s :: l)) with (emit t (emit t b [s]) l). apply IH; [|exact Hl].
    rewrite (emit_sel P t [s] a), (emit_sel P t [s] b), E by (constructor; [exact Hs|constructor]). reflexivity.
Qed.
(** What the start of a message fixes: nothing that happens later changes it. *)
Definition front (m : mstate) := (m_type m, m_start m, m_version m, m_base m, m_method m, m_uri m, m_status m).
Definition begun (e : env) (top : topline) (m : mstate) : mstate := fst (start_line e top m).
(** The notes of the per-field checks, all of which see the final message. *)
Definition post_evs (e : env) (rel : option mstate) (V : mstate) (tr : bool) (h : handler) : list sev :=
  match h_val h with VNone => [] | _ => tag (field_subj h) (sec_base tr h) (fst (post_of (h_cls h) (mkCx e V rel) h)) end.
Definition posts (e : env) (rel : option mstate) (V : mstate) (tr : bool) (l : list (str * handler)) : list sev := flat_map (fun kh => post_evs e rel V tr (snd kh)) l.
Lemma post_of_notes f e V rel h ns : post_of f (mkCx e (m_set_notes ns V) rel) h = post_of f (mkCx e V rel) h.
Proof. destruct V. destruct f; reflexivity. Qed.
Lemma post_evs_notes e rel V tr h ns : post_evs e rel (m_set_notes ns V) tr h = post_evs e rel V tr h.
Proof. unfold post_evs. rewrite post_of_notes. reflexivity. Qed.
Lemma posts_notes e rel V V' tr l : notes_only V V' -> posts e rel V' tr l = posts e rel V tr l.
Proof. intros H. rewrite H. unfold posts. induction l as [|[k h] l IH]; [reflexivity|]. cbn [flat_map snd]. rewrite IH, post_evs_notes. reflexivity. Qed.
Lemma post_all_posts e rel tr l : forall m m', post_all e rel tr m l = (m', Ok tt) -> m_notes m' = emit (m_type m) (m_notes m) (posts e rel m tr l).
Proof.
  induction l as [|[k h] l IH]; intros m m' E; cbn [post_all] in E; [injection E as <-; reflexivity|].
  pose proof (post_one_frame e rel tr m h) as Fr. destruct (post_one e rel tr m h) as [m1 [[]|x]] eqn:E1; cbn [then_] in E; [|discriminate]. cbn [fst] in Fr.
  assert (T : m_type m1 = m_type m) by (rewrite Fr; reflexivity). rewrite (IH m1 m' E), T, (posts_notes e rel m m1 tr l Fr).
  change (posts e rel m tr ((k, h) :: l)) with (post_evs e rel m tr h ++ posts e rel m tr l). rewrite emit_app. f_equal.
  unfold post_one in E1. unfold post_evs. destruct (h_val h); first [injection E1 as <-; reflexivity | destruct (post_of (h_cls h) (mkCx e m rel) h) as [le r0]; injection E1 as <- _; reflexivity].
Qed.
Definition all_posts (e : env) (rel : option mstate) (m : mstate) : list sev := posts e rel m false (s_handlers (m_headers m)) ++ posts e rel m true (s_handlers (m_trailers m)).
Lemma lint_sections_full e rel top headers chunks complete trailers t start nc head base m' rel' :
  lint e rel top headers chunks complete trailers (new_linter t start nc head base) = (m', rel', Ok tt) ->
  exists mh mh' mt mt', (sections e rel headers trailers t start base m' mh mh' mt mt'
    /\ front mh = front (begun e top (new_linter t start nc head base)) /\ front mt = front (begun e top (new_linter t start nc head base)))
    /\ forall P, quiet P -> (forall a b, sel P a = sel P b -> sel P (emit t a (all_posts e rel' m')) = sel P (emit t b (all_posts e rel' m'))) ->
         sel P (m_notes m') = sel P (emit t (m_notes mt') (all_posts e rel' m')).
Proof.
  intros E. destruct (lint_facts _ _ _ _ _ _ _ _ _ _ _ _ _ _ E) as (SS & _ & _).
  destruct (lint_stages _ _ _ _ _ _ _ _ _ _ _ _ _ _ E) as (p & m0 & m1 & m & Hp & L0 & E0 & E1 & E2 & L1 & L2 & E3).
  pose proof (setup_start e top (new_linter t start nc head base)) as S0. rewrite E0 in S0. cbn [fst] in S0.
  pose proof (setup_headers e rel headers m0) as S1. rewrite E1 in S1. cbn [fst] in S1.
  pose proof (setup_feed e chunks m1) as S2. rewrite E2 in S2. cbn [fst] in S2.
  assert (Hs0 : setup m0 = (t, start, nc, head, base)) by (rewrite S0; reflexivity).
  assert (Hs : setup m = (t, start, nc, head, base)) by (rewrite S2, S1; exact Hs0).
  assert (Tm0 : m_type m = t) by (injection Hs as -> _; reflexivity). assert (Tm1 : m_type m0 = t) by (injection Hs0 as -> _; reflexivity).
  destruct (linted_inv _ _ _ _ L0) as [_ U0]. assert (U : untouched m0) by (destruct Hp; subst p; exact U0). destruct U as (U1 & U2 & _).
  destruct (linted_inv _ _ _ _ L2) as [_ (A & B & C)].
  pose proof (process_headers_frame e rel headers m0) as Fh. rewrite E1 in Fh. cbn [fst] in Fh.
  pose proof (feed_all_body e chunks m1) as Ff. rewrite E2 in Ff. cbn [fst] in Ff.
  assert (P1 : exists mh', process e rel false m0 headers = (mh', Ok tt) /\ m_headers m1 = m_headers mh' /\ m_notes m1 = m_notes mh').
  { unfold process_headers in E1. destruct (process e rel false m0 headers) as [mh' [[]|x]]; [|discriminate]. exists mh'. split; [reflexivity|].
    repeat match type of E1 with
           | match ?x with _ => _ end = _ => destruct x; try discriminate E1
           | (if ?x then _ else _) = _ => destruct x; try discriminate E1
           end; injection E1 as <-; split; reflexivity. }
  destruct P1 as (mh' & P1 & H1 & N1).
  assert (Hm : m_headers m = m_headers mh') by (rewrite Ff; exact H1).
  assert (Tm : m_trailers m = new_section true) by (rewrite Ff, <- U2; cbn; rewrite Fh; reflexivity).
  unfold finish_content in E3. set (mt := m_set_hash _ _) in E3.
  assert (Tt : m_trailers mt = new_section true) by exact Tm.
  assert (W : exists mt', process e rel true mt trailers = (mt', Ok tt) /\ finish_content e rel complete trailers m = (m', rel', Ok tt) /\
     (let m := check_content_length (m_set_dec_hash (Some (e_md5 e (m_dec_hashed mt'))) mt') in
      let '(m, rel, r) := post_checks e rel m in
      match r with
      | Err x => (m, rel, Err x)
      | Ok _ =>
          let '(m, r) :=
            then_ (post_all e rel false m (s_handlers (m_headers m)))
                  (fun m => post_all e rel true m (s_handlers (m_trailers m))) in
          (m, rel, r)
      end) = (m', rel', Ok tt)).
  { destruct trailers as [|tr0 trs].
    - exists mt. split; [apply (process_nil e rel true mt Tt)|]. split; [exact E3|exact E3].
    - destruct (process e rel true mt (tr0 :: trs)) as [mt' [[]|x]] eqn:Ep; [|discriminate]. exists mt'. split; [reflexivity|]. split; [unfold finish_content; fold mt; rewrite Ep|]; exact E3. }
  destruct W as (mt' & Pt & Ef & Ee). clear E3. exists m0, mh', mt, mt'.
  pose proof (process_frame e rel true mt trailers) as Ft. rewrite Pt in Ft. cbn [fst] in Ft.
  cbv zeta in Ee. set (mc := check_content_length _) in Ee.
  assert (Fc : notes_only (m_set_dec_hash (Some (e_md5 e (m_dec_hashed mt'))) mt') mc) by apply check_content_length_frame.
  pose proof (post_checks_frame e rel mc) as Fp. pose proof (post_checks_pass (fun _ => True) e rel mc) as Np.
  destruct (post_checks e rel mc) as [[m3 rel3] [[]|x]]; [|discriminate Ee]. cbn [fst] in Fp.
  assert (H3 : m_headers m3 = m_headers m /\ m_trailers m3 = m_trailers mt' /\ m_type m3 = t).
  { assert (Y : m_headers mt' = m_headers m /\ m_type mt' = m_type m) by (rewrite Ft; split; reflexivity). destruct Y as [Y1 Y2].
    rewrite Fp, Fc. cbn. rewrite Y1, Y2, Tm0. repeat split. }
  destruct H3 as (H3 & T3 & Y3).
  assert (AF : Forall (fun kh => fin_ok (m_type m3) (snd kh) /\ shunned (m_type m3) (snd kh)) (s_handlers (m_headers m3))).
  { apply Forall_and; [pose proof (all_fin_list _ _ A) as AF; rewrite Tm0, <- H3 in AF; rewrite <- Y3 in AF; exact AF|].
    apply Forall_forall. intros [k h] Hin. cbn [snd]. rewrite Y3, <- Tm1. apply (process_shunned e rel false m0 headers mh' U1 P1 k h).
    cbn [sec]. rewrite <- Hm, <- H3. apply NoDup_dget; [rewrite H3; apply A|exact Hin]. }
  assert (BF : Forall (fun kh => fin_ok (m_type m3) (snd kh) /\ shunned (m_type m3) (snd kh)) (s_handlers (m_trailers m3))).
  { rewrite Y3, T3. pose proof (process_pass (fun _ => True) e rel true mt trailers) as Q. cbn [sec] in Q. rewrite Tt in Q. specialize (Q eq_refl). rewrite Pt in Q.
    destruct Q as [_ (Q & _)]; [apply Forall_forall; auto|]. cbn [sec] in Q. change (m_type mt) with (m_type m) in Q. rewrite <- Tm0.
    apply Forall_and; [apply all_fin_list; exact Q|]. apply Forall_forall. intros [k h] Hin. cbn [snd].
    apply (process_shunned e rel true mt trailers mt' Tt Pt k h). cbn [sec]. apply NoDup_dget; [apply Q|exact Hin]. }
  destruct (post_all e rel3 false m3 (s_handlers (m_headers m3))) as [m4 [[]|x]] eqn:E4; cbn [then_] in Ee; [|discriminate Ee].
  pose proof (post_all_frame e rel3 false (s_handlers (m_headers m3)) m3) as F4. rewrite E4 in F4. cbn [fst] in F4.
  destruct (post_all_events e rel3 false _ m3 m4 AF E4) as (evs1 & N4 & Q4).
  assert (X4 : m_headers m4 = m_headers m3 /\ m_trailers m4 = m_trailers m3 /\ m_type m4 = m_type m3) by (rewrite F4; repeat split). destruct X4 as (X1 & X2 & X3).
  destruct (post_all e rel3 true m4 (s_handlers (m_trailers m4))) as [m5 [[]|x]] eqn:E5; [|discriminate Ee]. injection Ee as -> ->.
  pose proof (post_all_frame e rel' true (s_handlers (m_trailers m4)) m4) as F5. rewrite E5 in F5. cbn [fst] in F5.
  rewrite <- X2, <- X3 in BF. destruct (post_all_events e rel' true _ m4 m' BF E5) as (evs2 & N5 & Q5).
  assert (X5 : m_headers m' = m_headers m4 /\ m_trailers m' = m_trailers m4) by (rewrite F5; split; reflexivity). destruct X5 as [X5 X6].
  split; [split|].
  2: { unfold begun. rewrite E0. cbn [fst]. split; [reflexivity|]. change (front mt) with (front m). rewrite Ff, Fh. reflexivity. }
  2: { intros P HP HC. pose proof (post_all_posts e rel' false _ m3 m4 E4) as K4. pose proof (post_all_posts e rel' true _ m4 m' E5) as K5.
       assert (N3 : sel P (m_notes m3) = sel P (m_notes mt')).
       { rewrite (mnoted_sel P post_files mc m3); [unfold mc; rewrite (length_sel P _ HP); reflexivity|apply HP|apply Np]. }
       assert (AP : all_posts e rel' m' = posts e rel' m3 false (s_handlers (m_headers m3)) ++ posts e rel' m4 true (s_handlers (m_trailers m4))).
       { unfold all_posts. rewrite X5, X6, X1. f_equal; apply posts_notes; [eapply notes_only_trans; [exact F4|exact F5]|exact F5]. }
       rewrite <- (HC _ _ N3), AP, emit_app, K5, K4, X3, Y3. reflexivity. }
  unfold sections. split; [exact U1|]. split; [exact P1|]. split; [congruence|]. split; [exact Tt|]. split; [exact Pt|]. split; [congruence|].
  split; [change (m_headers mt) with (m_headers m); exact Hm|].
  assert (K : forall x, setup x = (t, start, nc, head, base) -> core x = new_linter t start false false base).
  { intros x Hx. unfold setup in Hx. injection Hx as Z1 Z2 _ _ Z3. unfold core. rewrite Z1, Z2, Z3. reflexivity. }
  split; [apply K, Hs0|]. split; [change (core mt) with (core m); apply K, Hs|].
  split; [exact Tm1|]. split; [exact Tm0|]. split.
  - intros P HP. split.
    + rewrite (start_sel P e top _ _ _ (proj1 HP) E0). reflexivity.
    + change (m_notes mt) with (m_notes m). destruct HP as (_ & HP & _). rewrite (feed_all_sel P e chunks HP _ _ _ E2), N1. reflexivity.
  - exists (evs1 ++ evs2). split; [rewrite <- Y3; apply Forall_app; split; [exact Q4|rewrite <- X3; exact Q5]|]. intros P HP HC.
    assert (N3 : sel P (m_notes m3) = sel P (m_notes mt')).
    { rewrite (mnoted_sel P post_files mc m3); [unfold mc; rewrite (length_sel P _ HP); reflexivity|apply HP|apply Np]. }
    rewrite N5, N4, X3, Y3, <- emit_app. apply sel_emit_same; [exact N3|exact HC].
Qed.
Lemma lint_sections_top e rel top headers chunks complete trailers t start nc head base m' rel' :
  lint e rel top headers chunks complete trailers (new_linter t start nc head base) = (m', rel', Ok tt) ->
  exists mh mh' mt mt', sections e rel headers trailers t start base m' mh mh' mt mt'
    /\ front mh = front (begun e top (new_linter t start nc head base)) /\ front mt = front (begun e top (new_linter t start nc head base)).
Proof. intros E. destruct (lint_sections_full _ _ _ _ _ _ _ _ _ _ _ _ _ _ E) as (a & b & c & d & S & _). exists a, b, c, d. exact S. Qed.
Lemma lint_sections e rel top headers chunks complete trailers t start nc head base m' rel' :
  lint e rel top headers chunks complete trailers (new_linter t start nc head base) = (m', rel', Ok tt) ->
  exists mh mh' mt mt', sections e rel headers trailers t start base m' mh mh' mt mt'.
Proof. intros E. destruct (lint_sections_top _ _ _ _ _ _ _ _ _ _ _ _ _ _ E) as (a & b & c & d & S & _). exists a, b, c, d. exact S. Qed.

(** ** Deciding the side conditions *)
Definition apart_b (P F : nid -> bool) : bool := forallb (fun n => if F n then negb (P n) else true) all_nids.
Lemma apart_b_ok P F : apart_b P F = true -> apart P F.
Proof.
  intros H n Hn. unfold apart_b in H. rewrite forallb_forall in H. specialize (H n (all_nids_complete n)). cbv beta in H. rewrite Hn in H.
  destruct (P n); [discriminate H|reflexivity].
Qed.
Definition quiet_b (P : nid -> bool) : bool :=
  apart_b P (among top_classes) && apart_b P (in_file dec_file) && apart_b P post_files
  && negb (P CL_CORRECT) && negb (P CL_INCORRECT) && negb (P CONTENT_NOT_ALLOWED).
Lemma quiet_b_ok P : quiet_b P = true -> quiet P.
Proof.
  unfold quiet_b. rewrite !Bool.andb_true_iff, !Bool.negb_true_iff. intros (((((A & B) & C) & D) & E) & F). repeat split; try apply apart_b_ok; assumption.
Qed.
Lemma quiet_framework : quiet framework.
Proof. apply quiet_b_ok. vm_compute. reflexivity. Qed.
Definition mine_b (P : nid -> bool) (f : fname) : bool :=
  forallb (fun n => if P n then negb (framework n) && forallb (fun g => if fname_eqb g f then true else negb (own g n)) (F__deprecated :: F__unnecessary :: F__unknown :: module_fields) else true) all_nids
  && negb (own f CONTENT_SECURITY_POLICY).
Lemma mine_b_ok P f : mine_b P f = true -> mine P f.
Proof.
  unfold mine_b. rewrite Bool.andb_true_iff, Bool.negb_true_iff. intros [H Hc]. split; [|exact Hc]. intros n Hn. rewrite forallb_forall in H.
  specialize (H n (all_nids_complete n)). rewrite Hn in H. apply andb_prop in H as [H1 H2]. apply Bool.negb_true_iff in H1.
  split; [exact H1|]. intros g Hg. rewrite forallb_forall in H2. specialize (H2 g). rewrite Hg in H2. cbn [negb] in H2. assert (X : (if fname_eqb g f then true else false) = true -> fname_eqb g f = true) by (destruct (fname_eqb g f); auto).
  apply fname_eqb_eq, X, H2. cbn [In]. destruct (module_fields_complete g) as [->|[->|[->|Hi]]]; auto.
Qed.

(** ** The framework's notes of a run *)
Definition report_of (e : env) (t : mtype) (tr : bool) (raws : list (bytes * bytes)) : list (nid * str) :=
  flat_map (line_report t) (placed t 0 raws)
  ++ section_report tr raws
  ++ flat_map (fun k => field_report e t k (lines_of k t raws)) (fields_seen raws).
Theorem lint_report e rel top headers chunks complete trailers t start nc head base m' rel' :
  lint e rel top headers chunks complete trailers (new_linter t start nc head base) = (m', rel', Ok tt) ->
  fbriefs (m_notes m') = report_of e t false headers ++ report_of e t true trailers.
Proof.
  intros E. destruct (lint_sections _ _ _ _ _ _ _ _ _ _ _ _ _ _ E) as (mh & mh' & mt & mt' & S).
  destruct S as (H1 & H2 & H3 & T1 & T2 & T3 & _ & _ & _ & Th & Tt & N & evs & Q & N2).
  destruct (N framework quiet_framework) as [N0 N1].
  pose proof (process_report e rel false mh headers mh' H1 H2) as R1. pose proof (process_report e rel true mt trailers mt' T1 T2) as R2.
  cbv zeta in R1, R2. rewrite Th in R1. rewrite Tt in R2. unfold fbriefs at 2 in R1. rewrite N0 in R1. cbn [map app] in R1.
  specialize (N2 framework quiet_framework). unfold fbriefs at 1. rewrite N2.
  - fold (fbriefs (emit t (m_notes mt') evs)). rewrite (fbriefs_emit _ _ _ (posted_calm _ _ Q)), (posted_briefs _ _ Q), app_nil_r, R2.
    unfold fbriefs at 1. rewrite N1. fold (fbriefs (m_notes mh')). rewrite R1. reflexivity.
  - eapply Forall_impl; [|apply (posted_calm _ _ Q)]. intros s Hs. left. exact Hs.
Qed.
(** ** Text, sizes and values of a run *)
Lemma process_text e rel tr m raws m' : sec tr m = new_section tr -> process e rel tr m raws = (m', Ok tt) ->
  s_text (sec tr m') = map (fun r => (raw_name r, raw_value r)) raws /\ s_size (sec tr m') = sum_sizes raws.
Proof.
  intros Hs E. destruct (process_lines e rel tr m raws m' Hs E) as (m1 & E1 & T1 & St & E2 & S1 & Ks & Hh & Ef).
  assert (I0 : Forall (ident any) (s_handlers (sec tr m))) by (rewrite Hs; constructor).
  destruct (lines_section e rel tr raws m 0%nat m1 I0 E1) as (X1 & X2 & _). rewrite Hs in X1, X2. cbn [s_text s_size new_section app] in X1, X2.
  destruct S1 as [Hn Hl].
  assert (T2 : m_type (section_size tr m1) = m_type m) by (unfold section_size; destruct (_ <? _); exact T1).
  rewrite <- T2 in Hl. destruct (finish_all_facts e rel tr _ _ m' Hn Hl Ef) as (_ & F1 & F2 & _). rewrite F1, F2, E2, X1, X2. split; reflexivity.
Qed.
Theorem lint_text e rel top headers chunks complete trailers t start nc head base m' rel' :
  lint e rel top headers chunks complete trailers (new_linter t start nc head base) = (m', rel', Ok tt) ->
  s_text (m_headers m') = map (fun r => (raw_name r, raw_value r)) headers /\ s_size (m_headers m') = sum_sizes headers
  /\ s_text (m_trailers m') = map (fun r => (raw_name r, raw_value r)) trailers /\ s_size (m_trailers m') = sum_sizes trailers.
Proof.
  intros E. destruct (lint_sections _ _ _ _ _ _ _ _ _ _ _ _ _ _ E) as (mh & mh' & mt & mt' & S).
  destruct S as (H1 & H2 & H3 & T1 & T2 & T3 & _). destruct (process_text e rel false mh headers mh' H1 H2) as [A B].
  destruct (process_text e rel true mt trailers mt' T1 T2) as [C D]. rewrite H3, T3. auto.
Qed.
Lemma field_value_core e V V' k vs : core V = core V' -> field_value e V k vs = field_value e V' k vs.
Proof.
  intros H. unfold field_value, parsed_as. rewrite H. replace (m_type V) with (m_type V') by (symmetry; exact (f_equal m_type H)). reflexivity.
Qed.
Definition a_line (k : str) (raws : list (bytes * bytes)) : bool := existsb (fun r => str_eqb (raw_key r) k) raws.
Theorem lint_value e rel top headers chunks complete trailers t start nc head base m' rel' k :
  lint e rel top headers chunks complete trailers (new_linter t start nc head base) = (m', rel', Ok tt) -> strip k = k ->
  let V := new_linter t start nc head base in
  (apart_name k headers -> dget k (s_parsed (m_headers m')) =
     if a_line k headers then Some (field_value e V k (values_of k headers)) else None)
  /\ (apart_name k trailers -> dget k (s_parsed (m_trailers m')) =
     if a_line k trailers then Some (field_value e V k (values_of k trailers)) else None).
Proof.
  intros E Hk V. destruct (lint_sections _ _ _ _ _ _ _ _ _ _ _ _ _ _ E) as (mh & mh' & mt & mt' & S).
  destruct S as (H1 & H2 & H3 & T1 & T2 & T3 & _ & C1 & C2 & _).
  assert (K1 : core mh = core V) by exact C1. assert (K2 : core mt = core V) by exact C2. split; intros Ha.
  - pose proof (process_value e rel false mh headers mh' k H1 H2 Hk Ha) as P. cbn [sec] in P. rewrite H3, P, (field_value_core e mh V k _ K1). reflexivity.
  - pose proof (process_value e rel true mt trailers mt' k T1 T2 Hk Ha) as P. cbn [sec] in P. rewrite T3, P, (field_value_core e mt V k _ K2). reflexivity.
Qed.

(** ** One field's own notes in a run *)
Definition field_run (e : env) (rel : option mstate) (tr : bool) (m : mstate) (k : str) (raws : list (bytes * bytes)) (evs evs' : list sev) : Prop :=
  if a_line k raws then
    exists h mi h', feeds e (still m) rel (new_handler (first_name k raws)) (lines_of k (m_type m) raws) = (evs, h, Ok tt)
      /\ k = lower (first_name k raws) /\ linv (m_type m) h /\ still mi = still m
      /\ finish_handler (mkCx e mi rel) (subject_of k) (sec_base tr h) h = (evs', h', Ok tt)
  else evs = [] /\ evs' = [].
Lemma a_line_ex k raws : a_line k raws = true <-> exists r, In r raws /\ raw_key r = k.
Proof.
  unfold a_line. rewrite existsb_exists. split; intros (r & Hr & E); exists r; (split; [exact Hr|]); apply str_eqb_eq; exact E.
Qed.
Lemma process_own P f e rel tr m raws m' k : mine P f -> find_class k = f -> spelled f k raws ->
  sec tr m = new_section tr -> process e rel tr m raws = (m', Ok tt) ->
  exists evs evs', field_run e rel tr m k raws evs evs'
    /\ sel P (m_notes m') = sel P (m_notes m) ++ sel P (emit (m_type m) [] evs) ++ sel P (emit (m_type m) [] evs').
Proof.
  intros HP Hf Hsp Hs E. unfold field_run. destruct (a_line k raws) eqn:Ea.
  - apply a_line_ex in Ea. destruct (process_field e rel tr m raws m' k Hs E Ea) as (evs & h & mi & evs' & h' & Ek & Fd & Hl & St & Ty & Ef & _ & _ & _ & _ & Hn).
    exists evs, evs'. split; [|apply (Hn P f HP Hf Hsp)]. exists h, mi, h'. auto.
  - exists [], []. split; [auto|]. cbn [emit fold_left sel filter]. rewrite app_nil_r.
    assert (No : Forall (fun r => find_class (raw_name r) <> f) raws).
    { apply Forall_forall. intros r Hr C. unfold spelled in Hsp. rewrite Forall_forall in Hsp. specialize (Hsp r Hr C).
      assert (X : a_line k raws = true) by (apply a_line_ex; eauto). congruence. }
    destruct (process_lines e rel tr m raws m' Hs E) as (m1 & E1 & T1 & St & E2 & S1 & Ks & Hh & Ef).
    assert (S0 : sinv any (m_type m) (sec tr m)) by (rewrite Hs; split; constructor).
    pose proof (lines_own P f k HP e rel tr raws m 0%nat m1 S0 E1 Hf Hsp) as L.
    destruct (filter (keyed k) (placed (m_type m) 0 raws)) as [|ro l] eqn:Ek.
    2: { exfalso. assert (X : a_line k raws = true); [|congruence]. apply a_line_ex. apply (keyed_nonempty k (m_type m) 0%nat raws). rewrite Ek. discriminate. }
    destruct S1 as [Hn Hl].
    assert (T2 : m_type (section_size tr m1) = m_type m) by (unfold section_size; destruct (_ <? _); exact T1). rewrite <- T2 in Hl.
    destruct (finish_all_facts e rel tr _ _ m' Hn Hl Ef) as (_ & _ & _ & _ & _ & _ & _ & _ & Q). rewrite (Q P f HP).
    + rewrite <- L. unfold section_size. destruct (_ <? _); [|reflexivity]. rewrite notes_emit. apply emit_sel. constructor; [|constructor]. unfold not_cls. cbn [snd ev_cls].
      constructor; [|constructor]. destruct (P FIELD_SECTION_TOO_LARGE) eqn:EP; [|reflexivity]. destruct HP as [HP _]. apply HP in EP as [EP _]. discriminate.
    + apply Forall_forall. intros [k2 h2] Hi2 C. cbn [snd] in C. destruct (Hh k2 h2 Hi2) as (evs2 & Ek2 & (r2 & Hr2 & Hn2 & Hk2) & Hf2).
      set (n2 := first_name k2 raws) in *.
      assert (Hi2' : ident any (lower n2, new_handler n2)) by (exists n2; split; [exact I|split; [reflexivity|apply same_id_refl]]).
      destruct (feeds_got e (still m) rel n2 _ _ _ _ Hi2' Hf2) as [(Ec & _) _]. cbn [h_cls new_handler] in Ec.
      rewrite Forall_forall in No. apply (No r2 Hr2). rewrite Hn2, <- Ec. exact C.
Qed.
Theorem lint_own_top P f k e rel top headers chunks complete trailers t start nc head base m' rel' :
  lint e rel top headers chunks complete trailers (new_linter t start nc head base) = (m', rel', Ok tt) ->
  mine P f -> quiet P -> has_post f = false \/ wrong t f = true \/ mute_post P f -> find_class k = f -> spelled f k headers -> spelled f k trailers ->
  exists mh mt a a' b b', core mh = new_linter t start false false base /\ core mt = new_linter t start false false base
    /\ m_type mh = t /\ m_type mt = t
    /\ front mh = front (begun e top (new_linter t start nc head base)) /\ front mt = front (begun e top (new_linter t start nc head base))
    /\ field_run e rel false mh k headers a a' /\ field_run e rel true mt k trailers b b'
    /\ sel P (m_notes m') = (sel P (emit t [] a) ++ sel P (emit t [] a')) ++ sel P (emit t [] b) ++ sel P (emit t [] b').
Proof.
  intros E HP HQ Hpost Hf S1 S2. destruct (lint_sections_top _ _ _ _ _ _ _ _ _ _ _ _ _ _ E) as (mh & mh' & mt & mt' & S & Y1 & Y2).
  destruct S as (H1 & H2 & H3 & T1 & T2 & T3 & _ & C1 & C2 & Th & Tt & N & evs & Q & N2).
  destruct (process_own P f e rel false mh headers mh' k HP Hf S1 H1 H2) as (a & a' & Ra & Na).
  destruct (process_own P f e rel true mt trailers mt' k HP Hf S2 T1 T2) as (b & b' & Rb & Nb).
  exists mh, mt, a, a', b, b'. repeat (split; [assumption|]). destruct (N P HQ) as [N0 N1].
  pose proof (posted_off t P f evs HP Hpost Q) as Off. rewrite (N2 P HQ).
  - rewrite (emit_sel P t evs _ Off), Nb, N1, Na, N0, Th, Tt. cbn [app]. rewrite <- !app_assoc. reflexivity.
  - eapply Forall_impl; [|exact Off]. intros s Hs. right. exact Hs.
Qed.
Theorem lint_own P f k e rel top headers chunks complete trailers t start nc head base m' rel' :
  lint e rel top headers chunks complete trailers (new_linter t start nc head base) = (m', rel', Ok tt) ->
  mine P f -> quiet P -> has_post f = false \/ wrong t f = true \/ mute_post P f -> find_class k = f -> spelled f k headers -> spelled f k trailers ->
  exists mh mt a a' b b', core mh = new_linter t start false false base /\ core mt = new_linter t start false false base
    /\ m_type mh = t /\ m_type mt = t /\ field_run e rel false mh k headers a a' /\ field_run e rel true mt k trailers b b'
    /\ sel P (m_notes m') = (sel P (emit t [] a) ++ sel P (emit t [] a')) ++ sel P (emit t [] b) ++ sel P (emit t [] b').
Proof.
  intros E HP HQ Hpost Hf S1 S2. destruct (lint_own_top _ _ _ _ _ _ _ _ _ _ _ _ _ _ _ _ _ E HP HQ Hpost Hf S1 S2) as (mh & mt & a & a' & b & b' & C1 & C2 & T1 & T2 & _ & _ & R).
  exists mh, mt, a, a', b, b'. repeat (split; [assumption|]). exact R.
Qed.
