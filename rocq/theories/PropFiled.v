(** * C74: the categories notes are filed under. *)
From Coq Require Import Lia ZifyBool.
From Verif Require Import PyStr Regex Grammar NoteTable Note PyLib Utils FieldAttrs Types Fields1 Fields2 Fields3 Framework Checks Message
  EvLogic NoteLemmas TestEnv LexLemmas ParamLemmas NumLemmas NameLemmas FrameLemmas ContentLemmas BodyLemmas PassParse PassEval PassFrame PassSec PassMsg PassProc PassRun Session SessionLemmas
  SectionLemmas SecNotes SecValues LintLemmas FieldSpec PropFields PropValues PropNames PropParse PropSyntax OwnLemmas ListSpec PropLists PropCC ListExamples FieldExamples PropInts FieldDue OwnTac OwnMore GroupRun GroupPost GeneralSpec PropGeneral FiledSpec.
Open Scope N_scope.

(** ** A category of its own *)
Lemma cat_eqb a b : category_eqb a b = true <-> a = b.
Proof. split; [destruct a, b; (reflexivity || discriminate)|intros ->; destruct b; reflexivity]. Qed.
Definition kept_cat (n : note) : Prop := nid_category (n_cls n) <> GENERAL -> n_cat n = nid_category (n_cls n).
Lemma mk_kept t s n cat vrs kids : kept_cat (mk_note t s n cat vrs kids).
Proof. unfold kept_cat, mk_note. cbn [n_cls n_cat]. intros H. destruct cat; [|reflexivity]. destruct (category_eqb _ _) eqn:E; [apply cat_eqb in E; contradiction|reflexivity]. Qed.
Lemma attach_kept t p n vrs ns : forall ns', attach t p n vrs ns = Some ns' -> Forall kept_cat ns -> Forall kept_cat ns'.
Proof.
  induction ns as [|x ns IH]; intros ns' E H; cbn in E; [discriminate|]. inversion H as [|? ? Hx Hns]; subst. destruct (nid_eqb (n_cls x) p).
  - injection E as <-. constructor; assumption.
  - destruct (attach t p n vrs ns) as [r|]; [|discriminate]. injection E as <-. constructor; auto.
Qed.
Lemma emit_kept t l : forall ns, Forall kept_cat ns -> Forall kept_cat (emit t ns l).
Proof.
  induction l as [|[[s b] e] l IH]; intros ns H; [exact H|]. change (emit t ns ((s, b, e) :: l)) with (emit t (emit_one t ns (s, b, e)) l). apply IH.
  destruct e as [n cat vrs kids|s' n vrs|n c vrs|v|p n vrs]; cbn [emit_one]; try exact H.
  - apply Forall_app. split; [exact H|]. constructor; [apply mk_kept|constructor].
  - apply Forall_app. split; [exact H|]. constructor; [apply mk_kept|constructor].
  - destruct (attach t p n vrs ns) as [ns'|] eqn:E; [apply (attach_kept _ _ _ _ _ _ E H)|]. apply Forall_app. split; [exact H|]. constructor; [apply mk_kept|constructor].
Qed.
Notation K m := (Forall kept_cat (m_notes m)).
Lemma mnoted_kept F m m' : mnoted F m m' -> K m -> K m'.
Proof. intros (evs & -> & _). apply emit_kept. Qed.
Lemma noted_kept m m' : noted m m' -> K m -> K m'.
Proof. intros (evs & -> & _). apply emit_kept. Qed.
Lemma length_kept m : K m -> K (check_content_length m).
Proof.
  intros Hn. destruct (content_length_pass m) as [N|(n & En & Ek & El)]; [apply (mnoted_kept _ _ _ N Hn)|].
  unfold check_content_length in *. destruct (can_have_content m).
  - destruct (m_get m _); [|exact Hn]. destruct (m_no_content m); [exact Hn|]. match goal with |- context [if ?b then _ else _] => destruct b end.
    all: unfold note_msg; rewrite notes_emit; apply emit_kept; exact Hn.
  - match goal with |- context [if ?b then _ else _] => destruct b end; [|exact Hn]. unfold note_msg; rewrite notes_emit; apply emit_kept; exact Hn.
Qed.
Lemma start_kept e top m m' r : start_line e top m = (m', r) -> K m -> K m'.
Proof.
  destruct top as [|a b c|a b c]; cbn [start_line]; intros E.
  - injection E as <- _. auto.
  - pose proof (request_topline_pass e a b c m) as P0. rewrite E in P0. apply (mnoted_kept _ _ _ (proj1 P0)).
  - injection E as <- _. apply (mnoted_kept _ _ _ (response_topline_pass a b c m)).
Qed.
Lemma feed_all_kept e chunks : forall m m' r, feed_all e chunks m = (m', r) -> K m -> K m'.
Proof.
  induction chunks as [|c cs IH]; intros m m' r E Hn; cbn [feed_all] in E; [injection E as <- _; exact Hn|].
  pose proof (feed_pass e c m) as P0. destruct (feed_content e c m) as [m1 [x|x]]; cbn [then_] in E.
  - apply (IH _ _ _ E). apply (mnoted_kept _ _ _ (proj1 P0) Hn).
  - injection E as <- _. apply (mnoted_kept _ _ _ (proj1 P0) Hn).
Qed.
Lemma process_kept e rel tr m l m' : sec tr m = new_section tr -> process e rel tr m l = (m', Ok tt) -> K m -> K m'.
Proof.
  intros Hs E. pose proof (process_pass (fun _ => True) e rel tr m l) as P. rewrite Hs in P. specialize (P eq_refl). rewrite E in P.
  apply noted_kept. apply P. apply Forall_forall. auto.
Qed.
Lemma lint_kept e rel top headers chunks complete trailers t start nc head base m' rel' :
  lint e rel top headers chunks complete trailers (new_linter t start nc head base) = (m', rel', Ok tt) -> K m'.
Proof.
  intros E.
  destruct (lint_stages _ _ _ _ _ _ _ _ _ _ _ _ _ _ E) as (p & m0 & m1 & m & Hp & L0 & E0 & E1 & E2 & L1 & L2 & E3).
  destruct (linted_inv _ _ _ _ L0) as [_ U0]. assert (U : untouched m0) by (destruct Hp; subst p; exact U0). destruct U as (U1 & U2 & _).
  pose proof (process_headers_frame e rel headers m0) as Fh. rewrite E1 in Fh. cbn [fst] in Fh.
  pose proof (feed_all_body e chunks m1) as Ff. rewrite E2 in Ff. cbn [fst] in Ff.
  assert (P1 : exists mh', process e rel false m0 headers = (mh', Ok tt) /\ m_notes m1 = m_notes mh').
  { unfold process_headers in E1. destruct (process e rel false m0 headers) as [mh' [[]|x]]; [|discriminate]. exists mh'. split; [reflexivity|].
    repeat match type of E1 with
           | match ?x with _ => _ end = _ => destruct x; try discriminate E1
           | (if ?x then _ else _) = _ => destruct x; try discriminate E1
           end; injection E1 as <-; reflexivity. }
  destruct P1 as (mh' & P1 & N1).
  assert (Nm : K m).
  { apply (feed_all_kept e chunks _ _ _ E2). rewrite N1. apply (process_kept e rel false m0 headers mh' U1 P1). apply (start_kept _ _ _ _ _ E0). constructor. }
  assert (Tm : m_trailers m = new_section true) by (rewrite Ff, <- U2; cbn; rewrite Fh; reflexivity).
  unfold finish_content in E3. set (mt := m_set_hash _ _) in E3.
  assert (Tt : m_trailers mt = new_section true) by exact Tm.
  assert (W : exists mt', process e rel true mt trailers = (mt', Ok tt) /\
     (let m := check_content_length (m_set_dec_hash (Some (e_md5 e (m_dec_hashed mt'))) mt') in
      let '(m, rel, r) := post_checks e rel m in
      match r with
      | Err x => (m, rel, Err x)
      | Ok _ =>
          let '(m, r) :=
            then_ (post_all e rel false m (s_handlers (m_headers m)))
                  (fun m => post_all e rel true m (s_handlers (m_trailers m))) in
          (m, rel, r)
      end) = (m', rel', Ok tt)).
  { destruct trailers as [|tr0 trs].
    - exists mt. split; [apply (process_nil e rel true mt Tt)|exact E3].
    - destruct (process e rel true mt (tr0 :: trs)) as [mt' [[]|x]] eqn:Ep; [|discriminate]. exists mt'. split; [reflexivity|exact E3]. }
  destruct W as (mt' & Pt & Ee). clear E3.
  assert (Nt : K mt') by (apply (process_kept e rel true mt trailers mt' Tt Pt), Nm).
  cbv zeta in Ee. set (mc := check_content_length _) in Ee. assert (Nc : K mc) by (apply length_kept; exact Nt).
  pose proof (post_checks_pass (fun _ => True) e rel mc) as Np. destruct (post_checks e rel mc) as [[m3 rel3] [[]|x]]; [|discriminate Ee].
  assert (N3 : K m3) by (apply (mnoted_kept _ _ _ (proj1 Np) Nc)).
  destruct (post_all e rel3 false m3 (s_handlers (m_headers m3))) as [m4 [[]|x]] eqn:E4; cbn [then_] in Ee; [|discriminate Ee].
  assert (N4 : K m4) by (rewrite (post_all_posts _ _ _ _ _ _ E4); apply emit_kept, N3).
  destruct (post_all e rel3 true m4 (s_handlers (m_trailers m4))) as [m5 [[]|x]] eqn:E5; [|discriminate Ee]. injection Ee as -> ->.
  rewrite (post_all_posts _ _ _ _ _ _ E5). apply emit_kept, N4.
Qed.

(** ** The general notes *)
Definition wf (b : bool) (n : nid) : bool := existsb (nid_eqb n) with_field || (b && nid_eqb n BAD_SYNTAX).
(** A line of a field, or the field. *)
Definition spot := (bool * str)%type.
(** The note [n] about [s], added with [cat], where the field is [k]. *)
Definition right_cat (k : spot) (n : nid) (cat : option category) : Prop := cat = if wf (fst k) n then Some (category_of (snd k)) else None.
Definition okev (s : str) (k : spot) (e : sev) : Prop :=
  match e with
  | (s', _, ENote n cat _ _) => framework n = true -> s' = s /\ right_cat k n cat
  | (_, _, EMsg _ n _) => framework n = false
  | (_, _, EKid p n _) => framework p = false /\ framework n = false
  | _ => True
  end.
Definition placed_note (s : str) (k : spot) (n : note) : Prop := framework (n_cls n) = true -> n_subj n = s /\ n_cat n = if wf (fst k) (n_cls n) then category_of (snd k) else GENERAL.
Lemma framework_general n : framework n = true -> nid_category n = GENERAL.
Proof.
  intros H. assert (X : forallb (fun n => if framework n then category_eqb (nid_category n) GENERAL else true) all_nids = true) by (vm_compute; reflexivity).
  rewrite forallb_forall in X. specialize (X n (all_nids_complete n)). cbv beta in X. rewrite H in X. apply cat_eqb, X.
Qed.
Lemma okev_calm s k l : Forall (okev s k) l -> Forall (calm_ev framework) l.
Proof. apply Forall_impl. intros [[s' b] e] H. unfold calm_ev. cbn [snd]. destruct e; auto. Qed.
Lemma okev_notes s k t l : Forall (okev s k) l -> Forall (placed_note s k) (sel framework (emit t [] l)).
Proof.
  induction l as [|[[s' b] e] l IH]; intros H; [constructor|]. inversion H as [|? ? He Hl]; subst.
  change (emit t [] ((s', b, e) :: l)) with (emit t (emit_one t [] (s', b, e)) l). rewrite emit_sel_add by (apply (okev_calm s k), Hl). apply Forall_app. split; [|apply IH, Hl].
  destruct e as [n cat vrs kids|s2 n vrs|n c vrs|v|p n vrs]; cbn [emit_one app attach okev] in *; try constructor.
  - unfold sel. cbn [filter mk_note n_cls]. destruct (framework n) eqn:F; [|constructor]. destruct (He eq_refl) as [-> R]. constructor; [|constructor].
    intros _. unfold mk_note. cbn [n_subj n_cls n_cat]. split; [reflexivity|]. rewrite (framework_general n F). unfold right_cat in R. rewrite R. destruct (wf _ n); reflexivity.
  - unfold sel. cbn [filter mk_note n_cls]. rewrite He. constructor.
  - unfold sel. cbn [filter mk_note n_cls]. rewrite (proj2 He). constructor.
Qed.
(** Events of a field's own code. *)
Lemma off_ok f s k l : Forall (fsevi f) l -> briefs l = [] -> Forall (okev s k) l.
Proof.
  intros H. induction H as [|x l Hx Hl IH]; intros B; [constructor|]. change (x :: l) with ([x] ++ l) in B. rewrite briefs_app in B. apply app_eq_nil in B as [B1 B2]. constructor; [|apply IH, B2].
  destruct x as [[sj b] e]. destruct Hx as [_ Hx]. unfold briefs in B1. cbn [flat_map ev_brief app] in B1.
  destruct e as [n cat vrs kids|s' n vrs|n c vrs|v|p n vrs]; cbn [okev]; auto.
  - cbn [app filter fst] in B1. destruct (framework n); [discriminate|congruence].
  - cbn [app filter fst] in B1. destruct (framework n); [discriminate|reflexivity].
  - destruct Hx as [[(H1 & H2 & _) _]|(? & ? & ? & H & _)]; [|discriminate]. split; eapply own_framework; eassumption.
Qed.
(** Notes the framework adds itself. *)
Definition okplain (k : spot) (e : ev) : Prop := exists n cat vrs, e = ENote n cat vrs [] /\ right_cat k n cat.
Lemma okplain_tag s k b l : Forall (okplain k) l -> Forall (okev s k) (tag s b l).
Proof. intros H. unfold tag. apply Forall_map. eapply Forall_impl; [|exact H]. intros e (n & cat & vrs & -> & R). cbn [okev]. auto. Qed.
Lemma cat_ok k h : h_cls h = find_class k -> h_norm h = strip k -> handler_cat h = category_of k.
Proof. intros H1 H2. unfold handler_cat, category_of, dep_info. rewrite H1, H2. reflexivity. Qed.
Ltac okp := repeat constructor; eexists _, _, _; (split; [reflexivity|]); unfold right_cat, wf; repeat match goal with |- context [fst ?k] => is_var k; destruct k as [[|] ?] end; cbn; try reflexivity.
Lemma enc_ok s k b raw : Forall (okev s k) (tag s b (enc_events raw)).
Proof.
  apply okplain_tag. unfold enc_events, read_name, read_value. apply Forall_app. split.
  - destruct (decode_ascii_strict (fst raw)); [constructor|]. okp.
  - destruct (decode_ascii_strict (snd raw)); [constructor|]. okp.
Qed.
Lemma size_ok s k h raw : Forall (okev s k) (tag s [] (size_events h raw)).
Proof. apply okplain_tag. unfold size_events. cbv zeta. destruct (_ <? _); [okp|constructor]. Qed.
Lemma syntax_ok k h v : h_cls h = find_class k -> h_norm h = strip k -> Forall (okplain (true, k)) (syntax_events h v).
Proof.
  intros H1 H2. unfold syntax_events, list_syntax. cbv zeta. rewrite (cat_ok k h H1 H2). destruct (fa_syntax _) as [g|]; [|constructor]. destruct (match_ws_dollar g v); [constructor|].
  destruct (match_prefix _ v) as [bad|]; [destruct (nth_error v bad); [okp|constructor]|]. destruct (fa_report _); [okp|constructor].
Qed.
Lemma member_ok k c s h v evs o : h_cls h = find_class k -> h_norm h = strip k -> list_member c h v = (evs, Ok o) -> Forall (okev s (true, k)) (tag s (line_base h) evs).
Proof.
  intros H1 H2 E. pose proof (list_member_briefs c s (line_base h) h v evs o E) as B. pose proof (wp_list_member c h v) as [W _]. rewrite E in W. cbn [fst] in W.
  pose proof (tag_fsev inner _ s (line_base h) evs (line_base_str h) (fbase_in _ (fbase_line h)) W) as F.
  destruct (syntax_says k s h v H1 H2) as (_ & S2 & _ & S4). pose proof (syntax_ok k h v H1 H2) as SO. unfold syntax_events in *. unfold list_member in E. destruct (list_syntax h v) as [l1 r1]. cbn [fst snd] in *. subst r1.
  assert (X : exists l2, evs = l1 ++ l2).
  { unfold bind at 1 in E. destruct (catch_value _ _) as [l2 r2]. injection E as <- _. exists l2. reflexivity. }
  destruct X as (l2 & ->). rewrite tag_app in *. rewrite briefs_app, S4 in B.
  assert (B2 : briefs (tag s (line_base h) l2) = []) by (apply (app_inv_head (about s (member_report (h_cls h) v))); rewrite app_nil_r; exact B).
  apply Forall_app in F as [_ F2]. apply Forall_app. split; [apply okplain_tag, SO|apply (off_ok _ _ _ _ F2 B2)].
Qed.
Lemma input_ok k c s l : forall h evs h', h_cls h = find_class k -> h_norm h = strip k -> list_input c s h l = (evs, h', Ok tt) -> Forall (okev s (true, k)) evs.
Proof.
  induction l as [|v l IH]; intros h evs h' H1 H2 E; cbn [list_input] in E.
  - injection E as <- _. constructor.
  - destruct (list_member c h v) as [ev0 [o|x]] eqn:Em; [|discriminate]. cbv zeta in E. pose proof (member_ok k c s h v ev0 o H1 H2 Em) as P.
    set (h1 := h_add_aux h _) in E. set (h2 := match o with Some x => append_val h1 x | None => h1 end) in E.
    assert (X : h_cls h2 = h_cls h /\ h_norm h2 = h_norm h).
    { unfold h2. destruct o as [x|]; [|split; reflexivity]. unfold append_val. destruct (h_val h1); split; reflexivity. }
    destruct X as [X1 X2]. destruct (list_input c s h2 l) as [[evs2 h3] r2] eqn:El. injection E as <- <- ->.
    apply Forall_app. split; [exact P|]. apply (IH h2 evs2 h3 ltac:(congruence) ltac:(congruence) El).
Qed.
Lemma line_f e rel tr m o raw m' o' : sinv any (m_type m) (sec tr m) -> field_line e rel tr m o raw = (m', o', Ok tt) ->
  exists l, Forall (placed_note (at_offset o) (true, key_of raw)) l /\ sel framework (m_notes m') = sel framework (m_notes m) ++ l.
Proof.
  intros Hs E. pose proof Hs as [_ Hf]. pose proof (Forall_impl _ (fun a Ha => proj2 Ha) Hf) as Hi. cbv beta in Hi.
  destruct (line_step e rel tr m o raw m' o' Hi E) as (l3 & l4 & h2 & Et & Eo & Em & Hi1).
  set (h := own_handler (s_handlers (sec tr m)) raw) in *. pose proof (own_handler_ident _ raw Hi) as Hh. fold h in Hh.
  destruct (ident_norm _ _ Hh) as [Hc Hn]. rewrite key_eq in Hc, Hn.
  set (evs := tag (offset_subj o) [] (enc_events raw) ++ tag (offset_subj o) (line_base h) l3 ++ l4 ++ (if accepted (m_type m) (raw_name raw) then tag (offset_subj o) [] (size_events h raw) else [])) in *.
  assert (Mn : m_notes m' = emit (m_type m) (m_notes m) evs) by (rewrite Em; destruct tr; reflexivity).
  assert (O : Forall (okev (at_offset o) (true, key_of raw)) evs).
  2: { exists (sel framework (emit (m_type m) [] evs)). split; [apply okev_notes, O|]. rewrite Mn. apply emit_sel_add, (okev_calm _ _ _ O). }
  change (at_offset o) with (offset_subj o). unfold evs. apply Forall_app. split; [apply enc_ok|].
  rewrite app_assoc. apply Forall_app. split; [|destruct (accepted _ _); [apply size_ok|constructor]].
  unfold taken in Et. rewrite still_type in Et. rewrite (pre_check_eq _ _ _ (raw_name raw) Hh eq_refl) in Et. pose proof (cat_ok _ h Hc Hn) as Ct.
  destruct (wrong (m_type m) (find_class (raw_name raw))).
  { injection Et as <- <- _. apply Forall_app. split; [|constructor]. apply okplain_tag. rewrite Ct. unfold wrong_class. destruct (m_type m); okp. }
  destruct (tok (strip (raw_name raw))).
  2: { injection Et as <- <- _. apply Forall_app. split; [|constructor]. apply okplain_tag. okp. }
  destruct (handle_input (mkCx e (still m) rel) h (raw_value raw) o) as [[l4' h2'] r] eqn:HI. injection Et as <- -> -> _ ->. apply Forall_app. split.
  - apply okplain_tag. unfold dep_events. rewrite Ct. destruct (fa_dep _); [okp|constructor].
  - unfold handle_input in HI. destruct (kind_of (h_cls h)); try (injection HI as <- _; constructor). apply (input_ok _ _ _ _ _ _ _ Hc Hn HI).
Qed.
Definition line_placed (t : mtype) (raws : list rawline) (n : note) : Prop :=
  framework (n_cls n) = true -> exists k, about_a_line t raws n k /\ n_cat n = if wf true (n_cls n) then category_of k else GENERAL.
Definition field_placed (raws : list rawline) (n : note) : Prop :=
  framework (n_cls n) = true -> exists k, about_a_field raws n k /\ n_cat n = if wf false (n_cls n) then category_of k else GENERAL.
Lemma lines_f e rel tr all rest : forall m o m', sinv any (m_type m) (sec tr m) -> incl (numbered (m_type m) o rest) (numbered (m_type m) 0 all) ->
  field_lines e rel tr m o rest = (m', Ok tt) ->
  exists l, Forall (line_placed (m_type m) all) l /\ sel framework (m_notes m') = sel framework (m_notes m) ++ l.
Proof.
  induction rest as [|raw rest IH]; intros m o m' Hs HI E; cbn [field_lines] in E; [injection E as <-; exists []; rewrite app_nil_r; split; [constructor|reflexivity]|].
  destruct (field_line e rel tr m o raw) as [[m1 o1] [[]|x]] eqn:E1; [|discriminate].
  destruct (line_f e rel tr m o raw m1 o1 Hs E1) as (l & L1 & L2).
  pose proof Hs as [_ Hf]. pose proof (Forall_impl _ (fun a Ha => proj2 Ha) Hf) as Hi. cbv beta in Hi.
  destruct (line_step e rel tr m o raw m1 o1 Hi E1) as (_ & _ & _ & _ & Eo & _). destruct (line_notes e rel tr m o raw m1 o1 Hs E1) as (_ & _ & _ & _ & _ & _ & _ & S1 & T1).
  assert (Nx : numbered (m_type m) o (raw :: rest) = (raw, o) :: numbered (m_type m) o1 rest) by (cbn [numbered]; rewrite <- processed_eq, <- name_eq, <- Eo; reflexivity).
  rewrite Nx in HI. rewrite <- T1 in S1. destruct (IH m1 o1 m' S1 ltac:(rewrite T1; intros x Hx; apply HI; right; exact Hx) E) as (ps & P1 & P2). rewrite T1 in P1. exists (l ++ ps). split.
  - apply Forall_app. split; [|exact P1]. eapply Forall_impl; [|exact L1]. intros n Hn F. destruct (Hn F) as [H1 H2]. exists (key_of raw). split; [|exact H2].
    exists raw, o. split; [apply HI; left; reflexivity|]. split; [exact H1|reflexivity].
  - rewrite P2, L2, app_assoc. reflexivity.
Qed.
(** ** The end of a field *)
Lemma rest_ok f s k a b B : Forall (fsevi f) (a ++ b) -> briefs (a ++ b) = B -> briefs a = B -> Forall (okev s k) a -> Forall (okev s k) (a ++ b).
Proof.
  intros F E1 E2 Ha. rewrite briefs_app, E2 in E1. assert (Z : briefs b = []) by (apply (app_inv_head B); rewrite app_nil_r; exact E1).
  apply Forall_app in F as [_ F]. apply Forall_app. split; [exact Ha|apply (off_ok _ _ _ _ F Z)].
Qed.
Lemma dup_ok k d : Forall (okplain k) (dup_events d).
Proof. apply Forall_map, Forall_forall. intros x _. eexists _, _, _. split; [reflexivity|]. destruct k as [[|] ?]; reflexivity. Qed.
Lemma sf_ok {A} s k base h0 text (r : sfres A) vl ev f E h' : handler_cat h0 = category_of k -> Forall (fsevi f) E -> briefs E = about s (sfr_report r) ->
  sf_result s base h0 text r vl ev = (E, h', Ok tt) -> Forall (okev s (false, k)) E.
Proof.
  intros Ct F B X. unfold sf_result in X. cbv zeta in X. destruct r as [v d|d pb pos|d pb]; cbn [sfr_report] in *.
  - destruct (finish_eval _ _ _ _) as [[l2 h2] r2]. cbn [prefix_events] in X. injection X as <- _ _.
    apply (rest_ok f s (false, k) _ _ _ F B (dup_briefs _ _ _)). apply okplain_tag, dup_ok.
  - injection X as <- _. apply okplain_tag, Forall_app. split; [apply dup_ok|]. unfold sf_error. change (handler_cat (h_set_sf h0 true)) with (handler_cat h0). rewrite Ct. okp.
  - injection X as <- _. apply okplain_tag, Forall_app. split; [apply dup_ok|]. unfold sf_error. change (handler_cat (h_set_sf h0 true)) with (handler_cat h0). rewrite Ct. okp.
Qed.
Lemma finish_ok e rel tr m mi raws k evs h E h' : In k (fields_seen raws) -> k = lower (first_name k raws) ->
  feeds e (still m) rel (new_handler (first_name k raws)) (lines_of k (m_type m) raws) = (evs, h, Ok tt) -> linv (m_type m) h -> ident any (k, h) -> m_type mi = m_type m ->
  finish_handler (mkCx e mi rel) (field_subj h) (sec_base tr h) h = (E, h', Ok tt) -> Forall (okev (about_field k) (false, k)) E.
Proof.
  intros Hin Ek Hf Lh Ih Tm Ff. pose proof (finish_pass (mkCx e mi rel) (field_subj h) (sec_base tr h) h (fbase_sec tr h)) as FP.
  cbn [cx_msg cx_env] in FP. rewrite Tm in FP. specialize (FP Lh). rewrite Ff in FP. destruct FP as (F & _ & _ & B).
  set (n := first_name k raws) in *. assert (Ec : find_class k = find_class n) by (rewrite Ek; apply find_class_lower).
  pose proof (finish_report_eq e (still m) rel k n evs h _ Ec Ek Hf) as FR. rewrite still_type in FR. specialize (FR Lh). rewrite FR in B. clear FR.
  assert (Hi : ident any (lower n, new_handler n)) by (exists n; split; [exact I|split; [reflexivity|apply same_id_refl]]).
  destruct (feeds_got e (still m) rel n _ _ _ _ Hi Hf) as [_ G]. rewrite still_type in G.
  destruct (ident_norm k h Ih) as [Hc Hn]. pose proof (cat_ok k h Hc Hn) as Ct. pose proof (ident_subject k h Ih) as Hs. rewrite Hs in Ff.
  assert (Ea : accepted (m_type m) n = processed (m_type m) k) by (rewrite <- processed_eq, Ek, accepted_lower; reflexivity).
  unfold field_report in B. rewrite processed_eq in B. rewrite Ea in G.
  assert (Off : briefs E = [] -> Forall (okev (about_field k) (false, k)) E) by (intros Z; apply (off_ok _ _ _ _ F Z)).
  destruct (processed (m_type m) k); [|apply Off, B].
  assert (Hv : exists v more, values k raws = v :: more).
  { assert (X : str_in k (fields_seen raws) = true) by (apply str_in_In, Hin). rewrite seen_values in X. destruct (values k raws) as [|v more]; [discriminate|]. eauto. }
  destruct Hv as (v & more & Ev). unfold finish_handler in Ff. rewrite Hc in Ff. unfold got in G. cbn [h_cls new_handler h_raw h_val] in G. rewrite <- Ec in G.
  destruct (kind_of (find_class k)) as [| | |ty| |] eqn:KK.
  - cbn [app] in G. rewrite (subject_kind k) in * by (rewrite KK; exact I).
    pose proof (lines_vals k (m_type m) raws) as LV. rewrite Ev in LV. unfold singleton_finish in Ff. rewrite G in Ff. destruct (lines_of k (m_type m) raws) as [|[v0 o] ml]; [discriminate|].
    injection LV as -> LV. cbv zeta in Ff. rewrite Hc in Ff.
    set (l1 := match ml with [] => _ | _ => _ end) in Ff. set (l2 := match fa_syntax _ with Some _ => _ | None => _ end) in Ff. destruct (parse_of (find_class k) _ h (strip v)) as [l3 r3].
    assert (X : exists rest, E = tag (about_field k) (sec_base tr h) (l1 ++ l2) ++ rest).
    { rewrite app_assoc in Ff. rewrite tag_app in Ff. destruct r3 as [x|x].
      - destruct (base_finish _ _ _ _) as [[l4 h4] r4]. cbn [prefix_events] in Ff. injection Ff as <- _ _. rewrite <- app_assoc. eexists. reflexivity.
      - destruct (is_ValueError x); [|discriminate]. injection Ff as <- _. eexists. reflexivity. }
    destruct X as (rest & ->). clear Ff.
    eapply rest_ok; [exact F|exact B| |].
    + unfold singleton_report, about. rewrite map_app, tag_app, briefs_app. f_equal.
      * unfold l1. destruct ml; reflexivity.
      * unfold l2, syntax_report. destruct (fa_syntax _) as [r0|]; [|reflexivity]. destruct (match_ws_dollar r0 v); [reflexivity|]. cbn [orb]. destruct (fa_report _); reflexivity.
    + apply okplain_tag, Forall_app. split; [unfold l1; destruct ml; [constructor|okp]|]. unfold l2. destruct (fa_syntax _); [|constructor]. destruct (match_ws_dollar _ _); [constructor|]. destruct (fa_report _); [okp|constructor].
  - apply Off, B.
  - apply Off. rewrite B. unfold broken_report, syntax_report. rewrite (broken_none _ KK). generalize (lines_of k (m_type m) raws). clear. intros l. induction l as [|x l IH]; [reflexivity|exact IH].
  - rewrite (subject_kind k) in * by (rewrite KK; exact I). specialize (G [] eq_refl). cbn [app] in G. rewrite <- (map_map fst VStr), lines_vals in G. rewrite lines_vals in B.
    assert (Hsf : h_sf h = false) by (apply Lh). unfold sf_finish in Ff. rewrite G, Hsf, Ev in Ff. cbn [truthy map nonempty negb] in Ff. change (VStr v :: map VStr more) with (map VStr (v :: more)) in Ff. rewrite raw_texts_strl in Ff. cbv zeta in Ff.
    rewrite Hc in Ff. rewrite Ev in B. cbn [sf_report] in B. cbv zeta in B. cbn [cx_env] in Ff. set (text := strip _) in *. destruct ty; eapply sf_ok; eauto.
  - rewrite (subject_kind k) in * by (rewrite KK; exact I). specialize (G [] eq_refl). cbn [app] in G. rewrite <- (map_map fst VStr), lines_vals in G. rewrite lines_vals in B.
    unfold json_finish in Ff. rewrite G, Ev in Ff. cbn [truthy map nonempty negb] in Ff. change (VStr v :: map VStr more) with (map VStr (v :: more)) in Ff. rewrite raw_texts_strl in Ff. rewrite Ev in B. cbn [json_report cx_env] in *.
    set (text := _ ++ join _ _ ++ _) in *. destruct (e_json e text) as [js|msg|x]; [apply Off, B| |discriminate].
    apply (f_equal (fun x => fst (fst x))) in Ff. cbv beta in Ff. change (tag (about_field k) (sec_base tr h) [ENote BAD_JSON (Some (handler_cat h)) [(u "error", VStr msg)] []] = E) in Ff. subst E. apply okplain_tag. rewrite Ct. okp.
  - apply Off, B.
Qed.
Lemma finish_all_f e rel tr m0 raws l : forall m m', m_type m = m_type m0 -> NoDup (keys l) -> Forall (lined (m_type m0)) l ->
  (forall k h, In (k, h) l -> In k (fields_seen raws) /\ k = lower (first_name k raws) /\ exists evs, feeds e (still m0) rel (new_handler (first_name k raws)) (lines_of k (m_type m0) raws) = (evs, h, Ok tt)) ->
  finish_all e rel tr m l = (m', Ok tt) ->
  exists l', Forall (field_placed raws) l' /\ sel framework (m_notes m') = sel framework (m_notes m) ++ l'.
Proof.
  induction l as [|[k h] l IH]; intros m m' Tm Hn Hl Hh E; cbn [finish_all] in E.
  - injection E as <-. exists []. rewrite app_nil_r. split; [constructor|reflexivity].
  - inversion Hn as [|? ? Hnk Hn2]; subst. inversion Hl as [|? ? Hl1 Hl2]; subst.
    destruct (finish_one e rel tr m (k, h)) as [m1 [[]|x]] eqn:E1; [|discriminate]. rewrite <- Tm in Hl1.
    destruct (finish_one_facts e rel tr m k h m1 Hl1 E1) as (evs & h' & Eh & Hid & F & Fin & N1 & B1 & H1 & P1 & T1 & S1 & O1 & St1 & Ty1). rewrite Tm in Hl1. destruct Hl1 as [Lh Ih]. cbn [snd] in Lh.
    destruct (Hh k h (or_introl eq_refl)) as (Hin & Ek & evs0 & Hf).
    pose proof (finish_ok e rel tr m0 m raws k evs0 h evs h' Hin Ek Hf Lh Ih Tm Eh) as Ok1.
    destruct (IH m1 m' ltac:(congruence) Hn2 Hl2 (fun k2 h2 X => Hh k2 h2 (or_intror X)) E) as (ps & Q1 & Q2).
    exists (sel framework (emit (m_type m) [] evs) ++ ps). split.
    + apply Forall_app. split; [|exact Q1]. eapply Forall_impl; [|apply okev_notes, Ok1]. intros n0 Hn0 Fn. destruct (Hn0 Fn) as [Y1 Y2]. exists k. split; [|exact Y2].
      split; [rewrite <- fields_eq; exact Hin|exact Y1].
    + rewrite Q2, N1, emit_sel_add, app_assoc by (apply (okev_calm _ _ _ Ok1)). reflexivity.
Qed.
(** ** A section *)
Definition sec_placed (t : mtype) (raws : list rawline) (n : note) : Prop :=
  framework (n_cls n) = true -> (exists b k, (if b : bool then about_a_line t raws n k else about_a_field raws n k) /\ n_cat n = if wf b (n_cls n) then category_of k else GENERAL)
    \/ (n_cls n = FIELD_SECTION_TOO_LARGE /\ n_cat n = GENERAL).
Lemma section_f e rel tr m raws m' : sec tr m = new_section tr -> process e rel tr m raws = (m', Ok tt) ->
  exists l, Forall (sec_placed (m_type m) raws) l /\ sel framework (m_notes m') = sel framework (m_notes m) ++ l.
Proof.
  intros Hs E0. destruct (process_lines e rel tr m raws m' Hs E0) as (m1 & E1 & T1 & St & E2 & S1 & Ks & Hh & Ef).
  assert (S0 : sinv any (m_type m) (sec tr m)) by (rewrite Hs; split; constructor).
  destruct (lines_f e rel tr raws raws m 0%nat m1 S0 (fun x H => H) E1) as (l1 & L1 & L2). set (m2 := section_size tr m1) in *.
  assert (T2 : m_type m2 = m_type m) by (unfold m2, section_size; destruct (_ <? _); exact T1).
  assert (N2 : exists l2, Forall (sec_placed (m_type m) raws) l2 /\ sel framework (m_notes m2) = sel framework (m_notes m1) ++ l2).
  { unfold m2, section_size. cbv zeta. destruct (_ <? _); [|exists []; rewrite app_nil_r; split; [constructor|reflexivity]].
    rewrite notes_emit. eexists. split; [|apply emit_sel_add; repeat constructor]. constructor; [|constructor]. intros _. right. split; reflexivity. }
  destruct N2 as (l2 & N1 & N2). destruct S1 as [Hn Hl].
  assert (Hh' : forall k h, In (k, h) (s_handlers (sec tr m1)) -> In k (fields_seen raws) /\ k = lower (first_name k raws) /\ exists evs, feeds e (still m) rel (new_handler (first_name k raws)) (lines_of k (m_type m) raws) = (evs, h, Ok tt)).
  { intros k h Hin. split; [rewrite <- Ks; apply (in_map fst) in Hin; exact Hin|]. destruct (Hh k h Hin) as (evs & Ek & _ & Hf). split; [exact Ek|]. exists evs. exact Hf. }
  destruct (finish_all_f e rel tr m raws _ m2 m' T2 Hn Hl Hh' Ef) as (l3 & F1 & F2).
  exists (l1 ++ l2 ++ l3). split; [|rewrite F2, N2, L2, !app_assoc; reflexivity]. repeat (apply Forall_app; split); [|exact N1|].
  - eapply Forall_impl; [|exact L1]. intros n H F. destruct (H F) as (k & A & C). left. exists true, k. auto.
  - eapply Forall_impl; [|exact F1]. intros n H F. destruct (H F) as (k & A & C). left. exists false, k. auto.
Qed.
Lemma posted_F t l : Forall (posted t) l -> Forall (not_cls framework) l.
Proof.
  apply Forall_impl. intros [[subj base] e] (g & Hg & _ & He & _). unfold not_cls. cbn [snd] in *.
  destruct e; cbn [ev_cls fev] in *; repeat constructor; apply (own_framework g); apply He.
Qed.
(** ** The run *)
Theorem C74_filed : forall e rel top headers chunks complete trailers t start nc head base m' rel',
  lint e rel top headers chunks complete trailers (new_linter t start nc head base) = (m', rel', Ok tt) ->
  Forall (filed t headers trailers) (m_notes m').
Proof.
  intros e rel top headers chunks complete trailers t start nc head base m' rel' E.
  pose proof (lint_kept _ _ _ _ _ _ _ _ _ _ _ _ _ _ E) as KM.
  destruct (lint_sections _ _ _ _ _ _ _ _ _ _ _ _ _ _ E) as (mh & mh' & mt & mt' & S).
  destruct S as (H1 & H2 & H3 & T1 & T2 & T3 & H4 & C1 & C2 & Th & Tt & N & evs & Q & N2).
  destruct (N framework quiet_framework) as [N0 N1]. specialize (N2 framework quiet_framework). pose proof (posted_F t evs Q) as Off.
  assert (X : sel framework (m_notes m') = sel framework (m_notes mt')).
  { rewrite N2 by (eapply Forall_impl; [|exact Off]; auto). apply emit_sel, Off. }
  destruct (section_f e rel false mh headers mh' H1 H2) as (lh & A1 & A2). destruct (section_f e rel true mt trailers mt' T1 T2) as (lt & B1 & B2).
  rewrite Th in A1. rewrite Tt in B1. rewrite N0 in A2. rewrite N1 in B2. cbn [app] in A2. rewrite B2, A2 in X.
  apply Forall_forall. intros n Hn. rewrite Forall_forall in KM. specialize (KM n Hn).
  assert (Y : framework (n_cls n) = true -> exists raws, (raws = headers \/ raws = trailers) /\ sec_placed t raws n).
  { intros F. assert (I : In n (lh ++ lt)) by (rewrite <- X; unfold sel; apply filter_In; auto). apply in_app_iff in I as [I|I].
    - exists headers. split; [left; reflexivity|]. rewrite Forall_forall in A1. apply A1, I.
    - exists trailers. split; [right; reflexivity|]. rewrite Forall_forall in B1. apply B1, I. }
  split; [exact KM|]. split; [|split].
  - intros I. assert (F : framework (n_cls n) = true) by (repeat (destruct I as [<-|I]; [reflexivity|]); destruct I).
    assert (W : forall b, wf b (n_cls n) = true) by (intros b; apply orb_true_iff; left; apply existsb_exists; exists (n_cls n); split; [exact I|apply nid_eqb_eq; reflexivity]).
    destruct (Y F) as (raws & R & P). destruct (P F) as [(b & k & A & C)|[Cl _]]; [|specialize (W true); rewrite Cl in W; discriminate W]. rewrite W in C. exists raws, k. split; [exact R|]. split; [destruct b; auto|exact C].
  - intros I. assert (F : framework (n_cls n) = true) by (repeat (destruct I as [<-|I]; [reflexivity|]); destruct I).
    assert (W : forall b, wf b (n_cls n) = false) by (intros b; repeat (destruct I as [<-|I]; [destruct b; reflexivity|]); destruct I).
    destruct (Y F) as (raws & R & P). destruct (P F) as [(b & k & A & C)|[_ C]]; [rewrite W in C; exact C|exact C].
  - intros I. assert (F : framework (n_cls n) = true) by (rewrite I; reflexivity).
    destruct (Y F) as (raws & R & P). destruct (P F) as [(b & k & A & C)|[Cl _]]; [|congruence]. exists raws, k. split; [exact R|]. rewrite I in C. destruct b; [left|right]; split; assumption.
Qed.
Print Assumptions C74_filed.
(** Every note of the files about fields in general is of one of the two kinds. *)
Theorem C74_kinds : forall n, framework n = true <-> In n (BAD_SYNTAX :: with_field ++ apart_from_field).
Proof.
  intros n. split.
  - intros H. assert (X : forallb (fun n => if framework n then existsb (nid_eqb n) (BAD_SYNTAX :: with_field ++ apart_from_field) else true) all_nids = true) by (vm_compute; reflexivity).
    rewrite forallb_forall in X. specialize (X n (all_nids_complete n)). cbv beta in X. rewrite H in X. apply existsb_exists in X as (x & Hx & Ex). apply nid_eqb_eq in Ex. subst x. exact Hx.
  - intros I. cbn [app with_field apart_from_field] in I. repeat (destruct I as [<-|I]; [reflexivity|]). destruct I.
Qed.
(** ** Example: the same kind of note under different headings. *)
Definition filed_notes (hs : list (string * string)) := let '(m, _, r) := lint env0 None (TopResponse (u "1.1") (u "200") None) (raws hs) [] true [] (new_linter MResponse None false false []) in
  (r, map (fun n => (n_cls n, n_subj n, n_cat n)) (filter (fun n => framework (n_cls n)) (m_notes m))).
Example C74_ex : filed_notes [("Allow", "GET, P(T"); ("Host", "a"); ("Vary", "a b"); ("ETag", "a b"); ("X-XSS-Protection", "1"); ("ETag", "c"); ("Set-Cookie2", "a")]%string
  = (Ok tt, [(BAD_SYNTAX_DETAILED, u "offset-0", GENERAL); (REQUEST_HDR_IN_RESPONSE, u "offset-1", GENERAL);
             (BAD_SYNTAX_DETAILED, u "offset-1", CACHING); (FIELD_DEPRECATED, u "offset-3", SECURITY); (FIELD_DEPRECATED, u "offset-5", COOKIES);
             (SINGLE_HEADER_REPEAT, u "field-etag", GENERAL); (BAD_SYNTAX, u "field-etag", GENERAL)])
  /\ map (fun k => category_of (u k)) ["allow"; "host"; "vary"; "etag"; "x-xss-protection"; "set-cookie2"]%string = [GENERAL; GENERAL; CACHING; CACHING; SECURITY; COOKIES].
Proof. vm_compute. split; reflexivity. Qed.
