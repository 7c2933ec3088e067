(** * C67: what the general notes about fields show. *)
From Coq Require Import Lia ZifyBool.
From Verif Require Import PyStr Regex Grammar NoteTable Note PyLib Utils FieldAttrs Types Fields1 Fields2 Fields3 Framework Checks Message
  EvLogic NoteLemmas TestEnv LexLemmas ParamLemmas NumLemmas NameLemmas FrameLemmas ContentLemmas BodyLemmas PassParse PassEval PassFrame PassSec PassProc PassRun Session SessionLemmas
  SectionLemmas SecNotes SecValues LintLemmas FieldSpec PropFields PropValues PropNames PropParse PropSyntax OwnLemmas ListSpec PropLists PropCC ListExamples FieldExamples PropInts FieldDue OwnTac OwnMore GroupRun GroupPost ClockSpec GeneralSpec.
Open Scope N_scope.

Notation GP := (classes general_classes).
Notation gks := general_keys.
Lemma GP_framework n : GP n = true -> framework n = true.
Proof. intros H. unfold classes in H. apply existsb_exists in H as (x & Hx & E). apply nid_eqb_eq in E. subst x. repeat (destruct Hx as [<-|Hx]; [reflexivity|]). destruct Hx. Qed.
Lemma quiet_G : quiet GP. Proof. apply quiet_b_ok. vm_compute. reflexivity. Qed.

(** ** Events that do not count *)
Lemma calm_G f l : Forall (fsevi f) l -> Forall (calm_ev GP) l.
Proof.
  intros H. apply fsevg_calm in H. eapply Forall_impl; [|exact H]. intros [[s b] e] He. unfold calm_ev in *. cbn [snd] in *. destruct e; auto.
  assert (X : forall n, framework n = false -> GP n = false) by (intros n Hn; destruct (GP n) eqn:E; [apply GP_framework in E; congruence|reflexivity]). destruct He; auto.
Qed.
Lemma brief_G f s : fsevi f s -> briefs [s] = [] -> not_cls GP s.
Proof.
  assert (X : forall n, framework n = false -> GP n = false) by (intros n Hn; destruct (GP n) eqn:E; [apply GP_framework in E; congruence|reflexivity]).
  destruct s as [[sj b] e]. unfold fsevg, briefs, not_cls. intros [_ H] B. cbn [flat_map ev_brief app] in B. cbn [snd]. rewrite app_nil_r in B.
  destruct e as [n cat vrs kids|s' n vrs|n c vrs|v|p n vrs]; cbn [ev_cls] in *; repeat constructor; apply X.
  - cbn [filter fst] in B. destruct (framework n); [discriminate|reflexivity].
  - cbn [filter fst] in B. destruct (framework n); [discriminate|reflexivity].
  - destruct H as [[H _]|(? & ? & ? & H & _)]; [|discriminate]. destruct H as (_ & H & _). apply (own_framework f), H.
  - destruct H as [[H _]|(? & ? & ? & H & _)]; [|discriminate]. destruct H as (H & _). apply (own_framework f), H.
Qed.
Lemma off_G f l : Forall (fsevi f) l -> briefs l = [] -> Forall (not_cls GP) l.
Proof.
  induction 1 as [|s l Hs Hl IH]; intros B; [constructor|]. change (s :: l) with ([s] ++ l) in B. rewrite briefs_app in B. apply app_eq_nil in B as [B1 B2].
  constructor; [apply (brief_G f s Hs B1)|apply IH, B2].
Qed.
Lemma off_calm l : Forall (not_cls GP) l -> Forall (calm_ev GP) l.
Proof.
  apply Forall_impl. intros [[s b] e] H. unfold not_cls, calm_ev in *. cbn [snd] in *. destruct e; auto. cbn [ev_cls] in H. inversion H as [|? ? H1 H2]; subst. inversion H2; subst. auto.
Qed.
Definition hear (t : mtype) (l : list sev) : list tale := heard GP gks (emit t [] l).
Lemma hear_app t a b : Forall (calm_ev GP) b -> hear t (a ++ b) = hear t a ++ hear t b.
Proof. intros H. unfold hear. rewrite emit_app, heard_sel, emit_sel_add by exact H. rewrite map_app, <- !heard_sel. reflexivity. Qed.
Lemma hear_off t l : Forall (not_cls GP) l -> hear t l = [].
Proof. intros H. unfold hear. rewrite heard_sel, (emit_sel GP t l []) by exact H. reflexivity. Qed.
Lemma emit_hear t ns l : Forall (calm_ev GP) l -> heard GP gks (emit t ns l) = heard GP gks ns ++ hear t l.
Proof. intros H. unfold hear. rewrite !heard_sel, (emit_sel_add GP t l ns H), map_app. reflexivity. Qed.
Lemma emit_off t ns l : Forall (not_cls GP) l -> heard GP gks (emit t ns l) = heard GP gks ns.
Proof. intros H. rewrite !heard_sel. f_equal. apply emit_sel, H. Qed.
(** Plain notes. *)
Definition plain (e : ev) : Prop := exists n cat vrs, e = ENote n cat vrs [].
Lemma plain_direct l : Forall plain l -> Forall (direct GP) l.
Proof. apply Forall_impl. intros e (n & cat & vrs & ->). exact I. Qed.
Lemma hear_tag t s base l : plain_base gks base -> Forall plain l -> hear t (tag s base l) = speak GP gks s l.
Proof. intros Hb H. apply heard_tag; [reflexivity|exact Hb|apply plain_direct, H]. Qed.
Lemma base_nil : plain_base gks []. Proof. split; [constructor|reflexivity]. Qed.
Lemma base_line h : plain_base gks (line_base h).
Proof. apply own_plain; [exact true|reflexivity]. Qed.
Lemma tag_calm s base l : Forall plain l -> Forall (calm_ev GP) (tag s base l).
Proof. intros H. apply direct_calm, plain_direct, H. Qed.

(** ** The syntax of an element *)
Lemma excerpt_ok w s p : context_lines p w s = excerpt w s p.
Proof.
  unfold context_lines, excerpt, slice. cbv zeta. rewrite firstn_skipn_comm.
  assert (A : firstn (p - w + (Nat.min (length s) (p + w) - (p - w))) s = firstn (p + w) s \/ (p - w >= length s)%nat).
  { destruct (Nat.le_gt_cases (length s) (p - w)) as [L|L]; [right; exact L|left].
    destruct (Nat.le_gt_cases (length s) (p + w)) as [L2|L2]; [rewrite !firstn_all2 by lia; reflexivity|f_equal; lia]. }
  replace (p - (p - w))%nat with (Nat.min p w) by lia.
  destruct A as [->|A]; [reflexivity|]. rewrite !skipn_all2 by (rewrite firstn_length; lia). reflexivity.
Qed.
Lemma speak1 s n cat vrs : GP n = true -> speak GP gks s [ENote n cat vrs []] = [(n, s, map (fun k => dlast k vrs) gks)].
Proof. intros H. cbn [speak flat_map utter app]. rewrite H. reflexivity. Qed.
Lemma ref_ok k h : h_cls h = find_class k -> h_norm h = strip k -> u (handler_ref h) = reference k.
Proof. intros H1 H2. unfold handler_ref, reference, dep_info. rewrite H1, H2. reflexivity. Qed.
Definition syntax_events (h : handler) (v : str) : list ev := fst (list_syntax h v).
Lemma syntax_says k s h v : h_cls h = find_class k -> h_norm h = strip k ->
  Forall plain (syntax_events h v) /\ snd (list_syntax h v) = Ok tt /\ element_says k s v (speak GP gks s (syntax_events h v))
  /\ forall subj base, briefs (tag subj base (syntax_events h v)) = about subj (member_report (h_cls h) v).
Proof.
  intros H1 H2. pose proof (ok_syntax_spec (h_cls h) v) as OS. pose proof (ok_prefix_spec (h_cls h) v) as OP. rewrite H1 in OS, OP. unfold ok_syntax in OS. unfold ok_prefix in OP.
  unfold syntax_events, list_syntax, member_report, element_says. cbv zeta. rewrite H1. destruct (fa_syntax (attrs (find_class k))) as [g|] eqn:G.
  2: { split; [constructor|]. split; [reflexivity|]. split; [|reflexivity]. left. split; [apply OS; reflexivity|reflexivity]. }
  destruct (match_ws_dollar g v) eqn:M.
  { split; [constructor|]. split; [reflexivity|]. split; [|reflexivity]. left. split; [apply OS; reflexivity|reflexivity]. }
  assert (NF : ~ fits (find_class k) v) by (intros X; apply OS in X; discriminate).
  destruct (match_prefix (Seq (Star ws) g) v) as [bad|] eqn:Pf.
  - destruct (nth_error v bad) as [ch|] eqn:Nt; [|rewrite (prefix_all _ _ _ Pf Nt) in M; discriminate].
    split; [repeat constructor; eexists _, _, _; reflexivity|]. split; [reflexivity|]. split; [|reflexivity]. right. left. split; [exact NF|].
    unfold match_prefix in Pf. destruct (ms (Seq (Star ws) g) v) as [|rest l] eqn:Ms; [discriminate|]. injection Pf as Pf.
    assert (I1 : In rest (ms (Seq (Star ws) g) v)) by (rewrite Ms; left; reflexivity). apply ms_correct in I1 as (pre & Ev & L). apply lang_seq in L as (a & w & -> & La & Lw).
    assert (Eb : bad = length (a ++ w)) by (clear - Pf Ev; apply (f_equal (@length N)) in Ev; rewrite !app_length in *; lia). rewrite Ev in Nt. rewrite Eb, nth_error_app2, Nat.sub_diag in Nt by apply Nat.le_refl.
    destruct rest as [|c rest]; [discriminate|]. injection Nt as ->. exists (a ++ w), ch, rest. split; [exact Ev|]. split; [unfold opens; rewrite G; exists a, w; split; [reflexivity|]; split; [apply lang_star_chr, La|exact Lw]|].
    cbn [tell fst]. rewrite speak1 by reflexivity. unfold shows. rewrite Eb. rewrite <- excerpt_ok, <- (ref_ok k h H1 H2). reflexivity.
  - assert (NB : ~ begins (find_class k) v) by (intros X; apply OP in X; discriminate).
    destruct (fa_report (attrs (find_class k))).
    + split; [repeat constructor; eexists _, _, _; reflexivity|]. split; [reflexivity|]. split; [|reflexivity]. right. right. split; [exact NF|]. split; [exact NB|].
      cbn [when tell fst]. rewrite speak1 by reflexivity. rewrite <- (ref_ok k h H1 H2). reflexivity.
    + split; [constructor|]. split; [reflexivity|]. split; [|reflexivity]. right. right. split; [exact NF|]. split; [exact NB|]. reflexivity.
Qed.
(** ** One element, one line *)
Lemma tag_app s b (x y : list ev) : tag s b (x ++ y) = tag s b x ++ tag s b y.
Proof. apply map_app. Qed.
Lemma same_ref k h h' : same_id h h' -> h_cls h = find_class k /\ h_norm h = strip k -> h_cls h' = find_class k /\ h_norm h' = strip k.
Proof. intros (E1 & _ & E2 & _) [H1 H2]. split; congruence. Qed.
Lemma member_says k c s h v evs o t : h_cls h = find_class k -> h_norm h = strip k -> list_member c h v = (evs, Ok o) ->
  exists l, element_says k s v l /\ hear t (tag s (line_base h) evs) = l /\ Forall (calm_ev GP) (tag s (line_base h) evs).
Proof.
  intros H1 H2 E. pose proof (list_member_briefs c s (line_base h) h v evs o E) as B. pose proof (wp_list_member c h v) as [W _]. rewrite E in W. cbn [fst] in W.
  pose proof (tag_fsev inner _ s (line_base h) evs (line_base_str h) (fbase_in _ (fbase_line h)) W) as F.
  destruct (syntax_says k s h v H1 H2) as (S1 & S2 & S3 & S4). unfold syntax_events in *. unfold list_member in E. destruct (list_syntax h v) as [l1 r1]. cbn [fst snd] in *. subst r1.
  assert (X : exists l2, evs = l1 ++ l2).
  { unfold bind at 1 in E. destruct (catch_value _ _) as [l2 r2]. injection E as <- _. exists l2. reflexivity. }
  destruct X as (l2 & ->). exists (speak GP gks s l1). split; [exact S3|]. split; [|apply (calm_G _ _ F)].
  rewrite tag_app in *. rewrite briefs_app, S4 in B.
  assert (B2 : briefs (tag s (line_base h) l2) = []) by (apply (app_inv_head (about s (member_report (h_cls h) v))); rewrite app_nil_r; exact B).
  apply Forall_app in F as [_ F2]. pose proof (off_G _ _ F2 B2) as O. rewrite hear_app by (apply off_calm, O). rewrite (hear_off t _ O), app_nil_r. apply hear_tag; [apply base_line|exact S1].
Qed.
Lemma input_says t k c s l : forall h evs h', h_cls h = find_class k -> h_norm h = strip k -> list_input c s h l = (evs, h', Ok tt) ->
  exists parts, Forall2 (element_says k s) l parts /\ hear t evs = concat parts /\ Forall (calm_ev GP) evs.
Proof.
  induction l as [|v l IH]; intros h evs h' H1 H2 E; cbn [list_input] in E.
  - injection E as <- _. exists []. repeat split; constructor.
  - destruct (list_member c h v) as [ev0 [o|x]] eqn:Em; [|discriminate]. cbv zeta in E.
    destruct (member_says k c s h v ev0 o t H1 H2 Em) as (p & P1 & P2 & P3).
    set (h1 := h_add_aux h _) in E. set (h2 := match o with Some x => append_val h1 x | None => h1 end) in E.
    assert (X : h_cls h2 = h_cls h /\ h_norm h2 = h_norm h).
    { unfold h2. destruct o as [x|]; [|split; reflexivity]. unfold append_val. destruct (h_val h1); split; reflexivity. }
    destruct X as [X1 X2]. destruct (list_input c s h2 l) as [[evs2 h3] r2] eqn:El. injection E as <- <- ->.
    destruct (IH h2 evs2 h3 ltac:(congruence) ltac:(congruence) El) as (ps & Q1 & Q2 & Q3). exists (p :: ps). split; [constructor; assumption|]. split; [|apply Forall_app; split; assumption].
    rewrite hear_app by exact Q3. rewrite P2, Q2. reflexivity.
Qed.
Lemma ident_norm k h : ident any (k, h) -> h_cls h = find_class k /\ h_norm h = strip k.
Proof.
  intros (n & _ & Ek & (E1 & _ & E2 & _)). cbn [fst snd] in *. subst k. rewrite E1, E2. cbn [new_handler h_cls h_norm]. rewrite strip_lower. split; [symmetry; apply find_class_lower|reflexivity].
Qed.
Lemma enc_off raw s b : Forall (not_cls GP) (tag s b (enc_events raw)).
Proof.
  unfold enc_events, read_name, read_value. unfold tag. apply Forall_map. apply Forall_app. split.
  - destruct (decode_ascii_strict (fst raw)); [constructor|]. repeat constructor.
  - destruct (decode_ascii_strict (snd raw)); [constructor|]. repeat constructor.
Qed.
Definition size_tale (s : str) (raw : rawline) : list tale :=
  let size := N.of_nat (length (fst raw) + length (snd raw)) in if 8192 <? size then [shows FIELD_TOO_LARGE s [("field_size"%string, f_num (Z.of_N size))]] else [].
Lemma size_hear t h raw s : hear t (tag s [] (size_events h raw)) = size_tale s raw /\ Forall plain (size_events h raw).
Proof.
  unfold size_events, size_tale, raw_size, max_field_size. cbv zeta. destruct (8192 <? _).
  - assert (P : Forall plain [ENote FIELD_TOO_LARGE None [(k_field_name, VStr (h_canon h)); (u "field_size", VStr (f_num (Z.of_N (raw_size raw))))] []]) by (repeat constructor; eexists _, _, _; reflexivity).
    split; [|exact P]. unfold raw_size in P. rewrite hear_tag; [|apply base_nil|exact P]. rewrite speak1 by reflexivity. reflexivity.
  - split; [reflexivity|constructor].
Qed.
Lemma line_g e rel tr m o raw m' o' : sinv any (m_type m) (sec tr m) -> field_line e rel tr m o raw = (m', o', Ok tt) ->
  exists l, line_says (m_type m) (raw, o) l /\ heard GP gks (m_notes m') = heard GP gks (m_notes m) ++ l.
Proof.
  intros Hs E. pose proof Hs as [_ Hf]. pose proof (Forall_impl _ (fun a Ha => proj2 Ha) Hf) as Hi. cbv beta in Hi.
  destruct (line_step e rel tr m o raw m' o' Hi E) as (l3 & l4 & h2 & Et & Eo & Em & Hi1).
  destruct (line_notes e rel tr m o raw m' o' Hs E) as (l3' & l4' & h2' & Et' & F4 & _ & _ & S1 & T1).
  rewrite Et in Et'. injection Et' as <- <- <-.
  set (h := own_handler (s_handlers (sec tr m)) raw) in *. pose proof (own_handler_ident _ raw Hi) as Hh. fold h in Hh.
  pose proof (own_hpre (m_type m) _ raw Hf) as Hpre. fold h in Hpre. destruct (ident_norm _ _ Hh) as [Hc Hn]. rewrite key_eq in Hc, Hn.
  assert (Mn : m_notes m' = emit (m_type m) (m_notes m) (tag (offset_subj o) [] (enc_events raw) ++ tag (offset_subj o) (line_base h) l3 ++ l4
                    ++ (if accepted (m_type m) (raw_name raw) then tag (offset_subj o) [] (size_events h raw) else []))) by (rewrite Em; destruct tr; reflexivity).
  pose proof (calm_G _ _ F4) as C4. destruct (size_hear (m_type m) h raw (offset_subj o)) as [Z5 P5].
  unfold line_says. cbn [fst snd]. cbv zeta.
  assert (Pr : processed (m_type m) (key_of raw) = accepted (m_type m) (raw_name raw)) by (unfold key_of; rewrite <- processed_eq, accepted_lower, name_eq; reflexivity).
  rewrite Pr. unfold taken in Et. rewrite still_type in Et. rewrite (pre_check_eq _ _ _ (raw_name raw) Hh eq_refl) in Et.
  unfold accepted in *. destruct (wrong (m_type m) (find_class (raw_name raw))); cbn [negb andb] in *.
  { injection Et as <- <- _. exists []. split; [reflexivity|]. rewrite Mn, !app_nil_r. apply emit_off. apply Forall_app. split; [apply enc_off|].
    unfold tag. cbn [map]. repeat constructor. unfold not_cls, wrong_class. cbn [snd ev_cls]. destruct (m_type m); repeat constructor. }
  destruct (tok (strip (raw_name raw))).
  2: { injection Et as <- <- _. exists []. split; [reflexivity|]. rewrite Mn, !app_nil_r. apply emit_off. apply Forall_app. split; [apply enc_off|].
    unfold tag. cbn [map]. repeat constructor. }
  destruct (handle_input (mkCx e (still m) rel) h (raw_value raw) o) as [[l4' h2'] r] eqn:HI. injection Et as <- -> -> ->.
  assert (D : Forall plain (dep_events h) /\ hear (m_type m) (tag (offset_subj o) (line_base h) (dep_events h)) = if fa_dep (attrs (find_class (key_of raw))) then [shows FIELD_DEPRECATED (offset_subj o) [("deprecation_ref"%string, reference (key_of raw))]] else []).
  { unfold dep_events. rewrite Hc. destruct (fa_dep _).
    - assert (P : Forall plain [ENote FIELD_DEPRECATED (Some (handler_cat h)) [(u "deprecation_ref", VStr (u (handler_ref h)))] []]) by (repeat constructor; eexists _, _, _; reflexivity).
      split; [exact P|]. rewrite hear_tag; [|apply base_line|exact P]. rewrite speak1 by reflexivity. rewrite <- (ref_ok _ h Hc Hn). reflexivity.
    - split; [constructor|reflexivity]. }
  destruct D as [D1 D2].
  assert (I : exists parts, Forall2 (element_says (key_of raw) (offset_subj o)) (match kind_of (find_class (key_of raw)) with KList => split_list_field (value_of raw) | _ => [] end) parts /\ hear (m_type m) l4 = concat parts).
  { unfold handle_input in HI. rewrite Hc, value_eq in HI. destruct (kind_of (find_class (key_of raw))); try (injection HI as <- _; exists []; split; [constructor|reflexivity]).
    destruct (input_says (m_type m) (key_of raw) _ _ _ _ _ _ Hc Hn HI) as (ps & I1 & I2 & _). exists ps. split; assumption. }
  destruct I as (parts & I1 & I2). eexists. split; [exists parts; split; [exact I1|reflexivity]|].
  rewrite Mn, emit_hear.
  - f_equal. rewrite hear_app by (repeat (apply Forall_app; split); try (apply tag_calm; assumption); assumption). rewrite (hear_off _ _ (enc_off raw _ _)). cbn [app].
    rewrite hear_app by (apply Forall_app; split; [assumption|apply tag_calm; assumption]). rewrite hear_app by (apply tag_calm; assumption). rewrite D2, I2, Z5. reflexivity.
  - repeat (apply Forall_app; split); try (apply tag_calm; assumption); [apply off_calm, enc_off|assumption].
Qed.
Lemma lines_g e rel tr rest : forall m o m', sinv any (m_type m) (sec tr m) -> field_lines e rel tr m o rest = (m', Ok tt) ->
  exists parts, Forall2 (line_says (m_type m)) (numbered (m_type m) o rest) parts /\ heard GP gks (m_notes m') = heard GP gks (m_notes m) ++ concat parts.
Proof.
  induction rest as [|raw rest IH]; intros m o m' Hs E; cbn [field_lines] in E; [injection E as <-; exists []; rewrite app_nil_r; split; [constructor|reflexivity]|].
  destruct (field_line e rel tr m o raw) as [[m1 o1] [[]|x]] eqn:E1; [|discriminate].
  destruct (line_g e rel tr m o raw m1 o1 Hs E1) as (l & L1 & L2).
  pose proof Hs as [_ Hf]. pose proof (Forall_impl _ (fun a Ha => proj2 Ha) Hf) as Hi. cbv beta in Hi.
  destruct (line_step e rel tr m o raw m1 o1 Hi E1) as (_ & _ & _ & _ & Eo & _). destruct (line_notes e rel tr m o raw m1 o1 Hs E1) as (_ & _ & _ & _ & _ & _ & _ & S1 & T1).
  rewrite <- T1 in S1. destruct (IH m1 o1 m' S1 E) as (ps & P1 & P2). rewrite T1 in P1. exists (l :: ps). split.
  - cbn [numbered]. rewrite <- processed_eq, <- name_eq, <- Eo. constructor; assumption.
  - cbn [concat]. rewrite P2, L2, app_assoc. reflexivity.
Qed.
(** ** The end of a field *)
Lemma first_part f t a b B : Forall (fsevi f) (a ++ b) -> briefs (a ++ b) = B -> briefs a = B -> hear t (a ++ b) = hear t a.
Proof.
  intros F E1 E2. rewrite briefs_app, E2 in E1. assert (Z : briefs b = []) by (apply (app_inv_head B); rewrite app_nil_r; exact E1).
  apply Forall_app in F as [_ F]. pose proof (off_G _ _ F Z) as O. rewrite hear_app by (apply off_calm, O). rewrite (hear_off t _ O). apply app_nil_r.
Qed.
Lemma subject_kind k : match kind_of (find_class k) with KSingleton | KSF _ | KJson => True | _ => False end -> subject_of k = about_field k.
Proof. unfold subject_of, about_field, field_subj. cbn [new_handler h_canon]. destruct (find_class k); intros H; try reflexivity; vm_compute in H; destruct H. Qed.
Lemma base_sec tr h : plain_base gks (sec_base tr h).
Proof. apply own_plain. reflexivity. Qed.
Lemma dup_plain d : Forall plain (dup_events d).
Proof. apply Forall_map, Forall_forall. intros x _. eexists _, _, _. reflexivity. Qed.
Lemma dup_speak s d : speak GP gks s (dup_events d) = duplicates s d.
Proof. induction d as [|x d IH]; [reflexivity|]. cbn [duplicates map]. change (dup_events (x :: d)) with ([ENote DUPLICATE_KEY None [(u "key", VStr (fst x)); (u "context", VStr (snd x))] []] ++ dup_events d). rewrite speak_app, IH. reflexivity. Qed.
Lemma err_speak s h pb cx : speak GP gks s [sf_error h pb cx] = [shows STRUCTURED_FIELD_PARSE_ERROR s [("problem", pb); ("context", cx)]%string].
Proof. reflexivity. Qed.
Lemma dup_briefs subj base d : briefs (tag subj base (dup_events d)) = about subj (map (fun _ => DUPLICATE_KEY) d).
Proof. induction d as [|x d IH]; [reflexivity|]. change (dup_events (x :: d)) with ([ENote DUPLICATE_KEY None [(u "key", VStr (fst x)); (u "context", VStr (snd x))] []] ++ dup_events d). rewrite tag_app, briefs_app, IH. reflexivity. Qed.
Lemma sf_answer {A} t s base h0 text (r : sfres A) vl ev f E h' : plain_base gks base -> Forall (fsevi f) E -> briefs E = about s (sfr_report r) ->
  sf_result s base h0 text r vl ev = (E, h', Ok tt) -> hear t E = answer_says s text r.
Proof.
  intros Pb F B X. unfold sf_result in X. cbv zeta in X. destruct r as [v d|d pb pos|d pb]; cbn [sfr_report answer_says] in *.
  - destruct (finish_eval _ _ _ _) as [[l2 h2] r2]. cbn [prefix_events] in X. injection X as <- _ _.
    rewrite (first_part f t _ l2 _ F B (dup_briefs _ _ _)), hear_tag by (assumption || apply dup_plain). apply dup_speak.
  - injection X as <- _. rewrite hear_tag; [|exact Pb|apply Forall_app; split; [apply dup_plain|repeat constructor; eexists _, _, _; reflexivity]].
    rewrite speak_app, dup_speak, err_speak. destruct pos as [p|]; [rewrite excerpt_ok|]; reflexivity.
  - injection X as <- _. rewrite hear_tag; [|exact Pb|apply Forall_app; split; [apply dup_plain|repeat constructor; eexists _, _, _; reflexivity]].
    rewrite speak_app, dup_speak, err_speak. reflexivity.
Qed.
Lemma finish_says e rel tr m mi raws k evs h E h' : In k (fields_seen raws) -> k = lower (first_name k raws) ->
  feeds e (still m) rel (new_handler (first_name k raws)) (lines_of k (m_type m) raws) = (evs, h, Ok tt) -> linv (m_type m) h -> ident any (k, h) -> m_type mi = m_type m ->
  finish_handler (mkCx e mi rel) (field_subj h) (sec_base tr h) h = (E, h', Ok tt) ->
  field_says e (m_type m) raws k (hear (m_type m) E) /\ Forall (calm_ev GP) E.
Proof.
  intros Hin Ek Hf Lh Ih Tm Ff. pose proof (finish_pass (mkCx e mi rel) (field_subj h) (sec_base tr h) h (fbase_sec tr h)) as FP.
  cbn [cx_msg cx_env] in FP. rewrite Tm in FP. specialize (FP Lh). rewrite Ff in FP. destruct FP as (F & _ & _ & B). split; [|apply (calm_G _ _ F)].
  set (n := first_name k raws) in *. assert (Ec : find_class k = find_class n) by (rewrite Ek; apply find_class_lower).
  pose proof (finish_report_eq e (still m) rel k n evs h _ Ec Ek Hf) as FR. rewrite still_type in FR. specialize (FR Lh). rewrite FR in B. clear FR.
  assert (Hi : ident any (lower n, new_handler n)) by (exists n; split; [exact I|split; [reflexivity|apply same_id_refl]]).
  destruct (feeds_got e (still m) rel n _ _ _ _ Hi Hf) as [_ G]. rewrite still_type in G.
  destruct (ident_norm k h Ih) as [Hc Hn]. pose proof (ident_subject k h Ih) as Hs. rewrite Hs in Ff.
  assert (Ea : accepted (m_type m) n = processed (m_type m) k) by (rewrite <- processed_eq, Ek, accepted_lower; reflexivity).
  unfold field_says. cbv zeta. unfold field_report in B. rewrite processed_eq in B. rewrite Ea in G.
  assert (Off : briefs E = [] -> hear (m_type m) E = []) by (intros Z; apply hear_off, (off_G _ _ F Z)).
  destruct (processed (m_type m) k); [|apply Off, B].
  assert (Hv : exists v more, values k raws = v :: more).
  { assert (X : str_in k (fields_seen raws) = true) by (apply str_in_In, Hin). rewrite seen_values in X. destruct (values k raws) as [|v more]; [discriminate|]. eauto. }
  destruct Hv as (v & more & Ev). unfold finish_handler in Ff. rewrite Hc in Ff. unfold got in G. cbn [h_cls new_handler h_raw h_val] in G. rewrite <- Ec in G.
  destruct (kind_of (find_class k)) as [| | |ty| |] eqn:K.
  - exists v, more. split; [exact Ev|]. cbn [app] in G. rewrite (subject_kind k) in * by (rewrite K; exact I).
    pose proof (lines_vals k (m_type m) raws) as LV. rewrite Ev in LV. unfold singleton_finish in Ff. rewrite G in Ff. destruct (lines_of k (m_type m) raws) as [|[v0 o] ml]; [discriminate|].
    injection LV as -> LV. cbv zeta in Ff. rewrite Hc in Ff.
    set (l1 := match ml with [] => _ | _ => _ end) in Ff. set (l2 := match fa_syntax _ with Some _ => _ | None => _ end) in Ff. destruct (parse_of (find_class k) _ h (strip v)) as [l3 r3].
    assert (X : exists rest, E = tag (about_field k) (sec_base tr h) (l1 ++ l2) ++ rest).
    { rewrite app_assoc in Ff. rewrite tag_app in Ff. destruct r3 as [x|x].
      - destruct (base_finish _ _ _ _) as [[l4 h4] r4]. cbn [prefix_events] in Ff. injection Ff as <- _ _. rewrite <- app_assoc. eexists. reflexivity.
      - destruct (is_ValueError x); [|discriminate]. injection Ff as <- _. eexists. reflexivity. }
    destruct X as (rest & ->). clear Ff.
    assert (P : Forall plain (l1 ++ l2)).
    { apply Forall_app. split; [unfold l1; destruct ml; repeat constructor; eexists _, _, _; reflexivity|]. unfold l2. destruct (fa_syntax _); [|constructor]. destruct (match_ws_dollar _ _); [constructor|]. destruct (fa_report _); repeat constructor. eexists _, _, _; reflexivity. }
    rewrite (first_part _ _ _ _ _ F B).
    2: { unfold singleton_report, about. rewrite map_app, tag_app, briefs_app. f_equal.
      - unfold l1. destruct ml; reflexivity.
      - unfold l2, syntax_report. destruct (fa_syntax _) as [r0|]; [|reflexivity]. destruct (match_ws_dollar r0 v); [reflexivity|]. cbn [orb]. destruct (fa_report _); reflexivity. }
    rewrite hear_tag by (apply base_sec || exact P). rewrite speak_app.
    assert (Z : speak GP gks (about_field k) l1 = []) by (unfold l1; destruct ml; reflexivity). rewrite Z. cbn [app].
    pose proof (ok_syntax_spec (find_class k) v) as OS. unfold ok_syntax in OS. unfold l2. destruct (fa_syntax _) as [g|].
    2: { left. split; [apply OS; reflexivity|reflexivity]. }
    destruct (match_ws_dollar g v); [left; split; [apply OS; reflexivity|reflexivity]|]. right. split; [intros C; apply OS in C; discriminate|].
    destruct (fa_report _); [|reflexivity]. rewrite speak1 by reflexivity. rewrite <- (ref_ok k h Hc Hn). reflexivity.
  - apply Off, B.
  - apply Off. rewrite B. unfold broken_report, syntax_report. rewrite (broken_none _ K). generalize (lines_of k (m_type m) raws). clear. intros l. induction l as [|x l IH]; [reflexivity|exact IH].
  - rewrite (subject_kind k) in * by (rewrite K; exact I). specialize (G [] eq_refl). cbn [app] in G. rewrite <- (map_map fst VStr), lines_vals in G. rewrite lines_vals in B.
    assert (Hsf : h_sf h = false) by (apply Lh). unfold sf_finish in Ff. rewrite G, Hsf, Ev in Ff. cbn [truthy map nonempty negb] in Ff. change (VStr v :: map VStr more) with (map VStr (v :: more)) in Ff. rewrite raw_texts_strl in Ff. cbv zeta in Ff.
    rewrite Hc in Ff. rewrite Ev in B |- *. cbn [sf_report] in B. cbv zeta. cbn [cx_env] in Ff. set (text := strip _) in *. destruct ty; eapply sf_answer; eauto using base_sec.
  - rewrite (subject_kind k) in * by (rewrite K; exact I). specialize (G [] eq_refl). cbn [app] in G. rewrite <- (map_map fst VStr), lines_vals in G. rewrite lines_vals in B.
    unfold json_finish in Ff. rewrite G, Ev in Ff. cbn [truthy map nonempty negb] in Ff. change (VStr v :: map VStr more) with (map VStr (v :: more)) in Ff. rewrite raw_texts_strl in Ff. rewrite Ev in B |- *. cbn [json_report cx_env] in *.
    set (text := _ ++ join _ _ ++ _) in *. destruct (e_json e text) as [js|msg|x]; [apply Off, B| |discriminate].
    apply (f_equal (fun x => fst (fst x))) in Ff. cbv beta in Ff. change (tag (about_field k) (sec_base tr h) [ENote BAD_JSON (Some (handler_cat h)) [(u "error", VStr msg)] []] = E) in Ff. subst E. rewrite hear_tag; [|apply base_sec|repeat constructor; eexists _, _, _; reflexivity]. reflexivity.
  - apply Off, B.
Qed.
(** ** All the fields *)
Lemma finish_all_g e rel tr m0 raws l : forall m m', m_type m = m_type m0 -> NoDup (keys l) -> Forall (lined (m_type m0)) l ->
  (forall k h, In (k, h) l -> In k (fields_seen raws) /\ k = lower (first_name k raws) /\ exists evs, feeds e (still m0) rel (new_handler (first_name k raws)) (lines_of k (m_type m0) raws) = (evs, h, Ok tt)) ->
  finish_all e rel tr m l = (m', Ok tt) ->
  exists parts, Forall2 (field_says e (m_type m0) raws) (keys l) parts /\ heard GP gks (m_notes m') = heard GP gks (m_notes m) ++ concat parts.
Proof.
  induction l as [|[k h] l IH]; intros m m' Tm Hn Hl Hh E; cbn [finish_all] in E.
  - injection E as <-. exists []. rewrite app_nil_r. split; [constructor|reflexivity].
  - inversion Hn as [|? ? Hnk Hn2]; subst. inversion Hl as [|? ? Hl1 Hl2]; subst.
    destruct (finish_one e rel tr m (k, h)) as [m1 [[]|x]] eqn:E1; [|discriminate]. rewrite <- Tm in Hl1.
    destruct (finish_one_facts e rel tr m k h m1 Hl1 E1) as (evs & h' & Eh & Hid & F & Fin & N1 & B1 & H1 & P1 & T1 & S1 & O1 & St1 & Ty1). rewrite Tm in Hl1. destruct Hl1 as [Lh Ih]. cbn [snd] in Lh.
    destruct (Hh k h (or_introl eq_refl)) as (Hin & Ek & evs0 & Hf).
    destruct (finish_says e rel tr m0 m raws k evs0 h evs h' Hin Ek Hf Lh Ih Tm Eh) as [Sy Cy].
    destruct (IH m1 m' ltac:(congruence) Hn2 Hl2 (fun k2 h2 X => Hh k2 h2 (or_intror X)) E) as (ps & Q1 & Q2).
    exists (hear (m_type m0) evs :: ps). split; [cbn [keys map fst]; constructor; assumption|]. cbn [concat]. rewrite Q2, N1, Tm, emit_hear by exact Cy. rewrite app_assoc. reflexivity.
Qed.
(** ** A section *)
Lemma section_g e rel tr m raws m' : sec tr m = new_section tr -> process e rel tr m raws = (m', Ok tt) ->
  exists l, section_says e (m_type m) raws l /\ heard GP gks (m_notes m') = heard GP gks (m_notes m) ++ l.
Proof.
  intros Hs E0. destruct (process_lines e rel tr m raws m' Hs E0) as (m1 & E1 & T1 & St & E2 & S1 & Ks & Hh & Ef).
  assert (S0 : sinv any (m_type m) (sec tr m)) by (rewrite Hs; split; constructor).
  destruct (lines_g e rel tr raws m 0%nat m1 S0 E1) as (parts & L1 & L2). set (m2 := section_size tr m1) in *.
  assert (T2 : m_type m2 = m_type m) by (unfold m2, section_size; destruct (_ <? _); exact T1).
  pose proof S0 as [_ Hf0]. pose proof (Forall_impl _ (fun a Ha => proj2 Ha) Hf0) as Hi0. cbv beta in Hi0.
  assert (Sz : s_size (sec tr m1) = total_size raws).
  { destruct (lines_section e rel tr raws m 0%nat m1 Hi0 E1) as (_ & Z & _). rewrite Z, Hs. apply size_eq. }
  assert (N2 : heard GP gks (m_notes m2) = heard GP gks (m_notes m1) ++ (if 32768 <? total_size raws then [shows FIELD_SECTION_TOO_LARGE (u "field-block") [("section_size"%string, f_num (Z.of_N (total_size raws)))]] else [])).
  { unfold m2, section_size. rewrite Sz. cbv zeta. change max_total_size with 32768. destruct (32768 <? total_size raws); [|rewrite app_nil_r; reflexivity].
    rewrite notes_emit. set (ev := ENote FIELD_SECTION_TOO_LARGE None _ []). assert (P : Forall plain [ev]) by (repeat constructor; eexists _, _, _; reflexivity).
    change [(u "field-block", [], ev)] with (tag (u "field-block") [] [ev]). rewrite emit_hear by (apply tag_calm; exact P). rewrite hear_tag; [|apply base_nil|exact P].
    unfold ev. rewrite speak1 by reflexivity. reflexivity. }
  destruct S1 as [Hn Hl].
  assert (Hh' : forall k h, In (k, h) (s_handlers (sec tr m1)) -> In k (fields_seen raws) /\ k = lower (first_name k raws) /\ exists evs, feeds e (still m) rel (new_handler (first_name k raws)) (lines_of k (m_type m) raws) = (evs, h, Ok tt)).
  { intros k h Hin. split; [rewrite <- Ks; apply (in_map fst) in Hin; exact Hin|]. destruct (Hh k h Hin) as (evs & Ek & _ & Hf). split; [exact Ek|]. exists evs. exact Hf. }
  destruct (finish_all_g e rel tr m raws _ m2 m' T2 Hn Hl Hh' Ef) as (fparts & F1 & F2). rewrite Ks, fields_eq in F1.
  eexists. split; [exists parts, fparts; split; [exact L1|]; split; [exact F1|reflexivity]|]. rewrite F2, N2, L2, !app_assoc. reflexivity.
Qed.
Lemma posted_G t l : Forall (posted t) l -> Forall (not_cls GP) l.
Proof.
  apply Forall_impl. intros [[subj base] e] (g & Hg & _ & He & _). unfold not_cls. cbn [snd] in *.
  assert (Y : forall n, own g n = true -> GP n = false) by (intros n Hn; destruct (GP n) eqn:E; [apply GP_framework in E; apply own_framework in Hn; congruence|reflexivity]).
  destruct e; cbn [ev_cls fev] in *; repeat constructor; apply Y; apply He.
Qed.
(** ** The run *)
Theorem C67_general : forall e rel top headers chunks complete trailers t start nc head base m' rel',
  lint e rel top headers chunks complete trailers (new_linter t start nc head base) = (m', rel', Ok tt) ->
  exists lh lt, section_says e t headers lh /\ section_says e t trailers lt /\ heard (classes general_classes) general_keys (m_notes m') = lh ++ lt.
Proof.
  intros e rel top headers chunks complete trailers t start nc head base m' rel' E.
  destruct (lint_sections _ _ _ _ _ _ _ _ _ _ _ _ _ _ E) as (mh & mh' & mt & mt' & S).
  destruct S as (H1 & H2 & H3 & T1 & T2 & T3 & H4 & C1 & C2 & Th & Tt & N & evs & Q & N2).
  destruct (N GP quiet_G) as [N0 N1]. specialize (N2 GP quiet_G). pose proof (posted_G t evs Q) as Off.
  assert (X : sel GP (m_notes m') = sel GP (m_notes mt')).
  { rewrite N2 by (eapply Forall_impl; [|exact Off]; auto). apply emit_sel, Off. }
  destruct (section_g e rel false mh headers mh' H1 H2) as (lh & A1 & A2). destruct (section_g e rel true mt trailers mt' T1 T2) as (lt & B1 & B2).
  rewrite Th in A1. rewrite Tt in B1. rewrite !heard_sel, N0 in A2. rewrite !heard_sel, N1 in B2.
  exists lh, lt. split; [exact A1|]. split; [exact B1|]. rewrite heard_sel, X, B2, A2. reflexivity.
Qed.
Print Assumptions C67_general.
(** ** Example *)
Definition general_env : env :=
  env_with (fun _ => SFErr [(u "q", u "x;q=1;q=2")] (u "Unexpected character") (Some 3%nat)) (e_json env0) (e_urlsplit env0) (e_codec env0) (e_decode env0).
Definition values_of_tale (x : tale) : nid * str * list pyval := (fst (fst x), snd (fst x), flat_map (fun v => match v with Some v => [v] | None => [] end) (snd x)).
Definition general_notes (hs : list (string * string)) := let '(m, _, r) := lint general_env None (TopResponse (u "1.1") (u "200") None) (raws hs) [] true [] (new_linter MResponse None false false []) in
  (r, map values_of_tale (heard (classes general_classes) general_keys (m_notes m))).
Example C67_ex : general_notes [("Allow", "GET, P(T"); ("Cache-Status", "hit;"); ("ETag", "a b"); ("NEL", "{"); ("X-XSS-Protection", "1")]%string
  = (Ok tt,
     [(BAD_SYNTAX_DETAILED, u "offset-0", [VStr (u "http://httpwg.org/specs/rfc9110#field.allow"); VStr (u "P(T");
         VStr (u "The invalid character '(' was found at position 2:" ++ [10; 10] ++ u "    P(T" ++ [10] ++ u "     ^")]);
      (FIELD_DEPRECATED, u "offset-4", [VStr (u "https://developer.mozilla.org/en-US/docs/Web/HTTP/Reference/Headers/X-XSS-Protection")]);
      (DUPLICATE_KEY, u "field-cache-status", [VStr (u "q"); VStr (u "x;q=1;q=2")]);
      (STRUCTURED_FIELD_PARSE_ERROR, u "field-cache-status", [VStr (u "Unexpected character"); VStr ([10; 10] ++ u "    hit;" ++ [10] ++ u "       ^")]);
      (BAD_SYNTAX, u "field-etag", [VStr (u "http://httpwg.org/specs/rfc9110#field.etag")]);
      (BAD_JSON, u "field-nel", [VStr (u "Expecting value")])]).
Proof. vm_compute. reflexivity. Qed.
