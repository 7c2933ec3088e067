(** * C57: Cross-Origin-Embedder-Policy and Cross-Origin-Opener-Policy. *)
From Coq Require Import Lia QArith.
From Verif Require Import PyStr Regex Grammar NoteTable Note PyLib Utils FieldAttrs Types Fields1 Fields2 Fields3 Framework Checks Message
  EvLogic NoteLemmas TestEnv LexLemmas ParamLemmas NumLemmas NameLemmas FrameLemmas ContentLemmas BodyLemmas PassParse PassEval PassFrame PassSec PassProc PassRun Session SessionLemmas
  SectionLemmas SecNotes SecValues LintLemmas FieldSpec PropFields PropValues PropNames PropParse OwnLemmas ListSpec PropLists PropCC ListExamples FieldExamples PropInts FieldDue OwnTac OwnMore KidSpec OwnFull
  PlainSpec SFSpec PropSF GroupRun GroupPost IsolationSpec.
Open Scope N_scope.

(** ** Groups of structured fields *)
Lemma silent_sf P g ty : kind_of g = KSF ty -> silent P g.
Proof. intros K c h v o l h2 r Hc _ _ E. unfold handle_input in E. rewrite Hc, K in E. injection E as <- _ _. constructor. Qed.
Definition group_b (cs : list nid) (G : list fname) (f : fname) (k : str) : bool :=
  ours_b (classes cs) G && quiet_b (classes cs) && forallb (fun g => existsb (fname_eqb g) module_fields && negb (own g CONTENT_SECURITY_POLICY)) G && existsb (fname_eqb f) G && match nicknames f with [] => true | _ => false end && fname_eqb (find_class k) f.
Lemma group_b_ok cs G f k : group_b cs G f k = true ->
  ours (classes cs) G /\ quiet (classes cs) /\ (forall g, In g G -> In g module_fields) /\ Forall (fun g => own g CONTENT_SECURITY_POLICY = false) G /\ In f G /\ nicknames f = [] /\ find_class k = f.
Proof.
  unfold group_b. intros H. apply andb_prop in H as [H H6]. apply andb_prop in H as [H H5]. apply andb_prop in H as [H H4]. apply andb_prop in H as [H H3]. apply andb_prop in H as [H1 H2].
  rewrite forallb_forall in H3. split; [apply ours_b_ok, H1|]. split; [apply quiet_b_ok, H2|].
  split; [intros g Hg; specialize (H3 g Hg); apply andb_prop in H3 as [H3 _]; apply existsb_exists in H3 as (x & Hx & E); apply fname_eqb_eq in E; subst; exact Hx|].
  split; [apply Forall_forall; intros g Hg; specialize (H3 g Hg); apply andb_prop in H3 as [_ H3]; apply negb_true_iff, H3|].
  split; [apply existsb_exists in H4 as (x & Hx & E); apply fname_eqb_eq in E; subst; exact Hx|]. split; [destruct (nicknames f); [reflexivity|discriminate]|apply fname_eqb_eq, H6].
Qed.
(** Other fields of the group have other subjects. *)
Definition subj_of (g : fname) : str := u "field-" ++ lower (match fa_canon (attrs g) with Some c => u c | None => [] end).
Lemma others_b (G : list fname) f (k : string) : forallb (fun g => fname_eqb g f || match fa_canon (attrs g) with Some _ => negb (str_eqb (subj_of g) (about_field (u k))) | None => false end) G = true ->
  forall x, In (find_class x) G -> find_class x <> f -> str_eqb (about_field x) (about_field (u k)) = false.
Proof.
  intros H x Hx Hne. rewrite forallb_forall in H. specialize (H _ Hx). apply orb_prop in H as [H|H]; [apply fname_eqb_eq in H; destruct (Hne H)|].
  unfold subj_of in H. unfold about_field at 1. destruct (fa_canon (attrs (find_class x))); [|discriminate]. apply negb_true_iff in H. exact H.
Qed.
Lemma told_by_sf k d l : told_by (u k) d l = sf_told k d l. Proof. reflexivity. Qed.
(** ** Values *)
Lemma param_get p (k : string) : match dget (u k) (dupdate [] (map (fun kv : str * bare => (fst kv, bare_val (snd kv))) p)) with
                                | Some v => exists b, param p k b /\ v = bare_val b
                                | None => forall b, ~ param p k b end.
Proof.
  rewrite dget_dupdate. unfold dlast. induction p as [|[x b] p IH] using rev_ind.
  - cbn [map rev dget]. intros b (p1 & p2 & H & _). destruct p1; discriminate.
  - rewrite map_app, rev_app_distr. cbn [map rev app dget fst snd]. destruct (str_eqb (u k) x) eqn:Ex.
    + apply str_eqb_eq in Ex. subst x. exists b. split; [exists p, []; split; [reflexivity|intros []]|reflexivity].
    + assert (Nx : u k <> x) by (intros C; rewrite C, str_eqb_refl in Ex; discriminate).
      assert (M : forall b0, param (p ++ [(x, b)]) k b0 <-> param p k b0).
      { intros b0. split.
        - intros (p1 & p2 & H & Hn). destruct p2 as [|y p2] using rev_ind; [apply app_inj_tail in H as [_ H]; congruence|]. clear IHp2.
          assert (H' : p ++ [(x, b)] = (p1 ++ (u k, b0) :: p2) ++ [y]) by (rewrite H, <- app_assoc; reflexivity). apply app_inj_tail in H' as [-> _]. exists p1, p2. split; [reflexivity|].
          intros C. apply Hn. rewrite map_app. apply in_or_app. left. exact C.
        - intros (p1 & p2 & -> & Hn). exists p1, (p2 ++ [(x, b)]). rewrite <- app_assoc. split; [reflexivity|]. rewrite map_app. intros C. apply in_app_or in C as [C|[C|[]]]; [exact (Hn C)|]. cbn [fst] in C. congruence. }
      match goal with |- match match ?d with _ => _ end with _ => _ end => destruct d as [v|] end.
      * destruct IH as (b0 & Hb & ->). exists b0. split; [apply M, Hb|reflexivity].
      * intros b0 Hb. apply (IH b0), M, Hb.
Qed.
Lemma param_one p k b b' : param p k b -> param p k b' -> b = b'.
Proof.
  intros H H'. pose proof (param_get p k) as G. intros. revert b b' H H'. induction p as [|[x b0] p IH] using rev_ind; intros b b' (p1 & p2 & H & Hn) (q1 & q2 & H' & Hn').
  - destruct p1; discriminate.
  - clear G. destruct p2 as [|y p2] using rev_ind; [|clear IHp2]; destruct q2 as [|z q2] using rev_ind; [| clear IHq2 | | clear IHq2].
    + apply app_inj_tail in H as [_ H]. apply app_inj_tail in H' as [_ H']. congruence.
    + assert (Z : p ++ [(x, b0)] = (q1 ++ (u k, b') :: q2) ++ [z]) by (rewrite H', <- app_assoc; reflexivity). apply app_inj_tail in Z as [_ Z]. apply app_inj_tail in H as [_ H].
      exfalso. apply Hn'. rewrite map_app. apply in_or_app. right. left. rewrite <- Z, H. reflexivity.
    + assert (Z : p ++ [(x, b0)] = (p1 ++ (u k, b) :: p2) ++ [y]) by (rewrite H, <- app_assoc; reflexivity). apply app_inj_tail in Z as [_ Z]. apply app_inj_tail in H' as [_ H'].
      exfalso. apply Hn. rewrite map_app. apply in_or_app. right. left. rewrite <- Z, H'. reflexivity.
    + assert (Z : p ++ [(x, b0)] = (p1 ++ (u k, b) :: p2) ++ [y]) by (rewrite H, <- app_assoc; reflexivity). assert (Z' : p ++ [(x, b0)] = (q1 ++ (u k, b') :: q2) ++ [z]) by (rewrite H', <- app_assoc; reflexivity).
      apply app_inj_tail in Z as [Z _]. apply app_inj_tail in Z' as [Z' _]. apply IH; [apply param_get| |].
      * exists p1, p2. split; [exact Z|]. intros C. apply Hn. rewrite map_app. apply in_or_app. left. exact C.
      * exists q1, q2. split; [exact Z'|]. intros C. apply Hn'. rewrite map_app. apply in_or_app. left. exact C.
Qed.
Lemma truthy_falsy b : truthy (bare_val b) = false <-> falsy b.
Proof.
  unfold falsy. destruct b as [z|q|s|s|s|x|z|s]; cbn [bare_val truthy bare_text].
  - rewrite negb_false_iff, Z.eqb_eq. split; [intros ->; auto|]. intros [H|[H|[(q & H & _)|[H|H]]]]; try discriminate. congruence.
  - rewrite negb_false_iff, Qeq_bool_iff. split; [intros H; right; right; left; exists q; auto|]. intros [H|[H|[(q' & H & Z)|[H|H]]]]; try discriminate. injection H as ->. exact Z.
  - destruct s; cbn; split; auto 6; try discriminate. intros [H|[H|[(q' & H & Z)|[H|H]]]]; discriminate.
  - destruct s; cbn; split; auto 6; try discriminate. intros [H|[H|[(q' & H & Z)|[H|H]]]]; discriminate.
  - destruct s; cbn; split; auto 6; try discriminate. intros [H|[H|[(q' & H & Z)|[H|H]]]]; discriminate.
  - split; [intros ->; auto|]. intros [H|[H|[(q' & H & Z)|[H|H]]]]; try discriminate. congruence.
  - split; [discriminate|]. intros [H|[H|[(q' & H & Z)|[H|H]]]]; discriminate.
  - destruct s; cbn; split; auto 6; try discriminate. intros [H|[H|[(q' & H & Z)|[H|H]]]]; discriminate.
Qed.
Lemma eq_text_bare b s : eq_text (bare_val b) s = true <-> bare_text b = Some s.
Proof. unfold eq_text. destruct b; cbn [bare_val str_of bare_text]; try (split; [discriminate|congruence]); rewrite str_eqb_eq; split; congruence. Qed.
(** ** The endpoints *)
Lemma endpoint_value e rel top headers chunks complete trailers t start nc head base m' rel' r : 
  lint e rel top headers chunks complete trailers (new_linter t start nc head base) = (m', rel', Ok tt) -> t <> MRequest -> unpadded (u "reporting-endpoints") headers ->
  exists eps, endpoint_names (mkCx e m' r) = Ok eps /\ forall n, In n eps <-> endpoint e headers n.
Proof.
  intros E Ht Hu. assert (R : run_of e t start base headers trailers m') by (exists rel, top, chunks, complete, nc, head, rel'; exact E).
  pose proof (run_value e t start base headers trailers m' false (u "reporting-endpoints") R Hu) as V. cbn [section_lines] in V. unfold value_in in V. unfold endpoint_names, hdr. cbn [cx_msg].
  unfold endpoint. destruct (values (u "reporting-endpoints") headers) as [|v l] eqn:Ev; cbn [nonempty] in V.
  - change (u "reporting-endpoints") with (u "reporting-endpoints") in V. rewrite V. exists []. split; [reflexivity|]. intros n. split; [intros []|]. intros [H _]. destruct (H eq_refl).
  - rewrite V. unfold field_value. cbv zeta.
    assert (A : accepted (m_type (new_linter t start false false base)) (u "reporting-endpoints") = true) by (destruct t; try congruence; vm_compute; reflexivity). rewrite A.
    assert (F : find_class (u "reporting-endpoints") = F_reporting_endpoints) by (vm_compute; reflexivity). rewrite F. cbn [kind_of].
    change (kind_of F_reporting_endpoints) with (KSF SFDict). cbv iota. unfold sf_value, sf_text. rewrite Ev. destruct (e_sf_dict e _) as [d dups|d pb pos|d pb].
    + unfold sf_dict_val. destruct (dupdate [] d) as [|x xs] eqn:Ed.
      * exists []. split; [reflexivity|]. intros n. split; [intros []|]. intros (_ & d' & du & H & Hn). injection H as <- <-. 
        assert (X : In n (keys (dupdate [] d))) by (apply in_keys_dupdate; right; exact Hn). rewrite Ed in X. destruct X.
      * cbn [map truthy nonempty]. exists (keys (dupdate [] d)). split.
        -- unfold rmap, as_dict. rewrite Ed. f_equal. unfold keys. cbn [map fst]. f_equal. rewrite map_map. reflexivity.
        -- intros n. rewrite in_keys_dupdate. split.
           ++ intros [[]|H]. split; [discriminate|]. exists d, dups. split; [reflexivity|exact H].
           ++ intros (_ & d' & du & H & Hn). injection H as <- <-. right. exact Hn.
    + exists []. split; [reflexivity|]. intros n. split; [intros []|]. intros (_ & d' & du & H & _). discriminate.
    + exists []. split; [reflexivity|]. intros n. split; [intros []|]. intros (_ & d' & du & H & _). discriminate.
Qed.
(** ** One of a group of structured fields *)
Lemma group_run cs G f (k : string) ks ty e rel top headers chunks complete trailers t start nc head base m' rel' q :
  lint e rel top headers chunks complete trailers (new_linter t start nc head base) = (m', rel', Ok tt) ->
  group_b cs G f (u k) && own_keys ks && processed t (u k)
   && forallb (fun g => fname_eqb g f || match fa_canon (attrs g) with Some _ => negb (str_eqb (subj_of g) (about_field (u k))) | None => false end) G = true ->
  Forall (fun g => exists ty, kind_of g = KSF ty) G -> Forall plain_eval G -> kind_of f = KSF ty -> hyphened (u k) headers -> hyphened (u k) trailers ->
  (forall V h s, front V = front m' -> keys (s_handlers (m_headers V)) = fields_seen headers -> Forall own_ev (sf_events ty f e rel V h s) /\ pairs (classes cs) ks (sf_events ty f e rel V h s) = q s) ->
  (forall c h, fst (post_of f c h) = fst (post_of f c (blank_of f (h_val h)))) ->
  heard (classes cs) ks (about k (m_notes m')) = sf_told k q headers ++ sf_told k q trailers
    ++ sf_told k (fun s => post_pairs (classes cs) f e m' rel' ks (sf_value e ty f s)) headers ++ sf_told k (fun s => post_pairs (classes cs) f e m' rel' ks (sf_value e ty f s)) trailers.
Proof.
  intros E Ho Hkd Hpl Hkf H1 H2 Hq Hp. apply andb_prop in Ho as [Ho O4]. apply andb_prop in Ho as [Ho O3]. apply andb_prop in Ho as [Ho O2]. apply group_b_ok in Ho as (A1 & A2 & A3 & A4 & A5 & A6 & A7).
  rewrite <- !told_by_sf. unfold about.
  apply (group_sf (classes cs) G (fun s => str_eqb s (about_field (u k))) f (u k) e rel top headers chunks complete trailers t start nc head base m' rel' E A1 A2); try assumption.
  - eapply Forall_impl; [|exact Hkd]. intros g (tg & K). apply (silent_sf _ g tg K).
  - rewrite Forall_forall in *. intros g Hg. apply settled_quick; [|apply Hpl, Hg]. destruct (Hkd g Hg) as (tg & K). unfold quick. rewrite K. reflexivity.
  - apply others_b, O4.
  - apply str_eqb_refl.
Qed.
Ltac simple_eval := repeat split; intros; cbn [eval_of eval_item eval_list eval_dict]; (match goal with |- Forall own_ev (fst ?w) => change (tm w) end); unfold keep; tms.
Definition isolated (f : fname) : bool := match f with F_cross_origin_embedder_policy | F_cross_origin_opener_policy | F_cross_origin_embedder_policy_report_only | F_cross_origin_opener_policy_report_only => true | _ => false end.
Lemma plain_isolated f : isolated f = true -> plain_eval f.
Proof. intros H. destruct f; try discriminate H; simple_eval; unfold ev_coep, ev_coop, ev_coep_ro, ev_coop_ro, ev_cop; tms. Qed.
Lemma value_rule cs names tab bad ro rot b : (forall n, In n (map snd names) -> classes cs n = true) -> classes cs bad = true -> tab = map (fun x => (u (fst x), snd x)) names ->
  policy_value_due names bad (u ro) (u rot) b (pairs (classes cs) isolation_vars (fst (ev_cop tab bad ro rot b))).
Proof.
  intros Hn Hb ->. unfold ev_cop, policy_value_due.
  assert (Bad : forall w, w = add_note bad [vv "value" (bare_val b); vs "report_only" (u ro)] -> pairs (classes cs) isolation_vars (fst w) = [(bad, [Some (VStr (u ro)); None; Some (bare_val b); None])]).
  { intros w ->. unfold add_note. cbn [fst tell pairs flat_map pair_of app]. rewrite Hb. reflexivity. }
  destruct b as [z|x|s|s|s|x|z|s]; try (right; split; [intros; discriminate|apply Bad; reflexivity]).
  destruct (dget s (map (fun x => (u (fst x), snd x)) names)) as [n|] eqn:D.
  - left. apply dget_In in D. apply in_map_iff in D as ([s0 n0] & E & Hi). injection E as <- <-. exists s0, n0. split; [reflexivity|]. split; [exact Hi|].
    unfold add_note. cbn [fst tell pairs flat_map pair_of app]. rewrite Hn by (apply (in_map snd) in Hi; exact Hi). reflexivity.
  - right. split; [|apply Bad; reflexivity]. intros s0 n0 Hi H. injection H as ->. apply dget_None_notin in D. apply D. apply in_map_iff. exists (u s0, n0). split; [reflexivity|]. apply in_map_iff. exists (s0, n0). auto.
Qed.
Lemma report_rule cs missing ro e rel top headers chunks complete trailers t start nc head base m' rel' f b p :
  lint e rel top headers chunks complete trailers (new_linter t start nc head base) = (m', rel', Ok tt) -> t <> MRequest -> unpadded (u "reporting-endpoints") headers ->
  classes cs missing = true ->
  report_to_due missing (u ro) e headers p (pairs (classes cs) isolation_vars (fst (pc_cop missing ro (mkCx e m' rel') (blank_of f (item_val b p))))).
Proof.
  intros E Ht Hu Hc. destruct (endpoint_value _ _ _ _ _ _ _ _ _ _ _ _ _ _ rel' E Ht Hu) as (eps & Ee & He). unfold pc_cop. cbn [blank_of h_val item_val index nth_error]. rewrite lift_ok. cbn [params_val mk_dict as_dict]. rewrite lift_ok.
  pose proof (param_get p "report-to") as G. destruct (dget (u "report-to") (dupdate [] _)) as [v|].
  - destruct G as (b0 & Hb & ->). unfold report_to_due. destruct (truthy (bare_val b0)) eqn:T; cbn [negb].
    + rewrite Ee, lift_ok. assert (NF : ~ falsy b0) by (intros C; apply truthy_falsy in C; congruence).
      destruct (existsb (eq_text (bare_val b0)) eps) eqn:X.
      * right. apply existsb_exists in X as (s & Hs & X). apply eq_text_bare in X. split; [|reflexivity]. intros b1 Hb1. rewrite (param_one _ _ _ _ Hb1 Hb). right. exists s. split; [exact X|]. apply He, Hs.
      * left. exists b0. split; [exact Hb|]. split; [exact NF|]. split.
        -- intros s Hs C. apply He in C. assert (Y : existsb (eq_text (bare_val b0)) eps = true); [|congruence]. apply existsb_exists. exists s. split; [exact C|]. apply eq_text_bare. exact Hs.
        -- cbn [negb when add_note fst tell pairs flat_map pair_of app]. rewrite Hc. reflexivity.
    + right. split; [|reflexivity]. intros b1 Hb1. left. rewrite (param_one _ _ _ _ Hb1 Hb). apply truthy_falsy, T.
  - right. split; [|reflexivity]. intros b0 Hb. destruct (G b0 Hb).
Qed.
(** The value and the parameters of one of the fields. *)
Section Cop.
  Variables (cs : list nid) (G : list fname) (f : fname) (k : string) (names : list (string * nid)) (tab : list (str * nid)) (bad missing : nid) (ro rot : string).
  Variables (e : env) (rel : option mstate) (top : topline) (headers : list (bytes * bytes)) (chunks : list bytes) (complete : bool) (trailers : list (bytes * bytes))
    (t : mtype) (start : option Q) (nc head : bool) (base : str) (m' : mstate) (rel' : option mstate).
  Hypothesis E : lint e rel top headers chunks complete trailers (new_linter t start nc head base) = (m', rel', Ok tt).
  Hypothesis Ht : t <> MRequest.
  Hypothesis Ho : group_b cs G f (u k) && processed t (u k)
   && forallb (fun g => fname_eqb g f || match fa_canon (attrs g) with Some _ => negb (str_eqb (subj_of g) (about_field (u k))) | None => false end) G = true.
  Hypothesis Hg : Forall (fun g => isolated g = true) G.
  Hypothesis Hf : isolated f = true.
  Hypothesis H1 : hyphened (u k) headers.
  Hypothesis H2 : hyphened (u k) trailers.
  Hypothesis Hu : unpadded (u "reporting-endpoints") headers.
  Variable first : list (nid * list (option pyval)).
  Hypothesis Hev : forall V h b p, keys (s_handlers (m_headers V)) = fields_seen headers -> pairs (classes cs) isolation_vars (fst (eval_item f (mkCx e V rel) h b p)) = first ++ pairs (classes cs) isolation_vars (fst (ev_cop tab bad ro rot b)).
  Hypothesis Hpo : forall c h, post_of f c h = pc_cop missing ro c h.
  Hypothesis Hn : forall n, In n (map snd names) -> classes cs n = true.
  Hypothesis Hb : classes cs bad = true.
  Hypothesis Hm : classes cs missing = true.
  Hypothesis Htab : tab = map (fun x => (u (fst x), snd x)) names.
  Lemma isolated_kind g : isolated g = true -> kind_of g = KSF SFItem. Proof. destruct g; intros H; try discriminate H; reflexivity. Qed.
  Lemma cop_run : exists due post,
    (forall s, item_says e (fun b _ l => exists l2, l = first ++ l2 /\ policy_value_due names bad (u ro) (u rot) b l2) s (due s))
    /\ (forall s, item_says e (fun _ => report_to_due missing (u ro) e headers) s (post s))
    /\ heard (classes cs) isolation_vars (about k (m_notes m')) = sf_told k due headers ++ sf_told k due trailers ++ sf_told k post headers ++ sf_told k post trailers.
  Proof.
    exists (fun s => match e_sf_item e s with SFOk bp _ => first ++ pairs (classes cs) isolation_vars (fst (ev_cop tab bad ro rot (fst bp))) | _ => [] end), (fun s => post_pairs (classes cs) f e m' rel' isolation_vars (sf_value e SFItem f s)).
    split; [|split].
    - intros s. unfold item_says. destruct (e_sf_item e s) as [[b p] d| |]; try reflexivity. eexists. split; [reflexivity|]. apply value_rule; assumption.
    - intros s. unfold item_says, sf_value. destruct (e_sf_item e s) as [[b p] d| |]; try reflexivity. cbn [fst snd]. unfold post_pairs. rewrite Hpo. apply (report_rule cs missing ro e rel top headers chunks complete trailers t start nc head base m' rel' f b p E Ht Hu Hm).
    - apply andb_prop in Ho as [Ho1 O3]. apply andb_prop in Ho1 as [O1 O2].
      apply (group_run cs G f k isolation_vars SFItem e rel top headers chunks complete trailers t start nc head base m' rel' _ E); try assumption.
      + rewrite O1, O2, O3. reflexivity.
      + eapply Forall_impl; [|exact Hg]. intros g Hgg. exists SFItem. apply isolated_kind, Hgg.
      + eapply Forall_impl; [|exact Hg]. apply plain_isolated.
      + apply isolated_kind, Hf.
      + intros V h s _ Kv. unfold sf_events. destruct (e_sf_item e s) as [[b p] d| |]; [|split; [constructor|reflexivity]..]. cbn [fst snd]. split; [apply (plain_isolated f Hf)|]. apply Hev, Kv.
      + intros c h. rewrite !Hpo. reflexivity.
  Qed.
End Cop.
Ltac all_in := intros n Hn; repeat (destruct Hn as [<-|Hn]; [reflexivity|]); destruct Hn.
Ltac isos := first [assumption | its_type | (repeat constructor; fail) | reflexivity | solve [all_in] | (intros; reflexivity) ].
Lemma plain_rule e R s l : item_says e (fun b _ l => exists l2, l = [] ++ l2 /\ R b l2) s l -> item_says e (fun b _ => R b) s l.
Proof. unfold item_says. destruct (e_sf_item e s); try auto. intros (l2 & -> & H). exact H. Qed.
Theorem C57_embedder : forall e rel top headers chunks complete trailers t start nc head base m' rel',
  lint e rel top headers chunks complete trailers (new_linter t start nc head base) = (m', rel', Ok tt) -> t <> MRequest ->
  hyphened (u "cross-origin-embedder-policy") headers -> hyphened (u "cross-origin-embedder-policy") trailers -> unpadded (u "reporting-endpoints") headers ->
  exists due post, (forall s, item_says e (fun b _ => policy_value_due embedder_names CROSS_ORIGIN_EMBEDDER_POLICY_BAD_VALUE [] [] b) s (due s))
    /\ (forall s, item_says e (fun _ => report_to_due COEP_REPORT_TO_MISSING [] e headers) s (post s))
    /\ heard (classes embedder_classes) isolation_vars (about "cross-origin-embedder-policy" (m_notes m')) =
       sf_told "cross-origin-embedder-policy" due headers ++ sf_told "cross-origin-embedder-policy" due trailers ++ sf_told "cross-origin-embedder-policy" post headers ++ sf_told "cross-origin-embedder-policy" post trailers.
Proof.
  intros e rel top headers chunks complete trailers t start nc head base m' rel' E Ht H1 H2 Hu.
  destruct (cop_run embedder_classes [F_cross_origin_embedder_policy; F_cross_origin_embedder_policy_report_only] F_cross_origin_embedder_policy "cross-origin-embedder-policy" embedder_names coep_tab CROSS_ORIGIN_EMBEDDER_POLICY_BAD_VALUE COEP_REPORT_TO_MISSING "" ""
    e rel top headers chunks complete trailers t start nc head base m' rel' E Ht) with (first := @nil (nid * list (option pyval))) as (due & post & A & B & C); try isos.
  - intros V h b p _. cbn [eval_item]. rewrite keep_fst. reflexivity.
  - exists due, post. split; [|split; [exact B|exact C]]. intros s. apply plain_rule, A.
Qed.
Theorem C57_opener : forall e rel top headers chunks complete trailers t start nc head base m' rel',
  lint e rel top headers chunks complete trailers (new_linter t start nc head base) = (m', rel', Ok tt) -> t <> MRequest ->
  hyphened (u "cross-origin-opener-policy") headers -> hyphened (u "cross-origin-opener-policy") trailers -> unpadded (u "reporting-endpoints") headers ->
  exists due post, (forall s, item_says e (fun b _ => policy_value_due opener_names CROSS_ORIGIN_OPENER_POLICY_BAD_VALUE [] [] b) s (due s))
    /\ (forall s, item_says e (fun _ => report_to_due COOP_REPORT_TO_MISSING [] e headers) s (post s))
    /\ heard (classes opener_classes) isolation_vars (about "cross-origin-opener-policy" (m_notes m')) =
       sf_told "cross-origin-opener-policy" due headers ++ sf_told "cross-origin-opener-policy" due trailers ++ sf_told "cross-origin-opener-policy" post headers ++ sf_told "cross-origin-opener-policy" post trailers.
Proof.
  intros e rel top headers chunks complete trailers t start nc head base m' rel' E Ht H1 H2 Hu.
  destruct (cop_run opener_classes [F_cross_origin_opener_policy; F_cross_origin_opener_policy_report_only] F_cross_origin_opener_policy "cross-origin-opener-policy" opener_names coop_tab CROSS_ORIGIN_OPENER_POLICY_BAD_VALUE COOP_REPORT_TO_MISSING "" ""
    e rel top headers chunks complete trailers t start nc head base m' rel' E Ht) with (first := @nil (nid * list (option pyval))) as (due & post & A & B & C); try isos.
  - intros V h b p _. cbn [eval_item]. rewrite keep_fst. reflexivity.
  - exists due, post. split; [|split; [exact B|exact C]]. intros s. apply plain_rule, A.
Qed.
(** The report-only forms *)
Lemma handler_values V headers (k : string) e rel : keys (s_handlers (m_headers V)) = fields_seen headers -> has_handler (mkCx e V rel) k = nonempty (values (u k) headers).
Proof.
  intros H. unfold has_handler. cbn [cx_msg]. rewrite <- seen_values, <- H. unfold dmem. apply Bool.eq_iff_eq_true. rewrite str_in_In, <- dget_Some_in.
  destruct (dget (u k) (s_handlers (m_headers V))) as [x|]; split; eauto; try discriminate. intros [v Hv]. discriminate.
Qed.
Lemma also_rule e other dup headers R s l : item_says e (fun b _ l => exists l2, l = told_once (nonempty (values (u other) headers)) dup [None; None; None; None] ++ l2 /\ R b l2) s l -> item_says e (fun b _ => also_due other dup headers R b) s l.
Proof.
  unfold item_says. destruct (e_sf_item e s); try auto. intros (l2 & -> & H). eexists _, l2. split; [reflexivity|]. split; [|exact H]. destruct (values (u other) headers); cbn [nonempty]; split; congruence.
Qed.
Lemma when_then cs ks (b : bool) n (w : W unit) : classes cs n = true -> pairs (classes cs) ks (fst (when b (add_note n []) ;;; w)) = told_once b n (map (fun _ => None) ks) ++ pairs (classes cs) ks (fst w).
Proof.
  intros H. destruct b; cbn [when].
  - rewrite pairs_bind by reflexivity. cbn [add_note tell fst pairs flat_map pair_of app]. rewrite H. reflexivity.
  - unfold bind, ret. destruct w as [lw rw]. reflexivity.
Qed.
Theorem C57_embedder_report_only : forall e rel top headers chunks complete trailers t start nc head base m' rel',
  lint e rel top headers chunks complete trailers (new_linter t start nc head base) = (m', rel', Ok tt) -> t <> MRequest ->
  hyphened (u "cross-origin-embedder-policy-report-only") headers -> hyphened (u "cross-origin-embedder-policy-report-only") trailers -> unpadded (u "reporting-endpoints") headers ->
  exists due post,
    (forall s, item_says e (fun b _ => also_due "cross-origin-embedder-policy" COEP_REPORT_ONLY_DUPLICATE headers (policy_value_due embedder_names CROSS_ORIGIN_EMBEDDER_POLICY_BAD_VALUE only_short only_long) b) s (due s))
    /\ (forall s, item_says e (fun _ => report_to_due COEP_REPORT_TO_MISSING only_short e headers) s (post s))
    /\ heard (classes embedder_classes) isolation_vars (about "cross-origin-embedder-policy-report-only" (m_notes m')) =
       sf_told "cross-origin-embedder-policy-report-only" due headers ++ sf_told "cross-origin-embedder-policy-report-only" due trailers
       ++ sf_told "cross-origin-embedder-policy-report-only" post headers ++ sf_told "cross-origin-embedder-policy-report-only" post trailers.
Proof.
  intros e rel top headers chunks complete trailers t start nc head base m' rel' E Ht H1 H2 Hu.
  destruct (cop_run embedder_classes [F_cross_origin_embedder_policy; F_cross_origin_embedder_policy_report_only] F_cross_origin_embedder_policy_report_only "cross-origin-embedder-policy-report-only" embedder_names coep_tab CROSS_ORIGIN_EMBEDDER_POLICY_BAD_VALUE COEP_REPORT_TO_MISSING cop_ro ro_text
    e rel top headers chunks complete trailers t start nc head base m' rel' E Ht) with (first := told_once (nonempty (values (u "cross-origin-embedder-policy") headers)) COEP_REPORT_ONLY_DUPLICATE [None; None; None; None]) as (due & post & A & B & C); try isos.
  - intros V h b p Kv. cbn [eval_item]. rewrite keep_fst. unfold ev_coep_ro. rewrite when_then by reflexivity. rewrite (handler_values V headers _ e rel Kv). reflexivity.
  - exists due, post. split; [|split; [exact B|exact C]]. intros s. apply also_rule, A.
Qed.
Theorem C57_opener_report_only : forall e rel top headers chunks complete trailers t start nc head base m' rel',
  lint e rel top headers chunks complete trailers (new_linter t start nc head base) = (m', rel', Ok tt) -> t <> MRequest ->
  hyphened (u "cross-origin-opener-policy-report-only") headers -> hyphened (u "cross-origin-opener-policy-report-only") trailers -> unpadded (u "reporting-endpoints") headers ->
  exists due post,
    (forall s, item_says e (fun b _ => also_due "cross-origin-opener-policy" COOP_REPORT_ONLY_DUPLICATE headers (policy_value_due opener_names CROSS_ORIGIN_OPENER_POLICY_BAD_VALUE only_short only_long) b) s (due s))
    /\ (forall s, item_says e (fun _ => report_to_due COOP_REPORT_TO_MISSING only_short e headers) s (post s))
    /\ heard (classes opener_classes) isolation_vars (about "cross-origin-opener-policy-report-only" (m_notes m')) =
       sf_told "cross-origin-opener-policy-report-only" due headers ++ sf_told "cross-origin-opener-policy-report-only" due trailers
       ++ sf_told "cross-origin-opener-policy-report-only" post headers ++ sf_told "cross-origin-opener-policy-report-only" post trailers.
Proof.
  intros e rel top headers chunks complete trailers t start nc head base m' rel' E Ht H1 H2 Hu.
  destruct (cop_run opener_classes [F_cross_origin_opener_policy; F_cross_origin_opener_policy_report_only] F_cross_origin_opener_policy_report_only "cross-origin-opener-policy-report-only" opener_names coop_tab CROSS_ORIGIN_OPENER_POLICY_BAD_VALUE COOP_REPORT_TO_MISSING cop_ro ro_text
    e rel top headers chunks complete trailers t start nc head base m' rel' E Ht) with (first := told_once (nonempty (values (u "cross-origin-opener-policy") headers)) COOP_REPORT_ONLY_DUPLICATE [None; None; None; None]) as (due & post & A & B & C); try isos.
  - intros V h b p Kv. cbn [eval_item]. rewrite keep_fst. unfold ev_coop_ro. rewrite when_then by reflexivity. rewrite (handler_values V headers _ e rel Kv). reflexivity.
  - exists due, post. split; [|split; [exact B|exact C]]. intros s. apply also_rule, A.
Qed.
(** ** There are no other notes of these classes *)
Lemma group_only cs G e rel top headers chunks complete trailers t start nc head base m' rel' f k :
  lint e rel top headers chunks complete trailers (new_linter t start nc head base) = (m', rel', Ok tt) ->
  group_b cs G f k && forallb (fun g => match fa_canon (attrs g) with Some _ => true | None => false end) G = true -> Forall (fun g => exists ty, kind_of g = KSF ty) G -> Forall plain_eval G ->
  forall n, In n (m_notes m') -> classes cs (n_cls n) = true -> In (n_subj n) (map subj_of G).
Proof.
  intros E Ho Hkd Hpl n Hn Hc. apply andb_prop in Ho as [Ho Hcn]. apply group_b_ok in Ho as (A1 & A2 & A3 & A4 & A5 & A6 & A7).
  assert (HS : Forall (silent (classes cs)) G) by (eapply Forall_impl; [|exact Hkd]; intros g (tg & K); apply (silent_sf _ g tg K)).
  assert (HT : Forall settled G).
  { rewrite Forall_forall in *. intros g Hg. apply settled_quick; [|apply Hpl, Hg]. destruct (Hkd g Hg) as (tg & K). unfold quick. rewrite K. reflexivity. }
  destruct (group_subjects (classes cs) G e rel top headers chunks complete trailers t start nc head base m' rel' E A1 A2 HS HT A4 A3 n Hn Hc) as (x & Hx & ->).
  apply in_map_iff. exists (find_class x). split; [|exact Hx]. rewrite forallb_forall in Hcn. specialize (Hcn _ Hx). unfold subj_of, about_field. destruct (fa_canon (attrs (find_class x))); [reflexivity|discriminate].
Qed.
Theorem C57_subjects : forall e rel top headers chunks complete trailers t start nc head base m' rel',
  lint e rel top headers chunks complete trailers (new_linter t start nc head base) = (m', rel', Ok tt) ->
  forall n, In n (m_notes m') ->
    (classes embedder_classes (n_cls n) = true -> In (n_subj n) [u "field-cross-origin-embedder-policy"; u "field-cross-origin-embedder-policy-report-only"])
    /\ (classes opener_classes (n_cls n) = true -> In (n_subj n) [u "field-cross-origin-opener-policy"; u "field-cross-origin-opener-policy-report-only"]).
Proof.
  intros e rel top headers chunks complete trailers t start nc head base m' rel' E n Hn. split; intros Hc.
  - apply (group_only embedder_classes [F_cross_origin_embedder_policy; F_cross_origin_embedder_policy_report_only] _ _ _ _ _ _ _ _ _ _ _ _ _ _ F_cross_origin_embedder_policy (u "cross-origin-embedder-policy") E); auto;
      repeat constructor; try (eexists; reflexivity); apply plain_isolated; reflexivity.
  - apply (group_only opener_classes [F_cross_origin_opener_policy; F_cross_origin_opener_policy_report_only] _ _ _ _ _ _ _ _ _ _ _ _ _ _ F_cross_origin_opener_policy (u "cross-origin-opener-policy") E); auto;
      repeat constructor; try (eexists; reflexivity); apply plain_isolated; reflexivity.
Qed.
(** ** Example *)
Definition iso_env : env :=
  mkEnv (look [("require-corp; report-to=""a"""%string, (BTok (u "require-corp"), [(u "report-to", BStr (u "a"))])); ("foo; report-to=b"%string, (BTok (u "foo"), [(u "report-to", BTok (u "b"))]));
               ("same-origin"%string, (BTok (u "same-origin"), []))])
        (look []) (look [("a=""/r"""%string, [(u "a", MItem (BStr (u "/r")) [])])]) (e_json env0) (e_urlsplit env0) (fun _ b => Ok b) (e_quote env0) (e_unquote env0)
        (e_unsplit env0) (e_idna env0) (e_utf8 env0) (e_codec env0) (e_decode env0) (e_chardet env0) (e_sniff env0) (e_rank env0)
        (e_b64 env0) (e_md5 env0) (e_float_str env0) (e_reltime env0) (e_repr env0) (e_display env0)
        (e_inflate env0) (e_brotli env0).
Definition iso_lines : list rawline := raws [("Cross-Origin-Embedder-Policy", "require-corp; report-to=""a"""); ("Cross-Origin-Embedder-Policy-Report-Only", "foo; report-to=b"); ("Reporting-Endpoints", "a=""/r"""); ("Cross-Origin-Opener-Policy", "same-origin")]%string.
Example C57_ex : let '(m, _, r) := lint iso_env None (TopResponse (u "1.1") (u "200") None) iso_lines [] true [] (new_linter MResponse None false false []) in
  r = Ok tt /\ map (fun n => (n_cls n, n_subj n)) (filter (fun n => classes (embedder_classes ++ opener_classes) (n_cls n)) (m_notes m)) =
    [(COEP_REQUIRE_CORP, u "field-cross-origin-embedder-policy"); (COEP_REPORT_ONLY_DUPLICATE, u "field-cross-origin-embedder-policy-report-only");
     (CROSS_ORIGIN_EMBEDDER_POLICY_BAD_VALUE, u "field-cross-origin-embedder-policy-report-only"); (COOP_SAME_ORIGIN, u "field-cross-origin-opener-policy"); (COEP_REPORT_TO_MISSING, u "field-cross-origin-embedder-policy-report-only")].
Proof. vm_compute. repeat split. Qed.
Example C57_ex_hyps : hyphened (u "cross-origin-embedder-policy") iso_lines /\ unpadded (u "reporting-endpoints") iso_lines.
Proof. split; [|split]; try reflexivity; repeat constructor; vm_compute; intros H; try discriminate H; reflexivity. Qed.
