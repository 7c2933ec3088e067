(** * Every API call: the notes it adds, when it raises. *)
From Verif Require Import PyStr Regex Grammar Note PyLib Utils FieldAttrs Types Fields1 Fields2 Fields3 Framework Checks Message Session
  Spans EvLogic NoteLemmas ContentLemmas LexLemmas ParamLemmas NumLemmas NameLemmas FrameLemmas BodyLemmas PassParse PassEval PassSF PassFrame PassSec PassProc PassMsg.
Open Scope N_scope.

(** An event that is not about a field handler, of a class in [F]. *)
Definition ev_subj (s : sev) : str := match s with (_, _, EMsg sj _ _) => sj | (sj, _, _) => sj end.
Definition mse (F : nid -> bool) (s : sev) : Prop :=
  let '(_, base, e) := s in
  base = [] /\ exists n vrs, ((exists sj, e = EMsg sj n vrs) \/ e = ENote n None vrs [])
                             /\ F n = true /\ note_ok n base_msg vrs /\ offless (ev_subj s).
Definition in_file (f : string) (n : nid) : bool := String.eqb (nid_file n) f.
Definition among (l : list nid) (n : nid) : bool := existsb (nid_eqb n) l.
Lemma among_In l n : among l n = true <-> In n l.
Proof.
  unfold among. rewrite existsb_exists. split.
  - intros (x & Hin & E). apply nid_eqb_eq in E. subst. exact Hin.
  - intros H. exists n. split; [exact H|apply nid_eqb_refl].
Qed.
Definition mnoted (F : nid -> bool) (m m' : mstate) : Prop :=
  exists evs, m_notes m' = emit (m_type m) (m_notes m) evs /\ Forall (mse F) evs.
Lemma mse_gsev F s : mse F s -> gsev s.
Proof.
  destruct s as [[sj base] e]. intros (-> & n & vrs & [[s2 ->]| ->] & _ & H & _).
  - split; [split; [constructor|intros ? []]|exact H].
  - split; [split; [constructor|intros ? []]|]. split; [|split; [left; reflexivity|constructor]]. apply (note_ok_incl _ base_msg); [|exact H]. intros k Hk. apply in_app_iff. auto.
Qed.
Lemma mse_sub (F F' : nid -> bool) s : (forall n, F n = true -> F' n = true) -> mse F s -> mse F' s.
Proof. intros Hi. destruct s as [[sj base] e]. intros (Hb & n & vrs & H1 & H2 & H3). split; [exact Hb|]. exists n, vrs. auto. Qed.
Lemma mse_not (P F : nid -> bool) s : (forall n, F n = true -> P n = false) -> mse F s -> not_cls P s.
Proof.
  intros HP. destruct s as [[sj base] e]. intros (Hb & n & vrs & H1 & H2 & H3). unfold not_cls. cbn [snd].
  destruct H1 as [[s2 ->]| ->]; cbn [ev_cls]; constructor; auto.
Qed.
Lemma mnoted_refl F m : mnoted F m m. Proof. exists []. split; [reflexivity|constructor]. Qed.
Lemma mnoted_trans F a b c : m_type b = m_type a -> mnoted F a b -> mnoted F b c -> mnoted F a c.
Proof.
  intros Ht (l1 & E1 & H1) (l2 & E2 & H2). exists (l1 ++ l2). rewrite emit_app, <- E1, <- Ht. split; [exact E2|apply Forall_app; auto].
Qed.
Lemma mnoted_sub (F F' : nid -> bool) a b : (forall n, F n = true -> F' n = true) -> mnoted F a b -> mnoted F' a b.
Proof. intros Hi (l & E & H). exists l. split; [exact E|]. eapply Forall_impl; [|exact H]. intros s. apply mse_sub, Hi. Qed.
Lemma mnoted_emit F m l : Forall (mse F) l -> mnoted F m (m_emit l m).
Proof. intros H. exists l. split; [apply notes_emit|exact H]. Qed.
Lemma mnoted_note (F : nid -> bool) sj n vrs m : F n = true -> note_ok n base_msg vrs -> offless (u sj) -> mnoted F m (note_msg sj n vrs m).
Proof.
  intros HF Hn Ho. apply mnoted_emit. constructor; [|constructor]. split; [reflexivity|]. exists n, vrs. auto.
Qed.
Lemma tag_mse file l : Forall (mev file) l -> Forall (mse (in_file file)) (tag [] [] l).
Proof.
  intros H. unfold tag. apply Forall_map. eapply Forall_impl; [|exact H]. intros e He.
  destruct e as [n cat vrs kids|sj n vrs|n c vrs|v|p n vrs]; try destruct He. split; [reflexivity|]. exists n, vrs.
  split; [left; eexists; reflexivity|]. split; [|assumption]. unfold in_file. apply String.eqb_eq. assumption.
Qed.
Lemma mnoted_run {A} file (w : W A) m : Forall (mev file) (fst w) -> mnoted (in_file file) m (fst (run_check w m)).
Proof. intros H. apply mnoted_emit, tag_mse, H. Qed.
Lemma mnoted_same_notes F a b c : m_notes b = m_notes c -> mnoted F a b -> mnoted F a c.
Proof. intros E (l & H). exists l. rewrite <- E. exact H. Qed.

(** ** What adding such events leaves *)
Lemma noted_fine m m' : noted m m' -> Forall note_fine (m_notes m) -> Forall note_fine (m_notes m').
Proof. intros (l & -> & H). apply emit_good. eapply Forall_impl; [apply fsev_gsev|exact H]. Qed.
Lemma mnoted_fine F m m' : mnoted F m m' -> Forall note_fine (m_notes m) -> Forall note_fine (m_notes m').
Proof. intros (l & -> & H). apply emit_good. eapply Forall_impl; [apply mse_gsev|exact H]. Qed.
Lemma noted_sel P m m' : off_field P -> noted m m' -> sel P (m_notes m') = sel P (m_notes m).
Proof. intros HP (l & -> & H). apply emit_sel, fsev_not; auto. Qed.
Lemma mnoted_sel (P F : nid -> bool) m m' : (forall n, F n = true -> P n = false) -> mnoted F m m' -> sel P (m_notes m') = sel P (m_notes m).
Proof. intros HP (l & -> & H). apply emit_sel. eapply Forall_impl; [|exact H]. intros s. apply mse_not, HP. Qed.

(** ** Decoding *)
Definition dec_file := "content_encoding.py"%string.
Definition snote_ok (n : snote) : Prop := nid_file (fst n) = dec_file /\ note_ok (fst n) base_msg (snd n).
Lemma iter_until_inv {S R} (P : R -> Prop) (f : S -> S + R) : (forall s r, f s = inr r -> P r) ->
  forall p s r, iter_until p f s = inr r -> P r.
Proof.
  intros Hf. induction p as [p IH|p IH|]; intros s r; cbn [iter_until].
  - destruct (f s) as [s1|r1] eqn:E; [|intros H; injection H as <-; apply (Hf _ _ E)].
    destruct (iter_until p f s1) as [s2|r2] eqn:E2; [apply IH|]. intros H; injection H as <-. apply (IH _ _ E2).
  - destruct (iter_until p f s) as [s2|r2] eqn:E2; [apply IH|]. intros H; injection H as <-. apply (IH _ _ E2).
  - apply Hf.
Qed.
Ltac sn := apply Forall_cons; [split; [reflexivity|cbn [fst snd]; msg_note]|apply Forall_nil].
Lemma gzip_step_notes e clen chunk s r : gzip_step e clen chunk s = inr r -> Forall snote_ok (snd r).
Proof.
  destruct s as [[[[hist total] outs] input] first]. unfold gzip_step.
  destruct (e_inflate e hist input) as [[out tail]|err]; [|intros H; injection H as <-; sn].
  destruct out as [|c out].
  - destruct (first && nonempty tail); [discriminate|]. intros H; injection H as <-. constructor.
  - cbv zeta. destruct (max_decompressed <? _); [intros H; injection H as <-; sn|].
    destruct (nonempty tail); [discriminate|]. intros H; injection H as <-. constructor.
Qed.
Lemma gzip_loop_notes e clen hist total chunk : Forall snote_ok (snd (gzip_loop e clen hist total chunk)).
Proof.
  unfold gzip_loop. destruct (iter_until _ _ _) as [[[[[a b] c] d] f]|r] eqn:E; [constructor|].
  apply (iter_until_inv (fun r => Forall snote_ok (snd r)) _ (gzip_step_notes e clen chunk) _ _ _ E).
Qed.
Lemma stage_feed_notes e clen s c : Forall snote_ok (snd (fst (stage_feed e clen s c))).
Proof.
  assert (R : forall hist total chunk,
    Forall snote_ok (snd (fst (let '(hist, total, outs, ok, ns) := gzip_loop e clen hist total chunk in
                               (outs, ns, Gzip hist true [] total ok))))).
  { intros. pose proof (gzip_loop_notes e clen hist total chunk) as H. destruct (gzip_loop _ _ _ _ _) as [[[[a b] c0] d] ns]. exact H. }
  destruct s as [hist ig buf total ok|hist total ok]; cbn [stage_feed]; (destruct (negb ok); [constructor|]).
  - destruct ig; [apply R|]. destruct (gzip_header _); [constructor|sn|apply R].
  - destruct (e_brotli e hist c) as [[|x out]|err]; [constructor| |sn]. destruct (max_decompressed <? _); [sn|constructor].
Qed.
Lemma stage_feeds_notes e clen cs : forall s, Forall snote_ok (snd (fst (stage_feeds e clen s cs))).
Proof.
  induction cs as [|c cs IH]; intros s; [constructor|]. cbn [stage_feeds]. pose proof (stage_feed_notes e clen s c) as H.
  destruct (stage_feed e clen s c) as [[o1 n1] s1]. specialize (IH s1). destruct (stage_feeds e clen s1 cs) as [[o2 n2] s2].
  apply Forall_app. auto.
Qed.
Lemma pipe_feed_notes e clen st : forall cs, Forall snote_ok (snd (fst (pipe_feed e clen st cs))).
Proof.
  induction st as [|s st IH]; intros cs; [constructor|]. cbn [pipe_feed]. pose proof (stage_feeds_notes e clen cs s) as H.
  destruct (stage_feeds e clen s cs) as [[o1 n1] s1]. specialize (IH o1). destruct (pipe_feed e clen st o1) as [[o2 n2] s2].
  apply Forall_app. auto.
Qed.
Lemma sinks_notes outs : forall m, m_notes (fold_left (fun m o => sink o m) outs m) = m_notes m
  /\ m_type (fold_left (fun m o => sink o m) outs m) = m_type m.
Proof. induction outs as [|o outs IH]; intros m; cbn [fold_left]; [auto|]. destruct (IH (sink o m)) as [-> ->]. auto. Qed.
Lemma ce_mse ns : Forall snote_ok ns -> Forall (mse (in_file dec_file)) (ce_events ns).
Proof.
  intros H. unfold ce_events. apply Forall_map. eapply Forall_impl; [|exact H]. intros [n vrs] [H1 H2].
  split; [reflexivity|]. exists n, vrs. split; [right; reflexivity|]. split; [apply String.eqb_eq, H1|]. split; [exact H2|reflexivity].
Qed.
Lemma feed_pass e c m :
  let '(m', r) := feed_content e c m in
  mnoted (in_file dec_file) m m' /\ match r with Ok _ => True | Err _ => m_pipeline m = None /\ ~ typed m end.
Proof.
  unfold feed_content, decode_content. cbv zeta. destruct (m_no_content m).
  { split; [|exact I]. exists []. split; [reflexivity|constructor]. }
  set (m1 := m_set_hashed _ _).
  assert (R : forall st, let '(m', r) := (let '(outs, ns, st') := pipe_feed e (m_clen m1) st [c] in
      (m_emit (ce_events ns) (m_set_pipeline (Some st') (fold_left (fun m o => sink o m) outs m1)), Ok tt)) in
      mnoted (in_file dec_file) m m' /\ match r with Ok _ => True | Err _ => m_pipeline m = None /\ ~ typed m end).
  { intros st. pose proof (pipe_feed_notes e (m_clen m1) st [c]) as H. destruct (pipe_feed _ _ _ _) as [[outs ns] st'].
    split; [|exact I]. destruct (sinks_notes outs m1) as [E1 E2].
    exists (ce_events ns). split; [|apply ce_mse, H]. rewrite notes_emit. cbn [m_notes m_type m_set_pipeline]. rewrite E1, E2. reflexivity. }
  destruct (m_pipeline m1) as [st|] eqn:Ep; [apply R|].
  destruct (build_pipeline m1) as [st|x] eqn:Eb; [apply R|].
  split; [exists []; split; [reflexivity|constructor]|]. split; [exact Ep|]. intros Hty.
  unfold build_pipeline, get_or in Eb. destruct (m_get m1 "content-encoding") as [v|] eqn:Ev; [|discriminate].
  specialize (Hty _ _ Ev). change (find_class (u "content-encoding")) with F_content_encoding in Hty.
  destruct Hty as [[Hw _]|(l & -> & _)]; [|discriminate]. destruct (m_type m); discriminate.
Qed.

(** ** Top lines *)
Lemma mn_type F a b : mnoted F a b -> notes_only a b -> m_type b = m_type a.
Proof. intros _ ->. reflexivity. Qed.
Definition top_classes : list nid := [URI_BAD_SYNTAX; URI_TOO_LONG; STATUS_CODE_NON_NUMERIC; STATUS_PHRASE_ENCODING].
Ltac mnote := apply mnoted_note; [reflexivity|msg_note|reflexivity].
Definition uri_calm (e : env) : Prop :=
  (forall s x, e_urlsplit e s = Err x -> is_ValueError x = true) /\ (forall s x, e_idna e s = Err x -> is_ValueError x = true).
Lemma set_uri_pass e iri m :
  let '(m', r) := set_uri e iri m in mnoted (among top_classes) m m' /\ match r with Ok _ => True | Err _ => ~ uri_calm e end.
Proof.
  unfold set_uri. destruct (iri_to_uri e iri) as [uri|x] eqn:E.
  - cbv zeta. split; [|exact I]. set (m0 := m_set_iri _ m). assert (N0 : mnoted (among top_classes) m m0) by (exists []; split; [reflexivity|constructor]).
    set (m1 := if match_ws_dollar _ _ then _ else _).
    assert (N1 : mnoted (among top_classes) m m1 /\ m_type m1 = m_type m).
    { unfold m1. destruct (match_ws_dollar _ _); [auto|]. split; [|reflexivity].
      apply (mnoted_trans _ m m0); [reflexivity|exact N0|mnote]. }
    set (m2 := m_set_uri _ m1). assert (N2 : mnoted (among top_classes) m m2) by apply N1.
    destruct (Nat.ltb _ _); [|exact N2]. apply (mnoted_trans _ m m2); [apply N1|exact N2|mnote].
  - destruct (is_ValueError x) eqn:Ex.
    + split; [|exact I]. apply (mnoted_trans _ m (m_set_iri (Some iri) m)); [reflexivity|exists []; split; [reflexivity|constructor]|mnote].
    + split; [exists []; split; [reflexivity|constructor]|]. intros [H1 H2]. unfold iri_to_uri in E.
      destruct (e_urlsplit e iri) as [p|x'] eqn:E1; cbn [rbind] in E; [|injection E as ->; rewrite (H1 _ _ E1) in Ex; discriminate].
      destruct (split1 58 (u_netloc p)) as [[host port]|].
      * destruct (e_idna e host) eqn:E2; cbn [rmap rbind] in E; [discriminate|]. injection E as ->. rewrite (H2 _ _ E2) in Ex. discriminate.
      * destruct (e_idna e (u_netloc p)) eqn:E2; cbn [rmap rbind] in E; [discriminate|]. injection E as ->. rewrite (H2 _ _ E2) in Ex. discriminate.
Qed.
Lemma request_topline_pass e a b c m :
  let '(m', r) := process_request_topline e a b c m in mnoted (among top_classes) m m' /\ match r with Ok _ => True | Err _ => ~ uri_calm e end.
Proof.
  unfold process_request_topline. pose proof (set_uri_pass e (e_utf8 e b) (m_set_method (Some (decode_ascii_replace a)) m)) as H.
  destruct (set_uri _ _ _) as [m1 [x|x]]; destruct H as [H1 H2]; (split; [|exact H2]); exact H1.
Qed.
Lemma response_topline_pass a b c m : mnoted (among top_classes) m (process_response_topline a b c m).
Proof.
  unfold process_response_topline. cbv zeta. set (m0 := m_set_status_str _ _).
  assert (N0 : mnoted (among top_classes) m m0) by (exists []; split; [reflexivity|constructor]).
  set (m1 := match py_int _ with Some z => _ | None => _ end).
  assert (N1 : mnoted (among top_classes) m m1 /\ m_type m1 = m_type m).
  { unfold m1. destruct (py_int _); (split; [|reflexivity]); [exact N0|]. apply (mnoted_trans _ m m0); [reflexivity|exact N0|mnote]. }
  destruct c as [[|x c]|]; try apply N1. destruct (decode_ascii_strict _); [apply N1|].
  set (m2 := m_set_phrase _ m1). apply (mnoted_trans _ m m2); [apply N1|apply N1|mnote].
Qed.

(** ** The checks at the end *)
Definition cna (t : mtype) (n : note) : Prop := n = mk_note t (u "message") CONTENT_NOT_ALLOWED None [] [].
Lemma content_length_pass m :
  let m' := check_content_length m in
  mnoted (among [CL_CORRECT; CL_INCORRECT]) m m' \/ (exists n, n_cls n = CONTENT_NOT_ALLOWED /\ keys (n_vars n) = [k_message_type] /\ m_notes m' = m_notes m ++ [n]).
Proof.
  cbv zeta. unfold check_content_length. destruct (can_have_content m).
  - left. destruct (m_get m _) as [v|]; [|apply mnoted_refl]. destruct (m_no_content m); [apply mnoted_refl|].
    match goal with |- context [if ?b then _ else _] => destruct b end; mnote.
  - destruct (_ && _); [|left; apply mnoted_refl]. right. eexists. split; [|split; [|reflexivity]]; reflexivity.
Qed.
Lemma content_length_fine m : Forall note_fine (m_notes m) -> Forall note_fine (m_notes (check_content_length m)).
Proof.
  intros H. destruct (content_length_pass m) as [N|(n & E & E2 & ->)]; [apply (mnoted_fine _ _ _ N H)|].
  apply Forall_app. split; [exact H|]. constructor; [left; auto|constructor].
Qed.
(** Classes of field/cors.py that only the whole-message checks report. *)
Definition preflight_classes : list nid :=
  [CORS_PREFLIGHT_REQUEST; CORS_PREFLIGHT_REQ_METHOD_WRONG; CORS_PREFLIGHT_REQ_NO_ORIGIN; CORS_PREFLIGHT_REQ_NO_METHOD;
   CORS_PREFLIGHT_RESPONSE; CORS_PREFLIGHT_ONLY; ACAO_MULTIPLE_VALUES].
Definition pre_ev (e : ev) : Prop := match e with EMsg _ c _ => In c preflight_classes | _ => False end.
Lemma preflight_request_classes m : Forall pre_ev (fst (check_preflight_request m)).
Proof.
  assert (W : wp pre_ev (fun _ => True) (fun _ => True) (check_preflight_request m)); [|apply W].
  unfold check_preflight_request, msg, when. cbv zeta.
  repeat first [apply wp_ret; exact I|apply wp_tell; [constructor; [cbn; tauto|constructor]|exact I]|apply wp_seq|match goal with |- context [if ?b then _ else _] => destruct b end].
Qed.
Lemma preflight_response_classes m rel : Forall pre_ev (fst (check_preflight_response m rel)).
Proof.
  assert (W : wp pre_ev (fun _ => True) (fun _ => True) (check_preflight_response m rel)); [|apply W].
  unfold check_preflight_response, msg, when. apply wp_seq.
  - destruct (match rel with Some r => is_preflight r | None => false end); [apply wp_tell; [constructor; [cbn; tauto|constructor]|exact I]|].
    apply (wp_bind_lift _ _ (fun _ => True)); [destruct (mapR _ _); exact I|]. intros. destruct (nonempty _); [apply wp_tell; [constructor; [cbn; tauto|constructor]|exact I]|apply wp_ret; exact I].
  - destruct (m_get m _) as [[]|]; try (apply wp_ret; exact I). destruct (_ || _); [|apply wp_ret; exact I].
    apply wp_tell; [constructor; [cbn; tauto|constructor]|exact I].
Qed.
Lemma mnoted_pre {A} (w : W A) m : Forall (mev "field/cors.py") (fst w) -> Forall pre_ev (fst w) -> mnoted (among preflight_classes) m (fst (run_check w m)).
Proof.
  intros H G. apply mnoted_emit. unfold tag. apply Forall_map. rewrite Forall_forall in H, G. apply Forall_forall. intros e He. specialize (H e He). specialize (G e He).
  destruct e as [n cat vrs kids|sj n vrs|n c vrs|v|p n vrs]; try destruct H. split; [reflexivity|]. exists n, vrs.
  split; [left; eexists; reflexivity|]. split; [|assumption]. apply among_In, G.
Qed.
Definition resp_files (n : nid) : bool :=
  among preflight_classes n || in_file "cache.py" n || in_file "status.py" n || in_file "content_type.py" n || in_file "charset.py" n.
Definition post_files (n : nid) : bool := resp_files n || among [MISSING_USER_AGENT; REQUEST_CONTENT_NOT_DEFINED] n.
Ltac infile := let n := fresh in let H := fresh in intros n H; unfold post_files; first [rewrite H | unfold resp_files; rewrite H]; rewrite ?Bool.orb_true_r; reflexivity.
Lemma request_post_pass m : let '(m', r) := request_post_checks m in mnoted post_files m m' /\ r = Ok tt.
Proof.
  unfold request_post_checks. destruct (wp_preflight_request (fun _ => False) m) as [H1 H2].
  pose proof (mnoted_pre _ m H1 (preflight_request_classes m)) as N. unfold run_check in *. cbn [fst] in N.
  destruct (check_preflight_request m) as [l [x|x]]; cbn [fst snd then_] in *; [|destruct H2].
  set (m1 := m_emit _ m) in *. split; [|reflexivity].
  assert (N1 : mnoted post_files m m1) by (eapply mnoted_sub; [|exact N]; infile).
  set (m2 := if m_has _ _ then _ else _).
  assert (N2 : mnoted post_files m m2 /\ m_type m2 = m_type m).
  { unfold m2. destruct (m_has _ _); [auto|]. split; [|reflexivity].
    apply (mnoted_trans _ m m1); [reflexivity|exact N1|]. mnote. }
  destruct (m_method m2) as [s|]; [|apply N2].
  destruct ((0 <? m_clen m2) && str_in s undefined_content) eqn:Es; cbn [andb]; [|apply N2].
  destruct (negb _); [|apply N2]. apply Bool.andb_true_iff in Es as [_ Es].
  apply (mnoted_trans _ m m2); [apply N2|apply N2|]. mnote. apply (harmless_in undefined_content); [reflexivity|exact Es].
Qed.

Definition rnoted (F : nid -> bool) (r r' : option mstate) : Prop :=
  match r, r' with Some a, Some b => mnoted F a b | None, None => True | _, _ => False end.
Lemma response_post_pass (Bad : str -> Prop) e rel m :
  let '(m', rel', r) := response_post_checks e rel m in
  mnoted resp_files m m' /\ rnoted resp_files rel rel'
  /\ match r with Ok _ => True | Err _ => ~ (m_type m = MResponse /\ typed m /\ kept (m_headers m) /\ cache_fits m rel /\ codec_calm Bad e /\ charset_ok Bad m) end.
Proof.
  assert (RR : rnoted resp_files rel rel) by (destruct rel; [apply mnoted_refl|exact I]).
  unfold response_post_checks. destruct (wp_preflight_response m rel) as [H1 H2].
  pose proof (mnoted_pre _ m H1 (preflight_response_classes m rel)) as N. unfold run_check in N |- *. cbn [fst] in N.
  destruct (check_preflight_response m rel) as [l [x|x]]; cbn [fst snd] in *; set (m1 := m_emit _ m) in *;
    assert (N1 : mnoted resp_files m m1) by (eapply mnoted_sub; [|exact N]; infile); clear N.
  2: { split; [exact N1|]. split; [exact RR|]. intros (_ & _ & K & _). apply H2, K. }
  pose proof (cache_events m1 rel) as Hc. pose proof (cache_pass m1 rel) as Hp.
  destruct (cache_check m1 rel) as [[lc lreq] rc]. destruct Hc as [C1 C2]. apply tag_mse in C1, C2.
  set (m2 := m_emit (tag [] [] lc) m1).
  assert (N2 : mnoted resp_files m m2).
  { apply (mnoted_trans _ m m1); [reflexivity|exact N1|]. apply mnoted_emit. eapply Forall_impl; [|exact C1].
    intros s. apply mse_sub. infile. }
  set (rel2 := option_map _ rel).
  assert (R2 : rnoted resp_files rel rel2).
  { unfold rel2. destruct rel; [|exact I]. apply mnoted_emit. eapply Forall_impl; [|exact C2]. intros s. apply mse_sub. infile. }
  destruct rc as [k|x2].
  2: { split; [exact N2|]. split; [exact R2|]. intros (T & Ty & _ & F & _). destruct (Hp T Ty) as (_ & _ & X). apply X, F. }
  set (m3 := m_set_caching _ m2). assert (N3 : mnoted resp_files m m3) by exact N2.
  destruct (wp_status_checks m3 rel2) as [S1 S2]. pose proof (mnoted_run _ _ m3 S1) as N. unfold run_check in N. cbn [fst] in N.
  destruct (check_status m3 rel2) as [ls [y|y]]; cbn [fst snd then_] in *; set (m4 := m_emit _ m3) in *;
    assert (N4 : mnoted resp_files m m4)
      by (apply (mnoted_trans _ m m3); [reflexivity|exact N3|]; eapply mnoted_sub; [|exact N]; infile); clear N.
  2: { split; [exact N4|]. split; [exact R2|]. intros (T & Ty & _). apply S2. auto. }
  destruct (m_no_content m4); [auto|].
  destruct (wp_content_type e m4) as [T1 T2]. pose proof (mnoted_run _ _ m4 T1) as N. unfold run_check in N. cbn [fst] in N.
  destruct (verify_content_type e m4) as [lt [z|z]]; cbn [fst snd then_] in *; set (m5 := m_emit _ m4) in *;
    assert (N5 : mnoted resp_files m m5)
      by (apply (mnoted_trans _ m m4); [reflexivity|exact N4|]; eapply mnoted_sub; [|exact N]; infile); clear N.
  2: { split; [exact N5|]. split; [exact R2|]. intros (T & Ty & _). apply T2, Ty. }
  destruct (wp_charset Bad e m5) as [U1 U2]. pose proof (mnoted_run _ _ m5 U1) as N. unfold run_check in N. cbn [fst] in N.
  destruct (verify_charset e m5) as [lu [w|w]]; cbn [fst snd then_] in *; set (m6 := m_emit _ m5) in *;
    assert (N6 : mnoted resp_files m m6)
      by (apply (mnoted_trans _ m m5); [reflexivity|exact N5|]; eapply mnoted_sub; [|exact N]; infile); clear N;
    (split; [exact N6|]); (split; [exact R2|]); [exact I|].
  intros (T & Ty & _ & _ & Cd & Cs). apply U2. auto.
Qed.

(** Field post_checks *)
Lemma post_one_pass e rel tr m h : fin_ok (m_type m) h ->
  let '(m', r) := post_one e rel tr m h in
  noted m m' /\ match r with Ok _ => True | Err _ => wild (h_cls h) (mkCx e m rel) end.
Proof.
  intros (Hv & Ha & Hm). unfold post_one. destruct (h_val h) eqn:Ev; try (split; [apply noted_refl|exact I]).
  all: assert (Hn : h_val h <> VNone) by (rewrite Ev; discriminate);
    rewrite <- Ev in Hv;
    destruct (post_pass (h_cls h) (mkCx e m rel) h Hv Hn Hm) as [P1 P2];
    destruct (post_of (h_cls h) (mkCx e m rel) h) as [le r] eqn:Ep; cbn [fst snd] in *;
    (split; [apply noted_emit; apply (fsevi_fsev (h_cls h)); apply (tag_fsev inner (h_cls h)); [apply sec_base_str|apply fbase_in, fbase_sec|apply fev_hev, P1]|]);
    destruct r as [x|x]; [exact I|];
    (destruct P2 as [P2|P2];
     [ rewrite P2 in Ep; discriminate Ep
     | intros (_ & (Hu & _) & Hs); apply P2; auto ]).
Qed.
(** What the fields of a section may need of the library functions. *)
Definition hfit (l : list (str * handler)) (e : env) : Prop := url_errors e /\ forall k h, In (k, h) l -> fit (h_cls h) e.
Lemma ident_hfit (G : str -> Prop) l e : Forall (ident G) l -> calm G e -> hfit l e.
Proof.
  intros H [C1 C2]. split; [exact C1|]. intros k h Hin. rewrite Forall_forall in H. destruct (H _ Hin) as (n & Hn & _ & (E & _)).
  cbn [snd] in E. rewrite E. apply (C2 n Hn).
Qed.
Lemma post_all_pass e rel tr l : forall m, Forall (fun kh => fin_ok (m_type m) (snd kh)) l ->
  let '(m', r) := post_all e rel tr m l in
  noted m m' /\ match r with Ok _ => True | Err _ => ~ (hfit l e /\ sane (mkCx e m rel)) end.
Proof.
  induction l as [|[k h] l IH]; intros m H; cbn [post_all]; [split; [apply noted_refl|exact I]|].
  inversion H as [|? ? H1 H2]; subst. cbn [snd] in H1. pose proof (post_one_pass e rel tr m h H1) as P.
  pose proof (post_one_frame e rel tr m h) as Fr. destruct (post_one e rel tr m h) as [m1 [x|x]]; cbn [fst then_] in *.
  2: { destruct P as [N P]. split; [exact N|]. intros [[C1 C2] Hs]. apply P. split; [exact C1|]. split; [apply (C2 k), in_eq|exact Hs]. }
  destruct P as [N _]. assert (T : m_type m1 = m_type m) by (rewrite Fr; reflexivity).
  specialize (IH m1). rewrite T in IH. specialize (IH H2). destruct (post_all e rel tr m1 l) as [m2 r]. destruct IH as [N2 R2].
  split; [apply (noted_trans m m1 m2); auto|]. destruct r; [exact I|]. intros [[C1 C2] Hs]. apply R2. split; [split; [exact C1|]; intros k2 h2 Hin; apply (C2 k2), in_cons, Hin|].
  revert Hs. cbn [cx_env]. rewrite Fr. apply sane_same; reflexivity.
Qed.
Lemma all_fin_list t s : all_fin t s -> Forall (fun kh => fin_ok t (snd kh)) (s_handlers s).
Proof.
  intros [Hn H]. apply Forall_forall. intros [k h] Hin. apply (H k). apply In_dget; assumption.
Qed.

(** ** finish_content *)
Definition bare_raws (l : list (bytes * bytes)) : Prop := Forall (fun raw => bare_name (fst (read_name (fst raw)))) l.
Lemma post_checks_pass (Bad : str -> Prop) e rel m :
  let '(m', rel', r) := post_checks e rel m in
  mnoted post_files m m' /\ rnoted post_files rel rel'
  /\ (m_caching m' = m_caching m \/ m_type m = MResponse)
  /\ match rel, rel' with Some a, Some b => notes_only a b | None, None => True | _, _ => False end
  /\ match r with
     | Ok _ => True
     | Err _ => m_type m = MResponse /\ ~ (typed m /\ kept (m_headers m) /\ cache_fits m rel /\ codec_calm Bad e /\ charset_ok Bad m)
     end.
Proof.
  assert (RR : rnoted post_files rel rel) by (destruct rel; [apply mnoted_refl|exact I]).
  assert (RN : match rel, rel with Some a, Some b => notes_only a b | None, None => True | _, _ => False end)
    by (destruct rel; [apply notes_only_refl|exact I]).
  unfold post_checks. destruct (m_type m) eqn:T.
  - pose proof (request_post_pass m) as H. pose proof (request_post_frame m) as Fr. destruct (request_post_checks m) as [m' r].
    destruct H as [N ->]. split; [exact N|]. split; [exact RR|]. split; [left; cbn [fst] in Fr; rewrite Fr; reflexivity|]. auto.
  - pose proof (response_post_pass Bad e rel m) as H. rewrite T in H.
    assert (RN2 : match rel, snd (fst (response_post_checks e rel m)) with Some a, Some b => notes_only a b | None, None => True | _, _ => False end).
    { unfold response_post_checks. destruct (run_check _ _) as [m1 [x|x]]; [|exact RN].
      destruct (cache_check m1 rel) as [[l lreq] rc]. destruct rc as [k|x2].
      - destruct (then_ _ _) as [m3 r3]. cbn [fst snd]. destruct rel; [apply notes_only_emit|exact I].
      - cbn [fst snd]. destruct rel; [apply notes_only_emit|exact I]. }
    destruct (response_post_checks e rel m) as [[m' rel'] r]. cbn [fst snd] in RN2. destruct H as (H1 & H2 & H3).
    apply (mnoted_sub _ post_files) in H1; [|infile].
    assert (H2' : rnoted post_files rel rel') by (destruct rel, rel'; try exact H2; cbn in *; apply (mnoted_sub resp_files); [infile|exact H2]). clear H2. rename H2' into H2.
    split; [exact H1|]. split; [exact H2|]. split; [auto|]. split; [exact RN2|]. destruct r; [exact I|]. split; [reflexivity|]. intros H. apply H3. split; [reflexivity|exact H].
  - split; [apply mnoted_refl|]. auto.
Qed.
Lemma sane_rel e m rel rel' : match rel, rel' with Some a, Some b => notes_only a b | None, None => True | _, _ => False end ->
  sane (mkCx e m rel) -> sane (mkCx e m rel').
Proof.
  intros H (S1 & S2 & S3). split; [exact S1|]. split; [|exact S3]. cbn [cx_rel] in *.
  destruct rel as [a|], rel' as [b|]; try exact I; try contradiction. rewrite H. exact S2.
Qed.
Lemma finish_pass_stages (Bad : str -> Prop) (G : str -> Prop) e rel complete trailers m m' rel' r :
  all_fin (m_type m) (m_headers m) -> s_handlers (m_trailers m) = [] ->
  Forall (fun raw => G (fst (read_name (fst raw)))) trailers ->
  finish_content e rel complete trailers m = (m', rel', r) ->
  exists m0 m1, m0 = m_set_hash (Some (e_md5 e (m_hashed m))) (m_set_complete complete m)
  /\ noted m0 m1 /\ sec_only true m0 m1
  /\ (((exists x, r = Err x) /\ m' = m1 /\ rel' = rel)
      \/ exists m2 m3, m2 = m_set_dec_hash (Some (e_md5 e (m_dec_hashed m))) m1
         /\ mnoted post_files (check_content_length m2) m3 /\ caching_only (check_content_length m2) m3
         /\ rnoted post_files rel rel' /\ noted m3 m' /\ notes_only m3 m'
         /\ exists r3, post_checks e rel (check_content_length m2) = (m3, rel', r3) /\ (r = Ok tt -> r3 = Ok tt))
  /\ match r with
     | Ok _ => True
     | Err _ => (forall n, G n -> bare_name n) ->
         ~ (calm G e /\ hfit (s_handlers (m_headers m)) e /\ codec_calm Bad e /\ charset_ok Bad m /\ tsane e rel m
            /\ (m_type m = MResponse -> kept (m_headers m) /\ cache_fits m rel))
     end.
Proof.
  intros Hf Ht Hb E. unfold finish_content in E. set (m0 := m_set_hash _ _) in E.
  set (w := match trailers with [] => _ | _ => _ end) in E.
  exists m0, (fst w). split; [reflexivity|].
  assert (W : noted m0 (fst w) /\ sec_only true m0 (fst w) /\
     match snd w with
     | Ok _ => (all_fin (m_type m) (m_trailers (fst w))) /\ Forall (ident G) (s_handlers (m_trailers (fst w))) /\ ((forall n, G n -> bare_name n) -> tsane e rel m -> tsane e rel (fst w))
     | Err _ => (forall n, G n -> bare_name n) -> ~ (calm G e /\ tsane e rel m)
     end).
  { unfold w. destruct trailers as [|t ts].
    - cbn [fst snd]. split; [apply noted_refl|]. split; [apply sec_only_refl|].
      assert (Ht0 : s_handlers (m_trailers m0) = []) by exact Ht. split; [|split; [rewrite Ht0; constructor|auto]].
      split; [rewrite Ht0; constructor|]. intros k h. rewrite Ht0. discriminate.
    - pose proof (process_pass G e rel true m0 (t :: ts) Ht Hb) as P.
      pose proof (process_frame e rel true m0 (t :: ts)) as Fr. set (pr := process e rel true m0 (t :: ts)) in *. clearbody pr.
      destruct pr as [m1 r1]. cbn [fst snd] in *. destruct P as [P1 P2]. split; [exact P1|]. split; [exact Fr|].
      destruct r1; [|exact P2]. destruct P2 as (P2 & I2 & P3 & _). split; [exact P2|]. split; [exact I2|]. exact P3. }
  destruct w as [m1 r1]. cbn [fst snd] in *. destruct W as (W1 & W2 & W3). split; [exact W1|]. split; [exact W2|].
  assert (T1 : m_type m1 = m_type m) by (rewrite W2; reflexivity).
  assert (H1 : m_headers m1 = m_headers m) by (rewrite W2; reflexivity).
  assert (D1 : m_dec_hashed m1 = m_dec_hashed m) by (rewrite W2; reflexivity).
  destruct r1 as [x1|x1].
  2: { injection E as <- <- <-. split; [left; split; [eexists; reflexivity|auto]|]. intros HG (C & _ & _ & _ & S & _). apply (W3 HG). auto. }
  rewrite D1 in E. set (m2 := m_set_dec_hash _ m1) in E. set (m2c := check_content_length m2) in E.
  pose proof (check_content_length_frame m2) as Fc. fold m2c in Fc.
  pose proof (post_checks_pass Bad e rel m2c) as P. pose proof (post_checks_frame e rel m2c) as Fp.
  destruct (post_checks e rel m2c) as [[m3 rel3] r3] eqn:Epc. cbn [fst] in Fp. destruct P as (P1 & P2 & P3 & P4 & P5).
  assert (T2 : m_type m2c = m_type m) by (rewrite Fc; exact T1).
  assert (H2 : m_headers m2c = m_headers m) by (rewrite Fc; exact H1).
  destruct W3 as (W3 & WI & W4).
  assert (S2 : (forall n, G n -> bare_name n) -> tsane e rel m -> tsane e rel m2c).
  { intros HG S. specialize (W4 HG S). revert W4. unfold tsane. rewrite Fc. apply sane_same; reflexivity. }
  destruct r3 as [x3|x3].
  2: { injection E as <- <- <-. split.
       - right. exists m2, m3. split; [reflexivity|]. split; [exact P1|]. split; [exact Fp|]. split; [exact P2|].
         split; [apply noted_refl|]. split; [apply notes_only_refl|]. fold m2c. rewrite Epc. eexists; split; [reflexivity|discriminate].
       - intros HG (C & _ & Cd & Cs & S & K). rewrite T2, H2 in P5. destruct P5 as [Hr P5]. apply P5.
         destruct (K Hr) as [K1 K2]. split; [apply (S2 HG S)|]. split; [exact K1|]. split; [|split; [exact Cd|]].
         + unfold cache_fits in *. rewrite Fc. unfold m2. rewrite W2. exact K2.
         + intros t d s. unfold m_get. rewrite H2. apply Cs. }
  assert (T3 : m_type m3 = m_type m) by (rewrite Fp; exact T2).
  assert (H3 : m_headers m3 = m_headers m) by (rewrite Fp; exact H2).
  assert (Tr3 : m_trailers m3 = m_trailers m1) by (rewrite Fp, Fc; reflexivity).
  assert (S3 : (forall n, G n -> bare_name n) -> tsane e rel m -> tsane e rel3 m3).
  { intros HG S. specialize (S2 HG S). apply (sane_rel e m3 rel rel3 P4). destruct S2 as (A1 & A2 & A3). cbn [cx_msg cx_rel] in *.
    split; [|split]; cbn [cx_msg cx_rel]; [|exact A2|].
    - intros k v. rewrite H3, T3, <- H2, <- T2. apply A1.
    - rewrite T3, <- T2. intros Hc. destruct P3 as [P3|P3]; [apply A3; rewrite <- P3; exact Hc|rewrite P3; discriminate]. }
  rewrite H3 in E.
  pose proof (post_all_pass e rel3 false (s_handlers (m_headers m)) m3) as Q. rewrite T3 in Q. specialize (Q (all_fin_list _ _ Hf)).
  pose proof (post_all_frame e rel3 false (s_handlers (m_headers m)) m3) as Fq.
  destruct (post_all e rel3 false m3 (s_handlers (m_headers m))) as [m4 r4]. cbn [fst then_] in *. destruct Q as [Q1 Q2].
  destruct r4 as [x4|x4].
  2: { injection E as <- <- <-. split.
       - right. exists m2, m3. split; [reflexivity|]. split; [exact P1|]. split; [exact Fp|]. split; [exact P2|]. split; [assumption|]. split; [assumption|].
         fold m2c. rewrite Epc. eexists; split; [reflexivity|]. discriminate.
       - intros HG (_ & Hh & _ & _ & S & _). apply Q2. split; [exact Hh|]. apply (S3 HG S). }
  assert (T4 : m_type m4 = m_type m) by (rewrite Fq; exact T3).
  assert (Tr4 : m_trailers m4 = m_trailers m1) by (rewrite Fq; exact Tr3).
  rewrite Tr4 in E.
  pose proof (post_all_pass e rel3 true (s_handlers (m_trailers m1)) m4) as R. rewrite T4 in R. specialize (R (all_fin_list _ _ W3)).
  pose proof (post_all_frame e rel3 true (s_handlers (m_trailers m1)) m4) as Fr.
  destruct (post_all e rel3 true m4 (s_handlers (m_trailers m1))) as [m5 r5]. cbn [fst] in *. destruct R as [R1 R2].
  injection E as <- <- <-. split.
  - right. exists m2, m3. split; [reflexivity|]. split; [exact P1|]. split; [exact Fp|]. split; [exact P2|].
    split; [apply (noted_trans m3 m4 m5); [rewrite Fq; reflexivity|exact Q1|exact R1]|].
    split; [apply (notes_only_trans m3 m4 m5); assumption|]. fold m2c. rewrite Epc. eexists; split; [reflexivity|]. destruct x3. reflexivity.
  - destruct r5; [exact I|]. intros HG (C & _ & _ & _ & S & _). apply R2. split; [apply (ident_hfit G); assumption|].
    specialize (S3 HG S). revert S3. unfold tsane. cbn [cx_env]. rewrite Fq. apply sane_same; reflexivity.
Qed.

(** ** process_headers *)
Lemma process_headers_pass (Bad : str -> Prop) (G : str -> Prop) e rel m l :
  s_handlers (m_headers m) = [] -> Forall (fun raw => G (fst (read_name (fst raw)))) l ->
  let '(m', r) := process_headers e rel l m in
  noted m m'
  /\ match r with
     | Ok _ => all_fin (m_type m) (m_headers m') /\ Forall (ident G) (s_handlers (m_headers m'))
               /\ ((forall n, G n -> bare_name n) -> tsane e rel m -> tsane e rel m')
               /\ ((forall n, G n -> bare_name n) -> s_parsed (m_headers m) = [] -> kept (m_headers m'))
     | Err _ => (forall n, G n -> bare_name n) -> ~ (calm G e /\ codec_calm Bad e /\ charset_ok Bad m' /\ tsane e rel m)
     end.
Proof.
  intros H0 HG. unfold process_headers. pose proof (process_pass G e rel false m l H0 HG) as P.
  destruct (process e rel false m l) as [m1 [x|x]]; destruct P as [N P].
  2: { split; [exact N|]. intros Hb (C & _ & _ & S). apply (P Hb). split; [exact C|exact S]. }
  destruct P as (P1 & PI & P2 & P3).
  assert (OK : noted m m1 /\ all_fin (m_type m) (m_headers m1) /\ Forall (ident G) (s_handlers (m_headers m1)) /\ ((forall n, G n -> bare_name n) -> tsane e rel m -> tsane e rel m1)
     /\ ((forall n, G n -> bare_name n) -> s_parsed (m_headers m) = [] -> kept (m_headers m1))) by (split; [exact N|]; split; [exact P1|]; split; [exact PI|]; split; [exact P2|exact P3]).
  destruct (m_get m1 "content-type") as [v|] eqn:Ev; [|exact OK].
  destruct (rbind (index v 1) as_dict) as [params|y] eqn:Er.
  2: { split; [exact N|]. intros Hb (C & _ & _ & S). specialize (P2 Hb S). destruct (ct_pair m1 v (proj1 P2) Ev) as (s & d & -> & _). discriminate. }
  destruct (dget (u "charset") params) as [w|] eqn:Ew; [|exact OK]. destruct w as [| | | | | enc | | | | | | | | | |]; try exact OK.
  destruct (e_codec e enc) as [cd|y] eqn:Ec.
  - split; [exact N|]. split; [exact P1|]. split; [exact PI|]. split; [|exact P3]. intros Hb S. exact (P2 Hb S).
  - assert (B : y = ELookup \/ y = EType
      \/ ((forall n, G n -> bare_name n) -> ~ (calm G e /\ codec_calm Bad e /\ charset_ok Bad m1 /\ tsane e rel m))).
    { assert (X : (forall n, G n -> bare_name n) -> calm G e /\ codec_calm Bad e /\ charset_ok Bad m1 /\ tsane e rel m -> y = ELookup \/ y = EType).
      { intros Hb (C & Cd & Cs & S). specialize (P2 Hb S). destruct (ct_pair m1 v (proj1 P2) Ev) as (s & d & -> & _).
        cbn in Er. injection Er as ->. apply (cd_lookup _ _ Cd enc y); [|exact Ec]. apply (Cs _ _ _ Ev Ew). }
      destruct y; auto; right; right; intros Hb Hc; destruct (X Hb Hc); discriminate. }
    destruct B as [->|[->|B]]; try exact OK. destruct y; try exact OK; (split; [exact N|]); exact B.
Qed.

(** ** Every state of a session *)
Definition untouched (m : mstate) : Prop :=
  m_headers m = new_section false /\ m_trailers m = new_section true /\ m_caching m = None /\ m_pipeline m = None.
Lemma request_topline_frame e a b c m : let m' := fst (process_request_topline e a b c m) in
  m_type m' = m_type m /\ (untouched m -> untouched m') /\ m_start m' = m_start m /\ m_no_content m' = m_no_content m.
Proof.
  cbv zeta. unfold process_request_topline, set_uri. destruct (iri_to_uri _ _) as [uri|x]; [|destruct (is_ValueError x)]; cbn [fst]; auto.
  destruct (match_ws_dollar _ _); destruct (Nat.ltb _ _); cbn [fst]; auto.
Qed.
Lemma response_topline_frame a b c m : let m' := process_response_topline a b c m in
  m_type m' = m_type m /\ (untouched m -> untouched m') /\ m_start m' = m_start m /\ m_no_content m' = m_no_content m.
Proof.
  cbv zeta. unfold process_response_topline. destruct (py_int _); destruct c as [[|x c]|]; auto; destruct (decode_ascii_strict _); auto.
Qed.
Definition linv_at (p : phase) (m : mstate) : Prop :=
  match p with
  | Fresh | Started => untouched m
  | Headed => all_fin (m_type m) (m_headers m) /\ s_handlers (m_trailers m) = [] /\ m_caching m = None
  | _ => True
  end.
Theorem linted_inv e rel p m : linted e rel p m -> Forall note_fine (m_notes m) /\ linv_at p m.
Proof.
  induction 1 as [t start nc head base|m a b c m' r _ [IH1 IH2] E|m a b c _ [IH1 IH2]|p m raws m' r _ [IH1 IH2] Hp E
                 |m chunk m' r _ [IH1 IH2] E|m complete trailers m' rel' r _ [IH1 IH2] E].
  - split; [constructor|]. repeat split.
  - pose proof (request_topline_pass e a b c m) as P. pose proof (request_topline_frame e a b c m) as F. rewrite E in P, F.
    cbn [fst] in F. split; [apply (mnoted_fine _ _ _ (proj1 P) IH1)|]. destruct r; [|exact I]. apply F, IH2.
  - split; [apply (mnoted_fine _ _ _ (response_topline_pass a b c m) IH1)|]. apply (response_topline_frame a b c m), IH2.
  - assert (U : untouched m) by (destruct Hp; subst p; exact IH2). destruct U as (U1 & U2 & U3 & U4).
    pose proof (process_headers_pass (fun _ => True) (fun _ => True) e rel m raws) as P. rewrite U1 in P. specialize (P eq_refl).
    rewrite E in P. destruct P as [N P]; [apply Forall_forall; auto|]. split; [apply (noted_fine _ _ N IH1)|].
    destruct r; [|exact I]. pose proof (process_headers_frame e rel raws m) as F. rewrite E in F. cbn [fst] in F.
    assert (T : m_type m' = m_type m) by (rewrite F; reflexivity). cbn [after linv_at]. rewrite T. split; [apply P|].
    rewrite F. split; [cbn; rewrite U2; reflexivity|exact U3].
  - pose proof (feed_pass e chunk m) as P. pose proof (feed_body e chunk m) as F. rewrite E in P, F. cbn [fst] in F.
    split; [apply (mnoted_fine _ _ _ (proj1 P) IH1)|]. destruct r; [|exact I]. cbn [after linv_at] in *. rewrite F. exact IH2.
  - destruct IH2 as (A & B & C). destruct (finish_pass_stages (fun _ => True) (fun _ => True) e rel complete trailers m m' rel' r A B) as (m0 & m1 & -> & N & S & D & _).
    { apply Forall_forall. auto. }
    { exact E. }
    pose proof (noted_fine _ _ N IH1) as F1. split; [|destruct r; exact I].
    destruct D as [(_ & -> & _)|(m2 & m3 & -> & N2 & _ & _ & N3 & _ & _)]; [exact F1|].
    apply (noted_fine _ _ N3), (mnoted_fine _ _ _ N2), content_length_fine, F1.
Qed.

(** ** A whole session *)
(** Numbers far inside the range of a float. *)
Definition fits (z : Z) : Prop := (Z.abs z < 2 ^ 1000)%Z.
Definition no_clock (m : mstate) : Prop := q_truthy (m_start m) = None.
Definition pval (m : mstate) (k : string) : option pyval := dget (u k) (s_parsed (m_headers m)).
(** cache.py computes with floats only if both messages have a time; then Age must
    be a number and the numbers in the headers must fit a float. *)
Definition caching_fits (m : mstate) (rel : option mstate) : Prop :=
  no_clock m \/ (match rel with Some r => no_clock r | None => True end)
  \/ ((forall v, pval m "age" = Some v -> exists z, v = VInt z /\ fits z)
      /\ (forall z, pval m "expires" = Some (VInt z) -> fits z)
      /\ (forall z, pval m "date" = Some (VInt z) -> fits z)
      /\ (forall l d z, pval m "cache-control" = Some (VList l) -> In (VTuple [VStr d; VInt z]) l -> fits z)
      /\ (forall t, m_start m = Some t -> fits (q_trunc t))).
Lemma fits_small z : fits z -> small z.
Proof. unfold fits, small. assert (2 ^ 1000 < 2 ^ 1024 - 2 ^ 970)%Z by reflexivity. lia. Qed.
Lemma fits_sub a b : fits a -> fits b -> small (a - b).
Proof.
  unfold fits, small. intros H1 H2. assert (2 ^ 1000 + 2 ^ 1000 < 2 ^ 1024 - 2 ^ 970)%Z by reflexivity. lia.
Qed.
Lemma q_truthy_start t x : q_truthy t = Some x -> t = Some x.
Proof. destruct t as [y|]; cbn; [|discriminate]. destruct (Qeq_bool y 0); [discriminate|auto]. Qed.
Lemma cc_pairs_in l : forall ps, mapR cc_pair l = Ok ps -> forall d x, In (d, x) ps -> In (VTuple [VStr d; x]) l.
Proof.
  induction l as [|v l IH]; intros ps; cbn [mapR]; [intros E; injection E as <-; intros ? ? []|].
  destruct (cc_pair v) as [p|] eqn:Ep; [|discriminate]. cbn [rbind]. destruct (mapR cc_pair l) as [r|]; [|discriminate].
  cbn [rmap]. intros E; injection E as <-. intros d x [->|Hin]; [left|right; apply (IH r eq_refl), Hin].
  destruct v as [| | | | | | | | | |[|[] [|y [|]]]| | | | |]; try discriminate. injection Ep as -> ->. reflexivity.
Qed.
Lemma caching_fits_ok m rel : m_type m = MResponse -> typed m -> caching_fits m rel -> cache_fits m rel.
Proof.
  intros Ht Hty Hf i Ei. destruct (cache_in_typed m rel Ht Hty) as (i' & Ei' & Hi). rewrite Ei in Ei'. injection Ei' as <-.
  unfold cache_in in Ei. destruct (cc_pairs _) as [ps|] eqn:Ep; [|discriminate]. cbn [rmap] in Ei. injection Ei as Ei.
  destruct Hf as [Hf|[Hf|(Ha & He & Hd & Hc & Hs)]].
  - left. right. rewrite <- Ei. exact Hf.
  - left. left. rewrite <- Ei. cbn [i_req_time]. destruct rel; [exact Hf|reflexivity].
  - right. split.
    + unfold age_fits. rewrite <- Ei. cbn [i_age]. unfold get_or. change (m_get m "age") with (pval m "age").
      destruct (pval m "age") as [v|]; [|exists 0%Z; split; [reflexivity|apply fits_small; reflexivity]].
      destruct (Ha v eq_refl) as (z & -> & Hz). exists z. split; [reflexivity|apply fits_small, Hz].
    + assert (HE : forall z, as_int (i_expires i) = Ok z -> fits z).
      { rewrite <- Ei. cbn [i_expires]. unfold get_or. change (m_get m "expires") with (pval m "expires").
        destruct (pval m "expires") as [[|b|z| | | | | | | | | | | | |]|]; cbn; intros y E; try discriminate; injection E as <-; auto.
        destruct b; reflexivity. }
      assert (HD : forall z, as_int (i_date i) = Ok z -> fits z).
      { rewrite <- Ei. cbn [i_date]. unfold get_or. change (m_get m "date") with (pval m "date").
        destruct (pval m "date") as [[|b|z| | | | | | | | | | | | |]|]; cbn; intros y E; try discriminate; injection E as <-; auto.
        destruct b; reflexivity. }
      assert (HC : forall k z, cc_int i k = Ok (Some z) -> dget (u k) (i_cc i) = Some (VInt z) -> fits z).
      { intros k z _ E. rewrite <- Ei in E. cbn [i_cc] in E. apply dget_In in E. apply in_dupdate in E as [[]|E].
        unfold cc_pairs in Ep. unfold get_or in Ep. change (m_get m "cache-control") with (pval m "cache-control") in Ep.
        destruct (pval m "cache-control") as [v|] eqn:Ev; cbn [as_list rbind] in Ep.
        - destruct (as_list v) as [l|] eqn:El; [|discriminate]. cbn [rbind] in Ep.
          assert (Hv := Hty _ _ Ev). change (find_class (u "cache-control")) with F_cache_control in Hv. rewrite Ht in Hv.
          destruct Hv as [[Hw _]|(l' & -> & _)]; [discriminate|]. injection El as ->.
          apply (Hc l (u k) z eq_refl). apply (cc_pairs_in l ps Ep _ _ E).
        - cbn in Ep. injection Ep as <-. destruct E. }
      intros f. unfold lifetimes.
      assert (H0 : forall f0, (match q_truthy (i_resp_time i) with
         | Some t =>
             if expires_present i
             then rbind (int_or (i_expires i) 0) (fun x =>
                    rmap (fun d => mkFresh (x - d) (x - d) true [u "field-date"; u "field-expires"])
                         (int_or (i_date i) (q_trunc t)))
             else Ok (mkFresh 0 0 false [u "field-date"])
         | None => Ok (mkFresh 0 0 false [u "field-date"])
         end) = Ok f0 -> small (f_priv f0) /\ small (f_shared f0)).
      { intros f0. destruct (q_truthy (i_resp_time i)) as [t|] eqn:Et; [|intros E; injection E as <-; split; reflexivity].
        destruct (expires_present i); [|intros E; injection E as <-; split; reflexivity].
        destruct (int_or (i_expires i) 0) as [x|] eqn:Ex; [|discriminate]. cbn [rbind].
        destruct (int_or (i_date i) _) as [d|] eqn:Ed; [|discriminate]. cbn [rmap]. intros E; injection E as <-. cbn [f_priv f_shared].
        assert (fits x). { unfold int_or in Ex. destruct (truthy _); [apply HE, Ex|]. injection Ex as <-. reflexivity. }
        assert (fits d). { unfold int_or in Ed. destruct (truthy _); [apply HD, Ed|]. injection Ed as <-. apply Hs.
          apply q_truthy_start. rewrite <- Et, <- Ei. reflexivity. }
        split; apply fits_sub; assumption. }
      match goal with |- rbind ?x _ = _ -> _ => destruct x as [f0|] eqn:E0; [|discriminate] end. specialize (H0 f0 eq_refl) as [P0 S0]. cbn [rbind].
      destruct (cc_int i "max-age") as [ma|] eqn:Em; [|discriminate]. cbn [rbind].
      destruct (cc_int i "s-maxage") as [sm|] eqn:Es; [|discriminate]. cbn [rbind].
      assert (HM : forall z, ma = Some z -> small z).
      { intros z ->. apply fits_small, (HC "max-age"%string z Em). unfold cc_int in Em. destruct (dget _ _) as [v|] eqn:Ev; [|discriminate].
        destruct (ct_ma _ Hi _ Ev) as [z' ->]. cbn in Em. injection Em as ->. reflexivity. }
      assert (HS : forall z, sm = Some z -> small z).
      { intros z ->. apply fits_small, (HC "s-maxage"%string z Es). unfold cc_int in Es. destruct (dget _ _) as [v|] eqn:Ev; [|discriminate].
        destruct (ct_sm _ Hi _ Ev) as [z' ->]. cbn in Es. injection Es as ->. reflexivity. }
      intros E. injection E as <-. destruct sm as [z|]; destruct ma as [z'|]; cbn [f_priv f_shared]; split; auto.
Qed.
(** The related message, as far as it matters: a request all of whose parsed
    header values have the types their fields give them. *)
Definition rel_ok (rel : option mstate) : Prop := match rel with Some r => typed r /\ m_type r = MRequest | None => True end.
Lemma feed_all_typed e chunks : forall m, typed m -> snd (feed_all e chunks m) = Ok tt.
Proof.
  induction chunks as [|c cs IH]; intros m Hm; cbn [feed_all]; [reflexivity|].
  pose proof (feed_pass e c m) as P. pose proof (feed_body e c m) as F. destruct (feed_content e c m) as [m' [x|x]]; cbn [fst then_] in *.
  - apply IH. intros k v. rewrite F. apply Hm.
  - destruct P as [_ [_ P]]. contradiction.
Qed.
Definition fit_raw (e : env) (raw : bytes * bytes) : Prop :=
  bare_name (fst (read_name (fst raw))) /\ fit (find_class (fst (read_name (fst raw)))) e.
Theorem lint_ok (Bad : str -> Prop) e rel top headers chunks complete trailers t start nc head base :
  url_errors e -> codec_calm Bad e -> uri_calm e -> Forall (fit_raw e) headers -> Forall (fit_raw e) trailers -> rel_ok rel ->
  let m := new_linter t start nc head base in
  (forall m1, fst (then_ (start_line e top m) (process_headers e rel headers)) = m1 ->
     charset_ok Bad m1 /\ (t = MResponse -> caching_fits m1 rel)) ->
  exists m' rel', lint e rel top headers chunks complete trailers m = (m', rel', Ok tt).
Proof.
  intros Cur Cd Cu Hh Ht Hr m Hcf. unfold lint.
  set (G := fun n => bare_name n /\ fit (find_class n) e).
  assert (HB : forall n, G n -> bare_name n) by (intros n [H _]; exact H).
  assert (C : calm G e) by (split; [exact Cur|]; intros n [_ H]; exact H).
  assert (U : forall r, start_line e top m = r -> snd r = Ok tt /\ m_type (fst r) = t /\ untouched (fst r)).
  { intros r <-. assert (U0 : untouched m) by repeat split. destruct top as [|a b c|a b c]; cbn [start_line].
    - repeat split.
    - pose proof (request_topline_pass e a b c m) as P. pose proof (request_topline_frame e a b c m) as F.
      destruct (process_request_topline e a b c m) as [m1 [[]|x]]; cbn [fst snd] in *; destruct P as [_ P]; [|contradiction].
      split; [reflexivity|]. destruct F as (F1 & F2 & _). split; [exact F1|apply F2, U0].
    - pose proof (response_topline_frame a b c m) as (F1 & F2 & _). cbn [fst snd]. split; [reflexivity|]. split; [exact F1|apply F2, U0]. }
  destruct (U _ eq_refl) as (R1 & T1 & (U1 & U2 & U3 & U4)). clear U. revert Hcf. destruct (start_line e top m) as [m1 r1]. cbn [fst snd] in *. subst r1. cbn [then_]. intros Hcf.
  pose proof (process_headers_pass Bad G e rel m1 headers) as P. rewrite U1 in P. specialize (P eq_refl Hh).
  pose proof (process_headers_frame e rel headers m1) as F.
  assert (S1 : tsane e rel m1).
  { split; [|split]; cbn [cx_msg cx_rel].
    - intros k v. rewrite U1. discriminate.
    - exact Hr.
    - rewrite U3. congruence. }
  specialize (Hcf _ eq_refl) as [Hcs Hcf0]. destruct (process_headers e rel headers m1) as [m2 r2]. cbn [fst then_] in *. destruct P as [_ P].
  destruct r2 as [x2|x2]; [|exfalso; apply (P HB); auto]. destruct P as (P1 & PI & P2 & P3).
  specialize (P2 HB S1). specialize (P3 HB eq_refl).
  assert (T2 : m_type m2 = t) by (rewrite F; exact T1).
  pose proof (feed_all_typed e chunks m2 (proj1 P2)) as R3. pose proof (feed_all_body e chunks m2) as B.
  destruct (feed_all e chunks m2) as [m3 r3]. cbn [fst snd] in *. subst r3.
  assert (T3 : m_type m3 = t) by (rewrite B; exact T2).
  assert (H3 : m_headers m3 = m_headers m2) by (rewrite B; reflexivity).
  assert (S3 : tsane e rel m3) by (unfold tsane; rewrite B; exact P2).
  destruct (finish_content e rel complete trailers m3) as [[m4 rel4] r4] eqn:E4.
  destruct (finish_pass_stages Bad G e rel complete trailers m3 m4 rel4 r4) as (m5 & m6 & _ & _ & _ & _ & R); auto.
  { rewrite T3, H3, <- T1. exact P1. }
  { rewrite B. rewrite F. cbn. rewrite U2. reflexivity. }
  destruct r4 as [[]|x4]; [eauto|]. exfalso. apply (R HB). split; [exact C|].
  split; [rewrite H3; apply (ident_hfit G); assumption|]. split; [exact Cd|].
  split; [intros ? ? ?; unfold m_get; rewrite H3; apply Hcs|]. split; [exact S3|].
  intros Hresp. split; [rewrite H3; exact P3|].
  assert (CF : cache_fits m2 rel).
  { apply caching_fits_ok; [congruence|apply P2|]. apply Hcf0. congruence. }
  unfold cache_fits in *. rewrite B. exact CF.
Qed.
