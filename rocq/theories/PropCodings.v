(** * C47: Transfer-Encoding; C48: Content-Disposition. *)
From Coq Require Import Lia ZifyBool ZifyN.
From Verif Require Import PyStr Regex Grammar NoteTable Note PyLib Utils FieldAttrs Types Fields1 Fields2 Fields3 Framework Checks Message
  EvLogic TestEnv LexLemmas ParamLemmas NumLemmas PassParse Session SessionLemmas SecNotes SecValues LintLemmas FieldSpec PropFields PropValues PropNames PropParse PropTop PropCli OwnLemmas ListSpec PropLists PropCC ListExamples FieldExamples
  PropInts FieldDue OwnTac CodingSpec.
Open Scope N_scope.

(** ** Programs that say nothing of some classes *)
Definition hush {A} (P : nid -> bool) (w : W A) : Prop := forall ks s, speak P ks s (fst w) = [].
Lemma hush_ret {A} P (a : A) : hush P (ret a). Proof. intros ks s. reflexivity. Qed.
Lemma hush_raise {A} P x : hush P (@raise A x). Proof. intros ks s. reflexivity. Qed.
Lemma hush_note P n vrs : P n = false -> hush P (add_note n vrs). Proof. intros H ks s. cbn [add_note tell fst speak flat_map utter]. rewrite H. reflexivity. Qed.
Lemma hush_bind {A B} P (w : W A) (f : A -> W B) : hush P w -> (forall a, hush P (f a)) -> hush P (bind w f).
Proof. intros H1 H2 ks s. unfold bind. specialize (H1 ks s). destruct w as [l [a|x]]; cbn [fst] in *; [|exact H1]. specialize (H2 a ks s). destruct (f a) as [l' r]. cbn [fst] in *. rewrite speak_app, H1, H2. reflexivity. Qed.
Lemma hush_when P b (w : W unit) : hush P w -> hush P (when b w). Proof. destruct b; [auto|intros _; apply hush_ret]. Qed.
Lemma hush_fold {A S} P (f : S -> A -> W S) l : (forall s a, hush P (f s a)) -> forall s, hush P (foldW f l s).
Proof. intros H. induction l as [|a l IH]; intros s; cbn [foldW]; [apply hush_ret|]. apply hush_bind; [apply H|exact IH]. Qed.
Definition param_classes : list nid := [PARAM_REPEATS; PARAM_SINGLE_QUOTED; PARAM_STAR_BAD; PARAM_STAR_QUOTED; PARAM_STAR_NOCHARSET; PARAM_STAR_CHARSET; PARAM_STAR_ERROR].
Lemma params_hush P e s n dl : forallb (fun c => negb (P c)) param_classes = true -> hush P (parse_params e s n dl).
Proof.
  intros H. assert (N : forall c, In c param_classes -> P c = false) by (intros c Hc; rewrite forallb_forall in H; apply negb_true_iff, H, Hc).
  apply hush_fold. intros d p. unfold parse_param. destruct (split1 61 p) as [[k v]|]; [|apply hush_ret]. cbv zeta.
  apply hush_bind; [apply hush_when, hush_note, N; cbn; tauto|]. intros _. destruct (first_chr v) as [v0|]; [|apply hush_raise]. destruct (last_chr v) as [vn|]; [|apply hush_raise]. destruct (last_chr k) as [kn|]; [|apply hush_raise].
  apply hush_bind; [apply hush_when, hush_note, N; cbn; tauto|]. intros _. destruct (kn =? 42); [|apply hush_ret].
  destruct (nostar_hit _ _); [apply hush_bind; [apply hush_note, N; cbn; tauto|]; intros; apply hush_ret|].
  apply hush_bind; [apply hush_when, hush_note, N; cbn; tauto|]. intros _.
  destruct (split_max 3 39 _) as [|a [|b [|c [|x l]]]]; try (apply hush_bind; [apply hush_note, N; cbn; tauto|]; intros; apply hush_ret).
  destruct (str_eqb _ _); [apply hush_bind; [apply hush_note, N; cbn; tauto|]; intros; apply hush_ret|].
  destruct (negb _); [apply hush_bind; [apply hush_note, N; cbn; tauto|]; intros; apply hush_ret|apply hush_ret].
Qed.
Lemma params_total e s n dl : exists d, snd (parse_params e s n dl) = Ok d.
Proof. destruct (wp_parse_params F_te (fun _ => False) e s n dl) as [_ H]. destruct (snd (parse_params e s n dl)) as [d|x]; [eauto|destruct H]. Qed.
Lemma semi_split v : split_or 59 v = (before_semi v, after_semi v).
Proof.
  unfold split_or. induction v as [|c v IH]; [reflexivity|]. cbn [split1 before_semi after_semi]. destruct (c =? 59); [reflexivity|].
  destruct (split1 59 v) as [[a b]|]; injection IH as <- <-; reflexivity.
Qed.
Lemma parameters_eq e n v : exists l, parse_params e (after_semi v) n DSemi = (l, Ok (parameters e n v)).
Proof. unfold parameters. destruct (params_total e (after_semi v) n DSemi) as (d & H). destruct (parse_params _ _ _ _) as [l r]. cbn [snd] in *. subst r. eauto. Qed.

(** ** Transfer-Encoding *)
Lemma offers_heads t rel k o e m' : m_type m' = t -> offers t rel k o ->
  match related_request (mkCx e m' rel) with
  | Some r => exists te, o = Some te /\ heads (rel_list r k) = Ok (map VStr te)
  | None => o = None
  end.
Proof.
  intros T H. unfold related_request, is_response. cbn [cx_msg cx_rel]. rewrite T. unfold offers in H. destruct t; try exact H. destruct rel as [r|]; [|exact H]. destruct (m_type r); try exact H.
  unfold rel_list. destruct (rel_hdr r k) as [x|]; [|exists []; subst; auto]. destruct H as (l & items & -> & -> & F). exists l. split; [reflexivity|]. unfold heads. cbn [as_list rbind].
  induction F as [|i n items l (d & ->) F IH]; [reflexivity|]. cbn [mapR index]. cbn [rbind map]. cbn in IH |- *. rewrite IH. reflexivity.
Qed.
Lemma bind_ret {A B} (a : A) (f : A -> W B) : bind (ret a) f = f a. Proof. unfold bind, ret. destruct (f a). reflexivity. Qed.
Definition te_item (e : env) (v : str) : pyval := VTuple [VStr (lower (before_semi v)); param_dict_val (parameters e NoStarTrue v)].
Lemma te_par e rel m' v : snd (par F_transfer_encoding e rel m' v) = Ok (te_item e v)
  /\ forall ks s, speak (classes transfer_classes) ks s (fst (par F_transfer_encoding e rel m' v))
       = if nonempty (parameters e NoStarTrue v) then [(TRANSFER_CODING_PARAM, s, map (fun _ => None) ks)] else [].
Proof.
  unfold par. cbn [parse_of]. unfold p_transfer_encoding. rewrite semi_split. destruct (parameters_eq e NoStarTrue v) as (l & El). cbn [cx_env].
  pose proof (params_hush (classes transfer_classes) e (after_semi v) NoStarTrue DSemi eq_refl) as Hh. rewrite El in *. unfold bind at 1. split.
  - unfold te_item. destruct (parameters e NoStarTrue v); reflexivity.
  - intros ks s. specialize (Hh ks s). cbn [fst] in Hh. destruct (parameters e NoStarTrue v); cbn [nonempty when add_note tell bind ret fst app]; rewrite ?app_nil_r; [exact Hh|].
    rewrite speak_app, Hh. cbn [app speak flat_map utter]. change (classes transfer_classes TRANSFER_CODING_PARAM) with true.  reflexivity.
Qed.
Lemma te_items e (vs : list str) : mapR text_params (map (te_item e) vs) = Ok (map (fun v => (lower (before_semi v), map (fun kv => (fst kv, opt_str (snd kv))) (parameters e NoStarTrue v))) vs).
Proof. induction vs as [|v vs IH]; [reflexivity|]. cbn [map mapR]. rewrite IH. reflexivity. Qed.
Lemma te_eval e t rel m' o (ms : list str) : m_type m' = t -> offers t rel "te" o ->
  exists us, (NoDup us /\ forall x, In x us <-> In x (map (fun v => lower (before_semi v)) ms) /\ x <> u "chunked" /\ x <> u "identity" /\ match o with Some te => ~ In x te | None => True end)
  /\ forall s, speak (classes transfer_classes) [u "coding"] s (fst (eva F_transfer_encoding e rel m' (VList (map (te_item e) ms))))
    = map (fun x => (TRANSFER_CODING_UNWANTED, s, [Some (VStr x)])) us
      ++ map (fun c => (c, s, [None])) (only (existsb (str_eqb (u "identity")) (map (fun v => lower (before_semi v)) ms)) TRANSFER_CODING_IDENTITY).
Proof.
  intros T H. pose proof (offers_heads t rel "te" o e m' T H) as Hh. unfold eva. cbn [eval_of]. rewrite keep_fst. unfold ev_transfer_encoding. cbn [Types.h_val blank_of as_list rbind cx_env].
  rewrite te_items, lift_ok. rewrite map_map. cbn [fst]. set (cod := map (fun v => lower (before_semi v)) ms). cbv zeta.
  set (un := py_set e (filter (fun x => negb (str_in x [u "chunked"; u "identity"])) cod)).
  assert (Un : forall x, In x un <-> In x cod /\ x <> u "chunked" /\ x <> u "identity").
  { intros x. unfold un. rewrite py_set_In, filter_In, negb_true_iff. split.
    - intros [H1 H2]. split; [exact H1|]. split; intros ->; cbn in H2; discriminate.
    - intros (H1 & H2 & H3). split; [exact H1|]. destruct (str_in x _) eqn:E; [|reflexivity]. apply str_in_In in E. destruct E as [E|[E|[]]]; congruence. }
  assert (End : forall us s, speak (classes transfer_classes) [u "coding"] s (fst (iterW (fun x => add_note TRANSFER_CODING_UNWANTED [vs "coding" x]) us ;;; when (str_in (u "identity") cod) (add_note TRANSFER_CODING_IDENTITY [])))
     = map (fun x => (TRANSFER_CODING_UNWANTED, s, [Some (VStr x)])) us ++ map (fun c => (c, s, [None])) (only (existsb (str_eqb (u "identity")) cod) TRANSFER_CODING_IDENTITY)).
  { intros us s. rewrite bind_iter by reflexivity. rewrite speak_app. f_equal.
    - induction us as [|x us IH]; [reflexivity|]. cbn [flat_map]. rewrite speak_app, IH. reflexivity.
    - change (str_in (u "identity") cod) with (existsb (str_eqb (u "identity")) cod). destruct (existsb _ cod); reflexivity. }
  destruct un as [|u0 un'] eqn:Eun.
  - exists []. split; [split; [constructor|]|].
    + intros x. split; [intros []|]. intros (H1 & H2 & H3 & _). apply Un. auto.
    + intros s. rewrite <- End, bind_ret. reflexivity.
  - rewrite <- Eun in *. destruct (related_request (mkCx e m' rel)) as [r|].
    + destruct Hh as (te & -> & Ht). rewrite Eun, Ht, lift_ok, <- Eun. exists (py_set e (filter (fun x => negb (existsb (fun t0 => eq_text t0 x) (map VStr te))) un)). split; [split; [apply py_set_NoDup|]|].
      * intros x. rewrite py_set_In, filter_In, Un, negb_true_iff. assert (X : existsb (fun t0 => eq_text t0 x) (map VStr te) = true <-> In x te).
        { rewrite existsb_exists. split.
          - intros (y & Hy & Ey). apply in_map_iff in Hy as (z & <- & Hz). unfold eq_text in Ey. cbn [str_of] in Ey. apply str_eqb_eq in Ey. subst. exact Hz.
          - intros Hx. exists (VStr x). split; [apply in_map, Hx|]. unfold eq_text. cbn [str_of]. apply str_eqb_refl. }
        destruct (existsb (fun t0 => eq_text t0 x) (map VStr te)) eqn:Ex.
        -- assert (In x te) by (apply X; reflexivity). split; [intros [_ Y]; discriminate Y|tauto].
        -- assert (~ In x te) by (intros Y; apply X in Y; discriminate Y). tauto.
      * intros s. rewrite <- End, bind_ret. reflexivity.
    + subst o. exists un. split; [split; [apply py_set_NoDup|]|].
      * intros x. rewrite Un. tauto.
      * intros s. rewrite <- End, Eun, bind_ret. reflexivity.
Qed.
Theorem C47_transfer_encoding : forall e rel top headers chunks complete trailers t start nc head base m' rel' o,
  lint e rel top headers chunks complete trailers (new_linter t start nc head base) = (m', rel', Ok tt) ->
  hyphened (u "transfer-encoding") headers -> hyphened (u "transfer-encoding") trailers -> offers t rel "te" o ->
  exists uh ut, unwanted o headers uh /\ unwanted o trailers ut
    /\ heard (classes transfer_classes) [u "coding"] (m_notes m') = transfer_says e t headers uh ++ transfer_says e t trailers ut.
Proof.
  intros e rel top headers chunks complete trailers t start nc head base m' rel' o E H1 H2 Ho.
  assert (T : m_type m' = t) by (destruct (lint_facts _ _ _ _ _ _ _ _ _ _ _ _ _ _ E) as (SM & _); injection SM as -> _ _ _ _; reflexivity).
  assert (Sec : forall l, exists us, unwanted o l us
     /\ list_says (classes transfer_classes) [u "coding"] t (u "transfer-encoding") (par F_transfer_encoding e rel m') (eva F_transfer_encoding e rel m') l = transfer_says e t l us).
  { intros l. destruct (te_eval e t rel m' o (members (u "transfer-encoding") l) T Ho) as (us & Hu & Hs). exists us. split; [exact Hu|]. unfold list_says, transfer_says. cbv zeta. f_equal.
    - apply flat_map_ext. intros [v n]. cbn [fst snd]. apply te_par.
    - assert (P : flat_map (parses (par F_transfer_encoding e rel m')) (map fst (elements t (u "transfer-encoding") l)) = map (te_item e) (members (u "transfer-encoding") l)).
      { rewrite (members_elements t). induction (map fst (elements t (u "transfer-encoding") l)) as [|v y IH]; [reflexivity|]. cbn [flat_map map]. unfold parses at 1. rewrite (proj1 (te_par e rel m' (strip v))). cbn [app]. rewrite IH. reflexivity. }
      rewrite P. change (about_field (u "transfer-encoding")) with (u "field-transfer-encoding"). destruct (values (u "transfer-encoding") l) as [|v0 vs0] eqn:Ev; cbn [nonempty]; [|apply Hs].
      assert (M : members (u "transfer-encoding") l = []) by (unfold members; rewrite Ev; reflexivity). unfold transfer_codings. rewrite M. rewrite M in Hu. destruct us as [|x us]; [reflexivity|].
      exfalso. destruct (proj1 (proj2 Hu x) (or_introl eq_refl)) as [[] _]. }
  destruct (Sec headers) as (uh & U1 & S1). destruct (Sec trailers) as (ut & U2 & S2). exists uh, ut. split; [exact U1|]. split; [exact U2|]. rewrite <- S1, <- S2.
  apply (list_run transfer_classes [u "coding"] F_transfer_encoding (u "transfer-encoding") e rel top headers chunks complete trailers t start nc head base m' rel' E).
  - its_type.
  - intros x. unfold eva. cbn [eval_of]. unfold keep, ev_transfer_encoding. nks.
  - exact H1.
  - exact H2.
  - reflexivity.
Qed.
Print Assumptions C47_transfer_encoding.

(** ** Content-Disposition *)
Definition disp_due (e : env) (v : str) : list nid :=
  let ty := lower (before_semi v) in let d := parameters e NoStarNone v in
  only (negb (str_in ty [u "inline"; u "attachment"])) DISPOSITION_UNKNOWN ++ only (str_eqb ty (u "attachment") && negb (dmem (u "filename") d)) DISPOSITION_OMITS_FILENAME
  ++ only (has_chr 37 (text_of d "filename")) DISPOSITION_FILENAME_PERCENT
  ++ only (has_chr 47 (text_of d "filename") || (nonempty (text_of d "filename*") && has_sub [92; 92] (text_of d "filename*"))) DISPOSITION_FILENAME_PATH_CHAR.
Lemma disp_rules e v : disposition_of (lower (before_semi v)) (parameters e NoStarNone v) (disp_due e v).
Proof.
  unfold disposition_of, disp_due. cbv zeta. do 4 eexists. split; [reflexivity|]. set (ty := lower (before_semi v)). set (d := parameters e NoStarNone v). split; [|split; [|split]].
  - rewrite negb_true_iff. split.
    + intros H. split; intros X; rewrite X in H; vm_compute in H; discriminate.
    + intros [H1 H2]. destruct (str_in ty _) eqn:X; [|reflexivity]. apply str_in_In in X. destruct X as [X|[X|[]]]; congruence.
  - rewrite andb_true_iff, negb_true_iff, str_eqb_eq. unfold dmem, given. destruct (dget (u "filename") d); tauto.
  - apply has_chr_In.
  - rewrite orb_true_iff, andb_true_iff, has_sub_occurs, has_chr_In. split; [tauto|]. intros [H|H]; [auto|]. right. split; [|exact H]. destruct H as (a & b & ->). destruct a; reflexivity.
Qed.
Lemma disp_par e rel m' v : exists x, snd (par F_content_disposition e rel m' v) = Ok x /\ x = VTuple [VStr (lower (before_semi v)); param_dict_val (parameters e NoStarNone v)]
  /\ forall s, map fst (speak (classes disposition_classes) [] s (fst (par F_content_disposition e rel m' v))) = map (fun c => (c, s)) (disp_due e v).
Proof.
  unfold par. cbn [parse_of]. unfold p_content_disposition. rewrite semi_split. destruct (parameters_eq e NoStarNone v) as (l & El). cbn [cx_env].
  pose proof (params_hush (classes disposition_classes) e (after_semi v) NoStarNone DSemi eq_refl) as Hh. rewrite El in *. eexists. split; [|split; [reflexivity|]].
  - unfold bind at 1. cbv zeta. destruct (negb _), (_ && _), (has_chr 37 _), (_ || _); reflexivity.
  - intros s. specialize (Hh [] s). cbn [fst] in Hh. cbv zeta. unfold disp_due, text_of. cbv zeta. unfold bind at 1.
    destruct (negb _), (_ && _), (has_chr 37 _), (_ || _); cbn [when add_note tell bind ret fst app only]; rewrite speak_app, Hh; reflexivity.
Qed.
Theorem C48_disposition : forall e rel top headers chunks complete trailers t start nc head base m' rel',
  lint e rel top headers chunks complete trailers (new_linter t start nc head base) = (m', rel', Ok tt) ->
  hyphened (u "content-disposition") headers -> hyphened (u "content-disposition") trailers ->
  exists due, (forall v, disposition_of (lower (before_semi v)) (parameters e NoStarNone v) (due v))
    /\ reports disposition_classes (m_notes m') = single_due (u "content-disposition") due headers ++ single_due (u "content-disposition") due trailers.
Proof.
  intros e rel top headers chunks complete trailers t start nc head base m' rel' E H1 H2. exists (disp_due e). split; [apply disp_rules|].
  apply (single_run_due disposition_classes F_content_disposition (u "content-disposition") e rel top headers chunks complete trailers t start nc head base m' rel' E).
  - its_type.
  - intros x. unfold eva. cbn [eval_of]. nks.
  - exact H1.
  - exact H2.
  - reflexivity.
  - intros v. destruct (disp_par e rel m' v) as (x & Hx & -> & Hs). rewrite Hx, speak_app, map_app, Hs. unfold eva. cbn [eval_of]. apply app_nil_r.
Qed.
Print Assumptions C48_disposition.
(** With written-out parameters (C17): a type, a semicolon, and name=value parameters. *)
Definition written (ty : str) (ps : list param) : str := ty ++ 59 :: join [59] (map param_text ps).
Lemma written_split ty ps : ~ In 59 ty -> before_semi (written ty ps) = ty /\ after_semi (written ty ps) = join [59] (map param_text ps).
Proof.
  unfold written. generalize (join [59] (map param_text ps)) as r. intros r. induction ty as [|c ty IH]; intros H; [split; reflexivity|]. cbn [app before_semi after_semi].
  destruct (c =? 59) eqn:E; [exfalso; apply H; left; lia|]. destruct IH as [I1 I2]; [intros X; apply H; right; exact X|]. rewrite I1, I2. split; reflexivity.
Qed.
Theorem C48_written : forall e ty ps l, ~ In 59 ty -> Forall param_ok ps ->
  disposition_of (lower (before_semi (written ty ps))) (parameters e NoStarNone (written ty ps)) l ->
  let file := last_value (u "filename") ps in
  exists b1 b2 b3 b4, l = only b1 DISPOSITION_UNKNOWN ++ only b2 DISPOSITION_OMITS_FILENAME ++ only b3 DISPOSITION_FILENAME_PERCENT ++ only b4 DISPOSITION_FILENAME_PATH_CHAR
    /\ (b1 = true <-> lower ty <> u "inline" /\ lower ty <> u "attachment")
    /\ (b2 = true <-> lower ty = u "attachment" /\ file = None)
    /\ (b3 = true <-> exists f, file = Some f /\ In 37 f)
    /\ (b4 = true <-> exists f, file = Some f /\ In 47 f).
Proof.
  intros e ty ps l H59 Hp (b1 & b2 & b3 & b4 & -> & B1 & B2 & B3 & B4) file. destruct (written_split ty ps H59) as [S1 S2]. rewrite S1 in *.
  destruct (parse_params_ok e NoStarNone DSemi ps Hp) as (d & Ed & Hd). assert (P : parameters e NoStarNone (written ty ps) = d).
  { unfold parameters. rewrite S2. change [59] with [delim_chr DSemi]. rewrite Ed. reflexivity. }
  rewrite P in *. exists b1, b2, b3, b4. split; [reflexivity|]. split; [exact B1|]. unfold given, text_of in *. rewrite !Hd in *. fold file in B2, B3, B4. split; [|split].
  - rewrite B2. destruct file; cbn [option_map]; split; intros [? ?]; split; congruence.
  - rewrite B3. destruct file; cbn [option_map]; split; [intros X; eauto|intros (f & F & X); injection F as ->; exact X|intros []|intros (f & F & _); discriminate].
  - assert (Star : last_value (u "filename*") ps = None).
    { clear - Hp. induction Hp as [|p ps (_ & H & _) Hp IH]; [reflexivity|]. cbn [last_value]. rewrite IH. destruct (str_eqb _ _) eqn:Eq; [|reflexivity]. exfalso. apply H. apply str_eqb_eq in Eq.
      assert (L : forall s, last_chr (lower s) = Some 42 -> last_chr s = Some 42).
      { clear. intros s. unfold lower, last_chr. rewrite <- map_rev. destruct (rev s) as [|c r]; [discriminate|]. cbn [map hd_error]. intros H. injection H as H. f_equal.
        revert H. unfold lowc, is_upper_ascii. repeat match goal with |- context [if ?b then _ else _] => destruct b eqn:? end; lia. }
      apply L. rewrite Eq. reflexivity. }
    rewrite Star in B4. cbn [option_map] in B4. rewrite B4. split.
    + intros [X|(a & b & X)]; [destruct file as [f|]; [exists f; auto|destruct X]|]. destruct a; discriminate.
    + intros (f & -> & X). left. exact X.
Qed.
Print Assumptions C48_written.

(** ** Examples *)
(** A response linted with the request it answers, which offered gzip. *)
Definition te_request : mstate := fst (fst (lint env0 None (TopRequest (u "GET") (u "/") (u "HTTP/1.1")) (raws [("TE", "gzip;q=0.5, trailers")]%string) [] true [] (new_linter MRequest None false false []))).
Example C47_offers : offers MResponse (Some te_request) "te" (Some [u "gzip"; u "trailers"]).
Proof. vm_compute. do 2 eexists. split; [reflexivity|]. split; [reflexivity|]. repeat constructor; eexists; reflexivity. Qed.
Definition coding_sample : list rawline := raws [("Transfer-Encoding", "gzip, x;a=1"); ("Content-Disposition", "attachment; filename=""a%2Fb/c"""); ("Transfer-Encoding", "Identity, chunked")]%string.
Example C47_hyph : hyphened (u "transfer-encoding") coding_sample /\ hyphened (u "content-disposition") coding_sample.
Proof. split; apply hyphened_dec; vm_compute; reflexivity. Qed.
Example C47_ex : let '(m, _, r) := lint env0 (Some te_request) (TopResponse (u "1.1") (u "200") None) coding_sample [] true [] (new_linter MResponse None false false []) in
  r = Ok tt /\ map (fun x => (fst (fst x), snd x)) (heard (classes transfer_classes) [u "coding"] (m_notes m))
    = [(TRANSFER_CODING_PARAM, [None]); (TRANSFER_CODING_UNWANTED, [Some (VStr (u "x"))]); (TRANSFER_CODING_IDENTITY, [None])]
  /\ reports disposition_classes (m_notes m) = [(DISPOSITION_FILENAME_PERCENT, u "field-content-disposition"); (DISPOSITION_FILENAME_PATH_CHAR, u "field-content-disposition")].
Proof. vm_compute. repeat split. Qed.
Example C48_ex_written : let p := mkParam (u "FileName") (PQuoted [(97, false); (47, true)]) (u " ") [] in param_ok p /\ last_value (u "filename") [p] = Some (u "a/").
Proof. split; [|reflexivity]. repeat constructor; cbn; try discriminate; unfold q_ok, qdtext, qpair; cbn; lia. Qed.

