(** * A whole body, fed in chunks and finished (for C01). *)
From Verif Require Import PyStr Regex Note PyLib Utils FieldAttrs Types Framework Checks Message
  NoteLemmas TestEnv ContentLemmas GzipLemmas PipeLemmas FrameLemmas.
Open Scope N_scope.

(** A message none of whose body has been fed yet. *)
Definition unfed (m : mstate) : Prop :=
  m_pipeline m = None /\ m_clen m = 0 /\ m_hashed m = [] /\ m_sample m = []
  /\ m_dec_len m = 0 /\ m_dec_hashed m = [].
(** Feed the chunks, then finish. *)
Definition lint_body (e : env) (rel : option mstate) (complete : bool) (tr : list (bytes * bytes))
    (chunks : list bytes) (m : mstate) : mstate * option mstate * res unit :=
  match feed_all e chunks m with
  | (m1, Ok _) => finish_content e rel complete tr m1
  | (m1, Err x) => (m1, rel, Err x)
  end.
(** The same state but for the decoders' internal buffers. *)
Definition same_but_decoders (a b : mstate) : Prop := m_set_pipeline None a = m_set_pipeline None b.

(** Feeding changes nothing but the attributes about the body. *)
Definition fed (m : mstate) (clen : N) (hashed sample : bytes) (pl : option (list stage)) (dlen : N)
    (dhashed : bytes) (ns : list note) : mstate :=
  mkMsg (m_type m) (m_start m) (m_no_content m) (m_version m) (m_base m) (m_headers m) (m_trailers m)
        clen hashed (m_hash m) (m_charenc m) sample (m_complete m) pl dlen dhashed (m_dec_hash m)
        (m_method m) (m_iri m) (m_uri m) (m_status_str m) (m_status m) (m_phrase m) (m_head m)
        (m_caching m) ns.
Definition body_only (m m' : mstate) : Prop :=
  m' = fed m (m_clen m') (m_hashed m') (m_sample m') (m_pipeline m') (m_dec_len m') (m_dec_hashed m') (m_notes m').
Lemma body_only_refl m : body_only m m.
Proof. destruct m; reflexivity. Qed.
Lemma body_only_trans a b c : body_only a b -> body_only b c -> body_only a c.
Proof. unfold body_only. intros -> ->. reflexivity. Qed.
Lemma sinks_body outs : forall m, body_only m (fold_left (fun m o => sink o m) outs m).
Proof.
  induction outs as [|o outs IH]; intros m; cbn [fold_left]; [apply body_only_refl|].
  eapply body_only_trans; [|apply IH]. reflexivity.
Qed.
Lemma feed_body e c m : body_only m (fst (feed_content e c m)).
Proof.
  unfold feed_content, decode_content. destruct (m_no_content m); [reflexivity|].
  set (m1 := m_set_hashed _ _). assert (H1 : body_only m m1) by reflexivity.
  destruct (match m_pipeline m1 with Some st => Ok st | None => build_pipeline m1 end) as [st|x]; [|exact H1].
  destruct (pipe_feed e (m_clen m1) st [c]) as [[outs ns] st']. cbn [fst].
  eapply body_only_trans; [exact H1|]. eapply body_only_trans; [apply (sinks_body outs)|]. reflexivity.
Qed.
Lemma feed_all_body e chunks m : body_only m (fst (feed_all e chunks m)).
Proof.
  apply (feed_all_inv (body_only m) e); [|apply body_only_refl].
  intros c m' H. eapply body_only_trans; [exact H|apply feed_body].
Qed.

(** The state after feeding a body that is well formed in its codings. *)
Lemma fed_state e D B codings m chunks :
  unfed m -> m_no_content m = false ->
  get_or m "content-encoding" (VList []) = VList (map VStr codings) ->
  undo_good e D B codings (concat chunks) ->
  exists pl,
    feed_all e chunks m
    = (fed m (N.of_nat (length (concat chunks))) (concat chunks)
           (firstn content_sample_size (undo D B codings (concat chunks))) pl
           (N.of_nat (length (undo D B codings (concat chunks)))) (undo D B codings (concat chunks)) (m_notes m),
       Ok tt).
Proof.
  intros (U1 & U2 & U3 & U4 & U5 & U6) Hn Hg HX.
  destruct (decoded_body e D B m codings chunks U1 Hn U6 Hg HX) as (R1 & R2 & R3).
  destruct (feed_all_length e chunks m R1) as (L1 & L2 & _). rewrite U2, U3, Hn in *.
  assert (Hs : sampled (fst (feed_all e chunks m))).
  { apply feed_all_sampled. split; rewrite U6; [rewrite U4|rewrite U5]; reflexivity. }
  destruct Hs as [S1 S2]. pose proof (feed_all_body e chunks m) as HB. unfold body_only in HB.
  exists (m_pipeline (fst (feed_all e chunks m))).
  rewrite (surjective_pairing (feed_all e chunks m)), R1, HB. cbn [fst]. f_equal.
  rewrite L1, L2, R3, S1, S2, R2. reflexivity.
Qed.

Lemma lint_split e D B codings m c1 c2 rel complete tr :
  unfed m ->
  get_or m "content-encoding" (VList []) = VList (map VStr codings) ->
  undo_good e D B codings (concat c1) ->
  concat c1 = concat c2 ->
  let '(m1, rel1, r1) := lint_body e rel complete tr c1 m in
  let '(m2, rel2, r2) := lint_body e rel complete tr c2 m in
  same_but_decoders m1 m2 /\ rel1 = rel2 /\ r1 = r2.
Proof.
  intros HU Hg HX E. unfold lint_body. destruct (m_no_content m) eqn:En.
  - rewrite !feed_all_no_content by exact En. rewrite E.
    destruct (finish_content _ _ _ _ _) as [[m1 r1] x1]. repeat split.
  - destruct (fed_state e D B codings m c1 HU En Hg HX) as (p1 & ->).
    rewrite E in HX. destruct (fed_state e D B codings m c2 HU En Hg HX) as (p2 & ->).
    rewrite <- E.
    assert (F : forall a b c p d g h, fed m a b c p d g h = m_set_pipeline p (fed m a b c None d g h)) by reflexivity.
    rewrite (F _ _ _ p1), (F _ _ _ p2), !finish_content_pl. destruct (finish_content _ _ _ _ _) as [[m1 r1] x1]. repeat split.
Qed.

(** New linters are unfed, and header processing and top lines leave them so. *)
Lemma unfed_new t start nc : unfed (new_message t start nc).
Proof. repeat split. Qed.
Lemma unfed_headers e rel l m : unfed m -> unfed (fst (process_headers e rel l m)).
Proof. intros H. rewrite (process_headers_frame e rel l m). exact H. Qed.

(** What is observable after feeding and finishing. *)
Lemma lint_values e D B codings m chunks rel complete tr :
  unfed m -> m_no_content m = false ->
  get_or m "content-encoding" (VList []) = VList (map VStr codings) ->
  undo_good e D B codings (concat chunks) ->
  let m' := fst (fst (lint_body e rel complete tr chunks m)) in
  m_clen m' = N.of_nat (length (concat chunks))
  /\ m_hash m' = Some (e_md5 e (concat chunks))
  /\ m_sample m' = firstn (N.to_nat 8192) (undo D B codings (concat chunks))
  /\ m_dec_len m' = N.of_nat (length (undo D B codings (concat chunks))).
Proof.
  intros HU Hn Hg HX. unfold lint_body.
  destruct (fed_state e D B codings m chunks HU Hn Hg HX) as (p1 & ->).
  match goal with |- context [finish_content e rel complete tr ?x] =>
    destruct (finish_content_frame e rel complete tr x) as (F & Fh & _) end.
  cbv zeta. rewrite Fh. rewrite F. repeat split.
Qed.
(** Length and hash: whatever the codings, whatever the decoders do. *)
Lemma lint_length e m chunks rel complete tr :
  unfed m -> snd (feed_all e chunks m) = Ok tt ->
  let m' := fst (fst (lint_body e rel complete tr chunks m)) in
  m_clen m' = N.of_nat (length (concat chunks))
  /\ m_hash m' = Some (e_md5 e (if m_no_content m then [] else concat chunks)).
Proof.
  intros (U1 & U2 & U3 & U4 & U5 & U6) Hok. destruct (feed_all_length e chunks m Hok) as (L1 & L2 & L3).
  rewrite U2, U3 in *. cbn [app] in L2. unfold lint_body.
  destruct (feed_all e chunks m) as [m1 r]. cbn [fst snd] in *. subst r.
  destruct (finish_content_frame e rel complete tr m1) as (F & Fh & _). cbv zeta. rewrite Fh, L2.
  rewrite F. cbn. split; [rewrite L1; reflexivity|]. reflexivity.
Qed.
(** Feeding raises nothing when Content-Encoding was parsed to a list. *)
Lemma feed_all_ok e chunks : forall m st, pipeline_of m = Ok st -> snd (feed_all e chunks m) = Ok tt.
Proof.
  induction chunks as [|c cs IH]; intros m st Hp; cbn [feed_all]; [reflexivity|].
  pose proof (feed_content_spec e c m) as H. cbv zeta in H. destruct H as (_ & Hh & _ & Ha & Hb).
  assert (H : snd (feed_content e c m) = Ok tt /\ exists st', pipeline_of (fst (feed_content e c m)) = Ok st').
  { destruct (m_no_content m).
    - destruct (Ha eq_refl) as (-> & ->). split; [reflexivity|]. exists st. exact Hp.
    - destruct (Hb eq_refl) as (_ & H). rewrite Hp in H.
      destruct (pipe_feed _ _ _ _) as [[outs ns] st']. destruct H as (-> & H & _).
      split; [reflexivity|]. exists st'. unfold pipeline_of. rewrite H. reflexivity. }
  destruct H as (H & st' & H'). destruct (feed_content e c m) as [m1 r]. cbn [fst snd then_] in *. subst r.
  cbn [then_]. apply (IH m1 st' H').
Qed.
