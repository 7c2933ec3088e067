(** * Bodies: hashing, sampling, decoding (C01, C02, C25-C27). *)
From Verif Require Import PyStr Regex Note PyLib Utils FieldAttrs Types Fields1 Fields2 Fields3
  Framework Checks Message NoteLemmas.
Open Scope N_scope.

(** ** The loop never runs out of rounds *)
Lemma iter_until_done {S R} (f : S -> S + R) (mu : S -> N) :
  (forall s s', f s = inl s' -> mu s' < mu s) ->
  forall p s s', iter_until p f s = inl s' -> mu s' + Npos p <= mu s.
Proof.
  intros H p; induction p as [p IH|p IH|]; cbn [iter_until]; intros s s' E.
  - destruct (f s) as [s1|r] eqn:E1; [|discriminate]. apply H in E1.
    destruct (iter_until p f s1) as [s2|r] eqn:E2; [|discriminate]. apply IH in E2.
    apply IH in E. lia.
  - destruct (iter_until p f s) as [s1|r] eqn:E1; [|discriminate]. apply IH in E1. apply IH in E. lia.
  - apply H in E. lia.
Qed.
Lemma iter_until_inv {S R} (f : S -> S + R) (I : S -> Prop) (O : R -> Prop) :
  (forall s, I s -> match f s with inl s' => I s' | inr r => O r end) ->
  forall p s, I s -> match iter_until p f s with inl s' => I s' | inr r => O r end.
Proof.
  intros H p; induction p as [p IH|p IH|]; cbn [iter_until]; intros s Hs.
  - pose proof (H s Hs) as H1. destruct (f s) as [s1|r]; [|exact H1].
    pose proof (IH s1 H1) as H2. destruct (iter_until p f s1) as [s2|r]; [|exact H2]. apply IH, H2.
  - pose proof (IH s Hs) as H1. destruct (iter_until p f s) as [s1|r]; [|exact H1]. apply IH, H1.
  - apply H, Hs.
Qed.

Definition gz_measure (s : gzst) : N :=
  let '(_, total, _, _, first) := s in (max_decompressed - total) + (if first : bool then 1 else 0).
Definition gz_total (s : gzst) : N := let '(_, total, _, _, _) := s in total.
Lemma gzip_step_measure e clen chunk s s' :
  gz_total s <= max_decompressed -> gzip_step e clen chunk s = inl s' ->
  gz_measure s' < gz_measure s /\ gz_total s' <= max_decompressed.
Proof.
  destruct s as [[[[hist total] outs] input] first]. cbn [gz_total gzip_step].
  destruct (e_inflate e hist input) as [[out tail]|err]; [|discriminate].
  destruct out as [|c out].
  - destruct first, (nonempty tail); cbn [andb]; try discriminate. intros Ht H. injection H as <-.
    cbn [gz_measure gz_total]. lia.
  - destruct (max_decompressed <? total + N.of_nat (length (c :: out))) eqn:El; [discriminate|].
    apply N.ltb_ge in El. destruct (nonempty tail); [|discriminate]. intros Ht H. injection H as <-.
    cbn [gz_measure gz_total]. cbn [length] in *. destruct first; lia.
Qed.
(** content_encoding.py:110-131: [while] ends within [gzip_rounds]. *)
Lemma gzip_rounds_enough e clen chunk hist total :
  total <= max_decompressed ->
  exists r, iter_until gzip_rounds (gzip_step e clen chunk) (hist, total, [], chunk, true) = inr r.
Proof.
  intros Ht.
  (* restrict the step to states within the limit *)
  set (f := fun s => if max_decompressed <? gz_total s then inr (hist, total, [], false, []) else gzip_step e clen chunk s).
  assert (Hf : forall s s', f s = inl s' -> gz_measure s' < gz_measure s).
  { intros s s'. unfold f. destruct (max_decompressed <? gz_total s) eqn:E; [discriminate|].
    apply N.ltb_ge in E. intros H. eapply gzip_step_measure; eauto. }
  assert (Heq : forall p s, gz_total s <= max_decompressed ->
            iter_until p f s = iter_until p (gzip_step e clen chunk) s
            /\ match iter_until p (gzip_step e clen chunk) s with inl s' => gz_total s' <= max_decompressed | inr _ => True end).
  { assert (H1 : forall s, gz_total s <= max_decompressed ->
              f s = gzip_step e clen chunk s
              /\ match gzip_step e clen chunk s with inl s' => gz_total s' <= max_decompressed | inr _ => True end).
    { intros s Hs. unfold f. replace (max_decompressed <? gz_total s) with false
        by (symmetry; apply N.ltb_ge; exact Hs). split; [reflexivity|].
      destruct (gzip_step e clen chunk s) as [s'|r] eqn:E; [|exact I].
      eapply gzip_step_measure; eauto. }
    intros p; induction p as [p IH|p IH|]; cbn [iter_until]; intros s Hs.
    - destruct (H1 s Hs) as [-> H2]. destruct (gzip_step e clen chunk s) as [s1|r]; [|auto].
      destruct (IH s1 H2) as [-> H3]. destruct (iter_until p _ s1) as [s2|r]; [|auto]. apply IH, H3.
    - destruct (IH s Hs) as [-> H3]. destruct (iter_until p _ s) as [s2|r]; [|auto]. apply IH, H3.
    - apply H1, Hs. }
  destruct (Heq gzip_rounds (hist, total, [], chunk, true) Ht) as [E _].
  rewrite <- E. destruct (iter_until gzip_rounds f _) as [s'|r] eqn:E2; [|eauto].
  apply (iter_until_done f gz_measure Hf) in E2. exfalso. revert E2.
  destruct s' as [[[[a b] c] d] fl]. cbn [gz_measure].
  unfold gzip_rounds, max_decompressed in *. destruct fl; lia.
Qed.

(** ** C26: a decoder is bounded and stops after a report *)
Definition bytes_total (l : list bytes) : N := N.of_nat (length (concat l)).
Lemma bytes_total_app a b : bytes_total (a ++ b) = bytes_total a + bytes_total b.
Proof. unfold bytes_total. rewrite concat_app, app_length. lia. Qed.
Definition stage_ok (s : stage) : bool := match s with Gzip _ _ _ _ ok | Brotli _ _ ok => ok end.
Definition stage_total (s : stage) : N := match s with Gzip _ _ _ t _ | Brotli _ t _ => t end.

Definition decoder_note (n : snote) : Prop :=
  In (fst n) [DECOMPRESSION_LIMIT; BAD_GZIP; BAD_ZLIB; BAD_BROTLI].
Lemma gzip_loop_bound e clen hist total chunk :
  total <= max_decompressed ->
  let '(hist', total', outs, ok, ns) := gzip_loop e clen hist total chunk in
  total + bytes_total outs <= max_decompressed
  /\ (ok = true -> ns = [] /\ total' = total + bytes_total outs)
  /\ (ok = false -> length ns = 1%nat)
  /\ Forall decoder_note ns.
Proof.
  intros Ht. unfold gzip_loop. destruct (gzip_rounds_enough e clen chunk hist total Ht) as [r Hr].
  set (I := fun s : gzst => let '(_, t, outs, _, _) := s in t = total + bytes_total outs /\ t <= max_decompressed).
  set (O := fun r : gzres => let '(_, t', outs, ok, ns) := r in
              total + bytes_total outs <= max_decompressed
              /\ (ok = true -> ns = [] /\ t' = total + bytes_total outs)
              /\ (ok = false -> length ns = 1%nat) /\ Forall decoder_note ns).
  pose proof (iter_until_inv (gzip_step e clen chunk) I O) as H.
  match type of H with ?P -> _ => assert (HP : P) end.
  { clear. intros [[[[hist t] outs] input] first] [Ht Hl]. unfold I, O, gzip_step.
    destruct (e_inflate e hist input) as [[out tail]|err].
    - destruct out as [|c out].
      + destruct (first && nonempty tail); cbn; [auto|]. repeat split; auto; try lia; discriminate.
      + destruct (max_decompressed <? t + N.of_nat (length (c :: out))) eqn:El.
        * split; [lia|]. split; [discriminate|]. split; [reflexivity|].
          constructor; [left; reflexivity|constructor].
        * apply N.ltb_ge in El.
          assert (E : t + N.of_nat (length (c :: out)) = total + bytes_total (outs ++ [c :: out])).
          { rewrite bytes_total_app. unfold bytes_total at 2. cbn [concat]. rewrite app_nil_r. lia. }
          destruct (nonempty tail); [split; [exact E|exact El]|].
          split; [exact (N.le_trans _ _ _ (N.eq_le_incl _ _ (eq_sym E)) El)|]. split; [auto|]. split; [discriminate|constructor].
    - split; [lia|]. split; [discriminate|]. split; [reflexivity|].
      constructor; [right; right; left; reflexivity|constructor]. }
  specialize (H HP gzip_rounds (hist, total, [], chunk, true)).
  match type of H with ?P -> _ => assert (HQ : P) by (unfold I; cbn; split; [lia|exact Ht]) end.
  specialize (H HQ). rewrite Hr in H |- *. destruct r as [[[[a b] c] d] n]. exact H.
Qed.
Lemma stage_feed_bound e clen s chunk :
  (stage_ok s = true -> stage_total s <= max_decompressed) ->
  let '(outs, ns, s') := stage_feed e clen s chunk in
  (stage_ok s = false -> outs = [] /\ ns = [] /\ s' = s)
  /\ (stage_ok s' = true -> ns = [] /\ stage_total s' = stage_total s + bytes_total outs
                            /\ stage_total s' <= max_decompressed)
  /\ (stage_ok s = true -> stage_total s + bytes_total outs <= max_decompressed)
  /\ (stage_ok s = true -> stage_ok s' = false -> length ns = 1%nat)
  /\ Forall decoder_note ns.
Proof.
  intros Hs. destruct s as [hist in_gz buf total ok|hist total ok]; cbn [stage_ok stage_total] in Hs; cbn [stage_feed].
  - destruct ok; cbn [negb].
    + specialize (Hs eq_refl).
      assert (Hrun : forall rest,
        let '(outs, ns, s') := (let '(hist', total', outs, ok, ns) := gzip_loop e clen hist total rest in
                                (outs, ns, Gzip hist' true [] total' ok)) in
        (stage_ok (Gzip hist in_gz buf total true) = false -> outs = [] /\ ns = [] /\ s' = Gzip hist in_gz buf total true)
        /\ (stage_ok s' = true -> ns = [] /\ stage_total s' = total + bytes_total outs /\ stage_total s' <= max_decompressed)
        /\ (stage_ok (Gzip hist in_gz buf total true) = true -> total + bytes_total outs <= max_decompressed)
        /\ (stage_ok (Gzip hist in_gz buf total true) = true -> stage_ok s' = false -> length ns = 1%nat)
        /\ Forall decoder_note ns).
      { intros rest. pose proof (gzip_loop_bound e clen hist total rest Hs) as H.
        destruct (gzip_loop e clen hist total rest) as [[[[h' t'] outs] ok] ns].
        destruct H as (H1 & H2 & H3 & H4). cbn [stage_ok stage_total].
        split; [discriminate|]. split; [intros ->; destruct (H2 eq_refl); subst; auto|].
        split; [auto|]. split; auto. }
      destruct in_gz; [apply Hrun|].
      destruct (gzip_header (buf ++ chunk)) as [|why|rest]; [| |apply Hrun];
        cbn [stage_ok stage_total]; unfold bytes_total; cbn [concat length N.of_nat].
      * repeat split; try discriminate; try lia; auto; try (intros; discriminate).
      * repeat split; try discriminate; try lia; auto. constructor; [right; left; reflexivity|constructor].
    + cbn [stage_ok stage_total]. repeat split; try discriminate; auto.
  - destruct ok; cbn [negb].
    + specialize (Hs eq_refl).
      destruct (e_brotli e hist chunk) as [[|c out]|err].
      * cbn [stage_ok stage_total]. unfold bytes_total. cbn. repeat split; try discriminate; try lia; auto.
      * destruct (max_decompressed <? total + N.of_nat (length (c :: out))) eqn:El;
          cbn [stage_ok stage_total]; unfold bytes_total; cbn [concat]; rewrite ?app_nil_r.
        -- repeat split; try discriminate; cbn; try lia; auto. constructor; [left; reflexivity|constructor].
        -- apply N.ltb_ge in El. repeat split; try discriminate; try lia; auto; try (intros; discriminate).
      * cbn [stage_ok stage_total]. unfold bytes_total. cbn. repeat split; try discriminate; try lia; auto.
        constructor; [do 3 right; left; reflexivity|constructor].
    + cbn [stage_ok stage_total]. repeat split; try discriminate; auto.
Qed.
(** One decoder, fed any chunks with any content_length at each: its outputs
    and notes. *)
Fixpoint decoder_run (e : env) (s : stage) (l : list (N * bytes)) : list (list bytes * list snote) * stage :=
  match l with
  | [] => ([], s)
  | (clen, c) :: l' =>
      let '(o, n, s1) := stage_feed e clen s c in
      let '(r, s2) := decoder_run e s1 l' in
      ((o, n) :: r, s2)
  end.
(** ... nothing but silence from a list of results *)
Definition silent (l : list (list bytes * list snote)) : Prop := Forall (fun r => r = ([], [])) l.
Lemma decoder_run_stopped e l : forall s, stage_ok s = false -> silent (fst (decoder_run e s l)).
Proof.
  induction l as [|[clen c] l IH]; intros s Hs; cbn [decoder_run]; [constructor|].
  pose proof (stage_feed_bound e clen s c) as H.
  destruct (stage_feed e clen s c) as [[o n] s1]. destruct H as [H _]; [congruence|].
  destruct (H Hs) as (-> & -> & ->). specialize (IH s Hs). destruct (decoder_run e s l). cbn [fst] in *.
  constructor; auto.
Qed.
Lemma decoder_run_bound e l : forall s,
  (stage_ok s = true -> stage_total s <= max_decompressed) ->
  let r := fst (decoder_run e s l) in
  (stage_ok s = true -> stage_total s + bytes_total (flat_map fst r) <= max_decompressed)
  /\ (length (flat_map snd r) <= 1)%nat
  /\ Forall decoder_note (flat_map snd r)
  /\ (forall a x b, r = a ++ x :: b -> snd x <> [] -> silent b).
Proof.
  induction l as [|[clen c] l IH]; intros s Hs; cbn [decoder_run].
  - cbn. split; [unfold bytes_total; cbn; intros H; specialize (Hs H); lia|].
    split; [lia|]. split; [constructor|]. intros [|? ?] x b H; discriminate.
  - pose proof (stage_feed_bound e clen s c Hs) as H.
    destruct (stage_feed e clen s c) as [[o n] s1] eqn:Ef. destruct H as (H1 & H2 & H3 & H4 & H5).
    destruct (stage_ok s1) eqn:Es1.
    + destruct (H2 eq_refl) as (Hn & Ht1 & Hb).
      specialize (IH s1 (fun _ => Hb)). pose proof (decoder_run_stopped e l s1) as Hst.
      destruct (decoder_run e s1 l) as [r s2]. cbn [fst] in *. subst n. cbn [flat_map fst snd app].
      destruct IH as (I1 & I2 & I3 & I4). split.
      { intros Hok. specialize (I1 Es1). rewrite bytes_total_app. lia. }
      split; [exact I2|]. split; [exact I3|].
      intros [|y a] x b E Hx; injection E as E1 E2; [subst x; cbn in Hx; congruence|]. eapply I4; eauto.
    + pose proof (decoder_run_stopped e l s1 Es1) as Hst.
      destruct (decoder_run e s1 l) as [r s2]. cbn [fst] in *. cbn [flat_map fst snd].
      assert (E1 : flat_map fst r = [] /\ flat_map snd r = []).
      { clear - Hst. induction Hst as [|x r Hx _ IH]; [split; reflexivity|]. subst x. exact IH. }
      destruct E1 as [-> ->]. rewrite !app_nil_r. split.
      { intros Hok. apply H3, Hok. }
      split.
      { destruct (stage_ok s) eqn:Eok; [rewrite H4; auto|]. destruct (H1 eq_refl) as (_ & -> & _). cbn; lia. }
      split; [exact H5|].
      intros [|y a] x b E Hx; injection E as E1 E2; [subst; exact Hst|].
      subst r. apply Forall_app in Hst as [_ Hst]. inversion Hst; subst. cbn in Hx. congruence.
Qed.

(** *** ... and a whole pipeline *)
Definition ok_count (st : list stage) : nat := length (filter stage_ok st).
Definition stage_inv (s : stage) : Prop := stage_ok s = true -> stage_total s <= max_decompressed.
Lemma stage_feeds_bound e clen chunks : forall s, stage_inv s ->
  let '(outs, ns, s') := stage_feeds e clen s chunks in
  stage_inv s'
  /\ (length ns + ok_count [s'] = ok_count [s])%nat
  /\ (stage_ok s = false -> outs = [] /\ s' = s)
  /\ (stage_ok s = true -> stage_total s + bytes_total outs <= max_decompressed)
  /\ (stage_ok s' = true -> stage_total s' = stage_total s + bytes_total outs)
  /\ Forall decoder_note ns.
Proof.
  induction chunks as [|c cs IH]; intros s Hs; cbn [stage_feeds].
  - split; [exact Hs|]. split; [reflexivity|]. split; [auto|].
    unfold bytes_total; cbn. repeat split; auto; try lia. intros H; specialize (Hs H); lia.
  - pose proof (stage_feed_bound e clen s c Hs) as H.
    destruct (stage_feed e clen s c) as [[o1 n1] s1]. destruct H as (H1 & H2 & H3 & H4 & H5).
    assert (Hs1 : stage_inv s1) by (intros E; apply H2, E).
    specialize (IH s1 Hs1). destruct (stage_feeds e clen s1 cs) as [[o2 n2] s2].
    destruct IH as (I1 & I2 & I3 & I4 & I5 & I6).
    split; [exact I1|]. split.
    { rewrite app_length. enough (length n1 + ok_count [s1] = ok_count [s])%nat by lia.
      unfold ok_count. cbn [filter]. destruct (stage_ok s) eqn:E0.
      - destruct (stage_ok s1) eqn:E1; [destruct (H2 eq_refl) as (-> & _); reflexivity|].
        rewrite H4 by reflexivity. reflexivity.
      - destruct (H1 eq_refl) as (_ & -> & ->). rewrite E0. reflexivity. }
    split.
    { intros E0. destruct (H1 E0) as (-> & -> & ->). destruct (I3 E0) as (-> & ->). auto. }
    split.
    { intros E0. rewrite bytes_total_app. destruct (stage_ok s1) eqn:E1.
      - destruct (H2 eq_refl) as (_ & Ht & _). specialize (I4 eq_refl). lia.
      - destruct (I3 eq_refl) as (-> & _). specialize (H3 E0). unfold bytes_total at 2. cbn. lia. }
    split; [|apply Forall_app; split; assumption].
    intros E2. rewrite bytes_total_app. destruct (stage_ok s1) eqn:E1.
    + destruct (H2 eq_refl) as (_ & Ht & _). rewrite I5 by exact E2. lia.
    + destruct (I3 eq_refl) as (_ & ->). congruence.
Qed.
(** The decoder that feeds the sink. *)
Fixpoint last_stage (st : list stage) : option stage :=
  match st with [] => None | [s] => Some s | _ :: st' => last_stage st' end.
Definition sink_rel (st st' : list stage) (outs : list bytes) : Prop :=
  match last_stage st, last_stage st' with
  | Some s, Some s' =>
      (stage_ok s = false -> outs = [] /\ s' = s)
      /\ (stage_ok s = true -> stage_total s + bytes_total outs <= max_decompressed)
      /\ (stage_ok s' = true -> stage_total s' = stage_total s + bytes_total outs)
  | None, None => True
  | _, _ => False
  end.
Lemma pipe_feed_bound e clen st : forall chunks, Forall stage_inv st ->
  let '(outs, ns, st') := pipe_feed e clen st chunks in
  Forall stage_inv st' /\ length st' = length st
  /\ (length ns + ok_count st' = ok_count st)%nat
  /\ sink_rel st st' outs
  /\ Forall decoder_note ns.
Proof.
  induction st as [|s st IH]; intros chunks H; cbn [pipe_feed].
  - repeat split; auto; try congruence.
  - inversion H as [|? ? Hs Hst]; subst.
    pose proof (stage_feeds_bound e clen chunks s Hs) as Hf.
    destruct (stage_feeds e clen s chunks) as [[outs own] s'].
    destruct Hf as (F1 & F2 & F3 & F4 & F5 & F6).
    specialize (IH outs Hst). destruct (pipe_feed e clen st outs) as [[res ns] st'] eqn:Ep.
    destruct IH as (I1 & I2 & I3 & I4 & I7).
    split; [constructor; auto|]. split; [cbn; lia|]. split.
    { rewrite app_length. unfold ok_count in *. cbn [filter] in *.
      destruct (stage_ok s), (stage_ok s'); cbn [length] in *; lia. }
    split; [|apply Forall_app; split; assumption].
    destruct st as [|s2 st].
    + cbn in Ep. injection Ep as <- <- <-. cbn. auto.
    + destruct st' as [|s2' st']; [discriminate|]. exact I4.
Qed.

(** The state of a message whose body is being read. *)
Definition body_inv (n : nat) (m : mstate) : Prop :=
  match m_pipeline m with
  | None => True
  | Some st => Forall stage_inv st /\ length st = n
               /\ match last_stage st with
                  | Some s => m_dec_len m <= max_decompressed
                              /\ (stage_ok s = true -> m_dec_len m = stage_total s)
                  | None => True
                  end
  end.
Definition dec_count (ns : list note) : nat :=
  length (filter (fun n => existsb (nid_eqb (n_cls n)) [DECOMPRESSION_LIMIT; BAD_GZIP; BAD_ZLIB; BAD_BROTLI]) ns).
Lemma emit_plain t ns l :
  (forall s, In s l -> exists subj base cls cat vrs kids, s = (subj, base, ENote cls cat vrs kids)) ->
  exists new, emit t ns l = ns ++ new /\ length new = length l
    /\ map n_cls new = map (fun s : sev => match snd s with ENote c _ _ _ => c | _ => BAD_SYNTAX end) l.
Proof.
  revert ns; induction l as [|s l IH]; intros ns H; cbn [emit fold_left].
  - exists []. rewrite app_nil_r. repeat split.
  - destruct (H s (or_introl eq_refl)) as (subj & base & cls & cat & vrs & kids & ->).
    destruct (IH (emit_one t ns (subj, base, ENote cls cat vrs kids))) as (new & E & Hl & Hm);
      [intros s Hs; apply H; right; exact Hs|].
    cbn [emit_one] in E. eexists (_ :: new). split.
    + cbn [emit_one]. rewrite <- app_assoc in E. exact E.
    + cbn [length map snd]. rewrite Hl. split; [reflexivity|]. f_equal. exact Hm.
Qed.
Lemma ce_emit t ns l :
  exists new, emit t ns (ce_events l) = ns ++ new /\ map n_cls new = map fst l.
Proof.
  destruct (emit_plain t ns (ce_events l)) as (new & E & _ & Hm).
  - unfold ce_events. intros s Hs. apply in_map_iff in Hs as (x & <- & _). eauto 10.
  - exists new. split; [exact E|]. rewrite Hm. unfold ce_events. rewrite map_map. reflexivity.
Qed.
Lemma sinks_spec outs : forall m,
  let m' := fold_left (fun m o => sink o m) outs m in
  m_dec_hashed m' = m_dec_hashed m ++ concat outs
  /\ m_dec_len m' = m_dec_len m + bytes_total outs
  /\ (m_sample m = firstn content_sample_size (m_dec_hashed m) ->
      m_sample m' = firstn content_sample_size (m_dec_hashed m'))
  /\ m_clen m' = m_clen m /\ m_hashed m' = m_hashed m /\ m_pipeline m' = m_pipeline m
  /\ m_headers m' = m_headers m /\ m_no_content m' = m_no_content m.
Proof.
  induction outs as [|o outs IH]; intros m; cbn [fold_left].
  - cbn. unfold bytes_total. cbn. rewrite app_nil_r, N.add_0_r. auto 10.
  - destruct (IH (sink o m)) as (I1 & I2 & I3 & I4 & I5 & I6 & I7 & I8).
    cbn [m_dec_hashed m_dec_len m_clen m_hashed m_pipeline m_headers m_no_content sink m_set_sample m_set_dec_len m_set_dec_hashed] in *.
    split; [rewrite I1; cbn [concat]; rewrite app_assoc; reflexivity|].
    split; [rewrite I2; unfold bytes_total; cbn [concat]; rewrite app_length; lia|].
    split; [|repeat (split; [assumption|]); assumption].
    intros H. apply I3. cbn [m_sample sink m_set_sample]. rewrite H.
    rewrite firstn_app. f_equal. rewrite firstn_length.
    destruct (Nat.le_ge_cases content_sample_size (length (m_dec_hashed m))) as [L|L].
    + rewrite Nat.min_l by exact L. rewrite Nat.sub_diag.
      replace (content_sample_size - length (m_dec_hashed m))%nat with O by lia. reflexivity.
    + rewrite Nat.min_r by exact L. reflexivity.
Qed.

(** *** [feed_content] in one lemma *)
Definition pipeline_of (m : mstate) : res (list stage) :=
  match m_pipeline m with Some st => Ok st | None => build_pipeline m end.
Lemma feed_content_spec e c m :
  let m' := fst (feed_content e c m) in
  m_clen m' = m_clen m + N.of_nat (length c)
  /\ m_headers m' = m_headers m /\ m_no_content m' = m_no_content m
  /\ (m_no_content m = true ->
        snd (feed_content e c m) = Ok tt
        /\ m' = m_set_clen (m_clen m + N.of_nat (length c)) m)
  /\ (m_no_content m = false ->
        m_hashed m' = m_hashed m ++ c
        /\ match pipeline_of m with
           | Err x => snd (feed_content e c m) = Err x /\ m_notes m' = m_notes m
                      /\ m_dec_hashed m' = m_dec_hashed m /\ m_dec_len m' = m_dec_len m
                      /\ m_sample m' = m_sample m /\ m_pipeline m' = m_pipeline m
           | Ok st =>
               let '(outs, ns, st') := pipe_feed e (m_clen m + N.of_nat (length c)) st [c] in
               snd (feed_content e c m) = Ok tt
               /\ m_pipeline m' = Some st'
               /\ m_dec_hashed m' = m_dec_hashed m ++ concat outs
               /\ m_dec_len m' = m_dec_len m + bytes_total outs
               /\ (m_sample m = firstn content_sample_size (m_dec_hashed m) ->
                   m_sample m' = firstn content_sample_size (m_dec_hashed m'))
               /\ m_notes m' = emit (m_type m) (m_notes m) (ce_events ns)
           end).
Proof.
  unfold feed_content, decode_content, pipeline_of.
  destruct (m_no_content m) eqn:En.
  { cbn. repeat split; auto; discriminate. }
  set (m1 := m_set_hashed _ _).
  change (m_pipeline m1) with (m_pipeline m).
  change (build_pipeline m1) with (build_pipeline m).
  change (m_clen m1) with (m_clen m + N.of_nat (length c)).
  destruct (match m_pipeline m with Some st => Ok st | None => build_pipeline m end) as [st|x].
  - destruct (pipe_feed e (m_clen m + N.of_nat (length c)) st [c]) as [[outs ns] st'].
    cbn [fst snd].
    destruct (sinks_spec outs m1) as (S1 & S2 & S3 & S4 & S5 & S6 & S7 & S8).
    pose proof (sinks_notes outs m1) as S9. pose proof (sinks_type outs m1) as S10.
    set (m2 := fold_left _ outs m1) in *.
    cbn [m_emit m_set_notes m_set_pipeline m_clen m_headers m_no_content m_hashed m_pipeline m_dec_hashed
         m_dec_len m_sample m_notes m_type].
    rewrite S4, S7, S8, S5, S9, S10. split; [reflexivity|]. split; [reflexivity|]. split; [exact En|].
    split; [discriminate|]. intros _. split; [reflexivity|]. repeat (split; [reflexivity || assumption|]).
    reflexivity.
  - cbn. repeat split; auto; discriminate.
Qed.

Definition count_codings (m : mstate) : nat :=
  match pipeline_of m with Ok st => length st | Err _ => O end.
Lemma stage_of_fresh c : Forall (fun s => stage_ok s = true /\ stage_total s = 0) (stage_of c).
Proof.
  unfold stage_of. destruct (str_in _ _); [repeat constructor|]. destruct (str_eqb _ _); repeat constructor.
Qed.
Lemma build_pipeline_fresh m st :
  build_pipeline m = Ok st -> Forall (fun s => stage_ok s = true /\ stage_total s = 0) st.
Proof.
  unfold build_pipeline. destruct (as_list _) as [l|x]; [|discriminate]. cbn. intros H. injection H as <-.
  apply Forall_rev. apply Forall_flat_map. apply Forall_forall. intros v _.
  destruct v; try constructor. apply stage_of_fresh.
Qed.
Lemma dec_count_app a b : dec_count (a ++ b) = (dec_count a + dec_count b)%nat.
Proof. unfold dec_count. rewrite filter_app, app_length. reflexivity. Qed.
Lemma dec_count_le l : (dec_count l <= length l)%nat.
Proof. unfold dec_count. set (f := fun n => _). induction l as [|x l IH]; cbn [filter length]; [lia|]. destruct (f x); cbn [length]; lia. Qed.
Definition oks (m : mstate) : nat := match pipeline_of m with Ok st => ok_count st | Err _ => O end.
Lemma last_stage_In st s : last_stage st = Some s -> In s st.
Proof.
  induction st as [|x [|y st] IH]; cbn; intros H; [discriminate|injection H as ->; auto|]. right. apply IH, H.
Qed.
(** One feed: decoded output stays within the limit; the notes added are paid
    for by decoders that stop. *)
Lemma feed_bound e c m n :
  body_inv n m -> (m_pipeline m = None -> m_dec_len m = 0 /\ count_codings m = n) -> n <> O ->
  let m' := fst (feed_content e c m) in
  body_inv n m' /\ (m_pipeline m' = None -> m_dec_len m' = 0 /\ count_codings m' = n)
  /\ m_dec_len m' <= N.max (m_dec_len m) max_decompressed
  /\ (dec_count (m_notes m') + oks m' <= dec_count (m_notes m) + oks m)%nat.
Proof.
  intros HB HN Hn. pose proof (feed_content_spec e c m) as H. cbv zeta in *.
  set (m' := fst (feed_content e c m)) in *.
  destruct H as (_ & Hh & _ & H1 & H2).
  destruct (m_no_content m) eqn:En.
  { destruct (H1 eq_refl) as (_ & ->).
    change (m_pipeline (m_set_clen _ m)) with (m_pipeline m).
    split; [exact HB|]. split; [exact HN|]. cbn [m_set_clen m_dec_len m_notes].
    change (oks (m_set_clen _ m)) with (oks m). split; [lia|reflexivity]. }
  destruct (H2 eq_refl) as (_ & H3). clear H1 H2. unfold oks.
  destruct (pipeline_of m) as [st|x] eqn:Ep.
  - pose proof (pipe_feed_bound e (m_clen m + N.of_nat (length c)) st [c]) as HP.
    assert (Hst : Forall stage_inv st /\ length st = n
                  /\ (forall s, last_stage st = Some s ->
                        m_dec_len m <= max_decompressed /\ (stage_ok s = true -> m_dec_len m = stage_total s))).
    { unfold pipeline_of, body_inv, count_codings in *. destruct (m_pipeline m) as [st0|] eqn:E0.
      - injection Ep as <-. destruct HB as (B1 & B2 & B3). split; [exact B1|]. split; [exact B2|].
        intros s Hs. rewrite Hs in B3. exact B3.
      - pose proof (build_pipeline_fresh m st Ep) as Hf. destruct (HN eq_refl) as (Z0 & HN').
        unfold pipeline_of in HN'. rewrite E0, Ep in HN'.
        split; [|split; [exact HN'|]].
        + eapply Forall_impl; [|exact Hf]. intros s [_ Hs] _. rewrite Hs. unfold max_decompressed; lia.
        + intros s Hs. apply last_stage_In in Hs. rewrite Forall_forall in Hf. destruct (Hf s Hs) as [_ ->].
          rewrite Z0. unfold max_decompressed; split; [lia|auto]. }
    destruct Hst as (Hst & Hlen & Hlast). specialize (HP Hst).
    destruct (pipe_feed e (m_clen m + N.of_nat (length c)) st [c]) as [[outs ns] st'].
    destruct HP as (P1 & P2 & P3 & P4 & P5).
    destruct H3 as (_ & Hp' & _ & Hd' & _ & Hn').
    unfold body_inv, pipeline_of. rewrite Hp', Hd'.
    assert (Hs : exists s s', last_stage st = Some s /\ last_stage st' = Some s').
    { unfold sink_rel in P4. destruct (last_stage st) as [s|] eqn:E1.
      - destruct (last_stage st') as [s'|]; [eauto|contradiction].
      - destruct st as [|a st]; [cbn in Hlen; congruence|]. exfalso. clear - E1.
        revert a E1; induction st as [|b st IH]; intros a E1; [discriminate|]. exact (IH b E1). }
    destruct Hs as (s & s' & Es & Es'). unfold sink_rel in P4. rewrite Es, Es' in P4.
    destruct P4 as (Q1 & Q2 & Q3). destruct (Hlast s Es) as (L1 & L2).
    assert (Hmax : m_dec_len m + bytes_total outs <= max_decompressed).
    { destruct (stage_ok s) eqn:Eok.
      - rewrite (L2 eq_refl). apply Q2. reflexivity.
      - destruct (Q1 eq_refl) as (-> & _). unfold bytes_total. cbn. lia. }
    split.
    { split; [exact P1|]. split; [lia|]. rewrite Es'. split; [exact Hmax|].
      intros E. rewrite (Q3 E). destruct (stage_ok s) eqn:Eok; [rewrite (L2 eq_refl); reflexivity|].
      destruct (Q1 eq_refl) as (_ & ->). congruence. }
    split; [discriminate|]. split; [lia|].
    rewrite Hn'. destruct (ce_emit (m_type m) (m_notes m) ns) as (new & -> & Hnew).
    rewrite dec_count_app. pose proof (dec_count_le new).
    assert (length new = length ns) by (rewrite <- (map_length n_cls), Hnew, map_length; reflexivity). lia.
  - destruct H3 as (_ & -> & _ & -> & _ & Hp').
    assert (E : pipeline_of m' = Err x).
    { unfold pipeline_of in *. rewrite Hp'. destruct (m_pipeline m); [discriminate|].
      unfold build_pipeline, get_or, m_get in *. rewrite Hh. exact Ep. }
    unfold body_inv, count_codings. rewrite Hp', E. unfold count_codings in HN. rewrite Ep in HN.
    split; [|split; [|split; [lia|lia]]].
    + unfold pipeline_of in Ep. destruct (m_pipeline m); [discriminate|exact I].
    + exact HN.
Qed.

(** *** Feeding any number of chunks *)
Lemma feed_all_inv (I : mstate -> Prop) e :
  (forall c m, I m -> I (fst (feed_content e c m))) ->
  forall chunks m, I m -> I (fst (feed_all e chunks m)).
Proof.
  intros H chunks; induction chunks as [|c cs IH]; intros m Hm; cbn [feed_all]; [exact Hm|].
  specialize (H c m Hm). destruct (feed_content e c m) as [m' [x|x]]; cbn [then_ fst] in *; auto.
Qed.
(** C02 *)
Definition sampled (m : mstate) : Prop :=
  m_sample m = firstn content_sample_size (m_dec_hashed m)
  /\ m_dec_len m = N.of_nat (length (m_dec_hashed m)).
Lemma feed_sampled e c m : sampled m -> sampled (fst (feed_content e c m)).
Proof.
  intros [H1 H2]. pose proof (feed_content_spec e c m) as H. cbv zeta in H.
  destruct H as (_ & _ & _ & Ha & Hb). destruct (m_no_content m).
  - destruct (Ha eq_refl) as (_ & ->). split; assumption.
  - destruct (Hb eq_refl) as (_ & H). destruct (pipeline_of m) as [st|x].
    + destruct (pipe_feed _ _ _ _) as [[outs ns] st'].
      destruct H as (_ & _ & D1 & D2 & D3 & _). split; [apply D3, H1|].
      rewrite D1, D2, H2, app_length. unfold bytes_total. lia.
    + destruct H as (_ & _ & D1 & D2 & D3 & _). split; rewrite ?D1, ?D2, ?D3; assumption.
Qed.
Lemma feed_all_sampled e chunks m : sampled m -> sampled (fst (feed_all e chunks m)).
Proof. apply feed_all_inv. intros; apply feed_sampled; assumption. Qed.
(** With no supported coding, what is decoded is what is fed. *)
Lemma feed_plain e c m :
  pipeline_of m = Ok [] -> m_no_content m = false ->
  let m' := fst (feed_content e c m) in
  snd (feed_content e c m) = Ok tt
  /\ pipeline_of m' = Ok [] /\ m_no_content m' = false
  /\ m_dec_hashed m' = m_dec_hashed m ++ c /\ m_hashed m' = m_hashed m ++ c
  /\ m_clen m' = m_clen m + N.of_nat (length c) /\ m_notes m' = m_notes m.
Proof.
  intros Hp Hn. pose proof (feed_content_spec e c m) as H. cbv zeta in *.
  destruct H as (Hc & _ & Hn' & _ & H). destruct (H Hn) as (Hh & H'). rewrite Hp in H'. cbn [pipe_feed] in H'.
  destruct H' as (H1 & H2 & H3 & _ & _ & H6). cbn in H3. rewrite app_nil_r in H3. cbn in H6.
  unfold pipeline_of. rewrite H2. repeat (split; [first [reflexivity|assumption|congruence]|]). exact H6.
Qed.
Lemma feed_all_plain e chunks : forall m,
  pipeline_of m = Ok [] -> m_no_content m = false ->
  let m' := fst (feed_all e chunks m) in
  snd (feed_all e chunks m) = Ok tt
  /\ m_dec_hashed m' = m_dec_hashed m ++ concat chunks
  /\ m_hashed m' = m_hashed m ++ concat chunks
  /\ m_clen m' = m_clen m + N.of_nat (length (concat chunks)) /\ m_notes m' = m_notes m.
Proof.
  induction chunks as [|c cs IH]; intros m Hp Hn; cbn [feed_all].
  - cbn. rewrite !app_nil_r, N.add_0_r. auto 10.
  - destruct (feed_plain e c m Hp Hn) as (F1 & F2 & F3 & F4 & F5 & F6 & F7).
    destruct (feed_content e c m) as [m1 r]. cbn [fst snd] in *. subst r. cbn [then_].
    destruct (IH m1 F2 F3) as (I1 & I2 & I3 & I4 & I5). cbv zeta.
    split; [exact I1|]. cbn [concat]. rewrite I2, I3, I4, I5, F4, F5, F6, F7, app_length, <- !app_assoc.
    repeat (split; [reflexivity|]). split; [lia|reflexivity].
Qed.
(** Length and hash input, whatever the codings (C01, first part). *)
Lemma feed_all_length e chunks : forall m,
  snd (feed_all e chunks m) = Ok tt ->
  m_clen (fst (feed_all e chunks m)) = m_clen m + N.of_nat (length (concat chunks))
  /\ m_hashed (fst (feed_all e chunks m))
     = (if m_no_content m then m_hashed m else m_hashed m ++ concat chunks)
  /\ m_no_content (fst (feed_all e chunks m)) = m_no_content m.
Proof.
  induction chunks as [|c cs IH]; intros m Hok; cbn [feed_all] in *.
  - cbn. rewrite app_nil_r. split; [lia|]. split; [destruct (m_no_content m)|]; reflexivity.
  - pose proof (feed_content_spec e c m) as H. cbv zeta in H.
    destruct H as (Hc & _ & Hn & Ha & Hb).
    destruct (feed_content e c m) as [m1 [x|x]]; cbn [then_ fst snd] in *; [|discriminate].
    destruct (IH m1 Hok) as (I1 & I2 & I3). rewrite I1, I2, I3, Hc, Hn. cbn [concat]. rewrite app_length.
    split; [lia|]. split; [|reflexivity].
    destruct (m_no_content m).
    + destruct (Ha eq_refl) as (_ & ->). reflexivity.
    + destruct (Hb eq_refl) as (-> & _). rewrite app_assoc. reflexivity.
Qed.
(** C04, C26: no_content *)
Lemma feed_all_no_content e chunks : forall m,
  m_no_content m = true ->
  feed_all e chunks m = (m_set_clen (m_clen m + N.of_nat (length (concat chunks))) m, Ok tt).
Proof.
  induction chunks as [|c cs IH]; intros m Hn; cbn [feed_all].
  - cbn. rewrite N.add_0_r. destruct m. reflexivity.
  - unfold feed_content at 1. rewrite Hn. cbn [then_].
    rewrite IH by exact Hn. cbn [concat]. rewrite app_length.
    cbn [m_clen m_set_clen]. unfold m_set_clen at 1 2. cbn. f_equal.
    unfold m_set_clen. f_equal. lia.
Qed.
Lemma feed_all_bound e chunks m n :
  m_pipeline m = None -> m_dec_len m = 0 -> count_codings m = n -> n <> O ->
  let m' := fst (feed_all e chunks m) in
  m_dec_len m' <= max_decompressed
  /\ (dec_count (m_notes m') <= dec_count (m_notes m) + n)%nat.
Proof.
  intros Hp Hd Hc Hn.
  pose proof (feed_all_inv (fun x =>
      (body_inv n x /\ (m_pipeline x = None -> m_dec_len x = 0 /\ count_codings x = n))
      /\ m_dec_len x <= max_decompressed
      /\ (dec_count (m_notes x) + oks x <= dec_count (m_notes m) + oks m)%nat) e) as H.
  match type of H with ?P -> _ => assert (HP : P) end.
  { intros c x ((H1 & H2) & H3 & H4). pose proof (feed_bound e c x n H1 H2 Hn) as F. cbv zeta in F.
    destruct F as (F1 & F2 & F3 & F4). split; [split; assumption|]. split; [lia|lia]. }
  specialize (H HP chunks m). destruct H as (_ & H1 & H2).
  - split; [split|]. { unfold body_inv. rewrite Hp. exact I. } { auto. }
    split; [rewrite Hd; unfold max_decompressed; lia|reflexivity].
  - cbv zeta. split; [exact H1|].
    assert (oks m <= n)%nat; [|lia]. unfold oks, count_codings in *. destruct (pipeline_of m) as [st|x]; [|lia].
    rewrite <- Hc. unfold ok_count. clear. induction st as [|s st IH]; cbn [filter length]; [lia|].
    destruct (stage_ok s); cbn [length]; lia.
Qed.
