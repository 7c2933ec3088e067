(** * Properties of the caching checks: C20, C21, C22. *)
From Coq Require Import QArith Lqa Lia.
From Verif Require Import PyStr Regex Grammar NoteTable Note PyLib Utils FieldAttrs Types Fields1 Fields2 Framework Checks Message Session
  EvLogic NoteLemmas TestEnv ContentLemmas LexLemmas NumLemmas FrameLemmas BodyLemmas PassFrame PassSec PassProc PassMsg PassRun
  SessionLemmas EndLemmas PropBody PropTop StatusSpec StatusLemmas PropStatus CacheSpec CacheLemmas.
Open Scope N_scope.

(** ** Conditions as propositions *)
Lemma hasb_spec m k : hasb m k = true <-> says m k.
Proof. apply cc_has_spec. Qed.
Lemma starb_spec m : starb m = true <-> varies_on_all m.
Proof.
  unfold starb, varies_on_all, received, get_or, m_get. destruct (dget _ _) as [v|].
  - split.
    + destruct (py_in _ _) as [b|] eqn:E; [|discriminate]. intros ->. eauto.
    + intros (v' & E & H). injection E as <-. rewrite H. reflexivity.
  - split; [discriminate|]. intros (v & E & _). discriminate.
Qed.
Lemma methb_spec m rel : methb m rel = true <-> other_method rel.
Proof.
  unfold methb, method_uncacheable, other_method. change (i_req (the_in m rel)) with rel. destruct rel as [r|]; [|split; [discriminate|intros (? & ? & E & _); discriminate]].
  destruct (m_method r) as [s|] eqn:Em; [|split; [discriminate|intros (? & ? & E & E' & _); congruence]].
  assert (K : nonempty s && negb (str_in s cacheable_methods) = true <-> s <> [] /\ s <> u "GET" /\ s <> u "HEAD").
  { rewrite andb_true_iff, negb_true_iff. rewrite <- not_true_iff_false, str_in_In. unfold cacheable_methods. cbn [map In].
    assert (X : nonempty s = true <-> s <> []) by (destruct s; cbn; split; congruence). rewrite X. split; [intros [A B]; repeat split; auto; intros ->; apply B; auto|].
    intros (A & B & C). split; [exact A|]. intros [H|[H|[]]]; subst; congruence. }
  destruct (nonempty s && negb (str_in s cacheable_methods)) eqn:E.
  - split; [|reflexivity]. intros _. exists r, s. apply proj1 in K. specialize (K eq_refl). tauto.
  - split; [discriminate|]. intros (r' & s' & E1 & E2 & H). injection E1 as <-. rewrite Em in E2. injection E2 as <-. apply K in H. discriminate.
Qed.
Lemma authb_spec rel : authb rel = true <-> authenticated rel.
Proof.
  unfold authb, authenticated. destruct rel as [r|]; [|split; [discriminate|intros (? & E & _); discriminate]]. rewrite sent_line.
  split; [eauto|]. intros (r' & E & H). injection E as <-. exact H.
Qed.
Lemma heurb_spec m : heurb m = true <-> heuristic m.
Proof.
  unfold heurb, heuristic, status_among, status_of, status_is_in. destruct (m_status m) as [z|]; [|split; [discriminate|intros (? & E & _); discriminate]].
  rewrite existsb_exists. split; [intros (x & Hx & E); apply Z.eqb_eq in E; subst; eauto|]. intros (x & E & H). injection E as <-. exists z. split; [exact H|apply Z.eqb_refl].
Qed.
Lemma expb_spec m : truthy (get_or m "expires" VNone) = true <-> expiring m.
Proof.
  unfold get_or, m_get, expiring, received. destruct (dget _ _) as [v|]; split; intros H; eauto; try discriminate.
  - destruct H as (v' & E & H). injection E as <-. exact H.
  - destruct H as (v' & E & _). discriminate.
Qed.
Lemma cacb_spec m : cacb m = true <-> cacheable m.
Proof. unfold cacb, cacheable. rewrite !orb_true_iff, !hasb_spec, heurb_spec, expb_spec. tauto. Qed.
Lemma noneb_spec m k : noneb (get_or m k VNone) = true <-> ~ valued m k.
Proof.
  unfold get_or, m_get, valued, received. destruct (dget _ _) as [v|].
  - split.
    + intros H (v' & E & Hn). injection E as <-. destruct v; try discriminate H. congruence.
    + intros H. destruct v; try reflexivity; exfalso; apply H; eexists; (split; [reflexivity|discriminate]).
  - split; [|reflexivity]. intros _ (v & E & _). discriminate.
Qed.
Lemma valued_dec m k : valued m k \/ ~ valued m k.
Proof. destruct (noneb (get_or m k VNone)) eqn:E; [right; apply noneb_spec, E|left]. unfold get_or, m_get, valued, received in *. destruct (dget _ _) as [v|]; [|discriminate]. exists v. split; [reflexivity|intros ->; discriminate]. Qed.
Lemma valb_spec m : valb m = true <-> valued m "last-modified" \/ valued m "etag".
Proof.
  unfold valb. rewrite negb_true_iff, <- not_true_iff_false, andb_true_iff, !noneb_spec.
  destruct (valued_dec m "last-modified"), (valued_dec m "etag"); tauto.
Qed.
Lemma explb_spec m : explb m = true <-> explicit m.
Proof. unfold explb, explicit. destruct (shared_life m); split; congruence. Qed.
Lemma sameb_spec m : sameb m = true <-> same_lives m.
Proof. apply Z.eqb_eq. Qed.
Lemma not_le_lt x y : negb (Qle_bool x y) = true <-> (y < x)%Q.
Proof.
  rewrite negb_true_iff, <- not_true_iff_false, Qle_bool_iff. split; [apply Qnot_le_lt|apply Qlt_not_le].
Qed.
Lemma frb_spec m rel : frb m rel = true <-> fresh_private m rel. Proof. apply not_le_lt. Qed.
Lemma shfb_spec m rel : shfb m rel = true <-> fresh_shared m rel. Proof. apply not_le_lt. Qed.
Lemma negb_not b : negb b = true <-> ~ b = true. Proof. destruct b; cbn; split; congruence. Qed.

(** ** One class, one row *)
Definition row (t : list (nid * bool)) (c : nid) : bool := match find (fun r => nid_eqb (fst r) c) t with Some r => snd r | None => false end.
Lemma row_in t c : NoDup (map fst t) -> (In (c, true) t <-> row t c = true).
Proof.
  unfold row. induction t as [|[c' b] t IH]; [intros _; split; [intros []|discriminate]|]. cbn [map fst find In]. intros H. inversion H as [|x l Hn Hd]; subst.
  destruct (nid_eqb c' c) eqn:E.
  - apply nid_eqb_eq in E. subst c'. cbn [snd]. split; [intros [X|X]; [congruence|]|intros ->; left; reflexivity]. destruct Hn. apply (in_map fst) in X. exact X.
  - rewrite <- IH by exact Hd. split; [intros [X|X]; [injection X as -> ->; rewrite nid_eqb_refl in E; discriminate|exact X]|right; assumption].
Qed.
Definition row_classes : list nid := [DATE_CLOCKLESS; DATE_CLOCKLESS_BAD_HDR; STORE_NO_STORE; STORE_PRIVATE_CC; STORE_PRIVATE_PUBLIC_CONFLICT; STORE_PUBLIC_AUTH;
  STORE_PRIVATE_AUTH; STORE_STORABLE; STORE_STORABLE_SHARED_ONLY; STORE_UNSTORABLE; CURRENT_AGE; FRESHNESS_NO_CACHE_NO_VALIDATOR; FRESHNESS_NO_CACHE;
  FRESHNESS_SHARED_PRIVATE; FRESHNESS_FRESH; FRESHNESS_STALE_ALREADY; CC_AND_EXPIRES; FRESHNESS_HEURISTIC; FRESHNESS_NONE; STORE_PUBLIC_UNNECESSARY;
  STALE_WHILE_REVALIDATE; STALE_IF_ERROR; FRESH_MUST_REVALIDATE; STALE_MUST_REVALIDATE; FRESH_PROXY_REVALIDATE; STALE_PROXY_REVALIDATE; STALE_SERVABLE].
Fixpoint distinct (l : list nid) : bool := match l with [] => true | c :: l => if existsb (nid_eqb c) l then false else distinct l end.
Lemma distinct_ok l : distinct l = true -> NoDup l.
Proof.
  induction l as [|c l IH]; [constructor|]. cbn [distinct]. destruct (existsb _ _) eqn:E; [discriminate|]. intros H. constructor; [|apply IH, H].
  intros X. assert (existsb (nid_eqb c) l = true) by (apply existsb_exists; exists c; split; [exact X|apply nid_eqb_refl]). congruence.
Qed.
Lemma row_classes_nodup : NoDup row_classes.
Proof. apply distinct_ok. vm_compute. reflexivity. Qed.
Lemma rows_classes m rel : map fst (rows_of m rel) = row_classes. Proof. reflexivity. Qed.
Definition cache_classes : list nid := filter (in_file "cache.py") all_nids.
Lemma cache_classes_eq c : nid_file c = "cache.py"%string -> c = STORE_METHOD_UNCACHEABLE \/ In c row_classes \/ ~ In c row_classes.
Proof. intros _. destruct (existsb (nid_eqb c) row_classes) eqn:E; [right; left|right; right]. - apply existsb_exists in E as (x & H & E). apply nid_eqb_eq in E. subst. exact H.
  - intros H. assert (existsb (nid_eqb c) row_classes = true) by (apply existsb_exists; exists c; split; [exact H|apply nid_eqb_refl]). congruence. Qed.

Lemma row_nth m rel n c b : nth_error (rows_of m rel) n = Some (c, b) -> row (rows_of m rel) c = b.
Proof.
  intros H. apply nth_error_In in H. pose proof row_classes_nodup as Hd. rewrite <- (rows_classes m rel) in Hd. destruct b; [apply row_in; assumption|].
  destruct (row (rows_of m rel) c) eqn:E; [|reflexivity]. apply row_in in E; [|exact Hd]. exfalso. revert E H Hd. generalize (rows_of m rel). clear.
  induction l as [|[c' b] l IH]; [intros []|]. cbn [In map fst]. intros E H Hd. inversion Hd as [|x y Hn Hd']; subst.
  destruct E as [E|E], H as [H|H]; [congruence| | |exact (IH E H Hd')].
  - injection E as -> ->. apply Hn. apply (in_map fst) in H. exact H.
  - injection H as -> ->. apply Hn. apply (in_map fst) in E. exact E.
Qed.
Lemma open_spec m rel : openb m rel = true <-> permitted m rel.
Proof. unfold openb, permitted. rewrite !andb_true_iff, !negb_not, starb_spec, methb_spec, hasb_spec. tauto. Qed.
Lemma kept_spec m rel : keptb m rel = true <-> stored m rel.
Proof. unfold keptb, stored. rewrite !andb_true_iff, !orb_true_iff, open_spec, !hasb_spec, authb_spec, cacb_spec. tauto. Qed.
Ltac row_case n m rel := rewrite (row_nth _ _ n _ _ eq_refl); cbn [cache_rule]; unfold usable, shareable;
    change (negb (starb m) && negb (methb m rel) && negb (hasb m "no-store")) with (openb m rel);
    change (openb m rel && (hasb m "private" || authb rel || cacb m || hasb m "s-maxage")) with (keptb m rel);
    rewrite ?andb_true_iff, ?orb_true_iff, ?negb_not, ?andb_true_iff, ?orb_true_iff, ?negb_not, ?orb_true_iff, ?kept_spec, ?open_spec, ?hasb_spec, ?starb_spec, ?methb_spec, ?authb_spec,
      ?cacb_spec, ?heurb_spec, ?valb_spec, ?explb_spec, ?sameb_spec, ?frb_spec, ?shfb_spec, ?sent_line, ?Qle_bool_iff.
Lemma row_rule m rel c : (keptb m rel = true -> hasb m "max-age" = true -> explb m = true) ->
  In c row_classes -> (row (rows_of m rel) c = true <-> cache_rule c m rel).
Proof.
  rewrite kept_spec, hasb_spec, explb_spec. intros M H. cbn [row_classes In] in H.
  let rec go n := (destruct H as [<-|H]; [row_case n m rel; match goal with |- context [says m "max-age"] => tauto | |- _ => clear M; tauto end|try go (S n)]) in go 0%nat.
  destruct H.
Qed.

(** ** The properties *)
Theorem C20_flags : forall e rel top headers chunks complete trailers start nc head base m' rel',
  lint e rel top headers chunks complete trailers (new_linter MResponse start nc head base) = (m', rel', Ok tt) ->
  exists k, m_caching m' = Some k
    /\ (c_store_private k = true <-> permitted m' rel)
    /\ (c_store_shared k = true <-> permitted m' rel /\ ~ says m' "private" /\ (authenticated rel -> shareable m')).
Proof.
  intros e rel top headers chunks complete trailers start nc head base m' rel' E.
  destruct (lint_response _ _ _ _ _ _ _ _ _ _ _ _ _ E) as (lp & lc & lreq & k & ls & _ & Ec & _ & Ek & _).
  apply cache_table in Ec as (_ & Hp & Hs & _). exists k. split; [exact Ek|]. rewrite Hp, Hs. split; [apply open_spec|].
  rewrite andb_true_iff, open_spec. unfold shareb, shareable. rewrite andb_true_iff, !negb_not, andb_true_iff, negb_not, !orb_true_iff, !hasb_spec, authb_spec.
  assert (X : forall k, says m' k \/ ~ says m' k) by (intros k0; rewrite <- hasb_spec; destruct (hasb m' k0); auto).
  pose proof (X "public"%string). pose proof (X "must-revalidate"%string). pose proof (X "s-maxage"%string). tauto.
Qed.
Print Assumptions C20_flags.

Theorem C20_notes : forall e rel top headers chunks complete trailers start nc head base m' rel',
  lint e rel top headers chunks complete trailers (new_linter MResponse start nc head base) = (m', rel', Ok tt) ->
  forall c, nid_file c = "cache.py"%string ->
    (reported c m' <-> cache_rule c m' rel) /\ (length (of_classes [c] (m_notes m')) <= 1)%nat.
Proof.
  intros e rel top headers chunks complete trailers start nc head base m' rel' E c Hf.
  destruct (lint_response _ _ _ _ _ _ _ _ _ _ _ _ _ E) as (lp & lc & lreq & k & ls & _ & Ec & _ & _ & _ & _ & N & _).
  apply cache_table in Ec as (R & _ & _ & _ & M & _).
  pose proof row_classes_nodup as Hd. rewrite <- (rows_classes m' rel) in Hd.
  split.
  - rewrite (reported_file _ _ _ _ N Hf), R, chosen_in.
    destruct (existsb (nid_eqb c) row_classes) eqn:Ex.
    + apply existsb_exists in Ex as (x & H & Ex). apply nid_eqb_eq in Ex. subst x. rewrite (row_in _ _ Hd). apply row_rule; assumption.
    + assert (Hn : ~ In c row_classes).
      { intros H. assert (existsb (nid_eqb c) row_classes = true) by (apply existsb_exists; exists c; split; [exact H|apply nid_eqb_refl]). congruence. }
      split.
      * intros H. destruct Hn. rewrite <- (rows_classes m' rel). apply (in_map fst) in H. exact H.
      * intros H. destruct Hn. clear - H. destruct c; try contradiction H; cbn [row_classes In]; tauto.
  - apply (once_of _ _ _ _ N Hf). rewrite R. apply chosen_nodup, Hd.
Qed.
Print Assumptions C20_notes.

(** The one note for the request: nothing else about it changes. *)
Theorem C20_request : forall e r top headers chunks complete trailers start nc head base m' rel',
  lint e (Some r) top headers chunks complete trailers (new_linter MResponse start nc head base) = (m', rel', Ok tt) ->
  exists added, rel' = Some (m_set_notes (m_notes r ++ added) r)
    /\ (~ varies_on_all m' /\ other_method (Some r) -> exists n, added = [n] /\ n_cls n = STORE_METHOD_UNCACHEABLE /\ n_subj n = u "method")
    /\ (~ (~ varies_on_all m' /\ other_method (Some r)) -> added = []).
Proof.
  intros e r top headers chunks complete trailers start nc head base m' rel' E.
  destruct (lint_response _ _ _ _ _ _ _ _ _ _ _ _ _ E) as (lp & lc & lreq & k & ls & _ & Ec & _ & _ & Er & _ & _ & _ & F).
  apply cache_table in Ec as (_ & _ & _ & _ & _ & s & Hl). exists (msg_notes (m_type r) lreq).
  split; [rewrite Er; cbn [option_map]; unfold m_emit; rewrite (emit_msgs _ _ _ F); reflexivity|].
  assert (B : negb (starb m') && methb m' (Some r) = true <-> ~ varies_on_all m' /\ other_method (Some r)) by (rewrite andb_true_iff, negb_not, starb_spec, methb_spec; reflexivity).
  rewrite <- B. subst lreq. destruct (_ && _); split; intros H; try congruence; [|destruct (H eq_refl)..|].
  - eexists. split; [reflexivity|]. split; reflexivity.
  - reflexivity.
Qed.
Print Assumptions C20_request.

(** The age: the larger of the two estimates. *)
Theorem C21_age : forall e rel top headers chunks complete trailers start nc head base m' rel',
  lint e rel top headers chunks complete trailers (new_linter MResponse start nc head base) = (m', rel', Ok tt) ->
  exists k, m_caching m' = Some k /\ (0 <= c_age k)%Q
    /\ (stored m' rel -> c_age k == age_of m' rel) /\ (~ stored m' rel -> c_age k = 0%Q)
    /\ (inject_Z (apparent_age m') <= age_of m' rel /\ corrected_age m' rel <= age_of m' rel
        /\ (age_of m' rel = inject_Z (apparent_age m') \/ age_of m' rel = corrected_age m' rel))%Q.
Proof.
  intros e rel top headers chunks complete trailers start nc head base m' rel' E.
  destruct (lint_response _ _ _ _ _ _ _ _ _ _ _ _ _ E) as (lp & lc & lreq & k & ls & _ & Ec & _ & Ek & _).
  apply cache_table in Ec as (_ & _ & _ & A & _). exists k. split; [exact Ek|]. rewrite <- kept_spec.
  assert (M : (inject_Z (apparent_age m') <= age_of m' rel /\ corrected_age m' rel <= age_of m' rel
        /\ (age_of m' rel = inject_Z (apparent_age m') \/ age_of m' rel = corrected_age m' rel))%Q).
  { unfold age_of. destruct (Qle_bool _ _) eqn:Eq; [apply Qle_bool_iff in Eq|assert (Q := proj1 (not_le_lt (corrected_age m' rel) (inject_Z (apparent_age m'))));
      rewrite Eq in Q; specialize (Q eq_refl)]; repeat split; auto; try lra. }
  assert (P : (0 <= age_of m' rel)%Q).
  { apply (Qle_trans _ (inject_Z (apparent_age m'))); [|apply M]. change 0%Q with (inject_Z 0). rewrite <- Zle_Qle. unfold apparent_age.
    destruct (clock _); [|lia]. destruct (amount _ _); [|lia]. destruct (_ <? _)%Z; lia. }
  destruct (keptb m' rel).
  - destruct A as [A _]. split; [rewrite A; exact P|]. repeat split; auto; try tauto; congruence.
  - destruct A as [-> _]. split; [lra|]. repeat split; auto; try tauto; discriminate.
Qed.
Print Assumptions C21_age.

Theorem C22_lifetimes : forall e rel top headers chunks complete trailers start nc head base m' rel',
  lint e rel top headers chunks complete trailers (new_linter MResponse start nc head base) = (m', rel', Ok tt) ->
  exists k, m_caching m' = Some k
    /\ (stored m' rel -> c_life_private k = or_zero (private_life m') /\ c_life_shared k = or_zero (shared_life m'))
    /\ (~ stored m' rel -> c_life_private k = 0%Z /\ c_life_shared k = 0%Z).
Proof.
  intros e rel top headers chunks complete trailers start nc head base m' rel' E.
  destruct (lint_response _ _ _ _ _ _ _ _ _ _ _ _ _ E) as (lp & lc & lreq & k & ls & _ & Ec & _ & Ek & _).
  apply cache_table in Ec as (_ & _ & _ & A & _). exists k. split; [exact Ek|]. rewrite <- kept_spec. destruct (keptb m' rel); split; intros H; try congruence; apply A.
Qed.
Print Assumptions C22_lifetimes.

Lemma three_classes ns : length (of_classes [FRESHNESS_FRESH; FRESHNESS_STALE_ALREADY; FRESHNESS_SHARED_PRIVATE] ns)
  = (length (of_classes [FRESHNESS_FRESH] ns) + length (of_classes [FRESHNESS_STALE_ALREADY] ns) + length (of_classes [FRESHNESS_SHARED_PRIVATE] ns))%nat.
Proof.
  unfold of_classes. induction ns as [|n ns IH]; [reflexivity|]. cbn [filter existsb] in *. rewrite !orb_false_r in *.
  destruct (nid_eqb (n_cls n) FRESHNESS_FRESH) eqn:E1; [apply nid_eqb_eq in E1; rewrite E1; cbn [orb length]; rewrite IH; cbn; lia|].
  destruct (nid_eqb (n_cls n) FRESHNESS_STALE_ALREADY) eqn:E2; [apply nid_eqb_eq in E2; rewrite E2; cbn [orb length]; rewrite IH; cbn; lia|].
  destruct (nid_eqb (n_cls n) FRESHNESS_SHARED_PRIVATE) eqn:E3; cbn [orb length]; rewrite IH; lia.
Qed.
(** An explicit lifetime gets exactly one of the three verdicts, and only a
    response that is not yet as old as its lifetime is called fresh. *)
Theorem C22_verdict : forall e rel top headers chunks complete trailers start nc head base m' rel',
  lint e rel top headers chunks complete trailers (new_linter MResponse start nc head base) = (m', rel', Ok tt) ->
  (usable m' rel /\ explicit m' ->
     length (of_classes [FRESHNESS_FRESH; FRESHNESS_STALE_ALREADY; FRESHNESS_SHARED_PRIVATE] (m_notes m')) = 1%nat)
  /\ (~ (usable m' rel /\ explicit m') -> of_classes [FRESHNESS_FRESH; FRESHNESS_STALE_ALREADY; FRESHNESS_SHARED_PRIVATE] (m_notes m') = [])
  /\ (reported FRESHNESS_FRESH m' -> exists k, m_caching m' = Some k /\ (c_age k < inject_Z (c_life_private k))%Q /\ (c_age k < inject_Z (c_life_shared k))%Q)
  /\ (reported FRESHNESS_STALE_ALREADY m' -> exists k, m_caching m' = Some k /\ (inject_Z (c_life_private k) <= c_age k)%Q /\ (inject_Z (c_life_shared k) <= c_age k)%Q).
Proof.
  intros e rel top headers chunks complete trailers start nc head base m' rel' E.
  pose proof (C20_notes _ _ _ _ _ _ _ _ _ _ _ _ _ E) as R. pose proof (C21_age _ _ _ _ _ _ _ _ _ _ _ _ _ E) as (k & Ek & _ & A & _).
  pose proof (C22_lifetimes _ _ _ _ _ _ _ _ _ _ _ _ _ E) as (k' & Ek' & L & _). rewrite Ek in Ek'. injection Ek' as <-. clear E.
  pose proof (R FRESHNESS_FRESH eq_refl) as [R1 O1]. pose proof (R FRESHNESS_STALE_ALREADY eq_refl) as [R2 O2]. pose proof (R FRESHNESS_SHARED_PRIVATE eq_refl) as [R3 O3].
  clear R. cbn [cache_rule] in R1, R2, R3.
  assert (S : same_lives m' \/ ~ same_lives m') by (rewrite <- sameb_spec; destruct (sameb m'); auto).
  assert (F : fresh_private m' rel \/ ~ fresh_private m' rel) by (rewrite <- frb_spec; destruct (frb m' rel); auto).
  assert (Z0 : forall c, ~ reported c m' -> length (of_classes [c] (m_notes m')) = 0%nat).
  { intros c H. rewrite reported_sel in H. destruct (of_classes [c] (m_notes m')); [reflexivity|]. destruct H. discriminate. }
  assert (Z1 : forall c, reported c m' -> (1 <= length (of_classes [c] (m_notes m')))%nat).
  { intros c H. rewrite reported_sel in H. destruct (of_classes [c] (m_notes m')); [congruence|]. cbn. lia. }
  pose proof (three_classes (m_notes m')) as T.
  split; [|split; [|split]].
  - intros [U X]. rewrite T. destruct S as [S|S]; [destruct F as [F|F]|].
    + rewrite (Z0 FRESHNESS_STALE_ALREADY), (Z0 FRESHNESS_SHARED_PRIVATE) by tauto. pose proof (Z1 FRESHNESS_FRESH). intuition lia.
    + rewrite (Z0 FRESHNESS_FRESH), (Z0 FRESHNESS_SHARED_PRIVATE) by tauto. pose proof (Z1 FRESHNESS_STALE_ALREADY). intuition lia.
    + rewrite (Z0 FRESHNESS_FRESH), (Z0 FRESHNESS_STALE_ALREADY) by tauto. pose proof (Z1 FRESHNESS_SHARED_PRIVATE). intuition lia.
  - intros N. rewrite (Z0 FRESHNESS_FRESH), (Z0 FRESHNESS_STALE_ALREADY), (Z0 FRESHNESS_SHARED_PRIVATE) in T by tauto.
    destruct (of_classes [_; _; _] _); [reflexivity|discriminate].
  - intros H. apply R1 in H as (U & X & Y & Z). exists k. split; [exact Ek|]. destruct U as [U _]. destruct (L U) as [-> ->]. rewrite (A U). unfold same_lives in Y. rewrite Y. split; exact Z.
  - intros H. apply R2 in H as (U & X & Y & Z). exists k. split; [exact Ek|]. destruct U as [U _]. destruct (L U) as [-> ->]. rewrite (A U). unfold same_lives in Y. rewrite Y.
    unfold fresh_private in Z. apply Qnot_lt_le in Z. split; exact Z.
Qed.
Print Assumptions C22_verdict.

(** ** Concrete runs *)
Definition asked (method : string) (h : list (string * string)) (start : option Q) : mstate :=
  fst (fst (lint env0 None (TopRequest (u method) (u "/a") (u "1.1")) (map (fun h => (u (fst h), u (snd h))) h) [] true [] (new_linter MRequest start false false []))).
Definition cache_run (rel : option mstate) (status : string) (start : option Q) (h : list (string * string)) :=
  let '(m, rel', r) := lint env0 rel (TopResponse (u "1.1") (u status) None) (map (fun h => (u (fst h), u (snd h))) h) [] true [] (new_linter MResponse start false false []) in
  (m_caching m, filter (in_file "cache.py") (map n_cls (m_notes m)), match rel' with Some r => filter (in_file "cache.py") (map n_cls (m_notes r)) | None => [] end, r).
Definition jan1 := ("Date", "Thu, 01 Jan 2026 00:00:00 GMT")%string.      (* 1767225600 *)
Example cache_ex :
  (* Date 30 s ago, Age 20 *)
  cache_run None "200" (Some (1767225630 # 1)) [("Cache-Control", "max-age=60"); jan1; ("Age", "20")]%string
    = (Some (mkCaching 30 true true 60 60), [STORE_STORABLE; CURRENT_AGE; FRESHNESS_FRESH; STALE_SERVABLE], [], Ok tt)
  (* Age 28 and a request that took 5 s; different lifetimes *)
  /\ cache_run (Some (asked "GET" [("Host", "a")]%string (Some (1767225625 # 1)))) "200" (Some (1767225630 # 1))
       [("Cache-Control", "max-age=60, s-maxage=10, must-revalidate"); jan1; ("Age", "28")]%string
    = (Some (mkCaching 33 true true 60 10), [STORE_STORABLE; CURRENT_AGE; FRESHNESS_SHARED_PRIVATE; FRESH_MUST_REVALIDATE], [], Ok tt)
  /\ cache_run (Some (asked "POST" [("Host", "a")]%string None)) "200" None [jan1]
    = (Some (mkCaching 0 false false 0 0), [], [STORE_METHOD_UNCACHEABLE], Ok tt)
  /\ cache_run (Some (asked "GET" [("Host", "a"); ("Authorization", "Basic a")]%string None)) "200" None [jan1]
    = (Some (mkCaching 0 true false 0 0), [STORE_PRIVATE_AUTH; FRESHNESS_HEURISTIC; STALE_SERVABLE], [], Ok tt).
Proof. vm_compute. repeat split. Qed.
(** The flags say a cache may store these responses; the notes say otherwise. *)
Theorem C20_refuted :
  cache_run None "404" None [jan1] = (Some (mkCaching 0 true true 0 0), [STORE_UNSTORABLE], [], Ok tt)
  /\ exists l, cache_run None "404" None [jan1; ("Cache-Control", "s-maxage=5")%string] = (Some (mkCaching 0 true true 0 5), STORE_STORABLE_SHARED_ONLY :: l, [], Ok tt).
Proof. split; [vm_compute; reflexivity|]. eexists. vm_compute. reflexivity. Qed.
(** An Expires header without a clock gives no lifetime. *)
Theorem C22_expires_refuted :
  cache_run None "404" None [jan1; ("Expires", "Thu, 01 Jan 2026 01:00:00 GMT")%string]
    = (Some (mkCaching 0 true true 0 0), [STORE_STORABLE; FRESHNESS_NONE; STALE_SERVABLE], [], Ok tt)
  /\ cache_run None "404" (Some (1767225600 # 1)) [jan1; ("Expires", "Thu, 01 Jan 2026 01:00:00 GMT")%string]
    = (Some (mkCaching 0 true true 3600 3600), [STORE_STORABLE; FRESHNESS_FRESH; STALE_SERVABLE], [], Ok tt).
Proof. vm_compute. repeat split. Qed.
Print Assumptions C20_refuted.
