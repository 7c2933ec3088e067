(** * cache.py as a table. *)
From Coq Require Import QArith Lqa Lia.
From Verif Require Import PyStr Regex Grammar NoteTable Note PyLib Utils FieldAttrs Types Fields1 Fields2 Framework Checks Message Session
  EvLogic NoteLemmas TestEnv ContentLemmas LexLemmas NumLemmas FrameLemmas BodyLemmas PassFrame PassSec PassProc PassMsg PassRun
  SessionLemmas EndLemmas PropBody PropTop StatusSpec StatusLemmas PropStatus CacheSpec.
Open Scope N_scope.

(** ** The code as a table of rows (class, condition), in order of report *)
Definition cache_rows (star meth ns pv pub auth mr sm cac dl eh lh age1 nc val expl same fr shf ma heur swr sie pr : bool) : list (nid * bool) :=
  let open := negb star && negb meth && negb ns in
  let kept := open && (pv || auth || cac || sm) in
  let used := kept && negb nc in
  [(DATE_CLOCKLESS, negb star && negb dl); (DATE_CLOCKLESS_BAD_HDR, negb star && negb dl && (eh || lh));
   (STORE_NO_STORE, negb star && negb meth && ns); (STORE_PRIVATE_CC, open && pv); (STORE_PRIVATE_PUBLIC_CONFLICT, open && pv && pub);
   (STORE_PUBLIC_AUTH, open && negb pv && auth && (pub || mr || sm)); (STORE_PRIVATE_AUTH, open && negb pv && auth && negb (pub || mr || sm));
   (STORE_STORABLE, open && negb pv && negb auth && cac); (STORE_STORABLE_SHARED_ONLY, open && negb pv && negb auth && negb cac && sm);
   (STORE_UNSTORABLE, open && negb pv && negb auth && negb cac && negb sm);
   (CURRENT_AGE, kept && age1); (FRESHNESS_NO_CACHE_NO_VALIDATOR, kept && nc && negb val); (FRESHNESS_NO_CACHE, kept && nc && val);
   (FRESHNESS_SHARED_PRIVATE, used && expl && negb same); (FRESHNESS_FRESH, used && expl && same && fr);
   (FRESHNESS_STALE_ALREADY, used && expl && same && negb fr); (CC_AND_EXPIRES, used && expl && ma && eh);
   (FRESHNESS_HEURISTIC, used && negb expl && heur); (FRESHNESS_NONE, used && negb expl && negb heur);
   (STORE_PUBLIC_UNNECESSARY, used && pub && (expl || heur)); (STALE_WHILE_REVALIDATE, used && swr); (STALE_IF_ERROR, used && sie);
   (FRESH_MUST_REVALIDATE, used && negb sie && mr && fr); (STALE_MUST_REVALIDATE, used && negb sie && mr && negb fr && expl);
   (FRESH_PROXY_REVALIDATE, used && negb sie && negb mr && (pr || sm) && shf); (STALE_PROXY_REVALIDATE, used && negb sie && negb mr && (pr || sm) && negb shf && expl);
   (STALE_SERVABLE, used && negb sie && negb mr && negb pr && negb sm)].
Definition chosen (t : list (nid * bool)) : list nid := flat_map (fun r : nid * bool => if snd r then [fst r] else []) t.
Lemma chosen_in t c : In c (chosen t) <-> In (c, true) t.
Proof.
  unfold chosen. rewrite in_flat_map. split.
  - intros ((c' & b) & H & Hc). cbn [fst snd] in Hc. destruct b; [|destruct Hc]. destruct Hc as [->|[]]. exact H.
  - intros H. exists (c, true). split; [exact H|]. left. reflexivity.
Qed.
Lemma chosen_nodup t : NoDup (map fst t) -> NoDup (chosen t).
Proof.
  induction t as [|[c b] t IH]; [constructor|]. cbn [map fst]. intros H. inversion H as [|x l Hn Hd]; subst. specialize (IH Hd).
  cbn [chosen flat_map fst snd]. fold (chosen t). destruct b; [|exact IH]. cbn [app]. constructor; [|exact IH].
  rewrite chosen_in. intros X. apply Hn. apply (in_map fst) in X. exact X.
Qed.

Lemma ev_classes_app a b : ev_classes (a ++ b) = ev_classes a ++ ev_classes b.
Proof. unfold ev_classes. apply flat_map_app. Qed.

(** ** Directives *)
Lemma pairs_directives m ps : cc_pairs (get_or m "cache-control" (VList [])) = Ok ps -> directives m = ps.
Proof.
  unfold cc_pairs, get_or, m_get, directives. 
  assert (K : forall l ps, mapR cc_pair l = Ok ps -> flat_map (fun p => match p with VTuple [VStr d; v] => [(d, v)] | _ => [] end) l = ps).
  { induction l as [|x l IH]; cbn [mapR]; intros qs H; [injection H as <-; reflexivity|].
    destruct x as [| | | | | | | | | |[|[] [|y [|]]]| | | | |]; try discriminate H. cbn [cc_pair rbind] in H.
    destruct (mapR cc_pair l) as [r|]; [|discriminate]. injection H as <-. cbn [flat_map app]. f_equal. apply IH. reflexivity. }
  destruct (dget _ _) as [v|]; [|intros H; injection H as <-; reflexivity]. destruct v; cbn [as_list rbind]; intros H; try discriminate H; apply K, H.
Qed.
Lemma find_dget {A} k (l : dict A) : option_map snd (find (fun p => str_eqb (fst p) k) l) = dget k l.
Proof. induction l as [|[k' v] l IH]; [reflexivity|]. cbn [find fst dget]. rewrite (str_eqb_sym k k'). destruct (str_eqb k' k); [reflexivity|exact IH]. Qed.
Lemma dget_in_dict ps k : dget (u k) (dupdate [] ps) = option_map snd (find (fun p : str * pyval => str_eqb (fst p) (u k)) (rev ps)).
Proof. rewrite dget_dupdate. unfold dlast. rewrite find_dget. destruct (dget _ _); reflexivity. Qed.
Lemma says_spec m k : dmem (u k) (dupdate [] (directives m)) = true <-> says m k.
Proof.
  unfold dmem, says. rewrite dget_in_dict. destruct (find _ _) as [p|] eqn:E; cbn [option_map]; split; intros H; try discriminate.
  - apply find_some in E as [E1 E2]. apply in_rev in E1. apply str_eqb_eq in E2. exists (snd p). rewrite <- E2. destruct p. exact E1.
  - reflexivity.
  - destruct H as (v & H). apply in_rev in H. apply (find_none _ _ E) in H. cbn [fst] in H. rewrite str_eqb_refl in H. discriminate.
Qed.

(** ** What the checker reads *)
Definition the_in (m : mstate) (rel : option mstate) : cin :=
  mkCin (get_or m "age" (VInt 0)) (get_or m "date" VNone) (get_or m "expires" VNone)
        (get_or m "last-modified" VNone) (get_or m "etag" VNone) (get_or m "vary" (VList []))
        (dupdate [] (directives m)) (lower_names m) (m_status m) rel
        (match rel with Some r => m_start r | None => None end) (m_start m).
Lemma cache_in_eq m rel i : cache_in m rel = Ok i -> i = the_in m rel.
Proof.
  unfold cache_in. destruct (cc_pairs _) as [ps|] eqn:E; [|discriminate]. apply pairs_directives in E. subst ps. intros H. injection H as <-. reflexivity.
Qed.
Lemma cc_has_spec m rel k : cc_has (the_in m rel) k = true <-> says m k.
Proof. apply says_spec. Qed.
Lemma name_sent m k : str_in (u k) (lower_names m) = sent m k.
Proof.
  unfold lower_names, sent. unfold str_in. induction (s_text (m_headers m)) as [|nv l IH]; [reflexivity|]. cbn [map existsb]. rewrite IH.
  rewrite (str_eqb_sym (u k)). reflexivity.
Qed.
Lemma as_int_whole v z : as_int v = Ok z -> whole v = Some z.
Proof. destruct v; cbn; intros H; try discriminate H; injection H as <-; reflexivity. Qed.
Lemma amount_get m k d z : as_int (get_or m k d) = Ok z -> d <> VInt z -> amount m k = Some z \/ dget (u k) (s_parsed (m_headers m)) = None /\ as_int d = Ok z.
Proof. unfold get_or, m_get, amount. destruct (dget _ _); intros H _; [left; apply as_int_whole, H|right; auto]. Qed.
Lemma clock_q t : q_truthy t = clock t. Proof. reflexivity. Qed.
Lemma req_clock m rel : q_truthy (i_req_time (the_in m rel)) = request_clock rel.
Proof. unfold the_in, i_req_time, request_clock. destruct rel; reflexivity. Qed.

(** ** check_age *)
Lemma amount_or m k d x : as_int (get_or m k d) = Ok x -> whole d = None \/ whole d = Some 0%Z -> or_zero (amount m k) = x.
Proof.
  unfold get_or, m_get, amount. destruct (dget _ _) as [v|].
  - intros H _. rewrite (as_int_whole _ _ H). reflexivity.
  - intros H [Hd|Hd]; rewrite (as_int_whole _ _ H) in Hd; [discriminate|]. injection Hd as ->. reflexivity.
Qed.
Lemma q_gt_spec x y : q_gt x y = negb (Qle_bool x y). Proof. reflexivity. Qed.
Lemma check_age_spec m rel l age : check_age (the_in m rel) = (l, Ok age) ->
  num_q age == age_of m rel /\ ev_classes l = if Qle_bool 1 (age_of m rel) then [CURRENT_AGE] else [].
Proof.
  unfold check_age. rewrite req_clock, clock_q. cbn [the_in i_resp_time i_date i_age].
  set (A := match clock (m_start m) with Some _ => _ | None => _ end).
  assert (EA : forall z, A = Ok z -> z = apparent_age m).
  { unfold A, apparent_age. intros z. destruct (clock (m_start m)) as [now|]; [|intros H; injection H as <-; reflexivity].
    destruct (truthy _) eqn:Et.
    - destruct (as_int _) as [d|] eqn:Ed; [|discriminate]. cbn [rmap]. intros H. injection H as <-.
      unfold get_or, m_get in Ed. unfold amount. destruct (dget _ _); [|discriminate]. rewrite (as_int_whole _ _ Ed). reflexivity.
    - intros H. injection H as <-. unfold get_or, m_get in Et. unfold amount. destruct (dget _ _) as [v|]; [|reflexivity].
      destruct v; try reflexivity; cbn [whole] in *; cbn [truthy] in Et; [destruct b; [discriminate|reflexivity]|].
      match type of Et with negb (?y =? 0)%Z = false => destruct (Z.eqb_spec y 0) as [E0|]; [rewrite E0; reflexivity|discriminate Et] end. }
  set (C := match request_clock rel with Some _ => _ | None => _ end).
  assert (EC : forall n, C = Ok n -> num_q n == corrected_age m rel).
  { unfold C, corrected_age. intros n.
    assert (K : forall n, match get_or m "age" (VInt 0) with VNone => Ok (NInt 0) | v => rmap NInt (as_int v) end = Ok n -> num_q n == inject_Z (or_zero (amount m "age"))).
    { intros n0 H. assert (X : get_or m "age" (VInt 0) = VNone /\ n0 = NInt 0 \/ rmap NInt (as_int (get_or m "age" (VInt 0))) = Ok n0).
      { destruct (get_or m "age" (VInt 0)); auto. left. split; [reflexivity|congruence]. }
      destruct X as [[X ->]|X].
      - cbn [num_q]. unfold get_or, m_get in X. unfold amount. destruct (dget _ _); [|discriminate]. subst. reflexivity.
      - clear H. destruct (as_int (get_or m "age" (VInt 0))) as [z|] eqn:Ez; [|discriminate]. injection X as <-. cbn [num_q]. erewrite amount_or; [reflexivity|exact Ez|right; reflexivity]. }
    destruct (request_clock rel) as [a|]; [|apply K]. destruct (clock (m_start m)) as [b|]; [|apply K].
    destruct (as_int (get_or m "age" (VInt 0))) as [z|] eqn:Ez; [|discriminate]. cbn [rbind]. unfold int_to_float. destruct (_ <? _)%Z; [|discriminate]. cbn [rmap].
    intros H. injection H as <-. cbn [num_q]. rewrite (amount_or _ _ _ _ Ez) by (right; reflexivity). reflexivity. }
  destruct A as [z|]; [|discriminate]. rewrite (EA z eq_refl). destruct C as [n|]; [|discriminate]. specialize (EC n eq_refl).
  cbv beta iota delta [lift bind ret when tell]. cbn [app fst snd].
  set (g := if q_gt _ _ then _ else _).
  assert (Eg : num_q g == age_of m rel).
  { unfold g, age_of. rewrite q_gt_spec. rewrite EC. destruct (Qle_bool (corrected_age m rel) _) eqn:Eq; cbn [negb]; [reflexivity|exact EC]. }
  rewrite <- Eg. destruct (Qle_bool 1 (num_q g)) eqn:E1; intros H; injection H as <- <-; (split; [reflexivity|reflexivity]).
Qed.

(** ** lifetimes *)
Lemma cc_int_spec m rel k o : cc_int (the_in m rel) k = Ok o -> o = setting m k /\ cc_has (the_in m rel) k = (if setting m k then true else false).
Proof.
  unfold cc_int, cc_has, setting, dmem. cbn [the_in i_cc]. rewrite dget_in_dict. destruct (find _ _) as [p|]; cbn [option_map].
  - destruct (as_int _) as [z|] eqn:E; [|discriminate]. intros H. injection H as <-. rewrite (as_int_whole _ _ E). auto.
  - intros H. injection H as <-. auto.
Qed.
Lemma int_or_amount m k d z : int_or (get_or m k VNone) d = Ok z ->
  z = match amount m k with Some y => if (y =? 0)%Z then d else y | None => d end.
Proof.
  unfold int_or, get_or, m_get, amount. destruct (dget _ _) as [v|]; [|intros H; injection H as <-; reflexivity].
  destruct (truthy v) eqn:Et.
  - intros H. rewrite (as_int_whole _ _ H). destruct v; cbn in H, Et; try discriminate H; injection H as <-; [destruct b; [reflexivity|discriminate]|].
    destruct (z0 =? 0)%Z; [discriminate|reflexivity].
  - intros H. injection H as <-. destruct v; cbn in Et |- *; try reflexivity; [destruct b; [discriminate|reflexivity]|].
    destruct (z =? 0)%Z; [reflexivity|discriminate].
Qed.
Lemma exp_present m rel : expires_present (the_in m rel) = sent m "expires".
Proof. apply name_sent. Qed.
Lemma lifetimes_spec m rel f : lifetimes (the_in m rel) = Ok f ->
  f_priv f = or_zero (private_life m) /\ f_shared f = or_zero (shared_life m) /\ f_explicit f = (if shared_life m then true else false)
  /\ cc_has (the_in m rel) "max-age" = (if setting m "max-age" then true else false)
  /\ cc_has (the_in m rel) "s-maxage" = (if setting m "s-maxage" then true else false).
Proof.
  unfold lifetimes. rewrite clock_q, exp_present.
  change (i_resp_time (the_in m rel)) with (m_start m). change (i_expires (the_in m rel)) with (get_or m "expires" VNone).
  change (i_date (the_in m rel)) with (get_or m "date" VNone).
  set (B := match clock (m_start m) with Some _ => _ | None => _ end).
  assert (EB : forall f0, B = Ok f0 -> let x := match clock (m_start m) with Some now => if sent m "expires" then Some (expires_lifetime m now) else None | None => None end in
     f_priv f0 = or_zero x /\ f_shared f0 = or_zero x /\ f_explicit f0 = if x then true else false).
  { unfold B. intros f0. destruct (clock (m_start m)) as [now|]; [|intros H; injection H as <-; auto].
    destruct (sent m "expires"); [|intros H; injection H as <-; auto].
    destruct (int_or _ 0) as [x|] eqn:Ex; [|discriminate]. cbn [rbind]. destruct (int_or (get_or m "date" VNone) _) as [d|] eqn:Ed; [|discriminate]. cbn [rmap]. intros H. injection H as <-.
    apply int_or_amount in Ex, Ed. cbn [f_priv f_shared f_explicit or_zero]. unfold expires_lifetime.
    assert (E : (x - d)%Z = (or_zero (amount m "expires") - match amount m "date" with Some 0%Z | None => seconds now | Some d => d end)%Z).
    { rewrite Ex, Ed. f_equal.
      - destruct (amount m "expires") as [y|]; [|reflexivity]. cbn [or_zero]. destruct (Z.eqb_spec y 0); congruence.
      - destruct (amount m "date") as [y|]; [|reflexivity]. destruct y; reflexivity. }
    rewrite E. auto. }
  destruct B as [f0|]; [|discriminate]. cbn [rbind]. specialize (EB f0 eq_refl). cbv zeta in EB.
  destruct (cc_int (the_in m rel) "max-age") as [ma|] eqn:E1; [|discriminate]. cbn [rbind].
  destruct (cc_int (the_in m rel) "s-maxage") as [sm|] eqn:E2; [|discriminate]. cbn [rbind].
  apply cc_int_spec in E1 as [-> H1], E2 as [-> H2]. cbv zeta. intros H. injection H as <-. unfold shared_life, private_life. rewrite H1, H2.
  destruct (setting m "max-age"), (setting m "s-maxage"); cbn [f_priv f_shared f_explicit or_zero]; try (repeat split; tauto).
  all: destruct EB as (-> & EB2 & EB3); rewrite ?EB2, ?EB3; repeat split.
Qed.

(** ** The whole checker *)
Definition starb (m : mstate) : bool := match py_in (u "*") (get_or m "vary" (VList [])) with Ok b => b | Err _ => false end.
Definition methb (m : mstate) (rel : option mstate) : bool := match method_uncacheable (the_in m rel) with Some _ => true | None => false end.
Definition authb (rel : option mstate) : bool := match rel with Some r => sent r "authorization" | None => false end.
Definition hasb (m : mstate) (k : string) : bool := cc_has (the_in m None) k.
Definition heurb (m : mstate) : bool := status_is_in heuristic_status (m_status m).
Definition cacb (m : mstate) : bool := hasb m "public" || hasb m "private" || truthy (get_or m "expires" VNone) || hasb m "max-age" || heurb m.
Definition noneb (v : pyval) : bool := match v with VNone => true | _ => false end.
Definition valb (m : mstate) : bool := negb (noneb (get_or m "last-modified" VNone) && noneb (get_or m "etag" VNone)).
Definition explb (m : mstate) : bool := if shared_life m then true else false.
Definition sameb (m : mstate) : bool := (or_zero (shared_life m) =? or_zero (private_life m))%Z.
Definition frb (m : mstate) (rel : option mstate) : bool := negb (Qle_bool (inject_Z (or_zero (private_life m))) (age_of m rel)).
Definition shfb (m : mstate) (rel : option mstate) : bool := negb (Qle_bool (inject_Z (or_zero (shared_life m))) (age_of m rel)).
Definition rows_of (m : mstate) (rel : option mstate) : list (nid * bool) :=
  cache_rows (starb m) (methb m rel) (hasb m "no-store") (hasb m "private") (hasb m "public") (authb rel) (hasb m "must-revalidate") (hasb m "s-maxage") (cacb m)
    (sent m "date") (sent m "expires") (sent m "last-modified") (Qle_bool 1 (age_of m rel)) (hasb m "no-cache") (valb m) (explb m) (sameb m) (frb m rel) (shfb m rel)
    (hasb m "max-age") (heurb m) (hasb m "stale-while-revalidate") (hasb m "stale-if-error") (hasb m "proxy-revalidate").
Definition openb (m : mstate) (rel : option mstate) : bool := negb (starb m) && negb (methb m rel) && negb (hasb m "no-store").
Definition keptb (m : mstate) (rel : option mstate) : bool := openb m rel && (hasb m "private" || authb rel || cacb m || hasb m "s-maxage").
Definition shareb (m : mstate) (rel : option mstate) : bool :=
  negb (hasb m "private") && negb (authb rel && negb (hasb m "public" || hasb m "must-revalidate" || hasb m "s-maxage")).

Lemma check_basic_spec m rel l b : check_basic (the_in m rel) = (l, Ok b) ->
  b = negb (starb m) /\ ev_classes l = chosen [(DATE_CLOCKLESS, negb (starb m) && negb (sent m "date"));
                                               (DATE_CLOCKLESS_BAD_HDR, negb (starb m) && negb (sent m "date") && (sent m "expires" || sent m "last-modified"))].
Proof.
  unfold check_basic. change (i_vary (the_in m rel)) with (get_or m "vary" (VList [])). change (i_names (the_in m rel)) with (lower_names m).
  rewrite !name_sent. unfold starb. destruct (py_in _ _) as [s|]; [|discriminate]. cbv beta iota delta [lift bind].
  destruct s; [intros H; injection H as <- <-; auto|]. unfold when.
  destruct (sent m "date"); [intros H; injection H as <- <-; auto|]. cbn [negb andb].
  destruct (_ || _); intros H; injection H as <- <-; auto.
Qed.
Lemma check_storable_spec m rel l go sp ss : check_storable (the_in m rel) = (l, Ok (go, sp, ss)) ->
  let pv := hasb m "private" in let open := negb (hasb m "no-store") in let auth := authb rel in
  let share := hasb m "public" || hasb m "must-revalidate" || hasb m "s-maxage" in let cac := cacb m in let sm := hasb m "s-maxage" in
  go = open && (pv || auth || cac || sm) /\ sp = open /\ ss = open && shareb m rel
  /\ ev_classes l = chosen [(STORE_NO_STORE, negb open); (STORE_PRIVATE_CC, open && pv); (STORE_PRIVATE_PUBLIC_CONFLICT, open && pv && hasb m "public");
       (STORE_PUBLIC_AUTH, open && negb pv && auth && share); (STORE_PRIVATE_AUTH, open && negb pv && auth && negb share);
       (STORE_STORABLE, open && negb pv && negb auth && cac); (STORE_STORABLE_SHARED_ONLY, open && negb pv && negb auth && negb cac && sm);
       (STORE_UNSTORABLE, open && negb pv && negb auth && negb cac && negb sm)].
Proof.
  unfold check_storable, shareb. change (cc_has (the_in m rel)) with (hasb m). change (i_req (the_in m rel)) with rel.
  assert (Ea : match rel with Some r => str_in (u "authorization") (lower_names r) | None => false end = authb rel) by (destruct rel; [apply name_sent|reflexivity]).
  rewrite Ea. change (i_expires (the_in m rel)) with (get_or m "expires" VNone). change (i_status (the_in m rel)) with (m_status m).
  change (status_is_in heuristic_status (m_status m)) with (heurb m). fold (cacb m).
  generalize (cacb m) (authb rel) (hasb m "private") (hasb m "no-store") (hasb m "public") (hasb m "must-revalidate") (hasb m "s-maxage"). clear.
  intros cac auth pv ns pub mr sm H. cbv zeta in *. unfold when in H.
  destruct ns, pv; [| |destruct pub|destruct auth; [destruct pub; [|destruct mr; [|destruct sm]]|destruct cac; [|destruct sm]]]; injection H as <- <- <- <-;
  repeat match goal with |- context [negb ?b] => is_var b; destruct b | |- context [?b || _] => is_var b; destruct b | |- context [_ && ?b] => is_var b; destruct b  | |- context [_ || ?b] => is_var b; destruct b end; repeat split.
Qed.
Lemma bind_ok {A B} (x : A) (f : A -> W B) : bind (lift (Ok x)) f = f x.
Proof. unfold bind, lift. destruct (f x). reflexivity. Qed.
Lemma int_sub_pos z age n A : int_sub z age = Ok n -> num_q age == A -> num_pos n = negb (Qle_bool (inject_Z z) A).
Proof.
  intros H E. unfold num_pos. rewrite q_gt_spec. f_equal. rewrite <- E.
  assert (X : num_q n == inject_Z z - num_q age).
  { destruct age as [a|q]; cbn [int_sub] in H.
    - injection H as <-. cbn [num_q]. unfold Qminus. rewrite <- inject_Z_opp, <- inject_Z_plus. reflexivity.
    - unfold int_to_float in H. destruct (_ <? _)%Z; [|discriminate]. injection H as <-. reflexivity. }
  rewrite X. destruct (Qle_bool (inject_Z z) (num_q age)) eqn:Eb.
  - apply Qle_bool_iff in Eb. apply Qle_bool_iff. lra.
  - destruct (Qle_bool (inject_Z z - num_q age) 0) eqn:Ec; [|reflexivity]. apply Qle_bool_iff in Ec.
    assert (Qle_bool (inject_Z z) (num_q age) = true); [apply Qle_bool_iff; lra|congruence].
Qed.
Lemma check_freshness_spec m rel age f l go fr sh : check_freshness (the_in m rel) age f = (l, Ok (go, fr, sh)) ->
  num_q age == age_of m rel -> f_priv f = or_zero (private_life m) -> f_shared f = or_zero (shared_life m) -> f_explicit f = explb m ->
  let nc := hasb m "no-cache" in let used := negb nc in let expl := explb m in
  go = used /\ fr = frb m rel /\ sh = shfb m rel
  /\ ev_classes l = chosen [(FRESHNESS_NO_CACHE_NO_VALIDATOR, nc && negb (valb m)); (FRESHNESS_NO_CACHE, nc && valb m);
       (FRESHNESS_SHARED_PRIVATE, used && expl && negb (sameb m)); (FRESHNESS_FRESH, used && expl && sameb m && frb m rel);
       (FRESHNESS_STALE_ALREADY, used && expl && sameb m && negb (frb m rel)); (CC_AND_EXPIRES, used && expl && hasb m "max-age" && sent m "expires");
       (FRESHNESS_HEURISTIC, used && negb expl && heurb m); (FRESHNESS_NONE, used && negb expl && negb (heurb m));
       (STORE_PUBLIC_UNNECESSARY, used && hasb m "public" && (expl || heurb m))].
Proof.
  intros H Ea Ep Es Ee. unfold check_freshness in H. rewrite exp_present in H. cbv zeta in *. change (cc_has (the_in m rel)) with (hasb m) in H.
  change (i_lm (the_in m rel)) with (get_or m "last-modified" VNone) in H. change (i_etag (the_in m rel)) with (get_or m "etag" VNone) in H.
  change (i_status (the_in m rel)) with (m_status m) in H. change (status_is_in heuristic_status (m_status m)) with (heurb m) in H.
  destruct (int_sub (f_priv f) age) as [n1|] eqn:E1; [|discriminate]. destruct (int_sub (f_shared f) age) as [n2|] eqn:E2; [|discriminate].
  rewrite !bind_ok in H. pose proof (int_sub_pos _ _ _ _ E1 Ea) as F1. pose proof (int_sub_pos _ _ _ _ E2 Ea) as F2.
  rewrite F1, F2, Ep, Es, Ee in H. fold (frb m rel) (shfb m rel) (sameb m) in H.
  assert (S : sameb m = true -> frb m rel = shfb m rel). { unfold sameb, frb, shfb. intros X. apply Z.eqb_eq in X. rewrite X. reflexivity. }
  revert H S. unfold valb. 
  destruct (hasb m "no-cache").
  - intros H _. assert (X : go = false /\ fr = frb m rel /\ sh = shfb m rel /\
        ev_classes l = if noneb (get_or m "last-modified" VNone) && noneb (get_or m "etag" VNone) then [FRESHNESS_NO_CACHE_NO_VALIDATOR] else [FRESHNESS_NO_CACHE]).
    { destruct (get_or m "last-modified" VNone); [destruct (get_or m "etag" VNone)|..]; injection H as <- <- <- <-; repeat split. }
    destruct X as (-> & -> & -> & ->). repeat split. destruct (noneb _ && noneb _); reflexivity.
  - generalize (frb m rel) (shfb m rel) (sameb m) (explb m) (heurb m) (hasb m "public") (hasb m "max-age") (sent m "expires"). clear.
    intros fr0 sh0 same expl heur pub ma eh H S. unfold when in H.
    destruct expl.
    + destruct same.
      * specialize (S eq_refl). subst sh0. destruct fr0, ma, eh, pub; injection H as <- <- <- <-; repeat split.
      * destruct ma, eh, pub; injection H as <- <- <- <-; repeat split; destruct fr0; reflexivity.
    + destruct heur, pub; injection H as <- <- <- <-; repeat split.
Qed.
Lemma check_stale_spec m rel f l fr sh : check_stale (the_in m rel) f fr sh = (l, Ok tt) ->
  let sie := hasb m "stale-if-error" in let mr := hasb m "must-revalidate" in let pr := hasb m "proxy-revalidate" || hasb m "s-maxage" in
  ev_classes l = chosen [(STALE_WHILE_REVALIDATE, hasb m "stale-while-revalidate"); (STALE_IF_ERROR, sie); (FRESH_MUST_REVALIDATE, negb sie && mr && fr);
     (STALE_MUST_REVALIDATE, negb sie && mr && negb fr && f_explicit f); (FRESH_PROXY_REVALIDATE, negb sie && negb mr && pr && sh);
     (STALE_PROXY_REVALIDATE, negb sie && negb mr && pr && negb sh && f_explicit f);
     (STALE_SERVABLE, negb sie && negb mr && negb (hasb m "proxy-revalidate") && negb (hasb m "s-maxage"))].
Proof.
  unfold check_stale. change (cc_has (the_in m rel)) with (hasb m).
  generalize (hasb m "stale-if-error") (hasb m "must-revalidate") (hasb m "proxy-revalidate") (hasb m "s-maxage") (hasb m "stale-while-revalidate") (f_explicit f). clear.
  intros sie mr pr sm swr expl H. cbv zeta in *. unfold when in H.
  destruct swr, sie, mr, fr, sh, expl, pr, sm; injection H as <-; reflexivity.
Qed.
Lemma bind_inv {A B} (w : W A) (f : A -> W B) l b : bind w f = (l, Ok b) -> exists l1 a l2, w = (l1, Ok a) /\ f a = (l2, Ok b) /\ l = l1 ++ l2.
Proof.
  unfold bind. destruct w as [l1 [a|]]; [|discriminate]. destruct (f a) as [l2 r] eqn:E. intros H. injection H as <- ->. eauto 6.
Qed.
Lemma chosen_cat a b : chosen (a ++ b) = chosen a ++ chosen b.
Proof. apply flat_map_app. Qed.
Lemma cache_table m rel lc lreq k : cache_check m rel = (lc, lreq, Ok k) ->
  ev_classes lc = chosen (rows_of m rel)
  /\ c_store_private k = openb m rel /\ c_store_shared k = openb m rel && shareb m rel
  /\ (if keptb m rel then c_age k == age_of m rel /\ c_life_private k = or_zero (private_life m) /\ c_life_shared k = or_zero (shared_life m)
      else c_age k = 0%Q /\ c_life_private k = 0%Z /\ c_life_shared k = 0%Z)
  /\ (keptb m rel = true -> hasb m "max-age" = true -> explb m = true)
  /\ (exists s, lreq = if negb (starb m) && methb m rel then [EMsg (u "method") STORE_METHOD_UNCACHEABLE [vs "method" s]] else []).
Proof.
  intros H. unfold cache_check in H. destruct (cache_in m rel) as [i|] eqn:Ei; [|discriminate]. apply cache_in_eq in Ei. subst i.
  destruct (check_basic (the_in m rel)) as [l1 [b|]] eqn:E1; [|discriminate]. apply check_basic_spec in E1 as [-> E1].
  unfold rows_of, keptb, openb. destruct (starb m) eqn:Es.
  { cbn [negb] in H. injection H as <- <- <-. rewrite E1. unfold cache_rows. cbn [negb andb]. split; [reflexivity|]. split; [reflexivity|]. split; [reflexivity|]. split; [repeat split|]. split; [discriminate|]. exists []. reflexivity. }
  cbn [negb] in *. destruct (methb m rel) eqn:Em; unfold methb in Em.
  { destruct (method_uncacheable _) as [s|] eqn:E2; [|discriminate]. injection H as <- <- <-. rewrite E1.
    split; [unfold cache_rows; cbn [negb andb chosen flat_map fst snd app]; destruct (sent m "date"), (sent m "expires"), (sent m "last-modified"); reflexivity|].
    cbn [negb andb]. split; [reflexivity|]. split; [reflexivity|]. split; [repeat split|]. split; [discriminate|]. exists s. reflexivity. }
  destruct (method_uncacheable _) as [s|] eqn:E2; [discriminate|]. 
  match type of H with (let '(_, _) := ?X in _) = _ => destruct X as [l2' r2] eqn:EX end. injection H as <- <- ->.
  apply bind_inv in EX as (l2 & [[go sp] ss] & l3 & E3 & EX & ->). apply check_storable_spec in E3 as (Eg & -> & -> & E3).
  unfold shareb in *. destruct go.
  - cbn [negb] in EX. apply bind_inv in EX as (l4 & age & l5 & E4 & EX & ->). apply check_age_spec in E4 as [Ea E4].
    apply bind_inv in EX as (l6 & f & l7 & E5 & EX & ->). injection E5 as <- E5. apply lifetimes_spec in E5 as (F1 & F2 & F3 & F4 & _).
    apply bind_inv in EX as (l8 & [[go fr] sh] & l9 & E6 & EX & ->).
    pose proof (check_freshness_spec _ _ _ _ _ _ _ _ E6 Ea F1 F2 F3) as (-> & -> & -> & E7). clear E6.
    apply bind_inv in EX as (l10 & [] & l11 & E8 & EX & ->). injection EX as <- <-.
    assert (E9 : ev_classes l10 = if hasb m "no-cache" then [] else chosen [(STALE_WHILE_REVALIDATE, hasb m "stale-while-revalidate"); (STALE_IF_ERROR, hasb m "stale-if-error");
      (FRESH_MUST_REVALIDATE, negb (hasb m "stale-if-error") && hasb m "must-revalidate" && frb m rel);
      (STALE_MUST_REVALIDATE, negb (hasb m "stale-if-error") && hasb m "must-revalidate" && negb (frb m rel) && explb m);
      (FRESH_PROXY_REVALIDATE, negb (hasb m "stale-if-error") && negb (hasb m "must-revalidate") && (hasb m "proxy-revalidate" || hasb m "s-maxage") && shfb m rel);
      (STALE_PROXY_REVALIDATE, negb (hasb m "stale-if-error") && negb (hasb m "must-revalidate") && (hasb m "proxy-revalidate" || hasb m "s-maxage") && negb (shfb m rel) && explb m);
      (STALE_SERVABLE, negb (hasb m "stale-if-error") && negb (hasb m "must-revalidate") && negb (hasb m "proxy-revalidate") && negb (hasb m "s-maxage"))]).
    { unfold when in E8. destruct (hasb m "no-cache"); [injection E8 as <-; reflexivity|]. cbn [negb] in E8. apply check_stale_spec in E8. cbv zeta in E8.
      rewrite E8. fold (explb m) in F3. rewrite F3. reflexivity. }
    clear E8. rewrite !ev_classes_app, E1, E3, E4, E7, E9. clear E1 E3 E4 E7 E9. cbn [c_store_private c_store_shared c_age c_life_private c_life_shared ev_classes flat_map app].
    rewrite app_nil_r.
    split; [|split; [reflexivity|split; [destruct (hasb m "no-store"); reflexivity|split; [|split; [|exists []; reflexivity]]]]].
    3: { intros _ Hm. change (cc_has (the_in m rel)) with (hasb m) in F4. rewrite Hm in F4. unfold explb, shared_life, private_life. destruct (setting m "max-age"); [destruct (setting m "s-maxage"); reflexivity|discriminate]. }
    2: { cbn [negb andb]. rewrite <- Eg. repeat split; auto. }
    symmetry in Eg. apply andb_prop in Eg as [Hn Hk]. apply negb_true_iff in Hn. rewrite Hn. unfold cache_rows. cbv zeta. cbn [negb andb]. rewrite Hk. clear.
    cbn [negb andb orb].
    destruct (hasb m "no-cache"); cbn [negb andb chosen flat_map fst snd app]; rewrite ?app_nil_r, <- ?app_assoc; cbn [app]; reflexivity.
  - cbn [negb bind ret] in EX. injection EX as <- <-. rewrite !ev_classes_app, E1, E3. cbn [c_store_private c_store_shared c_age c_life_private c_life_shared ev_classes flat_map app].
    rewrite app_nil_r. clear E1 E3. cbn [negb andb]. rewrite <- Eg.
    split; [|split; [reflexivity|split; [destruct (hasb m "no-store"); reflexivity|split; [repeat split|split; [discriminate|exists []; reflexivity]]]]].
    unfold cache_rows. cbv zeta. cbn [negb andb]. rewrite <- Eg. clear.
    cbn [negb andb orb]. rewrite negb_involutive. cbn [andb chosen flat_map fst snd app]. rewrite ?app_nil_r, <- ?app_assoc. cbn [app]. reflexivity.
Qed.
