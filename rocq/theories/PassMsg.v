(** * The whole-message checks: their events, when they raise. *)
From Verif Require Import PyStr Regex Grammar Note PyLib Utils FieldAttrs Types Fields1 Fields2 Fields3 Framework Checks Message
  Spans EvLogic NoteLemmas LexLemmas ParamLemmas NumLemmas NameLemmas FrameLemmas PassParse PassEval PassSF PassFrame PassSec PassProc.
Open Scope N_scope.

(** An event of a check whose classes are in [file]. *)
Definition mev (file : string) (e : ev) : Prop :=
  match e with EMsg s n vrs => nid_file n = file /\ note_ok n base_msg vrs /\ offless s | _ => False end.
Lemma wp_msg file (E : exn -> Prop) s n v (Q : unit -> Prop) : nid_file n = file -> note_ok n base_msg v -> offless (u s) -> Q tt -> wp (mev file) E Q (msg s n v).
Proof. intros. apply wp_tell; auto. constructor; [split; auto|constructor]. Qed.
Lemma pv_opt n o : pv_ok n (opt_str o).
Proof. destruct o; exact I. Qed.
Ltac msg_note := split; [keys_tac | pv_tac; try apply pv_opt].
Ltac wpm := repeat match goal with
  | |- wp _ _ _ (msg _ _ _) => apply wp_msg; [reflexivity | msg_note | reflexivity | ]
  | |- wp _ _ _ (tell [_]) => apply wp_tell; [apply Forall_cons; [split; [reflexivity|split; [msg_note|reflexivity]]|apply Forall_nil]|]
  | |- wp _ _ _ (bind (msg _ _ _) (fun _ => _)) => apply wp_seq
  | _ => wp_step
  end.

Lemma wp_preflight_request E m : wp (mev "field/cors.py") E (fun _ => True) (check_preflight_request m).
Proof. unfold check_preflight_request. cbv zeta. wpm. Qed.
Lemma wp_preflight_response m rel :
  wp (mev "field/cors.py") (fun _ => ~ kept (m_headers m)) (fun _ => True) (check_preflight_response m rel).
Proof.
  unfold check_preflight_response. apply wp_seq.
  - destruct (match rel with Some r => is_preflight r | None => false end); [wpm|].
    apply (wp_bind_lift _ _ (fun _ => True)); [|intros; wpm].
    destruct (mapR _ _) as [l|x] eqn:E; [exact I|]. intros Hk.
    enough (H : rp (fun _ : exn => False) (fun _ : list str => True) (mapR (fun k => match dget (u k) (s_handlers (m_headers m)) with
                                 | Some h => Ok (h_canon h)
                                 | None => Err EKey
                                 end) (filter (m_has m) preflight_only))) by (rewrite E in H; exact H).
    eapply rp_conseq; [apply rp_mapR with (R := fun _ => True)|auto]. intros k Hin. apply filter_In in Hin as [_ Hh].
    apply Hk in Hh. unfold dmem in Hh. destruct (dget _ _); [exact I|discriminate].
  - destruct (m_get m _) as [[]|]; wpm.
Qed.
Lemma wp_status_checks m rel : wp (mev "status.py") (fun _ => ~ (m_type m = MResponse /\ typed m)) (fun _ => True) (check_status m rel).
Proof.
  unfold check_status. cbv zeta. destruct (m_status m) as [z|]; [|wpm].
  destruct z as [|p|p]; try solve [wpm]; repeat (destruct p as [p|p|]; try solve [wpm]).
  2: { wpm. destruct rel as [r|]; [|reflexivity]. destruct (m_method r) as [s|]; [|reflexivity]. apply (harmless_in safe_methods); [reflexivity|assumption]. }
  apply (wp_bind_lift _ _ (fun _ => True)); [|intros; wpm].
  destruct (match rel with Some r => m_method r | None => _ end) as [[|c s]|]; try exact I.
  destruct (m_get m "allow") as [a|] eqn:Ea; [|exact I].
  destruct (py_in (c :: s) a) as [b|x] eqn:Ep; [exact I|]. intros [Ht Hty].
  specialize (Hty _ _ Ea). rewrite Ht in Hty. change (find_class (u "allow")) with F_allow in Hty.
  destruct Hty as [[Hw _]|(l & -> & _)]; [discriminate|]. discriminate.
Qed.

(** ** cache.py *)
(** No float arithmetic: one of the two times is unknown. *)
Definition no_delay (i : cin) : Prop := q_truthy (i_req_time i) = None \/ q_truthy (i_resp_time i) = None.
Definition small (z : Z) : Prop := (Z.abs z < 2 ^ 1024 - 2 ^ 970)%Z.
(** ... or the numbers are in range of float. *)
Definition age_fits (i : cin) : Prop := exists z, i_age i = VInt z /\ small z.
Definition life_fits (i : cin) : Prop := forall f, lifetimes i = Ok f -> small (f_priv f) /\ small (f_shared f).
Definition cache_ok (i : cin) : Prop := no_delay i \/ (age_fits i /\ life_fits i).
Record cin_typed (i : cin) : Prop := {
  ct_age : i_or_none (i_age i);
  ct_date : i_or_none (i_date i);
  ct_exp : i_or_none (i_expires i);
  ct_vary : exists l, i_vary i = VList l;
  ct_ma : forall v, dget (u "max-age") (i_cc i) = Some v -> is_vint v;
  ct_sm : forall v, dget (u "s-maxage") (i_cc i) = Some v -> is_vint v
}.
Lemma cache_in_typed m rel : m_type m = MResponse -> typed m -> exists i, cache_in m rel = Ok i /\ cin_typed i.
Proof.
  intros Ht Hty.
  assert (HS : forall k f d, find_class (u k) = f -> kind_of f = KSingleton -> (forall v, val_ok f v -> is_vint v) -> i_or_none d -> i_or_none (get_or m k d)).
  { intros k f d Hf Hk Hv Hd. unfold get_or. destruct (m_get m k) as [v|] eqn:E; [|exact Hd].
    specialize (Hty _ _ E). rewrite Hf in Hty. unfold hval_ok in Hty. rewrite Hk in Hty.
    destruct Hty as [[-> _]|H]; [left; reflexivity|right; apply Hv, H]. }
  assert (HL : forall k f, find_class (u k) = f -> kind_of f = KList -> wrong MResponse f = false -> exists l, get_or m k (VList []) = VList l /\ Forall (val_ok f) l).
  { intros k f Hf Hk Hw. unfold get_or. destruct (m_get m k) as [v|] eqn:E; [|exists []; split; [reflexivity|constructor]].
    specialize (Hty _ _ E). rewrite Hf, Ht in Hty. unfold hval_ok in Hty. rewrite Hk in Hty.
    destruct Hty as [[H _]|H]; [congruence|exact H]. }
  destruct (HL "cache-control" F_cache_control)%string as (cl & Ecc & Hcc); [vm_compute; reflexivity..|].
  destruct (HL "vary" F_vary)%string as (vl & Ev & _); [vm_compute; reflexivity..|].
  unfold cache_in. rewrite Ecc.
  pose proof (cc_pairs_ok (fun _ => False) cl Hcc) as Hp.
  destruct (cc_pairs (VList cl)) as [ps|x]; [|destruct Hp]. cbn [rp] in Hp. eexists. split; [reflexivity|].
  assert (Hint : forall k a b, dget (u k) known_cc = Some (a, b, CCInt) -> forall v, dget (u k) (dupdate [] ps) = Some v -> is_vint v).
  { intros k a b Hk v Hv. apply dget_In in Hv. apply in_dupdate in Hv as [[]|Hv].
    rewrite Forall_forall in Hp. specialize (Hp _ Hv). cbn [fst snd] in Hp. apply (cc_int_val _ _ Hp). eauto. }
  constructor; cbn [i_age i_date i_expires i_vary i_cc].
  - apply (HS "age" F_age)%string; [vm_compute; reflexivity..|auto|right; eexists; reflexivity].
  - apply (HS "date" F_date)%string; [vm_compute; reflexivity..|auto|left; reflexivity].
  - apply (HS "expires" F_expires)%string; [vm_compute; reflexivity..|auto|left; reflexivity].
  - exists vl. exact Ev.
  - eapply (Hint "max-age"%string); vm_compute; reflexivity.
  - eapply (Hint "s-maxage"%string); vm_compute; reflexivity.
Qed.
Lemma wp_basic i E : (exists l, i_vary i = VList l) -> wp (mev "cache.py") E (fun _ => True) (check_basic i).
Proof.
  intros [l El]. unfold check_basic. rewrite El. apply (wp_bind_lift _ _ (fun _ => True)); [exact I|]. intros b _. wpm.
Qed.
Lemma wp_storable i E : wp (mev "cache.py") E (fun _ => True) (check_storable i).
Proof. unfold check_storable. cbv zeta. wpm. Qed.
(** An [age] that float arithmetic produced, or an int. *)
Lemma wp_age i : cin_typed i ->
  wp (mev "cache.py") (fun _ => ~ cache_ok i) (fun a => match a with NInt _ => True | NFloat _ => ~ no_delay i end) (check_age i).
Proof.
  intros H. unfold check_age.
  apply (wp_bind_lift _ _ (fun _ => True)).
  { destruct (q_truthy (i_resp_time i)); [|exact I]. destruct (ct_date _ H) as [->|[z ->]]; [exact I|].
    destruct (truthy (VInt z)); exact I. }
  intros ap _.
  apply (wp_bind_lift _ _ (fun a => match a with NInt _ => True | NFloat _ => ~ no_delay i end)).
  - unfold cache_ok, age_fits, no_delay.
    destruct (q_truthy (i_req_time i)) as [a|] eqn:Ea; [destruct (q_truthy (i_resp_time i)) as [b|] eqn:Eb|].
    + destruct (ct_age _ H) as [Hn|[z Hz]]; rewrite ?Hn, ?Hz; cbn [as_int rbind rp].
      * intros [[G|G]|[(z & Hz & _) _]]; congruence.
      * unfold int_to_float. destruct (Z.abs z <? 2 ^ 1024 - 2 ^ 970)%Z eqn:Es; cbn [rmap rp].
        -- intros [G|G]; discriminate.
        -- intros [[G|G]|[(z' & Hz' & Hs) _]]; [discriminate..|]. assert (z' = z) as -> by congruence.
           unfold small in Hs. apply Z.ltb_nlt in Es. contradiction.
    + destruct (ct_age _ H) as [->|[z ->]]; exact I.
    + destruct (ct_age _ H) as [->|[z ->]]; exact I.
  - intros corrected Hc. cbv zeta. apply wp_seq; [wpm|]. apply wp_ret. destruct (q_gt _ _); [exact Hc|exact I].
Qed.
Lemma rp_lifetimes i : cin_typed i -> rp (fun _ => False) (fun f => lifetimes i = Ok f) (lifetimes i).
Proof.
  intros H. enough (G : rp (fun _ => False) (fun _ => True) (lifetimes i)) by (destruct (lifetimes i); [reflexivity|exact G]).
  unfold lifetimes. apply rp_rbind with (R := fun _ => True).
  - destruct (q_truthy (i_resp_time i)); [|exact I]. destruct (expires_present i); [|exact I].
    unfold int_or. destruct (ct_exp _ H) as [->|[z ->]]; destruct (ct_date _ H) as [->|[z' ->]]; cbn [truthy];
      repeat match goal with |- context [if ?b then _ else _] => destruct b end; exact I.
  - intros f _. apply rp_rbind with (R := fun _ => True).
    + unfold cc_int. destruct (dget _ _) as [v|] eqn:E; [|exact I]. destruct (ct_ma _ H _ E) as [z ->]. exact I.
    + intros ma _. apply rp_rbind with (R := fun _ => True); [|intros; exact I].
      unfold cc_int. destruct (dget (u "s-maxage") _) as [v|] eqn:E; [|exact I]. destruct (ct_sm _ H _ E) as [z ->]. exact I.
Qed.
Lemma rp_int_sub i z a : match a with NInt _ => True | NFloat _ => ~ no_delay i end -> (~ no_delay i -> cache_ok i -> small z) ->
  rp (fun _ => ~ cache_ok i) (fun _ => True) (int_sub z a).
Proof.
  intros Ha Hz. destruct a as [n|q]; [exact I|]. unfold int_sub, int_to_float. destruct (_ <? _)%Z eqn:E; [exact I|].
  cbn. intros Hc. apply Z.ltb_nlt in E. apply E, (Hz Ha Hc).
Qed.
(** The subject of the freshness notes begins with field-date. *)
Lemma lifetimes_subj i f : lifetimes i = Ok f -> offless (join (u " ") (f_subj f)).
Proof.
  unfold lifetimes. intros H.
  assert (G : exists l, f_subj f = u "field-date" :: l).
  { destruct (match q_truthy (i_resp_time i) with Some _ => _ | None => _ end) as [f0|x] eqn:E0; [|discriminate]. cbn [rbind] in H.
    assert (G0 : exists l, f_subj f0 = u "field-date" :: l).
    { destruct (q_truthy _); [|injection E0 as <-; eexists; reflexivity]. destruct (expires_present i); [|injection E0 as <-; eexists; reflexivity].
      destruct (int_or (i_expires i) 0); [|discriminate]. destruct (int_or (i_date i) _); [|discriminate]. injection E0 as <-. eexists; reflexivity. }
    destruct G0 as [l0 E1]. destruct (cc_int i "max-age") as [ma|]; [|discriminate]. destruct (cc_int i "s-maxage") as [sm|]; [|discriminate].
    cbn [rbind] in H. destruct ma, sm; injection H as <-; cbn [f_subj]; rewrite E1; cbn [app]; eauto. }
  destruct G as [l ->]. unfold offless. destruct l as [|a l]; [reflexivity|]. cbn [join]. reflexivity.
Qed.
Lemma wp_freshness i a f : cin_typed i -> lifetimes i = Ok f -> match a with NInt _ => True | NFloat _ => ~ no_delay i end ->
  wp (mev "cache.py") (fun _ => ~ cache_ok i) (fun _ => True) (check_freshness i a f).
Proof.
  intros H Hf Ha. unfold check_freshness.
  assert (Hs : ~ no_delay i -> cache_ok i -> small (f_priv f) /\ small (f_shared f)).
  { intros H1 [H2|[_ H2]]; [contradiction|]. apply H2, Hf. }
  apply (wp_bind_lift _ _ (fun _ => True)); [apply rp_int_sub; [exact Ha|]; intros; apply Hs; assumption|]. intros l _.
  apply (wp_bind_lift _ _ (fun _ => True)); [apply rp_int_sub; [exact Ha|]; intros; apply Hs; assumption|]. intros sl _. cbv zeta.
  destruct (cc_has i "no-cache").
  - apply wp_seq; [|apply wp_ret; exact I]. destruct (i_lm i), (i_etag i); wpm.
  - pose proof (lifetimes_subj i f Hf) as Hj. eapply wp_bind with (R := fun _ => True); [|intros; wpm]. wpm;
      try (apply wp_tell; [apply Forall_cons; [|apply Forall_nil]|exact I]); try exact I;
      try (destruct (num_pos l || num_pos sl)); (split; [reflexivity|split; [msg_note|exact Hj]]).
Qed.
Lemma wp_stale i f a b E : wp (mev "cache.py") E (fun _ => True) (check_stale i f a b).
Proof. unfold check_stale. cbv zeta. wpm. Qed.
Definition cache_fits (m : mstate) (rel : option mstate) : Prop := forall i, cache_in m rel = Ok i -> cache_ok i.
Lemma cache_pass m rel : m_type m = MResponse -> typed m ->
  let '(l, lreq, r) := cache_check m rel in
  Forall (mev "cache.py") l /\ Forall (mev "cache.py") lreq
  /\ match r with Ok _ => True | Err _ => ~ cache_fits m rel end.
Proof.
  intros Ht Hty. destruct (cache_in_typed m rel Ht Hty) as (i & Ei & Hi). unfold cache_check. rewrite Ei.
  pose proof (wp_basic i (fun _ => False) (ct_vary _ Hi)) as [B1 B2].
  destruct (check_basic i) as [l1 [[|]|x]]; cbn [fst snd] in *; [| |destruct B2].
  - destruct (method_uncacheable i) as [meth|].
    + split; [exact B1|]. split; [|exact I]. constructor; [|constructor]. split; [reflexivity|split; [msg_note|reflexivity]].
    + set (w := bind (check_storable i) _).
      assert (W : wp (mev "cache.py") (fun _ => ~ cache_ok i) (fun _ => True) w).
      { unfold w. eapply wp_bind; [apply wp_storable|]. intros [[go sp] ss] _. destruct (negb go); [apply wp_ret; exact I|].
        eapply wp_bind; [apply wp_age, Hi|]. intros a Ha.
        apply (wp_bind_lift _ _ (fun f => lifetimes i = Ok f)).
        - pose proof (rp_lifetimes i Hi) as HL. destruct (lifetimes i); [reflexivity|destruct HL].
        - intros f Hf. eapply wp_bind; [apply wp_freshness; [exact Hi|exact Hf|exact Ha]|]. intros [[g fr] sh] _.
          apply wp_seq; [apply wp_when; [intros _; apply wp_stale|exact I]|]. apply wp_ret; exact I. }
      destruct w as [l2 r2]. destruct W as [W1 W2]. cbn [fst snd] in *.
      split; [apply Forall_app; auto|]. split; [constructor|]. destruct r2; [exact I|]. intros Hc. apply W2, Hc, Ei.
  - split; [exact B1|]. split; [constructor|exact I].
Qed.
(** The events, whether or not it raises. *)
Lemma rp_any {A} (x : res A) : rp (fun _ => True) (fun _ => True) x. Proof. destruct x; exact I. Qed.
Ltac anyl := apply (wp_bind_lift _ _ (fun _ => True)); [apply rp_any|intros ? _].
Lemma cache_events m rel : let '(l, lreq, _) := cache_check m rel in Forall (mev "cache.py") l /\ Forall (mev "cache.py") lreq.
Proof.
  unfold cache_check. destruct (cache_in m rel) as [i|]; [|split; constructor].
  assert (B : wp (mev "cache.py") (fun _ => True) (fun _ => True) (check_basic i)).
  { unfold check_basic. anyl. wpm. }
  destruct (check_basic i) as [l1 r1]. destruct B as [B1 _]. cbn [fst snd] in *.
  destruct r1 as [[|]|]; [|split; [exact B1|constructor]..]. destruct (method_uncacheable i) as [meth|].
  { split; [exact B1|]. constructor; [|constructor]. split; [reflexivity|split; [msg_note|reflexivity]]. }
  set (w := bind (check_storable i) _).
  assert (W : wp (mev "cache.py") (fun _ => True) (fun _ => True) w).
  { unfold w. eapply wp_bind; [apply wp_storable|]. intros [[go sp] ss] _. destruct (negb go); [apply wp_ret; exact I|].
    eapply wp_bind with (R := fun _ => True).
    { unfold check_age. anyl. anyl. cbv zeta. wpm. }
    intros ag _. apply (wp_bind_lift _ _ (fun f => lifetimes i = Ok f)); [destruct (lifetimes i); [reflexivity|exact I]|].
    intros f Hf. pose proof (lifetimes_subj i f Hf) as Hj. eapply wp_bind with (R := fun _ => True).
    { unfold check_freshness. anyl. anyl. cbv zeta. destruct (cc_has i "no-cache").
      - apply wp_seq; [|apply wp_ret; exact I]. destruct (i_lm i), (i_etag i); wpm.
      - eapply wp_bind with (R := fun _ => True); [|intros; wpm]. wpm;
          try (apply wp_tell; [apply Forall_cons; [|apply Forall_nil]|exact I]); try exact I;
        try match goal with |- mev _ (EMsg _ (if ?b then _ else _) _) => destruct b end; (split; [reflexivity|split; [msg_note|exact Hj]]). }
    intros [[g fr] sh] _. apply wp_seq; [apply wp_when; [intros _; apply wp_stale|exact I]|]. apply wp_ret; exact I. }
  destruct w as [l2 r2]. destruct W as [W1 W2]. cbn [fst snd] in *. split; [apply Forall_app; auto|constructor].
Qed.

(** ** content_type.py, charset.py *)
Definition pair_val (v : pyval) : Prop := exists s d, v = VTuple [VStr s; VDict d] /\ Forall (fun kv => s_or_none (snd kv)) d.
Lemma ct_pair m v : typed m -> m_get m "content-type" = Some v -> pair_val v.
Proof.
  intros Hty E. specialize (Hty _ _ E). change (find_class (u "content-type")) with F_content_type in Hty.
  destruct Hty as [[_ H]|H]; [congruence|]. destruct H as (s & p & -> & d & -> & Hd). exists s, d. auto.
Qed.
Lemma wp_content_type e m : wp (mev "content_type.py") (fun _ => ~ typed m) (fun _ => True) (verify_content_type e m).
Proof.
  unfold verify_content_type. destruct (_ || _); [wpm|]. destruct (m_get m _) as [v|] eqn:Ev; [|wpm].
  apply (wp_bind_lift _ _ (fun t => typed m -> is_vstr t)).
  { destruct (index v 0) as [t|x] eqn:Ei; cbn; intros Hty; destruct (ct_pair m v Hty Ev) as (s & d & -> & _); cbn in Ei; [|discriminate].
    injection Ei as <-. eexists; reflexivity. }
  intros t Ht. destruct (negb (truthy t)); [wpm|].
  apply (wp_bind_lift _ _ (fun _ => True)).
  { destruct (as_str t) eqn:Es; cbn; [exact I|]. intros Hty. destruct (Ht Hty) as [s ->]. discriminate. }
  intros declared _. destruct (e_sniff _ _ _); wpm.
Qed.
(** Outside [Bad] the codec functions raise nothing but LookupError and
    UnicodeDecodeError; utf-8, the detector's guesses and canonical names are outside. *)
Record codec_calm (Bad : str -> Prop) (e : env) : Prop := {
  cd_lookup : forall s x, ~ Bad s -> e_codec e s = Err x -> x = ELookup \/ x = EType;
  cd_canon : forall s r, ~ Bad s -> e_codec e s = Ok r -> ~ Bad r;
  cd_decode : forall s b x, ~ Bad s -> e_decode e s b = Err x -> x = EDecode \/ x = ELookup;
  cd_utf8 : ~ Bad (u "utf-8");
  cd_detect : forall b s c, e_chardet e b = (Some s, c) -> ~ Bad s }.
(** The charset given by Content-Type, if any, is outside. *)
Definition charset_ok (Bad : str -> Prop) (m : mstate) : Prop := forall t d s,
  m_get m "content-type" = Some (VTuple [t; VDict d]) -> dget (u "charset") d = Some (VStr s) -> ~ Bad s.
Lemma wp_canonical (Y : Prop) (Bad : str -> Prop) file e s : (Y -> codec_calm Bad e) -> (Y -> ~ Bad s) ->
  wp (mev file) (fun _ => ~ Y) (fun o => forall r, o = Some r -> Y -> ~ Bad r) (canonical e s).
Proof.
  intros HC Hs. unfold canonical. destruct (e_codec e s) as [y|x] eqn:E.
  - apply wp_ret. intros r Hr C. injection Hr as <-. apply (cd_canon _ _ (HC C) s y (Hs C) E).
  - destruct x; try (apply wp_ret; intros r Hr; discriminate); apply wp_raise; intros C; destruct (cd_lookup _ _ (HC C) _ _ (Hs C) E); discriminate.
Qed.
Lemma wp_decode (Y : Prop) (Bad : str -> Prop) file e c b : (Y -> codec_calm Bad e) -> (Y -> ~ Bad c) ->
  wp (mev file) (fun _ => ~ Y) (fun _ => True) (try_decode e c b).
Proof.
  intros HC Hs. unfold try_decode. destruct (e_decode e c b) as [y|x] eqn:E; [wpm|].
  destruct x; try solve [wpm]; apply wp_raise; intros C; destruct (cd_decode _ _ (HC C) _ _ _ (Hs C) E); discriminate.
Qed.
Lemma wp_charset (Bad : str -> Prop) e m : wp (mev "charset.py") (fun _ => ~ (codec_calm Bad e /\ charset_ok Bad m /\ typed m)) (fun _ => True) (verify_charset e m).
Proof.
  unfold verify_charset. destruct (_ || _); [wpm|]. destruct (m_get m _) as [v|] eqn:Ev; [|wpm].
  assert (HI : forall k t, index v k = Ok t -> typed m -> exists s d, v = VTuple [VStr s; VDict d] /\ Forall (fun kv => s_or_none (snd kv)) d).
  { intros k t _ Hty. apply (ct_pair m v Hty Ev). }
  apply (wp_bind_lift _ _ (fun t => typed m -> is_vstr t)).
  { destruct (index v 0) as [t|x] eqn:Ei; cbn; [intros Hty|intros (_ & _ & Hty)]; destruct (ct_pair m v Hty Ev) as (s & d & -> & _); cbn in Ei; [|discriminate].
    injection Ei as <-. eexists; reflexivity. }
  intros t Ht.
  apply (wp_bind_lift _ _ (fun p => typed m -> exists d, p = VDict d /\ (charset_ok Bad m -> forall s, dget (u "charset") d = Some (VStr s) -> ~ Bad s) /\ Forall (fun kv => s_or_none (snd kv)) d)).
  { destruct (index v 1) as [p|x] eqn:Ei; cbn; [intros Hty|intros (_ & _ & Hty)]; destruct (ct_pair m v Hty Ev) as (s & d & -> & Hd); cbn in Ei; [|discriminate].
    injection Ei as <-. exists d. split; [reflexivity|]. split; [|exact Hd]. intros Hc s2 Hs2. apply (Hc _ _ _ Ev Hs2). }
  intros p Hp. destruct (negb (truthy t)); [wpm|].
  apply (wp_bind_lift _ _ (fun _ => True)).
  { destruct (as_str t) eqn:Es; cbn; [exact I|]. intros (_ & _ & Hty). destruct (Ht Hty) as [s ->]. discriminate. }
  intros declared _.
  apply (wp_bind_lift _ _ (fun d => typed m -> (charset_ok Bad m -> forall s, dget (u "charset") d = Some (VStr s) -> ~ Bad s) /\ Forall (fun kv => s_or_none (snd kv)) d)).
  { destruct (as_dict p) as [d|x] eqn:Es; cbn; [intros Hty|intros (_ & _ & Hty)]; destruct (Hp Hty) as (d' & -> & Hb & Hd); cbn in Es; [|discriminate].
    injection Es as <-. split; assumption. }
  intros params Hd. cbv zeta. set (raw := match dget _ params with Some _ => _ | None => _ end).
  assert (Hraw : typed m -> s_or_none raw).
  { intros Hty. unfold raw. destruct (dget _ params) as [x|] eqn:Ex; [|left; reflexivity]. apply dget_In in Ex.
    destruct (Hd Hty) as [_ Hd2]. rewrite Forall_forall in Hd2. apply (Hd2 _ Ex). }
  apply wp_bind with (R := fun o => forall s i, o = Some (s, i) -> codec_calm Bad e -> charset_ok Bad m -> typed m -> ~ Bad s).
  { destruct (requires_utf8 declared); [apply wp_ret; intros s i Hi C _ _; injection Hi as <- _; apply (cd_utf8 _ _ C)|]. destruct (startswith _ _ && truthy raw) eqn:Er; [|apply wp_ret; intros; discriminate].
    apply (wp_bind_lift _ _ (fun s => raw = VStr s)).
    2: { intros s Hs. apply wp_ret. intros s2 i Hi C Hc Hty. injection Hi as <- _. destruct (Hd Hty) as [Hb _]. apply (Hb Hc).
         unfold raw in Hs. destruct (dget _ params) as [w|]; [rewrite Hs; reflexivity|discriminate]. }
    destruct (as_str raw) eqn:Es; cbn; [destruct raw; try discriminate Es; injection Es as <-; reflexivity|]. intros (_ & _ & Hty). destruct (Hraw Hty) as [Hr|[s Hr]]; rewrite Hr in *; [|discriminate].
    rewrite andb_false_r in Er. discriminate. }
  intros [[eff implicit]|] Heff; [|wpm].
  specialize (Heff eff implicit eq_refl).
  set (Y := codec_calm Bad e /\ charset_ok Bad m /\ typed m) in *.
  assert (HC : Y -> codec_calm Bad e) by (intros Hy; apply Hy).
  assert (HE : Y -> ~ Bad eff) by (intros (Y1 & Y2 & Y3); auto).
  eapply wp_bind; [apply (wp_canonical Y Bad _ _ _ HC HE)|]. intros [dc|] Hdc; [|wpm]. specialize (Hdc dc eq_refl).
  destruct (forallb ascii_space _); [wpm|]. destruct (forallb _ _); [wpm|].
  eapply wp_bind; [apply (wp_decode Y Bad _ _ _ _ HC HE)|]. intros dec _. destruct (e_chardet e (m_sample m)) as [det conf] eqn:Ed.
  eapply wp_bind with (R := fun o => forall r, o = Some r -> Y -> ~ Bad r).
  { destruct det as [[|c s]|]; [apply wp_ret; intros; discriminate| |apply wp_ret; intros; discriminate].
    apply (wp_canonical Y Bad _ _ _ HC). intros Hy. apply (cd_detect _ _ (HC Hy) _ _ _ Ed). }
  intros detc Hdet. destruct dec as [y|]; [|wpm].
  destruct detc as [[|c s]|]; [wpm| |wpm]. specialize (Hdet _ eq_refl). destruct (_ || _); [wpm|].
  assert (PV : forall n, pv_ok n (opt_str det)) by (intros n; destruct det; exact I).
  eapply wp_bind with (R := fun _ => True).
  { unfold compatible. eapply wp_bind; [apply (wp_decode Y Bad _ _ _ _ HC Hdc)|]. intros [a|] _; [|wpm].
    eapply wp_bind; [apply (wp_decode Y Bad _ _ _ _ HC Hdet)|]. intros; wpm. }
  intros ok _. wpm; apply (PV CHARSET_MISMATCH) || apply (PV CHARSET_IMPLICIT_MISMATCH) || idtac.
Qed.
