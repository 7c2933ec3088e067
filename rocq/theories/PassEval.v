(** * Every evaluate and post_check: notes, exceptions, the type of the value. *)
From Verif Require Import PyStr Regex Grammar Note PyLib Utils FieldAttrs Types Fields1 Fields2 Fields3 Framework
  Spans EvLogic NoteLemmas LexLemmas ParamLemmas NumLemmas PassParse.
From Coq Require Import ZifyBool ZifyN.
Open Scope N_scope.

(** ** Reading typed values *)
Lemma rp_strs E l : Forall is_vstr l -> rp E (fun _ => True) (strs (VList l)).
Proof.
  intros H. unfold strs. cbn [as_list rbind]. eapply rp_conseq; [|intros; exact I].
  apply rp_mapR with (R := fun _ => True). intros x Hx. rewrite Forall_forall in H. destruct (H x Hx) as (s & ->). exact I.
Qed.
Lemma rp_text_params E l : Forall text_pd l -> rp E (Forall (fun x => Forall (fun kv => s_or_none (snd kv)) (snd x)))
  (rbind (as_list (VList l)) (mapR text_params)).
Proof.
  intros H. cbn [as_list rbind]. apply rp_mapR. intros x Hx. rewrite Forall_forall in H.
  destruct (H x Hx) as (s & p & -> & d & -> & Hd). exact Hd.
Qed.
Lemma bare_pv_ok n v : bare_pv v -> pv_ok n v.
Proof. intros ([] & ->); exact I. Qed.
Lemma head_pv_ok n m : pv_ok n (mem_head m).
Proof. destruct m as [[]|]; exact I. Qed.
#[export] Hint Resolve bare_pv_ok head_pv_ok : core.
Lemma rp_py_str_bare e E b : rp E (fun _ => True) (py_str e (bare_val b)).
Proof. destruct b as [| | | | |[]| |]; exact I. Qed.
Lemma rp_py_str_head e E m : rp E (fun _ => True) (py_str e (mem_head m)).
Proof. destruct m as [b|]; [apply rp_py_str_bare|exact I]. Qed.
Lemma wp_keep (P : ev -> Prop) E (Q : pyval -> Prop) h m : wp P E (fun _ => True) m -> Q (h_val h) -> wp P E Q (keep h m).
Proof. intros. unfold keep. apply wp_seq; auto. apply wp_ret; auto. Qed.

(** The exceptions of evaluate and post_check. *)
(** These fields resolve URLs outside a try. *)
Definition urly (f : fname) : bool :=
  match f with F_link | F_nel | F_referer | F_speculation_rules | F_reporting_endpoints => true | _ => false end.
Definition Ex (f : fname) (c : cx) (x : exn) : Prop :=
  f = F_cache_status \/ ~ ((urly f = true -> url_total (cx_env c)) /\ sane c).
Definition aux_ok (f : fname) (h : handler) : Prop := Forall (fun se => fev f (snd se)) (h_aux h).
Definition ew (f : fname) : Prop := forall c h,
  hval_ok (m_type (cx_msg c)) f (h_val h) -> h_val h <> VNone -> aux_ok f h ->
  wp (fev f) (Ex f c) (hval_ok (m_type (cx_msg c)) f) (eval_of f c h).

Lemma list_val t f v : kind_of f = KList -> hval_ok t f v -> v <> VNone -> exists l, v = VList l /\ Forall (val_ok f) l.
Proof. intros Hk H Hn. unfold hval_ok in H. rewrite Hk in H. destruct H as [[_ H]|H]; [contradiction|exact H]. Qed.
Lemma single_val t f v : kind_of f = KSingleton -> hval_ok t f v -> v <> VNone -> val_ok f v.
Proof. intros Hk H Hn. unfold hval_ok in H. rewrite Hk in H. destruct H as [[H _]|H]; [contradiction|exact H]. Qed.
Lemma list_hval t f l : kind_of f = KList -> Forall (val_ok f) l -> hval_ok t f (VList l).
Proof. intros Hk H. unfold hval_ok. rewrite Hk. right. eexists. split; [reflexivity|exact H]. Qed.

Ltac get_list f := let l := fresh "l" in let E := fresh "E" in let Hl := fresh "Hl" in
  intros c h Hv Hn Ha; destruct (list_val _ f _ eq_refl Hv Hn) as (l & E & Hl); cbn [eval_of]; try (apply wp_keep; [|exact Hv]).

Lemma typed_hdr c k f v : sane c -> hdr c k = Some v -> find_class (u k) = f -> hval_ok (m_type (cx_msg c)) f v.
Proof. intros [H _] E <-. apply H, E. Qed.
Lemma typed_rhdr c r k f v : sane c -> cx_rel c = Some r -> rel_hdr r k = Some v -> find_class (u k) = f -> hval_ok (m_type r) f v.
Proof. intros Hs Er E <-. eapply typed_rel in Er; [|exact Hs]. apply Er, E. Qed.
(** A partial computation that succeeds when [sane]. *)
Lemma rp_sane {A} f c (r : res A) : (sane c -> rp (fun _ => False) (fun _ => True) r) -> rp (Ex f c) (fun _ => True) r.
Proof.
  intros H. destruct r as [a|x]; [exact I|]. right. intros [_ Hs]. exact (H Hs).
Qed.
Lemma rp_url {A} f c (r : res A) : urly f = true -> (url_total (cx_env c) -> rp (fun _ => False) (fun _ => True) r) -> rp (Ex f c) (fun _ => True) r.
Proof.
  intros Hf H. destruct r as [a|x]; [exact I|]. right. intros [Hu _]. exact (H (Hu Hf)).
Qed.

Lemma ew_acao : ew F_access_control_allow_origin.
Proof.
  intros c h Hv Hn Ha. destruct (single_val _ F_access_control_allow_origin _ eq_refl Hv Hn) as (s & E). cbn [eval_of]. apply wp_keep; [|exact Hv].
  unfold ev_acao. rewrite E. cbn [py_str lift]. apply (wp_bind_lift _ _ (fun _ => True)); [exact I|]. intros a _. clear.
  unfold check_acao. destruct (cx_rel c) as [r|] eqn:Er; [|wpt]. destruct (rel_hdr r "origin") as [o|] eqn:Eo; [|wpt].
  apply (wp_bind_lift _ _ (fun _ => True)); [|intros; wpt].
  apply rp_sane. intros Hs.
  assert (H : hval_ok (m_type r) F_origin o) by (eapply (typed_rhdr c r "origin"); eauto; vm_compute; reflexivity).
  destruct H as [[-> _]|[->|(a1 & b & d & ->)]]; exact I.
Qed.
Lemma ew_alt_svc : ew F_alt_svc.
Proof. get_list F_alt_svc. unfold ev_alt_svc. rewrite E. wpt. Qed.
Lemma ew_clear_site_data : ew F_clear_site_data.
Proof.
  get_list F_clear_site_data. unfold ev_clear_site_data. rewrite E. wpt.
  apply (wp_bind_lift _ _ (fun _ => True)); [apply rp_strs, Hl|]. intros [|x xs] _; wpt.
  apply harmless_join; [reflexivity|]. apply Forall_map, Forall_forall. intros w Hw. apply filter_In in Hw as [_ Hw].
  apply andb_true_iff in Hw as [Hw _]. rewrite !harmless_app, (harmless_in csd_known w); [reflexivity|reflexivity|exact Hw].
Qed.
Lemma ew_content_language : ew F_content_language.
Proof.
  get_list F_content_language. unfold ev_content_language. rewrite E.
  apply (wp_bind_lift _ _ (fun _ => True)); [apply rp_strs, Hl|]. intros; apply wp_iterW; [|exact I]. intros; wpt.
Qed.
Lemma ew_content_length : ew F_content_length.
Proof. intros c h Hv Hn Ha. cbn [eval_of]. apply wp_keep; [|exact Hv]. unfold ev_content_length. wpt. Qed.
Lemma ew_corp : ew F_cross_origin_resource_policy.
Proof.
  intros c h Hv Hn Ha. destruct (single_val _ F_cross_origin_resource_policy _ eq_refl Hv Hn) as (s & E). cbn [eval_of]. apply wp_keep; [|exact Hv].
  unfold ev_corp. cbv zeta. rewrite E. wpt.
Qed.
Lemma ew_expect : ew F_expect.
Proof.
  get_list F_expect. unfold ev_expect. rewrite E. wpt.
  apply (wp_bind_lift _ _ (fun _ => True)); [apply rp_strs, Hl|]. intros; cbv zeta; wpt.
Qed.
Lemma ew_max_forwards : ew F_max_forwards.
Proof. intros c h Hv Hn Ha. cbn [eval_of]. apply wp_keep; [|exact Hv]. unfold ev_max_forwards. wpt. Qed.
Lemma ew_pragma : ew F_pragma.
Proof. get_list F_pragma. unfold ev_pragma. rewrite E. cbn [as_list lift]. apply (wp_bind_lift _ _ (fun _ => True)); [exact I|]. intros; wpt. Qed.
Lemma ew_referer : ew F_referer.
Proof.
  intros c h Hv Hn Ha. cbn [eval_of]. apply wp_keep; [|exact Hv]. unfold ev_referer. wpt.
  destruct (h_val h); wpt.
  destruct (e_urlsplit (cx_env c) s) eqn:E1; [destruct (e_urlsplit (cx_env c) s0) eqn:E2|]; wpt.
  - right. intros [HU _]. destruct (HU eq_refl) as [H _]. exact (H _ _ E2).
  - right. intros [HU _]. destruct (HU eq_refl) as [H _]. exact (H _ _ E1).
Qed.
Lemma ew_referrer_policy : ew F_referrer_policy.
Proof.
  get_list F_referrer_policy. unfold ev_referrer_policy. rewrite E.
  apply (wp_bind_lift _ _ (fun _ => True)); [apply rp_strs, Hl|]. intros xs _. cbv zeta.
  apply wp_seq; [apply wp_iterW; [intros; wpt|exact I]|]. destruct (filter _ xs); wpt.
Qed.
Lemma ew_server_timing : ew F_server_timing.
Proof.
  get_list F_server_timing. unfold ev_server_timing. rewrite E.
  eapply wp_bind_lift; [apply rp_text_params, Hl|]. intros xs Hxs. apply wp_iterW; [|exact I]. intros x Hx. cbv zeta.
  rewrite Forall_forall in Hxs. specialize (Hxs x Hx). apply wp_seq; [|wpt].
  destruct (dget (u "dur") (snd x)) as [v|] eqn:Ed; [|wpt].
  apply dget_In in Ed. rewrite Forall_forall in Hxs. specialize (Hxs _ Ed). cbn [snd] in Hxs.
  destruct Hxs as [->|(s & ->)]; wpt.
Qed.
Lemma ew_via : ew F_via.
Proof.
  get_list F_via. unfold ev_via. rewrite E. apply (wp_bind_lift _ _ (fun _ => True)); [apply rp_strs, Hl|]. intros; wpt.
Qed.
Lemma ew_xcto : ew F_x_content_type_options.
Proof. get_list F_x_content_type_options. unfold ev_xcto. rewrite E. cbn [as_list]. apply (wp_bind_lift _ _ (fun _ => True)); [exact I|]. intros; wpt. Qed.
Lemma ew_xfo : ew F_x_frame_options.
Proof.
  intros c h Hv Hn Ha. destruct (single_val _ F_x_frame_options _ eq_refl Hv Hn) as (s & E). cbn [eval_of]. apply wp_keep; [|exact Hv].
  unfold ev_xfo. rewrite E. cbn [as_str]. apply (wp_bind_lift _ _ (fun _ => True)); [exact I|]. intros; wpt.
Qed.
Lemma ew_vary : ew F_vary.
Proof.
  get_list F_vary. unfold ev_vary. rewrite E. apply (wp_bind_lift _ _ (fun _ => True)); [apply rp_strs, Hl|]. intros; cbv zeta; wpt.
  apply list_hval; [reflexivity|]. apply Forall_map, Forall_forall. intros; apply vstr.
Qed.
Lemma ew_sunset : ew F_sunset.
Proof.
  intros c h Hv Hn Ha. destruct (single_val _ F_sunset _ eq_refl Hv Hn) as (z & E). cbn [eval_of]. apply wp_keep; [|exact Hv].
  unfold ev_sunset. rewrite E. wpt. cbn [as_int]. apply (wp_bind_lift _ _ (fun _ => True)); [exact I|]. intros; wpt.
Qed.
Lemma ew_date : ew F_date.
Proof.
  intros c h Hv Hn Ha. destruct (single_val _ F_date _ eq_refl Hv Hn) as (z & E). cbn [eval_of]. apply wp_keep; [|exact Hv].
  unfold ev_date. rewrite E. destruct (q_truthy (m_start (cx_msg c))); [|wpt]. destruct (is_response c && truthy (VInt z)); [|wpt]. cbn [as_int].
  apply (wp_bind_lift _ _ (fun _ => True)); [exact I|]. intros a _.
  eapply (wp_bind _ _ (fun _ => True)); [|intros; cbv zeta; wpt].
  destruct (hdr c "age") as [v|] eqn:Eh; [|wpt]. destruct (truthy v) eqn:Et; [|wpt]. apply wp_lift, rp_sane. intros Hs.
  assert (H : hval_ok (m_type (cx_msg c)) F_age v) by (eapply typed_hdr; eauto; vm_compute; reflexivity).
  destruct H as [[-> _]|(y & ->)]; [discriminate|exact I].
Qed.
Lemma ew_last_modified : ew F_last_modified.
Proof.
  intros c h Hv Hn Ha. destruct (single_val _ F_last_modified _ eq_refl Hv Hn) as (z & E). cbn [eval_of]. apply wp_keep; [|exact Hv].
  unfold ev_last_modified. rewrite E. destruct (truthy (VInt z)); [|wpt]. cbn [as_int].
  apply (wp_bind_lift _ _ (fun _ => True)); [exact I|]. intros a _.
  eapply (wp_bind _ _ (fun _ => True)); [|intros; cbv zeta; wpt].
  destruct (hdr c "date") as [v|] eqn:Eh; [|wpt]. destruct (truthy v) eqn:Et; [|wpt].
  apply (wp_bind_lift _ _ (fun _ => True)); [|intros; wpt]. apply rp_sane. intros Hs.
  assert (H : hval_ok (m_type (cx_msg c)) F_date v) by (eapply typed_hdr; eauto; vm_compute; reflexivity).
  destruct H as [[-> _]|(y & ->)]; [discriminate|exact I].
Qed.

(** ** Cache-Control *)
Lemma cc_pairs_ok E l : Forall cc_ok l ->
  rp E (Forall (fun p => cc_ok (VTuple [VStr (fst p); snd p]))) (cc_pairs (VList l)).
Proof.
  intros H. unfold cc_pairs. cbn [as_list rbind]. apply rp_mapR. intros x Hx. rewrite Forall_forall in H.
  specialize (H x Hx). pose proof H as (d & y & -> & _). exact H.
Qed.
Lemma cc_int_val d v : cc_ok (VTuple [VStr d; v]) -> (exists a b, dget d known_cc = Some (a, b, CCInt)) -> is_vint v.
Proof.
  intros (d' & x & E & _ & H) (a & b & Hd). injection E as <- <-. rewrite Hd in H. exact H.
Qed.
Lemma cc_get ps k : str_in k (map fst ps) = true -> Forall (fun p => cc_ok (VTuple [VStr (fst p); snd p])) ps ->
  (exists a b, dget k known_cc = Some (a, b, CCInt)) -> exists z, dget k (dupdate [] ps) = Some (VInt z).
Proof.
  intros Hi Hp Hk.
  assert (Hin : In k (keys (dupdate [] ps))) by (apply in_keys_dupdate; right; apply str_in_In, Hi).
  apply dget_Some_in in Hin as [v Hv]. pose proof (dget_In _ _ _ Hv) as Hin.
  apply in_dupdate in Hin as [[]|Hin]. rewrite Forall_forall in Hp. specialize (Hp _ Hin). cbn [fst snd] in Hp.
  destruct (cc_int_val _ _ Hp Hk) as [z ->]. exists z. exact Hv.
Qed.
Lemma ew_cache_control : ew F_cache_control.
Proof.
  get_list F_cache_control. unfold ev_cache_control. rewrite E.
  eapply wp_bind_lift; [apply cc_pairs_ok, Hl|]. intros ps Hps. cbv zeta.
  apply wp_seq; [destruct (is_response c); wpt|].
  apply wp_seq; [apply wp_iterW; [|exact I]; intros; unfold cc_one; cbv zeta; wpt|].
  unfold cc_checks. cbv zeta.
  destruct (str_in (u "pre-check") (map fst ps)) eqn:E1, (str_in (u "post-check") (map fst ps)) eqn:E2; cbn [orb negb]; [|wpt..].
  destruct (cc_get ps _ E1 Hps) as [a ->]; [eexists _, _; vm_compute; reflexivity|].
  destruct (cc_get ps _ E2 Hps) as [b ->]; [eexists _, _; vm_compute; reflexivity|]. wpt.
Qed.

(** ** Content-Security-Policy *)
Definition csp_ok v := exists d, v = VDict d /\ Forall (fun kv : str * pyval => is_vstr (snd kv)) d.
Lemma csp_pairs_ok E l : Forall csp_ok l -> rp E (fun _ => True) (csp_pairs (VList l)).
Proof.
  intros H. unfold csp_pairs. cbn [as_list rbind]. apply rp_rmap. eapply rp_conseq; [|intros; exact I].
  apply rp_mapR with (R := fun _ => True). intros x Hx. rewrite Forall_forall in H. destruct (H x Hx) as (d & -> & Hd).
  cbn [as_dict rbind]. eapply rp_conseq; [|intros; exact I]. apply rp_mapR with (R := fun _ => True). intros [k y] Hy.
  rewrite Forall_forall in Hd. destruct (Hd _ Hy) as (s & Es). cbn [snd] in Es. subst y. exact I.
Qed.
Lemma deferred_ok f p h : timed p = false -> aux_ok f h -> Forall (kid_ok f p) (deferred h).
Proof.
  intros Hp H. unfold deferred. apply Forall_forall. intros k Hk. apply in_flat_map in Hk as ([s e] & Hse & Hk).
  unfold aux_ok in H. rewrite Forall_forall in H. specialize (H _ Hse). cbn [snd] in *.
  destruct e; try destruct Hk. subst k. destruct H as (H1 & H2 & H3). split; [exact H1|]. split; [exact H2|]. split; [exact Hp|]. cbn [fst]. unfold kid_open.
  rewrite forallb_forall in *. intros k Hk. rewrite (H3 k Hk). apply Bool.orb_true_r. contradiction.
Qed.
Lemma kid_nil f p (b : bool) k : (b = true -> kid_ok f p k) -> Forall (kid_ok f p) (if b then [k] else []).
Proof. destruct b; [|constructor]. intros H. constructor; [auto|constructor]. Qed.
Ltac kid_one := split; [cbn [fst]; own_tac|split; [cbn [fst snd]; note_tac|split; [reflexivity|vm_compute; reflexivity]]].
Ltac kid_tac := apply kid_nil; intros _; kid_one.
Lemma wp_ev_csp f ro rot c h l : harmless (u rot) = true -> f = F_content_security_policy \/ f = F_content_security_policy_report_only ->
  h_val h = VList l -> Forall csp_ok l -> aux_ok f h ->
  wp (fev f) (Ex f c) (fun _ => True) (ev_csp ro rot c h).
Proof.
  intros Hr Hf E Hl Ha. unfold ev_csp. destruct (negb _); [wpt|]. rewrite E.
  apply (wp_bind_lift _ _ (fun _ => True)); [apply csp_pairs_ok, Hl|]. intros ps _. cbv zeta.
  apply wp_tell; [|exact I]. constructor; [|constructor]. cbn [fev].
  destruct Hf as [-> | ->]; (split; [own_tac|]); (split; [note_tac; exact Hr|]);
    (split; [right; apply (fun x => x); intros k Hk; vm_compute in Hk |- *; tauto|]);
    (apply Forall_app; split; [apply deferred_ok; [reflexivity|exact Ha]|]);
    repeat (apply Forall_app; split); kid_tac; exact Hr.
Qed.
Lemma ew_csp : ew F_content_security_policy.
Proof. get_list F_content_security_policy. eapply wp_ev_csp; eauto; reflexivity. Qed.
Lemma ew_csp_ro : ew F_content_security_policy_report_only.
Proof. get_list F_content_security_policy_report_only. eapply wp_ev_csp; eauto; reflexivity. Qed.

(** ** Link *)
Lemma rp_scheme f c s : urly f = true -> rp (Ex f c) (fun _ => True) (target_scheme c s).
Proof.
  intros Hf. apply rp_url; [exact Hf|]. intros [H1 H2]. unfold target_scheme. destruct (e_urljoin _ _ _) eqn:E; cbn [rbind]; [|exact (H2 _ _ _ E)].
  destruct (e_urlsplit _ _) eqn:E'; [exact I|exact (H1 _ _ E')].
Qed.
Lemma ew_link : ew F_link.
Proof.
  get_list F_link. unfold ev_link. rewrite E.
  eapply wp_bind_lift; [apply rp_text_params, Hl|]. intros xs _.
  eapply (wp_bind _ _ (fun _ => True)).
  { apply wp_foldW; [exact I|]. intros acc x _ _. destruct (dget (u "rel") (snd x)) as [[]|]; wpt.
    apply wp_foldW; [exact I|]. intros acc2 tok _ _. wpt.
    apply (wp_bind_lift _ _ (fun _ => True)); [apply rp_scheme; reflexivity|]. intros; wpt. }
  intros found _. cbv zeta. apply wp_seq; [apply wp_iterW; [intros; wpt|exact I]|].
  apply wp_when; [|exact I]. intros _. apply wp_note; [|exact I]. cbn [fev]. split; [own_tac|]. split; [|split; [left; reflexivity|constructor]].
  split; [keys_tac|]. constructor; [split; [exact I|open_tac]|]. constructor; [|constructor]. split; [|open_tac]. cbn [snd vv].
  apply hint_lines_ok. apply Forall_forall. intros x Hx. apply filter_In in Hx as [Hx1 Hx2]. split.
  - assert (Forall (fun y => has_chr 96 y = false) hint_names) as Hh by (vm_compute; repeat constructor).
    rewrite Forall_forall in Hh. apply Hh, Hx1.
  - destruct (map _ _); [discriminate Hx2|discriminate].
Qed.

(** ** JSON fields *)
Lemma wp_json_req f E miss bad d k ok exp : own f miss = true -> own f bad = true ->
  covered miss (base_fld ++ [u "key"]) = true -> covered bad (base_fld ++ [u "key"; u "expected"]) = true ->
  str_in (u "key") (open_keys miss) = false -> str_in (u "key") (open_keys bad) = false -> harmless (u exp) = true ->
  wp (fev f) E (fun _ => True) (json_req miss bad d k ok exp).
Proof.
  intros. unfold json_req. destruct (dget (u k) d); [destruct (ok p)|]; wpt.
  - split; [exact H2|]. repeat constructor; cbn [fst vl]; [congruence|intros _; exact H5].
  - split; [exact H1|]. repeat constructor. cbn [fst vl]. congruence.
Qed.
Lemma ew_nel : ew F_nel.
Proof.
  intros c h Hv Hn Ha. cbn [eval_of]. apply wp_keep; [|exact Hv]. unfold ev_nel.
  destruct Hv as [Hv|(l & Hv)]; [contradiction|]. rewrite Hv. cbn [as_list]. apply (wp_bind_lift _ _ (fun _ => True)); [exact I|].
  intros xs _. apply wp_iterW; [|exact I]. intros x _. unfold nel_policy. destruct x as [| | | | | | | | | | | |dd| | |]; wpt.
  eapply wp_bind; [apply wp_json_req; vm_compute; reflexivity|]. intros a _.
  eapply wp_bind; [apply wp_json_req; vm_compute; reflexivity|]. intros b _.
  eapply (wp_bind _ _ (fun _ => True)); [wpt|]. intros i _.
  assert (Hf : forall k s, harmless (u s) = true -> wp (fev F_nel) (Ex F_nel c) (fun _ => True) (nel_fraction dd k s))
    by (intros; unfold nel_fraction; wpt; assumption).
  eapply wp_bind; [apply Hf; reflexivity|]. intros s _. eapply wp_bind; [apply Hf; reflexivity|]. intros t _. wpt.
Qed.
Lemma ew_report_to : ew F_report_to.
Proof.
  intros c h Hv Hn Ha. cbn [eval_of]. apply wp_keep; [|exact Hv]. unfold ev_report_to.
  destruct Hv as [Hv|(l & Hv)]; [contradiction|]. rewrite Hv. cbn [as_list]. apply (wp_bind_lift _ _ (fun _ => True)); [exact I|].
  intros xs _. apply wp_iterW; [|exact I]. intros x _. unfold report_group. destruct x as [| | | | | | | | | | | |dd| | |]; wpt.
  apply wp_json_req; vm_compute; reflexivity.
  destruct p; wpt. apply wp_iterW; [|exact I]. intros x _. unfold report_endpoint.
  destruct x; wpt.
Qed.

(** ** Set-Cookie, Strict-Transport-Security, Transfer-Encoding *)
Lemma as_cookie_ok E l : Forall (val_ok F_set_cookie) l -> rp E (fun _ => True) (rbind (as_list (VList l)) (mapR as_cookie)).
Proof.
  intros H. cbn [as_list rbind]. eapply rp_conseq; [|intros; exact I]. apply rp_mapR with (R := fun _ => True). intros x Hx.
  rewrite Forall_forall in H. destruct (H x Hx) as (n & w & al & -> & Ha). cbn [as_cookie]. apply rp_rmap.
  eapply rp_conseq; [|intros; exact I]. apply rp_mapR with (R := fun _ => True). intros y Hy.
  rewrite Forall_forall in Ha. destruct (Ha y Hy) as (k & z & -> & [[s ->]|[s ->]]); exact I.
Qed.
Lemma ew_set_cookie : ew F_set_cookie.
Proof.
  intros c h Hv Hn Ha. destruct Hv as (l & E & Hl). cbn [eval_of]. apply wp_keep; [|exists l; split; assumption].
  unfold ev_set_cookie. rewrite E. apply (wp_bind_lift _ _ (fun _ => True)); [apply as_cookie_ok, Hl|]. intros ps _. cbv zeta. wpt.
  apply wp_tell; [|exact I]. apply Forall_forall. intros x Hx. apply in_flat_map in Hx as ([s e] & Hse & Hx).
  unfold aux_ok in Ha. rewrite Forall_forall in Ha. specialize (Ha _ Hse). cbn [snd] in *. destruct e; try destruct Hx; [|contradiction].
  subst x. destruct Ha as (H1 & (H2 & H3) & _). cbn [fev]. split; [exact H1|]. split; [|left; reflexivity]. split.
  - unfold covered in *. rewrite forallb_forall in *. intros k Hk. specialize (H2 k Hk).
    unfold base_fld, base_msg in *. cbn [app keys map fst] in *. apply str_in_In. apply str_in_In in H2.
    destruct H2 as [H2|[H2|H2]]; [left|right; left|right; right]; assumption.
  - constructor; [|exact H3]. split; [exact I|]. intros Ho. cbn [fst] in Ho.
    rewrite open_common in Ho; [discriminate|right; left; reflexivity].
Qed.
Lemma ew_hsts : ew F_strict_transport_security.
Proof.
  intros c h Hv Hn Ha. destruct (single_val _ F_strict_transport_security _ eq_refl Hv Hn) as (mx & s & p & E & Hm).
  cbn [eval_of]. apply wp_keep; [|exact Hv]. unfold ev_hsts. destruct (negb _); [wpt|]. rewrite E.
  eapply (wp_bind_lift _ _ (fun _ => True)). { destruct Hm as [->|[z ->]]; exact I. }
  intros hs _. cbv zeta. apply wp_tell; [|exact I]. constructor; [|constructor]. cbn [fev]. split; [|split; [|split; [right; intros ? []|]]].
  - destruct (_ && _)%bool; own_tac.
  - destruct (_ && _)%bool; note_tac.
  - apply Forall_app. split; [apply deferred_ok; [destruct (_ && _)%bool; reflexivity|exact Ha]|]. apply Forall_map.
    assert (Hk : forall n, In n [HSTS_PRELOAD; HSTS_PRELOAD_NOT_SUITABLE; HSTS_NO_PRELOAD; HSTS_NO_MAX_AGE; HSTS_MAX_AGE_ZERO;
       HSTS_SHORT_MAX_AGE; HSTS_SUBDOMAINS; HSTS_NO_SUBDOMAINS; HSTS_OVER_HTTP] -> forall b : bool, kid_ok F_strict_transport_security (if b then HSTS_VALID else HSTS_INVALID) (n, [])).
    { intros n Hn' []; repeat (destruct Hn' as [<-|Hn']; [kid_one|]); destruct Hn'. }
    match goal with |- Forall (fun x => kid_ok _ (if ?b then _ else _) _) _ => generalize b as vb; intros vb end.
    repeat (apply Forall_app; split).
    + constructor; [|constructor]. apply Hk. destruct (hs_pre hs), (hs_sub hs); cbn [andb]; try destruct (match hs_max hs with Some _ => _ | None => _ end); cbn; tauto.
    + destruct (hs_max hs) as [z|]; [destruct (z =? 0)%Z; [|destruct (z <? hsts_min)%Z]|destruct (existsb _ _)];
        first [apply Forall_nil|apply Forall_cons; [apply Hk; cbn; tauto|apply Forall_nil]].
    + constructor; [|constructor]. apply Hk. destruct (hs_sub hs); cbn; tauto.
    + match goal with |- Forall _ (if ?b then _ else _) => destruct b end;
        first [apply Forall_nil|apply Forall_cons; [apply Hk; cbn; tauto|apply Forall_nil]].
Qed.
Lemma ew_transfer_encoding : ew F_transfer_encoding.
Proof.
  get_list F_transfer_encoding. unfold ev_transfer_encoding. rewrite E.
  eapply wp_bind_lift; [apply rp_text_params, Hl|]. intros xs _. cbv zeta.
  eapply (wp_bind _ _ (fun _ => True)).
  - destruct (py_set _ _) as [|u0 us]; [wpt|]. destruct (related_request c) as [r|] eqn:Er; [|wpt].
    apply related_spec in Er as [E1 E2].
    apply (wp_bind_lift _ _ (fun _ => True)); [|intros; wpt]. apply rp_sane. intros Hs.
    apply heads_text. eapply rel_text; [eapply typed_rel; eauto|exact E2|exact find_te|reflexivity..].
  - intros unw _. apply wp_seq; [apply wp_iterW; [intros; wpt|exact I]|]. wpt.
Qed.
Theorem eval_pass f : ew f.
Proof.
  destruct f;
  first [apply ew_acao|apply ew_alt_svc|apply ew_cache_control|apply ew_clear_site_data|apply ew_content_language|apply ew_content_length
   |apply ew_csp|apply ew_csp_ro|apply ew_corp|apply ew_date|apply ew_expect|apply ew_last_modified|apply ew_link|apply ew_max_forwards
   |apply ew_nel|apply ew_pragma|apply ew_referer|apply ew_referrer_policy|apply ew_report_to|apply ew_server_timing|apply ew_set_cookie
   |apply ew_hsts|apply ew_sunset|apply ew_transfer_encoding|apply ew_vary|apply ew_via|apply ew_xcto|apply ew_xfo
   |intros c h Hv _ _; apply wp_ret; exact Hv].
Qed.

