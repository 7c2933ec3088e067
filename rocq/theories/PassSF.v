(** * Structured Field evaluates and every post_check. *)
From Verif Require Import PyStr Regex Grammar Note PyLib Utils FieldAttrs Types Fields1 Fields2 Fields3 Framework
  Spans EvLogic NoteLemmas LexLemmas ParamLemmas NumLemmas PassParse PassEval.
From Coq Require Import ZifyBool ZifyN.
Open Scope N_scope.

(** ** Structured Fields *)
Lemma wp_line {P : ev -> Prop} {E : exn -> Prop} e name v : bare_pv v ->
  wp P E (fun _ => True) (lift (rmap (code_line name) (py_str e v))).
Proof. intros [b ->]. apply wp_lift, rp_rmap. eapply rp_conseq; [apply rp_py_str_bare|intros; exact I]. Qed.
Definition sf_note_ok (f : fname) (unk bad : nid) : Prop :=
  own f unk = true /\ own f bad = true /\ covered unk (base_fld ++ [k_param]) = true
  /\ covered bad (base_fld ++ [k_param; k_value]) = true
  /\ open_keys unk = [] /\ open_keys bad = [].
Lemma wp_sf_param f (E : exn -> Prop) e known unk bad name v : sf_note_ok f unk bad -> bare_pv v ->
  (forall kp s, dget name known = Some kp -> kp_desc kp = Some (s, None) ->
     existsb (fun t => isinst t v) (kp_types kp) = true \/ kp_types kp = [] -> v <> VBool true -> E EType) ->
  wp (fev f) E (fun _ => True) (check_sf_param e known unk bad (name, v)).
Proof.
  intros (H1 & H2 & H3 & H4 & O1 & O2) Hb HE. unfold check_sf_param.
  assert (Hn1 : fev f (ENote unk None [(k_param, VStr name)] [])).
  { split; [exact H1|]. split; [split; [exact H3|]|split; [left; reflexivity|constructor]].
    repeat constructor. rewrite O1. discriminate. }
  assert (Hn2 : fev f (ENote bad None [(k_param, VStr name); (k_value, v)] [])).
  { split; [exact H2|]. split; [split; [exact H4|]|split; [left; reflexivity|constructor]].
    repeat constructor; cbn [fst snd]; auto; rewrite O2; discriminate. }
  destruct (dget name known) as [kp|] eqn:Ek; [|apply wp_seq; [apply wp_note; auto|apply wp_line, Hb]].
  destruct (nonempty (kp_types kp) && _) eqn:Et; [apply wp_seq; [apply wp_note; auto|apply wp_line, Hb]|].
  destruct (nonempty (kp_values kp) && _); [apply wp_seq; [apply wp_note; auto|apply wp_line, Hb]|].
  destruct (kp_vdesc kp) as [vd|].
  { destruct (str_of v); [|apply wp_line, Hb]. destruct (dget s vd); [wpt|apply wp_line, Hb]. }
  assert (Hx : existsb (fun t => isinst t v) (kp_types kp) = true \/ kp_types kp = []).
  { destruct (kp_types kp); [right; reflexivity|left]. cbn [nonempty andb] in Et. apply Bool.negb_false_iff in Et. exact Et. }
  destruct (kp_desc kp) as [[s [suf|]]|] eqn:Ed.
  - assert (G : wp (fev f) E (fun _ => True) (lift (rmap (fun x => u "* " ++ x) (fmt_desc e (s, Some suf) v)))).
    { destruct Hb as [b ->]. apply wp_lift, rp_rmap. cbn [fmt_desc]. apply rp_rmap. eapply rp_conseq; [apply rp_py_str_bare|intros; exact I]. }
    destruct v as [|[]| | | | | | | | | | | | | |]; try exact G; wpt.
  - assert (G : v <> VBool true -> wp (fev f) E (fun _ => True) (lift (rmap (fun x => u "* " ++ x) (fmt_desc e (s, None) v)))).
    { intros Hv. apply wp_lift. cbn. eapply HE; eauto. }
    destruct v as [|[]| | | | | | | | | | | | | |]; try (apply G; discriminate); wpt.
  - destruct v as [|[]| | | | | | | | | | | | | |]; try (apply (wp_line e _ _ Hb)); wpt.
Qed.
Lemma params_bare p kv : In kv (params_dict p) -> bare_pv (snd kv).
Proof.
  unfold params_dict. intros H. apply in_dupdate in H as [[]|H]. apply in_map_iff in H as ([k b] & <- & _). eexists. reflexivity.
Qed.
Lemma wp_status_list f (E : exn -> Prop) c known present unk bad l : sf_note_ok f unk bad ->
  own f present = true -> covered present (base_fld ++ [u "status"]) = true -> open_keys present = [] ->
  (forall m name v kp s, In m l -> In (name, v) (params_dict (mem_params m)) -> dget name known = Some kp -> kp_desc kp = Some (s, None) ->
     existsb (fun t => isinst t v) (kp_types kp) = true \/ kp_types kp = [] -> v <> VBool true -> E EType) ->
  wp (fev f) E (fun _ => True) (ev_status_list c known present unk bad l).
Proof.
  intros Hn Ho Hc Hp HE. unfold ev_status_list. eapply (wp_bind _ _ (fun _ => True)).
  - eapply wp_conseq; [|intros ? H; exact H|intros ? H; exact H|intros; exact I]. apply wp_mapW with (R := fun _ => True). intros m Hm.
    apply (wp_bind_lift _ _ (fun _ => True)).
    { unfold target_text. destruct m as [b|]; [|exact I]. cbn [mem_head]. destruct b as [| | | | |[]| |]; exact I. }
    intros t _. eapply (wp_bind _ _ (fun _ => True)).
    + unfold check_sf_params. eapply (wp_bind _ _ (fun _ => True)); [|intros; wpt].
      eapply wp_conseq; [|intros ? H; exact H|intros ? H; exact H|intros; exact I]. apply wp_mapW with (R := fun _ => True). intros [name v] Hx.
      apply wp_sf_param; [exact Hn|apply (params_bare _ _ Hx)|]. intros. eapply HE; eauto.
    + intros; wpt.
  - intros lines _. apply wp_when; [|exact I]. intros _. apply wp_note; [|exact I]. split; [exact Ho|]. split; [|split; [left; reflexivity|constructor]].
    split; [exact Hc|]. repeat constructor. rewrite Hp. discriminate.
Qed.
(** The deviation: [hit=?0], [stored=?0] or [collapsed=?0] in Cache-Status. *)
Definition flag_false (l : list member) : Prop :=
  exists m k, In m l /\ str_in k [u "hit"; u "stored"; u "collapsed"] = true /\ In (k, VBool false) (params_dict (mem_params m)).
Lemma wp_cache_status c h l : wp (fev F_cache_status) (fun _ => flag_false l) (fun _ => True) (ev_cache_status c h l).
Proof.
  apply wp_status_list; [repeat split; vm_compute; reflexivity|vm_compute; reflexivity..|].
  intros m name v kp s Hm Hin Hk Hd Ht Hv.
  apply dget_In in Hk.
  assert (G : str_in name [u "hit"; u "stored"; u "collapsed"] = true /\ kp_types kp = [TBool]).
  { unfold cache_status_params in Hk. cbn [In] in Hk.
    repeat (destruct Hk as [Hk|Hk]; [injection Hk as <- <-; first [discriminate Hd|split; [vm_compute; reflexivity|reflexivity]]|]). destruct Hk. }
  destruct G as [G1 G2]. rewrite G2 in Ht. destruct Ht as [Ht|Ht]; [|discriminate]. cbn in Ht. rewrite Bool.orb_false_r in Ht.
  destruct v as [|[]| | | | | | | | | | | | | |]; try discriminate Ht; [congruence|]. exists m, name. auto.
Qed.
Lemma wp_proxy_status c h l : wp (fev F_proxy_status) (fun _ => False) (fun _ => True) (ev_proxy_status c h l).
Proof.
  apply wp_status_list; [repeat split; vm_compute; reflexivity|vm_compute; reflexivity..|].
  intros m name v kp s Hm Hin Hk Hd Ht Hv.
  apply dget_In in Hk. unfold proxy_status_params in Hk. cbn [In] in Hk.
  repeat (destruct Hk as [Hk|Hk]; [injection Hk as <- <-; discriminate Hd|]). destruct Hk.
Qed.

Lemma wp_cop f E tab bad ro rot b : own f bad = true -> covered bad (base_fld ++ [u "value"; u "report_only"]) = true ->
  open_keys bad = [] -> harmless (u rot) = true ->
  Forall (fun kv => own f (snd kv) = true /\ covered (snd kv) (base_fld ++ [u "report_only"; u "report_only_text"]) = true
                    /\ str_in (u "report_only") (open_keys (snd kv)) = false) tab ->
  wp (fev f) E (fun _ => True) (ev_cop tab bad ro rot b).
Proof.
  intros Ho Hc Hob Hr Ht. unfold ev_cop. cbv zeta.
  assert (G : wp (fev f) E (fun _ => True) (add_note bad [vv "value" (bare_val b); vs "report_only" (u ro)])).
  { apply wp_note; [|exact I]. split; [exact Ho|]. split; [|split; [left; reflexivity|constructor]]. split; [exact Hc|].
    repeat constructor; try (rewrite Hob; discriminate).
    apply bare_pv_ok. eexists; reflexivity. }
  destruct b; try exact G. destruct (dget s tab) as [n|] eqn:Ed; [|exact G]. apply dget_In in Ed. rewrite Forall_forall in Ht.
  destruct (Ht _ Ed) as (H1 & H2 & H3). cbn [snd] in *. apply wp_note; [|exact I]. split; [exact H1|]. split; [|split; [left; reflexivity|constructor]].
  split; [exact H2|]. repeat constructor; cbn [fst vs]; [congruence|intros _; exact Hr].
Qed.
Ltac cop_tac := apply wp_cop; [vm_compute; reflexivity|vm_compute; reflexivity|vm_compute; reflexivity|vm_compute; reflexivity|repeat constructor; vm_compute; reflexivity].
Definition iw (f : fname) : Prop := forall c h b p (Q : pyval -> Prop), Q (h_val h) ->
  wp (fev f) (fun _ => False) Q (eval_item f c h b p).
Lemma item_pass f : iw f.
Proof.
  destruct f; intros c h b p Q HQ; cbn [eval_item]; try (apply wp_ret; exact HQ); (apply wp_keep; [|exact HQ]).
  - unfold ev_available_dictionary. destruct b; wpt.
  - unfold ev_coep. cop_tac.
  - unfold ev_coep_ro. apply wp_when_seq; [intros; wpt|]. cop_tac.
  - unfold ev_coop. cop_tac.
  - unfold ev_coop_ro. apply wp_when_seq; [intros; wpt|]. cop_tac.
  - unfold ev_deprecation. destruct b as [| | | | |[]| |]; wpt.
Qed.
Definition lw (f : fname) : Prop := forall c h l (Q : pyval -> Prop), Q (h_val h) ->
  (forall l, Forall sf_mem l -> Q (VList l)) ->
  wp (fev f) (Ex f c) Q (eval_list f c h l).
Lemma member_sf m : sf_mem (member_val m).
Proof.
  assert (Hp : forall p, sf_pd (VDict (dupdate [] (map (fun kv => (fst kv, bare_val (snd kv))) p)))).
  { intros p. eexists. split; [reflexivity|]. apply Forall_forall. intros kv Hkv. apply (params_bare p kv Hkv). }
  destruct m as [b p|l p]; eexists _, _; (split; [reflexivity|]); (split; [apply Hp|]); [left; eexists; reflexivity|right; eexists; reflexivity].
Qed.
Lemma list_pass f : lw f.
Proof.
  destruct f; intros c h l Q HQ HL; cbn [eval_list]; try (apply wp_ret; exact HQ); try (apply wp_keep; [|exact HQ]).
  - unfold ev_accept_ch. wpt.
  - unfold ev_accept_query. eapply (wp_bind _ _ (Forall sf_mem)).
    + apply wp_mapW. intros m _. cbv zeta.
      assert (Hpd : sf_pd (VDict (params_dict (mem_params m)))).
      { eexists. split; [reflexivity|]. apply Forall_forall. intros kv Hkv. apply (params_bare _ kv Hkv). }
      assert (G : wp (fev F_accept_query) (Ex F_accept_query c) sf_mem
         (s <- lift (py_str (cx_env c) (mem_head m)) ;; add_note ACCEPT_QUERY_BAD_TYPE [vs "value" s] ;;; ret (member_val m))).
      { apply (wp_bind_lift _ _ (fun _ => True)); [apply rp_py_str_head|]. intros. wpt. apply member_sf. }
      destruct (mem_head m); try exact G; (apply wp_seq; [apply wp_check_media; bad_tac|]); apply wp_ret;
        eexists _, _; (split; [reflexivity|]); (split; [exact Hpd|left]).
      * exists (BStr (lower s)). reflexivity.
      * exists (BTok (lower s)). reflexivity.
    + intros items Hi. apply wp_ret. apply HL, Hi.
  - unfold ev_cache_group_invalidation. apply wp_seq; [wpt|]. wpt.
  - unfold ev_cache_groups. wpt.
  - eapply wp_conseq; [apply wp_cache_status|auto|intros; left; reflexivity|auto].
  - eapply wp_conseq; [apply wp_proxy_status|auto|intros ? []|auto].
  - unfold ev_speculation_rules. apply wp_iterW; [|exact I]. intros m _.
    pose proof (head_pv_ok SPECULATION_RULES_BAD_TYPE m) as Hp. destruct (mem_head m); wpt; try exact Hp.
    unfold not_secure. apply (wp_bind_lift _ _ (fun _ => True)); [apply rp_rmap; apply rp_scheme; reflexivity|]. intros; wpt.
Qed.
Definition dw (f : fname) : Prop := forall c h d (Q : pyval -> Prop), Q (h_val h) ->
  wp (fev f) (Ex f c) Q (eval_dict f c h d).
Lemma dict_pass f : dw f.
Proof.
  destruct f; intros c h d Q HQ; cbn [eval_dict]; try (apply wp_ret; exact HQ); (apply wp_keep; [|exact HQ]).
  - unfold ev_cdn_cache_control. apply wp_seq; [wpt|]. apply wp_iterW; [|exact I]. intros km _. cbv zeta.
    destruct (dget _ known_cc) as [[[a b] []]|]; wpt.
  - unfold ev_permissions_policy. destruct d as [|x d]; [wpt|].
    eapply (wp_bind_lift _ _ (Forall (Forall (kid_ok F_permissions_policy PERMISSIONS_POLICY_PRESENT)))).
    + apply rp_mapR. intros km _. unfold pp_feature. cbv zeta. destruct (snd km) as [b p|l p].
      * assert (Hk : Forall (kid_ok F_permissions_policy PERMISSIONS_POLICY_PRESENT) [(PERMISSIONS_POLICY_INVALID_VALUE, [vs "feature" (fst km)])]).
        { constructor; [|constructor]. kid_one. }
        destruct b; try exact Hk. cbn [rp]. destruct (negb _); [exact Hk|]. destruct (str_in _ _); [|constructor].
        constructor; [|constructor]. kid_one.
      * apply rp_rmap. eapply rp_conseq; [apply rp_mapR with (R := Forall (kid_ok F_permissions_policy PERMISSIONS_POLICY_PRESENT))|].
        -- intros [b q] _. cbn [fst]. unfold pp_item. cbv zeta.
           assert (G : forall e, rp (Ex F_permissions_policy c) (Forall (kid_ok F_permissions_policy PERMISSIONS_POLICY_PRESENT))
              (rmap (fun t => [(PERMISSIONS_POLICY_INVALID_ITEM_TYPE, [vs "item" t; vs "feature" (fst km)])]) (py_str e (bare_val b)))).
           { intros e. apply rp_rmap. eapply rp_conseq; [apply rp_py_str_bare|]. intros. constructor; [|constructor].
             kid_one. }
           destruct b; try apply G; cbn [rp]; destruct (str_in _ _); first [apply Forall_nil|apply Forall_cons; [kid_one|apply Forall_nil]].
        -- intros ls Hls. apply Forall_concat. exact Hls.
    + intros kids Hk. wpt; [right; intros ? []|apply Forall_concat, Hk].
  - unfold ev_reporting_endpoints. apply wp_iterW; [|exact I]. intros km _.
    pose proof (head_pv_ok BAD_REPORTING_ENDPOINT_SYNTAX (snd km)) as Hp. destruct (mem_head (snd km)); wpt; try exact Hp.
    unfold not_secure. apply (wp_bind_lift _ _ (fun _ => True)); [apply rp_rmap; apply rp_scheme; reflexivity|]. intros; wpt.
  - unfold ev_use_as_dictionary. apply wp_iterW; [|exact I]. intros km _. cbv zeta. unfold uad_check.
    pose proof (head_pv_ok USE_AS_DICTIONARY_BAD_TYPE (snd km)) as Hp. wpt; exact Hp.
Qed.

(** ** post_check *)
Definition marks_ok (h : handler) : Prop := forall l, h_val h = VList l -> (length l <= length (marked_bools h))%nat.
Definition qw (f : fname) : Prop := forall c h,
  hval_ok (m_type (cx_msg c)) f (h_val h) -> h_val h <> VNone -> (f = F_nel -> marks_ok h) ->
  wp (fev f) (Ex f c) (fun _ => True) (post_of f c h).
Lemma find_vary : find_class (u "vary") = F_vary. Proof. vm_compute. reflexivity. Qed.
Lemma find_ce : find_class (u "content-encoding") = F_content_encoding. Proof. vm_compute. reflexivity. Qed.
Lemma find_re : find_class (u "reporting-endpoints") = F_reporting_endpoints. Proof. vm_compute. reflexivity. Qed.
(** The list a header parsed to, where the header is right in this message. *)
Lemma hdr_list_ok c k f : sane c -> find_class (u k) = f -> kind_of f = KList -> wrong (m_type (cx_msg c)) f = false ->
  exists l, hdr_list c k = VList l /\ Forall (val_ok f) l.
Proof.
  intros Hs Hf Hk Hw. unfold hdr_list. destruct (hdr c k) as [v|] eqn:E; [|exists []; split; [reflexivity|constructor]].
  pose proof (typed_hdr c k f v Hs E Hf) as H. unfold hval_ok in H. rewrite Hk in H. destruct H as [[H _]|H]; [congruence|exact H].
Qed.
Lemma cacheable_type c : sane c -> cacheable c = true -> m_type (cx_msg c) <> MRequest.
Proof.
  intros (_ & _ & H) Hc. apply H. unfold cacheable in Hc. destruct (m_caching (cx_msg c)); [discriminate|discriminate Hc].
Qed.
Lemma vary_list c : sane c -> cacheable c = true -> exists l, hdr_list c "vary" = VList l.
Proof.
  intros Hs Hc. pose proof (cacheable_type c Hs Hc) as Ht.
  destruct (hdr_list_ok c "vary" F_vary Hs find_vary eq_refl) as (l & E & _); [|exists l; exact E].
  destruct (m_type (cx_msg c)); [congruence|reflexivity..].
Qed.
Lemma rp_endpoints f c : rp (Ex f c) (fun _ => True) (endpoint_names c).
Proof.
  apply rp_sane. intros Hs. unfold endpoint_names. destruct (hdr c "reporting-endpoints") as [v|] eqn:E; [|exact I].
  pose proof (typed_hdr c _ _ v Hs E find_re) as H. destruct H as [->|(d & -> & _)]; [exact I|]. destruct (truthy _); exact I.
Qed.
Lemma wp_pc_csp f rot c h l : harmless (u rot) = true -> f = F_content_security_policy \/ f = F_content_security_policy_report_only ->
  h_val h = VList l -> Forall csp_ok l ->
  wp (fev f) (Ex f c) (fun _ => True) (pc_csp rot c h).
Proof.
  intros Hr Hf E Hl. unfold pc_csp. destruct (negb _); [wpt|]. apply (wp_bind_lift _ _ (fun _ => True)); [apply rp_endpoints|].
  intros eps _. rewrite E. apply (wp_bind_lift _ _ (fun _ => True)); [apply csp_pairs_ok, Hl|]. intros ps _.
  apply wp_iterW; [|exact I]. intros nv _. destruct Hf as [-> | ->]; wpt; exact Hr.
Qed.
Lemma wp_pc_cop f missing ro c h x p : own f missing = true -> covered missing (base_fld ++ [u "endpoint"; u "report_only"]) = true -> open_keys missing = [] ->
  h_val h = VTuple [x; p] -> sf_pd p ->
  wp (fev f) (Ex f c) (fun _ => True) (pc_cop missing ro c h).
Proof.
  intros Ho Hc Hom E (d & -> & Hd). unfold pc_cop. rewrite E. cbn [index nth_error]. apply (wp_bind_lift _ _ (eq (VDict d))); [reflexivity|]. intros ? <-.
  cbn [as_dict]. apply (wp_bind_lift _ _ (eq d)); [reflexivity|]. intros ? <-.
  destruct (dget (u "report-to") d) as [rt|] eqn:Ed; [|wpt]. destruct (negb _); [wpt|].
  apply (wp_bind_lift _ _ (fun _ => True)); [apply rp_endpoints|]. intros eps _. apply wp_when; [|exact I]. intros _.
  apply wp_note; [|exact I]. split; [exact Ho|]. split; [|split; [left; reflexivity|constructor]]. split; [exact Hc|].
  repeat constructor; try (rewrite Hom; discriminate). cbn [snd vv].
  apply dget_In in Ed. rewrite Forall_forall in Hd. specialize (Hd _ Ed). auto.
Qed.
Lemma qw_accept_ch : qw F_accept_ch.
Proof.
  intros c h Hv Hn _. cbn [post_of]. unfold pc_accept_ch. apply wp_seq; [wpt|].
  destruct (cacheable c) eqn:Ec; [|wpt]. cbv zeta.
  destruct Hv as [Hv|(l & Hv & Hl)]; [contradiction|].
  eapply (wp_bind_lift _ _ (Forall (fun x => bare_pv x \/ exists l, x = VList l))).
  { rewrite Hv. unfold heads. cbn [as_list rbind]. apply rp_mapR. intros x Hx. rewrite Forall_forall in Hl.
    destruct (Hl x Hx) as (y & p & -> & _ & H). exact H. }
  intros items Hi. eapply (wp_bind _ _ (fun _ => True)); [|intros; wpt].
  apply wp_foldW; [exact I|]. intros acc i _ Hin. rewrite Forall_forall in Hi. specialize (Hi i Hin).
  apply (wp_bind_lift _ _ (fun _ => True)).
  - apply rp_sane. intros Hs. destruct (vary_list c Hs Ec) as (vl & ->). exact I.
  - intros b _. wpt. apply (wp_bind_lift _ _ (fun _ => True)); [|intros; wpt].
    destruct Hi as [[bb ->]|[l' ->]]; [apply rp_py_str_bare|exact I].
Qed.
Lemma qw_available_dictionary : qw F_available_dictionary.
Proof.
  intros c h Hv Hn _. cbn [post_of]. unfold pc_available_dictionary. destruct (is_request c) eqn:Er; cbn [negb]; [|wpt].
  assert (Hx : sane c -> exists l, hdr_list c "accept-encoding" = VList l /\ Forall text_pd l).
  { intros Hs. apply (hdr_list_ok c _ F_accept_encoding Hs find_ae eq_refl). unfold is_request in Er. destruct (m_type (cx_msg c)); [reflexivity|discriminate..]. }
  destruct (as_list (hdr_list c "accept-encoding")) as [l|x] eqn:El.
  - apply (wp_bind_lift _ _ (eq l)); [reflexivity|]. intros ? <-.
    eapply (wp_bind _ _ (fun _ => True)); [|intros; wpt]. apply wp_foldW; [exact I|]. intros b x _ Hin. destruct b; [wpt|].
    apply (wp_bind_lift _ _ (fun _ => True)); [|intros; wpt]. apply rp_sane. intros Hs. destruct (Hx Hs) as (l' & E & Hl). rewrite E in El.
    injection El as <-. rewrite Forall_forall in Hl. destruct (Hl x Hin) as (s & p & -> & _). exact I.
  - apply (wp_bind_lift _ _ (fun _ => False)); [|intros ? []]. right. intros [_ Hs]. destruct (Hx Hs) as (l' & E & Hl). rewrite E in El. discriminate.
Qed.
Lemma qw_content_encoding : qw F_content_encoding.
Proof.
  intros c h Hv Hn _. cbn [post_of]. unfold pc_content_encoding. destruct (is_response c) eqn:Er; cbn [negb]; [|wpt].
  apply (wp_bind_lift _ _ (fun _ => True)).
  - apply rp_sane. intros Hs. destruct (hdr_list_ok c "content-encoding" F_content_encoding Hs find_ce eq_refl) as (l & -> & _); [|exact I].
    unfold is_response in Er. destruct (m_type (cx_msg c)); [discriminate|reflexivity|discriminate].
  - intros ce _. destruct (existsb _ ce && cacheable c) eqn:E; [|wpt]. apply Bool.andb_true_iff in E as [_ E].
    apply (wp_bind_lift _ _ (fun _ => True)); [|intros; wpt]. apply rp_sane. intros Hs. destruct (vary_list c Hs E) as (vl & ->). exact I.
Qed.
Lemma wp_nel_resolve f c eps valid clean l : own f NEL_REPORT_TO_MISSING = true -> forall idx, (idx + length l <= length clean)%nat ->
  wp (fev f) (Ex f c) (fun _ => True) (nel_resolve eps valid clean idx l).
Proof.
  intros Ho. induction l as [|v l IH]; intros idx Hl; cbn [nel_resolve]; [wpt|]. cbn [List.length] in Hl.
  eapply (wp_bind _ _ (fun _ => True)).
  - destruct v as [| | | | | | | | | | | |dd| | |]; try solve [wpt]. destruct (dget (u "report_to") dd) as [[]|]; try solve [wpt].
    destruct (negb _); [wpt|]. destruct (negb _); [wpt|]. destruct (str_in s valid); [|wpt].
    destruct (nth_error clean idx) as [[]|] eqn:E; [wpt|wpt|]. apply nth_error_None in E. lia.
  - intros r _. eapply wp_bind; [apply IH; lia|]. intros; wpt.
Qed.
Lemma qw_nel : qw F_nel.
Proof.
  intros c h Hv Hn Hm. specialize (Hm eq_refl). cbn [post_of]. unfold pc_nel. destruct (negb _); [wpt|].
  apply (wp_bind_lift _ _ (fun _ => True)); [apply rp_endpoints|]. intros eps _.
  eapply (wp_bind _ _ (fun _ => True)).
  - destruct (hdr c "reporting-endpoints") as [v|] eqn:E; [|wpt]. destruct (truthy v) eqn:Et; [|wpt].
    destruct (as_dict v) as [d|x] eqn:Ed.
    + apply (wp_bind_lift _ _ (eq d)); [reflexivity|]. intros ? <-. unfold valid_endpoints. apply wp_foldW; [exact I|]. intros acc kv _ Hkv.
      apply (wp_bind_lift _ _ (fun _ => True)).
      * apply rp_sane. intros Hs. pose proof (typed_hdr c _ _ v Hs E find_re) as [->|(d' & -> & Hd)]; [discriminate|].
        injection Ed as <-. rewrite Forall_forall in Hd. destruct (Hd _ Hkv) as (y & p & -> & _). exact I.
      * intros url _. destruct url; wpt. apply (wp_bind_lift _ _ (fun _ => True)); [apply rp_scheme; reflexivity|]. intros; wpt.
    + apply (wp_bind_lift _ _ (fun _ => False)); [|intros ? []]. right. intros [_ Hs].
      pose proof (typed_hdr c _ _ v Hs E find_re) as [->|(d' & -> & Hd)]; discriminate.
  - intros valid _. destruct Hv as [Hv|(l & Hv)]; [contradiction|]. specialize (Hm _ Hv). rewrite Hv. cbn [as_list].
    apply (wp_bind_lift _ _ (eq (map json_val l))); [reflexivity|]. intros ? <-.
    eapply wp_bind; [apply wp_nel_resolve; [vm_compute; reflexivity|cbn; exact Hm]|]. intros; wpt.
Qed.
Theorem post_pass f : qw f.
Proof.
  destruct f; first [apply qw_accept_ch|apply qw_available_dictionary|apply qw_content_encoding|apply qw_nel
   | intros c h Hv Hn _; apply wp_ret; exact I
   | intros c h Hv Hn _; destruct (list_val _ F_content_security_policy _ eq_refl Hv Hn) as (l & E & Hl); eapply wp_pc_csp; eauto; reflexivity
   | intros c h Hv Hn _; destruct (list_val _ F_content_security_policy_report_only _ eq_refl Hv Hn) as (l & E & Hl); eapply wp_pc_csp; eauto; reflexivity
   | intros c h Hv Hn _; destruct Hv as [Hv|(x & p & Hv & _ & Hp)]; [contradiction|];
     eapply wp_pc_cop; [vm_compute; reflexivity|vm_compute; reflexivity|vm_compute; reflexivity|exact Hv|exact Hp] ].
Qed.
(** nel.evaluate marks every policy. *)
Definition bool_marks (l : list ev) : list bool := flat_map (fun e => match e with EMark (VBool b) => [b] | _ => [] end) l.
Lemma bool_marks_app a b : bool_marks (a ++ b) = bool_marks a ++ bool_marks b.
Proof. apply flat_map_app. Qed.

Definition no_mark (e : ev) : Prop := match e with EMark _ => False | _ => True end.
Lemma no_marks l : Forall no_mark l -> bool_marks l = [].
Proof. induction 1 as [|e l He Hl IH]; [reflexivity|]. destruct e; try exact IH. destruct He. Qed.
(** [m] succeeds with [k] marks. *)
Definition marks {A} (k : nat) (m : W A) : Prop :=
  length (bool_marks (fst m)) = k /\ exists a, snd m = Ok a.
Lemma marks_bind {A B} j k (m : W A) (f : A -> W B) : marks j m -> (forall a, marks k (f a)) -> marks (j + k) (bind m f).
Proof.
  intros [H1 [a H2]] Hf. destruct m as [l r]. cbn [fst snd] in *. subst r. destruct (Hf a) as [H3 [b H4]]. unfold bind.
  destruct (f a) as [l' r']. cbn [fst snd] in *.
  split; cbn [fst snd]; [rewrite bool_marks_app, app_length; lia|eexists; exact H4].
Qed.
Lemma marks_ret {A} (a : A) : marks 0 (ret a).
Proof. split; [reflexivity|eexists; reflexivity]. Qed.
Lemma marks_note n v : marks 0 (add_note n v).
Proof. split; [reflexivity|eexists; reflexivity]. Qed.
Lemma marks_note_ret {A} n v (a : A) : marks 0 (add_note n v ;;; ret a).
Proof. split; [reflexivity|eexists; reflexivity]. Qed.
Lemma marks_policy v : marks 1 (nel_policy v).
Proof.
  unfold nel_policy. destruct v; try (split; [reflexivity|eexists; reflexivity]).
  assert (Hj : forall k ok ex, marks 0 (json_req NEL_MISSING_KEY NEL_BAD_TYPE l k ok ex)).
  { intros. unfold json_req. destruct (dget _ _); [destruct (ok p)|]; first [apply marks_ret|apply marks_note_ret]. }
  assert (Hf : forall k s, marks 0 (nel_fraction l k s)).
  { intros. unfold nel_fraction. destruct (dget _ _); [destruct (negb _); [|destruct (negb _)]|]; first [apply marks_ret|apply marks_note_ret]. }
  apply (marks_bind 0 1); [apply Hj|]. intros. apply (marks_bind 0 1); [apply Hj|]. intros. apply (marks_bind 0 1).
  { destruct (dget _ _); [destruct (is_bool p)|]; first [apply marks_ret|apply marks_note_ret]. }
  intros. apply (marks_bind 0 1); [apply Hf|]. intros. apply (marks_bind 0 1); [apply Hf|]. intros. split; [reflexivity|eexists; reflexivity].
Qed.
Lemma marks_eq {A} j k (m : W A) : j = k -> marks j m -> marks k m.
Proof. intros ->. auto. Qed.
Lemma marks_nel c h l : h_val h = VList l -> marks (length l) (eval_of F_nel c h).
Proof.
  intros E. cbn [eval_of]. unfold keep, ev_nel. rewrite E. cbn [as_list].
  assert (G : marks (length l) (mapW nel_policy l)).
  { clear. induction l as [|v l IH]; cbn [mapW]; [apply marks_ret|].
    eapply marks_eq; [|apply marks_bind; [apply marks_policy|intros; apply marks_bind; [exact IH|intros; apply marks_ret]]]. cbn. lia. }
  assert (G2 : marks (length l) (iterW nel_policy l)).
  { unfold iterW. eapply marks_eq; [|apply marks_bind; [exact G|intros; apply marks_ret]]. lia. }
  assert (G3 : bind (lift (Ok l)) (iterW nel_policy) = iterW nel_policy l).
  { unfold bind, lift. cbn [fst snd]. destruct (iterW nel_policy l). reflexivity. }
  change (fun l0 => iterW nel_policy l0) with (iterW nel_policy).
  eapply marks_eq; [|apply marks_bind; [rewrite G3; exact G2|intros; apply marks_ret]]. lia.
Qed.
