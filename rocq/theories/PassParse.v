(** * Every parser: its notes, its exceptions, the type of its value. *)
From Verif Require Import PyStr Regex Grammar Note PyLib Utils FieldAttrs Types Fields1 Fields2 Fields3 Framework
  Spans EvLogic NoteLemmas LexLemmas ParamLemmas NumLemmas.
From Coq Require Import ZifyBool ZifyN.
Open Scope N_scope.

Lemma ms_prefix r s t : In t (ms r s) -> exists x, s = x ++ t /\ lang r x.
Proof. intros H. apply ms_sound in H. exact H. Qed.
Lemma findall_lang item look s : Forall (lang item) (findall item look s).
Proof.
  unfold findall. generalize (S (length s)) as f. intros f. revert s. induction f as [|f IH]; intros s; [constructor|].
  cbn [findall_aux]. destruct (find look (ms item s)) as [rest|] eqn:E.
  - apply find_some in E as [E _]. apply ms_prefix in E as (x & -> & Hx).
    replace (length (x ++ rest) - length rest)%nat with (length x) by (rewrite app_length; lia).
    rewrite firstn_app, Nat.sub_diag, firstn_all, app_nil_r. constructor; [exact Hx|apply IH].
  - destruct s; [constructor|apply IH].
Qed.

(** ** Parameters *)
Lemma param_shape s : lang rfc9110_parameter s ->
  exists k v, s = k ++ 61 :: v /\ token k /\ v <> [] /\ strip s = s.
Proof.
  rewrite parameter_eq. intros H.
  apply lang_seq in H as (k & y & -> & Hk & H). apply lang_seq in H as (q & v & -> & Hq & Hv).
  apply lang_chr in Hq as (c & -> & Hc). apply N.eqb_eq in Hc. subst c. cbn [app].
  apply lang_plus_chr in Hk as [Hk1 Hk2].
  assert (Hk : token k).
  { split; [exact Hk1|]. rewrite <- Hk2. apply forallb_same. intros c. symmetry. apply f_tchar_ok. }
  assert (Hl : exists w c, v = w ++ [c] /\ isspace c = false).
  { apply lang_alt in Hv as [Hv|Hv].
    - apply lang_plus_chr in Hv as [H1 H2]. destruct (exists_last H1) as (w & c & ->). exists w, c. split; [reflexivity|].
      rewrite forallb_app in H2. apply andb_true_iff in H2 as [_ H2]. cbn [forallb] in H2. rewrite andb_true_r, f_tchar_ok in H2.
      apply tchar_facts, H2.
    - unfold qs_re in Hv. apply lang_seq in Hv as (a & y & -> & _ & Hv). apply lang_seq in Hv as (b & z & -> & _ & Hv).
      apply lang_chr in Hv as (c & -> & Hc). apply N.eqb_eq in Hc. subst c.
      exists (a ++ b), 34. split; [apply app_assoc|reflexivity]. }
  destruct Hl as (w & c & -> & Hc). exists k, (w ++ [c]). split; [reflexivity|]. split; [exact Hk|]. split; [destruct w; discriminate|].
  apply strip_id.
  - intros d Hd. destruct Hk as [Hn Ht]. destruct k as [|k0 k]; [congruence|]. cbn in Hd. injection Hd as <-.
    cbn in Ht. apply andb_true_iff in Ht as [Ht _]. apply tchar_facts, Ht.
  - intros d Hd. change (k ++ 61 :: w ++ [c]) with (k ++ (61 :: w) ++ [c]) in Hd. rewrite app_assoc in Hd.
    rewrite last_app in Hd. injection Hd as <-. exact Hc.
Qed.
Lemma last_some (s : str) : s <> [] -> exists c, last_chr s = Some c.
Proof. intros H. destruct (exists_last H) as (w & c & ->). exists c. apply last_app. Qed.
Lemma first_some (s : str) : s <> [] -> exists c, first_chr s = Some c.
Proof. destruct s; [congruence|]. eexists. reflexivity. Qed.
Lemma name_harmless k : token k -> harmless (removelast (lower k)) = true.
Proof.
  intros [_ H]. unfold harmless. apply forallb_forall. intros c Hc.
  assert (G : forall l, In c (removelast l) -> In c l).
  { induction l as [|x l IH]; [auto|]. destruct l; [intros []|]. intros [->|Hx]; [left; reflexivity|right; apply IH, Hx]. }
  apply G in Hc. unfold lower in Hc. apply in_map_iff in Hc as (d & <- & Hd). rewrite forallb_forall in H. specialize (H d Hd).
  pose proof (tchar_facts d H) as (_ & _ & _ & _ & _ & L).
  pose proof (ascii_all_ok (fun c => negb (tchar c) || negb (existsb (N.eqb (lowc c)) [60; 62; 91; 93])) eq_refl d L) as HA.
  cbv beta in HA. rewrite H in HA. exact HA.
Qed.
Lemma wp_parse_param f E e n d p : lang rfc9110_parameter p -> wp (fev f) E (fun _ => True) (parse_param e n d (strip p)).
Proof.
  intros H. destruct (param_shape p H) as (k & v & Ep & Hk & Hv & ->). rewrite Ep. unfold parse_param.
  rewrite (split1_name k v (proj2 Hk)). destruct (first_some v Hv) as (v0 & ->). destruct (last_some v Hv) as (vn & ->).
  destruct (last_some k (proj1 Hk)) as (kn & ->). cbv zeta. wpt; [apply name_harmless, Hk|].
  destruct (split_max 3 39 _) as [|a [|b [|c [|x l]]]]; wpt.
Qed.
Lemma wp_parse_params f E e s n dl : wp (fev f) E (fun _ => True) (parse_params e s n dl).
Proof.
  unfold parse_params. apply wp_foldW; [exact I|]. intros d x _ Hx. unfold split_string in Hx.
  destruct s; [destruct Hx|]. apply in_map_iff in Hx as (p & <- & Hp).
  pose proof (findall_lang rfc9110_parameter (look_split_end (delim_re dl)) (n0 :: s)) as Hf. rewrite Forall_forall in Hf.
  apply wp_parse_param, Hf, Hp.
Qed.
Lemma pdict_params d : pdict (param_dict_val d).
Proof.
  exists (map (fun kv => (fst kv, opt_str (snd kv))) d). split; [reflexivity|]. apply Forall_map, Forall_forall.
  intros [k [s|]] _; [right; eexists; reflexivity|left; reflexivity].
Qed.
#[export] Hint Resolve pdict_params : core.

(** ** Media types *)
Definition bad_ok (f : fname) (bad : option nid) (ref : option string) : Prop :=
  match bad with
  | None => True
  | Some n => own f n = true
      /\ covered n (base_fld ++ k_value :: match ref with Some _ => [u "ref_uri"] | None => [] end) = true
      /\ str_in k_value (open_keys n) = false
      /\ match ref with Some r => harmless (u r) = true | None => True end
  end.
Lemma wp_check_media f E mt bad ref wild ct : bad_ok f bad ref ->
  wp (fev f) E (fun _ => True) (check_media_type mt bad ref wild ct).
Proof.
  intros Hb. unfold check_media_type. destruct (partition_chr 47 mt) as [[ty sl] sub].
  assert (Hbad : wp (fev f) E (fun _ => True)
     match bad with
     | None => ret tt
     | Some n => add_note n ((k_value, VStr mt) :: match ref with Some r => [(u "ref_uri", VStr (u r))] | None => [] end)
     end).
  { destruct bad as [n|]; [|wpt]. destruct Hb as (Ho & Hc & Hv & Hr). apply wp_note; [|exact I]. cbn [fev]. split; [exact Ho|].
    split; [|split; [left; reflexivity|constructor]]. assert (Hkv : kv_ok n (k_value, VStr mt)) by (split; [exact I|cbn [fst]; congruence]).
    destruct ref; (split; [exact Hc|]); repeat constructor; try exact Hkv; cbn [fst]; try congruence. intros _. exact Hr. }
  cbv zeta. revert Hbad.
  generalize (match bad with
     | None => ret tt
     | Some n => add_note n ((k_value, VStr mt) :: match ref with Some r => [(u "ref_uri", VStr (u r))] | None => [] end)
     end). intros bs Hbad. wpt; exact Hbad.
Qed.
Lemma wp_parse_media f E e v bad ref wild n : bad_ok f bad ref ->
  wp (fev f) E (fun _ => True) (parse_media_type e v bad ref wild n).
Proof.
  intros Hb. unfold parse_media_type. destruct (match split1 59 v with Some _ => _ | None => _ end) as [mt ps]. cbv zeta.
  apply wp_seq; [apply wp_check_media, Hb|].
  eapply wp_bind; [apply wp_parse_params|]. intros d _. wpt.
Qed.
Ltac bad_tac := cbn [bad_ok]; repeat split; vm_compute; reflexivity.

(** ** Each parser *)
Definition pw (f : fname) : Prop := forall c h v, wp (fev f) (Ep c) (val_ok f) (parse_of f c h v).
Lemma Ep_value c : Ep c EValue.
Proof. intros _ _. reflexivity. Qed.
#[export] Hint Resolve Ep_value : core.
Lemma lower_is_str f s : val_ok f (VStr s) <-> val_ok f (VStr s). Proof. reflexivity. Qed.

Lemma q_ok_val q : q_or_none (VFloat q).
Proof. right. eauto. Qed.
Lemma pw_accept : pw F_accept.
Proof.
  intros c h v. cbn [parse_of]. unfold p_accept.
  eapply wp_bind; [apply wp_parse_media; bad_tac|]. intros [mt d] _.
  destruct (dget kq d) as [q|]; [|wpt; cbn; eexists _, _, _; split; [reflexivity|]; split; [auto|left; reflexivity]].
  destruct (q_value q); wpt; cbn; eexists _, _, _; (split; [reflexivity|]); (split; [auto|]); [right; eexists; reflexivity|left; reflexivity].
Qed.
Lemma tpd s d : text_pd (VTuple [VStr s; param_dict_val d]).
Proof. exists s, (param_dict_val d). split; [reflexivity|auto]. Qed.
#[export] Hint Resolve tpd : core.
Lemma wp_q_params f : (forall s d, val_ok f (VTuple [VStr s; param_dict_val d])) ->
  forall c h v, wp (fev f) (Ep c) (val_ok f) (p_q_params c h v).
Proof.
  intros Hv c h v. unfold p_q_params. destruct (split_or 59 v). eapply wp_bind; [apply wp_parse_params|]. intros d _. wpt. apply Hv.
Qed.
Lemma pw_accept_encoding : pw F_accept_encoding.
Proof. intros c h v. cbn [parse_of]. apply wp_q_params. intros. cbn. auto. Qed.
Lemma pw_te : pw F_te.
Proof. intros c h v. cbn [parse_of]. apply wp_q_params. intros. cbn. auto. Qed.
Lemma pw_accept_language : pw F_accept_language.
Proof.
  intros c h v. cbn [parse_of]. unfold p_accept_language. destruct (split_or 59 v) as [l ps]. cbv zeta.
  eapply wp_bind; [apply wp_parse_params|]. intros d _.
  eapply (wp_bind _ _ q_or_none).
  { destruct (dget kq d) as [q|]; [|wpt; left; reflexivity]. destruct (q_value q); wpt; [right; eexists; reflexivity|left; reflexivity]. }
  intros q Hq. wpt. cbn. eexists _, _. split; [reflexivity|exact Hq].
Qed.
Lemma media_val p : text_pd (media_type_val p).
Proof. apply tpd. Qed.
Lemma pw_accept_patch : pw F_accept_patch.
Proof. intros c h v. cbn [parse_of]. unfold p_accept_patch. eapply wp_bind; [apply wp_parse_media; bad_tac|]. intros p _. wpt. apply media_val. Qed.
Lemma pw_accept_post : pw F_accept_post.
Proof. intros c h v. cbn [parse_of]. unfold p_accept_post. eapply wp_bind; [apply wp_parse_media; bad_tac|]. intros p _. wpt. apply media_val. Qed.
Lemma pw_content_type : pw F_content_type.
Proof. intros c h v. cbn [parse_of]. unfold p_content_type. eapply wp_bind; [apply wp_parse_media; exact I|]. intros p _. wpt. apply media_val. Qed.
Lemma vstr s : is_vstr (VStr s). Proof. eexists. reflexivity. Qed.
Lemma vint s : is_vint (VInt s). Proof. eexists. reflexivity. Qed.
#[export] Hint Resolve vstr vint : core.
Lemma pw_accept_ranges : pw F_accept_ranges.
Proof. intros c h v. cbn [parse_of]. unfold p_accept_ranges. cbv zeta. wpt. apply vstr. Qed.
Lemma pw_acac : pw F_access_control_allow_credentials.
Proof. intros c h v. cbn [parse_of]. unfold p_acac. wpt; auto. apply vstr. Qed.
Lemma pw_acma : pw F_access_control_max_age.
Proof. intros c h v. cbn [parse_of]. unfold p_acma. cbv zeta. wpt; auto. apply vint. Qed.
Lemma pw_age : pw F_age.
Proof. intros c h v. cbn [parse_of]. unfold p_age. wpt; auto. apply vint. Qed.
Lemma pw_alt_svc : pw F_alt_svc.
Proof. intros c h v. cbn [parse_of]. unfold p_alt_svc. wpt; auto; apply vstr. Qed.
Lemma opt_str_ok o : s_or_none (opt_str o).
Proof. destruct o; [right; eexists; reflexivity|left; reflexivity]. Qed.
#[export] Hint Resolve opt_str_ok : core.
Lemma pw_cache_control : pw F_cache_control.
Proof.
  intros c h v. cbn [parse_of]. unfold p_cache_control.
  destruct (match split1 61 v with Some _ => _ | None => _ end) as [name val]. cbv zeta.
  apply wp_when_seq; [intros; wpt|].
  assert (Hs : forall x, s_or_none x ->
     match dget (lower name) known_cc with Some (_, _, CCInt) => False | _ => True end ->
     cc_ok (VTuple [VStr (lower name); x])).
  { intros x Hx Hk. exists (lower name), x. split; [reflexivity|]. split; [auto|].
    destruct (dget (lower name) known_cc) as [[[a b] [| |]]|]; auto. destruct Hk. }
  destruct (dget (lower name) known_cc) as [[[a b] t]|] eqn:Ek; [|wpt; apply Hs; auto].
  destruct t; rewrite ?Ek in *.
  - apply wp_seq; [destruct val; wpt|]. wpt. apply Hs; auto.
  - destruct (match val with Some s => py_int s | None => None end); wpt; auto.
    + exists (lower name), (VInt z). split; [reflexivity|]. split; [auto|]. rewrite Ek. apply vint.
    + destruct val; exact I.
  - wpt. apply Hs; [right; eexists; reflexivity|exact I].
Qed.
Lemma pw_clear_site_data : pw F_clear_site_data.
Proof. intros c h v. cbn [parse_of]. unfold p_clear_site_data. cbv zeta. wpt; auto; apply vstr. Qed.
Lemma pw_content_disposition : pw F_content_disposition.
Proof.
  intros c h v. cbn [parse_of]. unfold p_content_disposition. destruct (split_or 59 v) as [d ps]. cbv zeta.
  eapply wp_bind; [apply wp_parse_params|]. intros dd _. wpt. apply tpd.
Qed.

(** Reading a typed related request. *)
Lemma related_spec c r : related_request c = Some r -> cx_rel c = Some r /\ m_type r = MRequest.
Proof.
  unfold related_request. destruct (is_response c); [|discriminate].
  destruct (cx_rel c) as [r'|]; [|discriminate]. destruct (m_type r') eqn:E; try discriminate.
  intros H; injection H as <-. auto.
Qed.
Lemma heads_text (P : exn -> Prop) v : (v = VList [] \/ exists l, v = VList l /\ Forall text_pd l) -> rp P (fun _ => True) (heads v).
Proof.
  intros [->|(l & -> & H)]; [exact I|]. unfold heads. cbn [as_list rbind].
  eapply rp_conseq; [|intros; exact I]. eapply rp_mapR with (R := fun _ => True). intros x Hx.
  rewrite Forall_forall in H. destruct (H x Hx) as (s & p & -> & _). exact I.
Qed.
Lemma find_ae : find_class (u "accept-encoding") = F_accept_encoding. Proof. vm_compute. reflexivity. Qed.
Lemma find_te : find_class (u "te") = F_te. Proof. vm_compute. reflexivity. Qed.
Lemma rel_text r k f : typed r -> m_type r = MRequest -> find_class (u k) = f -> kind_of f = KList ->
  fa_req (attrs f) = true -> (forall v, val_ok f v = text_pd v) ->
  rel_list r k = VList [] \/ exists l, rel_list r k = VList l /\ Forall text_pd l.
Proof.
  intros Ht Hm Hf Hk Hr Hv. unfold rel_list, rel_hdr. destruct (dget (u k) (s_parsed (m_headers r))) as [v|] eqn:E; [|left; reflexivity].
  apply Ht in E. rewrite Hf in E. unfold hval_ok in E. rewrite Hk in E. destruct E as [[E _]|(l & -> & E)].
  - unfold wrong in E. rewrite Hm, Hr in E. discriminate.
  - right. exists l. split; [reflexivity|]. eapply Forall_impl; [|exact E]. intros a. rewrite Hv. auto.
Qed.
Lemma typed_rel c r : sane c -> cx_rel c = Some r -> typed r.
Proof. intros (_ & H & _) E. rewrite E in H. apply H. Qed.
Lemma pw_content_encoding : pw F_content_encoding.
Proof.
  intros c h v. cbn [parse_of]. unfold p_content_encoding. apply wp_seq; [|wpt; apply vstr].
  destruct (related_request c) as [r|] eqn:E; [|wpt]. apply related_spec in E as [E1 E2].
  apply (wp_bind_lift _ _ (fun _ => True)); [|intros; wpt].
  unfold rp. destruct (heads (rel_list r "accept-encoding")) as [l|x] eqn:Eh; [exact I|]. intros _ Hs. exfalso.
  pose proof (heads_text (fun _ => False) (rel_list r "accept-encoding")
     (rel_text r _ _ (typed_rel c r Hs E1) E2 find_ae eq_refl eq_refl (fun v => eq_refl))) as G. rewrite Eh in G. exact G.
Qed.
Lemma pw_content_length : pw F_content_length.
Proof. intros c h v. cbn [parse_of]. unfold p_content_length. wpt; auto. apply vint. Qed.
Lemma oint o : i_or_none (opt_int o).
Proof. destruct o; [right; eexists; reflexivity|left; reflexivity]. Qed.
#[export] Hint Resolve oint : core.
Lemma wp_int_of {A} P c (Q : A -> Prop) s k : (forall z, wp P (Ep c) Q (k z)) -> wp P (Ep c) Q (bind (lift (int_of s)) k).
Proof.
  intros H. apply (wp_bind_lift _ _ (fun _ => True)); [|intros; apply H]. unfold int_of. destruct (py_int s); cbn; auto.
Qed.
Lemma pw_content_range : pw F_content_range.
Proof.
  intros c h v. cbn [parse_of]. unfold p_content_range. wpt; auto.
  eapply (wp_bind _ _ (fun _ => True)).
  { unfold cr_length. wpt. apply wp_int_of. intros; wpt. }
  intros cl _. wpt; auto. eapply (wp_bind _ _ (fun _ => True)).
  { unfold cr_range. wpt. apply wp_int_of. intros. apply wp_int_of. intros; wpt. }
  intros r _. apply wp_seq; [wpt; auto|]. wpt. cbn. eexists _, _, _, _. split; [reflexivity|auto].
Qed.
Lemma wp_csp f : (f = F_content_security_policy \/ f = F_content_security_policy_report_only) ->
  forall rot c h v, wp (fev f) (Ep c) (fun v => exists d, v = VDict d /\ Forall (fun kv => is_vstr (snd kv)) d) (p_csp rot c h v).
Proof.
  intros Hf rot c h v. unfold p_csp. destruct (csp_directives _ _ _) as [d dup].
  apply wp_when_seq.
  - intros _. destruct Hf as [-> | ->]; wpt.
  - wpt. unfold str_dict_val. eexists. split; [reflexivity|]. apply Forall_map, Forall_forall. intros. apply vstr.
Qed.
Lemma pw_csp : pw F_content_security_policy.
Proof. intros c h v. cbn [parse_of]. apply wp_csp; auto. Qed.
Lemma pw_csp_ro : pw F_content_security_policy_report_only.
Proof. intros c h v. cbn [parse_of]. apply wp_csp; auto. Qed.
Lemma pw_cookie : pw F_cookie.
Proof.
  intros c h v. cbn [parse_of]. unfold p_cookie. wpt. cbn. eexists. split; [reflexivity|].
  apply Forall_forall. intros x Hx. apply in_flat_map in Hx as (i & _ & Hx). unfold cookie_pair in Hx.
  destruct (negb _); [destruct Hx|]. destruct (split1 61 _) as [[a b]|]; destruct Hx as [<-|[]]; eexists _, _; reflexivity.
Qed.
Lemma wp_timegm c y mo d h mi s : rp (Ep c) (fun _ => True) (timegm y mo d h mi s).
Proof. unfold timegm, rp. destruct (_ && _)%bool; auto. Qed.
Lemma wp_date f c v cat : wp (fev f) (Ep c) (fun _ => True) (parse_http_date v cat).
Proof.
  unfold parse_http_date. wpt; auto.
  apply wp_lift, wp_timegm.
Qed.
Lemma wp_p_date f (g : fname) c h v : (forall z, val_ok f (VInt z)) -> wp (fev f) (Ep c) (val_ok f) (p_date g c h v).
Proof. intros Hv. unfold p_date. eapply wp_bind; [apply wp_date|]. intros z _. wpt. apply Hv. Qed.
Lemma pw_etag : pw F_etag.
Proof. intros c h v. cbn [parse_of]. unfold p_etag. wpt; cbn; eexists _, _; reflexivity. Qed.
Lemma pw_keep_alive : pw F_keep_alive.
Proof.
  intros c h v. cbn [parse_of]. unfold p_keep_alive. wpt; cbn; eexists _, _; (split; [reflexivity|]);
    [right; eexists; reflexivity|left; reflexivity].
Qed.
Lemma pw_link : pw F_link.
Proof.
  intros c h v. cbn [parse_of]. unfold p_link. destruct (split_or 59 v) as [lv ps]. cbv zeta.
  eapply wp_bind; [apply wp_parse_params|]. intros d _.
  apply wp_seq; [wpt|]. apply wp_seq; [wpt|]. apply wp_seq; [wpt|]. wpt. apply tpd.
Qed.
Lemma pw_location : pw F_location.
Proof.
  intros c h v. cbn [parse_of]. unfold p_location. wpt. apply wp_seq; [wpt|wpt; apply vstr].
  apply (wp_bind_lift _ _ (fun _ => True)); [|intros; wpt].
  unfold rp. destruct (e_urljoin _ _ _) eqn:E; [exact I|]. intros [_ H] _. eapply H, E.
Qed.
Lemma pw_origin : pw F_origin.
Proof.
  intros c h v. cbn [parse_of]. unfold p_origin. wpt; auto; [left; reflexivity|].
  destruct (origin_groups _) as [[sch host] port].
  eapply (wp_bind _ _ (fun _ => True)).
  - wpt. apply wp_int_of. intros; wpt.
  - intros op _. wpt. right. eexists _, _, _. reflexivity.
Qed.
Lemma wp_range_bad {A} c (Q : A -> Prop) s : harmless (u s) = true -> wp (fev F_range) (Ep c) Q (range_bad s).
Proof. intros Hs. unfold range_bad. wpt; auto. Qed.
Lemma pw_range : pw F_range.
Proof.
  intros c h v. cbn [parse_of]. unfold p_range. destruct (split1 61 v) as [[unit rest]|]; [|apply wp_range_bad; reflexivity].
  eapply (wp_bind _ _ (fun l => Forall (fun x => exists a b, x = VTuple [a; b] /\ i_or_none a /\ i_or_none b) l)).
  - apply wp_mapW. intros x _. unfold range_one. cbv zeta. destruct (split1 45 _) as [[a b]|]; [|apply wp_range_bad; reflexivity].
    assert (Hp : forall s p, harmless (u p) = true -> wp (fev F_range) (Ep c) (fun _ => True) (range_pos s p)).
    { intros s p Hs. unfold range_pos. wpt. - apply wp_range_bad, Hs. - apply wp_int_of. intros; wpt. }
    eapply wp_bind; [apply Hp; reflexivity|]. intros y _. eapply wp_bind; [apply Hp; reflexivity|]. intros z _.
    destruct y, z; try (apply wp_range_bad; reflexivity); wpt; eexists _, _; (split; [reflexivity|auto]).
  - intros l Hl. wpt. cbn. eexists _, _. split; [reflexivity|exact Hl].
Qed.
Lemma pw_server : pw F_server.
Proof. intros c h v. cbn [parse_of]. unfold p_server. wpt. apply vstr. Qed.
Lemma pw_server_timing : pw F_server_timing.
Proof.
  intros c h v. cbn [parse_of]. unfold p_server_timing. destruct (split_or 59 v). eapply wp_bind; [apply wp_parse_params|].
  intros; wpt. apply tpd.
Qed.
Lemma pw_transfer_encoding : pw F_transfer_encoding.
Proof.
  intros c h v. cbn [parse_of]. unfold p_transfer_encoding. destruct (split_or 59 v). eapply wp_bind; [apply wp_parse_params|].
  intros; wpt. apply tpd.
Qed.
Lemma pw_tcn : pw F_tcn.
Proof. intros c h v. cbn [parse_of]. unfold p_tcn. wpt. apply vstr. Qed.
Lemma pw_unnecessary : pw F__unnecessary.
Proof. intros c h v. cbn [parse_of]. unfold p_unnecessary. wpt. reflexivity. Qed.
Lemma pw_deprecated : pw F__deprecated.
Proof. intros c h v. cbn [parse_of]. unfold p_none. wpt. reflexivity. Qed.
Lemma wp_defer f E (Q : unit -> Prop) n vrs : own f n = true -> note_ok n base_fld vrs ->
  forallb (fun k => negb (str_in k parent_keys)) (open_keys n) = true -> Q tt -> wp (fev f) E Q (defer n vrs).
Proof. intros. unfold defer. wpt; auto. Qed.
Ltac dstep := first [ apply wp_defer; [own_tac|note_tac|vm_compute; reflexivity|exact I]
  | match goal with |- wp _ _ _ (bind (defer _ _) (fun _ => _)) => apply wp_seq end
  | wp_step ].
Ltac dwp := repeat dstep.
Lemma wp_cookie_attribute path now cname ltn c n v :
  wp (fev F_set_cookie) (Ep c) (fun _ => True) (cookie_attribute path now cname ltn n v).
Proof.
  unfold cookie_attribute. cbv zeta.
  repeat match goal with |- wp _ _ _ (if str_eqb (lower n) _ then _ else _) => destruct (str_eqb (lower n) _) end.
  all: try solve [dwp].
  - destruct (loose_date_parse v); dwp.
  - destruct v; dwp. apply wp_int_of. intros; dwp.
  - destruct v; dwp.
Qed.
Lemma wp_cookie_loop path now cname c avs : forall seen ltn,
  wp (fev F_set_cookie) (Ep c) (fun _ => True) (cookie_loop path now cname avs seen ltn).
Proof.
  induction avs as [|av avs IH]; intros seen ltn; cbn [cookie_loop]; [wpt|].
  destruct (split_or 61 av) as [n v]. dwp. eapply wp_bind; [apply wp_cookie_attribute|]. intros r _.
  eapply wp_bind; [apply IH|]. intros rest _. wpt.
Qed.
Lemma pw_set_cookie : pw F_set_cookie.
Proof.
  intros c h v. cbn [parse_of]. unfold p_set_cookie.
  apply (wp_bind_lift _ _ (fun _ => True)).
  { unfold rp. destruct (e_urlsplit _ _) eqn:E; [exact I|]. intros [H _] _. eapply H, E. }
  intros p _. eapply (wp_bind _ _ (fun _ => True)).
  - unfold loose_parse. destruct (split_or 59 v) as [nv at_]. destruct (match split1 61 nv with Some _ => _ | None => _ end) as [name value].
    cbv zeta. dwp; auto. eapply wp_bind; [apply wp_cookie_loop|]. intros l _. dwp.
    apply wp_seq; [|wpt]. unfold check_prefixes. cbv zeta. dwp. all: try solve [apply wp_defer; [own_tac|note_tac|vm_compute; reflexivity|exact I]]. apply wp_iterW; [|exact I]. intros; apply wp_when; [|exact I]. intros; apply wp_defer; [own_tac|note_tac|vm_compute; reflexivity|exact I].
  - intros [[n w] l] _. wpt. cbn. eexists _, _, _. split; [reflexivity|]. apply Forall_map, Forall_forall.
    intros [k [s|z]] _; eexists _, _; (split; [reflexivity|]); cbn; auto.
Qed.
Lemma wp_hsts_loop c ds : forall seen s, wp (fev F_strict_transport_security) (Ep c) (fun _ => True) (hsts_loop ds seen s).
Proof.
  induction ds as [|d ds IH]; intros seen s; cbn [hsts_loop]; [wpt|].
  destruct (match split1 61 d with Some _ => _ | None => _ end) as [n value]. cbv zeta.
  dwp; [apply IH|]. eapply (wp_bind _ _ (fun _ => True)); [|intros; apply IH].
  repeat match goal with |- wp _ _ _ (if str_eqb _ _ then _ else _) => destruct (str_eqb _ _) end.
  - destruct (match value with Some _ => _ | None => _ end); dwp.
  - apply wp_seq; dwp.
  - apply wp_seq; dwp.
  - wpt.
Qed.
Lemma pw_hsts : pw F_strict_transport_security.
Proof.
  intros c h v. cbn [parse_of]. unfold p_hsts. cbv zeta.
  eapply (wp_bind _ _ (fun _ => True)); [destruct (last _ _); dwp|]. intros ds _.
  eapply wp_bind; [apply wp_hsts_loop|]. intros s _. wpt. cbn. eexists _, _, _. split; [reflexivity|auto].
Qed.
Theorem parse_pass f : pw f.
Proof.
  destruct f;
  first [apply pw_accept|apply pw_accept_encoding|apply pw_te|apply pw_accept_language|apply pw_accept_patch|apply pw_accept_post
    |apply pw_content_type|apply pw_accept_ranges|apply pw_acac|apply pw_acma|apply pw_age|apply pw_alt_svc|apply pw_cache_control
    |apply pw_clear_site_data|apply pw_content_disposition|apply pw_content_encoding|apply pw_content_length|apply pw_content_range
    |apply pw_csp|apply pw_csp_ro|apply pw_cookie|apply pw_etag|apply pw_keep_alive|apply pw_link|apply pw_location|apply pw_origin
    |apply pw_range|apply pw_server|apply pw_server_timing|apply pw_set_cookie|apply pw_hsts|apply pw_tcn|apply pw_transfer_encoding
    |apply pw_unnecessary|apply pw_deprecated
    |intros c h v; apply wp_p_date; intros; apply vint
    |intros c h v; apply wp_ret; apply vstr].
Qed.
