(** * What the notes about CORS preflights, Server and pre-check/post-check show (C72). *)
From Coq Require Import Lia ZifyBool ZifyN Setoid Morphisms.
From Verif Require Import PyStr Regex Grammar NoteTable Note PyLib Utils FieldAttrs Types Fields1 Fields2 Fields3 Framework Checks Message
  EvLogic NoteLemmas TestEnv LexLemmas ParamLemmas NumLemmas PassFrame PassSec PassMsg PassRun PassParse Session SessionLemmas EndLemmas SecNotes SecValues LintLemmas FieldSpec PropFields PropValues PropNames PropParse PropTop PropCli OwnLemmas ListSpec PropLists PropCC ListExamples FieldExamples
  PropInts FieldDue OwnTac PlainSpec StatusSpec ShowSpec PropShow NameLemmas GroupRun PropBody StatusSpec RestSpec.
From Verif Require CookieShowSpec PropStatus PropCookieShow.
Open Scope N_scope.

(** ** Preflights *)
Lemma if_b {A} (P : Prop) (b : bool) (n : A) : (b = true <-> P) -> if_so P n (if b then [n] else []).
Proof. intros H. destruct b; [left|right]; split; try reflexivity; [apply H; reflexivity|intros C; apply H in C; discriminate]. Qed.
Lemma preflight_sel m : about_preflights (m_notes m) = sel (among preflight_classes) (m_notes m).
Proof. reflexivity. Qed.
Theorem C72_request : forall e rel top headers chunks complete trailers start nc head base m' rel',
  lint e rel top headers chunks complete trailers (new_linter MRequest start nc head base) = (m', rel', Ok tt) ->
  exists a b c d, about_preflights (m_notes m') = a ++ b ++ c ++ d
    /\ if_so (a_preflight m') (plain_note MRequest "method field-access-control-request-method field-access-control-request-headers" CORS_PREFLIGHT_REQUEST []) a
    /\ if_so (looks_like_one m' /\ m_method m' <> Some (u "OPTIONS"))
         (plain_note MRequest "method" CORS_PREFLIGHT_REQ_METHOD_WRONG [("field_name", VStr (u "Access-Control-Request-Method")); ("method", method_shown m')]%string) b
    /\ if_so (looks_like_one m' /\ ~ has_field m' "origin") (plain_note MRequest "field-origin" CORS_PREFLIGHT_REQ_NO_ORIGIN [("field_name", VStr (u "Access-Control-Request-Method"))]%string) c
    /\ if_so (looks_like_one m' /\ ~ has_field m' "access-control-request-method")
         (plain_note MRequest "field-access-control-request-headers" CORS_PREFLIGHT_REQ_NO_METHOD [("field_name", VStr (u "Access-Control-Request-Headers"))]%string) d.
Proof.
  intros e rel top headers chunks complete trailers start nc head base m' rel' E.
  destruct (lint_request _ _ _ _ _ _ _ _ _ _ _ _ _ E) as (_ & lp & Ep & N). rewrite preflight_sel, N. clear N E.
  set (hm := m_has m' "access-control-request-method"). set (hh := m_has m' "access-control-request-headers"). set (ho := m_has m' "origin"). set (om := method_is m' "OPTIONS").
  exists (if om && ho && hm then [plain_note MRequest "method field-access-control-request-method field-access-control-request-headers" CORS_PREFLIGHT_REQUEST []] else []),
    (if (hm || hh) && negb om then [plain_note MRequest "method" CORS_PREFLIGHT_REQ_METHOD_WRONG [("field_name", VStr (u "Access-Control-Request-Method")); ("method", method_shown m')]%string] else []),
    (if (hm || hh) && negb ho then [plain_note MRequest "field-origin" CORS_PREFLIGHT_REQ_NO_ORIGIN [("field_name", VStr (u "Access-Control-Request-Method"))]%string] else []),
    (if (hm || hh) && negb hm then [plain_note MRequest "field-access-control-request-headers" CORS_PREFLIGHT_REQ_NO_METHOD [("field_name", VStr (u "Access-Control-Request-Headers"))]%string] else []).
  assert (Q : forall b, negb b = true <-> ~ b = true) by (intros []; cbn; intuition congruence).
  split; [|unfold a_preflight, looks_like_one; split; [|split; [|split]]; apply if_b; rewrite <- ?PropStatus.method_options, <- !PropStatus.m_has_field; fold hm hh ho om; rewrite ?andb_true_iff, ?orb_true_iff, ?Q; tauto].
  unfold check_preflight_request, msg, is_preflight in Ep. fold hm hh ho om in Ep.
  destruct om, ho, hm, hh; cbn in Ep; injection Ep as <-; reflexivity.
Qed.
Print Assumptions C72_request.

(** The names of the handlers. *)
Lemma handler_ids e rel top headers chunks complete trailers t start nc head base m' rel' :
  lint e rel top headers chunks complete trailers (new_linter t start nc head base) = (m', rel', Ok tt) ->
  forall k h, dget k (s_handlers (m_headers m')) = Some h -> exists n, k = lower n /\ h_canon h = h_canon (new_handler n).
Proof.
  intros E k h Hk. destruct (lint_group (fun _ => false) [] _ _ _ _ _ _ _ _ _ _ _ _ _ _ E) as (mh & mt & Eh & Et & _ & _ & _ & _ & _ & Ks & _ & R & _).
  - intros n Hn. discriminate.
  - apply quiet_b_ok. vm_compute. reflexivity.
  - constructor.
  - constructor.
  - assert (Hi : In k (fields_seen headers)) by (rewrite <- Ks; unfold keys; apply in_map_iff; exists (k, h); split; [reflexivity|apply dget_In, Hk]).
    destruct (R k Hi) as (_ & (evs & h0 & mi & h' & _ & Ek & _ & _ & _ & _ & _ & (_ & _ & _ & Ec) & _ & Hd)). cbn [sec] in Hd. rewrite Hk in Hd. injection Hd as <-. eauto.
Qed.
Lemma canon_of (k : string) (n : str) : u k = lower n -> find_class (u k) <> F__deprecated -> h_canon (new_handler n) = match fa_canon (attrs (find_class (u k))) with Some c => u c | None => strip n end.
Proof. intros Ek. rewrite Ek, find_class_lower. cbn [new_handler h_canon]. destruct (find_class n); intros H; try reflexivity. destruct (H eq_refl). Qed.
Theorem C72_response : forall e rel top headers chunks complete trailers start nc head base m' rel',
  lint e rel top headers chunks complete trailers (new_linter MResponse start nc head base) = (m', rel', Ok tt) ->
  exists a b c names, about_preflights (m_notes m') = a ++ b ++ c /\ misplaced_names m' names
    /\ if_so (exists r, rel = Some r /\ a_preflight r) (plain_note MResponse "" CORS_PREFLIGHT_RESPONSE []) a
    /\ if_so (~ (exists r, rel = Some r /\ a_preflight r) /\ names <> [])
         (plain_note MResponse "header-access-control-allow-headers" CORS_PREFLIGHT_ONLY [("headers", VStr (join (u ", ") names))]%string) b
    /\ if_so (exists s, received m' "access-control-allow-origin" (VStr s) /\ (In 32 s \/ In 44 s)) (plain_note MResponse "header-access-control-allow-origin" ACAO_MULTIPLE_VALUES []) c.
Proof.
  intros e rel top headers chunks complete trailers start nc head base m' rel' E.
  destruct (lint_response _ _ _ _ _ _ _ _ _ _ _ _ _ E) as (lp & lc & lreq & k & ls & Ep & _ & _ & _ & _ & N & _). rewrite preflight_sel, N. clear N.
  set (h1 := m_has m' "access-control-allow-headers"). set (h2 := m_has m' "access-control-allow-methods"). set (h3 := m_has m' "access-control-max-age").
  set (ac := match m_get m' "access-control-allow-origin" with Some (VStr s) => has_chr 32 s || has_chr 44 s | _ => false end).
  set (pre := match rel with Some r => is_preflight r | None => false end).
  set (ns := (if h1 then [u "Access-Control-Allow-Headers"] else []) ++ (if h2 then [u "Access-Control-Allow-Methods"] else []) ++ (if h3 then [u "Access-Control-Max-Age"] else [])).
  assert (A : pre = true <-> exists r, rel = Some r /\ a_preflight r).
  { unfold pre. destruct rel as [r|]; [|split; [discriminate|intros (? & ? & _); discriminate]]. unfold a_preflight. split.
    - intros H. exists r. split; [reflexivity|]. apply PropStatus.preflight_spec, H.
    - intros (? & E' & H). injection E' as <-. apply PropStatus.preflight_spec, H. }
  assert (Ac : ac = true <-> exists s, received m' "access-control-allow-origin" (VStr s) /\ (In 32 s \/ In 44 s)).
  { unfold ac, received, m_get. destruct (dget _ _) as [v|]; [|split; [discriminate|intros (? & ? & _); discriminate]].
    destruct v; try (split; [discriminate|intros (? & ? & _); discriminate]). rewrite orb_true_iff, !has_chr_In. split; [eauto|]. intros (s' & H & H'). injection H as <-. exact H'. }
  assert (B : (if pre then True else exists bad, mapR (fun k => match dget (u k) (s_handlers (m_headers m')) with Some h => Ok (h_canon h) | None => Err EKey end) (filter (m_has m') preflight_only) = Ok bad) -> pre = true \/ mapR (fun k => match dget (u k) (s_handlers (m_headers m')) with Some h => Ok (h_canon h) | None => Err EKey end) (filter (m_has m') preflight_only) = Ok ns).
  { intros H. destruct pre; [left; reflexivity|right]. destruct H as (bad & Hb). rewrite Hb. revert Hb.
    assert (One : forall (k c : string), find_class (u k) <> F__deprecated -> fa_canon (attrs (find_class (u k))) = Some c -> forall h, dget (u k) (s_handlers (m_headers m')) = Some h -> h_canon h = u c).
    { intros k0 c Hd Hc h Hh. destruct (handler_ids _ _ _ _ _ _ _ _ _ _ _ _ _ _ E (u k0) h Hh) as (n & Ek & ->). rewrite (canon_of k0 n Ek Hd), Hc. reflexivity. }
    unfold preflight_only, ns, h1, h2, h3. cbn [filter].
    pose proof (One "access-control-allow-headers"%string "Access-Control-Allow-Headers"%string ltac:(vm_compute; discriminate) eq_refl) as O1.
    pose proof (One "access-control-allow-methods"%string "Access-Control-Allow-Methods"%string ltac:(vm_compute; discriminate) eq_refl) as O2.
    pose proof (One "access-control-max-age"%string "Access-Control-Max-Age"%string ltac:(vm_compute; discriminate) eq_refl) as O3.
    destruct (m_has m' "access-control-allow-headers"), (m_has m' "access-control-allow-methods"), (m_has m' "access-control-max-age"); cbn [mapR rbind app];
      try destruct (dget (u "access-control-allow-headers") _) as [x1|]; try destruct (dget (u "access-control-allow-methods") _) as [x2|]; try destruct (dget (u "access-control-max-age") _) as [x3|];
      cbn [mapR rbind app]; intros Hb; try discriminate Hb; apply (f_equal (fun r => match r with Ok x => x | Err _ => [] end)) in Hb; cbv beta iota in Hb; rewrite <- Hb; rewrite ?(O1 _ eq_refl), ?(O2 _ eq_refl), ?(O3 _ eq_refl); reflexivity. }
  exists (if pre then [plain_note MResponse "" CORS_PREFLIGHT_RESPONSE []] else []),
    (if negb pre && nonempty ns then [plain_note MResponse "header-access-control-allow-headers" CORS_PREFLIGHT_ONLY [("headers", VStr (join (u ", ") ns))]%string] else []),
    (if ac then [plain_note MResponse "header-access-control-allow-origin" ACAO_MULTIPLE_VALUES []] else []), ns.
  split.
  - unfold check_preflight_response, msg in Ep. fold pre in Ep.
    assert (T : match m_get m' "access-control-allow-origin" with Some (VStr s) => when (has_chr 32 s || has_chr 44 s) (tell [EMsg (u "header-access-control-allow-origin") ACAO_MULTIPLE_VALUES []]) | _ => ret tt end
                = when ac (tell [EMsg (u "header-access-control-allow-origin") ACAO_MULTIPLE_VALUES []])) by (unfold ac; destruct (m_get _ _) as [[]|]; reflexivity).
    rewrite T in Ep. clear T. destruct pre.
    + cbn in Ep. destruct ac; injection Ep as <-; reflexivity.
    + destruct B as [B|B].
      * destruct (mapR _ _) as [bad|x]; [eauto|discriminate Ep].
      * discriminate.
      * rewrite B, lift_ok in Ep. destruct ns as [|n0 ns'] eqn:En; cbn [nonempty when negb andb app] in *.
        -- destruct ac; cbn in Ep; injection Ep as <-; reflexivity.
        -- destruct ac; cbn in Ep; injection Ep as <-; reflexivity.
  - split; [exists (if h1 then [u "Access-Control-Allow-Headers"] else []), (if h2 then [u "Access-Control-Allow-Methods"] else []), (if h3 then [u "Access-Control-Max-Age"] else []); split; [reflexivity|]; repeat split; apply if_b, PropStatus.m_has_field|].
    split; [apply if_b, A|]. split; [|apply if_b, Ac]. apply if_b. rewrite <- A, andb_true_iff, negb_true_iff. destruct pre, ns; cbn [nonempty]; split; intros [H1 H2]; split; congruence || discriminate || (intros ?; congruence) || reflexivity.
Qed.
Print Assumptions C72_response.

(** ** Server *)
Theorem C72_server : forall e rel top headers chunks complete trailers t start nc head base m' rel',
  lint e rel top headers chunks complete trailers (new_linter t start nc head base) = (m', rel', Ok tt) -> t <> MRequest ->
  exists due, showing too_long_shows due
    /\ heard (classes [SERVER_TOO_LONG]) [u "server_string"; u "server_length"] (m_notes m') = member_told t "server" due headers ++ member_told t "server" due trailers.
Proof.
  intros e rel top headers chunks complete trailers t start nc head base m' rel' E Ht.
  apply (elements_shows [SERVER_TOO_LONG] [u "server_string"; u "server_length"] F_server "server" e rel top headers chunks complete trailers t start nc head base m' rel' E);
    [its_type|intros x; unfold eva; cbn [eval_of]; nks|apply unhyphened; reflexivity|apply unhyphened; reflexivity|reflexivity| |intros x ks s; reflexivity].
  intros v. unfold par. cbn [parse_of]. unfold p_server. apply sy_bind; [|intros; apply sy_ret]. apply sy_when. intros L. apply sy_note. intros _.
  destruct (PropCookieShow.C69_commas (length v)) as (ds & A & B & C). split; [reflexivity|]. split; [apply Nat.ltb_lt, L|]. exists ds, (f_comma (length v)). repeat split; assumption.
Qed.
Print Assumptions C72_server.

(** ** pre-check and post-check *)
Lemma last_is d ms z : is_one_of numeric (u d) = true -> last_number d (flat_map (fun v => match cc_value v with Some x => [(cc_name v, x)] | None => [] end) ms) = Some z -> last_given d ms z.
Proof.
  intros Hn. unfold last_number. induction ms as [|v ms IH] using rev_ind; [discriminate|]. rewrite flat_map_app. cbn [flat_map]. rewrite app_nil_r, rev_app_distr.
  assert (More : (forall y, ~ gives d v y) -> last_given d ms z -> last_given d (ms ++ [v]) z).
  { intros Hv (a & w & b & -> & G & L). exists a, w, (b ++ [v]). split; [rewrite <- app_assoc; reflexivity|]. split; [exact G|]. intros x y Hx. apply in_app_iff in Hx as [Hx|[<-|[]]]; [apply L, Hx|apply Hv]. }
  destruct (str_eqb (cc_name v) (u d)) eqn:En.
  - apply str_eqb_eq in En. unfold cc_value. rewrite En, Hn. change (match snd (cut v) with Some s => option_map VInt (py_int s) | None => None end) with (match snd (cut v) with Some s => option_map VInt (py_int s) | None => None end).
    assert (Q : match snd (cut v) with Some s => option_map VInt (py_int s) | None => None end = option_map VInt (number_in v)) by (unfold number_in; destruct (snd (cut v)); reflexivity).
    rewrite Q. destruct (number_in v) as [y|] eqn:Ev; cbn [option_map rev app find fst].
    + rewrite str_eqb_refl. intros H. injection H as <-. exists ms, v, []. split; [reflexivity|]. split; [split; assumption|]. intros w x [].
    + intros H. apply More; [|apply IH, H]. intros y [_ C]. congruence.
  - intros H. apply More.
    + intros y [C _]. rewrite C, str_eqb_refl in En. discriminate.
    + apply IH. destruct (cc_value v) as [x|]; cbn [rev app find fst] in H; [rewrite En in H|]; exact H.
Qed.
Theorem C72_checks : forall e rel top headers chunks complete trailers t start nc head base m' rel',
  lint e rel top headers chunks complete trailers (new_linter t start nc head base) = (m', rel', Ok tt) ->
  hyphened (u "cache-control") headers -> hyphened (u "cache-control") trailers ->
  exists due, showing both_shown due
    /\ heard (classes [CHECK_POST_PRE]) [u "pre_check"; u "post_check"] (m_notes m') = list_told "cache-control" due headers ++ list_told "cache-control" due trailers.
Proof.
  intros e rel top headers chunks complete trailers t start nc head base m' rel' E H1 H2.
  apply (whole_shows [CHECK_POST_PRE] [u "pre_check"; u "post_check"] F_cache_control "cache-control" e rel top headers chunks complete trailers t start nc head base m' rel' E);
    [its_type|intros x; unfold eva; cbn [eval_of]; unfold keep, ev_cache_control, cc_one, cc_checks; nks|exact H1|exact H2|reflexivity| |].
  - intros v ks s. unfold par. cbn [parse_of]. unfold p_cache_control. destruct (match split1 61 v with Some _ => _ | None => _ end) as [n o].
    destruct (dget (lower n) known_cc) as [[[? ?] []]|]; destruct (str_eqb n (lower n)); try destruct o; try reflexivity; try (match goal with |- context [py_int ?x] => destruct (py_int x) end); try reflexivity; destruct (_ <? _)%Z; reflexivity.
  - intros ms. rewrite cc_par. unfold eva. cbn [eval_of]. unfold keep, ev_cache_control. cbn [Types.h_val blank_of]. rewrite pairs_of, lift_ok. cbv zeta. rewrite counting_eq. unfold is_response. cbn [cx_msg cx_env].
    set (es := flat_map _ ms).
    assert (Hs : sound es).
    { unfold es, sound. apply Forall_flat_map, Forall_forall. intros v _. destruct (cc_value v) as [x|] eqn:Ev; [|constructor]. constructor; [|constructor].
      cbn [fst snd]. intros H. unfold cc_value in Ev. rewrite H in Ev. destruct (snd (cut v)) as [s|]; [|discriminate]. destruct (py_int s) as [z|]; [|discriminate]. injection Ev as <-. eauto. }
    apply sy_bind; [|intros; apply sy_ret]. apply sy_bind; [|intros _ _; apply sy_bind].
    + destruct (match m_type m' with MResponse => true | _ => false end); [|sys]. destruct (first_conflict _ _ _) as [[d l]|]; sys; discriminate.
    + apply sy_iterW. intros d _. unfold cc_one. cbv zeta. repeat match goal with |- context [if ?b then _ else _] => destruct b end; sys; discriminate.
    + intros _ _. rewrite <- counting_eq. fold es. unfold cc_checks. cbv zeta. destruct (last_sound "pre-check" es Hs eq_refl) as [A1 _]. destruct (last_sound "post-check" es Hs eq_refl) as [B1 _]. rewrite A1, B1.
      destruct (_ || _); [|sys]. destruct (_ || _); [sys; discriminate|].
      destruct (last_number "pre-check" es) as [a|] eqn:Ea; [|destruct (last_number "post-check" es); sys]. destruct (last_number "post-check" es) as [b|] eqn:Eb; [|sys]. cbn [option_map].
      destruct (_ && _) eqn:Z; [sys; discriminate|]. destruct (a <? b)%Z eqn:L; [sys; discriminate|]. destruct (b =? 0)%Z eqn:Zb; [sys; discriminate|].
      apply sy_note. intros _. split; [reflexivity|]. exists a, b. split; [apply last_is; [reflexivity|exact Ea]|]. split; [apply last_is; [reflexivity|exact Eb]|].
      split; [apply Z.ltb_ge, L|]. split; [apply Z.eqb_neq, Zb|reflexivity].
Qed.
Print Assumptions C72_checks.

(** ** Examples *)
Definition rest_sample : list rawline := raws [("Server", "aaaaaaaaaaaaaaaaaaaaaaaaaaaaaaaaaaaaaaaaaaaaaaaaaaaaaaaaaaaaaaaaaaaaaa, b"); ("Cache-Control", "pre-check=9, post-check=5, pre-check=7, pre-check=q"); ("Access-Control-Max-Age", "5");
  ("access-control-allow-METHODS", "PUT"); ("Access-Control-Allow-Origin", "a, b")]%string.
Example C72_ex : let '(m, _, r) := lint env0 None (TopResponse (u "1.1") (u "200") None) rest_sample [] true [] (new_linter MResponse None false false []) in
  r = Ok tt
  /\ heard (classes [SERVER_TOO_LONG]) [u "server_string"; u "server_length"] (m_notes m) = [(SERVER_TOO_LONG, at_offset 0, [text (u "aaaaaaaaaaaaaaaaaaaaaaaaaaaaaaaaaaaaaaaaaaaaaaaaaaaaaaaaaaaaaaaaaaaaaa"); text (u "70 bytes")])]
  /\ heard (classes [CHECK_POST_PRE]) [u "pre_check"; u "post_check"] (m_notes m) = [(CHECK_POST_PRE, about_field (u "cache-control"), [Some (VInt 7); Some (VInt 5)])]
  /\ about_preflights (m_notes m) = [plain_note MResponse "header-access-control-allow-headers" CORS_PREFLIGHT_ONLY [("headers", VStr (u "Access-Control-Allow-Methods, Access-Control-Max-Age"))]%string;
       plain_note MResponse "header-access-control-allow-origin" ACAO_MULTIPLE_VALUES []].
Proof. vm_compute. repeat split. Qed.
Example C72_ex_request : let '(m, _, r) := lint env0 None (TopRequest (u "GET") (u "/a") (u "1.1")) (raws [("Host", "a"); ("Access-Control-Request-Headers", "a")]%string) [] true [] (new_linter MRequest None false false []) in
  r = Ok tt
  /\ about_preflights (m_notes m) = [plain_note MRequest "method" CORS_PREFLIGHT_REQ_METHOD_WRONG [("field_name", VStr (u "Access-Control-Request-Method")); ("method", VStr (u "GET"))]%string;
       plain_note MRequest "field-origin" CORS_PREFLIGHT_REQ_NO_ORIGIN [("field_name", VStr (u "Access-Control-Request-Method"))]%string;
       plain_note MRequest "field-access-control-request-headers" CORS_PREFLIGHT_REQ_NO_METHOD [("field_name", VStr (u "Access-Control-Request-Headers"))]%string].
Proof. vm_compute. repeat split. Qed.
Example C72_hyp : hyphened (u "cache-control") rest_sample.
Proof. apply hyphened_dec. vm_compute. reflexivity. Qed.
