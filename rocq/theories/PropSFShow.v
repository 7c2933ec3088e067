(** * C66: what the structured fields' notes show. *)
From Coq Require Import Lia ZifyBool ZifyN QArith.
From Verif Require Import PyStr Regex Grammar NoteTable Note PyLib Utils FieldAttrs Types Fields1 Fields2 Fields3 Framework Checks Message
  EvLogic NoteLemmas TestEnv LexLemmas ParamLemmas NumLemmas PassParse Session SessionLemmas SecNotes SecValues LintLemmas FieldSpec PropFields PropValues PropNames PropParse PropTop PropCli OwnLemmas ListSpec PropLists PropCC ListExamples FieldExamples
  PropInts FieldDue OwnTac OwnMore CodingSpec PropCodings CookieSpec PropCookies PrefSpec PropPrefs PlainSpec PropPlain LinkSpec PropLink SFSpec PropSF SFShowSpec.
Open Scope N_scope.

Lemma as_value_ok b : bare_val b = as_value b. Proof. destruct b; reflexivity. Qed.
Lemma with_params_ok bp : item_val (fst bp) (snd bp) = with_params bp.
Proof.
  unfold item_val, with_params, params_val, mk_dict. rewrite as_value_ok. repeat f_equal. change (@nil (str * pyval)) with (map (fun kv : str * bare => (fst kv, bare_val (snd kv))) []). rewrite dupdate_map.
  apply map_ext. intros [k v]. cbn [fst snd]. rewrite as_value_ok. reflexivity.
Qed.
Lemma member_value_ok m : mem_head m = member_value m.
Proof. destruct m as [b p|l p]; cbn [mem_head member_value]; [apply as_value_ok|]. f_equal. apply map_ext. apply with_params_ok. Qed.
Lemma printed_item_ok e b : py_str e (bare_val b) = Ok (printed_item e b).
Proof. destruct b as [| | | | |[]| |]; reflexivity. Qed.
Lemma printed_ok e m : py_str e (mem_head m) = Ok (printed e m).
Proof. destruct m as [b p|l p]; cbn [printed]; [apply printed_item_ok|]. rewrite <- member_value_ok. reflexivity. Qed.

(** ** Deprecation *)
Theorem C66_deprecation : forall e rel top headers chunks complete trailers t start nc head base m' rel',
  lint e rel top headers chunks complete trailers (new_linter t start nc head base) = (m', rel', Ok tt) -> t <> MRequest ->
  exists due, (forall s, item_rule e (deprecation_says e start) s (due s))
    /\ heard (classes deprecation_classes) [u "date"; u "item_type"] (m_notes m') = sf_told "deprecation" due headers ++ sf_told "deprecation" due trailers.
Proof.
  intros e rel top headers chunks complete trailers t start nc head base m' rel' E Ht. eexists. split; [|apply (sf_due deprecation_classes [u "date"; u "item_type"] F_deprecation "deprecation" SFItem e rel top headers chunks complete trailers t start nc head base m' rel' E)].
  - intros s. apply sfe_item. intros b p d _. cbn [eval_item]. rewrite keep_fst. unfold ev_deprecation. cbn [cx_msg cx_env]. rewrite (lint_start _ _ _ _ _ _ _ _ _ _ _ _ _ _ E).
    destruct b as [z|q|x|x|x|[]|z|x]; try reflexivity. unfold deprecation_says. cbv zeta. unfold q_truthy. destruct start as [st|].
    + destruct (Qeq_bool st 0) eqn:Z0.
      * apply Qeq_bool_iff in Z0. right. split; [|reflexivity]. intros st' H. injection H as <-. exact Z0.
      * apply Qeq_bool_neq in Z0. left. exists st. split; [reflexivity|]. split; [exact Z0|]. unfold q_gt. destruct (Qle_bool (inject_Z z) st) eqn:L; cbn [negb].
        -- apply Qle_bool_iff in L. right. split; [exact L|reflexivity].
        -- left. split; [apply Qnot_le_lt; intros X; apply Qle_bool_iff in X; congruence|reflexivity].
    + right. split; [discriminate|reflexivity].
  - its_type.
  - reflexivity.
  - tame_all. unfold ev_deprecation. tms.
  - apply unhyphened; reflexivity.
  - apply unhyphened; reflexivity.
Qed.
Print Assumptions C66_deprecation.

(** ** Accept-Query *)
Notation qk := [u "value"; u "ref_uri"].
Lemma query_says_ok e m : (exists b, snd (query_one e m) = Ok b) /\ query_says e m (pairs (classes query_classes) qk (fst (query_one e m))).
Proof.
  split; [apply query_one_ok|]. unfold query_one. cbv zeta.
  assert (Bad : (forall s, ~ word_of m s) -> query_says e m (pairs (classes query_classes) qk (fst (s <- lift (py_str e (mem_head m)) ;; add_note ACCEPT_QUERY_BAD_TYPE [vs "value" s] ;;; ret (member_val m))))).
  { intros N. rewrite printed_ok, lift_ok. right. right. split; [exact N|reflexivity]. }
  assert (Good : forall s (v : pyval), word_of m s -> query_says e m (pairs (classes query_classes) qk (fst (check_media_type (lower s) (Some ACCEPT_QUERY_BAD_SYNTAX) (Some (ref_of F_accept_query)) true true ;;; ret v)))).
  { intros s v W. destruct (media_spec (lower s) (Some ACCEPT_QUERY_BAD_SYNTAX) (Some (ref_of F_accept_query)) true true) as [(ty & sub & l & b & M & -> & _)|[M ->]].
    - left. exists s, ty, sub. split; [exact W|]. split; [exact M|]. destruct l, b; reflexivity.
    - right. left. exists s. split; [exact W|]. split; [exact M|reflexivity]. }
  destruct m as [[z|q|x|x|x|b|z|x] p|l p]; cbn [mem_head bare_val] in *;
    try (apply Bad; intros s (p' & [H|H]); discriminate); apply Good; exists p; auto.
Qed.
Theorem C66_accept_query : forall e rel top headers chunks complete trailers t start nc head base m' rel',
  lint e rel top headers chunks complete trailers (new_linter t start nc head base) = (m', rel', Ok tt) -> t <> MRequest ->
  hyphened (u "accept-query") headers -> hyphened (u "accept-query") trailers ->
  exists due, (forall s, list_rule e (each (query_says e)) s (due s))
    /\ heard (classes query_classes) [u "value"; u "ref_uri"] (m_notes m') = sf_told "accept-query" due headers ++ sf_told "accept-query" due trailers.
Proof.
  intros e rel top headers chunks complete trailers t start nc head base m' rel' E Ht Y1 Y2. eexists. split; [|apply (sf_due query_classes qk F_accept_query "accept-query" SFList e rel top headers chunks complete trailers t start nc head base m' rel' E)].
  - intros s. apply sfe_list. intros ms d _. cbn [eval_list]. unfold ev_accept_query. cbn [cx_env].
    change (mapW _ ms) with (mapW (query_one e) ms).
    destruct (each_map (classes query_classes) qk (query_says e) (fun m => m) (query_one e) ms) as [(bs & M1) M2]; [intros m _; apply query_says_ok|]. rewrite map_id in M1, M2.
    destruct (mapW (query_one e) ms) as [l r]. cbn [fst snd] in M1, M2. subst r. cbn [bind ret fst]. rewrite app_nil_r. exact M2.
  - its_type.
  - reflexivity.
  - tame_all; unfold ev_accept_query; tms; apply tm_media.
  - exact Y1.
  - exact Y2.
Qed.
Print Assumptions C66_accept_query.

(** ** Reporting-Endpoints and Speculation-Rules *)
Notation uk := [u "name"; u "url"; u "value"; u "found_type"].
Lemma endpoint_says_ok c km : (forall s, is_string (snd km) s -> splits (cx_env c) (m_base (cx_msg c)) s) ->
  snd (endpoint_one c km) = Ok tt /\ url_says (cx_env c) (m_base (cx_msg c)) (Some (VStr (fst km))) ENDPOINT_NOT_SECURE BAD_REPORTING_ENDPOINT_SYNTAX (snd km) (pairs (classes endpoint_classes) uk (fst (endpoint_one c km))).
Proof.
  intros Hs. split; [apply endpoint_one_ok, Hs|]. unfold endpoint_one.
  assert (Bad : (forall s, ~ is_string (snd km) s) -> url_says (cx_env c) (m_base (cx_msg c)) (Some (VStr (fst km))) ENDPOINT_NOT_SECURE BAD_REPORTING_ENDPOINT_SYNTAX (snd km)
     (pairs (classes endpoint_classes) uk (fst (add_note BAD_REPORTING_ENDPOINT_SYNTAX [vs "name" (fst km); vv "value" (mem_head (snd km)); vs "found_type" (type_name (mem_head (snd km)))])))).
  { intros N. right. split; [exact N|]. rewrite type_name_kind, member_value_ok. reflexivity. }
  destruct (mem_head (snd km)) eqn:M; try (apply Bad; intros s0 H; apply head_string in H; congruence).
  apply head_string in M. destruct (not_secure_ok c s (Hs s M)) as (b & -> & Hb). rewrite lift_ok. left. exists s. split; [exact M|].
  destruct b; [left; split; [apply Hb; reflexivity|reflexivity]|right; split; [intros X; apply Hb in X; discriminate|reflexivity]].
Qed.
Theorem C66_reporting_endpoints : forall e rel top headers chunks complete trailers t start nc head base m' rel',
  lint e rel top headers chunks complete trailers (new_linter t start nc head base) = (m', rel', Ok tt) -> t <> MRequest ->
  hyphened (u "reporting-endpoints") headers -> hyphened (u "reporting-endpoints") trailers ->
  exists due, (forall s, dict_rule e (fun d l => urls_split e (m_base m') (map snd d)
      -> each (fun km => url_says e (m_base m') (Some (VStr (fst km))) ENDPOINT_NOT_SECURE BAD_REPORTING_ENDPOINT_SYNTAX (snd km)) d l) s (due s))
    /\ heard (classes endpoint_classes) [u "name"; u "url"; u "value"; u "found_type"] (m_notes m') = sf_told "reporting-endpoints" due headers ++ sf_told "reporting-endpoints" due trailers.
Proof.
  intros e rel top headers chunks complete trailers t start nc head base m' rel' E Ht Y1 Y2. eexists. split; [|apply (sf_due endpoint_classes uk F_reporting_endpoints "reporting-endpoints" SFDict e rel top headers chunks complete trailers t start nc head base m' rel' E)].
  - intros s. unfold dict_rule, sfe, sf_events. destruct (e_sf_dict e s) as [ms d| |]; [|reflexivity..]. intros U. cbn [eval_dict]. rewrite keep_fst. unfold ev_reporting_endpoints.
    change (iterW _ (dupdate [] ms)) with (iterW (endpoint_one (mkCx e m' rel)) (dupdate [] ms)). apply each_iter. intros km Hkm. apply (endpoint_says_ok (mkCx e m' rel)). intros s0 Hs. cbn [cx_env cx_msg]. apply (U (snd km)); [apply in_map, Hkm|exact Hs].
  - its_type.
  - reflexivity.
  - tame_all; unfold ev_reporting_endpoints; tms.
  - exact Y1.
  - exact Y2.
Qed.
Print Assumptions C66_reporting_endpoints.
Lemma rule_says_ok c m : (forall s, is_string m s -> splits (cx_env c) (m_base (cx_msg c)) s) ->
  snd (rule_one c m) = Ok tt /\ url_says (cx_env c) (m_base (cx_msg c)) None SPECULATION_RULE_NOT_SECURE SPECULATION_RULES_BAD_TYPE m (pairs (classes rules_classes) uk (fst (rule_one c m))).
Proof.
  intros Hs. split; [apply rule_one_ok, Hs|]. unfold rule_one.
  assert (Bad : (forall s, ~ is_string m s) -> url_says (cx_env c) (m_base (cx_msg c)) None SPECULATION_RULE_NOT_SECURE SPECULATION_RULES_BAD_TYPE m
     (pairs (classes rules_classes) uk (fst (add_note SPECULATION_RULES_BAD_TYPE [vv "value" (mem_head m); vs "found_type" (type_name (mem_head m))])))).
  { intros N. right. split; [exact N|]. rewrite type_name_kind, member_value_ok. reflexivity. }
  destruct (mem_head m) eqn:M; try (apply Bad; intros s0 H; apply head_string in H; congruence).
  apply head_string in M. destruct (not_secure_ok c s (Hs s M)) as (b & -> & Hb). rewrite lift_ok. left. exists s. split; [exact M|].
  destruct b; [left; split; [apply Hb; reflexivity|reflexivity]|right; split; [intros X; apply Hb in X; discriminate|reflexivity]].
Qed.
Theorem C66_speculation_rules : forall e rel top headers chunks complete trailers t start nc head base m' rel',
  lint e rel top headers chunks complete trailers (new_linter t start nc head base) = (m', rel', Ok tt) -> t <> MRequest ->
  hyphened (u "speculation-rules") headers -> hyphened (u "speculation-rules") trailers ->
  exists due, (forall s, list_rule e (fun ms l => urls_split e (m_base m') ms
      -> each (url_says e (m_base m') None SPECULATION_RULE_NOT_SECURE SPECULATION_RULES_BAD_TYPE) ms l) s (due s))
    /\ heard (classes rules_classes) [u "name"; u "url"; u "value"; u "found_type"] (m_notes m') = sf_told "speculation-rules" due headers ++ sf_told "speculation-rules" due trailers.
Proof.
  intros e rel top headers chunks complete trailers t start nc head base m' rel' E Ht Y1 Y2. eexists. split; [|apply (sf_due rules_classes uk F_speculation_rules "speculation-rules" SFList e rel top headers chunks complete trailers t start nc head base m' rel' E)].
  - intros s. unfold list_rule, sfe, sf_events. destruct (e_sf_list e s) as [ms d| |]; [|reflexivity..]. intros U. cbn [eval_list]. rewrite keep_fst. unfold ev_speculation_rules.
    change (iterW _ ms) with (iterW (rule_one (mkCx e m' rel)) ms). apply each_iter. intros m Hm. apply (rule_says_ok (mkCx e m' rel)). intros s0 Hs. cbn [cx_env cx_msg]. apply (U m); [exact Hm|exact Hs].
  - its_type.
  - reflexivity.
  - tame_all; unfold ev_speculation_rules; tms.
  - exact Y1.
  - exact Y2.
Qed.
Print Assumptions C66_speculation_rules.

(** ** CDN-Cache-Control *)
Notation ck := [u "bad_directive"; u "expected_type"].
Lemma cdn_says_ok km : snd (cdn_one km) = Ok tt /\ directive_says km (pairs (classes cdn_classes) ck (fst (cdn_one km))).
Proof.
  split; [apply cdn_one_ok|]. unfold cdn_one, directive_says. cbv zeta. pose proof (known_kinds (lower (fst km))) as K. pose proof (yes_head (snd km)) as Y. pose proof (number_head (snd km)) as Nu. pose proof (is_str_string (snd km)) as St.
  destruct (dget (lower (fst km)) known_cc) as [[[a b] []]|]; destruct K as (K1 & K2 & K3); rewrite K1, K2, K3.
  - destruct (is_true (mem_head (snd km))) eqn:T.
    + right. right. right. split; [intros _; apply Y; reflexivity|]. split; [discriminate|]. split; [discriminate|reflexivity].
    + left. split; [reflexivity|]. split; [rewrite <- Y; discriminate|reflexivity].
  - destruct (is_int (mem_head (snd km))) eqn:T.
    + right. right. right. split; [discriminate|]. split; [intros _; apply Nu; reflexivity|]. split; [discriminate|reflexivity].
    + right. left. split; [reflexivity|]. split; [rewrite <- Nu; discriminate|reflexivity].
  - change (str_in (lower (fst km)) [u "no-cache"; u "private"]) with (one_of text_directives (lower (fst km))). rewrite K3, andb_true_r.
    destruct (is_str (mem_head (snd km))) eqn:S; cbn [negb andb].
    + right. right. right. split; [discriminate|]. split; [discriminate|]. split; [intros _; right; apply St; reflexivity|reflexivity].
    + destruct (is_true (mem_head (snd km))) eqn:T; cbn [negb].
      * right. right. right. split; [discriminate|]. split; [discriminate|]. split; [intros _; left; apply Y; reflexivity|reflexivity].
      * right. right. left. split; [reflexivity|]. split; [rewrite <- Y; discriminate|]. split; [apply not_string, S|reflexivity].
  - right. right. right. repeat (split; [discriminate|]). reflexivity.
Qed.
Theorem C66_cdn_cache_control : forall e rel top headers chunks complete trailers t start nc head base m' rel',
  lint e rel top headers chunks complete trailers (new_linter t start nc head base) = (m', rel', Ok tt) -> t <> MRequest ->
  hyphened (u "cdn-cache-control") headers -> hyphened (u "cdn-cache-control") trailers ->
  exists due, (forall s, dict_rule e cdn_says s (due s))
    /\ heard (classes cdn_classes) [u "bad_directive"; u "expected_type"] (m_notes m') = sf_told "cdn-cache-control" due headers ++ sf_told "cdn-cache-control" due trailers.
Proof.
  intros e rel top headers chunks complete trailers t start nc head base m' rel' E Ht Y1 Y2. eexists. split; [|apply (sf_due cdn_classes ck F_cdn_cache_control "cdn-cache-control" SFDict e rel top headers chunks complete trailers t start nc head base m' rel' E)].
  - intros s. apply sfe_dict. intros ms d _. cbn [eval_dict]. rewrite keep_fst. unfold ev_cdn_cache_control. rewrite pairs_bind by reflexivity.
    change (iterW _ (dupdate [] ms)) with (iterW cdn_one (dupdate [] ms)). eexists. split; [reflexivity|]. apply each_iter. intros km _. apply cdn_says_ok.
  - its_type.
  - reflexivity.
  - tame_all; unfold ev_cdn_cache_control; tms.
  - exact Y1.
  - exact Y2.
Qed.
Print Assumptions C66_cdn_cache_control.

(** ** Use-As-Dictionary *)
Notation dk := [u "param"; u "expected"; u "got"].
Lemma use_says_ok km : snd (use_one km) = Ok tt /\ use_says km (pairs (classes dictionary_classes) dk (fst (use_one km))).
Proof.
  split; [apply use_one_ok|]. unfold use_one, use_says. cbv zeta. change (str_in (fst km) [u "match"; u "id"; u "type"]) with (one_of ["match"; "id"; "type"]%string (fst km)).
  pose proof (is_str_string (snd km)) as St. pose proof (not_string (snd km)) as Ns. pose proof (number_head (snd km)) as Nu. pose proof (destinations_ok (snd km)) as De.
  unfold told1. rewrite <- (type_name_kind (snd km)), <- (member_value_ok (snd km)).
  destruct (one_of ["match"; "id"; "type"]%string (fst km)) eqn:O.
  - left. split; [reflexivity|]. unfold uad_check. destruct (is_str (mem_head (snd km))) eqn:S; [left; split; [apply St; reflexivity|reflexivity]|right; split; [apply Ns; reflexivity|reflexivity]].
  - destruct (str_eqb (fst km) (u "match-dest")) eqn:M.
    + right. right. left. apply str_eqb_eq in M. split; [exact M|]. destruct (match snd km with MItem (BStr _) _ => true | MInner l _ => _ | _ => false end); cbn [negb when].
      * left. split; [apply De; reflexivity|reflexivity].
      * right. split; [intros X; apply De in X; discriminate|reflexivity].
    + destruct (str_eqb (fst km) (u "ttl")) eqn:T.
      * right. left. apply str_eqb_eq in T. split; [exact T|]. unfold uad_check. destruct (is_int (mem_head (snd km))); cbn [negb when].
        -- left. split; [apply Nu; reflexivity|reflexivity].
        -- right. split; [intros X; apply Nu in X; discriminate|reflexivity].
      * right. right. right. split; [|reflexivity]. unfold one_of in *. cbn [existsb] in *. rewrite !orb_false_iff in *. intuition.
Qed.
Theorem C66_use_as_dictionary : forall e rel top headers chunks complete trailers t start nc head base m' rel',
  lint e rel top headers chunks complete trailers (new_linter t start nc head base) = (m', rel', Ok tt) -> t <> MRequest ->
  hyphened (u "use-as-dictionary") headers -> hyphened (u "use-as-dictionary") trailers ->
  exists due, (forall s, dict_rule e (each use_says) s (due s))
    /\ heard (classes dictionary_classes) [u "param"; u "expected"; u "got"] (m_notes m') = sf_told "use-as-dictionary" due headers ++ sf_told "use-as-dictionary" due trailers.
Proof.
  intros e rel top headers chunks complete trailers t start nc head base m' rel' E Ht Y1 Y2. eexists. split; [|apply (sf_due dictionary_classes dk F_use_as_dictionary "use-as-dictionary" SFDict e rel top headers chunks complete trailers t start nc head base m' rel' E)].
  - intros s. apply sfe_dict. intros ms d _. cbn [eval_dict]. rewrite keep_fst. unfold ev_use_as_dictionary.
    change (iterW _ (dupdate [] ms)) with (iterW use_one (dupdate [] ms)). apply each_iter. intros km _. apply use_says_ok.
  - its_type.
  - reflexivity.
  - tame_all; unfold ev_use_as_dictionary; tms; unfold uad_check; tms.
  - exact Y1.
  - exact Y2.
Qed.
Print Assumptions C66_use_as_dictionary.

(** ** Cache-Status and Proxy-Status *)
Notation sk := [u "param"; u "value"; u "status"].
(** The table of texts agrees with the code's. *)
Definition agree_text (a : str * known_param) (b : string * (option string * option string * list (string * string))) : Prop :=
  fst a = u (fst b) /\ kp_vdesc (snd a) = match fst (fst (snd b)) with None => Some (map (fun x => (u (fst x), snd x)) (snd (snd b))) | Some _ => None end
  /\ match fst (fst (snd b)) with None => True | Some p => kp_desc (snd a) = Some (p, snd (fst (snd b))) end.
Lemma lookup_texts n known (texts : text_table) : Forall2 agree_text known texts ->
  match dget n known, lookup n texts with Some kp, Some row => exists k, agree_text (n, kp) (k, row) | None, None => True | _, _ => False end.
Proof.
  unfold lookup. induction 1 as [|[k kp] [k' row] known texts A F IH]; [exact I|]. cbn [dget find fst]. pose proof A as A0. destruct A as (A1 & _). cbn [fst snd] in A1. subst k. destruct (str_eqb n (u k')) eqn:Q; [|exact IH].
  apply str_eqb_eq in Q. subst n. cbn [snd]. exists k'. exact A0.
Qed.
Lemma lookup_tab n known (tab : param_table) : Forall2 agree known tab ->
  match dget n known, lookup n tab with Some kp, Some row => exists k, agree (n, kp) (k, row) | None, None => True | _, _ => False end.
Proof.
  unfold lookup. induction 1 as [|[k kp] [k' row] known tab A F IH]; [exact I|]. cbn [dget find fst]. pose proof A as A0. destruct A as (A1 & _). cbn [fst snd] in A1. subst k. destruct (str_eqb n (u k')) eqn:Q; [|exact IH].
  apply str_eqb_eq in Q. subst n. cbn [snd]. exists k'. exact A0.
Qed.
Lemma lookup_map s (l : list (string * string)) : dget s (map (fun x => (u (fst x), snd x)) l) = lookup s l.
Proof. unfold lookup. induction l as [|[a b] l IH]; [reflexivity|]. cbn [map dget find fst]. destruct (str_eqb s (u a)); [reflexivity|exact IH]. Qed.
Lemma bind_said {A} P (n : nid) v (w : W A) x : w = ret x -> P n = true ->
  snd (bind (add_note n v) (fun _ => w)) = Ok x /\ pairs P sk (fst (bind (add_note n v) (fun _ => w))) = [(n, map (fun k => dlast k v) sk)].
Proof. intros -> H. split; [reflexivity|]. cbn [bind add_note tell ret fst app pairs flat_map pair_of]. rewrite H. reflexivity. Qed.
Lemma param_says_ok (P : nid -> bool) e known tab texts flags unk bad kv :
  Forall2 agree known tab -> Forall2 agree_text known texts -> unshown known flags -> P unk = true -> P bad = true -> (snd kv = BBool false -> one_of flags (fst kv) = false) ->
  exists line, snd (check_sf_param e known unk bad (fst kv, bare_val (snd kv))) = Ok line
  /\ param_says e tab texts unk bad kv (pairs P sk (fst (check_sf_param e known unk bad (fst kv, bare_val (snd kv))))) line.
Proof.
  intros F G U P1 P2 Hb. destruct kv as [n b]. cbn [fst snd] in *. unfold check_sf_param, param_says. cbn [fst snd]. pose proof (lookup_tab n _ _ F) as A. pose proof (lookup_texts n _ _ G) as T.
  rewrite printed_item_ok. cbn [rmap]. unfold param_text. cbn [fst snd].
  assert (L : code_line n (printed_item e b) = literally e (n, b)) by reflexivity. rewrite L. set (ln := literally e (n, b)) in *. clearbody ln. clear L.
  destruct (dget n known) as [kp|] eqn:D; destruct (lookup n tab) as [row|]; try destruct A; destruct (lookup n texts) as [tx|]; try destruct T.
  - destruct row as [types vals]. match goal with H : agree _ _ |- _ => rename H into A0 end. match goal with H : agree_text _ _ |- _ => rename H into T0 end.
    destruct A0 as (_ & A1 & A2 & A3 & A4). cbn [fst snd] in A1, A2, A3, A4. destruct T0 as (_ & T1 & T2). cbn [fst snd] in T1, T2.
    pose proof (allowed_eq _ _ _ b A1 A2 A3 A4) as Al.
    destruct (nonempty (kp_types kp) && negb (existsb (fun t => isinst t (bare_val b)) (kp_types kp))) eqn:B1.
    { destruct (bind_said P bad [(k_param, VStr n); (k_value, bare_val b)] (lift (Ok ln)) ln eq_refl P2) as [Q1 Q2]. exists ln. split; [exact Q1|]. right. split; [intros X; apply Al in X as [X _]; discriminate|]. split; [exact Q2|reflexivity]. }
    destruct (nonempty (kp_values kp) && negb (existsb (eq_text (bare_val b)) (kp_values kp))) eqn:B2.
    { destruct (bind_said P bad [(k_param, VStr n); (k_value, bare_val b)] (lift (Ok ln)) ln eq_refl P2) as [Q1 Q2]. exists ln. split; [exact Q1|]. right. split; [intros X; apply Al in X as [_ X]; discriminate|]. split; [exact Q2|reflexivity]. }
    assert (R : forall (w : W str) line, w = ret line -> (exists line0, snd w = Ok line0 /\ (allowed types vals b /\ pairs P sk (fst w) = [] /\ line0 = line \/ ~ allowed types vals b /\ pairs P sk (fst w) = [(bad, [Some (VStr n); Some (as_value b); None])] /\ line0 = ln))).
    { intros w line ->. exists line. split; [reflexivity|]. left. split; [apply Al; auto|]. split; reflexivity. }
    apply R. destruct tx as [[[p|] q] vals']; cbn [fst snd] in T1, T2; rewrite T1.
    + rewrite T2. destruct (bare_val b) as [| [] | | | | | | | | | | | | | |] eqn:Bv; cbv beta iota;
        try (destruct q as [q|]; [cbn [fmt_desc]; rewrite <- ?Bv, printed_item_ok; cbn [rmap]; destruct b as [| | | | |[]| |]; try discriminate Bv; reflexivity|]; destruct (U n kp p D T1 T2) as [U1 U2]; exfalso; rewrite U2 in B1; cbn in B1; discriminate B1).
      * assert (Eb : b = BBool true) by (destruct b; cbn [bare_val] in Bv; try discriminate Bv; congruence). subst b. destruct q; reflexivity.
      * assert (Eb : b = BBool false) by (destruct b; cbn [bare_val] in Bv; try discriminate Bv; congruence). subst b. destruct q as [q|]; [reflexivity|]. destruct (U n kp p D T1 T2) as [U1 U2]. rewrite (Hb eq_refl) in U1. discriminate.
    + destruct b; cbn [bare_val str_of]; rewrite ?lookup_map; try reflexivity; destruct (lookup s vals'); reflexivity.
  - destruct (bind_said P unk [(k_param, VStr n)] (lift (Ok ln)) ln eq_refl P1) as [Q1 Q2]. exists ln. split; [exact Q1|]. split; [exact Q2|reflexivity].
Qed.
Lemma each_said {A B C} P ks (R : A -> list (nid * list (option pyval)) -> C -> Prop) (h : A -> B) (g : B -> W C) l :
  (forall a, In a l -> exists c, snd (g (h a)) = Ok c /\ R a (pairs P ks (fst (g (h a)))) c) ->
  exists said, snd (mapW g (map h l)) = Ok (map snd said) /\ pairs P ks (fst (mapW g (map h l))) = concat (map fst said) /\ Forall2 (fun a x => R a (fst x) (snd x)) l said.
Proof.
  induction l as [|a l IH]; intros H; [exists []; repeat split; constructor|]. destruct IH as (said & I1 & I2 & I3); [intros; apply H; right; assumption|]. destruct (H a (or_introl eq_refl)) as (c & H1 & H2).
  cbn [map mapW]. destruct (g (h a)) as [l1 r1]. cbn [fst snd] in H1, H2. subst r1. destruct (mapW g (map h l)) as [l2 r2]. cbn [fst snd] in I1, I2. subst r2.
  exists ((pairs P ks l1, c) :: said). unfold bind, ret. cbn [fst snd app map concat]. split; [reflexivity|]. split; [rewrite app_nil_r, pairs_app, I2; reflexivity|]. constructor; [exact H2|exact I3].
Qed.
Lemma target_ok e m : target_text e (mem_head m) = Ok (target e m).
Proof. destruct m as [[| | | | |[]| |] p|l p]; try reflexivity. cbn [target]. rewrite <- (printed_ok e (MInner l p)). reflexivity. Qed.
Lemma status_says_ok P c known tab texts flags present unk bad ms : Forall2 agree known tab -> Forall2 agree_text known texts -> unshown known flags -> P present = true -> P unk = true -> P bad = true -> shown flags ms ->
  status_says (cx_env c) tab texts present unk bad ms (pairs P sk (fst (ev_status_list c known present unk bad ms))).
Proof.
  intros F F2 U P0 P1 P2 Sh. unfold ev_status_list. set (g := fun m => _ : W str).
  assert (G : forall m, In m ms -> exists y, snd (g m) = Ok y /\ member_says (cx_env c) tab texts unk bad m (pairs P sk (fst (g m))) y).
  { intros m Hm. unfold g. rewrite target_ok, lift_ok. unfold check_sf_params. rewrite params_attributes.
    destruct (each_said P sk (param_says (cx_env c) tab texts unk bad) (fun kv => (fst kv, bare_val (snd kv))) (check_sf_param (cx_env c) known unk bad) (attributes m)) as (said & M1 & M2 & M3).
    { intros [k v] Hkv. apply (param_says_ok P (cx_env c) known tab texts flags unk bad (k, v)); auto. cbn [fst snd]. intros ->. apply (Sh m k Hm Hkv). }
    destruct (mapW _ _) as [l r]. cbn [fst snd] in M1, M2. subst r. unfold bind, ret. cbn [fst snd]. eexists. split; [reflexivity|]. rewrite !app_nil_r. exists said. split; [exact M3|]. split; [exact M2|reflexivity]. }
  destruct (each_said P sk (member_says (cx_env c) tab texts unk bad) (fun m => m) g ms G) as (said & M1 & M2 & M3). rewrite map_id in M1, M2.
  exists said. split; [exact M3|]. rewrite <- M2. change (mapW _ ms) with (mapW g ms).
  destruct (mapW g ms) as [l r]. cbn [fst snd] in M1 |- *. subst r. unfold bind. destruct M3 as [|m x ms said M3 M4].
  - change (pairs P sk (l ++ []) = pairs P sk l ++ []). rewrite !app_nil_r. reflexivity.
  - cbn [map nonempty when]. change (when true ?w) with w. cbn [add_note tell fst]. rewrite pairs_app. f_equal. cbn [pairs flat_map pair_of map app]. rewrite P0. reflexivity.
Qed.
Lemma cache_texts_agree : Forall2 agree_text cache_status_params cache_texts.
Proof. repeat (apply Forall2_cons; [split; [reflexivity|]; split; [reflexivity|]; cbv; try reflexivity; exact I|]). apply Forall2_nil. Qed.
Lemma proxy_texts_agree : Forall2 agree_text proxy_status_params proxy_texts.
Proof. repeat (apply Forall2_cons; [split; [reflexivity|]; split; [reflexivity|]; cbv; try reflexivity; exact I|]). apply Forall2_nil. Qed.
Theorem C66_cache_status : forall e rel top headers chunks complete trailers t start nc head base m' rel',
  lint e rel top headers chunks complete trailers (new_linter t start nc head base) = (m', rel', Ok tt) -> t <> MRequest ->
  hyphened (u "cache-status") headers -> hyphened (u "cache-status") trailers ->
  exists due, (forall s, list_rule e (fun ms l => shown ["hit"; "stored"; "collapsed"]%string ms -> status_says e cache_table cache_texts CACHE_STATUS CACHE_STATUS_UNKNOWN_PARAM CACHE_STATUS_BAD_PARAM_VAL ms l) s (due s))
    /\ heard (classes cache_classes) [u "param"; u "value"; u "status"] (m_notes m') = sf_told "cache-status" due headers ++ sf_told "cache-status" due trailers.
Proof.
  intros e rel top headers chunks complete trailers t start nc head base m' rel' E Ht Y1 Y2. eexists. split; [|apply (sf_due cache_classes sk F_cache_status "cache-status" SFList e rel top headers chunks complete trailers t start nc head base m' rel' E)].
  - intros s. unfold list_rule, sfe, sf_events. destruct (e_sf_list e s) as [ms d| |]; [|reflexivity..]. intros Sh. cbn [eval_list]. rewrite keep_fst.
    apply (status_says_ok (classes cache_classes) (mkCx e m' rel) _ _ _ _ _ _ _ ms cache_agree cache_texts_agree cache_unshown); auto.
  - its_type.
  - reflexivity.
  - tame_all; unfold ev_cache_status, ev_status_list, check_sf_params; tms; apply tm_sf_param.
  - exact Y1.
  - exact Y2.
Qed.
Print Assumptions C66_cache_status.
Theorem C66_proxy_status : forall e rel top headers chunks complete trailers t start nc head base m' rel',
  lint e rel top headers chunks complete trailers (new_linter t start nc head base) = (m', rel', Ok tt) -> t <> MRequest ->
  hyphened (u "proxy-status") headers -> hyphened (u "proxy-status") trailers ->
  exists due, (forall s, list_rule e (status_says e proxy_table proxy_texts PROXY_STATUS PROXY_STATUS_UNKNOWN_PARAM PROXY_STATUS_BAD_PARAM_VAL) s (due s))
    /\ heard (classes proxy_classes) [u "param"; u "value"; u "status"] (m_notes m') = sf_told "proxy-status" due headers ++ sf_told "proxy-status" due trailers.
Proof.
  intros e rel top headers chunks complete trailers t start nc head base m' rel' E Ht Y1 Y2. eexists. split; [|apply (sf_due proxy_classes sk F_proxy_status "proxy-status" SFList e rel top headers chunks complete trailers t start nc head base m' rel' E)].
  - intros s. apply sfe_list. intros ms d _. cbn [eval_list]. rewrite keep_fst.
    apply (status_says_ok (classes proxy_classes) (mkCx e m' rel) _ _ _ _ _ _ _ ms proxy_agree proxy_texts_agree proxy_unshown); auto. intros m k _ _. reflexivity.
  - its_type.
  - reflexivity.
  - tame_all; unfold ev_proxy_status, ev_status_list, check_sf_params; tms; apply tm_sf_param.
  - exact Y1.
  - exact Y2.
Qed.
Print Assumptions C66_proxy_status.

(** ** Example *)
Definition show_vars : list str := map u ["date"; "item_type"; "value"; "name"; "url"; "found_type"; "bad_directive"; "expected_type"; "param"; "expected"; "got"; "status"]%string.
Definition briefly (x : nid * str * list (option pyval)) : nid * list pyval := (fst (fst x), flat_map (fun v => match v with Some v => [v] | None => [] end) (snd x)).
Example C66_ex : let '(m, _, r) := lint ex_env None (TopResponse (u "1.1") (u "200") None) ex_lines [] true [] (new_linter MResponse (Some 5%Q) false false []) in
  r = Ok tt /\ map briefly (heard (classes (query_classes ++ rules_classes ++ endpoint_classes ++ cdn_classes ++ dictionary_classes ++ cache_classes ++ proxy_classes)) show_vars (m_notes m)) =
    [(ACCEPT_QUERY_BAD_SYNTAX, [VStr (u "a")]); (ACCEPT_QUERY_BAD_TYPE, [VStr (u "7")]); (ACCEPT_QUERY_BAD_SYNTAX, [VStr (u "b")]);
     (SPECULATION_RULE_NOT_SECURE, [VStr (u "http://x")]); (SPECULATION_RULES_BAD_TYPE, [VToken (u "y"); VStr (u "Token")]);
     (ENDPOINT_NOT_SECURE, [VStr (u "a"); VStr (u "http://x")]); (BAD_REPORTING_ENDPOINT_SYNTAX, [VToken (u "c"); VStr (u "b"); VStr (u "Token")]);
     (CDN_CACHE_CONTROL_PRESENT, []); (BAD_CDN_CC_TYPE, [VStr (u "public"); VStr (u "no value")]);
     (USE_AS_DICTIONARY_BAD_TYPE, [VToken (u "m"); VStr (u "str"); VStr (u "Token")]); (USE_AS_DICTIONARY_BAD_MATCH_DEST, [VStr (u "list")]);
     (CACHE_STATUS_BAD_PARAM_VAL, [VToken (u "gone"); VStr (u "fwd")]); (CACHE_STATUS_UNKNOWN_PARAM, [VStr (u "x")]);
     (CACHE_STATUS, [VStr (u "**c**:" ++ [10] ++ u "* The response was served from the cache." ++ [10] ++ u "* `fwd`: `gone`" ++ [10] ++ u "* `x`: `1`")]);
     (PROXY_STATUS, [VStr (u "**p**:" ++ [10] ++ u "* `error`: `e`" ++ [10] ++ u "* The received status code was %s.")])].
Proof. vm_compute. repeat split. Qed.
