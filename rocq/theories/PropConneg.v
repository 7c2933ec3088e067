(** * C58: Accept-CH, Available-Dictionary and Content-Encoding. *)
From Coq Require Import Lia QArith.
From Verif Require Import PyStr Regex Grammar NoteTable Note PyLib Utils FieldAttrs Types Fields1 Fields2 Fields3 Framework Checks Message
  EvLogic NoteLemmas TestEnv LexLemmas ParamLemmas NumLemmas NameLemmas FrameLemmas ContentLemmas BodyLemmas PassParse PassEval PassFrame PassSec PassProc PassRun Session SessionLemmas
  SectionLemmas SecNotes SecValues LintLemmas FieldSpec PropFields PropValues PropNames PropParse OwnLemmas ListSpec PropLists PropCC ListExamples FieldExamples PropInts FieldDue OwnTac OwnMore KidSpec OwnFull
  PlainSpec CodingSpec PropCodings PrefSpec PropPrefs SFSpec PropSF GroupRun GroupPost PermissionsSpec IsolationSpec PropIsolation PropHsts EndLemmas ConnegSpec.
Open Scope N_scope.

(** ** A field on its own *)
Lemma alone_about cs ks f (k : string) e rel top headers chunks complete trailers t start nc head base m' rel' :
  lint e rel top headers chunks complete trailers (new_linter t start nc head base) = (m', rel', Ok tt) ->
  group_b cs [f] f (u k) && match fa_canon (attrs f) with Some _ => true | None => false end && str_eqb (subj_of f) (about_field (u k)) = true ->
  (exists ty, kind_of f = KSF ty) -> plain_eval f ->
  heard (classes cs) ks (m_notes m') = heard (classes cs) ks (about k (m_notes m')).
Proof.
  intros E Ho Hk Hp. apply andb_prop in Ho as [Ho Hs]. apply andb_prop in Ho as [Ho Hc].
  assert (A : forall n, In n (m_notes m') -> classes cs (n_cls n) = true -> In (n_subj n) (map subj_of [f])).
  { apply (group_only cs [f] e rel top headers chunks complete trailers t start nc head base m' rel' f (u k) E); [|constructor; [assumption|constructor]..].
    rewrite Ho. cbn [forallb]. rewrite Hc. reflexivity. }
  apply str_eqb_eq in Hs. unfold heard, about. f_equal. revert A. generalize (m_notes m'). intros l. induction l as [|n l IH]; intros A; [reflexivity|].
  cbn [filter]. specialize (IH (fun x Hx => A x (or_intror Hx))). destruct (classes cs (n_cls n)) eqn:C.
  - destruct (A n (or_introl eq_refl) C) as [X|[]]. rewrite <- X, Hs, str_eqb_refl. cbn [filter]. rewrite C, IH. reflexivity.
  - destruct (str_eqb _ _); cbn [filter]; rewrite ?C; exact IH.
Qed.
Lemma module_b f : existsb (fname_eqb f) module_fields = true -> In f module_fields.
Proof. intros H. apply existsb_exists in H as (g & Hg & H). apply fname_eqb_eq in H. subst g. exact Hg. Qed.
(** ** Vary *)
Lemma vary_list e t start base hs ts m' r : t <> MRequest -> run_of e t start base hs ts m' -> unpadded (u "vary") hs ->
  exists l, hdr_list (mkCx e m' r) "vary" = VList (map VStr l) /\ forall s, str_in s l = varied hs s.
Proof.
  intros Ht R U. pose proof (C31_value e t start base hs ts m' false Ht R U) as V. cbn [section_lines] in V. cbv zeta in V. unfold value_in in V. unfold hdr_list, hdr. cbn [cx_msg]. cbn [sec] in V.
  match type of V with ?x = _ => match goal with |- exists l, match ?y with _ => _ end = _ /\ _ => change y with x end end. rewrite V. unfold varied. destruct (values (u "vary") hs) as [|v0 vs0] eqn:Ev; cbn [nonempty].
  - exists []. split; [reflexivity|]. intros s. reflexivity.
  - eexists. split; [reflexivity|]. intros s. apply Bool.eq_iff_eq_true. rewrite !str_in_In. rewrite <- once_dedup. apply dedup_In.
Qed.
Lemma storable_b e m r : cacheable (mkCx e m r) = true <-> storable m.
Proof.
  unfold cacheable, storable. cbn [cx_msg]. destruct (m_caching m) as [k|]; split.
  - intros H. exists k. split; [reflexivity|]. apply orb_prop in H. exact H.
  - intros (k' & H & [X|X]); injection H as <-; rewrite X; [reflexivity|apply orb_true_r].
  - discriminate.
  - intros (k' & H & _). discriminate.
Qed.
(** The related request's URI does not change. *)
Lemma rel_uri e rel top headers chunks complete trailers t start nc head base m' rel' :
  lint e rel top headers chunks complete trailers (new_linter t start nc head base) = (m', rel', Ok tt) -> plain_http rel' <-> plain_http rel.
Proof.
  intros E. assert (X : rel' = rel \/ exists l, rel' = option_map (m_emit l) rel).
  { destruct t.
    - left. apply (lint_request _ _ _ _ _ _ _ _ _ _ _ _ _ E).
    - right. destruct (lint_response _ _ _ _ _ _ _ _ _ _ _ _ _ E) as (lp & lc & lreq & k & ls & _ & _ & _ & _ & H & _). eauto.
    - left. destruct (lint_end_ok (fun _ => false) _ _ _ _ _ _ _ _ _ _ _ _ _ _ ltac:(red; repeat split; reflexivity) ltac:(red; reflexivity) ltac:(red; reflexivity) ltac:(red; reflexivity) E) as (m2 & m3 & X & F2 & F3 & T & E4 & _).
      unfold post_checks in E4. rewrite T in E4. injection E4 as _ <-. reflexivity. }
  destruct X as [->|(l & ->)]; [tauto|]. unfold plain_http. destruct rel as [r|]; cbn [option_map]; [|split; intros (x & w & rest & H & _); discriminate].
  split; intros (x & w & rest & H & Hu & Hl); injection H as <-; [exists r, w, rest|exists (m_emit l r), w, rest]; auto.
Qed.
(** ** Accept-CH *)
Lemma ch_plain : plain_eval F_accept_ch. Proof. simple_eval; unfold ev_accept_ch; tms. Qed.
Lemma hint_head m : Fields1.is_token (mem_head m) = true <-> hint_token m.
Proof.
  unfold hint_token. destruct m as [b p|l p].
  - destruct b; cbn [mem_head bare_val Fields1.is_token]; split; intros H; try discriminate H; try (destruct H as (s0 & q0 & H); discriminate H); eauto.
  - cbn [mem_head Fields1.is_token]. split; [discriminate|]. intros (s0 & q0 & H); discriminate H.
Qed.
Lemma hint_missing e r m' hs l0 ms : hdr_list (mkCx e m' r) "vary" = VList (map VStr l0) -> (forall s, str_in s l0 = varied hs s) ->
  forall acc, exists texts, foldW (fun acc i => b <- lift (val_in i (hdr_list (mkCx e m' r) "vary")) ;; if b : bool then ret acc else s <- lift (py_str e i) ;; ret (acc ++ [s])) (map mem_head ms) acc = ([], Ok (acc ++ texts))
    /\ Forall2 (hint_text e) (filter (unvaried hs) ms) texts.
Proof.
  intros Hl Hv. rewrite Hl. induction ms as [|m ms IH]; intros acc; [exists []; rewrite app_nil_r; split; [reflexivity|constructor]|].
  assert (In_ : forall s, existsb (fun x => eq_text x s) (map VStr l0) = varied hs s).
  { intros s. rewrite <- Hv. clear. induction l0 as [|x l IH]; [reflexivity|]. cbn [map existsb]. rewrite IH. unfold str_in. cbn [existsb]. f_equal. unfold eq_text. cbn [str_of]. apply Bool.eq_iff_eq_true. rewrite !str_eqb_eq. split; congruence. }
  cbn [map foldW filter].
  assert (Step : exists b, val_in (mem_head m) (VList (map VStr l0)) = Ok b /\ b = negb (unvaried hs m) /\ (b = false -> exists s, py_str e (mem_head m) = Ok s /\ hint_text e m s)).
  { unfold unvaried, hint_text, val_in. destruct m as [b p|l p]; cbn [mem_head].
    - destruct b as [ | | | | |[|]| | ]; cbn [bare_val str_of bare_text]; eexists; (split; [reflexivity|]); rewrite ?In_, ?negb_involutive; (split; [reflexivity|]); intros _; eexists; (split; [reflexivity|]); reflexivity.
    - eexists. split; [reflexivity|]. split; [reflexivity|]. intros _. eexists. split; reflexivity. }
  destruct Step as (b & Eb & Hb & Hs). rewrite Eb. rewrite lift_ok. destruct (unvaried hs m); subst b; cbn [negb].
  - destruct (Hs eq_refl) as (s & Es & Ht). rewrite Es, lift_ok. destruct (IH (acc ++ [s])) as (texts & Et & Ft). exists (s :: texts). split; [|constructor; assumption].
    unfold bind at 1, ret at 1. rewrite Et. rewrite <- app_assoc. reflexivity.
  - destruct (IH acc) as (texts & Et & Ft). exists texts. split; [|exact Ft]. unfold bind at 1, ret at 1. rewrite Et. reflexivity.
Qed.
Theorem C58_accept_ch : forall e rel top headers chunks complete trailers t start nc head base m' rel',
  lint e rel top headers chunks complete trailers (new_linter t start nc head base) = (m', rel', Ok tt) -> t <> MRequest ->
  hyphened (u "accept-ch") headers -> hyphened (u "accept-ch") trailers -> unpadded (u "vary") headers ->
  exists due later, (forall s, list_rule e hint_type_due s (due s)) /\ (forall s, list_rule e (hint_later_due e rel m' headers) s (later s))
    /\ heard (classes hint_classes) [u "missing_fields"] (m_notes m') = sf_told "accept-ch" due headers ++ sf_told "accept-ch" due trailers ++ sf_told "accept-ch" later headers ++ sf_told "accept-ch" later trailers.
Proof.
  intros e rel top headers chunks complete trailers t start nc head base m' rel' E Ht H1 H2 Hu.
  exists (fun s => match e_sf_list e s with SFOk ms _ => told_once (existsb (fun m => negb (Fields1.is_token (mem_head m))) ms) ACCEPT_CH_BAD_TYPE [None] | _ => [] end),
    (fun s => post_pairs (classes hint_classes) F_accept_ch e m' rel' [u "missing_fields"] (sf_value e SFList F_accept_ch s)). split; [|split].
  - intros s. unfold list_rule. destruct (e_sf_list e s) as [ms d| |]; try reflexivity. eexists. split; [reflexivity|]. rewrite existsb_exists. split.
    + intros (m & Hm & Hn). exists m. split; [exact Hm|]. rewrite negb_true_iff in Hn. intros C. apply hint_head in C. congruence.
    + intros (m & Hm & Hn). exists m. split; [exact Hm|]. destruct (Fields1.is_token (mem_head m)) eqn:X; [|reflexivity]. apply hint_head in X. destruct (Hn X).
  - intros s. unfold list_rule, sf_value. destruct (e_sf_list e s) as [ms d| |]; try reflexivity. unfold post_pairs, sf_list_val. cbn [post_of].
    assert (R : run_of e t start base headers trailers m') by (exists rel, top, chunks, complete, nc, head, rel'; exact E).
    destruct (vary_list e t start base headers trailers m' rel' Ht R Hu) as (l0 & Hl & Hv). destruct (hint_missing e rel' m' headers l0 ms Hl Hv []) as (texts & Et & Ft). cbn [app] in Et.
    assert (Rest : forall acc2, pairs (classes hint_classes) [u "missing_fields"] (fst (if cacheable (mkCx e m' rel') then
        let vary := hdr_list (mkCx e m' rel') "vary" in items <- lift (heads (h_val (blank_of F_accept_ch (VList (map member_val ms))))) ;; missing <- foldW (fun acc i => b <- lift (val_in i vary) ;; if b : bool then ret acc else s <- lift (py_str (cx_env (mkCx e m' rel')) i) ;; ret (acc ++ [s])) items [] ;;
        when (nonempty missing) (add_note ACCEPT_CH_MISSING_VARY [vs "missing_fields" (join (u ", ") missing)]) else ret tt)) = acc2 -> acc2 = told_once (cacheable (mkCx e m' rel') && nonempty texts) ACCEPT_CH_MISSING_VARY [Some (VStr (join (u ", ") texts))]).
    { intros acc2 <-. destruct (cacheable (mkCx e m' rel')); [|reflexivity]. cbv zeta. cbn [blank_of h_val cx_env andb].
      assert (Hh : heads (VList (map member_val ms)) = Ok (map mem_head ms)).
      { unfold heads. cbn [as_list rbind]. clear. induction ms as [|m ms IH]; [reflexivity|]. cbn [map mapR]. destruct m; cbn [member_val item_val index nth_error rbind mem_head]; rewrite IH; reflexivity. }
      rewrite Hh, lift_ok, Et. unfold bind. destruct texts; reflexivity. }
    unfold pc_accept_ch. cbn [cx_rel]. pose proof (rel_uri _ _ _ _ _ _ _ _ _ _ _ _ _ _ E) as Ru.
    assert (Pl : exists b1, (b1 = true <-> plain_http rel) /\ match rel' with Some r => match m_uri r with Some uri => when (nonempty uri && startswith (u "http:") (lower uri)) (add_note ACCEPT_CH_IN_PLAIN_HTTP []) | None => ret tt end | None => ret tt end
                 = when b1 (add_note ACCEPT_CH_IN_PLAIN_HTTP [])).
    { destruct rel' as [r|]; [|exists false; split; [|reflexivity]; rewrite <- Ru; split; [discriminate|intros (x & w & rest & H & _); discriminate]].
      destruct (m_uri r) as [w|] eqn:Ew; [|exists false; split; [|reflexivity]; rewrite <- Ru; split; [discriminate|intros (x & w & rest & H & Hw & _); injection H as <-; congruence]].
      eexists. split; [|reflexivity]. rewrite <- Ru, andb_true_iff. split.
      - intros [_ H]. apply startswith_iff in H as (rest & H). exists r, w, rest. auto.
      - intros (x & w' & rest & H & Hw & Hr). injection H as <-. rewrite Ew in Hw. injection Hw as <-. split; [destruct w; [vm_compute in Hr; discriminate Hr|reflexivity]|]. apply startswith_iff. exists rest. exact Hr. }
    destruct Pl as (b1 & Hb & ->). exists b1, (cacheable (mkCx e m' rel') && nonempty texts), texts. split; [|split; [exact Hb|split; [exact Ft|]]].
    + rewrite when_then by reflexivity. f_equal. apply Rest. reflexivity.
    + rewrite andb_true_iff, storable_b. destruct texts; cbn [nonempty]; split; intros [A B]; split; auto; congruence.
  - rewrite (alone_about hint_classes [u "missing_fields"] F_accept_ch "accept-ch" _ _ _ _ _ _ _ _ _ _ _ _ _ _ E); [|reflexivity|eexists; reflexivity|apply ch_plain].
    apply (group_run hint_classes [F_accept_ch] F_accept_ch "accept-ch" [u "missing_fields"] SFList e rel top headers chunks complete trailers t start nc head base m' rel' _ E); try assumption; try reflexivity.
    + its_type.
    + constructor; [eexists; reflexivity|constructor].
    + constructor; [apply ch_plain|constructor].
    + intros V h s _ _. unfold sf_events. destruct (e_sf_list e s) as [ms d| |]; [|split; [constructor|reflexivity]..]. split; [apply ch_plain|]. cbn [eval_list]. rewrite keep_fst. unfold ev_accept_ch. destruct (existsb _ ms); reflexivity.
Qed.
Print Assumptions C58_accept_ch.

(** ** Available-Dictionary *)
Lemma dictionary_plain : plain_eval F_available_dictionary. Proof. simple_eval; unfold ev_available_dictionary; tms. Qed.
Lemma kind_name b : type_name (bare_val b) = u (bare_kind b).
Proof. destruct b; reflexivity. Qed.
Lemma accept_dictionary e start base hs ts m' r : run_of e MRequest start base hs ts m' -> unpadded (u "accept-encoding") hs ->
  exists l b, as_list (hdr_list (mkCx e m' r) "accept-encoding") = Ok l
    /\ foldW (fun b x => if b : bool then ret true else p <- lift (as_pair x) ;; ret (existsb (eq_text (fst p)) [u "dcb"; u "dcz"])) l false = ([], Ok b) /\ (b = true <-> accepts hs "dcb" \/ accepts hs "dcz").
Proof.
  intros R U. destruct (C50_values e start base hs ts m' false R) as (_ & _ & V). specialize (V "accept-encoding"%string (or_introl eq_refl) U). cbn [section_lines] in V. unfold list_shown, value_in in V.
  unfold hdr_list, hdr. cbn [cx_msg sec] in *. unfold accepts.
  assert (F : forall ms xs, Forall2 (fun v x => x = VTuple [VStr (lower (before_semi v)); param_dict_val (weighed e v)]) ms xs -> forall b0,
    exists b, foldW (fun b x => if b : bool then ret true else p <- lift (as_pair x) ;; ret (existsb (eq_text (fst p)) [u "dcb"; u "dcz"])) xs b0 = ([], Ok b)
      /\ (b = true <-> b0 = true \/ In (u "dcb") (map (fun v => lower (before_semi v)) ms) \/ In (u "dcz") (map (fun v => lower (before_semi v)) ms))).
  { induction 1 as [|v x ms xs -> H IH]; intros b0; [exists b0; split; [reflexivity|cbn [map In]; tauto]|]. cbn [foldW map In]. destruct b0.
    - destruct (IH true) as (b & Eb & Hb). exists b. split; [unfold bind at 1, ret at 1; rewrite Eb; reflexivity|]. rewrite Hb. tauto.
    - cbn [as_pair]. rewrite lift_ok. cbn [fst]. change (existsb (eq_text (VStr (lower (before_semi v)))) [u "dcb"; u "dcz"]) with (str_eqb (lower (before_semi v)) (u "dcb") || (str_eqb (lower (before_semi v)) (u "dcz") || false)). destruct (IH (str_eqb (lower (before_semi v)) (u "dcb") || (str_eqb (lower (before_semi v)) (u "dcz") || false))) as (b & Eb & Hb).
      exists b. split; [unfold bind at 1, ret at 1; rewrite Eb; reflexivity|]. rewrite Hb, orb_false_r, orb_true_iff, !str_eqb_eq. intuition congruence. }
  destruct (values (u "accept-encoding") hs) as [|v0 vs0] eqn:Ev.
  - match type of V with ?x = _ => match goal with |- exists l b, as_list match ?y with _ => _ end = _ /\ _ => change y with x end end. rewrite V. exists [], false. split; [reflexivity|]. split; [reflexivity|]. unfold members. rewrite Ev. cbn. split; [discriminate|tauto].
  - destruct V as (xs & Hx & V). match type of V with ?x = _ => match goal with |- exists l b, as_list match ?y with _ => _ end = _ /\ _ => change y with x end end. rewrite V.
    destruct (F _ _ Hx false) as (b & Eb & Hb). exists xs, b. split; [reflexivity|]. split; [exact Eb|]. rewrite Hb. intuition congruence.
Qed.
Theorem C58_available_dictionary : forall e rel top headers chunks complete trailers start nc head base m' rel',
  lint e rel top headers chunks complete trailers (new_linter MRequest start nc head base) = (m', rel', Ok tt) ->
  hyphened (u "available-dictionary") headers -> hyphened (u "available-dictionary") trailers -> unpadded (u "accept-encoding") headers ->
  exists due later, (forall s, item_rule e dictionary_type_due s (due s)) /\ (forall s, item_rule e (fun _ => dictionary_later_due headers) s (later s))
    /\ heard (classes dictionary_classes) [u "got"] (m_notes m') =
       sf_told "available-dictionary" due headers ++ sf_told "available-dictionary" due trailers ++ sf_told "available-dictionary" later headers ++ sf_told "available-dictionary" later trailers.
Proof.
  intros e rel top headers chunks complete trailers start nc head base m' rel' E H1 H2 Hu.
  exists (fun s => match e_sf_item e s with SFOk bp _ => match fst bp with BBytes _ => [] | b => [(AVAILABLE_DICTIONARY_BAD_TYPE, [Some (VStr (u (bare_kind b)))])] end | _ => [] end),
    (fun s => post_pairs (classes dictionary_classes) F_available_dictionary e m' rel' [u "got"] (sf_value e SFItem F_available_dictionary s)). split; [|split].
  - intros s. unfold item_rule. destruct (e_sf_item e s) as [[b p] d| |]; try reflexivity. cbn [fst]. unfold dictionary_type_due. destruct b; try (right; split; [intros; discriminate|reflexivity]). left. eauto.
  - intros s. unfold item_rule, sf_value. destruct (e_sf_item e s) as [[b p] d| |]; try reflexivity. unfold post_pairs. cbn [fst snd item_val post_of]. unfold pc_available_dictionary, dictionary_later_due.
    assert (T : m_type m' = MRequest) by (destruct (lint_facts _ _ _ _ _ _ _ _ _ _ _ _ _ _ E) as (SM & _); unfold setup in SM; injection SM as X _ _ _ _; exact X).
    assert (R : run_of e MRequest start base headers trailers m') by (exists rel, top, chunks, complete, nc, head, rel'; exact E).
    destruct (accept_dictionary e start base headers trailers m' rel' R Hu) as (l & x & Hl & Hx & Hb). unfold is_request. cbn [cx_msg]. rewrite T. cbv iota. cbn [negb]. rewrite Hl, lift_ok, Hx. exists (negb x). split; [destruct x; reflexivity|].
    rewrite negb_true_iff, <- not_true_iff_false, Hb. tauto.
  - rewrite (alone_about dictionary_classes [u "got"] F_available_dictionary "available-dictionary" _ _ _ _ _ _ _ _ _ _ _ _ _ _ E); [|reflexivity|eexists; reflexivity|apply dictionary_plain].
    apply (group_run dictionary_classes [F_available_dictionary] F_available_dictionary "available-dictionary" [u "got"] SFItem e rel top headers chunks complete trailers MRequest start nc head base m' rel' _ E); try assumption; try reflexivity.
    + constructor; [eexists; reflexivity|constructor].
    + constructor; [apply dictionary_plain|constructor].
    + intros V h s _ _. unfold sf_events. destruct (e_sf_item e s) as [[b p] d| |]; [|split; [constructor|reflexivity]..]. split; [apply dictionary_plain|]. cbn [eval_item fst snd]. rewrite keep_fst. unfold ev_available_dictionary.
      destruct b; cbn [fst]; reflexivity.
Qed.
Print Assumptions C58_available_dictionary.

(** ** Content-Encoding *)
Definition coding_says (due : str -> list (nid * list (option pyval))) (t : mtype) (l : list rawline) : list (nid * str * list (option pyval)) :=
  flat_map (fun vo => map (fun x => (fst x, at_offset (snd vo), snd x)) (due (strip (fst vo)))) (elements t (u "content-encoding") l).
Lemma offered t rel m' o e r : m_type m' = t -> rel = r -> offers t rel "accept-encoding" o ->
  match related_request (mkCx e m' r) with
  | Some q => exists ae items, o = Some ae /\ heads (rel_list q "accept-encoding") = Ok items /\ forall s, existsb (fun x => eq_text x s) items = str_in s ae
  | None => o = None
  end.
Proof.
  intros T <- Ho. unfold related_request. cbn [cx_rel cx_msg]. unfold is_response. cbn [cx_msg]. rewrite T. unfold offers in Ho. destruct t, rel as [q|]; try exact Ho. 
  destruct (m_type q); try exact Ho. unfold rel_list. destruct (rel_hdr q "accept-encoding") as [x|]; [|exists [], []; split; [exact Ho|split; reflexivity]].
  destruct Ho as (l & items & -> & -> & F). exists l, (map VStr l). split; [reflexivity|]. split.
  - unfold heads. cbn [as_list rbind]. induction F as [|i n items l (d & ->) F IH]; [reflexivity|]. cbn [mapR index nth_error rbind map]. rewrite IH. reflexivity.
  - intros s. clear. induction l as [|x l IH]; [reflexivity|]. cbn [map existsb]. rewrite IH. unfold str_in. cbn [existsb]. f_equal. unfold eq_text. cbn [str_of]. apply Bool.eq_iff_eq_true. rewrite !str_eqb_eq. split; congruence.
Qed.
Theorem C58_content_encoding : forall e rel top headers chunks complete trailers t start nc head base m' rel' o,
  lint e rel top headers chunks complete trailers (new_linter t start nc head base) = (m', rel', Ok tt) ->
  hyphened (u "content-encoding") headers -> hyphened (u "content-encoding") trailers -> offers t rel "accept-encoding" o ->
  exists due, (forall v, coding_due o v (due v))
    /\ heard (classes [ENCODING_UNWANTED]) [u "coding"] (m_notes m') = coding_says due t headers ++ coding_says due t trailers.
Proof.
  intros e rel top headers chunks complete trailers t start nc head base m' rel' o E H1 H2 Ho.
  assert (T : m_type m' = t) by (destruct (lint_facts _ _ _ _ _ _ _ _ _ _ _ _ _ _ E) as (SM & _); unfold setup in SM; injection SM as X _ _ _ _; exact X).
  pose proof (offered t rel m' o e rel T eq_refl Ho) as Of. set (bad := fun v => match o with Some ae => negb (str_in (lower v) ae) | None => false end).
  exists (fun v => told_once (bad v) ENCODING_UNWANTED [Some (VStr v)]). split.
  - intros v. eexists. split; [reflexivity|]. unfold bad. destruct o as [ae|]; [|split; [discriminate|intros (x & H & _); discriminate]]. rewrite negb_true_iff, <- not_true_iff_false, str_in_In. split; [eauto|]. intros (x & H & N). injection H as <-. exact N.
  - assert (Pv : forall v, par F_content_encoding e rel m' v = (if bad v then [ENote ENCODING_UNWANTED None [vs "coding" v] []] else [], Ok (VStr (lower v)))).
    { intros v. unfold par. cbn [parse_of]. unfold p_content_encoding, bad. destruct (related_request (mkCx e m' rel)) as [q|].
      - destruct Of as (ae & items & -> & -> & Hs). rewrite lift_ok, Hs. destruct (negb (str_in (lower v) ae)); reflexivity.
      - rewrite Of. reflexivity. }
    assert (Mi : mine_b (classes [ENCODING_UNWANTED]) F_content_encoding = true) by (vm_compute; reflexivity). apply mine_b_ok in Mi.
    assert (Qu : quiet_b (classes [ENCODING_UNWANTED]) = true) by (vm_compute; reflexivity). apply quiet_b_ok in Qu.
    assert (Mp : mute_post (classes [ENCODING_UNWANTED]) F_content_encoding).
    { intros c h. cbn [post_of]. unfold pc_content_encoding. destruct (negb (is_response c)); [constructor|]. destruct (as_list _) as [l|x]; [rewrite lift_ok|constructor]. destruct (_ && _); [|constructor].
      destruct (py_in _ _) as [b|x]; [rewrite lift_ok|constructor]. destruct b; repeat constructor. }
    assert (Fr : front m' = front (begun e top (new_linter t start nc head base))) by apply (lint_front _ _ _ _ _ _ _ _ _ _ _ _ _ _ E).
    rewrite (list_own_top (classes [ENCODING_UNWANTED]) [u "coding"] F_content_encoding (u "content-encoding") (par F_content_encoding e rel m') (eva F_content_encoding e rel m')
      e rel top headers chunks complete trailers t start nc head base m' rel' E Mi Qu (or_intror Mp)); try reflexivity; try assumption.
    + assert (L : forall l, list_says (classes [ENCODING_UNWANTED]) [u "coding"] t (u "content-encoding") (par F_content_encoding e rel m') (eva F_content_encoding e rel m') l = coding_says (fun v => told_once (bad v) ENCODING_UNWANTED [Some (VStr v)]) t l).
      { intros l. unfold list_says, coding_says. cbv zeta. match goal with |- ?a ++ ?b = _ => replace b with (@nil (nid * str * list (option pyval))); [rewrite app_nil_r|] end.
        - apply flat_map_ext. intros [v n]. cbn [fst snd]. rewrite Pv. cbn [fst]. destruct (bad (strip v)); reflexivity.
        - destruct (nonempty _); reflexivity. }
      rewrite !L. reflexivity.
    + apply module_b. reflexivity.
    + its_type.
    + intros V h v HV _. apply parse_front; [reflexivity|]. rewrite HV. symmetry. exact Fr.
    + intros v. rewrite Pv. cbn [fst]. destruct (bad v); repeat constructor.
    + intros V h _ _. split; [constructor|reflexivity].
Qed.
Print Assumptions C58_content_encoding.

(** The codings of the headers, as the linter keeps them. *)
Lemma kept_codings e t start base hs ts m' r : run_of e t start base hs ts m' -> unpadded (u "content-encoding") hs ->
  exists l, as_list (hdr_list (mkCx e m' r) "content-encoding") = Ok (map VStr l) /\ l = content_codings hs.
Proof.
  intros R U. assert (V : list_shown (fun v x => x = VStr (lower v)) "content-encoding" hs (value_in false (u "content-encoding") m')).
  { apply (list_shows e t start base hs ts m' false "content-encoding" (fun v x => x = VStr (lower v)) (fun v => VStr (lower v))); try assumption; try reflexivity; try discriminate; [its_type|]. intros v. destruct t; reflexivity. }
  unfold list_shown, value_in in V. unfold hdr_list, hdr. cbn [cx_msg sec] in *. unfold content_codings. destruct (values (u "content-encoding") hs) as [|v0 vs0] eqn:Ev.
  - match type of V with ?x = _ => match goal with |- exists l, as_list match ?y with _ => _ end = _ /\ _ => change y with x end end. rewrite V. exists []. split; [reflexivity|]. unfold members. rewrite Ev. reflexivity.
  - destruct V as (xs & Hx & V). match type of V with ?x = _ => match goal with |- exists l, as_list match ?y with _ => _ end = _ /\ _ => change y with x end end. rewrite V. eexists. split; [|reflexivity]. cbn [as_list]. f_equal.
    clear V Ev. induction Hx as [|v x ms ys -> H IH]; [reflexivity|]. cbn [map]. rewrite <- IH. reflexivity.
Qed.
Lemma ce_plain : plain_eval F_content_encoding. Proof. simple_eval. Qed.
(** List fields whose elements are read without notes of these classes. *)
Lemma silent_list P g : kind_of g = KList -> P BAD_SYNTAX = false -> P BAD_SYNTAX_DETAILED = false ->
  (forall c h v, Forall (fun x => Forall (fun n => P n = false) (ev_cls x)) (fst (parse_of g c h v))) -> silent P g.
Proof.
  intros K B1 B2 Hp c h v o l h2 r Hc _ _ E. unfold handle_input in E. rewrite Hc, K in E. clear K. revert h Hc l h2 r E. induction (split_list_field v) as [|x xs IH]; intros h Hc l h2 r E; cbn [list_input] in E; [injection E as <- _ _; constructor|].
  assert (M : Forall (fun x => Forall (fun n => P n = false) (ev_cls x)) (fst (list_member c h x))).
  { unfold list_member. rewrite Hc. specialize (Hp c h (strip x)).
    assert (Sx : Forall (fun x0 => Forall (fun n => P n = false) (ev_cls x0)) (fst (list_syntax h x))).
    { unfold list_syntax. destruct (fa_syntax _) as [rx|]; [|constructor]. destruct (match_ws_dollar rx x); [constructor|]. destruct (match_prefix _ x) as [bad|].
      - destruct (nth_error x bad); [|constructor]. constructor; [|constructor]. cbn [ev_cls flat_map app]. constructor; [exact B2|constructor].
      - destruct (fa_report _); [|constructor]. constructor; [|constructor]. cbn [ev_cls flat_map app]. constructor; [exact B1|constructor]. }
    destruct (list_syntax h x) as [ls [[]|es]]; cbn [fst bind] in *; [|exact Sx]. destruct (parse_of g c h (strip x)) as [lp [vp|ep]]; cbn [fst bind catch_value ret] in *.
    - rewrite app_nil_r. apply Forall_app. split; assumption.
    - unfold catch_value. destruct (is_ValueError ep); cbn [fst ret]; rewrite ?app_nil_r; apply Forall_app; split; assumption. }
  assert (Tg : forall s b l0, Forall (fun x0 => Forall (fun n => P n = false) (ev_cls x0)) l0 -> Forall (not_cls P) (tag s b l0)) by (intros s b l0 H; unfold tag; apply Forall_map; eapply Forall_impl; [|exact H]; intros a Ha; exact Ha).
  destruct (list_member c h x) as [evs [ov|ex]]; cbn [fst] in M; [|injection E as <- _ _; apply Tg, M].
  cbv zeta in E. match type of E with context [list_input _ _ ?hh _] => assert (Hh : h_cls hh = g) by (destruct ov; [unfold append_val; destruct (h_val _)|]; exact Hc); destruct (list_input c (offset_subj o) hh xs) as [[e2 h3] r3] eqn:El end.
  injection E as <- _ _. apply Forall_app. split; [apply Tg, M|]. apply (IH _ Hh _ _ _ El).
Qed.
Lemma ce_silent : silent (classes [DICTIONARY_COMPRESSED_MISSING_VARY]) F_content_encoding.
Proof.
  apply silent_list; try reflexivity. intros c h v. cbn [parse_of]. unfold p_content_encoding. destruct (related_request c) as [q|]; [|constructor]. destruct (heads _) as [l|x]; [rewrite lift_ok|constructor].
  destruct (negb _); repeat constructor.
Qed.
Theorem C58_dictionary_vary : forall e rel top headers chunks complete trailers t start nc head base m' rel',
  lint e rel top headers chunks complete trailers (new_linter t start nc head base) = (m', rel', Ok tt) ->
  hyphened (u "content-encoding") headers -> hyphened (u "content-encoding") trailers -> unpadded (u "content-encoding") headers -> unpadded (u "vary") headers ->
  exists b, (b = true <-> unlisted t m' headers)
    /\ reports [DICTIONARY_COMPRESSED_MISSING_VARY] (m_notes m') = unlisted_told b headers ++ unlisted_told b trailers.
Proof.
  intros e rel top headers chunks complete trailers t start nc head base m' rel' E H1 H2 Hu Hv.
  assert (T : m_type m' = t) by (destruct (lint_facts _ _ _ _ _ _ _ _ _ _ _ _ _ _ E) as (SM & _); unfold setup in SM; injection SM as X _ _ _ _; exact X).
  set (P := classes [DICTIONARY_COMPRESSED_MISSING_VARY]).
  assert (Hb : exists b, (b = true <-> unlisted t m' headers) /\ forall h, fst (post_of F_content_encoding (mkCx e m' rel') h) = if b : bool then [ENote DICTIONARY_COMPRESSED_MISSING_VARY None [] []] else []).
  { cbn [post_of]. unfold pc_content_encoding, unlisted. unfold is_response. cbn [cx_msg]. rewrite T. destruct t; cbv iota; cbn [negb]; try (exists false; split; [split; [discriminate|intros (X & _); discriminate X]|reflexivity]).
    assert (R : run_of e MResponse start base headers trailers m') by (exists rel, top, chunks, complete, nc, head, rel'; exact E).
    destruct (kept_codings e MResponse start base headers trailers m' rel' R Hu) as (l & El & Hl). rewrite El, lift_ok.
    destruct (vary_list e MResponse start base headers trailers m' rel' ltac:(discriminate) R Hv) as (l0 & Ev & Hs).
    exists (existsb (fun x => existsb (eq_text x) [u "dcb"; u "dcz"]) (map VStr l) && cacheable (mkCx e m' rel') && negb (varied headers (u "available-dictionary"))). split.
    - rewrite !andb_true_iff, storable_b, negb_true_iff, <- Hl. assert (X : existsb (fun x => existsb (eq_text x) [u "dcb"; u "dcz"]) (map VStr l) = true <-> In (u "dcb") l \/ In (u "dcz") l).
      { clear. induction l as [|x l IH]; [cbn; split; [discriminate|tauto]|]. cbn [map]. change (existsb (fun x0 => existsb (eq_text x0) [u "dcb"; u "dcz"]) (VStr x :: map VStr l)) with ((str_eqb x (u "dcb") || (str_eqb x (u "dcz") || false)) || existsb (fun x0 => existsb (eq_text x0) [u "dcb"; u "dcz"]) (map VStr l)).
        rewrite !orb_true_iff, !str_eqb_eq, IH. cbn [In]. intuition congruence. }
      rewrite X. tauto.
    - intros h. destruct (_ && cacheable _); [|reflexivity]. cbn [andb]. rewrite Ev. unfold py_in. 
      assert (X : existsb (fun v => eq_text v (u "available-dictionary")) (map VStr l0) = varied headers (u "available-dictionary")).
      { rewrite <- Hs. clear. induction l0 as [|x l IH]; [reflexivity|]. cbn [map existsb]. rewrite IH. unfold str_in. cbn [existsb]. f_equal. unfold eq_text. cbn [str_of]. apply Bool.eq_iff_eq_true. rewrite !str_eqb_eq. split; congruence. }
      rewrite lift_ok, X. destruct (varied _ _); reflexivity. }
  destruct Hb as (b & Hb & Hp). exists b. split; [exact Hb|].
  assert (Ou : ours_b P [F_content_encoding] = true) by (vm_compute; reflexivity). apply ours_b_ok in Ou.
  assert (Qu : quiet_b P = true) by (vm_compute; reflexivity). apply quiet_b_ok in Qu.
  assert (Mo : In F_content_encoding module_fields) by (apply module_b; reflexivity).
  destruct (group_notes P [F_content_encoding] (fun _ => true) F_content_encoding (u "content-encoding") e rel top headers chunks complete trailers t start nc head base m' rel' E Ou Qu) as (_ & Nh & Qh & Nt & Qt & A1 & A2 & N); try reflexivity; try assumption.
  - constructor; [apply ce_silent|constructor].
  - constructor; [apply settled_quick; [reflexivity|apply ce_plain]|constructor].
  - constructor; [reflexivity|constructor].
  - intros g [<-|[]]. exact Mo.
  - left. reflexivity.
  - intros x [Hx|[]] Hn. congruence.
  - assert (Pc : forall tr raws N0 Q0, piece P F_content_encoding (u "content-encoding") e rel t m' rel' tr raws N0 Q0 -> N0 = [] /\ map (fun n => (n_cls n, n_subj n)) Q0 = unlisted_told b raws).
    { clear N A1 A2 Nh Qh Nt Qt. intros tr raws N0 Q0. unfold piece, unlisted_told. destruct (values (u "content-encoding") raws) as [|v0 vl] eqn:Ev; cbn [nonempty]; [intros [-> ->]; split; reflexivity|].
      intros (m & h' & El & Tm & Fm & Mm & R & Hd & Hc & Hs & -> & ->). destruct R as (evs & h & mi & h2 & Fd & Ek & Hl & St & Km & Om & Ff & Hid & Fin & Hd2).
      rewrite Hd in Hd2. injection Hd2 as <-. set (n := first_name (u "content-encoding") raws) in *.
      assert (Hi : ident any (lower n, new_handler n)) by (exists n; split; [exact I|split; [reflexivity|apply same_id_refl]]).
      assert (Hnn : find_class n = F_content_encoding) by (rewrite <- find_class_lower, <- Ek; reflexivity).
      destruct (feeds_got e (still m) rel n _ _ _ _ Hi Fd) as [Hid2 Gt].
      assert (Ha : accepted (m_type (still m)) n = true) by (rewrite <- (accepted_lower _ n), <- Ek; change (m_type (still m)) with (m_type m); rewrite Tm, processed_eq; its_type). rewrite Ha in Gt.
      assert (Hch : h_cls h = F_content_encoding) by (destruct Hid2 as [-> _]; exact Hnn).
      unfold got in Gt. cbn [new_handler h_cls] in Gt. rewrite Hnn in Gt. change (kind_of F_content_encoding) with KList in Gt. specialize (Gt [] eq_refl). cbn [app] in Gt.
      unfold finish_handler in Ff. rewrite Hch in Ff. change (kind_of F_content_encoding) with KList in Ff. unfold base_finish in Ff. rewrite Gt, Hch in Ff. cbn [eval_of] in Ff. unfold finish_eval in Ff. injection Ff as <- <-.
      split; [reflexivity|]. set (h9 := h_set_val _ _) in *. assert (V9 : h_val h9 <> VNone) by (unfold h9; cbn [h_set_val h_val]; rewrite Gt; discriminate). unfold post_evs. rewrite Hc, Hp, Hs. destruct (h_val h9); try (destruct b; reflexivity). destruct (V9 eq_refl). }
    destruct (Pc _ _ _ _ A1) as [-> B1]. destruct (Pc _ _ _ _ A2) as [-> B2]. rewrite <- B1, <- B2, <- map_app. unfold reports. f_equal.
    change (filter (fun n => classes [DICTIONARY_COMPRESSED_MISSING_VARY] (n_cls n)) (m_notes m')) with (sel P (m_notes m')). cbn [app] in N. rewrite <- N. unfold selS. clear. induction (sel P (m_notes m')) as [|x l IH]; [reflexivity|]. cbn [filter]. rewrite <- IH. reflexivity.
Qed.
Print Assumptions C58_dictionary_vary.
(** ** Examples *)
Definition neg_env : env :=
  mkEnv (look [("""x"""%string, (BStr (u "x"), []))]) (look [("Sec-A, ""b"""%string, [MItem (BTok (u "Sec-A")) []; MItem (BStr (u "b")) []])]) (look []) (e_json env0) (e_urlsplit env0) (fun _ b => Ok b) (e_quote env0) (e_unquote env0)
        (e_unsplit env0) (e_idna env0) (e_utf8 env0) (e_codec env0) (e_decode env0) (e_chardet env0) (e_sniff env0) (e_rank env0)
        (e_b64 env0) (e_md5 env0) (e_float_str env0) (e_reltime env0) (e_repr env0) (e_display env0)
        (e_inflate env0) (e_brotli env0).
Definition neg_asked : list rawline := raws [("Available-Dictionary", """x"""); ("Accept-Encoding", "gzip;q=0.5, br")]%string.
Definition neg_request : mstate := fst (fst (lint neg_env None (TopRequest (u "GET") (u "HTTP://a/") (u "HTTP/1.1")) neg_asked [] true [] (new_linter MRequest None false false []))).
Definition neg_lines : list rawline := raws [("Accept-CH", "Sec-A, ""b"""); ("Content-Encoding", "DCB, br"); ("Vary", "b"); ("Cache-Control", "max-age=60")]%string.
Example C58_ex : let '(m, _, r) := lint neg_env (Some neg_request) (TopResponse (u "1.1") (u "200") None) neg_lines [] true [] (new_linter MResponse (Some 100%Q) false false []) in
  r = Ok tt /\ map (fun x => (fst (fst x), snd x)) (heard (classes (hint_classes ++ [ENCODING_UNWANTED; DICTIONARY_COMPRESSED_MISSING_VARY])) [u "missing_fields"; u "coding"] (m_notes m)) =
    [(ENCODING_UNWANTED, [None; Some (VStr (u "DCB"))]); (ACCEPT_CH_BAD_TYPE, [None; None]); (ACCEPT_CH_IN_PLAIN_HTTP, [None; None]); (ACCEPT_CH_MISSING_VARY, [Some (VStr (u "Sec-A")); None]); (DICTIONARY_COMPRESSED_MISSING_VARY, [None; None])].
Proof. vm_compute. repeat split. Qed.
Example C58_ex_request : reports dictionary_classes (m_notes neg_request) = [(AVAILABLE_DICTIONARY_BAD_TYPE, u "field-available-dictionary"); (AVAILABLE_DICTIONARY_MISSING_AE, u "field-available-dictionary")].
Proof. vm_compute. reflexivity. Qed.
Example C58_ex_hyps : offers MResponse (Some neg_request) "accept-encoding" (Some [u "gzip"; u "br"]) /\ hyphened (u "accept-ch") neg_lines /\ hyphened (u "content-encoding") neg_lines
  /\ unpadded (u "vary") neg_lines /\ unpadded (u "content-encoding") neg_lines /\ unpadded (u "accept-encoding") neg_asked.
Proof.
  split; [vm_compute; do 2 eexists; split; [reflexivity|]; split; [reflexivity|]; repeat constructor; eexists; reflexivity|]. split; [apply hyphened_dec; vm_compute; reflexivity|]. split; [apply hyphened_dec; vm_compute; reflexivity|].
  repeat split; repeat constructor; vm_compute; intros H; try discriminate H; reflexivity.
Qed.
