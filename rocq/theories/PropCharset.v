(** * C63: the content and its Content-Type. *)
From Coq Require Import Lia ZifyBool ZifyN.
From Verif Require Import PyStr Regex Grammar NoteTable Note PyLib Utils FieldAttrs Types Fields1 Fields2 Fields3 Framework Checks Message
  EvLogic NoteLemmas TestEnv LexLemmas ParamLemmas NumLemmas NameLemmas FrameLemmas ContentLemmas BodyLemmas PassParse PassEval PassFrame PassSec PassProc PassMsg PassRun Session SessionLemmas EndLemmas
  SectionLemmas SecNotes SecValues LintLemmas FieldSpec PropFields PropValues PropNames PropParse OwnLemmas ListSpec PropLists PropCC ListExamples FieldExamples PropInts FieldDue OwnTac OwnMore
  CodingSpec PropCodings PrefSpec PropPrefs RangeSpec PropRange PropPlain PropHsts ShowSpec CharsetSpec.
Open Scope N_scope.

(** ** What the run reports *)
Lemma lint_content e rel top headers chunks complete trailers t start nc head base m' rel' :
  lint e rel top headers chunks complete trailers (new_linter t start nc head base) = (m', rel', Ok tt) ->
  exists lt lu, sel (in_file "content_type.py") (m_notes m') = msg_notes t lt /\ sel (in_file "charset.py") (m_notes m') = msg_notes t lu
    /\ Forall (mev "content_type.py") lt /\ Forall (mev "charset.py") lu
    /\ if match t with MResponse => negb nc | _ => false end then verify_content_type e m' = (lt, Ok tt) /\ verify_charset e m' = (lu, Ok tt) else lt = [] /\ lu = [].
Proof.
  intros E.
  assert (FF : forall f g, f <> g -> apart (in_file f) (in_file g)).
  { intros f g Hne n Hn. unfold in_file in *. apply String.eqb_eq in Hn. apply String.eqb_neq. congruence. }
  assert (OF : forall f, String.prefix "field/" f = false -> off_field (in_file f)).
  { intros f Hf. apply off_prefix. intros n Hn. unfold in_file in Hn. apply String.eqb_eq in Hn. rewrite Hn. exact Hf. }
  assert (AL : forall f l, forallb (fun n => negb (in_file f n)) l = true -> apart (in_file f) (among l)).
  { intros f l Hl n Hn. apply among_In in Hn. rewrite forallb_forall in Hl. specialize (Hl n Hn). destruct (in_file f n); [discriminate|reflexivity]. }
  assert (SF : forall f g t l, f <> g -> Forall (mev g) l -> sel (in_file f) (msg_notes t l) = []).
  { intros f g t0 l Hne Hl. apply sel_none. intros n Hn. unfold in_file. rewrite (msg_notes_in g t0 l n Hl Hn). apply String.eqb_neq. congruence. }
  assert (NC : m_no_content m' = nc) by (destruct (lint_facts _ _ _ _ _ _ _ _ _ _ _ _ _ _ E) as (SM & _); unfold setup in SM; injection SM as _ _ X _ _; exact X).
  assert (K : exists lt lu, Forall (mev "content_type.py") lt /\ Forall (mev "charset.py") lu
     /\ (if match t with MResponse => negb nc | _ => false end then verify_content_type e m' = (lt, Ok tt) /\ verify_charset e m' = (lu, Ok tt) else lt = [] /\ lu = [])
     /\ forall f, f = "content_type.py"%string \/ f = "charset.py"%string -> sel (in_file f) (m_notes m') = sel (in_file f) (msg_notes t lt ++ msg_notes t lu)).
  { assert (K1 : forall f, f = "content_type.py"%string \/ f = "charset.py"%string ->
       off_field (in_file f) /\ apart (in_file f) (among top_classes) /\ apart (in_file f) (in_file dec_file) /\ apart (in_file f) (among [CL_CORRECT; CL_INCORRECT; CONTENT_NOT_ALLOWED])
       /\ apart (in_file f) (in_file "cache.py") /\ apart (in_file f) (in_file "status.py") /\ apart (in_file f) (in_file "field/cors.py")).
    { intros f [-> | ->]; (split; [apply OF; reflexivity|]); (split; [apply AL; cls|]); (split; [apply FF; discriminate|]); (split; [apply AL; cls|]); repeat split; apply FF; discriminate. }
    destruct t.
    - exists [], []. split; [constructor|]. split; [constructor|]. split; [split; reflexivity|]. intros f Hf. destruct (K1 f Hf) as (O1 & O2 & O3 & O4 & O5 & O6 & O7).
      destruct (lint_end_ok (in_file f) _ _ _ _ _ _ _ _ _ _ _ _ _ _ O1 O2 O3 O4 E) as (m2 & m3 & X & F2 & F3 & T & E4 & ->). cbn [msg_notes flat_map app sel filter].
      unfold post_checks in E4. rewrite T in E4. unfold request_post_checks in E4. destruct (wp_preflight_request (fun _ => False) m2) as [H1 _]. pose proof (mnoted_run _ _ m2 H1) as N1.
      unfold run_check in E4, N1. cbn [fst] in N1. destruct (check_preflight_request m2) as [lp [[]|x]]; cbn [fst snd then_] in *; [|discriminate].
      set (ma := m_emit _ m2) in *. set (mb := if m_has ma _ then _ else _) in E4.
      assert (Xa : sel (in_file f) (m_notes ma) = []) by (rewrite (mnoted_sel _ _ _ _ O7 N1); exact X).
      assert (Y : forall nn s vrs mm, in_file f nn = false -> sel (in_file f) (m_notes mm) = [] -> sel (in_file f) (m_notes (note_msg s nn vrs mm)) = []).
      { intros nn s vrs mm Hn Hm. unfold note_msg. rewrite notes_emit. cbn [emit fold_left emit_one]. rewrite sel_app, Hm. cbn [attach app]. unfold sel. cbn [filter]. change (n_cls (mk_note _ _ ?c _ _ _)) with c. rewrite Hn. reflexivity. }
      assert (Xb : sel (in_file f) (m_notes mb) = []) by (unfold mb; destruct (m_has ma _); [exact Xa|apply Y; [destruct Hf as [-> | ->]; reflexivity|exact Xa]]).
      injection E4 as <- _. destruct (m_method mb); [|exact Xb]. destruct (_ && _); [|exact Xb]. apply Y; [destruct Hf as [-> | ->]; reflexivity|exact Xb].
    - destruct (K1 "charset.py"%string (or_intror eq_refl)) as (O1 & O2 & O3 & O4 & _).
      assert (G : forall f, f = "content_type.py"%string \/ f = "charset.py"%string -> exists lt lu, Forall (mev "content_type.py") lt /\ Forall (mev "charset.py") lu
         /\ (if negb nc then verify_content_type e m' = (lt, Ok tt) /\ verify_charset e m' = (lu, Ok tt) else lt = [] /\ lu = [])
         /\ sel (in_file f) (m_notes m') = sel (in_file f) (msg_notes MResponse lt ++ msg_notes MResponse lu)).
      { intros f Hf. clear O1 O2 O3 O4. destruct (K1 f Hf) as (O1 & O2 & O3 & O4 & O5 & O6 & O7).
        destruct (lint_end_ok (in_file f) _ _ _ _ _ _ _ _ _ _ _ _ _ _ O1 O2 O3 O4 E) as (m2 & m3 & X & F2 & F3 & T & E4 & ->).
        unfold post_checks in E4. rewrite T in E4. unfold response_post_checks in E4.
        assert (R : exists ns, m' = m_set_notes ns (m_set_caching (m_caching m3) m2)) by (exists (m_notes m'); exact (eq_trans F3 (f_equal (m_set_notes (m_notes m')) F2))).
        destruct (wp_preflight_response m2 rel) as [H1 _]. pose proof (mnoted_run _ _ m2 H1) as N1. unfold run_check in E4, N1. cbn [fst] in N1.
        destruct (check_preflight_response m2 rel) as [lp [[]|x]]; cbn [fst snd] in *; [|discriminate]. set (ma := m_emit _ m2) in *.
        pose proof (cache_events ma rel) as Hc. destruct (cache_check ma rel) as [[lc lreq] rc]. destruct Hc as [C1 C2]. set (rel2 := option_map _ rel) in E4. destruct rc as [k|y]; [|discriminate].
        set (mb := m_set_caching (Some k) _) in E4. destruct (wp_status_checks mb rel2) as [S1 _].
        assert (Xb : sel (in_file f) (m_notes mb) = []).
        { unfold mb. cbn [m_notes m_set_caching]. rewrite notes_emit. assert (Tm : m_type ma = MResponse) by exact T. rewrite Tm, (emit_msgs _ _ _ C1), sel_app, (mnoted_sel _ _ _ _ O7 N1), X. apply sel_none. intros n Hn. apply O5. unfold in_file. rewrite (msg_notes_in _ _ _ n C1 Hn). apply String.eqb_refl. }
        pose proof (mnoted_run _ _ mb S1) as N2. unfold run_check in N2. cbn [fst] in N2.
        destruct (check_status mb rel2) as [ls [[]|z]]; cbn [fst snd then_] in *; [|discriminate]. set (mc := m_emit _ mb) in *.
        assert (Xc : sel (in_file f) (m_notes mc) = []) by (rewrite (mnoted_sel _ _ _ _ O6 N2); exact Xb).
        assert (Nc : m_no_content mc = nc) by (rewrite <- NC; destruct R as [ns ->]; reflexivity). rewrite Nc in E4. destruct nc; cbn [negb].
        { injection E4 as <- _. exists [], []. split; [constructor|]. split; [constructor|]. split; [split; reflexivity|]. rewrite Xc. reflexivity. }
        assert (V1 : verify_content_type e mc = verify_content_type e m') by (destruct R as [ns ->]; reflexivity).
        destruct (wp_content_type e mc) as [T1 _]. rewrite V1 in *. destruct (verify_content_type e m') as [lt [[]|z]]; cbn [fst snd then_] in *; [|discriminate]. set (md := m_emit (tag [] [] lt) mc) in *.
        assert (V2 : verify_charset e md = verify_charset e m') by (destruct R as [ns ->]; reflexivity).
        destruct (wp_charset (fun _ => True) e md) as [U1 _]. rewrite V2 in *. destruct (verify_charset e m') as [lu [[]|w]]; cbn [fst snd then_] in *; [|discriminate].
        injection E4 as <- _. exists lt, lu. split; [exact T1|]. split; [exact U1|]. split; [split; reflexivity|].
        assert (Tc : m_type mc = MResponse) by exact T. assert (Td : m_type md = MResponse) by exact T.
        rewrite notes_emit, Td, (emit_msgs _ _ _ U1), sel_app. unfold md. rewrite notes_emit, Tc, (emit_msgs _ _ _ T1), !sel_app, Xc. reflexivity. }
      destruct (G _ (or_introl eq_refl)) as (lt & lu & G1 & G2 & G3 & G4). destruct (G _ (or_intror eq_refl)) as (lt2 & lu2 & _ & _ & G5 & G6).
      assert (Q : lt2 = lt /\ lu2 = lu) by (destruct (negb nc); [destruct G3 as [G3 G3'], G5 as [G5 G5']; split; congruence|destruct G3 as [-> ->], G5 as [-> ->]; auto]). destruct Q as [-> ->].
      exists lt, lu. repeat (split; [assumption|]). intros f [-> | ->]; assumption.
    - exists [], []. split; [constructor|]. split; [constructor|]. split; [split; reflexivity|]. intros f Hf. destruct (K1 f Hf) as (O1 & O2 & O3 & O4 & _).
      destruct (lint_end_ok (in_file f) _ _ _ _ _ _ _ _ _ _ _ _ _ _ O1 O2 O3 O4 E) as (m2 & m3 & X & F2 & F3 & T & E4 & ->). unfold post_checks in E4. rewrite T in E4. injection E4 as <- _. exact X. }
  destruct K as (lt & lu & K1 & K2 & K3 & K4). exists lt, lu. split; [|split; [|split; [exact K1|split; [exact K2|exact K3]]]].
  - rewrite K4, sel_app by auto. rewrite (SF "content_type.py"%string "charset.py"%string _ lu), app_nil_r, sel_file_msgs by (assumption || discriminate). reflexivity.
  - rewrite K4, sel_app by auto. rewrite (SF "charset.py"%string "content_type.py"%string _ lt), sel_file_msgs by (assumption || discriminate). reflexivity.
Qed.

(** The declared type and charset. *)
Definition charset_par (e : env) (v : str) : option (option str) := dget (u "charset") (parameters e (NoStarList [u "charset"]) v).
Definition content_val (e : env) (v : str) : pyval := media_type_val (type_of v, parameters e (NoStarList [u "charset"]) v).
Lemma ct_value e t start base headers trailers m' : run_of e t start base headers trailers m' -> unpadded (u "content-type") headers ->
  m_get m' "content-type" = option_map (content_val e) (first_line (u "content-type") headers).
Proof.
  intros R U. change (m_get m' "content-type") with (value_in false (u "content-type") m').
  rewrite (single_value e t start base headers trailers m' false (u "content-type") R U) by (destruct t; reflexivity). cbn [section_lines].
  destruct (first_line _ headers) as [v|]; [|reflexivity]. cbn [option_map]. f_equal.
  change (find_class (u "content-type")) with F_content_type. cbn [parse_of]. unfold p_content_type, parse_media_type. rewrite media_split. fold (type_of v). cbn [cx_env].
  destruct (parameters_eq e (NoStarList [u "charset"]) v) as (l & El). rewrite El.
  destruct (media_spec (type_of v) None None false false) as [(ty & sub & x & y & M & -> & _)|[M ->]]; reflexivity.
Qed.
Lemma par_shape e v : dget (u "charset") (map (fun kv => (fst kv, opt_str (snd kv))) (parameters e (NoStarList [u "charset"]) v)) = option_map opt_str (charset_par e v).
Proof. apply dget_map. Qed.
Definition cs_of (e : env) (v : str) : option str := match charset_par e v with Some (Some s) => Some s | _ => None end.
Lemma declares_eq e headers v ty cs : first_line (u "content-type") headers = Some v -> (declares e headers ty cs <-> ty = type_of v /\ cs = cs_of e v).
Proof.
  intros Hv. unfold declares, cs_of, charset_par. split.
  - intros (w & Hw & -> & ->). rewrite Hv in Hw. injection Hw as <-. auto.
  - intros [-> ->]. exists v. auto.
Qed.
Lemma declares_none e headers ty cs : first_line (u "content-type") headers = None -> ~ declares e headers ty cs.
Proof. intros Hv (w & Hw & _). congruence. Qed.

Definition judged_b (m : mstate) : bool := hash_present m && negb (no_full_content m).
Lemma judged_iff nc m : judged nc m <-> nc = false /\ judged_b m = true.
Proof.
  unfold judged, judged_b, hash_present, no_full_content. rewrite andb_true_iff, negb_true_iff, orb_false_iff. split.
  - intros (A & B & (c & l & C) & D). split; [exact A|]. split; [rewrite C; reflexivity|]. split; [|exact B]. destruct (m_status m) as [z|]; [|reflexivity].
    destruct (D z eq_refl) as [D1 D2]. cbn [In] in D1. cbn [existsb]. lia.
  - intros (A & B & C & D). split; [exact A|]. split; [exact D|]. split; [destruct (m_hash m) as [[|c l]|]; try discriminate B; eauto|].
    intros z Hz. rewrite Hz in C. cbn [existsb] in C. cbn [In]. lia.
Qed.
Lemma utf8_iff ty : requires_utf8 ty = true <-> json_type ty.
Proof.
  unfold requires_utf8, json_type, str_in. cbn [existsb]. rewrite !orb_true_iff, !str_eqb_eq. unfold endswith. rewrite startswith_iff.
  assert (E : forall s, (exists r, rev s = rev (u "+json") ++ r) <-> exists p, s = p ++ u "+json").
  { intros s. split; intros (r & H); exists (rev r).
    - apply (f_equal (@rev N)) in H. rewrite rev_involutive, rev_app_distr, rev_involutive in H. exact H.
    - rewrite H, rev_app_distr. reflexivity. }
  rewrite E. split.
  - intros [[H|[H|H]]|(p & H)]; [auto|auto|discriminate H|]. right. right. destruct (split1 47 ty) as [[a b]|] eqn:S.
    + exists b, p. split; [exact H|]. left. exists a. apply split1_cut. exact S.
    + exists ty, p. split; [exact H|]. right. split; [|reflexivity]. apply PropHsts.split1_none. exact S.
  - intros [H|[H|(sub & p & H & [(major & C)|[C ->]])]]; [auto|auto| |].
    + apply split1_cut in C. rewrite C. right. exists p. exact H.
    + rewrite split1_no by exact C. right. exists p. exact H.
Qed.

Lemma ascii_iff l : forallb (fun b => b <? 128) l = false <-> exists b, In b l /\ 128 <= b.
Proof.
  induction l as [|b l IH]; cbn [forallb]; [split; [discriminate|intros (b & [] & _)]|]. rewrite andb_false_iff, IH, N.ltb_ge. split.
  - intros [H|(c & H & Hc)]; [exists b; cbn; auto|exists c; cbn; auto].
  - intros (c & [->|H] & Hc); [auto|right; eauto].
Qed.
Lemma space_ascii l : forallb ascii_space l = true -> forallb (fun b => b <? 128) l = true.
Proof. rewrite !forallb_forall. intros H b Hb. specialize (H b Hb). unfold ascii_space in H. lia. Qed.

Lemma msgs_heard P ks t f l : own_keys ks = true -> Forall (mev f) l -> heard P ks (msg_notes t l) = speak P ks [] l.
Proof.
  intros Hk Hl. pose proof (emit_msgs _ t l Hl []) as E. cbn [app] in E. rewrite <- E. apply heard_tag; [exact Hk| |].
  - split; [constructor|]. intros; reflexivity.
  - apply Forall_forall. intros x Hx. rewrite Forall_forall in Hl. specialize (Hl x Hx). destruct x; try exact I. destruct Hl.
Qed.
Lemma heard_file P ks f (l : list note) : (forall n, P n = true -> in_file f n = true) -> heard P ks l = heard P ks (sel (in_file f) l).
Proof.
  intros H. rewrite !heard_sel. f_equal. unfold sel. induction l as [|n l IH]; [reflexivity|]. cbn [filter]. destruct (P (n_cls n)) eqn:E.
  - rewrite (H _ E). cbn [filter]. rewrite E, IH. reflexivity.
  - destruct (in_file f (n_cls n)); cbn [filter]; rewrite ?E; exact IH.
Qed.

(** ** The sniffer *)
Notation SniffP := (classes [CONTENT_TYPE_MISMATCH]).
Notation SniffK := [u "declared_type"; u "sniffed_type"].
Lemma contra_iff ty s : contradicts ty s <-> str_eqb s ty = false /\ (str_eqb ty (u "text/html") && str_in s [u "application/rss+xml"; u "application/atom+xml"]) = false.
Proof.
  unfold contradicts, str_in. cbn [existsb]. rewrite orb_false_r. split.
  - intros [A B]. split; [destruct (str_eqb s ty) eqn:E; [apply str_eqb_eq in E; contradiction|reflexivity]|]. apply not_true_iff_false. intros C.
    apply andb_prop in C as [C D]. rewrite orb_true_iff, !str_eqb_eq in D. apply str_eqb_eq in C. auto.
  - intros [A B]. split; [intros ->; rewrite str_eqb_refl in A; discriminate|]. intros [-> D]. apply not_true_iff_false in B. apply B. rewrite str_eqb_refl. cbn [andb]. rewrite orb_true_iff, !str_eqb_eq. exact D.
Qed.
Lemma sniff_case e headers m l : m_get m "content-type" = option_map (content_val e) (first_line (u "content-type") headers) ->
  verify_content_type e m = (l, Ok tt) -> sniff_says e false headers m (speak SniffP SniffK [] l).
Proof.
  intros G V. unfold sniff_says. unfold verify_content_type in V. pose proof (judged_iff false m) as J. unfold judged_b in J.
  assert (NO : forall cond : Prop, cond -> (cond -> forall ty cs s, judged false m -> declares e headers ty cs -> ty <> [] -> e_sniff e (m_sample m) ty = Some s -> ~ contradicts ty s) -> l = [] ->
     (exists ty cs s, judged false m /\ declares e headers ty cs /\ ty <> [] /\ e_sniff e (m_sample m) ty = Some s /\ contradicts ty s /\ speak SniffP SniffK [] l = [(CONTENT_TYPE_MISMATCH, u "content-type", [text ty; text s])])
     \/ ((forall ty cs s, judged false m -> declares e headers ty cs -> ty <> [] -> e_sniff e (m_sample m) ty = Some s -> ~ contradicts ty s) /\ speak SniffP SniffK [] l = [])).
  { intros cond C H ->. right. split; [exact (H C)|reflexivity]. }
  destruct (negb (hash_present m) || no_full_content m) eqn:B.
  { injection V as <-. apply (NO True I); [|reflexivity]. intros _ ty cs s Hj. exfalso. apply J in Hj as [_ Hj]. destruct (hash_present m), (no_full_content m); discriminate. }
  assert (Hj : judged false m) by (apply J; split; [reflexivity|]; destruct (hash_present m), (no_full_content m); (reflexivity || discriminate B)).
  rewrite G in V. destruct (first_line (u "content-type") headers) as [v|] eqn:Hv; cbn [option_map] in V.
  2: { injection V as <-. apply (NO True I); [|reflexivity]. intros _ ty cs s _ D. exfalso. exact (declares_none _ _ _ _ Hv D). }
  unfold content_val, media_type_val in V. cbn [fst snd] in V. cbn [index nth_error] in V. rewrite ?lift_ok in V.
  assert (DD : forall ty cs, declares e headers ty cs -> ty = type_of v) by (intros ty cs D; apply (declares_eq _ _ _ _ _ Hv) in D; tauto).
  destruct (negb (truthy (VStr (type_of v)))) eqn:Tr.
  { injection V as <-. apply (NO True I); [|reflexivity]. intros _ ty cs s _ D Hne. exfalso. rewrite (DD _ _ D) in Hne. destruct (type_of v); [congruence|discriminate]. }
  assert (Hne : type_of v <> []) by (intros C; rewrite C in Tr; discriminate).
  cbn [as_str] in V. rewrite lift_ok in V.
  destruct (e_sniff e (m_sample m) (type_of v)) as [s|] eqn:Es.
  2: { injection V as <-. apply (NO True I); [|reflexivity]. intros _ ty cs s _ D _ Hs. exfalso. rewrite (DD _ _ D), Es in Hs. discriminate. }
  destruct (str_eqb s (type_of v)) eqn:E1; [|destruct (str_eqb (type_of v) (u "text/html") && _) eqn:E2].
  - injection V as <-. apply (NO True I); [|reflexivity]. intros _ ty cs s' _ D _ Hs Hc. rewrite (DD _ _ D) in *. rewrite Es in Hs. injection Hs as <-. apply contra_iff in Hc as [Hc _]. congruence.
  - injection V as <-. apply (NO True I); [|reflexivity]. intros _ ty cs s' _ D _ Hs Hc. rewrite (DD _ _ D) in *. rewrite Es in Hs. injection Hs as <-. apply contra_iff in Hc as [_ Hc]. congruence.
  - injection V as <-. left. exists (type_of v), (cs_of e v), s. split; [exact Hj|]. split; [apply (declares_eq _ _ _ _ _ Hv); auto|]. split; [exact Hne|]. split; [exact Es|].
    split; [apply contra_iff; auto|]. reflexivity.
Qed.
Theorem C63_sniff : forall e rel top headers chunks complete trailers t start nc head base m' rel',
  lint e rel top headers chunks complete trailers (new_linter t start nc head base) = (m', rel', Ok tt) -> unpadded (u "content-type") headers ->
  match t with
  | MResponse => sniff_says e nc headers m' (heard SniffP SniffK (m_notes m'))
  | _ => heard SniffP SniffK (m_notes m') = []
  end.
Proof.
  intros e rel top headers chunks complete trailers t start nc head base m' rel' E U.
  destruct (lint_content _ _ _ _ _ _ _ _ _ _ _ _ _ _ E) as (lt & lu & S1 & _ & M1 & _ & V).
  assert (R : run_of e t start base headers trailers m') by (do 7 eexists; exact E).
  pose proof (ct_value _ _ _ _ _ _ _ R U) as G.
  assert (H : heard SniffP SniffK (m_notes m') = speak SniffP SniffK [] lt).
  { rewrite (heard_file _ _ "content_type.py"%string), S1.
    - apply (msgs_heard _ _ t "content_type.py"%string); [reflexivity|exact M1].
    - intros n Hn. unfold classes in Hn. cbn [existsb] in Hn. rewrite orb_false_r in Hn. destruct n; (reflexivity || discriminate Hn). }
  rewrite H. clear H. destruct t; [destruct V as [-> _]; reflexivity| |destruct V as [-> _]; reflexivity].
  destruct nc; cbn [negb] in V.
  - destruct V as [-> _]. right. split; [|reflexivity]. intros ty cs s [C _]. discriminate C.
  - destruct V as [V _]. exact (sniff_case _ _ _ _ G V).
Qed.

(** ** The detector *)
Notation CharP := (classes [CHARSET_UNDECODABLE; CHARSET_IMPLICIT_MISMATCH; CHARSET_MISMATCH]).
Notation CharK := [u "media_type"; u "declared_charset"; u "detected_charset"].
Lemma bind_ret {A B} (a : A) (f : A -> W B) : bind (ret a) f = f a.
Proof. unfold bind, ret. destruct (f a) as [l r]. reflexivity. Qed.
Lemma canonical_cases e c : (exists n, e_codec e c = Ok n /\ canonical e c = ret (Some n)) \/ ((forall n, e_codec e c <> Ok n) /\ (canonical e c = ret None \/ exists x, canonical e c = raise x)).
Proof.
  unfold canonical. destruct (e_codec e c) as [n|x]; [left; eauto|]. right. split; [discriminate|]. destruct x; eauto.
Qed.
Lemma decode_cases e c b : (exists x, e_decode e c b = Ok x /\ try_decode e c b = ret (Some x)) \/ ((forall x, e_decode e c b <> Ok x) /\ (try_decode e c b = ret None \/ exists x, try_decode e c b = raise x)).
Proof.
  unfold try_decode. destruct (e_decode e c b) as [n|x]; [left; eauto|]. right. split; [discriminate|]. destruct x; eauto.
Qed.
Definition eff_of (ty : str) (cs : option str) : option (str * bool) :=
  if requires_utf8 ty then Some (u "utf-8", match cs with None => true | _ => false end)
  else match cs with Some s => if startswith (u "text/") ty && nonempty s then Some (s, false) else None | None => None end.
Lemma eff_iff ty cs c i : eff_of ty cs = Some (c, i) <-> charset_of ty cs c i.
Proof.
  unfold eff_of, charset_of. pose proof (utf8_iff ty) as H. destruct (requires_utf8 ty).
  - assert (J : json_type ty) by (apply H; reflexivity). split; [intros E; injection E as <- <-; left; auto|]. intros [(_ & -> & ->)|(N & _)]; [reflexivity|contradiction].
  - assert (J : ~ json_type ty) by (intros C; apply H in C; discriminate). split.
    + destruct cs as [s|]; [|discriminate]. destruct (startswith (u "text/") ty) eqn:S; [|discriminate]. destruct s as [|x s]; [discriminate|]. cbn [nonempty andb]. intros E. injection E as <- <-.
      right. split; [exact J|]. split; [apply startswith_iff; exact S|]. repeat split. discriminate.
    + intros [(C & _)|(_ & Hp & -> & Hc & ->)]; [contradiction|]. apply startswith_iff in Hp. rewrite Hp. destruct c; [congruence|reflexivity].
Qed.
Lemma compatible_cases e a d b ok l : compatible e a d b = (l, Ok ok) -> l = [] /\ (ok = true <-> exists x, e_decode e a b = Ok x /\ e_decode e d b = Ok x).
Proof.
  unfold compatible. destruct (decode_cases e a b) as [(x & Hx & ->)|(Hx & [->|(y & ->)])]; [| |discriminate].
  - rewrite bind_ret. destruct (decode_cases e d b) as [(z & Hz & ->)|(Hz & [->|(y & ->)])]; [| |discriminate].
    + rewrite bind_ret. intros E. injection E as <- <-. split; [reflexivity|]. rewrite str_eqb_eq. split; [intros ->; eauto|]. intros (w & H1 & H2). congruence.
    + rewrite bind_ret. intros E. injection E as <- <-. split; [reflexivity|]. split; [discriminate|]. intros (w & _ & H). destruct (Hz _ H).
  - rewrite bind_ret. intros E. injection E as <- <-. split; [reflexivity|]. split; [discriminate|]. intros (w & H & _). destruct (Hx _ H).
Qed.
Lemma charset_case e headers m l : m_get m "content-type" = option_map (content_val e) (first_line (u "content-type") headers) ->
  verify_charset e m = (l, Ok tt) -> charset_says e false headers m (speak CharP CharK [] l).
Proof.
  intros G V. unfold verify_charset in V. pose proof (judged_iff false m) as J. unfold judged_b in J.
  assert (NO : (forall ty c i name, ~ comparable e false headers m ty c i name) -> l = [] -> charset_says e false headers m (speak CharP CharK [] l)).
  { intros H ->. right. split; [exact H|reflexivity]. }
  destruct (negb (hash_present m) || negb (nonempty (m_sample m)) || no_full_content m) eqn:B.
  { injection V as <-. apply NO; [|reflexivity]. intros ty c i name (Hj & _ & _ & _ & (b & Hb & _)). apply J in Hj as [_ Hj].
    destruct (m_sample m); [destruct Hb|]. cbn [nonempty] in B. destruct (hash_present m), (no_full_content m); discriminate. }
  assert (Hj : judged false m) by (apply J; split; [reflexivity|]; destruct (hash_present m), (nonempty (m_sample m)), (no_full_content m); (reflexivity || discriminate B)).
  rewrite G in V. destruct (first_line (u "content-type") headers) as [v|] eqn:Hv; cbn [option_map] in V.
  2: { injection V as <-. apply NO; [|reflexivity]. intros ty c i name (_ & (cs & D & _) & _). exact (declares_none _ _ _ _ Hv D). }
  unfold content_val, media_type_val in V. cbn [fst snd] in V. cbn [index nth_error] in V. rewrite !lift_ok in V.
  assert (CC : forall ty c i name, comparable e false headers m ty c i name -> ty = type_of v /\ eff_of (type_of v) (cs_of e v) = Some (c, i) /\ e_codec e c = Ok name /\ exists b, In b (m_sample m) /\ 128 <= b).
  { intros ty c i name (_ & (cs & D & E) & _ & H1 & H2). apply (declares_eq _ _ _ _ _ Hv) in D as [-> ->]. apply eff_iff in E. auto. }
  destruct (negb (truthy (VStr (type_of v)))) eqn:Tr.
  { injection V as <-. apply NO; [|reflexivity]. intros ty c i name (_ & (cs & D & _) & Hne & _). apply (declares_eq _ _ _ _ _ Hv) in D as [-> _]. destruct (type_of v); [congruence|discriminate]. }
  assert (Hne : type_of v <> []) by (intros C; rewrite C in Tr; discriminate).
  cbn [as_str as_dict param_dict_val] in V. rewrite !lift_ok in V. rewrite par_shape in V. cbv zeta in V.
  assert (RW : match option_map opt_str (charset_par e v) with Some x => x | None => VNone end = opt_str (cs_of e v)) by (unfold cs_of; destruct (charset_par e v) as [[s|]|]; reflexivity).
  rewrite RW in V. clear RW.
  match type of V with bind ?x _ = _ => assert (EF : x = ret (eff_of (type_of v) (cs_of e v))) end.
  { unfold eff_of. destruct (requires_utf8 (type_of v)); [destruct (cs_of e v); reflexivity|]. destruct (cs_of e v) as [[|x s]|]; cbn [opt_str truthy nonempty]; rewrite ?andb_false_r, ?andb_true_r; try reflexivity.
    destruct (startswith _ _); reflexivity. }
  rewrite EF, bind_ret in V. clear EF. destruct (eff_of (type_of v) (cs_of e v)) as [[c i]|] eqn:Ef.
  2: { injection V as <-. apply NO; [|reflexivity]. intros ty c i name H. apply CC in H as (_ & H & _). congruence. }
  destruct (canonical_cases e c) as [(name & Hn & Hc)|(Hn & [Hc|(x & Hc)])]; rewrite Hc in V; [| |discriminate V].
  2: { rewrite bind_ret in V. injection V as <-. apply NO; [|reflexivity]. intros ty c' i' name H. apply CC in H as (_ & H & H' & _). injection H as <- <-. exact (Hn _ H'). }
  rewrite bind_ret in V. clear Hc.
  destruct (forallb (fun b => b <? 128) (m_sample m)) eqn:A.
  { assert (L0 : l = []) by (destruct (forallb ascii_space (m_sample m)); injection V as <-; reflexivity). apply NO; [|exact L0].
    intros ty c' i' name' H. apply CC in H as (_ & _ & _ & H). apply ascii_iff in H. congruence. }
  destruct (forallb ascii_space (m_sample m)) eqn:A2; [apply space_ascii in A2; congruence|]. clear A2. apply ascii_iff in A.
  assert (CO : comparable e false headers m (type_of v) c i name).
  { split; [exact Hj|]. split; [exists (cs_of e v); split; [apply (declares_eq _ _ _ _ _ Hv); auto|apply eff_iff; exact Ef]|]. repeat split; assumption. }
  left. exists (type_of v), c, i, name. split; [exact CO|].
  assert (GU : forall d, guess e m d <-> fst (e_chardet e (m_sample m)) = Some d /\ d <> []) by (intros d; reflexivity).
  unfold suspect. destruct (e_chardet e (m_sample m)) as [det conf] eqn:Ed. cbn [fst snd] in *.
  assert (DET : exists o, (o = None \/ exists d, det = Some d /\ d <> [] /\ o = Some d)
     /\ (o = None -> det = None \/ det = Some []) /\ match det with Some (c :: s) => c :: s | _ => u "unknown" end = match o with Some d => d | None => u "unknown" end
     /\ match det with Some (c :: s) => canonical e (c :: s) | _ => ret None end = match o with Some d => canonical e d | None => ret None end).
  { destruct det as [[|x s]|]; [exists None|exists (Some (x :: s))|exists None]; (split; [|split; [|split; reflexivity]]).
    - auto. - auto. - right. exists (x :: s). repeat split. discriminate. - discriminate. - auto. - auto. }
  destruct DET as (o & O1 & O2 & O3 & O4). rewrite O3, O4 in V. clear O3 O4.
  destruct (decode_cases e c (m_sample m)) as [(x & Hx & Hd)|(Hx & [Hd|(x & Hd)])]; rewrite Hd in V; [| |discriminate V]; rewrite bind_ret in V; clear Hd.
  - right. split; [eauto|].
    destruct o as [d|].
    2: { rewrite bind_ret in V. injection V as <-. right. split; [|reflexivity]. intros d (Hg & _). apply GU in Hg as [Hg1 Hg2]. destruct (O2 eq_refl) as [->| ->]; [discriminate Hg1|]. injection Hg1 as <-. congruence. }
    destruct O1 as [O1|(d' & -> & Hd & O1)]; [discriminate O1|]. injection O1 as <-.
    assert (UQ : forall d', guess e m d' -> d' = d) by (intros d' Hg; apply GU in Hg as [Hg _]; congruence).
    destruct (canonical_cases e d) as [(dn & Hn2 & Hc)|(Hn2 & [Hc|(y & Hc)])]; rewrite Hc in V; [| |discriminate V]; rewrite bind_ret in V; clear Hc.
    2: { injection V as <-. right. split; [|reflexivity]. intros d' (Hg & (dn & _ & H & _) & _). apply UQ in Hg as ->. exact (Hn2 _ H). }
    destruct dn as [|y dn].
    { injection V as <-. right. split; [|reflexivity]. intros d' (Hg & (dn & H0 & H & _) & _). apply UQ in Hg as ->. congruence. }
    destruct (str_eqb (y :: dn) name) eqn:E1.
    { injection V as <-. right. split; [|reflexivity]. intros d' (Hg & (dn' & _ & H & H3 & _) & _). apply UQ in Hg as ->. apply str_eqb_eq in E1. congruence. }
    destruct (Qle_bool (1 # 2) conf) eqn:E2.
    2: { injection V as <-. right. split; [|reflexivity]. intros d' (Hg & _ & H). apply Qle_bool_iff in H. congruence. }
    cbn [negb orb] in V. apply Qle_bool_iff in E2. unfold bind at 1 in V. destruct (compatible e name (y :: dn) (m_sample m)) as [lc [ok|w]] eqn:Ec; [|discriminate V].
    apply compatible_cases in Ec as [-> Ec]. destruct ok.
    { injection V as <-. right. split; [|reflexivity]. intros d' (Hg & (dn' & _ & H & _ & H3) & _). apply UQ in Hg as ->. apply H3. replace dn' with (y :: dn) by congruence. apply Ec. reflexivity. }
    left. exists d. split.
    { split; [apply GU; auto|]. split; [|exact E2]. exists (y :: dn). split; [discriminate|]. split; [exact Hn2|]. split; [intros C; rewrite C, str_eqb_refl in E1; discriminate|]. intros C. apply Ec in C. discriminate. }
    destruct i; injection V as <-; reflexivity.
  - left. split; [exact Hx|].
    assert (VV : exists o2, (let '(l0, r0) := msg "content-type" CHARSET_UNDECODABLE [vs "declared_charset" c; vs "detected_charset" match o with Some d => d | None => u "unknown" end] in (o2 ++ l0, r0)) = (l, Ok tt) /\ o2 = []).
    { exists []. split; [|reflexivity]. destruct o as [d|]; [|exact V].
      destruct (canonical_cases e d) as [(dn & Hn2 & Hc)|(Hn2 & [Hc|(y & Hc)])]; rewrite Hc in V; [| |discriminate V]; exact V. }
    destruct VV as (o2 & VV & ->). injection VV as <-.
    exists match o with Some d => d | None => u "unknown" end. split; [|reflexivity].
    destruct O1 as [->|(d & -> & Hd & ->)].
    + right. split; [|reflexivity]. intros d Hg. apply GU in Hg as [Hg1 Hg2]. destruct (O2 eq_refl) as [->| ->]; [discriminate Hg1|]. injection Hg1 as <-. congruence.
    + left. apply GU. auto.
Qed.
Theorem C63_charset : forall e rel top headers chunks complete trailers t start nc head base m' rel',
  lint e rel top headers chunks complete trailers (new_linter t start nc head base) = (m', rel', Ok tt) -> unpadded (u "content-type") headers ->
  match t with
  | MResponse => charset_says e nc headers m' (heard CharP CharK (m_notes m'))
  | _ => heard CharP CharK (m_notes m') = []
  end.
Proof.
  intros e rel top headers chunks complete trailers t start nc head base m' rel' E U.
  destruct (lint_content _ _ _ _ _ _ _ _ _ _ _ _ _ _ E) as (lt & lu & _ & S2 & _ & M2 & V).
  assert (R : run_of e t start base headers trailers m') by (do 7 eexists; exact E).
  pose proof (ct_value _ _ _ _ _ _ _ R U) as G.
  assert (H : heard CharP CharK (m_notes m') = speak CharP CharK [] lu).
  { rewrite (heard_file _ _ "charset.py"%string), S2.
    - apply (msgs_heard _ _ t "charset.py"%string); [reflexivity|exact M2].
    - intros n Hn. unfold classes in Hn. cbn [existsb] in Hn. rewrite orb_false_r in Hn. destruct n; (reflexivity || discriminate Hn). }
  rewrite H. clear H. destruct t; [destruct V as [_ ->]; reflexivity| |destruct V as [_ ->]; reflexivity].
  destruct nc; cbn [negb] in V.
  - destruct V as [_ ->]. right. split; [|reflexivity]. intros ty c i name [[C _] _]. discriminate C.
  - destruct V as [_ V]. exact (charset_case _ _ _ _ G V).
Qed.

(** ** The character encoding *)
Lemma start_charenc e top m : m_charenc (fst (start_line e top m)) = m_charenc m.
Proof.
  destruct top; cbn [start_line]; [reflexivity| |].
  - unfold process_request_topline, set_uri. destruct (iri_to_uri _ _) as [uri|x]; [|destruct (is_ValueError x)]; cbn [fst]; auto. destruct (match_ws_dollar _ _); destruct (Nat.ltb _ _); cbn [fst]; auto.
  - cbn [fst]. unfold process_response_topline. destruct (py_int _); destruct phrase as [[|x c]|]; auto; destruct (decode_ascii_strict _); auto.
Qed.
Theorem C63_encoding : forall e rel top headers chunks complete trailers t start nc head base m' rel',
  lint e rel top headers chunks complete trailers (new_linter t start nc head base) = (m', rel', Ok tt) -> unpadded (u "content-type") headers ->
  encoding_says e headers (m_charenc m').
Proof.
  intros e rel top headers chunks complete trailers t start nc head base m' rel' E U.
  assert (R : run_of e t start base headers trailers m') by (do 7 eexists; exact E).
  pose proof (ct_value _ _ _ _ _ _ _ R U) as G.
  destruct (lint_stages _ _ _ _ _ _ _ _ _ _ _ _ _ _ E) as (p & m0 & m1 & m & Hp & L0 & E0 & E1 & E2 & L1 & L2 & E3).
  pose proof (start_charenc e top (new_linter t start nc head base)) as C0. rewrite E0 in C0. cbn [fst] in C0. change (m_charenc (new_linter t start nc head base)) with (@None str) in C0.
  pose proof (feed_all_body e chunks m1) as Ff. rewrite E2 in Ff. cbn [fst] in Ff.
  destruct (finish_content_frame e rel complete trailers m) as [Fn _]. rewrite E3 in Fn. cbn [fst] in Fn.
  assert (H1 : m_charenc m' = m_charenc m1) by (rewrite Fn; cbn; rewrite Ff; reflexivity).
  assert (H2 : m_get m' "content-type" = m_get m1 "content-type") by (unfold m_get; f_equal; rewrite Fn; cbn; rewrite Ff; reflexivity).
  rewrite H2 in G. clear H2. unfold process_headers in E1. pose proof (process_frame e rel false m0 headers) as Fp. destruct (process e rel false m0 headers) as [mh [[]|x]]; [|discriminate E1]. cbn [fst] in Fp.
  assert (C1 : m_charenc mh = None) by (rewrite Fp; exact C0).
  assert (G1 : m_get mh "content-type" = option_map (content_val e) (first_line (u "content-type") headers)).
  { rewrite <- G. unfold m_get. f_equal. repeat match type of E1 with
           | match ?x with _ => _ end = _ => destruct x; try discriminate E1
           end; injection E1 as <-; reflexivity. }
  rewrite G1 in E1. rewrite H1. clear H1 G G1. unfold encoding_says.
  destruct (first_line (u "content-type") headers) as [v|] eqn:Hv; cbn [option_map] in E1.
  2: { injection E1 as <-. right. split; [|exact C1]. intros ty c name D. destruct (declares_none _ _ _ _ Hv D). }
  unfold content_val, media_type_val in E1. cbn [fst snd] in E1. cbn [index nth_error rbind as_dict param_dict_val] in E1. rewrite par_shape in E1.
  assert (NO : (forall c name, cs_of e v = Some c -> e_codec e c <> Ok name) -> m_charenc m1 = None ->
    (exists ty c name, declares e headers ty (Some c) /\ e_codec e c = Ok name /\ m_charenc m1 = Some c)
    \/ (forall ty c name, declares e headers ty (Some c) -> e_codec e c <> Ok name) /\ m_charenc m1 = None).
  { intros H Hm. right. split; [|exact Hm]. intros ty c name D. apply (declares_eq _ _ _ _ _ Hv) in D as [_ D]. apply H. auto. }
  unfold cs_of in NO. pose proof (declares_eq e headers v (type_of v) (cs_of e v) Hv) as DD. unfold cs_of in DD.
  destruct (charset_par e v) as [[s|]|]; cbn [option_map opt_str] in E1.
  - destruct (e_codec e s) as [name|x] eqn:Ec.
    + injection E1 as <-. left. exists (type_of v), s, name. split; [apply DD; auto|]. split; [exact Ec|reflexivity].
    + assert (m_charenc m1 = None) by (destruct x; try discriminate E1; injection E1 as <-; exact C1). apply NO; [|assumption]. intros c name D. injection D as <-. congruence.
  - injection E1 as <-. apply NO; [discriminate|exact C1].
  - injection E1 as <-. apply NO; [discriminate|exact C1].
Qed.
Print Assumptions C63_sniff.
Print Assumptions C63_charset.
Print Assumptions C63_encoding.
(** The specification has one answer. *)
Lemma declares_one e headers ty cs ty' cs' : declares e headers ty cs -> declares e headers ty' cs' -> ty = ty' /\ cs = cs'.
Proof. intros (v & H1 & -> & ->) (v' & H2 & -> & ->). rewrite H1 in H2. injection H2 as <-. auto. Qed.
Theorem C63_sniff_one : forall e nc headers m r r', sniff_says e nc headers m r -> sniff_says e nc headers m r' -> r = r'.
Proof.
  intros e nc headers m r r' [(ty & cs & s & J & D & N & S & C & ->)|[F ->]] [(ty' & cs' & s' & J' & D' & N' & S' & C' & ->)|[F' ->]].
  - destruct (declares_one _ _ _ _ _ _ D D') as [<- <-]. rewrite S in S'. injection S' as <-. reflexivity.
  - destruct (F' _ _ _ J D N S C).
  - destruct (F _ _ _ J' D' N' S' C').
  - reflexivity.
Qed.
Theorem C63_charset_one : forall e nc headers m r r', charset_says e nc headers m r -> charset_says e nc headers m r' -> r = r'.
Proof.
  intros e nc headers m r r' H H'.
  assert (G : forall d d', guess e m d -> guess e m d' -> d = d') by (intros d d' [A _] [B _]; rewrite A in B; injection B as B; exact B).
  destruct H as [(ty & c & i & n & (J & (cs & D & X) & Hn & Cn & Hb) & H)|[F ->]], H' as [(ty' & c' & i' & n' & (J' & (cs' & D' & X') & Hn' & Cn' & Hb') & H')|[F' ->]].
  - destruct (declares_one _ _ _ _ _ _ D D') as [<- <-]. apply eff_iff in X, X'. rewrite X in X'. injection X' as <- <-. rewrite Cn in Cn'. injection Cn' as <-.
    destruct H as [(U & s & S & ->)|((x & Dx) & H)], H' as [(U' & s' & S' & ->)|((x' & Dx') & H')].
    + destruct S as [S|[S ->]], S' as [S'|[S' ->]]; [rewrite (G _ _ S S'); reflexivity|destruct (S' _ S)|destruct (S _ S')|reflexivity].
    + destruct (U _ Dx').
    + destruct (U' _ Dx).
    + destruct H as [(d & Y & ->)|[Y ->]], H' as [(d' & Y' & ->)|[Y' ->]]; [|destruct (Y' _ Y)|destruct (Y _ Y')|reflexivity].
      rewrite (G d d'); [reflexivity|apply Y|apply Y'].
  - destruct (F' ty c i n). split; [exact J|]. split; [exists cs; auto|]. auto.
  - destruct (F ty' c' i' n'). split; [exact J'|]. split; [exists cs'; auto|]. auto.
  - reflexivity.
Qed.

(** ** Examples *)
Definition char_env : env :=
  mkEnv (e_sf_item env0) (e_sf_list env0) (e_sf_dict env0) (e_json env0) (e_urlsplit env0) (e_urljoin env0) (e_quote env0) (e_unquote env0)
        (e_unsplit env0) (e_idna env0) (e_utf8 env0)
        (fun s => if str_in (lower s) [u "utf-8"; u "iso-8859-1"] then Ok (lower s) else Err ELookup)
        (fun c b => if str_eqb (lower c) (u "iso-8859-1") then Ok b else if existsb (N.eqb 233) b then Err EDecode else Ok (filter (fun x => negb (x =? 195)) b))
        (fun b => if existsb (N.eqb 233) b then (Some (u "ISO-8859-1"), 73 # 100) else if existsb (N.eqb 169) b then (Some (u "utf-8"), 99 # 100) else (None, 0))%Q
        (fun b _ => match b with 60 :: _ => Some (u "text/html") | _ => None end) (e_rank env0)
        (e_b64 env0) (fun _ => u "digest") (e_float_str env0) (e_reltime env0) (e_repr env0) (e_display env0)
        (e_inflate env0) (e_brotli env0).
Definition char_notes (ct : string) (content : bytes) := let '(m, _, r) := lint char_env None (TopResponse (u "1.1") (u "200") None) (raws [("Content-Type", ct)]%string) [content] true [] (new_linter MResponse None false false []) in
  (r, m_charenc m, heard SniffP SniffK (m_notes m), heard CharP CharK (m_notes m)).
Example C63_ex_sniff : char_notes "Text/Plain; charset=utf-8" (u "<p>") = (Ok tt, Some (u "utf-8"), [(CONTENT_TYPE_MISMATCH, u "content-type", [text (u "text/plain"); text (u "text/html")])], []).
Proof. vm_compute. reflexivity. Qed.
Example C63_ex_mismatch : char_notes "text/plain; charset=ISO-8859-1" [99; 195; 169] = (Ok tt, Some (u "ISO-8859-1"), [], [(CHARSET_MISMATCH, u "content-type", [None; text (u "ISO-8859-1"); text (u "utf-8")])]).
Proof. vm_compute. reflexivity. Qed.
Example C63_ex_undecodable : char_notes "application/problem+json" [99; 233] = (Ok tt, None, [], [(CHARSET_UNDECODABLE, u "content-type", [None; text (u "utf-8"); text (u "ISO-8859-1")])]).
Proof. vm_compute. reflexivity. Qed.
Example C63_ex_unknown : char_notes "text/plain; charset=martian" [99; 233] = (Ok tt, None, [], []).
Proof. vm_compute. reflexivity. Qed.
Example C63_ex_hyps : unpadded (u "content-type") (raws [("Content-Type", "application/problem+json")]%string) /\ json_type (u "application/problem+json") /\ ~ json_type (u "text/plain").
Proof.
  split; [split; [reflexivity|repeat constructor; vm_compute; intros H; try discriminate H; reflexivity]|]. split; [apply utf8_iff; reflexivity|]. intros H. apply utf8_iff in H. discriminate H.
Qed.
