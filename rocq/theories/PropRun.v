(** * Properties of whole sessions: C06 (rendering), C08 (Markdown values), C32 (no exceptions). *)
From Verif Require Import PyStr Regex Note PyLib Utils FieldAttrs Types Fields2 Framework Checks Message Session
  EvLogic NoteLemmas TestEnv FrameLemmas BodyLemmas PassEval PassSF PassFrame PassSec PassProc PassMsg PassRun SessionLemmas RenderLemmas.
Open Scope N_scope.

(** ** C06 *)
(** A note and its sub-notes. *)
Definition with_kids (n : note) : list (nid * vars) := (n_cls n, n_vars n) :: n_kids n.
Lemma linted_notes e rel p m n : linted e rel p m -> In n (m_notes m) -> n_cls n <> CONTENT_NOT_ALLOWED -> note_good n.
Proof.
  intros H Hin Hc. destruct (linted_inv e rel p m H) as [F _]. rewrite Forall_forall in F.
  destruct (F n Hin) as [[Hn _]|Hg]; [contradiction|exact Hg].
Qed.
(** In any state of a session every note and sub-note renders exactly if its
    time intervals are within Python's timedelta ... *)
Theorem C06_renders : forall e rel p m n cls vs e',
  linted e rel p m -> In n (m_notes m) -> n_cls n <> CONTENT_NOT_ALLOWED -> In (cls, vs) (with_kids n) ->
  (renders e' cls vs <-> in_range vs).
Proof.
  intros e rel p m n cls vs e' H Hin Hc Hk. destruct (linted_notes e rel p m n H Hin Hc) as [[Hv _] Hks].
  apply renders_iff. destruct Hk as [E|Hk]; [injection E as <- <-; exact Hv|].
  rewrite Forall_forall in Hks. apply (Hks _ Hk).
Qed.
Print Assumptions C06_renders.
(** ... and only these classes have any. *)
Theorem C06_times : forall e rel p m n cls vs k ut now sign,
  linted e rel p m -> In n (m_notes m) -> n_cls n <> CONTENT_NOT_ALLOWED -> In (cls, vs) (with_kids n) ->
  In (k, VRel ut now sign) vs ->
  In cls [DATE_INCORRECT; LM_PRESENT; SET_COOKIE_LIFETIME_TOO_LONG; CURRENT_AGE; FRESHNESS_SHARED_PRIVATE; FRESHNESS_FRESH;
          FRESHNESS_STALE_ALREADY].
Proof.
  intros e rel p m n cls vs k ut now sign H Hin Hc Hk Hr. destruct (linted_notes e rel p m n H Hin Hc) as [[_ [Hp _]] Hks].
  assert (T : timed cls = true).
  { destruct Hk as [E|Hk].
    - injection E as <- <-. rewrite Forall_forall in Hp. apply (Hp _ Hr).
    - rewrite Forall_forall in Hks. destruct (Hks _ Hk) as (_ & Hp2 & _). rewrite Forall_forall in Hp2. apply (Hp2 _ Hr). }
  destruct cls; try discriminate T; cbn; tauto.
Qed.
Print Assumptions C06_times.
Theorem C06_untimed : forall e rel p m n cls vs e',
  linted e rel p m -> In n (m_notes m) -> n_cls n <> CONTENT_NOT_ALLOWED -> In (cls, vs) (with_kids n) ->
  ~ In cls [DATE_INCORRECT; LM_PRESENT; SET_COOKIE_LIFETIME_TOO_LONG; CURRENT_AGE; FRESHNESS_SHARED_PRIVATE; FRESHNESS_FRESH;
            FRESHNESS_STALE_ALREADY] ->
  renders e' cls vs.
Proof.
  intros e rel p m n cls vs e' H Hin Hc Hk Ht. apply (C06_renders e rel p m n cls vs e' H Hin Hc Hk).
  apply Forall_forall. intros [k v] Hkv. cbn [snd]. destruct v; try exact I.
  destruct Ht. apply (C06_times e rel p m n cls vs k utime now show_sign H Hin Hc Hk Hkv).
Qed.
Print Assumptions C06_untimed.
(** CONTENT_NOT_ALLOWED's summary needs a variable that is never given. *)
Lemma cna_off : off_field (among [CONTENT_NOT_ALLOWED]) /\ apart (among [CONTENT_NOT_ALLOWED]) (among top_classes)
  /\ apart (among [CONTENT_NOT_ALLOWED]) (in_file dec_file) /\ apart (among [CONTENT_NOT_ALLOWED]) post_files
  /\ apart (among [CONTENT_NOT_ALLOWED]) (among [CL_CORRECT; CL_INCORRECT]).
Proof.
  split; [apply off_among; vm_compute; reflexivity|].
  repeat match goal with |- _ /\ _ => split end; apply apart_among; vm_compute; reflexivity.
Qed.
Lemma cna_keys e rel p m : linted e rel p m ->
  Forall (fun n => keys (n_vars n) = [k_message_type]) (sel (among [CONTENT_NOT_ALLOWED]) (m_notes m)).
Proof.
  destruct cna_off as (O1 & O2 & O3 & O4 & O5). set (P := among [CONTENT_NOT_ALLOWED]) in *.
  induction 1 as [t start nc head base|m a b c m' r H IH E|m a b c H IH|p m raws m' r H IH Hp E
                 |m chunk m' r H IH E|m complete trailers m' rel' r H IH E].
  - constructor.
  - pose proof (request_topline_pass e a b c m) as P0. rewrite E in P0. rewrite (mnoted_sel _ _ _ _ O2 (proj1 P0)). exact IH.
  - rewrite (mnoted_sel _ _ _ _ O2 (response_topline_pass a b c m)). exact IH.
  - destruct (linted_inv _ _ _ _ H) as [_ U0].
    assert (U : untouched m) by (destruct Hp; subst p; exact U0). destruct U as (U1 & _).
    pose proof (process_headers_pass (fun _ => True) (fun _ => True) e rel m raws) as P0. rewrite U1 in P0. specialize (P0 eq_refl).
    rewrite E in P0. destruct P0 as [N _]; [apply Forall_forall; auto|]. rewrite (noted_sel _ _ _ O1 N). exact IH.
  - pose proof (feed_pass e chunk m) as P0. rewrite E in P0. rewrite (mnoted_sel _ _ _ _ O3 (proj1 P0)). exact IH.
  - destruct (linted_inv _ _ _ _ H) as [_ (A & B & C)].
    destruct (finish_pass_stages (fun _ => True) (fun _ => True) e rel complete trailers m m' rel' r A B) as (m0 & m1 & -> & N & S & D & _).
    { apply Forall_forall. auto. }
    { exact E. }
    assert (S1 : sel P (m_notes m1) = sel P (m_notes m)) by (rewrite (noted_sel _ _ _ O1 N); reflexivity).
    destruct D as [(_ & -> & _)|(m2 & m3 & E2 & N2 & F2 & _ & N3 & _ & _)]; [rewrite S1; exact IH|].
    rewrite (noted_sel _ _ _ O1 N3), (mnoted_sel _ _ _ _ O4 N2).
    assert (S2 : sel P (m_notes m2) = sel P (m_notes m)) by (rewrite E2; exact S1).
    destruct (content_length_pass m2) as [X|(n & En & Ek & ->)]; [rewrite (mnoted_sel _ _ _ _ O5 X), S2; exact IH|].
    rewrite sel_app, S2. apply Forall_app. split; [exact IH|]. unfold sel. cbn [filter]. destruct (P (n_cls n)); constructor; auto.
Qed.
Theorem C06_not_allowed : forall e rel p m n e' s,
  linted e rel p m -> In n (m_notes m) -> n_cls n = CONTENT_NOT_ALLOWED -> summary e' (n_cls n) (n_vars n) <> Ok s.
Proof.
  intros e rel p m n e' s H Hin Hc. pose proof (cna_keys e rel p m H) as F. rewrite Forall_forall in F.
  rewrite Hc. apply (summary_missing _ _ _ (u "message")); [left; reflexivity|].
  rewrite (F n); [intros [E|[]]; discriminate E|]. apply filter_In. split; [exact Hin|]. rewrite Hc. reflexivity.
Qed.
Print Assumptions C06_not_allowed.

(** Both kinds of failure happen. *)
Definition response_run (e : env) (start : option Q) (headers : list (string * string)) (chunks : list bytes) :=
  lint e None (TopResponse (u "1.1") (u "200") None) (map (fun h => (u (fst h), u (snd h))) headers) chunks true []
       (new_linter MResponse start false false []).
Definition fails (e : env) (n : note) : bool :=
  match summary e (n_cls n) (n_vars n), detail_md e (n_cls n) (n_vars n) with Ok _, Ok _ => false | _, _ => true end.
Theorem C06_refuted :
  (let '(m, _, r) := lint env0 None (TopResponse (u "1.1") (u "304") None) [] [u "x"] true [] (new_linter MResponse None false false []) in
   r = Ok tt /\ map n_cls (filter (fails env0) (m_notes m)) = [CONTENT_NOT_ALLOWED])
  /\ (let '(m, _, r) := response_run env0 None [("Set-Cookie", "a=b; Max-Age=99999999999999")%string] [] in
      r = Ok tt /\ map n_cls (filter (fails env0) (m_notes m)) = [SET_COOKIE_LIFETIME_TOO_LONG]).
Proof. split; vm_compute; repeat split. Qed.
Print Assumptions C06_refuted.

(** ** C08: the MarkdownSafe values of a linted message are code spans between
    fixed separators, and the spans hold no backtick ([md_shape]). *)
Theorem C08_library : forall e rel p m n cls vs k s,
  linted e rel p m -> In n (m_notes m) -> n_cls n <> CONTENT_NOT_ALLOWED -> In (cls, vs) (with_kids n) -> In (k, VMd s) vs -> md_shape s.
Proof.
  intros e rel p m n cls vs k s H Hin Hc Hk Hr. destruct (linted_notes e rel p m n H Hin Hc) as [[_ [Hp _]] Hks].
  destruct Hk as [E|Hk].
  - injection E as <- <-. rewrite Forall_forall in Hp. apply (Hp _ Hr).
  - rewrite Forall_forall in Hks. destruct (Hks _ Hk) as (_ & Hp2 & _). rewrite Forall_forall in Hp2. apply (Hp2 _ Hr).
Qed.
Print Assumptions C08_library.
Example C08_library_ex :
  let '(m, _, r) := response_run env0 None [("Cache-Control", "no-store, max-age=3, public")%string] [] in
  r = Ok tt /\ existsb (fun n => existsb (fun kv => match snd kv with VMd _ => true | _ => false end) (n_vars n)) (m_notes m) = true.
Proof. vm_compute. repeat split. Qed.

(** ** C32 *)
(** Linting a request with plain names gives a request that a response linter
    may be related to. *)
Lemma request_typed e top headers chunks complete trailers start nc head base r rel' :
  bare_raws headers ->
  lint e None top headers chunks complete trailers (new_linter MRequest start nc head base) = (r, rel', Ok tt) -> rel_ok (Some r).
Proof.
  intros Hb E. destruct (lint_facts _ _ _ _ _ _ _ _ _ _ _ _ _ _ E) as (SM & _).
  destruct (lint_stages _ _ _ _ _ _ _ _ _ _ _ _ _ _ E) as (p & m0 & m1 & m & Hp & L0 & E0 & E1 & E2 & L1 & L2 & E3).
  destruct (linted_inv _ _ _ _ L0) as [_ U0].
  assert (U : untouched m0) by (destruct Hp; subst p; exact U0). destruct U as (U1 & U2 & U3 & _).
  pose proof (process_headers_pass (fun _ => True) bare_name e None m0 headers) as P0. rewrite U1 in P0. specialize (P0 eq_refl Hb).
  rewrite E1 in P0. destruct P0 as (_ & _ & _ & P2 & _).
  assert (T0 : m_type m0 = MRequest).
  { pose proof (setup_start e top (new_linter MRequest start nc head base)) as S0. rewrite E0 in S0. injection S0 as -> _ _ _ _. reflexivity. }
  assert (S1 : tsane e None m0).
  { split; [|split]; cbn [cx_msg cx_rel]; [|exact I|rewrite U3; congruence]. intros k v. rewrite U1. discriminate. }
  specialize (P2 (fun n H => H) S1). destruct P2 as [Ty _]. cbn [cx_msg] in Ty.
  pose proof (feed_all_body e chunks m1) as B. rewrite E2 in B. cbn [fst] in B.
  destruct (finish_content_frame e None complete trailers m) as [F3 _]. rewrite E3 in F3. cbn [fst] in F3.
  injection SM as T _ _ _ _. split; [|exact T]. intros k v. rewrite T.
  assert (Hh : m_headers r = m_headers m1) by (rewrite F3; cbn; rewrite B; reflexivity).
  assert (T1 : m_type m1 = MRequest).
  { pose proof (process_headers_frame e None headers m0) as F. rewrite E1 in F. cbn [fst] in F. rewrite F. exact T0. }
  rewrite Hh, <- T1. apply Ty.
Qed.
(** The related linter: none, or one a request was linted with, whose field
    names had no whitespace around them. *)
Definition good_related (e : env) (rel : option mstate) : Prop :=
  rel = None \/ exists r top headers chunks complete trailers start nc head base rel',
    rel = Some r /\ bare_raws headers
    /\ lint e None top headers chunks complete trailers (new_linter MRequest start nc head base) = (r, rel', Ok tt).
(** What the standard library documents: the URL functions and the IDNA codec
    raise nothing but ValueErrors ... *)
Definition documented (e : env) : Prop := url_errors e /\ uri_calm e.
(** No method raises, if the names have no whitespace around them, every field
    gets from the library functions what it needs ([fit]: only Link, NEL,
    Referer, Speculation-Rules, Reporting-Endpoints, Report-To and Cache-Status
    need anything), the charset is not one of those whose codec raises other
    exceptions, and (responses with both clocks known) the numbers fit floats. *)
Theorem C32_no_raise : forall Bad e rel top headers chunks complete trailers t start nc head base,
  documented e -> codec_calm Bad e -> Forall (fit_raw e) headers -> Forall (fit_raw e) trailers -> good_related e rel ->
  let m := new_linter t start nc head base in
  (forall m1, fst (then_ (start_line e top m) (process_headers e rel headers)) = m1 ->
     charset_ok Bad m1 /\ (t = MResponse -> caching_fits m1 rel)) ->
  exists m' rel', lint e rel top headers chunks complete trailers m = (m', rel', Ok tt).
Proof.
  intros Bad e rel top headers chunks complete trailers t start nc head base [D1 D2] Cd Hh Ht Hr m Hm.
  apply (lint_ok Bad); auto. destruct Hr as [-> |(r & tp & hs & cs & cp & ts & st & n & hd & bs & rl & -> & Hb & E)]; [exact I|].
  apply (request_typed e tp hs cs cp ts st n hd bs r rl Hb E).
Qed.
Print Assumptions C32_no_raise.
(** The fields that need nothing. *)
Definition easy (f : fname) : bool :=
  match f with
  | F_link | F_nel | F_referer | F_speculation_rules | F_reporting_endpoints | F_report_to | F_cache_status => false
  | _ => true
  end.
Lemma easy_fit f e : easy f = true -> fit f e.
Proof.
  intros H. split; [|split].
  - destruct f; try discriminate H; discriminate.
  - destruct f; try discriminate H; cbv; discriminate.
  - intros ->. discriminate.
Qed.
Lemma setup_then e rel top headers m : setup (fst (then_ (start_line e top m) (process_headers e rel headers))) = setup m.
Proof.
  pose proof (setup_start e top m) as S0. destruct (start_line e top m) as [m0 [x|x]]; cbn [fst then_] in *; [|exact S0].
  rewrite <- S0. apply setup_headers.
Qed.
Theorem C32_easy : forall Bad e rel top headers chunks complete trailers t nc head base,
  documented e -> codec_calm Bad e -> good_related e rel ->
  Forall (fun raw => let n := fst (read_name (fst raw)) in strip n = n /\ easy (find_class n) = true) (headers ++ trailers) ->
  let m := new_linter t None nc head base in
  charset_ok Bad (fst (then_ (start_line e top m) (process_headers e rel headers))) ->
  exists m' rel', lint e rel top headers chunks complete trailers m = (m', rel', Ok tt).
Proof.
  intros Bad e rel top headers chunks complete trailers t nc head base D Cd Hr Hf m Hcs.
  apply Forall_app in Hf as [Hh Ht].
  apply (C32_no_raise Bad e rel top headers chunks complete trailers t None nc head base); auto.
  - eapply Forall_impl; [|exact Hh]. intros raw [H1 H2]. split; [exact H1|apply easy_fit, H2].
  - eapply Forall_impl; [|exact Ht]. intros raw [H1 H2]. split; [exact H1|apply easy_fit, H2].
  - intros m1 <-. split; [exact Hcs|]. intros _. left.
    pose proof (f_equal (fun x => snd (fst (fst (fst x)))) (setup_then e rel top headers m)) as S. cbn [setup fst snd] in S.
    unfold no_clock. fold m. rewrite S. reflexivity.
Qed.
Print Assumptions C32_easy.
(** The hypotheses are met, e.g. here. *)
Lemma env0_documented : documented env0.
Proof. repeat split; intros; discriminate. Qed.
Lemma env0_codec : codec_calm (fun _ => False) env0.
Proof.
  split; try (intros; auto; fail).
  - cbn. intros s x _. destruct (str_eqb s _); intros H; inversion H; auto.
  - cbn. intros. discriminate.
Qed.
Example C32_easy_ex :
  exists m' rel', lint env0 None (TopResponse (u "1.1") (u "200") (Some (u "OK")))
    [(u "Cache-Control", u "max-age=3, =a"); (u "Vary", u ", ,"); (u "Age", u "x")] [u "abc"; u "d"] true [(u "Date", u "?")]
    (new_linter MResponse None false false []) = (m', rel', Ok tt).
Proof.
  apply (C32_easy (fun _ => False)); [apply env0_documented|apply env0_codec|left; reflexivity| |intros ? ? ? _ _ []].
  repeat (apply Forall_cons; [vm_compute; split; reflexivity|]). apply Forall_nil.
Qed.

(** Each of the conditions is needed: *)
Definition raises (w : mstate * option mstate * res unit) (x : exn) : Prop := snd w = Err x.
Definition headers_run (e : env) (h : list (string * string)) := response_run e None h [].
(** whitespace after a known name (the value of the real field is overwritten), *)
Theorem C32_refuted_name :
  raises (headers_run env0 [("Content-Type ", "text/html")%string]) EIndex
  /\ raises (headers_run env0 [("Access-Control-Max-Age ", "5")%string]) EKey.
Proof. split; vm_compute; reflexivity. Qed.
(** a boolean false Cache-Status member parameter, *)
Definition sf_hit (s : str) : sfres (list member) := SFOk [MItem (BTok s) [(u "hit", BBool false)]] [].
Theorem C32_refuted_flag :
  raises (headers_run (env_with sf_hit (e_json env0) (e_urlsplit env0) (e_codec env0) (e_decode env0)) [("Cache-Status", "a;hit=?0")%string]) EType.
Proof. vm_compute. reflexivity. Qed.
(** a URL urlsplit rejects, *)
Theorem C32_refuted_url :
  raises (headers_run (env_with (e_sf_list env0) (e_json env0) (fun _ => Err EValue) (e_codec env0) (e_decode env0))
            [("Link", "<http://[>; rel=preload")%string]) EValue.
Proof. vm_compute. reflexivity. Qed.
(** JSON the decoder gives up on with another exception than JSONDecodeError, *)
Theorem C32_refuted_json : forall x,
  raises (headers_run (env_with (e_sf_list env0) (fun _ => JRaise x) (e_urlsplit env0) (e_codec env0) (e_decode env0))
            [("NEL", "[[")%string]) x.
Proof. intros x. vm_compute. reflexivity. Qed.
(** a charset whose codec raises something else, *)
Theorem C32_refuted_charset :
  raises (response_run (env_with (e_sf_list env0) (e_json env0) (e_urlsplit env0) (fun s => Ok s) (fun _ _ => Err EUnicode))
            None [("Content-Type", "text/html; charset=idna")%string] [[200; 201]]) EUnicode.
Proof. vm_compute. reflexivity. Qed.
(** both clocks and an unusable Age, *)
Theorem C32_refuted_age :
  let '(r, _, _) := lint env0 None (TopRequest (u "GET") (u "/") (u "1.1")) [] [] true [] (new_linter MRequest (Some 5%Q) false false []) in
  raises (lint env0 (Some r) (TopResponse (u "1.1") (u "200") None) [(u "Age", u "x"); (u "Cache-Control", u "max-age=3")] [] true []
            (new_linter MResponse (Some 6%Q) false false [])) EType.
Proof. vm_compute. reflexivity. Qed.
(** or one that does not fit a float. *)
Theorem C32_refuted_float :
  let '(r, _, _) := lint env0 None (TopRequest (u "GET") (u "/") (u "1.1")) [] [] true [] (new_linter MRequest (Some 5%Q) false false []) in
  raises (lint env0 (Some r) (TopResponse (u "1.1") (u "200") None) [(u "Age", u "1" ++ repeat 48 400); (u "Cache-Control", u "max-age=3")] [] true []
            (new_linter MResponse (Some 6%Q) false false [])) EOverflow.
Proof. vm_compute. reflexivity. Qed.
