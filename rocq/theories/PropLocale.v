(** * C42: notes in the shipped locales. *)
From Verif Require Import PyStr NoteTable Note PyLib Types Framework Checks Message EvLogic NoteLemmas PassRun RenderLemmas TestEnv Session PropRun Locale.
From Verif Require Cat_es Cat_fr Cat_ja Cat_zh.
From Coq Require Import String Lia.
Open Scope N_scope.

(** Without a catalogue nothing changes. *)
Lemma tmpl_u s : tmpl_str (u s) = tmpl s.
Proof. unfold tmpl_str, tmpl. f_equal. f_equal. induction s as [|c s IH]; [reflexivity|]. cbn. f_equal. exact IH. Qed.
Theorem C42_default e cls vs : summary_in e None cls vs = summary e cls vs /\ detail_in e None cls vs = detail_md e cls vs.
Proof. unfold summary_in, detail_in, summary, detail_md, format_str, format, translate. rewrite !tmpl_u. split; reflexivity. Qed.

(** The variables a translated template asks for. *)
Definition asks (c : option catalogue) (t : string) : option (list str) := option_map seg_keys (tmpl_str (translate c t)).
Definition same_set (a b : list str) : bool := forallb (fun k => str_in k b) a && forallb (fun k => str_in k a) b.
Definition faithful (c : option catalogue) (t : string) : bool :=
  match asks c t, asks None t with Some a, Some b => same_set a b | _, _ => false end.
Definition checked (c : catalogue) : bool :=
  forallb (fun n => faithful (Some c) (nid_summary n) && faithful (Some c) (nid_text n)) all_nids.
Lemma checked_es : checked Cat_es.catalogue = true. Proof. vm_compute. reflexivity. Qed.
Lemma checked_fr : checked Cat_fr.catalogue = true. Proof. vm_compute. reflexivity. Qed.
Lemma checked_ja : checked Cat_ja.catalogue = true. Proof. vm_compute. reflexivity. Qed.
Lemma checked_zh : checked Cat_zh.catalogue = true. Proof. vm_compute. reflexivity. Qed.
(** The catalogues are UTF-8: encoding the code points gives the text back. *)
Definition utf8_encode (c : N) : bytes :=
  if c <? 128 then [c]
  else if c <? 2048 then [192 + c / 64; 128 + c mod 64]
  else if c <? 65536 then [224 + c / 4096; 128 + (c / 64) mod 64; 128 + c mod 64]
  else [240 + c / 262144; 128 + (c / 4096) mod 64; 128 + (c / 64) mod 64; 128 + c mod 64].
Definition is_utf8 (s : string) : bool := str_eqb (flat_map utf8_encode (utf8 s)) (u s).
Theorem catalogues_utf8 : forall l c a b, In (l, c) shipped -> In (a, b) c -> is_utf8 a = true /\ is_utf8 b = true.
Proof.
  assert (H : forallb (fun lc => forallb (fun ab => is_utf8 (fst ab) && is_utf8 (snd ab)) (snd lc)) shipped = true) by (vm_compute; reflexivity).
  intros l c a b Hl Hc. rewrite forallb_forall in H. specialize (H _ Hl). cbn [snd] in H. rewrite forallb_forall in H. specialize (H _ Hc). apply andb_prop in H. exact H.
Qed.
Lemma shipped_checked c : locale c = None \/ exists x, locale c = Some x /\ checked x = true /\ In (c, x) shipped.
Proof.
  unfold locale. destruct (find _ shipped) as [[a x]|] eqn:E; [right|left; reflexivity]. apply find_some in E as [Hin He]. cbn [fst] in He. apply String.eqb_eq in He. subst a.
  exists x. split; [reflexivity|]. split; [|exact Hin].
  destruct Hin as [E|[E|[E|[E|[]]]]]; injection E as _ <-; [exact checked_es|exact checked_fr|exact checked_ja|exact checked_zh].
Qed.
Lemma same_set_In a b : same_set a b = true -> forall k, In k a <-> In k b.
Proof.
  unfold same_set. intros H. apply andb_prop in H as [H1 H2]. rewrite forallb_forall in H1, H2. intros k. split; intros Hk; apply str_in_In; auto.
Qed.
(** C42: whatever the locale, a template of a note asks for the same variables as
    the English one: no translation drops, adds or misspells a variable. *)
Theorem C42_variables l n : forall t, In t [nid_summary n; nid_text n] ->
  exists a b, asks (locale l) t = Some a /\ asks None t = Some b /\ (forall k, In k a <-> In k b).
Proof.
  intros t Ht. destruct (shipped_checked l) as [->|(x & -> & Hx & _)].
  - destruct (templates_parse n) as [T1 T2]. assert (X : exists a, asks None t = Some a).
    { unfold asks. cbn [translate]. rewrite tmpl_u. destruct Ht as [<-|[<-|[]]]; [destruct (tmpl (nid_summary n))|destruct (tmpl (nid_text n))]; try congruence; eexists; reflexivity. }
    destruct X as [a Ha]. exists a, a. split; [exact Ha|]. split; [exact Ha|]. intros k. reflexivity.
  - unfold checked in Hx. rewrite forallb_forall in Hx. specialize (Hx n (all_nids_complete n)). apply andb_prop in Hx as [H1 H2].
    assert (F : faithful (Some x) t = true) by (destruct Ht as [<-|[<-|[]]]; assumption). unfold faithful in F.
    destruct (asks (Some x) t) as [a|]; [|discriminate]. destruct (asks None t) as [b|]; [|discriminate]. exists a, b. split; [reflexivity|]. split; [reflexivity|]. apply same_set_In, F.
Qed.
Print Assumptions C42_variables.
(** The summary and the detail can be read in the locale. *)
Definition renders_in (e : env) (l : string) (cls : nid) (vs : vars) : Prop :=
  exists s d, summary_in e (locale l) cls vs = Ok s /\ detail_in e (locale l) cls vs = Ok d.
Theorem renders_in_iff e l cls vs : covered cls (keys vs) = true -> (renders_in e l cls vs <-> in_range vs).
Proof.
  intros Hc. unfold covered in Hc. rewrite forallb_forall in Hc.
  assert (HK : forall k, In k (needed_keys cls) -> In k (keys vs)) by (intros k Hk; apply str_in_In, Hc, Hk). clear Hc.
  destruct (C42_variables l cls (nid_summary cls) (or_introl eq_refl)) as (a1 & b1 & A1 & B1 & S1).
  destruct (C42_variables l cls (nid_text cls) (or_intror (or_introl eq_refl))) as (a2 & b2 & A2 & B2 & S2).
  unfold asks in *. cbn [translate] in B1, B2. rewrite tmpl_u in B1, B2. unfold needed_keys, summary_keys, text_keys in HK.
  unfold renders_in, summary_in, detail_in, format_str.
  destruct (tmpl_str (translate (locale l) (nid_summary cls))) as [l1|]; [|discriminate]. destruct (tmpl_str (translate (locale l) (nid_text cls))) as [l2|]; [|discriminate].
  destruct (tmpl (nid_summary cls)) as [k1|]; [|discriminate]. destruct (tmpl (nid_text cls)) as [k2|]; [|discriminate].
  cbn [option_map] in *. injection A1 as <-. injection A2 as <-. injection B1 as <-. injection B2 as <-. split.
  - intros (s & d & _ & Hd). destruct (coerce_all e vs) as [safe|] eqn:Ec; [|discriminate]. apply (coerce_all_keys e vs safe Ec).
  - intros Hr. destruct (coerce_all_ok e vs Hr) as [safe Ec]. destruct (coerce_all_keys e vs safe Ec) as (K & F & _). rewrite Ec. cbn [rbind].
    destruct (fill_ok (py_str e) vs l1) as [s Hs].
    { intros k Hk. apply S1 in Hk. destruct (dget_all vs k (HK k (in_or_app _ _ _ (or_introl Hk)))) as (v & Hv & Hin).
      unfold in_range in Hr. rewrite Forall_forall in Hr. destruct (py_str_ok e v (Hr _ Hin)) as [s Hs]. eauto. }
    destruct (fill_ok (py_str e) safe l2) as [d Hd].
    { intros k Hk. apply S2 in Hk. destruct (dget_all safe k) as (v & Hv & Hin); [rewrite K; apply HK, in_or_app; auto|].
      rewrite Forall_forall in F. destruct (F _ Hin) as [s2 Hs2]. cbn [snd] in Hs2. subst v. exists (VStr s2), s2. auto. }
    eauto.
Qed.
(** C42: every note and sub-note of every session can be read in every locale
    whenever it can be read in English (C06 says when that is). *)
Theorem C42_renders : forall e rel p m n cls vs e' l,
  linted e rel p m -> In n (m_notes m) -> n_cls n <> CONTENT_NOT_ALLOWED -> In (cls, vs) (with_kids n) ->
  (renders_in e' l cls vs <-> in_range vs) /\ (renders_in e' l cls vs <-> renders e' cls vs).
Proof.
  intros e rel p m n cls vs e' l H Hin Hc Hk. assert (C : covered cls (keys vs) = true).
  { destruct (linted_notes e rel p m n H Hin Hc) as [[Hv _] Hks]. destruct Hk as [E|Hk]; [injection E as <- <-; exact Hv|].
    rewrite Forall_forall in Hks. apply (Hks _ Hk). }
  pose proof (renders_in_iff e' l cls vs C). pose proof (renders_iff e' cls vs C). tauto.
Qed.
Print Assumptions C42_renders.
(** A deviation: a note without a text has the catalogue's header as its detail. *)
Theorem C42_header : forall e l c cls vs, In (l, c) shipped -> nid_text cls = ""%string -> in_range vs ->
  detail_md e cls vs = Ok []
  /\ exists d, detail_in e (locale l) cls vs = Ok (u "Project-Id-Version: PROJECT VERSION" ++ d).
Proof.
  intros e l c cls vs Hl Ht Hr. destruct (coerce_all_ok e vs Hr) as [safe Ec]. unfold detail_md, detail_in. rewrite Ht, Ec. cbn [rbind]. split; [reflexivity|].
  destruct Hl as [E|[E|[E|[E|[]]]]]; injection E as <- _.
  - assert (X : exists t, tmpl_str (translate (locale "es") "") = Some [SLit (u "Project-Id-Version: PROJECT VERSION" ++ t)]) by (eexists; vm_compute; reflexivity).
    destruct X as [t X]. unfold format_str. rewrite X. cbn [fill rmap]. rewrite app_nil_r. eexists. reflexivity.
  - assert (X : exists t, tmpl_str (translate (locale "fr") "") = Some [SLit (u "Project-Id-Version: PROJECT VERSION" ++ t)]) by (eexists; vm_compute; reflexivity).
    destruct X as [t X]. unfold format_str. rewrite X. cbn [fill rmap]. rewrite app_nil_r. eexists. reflexivity.
  - assert (X : exists t, tmpl_str (translate (locale "ja") "") = Some [SLit (u "Project-Id-Version: PROJECT VERSION" ++ t)]) by (eexists; vm_compute; reflexivity).
    destruct X as [t X]. unfold format_str. rewrite X. cbn [fill rmap]. rewrite app_nil_r. eexists. reflexivity.
  - assert (X : exists t, tmpl_str (translate (locale "zh") "") = Some [SLit (u "Project-Id-Version: PROJECT VERSION" ++ t)]) by (eexists; vm_compute; reflexivity).
    destruct X as [t X]. unfold format_str. rewrite X. cbn [fill rmap]. rewrite app_nil_r. eexists. reflexivity.
Qed.
Print Assumptions C42_header.
(** The notes without a text. *)
Theorem C42_textless cls : nid_text cls = ""%string <->
  In cls [STORE_METHOD_UNCACHEABLE; CONTENT_NOT_ALLOWED; STATUS_BAD_REQUEST; STATUS_FORBIDDEN; STATUS_CONFLICT; STATUS_UNSUPPORTED_MEDIA_TYPE;
          STATUS_INTERNAL_SERVICE_ERROR; STATUS_NOT_IMPLEMENTED; STATUS_BAD_GATEWAY; STATUS_SERVICE_UNAVAILABLE; STATUS_GATEWAY_TIMEOUT;
          STATUS_VERSION_NOT_SUPPORTED].
Proof.
  set (l := [STORE_METHOD_UNCACHEABLE; CONTENT_NOT_ALLOWED; STATUS_BAD_REQUEST; STATUS_FORBIDDEN; STATUS_CONFLICT; STATUS_UNSUPPORTED_MEDIA_TYPE;
          STATUS_INTERNAL_SERVICE_ERROR; STATUS_NOT_IMPLEMENTED; STATUS_BAD_GATEWAY; STATUS_SERVICE_UNAVAILABLE; STATUS_GATEWAY_TIMEOUT;
          STATUS_VERSION_NOT_SUPPORTED]).
  assert (H : forallb (fun n => Bool.eqb (String.eqb (nid_text n) "") (existsb (nid_eqb n) l)) all_nids = true) by (vm_compute; reflexivity).
  rewrite forallb_forall in H. specialize (H cls (all_nids_complete cls)). apply Bool.eqb_prop in H. rewrite <- String.eqb_eq, H, existsb_exists. split.
  - intros (x & Hx & E). apply nid_eqb_eq in E. subst x. exact Hx.
  - intros Hx. exists cls. split; [exact Hx|apply nid_eqb_refl].
Qed.
Print Assumptions C42_textless.
(** A 400 response: its note is read in Japanese. *)
Example C42_ex :
  (let '(m, _, r) := lint env0 None (TopResponse (u "1.1") (u "400") None) [(u "Vary", u "a b")] [] true [] (new_linter MResponse None false false []) in
   r = Ok tt /\ map n_cls (m_notes m) = [BAD_SYNTAX_DETAILED; DATE_CLOCKLESS; STORE_UNSTORABLE; STATUS_BAD_REQUEST]
   /\ forallb (fun n => is_ok (summary_in env0 (locale "ja") (n_cls n) (n_vars n)) && is_ok (detail_in env0 (locale "ja") (n_cls n) (n_vars n))) (m_notes m) = true)
  /\ In ("ja"%string, Cat_ja.catalogue) shipped
  /\ summary_in env0 (locale "fr") STATUS_BAD_REQUEST [] <> summary_in env0 None STATUS_BAD_REQUEST [].
Proof. split; [vm_compute; repeat split|]. split; [cbn; tauto|vm_compute; discriminate]. Qed.
