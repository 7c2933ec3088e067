(** * C43: what of a message is shown outside code spans. *)
From Verif Require Import PyStr NoteTable Note PyLib Types Framework Checks Message Spans EvLogic NoteLemmas PassFrame PassRun RenderLemmas TestEnv
  Session PropRun Locale PropLocale.
From Coq Require Import String.
Open Scope N_scope.

(** The template of a class, in a locale, as segments; which variables it has
    outside code spans. *)
Definition exposed_in_locale (c : option catalogue) (n : nid) : list str :=
  match tmpl_str (translate c (nid_text n)) with Some t => exposed_in t | None => [] end.
Lemma exposed_default n : exposed_in_locale None n = exposed n.
Proof. unfold exposed_in_locale, exposed, translate. rewrite tmpl_u. reflexivity. Qed.

(** What is put there is harmless text (a number, or text without the characters
    of tags and links), a list of code spans, or a relative time. *)
Definition shown_safely (v : pyval) : Prop :=
  (exists s, v = VMd s /\ md_shape s)
  \/ (exists a b c, v = VRel a b c)
  \/ (forall e, exists s, coerce e v = Ok s /\ forall c, In c s -> ~ In c (u "<>[]")).

Lemma harmless_spec s : harmless s = true -> forall c, In c s -> ~ In c (u "<>[]").
Proof.
  intros H c Hc Hx. unfold harmless in H. rewrite forallb_forall in H. specialize (H c Hc).
  apply Bool.negb_true_iff in H. rewrite <- Bool.not_true_iff_false in H. apply H. apply existsb_exists.
  exists c. split; [|apply N.eqb_refl]. cbn in Hx. cbn. tauto.
Qed.
Lemma remove_harmless c s : harmless s = true -> harmless (remove_chr c s) = true.
Proof.
  unfold harmless, remove_chr. rewrite !forallb_forall. intros H x Hx. apply filter_In in Hx as [Hx _]. apply H, Hx.
Qed.
Lemma tame_safely n v : pv_ok n v -> tame v = true -> shown_safely v.
Proof.
  intros Hp Ht. destruct v as [|b|z| | |s| | | | | | | |s|a b c|]; try discriminate Ht.
  - right; right. intros e. eexists. split; [reflexivity|]. apply harmless_spec. vm_compute. reflexivity.
  - right; right. intros e. destruct b; (eexists; split; [reflexivity|]); apply harmless_spec; vm_compute; reflexivity.
  - right; right. intros e. exists (remove_chr 96 (dec_Z z)). split; [reflexivity|]. apply harmless_spec, remove_harmless, harmless_num.
  - right; right. intros e. exists (remove_chr 96 s). split; [reflexivity|]. apply harmless_spec, remove_harmless, Ht.
  - left. exists s. split; [reflexivity|exact Hp].
  - right; left. exists a, b, c. reflexivity.
Qed.

(** In any state of a session, for every note and sub-note: a variable that the
    (English) template puts outside code spans is shown safely, except these. *)
Definition unsafe : list (nid * list string) :=
  [(ENCODING_UNWANTED, ["coding"]); (CACHE_STATUS, ["status"]); (PROXY_STATUS, ["status"]);
   (ACCEPT_CH_MISSING_VARY, ["missing_fields"]); (NEL_CONFIGURED, ["endpoints"]); (BAD_JSON, ["error"]);
   (DUPLICATE_KEY, ["key"; "context"]); (BAD_ZLIB, ["chunk_sample"]); (BAD_BROTLI, ["chunk_sample"]);
   (DEPRECATION_PAST, ["date"]); (DEPRECATION_FUTURE, ["date"]); (STRUCTURED_FIELD_PARSE_ERROR, ["field_name"; "context"]);
   (CORS_PREFLIGHT_ONLY, ["headers"]); (CC_WRONG_MESSAGE, ["message_type"])]%string.
Lemma untamed_unsafe n k : In k (untamed n) -> exists ks k', In (n, ks) unsafe /\ In k' ks /\ k = u k'.
Proof.
  assert (H : forallb (fun n => forallb (fun k => existsb (fun p => nid_eqb (fst p) n && existsb (fun k' => str_eqb k (u k')) (snd p)) unsafe)
    (untamed n)) all_nids = true) by (vm_compute; reflexivity).
  intros Hk. rewrite forallb_forall in H. specialize (H n (all_nids_complete n)). rewrite forallb_forall in H. specialize (H k Hk).
  apply existsb_exists in H as ([n' ks] & Hin & E). apply Bool.andb_true_iff in E as [E1 E2]. cbn [fst snd] in *. apply nid_eqb_eq in E1. subst n'.
  apply existsb_exists in E2 as (k' & Hk' & E2). apply str_eqb_eq in E2. exists ks, k'. auto.
Qed.
Theorem C43 : forall e rel p m n cls vs k v,
  linted e rel p m -> In n (m_notes m) -> n_cls n <> CONTENT_NOT_ALLOWED -> In (cls, vs) (with_kids n) ->
  In k (exposed cls) -> (forall ks k', In (cls, ks) unsafe -> In k' ks -> k <> u k') ->
  In (k, v) vs -> shown_safely v.
Proof.
  intros e rel p m n cls vs k v H Hin Hc Hk He Hu Hv. destruct (linted_notes e rel p m n H Hin Hc) as [Hg Hks].
  assert (G : nvars_ok cls vs).
  { destruct Hk as [E|Hk]; [injection E as <- <-; exact Hg|]. rewrite Forall_forall in Hks. apply (Hks _ Hk). }
  destruct G as (_ & G & _). rewrite Forall_forall in G. destruct (G _ Hv) as [G1 G2]. cbn [fst snd] in *.
  apply (tame_safely cls); [exact G1|]. apply G2, str_in_In. destruct (exposed_split cls k He) as [Ho|Hx]; [exact Ho|].
  exfalso. destruct (untamed_unsafe _ _ Hx) as (ks & k' & A & B & C). exact (Hu ks k' A B C).
Qed.
Print Assumptions C43.
(** In the shipped locales these are outside code spans, too. *)
Definition spilled : list (string * nid * list string) :=
  [("es", BAD_JSON, ["field_name"]); ("es", CC_BAD_VALUE_TYPE, ["directive"; "value"]); ("es", LINK_BAD_TYPE, ["type"]);
   ("es", TRANSFER_CODING_UNWANTED, ["coding"]); ("es", USE_AS_DICTIONARY_BAD_TYPE, ["got"]);
   ("fr", BAD_JSON, ["field_name"]); ("fr", RANGE_MISSING_HYPHEN, ["value"]);
   ("fr", CROSS_ORIGIN_RESOURCE_POLICY_BAD_VALUE, ["value"]); ("fr", ENDPOINT_NOT_SECURE, ["name"; "url"]);
   ("ja", BAD_BROTLI, ["brotli_error"]); ("ja", RANGE_MISSING_HYPHEN, ["value"]);
   ("ja", CROSS_ORIGIN_RESOURCE_POLICY_BAD_VALUE, ["value"]); ("ja", NEL_MISSING_KEY, ["key"]); ("ja", NEL_BAD_VALUE, ["key"]);
   ("ja", SPECULATION_RULE_NOT_SECURE, ["url"]);
   ("zh", BAD_GZIP, ["gzip_error"]); ("zh", BAD_ZLIB, ["zlib_error"]); ("zh", AVAILABLE_DICTIONARY_BAD_TYPE, ["got"]);
   ("zh", CC_SHOULD_NOT_HAVE_VALUE, ["directive"]); ("zh", CC_BAD_VALUE_TYPE, ["directive"; "value"]);
   ("zh", CROSS_ORIGIN_RESOURCE_POLICY_BAD_VALUE, ["value"]); ("zh", NEL_MISSING_KEY, ["key"]); ("zh", NEL_BAD_TYPE, ["key"]);
   ("zh", NEL_BAD_VALUE, ["key"]); ("zh", REPORT_TO_BAD_TYPE, ["key"]); ("zh", SPECULATION_RULE_NOT_SECURE, ["url"]);
   ("zh", TRANSFER_CODING_UNWANTED, ["coding"]); ("zh", USE_AS_DICTIONARY_BAD_TYPE, ["field_name"; "param"; "expected"; "got"])]%string.
Lemma spilled_all loc c n k : In (loc, c) shipped -> In k (exposed_in_locale (Some c) n) ->
  In k (open_keys n) \/ In k (untamed n) \/ exists ks k', In (loc, n, ks) spilled /\ In k' ks /\ k = u k'.
Proof.
  assert (H : forallb (fun lc => forallb (fun n => forallb (fun k => str_in k (open_keys n) || str_in k (untamed n)
      || existsb (fun p => String.eqb (fst (fst p)) (fst lc) && nid_eqb (snd (fst p)) n && existsb (fun k' => str_eqb k (u k')) (snd p)) spilled)
    (exposed_in_locale (Some (snd lc)) n)) all_nids) shipped = true) by (vm_compute; reflexivity).
  intros Hl Hk. rewrite forallb_forall in H. specialize (H _ Hl). cbn [fst snd] in H. rewrite forallb_forall in H. specialize (H n (all_nids_complete n)).
  rewrite forallb_forall in H. specialize (H k Hk). apply Bool.orb_true_iff in H as [H|H].
  - apply Bool.orb_true_iff in H. rewrite !str_in_In in H. tauto.
  - right; right. apply existsb_exists in H as ([[l' n'] ks] & Hin & E). apply Bool.andb_true_iff in E as [E E3]. apply Bool.andb_true_iff in E as [E1 E2].
    cbn [fst snd] in *. apply String.eqb_eq in E1. apply nid_eqb_eq in E2. subst.
    apply existsb_exists in E3 as (k' & Hk' & E3). apply str_eqb_eq in E3. exists ks, k'. auto.
Qed.
Theorem C43_locales : forall e rel p m n cls vs k v loc c,
  linted e rel p m -> In n (m_notes m) -> n_cls n <> CONTENT_NOT_ALLOWED -> In (cls, vs) (with_kids n) ->
  In (loc, c) shipped -> In k (exposed_in_locale (Some c) cls) ->
  (forall ks k', In (cls, ks) unsafe \/ In (loc, cls, ks) spilled -> In k' ks -> k <> u k') ->
  In (k, v) vs -> shown_safely v.
Proof.
  intros e rel p m n cls vs k v loc c H Hin Hc Hk Hl He Hu Hv. destruct (linted_notes e rel p m n H Hin Hc) as [Hg Hks].
  assert (G : nvars_ok cls vs).
  { destruct Hk as [E|Hk]; [injection E as <- <-; exact Hg|]. rewrite Forall_forall in Hks. apply (Hks _ Hk). }
  destruct G as (_ & G & _). rewrite Forall_forall in G. destruct (G _ Hv) as [G1 G2]. cbn [fst snd] in *.
  apply (tame_safely cls); [exact G1|]. apply G2, str_in_In. destruct (spilled_all loc c cls k Hl He) as [Ho|[Hx|(ks & k' & A & B & C)]]; [exact Ho| |].
  - exfalso. destruct (untamed_unsafe _ _ Hx) as (ks & k' & A & B & C). exact (Hu ks k' (or_introl A) B C).
  - exfalso. exact (Hu ks k' (or_intror A) B C).
Qed.
Print Assumptions C43_locales.

(** What is listed as unsafe is: a response that a request with no
    Accept-Encoding is related to puts its tag into the detail, after a backtick
    without a partner; so does a Cache-Status cache name, and, in French, a
    Cross-Origin-Resource-Policy value. *)
Definition plain_request : mstate := fst (fst (lint env0 None NoTop [] [] true [] (new_linter MRequest None false false []))).
Definition tag_list (s : str) : sfres (list member) := SFOk [MItem (BStr (u "<b>")) []] [].
Definition tag_env : env := env_with tag_list (e_json env0) (e_urlsplit env0) (e_codec env0) (e_decode env0).
Definition detail_of (e : env) (loc : option catalogue) (rel : option mstate) (h v : string) (cls : nid) : list (list str * res str) :=
  let '(m, _, _) := lint e rel NoTop [(u h, u v)] [] true [] (new_linter MResponse None false false []) in
  map (fun n => (exposed_in_locale loc cls, detail_in e loc (n_cls n) (n_vars n))) (filter (fun n => nid_eqb (n_cls n) cls) (m_notes m)).
Definition shows (k text : string) (l : list (list str * res str)) : Prop :=
  exists s, In (u k) (fst (hd ([], Err EOther) l)) /\ snd (hd ([], Err EOther) l) = Ok s /\ has_sub (u text) s = true.
Theorem C43_refuted :
  shows "coding" "`<b> content-coding applied" (detail_of env0 None (Some plain_request) "Content-Encoding" "<b>" ENCODING_UNWANTED)
  /\ shows "status" "<b>" (detail_of tag_env None None "Cache-Status" "x" CACHE_STATUS)
  /\ shows "value" "<b>" (detail_of env0 (locale "fr") None "Cross-Origin-Resource-Policy" "<b>" CROSS_ORIGIN_RESOURCE_POLICY_BAD_VALUE).
Proof. repeat split; eexists; (split; [vm_compute; tauto|split; [vm_compute; reflexivity|vm_compute; reflexivity]]). Qed.
(** An exposed variable that is safe, in a run. *)
Example C43_ex :
  let '(m, _, r) := lint env0 None (TopResponse (u "1.1") (u "200") None) [(u "Vary", u "a b")] [] true [] (new_linter MResponse None false false []) in
  r = Ok tt /\ exposed BAD_SYNTAX_DETAILED = [u "ref_uri"]
  /\ existsb (fun n => nid_eqb (n_cls n) BAD_SYNTAX_DETAILED && dmem (u "ref_uri") (n_vars n)) (m_notes m) = true.
Proof. vm_compute. repeat split. Qed.
