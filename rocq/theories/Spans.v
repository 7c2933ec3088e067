(** * Where a note's template puts its variables: inside or outside a code span. *)
From Verif Require Import PyStr NoteTable Note.
From Coq Require Import String Lia.
Open Scope N_scope.

(** A template as a sequence of characters and variables. *)
Inductive item := Chr (c : N) | Var (k : str).
Definition items (l : list seg) : list item :=
  flat_map (fun g => match g with SLit s => map Chr s | SVar k => [Var k] end) l.
(** Markdown: a code span is what is between a backtick and the next one in the
    same paragraph; a backtick without a partner is only a character.  A blank
    line ends a paragraph. *)
Fixpoint blank_ahead (l : list item) : bool :=
  match l with
  | Chr 32 :: r => blank_ahead r
  | Chr 10 :: _ => true
  | _ => false
  end.
Definition leftover (pend : option (list item)) : list item := match pend with Some p => p | None => [] end.
(** What is outside the code spans; [pend]: what follows a backtick whose partner
    is still to be found. *)
Fixpoint outside (pend : option (list item)) (l : list item) : list item :=
  match l with
  | [] => leftover pend
  | Chr 96 :: r => match pend with None => outside (Some []) r | Some _ => outside None r end
  | x :: r =>
      if match x with Chr 10 => blank_ahead r | _ => false end then leftover pend ++ x :: outside None r
      else match pend with
           | None => x :: outside None r
           | Some p => outside (Some (p ++ [x])) r
           end
  end.
Definition vars_in (l : list item) : list str := flat_map (fun x => match x with Var k => [k] | Chr _ => [] end) l.
(** The variables a Markdown template has outside its code spans. *)
Definition exposed_in (t : list seg) : list str := vars_in (outside None (items t)).
Definition exposed (n : nid) : list str := match tmpl (nid_text n) with Some t => exposed_in t | None => [] end.

(** The characters with which text outside a code span can become a tag or
    a link.  (Backticks are removed from every variable that is not
    MarkdownSafe: note.py:152-155.) *)
Definition harmless (s : str) : bool :=
  forallb (fun c => negb (existsb (N.eqb c) [60; 62; 91; 93])) s.   (* < > [ ] *)
(** A value whose text is harmless, or code spans with harmless separators (the
    shape of a MarkdownSafe value), a number or a relative time. *)
Definition tame (v : pyval) : bool :=
  match v with
  | VStr s => harmless s
  | VNone | VBool _ | VInt _ | VMd _ | VRel _ _ _ => true
  | _ => false
  end.
(** The exposed variables that are always tame. *)
Definition open_keys (n : nid) : list str :=
  match n with
  | FRESHNESS_FRESH | FRESHNESS_STALE_ALREADY => [u "current_age"; u "freshness_lifetime"]
  | FRESHNESS_SHARED_PRIVATE => [u "fresh_lifetime"; u "fresh_left"; u "share_lifetime"; u "share_left"]
  | BAD_ZLIB => [u "ok_zlib_len"]
  | BAD_BROTLI => [u "ok_brotli_len"]
  | BAD_SYNTAX | BAD_SYNTAX_DETAILED | ACCEPT_BAD_SYNTAX | ACCEPT_CH_BAD_TYPE | ACCEPT_LANGUAGE_BAD_SYNTAX
  | ACCEPT_PATCH_BAD_SYNTAX | ACCEPT_POST_BAD_SYNTAX | ACCEPT_QUERY_BAD_SYNTAX => [u "ref_uri"]
  | FIELD_DEPRECATED => [u "deprecation_ref"]
  | CC_BAD_VALUE_TYPE | BAD_CDN_CC_TYPE => [u "expected_type"]
  | CC_CONFLICTING => [u "conflicts"]
  | CC_WRONG_MESSAGE => [u "other_message"]
  | CHECK_POST_PRE => [u "post_check"; u "pre_check"]
  | CSD_PRESENT => [u "values"]
  | CONTENT_SECURITY_POLICY | CSP_REPORT_TO_MISSING | COEP_REQUIRE_CORP | COEP_CREDENTIALLESS
  | COEP_UNSAFE_NONE | COOP_SAME_ORIGIN | COOP_SAME_ORIGIN_ALLOW_POPUPS | COOP_UNSAFE_NONE | CORP_SAME_ORIGIN
  | CORP_SAME_SITE | CORP_CROSS_ORIGIN => [u "report_only_text"]
  | CSP_UNSAFE_INLINE | CSP_UNSAFE_EVAL | CSP_HTTP_URI | CSP_DUPLICATE_DIRECTIVE => [u "directives_list"]
  | CSP_WIDE_OPEN => [u "report_only_text"; u "directives_list"]
  | DEPRECATION_BAD_TYPE => [u "item_type"]
  | LM_PRESENT => [u "last_modified_string"]
  | LINK_RESOURCE_HINTS => [u "detail_lines"]
  | NEL_BAD_TYPE | REPORT_TO_BAD_TYPE => [u "expected"]
  | NEL_BAD_VALUE => [u "details"]
  | RANGE_BAD_SYNTAX => [u "problem"; u "ref_uri"]
  | SERVER_TOO_LONG => [u "server_length"]
  | SET_COOKIE_VALUE_TOO_LARGE => [u "set_cookie_value_length"]
  | SET_COOKIE_LIFETIME_TOO_LONG => [u "duration"]
  | SET_COOKIE_HARDENED => [u "cookie_names"]
  | CL_INCORRECT => [u "content_length"]
  | REQUEST_CONTENT_NOT_DEFINED | CREATED_SAFE_METHOD => [u "method"]
  | HEADER_SHOULD_NOT_BE_IN_304 => [u "headers"]
  | REDIRECT_WITHOUT_LOCATION | STATUS_URI_TOO_LONG => [u "status"]
  | PARAM_STAR_BAD => [u "param"]
  | _ => []
  end.
(** ... and those that are not: *)
Definition untamed (n : nid) : list str :=
  match n with
  | ENCODING_UNWANTED => [u "coding"]
  | CACHE_STATUS => [u "status"]
  | PROXY_STATUS => [u "status"]
  | ACCEPT_CH_MISSING_VARY => [u "missing_fields"]
  | NEL_CONFIGURED => [u "endpoints"]
  | BAD_JSON => [u "error"]
  | DUPLICATE_KEY => [u "key"; u "context"]
  | BAD_ZLIB => [u "chunk_sample"]
  | BAD_BROTLI => [u "chunk_sample"]
  | DEPRECATION_PAST => [u "date"]
  | DEPRECATION_FUTURE => [u "date"]
  | STRUCTURED_FIELD_PARSE_ERROR => [u "field_name"; u "context"]
  | CORS_PREFLIGHT_ONLY => [u "headers"]
  | CC_WRONG_MESSAGE => [u "message_type"]
  | _ => []
  end.
Lemma exposed_split n k : In k (exposed n) -> In k (open_keys n) \/ In k (untamed n).
Proof.
  assert (H : forallb (fun n => forallb (fun k => str_in k (open_keys n) || str_in k (untamed n)) (exposed n)) all_nids = true)
    by (vm_compute; reflexivity).
  intros Hk. rewrite forallb_forall in H. specialize (H n (all_nids_complete n)). rewrite forallb_forall in H.
  specialize (H k Hk). apply Bool.orb_true_iff in H. rewrite !str_in_In in H. exact H.
Qed.
(** A variable of every note of a field section is not among them. *)
Definition common_keys : list str := [u "message_type"; u "field_name"; u "field_type"].
Lemma open_common n k : In k common_keys -> str_in k (open_keys n) = false.
Proof.
  assert (H : forallb (fun n => forallb (fun k => negb (str_in k (open_keys n))) common_keys) all_nids = true)
    by (vm_compute; reflexivity).
  intros Hk. rewrite forallb_forall in H. specialize (H n (all_nids_complete n)). rewrite forallb_forall in H.
  apply Bool.negb_true_iff, H, Hk.
Qed.

Lemma harmless_app a b : harmless (a ++ b) = (harmless a && harmless b)%bool.
Proof. apply forallb_app. Qed.
Lemma harmless_join sep l : harmless sep = true -> Forall (fun s => harmless s = true) l -> harmless (join sep l) = true.
Proof.
  intros Hs H. induction H as [|a l Ha Hl IH]; [reflexivity|]. cbn [join]. destruct l as [|b l]; [exact Ha|].
  rewrite !harmless_app, Ha, Hs. exact IH.
Qed.
Lemma harmless_digit d : d < 10 -> negb (existsb (N.eqb (48 + d)) [60; 62; 91; 93]) = true.
Proof.
  intros H. cbn [existsb]. repeat match goal with |- context[N.eqb ?a ?b] => destruct (N.eqb_spec a b); [lia|] end. reflexivity.
Qed.
Lemma harmless_dec_aux fuel : forall n acc, harmless acc = true -> harmless (dec_aux fuel n acc) = true.
Proof.
  induction fuel as [|f IH]; intros n acc H; [exact H|]. cbn [dec_aux]. cbv zeta.
  assert (H' : harmless ((48 + n mod 10) :: acc) = true).
  { change (harmless ((48 + n mod 10) :: acc)) with (negb (existsb (N.eqb (48 + n mod 10)) [60; 62; 91; 93]) && harmless acc)%bool.
    rewrite harmless_digit, H; [reflexivity|]. apply N.mod_lt. discriminate. }
  destruct (n <? 10); [exact H'|apply IH, H'].
Qed.
Lemma harmless_num z : harmless (f_num z) = true.
Proof.
  unfold f_num, dec_Z. destruct z; [apply harmless_dec_aux; reflexivity|apply harmless_dec_aux; reflexivity|].
  change (harmless (45 :: dec_N (N.pos p))) with (harmless (dec_N (N.pos p))). apply harmless_dec_aux. reflexivity.
Qed.
