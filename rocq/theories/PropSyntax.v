(** * C40: syntax checks are exactly grammar membership. *)
From Verif Require Import PyStr Regex Grammar NoteTable Note PyLib Utils FieldAttrs Types Fields1 Fields2 Fields3 Framework Checks Message
  EvLogic NoteLemmas TestEnv LexLemmas ParamLemmas NumLemmas DateLemmas NameLemmas FrameLemmas PassParse PassEval PassFrame PassSec PassProc PassRun Session SessionLemmas
  SectionLemmas SecNotes SecValues LintLemmas FieldSpec PropFields PropValues.
Open Scope N_scope.

Definition ok_syntax (f : fname) (v : str) : bool := match fa_syntax (attrs f) with Some g => match_ws_dollar g v | None => true end.
Definition ok_prefix (f : fname) (v : str) : bool :=
  match fa_syntax (attrs f) with Some g => match match_prefix (Seq (Star ws) g) v with Some _ => true | None => false end | None => true end.
Lemma ok_syntax_spec f v : ok_syntax f v = true <-> fits f v.
Proof. unfold ok_syntax, fits, all_space. destruct (fa_syntax _); [apply match_ws_dollar_spec|tauto]. Qed.
Lemma ok_prefix_spec f v : ok_prefix f v = true <-> begins f v.
Proof.
  unfold ok_prefix, begins, all_space. destruct (fa_syntax _) as [g|]; [|tauto]. unfold match_prefix.
  assert (X : (exists rest, In rest (ms (Seq (Star ws) g) v)) <-> exists a w rest, v = a ++ w ++ rest /\ forallb isspace a = true /\ lang g w).
  { split.
    - intros (rest & H). apply ms_correct in H as (x & -> & H). apply lang_seq in H as (a & w & -> & Ha & H). exists a, w, rest. rewrite <- app_assoc. repeat split; [|exact H]. apply lang_star_chr, Ha.
    - intros (a & w & rest & -> & Ha & H). exists rest. apply ms_correct. exists (a ++ w). rewrite <- app_assoc. split; [reflexivity|]. apply lang_seq. exists a, w. repeat split; [|exact H]. apply lang_star_chr, Ha. }
  rewrite <- X. destruct (ms _ v) as [|r l]; [split; [discriminate|intros (r & [])]|]. split; [intros _; exists r; left; reflexivity|reflexivity].
Qed.
(** The declared grammars ignore letter case, except that of Access-Control-Allow-Credentials: "true". *)
Lemma nocase_all f : match fa_syntax (attrs f) with
  | Some g => f = F_access_control_allow_credentials \/ exists g0, g = nocase g0 /\ no_neg g0 = true | None => True end.
Proof. destruct f; cbv [attrs fa_syntax]; first [exact I|left; reflexivity|right; eexists; split; [reflexivity|vm_compute; reflexivity]]. Qed.
Theorem C40_case : forall f g, fa_syntax (attrs f) = Some g ->
  (f = F_access_control_allow_credentials /\ forall w, lang g w <-> w = u "true")
  \/ exists g0, g = nocase g0 /\ forall w, lang g w <-> exists w', lower w' = lower w /\ lang g0 w'.
Proof.
  intros f g H. pose proof (nocase_all f) as X. rewrite H in X. destruct X as [->|(g0 & -> & N)].
  - left. split; [reflexivity|]. injection H as <-. intros w. apply (lang_lit_ (u "true")).
  - right. exists g0. split; [reflexivity|]. intros w. apply nocase_lang, N.
Qed.
Print Assumptions C40_case.
Definition bad_plain (f : fname) (v : str) : bool := negb (ok_syntax f v) && negb (ok_prefix f v) && fa_report (attrs f).
Lemma member_pick c f v : nid_eqb BAD_SYNTAX c = true \/ nid_eqb BAD_SYNTAX_DETAILED c = true ->
  filter (fun n => nid_eqb n c) (member_report f v) =
  if negb (ok_syntax f v) && (if nid_eqb BAD_SYNTAX_DETAILED c then ok_prefix f v else negb (ok_prefix f v) && fa_report (attrs f)) then [c] else [].
Proof.
  intros H. unfold member_report, ok_syntax, ok_prefix. destruct (fa_syntax _); [|reflexivity]. destruct (match_ws_dollar _ _); [reflexivity|]. cbn [negb andb].
  destruct H as [H|H]; apply nid_eqb_eq in H; subst c; cbn [nid_eqb].
  - destruct (match_prefix _ _); [reflexivity|]. destruct (fa_report _); reflexivity.
  - destruct (match_prefix _ _); [reflexivity|]. destruct (fa_report _); reflexivity.
Qed.
Lemma input_picks c f v o (b : fname -> str -> bool) : (forall v, filter (fun n => nid_eqb n c) (member_report f v) = if b f v then [c] else []) ->
  pick c (input_report f v o) = if match kind_of f with KList => true | _ => false end then map (fun _ => at_offset o) (filter (b f) (split_list_field v)) else [].
Proof.
  intros H. unfold input_report. destruct (kind_of f); try reflexivity. rewrite pick_flat. induction (split_list_field v) as [|x l IH]; [reflexivity|].
  cbn [flat_map filter]. rewrite pick_about, H, IH. destruct (b f x); reflexivity.
Qed.
Lemma line_picks c t r o (b : fname -> str -> bool) : nid_eqb BAD_SYNTAX c = true \/ nid_eqb BAD_SYNTAX_DETAILED c = true ->
  (forall f v, filter (fun n => nid_eqb n c) (member_report f v) = if b f v then [c] else []) ->
  pick c (line_report t (r, o)) = if processed t (name_of r) && match kind_of (find_class (name_of r)) with KList => true | _ => false end
    then map (fun _ => at_offset o) (filter (b (find_class (name_of r))) (split_list_field (value_of r))) else [].
Proof.
  intros Hc H. unfold line_report. rewrite pick_app, pick_about.
  assert (Z : filter (fun n => nid_eqb n c) (enc_report r ++ name_report t (raw_name r)) = []).
  { unfold enc_report, name_report. destruct Hc as [Hc|Hc]; apply nid_eqb_eq in Hc; subst c;
      destruct (decode_ascii_strict (fst r)), (decode_ascii_strict (snd r)), (wrong t (find_class (raw_name r))), (tok (strip (raw_name r))), (fa_dep (attrs (find_class (raw_name r)))), t; reflexivity. }
  rewrite Z. cbn [map app]. rewrite name_eq, processed_eq, value_eq. destruct (processed t (name_of r)); [|reflexivity]. cbn [andb].
  rewrite pick_app, (input_picks c _ _ _ b (H _)), pick_about.
  assert (Y : filter (fun n => nid_eqb n c) (size_report r) = []).
  { unfold size_report. destruct (_ <? _); [|reflexivity]. destruct Hc as [Hc|Hc]; apply nid_eqb_eq in Hc; subst c; reflexivity. }
  rewrite Y. cbn [map]. apply app_nil_r.
Qed.
Lemma syntax_pick f v : filter (fun n => nid_eqb n BAD_SYNTAX) (syntax_report false f v) = if negb (ok_syntax f v) && fa_report (attrs f) then [BAD_SYNTAX] else [].
Proof. unfold syntax_report, ok_syntax. destruct (fa_syntax _); [|reflexivity]. destruct (match_ws_dollar _ _); [reflexivity|]. cbn [negb andb orb]. destruct (fa_report _); reflexivity. Qed.
Lemma broken_none f : kind_of f = KBroken -> fa_syntax (attrs f) = None.
Proof. destruct f; intros H; first [discriminate H|reflexivity]. Qed.
Lemma field_picks c e t k l : nid_eqb BAD_SYNTAX c = true \/ nid_eqb BAD_SYNTAX_DETAILED c = true ->
  pick c (field_report e t k (lines_of k t l)) =
    if processed t k && match kind_of (find_class k) with KSingleton => true | _ => false end
    then match values k l with
         | v :: _ => if negb (nid_eqb BAD_SYNTAX_DETAILED c) && (negb (ok_syntax (find_class k) v) && fa_report (attrs (find_class k))) then [about_field k] else []
         | [] => []
         end
    else [].
Proof.
  intros Hc. unfold field_report. rewrite processed_eq. destruct (processed t k); [|reflexivity]. cbn [andb].
  destruct (kind_of (find_class k)) as [| | |ty| |] eqn:K; try reflexivity.
  - rewrite pick_about, (subject_about k K). unfold singleton_report.
    assert (L : values k l = map fst (lines_of k t l)) by (rewrite <- values_eq, <- (lines_values k t l); reflexivity).
    rewrite L. destruct (lines_of k t l) as [|[v o] more]; [reflexivity|]. cbn [map fst]. rewrite filter_app.
    assert (Y : filter (fun n => nid_eqb n c) (match more with [] => [] | _ => [SINGLE_HEADER_REPEAT] end) = []).
    { destruct more; [reflexivity|]. destruct Hc as [Hc|Hc]; apply nid_eqb_eq in Hc; subst c; reflexivity. }
    rewrite Y. cbn [app]. destruct Hc as [Hc|Hc]; apply nid_eqb_eq in Hc; subst c.
    + change (nid_eqb BAD_SYNTAX_DETAILED BAD_SYNTAX) with false. cbn [negb andb]. rewrite syntax_pick. destruct (_ && _); reflexivity.
    + change (nid_eqb BAD_SYNTAX_DETAILED BAD_SYNTAX_DETAILED) with true. cbn [negb andb].
      unfold syntax_report. destruct (fa_syntax _); [|reflexivity]. destruct (match_ws_dollar _ _); [reflexivity|]. destruct (_ || _); reflexivity.
  - unfold broken_report. rewrite pick_flat. apply flat_none. intros x _. apply about_none. intros n Hn. exfalso. unfold syntax_report in Hn. rewrite (broken_none _ K) in Hn. exact Hn.
  - apply about_none. intros n Hn.
    assert (R : forall {A} (r : sfres A), In n (sfr_report r) -> n = DUPLICATE_KEY \/ n = STRUCTURED_FIELD_PARSE_ERROR).
    { intros A0 r. unfold sfr_report. destruct r; intros Z; try (apply in_app_iff in Z as [Z|[Z|[]]]; [apply in_map_iff in Z as (? & <- & _)|]; auto). apply in_map_iff in Z as (? & <- & _). auto. }
    assert (D : n = DUPLICATE_KEY \/ n = STRUCTURED_FIELD_PARSE_ERROR) by (unfold sf_report in Hn; destruct (map fst _); [destruct Hn|]; destruct ty; apply R in Hn; exact Hn).
    destruct D as [-> | ->], Hc as [Hc|Hc]; apply nid_eqb_eq in Hc; subst c; reflexivity.
  - apply about_none. intros n Hn. unfold json_report in Hn. destruct (map fst _); [destruct Hn|]. destruct (e_json _ _); try contradiction; destruct Hn as [<-|[]].
    destruct Hc as [Hc|Hc]; apply nid_eqb_eq in Hc; subst c; reflexivity.
Qed.
(** The notes: BAD_SYNTAX_DETAILED for an element of a list of which a beginning
    is in the language; BAD_SYNTAX for any other, and for a singleton's first
    line, unless the field does not report its syntax. *)
Theorem C40_exact : exists ok part : fname -> str -> bool,
  (forall f v, ok f v = true <-> fits f v) /\ (forall f v, part f v = true <-> begins f v)
  /\ forall e rel top headers chunks complete trailers t start nc head base m' rel',
    lint e rel top headers chunks complete trailers (new_linter t start nc head base) = (m', rel', Ok tt) ->
    (let single := fun f v => negb (ok f v) && fa_report (attrs f) in
     let other := fun f v => negb (ok f v) && (negb (part f v) && fa_report (attrs f)) in
     subjects BAD_SYNTAX (m_notes m') = (elements_where t other headers ++ singletons_where t single headers)
                                        ++ (elements_where t other trailers ++ singletons_where t single trailers))
    /\ (let partly := fun f v => negb (ok f v) && part f v in
        subjects BAD_SYNTAX_DETAILED (m_notes m') = elements_where t partly headers ++ elements_where t partly trailers).
Proof.
  exists ok_syntax, ok_prefix. split; [exact ok_syntax_spec|]. split; [exact ok_prefix_spec|].
  intros e rel top headers chunks complete trailers t start nc head base m' rel' E. split; cbv zeta.
  - rewrite (subjects_pick BAD_SYNTAX _ eq_refl), (lint_report _ _ _ _ _ _ _ _ _ _ _ _ _ _ E), pick_app.
    assert (X : forall tr l, pick BAD_SYNTAX (report_of e t tr l) = elements_where t (fun f v => negb (ok_syntax f v) && (negb (ok_prefix f v) && fa_report (attrs f))) l
       ++ singletons_where t (fun f v => negb (ok_syntax f v) && fa_report (attrs f)) l); [|rewrite !X; reflexivity].
    intros tr l. unfold report_of. rewrite !pick_app, !pick_flat, (section_pick _ tr l) by discriminate. cbn [app]. f_equal.
    + rewrite numbered_eq. unfold elements_where. apply flat_map_ext. intros [r o]. cbn [fst snd].
      apply (line_picks BAD_SYNTAX t r o (fun f v => negb (ok_syntax f v) && (negb (ok_prefix f v) && fa_report (attrs f)))); [left; reflexivity|]. intros f v. apply (member_pick BAD_SYNTAX). left. reflexivity.
    + rewrite fields_eq. unfold singletons_where. apply flat_map_ext. intros k. rewrite field_picks by (left; reflexivity). reflexivity.
  - rewrite (subjects_pick BAD_SYNTAX_DETAILED _ eq_refl), (lint_report _ _ _ _ _ _ _ _ _ _ _ _ _ _ E), pick_app.
    assert (X : forall tr l, pick BAD_SYNTAX_DETAILED (report_of e t tr l) = elements_where t (fun f v => negb (ok_syntax f v) && ok_prefix f v) l); [|rewrite !X; reflexivity].
    intros tr l. unfold report_of. rewrite !pick_app, !pick_flat, (section_pick _ tr l) by discriminate. cbn [app].
    rewrite (flat_none (fun k => pick _ (field_report e t k (lines_of k t l)))).
    + rewrite app_nil_r, numbered_eq. unfold elements_where. apply flat_map_ext. intros [r o]. cbn [fst snd].
      apply (line_picks BAD_SYNTAX_DETAILED t r o (fun f v => negb (ok_syntax f v) && ok_prefix f v)); [right; reflexivity|]. intros f v. apply (member_pick BAD_SYNTAX_DETAILED). right. reflexivity.
    + intros k _. rewrite field_picks by (right; reflexivity). destruct (_ && _); [|reflexivity]. destruct (values k l); reflexivity.
Qed.
Print Assumptions C40_exact.
