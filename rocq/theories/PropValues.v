(** * Properties of the parsed values of fields: C11, C13, C14, C18, C19, C33. *)
From Verif Require Import PyStr Regex Grammar NoteTable Note PyLib Utils FieldAttrs Types Fields1 Fields2 Fields3 Framework Checks Message
  EvLogic NoteLemmas TestEnv LexLemmas ParamLemmas NumLemmas NameLemmas FrameLemmas PassParse PassEval PassFrame PassSec PassProc PassRun Session SessionLemmas
  SectionLemmas SecNotes SecValues LintLemmas ShunLemmas Describe FieldSpec PropFields.
Open Scope N_scope.

Lemma unpadded_apart k l : unpadded k l -> strip k = k /\ apart_name k l.
Proof.
  intros [H1 H2]. split; [exact H1|]. unfold apart_name. eapply Forall_impl; [|exact H2]. intros r. cbv beta. rewrite key_eq. auto.
Qed.
Lemma a_line_values k l : a_line k l = nonempty (values k l).
Proof.
  unfold a_line, values. induction l as [|r l IH]; [reflexivity|]. cbn [existsb filter]. rewrite key_eq. destruct (str_eqb (key_of r) k); [reflexivity|exact IH].
Qed.
Definition section_lines (trailer : bool) (headers trailers : list rawline) : list rawline := if trailer then trailers else headers.
(** What a run makes of a field's lines. *)
Lemma run_value e t start base hs ts m' tr k : run_of e t start base hs ts m' -> unpadded k (section_lines tr hs ts) ->
  value_in tr k m' = if nonempty (values k (section_lines tr hs ts))
                     then Some (field_value e (new_linter t start false false base) k (values k (section_lines tr hs ts))) else None.
Proof.
  intros (rel & top & chunks & complete & nc & head & rel' & E) Hu. apply unpadded_apart in Hu as [Hk Ha].
  destruct (lint_value _ _ _ _ _ _ _ _ _ _ _ _ _ _ k E Hk) as [A B].
  assert (X : forall l, field_value e (new_linter t start nc head base) k l = field_value e (new_linter t start false false base) k l) by (intros; apply field_value_core; reflexivity).
  unfold value_in. destruct tr; cbn [section_lines] in *; [rewrite (B Ha)|rewrite (A Ha)]; rewrite a_line_values, values_eq, X; reflexivity.
Qed.

(** ** C33: a field's value comes from its own lines, in their order, alone *)
Theorem C33_values : forall e t start base h1 t1 m1 h2 t2 m2 tr1 tr2 k,
  run_of e t start base h1 t1 m1 -> run_of e t start base h2 t2 m2 ->
  unpadded k (section_lines tr1 h1 t1) -> unpadded k (section_lines tr2 h2 t2) ->
  values k (section_lines tr1 h1 t1) = values k (section_lines tr2 h2 t2) ->
  value_in tr1 k m1 = value_in tr2 k m2.
Proof.
  intros e t start base h1 t1 m1 h2 t2 m2 tr1 tr2 k R1 R2 U1 U2 V. rewrite (run_value _ _ _ _ _ _ _ _ _ R1 U1), (run_value _ _ _ _ _ _ _ _ _ R2 U2), V. reflexivity.
Qed.
Print Assumptions C33_values.

(** ** C13: fields that may occur once *)
Theorem C13_first : forall e t start base h1 t1 m1 h2 t2 m2 tr1 tr2 k v more1 more2,
  run_of e t start base h1 t1 m1 -> run_of e t start base h2 t2 m2 ->
  unpadded k (section_lines tr1 h1 t1) -> unpadded k (section_lines tr2 h2 t2) ->
  kind_of (find_class k) = KSingleton ->
  values k (section_lines tr1 h1 t1) = v :: more1 -> values k (section_lines tr2 h2 t2) = v :: more2 ->
  exists x, value_in tr1 k m1 = Some x /\ value_in tr2 k m2 = Some x.
Proof.
  intros e t start base h1 t1 m1 h2 t2 m2 tr1 tr2 k v more1 more2 R1 R2 U1 U2 K V1 V2.
  rewrite (run_value _ _ _ _ _ _ _ _ _ R1 U1), (run_value _ _ _ _ _ _ _ _ _ R2 U2), V1, V2. cbn [nonempty].
  eexists. split; [reflexivity|]. unfold field_value. rewrite K. reflexivity.
Qed.
Print Assumptions C13_first.
Definition once_only (k : str) : bool := match kind_of (find_class k) with KSingleton => true | _ => false end.
Definition repeated (t : mtype) (l : list rawline) (k : str) : bool := once_only k && processed t k && (2 <=? length (values k l))%nat.
Lemma subject_about k : kind_of (find_class k) = KSingleton -> subject_of k = about_field k.
Proof.
  unfold subject_of, about_field, field_subj. cbn [new_handler h_canon]. destruct (find_class k); intros H; try reflexivity; vm_compute in H; discriminate H.
Qed.
Lemma input_plain c f v o : framework c = true -> nid_eqb BAD_SYNTAX c = false -> nid_eqb BAD_SYNTAX_DETAILED c = false -> pick c (input_report f v o) = [].
Proof.
  intros _ H1 H2. unfold input_report. destruct (kind_of f); try reflexivity. rewrite pick_flat. apply flat_none. intros x _. apply about_none.
  intros n Hn. apply member_classes in Hn. destruct Hn as [<-|[<-|[]]]; assumption.
Qed.
Lemma flat_map_filter {A B} (b : A -> bool) (f g : A -> list B) l : (forall x, f x = if b x then g x else []) -> flat_map f l = flat_map g (filter b l).
Proof. intros H. induction l as [|x l IH]; [reflexivity|]. cbn [flat_map filter]. rewrite H, IH. destruct (b x); reflexivity. Qed.
Lemma flat_map_one {A B} (f : A -> B) l : flat_map (fun x => [f x]) l = map f l.
Proof. induction l as [|x l IH]; [reflexivity|]. cbn [flat_map map app]. rewrite IH. reflexivity. Qed.
Theorem C13_repeat : forall e rel top headers chunks complete trailers t start nc head base m' rel',
  lint e rel top headers chunks complete trailers (new_linter t start nc head base) = (m', rel', Ok tt) ->
  subjects SINGLE_HEADER_REPEAT (m_notes m')
    = map about_field (filter (repeated t headers) (fields_in headers)) ++ map about_field (filter (repeated t trailers) (fields_in trailers)).
Proof.
  intros e rel top headers chunks complete trailers t start nc head base m' rel' E.
  rewrite (subjects_pick SINGLE_HEADER_REPEAT _ eq_refl), (lint_report _ _ _ _ _ _ _ _ _ _ _ _ _ _ E), pick_app.
  assert (X : forall tr l, pick SINGLE_HEADER_REPEAT (report_of e t tr l) = map about_field (filter (repeated t l) (fields_in l))); [|rewrite !X; reflexivity].
  intros tr l. unfold report_of. rewrite !pick_app, !pick_flat, (section_pick _ tr l) by discriminate.
  rewrite (flat_none (fun x => pick _ (line_report t x))).
  - cbn [app]. rewrite fields_eq, <- flat_map_one. apply flat_map_filter. intros k. unfold repeated, once_only, field_report. rewrite processed_eq.
    destruct (processed t k); [|rewrite Bool.andb_false_r; reflexivity].
    destruct (kind_of (find_class k)) as [| | |ty| |] eqn:K; cbn [andb]; try reflexivity.
    + rewrite pick_about, (subject_about k K). unfold singleton_report.
      assert (L : length (values k l) = length (lines_of k t l)) by (rewrite <- values_eq, <- (lines_values k t l); apply map_length).
      rewrite L. destruct (lines_of k t l) as [|[v o] more]; [reflexivity|].
      assert (Y : filter (fun n => nid_eqb n SINGLE_HEADER_REPEAT) (syntax_report false (find_class k) v) = []).
      { unfold syntax_report. destruct (fa_syntax _); [|reflexivity]. destruct (match_ws_dollar _ _); [reflexivity|]. destruct (_ || _); reflexivity. }
      destruct more as [|x more]; rewrite filter_app, Y; reflexivity.
    + unfold broken_report. rewrite pick_flat. apply flat_none. intros x _. apply about_none. intros n Hn. apply syntax_classes in Hn. subst. reflexivity.
    + apply about_none. intros n Hn.
      assert (H : In (n, u "") (about (u "") (sf_report e ty (map fst (lines_of k t l))))) by (apply in_map_iff; eauto).
      assert (R : forall {A} (r : sfres A), In n (sfr_report r) -> n = DUPLICATE_KEY \/ n = STRUCTURED_FIELD_PARSE_ERROR).
      { intros A0 r. unfold sfr_report. destruct r; intros Z; try (apply in_app_iff in Z as [Z|[Z|[]]]; [apply in_map_iff in Z as (? & <- & _)|]; auto). apply in_map_iff in Z as (? & <- & _). auto. }
      clear H. unfold sf_report in Hn. destruct (map fst _); [destruct Hn|]. destruct ty; apply R in Hn; destruct Hn as [-> | ->]; reflexivity.
    + apply about_none. intros n Hn. unfold json_report in Hn. destruct (map fst _); [destruct Hn|]. destruct (e_json _ _); try contradiction; destruct Hn as [<-|[]]; reflexivity.
  - intros [r o] _. unfold line_report. rewrite pick_app, pick_about.
    assert (Z : filter (fun n => nid_eqb n SINGLE_HEADER_REPEAT) (enc_report r ++ name_report t (raw_name r)) = []).
    { unfold enc_report, name_report. destruct (decode_ascii_strict (fst r)), (decode_ascii_strict (snd r)), (wrong t (find_class (raw_name r))), (tok (strip (raw_name r))), (fa_dep (attrs (find_class (raw_name r)))), t; reflexivity. }
    rewrite Z. cbn [map app]. destruct (accepted _ _); [|reflexivity]. rewrite pick_app, input_plain, pick_about by reflexivity. unfold size_report. destruct (_ <? _); reflexivity.
Qed.
Print Assumptions C13_repeat.

(** ** C14: lists on one line or many *)
Lemma split_groups (g : list (list str)) : Forall (Forall segment) g ->
  flat_map split_list_field (map (join comma) g) = filter nonempty (map strip (concat g)).
Proof.
  induction g as [|x g IH]; intros H; [reflexivity|]. inversion H; subst. cbn [map flat_map concat]. rewrite (split_segments x), IH by assumption.
  rewrite map_app, filter_app. reflexivity.
Qed.
Lemma flat_map_flat {A B C} (f : B -> list C) (g : A -> list B) l : flat_map (fun x => flat_map f (g x)) l = flat_map f (flat_map g l).
Proof. induction l as [|x l IH]; [reflexivity|]. cbn [flat_map]. rewrite flat_map_app, IH. reflexivity. Qed.
Theorem C14_list : forall e t start base h1 t1 m1 h2 t2 m2 tr1 tr2 k g1 g2,
  run_of e t start base h1 t1 m1 -> run_of e t start base h2 t2 m2 ->
  unpadded k (section_lines tr1 h1 t1) -> unpadded k (section_lines tr2 h2 t2) ->
  kind_of (find_class k) = KList ->
  Forall (Forall segment) g1 -> Forall (Forall segment) g2 -> concat g1 = concat g2 -> g1 <> [] -> g2 <> [] ->
  values k (section_lines tr1 h1 t1) = map (join comma) g1 -> values k (section_lines tr2 h2 t2) = map (join comma) g2 ->
  exists x, value_in tr1 k m1 = Some x /\ value_in tr2 k m2 = Some x.
Proof.
  intros e t start base h1 t1 m1 h2 t2 m2 tr1 tr2 k g1 g2 R1 R2 U1 U2 K S1 S2 C N1 N2 V1 V2.
  rewrite (run_value _ _ _ _ _ _ _ _ _ R1 U1), (run_value _ _ _ _ _ _ _ _ _ R2 U2), V1, V2.
  assert (X : forall g, g <> [] -> nonempty (map (join comma) g) = true) by (intros [|? ?] H; [destruct (H eq_refl)|reflexivity]).
  rewrite (X g1 N1), (X g2 N2). eexists. split; [reflexivity|]. unfold field_value. rewrite K.
  destruct (accepted _ _); [|reflexivity]. rewrite !flat_map_flat, !split_groups, C by assumption. reflexivity.
Qed.
Print Assumptions C14_list.
(** Structured and JSON fields: the lines of elements separated by a comma and a space. *)
Lemma join_app {s : str} (a b : list str) : a <> [] -> b <> [] -> join s (a ++ b) = join s a ++ s ++ join s b.
Proof.
  induction a as [|x a IH]; intros Ha Hb; [destruct (Ha eq_refl)|]. destruct a as [|y a].
  - destruct b as [|z b]; [destruct (Hb eq_refl)|]. reflexivity.
  - change (join s ((x :: y :: a) ++ b)) with (x ++ s ++ join s ((y :: a) ++ b)). rewrite IH by (discriminate || assumption).
    change (join s (x :: y :: a)) with (x ++ s ++ join s (y :: a)). rewrite <- !app_assoc. reflexivity.
Qed.
Lemma join_groups (s : str) (g : list (list str)) : Forall (fun x => x <> []) g -> join s (map (join s) g) = join s (concat g).
Proof.
  induction g as [|x g IH]; intros H; [reflexivity|]. inversion H as [|? ? Hx Hg]; subst. cbn [map concat]. destruct g as [|y g].
  - cbn [map concat]. rewrite app_nil_r. reflexivity.
  - rewrite join_app; [|exact Hx|]. 2: { inversion Hg; subst. cbn [concat]. destruct y; [congruence|discriminate]. }
    rewrite <- (IH Hg). reflexivity.
Qed.
Theorem C14_structured : forall e t start base h1 t1 m1 h2 t2 m2 tr1 tr2 k g1 g2,
  run_of e t start base h1 t1 m1 -> run_of e t start base h2 t2 m2 ->
  unpadded k (section_lines tr1 h1 t1) -> unpadded k (section_lines tr2 h2 t2) ->
  (exists ty, kind_of (find_class k) = KSF ty) \/ kind_of (find_class k) = KJson ->
  Forall (fun g => g <> []) g1 -> Forall (fun g => g <> []) g2 -> concat g1 = concat g2 -> g1 <> [] -> g2 <> [] ->
  values k (section_lines tr1 h1 t1) = map (join (u ", ")) g1 -> values k (section_lines tr2 h2 t2) = map (join (u ", ")) g2 ->
  exists x, value_in tr1 k m1 = Some x /\ value_in tr2 k m2 = Some x.
Proof.
  intros e t start base h1 t1 m1 h2 t2 m2 tr1 tr2 k g1 g2 R1 R2 U1 U2 K S1 S2 C N1 N2 V1 V2.
  rewrite (run_value _ _ _ _ _ _ _ _ _ R1 U1), (run_value _ _ _ _ _ _ _ _ _ R2 U2), V1, V2.
  assert (X : forall g, g <> [] -> nonempty (map (join (u ", ")) g) = true) by (intros [|? ?] H; [destruct (H eq_refl)|reflexivity]).
  rewrite (X g1 N1), (X g2 N2). eexists. split; [reflexivity|]. unfold field_value. rewrite !join_groups, C by assumption.
  destruct K as [[ty K]|K]; rewrite K; reflexivity.
Qed.
Print Assumptions C14_structured.

(** ** C18, C19: invalid names, misplaced fields *)
Theorem C18_value : forall e t start base hs ts m' tr r,
  run_of e t start base hs ts m' -> In r (section_lines tr hs ts) -> unpadded (key_of r) (section_lines tr hs ts) ->
  bad_name t r = true -> value_in tr (key_of r) m' = Some (VList []).
Proof.
  intros e t start base hs ts m' tr r R Hr U B. rewrite (run_value _ _ _ _ _ _ _ _ _ R U).
  assert (NE : nonempty (values (key_of r) (section_lines tr hs ts)) = true).
  { rewrite <- a_line_values. apply existsb_exists. exists r. split; [exact Hr|]. rewrite key_eq. apply str_eqb_refl. }
  rewrite NE. f_equal. unfold bad_name in B. apply andb_prop in B as [_ B]. apply Bool.negb_true_iff in B.
  destruct U as [Us _]. unfold field_value.
  assert (T : tok (strip (key_of r)) = false) by (rewrite (tok_strip_case (key_of r) (name_of r)) by apply lower_lower; exact B).
  assert (F : find_class (key_of r) = F__unknown).
  { destruct (find_class (key_of r)) eqn:F; try reflexivity; exfalso; assert (X : tok (key_of r) = true) by (apply find_class_tok; rewrite F; discriminate); rewrite Us in T; congruence. }
  unfold accepted. rewrite F, T, Bool.andb_false_r. reflexivity.
Qed.
Print Assumptions C18_value.
Theorem C19_value : forall e t start base hs ts m' tr r,
  run_of e t start base hs ts m' -> In r (section_lines tr hs ts) -> unpadded (key_of r) (section_lines tr hs ts) ->
  allowed t (find_class (name_of r)) = false ->
  value_in tr (key_of r) m' = Some (match find_class (name_of r) with F_cookie | F_set_cookie => VList [] | _ => VNone end).
Proof.
  intros e t start base hs ts m' tr r R Hr U B. rewrite (run_value _ _ _ _ _ _ _ _ _ R U).
  assert (NE : nonempty (values (key_of r) (section_lines tr hs ts)) = true).
  { rewrite <- a_line_values. apply existsb_exists. exists r. split; [exact Hr|]. rewrite key_eq. apply str_eqb_refl. }
  rewrite NE. f_equal. unfold field_value, key_of. rewrite accepted_lower, find_class_lower, processed_eq. unfold processed. cbn [m_type new_linter]. rewrite B. cbn [andb].
  revert B. destruct (find_class (name_of r)), t; intros B; try reflexivity; vm_compute in B; discriminate B.
Qed.
Print Assumptions C19_value.
