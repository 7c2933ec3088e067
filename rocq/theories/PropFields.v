(** * Properties of field lines and values: C09-C14, C18, C19, C36, C40. *)
From Verif Require Import PyStr Regex Grammar NoteTable Note PyLib Utils FieldAttrs Types Fields1 Fields2 Fields3 Framework Checks Message
  EvLogic NoteLemmas TestEnv LexLemmas ParamLemmas NumLemmas NameLemmas FrameLemmas PassParse PassEval PassFrame PassSec PassProc Session
  SectionLemmas SecNotes SecValues LintLemmas FieldSpec.
Open Scope N_scope.

(** ** The vocabularies agree *)
Lemma is_ascii_ascii b : is_ascii b = ascii b. Proof. reflexivity. Qed.
Lemma ascii_name b : ascii b = true -> filter (fun c => c <? 128) b = b.
Proof. unfold ascii. induction b as [|c b IH]; [reflexivity|]. cbn [forallb filter]. intros H. apply andb_prop in H as [-> H]. rewrite (IH H). reflexivity. Qed.
Lemma name_eq r : raw_name r = name_of r.
Proof.
  unfold raw_name, name_of, read_name, decode_ascii_strict. rewrite is_ascii_ascii. destruct (ascii (fst r)) eqn:E; cbn [fst]; [|reflexivity].
  symmetry. apply ascii_name, E.
Qed.
Lemma value_eq r : raw_value r = value_of r.
Proof. unfold raw_value, value_of, read_value, decode_ascii_strict, decode_latin1. destruct (is_ascii (snd r)); reflexivity. Qed.
Lemma key_eq r : raw_key r = key_of r. Proof. unfold raw_key, key_of. rewrite name_eq. reflexivity. Qed.
Lemma allowed_eq t f : negb (wrong t f) = allowed t f.
Proof. unfold wrong, allowed. destruct t; apply Bool.negb_involutive. Qed.
Lemma processed_eq t n : accepted t n = processed t n.
Proof. unfold accepted, processed. rewrite allowed_eq. reflexivity. Qed.
Lemma size_eq l : sum_sizes l = total_size l. Proof. reflexivity. Qed.
Lemma numbered_eq t l : forall o, placed t o l = numbered t o l.
Proof. induction l as [|r l IH]; intros o; [reflexivity|]. cbn [placed numbered]. rewrite name_eq, processed_eq, IH. reflexivity. Qed.
Lemma fields_eq l : fields_seen l = fields_in l.
Proof.
  unfold fields_seen, fields_in. set (g := fun (ks : list str) (r : rawline) => _).
  assert (H : forall ks, fold_left seen l ks = fold_left g l ks); [|apply H].
  induction l as [|r l IH]; intros ks; [reflexivity|]. cbn [fold_left]. rewrite IH. f_equal. unfold seen, g. rewrite key_eq. reflexivity.
Qed.
Lemma values_eq k l : values_of k l = values k l.
Proof.
  unfold values_of, values. induction l as [|r l IH]; [reflexivity|]. cbn [filter]. rewrite key_eq. destruct (str_eqb _ _); cbn [map]; rewrite ?value_eq, IH; reflexivity.
Qed.
Lemma lines_eq k t l : lines_of k t l = map (fun rn => (value_of (fst rn), snd rn)) (field_lines_of t k l).
Proof.
  unfold lines_of, field_lines_of. rewrite numbered_eq. induction (numbered t 0 l) as [|[r o] x IH]; [reflexivity|]. cbn [filter]. unfold keyed at 1. cbn [fst]. rewrite key_eq.
  destruct (str_eqb _ _); cbn [map]; rewrite IH; [|reflexivity]. unfold input_of. cbn [fst snd]. rewrite value_eq. reflexivity.
Qed.

(** ** Counting notes of one class *)
Definition pick (c : nid) (l : list (nid * str)) : list str := map snd (filter (fun p => nid_eqb (fst p) c) l).
Lemma pick_app c a b : pick c (a ++ b) = pick c a ++ pick c b.
Proof. unfold pick. rewrite filter_app, map_app. reflexivity. Qed.
Lemma pick_flat {A} c (f : A -> list (nid * str)) l : pick c (flat_map f l) = flat_map (fun x => pick c (f x)) l.
Proof. induction l as [|x l IH]; [reflexivity|]. cbn [flat_map]. rewrite pick_app, IH. reflexivity. Qed.
Lemma pick_about c s l : pick c (about s l) = map (fun _ => s) (filter (fun n => nid_eqb n c) l).
Proof. unfold pick, about. induction l as [|n l IH]; [reflexivity|]. cbn [map filter fst]. destruct (nid_eqb n c); cbn [map snd]; rewrite IH; reflexivity. Qed.
Lemma subjects_pick c ns : framework c = true -> subjects c ns = pick c (fbriefs ns).
Proof.
  intros Hc. unfold subjects, pick, fbriefs, sel. induction ns as [|n ns IH]; [reflexivity|]. cbn [filter].
  destruct (nid_eqb (n_cls n) c) eqn:E.
  - apply nid_eqb_eq in E. rewrite E, Hc. cbn [map filter brief fst]. rewrite E, nid_eqb_refl. cbn [map snd]. rewrite IH. reflexivity.
  - destruct (framework (n_cls n)); [|exact IH]. cbn [map filter brief fst]. rewrite E. exact IH.
Qed.
Lemma about_none c s l : (forall n, In n l -> nid_eqb n c = false) -> pick c (about s l) = [].
Proof. intros H. rewrite pick_about. induction l as [|n l IH]; [reflexivity|]. cbn [filter]. rewrite (H n (or_introl eq_refl)). apply IH. intros m Hm. apply H. right. exact Hm. Qed.
Lemma flat_none {A B} (f : A -> list B) l : (forall x, In x l -> f x = []) -> flat_map f l = [].
Proof. induction l as [|x l IH]; intros H; [reflexivity|]. cbn [flat_map]. rewrite (H x (or_introl eq_refl)). apply IH. intros y Hy. apply H. right. exact Hy. Qed.
(** Classes of whole-value problems. *)
Definition value_class (c : nid) : bool := existsb (nid_eqb c) [BAD_SYNTAX; BAD_SYNTAX_DETAILED; SINGLE_HEADER_REPEAT; STRUCTURED_FIELD_PARSE_ERROR; DUPLICATE_KEY; BAD_JSON].
Lemma not_value n c : value_class c = false -> In n [BAD_SYNTAX; BAD_SYNTAX_DETAILED; SINGLE_HEADER_REPEAT; STRUCTURED_FIELD_PARSE_ERROR; DUPLICATE_KEY; BAD_JSON] -> nid_eqb n c = false.
Proof.
  intros H Hi. destruct (nid_eqb n c) eqn:E; [|reflexivity]. apply nid_eqb_eq in E. subst n. unfold value_class in H.
  assert (X : existsb (nid_eqb c) [BAD_SYNTAX; BAD_SYNTAX_DETAILED; SINGLE_HEADER_REPEAT; STRUCTURED_FIELD_PARSE_ERROR; DUPLICATE_KEY; BAD_JSON] = true)
    by (apply existsb_exists; exists c; split; [exact Hi|apply nid_eqb_refl]). congruence.
Qed.
Lemma member_classes f v n : In n (member_report f v) -> In n [BAD_SYNTAX; BAD_SYNTAX_DETAILED].
Proof.
  unfold member_report. destruct (fa_syntax _); [|intros []]. destruct (match_ws_dollar _ _); [intros []|]. destruct (match_prefix _ _); [cbn; tauto|].
  destruct (fa_report _); cbn; tauto.
Qed.
Lemma syntax_classes a f v n : In n (syntax_report a f v) -> n = BAD_SYNTAX.
Proof. unfold syntax_report. destruct (fa_syntax _); [|intros []]. destruct (match_ws_dollar _ _); [intros []|]. destruct (_ || _); cbn; intuition. Qed.
Lemma input_pick c f v o : value_class c = false -> pick c (input_report f v o) = [].
Proof.
  intros H. unfold input_report. destruct (kind_of f); try reflexivity. rewrite pick_flat. apply flat_none. intros x _. apply about_none.
  intros n Hn. apply member_classes in Hn. apply (not_value n c H). destruct Hn as [<-|[<-|[]]]; cbn; tauto.
Qed.
Lemma field_classes e t k l n s : In (n, s) (field_report e t k l) -> In n [BAD_SYNTAX; SINGLE_HEADER_REPEAT; STRUCTURED_FIELD_PARSE_ERROR; DUPLICATE_KEY; BAD_JSON].
Proof.
  assert (A : forall subj l, In (n, s) (about subj l) -> In n l).
  { intros subj l0 H. unfold about in H. apply in_map_iff in H as (x & E & H). injection E as <- _. exact H. }
  assert (D : forall {A} (d : list A) x, In n (map (fun _ => DUPLICATE_KEY) d ++ [x]) -> n = DUPLICATE_KEY \/ n = x).
  { intros A0 d x H. apply in_app_iff in H as [H|[H|[]]]; [apply in_map_iff in H as (? & <- & _)|]; auto. }
  assert (R : forall {A} (r : sfres A), In n (sfr_report r) -> n = DUPLICATE_KEY \/ n = STRUCTURED_FIELD_PARSE_ERROR).
  { intros A0 r. unfold sfr_report. destruct r; intros H; try (apply D in H; exact H). apply in_map_iff in H as (? & <- & _). auto. }
  unfold field_report. destruct (accepted t k); [|intros []]. destruct (kind_of (find_class k)) as [| | |ty| |]; intros H.
  - apply A in H. unfold singleton_report in H. destruct l as [|[v o] more]; [destruct H|]. apply in_app_iff in H as [H|H].
    + destruct more; [destruct H|]. destruct H as [<-|[]]. cbn. tauto.
    + apply syntax_classes in H. subst. cbn. tauto.
  - destruct H.
  - unfold broken_report in H. apply in_flat_map in H as (x & _ & H). apply A, syntax_classes in H. subst. cbn. tauto.
  - apply A in H. unfold sf_report in H. destruct (map fst l); [destruct H|]. destruct ty; apply R in H; destruct H as [-> | ->]; cbn; tauto.
  - apply A in H. unfold json_report in H. destruct (map fst l); [destruct H|]. destruct (e_json _ _); try destruct H as [<-|[]]; cbn; tauto.
  - destruct H.
Qed.
Lemma pick_none c l : (forall n s, In (n, s) l -> nid_eqb n c = false) -> pick c l = [].
Proof. unfold pick. induction l as [|[n s] l IH]; intros H; [reflexivity|]. cbn [filter fst]. rewrite (H n s (or_introl eq_refl)). apply IH. intros a b Hab. apply (H a b). right. exact Hab. Qed.
Lemma field_pick c e t k l : value_class c = false -> pick c (field_report e t k l) = [].
Proof. intros H. apply pick_none. intros n s Hn. apply field_classes in Hn. apply (not_value n c H). destruct Hn as [<-|[<-|[<-|[<-|[<-|[]]]]]]; cbn; tauto. Qed.
(** ** Line-level classes *)
(** The classes a line by itself gives rise to. *)
Definition line_classes (t : mtype) (r : rawline) : list nid :=
  (if ascii (fst r) then [] else [FIELD_NAME_ENCODING])
  ++ (if ascii (snd r) then [] else [FIELD_VALUE_ENCODING])
  ++ (if allowed t (find_class (name_of r)) then
        if is_token (strip (name_of r)) then (if fa_dep (attrs (find_class (name_of r))) then [FIELD_DEPRECATED] else [])
        else [FIELD_NAME_BAD_SYNTAX]
      else [wrong_class t])
  ++ (if processed t (name_of r) && (8192 <? N.of_nat (length (fst r) + length (snd r))) then [FIELD_TOO_LARGE] else []).
Lemma filter_repeat {A} (b : nid -> bool) (s : A) l : map (fun _ => s) (filter b l) = flat_map (fun n => if b n then [s] else []) l.
Proof. induction l as [|n l IH]; [reflexivity|]. cbn [filter flat_map]. destruct (b n); cbn [map app]; rewrite IH; reflexivity. Qed.
Lemma line_pick c t r o : value_class c = false -> pick c (line_report t (r, o)) = map (fun _ => at_offset o) (filter (fun n => nid_eqb n c) (line_classes t r)).
Proof.
  intros H. unfold line_report, line_classes. rewrite !filter_app, !map_app, pick_app, pick_about, !filter_app, !map_app.
  rewrite !name_eq, processed_eq. unfold enc_report, decode_ascii_strict. change is_ascii with ascii. unfold name_report.
  rewrite <- allowed_eq. change (NameLemmas.tok (strip (name_of r))) with (is_token (strip (name_of r))).
  change offset_subj with at_offset. rewrite !filter_app, !map_app, <- !app_assoc.
  f_equal; [destruct (ascii (fst r)); reflexivity|]. f_equal; [destruct (ascii (snd r)); reflexivity|].
  f_equal; [destruct (wrong t (find_class (name_of r))); reflexivity|].
  destruct (processed t (name_of r)); [|reflexivity]. rewrite pick_app, (input_pick c _ _ _ H), pick_about. reflexivity.
Qed.
Lemma section_pick c tr l : c <> FIELD_SECTION_TOO_LARGE -> pick c (section_report tr l) = [].
Proof.
  intros H. unfold section_report. destruct (_ <? _); [|reflexivity]. apply (about_none c (u "field-block") [FIELD_SECTION_TOO_LARGE]).
  intros n [<-|[]]. destruct (nid_eqb _ c) eqn:E; [|reflexivity]. apply nid_eqb_eq in E. congruence.
Qed.
Lemma report_pick c e t tr l : value_class c = false -> c <> FIELD_SECTION_TOO_LARGE ->
  pick c (report_of e t tr l) = flat_map (fun rn => map (fun _ => at_offset (snd rn)) (filter (fun n => nid_eqb n c) (line_classes t (fst rn)))) (numbered t 0 l).
Proof.
  intros H Hc. unfold report_of. rewrite !pick_app, !pick_flat, (section_pick c tr l Hc). cbn [app].
  rewrite (flat_none (fun k => pick c (field_report e t k (lines_of k t l)))) by (intros; apply field_pick, H). rewrite app_nil_r, numbered_eq.
  apply flat_map_ext. intros [r o]. apply line_pick, H.
Qed.
(** If a line gives at most one note of class [c], namely when [b] holds: *)
Lemma lint_lines c (b : rawline -> bool) e rel top headers chunks complete trailers t start nc head base m' rel' :
  lint e rel top headers chunks complete trailers (new_linter t start nc head base) = (m', rel', Ok tt) ->
  framework c = true -> value_class c = false -> c <> FIELD_SECTION_TOO_LARGE ->
  (forall r : rawline, filter (fun n => nid_eqb n c) (line_classes t r) = if b r then [c] else []) ->
  subjects c (m_notes m') = lines_where t b headers ++ lines_where t b trailers.
Proof.
  intros E Hf Hv Hs Hb. rewrite (subjects_pick c _ Hf), (lint_report _ _ _ _ _ _ _ _ _ _ _ _ _ _ E), pick_app, !(report_pick c) by assumption.
  assert (X : forall l, flat_map (fun rn => map (fun _ => at_offset (snd rn)) (filter (fun n => nid_eqb n c) (line_classes t (fst rn)))) (numbered t 0 l) = lines_where t b l).
  { intros l. unfold lines_where. induction (numbered t 0 l) as [|[r o] x IH]; [reflexivity|]. cbn [flat_map filter fst snd]. rewrite Hb.
    destruct (b r); cbn [map app]; rewrite IH; reflexivity. }
  rewrite !X. reflexivity.
Qed.
Ltac line_cls := intros r; unfold line_classes, processed;
  let A := fresh in let B := fresh in
  destruct (allowed _ (find_class (name_of r))) eqn:A, (is_token (strip (name_of r))) eqn:B;
  destruct (ascii (fst r)), (ascii (snd r)), (fa_dep (attrs (find_class (name_of r)))), (8192 <? N.of_nat (length (fst r) + length (snd r)));
  first [reflexivity|match goal with t : mtype |- _ => destruct t; reflexivity end].

(** ** C09: received fields are recorded faithfully *)
Theorem C09_text : forall e rel top headers chunks complete trailers t start nc head base m' rel',
  lint e rel top headers chunks complete trailers (new_linter t start nc head base) = (m', rel', Ok tt) ->
  s_text (m_headers m') = map (fun r => (name_of r, value_of r)) headers
  /\ s_text (m_trailers m') = map (fun r => (name_of r, value_of r)) trailers
  /\ s_size (m_headers m') = total_size headers /\ s_size (m_trailers m') = total_size trailers
  /\ (forall r : rawline, ascii (fst r) = true -> name_of r = fst r).
Proof.
  intros e rel top headers chunks complete trailers t start nc head base m' rel' E. destruct (lint_text _ _ _ _ _ _ _ _ _ _ _ _ _ _ E) as (A & B & C & D).
  assert (X : forall l : list rawline, map (fun r => (raw_name r, raw_value r)) l = map (fun r => (name_of r, value_of r)) l).
  { intros l. apply map_ext. intros r. rewrite name_eq, value_eq. reflexivity. }
  rewrite <- !X. repeat (split; [assumption|]). intros r H. apply ascii_name, H.
Qed.
Print Assumptions C09_text.
Theorem C09_encoding : forall e rel top headers chunks complete trailers t start nc head base m' rel',
  lint e rel top headers chunks complete trailers (new_linter t start nc head base) = (m', rel', Ok tt) ->
  subjects FIELD_NAME_ENCODING (m_notes m')
    = lines_where t (fun r => negb (ascii (fst r))) headers ++ lines_where t (fun r => negb (ascii (fst r))) trailers
  /\ subjects FIELD_VALUE_ENCODING (m_notes m')
    = lines_where t (fun r => negb (ascii (snd r))) headers ++ lines_where t (fun r => negb (ascii (snd r))) trailers.
Proof.
  intros e rel top headers chunks complete trailers t start nc head base m' rel' E. split.
  - apply (lint_lines _ _ _ _ _ _ _ _ _ _ _ _ _ _ _ _ E); try reflexivity; [discriminate|line_cls].
  - apply (lint_lines _ _ _ _ _ _ _ _ _ _ _ _ _ _ _ _ E); try reflexivity; [discriminate|line_cls].
Qed.
Print Assumptions C09_encoding.

(** ** C36: field and section size limits *)
Definition large (t : mtype) (r : rawline) : bool := processed t (name_of r) && (8192 <? N.of_nat (length (fst r) + length (snd r))).
Theorem C36_field : forall e rel top headers chunks complete trailers t start nc head base m' rel',
  lint e rel top headers chunks complete trailers (new_linter t start nc head base) = (m', rel', Ok tt) ->
  subjects FIELD_TOO_LARGE (m_notes m') = lines_where t (large t) headers ++ lines_where t (large t) trailers.
Proof.
  intros e rel top headers chunks complete trailers t start nc head base m' rel' E.
  apply (lint_lines _ _ _ _ _ _ _ _ _ _ _ _ _ _ _ _ E); try reflexivity; [discriminate|]. unfold large. line_cls.
Qed.
Print Assumptions C36_field.
Lemma line_not_section t r : filter (fun n => nid_eqb n FIELD_SECTION_TOO_LARGE) (line_classes t r) = [].
Proof. revert r. unfold line_classes. destruct t; line_cls. Qed.
Theorem C36_section : forall e rel top headers chunks complete trailers t start nc head base m' rel',
  lint e rel top headers chunks complete trailers (new_linter t start nc head base) = (m', rel', Ok tt) ->
  subjects FIELD_SECTION_TOO_LARGE (m_notes m')
    = (if 32768 <? total_size headers then [u "field-block"] else []) ++ (if 32768 <? total_size trailers then [u "field-block"] else []).
Proof.
  intros e rel top headers chunks complete trailers t start nc head base m' rel' E.
  rewrite (subjects_pick FIELD_SECTION_TOO_LARGE _ eq_refl), (lint_report _ _ _ _ _ _ _ _ _ _ _ _ _ _ E), pick_app.
  assert (X : forall tr l, pick FIELD_SECTION_TOO_LARGE (report_of e t tr l) = if 32768 <? total_size l then [u "field-block"] else []).
  { intros tr l. unfold report_of. rewrite !pick_app, !pick_flat.
    rewrite (flat_none (fun k => pick _ (field_report e t k (lines_of k t l)))) by (intros; apply field_pick; reflexivity).
    rewrite (flat_none (fun x => pick _ (line_report t x))) by (intros [r o] _; rewrite line_pick, line_not_section; reflexivity).
    rewrite app_nil_r. cbn [app]. unfold section_report. rewrite size_eq. change max_total_size with 32768. destruct (_ <? _); reflexivity. }
  rewrite !X. reflexivity.
Qed.
Print Assumptions C36_section.

(** ** C18: invalid field names *)
Definition bad_name (t : mtype) (r : rawline) : bool := allowed t (find_class (name_of r)) && negb (is_token (strip (name_of r))).
Theorem C18_notes : forall e rel top headers chunks complete trailers t start nc head base m' rel',
  lint e rel top headers chunks complete trailers (new_linter t start nc head base) = (m', rel', Ok tt) ->
  subjects FIELD_NAME_BAD_SYNTAX (m_notes m') = lines_where t (bad_name t) headers ++ lines_where t (bad_name t) trailers.
Proof.
  intros e rel top headers chunks complete trailers t start nc head base m' rel' E.
  apply (lint_lines _ _ _ _ _ _ _ _ _ _ _ _ _ _ _ _ E); try reflexivity; [discriminate|]. unfold bad_name. destruct t; line_cls.
Qed.
Print Assumptions C18_notes.
Theorem C19_notes : forall e rel top headers chunks complete trailers t start nc head base m' rel',
  lint e rel top headers chunks complete trailers (new_linter t start nc head base) = (m', rel', Ok tt) ->
  let c := match t with MRequest => RESPONSE_HDR_IN_REQUEST | _ => REQUEST_HDR_IN_RESPONSE end in
  let misplaced := fun r => negb (allowed t (find_class (name_of r))) in
  subjects c (m_notes m') = lines_where t misplaced headers ++ lines_where t misplaced trailers.
Proof.
  intros e rel top headers chunks complete trailers t start nc head base m' rel' E c b.
  apply (lint_lines _ _ _ _ _ _ _ _ _ _ _ _ _ _ _ _ E); try (destruct t; reflexivity); [destruct t; discriminate|]. unfold b, c. destruct t; line_cls.
Qed.
Print Assumptions C19_notes.
