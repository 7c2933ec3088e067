(** * Vary (C31) and Cache-Control (C30). *)
From Verif Require Import PyStr Regex Grammar NoteTable Note PyLib Utils FieldAttrs Types Fields1 Fields2 Fields3 Framework Checks Message
  EvLogic NoteLemmas TestEnv LexLemmas ParamLemmas NumLemmas NameLemmas FrameLemmas PassParse PassEval PassFrame PassSec PassProc PassRun Session SessionLemmas
  SectionLemmas SecNotes SecValues LintLemmas FieldSpec PropFields PropValues PropNames OwnLemmas ListSpec.
Open Scope N_scope.

Definition classes (l : list nid) (n : nid) : bool := existsb (nid_eqb n) l.
Lemma once_dedup l : dedup l = once_each l.
Proof. induction l as [|x l IH]; [reflexivity|]. cbn [dedup once_each]. rewrite IH. f_equal. apply filter_ext. intros y. rewrite str_eqb_sym. reflexivity. Qed.
Lemma str_in_has l n : str_in (u n) l = has_name l n.
Proof. reflexivity. Qed.

(** ** C31: Vary *)
Lemma vary_parsed vs e : flat_map (parsed_as e (new_linter MResponse None false false []) F_vary) vs = map (fun v => VStr (lower (strip v))) vs.
Proof. induction vs as [|v vs IH]; [reflexivity|]. cbn [flat_map map]. rewrite IH. reflexivity. Qed.
Lemma strs_of l : flat_map (fun x => match x with VStr s => [s] | _ => [] end) (map VStr l) = l.
Proof. induction l as [|x l IH]; [reflexivity|]. cbn [map flat_map app]. rewrite IH. reflexivity. Qed.
Theorem C31_value : forall e t start base hs ts m' tr,
  t <> MRequest -> run_of e t start base hs ts m' -> unpadded (u "vary") (section_lines tr hs ts) ->
  let vs := values (u "vary") (section_lines tr hs ts) in
  value_in tr (u "vary") m' = if nonempty vs then Some (VList (map VStr (once_each (vary_names vs)))) else None.
Proof.
  intros e t start base hs ts m' tr Ht R U vs. rewrite (run_value _ _ _ _ _ _ _ _ _ R U). fold vs. destruct (nonempty vs); [|reflexivity]. f_equal.
  unfold field_value. change (find_class (u "vary")) with F_vary. change (kind_of F_vary) with KList.
  assert (A : accepted (m_type (new_linter t start false false base)) (u "vary") = true) by (destruct t; [congruence|reflexivity|reflexivity]). rewrite A.
  cbn [settled]. f_equal. f_equal. rewrite once_dedup. f_equal. unfold vary_names. rewrite <- flat_map_flat_map.
  generalize (flat_map split_list_field vs). intros l. induction l as [|v l IH]; [reflexivity|]. cbn [flat_map map]. rewrite flat_map_app, IH. reflexivity.
Qed.

(** The class and the subject of the notes of certain classes, in order. *)
Definition reports (cs : list nid) (ns : list note) : list (nid * str) :=
  map (fun n => (n_cls n, n_subj n)) (filter (fun n => classes cs (n_cls n)) ns).
Lemma reports_heard cs ks ns : reports cs ns = map fst (heard (classes cs) ks ns).
Proof. unfold reports, heard. rewrite map_map. reflexivity. Qed.
Lemma vary_hyphened l : hyphened (u "vary") l.
Proof.
  apply Forall_forall. intros r _ H. unfold token_of in H. change (key_of r) with (lower (name_of r)). revert H. generalize (lower (name_of r)). intros n H.
  change (map (fun c : N => if c =? 45 then 95 else c) (lower (u "vary"))) with (u "vary") in H.
  destruct n as [|a [|b [|c [|d [|x n]]]]]; try discriminate H. cbn [map] in H. injection H as Ha Hb Hc Hd.
  assert (K : forall x y, (if x =? 45 then 95 else x) = y -> y <> 95 -> x = y) by (intros x y E N; destruct (x =? 45); congruence).
  apply K in Ha; [|discriminate]. apply K in Hb; [|discriminate]. apply K in Hc; [|discriminate]. apply K in Hd; [|discriminate]. subst. reflexivity.
Qed.
Definition vary_k (l : list str) : W pyval :=
  let d := dedup l in
  when (negb (Nat.eqb (length l) (length d))) (add_note VARY_DUPLICATE []) ;;;
  when (str_in (u "*") d) (add_note VARY_ASTERISK []) ;;;
  when (Nat.ltb 3 (length d))
       (add_note VARY_COMPLEX [vs "vary_count" (f_num (Z.of_nat (length d)))]) ;;;
  when (str_in (u "user-agent") d) (add_note VARY_USER_AGENT []) ;;;
  when (str_in (u "host") d) (add_note VARY_HOST []) ;;;
  when (str_in (u "negotiate") d) (add_note VARY_NEGOTIATE []) ;;;
  ret (VList (map VStr d)).
Definition vary_q (v : pyval) : W pyval := l <- lift (strs v) ;; vary_k l.
Lemma lift_ok {A B} (a : A) (k : A -> W B) : bind (lift (Ok a)) k = k a.
Proof. unfold bind, lift. destruct (k a). reflexivity. Qed.
Lemma strs_list l : strs (VList (map VStr l)) = Ok l.
Proof. unfold strs. cbn [as_list rbind]. induction l as [|x l IH]; [reflexivity|]. cbn [map mapR]. cbn [as_str rbind] in *. rewrite IH. reflexivity. Qed.
Definition vary_says (l : list rawline) : list (nid * str) :=
  let vs := values (u "vary") l in if nonempty vs then map (fun c => (c, u "field-vary")) (vary_due (vary_names vs)) else [].
Lemma elements_values t k l : flat_map split_list_field (values k l) = map fst (elements t k l).
Proof.
  unfold elements. rewrite <- values_eq, <- (lines_values k t l), lines_eq. induction (field_lines_of t k l) as [|[r o] x IH]; [reflexivity|].
  cbn [map flat_map fst snd]. rewrite map_app. f_equal; [|exact IH]. rewrite map_map. cbn [fst]. rewrite map_id. reflexivity.
Qed.
Lemma vary_section t l : map fst (list_says (classes vary_classes) [] t (u "vary") (fun v => ret (VStr (lower v))) vary_q l) = vary_says l.
Proof.
  unfold list_says, vary_says. rewrite flat_none by (intros; reflexivity). cbn [app]. destruct (nonempty _); [|reflexivity].
  rewrite <- elements_values. unfold vary_names.
  replace (flat_map (parses (fun v => ret (VStr (lower v)))) (flat_map split_list_field (values (u "vary") l))) with (map VStr (map (fun v => lower (strip v)) (flat_map split_list_field (values (u "vary") l)))).
  2: { induction (flat_map split_list_field _) as [|v x IH]; [reflexivity|]. cbn [map flat_map]. rewrite IH. reflexivity. }
  generalize (map (fun v => lower (strip v)) (flat_map split_list_field (values (u "vary") l))). intros ns.
  unfold vary_q. rewrite strs_list, lift_ok. unfold vary_k, vary_due. cbv zeta. rewrite once_dedup, !str_in_has, (Nat.eqb_sym (length ns)). set (once := once_each ns).
  destruct (Nat.eqb _ _), (has_name once "*"), (Nat.ltb 3 _), (has_name once "user-agent"), (has_name once "host"), (has_name once "negotiate"); reflexivity.
Qed.
Theorem C31_notes : forall e rel top headers chunks complete trailers t start nc head base m' rel',
  lint e rel top headers chunks complete trailers (new_linter t start nc head base) = (m', rel', Ok tt) -> t <> MRequest ->
  reports vary_classes (m_notes m') = vary_says headers ++ vary_says trailers.
Proof.
  intros e rel top headers chunks complete trailers t start nc head base m' rel' E Ht. rewrite (reports_heard _ []).
  rewrite (list_own (classes vary_classes) [] F_vary (u "vary") (fun v => ret (VStr (lower v))) vary_q e rel top headers chunks complete trailers t start nc head base m' rel' E).
  - rewrite map_app, !vary_section. reflexivity.
  - apply mine_b_ok. vm_compute. reflexivity.
  - apply quiet_b_ok. vm_compute. reflexivity.
  - reflexivity.
  - reflexivity.
  - vm_compute. tauto.
  - reflexivity.
  - reflexivity.
  - reflexivity.
  - destruct t; [congruence|reflexivity|reflexivity].
  - apply vary_hyphened.
  - apply vary_hyphened.
  - reflexivity.
  - intros v. constructor.
  - reflexivity.
  - intros v. unfold vary_q. destruct (strs v) as [l|x]; [|constructor]. rewrite lift_ok. unfold vary_k. cbv zeta. set (d := dedup l).
    destruct (Nat.eqb _ _), (str_in (u "*") d), (Nat.ltb 3 _), (str_in (u "user-agent") d), (str_in (u "host") d), (str_in (u "negotiate") d); cbn; repeat constructor.
Qed.
Print Assumptions C31_notes.
