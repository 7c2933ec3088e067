(** * The whole run, whatever the order of sets *)
From Coq Require Import Permutation.
From Verif Require Import PyStr Regex Grammar NoteTable Note PyLib Utils FieldAttrs Types Fields1 Fields2 Fields3 Framework Checks Message
  RankSpec EvLogic NoteLemmas FrameLemmas PassFrame Session RankLemmas.
Open Scope N_scope.

Lemma qk_sqk subj base l : NoDup (keys base) -> Forall quiet_kid l -> Forall sqk (tag subj base l).
Proof. intros Hb H. unfold tag. apply Forall_map. eapply Forall_impl; [|exact H]. intros e He. split; [exact He|exact Hb]. Qed.
Lemma line_base_nodup h : NoDup (keys (line_base h)).
Proof. unfold line_base. cbn. repeat constructor; cbn; intuition discriminate. Qed.
Lemma sec_base_nodup tr h : NoDup (keys (sec_base tr h)).
Proof. unfold sec_base. cbn. repeat constructor; cbn; intuition discriminate. Qed.
Lemma nil_nodup : NoDup (keys (@nil (str * pyval))). Proof. constructor. Qed.

Definition frel (x x' : list sev * handler * res unit) : Prop :=
  srel (fst (fst x)) (fst (fst x')) /\ snd (fst x') = snd (fst x) /\ snd x' = snd x /\ Forall sqk (fst (fst x)) /\ Forall sqk (fst (fst x')).
Lemma frel_same x : Forall sqk (fst (fst x)) -> frel x x.
Proof. intros H. split; [apply srel_refl|]. auto. Qed.

(** ** A line's value *)
Lemma list_syntax_qk h v : qk (list_syntax h v).
Proof. unfold list_syntax. cbv zeta. qkt. Qed.
Lemma list_member_same c c' h v : eq_cx c c' -> list_member c' h v = list_member c h v.
Proof. intros E. unfold list_member. rewrite (parse_same _ h (strip v) c c' E). reflexivity. Qed.
Lemma list_member_qk c h v : qk (list_member c h v).
Proof. unfold list_member. apply qk_bind; [apply list_syntax_qk|]. intros _. apply qk_catch; [|apply qk_ret]. apply qk_bind; [apply parse_qk|intros; apply qk_ret]. Qed.
Lemma list_input_same c c' subj l : eq_cx c c' -> forall h, list_input c' subj h l = list_input c subj h l.
Proof.
  intros E. induction l as [|v l IH]; intros h; cbn [list_input]; [reflexivity|]. rewrite (list_member_same c c' h v E).
  destruct (list_member c h v) as [evs [o|x]]; [|reflexivity]. rewrite IH. reflexivity.
Qed.
Lemma list_input_qk c subj l : forall h, Forall sqk (fst (fst (list_input c subj h l))).
Proof.
  induction l as [|v l IH]; intros h; cbn [list_input]; [constructor|]. pose proof (list_member_qk c h v) as Q. destruct (list_member c h v) as [evs [o|x]].
  - match goal with |- context [list_input c subj ?h2 l] => specialize (IH h2); destruct (list_input c subj h2 l) as [[e2 h3] r2] end. cbn [fst] in *.
    apply Forall_app; split; [apply qk_sqk; [apply line_base_nodup|exact Q]|exact IH].
  - cbn [fst]. apply qk_sqk; [apply line_base_nodup|exact Q].
Qed.
Lemma handle_input_same c c' h v o : eq_cx c c' -> handle_input c' h v o = handle_input c h v o.
Proof. intros E. unfold handle_input. destruct (kind_of (h_cls h)); try reflexivity. apply list_input_same, E. Qed.
Lemma handle_input_qk c h v o : Forall sqk (fst (fst (handle_input c h v o))).
Proof. unfold handle_input. destruct (kind_of (h_cls h)); try constructor. apply list_input_qk. Qed.

(** ** Finishing a field *)
Lemma finish_eval_same subj base h (w w' : W pyval) : NoDup (keys base) -> qk w -> qk w' -> wrel w w' -> frel (finish_eval subj base h w) (finish_eval subj base h w').
Proof.
  intros Hb Q Q' [H1 H2]. unfold finish_eval. destruct w as [l r], w' as [l' r']. cbn [fst snd] in *. subst r'. unfold qk in *. cbn [fst] in *.
  pose proof (tag_srel subj base l l' H1) as S. rewrite (srel_aux _ _ S).
  destruct r as [v|x]; (split; [exact S|]); (split; [reflexivity|]); (split; [reflexivity|]); split; apply qk_sqk; assumption.
Qed.
Lemma prefix_same l x x' : Forall sqk l -> frel x x' -> frel (prefix_events l x) (prefix_events l x').
Proof.
  intros Hl (H1 & H2 & H3 & H4 & H5). destruct x as [[a h] r], x' as [[a' h'] r']. cbn [fst snd prefix_events] in *. subst.
  split; [apply srel_app; [apply srel_refl|exact H1]|]. split; [reflexivity|]. split; [reflexivity|]. split; apply Forall_app; split; assumption.
Qed.
Lemma base_finish_same c c' subj base h : NoDup (keys base) -> eq_cx c c' -> frel (base_finish c subj base h) (base_finish c' subj base h).
Proof.
  intros Hb E. unfold base_finish. destruct (h_val h); try (apply finish_eval_same; [exact Hb|apply eval_qk|apply eval_qk|apply eval_same, E]). apply frel_same. constructor.
Qed.
Lemma singleton_same c c' subj base h : NoDup (keys base) -> eq_cx c c' -> frel (singleton_finish c subj base h) (singleton_finish c' subj base h).
Proof.
  intros Hb E. unfold singleton_finish. destruct (h_raw h) as [|[raw o] more]; [apply frel_same; constructor|]. cbv zeta. rewrite (parse_same _ h (strip raw) c c' E).
  set (l1 := match more with [] => _ | _ => _ end). set (l2 := match fa_syntax _ with Some _ => _ | None => _ end).
  pose proof (parse_qk (h_cls h) c h (strip raw)) as Q. destruct (parse_of (h_cls h) c h (strip raw)) as [l3 r].
  assert (K : Forall sqk (tag subj base (l1 ++ l2 ++ l3))).
  { apply qk_sqk; [exact Hb|]. apply Forall_app; split; [|apply Forall_app; split; [|exact Q]].
    - unfold l1. destruct more; repeat constructor.
    - unfold l2. destruct (fa_syntax _); [|constructor]. destruct (match_ws_dollar _ _); [constructor|]. destruct (fa_report _); repeat constructor. }
  destruct r as [v|x]; [apply prefix_same; [exact K|apply base_finish_same; assumption]|]. destruct (is_ValueError x); apply frel_same; exact K.
Qed.
Lemma broken_values_same c c' l : eq_cx c c' -> forall h acc, broken_values c' h l acc = broken_values c h l acc.
Proof.
  intros E. induction l as [|[raw o] l IH]; intros h acc; cbn [broken_values]; [reflexivity|]. rewrite (parse_same _ h (strip raw) c c' E).
  destruct (parse_of (h_cls h) c h (strip raw)) as [l2 [v|x]]; cbv zeta; rewrite ?IH; reflexivity.
Qed.
Lemma broken_values_qk c l : forall h acc, Forall sqk (fst (fst (broken_values c h l acc))).
Proof.
  induction l as [|[raw o] l IH]; intros h acc; cbn [broken_values]; [constructor|].
  set (l1 := match fa_syntax _ with Some _ => _ | None => _ end).
  pose proof (parse_qk (h_cls h) c h (strip raw)) as Q. destruct (parse_of (h_cls h) c h (strip raw)) as [l2 r]. cbv zeta.
  assert (K : Forall sqk (tag (offset_subj o) (line_base h) (l1 ++ l2))).
  { apply qk_sqk; [apply line_base_nodup|]. apply Forall_app; split; [|exact Q]. unfold l1. destruct (fa_syntax _); [|constructor]. destruct (match_ws_dollar _ _); repeat constructor. }
  destruct r as [v|x].
  - match goal with |- context [broken_values c ?h2 l ?a] => specialize (IH h2 a); destruct (broken_values c h2 l a) as [[e2 h3] r2] end. cbn [fst] in *. apply Forall_app; split; assumption.
  - destruct (is_ValueError x); [|exact K].
    match goal with |- context [broken_values c ?h2 l ?a] => specialize (IH h2 a); destruct (broken_values c h2 l a) as [[e2 h3] r2] end. cbn [fst] in *. apply Forall_app; split; assumption.
Qed.
Lemma broken_same c c' subj base h : NoDup (keys base) -> eq_cx c c' -> frel (broken_finish c subj base h) (broken_finish c' subj base h).
Proof.
  intros Hb E. unfold broken_finish. rewrite (broken_values_same c c' _ E). pose proof (broken_values_qk c (h_raw h) h []) as K.
  destruct (broken_values c h (h_raw h) []) as [[evs h1] [l|x]]; cbn [fst] in K; [|apply frel_same; exact K]. apply prefix_same; [exact K|apply base_finish_same; assumption].
Qed.
Lemma dup_qk d : Forall quiet_kid (dup_events d).
Proof. unfold dup_events. apply Forall_map, Forall_forall. intros; exact I. Qed.
Lemma sf_result_same {A} subj base h combined (r : sfres A) value (ev ev' : handler -> A -> W pyval) : NoDup (keys base) ->
  (forall h v, ev' h v = ev h v) -> (forall h v, qk (ev h v)) -> frel (sf_result subj base h combined r value ev) (sf_result subj base h combined r value ev').
Proof.
  intros Hb He Hq. unfold sf_result. destruct r as [v d|d problem pos|d problem]; cbv zeta.
  - apply prefix_same; [apply qk_sqk; [exact Hb|apply dup_qk]|]. rewrite He. apply finish_eval_same; [exact Hb|apply Hq|apply Hq|apply wrel_refl].
  - apply frel_same. cbn [fst]. apply qk_sqk; [exact Hb|]. apply Forall_app; split; [apply dup_qk|repeat constructor].
  - apply frel_same. cbn [fst]. apply qk_sqk; [exact Hb|]. apply Forall_app; split; [apply dup_qk|repeat constructor].
Qed.
Lemma finish_same c c' subj base h : NoDup (keys base) -> eq_cx c c' -> frel (finish_handler c subj base h) (finish_handler c' subj base h).
Proof.
  intros Hb E. unfold finish_handler. destruct (kind_of (h_cls h)) as [| | |t| |].
  all: try (apply base_finish_same; assumption).
  - apply singleton_same; assumption.
  - apply broken_same; assumption.
  - unfold sf_finish. destruct (negb _); [apply frel_same; constructor|]. destruct (h_sf h); [apply frel_same; constructor|]. destruct (raw_texts _) as [raws|]; [|apply frel_same; constructor].
    cbv zeta. assert (EE : exists order, cx_env c' = with_order order (cx_env c)) by (destruct E as (order & _ & E1 & _); exists order; exact E1).
    destruct EE as [order ->]. destruct t.
    + apply sf_result_same; [exact Hb|intros; apply item_same, E|intros; apply item_qk].
    + apply sf_result_same; [exact Hb|intros; apply list_same, E|intros; apply list_qk].
    + apply sf_result_same; [exact Hb|intros; apply dict_same, E|intros; apply dict_qk].
  - unfold json_finish. destruct (negb _); [apply frel_same; constructor|]. destruct (raw_texts _) as [raws|]; [|apply frel_same; constructor].
    assert (EE : exists order, cx_env c' = with_order order (cx_env c)) by (destruct E as (order & _ & E1 & _); exists order; exact E1).
    destruct EE as [order ->]. cbn [e_json with_order]. destruct (e_json _ _); [apply base_finish_same; assumption| |]; apply frel_same; [|constructor]. cbn [fst]. apply qk_sqk; [exact Hb|repeat constructor].
Qed.

(** ** Linters *)
Lemma same_notes_refl ns : same_notes ns ns.
Proof. split; [reflexivity|apply rearranged_refl; left; reflexivity]. Qed.
Lemma same_refl m : same_linter m m.
Proof. split; [destruct m; reflexivity|apply same_notes_refl]. Qed.
Lemma same_emit m m' l l' : same_linter m m' -> Forall sqk l -> Forall sqk l' -> srel l l' -> same_linter (m_emit l m) (m_emit l' m').
Proof.
  intros [H1 H2] K K' S. split; [rewrite H1; reflexivity|]. unfold m_emit. cbn [m_set_notes m_notes]. rewrite H1. cbn [m_set_notes m_notes m_type]. apply emit_same; assumption.
Qed.
Lemma same_emit1 m m' l : same_linter m m' -> Forall sqk l -> same_linter (m_emit l m) (m_emit l m').
Proof. intros H K. apply same_emit; [exact H|exact K|exact K|apply srel_refl]. Qed.
Lemma same_sec m m' tr s : same_linter m m' -> same_linter (m_set_sec tr s m) (m_set_sec tr s m').
Proof. intros [H1 H2]. split; [rewrite H1; reflexivity|exact H2]. Qed.
Lemma same_at_sec m m' tr : same_linter m m' -> sec tr m' = sec tr m.
Proof. intros [-> _]. destruct tr; reflexivity. Qed.
Lemma same_cx order e m m' rel rel' : same_linter m m' -> same_related rel rel' -> eq_cx (mkCx e m rel) (mkCx (with_order order e) m' rel').
Proof. intros [H1 H2] R. exists order, (m_notes m'). split; [reflexivity|]. split; [exact H1|]. split; [exact H2|exact R]. Qed.
Definition same_out {A} (x x' : mstate * A) : Prop := same_linter (fst x) (fst x') /\ snd x' = snd x.
Lemma field_line_same order e rel rel' tr m m' o raw : same_related rel rel' -> same_linter m m' ->
  same_linter (fst (fst (field_line e rel tr m o raw))) (fst (fst (field_line (with_order order e) rel' tr m' o raw)))
  /\ snd (fst (field_line (with_order order e) rel' tr m' o raw)) = snd (fst (field_line e rel tr m o raw))
  /\ snd (field_line (with_order order e) rel' tr m' o raw) = snd (field_line e rel tr m o raw).
Proof.
  intros R H. destruct raw as [name value]. unfold field_line. cbv zeta.
  assert (L1 : Forall quiet_kid (snd (read_name name))) by (unfold read_name; destruct (decode_ascii_strict name); repeat constructor).
  destruct (read_name name) as [sname l1]. cbn [snd] in L1.
  assert (L2 : Forall quiet_kid (snd (read_value sname value))) by (unfold read_value; destruct (decode_ascii_strict value); repeat constructor).
  destruct (read_value sname value) as [sv l2]. cbn [snd] in L2. rewrite (same_at_sec m m' tr H).
  destruct (find_handler _ _) as [s2 h]. replace (m_type m') with (m_type m) by (destruct H as [-> _]; reflexivity).
  assert (L3 : Forall quiet_kid (snd (fst (pre_check (m_type m) h)))).
  { unfold pre_check. cbv zeta. destruct (m_type m), (fa_req (attrs (h_cls h))), (fa_resp (attrs (h_cls h))); repeat constructor; destruct (negb _); repeat constructor; destruct (fa_dep _); repeat constructor. }
  destruct (pre_check (m_type m) h) as [[h1 l3] go]. cbn [fst snd] in L3.
  set (L := tag (offset_subj o) [] (l1 ++ l2) ++ tag (offset_subj o) (line_base h) l3).
  assert (KL : Forall sqk L). { apply Forall_app; split; apply qk_sqk; auto using nil_nodup, line_base_nodup. apply Forall_app; split; assumption. }
  pose proof (same_sec _ _ tr (put_handler (lower sname) h1 s2) (same_emit1 m m' L H KL)) as H1.
  set (m1 := m_set_sec tr (put_handler (lower sname) h1 s2) (m_emit L m)) in *. set (m1' := m_set_sec tr (put_handler (lower sname) h1 s2) (m_emit L m')) in *.
  destruct (negb go); [cbn [fst snd]; auto|].
  rewrite (handle_input_same (mkCx e m1 rel) _ h1 sv o (same_cx order e m1 m1' rel rel' H1 R)).
  pose proof (handle_input_qk (mkCx e m1 rel) h1 sv o) as K4. destruct (handle_input (mkCx e m1 rel) h1 sv o) as [[l4 h2] r]. cbn [fst] in K4.
  rewrite (same_at_sec m1 m1' tr H1). pose proof (same_emit1 _ _ l4 (same_sec _ _ tr (put_handler (lower sname) h2 (sec tr m1)) H1) K4) as H2.
  destruct r as [x|x]; cbn [fst snd]; [|auto]. split; [|auto]. apply same_emit1; [exact H2|]. apply qk_sqk; [apply nil_nodup|]. destruct (_ <? _); repeat constructor.
Qed.
Lemma field_lines_same order e rel rel' tr l : same_related rel rel' -> forall m m' o, same_linter m m' ->
  same_out (field_lines e rel tr m o l) (field_lines (with_order order e) rel' tr m' o l).
Proof.
  intros R. induction l as [|raw l IH]; intros m m' o H; cbn [field_lines]; [split; [exact H|reflexivity]|].
  destruct (field_line_same order e rel rel' tr m m' o raw R H) as (H1 & H2 & H3).
  destruct (field_line e rel tr m o raw) as [[m1 o1] r1], (field_line (with_order order e) rel' tr m' o raw) as [[m2 o2] r2]. cbn [fst snd] in *. subst.
  destruct r1; [apply IH, H1|split; [exact H1|reflexivity]].
Qed.
Lemma finish_one_same order e rel rel' tr m m' kh : same_related rel rel' -> same_linter m m' ->
  same_out (finish_one e rel tr m kh) (finish_one (with_order order e) rel' tr m' kh).
Proof.
  intros R H. destruct kh as [k h]. unfold finish_one.
  destruct (finish_same (mkCx e m rel) (mkCx (with_order order e) m' rel') (field_subj h) (sec_base tr h) h (sec_base_nodup tr h) (same_cx order e m m' rel rel' H R)) as (S & S2 & S3 & S4 & S5).
  destruct (finish_handler (mkCx e m rel) _ _ _) as [[l h'] r], (finish_handler (mkCx (with_order order e) m' rel') _ _ _) as [[l2 h2] r2]. cbn [fst snd] in *. subst.
  rewrite (same_at_sec m m' tr H). pose proof (same_emit _ _ l l2 (same_sec _ _ tr (put_handler k h' (sec tr m)) H) S4 S5 S) as H1.
  destruct r; (split; [|reflexivity]); cbn [fst]; [|exact H1]. rewrite (same_at_sec _ _ tr H1). apply same_sec, H1.
Qed.
Lemma finish_all_same order e rel rel' tr l : same_related rel rel' -> forall m m', same_linter m m' ->
  same_out (finish_all e rel tr m l) (finish_all (with_order order e) rel' tr m' l).
Proof.
  intros R. induction l as [|kh l IH]; intros m m' H; cbn [finish_all]; [split; [exact H|reflexivity]|].
  destruct (finish_one_same order e rel rel' tr m m' kh R H) as [H1 H2].
  destruct (finish_one e rel tr m kh) as [m1 r1], (finish_one (with_order order e) rel' tr m' kh) as [m2 r2]. cbn [fst snd] in *. subst.
  destruct r1; [apply IH, H1|split; [exact H1|reflexivity]].
Qed.
Lemma note1 subj cls cat vrs kids : Forall sqk [(subj, [], ENote cls cat vrs kids)].
Proof. repeat constructor. Qed.
Lemma section_size_same tr m m' : same_linter m m' -> same_linter (section_size tr m) (section_size tr m').
Proof. intros H. unfold section_size. cbv zeta. rewrite (same_at_sec m m' tr H). destruct (_ <? _); [|exact H]. apply same_emit1; [exact H|apply note1]. Qed.
Lemma process_same order e rel rel' tr m m' l : same_related rel rel' -> same_linter m m' ->
  same_out (process e rel tr m l) (process (with_order order e) rel' tr m' l).
Proof.
  intros R H. unfold process. destruct (field_lines_same order e rel rel' tr l R m m' 0 H) as [H1 H2].
  destruct (field_lines e rel tr m 0 l) as [m1 r1], (field_lines (with_order order e) rel' tr m' 0 l) as [m2 r2]. cbn [fst snd] in *. subst.
  destruct r1; [|split; [exact H1|reflexivity]]. cbv zeta. pose proof (section_size_same tr m1 m2 H1) as H2. rewrite (same_at_sec _ _ tr H2). apply finish_all_same; assumption.
Qed.

(** ** Whole-message checks *)
Lemma preflight_request_same m ns : check_preflight_request (m_set_notes ns m) = check_preflight_request m.
Proof. destruct m as [[]]; reflexivity. Qed.
Lemma preflight_response_same m ns rel rel' : same_related rel rel' -> check_preflight_response (m_set_notes ns m) rel' = check_preflight_response m rel.
Proof. destruct rel as [r|], rel' as [r'|]; intros R; try contradiction; [destruct R as [-> _]; destruct r as [[]]|]; destruct m as [[]]; reflexivity. Qed.
Lemma cache_check_same m ns rel rel' : same_related rel rel' -> cache_check (m_set_notes ns m) rel' = cache_check m rel.
Proof.
  intros R. unfold cache_check, cache_in. set (x := cc_pairs (get_or m "cache-control" (VList []))).
  change (cc_pairs (get_or (m_set_notes ns m) "cache-control" (VList []))) with x. destruct x as [ps|er]; [|reflexivity]. cbn [rmap].
  destruct rel as [r|], rel' as [r'|]; try contradiction; [destruct R as [-> _]; destruct r as [[]]|]; destruct m as [[]]; reflexivity.
Qed.
Lemma method_kids i : Forall quiet_kid (fst (check_basic i)).
Proof. change (qk (check_basic i)). unfold check_basic. qka. Qed.
Lemma cache_check_qk m rel : Forall quiet_kid (fst (fst (cache_check m rel))) /\ Forall quiet_kid (snd (fst (cache_check m rel))).
Proof.
  unfold cache_check. destruct (cache_in m rel) as [i|x]; [|split; constructor]. pose proof (method_kids i) as K. destruct (check_basic i) as [l1 [[]|x]]; cbn [fst] in K; [|split; [exact K|constructor]..].
  destruct (method_uncacheable i) as [s|]; [split; [exact K|repeat constructor]|].
  match goal with |- context [let '(_, _) := ?w in _] => assert (Q : qk w) end.
  { apply qk_bind; [unfold check_storable; qka|]. intros [[go sp] ss]. destruct (negb go); [apply qk_ret|]. apply qk_bind; [unfold check_age; qka|]. intros age.
    apply qk_bind; [apply qk_lift|]. intros f. apply qk_bind; [unfold check_freshness; qka|]. intros [[g fr] sh]. apply qk_bind; [|intros; apply qk_ret]. apply qk_when. unfold check_stale. qka. }
  destruct (bind _ _) as [l2 r2]. split; [apply Forall_app; split; [exact K|exact Q]|constructor].
Qed.
Lemma check_status_same m ns rel rel' : same_related rel rel' -> check_status (m_set_notes ns m) rel' = check_status m rel.
Proof. destruct rel as [r|], rel' as [r'|]; intros R; try contradiction; [destruct R as [-> _]; destruct r as [[]]|]; destruct m as [[]]; reflexivity. Qed.
Lemma content_type_same order e m ns : verify_content_type (with_order order e) (m_set_notes ns m) = verify_content_type e m.
Proof. destruct m as [[]]; reflexivity. Qed.
Lemma charset_same order e m ns : verify_charset (with_order order e) (m_set_notes ns m) = verify_charset e m.
Proof. destruct m as [[]]; reflexivity. Qed.
Lemma preflight_request_qk m : qk (check_preflight_request m).
Proof. unfold check_preflight_request. qka. Qed.
Lemma preflight_response_qk m rel : qk (check_preflight_response m rel).
Proof. unfold check_preflight_response. qka. Qed.
Lemma check_status_qk m rel : qk (check_status m rel).
Proof. unfold check_status. qka. Qed.
Lemma content_type_qk e m : qk (verify_content_type e m).
Proof. unfold verify_content_type. qka. Qed.
Lemma charset_qk e m : qk (verify_charset e m).
Proof. unfold verify_charset. qka. Qed.

(** ** The calls *)
Ltac sset := intros [H1 H2]; split; [rewrite H1; reflexivity|exact H2].
Lemma same_charenc m m' v : same_linter m m' -> same_linter (m_set_charenc v m) (m_set_charenc v m'). Proof. sset. Qed.
Lemma same_clen m m' v : same_linter m m' -> same_linter (m_set_clen v m) (m_set_clen v m'). Proof. sset. Qed.
Lemma same_hashed m m' v : same_linter m m' -> same_linter (m_set_hashed v m) (m_set_hashed v m'). Proof. sset. Qed.
Lemma same_hash m m' v : same_linter m m' -> same_linter (m_set_hash v m) (m_set_hash v m'). Proof. sset. Qed.
Lemma same_complete m m' v : same_linter m m' -> same_linter (m_set_complete v m) (m_set_complete v m'). Proof. sset. Qed.
Lemma same_pipeline m m' v : same_linter m m' -> same_linter (m_set_pipeline v m) (m_set_pipeline v m'). Proof. sset. Qed.
Lemma same_dec_hash m m' v : same_linter m m' -> same_linter (m_set_dec_hash v m) (m_set_dec_hash v m'). Proof. sset. Qed.
Lemma same_method m m' v : same_linter m m' -> same_linter (m_set_method v m) (m_set_method v m'). Proof. sset. Qed.
Lemma same_iri m m' v : same_linter m m' -> same_linter (m_set_iri v m) (m_set_iri v m'). Proof. sset. Qed.
Lemma same_uri m m' v : same_linter m m' -> same_linter (m_set_uri v m) (m_set_uri v m'). Proof. sset. Qed.
Lemma same_version m m' v : same_linter m m' -> same_linter (m_set_version v m) (m_set_version v m'). Proof. sset. Qed.
Lemma same_status_str m m' v : same_linter m m' -> same_linter (m_set_status_str v m) (m_set_status_str v m'). Proof. sset. Qed.
Lemma same_status m m' v : same_linter m m' -> same_linter (m_set_status v m) (m_set_status v m'). Proof. sset. Qed.
Lemma same_phrase m m' v : same_linter m m' -> same_linter (m_set_phrase v m) (m_set_phrase v m'). Proof. sset. Qed.
Lemma same_caching m m' v : same_linter m m' -> same_linter (m_set_caching v m) (m_set_caching v m'). Proof. sset. Qed.
Lemma same_sink m m' o : same_linter m m' -> same_linter (sink o m) (sink o m').
Proof. sset. Qed.
Lemma same_sinks outs : forall m m', same_linter m m' -> same_linter (fold_left (fun m o => sink o m) outs m) (fold_left (fun m o => sink o m) outs m').
Proof. induction outs as [|o outs IH]; intros m m' H; [exact H|]. cbn [fold_left]. apply IH, same_sink, H. Qed.
Lemma same_note m m' subj cls vrs : same_linter m m' -> same_linter (note_msg subj cls vrs m) (note_msg subj cls vrs m').
Proof. intros H. apply same_emit1; [exact H|apply note1]. Qed.
Lemma same_then x x' k k' : same_out x x' -> (forall m m', same_linter m m' -> same_out (k m) (k' m')) -> same_out (then_ x k) (then_ x' k').
Proof. intros [H1 H2] Hk. destruct x as [m r], x' as [m' r']. cbn [fst snd] in *. subst. destruct r; cbn [then_]; [apply Hk, H1|split; [exact H1|reflexivity]]. Qed.
Lemma process_headers_same order e rel rel' l m m' : same_related rel rel' -> same_linter m m' ->
  same_out (process_headers e rel l m) (process_headers (with_order order e) rel' l m').
Proof.
  intros R H. unfold process_headers. destruct (process_same order e rel rel' false m m' l R H) as [H1 H2].
  destruct (process e rel false m l) as [m1 r1], (process (with_order order e) rel' false m' l) as [m2 r2]. cbn [fst snd] in *. subst.
  destruct r1; [|split; [exact H1|reflexivity]]. assert (G : forall k, m_get m2 k = m_get m1 k) by (intros k; destruct H1 as [-> _]; reflexivity). rewrite G.
  destruct (m_get m1 "content-type") as [v|]; [|split; [exact H1|reflexivity]]. destruct (rbind _ _) as [ps|x]; [|split; [exact H1|reflexivity]].
  destruct (dget _ ps) as [[]|]; try (split; [exact H1|reflexivity]). cbn [e_codec with_order].
  destruct (e_codec e s) as [|[]]; (split; [|reflexivity]); try exact H1. apply same_charenc, H1.
Qed.
Lemma gzip_step_same order e : gzip_step (with_order order e) = gzip_step e.
Proof. reflexivity. Qed.
Lemma gzip_loop_same order e clen hist total chunk : gzip_loop (with_order order e) clen hist total chunk = gzip_loop e clen hist total chunk.
Proof. unfold gzip_loop. rewrite gzip_step_same. reflexivity. Qed.
Lemma stage_feed_same order e clen s chunk : stage_feed (with_order order e) clen s chunk = stage_feed e clen s chunk.
Proof. unfold stage_feed. destruct s as [hist ig buf total ok|hist total ok]; [|reflexivity]. destruct (negb ok); [reflexivity|]. cbv zeta. destruct ig; [rewrite gzip_loop_same; reflexivity|].
  destruct (gzip_header _); [reflexivity|reflexivity|]. rewrite gzip_loop_same. reflexivity. Qed.
Lemma stage_feeds_same order e clen chunks : forall s, stage_feeds (with_order order e) clen s chunks = stage_feeds e clen s chunks.
Proof. induction chunks as [|c cs IH]; intros s; cbn [stage_feeds]; [reflexivity|]. rewrite stage_feed_same. destruct (stage_feed e clen s c) as [[o1 n1] s1]. rewrite IH. reflexivity. Qed.
Lemma pipe_feed_same order e clen st : forall chunks, pipe_feed (with_order order e) clen st chunks = pipe_feed e clen st chunks.
Proof. induction st as [|s st IH]; intros chunks; cbn [pipe_feed]; [reflexivity|]. rewrite stage_feeds_same. destruct (stage_feeds e clen s chunks) as [[o n] s']. rewrite IH. reflexivity. Qed.
Lemma ce_qk ns : Forall sqk (ce_events ns).
Proof. unfold ce_events. apply Forall_map, Forall_forall. intros n _. split; [exact I|constructor]. Qed.
Lemma feed_same order e chunk m m' : same_linter m m' -> same_out (feed_content e chunk m) (feed_content (with_order order e) chunk m').
Proof.
  intros H. unfold feed_content. cbv zeta. assert (C : m_clen m' = m_clen m) by (destruct H as [-> _]; reflexivity). assert (N : m_no_content m' = m_no_content m) by (destruct H as [-> _]; reflexivity).
  rewrite C, N. pose proof (same_clen _ _ (m_clen m + N.of_nat (length chunk)) H) as H1. destruct (m_no_content m); [split; [exact H1|reflexivity]|].
  set (m1 := m_set_clen _ m) in *. set (m1' := m_set_clen _ m') in *. assert (HH : m_hashed m1' = m_hashed m1) by (destruct H1 as [-> _]; reflexivity). rewrite HH.
  pose proof (same_hashed _ _ (m_hashed m1 ++ chunk) H1) as H2. set (m2 := m_set_hashed _ m1) in *. set (m2' := m_set_hashed _ m1') in *.
  unfold decode_content. assert (P : m_pipeline m2' = m_pipeline m2) by (destruct H2 as [-> _]; reflexivity). assert (B : build_pipeline m2' = build_pipeline m2) by (destruct H2 as [-> _]; reflexivity).
  assert (C2 : m_clen m2' = m_clen m2) by (destruct H2 as [-> _]; reflexivity). rewrite P, B, C2.
  destruct (match m_pipeline m2 with Some st => _ | None => _ end) as [st|x]; [|split; [exact H2|reflexivity]]. rewrite pipe_feed_same.
  destruct (pipe_feed e (m_clen m2) st [chunk]) as [[outs ns] st']. split; [|reflexivity]. cbn [fst]. apply same_emit1; [|apply ce_qk]. apply same_pipeline, same_sinks, H2.
Qed.
Lemma feed_all_same order e chunks : forall m m', same_linter m m' -> same_out (feed_all e chunks m) (feed_all (with_order order e) chunks m').
Proof.
  induction chunks as [|c cs IH]; intros m m' H; cbn [feed_all]; [split; [exact H|reflexivity]|]. apply same_then; [apply feed_same, H|apply IH].
Qed.
Lemma set_uri_same order e iri m m' : same_linter m m' -> same_out (set_uri e iri m) (set_uri (with_order order e) iri m').
Proof.
  intros H. unfold set_uri. change (iri_to_uri (with_order order e) iri) with (iri_to_uri e iri). pose proof (same_iri _ _ (Some iri) H) as H1. cbv zeta.
  destruct (iri_to_uri e iri) as [uri|x].
  - set (b := if match_ws_dollar rfc3986_URI uri then _ else _) at 2. set (b' := if match_ws_dollar rfc3986_URI uri then _ else _) at 3.
    split; [|reflexivity]. cbn [fst].
    assert (HB : same_linter (if match_ws_dollar rfc3986_URI uri then m_set_iri (Some iri) m else note_msg "uri" URI_BAD_SYNTAX [] (m_set_iri (Some iri) m))
                             (if match_ws_dollar rfc3986_URI uri then m_set_iri (Some iri) m' else note_msg "uri" URI_BAD_SYNTAX [] (m_set_iri (Some iri) m')))
      by (destruct (match_ws_dollar _ _); [exact H1|apply same_note, H1]).
    destruct (Nat.ltb _ _); [apply same_note|]; apply same_uri; exact HB.
  - destruct (is_ValueError x); (split; [|reflexivity]); [apply same_uri, same_note, H1|exact H1].
Qed.
Lemma start_same order e top m m' : same_linter m m' -> same_out (start_line e top m) (start_line (with_order order e) top m').
Proof.
  intros H. destruct top as [|a b c|a b c]; cbn [start_line]; [split; [exact H|reflexivity]| |].
  - unfold process_request_topline. cbn [e_utf8 with_order].
    destruct (set_uri_same order e (e_utf8 e b) _ _ (same_method _ _ (Some (decode_ascii_replace a)) H)) as [H1 H2].
    destruct (set_uri e _ _) as [m1 r1], (set_uri (with_order order e) _ _) as [m2 r2]. cbn [fst snd] in *. subst.
    destruct r1; (split; [|reflexivity]); [apply same_version, H1|exact H1].
  - split; [|reflexivity]. cbn [fst]. unfold process_response_topline. cbv zeta.
    pose proof (same_status_str _ _ (Some (decode_ascii_replace b)) (same_version _ _ (decode_ascii_replace a) H)) as H1.
    set (x := m_set_status_str _ _) in H1. set (x' := m_set_status_str _ (m_set_version _ m')) in *. fold x.
    assert (HB : same_linter (match py_int (decode_ascii_replace b) with Some z => m_set_status (Some z) x | None => note_msg "status" STATUS_CODE_NON_NUMERIC [] x end)
                             (match py_int (decode_ascii_replace b) with Some z => m_set_status (Some z) x' | None => note_msg "status" STATUS_CODE_NON_NUMERIC [] x' end))
      by (destruct (py_int _); [apply same_status, H1|apply same_note, H1]).
    destruct c as [[|c0 c]|]; try exact HB. destruct (decode_ascii_strict _); [apply same_phrase, HB|apply same_note, same_phrase, HB].
Qed.
Lemma run_same {A} (w : W A) m m' : qk w -> same_linter m m' -> same_out (run_check w m) (run_check w m').
Proof. intros Q H. split; [|reflexivity]. cbn [fst run_check]. apply same_emit1; [exact H|]. apply qk_sqk; [constructor|exact Q]. Qed.
Lemma as_notes m m' : same_linter m m' -> exists ns, m' = m_set_notes ns m.
Proof. intros [H _]. eexists. exact H. Qed.
Lemma request_post_same m m' : same_linter m m' -> same_out (request_post_checks m) (request_post_checks m').
Proof.
  intros H. unfold request_post_checks. destruct (as_notes m m' H) as [ns E]. apply same_then.
  - replace (check_preflight_request m') with (check_preflight_request m) by (rewrite E; symmetry; apply preflight_request_same). apply run_same; [apply preflight_request_qk|exact H].
  - clear m m' ns H E. intros m m' H. split; [|reflexivity]. cbn [fst].
    assert (E1 : m_has m' "user-agent" = m_has m "user-agent") by (destruct H as [-> _]; reflexivity). rewrite E1.
    assert (HB : same_linter (if m_has m "user-agent" then m else note_msg "field-user-agent" MISSING_USER_AGENT [] m) (if m_has m "user-agent" then m' else note_msg "field-user-agent" MISSING_USER_AGENT [] m'))
      by (destruct (m_has m "user-agent"); [exact H|apply same_note, H]).
    cbv zeta. set (x := if m_has m "user-agent" then m else _) in *. set (x' := if m_has m "user-agent" then m' else _) in *.
    assert (E2 : m_method x' = m_method x) by (destruct HB as [-> _]; reflexivity). assert (E3 : m_clen x' = m_clen x) by (destruct HB as [-> _]; reflexivity).
    assert (E4 : m_no_content x' = m_no_content x) by (destruct HB as [-> _]; reflexivity). rewrite E2, E3, E4. destruct (m_method x); [|exact HB]. destruct (_ && _); [apply same_note, HB|exact HB].
Qed.
Definition same_out3 (x x' : mstate * option mstate * res unit) : Prop :=
  same_linter (fst (fst x)) (fst (fst x')) /\ same_related (snd (fst x)) (snd (fst x')) /\ snd x' = snd x.
Lemma response_post_same order e rel rel' m m' : same_related rel rel' -> same_linter m m' ->
  same_out3 (response_post_checks e rel m) (response_post_checks (with_order order e) rel' m').
Proof.
  intros R H. unfold response_post_checks. destruct (as_notes m m' H) as [ns E].
  replace (check_preflight_response m' rel') with (check_preflight_response m rel) by (rewrite E; symmetry; apply preflight_response_same, R).
  destruct (run_same _ m m' (preflight_response_qk m rel) H) as [H1 H2]. destruct (run_check _ m) as [m1 r1], (run_check _ m') as [m1' r1']. cbn [fst snd] in *. subst r1'.
  destruct r1 as [r1|x]; [|split; [exact H1|split; [exact R|reflexivity]]]. clear m m' ns H E.
  destruct (as_notes m1 m1' H1) as [ns E]. replace (cache_check m1' rel') with (cache_check m1 rel) by (rewrite E; symmetry; apply cache_check_same, R).
  destruct (cache_check_qk m1 rel) as [K1 K2]. destruct (cache_check m1 rel) as [[l lreq] r]. cbn [fst snd] in K1, K2.
  assert (H2 : same_linter (m_emit (tag [] [] l) m1) (m_emit (tag [] [] l) m1')) by (apply same_emit1; [exact H1|apply qk_sqk; [constructor|exact K1]]).
  assert (R2 : same_related (option_map (m_emit (tag [] [] lreq)) rel) (option_map (m_emit (tag [] [] lreq)) rel')).
  { destruct rel, rel'; try contradiction; [|exact I]. cbn [option_map same_related] in *. apply same_emit1; [exact R|apply qk_sqk; [constructor|exact K2]]. }
  set (q := option_map _ rel) in *. set (q' := option_map _ rel') in *. destruct r as [k|x]; [|split; [exact H2|split; [exact R2|reflexivity]]].
  pose proof (same_caching _ _ (Some k) H2) as H3. set (m2 := m_set_caching _ (m_emit _ m1)) in *. set (m2' := m_set_caching _ (m_emit _ m1')) in *. cbv zeta.
  clearbody m2 m2'. clear m1 m1' H1 H2 ns E.
  match goal with |- same_out3 (let '(_, _) := ?x in _) (let '(_, _) := ?y in _) => assert (S : same_out x y) end.
  { apply same_then.
    - destruct (as_notes m2 m2' H3) as [ns E]. replace (check_status m2' q') with (check_status m2 q) by (rewrite E; symmetry; apply check_status_same, R2). apply run_same; [apply check_status_qk|exact H3].
    - clear. intros m m' H. assert (N : m_no_content m' = m_no_content m) by (destruct H as [-> _]; reflexivity). rewrite N. destruct (m_no_content m); [split; [exact H|reflexivity]|].
      apply same_then.
      + destruct (as_notes m m' H) as [ns E]. replace (verify_content_type (with_order order e) m') with (verify_content_type e m) by (rewrite E; symmetry; apply content_type_same). apply run_same; [apply content_type_qk|exact H].
      + clear. intros m m' H. destruct (as_notes m m' H) as [ns E]. replace (verify_charset (with_order order e) m') with (verify_charset e m) by (rewrite E; symmetry; apply charset_same). apply run_same; [apply charset_qk|exact H]. }
  destruct S as [S1 S2]. destruct (then_ _ _) as [m3 r3], (then_ _ _) as [m3' r3']. cbn [fst snd] in *. subst. split; [exact S1|split; [exact R2|reflexivity]].
Qed.
Lemma post_checks_same order e rel rel' m m' : same_related rel rel' -> same_linter m m' -> same_out3 (post_checks e rel m) (post_checks (with_order order e) rel' m').
Proof.
  intros R H. unfold post_checks. assert (T : m_type m' = m_type m) by (destruct H as [-> _]; reflexivity). rewrite T. destruct (m_type m).
  - destruct (request_post_same m m' H) as [H1 H2]. destruct (request_post_checks m), (request_post_checks m'). cbn [fst snd] in *. subst. split; [exact H1|split; [exact R|reflexivity]].
  - apply response_post_same; assumption.
  - split; [exact H|split; [exact R|reflexivity]].
Qed.
Lemma post_one_same order e rel rel' tr m m' h : same_related rel rel' -> same_linter m m' -> same_out (post_one e rel tr m h) (post_one (with_order order e) rel' tr m' h).
Proof.
  intros R H. unfold post_one. rewrite (post_same (h_cls h) h _ _ (same_cx order e m m' rel rel' H R)). pose proof (post_qk (h_cls h) (mkCx e m rel) h) as Q.
  destruct (post_of _ _ h) as [l r]. destruct (h_val h); (split; [|reflexivity]); try exact H; (apply same_emit1; [exact H|apply qk_sqk; [apply sec_base_nodup|exact Q]]).
Qed.
Lemma post_all_same order e rel rel' tr l : same_related rel rel' -> forall m m', same_linter m m' -> same_out (post_all e rel tr m l) (post_all (with_order order e) rel' tr m' l).
Proof.
  intros R. induction l as [|[k h] l IH]; intros m m' H; cbn [post_all]; [split; [exact H|reflexivity]|]. apply same_then; [apply post_one_same; assumption|apply IH].
Qed.
Lemma content_length_same m m' : same_linter m m' -> same_linter (check_content_length m) (check_content_length m').
Proof.
  intros H. unfold check_content_length. assert (E1 : can_have_content m' = can_have_content m) by (destruct H as [-> _]; reflexivity).
  assert (E2 : m_get m' "content-length" = m_get m "content-length") by (destruct H as [-> _]; reflexivity). assert (E3 : m_clen m' = m_clen m) by (destruct H as [-> _]; reflexivity).
  assert (E4 : m_no_content m' = m_no_content m) by (destruct H as [-> _]; reflexivity). rewrite E1, E2, E3, E4.
  destruct (can_have_content m).
  - destruct (m_get m _) as [v|]; [|exact H]. destruct (m_no_content m); [exact H|]. destruct (match v with VInt z => _ | _ => _ end); apply same_note, H.
  - destruct (_ && _); [apply same_note, H|exact H].
Qed.
Lemma finish_content_same order e rel rel' complete trailers m m' : same_related rel rel' -> same_linter m m' ->
  same_out3 (finish_content e rel complete trailers m) (finish_content (with_order order e) rel' complete trailers m').
Proof.
  intros R H. unfold finish_content. cbn [e_md5 with_order]. cbv zeta. assert (E1 : m_hashed m' = m_hashed m) by (destruct H as [-> _]; reflexivity). 
  change (m_hashed (m_set_complete complete m)) with (m_hashed m). rewrite E1.
  pose proof (same_hash _ _ (Some (e_md5 e (m_hashed m))) (same_complete _ _ complete H)) as H1.
  set (m1 := m_set_hash _ (m_set_complete complete m)) in *. set (m1' := m_set_hash _ (m_set_complete complete m')) in *. clearbody m1 m1'.
  match goal with |- same_out3 (match ?x with _ => _ end) (match ?y with _ => _ end) => assert (S : same_out x y) end.
  { destruct trailers; [split; [exact H1|reflexivity]|apply process_same; assumption]. }
  destruct S as [S1 S2]. match goal with |- same_out3 (match ?x with _ => _ end) (match ?y with _ => _ end) => destruct x as [m2 r2], y as [m2' r2'] end. cbn [fst snd] in *. subst r2'.
  destruct r2; [|split; [exact S1|split; [exact R|reflexivity]]]. assert (E2 : m_dec_hashed m2' = m_dec_hashed m2) by (destruct S1 as [-> _]; reflexivity). rewrite E2.
  pose proof (content_length_same _ _ (same_dec_hash _ _ (Some (e_md5 e (m_dec_hashed m2))) S1)) as H3. destruct (post_checks_same order e rel rel' _ _ R H3) as (P1 & P2 & P3).
  destruct (post_checks e rel _) as [[m4 q] r4], (post_checks (with_order order e) rel' _) as [[m4' q'] r4']. cbn [fst snd] in *. subst r4'.
  destruct r4; [|split; [exact P1|split; [exact P2|reflexivity]]].
  assert (E3 : m_headers m4' = m_headers m4) by (destruct P1 as [-> _]; reflexivity). rewrite E3.
  match goal with |- same_out3 (let '(_, _) := ?x in _) (let '(_, _) := ?y in _) => assert (S : same_out x y) end.
  { apply same_then; [apply post_all_same; assumption|]. clear - P2. intros m m' H. assert (E4 : m_trailers m' = m_trailers m) by (destruct H as [-> _]; reflexivity). rewrite E4. apply post_all_same; assumption. }
  destruct S as [S3 S4]. destruct (then_ _ _) as [m5 r5], (then_ _ _) as [m5' r5']. cbn [fst snd] in *. subst. split; [exact S3|split; [exact P2|reflexivity]].
Qed.
Theorem lint_same order e rel rel' top headers chunks complete trailers m m' : same_related rel rel' -> same_linter m m' ->
  same_out3 (lint e rel top headers chunks complete trailers m) (lint (with_order order e) rel' top headers chunks complete trailers m').
Proof.
  intros R H. unfold lint.
  match goal with |- same_out3 (match ?x with _ => _ end) (match ?y with _ => _ end) => assert (S : same_out x y) end.
  { apply same_then; [apply start_same, H|]. intros m1 m1' H1. apply same_then; [apply process_headers_same; assumption|]. intros m2 m2' H2. apply feed_all_same, H2. }
  destruct S as [S1 S2]. destruct (then_ _ _) as [m2 r2], (then_ _ _) as [m2' r2']. cbn [fst snd] in *. subst.
  destruct r2; [apply finish_content_same; assumption|]. split; [exact S1|split; [exact R|reflexivity]].
Qed.
