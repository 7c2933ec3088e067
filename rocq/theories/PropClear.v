(** * C61: Clear-Site-Data. *)
From Coq Require Import Lia.
From Verif Require Import PyStr Regex Grammar NoteTable Note PyLib Utils FieldAttrs Types Fields1 Fields2 Fields3 Framework Checks Message
  EvLogic NoteLemmas TestEnv LexLemmas ParamLemmas NumLemmas NameLemmas FrameLemmas ContentLemmas BodyLemmas PassParse PassEval PassFrame PassSec PassProc PassRun Session SessionLemmas
  SectionLemmas SecNotes SecValues LintLemmas FieldSpec PropFields PropValues PropNames PropParse OwnLemmas ListSpec PropLists PropCC ListExamples FieldExamples PropInts FieldDue OwnTac OwnMore KidSpec OwnFull
  PlainSpec PropPrefs ShowSpec ClearSpec.
Open Scope N_scope.

(** ** What list fields remember from their members *)
Definition marked (l : list ev) : list str := flat_map (fun x => match x with EMark (VStr s) => [s] | _ => [] end) l.
Lemma marks_tag h s b l : marked_strs (h_add_aux h (aux_of (tag s b l))) = marked_strs h ++ marked l.
Proof.
  unfold marked_strs, h_add_aux. cbn [h_aux]. rewrite flat_map_app. f_equal. rewrite aux_tag. induction l as [|x l IH]; [reflexivity|]. cbn [flat_map marked]. rewrite map_app, flat_map_app, IH. fold (marked l). f_equal.
  destruct x; try reflexivity. cbn [put_off map flat_map snd]. rewrite app_nil_r. reflexivity.
Qed.
Lemma marked_app a b : marked (a ++ b) = marked a ++ marked b.
Proof. apply flat_map_app. Qed.
Lemma syntax_marks h v : marked (fst (list_syntax h v)) = [].
Proof.
  unfold list_syntax. destruct (fa_syntax _) as [r|]; [|reflexivity]. destruct (match_ws_dollar r v); [reflexivity|]. destruct (match_prefix _ v) as [bad|]; [destruct (nth_error v bad); reflexivity|]. destruct (fa_report _); reflexivity.
Qed.
Section Marks.
  Variables (f : fname) (p : str -> W pyval).
  Lemma input_marks c subj l : (forall h v, parse_of f c h v = p v) -> forall h evs h', h_cls h = f -> list_input c subj h l = (evs, h', Ok tt) ->
    marked_strs h' = marked_strs h ++ flat_map (fun x => marked (fst (p (strip x)))) l.
  Proof.
    intros Hp. induction l as [|v l IH]; intros h evs h' Hc E; cbn [list_input] in E; [injection E as _ <-; cbn; rewrite app_nil_r; reflexivity|].
    unfold list_member in E. pose proof (syntax_marks h v) as Sy. destruct (list_syntax h v) as [ls [[]|x]]; [|discriminate E]. cbn [fst] in Sy.
    rewrite Hc, Hp in E. cbn [flat_map]. destruct (p (strip v)) as [lp rp]. cbn [fst]. 
    assert (K : exists le ro, (bind (ls, Ok tt) (fun _ => catch_value (x <- (lp, rp) ;; ret (Some x)) (ret None))) = (ls ++ le, ro) /\ (forall o, ro = Ok o -> le = lp)).
    { unfold bind, catch_value, ret. destruct rp as [x|ex]; [do 2 eexists; split; [rewrite app_nil_r; reflexivity|reflexivity]|]. destruct ex; do 2 eexists; (split; [try rewrite app_nil_r; reflexivity|]); intros o; try discriminate; reflexivity. }
    destruct K as (le & ro & K & Kl). rewrite K in E. destruct ro as [o|x]; [|discriminate E]. rewrite (Kl o eq_refl) in *. cbv zeta in E.
    match type of E with context [list_input c subj ?hh l] => set (h2 := hh) in *; destruct (list_input c subj h2 l) as [[e2 h3] r3] eqn:El end. injection E as _ <- ->.
    assert (H2 : h_cls h2 = f) by (unfold h2, append_val; destruct o; try destruct (h_val _); exact Hc). rewrite (IH h2 e2 h3 H2 El).
    assert (D2 : marked_strs h2 = marked_strs h ++ marked lp).
    { assert (D3 : forall hh x, marked_strs (append_val hh x) = marked_strs hh) by (intros hh x; unfold append_val; destruct (h_val hh); reflexivity).
      unfold h2. destruct o; rewrite ?D3, marks_tag, marked_app, Sy; reflexivity. }
    rewrite D2, <- app_assoc. reflexivity.
  Qed.
  Lemma fed_marks e V rel n l : kind_of f = KList -> find_class n = f -> accepted (m_type V) n = true -> (forall h v, parse_of f (mkCx e V rel) h v = p v) ->
    forall h evs h', ident any (lower n, h) -> feeds e V rel h l = (evs, h', Ok tt) -> marked_strs h' = marked_strs h ++ flat_map (fun x => marked (fst (p (strip x)))) (flat_map split_list_field (map fst l)).
  Proof.
    intros K Hn Ha Hp. induction l as [|[v o] l IH]; intros h evs h' Hi E; cbn [feeds] in E; [injection E as <- <-; cbn; rewrite app_nil_r; reflexivity|].
    pose proof (taken_id e V rel h v o) as Ht. pose proof Ha as Ha'. unfold accepted in Ha'. apply andb_prop in Ha' as [Ha1 Ha2]. apply negb_true_iff in Ha1.
    unfold taken in E, Ht. rewrite (pre_check_eq (m_type V) (lower n) h n Hi eq_refl), Ha1, Ha2 in E, Ht.
    assert (Hc : h_cls h = f).
    { destruct Hi as (n' & _ & Ek' & (E1 & _)). cbn [fst snd] in *. rewrite E1, <- Hn. cbn [h_cls new_handler]. apply find_class_case. congruence. }
    unfold handle_input in E, Ht. rewrite Hc, K in E, Ht. destruct (list_input (mkCx e V rel) (offset_subj o) h (split_list_field v)) as [[l4 h1] r1] eqn:El. cbn [fst snd] in Ht.
    destruct r1 as [[]|x]; [|discriminate E]. destruct (feeds e V rel h1 l) as [[l5 h3] r] eqn:Ef. injection E as <- <- ->.
    rewrite (IH _ _ _ (same_id_ident any _ _ _ Hi Ht) Ef). rewrite (input_marks _ _ _ Hp h _ _ Hc El). cbn [map fst flat_map]. rewrite flat_map_app, app_assoc. reflexivity.
  Qed.
End Marks.
(** ** Clear-Site-Data in one section *)
Notation CS := (classes [CSD_EMPTY; CSD_UNKNOWN_VALUE; CSD_UNQUOTED; CSD_PRESENT]).
Notation CK := [u "value"; u "values"].
Definition csd : str := u "clear-site-data".
Definition open_quotes (v : str) : option str := match v with 34 :: r => match rev r with 34 :: s => Some (rev s) | _ => None end | _ => None end.
Lemma open_some v d : open_quotes v = Some d <-> in_quotes v d.
Proof.
  unfold in_quotes. split.
  - destruct v as [|c r]; [discriminate|]. cbn [open_quotes]. destruct (N.eq_dec c 34) as [->|N]; [|intros H; exfalso; revert H; destruct c as [|c]; [discriminate|]; repeat (destruct c as [c|c|]; try discriminate); destruct (N eq_refl)].
    cbn [app]. destruct (rev r) as [|x s] eqn:Er; [discriminate|]. destruct (N.eq_dec x 34) as [->|N]; [|intros H; exfalso; revert H; destruct x as [|x]; [discriminate|]; repeat (destruct x as [x|x|]; try discriminate); destruct (N eq_refl)].
    intros H. injection H as <-. rewrite <- (rev_involutive r), Er. reflexivity.
  - intros ->. cbn [app open_quotes]. rewrite rev_app_distr. cbn [rev app]. rewrite rev_involutive. reflexivity.
Qed.
Lemma open_none v : open_quotes v = None <-> forall d, ~ in_quotes v d.
Proof.
  split; [intros H d Hd; apply open_some in Hd; congruence|]. intros H. destruct (open_quotes v) as [d|] eqn:E; [|reflexivity]. destruct (H d). apply open_some, E.
Qed.
Definition csd_text (v : str) : str := match open_quotes v with Some d => d | None => v end.
Lemma csd_text_ok v : data_of v (csd_text v).
Proof. unfold data_of, csd_text. destruct (open_quotes v) as [d|] eqn:E; [left; apply open_some, E|right; split; [apply open_none, E|reflexivity]]. Qed.
Definition unq_b (v : str) : bool := match open_quotes v with None => str_in v csd_known | _ => false end.
Lemma unq_ok v : unq_b v = true <-> bare_data v.
Proof.
  unfold unq_b, bare_data. rewrite <- open_none. destruct (open_quotes v); [split; [discriminate|intros [_ H]; discriminate]|]. rewrite str_in_In. split; [auto|tauto].
Qed.
Definition csd_notes (v : str) : list ev :=
  let d := csd_text v in if negb (nonempty d) then [ENote CSD_EMPTY None [] []] else if str_in d csd_known then [] else [ENote CSD_UNKNOWN_VALUE None [vs "value" d] []].
Definition csd_p (v : str) : W pyval := ((if unq_b v then [EMark (VStr v)] else []) ++ csd_notes v, Ok (VStr (csd_text v))).
Lemma csd_quoted v : (match v with 34 :: _ :: _ => match last_chr v with Some 34 => true | _ => false end | _ => false end) = match open_quotes v with Some _ => true | None => false end
  /\ (forall d, open_quotes v = Some d -> mid v = d).
Proof.
  destruct v as [|c r]; [split; [reflexivity|discriminate]|]. cbn [open_quotes]. destruct (N.eq_dec c 34) as [->|N].
  - destruct r as [|x s _] using rev_ind; [split; [reflexivity|discriminate]|]. rewrite rev_app_distr. cbn [rev app]. split.
    + replace (match s ++ [x] with _ :: _ => match last_chr (34 :: s ++ [x]) with Some 34 => true | _ => false end | [] => false end) with (match last_chr (34 :: s ++ [x]) with Some 34 => true | _ => false end) by (destruct s; reflexivity).
      unfold last_chr. cbn [rev]. rewrite rev_app_distr. cbn [rev app hd_error]. destruct x as [|x]; [reflexivity|]. repeat (destruct x as [x|x|]; try reflexivity).
    + intros d H. unfold mid. cbn [tl]. rewrite removelast_last. revert H. destruct x as [|x]; [discriminate|]. repeat (destruct x as [x|x|]; try discriminate). rewrite rev_involutive. intros H. injection H as <-. reflexivity.
  - split.
    + destruct c as [|c]; [reflexivity|]. repeat (destruct c as [c|c|]; try reflexivity). destruct (N eq_refl).
    + intros d H. exfalso. revert H. destruct c as [|c]; [discriminate|]. repeat (destruct c as [c|c|]; try discriminate). destruct (N eq_refl).
Qed.
Lemma csd_parse c h v : p_clear_site_data c h v = csd_p v.
Proof.
  unfold p_clear_site_data. destruct (csd_quoted v) as [-> M]. unfold csd_p, csd_notes, csd_text, unq_b. destruct (open_quotes v) as [d|] eqn:E; cbv zeta.
  - rewrite (M d eq_refl). cbn [negb andb when app]. unfold bind, ret, add_note, tell. destruct d as [|x d]; [reflexivity|]. cbn [nonempty negb]. destruct (str_in (x :: d) csd_known); reflexivity.
  - cbn [negb andb]. destruct (str_in v csd_known) eqn:K; cbn [when negb]; unfold bind, ret, add_note, tell; destruct v as [|x v]; try discriminate K; reflexivity.
Qed.
Lemma csd_marked v : marked (fst (csd_p v)) = if unq_b v then [v] else [].
Proof. unfold csd_p. cbn [fst]. rewrite marked_app. destruct (unq_b v); unfold csd_notes; cbv zeta; destruct (negb _); try reflexivity; destruct (str_in _ _); reflexivity. Qed.
Lemma csd_direct v : Forall (direct CS) (fst (csd_p v)).
Proof. unfold csd_p, csd_notes. cbn [fst]. cbv zeta. destruct (unq_b v); destruct (negb _); try destruct (str_in _ _); repeat constructor. Qed.
Definition csd_q (ms : list str) : list ev :=
  let unq := filter unq_b ms in
  (if nonempty unq then [ENote CSD_UNQUOTED None [vs "values" (join (u ", ") unq)] []] else [])
  ++ match ms with
     | [] => [ENote CSD_EMPTY None [] []]
     | _ => let valid := filter (fun v => str_in v csd_known && negb (str_in v unq)) (map csd_text ms) in
            if nonempty valid then [ENote CSD_PRESENT None [vs "values" (join (u ", ") (map (fun v => bt ++ v ++ bt) valid))] []] else []
     end.
Lemma csd_eval c h ms : h_val h = VList (map (fun m => VStr (csd_text m)) ms) -> marked_strs h = filter unq_b ms -> fst (ev_clear_site_data c h) = csd_q ms.
Proof.
  intros Hv Hm. unfold ev_clear_site_data. rewrite Hv, Hm. cbv zeta. rewrite <- (map_map csd_text VStr).
  assert (S : forall l, strs (VList (map VStr l)) = Ok l).
  { intros l. unfold strs. cbn [as_list rbind]. induction l as [|x l IH]; [reflexivity|]. cbn [map mapR as_str rbind]. rewrite IH. reflexivity. }
  rewrite S, lift_ok. unfold csd_q. cbv zeta. destruct ms as [|m ms]; [reflexivity|]. cbn [map]. set (unq := filter unq_b (m :: ms)). set (valid := filter _ (csd_text m :: map csd_text ms)). destruct (nonempty unq), (nonempty valid); reflexivity.
Qed.
Lemma csd_q_direct ms : Forall (direct CS) (csd_q ms).
Proof.
  unfold csd_q. cbv zeta. apply Forall_app. split.
  - destruct (nonempty _); repeat constructor.
  - destruct ms as [|m ms]; [repeat constructor|]. destruct (nonempty _); repeat constructor.
Qed.
Definition csd_says (t : mtype) (l : list rawline) : list (nid * str * list (option pyval)) :=
  flat_map (fun vo => speak CS CK (at_offset (snd vo)) (fst (csd_p (strip (fst vo))))) (elements t csd l) ++ if nonempty (values csd l) then speak CS CK (about_field csd) (csd_q (members csd l)) else [].
Lemma csd_section e rel tr m raws evs evs' : processed (m_type m) csd = true -> field_run e rel tr m csd raws evs evs' ->
  heard CS CK (emit (m_type m) [] evs) ++ heard CS CK (emit (m_type m) [] evs') = csd_says (m_type m) raws.
Proof.
  intros Hpr R. set (f := F_clear_site_data). assert (HP : mine CS f) by (apply mine_b_ok; vm_compute; reflexivity). assert (Hf : In f module_fields) by (vm_compute; tauto).
  unfold field_run in R. unfold csd_says. rewrite a_line_values in R. assert (Hks : own_keys CK = true) by reflexivity. assert (Hk : find_class csd = f) by reflexivity.
  destruct (nonempty (values csd raws)) eqn:Ev.
  - destruct R as (h & mi & h' & Fd & Ek & Hl & St & Ff). set (n := first_name csd raws) in *.
    assert (Hi : ident any (lower n, new_handler n)) by (exists n; split; [exact I|split; [reflexivity|apply same_id_refl]]).
    assert (Hn : find_class n = f) by (rewrite <- Hk, Ek; symmetry; apply find_class_lower).
    assert (Ha : accepted (m_type (still m)) n = true) by (rewrite <- (accepted_lower _ n), <- Ek; change (m_type (still m)) with (m_type m); rewrite processed_eq; exact Hpr).
    destruct (feeds_own CS CK f e rel (front (still m)) csd_p HP Hks (fun V hh v _ _ => csd_parse (mkCx e V rel) hh v) csd_direct eq_refl (still m) (m_type m) n _ eq_refl Hn Ha (new_handler n) evs h [] Hi eq_refl Fd) as (D1 & D2 & D3).
    pose proof (fed_marks f csd_p e (still m) rel n _ eq_refl Hn Ha (fun hh v => csd_parse _ hh v) _ _ _ Hi Fd) as Mk. change (marked_strs (new_handler n)) with (@nil str) in Mk. rewrite lines_vals in Mk. cbn [app] in Mk.
    destruct (feeds_got e (still m) rel n _ _ _ _ Hi Fd) as [Hid _].
    assert (Hc : h_cls h = f) by (destruct Hid as [-> _]; exact Hn).
    assert (V1 : h_val h = VList (map (fun m => VStr (csd_text m)) (members csd raws))).
    { rewrite D3. cbn [app]. f_equal. unfold members. rewrite <- (lines_vals csd (m_type m) raws). clear. induction (lines_of csd (m_type m) raws) as [|[v o] l IH]; [reflexivity|]. cbn [map fst flat_map]. rewrite IH, !map_app. f_equal.
      clear IH. induction (split_list_field v) as [|x xs IH]; [reflexivity|]. cbn [flat_map map]. rewrite IH. reflexivity. }
    assert (M1 : marked_strs h = filter unq_b (members csd raws)).
    { rewrite Mk. unfold members. clear. induction (flat_map split_list_field (values csd raws)) as [|x xs IH]; [reflexivity|]. cbn [flat_map map filter]. rewrite IH, csd_marked. destruct (unq_b (strip x)); reflexivity. }
    unfold finish_handler in Ff. rewrite Hc in Ff. change (kind_of f) with KList in Ff. cbv iota in Ff. unfold base_finish in Ff. rewrite V1, Hc in Ff. cbv iota in Ff. unfold finish_eval in Ff. cbn [eval_of f] in Ff.
    pose proof (csd_eval (mkCx e mi rel) h (members csd raws) V1 M1) as Q. rewrite <- (keep_fst h) in Q. destruct (keep h (ev_clear_site_data (mkCx e mi rel) h)) as [l r]. cbn [fst] in Q. subst l.
    assert (Ee : evs' = tag (subject_of csd) (sec_base tr h) (csd_q (members csd raws))) by (destruct r; congruence). subst evs'.
    rewrite D2, heard_tag; [|exact Hks|apply own_plain, Hks|].
    + rewrite (subject_module f csd Hf Hk). f_equal. unfold elements. rewrite lines_eq, flat_map_map, flat_map_flat_map. apply flat_map_ext. intros [r0 o]. cbn [fst snd]. rewrite flat_map_map. reflexivity.
    + apply csd_q_direct.
  - destruct R as [-> ->]. cbn [app heard emit fold_left filter map]. rewrite app_nil_r.
    assert (X : lines_of csd (m_type m) raws = []).
    { pose proof (lines_values csd (m_type m) raws) as L. rewrite values_eq in L. destruct (values csd raws); [|discriminate]. destruct (lines_of csd (m_type m) raws); [reflexivity|discriminate]. }
    unfold elements. rewrite lines_eq in X. destruct (field_lines_of _ _ _); [reflexivity|discriminate].
Qed.
(** ** A run *)
Definition one_told (v : str) : list (nid * list (option pyval)) := map (fun x => (fst (fst x), snd x)) (speak CS CK [] (csd_notes v)).
Definition all_told (ms : list str) : list (nid * list (option pyval)) := map (fun x => (fst (fst x), snd x)) (speak CS CK [] (csd_q ms)).
Lemma one_told_eq s v : speak CS CK s (fst (csd_p v)) = map (fun x => (fst x, s, snd x)) (one_told v).
Proof.
  unfold one_told, csd_p. cbn [fst]. rewrite speak_app. replace (speak CS CK s (if unq_b v then [EMark (VStr v)] else [])) with (@nil (nid * str * list (option pyval))) by (destruct (unq_b v); reflexivity).
  cbn [app]. unfold csd_notes. cbv zeta. destruct (negb _); [reflexivity|]. destruct (str_in _ _); reflexivity.
Qed.
Lemma all_told_eq s ms : speak CS CK s (csd_q ms) = map (fun x => (fst x, s, snd x)) (all_told ms).
Proof.
  unfold all_told, csd_q. cbv zeta. rewrite !speak_app, !map_app. f_equal; [destruct (nonempty _); reflexivity|]. destruct ms as [|m ms]; [reflexivity|]. destruct (nonempty _); reflexivity.
Qed.
Lemma one_told_ok v : member_clear v (one_told v).
Proof.
  exists (csd_text v). split; [apply csd_text_ok|]. unfold one_told, csd_notes. cbv zeta. destruct (csd_text v) as [|c d] eqn:E; cbn [nonempty negb]; [left; split; reflexivity|right].
  destruct (str_in (c :: d) csd_known) eqn:K; [right; split; [apply str_in_In in K; exact K|reflexivity]|left]. split; [discriminate|]. split; [|reflexivity]. intros H. change clear_known with csd_known in H. apply str_in_In in H. congruence.
Qed.
Lemma all_told_ok ms : whole_clear ms (all_told ms).
Proof.
  exists (filter unq_b ms), (map csd_text ms). split; [exists unq_b; split; [apply unq_ok|reflexivity]|]. split; [induction ms as [|m ms IH]; [constructor|constructor; [apply csd_text_ok|exact IH]]|].
  exists (filter (fun v => str_in v csd_known && negb (str_in v (filter unq_b ms))) (map csd_text ms)). split.
  - eexists. split; [|reflexivity]. intros d. cbv beta. rewrite andb_true_iff, negb_true_iff, str_in_In. change csd_known with clear_known. rewrite <- (str_in_In d (filter unq_b ms)). destruct (str_in d (filter unq_b ms)); intuition congruence.
  - unfold all_told, csd_q. cbv zeta. rewrite speak_app, map_app. f_equal; [destruct (filter unq_b ms); reflexivity|]. destruct ms as [|m ms]; [reflexivity|].
    destruct (filter _ (map csd_text (m :: ms))); reflexivity.
Qed.
Theorem C61_clear_site_data : forall e rel top headers chunks complete trailers t start nc head base m' rel',
  lint e rel top headers chunks complete trailers (new_linter t start nc head base) = (m', rel', Ok tt) -> t <> MRequest ->
  hyphened (u "clear-site-data") headers -> hyphened (u "clear-site-data") trailers ->
  exists one all, (forall m, member_clear m (one m)) /\ (forall ms, whole_clear ms (all ms))
    /\ heard (classes [CSD_EMPTY; CSD_UNKNOWN_VALUE; CSD_UNQUOTED; CSD_PRESENT]) [u "value"; u "values"] (m_notes m')
       = (member_told t "clear-site-data" one headers ++ list_told "clear-site-data" all headers) ++ member_told t "clear-site-data" one trailers ++ list_told "clear-site-data" all trailers.
Proof.
  intros e rel top headers chunks complete trailers t start nc head base m' rel' E Ht S1 S2. exists one_told, all_told. split; [apply one_told_ok|]. split; [apply all_told_ok|].
  set (f := F_clear_site_data). assert (HP : mine CS f) by (apply mine_b_ok; vm_compute; reflexivity). assert (HQ : quiet CS) by (apply quiet_b_ok; vm_compute; reflexivity). assert (Hf : In f module_fields) by (vm_compute; tauto).
  assert (Hpr : processed t csd = true) by (destruct t; try congruence; reflexivity).
  destruct (lint_own_top CS f csd e rel top headers chunks complete trailers t start nc head base m' rel' E HP HQ (or_introl eq_refl) eq_refl
              (hyphened_spelled f csd _ Hf eq_refl eq_refl S1) (hyphened_spelled f csd _ Hf eq_refl eq_refl S2))
    as (mh & mt & a & a' & b & b' & C1 & C2 & T1 & T2 & Y1 & Y2 & R1 & R2 & N).
  assert (L : forall l, csd_says t l = member_told t "clear-site-data" one_told l ++ list_told "clear-site-data" all_told l).
  { intros l. unfold csd_says, member_told, list_told. f_equal.
    - unfold elements. rewrite flat_map_flat_map. apply flat_map_ext. intros [r n]. cbn [fst snd]. rewrite flat_map_map. apply flat_map_ext. intros v. cbn [fst snd]. apply one_told_eq.
    - change (u "clear-site-data") with csd. destruct (values csd l); [reflexivity|]. cbn [nonempty]. apply all_told_eq. }
  rewrite heard_sel, N, !map_app, <- !heard_sel. rewrite <- !L. f_equal.
  - rewrite <- T1 in Hpr |- *. apply (csd_section e rel false mh headers a a'); auto.
  - rewrite <- T2 in Hpr |- *. apply (csd_section e rel true mt trailers b b'); auto.
Qed.
Print Assumptions C61_clear_site_data.
(** ** The value *)
Theorem C61_values : forall e t start base hs ts m' tr, t <> MRequest -> run_of e t start base hs ts m' ->
  let lines := section_lines tr hs ts in unpadded (u "clear-site-data") lines ->
  list_shown (fun m x => exists d, data_of m d /\ x = VStr d) "clear-site-data" lines (value_in tr (u "clear-site-data") m').
Proof.
  intros e t start base hs ts m' tr Ht R lines U.
  apply (list_shows e t start base hs ts m' tr "clear-site-data" _ (fun v => VStr (csd_text v)) R U); try reflexivity; try discriminate; [its_type| |].
  - intros v. change (find_class (u "clear-site-data")) with F_clear_site_data. cbn [parse_of]. rewrite csd_parse. reflexivity.
  - intros v. exists (csd_text v). split; [apply csd_text_ok|reflexivity].
Qed.
Print Assumptions C61_values.
(** ** Example *)
Definition csd_lines : list rawline := raws [("Clear-Site-Data", """cache"", cookies, """", ""other"""); ("clear-site-data", """storage"", ""cookies""")]%string.
Example C61_ex : let '(m, _, r) := lint env0 None (TopResponse (u "1.1") (u "200") None) csd_lines [] true [] (new_linter MResponse None false false []) in
  r = Ok tt /\ heard (classes [CSD_EMPTY; CSD_UNKNOWN_VALUE; CSD_UNQUOTED; CSD_PRESENT]) [u "value"; u "values"] (m_notes m) =
    [(CSD_EMPTY, u "offset-0", [None; None]); (CSD_UNKNOWN_VALUE, u "offset-0", [text (u "other"); None]);
     (CSD_UNQUOTED, u "field-clear-site-data", [None; text (u "cookies")]); (CSD_PRESENT, u "field-clear-site-data", [None; text (u "`cache`, `storage`")])].
Proof. vm_compute. repeat split. Qed.
Example C61_ex_hyps : hyphened (u "clear-site-data") csd_lines /\ unpadded (u "clear-site-data") csd_lines /\ bare_data (u "cookies").
Proof. split; [|split]; [repeat constructor; vm_compute; intros H; try discriminate H; reflexivity| |apply unq_ok; reflexivity]. split; try reflexivity; repeat constructor; vm_compute; intros H; try discriminate H; reflexivity. Qed.
