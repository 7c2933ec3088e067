(** * What a field's own code reports, with sub-notes, and seeing the notes so far (support). *)
From Coq Require Import Lia.
From Verif Require Import PyStr Regex Grammar NoteTable Note PyLib Utils FieldAttrs Types Fields1 Fields2 Fields3 Framework Checks Message
  EvLogic NoteLemmas TestEnv LexLemmas ParamLemmas NumLemmas NameLemmas FrameLemmas ContentLemmas BodyLemmas PassParse PassEval PassFrame PassSec PassProc PassRun Session SessionLemmas
  SectionLemmas SecNotes SecValues LintLemmas FieldSpec PropFields PropValues PropNames PropParse OwnLemmas ListSpec PropLists PropCC ListExamples FieldExamples PropInts FieldDue OwnTac OwnMore KidSpec.
Open Scope N_scope.

(** ** Events with sub-notes *)
Definition deep_of (P : nid -> bool) (ks : list str) (subj : str) (e : ev) : list heard_note :=
  match e with
  | ENote n _ vrs kids => if P n then [(n, subj, map (fun k => dlast k vrs) ks, map (fun kd => (fst kd, map (fun k => match dlast k (snd kd) with Some v => Some v | None => dlast k vrs end) ks)) kids)] else []
  | _ => []
  end.
(** Neither [EKid] nor [EMsg]. *)
Definition own_ev (e : ev) : Prop := match e with EKid _ _ _ | EMsg _ _ _ => False | _ => True end.
Lemma own_ev_direct P l : Forall own_ev l -> Forall (direct P) l.
Proof. apply Forall_impl. intros [] H; try exact I. destruct H. Qed.
Lemma heard_deep_app P ks a b : heard_deep P ks (a ++ b) = heard_deep P ks a ++ heard_deep P ks b.
Proof. unfold heard_deep. rewrite filter_app, map_app. reflexivity. Qed.
Lemma deep_note ks t subj n cat base vrs kids : own_keys ks = true -> plain_base ks base ->
  deep ks (mk_note t subj n cat (dupdate base vrs) kids) = (n, subj, map (fun k => dlast k vrs) ks, map (fun kd => (fst kd, map (fun k => match dlast k (snd kd) with Some v => Some v | None => dlast k vrs end) ks)) kids).
Proof.
  intros Hk Hb. pose proof (told_vars ks t subj n cat base vrs kids Hk Hb) as T. unfold told in T. injection T as T. unfold deep.
  change (n_vars (mk_note t subj n cat (dupdate base vrs) kids)) with (dupdate (default_vars t) (dupdate base vrs)) in *. rewrite T. cbn [mk_note n_cls n_subj n_kids]. f_equal. rewrite map_map. apply map_ext_in. intros [c kv] _. cbn [fst snd]. f_equal. apply map_ext_in. intros k Hi.
  rewrite dget_dupdate. destruct (dlast k kv); [reflexivity|]. clear - T Hi. set (g := fun k => _) in T at 2. change (dlast k vrs) with (g k).
  induction ks as [|k0 ks IH]; [destruct Hi|]. cbn [map] in T. injection T as T1 T2. destruct Hi as [->|Hi]; [exact T1|apply IH; assumption].
Qed.
Lemma deep_tag P ks t subj base l : own_keys ks = true -> plain_base ks base -> Forall own_ev l ->
  heard_deep P ks (emit t [] (tag subj base l)) = flat_map (deep_of P ks subj) l.
Proof.
  intros Hk Hb. induction l as [|e l IH]; intros H; [reflexivity|]. inversion H as [|? ? He Hl]; subst.
  change (tag subj base (e :: l)) with ([(subj, base, e)] ++ tag subj base l). rewrite emit_app. unfold heard_deep at 1. fold (sel P (emit t (emit t [] [(subj, base, e)]) (tag subj base l))).
  rewrite emit_sel_add by (apply direct_calm, own_ev_direct, Hl). rewrite map_app. cbn [flat_map]. f_equal; [|apply IH, Hl].
  destruct e as [n cat vrs kids|s n vrs|n c vrs|v|p n vrs]; try destruct He; try reflexivity.
  cbn [emit fold_left emit_one app sel filter mk_note n_cls deep_of]. destruct (P n); [|reflexivity]. cbn [map]. rewrite deep_note by assumption. reflexivity.
Qed.

(** ** The notes seen when a field is finished *)
Definition field_runm (P : nid -> bool) (e : env) (rel : option mstate) (tr : bool) (m : mstate) (k : str) (raws : list (bytes * bytes)) (evs evs' : list sev) : Prop :=
  if a_line k raws then
    exists h mi h', feeds e (still m) rel (new_handler (first_name k raws)) (lines_of k (m_type m) raws) = (evs, h, Ok tt)
      /\ k = lower (first_name k raws) /\ linv (m_type m) h /\ still mi = still m
      /\ finish_handler (mkCx e mi rel) (subject_of k) (sec_base tr h) h = (evs', h', Ok tt)
      /\ sel P (m_notes mi) = sel P (m_notes m) ++ sel P (emit (m_type m) [] evs)
  else evs = [] /\ evs' = [].
Lemma process_mid P f e rel tr m raws m' k : mine P f -> find_class k = f -> spelled f k raws ->
  sec tr m = new_section tr -> process e rel tr m raws = (m', Ok tt) ->
  exists evs evs', field_runm P e rel tr m k raws evs evs'
    /\ sel P (m_notes m') = sel P (m_notes m) ++ sel P (emit (m_type m) [] evs) ++ sel P (emit (m_type m) [] evs').
Proof.
  intros HP Hc Hsp Hs E. destruct (a_line k raws) eqn:Ea.
  2: { destruct (process_own P f e rel tr m raws m' k HP Hc Hsp Hs E) as (evs & evs' & R & N). exists evs, evs'. split; [|exact N]. unfold field_runm, field_run in *. rewrite Ea in *. exact R. }
  unfold field_runm. rewrite Ea. apply a_line_ex in Ea as (r & Hr & Hrk).
  destruct (process_lines e rel tr m raws m' Hs E) as (m1 & E1 & T1 & St & E2 & S1 & Ks & Hh & Ef).
  assert (S0 : sinv any (m_type m) (sec tr m)) by (rewrite Hs; split; constructor).
  set (t := m_type m) in *. set (m2 := section_size tr m1) in *.
  assert (T2 : m_type m2 = t) by (unfold m2, section_size; destruct (_ <? _); exact T1).
  assert (St2 : still m2 = still m) by (unfold m2, section_size; destruct (_ <? _); [rewrite still_emit|]; exact St).
  destruct S1 as [Hn Hl]. pose proof Hl as Hl2. rewrite <- T2 in Hl2.
  assert (Hk : In k (keys (s_handlers (sec tr m1)))).
  { rewrite Ks, <- Hrk. unfold fields_seen. apply seen_in. right. exists r. auto. }
  apply in_map_iff in Hk as ([k' h] & Ek' & Hin). cbn [fst] in Ek'. subst k'.
  destruct (Hh k h Hin) as (evs & Ek & _ & Hf). set (n := first_name k raws) in *.
  destruct (finish_all_field e rel tr _ m2 m' k h Hn Hl2 Ef Hin) as (mi & l1 & l2 & evs' & h' & El & Efa & Sti & Ti & Eh & Hid & Fin & Hd & Hp & Hq).
  pose proof Hl as Hl'. rewrite Forall_forall in Hl. destruct (Hl _ Hin) as [Lh Ih]. cbn [snd] in Lh.
  assert (Hi0 : ident any (lower n, new_handler n)) by (exists n; split; [exact I|split; [reflexivity|apply same_id_refl]]).
  assert (Hid0 : same_id (new_handler n) h) by (apply (feeds_got e (still m) rel n _ _ _ _ Hi0 Hf)).
  assert (Hcf : h_cls h = f) by (destruct Hid0 as [-> _]; cbn [h_cls new_handler]; rewrite <- Hc, Ek; symmetry; apply find_class_lower).
  assert (N2 : sel P (m_notes m2) = sel P (m_notes m1)).
  { unfold m2, section_size. destruct (_ <? _); [|reflexivity]. rewrite notes_emit. apply emit_sel. constructor; [|constructor]. unfold not_cls. cbn [snd ev_cls].
    constructor; [|constructor]. destruct (P FIELD_SECTION_TOO_LARGE) eqn:EP; [|reflexivity]. destruct HP as [HP _]. apply HP in EP as [EP _]. discriminate. }
  assert (N1 : sel P (m_notes m1) = sel P (m_notes m) ++ sel P (emit t [] evs)).
  { pose proof (lines_own P f k HP e rel tr raws m 0%nat m1 S0 E1 Hc Hsp) as Lo. fold t in Lo. unfold lines_of in Hf.
    pose proof (proj1 (keyed_nonempty k (m_type m) 0%nat raws) (ex_intro _ r (conj Hr Hrk))) as NE. fold t in NE, Hf.
    pose proof (first_placed k (m_type m) 0%nat raws) as FP. fold t in FP.
    destruct (filter (keyed k) (placed t 0 raws)) as [|ro l]; [destruct (NE eq_refl)|].
    destruct Lo as (evs0 & h0 & Hf0 & Hs0 & _). rewrite Hs in Hf0. cbn [s_handlers new_section] in Hf0. unfold own_handler in Hf0. cbn [dget] in Hf0.
    assert (Ev : evs0 = evs) by (rewrite (proj1 FP) in Hf0; change (first_name k raws) with n in Hf0; rewrite Hf in Hf0; congruence).
    rewrite Ev in Hs0. exact Hs0. }
  assert (A : forall k2 h2, In (k2, h2) (s_handlers (sec tr m1)) -> h_cls h2 = f -> k2 = k).
  { intros k2 h2 Hin2 Hc2. destruct (Hh k2 h2 Hin2) as (evs2 & Ek2 & (r2 & Hr2 & Hn2 & Hk2) & Hf2). set (n2 := first_name k2 raws) in *.
    assert (Hi2' : ident any (lower n2, new_handler n2)) by (exists n2; split; [exact I|split; [reflexivity|apply same_id_refl]]).
    destruct (feeds_got e (still m) rel n2 _ _ _ _ Hi2' Hf2) as [(Ec2 & _) _].
    unfold spelled in Hsp. rewrite Forall_forall in Hsp. rewrite <- Hk2. apply (Hsp r2 Hr2). rewrite Hn2. cbn [h_cls new_handler] in Ec2. congruence. }
  assert (Ni : sel P (m_notes mi) = sel P (m_notes m2)).
  { rewrite El in Hn, Hl2, A. unfold keys in Hn. rewrite map_app in Hn. cbn [map fst] in Hn.
    assert (Hn1 : NoDup (keys l1)) by (apply NoDup_remove_1 in Hn; clear - Hn; unfold keys; induction l1 as [|x l1 IH]; [constructor|]; cbn [map app] in *; inversion Hn as [|? ? Hx Hn']; subst; constructor; [intros C; apply Hx, in_or_app; left; exact C|apply IH, Hn']).
    apply Forall_app in Hl2 as [Hl2 _]. destruct (finish_all_facts e rel tr l1 m2 mi Hn1 Hl2 Efa) as (_ & _ & _ & _ & _ & _ & _ & _ & Q). apply (Q P f HP).
    apply Forall_forall. intros [k2 h2] Hi2 Hc2. cbn [snd] in Hc2. assert (X : k2 = k) by (apply (A k2 h2); [apply in_or_app; left; exact Hi2|exact Hc2]). subst k2.
    apply NoDup_remove_2 in Hn. apply Hn, in_or_app. left. apply (in_map fst) in Hi2. exact Hi2. }
  exists evs, evs'. split.
  - exists h, mi, h'. split; [exact Hf|]. split; [exact Ek|]. split; [exact Lh|]. split; [congruence|]. rewrite <- (ident_subject k h Ih). split; [exact Eh|]. rewrite Ni, N2. exact N1.
  - rewrite (Hq P f HP Hcf), T2, N2, N1, <- app_assoc; [reflexivity|]. apply Forall_forall. intros [k2 h2] Hin2 Hc2. cbn [fst snd] in *. apply (A k2 h2 Hin2 Hc2).
Qed.
Theorem lint_mid P f k e rel top headers chunks complete trailers t start nc head base m' rel' :
  lint e rel top headers chunks complete trailers (new_linter t start nc head base) = (m', rel', Ok tt) ->
  mine P f -> quiet P -> has_post f = false \/ wrong t f = true \/ mute_post P f -> find_class k = f -> spelled f k headers -> spelled f k trailers ->
  exists mh mt a a' b b', m_type mh = t /\ m_type mt = t
    /\ front mh = front m' /\ front mt = front m'
    /\ sel P (m_notes mh) = [] /\ sel P (m_notes mt) = sel P (emit t [] a) ++ sel P (emit t [] a')
    /\ field_runm P e rel false mh k headers a a' /\ field_runm P e rel true mt k trailers b b'
    /\ sel P (m_notes m') = (sel P (emit t [] a) ++ sel P (emit t [] a')) ++ sel P (emit t [] b) ++ sel P (emit t [] b').
Proof.
  intros E HP HQ Hpost Hf S1 S2. rewrite (lint_front _ _ _ _ _ _ _ _ _ _ _ _ _ _ E). destruct (lint_sections_top _ _ _ _ _ _ _ _ _ _ _ _ _ _ E) as (mh & mh' & mt & mt' & S & Y1 & Y2).
  destruct S as (H1 & H2 & H3 & T1 & T2 & T3 & _ & C1 & C2 & Th & Tt & N & evs & Q & N2).
  destruct (process_mid P f e rel false mh headers mh' k HP Hf S1 H1 H2) as (a & a' & Ra & Na).
  destruct (process_mid P f e rel true mt trailers mt' k HP Hf S2 T1 T2) as (b & b' & Rb & Nb).
  exists mh, mt, a, a', b, b'. destruct (N P HQ) as [N0 N1]. rewrite N0, Th in Na. cbn [app] in Na. repeat (split; [assumption|]).
  split; [rewrite N1, Na; reflexivity|]. split; [exact Ra|]. split; [exact Rb|].
  pose proof (posted_off t P f evs HP Hpost Q) as Off. rewrite (N2 P HQ).
  - rewrite (emit_sel P t evs _ Off), Nb, N1, Na, Tt. rewrite <- !app_assoc. reflexivity.
  - eapply Forall_impl; [|exact Off]. intros s Hs. right. exact Hs.
Qed.
Lemma runm_run P e rel tr m k raws a b : field_runm P e rel tr m k raws a b -> field_run e rel tr m k raws a b.
Proof. unfold field_runm, field_run. destruct (a_line k raws); [|auto]. intros (h & mi & h' & H1 & H2 & H3 & H4 & H5 & _). exists h, mi, h'. auto. Qed.

(** ** The events of a section *)
Definition calls_on (P : nid -> bool) (l : list ev) : Prop := Forall (fun e => exists n c vrs, e = ENote n c vrs [] /\ framework n = true) l.
Lemma calls_own P l : calls_on P l -> Forall own_ev l.
Proof. apply Forall_impl. intros x (n & c & vrs & -> & _). exact I. Qed.
Lemma calls_mute P f ks s l : mine P f -> calls_on P l -> flat_map (deep_of P ks s) l = [].
Proof.
  intros HP. induction 1 as [|x l (n & c & vrs & -> & Hn) H IH]; [reflexivity|]. cbn [flat_map deep_of]. rewrite IH.
  destruct (P n) eqn:E; [|reflexivity]. destruct HP as [X _]. apply X in E as [E _]. congruence.
Qed.
Lemma calls_aux P s b l : calls_on P l -> aux_of (tag s b l) = [].
Proof. induction 1 as [|x l (n & c & vrs & -> & _) H IH]; [reflexivity|]. exact IH. Qed.
Lemma aux_tag_app s b l l' : aux_of (tag s b (l ++ l')) = aux_of (tag s b l) ++ aux_of (tag s b l').
Proof. unfold aux_of, tag. rewrite map_app, flat_map_app. reflexivity. Qed.
Lemma single_at P f k e rel C tr m raws evs evs' : mine P f -> In f module_fields -> find_class k = f -> kind_of f = KSingleton -> processed (m_type m) k = true -> front m = C ->
  field_runm P e rel tr m k raws evs evs' ->
  evs = [] /\ match values k raws with
              | [] => evs' = []
              | v :: _ => exists pre h mi, calls_on P pre /\ front mi = C /\ sel P (m_notes mi) = sel P (m_notes m) /\ h_cls h = f /\ h_aux h = []
                  /\ let s := about_field k in let b := sec_base tr h in let w := parse_of f (mkCx e mi rel) h (strip v) in
                     match snd w with
                     | Ok x => evs' = tag s b (pre ++ fst w ++ match x with VNone => [] | _ => fst (eval_of f (mkCx e mi rel) (h_set_val (h_add_aux h (aux_of (tag s b (fst w)))) x)) end)
                     | Err _ => evs' = tag s b (pre ++ fst w)
                     end
              end.
Proof.
  intros HP Hf Hk Hkind Hpr HC Rm. unfold field_runm in Rm. rewrite a_line_values in Rm. destruct (nonempty (values k raws)) eqn:Ev.
  2: { destruct Rm as [-> ->]. split; [reflexivity|]. destruct (values k raws); [reflexivity|discriminate]. }
  destruct Rm as (h & mi & h' & Fd & Ek & Hl & St & Ff & Ni). set (n := first_name k raws) in *.
  assert (Hi : ident any (lower n, new_handler n)) by (exists n; split; [exact I|split; [reflexivity|apply same_id_refl]]).
  assert (Hn : find_class n = f) by (rewrite <- Hk, Ek; symmetry; apply find_class_lower).
  assert (Ha : accepted (m_type (still m)) n = true) by (rewrite <- (accepted_lower _ n), <- Ek; change (m_type (still m)) with (m_type m); rewrite processed_eq; exact Hpr).
  destruct (feeds_got e (still m) rel n _ _ _ _ Hi Fd) as [Hid G]. rewrite Ha in G.
  assert (Hla : late f = true) by (unfold late; rewrite Hkind; reflexivity).
  destruct (fed_late e (still m) rel f n _ Hla Hn Ha _ _ _ Hi Fd) as [E0 E1]. subst evs. split; [reflexivity|].
  assert (Hc : h_cls h = f) by (destruct Hid as [-> _]; exact Hn). assert (Hc0 : h_cls (new_handler n) = f) by exact Hn.
  unfold got in G. rewrite Hc0, Hkind in G. cbn [h_raw new_handler app] in G.
  unfold finish_handler in Ff. rewrite Hc, Hkind in Ff. unfold singleton_finish in Ff. rewrite G in Ff.
  pose proof (lines_values k (m_type m) raws) as L. rewrite values_eq in L. destruct (lines_of k (m_type m) raws) as [|[raw o] more]; [rewrite <- L in Ev; discriminate|].
  cbn [map fst] in L. rewrite <- L. rewrite Hc in Ff.
  set (l1 := match more with [] => [] | _ => _ end) in *. set (l2 := match fa_syntax _ with Some _ => _ | None => _ end) in *.
  assert (Cl : calls_on P (l1 ++ l2)).
  { apply Forall_app. split.
    - unfold l1. destruct more; [constructor|]. constructor; [|constructor]. eexists _, _, _. split; reflexivity.
    - unfold l2. destruct (fa_syntax _); [|constructor]. destruct (match_ws_dollar _ _); [constructor|]. destruct (fa_report _); [|constructor]. constructor; [|constructor]. eexists _, _, _. split; reflexivity. }
  exists (l1 ++ l2), h, mi. split; [exact Cl|]. split; [rewrite (front_of_still _ _ St); exact HC|]. split; [rewrite Ni; cbn [emit fold_left sel filter]; rewrite app_nil_r; reflexivity|]. split; [exact Hc|]. split; [exact E1|].
  rewrite (subject_module f k Hf Hk) in Ff. cbv zeta in Ff |- *. destruct (parse_of f (mkCx e mi rel) h (strip raw)) as [l3 r]. cbn [fst snd] in *.
  set (b := sec_base tr h) in *. set (s := about_field k) in *. rewrite app_assoc in Ff.
  rewrite aux_tag_app, (calls_aux P s b _ Cl) in Ff. cbn [app] in Ff.
  destruct r as [x|x].
  - unfold prefix_events in Ff. destruct (base_finish _ _ _ _) as [[l4 h4] r4] eqn:Eb. injection Ff as <- <- ->. unfold base_finish in Eb.
    set (h5 := h_set_val _ x) in *. assert (H5 : h_cls h5 = f) by exact Hc. assert (V5 : h_val h5 = x) by reflexivity. rewrite V5, H5 in Eb. rewrite app_assoc. unfold tag. rewrite (map_app _ ((l1 ++ l2) ++ l3)). fold (tag s b ((l1 ++ l2) ++ l3)). f_equal.
    unfold finish_eval in Eb. destruct (eval_of f (mkCx e mi rel) h5) as [le re]. cbn [fst] in *.
    destruct x; first [destruct re; injection Eb as <- _; reflexivity | injection Eb as <- _; reflexivity].
  - destruct (is_ValueError x); [|discriminate]. injection Ff as <- <-. reflexivity.
Qed.
Lemma sf_at P f k e rel C t tr m raws evs evs' : mine P f -> In f module_fields -> find_class k = f -> kind_of f = KSF t -> processed (m_type m) k = true -> front m = C ->
  field_run e rel tr m k raws evs evs' ->
  evs = [] /\ if nonempty (values k raws) then
                exists pre h mi hb, calls_on P pre /\ front mi = C /\ evs' = tag (about_field k) (sec_base tr hb) (pre ++ sf_events t f e rel mi h (whole_text k raws))
              else evs' = [].
Proof.
  intros HP Hf Hk Hkind Hpr HC R. destruct (finished f k e rel tr m raws evs evs') as [-> F]; auto; [unfold late; rewrite Hkind; reflexivity|]. split; [reflexivity|].
  destruct (nonempty (values k raws)) eqn:Ev; [|exact F]. destruct F as (h & mi & h' & Hc & _ & Hsf & G & St & Hn & Ff).
  unfold got in G. cbn [new_handler h_cls] in G. rewrite Hn, Hkind in G. specialize (G [] eq_refl). cbn [app] in G. rewrite <- (map_map fst VStr), lines_vals in G.
  unfold finish_handler in Ff. rewrite Hc, Hkind in Ff. unfold sf_finish in Ff. rewrite G, Hsf, Hc in Ff. unfold whole_text.
  destruct (values k raws) as [|x l]; [discriminate|]. cbn [truthy map nonempty negb] in Ff. change (VStr x :: map VStr l) with (map VStr (x :: l)) in Ff. rewrite raw_texts_strl in Ff. cbv zeta in Ff. clear G Ev.
  set (s := strip _) in *. cbn [cx_env] in *. rewrite (subject_module f k Hf Hk) in Ff. pose proof (eq_trans (front_of_still _ _ St) HC) as Fm.
  assert (Dd : forall d, calls_on P (dup_events d)).
  { intros d. apply Forall_map, Forall_forall. intros kc _. eexists _, _, _. split; reflexivity. }
  assert (Er : forall d pb cx, calls_on P (dup_events d ++ [sf_error h pb cx])).
  { intros d pb cx. apply Forall_app. split; [apply Dd|]. constructor; [eexists _, _, _; split; reflexivity|constructor]. }
  assert (Ok_ : forall (w : W pyval) hh d, prefix_events (tag (about_field k) (sec_base tr h) (dup_events d)) (finish_eval (about_field k) (sec_base tr h) hh w) = (evs', h', Ok tt) -> evs' = tag (about_field k) (sec_base tr h) (dup_events d ++ fst w)).
  { intros [lw rw] hh d E. cbn [fst]. unfold finish_eval in E. unfold tag in *. rewrite map_app. unfold prefix_events in E. cbv zeta in E. destruct rw; [injection E as <- _; reflexivity|discriminate E]. }
  destruct t; unfold sf_result in Ff; unfold sf_events.
  - destruct (e_sf_item e s) as [bp d|d pb pos|d pb].
    + exists (dup_events d). eexists. exists mi, h. split; [apply Dd|]. split; [exact Fm|]. eapply Ok_. exact Ff.
    + injection Ff as <- _. eexists _, h, mi, h. split; [apply Er|]. split; [exact Fm|]. rewrite app_nil_r. reflexivity.
    + injection Ff as <- _. eexists _, h, mi, h. split; [apply Er|]. split; [exact Fm|]. rewrite app_nil_r. reflexivity.
  - destruct (e_sf_list e s) as [bp d|d pb pos|d pb].
    + exists (dup_events d). eexists. exists mi, h. split; [apply Dd|]. split; [exact Fm|]. eapply Ok_. exact Ff.
    + injection Ff as <- _. eexists _, h, mi, h. split; [apply Er|]. split; [exact Fm|]. rewrite app_nil_r. reflexivity.
    + injection Ff as <- _. eexists _, h, mi, h. split; [apply Er|]. split; [exact Fm|]. rewrite app_nil_r. reflexivity.
  - destruct (e_sf_dict e s) as [bp d|d pb pos|d pb].
    + exists (dup_events d). eexists. exists mi, h. split; [apply Dd|]. split; [exact Fm|]. eapply Ok_. exact Ff.
    + injection Ff as <- _. eexists _, h, mi, h. split; [apply Er|]. split; [exact Fm|]. rewrite app_nil_r. reflexivity.
    + injection Ff as <- _. eexists _, h, mi, h. split; [apply Er|]. split; [exact Fm|]. rewrite app_nil_r. reflexivity.
Qed.
