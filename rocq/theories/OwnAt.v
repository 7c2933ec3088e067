(** * What a field's code can read of the other fields when it is evaluated (support). *)
From Coq Require Import Lia.
From Verif Require Import PyStr Regex Grammar NoteTable Note PyLib Utils FieldAttrs Types Fields1 Fields2 Fields3 Framework Checks Message
  EvLogic NoteLemmas TestEnv LexLemmas ParamLemmas NumLemmas NameLemmas FrameLemmas ContentLemmas BodyLemmas PassParse PassEval PassFrame PassSec PassProc PassRun Session SessionLemmas
  SectionLemmas SecNotes SecValues LintLemmas FieldSpec PropFields PropValues PropNames PropParse OwnLemmas ListSpec PropLists PropCC ListExamples FieldExamples PropInts FieldDue OwnTac OwnMore KidSpec OwnFull.
From Verif Require PropOrder.
Open Scope N_scope.

(** The elements before the first [k]. *)
Fixpoint before (k : str) (l : list str) : list str := match l with [] => [] | x :: l' => if str_eqb x k then [] else x :: before k l' end.
Lemma before_app k l1 l2 : ~ In k l1 -> before k (l1 ++ k :: l2) = l1.
Proof.
  induction l1 as [|x l1 IH]; intros H; cbn [app before]; [rewrite str_eqb_refl; reflexivity|]. destruct (str_eqb x k) eqn:E; [apply str_eqb_eq in E; subst; destruct H; left; reflexivity|].
  rewrite IH; [reflexivity|]. intros C. apply H. right. exact C.
Qed.
Lemma finish_all_app e rel tr l1 l2 : forall m, finish_all e rel tr m (l1 ++ l2) = match finish_all e rel tr m l1 with (m', Ok _) => finish_all e rel tr m' l2 | r => r end.
Proof.
  induction l1 as [|x l1 IH]; intros m; cbn [app finish_all]; [destruct (finish_all e rel tr m l2) as [? [[]|]]; reflexivity|]. destruct (finish_one e rel tr m x) as [m1 [y|y]]; [apply IH|reflexivity].
Qed.
Lemma lines_parsed e rel tr raws : forall m o m1, field_lines e rel tr m o raws = (m1, Ok tt) -> s_parsed (sec tr m1) = s_parsed (sec tr m) /\ sec (negb tr) m1 = sec (negb tr) m.
Proof.
  induction raws as [|raw raws IH]; intros m o m1 E1; cbn [field_lines] in E1; [injection E1 as <-; split; reflexivity|].
  destruct (field_line e rel tr m o raw) as [[m3 o3] [[]|x]] eqn:E3; [|discriminate]. destruct (IH _ _ _ E1) as [-> ->]. pose proof (field_line_eq e rel tr m o raw) as F. cbv zeta in F.
  destruct (taken _ _ _ _ _ _) as [[[[? ?] ?] ?] r0]. rewrite F in E3. clear F. injection E3 as <- _ _. destruct tr; split; reflexivity.
Qed.
(** One field of a section, with what has been parsed when it is finished. *)
Definition field_at (e : env) (rel : option mstate) (tr : bool) (m m' : mstate) (k : str) (raws : list (bytes * bytes)) (evs evs' : list sev) : Prop :=
  if a_line k raws then
    exists h mi h', feeds e (still m) rel (new_handler (first_name k raws)) (lines_of k (m_type m) raws) = (evs, h, Ok tt)
      /\ k = lower (first_name k raws) /\ linv (m_type m) h /\ still mi = still m
      /\ finish_handler (mkCx e mi rel) (subject_of k) (sec_base tr h) h = (evs', h', Ok tt)
      /\ sec (negb tr) mi = sec (negb tr) m
      /\ forall x, strip x = x -> apart_name x raws -> dget x (s_parsed (sec tr mi)) = if str_in x (before k (fields_seen raws)) then dget x (s_parsed (sec tr m')) else None
  else evs = [] /\ evs' = [].
Lemma process_at P f e rel tr m raws m' k : mine P f -> find_class k = f -> spelled f k raws ->
  sec tr m = new_section tr -> process e rel tr m raws = (m', Ok tt) ->
  exists evs evs', field_at e rel tr m m' k raws evs evs'
    /\ sel P (m_notes m') = sel P (m_notes m) ++ sel P (emit (m_type m) [] evs) ++ sel P (emit (m_type m) [] evs').
Proof.
  intros HP Hc Hsp Hs E. destruct (a_line k raws) eqn:Ea.
  2: { destruct (process_own P f e rel tr m raws m' k HP Hc Hsp Hs E) as (evs & evs' & R & N). exists evs, evs'. split; [|exact N]. unfold field_at, field_run in *. rewrite Ea in *. exact R. }
  unfold field_at. rewrite Ea. apply a_line_ex in Ea as (r & Hr & Hrk).
  destruct (process_lines e rel tr m raws m' Hs E) as (m1 & E1 & T1 & St & E2 & S1 & Ks & Hh & Ef).
  assert (S0 : sinv any (m_type m) (sec tr m)) by (rewrite Hs; split; constructor).
  set (t := m_type m) in *. set (m2 := section_size tr m1) in *.
  assert (T2 : m_type m2 = t) by (unfold m2, section_size; destruct (_ <? _); exact T1).
  assert (St2 : still m2 = still m) by (unfold m2, section_size; destruct (_ <? _); [rewrite still_emit|]; exact St).
  destruct (lines_parsed e rel tr raws m 0%nat m1 E1) as [Pr Ot]. rewrite Hs in Pr. cbn [new_section s_parsed] in Pr.
  assert (P2 : s_parsed (sec tr m2) = []) by (rewrite E2; exact Pr).
  assert (O2 : sec (negb tr) m2 = sec (negb tr) m) by (rewrite <- Ot; unfold m2, section_size; destruct (_ <? _); [destruct tr|]; reflexivity).
  destruct S1 as [Hn Hl]. pose proof Hl as Hl2. rewrite <- T2 in Hl2.
  assert (Hk : In k (keys (s_handlers (sec tr m1)))).
  { rewrite Ks, <- Hrk. unfold fields_seen. apply seen_in. right. exists r. auto. }
  apply in_map_iff in Hk as ([k' h] & Ek' & Hin). cbn [fst] in Ek'. subst k'.
  destruct (Hh k h Hin) as (evs & Ek & _ & Hf). set (n := first_name k raws) in *.
  destruct (finish_all_field e rel tr _ m2 m' k h Hn Hl2 Ef Hin) as (mi & l1 & l2 & evs' & h' & El & Efa & Sti & Ti & Eh & Hid & Fin & Hd & Hp & Hq).
  pose proof Hl as Hl'. rewrite Forall_forall in Hl. destruct (Hl _ Hin) as [Lh Ih]. cbn [snd] in Lh.
  assert (Hi0 : ident any (lower n, new_handler n)) by (exists n; split; [exact I|split; [reflexivity|apply same_id_refl]]).
  assert (Hid0 : same_id (new_handler n) h) by (apply (feeds_got e (still m) rel n _ _ _ _ Hi0 Hf)).
  assert (Hcf : h_cls h = f) by (destruct Hid0 as [-> _]; cbn [h_cls new_handler]; rewrite <- Hc, Ek; symmetry; apply find_class_lower).
  assert (N2 : sel P (m_notes m2) = sel P (m_notes m1)).
  { unfold m2, section_size. destruct (_ <? _); [|reflexivity]. rewrite notes_emit. apply emit_sel. constructor; [|constructor]. unfold not_cls. cbn [snd ev_cls].
    constructor; [|constructor]. destruct (P FIELD_SECTION_TOO_LARGE) eqn:EP; [|reflexivity]. destruct HP as [HP _]. apply HP in EP as [EP _]. discriminate. }
  assert (N1 : sel P (m_notes m1) = sel P (m_notes m) ++ sel P (emit t [] evs)).
  { pose proof (lines_own P f k HP e rel tr raws m 0%nat m1 S0 E1 Hc Hsp) as Lo. fold t in Lo. unfold lines_of in Hf.
    pose proof (proj1 (keyed_nonempty k (m_type m) 0%nat raws) (ex_intro _ r (conj Hr Hrk))) as NE. fold t in NE, Hf.
    pose proof (first_placed k (m_type m) 0%nat raws) as FP. fold t in FP.
    destruct (filter (keyed k) (placed t 0 raws)) as [|ro l]; [destruct (NE eq_refl)|].
    destruct Lo as (evs0 & h0 & Hf0 & Hs0 & _). rewrite Hs in Hf0. cbn [s_handlers new_section] in Hf0. unfold own_handler in Hf0. cbn [dget] in Hf0.
    assert (Ev : evs0 = evs) by (rewrite (proj1 FP) in Hf0; change (first_name k raws) with n in Hf0; rewrite Hf in Hf0; congruence).
    rewrite Ev in Hs0. exact Hs0. }
  assert (A : forall k2 h2, In (k2, h2) (s_handlers (sec tr m1)) -> h_cls h2 = f -> k2 = k).
  { intros k2 h2 Hin2 Hc2. destruct (Hh k2 h2 Hin2) as (evs2 & Ek2 & (r2 & Hr2 & Hn2 & Hk2) & Hf2). set (n2 := first_name k2 raws) in *.
    assert (Hi2' : ident any (lower n2, new_handler n2)) by (exists n2; split; [exact I|split; [reflexivity|apply same_id_refl]]).
    destruct (feeds_got e (still m) rel n2 _ _ _ _ Hi2' Hf2) as [(Ec2 & _) _].
    unfold spelled in Hsp. rewrite Forall_forall in Hsp. rewrite <- Hk2. apply (Hsp r2 Hr2). rewrite Hn2. cbn [h_cls new_handler] in Ec2. congruence. }
  (* the names under which values are kept *)
  assert (B : forall x, strip x = x -> apart_name x raws -> forall k2 h2, In (k2, h2) (s_handlers (sec tr m1)) -> h_norm h2 = x -> k2 = x).
  { intros x Hb Ha k2 h2 Hin2 En. destruct (Hh k2 h2 Hin2) as (evs2 & Ek2 & (r2 & Hr2 & Hn2 & Hk2) & Hf2). set (n2 := first_name k2 raws) in *.
    assert (Hi2' : ident any (lower n2, new_handler n2)) by (exists n2; split; [exact I|split; [reflexivity|apply same_id_refl]]).
    destruct (feeds_got e (still m) rel n2 _ _ _ _ Hi2' Hf2) as [(_ & _ & En2 & _) _].
    assert (Es : strip (raw_key r2) = x). { rewrite Hk2, Ek2, strip_lower, <- En, En2. reflexivity. }
    unfold apart_name in Ha. rewrite Forall_forall in Ha. specialize (Ha r2 Hr2 Es). rewrite Hk2 in Ha. exact Ha. }
  assert (Hn1 : NoDup (keys l1) /\ ~ In k (keys l1) /\ NoDup (keys ((k, h) :: l2)) /\ forall x, In x (keys l1) -> ~ In x (keys ((k, h) :: l2))).
  { clear - Hn El. rewrite El in Hn. clear El. unfold keys in Hn |- *. rewrite map_app in Hn. split; [|split; [|split]].
    - clear - Hn. induction l1 as [|x l1 IH]; [constructor|]. cbn [map app] in *. inversion Hn as [|? ? Hx Hn']; subst. constructor; [intros C; apply Hx, in_or_app; left; exact C|apply IH, Hn'].
    - cbn [map fst] in Hn. apply NoDup_remove_2 in Hn. intros C. apply Hn, in_or_app. left. exact C.
    - induction l1 as [|x l1 IH]; [exact Hn|]. cbn [map app] in Hn. inversion Hn; subst. apply IH. assumption.
    - intros x Hx C. induction l1 as [|y l1 IH]; [destruct Hx|]. cbn [map app] in Hn. inversion Hn as [|? ? Hy Hn']; subst. destruct Hx as [<-|Hx]; [apply Hy, in_or_app; right; exact C|apply IH; assumption]. }
  destruct Hn1 as (D1 & D2 & D3 & D4). pose proof Hl2 as Hl3. rewrite El in Hl3. apply Forall_app in Hl3 as [L1 L2].
  destruct (finish_all_facts e rel tr l1 m2 mi D1 L1 Efa) as (_ & _ & _ & O3 & _ & _ & _ & P3 & Q).
  assert (Efb : finish_all e rel tr mi ((k, h) :: l2) = (m', Ok tt)) by (rewrite El, finish_all_app, Efa in Ef; exact Ef).
  rewrite <- Ti in L2. destruct (finish_all_facts e rel tr _ mi m' D3 L2 Efb) as (_ & _ & _ & _ & _ & _ & _ & P4 & _).
  exists evs, evs'. split.
  - exists h, mi, h'. split; [exact Hf|]. split; [exact Ek|]. split; [exact Lh|]. split; [congruence|]. rewrite <- (ident_subject k h Ih). split; [exact Eh|]. split; [congruence|].
    intros x Hb Ha. assert (Bf : before k (fields_seen raws) = keys l1) by (rewrite <- Ks, El; unfold keys; rewrite map_app; cbn [map fst]; apply before_app, D2). rewrite Bf.
    assert (Bx := B x Hb Ha). rewrite El in Bx. destruct (str_in x (keys l1)) eqn:Ex.
    + apply str_in_In in Ex. symmetry. apply P4. intros C. unfold norms in C. apply in_map_iff in C as ([k2 h2] & En & Hi2). cbn [snd] in En.
      assert (X : k2 = x) by (apply (Bx k2 h2); [apply in_or_app; right; exact Hi2|exact En]). subst k2. apply (D4 x Ex). apply (in_map fst) in Hi2. exact Hi2.
    + rewrite P3; [rewrite P2; reflexivity|]. intros C. unfold norms in C. apply in_map_iff in C as ([k2 h2] & En & Hi2). cbn [snd] in En.
      assert (X : k2 = x) by (apply (Bx k2 h2); [apply in_or_app; left; exact Hi2|exact En]). subst k2. apply (in_map fst) in Hi2. apply str_in_In in Hi2. cbn [fst] in Hi2. unfold keys in Ex. congruence.
  - rewrite (Hq P f HP Hcf), T2, N2, N1, <- app_assoc; [reflexivity|]. apply Forall_forall. intros [k2 h2] Hin2 Hc2. cbn [fst snd] in *. apply (A k2 h2 Hin2 Hc2).
Qed.
Theorem lint_at P f k e rel top headers chunks complete trailers t start nc head base m' rel' :
  lint e rel top headers chunks complete trailers (new_linter t start nc head base) = (m', rel', Ok tt) ->
  mine P f -> quiet P -> has_post f = false \/ wrong t f = true \/ mute_post P f -> find_class k = f -> spelled f k headers -> spelled f k trailers ->
  exists mh mt a a' b b', m_type mh = t /\ m_type mt = t
    /\ front mh = front m' /\ front mt = front m' /\ m_headers mt = m_headers m'
    /\ field_at e rel false mh m' k headers a a' /\ field_at e rel true mt m' k trailers b b'
    /\ sel P (m_notes m') = (sel P (emit t [] a) ++ sel P (emit t [] a')) ++ sel P (emit t [] b) ++ sel P (emit t [] b').
Proof.
  intros E HP HQ Hpost Hf S1 S2. rewrite (lint_front _ _ _ _ _ _ _ _ _ _ _ _ _ _ E). destruct (lint_sections_top _ _ _ _ _ _ _ _ _ _ _ _ _ _ E) as (mh & mh' & mt & mt' & S & Y1 & Y2).
  destruct S as (H1 & H2 & H3 & T1 & T2 & T3 & H4 & C1 & C2 & Th & Tt & N & evs & Q & N2).
  destruct (process_at P f e rel false mh headers mh' k HP Hf S1 H1 H2) as (a & a' & Ra & Na).
  destruct (process_at P f e rel true mt trailers mt' k HP Hf S2 T1 T2) as (b & b' & Rb & Nb).
  exists mh, mt, a, a', b, b'. destruct (N P HQ) as [N0 N1]. rewrite N0, Th in Na. cbn [app] in Na. repeat (split; [assumption|]). split; [congruence|].
  assert (X : forall tr m mx my raws evs evs', sec tr mx = sec tr my -> field_at e rel tr m mx k raws evs evs' -> field_at e rel tr m my k raws evs evs').
  { intros tr m mx my raws evs0 evs0' Es R. unfold field_at in *. destruct (a_line k raws); [|exact R]. destruct R as (h & mi & h' & R). rewrite Es in R. exists h, mi, h'. exact R. }
  split; [apply (X false mh mh' m' headers a a'); [symmetry; exact H3|exact Ra]|]. split; [apply (X true mt mt' m' trailers b b'); [symmetry; exact T3|exact Rb]|].
  pose proof (posted_off t P f evs HP Hpost Q) as Off. rewrite (N2 P HQ).
  - rewrite (emit_sel P t evs _ Off), Nb, N1, Na, Tt. rewrite <- !app_assoc. reflexivity.
  - eapply Forall_impl; [|exact Off]. intros s Hs. right. exact Hs.
Qed.
(** ** Singleton fields: parsing does not read the message *)
Lemma single_heard P ks f k e rel tr m m' raws evs evs' : mine P f -> own_keys ks = true -> In f module_fields -> find_class k = f -> kind_of f = KSingleton -> processed (m_type m) k = true ->
  (forall c h v, Forall (direct P) (fst (parse_of f c h v))) -> (forall c h, Forall (direct P) (fst (eval_of f c h))) ->
  field_at e rel tr m m' k raws evs evs' ->
  exists mi, front mi = front m /\ sec (negb tr) mi = sec (negb tr) m
    /\ (values k raws <> [] -> forall x, strip x = x -> apart_name x raws -> dget x (s_parsed (sec tr mi)) = if str_in x (before k (fields_seen raws)) then dget x (s_parsed (sec tr m')) else None)
    /\ exists h, h_cls h = f /\ heard P ks (emit (m_type m) [] evs) ++ heard P ks (emit (m_type m) [] evs') =
        match values k raws with
        | [] => []
        | v :: _ => let w := parse_of f (mkCx e mi rel) h (strip v) in speak P ks (about_field k) (fst w ++ match snd w with
              | Ok VNone | Err _ => []
              | Ok x => fst (eval_of f (mkCx e mi rel) (h_set_val (h_add_aux h (aux_of (tag (about_field k) (sec_base tr h) (fst w)))) x))
              end)
        end.
Proof.
  intros HP Hks Hf Hk Hkind Hpr Dp De Rm. unfold field_at in Rm. rewrite a_line_values in Rm. destruct (nonempty (values k raws)) eqn:Ev.
  2: { destruct Rm as [-> ->]. exists m. split; [reflexivity|]. split; [reflexivity|]. split; [intros C; destruct (values k raws); [destruct (C eq_refl)|discriminate]|]. exists (new_handler k). split; [exact Hk|]. destruct (values k raws); [reflexivity|discriminate]. }
  destruct Rm as (h & mi & h' & Fd & Ek & Hl & St & Ff & Os & Pa). set (n := first_name k raws) in *.
  exists mi. split; [apply (front_of_still _ _ St)|]. split; [exact Os|]. split; [intros _; exact Pa|]. exists h.
  assert (Hi : ident any (lower n, new_handler n)) by (exists n; split; [exact I|split; [reflexivity|apply same_id_refl]]).
  assert (Hn : find_class n = f) by (rewrite <- Hk, Ek; symmetry; apply find_class_lower).
  assert (Ha : accepted (m_type (still m)) n = true) by (rewrite <- (accepted_lower _ n), <- Ek; change (m_type (still m)) with (m_type m); rewrite processed_eq; exact Hpr).
  destruct (feeds_got e (still m) rel n _ _ _ _ Hi Fd) as [Hid G]. rewrite Ha in G.
  assert (Hla : late f = true) by (unfold late; rewrite Hkind; reflexivity).
  destruct (fed_late e (still m) rel f n _ Hla Hn Ha _ _ _ Hi Fd) as [E0 E1]. subst evs. cbn [emit fold_left heard filter map app].
  assert (Hc : h_cls h = f) by (destruct Hid as [-> _]; exact Hn). split; [exact Hc|]. assert (Hc0 : h_cls (new_handler n) = f) by exact Hn.
  unfold got in G. rewrite Hc0, Hkind in G. cbn [h_raw new_handler app] in G.
  unfold finish_handler in Ff. rewrite Hc, Hkind in Ff. unfold singleton_finish in Ff. rewrite G in Ff.
  pose proof (lines_values k (m_type m) raws) as L. rewrite values_eq in L. destruct (lines_of k (m_type m) raws) as [|[raw o] more]; [rewrite <- L in Ev; discriminate|].
  cbn [map fst] in L. rewrite <- L. rewrite Hc in Ff.
  set (l1 := match more with [] => [] | _ => _ end) in *. set (l2 := match fa_syntax _ with Some _ => _ | None => _ end) in *.
  assert (Cl : calls_on P (l1 ++ l2)).
  { apply Forall_app. split.
    - unfold l1. destruct more; [constructor|]. constructor; [|constructor]. eexists _, _, _. split; reflexivity.
    - unfold l2. destruct (fa_syntax _); [|constructor]. destruct (match_ws_dollar _ _); [constructor|]. destruct (fa_report _); [|constructor]. constructor; [|constructor]. eexists _, _, _. split; reflexivity. }
  assert (Cs : forall s, speak P ks s (l1 ++ l2) = []).
  { intros s. induction Cl as [|x l (nn & cc & vr & -> & Hx) _ IH]; [reflexivity|]. unfold speak in *. cbn [flat_map utter]. rewrite IH. destruct (P nn) eqn:EP; [|reflexivity]. destruct HP as [X _]. apply X in EP as [EP _]. congruence. }
  rewrite (subject_module f k Hf Hk) in Ff. cbv zeta in Ff |- *. specialize (Dp (mkCx e mi rel) h (strip raw)). destruct (parse_of f (mkCx e mi rel) h (strip raw)) as [l3 r]. cbn [fst snd] in *.
  set (b := sec_base tr h) in *. set (s := about_field k) in *. rewrite app_assoc in Ff.
  rewrite aux_tag_app, (calls_aux P s b _ Cl) in Ff. cbn [app] in Ff.
  assert (Fin : forall l, Forall (direct P) l -> evs' = tag s b ((l1 ++ l2) ++ l) -> map (told ks) (filter (fun n0 => P (n_cls n0)) (emit (m_type m) [] evs')) = speak P ks s l).
  { intros l Hl0 ->. change (map (told ks) (filter (fun n0 => P (n_cls n0)) (emit (m_type m) [] (tag s b ((l1 ++ l2) ++ l))))) with (heard P ks (emit (m_type m) [] (tag s b ((l1 ++ l2) ++ l)))).
    rewrite heard_tag; [rewrite speak_app, Cs; reflexivity|exact Hks|apply own_plain, Hks|apply Forall_app; split; [apply own_ev_direct, (calls_own P), Cl|exact Hl0]]. }
  destruct r as [x|x].
  - unfold prefix_events in Ff. destruct (base_finish _ _ _ _) as [[l4 h4] r4] eqn:Eb. injection Ff as Ev' _ ->. unfold base_finish in Eb.
    set (h5 := h_set_val _ x) in *. assert (H5 : h_cls h5 = f) by exact Hc. assert (V5 : h_val h5 = x) by reflexivity. rewrite V5, H5 in Eb.
    specialize (De (mkCx e mi rel) h5). unfold finish_eval in Eb. destruct (eval_of f (mkCx e mi rel) h5) as [le re]. cbn [fst] in *.
    apply Fin; [apply Forall_app; split; [exact Dp|]; destruct x; first [exact De|constructor]|].
    rewrite <- Ev'. unfold tag. rewrite app_assoc, (map_app _ ((l1 ++ l2) ++ l3)). f_equal.
    destruct x; first [destruct re; injection Eb as <- _; reflexivity | injection Eb as <- _; reflexivity].
  - rewrite app_nil_r. destruct (is_ValueError x); [|discriminate]. injection Ff as <- _. apply Fin; [exact Dp|reflexivity].
Qed.
