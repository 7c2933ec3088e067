(** * Fields in the wrong kind of message report nothing of their own. *)
From Verif Require Import PyStr Regex Grammar NoteTable Note PyLib Utils FieldAttrs Types Fields1 Fields2 Fields3 Framework Checks Message
  EvLogic NoteLemmas NameLemmas FrameLemmas PassParse PassEval PassFrame PassSec PassProc PassRun Session SessionLemmas SectionLemmas SecNotes SecValues LintLemmas.
Open Scope N_scope.

(** The classes [P] belong to fields that do not belong in messages of type [t]. *)
Definition strange (t : mtype) (P : nid -> bool) : Prop :=
  forall n, P n = true -> framework n = false /\ forall g, own g n = true -> wrong t g = true /\ kind_of g <> KBroken.
Lemma strange_fw t P subj base l : strange t P -> Forall fw_note l -> Forall (not_cls P) (tag subj base l).
Proof.
  intros HP H. unfold tag. apply Forall_map. eapply Forall_impl; [|exact H]. intros e (n & cat & vrs & -> & Hn).
  unfold not_cls. cbn [snd ev_cls]. constructor; [|constructor]. destruct (P n) eqn:E; [|reflexivity]. apply HP in E as [E _]. congruence.
Qed.
Lemma strange_off t P f l : strange t P -> wrong t f = false \/ kind_of f = KBroken -> Forall (fsevi f) l -> Forall (not_cls P) l.
Proof.
  intros HP Hf. apply Forall_impl. intros s Hs. apply fsevg_cls in Hs. unfold not_cls. eapply Forall_impl; [|exact Hs].
  intros n [Hn|Hn]; destruct (P n) eqn:E; try reflexivity; apply HP in E as [E1 E2].
  - rewrite (inner_framework n Hn) in E1. discriminate.
  - apply E2 in Hn as [H1 H2]. destruct Hf; [congruence|destruct (H2 H)].
Qed.
Lemma taken_wrong e V rel h v o l3 l4 h2 go r : taken e V rel h v o = (l3, l4, h2, go, r) -> go = false -> l4 = [].
Proof.
  unfold taken. destruct (pre_check _ _) as [[h1 l] [|]]; [destruct (handle_input _ _ _ _) as [[? ?] ?]|]; intros E ->; [discriminate|].
  injection E as _ <- _ _. reflexivity.
Qed.
Lemma lines_strange P e rel tr raws : forall m o m', strange (m_type m) P -> sinv any (m_type m) (sec tr m) ->
  field_lines e rel tr m o raws = (m', Ok tt) -> sel P (m_notes m') = sel P (m_notes m).
Proof.
  induction raws as [|raw raws IH]; intros m o m' HP Hs E; cbn [field_lines] in E; [injection E as <-; reflexivity|].
  destruct (field_line e rel tr m o raw) as [[m1 o1] [[]|x]] eqn:E1; [|discriminate].
  pose proof Hs as [_ Hf]. pose proof (Forall_impl _ (fun a Ha => proj2 Ha) Hf) as Hi. cbv beta in Hi.
  destruct (line_step e rel tr m o raw m1 o1 Hi E1) as (l3 & l4 & h2 & Et & _ & Em & _).
  destruct (line_notes e rel tr m o raw m1 o1 Hs E1) as (l3' & l4' & h2' & Et' & F4 & _ & _ & S1 & T1).
  rewrite Et in Et'. injection Et' as <- <- <-.
  set (h := own_handler (s_handlers (sec tr m)) raw) in *.
  pose proof (own_handler_ident _ raw Hi) as Hh. fold h in Hh.
  destruct (pre_fw (m_type m) _ h (raw_name raw) Hh eq_refl) as [F3 _]. destruct (enc_fw raw) as [F1 _]. destruct (size_fw h raw) as [F5 _].
  assert (E3 : snd (fst (pre_check (m_type m) h)) = l3).
  { unfold taken in Et. rewrite still_type in Et. destruct (pre_check (m_type m) h) as [[h1 l] [|]]; [destruct (handle_input _ _ _ _) as [[? ?] ?]|]; injection Et as -> _ _ _; reflexivity. }
  rewrite E3 in F3.
  rewrite (IH m1 o1 m') by (rewrite ?T1; assumption).
  assert (Mn : m_notes m1 = emit (m_type m) (m_notes m) (tag (offset_subj o) [] (enc_events raw) ++ tag (offset_subj o) (line_base h) l3 ++ l4
                    ++ (if accepted (m_type m) (raw_name raw) then tag (offset_subj o) [] (size_events h raw) else [])))
    by (rewrite Em; destruct tr; reflexivity).
  rewrite Mn. apply emit_sel. repeat (apply Forall_app; split).
  - apply (strange_fw _ _ _ _ _ HP F1).
  - apply (strange_fw _ _ _ _ _ HP F3).
  - destruct (accepted (m_type m) (raw_name raw)) eqn:Ea.
    + apply (strange_off _ _ _ _ HP) with (2 := F4). left. unfold accepted in Ea. apply andb_prop in Ea as [Ea _]. apply Bool.negb_true_iff, Ea.
    + rewrite (taken_wrong _ _ _ _ _ _ _ _ _ _ _ Et eq_refl). constructor.
  - destruct (accepted _ _); [apply (strange_fw _ _ _ _ _ HP F5)|constructor].
Qed.
(** A handler without a value is finished at once. *)
Lemma finish_idle c subj base h evs h' r : kind_of (h_cls h) <> KBroken -> h_raw h = [] -> h_val h = VNone ->
  finish_handler c subj base h = (evs, h', r) -> evs = [].
Proof.
  intros K Hr Hv. unfold finish_handler, base_finish, singleton_finish, sf_finish, json_finish. rewrite Hr, Hv. cbn [truthy negb].
  destruct (kind_of (h_cls h)); intros E; try (destruct (K eq_refl)); injection E as <- _ _; reflexivity.
Qed.
Definition idle (t : mtype) (kh : str * handler) : Prop :=
  wrong t (h_cls (snd kh)) = true -> kind_of (h_cls (snd kh)) <> KBroken -> h_raw (snd kh) = [] /\ h_val (snd kh) = VNone.
Lemma finish_strange P e rel tr l : forall m m', strange (m_type m) P -> Forall (lined (m_type m)) l -> Forall (idle (m_type m)) l ->
  finish_all e rel tr m l = (m', Ok tt) -> sel P (m_notes m') = sel P (m_notes m).
Proof.
  induction l as [|[k h] l IH]; intros m m' HP Hl Hd E; cbn [finish_all] in E; [injection E as <-; reflexivity|].
  inversion Hl as [|? ? Hl1 Hl2]; subst. inversion Hd as [|? ? Hd1 Hd2]; subst.
  destruct (finish_one e rel tr m (k, h)) as [m1 [[]|x]] eqn:E1; [|discriminate].
  destruct (finish_one_facts e rel tr m k h m1 Hl1 E1) as (evs & h' & Eh & _ & F & _ & N1 & _ & _ & _ & _ & _ & _ & _ & T1).
  rewrite (IH m1 m') by (rewrite ?T1; assumption). rewrite N1. apply emit_sel.
  destruct (wrong (m_type m) (h_cls h)) eqn:W; [|apply (strange_off _ _ _ _ HP (or_introl W) F)].
  destruct (kind_of (h_cls h)) eqn:K; try (rewrite (finish_idle _ _ _ _ _ _ _ ltac:(rewrite K; discriminate) (proj1 (Hd1 W ltac:(cbn [snd]; rewrite K; discriminate))) (proj2 (Hd1 W ltac:(cbn [snd]; rewrite K; discriminate))) Eh); constructor).
  apply (strange_off _ _ _ _ HP (or_intror K) F).
Qed.
Lemma process_strange P e rel tr m raws m' : strange (m_type m) P -> sec tr m = new_section tr -> process e rel tr m raws = (m', Ok tt) ->
  sel P (m_notes m') = sel P (m_notes m).
Proof.
  intros HP Hs E. destruct (process_lines e rel tr m raws m' Hs E) as (m1 & E1 & T1 & St & E2 & S1 & Ks & Hh & Ef).
  assert (S0 : sinv any (m_type m) (sec tr m)) by (rewrite Hs; split; constructor).
  assert (T2 : m_type (section_size tr m1) = m_type m) by (unfold section_size; destruct (_ <? _); exact T1).
  destruct S1 as [Hn Hl].
  rewrite (finish_strange P e rel tr _ (section_size tr m1) m') with (4 := Ef).
  - transitivity (sel P (m_notes m1)); [|apply (lines_strange P e rel tr raws m 0%nat m1 HP S0 E1)].
    unfold section_size. destruct (_ <? _); [|reflexivity]. apply (emit_sel P). constructor; [|constructor]. unfold not_cls. cbn [snd ev_cls].
    constructor; [|constructor]. destruct (P _) eqn:EP; [|reflexivity]. apply HP in EP as [EP _]. discriminate EP.
  - rewrite T2. exact HP.
  - rewrite T2. exact Hl.
  - rewrite T2. apply Forall_forall. intros [k h] Hi W K. cbn [snd] in *. destruct (Hh k h Hi) as (evs & Ek & (r & Hr & Hrn & Hrk) & Hf).
    set (n := first_name k raws) in *.
    assert (Hi0 : ident any (lower n, new_handler n)) by (exists n; split; [exact I|split; [reflexivity|apply same_id_refl]]).
    destruct (feeds_got e (still m) rel n _ _ _ _ Hi0 Hf) as [Hid0 G].
    assert (Hc1 : h_cls h = find_class n) by (destruct Hid0 as [-> _]; reflexivity).
    rewrite Hc1 in W. rewrite still_type in G. unfold accepted in G. rewrite W in G. cbn [negb andb] in G.
    destruct G as (G1 & G2 & G3). cbn [new_handler h_raw h_val] in G1, G3. split; [exact G1|]. rewrite G3.
    assert (NE : lines_of k (m_type m) raws <> []).
    { assert (HR : exists r, In r raws /\ raw_key r = k) by eauto.
      pose proof (values_nonempty k raws HR) as NE. rewrite <- (lines_values k (m_type m) raws) in NE. intros C. apply NE. rewrite C. reflexivity. }
    destruct (lines_of k (m_type m) raws); [destruct (NE eq_refl)|reflexivity].
Qed.
Lemma posted_strange t P l : strange t P -> Forall (posted t) l -> Forall (not_cls P) l.
Proof.
  intros HP. apply Forall_impl. intros [[subj base] e] (g & Hg & Hw & He & _). unfold not_cls. cbn [snd] in *.
  assert (O : forall n, own g n = true -> P n = false).
  { intros n Hn. destruct (P n) eqn:E; [|reflexivity]. apply HP in E as [_ E]. apply E in Hn as [Hn _]. congruence. }
  destruct e; cbn [ev_cls fev] in *; repeat constructor; apply O; apply He.
Qed.
Theorem lint_strange P e rel top headers chunks complete trailers t start nc head base m' rel' :
  lint e rel top headers chunks complete trailers (new_linter t start nc head base) = (m', rel', Ok tt) ->
  strange t P -> quiet P -> sel P (m_notes m') = [].
Proof.
  intros E HP HQ. destruct (lint_sections _ _ _ _ _ _ _ _ _ _ _ _ _ _ E) as (mh & mh' & mt & mt' & S).
  destruct S as (H1 & H2 & H3 & T1 & T2 & T3 & _ & C1 & C2 & Th & Tt & N & evs & Q & N2).
  destruct (N P HQ) as [N0 N1]. pose proof (posted_strange t P evs HP Q) as Off. rewrite (N2 P HQ).
  - rewrite (emit_sel P t evs _ Off), (process_strange P e rel true mt trailers mt'), N1, (process_strange P e rel false mh headers mh'), N0; try assumption; try reflexivity.
    + rewrite Th. exact HP.
    + rewrite Tt. exact HP.
  - eapply Forall_impl; [|exact Off]. intros s Hs. right. exact Hs.
Qed.
Definition strange_b (t : mtype) (P : nid -> bool) : bool :=
  forallb (fun n => if P n then
      if framework n then false
      else forallb (fun g => if own g n then if wrong t g then match kind_of g with KBroken => false | _ => true end else false else true)
             (F__deprecated :: F__unnecessary :: F__unknown :: module_fields)
    else true) all_nids.
Lemma strange_b_ok t P : strange_b t P = true -> strange t P.
Proof.
  unfold strange_b. intros H n Hn. rewrite forallb_forall in H.
  specialize (H n (all_nids_complete n)). rewrite Hn in H. destruct (framework n) eqn:H1; [discriminate|].
  split; [reflexivity|]. intros g Hg. rewrite forallb_forall in H. specialize (H g). rewrite Hg in H.
  assert (X : (if wrong t g then match kind_of g with KBroken => false | _ => true end else false) = true).
  { apply H. cbn [In]. destruct (module_fields_complete g) as [->|[->|[->|Hi]]]; auto. }
  destruct (wrong t g); [|discriminate]. split; [reflexivity|]. intros K. rewrite K in X. discriminate.
Qed.
