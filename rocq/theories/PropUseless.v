(** * C65: fields that can be removed. *)
From Coq Require Import Lia ZifyBool.
From Verif Require Import PyStr Regex Grammar NoteTable Note PyLib Utils FieldAttrs Types Fields1 Fields2 Fields3 Framework Checks Message
  EvLogic NoteLemmas TestEnv LexLemmas ParamLemmas NumLemmas NameLemmas FrameLemmas ContentLemmas BodyLemmas PassParse PassEval PassFrame PassSec PassProc PassRun Session SessionLemmas
  SectionLemmas SecNotes SecValues LintLemmas FieldSpec PropFields PropValues PropNames PropParse OwnLemmas ListSpec PropLists PropCC ListExamples FieldExamples PropInts FieldDue OwnTac OwnMore KidSpec OwnFull OwnAt
  GroupRun ClockSpec UselessSpec.
From Verif Require PropOrder.
Open Scope N_scope.

Definition UP : nid -> bool := classes [UNNECESSARY_HEADER].
Definition UG : list fname := [F_tcn; F__unnecessary].
Definition uks : list str := [u "header_name"].
Lemma ours_U : ours UP UG. Proof. apply ours_b_ok. vm_compute. reflexivity. Qed.
Lemma quiet_U : quiet UP. Proof. apply quiet_b_ok. vm_compute. reflexivity. Qed.

(** ** One line *)
Definition utale (s w : str) : tale := (UNNECESSARY_HEADER, s, [Some (VStr w)]).
Lemma member_u c h v : In (h_cls h) UG -> exists o, list_member c h v = ([ENote UNNECESSARY_HEADER None [vs "header_name" (h_wire h)] []], Ok o).
Proof.
  intros H. unfold list_member, list_syntax. cbn [In UG] in H. destruct H as [<-|[<-|[]]]; eexists; reflexivity.
Qed.
Lemma input_u t c s l : forall h evs h' r, In (h_cls h) UG -> list_input c s h l = (evs, h', r) ->
  Forall (calm_ev UP) evs /\ heard UP uks (emit t [] evs) = map (fun _ => utale s (h_wire h)) l.
Proof.
  induction l as [|v l IH]; intros h evs h' r Hh E; cbn [list_input] in E.
  - injection E as <- _ _. split; [constructor|reflexivity].
  - destruct (member_u c h v Hh) as (o & Em). rewrite Em in E. cbv zeta in E.
    set (h1 := h_add_aux h _) in E. set (h2 := match o with Some x => append_val h1 x | None => h1 end) in E.
    assert (H2 : h_cls h2 = h_cls h /\ h_wire h2 = h_wire h).
    { unfold h2. destruct o as [x|]; [|split; reflexivity]. unfold append_val. destruct (h_val h1); split; reflexivity. }
    destruct H2 as [H2 H3]. destruct (list_input c s h2 l) as [[evs2 h3] r2] eqn:El. injection E as <- _ _.
    destruct (IH h2 evs2 h3 r2 ltac:(rewrite H2; exact Hh) El) as [C1 C2]. rewrite H3 in C2.
    assert (D : Forall (direct UP) [ENote UNNECESSARY_HEADER None [vs "header_name" (h_wire h)] []]) by (repeat constructor).
    pose proof (direct_calm UP _ s (line_base h) D) as DC. cbn [tag map] in DC.
    split; [constructor; [inversion DC; assumption|exact C1]|].
    match goal with |- context [emit t [] (?x :: evs2)] => change (x :: evs2) with (tag s (line_base h) [ENote UNNECESSARY_HEADER None [vs "header_name" (h_wire h)] []] ++ evs2) end.
    cbn [map]. rewrite emit_app, heard_sel, emit_sel_add by exact C1. rewrite map_app, <- !heard_sel, C2, heard_tag; [reflexivity|reflexivity|apply own_plain; [exact true|reflexivity]|exact D].
Qed.

Definition U_line (t : mtype) (all : list rawline) (rn : rawline * nat) : list tale :=
  if existsb (fname_eqb (find_class (name_of (fst rn)))) UG && processed t (name_of (fst rn)) then
    map (fun _ => utale (at_offset (snd rn)) (spelling (key_of (fst rn)) all)) (split_list_field (value_of (fst rn))) else [].
Lemma existsb_In g G : existsb (fname_eqb g) G = true <-> In g G.
Proof.
  rewrite existsb_exists. split; [intros (x & H & E); apply fname_eqb_eq in E; subst; exact H|]. intros H. exists g. split; [exact H|apply fname_eqb_eq; reflexivity].
Qed.
(** What each handler knows: the first line's spelling of its name. *)
Definition wires (done : list rawline) (hs : dict handler) : Prop :=
  (forall k h, dget k hs = Some h -> h_wire h = spelling k done /\ nonempty (values k done) = true) /\ forall k, dget k hs = None -> values k done = [].
Lemma spelling_more k done rest : nonempty (values k done) = true -> spelling k (done ++ rest) = spelling k done.
Proof.
  unfold spelling, values. induction done as [|r done IH]; [discriminate|]. cbn [app find filter]. destruct (str_eqb (key_of r) k); [reflexivity|exact IH].
Qed.
Lemma spelling_new k done r rest : values k done = [] -> key_of r = k -> spelling k (done ++ r :: rest) = strip (name_of r).
Proof.
  unfold spelling, values. intros H Hr. induction done as [|r0 done IH]; cbn [app find filter] in *; [rewrite Hr, str_eqb_refl; reflexivity|].
  destruct (str_eqb (key_of r0) k); [discriminate H|]. apply IH, H.
Qed.
Lemma values_app k a b : values k (a ++ b) = values k a ++ values k b.
Proof. unfold values. rewrite filter_app, map_app. reflexivity. Qed.

Lemma lines_u e rel tr rest : forall done m o m', sinv any (m_type m) (sec tr m) -> wires done (s_handlers (sec tr m)) ->
  field_lines e rel tr m o rest = (m', Ok tt) ->
  heard UP uks (m_notes m') = heard UP uks (m_notes m) ++ flat_map (U_line (m_type m) (done ++ rest)) (numbered (m_type m) o rest).
Proof.
  induction rest as [|raw rest IH]; intros done m o m' Hs W E; cbn [field_lines] in E; [injection E as <-; cbn [numbered flat_map]; rewrite app_nil_r; reflexivity|].
  destruct (field_line e rel tr m o raw) as [[m1 o1] [[]|x]] eqn:E1; [|discriminate].
  pose proof Hs as [_ Hf]. pose proof (Forall_impl _ (fun a Ha => proj2 Ha) Hf) as Hi. cbv beta in Hi.
  destruct (line_step e rel tr m o raw m1 o1 Hi E1) as (l3 & l4 & h2 & Et & Eo & Em & Hi1).
  destruct (line_notes e rel tr m o raw m1 o1 Hs E1) as (l3' & l4' & h2' & Et' & F4 & _ & _ & S1 & T1).
  rewrite Et in Et'. injection Et' as <- <- <-.
  set (h := own_handler (s_handlers (sec tr m)) raw) in *. pose proof (own_handler_ident _ raw Hi) as Hh. fold h in Hh.
  pose proof (ident_find _ _ (raw_name raw) Hh eq_refl) as Ec. pose proof (own_hpre (m_type m) _ raw Hf) as Hpre. fold h in Hpre.
  destruct (pre_fw (m_type m) _ h (raw_name raw) Hh eq_refl) as [F3 _]. destruct (enc_fw raw) as [F1 _]. destruct (size_fw h raw) as [F5 _].
  assert (Hw : h_wire h = spelling (key_of raw) (done ++ raw :: rest)).
  { unfold h, own_handler. rewrite key_eq. destruct (dget (key_of raw) (s_handlers (sec tr m))) as [h0|] eqn:Ed.
    - destruct (proj1 W _ _ Ed) as [-> Hv]. symmetry. apply spelling_more, Hv.
    - rewrite (spelling_new _ _ _ _ (proj2 W _ Ed) eq_refl), <- name_eq. reflexivity. }
  assert (W1 : wires (done ++ [raw]) (s_handlers (sec tr m1))).
  { assert (Eh : s_handlers (sec tr m1) = dset (raw_key raw) h2 (s_handlers (sec tr m))) by (rewrite Em; destruct tr; reflexivity).
    rewrite Eh, key_eq. pose proof (taken_id e (still m) rel h (raw_value raw) o) as Ti. rewrite Et in Ti. cbn [fst snd] in Ti. destruct Ti as (_ & Ti & _).
    assert (V1 : values (key_of raw) [raw] = [value_of raw]) by (unfold values; cbn [filter]; rewrite str_eqb_refl; reflexivity).
    split; intros k; rewrite dget_dset; destruct (str_eqb k (key_of raw)) eqn:Ek.
    - apply str_eqb_eq in Ek. subst k. intros h0 X. injection X as <-. rewrite values_app, V1. split; [|destruct (values (key_of raw) done); reflexivity].
      rewrite Ti, Hw. destruct (dget (key_of raw) (s_handlers (sec tr m))) as [h0|] eqn:Ed.
      + destruct (proj1 W _ _ Ed) as [_ Hv]. rewrite !spelling_more by exact Hv. reflexivity.
      + rewrite !(spelling_new _ _ _ _ (proj2 W _ Ed) eq_refl). reflexivity.
    - intros h0 X. destruct (proj1 W _ _ X) as [Y1 Y2]. rewrite values_app. split; [rewrite spelling_more; assumption|]. destruct (values k done); [discriminate|reflexivity].
    - discriminate.
    - intros X. rewrite values_app, (proj2 W _ X). unfold values. cbn [filter]. rewrite str_eqb_sym, Ek. reflexivity. }
  specialize (IH (done ++ [raw]) m1 o1 m'). rewrite T1, <- app_assoc in IH. cbn [app] in IH. rewrite (IH S1 W1 E). clear IH.
  cbn [numbered flat_map]. rewrite Eo, name_eq, processed_eq, app_assoc. f_equal.
  assert (Mn : m_notes m1 = emit (m_type m) (m_notes m) (tag (offset_subj o) [] (enc_events raw) ++ tag (offset_subj o) (line_base h) l3 ++ l4
                    ++ (if accepted (m_type m) (raw_name raw) then tag (offset_subj o) [] (size_events h raw) else []))) by (rewrite Em; destruct tr; reflexivity).
  pose proof ours_U as HP.
  assert (E3 : l3 = snd (fst (pre_check (m_type m) h)) /\ Forall (calm_ev UP) l4 /\ heard UP uks (emit (m_type m) [] l4) = U_line (m_type m) (done ++ raw :: rest) (raw, o)).
  { unfold U_line. cbn [fst snd]. pose proof (pre_check_pass (m_type m) h Hpre) as PP. unfold taken in Et. rewrite still_type in Et. rewrite <- processed_eq, <- name_eq.
    destruct (pre_check (m_type m) h) as [[h1 l3'] go]. destruct PP as (_ & _ & _ & _ & _ & Hgo & _). destruct go.
    - destruct (Hgo eq_refl) as [_ ->]. destruct (handle_input (mkCx e (still m) rel) h (raw_value raw) o) as [[l4' h2'] r] eqn:HI. injection Et as A3 A4 A5 A6 _. cbn [fst snd].
      split; [symmetry; exact A3|]. rewrite <- A6, Bool.andb_true_r, <- A4. destruct (existsb (fname_eqb (find_class (raw_name raw))) UG) eqn:EG.
      + apply existsb_In in EG. rewrite <- Ec in EG. unfold handle_input in HI. assert (K : kind_of (h_cls h) = KList) by (cbn [In UG] in EG; destruct EG as [<-|[<-|[]]]; reflexivity).
        rewrite K in HI. rewrite <- Hw, <- value_eq. apply (input_u (m_type m) _ _ _ _ _ _ _ EG HI).
      + assert (N : ~ In (find_class (raw_name raw)) UG) by (rewrite <- existsb_In, EG; discriminate). rewrite <- A4 in F4.
        pose proof (ours_off UP UG inner _ l4' HP inner_framework N F4) as Off. split.
        * eapply Forall_impl; [|exact Off]. intros [[sj bs] ev] Hv. unfold not_cls, calm_ev in *. cbn [snd] in *. destruct ev; auto. cbn [ev_cls] in Hv. inversion Hv as [|? ? X1 X2]; subst. inversion X2; subst. auto.
        * rewrite heard_sel, (emit_sel UP (m_type m) l4' [] Off). reflexivity.
    - injection Et as A3 A4 _ A6. cbn [fst snd]. split; [symmetry; exact A3|]. rewrite <- A6, Bool.andb_false_r, <- A4. split; [constructor|reflexivity]. }
  destruct E3 as (E3 & C4 & N4). rewrite <- E3 in F3.
  rewrite Mn, heard_sel, !emit_app. rewrite (emit_sel UP _ (if accepted _ _ then _ else _)) by (destruct (accepted _ _); [apply (ours_fw UP UG); assumption|constructor]).
  rewrite emit_sel_add by exact C4. rewrite map_app, <- !heard_sel, N4. f_equal. rewrite heard_sel, emit_sel by (apply (ours_fw UP UG); assumption). rewrite emit_sel by (apply (ours_fw UP UG); assumption). reflexivity.
Qed.

(** ** A section *)
Lemma plain_U g : In g UG -> plain_eval g.
Proof. cbn [In UG]. intros [<-|[<-|[]]]; repeat split; intros; cbn; constructor. Qed.
Lemma settled_U : Forall settled UG.
Proof. apply Forall_forall. intros g Hg. apply settled_quick; [cbn [In UG] in Hg; destruct Hg as [<-|[<-|[]]]; reflexivity|apply plain_U, Hg]. Qed.
Lemma finish_u c s b h l h2 r : In (h_cls h) UG -> finish_handler c s b h = (l, h2, r) -> l = [].
Proof.
  intros H E. unfold finish_handler in E. cbn [In UG] in H. destruct H as [H|[H|[]]]; rewrite <- H in E; change (kind_of _) with KList in E; unfold base_finish in E; rewrite <- H in E;
    destruct (h_val h); cbn in E; injection E as <- _ _; reflexivity.
Qed.
Lemma flat_none0 {A B} (F : A -> list B) l : (forall x, In x l -> F x = []) -> flat_map F l = [].
Proof. induction l as [|x l IH]; intros H; [reflexivity|]. cbn [flat_map]. rewrite (H x (or_introl eq_refl)), IH; [reflexivity|]. intros y Hy. apply H. right. exact Hy. Qed.
Lemma section_u e rel tr m raws m' : sec tr m = new_section tr -> process e rel tr m raws = (m', Ok tt) ->
  heard UP uks (m_notes m') = heard UP uks (m_notes m) ++ flat_map (U_line (m_type m) raws) (numbered (m_type m) 0 raws).
Proof.
  intros Hs E0. destruct (process_lines e rel tr m raws m' Hs E0) as (m1 & E1 & T1 & St & E2 & S1 & Ks & Hh & Ef).
  assert (S0 : sinv any (m_type m) (sec tr m)) by (rewrite Hs; split; constructor).
  assert (W0 : wires [] (s_handlers (sec tr m))) by (rewrite Hs; split; [discriminate|reflexivity]).
  pose proof (lines_u e rel tr raws [] m 0%nat m1 S0 W0 E1) as N1. cbn [app] in N1. set (m2 := section_size tr m1) in *.
  assert (T2 : m_type m2 = m_type m) by (unfold m2, section_size; destruct (_ <? _); exact T1).
  assert (N2 : sel UP (m_notes m2) = sel UP (m_notes m1)).
  { unfold m2, section_size. destruct (_ <? _); [|reflexivity]. rewrite notes_emit. apply emit_sel. constructor; [|constructor]. repeat constructor. }
  destruct S1 as [Hn Hl]. pose proof Hl as Hl2. rewrite <- T2 in Hl2.
  assert (Kk : keys (s_handlers (sec tr m2)) = keys (s_handlers (sec tr m1))) by (rewrite E2; reflexivity).
  destruct (finish_all_group UP UG e rel tr _ ours_U settled_U m2 m' Hn Hl2 (or_introl Kk) Ef) as (E & N3 & K3 & R).
  rewrite <- N1, !heard_sel. rewrite N3, N2, (flat_none0 _ (keys (s_handlers (sec tr m1)))); [rewrite app_nil_r; reflexivity|].
  intros k Hk. apply in_map_iff in Hk as ([k' h] & Ek' & Hin). cbn [fst] in Ek'. subst k'. destruct (R k h Hin) as (Off & mi & h' & Eh & _).
  destruct (existsb (fname_eqb (h_cls h)) UG) eqn:EG.
  - apply existsb_In in EG. rewrite (finish_u _ _ _ _ _ _ _ EG Eh). reflexivity.
  - apply Off. rewrite <- existsb_In, EG. discriminate.
Qed.

(** ** Names *)
Lemma find_U k : existsb (fname_eqb (find_class k)) UG = one_of removable (lower k).
Proof.
  apply Bool.eq_iff_eq_true. rewrite existsb_In. unfold one_of. rewrite existsb_exists. split.
  - cbn [In UG]. intros [H|[H|[]]].
    + exists "tcn"%string. split; [left; reflexivity|]. symmetry in H. apply C12_class in H; [|vm_compute; tauto]. destruct H as [H|[]].
      apply str_eqb_eq. change (u (fa_module (attrs F_tcn))) with (u "tcn") in H. unfold token_of in H. revert H. generalize (lower k). intros l H.
      assert (L : forall a l, map (fun c => if c =? 45 then 95 else c) l = a -> forallb (fun c => negb (c =? 95)) a = true -> l = a).
      { clear. induction a as [|x a IH]; intros [|y l] E F; try discriminate; [reflexivity|]. cbn [map forallb] in *. apply andb_prop in F as [F1 F2]. injection E as E1 E2.
        rewrite (IH l E2 F2). destruct (y =? 45); [subst x; discriminate F1|]. rewrite E1. reflexivity. }
      apply (L _ _ (eq_sym H)). reflexivity.
    + symmetry in H. unfold find_class in H. destruct (find_module k) as [g|] eqn:Em.
      * exfalso. subst g. unfold find_module in Em. destruct (startswith _ _); [discriminate|]. apply find_some in Em as [Em _]. revert Em. vm_compute. intuition discriminate.
      * destruct (dmem _ _); [discriminate|]. destruct (str_in (lower k) (map u unnecessary_fields)) eqn:Ei; [|discriminate]. apply str_in_In, in_map_iff in Ei as (x & Ex & Hx).
        exists x. split; [|rewrite <- Ex; apply str_eqb_refl]. right. exact Hx.
  - intros (x & Hx & E). apply str_eqb_eq in E.
    assert (X : forallb (fun x => existsb (fname_eqb (find_class (u x))) UG) removable = true) by (vm_compute; reflexivity).
    rewrite forallb_forall in X. specialize (X x Hx). cbv beta in X. rewrite existsb_In in X. rewrite <- E in X. rewrite find_class_lower in X. exact X.
Qed.
Lemma U_says t l : flat_map (U_line t l) (numbered t 0 l) = removable_says t l.
Proof. unfold removable_says. apply flat_map_ext. intros [r o]. unfold U_line. cbn [fst snd]. rewrite find_U. reflexivity. Qed.
Lemma posted_U t l : Forall (posted t) l -> Forall (not_cls UP) l.
Proof.
  apply Forall_impl. intros [[subj base] e] (g & Hg & _ & He & _). unfold not_cls. cbn [snd] in *.
  assert (X : own g UNNECESSARY_HEADER = false) by (destruct g; try discriminate Hg; reflexivity).
  assert (Y : forall n, own g n = true -> UP n = false).
  { intros n Hn. unfold UP, classes. cbn [existsb]. rewrite Bool.orb_false_r. destruct (nid_eqb n UNNECESSARY_HEADER) eqn:E; [|reflexivity]. apply nid_eqb_eq in E. subst n. congruence. }
  destruct e; cbn [ev_cls fev] in *; repeat constructor; apply Y; apply He.
Qed.
(** ** The run *)
Theorem C65_removable : forall e rel top headers chunks complete trailers t start nc head base m' rel',
  lint e rel top headers chunks complete trailers (new_linter t start nc head base) = (m', rel', Ok tt) ->
  heard (classes [UNNECESSARY_HEADER]) [u "header_name"] (m_notes m') = removable_says t headers ++ removable_says t trailers.
Proof.
  intros e rel top headers chunks complete trailers t start nc head base m' rel' E. change (heard UP uks (m_notes m') = removable_says t headers ++ removable_says t trailers).
  destruct (lint_sections _ _ _ _ _ _ _ _ _ _ _ _ _ _ E) as (mh & mh' & mt & mt' & S).
  destruct S as (H1 & H2 & H3 & T1 & T2 & T3 & H4 & C1 & C2 & Th & Tt & N & evs & Q & N2).
  destruct (N UP quiet_U) as [N0 N1]. specialize (N2 UP quiet_U). pose proof (posted_U t evs Q) as Off.
  assert (X : sel UP (m_notes m') = sel UP (m_notes mt')).
  { rewrite N2 by (eapply Forall_impl; [|exact Off]; auto). apply emit_sel, Off. }
  pose proof (section_u e rel false mh headers mh' H1 H2) as A. pose proof (section_u e rel true mt trailers mt' T1 T2) as B.
  rewrite Th, U_says, heard_sel, heard_sel, N0 in A. rewrite Tt, U_says, heard_sel, heard_sel, N1 in B.
  rewrite heard_sel, X, B, A. reflexivity.
Qed.
Print Assumptions C65_removable.
(** ** Examples *)
Definition removable_notes (t : mtype) (hs trs : list (string * string)) := let '(m, _, r) := lint env0 None (TopResponse (u "1.1") (u "200") None) (raws hs) [] true (raws trs) (new_linter t None false false (u "http://e/")) in
  (r, heard UP uks (m_notes m)).
Example C65_ex : removable_notes MResponse [("Date", "x"); ("X-Powered-By", "PHP, ASP"); ("tcn", "list"); ("x-powered-BY", "me"); ("X-Runtime", "")]%string [("TCN", "a")]%string
  = (Ok tt, [utale (u "offset-1") (u "X-Powered-By"); utale (u "offset-1") (u "X-Powered-By"); utale (u "offset-2") (u "tcn"); utale (u "offset-3") (u "X-Powered-By"); utale (u "offset-0") (u "TCN")]).
Proof. vm_compute. reflexivity. Qed.
Example C65_ex_request : removable_notes MRequest [("TCN", "a"); ("x powered", "b"); ("X-Varnish", "1")]%string [] = (Ok tt, [utale (u "offset-0") (u "X-Varnish")]).
Proof. vm_compute. reflexivity. Qed.
