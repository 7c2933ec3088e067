(** * The notes about one field of a group, with those of the checks at the end (support). *)
From Coq Require Import Lia.
From Verif Require Import PyStr Regex Grammar NoteTable Note PyLib Utils FieldAttrs Types Fields1 Fields2 Fields3 Framework Checks Message
  EvLogic NoteLemmas TestEnv LexLemmas ParamLemmas NumLemmas NameLemmas FrameLemmas ContentLemmas BodyLemmas PassParse PassEval PassFrame PassSec PassProc PassRun Session SessionLemmas
  SectionLemmas SecNotes SecValues LintLemmas FieldSpec PropFields PropValues PropNames PropParse OwnLemmas ListSpec PropLists PropCC ListExamples FieldExamples PropInts FieldDue OwnTac OwnMore KidSpec OwnFull
  PassSF SFSpec PropSF GroupRun.
From Verif Require PropOrder.
Open Scope N_scope.

(** Notes of [P] with a subject in [S]. *)
Definition selS (P : nid -> bool) (S : str -> bool) (ns : list note) : list note := filter (fun n => S (n_subj n)) (sel P ns).
Lemma selS_app P S a b : selS P S (a ++ b) = selS P S a ++ selS P S b.
Proof. unfold selS. rewrite sel_app. apply filter_app. Qed.
Lemma selS_flat {A} P S (F : A -> list note) l : filter (fun n => S (n_subj n)) (flat_map (fun a => sel P (F a)) l) = flat_map (fun a => selS P S (F a)) l.
Proof. induction l as [|a l IH]; [reflexivity|]. cbn [flat_map]. rewrite filter_app, IH. reflexivity. Qed.
(** All notes of tagged events have the tag's subject. *)
Lemma emit_subj t s b l : Forall own_ev l -> Forall (fun n => n_subj n = s) (emit t [] (tag s b l)).
Proof.
  assert (G : forall l ns, Forall own_ev l -> Forall (fun n => n_subj n = s) ns -> Forall (fun n => n_subj n = s) (emit t ns (tag s b l))).
  { clear l. induction l as [|e l IH]; intros ns H Hn; [exact Hn|]. inversion H as [|? ? He Hl]; subst. cbn [tag map emit fold_left]. apply IH; [exact Hl|]. unfold emit_one.
    destruct e; try (destruct He; fail); cbn [own_ev] in *; try exact Hn. apply Forall_app. split; [exact Hn|]. constructor; [reflexivity|constructor]. }
  intros H. apply G; [exact H|constructor].
Qed.
Lemma selS_tag P (S : str -> bool) t s b l : Forall own_ev l -> selS P S (emit t [] (tag s b l)) = if S s then sel P (emit t [] (tag s b l)) else [].
Proof.
  intros H. unfold selS. pose proof (emit_subj t s b l H) as F. revert F. generalize (emit t [] (tag s b l)). intros ns F. unfold sel.
  induction F as [|n ns Hn F IH]; [destruct (S s); reflexivity|]. cbn [filter]. destruct (P (n_cls n)); [|exact IH]. cbn [filter]. rewrite Hn, IH. destruct (S s); reflexivity.
Qed.
Lemma flat_none {A B} (F : A -> list B) l : (forall x, In x l -> F x = []) -> flat_map F l = [].
Proof. induction l as [|x l IH]; intros H; [reflexivity|]. cbn [flat_map]. rewrite (H x (or_introl eq_refl)), IH; [reflexivity|]. intros y Hy. apply H. right. exact Hy. Qed.
Lemma flat_one {B} (F : str -> list B) k l : NoDup l -> (forall x, In x l -> x <> k -> F x = []) -> flat_map F l = if str_in k l then F k else [].
Proof.
  induction l as [|x l IH]; intros Hn H; [reflexivity|]. inversion Hn as [|? ? Hx Hl]; subst. cbn [flat_map str_in existsb]. destruct (str_eqb k x) eqn:E.
  - apply str_eqb_eq in E. subst x. cbn [orb]. assert (Z : flat_map F l = []).
    { apply flat_none. intros y Hy. apply H; [right; exact Hy|]. intros ->. exact (Hx Hy). }
    rewrite Z, app_nil_r. reflexivity.
  - cbn [orb]. rewrite (H x); [|left; reflexivity|intros ->; rewrite str_eqb_refl in E; discriminate]. cbn [app]. apply IH; [exact Hl|]. intros y Hy. apply H. right. exact Hy.
Qed.
Lemma flat_handlers {B} (F : handler -> list B) hs : NoDup (keys hs) -> flat_map (fun kh : str * handler => F (snd kh)) hs = flat_map (fun k => match dget k hs with Some h => F h | None => [] end) (keys hs).
Proof.
  intros Hn. assert (G : forall hs0, (forall k h, In (k, h) hs0 -> dget k hs = Some h) -> flat_map (fun kh : str * handler => F (snd kh)) hs0 = flat_map (fun k => match dget k hs with Some h => F h | None => [] end) (keys hs0)).
  { induction hs0 as [|[k h] hs0 IH]; intros H; [reflexivity|]. cbn [flat_map keys map fst snd]. rewrite (H k h (or_introl eq_refl)). f_equal. apply IH. intros k2 h2 Hi. apply H. right. exact Hi. }
  apply G. clear G. induction hs as [|[k h] hs IH]; intros k2 h2 Hi; [destruct Hi|]. inversion Hn as [|? ? Hx Hl]; subst. cbn [dget]. destruct Hi as [Hi|Hi].
  - injection Hi as -> ->. rewrite str_eqb_refl. reflexivity.
  - destruct (str_eqb k2 k) eqn:E; [|apply IH; assumption]. apply str_eqb_eq in E. subst. exfalso. apply Hx. apply (in_map fst) in Hi. exact Hi.
Qed.
Lemma seen_values k l : str_in k (fields_seen l) = nonempty (values k l).
Proof.
  rewrite <- a_line_values. apply Bool.eq_iff_eq_true. rewrite str_in_In, a_line_ex. unfold fields_seen. rewrite PropOrder.seen_in. split; [intros [[]|H]; exact H|right; assumption].
Qed.
(** The checks at the end report the field's own classes, about the field. *)
Lemma tm_foldW {A S} (f : S -> A -> W S) l : (forall s a, tm (f s a)) -> forall s, tm (foldW f l s).
Proof. intros H. induction l as [|a l IH]; intros s; cbn [foldW]; [apply tm_ret|]. apply tm_bind; [apply H|]. intros. apply IH. Qed.
Lemma tm_resolve eps valid clean l : forall idx, tm (nel_resolve eps valid clean idx l).
Proof. induction l as [|v l IH]; intros idx; cbn [nel_resolve]; [apply tm_ret|]. tms. all: apply IH. Qed.
Ltac tmf := repeat (tms; try (apply tm_foldW; intros ? ?); try apply tm_resolve).
Lemma post_tame g c h : own g CONTENT_SECURITY_POLICY = false -> Forall own_ev (fst (post_of g c h)).
Proof.
  intros H. change (tm (post_of g c h)). destruct g; try (constructor; fail); try discriminate H; cbn [post_of].
  - unfold pc_accept_ch. tmf.
  - unfold pc_available_dictionary. tmf.
  - unfold pc_content_encoding. tmf.
  - unfold pc_cop. tmf.
  - unfold pc_cop. tmf.
  - unfold pc_cop. tmf.
  - unfold pc_cop. tmf.
  - unfold pc_nel, valid_endpoints. tmf.
Qed.
Lemma post_own P G e rel V tr h : ours P G -> ~ In (h_cls h) G -> fin_ok (m_type V) h -> Forall (not_cls P) (post_evs e rel V tr h).
Proof.
  intros HP HG (Hv & Ha & Hm). unfold post_evs. assert (X : h_val h <> VNone -> Forall (not_cls P) (tag (field_subj h) (sec_base tr h) (fst (post_of (h_cls h) (mkCx e V rel) h)))).
  { intros Hn. destruct (post_pass (h_cls h) (mkCx e V rel) h Hv Hn Hm) as [P1 _]. unfold tag. apply Forall_map. eapply Forall_impl; [|exact P1].
    assert (O : forall n, own (h_cls h) n = true -> P n = false) by (intros n Hn2; destruct (P n) eqn:E; [|reflexivity]; apply HP in E as [_ E]; destruct (HG (E _ Hn2))).
    intros ev He. unfold not_cls. cbn [snd]. destruct ev; cbn [ev_cls fev] in *; repeat constructor; apply O; apply He. }
  destruct (h_val h); try (apply X; discriminate). constructor.
Qed.

Lemma not_cls_calm P l : Forall (not_cls P) l -> Forall (calm_ev P) l.
Proof. apply Forall_impl. intros [[s b] []] H; unfold calm_ev, not_cls in *; cbn [snd ev_cls] in *; auto. inversion H as [|? ? A B]; subst. inversion B; subst. split; assumption. Qed.
Section Group.
  Variables (P : nid -> bool) (G : list fname) (S : str -> bool) (f : fname) (k : str).
  Variables (e : env) (rel : option mstate) (top : topline) (headers : list rawline) (chunks : list bytes) (complete : bool) (trailers : list rawline).
  Variables (t : mtype) (start : option QArith_base.Q) (nc head : bool) (base : str) (m' : mstate) (rel' : option mstate).
  Hypothesis E : lint e rel top headers chunks complete trailers (new_linter t start nc head base) = (m', rel', Ok tt).
  Hypothesis HP : ours P G.
  Hypothesis HQ : quiet P.
  Hypothesis HS : Forall (silent P) G.
  Hypothesis HT : Forall settled G.
  Hypothesis HC : Forall (fun g => own g CONTENT_SECURITY_POLICY = false) G.
  Hypothesis HM : forall g, In g G -> In g module_fields.
  Hypothesis Hk : find_class k = f.
  Hypothesis Hf : In f G.
  Hypothesis Hn : nicknames f = [].
  Hypothesis H1 : hyphened k headers.
  Hypothesis H2 : hyphened k trailers.
  Hypothesis So : forall x, In (find_class x) G -> find_class x <> f -> S (about_field x) = false.
  Hypothesis Sk : S (about_field k) = true.
  (** What the run makes of the lines of [k]. *)
  Definition piece (tr : bool) (raws : list rawline) (N Q : list note) : Prop :=
    if nonempty (values k raws) then
      exists m h' Ev, m_type m = t /\ front m = front m' /\ (tr = true -> m_headers m = m_headers m') /\ key_run e rel tr m m' raws k Ev
        /\ dget k (s_handlers (sec tr m')) = Some h' /\ h_cls h' = f /\ field_subj h' = about_field k
        /\ N = sel P (emit t [] Ev) /\ Q = sel P (emit t [] (post_evs e rel' m' tr h'))
    else N = [] /\ Q = [].
  Lemma type_end : m_type m' = t.
  Proof. destruct (lint_facts _ _ _ _ _ _ _ _ _ _ _ _ _ _ E) as (SM & _). unfold setup in SM. injection SM as X _ _ _ _. exact X. Qed.
  Lemma ids tr raws m (Ef : str -> list sev) : m_type m = t ->
    (forall x, In x (fields_seen raws) -> (~ In (find_class x) G -> sel P (emit t [] (Ef x)) = []) /\ key_run e rel tr m m' raws x (Ef x)) ->
    forall x, In x (fields_seen raws) -> exists h', dget x (s_handlers (sec tr m')) = Some h' /\ h_cls h' = find_class x /\ field_subj h' = subject_of x /\ fin_ok t h'.
  Proof.
    intros Tm R x Hx. destruct (R x Hx) as [_ (evs & h & mi & h' & _ & Ex & _ & _ & _ & _ & _ & Hid & Fin & Hd)]. exists h'. split; [exact Hd|]. rewrite Tm in Fin.
      assert (Hi : ident any (x, h')) by (exists (first_name x raws); split; [exact I|]; split; [exact Ex|exact Hid]).
      split; [|split; [apply ident_subject; exact Hi|exact Fin]]. destruct Hid as (A1 & _). rewrite A1. cbn [new_handler h_cls]. rewrite Ex at 2. symmetry. apply find_class_lower.
  Qed.
  Lemma calm_one tr h : fin_ok t h -> Forall (calm_ev P) (post_evs e rel' m' tr h).
  Proof.
    intros Fin. destruct (existsb (fname_eqb (h_cls h)) G) eqn:EG.
    - apply existsb_exists in EG as (g & Hg & EG). apply fname_eqb_eq in EG. rewrite Forall_forall in HC. unfold post_evs.
      pose proof (post_tame (h_cls h) (mkCx e m' rel') h) as Pt. rewrite EG in *. specialize (Pt (HC g Hg)).
      destruct (h_val h); try (apply direct_calm, own_ev_direct, Pt). constructor.
    - assert (NG : ~ In (h_cls h) G). { intros C. assert (Y : existsb (fname_eqb (h_cls h)) G = true); [|congruence]. apply existsb_exists. exists (h_cls h). split; [exact C|apply fname_eqb_eq; reflexivity]. }
      rewrite <- type_end in Fin. apply not_cls_calm. apply (post_own P G e rel' m' tr h HP NG Fin).
  Qed.
  Lemma calm_posts tr raws m (Ef : str -> list sev) : m_type m = t -> keys (s_handlers (sec tr m')) = fields_seen raws ->
    (forall x, In x (fields_seen raws) -> (~ In (find_class x) G -> sel P (emit t [] (Ef x)) = []) /\ key_run e rel tr m m' raws x (Ef x)) ->
    Forall (calm_ev P) (posts e rel' m' tr (s_handlers (sec tr m'))).
  Proof.
    intros Tm Ks R. assert (Nd : NoDup (fields_seen raws)) by (apply PropOrder.seen_nodup; constructor).
    unfold posts. rewrite (flat_handlers (post_evs e rel' m' tr)) by (rewrite Ks; exact Nd). rewrite Ks. apply Forall_flat_map, Forall_forall. intros x Hx.
    destruct (ids tr raws m Ef Tm R x Hx) as (h' & -> & _ & _ & Fin). apply calm_one, Fin.
  Qed.
  Lemma piece_ok tr raws m (Ef : str -> list sev) : hyphened k raws -> m_type m = t -> front m = front m' -> (tr = true -> m_headers m = m_headers m') ->
    keys (s_handlers (sec tr m')) = fields_seen raws ->
    (forall x, In x (fields_seen raws) -> (~ In (find_class x) G -> sel P (emit t [] (Ef x)) = []) /\ key_run e rel tr m m' raws x (Ef x)) ->
    Forall (calm_ev P) (posts e rel' m' tr (s_handlers (sec tr m'))) ->
    piece tr raws (flat_map (fun x => selS P S (emit t [] (Ef x))) (fields_seen raws)) (selS P S (emit t [] (posts e rel' m' tr (s_handlers (sec tr m'))))).
  Proof.
    intros H Tm Fm Mm Ks R Cp. assert (Nd : NoDup (fields_seen raws)) by (apply PropOrder.seen_nodup; constructor).
    pose proof (hyphened_spelled f k raws (HM f Hf) Hn Hk H) as Sp.
    pose proof (ids tr raws m Ef Tm R) as Id.
    assert (Ot : forall x, In x (fields_seen raws) -> x <> k -> In (find_class x) G -> S (about_field x) = false).
    { intros x Hx Hne Hg. apply So; [exact Hg|]. intros Hc. apply Hne. unfold fields_seen in Hx. apply PropOrder.seen_in in Hx as [[]|(r & Hr & Hrk)]. unfold spelled in Sp. rewrite Forall_forall in Sp.
      rewrite <- Hrk. apply (Sp r Hr). rewrite <- Hc, <- Hrk. symmetry. apply find_class_lower. }
    assert (Ex : forall x, In x (fields_seen raws) -> In (find_class x) G -> selS P S (emit t [] (Ef x)) = if S (about_field x) then sel P (emit t [] (Ef x)) else []).
    { intros x Hx Hg. destruct (R x Hx) as [_ (evs & h & mi & h' & Fd & Exx & _ & _ & _ & _ & Ff & _)].
      assert (Hi : ident any (lower (first_name x raws), new_handler (first_name x raws))) by (exists (first_name x raws); split; [exact I|split; [reflexivity|apply same_id_refl]]).
      pose proof (proj1 (feeds_got e (still m) rel _ _ _ _ _ Hi Fd)) as Hid. rewrite Forall_forall in HT.
      assert (Hc : h_cls h = find_class x) by (destruct Hid as [-> _]; cbn [new_handler h_cls]; rewrite Exx at 2; symmetry; apply find_class_lower).
      destruct (HT _ Hg _ _ _ _ _ _ _ Hc Ff) as (l0 & -> & O). rewrite (subject_module _ x (HM _ Hg) eq_refl). apply selS_tag, O. }
    assert (Px : forall x h', In x (fields_seen raws) -> dget x (s_handlers (sec tr m')) = Some h' ->
               selS P S (emit t [] (post_evs e rel' m' tr h')) = if existsb (fname_eqb (find_class x)) G && S (about_field x) then sel P (emit t [] (post_evs e rel' m' tr h')) else []).
    { intros x h' Hx Hd. destruct (Id x Hx) as (h2 & Hd2 & Hc & Hs & Fin). rewrite Hd in Hd2. injection Hd2 as <-. destruct (existsb (fname_eqb (find_class x)) G) eqn:EG; cbn [andb].
      - apply existsb_exists in EG as (g & Hg & EG). apply fname_eqb_eq in EG. rewrite Forall_forall in HC. rewrite <- (subject_module _ x (HM g Hg) EG), <- Hs. unfold post_evs.
        pose proof (post_tame (h_cls h') (mkCx e m' rel') h') as Pt. rewrite Hc, EG in Pt. specialize (Pt (HC g Hg)).
        destruct (h_val h'); try (rewrite Hc, EG; apply selS_tag, Pt). destruct (S (field_subj h')); reflexivity.
      - assert (NG : ~ In (h_cls h') G). { intros C. rewrite Hc in C. assert (Y : existsb (fname_eqb (find_class x)) G = true); [|congruence]. apply existsb_exists. exists (find_class x). split; [exact C|apply fname_eqb_eq; reflexivity]. }
        rewrite <- type_end in Fin. pose proof (post_own P G e rel' m' tr h' HP NG Fin) as Np. unfold selS. rewrite (emit_sel P t _ [] Np). reflexivity. }
    unfold piece. rewrite (flat_one _ k _ Nd), seen_values.
    2: { intros x Hx Hne. destruct (existsb (fname_eqb (find_class x)) G) eqn:EG.
         - apply existsb_exists in EG as (g & Hg & EG). apply fname_eqb_eq in EG. subst g. rewrite (Ex x Hx Hg), (Ot x Hx Hne Hg). reflexivity.
         - unfold selS. rewrite (proj1 (R x Hx)); [reflexivity|]. intros C. assert (Y : existsb (fname_eqb (find_class x)) G = true); [|congruence]. apply existsb_exists. exists (find_class x). split; [exact C|apply fname_eqb_eq; reflexivity]. }
    assert (Ep : selS P S (emit t [] (posts e rel' m' tr (s_handlers (sec tr m')))) = flat_map (fun x => match dget x (s_handlers (sec tr m')) with Some h => selS P S (emit t [] (post_evs e rel' m' tr h)) | None => [] end) (fields_seen raws)).
    { unfold posts in *. unfold selS at 1. rewrite (flat_emit P t _ _ Cp), selS_flat. rewrite <- Ks. apply (flat_handlers (fun h => selS P S (emit t [] (post_evs e rel' m' tr h)))). rewrite Ks. exact Nd. }
    rewrite Ep, (flat_one _ k _ Nd), seen_values.
    2: { intros x Hx Hne. destruct (dget x (s_handlers (sec tr m'))) as [h'|] eqn:Hd; [|reflexivity]. rewrite (Px x h' Hx Hd). destruct (existsb (fname_eqb (find_class x)) G) eqn:EG; [|reflexivity].
         apply existsb_exists in EG as (g & Hg & EG). apply fname_eqb_eq in EG. subst g. rewrite (Ot x Hx Hne Hg). reflexivity. }
    destruct (nonempty (values k raws)) eqn:Ev; [|split; reflexivity].
    assert (Hin : In k (fields_seen raws)) by (apply str_in_In; rewrite seen_values; exact Ev). destruct (Id k Hin) as (h' & Hd & Hc & Hs & Fin). destruct (R k Hin) as [_ Rk].
    exists m, h', (Ef k). split; [exact Tm|]. split; [exact Fm|]. split; [exact Mm|]. split; [exact Rk|]. split; [exact Hd|]. split; [congruence|].
    split; [rewrite Hs; apply (subject_module f k (HM f Hf) Hk)|]. assert (Hg : In (find_class k) G) by (rewrite Hk; exact Hf).
    split; [rewrite (Ex k Hin Hg), Sk; reflexivity|]. rewrite Hd, (Px k h' Hin Hd), Sk. assert (Y : existsb (fname_eqb (find_class k)) G = true) by (apply existsb_exists; exists (find_class k); split; [exact Hg|apply fname_eqb_eq; reflexivity]).
    rewrite Y. reflexivity.
  Qed.
  Theorem group_notes : keys (s_handlers (m_headers m')) = fields_seen headers /\ exists Nh Qh Nt Qt,
    piece false headers Nh Qh /\ piece true trailers Nt Qt /\ selS P S (m_notes m') = Nh ++ Nt ++ Qh ++ Qt.
  Proof.
    destruct (lint_group P G e rel top headers chunks complete trailers t start nc head base m' rel' E HP HQ HS HT) as (mh & mt & Eh & Et & T1 & T2 & F1 & F2 & Hh & K1 & K2 & R1 & R2 & N). cbv zeta in N.
    assert (Cp : Forall (calm_ev P) (posts e rel' m' false (s_handlers (m_headers m'))) /\ Forall (calm_ev P) (posts e rel' m' true (s_handlers (m_trailers m')))).
    { split; [apply (calm_posts false headers mh Eh T1 K1 R1)|apply (calm_posts true trailers mt Et T2 K2 R2)]. }
    destruct Cp as [Cp1 Cp2].
    assert (HCa : forall a, sel P (emit t a (all_posts e rel' m')) = sel P a ++ sel P (emit t [] (all_posts e rel' m'))).
    { intros a. apply emit_sel_add. unfold all_posts. apply Forall_app. split; assumption. }
    rewrite HCa in N. 
    pose proof (piece_ok false headers mh Eh H1 T1 F1 ltac:(discriminate) K1 R1 Cp1) as A1. pose proof (piece_ok true trailers mt Et H2 T2 F2 (fun _ => Hh) K2 R2 Cp2) as A2. cbn [sec] in A1, A2.
    split; [exact K1|]. eexists _, _, _, _. split; [exact A1|]. split; [exact A2|]. unfold selS at 1. rewrite N by (intros a b Hab; rewrite (HCa a), (HCa b), Hab; reflexivity).
    assert (Si : forall (F : str -> list sev) l, sel P (flat_map (fun x => sel P (emit t [] (F x))) l) = flat_map (fun x => sel P (emit t [] (F x))) l).
    { intros F l. induction l as [|x l IH]; [reflexivity|]. cbn [flat_map]. rewrite sel_app, IH, sel_idem. reflexivity. }
    rewrite sel_app, !Si, !filter_app, !selS_flat, <- !app_assoc. f_equal. f_equal. unfold all_posts. rewrite emit_sel_app by exact Cp2. rewrite filter_app. reflexivity.
  Qed.
  (** There are no other notes of these classes. *)
  Lemma group_subjects n : In n (m_notes m') -> P (n_cls n) = true -> exists x, In (find_class x) G /\ n_subj n = about_field x.
  Proof.
    intros Hin HPn. assert (Hsel : In n (sel P (m_notes m'))) by (unfold sel; apply filter_In; auto).
    destruct (lint_group P G e rel top headers chunks complete trailers t start nc head base m' rel' E HP HQ HS HT) as (mh & mt & Eh & Et & T1 & T2 & F1 & F2 & Hh & K1 & K2 & R1 & R2 & N). cbv zeta in N.
    pose proof (calm_posts false headers mh Eh T1 K1 R1) as Cp1. pose proof (calm_posts true trailers mt Et T2 K2 R2) as Cp2. cbn [sec] in Cp1, Cp2.
    assert (HCa : forall a, sel P (emit t a (all_posts e rel' m')) = sel P a ++ sel P (emit t [] (all_posts e rel' m'))).
    { intros a. apply emit_sel_add. unfold all_posts. apply Forall_app. split; assumption. }
    rewrite N in Hsel by (intros a b Hab; rewrite (HCa a), (HCa b), Hab; reflexivity). rewrite HCa in Hsel. unfold all_posts in Hsel. rewrite emit_sel_app in Hsel by exact Cp2. unfold posts in Hsel.
    rewrite !flat_emit in Hsel by assumption.
    assert (Nf : forall l, existsb (fname_eqb l) G = false -> ~ In l G).
    { intros l Hl C. assert (Y : existsb (fname_eqb l) G = true); [|congruence]. apply existsb_exists. exists l. split; [exact C|apply fname_eqb_eq; reflexivity]. }
    assert (Part : forall tr raws m Ef, m_type m = t -> (forall x, In x (fields_seen raws) -> (~ In (find_class x) G -> sel P (emit t [] (Ef x)) = []) /\ key_run e rel tr m m' raws x (Ef x)) ->
              In n (flat_map (fun x => sel P (emit t [] (Ef x))) (fields_seen raws)) -> exists x, In (find_class x) G /\ n_subj n = about_field x).
    { intros tr raws m Ef Tm R Hn2. apply in_flat_map in Hn2 as (x & Hx & Hn2). destruct (R x Hx) as [Off (evs & h & mi & h' & Fd & Exx & _ & _ & _ & _ & Ff & _)]. exists x.
      destruct (existsb (fname_eqb (find_class x)) G) eqn:EG; [|rewrite (Off (Nf _ EG)) in Hn2; destruct Hn2].
      apply existsb_exists in EG as (g & Hg & EG). apply fname_eqb_eq in EG. subst g. split; [exact Hg|].
      assert (Hi : ident any (lower (first_name x raws), new_handler (first_name x raws))) by (exists (first_name x raws); split; [exact I|split; [reflexivity|apply same_id_refl]]).
      pose proof (proj1 (feeds_got e (still m) rel _ _ _ _ _ Hi Fd)) as Hid. rewrite Forall_forall in HT.
      assert (Hc : h_cls h = find_class x) by (destruct Hid as [-> _]; cbn [new_handler h_cls]; rewrite Exx at 2; symmetry; apply find_class_lower).
      destruct (HT _ Hg _ _ _ _ _ _ _ Hc Ff) as (l0 & Hl & O). rewrite Hl in Hn2. rewrite (subject_module _ x (HM _ Hg) eq_refl) in Hn2.
      pose proof (emit_subj t (about_field x) (sec_base tr h) l0 O) as Fs. rewrite Forall_forall in Fs. apply Fs. unfold sel in Hn2. apply filter_In in Hn2 as [Hn2 _]. exact Hn2. }
    assert (Post : forall tr raws m Ef, m_type m = t -> keys (s_handlers (sec tr m')) = fields_seen raws -> (forall x, In x (fields_seen raws) -> (~ In (find_class x) G -> sel P (emit t [] (Ef x)) = []) /\ key_run e rel tr m m' raws x (Ef x)) ->
              In n (flat_map (fun a : str * handler => sel P (emit t [] (post_evs e rel' m' tr (snd a)))) (s_handlers (sec tr m'))) -> exists x, In (find_class x) G /\ n_subj n = about_field x).
    { intros tr raws m Ef Tm Ks R Hn2. rewrite (flat_handlers (fun h => sel P (emit t [] (post_evs e rel' m' tr h)))) in Hn2 by (rewrite Ks; apply PropOrder.seen_nodup; constructor).
      apply in_flat_map in Hn2 as (x & Hx & Hn2). rewrite Ks in Hx. destruct (ids tr raws m Ef Tm R x Hx) as (h' & Hd & Hc & Hs & Fin). rewrite Hd in Hn2. exists x.
      destruct (existsb (fname_eqb (find_class x)) G) eqn:EG.
      - apply existsb_exists in EG as (g & Hg & EG). apply fname_eqb_eq in EG. subst g. split; [exact Hg|]. rewrite Forall_forall in HC. unfold sel in Hn2. apply filter_In in Hn2 as [Hn2 _]. unfold post_evs in Hn2.
        pose proof (post_tame (h_cls h') (mkCx e m' rel') h') as Pt. rewrite Hc in Pt. specialize (Pt (HC _ Hg)). rewrite Hs, (subject_module _ x (HM _ Hg) eq_refl), Hc in Hn2.
        pose proof (emit_subj t (about_field x) (sec_base tr h') _ Pt) as Fs. rewrite Forall_forall in Fs. apply Fs. destruct (h_val h'); first [exact Hn2|destruct Hn2].
      - exfalso. rewrite <- Hc in EG. rewrite <- type_end in Fin. pose proof (post_own P G e rel' m' tr h' HP (Nf _ EG) Fin) as Np. rewrite (emit_sel P t _ [] Np) in Hn2. destruct Hn2. }
    rewrite sel_app in Hsel. 
    assert (Si : forall (F : str -> list sev) l, sel P (flat_map (fun x => sel P (emit t [] (F x))) l) = flat_map (fun x => sel P (emit t [] (F x))) l).
    { intros F l. induction l as [|x l IH]; [reflexivity|]. cbn [flat_map]. rewrite sel_app, IH, sel_idem. reflexivity. }
    rewrite !Si in Hsel. repeat (apply in_app_or in Hsel as [Hsel|Hsel]).
    - apply (Part false headers mh Eh T1 R1 Hsel).
    - apply (Part true trailers mt Et T2 R2 Hsel).
    - apply (Post false headers mh Eh T1 K1 R1 Hsel).
    - apply (Post true trailers mt Et T2 K2 R2 Hsel).
  Qed.
  (** Structured fields. *)
  Variables (ks : list str) (ty : sftype).
  Hypothesis Hks : own_keys ks = true.
  Hypothesis Hkind : kind_of f = KSF ty.
  Hypothesis Hpr : processed t k = true.
  Variable q : str -> list (nid * list (option pyval)).
  Hypothesis Hq : forall V h s, front V = front m' -> keys (s_handlers (m_headers V)) = fields_seen headers -> Forall own_ev (sf_events ty f e rel V h s) /\ pairs P ks (sf_events ty f e rel V h s) = q s.
  Definition post_pairs (v : pyval) : list (nid * list (option pyval)) :=
    match v with VNone => [] | _ => pairs P ks (fst (post_of f (mkCx e m' rel') (blank_of f v))) end.
  Hypothesis Hpost : forall c h, fst (post_of f c h) = fst (post_of f c (blank_of f (h_val h))).
  Definition told_by (d : str -> list (nid * list (option pyval))) (l : list rawline) : list (nid * str * list (option pyval)) :=
    match values k l with [] => [] | _ => map (fun x => (fst x, about_field k, snd x)) (d (whole_text k l)) end.
  Lemma framework_off n : framework n = true -> P n = false.
  Proof. intros H. destruct (P n) eqn:X; [|reflexivity]. apply HP in X as [X _]. congruence. Qed.
  Lemma calls_pairs l : calls_on P l -> pairs P ks l = [].
  Proof. induction 1 as [|x l (n & c & vrs & -> & Hx) H IH]; [reflexivity|]. change (pair_of P ks (ENote n c vrs []) ++ pairs P ks l = []). rewrite IH. cbn [pair_of]. rewrite (framework_off n Hx). reflexivity. Qed.
  Lemma piece_sf tr raws N Q : keys (s_handlers (m_headers m')) = fields_seen headers -> (tr = false -> raws = headers) -> piece tr raws N Q ->
    map (told ks) N = told_by q raws /\ map (told ks) Q = told_by (fun s => post_pairs (sf_value e ty f s)) raws.
  Proof.
    intros K1 Hr. unfold piece, told_by. destruct (values k raws) as [|v0 vl] eqn:Ev; cbn [nonempty]; [intros [-> ->]; split; reflexivity|].
    intros (m & h' & El & Tm & Fm & Mm & R & Hd & Hc & Hs & -> & ->). destruct R as (evs & h & mi & h2 & Fd & Ek & Hl & St & Km & Om & Ff & Hid & Fin & Hd2).
    rewrite Hd in Hd2. injection Hd2 as <-. set (n := first_name k raws) in *.
    assert (Hi : ident any (lower n, new_handler n)) by (exists n; split; [exact I|split; [reflexivity|apply same_id_refl]]).
    assert (Hnn : find_class n = f) by (rewrite <- Hk, Ek; symmetry; apply find_class_lower).
    assert (Ha : accepted (m_type (still m)) n = true) by (rewrite <- (accepted_lower _ n), <- Ek; change (m_type (still m)) with (m_type m); rewrite Tm, processed_eq; exact Hpr).
    destruct (feeds_got e (still m) rel n _ _ _ _ Hi Fd) as [Hid2 Gt]. rewrite Ha in Gt.
    assert (Hch : h_cls h = f) by (destruct Hid2 as [-> _]; exact Hnn). assert (Hsf : h_sf h = false) by apply Hl.
    unfold got in Gt. cbn [new_handler h_cls] in Gt. rewrite Hnn, Hkind in Gt. specialize (Gt [] eq_refl). cbn [app] in Gt. rewrite <- (map_map fst VStr), lines_vals, Ev in Gt.
    pose proof (finish_val e mi _ rel _ _ n h El h' St ltac:(congruence) Hsf Ff) as Fv. rewrite Hnn, Hkind, Gt in Fv. cbn [truthy map nonempty] in Fv. change (VStr v0 :: map VStr vl) with (map VStr (v0 :: vl)) in Fv. rewrite raw_texts_strl in Fv.
    unfold finish_handler in Ff. rewrite Hch, Hkind in Ff. unfold sf_finish in Ff. rewrite Gt, Hsf, Hch in Ff. unfold whole_text. rewrite Ev. cbn [truthy map nonempty negb] in Ff.
    change (VStr v0 :: map VStr vl) with (map VStr (v0 :: vl)) in Ff. rewrite raw_texts_strl in Ff. cbv zeta in Ff. clear Gt. set (s := strip _) in *. cbn [cx_env] in *.
    rewrite (subject_module f k (HM f Hf) Hk) in Ff.
    assert (Fi : front mi = front m') by (rewrite <- Fm; apply (front_of_still _ _ St)).
    assert (Ki : keys (s_handlers (m_headers mi)) = fields_seen headers).
    { destruct tr; cbn [negb sec] in *; [rewrite Om, (Mm eq_refl); exact K1|]. rewrite Km, (Hr eq_refl). reflexivity. }
    assert (Tq : forall pre hh, calls_on P pre -> forall hb, map (told ks) (sel P (emit t [] (tag (about_field k) (sec_base tr hb) (pre ++ sf_events ty f e rel mi hh s)))) = map (fun x => (fst x, about_field k, snd x)) (q s)).
    { intros pre hh Hpre hb. destruct (Hq mi hh s Fi Ki) as [O1 O2]. rewrite <- heard_sel. assert (O : Forall own_ev (pre ++ sf_events ty f e rel mi hh s)) by (apply Forall_app; split; [apply (calls_own P), Hpre|exact O1]).
      rewrite heard_tag by (try exact Hks; try (apply own_plain; exact Hks); apply own_ev_direct; exact O). rewrite (speak_pairs P ks _ _ O), pairs_app, (calls_pairs pre Hpre), O2. reflexivity. }
    assert (Pq : forall v, h_val h' = v -> map (told ks) (sel P (emit t [] (post_evs e rel' m' tr h'))) = map (fun x => (fst x, about_field k, snd x)) (post_pairs v)).
    { intros v Hv. unfold post_evs, post_pairs. rewrite Hv. assert (X : v <> VNone -> map (told ks) (sel P (emit t [] (tag (field_subj h') (sec_base tr h') (fst (post_of (h_cls h') (mkCx e m' rel') h'))))) = map (fun x => (fst x, about_field k, snd x)) (pairs P ks (fst (post_of f (mkCx e m' rel') (blank_of f v))))).
      { intros _. rewrite <- heard_sel, Hc. rewrite Forall_forall in HC. pose proof (post_tame f (mkCx e m' rel') h' (HC f Hf)) as Pt.
        rewrite heard_tag by (try exact Hks; try (apply own_plain; exact Hks); apply own_ev_direct; exact Pt). rewrite (speak_pairs P ks _ _ Pt), Hs, Hpost, Hv. reflexivity. }
      destruct v; try (apply X; discriminate). reflexivity. }
    assert (Dd : forall d, calls_on P (dup_events d)).
    { intros d. apply Forall_map, Forall_forall. intros kc _. eexists _, _, _. split; reflexivity. }
    assert (Er : forall d pb cx, calls_on P (dup_events d ++ [sf_error h pb cx])).
    { intros d pb cx. apply Forall_app. split; [apply Dd|]. constructor; [eexists _, _, _; split; reflexivity|constructor]. }
    assert (Ok_ : forall (w : W pyval) hh d, prefix_events (tag (about_field k) (sec_base tr h) (dup_events d)) (finish_eval (about_field k) (sec_base tr h) hh w) = (El, h', Ok tt) ->
              El = tag (about_field k) (sec_base tr h) (dup_events d ++ fst w) /\ snd w = Ok (h_val h')).
    { intros [lw rw] hh d X. cbn [fst snd]. unfold finish_eval in X. unfold tag in *. rewrite map_app. unfold prefix_events in X. cbv zeta in X. destruct rw; [|discriminate X]. injection X as <- <-. split; reflexivity. }
    rewrite (Pq (sf_value e ty f s)); [split; [|reflexivity]|].
    - unfold sf_result in Ff. destruct ty; unfold sf_events in Tq.
      + destruct (e_sf_item e s) as [bp d|d pb pos|d pb].
        * destruct (Ok_ _ _ _ Ff) as [-> _]. apply Tq, Dd.
        * injection Ff as <- _. specialize (Tq _ h (Er d pb (match pos with Some p => context_lines p 35 s | None => [] end)) h). rewrite app_nil_r in Tq. exact Tq.
        * injection Ff as <- _. specialize (Tq _ h (Er d pb []) h). rewrite app_nil_r in Tq. exact Tq.
      + destruct (e_sf_list e s) as [bp d|d pb pos|d pb].
        * destruct (Ok_ _ _ _ Ff) as [-> _]. apply Tq, Dd.
        * injection Ff as <- _. specialize (Tq _ h (Er d pb (match pos with Some p => context_lines p 35 s | None => [] end)) h). rewrite app_nil_r in Tq. exact Tq.
        * injection Ff as <- _. specialize (Tq _ h (Er d pb []) h). rewrite app_nil_r in Tq. exact Tq.
      + destruct (e_sf_dict e s) as [bp d|d pb pos|d pb].
        * destruct (Ok_ _ _ _ Ff) as [-> _]. apply Tq, Dd.
        * injection Ff as <- _. specialize (Tq _ h (Er d pb (match pos with Some p => context_lines p 35 s | None => [] end)) h). rewrite app_nil_r in Tq. exact Tq.
        * injection Ff as <- _. specialize (Tq _ h (Er d pb []) h). rewrite app_nil_r in Tq. exact Tq.
    - exact Fv.
  Qed.
  Theorem group_sf : heard P ks (filter (fun n => S (n_subj n)) (m_notes m')) =
    told_by q headers ++ told_by q trailers ++ told_by (fun s => post_pairs (sf_value e ty f s)) headers ++ told_by (fun s => post_pairs (sf_value e ty f s)) trailers.
  Proof.
    destruct group_notes as (K1 & Nh & Qh & Nt & Qt & A1 & A2 & N).
    destruct (piece_sf false headers Nh Qh K1 (fun _ => eq_refl) A1) as [B1 B2]. destruct (piece_sf true trailers Nt Qt K1 ltac:(discriminate) A2) as [B3 B4].
    assert (X : sel P (filter (fun n => S (n_subj n)) (m_notes m')) = selS P S (m_notes m')).
    { unfold selS, sel. clear. induction (m_notes m') as [|n l IH]; [reflexivity|]. cbn [filter]. destruct (S (n_subj n)) eqn:E1, (P (n_cls n)) eqn:E2; cbn [filter]; rewrite ?E1, ?E2, IH; reflexivity. }
    rewrite heard_sel, X, N, !map_app, B1, B2, B3, B4. reflexivity.
  Qed.
End Group.
