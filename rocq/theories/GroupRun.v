(** * The notes of a group of fields that share their classes, and of the checks at the end (support). *)
From Coq Require Import Lia.
From Verif Require Import PyStr Regex Grammar NoteTable Note PyLib Utils FieldAttrs Types Fields1 Fields2 Fields3 Framework Checks Message
  EvLogic NoteLemmas TestEnv LexLemmas ParamLemmas NumLemmas NameLemmas FrameLemmas ContentLemmas BodyLemmas PassParse PassEval PassFrame PassSec PassProc PassRun Session SessionLemmas
  SectionLemmas SecNotes SecValues LintLemmas FieldSpec PropFields PropValues PropNames PropParse OwnLemmas ListSpec PropLists PropCC ListExamples FieldExamples PropInts FieldDue OwnTac OwnMore KidSpec OwnFull.
Open Scope N_scope.

(** The classes [P] belong to the fields [G]. *)
Definition ours (P : nid -> bool) (G : list fname) : Prop := forall n, P n = true -> framework n = false /\ forall g, own g n = true -> In g G.
Definition ours_b (P : nid -> bool) (G : list fname) : bool :=
  forallb (fun n => if P n then negb (framework n) && forallb (fun g => if existsb (fname_eqb g) G then true else negb (own g n)) (F__deprecated :: F__unnecessary :: F__unknown :: module_fields) else true) all_nids.
Lemma ours_b_ok P G : ours_b P G = true -> ours P G.
Proof.
  unfold ours_b. intros H n Hn. rewrite forallb_forall in H. specialize (H n (all_nids_complete n)). cbv beta in H. rewrite Hn in H. apply andb_prop in H as [H1 H2]. apply negb_true_iff in H1.
  split; [exact H1|]. intros g Hg. rewrite forallb_forall in H2. specialize (H2 g). rewrite Hg in H2. cbn [negb] in H2.
  assert (X : existsb (fname_eqb g) G = true). { destruct (existsb (fname_eqb g) G); [reflexivity|]. apply H2. cbn [In]. destruct (module_fields_complete g) as [->|[->|[->|Hi]]]; auto. }
  apply existsb_exists in X as (x & Hx & E). apply fname_eqb_eq in E. subst. exact Hx.
Qed.
Lemma ours_off P G F g l : ours P G -> (forall n, F n = true -> framework n = true) -> ~ In g G -> Forall (fsevg F g) l -> Forall (not_cls P) l.
Proof.
  intros HP HF Hg. apply Forall_impl. intros s Hs. apply fsevg_cls in Hs. unfold not_cls. eapply Forall_impl; [|exact Hs].
  intros n [Hn|Hn]; destruct (P n) eqn:E; try reflexivity; apply HP in E as [E1 E2].
  - rewrite (HF n Hn) in E1. discriminate.
  - destruct (Hg (E2 _ Hn)).
Qed.
Lemma ours_fw P G subj base l : ours P G -> Forall fw_note l -> Forall (not_cls P) (tag subj base l).
Proof.
  intros HP H. unfold tag. apply Forall_map. eapply Forall_impl; [|exact H]. intros e (n & cat & vrs & -> & Hn).
  unfold not_cls. cbn [snd ev_cls]. constructor; [|constructor]. destruct (P n) eqn:E; [|reflexivity]. apply HP in E as [E _]. congruence.
Qed.
(** No notes of [P] while lines are read. *)
Definition silent (P : nid -> bool) (g : fname) : Prop :=
  forall c h v o l h2 r, h_cls h = g -> hpre (m_type (cx_msg c)) h -> wrong (m_type (cx_msg c)) g = false -> handle_input c h v o = (l, h2, r) -> Forall (not_cls P) l.
(** ... and no sub-notes added to others when a field is finished. *)
Definition settled (g : fname) : Prop :=
  forall c s b h l h2 r, h_cls h = g -> finish_handler c s b h = (l, h2, r) -> exists l0, l = tag s b l0 /\ Forall own_ev l0.
Lemma settled_calm P g c s b h l h2 r : settled g -> h_cls h = g -> finish_handler c s b h = (l, h2, r) -> Forall (calm_ev P) l.
Proof. intros H Hg E. destruct (H _ _ _ _ _ _ _ Hg E) as (l0 & -> & O). apply direct_calm, own_ev_direct, O. Qed.
Definition quick (f : fname) : bool := match kind_of f with KSF _ | KList | KJson | KUnknown => true | _ => false end.
Definition plain_eval (g : fname) : Prop :=
  (forall c h, h_cls h = g -> Forall own_ev (fst (eval_of g c h))) /\ (forall c h b p, Forall own_ev (fst (eval_item g c h b p))) /\ (forall c h l, Forall own_ev (fst (eval_list g c h l))) /\ (forall c h l, Forall own_ev (fst (eval_dict g c h l))).
Lemma dup_own d : Forall own_ev (dup_events d).
Proof. apply Forall_map, Forall_forall. intros kc _. exact I. Qed.
Lemma settled_quick g : quick g = true -> plain_eval g -> settled g.
Proof.
  intros Hq (H1 & H2 & H3 & H4) c s b h l h2 r Hg E. unfold finish_handler in E. rewrite Hg in E. unfold quick in Hq.
  assert (Fe : forall hh (w : W pyval), Forall own_ev (fst w) -> finish_eval s b hh w = (l, h2, r) -> exists l0, l = tag s b l0 /\ Forall own_ev l0).
  { intros hh [lw rw] O F. cbn [fst] in O. unfold finish_eval in F. exists lw. split; [|exact O]. destruct rw; injection F; auto. }
  assert (Bf : forall hh, h_cls hh = g -> base_finish c s b hh = (l, h2, r) -> exists l0, l = tag s b l0 /\ Forall own_ev l0).
  { intros hh Hc F. unfold base_finish in F. rewrite Hc in F. destruct (h_val hh); try (apply (Fe hh _ (H1 c hh Hc) F)). injection F as <- _ _. exists []. split; [reflexivity|constructor]. }
  assert (No : forall x y, ([], x, y) = (l, h2, r) -> exists l0, l = tag s b l0 /\ Forall own_ev l0) by (intros x y F; injection F as <- _ _; exists []; split; [reflexivity|constructor]).
  assert (Sf : forall A cb (x : sfres A) val ev, (forall hh v, Forall own_ev (fst (ev hh v))) -> sf_result s b h cb x val ev = (l, h2, r) -> exists l0, l = tag s b l0 /\ Forall own_ev l0).
  { intros A cb x val ev O F. unfold sf_result in F. destruct x as [v d|d pb pos|d pb].
    - cbv zeta in F. set (hh := h_set_val _ _) in F. specialize (O hh v). destruct (ev hh v) as [lw rw]. cbn [fst] in O. exists (dup_events d ++ lw). split; [|apply Forall_app; split; [apply dup_own|exact O]].
      unfold tag. rewrite map_app. unfold finish_eval, prefix_events in F. destruct rw; injection F as <- _ _; reflexivity.
    - eexists. split; [injection F as <- _ _; reflexivity|]. apply Forall_app; split; [apply dup_own|]. repeat constructor.
    - eexists. split; [injection F as <- _ _; reflexivity|]. apply Forall_app; split; [apply dup_own|]. repeat constructor. }
  destruct (kind_of g) as [| | |ty| |] eqn:K; try discriminate Hq.
  - apply (Bf h Hg E).
  - unfold sf_finish in E. destruct (negb _); [apply (No _ _ E)|]. destruct (h_sf h); [apply (No _ _ E)|]. destruct (raw_texts _); [|apply (No _ _ E)]. cbv zeta in E.
    rewrite Hg in E. destruct ty; (eapply Sf; [|exact E]); intros hh v; cbv beta; first [apply H2|apply H3|apply H4].
  - unfold json_finish in E. destruct (negb _); [apply (No _ _ E)|]. destruct (raw_texts _); [|apply (No _ _ E)]. destruct (e_json _ _); [refine (Bf _ _ E); exact Hg| |apply (No _ _ E)].
    exists [ENote BAD_JSON (Some (handler_cat h)) [(u "error", VStr msg)] []]. split; [injection E as <- _ _; reflexivity|]. repeat constructor.
  - apply (Bf h Hg E).
Qed.
Lemma lines_silent P G e rel tr : ours P G -> Forall (silent P) G -> forall raws m o m', sinv any (m_type m) (sec tr m) -> field_lines e rel tr m o raws = (m', Ok tt) ->
  sel P (m_notes m') = sel P (m_notes m).
Proof.
  intros HP HS. induction raws as [|raw raws IH]; intros m o m' Hs E; cbn [field_lines] in E; [injection E as <-; reflexivity|].
  destruct (field_line e rel tr m o raw) as [[m1 o1] [[]|x]] eqn:E1; [|discriminate].
  pose proof Hs as [_ Hf]. pose proof (Forall_impl _ (fun a Ha => proj2 Ha) Hf) as Hi. cbv beta in Hi.
  destruct (line_step e rel tr m o raw m1 o1 Hi E1) as (l3 & l4 & h2 & Et & Eo & Em & Hi1).
  destruct (line_notes e rel tr m o raw m1 o1 Hs E1) as (l3' & l4' & h2' & Et' & F4 & _ & _ & S1 & T1).
  rewrite Et in Et'. injection Et' as <- <- <-. specialize (IH m1 o1 m'). rewrite T1 in IH. rewrite (IH S1 E). clear IH.
  set (h := own_handler (s_handlers (sec tr m)) raw) in *. pose proof (own_handler_ident _ raw Hi) as Hh. fold h in Hh.
  pose proof (ident_find _ _ (raw_name raw) Hh eq_refl) as Ec. pose proof (own_hpre (m_type m) _ raw Hf) as Hpre. fold h in Hpre.
  destruct (pre_fw (m_type m) _ h (raw_name raw) Hh eq_refl) as [F3 _]. destruct (enc_fw raw) as [F1 _]. destruct (size_fw h raw) as [F5 _].
  assert (Mn : m_notes m1 = emit (m_type m) (m_notes m) (tag (offset_subj o) [] (enc_events raw) ++ tag (offset_subj o) (line_base h) l3 ++ l4
                    ++ (if accepted (m_type m) (raw_name raw) then tag (offset_subj o) [] (size_events h raw) else []))) by (rewrite Em; destruct tr; reflexivity).
  assert (E3 : snd (fst (pre_check (m_type m) h)) = l3 /\ Forall (not_cls P) l4).
  { destruct (existsb (fname_eqb (find_class (raw_name raw))) G) eqn:EG.
    - apply existsb_exists in EG as (g & Hg & EG). apply fname_eqb_eq in EG. rewrite Forall_forall in HS. specialize (HS g Hg). pose proof (pre_check_pass (m_type m) h Hpre) as PP. unfold taken in Et. rewrite still_type in Et.
      destruct (pre_check (m_type m) h) as [[h1 l3'] go]. destruct PP as (_ & _ & _ & _ & _ & Hgo & _). destruct go.
      + destruct (Hgo eq_refl) as [Hw ->]. destruct (handle_input (mkCx e (still m) rel) h (raw_value raw) o) as [[l4' h2'] r] eqn:HI. injection Et as A3 A4 _ _ _.
        split; [exact A3|]. rewrite <- A4. rewrite Ec, EG in Hw. apply (HS (mkCx e (still m) rel) _ _ _ _ _ _ (eq_trans Ec EG) Hpre Hw HI).
      + injection Et as A3 A4 _ _. split; [exact A3|rewrite <- A4; constructor].
    - split.
      + unfold taken in Et. rewrite still_type in Et. destruct (pre_check (m_type m) h) as [[h1 l3'] go]. destruct go; [destruct (handle_input _ h1 _ o) as [[? ?] ?]|]; injection Et; intros; assumption.
      + apply (ours_off P G inner (find_class (raw_name raw)) l4 HP inner_framework); [|exact F4]. intros C. assert (X : existsb (fname_eqb (find_class (raw_name raw))) G = true); [|congruence].
        apply existsb_exists. exists (find_class (raw_name raw)). split; [exact C|]. apply fname_eqb_eq. reflexivity. }
  destruct E3 as [E3 N4]. rewrite E3 in F3. rewrite Mn. apply emit_sel. repeat (apply Forall_app; split); try (apply (ours_fw P G); assumption); [exact N4|].
  destruct (accepted _ _); [apply (ours_fw P G); assumption|constructor].
Qed.

Lemma flat_map_ext_in {A B} (f g : A -> list B) l : (forall a, In a l -> f a = g a) -> flat_map f l = flat_map g l.
Proof. induction l as [|a l IH]; intros H; [reflexivity|]. cbn [flat_map]. rewrite (H a (or_introl eq_refl)), IH; [reflexivity|]. intros b Hb. apply H. right. exact Hb. Qed.
(** ** Finishing all fields *)
Lemma finish_all_group P G e rel tr l : ours P G -> Forall settled G -> forall m m', NoDup (keys l) -> Forall (lined (m_type m)) l -> keys (s_handlers (sec tr m)) = keys l \/ (forall k, In k (keys l) -> In k (keys (s_handlers (sec tr m)))) ->
  finish_all e rel tr m l = (m', Ok tt) ->
  exists E : str -> list sev,
    sel P (m_notes m') = sel P (m_notes m) ++ flat_map (fun k => sel P (emit (m_type m) [] (E k))) (keys l)
    /\ keys (s_handlers (sec tr m')) = keys (s_handlers (sec tr m))
    /\ forall k h, In (k, h) l -> (~ In (h_cls h) G -> sel P (emit (m_type m) [] (E k)) = []) /\
        exists mi h', finish_handler (mkCx e mi rel) (field_subj h) (sec_base tr h) h = (E k, h', Ok tt) /\ same_id h h' /\ fin_ok (m_type m) h'
          /\ still mi = still m /\ keys (s_handlers (sec tr mi)) = keys (s_handlers (sec tr m)) /\ sec (negb tr) mi = sec (negb tr) m
          /\ dget k (s_handlers (sec tr m')) = Some h'.
Proof.
  intros HP HS. induction l as [|[k h] l IH]; intros m m' Hn Hl Hk E; cbn [finish_all] in E.
  - injection E as <-. exists (fun _ => []). split; [cbn; rewrite app_nil_r; reflexivity|]. split; [reflexivity|]. intros k h [].
  - inversion Hn as [|? ? Hnk Hn2]; subst. inversion Hl as [|? ? Hl1 Hl2]; subst.
    assert (Hk' : forall k2, In k2 (keys ((k, h) :: l)) -> In k2 (keys (s_handlers (sec tr m)))) by (destruct Hk as [->|Hk]; auto). clear Hk.
    destruct (finish_one e rel tr m (k, h)) as [m1 [[]|x]] eqn:E1; [|discriminate].
    destruct (finish_one_facts e rel tr m k h m1 Hl1 E1) as (evs & h' & Eh & Hid & F & Fin & N1 & B1 & H1 & P1 & T1 & S1 & O1 & St1 & Ty1).
    assert (K1 : keys (s_handlers (sec tr m1)) = keys (s_handlers (sec tr m))).
    { rewrite H1, keys_dset_in. assert (X : str_in k (keys (s_handlers (sec tr m))) = true) by (apply str_in_In, Hk'; left; reflexivity). rewrite X. reflexivity. }
    pose proof Hl2 as Hl2'. rewrite <- Ty1 in Hl2'. destruct (IH m1 m' Hn2 Hl2') as (E2 & N2 & K2 & R2); [right; intros k2 Hk2; rewrite K1; apply Hk'; right; exact Hk2|exact E|].
    destruct (finish_all_facts e rel tr l m1 m' Hn2 Hl2' E) as (_ & _ & _ & _ & _ & _ & H2 & _ & _).
    assert (Off : ~ In (h_cls h) G -> sel P (emit (m_type m) [] evs) = []) by (intros C; apply emit_sel, (ours_off P G inner (h_cls h) evs HP inner_framework C F)).
    assert (NE : sel P (m_notes m1) = sel P (m_notes m) ++ sel P (emit (m_type m) [] evs)).
    { rewrite N1. destruct (existsb (fname_eqb (h_cls h)) G) eqn:EG.
      - apply existsb_exists in EG as (g & Hg & EG). apply fname_eqb_eq in EG. rewrite Forall_forall in HS. apply emit_sel_add, (settled_calm P g _ _ _ _ _ _ _ (HS g Hg) EG Eh).
      - assert (C : ~ In (h_cls h) G). { intros C. assert (X : existsb (fname_eqb (h_cls h)) G = true); [|congruence]. apply existsb_exists. exists (h_cls h). split; [exact C|]. apply fname_eqb_eq. reflexivity. }
        rewrite (Off C), app_nil_r. apply emit_sel, (ours_off P G inner (h_cls h) evs HP inner_framework C F). }
    exists (fun x => if str_eqb x k then evs else E2 x).
    assert (Ne : forall k2, In k2 (keys l) -> str_eqb k2 k = false). { intros k2 Hk2. destruct (str_eqb k2 k) eqn:X; [|reflexivity]. apply str_eqb_eq in X. subst. destruct (Hnk Hk2). }
    split; [|split; [congruence|]].
    + rewrite N2, NE, Ty1, <- app_assoc. f_equal. cbn [keys map fst flat_map]. rewrite str_eqb_refl. f_equal. apply flat_map_ext_in. intros k2 Hk2. rewrite (Ne k2 Hk2). reflexivity.
    + intros k2 h2 [Hin|Hin].
      * injection Hin as <- <-. rewrite str_eqb_refl. split; [exact Off|]. exists m, h'. repeat (split; [assumption || reflexivity|]). rewrite H2 by exact Hnk. rewrite H1, dget_dset, str_eqb_refl. reflexivity.
      * rewrite (Ne k2) by (apply (in_map fst) in Hin; exact Hin). rewrite Ty1 in R2. destruct (R2 k2 h2 Hin) as [A (mi & h2' & B)]. split; [exact A|]. exists mi, h2'. rewrite St1, K1, O1 in B. exact B.
Qed.

(** ** A section *)
Definition key_run (e : env) (rel : option mstate) (tr : bool) (m m' : mstate) (raws : list (bytes * bytes)) (k : str) (E : list sev) : Prop :=
  exists evs h mi h', feeds e (still m) rel (new_handler (first_name k raws)) (lines_of k (m_type m) raws) = (evs, h, Ok tt)
    /\ k = lower (first_name k raws) /\ linv (m_type m) h /\ still mi = still m /\ keys (s_handlers (sec tr mi)) = fields_seen raws /\ sec (negb tr) mi = sec (negb tr) m
    /\ finish_handler (mkCx e mi rel) (subject_of k) (sec_base tr h) h = (E, h', Ok tt)
    /\ same_id (new_handler (first_name k raws)) h' /\ fin_ok (m_type m) h' /\ dget k (s_handlers (sec tr m')) = Some h'.
Lemma process_group P G e rel tr m raws m' : ours P G -> Forall (silent P) G -> Forall settled G -> sec tr m = new_section tr -> process e rel tr m raws = (m', Ok tt) ->
  exists E : str -> list sev,
    sel P (m_notes m') = sel P (m_notes m) ++ flat_map (fun k => sel P (emit (m_type m) [] (E k))) (fields_seen raws)
    /\ keys (s_handlers (sec tr m')) = fields_seen raws
    /\ forall k, In k (fields_seen raws) -> (~ In (find_class k) G -> sel P (emit (m_type m) [] (E k)) = []) /\ key_run e rel tr m m' raws k (E k).
Proof.
  intros HP HS HT Hs E0. destruct (process_lines e rel tr m raws m' Hs E0) as (m1 & E1 & T1 & St & E2 & S1 & Ks & Hh & Ef).
  assert (S0 : sinv any (m_type m) (sec tr m)) by (rewrite Hs; split; constructor).
  pose proof (lines_silent P G e rel tr HP HS raws m 0%nat m1 S0 E1) as N1. set (m2 := section_size tr m1) in *.
  assert (T2 : m_type m2 = m_type m) by (unfold m2, section_size; destruct (_ <? _); exact T1).
  assert (St2 : still m2 = still m) by (unfold m2, section_size; destruct (_ <? _); [rewrite still_emit|]; exact St).
  assert (N2 : sel P (m_notes m2) = sel P (m_notes m1)).
  { unfold m2, section_size. destruct (_ <? _); [|reflexivity]. rewrite notes_emit. apply emit_sel. constructor; [|constructor]. unfold not_cls. cbn [snd ev_cls].
    constructor; [|constructor]. destruct (P FIELD_SECTION_TOO_LARGE) eqn:EP; [|reflexivity]. apply HP in EP as [EP _]. discriminate. }
  assert (O2 : sec (negb tr) m2 = sec (negb tr) m).
  { replace (sec (negb tr) m2) with (sec (negb tr) m1) by (unfold m2, section_size; destruct (_ <? _); [destruct tr|]; reflexivity).
    clear - E1. revert m E1. generalize 0%nat. induction raws as [|raw raws IH]; intros o m E1; cbn [field_lines] in E1; [injection E1 as <-; reflexivity|].
    destruct (field_line e rel tr m o raw) as [[m3 o3] [[]|x]] eqn:E3; [|discriminate]. rewrite (IH _ _ E1). pose proof (field_line_eq e rel tr m o raw) as F. cbv zeta in F.
    destruct (taken _ _ _ _ _ _) as [[[[? ?] ?] ?] r0]. rewrite F in E3. clear F. injection E3 as <- _ _. destruct tr; reflexivity. }
  destruct S1 as [Hn Hl]. pose proof Hl as Hl2. rewrite <- T2 in Hl2.
  assert (Kk : keys (s_handlers (sec tr m2)) = keys (s_handlers (sec tr m1))) by (rewrite E2; reflexivity).
  destruct (finish_all_group P G e rel tr _ HP HT m2 m' Hn Hl2 (or_introl Kk) Ef) as (E & N3 & K3 & R). rewrite T2 in *. exists E.
  split; [rewrite N3, N2, N1, Ks; reflexivity|]. split; [rewrite K3, Kk; exact Ks|]. intros k Hk. rewrite <- Ks in Hk. apply in_map_iff in Hk as ([k' h] & Ek' & Hin). cbn [fst] in Ek'. subst k'.
  destruct (R k h Hin) as (Off & mi & h' & Eh & Hid & Fin & Sti & Kmi & Omi & Hd). destruct (Hh k h Hin) as (evs & Ek & _ & Hf). set (n := first_name k raws) in *.
  rewrite Forall_forall in Hl. destruct (Hl _ Hin) as [Lh Ih]. cbn [snd] in Lh.
  assert (Hi0 : ident any (lower n, new_handler n)) by (exists n; split; [exact I|split; [reflexivity|apply same_id_refl]]).
  assert (Hid0 : same_id (new_handler n) h) by (apply (feeds_got e (still m) rel n _ _ _ _ Hi0 Hf)).
  assert (Hc : h_cls h = find_class k) by (destruct Hid0 as [-> _]; cbn [h_cls new_handler]; rewrite Ek; symmetry; apply find_class_lower).
  split; [rewrite Hc in Off; exact Off|]. exists evs, h, mi, h'. fold n. split; [exact Hf|]. split; [exact Ek|]. split; [exact Lh|]. split; [congruence|]. split; [rewrite Kmi, Kk; exact Ks|]. split; [congruence|].
  rewrite <- (ident_subject k h Ih). split; [exact Eh|]. split; [apply (same_id_trans _ _ _ Hid0 Hid)|]. split; [exact Fin|]. exact Hd.
Qed.

(** ** A run *)
Lemma sel_idem P ns : sel P (sel P ns) = sel P ns.
Proof. unfold sel. induction ns as [|n ns IH]; [reflexivity|]. cbn [filter]. destruct (P (n_cls n)) eqn:E; [|exact IH]. cbn [filter]. rewrite E, IH. reflexivity. Qed.
Theorem lint_group P G e rel top headers chunks complete trailers t start nc head base m' rel' :
  lint e rel top headers chunks complete trailers (new_linter t start nc head base) = (m', rel', Ok tt) ->
  ours P G -> quiet P -> Forall (silent P) G -> Forall settled G ->
  exists mh mt (Eh Et : str -> list sev),
    m_type mh = t /\ m_type mt = t /\ front mh = front m' /\ front mt = front m' /\ m_headers mt = m_headers m'
    /\ keys (s_handlers (m_headers m')) = fields_seen headers /\ keys (s_handlers (m_trailers m')) = fields_seen trailers
    /\ (forall k, In k (fields_seen headers) -> (~ In (find_class k) G -> sel P (emit t [] (Eh k)) = []) /\ key_run e rel false mh m' headers k (Eh k))
    /\ (forall k, In k (fields_seen trailers) -> (~ In (find_class k) G -> sel P (emit t [] (Et k)) = []) /\ key_run e rel true mt m' trailers k (Et k))
    /\ let body := flat_map (fun k => sel P (emit t [] (Eh k))) (fields_seen headers) ++ flat_map (fun k => sel P (emit t [] (Et k))) (fields_seen trailers) in
       (forall a b, sel P a = sel P b -> sel P (emit t a (all_posts e rel' m')) = sel P (emit t b (all_posts e rel' m'))) ->
       sel P (m_notes m') = sel P (emit t body (all_posts e rel' m')).
Proof.
  intros E HP HQ HS HT. rewrite (lint_front _ _ _ _ _ _ _ _ _ _ _ _ _ _ E). destruct (lint_sections_full _ _ _ _ _ _ _ _ _ _ _ _ _ _ E) as (mh & mh' & mt & mt' & (S & Y1 & Y2) & Po).
  destruct S as (H1 & H2 & H3 & T1 & T2 & T3 & H4 & C1 & C2 & Th & Tt & N & _).
  destruct (process_group P G e rel false mh headers mh' HP HS HT H1 H2) as (Eh & Nh & Kh & Rh). destruct (process_group P G e rel true mt trailers mt' HP HS HT T1 T2) as (Et & Nt & Kt & Rt).
  destruct (N P HQ) as [N0 N1]. rewrite N0, Th in Nh. rewrite N1, Nh, Tt in Nt. cbn [app] in Nt. rewrite Th in Rh. rewrite Tt in Rt.
  exists mh, mt, Eh, Et. split; [exact Th|]. split; [exact Tt|]. split; [exact Y1|]. split; [exact Y2|]. split; [congruence|]. cbn [sec] in *. split; [rewrite H3; exact Kh|]. split; [rewrite T3; exact Kt|].
  split; [intros k Hk; destruct (Rh k Hk) as [A B]; split; [exact A|]; unfold key_run in *; cbn [sec] in *; rewrite H3; exact B|].
  split; [intros k Hk; destruct (Rt k Hk) as [A B]; split; [exact A|]; unfold key_run in *; cbn [sec] in *; rewrite T3; exact B|].
  cbv zeta. intros HC. rewrite (Po P HQ HC). apply HC. rewrite Nt.
  assert (I : forall (F : str -> list sev) l, flat_map (fun k => sel P (emit t [] (F k))) l = sel P (flat_map (fun k => emit t [] (F k)) l)).
  { intros F l. induction l as [|x l IH]; [reflexivity|]. cbn [flat_map]. rewrite sel_app, IH. reflexivity. }
  rewrite !I, <- sel_app. symmetry. apply sel_idem.
Qed.
(** Checks at the end that only add notes. *)
Lemma posted_calm_ours P G t l : ours P G -> Forall (fun g => own g CONTENT_SECURITY_POLICY = false) G -> Forall (posted t) l -> Forall (calm_ev P) l.
Proof.
  intros HP HG. apply Forall_impl. intros [[subj base] e] (g & _ & _ & He & _). unfold calm_ev. cbn [snd] in *. destruct e as [| | | |p n vrs]; auto. destruct He as (H1 & H2 & _ & _ & ->). rewrite Forall_forall in HG. split.
  - destruct (P CONTENT_SECURITY_POLICY) eqn:E; [|reflexivity]. apply HP in E as [_ E]. specialize (HG _ (E _ H2)). congruence.
  - destruct (P n) eqn:E; [|reflexivity]. apply HP in E as [_ E]. specialize (HG _ (E _ H1)). congruence.
Qed.
Lemma flat_emit {A} P t (F : A -> list sev) l : Forall (calm_ev P) (flat_map F l) -> sel P (emit t [] (flat_map F l)) = flat_map (fun a => sel P (emit t [] (F a))) l.
Proof.
  induction l as [|a l IH]; intros H; [reflexivity|]. cbn [flat_map] in *. apply Forall_app in H as [H1 H2]. rewrite emit_sel_app by exact H2. rewrite IH by exact H2. reflexivity.
Qed.
