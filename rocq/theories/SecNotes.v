(** * The notes and values a field section ends up with, exactly. *)
From Verif Require Import PyStr Regex Grammar Note PyLib Utils FieldAttrs Types Fields1 Fields2 Fields3 Framework
  EvLogic NoteLemmas LexLemmas ParamLemmas NumLemmas NameLemmas FrameLemmas PassParse PassEval PassFrame PassSec PassProc Checks Message Session SectionLemmas.
From Coq Require Import ZifyBool ZifyN.
Open Scope N_scope.

(** ** Adding up notes *)
(** A sub-note event concerns none of the classes [P]. *)
Definition calm_ev (P : nid -> bool) (s : sev) : Prop :=
  match snd s with EKid p n _ => P p = false /\ P n = false | _ => True end.
Lemma emit_sel_add P t l : forall ns, Forall (calm_ev P) l -> sel P (emit t ns l) = sel P ns ++ sel P (emit t [] l).
Proof.
  induction l as [|[[subj base] e] l IH]; intros ns H; [rewrite app_nil_r; reflexivity|]. inversion H as [|? ? Hc Hl]; subst.
  change (emit t ns ((subj, base, e) :: l)) with (emit t (emit_one t ns (subj, base, e)) l).
  change (emit t [] ((subj, base, e) :: l)) with (emit t (emit_one t [] (subj, base, e)) l).
  rewrite (IH (emit_one t ns _) Hl), (IH (emit_one t [] _) Hl), app_assoc. f_equal.
  unfold calm_ev in Hc. cbn [snd] in Hc. destruct e as [n cat vrs kids|subj' n vrs|n c vrs|v|p n vrs]; cbn [emit_one app].
  - rewrite sel_app. reflexivity.
  - rewrite sel_app. reflexivity.
  - rewrite app_nil_r. reflexivity.
  - rewrite app_nil_r. reflexivity.
  - destruct Hc as [Hp Hn]. cbn [attach]. change (sel P [mk_note t subj n None (dupdate base vrs) []]) with (if P n then [mk_note t subj n None (dupdate base vrs) []] else []).
    rewrite Hn, app_nil_r. destruct (attach t p n vrs ns) as [ns'|] eqn:E; [apply (attach_sel P t p n vrs); auto|].
    rewrite sel_app. change (sel P [mk_note t subj n None (dupdate base vrs) []]) with (if P n then [mk_note t subj n None (dupdate base vrs) []] else []).
    rewrite Hn, app_nil_r. reflexivity.
Qed.
Lemma emit_sel_app P t a b : Forall (calm_ev P) b -> sel P (emit t [] (a ++ b)) = sel P (emit t [] a) ++ sel P (emit t [] b).
Proof. intros H. rewrite emit_app. apply emit_sel_add, H. Qed.
Definition brief (n : note) : nid * str := (n_cls n, n_subj n).
Definition fbriefs (ns : list note) : list (nid * str) := map brief (sel framework ns).
Lemma fbriefs_emit t l ns : Forall (calm_ev framework) l -> fbriefs (emit t ns l) = fbriefs ns ++ briefs l.
Proof.
  unfold fbriefs. intros H. rewrite (emit_sel_add framework t l ns H), map_app. f_equal. clear ns.
  induction l as [|[[subj base] e] l IH]; [reflexivity|]. inversion H as [|? ? Hc Hl]; subst.
  change (emit t [] ((subj, base, e) :: l)) with (emit t (emit_one t [] (subj, base, e)) l). rewrite (emit_sel_add framework t l _ Hl), map_app, (IH Hl).
  change ((subj, base, e) :: l) with ([(subj, base, e)] ++ l). rewrite briefs_app. f_equal. clear IH H Hl.
  unfold briefs. destruct e as [n cat vrs kids|subj' n vrs|n c vrs|v|p n vrs]; cbn [flat_map ev_brief emit_one attach app sel filter mk_note n_cls fst]; try reflexivity.
  - destruct (framework n); reflexivity.
  - destruct (framework n); reflexivity.
  - destruct Hc as [_ Hn]. cbn [snd] in Hn. rewrite Hn. reflexivity.
Qed.
Lemma fsevg_calm F f l : Forall (fsevg F f) l -> Forall (calm_ev framework) l.
Proof.
  apply Forall_impl. intros [[subj base] e] (_ & [[He _]|(n & cat & vrs & -> & _)]); unfold calm_ev; cbn [snd]; [|exact I].
  destruct e; auto. destruct He as (H1 & H2 & _). split; eapply own_framework; eassumption.
Qed.
(** The classes [P] belong to field [f] alone. *)
Definition mine (P : nid -> bool) (f : fname) : Prop :=
  (forall n, P n = true -> framework n = false /\ forall g, own g n = true -> g = f)
  /\ own f CONTENT_SECURITY_POLICY = false.
Lemma mine_calm P f F g l : mine P f -> (forall n, F n = true -> framework n = true) -> Forall (fsevg F g) l -> Forall (calm_ev P) l.
Proof.
  intros [HP Hf] HF. apply Forall_impl. intros [[subj base] e] (_ & [[He _]|(n & cat & vrs & -> & _)]); unfold calm_ev; cbn [snd]; [|exact I].
  destruct e as [| | | |p n vrs]; auto. destruct He as (H1 & H2 & _ & _ & ->). split.
  - destruct (P CONTENT_SECURITY_POLICY) eqn:E; [|reflexivity]. apply HP in E as [_ E]. rewrite (E _ H2) in H2. congruence.
  - destruct (P n) eqn:E; [|reflexivity]. apply HP in E as [_ E]. rewrite (E _ H1) in H2. congruence.
Qed.
Lemma mine_off P f F g l : mine P f -> (forall n, F n = true -> framework n = true) -> g <> f -> Forall (fsevg F g) l -> Forall (not_cls P) l.
Proof.
  intros [HP Hf] HF Hg. apply Forall_impl. intros s Hs. apply fsevg_cls in Hs. unfold not_cls. eapply Forall_impl; [|exact Hs].
  intros n [Hn|Hn]; destruct (P n) eqn:E; try reflexivity; apply HP in E as [E1 E2].
  - rewrite (HF n Hn) in E1. discriminate.
  - destruct (Hg (E2 _ Hn)).
Qed.
Lemma mine_framework P f t ns subj base l : mine P f -> Forall (fun e => exists n cat vrs, e = ENote n cat vrs [] /\ framework n = true) l ->
  sel P (emit t ns (tag subj base l)) = sel P ns.
Proof.
  intros [HP _] H. apply emit_sel. unfold tag. apply Forall_map. eapply Forall_impl; [|exact H]. intros e (n & cat & vrs & -> & Hn).
  unfold not_cls. cbn [snd ev_cls]. constructor; [|constructor]. destruct (P n) eqn:E; [|reflexivity]. apply HP in E as [E _]. congruence.
Qed.

(** ** The lines *)
(** The framework's classes for a line, but those of its content. *)
Definition enc_report (raw : bytes * bytes) : list nid :=
  (match decode_ascii_strict (fst raw) with Some _ => [] | None => [FIELD_NAME_ENCODING] end)
  ++ (match decode_ascii_strict (snd raw) with Some _ => [] | None => [FIELD_VALUE_ENCODING] end).
Definition name_report (t : mtype) (n : str) : list nid :=
  if wrong t (find_class n) then [wrong_class t]
  else if tok (strip n) then (if fa_dep (attrs (find_class n)) then [FIELD_DEPRECATED] else [])
  else [FIELD_NAME_BAD_SYNTAX].
Definition size_report (raw : bytes * bytes) : list nid := if max_field_size <? raw_size raw then [FIELD_TOO_LARGE] else [].
Definition line_report (t : mtype) (ro : bytes * bytes * nat) : list (nid * str) :=
  let '(raw, o) := ro in
  about (offset_subj o) (enc_report raw ++ name_report t (raw_name raw))
  ++ (if accepted t (raw_name raw)
      then input_report (find_class (raw_name raw)) (raw_value raw) o ++ about (offset_subj o) (size_report raw) else []).
Definition fw_note (e : ev) : Prop := exists n cat vrs, e = ENote n cat vrs [] /\ framework n = true.
Lemma enc_fw raw : Forall fw_note (enc_events raw) /\ forall subj base, briefs (tag subj base (enc_events raw)) = about subj (enc_report raw).
Proof.
  unfold enc_events, enc_report, read_name, read_value. destruct raw as [a b]. cbn [fst snd].
  assert (F : forall n cat vrs, framework n = true -> fw_note (ENote n cat vrs [])) by (intros; eexists _, _, _; split; [reflexivity|assumption]).
  destruct (decode_ascii_strict a), (decode_ascii_strict b); cbn [snd app]; (split; [repeat constructor; apply F; reflexivity|intros; reflexivity]).
Qed.
Lemma size_fw h raw : Forall fw_note (size_events h raw) /\ forall subj base, briefs (tag subj base (size_events h raw)) = about subj (size_report raw).
Proof.
  unfold size_events, size_report. destruct (_ <? _); (split; [|intros; reflexivity]); constructor; [|constructor]. eexists _, _, _. split; reflexivity.
Qed.
Lemma pre_fw t k h n : ident any (k, h) -> k = lower n ->
  Forall fw_note (snd (fst (pre_check t h))) /\ forall subj base, briefs (tag subj base (snd (fst (pre_check t h)))) = about subj (name_report t n).
Proof.
  intros Hi Ek. rewrite (pre_check_eq t k h n Hi Ek). unfold name_report, dep_events.
  assert (F : forall n cat vrs, framework n = true -> fw_note (ENote n cat vrs [])) by (intros; eexists _, _, _; split; [reflexivity|assumption]).
  assert (W : framework (wrong_class t) = true) by (destruct t; reflexivity).
  destruct (wrong t (find_class n)); cbn [fst snd].
  - split; [constructor; [apply F, W|constructor]|]. intros. apply briefs_note, W.
  - destruct Hi as (n' & _ & E1 & (E2 & _)). cbn [fst snd] in *. assert (Ec : h_cls h = find_class n) by (rewrite E2; apply find_class_case; congruence).
    rewrite Ec. destruct (tok _); cbn [fst snd].
    + destruct (fa_dep _); (split; [repeat constructor; apply F; reflexivity|intros; reflexivity]).
    + split; [repeat constructor; apply F; reflexivity|intros; reflexivity].
Qed.
Lemma fw_calm P subj base l : Forall fw_note l -> Forall (calm_ev P) (tag subj base l).
Proof. intros H. unfold tag. apply Forall_map. eapply Forall_impl; [|exact H]. intros e (n & cat & vrs & -> & _). exact I. Qed.
Lemma fw_off P f subj base l : mine P f -> Forall fw_note l -> Forall (not_cls P) (tag subj base l).
Proof.
  intros [HP _] H. unfold tag. apply Forall_map. eapply Forall_impl; [|exact H]. intros e (n & cat & vrs & -> & Hn).
  unfold not_cls. cbn [snd ev_cls]. constructor; [|constructor]. destruct (P n) eqn:E; [|reflexivity]. apply HP in E as [E _]. congruence.
Qed.
Lemma ident_find k h n : ident any (k, h) -> k = lower n -> h_cls h = find_class n.
Proof. intros (n' & _ & E1 & (E2 & _)) ->. cbn [fst snd] in *. rewrite E2. apply find_class_case. congruence. Qed.
Lemma own_hpre t hs raw : Forall (fun kh => linv t (snd kh) /\ ident any kh) hs -> hpre t (own_handler hs raw).
Proof.
  intros H. unfold own_handler. destruct (dget _ _) as [h|] eqn:E; [|apply hpre_new]. apply dget_In in E. rewrite Forall_forall in H. apply (H _ E).
Qed.
(** One line: the framework's notes, and the handler's input events. *)
Lemma line_notes e rel tr m o raw m' o' : sinv any (m_type m) (sec tr m) -> field_line e rel tr m o raw = (m', o', Ok tt) ->
  exists l3 l4 h2,
    taken e (still m) rel (own_handler (s_handlers (sec tr m)) raw) (raw_value raw) o = (l3, l4, h2, accepted (m_type m) (raw_name raw), Ok tt)
    /\ Forall (fsevi (find_class (raw_name raw))) l4
    /\ fbriefs (m_notes m') = fbriefs (m_notes m) ++ line_report (m_type m) (raw, o)
    /\ (forall P f, mine P f -> sel P (m_notes m') = sel P (m_notes m) ++ sel P (emit (m_type m) [] l4))
    /\ sinv any (m_type m) (sec tr m') /\ m_type m' = m_type m.
Proof.
  intros Hs E. pose proof Hs as [Hn Hf]. pose proof (Forall_impl _ (fun a Ha => proj2 Ha) Hf) as Hi. cbv beta in Hi.
  destruct (line_step e rel tr m o raw m' o' Hi E) as (l3 & l4 & h2 & Et & Eo & Em & Hi2).
  pose proof (field_line_pass any e rel tr m o raw Hs I) as Hp. rewrite E in Hp. destruct Hp as (_ & S' & _).
  set (h := own_handler (s_handlers (sec tr m)) raw) in *.
  pose proof (own_handler_ident _ raw Hi) as Hh. fold h in Hh.
  pose proof (ident_find _ _ (raw_name raw) Hh eq_refl) as Ec.
  pose proof (own_hpre (m_type m) _ raw Hf) as Hpre. fold h in Hpre.
  destruct (pre_fw (m_type m) _ h (raw_name raw) Hh eq_refl) as [F3 B3]. destruct (enc_fw raw) as [F1 B1]. destruct (size_fw h raw) as [F5 B5].
  assert (X : snd (fst (pre_check (m_type m) h)) = l3 /\ Forall (fsevi (find_class (raw_name raw))) l4 /\
              briefs l4 = (if accepted (m_type m) (raw_name raw) then input_report (find_class (raw_name raw)) (raw_value raw) o else [])).
  { pose proof (pre_check_pass (m_type m) h Hpre) as PP. unfold taken in Et. rewrite still_type in Et.
    destruct (pre_check (m_type m) h) as [[h1 l3'] go]. destruct PP as (_ & _ & _ & _ & _ & Hgo & _). destruct go.
    - destruct (Hgo eq_refl) as [Hw ->]. pose proof (handle_input_pass (mkCx e (still m) rel) h (raw_value raw) o Hpre Hw) as HI.
      destruct (handle_input (mkCx e (still m) rel) h (raw_value raw) o) as [[l4' h2'] r]. injection Et as -> -> -> <- ->.
      destruct HI as (G1 & _ & _ & G2). rewrite Ec in G1, G2. auto.
    - injection Et as -> <- -> <-. repeat split. constructor. }
  destruct X as (E3 & F4 & B4). exists l3, l4, h2. rewrite E3 in F3, B3. split; [exact Et|]. split; [exact F4|].
  assert (Mn : m_notes m' = emit (m_type m) (m_notes m) (tag (offset_subj o) [] (enc_events raw) ++ tag (offset_subj o) (line_base h) l3 ++ l4
                    ++ (if accepted (m_type m) (raw_name raw) then tag (offset_subj o) [] (size_events h raw) else [])))
    by (rewrite Em; destruct tr; reflexivity).
  assert (Tm : m_type m' = m_type m) by (rewrite Em; destruct tr; reflexivity).
  split; [|split; [|split; [exact S'|exact Tm]]].
  - rewrite Mn, fbriefs_emit.
    + f_equal. rewrite !briefs_app, B1, B3, B4. cbn [line_report]. unfold about at 3. rewrite map_app. unfold about. rewrite <- app_assoc. do 2 f_equal.
      destruct (accepted _ _); [rewrite B5; reflexivity|reflexivity].
    + repeat (apply Forall_app; split); try (apply fw_calm; assumption); [apply (fsevg_calm _ _ _ F4)|].
      destruct (accepted _ _); [apply fw_calm, F5|constructor].
  - intros P f HP. rewrite Mn, !emit_app.
    assert (Q : forall ns l, Forall fw_note l -> forall subj base, sel P (emit (m_type m) ns (tag subj base l)) = sel P ns).
    { intros ns l Hl subj base. apply emit_sel, (fw_off P f); assumption. }
    assert (Z : forall ns, sel P (emit (m_type m) ns (if accepted (m_type m) (raw_name raw) then tag (offset_subj o) [] (size_events h raw) else [])) = sel P ns).
    { intros ns. destruct (accepted _ _); [apply Q, F5|reflexivity]. }
    rewrite Z, (emit_sel_add P _ l4), !Q; auto. apply (mine_calm P f inner _ _ HP inner_framework F4).
Qed.
(** All lines: the framework's notes. *)
Lemma lines_briefs e rel tr raws : forall m o m', sinv any (m_type m) (sec tr m) -> field_lines e rel tr m o raws = (m', Ok tt) ->
  fbriefs (m_notes m') = fbriefs (m_notes m) ++ flat_map (line_report (m_type m)) (placed (m_type m) o raws)
  /\ sinv any (m_type m) (sec tr m') /\ m_type m' = m_type m.
Proof.
  induction raws as [|raw raws IH]; intros m o m' Hs E; cbn [field_lines placed flat_map] in *.
  - injection E as <-. rewrite app_nil_r. auto.
  - destruct (field_line e rel tr m o raw) as [[m1 o1] [[]|x]] eqn:E1; [|discriminate].
    pose proof Hs as [_ Hf]. destruct (line_step e rel tr m o raw m1 o1 (Forall_impl _ (fun a Ha => proj2 Ha) Hf) E1) as (_ & _ & _ & _ & Eo & _).
    destruct (line_notes e rel tr m o raw m1 o1 Hs E1) as (l3 & l4 & h2 & _ & _ & B & _ & S1 & T1).
    specialize (IH m1 o1 m'). rewrite T1 in IH. destruct (IH S1 E) as (B2 & S2 & T2).
    split; [|split; [exact S2|exact T2]]. rewrite B2, B, Eo, <- app_assoc. reflexivity.
Qed.
(** ... and those of a field with one spelling of its name. *)
Definition spelled (f : fname) (k : str) (raws : list (bytes * bytes)) : Prop :=
  Forall (fun r => find_class (raw_name r) = f -> raw_key r = k) raws.
Lemma lines_own P f k : mine P f -> forall e rel tr raws m o m', sinv any (m_type m) (sec tr m) ->
  field_lines e rel tr m o raws = (m', Ok tt) -> find_class k = f -> spelled f k raws ->
  match filter (keyed k) (placed (m_type m) o raws) with
  | [] => sel P (m_notes m') = sel P (m_notes m)
  | ro :: l => exists evs h', feeds e (still m) rel (own_handler (s_handlers (sec tr m)) (fst ro)) (map input_of (ro :: l)) = (evs, h', Ok tt)
                /\ sel P (m_notes m') = sel P (m_notes m) ++ sel P (emit (m_type m) [] evs)
                /\ Forall (fsevi f) evs
  end.
Proof.
  intros HP e rel tr. induction raws as [|raw raws IH]; intros m o m' Hs E Hk Hsp; cbn [field_lines placed filter] in *.
  - injection E as <-. reflexivity.
  - destruct (field_line e rel tr m o raw) as [[m1 o1] [[]|x]] eqn:E1; [|discriminate].
    pose proof Hs as [_ Hf]. pose proof (Forall_impl _ (fun a Ha => proj2 Ha) Hf) as Hi. cbv beta in Hi.
    destruct (line_step e rel tr m o raw m1 o1 Hi E1) as (l3 & l4 & h2 & Et & Eo & Em & Hi1).
    destruct (line_notes e rel tr m o raw m1 o1 Hs E1) as (l3' & l4' & h2' & Et' & F4 & _ & N1 & S1 & T1).
    rewrite Et in Et'. injection Et' as <- <- <-. specialize (N1 P f HP).
    assert (Sh : s_handlers (sec tr m1) = dset (raw_key raw) h2 (s_handlers (sec tr m))) by (rewrite Em, sec_emit, sec_set; reflexivity).
    assert (St : still m1 = still m) by (rewrite Em, still_emit, still_set; reflexivity).
    inversion Hsp as [|? ? Hsp1 Hsp2]; subst x l.
    specialize (IH m1 o1 m'). rewrite T1 in IH. specialize (IH S1 E Hk Hsp2). rewrite Eo, St, Sh in IH.
    unfold keyed at 1. cbn [fst].
    assert (KK : forall ro l, filter (keyed k) (placed (m_type m) (if accepted (m_type m) (raw_name raw) then S o else o) raws) = ro :: l -> raw_key (fst ro) = k).
    { intros ro l Ef. assert (Hin : In ro (ro :: l)) by (left; reflexivity). rewrite <- Ef in Hin. apply filter_In in Hin as [_ Hin]. apply str_eqb_eq in Hin. exact Hin. }
    destruct (str_eqb (raw_key raw) k) eqn:Ek.
    + apply str_eqb_eq in Ek. rewrite feeds_cons. cbn [fst snd]. rewrite Et.
      assert (Cf : find_class (raw_name raw) = f) by (rewrite <- Hk, <- Ek; unfold raw_key; symmetry; apply find_class_lower).
      rewrite Cf in F4.
      destruct (filter (keyed k) _) as [|ro l] eqn:Ef.
      * exists (l4 ++ []), h2. split; [reflexivity|]. rewrite app_nil_r. split; [|exact F4]. rewrite IH. exact N1.
      * destruct IH as (evs & h' & Hf' & Hn & Hfe). pose proof (KK ro l eq_refl) as Ko.
        assert (Oh : own_handler (dset (raw_key raw) h2 (s_handlers (sec tr m))) (fst ro) = h2).
        { unfold own_handler. rewrite dget_dset, Ko, Ek, str_eqb_refl. reflexivity. }
        rewrite Oh in Hf'. rewrite Hf'. exists (l4 ++ evs), h'. split; [reflexivity|]. split; [|apply Forall_app; auto].
        rewrite Hn, N1, <- app_assoc. f_equal. symmetry. apply emit_sel_app. apply (mine_calm P f inner f evs HP inner_framework Hfe).
    + assert (Cf : find_class (raw_name raw) <> f) by (intros C; apply Hsp1 in C; rewrite C, str_eqb_refl in Ek; discriminate).
      assert (N2 : sel P (m_notes m1) = sel P (m_notes m)).
      { rewrite N1, (emit_sel P _ l4 []); [cbn; apply app_nil_r|]. apply (mine_off P f inner _ _ HP inner_framework Cf F4). }
      destruct (filter (keyed k) _) as [|ro l] eqn:Ef; [congruence|].
      destruct IH as (evs & h' & Hf' & Hn & Hfe). exists evs, h'. pose proof (KK ro l eq_refl) as Ko.
      split; [|rewrite Hn, N2; auto]. rewrite <- Hf'. f_equal.
      unfold own_handler. rewrite dget_dset, Ko. rewrite str_eqb_sym in Ek. rewrite Ek. reflexivity.
Qed.
(** The fields, in the order they are first seen. *)
Definition seen (ks : list str) (r : bytes * bytes) : list str := if str_in (raw_key r) ks then ks else ks ++ [raw_key r].
Definition fields_seen (raws : list (bytes * bytes)) : list str := fold_left seen raws [].
Lemma keys_dset_in {A} k (v : A) d : keys (dset k v d) = if str_in k (keys d) then keys d else keys d ++ [k].
Proof.
  induction d as [|[k2 v2] d IH]; cbn [dset keys map fst]; [reflexivity|]. destruct (str_eqb k k2) eqn:E; cbn [keys map fst str_in existsb].
  - apply str_eqb_eq in E. subst. rewrite str_eqb_refl. reflexivity.
  - rewrite E. cbn [orb]. unfold keys in IH. fold (str_in k (map fst d)). rewrite IH. destruct (str_in k (map fst d)); reflexivity.
Qed.
Lemma lines_keys e rel tr raws : forall m o m', Forall (ident any) (s_handlers (sec tr m)) -> field_lines e rel tr m o raws = (m', Ok tt) ->
  keys (s_handlers (sec tr m')) = fold_left seen raws (keys (s_handlers (sec tr m))).
Proof.
  induction raws as [|raw raws IH]; intros m o m' Hi E; cbn [field_lines fold_left] in *; [injection E as <-; reflexivity|].
  destruct (field_line e rel tr m o raw) as [[m1 o1] [[]|x]] eqn:E1; [|discriminate].
  destruct (line_step e rel tr m o raw m1 o1 Hi E1) as (l3 & l4 & h2 & Et & Eo & Em & Hi1).
  assert (S1 : s_handlers (sec tr m1) = dset (raw_key raw) h2 (s_handlers (sec tr m))) by (rewrite Em, sec_emit, sec_set; reflexivity).
  rewrite (IH m1 o1 m') by (rewrite ?S1; assumption). rewrite S1, keys_dset_in. reflexivity.
Qed.

(** ** What a handler holds after its lines *)
(** Parsing looks at the type, time and base address of its own message only,
    and at nothing of its handler. *)
Definition core (V : mstate) : mstate := new_linter (m_type V) (m_start V) false false (m_base V).
Definition nobody : handler := mkHandler F__unknown [] [] [] VNone [] false [].
(** What [parse] makes of one (stripped) value: nothing, if it raises ValueError. *)
Definition parsed_as (e : env) (V : mstate) (f : fname) (v : str) : list pyval :=
  match snd (parse_of f (mkCx e (core V) None) nobody (strip v)) with Ok x => [x] | Err _ => [] end.
Lemma snd_skip {A} (m : W unit) (k : W A) : snd m = Ok tt -> snd (m ;;; k) = snd k.
Proof. unfold bind. destruct m as [a [[]|x]]; [|discriminate]. intros _. destruct k. reflexivity. Qed.
Lemma snd_when b n vrs : snd (when b (add_note n vrs)) = Ok tt.
Proof. destruct b; reflexivity. Qed.
Lemma snd_bind {A B} (m m' : W A) (k k' : A -> W B) : snd m = snd m' -> (forall x, snd (k x) = snd (k' x)) -> snd (bind m k) = snd (bind m' k').
Proof.
  intros E Ek. unfold bind. destruct m as [a [x|x]], m' as [a' [x'|x']]; cbn [snd] in E; try discriminate; [injection E as <-|injection E as <-; reflexivity].
  specialize (Ek x). destruct (k x), (k' x). exact Ek.
Qed.
Lemma snd_lift {A B} (x : A) (k : A -> W B) : snd (y <- lift (Ok x) ;; k y) = snd (k x).
Proof. unfold bind. cbn [lift ret]. destruct (k x). reflexivity. Qed.
Lemma heads_err v x : heads v = Err x -> is_ValueError x = false.
Proof.
  unfold heads, as_list. assert (H : forall l x, mapR (fun x => index x 0) l = Err x -> is_ValueError x = false).
  { clear. induction l as [|y l IH]; intros x; cbn [mapR]; [discriminate|]. destruct (index y 0) as [z|z] eqn:E; cbn [rbind].
    - destruct (mapR _ l) as [s|s] eqn:Em; [discriminate|]. cbn. intros Hx. injection Hx as <-. apply IH. reflexivity.
    - intros Hx. injection Hx as <-. unfold index in E. destruct y; try (injection E as <-; reflexivity); destruct (nth_error _ _); try discriminate E; injection E as <-; reflexivity. }
  destruct v; cbn [rbind]; try (intros E; injection E as <-; reflexivity); apply H.
Qed.
Lemma parse_core f e m rel h v :
  match snd (parse_of f (mkCx e m rel) h (strip v)) with
  | Ok x => parsed_as e m f v = [x]
  | Err x => is_ValueError x = true -> parsed_as e m f v = []
  end.
Proof.
  unfold parsed_as.
  assert (H : snd (parse_of f (mkCx e m rel) h (strip v)) = snd (parse_of f (mkCx e (core m) None) nobody (strip v))
     \/ (f = F_content_encoding /\ exists x, snd (parse_of f (mkCx e m rel) h (strip v)) = Err x /\ is_ValueError x = false)).
  { destruct h, m. destruct f; try (left; reflexivity); cbn [parse_of core].
    - unfold p_content_encoding at 2 3. replace (related_request _) with (@None mstate) at 1 by (destruct m_type; reflexivity). unfold p_content_encoding. set (c := mkCx e _ rel). destruct (related_request c) as [r|]; [|left; reflexivity].
      destruct (heads (rel_list r "accept-encoding")) as [ae|x] eqn:Eh; cbn [lift].
      + left. rewrite !snd_skip; [reflexivity|reflexivity|]. rewrite snd_lift. apply snd_when.
      + right. split; [reflexivity|]. exists x. split; [reflexivity|]. apply (heads_err _ _ Eh).
    - left. unfold p_content_range. rewrite !snd_skip by apply snd_when.
      destruct (split1 32 (strip v)) as [[unit rest]|]; [|reflexivity]. destruct (split1 47 rest) as [[rng len]|]; [|reflexivity].
      destruct (_ && _); [reflexivity|]. apply snd_bind; [reflexivity|]. intros cl. destruct (_ && _); [reflexivity|]. apply snd_bind; [reflexivity|]. intros r.
      destruct (str_eqb rng [42]); [rewrite !snd_skip by apply snd_when; reflexivity|]. apply snd_bind; [|reflexivity].
      destruct r as [[a b]|]; [|reflexivity]. rewrite !snd_skip by apply snd_when. reflexivity.
    - left. unfold p_location. rewrite (snd_skip (when _ _)) by apply snd_when. symmetry. rewrite (snd_skip (when _ _)) by apply snd_when. reflexivity. }
  destruct H as [H|(_ & x & H & Hx)].
  - rewrite H. destruct (snd (parse_of f (mkCx e (core m) None) nobody (strip v))); reflexivity || (intros; reflexivity).
  - rewrite H. intros C. congruence.
Qed.
Definition elem_val (e : env) (V : mstate) (rel : option mstate) (h : handler) (v : str) : list pyval := parsed_as e V (h_cls h) v.
Definition line_vals (e : env) (V : mstate) (rel : option mstate) (h : handler) (v : str) : list pyval :=
  flat_map (elem_val e V rel h) (split_list_field v).
Lemma blank_same h h' : same_id h h' -> blank h = blank h'.
Proof. intros (E1 & E2 & _). unfold blank. rewrite E1, E2. reflexivity. Qed.
Lemma member_val_same e V rel h h' v : same_id h h' -> elem_val e V rel h' v = elem_val e V rel h v.
Proof. intros [H _]. unfold elem_val. rewrite H. reflexivity. Qed.
Lemma list_member_val e V rel h v evs o : list_member (mkCx e V rel) h v = (evs, Ok o) ->
  elem_val e V rel h v = match o with Some x => [x] | None => [] end.
Proof.
  unfold list_member, elem_val. pose proof (parse_core (h_cls h) e V rel h v) as H. destruct (parse_of _ _ h (strip v)) as [l r]. unfold bind at 1.
  destruct (list_syntax h v) as [a [x|x]]; [|discriminate]. unfold catch_value, bind, ret. cbn [fst snd] in *.
  destruct r as [y|y]; cbn [snd] in *.
  - rewrite app_nil_r. intros E. injection E as _ <-. exact H.
  - destruct (is_ValueError y); [|discriminate]. intros E. injection E as _ <-. auto.
Qed.
Lemma list_input_val e V rel subj l : forall h vs evs h', list_input (mkCx e V rel) subj h l = (evs, h', Ok tt) -> h_val h = VList vs ->
  h_val h' = VList (vs ++ flat_map (elem_val e V rel h) l) /\ h_raw h' = h_raw h /\ h_sf h' = h_sf h.
Proof.
  induction l as [|v l IH]; intros h vs evs h' E Hv; cbn [list_input flat_map] in *.
  - injection E as _ <-. rewrite app_nil_r. auto.
  - pose proof (list_member_val e V rel h v) as Hm. destruct (list_member (mkCx e V rel) h v) as [le [o|x]]; [|discriminate].
    specialize (Hm _ _ eq_refl). rewrite Hm.
    set (h2 := match o with Some x => _ | None => _ end) in E.
    assert (H2 : same_id h h2 /\ h_val h2 = VList (vs ++ match o with Some x => [x] | None => [] end) /\ h_raw h2 = h_raw h /\ h_sf h2 = h_sf h).
    { unfold h2. destruct o as [x|]; [|rewrite app_nil_r; repeat split; exact Hv]. unfold append_val. cbn [h_val h_add_aux]. rewrite Hv. repeat split. }
    destruct H2 as (I2 & V2 & R2 & S2). destruct (list_input (mkCx e V rel) subj h2 l) as [[evs' h''] r'] eqn:E2. injection E as _ <- ->.
    destruct (IH h2 _ _ _ E2 V2) as (A & B & C). rewrite A, B, C, <- app_assoc. split; [|auto]. do 3 f_equal.
    apply flat_map_ext. intros a. apply member_val_same, I2.
Qed.
Definition got (e : env) (V : mstate) (rel : option mstate) (h h' : handler) (l : list (str * nat)) : Prop :=
  match kind_of (h_cls h) with
  | KSingleton | KBroken => h_raw h' = h_raw h ++ l
  | KSF _ | KJson => forall vs, h_val h = VList vs -> h_val h' = VList (vs ++ map (fun x => VStr (fst x)) l)
  | KList => forall vs, h_val h = VList vs -> h_val h' = VList (vs ++ flat_map (fun x => line_vals e V rel h (fst x)) l)
  | KUnknown => h_val h' = h_val h
  end.
Lemma got_trans e V rel a b c l1 l2 : same_id a b -> got e V rel a b l1 -> got e V rel b c l2 -> got e V rel a c (l1 ++ l2).
Proof.
  intros H. unfold got. pose proof H as [-> _]. destruct (kind_of (h_cls a)).
  - intros -> ->. symmetry. apply app_assoc.
  - intros A B vs Hv. rewrite (B _ (A _ Hv)), flat_map_app, <- app_assoc. do 3 f_equal. apply flat_map_ext. intros x. unfold line_vals. apply flat_map_ext. intros y. apply member_val_same, H.
  - intros -> ->. symmetry. apply app_assoc.
  - intros A B vs Hv. rewrite (B _ (A _ Hv)), map_app, <- app_assoc. reflexivity.
  - intros A B vs Hv. rewrite (B _ (A _ Hv)), map_app, <- app_assoc. reflexivity.
  - congruence.
Qed.
Lemma handle_input_got e V rel h v o evs h' : handle_input (mkCx e V rel) h v o = (evs, h', Ok tt) -> got e V rel h h' [(v, o)].
Proof.
  unfold handle_input, got. destruct (kind_of (h_cls h)).
  - intros E. injection E as _ <-. reflexivity.
  - intros E vs Hv. destruct (list_input_val e V rel _ _ h vs _ _ E Hv) as [-> _]. cbn [flat_map fst]. rewrite app_nil_r. reflexivity.
  - intros E. injection E as _ <-. reflexivity.
  - intros E vs Hv. injection E as _ <-. unfold append_val. rewrite Hv. reflexivity.
  - intros E vs Hv. injection E as _ <-. unfold append_val. rewrite Hv. reflexivity.
  - intros E. injection E as _ <-. reflexivity.
Qed.
(** An accepted field's lines are all taken; a rejected one's are all ignored. *)
Lemma feeds_got e V rel n l : forall h evs h', ident any (lower n, h) -> feeds e V rel h l = (evs, h', Ok tt) ->
  same_id h h' /\
  if accepted (m_type V) n then got e V rel h h' l
  else h_raw h' = h_raw h /\ h_sf h' = h_sf h /\ h_val h' = match l with [] => h_val h | _ => if wrong (m_type V) (find_class n) then VNone else h_val h end.
Proof.
  induction l as [|[v o] l IH]; intros h evs h' Hi E; cbn [feeds] in E.
  - injection E as _ <-. split; [apply same_id_refl|]. destruct (accepted _ _); [|auto]. unfold got. destruct (kind_of _); rewrite ?app_nil_r; auto; intros vs Hv; cbn; rewrite app_nil_r; exact Hv.
  - pose proof (taken_id e V rel h v o) as Ht.
    assert (Hx : accepted (m_type V) n = true -> forall l4 h2, (exists l3 go, taken e V rel h v o = (l3, l4, h2, go, Ok tt)) -> got e V rel h h2 [(v, o)]).
    { intros Ha l4 h2 (l3 & go & Et). unfold taken in Et. rewrite (pre_check_eq _ _ _ n Hi eq_refl) in Et. unfold accepted in Ha.
      apply andb_prop in Ha as [Ha1 Ha2]. apply Bool.negb_true_iff in Ha1. rewrite Ha1, Ha2 in Et.
      destruct (handle_input (mkCx e V rel) h v o) as [[l4' h2'] r] eqn:Eh. injection Et as _ <- <- _ ->. apply (handle_input_got _ _ _ _ _ _ _ _ Eh). }
    assert (Hy : accepted (m_type V) n = false -> forall l3 l4 h2 go, taken e V rel h v o = (l3, l4, h2, go, Ok tt) ->
       h2 = if wrong (m_type V) (find_class n) then h_set_val h VNone else h).
    { intros Ha l3 l4 h2 go Et. unfold taken in Et. rewrite (pre_check_eq _ _ _ n Hi eq_refl) in Et. unfold accepted in Ha.
      destruct (wrong _ _); cbn [negb andb] in Ha; [injection Et as _ _ <- _; reflexivity|]. rewrite Ha in Et. injection Et as _ _ <- _. reflexivity. }
    destruct (taken e V rel h v o) as [[[[l3 l4] h2] go] [[]|x]]; [|discriminate]. cbn [fst snd] in Ht.
    destruct (feeds e V rel h2 l) as [[l5 h''] r'] eqn:E2. injection E as _ <- ->.
    destruct (IH h2 _ _ (same_id_ident any _ _ _ Hi Ht) E2) as [I2 G2]. split; [apply (same_id_trans _ _ _ Ht I2)|].
    destruct (accepted (m_type V) n) eqn:Ea.
    + change ((v, o) :: l) with ([(v, o)] ++ l). apply (got_trans e V rel h h2 h'' [(v, o)] l Ht); [|exact G2].
      apply (Hx eq_refl l4). eauto.
    + specialize (Hy eq_refl _ _ _ _ eq_refl). destruct G2 as (G3 & G4 & G5). rewrite G3, G4, G5. subst h2.
      destruct (wrong _ _); [|destruct l; auto]. cbn. destruct l; auto.
Qed.

(** ** Finishing *)
Definition lined (t : mtype) (kh : str * handler) : Prop := linv t (snd kh) /\ ident any kh.
(** [c]-independent facts about a handler's finish. *)
Lemma finish_one_facts e rel tr m k h m' : lined (m_type m) (k, h) -> finish_one e rel tr m (k, h) = (m', Ok tt) ->
  exists evs h', finish_handler (mkCx e m rel) (field_subj h) (sec_base tr h) h = (evs, h', Ok tt)
    /\ same_id h h' /\ Forall (fsevi (h_cls h)) evs /\ fin_ok (m_type m) h'
    /\ m_notes m' = emit (m_type m) (m_notes m) evs
    /\ fbriefs (m_notes m') = fbriefs (m_notes m) ++ finish_report e (field_subj h) h
    /\ s_handlers (sec tr m') = dset k h' (s_handlers (sec tr m))
    /\ s_parsed (sec tr m') = dset (h_norm h) (h_val h') (s_parsed (sec tr m))
    /\ s_text (sec tr m') = s_text (sec tr m) /\ s_size (sec tr m') = s_size (sec tr m)
    /\ sec (negb tr) m' = sec (negb tr) m
    /\ still m' = still m /\ m_type m' = m_type m.
Proof.
  intros [Hl Hi] E. unfold finish_one in E. cbn [snd] in Hl.
  pose proof (finish_pass (mkCx e m rel) (field_subj h) (sec_base tr h) h (fbase_sec tr h) Hl) as H.
  destruct (finish_handler _ _ _ _) as [[l h'] [[]|x]]; [|discriminate]. destruct H as (F & I' & R & B). cbn [cx_msg cx_env] in R, B.
  injection E as <-. exists l, h'. pose proof I' as (_ & _ & Hn & _).
  assert (Mn : forall s, m_notes (m_set_sec tr s (m_emit l (m_set_sec tr (put_handler k h' (sec tr m)) m))) = emit (m_type m) (m_notes m) l) by (intros; destruct tr; reflexivity).
  split; [reflexivity|]. split; [exact I'|]. split; [exact F|]. split; [exact R|]. split; [apply Mn|].
  split; [rewrite Mn, fbriefs_emit; [rewrite B; reflexivity|apply (fsevg_calm _ _ _ F)]|].
  rewrite sec_set, !sec_emit, sec_set. cbn [s_handlers s_parsed s_text s_size s_set_parsed put_handler s_set_handlers]. rewrite Hn.
  repeat (split; [reflexivity|]). split; [destruct tr; reflexivity|]. split; [rewrite still_set, still_emit, still_set; reflexivity|]. destruct tr; reflexivity.
Qed.
Definition norms (l : list (str * handler)) : list str := map (fun kh => h_norm (snd kh)) l.
Lemma finish_all_facts e rel tr l : forall m m', NoDup (keys l) -> Forall (lined (m_type m)) l -> finish_all e rel tr m l = (m', Ok tt) ->
  fbriefs (m_notes m') = fbriefs (m_notes m) ++ flat_map (fun kh => finish_report e (field_subj (snd kh)) (snd kh)) l
  /\ s_text (sec tr m') = s_text (sec tr m) /\ s_size (sec tr m') = s_size (sec tr m)
  /\ sec (negb tr) m' = sec (negb tr) m
  /\ still m' = still m /\ m_type m' = m_type m
  /\ (forall k, ~ In k (keys l) -> dget k (s_handlers (sec tr m')) = dget k (s_handlers (sec tr m)))
  /\ (forall n, ~ In n (norms l) -> dget n (s_parsed (sec tr m')) = dget n (s_parsed (sec tr m)))
  /\ (forall P f, mine P f -> Forall (fun kh => h_cls (snd kh) <> f) l -> sel P (m_notes m') = sel P (m_notes m)).
Proof.
  induction l as [|[k h] l IH]; intros m m' Hn Hl E; cbn [finish_all flat_map] in *.
  - injection E as <-. rewrite app_nil_r. repeat (split; [reflexivity|]). repeat split; reflexivity.
  - inversion Hn as [|? ? Hnk Hn2]; subst. inversion Hl as [|? ? Hl1 Hl2]; subst.
    destruct (finish_one e rel tr m (k, h)) as [m1 [[]|x]] eqn:E1; [|discriminate].
    destruct (finish_one_facts e rel tr m k h m1 Hl1 E1) as (evs & h' & _ & Hid & F & _ & N1 & B1 & H1 & P1 & T1 & S1 & O1 & St1 & Ty1).
    specialize (IH m1 m' Hn2). rewrite Ty1 in IH. destruct (IH Hl2 E) as (B2 & T2 & S2 & O2 & St2 & Ty2 & H2 & P2 & Q2).
    rewrite B2, B1, T2, T1, S2, S1, O2, O1, St2, St1, Ty2, <- app_assoc. repeat (split; [reflexivity|]).
    split; [|split].
    + intros k2 Hk. cbn [keys map fst In] in Hk. rewrite H2 by (intros Hin; apply Hk; right; exact Hin). rewrite H1, dget_dset.
      destruct (str_eqb k2 k) eqn:Ek; [|reflexivity]. apply str_eqb_eq in Ek. exfalso. apply Hk. left. congruence.
    + intros n Hk. cbn [norms map snd In] in Hk. rewrite P2 by (intros Hin; apply Hk; right; exact Hin). rewrite P1, dget_dset.
      destruct (str_eqb n (h_norm h)) eqn:Ek; [|reflexivity]. apply str_eqb_eq in Ek. exfalso. apply Hk. left. congruence.
    + intros P f HP Hc. inversion Hc as [|? ? Hc1 Hc2]; subst. rewrite (Q2 P f HP Hc2), N1. apply emit_sel. cbn [snd] in Hc1.
      apply (mine_off P f inner (h_cls h) evs HP inner_framework Hc1 F).
Qed.
(** One field among them. *)
Lemma finish_all_field e rel tr l m m' k h : NoDup (keys l) -> Forall (lined (m_type m)) l -> finish_all e rel tr m l = (m', Ok tt) ->
  In (k, h) l ->
  exists mi l1 l2 evs h', l = l1 ++ (k, h) :: l2 /\ finish_all e rel tr m l1 = (mi, Ok tt) /\ still mi = still m /\ m_type mi = m_type m
    /\ finish_handler (mkCx e mi rel) (field_subj h) (sec_base tr h) h = (evs, h', Ok tt)
    /\ same_id h h' /\ fin_ok (m_type m) h'
    /\ dget k (s_handlers (sec tr m')) = Some h'
    /\ (~ In (h_norm h) (norms l2) -> dget (h_norm h) (s_parsed (sec tr m')) = Some (h_val h'))
    /\ (forall P f, mine P f -> h_cls h = f -> Forall (fun kh => h_cls (snd kh) = f -> fst kh = k) l ->
          sel P (m_notes m') = sel P (m_notes m) ++ sel P (emit (m_type m) [] evs)).
Proof.
  intros Hn Hl E Hin. revert m Hn Hl E Hin.
  induction l as [|[k0 h0] l IH]; intros m Hn Hl E Hin; cbn [finish_all] in *; [destruct Hin|].
  inversion Hn as [|? ? Hnk Hn2]; subst. inversion Hl as [|? ? Hl1 Hl2]; subst.
  destruct (finish_one e rel tr m (k0, h0)) as [m1 [[]|x]] eqn:E1; [|discriminate].
  destruct (finish_one_facts e rel tr m k0 h0 m1 Hl1 E1) as (evs & h' & Eh & Hid & F & Fin & N1 & B1 & H1 & P1 & T1 & S1 & O1 & St1 & Ty1).
  pose proof Hl2 as Hl2'. rewrite <- Ty1 in Hl2'.
  assert (KN : forall k2 h2, In (k2, h2) l -> k2 <> k0).
  { intros k2 h2 Hi ->. apply Hnk. apply (in_map fst) in Hi. exact Hi. }
  destruct Hin as [Hin|Hin].
  - injection Hin as -> ->. exists m, [], l, evs, h'. split; [reflexivity|]. split; [reflexivity|].
    do 2 (split; [reflexivity|]). split; [exact Eh|]. split; [exact Hid|]. split; [exact Fin|].
    destruct (finish_all_facts e rel tr l m1 m' Hn2 Hl2' E) as (_ & _ & _ & _ & _ & _ & H2 & P2 & Q2).
    split; [rewrite H2 by exact Hnk; rewrite H1, dget_dset, str_eqb_refl; reflexivity|].
    split; [intros Hx; rewrite P2 by exact Hx; rewrite P1, dget_dset, str_eqb_refl; reflexivity|].
    intros P f HP Hc Hall. inversion Hall as [|? ? _ Ha2]; subst.
    rewrite (Q2 P (h_cls h) HP).
    + rewrite N1. apply emit_sel_add. apply (mine_calm P (h_cls h) inner (h_cls h) evs HP inner_framework F).
    + apply Forall_forall. intros [k2 h2] Hi Hc. cbn [snd] in Hc. rewrite Forall_forall in Ha2. apply (KN k2 h2 Hi). apply (Ha2 _ Hi). exact Hc.
  - destruct (IH m1 Hn2 Hl2' E Hin) as (mi & l1 & l2 & evs2 & h2 & -> & Efa & St & Ty & Ef & Hid2 & Fin2 & Hd & Hp & Hq). clear IH.
    exists mi, ((k0, h0) :: l1), l2, evs2, h2. split; [reflexivity|]. split; [cbn [finish_all]; rewrite E1; exact Efa|].
    rewrite St, Ty, St1, Ty1 in *. do 2 (split; [reflexivity|]).
    split; [exact Ef|]. split; [exact Hid2|]. split; [exact Fin2|]. split; [exact Hd|]. split; [exact Hp|].
    intros P f HP Hc Hall. inversion Hall as [|? ? Ha1 Ha2]; subst. rewrite (Hq P (h_cls h) HP eq_refl Ha2), N1. f_equal. apply emit_sel.
    apply (mine_off P (h_cls h) inner (h_cls h0) evs HP inner_framework); [|exact F]. intros C. cbn [snd fst] in Ha1. apply (KN k h Hin). symmetry. apply Ha1, C.
Qed.

(** ** The whole section *)
Lemma canon_lower n : lower (h_canon (new_handler (lower n))) = lower (h_canon (new_handler n)).
Proof.
  cbn [new_handler h_canon]. rewrite find_class_lower, !strip_lower, lower_lower.
  destruct (find_class n); try (destruct (fa_canon _); [reflexivity|apply lower_lower]); try (destruct (dep_info _) as [[[? ?] ?]|]; [reflexivity|apply lower_lower]).
Qed.
Definition subject_of (k : str) : str := field_subj (new_handler k).
Lemma ident_subject k h : ident any (k, h) -> field_subj h = subject_of k.
Proof.
  intros (n & _ & E & (_ & _ & _ & Ec)). cbn [fst snd] in *. subst k. unfold subject_of, field_subj. rewrite Ec. f_equal. symmetry. apply canon_lower.
Qed.
(** The framework's notes about a field as a whole. *)
Definition field_report (e : env) (t : mtype) (k : str) (lines : list (str * nat)) : list (nid * str) :=
  if accepted t k then
    match kind_of (find_class k) with
    | KSingleton => about (subject_of k) (singleton_report (find_class k) lines)
    | KBroken => broken_report (find_class k) lines
    | KSF ty => about (subject_of k) (sf_report e ty (map fst lines))
    | KJson => about (subject_of k) (json_report e (map fst lines))
    | KList | KUnknown => []
    end
  else [].
Definition section_report (tr : bool) (raws : list (bytes * bytes)) : list (nid * str) :=
  if max_total_size <? sum_sizes raws then [(FIELD_SECTION_TOO_LARGE, u "field-block")] else [].
Definition lines_of (k : str) (t : mtype) (raws : list (bytes * bytes)) : list (str * nat) :=
  map input_of (filter (keyed k) (placed t 0 raws)).
Lemma accepted_lower t n : accepted t (lower n) = accepted t n.
Proof. unfold accepted. rewrite find_class_lower. f_equal. apply tok_strip_case. apply lower_lower. Qed.
Lemma NoDup_dget {A} (d : dict A) k v : NoDup (keys d) -> In (k, v) d -> dget k d = Some v.
Proof.
  induction d as [|[k2 v2] d IH]; intros Hn Hi; [destruct Hi|]. inversion Hn; subst. cbn [dget]. destruct Hi as [Hi|Hi].
  - injection Hi as -> ->. rewrite str_eqb_refl. reflexivity.
  - destruct (str_eqb k k2) eqn:E; [|apply IH; auto]. apply str_eqb_eq in E. subst. exfalso. apply (in_map fst) in Hi. auto.
Qed.
Lemma finish_report_eq e V rel k n evs h l : find_class k = find_class n -> k = lower n ->
  feeds e V rel (new_handler n) l = (evs, h, Ok tt) -> linv (m_type V) h ->
  finish_report e (field_subj h) h = field_report e (m_type V) k l.
Proof.
  intros Ec -> E Hl.
  assert (Hi : ident any (lower n, new_handler n)) by (exists n; split; [exact I|split; [reflexivity|apply same_id_refl]]).
  destruct (feeds_got e V rel n l _ _ _ Hi E) as [Hid G].
  pose proof (ident_subject _ _ (same_id_ident any _ _ _ Hi Hid)) as Hs. rewrite Hs.
  assert (Hc : h_cls h = find_class (lower n)) by (destruct Hid as [-> _]; symmetry; exact Ec).
  unfold finish_report, field_report. rewrite Hc, accepted_lower. unfold got in G. cbn [h_cls new_handler h_raw h_val] in G. rewrite <- Ec in G.
  destruct (accepted (m_type V) n).
  - destruct (kind_of (find_class (lower n))) as [| | |t| |]; try (rewrite G; reflexivity); try reflexivity.
    + rewrite (G [] eq_refl). cbn [app]. rewrite <- (map_map fst VStr), val_texts_strs. reflexivity.
    + rewrite (G [] eq_refl). cbn [app]. rewrite <- (map_map fst VStr), val_texts_strs. reflexivity.
  - destruct G as (G1 & G2 & G3). rewrite G1. unfold val_texts. rewrite G3.
    destruct (kind_of _); try reflexivity; destruct l; try reflexivity; destruct (wrong _ _); reflexivity.
Qed.
Lemma keyed_nonempty k t o raws : (exists r, In r raws /\ raw_key r = k) <-> filter (keyed k) (placed t o raws) <> [].
Proof.
  revert o. induction raws as [|r raws IH]; intros o; cbn [placed filter].
  - split; [intros (r & [] & _)|intros H; destruct (H eq_refl)].
  - unfold keyed at 1. cbn [fst]. destruct (str_eqb (raw_key r) k) eqn:E.
    + split; [discriminate|]. intros _. apply str_eqb_eq in E. exists r. split; [left; reflexivity|exact E].
    + rewrite <- IH. split.
      * intros (r' & [Hr|Hr] & Hk); [subst; rewrite str_eqb_refl in E; discriminate|eauto].
      * intros (r' & Hr & Hk). exists r'. split; [right; exact Hr|exact Hk].
Qed.
Lemma placed_key k t o raws ro : In ro (filter (keyed k) (placed t o raws)) -> raw_key (fst ro) = k.
Proof. intros H. apply filter_In in H as [_ H]. apply str_eqb_eq in H. exact H. Qed.
(** The name a field is first given. *)
Definition first_name (k : str) (raws : list (bytes * bytes)) : str :=
  match find (fun r => str_eqb (raw_key r) k) raws with Some r => raw_name r | None => k end.
Lemma first_placed k t o raws : match filter (keyed k) (placed t o raws) with
  | ro :: _ => raw_name (fst ro) = first_name k raws /\ In (fst ro) raws | [] => True end.
Proof.
  revert o. induction raws as [|r raws IH]; intros o; cbn [placed filter]; [exact I|]. unfold keyed at 1. cbn [fst]. unfold first_name. cbn [find].
  destruct (str_eqb (raw_key r) k) eqn:E; [split; [reflexivity|left; reflexivity]|].
  specialize (IH (if accepted t (raw_name r) then S o else o)). destruct (filter _ _); [exact I|]. destruct IH as [IH1 IH2]. split; [exact IH1|right; exact IH2].
Qed.
(** Everything the later results need about [process]. *)
Lemma process_lines e rel tr m raws m' : sec tr m = new_section tr -> process e rel tr m raws = (m', Ok tt) ->
  exists m1, field_lines e rel tr m 0 raws = (m1, Ok tt)
    /\ m_type m1 = m_type m /\ still m1 = still m /\ sec tr (section_size tr m1) = sec tr m1
    /\ sinv any (m_type m) (sec tr m1) /\ keys (s_handlers (sec tr m1)) = fields_seen raws
    /\ (forall k h, In (k, h) (s_handlers (sec tr m1)) -> exists evs,
          k = lower (first_name k raws) /\ (exists r, In r raws /\ raw_name r = first_name k raws /\ raw_key r = k)
          /\ feeds e (still m) rel (new_handler (first_name k raws)) (lines_of k (m_type m) raws) = (evs, h, Ok tt))
    /\ finish_all e rel tr (section_size tr m1) (s_handlers (sec tr m1)) = (m', Ok tt).
Proof.
  intros Hs E. unfold process in E. destruct (field_lines e rel tr m 0 raws) as [m1 [[]|x]] eqn:E1; [|discriminate].
  assert (S0 : sinv any (m_type m) (sec tr m)) by (rewrite Hs; split; constructor).
  destruct (lines_briefs e rel tr raws m 0%nat m1 S0 E1) as (_ & S1 & T1).
  assert (I0 : Forall (ident any) (s_handlers (sec tr m))) by (rewrite Hs; constructor).
  destruct (lines_section e rel tr raws m 0%nat m1 I0 E1) as (_ & _ & _ & St & _).
  destruct (section_size_pass tr m1) as [_ E2]. cbv zeta in E. rewrite E2 in E.
  exists m1. split; [reflexivity|]. split; [exact T1|]. split; [exact St|]. split; [exact E2|]. split; [exact S1|].
  split; [rewrite (lines_keys e rel tr raws m 0%nat m1 I0 E1), Hs; reflexivity|]. split; [|exact E].
  intros k h Hin. pose proof (lines_handlers e rel tr raws m 0%nat m1 I0 E1 k) as Hk. rewrite Hs in Hk. cbn [s_handlers new_section] in Hk.
  pose proof (NoDup_dget _ k h (proj1 S1) Hin) as Hd. unfold lines_of.
  pose proof (placed_key k (m_type m) 0%nat raws) as PK. pose proof (keyed_nonempty k (m_type m) 0%nat raws) as KN.
  pose proof (first_placed k (m_type m) 0%nat raws) as FP.
  destruct (filter (keyed k) (placed (m_type m) 0 raws)) as [|ro l] eqn:Ef.
  - rewrite Hd in Hk. discriminate.
  - destruct Hk as (evs & h' & Hf & Hd'). exists evs. specialize (PK ro (or_introl eq_refl)). destruct FP as [FP1 FP2]. rewrite <- FP1.
    split; [symmetry; exact PK|]. split; [exists (fst ro); auto|]. assert (h = h') by congruence. subst h'. exact Hf.
Qed.
(** All of the framework's notes about a section. *)
Theorem process_report e rel tr m raws m' : sec tr m = new_section tr -> process e rel tr m raws = (m', Ok tt) ->
  let t := m_type m in
  fbriefs (m_notes m') = fbriefs (m_notes m)
    ++ flat_map (line_report t) (placed t 0 raws)
    ++ section_report tr raws
    ++ flat_map (fun k => field_report e t k (lines_of k t raws)) (fields_seen raws).
Proof.
  intros Hs E t. destruct (process_lines e rel tr m raws m' Hs E) as (m1 & E1 & T1 & St & E2 & S1 & Ks & Hh & Ef).
  assert (S0 : sinv any (m_type m) (sec tr m)) by (rewrite Hs; split; constructor).
  assert (I0 : Forall (ident any) (s_handlers (sec tr m))) by (rewrite Hs; constructor).
  destruct (lines_briefs e rel tr raws m 0%nat m1 S0 E1) as (B1 & _).
  destruct (lines_section e rel tr raws m 0%nat m1 I0 E1) as (_ & Z1 & _). rewrite Hs in Z1. cbn [s_size new_section] in Z1.
  set (m2 := section_size tr m1) in *.
  assert (T2 : m_type m2 = m_type m) by (unfold m2, section_size; destruct (_ <? _); exact T1).
  destruct S1 as [Hn Hl]. pose proof Hl as Hl2. rewrite <- T2 in Hl2.
  destruct (finish_all_facts e rel tr _ m2 m' Hn Hl2 Ef) as (B3 & _).
  assert (B2 : fbriefs (m_notes m2) = fbriefs (m_notes m1) ++ section_report tr raws).
  { unfold m2, section_size, section_report. rewrite Z1, N.add_0_l. destruct (_ <? _); [|rewrite app_nil_r; reflexivity]. rewrite notes_emit, fbriefs_emit; [reflexivity|].
    constructor; [exact I|constructor]. }
  rewrite B3, B2, B1, <- !app_assoc. do 3 f_equal. rewrite <- Ks. unfold keys. clear - Hh Hl St.
  assert (Hx : forall k h, In (k, h) (s_handlers (sec tr m1)) -> finish_report e (field_subj h) h = field_report e t k (lines_of k t raws)).
  { intros k h Hin. destruct (Hh k h Hin) as (evs & Ek & _ & Hf). set (n := first_name k raws) in *. rewrite Forall_forall in Hl. destruct (Hl _ Hin) as [L _]. cbn [snd] in L.
    change t with (m_type (still m)). eapply (finish_report_eq e (still m) rel k n); [rewrite Ek; apply find_class_lower|exact Ek|exact Hf|exact L]. }
  revert Hx. generalize (s_handlers (sec tr m1)). clear. intros l Hx. induction l as [|[k h] l IH]; [reflexivity|]. cbn [flat_map map fst snd].
  rewrite (Hx k h) by (left; reflexivity). f_equal. apply IH. intros k2 h2 Hi. apply Hx. right. exact Hi.
Qed.
Lemma seen_in r : forall raws ks, In (raw_key r) (fold_left seen raws ks) <-> In (raw_key r) ks \/ exists r', In r' raws /\ raw_key r' = raw_key r.
Proof.
  induction raws as [|r1 raws IH]; intros ks; cbn [fold_left].
  - split; [auto|]. intros [H|(r' & [] & _)]. exact H.
  - rewrite IH. unfold seen. destruct (str_in (raw_key r1) ks) eqn:E.
    + apply str_in_In in E. split; [intros [H|(r' & H & K)]; [auto|right; exists r'; split; [right; exact H|exact K]]|].
      intros [H|(r' & [->|H] & K)]; [auto|left; rewrite <- K; exact E|right; eauto].
    + rewrite in_app_iff. cbn [In]. split.
      * intros [[H|[H|[]]]|(r' & H & K)]; [auto|right; exists r1; split; [left; reflexivity|exact H]|right; exists r'; split; [right; exact H|exact K]].
      * intros [H|(r' & [->|H] & K)]; [auto|auto|right; eauto].
Qed.
(** Names that would be recorded under another field's key are not used. *)
Definition apart_name (k : str) (raws : list (bytes * bytes)) : Prop :=
  Forall (fun r => strip (raw_key r) = k -> raw_key r = k) raws.
(** One field of a section: what its handler gets, what it ends with. *)
Theorem process_field e rel tr m raws m' k : sec tr m = new_section tr -> process e rel tr m raws = (m', Ok tt) ->
  let t := m_type m in
  (exists r, In r raws /\ raw_key r = k) ->
  let n := first_name k raws in
  exists evs h mi evs' h',
    k = lower n /\ feeds e (still m) rel (new_handler n) (lines_of k t raws) = (evs, h, Ok tt)
    /\ linv t h /\ still mi = still m /\ m_type mi = t
    /\ finish_handler (mkCx e mi rel) (subject_of k) (sec_base tr h) h = (evs', h', Ok tt)
    /\ same_id (new_handler n) h' /\ fin_ok t h' /\ dget k (s_handlers (sec tr m')) = Some h'
    /\ (strip k = k -> apart_name k raws -> dget k (s_parsed (sec tr m')) = Some (h_val h'))
    /\ (forall P f, mine P f -> find_class k = f -> spelled f k raws ->
          sel P (m_notes m') = sel P (m_notes m) ++ sel P (emit t [] evs) ++ sel P (emit t [] evs')).
Proof.
  intros Hs E t (r & Hr & Hrk) n0. destruct (process_lines e rel tr m raws m' Hs E) as (m1 & E1 & T1 & St & E2 & S1 & Ks & Hh & Ef).
  assert (S0 : sinv any (m_type m) (sec tr m)) by (rewrite Hs; split; constructor).
  set (m2 := section_size tr m1) in *.
  assert (T2 : m_type m2 = m_type m) by (unfold m2, section_size; destruct (_ <? _); exact T1).
  assert (St2 : still m2 = still m) by (unfold m2, section_size; destruct (_ <? _); [rewrite still_emit|]; exact St).
  destruct S1 as [Hn Hl]. pose proof Hl as Hl2. rewrite <- T2 in Hl2.
  assert (Hk : In k (keys (s_handlers (sec tr m1)))).
  { rewrite Ks, <- Hrk. unfold fields_seen. apply seen_in. right. exists r. auto. }
  apply in_map_iff in Hk as ([k' h] & Ek' & Hin). cbn [fst] in Ek'. subst k'.
  destruct (Hh k h Hin) as (evs & Ek & _ & Hf). set (n := first_name k raws) in *.
  destruct (finish_all_field e rel tr _ m2 m' k h Hn Hl2 Ef Hin) as (mi & l1 & l2 & evs' & h' & El & _ & Sti & Ti & Eh & Hid & Fin & Hd & Hp & Hq).
  rewrite Forall_forall in Hl. destruct (Hl _ Hin) as [Lh Ih]. cbn [snd] in Lh.
  assert (Hi0 : ident any (lower n, new_handler n)) by (exists n; split; [exact I|split; [reflexivity|apply same_id_refl]]).
  assert (Hid0 : same_id (new_handler n) h) by (apply (feeds_got e (still m) rel n _ _ _ _ Hi0 Hf)).
  exists evs, h, mi, evs', h'. split; [exact Ek|]. split; [exact Hf|]. split; [exact Lh|]. split; [congruence|]. split; [rewrite Ti; exact T2|].
  rewrite <- (ident_subject k h Ih). split; [exact Eh|]. split; [apply (same_id_trans _ _ _ Hid0 Hid)|]. split; [rewrite T2 in Fin; exact Fin|]. split; [exact Hd|].
  assert (Nm : h_norm h = strip k).
  { destruct Hid0 as (_ & _ & En & _). rewrite En. cbn [h_norm new_handler]. rewrite Ek, strip_lower. reflexivity. }
  split.
  - intros Hb Ha. rewrite Nm, Hb in Hp. apply Hp. intros Hx. unfold norms in Hx. apply in_map_iff in Hx as ([k2 h2] & En & Hi2). cbn [snd] in En.
    assert (Hin2 : In (k2, h2) (s_handlers (sec tr m1))) by (rewrite El; apply in_or_app; right; right; exact Hi2).
    destruct (Hh k2 h2 Hin2) as (evs2 & Ek2 & (r2 & Hr2 & Hn2 & Hk2) & Hf2). set (n2 := first_name k2 raws) in *.
    assert (Hi2' : ident any (lower n2, new_handler n2)) by (exists n2; split; [exact I|split; [reflexivity|apply same_id_refl]]).
    destruct (feeds_got e (still m) rel n2 _ _ _ _ Hi2' Hf2) as [(_ & _ & En2 & _) _].
    assert (Es : strip (raw_key r2) = k). { rewrite Hk2, Ek2, strip_lower, <- En, En2. reflexivity. }
    unfold apart_name in Ha. rewrite Forall_forall in Ha. specialize (Ha r2 Hr2 Es). rewrite Hk2 in Ha. subst k2.
    rewrite El in Hn. unfold keys in Hn. rewrite map_app in Hn. apply NoDup_remove_2 in Hn. apply Hn. apply in_or_app. right. apply (in_map fst) in Hi2. exact Hi2.
  - intros P f HP Hc Hsp. assert (Hcf : h_cls h = f) by (destruct Hid0 as [-> _]; cbn [h_cls new_handler]; rewrite <- Hc, Ek; symmetry; apply find_class_lower).
    rewrite (Hq P f HP Hcf), T2.
    + rewrite app_assoc. f_equal.
      assert (N2 : sel P (m_notes m2) = sel P (m_notes m1)).
      { unfold m2, section_size. destruct (_ <? _); [|reflexivity]. rewrite notes_emit. apply emit_sel. constructor; [|constructor]. unfold not_cls. cbn [snd ev_cls].
        constructor; [|constructor]. destruct (P FIELD_SECTION_TOO_LARGE) eqn:EP; [|reflexivity]. destruct HP as [HP _]. apply HP in EP as [EP _]. discriminate. }
      rewrite N2. pose proof (lines_own P f k HP e rel tr raws m 0%nat m1 S0 E1 Hc Hsp) as Lo. fold t in Lo. unfold lines_of in Hf.
      pose proof (placed_key k (m_type m) 0%nat raws) as PK. pose proof (proj1 (keyed_nonempty k (m_type m) 0%nat raws) (ex_intro _ r (conj Hr Hrk))) as NE. fold t in PK, NE, Hf.
      pose proof (first_placed k (m_type m) 0%nat raws) as FP. fold t in FP.
      destruct (filter (keyed k) (placed t 0 raws)) as [|ro l]; [destruct (NE eq_refl)|].
      destruct Lo as (evs0 & h0 & Hf0 & Hs0 & _). rewrite Hs in Hf0. cbn [s_handlers new_section] in Hf0. unfold own_handler in Hf0. cbn [dget] in Hf0.
      assert (Ev : evs0 = evs) by (rewrite (proj1 FP) in Hf0; change (first_name k raws) with n in Hf0; rewrite Hf in Hf0; congruence).
      rewrite Ev in Hs0. exact Hs0.
    + apply Forall_forall. intros [k2 h2] Hin2 Hc2. cbn [fst snd] in *. destruct (Hh k2 h2 Hin2) as (evs2 & Ek2 & (r2 & Hr2 & Hn2 & Hk2) & Hf2). set (n2 := first_name k2 raws) in *.
      assert (Hi2' : ident any (lower n2, new_handler n2)) by (exists n2; split; [exact I|split; [reflexivity|apply same_id_refl]]).
      destruct (feeds_got e (still m) rel n2 _ _ _ _ Hi2' Hf2) as [(Ec2 & _) _].
      unfold spelled in Hsp. rewrite Forall_forall in Hsp. rewrite <- Hk2. apply (Hsp r2 Hr2). rewrite Hn2. cbn [h_cls new_handler] in Ec2. congruence.
Qed.
