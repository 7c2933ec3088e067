(** * The subjects of notes: which field line an offset is about. *)
From Verif Require Import PyStr Regex Grammar NoteTable Note PyLib Utils FieldAttrs Types Fields1 Fields2 Fields3 Framework Checks Message
  EvLogic NoteLemmas ContentLemmas FrameLemmas BodyLemmas NameLemmas PassParse PassEval PassSF PassFrame PassSec PassProc PassMsg Session PassRun
  SessionLemmas SectionLemmas SecNotes SecValues LintLemmas.
Open Scope N_scope.

(** ** Events and the notes they add *)
Definition sevq (Q : str -> nid -> Prop) (s : sev) : Prop :=
  match s with
  | (subj, _, ENote n _ _ _) | (subj, _, EKid _ n _) => Q subj n
  | (_, _, EMsg subj n _) => Q subj n
  | _ => True
  end.
Definition notq (Q : str -> nid -> Prop) (n : note) : Prop := Q (n_subj n) (n_cls n).
Lemma attach_notq Q t p c vrs : forall ns ns', attach t p c vrs ns = Some ns' -> Forall (notq Q) ns -> Forall (notq Q) ns'.
Proof.
  induction ns as [|n ns IH]; intros ns' E H; cbn [attach] in E; [discriminate|]. inversion H as [|? ? H1 H2]; subst.
  destruct (nid_eqb (n_cls n) p); [injection E as <-; constructor; [exact H1|exact H2]|].
  destruct (attach t p c vrs ns) as [r|]; [|discriminate]. injection E as <-. constructor; [exact H1|apply IH; [reflexivity|exact H2]].
Qed.
Lemma emit_notq Q t l : forall ns, Forall (notq Q) ns -> Forall (sevq Q) l -> Forall (notq Q) (emit t ns l).
Proof.
  induction l as [|[[subj base] e] l IH]; intros ns Hn Hl; [exact Hn|]. inversion Hl as [|? ? H1 H2]; subst.
  change (emit t ns ((subj, base, e) :: l)) with (emit t (emit_one t ns (subj, base, e)) l). apply IH; [|exact H2].
  destruct e; cbn [emit_one sevq] in *; auto.
  - apply Forall_app; split; [exact Hn|constructor; [exact H1|constructor]].
  - apply Forall_app; split; [exact Hn|constructor; [exact H1|constructor]].
  - destruct (attach _ _ _ _ _) as [ns'|] eqn:E; [apply (attach_notq Q t _ _ _ _ _ E Hn)|].
    apply Forall_app; split; [exact Hn|constructor; [exact H1|constructor]].
Qed.
(** Subjects alone. *)
Definition subjq (T : str -> Prop) (s : sev) : Prop := match s with (_, _, EMsg subj _ _) => T subj | (subj, _, _) => T subj end.
Lemma subjq_sevq T (Q : str -> nid -> Prop) f s : fsevi f s -> subjq T s -> (forall x n, T x -> framework n = true \/ own f n = true -> Q x n) -> sevq Q s.
Proof.
  destruct s as [[subj base] e]. intros (_ & [[He _]|(n & cat & vrs & -> & Hn & _)]) HT HQ.
  - destruct e; cbn [sevq subjq fev] in *; auto; apply HQ; tauto.
  - cbn [sevq subjq] in *. apply HQ; [exact HT|left; apply inner_framework, Hn].
Qed.
Lemma tagged_subjq (T : str -> Prop) f l : T = T -> (f = F_set_cookie -> False) -> (forall x, offless x -> T x) ->
  Forall (fsevi f) l -> Forall (fun s : sev => T (fst (fst s))) l -> Forall (subjq T) l.
Proof.
  intros _ Hf HT H1 H2. rewrite Forall_forall in *. intros [[subj base] e] Hi. specialize (H1 _ Hi). specialize (H2 _ Hi). cbn [fst] in H2.
  destruct H1 as (_ & [[He _]|(n & cat & vrs & -> & _)]); [|exact H2]. destruct e; cbn [subjq]; try exact H2.
  destruct He as (_ & _ & [He|He]); [destruct (Hf He)|apply HT, He].
Qed.
Lemma tag_subj (T : str -> Prop) subj base l : T subj -> Forall (fun s : sev => T (fst (fst s))) (tag subj base l).
Proof. intros H. unfold tag. apply Forall_map, Forall_forall. intros; exact H. Qed.

(** ** A line's events *)
Lemma list_input_tagged c subj l : forall h, Forall (fun s : sev => fst (fst s) = subj) (fst (fst (list_input c subj h l))).
Proof.
  induction l as [|v l IH]; intros h; cbn [list_input]; [constructor|]. destruct (list_member c h v) as [evs [o|x]].
  - specialize (IH (match o with Some x => append_val (h_add_aux h (aux_of (tag subj (line_base h) evs))) x | None => h_add_aux h (aux_of (tag subj (line_base h) evs)) end)).
    destruct (list_input c subj _ l) as [[e2 h2] r2]. cbn [fst] in *. apply Forall_app; split; [apply (tag_subj (fun x => x = subj)); reflexivity|exact IH].
  - cbn [fst]. apply (tag_subj (fun x => x = subj)). reflexivity.
Qed.
Lemma handle_input_tagged c h v o evs h' r : handle_input c h v o = (evs, h', r) -> Forall (fun s : sev => fst (fst s) = offset_subj o) evs.
Proof.
  unfold handle_input. intros E. destruct (kind_of (h_cls h)); try (injection E as <- _ _; constructor).
  pose proof (list_input_tagged c (offset_subj o) (split_list_field v) h) as H. rewrite E in H. exact H.
Qed.
Lemma taken_tagged e V rel h v o l3 l4 h2 go r : taken e V rel h v o = (l3, l4, h2, go, r) ->
  Forall (fun s : sev => fst (fst s) = offset_subj o) l4 /\ (h_cls h = F_set_cookie -> l4 = []) /\ (go = false -> l4 = []).
Proof.
  unfold taken. intros E. assert (C : h_cls (fst (fst (pre_check (m_type V) h))) = h_cls h).
  { unfold pre_check. destruct (m_type V), (fa_req (attrs (h_cls h))), (fa_resp (attrs (h_cls h))); try reflexivity;
      destruct (match_dollar _ _); try reflexivity; destruct (fa_dep (attrs (h_cls h))); reflexivity. }
  destruct (pre_check (m_type V) h) as [[h1 l3'] g]. cbn [fst] in C. destruct g.
  - destruct (handle_input (mkCx e V rel) h1 v o) as [[l4' h2'] r'] eqn:Eh. injection E as _ <- _ <- _. split; [apply (handle_input_tagged _ _ _ _ _ _ _ Eh)|].
    split; [|discriminate]. intros Hc. unfold handle_input in Eh. rewrite C, Hc in Eh. cbn in Eh. injection Eh as <- _ _. reflexivity.
  - injection E as _ <- _ _ _. split; [constructor|split; reflexivity].
Qed.

(** The notes about the lines of a section: by number, and of the framework or of
    a processed line's own field. *)
Definition placedq (t : mtype) (l : list (bytes * bytes * nat)) (x : str) (n : nid) : Prop :=
  exists ro, In ro l /\ x = offset_subj (snd ro)
    /\ (framework n = true \/ accepted t (raw_name (fst ro)) = true /\ own (find_class (raw_name (fst ro))) n = true).
Definition lineq (t : mtype) (l : list (bytes * bytes * nat)) (x : str) (n : nid) : Prop := offless x \/ placedq t l x n.
Lemma lineq_incl t l l' x n : incl l l' -> lineq t l x n -> lineq t l' x n.
Proof. intros H [Hx|(ro & Hi & Hx)]; [left; exact Hx|right; exists ro; split; [apply H, Hi|exact Hx]]. Qed.
Lemma fw_sevq (Q : str -> nid -> Prop) subj base l : (forall n, framework n = true -> Q subj n) -> Forall fw_note l -> Forall (sevq Q) (tag subj base l).
Proof.
  intros HQ H. unfold tag. apply Forall_map. eapply Forall_impl; [|exact H]. intros e (n & cat & vrs & -> & Hn). apply HQ, Hn.
Qed.
Lemma lines_lineq e rel tr (Q : str -> nid -> Prop) raws : forall m o m', sinv any (m_type m) (sec tr m) -> field_lines e rel tr m o raws = (m', Ok tt) ->
  (forall x n, placedq (m_type m) (placed (m_type m) o raws) x n -> Q x n) -> (forall x n, offless x -> Q x n) ->
  Forall (notq Q) (m_notes m) -> Forall (notq Q) (m_notes m').
Proof.
  induction raws as [|raw raws IH]; intros m o m' Hs E HQ HO Hn; cbn [field_lines placed] in *.
  - injection E as <-. exact Hn.
  - destruct (field_line e rel tr m o raw) as [[m1 o1] [[]|x]] eqn:E1; [|discriminate].
    pose proof Hs as [_ Hf]. pose proof (Forall_impl _ (fun a Ha => proj2 Ha) Hf) as Hi. cbv beta in Hi.
    destruct (line_step e rel tr m o raw m1 o1 Hi E1) as (l3 & l4 & h2 & Et & Eo & Em & _).
    destruct (line_notes e rel tr m o raw m1 o1 Hs E1) as (l3' & l4' & h2' & Et' & F4 & _ & _ & S1 & T1).
    rewrite Et in Et'. injection Et' as <- <- <-.
    set (h := own_handler (s_handlers (sec tr m)) raw) in *.
    pose proof (own_handler_ident _ raw Hi) as Hh. fold h in Hh. pose proof (ident_find _ _ (raw_name raw) Hh eq_refl) as Ec.
    destruct (pre_fw (m_type m) _ h (raw_name raw) Hh eq_refl) as [F3 _]. destruct (enc_fw raw) as [F1 _]. destruct (size_fw h raw) as [F5 _].
    assert (E3 : snd (fst (pre_check (m_type m) h)) = l3).
    { unfold taken in Et. rewrite still_type in Et. destruct (pre_check (m_type m) h) as [[h1 l3''] go]. destruct go.
      - destruct (handle_input _ _ _ _) as [[? ?] ?]. injection Et as -> _ _ _ _. reflexivity.
      - injection Et as -> _ _ _. reflexivity. }
    rewrite E3 in F3. destruct (taken_tagged _ _ _ _ _ _ _ _ _ _ _ Et) as (T4 & C4 & A4). rewrite Ec in C4.
    assert (FQ : forall n, framework n = true -> Q (offset_subj o) n).
    { intros n Hn0. apply HQ. exists (raw, o). split; [left; reflexivity|]. split; [reflexivity|left; exact Hn0]. }
    apply (IH m1 o1 m'); [rewrite T1; exact S1|exact E| |exact HO|].
    + intros x n (ro & Hin & Hx). apply HQ. exists ro. split; [right; rewrite <- Eo, <- T1; exact Hin|rewrite <- T1; exact Hx].
    + assert (Mn : m_notes m1 = emit (m_type m) (m_notes m) (tag (offset_subj o) [] (enc_events raw) ++ tag (offset_subj o) (line_base h) l3 ++ l4
                    ++ (if accepted (m_type m) (raw_name raw) then tag (offset_subj o) [] (size_events h raw) else [])))
        by (rewrite Em; destruct tr; reflexivity).
      rewrite Mn. apply emit_notq; [exact Hn|]. repeat (apply Forall_app; split).
      * apply fw_sevq; assumption.
      * apply fw_sevq; assumption.
      * destruct (accepted (m_type m) (raw_name raw)) eqn:Ea; [|rewrite A4 by reflexivity; constructor].
        destruct (fname_eqb (find_class (raw_name raw)) F_set_cookie) eqn:Es; [apply fname_eqb_eq in Es; rewrite C4 by exact Es; constructor|].
        assert (SQ : Forall (subjq (fun x => offless x \/ x = offset_subj o)) l4).
        { apply (tagged_subjq _ (find_class (raw_name raw))); [reflexivity| |auto|exact F4|].
          - intros C. rewrite C in Es. discriminate.
          - eapply Forall_impl; [|exact T4]. intros s Hx. right. exact Hx. }
        rewrite Forall_forall in *. intros s Hin. apply (subjq_sevq (fun x => offless x \/ x = offset_subj o) Q (find_class (raw_name raw))); [apply F4, Hin|apply SQ, Hin|].
        intros x n [Hx| ->] Hc; [apply HO, Hx|]. apply HQ. exists (raw, o). split; [left; reflexivity|]. split; [reflexivity|]. cbn [fst]. destruct Hc as [Hc|Hc]; [left; exact Hc|right; split; [exact Ea|exact Hc]].
      * destruct (accepted _ _); [apply fw_sevq; assumption|constructor].
Qed.

(** ** Set-Cookie: what is said about a cookie waits for the end of the section *)
Section EvPass.
  Variable S : str -> Prop.
  Definition msgs (e : ev) : Prop := match e with EMsg s _ _ => S s | _ => True end.
  Definition mw {A} (m : W A) : Prop := Forall msgs (fst m).
  Lemma mw_ret {A} (x : A) : mw (ret x). Proof. constructor. Qed.
  Lemma mw_lift {A} (x : res A) : mw (lift x). Proof. constructor. Qed.
  Lemma mw_raise {A} x : mw (@raise A x). Proof. constructor. Qed.
  Lemma mw_bind {A B} (m : W A) (k : A -> W B) : mw m -> (forall x, mw (k x)) -> mw (bind m k).
  Proof.
    intros Hm Hk. unfold mw, bind in *. destruct m as [l [x|x]]; [|exact Hm]. specialize (Hk x). destruct (k x) as [l2 r2]. apply Forall_app; split; assumption.
  Qed.
  Lemma mw_seq {A B} (m : W A) (k : W B) : mw m -> mw k -> mw (bind m (fun _ => k)).
  Proof. intros H1 H2. apply mw_bind; [exact H1|intros; exact H2]. Qed.
  Lemma mw_when b m : mw m -> mw (when b m). Proof. destruct b; [auto|intros; constructor]. Qed.
  Lemma mw_tell l : Forall msgs l -> mw (tell l). Proof. auto. Qed.
  Lemma mw_defer n vrs : mw (defer n vrs). Proof. constructor; [exact I|constructor]. Qed.
  Lemma mw_note n vrs : mw (add_note n vrs). Proof. constructor; [exact I|constructor]. Qed.
  Lemma mw_iter {A} (f : A -> W unit) l : (forall x, mw (f x)) -> mw (iterW f l).
  Proof.
    intros H. apply mw_seq; [|apply mw_ret]. induction l as [|x l IH]; [apply mw_ret|]. cbn [mapW]. apply mw_bind; [apply H|]. intros. apply mw_bind; [exact IH|]. intros. apply mw_ret.
  Qed.
End EvPass.
Ltac mwt := repeat first [apply mw_ret|apply mw_lift|apply mw_raise|apply mw_defer|apply mw_note|apply mw_when|apply mw_iter; intros|apply mw_bind; [|intros]
  |match goal with |- mw _ (if ?b then _ else _) => destruct b end
  |match goal with |- mw _ (match ?b with _ => _ end) => destruct b end].
Lemma p_set_cookie_silent c h v : Forall (msgs (fun _ => False)) (fst (p_set_cookie c h v)).
Proof.
  change (mw (fun _ => False) (p_set_cookie c h v)). unfold p_set_cookie. apply mw_bind; [apply mw_lift|]. intros p. apply mw_bind; [|intros; apply mw_ret].
  assert (L : forall path now nm avs seen ltn, mw (fun _ => False) (cookie_loop path now nm avs seen ltn)).
  { intros path now nm avs. induction avs as [|av avs IH]; intros seen ltn; cbn [cookie_loop]; [apply mw_ret|]. destruct (split_or 61 av) as [n w]. cbv zeta.
    apply mw_seq; [mwt|]. apply mw_bind; [|intros; apply mw_bind; [apply IH|intros; apply mw_ret]]. unfold cookie_attribute. cbv zeta. mwt. }
  unfold loose_parse. destruct (split_or 59 v) as [nv at_]. destruct (match split1 61 nv with Some _ => _ | None => _ end) as [name value]. cbv zeta.
  destruct (_ && _); [mwt|]. do 2 (apply mw_seq; [mwt|]). apply mw_bind; [apply L|]. intros l. do 2 (apply mw_seq; [mwt|]). apply mw_seq; [|apply mw_ret]. unfold check_prefixes. cbv zeta. mwt.
Qed.
Lemma ev_set_cookie_subj c h : Forall (msgs (fun s => In s (map fst (h_aux h)))) (fst (eval_of F_set_cookie c h)).
Proof.
  change (mw (fun s => In s (map fst (h_aux h))) (eval_of F_set_cookie c h)). cbn [eval_of]. unfold keep. apply mw_seq; [|apply mw_ret]. unfold ev_set_cookie. apply mw_bind; [apply mw_lift|]. intros l. cbv zeta.
  do 2 (apply mw_seq; [mwt|]). apply mw_tell. apply Forall_forall. intros x Hx. apply in_flat_map in Hx as ([s e] & Hse & Hx).
  cbn [snd fst] in Hx. destruct e; try destruct Hx; [|contradiction]. subst x. apply (in_map fst) in Hse. exact Hse.
Qed.

(** ** Finishing *)
Notation at_ subj l := (Forall (fun s : sev => fst (fst s) = subj) l).
Lemma at_tag subj base l : at_ subj (tag subj base l).
Proof. apply (tag_subj (fun x => x = subj)). reflexivity. Qed.
Lemma finish_eval_at subj base h m : at_ subj (fst (fst (finish_eval subj base h m))).
Proof. unfold finish_eval. destruct m as [l [x|x]]; apply at_tag. Qed.
Lemma prefix_at subj l r : at_ subj l -> at_ subj (fst (fst r)) -> at_ subj (fst (fst (prefix_events l r))).
Proof. destruct r as [[l' h] x]. intros H1 H2. apply Forall_app; split; assumption. Qed.
Lemma base_finish_at c subj base h : at_ subj (fst (fst (base_finish c subj base h))).
Proof. unfold base_finish. destruct (h_val h); try apply finish_eval_at. constructor. Qed.
Lemma sf_result_at {A} subj base h cmb (r : sfres A) f g : at_ subj (fst (fst (sf_result subj base h cmb r f g))).
Proof.
  unfold sf_result. destruct r; cbv zeta; try apply at_tag. apply prefix_at; [apply at_tag|apply finish_eval_at].
Qed.
Lemma finish_at c subj base h : kind_of (h_cls h) <> KBroken -> at_ subj (fst (fst (finish_handler c subj base h))).
Proof.
  unfold finish_handler. intros Hk. destruct (kind_of (h_cls h)); try contradiction; try apply base_finish_at.
  - unfold singleton_finish. destruct (h_raw h) as [|[raw o] more]; [constructor|]. cbv zeta.
    destruct (parse_of _ _ _ _) as [l3 [v|x]]; [apply prefix_at; [apply at_tag|apply base_finish_at]|]. destruct (is_ValueError x); apply at_tag.
  - unfold sf_finish. destruct (negb _); [constructor|]. destruct (h_sf h); [constructor|]. destruct (raw_texts _); [|constructor]. cbv zeta. destruct t; apply sf_result_at.
  - unfold json_finish. destruct (negb _); [constructor|]. destruct (raw_texts _); [|constructor]. destruct (e_json _ _); [apply base_finish_at|apply at_tag|constructor].
Qed.
Definition ofraw (raws : list (str * nat)) (x : str) : Prop := offless x \/ exists vo, In vo raws /\ x = offset_subj (snd vo).
Definition auxq (T : str -> Prop) (h : handler) : Prop := Forall (fun se : str * ev => T (fst se)) (h_aux h).
Lemma aux_of_q (T : str -> Prop) l : Forall (fun s : sev => T (fst (fst s))) l -> Forall (fun se : str * ev => T (fst se)) (aux_of l).
Proof.
  intros H. apply Forall_forall. intros [x e] Hx. apply in_flat_map in Hx as ([[subj base] e2] & Hi & Hx). rewrite Forall_forall in H. specialize (H _ Hi). cbn [fst] in H.
  destruct e2; try destruct Hx; try contradiction; injection H0 as <- <-; exact H.
Qed.
Lemma set_cookie_msgs (T : str -> Prop) subj base l : T subj -> Forall (msgs T) l -> Forall (subjq T) (tag subj base l).
Proof. intros HT H. unfold tag. apply Forall_map. eapply Forall_impl; [|exact H]. intros e He. destruct e; cbn [subjq msgs] in *; assumption. Qed.
Lemma broken_values_q (T : str -> Prop) c f : (forall x, offless x -> T x) -> forall l h acc evs h' r, h_cls h = f -> broken_values c h l acc = (evs, h', Ok r) ->
  (forall vo, In vo l -> T (offset_subj (snd vo))) -> auxq T h -> Forall (fsevi f) evs -> Forall (subjq T) evs /\ auxq T h' /\ h_cls h' = f.
Proof.
  intros HO. induction l as [|[raw o] l IH]; intros h acc evs h' r Hc E HT HA HF; cbn [broken_values] in E.
  - injection E as <- <- <-. split; [constructor|]. split; [exact HA|exact Hc].
  - set (l1 := match fa_syntax _ with Some _ => _ | None => _ end) in E.
    assert (L1 : forall T', Forall (msgs T') l1).
    { intros T'. unfold l1. destruct (fa_syntax _); [|constructor]. destruct (match_ws_dollar _ _); [constructor|]. constructor; [exact I|constructor]. }
    pose proof (HT (raw, o) (or_introl eq_refl)) as To. cbn [snd] in To.
    destruct (parse_of (h_cls h) c h (strip raw)) as [l2 rp] eqn:Ep. cbv zeta in E. set (e1 := tag (offset_subj o) (line_base h) (l1 ++ l2)) in E.
    set (h1 := h_add_aux h (aux_of e1)) in E.
    assert (A1 : auxq T h1). { unfold auxq, h1. cbn [h_aux h_add_aux]. apply Forall_app. split; [exact HA|]. apply aux_of_q. apply (tag_subj T). exact To. }
    assert (C1 : h_cls h1 = f) by exact Hc.
    assert (X : forall acc' e2 h2 r2, broken_values c h1 l acc' = (e2, h2, Ok r2) -> evs = e1 ++ e2 -> h' = h2 -> Forall (subjq T) evs /\ auxq T h' /\ h_cls h' = f).
    { intros acc' e2 h2 r2 E2 -> ->. apply Forall_app in HF as [HF1 HF2]. destruct (IH h1 acc' e2 h2 r2 C1 E2) as (Y1 & Y2 & Y3); [intros; apply HT; right; assumption|exact A1|exact HF2|].
      split; [|split; assumption]. apply Forall_app. split; [|exact Y1].
      destruct (fname_eqb f F_set_cookie) eqn:Es.
      - apply fname_eqb_eq in Es. subst f. rewrite Es in Ep. pose proof (p_set_cookie_silent c h (strip raw)) as PS. change (parse_of F_set_cookie) with p_set_cookie in Ep. rewrite Ep in PS. cbn [fst] in PS.
        unfold e1. apply set_cookie_msgs; [exact To|]. apply Forall_app; split; [apply L1|]. eapply Forall_impl; [|exact PS]. intros a Ha. destruct a; cbn in *; auto. contradiction.
      - apply (tagged_subjq T f); [reflexivity|intros C; rewrite C in Es; discriminate|exact HO|exact HF1|apply (tag_subj T), To]. }
    destruct rp as [v|x].
    + destruct (broken_values c h1 l (acc ++ [v])) as [[e2 h2] [r2|x]] eqn:E2; [|discriminate]. injection E as <- <- <-. eapply X; [exact E2|reflexivity|reflexivity].
    + destruct (is_ValueError x); [|discriminate]. destruct (broken_values c h1 l acc) as [[e2 h2] [r2|y]] eqn:E2; [|discriminate]. injection E as <- <- <-. eapply X; [exact E2|reflexivity|reflexivity].
Qed.
Lemma finish_subj c subj base h evs h' : finish_handler c subj base h = (evs, h', Ok tt) -> Forall (fsevi (h_cls h)) evs -> offless subj ->
  (kind_of (h_cls h) = KBroken -> h_aux h = []) ->
  Forall (subjq (if match kind_of (h_cls h) with KBroken => true | _ => false end then ofraw (h_raw h) else offless)) evs.
Proof.
  intros E HF Hs HA.
  assert (NB : kind_of (h_cls h) <> KBroken -> Forall (subjq offless) evs).
  { intros Hk. pose proof (finish_at c subj base h Hk) as H. rewrite E in H. cbn [fst] in H. apply (tagged_subjq offless (h_cls h)); auto.
    - intros C. rewrite C in Hk. apply Hk. reflexivity.
    - eapply Forall_impl; [|exact H]. intros s ->. exact Hs. }
  destruct (kind_of (h_cls h)) eqn:Hk; try (apply NB; discriminate). clear NB.
  unfold finish_handler in E. rewrite Hk in E. unfold broken_finish in E.
  destruct (broken_values c h (h_raw h) []) as [[e1 h1] [l|x]] eqn:E1; [|discriminate].
  set (T := ofraw (h_raw h)).
  destruct (base_finish c subj base (h_set_val h1 (VList l))) as [[e2 h2] r2] eqn:E2. cbn [prefix_events] in E. injection E as <- <- ->.
  apply Forall_app in HF as [HF1 HF2].
  destruct (broken_values_q T c (h_cls h) (fun x Hx => or_introl Hx) (h_raw h) h [] e1 h1 l eq_refl E1) as (Q1 & Q2 & Q3); [| |exact HF1|].
  { intros vo Hi. right. exists vo. auto. }
  { unfold auxq. rewrite HA by reflexivity. constructor. }
  apply Forall_app. split; [exact Q1|].
  pose proof (base_finish_at c subj base (h_set_val h1 (VList l))) as B. rewrite E2 in B. cbn [fst] in B.
  destruct (fname_eqb (h_cls h) F_set_cookie) eqn:Es.
  - apply fname_eqb_eq in Es. unfold base_finish in E2. cbn [h_val h_set_val] in E2. change (h_cls (h_set_val h1 (VList l))) with (h_cls h1) in E2. rewrite Q3, Es in E2.
    pose proof (ev_set_cookie_subj c (h_set_val h1 (VList l))) as ES. unfold finish_eval in E2. destruct (eval_of F_set_cookie c _) as [l3 r3]. cbn [fst] in ES.
    assert (E3 : e2 = tag subj base l3) by (destruct r3; [injection E2 as <- _; reflexivity|discriminate E2]). rewrite E3. apply set_cookie_msgs; [left; exact Hs|].
    eapply Forall_impl; [|exact ES]. intros a Ha. destruct a; cbn [msgs] in *; auto. apply in_map_iff in Ha as (se & <- & Hi). unfold auxq in Q2. rewrite Forall_forall in Q2. apply Q2, Hi.
  - apply (tagged_subjq T (h_cls h)); auto.
    + intros C. rewrite C in Es. discriminate.
    + intros x Hx. left. exact Hx.
    + eapply Forall_impl; [|exact B]. intros s ->. left. exact Hs.
Qed.
(** Handlers of such fields have collected lines, and said nothing. *)
Lemma feeds_raw e V rel l : forall h evs h', kind_of (h_cls h) = KBroken -> feeds e V rel h l = (evs, h', Ok tt) ->
  h_aux h' = h_aux h /\ incl (h_raw h') (h_raw h ++ l).
Proof.
  induction l as [|[v o] l IH]; intros h evs h' Hk E; cbn [feeds] in E.
  - injection E as _ <-. split; [reflexivity|]. rewrite app_nil_r. apply incl_refl.
  - assert (X : let h2 := snd (fst (fst (taken e V rel h v o))) in h_aux h2 = h_aux h /\ incl (h_raw h2) (h_raw h ++ [(v, o)]) /\ h_cls h2 = h_cls h).
    { pose proof (taken_id e V rel h v o) as [Hid _]. unfold taken in *.
      assert (P : h_aux (fst (fst (pre_check (m_type V) h))) = h_aux h /\ h_raw (fst (fst (pre_check (m_type V) h))) = h_raw h /\ h_cls (fst (fst (pre_check (m_type V) h))) = h_cls h).
      { unfold pre_check. destruct (m_type V), (fa_req (attrs (h_cls h))), (fa_resp (attrs (h_cls h))); try solve [repeat split];
        destruct (match_dollar _ _); try solve [repeat split]; destruct (fa_dep (attrs (h_cls h))); repeat split. }
      destruct (pre_check (m_type V) h) as [[h1 l3] go]. cbn [fst] in P. destruct P as (P1 & P2 & P3). destruct go.
      - unfold handle_input. rewrite P3, Hk. cbn [snd fst h_aux h_raw h_cls h_add_raw]. rewrite P1, P2, P3. split; [reflexivity|]. split; [apply incl_refl|reflexivity].
      - cbn [snd fst]. rewrite P1, P2, P3. split; [reflexivity|]. split; [apply incl_appl, incl_refl|reflexivity]. }
    destruct (taken e V rel h v o) as [[[[l3 l4] h2] go] r]. cbn [fst snd] in X. destruct X as (X1 & X2 & X3).
    destruct r as [[]|x]; [|discriminate]. destruct (feeds e V rel h2 l) as [[l5 h3] r3] eqn:E3. injection E as _ <- ->.
    destruct (IH h2 l5 h3) as [Y1 Y2]; [rewrite X3; exact Hk|exact E3|]. split; [congruence|].
    intros z Hz. apply Y2 in Hz. apply in_app_iff in Hz as [Hz|Hz]; [apply X2 in Hz; apply in_app_iff in Hz as [Hz|[<-|[]]]|]; apply in_app_iff; [left; exact Hz|right; left; reflexivity|right; right; exact Hz].
Qed.

Lemma field_subj_offless h : offless (field_subj h).
Proof. reflexivity. Qed.
(** One section. *)
Lemma process_lineq e rel tr (Q : str -> nid -> Prop) m raws m' : sec tr m = new_section tr -> process e rel tr m raws = (m', Ok tt) ->
  (forall x n, placedq (m_type m) (placed (m_type m) 0 raws) x n -> Q x n) -> (forall x n, offless x -> Q x n) ->
  Forall (notq Q) (m_notes m) -> Forall (notq Q) (m_notes m').
Proof.
  intros Hs E HQ HO HN. destruct (process_lines e rel tr m raws m' Hs E) as (m1 & E1 & T1 & St & E2 & S1 & Ks & Hh & Ef).
  assert (S0 : sinv any (m_type m) (sec tr m)) by (rewrite Hs; split; constructor).
  pose proof (lines_lineq e rel tr Q raws m 0%nat m1 S0 E1 HQ HO HN) as N1.
  assert (N2 : Forall (notq Q) (m_notes (section_size tr m1)) /\ m_type (section_size tr m1) = m_type m).
  { unfold section_size. destruct (_ <? _); [|auto]. split; [|exact T1]. rewrite notes_emit. apply emit_notq; [exact N1|]. constructor; [apply HO; reflexivity|constructor]. }
  destruct N2 as [N2 T2]. destruct S1 as [_ Hl].
  assert (HH : Forall (fun kh => lined (m_type m) kh /\ forall x, kind_of (h_cls (snd kh)) = KBroken ->
     h_aux (snd kh) = [] /\ (ofraw (h_raw (snd kh)) x -> forall n, framework n = true \/ own (h_cls (snd kh)) n = true -> Q x n)) (s_handlers (sec tr m1))).
  { apply Forall_forall. intros [k h] Hin. rewrite Forall_forall in Hl. split; [apply Hl, Hin|]. cbn [snd]. intros x Hk.
    destruct (Hh k h Hin) as (evs & Ek & (r & Hr & Hn & Hrk) & Hf). set (n0 := first_name k raws) in *.
    assert (Hi0 : ident any (lower n0, new_handler n0)) by (exists n0; split; [exact I|split; [reflexivity|apply same_id_refl]]).
    destruct (feeds_got e (still m) rel n0 _ _ _ _ Hi0 Hf) as [Hid Hraw]. pose proof Hid as (Hc & _).
    destruct (feeds_raw e (still m) rel (lines_of k (m_type m) raws) (new_handler n0) evs h) as [A B]; [rewrite <- Hc; exact Hk|exact Hf|].
    split; [exact A|]. intros [Hx|(vo & Hv & ->)] n Hc0; [apply HO, Hx|]. pose proof Hv as Hv0. apply B in Hv. cbn [h_raw new_handler app] in Hv.
    unfold lines_of in Hv. apply in_map_iff in Hv as (ro & <- & Hro). apply filter_In in Hro as [Hro Hkey]. unfold keyed in Hkey. apply str_eqb_eq in Hkey.
    apply HQ. exists ro. split; [exact Hro|]. split; [reflexivity|]. destruct Hc0 as [Hc0|Hc0]; [left; exact Hc0|].
    destruct (accepted (m_type (still m)) n0) eqn:Ea.
    - right. rewrite still_type in Ea. split.
      + rewrite <- accepted_lower. change (lower (raw_name (fst ro))) with (raw_key (fst ro)). rewrite Hkey, Ek, accepted_lower. exact Ea.
      + rewrite <- find_class_lower. change (lower (raw_name (fst ro))) with (raw_key (fst ro)). rewrite Hkey, Ek, find_class_lower. rewrite Hc in Hc0. exact Hc0.
    - exfalso. destruct Hraw as (Hraw & _). rewrite Hraw in Hv0. destruct Hv0. }
  clear E1 N1 Hh Ks E E2. revert HH Ef. generalize (s_handlers (sec tr m1)). intros l HH Ef. rewrite <- T2 in HH. clear T1 Hl HN HQ St S0 Hs T2.
  revert N2 HH Ef. generalize (section_size tr m1). clear m1. induction l as [|[k h] l IH]; intros m1 N2 HH Ef; cbn [finish_all] in Ef.
  - injection Ef as <-. exact N2.
  - inversion HH as [|? ? [HL HB] HH2]; subst. cbn [snd] in HB. destruct (finish_one e rel tr m1 (k, h)) as [m2 [[]|x]] eqn:E1; [|discriminate].
    destruct (finish_one_facts e rel tr m1 k h m2 HL E1) as (evs & h' & Eh & Hid & F & _ & N1 & _ & _ & _ & _ & _ & _ & _ & Ty1).
    apply (IH m2); [|rewrite Ty1; exact HH2|exact Ef]. rewrite N1. apply emit_notq; [exact N2|].
    pose proof (finish_subj _ _ _ _ _ _ Eh F (field_subj_offless h) (fun Hk => proj1 (HB [] Hk))) as SQ.
    rewrite Forall_forall in F, SQ |- *. intros s Hi. eapply subjq_sevq; [apply F, Hi|apply SQ, Hi|]. intros x n HT Hc.
    destruct (kind_of (h_cls h)) eqn:Hk; try (apply HO; exact HT). apply (proj2 (HB x eq_refl) HT n Hc).
Qed.

(** ** The whole run *)
Lemma posted_lineq t (Q : str -> nid -> Prop) l : (forall x n, offless x -> Q x n) -> Forall (fun s : sev => offless (fst (fst s))) l -> Forall (posted t) l -> Forall (sevq Q) l.
Proof.
  intros HO H1 H2. rewrite Forall_forall in *. intros [[subj base] e] Hi. specialize (H1 _ Hi). destruct (H2 _ Hi) as (f & Hf & _ & He & _). cbn [fst snd] in *.
  destruct e; cbn [sevq fev] in *; auto. destruct He as (_ & _ & [->|He]); [discriminate Hf|apply HO, He].
Qed.
Lemma mnoted_lineq (Q : str -> nid -> Prop) F m m' : (forall x n, offless x -> Q x n) -> mnoted F m m' -> Forall (notq Q) (m_notes m) -> Forall (notq Q) (m_notes m').
Proof.
  intros HO (evs & -> & H) Hn. apply emit_notq; [exact Hn|]. eapply Forall_impl; [|exact H]. intros [[sj base] e] (_ & n & vrs & He & _ & _ & Ho).
  destruct He as [[s2 ->]| ->]; apply HO, Ho.
Qed.
Lemma length_lineq (Q : str -> nid -> Prop) m : (forall x n, offless x -> Q x n) -> Forall (notq Q) (m_notes m) -> Forall (notq Q) (m_notes (check_content_length m)).
Proof.
  intros HO Hn. destruct (content_length_pass m) as [N|(n & En & Ek & El)]; [apply (mnoted_lineq Q _ _ _ HO N Hn)|].
  unfold check_content_length in *. destruct (can_have_content m).
  - destruct (m_get m _); [|exact Hn]. destruct (m_no_content m); [exact Hn|]. match goal with |- context [if ?b then _ else _] => destruct b end.
    all: unfold note_msg; rewrite notes_emit; apply emit_notq; [exact Hn|]; constructor; [apply HO; reflexivity|constructor].
  - match goal with |- context [if ?b then _ else _] => destruct b end; [|exact Hn].
    unfold note_msg; rewrite notes_emit; apply emit_notq; [exact Hn|]; constructor; [apply HO; reflexivity|constructor].
Qed.
Lemma start_lineq (Q : str -> nid -> Prop) e top m m' r : (forall x n, offless x -> Q x n) -> start_line e top m = (m', r) -> Forall (notq Q) (m_notes m) -> Forall (notq Q) (m_notes m').
Proof.
  intros HO. destruct top as [|a b c|a b c]; cbn [start_line]; intros E.
  - injection E as <- _. auto.
  - pose proof (request_topline_pass e a b c m) as P0. rewrite E in P0. apply (mnoted_lineq Q _ _ _ HO (proj1 P0)).
  - injection E as <- _. apply (mnoted_lineq Q _ _ _ HO (response_topline_pass a b c m)).
Qed.
Lemma feed_all_lineq (Q : str -> nid -> Prop) e chunks : (forall x n, offless x -> Q x n) -> forall m m' r, feed_all e chunks m = (m', r) -> Forall (notq Q) (m_notes m) -> Forall (notq Q) (m_notes m').
Proof.
  intros HO. induction chunks as [|c cs IH]; intros m m' r E Hn; cbn [feed_all] in E; [injection E as <- _; exact Hn|].
  pose proof (feed_pass e c m) as P0. destruct (feed_content e c m) as [m1 [x|x]]; cbn [then_] in E.
  - apply (IH _ _ _ E). apply (mnoted_lineq Q _ _ _ HO (proj1 P0) Hn).
  - injection E as <- _. apply (mnoted_lineq Q _ _ _ HO (proj1 P0) Hn).
Qed.
Lemma post_one_lineq (Q : str -> nid -> Prop) e rel tr m h m' r : (forall x n, offless x -> Q x n) -> fin_ok (m_type m) h -> post_one e rel tr m h = (m', r) ->
  Forall (notq Q) (m_notes m) -> Forall (notq Q) (m_notes m').
Proof.
  intros HO (Hv & Ha & Hm) E Hn. unfold post_one in E.
  assert (X : h_val h <> VNone -> forall l, post_of (h_cls h) (mkCx e m rel) h = (l, r) ->
     Forall (notq Q) (m_notes (m_emit (tag (field_subj h) (sec_base tr h) l) m))).
  { intros Hx l El. rewrite notes_emit. apply emit_notq; [exact Hn|].
    destruct (has_post (h_cls h)) eqn:Hp; [|rewrite (post_none _ _ _ Hp) in El; injection El as <- _; constructor].
    destruct (post_pass (h_cls h) (mkCx e m rel) h Hv Hx Hm) as [P1 _]. rewrite El in P1. cbn [fst] in P1.
    unfold tag. apply Forall_map. eapply Forall_impl; [|exact P1]. intros a He. destruct a; cbn [sevq fev] in *; try exact I; try (apply HO; reflexivity).
    destruct He as (_ & _ & [He|He]); [rewrite He in Hp; discriminate Hp|apply HO, He]. }
  destruct (h_val h) eqn:Ev; try (injection E as <- <-; exact Hn);
    (destruct (post_of (h_cls h) (mkCx e m rel) h) as [le r0]; injection E as <- ->; apply X; [discriminate|reflexivity]).
Qed.
Lemma post_all_lineq (Q : str -> nid -> Prop) e rel tr l : (forall x n, offless x -> Q x n) -> forall m m', Forall (fun kh => fin_ok (m_type m) (snd kh)) l -> post_all e rel tr m l = (m', Ok tt) ->
  Forall (notq Q) (m_notes m) -> Forall (notq Q) (m_notes m').
Proof.
  intros HO. induction l as [|[k h] l IH]; intros m m' H E Hn; cbn [post_all] in E.
  - injection E as <-. exact Hn.
  - inversion H as [|? ? H1 H2]; subst. cbn [snd] in H1. pose proof (post_one_frame e rel tr m h) as Fr.
    destruct (post_one e rel tr m h) as [m1 [[]|x]] eqn:E1; cbn [then_] in E; [|discriminate]. cbn [fst] in Fr.
    assert (T : m_type m1 = m_type m) by (rewrite Fr; reflexivity). apply (IH m1 m'); [rewrite T; exact H2|exact E|].
    apply (post_one_lineq Q e rel tr m h m1 _ HO H1 E1 Hn).
Qed.
Theorem lint_lineq e rel top headers chunks complete trailers t start nc head base m' rel' (Q : str -> nid -> Prop) :
  lint e rel top headers chunks complete trailers (new_linter t start nc head base) = (m', rel', Ok tt) ->
  (forall x n, offless x -> Q x n) -> (forall x n, placedq t (placed t 0 headers) x n -> Q x n) -> (forall x n, placedq t (placed t 0 trailers) x n -> Q x n) ->
  Forall (notq Q) (m_notes m').
Proof.
  intros E HO Qh Qt.
  destruct (lint_stages _ _ _ _ _ _ _ _ _ _ _ _ _ _ E) as (p & m0 & m1 & m & Hp & L0 & E0 & E1 & E2 & L1 & L2 & E3).
  pose proof (setup_start e top (new_linter t start nc head base)) as S0. rewrite E0 in S0. cbn [fst] in S0.
  pose proof (setup_headers e rel headers m0) as S1. rewrite E1 in S1. cbn [fst] in S1.
  pose proof (setup_feed e chunks m1) as S2. rewrite E2 in S2. cbn [fst] in S2.
  assert (Hs0 : setup m0 = (t, start, nc, head, base)) by (rewrite S0; reflexivity).
  assert (Hs : setup m = (t, start, nc, head, base)) by (rewrite S2, S1; exact Hs0).
  assert (Tm0 : m_type m = t) by (injection Hs as -> _; reflexivity). assert (Tm1 : m_type m0 = t) by (injection Hs0 as -> _; reflexivity).
  destruct (linted_inv _ _ _ _ L0) as [_ U0]. assert (U : untouched m0) by (destruct Hp; subst p; exact U0). destruct U as (U1 & U2 & _).
  destruct (linted_inv _ _ _ _ L2) as [_ (A & B & C)].
  pose proof (process_headers_frame e rel headers m0) as Fh. rewrite E1 in Fh. cbn [fst] in Fh.
  pose proof (feed_all_body e chunks m1) as Ff. rewrite E2 in Ff. cbn [fst] in Ff.
  assert (P1 : exists mh', process e rel false m0 headers = (mh', Ok tt) /\ m_notes m1 = m_notes mh').
  { unfold process_headers in E1. destruct (process e rel false m0 headers) as [mh' [[]|x]]; [|discriminate]. exists mh'. split; [reflexivity|].
    repeat match type of E1 with
           | match ?x with _ => _ end = _ => destruct x; try discriminate E1
           | (if ?x then _ else _) = _ => destruct x; try discriminate E1
           end; injection E1 as <-; reflexivity. }
  destruct P1 as (mh' & P1 & N1).
  assert (Nm : Forall (notq Q) (m_notes m)).
  { apply (feed_all_lineq Q e chunks HO _ _ _ E2). rewrite N1. apply (process_lineq e rel false Q m0 headers mh' U1 P1); [rewrite Tm1; exact Qh|exact HO|].
    apply (start_lineq Q _ _ _ _ _ HO E0). constructor. }
  assert (Tm : m_trailers m = new_section true) by (rewrite Ff, <- U2; cbn; rewrite Fh; reflexivity).
  unfold finish_content in E3. set (mt := m_set_hash _ _) in E3.
  assert (Tt : m_trailers mt = new_section true) by exact Tm.
  assert (W : exists mt', process e rel true mt trailers = (mt', Ok tt) /\
     (let m := check_content_length (m_set_dec_hash (Some (e_md5 e (m_dec_hashed mt'))) mt') in
      let '(m, rel, r) := post_checks e rel m in
      match r with
      | Err x => (m, rel, Err x)
      | Ok _ =>
          let '(m, r) :=
            then_ (post_all e rel false m (s_handlers (m_headers m)))
                  (fun m => post_all e rel true m (s_handlers (m_trailers m))) in
          (m, rel, r)
      end) = (m', rel', Ok tt)).
  { destruct trailers as [|tr0 trs].
    - exists mt. split; [apply (process_nil e rel true mt Tt)|exact E3].
    - destruct (process e rel true mt (tr0 :: trs)) as [mt' [[]|x]] eqn:Ep; [|discriminate]. exists mt'. split; [reflexivity|exact E3]. }
  destruct W as (mt' & Pt & Ee). clear E3.
  pose proof (process_frame e rel true mt trailers) as Ft. rewrite Pt in Ft. cbn [fst] in Ft.
  assert (Nt : Forall (notq Q) (m_notes mt')).
  { apply (process_lineq e rel true Q mt trailers mt' Tt Pt); [change (m_type mt) with (m_type m); rewrite Tm0; exact Qt|exact HO|exact Nm]. }
  cbv zeta in Ee. set (mc := check_content_length _) in Ee.
  assert (Nc : Forall (notq Q) (m_notes mc)) by (apply length_lineq; [exact HO|exact Nt]).
  assert (Fc : notes_only (m_set_dec_hash (Some (e_md5 e (m_dec_hashed mt'))) mt') mc) by apply check_content_length_frame.
  pose proof (post_checks_frame e rel mc) as Fp. pose proof (post_checks_pass (fun _ => True) e rel mc) as Np.
  destruct (post_checks e rel mc) as [[m3 rel3] [[]|x]]; [|discriminate Ee]. cbn [fst] in Fp.
  assert (N3 : Forall (notq Q) (m_notes m3)) by (apply (mnoted_lineq Q _ _ _ HO (proj1 Np) Nc)).
  assert (H3 : m_headers m3 = m_headers m /\ m_trailers m3 = m_trailers mt' /\ m_type m3 = t).
  { assert (Y : m_headers mt' = m_headers m /\ m_type mt' = m_type m) by (rewrite Ft; split; reflexivity). destruct Y as [Y1 Y2].
    rewrite Fp, Fc. cbn. rewrite Y1, Y2, Tm0. repeat split. }
  destruct H3 as (H3 & T3 & Y3).
  assert (AF : Forall (fun kh => fin_ok (m_type m3) (snd kh)) (s_handlers (m_headers m3))).
  { pose proof (all_fin_list _ _ A) as AF. rewrite Tm0, <- H3 in AF. rewrite Y3. exact AF. }
  assert (BF : Forall (fun kh => fin_ok (m_type m3) (snd kh)) (s_handlers (m_trailers m3))).
  { rewrite Y3, T3. pose proof (process_pass (fun _ => True) e rel true mt trailers) as G. cbn [sec] in G. rewrite Tt in G. specialize (G eq_refl). rewrite Pt in G.
    destruct G as [_ (G & _)]; [apply Forall_forall; auto|]. cbn [sec] in G. change (m_type mt) with (m_type m) in G. rewrite <- Tm0. apply all_fin_list; exact G. }
  destruct (post_all e rel3 false m3 (s_handlers (m_headers m3))) as [m4 [[]|x]] eqn:E4; cbn [then_] in Ee; [|discriminate Ee].
  pose proof (post_all_frame e rel3 false (s_handlers (m_headers m3)) m3) as F4. rewrite E4 in F4. cbn [fst] in F4.
  pose proof (post_all_lineq Q e rel3 false _ HO m3 m4 AF E4 N3) as N4.
  assert (X4 : m_trailers m4 = m_trailers m3 /\ m_type m4 = m_type m3) by (rewrite F4; repeat split). destruct X4 as (X2 & X3).
  destruct (post_all e rel3 true m4 (s_handlers (m_trailers m4))) as [m5 [[]|x]] eqn:E5; [|discriminate Ee]. injection Ee as -> ->.
  rewrite <- X2, <- X3 in BF. apply (post_all_lineq Q e rel' true _ HO m4 m' BF E5 N4).
Qed.
