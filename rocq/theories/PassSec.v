(** * A field section: its events, the types of its values, when it raises. *)
From Verif Require Import PyStr Regex Grammar Note PyLib Utils FieldAttrs Types Fields1 Fields2 Fields3 Framework
  Spans EvLogic NoteLemmas LexLemmas ParamLemmas NumLemmas NameLemmas PassParse PassEval PassSF PassFrame.
Open Scope N_scope.

(** The libraries do not raise; no Cache-Status flag is false. *)
Definition json_total (e : env) : Prop := forall s x, e_json e s <> JRaise x.
Definition no_flag_false (e : env) : Prop := forall s l d, e_sf_list e s = SFOk l d -> ~ flag_false l.
(** What a message with field [f] may need of the library functions. *)
Definition fit (f : fname) (e : env) : Prop :=
  (urly f = true -> url_total e) /\ (kind_of f = KJson -> json_total e) /\ (f = F_cache_status -> no_flag_false e).
Lemma total_errors e : url_total e -> url_errors e.
Proof. intros [H1 H2]. split; intros; [destruct (H1 _ _ H)|destruct (H2 _ _ _ H)]. Qed.

(** Everything that does not change over a handler's life. *)
Definition same_id (h h' : handler) : Prop :=
  h_cls h' = h_cls h /\ h_wire h' = h_wire h /\ h_norm h' = h_norm h /\ h_canon h' = h_canon h.
Lemma same_id_refl h : same_id h h. Proof. repeat split. Qed.
Lemma same_id_trans a b c : same_id a b -> same_id b c -> same_id a c.
Proof. intros (A1 & A2 & A3 & A4) (B1 & B2 & B3 & B4). repeat split; congruence. Qed.

(** ** Events *)
Definition fwev (F : nid -> bool) (ks : list str) (e : ev) : Prop :=
  exists n cat vrs, e = ENote n cat vrs [] /\ F n = true /\ note_ok n (base_msg ++ ks) vrs.
Definition hev (F : nid -> bool) (f : fname) (ks : list str) (e : ev) : Prop := fev f e \/ fwev F ks e.
Lemma tag_fsev F f subj base l : base_vars base -> In k_field_name (keys base) -> Forall (hev F f (keys base)) l ->
  Forall (fsevg F f) (tag subj base l).
Proof.
  intros Hb Hk H. unfold tag. apply Forall_map. eapply Forall_impl; [|exact H].
  intros e [He|He]; (split; [exact Hb|]); [left; auto|right; exact He].
Qed.
Lemma tag_aux F f ks subj base l : Forall (hev F f ks) l -> Forall (fun se => fev f (snd se)) (aux_of (tag subj base l)).
Proof.
  intros H. unfold aux_of, tag. rewrite flat_map_concat_map, map_map, <- flat_map_concat_map. apply Forall_forall. intros se Hse.
  apply in_flat_map in Hse as (e & He & Hse). rewrite Forall_forall in H. specialize (H _ He).
  destruct H as [H|(n & cat & vrs & -> & _)]; [|destruct Hse].
  destruct e; cbn in Hse; try destruct Hse as [<-|[]]; try destruct Hse; exact H.
Qed.
Lemma fev_hev F f ks l : Forall (fev f) l -> Forall (hev F f ks) l.
Proof. apply Forall_impl. intros e H. left. exact H. Qed.
Lemma harmless_ref h : harmless (u (handler_ref h)) = true.
Proof.
  unfold handler_ref. destruct (h_cls h); try (vm_compute; reflexivity).
  unfold dep_info. destruct (slookup (h_norm h) deprecated_fields) as [[[a b] r]|] eqn:E; [|reflexivity].
  assert (H : forallb (fun kv => harmless (u (snd (snd kv)))) deprecated_fields = true) by (vm_compute; reflexivity).
  rewrite forallb_forall in H. unfold slookup in E. apply dget_In, in_map_iff in E as (kv & E & Hin).
  specialize (H _ Hin). injection E as _ E. rewrite E in H. exact H.
Qed.
#[export] Hint Resolve harmless_ref : tame.
Lemma line_base_str h : base_vars (line_base h).
Proof. split; [constructor; [eexists; reflexivity|constructor]|]. intros k [<-|[]]. right. left. reflexivity. Qed.
Lemma sec_base_str tr h : base_vars (sec_base tr h).
Proof.
  split; [constructor; [eexists; reflexivity|]; constructor; [eexists; reflexivity|constructor]|].
  intros k [<-|[<-|[]]]; [right; left|right; right; left]; reflexivity.
Qed.
Ltac fw n := left || right; exists n.
Ltac fw_tac := eexists _, _, _; split; [reflexivity|]; split; [vm_compute; reflexivity|]; split;
  [vm_compute; reflexivity | pv_tac].

(** What goes into a line's or a section's base. *)
Definition fbase (base : vars) : Prop := base_vars base /\ exists ks, keys base = k_field_name :: ks.
Lemma fbase_in base : fbase base -> In k_field_name (keys base).
Proof. intros [_ [ks ->]]. left. reflexivity. Qed.
Lemma fbase_line h : fbase (line_base h). Proof. split; [apply line_base_str|eexists; reflexivity]. Qed.
Lemma fbase_sec tr h : fbase (sec_base tr h). Proof. split; [apply sec_base_str|eexists; reflexivity]. Qed.
Lemma fwev_note F (base : vars) n cat vrs : fbase base -> F n = true -> covered n (base_msg ++ k_field_name :: keys vrs) = true ->
  Forall (kv_ok n) vrs -> fwev F (keys base) (ENote n cat vrs []).
Proof.
  intros Hb Hf Hc Hv. exists n, cat, vrs. split; [reflexivity|]. split; [exact Hf|]. split; [|exact Hv].
  revert Hc. apply covered_incl. intros k Hk. rewrite <- app_assoc. apply in_app_iff in Hk. apply in_app_iff.
  destruct Hk as [Hk|[<-|Hk]]; [auto|right; apply in_app_iff; left; apply fbase_in, Hb|right; apply in_app_iff; auto].
Qed.
Ltac fwnote := apply fwev_note; [auto using fbase_line, fbase_sec|vm_compute; reflexivity|vm_compute; reflexivity|
  pv_tac].

(** ** Reading lines *)
Definition strl (v : pyval) : Prop := exists l, v = VList (map VStr l).
(** The value of a handler before the section is finished. *)
Definition pre_val (t : mtype) (f : fname) (v : pyval) : Prop :=
  match kind_of f with
  | KList => (wrong t f = true /\ v = VNone) \/ exists l, v = VList l /\ Forall (val_ok f) l
  | KSF _ | KJson => (wrong t f = true /\ v = VNone) \/ strl v
  | KUnknown => v = VList []
  | _ => True
  end.
Definition hpre (t : mtype) (h : handler) : Prop :=
  aux_ok (h_cls h) h /\ h_sf h = false /\ (h_cls h = F__unknown \/ tok (h_wire h) = true)
  /\ pre_val t (h_cls h) (h_val h).
(** After a line. *)
Definition linv (t : mtype) (h : handler) : Prop :=
  hpre t h
  /\ (match kind_of (h_cls h) with KSF _ => h_val h <> VList [] | _ => True end)
  /\ (h_cls h = F_content_type -> h_raw h <> []).

Lemma kind_unknown f : kind_of f = KUnknown <-> f = F__unknown.
Proof. split; [destruct f; vm_compute; congruence|intros ->; reflexivity]. Qed.
Lemma hpre_new t name : hpre t (new_handler name).
Proof.
  split; [constructor|]. split; [reflexivity|]. cbn [h_cls h_wire h_val new_handler]. split.
  - destruct (fname_eqb (find_class name) F__unknown) eqn:E; [left; apply fname_eqb_eq, E|right].
    assert (H : tok name = true).
    { apply find_class_tok. intros H. rewrite H in E. vm_compute in E. discriminate. }
    rewrite (tok_strip name H). exact H.
  - unfold pre_val. destruct (kind_of (find_class name)); auto;
      try (right; exists []; split; [reflexivity|constructor]); right; exists []; reflexivity.
Qed.
Lemma wrong_unknown t : wrong t F__unknown = false. Proof. destruct t; reflexivity. Qed.
Lemma wrong_ct t : wrong t F_content_type = false. Proof. destruct t; reflexivity. Qed.

Lemma pre_check_pass t h : hpre t h ->
  let '(h1, l, go) := pre_check t h in
  Forall (hev framework (h_cls h) (keys (line_base h))) l
  /\ same_id h h1 /\ h_raw h1 = h_raw h /\ h_aux h1 = h_aux h /\ hpre t h1
  /\ (go = true -> wrong t (h_cls h) = false /\ h1 = h)
  /\ (go = false -> (wrong t (h_cls h) = true /\ h1 = h_set_val h VNone)
                    \/ (h_cls h = F__unknown /\ h1 = h)).
Proof.
  intros Hp. pose proof Hp as (Ha & Hs & Ht & Hv).
  assert (W : wrong t (h_cls h) = true -> hpre t (h_set_val h VNone)).
  { intros Hw. split; [exact Ha|]. split; [exact Hs|]. split; [exact Ht|]. cbn [h_cls h_val h_set_val].
    unfold pre_val in *. destruct (kind_of (h_cls h)) eqn:E; auto. apply kind_unknown in E. rewrite E, wrong_unknown in Hw. discriminate. }
  unfold pre_check.
  assert (R : forall l go, (go = true \/ (go = false /\ h_cls h = F__unknown)) ->
     wrong t (h_cls h) = false ->
     Forall (hev framework (h_cls h) (keys (line_base h))) l ->
     Forall (hev framework (h_cls h) (keys (line_base h))) l
     /\ same_id h h /\ h_raw h = h_raw h /\ h_aux h = h_aux h /\ hpre t h
     /\ (go = true -> wrong t (h_cls h) = false /\ h = h)
     /\ (go = false -> (wrong t (h_cls h) = true /\ h = h_set_val h VNone) \/ (h_cls h = F__unknown /\ h = h))).
  { intros l go Hg Hw Hl. split; [exact Hl|]. split; [apply same_id_refl|]. do 2 (split; [reflexivity|]). split; [exact Hp|].
    split; [auto|]. intros E. destruct Hg as [Hg|[_ Hg]]; [congruence|]. right. auto. }
  assert (T : forall (w : wrong t (h_cls h) = false),
     let '(h1, l, go) :=
       (if negb (match_dollar (nocase rfc9110_token) (h_wire h)) then (h, [ENote FIELD_NAME_BAD_SYNTAX None [] []], false)
        else if fa_dep (attrs (h_cls h))
             then (h, [ENote FIELD_DEPRECATED (Some (handler_cat h)) [(u "deprecation_ref", VStr (u (handler_ref h)))] []], true)
             else (h, [], true)) in
     Forall (hev framework (h_cls h) (keys (line_base h))) l
     /\ same_id h h1 /\ h_raw h1 = h_raw h /\ h_aux h1 = h_aux h /\ hpre t h1
     /\ (go = true -> wrong t (h_cls h) = false /\ h1 = h)
     /\ (go = false -> (wrong t (h_cls h) = true /\ h1 = h_set_val h VNone) \/ (h_cls h = F__unknown /\ h1 = h))).
  { intros w. destruct (negb (match_dollar _ _)) eqn:E.
    - apply R; auto.
      + right. split; [reflexivity|]. destruct Ht as [Ht|Ht]; [exact Ht|]. rewrite (tok_match _ Ht) in E. discriminate.
      + constructor; [right; fwnote|constructor].
    - destruct (fa_dep _); apply R; auto. constructor; [right; fwnote|constructor]. }
  assert (Wl : forall n, n = RESPONSE_HDR_IN_REQUEST \/ n = REQUEST_HDR_IN_RESPONSE -> wrong t (h_cls h) = true ->
     Forall (hev framework (h_cls h) (keys (line_base h))) [ENote n (Some (handler_cat h)) [] []]
     /\ same_id h (h_set_val h VNone) /\ h_raw (h_set_val h VNone) = h_raw h /\ h_aux (h_set_val h VNone) = h_aux h /\ hpre t (h_set_val h VNone)
     /\ (false = true -> wrong t (h_cls h) = false /\ h_set_val h VNone = h)
     /\ (false = false -> (wrong t (h_cls h) = true /\ h_set_val h VNone = h_set_val h VNone) \/ (h_cls h = F__unknown /\ h_set_val h VNone = h))).
  { intros n Hn Hw. split; [constructor; [|constructor]; right; destruct Hn as [->| ->]; fwnote|].
    split; [repeat split|]. do 2 (split; [reflexivity|]). split; [apply W, Hw|]. split; [discriminate|]. auto. }
  clear W R. unfold wrong in *.
  destruct t, (fa_req (attrs (h_cls h))), (fa_resp (attrs (h_cls h))); cbn [negb] in *; first [apply T; reflexivity|apply Wl; auto].
Qed.

(** list_field.py:45-63 never looks past the end of the value. *)
Lemma prefix_all r v bad : match_prefix (Seq (Star ws) r) v = Some bad -> nth_error v bad = None ->
  match_ws_dollar r v = true.
Proof.
  unfold match_prefix. destruct (ms (Seq (Star ws) r) v) as [|rest l] eqn:E; [discriminate|].
  intros H Hn. injection H as <-.
  assert (Hin : In rest (ms (Seq (Star ws) r) v)) by (rewrite E; left; reflexivity).
  apply ms_sound in Hin as (p & Hp & Hl). apply nth_error_None in Hn.
  assert (rest = []) as ->. { subst v. rewrite app_length in Hn. destruct rest; [reflexivity|cbn in Hn; lia]. }
  rewrite app_nil_r in Hp. subst v. unfold ws in Hl. apply lang_seq in Hl as (a & b & -> & Ha & Hb).
  apply lang_star_chr in Ha. apply match_ws_dollar_spec. exists a, b, []. rewrite app_nil_r. auto.
Qed.
Lemma wp_list_syntax f ks E h v : ks = keys (line_base h) ->
  wp (hev inner f ks) E (fun _ => True) (list_syntax h v).
Proof.
  intros ->. unfold list_syntax. cbv zeta. destruct (fa_syntax _) as [r|]; [|apply wp_ret; exact I].
  destruct (match_ws_dollar r v) eqn:Em; [apply wp_ret; exact I|].
  destruct (match_prefix _ v) as [bad|] eqn:Ep.
  - destruct (nth_error v bad) as [ch|] eqn:En; [|rewrite (prefix_all _ _ _ Ep En) in Em; discriminate].
    apply wp_tell; [|exact I]. constructor; [|constructor]. right. fwnote.
  - apply wp_when; [|exact I]. intros _. apply wp_tell; [|exact I]. constructor; [|constructor]. right. fwnote.
Qed.
Definition bad_world (c : cx) : Prop := ~ (url_errors (cx_env c) /\ sane c).
Lemma wp_list_member c h v :
  wp (hev inner (h_cls h) (keys (line_base h))) (fun _ => bad_world c)
     (fun o => match o with Some x => val_ok (h_cls h) x | None => True end) (list_member c h v).
Proof.
  unfold list_member. apply wp_seq; [apply wp_list_syntax; reflexivity|].
  apply wp_catch; [|apply wp_ret; exact I].
  eapply wp_bind with (R := val_ok (h_cls h)); [|intros; apply wp_ret; assumption].
  eapply wp_conseq; [apply (parse_pass (h_cls h) c h (strip v))| | |].
  - intros e He. left. exact He.
  - intros x Hx. unfold Ep in Hx. destruct (is_ValueError x) eqn:E; [left; reflexivity|right].
    intros [H1 H2]. specialize (Hx H1 H2). congruence.
  - auto.
Qed.
Definition lval (h : handler) : Prop := exists l, h_val h = VList l /\ Forall (val_ok (h_cls h)) l.
Lemma aux_ok_add f h l : aux_ok f h -> Forall (fun se => fev f (snd se)) l -> aux_ok f (h_add_aux h l).
Proof. intros H1 H2. unfold aux_ok. cbn [h_aux h_add_aux]. apply Forall_app. auto. Qed.
(** The framework's notes about a list member. *)
Definition member_report (f : fname) (v : str) : list nid :=
  match fa_syntax (attrs f) with
  | None => []
  | Some r =>
      if match_ws_dollar r v then []
      else match match_prefix (Seq (Star ws) r) v with
           | Some _ => [BAD_SYNTAX_DETAILED]
           | None => if fa_report (attrs f) then [BAD_SYNTAX] else []
           end
  end.
Definition about (subj : str) (l : list nid) : list (nid * str) := map (fun n => (n, subj)) l.
Lemma list_member_briefs c subj base h v evs o : list_member c h v = (evs, Ok o) -> briefs (tag subj base evs) = about subj (member_report (h_cls h) v).
Proof.
  unfold list_member, member_report. intros E.
  pose proof (parse_pass (h_cls h) c h (strip v)) as [He _]. destruct (parse_of (h_cls h) c h (strip v)) as [l r]. cbn [fst] in He.
  assert (P : forall a, list_syntax h v = (a, Ok tt) -> briefs (tag subj base evs) = briefs (tag subj base a)).
  { intros a Ea. unfold bind at 1, catch_value in E. rewrite Ea in E. unfold bind, ret in E. cbn [fst snd] in E.
    assert (Ev : evs = a ++ l).
    { destruct r as [x|x]; [|destruct (is_ValueError x)]; cbn [fst snd] in E; rewrite ?app_nil_r in E; congruence. }
    rewrite Ev. unfold tag. rewrite map_app, briefs_app. pose proof (briefs_fev _ subj base l He) as B. unfold tag in B. rewrite B, app_nil_r. reflexivity. }
  unfold list_syntax in *. cbv zeta in *. destruct (fa_syntax (attrs (h_cls h))) as [g|]; [|apply (P []); reflexivity].
  destruct (match_ws_dollar g v) eqn:Em; [apply (P []); reflexivity|].
  destruct (match_prefix _ v) as [bad|] eqn:Ep.
  - destruct (nth_error v bad) as [ch|] eqn:En; [|rewrite (prefix_all _ _ _ Ep En) in Em; discriminate].
    rewrite (P _ eq_refl). reflexivity.
  - destruct (fa_report (attrs (h_cls h))); rewrite (P _ eq_refl); reflexivity.
Qed.
Lemma list_input_pass c subj l : forall h,
  lval h -> aux_ok (h_cls h) h -> h_sf h = false ->
  let '(evs, h', r) := list_input c subj h l in
  Forall (fsevi (h_cls h)) evs /\ same_id h h' /\ lval h' /\ aux_ok (h_cls h) h' /\ h_sf h' = false
  /\ match r with Ok _ => briefs evs = flat_map (fun v => about subj (member_report (h_cls h) v)) l | Err _ => bad_world c end.
Proof.
  induction l as [|v l IH]; intros h Hl Ha Hs; cbn [list_input].
  - split; [constructor|]. split; [apply same_id_refl|]. auto.
  - pose proof (wp_list_member c h v) as [He Hr]. pose proof (list_member_briefs c subj (line_base h) h v) as Hb.
    destruct (list_member c h v) as [evs r]. cbn [fst snd] in *.
    pose proof (tag_fsev _ _ subj (line_base h) evs (line_base_str h) (fbase_in _ (fbase_line h)) He) as Hf.
    pose proof (tag_aux _ _ _ subj (line_base h) evs He) as Hx.
    set (tevs := tag subj (line_base h) evs) in *.
    destruct r as [o|x].
    2: { split; [exact Hf|]. split; [repeat split|]. split; [exact Hl|]. split; [apply aux_ok_add; assumption|]. auto. }
    set (h2 := match o with Some x => append_val (h_add_aux h (aux_of tevs)) x | None => h_add_aux h (aux_of tevs) end).
    assert (H2 : same_id h h2 /\ lval h2 /\ aux_ok (h_cls h) h2 /\ h_sf h2 = false).
    { destruct Hl as (vl & E & Hvl). unfold h2. destruct o as [x|].
      - unfold append_val. cbn [h_val h_add_aux]. rewrite E. split; [repeat split|]. split.
        + exists (vl ++ [x]). split; [reflexivity|]. apply Forall_app. auto.
        + split; [apply aux_ok_add; assumption|exact Hs].
      - split; [repeat split|]. split; [exists vl; auto|]. split; [apply aux_ok_add; assumption|exact Hs]. }
    destruct H2 as (I2 & L2 & A2 & S2). pose proof (proj1 I2) as C2.
    specialize (IH h2 L2). rewrite C2 in IH. specialize (IH A2 S2).
    destruct (list_input c subj h2 l) as [[evs' h'] r']. destruct IH as (G1 & G2 & G3 & G4 & G5 & G6).
    split; [apply Forall_app; auto|]. split; [apply (same_id_trans _ _ _ I2 G2)|]. split; [exact G3|]. split; [exact G4|]. split; [exact G5|].
    destruct r'; [|exact G6]. rewrite briefs_app, G6. unfold tevs. rewrite (Hb evs o eq_refl). reflexivity.
Qed.
(** The framework's notes when a line is given to its handler. *)
Definition input_report (f : fname) (v : str) (o : nat) : list (nid * str) :=
  match kind_of f with
  | KList => flat_map (fun v => about (offset_subj o) (member_report f v)) (split_list_field v)
  | _ => []
  end.
Lemma handle_input_pass c h v o : hpre (m_type (cx_msg c)) h -> wrong (m_type (cx_msg c)) (h_cls h) = false ->
  let '(evs, h', r) := handle_input c h v o in
  Forall (fsevi (h_cls h)) evs /\ same_id h h' /\ linv (m_type (cx_msg c)) h'
  /\ match r with Ok _ => briefs evs = input_report (h_cls h) v o | Err _ => bad_world c end.
Proof.
  intros (Ha & Hs & Ht & Hv) Hw. unfold handle_input, pre_val, input_report in *.
  destruct (kind_of (h_cls h)) eqn:K; rewrite ?Hw in Hv.
  - (* singleton *) split; [constructor|]. split; [repeat split|]. split; [|reflexivity].
    split; [|split].
    + repeat split; auto. unfold pre_val. cbn [h_cls h_add_raw]. rewrite K. exact I.
    + cbn [h_cls h_add_raw]. rewrite K. exact I.
    + intros _. cbn [h_raw h_add_raw]. destruct (h_raw h); discriminate.
  - (* list *) destruct Hv as [[Hv _]|Hv]; [discriminate|].
    pose proof (list_input_pass c (offset_subj o) (split_list_field v) h Hv Ha Hs) as H.
    destruct (list_input c (offset_subj o) h (split_list_field v)) as [[evs h'] r].
    destruct H as (G1 & G2 & G3 & G4 & G5 & G6). split; [exact G1|]. split; [exact G2|]. split; [|exact G6].
    destruct G2 as (C1 & C2 & C3 & C4). split; [|split].
    + split; [unfold aux_ok in *; rewrite C1; exact G4|]. split; [exact G5|]. split; [rewrite C1, C2; exact Ht|].
      unfold pre_val. rewrite C1, K. right. destruct G3 as (l & E & Hl). rewrite C1 in Hl. exists l. auto.
    + rewrite C1, K. exact I.
    + rewrite C1. intros E. rewrite E in K. discriminate.
  - (* broken *) split; [constructor|]. split; [repeat split|]. split; [|reflexivity].
    split; [|split].
    + repeat split; auto. unfold pre_val. cbn [h_cls h_add_raw]. rewrite K. exact I.
    + cbn [h_cls h_add_raw]. rewrite K. exact I.
    + intros _. cbn [h_raw h_add_raw]. destruct (h_raw h); discriminate.
  - (* structured *) destruct Hv as [[Hv _]|[l Hv]]; [discriminate|].
    split; [constructor|]. unfold append_val. rewrite Hv.
    split; [repeat split|]. split; [|reflexivity]. split; [|split].
    + repeat split; auto. unfold pre_val. cbn [h_cls h_val h_set_sf h_set_val]. rewrite K. right. exists (l ++ [v]).
      rewrite map_app. reflexivity.
    + cbn [h_cls h_val h_set_sf h_set_val]. rewrite K. intros E. injection E as E. destruct l; discriminate.
    + cbn [h_cls h_set_sf h_set_val]. intros E. rewrite E in K. discriminate.
  - (* json *) destruct Hv as [[Hv _]|[l Hv]]; [discriminate|].
    split; [constructor|]. unfold append_val. rewrite Hv.
    split; [repeat split|]. split; [|reflexivity]. split; [|split].
    + repeat split; auto. unfold pre_val. cbn [h_cls h_val h_set_sf h_set_val]. rewrite K. right. exists (l ++ [v]).
      rewrite map_app. reflexivity.
    + cbn [h_cls h_val h_set_val]. rewrite K. exact I.
    + cbn [h_cls h_set_val]. intros E. rewrite E in K. discriminate.
  - (* unknown *) split; [constructor|]. split; [apply same_id_refl|]. split; [|reflexivity].
    split; [|split].
    + repeat split; auto. unfold pre_val. rewrite K. exact Hv.
    + rewrite K. exact I.
    + intros E. rewrite E in K. discriminate.
Qed.

(** ** Finishing *)
Definition fin_ok (t : mtype) (h : handler) : Prop :=
  hval_ok t (h_cls h) (h_val h) /\ aux_ok (h_cls h) h /\ (h_cls h = F_nel -> marks_ok h).
Definition wild (f : fname) (c : cx) : Prop := ~ (url_errors (cx_env c) /\ fit f (cx_env c) /\ sane c).
Lemma bad_wild f c : bad_world c -> wild f c.
Proof. intros H [Hc [_ Hs]]. apply H. split; [exact Hc|exact Hs]. Qed.
(** The result of finishing a handler. *)
Definition fpost (c : cx) (h : handler) (B : list (nid * str)) (r : list sev * handler * res unit) : Prop :=
  let '(evs, h', x) := r in
  Forall (fsevi (h_cls h)) evs /\ same_id h h'
  /\ match x with Ok _ => fin_ok (m_type (cx_msg c)) h' /\ briefs evs = B | Err _ => wild (h_cls h) c end.
Lemma fpost_prefix c h0 h l B1 B r : Forall (fsevi (h_cls h0)) l -> briefs l = B1 -> same_id h0 h -> fpost c h B r ->
  fpost c h0 (B1 ++ B) (prefix_events l r).
Proof.
  intros Hl HB Hi. destruct r as [[evs h'] x]. cbn. intros (H1 & H2 & H3). split; [apply Forall_app; split; [exact Hl|]; destruct Hi as [<- _]; exact H1|].
  split; [apply (same_id_trans _ _ _ Hi H2)|]. destruct x; [|destruct Hi as [<- _]; exact H3]. destruct H3 as [H3 H4]. split; [exact H3|].
  rewrite briefs_app, HB, H4. reflexivity.
Qed.
Lemma finish_eval_pass c subj base h (m : W pyval) : fbase base -> aux_ok (h_cls h) h ->
  wp (fev (h_cls h)) (fun _ => wild (h_cls h) c) (hval_ok (m_type (cx_msg c)) (h_cls h)) m ->
  (h_cls h = F_nel -> forall v, snd m = Ok v -> marks_ok (h_set_val (h_add_aux h (aux_of (tag subj base (fst m)))) v)) ->
  fpost c h [] (finish_eval subj base h m).
Proof.
  intros Hb Ha [He Hr] Hm. unfold finish_eval. destruct m as [l r]. cbn [fst snd] in *. pose proof (briefs_fev _ subj base l He) as HB.
  apply (fev_hev inner _ (keys base)) in He.
  pose proof (tag_fsev _ _ subj base l (proj1 Hb) (fbase_in _ Hb) He) as Hf.
  pose proof (tag_aux _ _ _ subj base l He) as Hx.
  destruct r as [v|x]; (split; [exact Hf|]); (split; [repeat split|]); [|exact Hr].
  split; [|exact HB]. split; [exact Hr|]. split; [apply aux_ok_add; assumption|]. intros E. apply (Hm E v eq_refl).
Qed.
Lemma marked_add h subj base l v : length (bool_marks l) = v ->
  (v <= length (marked_bools (h_add_aux h (aux_of (tag subj base l)))))%nat.
Proof.
  intros <-. unfold marked_bools. cbn [h_aux h_add_aux]. rewrite flat_map_app, app_length.
  enough (E : flat_map (fun se : str * ev => match snd se with EMark (VBool b) => [b] | _ => [] end) (aux_of (tag subj base l))
              = bool_marks l) by (rewrite E; lia).
  unfold aux_of, tag, bool_marks. induction l as [|e l IH]; [reflexivity|]. cbn [map flat_map]. rewrite flat_map_app, IH.
  destruct e as [| | |w|]; try reflexivity; destruct w; reflexivity.
Qed.
Lemma base_finish_pass c subj base h : fbase base -> aux_ok (h_cls h) h ->
  (forall t, kind_of (h_cls h) <> KSF t) ->
  hval_ok (m_type (cx_msg c)) (h_cls h) (h_val h) ->
  fpost c h [] (base_finish c subj base h).
Proof.
  intros Hb Ha Hk Hv.
  assert (G : h_val h <> VNone -> fpost c h [] (finish_eval subj base h (eval_of (h_cls h) c h))).
  { intros Hn. apply finish_eval_pass; auto.
    - eapply wp_conseq; [apply (eval_pass (h_cls h) c h Hv Hn Ha)|auto| |auto].
      intros x [E|H]; [exfalso; apply (Hk SFList); rewrite E; reflexivity|].
      intros (_ & (Hc & _) & Hs). apply H. auto.
    - intros E v Hv'. rewrite E in *. destruct Hv as [Hv|(l & Hv)]; [contradiction|].
      destruct (marks_nel c h _ Hv) as [Hm [a Ea]]. intros l' El. cbn [h_val h_set_val] in El.
      assert (v = h_val h) as ->.
      { revert Hv'. cbn [eval_of]. unfold keep. intros Hv'. destruct (ev_nel c h) as [l1 [a1|x1]]; cbn in Hv'; congruence. }
      assert (l' = map json_val l) as -> by congruence. cbn [h_aux h_set_val].
      unfold marked_bools. cbn [h_aux h_set_val]. apply (marked_add h subj base _ _ Hm). }
  unfold base_finish. destruct (h_val h) eqn:E; try (apply G; discriminate).
  split; [constructor|]. split; [apply same_id_refl|]. split; [|reflexivity]. split; [rewrite E; exact Hv|]. split; [exact Ha|].
  intros Ef l. rewrite E. discriminate.
Qed.
Lemma tag_app subj base a b : tag subj base (a ++ b) = tag subj base a ++ tag subj base b.
Proof. apply map_app. Qed.
Lemma ct_parse c h v x : snd (parse_of F_content_type c h v) = Err x -> False.
Proof.
  intros H. assert (G : forall E : exn -> Prop, wp (fev F_content_type) E (fun _ => True) (parse_of F_content_type c h v)).
  { intros E. cbn [parse_of]. unfold p_content_type. eapply wp_bind; [apply wp_parse_media; exact I|]. intros; apply wp_ret; exact I. }
  specialize (G (fun _ => False)) as [_ G]. rewrite H in G. exact G.
Qed.
Lemma wildv f c (x : exn) : Ep c x -> is_ValueError x = false -> wild f c.
Proof.
  intros H Hx [Hc [_ Hs]]. specialize (H Hc Hs). congruence.
Qed.
(** The framework's notes when a handler is finished. *)
Definition syntax_report (always : bool) (f : fname) (v : str) : list nid :=
  match fa_syntax (attrs f) with
  | Some r => if match_ws_dollar r v then [] else if always || fa_report (attrs f) then [BAD_SYNTAX] else []
  | None => []
  end.
Definition singleton_report (f : fname) (raws : list (str * nat)) : list nid :=
  match raws with
  | [] => []
  | (v, _) :: more => (match more with [] => [] | _ => [SINGLE_HEADER_REPEAT] end) ++ syntax_report false f v
  end.
Definition broken_report (f : fname) (raws : list (str * nat)) : list (nid * str) :=
  flat_map (fun vo => about (offset_subj (snd vo)) (syntax_report true f (fst vo))) raws.
Definition sfr_report {A} (r : sfres A) : list nid :=
  match r with
  | SFOk _ d => map (fun _ => DUPLICATE_KEY) d
  | SFErr d _ _ | SFOther d _ => map (fun _ => DUPLICATE_KEY) d ++ [STRUCTURED_FIELD_PARSE_ERROR]
  end.
Definition sf_report (e : env) (t : sftype) (raws : list str) : list nid :=
  match raws with
  | [] => []
  | _ => let combined := strip (join (u ", ") raws) in
         match t with
         | SFItem => sfr_report (e_sf_item e combined)
         | SFList => sfr_report (e_sf_list e combined)
         | SFDict => sfr_report (e_sf_dict e combined)
         end
  end.
Definition json_report (e : env) (raws : list str) : list nid :=
  match raws with
  | [] => []
  | _ => match e_json e (u "[" ++ join (u ", ") raws ++ u "]") with JErr _ => [BAD_JSON] | _ => [] end
  end.
Definition val_texts (v : pyval) : list str :=
  match v with VList l => flat_map (fun x => match x with VStr s => [s] | _ => [] end) l | _ => [] end.
Lemma val_texts_strs l : val_texts (VList (map VStr l)) = l.
Proof. cbn. induction l as [|x l IH]; [reflexivity|]. cbn. rewrite IH. reflexivity. Qed.
Definition finish_report (e : env) (subj : str) (h : handler) : list (nid * str) :=
  match kind_of (h_cls h) with
  | KSingleton => about subj (singleton_report (h_cls h) (h_raw h))
  | KBroken => broken_report (h_cls h) (h_raw h)
  | KSF t => about subj (sf_report e t (val_texts (h_val h)))
  | KJson => about subj (json_report e (val_texts (h_val h)))
  | KList | KUnknown => []
  end.
Lemma briefs_note subj base n cat vrs kids : framework n = true -> briefs (tag subj base [ENote n cat vrs kids]) = [(n, subj)].
Proof. intros H. unfold briefs. cbn [tag map flat_map ev_brief app filter fst]. rewrite H. reflexivity. Qed.
Lemma singleton_pass c subj base h : kind_of (h_cls h) = KSingleton -> fbase base -> linv (m_type (cx_msg c)) h ->
  fpost c h (about subj (singleton_report (h_cls h) (h_raw h))) (singleton_finish c subj base h).
Proof.
  intros K Hb ((Ha & Hs & Ht & _) & _ & Hct). unfold singleton_finish.
  assert (NK : forall t, kind_of (h_cls h) <> KSF t) by (intros t; rewrite K; discriminate).
  destruct (h_raw h) as [|[raw off] more] eqn:Er.
  - split; [constructor|]. split; [repeat split|]. split; [|reflexivity]. split; [|split; [exact Ha|]].
    + cbn [h_cls h_val h_set_val]. unfold hval_ok. rewrite K. left. split; [reflexivity|]. intros E. destruct (Hct E eq_refl).
    + intros E l. cbn. discriminate.
  - cbv zeta. set (l1 := match more with [] => _ | _ => _ end). set (l2 := match fa_syntax _ with Some _ => _ | None => _ end).
    assert (H1 : Forall (hev inner (h_cls h) (keys base)) l1).
    { unfold l1. destruct more; constructor; [|constructor]. right. fwnote. }
    assert (H2 : Forall (hev inner (h_cls h) (keys base)) l2).
    { unfold l2. destruct (fa_syntax _) as [r|]; [|constructor]. destruct (match_ws_dollar r raw); [constructor|].
      destruct (fa_report _); constructor; [|constructor]. right. fwnote. }
    pose proof (parse_pass (h_cls h) c h (strip raw)) as [He Hr].
    pose proof (ct_parse c h (strip raw)) as Hc.
    assert (HB : briefs (tag subj base (l1 ++ l2 ++ fst (parse_of (h_cls h) c h (strip raw)))) = about subj (singleton_report (h_cls h) ((raw, off) :: more))).
    { rewrite !tag_app, !briefs_app, (briefs_fev _ subj base _ He), app_nil_r. cbn [singleton_report]. unfold about. rewrite map_app. f_equal.
      - unfold l1. destruct more; reflexivity.
      - unfold l2, syntax_report. destruct (fa_syntax _) as [r0|]; [|reflexivity]. destruct (match_ws_dollar r0 raw); [reflexivity|]. cbn [orb].
        destruct (fa_report _); reflexivity. }
    destruct (parse_of (h_cls h) c h (strip raw)) as [l3 r] eqn:Ep. cbn [fst snd] in *.
    apply (fev_hev inner _ (keys base)) in He.
    assert (H3 : Forall (hev inner (h_cls h) (keys base)) (l1 ++ l2 ++ l3)) by (repeat (apply Forall_app; split); assumption).
    pose proof (tag_fsev _ _ subj base _ (proj1 Hb) (fbase_in _ Hb) H3) as Hf.
    pose proof (tag_aux _ _ _ subj base _ H3) as Hx.
    set (evs := tag subj base (l1 ++ l2 ++ l3)) in *.
    destruct r as [v|x].
    + rewrite <- (app_nil_r (about _ _)). apply (fpost_prefix c h (h_set_val (h_add_aux h (aux_of evs)) v)); [exact Hf|exact HB|repeat split|].
      apply base_finish_pass; auto; [apply aux_ok_add; assumption|].
      cbn [h_cls h_val h_set_val h_add_aux]. unfold hval_ok. rewrite K. right. exact Hr.
    + destruct (is_ValueError x) eqn:Ex; (split; [exact Hf|]); (split; [repeat split|]).
      * split; [|exact HB]. split; [|split; [apply aux_ok_add; assumption|intros E l; cbn; discriminate]].
        cbn [h_cls h_val h_set_val h_add_aux]. unfold hval_ok. rewrite K. left. split; [reflexivity|].
        intros E. rewrite E in Ep. rewrite Ep in Hc. exact (Hc x eq_refl).
      * apply (wildv _ c x Hr Ex).
Qed.
Lemma broken_values_pass c l : forall h acc,
  aux_ok (h_cls h) h -> Forall (val_ok (h_cls h)) acc ->
  let '(evs, h', r) := broken_values c h l acc in
  Forall (fsevi (h_cls h)) evs /\ same_id h h' /\ aux_ok (h_cls h) h'
  /\ match r with Ok vs => Forall (val_ok (h_cls h)) vs /\ briefs evs = broken_report (h_cls h) l | Err _ => wild (h_cls h) c end.
Proof.
  induction l as [|[raw off] l IH]; intros h acc Ha Hacc; cbn [broken_values].
  - split; [constructor|]. split; [apply same_id_refl|]. auto.
  - cbv zeta. set (l1 := match fa_syntax _ with Some _ => _ | None => _ end).
    assert (H1 : Forall (hev inner (h_cls h) (keys (line_base h))) l1).
    { unfold l1. destruct (fa_syntax _) as [r|]; [|constructor]. destruct (match_ws_dollar r raw); constructor; [|constructor].
      right. fwnote. }
    pose proof (parse_pass (h_cls h) c h (strip raw)) as [He Hr].
    destruct (parse_of (h_cls h) c h (strip raw)) as [l2 r]. cbn [fst snd] in *.
    pose proof He as He0. apply (fev_hev inner _ (keys (line_base h))) in He.
    assert (H2 : Forall (hev inner (h_cls h) (keys (line_base h))) (l1 ++ l2)) by (apply Forall_app; auto).
    pose proof (tag_fsev _ _ (offset_subj off) (line_base h) _ (line_base_str h) (fbase_in _ (fbase_line h)) H2) as Hf.
    pose proof (tag_aux _ _ _ (offset_subj off) (line_base h) _ H2) as Hx.
    assert (HB : briefs (tag (offset_subj off) (line_base h) (l1 ++ l2)) = about (offset_subj off) (syntax_report true (h_cls h) raw)).
    { rewrite tag_app, briefs_app, (briefs_fev _ _ _ _ He0), app_nil_r. unfold l1, syntax_report. destruct (fa_syntax _) as [r0|]; [|reflexivity].
      destruct (match_ws_dollar r0 raw); reflexivity. }
    set (evs := tag (offset_subj off) (line_base h) (l1 ++ l2)) in *.
    set (h1 := h_add_aux h (aux_of evs)).
    assert (I1 : same_id h h1) by (repeat split).
    assert (A1 : aux_ok (h_cls h1) h1) by (apply aux_ok_add; assumption).
    assert (G : forall acc', Forall (val_ok (h_cls h)) acc' ->
      let '(evs', h', r') := (let '(evs', h', r') := broken_values c h1 l acc' in (evs ++ evs', h', r')) in
      Forall (fsevi (h_cls h)) evs' /\ same_id h h' /\ aux_ok (h_cls h) h' /\ match r' with Ok vs => Forall (val_ok (h_cls h)) vs /\ briefs evs' = broken_report (h_cls h) ((raw, off) :: l) | Err _ => wild (h_cls h) c end).
    { intros acc' Hacc'. specialize (IH h1 acc' A1 Hacc'). destruct (broken_values c h1 l acc') as [[evs' h'] r'].
      destruct IH as (G1 & G2 & G3 & G4). split; [apply Forall_app; auto|]. split; [apply (same_id_trans _ _ _ I1 G2)|]. split; [exact G3|].
      destruct r'; [|exact G4]. destruct G4 as [G4 G5]. split; [exact G4|]. rewrite briefs_app, G5, HB. reflexivity. }
    destruct r as [v|x].
    + apply G. apply Forall_app. auto.
    + destruct (is_ValueError x) eqn:Ex; [apply G; exact Hacc|]. split; [exact Hf|]. split; [exact I1|]. split; [exact A1|].
      apply (wildv _ c x Hr Ex).
Qed.
Lemma broken_pass c subj base h : kind_of (h_cls h) = KBroken -> fbase base -> linv (m_type (cx_msg c)) h ->
  fpost c h (broken_report (h_cls h) (h_raw h)) (broken_finish c subj base h).
Proof.
  intros K Hb ((Ha & _) & _). unfold broken_finish.
  pose proof (broken_values_pass c (h_raw h) h [] Ha (Forall_nil _)) as H.
  destruct (broken_values c h (h_raw h) []) as [[evs h1] r]. destruct H as (H1 & H2 & H3 & H4).
  destruct r as [vs|x]; [|split; auto]. pose proof H2 as (C1 & _). destruct H4 as [H4 H5].
  rewrite <- (app_nil_r (broken_report _ _)). apply (fpost_prefix c h (h_set_val h1 (VList vs))); [exact H1|exact H5|exact H2|].
  apply base_finish_pass; cbn [h_cls h_val h_set_val]; rewrite ?C1; auto.
  - intros t. rewrite K. discriminate.
  - unfold hval_ok. rewrite K. exists vs. auto.
Qed.
Lemma raw_texts_strl x l : raw_texts (VList (map VStr (x :: l))) = Some (x :: l).
Proof.
  cbn [map raw_texts]. revert x. induction l as [|y l IH]; intros x; [reflexivity|]. cbn [map]. rewrite IH. reflexivity.
Qed.
Lemma dup_hev f ks d : incl base_fld (base_msg ++ ks) -> Forall (hev inner f ks) (dup_events d).
Proof.
  intros Hi. unfold dup_events. apply Forall_map, Forall_forall. intros kc _. right. eexists _, _, _. split; [reflexivity|].
  split; [vm_compute; reflexivity|]. apply (note_ok_incl _ base_fld); [exact Hi|]. split; [vm_compute; reflexivity|].
  pv_tac.
Qed.
Lemma sf_result_pass {A} c subj base h combined (r : sfres A) value (ev : handler -> A -> W pyval) :
  fbase base -> aux_ok (h_cls h) h ->
  (exists t, kind_of (h_cls h) = KSF t) ->
  hval_ok (m_type (cx_msg c)) (h_cls h) VNone ->
  (forall v d h', r = SFOk v d -> h_cls h' = h_cls h -> h_val h' = value v ->
     wp (fev (h_cls h)) (fun _ => wild (h_cls h) c) (hval_ok (m_type (cx_msg c)) (h_cls h)) (ev h' v)) ->
  fpost c h (about subj (sfr_report r)) (sf_result subj base h combined r value ev).
Proof.
  intros Hb Ha [t K] Hn He. unfold sf_result. cbv zeta.
  assert (NN : h_cls h <> F_nel) by (intros E; rewrite E in K; discriminate).
  pose proof (base_fld_incl base (fbase_in _ Hb)) as Hi.
  assert (DD : forall d, briefs (tag subj base (dup_events d)) = about subj (map (fun _ => DUPLICATE_KEY) d)).
  { induction d as [|x d IH]; [reflexivity|]. change (dup_events (x :: d)) with ([ENote DUPLICATE_KEY None [(u "key", VStr (fst x)); (u "context", VStr (snd x))] []] ++ dup_events d).
    rewrite tag_app, briefs_app, IH, briefs_note by reflexivity. reflexivity. }
  assert (EE : forall d problem ctx, fpost c h (about subj (map (fun _ => DUPLICATE_KEY) d ++ [STRUCTURED_FIELD_PARSE_ERROR])) (tag subj base (dup_events d ++ [sf_error (h_set_sf h true) problem ctx]), h_set_val (h_set_sf h true) VNone, Ok tt)).
  { intros. split; [|split; [repeat split|]].
    - apply (tag_fsev inner (h_cls h)); [apply Hb|apply fbase_in, Hb|]. apply Forall_app. split; [apply dup_hev, Hi|].
      constructor; [|constructor]. right. unfold sf_error. fwnote.
    - split; [split; [exact Hn|]; split; [exact Ha|]; intros E; contradiction|].
      rewrite tag_app, briefs_app, DD. unfold sf_error. rewrite briefs_note by reflexivity. unfold about. rewrite map_app. reflexivity. }
  destruct r as [v d|d problem pos|d problem]; [|destruct pos; apply EE|apply EE].
  rewrite <- (app_nil_r (about _ _)). apply (fpost_prefix c h (h_set_val (h_set_sf h true) (value v))).
  - apply (tag_fsev inner (h_cls h)); [apply Hb|apply fbase_in, Hb|]. apply dup_hev, Hi.
  - apply DD.
  - repeat split.
  - apply finish_eval_pass; auto.
    + apply (He v d); reflexivity.
    + cbn [h_cls h_set_val h_set_sf]. intros E. contradiction.
Qed.
Lemma params_pd p : sf_pd (params_val p).
Proof.
  eexists. split; [reflexivity|]. apply Forall_forall. intros kv Hkv. apply (params_bare p kv Hkv).
Qed.
Lemma sf_pass t c subj base h : kind_of (h_cls h) = KSF t -> fbase base -> linv (m_type (cx_msg c)) h ->
  fpost c h (about subj (sf_report (cx_env c) t (val_texts (h_val h)))) (sf_finish t c subj base h).
Proof.
  intros K Hb ((Ha & Hs & Ht & Hv) & Hne & _). unfold sf_finish. unfold pre_val in Hv. rewrite K in Hv, Hne.
  assert (HN : hval_ok (m_type (cx_msg c)) (h_cls h) VNone) by (unfold hval_ok; rewrite K; destruct t; left; reflexivity).
  destruct Hv as [[_ Hv]|[l Hv]]; rewrite Hv; cbn [truthy negb].
  - split; [constructor|]. split; [apply same_id_refl|]. split; [|reflexivity]. split; [rewrite Hv; exact HN|]. split; [exact Ha|].
    intros E. rewrite E in K. discriminate.
  - destruct l as [|x l]; [contradiction|]. rewrite val_texts_strs. cbn [sf_report]. cbn [map nonempty negb]. rewrite Hs. change (VStr x :: map VStr l) with (map VStr (x :: l)).
    rewrite raw_texts_strl. cbv zeta. set (combined := strip _).
    destruct t; apply sf_result_pass; eauto.
    + intros [b p] d h' _ Ec Ev. cbn [fst snd] in *.
      eapply wp_conseq; [apply (item_pass (h_cls h) c h' b p (hval_ok (m_type (cx_msg c)) (h_cls h)))|auto|contradiction|auto].
      rewrite Ev. unfold hval_ok. rewrite K. right. eexists _, _. split; [reflexivity|]. split; [eexists; reflexivity|apply params_pd].
    + intros ml d h' Er Ec Ev.
      assert (HQ : forall l0, Forall sf_mem l0 -> hval_ok (m_type (cx_msg c)) (h_cls h) (VList l0)).
      { intros l0 Hl0. unfold hval_ok. rewrite K. right. eauto. }
      assert (HV : hval_ok (m_type (cx_msg c)) (h_cls h) (h_val h')).
      { rewrite Ev. apply HQ. apply Forall_map, Forall_forall. intros m _. apply member_sf. }
      destruct (fname_eqb (h_cls h) F_cache_status) eqn:Ef.
      * apply fname_eqb_eq in Ef. rewrite Ef in *. cbn [eval_list]. apply wp_keep; [|exact HV].
        eapply wp_conseq; [apply wp_cache_status|auto| |auto]. intros x0 Hff (_ & (_ & _ & Hc) & Hs0). exact (Hc eq_refl _ _ _ Er Hff).
      * eapply wp_conseq; [apply (list_pass (h_cls h) c h' ml _ HV HQ)|auto| |auto].
        intros y [Hy|Hy]; [rewrite Hy in Ef; vm_compute in Ef; discriminate|]. intros (_ & (Hc & _) & Hsane). apply Hy. auto.
    + intros ml d h' Er Ec Ev.
      assert (HV : hval_ok (m_type (cx_msg c)) (h_cls h) (h_val h')).
      { rewrite Ev. unfold hval_ok. rewrite K. right. eexists. split; [reflexivity|].
        apply Forall_map, Forall_forall. intros m _. cbn [snd]. apply member_sf. }
      destruct (fname_eqb (h_cls h) F_cache_status) eqn:Ef.
      * apply fname_eqb_eq in Ef. rewrite Ef in K. discriminate.
      * eapply wp_conseq; [apply (dict_pass (h_cls h) c h' _ _ HV)|auto| |auto].
        intros y [Hy|Hy]; [rewrite Hy in Ef; vm_compute in Ef; discriminate|]. intros (_ & (Hc & _) & Hsane). apply Hy. auto.
Qed.
Lemma json_pass c subj base h : kind_of (h_cls h) = KJson -> fbase base -> linv (m_type (cx_msg c)) h ->
  fpost c h (about subj (json_report (cx_env c) (val_texts (h_val h)))) (json_finish c subj base h).
Proof.
  intros K Hb ((Ha & Hs & Ht & Hv) & _ & _). unfold json_finish. unfold pre_val in Hv. rewrite K in Hv.
  assert (HN : hval_ok (m_type (cx_msg c)) (h_cls h) VNone) by (unfold hval_ok; rewrite K; left; reflexivity).
  destruct Hv as [[_ Hv]|[l Hv]]; rewrite Hv; cbn [truthy negb].
  - split; [constructor|]. split; [apply same_id_refl|]. split; [|reflexivity]. split; [rewrite Hv; exact HN|]. split; [exact Ha|].
    intros E l. rewrite Hv. discriminate.
  - destruct l as [|x l].
    + cbn [map nonempty negb]. split; [constructor|]. split; [apply same_id_refl|]. split; [|reflexivity]. split.
      * rewrite Hv. unfold hval_ok. rewrite K. right. exists []. reflexivity.
      * split; [exact Ha|]. intros E l. rewrite Hv. intros E'. injection E' as <-. cbn. lia.
    + rewrite val_texts_strs. cbn [json_report]. cbn [map nonempty negb]. change (VStr x :: map VStr l) with (map VStr (x :: l)).
      rewrite raw_texts_strl. destruct (e_json _ _) as [jl|msg|ex] eqn:Ej.
      * apply (base_finish_pass c subj base (h_set_val h (VList (map json_val jl)))); auto.
        -- cbn [h_cls h_set_val]. intros t. rewrite K. discriminate.
        -- cbn [h_cls h_val h_set_val]. unfold hval_ok. rewrite K. right. eauto.
      * split; [|split; [repeat split|]].
        -- apply (tag_fsev inner (h_cls h)); [apply Hb|apply fbase_in, Hb|]. constructor; [right; fwnote|constructor].
        -- split; [|rewrite briefs_note by reflexivity; reflexivity]. split; [exact HN|]. split; [exact Ha|]. intros E l0. cbn. discriminate.
      * split; [constructor|]. split; [apply same_id_refl|]. intros (_ & (_ & Hj & _) & _). exact (Hj K _ _ Ej).
Qed.
Lemma finish_pass c subj base h : fbase base -> linv (m_type (cx_msg c)) h ->
  fpost c h (finish_report (cx_env c) subj h) (finish_handler c subj base h).
Proof.
  intros Hb Hl. unfold finish_handler, finish_report. destruct (kind_of (h_cls h)) eqn:K.
  - apply singleton_pass; auto.
  - destruct Hl as ((Ha & Hs & Ht & Hv) & _). apply base_finish_pass; auto; [intros t; rewrite K; discriminate|].
    unfold pre_val in Hv. unfold hval_ok. rewrite K in *. exact Hv.
  - apply broken_pass; auto.
  - apply sf_pass; auto.
  - apply json_pass; auto.
  - destruct Hl as ((Ha & Hs & Ht & Hv) & _). apply base_finish_pass; auto; [intros t; rewrite K; discriminate|].
    unfold pre_val in Hv. unfold hval_ok. rewrite K in *. exact Hv.
Qed.
