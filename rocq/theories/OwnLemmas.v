(** * What a field's own code reports, over whole runs. *)
From Verif Require Import PyStr Regex Grammar NoteTable Note PyLib Utils FieldAttrs Types Fields1 Fields2 Fields3 Framework Checks Message
  EvLogic NoteLemmas TestEnv LexLemmas ParamLemmas NumLemmas NameLemmas FrameLemmas PassParse PassEval PassFrame PassSec PassProc PassRun Session SessionLemmas
  SectionLemmas SecNotes SecValues LintLemmas FieldSpec PropFields PropValues PropNames.
Open Scope N_scope.

(** ** Vocabulary *)
(** The elements of a list field, each with the number of its line. *)
Definition elements (t : mtype) (k : str) (l : list rawline) : list (str * nat) :=
  flat_map (fun rn => map (fun v => (v, snd rn)) (split_list_field (value_of (fst rn)))) (field_lines_of t k l).
(** What a note tells: its class, its subject, some of its variables. *)
Definition told (ks : list str) (n : note) : nid * str * list (option pyval) := (n_cls n, n_subj n, map (fun k => dget k (n_vars n)) ks).
Definition heard (P : nid -> bool) (ks : list str) (ns : list note) : list (nid * str * list (option pyval)) :=
  map (told ks) (filter (fun n => P (n_cls n)) ns).
(** No line spells the name of the field with underscores for hyphens. *)
Definition hyphened (k : str) (l : list rawline) : Prop := Forall (fun r => token_of (name_of r) = token_of k -> key_of r = k) l.

(** ** From events to notes *)
Definition own_keys (ks : list str) : bool := forallb (fun k => negb (str_in k [k_field_name; k_field_type; u "message_type"])) ks.
(** What an event tells. *)
Definition utter (P : nid -> bool) (ks : list str) (subj : str) (e : ev) : list (nid * str * list (option pyval)) :=
  match e with
  | ENote n _ vrs _ => if P n then [(n, subj, map (fun k => dlast k vrs) ks)] else []
  | EMsg subj' n vrs => if P n then [(n, subj', map (fun k => dlast k vrs) ks)] else []
  | _ => []
  end.
Definition speak (P : nid -> bool) (ks : list str) (subj : str) (l : list ev) := flat_map (utter P ks subj) l.
(** Events that are notes of their own. *)
Definition direct (P : nid -> bool) (e : ev) : Prop :=
  match e with EKid p n _ => P p = false /\ P n = false | _ => True end.
Definition plain_base (ks : list str) (base : vars) : Prop := NoDup (keys base) /\ forall k, In k ks -> dget k base = None.

Lemma heard_app P ks a b : heard P ks (a ++ b) = heard P ks a ++ heard P ks b.
Proof. unfold heard. rewrite filter_app, map_app. reflexivity. Qed.
Lemma heard_sel P ks ns : heard P ks ns = map (told ks) (sel P ns). Proof. reflexivity. Qed.
Lemma direct_calm P (l : list ev) subj base : Forall (direct P) l -> Forall (calm_ev P) (tag subj base l).
Proof. intros H. unfold tag. apply Forall_map. eapply Forall_impl; [|exact H]. intros e He. unfold calm_ev. cbn [snd]. destruct e; auto. Qed.
Lemma told_vars ks t subj n cat base vrs kids : own_keys ks = true -> plain_base ks base ->
  told ks (mk_note t subj n cat (dupdate base vrs) kids) = (n, subj, map (fun k => dlast k vrs) ks).
Proof.
  intros Hk Hb. unfold told, mk_note. cbn [n_cls n_subj n_vars]. f_equal. apply map_ext_in. intros k Hi.
  rewrite dget_dupdate. unfold own_keys in Hk. rewrite forallb_forall in Hk. specialize (Hk k Hi). apply negb_true_iff in Hk.
  assert (X : dget k (default_vars t) = None).
  { unfold default_vars. cbn [dget]. destruct (str_eqb k (u "message_type")) eqn:E; [|reflexivity]. apply str_eqb_eq in E. subst k. discriminate Hk. }
  destruct Hb as [Hn Hb]. rewrite X, (dlast_nodup k (dupdate base vrs)) by (apply dupdate_NoDup, Hn).
  rewrite dget_dupdate, (Hb k Hi). destruct (dlast k vrs); reflexivity.
Qed.
Lemma heard_tag P ks t subj base l : own_keys ks = true -> plain_base ks base -> Forall (direct P) l ->
  heard P ks (emit t [] (tag subj base l)) = speak P ks subj l.
Proof.
  intros Hk Hb. induction l as [|e l IH]; intros H; [reflexivity|]. inversion H as [|? ? He Hl]; subst.
  change (tag subj base (e :: l)) with ([(subj, base, e)] ++ tag subj base l). rewrite emit_app, heard_sel, emit_sel_add by (apply direct_calm, Hl).
  rewrite map_app, <- !heard_sel, (IH Hl). cbn [speak flat_map]. f_equal. cbn [emit fold_left emit_one].
  destruct e as [n cat vrs kids|s n vrs|n c vrs|v|p n vrs]; cbn [utter direct app attach] in *; try reflexivity.
  - unfold heard. cbn [filter mk_note n_cls]. destruct (P n); [|reflexivity]. cbn [map]. rewrite told_vars by assumption. reflexivity.
  - unfold heard. cbn [filter mk_note n_cls]. destruct (P n); [|reflexivity]. cbn [map].
    rewrite <- (told_vars ks t s n None [] vrs [] Hk); [|split; [constructor|reflexivity]]. f_equal. unfold told, mk_note. cbn [n_cls n_subj n_vars]. f_equal.
    apply map_ext. intros k. rewrite !dget_dupdate. rewrite (dlast_nodup k (dupdate [] vrs)) by (apply dupdate_NoDup; constructor). rewrite dget_dupdate.
    destruct (dlast k vrs); reflexivity.
  - unfold heard. cbn [filter mk_note n_cls]. destruct He as [_ ->]. reflexivity.
Qed.
Lemma speak_app P ks subj a b : speak P ks subj (a ++ b) = speak P ks subj a ++ speak P ks subj b.
Proof. apply flat_map_app. Qed.
Lemma own_plain ks (h : handler) tr : own_keys ks = true -> plain_base ks (line_base h) /\ plain_base ks (sec_base tr h).
Proof.
  intros H. unfold own_keys in H. rewrite forallb_forall in H.
  assert (X : forall k, In k ks -> str_eqb k k_field_name = false /\ str_eqb k k_field_type = false).
  { intros k Hk. specialize (H k Hk). apply negb_true_iff in H. split; destruct (str_eqb _ _) eqn:E; auto; apply str_eqb_eq in E; subst k; discriminate H. }
  split; split.
  - constructor; [intros []|constructor].
  - intros k Hk. unfold line_base. cbn [dget]. destruct (X k Hk) as [-> _]. reflexivity.
  - constructor; [|constructor; [intros []|constructor]]. intros [E|[]]. discriminate E.
  - intros k Hk. unfold sec_base. cbn [dget]. destruct (X k Hk) as [-> ->]. reflexivity.
Qed.

(** ** List fields *)
Definition parses (p : str -> W pyval) (v : str) : list pyval := match snd (p (strip v)) with Ok x => [x] | Err _ => [] end.
Definition front_t : Type := mtype * option Q * str * str * option str * option str * option Z.
Section List.
  Variables (P : nid -> bool) (ks : list str) (f : fname) (e : env) (rel : option mstate) (C : front_t) (p : str -> W pyval) (q : pyval -> W pyval).
  Hypothesis HP : mine P f.
  Hypothesis Hks : own_keys ks = true.
  Hypothesis Hp : forall V h v, front V = C -> h_cls h = f -> parse_of f (mkCx e V rel) h v = p v.
  Hypothesis Hpd : forall v, Forall (direct P) (fst (p v)).

  Lemma syntax_direct h v : Forall (direct P) (fst (list_syntax h v)) /\ forall s, speak P ks s (fst (list_syntax h v)) = [].
  Proof.
    assert (D : forall n, framework n = true -> P n = false).
    { intros n Hn. destruct (P n) eqn:E; [|reflexivity]. destruct HP as [X _]. apply X in E as [E _]. congruence. }
    unfold list_syntax. destruct (fa_syntax _) as [g|]; [|split; [constructor|reflexivity]]. destruct (match_ws_dollar _ _); [split; [constructor|reflexivity]|].
    destruct (match_prefix _ _) as [bad|].
    - destruct (nth_error v bad); [|split; [constructor|reflexivity]]. split; [constructor; [exact I|constructor]|]. intros s. cbn [fst tell speak flat_map utter]. rewrite D by reflexivity. reflexivity.
    - destruct (fa_report _); [|split; [constructor|reflexivity]]. split; [constructor; [exact I|constructor]|]. intros s. cbn [fst when tell speak flat_map utter]. rewrite D by reflexivity. reflexivity.
  Qed.
  Lemma member_own V h v l r : front V = C -> h_cls h = f -> list_member (mkCx e V rel) h v = (l, Ok r) ->
    Forall (direct P) l /\ (forall s, speak P ks s l = speak P ks s (fst (p (strip v)))) /\ match r with Some x => [x] | None => [] end = parses p v.
  Proof.
    intros HV Hh. destruct (syntax_direct h v) as [S1 S2]. unfold list_member, parses. destruct (list_syntax h v) as [l1 [[]|x]]; cbn [fst] in *; [|discriminate].
    rewrite Hh, (Hp V h (strip v) HV Hh). pose proof (Hpd (strip v)) as Hd. unfold bind, ret, catch_value. destruct (p (strip v)) as [l2 [x|x]]; cbn [fst snd] in *.
    - intros E. injection E as <- <-. rewrite ?app_nil_r. split; [apply Forall_app; auto|]. split; [|reflexivity]. intros s. rewrite speak_app, S2. reflexivity.
    - destruct (is_ValueError x); [|discriminate]. intros E. injection E as <- <-. rewrite ?app_nil_r. split; [apply Forall_app; auto|]. split; [|reflexivity].
      intros s. rewrite speak_app, S2. reflexivity.
  Qed.
  Lemma input_own V t s l : front V = C -> forall h evs h' xs, h_cls h = f -> h_val h = VList xs -> list_input (mkCx e V rel) s h l = (evs, h', Ok tt) ->
    Forall (calm_ev P) evs /\ heard P ks (emit t [] evs) = flat_map (fun v => speak P ks s (fst (p (strip v)))) l
    /\ h_cls h' = f /\ h_val h' = VList (xs ++ flat_map (parses p) l).
  Proof.
    intros HV. induction l as [|v l IH]; intros h evs h' xs Hh Hx E; cbn [list_input] in E.
    - injection E as <- <-. cbn [flat_map]. rewrite app_nil_r. repeat split; auto.
    - destruct (list_member (mkCx e V rel) h v) as [l1 [o|x]] eqn:Em; [|discriminate].
      destruct (member_own V h v l1 o HV Hh Em) as (D & S & R). cbn [flat_map]. rewrite <- R.
      set (h1 := h_add_aux h (aux_of (tag s (line_base h) l1))) in *.
      set (h2 := match o with Some x => append_val h1 x | None => h1 end) in *.
      assert (H2 : h_cls h2 = f /\ h_val h2 = VList (xs ++ match o with Some x => [x] | None => [] end)).
      { unfold h2. destruct o as [x|]; [|rewrite app_nil_r; split; assumption]. unfold append_val. replace (h_val h1) with (VList xs) by (symmetry; exact Hx). split; [exact Hh|reflexivity]. }
      destruct H2 as [H2 H3]. destruct (list_input (mkCx e V rel) s h2 l) as [[evs2 h3] [[]|x]] eqn:El; [|discriminate]. injection E as <- <-.
      destruct (IH h2 evs2 h3 _ H2 H3 El) as (C1 & C2 & C3 & C4). split; [apply Forall_app; split; [apply direct_calm, D|exact C1]|].
      split; [|split; [exact C3|rewrite C4, <- app_assoc; reflexivity]].
      rewrite emit_app, heard_sel, emit_sel_add by exact C1. rewrite map_app, <- !heard_sel, C2, heard_tag, S; auto. apply own_plain; auto. exact true.
  Qed.
  Hypothesis Hkind : kind_of f = KList.
  Lemma feeds_own V t n l : front V = C -> find_class n = f -> accepted (m_type V) n = true -> forall h evs h' xs, ident any (lower n, h) -> h_val h = VList xs ->
    feeds e V rel h l = (evs, h', Ok tt) ->
    Forall (calm_ev P) evs /\ heard P ks (emit t [] evs) = flat_map (fun vo => flat_map (fun v => speak P ks (offset_subj (snd vo)) (fst (p (strip v)))) (split_list_field (fst vo))) l
    /\ h_val h' = VList (xs ++ flat_map (fun vo => flat_map (parses p) (split_list_field (fst vo))) l).
  Proof.
    intros HV Hn Ha. induction l as [|[v o] l IH]; intros h evs h' xs Hi Hx E; cbn [feeds] in E.
    - injection E as <- <-. cbn [flat_map]. rewrite app_nil_r. repeat split; auto.
    - unfold accepted in Ha. apply andb_prop in Ha as [Ha1 Ha2]. apply negb_true_iff in Ha1.
      pose proof (taken_id e V rel h v o) as Ht.
      unfold taken in E, Ht. rewrite (pre_check_eq (m_type V) (lower n) h n Hi eq_refl), Ha1, Ha2 in E, Ht.
      assert (Hc : h_cls h = f).
      { destruct Hi as (n' & _ & Ek & (E1 & _)). cbn [fst snd] in *. rewrite E1, <- Hn. cbn [h_cls new_handler]. apply find_class_case. congruence. }
      unfold handle_input in E, Ht. rewrite Hc, Hkind in E, Ht.
      destruct (list_input (mkCx e V rel) (offset_subj o) h (split_list_field v)) as [[l4 h2] [[]|x]] eqn:El; [|discriminate].
      destruct (feeds e V rel h2 l) as [[l5 h3] [[]|x]] eqn:Ef; [|discriminate]. injection E as <- <-.
      destruct (input_own V t _ _ HV h l4 h2 xs Hc Hx El) as (C1 & C2 & C3 & C4).
      cbn [fst snd] in Ht. specialize (IH h2 l5 h3 _ (same_id_ident any _ _ _ Hi Ht) C4 Ef) as (D1 & D2 & D3).
      split; [apply Forall_app; auto|]. cbn [flat_map fst snd]. split; [|rewrite D3, <- app_assoc; reflexivity].
      rewrite emit_app, heard_sel, emit_sel_add by exact D1. rewrite map_app, <- !heard_sel, C2, D2. reflexivity.
  Qed.
End List.

Lemma hyphened_spelled f k l : In f module_fields -> nicknames f = [] -> find_class k = f -> hyphened k l -> spelled f k l.
Proof.
  intros Hf Hn Hk. apply Forall_impl. intros r H E. rewrite key_eq. apply H. rewrite name_eq in E.
  apply (C12_class _ _ Hf) in E. apply (C12_class _ _ Hf) in Hk. unfold named in E, Hk. rewrite Hn in E, Hk. destruct E as [<-|[]], Hk as [<-|[]]. reflexivity.
Qed.
Lemma subject_module f k : In f module_fields -> find_class k = f -> subject_of k = about_field k.
Proof.
  intros Hf Hk. unfold subject_of, about_field, field_subj. cbn [new_handler h_canon]. destruct (find_class k); subst f; try reflexivity;
    exfalso; revert Hf; vm_compute; intuition discriminate.
Qed.
Lemma core_still V : core (still V) = core V. Proof. reflexivity. Qed.
Lemma core_of_still V V' : still V = still V' -> core V = core V'. Proof. intros H. rewrite <- (core_still V), H. apply core_still. Qed.
Lemma flat_map_map {A B D} (g : A -> B) (h : B -> list D) l : flat_map h (map g l) = flat_map (fun x => h (g x)) l.
Proof. induction l as [|x l IH]; [reflexivity|]. cbn [map flat_map]. rewrite IH. reflexivity. Qed.
Lemma flat_map_flat_map {A B D} (g : A -> list B) (h : B -> list D) l : flat_map h (flat_map g l) = flat_map (fun x => flat_map h (g x)) l.
Proof. induction l as [|x l IH]; [reflexivity|]. cbn [flat_map]. rewrite flat_map_app, IH. reflexivity. Qed.

Definition list_says (P : nid -> bool) (ks : list str) (t : mtype) (k : str) (p : str -> W pyval) (q : pyval -> W pyval) (l : list rawline) :=
  flat_map (fun vo => speak P ks (at_offset (snd vo)) (fst (p (strip (fst vo))))) (elements t k l)
  ++ if nonempty (values k l) then speak P ks (about_field k) (fst (q (VList (flat_map (parses p) (map fst (elements t k l)))))) else [].

(** [says_like]: the same notes of the classes in [P]. *)
Definition says_like {A B} (P : nid -> bool) (ks : list str) (w : W A) (w' : W B) : Prop :=
  Forall (direct P) (fst w) /\ forall s, speak P ks s (fst w) = speak P ks s (fst w').
Lemma front_of_still V V' : still V = still V' -> front V = front V'.
Proof. intros H. change (front V) with (front (still V)). rewrite H. reflexivity. Qed.
Lemma list_section P ks f k e rel C p q tr m raws evs evs' :
  mine P f -> own_keys ks = true -> In f module_fields -> find_class k = f -> kind_of f = KList -> processed (m_type m) k = true ->
  (forall V h v, front V = C -> h_cls h = f -> parse_of f (mkCx e V rel) h v = p v) -> (forall v, Forall (direct P) (fst (p v))) ->
  (forall V h, front V = C -> h_cls h = f -> says_like P ks (eval_of f (mkCx e V rel) h) (q (h_val h))) ->
  front m = C -> field_run e rel tr m k raws evs evs' ->
  heard P ks (emit (m_type m) [] evs) ++ heard P ks (emit (m_type m) [] evs') = list_says P ks (m_type m) k p q raws.
Proof.
  intros HP Hks Hf Hk Hkind Hpr Hp Hpd Hq HC R. unfold field_run in R. unfold list_says. rewrite a_line_values in R.
  destruct (nonempty (values k raws)) eqn:Ev.
  - destruct R as (h & mi & h' & Fd & Ek & Hl & St & Ff). set (n := first_name k raws) in *.
    assert (Hi : ident any (lower n, new_handler n)) by (exists n; split; [exact I|split; [reflexivity|apply same_id_refl]]).
    assert (Hn : find_class n = f) by (rewrite <- Hk, Ek; symmetry; apply find_class_lower).
    assert (Ha : accepted (m_type (still m)) n = true) by (rewrite <- (accepted_lower _ n), <- Ek; change (m_type (still m)) with (m_type m); rewrite processed_eq; exact Hpr).
    destruct (feeds_own P ks f e rel C p HP Hks Hp Hpd Hkind (still m) (m_type m) n _ HC Hn Ha (new_handler n) evs h [] Hi eq_refl Fd) as (D1 & D2 & D3).
    destruct (feeds_got e (still m) rel n _ _ _ _ Hi Fd) as [Hid _].
    assert (Hc : h_cls h = f) by (destruct Hid as [-> _]; exact Hn).
    unfold finish_handler in Ff. rewrite Hc, Hkind in Ff. unfold base_finish in Ff. rewrite D3, Hc in Ff.
    destruct (Hq mi h (eq_trans (front_of_still _ _ St) HC) Hc) as [Hd Hs]. rewrite D3 in Hs.
    unfold finish_eval in Ff. cbn [app] in *.
    assert (EL : flat_map (fun vo : str * nat => flat_map (parses p) (split_list_field (fst vo))) (lines_of k (m_type m) raws) = flat_map (parses p) (map fst (elements (m_type m) k raws))).
    { unfold elements. rewrite lines_eq, flat_map_map, flat_map_map, flat_map_flat_map. apply flat_map_ext. intros [r o]. cbn [fst snd]. rewrite flat_map_map. reflexivity. }
    rewrite EL in Hs. set (x := VList _) in *. destruct (eval_of f (mkCx e mi rel) h) as [l r]. cbn [fst] in *.
    assert (Ee : evs' = tag (subject_of k) (sec_base tr h) l) by (destruct r; congruence). subst evs'.
    rewrite D2, heard_tag by (auto; apply own_plain; auto). rewrite (subject_module f k Hf Hk), Hs. f_equal.
    unfold elements. rewrite lines_eq, flat_map_map, flat_map_flat_map. apply flat_map_ext. intros [r0 o]. cbn [fst snd]. rewrite flat_map_map. reflexivity.
  - destruct R as [-> ->]. cbn [app heard emit fold_left filter map]. rewrite app_nil_r.
    assert (X : lines_of k (m_type m) raws = []).
    { pose proof (lines_values k (m_type m) raws) as L. rewrite values_eq in L. destruct (values k raws); [|discriminate]. destruct (lines_of k (m_type m) raws); [reflexivity|discriminate]. }
    unfold elements. rewrite lines_eq in X. destruct (field_lines_of _ _ _); [reflexivity|discriminate].
Qed.
Theorem list_own_top P ks f k p q e rel top headers chunks complete trailers t start nc head base m' rel' :
  let C := front (begun e top (new_linter t start nc head base)) in
  lint e rel top headers chunks complete trailers (new_linter t start nc head base) = (m', rel', Ok tt) ->
  mine P f -> quiet P -> has_post f = false \/ mute_post P f -> own_keys ks = true -> In f module_fields -> nicknames f = [] -> find_class k = f -> kind_of f = KList -> processed t k = true ->
  hyphened k headers -> hyphened k trailers ->
  (forall V h v, front V = C -> h_cls h = f -> parse_of f (mkCx e V rel) h v = p v) -> (forall v, Forall (direct P) (fst (p v))) ->
  (forall V h, front V = C -> h_cls h = f -> says_like P ks (eval_of f (mkCx e V rel) h) (q (h_val h))) ->
  heard P ks (m_notes m') = list_says P ks t k p q headers ++ list_says P ks t k p q trailers.
Proof.
  intros C E HP HQ Hpost Hks Hf Hnick Hk Hkind Hpr S1 S2 Hp Hpd Hq.
  destruct (lint_own_top P f k e rel top headers chunks complete trailers t start nc head base m' rel' E HP HQ ltac:(tauto) Hk
              (hyphened_spelled f k _ Hf Hnick Hk S1) (hyphened_spelled f k _ Hf Hnick Hk S2))
    as (mh & mt & a & a' & b & b' & C1 & C2 & T1 & T2 & Y1 & Y2 & R1 & R2 & N).
  rewrite heard_sel, N, !map_app, <- !heard_sel. f_equal.
  - rewrite <- T1 in Hpr |- *. apply (list_section P ks f k e rel C p q false mh headers a a'); auto.
  - rewrite <- T2 in Hpr |- *. apply (list_section P ks f k e rel C p q true mt trailers b b'); auto.
Qed.
Theorem list_own P ks f k p q e rel top headers chunks complete trailers t start nc head base m' rel' :
  let C := new_linter t start false false base in
  lint e rel top headers chunks complete trailers (new_linter t start nc head base) = (m', rel', Ok tt) ->
  mine P f -> quiet P -> has_post f = false -> own_keys ks = true -> In f module_fields -> nicknames f = [] -> find_class k = f -> kind_of f = KList -> processed t k = true ->
  hyphened k headers -> hyphened k trailers ->
  (forall V h v, core V = C -> h_cls h = f -> parse_of f (mkCx e V rel) h v = p v) -> (forall v, Forall (direct P) (fst (p v))) ->
  (forall V h, core V = C -> h_cls h = f -> eval_of f (mkCx e V rel) h = q (h_val h)) -> (forall v, Forall (direct P) (fst (q v))) ->
  heard P ks (m_notes m') = list_says P ks t k p q headers ++ list_says P ks t k p q trailers.
Proof.
  intros C E HP HQ Hpost Hks Hf Hnick Hk Hkind Hpr S1 S2 Hp Hpd Hq Hqd.
  assert (X : forall V, front V = front (begun e top (new_linter t start nc head base)) -> core V = C).
  { intros V H. pose proof (setup_start e top (new_linter t start nc head base)) as S0. fold (begun e top (new_linter t start nc head base)) in S0.
    unfold front in H. injection H as Z1 Z2 _ Z3 _ _ _. unfold setup in S0. injection S0 as Y1 Y2 _ _ Y3. unfold core, C. rewrite Z1, Z2, Z3, Y1, Y2, Y3. reflexivity. }
  apply (list_own_top P ks f k p q e rel top headers chunks complete trailers t start nc head base m' rel' E); auto.
  intros V h HV Hh. rewrite (Hq V h (X V HV) Hh). split; [apply Hqd|reflexivity].
Qed.

(** ** Singleton fields: the first line counts *)
Definition single_says (P : nid -> bool) (ks : list str) (k : str) (p : str -> W pyval) (q : pyval -> W pyval) (l : list rawline) :=
  match values k l with
  | [] => []
  | v :: _ => speak P ks (about_field k) (fst (p (strip v)) ++ match snd (p (strip v)) with Ok x => match x with VNone => [] | _ => fst (q x) end | Err _ => [] end)
  end.
Lemma single_section P ks f k e rel C p q tr m raws evs evs' :
  mine P f -> own_keys ks = true -> In f module_fields -> find_class k = f -> kind_of f = KSingleton -> processed (m_type m) k = true ->
  (forall V h v, front V = C -> h_cls h = f -> parse_of f (mkCx e V rel) h v = p v) -> (forall v, Forall (direct P) (fst (p v))) ->
  (forall V h, front V = C -> h_cls h = f -> says_like P ks (eval_of f (mkCx e V rel) h) (q (h_val h))) ->
  front m = C -> field_run e rel tr m k raws evs evs' ->
  heard P ks (emit (m_type m) [] evs) ++ heard P ks (emit (m_type m) [] evs') = single_says P ks k p q raws.
Proof.
  intros HP Hks Hf Hk Hkind Hpr Hp Hpd Hq HC R. unfold field_run in R. unfold single_says. rewrite a_line_values in R.
  destruct (nonempty (values k raws)) eqn:Ev.
  - destruct R as (h & mi & h' & Fd & Ek & Hl & St & Ff). set (n := first_name k raws) in *.
    assert (Hi : ident any (lower n, new_handler n)) by (exists n; split; [exact I|split; [reflexivity|apply same_id_refl]]).
    assert (Hn : find_class n = f) by (rewrite <- Hk, Ek; symmetry; apply find_class_lower).
    assert (Ha : accepted (m_type (still m)) n = true) by (rewrite <- (accepted_lower _ n), <- Ek; change (m_type (still m)) with (m_type m); rewrite processed_eq; exact Hpr).
    destruct (feeds_got e (still m) rel n _ _ _ _ Hi Fd) as [Hid G]. rewrite Ha in G.
    assert (Hc : h_cls h = f) by (destruct Hid as [-> _]; exact Hn).
    assert (Hc0 : h_cls (new_handler n) = f) by exact Hn.
    assert (E0 : evs = []).
    { clear -Fd Hkind Hi Hn Ha. revert Fd Hi. generalize (lines_of k (m_type m) raws). intros l. generalize (new_handler n) as h0.
      revert evs. induction l as [|[v o] l IH]; intros evs h0 E Hi; cbn [feeds] in E; [injection E as <- _; reflexivity|].
      pose proof (taken_id e (still m) rel h0 v o) as Ht. unfold accepted in Ha. pose proof Ha as Ha'. apply andb_prop in Ha' as [Ha1 Ha2]. apply negb_true_iff in Ha1.
      unfold taken in E, Ht. rewrite (pre_check_eq (m_type (still m)) (lower n) h0 n Hi eq_refl), Ha1, Ha2 in E, Ht.
      assert (Hc : h_cls h0 = f).
      { destruct Hi as (n' & _ & Ek' & (E1 & _)). cbn [fst snd] in *. rewrite E1, <- Hn. cbn [h_cls new_handler]. apply find_class_case. congruence. }
      unfold handle_input in E, Ht. rewrite Hc, Hkind in E, Ht. cbn [fst snd] in Ht.
      destruct (feeds e (still m) rel (h_add_raw h0 (v, o)) l) as [[l5 h3] r] eqn:Ef. injection E as <- <- ->.
      cbn [app]. apply (IH l5 _ Ef). apply (same_id_ident any _ _ _ Hi Ht). }
    subst evs. cbn [emit fold_left heard filter map app].
    unfold got in G. rewrite Hc0, Hkind in G. cbn [h_raw new_handler app] in G.
    unfold finish_handler in Ff. rewrite Hc, Hkind in Ff. unfold singleton_finish in Ff. rewrite G in Ff.
    pose proof (lines_values k (m_type m) raws) as L. rewrite values_eq in L. destruct (lines_of k (m_type m) raws) as [|[raw o] more]; [rewrite <- L in Ev; discriminate|].
    cbn [map fst] in L. rewrite <- L. rewrite Hc, (Hp mi h (strip raw) (eq_trans (front_of_still _ _ St) HC) Hc) in Ff.
    set (l1 := match more with [] => [] | _ => _ end) in *. set (l2 := match fa_syntax _ with Some _ => _ | None => _ end) in *.
    assert (D : forall n, framework n = true -> P n = false).
    { intros n0 Hn0. destruct (P n0) eqn:E; [|reflexivity]. destruct HP as [X _]. apply X in E as [E _]. congruence. }
    assert (Q1 : Forall (direct P) (l1 ++ l2) /\ speak P ks (about_field k) (l1 ++ l2) = []).
    { assert (A1 : Forall (direct P) l1 /\ speak P ks (about_field k) l1 = []).
      { unfold l1. destruct more; (split; [repeat constructor|]); [reflexivity|]. cbn [speak flat_map utter]. rewrite D by reflexivity. reflexivity. }
      assert (A2 : Forall (direct P) l2 /\ speak P ks (about_field k) l2 = []).
      { unfold l2. destruct (fa_syntax _); [|split; [constructor|reflexivity]]. destruct (match_ws_dollar _ _); [split; [constructor|reflexivity]|].
        destruct (fa_report _); (split; [repeat constructor|]); [|reflexivity]. cbn [speak flat_map utter]. rewrite D by reflexivity. reflexivity. }
      split; [apply Forall_app; split; [apply A1|apply A2]|]. rewrite speak_app, (proj2 A1), (proj2 A2). reflexivity. }
    pose proof (Hpd (strip raw)) as Hd. destruct (p (strip raw)) as [l3 r]. cbn [fst snd] in *. cbv zeta in Ff.
    assert (Hb : plain_base ks (sec_base tr h)) by (apply own_plain; auto).
    rewrite <- (subject_module f k Hf Hk) in *.
    assert (S3 : heard P ks (emit (m_type m) [] (tag (subject_of k) (sec_base tr h) (l1 ++ l2 ++ l3))) = speak P ks (subject_of k) l3).
    { rewrite heard_tag; [|exact Hks|exact Hb|rewrite app_assoc; apply Forall_app; split; [apply Q1|exact Hd]]. rewrite app_assoc, speak_app, (proj2 Q1). reflexivity. }
    destruct r as [x|x].
    + unfold prefix_events in Ff. destruct (base_finish _ _ _ _) as [[l4 h4] r4] eqn:Eb. injection Ff as <- <- ->. unfold base_finish in Eb.
      set (h5 := h_set_val _ x) in Eb. assert (H5 : h_cls h5 = f) by exact Hc. assert (V5 : h_val h5 = x) by reflexivity.
      destruct (Hq mi h5 (eq_trans (front_of_still _ _ St) HC) H5) as [Hqd Hqs]. rewrite V5 in *. rewrite H5 in Eb.
      assert (Z : exists l5, l4 = tag (subject_of k) (sec_base tr h) l5 /\ Forall (direct P) l5
                   /\ speak P ks (subject_of k) l5 = speak P ks (subject_of k) (match x with VNone => [] | _ => fst (q x) end)).
      { unfold finish_eval in Eb. destruct (eval_of f (mkCx e mi rel) h5) as [le re]. cbn [fst] in *.
        destruct x; try (exists le; destruct re; injection Eb as <- _; repeat (split; [reflexivity || assumption|]); apply Hqs).
        exists []. injection Eb as <- _. split; [reflexivity|]. split; [constructor|reflexivity]. }
      destruct Z as (l5 & -> & Z1 & Z2).
      rewrite emit_app, heard_sel, emit_sel_add by (apply direct_calm; exact Z1).
      rewrite map_app, <- !heard_sel, S3, heard_tag, speak_app, Z2; auto.
    + rewrite app_nil_r. destruct (is_ValueError x); [|discriminate]. injection Ff as <- <-. exact S3.
  - destruct R as [-> ->]. destruct (values k raws); [reflexivity|discriminate].
Qed.
Theorem single_own_top P ks f k p q e rel top headers chunks complete trailers t start nc head base m' rel' :
  let C := front (begun e top (new_linter t start nc head base)) in
  lint e rel top headers chunks complete trailers (new_linter t start nc head base) = (m', rel', Ok tt) ->
  mine P f -> quiet P -> has_post f = false -> own_keys ks = true -> In f module_fields -> nicknames f = [] -> find_class k = f -> kind_of f = KSingleton -> processed t k = true ->
  hyphened k headers -> hyphened k trailers ->
  (forall V h v, front V = C -> h_cls h = f -> parse_of f (mkCx e V rel) h v = p v) -> (forall v, Forall (direct P) (fst (p v))) ->
  (forall V h, front V = C -> h_cls h = f -> says_like P ks (eval_of f (mkCx e V rel) h) (q (h_val h))) ->
  heard P ks (m_notes m') = single_says P ks k p q headers ++ single_says P ks k p q trailers.
Proof.
  intros C E HP HQ Hpost Hks Hf Hnick Hk Hkind Hpr S1 S2 Hp Hpd Hq.
  destruct (lint_own_top P f k e rel top headers chunks complete trailers t start nc head base m' rel' E HP HQ (or_introl Hpost) Hk
              (hyphened_spelled f k _ Hf Hnick Hk S1) (hyphened_spelled f k _ Hf Hnick Hk S2))
    as (mh & mt & a & a' & b & b' & C1 & C2 & T1 & T2 & Y1 & Y2 & R1 & R2 & N).
  rewrite heard_sel, N, !map_app, <- !heard_sel. f_equal.
  - rewrite <- T1 in Hpr |- *. apply (single_section P ks f k e rel C p q false mh headers a a'); auto.
  - rewrite <- T2 in Hpr |- *. apply (single_section P ks f k e rel C p q true mt trailers b b'); auto.
Qed.
Theorem single_own P ks f k p q e rel top headers chunks complete trailers t start nc head base m' rel' :
  let C := new_linter t start false false base in
  lint e rel top headers chunks complete trailers (new_linter t start nc head base) = (m', rel', Ok tt) ->
  mine P f -> quiet P -> has_post f = false -> own_keys ks = true -> In f module_fields -> nicknames f = [] -> find_class k = f -> kind_of f = KSingleton -> processed t k = true ->
  hyphened k headers -> hyphened k trailers ->
  (forall V h v, core V = C -> h_cls h = f -> parse_of f (mkCx e V rel) h v = p v) -> (forall v, Forall (direct P) (fst (p v))) ->
  (forall V h, core V = C -> h_cls h = f -> eval_of f (mkCx e V rel) h = q (h_val h)) -> (forall v, Forall (direct P) (fst (q v))) ->
  heard P ks (m_notes m') = single_says P ks k p q headers ++ single_says P ks k p q trailers.
Proof.
  intros C E HP HQ Hpost Hks Hf Hnick Hk Hkind Hpr S1 S2 Hp Hpd Hq Hqd.
  assert (X : forall V, front V = front (begun e top (new_linter t start nc head base)) -> core V = C).
  { intros V H. pose proof (setup_start e top (new_linter t start nc head base)) as S0. fold (begun e top (new_linter t start nc head base)) in S0.
    unfold front in H. injection H as Z1 Z2 _ Z3 _ _ _. unfold setup in S0. injection S0 as Y1 Y2 _ _ Y3. unfold core, C. rewrite Z1, Z2, Z3, Y1, Y2, Y3. reflexivity. }
  apply (single_own_top P ks f k p q e rel top headers chunks complete trailers t start nc head base m' rel' E); auto.
  intros V h HV Hh. rewrite (Hq V h (X V HV) Hh). split; [apply Hqd|reflexivity].
Qed.
