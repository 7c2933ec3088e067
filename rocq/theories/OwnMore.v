(** * What a field's own code reports: fields that are parsed at the end of a section (support). *)
From Coq Require Import Lia.
From Verif Require Import PyStr Regex Grammar NoteTable Note PyLib Utils FieldAttrs Types Fields1 Fields2 Fields3 Framework Checks Message
  EvLogic NoteLemmas TestEnv LexLemmas ParamLemmas NumLemmas NameLemmas FrameLemmas ContentLemmas BodyLemmas PassParse PassEval PassFrame PassSec PassProc PassRun Session SessionLemmas
  SectionLemmas SecNotes SecValues LintLemmas FieldSpec PropFields PropValues PropNames PropParse OwnLemmas ListSpec PropLists PropCC ListExamples FieldExamples PropInts FieldDue OwnTac.
Open Scope N_scope.

(** Lines of these fields are only collected. *)
Definition late (f : fname) : bool := match kind_of f with KSingleton | KBroken | KSF _ | KJson => true | _ => false end.
Lemma fed_late e V rel f n l : late f = true -> find_class n = f -> accepted (m_type V) n = true -> forall h evs h', ident any (lower n, h) -> feeds e V rel h l = (evs, h', Ok tt) ->
  evs = [] /\ h_aux h' = h_aux h.
Proof.
  intros Hl Hn Ha. induction l as [|[v o] l IH]; intros h evs h' Hi E; cbn [feeds] in E; [injection E as <- <-; split; reflexivity|].
  pose proof (taken_id e V rel h v o) as Ht. pose proof Ha as Ha'. unfold accepted in Ha'. apply andb_prop in Ha' as [Ha1 Ha2]. apply negb_true_iff in Ha1.
  unfold taken in E, Ht. rewrite (pre_check_eq (m_type V) (lower n) h n Hi eq_refl), Ha1, Ha2 in E, Ht.
  assert (Hc : h_cls h = f).
  { destruct Hi as (n' & _ & Ek' & (E1 & _)). cbn [fst snd] in *. rewrite E1, <- Hn. cbn [h_cls new_handler]. apply find_class_case. congruence. }
  unfold handle_input in E, Ht. rewrite Hc in E, Ht. unfold late in Hl.
  destruct (kind_of f); try discriminate Hl; cbn [fst snd] in Ht;
    match type of E with context [feeds e V rel ?h1 l] => destruct (feeds e V rel h1 l) as [[l5 h3] r] eqn:Ef end; injection E as <- <- ->;
    destruct (IH _ _ _ (same_id_ident any _ _ _ Hi Ht) Ef) as [-> ->]; (split; [reflexivity|]); try reflexivity; unfold append_val; destruct (h_val h); reflexivity.
Qed.
(** What a field knows when it is finished. *)
Lemma finished f k e rel tr m raws evs evs' : late f = true -> In f module_fields -> find_class k = f -> processed (m_type m) k = true -> field_run e rel tr m k raws evs evs' ->
  evs = [] /\
  if nonempty (values k raws) then
    exists h mi h', h_cls h = f /\ h_aux h = [] /\ h_sf h = false /\ got e (still m) rel (new_handler (first_name k raws)) h (lines_of k (m_type m) raws) /\ still mi = still m
      /\ find_class (first_name k raws) = f /\ finish_handler (mkCx e mi rel) (subject_of k) (sec_base tr h) h = (evs', h', Ok tt)
  else evs' = [].
Proof.
  intros Hla Hf Hk Hpr R. unfold field_run in R. rewrite a_line_values in R. destruct (nonempty (values k raws)) eqn:Ev; [|exact R].
  destruct R as (h & mi & h' & Fd & Ek & Hl & St & Ff). set (n := first_name k raws) in *.
  assert (Hi : ident any (lower n, new_handler n)) by (exists n; split; [exact I|split; [reflexivity|apply same_id_refl]]).
  assert (Hn : find_class n = f) by (rewrite <- Hk, Ek; symmetry; apply find_class_lower).
  assert (Ha : accepted (m_type (still m)) n = true) by (rewrite <- (accepted_lower _ n), <- Ek; change (m_type (still m)) with (m_type m); rewrite processed_eq; exact Hpr).
  destruct (feeds_got e (still m) rel n _ _ _ _ Hi Fd) as [Hid G]. rewrite Ha in G. destruct (fed_late e (still m) rel f n _ Hla Hn Ha _ _ _ Hi Fd) as [E0 E1].
  split; [exact E0|]. exists h, mi, h'. split; [destruct Hid as [-> _]; exact Hn|]. split; [exact E1|]. split; [apply Hl|]. split; [exact G|]. split; [exact St|]. split; [exact Hn|exact Ff].
Qed.
Lemma lines_vals k t raws : map fst (lines_of k t raws) = values k raws.
Proof. rewrite lines_values, values_eq. reflexivity. Qed.

(** ** Structured fields *)
Definition whole_text (k : str) (l : list rawline) : str := strip (join (u ", ") (values k l)).
(** The events of evaluating a structured field with the given text. *)
Definition sf_events (t : sftype) (f : fname) (e : env) (rel : option mstate) (V : mstate) (h : handler) (s : str) : list ev :=
  match t with
  | SFItem => match e_sf_item e s with SFOk bp _ => fst (eval_item f (mkCx e V rel) h (fst bp) (snd bp)) | _ => [] end
  | SFList => match e_sf_list e s with SFOk l _ => fst (eval_list f (mkCx e V rel) h l) | _ => [] end
  | SFDict => match e_sf_dict e s with SFOk l _ => fst (eval_dict f (mkCx e V rel) h (dupdate [] l)) | _ => [] end
  end.
Definition sf_says (P : nid -> bool) (ks : list str) (k : str) (q : str -> list ev) (l : list rawline) :=
  if nonempty (values k l) then speak P ks (about_field k) (q (whole_text k l)) else [].
Lemma sf_section P ks f k e rel C t q tr m raws evs evs' :
  mine P f -> own_keys ks = true -> In f module_fields -> find_class k = f -> kind_of f = KSF t -> processed (m_type m) k = true ->
  (forall V h s, front V = C -> h_cls h = f -> Forall (direct P) (sf_events t f e rel V h s) /\ forall subj, speak P ks subj (sf_events t f e rel V h s) = speak P ks subj (q s)) ->
  front m = C -> field_run e rel tr m k raws evs evs' ->
  heard P ks (emit (m_type m) [] evs) ++ heard P ks (emit (m_type m) [] evs') = sf_says P ks k q raws.
Proof.
  intros HP Hks Hf Hk Hkind Hpr Hq HC R. destruct (finished f k e rel tr m raws evs evs') as [-> F]; auto; [unfold late; rewrite Hkind; reflexivity|].
  unfold sf_says. destruct (nonempty (values k raws)) eqn:Ev; [|rewrite F; reflexivity]. destruct F as (h & mi & h' & Hc & _ & Hsf & G & St & Hn & Ff).
  unfold got in G. cbn [new_handler h_cls] in G. rewrite Hn, Hkind in G. specialize (G [] eq_refl). cbn [app] in G. rewrite <- (map_map fst VStr), lines_vals in G.
  unfold finish_handler in Ff. rewrite Hc, Hkind in Ff. unfold sf_finish in Ff. rewrite G, Hsf, Hc in Ff. unfold whole_text.
  destruct (values k raws) as [|x l]; [discriminate|]. cbn [truthy map nonempty negb] in Ff. change (VStr x :: map VStr l) with (map VStr (x :: l)) in Ff. rewrite raw_texts_strl in Ff. cbv zeta in Ff. clear G Ev.
  set (s := strip _) in *. cbn [emit fold_left heard filter map app cx_env] in *.
  assert (D : forall n, framework n = true -> P n = false).
  { intros n Hx. destruct (P n) eqn:E; [|reflexivity]. destruct HP as [X _]. apply X in E as [E _]. congruence. }
  assert (Dd : forall d, Forall (direct P) (dup_events d) /\ forall subj, speak P ks subj (dup_events d) = []).
  { intros d. split; [apply Forall_map, Forall_forall; intros; exact I|]. intros subj. induction d as [|kc d IH]; [reflexivity|]. cbn [dup_events map speak flat_map utter]. rewrite D by reflexivity. exact IH. }
  assert (Er : forall d h0 pb cx, heard P ks (emit (m_type m) [] (tag (subject_of k) (sec_base tr h) (dup_events d ++ [sf_error h0 pb cx]))) = []).
  { intros d h0 pb cx. rewrite heard_tag; [|exact Hks|apply own_plain, Hks|]. 
    - rewrite speak_app, (proj2 (Dd d)). cbn [app speak flat_map utter sf_error]. rewrite D by reflexivity. reflexivity.
    - apply Forall_app. split; [apply Dd|]. constructor; [exact I|constructor]. }
  assert (Ok_ : forall (w : W pyval) hh d, (Forall (direct P) (fst w) /\ forall subj, speak P ks subj (fst w) = speak P ks subj (q s)) ->
     prefix_events (tag (subject_of k) (sec_base tr h) (dup_events d)) (finish_eval (subject_of k) (sec_base tr h) hh w) = (evs', h', Ok tt) ->
     heard P ks (emit (m_type m) [] evs') = speak P ks (about_field k) (q s)).
  { intros [lw rw] hh d [W1 W2] E. cbn [fst] in *. unfold finish_eval in E.
    assert (Ee : evs' = tag (subject_of k) (sec_base tr h) (dup_events d ++ lw)) by (unfold tag in *; rewrite map_app; unfold prefix_events in E; cbv zeta in E; destruct rw; [injection E as <- _; reflexivity|discriminate E]). subst evs'.
    rewrite heard_tag; [|exact Hks|apply own_plain, Hks|apply Forall_app; split; [apply Dd|exact W1]]. rewrite speak_app, (proj2 (Dd d)). cbn [app]. rewrite (subject_module f k Hf Hk). apply W2. }
  pose proof (fun h0 => Hq mi h0 s (eq_trans (front_of_still _ _ St) HC)) as Q. unfold sf_events in Q.
  destruct t; unfold sf_result in Ff.
  - destruct (e_sf_item e s) as [bp d|d pb pos|d pb].
    + eapply Ok_; [|exact Ff]. apply (Q (h_set_val (h_set_sf h true) (item_val (fst bp) (snd bp)))). exact Hc.
    + injection Ff as <- _. rewrite Er, <- (proj2 (Q h Hc)). reflexivity.
    + injection Ff as <- _. rewrite Er, <- (proj2 (Q h Hc)). reflexivity.
  - destruct (e_sf_list e s) as [bp d|d pb pos|d pb].
    + eapply Ok_; [|exact Ff]. apply (Q (h_set_val (h_set_sf h true) (sf_list_val bp))). exact Hc.
    + injection Ff as <- _. rewrite Er, <- (proj2 (Q h Hc)). reflexivity.
    + injection Ff as <- _. rewrite Er, <- (proj2 (Q h Hc)). reflexivity.
  - destruct (e_sf_dict e s) as [bp d|d pb pos|d pb].
    + eapply Ok_; [|exact Ff]. apply (Q (h_set_val (h_set_sf h true) (sf_dict_val (dupdate [] bp)))). exact Hc.
    + injection Ff as <- _. rewrite Er, <- (proj2 (Q h Hc)). reflexivity.
    + injection Ff as <- _. rewrite Er, <- (proj2 (Q h Hc)). reflexivity.
Qed.
Theorem sf_own_top P ks f k t q e rel top headers chunks complete trailers ty start nc head base m' rel' :
  let C := front (begun e top (new_linter ty start nc head base)) in
  lint e rel top headers chunks complete trailers (new_linter ty start nc head base) = (m', rel', Ok tt) ->
  mine P f -> quiet P -> has_post f = false -> own_keys ks = true -> In f module_fields -> nicknames f = [] -> find_class k = f -> kind_of f = KSF t -> processed ty k = true ->
  hyphened k headers -> hyphened k trailers ->
  (forall V h s, front V = C -> h_cls h = f -> Forall (direct P) (sf_events t f e rel V h s) /\ forall subj, speak P ks subj (sf_events t f e rel V h s) = speak P ks subj (q s)) ->
  heard P ks (m_notes m') = sf_says P ks k q headers ++ sf_says P ks k q trailers.
Proof.
  intros C E HP HQ Hpost Hks Hf Hnick Hk Hkind Hpr S1 S2 Hq.
  destruct (lint_own_top P f k e rel top headers chunks complete trailers ty start nc head base m' rel' E HP HQ (or_introl Hpost) Hk
              (hyphened_spelled f k _ Hf Hnick Hk S1) (hyphened_spelled f k _ Hf Hnick Hk S2))
    as (mh & mt & a & a' & b & b' & C1 & C2 & T1 & T2 & Y1 & Y2 & R1 & R2 & N).
  rewrite heard_sel, N, !map_app, <- !heard_sel. f_equal.
  - rewrite <- T1 in Hpr |- *. apply (sf_section P ks f k e rel C t q false mh headers a a'); auto.
  - rewrite <- T2 in Hpr |- *. apply (sf_section P ks f k e rel C t q true mt trailers b b'); auto.
Qed.
Lemma sf_front t f e V V' rel h h' s : plain f = true -> front V = front V' -> sf_events t f e rel V h s = sf_events t f e rel V' h' s.
Proof.
  intros N H. assert (I : forall b p, fst (eval_item f (mkCx e V rel) h b p) = fst (eval_item f (mkCx e V' rel) h' b p)).
  { intros b p. destruct V, V', h, h'. injection H as -> -> -> -> -> -> ->. destruct f; try discriminate N; try reflexivity; cbn [eval_item]; rewrite !keep_fst; reflexivity. }
  assert (L : forall l, fst (eval_list f (mkCx e V rel) h l) = fst (eval_list f (mkCx e V' rel) h' l)).
  { intros l. destruct V, V', h, h'. injection H as -> -> -> -> -> -> ->. destruct f; try discriminate N; try reflexivity; cbn [eval_list]; rewrite !keep_fst; reflexivity. }
  assert (D : forall l, fst (eval_dict f (mkCx e V rel) h l) = fst (eval_dict f (mkCx e V' rel) h' l)).
  { intros l. destruct V, V', h, h'. injection H as -> -> -> -> -> -> ->. destruct f; try discriminate N; try reflexivity; cbn [eval_dict]; rewrite !keep_fst; reflexivity. }
  unfold sf_events. destruct t.
  - destruct (e_sf_item e s); auto.
  - destruct (e_sf_list e s); auto.
  - destruct (e_sf_dict e s); auto.
Qed.
(** The events of a structured field with some text. *)
Definition sfe (t : sftype) (f : fname) (e : env) (rel : option mstate) (m' : mstate) (s : str) : list ev := sf_events t f e rel m' (blank_of f VNone) s.
Lemma sf_run cs ks f k t e rel top headers chunks complete trailers ty start nc head base m' rel' :
  lint e rel top headers chunks complete trailers (new_linter ty start nc head base) = (m', rel', Ok tt) ->
  owns cs f k && own_keys ks && plain f && processed ty k = true -> kind_of f = KSF t -> (forall s, Forall nokid (sfe t f e rel m' s)) -> hyphened k headers -> hyphened k trailers ->
  heard (classes cs) ks (m_notes m') = sf_says (classes cs) ks k (sfe t f e rel m') headers ++ sf_says (classes cs) ks k (sfe t f e rel m') trailers.
Proof.
  intros E Ho Hkind Hnk H1 H2. apply andb_prop in Ho as [Ho P1]. apply andb_prop in Ho as [Ho P2]. apply andb_prop in Ho as [Ho P3]. apply owns_ok in Ho as (O1 & O2 & O3 & O4 & O5 & O6 & O7).
  apply (sf_own_top (classes cs) ks f k t (sfe t f e rel m') e rel top headers chunks complete trailers ty start nc head base m' rel' E); try assumption.
  intros V h s HV Hh. assert (X : sf_events t f e rel V h s = sfe t f e rel m' s).
  { apply sf_front; [exact P2|]. rewrite HV. symmetry. apply (lint_front _ _ _ _ _ _ _ _ _ _ _ _ _ _ E). }
  rewrite X. split; [|reflexivity]. eapply Forall_impl; [|apply Hnk]. intros []; intros Z; try exact I. destruct Z.
Qed.

(** ** JSON fields *)
Definition json_text (k : str) (l : list rawline) : str := u "[" ++ join (u ", ") (values k l) ++ u "]".
Definition json_says (P : nid -> bool) (ks : list str) (e : env) (k : str) (q : pyval -> W pyval) (l : list rawline) :=
  if nonempty (values k l) then
    match e_json e (json_text k l) with JOk js => speak P ks (about_field k) (fst (q (VList (map json_val js)))) | _ => [] end
  else [].
Lemma json_section P ks f k e rel C q tr m raws evs evs' :
  mine P f -> own_keys ks = true -> In f module_fields -> find_class k = f -> kind_of f = KJson -> processed (m_type m) k = true ->
  (forall V h, front V = C -> h_cls h = f -> says_like P ks (eval_of f (mkCx e V rel) h) (q (h_val h))) ->
  front m = C -> field_run e rel tr m k raws evs evs' ->
  heard P ks (emit (m_type m) [] evs) ++ heard P ks (emit (m_type m) [] evs') = json_says P ks e k q raws.
Proof.
  intros HP Hks Hf Hk Hkind Hpr Hq HC R. destruct (finished f k e rel tr m raws evs evs') as [-> F]; auto; [unfold late; rewrite Hkind; reflexivity|].
  unfold json_says. destruct (nonempty (values k raws)) eqn:Ev; [|rewrite F; reflexivity]. destruct F as (h & mi & h' & Hc & _ & _ & G & St & Hn & Ff).
  unfold got in G. cbn [new_handler h_cls] in G. rewrite Hn, Hkind in G. specialize (G [] eq_refl). cbn [app] in G. rewrite <- (map_map fst VStr), lines_vals in G.
  unfold finish_handler in Ff. rewrite Hc, Hkind in Ff. unfold json_finish in Ff. rewrite G in Ff. unfold json_text.
  destruct (values k raws) as [|x l]; [discriminate|]. cbn [truthy map nonempty negb] in Ff. change (VStr x :: map VStr l) with (map VStr (x :: l)) in Ff. rewrite raw_texts_strl in Ff. clear G Ev.
  cbn [cx_env] in Ff. set (s := _ ++ join _ _ ++ _) in *. change (heard P ks (emit (m_type m) [] [])) with (@nil (nid * str * list (option pyval))). cbn [app].
  destruct (e_json e s) as [js|msg|x0].
  - unfold base_finish in Ff. set (hh := h_set_val h _) in Ff. assert (Hv : h_val hh = VList (map json_val js)) by reflexivity. rewrite Hv in Ff.
    assert (Hcc : h_cls hh = f) by exact Hc. destruct (Hq mi hh (eq_trans (front_of_still _ _ St) HC) Hcc) as [W1 W2]. rewrite Hv in W2. rewrite Hcc in Ff.
    unfold finish_eval in Ff. destruct (eval_of f (mkCx e mi rel) hh) as [lw rw]. cbn [fst] in *. cbv zeta in Ff.
    assert (Ee : evs' = tag (subject_of k) (sec_base tr h) lw) by (destruct rw; [injection Ff as <- _; reflexivity|discriminate Ff]). subst evs'.
    rewrite heard_tag; [|exact Hks|apply own_plain, Hks|exact W1]. rewrite (subject_module f k Hf Hk). apply W2.
  - apply (f_equal (fun x => fst (fst x))) in Ff. cbn [fst] in Ff. rewrite <- Ff. rewrite heard_tag; [|exact Hks|apply own_plain, Hks|constructor; [exact I|constructor]]. cbn [speak flat_map utter].
    destruct (P BAD_JSON) eqn:X; [|reflexivity]. destruct HP as [Y _]. apply Y in X as [X _]. discriminate X.
  - discriminate Ff.
Qed.
Theorem json_own_top P ks f k q e rel top headers chunks complete trailers ty start nc head base m' rel' :
  let C := front (begun e top (new_linter ty start nc head base)) in
  lint e rel top headers chunks complete trailers (new_linter ty start nc head base) = (m', rel', Ok tt) ->
  mine P f -> quiet P -> has_post f = false -> own_keys ks = true -> In f module_fields -> nicknames f = [] -> find_class k = f -> kind_of f = KJson -> processed ty k = true ->
  hyphened k headers -> hyphened k trailers ->
  (forall V h, front V = C -> h_cls h = f -> says_like P ks (eval_of f (mkCx e V rel) h) (q (h_val h))) ->
  heard P ks (m_notes m') = json_says P ks e k q headers ++ json_says P ks e k q trailers.
Proof.
  intros C E HP HQ Hpost Hks Hf Hnick Hk Hkind Hpr S1 S2 Hq.
  destruct (lint_own_top P f k e rel top headers chunks complete trailers ty start nc head base m' rel' E HP HQ (or_introl Hpost) Hk
              (hyphened_spelled f k _ Hf Hnick Hk S1) (hyphened_spelled f k _ Hf Hnick Hk S2))
    as (mh & mt & a & a' & b & b' & C1 & C2 & T1 & T2 & Y1 & Y2 & R1 & R2 & N).
  rewrite heard_sel, N, !map_app, <- !heard_sel. f_equal.
  - rewrite <- T1 in Hpr |- *. apply (json_section P ks f k e rel C q false mh headers a a'); auto.
  - rewrite <- T2 in Hpr |- *. apply (json_section P ks f k e rel C q true mt trailers b b'); auto.
Qed.
Lemma json_run cs ks f k e rel top headers chunks complete trailers ty start nc head base m' rel' :
  lint e rel top headers chunks complete trailers (new_linter ty start nc head base) = (m', rel', Ok tt) ->
  owns cs f k && own_keys ks && plain f && processed ty k = true -> kind_of f = KJson -> (forall x, nk (eva f e rel m' x)) -> hyphened k headers -> hyphened k trailers ->
  heard (classes cs) ks (m_notes m') = json_says (classes cs) ks e k (eva f e rel m') headers ++ json_says (classes cs) ks e k (eva f e rel m') trailers.
Proof.
  intros E Ho Hkind Hnk H1 H2. apply andb_prop in Ho as [Ho P1]. apply andb_prop in Ho as [Ho P2]. apply andb_prop in Ho as [Ho P3]. apply owns_ok in Ho as (O1 & O2 & O3 & O4 & O5 & O6 & O7).
  apply (json_own_top (classes cs) ks f k (eva f e rel m') e rel top headers chunks complete trailers ty start nc head base m' rel' E); try assumption.
  intros V h HV Hh. assert (X : eval_of f (mkCx e V rel) h = eva f e rel m' (h_val h)).
  { apply eval_front; [exact P2| |reflexivity]. rewrite HV. symmetry. apply (lint_front _ _ _ _ _ _ _ _ _ _ _ _ _ _ E). }
  rewrite X. split; [apply nk_direct, Hnk|reflexivity].
Qed.

(** ** Fields of which each line counts *)
Definition put_off (e : ev) : list ev := match e with EDefer _ _ _ | EMark _ => [e] | _ => [] end.
Definition broken_vals (p : str -> W pyval) (l : list str) : list pyval := flat_map (fun v => match snd (p (strip v)) with Ok x => [x] | Err _ => [] end) l.
Definition broken_aux (p : str -> W pyval) (l : list (str * nat)) : list (str * ev) :=
  flat_map (fun vo => map (fun x => (offset_subj (snd vo), x)) (flat_map put_off (fst (p (strip (fst vo)))))) l.
Definition broken_says (P : nid -> bool) (ks : list str) (t : mtype) (k : str) (p : str -> W pyval) (q : pyval -> list (str * ev) -> W pyval) (l : list rawline) :=
  let ls := map (fun rn => (value_of (fst rn), snd rn)) (field_lines_of t k l) in
  flat_map (fun vo => speak P ks (at_offset (snd vo)) (fst (p (strip (fst vo))))) ls
  ++ if nonempty (values k l) then speak P ks (about_field k) (fst (q (VList (broken_vals p (values k l))) (broken_aux p ls))) else [].
Lemma aux_tag s base l : aux_of (tag s base l) = map (fun x => (s, x)) (flat_map put_off l).
Proof. induction l as [|x l IH]; [reflexivity|]. cbn [tag map aux_of flat_map]. fold (tag s base l). rewrite map_app. destruct x; cbn [put_off map app]; rewrite <- IH; reflexivity. Qed.
Lemma broken_loop P ks f e rel C p V t : mine P f -> own_keys ks = true -> front V = C ->
  (forall V h v, front V = C -> h_cls h = f -> parse_of f (mkCx e V rel) h v = p v) -> (forall v, Forall (direct P) (fst (p v))) ->
  forall l h acc evs h' r, h_cls h = f -> broken_values (mkCx e V rel) h l acc = (evs, h', Ok r) ->
  Forall (calm_ev P) evs /\ heard P ks (emit t [] evs) = flat_map (fun vo => speak P ks (offset_subj (snd vo)) (fst (p (strip (fst vo))))) l
  /\ r = acc ++ broken_vals p (map fst l) /\ h_aux h' = h_aux h ++ broken_aux p l /\ h_cls h' = f /\ h_canon h' = h_canon h.
Proof.
  intros HP Hks HC Hp Hpd. assert (D : forall n, framework n = true -> P n = false).
  { intros n Hx. destruct (P n) eqn:E; [|reflexivity]. destruct HP as [X _]. apply X in E as [E _]. congruence. }
  induction l as [|[raw off] l IH]; intros h acc evs h' r Hc E; cbn [broken_values] in E.
  - injection E as <- <- <-. unfold broken_vals, broken_aux. cbn. rewrite !app_nil_r. repeat (split; [first [constructor|reflexivity|exact Hc]|]). reflexivity.
  - rewrite Hc, (Hp V h (strip raw) HC Hc) in E. set (l1 := match fa_syntax _ with Some _ => _ | None => _ end) in E.
    assert (A1 : Forall (direct P) l1 /\ (forall s, speak P ks s l1 = []) /\ flat_map put_off l1 = []).
    { unfold l1. destruct (fa_syntax _); [|split; [constructor|split; reflexivity]]. destruct (match_ws_dollar _ _); [split; [constructor|split; reflexivity]|].
      split; [repeat constructor|]. split; [|reflexivity]. intros s. cbn [speak flat_map utter]. rewrite D by reflexivity. reflexivity. }
    pose proof (Hpd (strip raw)) as Hd. unfold broken_vals, broken_aux. cbn [map flat_map fst snd]. destruct (p (strip raw)) as [l2 rr]. cbn [fst snd] in *.
    assert (A2 : Forall (direct P) (l1 ++ l2)) by (apply Forall_app; split; [apply A1|exact Hd]).
    set (evs0 := tag (offset_subj off) (line_base h) (l1 ++ l2)) in *. set (h1 := h_add_aux h (aux_of evs0)) in *.
    assert (S0 : heard P ks (emit t [] evs0) = speak P ks (offset_subj off) l2).
    { unfold evs0. rewrite heard_tag; [|exact Hks|apply (own_plain ks h true), Hks|exact A2]. rewrite speak_app. destruct A1 as (_ & -> & _). reflexivity. }
    assert (X0 : h_aux h1 = h_aux h ++ map (fun x => (offset_subj off, x)) (flat_map put_off l2)).
    { unfold h1. change (h_aux (h_add_aux h (aux_of evs0))) with (h_aux h ++ aux_of evs0). unfold evs0. rewrite aux_tag, flat_map_app. destruct A1 as (_ & _ & ->). reflexivity. }
    assert (Hc1 : h_cls h1 = f) by exact Hc.
    assert (K : forall acc' evs2, broken_values (mkCx e V rel) h1 l acc' = (evs2, h', Ok r) -> evs = evs0 ++ evs2 ->
      Forall (calm_ev P) evs /\ heard P ks (emit t [] evs) = speak P ks (offset_subj off) l2 ++ flat_map (fun vo => speak P ks (offset_subj (snd vo)) (fst (p (strip (fst vo))))) l
      /\ r = acc' ++ broken_vals p (map fst l) /\ h_aux h' = h_aux h ++ map (fun x => (offset_subj off, x)) (flat_map put_off l2) ++ broken_aux p l /\ h_cls h' = f /\ h_canon h' = h_canon h).
    { intros acc' evs2 Eb ->. destruct (IH h1 acc' evs2 h' r Hc1 Eb) as (B1 & B2 & B3 & B4 & B5 & B6). split; [apply Forall_app; split; [apply direct_calm, A2|exact B1]|].
      split; [rewrite emit_app, heard_sel, emit_sel_add by exact B1; rewrite map_app, <- !heard_sel, S0, B2; reflexivity|]. split; [exact B3|]. split; [rewrite B4, X0, <- app_assoc; reflexivity|]. split; [exact B5|exact B6]. }
    destruct rr as [x|x].
    + destruct (broken_values _ h1 l (acc ++ [x])) as [[evs2 h2] r2] eqn:Eb. injection E as <- -> ->. destruct (K _ _ Eb eq_refl) as (B1 & B2 & B3 & B4). split; [exact B1|]. split; [exact B2|]. split; [rewrite B3, <- app_assoc; reflexivity|exact B4].
    + destruct (is_ValueError x); [|discriminate E]. destruct (broken_values _ h1 l acc) as [[evs2 h2] r2] eqn:Eb. injection E as <- -> ->. exact (K _ _ Eb eq_refl).
Qed.
Lemma broken_section P ks f k e rel C p q tr m raws evs evs' :
  mine P f -> own_keys ks = true -> In f module_fields -> find_class k = f -> kind_of f = KBroken -> processed (m_type m) k = true ->
  (forall V h v, front V = C -> h_cls h = f -> parse_of f (mkCx e V rel) h v = p v) -> (forall v, Forall (direct P) (fst (p v))) ->
  (forall V h, front V = C -> h_cls h = f -> says_like P ks (eval_of f (mkCx e V rel) h) (q (h_val h) (h_aux h))) ->
  front m = C -> field_run e rel tr m k raws evs evs' ->
  heard P ks (emit (m_type m) [] evs) ++ heard P ks (emit (m_type m) [] evs') = broken_says P ks (m_type m) k p q raws.
Proof.
  intros HP Hks Hf Hk Hkind Hpr Hp Hpd Hq HC R. destruct (finished f k e rel tr m raws evs evs') as [-> F]; auto; [unfold late; rewrite Hkind; reflexivity|].
  unfold broken_says. rewrite <- lines_eq. destruct (nonempty (values k raws)) eqn:Ev.
  - destruct F as (h & mi & h' & Hc & Ha & _ & G & St & Hn & Ff). unfold got in G. cbn [new_handler h_cls h_raw] in G. rewrite Hn, Hkind in G. cbn [app] in G.
    unfold finish_handler in Ff. rewrite Hc, Hkind in Ff. unfold broken_finish in Ff. rewrite G in Ff. pose proof (eq_trans (front_of_still _ _ St) HC) as HCi.
    destruct (broken_values (mkCx e mi rel) h (lines_of k (m_type m) raws) []) as [[evs1 h1] [r|x]] eqn:Eb; [|discriminate Ff].
    destruct (broken_loop P ks f e rel C p mi (m_type m) HP Hks HCi Hp Hpd _ _ _ _ _ _ Hc Eb) as (B1 & B2 & B3 & B4 & B5 & B6). cbn [app] in B3. rewrite Ha in B4. cbn [app] in B4. rewrite lines_vals in B3.
    unfold base_finish in Ff. set (hh := h_set_val h1 (VList r)) in *. assert (Hv : h_val hh = VList r) by reflexivity. rewrite Hv in Ff. assert (Hcc : h_cls hh = f) by exact B5.
    assert (Hx : h_aux hh = broken_aux p (lines_of k (m_type m) raws)) by exact B4. destruct (Hq mi hh HCi Hcc) as [W1 W2]. rewrite Hv, Hx, B3 in W2. rewrite Hcc in Ff.
    unfold finish_eval in Ff. destruct (eval_of f (mkCx e mi rel) hh) as [lw rw]. cbn [fst] in *. cbv zeta in Ff.
    assert (Ee : evs' = evs1 ++ tag (subject_of k) (sec_base tr h) lw) by (unfold prefix_events in Ff; destruct rw; [injection Ff as <- _; reflexivity|discriminate Ff]). subst evs'.
    change (heard P ks (emit (m_type m) [] [])) with (@nil (nid * str * list (option pyval))). cbn [app]. rewrite emit_app, heard_sel, emit_sel_add by (apply direct_calm, W1).
    rewrite map_app, <- !heard_sel, B2, heard_tag; [|exact Hks|apply own_plain, Hks|exact W1]. rewrite (subject_module f k Hf Hk), W2. reflexivity.
  - subst evs'. assert (X : lines_of k (m_type m) raws = []).
    { pose proof (lines_vals k (m_type m) raws) as L. destruct (values k raws); [|discriminate]. destruct (lines_of k (m_type m) raws); [reflexivity|discriminate]. }
    rewrite X. reflexivity.
Qed.
Theorem broken_own_top P ks f k p q e rel top headers chunks complete trailers t start nc head base m' rel' :
  let C := front (begun e top (new_linter t start nc head base)) in
  lint e rel top headers chunks complete trailers (new_linter t start nc head base) = (m', rel', Ok tt) ->
  mine P f -> quiet P -> has_post f = false -> own_keys ks = true -> In f module_fields -> nicknames f = [] -> find_class k = f -> kind_of f = KBroken -> processed t k = true ->
  hyphened k headers -> hyphened k trailers ->
  (forall V h v, front V = C -> h_cls h = f -> parse_of f (mkCx e V rel) h v = p v) -> (forall v, Forall (direct P) (fst (p v))) ->
  (forall V h, front V = C -> h_cls h = f -> says_like P ks (eval_of f (mkCx e V rel) h) (q (h_val h) (h_aux h))) ->
  heard P ks (m_notes m') = broken_says P ks t k p q headers ++ broken_says P ks t k p q trailers.
Proof.
  intros C E HP HQ Hpost Hks Hf Hnick Hk Hkind Hpr S1 S2 Hp Hpd Hq.
  destruct (lint_own_top P f k e rel top headers chunks complete trailers t start nc head base m' rel' E HP HQ (or_introl Hpost) Hk
              (hyphened_spelled f k _ Hf Hnick Hk S1) (hyphened_spelled f k _ Hf Hnick Hk S2))
    as (mh & mt & a & a' & b & b' & C1 & C2 & T1 & T2 & Y1 & Y2 & R1 & R2 & N).
  rewrite heard_sel, N, !map_app, <- !heard_sel. f_equal.
  - rewrite <- T1 in Hpr |- *. apply (broken_section P ks f k e rel C p q false mh headers a a'); auto.
  - rewrite <- T2 in Hpr |- *. apply (broken_section P ks f k e rel C p q true mt trailers b b'); auto.
Qed.
