(** * The value of each field is a function of its own lines. *)
From Verif Require Import PyStr Regex Grammar Note PyLib Utils FieldAttrs Types Fields1 Fields2 Fields3 Framework
  EvLogic NoteLemmas LexLemmas ParamLemmas NumLemmas NameLemmas FrameLemmas PassParse PassEval PassFrame PassSec PassProc SectionLemmas SecNotes.
From Coq Require Import ZifyBool ZifyN.
Open Scope N_scope.

(** The value as [evaluate] leaves it. *)
Definition settled (f : fname) (v : pyval) : pyval :=
  match f, v with
  | F_vary, (VList l | VTuple l) => VList (map VStr (dedup (flat_map (fun x => match x with VStr s => [s] | _ => [] end) l)))
  | _, _ => v
  end.
Definition aq_item (m : member) : pyval :=
  match mem_head m with
  | VToken s => VTuple [VToken (lower s); VDict (params_dict (mem_params m))]
  | VStr s => VTuple [VStr (lower s); VDict (params_dict (mem_params m))]
  | _ => member_val m
  end.
Definition sf_value (e : env) (t : sftype) (f : fname) (combined : str) : pyval :=
  match t with
  | SFItem => match e_sf_item e combined with SFOk v _ => item_val (fst v) (snd v) | _ => VNone end
  | SFList => match e_sf_list e combined with
              | SFOk l _ => match f with F_accept_query => VList (map aq_item l) | _ => sf_list_val l end
              | _ => VNone
              end
  | SFDict => match e_sf_dict e combined with SFOk l _ => sf_dict_val (dupdate [] l) | _ => VNone end
  end.
(** The value of field [k] with the lines [vs] (at least one). *)
Definition field_value (e : env) (V : mstate) (k : str) (vs : list str) : pyval :=
  let f := find_class k in
  if accepted (m_type V) k then
    match kind_of f with
    | KSingleton => match vs with
                    | v :: _ => match parsed_as e V f v with x :: _ => x | [] => VNone end
                    | [] => VNone
                    end
    | KList => settled f (VList (flat_map (fun v => flat_map (parsed_as e V f) (split_list_field v)) vs))
    | KBroken => VList (flat_map (parsed_as e V f) vs)
    | KSF t => sf_value e t f (strip (join (u ", ") vs))
    | KJson => match e_json e (u "[" ++ join (u ", ") vs ++ u "]") with JOk l => VList (map json_val l) | _ => VNone end
    | KUnknown => VList []
    end
  else match kind_of f with KBroken => VList [] | KUnknown => VList [] | _ => VNone end.

(** ** Evaluation keeps values *)
Lemma keep_val h m l v : keep h m = (l, Ok v) -> v = h_val h.
Proof. unfold keep, bind, ret. destruct m as [a [x|x]]; [|discriminate]. intros E. injection E as _ <-. reflexivity. Qed.
Lemma ret_val {A} (x : A) l v : ret x = (l, Ok v) -> v = x.
Proof. unfold ret. intros E. injection E as _ <-. reflexivity. Qed.
Lemma when_ok {A} b (m : W unit) (k : W A) l v : (when b m ;;; k) = (l, Ok v) -> exists l', k = (l', Ok v).
Proof.
  unfold bind. destruct (when b m) as [a [x|x]]; [|discriminate]. destruct k as [b2 r]. intros E. injection E as _ ->. eauto.
Qed.
Lemma mapR_strs l s : mapR as_str l = Ok s -> s = flat_map (fun x => match x with VStr s => [s] | _ => [] end) l.
Proof.
  revert s. induction l as [|x l IH]; intros s; [intros E; injection E as <-; reflexivity|].
  cbn [mapR flat_map]. destruct x; try discriminate. cbn [as_str rbind]. destruct (mapR as_str l) as [r|]; [|discriminate]. cbn [rbind].
  intros E. injection E as <-. rewrite (IH r eq_refl). reflexivity.
Qed.
Lemma eval_val f c h l v : (forall t, kind_of f <> KSF t) -> h_val h <> VNone -> eval_of f c h = (l, Ok v) -> v = settled f (h_val h).
Proof.
  intros K Hn E. destruct (fname_eqb f F_vary) eqn:Ef.
  - apply fname_eqb_eq in Ef. subst f. cbn [eval_of] in E. unfold ev_vary in E. unfold bind at 1 in E.
    destruct (h_val h) as [| | | | | | | | | |l0|l0| | | |]; try discriminate E; (unfold strs in E; cbn [as_list rbind] in E;
    unfold lift at 1 in E; destruct (mapR as_str l0) as [s|] eqn:Em; [|discriminate E];
    apply mapR_strs in Em; cbv zeta in E;
    match type of E with (let '(_, _) := ?x in _) = _ => destruct x as [l2 r2] eqn:E2; injection E as _ -> end;
    repeat (apply when_ok in E2 as [? E2]); apply ret_val in E2; cbn [settled]; rewrite <- Em; exact E2).
  - assert (S : settled f (h_val h) = h_val h) by (destruct f; try reflexivity; discriminate Ef). rewrite S.
    destruct f; try discriminate Ef; cbn [eval_of] in E; first [exact (keep_val _ _ _ _ E)|exact (ret_val _ _ _ E)].
Qed.
Lemma finish_eval_val subj base h m evs h' : finish_eval subj base h m = (evs, h', Ok tt) -> exists l, m = (l, Ok (h_val h')).
Proof. unfold finish_eval. destruct m as [l [v|x]]; [|discriminate]. intros E. injection E as _ <-. exists l. reflexivity. Qed.
Lemma prefix_ok l r evs h' : prefix_events l r = (evs, h', Ok tt) -> exists evs', r = (evs', h', Ok tt).
Proof. destruct r as [[a b] c]. cbn. intros E. injection E as _ -> ->. eauto. Qed.
Lemma base_finish_val c subj base h evs h' : (forall t, kind_of (h_cls h) <> KSF t) -> base_finish c subj base h = (evs, h', Ok tt) ->
  h_val h' = match h_val h with VNone => VNone | v => settled (h_cls h) v end.
Proof.
  intros K. unfold base_finish. destruct (h_val h) eqn:Ev; intros E;
    try (apply finish_eval_val in E as [? E]; apply eval_val in E; [rewrite E, Ev; reflexivity|exact K|rewrite Ev; discriminate]).
  injection E as _ <-. exact Ev.
Qed.
Lemma settled_other f v : f <> F_vary -> settled f v = v.
Proof. intros H. destruct f; try reflexivity. contradiction. Qed.
Lemma core_still m : core (still m) = core m. Proof. reflexivity. Qed.
Lemma parsed_still e m V f v : still m = V -> parsed_as e m f v = parsed_as e V f v.
Proof. intros <-. reflexivity. Qed.
Lemma broken_values_val e mi V rel l : still mi = V -> forall h acc evs h' r, broken_values (mkCx e mi rel) h l acc = (evs, h', Ok r) ->
  r = acc ++ flat_map (parsed_as e V (h_cls h)) (map fst l) /\ h_cls h' = h_cls h.
Proof.
  intros HV. induction l as [|[raw o] l IH]; intros h acc evs h' r E; cbn [broken_values map flat_map fst] in *.
  - injection E as _ <- <-. rewrite app_nil_r. auto.
  - pose proof (parse_core (h_cls h) e mi rel h raw) as HP. rewrite (parsed_still e mi V _ _ HV) in HP.
    destruct (parse_of (h_cls h) (mkCx e mi rel) h (strip raw)) as [l2 [v|x]]; cbn [snd] in *.
    + set (h1 := h_add_aux _ _) in E. destruct (broken_values (mkCx e mi rel) h1 l (acc ++ [v])) as [[evs' h''] r'] eqn:E2. injection E as _ <- ->.
      destruct (IH h1 _ _ _ _ E2) as [-> Hc]. split; [rewrite HP, <- app_assoc; reflexivity|exact Hc].
    + destruct (is_ValueError x); [|discriminate]. rewrite (HP eq_refl). set (h1 := h_add_aux _ _) in E. destruct (broken_values (mkCx e mi rel) h1 l acc) as [[evs' h''] r'] eqn:E2. injection E as _ <- ->.
      destruct (IH h1 _ _ _ _ E2) as [-> Hc]. auto.
Qed.
Lemma aq_vals c h l evs v : ev_accept_query c h l = (evs, Ok v) -> v = VList (map aq_item l).
Proof.
  unfold ev_accept_query. set (g := fun m : member => _).
  assert (G : forall l evs r, mapW g l = (evs, Ok r) -> r = map aq_item l).
  { clear l evs. induction l as [|m l IH]; intros evs r E; cbn [mapW map] in *; [apply ret_val in E; exact E|].
    unfold bind at 1 in E. destruct (g m) as [l1 [x|x]] eqn:Eg; [|discriminate E]. unfold bind in E. destruct (mapW g l) as [l2 [xs|y]]; [|discriminate E].
    cbn [ret] in E. injection E as _ <-. rewrite (IH l2 xs eq_refl). f_equal. clear IH.
    unfold g in Eg. cbv zeta in Eg. unfold aq_item. unfold bind in Eg.
    destruct (mem_head m) as [| | | | | | | | | | | | | | |]; cbn [fst snd] in *;
      try (destruct (lift _) as [? [?|?]]; [|discriminate Eg]; cbn in Eg; injection Eg as _ <-; reflexivity);
      try (destruct (check_media_type _ _ _ _ _) as [? [?|?]]; [|discriminate Eg]; cbn in Eg; injection Eg as _ <-; reflexivity). }
  unfold bind. destruct (mapW g l) as [l1 [x|x]] eqn:E; [|discriminate]. cbn [ret]. intros E2. injection E2 as _ <-. rewrite (G _ _ _ E). reflexivity.
Qed.
Lemma finish_val e mi V rel subj base n h evs h' : still mi = V ->
  h_cls h = find_class n -> h_sf h = false -> finish_handler (mkCx e mi rel) subj base h = (evs, h', Ok tt) ->
  h_val h' = match kind_of (find_class n) with
             | KSingleton => match h_raw h with (v, _) :: _ => match parsed_as e V (find_class n) v with x :: _ => settled (find_class n) x | [] => VNone end | [] => VNone end
             | KBroken => VList (flat_map (parsed_as e V (find_class n)) (map fst (h_raw h)))
             | KSF t => if truthy (h_val h) then match raw_texts (h_val h) with Some vs => sf_value e t (find_class n) (strip (join (u ", ") vs)) | None => h_val h end else h_val h
             | KJson => if truthy (h_val h) then match raw_texts (h_val h) with
                          | Some vs => match e_json e (u "[" ++ join (u ", ") vs ++ u "]") with JOk l => VList (map json_val l) | _ => VNone end
                          | None => h_val h end else h_val h
             | KList | KUnknown => match h_val h with VNone => VNone | v => settled (find_class n) v end
             end.
Proof.
  intros HV Hc Hsf. unfold finish_handler. rewrite Hc. set (f := find_class n) in *. destruct (kind_of f) as [| | |t| |] eqn:K.
  - (* singleton *) unfold singleton_finish. destruct (h_raw h) as [|[raw o] more]; [intros E; injection E as _ <-; reflexivity|]. cbv zeta.
    pose proof (parse_core f e mi rel h raw) as HP. rewrite (parsed_still e mi V _ _ HV) in HP. rewrite Hc. destruct (parse_of f (mkCx e mi rel) h (strip raw)) as [l3 [v|x]]; cbn [snd] in HP.
    + rewrite HP. intros E. apply prefix_ok in E as [evs' E]. apply base_finish_val in E; [|cbn [h_cls h_set_val h_add_aux]; rewrite Hc; intros t; rewrite K; discriminate].
      rewrite E. cbn [h_val h_set_val h_cls h_add_aux]. rewrite Hc. assert (Hv : f <> F_vary) by (intros ->; discriminate K). rewrite (settled_other f v Hv). destruct v; try reflexivity; apply (settled_other f _ Hv).
    + destruct (is_ValueError x); [|discriminate]. rewrite (HP eq_refl). intros E. injection E as _ <-. reflexivity.
  - intros E. apply base_finish_val in E; [rewrite Hc in E; exact E|]. rewrite Hc. intros t. rewrite K. discriminate.
  - (* broken *) unfold broken_finish. destruct (broken_values (mkCx e mi rel) h (h_raw h) []) as [[evs0 h1] [l|x]] eqn:Eb; [|discriminate].
    destruct (broken_values_val e mi V rel _ HV _ _ _ _ _ Eb) as [-> Hc1]. intros E. apply prefix_ok in E as [evs' E].
    apply base_finish_val in E; [|cbn [h_cls h_set_val]; rewrite Hc1, Hc; intros t; rewrite K; discriminate].
    rewrite E. cbn [h_val h_set_val h_cls app]. rewrite Hc1, Hc. apply settled_other. intros Hv. rewrite Hv in K. discriminate.
  - (* structured *) unfold sf_finish. destruct (truthy (h_val h)) eqn:Et; cbn [negb]; [|intros E; injection E as _ <-; reflexivity]. rewrite Hsf.
    destruct (raw_texts (h_val h)) as [vs|]; [|discriminate]. cbv zeta. rewrite Hc. unfold sf_value. cbn [cx_env].
    destruct t; unfold sf_result.
    + destruct (e_sf_item e _) as [[b p] d|d p q|d p]; intros E; [|injection E as _ <-; reflexivity|injection E as _ <-; reflexivity].
      cbv zeta in E. apply prefix_ok in E as [evs' E]. apply finish_eval_val in E as [l E]. cbn [fst snd] in *.
      clear -E. destruct f; cbn [eval_item] in E; first [exact (keep_val _ _ _ _ E)|exact (ret_val _ _ _ E)].
    + destruct (e_sf_list e _) as [l0 d|d p q|d p]; intros E; [|injection E as _ <-; reflexivity|injection E as _ <-; reflexivity].
      cbv zeta in E. apply prefix_ok in E as [evs' E]. apply finish_eval_val in E as [l E].
      clear -E. destruct f; cbn [eval_list] in E; first [exact (keep_val _ _ _ _ E)|exact (ret_val _ _ _ E)|exact (aq_vals _ _ _ _ _ E)].
    + destruct (e_sf_dict e _) as [l0 d|d p q|d p]; intros E; [|injection E as _ <-; reflexivity|injection E as _ <-; reflexivity].
      cbv zeta in E. apply prefix_ok in E as [evs' E]. apply finish_eval_val in E as [l E].
      clear -E. destruct f; cbn [eval_dict] in E; first [exact (keep_val _ _ _ _ E)|exact (ret_val _ _ _ E)].
  - (* json *) unfold json_finish. destruct (truthy (h_val h)) eqn:Et; cbn [negb]; [|intros E; injection E as _ <-; reflexivity].
    destruct (raw_texts (h_val h)) as [vs|]; [|discriminate]. cbn [cx_env]. destruct (e_json e _) as [l0|msg|x]; intros E; [|injection E as _ <-; reflexivity|discriminate].
    apply base_finish_val in E; [|cbn [h_cls h_set_val]; rewrite Hc; intros t; rewrite K; discriminate].
    rewrite E. cbn [h_val h_set_val h_cls]. rewrite Hc. apply settled_other. intros Hv. rewrite Hv in K. discriminate.
  - intros E. apply base_finish_val in E; [rewrite Hc in E; exact E|]. rewrite Hc. intros t. rewrite K. discriminate.
Qed.
Definition values_of (k : str) (raws : list (bytes * bytes)) : list str :=
  map raw_value (filter (fun r => str_eqb (raw_key r) k) raws).
Lemma lines_values k t raws : map fst (lines_of k t raws) = values_of k raws.
Proof.
  unfold lines_of, values_of. rewrite map_map. cbn [input_of fst]. generalize 0%nat as o.
  induction raws as [|r raws IH]; intros o; [reflexivity|]. cbn [placed filter]. unfold keyed at 1. cbn [fst].
  destruct (str_eqb (raw_key r) k); cbn [map]; [f_equal|]; apply IH.
Qed.
Lemma values_nonempty k raws : (exists r, In r raws /\ raw_key r = k) -> values_of k raws <> [].
Proof.
  intros (r & Hr & Hk) E. unfold values_of in E. apply map_eq_nil in E.
  assert (H : In r (filter (fun r => str_eqb (raw_key r) k) raws)) by (apply filter_In; split; [exact Hr|apply str_eqb_eq, Hk]). rewrite E in H. destruct H.
Qed.
Lemma still_still m : still (still m) = still m. Proof. destruct m. reflexivity. Qed.
Lemma wrong_notunknown t k : accepted t k = false -> wrong t (find_class k) = false -> find_class k = F__unknown.
Proof.
  unfold accepted. intros H W. rewrite W in H. cbn in H. destruct (fname_eqb (find_class k) F__unknown) eqn:E; [apply fname_eqb_eq, E|].
  assert (T : tok k = true) by (apply find_class_tok; intros C; rewrite C in E; vm_compute in E; discriminate). rewrite (tok_strip _ T), T in H. discriminate.
Qed.
Theorem process_value e rel tr m raws m' k : sec tr m = new_section tr -> process e rel tr m raws = (m', Ok tt) ->
  strip k = k -> apart_name k raws ->
  dget k (s_parsed (sec tr m')) =
    if existsb (fun r => str_eqb (raw_key r) k) raws then Some (field_value e m k (values_of k raws)) else None.
Proof.
  intros Hs E Hb Ha. destruct (existsb (fun r => str_eqb (raw_key r) k) raws) eqn:Ex.
  - apply existsb_exists in Ex as (r & Hr & Hk). apply str_eqb_eq in Hk.
    pose proof (ex_intro (fun r => In r raws /\ raw_key r = k) r (conj Hr Hk)) as HR.
    destruct (process_field e rel tr m raws m' k Hs E HR) as (evs & h & mi & evs' & h' & Ek & Hf & Hl & St & Ty & Ef & Hid & Fin & Hd & Hp & _).
    cbv zeta in *. rewrite (Hp Hb Ha). f_equal. set (n := first_name k raws) in *.
    assert (Hi0 : ident any (lower n, new_handler n)) by (exists n; split; [exact I|split; [reflexivity|apply same_id_refl]]).
    destruct (feeds_got e (still m) rel n _ _ _ _ Hi0 Hf) as [Hid0 G].
    assert (Hc : h_cls h = find_class n) by (destruct Hid0 as [-> _]; reflexivity).
    assert (Hsf : h_sf h = false) by apply Hl.
    assert (Ck : find_class k = find_class n) by (rewrite Ek; apply find_class_lower).
    assert (Ak : accepted (m_type m) k = accepted (m_type m) n) by (rewrite Ek; apply accepted_lower).
    rewrite (finish_val e mi (still m) rel _ _ n h evs' h' St Hc Hsf Ef). unfold field_value. rewrite Ak, Ck. rewrite still_type in G.
    rewrite <- (lines_values k (m_type m) raws). pose proof (values_nonempty k raws HR) as NE. rewrite <- (lines_values k (m_type m) raws) in NE.
    destruct (accepted (m_type m) n) eqn:Ea.
    + unfold got in G. cbn [h_cls new_handler h_raw h_val] in G. destruct (kind_of (find_class n)) as [| | |t| |] eqn:K.
      * rewrite G. cbn [app]. destruct (lines_of k (m_type m) raws) as [|[v o] l]; [reflexivity|]. cbn [map fst].
        destruct (parsed_as _ _ _ v); [reflexivity|]. apply settled_other. intros C. rewrite C in K. discriminate.
      * rewrite (G [] eq_refl). cbn [app]. do 2 f_equal. rewrite flat_map_concat_map, (flat_map_concat_map _ (map fst _)), map_map. reflexivity.
      * rewrite G. reflexivity.
      * rewrite (G [] eq_refl). cbn [app]. rewrite <- (map_map fst VStr). destruct (map fst (lines_of k (m_type m) raws)) as [|x l]; [destruct (NE eq_refl)|].
        cbn [truthy map nonempty]. change (VStr x :: map VStr l) with (map VStr (x :: l)). rewrite raw_texts_strl. reflexivity.
      * rewrite (G [] eq_refl). cbn [app]. rewrite <- (map_map fst VStr). destruct (map fst (lines_of k (m_type m) raws)) as [|x l]; [destruct (NE eq_refl)|].
        cbn [truthy map nonempty]. change (VStr x :: map VStr l) with (map VStr (x :: l)). rewrite raw_texts_strl. reflexivity.
      * rewrite G. apply settled_other. intros C. rewrite C in K. discriminate.
    + destruct G as (G1 & G2 & G3). cbn [new_handler h_raw h_val] in G1, G3. rewrite G1, G3.
      destruct (lines_of k (m_type m) raws) as [|x l]; [destruct (NE eq_refl)|].
      destruct (wrong (m_type m) (find_class n)) eqn:W.
      * destruct (kind_of (find_class n)) eqn:K; try reflexivity. apply kind_unknown in K. rewrite K, wrong_unknown in W. discriminate.
      * rewrite (wrong_notunknown _ _ Ea W). reflexivity.
  - destruct (process_lines e rel tr m raws m' Hs E) as (m1 & E1 & T1 & St & E2 & S1 & Ks & Hh & Ef).
    set (m2 := section_size tr m1) in *.
    assert (T2 : m_type m2 = m_type m) by (unfold m2, section_size; destruct (_ <? _); exact T1).
    destruct S1 as [Hn Hl]. pose proof Hl as Hl2. rewrite <- T2 in Hl2.
    destruct (finish_all_facts e rel tr _ m2 m' Hn Hl2 Ef) as (_ & _ & _ & _ & _ & _ & _ & P2 & _).
    assert (I0 : Forall (ident any) (s_handlers (sec tr m))) by (rewrite Hs; constructor).
    destruct (lines_section e rel tr raws m 0%nat m1 I0 E1) as (_ & _ & P1 & _). rewrite Hs in P1.
    rewrite P2; [rewrite E2, P1; reflexivity|]. intros Hx. unfold norms in Hx. apply in_map_iff in Hx as ([k2 h2] & En & Hi2). cbn [snd] in En.
    destruct (Hh k2 h2 Hi2) as (evs2 & Ek2 & (r2 & Hr2 & Hn2 & Hk2) & Hf2). set (n2 := first_name k2 raws) in *.
    assert (Hi2' : ident any (lower n2, new_handler n2)) by (exists n2; split; [exact I|split; [reflexivity|apply same_id_refl]]).
    destruct (feeds_got e (still m) rel n2 _ _ _ _ Hi2' Hf2) as [(_ & _ & En2 & _) _].
    assert (Es : strip (raw_key r2) = k). { rewrite Hk2, Ek2, strip_lower, <- En, En2. reflexivity. }
    unfold apart_name in Ha. rewrite Forall_forall in Ha. specialize (Ha r2 Hr2 Es).
    assert (C : existsb (fun r => str_eqb (raw_key r) k) raws = true) by (apply existsb_exists; exists r2; split; [exact Hr2|apply str_eqb_eq, Ha]). congruence.
Qed.
(** A field that does not belong in this message ends without a value. *)
Definition shunned (t : mtype) (h : handler) : Prop := wrong t (h_cls h) = true -> kind_of (h_cls h) <> KBroken -> h_val h = VNone.
Lemma process_shunned e rel tr m raws m' : sec tr m = new_section tr -> process e rel tr m raws = (m', Ok tt) ->
  forall k h, dget k (s_handlers (sec tr m')) = Some h -> shunned (m_type m) h.
Proof.
  intros Hs E k h Hd. assert (HR : exists r, In r raws /\ raw_key r = k).
  { destruct (process_lines e rel tr m raws m' Hs E) as (m1 & E1 & T1 & St & E2 & S1 & Ks & Hh & Ef).
    assert (T2 : m_type (section_size tr m1) = m_type m) by (unfold section_size; destruct (_ <? _); exact T1).
    destruct S1 as [Hn Hl]. rewrite <- T2 in Hl. destruct (finish_all_facts e rel tr _ _ m' Hn Hl Ef) as (_ & _ & _ & _ & _ & _ & P2 & _ & _).
    destruct (str_in k (keys (s_handlers (sec tr m1)))) eqn:Ei.
    - apply str_in_In in Ei. apply in_map_iff in Ei as ([k' h1] & Ek' & Hi). cbn [fst] in Ek'. subst k'. destruct (Hh k h1 Hi) as (_ & _ & (r & Hr & _ & Hk) & _). eauto.
    - exfalso. rewrite P2 in Hd.
      + rewrite E2 in Hd. apply dget_In in Hd. apply (in_map fst) in Hd. apply str_in_In in Hd. cbn [fst] in Hd. unfold keys in Ei. congruence.
      + intros C. apply str_in_In in C. congruence. }
  destruct (process_field e rel tr m raws m' k Hs E HR) as (evs & h1 & mi & evs' & h' & Ek & Hf & Hl & St & Ty & Ef & Hid & Fin & Hd' & _).
  cbv zeta in *. assert (h = h') by congruence. subst h'. set (n := first_name k raws) in *. intros W K. destruct Hid as [Hc _]. cbn [h_cls new_handler] in Hc.
  rewrite Hc in W, K.
  assert (Hi0 : ident any (lower n, new_handler n)) by (exists n; split; [exact I|split; [reflexivity|apply same_id_refl]]).
  destruct (feeds_got e (still m) rel n _ _ _ _ Hi0 Hf) as [Hid0 G].
  assert (Hc1 : h_cls h1 = find_class n) by (destruct Hid0 as [-> _]; reflexivity).
  assert (Hsf : h_sf h1 = false) by apply Hl.
  rewrite (finish_val e mi (still m) rel _ _ n h1 evs' h St Hc1 Hsf Ef). rewrite still_type in G. unfold accepted in G. rewrite W in G. cbn [negb andb] in G.
  destruct G as (G1 & G2 & G3). cbn [new_handler h_raw h_val] in G1, G3. rewrite G1, G3.
  assert (NE : lines_of k (m_type m) raws <> []).
  { pose proof (values_nonempty k raws HR) as NE. rewrite <- (lines_values k (m_type m) raws) in NE. intros C. apply NE. rewrite C. reflexivity. }
  destruct (lines_of k (m_type m) raws) as [|x l]; [destruct (NE eq_refl)|].
  destruct (kind_of (find_class n)) eqn:Kd; try reflexivity. destruct (K eq_refl).
Qed.
