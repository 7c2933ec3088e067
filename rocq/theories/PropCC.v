(** * Cache-Control (C30). *)
From Verif Require Import PyStr Regex Grammar NoteTable Note PyLib Utils FieldAttrs Types Fields1 Fields2 Fields3 Framework Checks Message
  EvLogic NoteLemmas TestEnv LexLemmas ParamLemmas NumLemmas NameLemmas FrameLemmas PassParse PassEval PassFrame PassSec PassProc PassRun Session SessionLemmas
  SectionLemmas SecNotes SecValues LintLemmas FieldSpec PropFields PropValues PropNames OwnLemmas ListSpec PropLists.
Open Scope N_scope.

(** ** The tables *)
Lemma cut_eq v : match split1 61 v with Some (a, b) => (a, Some b) | None => (v, None) end = cut v.
Proof.
  induction v as [|c v IH]; [reflexivity|]. cbn [split1 cut]. rewrite (N.eqb_sym c). destruct (61 =? c); [reflexivity|].
  rewrite <- IH. destruct (split1 61 v) as [[a b]|]; reflexivity.
Qed.
Definition spec_row (d : str) : option (bool * bool * cctype) :=
  if is_one_of numeric d then Some (negb (is_one_of response_only d), negb (is_one_of request_only d), CCInt)
  else if is_one_of listing d then Some (negb (is_one_of response_only d), negb (is_one_of request_only d), CCQuoted)
  else if is_one_of flags d then Some (negb (is_one_of response_only d), negb (is_one_of request_only d), CCNone)
  else None.
Lemma dget_none_keys {A} d (t : dict A) : str_in d (keys t) = false -> dget d t = None.
Proof. intros H. destruct (dget d t) eqn:E; [|reflexivity]. apply dget_In in E. apply (in_map fst) in E. apply str_in_In in E. unfold keys in H. cbn [fst] in E. congruence. Qed.
Lemma table_eq d : dget d known_cc = spec_row d.
Proof.
  destruct (str_in d (keys known_cc)) eqn:E.
  - apply str_in_In in E. revert d E. apply Forall_forall. vm_compute. repeat constructor.
  - rewrite (dget_none_keys d known_cc E).
    assert (X : forall l, forallb (fun s => str_in (u s) (keys known_cc)) l = true -> is_one_of l d = false).
    { intros l H. unfold is_one_of. destruct (existsb _ l) eqn:Ex; [|reflexivity]. apply existsb_exists in Ex as (s & Hs & Es). apply str_eqb_eq in Es. subst d.
      rewrite forallb_forall in H. rewrite (H s Hs) in E. discriminate. }
    unfold spec_row. rewrite !X by (vm_compute; reflexivity). reflexivity.
Qed.
Lemma placed_known d : (is_one_of response_only d = true -> a_known d = true) /\ (is_one_of request_only d = true -> a_known d = true).
Proof.
  assert (X : forall l, forallb (fun s => is_one_of (numeric ++ flags ++ listing) (u s)) l = true -> is_one_of l d = true -> a_known d = true).
  { intros l H Ex. apply existsb_exists in Ex as (s & Hs & Es). apply str_eqb_eq in Es. subst d. rewrite forallb_forall in H. exact (H s Hs). }
  split; apply X; vm_compute; reflexivity.
Qed.
Lemma known_eq d : dmem d known_cc = a_known d.
Proof.
  unfold dmem. rewrite table_eq. unfold spec_row, a_known, is_one_of. rewrite !existsb_app. fold (is_one_of numeric d) (is_one_of flags d) (is_one_of listing d).
  destruct (is_one_of numeric d), (is_one_of flags d), (is_one_of listing d); reflexivity.
Qed.

(** ** Elements *)
Definition cc_p (v : str) : W pyval := p_cache_control (mkCx env0 (new_linter MResponse None false false []) None) (new_handler []) v.
Definition kk : list str := [u "directive"].
Definition cc_e (s : str) (cd : nid * str) : nid * str * list (option pyval) := (fst cd, s, [Some (VStr (snd cd))]).
Lemma cc_element s v : speak (classes cc_classes) kk s (fst (cc_p v)) = map (cc_e s) (element_due v)
  /\ match snd (cc_p v) with Ok x => [x] | Err _ => [] end = match cc_value v with Some x => [VTuple [VStr (cc_name v); x]] | None => [] end
  /\ Forall (direct (classes cc_classes)) (fst (cc_p v)).
Proof.
  unfold cc_p, p_cache_control. rewrite cut_eq. unfold element_due, cc_value, number_in, cc_name. destruct (cut v) as [n o]. cbn [fst snd]. set (d := lower n).
  rewrite table_eq. unfold spec_row.
  assert (F1 : is_one_of numeric d = true -> is_one_of flags d = false /\ is_one_of listing d = false).
  { intros H. apply existsb_exists in H as (x & Hx & E). apply str_eqb_eq in E. rewrite <- E. clear E. cbn [numeric In] in Hx.
    repeat (destruct Hx as [<-|Hx]; [vm_compute; split; reflexivity|]). destruct Hx. }
  assert (F2 : is_one_of listing d = true -> is_one_of flags d = false).
  { intros H. apply existsb_exists in H as (x & Hx & E). apply str_eqb_eq in E. rewrite <- E. clear E. cbn [listing In] in Hx.
    repeat (destruct Hx as [<-|Hx]; [vm_compute; reflexivity|]). destruct Hx. }
  destruct (is_one_of numeric d) eqn:E1; [destruct (F1 eq_refl) as [E2 E3]; rewrite E2, ?E3|destruct (is_one_of listing d) eqn:E3; [rewrite (F2 eq_refl)|destruct (is_one_of flags d) eqn:E2]].
  - destruct (str_eqb n d), o as [x|]; cbn [negb when andb]; try destruct (py_int x) as [z|]; try destruct (2147483648 <? z)%Z; repeat split; repeat constructor.
  - destruct (str_eqb n d), o as [x|]; cbn [negb when andb]; repeat split; repeat constructor.
  - destruct (str_eqb n d), o as [x|]; cbn [negb when andb]; repeat split; repeat constructor.
  - destruct (str_eqb n d), o as [x|]; cbn [negb when andb]; repeat split; repeat constructor.
Qed.

(** ** The field as a whole *)
Definition cc_k (e : env) (t : mtype) (ps : list (str * pyval)) : W unit :=
  let cc := map fst ps in
  (match t with
   | MResponse => match first_conflict e cc conflicting_cc with
                  | Some (d, l) => add_note CC_CONFLICTING [vs "directive" d; vv "conflicts" (markdown_list l bt)]
                  | None => ret tt
                  end
   | _ => ret tt
   end) ;;;
  iterW (cc_one (mkCx e (new_linter t None false false []) None) cc) (py_set e cc) ;;;
  cc_checks cc (dupdate [] ps).
Definition cc_q (e : env) (t : mtype) (v : pyval) : W pyval := ps <- lift (cc_pairs v) ;; (cc_k e t ps ;;; ret v).
Lemma cc_eval e t V rel h : m_type V = t -> eval_of F_cache_control (mkCx e V rel) h = cc_q e t (h_val h).
Proof.
  intros <-. cbn [eval_of]. unfold keep, ev_cache_control, cc_q. destruct (cc_pairs (h_val h)) as [ps|x]; [|reflexivity]. rewrite !lift_ok. unfold cc_k. cbv zeta.
  assert (X : forall cc l, iterW (cc_one (mkCx e V rel) cc) l = iterW (cc_one (mkCx e (new_linter (m_type V) None false false []) None) cc) l) by reflexivity.
  rewrite X. destruct (m_type V) eqn:E; unfold is_response; cbn [cx_msg cx_env]; rewrite E; reflexivity.
Qed.
Lemma first_conflict_eq e cc : (match first_conflict e cc conflicting_cc with Some (d, _) => [(CC_CONFLICTING, Some d)] | None => [] end) = conflict cc.
Proof.
  unfold conflict. change conflicting_cc with (map (fun o => (u (fst o), map u (snd o))) overrides). induction overrides as [|[d pot] l IH]; [reflexivity|].
  cbn [map first_conflict find fst snd]. change (str_in (u d) cc) with (has_name cc d). destruct (has_name cc d); cbn [andb]; [|exact IH].
  assert (X : (py_set e (filter (fun x => str_in x (map u pot)) cc) = []) <-> existsb (has_name cc) pot = false).
  { split.
    - intros H. destruct (existsb _ pot) eqn:E; [|reflexivity]. apply existsb_exists in E as (s & Hs & E). apply existsb_exists in E as (x & Hx & E). apply str_eqb_eq in E. subst x.
      assert (Hi : In (u s) (py_set e (filter (fun x => str_in x (map u pot)) cc))); [|rewrite H in Hi; destruct Hi].
      apply py_set_In, filter_In. split; [exact Hx|]. apply str_in_In, in_map, Hs.
    - intros H. destruct (py_set e _) as [|x r] eqn:E; [reflexivity|]. exfalso.
      assert (Hi : In x (py_set e (filter (fun x => str_in x (map u pot)) cc))) by (rewrite E; left; reflexivity).
      apply py_set_In, filter_In in Hi as [Hx Hp]. apply str_in_In, in_map_iff in Hp as (s & <- & Hs).
      assert (existsb (has_name cc) pot = true); [|congruence]. apply existsb_exists. exists s. split; [exact Hs|]. apply existsb_exists. exists (u s). split; [exact Hx|apply str_eqb_refl]. }
  destruct (existsb (has_name cc) pot).
  - destruct (py_set e _) eqn:E; [destruct X as [X _]; discriminate (X eq_refl)|reflexivity].
  - destruct X as [_ X]. rewrite (X eq_refl). exact IH.
Qed.
Definition cc_f (s : str) (cd : nid * option str) : nid * str * list (option pyval) := (fst cd, s, [option_map VStr (snd cd)]).
Lemma bind_fst_ok {A B} (m : W A) (k : A -> W B) a : snd m = Ok a -> fst (bind m k) = fst m ++ fst (k a).
Proof. destruct m as [l r]. cbn [snd]. intros ->. unfold bind. destruct (k a). reflexivity. Qed.
Lemma cc_one_says e t s ds d : let w := cc_one (mkCx e (new_linter t None false false []) None) ds d in
  speak (classes cc_classes) kk s (fst w) = map (cc_f s) (directive_due t ds d) /\ snd w = Ok tt /\ Forall (direct (classes cc_classes)) (fst w).
Proof.
  cbv zeta. unfold cc_one, directive_due. rewrite known_eq, table_eq. change (count_str d ds) with (length (filter (str_eqb d) ds)).
  change (Nat.ltb 1 (length (filter (str_eqb d) ds))) with (2 <=? length (filter (str_eqb d) ds))%nat.
  destruct (placed_known d) as [K1 K2].
  assert (R : match spec_row d with Some (a, _, _) => a | None => true end = negb (is_one_of response_only d)
           /\ match spec_row d with Some (_, b, _) => b | None => true end = negb (is_one_of request_only d)).
  { rewrite <- known_eq in K1, K2. unfold dmem in K1, K2. rewrite table_eq in K1, K2. unfold spec_row in *. destruct (is_one_of numeric d), (is_one_of listing d), (is_one_of flags d);
      try (split; reflexivity). destruct (is_one_of response_only d); [discriminate (K1 eq_refl)|]. destruct (is_one_of request_only d); [discriminate (K2 eq_refl)|]. split; reflexivity. }
  destruct R as [-> ->]. rewrite !Bool.negb_involutive. unfold misplaced, is_request, is_response. cbn [cx_msg new_linter m_type].
  destruct t; cbn [andb]; [destruct (is_one_of response_only d)|destruct (is_one_of request_only d)|]; try (repeat split; repeat constructor; fail);
    destruct (a_known d && _)%bool; repeat split; repeat constructor.
Qed.
Lemma iter_ok {A} (f : A -> W unit) l : (forall x, snd (f x) = Ok tt) -> fst (iterW f l) = flat_map (fun x => fst (f x)) l /\ snd (iterW f l) = Ok tt.
Proof.
  intros H. unfold iterW. assert (X : fst (mapW f l) = flat_map (fun x => fst (f x)) l /\ exists r, snd (mapW f l) = Ok r).
  { induction l as [|x l [I1 [r I2]]]; [split; [reflexivity|exists []; reflexivity]|]. cbn [mapW flat_map]. rewrite <- I1. pose proof (H x) as Hx.
    destruct (f x) as [a b]. cbn [snd fst] in *. subst b. unfold bind. destruct (mapW f l) as [a2 b2]. cbn [fst snd] in *. rewrite I2. cbn [fst snd]. unfold ret. rewrite ?app_nil_r. split; [reflexivity|eexists; reflexivity]. }
  destruct X as [X1 [r X2]]. rewrite <- X1. unfold bind. destruct (mapW f l) as [a b]. cbn [fst snd] in *. subst b. cbn. rewrite app_nil_r. auto.
Qed.
Lemma loop_says e t s ds l : let w := iterW (cc_one (mkCx e (new_linter t None false false []) None) ds) l in
  speak (classes cc_classes) kk s (fst w) = map (cc_f s) (flat_map (directive_due t ds) l) /\ snd w = Ok tt /\ Forall (direct (classes cc_classes)) (fst w).
Proof.
  cbv zeta. destruct (iter_ok (cc_one (mkCx e (new_linter t None false false []) None) ds) l) as [I1 I2]; [intros d; apply (cc_one_says e t s ds d)|].
  rewrite I1. split; [|split; [exact I2|]].
  - clear I1 I2. induction l as [|d l IH]; [reflexivity|]. cbn [flat_map]. rewrite speak_app, map_app, IH. f_equal. apply (cc_one_says e t s ds d).
  - apply Forall_flat_map, Forall_forall. intros d _. apply (cc_one_says e t s ds d).
Qed.
Lemma rev_find {A} d (es : dict A) : dget d (rev es) = match find (fun p => str_eqb (fst p) d) (rev es) with Some p => Some (snd p) | None => None end.
Proof. induction (rev es) as [|[k v] l IH]; [reflexivity|]. cbn [dget find fst]. rewrite (str_eqb_sym d k). destruct (str_eqb k d); [reflexivity|exact IH]. Qed.
(** Numeric directives have numbers. *)
Definition sound (es : list (str * pyval)) : Prop := Forall (fun p => is_one_of numeric (fst p) = true -> exists z, snd p = VInt z) es.
Lemma last_sound d es : sound es -> is_one_of numeric (u d) = true ->
  dget (u d) (dupdate [] es) = option_map VInt (last_number d es) /\ str_in (u d) (map fst es) = match last_number d es with Some _ => true | None => false end.
Proof.
  intros Hs Hd. rewrite dget_dupdate. unfold dlast, last_number. rewrite rev_find. cbn [dget].
  destruct (find (fun p => str_eqb (fst p) (u d)) (rev es)) as [[k v]|] eqn:E.
  - apply find_some in E as [Hi E]. cbn [fst] in E. apply str_eqb_eq in E. subst k. apply in_rev in Hi. unfold sound in Hs. rewrite Forall_forall in Hs.
    destruct (Hs _ Hi Hd) as [z Hz]. cbn [snd] in *. subst v. split; [reflexivity|]. apply str_in_In. apply (in_map fst) in Hi. exact Hi.
  - split; [reflexivity|]. destruct (str_in (u d) (map fst es)) eqn:Es; [|reflexivity]. apply str_in_In, in_map_iff in Es as ([k v] & Ek & Hi). cbn [fst] in Ek. subst k.
    apply in_rev in Hi. pose proof (find_none _ _ E _ Hi) as X. cbn [fst] in X. rewrite str_eqb_refl in X. discriminate.
Qed.
Lemma checks_say s es : sound es -> let w := cc_checks (map fst es) (dupdate [] es) in
  speak (classes cc_classes) kk s (fst w) = map (cc_f s) (map (fun c => (c, None)) (check_due es)) /\ Forall (direct (classes cc_classes)) (fst w).
Proof.
  intros Hs. cbv zeta. unfold cc_checks, check_due. destruct (last_sound "pre-check" es Hs eq_refl) as [A1 A2]. destruct (last_sound "post-check" es Hs eq_refl) as [B1 B2].
  rewrite A1, A2, B1, B2. destruct (last_number "pre-check" es) as [a|], (last_number "post-check" es) as [b|]; cbn [option_map negb orb]; try (repeat split; repeat constructor; fail).
  destruct (_ && _)%bool; [repeat split; repeat constructor|]. destruct (a <? b)%Z; [repeat split; repeat constructor|]. destruct (b =? 0)%Z; repeat split; repeat constructor.
Qed.
Lemma cc_q_direct e t v : Forall (direct (classes cc_classes)) (fst (cc_q e t v)).
Proof.
  unfold cc_q. destruct (cc_pairs v) as [ps|x]; [|constructor]. rewrite lift_ok.
  assert (X : Forall (direct (classes cc_classes)) (fst (cc_k e t ps))).
  { unfold cc_k. cbv zeta. set (w1 := match t with MResponse => _ | _ => _ end).
    assert (W1 : Forall (direct (classes cc_classes)) (fst w1) /\ snd w1 = Ok tt) by (unfold w1; destruct t; try (split; [constructor|reflexivity]); destruct (first_conflict _ _ _) as [[d l]|]; split; repeat constructor).
    destruct (loop_says e t [] (map fst ps) (py_set e (map fst ps))) as (_ & L2 & L3).
    rewrite (bind_fst_ok _ _ tt (proj2 W1)), (bind_fst_ok _ _ tt L2). apply Forall_app. split; [apply W1|]. apply Forall_app. split; [exact L3|].
    unfold cc_checks. destruct (_ || _)%bool; [|constructor]. destruct (_ || _)%bool; [repeat constructor|].
    repeat match goal with |- context [match ?x with _ => _ end] => destruct x end; repeat constructor. }
  destruct (cc_k e t ps) as [l [[]|x]]; unfold ret; cbn [bind fst] in *; rewrite ?app_nil_r; exact X.
Qed.
Lemma pairs_of es : cc_pairs (VList (map (fun dx => VTuple [VStr (fst dx); snd dx]) es)) = Ok es.
Proof. unfold cc_pairs. cbn [as_list rbind]. induction es as [|[d x] es IH]; [reflexivity|]. cbn [map mapR fst snd]. cbn [cc_pair rbind]. rewrite IH. reflexivity. Qed.
Lemma cc_field_says e t s es : sound es ->
  speak (classes cc_classes) kk s (fst (cc_q e t (VList (map (fun dx => VTuple [VStr (fst dx); snd dx]) es))))
  = map (cc_f s) (match t with MResponse => conflict (map fst es) | _ => [] end ++ flat_map (directive_due t (map fst es)) (py_set e (map fst es)) ++ map (fun c => (c, None)) (check_due es)).
Proof.
  intros Hs. unfold cc_q. rewrite pairs_of, lift_ok.
  assert (X : speak (classes cc_classes) kk s (fst (cc_k e t es)) = map (cc_f s) (match t with MResponse => conflict (map fst es) | _ => [] end
     ++ flat_map (directive_due t (map fst es)) (py_set e (map fst es)) ++ map (fun c => (c, None)) (check_due es))).
  { unfold cc_k. cbv zeta. set (w1 := match t with MResponse => _ | _ => ret tt end).
    assert (W1 : speak (classes cc_classes) kk s (fst w1) = map (cc_f s) (match t with MResponse => conflict (map fst es) | _ => [] end) /\ snd w1 = Ok tt).
    { unfold w1. destruct t; try (split; reflexivity). rewrite <- (first_conflict_eq e). destruct (first_conflict _ _ _) as [[d l]|]; split; reflexivity. }
    destruct (loop_says e t s (map fst es) (py_set e (map fst es))) as (L1 & L2 & L3).
    rewrite (bind_fst_ok _ _ tt (proj2 W1)), (bind_fst_ok _ _ tt L2), !speak_app, (proj1 W1), L1, (proj1 (checks_say s es Hs)), !map_app. reflexivity. }
  rewrite <- X. destruct (cc_k e t es) as [l [[]|x]]; unfold ret; cbn [bind fst]; rewrite ?app_nil_r; reflexivity.
Qed.

(** ** C30 *)
Lemma entries_sound vs : sound (cc_entries vs).
Proof.
  unfold cc_entries, sound. apply Forall_flat_map, Forall_forall. intros v _. destruct (cc_value (strip v)) as [x|] eqn:E; [|constructor]. constructor; [|constructor].
  cbn [fst snd]. intros H. unfold cc_value in E. rewrite H in E. destruct (snd (cut (strip v))) as [s|]; [|discriminate]. destruct (py_int s) as [z|]; [|discriminate].
  injection E as <-. eauto.
Qed.
Lemma entries_parsed vs : VList (flat_map (parses cc_p) (flat_map split_list_field vs)) = cc_parsed vs.
Proof.
  unfold cc_parsed, cc_entries. f_equal. induction (flat_map split_list_field vs) as [|v l IH]; [reflexivity|]. cbn [flat_map]. rewrite map_app, IH. f_equal. unfold parses.
  destruct (cc_element [] (strip v)) as (_ & -> & _). destruct (cc_value (strip v)); reflexivity.
Qed.
(** Every element becomes a pair of its name in lower case and a value of the
    type its directive demands; elements with an invalid value are dropped. *)
Theorem C30_value : forall e t start base hs ts m' tr,
  run_of e t start base hs ts m' -> unpadded (u "cache-control") (section_lines tr hs ts) ->
  let vs := values (u "cache-control") (section_lines tr hs ts) in
  value_in tr (u "cache-control") m' = if nonempty vs then Some (cc_parsed vs) else None.
Proof.
  intros e t start base hs ts m' tr R U vs. rewrite (run_value _ _ _ _ _ _ _ _ _ R U). fold vs. destruct (nonempty vs); [|reflexivity]. f_equal.
  unfold field_value. change (find_class (u "cache-control")) with F_cache_control. change (kind_of F_cache_control) with KList.
  assert (A : accepted (m_type (new_linter t start false false base)) (u "cache-control") = true) by (destruct t; reflexivity). rewrite A.
  cbn [settled]. rewrite <- entries_parsed, flat_map_flat_map. reflexivity.
Qed.
Print Assumptions C30_value.
(** [o] lists each of [ds] once. *)
Definition listing_of (ds o : list str) : Prop := NoDup o /\ forall d, In d o <-> In d ds.
(** What is said about the field in a section; the order [o] of the different
    directives is that of a Python set. *)
Definition cc_says (t : mtype) (l : list rawline) (o : list str) : list (nid * str * list (option pyval)) :=
  let k := u "cache-control" in
  let es := cc_entries (values k l) in
  let ds := map fst es in
  flat_map (fun vo => map (cc_e (at_offset (snd vo))) (element_due (strip (fst vo)))) (elements t k l)
  ++ map (cc_f (u "field-cache-control"))
       (match t with MResponse => conflict ds | _ => [] end ++ flat_map (directive_due t ds) o ++ map (fun c => (c, None)) (check_due es)).
Lemma cc_section e t l : exists o, listing_of (map fst (cc_entries (values (u "cache-control") l))) o
  /\ list_says (classes cc_classes) kk t (u "cache-control") cc_p (cc_q e t) l = cc_says t l o.
Proof.
  exists (py_set e (map fst (cc_entries (values (u "cache-control") l)))). split; [split; [apply py_set_NoDup|intros d; apply py_set_In]|].
  unfold list_says, cc_says. cbv zeta. f_equal.
  - apply flat_map_ext. intros [v o]. cbn [fst snd]. apply cc_element.
  - rewrite <- elements_values, entries_parsed. unfold cc_parsed. change (about_field (u "cache-control")) with (u "field-cache-control").
    destruct (values (u "cache-control") l) as [|v vs]; [destruct t; reflexivity|]. cbn [nonempty]. apply cc_field_says, entries_sound.
Qed.
Theorem C30_notes : forall e rel top headers chunks complete trailers t start nc head base m' rel',
  lint e rel top headers chunks complete trailers (new_linter t start nc head base) = (m', rel', Ok tt) ->
  hyphened (u "cache-control") headers -> hyphened (u "cache-control") trailers ->
  exists oh ot, listing_of (map fst (cc_entries (values (u "cache-control") headers))) oh /\ listing_of (map fst (cc_entries (values (u "cache-control") trailers))) ot
    /\ heard (classes cc_classes) [u "directive"] (m_notes m') = cc_says t headers oh ++ cc_says t trailers ot.
Proof.
  intros e rel top headers chunks complete trailers t start nc head base m' rel' E H1 H2.
  destruct (cc_section e t headers) as (oh & L1 & S1). destruct (cc_section e t trailers) as (ot & L2 & S2). exists oh, ot. split; [exact L1|]. split; [exact L2|].
  rewrite <- S1, <- S2. apply (list_own (classes cc_classes) kk F_cache_control (u "cache-control") cc_p (cc_q e t) e rel top headers chunks complete trailers t start nc head base m' rel' E).
  - apply mine_b_ok. vm_compute. reflexivity.
  - apply quiet_b_ok. vm_compute. reflexivity.
  - reflexivity.
  - reflexivity.
  - vm_compute. tauto.
  - reflexivity.
  - reflexivity.
  - reflexivity.
  - destruct t; reflexivity.
  - exact H1.
  - exact H2.
  - reflexivity.
  - intros v. apply (cc_element []).
  - intros V h HV _. apply cc_eval. change (m_type V) with (m_type (core V)). rewrite HV. reflexivity.
  - intros v. apply cc_q_direct.
Qed.
Print Assumptions C30_notes.
