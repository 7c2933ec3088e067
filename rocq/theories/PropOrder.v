(** * C33: the order of different fields (support and theorems) *)
From Coq Require Import Permutation.
From Verif Require Import PyStr Regex Grammar NoteTable Note PyLib Utils FieldAttrs Types Fields1 Fields2 Fields3 Framework Checks Message
  EvLogic NoteLemmas TestEnv LexLemmas ParamLemmas NumLemmas NameLemmas FrameLemmas PassParse PassEval PassFrame PassSec PassProc PassRun Session SessionLemmas
  SectionLemmas SecNotes SecValues LintLemmas FieldSpec PropFields PropValues PropNames OwnLemmas.
Open Scope N_scope.

(** Fields whose notes look at other fields (or at the notes so far). *)
Definition looks_around (f : fname) : bool :=
  match f with
  | F_date | F_last_modified | F_content_length | F_strict_transport_security | F_content_security_policy | F_content_security_policy_report_only
  | F_cross_origin_embedder_policy_report_only | F_cross_origin_opener_policy_report_only => true
  | _ => false
  end.
(** What is compared of an event: not the subject. *)
Definition unsubj (e : ev) : ev := match e with EMsg _ n v => EMsg [] n v | _ => e end.
Definition hsim (h h' : handler) : Prop :=
  h_cls h = h_cls h' /\ match_dollar (nocase rfc9110_token) (h_wire h) = match_dollar (nocase rfc9110_token) (h_wire h') /\ h_norm h = h_norm h' /\ h_canon h = h_canon h' /\ h_val h = h_val h'
  /\ map fst (h_raw h) = map fst (h_raw h') /\ h_sf h = h_sf h' /\ map snd (h_aux h) = map snd (h_aux h').
Definition wsim {A} (a b : W A) : Prop := map unsubj (fst a) = map unsubj (fst b) /\ snd a = snd b.
Lemma wsim_refl {A} (a : W A) : wsim a a. Proof. split; reflexivity. Qed.
Lemma wsim_bind {A B} (a b : W A) (f g : A -> W B) : wsim a b -> (forall x, wsim (f x) (g x)) -> wsim (bind a f) (bind b g).
Proof.
  intros [H1 H2] H. unfold bind. destruct a as [l [x|x]], b as [l' [y|y]]; cbn [fst snd] in *; try discriminate; injection H2 as <-.
  - specialize (H x) as [H3 H4]. destruct (f x), (g x). split; cbn [fst snd] in *; [rewrite !map_app, H1, H3; reflexivity|exact H4].
  - split; [exact H1|reflexivity].
Qed.
Definition noisy (f : fname) : bool := match f with F_tcn | F__unnecessary => true | _ => false end.
Lemma parse_lone f e V V' rel h h' v : noisy f = false -> front V = front V' -> parse_of f (mkCx e V rel) h v = parse_of f (mkCx e V' rel) h' v.
Proof.
  intros N H. destruct V, V', h, h'. injection H as -> -> -> -> -> -> ->. destruct f; try discriminate N; reflexivity.
Qed.
Lemma aux_map {A} (g : ev -> list A) (a b : list (str * ev)) : map snd a = map snd b -> flat_map (fun se => g (snd se)) a = flat_map (fun se => g (snd se)) b.
Proof. intros H. rewrite <- !(flat_map_map snd g), H. reflexivity. Qed.
Lemma unsubj_map (g g' : str * ev -> list ev) (a b : list (str * ev)) : (forall s s' x, map unsubj (g (s, x)) = map unsubj (g' (s', x))) ->
  map snd a = map snd b -> map unsubj (flat_map g a) = map unsubj (flat_map g' b).
Proof.
  intros Hg. revert b. induction a as [|[s x] a IH]; intros [|[s' x'] b] H; try discriminate; [reflexivity|]. cbn [map snd] in H. injection H as -> H.
  cbn [flat_map]. rewrite !map_app, (IH b H), (Hg s s'). reflexivity.
Qed.
Lemma eval_lone f e V V' rel h h' : looks_around f = false -> front V = front V' -> hsim h h' -> wsim (eval_of f (mkCx e V rel) h) (eval_of f (mkCx e V' rel) h').
Proof.
  intros N H (S1 & S2 & S3 & S4 & S5 & S6 & S7 & S8). destruct V, V', h as [a1 a2 a3 a4 a5 a6 a7 a8], h' as [b1 b2 b3 b4 b5 b6 b7 b8].
  cbn [Types.h_cls Types.h_wire Types.h_norm Types.h_canon Types.h_val Types.h_raw Types.h_sf Types.h_aux] in *. injection H as -> -> -> -> -> -> ->. subst.
  destruct f; try discriminate N; try apply wsim_refl; cbn [eval_of].
  - unfold keep, ev_clear_site_data, marked_strs. cbn [Types.h_aux Types.h_val]. rewrite (aux_map (fun x => match x with EMark (VStr s) => [s] | _ => [] end) _ _ S8). apply wsim_refl.
  - unfold keep, ev_set_cookie. cbn [Types.h_aux Types.h_val Types.h_canon]. destruct (rbind _ _) as [l|x]; [|apply wsim_refl].
    apply wsim_bind; [|intros; apply wsim_refl]. apply wsim_bind; [apply wsim_refl|]. intros x. apply wsim_bind; [apply wsim_refl|]. intros _. apply wsim_bind; [apply wsim_refl|]. intros _.
    split; [|reflexivity]. cbn [tell fst]. apply unsubj_map; [|exact S8]. intros s s' z. cbn [snd fst]. destruct z; reflexivity.
Qed.
Lemma item_lone f e V V' rel h h' b p : looks_around f = false -> front V = front V' -> hsim h h' -> wsim (eval_item f (mkCx e V rel) h b p) (eval_item f (mkCx e V' rel) h' b p).
Proof.
  intros N H (S1 & S2 & S3 & S4 & S5 & S6 & S7 & S8). destruct V, V', h as [a1 a2 a3 a4 a5 a6 a7 a8], h' as [b1 b2 b3 b4 b5 b6 b7 b8].
  cbn [Types.h_cls Types.h_wire Types.h_norm Types.h_canon Types.h_val Types.h_raw Types.h_sf Types.h_aux] in *. injection H as -> -> -> -> -> -> ->. subst.
  destruct f; try discriminate N; apply wsim_refl.
Qed.
Lemma list_lone f e V V' rel h h' l : front V = front V' -> hsim h h' -> wsim (eval_list f (mkCx e V rel) h l) (eval_list f (mkCx e V' rel) h' l).
Proof.
  intros H (S1 & S2 & S3 & S4 & S5 & S6 & S7 & S8). destruct V, V', h as [a1 a2 a3 a4 a5 a6 a7 a8], h' as [b1 b2 b3 b4 b5 b6 b7 b8].
  cbn [Types.h_cls Types.h_wire Types.h_norm Types.h_canon Types.h_val Types.h_raw Types.h_sf Types.h_aux] in *. injection H as -> -> -> -> -> -> ->. subst.
  destruct f; apply wsim_refl.
Qed.
Lemma dict_lone f e V V' rel h h' l : front V = front V' -> hsim h h' -> wsim (eval_dict f (mkCx e V rel) h l) (eval_dict f (mkCx e V' rel) h' l).
Proof.
  intros H (S1 & S2 & S3 & S4 & S5 & S6 & S7 & S8). destruct V, V', h as [a1 a2 a3 a4 a5 a6 a7 a8], h' as [b1 b2 b3 b4 b5 b6 b7 b8].
  cbn [Types.h_cls Types.h_wire Types.h_norm Types.h_canon Types.h_val Types.h_raw Types.h_sf Types.h_aux] in *. injection H as -> -> -> -> -> -> ->. subst.
  destruct f; apply wsim_refl.
Qed.

(** ** Events and notes up to their subjects *)
Definition skey (s : sev) : vars * ev := (snd (fst s), unsubj (snd s)).
Definition anon (n : note) : note := mkNote (n_cls n) [] (n_cat n) (n_vars n) (n_kids n).
Lemma tag_sim s s' b l l' : map unsubj l = map unsubj l' -> map skey (tag s b l) = map skey (tag s' b l').
Proof.
  revert l'. induction l as [|x l IH]; intros [|y l'] H; try discriminate; [reflexivity|]. cbn [map] in H. injection H as H1 H2.
  unfold tag in *. cbn [map]. rewrite (IH l' H2). unfold skey at 1 3. cbn [fst snd]. rewrite H1. reflexivity.
Qed.
Lemma aux_sim l : forall l', map skey l = map skey l' -> map snd (aux_of l) = map snd (aux_of l').
Proof.
  induction l as [|[[s b] x] l IH]; intros [|[[s' b'] y] l'] H; try discriminate; [reflexivity|]. cbn [map] in H. injection H as _ H1 H2.
  unfold aux_of in *. cbn [flat_map]. rewrite !map_app, (IH l' H2). f_equal. cbn [snd] in H1. destruct x, y; try discriminate H1; try reflexivity; injection H1; intros; subst; reflexivity.
Qed.
Lemma attach_anon t p c v ns : attach t p c v (map anon ns) = option_map (map anon) (attach t p c v ns).
Proof.
  induction ns as [|n ns IH]; [reflexivity|]. cbn [map attach]. change (n_cls (anon n)) with (n_cls n). destruct (nid_eqb (n_cls n) p); [reflexivity|].
  rewrite IH. destruct (attach t p c v ns); reflexivity.
Qed.
Lemma mk_anon t s n c v k : anon (mk_note t s n c v k) = mk_note t [] n c v k.
Proof. reflexivity. Qed.
Lemma emit_sim t l : forall l' ns ns', map anon ns = map anon ns' -> map skey l = map skey l' -> map anon (emit t ns l) = map anon (emit t ns' l').
Proof.
  induction l as [|[[s b] x] l IH]; intros [|[[s' b'] y] l'] ns ns' Hn H; try discriminate; [exact Hn|]. cbn [map] in H. injection H as -> H1 H2. cbn [snd] in H1.
  cbn [emit fold_left]. apply (IH l' _ _); [|exact H2]. clear IH H2. cbn [emit_one].
  destruct x as [c ct v kd|sj c v|? ? ?|?|pr c v], y as [c' ct' v' kd'|sj' c' v'|? ? ?|?|pr' c' v']; try discriminate H1; injection H1; intros; subst; try exact Hn.
  - rewrite !map_app, Hn. reflexivity.
  - rewrite !map_app, Hn. reflexivity.
  - pose proof (attach_anon t pr' c' v' ns) as A1. pose proof (attach_anon t pr' c' v' ns') as A2. rewrite Hn in A1. rewrite A1 in A2.
    destruct (attach t pr' c' v' ns) as [r|], (attach t pr' c' v' ns') as [r'|]; try discriminate A2; [injection A2 as A2; exact A2|]. rewrite !map_app, Hn. reflexivity.
Qed.

(** ** The framework, up to subjects *)
Definition osim {A} (o o' : list sev * handler * res A) : Prop :=
  map skey (fst (fst o)) = map skey (fst (fst o')) /\ hsim (snd (fst o)) (snd (fst o')) /\ snd o = snd o'.
Ltac hs := unfold hsim in *; cbn [Types.h_cls Types.h_wire Types.h_norm Types.h_canon Types.h_val Types.h_raw Types.h_sf Types.h_aux h_set_val h_add_raw h_set_sf h_add_aux] in *.
Lemma hsim_val h h' v : hsim h h' -> hsim (h_set_val h v) (h_set_val h' v).
Proof. intros (S1 & S2 & S3 & S4 & S5 & S6 & S7 & S8). hs. repeat split; assumption. Qed.
Lemma hsim_sf h h' v : hsim h h' -> hsim (h_set_sf h v) (h_set_sf h' v).
Proof. intros (S1 & S2 & S3 & S4 & S5 & S6 & S7 & S8). hs. repeat split; assumption. Qed.
Lemma hsim_raw h h' v o o' : hsim h h' -> hsim (h_add_raw h (v, o)) (h_add_raw h' (v, o')).
Proof. intros (S1 & S2 & S3 & S4 & S5 & S6 & S7 & S8). hs. repeat split; try assumption. rewrite !map_app, S6. reflexivity. Qed.
Lemma hsim_aux h h' l l' : hsim h h' -> map skey l = map skey l' -> hsim (h_add_aux h (aux_of l)) (h_add_aux h' (aux_of l')).
Proof. intros (S1 & S2 & S3 & S4 & S5 & S6 & S7 & S8) H. hs. repeat split; try assumption. rewrite !map_app, S8, (aux_sim _ _ H). reflexivity. Qed.
Lemma hsim_append h h' v : hsim h h' -> hsim (append_val h v) (append_val h' v).
Proof. intros H. unfold append_val. pose proof H as (_ & _ & _ & _ & S5 & _). rewrite S5. destruct (h_val h'); try exact H. apply hsim_val, H. Qed.
Lemma finish_eval_sim s b h h' w w' : hsim h h' -> wsim w w' -> osim (finish_eval s b h w) (finish_eval s b h' w').
Proof.
  intros Hh [W1 W2]. unfold finish_eval. destruct w as [l r], w' as [l' r']. cbn [fst snd] in *. subst r'. pose proof (tag_sim s s b l l' W1) as T.
  assert (A := hsim_aux _ _ _ _ Hh T). destruct r as [v|x]; (split; [exact T|]; split; [|reflexivity]); [apply hsim_val|]; exact A.
Qed.
Lemma prefix_sim l l' o o' : map skey l = map skey l' -> osim o o' -> osim (prefix_events l o) (prefix_events l' o').
Proof. intros H (H1 & H2 & H3). unfold prefix_events. destruct o as [[a b] c], o' as [[a' b'] c']. cbn [fst snd] in *. split; [cbn [fst]; rewrite !map_app, H, H1; reflexivity|]. split; assumption. Qed.

Section Sim.
  Variables (f : fname) (e : env) (rel : option mstate) (V V' : mstate).
  Hypothesis Hf : looks_around f = false.
  Hypothesis Hn : noisy f = false.
  Hypothesis HV : front V = front V'.
  Let c := mkCx e V rel.
  Let c' := mkCx e V' rel.
  Lemma hsim_cat h h' : hsim h h' -> handler_cat h = handler_cat h' /\ handler_ref h = handler_ref h'.
  Proof. intros (S1 & _ & S3 & _). unfold handler_cat, handler_ref. rewrite S1, S3. split; reflexivity. Qed.
  Lemma hsim_cls h h' : hsim h h' -> h_cls h = h_cls h'. Proof. intros (S1 & _). exact S1. Qed.
  Lemma base_finish_sim s b h h' : h_cls h = f -> hsim h h' -> osim (base_finish c s b h) (base_finish c' s b h').
  Proof.
    intros Hc Hh. unfold base_finish. pose proof Hh as (S1 & _ & _ & _ & S5 & _). rewrite <- S5, <- S1, Hc.
    assert (X : osim (finish_eval s b h (eval_of f c h)) (finish_eval s b h' (eval_of f c' h'))) by (apply finish_eval_sim; [exact Hh|apply eval_lone; assumption]).
    destruct (h_val h); try exact X. split; [reflexivity|]. split; [exact Hh|reflexivity].
  Qed.
  Lemma singleton_sim s b h h' : h_cls h = f -> hsim h h' -> osim (singleton_finish c s b h) (singleton_finish c' s b h').
  Proof.
    intros Hc Hh. unfold singleton_finish. pose proof Hh as (S1 & _ & _ & _ & _ & S6 & _ & _). destruct (hsim_cat _ _ Hh) as [K1 K2].
    destruct (h_raw h) as [|[raw o] more], (h_raw h') as [|[raw' o'] more']; try discriminate S6; [split; [reflexivity|]; split; [apply hsim_val, Hh|reflexivity]|].
    cbn [map fst] in S6. injection S6 as -> S6. rewrite <- S1, Hc. unfold v_ref. rewrite K2.
    assert (M : forall A (x y : A), match more with [] => x | _ => y end = match more' with [] => x | _ => y end) by (intros; destruct more, more'; try discriminate S6; reflexivity).
    rewrite (M _ [] [ENote SINGLE_HEADER_REPEAT None [] []]). set (l1 := match more' with [] => _ | _ => _ end). set (l2 := match fa_syntax _ with Some _ => _ | None => _ end). cbv zeta.
    unfold c, c'. rewrite (parse_lone f e V V' rel h h' (strip raw') Hn HV). destruct (parse_of f (mkCx e V' rel) h' (strip raw')) as [l3 r].
    assert (A : hsim (h_add_aux h (aux_of (tag s b (l1 ++ l2 ++ l3)))) (h_add_aux h' (aux_of (tag s b (l1 ++ l2 ++ l3))))) by (apply hsim_aux; [exact Hh|reflexivity]).
    destruct r as [v|x].
    - apply prefix_sim; [reflexivity|]. apply base_finish_sim; [exact Hc|apply hsim_val, A].
    - destruct (is_ValueError x); (split; [reflexivity|]; split; [|reflexivity]); [apply hsim_val|]; exact A.
  Qed.
  Lemma broken_values_sim l : forall l' h h' acc, h_cls h = f -> hsim h h' -> map fst l = map fst l' ->
    osim (broken_values c h l acc) (broken_values c' h' l' acc) .
  Proof.
    induction l as [|[raw o] l IH]; intros [|[raw' o'] l'] h h' acc Hc Hh H; try discriminate; cbn [broken_values]; [split; [reflexivity|]; split; [exact Hh|reflexivity]|].
    cbn [map fst] in H. injection H as -> H. destruct (hsim_cat _ _ Hh) as [K1 K2]. pose proof Hh as (S1 & _ & _ & S4 & _). rewrite <- S1, Hc. unfold v_ref. rewrite K2.
    set (l1 := match fa_syntax _ with Some _ => _ | None => _ end). unfold c, c'. rewrite (parse_lone f e V V' rel h h' (strip raw') Hn HV). fold c c'.
    destruct (parse_of f c' h' (strip raw')) as [l2 r]. cbv zeta. assert (B : line_base h = line_base h') by (unfold line_base; rewrite S4; reflexivity). rewrite B.
    assert (T : map skey (tag (offset_subj o) (line_base h') (l1 ++ l2)) = map skey (tag (offset_subj o') (line_base h') (l1 ++ l2))) by (apply tag_sim; reflexivity).
    pose proof (hsim_aux _ _ _ _ Hh T) as A.
    assert (Q : forall acc, osim (let '(evs', h1, r') := broken_values c (h_add_aux h (aux_of (tag (offset_subj o) (line_base h') (l1 ++ l2)))) l acc in (tag (offset_subj o) (line_base h') (l1 ++ l2) ++ evs', h1, r'))
       (let '(evs', h1, r') := broken_values c' (h_add_aux h' (aux_of (tag (offset_subj o') (line_base h') (l1 ++ l2)))) l' acc in (tag (offset_subj o') (line_base h') (l1 ++ l2) ++ evs', h1, r'))).
    { intros acc'. destruct (fun X => IH l' _ _ acc' X A H) as (X1 & X2 & X3); [exact Hc|]. destruct (broken_values c _ l acc') as [[a1 a2] a3], (broken_values c' _ l' acc') as [[b1 b2] b3]. cbn [fst snd] in *.
      split; [cbn [fst]; rewrite !map_app, T, X1; reflexivity|]. split; assumption. }
    destruct r as [v|x]; [apply Q|]. destruct (is_ValueError x); [apply Q|]. split; [exact T|]. split; [exact A|reflexivity].
  Qed.
  Lemma broken_cls l : forall cc h acc, h_cls (snd (fst (broken_values cc h l acc))) = h_cls h.
  Proof.
    induction l as [|[raw o] l IH]; intros cc h acc; cbn [broken_values]; [reflexivity|]. destruct (parse_of _ _ _ _) as [l2 [v|x]]; cbv zeta.
    - specialize (IH cc (h_add_aux h (aux_of (tag (offset_subj o) (line_base h) (match fa_syntax (attrs (h_cls h)) with Some r => if match_ws_dollar r raw then [] else [ENote BAD_SYNTAX None [v_ref h] []] | None => [] end ++ l2)))) (acc ++ [v])).
      destruct (broken_values cc _ l _) as [[a b] d]. exact IH.
    - destruct (is_ValueError x); [|reflexivity].
      specialize (IH cc (h_add_aux h (aux_of (tag (offset_subj o) (line_base h) (match fa_syntax (attrs (h_cls h)) with Some r => if match_ws_dollar r raw then [] else [ENote BAD_SYNTAX None [v_ref h] []] | None => [] end ++ l2)))) acc).
      destruct (broken_values cc _ l _) as [[a b] d]. exact IH.
  Qed.
  Lemma broken_sim s b h h' : h_cls h = f -> hsim h h' -> osim (broken_finish c s b h) (broken_finish c' s b h').
  Proof.
    intros Hc Hh. unfold broken_finish. pose proof Hh as (_ & _ & _ & _ & _ & S6 & _). pose proof (broken_values_sim (h_raw h) (h_raw h') h h' [] Hc Hh S6) as (X1 & X2 & X3).
    pose proof (broken_cls (h_raw h) c h []) as Y. destruct (broken_values c h _ _) as [[a1 a2] a3], (broken_values c' h' _ _) as [[b1 b2] b3]. cbn [fst snd] in *. subst b3.
    destruct a3 as [l|x]; [|split; [exact X1|split; [exact X2|reflexivity]]]. apply prefix_sim; [exact X1|]. apply base_finish_sim; [exact (eq_trans Y Hc)|apply hsim_val, X2].
  Qed.
  Lemma sf_result_sim {A} s b h h' comb (r : sfres A) value (g g' : handler -> A -> W pyval) : hsim h h' -> (forall h h' v, hsim h h' -> wsim (g h v) (g' h' v)) ->
    osim (sf_result s b h comb r value g) (sf_result s b h' comb r value g').
  Proof.
    intros Hh Hg. unfold sf_result. pose proof (hsim_sf _ _ true Hh) as H1. destruct (hsim_cat _ _ H1) as [K1 _]. destruct r as [v d|d pr pos|d pr].
    - apply prefix_sim; [reflexivity|]. cbv zeta. apply finish_eval_sim; [apply hsim_val, H1|apply Hg, hsim_val, H1].
    - unfold sf_error. rewrite K1. split; [reflexivity|]. split; [apply hsim_val, H1|reflexivity].
    - unfold sf_error. rewrite K1. split; [reflexivity|]. split; [apply hsim_val, H1|reflexivity].
  Qed.
  Lemma finish_sim s b h h' : h_cls h = f -> hsim h h' -> osim (finish_handler c s b h) (finish_handler c' s b h').
  Proof.
    intros Hc Hh. unfold finish_handler. pose proof Hh as (S1 & _ & _ & _ & S5 & _ & S7 & _). destruct (hsim_cat _ _ Hh) as [K1 _].
    assert (same : forall r : res unit, osim ([], h, r) ([], h', r)) by (intros r; split; [reflexivity|split; [exact Hh|reflexivity]]).
    rewrite <- S1. destruct (kind_of (h_cls h)) as [| | |t| |].
    - apply singleton_sim; assumption.
    - apply base_finish_sim; assumption.
    - apply broken_sim; assumption.
    - unfold sf_finish. rewrite <- S5, <- S7, <- S1. destruct (negb _); [apply same|]. destruct (h_sf h); [apply same|]. destruct (raw_texts _) as [raws|]; [|apply same].
      cbv zeta. rewrite Hc. destruct t; apply sf_result_sim; try exact Hh; intros; [apply item_lone|apply list_lone|apply dict_lone]; assumption.
    - unfold json_finish. rewrite <- S5. destruct (negb _); [apply same|]. destruct (raw_texts _) as [raws|]; [|apply same]. change (cx_env c') with (cx_env c).
      destruct (e_json _ _) as [l|msg|x]; [apply base_finish_sim; [exact Hc|apply hsim_val, Hh]| |apply same]. rewrite K1. split; [reflexivity|]. split; [apply hsim_val, Hh|reflexivity].
    - apply base_finish_sim; assumption.
  Qed.
  Lemma member_sim h h' v : h_cls h = f -> hsim h h' -> list_member c h v = list_member c' h' v.
  Proof.
    intros Hc Hh. unfold list_member, list_syntax. destruct (hsim_cat _ _ Hh) as [K1 K2]. rewrite <- (hsim_cls _ _ Hh), Hc. unfold v_ref. rewrite K1, K2.
    unfold c, c'. rewrite (parse_lone f e V V' rel h h' (strip v) Hn HV). reflexivity.
  Qed.
  Lemma append_cls h v : h_cls (append_val h v) = h_cls h. Proof. unfold append_val. destruct (h_val h); reflexivity. Qed.
  Lemma list_input_sim s s' l : forall h h', h_cls h = f -> hsim h h' -> osim (list_input c s h l) (list_input c' s' h' l).
  Proof.
    induction l as [|v l IH]; intros h h' Hc Hh; cbn [list_input]; [split; [reflexivity|]; split; [exact Hh|reflexivity]|].
    rewrite (member_sim h h' v Hc Hh). destruct (list_member c' h' v) as [evs r]. cbv zeta. pose proof Hh as (_ & _ & _ & S4 & _).
    assert (B : line_base h = line_base h') by (unfold line_base; rewrite S4; reflexivity). rewrite B.
    assert (T : map skey (tag s (line_base h') evs) = map skey (tag s' (line_base h') evs)) by (apply tag_sim; reflexivity).
    pose proof (hsim_aux _ _ _ _ Hh T) as A. destruct r as [o|x]; [|split; [exact T|]; split; [exact A|reflexivity]].
    set (h1 := h_add_aux h _) in *. set (h1' := h_add_aux h' _) in *.
    assert (A2 : hsim (match o with Some x => append_val h1 x | None => h1 end) (match o with Some x => append_val h1' x | None => h1' end)) by (destruct o; [apply hsim_append|]; exact A).
    assert (C2 : h_cls (match o with Some x => append_val h1 x | None => h1 end) = f) by (destruct o; [rewrite append_cls|]; exact Hc).
    destruct (IH _ _ C2 A2) as (X1 & X2 & X3). destruct (list_input c s _ l) as [[a1 a2] a3], (list_input c' s' _ l) as [[b1 b2] b3]. cbn [fst snd] in *.
    split; [cbn [fst]; rewrite !map_app, T, X1; reflexivity|]. split; assumption.
  Qed.
  Lemma handle_sim h h' v o o' : h_cls h = f -> hsim h h' -> osim (handle_input c h v o) (handle_input c' h' v o').
  Proof.
    intros Hc Hh. unfold handle_input. rewrite <- (hsim_cls _ _ Hh). destruct (kind_of (h_cls h)).
    - split; [reflexivity|]. split; [apply hsim_raw, Hh|reflexivity].
    - apply list_input_sim; assumption.
    - split; [reflexivity|]. split; [apply hsim_raw, Hh|reflexivity].
    - split; [reflexivity|]. split; [apply hsim_sf, hsim_append, Hh|reflexivity].
    - split; [reflexivity|]. split; [apply hsim_append, Hh|reflexivity].
    - split; [reflexivity|]. split; [exact Hh|reflexivity].
  Qed.
  Lemma pre_sim t h h' : hsim h h' -> hsim (fst (fst (pre_check t h))) (fst (fst (pre_check t h'))) /\ snd (pre_check t h) = snd (pre_check t h').
  Proof.
    intros Hh. unfold pre_check. pose proof Hh as (S1 & S2 & _). rewrite <- S1, <- S2. cbv zeta.
    assert (X : forall b : bool, hsim (fst (fst (if b then (h, [ENote FIELD_NAME_BAD_SYNTAX None [] []], false) else if fa_dep (attrs (h_cls h)) then (h, [ENote FIELD_DEPRECATED (Some (handler_cat h)) [(u "deprecation_ref", VStr (u (handler_ref h)))] []], true) else (h, [], true))))
        (fst (fst (if b then (h', [ENote FIELD_NAME_BAD_SYNTAX None [] []], false) else if fa_dep (attrs (h_cls h)) then (h', [ENote FIELD_DEPRECATED (Some (handler_cat h')) [(u "deprecation_ref", VStr (u (handler_ref h')))] []], true) else (h', [], true))))
        /\ snd (if b then (h, [ENote FIELD_NAME_BAD_SYNTAX None [] []], false) else if fa_dep (attrs (h_cls h)) then (h, [ENote FIELD_DEPRECATED (Some (handler_cat h)) [(u "deprecation_ref", VStr (u (handler_ref h)))] []], true) else (h, [], true))
         = snd (if b then (h', [ENote FIELD_NAME_BAD_SYNTAX None [] []], false) else if fa_dep (attrs (h_cls h)) then (h', [ENote FIELD_DEPRECATED (Some (handler_cat h')) [(u "deprecation_ref", VStr (u (handler_ref h')))] []], true) else (h', [], true)))
      by (intros []; [split; [exact Hh|reflexivity]|]; destruct (fa_dep _); (split; [exact Hh|reflexivity])).
    destruct t, (fa_req (attrs (h_cls h))), (fa_resp (attrs (h_cls h))); try apply X; (split; [apply hsim_val, Hh|reflexivity]).
  Qed.
  Lemma pre_cls t h : h_cls (fst (fst (pre_check t h))) = h_cls h.
  Proof.
    unfold pre_check. cbv zeta. generalize (match_dollar (nocase rfc9110_token) (h_wire h)) as b. intros b.
    destruct t, (fa_req (attrs (h_cls h))), (fa_resp (attrs (h_cls h))); try reflexivity; destruct b; try reflexivity; cbn [negb]; destruct (fa_dep (attrs (h_cls h))); reflexivity.
  Qed.
  Lemma feeds_sim l : forall l' h h', h_cls h = f -> hsim h h' -> map fst l = map fst l' -> osim (feeds e V rel h l) (feeds e V' rel h' l').
  Proof.
    induction l as [|[v o] l IH]; intros [|[v' o'] l'] h h' Hc Hh H; try discriminate; cbn [feeds]; [split; [reflexivity|]; split; [exact Hh|reflexivity]|].
    cbn [map fst] in H. injection H as -> H.
    pose proof (taken_id e V rel h v' o) as Id. unfold taken in *. assert (T : m_type V = m_type V') by exact (f_equal (fun x => fst (fst (fst (fst (fst (fst x)))))) HV). rewrite T in *.
    destruct (pre_sim (m_type V') h h' Hh) as [P1 P2]. pose proof (pre_cls (m_type V') h) as P3. destruct (pre_check (m_type V') h) as [[h1 l3] go], (pre_check (m_type V') h') as [[h1' l3'] go']. cbn [fst snd] in *. subst go'.
    assert (K : forall h2 h2' l4 l4', h_cls h2 = f -> hsim h2 h2' -> map skey l4 = map skey l4' ->
      osim (let '(l5, h3, r') := feeds e V rel h2 l in (l4 ++ l5, h3, r')) (let '(l5, h3, r') := feeds e V' rel h2' l' in (l4' ++ l5, h3, r'))).
    { intros h2 h2' l4 l4' C2 S2 E4. destruct (IH l' h2 h2' C2 S2 H) as (X1 & X2 & X3). destruct (feeds e V rel h2 l) as [[a1 a2] a3], (feeds e V' rel h2' l') as [[b1 b2] b3]. cbn [fst snd] in *.
      split; [cbn [fst]; rewrite !map_app, E4, X1; reflexivity|]. split; assumption. }
    destruct go; [|apply K; [exact (eq_trans P3 Hc)|exact P1|reflexivity]].
    destruct (handle_sim h1 h1' v' o o' (eq_trans P3 Hc) P1) as (X1 & X2 & X3). unfold c, c' in *.
    destruct (handle_input (mkCx e V rel) h1 v' o) as [[l4 h2] r], (handle_input (mkCx e V' rel) h1' v' o') as [[l4' h2'] r']. cbn [fst snd] in *. subst r'.
    destruct r as [[]|x]; [|split; [exact X1|]; split; [exact X2|reflexivity]]. apply K; [|exact X2|exact X1]. destruct Id as [-> _]. exact Hc.
  Qed.
End Sim.

Definition titled (f : fname) : bool := match fa_canon (attrs f) with Some _ => true | None => false end && match f with F__deprecated => false | _ => true end.
Lemma new_sim f n n' : titled f = true -> find_class n = f -> lower n = lower n' -> hsim (new_handler n) (new_handler n').
Proof.
  intros A Hc Hn. assert (Hc' : find_class n' = f) by (rewrite <- Hc; apply find_class_case; congruence).
  apply andb_prop in A as [A1 A2].
  unfold hsim, new_handler. cbn [Types.h_cls Types.h_wire Types.h_norm Types.h_canon Types.h_val Types.h_raw Types.h_sf Types.h_aux]. rewrite Hc, Hc', !match_tok.
  split; [reflexivity|]. split; [apply tok_strip_case, Hn|]. split; [rewrite <- !strip_lower, Hn; reflexivity|].
  split; [|repeat split]. destruct (fa_canon (attrs f)); [|discriminate A1]. destruct f; try reflexivity; discriminate A2.
Qed.
Lemma field_run_sim f e rel tr m m2 k raws raws2 a a' b b' : titled f = true -> find_class k = f -> looks_around f = false -> noisy f = false ->
  front m = front m2 -> values k raws = values k raws2 -> field_run e rel tr m k raws a a' -> field_run e rel tr m2 k raws2 b b' ->
  map skey a = map skey b /\ map skey a' = map skey b'.
Proof.
  intros Hf Hk Hl Hn HF HV R1 R2. unfold field_run in *. rewrite a_line_values in R1, R2. rewrite <- HV in R2. destruct (nonempty (values k raws)); [|destruct R1 as [-> ->], R2 as [-> ->]; split; reflexivity].
  destruct R1 as (h & mi & h' & Fd & Ek & _ & St & Ff). destruct R2 as (h2 & mi2 & h2' & Fd2 & Ek2 & _ & St2 & Ff2).
  set (n := first_name k raws) in *. set (n2 := first_name k raws2) in *.
  assert (Hc : find_class n = f) by (rewrite <- Hk, Ek; symmetry; apply find_class_lower).
  pose proof (new_sim f n n2 Hf Hc (eq_trans (eq_sym Ek) Ek2)) as S0.
  pose proof (feeds_sim f e rel (still m) (still m2) Hn HF (lines_of k (m_type m) raws) (lines_of k (m_type m2) raws2) (new_handler n) (new_handler n2) Hc S0) as FS.
  rewrite !lines_values, !values_eq in FS. specialize (FS HV). rewrite Fd, Fd2 in FS. destruct FS as (E1 & S1 & _). cbn [fst snd] in E1, S1.
  split; [exact E1|].
  assert (Hi : ident any (lower n, new_handler n)) by (exists n; split; [exact I|split; [reflexivity|apply same_id_refl]]).
  destruct (feeds_got e (still m) rel n _ _ _ _ Hi Fd) as [Hid _]. assert (Hch : h_cls h = f) by (destruct Hid as [-> _]; exact Hc).
  assert (HF2 : front mi = front mi2) by (rewrite (front_of_still _ _ St), (front_of_still _ _ St2); exact HF).
  pose proof (finish_sim f e rel mi mi2 Hl Hn HF2 (subject_of k) (sec_base tr h) h h2 Hch S1) as FF.
  assert (B : sec_base tr h = sec_base tr h2) by (unfold sec_base; destruct S1 as (_ & _ & _ & -> & _); reflexivity).
  rewrite Ff, B, Ff2 in FF. destruct FF as (E2 & _). exact E2.
Qed.

(** A field that minds its own business: it has its own module in
    field/parsers; it does not look at other fields while it is parsed and
    evaluated, nor afterwards (post_check); and no other name leads to it. *)
Definition alone (f : fname) : bool :=
  existsb (fname_eqb f) module_fields && negb (looks_around f) && negb (noisy f) && negb (has_post f) && titled f && match nicknames f with [] => true | _ => false end.
Lemma alone_mine : forallb (fun f => if alone f then mine_b (from_module f) f && quiet_b (from_module f) else true) module_fields = true.
Proof. vm_compute. reflexivity. Qed.
Lemma sel_anon P ns : map anon (sel P ns) = sel P (map anon ns).
Proof. induction ns as [|n ns IH]; [reflexivity|]. cbn [map sel filter] in *. change (n_cls (anon n)) with (n_cls n). destruct (P (n_cls n)); cbn [map]; [f_equal|]; apply IH. Qed.
(** The fields whose notes may depend on other fields: date on Age,
    last_modified on Date, content_length on Transfer-Encoding,
    strict_transport_security on the notes so far, the report-only fields and
    content_security_policy on their counterparts; accept_ch,
    available_dictionary, content_encoding, nel and the cross-origin policies
    have a post_check; the notes of connectiox, cteonnt_length and tcn name
    the field as the line spells it, and from_field is reached by two names. *)
Definition social : list fname :=
  [F_accept_ch; F_available_dictionary; F_connectiox; F_content_encoding; F_content_length; F_content_security_policy; F_content_security_policy_report_only;
   F_cross_origin_embedder_policy; F_cross_origin_embedder_policy_report_only; F_cross_origin_opener_policy; F_cross_origin_opener_policy_report_only; F_cteonnt_length; F_date; F_from_field;
   F_last_modified; F_nel; F_strict_transport_security; F_tcn].
Lemma not_alone : forallb (fun f => Bool.eqb (alone f) (negb (existsb (fname_eqb f) social))) module_fields = true.
Proof. vm_compute. reflexivity. Qed.
Lemma unsocial f : In f module_fields -> ~ In f social -> alone f = true.
Proof.
  intros H N. pose proof not_alone as A. rewrite forallb_forall in A. specialize (A f H). apply Bool.eqb_prop in A. rewrite A. apply negb_true_iff.
  destruct (existsb (fname_eqb f) social) eqn:E; [|reflexivity]. apply existsb_exists in E as (g & Hg & Eg). apply fname_eqb_eq in Eg. subst g. contradiction.
Qed.
Theorem C33_notes : forall e rel top h1 c1 x1 t1 h2 c2 x2 t2 nc head start base t m1 r1 m2 r2 k,
  lint e rel top h1 c1 x1 t1 (new_linter t start nc head base) = (m1, r1, Ok tt) ->
  lint e rel top h2 c2 x2 t2 (new_linter t start nc head base) = (m2, r2, Ok tt) ->
  In (find_class k) module_fields -> ~ In (find_class k) social ->
  hyphened k h1 -> hyphened k t1 -> hyphened k h2 -> hyphened k t2 ->
  values k h1 = values k h2 -> values k t1 = values k t2 ->
  map anon (filter (fun n => from_module (find_class k) (n_cls n)) (m_notes m1)) = map anon (filter (fun n => from_module (find_class k) (n_cls n)) (m_notes m2)).
Proof.
  intros e rel top h1 c1 x1 t1 h2 c2 x2 t2 nc head start base t m1 r1 m2 r2 k E1 E2 Hin Hns Y1 Y2 Y3 Y4 V1 V2.
  pose proof (unsocial _ Hin Hns) as A.
  pose proof alone_mine as M. rewrite forallb_forall in M.
  pose proof A as A0. unfold alone in A0. apply andb_prop in A0 as [A0 A5]. apply andb_prop in A0 as [A0 A6]. apply andb_prop in A0 as [A0 A4]. apply andb_prop in A0 as [A0 A3]. apply andb_prop in A0 as [A1 A2].
  apply negb_true_iff in A2, A3, A4. apply existsb_exists in A1 as (g & Hg & Eg). apply fname_eqb_eq in Eg. subst g.
  assert (Hnick : nicknames (find_class k) = []) by (destruct (nicknames _); [reflexivity|discriminate A5]).
  specialize (M _ Hg). rewrite A in M. apply andb_prop in M as [M1 M2]. apply mine_b_ok in M1. apply quiet_b_ok in M2.
  set (f := find_class k) in *. set (P := from_module f) in *.
  destruct (lint_own_top P f k _ _ _ _ _ _ _ _ _ _ _ _ _ _ E1 M1 M2 (or_introl A4) eq_refl (hyphened_spelled f k _ Hg Hnick eq_refl Y1) (hyphened_spelled f k _ Hg Hnick eq_refl Y2))
    as (mh & mt & a & a' & b & b' & _ & _ & _ & _ & F1 & F2 & R1 & R2 & N).
  destruct (lint_own_top P f k _ _ _ _ _ _ _ _ _ _ _ _ _ _ E2 M1 M2 (or_introl A4) eq_refl (hyphened_spelled f k _ Hg Hnick eq_refl Y3) (hyphened_spelled f k _ Hg Hnick eq_refl Y4))
    as (mh2 & mt2 & a2 & a2' & b2 & b2' & _ & _ & _ & _ & F3 & F4 & R3 & R4 & N').
  destruct (field_run_sim f e rel false mh mh2 k h1 h2 a a' a2 a2' A6 eq_refl A2 A3 (eq_trans F1 (eq_sym F3)) V1 R1 R3) as [K1 K2].
  destruct (field_run_sim f e rel true mt mt2 k t1 t2 b b' b2 b2' A6 eq_refl A2 A3 (eq_trans F2 (eq_sym F4)) V2 R2 R4) as [K3 K4].
  fold (sel P (m_notes m1)). fold (sel P (m_notes m2)). rewrite N, N', !map_app, !sel_anon.
  rewrite (emit_sim t a a2 [] [] eq_refl K1), (emit_sim t a' a2' [] [] eq_refl K2), (emit_sim t b b2 [] [] eq_refl K3), (emit_sim t b' b2' [] [] eq_refl K4). reflexivity.
Qed.
Print Assumptions C33_notes.

(** ** The general notes: those of the classes in [general], about lines and fields of any name *)
(** The lines in another order, those of one field in the same. *)
Definition reordered (l l' : list rawline) : Prop :=
  Permutation l l' /\ forall k, filter (fun r => str_eqb (key_of r) k) l = filter (fun r => str_eqb (key_of r) k) l'.
Lemma reordered_values l l' k : reordered l l' -> values k l = values k l'.
Proof. intros [_ H]. unfold values. rewrite H. reflexivity. Qed.
Definition line_classes (t : mtype) (r : rawline) : list nid := map fst (line_report t (r, 0%nat)).
Lemma about_fst s l : map fst (about s l) = l.
Proof. unfold about. rewrite map_map. apply map_id. Qed.
Lemma line_classes_at t r o : map fst (line_report t (r, o)) = line_classes t r.
Proof.
  unfold line_classes, line_report. rewrite !map_app, !about_fst. f_equal. destruct (accepted _ _); [|reflexivity]. rewrite !map_app, !about_fst. f_equal.
  unfold input_report. destruct (kind_of _); try reflexivity. generalize (split_list_field (raw_value r)). intros l.
  induction l as [|x l IH]; [reflexivity|]. cbn [flat_map]. rewrite !map_app, !about_fst, IH. reflexivity.
Qed.
Lemma lines_classes t raws : forall o, map fst (flat_map (line_report t) (placed t o raws)) = flat_map (line_classes t) raws.
Proof. induction raws as [|r raws IH]; intros o; [reflexivity|]. cbn [placed flat_map]. rewrite map_app, line_classes_at, IH. reflexivity. Qed.
Lemma sum_perm l l' : Permutation l l' -> sum_sizes l = sum_sizes l'.
Proof.
  intros H. rewrite (size_eq l), (size_eq l'). induction H as [|x l l' H IH|x y l|a b c H1 IH1 H2 IH2]; unfold total_size in *; cbn [fold_right] in *; [reflexivity|rewrite IH; reflexivity|rewrite !N.add_assoc; f_equal; apply N.add_comm|congruence].
Qed.
Lemma broken_at f l : forall l', map fst l = map fst l' -> map fst (broken_report f l) = map fst (broken_report f l').
Proof.
  induction l as [|[v o] l IH]; intros [|[v' o'] l'] H; try discriminate; [reflexivity|]. cbn [map fst] in H. injection H as -> H. unfold broken_report in *. cbn [flat_map fst snd].
  rewrite !map_app, !about_fst. f_equal. apply IH, H.
Qed.
Lemma field_at e t k l l' : map fst l = map fst l' -> map fst (field_report e t k l) = map fst (field_report e t k l').
Proof.
  intros H. unfold field_report. destruct (accepted t k); [|reflexivity]. destruct (kind_of _); rewrite ?about_fst, ?H; try reflexivity; [|apply broken_at, H].
  unfold singleton_report. destruct l as [|[v o] l], l' as [|[v' o'] l']; try discriminate; [reflexivity|]. cbn [map fst] in H. injection H as -> H. f_equal.
  destruct l, l'; try discriminate; reflexivity.
Qed.
Lemma seen_in raws : forall ks k, In k (fold_left seen raws ks) <-> In k ks \/ exists r, In r raws /\ raw_key r = k.
Proof.
  induction raws as [|r raws IH]; intros ks k; cbn [fold_left]; [split; [auto|intros [H|(r & [] & _)]; exact H]|]. rewrite IH. unfold seen.
  assert (X : In k (if str_in (raw_key r) ks then ks else ks ++ [raw_key r]) <-> In k ks \/ raw_key r = k).
  { destruct (str_in (raw_key r) ks) eqn:E; [apply str_in_In in E; split; [auto|intros [H|<-]; auto]|]. rewrite in_app_iff. cbn. intuition. }
  rewrite X. split.
  - intros [[H|H]|(r0 & H & E)]; [auto|right; exists r; split; [left; reflexivity|exact H]|right; exists r0; split; [right; exact H|exact E]].
  - intros [H|(r0 & [<-|H] & E)]; [auto|auto|right; exists r0; auto].
Qed.
Lemma seen_nodup raws : forall ks, NoDup ks -> NoDup (fold_left seen raws ks).
Proof.
  induction raws as [|r raws IH]; intros ks H; [exact H|]. cbn [fold_left]. apply IH. unfold seen. destruct (str_in (raw_key r) ks) eqn:E; [exact H|].
  apply (Permutation_NoDup (Permutation_cons_append ks (raw_key r))). constructor; [|exact H]. intros C. apply str_in_In in C. congruence.
Qed.
Lemma seen_perm l l' : Permutation l l' -> Permutation (fields_seen l) (fields_seen l').
Proof.
  intros H. apply NoDup_Permutation; try (apply seen_nodup; constructor). intros k. unfold fields_seen. rewrite !seen_in.
  split; (intros [[]|(r & Hr & E)]; right; exists r; (split; [|exact E])); [apply (Permutation_in r H), Hr|apply (Permutation_in r (Permutation_sym H)), Hr].
Qed.
Lemma map_flat_map {A B D} (f : A -> list B) (g : B -> D) l : map g (flat_map f l) = flat_map (fun x => map g (f x)) l.
Proof. induction l as [|x l IH]; [reflexivity|]. cbn [flat_map]. rewrite map_app, IH. reflexivity. Qed.
Lemma flat_map_perm {A B} (f : A -> list B) l l' : Permutation l l' -> Permutation (flat_map f l) (flat_map f l').
Proof.
  intros H. induction H as [|x l l' H IH|x y l|a b c H1 IH1 H2 IH2]; cbn [flat_map]; [constructor|apply Permutation_app_head, IH| |eapply Permutation_trans; eassumption].
  rewrite !app_assoc. apply Permutation_app_tail, Permutation_app_comm.
Qed.
Lemma report_perm e t tr l l' : reordered l l' -> Permutation (map fst (report_of e t tr l)) (map fst (report_of e t tr l')).
Proof.
  intros R. pose proof R as [Hp _]. unfold report_of. rewrite !map_app, !lines_classes, !map_flat_map. apply Permutation_app; [apply flat_map_perm, Hp|].
  apply Permutation_app; [unfold section_report; rewrite (sum_perm _ _ Hp); apply Permutation_refl|].
  eapply Permutation_trans; [apply flat_map_perm, seen_perm, Hp|]. erewrite flat_map_ext; [apply Permutation_refl|]. intros k. cbv beta. apply field_at.
  rewrite !lines_values, !values_eq. apply reordered_values, R.
Qed.
(** The general classes, of which every one is reported as often as before. *)
Definition general : list nid :=
  [FIELD_NAME_ENCODING; FIELD_VALUE_ENCODING; FIELD_NAME_BAD_SYNTAX; FIELD_DEPRECATED; FIELD_TOO_LARGE; FIELD_SECTION_TOO_LARGE;
   RESPONSE_HDR_IN_REQUEST; REQUEST_HDR_IN_RESPONSE; SINGLE_HEADER_REPEAT; BAD_SYNTAX; BAD_SYNTAX_DETAILED; DUPLICATE_KEY; STRUCTURED_FIELD_PARSE_ERROR; BAD_JSON].
Lemma count_perm (f : nid -> bool) l l' : Permutation l l' -> length (filter f l) = length (filter f l').
Proof. intros H. induction H as [|x l l' H IH|x y l|a b c H1 IH1 H2 IH2]; cbn [filter]; [reflexivity|destruct (f x); cbn [length]; congruence|destruct (f x), (f y); reflexivity|congruence]. Qed.
Theorem C33_general : forall e rel top h1 chunks complete t1 rel2 top2 h2 chunks2 complete2 t2 nc head nc2 head2 start base t m1 r1 m2 r2 c,
  lint e rel top h1 chunks complete t1 (new_linter t start nc head base) = (m1, r1, Ok tt) ->
  lint e rel2 top2 h2 chunks2 complete2 t2 (new_linter t start nc2 head2 base) = (m2, r2, Ok tt) ->
  reordered h1 h2 -> reordered t1 t2 -> In c general ->
  length (filter (fun n => nid_eqb (n_cls n) c) (m_notes m1)) = length (filter (fun n => nid_eqb (n_cls n) c) (m_notes m2)).
Proof.
  intros e rel top h1 chunks complete t1 rel2 top2 h2 chunks2 complete2 t2 nc head nc2 head2 start base t m1 r1 m2 r2 c E1 E2 R1 R2 Hc.
  assert (Fc : framework c = true) by (revert c Hc; apply Forall_forall; repeat constructor).
  assert (X : forall ns, length (filter (fun n => nid_eqb (n_cls n) c) ns) = length (filter (fun n => nid_eqb n c) (map fst (fbriefs ns)))).
  { intros ns. unfold fbriefs. rewrite map_map. change (fun x : note => fst (brief x)) with n_cls. induction ns as [|n ns IH]; [reflexivity|]. cbn [filter sel] in *.
    destruct (nid_eqb (n_cls n) c) eqn:En; [apply nid_eqb_eq in En; rewrite En, Fc; cbn [map filter]; rewrite En; replace (nid_eqb c c) with true by (symmetry; apply nid_eqb_eq; reflexivity); cbn [length]; f_equal; exact IH|].
    destruct (framework (n_cls n)); [|exact IH]. cbn [map filter]. rewrite En. exact IH. }
  rewrite !X, (lint_report _ _ _ _ _ _ _ _ _ _ _ _ _ _ E1), (lint_report _ _ _ _ _ _ _ _ _ _ _ _ _ _ E2), !map_app. apply count_perm, Permutation_app; apply report_perm; assumption.
Qed.
Print Assumptions C33_general.
(** The general classes are those the framework itself reports. *)
Lemma general_all c : framework c = true <-> In c general.
Proof. split; [|revert c; apply Forall_forall; repeat constructor]. destruct c; intros H; vm_compute in H; try discriminate H; vm_compute; tauto. Qed.
