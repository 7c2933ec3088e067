(** * Two runs that differ only in the order sets are iterated in *)
From Coq Require Import Permutation.
From Verif Require Import PyStr Regex Grammar NoteTable Note PyLib Utils FieldAttrs Types Fields1 Fields2 Fields3 Framework Checks Message
  RankSpec EvLogic NoteLemmas FrameLemmas PassParse PassSF PassFrame Session.
Open Scope N_scope.

(** ** Which events add a sub-note to an earlier note *)
Definition noisy (n : nid) : bool := existsb (nid_eqb n) unordered.
Definition quiet_kid (e : ev) : Prop := match e with EKid p n _ => noisy p = false /\ noisy n = false | _ => True end.
Lemma own_csp f n : own f CONTENT_SECURITY_POLICY = true -> own f n = true -> noisy n = false.
Proof.
  intros Hf Hn. destruct (noisy n) eqn:E; [|reflexivity]. exfalso. unfold noisy in E. apply existsb_exists in E as (n' & Hi & E). apply nid_eqb_eq in E. subst n'.
  cbn [In] in Hi. destruct f; try (vm_compute in Hf; discriminate Hf); destruct Hi as [<-|[<-|[<-|[<-|[<-|[]]]]]]; vm_compute in Hn; discriminate Hn.
Qed.
Definition qk {A} (m : W A) : Prop := Forall quiet_kid (fst m).
Lemma qk_ret {A} (x : A) : qk (ret x). Proof. constructor. Qed.
Lemma qk_lift {A} (x : res A) : qk (lift x). Proof. constructor. Qed.
Lemma qk_raise {A} x : qk (@raise A x). Proof. constructor. Qed.
Lemma qk_bind {A B} (m : W A) (k : A -> W B) : qk m -> (forall x, qk (k x)) -> qk (bind m k).
Proof.
  intros Hm Hk. unfold qk, bind in *. destruct m as [l [x|x]]; [|exact Hm]. specialize (Hk x). destruct (k x) as [l2 r2]. apply Forall_app; split; assumption.
Qed.
Lemma qk_when b m : qk m -> qk (when b m). Proof. destruct b; [auto|intros; constructor]. Qed.
Lemma qk_tell1 e : quiet_kid e -> qk (tell [e]). Proof. intros; constructor; [assumption|constructor]. Qed.
Lemma qk_tell l : Forall quiet_kid l -> qk (tell l). Proof. auto. Qed.
Lemma qk_note n vrs : qk (add_note n vrs). Proof. apply qk_tell1. exact I. Qed.
Lemma qk_map {A B} (f : A -> W B) l : (forall x, qk (f x)) -> qk (mapW f l).
Proof. intros H. induction l as [|x l IH]; [apply qk_ret|]. cbn [mapW]. apply qk_bind; [apply H|]. intros. apply qk_bind; [exact IH|]. intros. apply qk_ret. Qed.
Lemma qk_iter {A} (f : A -> W unit) l : (forall x, qk (f x)) -> qk (iterW f l).
Proof. intros H. apply qk_bind; [apply qk_map, H|intros; apply qk_ret]. Qed.
Lemma qk_fold {A S} (f : S -> A -> W S) l : (forall s x, qk (f s x)) -> forall s, qk (foldW f l s).
Proof. intros H. induction l as [|x l IH]; intros s; [apply qk_ret|]. cbn [foldW]. apply qk_bind; [apply H|exact IH]. Qed.
Lemma qk_catch {A} (m h : W A) : qk m -> qk h -> qk (catch_value m h).
Proof. intros Hm Hh. unfold qk, catch_value in *. destruct m as [l r]. destruct r as [x|x]; [exact Hm|]. destruct (is_ValueError x); [|exact Hm]. destruct h as [l' r']. apply Forall_app; split; assumption. Qed.
Lemma qk_msg s n v l : qk (tell (EMsg s n v :: l)) <-> qk (tell l).
Proof. split; intros H; [inversion H as [|? ? H1 H2]; exact H2|constructor; [exact I|exact H]]. Qed.
Ltac qkt := repeat first [apply qk_ret|apply qk_lift|apply qk_raise|apply qk_note|apply qk_when|apply qk_tell1; exact I|apply qk_iter; intros|apply qk_map; intros|apply qk_fold; intros|apply qk_catch|apply qk_bind; [|intros]
  |match goal with |- qk (if ?b then _ else _) => destruct b end
  |match goal with |- qk (match ?b with _ => _ end) => destruct b end
  |progress cbv zeta].
Lemma parse_qk f c h v : qk (parse_of f c h v).
Proof.
  destruct (parse_pass f c h v) as [H _]. unfold qk. eapply Forall_impl; [|exact H]. intros e He. destruct e; try exact I.
  destruct He as (H1 & H2 & H3 & H4 & ->). split; [reflexivity|apply (own_csp f); assumption].
Qed.
Ltac headof t := lazymatch t with ?f _ => headof f | _ => t end.
Ltac qku := match goal with |- qk ?t => let h := headof t in is_const h;
  lazymatch h with @bind => fail | @ret => fail | @tell => fail | _ => unfold h end end.
Ltac qka := repeat (progress qkt || qku).
Lemma eval_qk f c h : qk (eval_of f c h).
Proof.
  destruct f; cbn [eval_of]; try apply qk_ret; unfold keep; try (apply qk_bind; [|intros; apply qk_ret]); qka.
  apply qk_tell, Forall_forall. intros y Hx. apply in_flat_map in Hx as ([s e] & Hse & Hx).
  cbn [snd fst] in Hx. destruct e; cbn in Hx; try contradiction. destruct Hx as [<-|[]]. exact I.
Qed.
Lemma item_qk f c h v p : qk (eval_item f c h v p).
Proof. destruct f; cbn [eval_item]; try apply qk_ret; unfold keep; (apply qk_bind; [|intros; apply qk_ret]); qka. Qed.
Lemma list_qk f c h v : qk (eval_list f c h v).
Proof. destruct f; cbn [eval_list]; try apply qk_ret; unfold keep; try (apply qk_bind; [|intros; apply qk_ret]); qka. Qed.
Lemma dict_qk f c h v : qk (eval_dict f c h v).
Proof. destruct f; cbn [eval_dict]; try apply qk_ret; unfold keep; try (apply qk_bind; [|intros; apply qk_ret]); qka. Qed.
Lemma resolve_qk eps valid clean l : forall idx, qk (nel_resolve eps valid clean idx l).
Proof. induction l as [|v l IH]; intros idx; cbn [nel_resolve]; [apply qk_ret|]. apply qk_bind; [qkt|]. intros. apply qk_bind; [apply IH|]. intros. apply qk_ret. Qed.
Lemma post_qk f c h : qk (post_of f c h).
Proof.
  destruct f; cbn [post_of]; try apply qk_ret;
    match goal with |- qk (pc_nel _ _) => idtac | |- qk (pc_csp _ _ _) => idtac | _ => solve [qka] end.
  1,2: unfold pc_csp; qkt; apply qk_tell1; split; reflexivity.
  unfold pc_nel. repeat first [apply resolve_qk | progress qkt]; qka.
Qed.

(** ** Relations *)
Definition noisy_ev (e : ev) : bool := match e with ENote n _ _ _ | EMsg _ n _ => noisy n | _ => false end.
Definition calm_ev (e : ev) : bool := negb (noisy_ev e).
Definition ev_alike (e e' : ev) : Prop :=
  e' = e \/ exists cat d l l', Permutation l l'
    /\ e = ENote CC_CONFLICTING cat [vs "directive" d; vv "conflicts" (markdown_list l bt)] []
    /\ e' = ENote CC_CONFLICTING cat [vs "directive" d; vv "conflicts" (markdown_list l' bt)] [].
Definition erel (l l' : list ev) : Prop := filter calm_ev l' = filter calm_ev l /\ rearranged ev_alike (filter noisy_ev l) (filter noisy_ev l').
Definition sev_alike (s s' : sev) : Prop := fst s' = fst s /\ ev_alike (snd s) (snd s').
Definition s_noisy (s : sev) : bool := noisy_ev (snd s).
Definition s_calm (s : sev) : bool := negb (s_noisy s).
Definition srel (l l' : list sev) : Prop := filter s_calm l' = filter s_calm l /\ rearranged sev_alike (filter s_noisy l) (filter s_noisy l').

Lemma rearranged_refl {A} (R : A -> A -> Prop) l : (forall x, R x x) -> rearranged R l l.
Proof. intros H. exists l. split; [reflexivity|]. induction l; constructor; auto. Qed.
Lemma rearranged_perm {A} (R : A -> A -> Prop) l l' : (forall x, R x x) -> Permutation l l' -> rearranged R l l'.
Proof. intros H P. exists l'. split; [exact P|]. clear P. induction l'; constructor; auto. Qed.
Lemma rearranged_app {A} (R : A -> A -> Prop) a a' b b' : rearranged R a a' -> rearranged R b b' -> rearranged R (a ++ b) (a' ++ b').
Proof. intros (x & H1 & H2) (y & H3 & H4). exists (x ++ y). split; [apply Permutation_app; assumption|apply Forall2_app; assumption]. Qed.
Lemma rearranged_map {A B} (R : A -> A -> Prop) (S : B -> B -> Prop) (f : A -> B) a a' : (forall x y, R x y -> S (f x) (f y)) ->
  rearranged R a a' -> rearranged S (map f a) (map f a').
Proof. intros H (x & H1 & H2). exists (map f x). split; [apply Permutation_map, H1|]. clear H1. induction H2; cbn; constructor; auto. Qed.
Lemma ev_alike_refl e : ev_alike e e. Proof. left; reflexivity. Qed.
Lemma sev_alike_refl e : sev_alike e e. Proof. split; [reflexivity|left; reflexivity]. Qed.
Lemma erel_refl l : erel l l. Proof. split; [reflexivity|apply rearranged_refl, ev_alike_refl]. Qed.
Lemma srel_refl l : srel l l. Proof. split; [reflexivity|apply rearranged_refl, sev_alike_refl]. Qed.
Lemma erel_app a a' b b' : erel a a' -> erel b b' -> erel (a ++ b) (a' ++ b').
Proof. intros [H1 H2] [H3 H4]. split; rewrite !filter_app; [congruence|apply rearranged_app; assumption]. Qed.
Lemma srel_app a a' b b' : srel a a' -> srel b b' -> srel (a ++ b) (a' ++ b').
Proof. intros [H1 H2] [H3 H4]. split; rewrite !filter_app; [congruence|apply rearranged_app; assumption]. Qed.
Lemma filter_tag (P : ev -> bool) subj base l : filter (fun s : sev => P (snd s)) (tag subj base l) = tag subj base (filter P l).
Proof. induction l as [|e l IH]; [reflexivity|]. cbn [tag map filter snd]. change (map (fun e => (subj, base, e)) l) with (tag subj base l). rewrite IH. destruct (P e); reflexivity. Qed.
Lemma tag_srel subj base l l' : erel l l' -> srel (tag subj base l) (tag subj base l').
Proof.
  intros [H1 H2]. split.
  - change s_calm with (fun s : sev => calm_ev (snd s)). rewrite !filter_tag, H1. reflexivity.
  - change s_noisy with (fun s : sev => noisy_ev (snd s)). rewrite !filter_tag. unfold tag. apply (rearranged_map ev_alike); [|exact H2].
    intros x y H. split; [reflexivity|exact H].
Qed.
Lemma aux_calm l : aux_of l = aux_of (filter s_calm l).
Proof.
  induction l as [|[[subj base] e] l IH]; [reflexivity|]. cbn [filter]. unfold s_calm at 1, s_noisy. cbn [snd].
  unfold aux_of in *. cbn [flat_map]. rewrite IH. destruct e; cbn [noisy_ev negb]; try reflexivity; destruct (noisy _); reflexivity.
Qed.
Lemma srel_aux l l' : srel l l' -> aux_of l' = aux_of l.
Proof. intros [H _]. rewrite (aux_calm l), (aux_calm l'), H. reflexivity. Qed.

(** ** Emitting *)
Definition sqk (s : sev) : Prop := quiet_kid (snd s) /\ NoDup (keys (snd (fst s))).
Definition note_of (t : mtype) (s : sev) : note :=
  match s with
  | (subj, base, ENote cls cat vrs kids) => mk_note t subj cls cat (dupdate base vrs) kids
  | (_, _, EMsg subj cls vrs) => mk_note t subj cls None vrs []
  | _ => mk_note t [] CL_CORRECT None [] []
  end.
Lemma emit_noisy t l : forall ns, Forall sqk l -> sel noisy (emit t ns l) = sel noisy ns ++ map (note_of t) (filter s_noisy l).
Proof.
  induction l as [|[[subj base] e] l IH]; intros ns H; [rewrite app_nil_r; reflexivity|]. inversion H as [|? ? H1 H2]; subst.
  change (emit t ns ((subj, base, e) :: l)) with (emit t (emit_one t ns (subj, base, e)) l). rewrite IH by exact H2. clear IH.
  cbn [filter]. unfold s_noisy at 2. cbn [snd]. destruct H1 as [H1 _]. cbn [snd] in H1.
  destruct e as [n cat vrs kids|s n vrs|n c vrs|v|p n vrs]; cbn [emit_one noisy_ev quiet_kid] in *; try reflexivity.
  - rewrite sel_app, <- app_assoc. f_equal. unfold sel. cbn [filter]. change (n_cls (mk_note t subj n cat (dupdate base vrs) kids)) with n. destruct (noisy n); reflexivity.
  - rewrite sel_app, <- app_assoc. f_equal. unfold sel. cbn [filter]. change (n_cls (mk_note t s n None vrs [])) with n. destruct (noisy n); reflexivity.
  - destruct H1 as [Hp Hn]. f_equal. destruct (attach t p n vrs ns) as [ns'|] eqn:E; [apply (attach_sel noisy t p n vrs); auto|].
    rewrite sel_app. unfold sel at 2. cbn [filter]. change (n_cls (mk_note t subj n None (dupdate base vrs) [])) with n. rewrite Hn. apply app_nil_r.
Qed.
Definition calm_cls (n : nid) : bool := negb (noisy n).
Lemma sel_cons P x l : sel P (x :: l) = if P (n_cls x) then x :: sel P l else sel P l.
Proof. reflexivity. Qed.
Lemma attach_calm t p n vrs ns : noisy p = false -> attach t p n vrs (sel calm_cls ns) = option_map (sel calm_cls) (attach t p n vrs ns).
Proof.
  intros Hp. induction ns as [|x ns IH]; [reflexivity|]. rewrite sel_cons. cbn [attach]. destruct (nid_eqb (n_cls x) p) eqn:E.
  - assert (C : calm_cls (n_cls x) = true) by (apply nid_eqb_eq in E; unfold calm_cls; rewrite E, Hp; reflexivity). rewrite C. cbn [attach option_map]. rewrite E, sel_cons.
    cbn [n_cls]. rewrite C. reflexivity.
  - destruct (calm_cls (n_cls x)) eqn:Ec.
    + cbn [attach]. rewrite E, IH. destruct (attach t p n vrs ns) as [r|]; [|reflexivity]. cbn [option_map]. rewrite sel_cons, Ec. reflexivity.
    + rewrite IH. destruct (attach t p n vrs ns) as [r|]; [|reflexivity]. cbn [option_map]. rewrite sel_cons, Ec. reflexivity.
Qed.
Lemma emit_calm t l : forall ns, Forall sqk l -> sel calm_cls (emit t ns l) = emit t (sel calm_cls ns) (filter s_calm l).
Proof.
  induction l as [|[[subj base] e] l IH]; intros ns H; [reflexivity|]. inversion H as [|? ? H1 H2]; subst.
  change (emit t ns ((subj, base, e) :: l)) with (emit t (emit_one t ns (subj, base, e)) l). rewrite IH by exact H2. clear IH.
  cbn [filter]. unfold s_calm at 2, s_noisy. cbn [snd]. destruct H1 as [H1 _]. cbn [snd] in H1.
  destruct e as [n cat vrs kids|s n vrs|n c vrs|v|p n vrs]; cbn [emit_one noisy_ev quiet_kid negb] in *; try reflexivity.
  - rewrite sel_app. unfold sel at 2. cbn [filter]. change (n_cls (mk_note t subj n cat (dupdate base vrs) kids)) with n. unfold calm_cls at 2.
    destruct (noisy n); cbn [negb]; [rewrite app_nil_r; reflexivity|reflexivity].
  - rewrite sel_app. unfold sel at 2. cbn [filter]. change (n_cls (mk_note t s n None vrs [])) with n. unfold calm_cls at 2.
    destruct (noisy n); cbn [negb]; [rewrite app_nil_r; reflexivity|reflexivity].
  - destruct H1 as [Hp Hn]. match goal with |- _ = emit t (sel calm_cls ns) (?x :: ?y) => change (emit t (sel calm_cls ns) (x :: y)) with (emit t (emit_one t (sel calm_cls ns) x) y) end.
    f_equal. cbn [emit_one]. rewrite attach_calm by exact Hp. destruct (attach t p n vrs ns) as [ns'|]; [reflexivity|]. cbn [option_map].
    rewrite sel_app. f_equal. unfold sel. cbn [filter]. change (n_cls (mk_note t subj n None (dupdate base vrs) [])) with n. unfold calm_cls. rewrite Hn. reflexivity.
Qed.
Lemma dget_vars t k (base vrs : vars) : NoDup (keys base) ->
  dget k (dupdate (default_vars t) (dupdate base vrs)) = match dlast k vrs with Some v => Some v | None => match dget k base with Some v => Some v | None => dget k (default_vars t) end end.
Proof.
  intros H. rewrite dget_dupdate, dlast_nodup by (apply dupdate_NoDup, H). rewrite dget_dupdate. destruct (dlast k vrs); [reflexivity|]. reflexivity.
Qed.
Lemma note_of_alike t s s' : sqk s -> sev_alike s s' -> same_note_but_order (note_of t s) (note_of t s').
Proof.
  destruct s as [[subj base] e], s' as [[subj' base'] e']. intros [_ N] [H [H'|H']]; cbn [fst snd] in *; injection H as -> ->; [subst e'; left; reflexivity|].
  destruct H' as (cat & d & l & l' & P & -> & ->).
  right. cbn [note_of]. repeat (split; [reflexivity|]). split.
  - intros k Hk. cbn [mk_note n_vars]. rewrite !dget_vars by exact N. unfold dlast. cbn [rev app dget fst snd vs vv].
    destruct (str_eqb k (u "conflicts")) eqn:E; [apply str_eqb_eq in E; contradiction|]. reflexivity.
  - exists l, l'. split; [exact P|]. cbn [mk_note n_vars]. rewrite !dget_vars by exact N. split; reflexivity.
Qed.
Lemma emit_same t ns ns' l l' : Forall sqk l -> Forall sqk l' -> same_notes ns ns' -> srel l l' -> same_notes (emit t ns l) (emit t ns' l').
Proof.
  intros K K' [H1 H2] [H3 H4]. split.
  - change ordered_notes with (sel calm_cls) in *. rewrite !emit_calm by assumption. rewrite H1, H3. reflexivity.
  - change unordered_notes with (sel noisy) in *. rewrite !emit_noisy by assumption. apply rearranged_app; [exact H2|].
    destruct H4 as (l0 & P & F). exists (map (note_of t) l0). split; [apply Permutation_map, P|].
    assert (K0 : Forall sqk l0). { eapply Permutation_Forall; [exact P|]. apply Forall_forall. intros s Hs. apply filter_In in Hs. rewrite Forall_forall in K. apply K, Hs. }
    clear P. revert K0. induction F as [|x y a b Hx F IH]; intros K0; [constructor|]. inversion K0; subst. constructor; [apply note_of_alike; assumption|apply IH; assumption].
Qed.

(** ** Field code *)
Definition eq_cx (c c' : cx) : Prop :=
  exists order ns, cx_env c' = with_order order (cx_env c) /\ cx_msg c' = m_set_notes ns (cx_msg c) /\ same_notes (m_notes (cx_msg c)) ns
    /\ same_related (cx_rel c) (cx_rel c').
(** A context by its parts. *)
Lemma eq_cx_inv (P : cx -> cx -> Prop) :
  (forall order e ns m, same_notes (m_notes m) ns -> P (mkCx e m None) (mkCx (with_order order e) (m_set_notes ns m) None)) ->
  (forall order e ns m nr r, same_notes (m_notes m) ns -> P (mkCx e m (Some r)) (mkCx (with_order order e) (m_set_notes ns m) (Some (m_set_notes nr r)))) ->
  forall c c', eq_cx c c' -> P c c'.
Proof.
  intros H1 H2 [e m rel] [e' m' rel'] (order & ns & E1 & E2 & E3 & E4). cbn [cx_env cx_msg cx_rel] in *. subst e' m'.
  destruct rel as [r|], rel' as [r'|]; try contradiction; [|apply H1, E3]. destruct E4 as [-> _]. apply H2, E3.
Qed.
Lemma parse_same f h v c c' : eq_cx c c' -> parse_of f c' h v = parse_of f c h v.
Proof.
  revert c c'. apply (eq_cx_inv (fun c c' => parse_of f c' h v = parse_of f c h v)).
  - intros order e ns m _. destruct m as [[]]; destruct f; reflexivity.
  - intros order e ns m nr r _. destruct m as [[]], r as [[]]; destruct f; reflexivity.
Qed.
Lemma item_same f h b p c c' : eq_cx c c' -> eval_item f c' h b p = eval_item f c h b p.
Proof.
  revert c c'. apply (eq_cx_inv (fun c c' => eval_item f c' h b p = eval_item f c h b p)).
  - intros order e ns m _. destruct m as [[]]; destruct f; reflexivity.
  - intros order e ns m nr r _. destruct m as [[]], r as [[]]; destruct f; reflexivity.
Qed.
Lemma list_same f h l c c' : eq_cx c c' -> eval_list f c' h l = eval_list f c h l.
Proof.
  revert c c'. apply (eq_cx_inv (fun c c' => eval_list f c' h l = eval_list f c h l)).
  - intros order e ns m _. destruct m as [[]]; destruct f; reflexivity.
  - intros order e ns m nr r _. destruct m as [[]], r as [[]]; destruct f; reflexivity.
Qed.
Lemma dict_same f h d c c' : eq_cx c c' -> eval_dict f c' h d = eval_dict f c h d.
Proof.
  revert c c'. apply (eq_cx_inv (fun c c' => eval_dict f c' h d = eval_dict f c h d)).
  - intros order e ns m _. destruct m as [[]]; destruct f; reflexivity.
  - intros order e ns m nr r _. destruct m as [[]], r as [[]]; destruct f; reflexivity.
Qed.
Lemma post_same f h c c' : eq_cx c c' -> post_of f c' h = post_of f c h.
Proof.
  revert c c'. apply (eq_cx_inv (fun c c' => post_of f c' h = post_of f c h)).
  - intros order e ns m _. destruct m as [[]]; destruct f; reflexivity.
  - intros order e ns m nr r _. destruct m as [[]], r as [[]]; destruct f; reflexivity.
Qed.
Definition wrel {A} (w w' : W A) : Prop := erel (fst w) (fst w') /\ snd w' = snd w.
Lemma wrel_refl {A} (w : W A) : wrel w w. Proof. split; [apply erel_refl|reflexivity]. Qed.
Lemma wrel_bind {A B} (m m' : W A) (k k' : A -> W B) : wrel m m' -> (forall x, wrel (k x) (k' x)) -> wrel (bind m k) (bind m' k').
Proof.
  intros [H1 H2] Hk. unfold wrel, bind in *. destruct m as [l r], m' as [l' r']. cbn [fst snd] in *. subst r'. destruct r as [x|x]; [|split; [exact H1|reflexivity]].
  destruct (Hk x) as [K1 K2]. destruct (k x) as [a ra], (k' x) as [b rb]. cbn [fst snd] in *. split; [apply erel_app; assumption|exact K2].
Qed.
Lemma wrel_iter {A} (f : A -> W unit) l l' : Permutation l l' -> (forall x, exists ev, f x = (ev, Ok tt) /\ forallb noisy_ev ev = true) -> wrel (iterW f l) (iterW f l').
Proof.
  intros P H.
  assert (X : forall l, iterW f l = (flat_map (fun x => fst (f x)) l, Ok tt)).
  { intros l0. unfold iterW. assert (Y : exists r, mapW f l0 = (flat_map (fun x => fst (f x)) l0, Ok r)).
    { induction l0 as [|x l0 [r IH]]; [eexists; reflexivity|]. cbn [mapW flat_map]. destruct (H x) as (ev & E & _). rewrite E, IH. cbn. rewrite app_nil_r. eexists. reflexivity. }
    destruct Y as [r ->]. cbn. rewrite app_nil_r. reflexivity. }
  assert (Z : forall l, filter noisy_ev (flat_map (fun x => fst (f x)) l) = flat_map (fun x => fst (f x)) l /\ filter calm_ev (flat_map (fun x => fst (f x)) l) = []).
  { intros l0. assert (F : forallb noisy_ev (flat_map (fun x => fst (f x)) l0) = true).
    { apply forallb_forall. intros y Hy. apply in_flat_map in Hy as (x & _ & Hy). destruct (H x) as (ev & E & N). rewrite E in Hy. rewrite forallb_forall in N. apply N, Hy. }
    induction (flat_map _ l0) as [|y ys IH]; [split; reflexivity|]. cbn [forallb] in F. apply andb_true_iff in F as [F1 F2]. cbn [filter]. unfold calm_ev at 1. rewrite F1. cbn [negb].
    destruct (IH F2) as [I1 I2]. rewrite I1. split; [reflexivity|exact I2]. }
  rewrite !X. split; [|reflexivity]. cbn [fst]. destruct (Z l) as [Z1 Z2], (Z l') as [Z3 Z4]. split; [rewrite Z2, Z4; reflexivity|]. rewrite Z1, Z3.
  apply rearranged_perm; [apply ev_alike_refl|apply Permutation_flat_map, P].
Qed.
(** A set's elements do not depend on the order. *)
Lemma py_set_perm e e' l : Permutation (py_set e l) (py_set e' l).
Proof. apply NoDup_Permutation; [apply py_set_NoDup|apply py_set_NoDup|]. intros x. rewrite !py_set_In. reflexivity. Qed.
Lemma py_set_perm2 e e' l l' : Permutation l l' -> Permutation (py_set e l) (py_set e' l').
Proof. intros P. apply NoDup_Permutation; [apply py_set_NoDup|apply py_set_NoDup|]. intros x. rewrite !py_set_In. split; apply Permutation_in; [exact P|symmetry; exact P]. Qed.
Lemma conflict_same e e' cc tab :
  match first_conflict e cc tab, first_conflict e' cc tab with
  | None, None => True
  | Some (d, l), Some (d', l') => d' = d /\ Permutation l l'
  | _, _ => False
  end.
Proof.
  induction tab as [|[d pot] tab IH]; [exact I|]. cbn [first_conflict]. destruct (str_in d cc); [|exact IH].
  pose proof (py_set_perm e e' (filter (fun x => str_in x pot) cc)) as P.
  destruct (py_set e _) as [|a l], (py_set e' _) as [|a' l']; [exact IH| | |split; [reflexivity|exact P]].
  - apply Permutation_nil in P. discriminate.
  - symmetry in P. apply Permutation_nil in P. discriminate.
Qed.
Lemma noisy_single n vrs : noisy n = true -> exists ev, add_note n vrs = (ev, Ok tt) /\ forallb noisy_ev ev = true.
Proof. intros H. eexists. split; [reflexivity|]. cbn [forallb noisy_ev]. rewrite H. reflexivity. Qed.
Lemma noisy_none : exists ev, ret tt = (ev, Ok tt) /\ forallb noisy_ev ev = true.
Proof. eexists. split; reflexivity. Qed.
Lemma cc_same c c' h : eq_cx c c' -> wrel (ev_cache_control c h) (ev_cache_control c' h).
Proof.
  intros E. destruct E as (order & ns & E1 & E2 & E3 & E4). unfold ev_cache_control.
  assert (T : is_response c' = is_response c) by (unfold is_response; rewrite E2; reflexivity).
  assert (T2 : is_request c' = is_request c) by (unfold is_request; rewrite E2; reflexivity).
  apply wrel_bind; [apply wrel_refl|]. intros ps. cbv zeta. apply wrel_bind.
  - rewrite T. destruct (is_response c); [|apply wrel_refl]. pose proof (conflict_same (cx_env c) (cx_env c') (map fst ps) conflicting_cc) as H.
    destruct (first_conflict (cx_env c) _ _) as [[d l]|], (first_conflict (cx_env c') _ _) as [[d' l']|]; try contradiction; [|apply wrel_refl].
    destruct H as [-> P]. split; [|reflexivity]. split; [reflexivity|]. eexists. split; [reflexivity|]. constructor; [|constructor]. right. exists None, d, l, l'. split; [exact P|split; reflexivity].
  - intros _. apply wrel_bind; [|intros; apply wrel_refl].
    assert (C : forall d, cc_one c' (map fst ps) d = cc_one c (map fst ps) d) by (intros d; unfold cc_one; rewrite T, T2; reflexivity).
    replace (iterW (cc_one c' (map fst ps)) (py_set (cx_env c') (map fst ps))) with (iterW (cc_one c (map fst ps)) (py_set (cx_env c') (map fst ps))).
    + apply wrel_iter; [apply py_set_perm|]. intros d. unfold cc_one. cbv zeta.
      destruct (_ && _); [apply noisy_single; reflexivity|]. destruct (is_response c && _); [apply noisy_single; reflexivity|].
      destruct (_ && _); [apply noisy_single; reflexivity|apply noisy_none].
    + unfold iterW. f_equal. induction (py_set _ _) as [|x l IH]; [reflexivity|]. cbn [mapW]. rewrite C, IH. reflexivity.
Qed.
Lemma language_same c c' h : wrel (ev_content_language c h) (ev_content_language c' h).
Proof.
  unfold ev_content_language. apply wrel_bind; [apply wrel_refl|]. intros l. apply wrel_iter; [apply py_set_perm|]. intros x. apply noisy_single. reflexivity.
Qed.
Lemma filter_perm {A} (f : A -> bool) l l' : Permutation l l' -> Permutation (filter f l) (filter f l').
Proof. induction 1; cbn; try (destruct (f x)); try (destruct (f y)); eauto using perm_nil, perm_skip, perm_swap, perm_trans. Qed.
Lemma related_same c c' : eq_cx c c' -> match related_request c, related_request c' with None, None => True | Some a, Some b => m_headers b = m_headers a | _, _ => False end.
Proof.
  revert c c'. apply eq_cx_inv.
  - intros order e ns m _. destruct m as [[]]; exact I.
  - intros order e ns m nr r _. destruct m as [[]], r as [[]]; cbn; auto.
Qed.
Lemma transfer_same c c' h : eq_cx c c' -> wrel (ev_transfer_encoding c h) (ev_transfer_encoding c' h).
Proof.
  intros E. pose proof (related_same c c' E) as R. unfold ev_transfer_encoding. cbv zeta. apply wrel_bind; [apply wrel_refl|]. intros l.
  set (fs := filter _ (map fst l)). pose proof (py_set_perm (cx_env c) (cx_env c') fs) as P.
  set (k := fun unw : list str => iterW (fun x => add_note TRANSFER_CODING_UNWANTED [vs "coding" x]) unw ;;; when (str_in (u "identity") (map fst l)) (add_note TRANSFER_CODING_IDENTITY [])).
  assert (K : forall a b, Permutation a b -> wrel (k a) (k b)).
  { intros a b Pab. unfold k. apply wrel_bind; [|intros; apply wrel_refl]. apply wrel_iter; [exact Pab|]. intros x. apply noisy_single. reflexivity. }
  assert (RB : forall a, bind (ret a) k = k a) by (intros a; unfold bind, ret; destruct (k a); reflexivity).
  assert (K2 : forall a b, Permutation a b -> wrel (bind (ret a) k) (bind (ret b) k)) by (intros a b Pab; rewrite !RB; apply K, Pab).
  assert (N1 : py_set (cx_env c) fs = [] -> py_set (cx_env c') fs = []) by (intros E0; rewrite E0 in P; apply Permutation_nil, P).
  assert (N2 : py_set (cx_env c') fs = [] -> py_set (cx_env c) fs = []) by (intros E0; rewrite E0 in P; symmetry in P; apply Permutation_nil, P).
  destruct (related_request c) as [r|], (related_request c') as [r'|]; try contradiction.
  2: { destruct (py_set (cx_env c) fs), (py_set (cx_env c') fs); exact (K2 _ _ P). }
  assert (RL : rel_list r' "te" = rel_list r "te") by (unfold rel_list, rel_hdr; rewrite R; reflexivity).
  destruct (py_set (cx_env c) fs) as [|a s], (py_set (cx_env c') fs) as [|a' s'].
  - exact (K2 _ _ P).
  - discriminate (N1 eq_refl).
  - discriminate (N2 eq_refl).
  - rewrite RL. destruct (heads (rel_list r "te")) as [te|x]; [|apply wrel_refl].
    assert (LB : forall (g : list pyval -> W (list str)), bind (lift (Ok te)) g = g te) by (intros g; unfold bind, lift; destruct (g te); reflexivity).
    rewrite !LB. apply K2, py_set_perm2, filter_perm, P.
Qed.
Lemma invalid_same ns ns' : same_notes ns ns' -> existsb (fun n => invalidating (n_cls n)) ns' = existsb (fun n => invalidating (n_cls n)) ns.
Proof.
  intros [H _].
  assert (X : forall l, existsb (fun n => invalidating (n_cls n)) l = existsb (fun n => invalidating (n_cls n)) (ordered_notes l)).
  { clear. induction l as [|n l IH]; [reflexivity|]. unfold ordered_notes. cbn [existsb filter]. fold (ordered_notes l). rewrite IH.
    destruct (negb _) eqn:E; [reflexivity|]. destruct (n_cls n); try reflexivity; vm_compute in E; discriminate E. }
  rewrite (X ns), (X ns'), H. reflexivity.
Qed.
Lemma hsts_same c c' h : eq_cx c c' -> ev_hsts c' h = ev_hsts c h.
Proof.
  revert c c'. apply (eq_cx_inv (fun c c' => ev_hsts c' h = ev_hsts c h)).
  - intros order e ns m H. apply invalid_same in H. unfold ev_hsts. cbn [cx_msg]. change (m_notes (m_set_notes ns m)) with ns. rewrite H. destruct m as [[]]; reflexivity.
  - intros order e ns m nr r H. apply invalid_same in H. unfold ev_hsts. cbn [cx_msg]. change (m_notes (m_set_notes ns m)) with ns. rewrite H. destruct m as [[]]; reflexivity.
Qed.
Lemma eval_others f h c c' : eq_cx c c' -> f <> F_cache_control -> f <> F_content_language -> f <> F_transfer_encoding -> f <> F_strict_transport_security ->
  eval_of f c' h = eval_of f c h.
Proof.
  intros E. revert c c' E. apply (eq_cx_inv (fun c c' => _ -> _ -> _ -> _ -> eval_of f c' h = eval_of f c h)).
  - intros order e ns m _ N1 N2 N3 N4. destruct m as [[]]; destruct f; try contradiction; reflexivity.
  - intros order e ns m nr r _ N1 N2 N3 N4. destruct m as [[]], r as [[]]; destruct f; try contradiction; reflexivity.
Qed.
Lemma eval_same f h c c' : eq_cx c c' -> wrel (eval_of f c h) (eval_of f c' h).
Proof.
  intros E. destruct (fname_eqb f F_cache_control) eqn:N1; [apply fname_eqb_eq in N1; subst; apply wrel_bind; [apply cc_same, E|intros; apply wrel_refl]|].
  destruct (fname_eqb f F_content_language) eqn:N2; [apply fname_eqb_eq in N2; subst; apply wrel_bind; [apply language_same|intros; apply wrel_refl]|].
  destruct (fname_eqb f F_transfer_encoding) eqn:N3; [apply fname_eqb_eq in N3; subst; apply wrel_bind; [apply transfer_same, E|intros; apply wrel_refl]|].
  destruct (fname_eqb f F_strict_transport_security) eqn:N4.
  - apply fname_eqb_eq in N4; subst. cbn [eval_of]. rewrite (hsts_same c c' h E). apply wrel_refl.
  - rewrite (eval_others f h c c' E); [apply wrel_refl|..]; intros ->; discriminate.
Qed.
