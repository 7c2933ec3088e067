(** * The notes about dates have the category of their field (support for C74). *)
From Coq Require Import Lia.
From Verif Require Import PyStr Regex Grammar NoteTable Note PyLib Utils FieldAttrs Types Fields1 Fields2 Fields3 Framework Checks Message
  EvLogic NoteLemmas TestEnv LexLemmas ParamLemmas NumLemmas NameLemmas FrameLemmas ContentLemmas BodyLemmas PassParse PassEval PassFrame PassSec PassMsg PassProc PassRun Session SessionLemmas
  SectionLemmas SecNotes SecValues LintLemmas FieldSpec PropFields PropValues PropNames PropParse PropSyntax OwnLemmas GeneralSpec PropGeneral FiledSpec FiledPass.
Open Scope N_scope.

Definition is_date (f : fname) : bool := match f with F_date | F_expires | F_last_modified | F_sunset => true | _ => false end.
Definition undated (e : ev) : Prop := match e with EDefer n _ _ => about_date n = false | _ => True end.
Definition dev (f : fname) (e : ev) : Prop :=
  match e with
  | ENote n cat _ _ => about_date n = true -> is_date f = true /\ cat = Some (cat_of f)
  | EMsg _ n _ | EDefer n _ _ => about_date n = false
  | EKid p n _ => about_date p = false /\ about_date n = false
  | _ => True
  end.
Definition dw {A} (f : fname) (w : W A) : Prop := Forall (dev f) (fst w).
Section Pass.
Variable f : fname.
Lemma dw_ret {A} (a : A) : dw f (ret a). Proof. constructor. Qed.
Lemma dw_raise {A} x : dw f (@raise A x). Proof. constructor. Qed.
Lemma dw_note n v : about_date n = false -> dw f (add_note n v). Proof. intros H. constructor; [cbn [dev]; rewrite H; discriminate|constructor]. Qed.
Lemma dw_defer n v : about_date n = false -> dw f (defer n v). Proof. intros H. constructor; [exact H|constructor]. Qed.
Lemma dw_lift {A} (r : res A) : dw f (lift r). Proof. constructor. Qed.
Lemma dw_tell l : Forall (dev f) l -> dw f (tell l). Proof. auto. Qed.
Lemma dw_bind {A B} (m : W A) (g : A -> W B) : dw f m -> (forall a, dw f (g a)) -> dw f (bind m g).
Proof.
  intros H Hf. unfold dw, bind in *. destruct m as [l [a|x]]; cbn [fst] in *; [|exact H]. specialize (Hf a). destruct (g a) as [l' r]. cbn [fst] in *. apply Forall_app. auto.
Qed.
Lemma dw_when b m : dw f m -> dw f (when b m). Proof. destruct b; cbn; auto. intros _. constructor. Qed.
Lemma dw_mapW {A B} (g : A -> W B) l : (forall a, dw f (g a)) -> dw f (mapW g l).
Proof. intros H. induction l as [|a l IH]; cbn [mapW]; [apply dw_ret|]. apply dw_bind; [apply H|]. intros b. apply dw_bind; [exact IH|]. intros. apply dw_ret. Qed.
Lemma dw_iterW {A} (g : A -> W unit) l : (forall a, dw f (g a)) -> dw f (iterW g l).
Proof. intros H. unfold iterW. apply dw_bind; [apply dw_mapW, H|]. intros. apply dw_ret. Qed.
Lemma dw_foldW {A S} (g : S -> A -> W S) l : (forall s a, dw f (g s a)) -> forall s, dw f (foldW g l s).
Proof. intros H. induction l as [|a l IH]; intros s; cbn [foldW]; [apply dw_ret|]. apply dw_bind; [apply H|]. intros. apply IH. Qed.
Lemma dw_catch {A} (m h : W A) : dw f m -> dw f h -> dw f (catch_value m h).
Proof. intros H1 H2. unfold dw, catch_value in *. destruct m as [l [a|x]]; [exact H1|]. destruct (is_ValueError x); [|exact H1]. destruct h as [l' r]. cbn [fst] in *. apply Forall_app. auto. Qed.
Ltac fin := apply dw_tell; solve [repeat first [apply Forall_cons | apply Forall_nil | (cbn [dev]; solve [discriminate | exact I | reflexivity]) | match goal with |- dev f (ENote (if ?b then _ else _) _ _ _) => destruct b end | (intros _; reflexivity) | discriminate]].
Ltac dw1 := cbv beta zeta; first
  [ apply dw_ret | apply dw_raise | (apply dw_note; solve [reflexivity | assumption]) | (apply dw_defer; solve [reflexivity | assumption]) | apply dw_lift | apply dw_when | (apply dw_iterW; intro) | (apply dw_mapW; intro)
  | (apply dw_foldW; intros ? ?) | apply dw_catch | (apply dw_bind; [|intro])
  | match goal with |- dw f (match ?x with _ => _ end) => destruct x end | fin ].
Ltac dwt := repeat dw1.
Lemma dw_params e s n dl : dw f (parse_params e s n dl).
Proof. unfold parse_params. apply dw_foldW. intros d x. unfold parse_param. dwt. Qed.
Lemma dw_check_media mt bad ref w ct : match bad with Some n => about_date n = false | None => True end -> dw f (check_media_type mt bad ref w ct).
Proof. intros H. unfold check_media_type. destruct bad as [n|]; dwt. Qed.
Lemma dw_media e v bad ref w n : match bad with Some n => about_date n = false | None => True end -> dw f (parse_media_type e v bad ref w n).
Proof. intros H. unfold parse_media_type. destruct (match split1 59 v with Some _ => _ | None => _ end) as [mt ps]. cbv zeta. apply dw_bind; [apply dw_check_media, H|]. intros _. apply dw_bind; [apply dw_params|]. intros. apply dw_ret. Qed.
Lemma dw_json_req miss bad d k ok exp : about_date miss = false -> about_date bad = false -> dw f (json_req miss bad d k ok exp).
Proof. intros H1 H2. unfold json_req. dwt. Qed.
Lemma dw_cookie_attribute path now c l n v : dw f (cookie_attribute path now c l n v).
Proof. unfold cookie_attribute. dwt. Qed.
Lemma dw_cookie_loop path now c avs : forall seen l, dw f (cookie_loop path now c avs seen l).
Proof. induction avs as [|av avs IH]; intros seen l; cbn [cookie_loop]; dwt; [apply dw_cookie_attribute|apply IH]. Qed.
Lemma dw_hsts_loop ds : forall seen s, dw f (hsts_loop ds seen s).
Proof. induction ds as [|d ds IH]; intros seen s; cbn [hsts_loop]; dwt; apply IH. Qed.
Lemma dw_nel_resolve eps valid clean l : forall i, dw f (nel_resolve eps valid clean i l).
Proof. induction l as [|v l IH]; intros i; cbn [nel_resolve]; dwt; apply IH. Qed.
Lemma dw_cop tab bad ro rot b : (forall t n, dget t tab = Some n -> about_date n = false) -> about_date bad = false -> dw f (ev_cop tab bad ro rot b).
Proof. intros H1 H2. unfold ev_cop. cbv zeta. destruct b; try (apply dw_note; exact H2). destruct (dget _ tab) eqn:E; [|apply dw_note, H2]. apply dw_note, (H1 _ _ E). Qed.
Lemma dw_date v : is_date f = true -> dw f (parse_http_date v (Some (cat_of f))).
Proof.
  intros H. unfold parse_http_date. assert (X : forall n, dw f (tell [ENote n (Some (cat_of f)) [] []])) by (intros n; constructor; [cbn [dev]; auto|constructor]).
  destruct (negb _).
  - apply dw_bind; [apply X|]. intros. apply dw_raise.
  - apply dw_bind; [apply dw_when, X|]. intros _. dwt.
Qed.
End Pass.
Ltac cop1 := match goal with |- about_date ?n = false => match goal with H : dget _ _ = Some n |- _ => unfold coep_tab, coop_tab in H; cbn [dget fst snd] in H; repeat match type of H with (if ?b then _ else _) = _ => destruct b end; try discriminate H; injection H as <-; reflexivity end end.
Ltac hd t := match t with ?g _ => hd g | _ => t end.
Ltac fin := apply dw_tell; solve [repeat first [apply Forall_cons | apply Forall_nil | match goal with |- dev _ (ENote (if ?b then _ else _) _ _ _) => destruct b end | (cbn [dev]; solve [discriminate | exact I | reflexivity])]].
Ltac dws1 := cbv beta zeta; first
  [ apply dw_ret | apply dw_raise | (apply dw_note; solve [reflexivity | assumption]) | (apply dw_defer; solve [reflexivity | assumption]) | apply dw_lift | apply dw_when | (apply dw_iterW; intro) | (apply dw_mapW; intro)
  | (apply dw_foldW; intros ? ?) | apply dw_catch
  | apply dw_params | (apply dw_media; solve [reflexivity | exact I | assumption]) | (apply dw_check_media; solve [reflexivity | exact I | assumption]) | (apply dw_json_req; reflexivity)
  | (apply dw_cop; [intros ? ? ?; cop1|reflexivity])
  | apply dw_cookie_loop | apply dw_hsts_loop | apply dw_nel_resolve | (apply dw_date; reflexivity)
  | (apply dw_bind; [|intro])
  | match goal with |- dw _ (match ?x with _ => _ end) => destruct x end
  | fin
  | match goal with |- dw _ ?t => let h := hd t in progress (unfold h) end ].
Ltac dws := repeat dws1.
Lemma parse_dw f c h v : dw f (parse_of f c h v).
Proof. destruct f; cbn [parse_of]; dws. Qed.
Definition aux_clean (h : handler) : Prop := Forall (fun se => undated (snd se)) (h_aux h).
Lemma eval_dw f c h : (f = F_set_cookie -> aux_clean h) -> dw f (eval_of f c h).
Proof.
  destruct f; cbn [eval_of]; intros H; dws.
  all: try (specialize (H eq_refl); apply dw_tell, Forall_forall; intros x Hx; apply in_flat_map in Hx as ([s e] & Hi & Hx); unfold aux_clean in H; rewrite Forall_forall in H; specialize (H _ Hi); cbn [snd fst] in *; destruct e as [| |n ? ?| |]; try (destruct Hx; fail); destruct Hx as [<-|[]]; exact H).
Qed.
Lemma item_dw f c h b p : dw f (eval_item f c h b p).
Proof. destruct f; cbn [eval_item]; dws. Qed.
Lemma list_dw f c h l : dw f (eval_list f c h l).
Proof. destruct f; cbn [eval_list]; dws. Qed.
Lemma dict_dw f c h l : dw f (eval_dict f c h l).
Proof. destruct f; cbn [eval_dict]; dws. Qed.
Lemma dw_pc_cop f n ro c h : about_date n = false -> dw f (pc_cop n ro c h).
Proof. intros H. unfold pc_cop. dws. Qed.
Lemma post_dw f c h : dw f (post_of f c h).
Proof. destruct f; cbn [post_of]; try (apply dw_pc_cop; reflexivity); dws.
  all: apply Forall_cons; [split; reflexivity|apply Forall_nil].
Qed.
(** ** A field *)
Definition dsev (s : str) (f : fname) (x : sev) : Prop :=
  match snd x with ENote n _ _ _ => about_date n = true -> fst (fst x) = s | _ => True end /\ dev f (snd x).
Lemma frame_dev f n cat vrs kids : framework n = true -> dev f (ENote n cat vrs kids).
Proof. intros F H. destruct n; discriminate. Qed.
Ltac fr := repeat first [apply Forall_cons | apply Forall_nil]; apply frame_dev; reflexivity.
Lemma tag_ds f s b l : Forall (dev f) l -> Forall (dsev s f) (tag s b l).
Proof. intros H. unfold tag. apply Forall_map. eapply Forall_impl; [|exact H]. intros e He. split; [destruct e; cbn [fst snd]; auto|exact He]. Qed.
Lemma syntax_dw f h v : dw f (list_syntax h v).
Proof.
  unfold list_syntax. cbv zeta. destruct (fa_syntax (attrs (h_cls h))) as [g|]; [|constructor]. destruct (match_ws_dollar g v); [constructor|].
  destruct (match_prefix _ v) as [bad|]; [destruct (nth_error v bad); [apply dw_tell; fr|constructor]|]. apply dw_when, dw_tell. fr.
Qed.
Lemma member_dw c h v : dw (h_cls h) (list_member c h v).
Proof. unfold list_member. apply dw_bind; [apply syntax_dw|]. intros _. apply dw_catch; [|constructor]. apply dw_bind; [apply parse_dw|]. intros. apply dw_ret. Qed.
Notation quietd := (Forall (not_cls about_date)).
Lemma calm_list f s b l : kind_of f = KList -> Forall (dev f) l -> quietd (tag s b l).
Proof.
  intros K H. unfold tag. apply Forall_map. eapply Forall_impl; [|exact H]. intros e He. unfold not_cls. cbn [snd].
  destruct e as [n cat vrs kids|s' n vrs|n c vrs|v|p n vrs]; cbn [ev_cls dev] in *; repeat constructor.
  - destruct (about_date n); [destruct (He eq_refl) as [X _]; destruct f; discriminate|reflexivity].
  - apply He.
  - apply He.
  - apply He.
Qed.
Lemma frame_calm s b n cat vrs kids : framework n = true -> not_cls about_date (s, b, ENote n cat vrs kids).
Proof. intros F. unfold not_cls. cbn [snd ev_cls]. repeat constructor. destruct n; (reflexivity || discriminate). Qed.
Lemma list_input_calm c s l : forall h, kind_of (h_cls h) = KList -> quietd (fst (fst (list_input c s h l))).
Proof.
  induction l as [|v l IH]; intros h K; cbn [list_input]; [constructor|].
  pose proof (member_dw c h v) as M. unfold dw in M. destruct (list_member c h v) as [evs [o|x]]; cbn [fst] in M; cbv zeta; [|apply (calm_list (h_cls h)); assumption].
  set (h2 := match o with Some _ => _ | None => _ end).
  assert (X : h_cls h2 = h_cls h). { unfold h2. destruct o as [y|]; [|reflexivity]. unfold append_val. destruct (h_val _); reflexivity. }
  specialize (IH h2 ltac:(rewrite X; exact K)). destruct (list_input c s h2 l) as [[evs' h'] r']. cbn [fst] in *. apply Forall_app. split; [apply (calm_list (h_cls h)); assumption|exact IH].
Qed.
Lemma input_calm c h v o : quietd (fst (fst (handle_input c h v o))).
Proof. unfold handle_input. destruct (kind_of (h_cls h)) eqn:K; try constructor. apply list_input_calm, K. Qed.
Ltac fc := repeat first [(apply frame_calm; reflexivity) | apply Forall_nil | (apply Forall_app; split) | apply Forall_cons].
Lemma pre_calm s b t h : quietd (tag s b (snd (fst (pre_check t h)))).
Proof.
  unfold pre_check. cbv zeta. destruct t; destruct (fa_req (attrs (h_cls h))); destruct (fa_resp (attrs (h_cls h))).
  all: repeat match goal with |- context [if ?b then _ else _] => destruct b end; cbn [fst snd]; unfold tag; cbn [map]; fc.
Qed.
Notation D m := (sel about_date (m_notes m)).
Lemma emit_D m l : quietd l -> D (m_emit l m) = D m.
Proof. intros H. change (m_notes (m_emit l m)) with (emit (m_type m) (m_notes m) l). apply emit_sel, H. Qed.
Lemma line_D e rel tr m o raw : D (fst (fst (field_line e rel tr m o raw))) = D m.
Proof.
  destruct raw as [name value]. unfold field_line. destruct (read_name name) as [sname l1] eqn:E1. destruct (read_value sname value) as [svalue l2] eqn:E2.
  assert (Ec : quietd (tag (offset_subj o) [] (l1 ++ l2))).
  { unfold read_name in E1. unfold read_value in E2. destruct (decode_ascii_strict name); injection E1 as <- <-; destruct (decode_ascii_strict value); injection E2 as <- <-; unfold tag; cbn [map app]; fc. }
  destruct (find_handler _ sname) as [s2 h]. pose proof (fun s b => pre_calm s b (m_type m) h) as Pc. destruct (pre_check (m_type m) h) as [[h1 l3] go]. cbn [fst snd] in Pc. cbv zeta.
  set (m1 := m_set_sec tr _ (m_emit _ m)).
  assert (H1 : D m1 = D m). { unfold m1. rewrite set_sec_notes. apply emit_D. apply Forall_app. split; [exact Ec|apply Pc]. }
  rewrite <- H1. clearbody m1. destruct (negb go); [reflexivity|]. pose proof (input_calm (mkCx e m1 rel) h1 svalue o) as Pi. destruct (handle_input _ h1 svalue o) as [[l4 h2] r]. cbn [fst] in Pi.
  set (m2 := m_emit l4 _). assert (H2 : D m2 = D m1) by (unfold m2; rewrite emit_D by exact Pi; rewrite set_sec_notes; reflexivity). rewrite <- H2. clearbody m2.
  destruct r as [x|x]; [|reflexivity]. cbn [fst]. apply emit_D. unfold tag. destruct (_ <? _); cbn [map]; fc.
Qed.
Lemma lines_D e rel tr l : forall m o, D (fst (field_lines e rel tr m o l)) = D m.
Proof.
  induction l as [|raw l IH]; intros m o; [reflexivity|]. cbn [field_lines]. pose proof (line_D e rel tr m o raw) as P. destruct (field_line e rel tr m o raw) as [[m1 o1] [x|x]]; cbn [fst] in *; [rewrite IH|]; exact P.
Qed.
(** ** Finishing *)
Notation Ds s f := (Forall (dsev s f)).
Lemma finish_eval_ds s b h f m : dw f m -> Ds s f (fst (fst (finish_eval s b h m))).
Proof. unfold dw, finish_eval. destruct m as [l [v|x]]; cbn [fst]; intros H; apply tag_ds, H. Qed.
Lemma base_ds c s b h : (h_cls h = F_set_cookie -> aux_clean h) -> Ds s (h_cls h) (fst (fst (base_finish c s b h))).
Proof. intros H. unfold base_finish. destruct (h_val h); try apply finish_eval_ds, eval_dw, H. constructor. Qed.
Lemma prefix_ds s f l r : Ds s f l -> Ds s f (fst (fst r)) -> Ds s f (fst (fst (prefix_events l r))).
Proof. unfold prefix_events. destruct r as [[l' h] x]. cbn [fst]. intros. apply Forall_app. auto. Qed.
Lemma singleton_ds c s b h : h_cls h <> F_set_cookie -> Ds s (h_cls h) (fst (fst (singleton_finish c s b h))).
Proof.
  intros NS. unfold singleton_finish. destruct (h_raw h) as [|[raw o] more]; [constructor|]. cbv zeta. set (l1 := match more with [] => _ | _ => _ end). set (l2 := match fa_syntax _ with Some _ => _ | None => _ end).
  pose proof (parse_dw (h_cls h) c h (strip raw)) as P. unfold dw in P. destruct (parse_of _ c h (strip raw)) as [l3 r]. cbn [fst] in P.
  assert (X : Forall (dev (h_cls h)) (l1 ++ l2 ++ l3)).
  { apply Forall_app. split; [unfold l1; destruct more; fr|]. apply Forall_app. split; [|exact P]. unfold l2. destruct (fa_syntax (attrs (h_cls h))); [|constructor]. destruct (match_ws_dollar _ _); [constructor|]. destruct (fa_report (attrs (h_cls h))); fr. }
  destruct r as [v|x]; [|destruct (is_ValueError x); apply tag_ds, X]. apply prefix_ds; [apply tag_ds, X|]. apply (base_ds c s b (h_set_val (h_add_aux h _) v)). intros Y. destruct (NS Y).
Qed.
Lemma broken_tag s s' b f l : kind_of f = KBroken -> Forall (dev f) l -> Ds s f (tag s' b l).
Proof.
  intros K H. unfold tag. apply Forall_map. eapply Forall_impl; [|exact H]. intros e He. split; [|exact He]. destruct e; cbn [fst snd dev] in *; auto. intros A. destruct (He A) as [X _]. destruct f; discriminate.
Qed.
Lemma broken_values_ds s f c l : kind_of f = KBroken -> forall h acc, h_cls h = f -> Ds s f (fst (fst (broken_values c h l acc))).
Proof.
  intros K. induction l as [|[raw off] l IH]; intros h acc Hc; cbn [broken_values]; [constructor|]. cbv zeta. set (l1 := match fa_syntax _ with Some _ => _ | None => _ end).
  pose proof (parse_dw (h_cls h) c h (strip raw)) as P. unfold dw in P. destruct (parse_of _ c h (strip raw)) as [l2 r]. cbn [fst] in P. rewrite Hc in P.
  assert (X : Forall (dev f) (l1 ++ l2)).
  { apply Forall_app. split; [|exact P]. unfold l1. destruct (fa_syntax (attrs (h_cls h))); [|constructor]. destruct (match_ws_dollar _ _); [constructor|]. fr. }
  set (h1 := h_add_aux _ _). destruct r as [v|x].
  - specialize (IH h1 (acc ++ [v]) Hc). destruct (broken_values c h1 l _) as [[evs' h'] r']. cbn [fst] in *. apply Forall_app. split; [apply broken_tag; assumption|exact IH].
  - destruct (is_ValueError x); [|apply broken_tag; assumption]. specialize (IH h1 acc Hc). destruct (broken_values c h1 l _) as [[evs' h'] r']. cbn [fst] in *. apply Forall_app. split; [apply broken_tag; assumption|exact IH].
Qed.
Lemma broken_cls c l : forall h acc, h_cls (snd (fst (broken_values c h l acc))) = h_cls h.
Proof.
  induction l as [|[raw off] l IH]; intros h acc; cbn [broken_values]; [reflexivity|]. cbv zeta. destruct (parse_of _ c h (strip raw)) as [l2 [v|x]].
  - match goal with |- context [broken_values c ?h1 l ?a] => specialize (IH h1 a); destruct (broken_values c h1 l a) as [[? ?] ?] end. exact IH.
  - destruct (is_ValueError x); [|reflexivity]. match goal with |- context [broken_values c ?h1 l ?a] => specialize (IH h1 a); destruct (broken_values c h1 l a) as [[? ?] ?] end. exact IH.
Qed.
Lemma aux_undated s b f l : Forall (dev f) l -> Forall (fun se => undated (snd se)) (aux_of (tag s b l)).
Proof.
  induction 1 as [|e l He Hl IH]; [constructor|]. destruct e as [n cat vrs kids|s' n vrs|n c vrs|v|p n vrs]; cbn [tag map aux_of flat_map app] in *; try exact IH.
  - constructor; [exact He|exact IH].
  - constructor; [exact I|exact IH].
Qed.
Lemma broken_clean c l : forall h acc, aux_clean h -> aux_clean (snd (fst (broken_values c h l acc))).
Proof.
  induction l as [|[raw off] l IH]; intros h acc H; cbn [broken_values]; [exact H|]. cbv zeta. set (l1 := match fa_syntax _ with Some _ => _ | None => _ end).
  pose proof (parse_dw (h_cls h) c h (strip raw)) as P. unfold dw in P. destruct (parse_of _ c h (strip raw)) as [l2 r]. cbn [fst] in P.
  assert (X : Forall (dev (h_cls h)) (l1 ++ l2)).
  { apply Forall_app. split; [|exact P]. unfold l1. destruct (fa_syntax (attrs (h_cls h))); [|constructor]. destruct (match_ws_dollar _ _); [constructor|]. fr. }
  set (h1 := h_add_aux _ _). assert (H1 : aux_clean h1) by (unfold h1, aux_clean; cbn [h_aux h_add_aux]; apply Forall_app; split; [exact H|eapply aux_undated, X]).
  destruct r as [v|x].
  - specialize (IH h1 (acc ++ [v]) H1). destruct (broken_values c h1 l _) as [[? ?] ?]. exact IH.
  - destruct (is_ValueError x); [|exact H1]. specialize (IH h1 acc H1). destruct (broken_values c h1 l _) as [[? ?] ?]. exact IH.
Qed.
Lemma broken_ds c s b h : kind_of (h_cls h) = KBroken -> (h_cls h = F_set_cookie -> aux_clean h) -> Ds s (h_cls h) (fst (fst (broken_finish c s b h))).
Proof.
  intros K Ha. unfold broken_finish. pose proof (broken_values_ds s (h_cls h) c (h_raw h) K h [] eq_refl) as P. pose proof (broken_cls c (h_raw h) h []) as Q. pose proof (broken_clean c (h_raw h) h []) as C. destruct (broken_values _ _ _ _) as [[evs h1] [l|x]]; cbn [fst snd] in *; [|exact P].
  apply prefix_ds; [exact P|]. rewrite <- Q. apply (base_ds c s b (h_set_val h1 (VList l))). intros Y. apply C, Ha. rewrite <- Q. exact Y.
Qed.
Lemma dup_dev f d : Forall (dev f) (dup_events d).
Proof. unfold dup_events. apply Forall_map, Forall_forall. intros. apply frame_dev. reflexivity. Qed.
Lemma sf_result_ds {A} f s b h t (r : sfres A) value ev : (forall h' a, dw f (ev h' a)) -> Ds s f (fst (fst (sf_result s b h t r value ev))).
Proof.
  intros H. unfold sf_result. destruct r as [v d|d p pos|d p].
  - apply prefix_ds; [apply tag_ds, dup_dev|]. apply finish_eval_ds, H.
  - cbn [fst]. apply tag_ds, Forall_app. split; [apply dup_dev|fr].
  - cbn [fst]. apply tag_ds, Forall_app. split; [apply dup_dev|fr].
Qed.
Lemma sf_ds t c s b h : Ds s (h_cls h) (fst (fst (sf_finish t c s b h))).
Proof.
  unfold sf_finish. destruct (negb _); [constructor|]. destruct (h_sf h); [constructor|]. destruct (raw_texts _); [|constructor]. cbv zeta. destruct t; apply sf_result_ds; intros; [apply item_dw|apply list_dw|apply dict_dw].
Qed.
Lemma json_ds c s b h : h_cls h <> F_set_cookie -> Ds s (h_cls h) (fst (fst (json_finish c s b h))).
Proof.
  intros NS. unfold json_finish. destruct (negb _); [constructor|]. destruct (raw_texts _); [|constructor]. destruct (e_json _ _); [apply (base_ds c s b (h_set_val h _)); intros X; destruct (NS X)| |constructor]. cbn [fst]. apply tag_ds. fr.
Qed.
Lemma finish_ds c s b h : (h_cls h = F_set_cookie -> aux_clean h) -> Ds s (h_cls h) (fst (fst (finish_handler c s b h))).
Proof.
  intros H. unfold finish_handler. destruct (kind_of (h_cls h)) eqn:K; [apply singleton_ds|apply base_ds, H|apply broken_ds; [exact K|exact H]|apply sf_ds|apply json_ds|apply base_ds, H].
  all: intros X; rewrite X in K; discriminate K.
Qed.
Lemma input_aux c h v o : h_cls h = F_set_cookie -> h_aux (snd (fst (handle_input c h v o))) = h_aux h /\ h_cls (snd (fst (handle_input c h v o))) = F_set_cookie.
Proof. intros E. unfold handle_input. rewrite E. change (kind_of F_set_cookie) with KBroken. split; [reflexivity|exact E]. Qed.
Lemma feeds_aux e V rel l : forall h evs h' r, h_cls h = F_set_cookie -> feeds e V rel h l = (evs, h', r) -> h_aux h' = h_aux h.
Proof.
  induction l as [|[v o] l IH]; intros h evs h' r E F; cbn [feeds] in F; [injection F as _ <- _; reflexivity|]. unfold taken in F.
  assert (P : h_aux (fst (fst (pre_check (m_type V) h))) = h_aux h /\ h_cls (fst (fst (pre_check (m_type V) h))) = h_cls h).
  { unfold pre_check. cbv zeta. destruct (m_type V); destruct (fa_req (attrs (h_cls h))); destruct (fa_resp (attrs (h_cls h))); repeat match goal with |- context [if ?b then _ else _] => destruct b end; split; reflexivity. }
  destruct (pre_check (m_type V) h) as [[h1 l3] go]. cbn [fst] in P. destruct P as [P1 P2]. assert (E1 : h_cls h1 = F_set_cookie) by congruence. destruct go.
  - destruct (input_aux (mkCx e V rel) h1 v o E1) as [Q1 Q2]. destruct (handle_input _ h1 v o) as [[l4 h2] r2]. cbn [fst snd] in *. destruct r2 as [x|x].
    + destruct (feeds e V rel h2 l) as [[l5 h3] r3] eqn:F3. injection F as _ <- _. rewrite (IH _ _ _ _ Q2 F3). congruence.
    + injection F as _ <- _. congruence.
  - destruct (feeds e V rel h1 l) as [[l5 h3] r3] eqn:F3. injection F as _ <- _. rewrite (IH _ _ _ _ E1 F3). exact P1.
Qed.
(** ** A section and the run *)
(** The note is about a date field of the section, and has its category. *)
Definition dated (Fk : str -> Prop) (n : note) : Prop :=
  about_date (n_cls n) = true -> exists k, (Fk k /\ is_date (find_class k) = true) /\ n_subj n = about_field k /\ n_cat n = category_of k.
Lemma dated_cat k : is_date (find_class k) = true -> cat_of (find_class k) = category_of k.
Proof. unfold category_of, cat_of. destruct (find_class k); intros H; (discriminate H || reflexivity). Qed.
Lemma emit_dated t (Fk : str -> Prop) k l : Fk k -> forall ns, Ds (about_field k) (find_class k) l -> Forall (dated Fk) ns -> Forall (dated Fk) (emit t ns l).
Proof.
  intros Hk. induction l as [|[[s b] e] l IH]; intros ns H1 H; [exact H|]. inversion H1 as [|? ? [Hs He] Hr]; subst.
  change (emit t ns ((s, b, e) :: l)) with (emit t (emit_one t ns (s, b, e)) l). apply IH; [exact Hr|]. cbn [fst snd] in *.
  destruct e as [n cat vrs kids|s' n vrs|n c vrs|v|p n vrs]; cbn [emit_one dev] in *; try exact H.
  - apply Forall_app. split; [exact H|]. constructor; [|constructor]. intros A. unfold mk_note in *. cbn [n_cls n_subj n_cat] in *. destruct (He A) as [K ->]. exists k. split; [split; [exact Hk|exact K]|]. split; [apply Hs, A|].
    rewrite (dated_cat k K). destruct n; (discriminate A || reflexivity).
  - apply Forall_app. split; [exact H|]. constructor; [|constructor]. intros A. unfold mk_note in A. cbn [n_cls] in A. congruence.
  - destruct He as [He1 He2]. destruct (attach t p n vrs ns) as [ns'|] eqn:E.
    + clear - E H. revert ns' E. induction ns as [|x ns IH]; intros ns' E; cbn in E; [discriminate|]. inversion H as [|? ? Hx Hns]; subst. destruct (nid_eqb (n_cls x) p).
      * injection E as <-. constructor; assumption.
      * destruct (attach t p n vrs ns) as [r|]; [|discriminate]. injection E as <-. constructor; auto.
    + apply Forall_app. split; [exact H|]. constructor; [|constructor]. intros A. unfold mk_note in A. cbn [n_cls] in A. congruence.
Qed.
Lemma ds_off s f l : kind_of f <> KSingleton -> Ds s f l -> quietd l.
Proof.
  intros K. apply Forall_impl. intros [[s' b] e] [_ He]. unfold not_cls. cbn [snd] in *.
  destruct e as [n cat vrs kids|s2 n vrs|n c vrs|v|p n vrs]; cbn [ev_cls dev] in *; repeat constructor; try apply He.
  destruct (about_date n); [|reflexivity]. destruct (He eq_refl) as [X _]. destruct K. destruct f; (discriminate X || reflexivity).
Qed.
Lemma dated_sel Fk a b : sel about_date a = sel about_date b -> Forall (dated Fk) b -> Forall (dated Fk) a.
Proof.
  intros E H. rewrite Forall_forall in *. intros n Hn A. assert (I : In n (sel about_date b)) by (rewrite <- E; unfold sel; apply filter_In; auto). unfold sel in I. apply filter_In in I as [I _]. apply (H n I), A.
Qed.
Lemma finish_all_d e rel tr t (Fk : str -> Prop) l : forall m m', m_type m = t -> Forall (lined t) l -> (forall k h, In (k, h) l -> Fk k /\ (h_cls h = F_set_cookie -> aux_clean h)) ->
  finish_all e rel tr m l = (m', Ok tt) -> Forall (dated Fk) (m_notes m) -> Forall (dated Fk) (m_notes m').
Proof.
  induction l as [|[k h] l IH]; intros m m' Tm Hl Hin E H; cbn [finish_all] in E; [injection E as <-; exact H|].
  inversion Hl as [|? ? Hl1 Hl2]; subst. destruct (finish_one e rel tr m (k, h)) as [m1 [[]|x]] eqn:E1; [|discriminate].
  destruct (finish_one_facts e rel tr m k h m1 Hl1 E1) as (evs & h' & Eh & _ & _ & _ & N1 & _ & _ & _ & _ & _ & _ & _ & Ty1).
  destruct Hl1 as [_ Ih]. destruct (ident_norm k h Ih) as [Hc Hn]. pose proof (ident_subject k h Ih) as Hs. destruct (Hin k h (or_introl eq_refl)) as [Hk Ha].
  pose proof (finish_ds (mkCx e m rel) (field_subj h) (sec_base tr h) h Ha) as Dd. rewrite Eh in Dd. cbn [fst] in Dd. rewrite Hc in Dd. rewrite Hs in Dd.
  apply (IH m1 m' Ty1 Hl2 (fun k2 h2 X => Hin k2 h2 (or_intror X)) E). rewrite N1.
  destruct (kind_of (find_class k)) eqn:K.
  2,3,4,5,6: apply (dated_sel Fk _ (m_notes m)); [apply emit_sel, (ds_off (subject_of k) (find_class k)); [congruence|exact Dd]|exact H].
  rewrite subject_kind in Dd by (rewrite K; exact I). apply (emit_dated _ Fk k); auto.
Qed.
Lemma section_d e rel tr m raws m' (Fk : str -> Prop) : sec tr m = new_section tr -> process e rel tr m raws = (m', Ok tt) -> (forall k, In k (fields_in raws) -> Fk k) ->
  Forall (dated Fk) (m_notes m) -> Forall (dated Fk) (m_notes m').
Proof.
  intros Hs E0 HF N0. destruct (process_lines e rel tr m raws m' Hs E0) as (m1 & E1 & T1 & St & E2 & S1 & Ks & Hh & Ef).
  pose proof (lines_D e rel tr raws m 0%nat) as L. rewrite E1 in L. cbn [fst] in L.
  assert (N2 : D (section_size tr m1) = D m).
  { unfold section_size. cbv zeta. destruct (_ <? _); [|exact L]. rewrite emit_D; [exact L|fc]. }
  destruct S1 as [_ Hl]. eapply (finish_all_d e rel tr (m_type m) Fk); [|exact Hl| |exact Ef|].
  - unfold section_size. cbv zeta. destruct (_ <? _); exact T1.
  - intros k h Hin. split; [apply HF; rewrite <- fields_eq, <- Ks; apply (in_map fst) in Hin; exact Hin|].
    destruct (Hh k h Hin) as (evs & Ek & _ & Hf). assert (Hi : ident any (lower (first_name k raws), new_handler (first_name k raws))) by (exists (first_name k raws); split; [exact I|split; [reflexivity|apply same_id_refl]]).
    intros Hc. assert (Hc0 : h_cls (new_handler (first_name k raws)) = F_set_cookie).
    { pose proof (proj1 (feeds_got e (still m) rel _ _ _ _ _ Hi Hf)) as (Y & _). congruence. }
    unfold aux_clean. rewrite (feeds_aux e (still m) rel _ _ _ _ _ Hc0 Hf). constructor.
  - apply (dated_sel Fk _ (m_notes m)); [exact N2|exact N0].
Qed.
Lemma lint_dated e rel top headers chunks complete trailers t start nc head base m' rel' :
  lint e rel top headers chunks complete trailers (new_linter t start nc head base) = (m', rel', Ok tt) ->
  Forall (dated (fun k => In k (fields_in headers) \/ In k (fields_in trailers))) (m_notes m').
Proof.
  intros E. destruct (lint_sections _ _ _ _ _ _ _ _ _ _ _ _ _ _ E) as (mh & mh' & mt & mt' & S).
  destruct S as (H1 & H2 & H3 & T1 & T2 & T3 & H4 & C1 & C2 & Th & Tt & N & evs & Q & N2).
  assert (Qu : quiet about_date) by (apply quiet_b_ok; vm_compute; reflexivity).
  destruct (N about_date Qu) as [N0 N1]. specialize (N2 about_date Qu).
  assert (Ev : quietd evs).
  { eapply Forall_impl; [|exact Q]. intros [[s b] x] (f & Hp & _ & _ & c & h & Hin). pose proof (post_dw f c h) as P. unfold dw in P. rewrite Forall_forall in P. specialize (P _ Hin). unfold not_cls. cbn [snd] in *.
    destruct x as [n cat vrs kids|s2 n vrs|n c2 vrs|v|p n vrs]; cbn [ev_cls dev] in *; repeat constructor; try apply P.
    destruct (about_date n); [|reflexivity]. destruct (P eq_refl) as [X _]. destruct f; (discriminate X || discriminate Hp). }
  assert (X : sel about_date (m_notes m') = sel about_date (m_notes mt')).
  { rewrite N2 by (eapply Forall_impl; [|exact Ev]; auto). apply emit_sel, Ev. }
  apply (dated_sel _ _ (m_notes mt') X). apply (section_d e rel true mt trailers mt' _ T1 T2); [auto|].
  apply (dated_sel _ _ (m_notes mh') N1). apply (section_d e rel false mh headers mh' _ H1 H2); [auto|].
  apply (dated_sel _ _ []); [exact N0|constructor].
Qed.
