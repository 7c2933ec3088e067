(** * The notes of the files about single fields are added without a category (support for C74). *)
From Coq Require Import Lia.
From Verif Require Import PyStr Regex Grammar NoteTable Note PyLib Utils FieldAttrs Types Fields1 Fields2 Fields3 Framework Message EvLogic PassFrame PassRun SecNotes Session SessionLemmas LintLemmas.
Open Scope N_scope.

(** The general kinds of the files about single fields, but those of dates, which have the category of their field. *)
Definition about_date (n : nid) : bool := match n with BAD_DATE_SYNTAX | DATE_OBSOLETE => true | _ => false end.
Definition own_general (n : nid) : bool :=
  category_eqb (nid_category n) GENERAL && negb (framework n) && String.prefix "field/" (nid_file n) && negb (about_date n).
Definition cev (e : ev) : Prop :=
  match e with
  | ENote n cat _ _ => own_general n = true -> cat = None
  | EKid p n _ => own_general p = false /\ own_general n = false
  | _ => True
  end.
Definition cw {A} (w : W A) : Prop := Forall cev (fst w).
Lemma cw_ret {A} (a : A) : cw (ret a). Proof. constructor. Qed.
Lemma cw_raise {A} x : cw (@raise A x). Proof. constructor. Qed.
Lemma cw_note n v : cw (add_note n v). Proof. repeat constructor. Qed.
Lemma cw_defer n v : cw (defer n v). Proof. repeat constructor. Qed.
Lemma cw_lift {A} (r : res A) : cw (lift r). Proof. constructor. Qed.
Lemma cw_tell l : Forall cev l -> cw (tell l). Proof. auto. Qed.
Lemma cw_bind {A B} (m : W A) (g : A -> W B) : cw m -> (forall a, cw (g a)) -> cw (bind m g).
Proof.
  intros H Hf. unfold cw, bind in *. destruct m as [l [a|x]]; cbn [fst] in *; [|exact H]. specialize (Hf a). destruct (g a) as [l' r]. cbn [fst] in *. apply Forall_app. auto.
Qed.
Lemma cw_when b m : cw m -> cw (when b m). Proof. destruct b; cbn; auto. intros _. constructor. Qed.
Lemma cw_mapW {A B} (g : A -> W B) l : (forall a, cw (g a)) -> cw (mapW g l).
Proof. intros H. induction l as [|a l IH]; cbn [mapW]; [apply cw_ret|]. apply cw_bind; [apply H|]. intros b. apply cw_bind; [exact IH|]. intros. apply cw_ret. Qed.
Lemma cw_iterW {A} (g : A -> W unit) l : (forall a, cw (g a)) -> cw (iterW g l).
Proof. intros H. unfold iterW. apply cw_bind; [apply cw_mapW, H|]. intros. apply cw_ret. Qed.
Lemma cw_foldW {A S} (g : S -> A -> W S) l : (forall s a, cw (g s a)) -> forall s, cw (foldW g l s).
Proof. intros H. induction l as [|a l IH]; intros s; cbn [foldW]; [apply cw_ret|]. apply cw_bind; [apply H|]. intros. apply IH. Qed.
Lemma cw_catch {A} (m h : W A) : cw m -> cw h -> cw (catch_value m h).
Proof. intros H1 H2. unfold cw, catch_value in *. destruct m as [l [a|x]]; [exact H1|]. destruct (is_ValueError x); [|exact H1]. destruct h as [l' r]. cbn [fst] in *. apply Forall_app. auto. Qed.
Ltac fin := apply cw_tell; solve [repeat first [constructor | match goal with |- cev (ENote (if ?b then _ else _) _ _ _) => destruct b end | (intros _; reflexivity) | discriminate]].
Ltac cw1 := cbv beta zeta; first
  [ apply cw_ret | apply cw_raise | apply cw_note | apply cw_defer | apply cw_lift | apply cw_when | (apply cw_iterW; intro) | (apply cw_mapW; intro)
  | (apply cw_foldW; intros ? ?) | apply cw_catch | (apply cw_bind; [|intro])
  | match goal with |- cw (match ?x with _ => _ end) => destruct x end | fin ].
Ltac cwt := repeat cw1.
Lemma cw_params e s n dl : cw (parse_params e s n dl).
Proof. unfold parse_params. apply cw_foldW. intros d x. unfold parse_param. cwt. Qed.
Lemma cw_check_media mt bad ref w ct : cw (check_media_type mt bad ref w ct).
Proof. unfold check_media_type. destruct bad as [n|]; cwt. Qed.
Lemma cw_media e v bad ref w n : cw (parse_media_type e v bad ref w n).
Proof. unfold parse_media_type. destruct (match split1 59 v with Some _ => _ | None => _ end) as [mt ps]. cbv zeta. apply cw_bind; [apply cw_check_media|]. intros _. apply cw_bind; [apply cw_params|]. intros. apply cw_ret. Qed.
Lemma cw_json_req miss bad d k ok exp : cw (json_req miss bad d k ok exp).
Proof. unfold json_req. cwt. Qed.
Lemma cw_cookie_attribute path now c l n v : cw (cookie_attribute path now c l n v).
Proof. unfold cookie_attribute. cwt. Qed.
Lemma cw_cookie_loop path now c avs : forall seen l, cw (cookie_loop path now c avs seen l).
Proof. induction avs as [|av avs IH]; intros seen l; cbn [cookie_loop]; cwt; [apply cw_cookie_attribute|apply IH]. Qed.
Lemma cw_hsts_loop ds : forall seen s, cw (hsts_loop ds seen s).
Proof. induction ds as [|d ds IH]; intros seen s; cbn [hsts_loop]; cwt; apply IH. Qed.
Lemma cw_nel_resolve eps valid clean l : forall i, cw (nel_resolve eps valid clean i l).
Proof. induction l as [|v l IH]; intros i; cbn [nel_resolve]; cwt; apply IH. Qed.
Lemma cw_cop tab bad ro rot b : cw (ev_cop tab bad ro rot b).
Proof. unfold ev_cop. cwt. Qed.
Lemma cw_date v cat : cw (parse_http_date v cat).
Proof.
  unfold parse_http_date. destruct (negb _).
  - apply cw_bind; [|intros; apply cw_raise]. apply cw_tell. repeat constructor. discriminate.
  - apply cw_bind; [apply cw_when, cw_tell; repeat constructor; discriminate|]. intros _. cwt.
Qed.
Ltac hd t := match t with ?g _ => hd g | _ => t end.
Ltac cws1 := cbv beta zeta; first
  [ apply cw_params | apply cw_media | apply cw_check_media | apply cw_json_req | apply cw_cop | apply cw_cookie_loop | apply cw_hsts_loop | apply cw_nel_resolve | apply cw_date
  | cw1 | match goal with |- cw ?t => let h := hd t in progress (unfold h) end ].
Ltac cws := repeat cws1.
Lemma parse_cw f c h v : cw (parse_of f c h v).
Proof. destruct f; cbn [parse_of]; cws. Qed.
Lemma eval_cw f c h : cw (eval_of f c h).
Proof.
  destruct f; cbn [eval_of]; cws.
  all: try (apply cw_tell, Forall_forall; intros x Hx; apply in_flat_map in Hx as ([s e] & _ & Hx); cbn [snd fst] in Hx; destruct e as [| |n ? ?| |]; try (destruct Hx; fail); destruct Hx as [<-|[]]; exact I).
Qed.
Lemma item_cw f c h b p : cw (eval_item f c h b p).
Proof. destruct f; cbn [eval_item]; cws. Qed.
Lemma list_cw f c h l : cw (eval_list f c h l).
Proof. destruct f; cbn [eval_list]; cws. Qed.
Lemma dict_cw f c h l : cw (eval_dict f c h l).
Proof. destruct f; cbn [eval_dict]; cws. Qed.
Lemma post_cw f c h : cw (post_of f c h).
Proof. destruct f; cbn [post_of]; cws. Qed.
(** ** The messages *)
Definition sc (s : sev) : Prop := cev (snd s).
Definition plain (n : note) : Prop := own_general (n_cls n) = true -> n_cat n = GENERAL.
Lemma own_is_general n : own_general n = true -> nid_category n = GENERAL.
Proof. unfold own_general. rewrite !Bool.andb_true_iff. intros (((H & _) & _) & _). destruct (nid_category n); (reflexivity || discriminate). Qed.
Lemma framework_not n : framework n = true -> own_general n = false.
Proof. unfold own_general. intros ->. cbn. rewrite Bool.andb_false_r. reflexivity. Qed.
Lemma mk_plain t s n cat vrs kids : (own_general n = true -> cat = None) -> plain (mk_note t s n cat vrs kids).
Proof. unfold plain, mk_note. cbn [n_cls n_cat]. intros H F. rewrite (H F). apply own_is_general, F. Qed.
Lemma attach_plain t p n vrs ns : forall ns', attach t p n vrs ns = Some ns' -> Forall plain ns -> Forall plain ns'.
Proof.
  induction ns as [|x ns IH]; intros ns' E H; cbn in E; [discriminate|]. inversion H as [|? ? Hx Hns]; subst. destruct (nid_eqb (n_cls x) p).
  - injection E as <-. constructor; assumption.
  - destruct (attach t p n vrs ns) as [r|]; [|discriminate]. injection E as <-. constructor; auto.
Qed.
Lemma emit_plain t l : forall ns, Forall sc l -> Forall plain ns -> Forall plain (emit t ns l).
Proof.
  induction l as [|[[s b] e] l IH]; intros ns Hl H; [exact H|]. inversion Hl as [|? ? He Hr]; subst. change (emit t ns ((s, b, e) :: l)) with (emit t (emit_one t ns (s, b, e)) l). apply IH; [exact Hr|].
  unfold sc in He. cbn [snd] in He. destruct e as [n cat vrs kids|s' n vrs|n c vrs|v|p n vrs]; cbn [emit_one cev] in *; try exact H.
  - apply Forall_app. split; [exact H|]. constructor; [apply mk_plain, He|constructor].
  - apply Forall_app. split; [exact H|]. constructor; [apply mk_plain; auto|constructor].
  - destruct (attach t p n vrs ns) as [ns'|] eqn:E; [apply (attach_plain _ _ _ _ _ _ E H)|]. apply Forall_app. split; [exact H|]. constructor; [apply mk_plain; auto|constructor].
Qed.
Lemma tag_sc s b l : Forall cev l -> Forall sc (tag s b l).
Proof. intros H. unfold tag. apply Forall_map. exact H. Qed.
Lemma frame_cev n cat vrs kids : framework n = true -> cev (ENote n cat vrs kids).
Proof. intros F. cbn [cev]. rewrite (framework_not n F). discriminate. Qed.
Ltac fr := repeat constructor; apply frame_cev; reflexivity.
(** ** A field *)
Lemma syntax_cw h v : cw (list_syntax h v).
Proof.
  unfold list_syntax. cbv zeta. destruct (fa_syntax (attrs (h_cls h))) as [g|]; [|constructor]. destruct (match_ws_dollar g v); [constructor|].
  destruct (match_prefix _ v) as [bad|]; [destruct (nth_error v bad); [apply cw_tell; fr|constructor]|]. apply cw_when, cw_tell. fr.
Qed.
Lemma member_cw c h v : cw (list_member c h v).
Proof. unfold list_member. apply cw_bind; [apply syntax_cw|]. intros _. apply cw_catch; [|constructor]. apply cw_bind; [apply parse_cw|]. intros. apply cw_ret. Qed.
Lemma list_input_sc c s l : forall h, Forall sc (fst (fst (list_input c s h l))).
Proof.
  induction l as [|v l IH]; intros h; cbn [list_input]; [constructor|].
  pose proof (member_cw c h v) as M. unfold cw in M. destruct (list_member c h v) as [evs [o|x]]; cbn [fst] in M; cbv zeta; [|apply tag_sc, M].
  set (h2 := match o with Some _ => _ | None => _ end). specialize (IH h2). destruct (list_input c s h2 l) as [[evs' h'] r']. cbn [fst] in *. apply Forall_app. split; [apply tag_sc, M|exact IH].
Qed.
Lemma input_sc c h v o : Forall sc (fst (fst (handle_input c h v o))).
Proof. unfold handle_input. destruct (kind_of _); try constructor. apply list_input_sc. Qed.
Lemma pre_cev t h : Forall cev (snd (fst (pre_check t h))).
Proof.
  unfold pre_check. cbv zeta. destruct t; destruct (fa_req (attrs (h_cls h))); destruct (fa_resp (attrs (h_cls h))).
  all: repeat match goal with |- context [if ?b then _ else _] => destruct b end; cbn [fst snd]; fr.
Qed.
Lemma finish_eval_sc s b h m : cw m -> Forall sc (fst (fst (finish_eval s b h m))).
Proof. unfold cw, finish_eval. destruct m as [l [v|x]]; cbn [fst]; intros H; apply tag_sc, H. Qed.
Lemma base_sc c s b h : Forall sc (fst (fst (base_finish c s b h))).
Proof. unfold base_finish. destruct (h_val h); try apply finish_eval_sc, eval_cw. constructor. Qed.
Lemma prefix_sc l r : Forall sc l -> Forall sc (fst (fst r)) -> Forall sc (fst (fst (prefix_events l r))).
Proof. unfold prefix_events. destruct r as [[l' h] x]. cbn [fst]. intros. apply Forall_app. auto. Qed.
Lemma singleton_sc c s b h : Forall sc (fst (fst (singleton_finish c s b h))).
Proof.
  unfold singleton_finish. destruct (h_raw h) as [|[raw o] more]; [constructor|]. cbv zeta. set (l1 := match more with [] => _ | _ => _ end). set (l2 := match fa_syntax _ with Some _ => _ | None => _ end).
  pose proof (parse_cw (h_cls h) c h (strip raw)) as P. unfold cw in P. destruct (parse_of _ c h (strip raw)) as [l3 r]. cbn [fst] in P.
  assert (X : Forall cev (l1 ++ l2 ++ l3)).
  { apply Forall_app. split; [unfold l1; destruct more; fr|]. apply Forall_app. split; [|exact P]. unfold l2. destruct (fa_syntax (attrs (h_cls h))); [|constructor]. destruct (match_ws_dollar _ _); [constructor|]. destruct (fa_report (attrs (h_cls h))); fr. }
  destruct r as [v|x]; [|destruct (is_ValueError x); apply tag_sc, X]. apply prefix_sc; [apply tag_sc, X|apply base_sc].
Qed.
Lemma broken_values_sc c l : forall h acc, Forall sc (fst (fst (broken_values c h l acc))).
Proof.
  induction l as [|[raw off] l IH]; intros h acc; cbn [broken_values]; [constructor|]. cbv zeta. set (l1 := match fa_syntax _ with Some _ => _ | None => _ end).
  pose proof (parse_cw (h_cls h) c h (strip raw)) as P. unfold cw in P. destruct (parse_of _ c h (strip raw)) as [l2 r]. cbn [fst] in P.
  assert (X : Forall cev (l1 ++ l2)).
  { apply Forall_app. split; [|exact P]. unfold l1. destruct (fa_syntax (attrs (h_cls h))); [|constructor]. destruct (match_ws_dollar _ _); [constructor|]. fr. }
  set (h1 := h_add_aux _ _). destruct r as [v|x].
  - specialize (IH h1 (acc ++ [v])). destruct (broken_values c h1 l _) as [[evs' h'] r']. cbn [fst] in *. apply Forall_app. split; [apply tag_sc, X|exact IH].
  - destruct (is_ValueError x); [|apply tag_sc, X]. specialize (IH h1 acc). destruct (broken_values c h1 l _) as [[evs' h'] r']. cbn [fst] in *. apply Forall_app. split; [apply tag_sc, X|exact IH].
Qed.
Lemma broken_sc c s b h : Forall sc (fst (fst (broken_finish c s b h))).
Proof.
  unfold broken_finish. pose proof (broken_values_sc c (h_raw h) h []) as P. destruct (broken_values _ _ _ _) as [[evs h1] [l|x]]; cbn [fst] in *; [|exact P]. apply prefix_sc; [exact P|apply base_sc].
Qed.
Lemma dup_cev d : Forall cev (dup_events d).
Proof. unfold dup_events. apply Forall_map, Forall_forall. intros. apply frame_cev. reflexivity. Qed.
Lemma sf_result_sc {A} s b h t (r : sfres A) value ev : (forall h' a, cw (ev h' a)) -> Forall sc (fst (fst (sf_result s b h t r value ev))).
Proof.
  intros H. unfold sf_result. destruct r as [v d|d p pos|d p].
  - apply prefix_sc; [apply tag_sc, dup_cev|]. apply finish_eval_sc, H.
  - cbn [fst]. apply tag_sc, Forall_app. split; [apply dup_cev|fr].
  - cbn [fst]. apply tag_sc, Forall_app. split; [apply dup_cev|fr].
Qed.
Lemma sf_sc t c s b h : Forall sc (fst (fst (sf_finish t c s b h))).
Proof.
  unfold sf_finish. destruct (negb _); [constructor|]. destruct (h_sf h); [constructor|]. destruct (raw_texts _); [|constructor]. cbv zeta. destruct t; apply sf_result_sc; intros; [apply item_cw|apply list_cw|apply dict_cw].
Qed.
Lemma json_sc c s b h : Forall sc (fst (fst (json_finish c s b h))).
Proof.
  unfold json_finish. destruct (negb _); [constructor|]. destruct (raw_texts _); [|constructor]. destruct (e_json _ _); [apply base_sc| |constructor]. cbn [fst]. apply tag_sc. fr.
Qed.
Lemma finish_sc c s b h : Forall sc (fst (fst (finish_handler c s b h))).
Proof. unfold finish_handler. destruct (kind_of _); [apply singleton_sc|apply base_sc|apply broken_sc|apply sf_sc|apply json_sc|apply base_sc]. Qed.
(** ** A section *)
Notation G m := (Forall plain (m_notes m)).
Lemma emit_G m l : Forall sc l -> G m -> G (m_emit l m).
Proof. intros H1 H2. change (m_notes (m_emit l m)) with (emit (m_type m) (m_notes m) l). apply emit_plain; assumption. Qed.
Lemma set_sec_notes tr s m : m_notes (m_set_sec tr s m) = m_notes m.
Proof. reflexivity. Qed.
Lemma enc_cev raw : Forall cev (snd (read_name (fst raw)) ++ snd (read_value (fst (read_name (fst raw))) (snd raw))).
Proof.
  apply Forall_app. split; [unfold read_name; destruct (decode_ascii_strict (fst raw)); fr|unfold read_value; destruct (decode_ascii_strict (snd raw)); fr].
Qed.
Lemma line_G e rel tr m o raw : G m -> G (fst (fst (field_line e rel tr m o raw))).
Proof.
  intros H. pose proof (enc_cev raw) as Ec. destruct raw as [name value]. unfold field_line. cbn [fst snd] in Ec. destruct (read_name name) as [sname l1]. cbn [fst snd] in Ec. destruct (read_value sname value) as [svalue l2]. cbn [snd] in Ec.
  destruct (find_handler _ sname) as [s2 h]. pose proof (pre_cev (m_type m) h) as Pc. destruct (pre_check (m_type m) h) as [[h1 l3] go]. cbn [fst snd] in Pc. cbv zeta.
  set (m1 := m_set_sec tr _ (m_emit _ m)).
  assert (H1 : G m1). { unfold m1. rewrite set_sec_notes. apply emit_G; [|exact H]. apply Forall_app. split; apply tag_sc; assumption. }
  clearbody m1. destruct (negb go); [exact H1|]. pose proof (input_sc (mkCx e m1 rel) h1 svalue o) as Pi. destruct (handle_input _ h1 svalue o) as [[l4 h2] r]. cbn [fst] in Pi.
  set (m2 := m_emit l4 _). assert (H2 : G m2) by (unfold m2; apply emit_G; [exact Pi|rewrite set_sec_notes; exact H1]). clearbody m2.
  destruct r as [x|x]; [|exact H2]. cbn [fst]. apply emit_G; [|exact H2]. apply tag_sc. destruct (_ <? _); fr.
Qed.
Lemma lines_G e rel tr l : forall m o, G m -> G (fst (field_lines e rel tr m o l)).
Proof.
  induction l as [|raw l IH]; intros m o H; [exact H|]. cbn [field_lines]. pose proof (line_G e rel tr m o raw H) as P. destruct (field_line e rel tr m o raw) as [[m1 o1] [x|x]]; [apply IH, P|exact P].
Qed.
Lemma finish_one_G e rel tr m kh : G m -> G (fst (finish_one e rel tr m kh)).
Proof.
  intros H. destruct kh as [k h]. unfold finish_one. pose proof (finish_sc (mkCx e m rel) (field_subj h) (sec_base tr h) h) as P. destruct (finish_handler _ _ _ h) as [[l h'] r]. cbn [fst] in P. cbv zeta.
  set (m1 := m_emit l _). assert (H1 : G m1) by (unfold m1; apply emit_G; [exact P|rewrite set_sec_notes; exact H]). destruct r; cbn [fst]; [rewrite set_sec_notes|]; exact H1.
Qed.
Lemma finish_all_G e rel tr l : forall m, G m -> G (fst (finish_all e rel tr m l)).
Proof.
  induction l as [|kh l IH]; intros m H; [exact H|]. cbn [finish_all]. pose proof (finish_one_G e rel tr m kh H) as P. destruct (finish_one e rel tr m kh) as [m1 [x|x]]; [apply IH, P|exact P].
Qed.
Lemma process_G e rel tr m l : G m -> G (fst (process e rel tr m l)).
Proof.
  intros H. unfold process. pose proof (lines_G e rel tr l m 0%nat H) as P. destruct (field_lines _ _ _ _ _ _) as [m1 [x|x]]; [|exact P]. cbn [fst] in P. cbv zeta. apply finish_all_G.
  unfold section_size. cbv zeta. destruct (_ <? _); [|exact P]. apply emit_G; [|exact P]. fr.
Qed.
(** ** The run *)
Lemma sel_plain ns : Forall plain (sel own_general ns) <-> Forall plain ns.
Proof.
  unfold sel. rewrite !Forall_forall. split; intros H n Hn.
  - intros F. apply (H n); [apply filter_In; auto|exact F].
  - apply filter_In in Hn as [Hn _]. apply H, Hn.
Qed.
Lemma lint_plain e rel top headers chunks complete trailers t start nc head base m' rel' :
  lint e rel top headers chunks complete trailers (new_linter t start nc head base) = (m', rel', Ok tt) -> G m'.
Proof.
  intros E. destruct (lint_sections _ _ _ _ _ _ _ _ _ _ _ _ _ _ E) as (mh & mh' & mt & mt' & S).
  destruct S as (H1 & H2 & H3 & T1 & T2 & T3 & H4 & C1 & C2 & Th & Tt & N & evs & Q & N2).
  assert (Qu : quiet own_general) by (apply quiet_b_ok; vm_compute; reflexivity).
  destruct (N own_general Qu) as [N0 N1]. specialize (N2 own_general Qu).
  assert (Ev : Forall sc evs).
  { eapply Forall_impl; [|exact Q]. intros s (f & _ & _ & _ & c & h & Hin). pose proof (post_cw f c h) as P. unfold cw in P. rewrite Forall_forall in P. apply P, Hin. }
  assert (Gh : G mh) by (apply sel_plain; rewrite N0; constructor).
  pose proof (process_G e rel false mh headers Gh) as Gh'. rewrite H2 in Gh'. cbn [fst] in Gh'.
  assert (Gt : G mt) by (apply sel_plain; rewrite N1; apply sel_plain, Gh').
  pose proof (process_G e rel true mt trailers Gt) as Gt'. rewrite T2 in Gt'. cbn [fst] in Gt'.
  apply sel_plain. rewrite N2; [apply sel_plain, emit_plain; assumption|].
  eapply Forall_impl; [|exact Ev]. intros [[s b] x] Hx. left. unfold sc, cev, calm_ev in *. cbn [snd] in *. destruct x; auto.
Qed.
