(** * C60: Content-Security-Policy and Content-Security-Policy-Report-Only. *)
From Coq Require Import Lia QArith.
From Verif Require Import PyStr Regex Grammar NoteTable Note PyLib Utils FieldAttrs Types Fields1 Fields2 Fields3 Framework Checks Message
  EvLogic NoteLemmas TestEnv LexLemmas ParamLemmas NumLemmas NameLemmas FrameLemmas ContentLemmas BodyLemmas PassParse PassEval PassFrame PassSec PassProc PassRun Session SessionLemmas
  SectionLemmas SecNotes SecValues LintLemmas FieldSpec PropFields PropValues PropNames PropParse OwnLemmas ListSpec PropLists PropCC ListExamples FieldExamples PropInts FieldDue OwnTac OwnMore KidSpec OwnFull
  PlainSpec PropPrefs SFSpec PropSF GroupRun GroupPost PermissionsSpec IsolationSpec PropIsolation PropConneg CspSpec.
From Verif Require PropOrder.
Open Scope N_scope.

(** ** Directives *)
Lemma split_ws1_eq s : split_ws1 s = (up_to_space s, lstrip (from_space s)).
Proof.
  induction s as [|c s IH]; [reflexivity|]. cbn [split_ws1 up_to_space from_space]. destruct (isspace c) eqn:E; [|rewrite IH; reflexivity]. reflexivity.
Qed.
Lemma split_first_ext l : forall a b, (forall x, existsb (str_eqb x) a = existsb (str_eqb x) b) -> split_first a l = split_first b l.
Proof.
  induction l as [|[n v] l IH]; intros a b H; [reflexivity|]. cbn [split_first]. rewrite (IH (n :: a) (n :: b)), H; [reflexivity|]. intros x. cbn [existsb]. rewrite H. reflexivity.
Qed.
Lemma directives_eq ds : forall acc dup, csp_directives ds acc dup =
  (let '(a, b) := split_first (keys acc) (flat_map (fun d => let d := strip d in match d with [] => [] | _ => [(lower (up_to_space d), lstrip (from_space d))] end) ds) in (acc ++ a, dup ++ b)).
Proof.
  induction ds as [|d ds IH]; intros acc dup; [cbn; rewrite !app_nil_r; reflexivity|]. cbn [csp_directives flat_map]. cbv zeta. destruct (strip d) as [|c s] eqn:Ed; cbn [nonempty negb app]; [apply IH|].
  rewrite split_ws1_eq. cbn [split_first]. set (n := lower _). set (v := lstrip _).
  assert (Hm : dmem n acc = existsb (str_eqb n) (keys acc)).
  { unfold dmem. apply Bool.eq_iff_eq_true. change (existsb (str_eqb n) (keys acc)) with (str_in n (keys acc)). rewrite str_in_In, <- dget_Some_in. destruct (dget n acc) as [x|]; split; eauto; try discriminate. intros [x Hx]. discriminate. }
  rewrite Hm. destruct (existsb (str_eqb n) (keys acc)) eqn:Ex.
  - rewrite IH, (split_first_ext _ (n :: keys acc) (keys acc)); [destruct (split_first (keys acc) _); rewrite <- app_assoc; reflexivity|].
    intros x. cbn [existsb]. destruct (str_eqb x n) eqn:Y; [|reflexivity]. apply str_eqb_eq in Y. subst x. rewrite Ex. reflexivity.
  - assert (G : dget n acc = None) by (unfold dmem in Hm; destruct (dget n acc); [discriminate|reflexivity]). rewrite IH, (dset_fresh n v acc G).
    rewrite (split_first_ext _ (keys (acc ++ [(n, v)])) (n :: keys acc)); [destruct (split_first (n :: keys acc) _); rewrite <- app_assoc; reflexivity|].
    intros x. unfold keys. rewrite map_app, existsb_app. cbn [map existsb fst]. rewrite orb_false_r. apply orb_comm.
Qed.
Lemma csp_parse rot c h v : p_csp rot c h v = ((match repeated v with [] => [] | d => [EDefer CSP_DUPLICATE_DIRECTIVE None [vv "directives_list" (bullets d); vs "report_only_text" (u rot)]] end), Ok (str_dict_val (in_force v))).
Proof.
  unfold p_csp. rewrite directives_eq. unfold repeated, in_force, stated. change (keys (@nil (str * str))) with (@nil str). destruct (split_first [] _) as [a b]. cbn [app fst snd]. destruct b as [|x b]; [reflexivity|].
  cbn [nonempty when]. unfold bind, tell, ret. rewrite app_nil_r. unfold star_list, bullets. rewrite map_map. reflexivity.
Qed.
Lemma force_pairs l : csp_pairs (VList (map (fun p => str_dict_val (in_force p)) l)) = Ok (flat_map in_force l).
Proof.
  unfold csp_pairs. cbn [as_list rbind]. assert (X : mapR (fun x => rbind (as_dict x) (mapR csp_pair)) (map (fun p => str_dict_val (in_force p)) l) = Ok (map in_force l)).
  { induction l as [|p l IH]; [reflexivity|]. cbn [map mapR]. unfold str_dict_val at 1. cbn [as_dict rbind].
    assert (Y : mapR csp_pair (map (fun kv : str * str => (fst kv, VStr (snd kv))) (in_force p)) = Ok (in_force p)).
    { clear. induction (in_force p) as [|[n v] d IH]; [reflexivity|]. cbn [map mapR fst snd]. unfold csp_pair at 1. cbn [fst snd as_str rmap rbind]. rewrite IH. reflexivity. }
    rewrite Y. cbn [rbind]. rewrite IH. reflexivity. }
  rewrite X. cbn [rmap rbind]. rewrite flat_map_concat_map. reflexivity.
Qed.
(** ** Words *)
Lemma forallb_in {A} (f : A -> bool) l x : forallb f l = true -> In x l -> f x = true.
Proof. intros H. apply forallb_forall, H. Qed.
Lemma word_split t c s w : forallb (fun c => negb (isspace c)) t = true -> isspace c = true -> (word_of w (t ++ c :: s) <-> (t <> [] /\ w = t) \/ word_of w s).
Proof.
  intros Ht Hc. split.
  - intros (a & b & E & Nw & Hw & Ha & Hb). apply List.app_eq_app in E as (l & [[E1 E2]|[E1 E2]]).
    + assert (a = []). { destruct Ha as [->|(a' & x & -> & Hx)]; [reflexivity|]. exfalso. assert (X := forallb_in _ _ x Ht). rewrite E1, <- app_assoc in X. cbv beta in X. rewrite Hx in X. specialize (X ltac:(apply in_or_app; right; left; reflexivity)). discriminate. }
      subst a. cbn [app] in E1. subst l. left. symmetry in E2. symmetry in E2. apply List.app_eq_app in E2 as (l & [[E1 E2]|[E1 E2]]).
      * destruct l as [|x l]; [rewrite app_nil_r in E1; subst; auto|]. exfalso. injection E2 as <- _. assert (X := forallb_in _ _ c Hw). cbv beta in X. rewrite Hc in X. rewrite E1 in X. specialize (X ltac:(apply in_or_app; right; left; reflexivity)). discriminate.
      * destruct l as [|x l]; [rewrite app_nil_r in E1; subst; auto|]. exfalso. destruct Hb as [->|(y & b' & -> & Hy)]; [discriminate|]. injection E2 as <- _. assert (X := forallb_in _ _ y Ht). cbv beta in X. rewrite Hy in X. rewrite E1 in X. specialize (X ltac:(apply in_or_app; right; left; reflexivity)). discriminate.
    + right. destruct l as [|x l]; cbn [app] in E2.
      * exfalso. destruct w as [|y w]; [destruct (Nw eq_refl)|]. injection E2 as <- _. cbn [forallb] in Hw. rewrite Hc in Hw. discriminate.
      * injection E2 as <- E2. exists l, b. split; [exact E2|]. split; [exact Nw|]. split; [exact Hw|]. split; [|exact Hb]. destruct l as [|y l _] using rev_ind; [left; reflexivity|right].
        destruct Ha as [->|(a' & x & -> & Hx)]; [destruct t; discriminate|]. exists l, y. split; [reflexivity|]. assert (X : a' ++ [x] = (t ++ c :: l) ++ [y]) by (rewrite E1, <- app_assoc; reflexivity). apply app_inj_tail in X as [_ <-]. exact Hx.
  - intros [[Nt ->]|(a & b & -> & Nw & Hw & Ha & Hb)].
    + exists [], (c :: s). repeat split; auto. right. eauto.
    + exists (t ++ c :: a), b. rewrite <- app_assoc. split; [reflexivity|]. repeat (split; [assumption|]). split; [|exact Hb]. right.
      destruct Ha as [->|(a' & x & -> & Hx)]; [exists t, c; auto|]. exists (t ++ c :: a'), x. rewrite <- app_assoc. auto.
Qed.
Lemma words_aux_word s : forall acc w, forallb (fun c => negb (isspace c)) acc = true -> (In w (words_aux isspace s acc) <-> word_of w (rev acc ++ s)).
Proof.
  assert (Rv : forall l, forallb (fun c => negb (isspace c)) l = true -> forallb (fun c => negb (isspace c)) (rev l) = true) by (intros l H; apply forallb_forall; intros x Hx; apply in_rev in Hx; apply (forallb_in _ _ _ H Hx)).
  induction s as [|c s IH]; intros acc w Ha; cbn [words_aux].
  - rewrite app_nil_r. assert (X : word_of w (rev acc) <-> acc <> [] /\ w = rev acc).
    { split.
      - intros W. assert (W' : word_of w (rev acc ++ 32 :: [])). { destruct W as (a & b & E & Nw & Hw & Pa & Pb). exists a, (b ++ [32]). rewrite E, <- !app_assoc. repeat (split; [reflexivity || assumption|]). right. destruct Pb as [->|(x & b' & -> & Hx)]; [exists 32, []; auto|exists x, (b' ++ [32]); auto]. }
        apply word_split in W'; [|apply Rv, Ha|reflexivity]. destruct W' as [[N ->]|(a & b & E & Nw & _)]; [split; [|reflexivity]; intros C; rewrite C in N; destruct (N eq_refl)|]. destruct a, w; try discriminate. destruct (Nw eq_refl).
      - intros [N ->]. exists [], []. rewrite !app_nil_r. repeat split; auto. intros C. apply N. rewrite <- (rev_involutive acc), C. reflexivity. }
    rewrite X. destruct acc as [|x acc]; cbn [In]; split; intros H; try (destruct H; congruence); [destruct H as [<-|[]]; split; [discriminate|reflexivity]|left; symmetry; apply H].
  - destruct (isspace c) eqn:Ec.
    + rewrite (word_split (rev acc) c s w (Rv _ Ha) Ec). rewrite <- (IH [] w eq_refl). destruct acc as [|x acc]; cbn [In].
      * split; [auto|]. intros [[N _]|H]; [destruct (N eq_refl)|exact H].
      * split; [intros [<-|H]; [left; split; [|reflexivity]; cbn [rev]; destruct (rev acc); discriminate|right; exact H]|]. intros [[_ ->]|H]; auto.
    + rewrite (IH (c :: acc) w) by (cbn [forallb]; rewrite Ec, Ha; reflexivity). cbn [rev]. rewrite <- app_assoc. reflexivity.
Qed.
Lemma words_word w v : str_in w (words v) = true <-> word_of w v.
Proof. rewrite str_in_In. apply (words_aux_word v [] w eq_refl). Qed.
Definition the_weak : weaknesses :=
  {| wide := fun nv => str_in (fst nv) [u "script-src"; u "style-src"; u "object-src"] && str_in (u "*") (words (snd nv));
     inline := fun nv => has_sub (u "'unsafe-inline'") (snd nv); evals := fun nv => has_sub (u "'unsafe-eval'") (snd nv); http := fun nv => str_in (u "http:") (words (snd nv)) |}.
Lemma the_weak_ok : weak_ok the_weak.
Proof.
  split; [|split; [|split]]; intros d; cbn [the_weak wide inline evals http].
  - unfold is_wide. rewrite andb_true_iff, words_word, str_in_In. reflexivity.
  - apply has_sub_occurs.
  - apply has_sub_occurs.
  - apply words_word.
Qed.
(** ** Notes and sub-notes *)
Notation CP := (classes [CONTENT_SECURITY_POLICY; CSP_REPORT_TO_MISSING]).
Notation CG := [F_content_security_policy; F_content_security_policy_report_only].
Lemma attach_sel (P : nid -> bool) t p n vrs ns : P p = true -> match attach t p n vrs ns with Some r => attach t p n vrs (sel P ns) = Some (sel P r) | None => attach t p n vrs (sel P ns) = None end.
Proof.
  intros Hp. induction ns as [|x ns IH]; [reflexivity|]. cbn [attach sel filter]. destruct (nid_eqb (n_cls x) p) eqn:E.
  - apply nid_eqb_eq in E. rewrite E, Hp. cbn [attach filter n_cls]. rewrite ?E, ?Hp, (proj2 (nid_eqb_eq p p) eq_refl). unfold sel. cbn [filter n_cls]. rewrite ?E, ?Hp. reflexivity.
  - fold (sel P ns). destruct (P (n_cls x)) eqn:EP.
    + cbn [attach]. rewrite E. destruct (attach t p n vrs ns) as [r|]; [|rewrite IH; reflexivity]. rewrite IH. cbn [sel filter]. rewrite EP. reflexivity.
    + destruct (attach t p n vrs ns) as [r|]; [|exact IH]. rewrite IH. cbn [sel filter]. rewrite EP. reflexivity.
Qed.
(** Events that add sub-notes of [P] to notes of [P], or nothing of [P]. *)
Definition hangs (P : nid -> bool) (s : sev) : Prop := not_cls P s \/ exists sj b p n vrs, s = (sj, b, EKid p n vrs) /\ P p = true /\ P n = true.
Lemma emit_hangs P t l : Forall (hangs P) l -> forall a, sel P (emit t a l) = sel P (emit t (sel P a) l).
Proof.
  induction 1 as [|s l Hs Hl IH]; intros a; [symmetry; apply sel_idem|]. cbn [emit fold_left]. fold (emit t (emit_one t a s) l). fold (emit t (emit_one t (sel P a) s) l).
  rewrite IH. rewrite (IH (emit_one t (sel P a) s)). f_equal. f_equal. destruct Hs as [Hs|(sj & b & p & n & vrs & -> & Hp & Hn)].
  - pose proof (emit_sel P t [s] a (Forall_cons _ Hs (Forall_nil _))) as X. pose proof (emit_sel P t [s] (sel P a) (Forall_cons _ Hs (Forall_nil _))) as Y. cbn [emit fold_left] in X, Y. rewrite X, Y, sel_idem. reflexivity.
  - cbn [emit_one]. pose proof (attach_sel P t p n vrs a Hp) as X. destruct (attach t p n vrs a) as [r|]; rewrite X; [symmetry; apply sel_idem|]. rewrite !sel_app, sel_idem. reflexivity.
Qed.
(** The sub-notes, in order. *)
Definition kids_of (l : list sev) : list (nid * vars) := flat_map (fun s : sev => match snd s with EKid _ n vrs => [(n, vrs)] | _ => [] end) l.
Lemma kids_app a b : kids_of (a ++ b) = kids_of a ++ kids_of b.
Proof. apply flat_map_app. Qed.
Definition more_kids (n : note) (l : list (nid * vars)) : note := mkNote (n_cls n) (n_subj n) (n_cat n) (n_vars n) (n_kids n ++ map (fun kv => (fst kv, dupdate (n_vars n) (snd kv))) l).
(** ... [p] in the events that count is [parent]. *)
Definition under (P : nid -> bool) (parent : nid) (s : sev) : Prop := (not_cls P s /\ forall sj b p n vrs, s <> (sj, b, EKid p n vrs)) \/ exists sj b n vrs, s = (sj, b, EKid parent n vrs) /\ P n = true.
Lemma emit_under P parent t l : P parent = true -> Forall (under P parent) l -> forall n ns, n_cls n = parent -> sel P (n :: ns) = n :: ns -> sel P (emit t (n :: ns) l) = more_kids n (kids_of l) :: ns.
Proof.
  intros HP. induction 1 as [|s l Hs Hl IH]; intros n ns Hn Hs0.
  - cbn [emit fold_left kids_of flat_map more_kids]. rewrite Hs0. unfold more_kids. cbn [map]. rewrite app_nil_r. destruct n; reflexivity.
  - cbn [emit fold_left]. fold (emit t (emit_one t (n :: ns) s) l). destruct Hs as [[Hs Nk]|(sj & b & m & vrs & -> & Hm)].
    + assert (Hl2 : Forall (hangs P) l). { eapply Forall_impl; [|exact Hl]. intros s0 [[H _]|(sj & b & m & vrs & -> & Hm)]; [left; exact H|right]. exists sj, b, parent, m, vrs. auto. }
      rewrite (emit_hangs P t l Hl2). pose proof (emit_sel P t [s] (n :: ns) (Forall_cons _ Hs (Forall_nil _))) as X. cbn [emit fold_left] in X. rewrite X, Hs0, (IH n ns Hn Hs0).
      replace (kids_of (s :: l)) with (kids_of l); [reflexivity|]. unfold kids_of. cbn [flat_map]. destruct s as [[sj b] []]; try reflexivity. destruct (Nk sj b parent0 cls vrs eq_refl).
    + cbn [emit_one attach]. rewrite Hn, (proj2 (nid_eqb_eq _ _) eq_refl). rewrite IH; [|reflexivity|].
      * f_equal. unfold more_kids, kids_of. cbn [n_cls n_subj n_cat n_vars n_kids flat_map snd app map fst]. rewrite Hn, <- app_assoc. reflexivity.
      * cbn [sel filter n_cls] in *. rewrite Hn, HP in Hs0. rewrite HP. injection Hs0 as Hs0. rewrite Hs0. reflexivity.
Qed.
(** ** What is remembered from the lines *)
Definition rep_notes (rot : string) (d : list str) : list (nid * vars) := match d with [] => [] | _ => [(CSP_DUPLICATE_DIRECTIVE, [vv "directives_list" (bullets d); vs "report_only_text" (u rot)])] end.
Lemma syntax_aux s b h v : flat_map (fun se : str * ev => match snd se with EDefer n _ x => [(n, x)] | _ => [] end) (aux_of (tag s b (fst (list_syntax h v)))) = [].
Proof.
  unfold list_syntax. destruct (fa_syntax _) as [r|]; [|reflexivity]. destruct (match_ws_dollar r v); [reflexivity|]. destruct (match_prefix _ v) as [bad|]; [destruct (nth_error v bad); reflexivity|]. destruct (fa_report _); reflexivity.
Qed.
Lemma deferred_add h a : deferred (h_add_aux h a) = deferred h ++ flat_map (fun se : str * ev => match snd se with EDefer n _ x => [(n, x)] | _ => [] end) a.
Proof. unfold deferred, h_add_aux. cbn [h_aux]. apply flat_map_app. Qed.
Lemma list_defs f rot c subj l : (forall h v, parse_of f c h v = p_csp rot c h v) -> forall h evs h', h_cls h = f -> list_input c subj h l = (evs, h', Ok tt) ->
  deferred h' = deferred h ++ flat_map (fun x => rep_notes rot (repeated (strip x))) l.
Proof.
  intros Hp. induction l as [|v l IH]; intros h evs h' Hc E; cbn [list_input] in E; [injection E as _ <-; cbn; rewrite app_nil_r; reflexivity|].
  unfold list_member in E. pose proof (syntax_aux subj (line_base h) h v) as Sy. destruct (list_syntax h v) as [ls [[]|x]]; [|discriminate E]. cbn [fst] in Sy.
  rewrite Hc, Hp, csp_parse in E. unfold bind, ret, catch_value in E. rewrite app_nil_r in E. cbv zeta in E. 
  match type of E with context [list_input c subj ?hh l] => set (h2 := hh) in *; destruct (list_input c subj h2 l) as [[e2 h3] r3] eqn:El end. injection E as _ <- ->.
  assert (H2 : h_cls h2 = f) by (unfold h2, append_val; destruct (h_val _); exact Hc). rewrite (IH h2 e2 h3 H2 El).
  assert (D2 : deferred h2 = deferred h ++ rep_notes rot (repeated (strip v))).
  { assert (D3 : forall hh x, deferred (append_val hh x) = deferred hh) by (intros hh x; unfold append_val; destruct (h_val hh); reflexivity). unfold h2. rewrite D3, deferred_add, aux_tag_app, flat_map_app, Sy. cbn [app]. f_equal. destruct (repeated (strip v)); reflexivity. }
  rewrite D2, <- app_assoc. reflexivity.
Qed.
Lemma fed_defs e V rel f rot n l : kind_of f = KList -> find_class n = f -> accepted (m_type V) n = true -> (forall c h v, parse_of f c h v = p_csp rot c h v) ->
  forall h evs h', ident any (lower n, h) -> feeds e V rel h l = (evs, h', Ok tt) -> deferred h' = deferred h ++ flat_map (fun x => rep_notes rot (repeated (strip x))) (flat_map split_list_field (map fst l)).
Proof.
  intros K Hn Ha Hp. induction l as [|[v o] l IH]; intros h evs h' Hi E; cbn [feeds] in E; [injection E as <- <-; cbn; rewrite app_nil_r; reflexivity|].
  pose proof (taken_id e V rel h v o) as Ht. pose proof Ha as Ha'. unfold accepted in Ha'. apply andb_prop in Ha' as [Ha1 Ha2]. apply negb_true_iff in Ha1.
  unfold taken in E, Ht. rewrite (pre_check_eq (m_type V) (lower n) h n Hi eq_refl), Ha1, Ha2 in E, Ht.
  assert (Hc : h_cls h = f).
  { destruct Hi as (n' & _ & Ek' & (E1 & _)). cbn [fst snd] in *. rewrite E1, <- Hn. cbn [h_cls new_handler]. apply find_class_case. congruence. }
  unfold handle_input in E, Ht. rewrite Hc, K in E, Ht. destruct (list_input (mkCx e V rel) (offset_subj o) h (split_list_field v)) as [[l4 h1] r1] eqn:El. cbn [fst snd] in Ht.
  destruct r1 as [[]|x]; [|discriminate E]. destruct (feeds e V rel h1 l) as [[l5 h3] r] eqn:Ef. injection E as <- <- ->.
  rewrite (IH _ _ _ (same_id_ident any _ _ _ Hi Ht) Ef). rewrite (list_defs f rot _ _ _ (Hp _) h _ _ Hc El). cbn [map fst flat_map]. rewrite flat_map_app, app_assoc. reflexivity.
Qed.
(** ** One of the fields in one section *)
Definition main_one (w : weaknesses) (k : str) (l : list rawline) : list heard_note :=
  match members k l with
  | [] => []
  | ps => [(CONTENT_SECURITY_POLICY, about_field k, [Some (VStr (only_words k)); Some (VStr (only_note k)); None; None], csp_subs w k ps)]
  end.
Definition missing_one (known : str -> bool) (k : str) (l : list rawline) : list (str * str) :=
  map (fun d => (snd d, only_note k)) (filter (fun d => str_eqb (fst d) (u "report-to") && negb (known (snd d))) (flat_map in_force (members k l))).
Definition miss (m : str * str) : nid * vars := (CSP_REPORT_TO_MISSING, [vs "endpoint" (fst m); vs "report_only_text" (snd m)]).
Lemma csp_module f : In f CG -> In f module_fields.
Proof. intros H. apply module_b. destruct H as [<-|[<-|[]]]; reflexivity. Qed.
Lemma subs_shown (ro rot : string) k ps h : u ro = only_words k -> u rot = only_note k -> deferred h = flat_map (fun x => rep_notes rot (repeated x)) ps ->
  let l := flat_map in_force ps in let t := vs "report_only_text" (u rot) in
  let kid n xs := if nonempty xs then [(n, [vv "directives_list" (star_list xs); t])] else [] in
  map (fun kd => (fst kd, map (fun k => match dlast k (snd kd) with Some v => Some v | None => dlast k [vs "report_only" (u ro); t] end) csp_vars))
    (deferred h ++ (if existsb (fun nv : str * str => str_eqb (fst nv) (u "report-uri")) l then [(CSP_DEPRECATED_REPORT_URI, [t])] else [])
             ++ kid CSP_WIDE_OPEN (map fst (filter (wide the_weak) l)) ++ kid CSP_UNSAFE_INLINE (map fst (filter (inline the_weak) l))
             ++ kid CSP_UNSAFE_EVAL (map fst (filter (evals the_weak) l)) ++ kid CSP_HTTP_URI (map fst (filter (http the_weak) l)))
  = csp_subs the_weak k ps.
Proof.
  intros Er Et Hd. cbv zeta. unfold csp_subs. rewrite Hd, !map_app. f_equal; [|f_equal; [|f_equal; [|f_equal; [|f_equal]]]].
  - clear Hd. induction ps as [|p ps IH]; [reflexivity|]. cbn [flat_map]. rewrite map_app, IH. f_equal. unfold rep_notes, sub_if. destruct (repeated p) as [|x d]; [reflexivity|]. unfold sub_note. rewrite <- Er, <- Et. reflexivity.
  - rewrite <- Er, <- Et. destruct (existsb _ _); reflexivity.
  - unfold sub_if, sub_note. destruct (map fst (filter (wide the_weak) _)) as [|x xs]; [reflexivity|]. cbn [nonempty map fst snd]. unfold star_list, bullets. rewrite map_map, <- Er, <- Et. reflexivity.
  - unfold sub_if, sub_note. destruct (map fst (filter (inline the_weak) _)) as [|x xs]; [reflexivity|]. cbn [nonempty map fst snd]. unfold star_list, bullets. rewrite map_map, <- Er, <- Et. reflexivity.
  - unfold sub_if, sub_note. destruct (map fst (filter (evals the_weak) _)) as [|x xs]; [reflexivity|]. cbn [nonempty map fst snd]. unfold star_list, bullets. rewrite map_map, <- Er, <- Et. reflexivity.
  - unfold sub_if, sub_note. destruct (map fst (filter (http the_weak) _)) as [|x xs]; [reflexivity|]. cbn [nonempty map fst snd]. unfold star_list, bullets. rewrite map_map, <- Er, <- Et. reflexivity.
Qed.
Lemma iter_cons {A} (f : A -> W unit) x l : snd (f x) = Ok tt -> fst (iterW f (x :: l)) = fst (f x) ++ fst (iterW f l).
Proof.
  intros H. unfold iterW. cbn [mapW]. destruct (f x) as [lx [[]|ex]]; cbn [snd] in H; [|discriminate]. unfold bind at 2. unfold bind at 2. unfold bind at 2. destruct (mapW f l) as [lw [rw|ew]]; cbn [fst ret bind]; unfold bind; cbn [fst]; rewrite ?app_nil_r; reflexivity.
Qed.
Lemma csp_key f k (ro rot : string) known eps e rel rel' t m m' tr raws Ev :
  In f CG -> find_class k = f -> (forall c h v, parse_of f c h v = p_csp rot c h v) -> (forall c h, eval_of f c h = keep h (ev_csp ro rot c h)) -> (forall c h, post_of f c h = pc_csp rot c h) ->
  u ro = only_words k -> u rot = only_note k -> kind_of f = KList -> processed t k = true -> m_type m = t ->
  endpoint_names (mkCx e m' rel') = Ok eps -> (forall s, str_in s eps = known s) ->
  key_run e rel tr m m' raws k Ev ->
  map (deep csp_vars) (sel CP (emit t [] Ev)) = main_one the_weak k raws
  /\ exists h', dget k (s_handlers (sec tr m')) = Some h' /\ Forall (under CP CONTENT_SECURITY_POLICY) (post_evs e rel' m' tr h') /\ kids_of (post_evs e rel' m' tr h') = map miss (missing_one known k raws).
Proof.
  intros Hf Hk Hpa Hev Hpo Er Et K Hpr Tm He Hkn (evs & h & mi & h' & Fd & Ek & Hl & St & Km & Om & Ff & Hid & Fin & Hd). set (n := first_name k raws) in *.
  assert (Hi : ident any (lower n, new_handler n)) by (exists n; split; [exact I|split; [reflexivity|apply same_id_refl]]).
  assert (Hnn : find_class n = f) by (rewrite <- Hk, Ek; symmetry; apply find_class_lower).
  destruct (feeds_got e (still m) rel n _ _ _ _ Hi Fd) as [Hid2 Gt].
  assert (Ha : accepted (m_type (still m)) n = true) by (rewrite <- (accepted_lower _ n), <- Ek; change (m_type (still m)) with (m_type m); rewrite Tm, processed_eq; exact Hpr). rewrite Ha in Gt.
  pose proof (fed_defs e (still m) rel f rot n _ K Hnn Ha Hpa _ _ _ Hi Fd) as Df. cbn [new_handler] in Df. change (deferred (new_handler n)) with (@nil (nid * vars)) in Df. rewrite lines_vals in Df. cbn [app] in Df.
  assert (Hch : h_cls h = f) by (destruct Hid2 as [-> _]; exact Hnn).
  unfold got in Gt. cbn [new_handler h_cls] in Gt. rewrite Hnn, K in Gt. specialize (Gt [] eq_refl). cbn [app] in Gt.
  assert (Vl : h_val h = VList (map (fun p => str_dict_val (in_force p)) (members k raws))).
  { rewrite Gt. f_equal. unfold members. rewrite <- (lines_vals k (m_type m) raws). clear - Hpa Hnn. induction (lines_of k (m_type m) raws) as [|[v o] l IH]; [reflexivity|]. cbn [map fst flat_map]. rewrite IH, !map_app. f_equal.
    unfold line_vals. cbn [fst]. clear IH. induction (split_list_field v) as [|x xs IH]; [reflexivity|]. cbn [flat_map map]. rewrite IH. unfold elem_val, parsed_as. cbn [new_handler h_cls]. rewrite Hnn, Hpa, csp_parse. reflexivity. }
  assert (Df' : deferred h = flat_map (fun x => rep_notes rot (repeated x)) (members k raws)).
  { rewrite Df. unfold members. clear. induction (flat_map split_list_field (values k raws)) as [|x xs IH]; [reflexivity|]. cbn [flat_map map]. rewrite IH. reflexivity. }
  clear Gt Df. unfold finish_handler in Ff. rewrite Hch, K in Ff. unfold base_finish in Ff. rewrite Vl, Hch, Hev in Ff. rewrite (subject_module f k (csp_module f Hf) Hk) in Ff.
  unfold keep, ev_csp in Ff. rewrite Vl in Ff. cbn [truthy] in Ff. unfold main_one.
  assert (Post : forall hx, dget k (s_handlers (sec tr m')) = Some hx -> h_cls hx = f -> h_val hx = VList (map (fun p => str_dict_val (in_force p)) (members k raws)) ->
    Forall (under CP CONTENT_SECURITY_POLICY) (post_evs e rel' m' tr hx) /\ kids_of (post_evs e rel' m' tr hx) = map miss (missing_one known k raws)).
  { intros hx _ Hcx Hvx. unfold post_evs. rewrite Hvx, Hcx, Hpo. unfold pc_csp. rewrite Hvx. cbn [truthy]. unfold missing_one. destruct (members k raws) as [|p ps]; [split; [constructor|reflexivity]|].
    cbn [map nonempty negb]. change (str_dict_val (in_force p) :: map (fun p => str_dict_val (in_force p)) ps) with (map (fun p => str_dict_val (in_force p)) (p :: ps)). rewrite He, lift_ok, force_pairs, lift_ok.
    set (ds := flat_map in_force (p :: ps)).
    assert (X : fst (iterW (fun nv : str * str => when (str_eqb (fst nv) (u "report-to") && negb (str_in (snd nv) eps)) (tell [EKid CONTENT_SECURITY_POLICY CSP_REPORT_TO_MISSING [vs "endpoint" (snd nv); vs "report_only_text" (u rot)]])) ds)
              = map (fun mm => EKid CONTENT_SECURITY_POLICY CSP_REPORT_TO_MISSING (snd (miss mm))) (map (fun d => (snd d, only_note k)) (filter (fun d => str_eqb (fst d) (u "report-to") && negb (known (snd d))) ds))).
    { clear - Hkn Et. induction ds as [|[a b] ds IH]; [reflexivity|]. rewrite iter_cons by (destruct (_ && _); reflexivity). rewrite IH. cbn [filter fst snd]. rewrite Hkn.
      destruct (str_eqb a (u "report-to") && negb (known b)); [|reflexivity]. cbn [when tell fst map snd miss app]. rewrite Et. reflexivity. }
    rewrite X. generalize (map (fun d : str * str => (snd d, only_note k)) (filter (fun d => str_eqb (fst d) (u "report-to") && negb (known (snd d))) ds)). intros ms. unfold tag. rewrite map_map. split.
    - apply Forall_map, Forall_forall. intros x _. right. eexists _, _, _, _. split; reflexivity.
    - induction ms as [|x ms IH]; [reflexivity|]. cbn [map]. unfold kids_of in *. cbn [flat_map snd app]. rewrite IH. reflexivity. }
  destruct (members k raws) as [|p ps] eqn:Em.
  - cbn [map nonempty negb] in Ff. unfold bind, ret, finish_eval in Ff. injection Ff as <- Eh. split; [reflexivity|]. exists h'. split; [exact Hd|]. apply Post; [exact Hd| |].
    + destruct Hid as [-> _]. exact Hnn.
    + rewrite <- Eh. cbn [h_set_val h_val]. first [exact Vl|reflexivity].
  - cbn [map nonempty negb] in Ff. change (str_dict_val (in_force p) :: map (fun p => str_dict_val (in_force p)) ps) with (map (fun p => str_dict_val (in_force p)) (p :: ps)) in Ff. rewrite force_pairs, lift_ok in Ff.
    unfold bind, tell, ret, finish_eval in Ff. cbv zeta in Ff. injection Ff as <- Eh. split.
    + cbn [app tag map]. cbn [emit fold_left emit_one app sel filter mk_note n_cls].
      change (CP CONTENT_SECURITY_POLICY) with true. cbv iota. cbn [map]. f_equal. 
      rewrite deep_note; [|reflexivity|apply own_plain; reflexivity]. rewrite <- (subs_shown ro rot k (p :: ps) h Er Et Df'), <- Er, <- Et. reflexivity.
    + exists h'. split; [exact Hd|]. apply Post; [exact Hd| |].
      * destruct Hid as [-> _]. exact Hnn.
      * rewrite <- Eh. cbn [h_set_val h_val]. first [exact Vl|reflexivity].
Qed.
(** ** A run *)
Lemma flat_filter {A B} (p : A -> bool) (F : A -> list B) l : (forall x, In x l -> p x = false -> F x = []) -> flat_map F l = flat_map F (filter p l).
Proof.
  induction l as [|x l IH]; intros H; [reflexivity|]. cbn [flat_map filter]. rewrite IH by (intros y Hy; apply H; right; exact Hy). destruct (p x) eqn:E; [reflexivity|]. rewrite (H x (or_introl eq_refl) E). reflexivity.
Qed.
Lemma csp_silent g : In g CG -> silent CP g.
Proof. intros H. destruct H as [<-|[<-|[]]]; (apply silent_list; [reflexivity..|]; intros c h v; cbn [parse_of]; rewrite csp_parse; cbn [fst]; destruct (repeated v); repeat constructor). Qed.
Lemma csp_own ro rot c h : Forall own_ev (fst (keep h (ev_csp ro rot c h))).
Proof. rewrite keep_fst. unfold ev_csp. destruct (negb _); [constructor|]. destruct (csp_pairs _) as [l|x]; [rewrite lift_ok; repeat constructor|constructor]. Qed.
Lemma csp_settled g : In g CG -> settled g.
Proof.
  intros H. apply settled_quick; [destruct H as [<-|[<-|[]]]; reflexivity|]. destruct H as [<-|[<-|[]]]; (split; [intros c h _; apply csp_own|]); split; [|split| |split]; intros; constructor.
Qed.
(** The fields of the group, by their names. *)
Lemma csp_named raws k : hyphened (u "content-security-policy") raws -> hyphened (u "content-security-policy-report-only") raws -> In k (fields_seen raws) -> In (find_class k) CG <-> existsb (str_eqb k) csp_names = true.
Proof.
  intros H1 H2 Hk. split.
  - intros [H|[H|[]]].
    + pose proof (hyphened_spelled F_content_security_policy (u "content-security-policy") raws (csp_module _ (or_introl eq_refl)) eq_refl eq_refl H1) as Sp.
      assert (X : k = u "content-security-policy"); [|rewrite X; reflexivity]. unfold fields_seen in Hk. apply PropOrder.seen_in in Hk as [[]|(r & Hr & Hrk)]. unfold spelled in Sp. rewrite Forall_forall in Sp. rewrite <- Hrk. apply (Sp r Hr). rewrite H, <- Hrk. symmetry. apply find_class_lower.
    + pose proof (hyphened_spelled F_content_security_policy_report_only (u "content-security-policy-report-only") raws (csp_module _ (or_intror (or_introl eq_refl))) eq_refl eq_refl H2) as Sp.
      assert (X : k = u "content-security-policy-report-only"); [|rewrite X; reflexivity]. unfold fields_seen in Hk. apply PropOrder.seen_in in Hk as [[]|(r & Hr & Hrk)]. unfold spelled in Sp. rewrite Forall_forall in Sp. rewrite <- Hrk. apply (Sp r Hr). rewrite H, <- Hrk. symmetry. apply find_class_lower.
  - intros H. apply existsb_exists in H as (x & Hx & E). apply str_eqb_eq in E. subst x. destruct Hx as [<-|[<-|[]]]; [left|right; left]; vm_compute; reflexivity.
Qed.
Theorem C60_policies : forall e rel top headers chunks complete trailers t start nc head base m' rel',
  lint e rel top headers chunks complete trailers (new_linter t start nc head base) = (m', rel', Ok tt) -> t <> MRequest ->
  Forall (fun k => hyphened k headers /\ hyphened k trailers) csp_names -> unpadded (u "reporting-endpoints") headers ->
  exists w known, weak_ok w /\ decides known (endpoint e headers)
    /\ heard_deep (classes [CONTENT_SECURITY_POLICY; CSP_REPORT_TO_MISSING]) csp_vars (m_notes m') =
       with_missing (csp_missing known headers ++ csp_missing known trailers) (csp_main w headers ++ csp_main w trailers).
Proof.
  intros e rel top headers chunks complete trailers t start nc head base m' rel' E Ht Hy Hu. inversion Hy as [|? ? [Y1 Y2] Hy2]; subst. inversion Hy2 as [|? ? [Y3 Y4] _]; subst.
  destruct (endpoint_value e rel top headers chunks complete trailers t start nc head base m' rel' rel' E Ht Hu) as (eps & He & Hen).
  exists the_weak, (fun s => str_in s eps). split; [apply the_weak_ok|]. split; [intros s; rewrite str_in_In; apply Hen|].
  assert (Ou : ours_b CP CG = true) by (vm_compute; reflexivity). apply ours_b_ok in Ou.
  assert (Qu : quiet_b CP = true) by (vm_compute; reflexivity). apply quiet_b_ok in Qu.
  assert (T : m_type m' = t) by (destruct (lint_facts _ _ _ _ _ _ _ _ _ _ _ _ _ _ E) as (SM & _); unfold setup in SM; injection SM as X _ _ _ _; exact X).
  destruct (lint_group CP CG e rel top headers chunks complete trailers t start nc head base m' rel' E Ou Qu) as (mh & mt & Eh & Et & T1 & T2 & F1 & F2 & Hh & K1 & K2 & R1 & R2 & N).
  { apply Forall_forall, csp_silent. } { apply Forall_forall, csp_settled. } cbv zeta in N.
  set (known := fun s => str_in s eps).
  (* one section *)
  assert (Sec : forall tr raws m Ef, hyphened (u "content-security-policy") raws -> hyphened (u "content-security-policy-report-only") raws -> m_type m = t -> keys (s_handlers (sec tr m')) = fields_seen raws ->
      (forall x, In x (fields_seen raws) -> (~ In (find_class x) CG -> sel CP (emit t [] (Ef x)) = []) /\ key_run e rel tr m m' raws x (Ef x)) ->
      map (deep csp_vars) (flat_map (fun k => sel CP (emit t [] (Ef k))) (fields_seen raws)) = csp_main the_weak raws
      /\ Forall (under CP CONTENT_SECURITY_POLICY) (posts e rel' m' tr (s_handlers (sec tr m'))) /\ kids_of (posts e rel' m' tr (s_handlers (sec tr m'))) = map miss (csp_missing known raws)).
  { clear N R1 R2 T1 T2 F1 F2 Eh Et K1 K2. intros tr raws m Ef Z1 Z2 Tm Ks R.
    assert (Nd : NoDup (fields_seen raws)) by (apply PropOrder.seen_nodup; constructor).
    assert (Nm : forall x, In x (fields_seen raws) -> In (find_class x) CG <-> existsb (str_eqb x) csp_names = true) by (intros x Hx; apply (csp_named raws x Z1 Z2 Hx)).
    assert (One : forall x, In x (fields_seen raws) -> existsb (str_eqb x) csp_names = true ->
        map (deep csp_vars) (sel CP (emit t [] (Ef x))) = main_one the_weak x raws
        /\ exists h', dget x (s_handlers (sec tr m')) = Some h' /\ Forall (under CP CONTENT_SECURITY_POLICY) (post_evs e rel' m' tr h') /\ kids_of (post_evs e rel' m' tr h') = map miss (missing_one known x raws)).
    { intros x Hx Hc. destruct (R x Hx) as [_ Kr]. apply existsb_exists in Hc as (y & Hyy & Hc). apply str_eqb_eq in Hc. subst y. destruct Hyy as [Hyy|[Hyy|[]]]; rewrite <- Hyy in *.
      - apply (csp_key F_content_security_policy (u "content-security-policy") "" "" known eps e rel rel' t m m' tr raws (Ef (u "content-security-policy"))); try assumption; try (vm_compute; reflexivity); try reflexivity; [left; reflexivity|its_type].
      - apply (csp_key F_content_security_policy_report_only (u "content-security-policy-report-only") csp_ro ro_text known eps e rel rel' t m m' tr raws (Ef (u "content-security-policy-report-only"))); try assumption; try (vm_compute; reflexivity); try reflexivity; [right; left; reflexivity|its_type]. }
    assert (Off : forall x, In x (fields_seen raws) -> existsb (str_eqb x) csp_names = false -> ~ In (find_class x) CG) by (intros x Hx Hc C; apply (Nm x Hx) in C; congruence).
    assert (Id : forall x, In x (fields_seen raws) -> exists h', dget x (s_handlers (sec tr m')) = Some h' /\ h_cls h' = find_class x /\ fin_ok t h').
    { intros x Hx. destruct (R x Hx) as [_ (evs & h & mi & h' & _ & Ex & _ & _ & _ & _ & _ & Hid & Fin & Hd)]. exists h'. split; [exact Hd|]. rewrite Tm in Fin. split; [|exact Fin]. destruct Hid as (A1 & _). rewrite A1. cbn [new_handler h_cls]. rewrite Ex at 2. symmetry. apply find_class_lower. }
    assert (Un : forall x, In x (fields_seen raws) -> existsb (str_eqb x) csp_names = false -> exists h', dget x (s_handlers (sec tr m')) = Some h' /\ Forall (under CP CONTENT_SECURITY_POLICY) (post_evs e rel' m' tr h') /\ kids_of (post_evs e rel' m' tr h') = []).
    { intros x Hx Hc. destruct (Id x Hx) as (h' & Hd & Hcl & Fin). exists h'. split; [exact Hd|]. pose proof (Off x Hx Hc) as Nc. rewrite <- Hcl in Nc. pose proof Fin as Fin'. rewrite <- T in Fin'. pose proof (post_own CP CG e rel' m' tr h' Ou Nc Fin') as Np.
      assert (Ne : own (h_cls h') CONTENT_SECURITY_POLICY = false). { destruct (own (h_cls h') CONTENT_SECURITY_POLICY) eqn:O; [|reflexivity]. destruct (Ou CONTENT_SECURITY_POLICY eq_refl) as [_ X]. destruct (Nc (X _ O)). }
      pose proof (post_tame (h_cls h') (mkCx e m' rel') h' Ne) as Pt.
      assert (Nk : Forall (fun s : sev => own_ev (snd s)) (post_evs e rel' m' tr h')). { unfold post_evs. destruct (h_val h'); try (unfold tag; apply Forall_map; exact Pt). constructor. }
      split.
      - apply Forall_forall. intros s Hs. left. rewrite Forall_forall in Np, Nk. split; [apply Np, Hs|]. intros sj b p n vrs ->. apply (Nk _ Hs).
      - clear - Nk. induction Nk as [|s l Hs Hl IH]; [reflexivity|]. unfold kids_of in *. cbn [flat_map]. rewrite IH. destruct s as [[sj b] []]; try reflexivity. destruct Hs. }
    split; [|split].
    - unfold csp_main. unfold csp_fields. rewrite <- fields_eq.
      rewrite (flat_filter (fun k => existsb (str_eqb k) csp_names)) by (intros x Hx Hc; apply (R x Hx), (Off x Hx Hc)).
      assert (Sub : forall x, In x (filter (fun k => existsb (str_eqb k) csp_names) (fields_seen raws)) -> map (deep csp_vars) (sel CP (emit t [] (Ef x))) = main_one the_weak x raws) by (intros x Hx; apply filter_In in Hx as [Hx Hc]; apply (One x Hx Hc)).
      revert Sub. generalize (filter (fun k => existsb (str_eqb k) csp_names) (fields_seen raws)). induction l as [|x l IH]; intros Sub; [reflexivity|]. cbn [flat_map]. rewrite map_app, IH by (intros y Hyy; apply Sub; right; exact Hyy). rewrite (Sub x (or_introl eq_refl)). reflexivity.
    - unfold posts. rewrite (flat_handlers (post_evs e rel' m' tr)) by (rewrite Ks; exact Nd). rewrite Ks. apply Forall_flat_map, Forall_forall. intros x Hx.
      destruct (existsb (str_eqb x) csp_names) eqn:Hc; [destruct (One x Hx Hc) as [_ (h' & -> & U & _)]; exact U|destruct (Un x Hx Hc) as (h' & -> & U & _); exact U].
    - unfold posts. rewrite (flat_handlers (post_evs e rel' m' tr)) by (rewrite Ks; exact Nd). rewrite Ks.
      assert (Kf : forall (F : str -> list sev) l, kids_of (flat_map F l) = flat_map (fun x => kids_of (F x)) l) by (intros F l; induction l as [|x l IH]; [reflexivity|]; cbn [flat_map]; rewrite kids_app, IH; reflexivity).
      rewrite Kf. rewrite (flat_filter (fun k => existsb (str_eqb k) csp_names)) by (intros x Hx Hc; destruct (Un x Hx Hc) as (h' & -> & _ & Z); exact Z).
      unfold csp_missing, csp_fields. rewrite <- fields_eq.
      assert (Sub : forall x, In x (filter (fun k => existsb (str_eqb k) csp_names) (fields_seen raws)) -> kids_of (match dget x (s_handlers (sec tr m')) with Some h => post_evs e rel' m' tr h | None => [] end) = map miss (missing_one known x raws)).
      { intros x Hx. apply filter_In in Hx as [Hx Hc]. destruct (One x Hx Hc) as [_ (h' & -> & _ & Z)]. exact Z. }
      revert Sub. generalize (filter (fun k => existsb (str_eqb k) csp_names) (fields_seen raws)). induction l as [|x l IH]; intros Sub; [reflexivity|]. cbn [flat_map]. rewrite map_app, IH by (intros y Hyy; apply Sub; right; exact Hyy). rewrite (Sub x (or_introl eq_refl)). reflexivity. }
  destruct (Sec false headers mh Eh Y1 Y3 T1 K1 R1) as (A1 & A2 & A3). destruct (Sec true trailers mt Et Y2 Y4 T2 K2 R2) as (B1 & B2 & B3). cbn [sec] in *. clear Sec.
  assert (Un : Forall (under CP CONTENT_SECURITY_POLICY) (all_posts e rel' m')) by (unfold all_posts; apply Forall_app; split; assumption).
  assert (Kd : kids_of (all_posts e rel' m') = map miss (csp_missing known headers ++ csp_missing known trailers)) by (unfold all_posts; rewrite kids_app, map_app, A3, B3; reflexivity).
  assert (Hg : Forall (hangs CP) (all_posts e rel' m')).
  { eapply Forall_impl; [|exact Un]. intros s0 [[H _]|(sj & b & m & vrs & -> & Hm)]; [left; exact H|right]. exists sj, b, CONTENT_SECURITY_POLICY, m, vrs. auto. }
  assert (N' := N (fun a b Hab => eq_trans (emit_hangs CP t _ Hg a) (eq_trans (f_equal (fun z => sel CP (emit t z _)) Hab) (eq_sym (emit_hangs CP t _ Hg b))))). clear N.
  set (body := flat_map _ (fields_seen headers) ++ flat_map _ (fields_seen trailers)) in N'.
  assert (Bd : map (deep csp_vars) body = csp_main the_weak headers ++ csp_main the_weak trailers) by (unfold body; rewrite map_app, A1, B1; reflexivity).
  assert (Bs : sel CP body = body).
  { assert (Si : forall (F : str -> list sev) l, sel CP (flat_map (fun x => sel CP (emit t [] (F x))) l) = flat_map (fun x => sel CP (emit t [] (F x))) l).
    { intros F l. induction l as [|x l IH]; [reflexivity|]. cbn [flat_map]. rewrite sel_app, IH, sel_idem. reflexivity. }
    unfold body. rewrite sel_app, !Si. reflexivity. }
  unfold heard_deep. change (filter (fun n => CP (n_cls n)) (m_notes m')) with (sel CP (m_notes m')). rewrite N', <- Bd. clear A1 A2 A3 B1 B2 B3 N'.
  assert (Mc : forall x, In x (csp_main the_weak headers ++ csp_main the_weak trailers) -> fst (fst (fst x)) = CONTENT_SECURITY_POLICY).
  { intros x Hx. assert (M1 : forall l, In x (csp_main the_weak l) -> fst (fst (fst x)) = CONTENT_SECURITY_POLICY).
    { intros l Hl. unfold csp_main in Hl. apply in_flat_map in Hl as (k & _ & Hl). destruct (members k l); [destruct Hl|]. destruct Hl as [<-|[]]. reflexivity. }
    apply in_app_or in Hx as [Hx|Hx]; apply (M1 _ Hx). }
  destruct body as [|n ns] eqn:Eb.
  - cbn [map] in Bd. assert (Z : csp_missing known headers ++ csp_missing known trailers = []).
    { symmetry in Bd. apply app_eq_nil in Bd as [D1 D2]. assert (M0 : forall l, csp_main the_weak l = [] -> csp_missing known l = []).
      { intros l. unfold csp_main, csp_missing. induction (csp_fields l) as [|k ks IH]; [reflexivity|]. cbn [flat_map]. destruct (members k l) as [|p ps]; [|discriminate]. cbn [app flat_map filter map]. exact IH. }
      rewrite (M0 _ D1), (M0 _ D2). reflexivity. }
    rewrite Z in Kd. cbn [map] in *. cbn [with_missing].
    assert (Al : Forall (not_cls CP) (all_posts e rel' m')).
    { clear - Un Kd. induction Un as [|s l Hs Hl IH]; [constructor|]. unfold kids_of in Kd. cbn [flat_map] in Kd. apply app_eq_nil in Kd as [K1 K2]. constructor; [|apply IH, K2]. destruct Hs as [[H _]|(sj & b & n & vrs & -> & _)]; [exact H|discriminate K1]. }
    rewrite (emit_sel CP t _ [] Al). reflexivity.
  - assert (Hn : n_cls n = CONTENT_SECURITY_POLICY) by (apply (Mc (deep csp_vars n)); rewrite <- Bd; left; reflexivity).
    rewrite (emit_under CP CONTENT_SECURITY_POLICY t _ eq_refl Un n ns Hn Bs), Kd. cbn [map with_missing]. unfold deep at 1 3. cbn [more_kids n_cls n_subj n_vars n_kids]. unfold deep at 2 || idtac. f_equal. f_equal. rewrite map_app. f_equal. rewrite !map_map. apply map_ext. intros [a b]. cbn [miss fst snd].
    f_equal. unfold csp_vars. cbn [map]. rewrite !dget_dupdate.
    assert (Dn : exists vr kd, deep csp_vars n = (CONTENT_SECURITY_POLICY, n_subj n, [vr; kd; None; None], snd (deep csp_vars n))).
    { assert (X : In (deep csp_vars n) (csp_main the_weak headers ++ csp_main the_weak trailers)) by (rewrite <- Bd; left; reflexivity).
      assert (M1 : forall l, In (deep csp_vars n) (csp_main the_weak l) -> exists vr kd, deep csp_vars n = (CONTENT_SECURITY_POLICY, n_subj n, [vr; kd; None; None], snd (deep csp_vars n))).
      { intros l Hl. unfold csp_main in Hl. apply in_flat_map in Hl as (k & _ & Hl). destruct (members k l); [destruct Hl|]. destruct Hl as [Hl|[]]. rewrite <- Hl. eexists _, _. cbn [snd]. f_equal. f_equal. f_equal. unfold deep in Hl. congruence. }
      apply in_app_or in X as [X|X]; apply (M1 _ X). }
    destruct Dn as (vr & kd & Dn). unfold deep, csp_vars in Dn. cbn [map snd] in Dn. injection Dn as _ D1 D2 D3 D4.
    rewrite D1, D2, D3, D4. reflexivity.
Qed.
Print Assumptions C60_policies.
(** ** The values *)
Theorem C60_values : forall e t start base hs ts m' tr k, t <> MRequest -> run_of e t start base hs ts m' -> In k ["content-security-policy"; "content-security-policy-report-only"]%string ->
  let lines := section_lines tr hs ts in unpadded (u k) lines ->
  list_shown (fun policy x => x = VDict (map (fun d => (fst d, VStr (snd d))) (in_force policy))) k lines (value_in tr (u k) m').
Proof.
  intros e t start base hs ts m' tr k Ht R Hk lines U. destruct Hk as [<-|[<-|[]]].
  - apply (list_shows e t start base hs ts m' tr "content-security-policy" _ (fun v => str_dict_val (in_force v)) R U); try reflexivity; try discriminate; [its_type|].
    intros v. change (find_class (u "content-security-policy")) with F_content_security_policy. cbn [parse_of]. rewrite csp_parse. reflexivity.
  - apply (list_shows e t start base hs ts m' tr "content-security-policy-report-only" _ (fun v => str_dict_val (in_force v)) R U); try reflexivity; try discriminate; [its_type|].
    intros v. change (find_class (u "content-security-policy-report-only")) with F_content_security_policy_report_only. cbn [parse_of]. rewrite csp_parse. reflexivity.
Qed.
Print Assumptions C60_values.
(** ** Example *)
Definition csp_env : env :=
  mkEnv (look []) (look []) (look [("main=""/r"""%string, [(u "main", MItem (BStr (u "/r")) [])])]) (e_json env0) (e_urlsplit env0) (fun _ b => Ok b) (e_quote env0) (e_unquote env0)
        (e_unsplit env0) (e_idna env0) (e_utf8 env0) (e_codec env0) (e_decode env0) (e_chardet env0) (e_sniff env0) (e_rank env0)
        (e_b64 env0) (e_md5 env0) (e_float_str env0) (e_reltime env0) (e_repr env0) (e_display env0)
        (e_inflate env0) (e_brotli env0).
Definition csp_lines : list rawline := raws [("Content-Security-Policy-Report-Only", "script-src *; report-to main; report-to other"); ("Reporting-Endpoints", "main=""/r""");
  ("Content-Security-Policy", "default-src 'self' 'unsafe-inline'; report-uri /x, img-src http: a; REPORT-TO  away")]%string.
Example C60_ex : let '(m, _, r) := lint csp_env None (TopResponse (u "1.1") (u "200") None) csp_lines [] true [] (new_linter MResponse None false false []) in
  r = Ok tt /\ map (fun x => let '(n, s, _, subs) := x in (n, s, map (fun kv => (fst kv, nth 3 (snd kv) None)) subs)) (heard_deep (classes [CONTENT_SECURITY_POLICY; CSP_REPORT_TO_MISSING]) csp_vars (m_notes m)) =
    [(CONTENT_SECURITY_POLICY, u "field-content-security-policy-report-only", [(CSP_DUPLICATE_DIRECTIVE, None); (CSP_WIDE_OPEN, None); (CSP_REPORT_TO_MISSING, Some (VStr (u "away")))]);
     (CONTENT_SECURITY_POLICY, u "field-content-security-policy", [(CSP_DEPRECATED_REPORT_URI, None); (CSP_UNSAFE_INLINE, None); (CSP_HTTP_URI, None)])].
Proof. vm_compute. repeat split. Qed.
Example C60_ex_hyps : Forall (fun k => hyphened k csp_lines) csp_names /\ unpadded (u "reporting-endpoints") csp_lines
  /\ in_force (u "Report-To  away; x; report-to b") = [(u "report-to", u "away"); (u "x", [])].
Proof. split; [|split]; [repeat constructor; vm_compute; intros H; try discriminate H; reflexivity| |vm_compute; reflexivity]. split; try reflexivity; repeat constructor; vm_compute; intros H; try discriminate H; reflexivity. Qed.
