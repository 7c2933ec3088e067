(** * Tools for stating the notes of one field's own module (support). *)
From Coq Require Import Lia.
From Verif Require Import PyStr Regex Grammar NoteTable Note PyLib Utils FieldAttrs Types Fields1 Fields2 Fields3 Framework Checks Message
  EvLogic NoteLemmas TestEnv LexLemmas ParamLemmas NumLemmas NameLemmas FrameLemmas ContentLemmas BodyLemmas PassParse PassEval PassFrame PassSec PassProc PassRun Session SessionLemmas
  SectionLemmas SecNotes SecValues LintLemmas FieldSpec PropFields PropValues PropNames PropParse OwnLemmas ListSpec PropLists PropCC ListExamples FieldExamples PropInts FieldDue.
Open Scope N_scope.

(** ** Programs without [EKid] events *)
Definition nokid (e : ev) : Prop := match e with EKid _ _ _ => False | _ => True end.
Definition nk {A} (w : W A) : Prop := Forall nokid (fst w).
Lemma nk_direct {A} P (w : W A) : nk w -> Forall (direct P) (fst w).
Proof. apply Forall_impl. intros []; intros H; try exact I. destruct H. Qed.
Lemma nk_ret {A} (a : A) : nk (ret a). Proof. constructor. Qed.
Lemma nk_raise {A} x : nk (@raise A x). Proof. constructor. Qed.
Lemma nk_note n v : nk (add_note n v). Proof. repeat constructor. Qed.
Lemma nk_defer n v : nk (defer n v). Proof. repeat constructor. Qed.
Lemma nk_lift {A} (r : res A) : nk (lift r). Proof. constructor. Qed.
Lemma nk_bind {A B} (m : W A) (f : A -> W B) : nk m -> (forall a, nk (f a)) -> nk (bind m f).
Proof.
  intros H Hf. unfold nk, bind in *. destruct m as [l [a|x]]; cbn [fst] in *; [|exact H]. specialize (Hf a). destruct (f a) as [l' r]. cbn [fst] in *. apply Forall_app. auto.
Qed.
Lemma nk_when b m : nk m -> nk (when b m). Proof. destruct b; cbn; auto. intros _. constructor. Qed.
Lemma nk_mapW {A B} (f : A -> W B) l : (forall a, nk (f a)) -> nk (mapW f l).
Proof. intros H. induction l as [|a l IH]; cbn [mapW]; [apply nk_ret|]. apply nk_bind; [apply H|]. intros b. apply nk_bind; [exact IH|]. intros. apply nk_ret. Qed.
Lemma nk_iterW {A} (f : A -> W unit) l : (forall a, nk (f a)) -> nk (iterW f l).
Proof. intros H. unfold iterW. apply nk_bind; [apply nk_mapW, H|]. intros. apply nk_ret. Qed.
Lemma nk_foldW {A S} (f : S -> A -> W S) l : (forall s a, nk (f s a)) -> forall s, nk (foldW f l s).
Proof. intros H. induction l as [|a l IH]; intros s; cbn [foldW]; [apply nk_ret|]. apply nk_bind; [apply H|]. intros. apply IH. Qed.
Lemma nk_catch {A} (m h : W A) : nk m -> nk h -> nk (catch_value m h).
Proof. intros H1 H2. unfold nk, catch_value in *. destruct m as [l [a|x]]; [exact H1|]. destruct (is_ValueError x); [|exact H1]. destruct h as [l' r]. cbn [fst] in *. apply Forall_app. auto. Qed.
Ltac nks := repeat (cbv zeta; first
  [ apply nk_ret | apply nk_raise | apply nk_note | apply nk_defer | apply nk_lift | (apply nk_bind; [|intro]) | apply nk_when | (apply nk_iterW; intro) | (apply nk_mapW; intro)
  | (apply nk_foldW; intros ? ?) | apply nk_catch | match goal with |- nk (match ?x with _ => _ end) => destruct x end | (repeat constructor; fail) ]).
(** Parsers have none, but in Content-Security-Policy. *)
Lemma nk_parse f c h v : own f CONTENT_SECURITY_POLICY = false -> nk (parse_of f c h v).
Proof.
  intros H. destruct (parse_pass f c h v) as [X _]. unfold nk. eapply Forall_impl; [|exact X]. intros [] Y; try exact I. destruct Y as (_ & Y & _ & _ & ->). congruence.
Qed.

(** ** One field of a run *)
(** What the theorems need to know of a field: the classes are reported by this field
    alone, and by its own parser and evaluator. *)
Definition owns (cs : list nid) (f : fname) (k : str) : bool :=
  mine_b (classes cs) f && quiet_b (classes cs) && negb (has_post f) && existsb (fname_eqb f) module_fields && match nicknames f with [] => true | _ => false end
  && fname_eqb (find_class k) f && negb (own f CONTENT_SECURITY_POLICY).
Lemma owns_ok cs f k : owns cs f k = true -> mine (classes cs) f /\ quiet (classes cs) /\ has_post f = false /\ In f module_fields /\ nicknames f = [] /\ find_class k = f /\ own f CONTENT_SECURITY_POLICY = false.
Proof.
  unfold owns. intros H. apply andb_prop in H as [H H7]. apply andb_prop in H as [H H6]. apply andb_prop in H as [H H5]. apply andb_prop in H as [H H4]. apply andb_prop in H as [H H3]. apply andb_prop in H as [H1 H2].
  split; [apply mine_b_ok, H1|]. split; [apply quiet_b_ok, H2|]. split; [apply negb_true_iff, H3|]. split; [apply existsb_exists in H4 as (g & Hg & E); apply fname_eqb_eq in E; subst; exact Hg|].
  split; [destruct (nicknames f); [reflexivity|discriminate]|]. split; [apply fname_eqb_eq, H6|apply negb_true_iff, H7].
Qed.
Section One.
  Variables (cs : list nid) (ks : list str) (f : fname) (k : str) (p : str -> W pyval) (q : pyval -> W pyval).
  Variables (e : env) (rel : option mstate) (top : topline) (headers : list rawline) (chunks : list bytes) (complete : bool) (trailers : list rawline).
  Variables (t : mtype) (start : option Q) (nc head : bool) (base : str) (m' : mstate) (rel' : option mstate).
  Let C := front (begun e top (new_linter t start nc head base)).
  Lemma single_notes :
    lint e rel top headers chunks complete trailers (new_linter t start nc head base) = (m', rel', Ok tt) ->
    owns cs f k = true -> own_keys ks = true -> kind_of f = KSingleton -> processed t k = true -> hyphened k headers -> hyphened k trailers ->
    (forall V h v, front V = C -> h_cls h = f -> parse_of f (mkCx e V rel) h v = p v) ->
    (forall V h, front V = C -> h_cls h = f -> says_like (classes cs) ks (eval_of f (mkCx e V rel) h) (q (h_val h))) ->
    heard (classes cs) ks (m_notes m') = single_says (classes cs) ks k p q headers ++ single_says (classes cs) ks k p q trailers.
  Proof.
    intros E Ho Hk Hkind Hpr H1 H2 Hp Hq. apply owns_ok in Ho as (O1 & O2 & O3 & O4 & O5 & O6 & O7).
    apply (single_own_top (classes cs) ks f k p q e rel top headers chunks complete trailers t start nc head base m' rel' E); try assumption.
    intros v. set (h := mkHandler f [] [] [] VNone [] false []). rewrite <- (Hp (begun e top (new_linter t start nc head base)) h v eq_refl eq_refl). apply nk_direct, nk_parse, O7.
  Qed.
  Lemma list_notes :
    lint e rel top headers chunks complete trailers (new_linter t start nc head base) = (m', rel', Ok tt) ->
    owns cs f k = true -> own_keys ks = true -> kind_of f = KList -> processed t k = true -> hyphened k headers -> hyphened k trailers ->
    (forall V h v, front V = C -> h_cls h = f -> parse_of f (mkCx e V rel) h v = p v) ->
    (forall V h, front V = C -> h_cls h = f -> says_like (classes cs) ks (eval_of f (mkCx e V rel) h) (q (h_val h))) ->
    heard (classes cs) ks (m_notes m') = list_says (classes cs) ks t k p q headers ++ list_says (classes cs) ks t k p q trailers.
  Proof.
    intros E Ho Hk Hkind Hpr H1 H2 Hp Hq. apply owns_ok in Ho as (O1 & O2 & O3 & O4 & O5 & O6 & O7).
    apply (list_own_top (classes cs) ks f k p q e rel top headers chunks complete trailers t start nc head base m' rel' E); try assumption; [left; exact O3|].
    intros v. set (h := mkHandler f [] [] [] VNone [] false []). rewrite <- (Hp (begun e top (new_linter t start nc head base)) h v eq_refl eq_refl). apply nk_direct, nk_parse, O7.
  Qed.
End One.
(** ** The start of a message stays *)
Lemma lint_front e rel top headers chunks complete trailers t start nc head base m' rel' :
  lint e rel top headers chunks complete trailers (new_linter t start nc head base) = (m', rel', Ok tt) ->
  front m' = front (begun e top (new_linter t start nc head base)).
Proof.
  intros E. unfold lint, then_ in E. unfold begun.
  destruct (start_line e top (new_linter t start nc head base)) as [m0 [[]|x]]; [|discriminate]. cbn [fst].
  pose proof (process_headers_frame e rel headers m0) as F1. destruct (process_headers e rel headers m0) as [m1 [[]|x]]; [|discriminate]. cbn [fst] in F1.
  pose proof (feed_all_body e chunks m1) as F2. destruct (feed_all e chunks m1) as [m2 [[]|x]]; [|discriminate]. cbn [fst] in F2.
  destruct (finish_content_frame e rel complete trailers m2) as [F3 _]. rewrite E in F3. cbn [fst] in F3.
  transitivity (front m2); [rewrite F3; reflexivity|]. transitivity (front m1); [rewrite F2; reflexivity|]. rewrite F1. reflexivity.
Qed.
(** Fields whose evaluator needs nothing but the value, the start of the message
    and the related message. *)
Definition plain (f : fname) : bool :=
  match f with
  | F_tcn | F__unnecessary | F_clear_site_data | F_content_length | F_content_security_policy | F_content_security_policy_report_only | F_date | F_last_modified
  | F_set_cookie | F_strict_transport_security | F_cross_origin_embedder_policy_report_only | F_cross_origin_opener_policy_report_only => false
  | _ => true
  end.
Lemma parse_front f e V V' rel h h' v : plain f = true -> front V = front V' -> parse_of f (mkCx e V rel) h v = parse_of f (mkCx e V' rel) h' v.
Proof. intros N H. destruct V, V', h, h'. injection H as -> -> -> -> -> -> ->. destruct f; try discriminate N; reflexivity. Qed.
Lemma eval_front f e V V' rel h h' : plain f = true -> front V = front V' -> Types.h_val h = Types.h_val h' -> eval_of f (mkCx e V rel) h = eval_of f (mkCx e V' rel) h'.
Proof.
  intros N H. destruct V, V', h, h'. injection H as -> -> -> -> -> -> ->. cbn [Types.h_val]. intros ->. destruct f; try discriminate N; reflexivity.
Qed.
Definition blank_of (f : fname) (x : pyval) : handler := mkHandler f [] [] [] x [] false [].
Definition par (f : fname) (e : env) (rel : option mstate) (m' : mstate) (v : str) : W pyval := parse_of f (mkCx e m' rel) (blank_of f VNone) v.
Definition eva (f : fname) (e : env) (rel : option mstate) (m' : mstate) (x : pyval) : W pyval := eval_of f (mkCx e m' rel) (blank_of f x).
Section Run.
  Variables (cs : list nid) (ks : list str) (f : fname) (k : str).
  Variables (e : env) (rel : option mstate) (top : topline) (headers : list rawline) (chunks : list bytes) (complete : bool) (trailers : list rawline).
  Variables (t : mtype) (start : option Q) (nc head : bool) (base : str) (m' : mstate) (rel' : option mstate).
  Hypothesis E : lint e rel top headers chunks complete trailers (new_linter t start nc head base) = (m', rel', Ok tt).
  Hypothesis Ho : owns cs f k && own_keys ks && plain f && processed t k = true.
  Hypothesis Hk : forall x, nk (eva f e rel m' x).
  Hypotheses (H1 : hyphened k headers) (H2 : hyphened k trailers).
  Lemma single_run : kind_of f = KSingleton ->
    heard (classes cs) ks (m_notes m') = single_says (classes cs) ks k (par f e rel m') (eva f e rel m') headers ++ single_says (classes cs) ks k (par f e rel m') (eva f e rel m') trailers.
  Proof.
    intros Kd. apply andb_prop in Ho as [Ho' P1]. apply andb_prop in Ho' as [Ho' P2]. apply andb_prop in Ho' as [P4 P3].
    apply (single_notes cs ks f k (par f e rel m') (eva f e rel m') e rel top headers chunks complete trailers t start nc head base m' rel' E); try assumption.
    - intros V h v HV Hh. apply parse_front; [exact P2|]. rewrite HV. symmetry. apply (lint_front _ _ _ _ _ _ _ _ _ _ _ _ _ _ E).
    - intros V h HV Hh. assert (X : eval_of f (mkCx e V rel) h = eva f e rel m' (h_val h)).
      { apply eval_front; [exact P2| |reflexivity]. rewrite HV. symmetry. apply (lint_front _ _ _ _ _ _ _ _ _ _ _ _ _ _ E). }
      rewrite X. split; [apply nk_direct, Hk|reflexivity].
  Qed.
  Lemma list_run : kind_of f = KList ->
    heard (classes cs) ks (m_notes m') = list_says (classes cs) ks t k (par f e rel m') (eva f e rel m') headers ++ list_says (classes cs) ks t k (par f e rel m') (eva f e rel m') trailers.
  Proof.
    intros Kd. apply andb_prop in Ho as [Ho' P1]. apply andb_prop in Ho' as [Ho' P2]. apply andb_prop in Ho' as [P4 P3].
    apply (list_notes cs ks f k (par f e rel m') (eva f e rel m') e rel top headers chunks complete trailers t start nc head base m' rel' E); try assumption.
    - intros V h v HV Hh. apply parse_front; [exact P2|]. rewrite HV. symmetry. apply (lint_front _ _ _ _ _ _ _ _ _ _ _ _ _ _ E).
    - intros V h HV Hh. assert (X : eval_of f (mkCx e V rel) h = eva f e rel m' (h_val h)).
      { apply eval_front; [exact P2| |reflexivity]. rewrite HV. symmetry. apply (lint_front _ _ _ _ _ _ _ _ _ _ _ _ _ _ E). }
      rewrite X. split; [apply nk_direct, Hk|reflexivity].
  Qed.
End Run.
(** The line of a note and the notes of a section. *)
Lemma reports_map cs ns l : heard (classes cs) [] ns = l -> reports cs ns = map fst l.
Proof. intros <-. apply reports_heard. Qed.
(** ** From events to the notes due *)
Lemma has_sub_occurs s t : has_sub s t = true <-> occurs s t.
Proof.
  assert (S : forall p x, startswith p x = true <-> exists b, x = p ++ b).
  { induction p as [|a p IH]; intros [|c x]; cbn [startswith app]; split; intros H; try reflexivity; try discriminate; eauto.
    - destruct H as (b & H). discriminate.
    - apply andb_prop in H as [H1 H2]. apply N.eqb_eq in H1. apply IH in H2 as (b & ->). subst. eauto.
    - destruct H as (b & H). injection H as -> ->. rewrite N.eqb_refl. apply IH. eauto. }
  unfold occurs. induction t as [|c t IH]; cbn [has_sub].
  - rewrite orb_false_r, S. split; [intros (b & H); exists [], b; exact H|]. intros (a & b & H). symmetry in H. apply app_eq_nil in H as [-> H]. exists b. symmetry. exact H.
  - rewrite orb_true_iff, S, IH. split.
    + intros [(b & H)|(a & b & H)]; [exists [], b; exact H|exists (c :: a), b; rewrite H; reflexivity].
    + intros ([|x a] & b & H); [left; eauto|]. injection H as -> ->. right. eauto.
Qed.
Lemma single_is cs k p q due l :
  (forall v, map fst (speak (classes cs) [] (about_field k) (fst (p v) ++ match snd (p v) with Ok x => match x with VNone => [] | _ => fst (q x) end | Err _ => [] end)) = map (fun c => (c, about_field k)) (due v)) ->
  map fst (single_says (classes cs) [] k p q l) = single_due k due l.
Proof. intros H. unfold single_says, single_due, first_line. destruct (values k l) as [|v x]; [reflexivity|]. apply H. Qed.
Lemma members_elements t k l : members k l = map strip (map fst (elements t k l)).
Proof. unfold members. rewrite (elements_values t). reflexivity. Qed.
Lemma list_is cs t k p q due1 due l :
  (forall v s, map fst (speak (classes cs) [] s (fst (p v))) = map (fun c => (c, s)) (due1 v)) ->
  (forall vs, map fst (speak (classes cs) [] (about_field k) (fst (q (VList (flat_map (fun v => match snd (p v) with Ok x => [x] | Err _ => [] end) vs))))) = map (fun c => (c, about_field k)) (due vs)) ->
  map fst (list_says (classes cs) [] t k p q l) = member_due t k due1 l ++ list_due k due l.
Proof.
  intros H1 H2. unfold list_says, member_due, list_due. rewrite map_app. f_equal.
  - unfold elements. rewrite flat_map_flat_map. induction (field_lines_of t k l) as [|[r n] x IH]; [reflexivity|]. cbn [flat_map fst snd]. rewrite map_app, IH. f_equal.
    clear IH. induction (split_list_field (value_of r)) as [|v y IH]; [reflexivity|]. cbn [map flat_map fst snd]. rewrite map_app, IH, H1. reflexivity.
  - rewrite (members_elements t), <- H2. destruct (values k l); [reflexivity|]. cbn [nonempty]. f_equal. f_equal. f_equal. f_equal. f_equal. unfold parses.
    induction (map fst (elements t k l)) as [|v y IH]; [reflexivity|]. cbn [map flat_map]. rewrite IH. reflexivity.
Qed.
Lemma member_none t k l : member_due t k (fun _ => []) l = [].
Proof. unfold member_due. induction (field_lines_of t k l) as [|[r n] x IH]; [reflexivity|]. cbn [flat_map fst snd]. rewrite IH, app_nil_r. induction (split_list_field (value_of r)) as [|v y IHv]; [reflexivity|exact IHv]. Qed.
(** The two together: what a theorem about a field has to show. *)
Ltac begins := match goal with E : lint _ _ _ _ _ _ _ _ = _ |- _ => pose proof (lint_front _ _ _ _ _ _ _ _ _ _ _ _ _ _ E) end.
Section Due.
  Variables (cs : list nid) (f : fname) (k : str).
  Variables (e : env) (rel : option mstate) (top : topline) (headers : list rawline) (chunks : list bytes) (complete : bool) (trailers : list rawline).
  Variables (t : mtype) (start : option Q) (nc head : bool) (base : str) (m' : mstate) (rel' : option mstate).
  Hypothesis E : lint e rel top headers chunks complete trailers (new_linter t start nc head base) = (m', rel', Ok tt).
  Hypothesis Ho : owns cs f k && plain f && processed t k = true.
  Hypothesis Hk : forall x, nk (eva f e rel m' x).
  Hypotheses (H1 : hyphened k headers) (H2 : hyphened k trailers).
  Lemma ho' : owns cs f k && own_keys [] && plain f && processed t k = true.
  Proof. rewrite andb_true_r. exact Ho. Qed.
  Lemma single_run_due due : kind_of f = KSingleton ->
    (forall v, map fst (speak (classes cs) [] (about_field k) (fst (par f e rel m' v) ++ match snd (par f e rel m' v) with Ok x => match x with VNone => [] | _ => fst (eva f e rel m' x) end | Err _ => [] end))
               = map (fun c => (c, about_field k)) (due v)) ->
    reports cs (m_notes m') = single_due k due headers ++ single_due k due trailers.
  Proof.
    intros Kd Hd. rewrite (reports_map _ _ _ (single_run cs [] f k e rel top headers chunks complete trailers t start nc head base m' rel' E ho' Hk H1 H2 Kd)), map_app.
    rewrite !(single_is cs k _ _ due) by exact Hd. reflexivity.
  Qed.
  Lemma list_run_due due1 due : kind_of f = KList ->
    (forall v s, map fst (speak (classes cs) [] s (fst (par f e rel m' v))) = map (fun c => (c, s)) (due1 v)) ->
    (forall vs, map fst (speak (classes cs) [] (about_field k) (fst (eva f e rel m' (VList (flat_map (fun v => match snd (par f e rel m' v) with Ok x => [x] | Err _ => [] end) vs)))))
                = map (fun c => (c, about_field k)) (due vs)) ->
    reports cs (m_notes m') = (member_due t k due1 headers ++ list_due k due headers) ++ member_due t k due1 trailers ++ list_due k due trailers.
  Proof.
    intros Kd Hd1 Hd. rewrite (reports_map _ _ _ (list_run cs [] f k e rel top headers chunks complete trailers t start nc head base m' rel' E ho' Hk H1 H2 Kd)), map_app.
    rewrite !(list_is cs t k _ _ due1 due) by assumption. reflexivity.
  Qed.
End Due.
Ltac its_type := match goal with |- context [processed ?t _] => destruct t; try congruence; vm_compute; reflexivity end.
(** Strings parsed one by one and read back. *)
Lemma strs_back (g : str -> str) vs : flat_map (fun v => match snd (@ret pyval (VStr (g v))) with Ok x => [x] | Err _ => [] end) vs = map VStr (map g vs).
Proof. induction vs as [|v vs IH]; [reflexivity|]. cbn [flat_map map]. rewrite IH. reflexivity. Qed.
Lemma str_in_one l s : str_in s (map u l) = one_of l s.
Proof. unfold str_in, one_of. induction l as [|x l IH]; [reflexivity|]. cbn [map existsb]. rewrite IH. reflexivity. Qed.
Lemma one_single x s : one_of [x] s = str_eqb s (u x).
Proof. unfold one_of. cbn [existsb]. apply orb_false_r. Qed.
Lemma speak_app P ks s a b : speak P ks s (a ++ b) = speak P ks s a ++ speak P ks s b.
Proof. apply flat_map_app. Qed.
Lemma bind_note {A} n vrs (w : W A) : fst (add_note n vrs ;;; w) = ENote n None vrs [] :: fst w.
Proof. unfold bind, add_note, tell. destruct w as [l r]. reflexivity. Qed.
Lemma bind_when {A} b (m : W unit) (w : W A) : snd m = Ok tt -> fst (when b m ;;; w) = (if b then fst m else []) ++ fst w.
Proof. intros H. destruct b; cbn [when]; [|unfold bind, ret; destruct w; reflexivity]. unfold bind. destruct m as [l [[]|x]]; cbn [snd] in H; [|discriminate]. destruct w. reflexivity. Qed.
Lemma bind_iter {A B} (g : A -> W unit) (l : list A) (w : W B) : (forall a, snd (g a) = Ok tt) -> fst (iterW g l ;;; w) = flat_map (fun a => fst (g a)) l ++ fst w.
Proof.
  intros H. unfold iterW. revert w. induction l as [|a l IH]; intros w; cbn [mapW]; [unfold bind, ret; destruct w; reflexivity|]. cbn [flat_map].
  specialize (H a). destruct (g a) as [l1 [[]|x]]; cbn [snd] in H; [|discriminate]. cbn [fst]. rewrite <- app_assoc, <- IH.
  unfold bind, ret. destruct (mapW g l) as [l2 [bs|x]]; destruct w as [l3 r]; cbn [fst app]; rewrite ?app_nil_r, ?app_assoc; reflexivity.
Qed.
Lemma keep_fst h m : fst (keep h m) = fst m.
Proof. unfold keep, bind, ret. destruct m as [l [a|x]]; [apply app_nil_r|reflexivity]. Qed.
(** ** Programs that only report *)
Definition tells (l : list ev) (cs : list nid) : Prop := Forall2 (fun e n => exists c vrs kids, e = ENote n c vrs kids) l cs.
Lemma tells_app a b x y : tells a x -> tells b y -> tells (a ++ b) (x ++ y).
Proof. apply Forall2_app. Qed.
Lemma tells_nil : tells [] []. Proof. constructor. Qed.
Lemma tells_one n vrs : tells [ENote n None vrs []] [n]. Proof. constructor; [do 3 eexists; reflexivity|constructor]. Qed.
Definition does {A} (w : W A) (l : list nid) (r : res A) : Prop := tells (fst w) l /\ snd w = r.
Lemma does_ret {A} (a : A) : does (ret a) [] (Ok a). Proof. split; [constructor|reflexivity]. Qed.
Lemma does_raise {A} x : does (@raise A x) [] (Err x). Proof. split; [constructor|reflexivity]. Qed.
Lemma does_lift {A} (r : res A) : does (lift r) [] r. Proof. split; [constructor|reflexivity]. Qed.
Lemma does_bind {A B} (w : W A) (f : A -> W B) l a l' r : does w l (Ok a) -> does (f a) l' r -> does (bind w f) (l ++ l') r.
Proof.
  intros [H1 H2] [H3 H4]. destruct w as [x r0]. cbn [fst snd] in *. subst r0. unfold bind. destruct (f a) as [y r1]. cbn [fst snd] in *. split; [apply tells_app; assumption|exact H4].
Qed.
Lemma does_err {A B} (w : W A) (f : A -> W B) l x : does w l (Err x) -> does (bind w f) l (Err x).
Proof. intros [H1 H2]. destruct w as [y r0]. cbn [fst snd] in *. subst r0. split; [exact H1|reflexivity]. Qed.
Lemma does_note n vrs : does (add_note n vrs) [n] (Ok tt). Proof. split; [apply tells_one|reflexivity]. Qed.
Lemma does_when b n vrs : does (when b (add_note n vrs)) (only b n) (Ok tt).
Proof. destruct b; [apply does_note|apply does_ret]. Qed.
Lemma does_note_then {A} n vrs (w : W A) l r : does w l r -> does (add_note n vrs ;;; w) (n :: l) r.
Proof. intros H. change (n :: l) with ([n] ++ l). eapply does_bind; [apply does_note|exact H]. Qed.
Lemma tells_speak cs s l c : tells l c -> Forall (fun n => In n cs) c -> map fst (speak (classes cs) [] s l) = map (fun n => (n, s)) c.
Proof.
  intros T. induction T as [|x n l c (cat & vrs & kids & ->) T IH]; intros F; [reflexivity|]. inversion F as [|? ? F1 F2]. subst. cbn [speak flat_map utter map].
  assert (classes cs n = true). { apply existsb_exists. exists n. split; [exact F1|]. apply nid_eqb_eq. reflexivity. }
  rewrite H. cbn [app map fst]. rewrite <- (IH F2). reflexivity.
Qed.
(** The classes an event list names. *)
Definition named (l : list ev) : list nid := flat_map (fun e => match e with ENote n _ _ _ => [n] | _ => [] end) l.
Lemma tells_named l c : tells l c -> named l = c.
Proof. intros T. induction T as [|x n l c (cat & vrs & kids & ->) T IH]; [reflexivity|]. cbn [named flat_map app]. rewrite <- IH. reflexivity. Qed.
(** A singleton field whose notes follow rules. *)
Lemma single_run_rules (R : str -> list nid -> Prop) cs f k e rel top headers chunks complete trailers t start nc head base m' rel' :
  lint e rel top headers chunks complete trailers (new_linter t start nc head base) = (m', rel', Ok tt) ->
  owns cs f k && plain f && processed t k = true -> (forall x, nk (eva f e rel m' x)) -> hyphened k headers -> hyphened k trailers -> kind_of f = KSingleton ->
  (forall v, exists l, R v l /\ Forall (fun n => In n cs) l
     /\ tells (fst (par f e rel m' v) ++ match snd (par f e rel m' v) with Ok x => match x with VNone => [] | _ => fst (eva f e rel m' x) end | Err _ => [] end) l) ->
  exists due, (forall v, R v (due v)) /\ reports cs (m_notes m') = single_due k due headers ++ single_due k due trailers.
Proof.
  intros E Ho Hk H1 H2 Kd H. set (evs := fun v => fst (par f e rel m' v) ++ match snd (par f e rel m' v) with Ok x => match x with VNone => [] | _ => fst (eva f e rel m' x) end | Err _ => [] end) in *.
  exists (fun v => named (evs v)). split.
  - intros v. destruct (H v) as (l & Hr & _ & T). assert (N : named (evs v) = l) by apply (tells_named _ _ T). rewrite N. exact Hr.
  - apply (single_run_due cs f k e rel top headers chunks complete trailers t start nc head base m' rel' E Ho Hk H1 H2 _ Kd).
    intros v. destruct (H v) as (l & _ & F & T). change (map fst (speak (classes cs) [] (about_field k) (evs v)) = map (fun c => (c, about_field k)) (named (evs v))).
    assert (N : named (evs v) = l) by apply (tells_named _ _ T). rewrite N. apply tells_speak; assumption.
Qed.
(** Members of a list field whose notes follow rules. *)
Lemma tells_due {V} (evs : V -> list ev) cs : (forall v, exists l, tells (evs v) l /\ Forall (fun n => In n cs) l) ->
  forall v s, map fst (speak (classes cs) [] s (evs v)) = map (fun c => (c, s)) (named (evs v)).
Proof. intros H v s. destruct (H v) as (l & T & F). rewrite (tells_named _ _ T). apply tells_speak; assumption. Qed.
(** The value of a singleton field. *)
Lemma single_value e t start base hs ts m' tr k : run_of e t start base hs ts m' -> unpadded k (section_lines tr hs ts) -> processed t k = true -> kind_of (find_class k) = KSingleton ->
  value_in tr k m' = match first_line k (section_lines tr hs ts) with
    | None => None
    | Some v => Some (match snd (parse_of (find_class k) (mkCx e (core (new_linter t start false false base)) None) nobody v) with Ok x => x | Err _ => VNone end)
    end.
Proof.
  intros R U Hp Kd. rewrite (run_value _ _ _ _ _ _ _ _ _ R U). unfold first_line. destruct (values k _) as [|v more]; [reflexivity|]. cbn [nonempty].
  rewrite <- processed_eq in Hp. unfold field_value. change (m_type (new_linter t start false false base)) with t. rewrite Hp, Kd. unfold parsed_as.
  destruct (snd _); reflexivity.
Qed.
