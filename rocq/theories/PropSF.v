(** * C53: structured fields. *)
From Coq Require Import Lia ZifyBool ZifyN QArith Sorting.Sorted Permutation.
From Verif Require Import PyStr Regex Grammar NoteTable Note PyLib Utils FieldAttrs Types Fields1 Fields2 Fields3 Framework Checks Message
  EvLogic NoteLemmas TestEnv LexLemmas ParamLemmas NumLemmas PassParse Session SessionLemmas SecNotes SecValues LintLemmas FieldSpec PropFields PropValues PropNames PropParse PropTop PropCli OwnLemmas ListSpec PropLists PropCC ListExamples FieldExamples
  PropInts FieldDue OwnTac OwnMore CodingSpec PropCodings CookieSpec PropCookies PrefSpec PropPrefs PlainSpec PropPlain LinkSpec PropLink SFSpec.
Open Scope N_scope.

(** ** Notes as pairs *)
Definition tame (e : ev) : Prop := match e with EKid _ _ _ | EMsg _ _ _ => False | _ => True end.
Definition tm {A} (w : W A) : Prop := Forall tame (fst w).
Lemma tm_nk {A} (w : W A) : tm w -> nk w.
Proof. apply Forall_impl. intros []; intros H; try exact I. destruct H. Qed.
Lemma tm_ret {A} (a : A) : tm (ret a). Proof. constructor. Qed.
Lemma tm_raise {A} x : tm (@raise A x). Proof. constructor. Qed.
Lemma tm_note n v : tm (add_note n v). Proof. repeat constructor. Qed.
Lemma tm_lift {A} (r : res A) : tm (lift r). Proof. constructor. Qed.
Lemma tm_bind {A B} (m : W A) (f : A -> W B) : tm m -> (forall a, tm (f a)) -> tm (bind m f).
Proof.
  intros H Hf. unfold tm, bind in *. destruct m as [l [a|x]]; cbn [fst] in *; [|exact H]. specialize (Hf a). destruct (f a) as [l' r]. cbn [fst] in *. apply Forall_app. auto.
Qed.
Lemma tm_when b m : tm m -> tm (when b m). Proof. destruct b; cbn; auto. intros _. constructor. Qed.
Lemma tm_mapW {A B} (f : A -> W B) l : (forall a, tm (f a)) -> tm (mapW f l).
Proof. intros H. induction l as [|a l IH]; cbn [mapW]; [apply tm_ret|]. apply tm_bind; [apply H|]. intros b. apply tm_bind; [exact IH|]. intros. apply tm_ret. Qed.
Lemma tm_iterW {A} (f : A -> W unit) l : (forall a, tm (f a)) -> tm (iterW f l).
Proof. intros H. unfold iterW. apply tm_bind; [apply tm_mapW, H|]. intros. apply tm_ret. Qed.
Ltac tms := repeat (cbv zeta; first
  [ apply tm_ret | apply tm_raise | apply tm_note | apply tm_lift | (apply tm_iterW; intro) | (apply tm_mapW; intro) | (apply tm_bind; [|intro]) | apply tm_when
  | match goal with |- tm (match ?x with _ => _ end) => destruct x end | (repeat constructor; fail) ]).
Definition pair_of (P : nid -> bool) (ks : list str) (e : ev) : list (nid * list (option pyval)) :=
  match e with ENote n _ vrs _ => if P n then [(n, map (fun k => dlast k vrs) ks)] else [] | _ => [] end.
Definition pairs (P : nid -> bool) (ks : list str) (l : list ev) : list (nid * list (option pyval)) := flat_map (pair_of P ks) l.
Lemma speak_pairs P ks s l : Forall tame l -> speak P ks s l = map (fun x => (fst x, s, snd x)) (pairs P ks l).
Proof.
  induction l as [|e l IH]; intros H; [reflexivity|]. inversion H as [|? ? He Hl]; subst. change (pairs P ks (e :: l)) with (pair_of P ks e ++ pairs P ks l). rewrite map_app, <- (IH Hl). cbn [speak flat_map]. f_equal.
  destruct e; cbn [tame] in He; try reflexivity; try destruct He. cbn [utter pair_of]. destruct (P cls); reflexivity.
Qed.
Lemma pairs_app P ks a b : pairs P ks (a ++ b) = pairs P ks a ++ pairs P ks b. Proof. apply flat_map_app. Qed.
Lemma pairs_bind {A} P ks (w : W unit) (f : unit -> W A) : snd w = Ok tt -> pairs P ks (fst (bind w f)) = pairs P ks (fst w) ++ pairs P ks (fst (f tt)).
Proof. intros H. unfold bind. destruct w as [l r]. cbn [snd fst] in *. subst r. destruct (f tt) as [l' r']. cbn [fst]. apply pairs_app. Qed.
Lemma pairs_iter {A} P ks (g : A -> W unit) l : (forall a, In a l -> snd (g a) = Ok tt) -> pairs P ks (fst (iterW g l)) = concat (map (fun a => pairs P ks (fst (g a))) l).
Proof.
  intros H. rewrite iter_in by exact H. clear H. induction l as [|a l IH]; [reflexivity|]. cbn [flat_map map concat]. rewrite pairs_app, IH. reflexivity.
Qed.
Lemma each_iter {A} P ks (R : A -> list (nid * list (option pyval)) -> Prop) (g : A -> W unit) l :
  (forall a, In a l -> snd (g a) = Ok tt /\ R a (pairs P ks (fst (g a)))) -> each R l (pairs P ks (fst (iterW g l))).
Proof.
  intros H. rewrite pairs_iter by (intros; apply H; assumption). eexists. split; [|reflexivity]. induction l as [|a l IH]; constructor; [apply H; left; reflexivity|]. apply IH. intros b Hb. apply H. right. exact Hb.
Qed.

(** ** One structured field of a run *)
Section SF.
  Variables (cs : list nid) (ks : list str) (f : fname) (k : string) (ty : sftype).
  Variables (e : env) (rel : option mstate) (top : topline) (headers : list (bytes * bytes)) (chunks : list bytes) (complete : bool) (trailers : list (bytes * bytes))
    (t : mtype) (start : option Q) (nc head : bool) (base : str) (m' : mstate) (rel' : option mstate).
  Hypothesis E : lint e rel top headers chunks complete trailers (new_linter t start nc head base) = (m', rel', Ok tt).
  Hypothesis Ho : owns cs f (u k) && own_keys ks && plain f && processed t (u k) = true.
  Hypothesis Kd : kind_of f = KSF ty.
  Hypothesis Ht : forall s, Forall tame (sfe ty f e rel m' s).
  Hypothesis H1 : hyphened (u k) headers.
  Hypothesis H2 : hyphened (u k) trailers.
  Lemma sf_due : heard (classes cs) ks (m_notes m') = sf_told k (fun s => pairs (classes cs) ks (sfe ty f e rel m' s)) headers ++ sf_told k (fun s => pairs (classes cs) ks (sfe ty f e rel m' s)) trailers.
  Proof.
    rewrite (sf_run cs ks f (u k) ty e rel top headers chunks complete trailers t start nc head base m' rel' E Ho Kd); [|intros s; apply (tm_nk (sfe ty f e rel m' s, Ok tt)), Ht|exact H1|exact H2].
    assert (S : forall l, sf_says (classes cs) ks (u k) (sfe ty f e rel m') l = sf_told k (fun s => pairs (classes cs) ks (sfe ty f e rel m' s)) l).
    { intros l. unfold sf_says, sf_told. destruct (values (u k) l) eqn:V; [reflexivity|]. cbn [nonempty]. rewrite speak_pairs by apply Ht. unfold whole_text, sf_text. rewrite V. reflexivity. }
    rewrite !S. reflexivity.
  Qed.
End SF.
Lemma sfe_item P ks f e rel m' s (R : bare -> list (nid * list (option pyval)) -> Prop) : (forall b p d, e_sf_item e s = SFOk (b, p) d -> R b (pairs P ks (fst (eval_item f (mkCx e m' rel) (blank_of f VNone) b p)))) ->
  item_rule e R s (pairs P ks (sfe SFItem f e rel m' s)).
Proof. unfold item_rule, sfe, sf_events. destruct (e_sf_item e s) as [[b p] d| |]; intros H; [|reflexivity..]. eapply H. reflexivity. Qed.
Lemma sfe_list P ks f e rel m' s (R : list member -> list (nid * list (option pyval)) -> Prop) : (forall ms d, e_sf_list e s = SFOk ms d -> R ms (pairs P ks (fst (eval_list f (mkCx e m' rel) (blank_of f VNone) ms)))) ->
  list_rule e R s (pairs P ks (sfe SFList f e rel m' s)).
Proof. unfold list_rule, sfe, sf_events. destruct (e_sf_list e s) as [ms d| |]; intros H; [|reflexivity..]. eapply H. reflexivity. Qed.
Lemma sfe_dict P ks f e rel m' s (R : list (str * member) -> list (nid * list (option pyval)) -> Prop) : (forall ms d, e_sf_dict e s = SFOk ms d -> R (dupdate [] ms) (pairs P ks (fst (eval_dict f (mkCx e m' rel) (blank_of f VNone) (dupdate [] ms))))) ->
  dict_rule e R s (pairs P ks (sfe SFDict f e rel m' s)).
Proof. unfold dict_rule, sfe, sf_events. destruct (e_sf_dict e s) as [ms d| |]; intros H; [|reflexivity..]. eapply H. reflexivity. Qed.
Lemma sfe_tame ty f e rel m' : (forall b p, tm (eval_item f (mkCx e m' rel) (blank_of f VNone) b p)) -> (forall l, tm (eval_list f (mkCx e m' rel) (blank_of f VNone) l)) -> (forall l, tm (eval_dict f (mkCx e m' rel) (blank_of f VNone) l)) ->
  forall s, Forall tame (sfe ty f e rel m' s).
Proof.
  intros A B C s. unfold sfe, sf_events. destruct ty.
  - destruct (e_sf_item e s); try constructor. apply A.
  - destruct (e_sf_list e s); try constructor. apply B.
  - destruct (e_sf_dict e s); try constructor. apply C.
Qed.
Ltac tame_all := apply sfe_tame; intros; cbn [eval_item eval_list eval_dict]; unfold keep; tms.

(** ** Deprecation *)
Lemma lint_start e rel top headers chunks complete trailers t start nc head base m' rel' :
  lint e rel top headers chunks complete trailers (new_linter t start nc head base) = (m', rel', Ok tt) -> m_start m' = start.
Proof. intros E. destruct (lint_facts _ _ _ _ _ _ _ _ _ _ _ _ _ _ E) as (SM & _). unfold setup in SM. injection SM as _ SM _ _ _. exact SM. Qed.
Ltac split_iff := repeat match goal with |- _ /\ _ => split | |- _ <-> _ => split end.
Theorem C53_deprecation : forall e rel top headers chunks complete trailers t start nc head base m' rel',
  lint e rel top headers chunks complete trailers (new_linter t start nc head base) = (m', rel', Ok tt) -> t <> MRequest ->
  exists due, (forall s, item_rule e (deprecation_due start) s (due s))
    /\ heard (classes deprecation_classes) [] (m_notes m') = sf_told "deprecation" due headers ++ sf_told "deprecation" due trailers.
Proof.
  intros e rel top headers chunks complete trailers t start nc head base m' rel' E Ht. eexists. split; [|apply (sf_due deprecation_classes [] F_deprecation "deprecation" SFItem e rel top headers chunks complete trailers t start nc head base m' rel' E)].
  - intros s. apply sfe_item. intros b p d _. cbn [eval_item]. rewrite keep_fst. unfold ev_deprecation. cbn [cx_msg cx_env]. rewrite (lint_start _ _ _ _ _ _ _ _ _ _ _ _ _ _ E).
    destruct b as [z|q|x|x|x|[]|z|x];
      try (exists false, false, false, true; split; [reflexivity|]; split_iff; intros H; try discriminate; try reflexivity; try (split; [discriminate|intros; discriminate]); try (destruct H as (? & ? & H & _); discriminate); fail).
    + exists false, false, true, false. split; [reflexivity|]. split_iff; intros H; try discriminate; try reflexivity; try (destruct H as (? & ? & H & _); discriminate). destruct H as [H _]. destruct (H eq_refl).
    + unfold q_truthy. destruct start as [st|].
      * destruct (Qeq_bool st 0) eqn:Z0.
        -- apply Qeq_bool_iff in Z0. exists false, false, false, false. split; [reflexivity|]. split_iff; intros H; try discriminate.
           ++ destruct H as (? & ? & _ & H & N & _). injection H as <-. destruct (N Z0).
           ++ destruct H as (? & ? & _ & H & N & _). injection H as <-. destruct (N Z0).
           ++ destruct H as [_ H]. destruct (H z eq_refl).
        -- apply Qeq_bool_neq in Z0. unfold q_gt. destruct (Qle_bool (inject_Z z) st) eqn:L; cbn [negb].
           ++ apply Qle_bool_iff in L. exists false, true, false, false. split; [reflexivity|]. split_iff; intros H; try discriminate; try reflexivity.
              ** destruct H as (z' & st' & H1 & H2 & _ & H3). injection H1 as <-. injection H2 as <-. exfalso. apply (Qlt_not_le _ _ H3 L).
              ** exists z, st. auto.
              ** destruct H as [_ H]. destruct (H z eq_refl).
           ++ assert (L' : (st < inject_Z z)%Q) by (apply Qnot_le_lt; intros X; apply Qle_bool_iff in X; congruence). exists true, false, false, false. split; [reflexivity|]. split_iff; intros H; try discriminate; try reflexivity.
              ** exists z, st. auto.
              ** destruct H as (z' & st' & H1 & H2 & _ & H3). injection H1 as <-. injection H2 as <-. exfalso. apply (Qlt_not_le _ _ L' H3).
              ** destruct H as [_ H]. destruct (H z eq_refl).
      * exists false, false, false, false. split; [reflexivity|]. split_iff; intros H; try discriminate; try (destruct H as (? & ? & _ & H & _); discriminate). destruct H as [_ H]. destruct (H z eq_refl).
  - its_type.
  - reflexivity.
  - tame_all. unfold ev_deprecation. tms.
  - apply unhyphened; reflexivity.
  - apply unhyphened; reflexivity.
Qed.
Print Assumptions C53_deprecation.

(** ** Accept-Query *)
Lemma tm_media mt bad ref wild tok : tm (check_media_type mt bad ref wild tok).
Proof.
  destruct (media_spec mt bad ref wild tok) as [(ty & sub & l & b & _ & -> & _)|[_ ->]]; unfold tm; cbn [fst].
  - destruct l, b; repeat constructor.
  - unfold bad_media. destruct bad; repeat constructor.
Qed.
Lemma py_str_sf e m : exists s, py_str e (mem_head m) = Ok s.
Proof. destruct m as [[| | | | |[]| |] p|l p]; cbn [mem_head bare_val py_str]; eauto. Qed.
Definition query_one (e : env) (m : member) : W pyval :=
  let v := mem_head m in
  match v with
  | VToken s | VStr s =>
      let mr := lower s in
      check_media_type mr (Some ACCEPT_QUERY_BAD_SYNTAX) (Some (ref_of F_accept_query)) true true ;;;
      ret (VTuple [match v with VToken _ => VToken mr | _ => VStr mr end; VDict (params_dict (mem_params m))])
  | _ => s <- lift (py_str e v) ;; add_note ACCEPT_QUERY_BAD_TYPE [vs "value" s] ;;; ret (member_val m)
  end.
Lemma mapW_in {A B} (g : A -> W B) l : (forall a, In a l -> exists b, snd (g a) = Ok b) -> fst (mapW g l) = flat_map (fun a => fst (g a)) l /\ exists bs, snd (mapW g l) = Ok bs.
Proof.
  intros H. induction l as [|a l IH]; [split; [reflexivity|eexists; reflexivity]|]. destruct IH as [I1 (bs & I2)]; [intros; apply H; right; assumption|]. cbn [mapW flat_map].
  destruct (H a (or_introl eq_refl)) as (b & Hb). destruct (g a) as [l1 r1]. cbn [snd] in Hb. subst r1. destruct (mapW g l) as [l2 r]. cbn [fst snd] in I1, I2. subst r l2. unfold bind, ret. cbn [fst snd app].
  rewrite app_nil_r. split; [reflexivity|eexists; reflexivity].
Qed.
Lemma word_fun m s s' : word_of m s -> word_of m s' -> s = s'.
Proof. intros (p & [->| ->]) (p' & [H|H]); congruence. Qed.
Lemma query_text m s P bad ref : P = classes query_classes -> word_of m s -> bad = ACCEPT_QUERY_BAD_SYNTAX ->
  query_due m (pairs P [] (fst (check_media_type (lower s) (Some bad) ref true true))).
Proof.
  intros -> W ->. destruct (media_spec (lower s) (Some ACCEPT_QUERY_BAD_SYNTAX) ref true true) as [(ty & sub & l & b & M & -> & _)|[M ->]].
  - exists false, false. split; [destruct l, b; reflexivity|]. split_iff; intros H; try discriminate.
    + destruct H as (s' & W' & N). rewrite (word_fun _ _ _ W' W) in N. destruct (N _ _ M).
    + destruct (H s W).
  - exists true, false. split; [reflexivity|]. split_iff; intros H; try discriminate; try reflexivity.
    + exists s. auto.
    + destruct (H s W).
Qed.
Lemma query_one_ok e m : (exists b, snd (query_one e m) = Ok b) /\ query_due m (pairs (classes query_classes) [] (fst (query_one e m))).
Proof.
  unfold query_one. cbv zeta.
  assert (Bad : forall v, mem_head m = v -> (forall s, ~ word_of m s) -> let w := s <- lift (py_str e v) ;; add_note ACCEPT_QUERY_BAD_TYPE [vs "value" s] ;;; ret (member_val m) in
    (exists b, snd w = Ok b) /\ query_due m (pairs (classes query_classes) [] (fst w))).
  { intros v Hv N. destruct (py_str_sf e m) as (x & Hx). rewrite Hv in Hx. rewrite Hx. cbv zeta. rewrite lift_ok. split; [eexists; reflexivity|].
    exists false, true. split; [reflexivity|]. split_iff; intros H; try discriminate; try reflexivity; [destruct H as (s & W & _); destruct (N s W)|exact N]. }
  assert (Good : forall s v, word_of m s -> let w := check_media_type (lower s) (Some ACCEPT_QUERY_BAD_SYNTAX) (Some (ref_of F_accept_query)) true true ;;; ret v in
    (exists b : pyval, snd w = Ok b) /\ query_due m (pairs (classes query_classes) [] (fst w))).
  { intros s v W. cbv zeta. assert (T : snd (check_media_type (lower s) (Some ACCEPT_QUERY_BAD_SYNTAX) (Some (ref_of F_accept_query)) true true) = Ok tt).
    { destruct (media_spec (lower s) (Some ACCEPT_QUERY_BAD_SYNTAX) (Some (ref_of F_accept_query)) true true) as [(ty & sub & l & b & M & -> & _)|[M ->]]; reflexivity. }
    rewrite pairs_bind by exact T. split; [unfold bind; destruct (check_media_type _ _ _ _ _) as [l r]; cbn [snd] in T; subst r; cbn [ret snd]; eexists; reflexivity|].
    cbn [ret fst]. change (pairs (classes query_classes) [] []) with (@nil (nid * list (option pyval))). rewrite app_nil_r. apply query_text; auto. }
  destruct m as [[z|q|x|x|x|b|z|x] p|l p]; cbn [mem_head bare_val];
    try (apply Bad; [reflexivity|intros s (p' & [H|H]); discriminate]); apply Good; exists p; auto.
Qed.
Theorem C53_accept_query : forall e rel top headers chunks complete trailers t start nc head base m' rel',
  lint e rel top headers chunks complete trailers (new_linter t start nc head base) = (m', rel', Ok tt) -> t <> MRequest ->
  hyphened (u "accept-query") headers -> hyphened (u "accept-query") trailers ->
  exists due, (forall s, list_rule e (each query_due) s (due s))
    /\ heard (classes query_classes) [] (m_notes m') = sf_told "accept-query" due headers ++ sf_told "accept-query" due trailers.
Proof.
  intros e rel top headers chunks complete trailers t start nc head base m' rel' E Ht Y1 Y2. eexists. split; [|apply (sf_due query_classes [] F_accept_query "accept-query" SFList e rel top headers chunks complete trailers t start nc head base m' rel' E)].
  - intros s. apply sfe_list. intros ms d _. cbn [eval_list]. unfold ev_accept_query. cbn [cx_env]. fold (query_one e).
    change (mapW _ ms) with (mapW (query_one e) ms).
    destruct (mapW_in (query_one e) ms) as [M1 (bs & M2)]; [intros; apply query_one_ok|]. destruct (mapW (query_one e) ms) as [l r]. cbn [fst snd] in M1, M2. subst r. cbn [bind ret fst]. rewrite app_nil_r, M1.
    exists (map (fun m => pairs (classes query_classes) [] (fst (query_one e m))) ms). split.
    + clear. induction ms as [|m ms IH]; constructor; [apply query_one_ok|exact IH].
    + clear. induction ms as [|m ms IH]; [reflexivity|]. cbn [flat_map map concat]. rewrite pairs_app, IH. reflexivity.
  - its_type.
  - reflexivity.
  - tame_all; unfold ev_accept_query; tms; apply tm_media.
  - exact Y1.
  - exact Y2.
Qed.
Print Assumptions C53_accept_query.

(** ** Cache-Groups and Cache-Group-Invalidation *)
Lemma type_name_kind m : type_name (mem_head m) = u (kind m).
Proof. destruct m as [[] p|l p]; reflexivity. Qed.
Lemma is_str_string m : is_str (mem_head m) = true <-> exists s, is_string m s.
Proof.
  unfold is_string. destruct m as [[z|q|x|x|x|b|z|x] p|l p]; cbn [mem_head bare_val is_str]; split; intros H; try discriminate; try reflexivity; try (destruct H as (s & p' & H); discriminate). eauto.
Qed.
Lemma not_string m : is_str (mem_head m) = false <-> forall s, ~ is_string m s.
Proof.
  pose proof (is_str_string m) as H. destruct (is_str (mem_head m)).
  - split; [discriminate|]. intros N. destruct (proj1 H eq_refl) as (s & Hs). destruct (N s Hs).
  - split; [|reflexivity]. intros _ s Hs. assert (X : false = true) by (apply H; eauto). discriminate X.
Qed.
Lemma bad_types_ok ms : other_types ms (bad_types ms).
Proof.
  unfold other_types, bad_types. destruct (sorted_perm (dedup (map type_name (filter (fun v => negb (is_str v)) (map mem_head ms))))) as [P S]. split; [exact S|]. split.
  - eapply Permutation_NoDup; [symmetry; exact P|apply dedup_once].
  - intros ty. assert (X : In ty (py_sorted (dedup (map type_name (filter (fun v => negb (is_str v)) (map mem_head ms))))) <-> In ty (map type_name (filter (fun v => negb (is_str v)) (map mem_head ms)))).
    { rewrite <- (dedup_in (map type_name _)). split; apply Permutation_in; [exact P|symmetry; exact P]. }
    rewrite X, in_map_iff. split.
    + intros (v & <- & Hv). apply filter_In in Hv as [Hv N]. apply in_map_iff in Hv as (m & <- & Hm). apply negb_true_iff in N. exists m. split; [exact Hm|]. split; [apply not_string, N|apply type_name_kind].
    + intros (m & Hm & N & ->). exists (mem_head m). split; [apply type_name_kind|]. apply filter_In. split; [apply in_map, Hm|]. apply not_string in N. rewrite N. reflexivity.
Qed.
Theorem C53_cache_groups : forall e rel top headers chunks complete trailers t start nc head base m' rel',
  lint e rel top headers chunks complete trailers (new_linter t start nc head base) = (m', rel', Ok tt) -> t <> MRequest ->
  hyphened (u "cache-groups") headers -> hyphened (u "cache-groups") trailers ->
  exists due, (forall s, list_rule e (groups_due CACHE_GROUPS_BAD_TYPE) s (due s))
    /\ heard (classes [CACHE_GROUPS_BAD_TYPE]) [u "got"] (m_notes m') = sf_told "cache-groups" due headers ++ sf_told "cache-groups" due trailers.
Proof.
  intros e rel top headers chunks complete trailers t start nc head base m' rel' E Ht Y1 Y2. eexists. split; [|apply (sf_due [CACHE_GROUPS_BAD_TYPE] [u "got"] F_cache_groups "cache-groups" SFList e rel top headers chunks complete trailers t start nc head base m' rel' E)].
  - intros s. apply sfe_list. intros ms d _. cbn [eval_list]. rewrite keep_fst. unfold ev_cache_groups. exists (bad_types ms). split; [apply bad_types_ok|]. destruct (nonempty (bad_types ms)); reflexivity.
  - its_type.
  - reflexivity.
  - tame_all; unfold ev_cache_groups; tms.
  - exact Y1.
  - exact Y2.
Qed.
Print Assumptions C53_cache_groups.
Theorem C53_invalidation : forall e rel top headers chunks complete trailers t start nc head base m' rel',
  lint e rel top headers chunks complete trailers (new_linter t start nc head base) = (m', rel', Ok tt) -> t <> MRequest ->
  hyphened (u "cache-group-invalidation") headers -> hyphened (u "cache-group-invalidation") trailers ->
  exists due, (forall s, list_rule e (invalidation_due rel) s (due s))
    /\ heard (classes invalidation_classes) [u "got"] (m_notes m') = sf_told "cache-group-invalidation" due headers ++ sf_told "cache-group-invalidation" due trailers.
Proof.
  intros e rel top headers chunks complete trailers t start nc head base m' rel' E Ht Y1 Y2. eexists. split; [|apply (sf_due invalidation_classes [u "got"] F_cache_group_invalidation "cache-group-invalidation" SFList e rel top headers chunks complete trailers t start nc head base m' rel' E)].
  - intros s. apply sfe_list. intros ms d _. cbn [eval_list]. rewrite keep_fst. unfold ev_cache_group_invalidation. cbn [cx_rel].
    set (safe := match rel with Some r => match m_method r with Some m => nonempty m && str_in m [u "GET"; u "HEAD"; u "OPTIONS"; u "TRACE"] | None => false end | None => false end).
    exists safe, (told_once (nonempty (bad_types ms)) CACHE_GROUP_INVALIDATION_BAD_TYPE [Some (VStr (join (u ", ") (bad_types ms)))]). split; [|split].
    + unfold safe. destruct rel as [r|]; [destruct (m_method r) as [m|]|]; [destruct (nonempty m && str_in m _)| |]; destruct (nonempty (bad_types ms)); reflexivity.
    + unfold safe, safe_method. split.
      * destruct rel as [r|]; [|discriminate]. destruct (m_method r) as [m|] eqn:M; [|discriminate]. intros H. apply andb_prop in H as [_ H]. exists r. split; [reflexivity|]. exists m. split; [exact M|exact H].
      * intros (r & -> & m & -> & H). apply andb_true_iff. split; [destruct m; [discriminate H|reflexivity]|exact H].
    + exists (bad_types ms). split; [apply bad_types_ok|reflexivity].
  - its_type.
  - reflexivity.
  - tame_all; unfold ev_cache_group_invalidation; tms.
  - exact Y1.
  - exact Y2.
Qed.
Print Assumptions C53_invalidation.

(** ** Reporting-Endpoints and Speculation-Rules *)
Lemma not_secure_ok c url : splits (cx_env c) (m_base (cx_msg c)) url -> exists b, not_secure c url = Ok b /\ (b = true <-> insecure (cx_env c) (m_base (cx_msg c)) url).
Proof.
  intros (full & p & J & P). unfold not_secure, target_scheme. rewrite J. cbn [rbind]. rewrite P. cbn [rmap]. eexists. split; [reflexivity|]. rewrite andb_true_iff, negb_true_iff. split.
  - intros [N H]. exists full, p. split; [exact J|]. split; [exact P|]. split; [intros X; rewrite X in N; discriminate|exact H].
  - intros (full' & p' & J' & P' & N & H). rewrite J in J'. injection J' as <-. rewrite P in P'. injection P' as <-. split; [|exact H]. destruct (u_scheme p); [congruence|reflexivity].
Qed.
Lemma head_string m s : mem_head m = VStr s <-> is_string m s.
Proof.
  unfold is_string. destruct m as [[z|q|x|x|x|b|z|x] p|l p]; cbn [mem_head bare_val]; split; intros H; try discriminate; try (destruct H as (p' & H); discriminate).
  - injection H as ->. eauto.
  - destruct H as (p' & H). congruence.
Qed.
Lemma string_fun m s s' : is_string m s -> is_string m s' -> s = s'.
Proof. intros (p & ->) (p' & H). congruence. Qed.
Definition endpoint_one (c : cx) (km : str * member) : W unit :=
  match mem_head (snd km) with
  | VStr url => b <- lift (not_secure c url) ;; when b (add_note ENDPOINT_NOT_SECURE [vs "name" (fst km); vs "url" url])
  | v => add_note BAD_REPORTING_ENDPOINT_SYNTAX [vs "name" (fst km); vv "value" v; vs "found_type" (type_name v)]
  end.
Lemma endpoint_one_ok c km : (forall s, is_string (snd km) s -> splits (cx_env c) (m_base (cx_msg c)) s) ->
  snd (endpoint_one c km) = Ok tt /\ endpoint_due (cx_env c) (m_base (cx_msg c)) km (pairs (classes endpoint_classes) [u "name"] (fst (endpoint_one c km))).
Proof.
  intros Hs. unfold endpoint_one.
  assert (Bad : forall v, (forall s, ~ is_string (snd km) s) -> let w := add_note BAD_REPORTING_ENDPOINT_SYNTAX [vs "name" (fst km); vv "value" v; vs "found_type" (type_name v)] in
    snd w = Ok tt /\ endpoint_due (cx_env c) (m_base (cx_msg c)) km (pairs (classes endpoint_classes) [u "name"] (fst w))).
  { intros v N. split; [reflexivity|]. exists false, true. split; [reflexivity|]. split_iff; intros H; try discriminate; try reflexivity; [destruct H as (s & H & _); destruct (N s H)|exact N]. }
  destruct (mem_head (snd km)) eqn:M; try (apply Bad; intros s0 H; apply head_string in H; congruence).
  apply head_string in M. destruct (not_secure_ok c s (Hs s M)) as (b & -> & Hb). rewrite lift_ok. split; [destruct b; reflexivity|].
  exists b, false. split; [destruct b; reflexivity|]. split_iff; intros H; try discriminate.
  - exists s. split; [exact M|apply Hb, H].
  - destruct H as (s' & M' & H). rewrite (string_fun _ _ _ M' M) in H. apply Hb, H.
  - destruct (H s M).
Qed.
Theorem C53_reporting_endpoints : forall e rel top headers chunks complete trailers t start nc head base m' rel',
  lint e rel top headers chunks complete trailers (new_linter t start nc head base) = (m', rel', Ok tt) -> t <> MRequest ->
  hyphened (u "reporting-endpoints") headers -> hyphened (u "reporting-endpoints") trailers ->
  exists due, (forall s, dict_rule e (fun d l => urls_split e (m_base m') (map snd d) -> each (endpoint_due e (m_base m')) d l) s (due s))
    /\ heard (classes endpoint_classes) [u "name"] (m_notes m') = sf_told "reporting-endpoints" due headers ++ sf_told "reporting-endpoints" due trailers.
Proof.
  intros e rel top headers chunks complete trailers t start nc head base m' rel' E Ht Y1 Y2. eexists. split; [|apply (sf_due endpoint_classes [u "name"] F_reporting_endpoints "reporting-endpoints" SFDict e rel top headers chunks complete trailers t start nc head base m' rel' E)].
  - intros s. unfold dict_rule, sfe, sf_events. destruct (e_sf_dict e s) as [ms d| |]; [|reflexivity..]. intros U. cbn [eval_dict]. rewrite keep_fst. unfold ev_reporting_endpoints.
    change (iterW _ (dupdate [] ms)) with (iterW (endpoint_one (mkCx e m' rel)) (dupdate [] ms)). apply each_iter. intros km Hkm. apply (endpoint_one_ok (mkCx e m' rel)). intros s0 Hs. cbn [cx_env cx_msg]. apply (U (snd km)); [apply in_map, Hkm|exact Hs].
  - its_type.
  - reflexivity.
  - tame_all; unfold ev_reporting_endpoints; tms.
  - exact Y1.
  - exact Y2.
Qed.
Print Assumptions C53_reporting_endpoints.
Definition rule_one (c : cx) (m : member) : W unit :=
  match mem_head m with
  | VStr url => b <- lift (not_secure c url) ;; when b (add_note SPECULATION_RULE_NOT_SECURE [vs "url" url])
  | v => add_note SPECULATION_RULES_BAD_TYPE [vv "value" v; vs "found_type" (type_name v)]
  end.
Lemma rule_one_ok c m : (forall s, is_string m s -> splits (cx_env c) (m_base (cx_msg c)) s) ->
  snd (rule_one c m) = Ok tt /\ rules_due (cx_env c) (m_base (cx_msg c)) m (pairs (classes rules_classes) [] (fst (rule_one c m))).
Proof.
  intros Hs. unfold rule_one.
  assert (Bad : forall v, (forall s, ~ is_string m s) -> let w := add_note SPECULATION_RULES_BAD_TYPE [vv "value" v; vs "found_type" (type_name v)] in
    snd w = Ok tt /\ rules_due (cx_env c) (m_base (cx_msg c)) m (pairs (classes rules_classes) [] (fst w))).
  { intros v N. split; [reflexivity|]. exists false, true. split; [reflexivity|]. split_iff; intros H; try discriminate; try reflexivity; [destruct H as (s & H & _); destruct (N s H)|exact N]. }
  destruct (mem_head m) eqn:M; try (apply Bad; intros s0 H; apply head_string in H; congruence).
  apply head_string in M. destruct (not_secure_ok c s (Hs s M)) as (b & -> & Hb). rewrite lift_ok. split; [destruct b; reflexivity|].
  exists b, false. split; [destruct b; reflexivity|]. split_iff; intros H; try discriminate.
  - exists s. split; [exact M|apply Hb, H].
  - destruct H as (s' & M' & H). rewrite (string_fun _ _ _ M' M) in H. apply Hb, H.
  - destruct (H s M).
Qed.
Theorem C53_speculation_rules : forall e rel top headers chunks complete trailers t start nc head base m' rel',
  lint e rel top headers chunks complete trailers (new_linter t start nc head base) = (m', rel', Ok tt) -> t <> MRequest ->
  hyphened (u "speculation-rules") headers -> hyphened (u "speculation-rules") trailers ->
  exists due, (forall s, list_rule e (fun ms l => urls_split e (m_base m') ms -> each (rules_due e (m_base m')) ms l) s (due s))
    /\ heard (classes rules_classes) [] (m_notes m') = sf_told "speculation-rules" due headers ++ sf_told "speculation-rules" due trailers.
Proof.
  intros e rel top headers chunks complete trailers t start nc head base m' rel' E Ht Y1 Y2. eexists. split; [|apply (sf_due rules_classes [] F_speculation_rules "speculation-rules" SFList e rel top headers chunks complete trailers t start nc head base m' rel' E)].
  - intros s. unfold list_rule, sfe, sf_events. destruct (e_sf_list e s) as [ms d| |]; [|reflexivity..]. intros U. cbn [eval_list]. rewrite keep_fst. unfold ev_speculation_rules.
    change (iterW _ ms) with (iterW (rule_one (mkCx e m' rel)) ms). apply each_iter. intros m Hm. apply (rule_one_ok (mkCx e m' rel)). intros s0 Hs. cbn [cx_env cx_msg]. apply (U m); [exact Hm|exact Hs].
  - its_type.
  - reflexivity.
  - tame_all; unfold ev_speculation_rules; tms.
  - exact Y1.
  - exact Y2.
Qed.
Print Assumptions C53_speculation_rules.

(** ** CDN-Cache-Control *)
Lemma yes_head m : is_true (mem_head m) = true <-> is_yes m.
Proof.
  unfold is_yes. destruct m as [[z|q|x|x|x|[]|z|x] p|l p]; cbn [mem_head bare_val is_true]; split; intros H; try discriminate; try reflexivity; try (destruct H as (p' & H); discriminate). eauto.
Qed.
Lemma number_head m : is_int (mem_head m) = true <-> is_number m.
Proof.
  unfold is_number. destruct m as [[z|q|x|x|x|b|z|x] p|l p]; cbn [mem_head bare_val is_int]; split; intros H; try discriminate; try reflexivity; try (destruct H as (p' & [(y & H)|(y & H)]); discriminate); eauto.
Qed.
Definition cdn_one (km : str * member) : W unit :=
  let name := lower (fst km) in
  let v := mem_head (snd km) in
  let bad t := add_note BAD_CDN_CC_TYPE [vs "bad_directive" name; vl "expected_type" t] in
  match dget name known_cc with
  | None => ret tt
  | Some (_, _, CCNone) => when (negb (is_true v)) (bad "no value"%string)
  | Some (_, _, CCInt) => when (negb (is_int v)) (bad (cc_type_str CCInt))
  | Some (_, _, CCQuoted) => when (negb (is_str v) && negb (is_true v && str_in name [u "no-cache"; u "private"])) (bad "a string"%string)
  end.
(** The three kinds of directives, as a table. *)
Lemma known_kinds n : match dget n known_cc with
  | None => one_of bare_directives n = false /\ one_of number_directives n = false /\ one_of text_directives n = false
  | Some (_, _, CCNone) => one_of bare_directives n = true /\ one_of number_directives n = false /\ one_of text_directives n = false
  | Some (_, _, CCInt) => one_of bare_directives n = false /\ one_of number_directives n = true /\ one_of text_directives n = false
  | Some (_, _, CCQuoted) => one_of bare_directives n = false /\ one_of number_directives n = false /\ one_of text_directives n = true
  end.
Proof.
  destruct (dget n known_cc) as [[[a b] t]|] eqn:D.
  - assert (I : In n (map fst known_cc)) by (apply (dget_Some_in n known_cc); eauto).
    repeat (destruct I as [<-|I]; [injection D as <- <- <-; vm_compute; repeat split|]). destruct I.
  - assert (N : forall x, In x (bare_directives ++ number_directives ++ text_directives) -> str_eqb n (u x) = false).
    { intros x Hx. destruct (str_eqb n (u x)) eqn:Q; [|reflexivity]. apply str_eqb_eq in Q. subst n. repeat (destruct Hx as [<-|Hx]; [vm_compute in D; discriminate D|]). destruct Hx. }
    assert (F : forall l, (forall x, In x l -> In x (bare_directives ++ number_directives ++ text_directives)) -> one_of l n = false).
    { intros l Hl. unfold one_of. induction l as [|x l IH]; [reflexivity|]. cbn [existsb]. rewrite N by (apply Hl; left; reflexivity). apply IH. intros y Hy. apply Hl. right. exact Hy. }
    repeat split; apply F; intros x Hx; apply in_or_app; [left; exact Hx|right; apply in_or_app; left; exact Hx|right; apply in_or_app; right; exact Hx].
Qed.
Lemma cdn_one_ok km : snd (cdn_one km) = Ok tt /\ directive_due km (pairs (classes cdn_classes) [u "bad_directive"] (fst (cdn_one km))).
Proof.
  unfold cdn_one, directive_due. cbv zeta. pose proof (known_kinds (lower (fst km))) as K. pose proof (yes_head (snd km)) as Y. pose proof (number_head (snd km)) as Nu. pose proof (is_str_string (snd km)) as St.
  destruct (dget (lower (fst km)) known_cc) as [[[a b] []]|]; destruct K as (K1 & K2 & K3); rewrite K1, K2, K3.
  - destruct (is_true (mem_head (snd km))) eqn:T.
    + split; [reflexivity|]. exists false. split; [reflexivity|]. split; [discriminate|]. intros [[_ H]|[[H _]|[H _]]]; try discriminate. destruct H. apply Y. reflexivity.
    + split; [reflexivity|]. exists true. split; [reflexivity|]. split; [|reflexivity]. intros _. left. split; [reflexivity|]. rewrite <- Y. discriminate.
  - destruct (is_int (mem_head (snd km))) eqn:T.
    + split; [reflexivity|]. exists false. split; [reflexivity|]. split; [discriminate|]. intros [[H _]|[[_ H]|[H _]]]; try discriminate. destruct H. apply Nu. reflexivity.
    + split; [reflexivity|]. exists true. split; [reflexivity|]. split; [|reflexivity]. intros _. right. left. split; [reflexivity|]. rewrite <- Nu. discriminate.
  - change (str_in (lower (fst km)) [u "no-cache"; u "private"]) with (one_of text_directives (lower (fst km))). rewrite K3, andb_true_r.
    destruct (is_str (mem_head (snd km))) eqn:S; cbn [negb andb].
    + split; [reflexivity|]. exists false. split; [reflexivity|]. split; [discriminate|]. intros [[H _]|[[H _]|(_ & _ & H)]]; try discriminate. destruct (proj1 St eq_refl) as (s & Hs). destruct (H s Hs).
    + destruct (is_true (mem_head (snd km))) eqn:T; cbn [negb].
      * split; [reflexivity|]. exists false. split; [reflexivity|]. split; [discriminate|]. intros [[H _]|[[H _]|(_ & H & _)]]; try discriminate. destruct H. apply Y. reflexivity.
      * split; [reflexivity|]. exists true. split; [reflexivity|]. split; [|reflexivity]. intros _. right. right. split; [reflexivity|]. split; [rewrite <- Y; discriminate|]. apply not_string, S.
  - split; [reflexivity|]. exists false. split; [reflexivity|]. split; [discriminate|]. intros [[H _]|[[H _]|[H _]]]; discriminate.
Qed.
Theorem C53_cdn_cache_control : forall e rel top headers chunks complete trailers t start nc head base m' rel',
  lint e rel top headers chunks complete trailers (new_linter t start nc head base) = (m', rel', Ok tt) -> t <> MRequest ->
  hyphened (u "cdn-cache-control") headers -> hyphened (u "cdn-cache-control") trailers ->
  exists due, (forall s, dict_rule e cdn_due s (due s))
    /\ heard (classes cdn_classes) [u "bad_directive"] (m_notes m') = sf_told "cdn-cache-control" due headers ++ sf_told "cdn-cache-control" due trailers.
Proof.
  intros e rel top headers chunks complete trailers t start nc head base m' rel' E Ht Y1 Y2. eexists. split; [|apply (sf_due cdn_classes [u "bad_directive"] F_cdn_cache_control "cdn-cache-control" SFDict e rel top headers chunks complete trailers t start nc head base m' rel' E)].
  - intros s. apply sfe_dict. intros ms d _. cbn [eval_dict]. rewrite keep_fst. unfold ev_cdn_cache_control. rewrite pairs_bind by reflexivity.
    change (iterW _ (dupdate [] ms)) with (iterW cdn_one (dupdate [] ms)). eexists. split; [reflexivity|]. apply each_iter. intros km _. apply cdn_one_ok.
  - its_type.
  - reflexivity.
  - tame_all; unfold ev_cdn_cache_control; tms.
  - exact Y1.
  - exact Y2.
Qed.
Print Assumptions C53_cdn_cache_control.

(** ** Use-As-Dictionary *)
Definition use_one (km : str * member) : W unit :=
  let v := mem_head (snd km) in
  if str_in (fst km) [u "match"; u "id"; u "type"] then uad_check v (is_str v) "str"
  else if str_eqb (fst km) (u "match-dest") then
    let ok := match snd km with
              | MItem (BStr _) _ => true
              | MInner l _ => forallb (fun bp : bare * sfparams => is_str (bare_val (fst bp))) l
              | _ => false
              end in
    when (negb ok) (add_note USE_AS_DICTIONARY_BAD_MATCH_DEST [vs "got" (type_name v)])
  else if str_eqb (fst km) (u "ttl") then uad_check v (is_int v) "int"
  else ret tt.
Lemma destinations_ok m : match m with MItem (BStr _) _ => true | MInner l _ => forallb (fun bp : bare * sfparams => is_str (bare_val (fst bp))) l | _ => false end = true <-> destinations m.
Proof.
  unfold destinations, is_string. destruct m as [b p|l p].
  - split; [destruct b; intros H; try discriminate; left; eauto|]. intros [(s & p' & H)|(l & p' & H & _)]; [injection H as ->; reflexivity|discriminate].
  - rewrite forallb_forall. split.
    + intros H. right. exists l, p. split; [reflexivity|]. intros bp Hbp. specialize (H bp Hbp). destruct (fst bp); try discriminate H. eauto.
    + intros [(s & p' & H)|(l' & p' & H & F)]; [discriminate|]. injection H as <- <-. intros bp Hbp. destruct (F bp Hbp) as (s & ->). reflexivity.
Qed.
Lemma use_one_ok km : snd (use_one km) = Ok tt /\ use_due km (pairs (classes dictionary_classes) [] (fst (use_one km))).
Proof.
  unfold use_one, use_due. cbv zeta. change (str_in (fst km) [u "match"; u "id"; u "type"]) with (one_of ["match"; "id"; "type"]%string (fst km)).
  pose proof (not_string (snd km)) as St. pose proof (number_head (snd km)) as Nu. pose proof (destinations_ok (snd km)) as De.
  destruct (one_of ["match"; "id"; "type"]%string (fst km)) eqn:O.
  - assert (N1 : fst km <> u "ttl") by (intros X; rewrite X in O; discriminate O). assert (N2 : fst km <> u "match-dest") by (intros X; rewrite X in O; discriminate O). unfold uad_check.
    destruct (is_str (mem_head (snd km))); cbn [negb when].
    + split; [reflexivity|]. exists false, false. split; [reflexivity|]. split_iff; intros H; try discriminate; [destruct H as [[_ H]|[H _]]; [apply St in H; discriminate|destruct (N1 H)]|destruct H as [H _]; destruct (N2 H)].
    + split; [reflexivity|]. exists true, false. split; [reflexivity|]. split_iff; intros H; try discriminate; try reflexivity; [left; split; [reflexivity|apply St; reflexivity]|destruct H as [H _]; destruct (N2 H)].
  - destruct (str_eqb (fst km) (u "match-dest")) eqn:M.
    + apply str_eqb_eq in M. assert (N1 : fst km <> u "ttl") by (rewrite M; discriminate). destruct (match snd km with MItem (BStr _) _ => true | MInner l _ => _ | _ => false end); cbn [negb when].
      * split; [reflexivity|]. exists false, false. split; [reflexivity|]. split_iff; intros H; try discriminate; [destruct H as [[H _]|[H _]]; [discriminate|destruct (N1 H)]|destruct H as [_ H]; destruct H; apply De; reflexivity].
      * split; [reflexivity|]. exists false, true. split; [reflexivity|]. split_iff; intros H; try discriminate; try reflexivity; [destruct H as [[H _]|[H _]]; [discriminate|destruct (N1 H)]|split; [exact M|intros X; apply De in X; discriminate]].
    + assert (N2 : fst km <> u "match-dest") by (intros X; rewrite X, str_eqb_refl in M; discriminate).
      destruct (str_eqb (fst km) (u "ttl")) eqn:T.
      * apply str_eqb_eq in T. unfold uad_check. destruct (is_int (mem_head (snd km))); cbn [negb when].
        -- split; [reflexivity|]. exists false, false. split; [reflexivity|]. split_iff; intros H; try discriminate; [destruct H as [[H _]|[_ H]]; [discriminate|destruct H; apply Nu; reflexivity]|destruct H as [H _]; destruct (N2 H)].
        -- split; [reflexivity|]. exists true, false. split; [reflexivity|]. split_iff; intros H; try discriminate; try reflexivity; [right; split; [exact T|intros X; apply Nu in X; discriminate]|destruct H as [H _]; destruct (N2 H)].
      * assert (N1 : fst km <> u "ttl") by (intros X; rewrite X, str_eqb_refl in T; discriminate).
        split; [reflexivity|]. exists false, false. split; [reflexivity|]. split_iff; intros H; try discriminate; [destruct H as [[H _]|[H _]]; [discriminate|destruct (N1 H)]|destruct H as [H _]; destruct (N2 H)].
Qed.
Theorem C53_use_as_dictionary : forall e rel top headers chunks complete trailers t start nc head base m' rel',
  lint e rel top headers chunks complete trailers (new_linter t start nc head base) = (m', rel', Ok tt) -> t <> MRequest ->
  hyphened (u "use-as-dictionary") headers -> hyphened (u "use-as-dictionary") trailers ->
  exists due, (forall s, dict_rule e (each use_due) s (due s))
    /\ heard (classes dictionary_classes) [] (m_notes m') = sf_told "use-as-dictionary" due headers ++ sf_told "use-as-dictionary" due trailers.
Proof.
  intros e rel top headers chunks complete trailers t start nc head base m' rel' E Ht Y1 Y2. eexists. split; [|apply (sf_due dictionary_classes [] F_use_as_dictionary "use-as-dictionary" SFDict e rel top headers chunks complete trailers t start nc head base m' rel' E)].
  - intros s. apply sfe_dict. intros ms d _. cbn [eval_dict]. rewrite keep_fst. unfold ev_use_as_dictionary.
    change (iterW _ (dupdate [] ms)) with (iterW use_one (dupdate [] ms)). apply each_iter. intros km _. apply use_one_ok.
  - its_type.
  - reflexivity.
  - tame_all; unfold ev_use_as_dictionary; tms; unfold uad_check; tms.
  - exact Y1.
  - exact Y2.
Qed.
Print Assumptions C53_use_as_dictionary.

(** ** Cache-Status and Proxy-Status *)
Definition pt (t : string) : ptype := if String.eqb t "bool" then TBool else if String.eqb t "int" then TInt else if String.eqb t "str" then TStr else TToken.
Definition named_type (t : string) : Prop := In t ["bool"; "int"; "str"; "Token"]%string.
Lemma isinst_fits t b : named_type t -> isinst (pt t) (bare_val b) = fits t b.
Proof. intros H. repeat (destruct H as [<-|H]; [destruct b; reflexivity|]). destruct H. Qed.
Definition agree (a : str * known_param) (b : string * (list string * list string)) : Prop :=
  fst a = u (fst b) /\ kp_types (snd a) = map pt (fst (snd b)) /\ fst (snd b) <> [] /\ Forall named_type (fst (snd b)) /\ kp_values (snd a) = map u (snd (snd b)).
Lemma agree_find n known tab : Forall2 agree known tab -> match dget n known, find (fun row => str_eqb n (u (fst row))) tab with Some kp, Some row => agree (n, kp) row | None, None => True | _, _ => False end.
Proof.
  induction 1 as [|[k kp] row known tab A F IH]; [exact I|]. cbn [dget find]. destruct A as (A1 & A). cbn [fst snd] in A1. subst k. destruct (str_eqb n (u (fst row))) eqn:Q; [|exact IH].
  apply str_eqb_eq in Q. split; [exact Q|exact A].
Qed.
Lemma allowed_eq types vals kp b : kp_types kp = map pt types -> types <> [] -> Forall named_type types -> kp_values kp = map u vals ->
  (nonempty (kp_types kp) && negb (existsb (fun t => isinst t (bare_val b)) (kp_types kp)) = false /\ nonempty (kp_values kp) && negb (existsb (eq_text (bare_val b)) (kp_values kp)) = false <-> allowed types vals b).
Proof.
  intros -> N F ->. unfold allowed.
  assert (X : existsb (fun t => isinst t (bare_val b)) (map pt types) = true <-> exists t, In t types /\ fits t b = true).
  { rewrite existsb_exists. split.
    - intros (t & Ht & H). apply in_map_iff in Ht as (x & <- & Hx). rewrite Forall_forall in F. rewrite isinst_fits in H by apply F, Hx. eauto.
    - intros (x & Hx & H). exists (pt x). split; [apply in_map, Hx|]. rewrite Forall_forall in F. rewrite isinst_fits by apply F, Hx. exact H. }
  assert (Y : existsb (eq_text (bare_val b)) (map u vals) = true <-> exists s, In b [BTok s; BStr s; BDisp s] /\ one_of vals s = true).
  { rewrite existsb_exists. unfold eq_text, one_of. split.
    - intros (s & Hs & H). apply in_map_iff in Hs as (x & <- & Hx). destruct (str_of (bare_val b)) as [y|] eqn:S; [|discriminate]. exists y. split.
      + destruct b; cbn [bare_val str_of] in S; try discriminate S; injection S as ->; cbn [In]; auto.
      + apply existsb_exists. exists x. auto.
    - intros (s & Hs & H). apply existsb_exists in H as (x & Hx & H). exists (u x). split; [apply in_map, Hx|]. destruct Hs as [<-|[<-|[<-|[]]]]; exact H. }
  rewrite <- X, <- Y. destruct types as [|ty types]; [congruence|]. cbn [map nonempty andb]. split.
  - intros [H1 H2]. apply negb_false_iff in H1. split; [exact H1|]. destruct vals as [|v vals]; [left; reflexivity|]. right. cbn [map nonempty andb] in H2. apply negb_false_iff in H2. exact H2.
  - intros [H1 H2]. rewrite H1. split; [reflexivity|]. destruct vals as [|v vals]; [reflexivity|]. destruct H2 as [H2|H2]; [discriminate|]. rewrite H2. reflexivity.
Qed.
Lemma py_str_bare e b : exists s, py_str e (bare_val b) = Ok s.
Proof. destruct b as [| | | | |[]| |]; cbn [bare_val py_str]; eauto. Qed.
(** Which flags cannot be shown when false. *)
Definition unshown (known : list (str * known_param)) (flags : list string) : Prop :=
  forall k kp p, dget k known = Some kp -> kp_vdesc kp = None -> kp_desc kp = Some (p, None) -> one_of flags k = true /\ kp_types kp = [TBool].
Lemma param_ok (P : nid -> bool) e known tab flags unk bad kv : Forall2 agree known tab -> unshown known flags -> P unk = true -> P bad = true -> (snd kv = BBool false -> one_of flags (fst kv) = false) ->
  (exists b, snd (check_sf_param e known unk bad (fst kv, bare_val (snd kv))) = Ok b)
  /\ param_due tab unk bad kv (pairs P [u "param"] (fst (check_sf_param e known unk bad (fst kv, bare_val (snd kv))))).
Proof.
  intros F U P1 P2 Hb. destruct kv as [n b]. cbn [fst snd] in *. unfold check_sf_param, param_due. cbn [fst snd]. pose proof (agree_find n _ _ F) as A.
  destruct (py_str_bare e b) as (x & Hx). rewrite Hx. cbn [rmap].
  assert (NoteOk : forall c l, P c = true -> (exists vrs, l = [ENote c None ((k_param, VStr n) :: vrs) []] /\ dlast (u "param") vrs = None) -> pairs P [u "param"] l = [(c, [Some (VStr n)])]).
  { intros c l Pc (vrs & -> & Hd). change (pairs P [u "param"] [ENote c None ((k_param, VStr n) :: vrs) []]) with ((if P c then [(c, [dlast (u "param") ((k_param, VStr n) :: vrs)])] else []) ++ []). rewrite Pc. unfold dlast in *. cbn [rev]. rewrite dget_app, Hd. reflexivity. }
  destruct (dget n known) as [kp|] eqn:D; destruct (find _ tab) as [row|]; try destruct A.
  - destruct H0 as (A1 & A2 & A3 & A4). cbn [snd] in A1, A4. pose proof (allowed_eq _ _ _ b A1 A2 A3 A4) as Al.
    destruct (nonempty (kp_types kp) && negb (existsb (fun t => isinst t (bare_val b)) (kp_types kp))) eqn:B1.
    { split; [eexists; reflexivity|]. exists true. split; [apply NoteOk; [exact P2|eexists; split; reflexivity]|]. split; [discriminate|]. intros X. apply Al in X as [X _]. discriminate. }
    destruct (nonempty (kp_values kp) && negb (existsb (eq_text (bare_val b)) (kp_values kp))) eqn:B2.
    { split; [eexists; reflexivity|]. exists true. split; [apply NoteOk; [exact P2|eexists; split; reflexivity]|]. split; [discriminate|]. intros X. apply Al in X as [_ X]. discriminate. }
    assert (G : forall w : W str, (exists y, w = ret y) -> (exists b, snd w = Ok b) /\ (exists b0, pairs P [u "param"] (fst w) = told_once b0 bad [Some (VStr n)] /\ (b0 = false <-> allowed (fst (snd row)) (snd (snd row)) b))).
    { intros w (y & ->). split; [eexists; reflexivity|]. exists false. split; [reflexivity|]. split; [intros _; apply Al; auto|reflexivity]. }
    apply G. destruct (kp_vdesc kp) as [vd|] eqn:Vd.
    + destruct (str_of (bare_val b)) as [t|]; [destruct (dget t vd)|]; eexists; reflexivity.
    + destruct (kp_desc kp) as [[p q]|] eqn:De.
      * destruct (bare_val b) as [| [] | | | | | | | | | | | | | |] eqn:Bv; try (eexists; reflexivity);
          (destruct q as [q|]; [unfold fmt_desc; rewrite ?Bv, Hx; cbn [rmap]; eexists; reflexivity|]; destruct (U n kp p D Vd De) as [U1 U2]);
          try (exfalso; rewrite U2 in B1; cbn in B1; discriminate B1).
        exfalso. assert (Eb : b = BBool false) by (destruct b; cbn [bare_val] in Bv; try discriminate Bv; congruence). rewrite (Hb Eb) in U1. discriminate.
      * destruct (bare_val b) as [| [] | | | | | | | | | | | | | |]; eexists; reflexivity.
  - split; [eexists; reflexivity|]. apply NoteOk; [exact P1|]. exists []. split; reflexivity.
Qed.
Lemma dset_map {A B} (g : A -> B) k v (d : dict A) : dset k (g v) (map (fun kv => (fst kv, g (snd kv))) d) = map (fun kv => (fst kv, g (snd kv))) (dset k v d).
Proof. induction d as [|[x y] d IH]; [reflexivity|]. cbn [map dset fst snd]. destruct (str_eqb k x); cbn [map fst snd]; [reflexivity|]. rewrite IH. reflexivity. Qed.
Lemma dupdate_map {A B} (g : A -> B) (l d : dict A) : dupdate (map (fun kv => (fst kv, g (snd kv))) d) (map (fun kv => (fst kv, g (snd kv))) l) = map (fun kv => (fst kv, g (snd kv))) (dupdate d l).
Proof. unfold dupdate. revert d. induction l as [|[k v] l IH]; intros d; [reflexivity|]. cbn [map fold_left fst snd]. rewrite dset_map. apply IH. Qed.
Lemma params_attributes m : params_dict (mem_params m) = map (fun kv => (fst kv, bare_val (snd kv))) (attributes m).
Proof. unfold params_dict, attributes. change (@nil (str * pyval)) with (map (fun kv : str * bare => (fst kv, bare_val (snd kv))) []). rewrite dupdate_map. destruct m; reflexivity. Qed.
Lemma each_map {A B C} P ks (R : A -> list (nid * list (option pyval)) -> Prop) (h : A -> B) (g : B -> W C) l :
  (forall a, In a l -> (exists c, snd (g (h a)) = Ok c) /\ R a (pairs P ks (fst (g (h a))))) -> (exists cs, snd (mapW g (map h l)) = Ok cs) /\ each R l (pairs P ks (fst (mapW g (map h l)))).
Proof.
  intros H. destruct (mapW_in g (map h l)) as [M1 M2]; [intros b Hb; apply in_map_iff in Hb as (a & <- & Ha); apply H, Ha|]. split; [exact M2|]. rewrite M1. clear M1 M2.
  exists (map (fun a => pairs P ks (fst (g (h a)))) l). split.
  - induction l as [|a l IH]; constructor; [apply H; left; reflexivity|]. apply IH. intros b Hb. apply H. right. exact Hb.
  - clear H. induction l as [|a l IH]; [reflexivity|]. cbn [map flat_map concat]. rewrite pairs_app, IH. reflexivity.
Qed.
Lemma target_text_ok e m : exists s, target_text e (mem_head m) = Ok s.
Proof. destruct m as [[| | | | |[]| |] p|l p]; cbn [mem_head bare_val target_text py_str]; eauto. Qed.
Lemma mapW_length {A B} (g : A -> W B) l bs : snd (mapW g l) = Ok bs -> List.length bs = List.length l.
Proof.
  revert bs. induction l as [|a l IH]; cbn [mapW]; intros bs H; [injection H as <-; reflexivity|]. unfold bind at 1 in H. destruct (g a) as [l1 [b|x]]; [|discriminate H]. unfold bind in H. destruct (mapW g l) as [l2 [cs|x]]; [|discriminate H].
  cbn [snd ret] in H. injection H as <-. cbn [List.length]. f_equal. apply IH. reflexivity.
Qed.
Lemma status_ok P c known tab flags present unk bad ms : Forall2 agree known tab -> unshown known flags -> P present = true -> P unk = true -> P bad = true -> shown flags ms ->
  status_due tab present unk bad ms (pairs P [u "param"] (fst (ev_status_list c known present unk bad ms))).
Proof.
  intros F U P0 P1 P2 Sh. unfold ev_status_list. set (g := fun m => _ : W str).
  assert (G : forall m, In m ms -> (exists y, snd (g m) = Ok y) /\ each (param_due tab unk bad) (attributes m) (pairs P [u "param"] (fst (g m)))).
  { intros m Hm. unfold g. destruct (target_text_ok (cx_env c) m) as (tx & ->). rewrite lift_ok. unfold check_sf_params. rewrite params_attributes.
    destruct (each_map P [u "param"] (param_due tab unk bad) (fun kv => (fst kv, bare_val (snd kv))) (check_sf_param (cx_env c) known unk bad) (attributes m)) as [(cs & M1) M2].
    { intros [k v] Hkv. apply (param_ok P (cx_env c) known tab flags unk bad (k, v)); auto. cbn [fst snd]. intros ->. apply (Sh m k Hm Hkv). }
    destruct (mapW _ _) as [l r]. cbn [fst snd] in M1, M2. subst r. unfold bind, ret. cbn [fst snd]. rewrite !app_nil_r. split; [eexists; reflexivity|exact M2]. }
  assert (M : (exists cs, snd (mapW g ms) = Ok cs) /\ each (fun m => each (param_due tab unk bad) (attributes m)) ms (pairs P [u "param"] (fst (mapW g ms)))).
  { pose proof (each_map P [u "param"] (fun m => each (param_due tab unk bad) (attributes m)) (fun m => m) g ms G) as X. rewrite map_id in X. exact X. }
  destruct M as [(cs & M1) M2]. pose proof (mapW_length g ms cs M1) as L.
  assert (Eq : forall w : W (list str), snd w = Ok cs -> pairs P [u "param"] (fst (bind w (fun lines => when (nonempty lines) (add_note present [vs "status" (join [10; 10] lines)])))) = pairs P [u "param"] (fst w) ++ told_once (nonempty ms) present [None]).
  { intros [l r] X. cbn [snd] in X. subst r. unfold bind. destruct cs, ms; cbn [List.length] in L; try discriminate L.
    - change (when _ _) with (ret tt). cbn [fst ret]. rewrite pairs_app. reflexivity.
    - match goal with |- context [when ?b ?x] => change (when b x) with x end. unfold add_note, tell. cbn [fst]. rewrite pairs_app. f_equal.
      cbn [pairs flat_map pair_of map app]. rewrite P0. reflexivity. }
  exists (pairs P [u "param"] (fst (mapW g ms))). split; [|exact M2]. apply Eq. exact M1.
Qed.
Lemma cache_agree : Forall2 agree cache_status_params cache_table.
Proof. repeat (apply Forall2_cons; [split; [reflexivity|]; split; [reflexivity|]; split; [discriminate|]; split; [repeat (apply Forall_cons; [cbv; auto 9|]); apply Forall_nil|reflexivity]|]). apply Forall2_nil. Qed.
Lemma proxy_agree : Forall2 agree proxy_status_params proxy_table.
Proof. repeat (apply Forall2_cons; [split; [reflexivity|]; split; [reflexivity|]; split; [discriminate|]; split; [repeat (apply Forall_cons; [cbv; auto 9|]); apply Forall_nil|reflexivity]|]). apply Forall2_nil. Qed.
Lemma cache_unshown : unshown cache_status_params ["hit"; "stored"; "collapsed"]%string.
Proof.
  intros k kp p D V De. apply dget_In in D. repeat (destruct D as [D|D]; [injection D as <- <-; cbn in V, De; try discriminate; split; reflexivity|]). destruct D.
Qed.
Lemma proxy_unshown : unshown proxy_status_params [].
Proof.
  intros k kp p D V De. apply dget_In in D. repeat (destruct D as [D|D]; [injection D as <- <-; cbn in V, De; discriminate|]). destruct D.
Qed.
Lemma tm_sf_param e known unk bad kv : tm (check_sf_param e known unk bad kv).
Proof. destruct kv as [n v]. unfold check_sf_param. tms. Qed.
Theorem C53_cache_status : forall e rel top headers chunks complete trailers t start nc head base m' rel',
  lint e rel top headers chunks complete trailers (new_linter t start nc head base) = (m', rel', Ok tt) -> t <> MRequest ->
  hyphened (u "cache-status") headers -> hyphened (u "cache-status") trailers ->
  exists due, (forall s, list_rule e (fun ms l => shown ["hit"; "stored"; "collapsed"]%string ms -> status_due cache_table CACHE_STATUS CACHE_STATUS_UNKNOWN_PARAM CACHE_STATUS_BAD_PARAM_VAL ms l) s (due s))
    /\ heard (classes cache_classes) [u "param"] (m_notes m') = sf_told "cache-status" due headers ++ sf_told "cache-status" due trailers.
Proof.
  intros e rel top headers chunks complete trailers t start nc head base m' rel' E Ht Y1 Y2. eexists. split; [|apply (sf_due cache_classes [u "param"] F_cache_status "cache-status" SFList e rel top headers chunks complete trailers t start nc head base m' rel' E)].
  - intros s. unfold list_rule, sfe, sf_events. destruct (e_sf_list e s) as [ms d| |]; [|reflexivity..]. intros Sh. cbn [eval_list]. rewrite keep_fst. apply (status_ok _ _ _ _ _ _ _ _ _ cache_agree cache_unshown); auto.
  - its_type.
  - reflexivity.
  - tame_all; unfold ev_cache_status, ev_status_list, check_sf_params; tms; apply tm_sf_param.
  - exact Y1.
  - exact Y2.
Qed.
Print Assumptions C53_cache_status.
Theorem C53_proxy_status : forall e rel top headers chunks complete trailers t start nc head base m' rel',
  lint e rel top headers chunks complete trailers (new_linter t start nc head base) = (m', rel', Ok tt) -> t <> MRequest ->
  hyphened (u "proxy-status") headers -> hyphened (u "proxy-status") trailers ->
  exists due, (forall s, list_rule e (status_due proxy_table PROXY_STATUS PROXY_STATUS_UNKNOWN_PARAM PROXY_STATUS_BAD_PARAM_VAL) s (due s))
    /\ heard (classes proxy_classes) [u "param"] (m_notes m') = sf_told "proxy-status" due headers ++ sf_told "proxy-status" due trailers.
Proof.
  intros e rel top headers chunks complete trailers t start nc head base m' rel' E Ht Y1 Y2. eexists. split; [|apply (sf_due proxy_classes [u "param"] F_proxy_status "proxy-status" SFList e rel top headers chunks complete trailers t start nc head base m' rel' E)].
  - intros s. apply sfe_list. intros ms d _. cbn [eval_list]. rewrite keep_fst. apply (status_ok _ _ _ _ _ _ _ _ _ proxy_agree proxy_unshown); auto. intros m k _ _. reflexivity.
  - its_type.
  - reflexivity.
  - tame_all; unfold ev_proxy_status, ev_status_list, check_sf_params; tms; apply tm_sf_param.
  - exact Y1.
  - exact Y2.
Qed.
Print Assumptions C53_proxy_status.

(** ** Examples: what the library reads is given by tables. *)
Definition look {A} (t : list (string * A)) (s : str) : sfres A := match find (fun x => str_eqb s (u (fst x))) t with Some x => SFOk (snd x) [] | None => SFErr [] (u "no") None end.
Definition sf_env (items : list (string * bare)) (lists : list (string * list member)) (dicts : list (string * list (str * member))) : env :=
  mkEnv (look (map (fun x => (fst x, (snd x, []))) items)) (look lists) (look dicts) (e_json env0) (fun s => Ok (mkUrl (if str_eqb s (u "http://x") then u "http" else []) [] s [] [])) (fun _ b => Ok b) (e_quote env0) (e_unquote env0)
        (e_unsplit env0) (e_idna env0) (e_utf8 env0) (e_codec env0) (e_decode env0) (e_chardet env0) (e_sniff env0) (e_rank env0)
        (e_b64 env0) (e_md5 env0) (e_float_str env0) (e_reltime env0) (e_repr env0) (e_display env0)
        (e_inflate env0) (e_brotli env0).
Definition ex_env : env := sf_env [("@9"%string, BDate 9)]
  [("a, 7, ""b"""%string, [MItem (BTok (u "a")) []; MItem (BInt 7) []; MItem (BStr (u "b")) []]);
   ("""http://x"", y"%string, [MItem (BStr (u "http://x")) []; MItem (BTok (u "y")) []]);
   ("c; hit; fwd=gone; x=1"%string, [MItem (BTok (u "c")) [(u "hit", BBool true); (u "fwd", BTok (u "gone")); (u "x", BInt 1)]]);
   ("p; error=e; received-status=?1"%string, [MItem (BTok (u "p")) [(u "error", BTok (u "e")); (u "received-status", BBool true)]])]
  [("a=""http://x"", b=c"%string, [(u "a", MItem (BStr (u "http://x")) []); (u "b", MItem (BTok (u "c")) [])]);
   ("max-age, public=1"%string, [(u "max-age", MItem (BBool true) []); (u "public", MItem (BInt 1) [])]);
   ("match=m, match-dest=(1)"%string, [(u "match", MItem (BTok (u "m")) []); (u "match-dest", MInner [(BInt 1, [])] [])])].
Definition ex_lines : list rawline := raws [("Deprecation", "@9"); ("Accept-Query", "a, 7"); ("Accept-Query", """b"""); ("Cache-Groups", "a, 7, ""b"""); ("Cache-Group-Invalidation", "a, 7, ""b""");
  ("Speculation-Rules", """http://x"", y"); ("Reporting-Endpoints", "a=""http://x"", b=c"); ("CDN-Cache-Control", "max-age, public=1"); ("Use-As-Dictionary", "match=m, match-dest=(1)");
  ("Cache-Status", "c; hit; fwd=gone; x=1"); ("Proxy-Status", "p; error=e; received-status=?1")]%string.
Example C53_ex : let '(m, _, r) := lint ex_env None (TopResponse (u "1.1") (u "200") None) ex_lines [] true [] (new_linter MResponse (Some 5%Q) false false []) in
  r = Ok tt /\ map (fun x => fst (fst x)) (heard (classes (deprecation_classes ++ query_classes ++ [CACHE_GROUPS_BAD_TYPE] ++ invalidation_classes ++ rules_classes ++ endpoint_classes ++ cdn_classes ++ dictionary_classes ++ cache_classes ++ proxy_classes)) [] (m_notes m)) =
    [DEPRECATION_FUTURE; ACCEPT_QUERY_BAD_SYNTAX; ACCEPT_QUERY_BAD_TYPE; ACCEPT_QUERY_BAD_SYNTAX; CACHE_GROUPS_BAD_TYPE; CACHE_GROUP_INVALIDATION_BAD_TYPE; SPECULATION_RULE_NOT_SECURE; SPECULATION_RULES_BAD_TYPE; ENDPOINT_NOT_SECURE;
     BAD_REPORTING_ENDPOINT_SYNTAX; CDN_CACHE_CONTROL_PRESENT; BAD_CDN_CC_TYPE; USE_AS_DICTIONARY_BAD_TYPE; USE_AS_DICTIONARY_BAD_MATCH_DEST; CACHE_STATUS_BAD_PARAM_VAL; CACHE_STATUS_UNKNOWN_PARAM; CACHE_STATUS; PROXY_STATUS].
Proof. vm_compute. repeat split. Qed.
Example C53_ex_shown : shown ["hit"; "stored"; "collapsed"]%string [MItem (BTok (u "c")) [(u "hit", BBool true); (u "fwd", BTok (u "gone")); (u "x", BInt 1)]]
  /\ ~ shown ["hit"; "stored"; "collapsed"]%string [MItem (BTok (u "c")) [(u "hit", BBool false)]].
Proof.
  split.
  - intros m k [<-|[]] H. vm_compute in H. repeat (destruct H as [H|H]; [discriminate H|]). destruct H.
  - intros H. specialize (H _ (u "hit") (or_introl eq_refl)). vm_compute in H. discriminate H. left. reflexivity.
Qed.
