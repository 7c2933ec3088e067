(** * C55: what notes show. *)
From Coq Require Import Lia ZifyBool ZifyN QArith.
From Verif Require Import PyStr Regex Grammar NoteTable Note PyLib Utils FieldAttrs Types Fields1 Fields2 Fields3 Framework Checks Message
  EvLogic NoteLemmas TestEnv LexLemmas ParamLemmas NumLemmas PassParse Session SessionLemmas SecNotes SecValues LintLemmas FieldSpec PropFields PropValues PropNames PropParse PropTop PropCli OwnLemmas ListSpec PropLists PropCC ListExamples FieldExamples
  PropInts FieldDue OwnTac RangeSpec PropRange OriginSpec PropStart CodingSpec PropCodings PrefSpec PropPrefs PlainSpec PropPlain LinkSpec PropLink PropPolicy CookieSpec PropCookies ShowSpec.
Open Scope N_scope.

(** ** Notes that show something, wherever they are *)
Section Says.
  Variables (P : nid -> bool) (ks : list str).
  Definition saying {A} (Q : nid -> list (option pyval) -> Prop) (w : W A) : Prop :=
    forall s, Forall (fun x : nid * str * list (option pyval) => snd (fst x) = s /\ Q (fst (fst x)) (snd x)) (speak P ks s (fst w)).
  Lemma sy_ret {A} Q (a : A) : saying Q (ret a). Proof. intros s. constructor. Qed.
  Lemma sy_raise {A} Q x : saying Q (@raise A x). Proof. intros s. constructor. Qed.
  Lemma sy_lift {A} Q (r : res A) : saying Q (lift r). Proof. intros s. constructor. Qed.
  Lemma sy_note (Q : nid -> list (option pyval) -> Prop) n v : (P n = true -> Q n (map (fun k => dlast k v) ks)) -> saying Q (add_note n v).
  Proof. intros H s. cbn [add_note tell fst speak flat_map utter]. destruct (P n); [|constructor]. constructor; [|constructor]. split; [reflexivity|apply H; reflexivity]. Qed.
  Lemma sy_bind {A B} Q (m : W A) (f : A -> W B) : saying Q m -> (forall a, snd m = Ok a -> saying Q (f a)) -> saying Q (bind m f).
  Proof.
    intros H Hf s. specialize (H s). unfold bind. destruct m as [l [a|x]]; cbn [fst snd] in *; [|exact H]. specialize (Hf a eq_refl s). destruct (f a) as [l' r]. cbn [fst] in *. rewrite speak_app. apply Forall_app. auto.
  Qed.
  Lemma sy_when Q (b : bool) m : (b = true -> saying Q m) -> saying Q (when b m). Proof. destruct b; cbn; auto. intros _. apply sy_ret. Qed.
  Lemma sy_mapW {A B} Q (f : A -> W B) l : (forall a, In a l -> saying Q (f a)) -> saying Q (mapW f l).
  Proof. induction l as [|a l IH]; cbn [mapW]; intros H; [apply sy_ret|]. apply sy_bind; [apply H; left; reflexivity|]. intros b _. apply sy_bind; [apply IH; intros; apply H; right; assumption|]. intros. apply sy_ret. Qed.
  Lemma sy_iterW {A} Q (f : A -> W unit) l : (forall a, In a l -> saying Q (f a)) -> saying Q (iterW f l).
  Proof. intros H. unfold iterW. apply sy_bind; [apply sy_mapW, H|]. intros. apply sy_ret. Qed.
  Lemma sy_hush {A} Q (w : W A) : hush P w -> saying Q w.
  Proof. intros H s. rewrite (H ks s). constructor. Qed.
  Lemma sy_same Q l : saying Q (l, Ok tt) -> forall s, speak P ks s l = map (fun x => (fst x, s, snd x)) (map (fun x => (fst (fst x), snd x)) (speak P ks [] l)).
  Proof.
    intros H s. unfold saying in H. cbn [fst] in H. induction l as [|e l IH]; [reflexivity|]. cbn [speak flat_map] in *.
    assert (H1 : forall s, Forall (fun x : nid * str * list (option pyval) => snd (fst x) = s /\ Q (fst (fst x)) (snd x)) (utter P ks s e)) by (intros s'; specialize (H s'); apply Forall_app in H; tauto).
    assert (H2 : forall s, Forall (fun x : nid * str * list (option pyval) => snd (fst x) = s /\ Q (fst (fst x)) (snd x)) (speak P ks s l)) by (intros s'; specialize (H s'); apply Forall_app in H; tauto).
    rewrite !map_app. f_equal; [|exact (IH H2)]. destruct e; try reflexivity; cbn [utter] in *; destruct (P cls); try reflexivity.
    exfalso. pose proof (Forall_inv (H1 [])) as [X _]. pose proof (Forall_inv (H1 [0])) as [Y _]. cbn [fst snd] in X, Y. congruence.
  Qed.
End Says.
Section Shows.
  Variables (cs : list nid) (ks : list str) (f : fname) (k : string).
  Variables (e : env) (rel : option mstate) (top : topline) (headers : list (bytes * bytes)) (chunks : list bytes) (complete : bool) (trailers : list (bytes * bytes))
    (t : mtype) (start : option Q) (nc head : bool) (base : str) (m' : mstate) (rel' : option mstate).
  Hypothesis E : lint e rel top headers chunks complete trailers (new_linter t start nc head base) = (m', rel', Ok tt).
  Hypothesis Ho : owns cs f (u k) && own_keys ks && plain f && processed t (u k) = true.
  Hypothesis Hk : forall x, nk (eva f e rel m' x).
  Hypothesis H1 : hyphened (u k) headers.
  Hypothesis H2 : hyphened (u k) trailers.
  Lemma single_shows (R : str -> nid -> list (option pyval) -> Prop) : kind_of f = KSingleton ->
    (forall v, saying (classes cs) ks (R v) (par f e rel m' v)) -> (forall v x, snd (par f e rel m' v) = Ok x -> saying (classes cs) ks (R v) (eva f e rel m' x)) ->
    exists due, showing R due /\ heard (classes cs) ks (m_notes m') = single_told k due headers ++ single_told k due trailers.
  Proof.
    intros Kd Hp Hq. set (evs := fun v => fst (par f e rel m' v) ++ match snd (par f e rel m' v) with Ok x => match x with VNone => [] | _ => fst (eva f e rel m' x) end | Err _ => [] end).
    assert (S : forall v, saying (classes cs) ks (R v) (evs v, Ok tt)).
    { intros v s. cbn [fst]. unfold evs. rewrite speak_app. apply Forall_app. split; [apply Hp|]. destruct (snd (par f e rel m' v)) as [x|] eqn:Ex; [|constructor].
      pose proof (Hq v x Ex s) as X. destruct x; try exact X. constructor. }
    exists (fun v => map (fun x => (fst (fst x), snd x)) (speak (classes cs) ks [] (evs v))). split.
    - intros v c w Hi. apply in_map_iff in Hi as ([[c' s'] w'] & Eq & Hi). injection Eq as -> ->. pose proof (S v []) as X. rewrite Forall_forall in X. apply (X _ Hi).
    - rewrite (single_run cs ks f (u k) e rel top headers chunks complete trailers t start nc head base m' rel' E Ho Hk H1 H2 Kd).
      assert (L : forall l, single_says (classes cs) ks (u k) (par f e rel m') (eva f e rel m') l = single_told k (fun v => map (fun x => (fst (fst x), snd x)) (speak (classes cs) ks [] (evs v))) l).
      { intros l. unfold single_says, single_told, first_line. destruct (values (u k) l) as [|v r]; [reflexivity|]. apply (sy_same _ _ (R (strip v)) (evs (strip v)) (S (strip v))). }
      rewrite !L. reflexivity.
  Qed.
  Lemma list_shows (R1 : str -> nid -> list (option pyval) -> Prop) (R : list str -> nid -> list (option pyval) -> Prop) : kind_of f = KList ->
    (forall v, saying (classes cs) ks (R1 v) (par f e rel m' v)) ->
    (forall ms, saying (classes cs) ks (R ms) (eva f e rel m' (VList (flat_map (fun v => match snd (par f e rel m' v) with Ok x => [x] | Err _ => [] end) ms)))) ->
    exists due1 due, showing R1 due1 /\ showing R due
      /\ heard (classes cs) ks (m_notes m') = (member_told t k due1 headers ++ list_told k due headers) ++ member_told t k due1 trailers ++ list_told k due trailers.
  Proof.
    intros Kd Hp Hq. set (whole := fun ms => fst (eva f e rel m' (VList (flat_map (fun v => match snd (par f e rel m' v) with Ok x => [x] | Err _ => [] end) ms)))).
    exists (fun v => map (fun x => (fst (fst x), snd x)) (speak (classes cs) ks [] (fst (par f e rel m' v)))), (fun ms => map (fun x => (fst (fst x), snd x)) (speak (classes cs) ks [] (whole ms))). split; [|split].
    - intros v c w Hi. apply in_map_iff in Hi as ([[c' s'] w'] & Eq & Hi). injection Eq as -> ->. pose proof (Hp v []) as X. rewrite Forall_forall in X. apply (X _ Hi).
    - intros ms c w Hi. apply in_map_iff in Hi as ([[c' s'] w'] & Eq & Hi). injection Eq as -> ->. pose proof (Hq ms []) as X. rewrite Forall_forall in X. apply (X _ Hi).
    - rewrite (list_run cs ks f (u k) e rel top headers chunks complete trailers t start nc head base m' rel' E Ho Hk H1 H2 Kd).
      match goal with |- _ = (member_told t k ?d1 headers ++ list_told k ?d2 headers) ++ _ => assert (L : forall l, list_says (classes cs) ks t (u k) (par f e rel m') (eva f e rel m') l = member_told t k d1 l ++ list_told k d2 l) end.
      { intros l. unfold list_says, member_told, list_told. f_equal.
        - unfold elements. rewrite flat_map_flat_map. induction (field_lines_of t (u k) l) as [|[r n] x IH]; [reflexivity|]. cbn [flat_map fst snd]. rewrite IH. f_equal.
          clear IH. induction (split_list_field (value_of r)) as [|v y IH]; [reflexivity|]. cbn [map flat_map fst snd]. rewrite IH. f_equal. apply (sy_same _ _ (R1 (strip v)) (fst (par f e rel m' (strip v)))). exact (Hp (strip v)).
        - rewrite (members_elements t). destruct (values (u k) l); [reflexivity|]. cbn [nonempty]. rewrite <- (sy_same _ _ (R (map strip (map fst (elements t (u k) l))))) by exact (Hq (map strip (map fst (elements t (u k) l)))).
          f_equal. unfold whole. f_equal. f_equal. f_equal. unfold parses.
          induction (map fst (elements t (u k) l)) as [|v y IH]; [reflexivity|]. cbn [map flat_map]. rewrite IH. reflexivity. }
      rewrite !L. reflexivity.
  Qed.
  Lemma elements_shows (R1 : str -> nid -> list (option pyval) -> Prop) : kind_of f = KList ->
    (forall v, saying (classes cs) ks (R1 v) (par f e rel m' v)) -> (forall x, hush (classes cs) (eva f e rel m' x)) ->
    exists due, showing R1 due /\ heard (classes cs) ks (m_notes m') = member_told t k due headers ++ member_told t k due trailers.
  Proof.
    intros Kd Hp Hq. destruct (list_shows R1 (fun (_ : list str) (_ : nid) (_ : list (option pyval)) => False) Kd Hp) as (d1 & d & S1 & S2 & S3); [intros ms; apply sy_hush, Hq|].
    exists d1. split; [exact S1|]. rewrite S3. unfold list_told. assert (N : forall ms, d ms = []) by (intros ms; destruct (d ms) as [|[c w] l] eqn:Ed; [reflexivity|]; destruct (S2 ms c w); rewrite Ed; left; reflexivity).
    rewrite !N. destruct (values _ headers), (values _ trailers); cbn [map]; rewrite ?app_nil_r; reflexivity.
  Qed.
  Lemma whole_shows (R : list str -> nid -> list (option pyval) -> Prop) : kind_of f = KList ->
    (forall v, hush (classes cs) (par f e rel m' v)) ->
    (forall ms, saying (classes cs) ks (R ms) (eva f e rel m' (VList (flat_map (fun v => match snd (par f e rel m' v) with Ok x => [x] | Err _ => [] end) ms)))) ->
    exists due, showing R due /\ heard (classes cs) ks (m_notes m') = list_told k due headers ++ list_told k due trailers.
  Proof.
    intros Kd Hp Hq. destruct (list_shows (fun (_ : str) (_ : nid) (_ : list (option pyval)) => False) R Kd) as (d1 & d & S1 & S2 & S3); [intros v; apply sy_hush, Hp|exact Hq|].
    exists d. split; [exact S2|]. rewrite S3. assert (N : forall v, d1 v = []) by (intros v; destruct (d1 v) as [|[c w] l] eqn:Ed; [reflexivity|]; destruct (S1 v c w); rewrite Ed; left; reflexivity).
    assert (M : forall l, member_told t k d1 l = []) by (intros l; unfold member_told; apply flat_none; intros rn _; apply flat_none; intros v _; rewrite N; reflexivity).
    rewrite !M. reflexivity.
  Qed.
End Shows.
Ltac sys := repeat (cbv zeta; first
  [ apply sy_ret | apply sy_raise | apply sy_lift | (apply sy_iterW; intros ? ?) | (apply sy_mapW; intros ? ?) | (apply sy_bind; [|intros ? ?]) | (apply sy_when; intro) | (apply sy_note; intro) ]).

(** ** Content-Range *)
Lemma int_numeral n z : int_of n = Ok z -> digit_like n -> numeral n z.
Proof. intros H Hd. destruct (like_int n Hd) as [(x & Hx & Ex)|(_ & Ex)]; rewrite Ex in H; [injection H as <-; exact Hx|discriminate H]. Qed.
Lemma cr_length_says (Q : nid -> list (option pyval) -> Prop) n : Q CONTENT_RANGE_UNKNOWN_LENGTH [None] -> (n <> star -> ~ digit_like n -> Q RANGE_INVALID_INTEGER [text n]) -> saying (classes content_range_classes) [u "value"] Q (cr_length n).
Proof.
  intros H1 H2. unfold cr_length. destruct (str_eqb n [42]) eqn:En; [sys; exact H1|]. destruct (py_isdigit n) eqn:Ed; cbn [negb]; sys. apply H2; [apply star_nb, En|apply like_nb, Ed].
Qed.
Lemma cr_length_is n o : snd (cr_length n) = Ok o -> (match o with None => true | Some _ => false end) && negb (str_eqb n [42]) = false -> n = star \/ exists z, numeral n z.
Proof.
  unfold cr_length. destruct (str_eqb n [42]) eqn:En; [left; apply star_b, En|]. destruct (py_isdigit n) eqn:Ed; cbn [negb].
  - apply digit_like_b in Ed. destruct (int_of n) as [z|] eqn:Ei; [|discriminate]. intros _ _. right. exists z. apply int_numeral; assumption.
  - cbn. intros H. injection H as <-. discriminate.
Qed.
Theorem C55_content_range : forall e rel top headers chunks complete trailers t start nc head base m' rel',
  lint e rel top headers chunks complete trailers (new_linter t start nc head base) = (m', rel', Ok tt) -> t <> MRequest ->
  hyphened (u "content-range") headers -> hyphened (u "content-range") trailers ->
  exists due, showing content_range_shows due
    /\ heard (classes content_range_classes) [u "value"] (m_notes m') = single_told "content-range" due headers ++ single_told "content-range" due trailers.
Proof.
  intros e rel top headers chunks complete trailers t start nc head base m' rel' E Ht H1 H2.
  apply (single_shows content_range_classes [u "value"] F_content_range "content-range" e rel top headers chunks complete trailers t start nc head base m' rel' E);
    [its_type|intros x; unfold eva; cbn [eval_of]; nks|exact H1|exact H2|reflexivity| |intros v x _; unfold eva; cbn [eval_of]; sys].
  intros v. unfold par. cbn [parse_of]. unfold p_content_range. sys; [reflexivity|]. clear. destruct (split1 32 v) as [[unit rest]|] eqn:E1; [|sys; reflexivity].
  destruct (split1 47 rest) as [[r n]|] eqn:E2; [|sys; reflexivity]. apply split1_cut in E1. apply split1_cut in E2. destruct (str_eqb r [42] && str_eqb n [42]); [sys; reflexivity|].
  apply sy_bind.
  - apply cr_length_says; [reflexivity|]. intros Hn Hd. exists n. split; [reflexivity|]. exists unit, rest, r, n. auto 8.
  - intros cl Hl. destruct (_ && _) eqn:Eb; [sys|]. pose proof (cr_length_is n cl Hl Eb) as Hn. apply sy_bind.
    + unfold cr_range. destruct (str_eqb r [42]) eqn:Er; [sys|]. apply star_nb in Er. destruct (split1 45 r) as [[a b]|] eqn:E3.
      * apply split1_cut in E3. destruct (py_isdigit a) eqn:Ea; cbn [negb].
        2:{ sys. exists a. split; [reflexivity|]. exists unit, rest, r, n. split; [exact E1|]. split; [exact E2|]. right. split; [exact Hn|]. right. split; [reflexivity|]. exists a, b. split; [exact E3|]. left. split; [reflexivity|]. apply like_nb, Ea. }
        destruct (py_isdigit b) eqn:Eb2; cbn [negb]; [sys|]. sys. exists b. split; [reflexivity|]. exists unit, rest, r, n. split; [exact E1|]. split; [exact E2|]. right. split; [exact Hn|]. right. split; [reflexivity|]. exists a, b. split; [exact E3|]. right. split; [reflexivity|]. split; [apply digit_like_b, Ea|apply like_nb, Eb2].
      * apply split1_none in E3. sys. exists r. split; [reflexivity|]. exists unit, rest, r, n. split; [exact E1|]. split; [exact E2|]. right. split; [exact Hn|]. left. auto.
    + intros o _. sys. destruct (str_eqb r [42]); [sys; reflexivity|]. destruct o as [[a b]|]; sys; reflexivity.
Qed.
Print Assumptions C55_content_range.

(** ** Range *)
Theorem C55_range : forall e rel top headers chunks complete trailers start nc head base m' rel',
  lint e rel top headers chunks complete trailers (new_linter MRequest start nc head base) = (m', rel', Ok tt) ->
  exists due, showing range_shows due
    /\ heard (classes range_classes) [u "problem"] (m_notes m') = single_told "range" due headers ++ single_told "range" due trailers.
Proof.
  intros e rel top headers chunks complete trailers start nc head base m' rel' E.
  apply (single_shows range_classes [u "problem"] F_range "range" e rel top headers chunks complete trailers MRequest start nc head base m' rel' E);
    [vm_compute; reflexivity|intros x; unfold eva; cbn [eval_of]; nks|apply unhyphened; reflexivity|apply unhyphened; reflexivity|reflexivity| |intros v x _; unfold eva; cbn [eval_of]; sys].
  intros v. unfold par. cbn [parse_of]. unfold p_range. destruct (split1 61 v) as [[unit rest]|] eqn:E1.
  2:{ apply split1_none in E1. unfold Fields2.range_bad. sys. eexists. split; [reflexivity|]. left. auto. }
  apply split1_cut in E1. sys. rename a into s. rename H into Hs. unfold range_one. cbv zeta.
  assert (B : forall A (p : string), range_shows v RANGE_BAD_SYNTAX [text (u p)] -> saying (classes range_classes) [u "problem"] (range_shows v) (@Fields2.range_bad A p)) by (intros A p Hp; unfold Fields2.range_bad; sys; exact Hp).
  destruct (split1 45 (strip s)) as [[a b]|] eqn:E2.
  2:{ apply split1_none in E2. apply B. eexists. split; [reflexivity|]. right. exists unit, rest, s. split; [exact E1|]. split; [exact Hs|]. left. auto. }
  apply split1_cut in E2.
  assert (Pos : forall x p, (x <> [] -> ~ digit_like x -> range_shows v RANGE_BAD_SYNTAX [text (u p)]) -> saying (classes range_classes) [u "problem"] (range_shows v) (range_pos x p)).
  { intros x p Hx. unfold range_pos. destruct (nonempty x) eqn:En; cbn [negb]; [|sys]. destruct (py_isdigit x) eqn:Ed; cbn [negb]; [sys|]. apply B, Hx; [destruct x; [discriminate En|discriminate]|apply like_nb, Ed]. }
  assert (PNone : forall x p, snd (range_pos x p) = Ok None -> x = []).
  { intros x p. unfold range_pos. destruct x as [|c x]; [reflexivity|]. cbn [nonempty negb]. destruct (negb _); [intros H; discriminate H|]. destruct (int_of (c :: x)); [intros H; discriminate H|intros H; discriminate H]. }
  apply sy_bind.
  { apply Pos. intros Ha Hd. eexists. split; [reflexivity|]. right. exists unit, rest, s. split; [exact E1|]. split; [exact Hs|]. right. exists a, b. split; [exact E2|]. left. auto. }
  intros x Hx. apply sy_bind.
  { apply Pos. intros Ha Hd. eexists. split; [reflexivity|]. right. exists unit, rest, s. split; [exact E1|]. split; [exact Hs|]. right. exists a, b. split; [exact E2|]. right. left. auto. }
  intros y Hy. destruct x as [x|], y as [y|]; try (sys; reflexivity). apply B. eexists. split; [reflexivity|]. right. exists unit, rest, s. split; [exact E1|]. split; [exact Hs|]. right. exists a, b. split; [exact E2|]. right. right.
  split; [reflexivity|]. split; [apply (PNone _ _ Hx)|apply (PNone _ _ Hy)].
Qed.
Print Assumptions C55_range.
(** ** Accept-Ranges *)
Theorem C55_accept_ranges : forall e rel top headers chunks complete trailers t start nc head base m' rel',
  lint e rel top headers chunks complete trailers (new_linter t start nc head base) = (m', rel', Ok tt) -> t <> MRequest ->
  hyphened (u "accept-ranges") headers -> hyphened (u "accept-ranges") trailers ->
  exists due, showing accept_ranges_shows due
    /\ heard (classes [UNKNOWN_RANGE]) [u "range"] (m_notes m') = member_told t "accept-ranges" due headers ++ member_told t "accept-ranges" due trailers.
Proof.
  intros e rel top headers chunks complete trailers t start nc head base m' rel' E Ht H1 H2.
  apply (elements_shows [UNKNOWN_RANGE] [u "range"] F_accept_ranges "accept-ranges" e rel top headers chunks complete trailers t start nc head base m' rel' E);
    [its_type|intros x; unfold eva; cbn [eval_of]; nks|exact H1|exact H2|reflexivity| |intros x ks s; reflexivity].
  intros v. unfold par. cbn [parse_of]. unfold p_accept_ranges. sys. reflexivity.
Qed.
Print Assumptions C55_accept_ranges.

(** ** Content-Disposition, Cross-Origin-Resource-Policy, Location, Origin *)
Theorem C55_disposition : forall e rel top headers chunks complete trailers t start nc head base m' rel',
  lint e rel top headers chunks complete trailers (new_linter t start nc head base) = (m', rel', Ok tt) ->
  hyphened (u "content-disposition") headers -> hyphened (u "content-disposition") trailers ->
  exists due, showing disposition_shows due
    /\ heard (classes disposition_classes) [u "disposition"] (m_notes m') = single_told "content-disposition" due headers ++ single_told "content-disposition" due trailers.
Proof.
  intros e rel top headers chunks complete trailers t start nc head base m' rel' E H1 H2.
  apply (single_shows disposition_classes [u "disposition"] F_content_disposition "content-disposition" e rel top headers chunks complete trailers t start nc head base m' rel' E);
    [its_type|intros x; unfold eva; cbn [eval_of]; nks|exact H1|exact H2|reflexivity| |intros v x _; unfold eva; cbn [eval_of]; sys].
  intros v. unfold par. cbn [parse_of]. unfold p_content_disposition. rewrite semi_split. apply sy_bind; [apply sy_hush, params_hush; reflexivity|]. intros d _. sys; reflexivity.
Qed.
Print Assumptions C55_disposition.
Theorem C55_resource_policy : forall e rel top headers chunks complete trailers t start nc head base m' rel',
  lint e rel top headers chunks complete trailers (new_linter t start nc head base) = (m', rel', Ok tt) -> t <> MRequest ->
  hyphened (u "cross-origin-resource-policy") headers -> hyphened (u "cross-origin-resource-policy") trailers ->
  exists due, showing corp_shows due
    /\ heard (classes corp_classes) [u "value"] (m_notes m') = single_told "cross-origin-resource-policy" due headers ++ single_told "cross-origin-resource-policy" due trailers.
Proof.
  intros e rel top headers chunks complete trailers t start nc head base m' rel' E Ht H1 H2.
  apply (single_shows corp_classes [u "value"] F_cross_origin_resource_policy "cross-origin-resource-policy" e rel top headers chunks complete trailers t start nc head base m' rel' E);
    [its_type|intros x; unfold eva; cbn [eval_of]; unfold keep, ev_corp; nks|exact H1|exact H2|reflexivity|intros v; unfold par; cbn [parse_of]; unfold p_id; sys|].
  intros v x. unfold par. cbn [parse_of]. unfold p_id. intros H. injection H as <-. unfold eva. cbn [eval_of]. unfold keep, ev_corp. cbn [Types.h_val blank_of]. sys. unfold eq_text. cbn [str_of].
  destruct (str_eqb v (u "same-origin")); [sys; reflexivity|]. destruct (str_eqb v (u "same-site")); [sys; reflexivity|]. destruct (str_eqb v (u "cross-origin")); sys; reflexivity.
Qed.
Print Assumptions C55_resource_policy.
Theorem C55_location : forall e rel top headers chunks complete trailers t start nc head base m' rel',
  lint e rel top headers chunks complete trailers (new_linter t start nc head base) = (m', rel', Ok tt) -> t <> MRequest ->
  exists due, showing (location_shows (e_urljoin e (m_base m'))) due
    /\ heard (classes location_classes) [u "full_uri"] (m_notes m') = single_told "location" due headers ++ single_told "location" due trailers.
Proof.
  intros e rel top headers chunks complete trailers t start nc head base m' rel' E Ht.
  apply (single_shows location_classes [u "full_uri"] F_location "location" e rel top headers chunks complete trailers t start nc head base m' rel' E);
    [its_type|intros x; unfold eva; cbn [eval_of]; nks|apply unhyphened; reflexivity|apply unhyphened; reflexivity|reflexivity| |intros v x _; unfold eva; cbn [eval_of]; sys].
  intros v. unfold par. cbn [parse_of]. unfold p_location. sys; [reflexivity|]. eexists. split; [eassumption|reflexivity].
Qed.
Print Assumptions C55_location.
Lemma first_word_ok v : first_word v (List.hd [] (split_all 32 v)).
Proof. destruct (first_split v) as (o & r & -> & H & _). exact H. Qed.
Theorem C55_origin : forall e rel top headers chunks complete trailers start nc head base m' rel',
  lint e rel top headers chunks complete trailers (new_linter MRequest start nc head base) = (m', rel', Ok tt) ->
  exists due, showing origin_shows due
    /\ heard (classes origin_classes) [u "value"] (m_notes m') = single_told "origin" due headers ++ single_told "origin" due trailers.
Proof.
  intros e rel top headers chunks complete trailers start nc head base m' rel' E.
  apply (single_shows origin_classes [u "value"] F_origin "origin" e rel top headers chunks complete trailers MRequest start nc head base m' rel' E);
    [vm_compute; reflexivity|intros x; unfold eva; cbn [eval_of]; nks|apply unhyphened; reflexivity|apply unhyphened; reflexivity|reflexivity| |intros v x _; unfold eva; cbn [eval_of]; sys].
  intros v. unfold par. cbn [parse_of]. unfold p_origin. destruct (str_eqb v (u "null")); sys; [reflexivity|]. destruct (match_dollar _ _).
  - destruct (origin_groups _) as [[? ?] ?]. sys. destruct (nonempty _); sys.
  - sys. eexists. split; [|reflexivity]. apply first_word_ok.
Qed.
Print Assumptions C55_origin.

(** ** Accept, Accept-Patch, Accept-Post, Accept-Language, Server, Link *)
Lemma check_says (P : nid -> bool) ks (Q : nid -> list (option pyval) -> Prop) mt bad ref wild ct :
  P MEDIA_TYPE_LONG_NAME = false -> P MEDIA_TYPE_BAD_NAME = false -> Q bad (map (fun k => dlast k ((k_value, VStr mt) :: match ref with Some r => [(u "ref_uri", VStr (u r))] | None => [] end)) ks) ->
  saying P ks Q (check_media_type mt (Some bad) ref wild ct).
Proof.
  intros P1 P2 HQ. unfold check_media_type. destruct (partition_chr 47 mt) as [[ty slash] sub]. cbv zeta.
  destruct (_ || _); [sys; exact HQ|]. destruct (_ && _); [sys; exact HQ|]. destruct (_ && _); [sys; exact HQ|]. sys; congruence.
Qed.
Lemma media_says (P : nid -> bool) ks (Q : nid -> list (option pyval) -> Prop) e v bad ref wild n : forallb (fun c => negb (P c)) (MEDIA_TYPE_LONG_NAME :: MEDIA_TYPE_BAD_NAME :: param_classes) = true ->
  Q bad (map (fun k => dlast k ((k_value, VStr (type_of v)) :: match ref with Some r => [(u "ref_uri", VStr (u r))] | None => [] end)) ks) ->
  P bad = true -> saying P ks Q (parse_media_type e v (Some bad) ref wild n) /\ exists d, snd (parse_media_type e v (Some bad) ref wild n) = Ok (type_of v, d).
Proof.
  intros HP0 HQ Hb. pose proof HP0 as HP. cbn [forallb] in HP. apply andb_prop in HP as [P1 HP]. apply andb_prop in HP as [P2 HP]. apply negb_true_iff in P1, P2. change (forallb (fun c => negb (P c)) param_classes = true) in HP.
  split.
  - unfold parse_media_type. rewrite media_split. fold (type_of v). apply sy_bind; [apply check_says; assumption|]. intros _ _. apply sy_bind; [apply sy_hush, params_hush, HP|]. intros. apply sy_ret.
  - destruct (media_said P e v bad ref wild n HP0 Hb) as (l & b & -> & _). eexists; reflexivity.
Qed.
Theorem C55_accept : forall e rel top headers chunks complete trailers start nc head base m' rel',
  lint e rel top headers chunks complete trailers (new_linter MRequest start nc head base) = (m', rel', Ok tt) ->
  exists due, showing accept_shows due
    /\ heard (classes accept_classes) [u "media_type"; u "value"] (m_notes m') = member_told MRequest "accept" due headers ++ member_told MRequest "accept" due trailers.
Proof.
  intros e rel top headers chunks complete trailers start nc head base m' rel' E.
  apply (elements_shows accept_classes [u "media_type"; u "value"] F_accept "accept" e rel top headers chunks complete trailers MRequest start nc head base m' rel' E);
    [vm_compute; reflexivity|intros x; unfold eva; cbn [eval_of]; nks|apply unhyphened; reflexivity|apply unhyphened; reflexivity|reflexivity| |intros x ks s; reflexivity].
  intros v. unfold par. cbn [parse_of]. unfold p_accept. cbn [cx_env].
  destruct (media_says (classes accept_classes) [u "media_type"; u "value"] (accept_shows v) e v ACCEPT_BAD_SYNTAX (Some (ref_of F_accept)) true (NoStarList [kq]) eq_refl eq_refl eq_refl) as [S (d & D)].
  apply sy_bind; [exact S|]. intros [mt d'] H. rewrite D in H. injection H as <- <-. destruct (dget kq d) as [q|]; [destruct (q_value q)|]; sys. reflexivity.
Qed.
Print Assumptions C55_accept.
(** [k]: accept-patch or accept-post. *)
Theorem C55_media_types : forall e rel top headers chunks complete trailers t start nc head base m' rel',
  lint e rel top headers chunks complete trailers (new_linter t start nc head base) = (m', rel', Ok tt) -> t <> MRequest -> forall k cls,
  In (k, cls) [("accept-patch"%string, ACCEPT_PATCH_BAD_SYNTAX); ("accept-post"%string, ACCEPT_POST_BAD_SYNTAX)] ->
  hyphened (u k) headers -> hyphened (u k) trailers ->
  exists due, showing type_shows due /\ heard (classes [cls]) [u "value"] (m_notes m') = member_told t k due headers ++ member_told t k due trailers.
Proof.
  intros e rel top headers chunks complete trailers t start nc head base m' rel' E Ht k cls Hk H1 H2.
  destruct Hk as [Hk|[Hk|[]]]; injection Hk as <- <-; [apply (elements_shows [ACCEPT_PATCH_BAD_SYNTAX] [u "value"] F_accept_patch "accept-patch" e rel top headers chunks complete trailers t start nc head base m' rel' E)
    |apply (elements_shows [ACCEPT_POST_BAD_SYNTAX] [u "value"] F_accept_post "accept-post" e rel top headers chunks complete trailers t start nc head base m' rel' E)];
    try (its_type); try (intros x; unfold eva; cbn [eval_of]; nks); try assumption; try reflexivity; intros v; unfold par; cbn [parse_of]; unfold p_accept_patch, p_accept_post; cbn [cx_env];
    (apply sy_bind; [apply media_says; reflexivity|]); intros; sys.
Qed.
Print Assumptions C55_media_types.
Theorem C55_language : forall e rel top headers chunks complete trailers start nc head base m' rel',
  lint e rel top headers chunks complete trailers (new_linter MRequest start nc head base) = (m', rel', Ok tt) ->
  hyphened (u "accept-language") headers -> hyphened (u "accept-language") trailers ->
  exists due, showing language_shows due
    /\ heard (classes language_classes) [u "language"] (m_notes m') = member_told MRequest "accept-language" due headers ++ member_told MRequest "accept-language" due trailers.
Proof.
  intros e rel top headers chunks complete trailers start nc head base m' rel' E H1 H2.
  apply (elements_shows language_classes [u "language"] F_accept_language "accept-language" e rel top headers chunks complete trailers MRequest start nc head base m' rel' E);
    [vm_compute; reflexivity|intros x; unfold eva; cbn [eval_of]; nks|exact H1|exact H2|reflexivity| |intros x ks s; reflexivity].
  intros v. unfold par. cbn [parse_of]. unfold p_accept_language. rewrite semi_split. apply sy_bind; [apply sy_hush, params_hush; reflexivity|]. intros d _.
  apply sy_bind; [destruct (dget kq d) as [q|]; [destruct (q_value q)|]; sys; reflexivity|]. intros qv _. sys. reflexivity.
Qed.
Print Assumptions C55_language.
Theorem C55_server : forall e rel top headers chunks complete trailers t start nc head base m' rel',
  lint e rel top headers chunks complete trailers (new_linter t start nc head base) = (m', rel', Ok tt) -> t <> MRequest ->
  exists due, showing server_shows due
    /\ heard (classes [SERVER_TOO_LONG]) [u "server_string"] (m_notes m') = member_told t "server" due headers ++ member_told t "server" due trailers.
Proof.
  intros e rel top headers chunks complete trailers t start nc head base m' rel' E Ht.
  apply (elements_shows [SERVER_TOO_LONG] [u "server_string"] F_server "server" e rel top headers chunks complete trailers t start nc head base m' rel' E);
    [its_type|intros x; unfold eva; cbn [eval_of]; nks|apply unhyphened; reflexivity|apply unhyphened; reflexivity|reflexivity| |intros x ks s; reflexivity].
  intros v. unfold par. cbn [parse_of]. unfold p_server. sys. reflexivity.
Qed.
Print Assumptions C55_server.
Theorem C55_link : forall e rel top headers chunks complete trailers t start nc head base m' rel',
  lint e rel top headers chunks complete trailers (new_linter t start nc head base) = (m', rel', Ok tt) ->
  exists due, showing (link_shows e) due
    /\ heard (classes link_classes) [u "link"; u "rev"; u "anchor"; u "type"] (m_notes m') = member_told t "link" due headers ++ member_told t "link" due trailers.
Proof.
  intros e rel top headers chunks complete trailers t start nc head base m' rel' E.
  apply (elements_shows link_classes [u "link"; u "rev"; u "anchor"; u "type"] F_link "link" e rel top headers chunks complete trailers t start nc head base m' rel' E);
    [its_type|intros x; unfold eva; cbn [eval_of]; unfold keep, ev_link; nks|apply unhyphened; reflexivity|apply unhyphened; reflexivity|reflexivity| |].
  - intros v. unfold par. cbn [parse_of]. rewrite p_link_eq, semi_split. cbn [cx_env]. change (mid (strip (before_semi v))) with (link_target v). destruct (parameters_eq e star_names v) as (l & El).
    apply sy_bind; [apply sy_hush, params_hush; reflexivity|]. intros d Hd. rewrite El in Hd. injection Hd as <-. change (parameters e star_names v) with (link_params e v). unfold link_rest.
    apply sy_bind; [|intros _ _; apply sy_bind; [|intros _ _; apply sy_bind; [|intros; apply sy_ret]]].
    + destruct (dget (u "rev") (link_params e v)) as [r|] eqn:Er; sys. exists r. split; [exact Er|]. destruct r; reflexivity.
    + destruct (dget (u "anchor") (link_params e v)) as [[a|]|] eqn:Er; sys. exists a. split; [exact Er|reflexivity].
    + destruct (dget (u "type") (link_params e v)) as [[a|]|] eqn:Er; sys. exists a. split; [exact Er|reflexivity].
  - intros x. unfold eva. cbn [eval_of]. unfold keep. apply hush_bind; [apply ev_link_hush; reflexivity|]. intros _. apply hush_ret.
Qed.
Print Assumptions C55_link.

(** ** Expect, Referrer-Policy, Vary, Cache-Control *)
Theorem C55_expect : forall e rel top headers chunks complete trailers start nc head base m' rel',
  lint e rel top headers chunks complete trailers (new_linter MRequest start nc head base) = (m', rel', Ok tt) ->
  exists due, showing expect_shows due
    /\ heard (classes expect_classes) [u "expectation"] (m_notes m') = list_told "expect" due headers ++ list_told "expect" due trailers.
Proof.
  intros e rel top headers chunks complete trailers start nc head base m' rel' E.
  apply (whole_shows expect_classes [u "expectation"] F_expect "expect" e rel top headers chunks complete trailers MRequest start nc head base m' rel' E);
    [vm_compute; reflexivity|intros x; unfold eva; cbn [eval_of]; unfold keep, ev_expect; nks|apply unhyphened; reflexivity|apply unhyphened; reflexivity|reflexivity|intros v ks s; reflexivity|].
  intros ms. unfold par, eva. cbn [parse_of eval_of]. unfold p_id, keep, ev_expect. rewrite (strs_back (fun v => v)), map_id. cbn [Types.h_val blank_of cx_msg]. rewrite strs_list. apply sy_bind; [|intros; apply sy_ret].
  apply sy_bind; [sys; reflexivity|]. intros _ _. rewrite lift_ok. sys. unfold expect_shows. rewrite (filter_ext (fun x => negb (one_of ["100-continue"%string] (lower x))) (fun x => negb (str_eqb (lower x) (u "100-continue")))) by (intros x; rewrite one_single; reflexivity). reflexivity.
Qed.
Print Assumptions C55_expect.
Lemma last_known (p : str -> bool) l x r : filter p l = x :: r -> exists a b, l = a ++ last (filter p l) [] :: b /\ p (last (filter p l) []) = true /\ forallb (fun y => negb (p y)) b = true.
Proof.
  intros H. assert (N : filter p l <> []) by (rewrite H; discriminate). clear H x r. induction l as [|y l IH]; [destruct (N eq_refl)|]. cbn [filter] in *. destruct (p y) eqn:Ey.
  - destruct (filter p l) as [|z f] eqn:Ef.
    + exists [], l. split; [reflexivity|]. split; [exact Ey|]. clear -Ef. induction l as [|z l IH]; [reflexivity|]. cbn [filter forallb] in *. destruct (p z); [discriminate|]. apply IH, Ef.
    + destruct IH as (a & b & A & B & C); [discriminate|]. exists (y :: a), b. change (last (y :: z :: f) []) with (last (z :: f) []). rewrite A at 1. auto.
  - destruct (IH N) as (a & b & A & B & C). exists (y :: a), b. rewrite A at 1. auto.
Qed.
Theorem C55_referrer_policy : forall e rel top headers chunks complete trailers t start nc head base m' rel',
  lint e rel top headers chunks complete trailers (new_linter t start nc head base) = (m', rel', Ok tt) -> t <> MRequest ->
  hyphened (u "referrer-policy") headers -> hyphened (u "referrer-policy") trailers ->
  exists due, showing (referrer_shows policies) due
    /\ heard (classes referrer_classes) [u "policy"; u "effective"] (m_notes m') = list_told "referrer-policy" due headers ++ list_told "referrer-policy" due trailers.
Proof.
  intros e rel top headers chunks complete trailers t start nc head base m' rel' E Ht H1 H2.
  apply (whole_shows referrer_classes [u "policy"; u "effective"] F_referrer_policy "referrer-policy" e rel top headers chunks complete trailers t start nc head base m' rel' E);
    [its_type|intros x; unfold eva; cbn [eval_of]; unfold keep, ev_referrer_policy; nks|exact H1|exact H2|reflexivity|intros v ks s; reflexivity|].
  intros ms. unfold par, eva. cbn [parse_of eval_of]. unfold p_lower, keep, ev_referrer_policy. rewrite (strs_back lower). cbn [Types.h_val blank_of]. rewrite strs_list. apply sy_bind; [|intros; apply sy_ret].
  rewrite lift_ok. set (ps := map lower ms). assert (V : forall p, str_in p valid_referrer = one_of policies p) by (intros p; apply (str_in_one policies)).
  apply sy_bind.
  - sys. rename a into p. exists p. rewrite V in H0. apply negb_true_iff in H0. split; [exact H|]. split; [exact H0|reflexivity].
  - intros _ _. cbv zeta. rewrite (filter_ext _ _ V). destruct (filter (one_of policies) ps) as [|x r] eqn:Ef; [sys; reflexivity|]. destruct (last_known _ _ _ _ Ef) as (a & b & A & B & C). rewrite Ef in *.
    sys; [exists a, (last (x :: r) []), b; auto|]. destruct (str_eqb _ _); sys; [reflexivity|]. exists a, (last (x :: r) []), b; auto.
Qed.
Print Assumptions C55_referrer_policy.
Theorem C55_vary : forall e rel top headers chunks complete trailers t start nc head base m' rel',
  lint e rel top headers chunks complete trailers (new_linter t start nc head base) = (m', rel', Ok tt) -> t <> MRequest ->
  exists due, showing vary_shows due
    /\ heard (classes vary_classes) [u "vary_count"] (m_notes m') = list_told "vary" due headers ++ list_told "vary" due trailers.
Proof.
  intros e rel top headers chunks complete trailers t start nc head base m' rel' E Ht.
  apply (whole_shows vary_classes [u "vary_count"] F_vary "vary" e rel top headers chunks complete trailers t start nc head base m' rel' E);
    [its_type|intros x; unfold eva; cbn [eval_of]; unfold ev_vary; nks|apply unhyphened; reflexivity|apply unhyphened; reflexivity|reflexivity|intros v ks s; reflexivity|].
  intros ms. unfold par, eva. cbn [parse_of eval_of]. unfold p_lower, ev_vary. rewrite (strs_back lower). cbn [Types.h_val blank_of]. rewrite strs_list, lift_ok. sys; try reflexivity.
  exists (dedup (map lower ms)). split; [apply dedup_once|]. split; [intros x; apply dedup_in|reflexivity].
Qed.
Print Assumptions C55_vary.
Lemma conflict_in e cc tab d l : first_conflict e cc tab = Some (d, l) -> exists pot, In (d, pot) tab /\ In d cc /\ l = py_set e (filter (fun x => str_in x pot) cc).
Proof.
  induction tab as [|[d' pot] tab IH]; [discriminate|]. cbn [first_conflict]. destruct (str_in d' cc) eqn:Ed.
  - destruct (py_set e _) as [|x r] eqn:Es.
    + intros H. destruct (IH H) as (p & A & B & C). exists p. split; [right; exact A|auto].
    + intros H. injection H as <- <-. exists pot. split; [left; reflexivity|]. split; [apply str_in_In, Ed|rewrite Es; reflexivity].
  - intros H. destruct (IH H) as (p & A & B & C). exists p. split; [right; exact A|auto].
Qed.
Lemma cc_par e rel m' ms : VList (flat_map (fun v => match snd (par F_cache_control e rel m' v) with Ok x => [x] | Err _ => [] end) ms)
  = VList (map (fun dx => VTuple [VStr (fst dx); snd dx]) (flat_map (fun v => match cc_value v with Some x => [(cc_name v, x)] | None => [] end) ms)).
Proof.
  f_equal. induction ms as [|v ms IH]; [reflexivity|]. cbn [flat_map]. rewrite map_app, IH. f_equal. change (par F_cache_control e rel m' v) with (cc_p v). destruct (cc_element [] v) as (_ & -> & _). destruct (cc_value v); reflexivity.
Qed.
Lemma counting_eq ms : map fst (flat_map (fun v => match cc_value v with Some x => [(cc_name v, x)] | None => [] end) ms) = counting ms.
Proof. unfold counting. induction ms as [|v ms IH]; [reflexivity|]. cbn [flat_map filter]. rewrite map_app, IH. destruct (cc_value v); reflexivity. Qed.
Definition cck : list str := map u ["directive_lower"; "value"; "expected_type"; "other_message"; "conflicts"]%string.
Theorem C55_cache_control : forall e rel top headers chunks complete trailers t start nc head base m' rel',
  lint e rel top headers chunks complete trailers (new_linter t start nc head base) = (m', rel', Ok tt) ->
  hyphened (u "cache-control") headers -> hyphened (u "cache-control") trailers ->
  exists due1 due, showing cc_shows due1 /\ showing (cc_whole_shows t) due
    /\ heard (classes cc_classes) (map u ["directive_lower"; "value"; "expected_type"; "other_message"; "conflicts"]%string) (m_notes m') =
       (member_told t "cache-control" due1 headers ++ list_told "cache-control" due headers) ++ member_told t "cache-control" due1 trailers ++ list_told "cache-control" due trailers.
Proof.
  intros e rel top headers chunks complete trailers t start nc head base m' rel' E H1 H2. fold cck.
  assert (T : m_type m' = t) by (destruct (lint_facts _ _ _ _ _ _ _ _ _ _ _ _ _ _ E) as (SM & _); injection SM as -> _ _ _ _; reflexivity).
  apply (list_shows cc_classes cck F_cache_control "cache-control" e rel top headers chunks complete trailers t start nc head base m' rel' E);
    [its_type| |exact H1|exact H2|reflexivity| |].
  - intros x. unfold eva. cbn [eval_of]. unfold keep, ev_cache_control, cc_one, cc_checks. nks.
  - intros v. unfold par. cbn [parse_of]. unfold p_cache_control. rewrite cut_eq. unfold cc_shows, cc_name. destruct (cut v) as [n o] eqn:Ec. cbn [fst snd].
    apply sy_bind; [sys; reflexivity|]. intros _ _. destruct (dget (lower n) known_cc) as [[[? ?] []]|]; try (sys; fail).
    + destruct o; sys; reflexivity.
    + destruct (match o with Some s => py_int s | None => None end); sys; try reflexivity.
  - intros ms. rewrite cc_par. unfold eva. cbn [eval_of]. unfold keep, ev_cache_control. cbn [Types.h_val blank_of]. rewrite pairs_of, lift_ok. cbv zeta. rewrite counting_eq. unfold is_response. cbn [cx_msg cx_env]. rewrite T.
    apply sy_bind; [|intros; apply sy_ret]. apply sy_bind; [|intros _ _; apply sy_bind].
    + destruct t; try (sys; fail). destruct (first_conflict e (counting ms) conflicting_cc) as [[d l]|] eqn:Ef; [|sys]. apply sy_note. intros _. destruct (conflict_in _ _ _ _ _ Ef) as (pot & A & B & C).
      change conflicting_cc with (map (fun o => (u (fst o), map u (snd o))) overrides) in A. apply in_map_iff in A as ([d0 pot0] & Ed & A). injection Ed as <- <-. exists d0, pot0, l. split; [exact A|]. split; [exact B|].
      rewrite C. split; [apply py_set_NoDup|]. split; [|reflexivity]. intros x. rewrite py_set_In, filter_In, str_in_In. tauto.
    + apply sy_iterW. intros d _. unfold cc_one, is_request, is_response. cbn [cx_msg]. rewrite T. cbv zeta. destruct t; cbn [andb]; repeat match goal with |- context [if ?b then _ else _] => destruct b end; sys; reflexivity.
    + intros _ _. unfold cc_checks. cbv zeta. destruct (_ || _); [|sys]. destruct (_ || _); [sys; reflexivity|].
      match goal with |- context [dget (u "pre-check") ?d] => destruct (dget (u "pre-check") d) as [[]|], (dget (u "post-check") d) as [[]|] end; try (sys; fail). destruct (_ && _); [sys; reflexivity|]. destruct (_ <? _)%Z; [sys; reflexivity|]. destruct (_ =? 0)%Z; sys; reflexivity.
Qed.
Print Assumptions C55_cache_control.

(** ** Examples *)
Definition show_sample : list rawline := raws [("Content-Range", "bytes 1-x/9"); ("Accept-Ranges", "Bytes, Lines"); ("Cache-Control", "Max-Age=q, no-store, PUBLIC"); ("Referrer-Policy", "origin, x, strict-origin");
  ("Link", "<a>; rev=up; type=t"); ("Vary", "a, b, A, c, d")]%string.
Example C55_ex : let '(m, _, r) := lint env0 None (TopResponse (u "1.1") (u "206") None) show_sample [] true [] (new_linter MResponse None false false []) in
  r = Ok tt /\ map snd (heard (classes content_range_classes) [u "value"] (m_notes m)) = [[text (u "x")]]
  /\ map snd (heard (classes [UNKNOWN_RANGE]) [u "range"] (m_notes m)) = [[text (u "lines")]]
  /\ map snd (heard (classes [CC_MISCAP; CC_BAD_VALUE_TYPE]) cck (m_notes m)) = [[text (u "max-age"); None; None; None; None]; [None; text (u "q"); text (u "integer"); None; None]; [text (u "public"); None; None; None; None]]
  /\ map snd (heard (classes referrer_classes) [u "policy"; u "effective"] (m_notes m)) = [[text (u "x"); None]; [None; text (u "strict-origin")]; [text (u "strict-origin"); None]]
  /\ map snd (heard (classes link_classes) [u "link"; u "rev"; u "anchor"; u "type"] (m_notes m)) = [[text (u "a"); text (u "up"); None; None]; [text (u "a"); None; None; text (u "t")]]
  /\ map snd (heard (classes [VARY_COMPLEX]) [u "vary_count"] (m_notes m)) = [[text (u "4")]].
Proof. vm_compute. repeat split. Qed.
Example C55_hyp : hyphened (u "content-range") show_sample /\ hyphened (u "cache-control") show_sample /\ hyphened (u "referrer-policy") show_sample /\ hyphened (u "accept-ranges") show_sample.
Proof. repeat split; apply hyphened_dec; vm_compute; reflexivity. Qed.
