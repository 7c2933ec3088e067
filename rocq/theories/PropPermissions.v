(** * C56: Permissions-Policy. *)
From Coq Require Import Lia.
From Verif Require Import PyStr Regex Grammar NoteTable Note PyLib Utils FieldAttrs Types Fields1 Fields2 Fields3 Framework Checks Message
  EvLogic NoteLemmas TestEnv LexLemmas ParamLemmas NumLemmas PassParse PassFrame Session SessionLemmas SecNotes SecValues LintLemmas FieldSpec PropFields PropValues PropNames PropParse PropTop PropCli OwnLemmas ListSpec PropLists PropCC ListExamples FieldExamples
  PropInts PropStatus FieldDue OwnTac OwnMore PlainSpec KidSpec OwnFull SFSpec PropSF PermissionsSpec.
Open Scope N_scope.

Definition kv_of (ks : list str) (d : nid * vars) : nid * list (option pyval) := (fst d, map (fun k => dlast k (snd d)) ks).
(** ** A structured field with sub-notes *)
Section Deep.
  Variables (cs : list nid) (ks : list str) (f : fname) (k : string) (ty : sftype) (blank : list (option pyval)) (due : str -> list (nid * list (nid * list (option pyval)))).
  Variables (e : env) (rel : option mstate) (top : topline) (headers : list (bytes * bytes)) (chunks : list bytes) (complete : bool) (trailers : list (bytes * bytes))
    (t : mtype) (start : option Q) (nc head : bool) (base : str) (m' : mstate) (rel' : option mstate).
  Hypothesis E : lint e rel top headers chunks complete trailers (new_linter t start nc head base) = (m', rel', Ok tt).
  Hypothesis Ho : owns cs f (u k) && own_keys ks && processed t (u k) = true.
  Hypothesis Kd : kind_of f = KSF ty.
  Hypothesis Hev : forall V h s, front V = front m' -> Forall own_ev (sf_events ty f e rel V h s)
     /\ flat_map (deep_of (classes cs) ks (about_field (u k))) (sf_events ty f e rel V h s) = map (fun x => (fst x, about_field (u k), blank, snd x)) (due s).
  Hypothesis H1 : hyphened (u k) headers.
  Hypothesis H2 : hyphened (u k) trailers.
  Lemma deep_due : heard_deep (classes cs) ks (m_notes m') = deep_told k blank due headers ++ deep_told k blank due trailers.
  Proof.
    apply andb_true_iff in Ho as [Ho' Hpr]. apply andb_true_iff in Ho' as [Ho' Hks]. destruct (owns_ok _ _ _ Ho') as (HP & HQ & Np & In_ & Nick & Fc & _).
    destruct (lint_mid (classes cs) f (u k) e rel top headers chunks complete trailers t start nc head base m' rel' E HP HQ (or_introl Np) Fc
              (hyphened_spelled _ (u k) _ In_ Nick Fc H1) (hyphened_spelled _ (u k) _ In_ Nick Fc H2)) as (mh & mt & a & a' & b & b' & T1 & T2 & F1 & F2 & N1 & N2 & R1 & R2 & N).
    assert (S : forall tr m raws x x', m_type m = t -> front m = front m' -> field_runm (classes cs) e rel tr m (u k) raws x x' -> heard_deep (classes cs) ks (emit t [] x) ++ heard_deep (classes cs) ks (emit t [] x') = deep_told k blank due raws).
    { intros tr m raws x x' Tm Fm R. apply runm_run in R. rewrite <- Tm in Hpr |- *. destruct (sf_at (classes cs) f (u k) e rel (front m') ty tr m raws x x' HP In_ Fc Kd Hpr Fm R) as [-> S].
      unfold deep_told. destruct (values (u k) raws) as [|v l] eqn:V; cbn [nonempty] in S; [rewrite S; reflexivity|]. destruct S as (pre & h & mi & hb & S1 & S2 & ->).
      destruct (Hev mi h (whole_text (u k) raws) S2) as [O D].
      cbn [emit fold_left heard_deep filter map app]. rewrite deep_tag; [|exact Hks|apply own_plain, Hks|apply Forall_app; split; [apply (calls_own _ _ S1)|exact O]].
      rewrite flat_map_app, (calls_mute _ _ _ _ _ HP S1), D. cbn [app]. unfold whole_text, sf_text. rewrite V. reflexivity. }
    unfold heard_deep at 1. fold (sel (classes cs) (m_notes m')). rewrite N, !map_app. rewrite <- (S _ _ _ _ _ T1 F1 R1), <- (S _ _ _ _ _ T2 F2 R2). reflexivity.
  Qed.
End Deep.

(** ** One feature *)
Lemma mapR_ok {A B} (g : A -> B) (f : A -> res B) l : (forall a, f a = Ok (g a)) -> mapR f l = Ok (map g l).
Proof. intros H. induction l as [|a l IH]; [reflexivity|]. cbn [mapR map]. rewrite H, IH. reflexivity. Qed.
Definition show_bare (e : env) (b : bare) : str := match py_str e (bare_val b) with Ok s => s | Err _ => [] end.
Lemma show_ok e b : py_str e (bare_val b) = Ok (show_bare e b).
Proof. destruct b as [| | | | |[]| |]; reflexivity. Qed.
Definition item_kids (e : env) (feature : str) (b : bare) : list (nid * vars) := match pp_item e feature b with Ok l => l | Err _ => [] end.
Lemma item_kids_ok e f b : pp_item e f b = Ok (item_kids e f b).
Proof. unfold item_kids, pp_item. destruct b as [| | | | |[]| |]; reflexivity. Qed.
Definition feature_kids (e : env) (km : str * member) : list (nid * vars) := match pp_feature e km with Ok l => l | Err _ => [] end.
Lemma inner_kids e f (l : list (bare * list (str * bare))) : mapR (fun bp => pp_item e f (fst bp)) l = Ok (map (fun bp => item_kids e f (fst bp)) l).
Proof. apply mapR_ok. intros a. apply item_kids_ok. Qed.
Lemma feature_kids_ok e km : pp_feature e km = Ok (feature_kids e km).
Proof. unfold feature_kids, pp_feature. destruct (snd km) as [b p|l p]; [destruct b; reflexivity|]. rewrite inner_kids. reflexivity. Qed.
Lemma allow_ok e f b : allow_due e f b (map (kv_of policy_vars) (item_kids e f b)).
Proof.
  unfold allow_due, item_kids, pp_item. destruct b as [z|q|s|t|y|b|z|s].
  3: { right. left. exists s. split; [reflexivity|]. change (str_in s [u "self"; u "src"; u "*"; u "none"]) with (one_of ["self"; "src"; "*"; "none"]%string s). destruct (one_of _ s); reflexivity. }
  3: { left. exists t. split; [reflexivity|]. change (str_in t [u "self"; u "src"]) with (one_of ["self"; "src"]%string t). destruct (one_of _ t); reflexivity. }
  all: right; right; try destruct b; eexists; (split; [|reflexivity]); reflexivity.
Qed.
Lemma star_iff m : is_star m <-> match m with MItem (BTok t) _ => str_eqb t (u "*") = true | _ => False end.
Proof.
  split.
  - intros (p & ->). reflexivity.
  - destruct m as [[] p|]; try (intros []; fail). intros H. apply str_eqb_eq in H. subst. exists p. reflexivity.
Qed.
Lemma inner_iff m : is_inner m <-> match m with MInner _ _ => True | _ => False end.
Proof. destruct m as [b p|l p]; split; [intros (x & y & C); discriminate C|intros []|intros _; exact I|intros _; exists l, p; reflexivity]. Qed.
Lemma feature_ok e km : feature_due e km (map (kv_of policy_vars) (feature_kids e km)).
Proof.
  unfold feature_due, feature_kids, pp_feature. destruct km as [k m]. cbn [fst snd]. destruct m as [b p|l p].
  - assert (G : forall (l : list (nid * vars)) b1 b2, map (kv_of policy_vars) l = told_once b1 PERMISSIONS_POLICY_INVALID_VALUE [Some (VStr k); None; None; None] ++ told_once b2 PERMISSIONS_POLICY_WILDCARD [Some (VStr k); None; None; None] ->
       (b1 = true <-> ~ is_star (MItem b p)) -> (b2 = true <-> is_star (MItem b p) /\ one_of sensitive k = true) ->
       exists li c1 c2, map (kv_of policy_vars) l = li ++ told_once c1 PERMISSIONS_POLICY_INVALID_VALUE [Some (VStr k); None; None; None] ++ told_once c2 PERMISSIONS_POLICY_WILDCARD [Some (VStr k); None; None; None]
        /\ (forall ms q, MItem b p = MInner ms q -> each (allow_due e k) (map fst ms) li) /\ (~ is_inner (MItem b p) -> li = []) /\ (c1 = true <-> ~ is_inner (MItem b p) /\ ~ is_star (MItem b p)) /\ (c2 = true <-> is_star (MItem b p) /\ one_of sensitive k = true)).
    { intros l b1 b2 El H1 H2. exists [], b1, b2. split; [exact El|]. split; [intros ms q C; discriminate C|]. split; [reflexivity|]. split; [|exact H2]. rewrite H1, inner_iff. tauto. }
    assert (Bad : ~ is_star (MItem b p) -> exists li c1 c2, map (kv_of policy_vars) [(PERMISSIONS_POLICY_INVALID_VALUE, [vs "feature" k])] = li ++ told_once c1 PERMISSIONS_POLICY_INVALID_VALUE [Some (VStr k); None; None; None] ++ told_once c2 PERMISSIONS_POLICY_WILDCARD [Some (VStr k); None; None; None]
        /\ (forall ms q, MItem b p = MInner ms q -> each (allow_due e k) (map fst ms) li) /\ (~ is_inner (MItem b p) -> li = []) /\ (c1 = true <-> ~ is_inner (MItem b p) /\ ~ is_star (MItem b p)) /\ (c2 = true <-> is_star (MItem b p) /\ one_of sensitive k = true)).
    { intros H. apply (G _ true false); [reflexivity|tauto|]. split; [discriminate|]. intros [C _]. destruct (H C). }
    destruct b as [z|q|s|t|y|b|z|s]; try (apply Bad; rewrite star_iff; tauto).
    destruct (str_eqb t (u "*")) eqn:T; cbn [negb].
    + change (str_in k sensitive_features) with (one_of sensitive k). apply (G _ false (one_of sensitive k)).
      * destruct (one_of sensitive k); reflexivity.
      * rewrite star_iff, T. split; [discriminate|]. intros C. destruct (C eq_refl).
      * rewrite star_iff, T. tauto.
    + apply Bad. rewrite star_iff, T. discriminate.
  - rewrite inner_kids. cbn [rmap]. exists (map (kv_of policy_vars) (concat (map (fun bp => item_kids e k (fst bp)) l))), false, false.
    split; [cbn [told_once]; rewrite !app_nil_r; reflexivity|]. split.
    + intros ms q C. injection C as <- <-. exists (map (fun bp => map (kv_of policy_vars) (item_kids e k (fst bp))) l). split; [|rewrite concat_map, map_map; reflexivity].
      clear. induction l as [|[b q] l IH]; [constructor|]. constructor; [apply allow_ok|exact IH].
    + split; [intros C; destruct (C); apply inner_iff; exact I|]. split; [split; [discriminate|intros [C _]; destruct C; apply inner_iff; exact I]|]. split; [discriminate|]. intros [C _]. apply star_iff in C. destruct C.
Qed.
Definition policy_says (e : env) (s : str) : list (nid * list (nid * list (option pyval))) :=
  match e_sf_dict e s with
  | SFOk ((_ :: _) as d) _ => [(PERMISSIONS_POLICY_PRESENT, map (kv_of policy_vars) (concat (map (feature_kids e) (dupdate [] d))))]
  | _ => []
  end.
Lemma dupdate_none {V} (d : list (str * V)) : dupdate [] d = [] -> d = [].
Proof.
  destruct d as [|[k v] d _] using rev_ind; [reflexivity|]. unfold dupdate. rewrite fold_left_app. cbn [fold_left]. intros H. exfalso. cbn [fst snd] in H.
  match type of H with dset _ _ ?l = [] => destruct l as [|[k0 v0] l0] end; cbn [dset] in H; [discriminate|]. destruct (str_eqb k k0); discriminate.
Qed.
Lemma policy_events e rel V h s : Forall own_ev (sf_events SFDict F_permissions_policy e rel V h s)
  /\ forall subj, flat_map (deep_of (classes policy_classes) policy_vars subj) (sf_events SFDict F_permissions_policy e rel V h s) = map (fun x => (fst x, subj, [None; None; None; None], snd x)) (policy_says e s).
Proof.
  unfold sf_events, policy_says. destruct (e_sf_dict e s) as [d dups| |]; [|split; [constructor|reflexivity]..]. cbn [eval_dict]. rewrite keep_fst. unfold ev_permissions_policy.
  destruct d as [|x d]; [split; [constructor|reflexivity]|].
  destruct (dupdate [] (x :: d)) as [|y l] eqn:D; [apply dupdate_none in D; discriminate D|]. cbn [cx_env]. rewrite (mapR_ok (feature_kids e)) by apply feature_kids_ok.
  split; [repeat constructor|]. intros subj. unfold bind, lift, tell. cbv beta iota. cbn [fst app flat_map deep_of]. change (classes policy_classes PERMISSIONS_POLICY_PRESENT) with true. cbn [app]. cbn [map fst snd]. f_equal. f_equal.
  apply map_ext. intros [n w]. unfold kv_of. cbn [fst snd]. f_equal. apply map_ext. intros k. destruct (dlast k w); reflexivity.
Qed.
Lemma policy_ok e s : policy_due e s (policy_says e s).
Proof.
  unfold policy_due, policy_says. destruct (e_sf_dict e s) as [[|x d] dups| |]; try reflexivity. eexists. split; [|reflexivity].
  exists (map (fun km => map (kv_of policy_vars) (feature_kids e km)) (dupdate [] (x :: d))). split; [|rewrite concat_map, map_map; reflexivity].
  induction (dupdate [] (x :: d)) as [|km l IH]; constructor; [apply feature_ok|exact IH].
Qed.
Theorem C56_permissions_policy : forall e rel top headers chunks complete trailers t start nc head base m' rel',
  lint e rel top headers chunks complete trailers (new_linter t start nc head base) = (m', rel', Ok tt) -> t <> MRequest ->
  hyphened (u "permissions-policy") headers -> hyphened (u "permissions-policy") trailers ->
  exists due, (forall s, policy_due e s (due s))
    /\ heard_deep (classes policy_classes) policy_vars (m_notes m')
       = deep_told "permissions-policy" [None; None; None; None] due headers ++ deep_told "permissions-policy" [None; None; None; None] due trailers.
Proof.
  intros e rel top headers chunks complete trailers t start nc head base m' rel' E Ht Y1 Y2. exists (policy_says e). split; [apply policy_ok|].
  apply (deep_due policy_classes policy_vars F_permissions_policy "permissions-policy" SFDict [None; None; None; None] (policy_says e) e rel top headers chunks complete trailers t start nc head base m' rel' E).
  - destruct t; [congruence|vm_compute; reflexivity..].
  - reflexivity.
  - intros V h s _. destruct (policy_events e rel V h s) as [A B]. split; [exact A|apply B].
  - exact Y1.
  - exact Y2.
Qed.
Print Assumptions C56_permissions_policy.
Definition policy_sample : list rawline := raws [("Permissions-Policy", "camera=*"); ("permissions-policy", "x")]%string.
Definition policy_env : env := sf_env [] []
  [("camera=*, x"%string, [(u "camera", MItem (BTok [42]) []); (u "usb", MInner [(BTok (u "sefl"), []); (BStr (u "self"), []); (BStr (u "https://a"), []); (BInt 5, []); (BTok (u "self"), [])] []); (u "x", MItem (BBool true) [])])].
Example C56_ex : let '(m, _, r) := lint policy_env None NoTop policy_sample [] true [] (new_linter MResponse None false false []) in
  r = Ok tt /\ heard_deep (classes policy_classes) policy_vars (m_notes m) =
    [(PERMISSIONS_POLICY_PRESENT, u "field-permissions-policy", [None; None; None; None],
      [(PERMISSIONS_POLICY_WILDCARD, [Some (VStr (u "camera")); None; None; None]);
       (PERMISSIONS_POLICY_UNKNOWN_TOKEN, [Some (VStr (u "usb")); Some (VStr (u "sefl")); None; None]);
       (PERMISSIONS_POLICY_QUOTED_KEYWORD, [Some (VStr (u "usb")); None; Some (VStr (u "self")); None]);
       (PERMISSIONS_POLICY_INVALID_ITEM_TYPE, [Some (VStr (u "usb")); None; None; Some (VStr (u "5"))]);
       (PERMISSIONS_POLICY_INVALID_VALUE, [Some (VStr (u "x")); None; None; None])])].
Proof. vm_compute. repeat split. Qed.
Example C56_hyp : hyphened (u "permissions-policy") policy_sample.
Proof. apply hyphened_dec; vm_compute; reflexivity. Qed.
