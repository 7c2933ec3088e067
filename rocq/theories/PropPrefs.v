(** * C50: Accept, Accept-Language, Accept-Encoding, TE, Accept-Patch, Accept-Post. *)
From Coq Require Import Lia ZifyBool ZifyN QArith Qpower.
From Verif Require Import PyStr Regex Grammar NoteTable Note PyLib Utils FieldAttrs Types Fields1 Fields2 Fields3 Framework Checks Message
  EvLogic TestEnv LexLemmas ParamLemmas NumLemmas PassParse Session SessionLemmas SecNotes SecValues LintLemmas FieldSpec PropFields PropValues PropNames PropParse PropTop PropCli OwnLemmas ListSpec PropLists PropCC ListExamples FieldExamples
  PropInts FieldDue OwnTac CodingSpec PropCodings PrefSpec.
Open Scope N_scope.

(** ** Elements of list fields, said and parsed one by one *)
Section Elems.
  Variables (cs : list nid) (f : fname) (k : string).
  Variables (e : env) (rel : option mstate) (top : topline) (headers : list (bytes * bytes)) (chunks : list bytes) (complete : bool) (trailers : list (bytes * bytes))
    (t : mtype) (start : option Q) (nc head : bool) (base : str) (m' : mstate) (rel' : option mstate).
  Hypothesis E : lint e rel top headers chunks complete trailers (new_linter t start nc head base) = (m', rel', Ok tt).
  Hypothesis Ho : owns cs f (u k) && plain f && processed t (u k) = true.
  Hypothesis Kd : kind_of f = KList.
  Hypothesis Ev : forall x, eva f e rel m' x = ret x.
  Hypothesis H1 : hyphened (u k) headers.
  Hypothesis H2 : hyphened (u k) trailers.
  Lemma elements_due due : (forall v s, map fst (speak (classes cs) [] s (fst (par f e rel m' v))) = map (fun c => (c, s)) (due v)) ->
    reports cs (m_notes m') = element_notes t k due headers trailers.
  Proof.
    intros Hd. rewrite (list_run_due cs f (u k) e rel top headers chunks complete trailers t start nc head base m' rel' E Ho) with (due1 := due) (due := fun _ => []); try assumption.
    - unfold element_notes, list_due. cbn [map]. destruct (values (u k) headers), (values (u k) trailers); rewrite ?app_nil_r; reflexivity.
    - intros x. rewrite Ev. nks.
    - intros vs. rewrite Ev. reflexivity.
  Qed.
End Elems.
Lemma list_value e t start base hs ts m' tr k : run_of e t start base hs ts m' -> unpadded k (section_lines tr hs ts) -> processed t k = true -> kind_of (find_class k) = KList ->
  find_class k <> F_vary ->
  value_in tr k m' = match values k (section_lines tr hs ts) with
    | [] => None
    | _ => Some (VList (flat_map (fun v => match snd (parse_of (find_class k) (mkCx e (core (new_linter t start false false base)) None) nobody v) with Ok x => [x] | Err _ => [] end) (members k (section_lines tr hs ts))))
    end.
Proof.
  intros R U Hp Kd Nv. rewrite (run_value _ _ _ _ _ _ _ _ _ R U). unfold members. destruct (values k _) as [|v more] eqn:Ev; [reflexivity|]. cbn [nonempty].
  rewrite <- processed_eq in Hp. unfold field_value. change (m_type (new_linter t start false false base)) with t. rewrite Hp, Kd. cbv zeta.
  assert (S : forall x, settled (find_class k) x = x) by (intros x; destruct (find_class k); try reflexivity; destruct (Nv eq_refl)). rewrite S. do 2 f_equal.
  rewrite flat_map_flat. generalize (flat_map split_list_field (v :: more)) as l. intros l. induction l as [|x l IH]; [reflexivity|]. cbn [flat_map map]. rewrite IH. reflexivity.
Qed.

(** ** Quality values *)
Lemma quality_dec s : (exists x, quality s x /\ q_value (Some s) = Some (FFin x)) \/ (forall x, ~ quality s x) /\ q_value (Some s) = None.
Proof.
  unfold q_value, quality. destruct (Nat.ltb 5 (List.length s)) eqn:L.
  - right. split; [|reflexivity]. intros x (H & _). lia.
  - destruct (py_float s) as [[x| | |]|] eqn:F; try (right; split; [|reflexivity]; intros y (_ & H & _); congruence).
    destruct (Qle_bool 0 x && Qle_bool x 1) eqn:B.
    + left. exists x. apply andb_prop in B as [B1 B2]. apply Qle_bool_iff in B1, B2. split; [|reflexivity]. split; [lia|auto].
    + right. split; [|reflexivity]. intros y (_ & H & H1 & H2). injection H as <-. apply Qle_bool_iff in H1, H2. rewrite H1, H2 in B. discriminate.
Qed.
Definition bad_weight_b (e : env) (v : str) : bool := match dget kq (weighed e v) with None => false | Some q => match q_value q with Some _ => false | None => true end end.
Lemma bad_weight_eq e v : bad_weight_b e v = true <-> bad_weight e v.
Proof.
  unfold bad_weight_b, bad_weight. change (u "q") with kq. destruct (dget kq (weighed e v)) as [[s|]|]; [|cbn; tauto|split; [discriminate|tauto]].
  destruct (quality_dec s) as [(x & Hx & ->)|[Hx ->]]; [|tauto]. split; [discriminate|]. intros H. destruct (H x Hx).
Qed.
Definition weight_shown (e : env) (v : str) : pyval := match dget kq (weighed e v) with None => VNone | Some q => match q_value q with Some f => VFloat f | None => VNone end end.
Lemma weight_shown_ok e v : weight_value e v (weight_shown e v).
Proof.
  unfold weight_shown, weight_value. change (u "q") with kq. destruct (dget kq (weighed e v)) as [[s|]|]; try reflexivity.
  destruct (quality_dec s) as [(x & Hx & ->)|[Hx ->]]; [left; eauto|right; auto].
Qed.
Lemma without_none d : dget (u "q") d = None -> without_q d = d.
Proof.
  unfold without_q. induction d as [|[k x] d IH]; [reflexivity|]. cbn [dget filter fst]. destruct (str_eqb (u "q") k) eqn:Q.
  - discriminate.
  - cbn [negb]. intros H. rewrite IH by exact H. reflexivity.
Qed.
Lemma without_some d : nonempty (without_q d) = true <-> exists k, k <> u "q" /\ dget k d <> None.
Proof.
  unfold without_q. induction d as [|[k x] d IH]; [split; [discriminate|intros (k & _ & H); destruct (H eq_refl)]|]. cbn [filter fst]. destruct (str_eqb (u "q") k) eqn:Q; cbn [negb].
  - rewrite IH. apply str_eqb_eq in Q. subst k. split; intros (k & N & H); exists k; (split; [exact N|]); cbn [dget] in *; destruct (str_eqb k (u "q")) eqn:K; try exact H; apply str_eqb_eq in K; congruence.
  - cbn [nonempty]. split; [|reflexivity]. intros _. exists k. split; [intros ->; rewrite str_eqb_refl in Q; discriminate|]. cbn [dget]. rewrite str_eqb_refl. discriminate.
Qed.

(** ** Media ranges *)
Lemma media_split v : (match split1 59 v with Some (a, b) => (a, b) | None => (v, []) end) = (before_semi v, after_semi v).
Proof. rewrite <- semi_split. unfold split_or. destruct (split1 59 v) as [[a b]|]; reflexivity. Qed.
(** The events of [parse_media_type], for classes with the field's own class for bad syntax. *)
Lemma media_said (P : nid -> bool) e v bad ref wild n : forallb (fun c => negb (P c)) (MEDIA_TYPE_LONG_NAME :: MEDIA_TYPE_BAD_NAME :: param_classes) = true -> P bad = true ->
  exists l b, parse_media_type e v (Some bad) ref wild n = (l, Ok (type_of v, parameters e n v))
    /\ (forall ks s, map fst (speak P ks s l) = map (fun c => (c, s)) (only b bad))
    /\ (b = true <-> forall ty sub, ~ media_range wild false (type_of v) ty sub).
Proof.
  intros HP Hb. cbn [forallb] in HP. apply andb_prop in HP as [P1 HP]. apply andb_prop in HP as [P2 HP]. apply negb_true_iff in P1, P2. change (forallb (fun c => negb (P c)) param_classes = true) in HP.
  unfold parse_media_type. rewrite media_split. fold (type_of v). destruct (parameters_eq e n v) as (l & El). rewrite El.
  pose proof (params_hush P e (after_semi v) n DSemi HP) as Hh. rewrite El in Hh. unfold hush in Hh. cbn [fst] in Hh.
  destruct (media_spec (type_of v) (Some bad) ref wild false) as [(ty & sub & x & y & M & -> & _)|[M ->]]; unfold bind, ret.
  - eexists. exists false. split; [reflexivity|]. split.
    + intros ks s. rewrite !speak_app, Hh. destruct x, y; cbn [speak flat_map utter media_note app]; rewrite ?P1, ?P2; reflexivity.
    + split; [discriminate|]. intros H. destruct (H _ _ M).
  - eexists. exists true. split; [reflexivity|]. split.
    + intros ks s. rewrite !speak_app, Hh. cbn [bad_media speak flat_map utter]. rewrite Hb. reflexivity.
    + tauto.
Qed.

(** ** Accept *)
Lemma accept_par e c h v : cx_env c = e -> exists l due, p_accept c h v = (l, Ok (VTuple [VStr (type_of v); param_dict_val (without_q (weighed e v)); weight_shown e v]))
  /\ accept_element e v due /\ forall s, map fst (speak (classes accept_classes) [] s l) = map (fun c => (c, s)) due.
Proof.
  intros Hc. unfold p_accept. rewrite Hc. destruct (media_said (classes accept_classes) e v ACCEPT_BAD_SYNTAX (Some (ref_of F_accept)) true (NoStarList [kq]) eq_refl eq_refl) as (l & b & -> & Hl & Hb).
  change (parameters e (NoStarList [kq]) v) with (weighed e v). exists (l ++ if bad_weight_b e v then [ENote BAD_Q_VALUE None [vs "media_type" (type_of v)] []] else []), (only b ACCEPT_BAD_SYNTAX ++ only (bad_weight_b e v) BAD_Q_VALUE).
  split; [|split].
  - unfold bind at 1. unfold weight_shown, bad_weight_b. destruct (dget kq (weighed e v)) as [q|] eqn:D.
    + destruct (q_value q); reflexivity.
    + rewrite (without_none (weighed e v)) by exact D. reflexivity.
  - exists b, (bad_weight_b e v). split; [reflexivity|]. split; [exact Hb|apply bad_weight_eq].
  - intros s. rewrite speak_app, !map_app, Hl. f_equal. destruct (bad_weight_b e v); reflexivity.
Qed.
(** ** Accept-Language *)
Lemma language_par e c h v : cx_env c = e -> exists l due, p_accept_language c h v = (l, Ok (VTuple [VStr (lower (before_semi v)); weight_shown e v]))
  /\ language_element e v due /\ forall s, map fst (speak (classes language_classes) [] s l) = map (fun c => (c, s)) due.
Proof.
  intros Hc. unfold p_accept_language. rewrite Hc, semi_split. cbv zeta. destruct (parameters_eq e (NoStarList [kq]) v) as (l & El). rewrite El.
  change (parameters e (NoStarList [kq]) v) with (weighed e v) in *. pose proof (params_hush (classes language_classes) e (after_semi v) (NoStarList [kq]) DSemi eq_refl) as Hh. rewrite El in Hh. unfold hush in Hh. cbn [fst] in Hh.
  exists (l ++ (if bad_weight_b e v then [ENote BAD_Q_VALUE_accept_language None [vs "language" (lower (before_semi v))] []] else []) ++ (if nonempty (without_q (weighed e v)) then [ENote ACCEPT_LANGUAGE_BAD_SYNTAX None [vl "ref_uri" (ref_of F_accept_language)] []] else [])),
    (only (bad_weight_b e v) BAD_Q_VALUE_accept_language ++ only (nonempty (without_q (weighed e v))) ACCEPT_LANGUAGE_BAD_SYNTAX).
  split; [|split].
  - change (pop kq (weighed e v)) with (without_q (weighed e v)). unfold bind at 1. unfold weight_shown, bad_weight_b. destruct (dget kq (weighed e v)) as [q|]; [destruct (q_value q)|]; change (pop kq (weighed e v)) with (without_q (weighed e v)); destruct (nonempty (without_q (weighed e v))); reflexivity.
  - do 2 eexists. split; [reflexivity|]. split; [apply bad_weight_eq|apply without_some].
  - intros s. rewrite speak_app, map_app, Hh. cbn [app map]. destruct (bad_weight_b e v), (nonempty (without_q (weighed e v))); reflexivity.
Qed.
Lemma type_par (P : nid -> bool) e v bad ref wild : forallb (fun c => negb (P c)) (MEDIA_TYPE_LONG_NAME :: MEDIA_TYPE_BAD_NAME :: param_classes) = true -> P bad = true ->
  exists l due, (p <- parse_media_type e v (Some bad) ref wild NoStarNone ;; ret (media_type_val p)) = (l, Ok (VTuple [VStr (type_of v); param_dict_val (parameters e NoStarNone v)]))
  /\ type_element wild bad v due /\ forall s, map fst (speak P [] s l) = map (fun c => (c, s)) due.
Proof.
  intros H1 H2. destruct (media_said P e v bad ref wild NoStarNone H1 H2) as (l & b & -> & Hl & Hb). unfold bind, ret. exists (l ++ []), (only b bad). split; [reflexivity|]. split; [exists b; auto|].
  intros s. rewrite app_nil_r. apply Hl.
Qed.
(** A function that does what is asked of each element (no choice principle is
    needed: the events are computed). *)
Definition said (cs : list nid) (f : fname) (e : env) (rel : option mstate) (m' : mstate) (v : str) : list nid := map fst (map fst (speak (classes cs) [] [] (fst (par f e rel m' v)))).
Lemma said_ok cs f e rel m' (R : str -> list nid -> Prop) :
  (forall v, exists due, R v due /\ forall s, map fst (speak (classes cs) [] s (fst (par f e rel m' v))) = map (fun c => (c, s)) due) ->
  (forall v, R v (said cs f e rel m' v)) /\ forall v s, map fst (speak (classes cs) [] s (fst (par f e rel m' v))) = map (fun c => (c, s)) (said cs f e rel m' v).
Proof.
  intros H. assert (X : forall v, R v (said cs f e rel m' v) /\ forall s, map fst (speak (classes cs) [] s (fst (par f e rel m' v))) = map (fun c => (c, s)) (said cs f e rel m' v)).
  { intros v. destruct (H v) as (due & R1 & R2). assert (D : said cs f e rel m' v = due).
    { unfold said. rewrite R2, map_map. cbn [fst]. apply map_id. }
    rewrite D. auto. }
  split; intros; apply X.
Qed.
Theorem C50_accept : forall e rel top headers chunks complete trailers start nc head base m' rel',
  lint e rel top headers chunks complete trailers (new_linter MRequest start nc head base) = (m', rel', Ok tt) ->
  exists due, (forall v, accept_element e v (due v))
    /\ reports accept_classes (m_notes m') = element_notes MRequest "accept" due headers trailers.
Proof.
  intros e rel top headers chunks complete trailers start nc head base m' rel' E.
  destruct (said_ok accept_classes F_accept e rel m' (accept_element e)) as [R S].
  { intros v. unfold par. cbn [parse_of]. edestruct (accept_par e) as (l & due & -> & A & B); [reflexivity|]. cbn [fst]. eauto. }
  eexists. split; [exact R|]. apply (elements_due accept_classes F_accept "accept" e rel top headers chunks complete trailers MRequest start nc head base m' rel' E); [vm_compute; reflexivity|reflexivity|reflexivity| | |exact S]; apply unhyphened; reflexivity.
Qed.
Print Assumptions C50_accept.
Theorem C50_language : forall e rel top headers chunks complete trailers start nc head base m' rel',
  lint e rel top headers chunks complete trailers (new_linter MRequest start nc head base) = (m', rel', Ok tt) ->
  hyphened (u "accept-language") headers -> hyphened (u "accept-language") trailers ->
  exists due, (forall v, language_element e v (due v))
    /\ reports language_classes (m_notes m') = element_notes MRequest "accept-language" due headers trailers.
Proof.
  intros e rel top headers chunks complete trailers start nc head base m' rel' E H1 H2.
  destruct (said_ok language_classes F_accept_language e rel m' (language_element e)) as [R S].
  { intros v. unfold par. cbn [parse_of]. edestruct (language_par e) as (l & due & -> & A & B); [reflexivity|]. cbn [fst]. eauto. }
  eexists. split; [exact R|]. apply (elements_due language_classes F_accept_language "accept-language" e rel top headers chunks complete trailers MRequest start nc head base m' rel' E); [vm_compute; reflexivity|reflexivity|reflexivity|exact H1|exact H2|exact S].
Qed.
Print Assumptions C50_language.
Theorem C50_media_types : forall e rel top headers chunks complete trailers start nc head base m' rel',
  lint e rel top headers chunks complete trailers (new_linter MResponse start nc head base) = (m', rel', Ok tt) ->
  (hyphened (u "accept-patch") headers -> hyphened (u "accept-patch") trailers ->
   exists due, (forall v, type_element false ACCEPT_PATCH_BAD_SYNTAX v (due v))
    /\ reports [ACCEPT_PATCH_BAD_SYNTAX] (m_notes m') = element_notes MResponse "accept-patch" due headers trailers)
  /\ (hyphened (u "accept-post") headers -> hyphened (u "accept-post") trailers ->
   exists due, (forall v, type_element true ACCEPT_POST_BAD_SYNTAX v (due v))
    /\ reports [ACCEPT_POST_BAD_SYNTAX] (m_notes m') = element_notes MResponse "accept-post" due headers trailers).
Proof.
  intros e rel top headers chunks complete trailers start nc head base m' rel' E. split; intros H1 H2.
  - destruct (said_ok [ACCEPT_PATCH_BAD_SYNTAX] F_accept_patch e rel m' (type_element false ACCEPT_PATCH_BAD_SYNTAX)) as [R S].
    { intros v. unfold par. cbn [parse_of]. unfold p_accept_patch. edestruct (type_par (classes [ACCEPT_PATCH_BAD_SYNTAX]) e v ACCEPT_PATCH_BAD_SYNTAX) as (l & due & Q & A & B); [reflexivity|reflexivity|]. cbn [cx_env]. rewrite Q. cbn [fst]. eauto. }
    eexists. split; [exact R|]. apply (elements_due [ACCEPT_PATCH_BAD_SYNTAX] F_accept_patch "accept-patch" e rel top headers chunks complete trailers MResponse start nc head base m' rel' E); [vm_compute; reflexivity|reflexivity|reflexivity|exact H1|exact H2|exact S].
  - destruct (said_ok [ACCEPT_POST_BAD_SYNTAX] F_accept_post e rel m' (type_element true ACCEPT_POST_BAD_SYNTAX)) as [R S].
    { intros v. unfold par. cbn [parse_of]. unfold p_accept_post. edestruct (type_par (classes [ACCEPT_POST_BAD_SYNTAX]) e v ACCEPT_POST_BAD_SYNTAX) as (l & due & Q & A & B); [reflexivity|reflexivity|]. cbn [cx_env]. rewrite Q. cbn [fst]. eauto. }
    eexists. split; [exact R|]. apply (elements_due [ACCEPT_POST_BAD_SYNTAX] F_accept_post "accept-post" e rel top headers chunks complete trailers MResponse start nc head base m' rel' E); [vm_compute; reflexivity|reflexivity|reflexivity|exact H1|exact H2|exact S].
Qed.
Print Assumptions C50_media_types.

(** ** Values *)
(** Every element has a value. *)
Lemma all_parsed (g : str -> pyval) (p : str -> W pyval) l : (forall v, snd (p v) = Ok (g v)) -> flat_map (fun v => match snd (p v) with Ok x => [x] | Err _ => [] end) l = map g l.
Proof. intros H. induction l as [|v l IH]; [reflexivity|]. cbn [flat_map map]. rewrite H, IH. reflexivity. Qed.
Definition list_shown (R : str -> pyval -> Prop) (k : string) (l : list rawline) (x : option pyval) : Prop :=
  match values (u k) l with
  | [] => x = None
  | _ => exists items, Forall2 R (members (u k) l) items /\ x = Some (VList items)
  end.
Lemma list_shows e t start base hs ts m' tr k (R : str -> pyval -> Prop) (g : str -> pyval) : run_of e t start base hs ts m' -> unpadded (u k) (section_lines tr hs ts) ->
  processed t (u k) = true -> kind_of (find_class (u k)) = KList -> find_class (u k) <> F_vary ->
  (forall v, snd (parse_of (find_class (u k)) (mkCx e (core (new_linter t start false false base)) None) nobody v) = Ok (g v)) -> (forall v, R v (g v)) ->
  list_shown R k (section_lines tr hs ts) (value_in tr (u k) m').
Proof.
  intros H U P K N G HR. rewrite (list_value _ _ _ _ _ _ _ _ _ H U P K N), (all_parsed g _ _ G). unfold list_shown. destruct (values _ _); [reflexivity|]. eexists. split; [|reflexivity].
  induction (members _ _) as [|v0 l0 IH]; constructor; auto.
Qed.
Theorem C50_values : forall e start base hs ts m' tr, run_of e MRequest start base hs ts m' ->
  let lines := section_lines tr hs ts in
  (unpadded (u "accept") lines -> list_shown (accept_value e) "accept" lines (value_in tr (u "accept") m'))
  /\ (unpadded (u "accept-language") lines -> list_shown (language_value e) "accept-language" lines (value_in tr (u "accept-language") m'))
  /\ (forall k, In k ["accept-encoding"; "te"]%string -> unpadded (u k) lines ->
       list_shown (fun v x => x = VTuple [VStr (lower (before_semi v)); param_dict_val (weighed e v)]) k lines (value_in tr (u k) m')).
Proof.
  intros e start base hs ts m' tr R lines. split; [|split].
  - intros U. apply (list_shows e MRequest start base hs ts m' tr "accept" (accept_value e) (fun v => VTuple [VStr (type_of v); param_dict_val (without_q (weighed e v)); weight_shown e v])); try assumption; try reflexivity; try discriminate.
    + intros v. change (find_class (u "accept")) with F_accept. cbn [parse_of]. edestruct (accept_par e) as (l & due & -> & _); reflexivity.
    + intros v. exists (weight_shown e v). split; [apply weight_shown_ok|reflexivity].
  - intros U. apply (list_shows e MRequest start base hs ts m' tr "accept-language" (language_value e) (fun v => VTuple [VStr (lower (before_semi v)); weight_shown e v])); try assumption; try reflexivity; try discriminate.
    + intros v. change (find_class (u "accept-language")) with F_accept_language. cbn [parse_of]. edestruct (language_par e) as (l & due & -> & _); reflexivity.
    + intros v. exists (weight_shown e v). split; [apply weight_shown_ok|reflexivity].
  - intros k Hk U. assert (G : forall c h v, cx_env c = e -> snd (p_q_params c h v) = Ok (VTuple [VStr (lower (before_semi v)); param_dict_val (weighed e v)])).
    { intros c h v Hc. unfold p_q_params. rewrite semi_split, Hc. destruct (parameters_eq e (NoStarList [kq]) v) as (l & El). rewrite El. reflexivity. }
    destruct Hk as [<-|[<-|[]]].
    + apply (list_shows e MRequest start base hs ts m' tr "accept-encoding" _ (fun v => VTuple [VStr (lower (before_semi v)); param_dict_val (weighed e v)])); try assumption; try reflexivity; try discriminate.
      intros v. change (find_class (u "accept-encoding")) with F_accept_encoding. cbn [parse_of]. apply G. reflexivity.
    + apply (list_shows e MRequest start base hs ts m' tr "te" _ (fun v => VTuple [VStr (lower (before_semi v)); param_dict_val (weighed e v)])); try assumption; try reflexivity; try discriminate.
      intros v. change (find_class (u "te")) with F_te. cbn [parse_of]. apply G. reflexivity.
Qed.
Print Assumptions C50_values.

(** ** Decimal numerals *)
(** Digits, with a fraction or without: a quality value exactly if there are at most five
    characters and the number is at most 1. *)
Definition numeral_text (ip : str) (fp : option str) : str := ip ++ match fp with Some f => 46 :: f | None => [] end.
Definition numeral_value (ip : str) (fp : option str) : Q :=
  let f := match fp with Some f => f | None => [] end in
  (inject_Z (Z.of_N (digits_val (ip ++ f))) / inject_Z (10 ^ Z.of_nat (List.length f)))%Q.
Lemma digits_bound ds : forallb is_digit ds = true -> digits_val ds < 10 ^ N.of_nat (List.length ds).
Proof.
  intros H. unfold digits_val. assert (G : forall a n, a < 10 ^ n -> fold_left (fun a c => a * 10 + digit_val c) ds a < 10 ^ (n + N.of_nat (List.length ds))).
  { revert H. induction ds as [|c ds IH]; intros H a n Ha; [cbn [fold_left List.length]; rewrite N.add_0_r; exact Ha|]. cbn [forallb] in H. apply andb_prop in H as [Hc H]. cbn [fold_left List.length].
    replace (n + N.of_nat (S (List.length ds))) with (N.succ n + N.of_nat (List.length ds)) by lia. apply (IH H). rewrite N.pow_succ_r'. unfold is_digit, digit_val in *. lia. }
  apply (G 0 0). reflexivity.
Qed.
Lemma split1_no c s : ~ In c s -> split1 c s = None.
Proof. intros H. destruct (split1 c s) as [[a b]|] eqn:X; [|reflexivity]. apply split1_spec in X as [-> _]. exfalso. apply H, in_app_iff. right. left. reflexivity. Qed.
Lemma digit_free d s : forallb is_digit s = true -> is_digit d = false -> ~ In d s.
Proof. intros H N X. rewrite forallb_forall in H. rewrite (H d X) in N. discriminate. Qed.
Lemma digit_part_ok s : forallb is_digit s = true -> digit_part s = Some s.
Proof.
  intros H. unfold digit_part. destruct s as [|c s]; [reflexivity|]. apply uscore_complete. exists [c :: s]. split; [discriminate|]. split; [repeat constructor; [discriminate|exact H]|]. split; [reflexivity|]. cbn [concat]. rewrite app_nil_r. reflexivity.
Qed.
Lemma lower_digits s : forallb (fun c => is_digit c || (c =? 46)) s = true -> lower s = s.
Proof.
  unfold lower. induction s as [|c s IH]; [reflexivity|]. cbn [forallb map]. intros H. apply andb_prop in H as [H1 H2]. rewrite (IH H2). f_equal.
  unfold lowc, is_upper_ascii, is_digit in *. repeat match goal with |- context [if ?b then _ else _] => destruct b eqn:? end; lia.
Qed.
Lemma body_value ip fp : let f := match fp with Some f => f | None => [] end in
  forallb is_digit (ip ++ f) = true -> ip ++ f <> [] -> 
  float_body (numeral_text ip fp) = Some (inject_Z (Z.of_N (digits_val (ip ++ f))) * Qpower 10 (- Z.of_nat (List.length f)))%Q.
Proof.
  intros f H N. rewrite forallb_app in H. apply andb_prop in H as [Hi Hf].
  assert (A : forallb (fun c => is_digit c || (c =? 46)) (numeral_text ip fp) = true).
  { unfold numeral_text. rewrite forallb_app. apply andb_true_intro. split; [|destruct fp as [g|]; [cbn [forallb]; apply andb_true_intro; split; [reflexivity|]|reflexivity]];
      (rewrite forallb_forall in *; intros c Hc; rewrite ?(Hi c Hc), ?(Hf c Hc); reflexivity). }
  unfold float_body. rewrite (lower_digits _ A). rewrite split1_no.
  2:{ intros X. rewrite forallb_forall in A. specialize (A _ X). discriminate. }
  assert (S : (match split1 46 (numeral_text ip fp) with Some (a, b) => (a, b) | None => (numeral_text ip fp, []) end) = (ip, f)).
  { unfold numeral_text, f. destruct fp as [g|].
    - rewrite (proj2 (split1_spec 46 (ip ++ 46 :: g) ip g)); [reflexivity|]. split; [reflexivity|]. apply digit_free; [exact Hi|reflexivity].
    - rewrite app_nil_r, split1_no; [reflexivity|]. apply digit_free; [exact Hi|reflexivity]. }
  rewrite S, (digit_part_ok ip Hi), (digit_part_ok f Hf). destruct (ip ++ f) as [|c r] eqn:Q; [congruence|]. reflexivity.
Qed.
Lemma numeral_float ip fp : let f := match fp with Some f => f | None => [] end in
  forallb is_digit (ip ++ f) = true -> ip ++ f <> [] -> (List.length (numeral_text ip fp) <= 5)%nat ->
  exists x, py_float (numeral_text ip fp) = Some (FFin x) /\ (x == numeral_value ip fp)%Q.
Proof.
  intros f H N L. set (x := (inject_Z (Z.of_N (digits_val (ip ++ f))) * Qpower 10 (- Z.of_nat (List.length f)))%Q).
  assert (V : (x == numeral_value ip fp)%Q).
  { unfold x, numeral_value. fold f. cbv zeta. rewrite Qpower_opp, <- (Zpower_Qpower 10) by lia. unfold Qdiv. reflexivity. }
  exists x. split; [|exact V]. unfold py_float. cbv zeta.
  assert (A : forallb (fun c => is_digit c || (c =? 46)) (numeral_text ip fp) = true).
  { pose proof H as H'. rewrite forallb_app in H'. apply andb_prop in H' as [Hi Hf]. unfold numeral_text. rewrite forallb_app. apply andb_true_intro. split; [|unfold f in Hf; destruct fp as [g|]; [cbn [forallb]; apply andb_true_intro; split; [reflexivity|]|reflexivity]];
      (rewrite forallb_forall in *; intros c Hc; rewrite ?(Hi c Hc), ?(Hf c Hc); reflexivity). }
  rewrite strip_nospace.
  2:{ rewrite forallb_forall in *. intros c Hc. specialize (A c Hc). unfold isspace, is_digit in *. lia. }
  rewrite forallb_forall in A. assert (Sg : (match numeral_text ip fp with 45 :: s' => (true, s') | 43 :: s' => (false, s') | _ => (false, numeral_text ip fp) end) = (false, numeral_text ip fp)).
  { destruct (numeral_text ip fp) as [|c r]; [reflexivity|]. specialize (A c (or_introl eq_refl)). unfold is_digit in A.
    destruct c as [|c]; [reflexivity|]. do 8 (try (destruct c as [c|c|]; try reflexivity; try discriminate A)). }
  rewrite Sg, lower_digits by (apply forallb_forall, A).
  assert (W : forall w d r, u w = d :: r -> is_digit d || (d =? 46) = false -> str_eqb (numeral_text ip fp) (u w) = false).
  { intros w d r -> D. destruct (str_eqb (numeral_text ip fp) (d :: r)) eqn:X; [|reflexivity]. apply str_eqb_eq in X. rewrite X in A. rewrite (A d (or_introl eq_refl)) in D. discriminate. }
  unfold str_in. cbn [existsb]. rewrite (W "inf"%string _ _ eq_refl eq_refl), (W "infinity"%string _ _ eq_refl eq_refl), (W "nan"%string _ _ eq_refl eq_refl). cbn [orb].
  rewrite (body_value ip fp H N). fold f. fold x. f_equal. unfold norm_float.
  assert (B : (0 <= x /\ x < 100000)%Q).
  { pose proof (digits_bound _ H) as Hb. assert (Ln : N.of_nat (List.length (ip ++ f)) <= 5).
    { revert L. unfold numeral_text, f. destruct fp; rewrite ?app_length; cbn [List.length]; lia. }
    assert (D : digits_val (ip ++ f) < 100000) by (eapply N.lt_le_trans; [exact Hb|]; change 100000 with (10 ^ 5); apply N.pow_le_mono_r; lia).
    assert (T : (1 <= inject_Z (10 ^ Z.of_nat (List.length f)))%Q) by (change 1%Q with (inject_Z 1); rewrite <- Zle_Qle; assert (0 < 10 ^ Z.of_nat (List.length f))%Z by (apply Z.pow_pos_nonneg; lia); lia).
    assert (T0 : (0 < inject_Z (10 ^ Z.of_nat (List.length f)))%Q) by (eapply Qlt_le_trans; [|exact T]; reflexivity).
    rewrite V. unfold numeral_value. cbv zeta. fold f. split.
    - apply Qle_shift_div_l; [exact T0|]. rewrite Qmult_0_l. change 0%Q with (inject_Z 0). rewrite <- Zle_Qle. lia.
    - apply Qlt_shift_div_r; [exact T0|]. eapply Qlt_le_trans with (y := 100000%Q); [change 100000%Q with (inject_Z (Z.of_N 100000)); rewrite <- Zlt_Qlt; apply N2Z.inj_lt; exact D|].
      setoid_replace 100000%Q with (100000 * 1)%Q at 1 by reflexivity. apply Qmult_le_l; [reflexivity|exact T]. }
  destruct B as [B0 B1]. destruct (Qle_bool max_double x) eqn:M.
  - exfalso. apply Qle_bool_iff in M. apply (Qlt_irrefl x). eapply Qlt_le_trans; [exact B1|]. eapply Qle_trans; [|exact M]. apply Qle_bool_iff. vm_compute. reflexivity.
  - destruct (Qle_bool x (- max_double)) eqn:M'; [|reflexivity]. exfalso. apply Qle_bool_iff in M'. assert (0 <= - max_double)%Q by (eapply Qle_trans; [exact B0|exact M']). apply Qle_bool_iff in H0. vm_compute in H0. discriminate.
Qed.
Theorem C50_quality : forall ip fp, let f := match fp with Some f => f | None => [] end in
  forallb is_digit (ip ++ f) = true -> ip ++ f <> [] ->
  ((exists x, quality (numeral_text ip fp) x) <-> (List.length (numeral_text ip fp) <= 5)%nat /\ (numeral_value ip fp <= 1)%Q)
  /\ forall x, quality (numeral_text ip fp) x -> (x == numeral_value ip fp)%Q.
Proof.
  intros ip fp f H N. split; [split|].
  - intros (x & L & F & X0 & X1). destruct (numeral_float ip fp H N L) as (y & Fy & Vy). rewrite F in Fy. injection Fy as <-. split; [exact L|]. rewrite <- Vy. exact X1.
  - intros [L V]. destruct (numeral_float ip fp H N L) as (y & Fy & Vy). exists y. split; [exact L|]. split; [exact Fy|]. rewrite Vy. split; [|exact V].
    unfold numeral_value. cbv zeta. fold f. assert (T0 : (0 < inject_Z (10 ^ Z.of_nat (List.length f)))%Q) by (change 0%Q with (inject_Z 0); rewrite <- Zlt_Qlt; apply Z.pow_pos_nonneg; lia).
    apply Qle_shift_div_l; [exact T0|]. rewrite Qmult_0_l. change 0%Q with (inject_Z 0). rewrite <- Zle_Qle. lia.
  - intros x (L & F & _). destruct (numeral_float ip fp H N L) as (y & Fy & Vy). rewrite F in Fy. injection Fy as <-. exact Vy.
Qed.
Print Assumptions C50_quality.
(** With written-out parameters (C17): the last q parameter counts. *)
Theorem C50_written : forall e ty ps, ~ In 59 ty -> Forall param_ok ps ->
  (bad_weight e (written ty ps) <-> exists s, last_value (u "q") ps = Some s /\ forall x, ~ quality s x)
  /\ type_of (written ty ps) = lower (strip ty).
Proof.
  intros e ty ps H59 Hp. destruct (written_split ty ps H59) as [S1 S2]. split; [|unfold type_of; rewrite S1; reflexivity].
  destruct (parse_params_ok e (NoStarList [u "q"]) DSemi ps Hp) as (d & Ed & Hd). unfold bad_weight, weighed, parameters. rewrite S2. change [59] with [delim_chr DSemi]. rewrite Ed. cbn [snd]. rewrite Hd.
  destruct (last_value (u "q") ps) as [s|]; cbn [option_map].
  - split; [eauto|]. intros (s' & X & H). injection X as <-. exact H.
  - split; [intros []|]. intros (s' & X & _). discriminate.
Qed.
Print Assumptions C50_written.
(** ** Examples *)
Definition pref_sample : list rawline := raws [("Accept", "text/html;Q=0.5, x;q=2, */*;q=1e-1, a/b;q"); ("Accept-Language", "en;q=.50;a=1, fr;q=0.5000"); ("TE", "Gzip;q=0.5")]%string.
Example C50_hyph : hyphened (u "accept-language") pref_sample. Proof. apply hyphened_dec; vm_compute; reflexivity. Qed.
Example C50_ex : let '(m, _, r) := lint env0 None (TopRequest (u "GET") (u "/") (u "HTTP/1.1")) pref_sample [] true [] (new_linter MRequest None false false []) in
  r = Ok tt /\ reports accept_classes (m_notes m) = [(ACCEPT_BAD_SYNTAX, u "offset-0"); (BAD_Q_VALUE, u "offset-0")]
  /\ reports language_classes (m_notes m) = [(ACCEPT_LANGUAGE_BAD_SYNTAX, u "offset-1"); (BAD_Q_VALUE_accept_language, u "offset-1")]
  /\ value_in false (u "te") m = Some (VList [VTuple [VStr (u "gzip"); VDict [(u "q", VStr (u "0.5"))]]]).
Proof. vm_compute. repeat split. Qed.
(** "1e-1" and "+.5" are no quality values of RFC 9110, but are taken for ones. *)
Example C50_loose : (exists x, quality (u "1e-1") x) /\ (exists x, quality (u "+.5") x).
Proof. split; eexists; (split; [cbn; lia|]); (split; [vm_compute; reflexivity|]); split; apply Qle_bool_iff; reflexivity. Qed.
Example C50_quality_ex : (exists x, quality (u "0.125") x) /\ ~ (exists x, quality (u "0.1250") x) /\ ~ (exists x, quality (u "1.001") x).
Proof.
  split; [|split].
  - apply (proj1 (C50_quality (u "0") (Some (u "125")) eq_refl ltac:(discriminate))). split; [cbn; lia|]. apply Qle_bool_iff. reflexivity.
  - intros H. apply (proj1 (C50_quality (u "0") (Some (u "1250")) eq_refl ltac:(discriminate))) in H as [H _]. cbn in H. lia.
  - intros H. apply (proj1 (C50_quality (u "1") (Some (u "001")) eq_refl ltac:(discriminate))) in H as [_ H]. apply Qle_bool_iff in H. discriminate.
Qed.
Example C50_written_ex : let p := mkParam (u "Q") (PQuoted [(48, false); (46, false); (55, true)]) (u " ") [] in param_ok p /\ last_value (u "q") [p] = Some (u "0.7").
Proof. split; [|reflexivity]. repeat constructor; cbn; try discriminate; unfold q_ok, qdtext, qpair; cbn; lia. Qed.
