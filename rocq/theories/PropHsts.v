(** * C54: Strict-Transport-Security. *)
From Coq Require Import Lia.
From Verif Require Import PyStr Regex Grammar NoteTable Note PyLib Utils FieldAttrs Types Fields1 Fields2 Fields3 Framework Checks Message
  EvLogic NoteLemmas TestEnv LexLemmas ParamLemmas NumLemmas PassParse PassFrame Session SessionLemmas SecNotes SecValues LintLemmas FieldSpec PropFields PropValues PropNames PropParse PropTop PropCli OwnLemmas ListSpec PropLists PropCC ListExamples FieldExamples
  PropInts PropStatus FieldDue OwnTac OwnMore PlainSpec KidSpec OwnFull HstsSpec.
Open Scope N_scope.

Definition hk : list str := [u "directive"; u "max_age"].
Definition hv (d : nid * vars) : nid * list (option pyval) := (fst d, map (fun k => dlast k (snd d)) hk).
Definition puts_off (l : list ev) : list (nid * vars) := flat_map (fun e => match e with EDefer n _ v => [(n, v)] | _ => [] end) l.
Lemma puts_off_app a b : puts_off (a ++ b) = puts_off a ++ puts_off b. Proof. apply flat_map_app. Qed.
Lemma deferred_tag s b l h x : h_aux h = [] -> deferred (h_set_val (h_add_aux h (aux_of (tag s b l))) x) = puts_off l.
Proof.
  intros H. unfold deferred. cbn [h_set_val h_add_aux h_aux]. rewrite H. cbn [app]. clear H. induction l as [|e l IH]; [reflexivity|]. unfold tag, aux_of in *. cbn [map flat_map]. rewrite flat_map_app, IH. destruct e; reflexivity.
Qed.

(** ** Reading the text *)
Lemma split_parts c s : s = join [c] (split_all c s) /\ Forall (fun p => ~ In c p) (split_all c s) /\ split_all c s <> [].
Proof.
  induction s as [|x s (IH1 & IH2 & IH3)]; [cbn; repeat constructor; [intros []|discriminate]|]. cbn [split_all]. destruct (x =? c) eqn:E.
  - apply N.eqb_eq in E. subst x. split; [|split; [constructor; [intros []|exact IH2]|discriminate]]. rewrite IH1 at 1. destruct (split_all c s); [destruct (IH3 eq_refl)|]. reflexivity.
  - destruct (split_all c s) as [|p l]; [destruct (IH3 eq_refl)|]. pose proof (Forall_inv IH2) as Hp. pose proof (Forall_inv_tail IH2) as Hl. cbv beta in Hp. split; [|split; [constructor; [|exact Hl]|discriminate]].
    + rewrite IH1 at 1. destruct l; reflexivity.
    + intros [C|C]; [subst; rewrite N.eqb_refl in E; discriminate|exact (Hp C)].
Qed.
Definition read_d (d : str) : directive := match split1 61 d with Some (a, b) => (lower (strip a), Some (strip b)) | None => (lower (strip d), None) end.
Lemma split1_some c s a b : split1 c s = Some (a, b) -> ~ In c a /\ s = a ++ c :: b.
Proof.
  revert a b. induction s as [|x s IH]; intros a b H; [discriminate|]. cbn [split1] in H. destruct (x =? c) eqn:E.
  - apply N.eqb_eq in E. injection H as <- <-. subst. split; [intros []|reflexivity].
  - destruct (split1 c s) as [[a' b']|]; [|discriminate]. injection H as <- <-. destruct (IH a' b' eq_refl) as [H1 H2]. split; [|rewrite H2; reflexivity].
    intros [C|C]; [subst; rewrite N.eqb_refl in E; discriminate|exact (H1 C)].
Qed.
Lemma split1_none c s : split1 c s = None -> ~ In c s.
Proof.
  induction s as [|x s IH]; intros H; [intros []|]. cbn [split1] in H. destruct (x =? c) eqn:E; [discriminate|]. destruct (split1 c s) as [[a' b']|]; [discriminate|].
  intros [C|C]; [subst; rewrite N.eqb_refl in E; discriminate|exact (IH eq_refl C)].
Qed.
Lemma read_d_ok part : directive_of part (read_d (strip part)).
Proof.
  unfold directive_of, read_d. destruct (split1 61 (strip part)) as [[a b]|] eqn:E.
  - apply split1_some in E as [H1 H2]. exists a. split; [exact H1|]. split; [reflexivity|]. right. exists b. split; [exact H2|reflexivity].
  - apply split1_none in E. exists (strip part). split; [exact E|]. split; [reflexivity|]. left. split; reflexivity.
Qed.
Lemma reads_ok l : Forall2 directive_of l (map read_d (map strip l)).
Proof. induction l; constructor; [apply read_d_ok|assumption]. Qed.
Lemma read_d_stripped d v : snd (read_d d) = Some v -> stripped v.
Proof. unfold read_d. destruct (split1 61 d) as [[a b]|]; cbn [snd]; [|discriminate]. intros H. injection H as <-. apply strip_stripped. Qed.

(** ** The loop *)
Definition names (ds : list directive) : list str := map fst ds.
Definition one_note (before : list directive) (d : directive) : list (nid * vars) :=
  if str_in (fst d) (names before) then [(HSTS_DUPLICATE_DIRECTIVE, [vs "directive" (fst d)])]
  else if str_eqb (fst d) (u "max-age") then
    match (match snd d with Some v => py_int v | None => None end) with Some _ => [] | None => [(HSTS_BAD_MAX_AGE, [vs "max_age" (opt_text (snd d))])] end
  else if str_eqb (fst d) (u "includesubdomains") then match snd d with Some _ => [(HSTS_VALUE_NOT_ALLOWED, [vl "directive" "includeSubDomains"])] | None => [] end
  else if str_eqb (fst d) (u "preload") then match snd d with Some _ => [(HSTS_VALUE_NOT_ALLOWED, [vl "directive" "preload"])] | None => [] end
  else [].
Definition age_of (ds : list directive) : option Z := match first_named "max-age" ds with Some (Some v) => py_int v | _ => None end.
Definition state_of (ds : list directive) : hsts := mkHsts (age_of ds) (has "includesubdomains" ds) (has "preload" ds).
Definition puts (l : list (nid * vars)) : list ev := map (fun x => EDefer (fst x) None (snd x)) l.
Fixpoint notes_after (before ds : list directive) : list (list (nid * vars)) :=
  match ds with [] => [] | d :: ds' => one_note before d :: notes_after (before ++ [d]) ds' end.
Lemma find_app {A} (f : A -> bool) a b : find f (a ++ b) = match find f a with Some x => Some x | None => find f b end.
Proof. induction a as [|x a IH]; [reflexivity|]. cbn [app find]. destruct (f x); [reflexivity|exact IH]. Qed.
Lemma first_app n a d : first_named n (a ++ [d]) = match first_named n a with Some x => Some x | None => if str_eqb (fst d) (u n) then Some (snd d) else None end.
Proof. unfold first_named. rewrite find_app. match goal with |- context [find ?f a] => destruct (find f a) end; [reflexivity|]. cbn [find]. destruct (str_eqb (fst d) (u n)); reflexivity. Qed.
Lemma first_in n a : first_named n a = None <-> ~ In (u n) (names a).
Proof.
  unfold first_named, names. induction a as [|d a IH]; cbn [find map]; [split; [intros _ []|reflexivity]|]. destruct (str_eqb (fst d) (u n)) eqn:E.
  - apply str_eqb_eq in E. split; [discriminate|]. intros H. exfalso. apply H. left. exact E.
  - rewrite IH. split; [|intros H C; apply H; right; exact C]. intros H [C|C]; [|exact (H C)]. rewrite <- C, str_eqb_refl in E. discriminate.
Qed.
Lemma state_dup before d : In (fst d) (names before) -> state_of (before ++ [d]) = state_of before.
Proof.
  intros H. assert (A : forall n, first_named n (before ++ [d]) = first_named n before).
  { intros n. rewrite first_app. destruct (first_named n before) eqn:E; [reflexivity|]. destruct (str_eqb (fst d) (u n)) eqn:Q; [|reflexivity]. apply str_eqb_eq in Q. apply first_in in E. rewrite Q in H. destruct (E H). }
  unfold state_of, age_of, has. rewrite !A. reflexivity.
Qed.
Lemma state_new before d n : ~ In (fst d) (names before) -> first_named n (before ++ [d]) = if str_eqb (fst d) (u n) then Some (snd d) else first_named n before.
Proof.
  intros H. rewrite first_app. destruct (str_eqb (fst d) (u n)) eqn:E.
  - apply str_eqb_eq in E. rewrite E in H. apply first_in in H. rewrite H. reflexivity.
  - destruct (first_named n before); reflexivity.
Qed.
Lemma loop_ok ds : forall before seen, (forall n, str_in n seen = str_in n (names before)) ->
  hsts_loop ds seen (state_of before) = (puts (concat (notes_after before (map read_d ds))), Ok (state_of (before ++ map read_d ds))).
Proof.
  induction ds as [|d ds IH]; intros before seen Hs; [cbn; rewrite app_nil_r; reflexivity|].
  cbn [map notes_after concat]. change (puts (?a ++ ?b)) with (puts (a ++ b)). unfold puts. rewrite map_app. fold (puts (one_note before (read_d d))) (puts (concat (notes_after (before ++ [read_d d]) (map read_d ds)))).
  replace (before ++ read_d d :: map read_d ds) with ((before ++ [read_d d]) ++ map read_d ds) by (rewrite <- app_assoc; reflexivity).
  cbn [hsts_loop].
  assert (Er : (match split1 61 d with Some (a, b) => (a, Some (strip b)) | None => (d, None) end) = (match split1 61 d with Some (a, b) => a | None => d end, snd (read_d d))) by (unfold read_d; destruct (split1 61 d) as [[a b]|]; reflexivity).
  assert (En : lower (strip (match split1 61 d with Some (a, b) => a | None => d end)) = fst (read_d d)) by (unfold read_d; destruct (split1 61 d) as [[a b]|]; reflexivity).
  rewrite Er. cbv zeta. rewrite En. clear Er En. generalize dependent (read_d d). intros r. set (n := fst r) in *. rewrite Hs. unfold one_note. fold n.
  destruct (str_in n (names before)) eqn:Ed.
  - apply str_in_In in Ed.
    assert (X : hsts_loop ds seen (state_of before) = (puts (concat (notes_after (before ++ [r]) (map read_d ds))), Ok (state_of ((before ++ [r]) ++ map read_d ds)))).
    { rewrite <- (state_dup before r Ed). apply IH.
      intros x. rewrite Hs. unfold names. rewrite map_app. cbn [map]. unfold str_in. rewrite existsb_app. cbn [existsb]. fold n. rewrite orb_false_r. destruct (str_eqb x n) eqn:Q; [|rewrite orb_false_r; reflexivity].
      apply str_eqb_eq in Q. subst x. rewrite orb_true_r. apply str_in_In. exact Ed. }
    unfold bind, defer, tell. rewrite X. reflexivity.
  - assert (Hn : ~ In (fst r) (names before)) by (intros C; apply str_in_In in C; fold n in C; congruence).
    assert (Hs' : forall x, str_in x (n :: seen) = str_in x (names (before ++ [r]))).
    { intros x. unfold names. rewrite map_app. cbn [map]. unfold str_in. rewrite existsb_app. cbn [existsb]. fold n. rewrite orb_false_r, orb_comm. f_equal. apply Hs. }
    specialize (IH (before ++ [r]) (n :: seen) Hs').
    assert (G : forall (w : W hsts) l, w = (puts l, Ok (state_of (before ++ [r]))) ->
       bind w (fun s' => hsts_loop ds (n :: seen) s') = (puts l ++ puts (concat (notes_after (before ++ [r]) (map read_d ds))), Ok (state_of ((before ++ [r]) ++ map read_d ds)))).
    { intros w l ->. unfold bind. rewrite IH. reflexivity. }
    apply G. clear G IH Hs'. unfold state_of, age_of, has. rewrite !(state_new before r) by exact Hn. fold n.
    destruct (str_eqb n (u "max-age")) eqn:Q1.
    { apply str_eqb_eq in Q1. rewrite Q1. assert (F : first_named "max-age" before = None) by (apply first_in; rewrite <- Q1; exact Hn).
      change (str_eqb (u "max-age") (u "includesubdomains")) with false. change (str_eqb (u "max-age") (u "preload")) with false. cbn [hs_sub hs_pre].
      destruct (snd r) as [v|]; [destruct (py_int v)|]; rewrite ?F; reflexivity. }
    destruct (str_eqb n (u "includesubdomains")) eqn:Q2.
    { apply str_eqb_eq in Q2. rewrite Q2. change (str_eqb (u "includesubdomains") (u "preload")) with false. destruct (snd r); reflexivity. }
    destruct (str_eqb n (u "preload")) eqn:Q3.
    { destruct (snd r); reflexivity. }
    reflexivity.
Qed.

Lemma notes_ok ds : Forall (fun d => forall v, snd d = Some v -> stripped v) ds -> forall before, exists parts, map hv (concat (notes_after before ds)) = concat parts /\ List.length parts = List.length ds
  /\ forall i d p, nth_error ds i = Some d -> nth_error parts i = Some p -> directive_notes (before ++ firstn i ds) d p.
Proof.
  induction 1 as [|d ds Hd Hds IH]; intros before; cbn [notes_after concat].
  - exists []. repeat split. intros [|i] d p H; discriminate H.
  - destruct (IH (before ++ [d])) as (parts & E & L & N). exists (map hv (one_note before d) :: parts). split; [etransitivity; [apply map_app|]; cbn [concat]; f_equal; exact E|]. split; [cbn [List.length]; f_equal; exact L|].
    intros [|i] d' p H1 H2; cbn [nth_error firstn] in *.
    2: { specialize (N i d' p H1 H2). rewrite <- app_assoc in N. exact N. }
    injection H1 as <-. injection H2 as <-. rewrite app_nil_r. unfold directive_notes, one_note. destruct d as [n o]. cbn [fst snd] in *. unfold names.
    destruct (str_in n (map fst before)) eqn:B1.
    { exists true, false, false, false. split; [reflexivity|]. apply str_in_In in B1. repeat split; try discriminate; try tauto; intros (X & _); discriminate X. }
    assert (B1' : ~ In n (map fst before)) by (intros C; apply str_in_In in C; congruence).
    destruct (str_eqb n (u "max-age")) eqn:Q1.
    { apply str_eqb_eq in Q1. set (w := match o with Some v => py_int v | None => None end). exists false, (match w with Some _ => false | None => true end), false, false.
      split; [destruct w, o; reflexivity|]. split; [split; [discriminate|tauto]|]. split; [|split; (split; [discriminate|]); intros (_ & X & _); rewrite Q1 in X; discriminate X].
      unfold w. destruct o as [v|].
      - destruct (py_int v) as [z|] eqn:Ez; (split; [|intros (_ & _ & X)]).
        + discriminate.
        + exfalso. apply (X v z eq_refl). apply py_int_spec; auto.
        + intros _. repeat split; auto. intros v' z H C. injection H as <-. apply py_int_spec in C; [congruence|auto].
        + reflexivity.
      - split; [|reflexivity]. intros _. repeat split; auto. discriminate. }
    apply str_eqb_neq in Q1.
    destruct (str_eqb n (u "includesubdomains")) eqn:Q2.
    { apply str_eqb_eq in Q2. exists false, false, (match o with Some _ => true | None => false end), false. split; [destruct o; reflexivity|]. split; [split; [discriminate|tauto]|].
      split; [split; [discriminate|intros (_ & X & _); destruct (Q1 X)]|]. split; [|split; [discriminate|intros (_ & X & _); rewrite Q2 in X; discriminate X]].
      destruct o; split; intros X; try reflexivity; try discriminate X; [split; [reflexivity|]; split; [assumption|discriminate]|destruct X as (_ & _ & X); destruct (X eq_refl)]. }
    apply str_eqb_neq in Q2.
    destruct (str_eqb n (u "preload")) eqn:Q3.
    { apply str_eqb_eq in Q3. exists false, false, false, (match o with Some _ => true | None => false end). split; [destruct o; reflexivity|]. split; [split; [discriminate|tauto]|].
      split; [split; [discriminate|intros (_ & X & _); destruct (Q1 X)]|]. split; [split; [discriminate|intros (_ & X & _); destruct (Q2 X)]|].
      destruct o; split; intros X; try reflexivity; try discriminate X; [split; [reflexivity|]; split; [assumption|discriminate]|destruct X as (_ & _ & X); destruct (X eq_refl)]. }
    apply str_eqb_neq in Q3. exists false, false, false, false. split; [reflexivity|]. split; [split; [discriminate|tauto]|]. repeat split; try discriminate; intros (_ & X & _); congruence.
Qed.

(** ** The whole field *)
Definition parts_of (v : str) : list str := map strip (split_all 59 v).
Definition tr_of (v : str) : bool := match last (parts_of v) [] with [] => true | _ => false end.
Definition ds_of (v : str) : list directive := map read_d (if tr_of v then removelast (parts_of v) else parts_of v).
Definition own_notes (v : str) : list (nid * vars) := concat (notes_after [] (ds_of v)).
Definition defs_of (v : str) : list (nid * vars) := (if tr_of v then [(HSTS_TRAILING_SEMICOLON, [])] else []) ++ own_notes v.
Lemma p_hsts_ok c h v : p_hsts c h v = (puts (defs_of v), Ok (hsts_val (state_of (ds_of v)))).
Proof.
  unfold p_hsts, defs_of, own_notes, ds_of, tr_of. fold (parts_of v). destruct (last (parts_of v) []) as [|x y] eqn:L.
  - pose proof (loop_ok (removelast (parts_of v)) [] [] (fun n => eq_refl)) as X. cbn [app] in X. change (state_of []) with (mkHsts None false false) in X.
    unfold defer, tell, bind, ret. rewrite X. unfold puts. rewrite map_app, !app_nil_r. reflexivity.
  - pose proof (loop_ok (parts_of v) [] [] (fun n => eq_refl)) as X. cbn [app] in X. change (state_of []) with (mkHsts None false false) in X.
    unfold bind, ret. rewrite X. rewrite !app_nil_r. reflexivity.
Qed.
Lemma last_map {A B} (f : A -> B) l a b : l <> [] -> last (map f l) b = f (last l a).
Proof. induction l as [|x l IH]; intros H; [congruence|]. destruct l as [|y l]; [reflexivity|]. change (last (map f (y :: l)) b = f (last (y :: l) a)). apply IH. discriminate. Qed.
Lemma removelast_map {A B} (f : A -> B) l : removelast (map f l) = map f (removelast l).
Proof. induction l as [|x l IH]; [reflexivity|]. destruct l as [|y l]; [reflexivity|]. change (f x :: removelast (map f (y :: l)) = f x :: map f (removelast (y :: l))). rewrite IH. reflexivity. Qed.
Lemma read_ok v : hsts_read v (ds_of v) (tr_of v).
Proof.
  destruct (split_parts 59 v) as (P1 & P2 & P3). exists (split_all 59 v). split; [exact P1|]. split; [exact P2|]. pose proof (app_removelast_last [] P3) as AL.
  unfold ds_of. assert (L : last (parts_of v) [] = strip (last (split_all 59 v) [])) by (apply last_map, P3). unfold tr_of. rewrite L. destruct (strip (last (split_all 59 v) [])) as [|x y] eqn:E.
  - exists (removelast (split_all 59 v)), (last (split_all 59 v) []). split; [exact AL|]. split; [exact E|]. unfold parts_of. rewrite removelast_map. apply reads_ok.
  - split; [|apply reads_ok]. exists (removelast (split_all 59 v)), (last (split_all 59 v) []). split; [exact AL|]. rewrite E. discriminate.
Qed.
Lemma ds_stripped v : Forall (fun d => forall x, snd d = Some x -> stripped x) (ds_of v).
Proof. unfold ds_of. apply Forall_map, Forall_forall. intros d _ x. apply read_d_stripped. Qed.
Definition is_bad_age (d : nid * vars) : bool := match fst d with HSTS_BAD_MAX_AGE => true | _ => false end.
Lemma bad_age ds : forall before, existsb is_bad_age (concat (notes_after before ds)) = negb (has "max-age" before) && has "max-age" ds && match age_of ds with None => true | Some _ => false end.
Proof.
  induction ds as [|d ds IH]; intros before; cbn [notes_after concat]; [rewrite andb_false_r; reflexivity|]. rewrite existsb_app, IH. clear IH.
  unfold has, age_of at 2. rewrite first_app. unfold first_named at 4 5. cbn [find]. unfold one_note. destruct (str_eqb (fst d) (u "max-age")) eqn:Q.
  - cbn [option_map]. apply str_eqb_eq in Q. rewrite Q. destruct (str_in (u "max-age") (names before)) eqn:B.
    + apply str_in_In in B. destruct (first_named "max-age" before) eqn:F; [reflexivity|]. apply first_in in F. destruct (F B).
    + assert (F : first_named "max-age" before = None) by (apply first_in; intros C; apply str_in_In in C; congruence). rewrite F. cbn [negb andb]. rewrite orb_false_r.
      change (str_eqb (u "max-age") (u "max-age")) with true. cbn [andb]. destruct (snd d) as [v|]; [destruct (py_int v)|]; reflexivity.
  - fold (first_named "max-age" ds). assert (Z : existsb is_bad_age (one_note before d) = false).
    { unfold one_note. rewrite Q. destruct (str_in (fst d) (names before)), (str_eqb (fst d) (u "includesubdomains")), (str_eqb (fst d) (u "preload")), (snd d); reflexivity. }
    unfold one_note in Z. rewrite Q in Z. rewrite Z. cbn [orb]. destruct (first_named "max-age" before); reflexivity.
Qed.
Lemma all_invalid ds : forall before, Forall (fun d => invalidating (fst d) = true) (concat (notes_after before ds)).
Proof.
  induction ds as [|d ds IH]; intros before; [constructor|]. cbn [notes_after concat]. apply Forall_app. split; [|apply IH]. unfold one_note.
  destruct (str_in _ _); [repeat constructor|]. destruct (str_eqb _ _); [destruct (match snd d with Some v => py_int v | None => None end); repeat constructor|].
  destruct (str_eqb _ _); [destruct (snd d); repeat constructor|]. destruct (str_eqb _ _); [destruct (snd d); repeat constructor|constructor].
Qed.
Lemma any_invalid v : existsb (fun d : nid * vars => invalidating (fst d)) (defs_of v) = nonempty (own_notes v).
Proof.
  unfold defs_of. rewrite existsb_app. replace (existsb _ (if tr_of v then _ else _)) with false by (destruct (tr_of v); reflexivity). cbn [orb].
  pose proof (all_invalid (ds_of v) []) as A. fold (own_notes v) in A. destruct (own_notes v) as [|d l]; [reflexivity|]. inversion A as [|? ? A1 A2]; subst. cbn [existsb nonempty]. rewrite A1. reflexivity.
Qed.
Definition kids_of (v : str) (over : bool) : list (nid * vars) :=
  let ds := ds_of v in let ma := age_of ds in
  defs_of v ++ map (fun n => (n, [])) ([preload_note ds ma] ++ age_notes ds ma ++ [if has "includesubdomains" ds then HSTS_SUBDOMAINS else HSTS_NO_SUBDOMAINS] ++ only over HSTS_OVER_HTTP).
Definition class_of (v : str) (over : bool) : nid := if (match age_of (ds_of v) with Some _ => true | None => false end) && negb over && negb (nonempty (own_notes v)) then HSTS_VALID else HSTS_INVALID.
Definition over_of (c : cx) : bool := startswith (u "http:") (m_base (cx_msg c)) && is_response c && negb (status_in c [301]%Z).
Lemma ev_hsts_ok c h v : h_val h = hsts_val (state_of (ds_of v)) -> deferred h = defs_of v -> existsb (fun n => invalidating (n_cls n)) (m_notes (cx_msg c)) = false ->
  ev_hsts c h = ([ENote (class_of v (over_of c)) None [] (kids_of v (over_of c))], Ok tt).
Proof.
  intros Hv Hd Hn. unfold ev_hsts. rewrite Hv, Hd, Hn. fold (over_of c). rewrite any_invalid. change (negb (truthy (hsts_val (state_of (ds_of v))))) with false. cbv iota.
  assert (As : as_hsts (hsts_val (state_of (ds_of v))) = Ok (state_of (ds_of v))) by (unfold state_of, hsts_val; cbn [hs_max hs_sub hs_pre as_hsts]; destruct (age_of (ds_of v)); reflexivity).
  rewrite As, lift_ok. cbv zeta. unfold tell. f_equal. unfold class_of, kids_of, preload_note, age_notes, state_of. cbn [hs_max hs_sub hs_pre negb].
  assert (Bd : existsb (fun d : nid * vars => match fst d with HSTS_BAD_MAX_AGE => true | _ => false end) (defs_of v) = has "max-age" (ds_of v) && match age_of (ds_of v) with None => true | Some _ => false end).
  { unfold defs_of. rewrite existsb_app. replace (existsb _ (if tr_of v then _ else _)) with false by (destruct (tr_of v); reflexivity). cbn [orb]. exact (bad_age (ds_of v) []). }
  rewrite Bd. f_equal. f_equal.
  - destruct (age_of (ds_of v)); destruct (over_of c), (own_notes v); reflexivity.
  - do 2 f_equal. destruct (age_of (ds_of v)) as [z|]; cbn [negb andb].
    + unfold hsts_min, long_enough, only. destruct (has "preload" (ds_of v)), (has "includesubdomains" (ds_of v)), (over_of c), (z =? 0)%Z, (z <? 1536000)%Z, (1536000 <=? z)%Z; reflexivity.
    + rewrite andb_true_r. unfold only. destruct (has "preload" (ds_of v)), (has "includesubdomains" (ds_of v)), (over_of c), (has "max-age" (ds_of v)); reflexivity.
Qed.
Definition hdue (over : bool) (v : str) : nid * list (nid * list (option pyval)) := (class_of v over, map hv (kids_of v over)).
Lemma hdue_ok over insecure v : (over = true <-> insecure) -> hsts_due insecure v (hdue over v).
Proof.
  intros Ho. destruct (notes_ok (ds_of v) (ds_stripped v) []) as (parts & N1 & N2 & N3). fold (own_notes v) in N1.
  exists (ds_of v), (tr_of v), (map hv (own_notes v)), (age_of (ds_of v)), over. split; [apply read_ok|].
  split; [exists parts; split; [exact N1|]; split; [exact N2|exact N3]|]. split.
  { intros z. unfold age_of. pose proof (ds_stripped v) as S. rewrite Forall_forall in S. unfold first_named. match goal with |- context [find ?f (ds_of v)] => destruct (find f (ds_of v)) as [[n [s|]]|] eqn:F end; cbn [option_map snd].
    - apply find_some in F as [F _]. rewrite (py_int_spec s z (S _ F s eq_refl)). split; [intros H; exists s; auto|]. intros (s' & E & H). injection E as <-. exact H.
    - split; [discriminate|]. intros (s' & E & _). discriminate E.
    - split; [discriminate|]. intros (s' & E & _). discriminate E. }
  split; [exact Ho|]. split.
  - unfold hdue, kids_of, defs_of. cbn [snd]. cbv zeta. rewrite !map_app, <- app_assoc. f_equal; [destruct (tr_of v); reflexivity|]. f_equal. rewrite !map_map. reflexivity.
  - unfold hdue, class_of. cbn [fst]. destruct (age_of (ds_of v)); cbn [andb].
    + destruct over; cbn [negb andb]; [right; split; [reflexivity|]; intros (_ & _ & X); discriminate X|]. destruct (own_notes v) as [|d l]; cbn [nonempty negb map]; [left; repeat split; discriminate|right; split; [reflexivity|]; intros (_ & X & _); discriminate X].
    + right. split; [reflexivity|]. intros (X & _). destruct (X eq_refl).
Qed.
Lemma no_invalid ns : sel (classes hsts_classes) ns = filter (fun n => classes [HSTS_VALID; HSTS_INVALID] (n_cls n)) ns -> existsb (fun n => invalidating (n_cls n)) ns = false.
Proof.
  intros H. destruct (existsb _ ns) eqn:E; [|reflexivity]. apply existsb_exists in E as (n & Hn & Hi). assert (In n (sel (classes hsts_classes) ns)).
  { apply filter_In. split; [exact Hn|]. destruct (n_cls n); try discriminate Hi; reflexivity. }
  rewrite H in H0. apply filter_In in H0 as [_ H0]. destruct (n_cls n); try discriminate Hi; discriminate H0.
Qed.
Definition tops (ns : list note) : Prop := Forall (fun n => n_cls n = HSTS_VALID \/ n_cls n = HSTS_INVALID) ns.
Lemma tops_ok ns : tops (sel (classes hsts_classes) ns) -> existsb (fun n => invalidating (n_cls n)) ns = false.
Proof.
  intros H. destruct (existsb _ ns) eqn:E; [|reflexivity]. apply existsb_exists in E as (n & Hn & Hi). assert (I : In n (sel (classes hsts_classes) ns)).
  { apply filter_In. split; [exact Hn|]. destruct (n_cls n); try discriminate Hi; reflexivity. }
  unfold tops in H. rewrite Forall_forall in H. destruct (H n I) as [X|X]; rewrite X in Hi; discriminate Hi.
Qed.
Lemma deep_tops P ks ns l : heard_deep P ks ns = l -> Forall (fun x : heard_note => fst (fst (fst x)) = HSTS_VALID \/ fst (fst (fst x)) = HSTS_INVALID) l -> tops (sel P ns).
Proof. intros <- H. unfold heard_deep in H. apply Forall_map in H. exact H. Qed.
Lemma put_deep P ks s l : flat_map (deep_of P ks s) (puts l) = []. Proof. induction l as [|x l IH]; [reflexivity|exact IH]. Qed.
Lemma puts_back l : puts_off (puts l) = l. Proof. induction l as [|[n v] l IH]; [reflexivity|]. cbn. f_equal. exact IH. Qed.
Definition sts : str := u "strict-transport-security".
Lemma hsts_section e rel tr m m' raws evs evs' : processed (m_type m) sts = true -> front m = front m' -> tops (sel (classes hsts_classes) (m_notes m)) ->
  field_runm (classes hsts_classes) e rel tr m sts raws evs evs' ->
  heard_deep (classes hsts_classes) hk (emit (m_type m) [] evs) ++ heard_deep (classes hsts_classes) hk (emit (m_type m) [] evs') = hsts_told "strict-transport-security" (hdue (over_of (mkCx e m' rel))) raws.
Proof.
  intros Hpr Hfr Ht R.
  assert (HP : mine (classes hsts_classes) F_strict_transport_security) by (apply mine_b_ok; vm_compute; reflexivity).
  assert (In_ : In F_strict_transport_security module_fields) by (vm_compute; tauto).
  destruct (single_at (classes hsts_classes) F_strict_transport_security sts e rel (front m') tr m raws evs evs' HP In_ eq_refl eq_refl Hpr Hfr R) as [-> S].
  unfold hsts_told, first_line. fold sts. destruct (values sts raws) as [|v l]; [rewrite S; reflexivity|]. destruct S as (pre & h & mi & S1 & S2 & S3 & S4 & S5 & S6). cbv zeta in S6.
  change (parse_of F_strict_transport_security) with p_hsts in S6. rewrite p_hsts_ok in S6. cbn [fst snd] in S6. unfold hsts_val in S6 at 1. cbv iota in S6.
  set (h5 := h_set_val _ _) in S6. change (eval_of F_strict_transport_security (mkCx e mi rel) h5) with (keep h5 (ev_hsts (mkCx e mi rel) h5)) in S6. rewrite keep_fst in S6.
  rewrite (ev_hsts_ok (mkCx e mi rel) h5 (strip v)) in S6.
  - cbn [fst] in S6. subst evs'. cbn [emit fold_left heard_deep filter map app]. 
    assert (Ov : over_of (mkCx e mi rel) = over_of (mkCx e m' rel)) by (unfold over_of, is_response, status_in; cbn [cx_msg]; unfold front in S2; injection S2 as -> _ _ -> _ _ ->; reflexivity).
    rewrite Ov. rewrite deep_tag.
    + rewrite !flat_map_app, (calls_mute _ _ _ _ _ HP S1), put_deep. cbn [app flat_map deep_of].
      set (x := class_of _ _). assert (Hx : classes hsts_classes x = true) by (unfold x, class_of; destruct (_ && _); reflexivity). rewrite Hx. cbn [app]. unfold hdue. cbn [fst snd].
      f_equal. f_equal. unfold hv. apply map_ext. intros [n w]. cbn [fst snd]. f_equal. apply map_ext. intros k. destruct (dlast k w); reflexivity.
    + reflexivity.
    + apply own_plain. reflexivity.
    + apply Forall_app. split; [apply (calls_own _ _ S1)|]. apply Forall_app. split; [apply Forall_map, Forall_forall; intros; exact I|]. repeat constructor.
  - reflexivity.
  - unfold h5. rewrite deferred_tag by exact S5. apply puts_back.
  - apply tops_ok. cbn [cx_msg]. rewrite S3. exact Ht.
Qed.
(** The base URI says that the response came over HTTP; a permanent redirect may. *)
Definition insecure_response (t : mtype) (base : str) (status : option Z) : Prop := t = MResponse /\ (exists r, base = u "http:" ++ r) /\ status <> Some 301%Z.
Lemma startswith_iff p s : startswith p s = true <-> exists r, s = p ++ r.
Proof.
  revert s. induction p as [|c p IH]; intros s; cbn [startswith]; [split; [exists s; reflexivity|reflexivity]|]. destruct s as [|x s]; [split; [discriminate|intros (r & H); discriminate H]|].
  rewrite andb_true_iff, N.eqb_eq, IH. split; [intros [-> (r & ->)]; exists r; reflexivity|]. intros (r & H). injection H as -> ->. split; [reflexivity|]. exists r. reflexivity.
Qed.
Theorem C54_hsts : forall e rel top headers chunks complete trailers t start nc head base m' rel',
  lint e rel top headers chunks complete trailers (new_linter t start nc head base) = (m', rel', Ok tt) -> t <> MRequest ->
  hyphened (u "strict-transport-security") headers -> hyphened (u "strict-transport-security") trailers ->
  exists due, (forall v, hsts_due (insecure_response t base (m_status m')) v (due v))
    /\ heard_deep (classes hsts_classes) [u "directive"; u "max_age"] (m_notes m') = hsts_told "strict-transport-security" due headers ++ hsts_told "strict-transport-security" due trailers.
Proof.
  intros e rel top headers chunks complete trailers t start nc head base m' rel' E Ht Y1 Y2. exists (hdue (over_of (mkCx e m' rel))). split.
  { intros v. apply hdue_ok. destruct (lint_facts _ _ _ _ _ _ _ _ _ _ _ _ _ _ E) as (SM & _). unfold setup in SM. injection SM as T1 _ _ _ T2.
    unfold over_of, insecure_response, is_response, status_in. cbn [cx_msg]. rewrite T1, T2, !andb_true_iff, negb_true_iff, startswith_iff. split.
    - intros [[H1 H2] H3]. split; [destruct t; try discriminate H2; reflexivity|]. split; [exact H1|]. intros C. rewrite C in H3. discriminate H3.
    - intros (-> & H1 & H2). split; [split; [exact H1|reflexivity]|]. destruct (m_status m') as [z|]; [|reflexivity]. cbn [existsb]. rewrite orb_false_r. apply Z.eqb_neq. intros ->. apply H2. reflexivity. }
  assert (HP : mine (classes hsts_classes) F_strict_transport_security) by (apply mine_b_ok; vm_compute; reflexivity).
  assert (HQ : quiet (classes hsts_classes)) by (apply quiet_b_ok; vm_compute; reflexivity).
  assert (In_ : In F_strict_transport_security module_fields) by (vm_compute; tauto).
  assert (Hpr : processed t sts = true) by (destruct t; [congruence|vm_compute; reflexivity..]).
  destruct (lint_mid (classes hsts_classes) F_strict_transport_security sts e rel top headers chunks complete trailers t start nc head base m' rel' E HP HQ (or_introl eq_refl) eq_refl
              (hyphened_spelled _ sts _ In_ eq_refl eq_refl Y1) (hyphened_spelled _ sts _ In_ eq_refl eq_refl Y2)) as (mh & mt & a & a' & b & b' & T1 & T2 & F1 & F2 & N1 & N2 & R1 & R2 & N).
  assert (Sh : heard_deep (classes hsts_classes) hk (emit t [] a) ++ heard_deep (classes hsts_classes) hk (emit t [] a') = hsts_told "strict-transport-security" (hdue (over_of (mkCx e m' rel))) headers).
  { rewrite <- T1. rewrite <- T1 in Hpr. apply (hsts_section e rel false mh m' headers a a' Hpr F1); [rewrite N1; constructor|exact R1]. }
  assert (St : heard_deep (classes hsts_classes) hk (emit t [] b) ++ heard_deep (classes hsts_classes) hk (emit t [] b') = hsts_told "strict-transport-security" (hdue (over_of (mkCx e m' rel))) trailers).
  { rewrite <- T2. rewrite <- T2 in Hpr. apply (hsts_section e rel true mt m' trailers b b' Hpr F2); [|exact R2]. rewrite N2.
    rewrite <- heard_deep_app in Sh. unfold sel. rewrite <- filter_app. apply (deep_tops _ _ _ _ Sh). unfold hsts_told. destruct (first_line _ headers); [constructor; [|constructor]|constructor]. set (x := hdue _ _). change (fst x = HSTS_VALID \/ fst x = HSTS_INVALID). unfold x, hdue, class_of; cbn [fst]. match goal with |- context [if ?b then _ else _] => destruct b end; auto. }
  unfold heard_deep at 1. fold (sel (classes hsts_classes) (m_notes m')). rewrite N, !map_app. fold hk. rewrite <- Sh, <- St. reflexivity.
Qed.
Print Assumptions C54_hsts.
Definition hsts_sample : list rawline := raws [("Strict-Transport-Security", "Max-Age=1000; preload=1; preload;"); ("strict-transport-security", "max-age=9")]%string.
Example C54_ex : let '(m, _, r) := lint env0 None NoTop hsts_sample [] true (raws [("Strict-Transport-Security", "max-age=1536000; includeSubDomains")]%string) (new_linter MResponse None false false (u "https://x/")) in
  r = Ok tt /\ map (fun x => (fst (fst (fst x)), map fst (snd x))) (heard_deep (classes hsts_classes) hk (m_notes m)) =
    [(HSTS_INVALID, [HSTS_TRAILING_SEMICOLON; HSTS_VALUE_NOT_ALLOWED; HSTS_DUPLICATE_DIRECTIVE; HSTS_PRELOAD_NOT_SUITABLE; HSTS_SHORT_MAX_AGE; HSTS_NO_SUBDOMAINS]);
     (HSTS_VALID, [HSTS_NO_PRELOAD; HSTS_SUBDOMAINS])].
Proof. vm_compute. repeat split. Qed.
Example C54_hyp : hyphened (u "strict-transport-security") hsts_sample.
Proof. apply hyphened_dec; vm_compute; reflexivity. Qed.
