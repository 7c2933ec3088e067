(** * C62: Date, Last-Modified and Sunset against the clock. *)
From Coq Require Import Lia ZifyBool.
From Verif Require Import PyStr Regex Grammar NoteTable Note PyLib Utils FieldAttrs Types Fields1 Fields2 Fields3 Framework Checks Message
  EvLogic NoteLemmas TestEnv LexLemmas ParamLemmas NumLemmas NameLemmas FrameLemmas ContentLemmas BodyLemmas PassParse PassEval PassFrame PassSec PassProc PassRun Session SessionLemmas
  SectionLemmas SecNotes SecValues LintLemmas FieldSpec PropFields PropValues PropNames PropParse OwnLemmas ListSpec PropLists PropCC ListExamples FieldExamples PropInts FieldDue OwnTac OwnMore KidSpec OwnFull OwnAt
  DateLemmas PropDate ShowSpec ClockSpec.
Open Scope N_scope.

(** ** Dates *)
Lemma year_of (y : Z) : (if (100 <=? y)%Z then y else if (y <=? 68)%Z then (2000 + y)%Z else (1900 + y)%Z) = full_year y.
Proof. unfold full_year. destruct (100 <=? y)%Z eqn:A; destruct (y <=? 68)%Z eqn:B; destruct (y <? 100)%Z eqn:C; destruct (68 <? y)%Z eqn:D; lia. Qed.
Lemma moment_parses v z cat : moment v z -> exists l, parse_http_date v cat = (l, Ok z) /\ Forall (fun x => exists n, x = ENote n cat [] [] /\ (n = DATE_OBSOLETE)) l.
Proof.
  intros (s & year & H & Y & ->). rewrite year_of in Y. rewrite <- (app_nil_r v). destruct H as [H|[H|H]].
  - rewrite (imf_any_year s v [] cat year H (or_introl eq_refl) Y). eexists. split; [reflexivity|constructor].
  - rewrite (C28_rfc850 s v [] cat year H (or_introl eq_refl)); [eexists; split; [reflexivity|]; repeat constructor; eauto|].
    destruct H as (wd & mon & gmt & _ & _ & _ & _ & Hyy & _). pose proof (num_bound _ _ Hyy) as Hb. change (10 ^ Z.of_nat 2)%Z with 100%Z in Hb.
    rewrite Y. unfold full_year. destruct (num (t_yy s) <? 100)%Z eqn:E; [|lia]. destruct (68 <? num (t_yy s))%Z eqn:E1; destruct (num (t_yy s) <=? 68)%Z eqn:E2; lia.
  - rewrite (asctime_any_year s v [] cat year H (or_introl eq_refl) Y). eexists. split; [reflexivity|]. repeat constructor. eauto.
Qed.
Lemma year_nat s n : digs n (t_yy s) -> exists year, Z.of_nat year = (let y := num (t_yy s) in if (100 <=? y)%Z then y else if (y <=? 68)%Z then (2000 + y)%Z else (1900 + y)%Z).
Proof.
  intros H. pose proof (num_bound _ _ H) as B. exists (Z.to_nat (full_year (num (t_yy s)))). cbv zeta. rewrite year_of. apply Z2Nat.id. unfold full_year. destruct (_ <? 100)%Z; [destruct (_ <? _)%Z|]; lia.
Qed.
Lemma date_moment v : date_text v -> exists z, moment v z.
Proof.
  intros [[s H]|[[s H]|[s H]]]; pose proof H as (a & b & c & H0).
  - destruct H0 as (_ & _ & _ & _ & Hy & _). destruct (year_nat s 4 Hy) as [y Y]. exists (at_epoch s y), s, y. auto.
  - destruct H0 as (_ & _ & _ & _ & Hy & _). destruct (year_nat s 2 Hy) as [y Y]. exists (at_epoch s y), s, y. auto.
  - destruct H0 as (_ & _ & _ & _ & Hy & _). destruct (year_nat s 4 Hy) as [y Y]. exists (at_epoch s y), s, y. auto.
Qed.
Lemma date_cases raw cat : let v := strip raw in
  exists l r, parse_http_date v cat = (l, r) /\ Forall (fun x => exists n, x = ENote n cat [] [] /\ (n = DATE_OBSOLETE \/ n = BAD_DATE_SYNTAX)) l
    /\ ((exists z, r = Ok z /\ moment v z /\ forall z', moment v z' -> z' = z) \/ (r = Err EValue /\ forall z, ~ moment v z)).
Proof.
  intros v. destruct (match_dollar (nocase rfc9110_HTTP_date) v) eqn:E.
  - apply date_match in E. assert (D : date_text v).
    { destruct E as [E|(p & Ep & _)]; [exact E|]. exfalso. assert (C : last_chr v = Some 10) by (rewrite Ep; clear; unfold last_chr; rewrite rev_app_distr; reflexivity). apply strip_last in C. discriminate C. }
    destruct (date_moment v D) as [z Hz]. destruct (moment_parses v z cat Hz) as (l & El & Fl). exists l, (Ok z). split; [exact El|]. split; [eapply Forall_impl; [|exact Fl]; intros x (n & Ex & En); exists n; auto|].
    left. exists z. split; [reflexivity|]. split; [exact Hz|]. intros z' Hz'. destruct (moment_parses v z' cat Hz') as (l' & El' & _). rewrite El in El'. injection El' as _ Ez. congruence.
  - assert (D : ~ eol date_text v) by (intros D; apply date_match in D; congruence). rewrite (C28_bad v cat D). eexists _, _. split; [reflexivity|]. split; [repeat constructor; eauto|]. right. split; [reflexivity|].
    intros z (s & y & H & _). apply D. left. destruct H as [H|[H|H]]; [left; eauto|right; left; eauto|right; right; eauto].
Qed.
(** ** The lines before a field *)
Lemma ahead_values k x l : x <> k -> match values x (ahead k l) with [] => True | v :: _ => exists more, values x l = v :: more end.
Proof.
  intros N. induction l as [|r l IH]; [exact I|]. cbn [ahead]. destruct (str_eqb (key_of r) k) eqn:E; [exact I|]. unfold values in *. cbn [filter]. destruct (str_eqb (key_of r) x); [cbn [map]; eauto|exact IH].
Qed.
Lemma before_seen x k l : x <> k -> values k l <> [] -> str_in x (before k (fields_in l)) = nonempty (values x (ahead k l)).
Proof.
  intros N Hk. unfold fields_in.
  assert (G : forall l ks, ~ In k ks -> values k l <> [] -> 
     str_in x (before k (fold_left (fun ks0 r => if str_in (key_of r) ks0 then ks0 else ks0 ++ [key_of r]) l ks)) = str_in x ks || nonempty (values x (ahead k l))).
  { clear l Hk. induction l as [|r l IH]; intros ks Hk Hv; [destruct (Hv eq_refl)|]. cbn [fold_left ahead]. destruct (str_eqb (key_of r) k) eqn:E.
    - apply str_eqb_eq in E. rewrite E. assert (Ek : str_in k ks = false) by (destruct (str_in k ks) eqn:C; [apply str_in_In in C; contradiction|reflexivity]). rewrite Ek. cbn [values filter map nonempty]. rewrite orb_false_r.
      assert (T : forall l ks', exists rest, fold_left (fun ks0 r0 => if str_in (key_of r0) ks0 then ks0 else ks0 ++ [key_of r0]) l ks' = ks' ++ rest).
      { clear. induction l as [|r l IH]; intros ks'; cbn [fold_left]; [exists []; symmetry; apply app_nil_r|]. destruct (str_in (key_of r) ks'); [apply IH|]. destruct (IH (ks' ++ [key_of r])) as [rest ->]. exists ([key_of r] ++ rest). rewrite app_assoc. reflexivity. }
      destruct (T l (ks ++ [k])) as [rest ->]. rewrite <- app_assoc. cbn [app]. rewrite before_app by exact Hk. reflexivity.
    - assert (Hv' : values k l <> []) by (unfold values in *; cbn [filter] in Hv; rewrite E in Hv; exact Hv). destruct (str_in (key_of r) ks) eqn:Es.
      + rewrite IH by assumption. unfold values. cbn [filter]. destruct (str_eqb (key_of r) x) eqn:Ex; [|reflexivity]. apply str_eqb_eq in Ex. rewrite Ex in Es. rewrite Es. reflexivity.
      + rewrite IH; [|intros C; apply in_app_or in C as [C|[C|[]]]; [contradiction|rewrite C, str_eqb_refl in E; discriminate]|exact Hv'].
        unfold values. cbn [filter]. assert (A : str_in x (ks ++ [key_of r]) = str_in x ks || str_eqb (key_of r) x).
        { unfold str_in. rewrite existsb_app. cbn [existsb]. rewrite orb_false_r. f_equal. destruct (str_eqb x (key_of r)) eqn:E1; destruct (str_eqb (key_of r) x) eqn:E2; try reflexivity; [apply str_eqb_eq in E1|apply str_eqb_eq in E2]; subst; rewrite str_eqb_refl in *; congruence. }
        rewrite A. destruct (str_eqb (key_of r) x); destruct (str_in x ks); reflexivity. }
  apply (G l [] (fun c => c) Hk).
Qed.

(** ** What the two other fields say *)
Definition age_in (l : list rawline) : Z := match first_line (u "age") l with Some v => match py_int v with Some z => if (z <? 0)%Z then 0%Z else z | None => 0%Z end | None => 0%Z end.
Lemma age_in_ok l : stated_age l (age_in l).
Proof.
  unfold stated_age, age_in, first_line. destruct (values (u "age") l) as [|raw more]; [reflexivity|]. destruct (int_cases raw) as [(z & -> & H & U)|[-> N]]; [|right; split; [intros z H; destruct (N z H)|reflexivity]].
  destruct (z <? 0)%Z eqn:E; [right; split; [intros z' H'; rewrite (U z' H'); lia|reflexivity]|left; split; [exact H|lia]].
Qed.
Definition date_in (k : string) (l : list rawline) : option Z := match first_line (u k) l with Some v => match snd (parse_http_date v None) with Ok z => if (z =? 0)%Z then None else Some z | Err _ => None end | None => None end.
Lemma date_in_ok k l : dated k l (date_in k l).
Proof.
  unfold dated, date_in, first_line. destruct (values (u k) l) as [|raw more]; [reflexivity|]. destruct (date_cases raw None) as (le & r & -> & _ & H). cbn [snd]. destruct H as [(z & -> & H & U)|[-> H]].
  - destruct (z =? 0)%Z eqn:E; [intros z' H'; rewrite (U z' H'); lia|split; [exact H|lia]].
  - intros z Hz. destruct (H z Hz).
Qed.
Lemma clock_ok start : clock_of start (q_truthy start).
Proof. unfold clock_of, q_truthy. destruct start as [q|]; [|reflexivity]. destruct (Qeq_bool q 0) eqn:E; [left; split; [apply Qeq_bool_iff, E|reflexivity]|right; split; [apply Qeq_bool_neq, E|reflexivity]]. Qed.
Lemma age_value e t start base hs ts m' : run_of e t start base hs ts m' -> t <> MRequest -> unpadded (u "age") hs -> values (u "age") hs <> [] -> 
  exists x, value_in false (u "age") m' = Some x /\ (if truthy x then as_int x else Ok 0%Z) = Ok (age_in hs).
Proof.
  intros R Ht U Hv. assert (Hp : processed t (u "age") = true) by (destruct t; try congruence; reflexivity). pose proof (C29_value e t start base hs ts m' false (u "age") (Some 0%Z) R U eq_refl Hp) as V. cbn [section_lines] in V. unfold age_in, first_line.
  destruct (values (u "age") hs) as [|raw more]; [destruct (Hv eq_refl)|]. destruct V as [V1 V2]. destruct (int_cases raw) as [(z & -> & H & Un)|[-> N]].
  - destruct (z <? 0)%Z eqn:E.
    + exists VNone. split; [apply V2; intros z' H' C; cbn in C; rewrite (Un z' H') in C; lia|reflexivity].
    + exists (VInt z). split; [apply V1; split; [exact H|cbn; lia]|]. cbn [truthy as_int]. destruct (z =? 0)%Z eqn:Ez; [assert (z = 0%Z) by lia; subst; reflexivity|reflexivity].
  - exists VNone. split; [apply V2; intros z H; destruct (N z H)|reflexivity].
Qed.
Lemma date_value e t start base hs ts m' : run_of e t start base hs ts m' -> unpadded (u "date") hs -> values (u "date") hs <> [] -> 
  exists x, value_in false (u "date") m' = Some x /\ match date_in "date" hs with Some z => x = VInt z /\ z <> 0%Z | None => truthy x = false end.
Proof.
  intros R U Hv. rewrite (run_value _ _ _ _ _ _ _ false _ R U). unfold date_in, first_line. cbn [section_lines]. destruct (values (u "date") hs) as [|raw more]; [destruct (Hv eq_refl)|]. cbn [nonempty].
  eexists. split; [reflexivity|]. unfold field_value. change (m_type (new_linter t start false false base)) with t. replace (accepted t (u "date")) with true by (destruct t; reflexivity).
  change (find_class (u "date")) with F_date. change (kind_of F_date) with KSingleton. cbv iota. unfold parsed_as. change (parse_of F_date ?c ?h (strip raw)) with (p_date F_date c h (strip raw)). unfold p_date.
  destruct (date_cases raw None) as (l0 & r0 & E0 & _ & H0). rewrite E0. cbn [snd]. destruct (date_cases raw (Some (cat_of F_date))) as (l1 & r1 & E1 & _ & H1). rewrite E1. unfold bind, ret.
  destruct H0 as [(z & -> & Hz & Hu)|[-> Hn]]; destruct H1 as [(z1 & -> & Hz1 & _)|[-> Hn1]]; cbn; try (destruct (Hn _ Hz1)); try (destruct (Hn1 _ Hz)); [|reflexivity].
  rewrite (Hu z1 Hz1). destruct (z =? 0)%Z eqn:Ez; [assert (z = 0%Z) by lia; subst z; reflexivity|split; [reflexivity|lia]].
Qed.

Lemma seen_header e t start base hs ts m' tr k x mi : run_of e t start base hs ts m' -> unpadded x hs -> x <> u k -> values (u k) (section_lines tr hs ts) <> [] ->
  (tr = false -> forall x, strip x = x -> apart_name x hs -> dget x (s_parsed (sec false mi)) = if str_in x (before (u k) (fields_seen hs)) then dget x (s_parsed (sec false m')) else None) ->
  (tr = true -> m_headers mi = m_headers m') ->
  dget x (s_parsed (m_headers mi)) = if nonempty (values x (seen_by k tr hs)) then value_in false x m' else None.
Proof.
  intros R U N Hv H1 H2. destruct (unpadded_apart x hs U) as [Ux Ax]. destruct tr; cbn [seen_by section_lines] in *.
  - rewrite (H2 eq_refl). pose proof (run_value _ _ _ _ _ _ _ false _ R U) as V. cbn [section_lines] in V. unfold value_in in *. cbv iota in V. destruct (nonempty (values x hs)); [reflexivity|exact V].
  - pose proof (H1 eq_refl x Ux Ax) as H3. rewrite fields_eq, before_seen in H3 by assumption. exact H3.
Qed.
Lemma seen_first k tr x hs : x <> u k -> match values x (seen_by k tr hs) with [] => True | v :: _ => exists more, values x hs = v :: more end.
Proof. intros N. destruct tr; cbn [seen_by]; [destruct (values x hs); eauto|apply ahead_values, N]. Qed.
Definition date_field (f : fname) : bool := match f with F_date | F_last_modified | F_sunset => true | _ => false end.
Lemma eval_dates f P c h : date_field f = true -> Forall (direct P) (fst (eval_of f c h)).
Proof.
  destruct f; try discriminate; intros _; unfold eval_of; rewrite keep_fst.
  - unfold ev_date. destruct (q_truthy _); [|constructor]. destruct (_ && _); [|constructor]. destruct (as_int (h_val h)); [|constructor]. rewrite lift_ok. 
    assert (A : match hdr c "age" with Some a => if truthy a then lift (as_int a) else ret 0%Z | None => ret 0%Z end = lift (match hdr c "age" with Some a => if truthy a then as_int a else Ok 0%Z | None => Ok 0%Z end)) by (destruct (hdr c "age") as [x|]; [destruct (truthy x)|]; reflexivity).
    rewrite A. generalize (match hdr c "age" with Some a => if truthy a then as_int a else Ok 0%Z | None => Ok 0%Z end). intros [x|x]; [|constructor]. rewrite lift_ok. cbv zeta. destruct (_ && _); [repeat constructor|]. destruct (_ <? _)%Z; repeat constructor.
  - unfold ev_last_modified. destruct (truthy _); [|constructor]. destruct (as_int (h_val h)); [|constructor]. rewrite lift_ok.
    assert (A : match hdr c "date" with Some a => if truthy a then z <- lift (as_int a) ;; ret (Some (inject_Z z)) else ret (q_truthy (m_start (cx_msg c))) | None => ret (q_truthy (m_start (cx_msg c))) end
              = lift (match hdr c "date" with Some a => if truthy a then rmap (fun z => Some (inject_Z z)) (as_int a) else Ok (q_truthy (m_start (cx_msg c))) | None => Ok (q_truthy (m_start (cx_msg c))) end)).
    { destruct (hdr c "date") as [x|]; [destruct (truthy x); [destruct (as_int x)|]|]; reflexivity. }
    rewrite A. generalize (match hdr c "date" with Some a => if truthy a then rmap (fun z => Some (inject_Z z)) (as_int a) else Ok (q_truthy (m_start (cx_msg c))) | None => Ok (q_truthy (m_start (cx_msg c))) end). intros [[d|]|x]; [| |constructor]; rewrite lift_ok; [destruct (q_gt _ _); repeat constructor|constructor].
  - unfold ev_sunset. destruct (q_truthy _); [|constructor]. destruct (truthy _); [|constructor]. destruct (as_int (h_val h)); [|constructor]. rewrite lift_ok. destruct (q_gt _ _); repeat constructor.
Qed.
Lemma date_heard P ks f k e rel tr m m' raws evs evs' : date_field f = true -> P DATE_OBSOLETE = false -> P BAD_DATE_SYNTAX = false ->
  mine P f -> own_keys ks = true -> find_class k = f -> processed (m_type m) k = true -> field_at e rel tr m m' k raws evs evs' ->
  exists mi, front mi = front m /\ sec (negb tr) mi = sec (negb tr) m
    /\ (values k raws <> [] -> forall x, strip x = x -> apart_name x raws -> dget x (s_parsed (sec tr mi)) = if str_in x (before k (fields_seen raws)) then dget x (s_parsed (sec tr m')) else None)
    /\ exists h, heard P ks (emit (m_type m) [] evs) ++ heard P ks (emit (m_type m) [] evs') =
        match first_line k raws with
        | None => []
        | Some v => match snd (parse_http_date v None) with Ok z => speak P ks (about_field k) (fst (eval_of f (mkCx e mi rel) (h_set_val h (VInt z)))) | Err _ => [] end
        end.
Proof.
  intros Df P1 P2 HP Hks Hk Hpr Rm. assert (Hp : forall c h v, parse_of f c h v = p_date f c h v) by (intros; destruct f; try discriminate Df; reflexivity).
  assert (Dn : forall v, exists l r, p_date f (mkCx e m rel) (new_handler k) (strip v) = (l, r) /\ Forall (fun x => exists n, x = ENote n (Some (cat_of f)) [] [] /\ (n = DATE_OBSOLETE \/ n = BAD_DATE_SYNTAX)) l
      /\ r = match snd (parse_http_date (strip v) None) with Ok z => Ok (VInt z) | Err x => Err x end).
  { intros v. destruct (date_cases v None) as (l0 & r0 & E0 & _ & H0). rewrite E0. cbn [snd]. destruct (date_cases v (Some (cat_of f))) as (l1 & r1 & E1 & F1 & H1). unfold p_date. rewrite E1. unfold bind, ret.
    destruct H0 as [(z & -> & Hz & Hu)|[-> Hn]]; destruct H1 as [(z1 & -> & Hz1 & _)|[-> Hn1]]; try (destruct (Hn _ Hz1)); try (destruct (Hn1 _ Hz)); eexists _, _; (split; [reflexivity|]); rewrite ?app_nil_r; (split; [exact F1|]); [rewrite (Hu z1 Hz1)|]; reflexivity. }
  assert (In_ : In f module_fields) by (destruct f; try discriminate Df; vm_compute; tauto). assert (Ks : kind_of f = KSingleton) by (destruct f; try discriminate Df; reflexivity).
  destruct (single_heard P ks f k e rel tr m m' raws evs evs' HP Hks In_ Hk Ks Hpr) as (mi & A1 & A2 & A3 & h & Hc & A4); [| |exact Rm|].
  - intros c h v. rewrite Hp. unfold p_date, parse_http_date. destruct (negb _); [repeat constructor|]. destruct (match_dollar (nocase rfc9110_obs_date) v); destruct (parsedate v) as [[[[[[? ?] ?] ?] ?] ?]|]; unfold when, tell, ret, bind, lift; try (destruct (timegm _ _ _ _ _ _)); cbn; repeat constructor.
  - intros c h. apply eval_dates, Df.
  - exists mi. repeat (split; [assumption|]). unfold first_line. destruct (values k raws) as [|v more]; [exists h; exact A4|]. cbv zeta in A4. rewrite Hp in A4. destruct (Dn v) as (l & r & E1 & F1 & ->). unfold p_date in E1, A4. rewrite E1 in A4. cbn [fst snd] in A4.
    rewrite speak_app in A4. assert (S0 : speak P ks (about_field k) l = []).
    { clear - F1 P1 P2. induction F1 as [|x l (n & -> & Hn) _ IH]; [reflexivity|]. unfold speak in *. cbn [flat_map utter]. rewrite IH, app_nil_r. destruct Hn as [-> | ->]; [rewrite P1|rewrite P2]; reflexivity. }
    rewrite S0 in A4. cbn [app] in A4. destruct (snd (parse_http_date (strip v) None)) as [z|x]; [|exists h; exact A4]. eexists. exact A4.
Qed.

(** ** The notes *)
Definition date_tale (t : mtype) (now : option Q) (age : Z) (date : option Z) : list tale :=
  match t, now, date with
  | MResponse, Some n, Some d =>
      let n := whole_seconds n in
      if (5 <? age)%Z && (n - d <? 5)%Z then [(AGE_PENALTY, u "field-date field-age", [None])]
      else if (5 <? Z.abs (d + age - n))%Z then [(DATE_INCORRECT, about_field (u "date"), [Some (VRel (inject_Z (d + age - n)) 0 2)])]
      else [(DATE_CORRECT, about_field (u "date"), [None])]
  | _, _, _ => []
  end.
Lemma date_tale_ok t now age date : date_says t now age date (date_tale t now age date).
Proof. unfold date_says, date_tale. destruct t, now as [q|], date as [d|]; try reflexivity. cbv zeta. destruct (_ && _); [reflexivity|]. destruct (_ <? _)%Z; reflexivity. Qed.
Definition modified_tale (now : option Q) (date lm : option Z) : list tale :=
  match lm, match date with Some d => Some (inject_Z d) | None => now end with
  | Some z, Some n => if q_gt (inject_Z z) n then [(LM_FUTURE, about_field (u "last-modified"), [None])] else [(LM_PRESENT, about_field (u "last-modified"), [Some (VRel (inject_Z z) n 1)])]
  | _, _ => []
  end.
Lemma q_gt_cases x y : (q_gt x y = true /\ Qlt y x) \/ (q_gt x y = false /\ Qle x y).
Proof. unfold q_gt. destruct (Qle_bool x y) eqn:E; [right; split; [reflexivity|apply Qle_bool_iff, E]|left; split; [reflexivity|apply Qnot_le_lt; intros C; apply Qle_bool_iff in C; congruence]]. Qed.
Lemma modified_tale_ok now date lm : modified_says now date lm (modified_tale now date lm).
Proof.
  unfold modified_says, modified_tale. destruct lm as [z|]; [|reflexivity]. destruct (match date with Some _ => _ | None => _ end) as [n|]; [|reflexivity].
  destruct (q_gt_cases (inject_Z z) n) as [[-> H]|[-> H]]; [left|right]; split; try exact H; reflexivity.
Qed.
Definition sunset_tale (now : option Q) (sunset : option Z) : list tale :=
  match now, sunset with Some n, Some z => if q_gt n (inject_Z z) then [(SUNSET_PAST, about_field (u "sunset"), [])] else [] | _, _ => [] end.
Lemma sunset_tale_ok now s : sunset_says now s (sunset_tale now s).
Proof. unfold sunset_says, sunset_tale. destruct now as [n|], s as [z|]; try reflexivity. destruct (q_gt_cases n (inject_Z z)) as [[-> H]|[-> H]]; [left|right]; split; try exact H; reflexivity. Qed.
Lemma as_date k l v : first_line (u k) l = Some v -> forall (F : Z -> list tale), F 0%Z = [] ->
  match snd (parse_http_date v None) with Ok z => F z | Err _ => [] end = match date_in k l with Some z => F z | None => [] end.
Proof. intros E F F0. unfold date_in. rewrite E. destruct (snd _) as [z|]; [|reflexivity]. destruct (z =? 0)%Z eqn:Ez; [assert (z = 0%Z) by lia; subst; exact F0|reflexivity]. Qed.
Lemma truthy_int z : truthy (VInt z) = negb (z =? 0)%Z. Proof. destruct z; reflexivity. Qed.
Definition DP : nid -> bool := classes [AGE_PENALTY; DATE_INCORRECT; DATE_CORRECT].
Lemma seen_age e t start base hs ts m' tr mi : run_of e t start base hs ts m' -> t <> MRequest -> unpadded (u "age") hs ->
  dget (u "age") (s_parsed (m_headers mi)) = (if nonempty (values (u "age") (seen_by "date" tr hs)) then value_in false (u "age") m' else None) ->
  match dget (u "age") (s_parsed (m_headers mi)) with Some a => if truthy a then as_int a else Ok 0%Z | None => Ok 0%Z end = Ok (age_in (seen_by "date" tr hs)).
Proof.
  intros R Ht U ->. assert (N : u "age" <> u "date") by discriminate. pose proof (seen_first "date" tr (u "age") hs N) as S. unfold age_in at 1, first_line. destruct (values (u "age") (seen_by "date" tr hs)) as [|v more]; cbn [nonempty]; [reflexivity|].
  destruct S as [more' S]. destruct (age_value e t start base hs ts m' R Ht U) as (x & -> & Hx); [rewrite S; discriminate|]. rewrite Hx. unfold age_in, first_line. rewrite S. reflexivity.
Qed.
Lemma seen_date e t start base hs ts m' tr mi : run_of e t start base hs ts m' -> unpadded (u "date") hs ->
  dget (u "date") (s_parsed (m_headers mi)) = (if nonempty (values (u "date") (seen_by "last-modified" tr hs)) then value_in false (u "date") m' else None) ->
  match dget (u "date") (s_parsed (m_headers mi)) with Some d => if truthy d then z <- lift (as_int d) ;; ret (Some (inject_Z z)) else ret (q_truthy (m_start mi)) | None => ret (q_truthy (m_start mi)) end
  = ret (match date_in "date" (seen_by "last-modified" tr hs) with Some d => Some (inject_Z d) | None => q_truthy (m_start mi) end).
Proof.
  intros R U ->. assert (N : u "date" <> u "last-modified") by discriminate. pose proof (seen_first "last-modified" tr (u "date") hs N) as S. unfold date_in at 1, first_line. destruct (values (u "date") (seen_by "last-modified" tr hs)) as [|v more]; cbn [nonempty]; [reflexivity|].
  destruct S as [more' S]. destruct (date_value e t start base hs ts m' R U) as (x & -> & Hx); [rewrite S; discriminate|]. unfold date_in, first_line in Hx. rewrite S in Hx.
  destruct (match snd (parse_http_date (strip v) None) with Ok _ => _ | Err _ => _ end) as [z|]; [destruct Hx as [-> Hz]|rewrite Hx; reflexivity]. rewrite truthy_int. destruct (z =? 0)%Z eqn:Ez; [lia|reflexivity].
Qed.
Theorem C62_date : forall e rel top headers chunks complete trailers t start nc head base m' rel',
  lint e rel top headers chunks complete trailers (new_linter t start nc head base) = (m', rel', Ok tt) -> unpadded (u "age") headers ->
  exists now rh rt, clock_of start now
    /\ heard (classes [AGE_PENALTY; DATE_INCORRECT; DATE_CORRECT]) [u "clock_skew_string"] (m_notes m') = rh ++ rt
    /\ (exists age date, stated_age (seen_by "date" false headers) age /\ dated "date" headers date /\ date_says t now age date rh)
    /\ (exists age date, stated_age (seen_by "date" true headers) age /\ dated "date" trailers date /\ date_says t now age date rt).
Proof.
  intros e rel top headers chunks complete trailers t start nc head base m' rel' E U.
  exists (q_truthy start), (date_tale t (q_truthy start) (age_in (seen_by "date" false headers)) (date_in "date" headers)), (date_tale t (q_truthy start) (age_in (seen_by "date" true headers)) (date_in "date" trailers)).
  split; [apply clock_ok|]. split; [|split; eexists _, _; (split; [apply age_in_ok|]); (split; [apply date_in_ok|]); apply date_tale_ok].
  assert (HP : mine DP F_date) by (apply mine_b_ok; vm_compute; reflexivity). assert (HQ : quiet DP) by (apply quiet_b_ok; vm_compute; reflexivity). assert (In_ : In F_date module_fields) by (vm_compute; tauto).
  assert (S : forall l, spelled F_date (u "date") l) by (intros l; apply hyphened_spelled; [exact In_|reflexivity|reflexivity|apply unhyphened; reflexivity]).
  destruct (lint_at DP F_date (u "date") e rel top headers chunks complete trailers t start nc head base m' rel' E HP HQ (or_introl eq_refl) eq_refl (S _) (S _)) as (mh & mt & a & a' & b & b' & T1 & T2 & Y1 & Y2 & Hh & R1 & R2 & N).
  destruct (lint_facts _ _ _ _ _ _ _ _ _ _ _ _ _ _ E) as (SM & _). unfold setup in SM. injection SM as TM SM _ _ _.
  assert (R : run_of e t start base headers trailers m') by (exists rel, top, chunks, complete, nc, head, rel'; exact E).
  assert (G : forall tr m evs evs', m_type m = t -> front m = front m' -> (tr = true -> m_headers m = m_headers m') -> field_at e rel tr m m' (u "date") (section_lines tr headers trailers) evs evs' ->
    heard DP [u "clock_skew_string"] (emit (m_type m) [] evs) ++ heard DP [u "clock_skew_string"] (emit (m_type m) [] evs') = date_tale t (q_truthy start) (age_in (seen_by "date" tr headers)) (date_in "date" (section_lines tr headers trailers))).
  { intros tr m evs evs' Tm Fm Hm Rm. assert (Hpr : processed (m_type m) (u "date") = true) by (destruct (m_type m); reflexivity).
    destruct (date_heard DP [u "clock_skew_string"] F_date (u "date") e rel tr m m' _ evs evs' eq_refl eq_refl eq_refl HP eq_refl eq_refl Hpr Rm) as (mi & A1 & A2 & A3 & h & ->).
    destruct (first_line (u "date") (section_lines tr headers trailers)) as [v|] eqn:Ev; [|unfold date_in; rewrite Ev; destruct t, (q_truthy start); reflexivity].
    assert (Hv : values (u "date") (section_lines tr headers trailers) <> []) by (intros C; unfold first_line in Ev; rewrite C in Ev; discriminate Ev).
    assert (Ti : m_type mi = t /\ m_start mi = start).
    { rewrite Fm in A1. split; [apply (f_equal (fun x => match x with (a1, _, _, _, _, _, _) => a1 end)) in A1|apply (f_equal (fun x => match x with (_, a1, _, _, _, _, _) => a1 end)) in A1]; unfold front in A1; cbv beta iota in A1; congruence. }
    destruct Ti as [Ti Si].
    rewrite (as_date "date" _ v Ev (fun z => speak DP [u "clock_skew_string"] (about_field (u "date")) (fst (eval_of F_date (mkCx e mi rel) (h_set_val h (VInt z)))))).
    2: { change (eval_of F_date (mkCx e mi rel) (h_set_val h (VInt 0))) with (keep (h_set_val h (VInt 0)) (ev_date (mkCx e mi rel) (h_set_val h (VInt 0)))). rewrite keep_fst. unfold ev_date. cbn [cx_msg h_val h_set_val]. destruct (q_truthy (m_start mi)); [|reflexivity]. rewrite truthy_int, andb_false_r. reflexivity. }
    pose proof (date_in_ok "date" (section_lines tr headers trailers)) as Dz. unfold dated in Dz. rewrite Ev in Dz. destruct (date_in "date" (section_lines tr headers trailers)) as [z|]; [destruct Dz as [_ Dz]|destruct t, (q_truthy start); reflexivity].
    change (eval_of F_date (mkCx e mi rel) (h_set_val h (VInt z))) with (keep (h_set_val h (VInt z)) (ev_date (mkCx e mi rel) (h_set_val h (VInt z)))). rewrite keep_fst. unfold ev_date. cbn [cx_msg h_val h_set_val]. rewrite Si.
    unfold date_tale. destruct (q_truthy start) as [q|]; [|destruct t; reflexivity]. unfold is_response. cbn [cx_msg]. rewrite Ti, truthy_int. replace (z =? 0)%Z with false by lia.
    destruct t; [reflexivity| |reflexivity]. cbn [negb andb as_int]. rewrite lift_ok. unfold hdr. cbn [cx_msg].
    assert (X : dget (u "age") (s_parsed (m_headers mi)) = if nonempty (values (u "age") (seen_by "date" tr headers)) then value_in false (u "age") m' else None).
    { apply (seen_header e MResponse start base headers trailers m' tr "date" (u "age") mi R U); [discriminate|exact Hv| |].
      - intros ->. apply A3, Hv.
      - intros ->. rewrite <- (Hm eq_refl). exact (f_equal (fun x => x) A2). }
    pose proof (seen_age e MResponse start base headers trailers m' tr mi R ltac:(discriminate) U X) as Y. change (u "age") with (u "age") in Y.
    replace (match dget (u "age") (s_parsed (m_headers mi)) with Some a0 => if truthy a0 then lift (as_int a0) else ret 0%Z | None => ret 0%Z end) with (lift (Ok (age_in (seen_by "date" tr headers)))) by (rewrite <- Y; destruct (dget (u "age") (s_parsed (m_headers mi))) as [x|]; [destruct (truthy x)|]; reflexivity).
    rewrite lift_ok. cbv zeta. set (ag := age_in _). unfold q_trunc. fold (whole_seconds q). set (nn := whole_seconds q). unfold max_clock_skew.
    replace (ag - (z - nn + ag))%Z with (nn - z)%Z by lia. replace (z - nn + ag)%Z with (z + ag - nn)%Z by lia.
    destruct (_ && _); [reflexivity|]. destruct (5 <? Z.abs (z + ag - nn))%Z; reflexivity. }
  change (classes [AGE_PENALTY; DATE_INCORRECT; DATE_CORRECT]) with DP. rewrite heard_sel, N, !map_app, <- !heard_sel. f_equal.
  - rewrite <- T1 at 1 2. apply (G false mh a a' T1 Y1); [discriminate|exact R1].
  - rewrite <- T2 at 1 2. apply (G true mt b b' T2 Y2); [intros _; exact Hh|exact R2].
Qed.
Print Assumptions C62_date.
Definition LP : nid -> bool := classes [LM_FUTURE; LM_PRESENT].
Theorem C62_last_modified : forall e rel top headers chunks complete trailers t start nc head base m' rel',
  lint e rel top headers chunks complete trailers (new_linter t start nc head base) = (m', rel', Ok tt) -> t <> MRequest -> unpadded (u "date") headers ->
  hyphened (u "last-modified") headers -> hyphened (u "last-modified") trailers ->
  exists now rh rt, clock_of start now
    /\ heard (classes [LM_FUTURE; LM_PRESENT]) [u "last_modified_string"] (m_notes m') = rh ++ rt
    /\ (exists date lm, dated "date" (seen_by "last-modified" false headers) date /\ dated "last-modified" headers lm /\ modified_says now date lm rh)
    /\ (exists date lm, dated "date" (seen_by "last-modified" true headers) date /\ dated "last-modified" trailers lm /\ modified_says now date lm rt).
Proof.
  intros e rel top headers chunks complete trailers t start nc head base m' rel' E Ht U S1 S2.
  exists (q_truthy start), (modified_tale (q_truthy start) (date_in "date" (seen_by "last-modified" false headers)) (date_in "last-modified" headers)), (modified_tale (q_truthy start) (date_in "date" (seen_by "last-modified" true headers)) (date_in "last-modified" trailers)).
  split; [apply clock_ok|]. split; [|split; eexists _, _; (split; [apply date_in_ok|]); (split; [apply date_in_ok|]); apply modified_tale_ok].
  set (f := F_last_modified). set (k := u "last-modified"). assert (HP : mine LP f) by (apply mine_b_ok; vm_compute; reflexivity). assert (HQ : quiet LP) by (apply quiet_b_ok; vm_compute; reflexivity). assert (In_ : In f module_fields) by (vm_compute; tauto).
  destruct (lint_at LP f k e rel top headers chunks complete trailers t start nc head base m' rel' E HP HQ (or_introl eq_refl) eq_refl (hyphened_spelled f k _ In_ eq_refl eq_refl S1) (hyphened_spelled f k _ In_ eq_refl eq_refl S2)) as (mh & mt & a & a' & b & b' & T1 & T2 & Y1 & Y2 & Hh & R1 & R2 & N).
  destruct (lint_facts _ _ _ _ _ _ _ _ _ _ _ _ _ _ E) as (SM & _). unfold setup in SM. injection SM as TM SM _ _ _.
  assert (R : run_of e t start base headers trailers m') by (exists rel, top, chunks, complete, nc, head, rel'; exact E).
  assert (G : forall tr m evs evs', m_type m = t -> front m = front m' -> (tr = true -> m_headers m = m_headers m') -> field_at e rel tr m m' k (section_lines tr headers trailers) evs evs' ->
    heard LP [u "last_modified_string"] (emit (m_type m) [] evs) ++ heard LP [u "last_modified_string"] (emit (m_type m) [] evs') = modified_tale (q_truthy start) (date_in "date" (seen_by "last-modified" tr headers)) (date_in "last-modified" (section_lines tr headers trailers))).
  { intros tr m evs evs' Tm Fm Hm Rm. assert (Hpr : processed (m_type m) k = true) by (rewrite Tm; destruct t; try congruence; reflexivity).
    destruct (date_heard LP [u "last_modified_string"] f k e rel tr m m' _ evs evs' eq_refl eq_refl eq_refl HP eq_refl eq_refl Hpr Rm) as (mi & A1 & A2 & A3 & h & ->).
    destruct (first_line k (section_lines tr headers trailers)) as [v|] eqn:Ev; [|unfold date_in at 2; change (u "last-modified") with k; rewrite Ev; reflexivity].
    assert (Hv : values k (section_lines tr headers trailers) <> []) by (intros C; unfold first_line in Ev; rewrite C in Ev; discriminate Ev).
    assert (Ti : m_type mi = t /\ m_start mi = start).
    { rewrite Fm in A1. split; [apply (f_equal (fun x => match x with (a1, _, _, _, _, _, _) => a1 end)) in A1|apply (f_equal (fun x => match x with (_, a1, _, _, _, _, _) => a1 end)) in A1]; unfold front in A1; cbv beta iota in A1; congruence. }
    destruct Ti as [Ti Si].
    rewrite (as_date "last-modified" _ v Ev (fun z => speak LP [u "last_modified_string"] (about_field k) (fst (eval_of f (mkCx e mi rel) (h_set_val h (VInt z)))))) by reflexivity.
    pose proof (date_in_ok "last-modified" (section_lines tr headers trailers)) as Dz. unfold dated in Dz. change (u "last-modified") with k in Dz. rewrite Ev in Dz. destruct (date_in "last-modified" (section_lines tr headers trailers)) as [z|]; [destruct Dz as [_ Dz]|reflexivity].
    change (eval_of f (mkCx e mi rel) (h_set_val h (VInt z))) with (keep (h_set_val h (VInt z)) (ev_last_modified (mkCx e mi rel) (h_set_val h (VInt z)))). rewrite keep_fst. unfold ev_last_modified. cbn [cx_msg h_val h_set_val]. rewrite truthy_int. replace (z =? 0)%Z with false by lia.
    cbn [negb as_int]. rewrite lift_ok. unfold hdr. cbn [cx_msg].
    assert (X : dget (u "date") (s_parsed (m_headers mi)) = if nonempty (values (u "date") (seen_by "last-modified" tr headers)) then value_in false (u "date") m' else None).
    { apply (seen_header e t start base headers trailers m' tr "last-modified" (u "date") mi R U); [discriminate|exact Hv| |].
      - intros ->. apply A3, Hv.
      - intros ->. rewrite <- (Hm eq_refl). exact (f_equal (fun x => x) A2). }
    rewrite (seen_date e t start base headers trailers m' tr mi R U X), Si. unfold modified_tale. set (sd := match date_in "date" _ with Some _ => _ | None => _ end).
    unfold bind, ret. destruct sd as [d|]; [|reflexivity]. destruct (q_gt (inject_Z z) d); reflexivity. }
  change (classes [LM_FUTURE; LM_PRESENT]) with LP. rewrite heard_sel, N, !map_app, <- !heard_sel. f_equal.
  - rewrite <- T1 at 1 2. apply (G false mh a a' T1 Y1); [discriminate|exact R1].
  - rewrite <- T2 at 1 2. apply (G true mt b b' T2 Y2); [intros _; exact Hh|exact R2].
Qed.
Print Assumptions C62_last_modified.
Definition SP : nid -> bool := classes [SUNSET_PAST].
Theorem C62_sunset : forall e rel top headers chunks complete trailers t start nc head base m' rel',
  lint e rel top headers chunks complete trailers (new_linter t start nc head base) = (m', rel', Ok tt) -> t <> MRequest ->
  exists now rh rt, clock_of start now
    /\ heard (classes [SUNSET_PAST]) [] (m_notes m') = rh ++ rt
    /\ (exists sunset, dated "sunset" headers sunset /\ sunset_says now sunset rh)
    /\ (exists sunset, dated "sunset" trailers sunset /\ sunset_says now sunset rt).
Proof.
  intros e rel top headers chunks complete trailers t start nc head base m' rel' E Ht.
  exists (q_truthy start), (sunset_tale (q_truthy start) (date_in "sunset" headers)), (sunset_tale (q_truthy start) (date_in "sunset" trailers)).
  split; [apply clock_ok|]. split; [|split; eexists; (split; [apply date_in_ok|]); apply sunset_tale_ok].
  set (f := F_sunset). set (k := u "sunset"). assert (HP : mine SP f) by (apply mine_b_ok; vm_compute; reflexivity). assert (HQ : quiet SP) by (apply quiet_b_ok; vm_compute; reflexivity). assert (In_ : In f module_fields) by (vm_compute; tauto).
  assert (S : forall l, spelled f k l) by (intros l; apply hyphened_spelled; [exact In_|reflexivity|reflexivity|apply unhyphened; reflexivity]).
  destruct (lint_at SP f k e rel top headers chunks complete trailers t start nc head base m' rel' E HP HQ (or_introl eq_refl) eq_refl (S _) (S _)) as (mh & mt & a & a' & b & b' & T1 & T2 & Y1 & Y2 & Hh & R1 & R2 & N).
  destruct (lint_facts _ _ _ _ _ _ _ _ _ _ _ _ _ _ E) as (SM & _). unfold setup in SM. injection SM as TM SM _ _ _.
  assert (G : forall tr m raws evs evs', m_type m = t -> front m = front m' -> field_at e rel tr m m' k raws evs evs' ->
    heard SP [] (emit (m_type m) [] evs) ++ heard SP [] (emit (m_type m) [] evs') = sunset_tale (q_truthy start) (date_in "sunset" raws)).
  { intros tr m raws evs evs' Tm Fm Rm. assert (Hpr : processed (m_type m) k = true) by (rewrite Tm; destruct t; try congruence; reflexivity).
    destruct (date_heard SP [] f k e rel tr m m' _ evs evs' eq_refl eq_refl eq_refl HP eq_refl eq_refl Hpr Rm) as (mi & A1 & _ & _ & h & ->).
    destruct (first_line k raws) as [v|] eqn:Ev; [|unfold date_in; change (u "sunset") with k; rewrite Ev; destruct (q_truthy start); reflexivity].
    assert (Si : m_start mi = start) by (rewrite Fm in A1; apply (f_equal (fun x => match x with (_, a1, _, _, _, _, _) => a1 end)) in A1; unfold front in A1; cbv beta iota in A1; congruence).
    assert (Ez : forall z, eval_of f (mkCx e mi rel) (h_set_val h (VInt z)) = keep (h_set_val h (VInt z)) (ev_sunset (mkCx e mi rel) (h_set_val h (VInt z)))) by reflexivity.
    rewrite (as_date "sunset" _ v Ev (fun z => speak SP [] (about_field k) (fst (eval_of f (mkCx e mi rel) (h_set_val h (VInt z)))))).
    2: { rewrite Ez, keep_fst. unfold ev_sunset. cbn [cx_msg h_val h_set_val]. destruct (q_truthy (m_start mi)); reflexivity. }
    pose proof (date_in_ok "sunset" raws) as Dz. unfold dated in Dz. change (u "sunset") with k in Dz. rewrite Ev in Dz. unfold sunset_tale. destruct (date_in "sunset" raws) as [z|]; [destruct Dz as [_ Dz]|destruct (q_truthy start); reflexivity].
    rewrite Ez, keep_fst. unfold ev_sunset. cbn [cx_msg h_val h_set_val]. rewrite Si. destruct (q_truthy start) as [q|]; [|reflexivity]. rewrite truthy_int. replace (z =? 0)%Z with false by lia. cbn [negb as_int]. rewrite lift_ok.
    destruct (q_gt q (inject_Z z)); reflexivity. }
  change (classes [SUNSET_PAST]) with SP. rewrite heard_sel, N, !map_app, <- !heard_sel. f_equal.
  - rewrite <- T1 at 1 2. apply (G false mh _ a a' T1 Y1 R1).
  - rewrite <- T2 at 1 2. apply (G true mt _ b b' T2 Y2 R2).
Qed.
Print Assumptions C62_sunset.
(** The relations of the specification have one answer. *)
Lemma moment_one raw z z' : moment (strip raw) z -> moment (strip raw) z' -> z = z'.
Proof. intros H H'. destruct (date_cases raw None) as (l & r & _ & _ & [(z0 & _ & _ & U)|[_ N]]); [rewrite (U _ H), (U _ H'); reflexivity|destruct (N _ H)]. Qed.
Theorem C62_dated_one : forall k l o o', dated k l o -> dated k l o' -> o = o'.
Proof.
  intros k l o o'. unfold dated, first_line. destruct (values (u k) l) as [|raw more]; [congruence|]. destruct o as [z|], o' as [z'|]; intros H H'; auto.
  - f_equal. apply (moment_one raw); [apply H|apply H'].
  - destruct H as [H N]. destruct (N (H' z H)).
  - destruct H' as [H' N]. destruct (N (H z' H')).
Qed.
Theorem C62_age_one : forall l a a', stated_age l a -> stated_age l a' -> a = a'.
Proof.
  intros l a a'. unfold stated_age, first_line. destruct (values (u "age") l) as [|raw more]; [congruence|]. destruct (int_cases raw) as [(z & _ & _ & U)|[_ N]].
  - intros [[H H1]|[H H1]] [[H' H2]|[H' H2]]; [rewrite (U _ H), (U _ H'); reflexivity|specialize (H' _ H); lia|specialize (H _ H'); lia|congruence].
  - intros [[H H1]|[H H1]] [[H' H2]|[H' H2]]; [destruct (N _ H)|destruct (N _ H)|destruct (N _ H')|congruence].
Qed.
(** ** Examples: the order of the lines decides *)
Definition clock_notes (hs : list rawline) := let '(m, _, r) := lint env0 None (TopResponse (u "1.1") (u "200") None) hs [] true [] (new_linter MResponse (Some (inject_Z 784111777)) false false []) in
  (r, heard (classes [AGE_PENALTY; DATE_INCORRECT; DATE_CORRECT; LM_FUTURE; LM_PRESENT; SUNSET_PAST]) [u "clock_skew_string"; u "last_modified_string"] (m_notes m)).
Definition age_line : rawline := hd ([], []) (raws [("Age", "30")]%string).
Definition date_line : rawline := hd ([], []) (raws [("Date", "Sun, 06 Nov 1994 08:49:07 GMT")]%string).
Definition lm_line : rawline := hd ([], []) (raws [("Last-Modified", "Sunday, 06-Nov-94 08:49:20 GMT")]%string).
Definition sunset_line : rawline := hd ([], []) (raws [("Sunset", "Sun Nov  6 08:49:36 1994")]%string).
Example C62_ex : clock_notes [age_line; date_line; lm_line; sunset_line] =
  (Ok tt, [(DATE_CORRECT, u "field-date", [None; None]); (LM_FUTURE, u "field-last-modified", [None; None]); (SUNSET_PAST, u "field-sunset", [None; None])]).
Proof. vm_compute. reflexivity. Qed.
(** The same lines in another order. *)
Example C62_ex_order : clock_notes [lm_line; date_line; age_line] =
  (Ok tt, [(LM_PRESENT, u "field-last-modified", [None; Some (VRel (inject_Z 784111760) (inject_Z 784111777) 1)]); (DATE_INCORRECT, u "field-date", [Some (VRel (inject_Z (-30)) 0 2); None])]).
Proof. vm_compute. reflexivity. Qed.
Example C62_ex_hyps : unpadded (u "age") [age_line; date_line; lm_line] /\ unpadded (u "date") [age_line; date_line; lm_line] /\ hyphened (u "last-modified") [age_line; date_line; lm_line]
  /\ moment (u "Sun, 06 Nov 1994 08:49:07 GMT") 784111747.
Proof.
  split; [|split; [|split]]; [split; try reflexivity; repeat constructor; vm_compute; intros H; try discriminate H; reflexivity..|repeat constructor; vm_compute; intros H; try discriminate H; reflexivity|].
  exists (mkStamp (u "06") 11 (u "1994") (u "08") (u "49") (u "07")), 1994%nat. split; [left; exists (u "Sun"), (u "Nov"), (u "GMT"); vm_compute; repeat split; first [tauto|lia]|split; vm_compute; reflexivity].
Qed.
