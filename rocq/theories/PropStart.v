(** * C46: Origin, Location, Referer, Expect and Max-Forwards. *)
From Coq Require Import Lia ZifyBool ZifyN.
From Verif Require Import PyStr Regex Grammar NoteTable Note PyLib Utils FieldAttrs Types Fields1 Fields2 Fields3 Framework Checks Message
  EvLogic TestEnv LexLemmas NumLemmas DateLemmas Session SessionLemmas SecNotes SecValues LintLemmas FieldSpec PropFields PropValues PropNames PropParse PropTop PropCli OwnLemmas ListSpec PropLists PropCC ListExamples FieldExamples
  PropInts FieldDue OwnTac RangeSpec PropRange OriginSpec PropStatus.
Open Scope N_scope.

(** ** Characters that a grammar never uses *)
Fixpoint never (c : N) (r : re) : bool :=
  match r with
  | Eps => true
  | Chr f => negb (f c)
  | NChr f => f c
  | Seq a b | Alt a b => never c a && never c b
  | Star a => never c a
  end.
Lemma never_in c r : never c r = true -> forall s, lang r s -> ~ In c s.
Proof.
  induction r as [|f|f|a IHa b IHb|a IHa b IHb|a IH]; cbn [never]; intros H s L.
  - apply lang_eps in L. subst. intros [].
  - apply lang_chr in L as (x & -> & Hx). intros [->|[]]. rewrite Hx in H. discriminate.
  - apply lang_nchr in L as (x & -> & Hx). intros [->|[]]. congruence.
  - apply andb_prop in H as [H1 H2]. apply lang_seq in L as (x & y & -> & Lx & Ly). intros Hi. apply in_app_or in Hi as [Hi|Hi]; [exact (IHa H1 _ Lx Hi)|exact (IHb H2 _ Ly Hi)].
  - apply andb_prop in H as [H1 H2]. apply lang_alt in L as [L|L]; [exact (IHa H1 _ L)|exact (IHb H2 _ L)].
  - apply lang_star_concat in L as (l & -> & F). intros Hi. apply in_concat in Hi as (x & Hx & Hi). rewrite Forall_forall in F. exact (IH H _ (F x Hx) Hi).
Qed.
Lemma scheme_never s : lang rfc3986_scheme s -> ~ In 58 s /\ ~ In 10 s.
Proof. intros L. split; [apply (never_in 58 rfc3986_scheme) with (2 := L)|apply (never_in 10 rfc3986_scheme) with (2 := L)]; vm_compute; reflexivity. Qed.
Lemma port_never s : lang rfc3986_port s -> ~ In 10 s.
Proof. intros L. apply (never_in 10 rfc3986_port) with (2 := L). vm_compute. reflexivity. Qed.
Lemma host_never s : lang rfc3986_host s -> ~ In 10 s.
Proof. intros L. apply (never_in 10 rfc3986_host) with (2 := L). vm_compute. reflexivity. Qed.
(** A host is in brackets, with none inside, or has neither brackets nor colons. *)
Lemma host_shape s : lang rfc3986_host s -> (exists x, s = 91 :: x ++ [93] /\ ~ In 93 x) \/ (~ In 58 s /\ ~ In 91 s).
Proof.
  unfold rfc3986_host. cbn [alts]. rewrite lang_alt. intros [L|L].
  - left. unfold rfc3986_IP_literal in L. cbn [seqs] in L. apply lang_seq in L as (a & y & -> & La & L). apply lang_seq in L as (x & b & -> & Lx & Lb).
    apply lang_chr in La as (c & -> & Hc). apply lang_chr in Lb as (d & -> & Hd). exists x. assert (c = 91) by lia. assert (d = 93) by lia. subst. split; [reflexivity|].
    apply (never_in 93 (alts [rfc3986_IPv6address; rfc3986_IPvFuture])) with (2 := Lx). vm_compute. reflexivity.
  - right. assert (L' : lang (Alt rfc3986_IPv4address rfc3986_reg_name) s) by exact L.
    split; [apply (never_in 58 (Alt rfc3986_IPv4address rfc3986_reg_name)) with (2 := L')|apply (never_in 91 (Alt rfc3986_IPv4address rfc3986_reg_name)) with (2 := L')]; vm_compute; reflexivity.
Qed.
Lemma origin_lang s : lang serialized_origin_re s <-> exists sch host port, lang rfc3986_scheme sch /\ lang rfc3986_host host /\ (match port with Some p => lang rfc3986_port p | None => True end)
  /\ s = sch ++ u "://" ++ host ++ match port with Some p => 58 :: p | None => [] end.
Proof.
  unfold serialized_origin_re. cbn [seqs]. rewrite lang_seq. split.
  - intros (sch & y & -> & L1 & L). apply lang_seq in L as (sep & y2 & -> & L2 & L). apply lang_lit in L2 as ->. apply lang_seq in L as (host & y3 & -> & L3 & L).
    apply lang_opt in L as [->|L]; [exists sch, host, None; auto|]. apply lang_seq in L as (c & p & -> & L4 & L5). apply lang_chr in L4 as (x & -> & Hx). assert (x = 58) by lia. subst.
    exists sch, host, (Some p). auto.
  - intros (sch & host & port & L1 & L2 & L3 & ->). exists sch. eexists. split; [reflexivity|]. split; [exact L1|]. apply lang_seq. eexists _, _. split; [reflexivity|]. split; [apply lang_lit; reflexivity|].
    apply lang_seq. eexists _, _. split; [reflexivity|]. split; [exact L2|]. apply lang_opt. destruct port as [p|]; [right|left; reflexivity].
    apply lang_seq. exists [58], p. split; [reflexivity|]. split; [apply lang_chr; exists 58; auto|exact L3].
Qed.
Lemma origin_match o : match_dollar serialized_origin_re o = true <-> exists sch host port, origin_text o sch host port.
Proof.
  rewrite match_dollar_spec. unfold origin_text. split.
  - intros [L|(p & -> & L)]; apply origin_lang in L as (sch & host & port & L1 & L2 & L3 & ->); exists sch, host, port; (split; [exact L1|]; split; [exact L2|]; split; [exact L3|]).
    + exists []. split; [auto|]. rewrite app_nil_r. reflexivity.
    + exists [10]. split; [auto|]. rewrite <- !app_assoc. reflexivity.
  - intros (sch & host & port & L1 & L2 & L3 & eol & [->| ->] & ->).
    + left. apply origin_lang. exists sch, host, port. rewrite app_nil_r. auto.
    + right. exists (sch ++ u "://" ++ host ++ match port with Some p => 58 :: p | None => [] end). split; [rewrite <- !app_assoc; reflexivity|]. apply origin_lang. exists sch, host, port. auto.
Qed.
Lemma split1_app c a b : ~ In c a -> split1 c (a ++ c :: b) = Some (a, b).
Proof. intros H. apply split1_spec. auto. Qed.
(** The model reads the groups of the match off the text: it finds those of every possible match. *)
Theorem C46_origin_groups : forall o sch host port, origin_text o sch host port -> origin_groups o = (sch, host, match port with Some p => p | None => [] end).
Proof.
  intros o sch host port (L1 & L2 & L3 & eol & He & ->). set (tl := match port with Some p => 58 :: p | None => [] end).
  assert (Et : ~ In 10 (sch ++ u "://" ++ host ++ tl)).
  { intros Hi. apply in_app_or in Hi as [Hi|Hi]; [exact (proj2 (scheme_never _ L1) Hi)|]. apply in_app_or in Hi as [Hi|Hi]; [cbn in Hi; intuition discriminate|].
    apply in_app_or in Hi as [Hi|Hi]; [exact (host_never _ L2 Hi)|]. subst tl. destruct port as [p|]; [|destruct Hi]. destruct Hi as [Hi|Hi]; [discriminate|exact (port_never _ L3 Hi)]. }
  unfold origin_groups. set (s := match last_chr _ with Some 10 => _ | _ => _ end).
  assert (Es : s = sch ++ u "://" ++ host ++ tl).
  { subst s. destruct He as [->| ->].
    - rewrite app_nil_r. destruct (last_chr (sch ++ u "://" ++ host ++ tl)) as [c|] eqn:El; [|reflexivity]. destruct (N.eq_dec c 10) as [->|Hc].
      + exfalso. apply Et. unfold last_chr in El. apply in_rev. destruct (rev _) as [|x r]; [discriminate|]. injection El as ->. left. reflexivity.
      + destruct c as [|p]; [reflexivity|]. repeat (destruct p as [p|p|]; try reflexivity). congruence.
    - rewrite !app_assoc, last_app, removelast_last, <- !app_assoc. reflexivity. }
  clearbody s. subst s. change (u "://") with ([58] ++ [47; 47]). rewrite <- app_assoc. cbn [app]. rewrite split1_app by apply (scheme_never _ L1). cbn [skipn].
  destruct (host_shape _ L2) as [(x & -> & Hx)|[H1 H2]].
  - cbn [app]. rewrite <- app_assoc. cbn [app]. change (91 :: x ++ 93 :: tl) with ((91 :: x) ++ 93 :: tl). rewrite (split1_app 93 (91 :: x)) by (intros [Hi|Hi]; [discriminate|exact (Hx Hi)]). cbn [app]. f_equal. subst tl. destruct port; reflexivity.
  - assert (Split : split1 58 (host ++ tl) = match port with Some p => Some (host, p) | None => None end).
    { subst tl. destruct port as [p|]; [apply split1_app, H1|]. apply split1_none. rewrite app_nil_r. exact H1. }
    rewrite Split. assert (No : forall A (a b : A), match host ++ tl with 91 :: _ => a | _ => b end = b).
    { intros A a b. destruct (host ++ tl) as [|c r] eqn:E; [reflexivity|]. destruct (N.eq_dec c 91) as [->|Hc].
      - exfalso. destruct host as [|h0 h1]; [|injection E as -> _; apply H2; left; reflexivity]. subst tl. destruct port; cbn in E; [injection E as E _|]; discriminate.
      - destruct c as [|p]; [reflexivity|]. repeat (destruct p as [p|p|]; try reflexivity). congruence. }
    rewrite No. destruct port; subst tl; rewrite ?app_nil_r; reflexivity.
Qed.
Print Assumptions C46_origin_groups.

(** ** Origin *)
Lemma port_int p : lang rfc3986_port p -> p = [] \/ digit_like p.
Proof.
  intros L. destruct p as [|c p]; [auto|right]. split; [discriminate|]. assert (F : forallb is_digit (c :: p) = true).
  { unfold rfc3986_port, rfc5234_DIGIT, cls in L. apply lang_star_chr in L. rewrite forallb_forall in *. intros x Hx. specialize (L x Hx). unfold is_digit. cbn in L. lia. }
  apply Forall_forall. intros x Hx. rewrite forallb_forall in F. specialize (F x Hx). unfold is_digit in F. lia.
Qed.
Lemma first_split v : exists o rest, split_all 32 v = o :: rest /\ first_word v o /\ (Nat.ltb 1 (length (split_all 32 v)) = true <-> In 32 v).
Proof.
  destruct (split1 32 v) as [[a b]|] eqn:E.
  - apply split1_cut in E. destruct E as [E1 E2]. exists a, (split_all 32 b). assert (S : split_all 32 v = a :: split_all 32 b) by (rewrite E1; apply split_all_cut, E2).
    split; [exact S|]. split; [right; exists b; split; assumption|]. rewrite S. split; [intros _; rewrite E1; apply in_or_app; right; left; reflexivity|].
    intros _. pose proof (split_all_ne 32 b). destruct (split_all 32 b); [congruence|reflexivity].
  - apply split1_none in E. exists v, []. rewrite (split_all_last 32 v E). split; [reflexivity|]. split; [left; auto|]. split; [discriminate|intros Hi; destruct (E Hi)].
Qed.
Definition origin_val (o : option (str * str * option Z)) : pyval := match o with Some (sch, host, port) => VOrigin sch host port | None => VNone end.
Lemma origin_does c h v : exists l o, origin_of v l o
  /\ does (p_origin c h v) l (match o with Some _ => Ok (origin_val o) | None => if str_eqb v (u "null") then Ok VNone else Err EValue end).
Proof.
  unfold p_origin. destruct (str_eqb v (u "null")) eqn:En; [apply str_eqb_eq in En; subst; exists [], None; split; [constructor|apply does_ret]|].
  assert (Hn : v <> u "null") by (intros ->; rewrite str_eqb_refl in En; discriminate). cbv zeta.
  destruct (first_split v) as (o & rest & S & F & I). set (several := Nat.ltb 1 (length (split_all 32 v))) in *.
  replace (hd [] (split_all 32 v)) with o by (rewrite S; reflexivity). destruct (match_dollar serialized_origin_re o) eqn:M.
  - apply origin_match in M as (sch & host & port & M). rewrite (C46_origin_groups _ _ _ _ M).
    assert (X : (exists z, port_number port z /\ does (if nonempty (match port with Some p => p | None => [] end) then z <- lift (int_of (match port with Some p => p | None => [] end)) ;; ret (Some z) else ret None) [] (Ok z))
      \/ ((forall z, ~ port_number port z) /\ does (if nonempty (match port with Some p => p | None => [] end) then z <- lift (int_of (match port with Some p => p | None => [] end)) ;; ret (Some z) else ret None) [] (Err EValue))).
    { destruct port as [[|p0 p]|]; [left; exists None; split; [reflexivity|apply does_ret]| |left; exists None; split; [reflexivity|apply does_ret]].
      cbn [nonempty]. destruct M as (_ & _ & M & _). destruct (port_int _ M) as [D|D]; [discriminate|]. destruct (like_int _ D) as [(z & Hz & ->)|(G & ->)].
      - left. exists (Some z). split; [exists z; auto|apply does_ret].
      - right. split; [|apply does_err, does_lift]. intros z (x & Hx & _). exact (given_numeral _ _ G Hx). }
    destruct X as [(z & Hz & D)|(Hz & D)].
    + exists (only several ORIGIN_MULTIPLE_VALUES), (Some (lower sch, lower host, z)). split; [apply (origin_ok v o several sch host port z Hn F I M Hz)|].
      rewrite <- (app_nil_r (only _ _)). eapply does_bind; [apply does_when|]. apply (does_bind _ _ [] z [] _ D). apply does_ret.
    + exists (only several ORIGIN_MULTIPLE_VALUES), None. split; [apply (origin_long v o several sch host port Hn F I M Hz)|].
      rewrite <- (app_nil_r (only _ _)). eapply does_bind; [apply does_when|]. apply does_err, D.
  - exists (only several ORIGIN_MULTIPLE_VALUES ++ [BAD_ORIGIN_SYNTAX]), None. split.
    + apply (origin_bad v o several Hn F I). intros sch host port H. assert (match_dollar serialized_origin_re o = true) by (apply origin_match; eauto). congruence.
    + eapply does_bind; [apply does_when|]. apply does_note_then, does_raise.
Qed.
Lemma first_word_fun v o o' : first_word v o -> first_word v o' -> o = o'.
Proof.
  intros [[-> H]|(r & H)] [[-> H']|(r' & H')]; [reflexivity| | |apply (cut_fun _ _ _ _ _ _ H H')].
  - destruct (H (cut_in _ _ _ _ H')).
  - destruct (H' (cut_in _ _ _ _ H)).
Qed.
Lemma origin_text_fun o sch host port sch' host' port' : origin_text o sch host port -> origin_text o sch' host' port' ->
  sch = sch' /\ host = host' /\ forall z, port_number port z <-> port_number port' z.
Proof.
  intros H H'. apply C46_origin_groups in H. apply C46_origin_groups in H'. rewrite H in H'. injection H' as -> -> Hp. split; [reflexivity|]. split; [reflexivity|]. intros z.
  destruct port as [[|c p]|], port' as [[|c' p']|]; try discriminate Hp; try reflexivity. injection Hp as -> ->. reflexivity.
Qed.
Lemma port_fun port z z' : port_number port z -> port_number port z' -> z = z'.
Proof. destruct port as [[|c p]|]; cbn [port_number]; try congruence. intros (x & Hx & ->) (y & Hy & ->). rewrite (numeral_fun _ _ _ Hx Hy). reflexivity. Qed.
Lemma several_fun (a b : bool) (P : Prop) : (a = true <-> P) -> (b = true <-> P) -> a = b.
Proof. destruct a, b; intuition congruence. Qed.
Theorem C46_origin_rules : forall v l o l' o', origin_of v l o -> origin_of v l' o' -> l = l' /\ o = o'.
Proof.
  intros v l o l' o' H H'. destruct H; inversion H'; subst; clear H'; try congruence; auto;
    repeat match goal with
      | A : first_word ?v _, B : first_word ?v _ |- _ => let X := fresh in pose proof (first_word_fun _ _ _ A B) as X; clear B; subst
      | A : ?a = true <-> In 32 ?v, B : ?b = true <-> In 32 ?v |- _ => let X := fresh in pose proof (several_fun _ _ _ A B) as X; clear B; subst
      end; auto;
    try match goal with A : forall _ _ _, ~ origin_text _ _ _ _, B : origin_text _ _ _ _ |- _ => destruct (A _ _ _ B) end;
    match goal with A : origin_text _ _ _ _, B : origin_text _ _ _ _ |- _ => destruct (origin_text_fun _ _ _ _ _ _ _ A B) as (Xs & Xh & Xp); subst end;
    try match goal with A : forall _, ~ port_number _ _, B : port_number _ _ |- _ => first [destruct (A _ (proj1 (Xp _) B))|destruct (A _ (proj2 (Xp _) B))] end.
  match goal with A : port_number port z, B : port_number _ _ |- _ => apply Xp in A; rewrite (port_fun _ _ _ A B) end. auto.
Qed.
Print Assumptions C46_origin_rules.
Lemma origin_known v l o : origin_of v l o -> Forall (fun n => In n origin_classes) l.
Proof.
  assert (O : forall b, Forall (fun n => In n origin_classes) (only b ORIGIN_MULTIPLE_VALUES)) by (intros []; [constructor; [cbn; tauto|constructor]|constructor]).
  intros []; [constructor| |apply O..]. apply Forall_app. split; [apply O|]. constructor; [cbn; tauto|constructor].
Qed.
Theorem C46_origin : forall e rel top headers chunks complete trailers t start nc head base m' rel',
  lint e rel top headers chunks complete trailers (new_linter t start nc head base) = (m', rel', Ok tt) -> t = MRequest ->
  exists due, (forall v, exists o, origin_of v (due v) o)
    /\ reports origin_classes (m_notes m') = single_due (u "origin") due headers ++ single_due (u "origin") due trailers.
Proof.
  intros e rel top headers chunks complete trailers t start nc head base m' rel' E Ht.
  apply (single_run_rules (fun v d => exists o, origin_of v d o) origin_classes F_origin (u "origin") e rel top headers chunks complete trailers t start nc head base m' rel' E).
  - subst t. vm_compute. reflexivity.
  - intros x. unfold eva. cbn [eval_of]. nks.
  - apply unhyphened; reflexivity.
  - apply unhyphened; reflexivity.
  - reflexivity.
  - intros v. destruct (origin_does (mkCx e m' rel) (blank_of F_origin VNone) v) as (l & o & H & [D1 D2]). exists l. split; [eauto|]. split; [apply (origin_known _ _ _ H)|].
    unfold par. cbn [parse_of]. rewrite D2. destruct o as [[[sch host] port]|]; [|destruct (str_eqb _ _); rewrite app_nil_r; exact D1]. unfold eva. cbn [eval_of origin_val fst ret]. rewrite app_nil_r. exact D1.
Qed.
Print Assumptions C46_origin.
Theorem C46_origin_value : forall e t start base hs ts m' tr,
  run_of e t start base hs ts m' -> unpadded (u "origin") (section_lines tr hs ts) -> t = MRequest ->
  match first_line (u "origin") (section_lines tr hs ts) with
  | None => value_in tr (u "origin") m' = None
  | Some v => exists l o, origin_of v l o /\ value_in tr (u "origin") m' = Some (origin_val o)
  end.
Proof.
  intros e t start base hs ts m' tr R U Ht. rewrite (single_value _ _ _ _ _ _ _ _ _ R U) by (subst t; reflexivity).
  destruct (first_line _ _) as [v|]; [|reflexivity]. change (find_class (u "origin")) with F_origin. cbn [parse_of].
  set (c := mkCx e _ None). destruct (origin_does c nobody v) as (l & o & H & [_ D]). rewrite D. exists l, o. split; [exact H|]. destruct o as [[[sch host] port]|]; [reflexivity|]. destruct (str_eqb _ _); reflexivity.
Qed.
Print Assumptions C46_origin_value.

(** ** Location *)
Theorem C46_location : forall e rel top headers chunks complete trailers t start nc head base m' rel',
  lint e rel top headers chunks complete trailers (new_linter t start nc head base) = (m', rel', Ok tt) -> t <> MRequest ->
  exists due,
    (forall v, location_of (match t with MResponse => match m_status m' with Some s => negb (existsb (Z.eqb s) with_location) | None => true end | _ => false end) (e_urljoin e (m_base m')) v (due v))
    /\ reports location_classes (m_notes m') = single_due (u "location") due headers ++ single_due (u "location") due trailers.
Proof.
  intros e rel top headers chunks complete trailers t start nc head base m' rel' E Ht.
  assert (T : m_type m' = t) by (destruct (lint_facts _ _ _ _ _ _ _ _ _ _ _ _ _ _ E) as (SM & _); injection SM as -> _ _ _ _; reflexivity).
  set (undef := match t with MResponse => match m_status m' with Some s => negb (existsb (Z.eqb s) with_location) | None => true end | _ => false end).
  apply (single_run_rules (location_of undef (e_urljoin e (m_base m'))) location_classes F_location (u "location") e rel top headers chunks complete trailers t start nc head base m' rel' E).
  - its_type.
  - intros x. unfold eva. cbn [eval_of]. nks.
  - apply unhyphened; reflexivity.
  - apply unhyphened; reflexivity.
  - reflexivity.
  - intros v. assert (U : match_ws_dollar rfc3986_URI v = true <-> is_uri v) by apply match_ws_dollar_spec.
    assert (Wh : is_response (mkCx e m' rel) && negb (status_in (mkCx e m' rel) with_location) = undef).
    { unfold undef, is_response, status_in. cbn [cx_msg]. rewrite T. destruct t, (m_status m'); reflexivity. }
    assert (X : exists l' r, ((is_uri v \/ exists x, e_urljoin e (m_base m') v = Err x) /\ l' = [] \/ (~ is_uri v /\ exists full, e_urljoin e (m_base m') v = Ok full) /\ l' = [LOCATION_NOT_ABSOLUTE])
       /\ does (p_location (mkCx e m' rel) (blank_of F_location VNone) v) (only undef LOCATION_UNDEFINED ++ l') r).
    { unfold p_location. change [201; 300; 301; 302; 303; 305; 307; 308]%Z with with_location. rewrite Wh. cbn [cx_env cx_msg]. destruct (match_ws_dollar rfc3986_URI v); cbn [negb].
      - exists [], (Ok (VStr v)). split; [left; split; [left; apply U; reflexivity|reflexivity]|]. eapply does_bind; [apply does_when|]. apply (does_bind _ _ [] tt []); apply does_ret.
      - assert (nU : ~ is_uri v) by (intros H; apply U in H; discriminate). destruct (e_urljoin e (m_base m') v) as [full|x] eqn:Ej.
        + exists [LOCATION_NOT_ABSOLUTE], (Ok (VStr v)). split; [right; split; [split; [exact nU|eauto]|reflexivity]|]. eapply does_bind; [apply does_when|].
          apply (does_bind _ _ [LOCATION_NOT_ABSOLUTE] tt []); [|apply does_ret]. apply (does_bind _ _ [] full); [apply does_lift|apply does_note].
        + exists [], (Err x). split; [left; split; [right; eauto|reflexivity]|]. eapply does_bind; [apply does_when|]. apply does_err, does_err, does_lift. }
    destruct X as (l' & r & X & [D1 D2]). exists (only undef LOCATION_UNDEFINED ++ l'). split; [exists l'; auto|]. split.
    + apply Forall_app. split; [destruct undef; [constructor; [cbn; tauto|constructor]|constructor]|]. destruct X as [[_ ->]|[_ ->]]; [constructor|]. constructor; [cbn; tauto|constructor].
    + unfold par. cbn [parse_of]. destruct (snd (p_location _ _ _)) as [y|y]; [|rewrite app_nil_r; exact D1]. destruct y; unfold eva; cbn [eval_of fst ret]; rewrite app_nil_r; exact D1.
Qed.
Print Assumptions C46_location.

(** ** Referer *)
Theorem C46_referer : forall e rel top headers chunks complete trailers t start nc head base m' rel',
  lint e rel top headers chunks complete trailers (new_linter t start nc head base) = (m', rel', Ok tt) -> t = MRequest ->
  let due v := referer_due (parts e v) (match m_uri m' with Some q => parts e q | None => None end) in
  reports referer_classes (m_notes m') = single_due (u "referer") due headers ++ single_due (u "referer") due trailers.
Proof.
  intros e rel top headers chunks complete trailers t start nc head base m' rel' E Ht.
  assert (T : m_type m' = t) by (destruct (lint_facts _ _ _ _ _ _ _ _ _ _ _ _ _ _ E) as (SM & _); injection SM as -> _ _ _ _; reflexivity).
  intros due. apply (single_run_due referer_classes F_referer (u "referer") e rel top headers chunks complete trailers t start nc head base m' rel' E).
  - subst t. vm_compute. reflexivity.
  - intros x. unfold eva. cbn [eval_of]. unfold keep, ev_referer. nks.
  - apply unhyphened; reflexivity.
  - apply unhyphened; reflexivity.
  - reflexivity.
  - intros v. unfold par, eva. cbn [parse_of eval_of]. unfold p_id. cbn [snd fst ret app]. rewrite keep_fst. unfold ev_referer, is_request, due, parts. cbn [cx_msg cx_env Types.h_val blank_of]. rewrite T, Ht. cbn [negb].
    destruct (m_uri m') as [q|]; [|destruct v as [|c v']; [reflexivity|]; destruct (e_urlsplit e (c :: v')); reflexivity].
    destruct v as [|c v']; [reflexivity|]. destruct q as [|d q']; [cbn [nonempty negb orb]; destruct (e_urlsplit e (c :: v')); reflexivity|]. cbn [nonempty negb orb].
    destruct (e_urlsplit e (c :: v')) as [f|x]; [|destruct (is_ValueError x); destruct (e_urlsplit e (d :: q')); reflexivity].
    destruct (e_urlsplit e (d :: q')) as [g|x]; [|destruct (is_ValueError x); reflexivity]. unfold referer_due.
    change [u "https"; u "wss"] with (map u ["https"; "wss"]%string). change [u "http"; u "ws"] with (map u ["http"; "ws"]%string). rewrite !str_in_one.
    destruct (one_of ["https"%string; "wss"%string] (lower (u_scheme f))); [|reflexivity].
    destruct (one_of ["http"%string; "ws"%string] (lower (u_scheme g))); destruct (negb _); reflexivity.
Qed.
Print Assumptions C46_referer.

(** ** Expect and Max-Forwards *)
Theorem C46_expect : forall e rel top headers chunks complete trailers t start nc head base m' rel',
  lint e rel top headers chunks complete trailers (new_linter t start nc head base) = (m', rel', Ok tt) -> t = MRequest ->
  reports expect_classes (m_notes m') = list_due (u "expect") (expect_due (m_version m')) headers ++ list_due (u "expect") (expect_due (m_version m')) trailers.
Proof.
  intros e rel top headers chunks complete trailers t start nc head base m' rel' E Ht.
  rewrite (list_run_due expect_classes F_expect (u "expect") e rel top headers chunks complete trailers t start nc head base m' rel' E) with (due1 := fun _ => []) (due := expect_due (m_version m')).
  - rewrite !member_none. reflexivity.
  - subst t. vm_compute. reflexivity.
  - intros x. unfold eva. cbn [eval_of]. unfold keep, ev_expect. nks.
  - apply unhyphened; reflexivity.
  - apply unhyphened; reflexivity.
  - reflexivity.
  - reflexivity.
  - intros vs. unfold par, eva. cbn [parse_of eval_of]. rewrite keep_fst. unfold p_id, ev_expect. rewrite (strs_back (fun v => v)). cbn [Types.h_val blank_of cx_msg]. rewrite strs_list, map_id. unfold expect_due.
    rewrite bind_when by reflexivity. rewrite speak_app, map_app, lift_ok, one_single.
    replace (existsb (fun v => negb (one_of ["100-continue"%string] (lower v))) vs) with (nonempty (filter (fun x => negb (str_eqb (lower x) (u "100-continue"))) vs)).
    + rewrite map_app. f_equal; [destruct (str_eqb _ _); reflexivity|]. cbv zeta. destruct (nonempty _); reflexivity.
    + induction vs as [|v vs IH]; [reflexivity|]. cbn [filter existsb]. rewrite one_single, <- IH. destruct (str_eqb (lower v) (u "100-continue")); reflexivity.
Qed.
Print Assumptions C46_expect.
Theorem C46_max_forwards : forall e rel top headers chunks complete trailers t start nc head base m' rel',
  lint e rel top headers chunks complete trailers (new_linter t start nc head base) = (m', rel', Ok tt) -> t = MRequest ->
  hyphened (u "max-forwards") headers -> hyphened (u "max-forwards") trailers ->
  let due (_ : str) := forwards_due (m_method m') in
  reports [MAX_FORWARDS_IGNORED] (m_notes m') = single_due (u "max-forwards") due headers ++ single_due (u "max-forwards") due trailers.
Proof.
  intros e rel top headers chunks complete trailers t start nc head base m' rel' E Ht H1 H2 due.
  apply (single_run_due [MAX_FORWARDS_IGNORED] F_max_forwards (u "max-forwards") e rel top headers chunks complete trailers t start nc head base m' rel' E).
  - subst t. vm_compute. reflexivity.
  - intros x. unfold eva. cbn [eval_of]. unfold keep, ev_max_forwards. nks.
  - exact H1.
  - exact H2.
  - reflexivity.
  - intros v. unfold par, eva. cbn [parse_of eval_of]. unfold p_id. cbn [snd fst ret app]. rewrite keep_fst. unfold ev_max_forwards, due, forwards_due. cbn [cx_msg].
    change [u "TRACE"; u "OPTIONS"] with (map u ["TRACE"; "OPTIONS"]%string). destruct (m_method m') as [m|]; [rewrite str_in_one; destruct (negb _); reflexivity|reflexivity].
Qed.
Print Assumptions C46_max_forwards.

(** ** Examples *)
Definition start_sample : list rawline := raws [("Origin", "http://a:80 b"); ("Expect", "100-Continue, x"); ("Max-Forwards", "5"); ("Referer", "https://a/b")]%string.
Example C46_ex : let '(m, _, r) := lint env0 None (TopRequest (u "GET") (u "/x") (u "1.0")) start_sample [] true [] (new_linter MRequest None false false []) in
  r = Ok tt /\ reports origin_classes (m_notes m) = [(ORIGIN_MULTIPLE_VALUES, u "field-origin")] /\ map fst (reports expect_classes (m_notes m)) = [EXPECT_HTTP_1_0; EXPECT_UNKNOWN]
  /\ map fst (reports [MAX_FORWARDS_IGNORED] (m_notes m)) = [MAX_FORWARDS_IGNORED].
Proof. vm_compute. repeat split. Qed.
Example C46_ex_origin : origin_text (u "http://a:80") (u "http") (u "a") (Some (u "80")) /\ port_number (Some (u "80")) (Some 80%Z).
Proof.
  split; [|exists 80%Z; split; [split; [split; [discriminate|reflexivity]|split; [vm_compute; discriminate|reflexivity]]|reflexivity]].
  assert (M : forall r s, match_dollar r s = true -> ~ In 10 s -> lang r s).
  { intros r s H Hn. apply match_dollar_spec in H as [H|(p & -> & _)]; [exact H|]. exfalso. apply Hn, in_or_app. right. left. reflexivity. }
  split; [|split; [|split]]; [apply M; [vm_compute; reflexivity|cbn; intuition discriminate]..|exists []; split; [auto|reflexivity]].
Qed.
Example C46_ex_location : let '(m, _, r) := lint env0 None (TopResponse (u "HTTP/1.1") (u "200") None) (raws [("Location", "/x")]%string) [] true [] (new_linter MResponse None false false []) in
  r = Ok tt /\ map fst (reports location_classes (m_notes m)) = [LOCATION_UNDEFINED; LOCATION_NOT_ABSOLUTE].
Proof. vm_compute. repeat split. Qed.
Example C46_ex_referer :
  referer_due (Some (mkUrl (u "https") (u "a") (u "/") [] [])) (Some (mkUrl (u "http") (u "a") (u "/") [] [])) = [REFERER_SECURE_TO_INSECURE; REFERER_SECURE_TO_DIFFERENT_ORIGIN].
Proof. reflexivity. Qed.
