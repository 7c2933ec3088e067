(** * C45: ranges. *)
From Coq Require Import Lia ZifyBool ZifyN.
From Verif Require Import PyStr Regex Grammar NoteTable Note PyLib Utils FieldAttrs Types Fields1 Fields2 Fields3 Framework Checks Message
  EvLogic TestEnv LexLemmas NumLemmas Session SecNotes SecValues LintLemmas FieldSpec PropFields PropValues PropNames PropParse PropTop PropCli OwnLemmas ListSpec PropLists PropCC ListExamples FieldExamples PropInts FieldDue OwnTac RangeSpec EndLemmas SessionLemmas.
Open Scope N_scope.

(** ** Numbers *)
Lemma digit_like_b s : py_isdigit s = true <-> digit_like s.
Proof.
  unfold py_isdigit, digit_like. assert (X : forallb isdigit_chr s = true <-> Forall (fun c => 48 <= c <= 57 \/ c = 178 \/ c = 179 \/ c = 185) s).
  { rewrite forallb_forall, Forall_forall. split; intros H c Hc; specialize (H c Hc); unfold isdigit_chr, is_digit in *; lia. }
  destruct s; [split; [discriminate|intros [H _]; congruence]|]. rewrite X. split; [intros H; split; [discriminate|exact H]|tauto].
Qed.
Lemma digits_like s : digits s -> digit_like s.
Proof.
  intros [H1 H2]. split; [exact H1|]. apply Forall_forall. intros c Hc. rewrite forallb_forall in H2. specialize (H2 c Hc). unfold is_digit in H2. lia.
Qed.
Lemma like_int s : digit_like s -> (exists z, numeral s z /\ int_of s = Ok z) \/ (given_up s /\ int_of s = Err EValue).
Proof.
  intros H. assert (St : stripped s).
  { destruct H as [Hn Hf]. assert (N : forall c, In c s -> isspace c = false).
    { intros c Hc. rewrite Forall_forall in Hf. specialize (Hf c Hc). unfold isspace. lia. }
    split; intros c Hc; apply N.
    - destruct s; [discriminate|]. injection Hc as <-. left. reflexivity.
    - unfold last_chr in Hc. apply in_rev. destruct (rev s); [discriminate|]. injection Hc as <-. left. reflexivity. }
  unfold int_of. destruct (py_int s) as [z|] eqn:E.
  - left. exists z. split; [|reflexivity]. apply (py_int_spec s z St) in E. destruct E as (sgn & body & ds & Es & (gs & G1 & G2 & G3 & G4) & L & V).
    assert (In95 : forall c, In c s -> c <> 95 /\ c <> 43 /\ c <> 45). { intros c Hc. destruct H as [_ Hf]. rewrite Forall_forall in Hf. specialize (Hf c Hc). lia. }
    assert (Hsgn : sgn = []). { destruct V as [[[V|V] _]|[V _]]; [exact V|rewrite V in Es..]; exfalso; (assert (Hin : In (hd 0 s) s) by (rewrite Es; left; reflexivity)); pose proof (In95 _ Hin) as X; rewrite Es in X; cbn in X; lia. }
    rewrite Hsgn in Es, V. cbn [app] in Es. destruct gs as [|g [|g' gs]]; [congruence| |].
    + cbn [join] in G3. cbn [concat] in G4. rewrite app_nil_r in G4. inversion G2 as [|? ? D _]. clear St H In95 G1 G2. rewrite Es, G3. rewrite G4 in *. split; [exact D|]. split; [exact L|].
      destruct V as [[_ V]|[V _]]; [exact V|discriminate].
    + exfalso. destruct (In95 95) as [X _]; [|congruence]. rewrite Es, G3. cbn [join]. apply in_or_app. right. left. reflexivity.
  - right. split; [|reflexivity]. split; [exact H|]. intros z (D & L & V). pose proof (digits_int s D L) as T. apply (py_int_spec s _ St) in T. congruence.
Qed.
Lemma split1_cut c s a b : split1 c s = Some (a, b) <-> cut_at c s a b. Proof. apply split1_spec. Qed.
Lemma star_b s : str_eqb s [42] = true <-> s = star. Proof. apply str_eqb_eq. Qed.
Lemma star_nb s : str_eqb s [42] = false <-> s <> star. Proof. rewrite <- star_b. destruct (str_eqb s [42]); split; congruence. Qed.
Lemma like_nb s : py_isdigit s = false <-> ~ digit_like s. Proof. rewrite <- digit_like_b. destruct (py_isdigit s); split; congruence. Qed.

(** ** Content-Range *)
Lemma cr_length_does s : exists l,
  (s = star /\ l = [CONTENT_RANGE_UNKNOWN_LENGTH] /\ does (cr_length s) l (Ok None))
  \/ (s <> star /\ exists z, numeral s z /\ l = [] /\ does (cr_length s) l (Ok (Some z)))
  \/ (s <> star /\ given_up s /\ l = [] /\ does (cr_length s) l (Err EValue))
  \/ (s <> star /\ ~ digit_like s /\ l = [RANGE_INVALID_INTEGER] /\ does (cr_length s) l (Ok None)).
Proof.
  unfold cr_length. destruct (str_eqb s [42]) eqn:Es.
  - apply star_b in Es. eexists. left. split; [exact Es|]. split; [reflexivity|]. apply does_note_then, does_ret.
  - apply star_nb in Es. destruct (py_isdigit s) eqn:Ed; cbn [negb].
    + apply digit_like_b in Ed. destruct (like_int s Ed) as [(z & Hz & ->)|(Hg & ->)].
      * eexists. right. left. split; [exact Es|]. exists z. split; [exact Hz|]. split; [reflexivity|]. apply does_ret.
      * eexists. right. right. left. split; [exact Es|]. split; [exact Hg|]. split; [reflexivity|]. apply does_err, does_lift.
    + apply like_nb in Ed. eexists. right. right. right. split; [exact Es|]. split; [exact Ed|]. split; [reflexivity|]. apply does_note_then, does_ret.
Qed.
Lemma cr_range_does s : s <> star -> exists l,
  (exists x y, range_part s [] (Some (Some (x, y))) /\ l = [] /\ does (cr_range s) [] (Ok (Some (x, y))))
  \/ (range_part s l None /\ (does (cr_range s) l (Ok None) \/ does (cr_range s) l (Err EValue))).
Proof.
  intros Hs. unfold cr_range. destruct (str_eqb s [42]) eqn:Es; [apply star_b in Es; congruence|]. clear Es.
  destruct (split1 45 s) as [[a b]|] eqn:E1.
  2:{ apply split1_none in E1. eexists. right. split; [apply rng_whole; assumption|]. left. apply does_note_then, does_ret. }
  apply split1_cut in E1. destruct (py_isdigit a) eqn:Ea; cbn [negb].
  2:{ apply like_nb in Ea. eexists. right. split; [apply (rng_bad _ _ _ E1); left; exact Ea|]. left. apply does_note_then, does_ret. }
  destruct (py_isdigit b) eqn:Eb; cbn [negb].
  2:{ apply like_nb in Eb. eexists. right. split; [apply (rng_bad _ _ _ E1); right; exact Eb|]. left. apply does_note_then, does_ret. }
  apply digit_like_b in Ea. apply digit_like_b in Eb. destruct (like_int a Ea) as [(x & Hx & ->)|(Hg & ->)].
  - destruct (like_int b Eb) as [(y & Hy & ->)|(Hg & ->)].
    + exists []. left. exists x, y. split; [apply (rng_pair _ _ _ _ _ E1); assumption|]. split; [reflexivity|]. apply does_ret.
    + exists []. right. split; [apply (rng_given_up _ _ _ E1); auto|]. right. split; [constructor|reflexivity].
  - exists []. right. split; [apply (rng_given_up _ _ _ E1); auto|]. right. apply does_err, does_lift.
Qed.
Definition range_val (o : option (str * option (Z * Z) * option Z)) : res pyval :=
  match o with
  | Some (unit, r, n) => Ok (VTuple [VStr unit; opt_int (option_map fst r); opt_int (option_map snd r); opt_int n])
  | None => Err EValue
  end.
Lemma content_range_does c h v : exists l o, content_range_of (is_response c) (m_status (cx_msg c)) v l o
  /\ does (p_content_range c h v) (only (is_response c && negb (status_in c [206; 416]%Z)) CONTENT_RANGE_MEANINGLESS ++ l) (range_val o).
Proof.
  unfold p_content_range. set (rest_of := match split1 32 v with Some _ => _ | None => _ end).
  assert (X : exists l o, content_range_of (is_response c) (m_status (cx_msg c)) v l o /\ does rest_of l (range_val o)).
  2:{ destruct X as (l & o & H1 & H2). exists l, o. split; [exact H1|]. apply (does_bind _ _ _ tt); [apply does_when|exact H2]. }
  subst rest_of. destruct (split1 32 v) as [[unit rest]|] eqn:E1.
  2:{ apply split1_none in E1. destruct (has_chr 47 v) eqn:E2.
      - apply has_chr_In in E2. do 2 eexists. split; [apply cr_slash_only; assumption|]. apply does_note_then, does_raise.
      - do 2 eexists. split; [apply cr_no_unit; [exact E1|]|apply does_raise]. intros H. apply has_chr_In in H. congruence. }
  apply split1_cut in E1. destruct (split1 47 rest) as [[r n]|] eqn:E2.
  2:{ apply split1_none in E2. do 2 eexists. split; [apply (cr_no_slash _ _ _ _ _ E1 E2)|]. apply does_note_then, does_raise. }
  apply split1_cut in E2. destruct (str_eqb r [42]) eqn:Er; cbn [andb].
  - apply star_b in Er. subst r. destruct (cr_length_does n) as (l & [(-> & _)|[(Hn & z & Hz & -> & D)|[(Hn & Hg & -> & D)|(Hn & Hd & -> & D)]]]).
    + do 2 eexists. split; [apply (cr_stars _ _ _ _ _ E1 E2)|]. apply does_note_then, does_raise.
    + rewrite (proj2 (star_nb n) Hn). exists (only (is_response c && status_in c [206]%Z) CONTENT_RANGE_UNSATISFIED_BAD_SC), (Some (unit, None, Some z)). split.
      * unfold status_in. replace (match m_status (cx_msg c) with Some z0 => existsb (Z.eqb z0) [206%Z] | None => false end) with (match m_status (cx_msg c) with Some s => Z.eqb s 206 | None => false end) by (destruct (m_status (cx_msg c)); cbn [existsb]; rewrite ?orb_false_r; reflexivity).
        apply (cr_unsatisfied _ _ _ _ _ _ _ E1 E2 Hz).
      * change (only (is_response c && status_in c [206]%Z) CONTENT_RANGE_UNSATISFIED_BAD_SC) with ([] ++ only (is_response c && status_in c [206]%Z) CONTENT_RANGE_UNSATISFIED_BAD_SC).
        eapply does_bind; [exact D|]. cbn [andb cr_range]. change (only (is_response c && status_in c [206]%Z) CONTENT_RANGE_UNSATISFIED_BAD_SC) with ([] ++ only (is_response c && status_in c [206]%Z) CONTENT_RANGE_UNSATISFIED_BAD_SC).
        eapply does_bind; [apply does_ret|]. rewrite <- (app_nil_r (only _ _)). eapply does_bind; [apply does_when|apply does_ret].
    + rewrite (proj2 (star_nb n) Hn). exists [], None. split; [apply (cr_bad_length _ _ _ _ _ _ _ _ E1 E2), len_given_up, Hg|]. apply does_err, D.
    + rewrite (proj2 (star_nb n) Hn). exists [RANGE_INVALID_INTEGER], None. split; [apply (cr_bad_length _ _ _ _ _ _ _ _ E1 E2), len_bad; assumption|].
      rewrite <- (app_nil_r [RANGE_INVALID_INTEGER]). eapply does_bind; [exact D|]. apply does_raise.
  - apply star_nb in Er.
    assert (Full : forall l cl, length_part n l (Some cl) -> does (cr_length n) l (Ok cl) -> (match cl with None => true | Some _ => false end) && negb (str_eqb n [42]) = false ->
      exists l0 o, content_range_of (is_response c) (m_status (cx_msg c)) v l0 o /\
      does (cl <- cr_length n;; (if (match cl with None => true | Some _ => false end) && negb (str_eqb n [42]) then raise EValue else
        r0 <- cr_range r;; (match r0 with None => raise EValue | Some (a, b) => when (b <? a)%Z (add_note RANGE_INVALID []);;; when (match cl with Some n0 => (n0 <=? b)%Z | None => false end) (add_note RANGE_INVALID []) end);;;
        ret (VTuple [VStr unit; opt_int (option_map fst r0); opt_int (option_map snd r0); opt_int cl]))) l0 (range_val o)).
    { intros l cl Hl D Hb. destruct (cr_range_does r Er) as (l' & [(x & y & Hr & -> & Dr)|(Hr & Dr)]).
      - do 2 eexists. split; [apply (cr_full _ _ _ _ _ _ _ _ _ _ _ E1 E2 Hl Hr)|]. eapply does_bind; [exact D|]. rewrite Hb.
        rewrite <- (app_nil_l (only _ _ ++ only _ _)). eapply does_bind; [exact Dr|]. rewrite <- (app_nil_r (only _ _ ++ only _ _)). eapply does_bind; [|apply does_ret].
        eapply does_bind; apply does_when.
      - do 2 eexists. split; [apply (cr_bad_range _ _ _ _ _ _ _ _ _ _ E1 E2 Hl Hr)|]. eapply does_bind; [exact D|]. rewrite Hb. destruct Dr as [Dr|Dr].
        + rewrite <- (app_nil_r l'). eapply does_bind; [exact Dr|]. apply does_raise.
        + apply does_err, Dr. }
    destruct (cr_length_does n) as (l & [(En & -> & D)|[(Hn & z & Hz & -> & D)|[(Hn & Hg & -> & D)|(Hn & Hd & -> & D)]]]).
    + apply (Full [CONTENT_RANGE_UNKNOWN_LENGTH] None); [subst n; apply len_star|exact D|subst n; reflexivity].
    + apply (Full [] (Some z)); [apply len_number, Hz|exact D|reflexivity].
    + exists [], None. split; [apply (cr_bad_length _ _ _ _ _ _ _ _ E1 E2), len_given_up, Hg|]. apply does_err, D.
    + exists [RANGE_INVALID_INTEGER], None. split; [apply (cr_bad_length _ _ _ _ _ _ _ _ E1 E2), len_bad; assumption|].
      rewrite <- (app_nil_r [RANGE_INVALID_INTEGER]). eapply does_bind; [exact D|]. rewrite (proj2 (star_nb n) Hn). apply does_raise.
Qed.
Lemma content_range_known r s v l o : content_range_of r s v l o -> Forall (fun n => In n content_range_classes) l.
Proof.
  assert (L : forall n l o, length_part n l o -> Forall (fun n => In n content_range_classes) l) by (intros ? ? ? []; repeat constructor; cbn; tauto).
  assert (R : forall n l o, range_part n l o -> Forall (fun n => In n content_range_classes) l) by (intros ? ? ? []; repeat constructor; cbn; tauto).
  assert (O : forall b c, In c content_range_classes -> Forall (fun n => In n content_range_classes) (only b c)) by (intros [] c Hc; [constructor; [exact Hc|]|]; constructor).
  assert (A : forall a b, Forall (fun n => In n content_range_classes) a -> Forall (fun n => In n content_range_classes) b -> Forall (fun n => In n content_range_classes) (a ++ b)) by (intros; apply Forall_app; auto).
  assert (S : forall c, In c content_range_classes -> Forall (fun n => In n content_range_classes) [c]) by (intros c Hc; constructor; [exact Hc|constructor]).
  intros [].
  - constructor.
  - apply S. cbn. tauto.
  - apply S. cbn. tauto.
  - apply S. cbn. tauto.
  - eapply L; eassumption.
  - apply A; [eapply L|eapply R]; eassumption.
  - apply O. cbn. tauto.
  - apply A; [eapply L; eassumption|]. apply A; apply O; cbn; tauto.
Qed.
(** The notes about Content-Range, in order. *)
Theorem C45_content_range : forall e rel top headers chunks complete trailers t start nc head base m' rel',
  lint e rel top headers chunks complete trailers (new_linter t start nc head base) = (m', rel', Ok tt) -> t <> MRequest ->
  hyphened (u "content-range") headers -> hyphened (u "content-range") trailers ->
  exists due,
    (forall v, exists l o, content_range_of (match t with MResponse => true | _ => false end) (m_status m') v l o
       /\ due v = only (match t, m_status m' with MResponse, Some s => negb ((s =? 206)%Z || (s =? 416)%Z) | MResponse, None => true | _, _ => false end) CONTENT_RANGE_MEANINGLESS ++ l)
    /\ reports content_range_classes (m_notes m') = single_due (u "content-range") due headers ++ single_due (u "content-range") due trailers.
Proof.
  intros e rel top headers chunks complete trailers t start nc head base m' rel' E Ht H1 H2.
  assert (T : m_type m' = t) by (destruct (lint_facts _ _ _ _ _ _ _ _ _ _ _ _ _ _ E) as (SM & _); injection SM as -> _ _ _ _; reflexivity).
  apply (single_run_rules (fun v d => exists l o, content_range_of (match t with MResponse => true | _ => false end) (m_status m') v l o
       /\ d = only (match t, m_status m' with MResponse, Some s => negb ((s =? 206)%Z || (s =? 416)%Z) | MResponse, None => true | _, _ => false end) CONTENT_RANGE_MEANINGLESS ++ l)
    content_range_classes F_content_range (u "content-range") e rel top headers chunks complete trailers t start nc head base m' rel' E).
  - its_type.
  - intros x. unfold eva. cbn [eval_of]. nks.
  - exact H1.
  - exact H2.
  - reflexivity.
  - intros v. destruct (content_range_does (mkCx e m' rel) (blank_of F_content_range VNone) v) as (l & o & H & [D1 D2]).
    set (mean := only (match t, m_status m' with MResponse, Some s => negb ((s =? 206)%Z || (s =? 416)%Z) | MResponse, None => true | _, _ => false end) CONTENT_RANGE_MEANINGLESS).
    assert (M : only (is_response (mkCx e m' rel) && negb (status_in (mkCx e m' rel) [206; 416]%Z)) CONTENT_RANGE_MEANINGLESS = mean).
    { unfold mean, is_response, status_in. cbn [cx_msg]. rewrite T. destruct t, (m_status m') as [s|]; try reflexivity. cbn [existsb]. rewrite orb_false_r. reflexivity. }
    rewrite M in D1. exists (mean ++ l). split; [|split].
    + exists l, o. split; [|reflexivity]. unfold is_response in H. cbn [cx_msg] in H. rewrite T in H. destruct t; exact H.
    + apply Forall_app. split; [|apply (content_range_known _ _ _ _ _ H)]. unfold mean. destruct (match t with MRequest => _ | _ => _ end); repeat constructor.
    + unfold par. cbn [parse_of]. rewrite D2. destruct (range_val o) as [x|x] eqn:Ev; [|rewrite app_nil_r; exact D1].
      unfold eva. cbn [eval_of]. destruct x; cbn [fst ret]; rewrite app_nil_r; exact D1.
Qed.
Print Assumptions C45_content_range.
(** The rules give one answer. *)
Lemma cut_fun c s a b a' b' : cut_at c s a b -> cut_at c s a' b' -> a = a' /\ b = b'.
Proof. intros H1 H2. apply split1_cut in H1. apply split1_cut in H2. rewrite H1 in H2. injection H2 as <- <-. auto. Qed.
Lemma cut_in c s a b : cut_at c s a b -> In c s. Proof. intros [-> _]. apply in_or_app. right. left. reflexivity. Qed.
Lemma numeral_fun s x y : numeral s x -> numeral s y -> x = y. Proof. intros (_ & _ & ->) (_ & _ & ->). reflexivity. Qed.
Lemma numeral_like s z : numeral s z -> digit_like s. Proof. intros (H & _). apply digits_like, H. Qed.
Lemma star_like : ~ digit_like star. Proof. intros [_ H]. inversion H as [|? ? H1 _]. lia. Qed.
Lemma star_cut a b : ~ cut_at 45 star a b. Proof. intros H. apply cut_in in H. cbn in H. intuition discriminate. Qed.
Lemma numeral_star z : ~ numeral star z. Proof. intros H. apply numeral_like in H. destruct (star_like H). Qed.
Lemma given_star : ~ given_up star. Proof. intros [H _]. destruct (star_like H). Qed.
Lemma given_numeral s z : given_up s -> ~ numeral s z. Proof. intros [_ H]. apply H. Qed.
Lemma given_like s : given_up s -> digit_like s. Proof. intros [H _]. exact H. Qed.
Ltac clash := exfalso; match goal with
  | H : numeral star _ |- _ => exact (numeral_star _ H)
  | H : given_up star |- _ => exact (given_star H)
  | H : cut_at 45 star _ _ |- _ => exact (star_cut _ _ H)
  | H : given_up ?s, H' : numeral ?s _ |- _ => exact (given_numeral _ _ H H')
  | H : ~ digit_like ?s, H' : numeral ?s _ |- _ => exact (H (numeral_like _ _ H'))
  | H : ~ digit_like ?s, H' : given_up ?s |- _ => exact (H (given_like _ H'))
  | H : ~ digit_like ?s, H' : digit_like ?s |- _ => exact (H H')
  | H : ~ In ?c ?s, H' : cut_at ?c ?s _ _ |- _ => exact (H (cut_in _ _ _ _ H'))
  | _ => congruence
  end.
Ltac same_cut := repeat match goal with A : cut_at ?c ?s _ _, B : cut_at ?c ?s _ _ |- _ => 
   let X := fresh in let Y := fresh in destruct (cut_fun _ _ _ _ _ _ A B) as [X Y]; clear B; subst end.
Ltac same_num := repeat match goal with A : numeral ?s ?x, B : numeral ?s ?y |- _ => let X := fresh in pose proof (numeral_fun _ _ _ A B) as X; clear B; subst end.
Lemma length_fun n l o l' o' : length_part n l o -> length_part n l' o' -> l = l' /\ o = o'.
Proof.
  intros H H'. destruct H; inversion H'; subst; try clash; same_num; auto.
Qed.
Lemma range_fun n l o l' o' : range_part n l o -> range_part n l' o' -> l = l' /\ o = o'.
Proof.
  intros H H'. destruct H; inversion H'; subst; clear H'; try clash; same_cut; same_num; auto; try clash.
  all: repeat match goal with H : _ \/ _ |- _ => destruct H end; try clash.
Qed.
Theorem C45_content_range_rules : forall r s v l o l' o', content_range_of r s v l o -> content_range_of r s v l' o' -> l = l' /\ o = o'.
Proof.
  intros r s v l o l' o' H H'. destruct H; inversion H'; subst; clear H'; try clash; same_cut; try clash; same_num; auto;
    repeat match goal with A : length_part ?n _ _, B : length_part ?n _ _ |- _ => let X := fresh in let Y := fresh in destruct (length_fun _ _ _ _ _ A B) as [X Y]; clear B; subst; try discriminate Y; try (injection Y as Y; subst) end;
    repeat match goal with A : range_part ?n _ _, B : range_part ?n _ _ |- _ => let X := fresh in let Y := fresh in destruct (range_fun _ _ _ _ _ A B) as [X Y]; clear B; subst; try discriminate Y; try (injection Y as Y; subst) end; auto; try clash.
  all: repeat match goal with
    | A : length_part star _ _ |- _ => destruct (length_fun _ _ _ _ _ A len_star) as [? ?]; clear A; subst; try discriminate
    | A : range_part star _ _ |- _ => destruct (range_fun _ _ _ _ _ A rng_star) as [? ?]; clear A; subst; try discriminate
    | A : numeral ?n ?z, B : length_part ?n _ _ |- _ => destruct (length_fun _ _ _ _ _ B (len_number _ _ A)) as [? ?]; clear B; subst; try discriminate
    end.
Qed.
Print Assumptions C45_content_range_rules.
(** The value. *)
Definition shown_range (o : option (str * option (Z * Z) * option Z)) : pyval :=
  match o with
  | Some (unit, Some (x, y), Some n) => VTuple [VStr unit; VInt x; VInt y; VInt n]
  | Some (unit, Some (x, y), None) => VTuple [VStr unit; VInt x; VInt y; VNone]
  | Some (unit, None, Some n) => VTuple [VStr unit; VNone; VNone; VInt n]
  | Some (unit, None, None) => VTuple [VStr unit; VNone; VNone; VNone]
  | None => VNone
  end.
Theorem C45_content_range_value : forall e t start base hs ts m' tr,
  run_of e t start base hs ts m' -> unpadded (u "content-range") (section_lines tr hs ts) -> t <> MRequest ->
  match first_line (u "content-range") (section_lines tr hs ts) with
  | None => value_in tr (u "content-range") m' = None
  | Some v => exists l o, content_range_of false None v l o /\ value_in tr (u "content-range") m' = Some (shown_range o)
  end.
Proof.
  intros e t start base hs ts m' tr R U Ht. rewrite (single_value _ _ _ _ _ _ _ _ _ R U) by (destruct t; [congruence|reflexivity|reflexivity]).
  destruct (first_line _ _) as [v|]; [|reflexivity]. change (find_class (u "content-range")) with F_content_range. cbn [parse_of].
  set (c := mkCx e _ None). destruct (content_range_does c nobody v) as (l & o & H & [_ D]). rewrite D.
  assert (X : exists l', content_range_of false None v l' o).
  { clear D. destruct H; eexists; econstructor; eassumption. }
  destruct X as (l' & X). exists l', o. split; [exact X|]. destruct o as [[[unit [[x y]|]] [n|]]|]; reflexivity.
Qed.
Print Assumptions C45_content_range_value.

(** ** Range *)
Lemma range_pos_does s pr : exists l,
  (exists z, position s z /\ l = [] /\ does (range_pos s pr) [] (Ok z))
  \/ (s <> [] /\ ~ digit_like s /\ l = [RANGE_BAD_SYNTAX] /\ does (range_pos s pr) l (Err EValue))
  \/ (given_up s /\ l = [] /\ does (range_pos s pr) l (Err EValue)).
Proof.
  unfold range_pos. destruct s as [|c s0]; [exists []; left; exists None; split; [left; auto|split; [reflexivity|apply does_ret]]|]. cbn [nonempty negb]. set (s := c :: s0).
  destruct (py_isdigit s) eqn:Ed; cbn [negb].
  - apply digit_like_b in Ed. destruct (like_int s Ed) as [(z & Hz & ->)|(Hg & ->)].
    + exists []. left. exists (Some z). split; [right; eauto|]. split; [reflexivity|apply does_ret].
    + exists []. right. right. split; [exact Hg|]. split; [reflexivity|]. apply does_err, does_lift.
  - apply like_nb in Ed. eexists. right. left. split; [discriminate|]. split; [exact Ed|]. split; [reflexivity|]. apply does_note_then, does_raise.
Qed.
Definition pair_val (o : option (option Z * option Z)) : res pyval := match o with Some (x, y) => Ok (VTuple [opt_int x; opt_int y]) | None => Err EValue end.
Lemma range_one_does s : exists l o, one_range s l o /\ does (range_one s) l (pair_val o).
Proof.
  unfold range_one. cbv zeta. destruct (split1 45 (strip s)) as [[a b]|] eqn:E1.
  2:{ apply split1_none in E1. do 2 eexists. split; [apply one_whole, E1|]. apply does_note_then, does_raise. }
  apply split1_cut in E1. destruct (range_pos_does a "the first position in the range must be an integer") as (l & [(x & Hx & -> & Dx)|[(Hn & Hd & -> & D)|(Hg & -> & D)]]).
  2:{ do 2 eexists. split; [apply (one_bad_first _ _ _ E1 Hn Hd)|]. apply does_err, D. }
  2:{ do 2 eexists. split; [apply (one_given_up _ _ _ E1); left; exact Hg|]. apply does_err, D. }
  destruct (range_pos_does b "the last position in the range must be an integer") as (l & [(y & Hy & -> & Dy)|[(Hn & Hd & -> & D)|(Hg & -> & D)]]).
  2:{ do 2 eexists. split; [apply (one_bad_last _ _ _ _ E1 Hx Hn Hd)|]. rewrite <- (app_nil_l [RANGE_BAD_SYNTAX]). eapply does_bind; [exact Dx|]. apply does_err, D. }
  2:{ do 2 eexists. split; [apply (one_given_up _ _ _ E1); right; eauto|]. apply (does_bind _ _ [] x [] (Err EValue)); [exact Dx|]. apply does_err, D. }
  assert (Two : x = None /\ y = None \/ (x, y) <> (None, None)) by (destruct x, y; [right; discriminate..|left; auto]).
  destruct Two as [[-> ->]|Two].
  - assert (a = []) by (destruct Hx as [[? _]|(? & _ & ?)]; [assumption|discriminate]). assert (b = []) by (destruct Hy as [[? _]|(? & _ & ?)]; [assumption|discriminate]).
    do 2 eexists. split; [apply (one_empty _ _ _ E1); assumption|]. rewrite <- (app_nil_l [RANGE_BAD_SYNTAX]). eapply does_bind; [exact Dx|]. rewrite <- (app_nil_l [RANGE_BAD_SYNTAX]). eapply does_bind; [exact Dy|].
    apply does_note_then, does_raise.
  - do 2 eexists. split; [apply (one_ok _ _ _ _ _ E1 Hx Hy Two)|]. rewrite <- (app_nil_l (only _ _)). eapply does_bind; [exact Dx|]. rewrite <- (app_nil_l (only _ _)). eapply does_bind; [exact Dy|].
    destruct x, y; try (rewrite <- (app_nil_r (only _ _)); eapply does_bind; [apply does_when|apply does_ret]). congruence.
Qed.
Definition pairs_val (l : list (option Z * option Z)) : list pyval := map (fun p => VTuple [opt_int (fst p); opt_int (snd p)]) l.
Lemma ranges_does ss : exists l o, ranges ss l o /\ does (mapW range_one ss) l (match o with Some rs => Ok (pairs_val rs) | None => Err EValue end).
Proof.
  induction ss as [|s ss (l' & o' & H' & D')]; cbn [mapW].
  - exists [], (Some []). split; [constructor|apply does_ret].
  - destruct (range_one_does s) as (l & [[x y]|] & H & D); cbn [pair_val] in D.
    + destruct o' as [rs|].
      * exists (l ++ l'), (Some ((x, y) :: rs)). split; [apply ranges_cons; assumption|]. eapply does_bind; [exact D|]. rewrite <- (app_nil_r l'). eapply does_bind; [exact D'|apply does_ret].
      * exists (l ++ l'), None. split; [eapply ranges_fail; eassumption|]. eapply does_bind; [exact D|]. apply does_err, D'.
    + exists l, None. split; [apply ranges_stop, H|]. apply does_err, D.
Qed.
Definition shown_ranges (o : option (str * list (option Z * option Z))) : pyval :=
  match o with Some (unit, rs) => VTuple [VStr unit; VList (map (fun p => VTuple [match fst p with Some z => VInt z | None => VNone end; match snd p with Some z => VInt z | None => VNone end]) rs)] | None => VNone end.
Lemma range_does c h v : exists l o, range_of v l o /\ does (p_range c h v) l (match o with Some _ => Ok (shown_ranges o) | None => Err EValue end).
Proof.
  unfold p_range. destruct (split1 61 v) as [[unit rest]|] eqn:E1.
  2:{ apply split1_none in E1. do 2 eexists. split; [apply range_no_unit, E1|]. apply does_note_then, does_raise. }
  apply split1_cut in E1. destruct (ranges_does (split_all 44 rest)) as (l & [rs|] & H & D).
  - exists l, (Some (unit, rs)). split; [apply (range_ok _ _ _ _ _ E1 H)|]. rewrite <- (app_nil_r l). eapply does_bind; [exact D|]. apply does_ret.
  - exists l, None. split; [apply (range_bad _ _ _ _ E1 H)|]. apply does_err, D.
Qed.
Lemma range_known v l o : range_of v l o -> Forall (fun n => In n range_classes) l.
Proof.
  assert (A : forall a b, Forall (fun n => In n range_classes) a -> Forall (fun n => In n range_classes) b -> Forall (fun n => In n range_classes) (a ++ b)) by (intros; apply Forall_app; auto).
  assert (S : forall c, In c range_classes -> Forall (fun n => In n range_classes) [c]) by (intros c Hc; constructor; [exact Hc|constructor]).
  assert (O : forall s l o, one_range s l o -> Forall (fun n => In n range_classes) l).
  { intros ? ? ? []; try (apply S; cbn; tauto); try constructor. destruct (match x with Some _ => _ | None => _ end); [apply S; cbn; tauto|constructor]. }
  assert (R : forall ss l o, ranges ss l o -> Forall (fun n => In n range_classes) l).
  { intros ? ? ? H. induction H; [constructor|eapply O; eassumption|apply A; [eapply O; eassumption|assumption]..]. }
  intros []; [apply S; cbn; tauto|eapply R; eassumption..].
Qed.
Theorem C45_range : forall e rel top headers chunks complete trailers t start nc head base m' rel',
  lint e rel top headers chunks complete trailers (new_linter t start nc head base) = (m', rel', Ok tt) -> t = MRequest ->
  exists due, (forall v, exists o, range_of v (due v) o)
    /\ reports range_classes (m_notes m') = single_due (u "range") due headers ++ single_due (u "range") due trailers.
Proof.
  intros e rel top headers chunks complete trailers t start nc head base m' rel' E Ht.
  apply (single_run_rules (fun v d => exists o, range_of v d o) range_classes F_range (u "range") e rel top headers chunks complete trailers t start nc head base m' rel' E).
  - subst t. vm_compute. reflexivity.
  - intros x. unfold eva. cbn [eval_of]. nks.
  - apply unhyphened; reflexivity.
  - apply unhyphened; reflexivity.
  - reflexivity.
  - intros v. destruct (range_does (mkCx e m' rel) (blank_of F_range VNone) v) as (l & o & H & [D1 D2]). exists l. split; [eauto|]. split; [apply (range_known _ _ _ H)|].
    unfold par. cbn [parse_of]. rewrite D2. destruct o as [[unit rs]|]; [|rewrite app_nil_r; exact D1]. unfold eva. cbn [eval_of shown_ranges fst ret]. rewrite app_nil_r. exact D1.
Qed.
Print Assumptions C45_range.
Theorem C45_range_value : forall e t start base hs ts m' tr,
  run_of e t start base hs ts m' -> unpadded (u "range") (section_lines tr hs ts) -> t = MRequest ->
  match first_line (u "range") (section_lines tr hs ts) with
  | None => value_in tr (u "range") m' = None
  | Some v => exists l o, range_of v l o /\ value_in tr (u "range") m' = Some (shown_ranges o)
  end.
Proof.
  intros e t start base hs ts m' tr R U Ht. rewrite (single_value _ _ _ _ _ _ _ _ _ R U) by (subst t; reflexivity).
  destruct (first_line _ _) as [v|]; [|reflexivity]. change (find_class (u "range")) with F_range. cbn [parse_of].
  set (c := mkCx e _ None). destruct (range_does c nobody v) as (l & o & H & [_ D]). rewrite D. exists l, o. split; [exact H|]. destruct o as [[unit rs]|]; reflexivity.
Qed.
Print Assumptions C45_range_value.
Lemma position_fun s x y : position s x -> position s y -> x = y.
Proof.
  assert (E : forall z, ~ numeral [] z) by (intros z [[H _] _]; congruence).
  intros [[-> ->]|(a & Ha & ->)] [[Hs ->]|(b & Hb & ->)]; [reflexivity|destruct (E _ Hb)|subst; destruct (E _ Ha)|rewrite (numeral_fun _ _ _ Ha Hb); reflexivity].
Qed.
Lemma position_like s x : position s x -> s = [] \/ digit_like s. Proof. intros [[H _]|(z & H & _)]; [auto|right; apply (numeral_like _ _ H)]. Qed.
Lemma position_given s x : position s x -> ~ given_up s. Proof. intros [[-> _]|(z & H & _)] G; [destruct G as [[G _] _]; congruence|exact (given_numeral _ _ G H)]. Qed.
Lemma given_nil : ~ given_up []. Proof. intros [[G _] _]. congruence. Qed.
Lemma position_bad s x : position s x -> s <> [] -> ~ digit_like s -> False. Proof. intros H. destruct (position_like _ _ H); tauto. Qed.
Lemma one_fun s l o l' o' : one_range s l o -> one_range s l' o' -> l = l' /\ o = o'.
Proof.
  intros H H'. destruct H; inversion H'; subst; clear H'; try clash; same_cut; auto;
    repeat match goal with
      | A : _ \/ _ |- _ => destruct A
      | A : (exists _, _) /\ _ |- _ => destruct A as [[? ?] ?]
      | A : position ?s ?x, B : position ?s ?y |- _ => let X := fresh in pose proof (position_fun _ _ _ A B) as X; clear B; subst
      end; auto; try clash;
    try (match goal with
      | A : given_up [] |- _ => destruct (given_nil A)
      | A : position ?s _, B : given_up ?s |- _ => destruct (position_given _ _ A B)
      | A : position ?s _, B : ?s <> [], C : ~ digit_like ?s |- _ => destruct (position_bad _ _ A B C)
      | A : position [] _, B : position [] _ |- _ => idtac
      end).
  all: match goal with A : position [] _ |- _ => destruct A as [[_ ->]|(? & A & _)]; [congruence|destruct A as [[A _] _]; congruence] end.
Qed.
Lemma ranges_fun ss l o : ranges ss l o -> forall l' o', ranges ss l' o' -> l = l' /\ o = o'.
Proof.
  intros H. induction H as [|s ss l H1|s ss l r l2 H1 H2 IH|s ss l r l2 rs H1 H2 IH]; intros l' o' H'; inversion H'; subst; auto;
    match goal with A : one_range ?s _ _, B : one_range ?s _ _ |- _ => destruct (one_fun _ _ _ _ _ A B) as [X Y]; try discriminate Y; subst; try (injection Y as Y; subst) end; auto;
    match goal with A : ranges _ _ _ |- _ => destruct (IH _ _ A) as [X2 Y2]; try discriminate Y2; subst; try (injection Y2 as Y2; subst) end; auto.
Qed.
Theorem C45_range_rules : forall v l o l' o', range_of v l o -> range_of v l' o' -> l = l' /\ o = o'.
Proof.
  intros v l o l' o' H H'. destruct H; inversion H'; subst; clear H'; try clash; same_cut; auto;
    match goal with A : ranges _ _ _, B : ranges _ _ _ |- _ => destruct (ranges_fun _ _ _ A _ _ B) as [X Y]; try discriminate Y; subst; try (injection Y as Y; subst) end; auto.
Qed.
Print Assumptions C45_range_rules.

(** ** Accept-Ranges *)
Theorem C45_accept_ranges : forall e rel top headers chunks complete trailers t start nc head base m' rel',
  lint e rel top headers chunks complete trailers (new_linter t start nc head base) = (m', rel', Ok tt) -> t <> MRequest ->
  hyphened (u "accept-ranges") headers -> hyphened (u "accept-ranges") trailers ->
  reports [UNKNOWN_RANGE] (m_notes m') = member_due t (u "accept-ranges") accept_ranges_due headers ++ member_due t (u "accept-ranges") accept_ranges_due trailers.
Proof.
  intros e rel top headers chunks complete trailers t start nc head base m' rel' E Ht H1 H2.
  rewrite (list_run_due [UNKNOWN_RANGE] F_accept_ranges (u "accept-ranges") e rel top headers chunks complete trailers t start nc head base m' rel' E) with (due1 := accept_ranges_due) (due := fun _ => []).
  - assert (N : forall l, list_due (u "accept-ranges") (fun _ => []) l = []) by (intros l; unfold list_due; destruct (values _ l); reflexivity). rewrite !N, !app_nil_r. reflexivity.
  - its_type.
  - intros x. unfold eva. cbn [eval_of]. nks.
  - exact H1.
  - exact H2.
  - reflexivity.
  - intros v s. unfold par. cbn [parse_of]. unfold p_accept_ranges, accept_ranges_due. cbv zeta. change [u "bytes"; u "none"] with (map u ["bytes"; "none"]%string). rewrite str_in_one.
    destruct (negb _); reflexivity.
  - intros vs. unfold eva. cbn [eval_of]. reflexivity.
Qed.
Print Assumptions C45_accept_ranges.

(** ** Examples *)
Definition range_sample : list rawline := raws [("Content-Range", "bytes 10-9/5"); ("Accept-Ranges", "Bytes, lines"); ("content-range", "x")]%string.
Example C45_ex : let '(m, _, r) := lint env0 None (TopResponse (u "HTTP/1.1") (u "200") None) range_sample [] true [] (new_linter MResponse None false false []) in
  r = Ok tt /\ reports content_range_classes (m_notes m) = [(CONTENT_RANGE_MEANINGLESS, u "field-content-range"); (RANGE_INVALID, u "field-content-range"); (RANGE_INVALID, u "field-content-range")]
  /\ reports [UNKNOWN_RANGE] (m_notes m) = [(UNKNOWN_RANGE, at_offset 1)]
  /\ hyphened (u "content-range") range_sample /\ unpadded (u "content-range") range_sample.
Proof. vm_compute lint. split; [reflexivity|]. split; [reflexivity|]. split; [reflexivity|]. split; [apply hyphened_dec; vm_compute; reflexivity|apply unpadded_dec; vm_compute; reflexivity]. Qed.
Example C45_ex_value : content_range_of false None (u "bytes 10-9/5") [RANGE_INVALID; RANGE_INVALID] (Some (u "bytes", Some (10, 9)%Z, Some 5%Z)).
Proof.
  assert (C : forall c s a b, split1 c s = Some (a, b) -> cut_at c s a b) by (intros; apply split1_cut; assumption).
  assert (N : forall s, digits s -> N.of_nat (length s) <= 4300 -> numeral s (Z.of_N (decimal s))) by (intros s H1 H2; split; [exact H1|]; split; [exact H2|reflexivity]).
  apply (cr_full _ _ _ (u "bytes") (u "10-9/5") (u "10-9") (u "5") [] (Some 5%Z) 10%Z 9%Z).
  - apply C. reflexivity.
  - apply C. reflexivity.
  - apply len_number. apply (N (u "5")); [split; [discriminate|reflexivity]|vm_compute; discriminate].
  - apply (rng_pair _ (u "10") (u "9")); [apply C; reflexivity|apply (N (u "10"))|apply (N (u "9"))]; try (split; [discriminate|reflexivity]); vm_compute; discriminate.
Qed.
Example C45_ex_range : let '(m, _, r) := lint env0 None NoTop (raws [("Range", "bytes=9-5, -7,4-, x")]%string) [] true [] (new_linter MRequest None false false []) in
  r = Ok tt /\ reports range_classes (m_notes m) = [(RANGE_INVALID_range, u "field-range"); (RANGE_BAD_SYNTAX, u "field-range")].
Proof. vm_compute. repeat split. Qed.
