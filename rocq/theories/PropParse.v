(** * Properties of the lexical layer: C15, C16, C17, C29 (values), C38. *)
From Verif Require Import PyStr Regex Grammar Note PyLib Utils FieldAttrs Types Fields1 Fields2 Fields3 Framework
  Checks Message NoteLemmas TestEnv LexLemmas ParamLemmas NumLemmas.
Open Scope N_scope.

(** ** C15: comma splitting.

    [segment s]: [s] is a sequence of characters other than quotes and commas,
    and of quoted strings (an opening quote, qdtext and backslash pairs, a
    closing quote).  Splitting the segments joined by commas gives them back,
    stripped, without the empty ones. *)
Theorem C15_split : forall segs,
  Forall segment segs -> split_list_field (join comma segs) = filter nonempty (map strip segs).
Proof. exact split_segments. Qed.
Print Assumptions C15_split.
(** A quoted string with a comma and an escaped quote in it; an empty element. *)
Example C15_ex :
  Forall segment [u "a=""x,\""y"" "; u "  "; u " b"]
  /\ split_list_field (u "a=""x,\""y"" ,  , b") = [u "a=""x,\""y"""; u "b"].
Proof.
  split; [|vm_compute; reflexivity].
  constructor; [|repeat constructor; discriminate].
  apply (seg_chr 97), (seg_chr 61); try discriminate.
  apply (seg_quoted [(120, false); (44, false); (34, true); (121, false)] (u " ")).
  - repeat (apply Forall_cons || apply Forall_nil); unfold q_ok, qdtext, qpair; cbn; lia.
  - repeat constructor; discriminate.
Qed.

(** ** C16: unquoting. *)

(** [quote s] escapes quotes and backslashes with a backslash. *)
Theorem C16_round_trip : forall s, unquote_string (quote s) = s.
Proof. exact unquote_quote. Qed.
Print Assumptions C16_round_trip.
Example C16_ex : quote (u "a""b\") = u """a\""b\\""" /\ unquote_string (u """a\""b\\""") = u "a""b\".
Proof. split; reflexivity. Qed.
(** Any quoted string, in whitespace, whichever characters it escapes; only a
    backslash before a newline is not an escape. *)
Theorem C16_quoted : forall a its b,
  all_space a -> all_space b ->
  Forall (fun i : qitem => if snd i then fst i <> 10 else fst i <> 92) its ->
  unquote_string (a ++ quoted its ++ b) = map fst its.
Proof. exact unquote_quoted. Qed.
Print Assumptions C16_quoted.
Example C16_quoted_ex : unquote_string (u "  ""\a\\b""  ") = u "a\b".
Proof. reflexivity. Qed.
Theorem C16_unquoted : forall s,
  first_chr (strip s) <> Some 34 \/ last_chr (strip s) <> Some 34 -> unquote_string s = strip s.
Proof. exact unquote_unquoted. Qed.
Print Assumptions C16_unquoted.
Example C16_unquoted_ex : first_chr (strip (u " a""b ")) <> Some 34 /\ unquote_string (u " a""b ") = u "a""b".
Proof. split; [discriminate|reflexivity]. Qed.

(** ** C17: parameters.

    [param_ok p]: a token name (not ending in an asterisk), "=", a token or
    quoted-string value, in optional whitespace.  Joined by the delimiter they
    parse to a dictionary giving each lower-cased name the (unquoted) value of
    its last occurrence; [param_events] is PARAM_REPEATS for each parameter
    whose name occurred before, and PARAM_SINGLE_QUOTED for each value in single
    quotes, in order, and nothing else. *)
Theorem C17_params : forall e n dl ps,
  Forall param_ok ps ->
  exists d, parse_params e (join [delim_chr dl] (map param_text ps)) n dl = (param_events [] ps, Ok d)
    /\ forall k, dget k d = option_map Some (last_value k ps).
Proof. exact parse_params_ok. Qed.
Print Assumptions C17_params.
(** [PARAM_REPEATS] is reported iff some name repeats, ignoring case. *)
Lemma repeats_iff ps : forall seen,
  ((exists v, In (ENote PARAM_REPEATS None v []) (param_events seen ps))
   <-> exists l p r, ps = l ++ p :: r /\ In (lower (pa_name p)) (seen ++ map (fun q => lower (pa_name q)) l)).
Proof.
  induction ps as [|p ps IH]; intros seen; cbn [param_events].
  - split; [intros (v & []) | intros (l & p & r & H & _); destruct l; discriminate].
  - split.
    + intros (v & H). apply in_app_iff in H as [H|H].
      * destruct (str_in (lower (pa_name p)) seen) eqn:E; [|destruct H].
        exists [], p, ps. split; [reflexivity|]. rewrite app_nil_r. apply str_in_In, E.
      * apply in_app_iff in H as [H|H].
        { exfalso. destruct (single_quoted (pa_val p)); [destruct H as [H|[]]; discriminate|destruct H]. }
        destruct (proj1 (IH (lower (pa_name p) :: seen)) (ex_intro _ v H)) as (l & q & r & -> & Hq).
        exists (p :: l), q, r. split; [reflexivity|]. apply in_app_iff. cbn [map In].
        cbn [app In] in Hq. destruct Hq as [Hq|Hq]; [right; left; exact Hq|].
        apply in_app_iff in Hq as [Hq|Hq]; [left; exact Hq|right; right; exact Hq].
    + intros (l & q & r & E & Hq). destruct l as [|x l]; cbn [app] in E; injection E as <- ->.
      * rewrite app_nil_r in Hq. apply str_in_In in Hq. rewrite Hq. eexists. left. reflexivity.
      * destruct (proj2 (IH (lower (pa_name p) :: seen))) as (v & Hv).
        { exists l, q, r. split; [reflexivity|]. cbn [app In]. cbn [map] in Hq. apply in_app_iff in Hq as [Hq|[Hq|Hq]].
          - right. apply in_app_iff. left. exact Hq.
          - left. exact Hq.
          - right. apply in_app_iff. right. exact Hq. }
        exists v. apply in_app_iff. right. apply in_app_iff. right. exact Hv.
Qed.
Theorem C17_repeats : forall e n dl ps,
  Forall param_ok ps ->
  (exists v, In (ENote PARAM_REPEATS None v []) (fst (parse_params e (join [delim_chr dl] (map param_text ps)) n dl)))
  <-> exists l p r q, ps = l ++ p :: r /\ In q l /\ lower (pa_name q) = lower (pa_name p).
Proof.
  intros e n dl ps H. destruct (parse_params_ok e n dl ps H) as (d & -> & _). cbn [fst].
  rewrite (repeats_iff ps []). cbn [app]. split.
  - intros (l & p & r & E & Hin). apply in_map_iff in Hin as (q & Eq & Hq). exists l, p, r, q. auto.
  - intros (l & p & r & q & E & Hq & Eq). exists l, p, r. split; [exact E|]. apply in_map_iff. exists q. auto.
Qed.
Print Assumptions C17_repeats.
Example C17_ex :
  let ps := [mkParam (u "A") (PTok (u "x")) [] (u " "); mkParam (u "b") (PQuoted [(59, false); (34, true)]) (u " ") [];
             mkParam (u "a") (PTok (u "y")) [] []] in
  Forall param_ok ps
  /\ join [delim_chr DSemi] (map param_text ps) = u "A=x ; b="";\"""";a=y"
  /\ last_value (u "a") ps = Some (u "y") /\ last_value (u "b") ps = Some (u ";""")
  /\ param_events [] ps = [ENote PARAM_REPEATS None [(k_param, VStr (u "a"))] []].
Proof.
  cbv zeta. split; [|repeat split; vm_compute; reflexivity].
  repeat constructor; cbn; try discriminate; unfold q_ok, qdtext, qpair; cbn; lia.
Qed.

(** ** C29: integers.

    [int_text v z]: [v] is an optional sign and at most 4300 digits, with single
    underscores allowed between digits (what Python's int() reads), and denotes
    [z].  This is more than 1*DIGIT: the property as stated is refuted
    ([C29_refuted]); for 1*DIGIT texts the value is the decimal one. *)
Definition age_spec (evs : list ev) (r : res pyval) (v : str) : Prop :=
  (forall z, r = Ok (VInt z) <-> int_text v z /\ (0 <= z)%Z)
  /\ (In (ENote AGE_NOT_INT None [] []) evs <-> forall z, ~ int_text v z)
  /\ (In (ENote AGE_NEGATIVE None [] []) evs <-> exists z, int_text v z /\ (z < 0)%Z)
  /\ (In (ENote AGE_LARGE None [] []) evs <-> exists z, int_text v z /\ (2147483648 < z)%Z)
  /\ (evs = [] <-> exists z, int_text v z /\ (0 <= z <= 2147483648)%Z).
Lemma int_cases raw : (exists z, py_int (strip raw) = Some z /\ int_text (strip raw) z /\ forall z', int_text (strip raw) z' -> z' = z)
  \/ (py_int (strip raw) = None /\ forall z, ~ int_text (strip raw) z).
Proof.
  assert (Hs := fun z => py_int_spec (strip raw) z (strip_stripped raw)).
  destruct (py_int (strip raw)) as [z0|] eqn:E.
  - left. exists z0. assert (H0 : int_text (strip raw) z0) by (apply Hs; reflexivity). split; [reflexivity|].
    split; [exact H0|]. intros; eapply int_text_fun; eauto.
  - right. split; [reflexivity|]. intros z H. apply Hs in H. discriminate.
Qed.
Section IntCases.
  Variables (v : str) (z0 : Z).
  Hypothesis (H0 : int_text v z0) (Hu : forall z', int_text v z' -> z' = z0).
  Lemma int_ex (P : Z -> Prop) : (exists z, int_text v z /\ P z) <-> P z0.
  Proof. split; [intros (z & H1 & H2); rewrite (Hu z H1) in H2; exact H2|eauto]. Qed.
  Lemma int_none : (forall z, ~ int_text v z) <-> False.
  Proof. split; [intros H; exact (H _ H0)|intros []]. Qed.
  Lemma int_val (P : Z -> Prop) z : (int_text v z /\ P z) <-> z = z0 /\ P z0.
  Proof. split; [intros [H1 H2]; rewrite (Hu z H1) in *; auto|intros [-> H]; auto]. Qed.
End IntCases.
Lemma in_one (a b : ev) : In a [b] <-> b = a.
Proof. cbn. tauto. Qed.
Lemma in_none (a : ev) : In a [] <-> False.
Proof. reflexivity. Qed.
Ltac int_case H0 Hu := rewrite ?(int_ex _ _ H0 Hu), ?(int_none _ _ H0);
  repeat match goal with
         | |- forall z : Z, _ <-> _ => intro; rewrite ?(int_val _ _ H0 Hu (fun z => (0 <= z)%Z)), ?(int_val _ _ H0 Hu (fun _ => True))
         end;
  rewrite ?in_one, ?in_none;
  split; intros; repeat match goal with H : _ /\ _ |- _ => destruct H end;
  repeat match goal with H : Ok _ = Ok _ |- _ => injection H as H end; subst;
  try discriminate; try lia; try reflexivity; try contradiction.
Theorem C29_age : forall c h raw,
  age_spec (fst (parse_of F_age c h (strip raw))) (snd (parse_of F_age c h (strip raw))) (strip raw).
Proof.
  intros c h raw. cbn [parse_of]. unfold p_age, age_spec.
  destruct (int_cases raw) as [(z0 & -> & H0 & Hu)|[-> Hn]].
  - destruct (z0 <? 0)%Z eqn:Eneg; [apply Z.ltb_lt in Eneg|apply Z.ltb_ge in Eneg;
      destruct (2147483648 <? z0)%Z eqn:El; [apply Z.ltb_lt in El|apply Z.ltb_ge in El]];
    cbn [fst snd add_note tell bind raise ret when app].
    all: split; [|split; [|split; [|split]]]; int_case H0 Hu.
  - cbn [fst snd add_note tell bind raise ret when app]. split; [|split; [|split; [|split]]].
    + intros z. split; [discriminate|]. intros [H _]. destruct (Hn _ H).
    + split; [intros _; exact Hn|]. intros _. left; reflexivity.
    + split; [intros [H|[]]; discriminate|]. intros (z & H & _). destruct (Hn _ H).
    + split; [intros [H|[]]; discriminate|]. intros (z & H & _). destruct (Hn _ H).
    + split; [discriminate|]. intros (z & H & _). destruct (Hn _ H).
Qed.
Print Assumptions C29_age.
Example C29_age_ex : parse_of F_age (mkCx env0 (Message.new_message MResponse None false) None) (new_handler (u "Age")) (strip (u " 3600 ")) = ([], Ok (VInt 3600)).
Proof. reflexivity. Qed.

Theorem C29_content_length : forall c h raw,
  let '(evs, r) := parse_of F_content_length c h (strip raw) in
  (forall z, r = Ok (VInt z) <-> int_text (strip raw) z)
  /\ (In (ENote CL_BAD_SYNTAX None [] []) evs <-> forall z, ~ int_text (strip raw) z)
  /\ (In (ENote CL_TOO_LARGE None [] []) evs <-> exists z, int_text (strip raw) z /\ (2 ^ 63 - 1 < z)%Z)
  /\ (evs = [] <-> exists z, int_text (strip raw) z /\ (z <= 2 ^ 63 - 1)%Z).
Proof.
  intros c h raw. cbn [parse_of]. unfold p_content_length.
  change (2 ^ 63 - 1)%Z with 9223372036854775807%Z.
  destruct (int_cases raw) as [(z0 & -> & H0 & Hu)|[-> Hn]].
  - destruct (9223372036854775807 <? z0)%Z eqn:El; [apply Z.ltb_lt in El|apply Z.ltb_ge in El];
      cbn [fst snd add_note tell bind raise ret when app];
      (split; [|split; [|split]]); try (int_case H0 Hu; fail).
    + intros z. split; [intros H; injection H as <-; exact H0|intros H; rewrite (Hu z H); reflexivity].
    + intros z. split; [intros H; injection H as <-; exact H0|intros H; rewrite (Hu z H); reflexivity].
  - cbn [fst snd add_note tell bind raise ret when app]. split; [|split; [|split]].
    + intros z. split; [discriminate|]. intros H. destruct (Hn _ H).
    + split; [intros _; exact Hn|]. intros _. left; reflexivity.
    + split; [intros [H|[]]; discriminate|]. intros (z & H & _). destruct (Hn _ H).
    + split; [discriminate|]. intros (z & H & _). destruct (Hn _ H).
Qed.
Print Assumptions C29_content_length.
Theorem C29_max_age : forall c h raw,
  let '(evs, r) := parse_of F_access_control_max_age c h (strip raw) in
  (forall z, r = Ok (VInt z) <-> int_text (strip raw) z /\ (0 <= z)%Z)
  /\ (evs = [] <-> exists z, int_text (strip raw) z /\ (0 <= z)%Z)
  /\ ((exists v, In (ENote CORS_MAX_AGE_INVALID None v []) evs) <-> forall z, ~ int_text (strip raw) z)
  /\ ((exists v, In (ENote CORS_MAX_AGE_NEGATIVE None v []) evs) <-> exists z, int_text (strip raw) z /\ (z < 0)%Z).
Proof.
  intros c h raw. cbn [parse_of]. unfold p_acma.
  destruct (int_cases raw) as [(z0 & -> & H0 & Hu)|[-> Hn]].
  - destruct (z0 <? 0)%Z eqn:El; [apply Z.ltb_lt in El|apply Z.ltb_ge in El];
      cbn [fst snd add_note tell bind raise ret when app];
      (split; [|split; [|split]]); try (int_case H0 Hu; fail);
      rewrite ?(int_ex _ _ H0 Hu), ?(int_none _ _ H0); split.
    all: try (intros (v & [H|[]]); discriminate). all: try (intros (v & [])). all: try (intros H; exfalso; lia).
    all: try (intros [Hx]; destruct Hx; fail). all: try contradiction.
    + exact El.
    + intros _. eexists. left. reflexivity.
  - cbn [fst snd add_note tell bind raise ret when app]. split; [|split; [|split]].
    + intros z. split; [discriminate|]. intros [H _]. destruct (Hn _ H).
    + split; [discriminate|]. intros (z & H & _). destruct (Hn _ H).
    + split; [intros _; exact Hn|]. intros _. eexists. left; reflexivity.
    + split; [intros (v & [H|[]]); discriminate|]. intros (z & H & _). destruct (Hn _ H).
Qed.
Print Assumptions C29_max_age.
(** 1*DIGIT texts are read as decimal numbers (up to Python's own 4300-digit limit). *)
Theorem C29_digits : forall ds, digits ds -> N.of_nat (length ds) <= 4300 ->
  int_text ds (Z.of_N (decimal ds)) /\ (0 <= Z.of_N (decimal ds))%Z /\ strip ds = ds.
Proof.
  intros ds H Hn. split; [apply digits_int; assumption|]. split; [lia|].
  destruct (digits_stripped ds) as [H1 H2]; [apply H|]. apply strip_id; assumption.
Qed.
Print Assumptions C29_digits.
Example C29_digits_ex : digits (u "00120") /\ decimal (u "00120") = 120.
Proof. split; [split; [discriminate|reflexivity]|reflexivity]. Qed.
(** Not only 1*DIGIT is accepted, without any report; a negative Content-Length too. *)
Theorem C29_refuted : forall c h,
  parse_of F_age c h (u "1_0") = ([], Ok (VInt 10)) /\ parse_of F_age c h (u "+5") = ([], Ok (VInt 5))
  /\ parse_of F_content_length c h (u "-7") = ([], Ok (VInt (-7)))
  /\ ~ digits (u "1_0") /\ ~ digits (u "+5") /\ ~ digits (u "-7").
Proof. intros. repeat split; try (vm_compute; reflexivity); intros [_ H]; discriminate. Qed.
Print Assumptions C29_refuted.

(** ** C38: media types.

    [media_range wild tok mt ty sub]: [mt] is ty/sub with non-empty, slash-free
    parts; an asterisk is allowed only with [wild], as "*/*" or "type/*"; with
    [tok] both parts are tokens. [eol P]: [P], possibly with a newline appended
    (the regex [$]). [restricted]: the alphabet of RFC 6838 section 4.2. *)
Theorem C38_malformed : forall mt n ref wild tok,
  n <> MEDIA_TYPE_LONG_NAME -> n <> MEDIA_TYPE_BAD_NAME ->
  ((exists v, In (ENote n None v []) (fst (check_media_type mt (Some n) ref wild tok)))
   <-> forall ty sub, ~ media_range wild tok mt ty sub).
Proof.
  intros mt n ref wild tok H1 H2.
  destruct (media_spec mt (Some n) ref wild tok) as [(ty & sub & l & b & Hm & -> & _)|[Hn ->]]; cbn [fst bad_media].
  - split; [|intros H; destruct (H _ _ Hm)]. intros (v & H). exfalso. apply in_app_iff in H as [H|H].
    + destruct l; [destruct H as [H|[]]; unfold media_note in H; congruence|destruct H].
    + destruct b; [destruct H as [H|[]]; unfold media_note in H; congruence|destruct H].
  - split; [intros _; exact Hn|]. intros _. eexists. left. reflexivity.
Qed.
Print Assumptions C38_malformed.
Theorem C38_names : forall mt ref wild tok bad,
  (forall n, bad = Some n -> n <> MEDIA_TYPE_LONG_NAME /\ n <> MEDIA_TYPE_BAD_NAME) ->
  (In (media_note MEDIA_TYPE_LONG_NAME mt) (fst (check_media_type mt bad ref wild tok))
   <-> exists ty sub n, media_range wild tok mt ty sub /\ In n [ty; sub] /\ n <> star /\ eol token n /\ (127 < length n)%nat)
  /\ (In (media_note MEDIA_TYPE_BAD_NAME mt) (fst (check_media_type mt bad ref wild tok))
   <-> exists ty sub n, media_range wild tok mt ty sub /\ In n [ty; sub] /\ n <> star /\ eol token n /\ ~ eol restricted n).
Proof.
  intros mt ref wild tok bad Hb.
  destruct (media_spec mt bad ref wild tok) as [(ty & sub & l & b & Hm & -> & Hl & Hbn)|[Hn ->]]; cbn [fst].
  - assert (Hu : forall ty' sub', media_range wild tok mt ty' sub' -> ty = ty' /\ sub = sub').
    { intros ty' sub' (Hs & _). destruct Hm as (Hs0 & _). eapply slashed_fun; eauto. }
    split; rewrite in_app_iff.
    + split.
      * intros [H|H].
        { destruct l; [|destruct H]. destruct (proj1 Hl eq_refl) as (n & Hn). exists ty, sub, n. tauto. }
        { destruct b; [destruct H as [H|[]]; discriminate|destruct H]. }
      * intros (ty' & sub' & n & Hm' & H). destruct (Hu _ _ Hm') as [<- <-].
        left. rewrite (proj2 Hl); [left; reflexivity|eauto].
    + split.
      * intros [H|H].
        { destruct l; [destruct H as [H|[]]; discriminate|destruct H]. }
        { destruct b; [|destruct H]. destruct (proj1 Hbn eq_refl) as (n & Hn). exists ty, sub, n. tauto. }
      * intros (ty' & sub' & n & Hm' & H). destruct (Hu _ _ Hm') as [<- <-].
        right. rewrite (proj2 Hbn); [left; reflexivity|eauto].
  - unfold bad_media. destruct bad as [n|].
    + destruct (Hb n eq_refl) as [H1 H2].
      split; (split; [intros [H|[]]; unfold media_note in H; congruence|intros (ty & sub & _ & H & _); destruct (Hn _ _ H)]).
    + split; (split; [intros []|intros (ty & sub & _ & H & _); destruct (Hn _ _ H)]).
Qed.
Print Assumptions C38_names.
(** The type is the text before the first semicolon, stripped and lower-cased. *)
Theorem C38_value : forall e v bad ref wild n mt d,
  snd (parse_media_type e v bad ref wild n) = Ok (mt, d) ->
  exists before rest, v = before ++ rest /\ ~ In 59 before /\ (rest = [] \/ exists r, rest = 59 :: r)
    /\ mt = lower (strip before).
Proof.
  intros e v bad ref wild n mt d. unfold parse_media_type.
  assert (Hv : exists before rest ps, v = before ++ rest /\ ~ In 59 before /\ (rest = [] \/ exists r, rest = 59 :: r)
     /\ match split1 59 v with Some (a, b) => (a, b) | None => (v, []) end = (before, ps)).
  { pose proof (partition_spec 59 v) as H. unfold partition_chr in H.
    destruct H as [(a & b & -> & Ha & E)|[Hn E]].
    - exists a, (59 :: b), b. repeat split; [exact Ha|right; eauto|].
      destruct (split1 59 (a ++ 59 :: b)) as [[x y]|]; [injection E as -> ->; reflexivity|discriminate].
    - exists v, []. eexists. rewrite app_nil_r. repeat split; [exact Hn|left; reflexivity|].
      destruct (split1 59 v) as [[x y]|]; [injection E; discriminate|reflexivity]. }
  destruct Hv as (before & rest & ps & E1 & E2 & E3 & ->). intros H.
  exists before, rest. repeat split; [exact E1|exact E2|exact E3|].
  destruct (media_spec (lower (strip before)) bad ref wild false) as [(ty & sub & l & b & _ & Ec & _)|[_ Ec]];
    rewrite Ec in H; cbn [bind] in H;
    destruct (parse_params e ps n DSemi) as [l' [d'|x]]; cbn in H; try discriminate; injection H as <- _; reflexivity.
Qed.
Print Assumptions C38_value.
Example C38_ex :
  media_range false true (u "text/html") (u "text") (u "html")
  /\ media_range true true (u "text/*") (u "text") star
  /\ (forall ty sub, ~ media_range false true (u "text/*") ty sub)
  /\ eol token (u "a'b") /\ ~ eol restricted (u "a'b")
  /\ fst (check_media_type (u "text/a'b") (Some BAD_SYNTAX) None false true) = [media_note MEDIA_TYPE_BAD_NAME (u "text/a'b")].
Proof.
  assert (Ht : forall s, match_dollar (nocase rfc9110_token) s = true -> eol token s) by (intros s; apply token_match).
  assert (Hsl : forall ty sub, nonempty ty && nonempty sub && negb (has_chr 47 ty) && negb (has_chr 47 sub) = true ->
                slashed (ty ++ 47 :: sub) ty sub).
  { intros ty sub H. rewrite !andb_true_iff, !negb_true_iff in H. destruct H as [[[H1 H2] H3] H4].
    split; [reflexivity|]. split; [intros ->; discriminate|]. split; [intros ->; discriminate|].
    split; intros Hi; apply has_chr_In in Hi; congruence. }
  split; [|split; [|split; [|split; [|split]]]].
  - split; [apply (Hsl (u "text") (u "html")); reflexivity|]. split; [discriminate|]. split; [discriminate|].
    intros _ n [<-|[<-|[]]] _; apply Ht; vm_compute; reflexivity.
  - split; [apply (Hsl (u "text") star); reflexivity|]. split; [discriminate|]. split; [reflexivity|].
    intros _ n [<-|[<-|[]]] Hn; [apply Ht; vm_compute; reflexivity|congruence].
  - intros ty sub Hm. assert (Hs : slashed (u "text/*") (u "text") star).
    { apply (Hsl (u "text") star); reflexivity. }
    pose proof Hm as (Hs' & _ & H2 & _). destruct (slashed_fun _ _ _ _ _ Hs Hs') as [<- <-]. specialize (H2 eq_refl). discriminate.
  - apply Ht. vm_compute. reflexivity.
  - rewrite <- restricted_match. vm_compute. discriminate.
  - vm_compute. reflexivity.
Qed.
