(** * HTTP dates: C28 *)
From Verif Require Import PyStr Regex Grammar Note PyLib Utils NoteLemmas TestEnv LexLemmas ParamLemmas NumLemmas DateLemmas.
From Coq Require Import ZifyBool ZifyN.
Open Scope N_scope.

(** The fourth character tells the preferred form from the obsolete ones. *)
Lemma short_fourth w c r : In (lower w) day_names -> nth_error (lower (w ++ c :: r)) 3 = Some (lowc c).
Proof.
  intros H. rewrite lower_app.
  assert (Hl : length (lower w) = 3%nat).
  { assert (Ha : forallb (fun d => Nat.eqb (length d) 3) day_names = true) by reflexivity.
    rewrite forallb_forall in Ha. apply Nat.eqb_eq, Ha, H. }
  rewrite nth_error_app2 by lia. rewrite Hl. reflexivity.
Qed.
Lemma long_fourth w r : In (lower w) long_day_names -> exists c, nth_error (lower (w ++ r)) 3 = Some c /\ c <> 44.
Proof.
  intros H. rewrite lower_app.
  assert (Ha : forallb (fun d => match nth_error d 3 with Some c => negb (c =? 44) | None => false end) long_day_names = true)
    by reflexivity.
  rewrite forallb_forall in Ha. specialize (Ha _ H). destruct (nth_error (lower w) 3) as [c|] eqn:E; [|discriminate].
  exists c. rewrite nth_error_app1 by (apply nth_error_Some; congruence). split; [exact E|]. intros ->. discriminate.
Qed.
Lemma imf_fourth t v e : imf_date t v -> nth_error (lower (v ++ e)) 3 = Some 44.
Proof.
  intros (wd & mon & gmt & -> & Hwd & _). rewrite <- app_assoc. change (u ", ") with (44 :: [32]). cbn [app].
  exact (short_fourth wd 44 _ Hwd).
Qed.
Lemma obs_fourth v e : obs_text v -> nth_error (lower (v ++ e)) 3 <> Some 44.
Proof.
  intros [(t & wd & mon & gmt & -> & Hwd & _)|(t & wd & mon & day & -> & Hwd & _)]; rewrite <- app_assoc.
  - destruct (long_fourth wd ((u ", " ++ t_dd t ++ u "-" ++ mon ++ u "-" ++ t_yy t ++ u " " ++ clock t ++ u " " ++ gmt) ++ e) Hwd)
      as (c & E & Hc). rewrite E. congruence.
  - change (u " ") with [32]. cbn [app]. rewrite (short_fourth wd 32 _ Hwd). discriminate.
Qed.
Lemma imf_not_obs t v e : imf_date t v -> match_dollar (nocase rfc9110_obs_date) (v ++ e) = false.
Proof.
  intros H. apply not_true_iff_false. rewrite obs_match. intros Ho. apply (imf_fourth t v e) in H.
  destruct Ho as [Ho|(p & E & Ho)].
  - apply (obs_fourth _ []) in Ho. rewrite app_nil_r in Ho. congruence.
  - apply (obs_fourth _ [10]) in Ho. rewrite <- E in Ho. congruence.
Qed.
Lemma num_bound n s : digs n s -> (0 <= num s < 10 ^ Z.of_nat n)%Z.
Proof.
  unfold num. intros [<- H]. induction s as [|c r IH]; [cbn; lia|]. cbn [forallb] in H. apply andb_true_iff in H as [Hc H].
  specialize (IH H). cbn [decimal length]. rewrite Nat2Z.inj_succ, Z.pow_succ_r by lia.
  rewrite N2Z.inj_add, N2Z.inj_mul, N2Z.inj_pow, nat_N_Z. change (Z.of_N 10) with 10%Z.
  unfold is_digit in Hc. set (w := (10 ^ Z.of_nat (length r))%Z) in *.
  assert (0 <= Z.of_N (c - 48) <= 9)%Z by lia. nia.
Qed.
Lemma month_range m s : month_is m s -> (1 <= m <= 12)%nat.
Proof. intros H. apply (month_index m s H). Qed.
Lemma full_year_again y : (0 <= y)%Z -> full_year (full_year y) = full_year y.
Proof. intros H. unfold full_year. destruct (y <? 100)%Z eqn:E; [destruct (68 <? y)%Z eqn:E2|]; repeat (match goal with |- context [(?a <? 100)%Z] => destruct (a <? 100)%Z eqn:?; try lia end). Qed.
(** The common end of the three cases. *)
Lemma stamp_time t m y : (0 <= num (t_yy t) < 10000)%Z -> (1 <= m <= 12)%nat -> Z.of_nat y = full_year (num (t_yy t)) ->
  lift (timegm (if (full_year (num (t_yy t)) <? 100)%Z
             then (if (68 <? full_year (num (t_yy t)))%Z then full_year (num (t_yy t)) + 1900 else full_year (num (t_yy t)) + 2000)%Z
             else full_year (num (t_yy t))) (Z.of_nat m) (num (t_dd t)) (num (t_hh t)) (num (t_mi t)) (num (t_ss t)))
  = ([], Ok (epoch y m (num (t_dd t)) (num (t_hh t)) (num (t_mi t)) (num (t_ss t)))).
Proof.
  intros Hy Hm E. fold (full_year (full_year (num (t_yy t)))). rewrite full_year_again by lia. rewrite <- E.
  rewrite timegm_epoch; [reflexivity| |exact Hm]. rewrite E. unfold full_year.
  destruct (num (t_yy t) <? 100)%Z eqn:E1; [destruct (68 <? num (t_yy t))%Z eqn:E2|]; lia.
Qed.

(** [imf_date t v], [rfc850_date t v], [asctime_date t v] (DateLemmas): [v] is the
    date, in that form, with day digits [t_dd t], month [t_m t], year digits
    [t_yy t] and the time of day.  [num] reads decimal digits.  [epoch] counts
    seconds from 1970 by summing the lengths of years and months.  A single
    newline may follow (Python's [$]). *)
Definition at_epoch (t : stamp) (year : nat) : Z :=
  epoch year (t_m t) (num (t_dd t)) (num (t_hh t)) (num (t_mi t)) (num (t_ss t)).

(** The year of four digits, whatever it is. *)
Lemma imf_any_year : forall t v e cat year,
  imf_date t v -> e = [] \/ e = [10] -> Z.of_nat year = full_year (num (t_yy t)) ->
  parse_http_date (v ++ e) cat = ([], Ok (at_epoch t year)).
Proof.
  intros t v e cat year H He Ey. unfold parse_http_date.
  assert (E1 : match_dollar (nocase rfc9110_HTTP_date) (v ++ e) = true).
  { apply date_match. destruct He as [-> | ->]; [rewrite app_nil_r; left|right; exists v; split; [reflexivity|]]; left; eauto. }
  rewrite E1, (imf_not_obs t v e H). cbn [negb when]. rewrite (parsedate_imf t v e H He). unfold read_stamp.
  destruct H as (wd & mon & gmt & _ & _ & _ & Hm & Hyy & _).
  pose proof (num_bound _ _ Hyy) as Hb. change (10 ^ Z.of_nat 4)%Z with 10000%Z in Hb.
  unfold at_epoch. cbn [bind]. cbv zeta. rewrite (stamp_time t (t_m t) year Hb (month_range _ _ Hm)); [reflexivity|exact Ey].
Qed.
Theorem C28_imf : forall t v e cat year,
  imf_date t v -> e = [] \/ e = [10] -> (100 <= num (t_yy t))%Z -> Z.of_nat year = num (t_yy t) ->
  parse_http_date (v ++ e) cat = ([], Ok (at_epoch t year)).
Proof.
  intros t v e cat year H He Hy Ey. apply imf_any_year; [exact H|exact He|].
  unfold full_year. destruct (num (t_yy t) <? 100)%Z eqn:E; lia.
Qed.
Print Assumptions C28_imf.

Theorem C28_rfc850 : forall t v e cat year,
  rfc850_date t v -> e = [] \/ e = [10] ->
  Z.of_nat year = (num (t_yy t) + if (num (t_yy t) <=? 68)%Z then 2000 else 1900)%Z ->
  parse_http_date (v ++ e) cat = ([ENote DATE_OBSOLETE cat [] []], Ok (at_epoch t year)).
Proof.
  intros t v e cat year H He Ey. unfold parse_http_date.
  assert (Ho : eol obs_text (v ++ e)).
  { destruct He as [-> | ->]; [rewrite app_nil_r; left|right; exists v; split; [reflexivity|]]; left; eauto. }
  assert (E1 : match_dollar (nocase rfc9110_HTTP_date) (v ++ e) = true).
  { apply date_match. destruct Ho as [Ho|(p & E & Ho)]; [left; right; exact Ho|right; exists p; split; [exact E|right; exact Ho]]. }
  apply obs_match in Ho. rewrite E1, Ho. cbn [negb when]. rewrite (parsedate_rfc850 t v e H He). unfold read_stamp.
  destruct H as (wd & mon & gmt & _ & _ & _ & Hm & Hyy & _).
  pose proof (num_bound _ _ Hyy) as Hb. change (10 ^ Z.of_nat 2)%Z with 100%Z in Hb.
  unfold at_epoch. cbn [bind tell]. cbv zeta. rewrite (stamp_time t (t_m t) year); [reflexivity|lia|apply (month_range _ _ Hm)|].
  unfold full_year. destruct (num (t_yy t) <? 100)%Z eqn:E; [|lia].
  destruct (num (t_yy t) <=? 68)%Z eqn:E2; destruct (68 <? num (t_yy t))%Z eqn:E3; lia.
Qed.
Print Assumptions C28_rfc850.

Lemma asctime_any_year : forall t v e cat year,
  asctime_date t v -> e = [] \/ e = [10] -> Z.of_nat year = full_year (num (t_yy t)) ->
  parse_http_date (v ++ e) cat = ([ENote DATE_OBSOLETE cat [] []], Ok (at_epoch t year)).
Proof.
  intros t v e cat year H He Ey. unfold parse_http_date.
  assert (Ho : eol obs_text (v ++ e)).
  { destruct He as [-> | ->]; [rewrite app_nil_r; left|right; exists v; split; [reflexivity|]]; right; eauto. }
  assert (E1 : match_dollar (nocase rfc9110_HTTP_date) (v ++ e) = true).
  { apply date_match. destruct Ho as [Ho|(p & E & Ho)]; [left; right; exact Ho|right; exists p; split; [exact E|right; exact Ho]]. }
  apply obs_match in Ho. rewrite E1, Ho. cbn [negb when]. rewrite (parsedate_asctime t v e H He). unfold read_stamp.
  destruct H as (wd & mon & day & _ & _ & _ & Hm & Hyy & _).
  pose proof (num_bound _ _ Hyy) as Hb. change (10 ^ Z.of_nat 4)%Z with 10000%Z in Hb.
  unfold at_epoch. cbn [bind tell]. cbv zeta. rewrite (stamp_time t (t_m t) year Hb (month_range _ _ Hm)); [reflexivity|exact Ey].
Qed.
Theorem C28_asctime : forall t v e cat year,
  asctime_date t v -> e = [] \/ e = [10] -> (100 <= num (t_yy t))%Z -> Z.of_nat year = num (t_yy t) ->
  parse_http_date (v ++ e) cat = ([ENote DATE_OBSOLETE cat [] []], Ok (at_epoch t year)).
Proof.
  intros t v e cat year H He Hy Ey. apply asctime_any_year; [exact H|exact He|].
  unfold full_year. destruct (num (t_yy t) <? 100)%Z eqn:E; lia.
Qed.
Print Assumptions C28_asctime.
(** Four-digit years below 100 are read like two-digit ones. *)
Theorem C28_early : forall t v e cat year,
  imf_date t v \/ asctime_date t v -> e = [] \/ e = [10] -> (num (t_yy t) < 100)%Z ->
  Z.of_nat year = (num (t_yy t) + if (num (t_yy t) <=? 68)%Z then 2000 else 1900)%Z ->
  snd (parse_http_date (v ++ e) cat) = Ok (at_epoch t year).
Proof.
  intros t v e cat year H He Hy Ey.
  assert (E : Z.of_nat year = full_year (num (t_yy t))).
  { rewrite Ey. unfold full_year. destruct (num (t_yy t) <? 100)%Z eqn:E1; [|lia].
    destruct (num (t_yy t) <=? 68)%Z eqn:E2; destruct (68 <? num (t_yy t))%Z eqn:E3; lia. }
  destruct H as [H|H]; [rewrite (imf_any_year t v e cat year H He E)|rewrite (asctime_any_year t v e cat year H He E)]; reflexivity.
Qed.
Print Assumptions C28_early.

(** Anything else: no value, and BAD_DATE_SYNTAX. *)
Theorem C28_bad : forall v cat,
  ~ eol date_text v -> parse_http_date v cat = ([ENote BAD_DATE_SYNTAX cat [] []], Err EValue).
Proof.
  intros v cat H. unfold parse_http_date.
  destruct (match_dollar (nocase rfc9110_HTTP_date) v) eqn:E; [apply date_match in E; destruct (H E)|]. reflexivity.
Qed.
Print Assumptions C28_bad.

(** The three spellings of one instant; leap days. *)
Example C28_ex :
  let t := mkStamp (u "06") 11 (u "1994") (u "08") (u "49") (u "37") in
  imf_date t (u "Sun, 06 Nov 1994 08:49:37 GMT") /\ at_epoch t 1994 = 784111777%Z
  /\ rfc850_date (mkStamp (u "06") 11 (u "94") (u "08") (u "49") (u "37")) (u "Sunday, 06-Nov-94 08:49:37 GMT")
  /\ asctime_date (mkStamp (u "6") 11 (u "1994") (u "08") (u "49") (u "37")) (u "Sun Nov  6 08:49:37 1994")
  /\ (epoch 2000 3 1 0 0 0 - epoch 2000 2 28 0 0 0 = 2 * 86400)%Z
  /\ (epoch 1900 3 1 0 0 0 - epoch 1900 2 28 0 0 0 = 86400)%Z
  /\ ~ eol date_text (u "1994-11-06").
Proof.
  cbv zeta. repeat match goal with |- _ /\ _ => split end.
  - exists (u "Sun"), (u "Nov"), (u "GMT"). repeat split; try reflexivity; try (cbn; lia). cbn. tauto.
  - vm_compute. reflexivity.
  - exists (u "Sunday"), (u "Nov"), (u "GMT"). repeat split; try reflexivity; try (cbn; lia). cbn. tauto.
  - exists (u "Sun"), (u "Nov"), (u " 6"). repeat split; try reflexivity; try (cbn; lia); [cbn; tauto|right; repeat split; reflexivity].
  - vm_compute. reflexivity.
  - vm_compute. reflexivity.
  - rewrite <- date_match. vm_compute. discriminate.
Qed.

(** What a user may not expect: a four-digit year below 100 is read as a
    two-digit one, and days and times that do not exist are accepted. *)
Theorem C28_deviations :
  parse_http_date (u "Sat, 01 Jan 0050 00:00:00 GMT") None = ([], Ok (epoch 2050 1 1 0 0 0))
  /\ parse_http_date (u "Sun, 31 Feb 2021 25:61:99 GMT") None = ([], Ok (epoch 2021 3 4 2 2 39)).
Proof. split; vm_compute; reflexivity. Qed.
Print Assumptions C28_deviations.
