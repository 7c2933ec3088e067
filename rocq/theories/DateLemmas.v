(** * HTTP dates (C28) *)
From Verif Require Import PyStr Regex Grammar Note PyLib Utils NoteLemmas LexLemmas ParamLemmas NumLemmas.
From Coq Require Import ZifyBool ZifyN.
Open Scope N_scope.

(** ** The calendar, from scratch *)
Definition leap_year (y : Z) : Prop := (y mod 4 = 0 /\ (y mod 100 <> 0 \/ y mod 400 = 0))%Z.
Definition is_leap (y : Z) : bool := ((y mod 4 =? 0) && (negb (y mod 100 =? 0) || (y mod 400 =? 0)))%Z.
Definition year_length (y : Z) : Z := (if is_leap y then 366 else 365)%Z.
Definition month_length (y : Z) (m : nat) : Z :=
  match m with
  | 2%nat => if is_leap y then 29 else 28
  | 4%nat | 6%nat | 9%nat | 11%nat => 30
  | _ => 31
  end%Z.
Fixpoint sum_to (f : nat -> Z) (n : nat) : Z :=
  match n with O => 0 | S k => (sum_to f k + f (S k))%Z end.
(** The number of days from 1 January of the year 1 to day [d] (1 is the first)
    of month [m] of year [y]. *)
Definition day_number (y : nat) (m : nat) (d : Z) : Z :=
  (sum_to (fun k => year_length (Z.of_nat k)) (y - 1)
   + sum_to (month_length (Z.of_nat y)) (m - 1) + (d - 1))%Z.
(** Seconds since 1970-01-01T00:00:00Z. *)
Definition epoch (y m : nat) (d h mi s : Z) : Z :=
  ((day_number y m d - day_number 1970 1 1) * 86400 + h * 3600 + mi * 60 + s)%Z.

Lemma is_leap_spec y : is_leap y = true <-> leap_year y.
Proof. unfold is_leap, leap_year. lia. Qed.
Lemma years_ok n : sum_to (fun k => year_length (Z.of_nat k)) n
  = (Z.of_nat n * 365 + Z.of_nat n / 4 - Z.of_nat n / 100 + Z.of_nat n / 400)%Z.
Proof.
  induction n as [|n IH]; [reflexivity|]. cbn [sum_to]. rewrite IH, Nat2Z.inj_succ.
  unfold year_length, is_leap. set (z := Z.of_nat n). assert (0 <= z)%Z by lia.
  destruct ((Z.succ z mod 4 =? 0) && (negb (Z.succ z mod 100 =? 0) || (Z.succ z mod 400 =? 0)))%Z eqn:E;
    Z.to_euclidean_division_equations; lia.
Qed.
Lemma months_ok y m : (1 <= m <= 12)%nat ->
  sum_to (month_length y) (m - 1) = days_before_month y (Z.of_nat m).
Proof.
  intros H. unfold days_before_month. rewrite Nat2Z.id. unfold leap.
  fold (is_leap y).
  do 13 (destruct m as [|m]; [try lia; cbn -[is_leap]; destruct (is_leap y); reflexivity|]). lia.
Qed.
Lemma timegm_epoch y m d h mi s : (1 <= Z.of_nat y <= 9999)%Z -> (1 <= m <= 12)%nat ->
  timegm (Z.of_nat y) (Z.of_nat m) d h mi s = Ok (epoch y m d h mi s).
Proof.
  intros Hy Hm. unfold timegm.
  assert (Hc : ((1 <=? Z.of_nat y) && (Z.of_nat y <=? 9999) && (1 <=? Z.of_nat m) && (Z.of_nat m <=? 12))%Z = true) by lia.
  rewrite Hc. f_equal. unfold epoch, ordinal.
  assert (E : day_number 1970 1 1 = 719162%Z).
  { unfold day_number. change (1970 - 1)%nat with 1969%nat. rewrite years_ok. reflexivity. }
  rewrite E. unfold day_number, days_before_year, epoch_ord. rewrite years_ok, (months_ok _ _ Hm).
  rewrite Nat2Z.inj_sub by lia. change (Z.of_nat 1) with 1%Z. lia.
Qed.

(** ** The three forms *)
Definition digs (n : nat) (s : str) : Prop := length s = n /\ forallb is_digit s = true.
Definition day_names : list str := map u ["mon"; "tue"; "wed"; "thu"; "fri"; "sat"; "sun"]%string.
Definition long_day_names : list str :=
  map u ["monday"; "tuesday"; "wednesday"; "thursday"; "friday"; "saturday"; "sunday"]%string.
Definition month_names : list str :=
  map u ["jan"; "feb"; "mar"; "apr"; "may"; "jun"; "jul"; "aug"; "sep"; "oct"; "nov"; "dec"]%string.
(** Month [m] (1 to 12), its name in any letter case. *)
Definition month_is (m : nat) (s : str) : Prop := (1 <= m)%nat /\ nth_error month_names (m - 1) = Some (lower s).
Record stamp := mkStamp { t_dd : str; t_m : nat; t_yy : str; t_hh : str; t_mi : str; t_ss : str }.
Definition clock (t : stamp) : str := t_hh t ++ u ":" ++ t_mi t ++ u ":" ++ t_ss t.
Definition clock_ok (t : stamp) : Prop := digs 2 (t_hh t) /\ digs 2 (t_mi t) /\ digs 2 (t_ss t).
(** Sun, 06 Nov 1994 08:49:37 GMT, letters in any case *)
Definition imf_date (t : stamp) (v : str) : Prop :=
  exists wd mon gmt, v = wd ++ u ", " ++ t_dd t ++ u " " ++ mon ++ u " " ++ t_yy t ++ u " " ++ clock t ++ u " " ++ gmt
    /\ In (lower wd) day_names /\ digs 2 (t_dd t) /\ month_is (t_m t) mon /\ digs 4 (t_yy t) /\ clock_ok t
    /\ lower gmt = u "gmt".
(** Sunday, 06-Nov-94 08:49:37 GMT *)
Definition rfc850_date (t : stamp) (v : str) : Prop :=
  exists wd mon gmt, v = wd ++ u ", " ++ t_dd t ++ u "-" ++ mon ++ u "-" ++ t_yy t ++ u " " ++ clock t ++ u " " ++ gmt
    /\ In (lower wd) long_day_names /\ digs 2 (t_dd t) /\ month_is (t_m t) mon /\ digs 2 (t_yy t) /\ clock_ok t
    /\ lower gmt = u "gmt".
(** Sun Nov  6 08:49:37 1994 *)
Definition asctime_date (t : stamp) (v : str) : Prop :=
  exists wd mon day, v = wd ++ u " " ++ mon ++ u " " ++ day ++ u " " ++ clock t ++ u " " ++ t_yy t
    /\ In (lower wd) day_names /\ (day = t_dd t /\ digs 2 (t_dd t) \/ day = 32 :: t_dd t /\ digs 1 (t_dd t))
    /\ month_is (t_m t) mon /\ digs 4 (t_yy t) /\ clock_ok t.

(** ** The grammar is that *)
Lemma ci_digit c : ci (in_ranges [(48, 57)]) c = is_digit c.
Proof.
  revert c. apply ascii_only.
  - intros c Hc. apply ci_high; [reflexivity|exact Hc].
  - intros c Hc. unfold is_digit. lia.
  - vm_compute. reflexivity.
Qed.
Lemma digit_lang s : lang (nocase rfc5234_DIGIT) s <-> exists c, s = [c] /\ is_digit c = true.
Proof.
  assert (E : nocase rfc5234_DIGIT = Chr (ci (in_ranges [(48, 57)]))) by reflexivity. rewrite E. split.
  - intros H. inversion H; subst. exists c. rewrite <- ci_digit. auto.
  - intros (c & -> & Hc). constructor. rewrite ci_digit. exact Hc.
Qed.
Lemma digs_S n s : digs (S n) s <-> exists c r, s = c :: r /\ is_digit c = true /\ digs n r.
Proof.
  unfold digs. destruct s as [|c r]; cbn.
  - split; [intros [H _]; discriminate|intros (c & r & H & _); discriminate].
  - rewrite andb_true_iff. split.
    + intros [H1 [H2 H3]]. exists c, r. repeat split; auto.
    + intros (c' & r' & H & H1 & H2 & H3). injection H as <- <-. auto.
Qed.
Lemma digits2_lang s : lang (nocase rfc9110_day) s <-> digs 2 s.
Proof.
  change (nocase rfc9110_day) with (Seq (nocase rfc5234_DIGIT) (nocase rfc5234_DIGIT)).
  rewrite lang_seq. split.
  - intros (x & y & -> & Hx & Hy). apply digit_lang in Hx as (c & -> & Hc). apply digit_lang in Hy as (d & -> & Hd).
    split; [reflexivity|]. cbn [app forallb]. rewrite Hc, Hd. reflexivity.
  - intros H. apply digs_S in H as (c & r & -> & Hc & H). apply digs_S in H as (d & r' & -> & Hd & [H _]).
    destruct r'; [|discriminate]. exists [c], [d]. split; [reflexivity|]. split; apply digit_lang; eauto.
Qed.
Lemma digits4_lang s : lang (nocase rfc9110_year) s <-> digs 4 s.
Proof.
  change (nocase rfc9110_year) with (Seq (nocase rfc5234_DIGIT) (Seq (nocase rfc5234_DIGIT) (nocase rfc9110_day))).
  rewrite lang_seq. split.
  - intros (x & y & -> & Hx & Hy). apply digit_lang in Hx as (c & -> & Hc).
    apply lang_seq in Hy as (x & z & -> & Hx & Hy). apply digit_lang in Hx as (d & -> & Hd). apply digits2_lang in Hy.
    cbn [app]. apply digs_S. exists c, (d :: z). split; [reflexivity|]. split; [exact Hc|]. apply digs_S. eauto.
  - intros H. apply digs_S in H as (c & r & -> & Hc & H). apply digs_S in H as (d & r' & -> & Hd & H).
    exists [c], (d :: r'). split; [reflexivity|]. split; [apply digit_lang; eauto|].
    apply lang_seq. exists [d], r'. split; [reflexivity|]. split; [apply digit_lang; eauto|apply digits2_lang, H].
Qed.
Lemma no_neg_lit s : no_neg (lit_ s) = true.
Proof. induction s as [|c [|d s] IH]; [reflexivity|reflexivity|]. cbn in *. exact IH. Qed.
Lemma lang_lit_ s t : lang (lit_ s) t <-> t = s.
Proof.
  revert t. induction s as [|c s IH]; intros t.
  - cbn. split; [intros H; inversion H; reflexivity|intros ->; constructor].
  - assert (Hc : forall x, lang (chr c) x <-> x = [c]).
    { intros x. unfold chr. split; [intros H; inversion H; subst|intros ->; constructor; apply N.eqb_refl].
      match goal with H : (c =? _) = true |- _ => apply N.eqb_eq in H; subst; reflexivity end. }
    destruct s as [|d s]; [apply Hc|]. change (lit_ (c :: d :: s)) with (Seq (chr c) (lit_ (d :: s))).
    rewrite lang_seq. split.
    + intros (x & y & -> & Hx & Hy). apply Hc in Hx. apply IH in Hy. subst. reflexivity.
    + intros ->. exists [c], (d :: s). split; [reflexivity|]. split; [apply Hc; reflexivity|apply IH; reflexivity].
Qed.
Lemma word_lang w s : lang (nocase (lit w)) s <-> lower s = lower (u w).
Proof.
  unfold lit. rewrite (nocase_lang _ _ (no_neg_lit (u w))). split.
  - intros (t & Ht & H). apply lang_lit_ in H. subst. congruence.
  - intros H. exists (u w). split; [congruence|apply lang_lit_; reflexivity].
Qed.
Lemma alts_cons r r2 l : alts (r :: r2 :: l) = Alt r (alts (r2 :: l)).
Proof. reflexivity. Qed.
Lemma words_lang ws s : ws <> [] -> (lang (nocase (alts (map lit ws))) s <-> In (lower s) (map (fun w => lower (u w)) ws)).
Proof.
  induction ws as [|w [|w2 ws] IH]; intros Hne; [congruence| |].
  - cbn [map alts In]. rewrite word_lang. split; [intros H; left; congruence|intros [H|[]]; congruence].
  - cbn [map]. rewrite alts_cons. cbn [nocase]. rewrite lang_alt. cbn [map] in IH. rewrite (IH ltac:(congruence)), word_lang.
    cbn [In]. split; (intros [H|H]; [left; congruence|right; exact H]).
Qed.
Lemma day_name_lang s : lang (nocase rfc9110_day_name) s <-> In (lower s) day_names.
Proof. apply (words_lang ["Mon"; "Tue"; "Wed"; "Thu"; "Fri"; "Sat"; "Sun"]%string s). discriminate. Qed.
Lemma day_name_l_lang s : lang (nocase rfc9110_day_name_l) s <-> In (lower s) long_day_names.
Proof.
  apply (words_lang ["Monday"; "Tuesday"; "Wednesday"; "Thursday"; "Friday"; "Saturday"; "Sunday"]%string s). discriminate.
Qed.
Lemma month_lang s : lang (nocase rfc9110_month) s <-> exists m, month_is m s.
Proof.
  assert (E : lang (nocase rfc9110_month) s <-> In (lower s) month_names).
  { apply (words_lang ["Jan"; "Feb"; "Mar"; "Apr"; "May"; "Jun"; "Jul"; "Aug"; "Sep"; "Oct"; "Nov"; "Dec"]%string s). discriminate. }
  rewrite E. unfold month_is. split.
  - intros H. apply In_nth_error in H as (n & H). exists (S n). split; [lia|]. cbn [Nat.sub]. rewrite Nat.sub_0_r. exact H.
  - intros (m & _ & H). eapply nth_error_In, H.
Qed.
Lemma gmt_lang s : lang (nocase rfc9110_GMT) s <-> lower s = u "gmt".
Proof. apply word_lang. Qed.
Lemma sep_lang c s : (c < 65) -> (lang (nocase (chr c)) s <-> s = [c]).
Proof.
  intros Hc. cbn [nocase]. split.
  - intros H. inversion H; subst. rewrite eqb_ci in H1 by auto. apply N.eqb_eq in H1. subst. reflexivity.
  - intros ->. constructor. rewrite eqb_ci by auto. apply N.eqb_refl.
Qed.
Lemma seqs_cons r r2 l : seqs (r :: r2 :: l) = Seq r (seqs (r2 :: l)).
Proof. reflexivity. Qed.
Lemma clock_lang s : lang (nocase rfc9110_time_of_day) s <->
  exists hh mi ss, s = hh ++ u ":" ++ mi ++ u ":" ++ ss /\ digs 2 hh /\ digs 2 mi /\ digs 2 ss.
Proof.
  change (nocase rfc9110_time_of_day) with (Seq (nocase rfc9110_day) (Seq (nocase (chr 58)) (Seq (nocase rfc9110_day)
    (Seq (nocase (chr 58)) (nocase rfc9110_day))))).
  split.
  - intros H. apply lang_seq in H as (h & r & -> & Hh & H). apply lang_seq in H as (c1 & r1 & -> & Hc1 & H).
    apply lang_seq in H as (m & r2 & -> & Hm & H). apply lang_seq in H as (c2 & x & -> & Hc2 & Hs).
    apply sep_lang in Hc1, Hc2; try lia. subst. apply digits2_lang in Hh, Hm, Hs. exists h, m, x. auto.
  - intros (h & m & x & -> & Hh & Hm & Hx).
    repeat (apply L_seq; [first [apply digits2_lang; assumption|apply sep_lang; [lia|reflexivity]]|]).
    apply digits2_lang, Hx.
Qed.
Ltac inv_seq H := let a := fresh "a" in let r := fresh "r" in let Ha := fresh "Ha" in
  apply lang_seq in H as (a & r & -> & Ha & H).
Lemma imf_lang v : lang (nocase rfc9110_IMF_fixdate) v <-> exists t, imf_date t v.
Proof.
  change (nocase rfc9110_IMF_fixdate) with (Seq (nocase rfc9110_day_name) (Seq (nocase (chr 44)) (Seq (nocase (chr 32))
    (Seq (Seq (nocase rfc9110_day) (Seq (nocase (chr 32)) (Seq (nocase rfc9110_month) (Seq (nocase (chr 32)) (nocase rfc9110_year)))))
    (Seq (nocase (chr 32)) (Seq (nocase rfc9110_time_of_day) (Seq (nocase (chr 32)) (nocase rfc9110_GMT)))))))).
  split.
  - intros H. apply lang_seq in H as (wd & r & -> & Hwd & H). apply lang_seq in H as (c1 & r1 & -> & Hc1 & H).
    apply lang_seq in H as (c2 & r2 & -> & Hc2 & H). apply lang_seq in H as (d1 & r3 & -> & Hd1 & H).
    apply lang_seq in Hd1 as (dd & s1 & -> & Hdd & Hd1). apply lang_seq in Hd1 as (c3 & s2 & -> & Hc3 & Hd1).
    apply lang_seq in Hd1 as (mon & s3 & -> & Hmon & Hd1). apply lang_seq in Hd1 as (c4 & yy & -> & Hc4 & Hyy).
    apply lang_seq in H as (c5 & r4 & -> & Hc5 & H). apply lang_seq in H as (tm & r5 & -> & Htm & H).
    apply lang_seq in H as (c6 & gmt & -> & Hc6 & Hgmt).
    apply sep_lang in Hc1, Hc2, Hc3, Hc4, Hc5, Hc6; try lia. subst.
    apply clock_lang in Htm as (hh & mi & ss & -> & Hh & Hm & Hs). apply day_name_lang in Hwd. apply digits2_lang in Hdd.
    apply month_lang in Hmon as (m & Hm'). apply digits4_lang in Hyy. apply gmt_lang in Hgmt.
    exists (mkStamp dd m yy hh mi ss), wd, mon, gmt. unfold clock, clock_ok. cbn [t_dd t_m t_yy t_hh t_mi t_ss].
    split; [|tauto]. change (u ", ") with ([44] ++ [32]). rewrite <- !app_assoc. reflexivity.
  - intros (t & wd & mon & gmt & -> & Hwd & Hdd & Hm & Hyy & Hc & Hg).
    change (u ", ") with ([44] ++ [32]). rewrite <- !app_assoc.
    apply L_seq; [apply day_name_lang, Hwd|]. apply L_seq; [apply sep_lang; [lia|reflexivity]|].
    apply L_seq; [apply sep_lang; [lia|reflexivity]|].
    replace (t_dd t ++ u " " ++ mon ++ u " " ++ t_yy t ++ u " " ++ clock t ++ u " " ++ gmt)
      with ((t_dd t ++ u " " ++ mon ++ u " " ++ t_yy t) ++ u " " ++ clock t ++ u " " ++ gmt) by (rewrite <- !app_assoc; reflexivity).
    apply L_seq.
    + apply L_seq; [apply digits2_lang, Hdd|]. apply L_seq; [apply sep_lang; [lia|reflexivity]|].
      apply L_seq; [apply month_lang; eauto|]. apply L_seq; [apply sep_lang; [lia|reflexivity]|]. apply digits4_lang, Hyy.
    + apply L_seq; [apply sep_lang; [lia|reflexivity]|].
      apply L_seq; [apply clock_lang; destruct Hc as (H1 & H2 & H3); exists (t_hh t), (t_mi t), (t_ss t); auto|].
      apply L_seq; [apply sep_lang; [lia|reflexivity]|]. apply gmt_lang, Hg.
Qed.
Lemma rfc850_lang v : lang (nocase rfc9110_rfc850_date) v <-> exists t, rfc850_date t v.
Proof.
  change (nocase rfc9110_rfc850_date) with (Seq (nocase rfc9110_day_name_l) (Seq (nocase (chr 44)) (Seq (nocase (chr 32))
    (Seq (Seq (nocase rfc9110_day) (Seq (nocase (chr 45)) (Seq (nocase rfc9110_month) (Seq (nocase (chr 45)) (nocase rfc9110_day)))))
    (Seq (nocase (chr 32)) (Seq (nocase rfc9110_time_of_day) (Seq (nocase (chr 32)) (nocase rfc9110_GMT)))))))).
  split.
  - intros H. apply lang_seq in H as (wd & r & -> & Hwd & H). apply lang_seq in H as (c1 & r1 & -> & Hc1 & H).
    apply lang_seq in H as (c2 & r2 & -> & Hc2 & H). apply lang_seq in H as (d1 & r3 & -> & Hd1 & H).
    apply lang_seq in Hd1 as (dd & s1 & -> & Hdd & Hd1). apply lang_seq in Hd1 as (c3 & s2 & -> & Hc3 & Hd1).
    apply lang_seq in Hd1 as (mon & s3 & -> & Hmon & Hd1). apply lang_seq in Hd1 as (c4 & yy & -> & Hc4 & Hyy).
    apply lang_seq in H as (c5 & r4 & -> & Hc5 & H). apply lang_seq in H as (tm & r5 & -> & Htm & H).
    apply lang_seq in H as (c6 & gmt & -> & Hc6 & Hgmt).
    apply sep_lang in Hc1, Hc2, Hc3, Hc4, Hc5, Hc6; try lia. subst.
    apply clock_lang in Htm as (hh & mi & ss & -> & Hh & Hm & Hs). apply day_name_l_lang in Hwd. apply digits2_lang in Hdd, Hyy.
    apply month_lang in Hmon as (m & Hm'). apply gmt_lang in Hgmt.
    exists (mkStamp dd m yy hh mi ss), wd, mon, gmt. unfold clock, clock_ok. cbn [t_dd t_m t_yy t_hh t_mi t_ss].
    split; [|tauto]. change (u ", ") with ([44] ++ [32]). rewrite <- !app_assoc. reflexivity.
  - intros (t & wd & mon & gmt & -> & Hwd & Hdd & Hm & Hyy & Hc & Hg).
    change (u ", ") with ([44] ++ [32]). rewrite <- !app_assoc.
    apply L_seq; [apply day_name_l_lang, Hwd|]. apply L_seq; [apply sep_lang; [lia|reflexivity]|].
    apply L_seq; [apply sep_lang; [lia|reflexivity]|].
    replace (t_dd t ++ u "-" ++ mon ++ u "-" ++ t_yy t ++ u " " ++ clock t ++ u " " ++ gmt)
      with ((t_dd t ++ u "-" ++ mon ++ u "-" ++ t_yy t) ++ u " " ++ clock t ++ u " " ++ gmt) by (rewrite <- !app_assoc; reflexivity).
    apply L_seq.
    + apply L_seq; [apply digits2_lang, Hdd|]. apply L_seq; [apply sep_lang; [lia|reflexivity]|].
      apply L_seq; [apply month_lang; eauto|]. apply L_seq; [apply sep_lang; [lia|reflexivity]|]. apply digits2_lang, Hyy.
    + apply L_seq; [apply sep_lang; [lia|reflexivity]|].
      apply L_seq; [apply clock_lang; destruct Hc as (H1 & H2 & H3); exists (t_hh t), (t_mi t), (t_ss t); auto|].
      apply L_seq; [apply sep_lang; [lia|reflexivity]|]. apply gmt_lang, Hg.
Qed.
Lemma asctime_lang v : lang (nocase rfc9110_asctime_date) v <-> exists t, asctime_date t v.
Proof.
  change (nocase rfc9110_asctime_date) with (Seq (nocase rfc9110_day_name) (Seq (nocase (chr 32))
    (Seq (Seq (nocase rfc9110_month) (Seq (nocase (chr 32)) (Alt (nocase rfc9110_day) (Seq (nocase (chr 32)) (nocase rfc5234_DIGIT)))))
    (Seq (nocase (chr 32)) (Seq (nocase rfc9110_time_of_day) (Seq (nocase (chr 32)) (nocase rfc9110_year))))))).
  split.
  - intros H. apply lang_seq in H as (wd & r & -> & Hwd & H). apply lang_seq in H as (c2 & r2 & -> & Hc2 & H).
    apply lang_seq in H as (d1 & r3 & -> & Hd1 & H).
    apply lang_seq in Hd1 as (mon & s3 & -> & Hmon & Hd1). apply lang_seq in Hd1 as (c4 & day & -> & Hc4 & Hday).
    apply lang_seq in H as (c5 & r4 & -> & Hc5 & H). apply lang_seq in H as (tm & r5 & -> & Htm & H).
    apply lang_seq in H as (c6 & yy & -> & Hc6 & Hyy).
    apply sep_lang in Hc2, Hc4, Hc5, Hc6; try lia. subst.
    apply clock_lang in Htm as (hh & mi & ss & -> & Hh & Hm & Hs). apply day_name_lang in Hwd.
    apply month_lang in Hmon as (m & Hm'). apply digits4_lang in Hyy.
    assert (Hd : exists dd, (day = dd /\ digs 2 dd \/ day = 32 :: dd /\ digs 1 dd)).
    { apply lang_alt in Hday as [Hday|Hday].
      - apply digits2_lang in Hday. exists day. auto.
      - apply lang_seq in Hday as (c & x & -> & Hc & Hx). apply sep_lang in Hc; [|lia]. subst.
        apply digit_lang in Hx as (c & -> & Hc). exists [c]. right. split; [reflexivity|]. split; [reflexivity|].
        cbn [forallb]. rewrite Hc. reflexivity. }
    destruct Hd as (dd & Hd).
    exists (mkStamp dd m yy hh mi ss), wd, mon, day. unfold clock, clock_ok. cbn [t_dd t_m t_yy t_hh t_mi t_ss].
    split; [|tauto]. rewrite <- !app_assoc. reflexivity.
  - intros (t & wd & mon & day & -> & Hwd & Hday & Hm & Hyy & Hc).
    apply L_seq; [apply day_name_lang, Hwd|]. apply L_seq; [apply sep_lang; [lia|reflexivity]|].
    replace (mon ++ u " " ++ day ++ u " " ++ clock t ++ u " " ++ t_yy t)
      with ((mon ++ u " " ++ day) ++ u " " ++ clock t ++ u " " ++ t_yy t) by (rewrite <- !app_assoc; reflexivity).
    apply L_seq.
    + apply L_seq; [apply month_lang; eauto|]. apply L_seq; [apply sep_lang; [lia|reflexivity]|].
      destruct Hday as [[-> Hd]|[-> Hd]].
      * apply L_altl, digits2_lang, Hd.
      * apply L_altr. change (32 :: t_dd t) with ([32] ++ t_dd t). apply L_seq; [apply sep_lang; [lia|reflexivity]|].
        apply digs_S in Hd as (c & r & -> & Hc' & [Hr _]). destruct r; [|discriminate]. apply digit_lang. eauto.
    + apply L_seq; [apply sep_lang; [lia|reflexivity]|].
      apply L_seq; [apply clock_lang; destruct Hc as (H1 & H2 & H3); exists (t_hh t), (t_mi t), (t_ss t); auto|].
      apply L_seq; [apply sep_lang; [lia|reflexivity]|]. apply digits4_lang, Hyy.
Qed.
Definition obs_text (v : str) : Prop := (exists t, rfc850_date t v) \/ (exists t, asctime_date t v).
Definition date_text (v : str) : Prop := (exists t, imf_date t v) \/ obs_text v.
Lemma obs_match v : match_dollar (nocase rfc9110_obs_date) v = true <-> eol obs_text v.
Proof.
  apply match_eol. intros s. change (nocase rfc9110_obs_date) with (Alt (nocase rfc9110_rfc850_date) (nocase rfc9110_asctime_date)).
  rewrite lang_alt, rfc850_lang, asctime_lang. reflexivity.
Qed.
Lemma date_match v : match_dollar (nocase rfc9110_HTTP_date) v = true <-> eol date_text v.
Proof.
  apply match_eol. intros s. change (nocase rfc9110_HTTP_date) with (Alt (nocase rfc9110_IMF_fixdate)
    (Alt (nocase rfc9110_rfc850_date) (nocase rfc9110_asctime_date))).
  rewrite !lang_alt, imf_lang, rfc850_lang, asctime_lang. reflexivity.
Qed.

(** ** Reading them *)
Definition solid (s : str) : Prop := s <> [] /\ forallb (fun c => negb (isspace c)) s = true.
Lemma words_acc w rest acc : forallb (fun c => negb (isspace c)) w = true ->
  words_aux isspace (w ++ rest) acc = words_aux isspace rest (rev w ++ acc).
Proof.
  revert acc. induction w as [|c w IH]; intros acc H; [reflexivity|]. cbn in H. apply andb_true_iff in H as [H1 H2].
  apply negb_true_iff in H1. cbn [app words_aux]. rewrite H1, (IH _ H2). cbn [rev]. rewrite <- app_assoc. reflexivity.
Qed.
Lemma words_one w c rest : solid w -> isspace c = true -> words (w ++ c :: rest) = w :: words rest.
Proof.
  intros [Hne H] Hc. unfold words. rewrite words_acc by exact H. cbn [words_aux]. rewrite Hc, app_nil_r.
  destruct (rev w) as [|x r] eqn:E.
  - exfalso. apply Hne. rewrite <- (rev_involutive w), E. reflexivity.
  - rewrite <- E, rev_involutive. reflexivity.
Qed.
Lemma words_last w e : solid w -> e = [] \/ e = [10] -> words (w ++ e) = [w].
Proof.
  intros H [->| ->].
  - destruct H as [Hne H]. unfold words. rewrite words_acc by exact H. cbn [words_aux]. rewrite app_nil_r.
    destruct (rev w) as [|x r] eqn:E.
    + exfalso. apply Hne. rewrite <- (rev_involutive w), E. reflexivity.
    + rewrite <- E, rev_involutive. reflexivity.
  - rewrite (words_one w 10 []) by (assumption || reflexivity). reflexivity.
Qed.
Lemma digit_solid s n : digs (S n) s -> solid s.
Proof.
  intros [H1 H2]. split; [intros ->; discriminate|]. rewrite forallb_forall in *. intros c Hc. specialize (H2 c Hc).
  apply negb_true_iff. unfold is_digit, isspace in *. lia.
Qed.
Lemma lowc_space c : isspace (lowc c) = isspace c.
Proof.
  unfold lowc, is_upper_ascii. destruct ((65 <=? c) && (c <=? 90)) eqn:E; [unfold isspace; lia|].
  destruct ((192 <=? c) && (c <=? 222) && negb (c =? 215)) eqn:E2; [unfold isspace; lia|reflexivity].
Qed.
Lemma lower_solid s : solid (lower s) -> solid s.
Proof.
  intros [H1 H2]. split; [intros ->; apply H1; reflexivity|]. unfold lower in H2. rewrite forallb_forall in *.
  intros c Hc. rewrite <- lowc_space. apply H2. apply in_map, Hc.
Qed.
Lemma solid_app a b : solid a -> forallb (fun c => negb (isspace c)) b = true -> solid (a ++ b).
Proof.
  intros [H1 H2] H3. split; [destruct a; [congruence|discriminate]|]. rewrite forallb_app, H2, H3. reflexivity.
Qed.
Definition solidb (s : str) : bool := nonempty s && forallb (fun c => negb (isspace c)) s.
Lemma solidb_ok s : solidb s = true -> solid s.
Proof. unfold solidb. intros H. apply andb_true_iff in H as [H1 H2]. split; [intros ->; discriminate|exact H2]. Qed.
Lemma names_solid l s : forallb solidb l = true -> In (lower s) l -> solid s.
Proof. intros H Hin. apply lower_solid, solidb_ok. rewrite forallb_forall in H. apply H, Hin. Qed.
Lemma day_solid s : In (lower s) day_names -> solid s.
Proof. apply names_solid. reflexivity. Qed.
Lemma long_day_solid s : In (lower s) long_day_names -> solid s.
Proof. apply names_solid. reflexivity. Qed.
Lemma month_solid m s : month_is m s -> solid s.
Proof. intros [_ H]. apply nth_error_In in H. revert H. apply names_solid. reflexivity. Qed.
Lemma gmt_solid s : lower s = u "gmt" -> solid s.
Proof. intros H. apply lower_solid. rewrite H. split; [discriminate|reflexivity]. Qed.
Lemma clock_solid t : clock_ok t -> solid (clock t).
Proof.
  intros (H1 & H2 & H3). unfold clock. pose proof (digit_solid _ _ H1). pose proof (digit_solid _ _ H2) as [_ S2].
  pose proof (digit_solid _ _ H3) as [_ S3]. apply solid_app; [assumption|].
  rewrite !forallb_app, S2, S3. reflexivity.
Qed.
Lemma split1_digits c s rest : forallb is_digit s = true -> is_digit c = false -> split1 c (s ++ c :: rest) = Some (s, rest).
Proof.
  intros H Hc. induction s as [|x s IH]; cbn [app split1]; [rewrite N.eqb_refl; reflexivity|].
  cbn in H. apply andb_true_iff in H as [H1 H2]. destruct (x =? c) eqn:E; [apply N.eqb_eq in E; congruence|].
  rewrite (IH H2). reflexivity.
Qed.
Lemma split1_none c s : forallb is_digit s = true -> is_digit c = false -> split1 c s = None.
Proof.
  intros H Hc. induction s as [|x s IH]; cbn [split1]; [reflexivity|].
  cbn in H. apply andb_true_iff in H as [H1 H2]. destruct (x =? c) eqn:E; [apply N.eqb_eq in E; congruence|].
  rewrite (IH H2). reflexivity.
Qed.
Lemma no_comma s : s <> [] -> forallb is_digit s = true -> drop_last_comma s = s.
Proof.
  intros Hne H. unfold drop_last_comma, last_chr. rewrite <- forallb_rev in H.
  destruct (rev s) as [|c r]; [reflexivity|]. cbn in H. apply andb_true_iff in H as [H _]. cbn [hd_error].
  destruct (N.eq_dec c 44) as [->|Hc]; [discriminate|].
  destruct c as [|p]; [reflexivity|]. repeat (destruct p as [p|p|]; try reflexivity). congruence.
Qed.
Lemma split_all_cut c s rest : ~ In c s -> split_all c (s ++ c :: rest) = s :: split_all c rest.
Proof.
  induction s as [|x s IH]; intros H; cbn [app split_all]; [rewrite N.eqb_refl; reflexivity|].
  destruct (x =? c) eqn:E; [apply N.eqb_eq in E; subst; exfalso; apply H; left; reflexivity|].
  rewrite IH; [reflexivity|]. intros Hi. apply H. right. exact Hi.
Qed.
Lemma split_all_last c s : ~ In c s -> split_all c s = [s].
Proof.
  induction s as [|x s IH]; intros H; cbn [split_all]; [reflexivity|].
  destruct (x =? c) eqn:E; [apply N.eqb_eq in E; subst; exfalso; apply H; left; reflexivity|].
  rewrite IH; [reflexivity|]. intros Hi. apply H. right. exact Hi.
Qed.
Lemma digs_not n s c : digs n s -> is_digit c = false -> ~ In c s.
Proof. intros [_ H] Hc Hi. rewrite forallb_forall in H. rewrite (H c Hi) in Hc. discriminate. Qed.
Lemma clock_split t : clock_ok t -> split_all 58 (clock t) = [t_hh t; t_mi t; t_ss t].
Proof.
  intros (H1 & H2 & H3). unfold clock. change (u ":") with [58]. cbn [app].
  rewrite split_all_cut by (eapply digs_not; [exact H1|reflexivity]).
  rewrite split_all_cut by (eapply digs_not; [exact H2|reflexivity]).
  rewrite split_all_last by (eapply digs_not; [exact H3|reflexivity]). reflexivity.
Qed.
Lemma clock_comma t : clock_ok t -> drop_last_comma (clock t) = clock t.
Proof.
  intros (_ & _ & H3). unfold drop_last_comma, last_chr, clock. rewrite !rev_app_distr.
  destruct H3 as [H1 H]. rewrite <- forallb_rev in H. rewrite <- rev_length in H1.
  destruct (rev (t_ss t)) as [|c r]; [discriminate|]. cbn in H. apply andb_true_iff in H as [H _]. cbn [app hd_error].
  destruct (N.eq_dec c 44) as [->|Hc]; [discriminate|].
  destruct c as [|p]; [reflexivity|]. repeat (destruct p as [p|p|]; try reflexivity). congruence.
Qed.
Lemma digs_int n s : digs (S n) s -> (n < 10)%nat -> py_int s = Some (Z.of_N (decimal s)).
Proof.
  intros [H1 H2] Hn. apply py_int_spec; [apply digits_stripped, H2|].
  apply digits_int; [split; [intros ->; discriminate|exact H2]|]. rewrite H1. lia.
Qed.
Lemma digs_first n s : digs (S n) s -> exists c r, s = c :: r /\ isdigit_chr c = true.
Proof.
  intros H. apply digs_S in H as (c & r & -> & Hc & _). exists c, r. split; [reflexivity|].
  unfold isdigit_chr. rewrite Hc. reflexivity.
Qed.
Lemma month_index m s : month_is m s -> index_of (lower s) monthnames 1%Z = Some (Z.of_nat m) /\ (1 <= m <= 12)%nat.
Proof.
  intros [H1 H]. do 13 (destruct m as [|m]; [first [lia | cbn in H; injection H as H; rewrite <- H; split; [reflexivity|lia]]|]).
  cbn in H. destruct m; discriminate.
Qed.
Lemma lowc_digit c : is_digit c = true -> lowc c = c.
Proof.
  intros H. unfold lowc, is_upper_ascii. unfold is_digit in H.
  destruct ((65 <=? c) && (c <=? 90)) eqn:E; [lia|].
  destruct ((192 <=? c) && (c <=? 222) && negb (c =? 215)) eqn:E2; [lia|reflexivity].
Qed.
Lemma not_month s : forallb is_digit s = true -> index_of (lower s) monthnames 1%Z = None.
Proof.
  intros H.
  assert (Hn : forall l z, forallb (fun w => match w with [] => false | c :: _ => negb (is_digit (c)) end) l = true ->
     s <> [] -> index_of (lower s) l z = None).
  { intros l z Hl Hs. revert z. induction l as [|w l IH]; intros z; [reflexivity|]. cbn in Hl.
    apply andb_true_iff in Hl as [Hw Hl]. cbn [index_of].
    assert (E : str_eqb (lower s) w = false).
    { destruct s as [|c s]; [congruence|]. destruct w as [|d w]; [discriminate|]. cbn in H. apply andb_true_iff in H as [Hc _].
      unfold lower. cbn [map str_eqb]. apply negb_true_iff in Hw.
      rewrite (lowc_digit c Hc).
      destruct (c =? d) eqn:Ed; [apply N.eqb_eq in Ed; congruence|reflexivity]. }
    rewrite E. apply IH, Hl. }
  destruct s as [|c s]; [reflexivity|]. apply Hn; [reflexivity|discriminate].
Qed.
Definition num (s : str) : Z := Z.of_N (decimal s).
Definition full_year (y : Z) : Z := (if y <? 100 then (if 68 <? y then y + 1900 else y + 2000) else y)%Z.
Lemma endswith_comma w : endswith (u ",") (w ++ u ",") = true.
Proof. unfold endswith. rewrite rev_app_distr. reflexivity. Qed.
Lemma monthly m : (1 <= m <= 12)%nat -> (if (12 <? Z.of_nat m)%Z then (Z.of_nat m - 12)%Z else Z.of_nat m) = Z.of_nat m.
Proof. intros H. destruct (12 <? Z.of_nat m)%Z eqn:E; lia. Qed.
Lemma digs_comma n s : digs (S n) s -> drop_last_comma s = s.
Proof. intros [H1 H2]. apply no_comma; [intros ->; discriminate|exact H2]. Qed.
Definition read_stamp (t : stamp) : option (Z * Z * Z * Z * Z * Z) :=
  Some (full_year (num (t_yy t)), Z.of_nat (t_m t), num (t_dd t), num (t_hh t), num (t_mi t), num (t_ss t)).
Lemma comma_words w x rest : solid w -> words (w ++ u ", " ++ x :: rest) = (w ++ u ",") :: words (x :: rest).
Proof.
  intros H. change (u ", ") with (u "," ++ [32]). rewrite <- app_assoc. cbn [app]. rewrite app_assoc.
  rewrite words_one; [reflexivity| |reflexivity]. apply solid_app; [exact H|reflexivity].
Qed.
(** The part of [parsedate] after the words are in their places. *)
Lemma after_words dd mm yy tm tz : (exists a b, dd = a :: b) -> (exists a b, mm = a :: b) -> (exists a b, yy = a :: b) ->
  forall (d : str) mi y (t : stamp) c r,
  match index_of (lower mm) monthnames 1%Z with
  | Some i => Some (dd, i)
  | None => match index_of (lower dd) monthnames 1%Z with
            | Some i => Some (lower mm, i)
            | None => None
            end
  end = Some (d, Z.of_nat mi) -> (1 <= mi <= 12)%nat -> drop_last_comma d = d ->
  match split1 58 yy with Some (_ :: _, _) => (tm, yy) | _ => (yy, tm) end = (y, clock t) ->
  drop_last_comma y = y -> y = c :: r -> isdigit_chr c = true -> clock_ok t ->
  forall zy zd, py_int y = Some zy -> py_int d = Some zd ->
  match dd, mm, yy with
      | [], _, _ | _, [], _ | _, _, [] => None
      | _, _, _ =>
        let mm := lower mm in
        match (match index_of mm monthnames 1%Z with
               | Some i => Some (dd, i)
               | None => match index_of (lower dd) monthnames 1%Z with
                         | Some i => Some (mm, i)
                         | None => None
                         end
               end) with
        | None => None
        | Some (dd, mi) =>
          let mi := if (12 <? mi)%Z then (mi - 12)%Z else mi in
          let dd := drop_last_comma dd in
          let '(yy, tm) := match split1 58 yy with
                           | Some (_ :: _, _) => (tm, yy)
                           | _ => (yy, tm)
                           end in
          let yy := drop_last_comma yy in
          match yy with
          | [] => None
          | y0 :: _ =>
            let yy := if isdigit_chr y0 then yy else tz in
            let tm := drop_last_comma tm in
            let hms := match split_all 58 tm with
                       | [a; b] => Some (a, b, u "0")
                       | [a; b; c] => Some (a, b, c)
                       | [a] => match split_all 46 a with
                                | [a; b] => Some (a, b, u "0")
                                | [a; b; c] => Some (a, b, c)
                                | _ => None
                                end
                       | _ => None
                       end in
            match hms with
            | None => None
            | Some (h, m, s) =>
              match py_int yy, py_int dd, py_int h, py_int m, py_int s with
              | Some y, Some d, Some h, Some m, Some s =>
                  let y := if (y <? 100)%Z then (if (68 <? y)%Z then y + 1900 else y + 2000)%Z else y in
                  Some (y, mi, d, h, m, s)
              | _, _, _, _, _ => None
              end
            end
          end
        end
      end
  = Some (full_year zy, Z.of_nat mi, zd, num (t_hh t), num (t_mi t), num (t_ss t)).
Proof.
  intros (d0 & d1 & ->) (m0 & m1 & ->) (y0 & y1 & ->) d mi y t c r Hi Hr Hd Hs Hy Ey Hc Ht zy zd Hzy Hzd.
  cbv zeta. rewrite Hi. rewrite (monthly mi Hr), Hd, Hs, Hy. rewrite Ey at 1. rewrite Hc, (clock_comma t Ht), (clock_split t Ht).
  pose proof Ht as (Hh & Hmi & Hss).
  rewrite Hzy, Hzd, (digs_int _ _ Hh), (digs_int _ _ Hmi), (digs_int _ _ Hss) by lia. reflexivity.
Qed.
Lemma clock_cut t : clock_ok t -> exists a b r, split1 58 (clock t) = Some (a :: b, r).
Proof.
  intros ([H1 H2] & _). unfold clock. change (u ":") with [58]. cbn [app]. rewrite split1_digits by (exact H2 || reflexivity).
  destruct (t_hh t); [discriminate|]. eauto.
Qed.
Lemma digs_cons n s : digs (S n) s -> exists a b, s = a :: b.
Proof. intros H. apply digs_S in H as (c & r & -> & _). eauto. Qed.
Lemma solid_cons s : solid s -> exists a b, s = a :: b.
Proof. intros [H _]. destruct s; [congruence|eauto]. Qed.
Lemma parsedate_imf t v e : imf_date t v -> e = [] \/ e = [10] -> parsedate (v ++ e) = read_stamp t.
Proof.
  intros (wd & mon & gmt & -> & Hwd & Hdd & Hm & Hyy & Hc & Hg) He.
  assert (Ew : words ((wd ++ u ", " ++ t_dd t ++ u " " ++ mon ++ u " " ++ t_yy t ++ u " " ++ clock t ++ u " " ++ gmt) ++ e)
     = [wd ++ u ","; t_dd t; mon; t_yy t; clock t; gmt]).
  { rewrite <- !app_assoc. change (u ", ") with (u "," ++ [32]). change (u " ") with [32]. rewrite <- app_assoc. cbn [app].
    rewrite (app_assoc wd).
    rewrite words_one; [|apply solid_app; [apply day_solid, Hwd|reflexivity]|reflexivity].
    rewrite words_one; [|eapply digit_solid, Hdd|reflexivity].
    rewrite words_one; [|eapply month_solid, Hm|reflexivity].
    rewrite words_one; [|eapply digit_solid, Hyy|reflexivity].
    rewrite words_one; [|apply clock_solid, Hc|reflexivity].
    rewrite (words_last gmt e (gmt_solid _ Hg) He). reflexivity. }
  unfold parsedate. rewrite Ew, endswith_comma. cbn [orb].
  destruct (month_index _ _ Hm) as [Hi Hr]. destruct (digs_first _ _ Hyy) as (c & r & Ey & Hcd).
  apply (after_words (t_dd t) mon (t_yy t) (clock t) gmt (digs_cons _ _ Hdd) (solid_cons _ (month_solid _ _ Hm))
           (digs_cons _ _ Hyy) (t_dd t) (t_m t) (t_yy t) t c r).
  - rewrite Hi. reflexivity.
  - exact Hr.
  - eapply digs_comma, Hdd.
  - rewrite split1_none; [reflexivity|apply Hyy|reflexivity].
  - eapply digs_comma, Hyy.
  - exact Ey.
  - exact Hcd.
  - exact Hc.
  - apply (digs_int 3); [exact Hyy|lia].
  - apply (digs_int 1); [exact Hdd|lia].
Qed.
Lemma split_date dd mon yy : digs 2 dd -> solid mon -> ~ In 45 mon -> digs 2 yy ->
  split_all 45 (dd ++ u "-" ++ mon ++ u "-" ++ yy) = [dd; mon; yy].
Proof.
  intros H1 _ H2 H3. change (u "-") with [45]. cbn [app].
  rewrite split_all_cut by (eapply digs_not; [exact H1|reflexivity]).
  rewrite split_all_cut by exact H2.
  rewrite split_all_last by (eapply digs_not; [exact H3|reflexivity]). reflexivity.
Qed.
Lemma month_no_dash m s : month_is m s -> ~ In 45 s.
Proof.
  intros [_ H] Hi. apply nth_error_In in H.
  assert (Hd : In 45 (lower s)) by (apply (in_map lowc s 45) in Hi; exact Hi).
  assert (Hall : forallb (fun w => negb (has_chr 45 w)) month_names = true) by reflexivity.
  rewrite forallb_forall in Hall. specialize (Hall _ H). apply negb_true_iff in Hall. apply has_chr_In in Hd. congruence.
Qed.
Lemma parsedate_rfc850 t v e : rfc850_date t v -> e = [] \/ e = [10] -> parsedate (v ++ e) = read_stamp t.
Proof.
  intros (wd & mon & gmt & -> & Hwd & Hdd & Hm & Hyy & Hc & Hg) He.
  assert (Ew : words ((wd ++ u ", " ++ t_dd t ++ u "-" ++ mon ++ u "-" ++ t_yy t ++ u " " ++ clock t ++ u " " ++ gmt) ++ e)
     = [wd ++ u ","; t_dd t ++ u "-" ++ mon ++ u "-" ++ t_yy t; clock t; gmt]).
  { rewrite <- !app_assoc. change (u ", ") with (u "," ++ [32]). change (u " ") with [32]. rewrite <- app_assoc. cbn [app].
    rewrite (app_assoc wd).
    rewrite words_one; [|apply solid_app; [apply long_day_solid, Hwd|reflexivity]|reflexivity].
    replace (t_dd t ++ u "-" ++ mon ++ u "-" ++ t_yy t ++ 32 :: clock t ++ 32 :: gmt ++ e)
      with ((t_dd t ++ u "-" ++ mon ++ u "-" ++ t_yy t) ++ 32 :: clock t ++ 32 :: gmt ++ e) by (rewrite <- !app_assoc; reflexivity).
    rewrite words_one; [|apply solid_app; [eapply digit_solid, Hdd|]|reflexivity].
    2: { destruct (month_solid _ _ Hm) as [_ S1]. destruct (digit_solid _ _ Hyy) as [_ S2].
         rewrite !forallb_app, S1, S2. reflexivity. }
    rewrite words_one; [|apply clock_solid, Hc|reflexivity].
    rewrite (words_last gmt e (gmt_solid _ Hg) He). reflexivity. }
  unfold parsedate. rewrite Ew, endswith_comma. cbn [orb].
  rewrite (split_date _ _ _ Hdd (month_solid _ _ Hm) (month_no_dash _ _ Hm) Hyy).
  destruct (month_index _ _ Hm) as [Hi Hr]. destruct (digs_first _ _ Hyy) as (c & r & Ey & Hcd).
  apply (after_words (t_dd t) mon (t_yy t) (clock t) gmt (digs_cons _ _ Hdd) (solid_cons _ (month_solid _ _ Hm))
           (digs_cons _ _ Hyy) (t_dd t) (t_m t) (t_yy t) t c r).
  - rewrite Hi. reflexivity.
  - exact Hr.
  - eapply digs_comma, Hdd.
  - rewrite split1_none; [reflexivity|apply Hyy|reflexivity].
  - eapply digs_comma, Hyy.
  - exact Ey.
  - exact Hcd.
  - exact Hc.
  - apply (digs_int 1); [exact Hyy|lia].
  - apply (digs_int 1); [exact Hdd|lia].
Qed.
Lemma lower_digits s : forallb is_digit s = true -> lower s = s.
Proof.
  intros H. unfold lower. rewrite <- (map_id s) at 2. apply map_ext_in. intros c Hc. rewrite forallb_forall in H.
  apply lowc_digit, H, Hc.
Qed.
Lemma day_name_known s : In (lower s) day_names -> str_in (lower s) daynames = true.
Proof. intros H. apply str_in_In. exact H. Qed.
Lemma parsedate_asctime t v e : asctime_date t v -> e = [] \/ e = [10] -> parsedate (v ++ e) = read_stamp t.
Proof.
  intros (wd & mon & day & -> & Hwd & Hday & Hm & Hyy & Hc) He.
  assert (Hdd : exists n, digs (S n) (t_dd t) /\ (n < 10)%nat).
  { destruct Hday as [[_ H]|[_ H]]; [exists 1%nat|exists O]; split; auto; lia. }
  destruct Hdd as (n & Hdd & Hn).
  assert (Ew : words ((wd ++ u " " ++ mon ++ u " " ++ day ++ u " " ++ clock t ++ u " " ++ t_yy t) ++ e)
     = [wd; mon; t_dd t; clock t; t_yy t]).
  { rewrite <- !app_assoc. change (u " ") with [32]. cbn [app].
    rewrite words_one; [|apply day_solid, Hwd|reflexivity].
    rewrite words_one; [|eapply month_solid, Hm|reflexivity].
    assert (Ed : words (day ++ 32 :: clock t ++ 32 :: t_yy t ++ e) = t_dd t :: words (clock t ++ 32 :: t_yy t ++ e)).
    { destruct Hday as [[-> _]|[-> _]].
      - rewrite words_one; [reflexivity|eapply digit_solid, Hdd|reflexivity].
      - cbn [app]. change (words (32 :: t_dd t ++ 32 :: clock t ++ 32 :: t_yy t ++ e)) with (words (t_dd t ++ 32 :: clock t ++ 32 :: t_yy t ++ e)).
        rewrite words_one; [reflexivity|eapply digit_solid, Hdd|reflexivity]. }
    rewrite Ed. rewrite words_one; [|apply clock_solid, Hc|reflexivity].
    rewrite (words_last (t_yy t) e (digit_solid _ _ Hyy) He). reflexivity. }
  unfold parsedate. rewrite Ew, (day_name_known _ Hwd), orb_true_r.
  assert (E43 : cut_at 43 (t_yy t) = None) by (unfold cut_at; rewrite split1_none; [reflexivity|apply Hyy|reflexivity]).
  assert (E45 : cut_at 45 (t_yy t) = None) by (unfold cut_at; rewrite split1_none; [reflexivity|apply Hyy|reflexivity]).
  cbv zeta. rewrite E43, E45.
  destruct (month_index _ _ Hm) as [Hi Hr]. destruct (digs_first _ _ Hyy) as (c & r & Ey & Hcd).
  destruct (clock_cut t Hc) as (a & b & r' & Ecut).
  apply (after_words mon (t_dd t) (clock t) (t_yy t) [] (solid_cons _ (month_solid _ _ Hm)) (digs_cons _ _ Hdd)
           (solid_cons _ (clock_solid t Hc)) (t_dd t) (t_m t) (t_yy t) t c r).
  - rewrite (not_month (t_dd t)), Hi, (lower_digits (t_dd t)); [reflexivity|apply Hdd|apply Hdd].
  - exact Hr.
  - eapply digs_comma, Hdd.
  - rewrite Ecut. reflexivity.
  - eapply digs_comma, Hyy.
  - exact Ey.
  - exact Hcd.
  - exact Hc.
  - apply (digs_int 3); [exact Hyy|lia].
  - apply (digs_int n); [exact Hdd|lia].
Qed.
