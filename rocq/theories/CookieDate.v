(** * C49: the dates of cookies (set_cookie.py:305-396). *)
From Coq Require Import Lia ZifyBool ZifyN.
From Verif Require Import PyStr Regex Grammar Note PyLib Utils NumLemmas Fields3 CookieSpec DateLemmas PropDate.
Open Scope N_scope.
Lemma split_piece w c s : existsb is_delim w = false -> is_delim c = true -> split_delims (w ++ c :: s) = w :: split_delims s.
Proof.
  intros H D. induction w as [|x w IH]; cbn [app split_delims]; [rewrite D; reflexivity|]. cbn [existsb] in H. apply orb_false_iff in H as [H1 H2]. rewrite H1, (IH H2). reflexivity.
Qed.
Lemma split_word w : existsb is_delim w = false -> split_delims w = [w].
Proof. induction w as [|x w IH]; [reflexivity|]. cbn [existsb split_delims]. intros H. apply orb_false_iff in H as [H1 H2]. rewrite H1, (IH H2). reflexivity. Qed.
Lemma digit_delim c : is_digit c = true -> is_delim c = false. Proof. unfold is_digit, is_delim. lia. Qed.
Lemma digits_delim s : forallb is_digit s = true -> existsb is_delim s = false.
Proof. induction s as [|c s IH]; [reflexivity|]. cbn [forallb existsb]. intros H. apply andb_true_iff in H as [H1 H2]. rewrite (digit_delim c H1), (IH H2). reflexivity. Qed.
Lemma all_lead s : forallb is_digit s = true -> lead_digits s = s.
Proof. induction s as [|c s IH]; [reflexivity|]. cbn [forallb lead_digits]. intros H. apply andb_true_iff in H as [H1 H2]. rewrite H1, (IH H2). reflexivity. Qed.
Lemma letter_lowc c : is_lower_ascii (lowc c) = true -> is_delim c = false /\ is_digit c = false.
Proof.
  unfold lowc, is_lower_ascii, is_upper_ascii, is_delim, is_digit. destruct ((65 <=? c) && (c <=? 90)) eqn:E; [intros; split; lia|]. destruct (_ && negb _) eqn:E2; intros; split; lia.
Qed.
Definition word (w : str) : Prop := existsb is_delim w = false /\ match w with [] => True | c :: _ => is_digit c = false end.
Lemma letters_word w : forallb is_lower_ascii (lower w) = true -> word w.
Proof.
  intros H. split.
  - induction w as [|c w IH]; [reflexivity|]. cbn in H. apply andb_true_iff in H as [H1 H2]. cbn [existsb]. rewrite (proj1 (letter_lowc c H1)), (IH H2). reflexivity.
  - destruct w as [|c w]; [exact I|]. cbn in H. apply andb_true_iff in H as [H1 _]. apply (letter_lowc c H1).
Qed.
Lemma time_head w : match w with [] => True | c :: _ => is_digit c = false end -> match_time w = None.
Proof.
  intros H. destruct w as [|a w]; [reflexivity|]. unfold match_time.
  repeat match goal with |- context [match ?x with _ => _ end] => lazymatch x with forallb _ _ => fail | _ => destruct x; try reflexivity end end. cbn [forallb]. rewrite H. reflexivity.
Qed.
Lemma time_short w : (List.length w < 8)%nat -> match_time w = None.
Proof. intros H. unfold match_time. do 8 (destruct w as [|? w]; [repeat match goal with |- context [match ?x with _ => _ end] => destruct x; try reflexivity end; reflexivity|]). cbn in H. lia. Qed.
Lemma skip_word p w : word w -> (d_mon p = None -> cookie_month w = None) -> date_token p w = p.
Proof.
  intros [Hd Hw] Hm. unfold date_token. rewrite (time_head w Hw).
  assert (L : lead_digits w = []) by (destruct w as [|c w]; [reflexivity|]; cbn [lead_digits]; rewrite Hw; reflexivity).
  assert (D : match_day w = None) by (unfold match_day; rewrite L; reflexivity). assert (Y : match_year w = None) by (unfold match_year; rewrite L; reflexivity). rewrite D, Y.
  destruct p as [tm dy mn yr]. cbn [d_time d_day d_mon d_year] in *. destruct tm, dy, mn as [mn|]; try rewrite (Hm eq_refl); destruct yr; reflexivity.
Qed.
Lemma month_token m s : month_is m s -> word s /\ cookie_month s = Some (Z.of_nat m) /\ (1 <= m <= 12)%nat.
Proof.
  intros H. assert (A : forallb (fun w => forallb is_lower_ascii w && Nat.eqb (List.length w) 3) month_names = true) by reflexivity. rewrite forallb_forall in A.
  pose proof H as [_ N]. apply nth_error_In, A, andb_true_iff in N as [N1 N2]. split; [apply letters_word, N1|]. split; [|apply (month_range _ _ H)].
  unfold cookie_month. apply Nat.eqb_eq in N2. unfold lower in N2. rewrite map_length in N2. rewrite firstn_all2 by lia.
  destruct H as [H1 H]. do 13 (destruct m as [|m]; [first [lia | cbn in H; injection H as H; rewrite <- H; reflexivity]|]). cbn in H. destruct m; discriminate.
Qed.
Lemma weekday_token w : In (lower w) (day_names ++ long_day_names) -> word w /\ cookie_month w = None.
Proof.
  intros H. split.
  - apply letters_word. assert (A : forallb (forallb is_lower_ascii) (day_names ++ long_day_names) = true) by reflexivity. rewrite forallb_forall in A. apply A, H.
  - unfold cookie_month. assert (F : lower (firstn 3 w) = firstn 3 (lower w)) by (unfold lower; symmetry; apply firstn_map). rewrite F. clear F. revert H. generalize (lower w). intros s H.
    assert (A : forallb (fun s => match index_of (firstn 3 s) (firstn 12 monthnames) 1%Z with None => true | Some _ => false end) (day_names ++ long_day_names) = true) by reflexivity. rewrite forallb_forall in A. specialize (A s H).
    destruct (index_of _ _ _); [discriminate|reflexivity].
Qed.
Lemma num_eq s : Fields3.num s = num s. Proof. unfold Fields3.num, num. rewrite digits_decimal. reflexivity. Qed.
Lemma full_parts l p : d_time p <> None -> d_day p <> None -> d_mon p <> None -> d_year p <> None -> fold_left date_token l p = p.
Proof.
  intros A B C D. induction l as [|x l IH]; [reflexivity|]. cbn [fold_left]. assert (X : date_token p x = p).
  { unfold date_token. destruct (d_time p); [|congruence]. destruct (d_day p); [|congruence]. destruct (d_mon p); [|congruence]. destruct (d_year p); [|congruence]. reflexivity. }
  rewrite X. exact IH.
Qed.
Lemma time_eq a b c d f g : forallb is_digit [a; b; c; d; f; g] = true -> match_time [a; b; 58; c; d; 58; f; g] = Some (num [a; b], num [c; d], num [f; g]).
Proof. intros H. unfold match_time. rewrite H, !num_eq. reflexivity. Qed.
Lemma clock_eq t : clock_ok t -> match_time (clock t) = Some (num (t_hh t), num (t_mi t), num (t_ss t)).
Proof.
  intros ([Lh Dh] & [Li Di] & [Ls Ds]). unfold clock. destruct (t_hh t) as [|a [|b [|? ?]]]; try discriminate. destruct (t_mi t) as [|c [|d' [|? ?]]]; try discriminate. destruct (t_ss t) as [|f [|g [|? ?]]]; try discriminate.
  change (u ":") with [58]. cbn [app]. apply time_eq. cbn [forallb] in *. apply andb_true_iff in Dh as [-> Dh], Di as [-> Di], Ds as [-> Ds]. rewrite andb_true_r in Dh, Di, Ds. rewrite Dh, Di, Ds. reflexivity.
Qed.
Lemma space_piece s : split_delims (32 :: s) = [] :: split_delims s. Proof. reflexivity. Qed.
Lemma comma_app (wd x : str) : wd ++ u ", " ++ x = wd ++ 44 :: 32 :: x. Proof. reflexivity. Qed.
Lemma space_app (wd x : str) : wd ++ u " " ++ x = wd ++ 32 :: x. Proof. reflexivity. Qed.
Lemma tok_day s : digs 2 s -> date_token (mkD None None None None) s = mkD None (Some (num s)) None None.
Proof.
  intros [L D]. unfold date_token. rewrite time_short by lia. cbn [d_time d_day]. unfold match_day. rewrite (all_lead _ D), firstn_all2 by lia. destruct s as [|? ?]; [discriminate|]. rewrite num_eq. reflexivity.
Qed.
Lemma tok_month d m s : month_is m s -> date_token (mkD None (Some d) None None) s = mkD None (Some d) (Some (Z.of_nat m)) None.
Proof. intros H. destruct (month_token _ _ H) as ([_ Mw] & Mm & _). unfold date_token. rewrite (time_head s Mw), Mm. reflexivity. Qed.
Lemma tok_year d m s : digs 2 s \/ digs 4 s -> date_token (mkD None (Some d) (Some m) None) s = mkD None (Some d) (Some m) (Some (num s)).
Proof.
  intros H. assert (D : forallb is_digit s = true) by (destruct H as [[_ X]|[_ X]]; exact X). assert (L : (2 <= List.length s <= 4)%nat) by (destruct H as [[X _]|[X _]]; lia).
  unfold date_token. rewrite time_short by lia. cbn [d_time d_day d_mon d_year]. unfold match_year. rewrite (all_lead _ D), firstn_all2 by lia. destruct s as [|? [|? ?]]; [cbn in L; lia|cbn in L; lia|rewrite num_eq; reflexivity].
Qed.
Lemma tok_clock d m y t : clock_ok t -> date_token (mkD None (Some d) (Some m) (Some y)) (clock t) = mkD (Some (num (t_hh t), num (t_mi t), num (t_ss t))) (Some d) (Some m) (Some y).
Proof. intros H. unfold date_token. rewrite (clock_eq t H). reflexivity. Qed.
Lemma cookie_pieces t v : cookie_date t v -> exists wd mon e more, split_delims v = wd :: e ++ t_dd t :: mon :: t_yy t :: clock t :: more /\ (e = [] \/ e = [[]])
  /\ word wd /\ cookie_month wd = None /\ month_is (t_m t) mon /\ digs 2 (t_dd t) /\ (digs 2 (t_yy t) \/ digs 4 (t_yy t)) /\ clock_ok t.
Proof.
  intros (wd & sep & d1 & d2 & mon & rest & -> & Hw & Hs & H1 & H2 & Hd & Hm & Hy & Hc & Hr).
  destruct (weekday_token wd Hw) as [Ww Wm]. destruct (month_token _ _ Hm) as (Mw & Mm & _).
  assert (D1 : is_delim d1 = true) by (destruct H1 as [<-|[<-|[]]]; reflexivity). assert (D2 : is_delim d2 = true) by (destruct H2 as [<-|[<-|[]]]; reflexivity).
  assert (Yd : forallb is_digit (t_yy t) = true) by (destruct Hy as [[_ X]|[_ X]]; exact X).
  assert (Ck : existsb is_delim (clock t) = false).
  { unfold clock. rewrite !existsb_app. destruct Hc as ([_ X1] & [_ X2] & [_ X3]). rewrite (digits_delim _ X1), (digits_delim _ X2), (digits_delim _ X3). reflexivity. }
  assert (T : exists more, split_delims (clock t ++ rest) = clock t :: more).
  { destruct Hr as [->|[r ->]]; [rewrite app_nil_r, split_word by exact Ck; eauto|]. rewrite split_piece; [eauto|exact Ck|reflexivity]. }
  destruct T as [more T]. exists wd, mon.
  assert (S : split_delims (t_dd t ++ [d1] ++ mon ++ [d2] ++ t_yy t ++ u " " ++ clock t ++ rest) = t_dd t :: mon :: t_yy t :: clock t :: more).
  { cbn [app]. rewrite split_piece; [|apply digits_delim, Hd|exact D1]. rewrite split_piece; [|apply Mw|exact D2]. rewrite space_app. rewrite split_piece; [|apply digits_delim, Yd|reflexivity]. rewrite T. reflexivity. }
  destruct Hs as [<-|[<-|[]]].
  - exists [[]], more. split; [rewrite comma_app|auto 10]. rewrite split_piece; [|apply Ww|reflexivity]. rewrite space_piece, S. reflexivity.
  - exists [], more. split; [rewrite space_app|auto 10]. rewrite split_piece; [|apply Ww|reflexivity]. rewrite S. reflexivity.
Qed.
Lemma fold_cons {A B} (f : A -> B -> A) x l p : fold_left f (x :: l) p = fold_left f l (f p x). Proof. reflexivity. Qed.
Lemma cookie_parts t v : cookie_date t v -> fold_left date_token (split_delims v) (mkD None None None None) = mkD (Some (num (t_hh t), num (t_mi t), num (t_ss t))) (Some (num (t_dd t))) (Some (Z.of_nat (t_m t))) (Some (num (t_yy t))).
Proof.
  intros H. destruct (cookie_pieces t v H) as (wd & mon & e & more & -> & He & Ww & Wm & Hm & Hd & Hy & Hc). rewrite fold_cons, skip_word; [|exact Ww|intros _; exact Wm].
  assert (Z : forall l, fold_left date_token (e ++ l) (mkD None None None None) = fold_left date_token l (mkD None None None None)) by (intros l; destruct He as [->| ->]; [reflexivity|]; cbn [app]; rewrite fold_cons, skip_word; [reflexivity|split; [reflexivity|exact I]|reflexivity]).
  rewrite Z, fold_cons, (tok_day _ Hd), fold_cons, (tok_month _ _ _ Hm), fold_cons, (tok_year _ _ _ Hy), fold_cons, (tok_clock _ _ _ _ Hc). apply full_parts; discriminate.
Qed.
Theorem C49_expires : forall t v year, cookie_date t v -> Z.of_nat year = cookie_year (num (t_yy t)) ->
  (1 <= num (t_dd t) <= 31 -> 1601 <= Z.of_nat year -> num (t_hh t) <= 23 -> num (t_mi t) <= 59 -> num (t_ss t) <= 59 -> loose_date_parse v = inl (at_epoch t year))%Z
  /\ (~ (1 <= num (t_dd t) <= 31 /\ 1601 <= Z.of_nat year /\ num (t_hh t) <= 23 /\ num (t_mi t) <= 59 /\ num (t_ss t) <= 59) -> exists why, loose_date_parse v = inr why)%Z.
Proof.
  intros t v year H Ey. unfold loose_date_parse. rewrite (cookie_parts t v H). cbn [d_time d_day d_mon d_year].
  destruct H as (wd & sep & d1 & d2 & mon & rest & _ & _ & _ & _ & _ & Hd & Hm & Hy & (Hh & Hi & Hss) & _). apply num_bound in Hh, Hi, Hss, Hd. pose proof (month_range _ _ Hm) as Mr.
  assert (By : (0 <= num (t_yy t) < 10000)%Z) by (destruct Hy as [Y|Y]; apply num_bound in Y; cbn in Y; lia). cbn in Hh, Hi, Hss, Hd.
  set (y0 := num (t_yy t)) in *. set (y1 := if ((70 <=? y0) && (y0 <=? 99))%Z then (y0 + 1900)%Z else y0). 
  assert (Y2 : (if ((0 <=? y1) && (y1 <=? 69))%Z then (y1 + 2000)%Z else y1) = Z.of_nat year).
  { rewrite Ey. unfold cookie_year, y1. destruct ((70 <=? y0) && (y0 <=? 99))%Z eqn:Q1; destruct (y0 <=? 69)%Z eqn:Q2; destruct (y0 <=? 99)%Z eqn:Q3; try lia; repeat match goal with |- context [if ?b then _ else _] => destruct b eqn:? end; lia. }
  cbv zeta. rewrite Y2. unfold at_epoch. rewrite timegm_epoch by (rewrite ?Ey; unfold cookie_year; destruct (y0 <=? 69)%Z eqn:Q2; destruct (y0 <=? 99)%Z eqn:Q3; lia).
  set (a := num (t_dd t)) in *. set (b := num (t_hh t)) in *. set (c := num (t_mi t)) in *. set (d := num (t_ss t)) in *. split.
  - intros A B C D F. assert (Z : ((1 <=? a) && (a <=? 31))%Z = true) by lia. rewrite Z. cbn [negb].
    destruct (Z.ltb_spec (Z.of_nat year) 1601); [lia|]. destruct (Z.ltb_spec 23 b); [lia|]. destruct (Z.ltb_spec 59 c); [lia|]. destruct (Z.ltb_spec 59 d); [lia|]. reflexivity.
  - intros A. destruct ((1 <=? a) && (a <=? 31))%Z eqn:Z; cbn [negb]; [|eauto].
    destruct (Z.ltb_spec (Z.of_nat year) 1601); [eauto|]. destruct (Z.ltb_spec 23 b); [eauto|]. destruct (Z.ltb_spec 59 c); [eauto|]. destruct (Z.ltb_spec 59 d); [eauto|]. lia.
Qed.
Print Assumptions C49_expires.
Example C49_expires_ex : let t := mkStamp (u "09") 6 (u "2021") (u "10") (u "18") (u "14") in
  cookie_date t (u "Wed, 09-Jun-2021 10:18:14 GMT") /\ loose_date_parse (u "Wed, 09-Jun-2021 10:18:14 GMT") = inl 1623233894%Z /\ loose_date_parse (u "Wed, 09-Jun-1600 10:18:14 GMT") = inr (u "1600 is out of range for year").
Proof.
  split; [|vm_compute; split; reflexivity]. exists (u "Wed"), (u ", "), 45, 45, (u "Jun"), (u " GMT"). split; [reflexivity|]. split; [apply in_or_app; left; vm_compute; tauto|].
  repeat (split; [first [solve [cbn; tauto]|solve [split; [reflexivity|reflexivity]]|solve [split; [cbn; lia|reflexivity]]|solve [right; split; reflexivity]|solve [repeat split; reflexivity]]|]). right. exists (u "GMT"). reflexivity.
Qed.
