(** * Tokens and parameters (C17) *)
From Verif Require Import PyStr Regex Grammar Note PyLib Utils NoteLemmas LexLemmas.
Open Scope N_scope.

(** Facts about all ASCII characters, by enumeration. *)
Definition ascii_all (P : N -> bool) : bool := forallb P (map N.of_nat (seq 0 128)).
Lemma ascii_all_ok P : ascii_all P = true -> forall c, c < 128 -> P c = true.
Proof.
  unfold ascii_all. rewrite forallb_forall. intros H c Hc. apply H. apply in_map_iff. exists (N.to_nat c).
  split; [apply N2Nat.id|]. apply in_seq. lia.
Qed.
(** RFC 9110 5.6.2 *)
Definition tchars : str :=
  u "!#$%&'*+-.^_`|~0123456789ABCDEFGHIJKLMNOPQRSTUVWXYZabcdefghijklmnopqrstuvwxyz".
Definition tchar (c : N) : bool := has_chr c tchars.
Definition f_tchar : N -> bool := in_ranges
  [(33, 33); (35, 35); (36, 36); (37, 37); (38, 38); (39, 39); (42, 42); (43, 43); (45, 45); (46, 46); (94, 94);
   (95, 95); (96, 96); (124, 124); (126, 126); (48, 57); (65, 90); (97, 122)].
Lemma in_ranges_big l c n : forallb (fun r => snd r <? n) l = true -> n <= c -> in_ranges l c = false.
Proof.
  intros H Hc. induction l as [|[a b] l IH]; [reflexivity|]. rewrite in_ranges_cons. cbn in H.
  apply andb_true_iff in H as [H1 H2]. apply N.ltb_lt in H1. rewrite (IH H2), orb_false_r.
  apply andb_false_iff. right. apply N.leb_gt. lia.
Qed.
Lemma has_chr_big c s n : forallb (fun x => x <? n) s = true -> n <= c -> has_chr c s = false.
Proof.
  intros H Hc. unfold has_chr. induction s as [|x s IH]; [reflexivity|]. cbn in *. apply andb_true_iff in H as [H1 H2].
  apply N.ltb_lt in H1. rewrite (IH H2), orb_false_r. apply N.eqb_neq. lia.
Qed.
Lemma f_tchar_ok c : f_tchar c = tchar c.
Proof.
  destruct (N.lt_ge_cases c 128) as [L|L].
  - apply Bool.eqb_prop. revert c L. apply ascii_all_ok. vm_compute. reflexivity.
  - unfold tchar. rewrite (has_chr_big c tchars 128); [|reflexivity|exact L].
    unfold f_tchar. rewrite (in_ranges_big _ c 128); [reflexivity|reflexivity|exact L].
Qed.
Definition token (s : str) : Prop := s <> [] /\ forallb tchar s = true.
Lemma token_f s : token s -> s <> [] /\ forallb f_tchar s = true.
Proof.
  intros [H1 H2]. split; [exact H1|]. rewrite forallb_forall in *. intros c Hc. rewrite f_tchar_ok. apply H2, Hc.
Qed.
Lemma tchar_facts c : tchar c = true -> isspace c = false /\ c <> 61 /\ c <> 34 /\ c <> 59 /\ c <> 44 /\ c < 128.
Proof.
  intros H. destruct (N.lt_ge_cases c 128) as [L|L].
  - revert H. pose proof (ascii_all_ok (fun c => negb (tchar c)
      || (negb (isspace c) && negb (c =? 61) && negb (c =? 34) && negb (c =? 59) && negb (c =? 44)))
      eq_refl c L) as HA. cbv beta in HA. intros H. rewrite H in HA. cbn [negb orb] in HA.
    rewrite !andb_true_iff, !negb_true_iff, !N.eqb_neq in HA. tauto.
  - unfold tchar in H. rewrite (has_chr_big c tchars 128) in H; [discriminate|reflexivity|exact L].
Qed.

(** A parameter and its value. *)
Inductive pval := PTok (s : str) | PQuoted (its : list qitem).
Definition pval_text (v : pval) : str := match v with PTok s => s | PQuoted its => quoted its end.
Definition pval_value (v : pval) : str := match v with PTok s => s | PQuoted its => map fst its end.
Definition pval_ok (v : pval) : Prop := match v with PTok s => token s | PQuoted its => Forall q_ok its end.
Record param := mkParam { pa_name : str; pa_val : pval; pa_pre : str; pa_post : str }.
Definition param_core (p : param) : str := pa_name p ++ 61 :: pval_text (pa_val p).
Definition param_text (p : param) : str := pa_pre p ++ param_core p ++ pa_post p.
(** A name=value parameter in optional whitespace. *)
Definition param_form (p : param) : Prop := token (pa_name p) /\ pval_ok (pa_val p) /\ all_space (pa_pre p) /\ all_space (pa_post p).
(** The same, but not an extended (name*=) one. *)
Definition param_ok (p : param) : Prop :=
  token (pa_name p) /\ last_chr (pa_name p) <> Some 42 /\ pval_ok (pa_val p)
  /\ all_space (pa_pre p) /\ all_space (pa_post p).

Definition f_qd0 : N -> bool := in_ranges [(9, 9); (32, 32); (33, 33); (35, 91); (93, 126); (128, 255)].
Definition f_qp0 : N -> bool := in_ranges [(9, 9); (32, 32); (33, 126); (128, 255)].
Lemma parameter_eq :
  rfc9110_parameter = Seq (Plus (Chr f_tchar)) (Seq (Chr (N.eqb 61))
    (Alt (Plus (Chr f_tchar)) (qs_re (N.eqb 34) (N.eqb 92) f_qd0 f_qp0))).
Proof. reflexivity. Qed.
(** What follows a parameter: nothing, whitespace, a delimiter. *)
Lemma ok_form p : param_ok p -> param_form p. Proof. intros (A & _ & B & C & D). exact (conj A (conj B (conj C D))). Qed.
Definition stopper (rest : str) : Prop := match rest with [] => True | c :: _ => tchar c = false end.
Lemma stop_ms rest : stopper rest -> ms (Chr f_tchar) rest = [].
Proof. destruct rest as [|c r]; [reflexivity|]. cbn [ms stopper]. rewrite f_tchar_ok. intros ->. reflexivity. Qed.
Lemma no_param c s : tchar c = false -> ms rfc9110_parameter (c :: s) = [].
Proof.
  intros H. rewrite parameter_eq. unfold Plus. cbn [ms]. rewrite f_tchar_ok, H. reflexivity.
Qed.
Lemma fst_param p rest : param_form p -> stopper rest -> fst_ms rfc9110_parameter (param_core p ++ rest) rest.
Proof.
  intros (Hn & Hv & _) Hr. rewrite parameter_eq. unfold param_core. rewrite <- app_assoc. cbn [app].
  destruct (token_f _ Hn) as [Hn1 Hn2].
  eapply fst_seq; [apply fst_plus_chr; [exact Hn1|exact Hn2|reflexivity]|].
  eapply fst_seq; [apply fst_chr; reflexivity|].
  destruct (pa_val p) as [s|its]; cbn [pval_text pval_ok] in *.
  - destruct (token_f _ Hv) as [Hs1 Hs2]. apply fst_altl, fst_plus_chr; [exact Hs1|exact Hs2|apply stop_ms, Hr].
  - apply fst_altr; [reflexivity|]. apply fst_quoted; try reflexivity; [| |exact Hv].
    + intros c Hc. apply qdtext_ranges, Hc.
    + intros c Hc. apply qpair_ranges, Hc.
Qed.
Definition delim_chr (dl : delim) : N := match dl with DSemi => 59 | DComma => 44 end.
Lemma delim_eq dl : delim_re dl = Seq (Star ws) (Seq (chr (delim_chr dl)) (Star ws)).
Proof. destruct dl; reflexivity. Qed.
Lemma look_delim dl a rest : all_space a -> look_split_end (delim_re dl) (a ++ delim_chr dl :: rest) = true.
Proof.
  intros Ha. unfold look_split_end.
  assert (L : lang (delim_re dl) (a ++ [delim_chr dl])).
  { rewrite delim_eq. apply L_seq; [apply lang_star_chr; exact Ha|].
    change [delim_chr dl] with ([delim_chr dl] ++ []). apply L_seq; [|apply lang_star_chr; reflexivity].
    apply L_chr. apply N.eqb_refl. }
  pose proof (ms_complete _ _ rest L) as Hin. rewrite <- app_assoc in Hin. cbn [app] in Hin.
  destruct (ms (delim_re dl) (a ++ delim_chr dl :: rest)); [destruct Hin|reflexivity].
Qed.
Lemma look_end r a : all_space a -> look_split_end r a = true.
Proof.
  intros Ha. unfold look_split_end. destruct (ms r a); [|reflexivity]. apply existsb_exists. exists []. split; [|reflexivity].
  rewrite <- (app_nil_r a). apply ms_complete. apply lang_star_chr. exact Ha.
Qed.
(** Skipping what cannot start a parameter. *)
Lemma skip_junk look junk s : forallb (fun c => negb (tchar c)) junk = true -> forall f,
  (length junk + length s < f)%nat ->
  exists f', (length s < f')%nat /\ findall_aux f rfc9110_parameter look (junk ++ s) = findall_aux f' rfc9110_parameter look s.
Proof.
  induction junk as [|c junk IH]; intros H f Hf; cbn [app]; [exists f; split; [exact Hf|reflexivity]|].
  cbn in H. apply andb_true_iff in H as [H1 H2]. apply negb_true_iff in H1.
  destruct f as [|f]; [lia|]. cbn [length] in Hf. destruct (IH H2 f) as (f' & L & E); [lia|].
  exists f'. split; [exact L|]. rewrite findall_skip; [exact E|]. apply no_param, H1.
Qed.
Lemma space_junk a : all_space a -> forallb (fun c => negb (tchar c)) a = true.
Proof.
  unfold all_space. rewrite !forallb_forall. intros H c Hc. specialize (H c Hc).
  destruct (tchar c) eqn:E; [|reflexivity]. apply tchar_facts in E as [E _]. congruence.
Qed.
Lemma findall_params dl ps : Forall param_form ps -> forall f,
  (length (join [delim_chr dl] (map param_text ps)) < f)%nat ->
  findall_aux f rfc9110_parameter (look_split_end (delim_re dl)) (join [delim_chr dl] (map param_text ps))
  = map param_core ps.
Proof.
  set (look := look_split_end (delim_re dl)).
  induction ps as [|p ps IH]; intros H f Hf; [apply findall_nil; reflexivity|].
  inversion H as [|? ? Hp Hps]; subst. pose proof Hp as (_ & _ & Hpre & Hpost).
  assert (Hcore : forall rest g, stopper rest -> look rest = true -> (length rest < g)%nat ->
     (length (param_core p ++ rest) < S g)%nat ->
     findall_aux (S g) rfc9110_parameter look (param_core p ++ rest)
     = param_core p :: findall_aux g rfc9110_parameter look rest).
  { intros rest g Hs Hl _ _. apply findall_match; [reflexivity|apply fst_param; assumption|exact Hl]. }
  assert (Hcl : (0 < length (param_core p))%nat) by (unfold param_core; rewrite app_length; cbn; lia).
  assert (Hstop : forall r, stopper r -> stopper (pa_post p ++ r)).
  { intros r Hr. pose proof (space_junk _ Hpost) as Hj. destruct (pa_post p) as [|c t]; [exact Hr|].
    cbn in Hj |- *. apply andb_true_iff in Hj as [Hj _]. apply negb_true_iff, Hj. }
  destruct ps as [|p2 ps].
  - cbn [map join] in *. unfold param_text in *. rewrite !app_length in Hf.
    destruct (skip_junk look (pa_pre p) (param_core p ++ pa_post p) (space_junk _ Hpre) f) as (f' & L & E);
      [rewrite app_length; lia|].
    rewrite E. rewrite app_length in L. destruct f' as [|g]; [lia|].
    rewrite Hcore; [|rewrite <- (app_nil_r (pa_post p)); apply Hstop; exact I|apply look_end, Hpost|lia|rewrite app_length; lia].
    f_equal. rewrite <- (app_nil_r (pa_post p)).
    destruct (skip_junk look (pa_post p) [] (space_junk _ Hpost) g) as (g' & L' & E'); [cbn [length]; lia|].
    rewrite E'. apply findall_nil. reflexivity.
  - set (more := p2 :: ps) in *.
    assert (Ej : join [delim_chr dl] (map param_text (p :: more))
                 = pa_pre p ++ param_core p ++ (pa_post p ++ [delim_chr dl]) ++ join [delim_chr dl] (map param_text more)).
    { unfold more. cbn [map join]. unfold param_text at 1. rewrite <- !app_assoc. reflexivity. }
    rewrite Ej in *. rewrite !app_length in Hf. cbn [length] in Hf.
    destruct (skip_junk look (pa_pre p) (param_core p ++ (pa_post p ++ [delim_chr dl]) ++ join [delim_chr dl] (map param_text more))
                (space_junk _ Hpre) f) as (f' & L & E); [rewrite !app_length; cbn [length]; lia|].
    rewrite E. rewrite !app_length in L. cbn [length] in L. destruct f' as [|g]; [lia|].
    rewrite Hcore.
    + cbn [map]. f_equal.
      destruct (skip_junk look (pa_post p ++ [delim_chr dl]) (join [delim_chr dl] (map param_text more))) with (f := g)
        as (g' & L' & E').
      * rewrite forallb_app, (space_junk _ Hpost). destruct dl; reflexivity.
      * rewrite app_length. cbn [length]. lia.
      * rewrite E'. apply IH; assumption.
    + rewrite <- app_assoc. apply Hstop. destruct dl; reflexivity.
    + rewrite <- app_assoc. cbn [app]. apply look_delim, Hpost.
    + rewrite !app_length. cbn [length]. lia.
    + rewrite !app_length. cbn [length]. lia.
Qed.
Lemma strip_core p : param_form p -> strip (param_core p) = param_core p.
Proof.
  intros ((Hn1 & Hn2) & Hv & _). unfold param_core. apply strip_id.
  - destruct (pa_name p) as [|c s]; [congruence|]. cbn in Hn2 |- *. intros d Hd. injection Hd as <-.
    apply andb_true_iff in Hn2 as [Hc _]. apply tchar_facts, Hc.
  - intros d. change (61 :: pval_text (pa_val p)) with ([61] ++ pval_text (pa_val p)). rewrite app_assoc.
    unfold last_chr. rewrite rev_app_distr.
    destruct (pa_val p) as [s|its]; cbn [pval_text pval_ok] in *.
    + destruct Hv as [Hs1 Hs2].
      assert (Hr : rev s <> []) by (intros E; apply Hs1; rewrite <- (rev_involutive s), E; reflexivity).
      rewrite <- forallb_rev in Hs2. destruct (rev s) as [|x r]; [congruence|].
      cbn in Hs2 |- *. intros Hd. injection Hd as <-. apply andb_true_iff in Hs2 as [Hx _]. apply tchar_facts, Hx.
    + pose proof (last_quoted its) as Hl. unfold last_chr in Hl. destruct (rev (quoted its)) as [|x r]; [discriminate|].
      cbn in Hl |- *. injection Hl as ->. intros Hd. injection Hd as <-. reflexivity.
Qed.
Lemma split_params dl ps : Forall param_form ps ->
  split_string (join [delim_chr dl] (map param_text ps)) rfc9110_parameter (delim_re dl) = map param_core ps.
Proof.
  intros H. unfold split_string. set (s := join [delim_chr dl] (map param_text ps)) in *.
  assert (E : map strip (findall rfc9110_parameter (look_split_end (delim_re dl)) s) = map param_core ps).
  { unfold findall, s. rewrite findall_params by (assumption || lia). rewrite map_map. apply map_ext_in.
    intros p Hp. rewrite Forall_forall in H. apply strip_core, H, Hp. }
  destruct s as [|c s'] eqn:Es; [|exact E]. rewrite <- E. reflexivity.
Qed.

(** One parameter. *)
Definition single_quoted (v : pval) : bool :=
  match first_chr (pval_text v), last_chr (pval_text v) with
  | Some a, Some b => (a =? 39) && (b =? 39)
  | _, _ => false
  end.
Definition note_repeat (p : param) : ev := ENote PARAM_REPEATS None [(k_param, VStr (lower (pa_name p)))] [].
Definition note_single (p : param) : ev :=
  ENote PARAM_SINGLE_QUOTED None [(k_param, VStr (lower (pa_name p))); (u "param_val", VStr (pval_text (pa_val p)));
                                 (u "param_val_unquoted", VStr (mid (pval_text (pa_val p))))] [].
Lemma split1_name s rest : forallb tchar s = true -> split1 61 (s ++ 61 :: rest) = Some (s, rest).
Proof.
  induction s as [|c s IH]; intros H; cbn; [reflexivity|]. cbn in H. apply andb_true_iff in H as [H1 H2].
  apply tchar_facts in H1 as (_ & H1 & _). apply N.eqb_neq in H1. rewrite H1, (IH H2). reflexivity.
Qed.
Lemma last_lower s : last_chr (lower s) = option_map lowc (last_chr s).
Proof. unfold last_chr, lower. rewrite <- map_rev. destruct (rev s); reflexivity. Qed.
Lemma token_value s : token s -> unquote_string s = s.
Proof.
  intros [H1 H2].
  assert (Hs : strip s = s).
  { apply strip_nospace. rewrite forallb_forall in *. intros c Hc. apply negb_true_iff, tchar_facts, H2, Hc. }
  rewrite unquote_unquoted; [exact Hs|]. rewrite Hs. left. destruct s as [|c s]; [congruence|]. cbn in *.
  apply andb_true_iff in H2 as [H2 _]. apply tchar_facts in H2 as (_ & _ & H2 & _). congruence.
Qed.
Lemma q_ok_plain its : Forall q_ok its -> Forall (fun i : qitem => if snd i then fst i <> 10 else fst i <> 92) its.
Proof.
  apply Forall_impl. intros [c b]. unfold q_ok, qpair, qdtext. cbn [fst snd]. destruct b; lia.
Qed.
Lemma value_unquoted v : pval_ok v -> unquote_string (pval_text v) = pval_value v.
Proof.
  destruct v as [s|its]; cbn [pval_ok pval_text pval_value]; [apply token_value|]. intros H.
  pose proof (unquote_quoted [] its [] eq_refl eq_refl (q_ok_plain _ H)) as E. cbn [app] in E.
  rewrite app_nil_r in E. exact E.
Qed.
Lemma parse_one e n d p : param_ok p ->
  parse_param e n d (param_core p)
  = ((if dmem (lower (pa_name p)) d then [note_repeat p] else [])
     ++ (if single_quoted (pa_val p) then [note_single p] else []),
     Ok (dset (lower (pa_name p)) (Some (pval_value (pa_val p))) d)).
Proof.
  intros ((Hn1 & Hn2) & Hstar & Hv & _). unfold parse_param, param_core. rewrite split1_name by exact Hn2.
  assert (Hf : exists a, first_chr (pval_text (pa_val p)) = Some a).
  { destruct (pa_val p) as [s|its]; cbn in *; [destruct Hv as [Hv _]; destruct s; [congruence|eexists; reflexivity]|eexists; reflexivity]. }
  assert (Hl : exists b, last_chr (pval_text (pa_val p)) = Some b).
  { destruct (pa_val p) as [s|its]; cbn [pval_text pval_ok] in *.
    - destruct Hv as [Hv _]. unfold last_chr. destruct (rev s) eqn:E; [|eexists; reflexivity]. exfalso. apply Hv.
      rewrite <- (rev_involutive s), E. reflexivity.
    - exists 34. apply last_quoted. }
  assert (Hk : exists k, last_chr (pa_name p) = Some k).
  { unfold last_chr. destruct (rev (pa_name p)) eqn:E; [|eexists; reflexivity]. exfalso. apply Hn1.
    rewrite <- (rev_involutive (pa_name p)), E. reflexivity. }
  destruct Hf as [a Ha], Hl as [b Hb], Hk as [k Hk]. rewrite <- (value_unquoted _ Hv).
  unfold single_quoted. rewrite Ha, Hb, Hk.
  assert (Hk42 : (k =? 42) = false) by (apply N.eqb_neq; congruence).
  destruct (dmem (lower (pa_name p)) d), ((a =? 39) && (b =? 39)); cbn [when bind add_note tell ret app];
    rewrite Hk42; reflexivity.
Qed.
(** All of them. *)
Fixpoint param_events (seen : list str) (ps : list param) : list ev :=
  match ps with
  | [] => []
  | p :: ps' =>
      (if str_in (lower (pa_name p)) seen then [note_repeat p] else [])
      ++ (if single_quoted (pa_val p) then [note_single p] else [])
      ++ param_events (lower (pa_name p) :: seen) ps'
  end.
Fixpoint last_value (k : str) (ps : list param) : option str :=
  match ps with
  | [] => None
  | p :: ps' => match last_value k ps' with
                | Some v => Some v
                | None => if str_eqb (lower (pa_name p)) k then Some (pval_value (pa_val p)) else None
                end
  end.
Lemma parse_all e n ps : Forall param_ok ps -> forall d seen,
  (forall k, dmem k d = str_in k seen) ->
  exists d', foldW (parse_param e n) (map param_core ps) d = (param_events seen ps, Ok d')
    /\ forall k, dget k d' = match last_value k ps with Some v => Some (Some v) | None => dget k d end.
Proof.
  induction 1 as [|p ps Hp _ IH]; intros d seen Hd; cbn [map foldW param_events last_value].
  - exists d. split; [reflexivity|]. reflexivity.
  - rewrite (parse_one e n d p Hp), Hd.
    destruct (IH (dset (lower (pa_name p)) (Some (pval_value (pa_val p))) d) (lower (pa_name p) :: seen)) as (d' & E & Hg).
    + intros k. unfold dmem in *. rewrite dget_dset. cbn [str_in existsb]. rewrite str_eqb_sym.
      specialize (Hd k). rewrite (str_eqb_sym (lower (pa_name p)) k). destruct (str_eqb k (lower (pa_name p))); [reflexivity|exact Hd].
    + exists d'. unfold bind. rewrite E. split; [rewrite app_assoc; reflexivity|]. intros k. rewrite Hg.
      destruct (last_value k ps); [reflexivity|]. rewrite dget_dset.
      rewrite (str_eqb_sym k (lower (pa_name p))). destruct (str_eqb (lower (pa_name p)) k); reflexivity.
Qed.
Lemma parse_params_ok e n dl ps : Forall param_ok ps ->
  exists d, parse_params e (join [delim_chr dl] (map param_text ps)) n dl = (param_events [] ps, Ok d)
    /\ forall k, dget k d = option_map Some (last_value k ps).
Proof.
  intros H. unfold parse_params. rewrite split_params by (eapply Forall_impl; [|exact H]; apply ok_form).
  destruct (parse_all e n ps H [] []) as (d & E & Hg); [reflexivity|]. exists d. split; [exact E|].
  intros k. rewrite Hg. destruct (last_value k ps); reflexivity.
Qed.
