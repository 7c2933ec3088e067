(** * Extended parameters (C70) *)
From Verif Require Import PyStr Regex Grammar Note PyLib Utils NoteLemmas LexLemmas ParamLemmas FieldDue TestEnv ExtParamSpec.
From Verif Require CodingSpec PropCodings.
Open Scope N_scope.

(** ** The three parts of an extended value *)
Lemma split1_count c s : split1 c s = if Nat.eqb (count c s) 0 then None else Some (before c s, after c s).
Proof.
  induction s as [|x s IH]; [reflexivity|]. cbn [split1 count before after]. destruct (x =? c); [reflexivity|].
  rewrite IH. destruct (Nat.eqb _ _); reflexivity.
Qed.
Lemma count_after c s : count c (after c s) = pred (count c s).
Proof. induction s as [|x s IH]; [reflexivity|]. cbn [count after]. destruct (x =? c); [reflexivity|exact IH]. Qed.
Lemma split3 s :
  if Nat.eqb (count 39 s) 2
  then split_max 3 39 s = [before 39 s; before 39 (after 39 s); after 39 (after 39 s)]
  else length (split_max 3 39 s) <> 3%nat.
Proof.
  cbn [split_max]. rewrite (split1_count 39 s). pose proof (count_after 39 s) as C1. destruct (count 39 s) as [|n] eqn:E; [cbn; lia|]. cbn [Nat.eqb].
  set (s1 := after 39 s) in *. rewrite (split1_count 39 s1). pose proof (count_after 39 s1) as C2. cbn [pred] in C1. rewrite C1 in *. destruct n as [|n]; [cbn; lia|]. cbn [Nat.eqb pred] in *.
  set (s2 := after 39 s1) in *. rewrite (split1_count 39 s2), C2. destruct n as [|n]; cbn [Nat.eqb]; [reflexivity|cbn [length]; lia].
Qed.
Lemma star_read {A} (e : env) (s : str) (bad : A) (f : str -> str -> A) :
  match split_max 3 39 s with [enc; lang; esc] => f (lower enc) esc | _ => bad end
  = if Nat.eqb (count 39 s) 2 then f (lower (before 39 s)) (after 39 (after 39 s)) else bad.
Proof.
  pose proof (split3 s) as H. destruct (Nat.eqb _ _); [rewrite H; reflexivity|]. destruct (split_max 3 39 s) as [|a [|b [|c [|d l]]]]; try reflexivity. exfalso. apply H. reflexivity.
Qed.

(** ** One parameter *)
Lemma last_hd (s : str) : s <> [] -> last_chr s = Some (last s 0).
Proof.
  intros H. destruct (exists_last H) as (l & x & ->). rewrite last_last. unfold last_chr. rewrite rev_app_distr. reflexivity.
Qed.
Lemma hd_first (s : str) : s <> [] -> first_chr s = Some (hd 0 s).
Proof. destruct s; [congruence|reflexivity]. Qed.
Lemma mid_quoted its : mid (quoted its) = flat_map q_text its.
Proof. unfold quoted, mid. cbn [tl]. apply removelast_last. Qed.
Lemma forbids_ok n k : nostar_hit n k = forbids n k.
Proof. destruct n as [| |[|x l]]; reflexivity. Qed.
Lemma entry_step e n d p : param_form p ->
  parse_param e n d (param_core p)
  = (map recorded (param_tells n (dmem (norm p) d) p),
     Ok (match entry e n p with Some v => dset (norm p) (Some v) d | None => d end)).
Proof.
  intros ((Hn1 & Hn2) & Hv & _). unfold parse_param, param_core. rewrite split1_name by exact Hn2. cbv zeta.
  assert (T : pval_text (pa_val p) <> []) by (destruct (pa_val p) as [s|its]; cbn in *; [apply Hv|discriminate]).
  rewrite (hd_first _ T), (last_hd _ T), (last_hd _ Hn1), forbids_ok. rewrite (value_unquoted _ Hv).
  unfold param_tells, entry, extended. rewrite (last_hd _ Hn1). fold (norm p). fold (base p).
  assert (A : (hd 0 (pval_text (pa_val p)) =? 39) && (last (pval_text (pa_val p)) 0 =? 39) = in_apostrophes (pa_val p)) by (destruct (pa_val p); reflexivity).
  assert (A2 : in_apostrophes (pa_val p) = true -> inner (pa_val p) = pval_text (pa_val p)) by (destruct (pa_val p); [reflexivity|discriminate]).
  assert (Q : (hd 0 (pval_text (pa_val p)) =? 34) && (last (pval_text (pa_val p)) 0 =? 34) = is_quoted (pa_val p)).
  { destruct (pa_val p) as [s|its]; cbn [pval_text is_quoted pval_ok] in *.
    - destruct Hv as [Hs1 Hs2]. destruct s as [|c s]; [congruence|]. cbn [hd]. cbn in Hs2. apply andb_true_iff in Hs2 as [Hc _]. apply tchar_facts in Hc as (_ & _ & Hc & _).
      apply N.eqb_neq in Hc. rewrite Hc. reflexivity.
    - unfold quoted. change (34 :: flat_map q_text its ++ [34]) with ((34 :: flat_map q_text its) ++ [34]). rewrite last_last. reflexivity. }
  assert (I : (if is_quoted (pa_val p) then mid (pval_text (pa_val p)) else pval_text (pa_val p)) = inner (pa_val p)) by (destruct (pa_val p); [reflexivity|apply mid_quoted]).
  rewrite A, Q, I.
  assert (W : forall enc esc : str, str_in enc [u "utf-8"] = str_eqb enc (u "utf-8")) by (intros; cbn [str_in existsb]; apply orb_false_r).
  replace (mid (pval_text (pa_val p))) with (if in_apostrophes (pa_val p) then removelast (tl (inner (pa_val p))) else mid (pval_text (pa_val p))) by (destruct (in_apostrophes (pa_val p)); [rewrite A2 by reflexivity|]; reflexivity).
  replace (VStr (pval_text (pa_val p))) with (if in_apostrophes (pa_val p) then VStr (inner (pa_val p)) else VStr (pval_text (pa_val p))) by (destruct (in_apostrophes (pa_val p)); [rewrite A2 by reflexivity|]; reflexivity).
  clear A A2 Q I T Hv Hn1 Hn2.
  generalize (inner (pa_val p)) as raw. generalize (pval_text (pa_val p)) as text. intros text raw.
  rewrite (star_read e raw (add_note PARAM_STAR_ERROR [(k_param, VStr (norm p))] ;;; ret d)
    (fun enc esc => if str_eqb enc [] then add_note PARAM_STAR_NOCHARSET [(k_param, VStr (norm p))] ;;; ret d
       else if negb (str_in enc [u "utf-8"]) then add_note PARAM_STAR_CHARSET [(k_param, VStr (norm p)); (u "enc", VStr enc)] ;;; ret d
       else ret (dset (norm p) (Some (e_unquote e esc)) d))). cbv beta. rewrite (W _ []). unfold ext_read.
  destruct (dmem (norm p) d), (in_apostrophes (pa_val p)), (last (pa_name p) 0 =? 42); try reflexivity; destruct (forbids n (base p)); try reflexivity;
    destruct (is_quoted (pa_val p)), (Nat.eqb (count 39 raw) 2); try reflexivity; destruct (lower (before 39 raw)) as [|x c]; try reflexivity;
    change (str_eqb (x :: c) []) with false; cbv iota; destruct (str_eqb (x :: c) (u "utf-8")); reflexivity.
Qed.

(** ** All of them *)
Lemma last_entry_snoc e n k done p : last_entry e n k (done ++ [p])
  = match (if str_eqb k (norm p) then entry e n p else None) with Some v => Some v | None => last_entry e n k done end.
Proof.
  induction done as [|q done IH]; cbn [app last_entry]; [destruct (str_eqb k (norm p)); [destruct (entry e n p)|]; reflexivity|].
  rewrite IH. destruct (if str_eqb k (norm p) then entry e n p else None); reflexivity.
Qed.
Lemma entries e n ps : Forall param_form ps -> forall d done, (forall k, dget k d = option_map Some (last_entry e n k done)) ->
  exists d', foldW (parse_param e n) (map param_core ps) d = (map recorded (params_tell e n done ps), Ok d')
    /\ forall k, dget k d' = option_map Some (last_entry e n k (done ++ ps)).
Proof.
  induction 1 as [|p ps Hp _ IH]; intros d done Hd; cbn [map foldW params_tell].
  - exists d. split; [reflexivity|]. rewrite app_nil_r. exact Hd.
  - rewrite (entry_step e n d p Hp).
    assert (M : dmem (norm p) d = match last_entry e n (norm p) done with Some _ => true | None => false end) by (unfold dmem; rewrite Hd; destruct (last_entry e n (norm p) done); reflexivity).
    rewrite M. destruct (IH (match entry e n p with Some v => dset (norm p) (Some v) d | None => d end) (done ++ [p])) as (d' & E & Hg).
    + intros k. rewrite last_entry_snoc. destruct (entry e n p) as [v|]; [|rewrite Hd; destruct (str_eqb k (norm p)); reflexivity]. rewrite dget_dset, Hd. destruct (str_eqb k (norm p)); reflexivity.
    + exists d'. unfold bind. rewrite E. split; [rewrite map_app; reflexivity|]. intros k. rewrite Hg, <- app_assoc. reflexivity.
Qed.
(** Parameters joined by the delimiter: the notes, in order, and the dictionary. *)
Theorem C70_params : forall e n dl ps, Forall param_form ps ->
  exists d, parse_params e (join [delim_chr dl] (map param_text ps)) n dl = (map recorded (params_tell e n [] ps), Ok d)
    /\ forall k, dget k d = option_map Some (last_entry e n k ps).
Proof.
  intros e n dl ps H. unfold parse_params. rewrite (split_params dl ps H). exact (entries e n ps H [] [] (fun k => eq_refl)).
Qed.
Print Assumptions C70_params.

(** ** What the parts of an extended value are *)
Lemma count_none c s : count c s = O <-> ~ In c s.
Proof.
  induction s as [|x s IH]; [split; [intros _ []|reflexivity]|]. cbn [count In]. destruct (x =? c) eqn:E.
  - split; [discriminate|]. intros H. exfalso. apply H. left. lia.
  - rewrite IH. split; intros H; [intros [X|X]; [lia|exact (H X)]|intros X; apply H; right; exact X].
Qed.
Lemma count_app c a b : count c (a ++ b) = (count c a + count c b)%nat.
Proof. induction a as [|x a IH]; [reflexivity|]. cbn [app count]. destruct (x =? c); rewrite IH; reflexivity. Qed.
Lemma before_app c a b : ~ In c a -> before c (a ++ c :: b) = a /\ after c (a ++ c :: b) = b.
Proof.
  induction a as [|x a IH]; intros H; cbn [app before after]; [rewrite N.eqb_refl; split; reflexivity|].
  destruct (x =? c) eqn:E; [exfalso; apply H; left; lia|]. destruct IH as [I1 I2]; [intros X; apply H; right; exact X|]. rewrite I1, I2. split; reflexivity.
Qed.
Lemma before_after c s : In c s -> s = before c s ++ c :: after c s /\ ~ In c (before c s).
Proof.
  induction s as [|x s IH]; intros H; [destruct H|]. cbn [before after]. destruct (x =? c) eqn:E; [apply N.eqb_eq in E; subst; split; [reflexivity|intros []]|].
  destruct H as [H|H]; [lia|]. destruct (IH H) as [A B]. split; [cbn [app]; rewrite <- A; reflexivity|]. intros [X|X]; [lia|exact (B X)].
Qed.
(** [ext_read] finds a text exactly when the value is charset, apostrophe, language, apostrophe, text, with no other
    apostrophe and the charset UTF-8 in any case. *)
Theorem C70_text : forall s t, ext_read s = ExtText t <->
  exists cs lang, s = cs ++ 39 :: lang ++ 39 :: t /\ lower cs = u "utf-8" /\ ~ In 39 cs /\ ~ In 39 lang /\ ~ In 39 t.
Proof.
  intros s t. unfold ext_read. split.
  - destruct (Nat.eqb (count 39 s) 2) eqn:E; [|discriminate]. apply Nat.eqb_eq in E.
    assert (I : In 39 s) by (destruct (in_dec N.eq_dec 39 s) as [I|I]; [exact I|apply count_none in I; lia]).
    destruct (before_after 39 s I) as [A B]. pose proof (count_after 39 s) as C. rewrite E in C. cbn [pred] in C.
    assert (I2 : In 39 (after 39 s)) by (destruct (in_dec N.eq_dec 39 (after 39 s)) as [J|J]; [exact J|apply count_none in J; lia]).
    destruct (before_after 39 _ I2) as [A2 B2]. pose proof (count_after 39 (after 39 s)) as C2. rewrite C in C2. cbn [pred] in C2.
    destruct (lower (before 39 s)) as [|x c] eqn:L; [discriminate|]. destruct (str_eqb (x :: c) (u "utf-8")) eqn:Eu; [|discriminate]. intros X. injection X as <-.
    exists (before 39 s), (before 39 (after 39 s)). rewrite <- A2. split; [exact A|]. apply str_eqb_eq in Eu. rewrite L. split; [exact Eu|]. split; [exact B|]. split; [exact B2|]. apply count_none, C2.
  - intros (cs & lang & -> & L & N1 & N2 & N3). destruct (before_app 39 cs (lang ++ 39 :: t) N1) as [A B]. destruct (before_app 39 lang t N2) as [A2 B2].
    rewrite A, B, B2, L, count_app. cbn [count]. rewrite count_app. cbn [count]. rewrite (proj2 (count_none 39 cs) N1), (proj2 (count_none 39 lang) N2), (proj2 (count_none 39 t) N3). reflexivity.
Qed.
Print Assumptions C70_text.

(** ** Content-Disposition with written-out parameters, extended or not (what C48 leaves to C70) *)
Theorem C70_disposition : forall e ty ps l, ~ In 59 ty -> Forall param_form ps ->
  CodingSpec.disposition_of (lower (CodingSpec.before_semi (PropCodings.written ty ps))) (CodingSpec.parameters e NoStarNone (PropCodings.written ty ps)) l ->
  let file := last_entry e NoStarNone (u "filename") ps in
  let file_star := last_entry e NoStarNone (u "filename*") ps in
  exists b1 b2 b3 b4, l = only b1 DISPOSITION_UNKNOWN ++ only b2 DISPOSITION_OMITS_FILENAME ++ only b3 DISPOSITION_FILENAME_PERCENT ++ only b4 DISPOSITION_FILENAME_PATH_CHAR
    /\ (b1 = true <-> lower ty <> u "inline" /\ lower ty <> u "attachment")
    /\ (b2 = true <-> lower ty = u "attachment" /\ file = None)
    /\ (b3 = true <-> exists f, file = Some f /\ In 37 f)
    /\ (b4 = true <-> (exists f, file = Some f /\ In 47 f) \/ (exists f a b, file_star = Some f /\ f = a ++ [92; 92] ++ b)).
Proof.
  intros e ty ps l H59 Hp (b1 & b2 & b3 & b4 & -> & B1 & B2 & B3 & B4) file file_star. destruct (PropCodings.written_split ty ps H59) as [S1 S2]. rewrite S1 in *.
  destruct (C70_params e NoStarNone DSemi ps Hp) as (d & Ed & Hd). assert (P : CodingSpec.parameters e NoStarNone (PropCodings.written ty ps) = d).
  { unfold CodingSpec.parameters. rewrite S2. change [59] with [delim_chr DSemi]. rewrite Ed. reflexivity. }
  rewrite P in *. exists b1, b2, b3, b4. split; [reflexivity|]. split; [exact B1|]. unfold CodingSpec.given, CodingSpec.text_of in *. rewrite !Hd in *. fold file in B2, B3, B4. fold file_star in B4. split; [|split].
  - rewrite B2. destruct file; cbn [option_map]; split; intros [? ?]; split; congruence.
  - rewrite B3. destruct file; cbn [option_map]; split; [intros X; eauto|intros (f & F & X); injection F as ->; exact X|intros []|intros (f & F & _); discriminate].
  - rewrite B4. assert (OI : forall A B C D : Prop, (A <-> C) -> (B <-> D) -> (A \/ B <-> C \/ D)) by (clear; tauto). apply OI; clear OI.
    + destruct file; cbn [option_map]; split; [intros X; eauto|intros (f & F & X); injection F as ->; exact X|intros []|intros (f & F & _); discriminate].
    + destruct file_star as [f|]; cbn [option_map]; split.
      * intros (a & b & X). exists f, a, b. split; [reflexivity|exact X].
      * intros (f0 & a & b & F & X). injection F as ->. exists a, b. exact X.
      * intros (a & b & X). destruct a; discriminate.
      * intros (f & a & b & F & _). discriminate.
Qed.
Print Assumptions C70_disposition.

(** ** Example *)
Definition ext_sample : list param :=
  [mkParam (u "filename") (PTok (u "a.txt")) (u " ") []; mkParam (u "FileName*") (PTok (u "UTF-8'en'%e2%82%ac")) (u " ") (u " ");
   mkParam (u "a*") (PQuoted (map (fun c => (c, false)) (u "latin1''x"))) [] []; mkParam (u "a*") (PTok (u "x")) [] []; mkParam (u "filename") (PTok (u "'")) [] []].
Example C70_form : Forall param_form ext_sample.
Proof. repeat (apply Forall_cons || apply Forall_nil); repeat split; try discriminate; try reflexivity. cbn. repeat (apply Forall_cons || apply Forall_nil); unfold q_ok, qdtext, qpair; cbn; lia. Qed.
Example C70_ex : join [delim_chr DSemi] (map param_text ext_sample) = u " filename=a.txt; FileName*=UTF-8'en'%e2%82%ac ;a*=""latin1''x"";a*=x;filename='"
  /\ params_tell env0 NoStarNone [] ext_sample
     = [(PARAM_STAR_QUOTED, [("param"%string, u "a*")]); (PARAM_STAR_CHARSET, [("param"%string, u "a*"); ("enc"%string, u "latin1")]);
        (PARAM_STAR_ERROR, [("param"%string, u "a*")]); (PARAM_REPEATS, [("param"%string, u "filename")]);
        (PARAM_SINGLE_QUOTED, [("param"%string, u "filename"); ("param_val"%string, u "'"); ("param_val_unquoted"%string, [])])]
  /\ last_entry env0 NoStarNone (u "filename*") ext_sample = Some (e_unquote env0 (u "%e2%82%ac"))
  /\ last_entry env0 NoStarNone (u "a*") ext_sample = None
  /\ params_tell env0 (NoStarList [u "filename"]) [] (firstn 2 ext_sample) = [(PARAM_STAR_BAD, [("param"%string, u "filename")])].
Proof. vm_compute. repeat split. Qed.
