(** * Lexical lemmas: stripping, first matches, quoted strings, splitting *)
From Verif Require Import PyStr Regex Grammar Note PyLib Utils NoteLemmas.
Open Scope N_scope.

(** ** Stripping *)
Definition all_space (s : str) : Prop := forallb isspace s = true.
Lemma drop_while_app f a b : forallb f a = true -> drop_while f (a ++ b) = drop_while f b.
Proof.
  induction a as [|c a IH]; cbn; [reflexivity|]. intros H. apply andb_true_iff in H as [H1 H2].
  rewrite H1. apply IH, H2.
Qed.
Lemma drop_while_all f a : forallb f a = true -> drop_while f a = [].
Proof. intros H. rewrite <- (app_nil_r a), drop_while_app by exact H. reflexivity. Qed.
Lemma drop_while_id f c s : f c = false -> drop_while f (c :: s) = c :: s.
Proof. intros H. cbn. rewrite H. reflexivity. Qed.
Lemma forallb_rev {A} (f : A -> bool) l : forallb f (rev l) = forallb f l.
Proof.
  induction l as [|x l IH]; [reflexivity|]. cbn. rewrite forallb_app, IH. cbn. rewrite andb_true_r. apply andb_comm.
Qed.
(** [a ++ b] where dropping stops inside [a]: the tail is untouched. *)
Lemma drop_while_stop f a b c : f c = false -> In c a -> drop_while f (a ++ b) = drop_while f a ++ b.
Proof.
  intros Hc. induction a as [|x a IH]; [intros []|]. intros [->|H]; cbn.
  - rewrite Hc. reflexivity.
  - destruct (f x); [apply IH, H|reflexivity].
Qed.
Lemma strip_space s : all_space s -> strip s = [].
Proof.
  intros H. unfold strip, lstrip, rstrip. rewrite (drop_while_all _ s H). reflexivity.
Qed.
Lemma strip_pad a s b : all_space a -> all_space b -> strip (a ++ s ++ b) = strip s.
Proof.
  intros Ha Hb. unfold strip, lstrip. rewrite drop_while_app by exact Ha.
  destruct (forallb isspace s) eqn:E.
  - rewrite (drop_while_all _ s E), drop_while_all; [reflexivity|]. rewrite forallb_app, E. exact Hb.
  - assert (H : exists c, In c s /\ isspace c = false).
    { clear - E. induction s as [|c s IH]; [discriminate|]. cbn in E.
      destruct (isspace c) eqn:Ec; [|exists c; split; [left; reflexivity|exact Ec]].
      destruct (IH E) as (d & H1 & H2). exists d. split; [right; exact H1|exact H2]. }
    destruct H as (c & Hin & Hc). rewrite (drop_while_stop _ s b c Hc Hin). unfold rstrip.
    rewrite rev_app_distr, drop_while_app; [reflexivity|]. rewrite forallb_rev. exact Hb.
Qed.
Lemma strip_id s : (forall c, first_chr s = Some c -> isspace c = false) ->
  (forall c, last_chr s = Some c -> isspace c = false) -> strip s = s.
Proof.
  intros H1 H2. unfold strip, lstrip, rstrip.
  assert (E : drop_while isspace s = s).
  { destruct s as [|c s]; [reflexivity|]. apply drop_while_id, H1. reflexivity. }
  rewrite E. unfold last_chr in H2.
  assert (E2 : drop_while isspace (rev s) = rev s).
  { destruct (rev s) as [|c r]; [reflexivity|]. apply drop_while_id, H2. reflexivity. }
  rewrite E2. apply rev_involutive.
Qed.
Lemma strip_nospace s : forallb (fun c => negb (isspace c)) s = true -> strip s = s.
Proof.
  intros H. rewrite forallb_forall in H.
  apply strip_id; intros c Hc; apply negb_true_iff, H.
  - destruct s as [|x s]; [discriminate|]. injection Hc as ->. left; reflexivity.
  - unfold last_chr in Hc. apply in_rev. destruct (rev s) as [|x r]; [discriminate|]. injection Hc as ->.
    left; reflexivity.
Qed.
Lemma strip_inner s : forall c, first_chr (strip s) = Some c -> isspace c = false.
Proof.
  intros c. unfold strip, rstrip, lstrip.
  assert (Hd : forall t x, first_chr (drop_while isspace t) = Some x -> isspace x = false).
  { induction t as [|y t IH]; intros x; cbn; [discriminate|]. destruct (isspace y) eqn:E; [apply IH|].
    cbn. intros H. injection H as ->. exact E. }
  set (t := drop_while isspace s) in *.
  assert (Ht : forall r, exists p, rev r = rev (drop_while isspace r) ++ p).
  { induction r as [|y r [p IH]]; [exists []; reflexivity|]. cbn. destruct (isspace y).
    - rewrite IH. exists (p ++ [y]). rewrite app_assoc. reflexivity.
    - exists []. rewrite app_nil_r. reflexivity. }
  destruct (Ht (rev t)) as [p Hp]. rewrite rev_involutive in Hp.
  destruct (rev (drop_while isspace (rev t))) as [|y r] eqn:E; [discriminate|].
  cbn. intros H. injection H as ->. apply (Hd s c). fold t. rewrite Hp. reflexivity.
Qed.

(** ** First matches *)
Definition fst_ms (r : re) (s rest : str) : Prop := hd_error (ms r s) = Some rest.
Lemma hd_flat_map {A B} (g : A -> list B) l x y :
  hd_error l = Some x -> hd_error (g x) = Some y -> hd_error (flat_map g l) = Some y.
Proof.
  destruct l as [|a l]; [discriminate|]. intros H. injection H as ->. cbn. destruct (g x); [discriminate|].
  cbn. exact (fun h => h).
Qed.
Lemma fst_seq a b s s1 s2 : fst_ms a s s1 -> fst_ms b s1 s2 -> fst_ms (Seq a b) s s2.
Proof. unfold fst_ms. cbn [ms]. apply hd_flat_map. Qed.
Lemma fst_altl a b s s1 : fst_ms a s s1 -> fst_ms (Alt a b) s s1.
Proof. unfold fst_ms. cbn [ms]. destruct (ms a s); [discriminate|]. cbn. exact (fun h => h). Qed.
Lemma fst_altr a b s s1 : ms a s = [] -> fst_ms b s s1 -> fst_ms (Alt a b) s s1.
Proof. unfold fst_ms. cbn [ms]. intros -> H. exact H. Qed.
Lemma fst_chr f c s : f c = true -> fst_ms (Chr f) (c :: s) s.
Proof. unfold fst_ms. cbn. intros ->. reflexivity. Qed.
Lemma fst_nchr f c s : f c = false -> fst_ms (NChr f) (c :: s) s.
Proof. unfold fst_ms. cbn. intros ->. reflexivity. Qed.
Lemma star_fuel body : body [] = [] -> forall f s, (length s <= f)%nat ->
  star_ms body f s = star_ms body (length s) s.
Proof.
  intros H0 f. induction f as [f IH] using lt_wf_ind. intros s Hs. destruct s as [|c s].
  - destruct f as [|f]; [reflexivity|]. cbn [star_ms length]. rewrite H0. reflexivity.
  - destruct f as [|f]; [cbn in Hs; lia|]. cbn [length] in *. cbn [star_ms]. f_equal.
    apply flat_map_ext. intros s'. destruct (Nat.ltb_spec (length s') (length (c :: s))) as [L|L]; [|reflexivity].
    cbn [length] in L. rewrite (IH f) by lia.
    symmetry. apply IH; lia.
Qed.
Lemma fst_star_nil a s : ms a s = [] -> fst_ms (Star a) s s.
Proof. unfold fst_ms. cbn [ms]. intros H. destruct (length s); cbn; [reflexivity|]. rewrite H. reflexivity. Qed.
Lemma fst_star_cons a s s1 s2 :
  ms a [] = [] -> fst_ms a s s1 -> (length s1 < length s)%nat -> fst_ms (Star a) s1 s2 -> fst_ms (Star a) s s2.
Proof.
  unfold fst_ms. cbn [ms]. intros H0 H1 L H2. destruct s as [|c s]; [cbn in L; lia|]. cbn [length].
  cbn [star_ms]. cbn [length] in L.
  assert (E : hd_error (flat_map (fun s' => if Nat.ltb (length s') (length (c :: s))
                                            then star_ms (ms a) (length s) s' else [s']) (ms a (c :: s))) = Some s2).
  { eapply hd_flat_map; [exact H1|]. cbn [length]. apply Nat.ltb_lt in L as L'. rewrite L'.
    rewrite star_fuel by (assumption || lia). exact H2. }
  match goal with |- hd_error (?l ++ _) = _ => destruct l; [discriminate|exact E] end.
Qed.
(** A run of characters of a class. *)
Lemma fst_star_chr f a s : forallb f a = true -> ms (Chr f) s = [] -> fst_ms (Star (Chr f)) (a ++ s) s.
Proof.
  intros Ha Hs. induction a as [|c a IH]; cbn [app]; [apply fst_star_nil, Hs|].
  cbn in Ha. apply andb_true_iff in Ha as [H1 H2].
  apply fst_star_cons with (a ++ s); [reflexivity|apply fst_chr, H1|cbn; lia|apply IH, H2].
Qed.
Lemma fst_plus_chr f a s : a <> [] -> forallb f a = true -> ms (Chr f) s = [] -> fst_ms (Plus (Chr f)) (a ++ s) s.
Proof.
  intros Hn Ha Hs. destruct a as [|c a]; [congruence|]. cbn in Ha. apply andb_true_iff in Ha as [H1 H2].
  apply fst_seq with (a ++ s); [apply fst_chr, H1|apply fst_star_chr; assumption].
Qed.

(** ** Case folding of classes that do not care about case *)
Lemma lowc_other c : lowc c <> c -> (is_upper_ascii c = true \/ 192 <= c <= 222) /\ lowc c = c + 32.
Proof.
  unfold lowc. destruct (is_upper_ascii c); [tauto|].
  destruct ((192 <=? c) && (c <=? 222) && negb (c =? 215)) eqn:E; [|congruence].
  apply andb_true_iff in E as [E _]. apply andb_true_iff in E as [E1 E2].
  apply N.leb_le in E1, E2. intuition lia.
Qed.
Lemma upc_other c : upc c <> c -> (is_lower_ascii c = true \/ 224 <= c <= 254) /\ upc c = c - 32.
Proof.
  unfold upc. destruct (is_lower_ascii c); [tauto|].
  destruct ((224 <=? c) && (c <=? 254) && negb (c =? 247)) eqn:E; [|congruence].
  apply andb_true_iff in E as [E _]. apply andb_true_iff in E as [E1 E2].
  apply N.leb_le in E1, E2. intuition lia.
Qed.
Lemma ci_true f c : f c = true -> ci f c = true.
Proof. unfold ci. intros ->. reflexivity. Qed.
(** A class whose letters come in both cases is unchanged. *)
Lemma ci_stable f c :
  (forall d, f d = true -> f (lowc d) = true /\ f (upc d) = true) ->
  (forall d, is_lower_ascii d = true -> lowc (upc d) = d) ->
  f (lowc c) = true -> lowc c <> c -> upc (lowc c) = c -> f c = true.
Proof. intros H _ H1 _ H2. destruct (H _ H1) as [_ H3]. rewrite H2 in H3. exact H3. Qed.
Lemma ci_none f c : f c = false -> f (lowc c) = false -> f (upc c) = false -> ci f c = false.
Proof. unfold ci. intros -> -> ->. reflexivity. Qed.

(** ** Quoted strings: a list of characters, each escaped or not *)
Definition qitem := (N * bool)%type.
Definition q_text (i : qitem) : str := if snd i then [92; fst i] else [fst i].
Definition quoted (its : list qitem) : str := 34 :: flat_map q_text its ++ [34].
(** RFC 9110 5.6.4: qdtext, or a quoted-pair of HTAB / SP / VCHAR / obs-text. *)
Definition qdtext (c : N) : Prop :=
  c = 9 \/ c = 32 \/ c = 33 \/ 35 <= c <= 91 \/ 93 <= c <= 126 \/ 128 <= c <= 255.
Definition qpair (c : N) : Prop := c = 9 \/ c = 32 \/ 33 <= c <= 126 \/ 128 <= c <= 255.
Definition q_ok (i : qitem) : Prop := if snd i then qpair (fst i) else qdtext (fst i).

Definition f_qd : N -> bool := ci (in_ranges [(9, 9); (32, 32); (33, 33); (35, 91); (93, 126); (128, 255)]).
Definition f_qp : N -> bool := ci (in_ranges [(9, 9); (32, 32); (33, 126); (128, 255)]).
Lemma in_ranges_cons a b l c : in_ranges ((a, b) :: l) c = ((a <=? c) && (c <=? b)) || in_ranges l c.
Proof. reflexivity. Qed.
Ltac ranges := repeat rewrite in_ranges_cons; change (in_ranges [] ?c) with false; rewrite ?orb_true_iff, ?andb_true_iff, ?N.leb_le.
Lemma qdtext_ranges c : in_ranges [(9, 9); (32, 32); (33, 33); (35, 91); (93, 126); (128, 255)] c = true <-> qdtext c.
Proof. unfold qdtext. rewrite !in_ranges_cons. unfold in_ranges. cbn [existsb]. rewrite !orb_true_iff, !andb_true_iff, !N.leb_le. intuition (try discriminate; try lia). Qed.
Lemma qpair_ranges c : in_ranges [(9, 9); (32, 32); (33, 126); (128, 255)] c = true <-> qpair c.
Proof. unfold qpair. rewrite !in_ranges_cons. unfold in_ranges. cbn [existsb]. rewrite !orb_true_iff, !andb_true_iff, !N.leb_le. intuition (try discriminate; try lia). Qed.
Lemma f_qd_ok c : qdtext c -> f_qd c = true.
Proof. intros H. apply ci_true, qdtext_ranges, H. Qed.
Lemma f_qp_ok c : qpair c -> f_qp c = true.
Proof. intros H. apply ci_true, qpair_ranges, H. Qed.
(** The quoted-string expression, as matched (case folded or not). *)
Definition qs_re (fq fb fd fp : N -> bool) : re :=
  Seq (Chr fq) (Seq (Star (Alt (Chr fd) (Seq (Chr fb) (Chr fp)))) (Chr fq)).
Lemma eqb_ci a c : (a < 65) \/ a = 92 -> ci (N.eqb a) c = (a =? c).
Proof.
  intros Ha. unfold ci. destruct (a =? c) eqn:E; [reflexivity|]. apply N.eqb_neq in E.
  assert (H1 : (a =? lowc c) = false).
  { apply N.eqb_neq. intros E1. destruct (N.eq_dec (lowc c) c) as [E2|E2]; [congruence|].
    apply lowc_other in E2 as [E2 E3]. unfold is_upper_ascii in E2. rewrite andb_true_iff, !N.leb_le in E2. lia. }
  assert (H2 : (a =? upc c) = false).
  { apply N.eqb_neq. intros E1. destruct (N.eq_dec (upc c) c) as [E2|E2]; [congruence|].
    apply upc_other in E2 as [E2 E3]. unfold is_lower_ascii in E2. rewrite andb_true_iff, !N.leb_le in E2. lia. }
  rewrite H1, H2. reflexivity.
Qed.
Lemma fst_quoted fq fb fd fp its rest :
  fq 34 = true -> fb 92 = true -> fb 34 = false ->
  (forall c, qdtext c -> fd c = true) -> (forall c, qpair c -> fp c = true) -> fd 34 = false -> fd 92 = false ->
  Forall q_ok its -> fst_ms (qs_re fq fb fd fp) (quoted its ++ rest) rest.
Proof.
  intros Hq Hb Hb34 Hd Hp H34 H92 Hits. unfold quoted, qs_re. cbn [app].
  eapply fst_seq; [apply fst_chr; assumption|].
  rewrite <- app_assoc. cbn [app].
  apply fst_seq with (34 :: rest); [|apply fst_chr; assumption].
  assert (Hnil : ms (Alt (Chr fd) (Seq (Chr fb) (Chr fp))) [] = []) by reflexivity.
  induction Hits as [|i its Hi _ IH]; cbn [flat_map app].
  - apply fst_star_nil. cbn [ms]. rewrite H34, Hb34. reflexivity.
  - destruct i as [c [|]]; unfold q_ok in Hi; cbn [fst snd] in Hi; unfold q_text at 1; cbn [fst snd app].
    + eapply fst_star_cons; [exact Hnil| | |exact IH].
      * apply fst_altr; [cbn [ms]; rewrite H92; reflexivity|].
        eapply fst_seq; [apply fst_chr; assumption|]. apply fst_chr, Hp, Hi.
      * cbn [length]. lia.
    + eapply fst_star_cons; [exact Hnil| | |exact IH].
      * apply fst_altl, fst_chr, Hd, Hi.
      * cbn [length]. lia.
Qed.

(** ** C16: unquoting *)
Lemma unescape_plain c s : c <> 92 -> unescape (c :: s) = c :: unescape s.
Proof. intros H. cbn. apply N.eqb_neq in H. rewrite H. reflexivity. Qed.
Lemma unescape_pair c s : c <> 10 -> unescape (92 :: c :: s) = c :: unescape s.
Proof. intros H. cbn. apply N.eqb_neq in H. rewrite H. reflexivity. Qed.
Lemma unescape_items its :
  Forall (fun i : qitem => if snd i then fst i <> 10 else fst i <> 92) its ->
  unescape (flat_map q_text its) = map fst its.
Proof.
  induction 1 as [|[c b] its Hi _ IH]; [reflexivity|]. cbn [flat_map map fst snd] in *. unfold q_text at 1. cbn [fst snd].
  destruct b; cbn [app]; [rewrite unescape_pair by exact Hi|rewrite unescape_plain by exact Hi]; rewrite IH; reflexivity.
Qed.
Lemma first_quoted its : first_chr (quoted its) = Some 34.
Proof. reflexivity. Qed.
Lemma last_app s c : last_chr (s ++ [c]) = Some c.
Proof. unfold last_chr. rewrite rev_app_distr. reflexivity. Qed.
Lemma last_quoted its : last_chr (quoted its) = Some 34.
Proof. unfold quoted. change (34 :: flat_map q_text its ++ [34]) with ((34 :: flat_map q_text its) ++ [34]). apply last_app. Qed.
Lemma mid_quoted its : mid (quoted its) = flat_map q_text its.
Proof. unfold mid, quoted. cbn [tl]. apply removelast_last. Qed.
Lemma unquote_quoted a its b :
  all_space a -> all_space b ->
  Forall (fun i : qitem => if snd i then fst i <> 10 else fst i <> 92) its ->
  unquote_string (a ++ quoted its ++ b) = map fst its.
Proof.
  intros Ha Hb H. unfold unquote_string. rewrite strip_pad by assumption.
  rewrite strip_id; [|intros c Hc; rewrite first_quoted in Hc; injection Hc as <-; reflexivity
                     |intros c Hc; rewrite last_quoted in Hc; injection Hc as <-; reflexivity].
  rewrite first_quoted, last_quoted, mid_quoted. cbn [nonempty quoted negb orb].
  assert (E : str_eqb (quoted its) [42] = false) by reflexivity. rewrite E. apply unescape_items, H.
Qed.
(** The quoting a sender must do: escape quotes and backslashes. *)
Definition quote (s : str) : str := quoted (map (fun c => (c, (c =? 34) || (c =? 92))) s).
Lemma unquote_quote s : unquote_string (quote s) = s.
Proof.
  pose proof (unquote_quoted [] (map (fun c => (c, (c =? 34) || (c =? 92))) s) [] eq_refl eq_refl) as H.
  cbn [app] in H. rewrite app_nil_r in H. unfold quote. rewrite H.
  - rewrite map_map. cbn. apply map_id.
  - apply Forall_forall. intros [c b] Hc. apply in_map_iff in Hc as (x & E & _). injection E as <- <-. cbn [fst snd].
    destruct (x =? 34) eqn:E1; cbn [orb].
    + apply N.eqb_eq in E1. subst. discriminate.
    + destruct (x =? 92) eqn:E2; [apply N.eqb_eq in E2; subst; discriminate|]. apply N.eqb_neq, E2.
Qed.
Lemma unquote_unquoted s :
  (first_chr (strip s) <> Some 34 \/ last_chr (strip s) <> Some 34) -> unquote_string s = strip s.
Proof.
  intros H. unfold unquote_string. destruct (negb _ || _); [reflexivity|].
  destruct (first_chr (strip s)) as [a|]; [|reflexivity]. destruct (last_chr (strip s)) as [b|]; [|destruct a as [|p]; [reflexivity|]; repeat (destruct p as [p|p|]; try reflexivity)].
  destruct (N.eq_dec a 34) as [->|Ha].
  - destruct (N.eq_dec b 34) as [->|Hb]; [destruct H; congruence|].
    destruct b as [|p]; [reflexivity|]. repeat (destruct p as [p|p|]; try reflexivity). congruence.
  - destruct a as [|p]; [reflexivity|]. repeat (destruct p as [p|p|]; try reflexivity). congruence.
Qed.

(** ** C15: splitting a list *)
(** A piece of a comma-separated list: plain characters and quoted strings. *)
Inductive segment : str -> Prop :=
| seg_nil : segment []
| seg_chr c s : c <> 34 -> c <> 44 -> segment s -> segment (c :: s)
| seg_quoted its s : Forall q_ok its -> segment s -> segment (quoted its ++ s).
Definition comma_or_end (rest : str) : Prop := rest = [] \/ exists r, rest = 44 :: r.

Definition f_special : N -> bool := ci (in_ranges [(34, 34); (44, 44)]).
Lemma f_special_ok c : f_special c = (c =? 34) || (c =? 44).
Proof.
  unfold f_special.
  assert (E : forall d, in_ranges [(34, 34); (44, 44)] d = (34 =? d) || (44 =? d)).
  { intros d. unfold in_ranges. cbn [existsb fst snd]. rewrite orb_false_r.
    assert (G : forall k, ((k <=? d) && (d <=? k)) = (k =? d)).
    { intros k. destruct (N.eqb_spec k d) as [->|H]; [rewrite N.leb_refl; reflexivity|].
      apply andb_false_iff. rewrite !N.leb_gt. lia. }
    rewrite !G. reflexivity. }
  unfold ci. rewrite !E.
  pose proof (eqb_ci 34 c (or_introl eq_refl)) as H1. pose proof (eqb_ci 44 c (or_introl eq_refl)) as H2.
  unfold ci in H1, H2. rewrite (N.eqb_sym c 34), (N.eqb_sym c 44).
  destruct (34 =? c), (44 =? c), (34 =? lowc c), (44 =? lowc c), (34 =? upc c), (44 =? upc c); try discriminate; reflexivity.
Qed.
Definition item_one : re := Alt (NChr f_special) (qs_re (ci (N.eqb 34)) (ci (N.eqb 92)) f_qd f_qp).
Lemma list_item_eq : nocase utils_list_item = Plus item_one.
Proof. reflexivity. Qed.
Lemma seg_star s rest : segment s -> comma_or_end rest -> fst_ms (Star item_one) (s ++ rest) rest.
Proof.
  intros Hs Hr. assert (Hnil : ms item_one [] = []) by reflexivity.
  induction Hs as [|c s H1 H2 _ IH|its s Hi _ IH]; cbn [app].
  - apply fst_star_nil. destruct Hr as [->|[r ->]]; reflexivity.
  - apply fst_star_cons with (s ++ rest); [exact Hnil| |cbn; lia|exact IH].
    apply fst_altl, fst_nchr. rewrite f_special_ok. apply orb_false_iff. rewrite !N.eqb_neq. auto.
  - rewrite <- app_assoc. apply fst_star_cons with (s ++ rest); [exact Hnil| | |exact IH].
    + apply fst_altr; [reflexivity|]. apply fst_quoted; try reflexivity; auto using f_qd_ok, f_qp_ok.
    + unfold quoted. rewrite !app_length. cbn [length]. lia.
Qed.
Lemma seg_plus s rest : segment s -> s <> [] -> comma_or_end rest -> fst_ms (Plus item_one) (s ++ rest) rest.
Proof.
  intros Hs Hn Hr. inversion Hs as [|c t H1 H2 Ht|its t Hi Ht]; subst; [congruence| |].
  - apply fst_seq with (t ++ rest); [|apply seg_star; assumption].
    apply fst_altl, fst_nchr. rewrite f_special_ok. apply orb_false_iff. rewrite !N.eqb_neq. auto.
  - apply fst_seq with (t ++ rest); [|apply seg_star; assumption]. rewrite <- app_assoc.
    apply fst_altr; [reflexivity|]. apply fst_quoted; try reflexivity; auto using f_qd_ok, f_qp_ok.
Qed.
Definition list_look : str -> bool := look_split_end (nocase utils_list_split).
Lemma look_comma rest : comma_or_end rest -> list_look rest = true.
Proof.
  intros [->|[r ->]]; [reflexivity|]. unfold list_look, look_split_end.
  assert (H : ms (nocase utils_list_split) (44 :: r) <> []).
  { assert (L : lang (nocase utils_list_split) [44]).
    { change [44] with ([] ++ [44]). apply L_seq; [apply lang_star_chr; reflexivity|].
      change [44] with ([44] ++ []). apply L_seq; [|apply (proj2 (lang_star_concat _ []) (ex_intro _ [] (conj eq_refl (Forall_nil _))))].
      change [44] with ([44] ++ []). apply L_seq; [apply L_chr; reflexivity|apply lang_star_chr; reflexivity]. }
    pose proof (ms_complete _ _ r L) as Hin. intros E. change ([44] ++ r) with (44 :: r) in Hin. rewrite E in Hin. destruct Hin. }
  destruct (ms _ _); [congruence|reflexivity].
Qed.
Lemma findall_match f item look s x rest :
  s = x ++ rest -> fst_ms item s rest -> look rest = true ->
  findall_aux (S f) item look s = x :: findall_aux f item look rest.
Proof.
  intros Es Hf Hl. cbn [findall_aux]. unfold fst_ms in Hf. destruct (ms item s) as [|y l]; [discriminate|].
  injection Hf as ->. cbn [find]. rewrite Hl. f_equal. rewrite Es, app_length.
  replace (length x + length rest - length rest)%nat with (length x) by lia.
  rewrite firstn_app, firstn_all, Nat.sub_diag. cbn. apply app_nil_r.
Qed.
Lemma findall_skip f item look c s : ms item (c :: s) = [] ->
  findall_aux (S f) item look (c :: s) = findall_aux f item look s.
Proof. intros H. cbn [findall_aux]. rewrite H. reflexivity. Qed.
Lemma item_comma s : ms (Plus item_one) (44 :: s) = [].
Proof. reflexivity. Qed.
Lemma findall_nil f item look : ms item [] = [] -> findall_aux f item look [] = [].
Proof. intros H. destruct f; cbn [findall_aux]; [reflexivity|]. rewrite H. reflexivity. Qed.
Definition comma : str := [44].
Lemma findall_segments segs : forall f,
  Forall segment segs -> (length (join comma segs) < f)%nat ->
  findall_aux f (Plus item_one) list_look (join comma segs) = filter nonempty segs.
Proof.
  induction segs as [|s segs IH]; intros f H Hf; [apply findall_nil; reflexivity|].
  inversion H as [|? ? Hs Hsegs]; subst. destruct segs as [|s2 segs].
  - cbn [join filter]. destruct s as [|c s]; [apply findall_nil; reflexivity|].
    destruct f as [|f]; [cbn in Hf; lia|].
    rewrite (findall_match f (Plus item_one) list_look (c :: s) (c :: s) []).
    + rewrite findall_nil by reflexivity. reflexivity.
    + rewrite app_nil_r. reflexivity.
    + rewrite <- (app_nil_r (c :: s)) at 1. apply seg_plus; [exact Hs|discriminate|left; reflexivity].
    + reflexivity.
  - set (more := s2 :: segs) in *.
    assert (Ej : join comma (s :: more) = s ++ 44 :: join comma more) by reflexivity.
    rewrite Ej in *. rewrite app_length in Hf. cbn [length] in Hf.
    assert (Hskip : forall g, (length (join comma more) < g)%nat ->
              findall_aux (S g) (Plus item_one) list_look (44 :: join comma more) = filter nonempty more).
    { intros g Hg. rewrite findall_skip by reflexivity. apply IH; assumption. }
    destruct s as [|c s].
    + cbn [app filter nonempty]. destruct f as [|f]; [cbn [length] in Hf; lia|]. apply Hskip. cbn [length] in Hf. lia.
    + destruct f as [|f]; [cbn in Hf; lia|].
      rewrite (findall_match f (Plus item_one) list_look _ (c :: s) (44 :: join comma more)).
      * cbn [filter nonempty]. f_equal. destruct f as [|f]; [cbn [length] in Hf; lia|]. apply Hskip. cbn [length] in Hf. lia.
      * reflexivity.
      * apply seg_plus; [exact Hs|discriminate|right; eexists; reflexivity].
      * apply look_comma. right; eexists; reflexivity.
Qed.
Lemma split_segments segs : Forall segment segs ->
  split_list_field (join comma segs) = filter nonempty (map strip segs).
Proof.
  intros H. unfold split_list_field, findall. rewrite list_item_eq.
  change (look_split_end (nocase utils_list_split)) with list_look. rewrite findall_segments by (assumption || lia).
  clear H. induction segs as [|s segs IH]; [reflexivity|]. cbn [filter map].
  destruct s as [|c s]; cbn [nonempty]; [exact IH|]. cbn [map filter]. rewrite IH. reflexivity.
Qed.
