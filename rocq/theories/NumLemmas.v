(** * Integers, letter case, media-type names *)
From Verif Require Import PyStr Regex Grammar Note PyLib Utils NoteLemmas LexLemmas ParamLemmas.
From Coq Require Import ZifyBool ZifyN.
Open Scope N_scope.

(** ** int(s) *)

(** The number a digit string denotes: each digit times its power of ten. *)
Fixpoint decimal (ds : str) : N :=
  match ds with [] => 0 | c :: r => (c - 48) * 10 ^ N.of_nat (length r) + decimal r end.
Lemma digits_decimal_acc ds a : fold_left (fun a c => a * 10 + digit_val c) ds a
  = a * 10 ^ N.of_nat (length ds) + decimal ds.
Proof.
  revert a. induction ds as [|c r IH]; intros a; cbn [fold_left decimal length]; [cbn; lia|].
  rewrite IH. unfold digit_val. rewrite Nat2N.inj_succ, N.pow_succ_r'. nia.
Qed.
Lemma digits_decimal ds : digits_val ds = decimal ds.
Proof. unfold digits_val. rewrite digits_decimal_acc. reflexivity. Qed.

Definition digits (s : str) : Prop := s <> [] /\ forallb is_digit s = true.
(** PEP 515: groups of digits with single underscores between them. *)
Definition uscore : str := [95].
Definition grouped (s ds : str) : Prop :=
  exists gs, gs <> [] /\ Forall digits gs /\ s = join uscore gs /\ ds = concat gs.
(** What Python's int() reads: an optional sign and grouped digits. *)
Definition int_text (s : str) (z : Z) : Prop :=
  exists sgn body ds, s = sgn ++ body /\ grouped body ds /\ N.of_nat (length ds) <= 4300
    /\ (((sgn = [] \/ sgn = [43]) /\ z = Z.of_N (decimal ds)) \/ (sgn = [45] /\ z = (- Z.of_N (decimal ds))%Z)).

Lemma is_digit_uscore : is_digit 95 = false. Proof. reflexivity. Qed.
(** With a digit before: the rest of a group, then further groups. *)
Lemma uscore_sound s : forall ds,
  (uscore_digits true s = Some ds ->
     exists g gs, forallb is_digit g = true /\ Forall digits gs /\ s = join uscore (g :: gs) /\ ds = g ++ concat gs)
  /\ (uscore_digits false s = Some ds -> grouped s ds).
Proof.
  induction s as [|c s IH]; intros ds; cbn [uscore_digits]; split; intros H; try discriminate.
  - injection H as <-. exists [], []. repeat split; try constructor.
  - destruct (is_digit c) eqn:Ec.
    + destruct (uscore_digits true s) as [ds'|] eqn:E; [|discriminate]. injection H as <-.
      destruct (proj1 (IH ds') eq_refl) as (g & gs & Hg & Hgs & -> & ->).
      exists (c :: g), gs. repeat split; [cbn; rewrite Ec; exact Hg|exact Hgs|destruct gs; reflexivity].
    + destruct ((c =? 95) && true) eqn:E95; [|discriminate]. rewrite andb_true_r in E95. apply N.eqb_eq in E95 as ->.
      destruct (proj2 (IH ds) H) as (gs & Hne & Hgs & -> & ->).
      exists [], gs. repeat split; [exact Hgs|]. destruct gs as [|g gs]; [congruence|reflexivity].
  - destruct (is_digit c) eqn:Ec.
    + destruct (uscore_digits true s) as [ds'|] eqn:E; [|discriminate]. injection H as <-.
      destruct (proj1 (IH ds') eq_refl) as (g & gs & Hg & Hgs & -> & ->).
      exists ((c :: g) :: gs). repeat split; [congruence| |destruct gs; reflexivity].
      constructor; [split; [congruence|cbn; rewrite Ec; exact Hg]|exact Hgs].
    + rewrite andb_false_r in H. discriminate.
Qed.
Lemma uscore_run g rest ds : forallb is_digit g = true -> uscore_digits true rest = Some ds ->
  uscore_digits true (g ++ rest) = Some (g ++ ds).
Proof.
  induction g as [|c g IH]; intros H Hr; cbn in *; [exact Hr|]. apply andb_true_iff in H as [H1 H2].
  rewrite H1, (IH H2 Hr). reflexivity.
Qed.
Lemma uscore_start g rest ds : digits g -> uscore_digits true rest = Some ds ->
  uscore_digits false (g ++ rest) = Some (g ++ ds).
Proof.
  intros [Hne Hg] Hr. destruct g as [|c g]; [congruence|]. cbn in Hg |- *. apply andb_true_iff in Hg as [H1 H2].
  rewrite H1, (uscore_run g rest ds H2 Hr). reflexivity.
Qed.
Lemma uscore_complete s ds : grouped s ds -> uscore_digits false s = Some ds.
Proof.
  intros (gs & Hne & Hgs & -> & ->). induction Hgs as [|g gs Hg Hgs IH]; [congruence|].
  destruct gs as [|g2 gs].
  - cbn [join concat]. rewrite <- (app_nil_r g) at 1. rewrite app_nil_r at 1.
    replace g with (g ++ []) at 1 by apply app_nil_r. rewrite (uscore_start g [] [] Hg eq_refl). reflexivity.
  - change (join uscore (g :: g2 :: gs)) with (g ++ 95 :: join uscore (g2 :: gs)).
    cbn [concat]. apply uscore_start; [exact Hg|]. cbn [uscore_digits]. rewrite is_digit_uscore. cbn [N.eqb Pos.eqb andb].
    apply IH. congruence.
Qed.
Lemma ascii_space_space c : isspace c = false -> ascii_space c = false.
Proof.
  unfold isspace, ascii_space. intros H. repeat (apply orb_false_iff in H as [H ?]).
  apply orb_false_iff. split; [assumption|]. apply N.eqb_neq. intros ->. cbn in *. discriminate.
Qed.
Lemma drop_both sp s : (forall c, first_chr s = Some c -> sp c = false) -> (forall c, last_chr s = Some c -> sp c = false) ->
  rev (drop_while sp (rev (drop_while sp s))) = s.
Proof.
  intros H1 H2.
  assert (E : drop_while sp s = s) by (destruct s as [|c s]; [reflexivity|apply drop_while_id, H1; reflexivity]).
  rewrite E. unfold last_chr in H2.
  assert (E2 : drop_while sp (rev s) = rev s) by (destruct (rev s) as [|c r]; [reflexivity|apply drop_while_id, H2; reflexivity]).
  rewrite E2. apply rev_involutive.
Qed.
Definition stripped (s : str) : Prop :=
  (forall c, first_chr s = Some c -> isspace c = false) /\ (forall c, last_chr s = Some c -> isspace c = false).
Lemma strip_last s c : last_chr (strip s) = Some c -> isspace c = false.
Proof.
  unfold strip, rstrip, last_chr. rewrite rev_involutive. generalize (rev (lstrip s)).
  induction l as [|y t IH]; cbn; [discriminate|]. destruct (isspace y) eqn:E; [exact IH|].
  intros H. injection H as ->. exact E.
Qed.
Lemma strip_stripped s : stripped (strip s).
Proof. split; [apply strip_inner|apply strip_last]. Qed.
Lemma digit_first_not_sign s ds : grouped s ds -> match s with 45 :: _ | 43 :: _ => False | _ => True end.
Proof.
  intros (gs & Hne & Hgs & -> & _). destruct Hgs as [|g gs [Hg1 Hg2] _]; [congruence|].
  destruct g as [|c g]; [congruence|]. cbn in Hg2. apply andb_true_iff in Hg2 as [Hc _].
  assert (E : forall r, match c :: r with 45 :: _ | 43 :: _ => False | _ => True end).
  { intros r. destruct (N.eq_dec c 45) as [->|]; [discriminate|]. destruct (N.eq_dec c 43) as [->|]; [discriminate|].
    destruct c as [|p]; [exact I|]. repeat (destruct p as [p|p|]; try exact I); congruence. }
  destruct gs as [|g2 gs]; [exact (E g)|exact (E (g ++ uscore ++ join uscore (g2 :: gs)))].
Qed.
Lemma py_int_spec0 s z : rev (drop_while (if is_ascii s then ascii_space else isspace)
               (rev (drop_while (if is_ascii s then ascii_space else isspace) s))) = s ->
  (py_int s = Some z <-> int_text s z).
Proof.
  intros E. unfold py_int. cbv zeta. rewrite E. clear E.
  assert (Hbody : forall (neg : bool) sgn body, s = sgn ++ body ->
    (sgn = [] /\ neg = false /\ (match s with 45 :: _ | 43 :: _ => False | _ => True end)
     \/ sgn = [43] /\ neg = false \/ sgn = [45] /\ neg = true) ->
    (match uscore_digits false body with
     | Some ds => if int_max_str_digits <? N.of_nat (length ds) then None
                  else Some (if neg then (- Z.of_N (digits_val ds))%Z else Z.of_N (digits_val ds))
     | None => None end = Some z <-> int_text s z)).
  { intros neg sgn body Es Hs. split.
    - destruct (uscore_digits false body) as [ds|] eqn:Eu; [|discriminate]. unfold int_max_str_digits.
      destruct (4300 <? N.of_nat (length ds)) eqn:En; [discriminate|]. apply N.ltb_ge in En. intros H. injection H as <-.
      apply (proj2 (uscore_sound body ds)) in Eu. rewrite digits_decimal.
      exists sgn, body, ds. repeat split; try assumption.
      destruct Hs as [(-> & -> & _)|[(-> & ->)|(-> & ->)]]; auto.
    - intros (sgn' & body' & ds & Es' & Hg & Hn & Hz).
      assert (Hd := digit_first_not_sign _ _ Hg).
      assert (Eb : body' = body /\ z = (if neg then (- Z.of_N (decimal ds))%Z else Z.of_N (decimal ds))).
      { destruct Hs as [(-> & -> & Hns)|[(-> & ->)|(-> & ->)]]; cbn [app] in Es; subst body || subst s; cbn [app] in *;
          destruct Hz as [[[->| ->] ->]|[-> ->]]; cbn [app] in *; subst; auto; try contradiction;
          try (injection Es' as <-; auto); discriminate || contradiction || auto. }
      destruct Eb as [-> ->]. rewrite (uscore_complete _ _ Hg). unfold int_max_str_digits.
      destruct (4300 <? N.of_nat (length ds)) eqn:En; [apply N.ltb_lt in En; lia|]. rewrite digits_decimal. reflexivity. }
  destruct s as [|c s].
  - apply (Hbody false [] []); [reflexivity|left; auto].
  - destruct (N.eq_dec c 45) as [->|n45]; [apply (Hbody true [45] s); [reflexivity|right; right; auto]|].
    destruct (N.eq_dec c 43) as [->|n43]; [apply (Hbody false [43] s); [reflexivity|right; left; auto]|].
    assert (Em : (match c :: s with 45 :: s' => (true, s') | 43 :: s' => (false, s') | _ => (false, c :: s) end) = (false, c :: s)
                 /\ match c :: s with 45 :: _ | 43 :: _ => False | _ => True end).
    { destruct c as [|p]; [split; [reflexivity|exact I]|].
      repeat (destruct p as [p|p|]; try (split; [reflexivity|exact I])); congruence. }
    destruct Em as [Em1 Em2]. rewrite Em1. apply (Hbody false [] (c :: s)); [reflexivity|left; auto].
Qed.
Lemma py_int_spec s z : stripped s -> (py_int s = Some z <-> int_text s z).
Proof.
  intros [Hf Hl]. apply py_int_spec0. apply drop_both; destruct (is_ascii s); intros c Hc; auto using ascii_space_space.
Qed.
Lemma int_text_fun s z z' : int_text s z -> int_text s z' -> z = z'.
Proof.
  intros (sg & b & ds & Es & Hg & _ & Hz) (sg' & b' & ds' & Es' & Hg' & _ & Hz').
  pose proof (digit_first_not_sign _ _ Hg). pose proof (digit_first_not_sign _ _ Hg').
  apply uscore_complete in Hg, Hg'.
  destruct Hz as [[[->| ->] ->]|[-> ->]], Hz' as [[[->| ->] ->]|[-> ->]]; cbn [app] in *; subst;
    try contradiction; try discriminate; try (injection Es' as ->); rewrite Hg in Hg'; injection Hg' as ->; reflexivity.
Qed.
(** 1*DIGIT *)
Lemma digits_int s : digits s -> N.of_nat (length s) <= 4300 -> int_text s (Z.of_N (decimal s)).
Proof.
  intros H Hn. exists [], s, s. repeat split; auto. exists [s]. repeat split; [congruence|auto|].
  cbn. rewrite app_nil_r. reflexivity.
Qed.
Lemma digits_stripped s : forallb is_digit s = true -> stripped s.
Proof.
  intros H. rewrite forallb_forall in H.
  assert (Hd : forall c, is_digit c = true -> isspace c = false).
  { intros c Hc. unfold is_digit in Hc. apply andb_true_iff in Hc as [H1 H2]. apply N.leb_le in H1, H2.
    unfold isspace. rewrite !orb_false_iff, !andb_false_iff, !N.eqb_neq, !N.leb_gt. lia. }
  split; intros c Hc; apply Hd, H.
  - destruct s; [discriminate|]. injection Hc as ->. left; reflexivity.
  - unfold last_chr in Hc. apply in_rev. destruct (rev s); [discriminate|]. injection Hc as ->. left; reflexivity.
Qed.

(** ** Letter case *)
Fixpoint no_neg (r : re) : bool :=
  match r with
  | Eps | Chr _ => true
  | NChr _ => false
  | Seq a b | Alt a b => no_neg a && no_neg b
  | Star a => no_neg a
  end.
Lemma ci_lower f c : ci f c = true <-> exists d, lowc d = lowc c /\ f d = true.
Proof.
  split.
  - unfold ci. intros H. apply orb_true_iff in H as [H|H]; [apply orb_true_iff in H as [H|H]|].
    + exists c. auto.
    + exists (lowc c). split; [|exact H]. unfold lowc, is_upper_ascii.
      repeat match goal with |- context [if ?b then _ else _] => destruct b eqn:? end; lia.
    + exists (upc c). split; [|exact H]. unfold lowc, upc, is_upper_ascii, is_lower_ascii.
      repeat match goal with |- context [if ?b then _ else _] => destruct b eqn:? end; lia.
  - intros (d & Hd & Hf). unfold ci.
    assert (E : d = c \/ d = lowc c \/ d = upc c).
    { revert Hd. unfold lowc, upc, is_upper_ascii, is_lower_ascii.
      repeat match goal with |- context [if ?b then _ else _] => destruct b eqn:? end; lia. }
    destruct E as [<-|[<-|<-]]; rewrite Hf, ?orb_true_r; reflexivity.
Qed.
Lemma lower_app a b : lower (a ++ b) = lower a ++ lower b.
Proof. apply map_app. Qed.
Lemma nocase_lang r s : no_neg r = true -> (lang (nocase r) s <-> exists t, lower t = lower s /\ lang r t).
Proof.
  intros Hr. split.
  - intros H. remember (nocase r) as nr eqn:En. revert r Hr En.
    induction H; intros r0 Hr En; destruct r0; cbn in En; try discriminate; try (injection En as); subst; cbn in Hr.
    + exists []. split; [reflexivity|constructor].
    + apply ci_lower in H as (d & Hd & Hf). exists [d]. split; [unfold lower; cbn [map]; congruence|constructor; exact Hf].
    + apply andb_true_iff in Hr as [H1 H2]. destruct (IHlang1 _ H1 eq_refl) as (t1 & E1 & L1).
      destruct (IHlang2 _ H2 eq_refl) as (t2 & E2 & L2). exists (t1 ++ t2).
      split; [rewrite !lower_app; congruence|constructor; assumption].
    + apply andb_true_iff in Hr as [H1 H2]. destruct (IHlang _ H1 eq_refl) as (t1 & E1 & L1). exists t1.
      split; [exact E1|apply L_altl; exact L1].
    + apply andb_true_iff in Hr as [H1 H2]. destruct (IHlang _ H2 eq_refl) as (t1 & E1 & L1). exists t1.
      split; [exact E1|apply L_altr; exact L1].
    + exists []. split; [reflexivity|constructor].
    + destruct (IHlang1 _ Hr eq_refl) as (t1 & E1 & L1).
      destruct (IHlang2 (Star r0) Hr eq_refl) as (t2 & E2 & L2). exists (t1 ++ t2).
      split; [rewrite !lower_app; congruence|constructor; assumption].
  - intros (t & Ht & H). revert Hr s Ht.
    assert (Hsplit : forall a b s, lower (a ++ b) = lower s -> exists x y, s = x ++ y /\ lower a = lower x /\ lower b = lower y).
    { induction a as [|c a IH]; intros b s Hs; [exists [], s; auto|]. destruct s as [|d s]; [discriminate|].
      unfold lower in Hs. cbn [app map] in Hs. injection Hs as H1 H2. destruct (IH b s H2) as (x & y & -> & E1 & E2).
      exists (d :: x), y. split; [reflexivity|]. split; [|exact E2]. unfold lower. cbn [map]. f_equal; assumption. }
    induction H; intros Hr s0 Ht; cbn [nocase]; cbn in Hr; try (apply andb_true_iff in Hr as [Hr1 Hr2]).
    + destruct s0; [constructor|discriminate].
    + destruct s0 as [|d [|]]; try discriminate. unfold lower in Ht; cbn [map] in Ht. injection Ht as Ht. constructor. apply ci_lower. eauto.
    + discriminate.
    + apply Hsplit in Ht as (a' & b' & -> & E1 & E2). constructor; auto.
    + apply L_altl; auto.
    + apply L_altr; auto.
    + destruct s0; [constructor|discriminate].
    + apply Hsplit in Ht as (a' & b' & -> & E1 & E2). constructor; auto.
Qed.

(** ** Media-type names *)
Definition rn_first (c : N) : bool :=
  has_chr c (u "0123456789ABCDEFGHIJKLMNOPQRSTUVWXYZabcdefghijklmnopqrstuvwxyz").
Definition rn_char (c : N) : bool :=
  has_chr c (u "!#$&-^_.+0123456789ABCDEFGHIJKLMNOPQRSTUVWXYZabcdefghijklmnopqrstuvwxyz").
Lemma ascii_only (f g : N -> bool) : (forall c, 128 <= c -> f c = false) -> (forall c, 128 <= c -> g c = false) ->
  ascii_all (fun c => Bool.eqb (f c) (g c)) = true -> forall c, f c = g c.
Proof.
  intros Hf Hg H c. destruct (N.lt_ge_cases c 128) as [L|L].
  - apply Bool.eqb_prop. exact (ascii_all_ok _ H c L).
  - rewrite Hf, Hg by exact L. reflexivity.
Qed.
(** Ignoring case adds nothing above ASCII to an ASCII class. *)
Lemma ci_high l c : forallb (fun r => snd r <? 128) l = true -> 128 <= c -> ci (in_ranges l) c = false.
Proof.
  intros Hl Hc. apply ci_none; apply (in_ranges_big l _ 128 Hl); try exact Hc.
  - unfold lowc, is_upper_ascii. repeat match goal with |- context [if ?b then _ else _] => destruct b eqn:? end; lia.
  - unfold upc, is_lower_ascii. repeat match goal with |- context [if ?b then _ else _] => destruct b eqn:? end; lia.
Qed.
Lemma ci_tchar c : ci f_tchar c = tchar c.
Proof.
  revert c. apply ascii_only.
  - intros c Hc. apply ci_high; [reflexivity|exact Hc].
  - intros c Hc. apply (has_chr_big c tchars 128); [reflexivity|exact Hc].
  - vm_compute. reflexivity.
Qed.
Lemma ci_rn_first c : ci (in_ranges [(65, 90); (97, 122); (48, 57)]) c = rn_first c.
Proof.
  revert c. apply ascii_only.
  - intros c Hc. apply ci_high; [reflexivity|exact Hc].
  - intros c Hc. apply (has_chr_big c _ 128); [reflexivity|exact Hc].
  - vm_compute. reflexivity.
Qed.
Lemma ci_rn_char c : ci (in_ranges [(65, 90); (97, 122); (48, 57); (33, 33); (35, 35); (36, 36); (38, 38); (45, 45); (94, 94);
  (95, 95); (46, 46); (43, 43)]) c = rn_char c.
Proof.
  revert c. apply ascii_only.
  - intros c Hc. apply ci_high; [reflexivity|exact Hc].
  - intros c Hc. apply (has_chr_big c _ 128); [reflexivity|exact Hc].
  - vm_compute. reflexivity.
Qed.
(** RFC 6838 restricted-name, of any length. *)
Definition restricted (s : str) : Prop :=
  exists c r, s = c :: r /\ rn_first c = true /\ forallb rn_char r = true.
(** [$] also matches before a final newline. *)
Definition eol (P : str -> Prop) (s : str) : Prop := P s \/ exists p, s = p ++ [10] /\ P p.
Lemma match_eol r (P : str -> Prop) s : (forall s, lang r s <-> P s) -> (match_dollar r s = true <-> eol P s).
Proof.
  intros H. rewrite match_dollar_spec. unfold eol. rewrite H.
  split; (intros [H1|(p & -> & H1)]; [left; exact H1|right; exists p; split; [reflexivity|apply H, H1]]).
Qed.
Lemma forallb_same {A} (f g : A -> bool) l : (forall x, f x = g x) -> forallb f l = forallb g l.
Proof. intros H. induction l as [|x l IH]; cbn; [reflexivity|]. rewrite H, IH. reflexivity. Qed.
Lemma token_lang s : lang (nocase rfc9110_token) s <-> token s.
Proof.
  change (nocase rfc9110_token) with (Plus (Chr (ci f_tchar))). rewrite lang_plus_chr. unfold token.
  rewrite (forallb_same _ _ s ci_tchar). tauto.
Qed.
Lemma restricted_lang s : lang (nocase utils_restricted_name_unbounded) s <-> restricted s.
Proof.
  unfold restricted.
  change (nocase utils_restricted_name_unbounded) with
    (Seq (Chr (ci (in_ranges [(65, 90); (97, 122); (48, 57)]))) (Star (Chr (ci (in_ranges [(65, 90); (97, 122); (48, 57);
       (33, 33); (35, 35); (36, 36); (38, 38); (45, 45); (94, 94); (95, 95); (46, 46); (43, 43)]))))).
  rewrite lang_seq. split.
  - intros (x & y & -> & Hx & Hy). apply lang_star_chr in Hy. inversion Hx; subst. exists c, y. split; [reflexivity|].
    rewrite <- ci_rn_first, <- (forallb_same _ _ y ci_rn_char). auto.
  - intros (c & r & -> & Hc & Hr). exists [c], r. split; [reflexivity|]. split.
    + constructor. rewrite ci_rn_first. exact Hc.
    + apply lang_star_chr. rewrite (forallb_same _ _ r ci_rn_char). exact Hr.
Qed.
Lemma token_match s : match_dollar (nocase rfc9110_token) s = true <-> eol token s.
Proof. apply match_eol, token_lang. Qed.
Lemma restricted_match s : match_dollar (nocase utils_restricted_name_unbounded) s = true <-> eol restricted s.
Proof. apply match_eol, restricted_lang. Qed.

(** type/subtype *)
Definition star : str := [42].
Definition slashed (mt ty sub : str) : Prop :=
  mt = ty ++ 47 :: sub /\ ty <> [] /\ sub <> [] /\ ~ In 47 ty /\ ~ In 47 sub.
(** A media type, or (with [wild]) a media range; with [tok], made of tokens. *)
Definition media_range (wild tok : bool) (mt ty sub : str) : Prop :=
  slashed mt ty sub
  /\ (ty = star -> wild = true /\ sub = star) /\ (sub = star -> wild = true)
  /\ (tok = true -> forall n, In n [ty; sub] -> n <> star -> eol token n).
Lemma partition_spec c s : (exists a b : str, s = a ++ c :: b /\ ~ In c a /\ partition_chr c s = (a, [c], b))
  \/ (~ In c s /\ partition_chr c s = (s, [], [])).
Proof.
  unfold partition_chr.
  assert (H : (exists a b : str, s = a ++ c :: b /\ ~ In c a /\ split1 c s = Some (a, b)) \/ (~ In c s /\ split1 c s = None)).
  { induction s as [|x s IH]; [right; split; [intros []|reflexivity]|]. cbn [split1].
    destruct (x =? c) eqn:E.
    - apply N.eqb_eq in E as ->. left. exists [], s. repeat split. intros [].
    - apply N.eqb_neq in E. destruct IH as [(a & b & -> & Ha & ->)|[Hn ->]].
      + left. exists (x :: a), b. repeat split. intros [->|H]; [congruence|exact (Ha H)].
      + right. split; [intros [->|H]; [congruence|exact (Hn H)]|reflexivity]. }
  destruct H as [(a & b & H1 & H2 & ->)|[H1 ->]]; [left; exists a, b; auto|right; auto].
Qed.
Lemma has_chr_In c s : has_chr c s = true <-> In c s.
Proof.
  unfold has_chr. rewrite existsb_exists. split; [intros (x & H & E); apply N.eqb_eq in E; congruence|].
  intros H. exists c. split; [exact H|apply N.eqb_refl].
Qed.
(** The last-character view is not needed: splitting at the only slash is unique. *)
Lemma slashed_fun mt ty sub ty' sub' : slashed mt ty sub -> slashed mt ty' sub' -> ty = ty' /\ sub = sub'.
Proof.
  intros (-> & _ & _ & H1 & H2) (E & _ & _ & H3 & H4). clear H2 H4. revert ty' E H3.
  induction ty as [|c ty IH]; intros [|d ty'] E H3; cbn in E; injection E.
  - intros ->; auto.
  - intros _ <-. exfalso. apply H3. left. reflexivity.
  - intros _ ->. exfalso. apply H1. left. reflexivity.
  - intros E' ->. destruct (IH (fun H => H1 (or_intror H)) ty' E' (fun H => H3 (or_intror H))) as [-> ->]. auto.
Qed.
Definition media_note (n : nid) (mt : str) : ev := ENote n None [(k_value, VStr mt)] [].
Definition bad_media (bad : option nid) (ref : option string) (mt : str) : list ev :=
  match bad with
  | None => []
  | Some n => [ENote n None ((k_value, VStr mt)
                             :: match ref with Some r => [(u "ref_uri", VStr (u r))] | None => [] end) []]
  end.
Lemma filter_len {A} (f : A -> bool) l : (length (filter f l) <= length l)%nat.
Proof. induction l as [|x l IH]; cbn; [lia|]. destruct (f x); cbn; lia. Qed.
Lemma filter_full {A} (f : A -> bool) l : length (filter f l) = length l -> filter f l = l.
Proof.
  induction l as [|x l IH]; cbn; [reflexivity|]. destruct (f x); cbn.
  - intros H. injection H as H. rewrite (IH H). reflexivity.
  - intros H. pose proof (filter_len f l). lia.
Qed.
Lemma media_spec mt bad ref wild tok :
  (exists ty sub (l b : bool), media_range wild tok mt ty sub
     /\ check_media_type mt bad ref wild tok
        = ((if l then [media_note MEDIA_TYPE_LONG_NAME mt] else [])
           ++ (if b then [media_note MEDIA_TYPE_BAD_NAME mt] else []), Ok tt)
     /\ (l = true <-> exists n, In n [ty; sub] /\ n <> star /\ eol token n /\ (127 < length n)%nat)
     /\ (b = true <-> exists n, In n [ty; sub] /\ n <> star /\ eol token n /\ ~ eol restricted n))
  \/ ((forall ty sub, ~ media_range wild tok mt ty sub)
      /\ check_media_type mt bad ref wild tok = (bad_media bad ref mt, Ok tt)).
Proof.
  unfold check_media_type.
  assert (Hbad : (match bad with
                  | None => ret tt
                  | Some n => add_note n ((k_value, VStr mt)
                            :: match ref with Some r => [(u "ref_uri", VStr (u r))] | None => [] end)
                  end : W unit) = (bad_media bad ref mt, Ok tt)) by (destruct bad; reflexivity).
  cbv zeta. rewrite Hbad. clear Hbad.
  destruct (partition_spec 47 mt) as [(ty & sub & E & Hty & ->)|[Hn ->]].
  2: { right. split; [|reflexivity]. intros ty sub ((-> & _) & _). apply Hn, in_app_iff. right; left; reflexivity. }
  cbn [nonempty].
  destruct (negb (true && nonempty ty && nonempty sub) || has_chr 47 sub) eqn:E1.
  { right. split; [|reflexivity]. intros ty' sub' (Hs & _).
    pose proof Hs as (E' & Hn1 & Hn2 & Ht' & Hs'). rewrite E in E'.
    assert (Es : ty = ty' /\ sub = sub').
    { clear - E' Hty Ht'. revert ty' E' Ht'. induction ty as [|c ty IH]; intros [|d ty'] E H3; cbn in E; injection E.
      - auto.
      - intros _ <-. exfalso. apply H3. left. reflexivity.
      - intros _ ->. exfalso. apply Hty. left. reflexivity.
      - intros E' ->. destruct (IH (fun H => Hty (or_intror H)) ty' E' (fun H => H3 (or_intror H))) as [-> ->]. auto. }
    destruct Es as [<- <-]. apply orb_true_iff in E1 as [E1|E1].
    - destruct ty, sub; try congruence; discriminate.
    - apply has_chr_In in E1. exact (Hs' E1). }
  apply orb_false_iff in E1 as [E1 E2]. apply negb_false_iff in E1. cbn in E1. apply andb_true_iff in E1 as [E1a E1b].
  assert (Hsl : slashed mt ty sub).
  { repeat split; [exact E|intros ->; discriminate|intros ->; discriminate|exact Hty|].
    intros H. apply has_chr_In in H. congruence. }
  assert (Huniq : forall P : str -> str -> Prop, ~ P ty sub ->
            forall ty' sub', slashed mt ty' sub' -> P ty' sub' -> False).
  { intros P HP ty' sub' Hs' H. destruct (slashed_fun _ _ _ _ _ Hsl Hs') as [<- <-]. exact (HP H). }
  change [42] with star in *.
  assert (Hst : forall x, str_eqb x star = true <-> x = star) by (intros; apply str_eqb_eq).
  set (has_star := str_in star [ty; sub]) in *.
  assert (Hhs : has_star = true <-> ty = star \/ sub = star).
  { unfold has_star. rewrite str_in_In. cbn. split; [intros [|[|[]]]; auto|intros [|]; auto]. }
  destruct (has_star && (negb wild || str_eqb ty star && negb (str_eqb sub star))) eqn:E3.
  { right. split; [|reflexivity]. intros ty' sub' (Hs & H1 & H2 & _).
    destruct (slashed_fun _ _ _ _ _ Hsl Hs) as [<- <-]. apply andb_true_iff in E3 as [E3 E4]. apply Hhs in E3.
    apply orb_true_iff in E4 as [E4|E4].
    - apply negb_true_iff in E4. destruct E3 as [->|Hsub]; [destruct (H1 eq_refl); congruence|rewrite (H2 Hsub) in E4; discriminate].
    - apply andb_true_iff in E4 as [E4 E5]. apply Hst in E4. destruct (H1 E4) as [_ Hx]. rewrite Hx in E5. discriminate. }
  set (names := if has_star then filter (fun n => negb (str_eqb n star)) [ty; sub] else [ty; sub]) in *.
  assert (Hnames : forall n, In n names <-> In n [ty; sub] /\ n <> star).
  { intros n. unfold names. destruct has_star eqn:Es.
    - rewrite filter_In, negb_true_iff. split; intros [H1 H2]; (split; [exact H1|]).
      + intros ->. rewrite str_eqb_refl in H2. discriminate.
      + destruct (str_eqb n star) eqn:En; [apply Hst in En; congruence|reflexivity].
    - split; [|tauto]. intros H. split; [exact H|]. intros ->.
      assert (Hf : ty = star \/ sub = star) by (destruct H as [|[|[]]]; auto). apply Hhs in Hf. congruence. }
  set (tokens := filter (match_dollar (nocase rfc9110_token)) names) in *.
  assert (Htok : forall n, In n tokens <-> In n [ty; sub] /\ n <> star /\ eol token n).
  { intros n. unfold tokens. rewrite filter_In, Hnames, token_match. tauto. }
  assert (Hwild : (ty = star -> wild = true /\ sub = star) /\ (sub = star -> wild = true)).
  { apply andb_false_iff in E3. split; intros Hx.
    - destruct E3 as [E3|E3]; [rewrite (proj2 Hhs) in E3; [discriminate|auto]|].
      apply orb_false_iff in E3 as [E3 E4]. apply negb_false_iff in E3. split; [exact E3|].
      subst ty. rewrite str_eqb_refl in E4. cbn in E4. apply negb_false_iff in E4. apply Hst, E4.
    - destruct E3 as [E3|E3]; [rewrite (proj2 Hhs) in E3; [discriminate|auto]|].
      apply orb_false_iff in E3 as [E3 _]. apply negb_false_iff in E3. exact E3. }
  destruct Hwild as [Hw1 Hw2].
  destruct (negb (Nat.eqb (length tokens) (length names)) && tok) eqn:E4.
  { right. split; [|reflexivity]. intros ty' sub' (Hs & _ & _ & H). destruct (slashed_fun _ _ _ _ _ Hsl Hs) as [<- <-].
    apply andb_true_iff in E4 as [E4 Et]. apply negb_true_iff in E4. apply Nat.eqb_neq in E4. apply E4.
    unfold tokens. clear - H Et Hnames. revert Hnames. generalize names as l. intros l Hl.
    assert (Ha : forall n, In n l -> match_dollar (nocase rfc9110_token) n = true).
    { intros n Hn. apply Hl in Hn as [Hn1 Hn2]. apply token_match, (H Et n Hn1 Hn2). }
    clear - Ha. induction l as [|x l IH]; [reflexivity|]. cbn [filter]. rewrite (Ha x) by (left; reflexivity). cbn [length]. f_equal.
    apply IH. intros n Hn. apply Ha. right. exact Hn. }
  left. exists ty, sub.
  assert (Enames : (if negb (Nat.eqb (length tokens) (length names)) then tokens else names) = tokens).
  { destruct (Nat.eqb (length tokens) (length names)) eqn:El; [|reflexivity]. cbn. symmetry. apply filter_full, Nat.eqb_eq, El. }
  rewrite Enames.
  exists (existsb (fun n => Nat.ltb restricted_name_max_len (length n)) tokens),
         (existsb (fun n => negb (match_dollar (nocase utils_restricted_name_unbounded) n)) tokens).
  split.
  { split; [exact Hsl|]. split; [exact Hw1|]. split; [exact Hw2|]. intros Et n Hn1 Hn2.
    rewrite Et, andb_true_r in E4. apply negb_false_iff, Nat.eqb_eq in E4.
    apply filter_full in E4. fold tokens in E4.
    assert (Hin : In n names) by (apply Hnames; auto). rewrite <- E4 in Hin. apply Htok in Hin. tauto. }
  split.
  { destruct (existsb (fun n => Nat.ltb restricted_name_max_len (length n)) tokens),
       (existsb (fun n => negb (match_dollar (nocase utils_restricted_name_unbounded) n)) tokens); reflexivity. }
  split; rewrite existsb_exists.
  - split.
    + intros (n & Hn & Hl). apply Nat.ltb_lt in Hl. unfold restricted_name_max_len in Hl. apply Htok in Hn as (H1 & H2 & H3).
      exists n. auto.
    + intros (n & H1 & H2 & H3 & Hl). exists n. split; [apply Htok; auto|]. apply Nat.ltb_lt, Hl.
  - split.
    + intros (n & Hn & Hl). apply negb_true_iff in Hl. apply Htok in Hn as (H1 & H2 & H3).
      exists n. repeat split; auto. rewrite <- restricted_match. congruence.
    + intros (n & H1 & H2 & H3 & Hl). exists n. split; [apply Htok; auto|]. apply negb_true_iff.
      rewrite <- restricted_match in Hl. destruct (match_dollar _ n); congruence.
Qed.
