(** * Properties of the status and CORS preflight checks: C23, C24. *)
From Verif Require Import PyStr Regex Grammar Note PyLib Utils FieldAttrs Types Fields1 Framework Checks Message Session
  EvLogic NoteLemmas TestEnv ContentLemmas LexLemmas NumLemmas FrameLemmas BodyLemmas PassFrame PassSec PassProc PassMsg PassRun
  SessionLemmas EndLemmas PropBody PropTop StatusSpec StatusLemmas.
Open Scope N_scope.

(** ** Conditions as propositions *)
Lemma m_has_field m k : m_has m k = true <-> has_field m k.
Proof. unfold m_has, has_field, received, dmem. destruct (dget _ _); split; intros H; eauto; try discriminate. destruct H; discriminate. Qed.
Lemma m_lacks_field m k : negb (m_has m k) = true <-> ~ has_field m k.
Proof. rewrite <- m_has_field, negb_true_iff. destruct (m_has m k); split; congruence. Qed.
Lemma get_header_in r k x : In x (get_header r k) <-> exists n v p, In (n, v) (s_text (m_headers r)) /\ lower n = u k /\ In p (split_all 44 v) /\ strip p = x.
Proof.
  unfold get_header. rewrite in_map_iff. split.
  - intros (p & <- & H). apply in_flat_map in H as ((n & v) & Hn & H). cbn [fst snd] in H. destruct (str_eqb _ _) eqn:E; [|destruct H].
    apply str_eqb_eq in E. eauto 10.
  - intros (n & v & p & Hn & E & Hp & <-). exists p. split; [reflexivity|]. apply in_flat_map. exists (n, v). split; [exact Hn|]. cbn [fst snd].
    rewrite E, str_eqb_refl. exact Hp.
Qed.
Lemma split_all_ne c s : split_all c s <> [].
Proof. destruct s as [|x s]; cbn; [discriminate|]. destruct (x =? c)%N; [discriminate|]. destruct (split_all c s); discriminate. Qed.
Lemma get_header_nil r k : nonempty (get_header r k) = false <-> ~ line_of r k.
Proof.
  assert (X : forall l : list str, nonempty l = false <-> (forall x, ~ In x l)).
  { intros [|x l]; cbn; split; intros H; auto; try discriminate. destruct (H x). auto. }
  rewrite X. split.
  - intros H (n & v & Hn & E). destruct (split_all 44 v) as [|p ps] eqn:Ep; [destruct (split_all_ne _ _ Ep)|].
    apply (H (strip p)). apply get_header_in. exists n, v, p. rewrite Ep. cbn. auto.
  - intros H x Hx. apply get_header_in in Hx as (n & v & p & Hn & E & _). apply H. exists n, v. auto.
Qed.
Lemma without_spec rel ks : reqb rel (fun r => negb (existsb (fun h => nonempty (get_header r h)) ks)) = true <-> without rel ks.
Proof.
  unfold without, reqb. destruct rel as [r|]; [|split; [discriminate|intros (? & ? & _); discriminate]].
  rewrite negb_true_iff. split.
  - intros H. exists r. split; [reflexivity|]. intros k Hk. apply get_header_nil.
    destruct (nonempty (get_header r k)) eqn:E; [|reflexivity]. rewrite <- H. symmetry. apply existsb_exists. eauto.
  - intros (r' & E & H). injection E as <-. destruct (existsb _ ks) eqn:Ex; [|reflexivity]. apply existsb_exists in Ex as (k & Hk & Hn).
    apply H in Hk. apply get_header_nil in Hk. congruence.
Qed.
Lemma lacks_spec rel k : lacksb rel k = true <-> without rel [k].
Proof. rewrite <- without_spec. unfold lacksb, reqb. destruct rel; [|reflexivity]. cbn [existsb]. rewrite orb_false_r. reflexivity. Qed.
Lemma has_100_spec r : has_100 r = true <-> line_lists r "expect" "100-continue".
Proof. unfold has_100. rewrite str_in_In, get_header_in. reflexivity. Qed.
Lemma reqb_spec rel f : reqb rel f = true <-> exists r, rel = Some r /\ f r = true.
Proof. unfold reqb. destruct rel as [r|]; split; intros H; eauto; try discriminate. - destruct H as (? & E & H). injection E as <-. exact H. - destruct H as (? & E & _). discriminate. Qed.
Lemma hit_spec m rel b : hitb m rel = Ok b -> (b = true <-> method_allowed m rel).
Proof.
  unfold hitb, method_allowed, received, m_get. intros H. split.
  - intros ->. destruct (request_method rel) as [[|c s]|]; try discriminate. destruct (dget _ _) as [a|] eqn:Ea; [|discriminate].
    exists (c :: s), a. repeat split; auto. discriminate.
  - intros (s & v & E1 & Hs & E2 & E3). rewrite E1, E2 in H. destruct s; [congruence|]. rewrite E3 in H. injection H as <-. reflexivity.
Qed.
Lemma negb_spec b (P : Prop) : (b = true <-> P) -> (negb b = true <-> ~ P).
Proof. intros <-. destruct b; cbn; split; congruence. Qed.
Lemma due_in t z c : In c (due t z) <-> In (z, c, true) t.
Proof.
  unfold due. rewrite in_flat_map. split.
  - intros (((z' & c') & b) & H & Hc). cbn [fst snd] in Hc. destruct (Z.eqb_spec z' z) as [->|]; [|destruct Hc]. destruct b; [|destruct Hc].
    destruct Hc as [<-|[]]. exact H.
  - intros H. exists (z, c, true). split; [exact H|]. cbn [fst snd]. rewrite Z.eqb_refl. left. reflexivity.
Qed.
(** The rows of one class. *)
Definition class_rows (t : list (Z * nid * bool)) (c : nid) : list (Z * bool) :=
  flat_map (fun r : Z * nid * bool => if nid_eqb (snd (fst r)) c then [(fst (fst r), snd r)] else []) t.
Lemma class_rows_in t z c b : In (z, c, b) t <-> In (z, b) (class_rows t c).
Proof.
  unfold class_rows. rewrite in_flat_map. split.
  - intros H. exists (z, c, b). split; [exact H|]. cbn [fst snd]. rewrite nid_eqb_refl. left. reflexivity.
  - intros (((z' & c') & b') & H & Hc). cbn [fst snd] in Hc. destruct (nid_eqb c' c) eqn:E; [|destruct Hc]. apply nid_eqb_eq in E. subst.
    destruct Hc as [Hc|[]]. injection Hc as -> ->. exact H.
Qed.
Definition status_classes : list nid := filter (in_file "status.py") all_nids.
Lemma supported_spec z : is_supported z = true <-> In z supported.
Proof. unfold is_supported. rewrite existsb_exists. split; [intros (x & Hx & E); apply Z.eqb_eq in E; subst; exact Hx|intros H; exists z; split; [exact H|apply Z.eqb_refl]]. Qed.
Lemma one_row (st : option Z) z0 b (P : Prop) : (b = true <-> P) ->
  ((exists z, st = Some z /\ ((z0, b) = (z, true) \/ False)) <-> st = Some z0 /\ P).
Proof.
  intros <-. split.
  - intros (z & E & [H|[]]). injection H as <- ->. auto.
  - intros [E ->]. exists z0. auto.
Qed.
Lemma plain_rows m c : (exists z, status_of m z /\ In (z, c) plain) <->
  exists z, m_status m = Some z /\ In (z, true) (class_rows (map (fun zc => (fst zc, snd zc, true)) plain) c).
Proof.
  split; intros (z & E & H); exists z; (split; [exact E|]).
  - apply class_rows_in, in_map_iff. exists (z, c). auto.
  - apply class_rows_in, in_map_iff in H as ((z' & c') & Eq & H). cbn in Eq. injection Eq as -> ->. exact H.
Qed.
(** For every class but STATUS_NONSTANDARD: a row says so iff the rule does. *)
Lemma rows_rule m rel hit c : (hit = true <-> method_allowed m rel) -> In c status_classes -> c <> STATUS_NONSTANDARD ->
  ((exists z, m_status m = Some z /\ In (z, c, true) (the_rows m rel hit)) <-> status_rule c m rel).
Proof.
  intros Hh Hc Hn.
  assert (R : (exists z, m_status m = Some z /\ In (z, c, true) (the_rows m rel hit)) <-> exists z, m_status m = Some z /\ In (z, true) (class_rows (the_rows m rel hit) c)).
  { split; intros (z & E & H); exists z; (split; [exact E|]); apply class_rows_in; exact H. }
  rewrite R. clear R. unfold the_rows.
  assert (H1 := lacks_spec rel "upgrade"). assert (H2 := lacks_spec rel "range"). assert (H3 := lacks_spec rel "expect").
  assert (H4 := m_lacks_field m "location"). assert (H5 := m_lacks_field m "content-range"). assert (H6 := m_lacks_field m "date").
  assert (H7 := without_spec rel ["accept"; "accept-charset"; "accept-encoding"; "accept-language"]%string).
  assert (H8 := without_spec rel ["if-match"; "if-none-match"; "if-modified-since"; "if-unmodified-since"; "if-range"]%string).
  assert (H9 : nonempty (filter (m_has m) ["content-type"; "content-encoding"; "content-language"]%string) = true
    <-> has_field m "content-type" \/ has_field m "content-encoding" \/ has_field m "content-language").
  { rewrite <- !m_has_field. cbn [filter]. clear. destruct (m_has m "content-type"), (m_has m "content-encoding"), (m_has m "content-language"); cbn [nonempty]; split; intros H; auto; try discriminate; destruct H as [H|[H|H]]; discriminate. }
  assert (H10 := reqb_spec rel (fun r => negb (has_100 r))).
  assert (H10' : (exists r, rel = Some r /\ negb (has_100 r) = true) <-> exists r, rel = Some r /\ ~ line_lists r "expect" "100-continue").
  { split; intros (r & E & H); exists r; (split; [exact E|]); apply (negb_spec _ _ (has_100_spec r)); exact H. }
  rewrite H10' in H10. clear H10'.
  assert (H11 := reqb_spec rel has_100).
  assert (H11' : (exists r, rel = Some r /\ has_100 r = true) <-> exists r, rel = Some r /\ line_lists r "expect" "100-continue").
  { split; intros (r & E & H); exists r; (split; [exact E|]); apply has_100_spec; exact H. }
  rewrite H11' in H11. clear H11'.
  assert (H12 := reqb_spec rel (fun r => match m_method r with Some s => str_in s safe_methods | None => false end)).
  assert (H12' : (exists r, rel = Some r /\ match m_method r with Some s => str_in s safe_methods | None => false end = true)
     <-> exists r s, rel = Some r /\ m_method r = Some s /\ In s (map u ["GET"; "HEAD"; "OPTIONS"; "TRACE"]%string)).
  { split.
    - intros (r & E & H). destruct (m_method r) as [s|] eqn:Em; [|discriminate]. apply str_in_In in H. exists r, s. auto.
    - intros (r & s & E & Em & H). exists r. rewrite Em. split; [exact E|]. apply str_in_In. exact H. }
  rewrite H12' in H12. clear H12'.
  assert (W : without rel ["expect"]%string -> (exists r, rel = Some r /\ line_lists r "expect" "100-continue") -> False).
  { intros (r & E & Hr) (r' & E' & n & v & p & Hp & El & _). assert (r' = r) by congruence. subst. apply (Hr "expect"%string); [left; reflexivity|]. exists n, v. auto. }
  generalize dependent (lacksb rel "upgrade"). generalize dependent (lacksb rel "range"). generalize dependent (lacksb rel "expect").
  generalize dependent (negb (m_has m "location")). generalize dependent (negb (m_has m "content-range")). generalize dependent (negb (m_has m "date")).
  generalize dependent (reqb rel (fun r => negb (existsb (fun h => nonempty (get_header r h)) ["accept"; "accept-charset"; "accept-encoding"; "accept-language"]%string))).
  generalize dependent (reqb rel (fun r => negb (existsb (fun h => nonempty (get_header r h)) ["if-match"; "if-none-match"; "if-modified-since"; "if-unmodified-since"; "if-range"]%string))).
  generalize dependent (nonempty (filter (m_has m) ["content-type"; "content-encoding"; "content-language"]%string)).
  generalize dependent (reqb rel (fun r => negb (has_100 r))). generalize dependent (reqb rel has_100).
  generalize dependent (reqb rel (fun r => match m_method r with Some s => str_in s safe_methods | None => false end)).
  intros b1 K1 b2 K2 b3 K3 b4 K4 b5 K5 b6 K6 b7 K7 b8 K8 b9 K9 b10 K10 b11 K11 b12 K12.
  remember status_classes as sc eqn:Esc. vm_compute in Esc. subst sc. unfold status_of, status_among in *.
  repeat (destruct Hc as [<-|Hc]; [
    match goal with |- context [class_rows ?t ?c] => let r := eval vm_compute in (class_rows t c) in change (class_rows t c) with r end;
    clear -Hh Hn W K1 K2 K3 K4 K5 K6 K7 K8 K9 K10 K11 K12; cbn [status_rule In];
    first [apply one_row; assumption | apply one_row, negb_spec; assumption
          | rewrite plain_rows; match goal with |- context [class_rows ?t ?c] => let r := eval vm_compute in (class_rows t c) in change (class_rows t c) with r end; reflexivity
          | idtac]|]).
  5: destruct Hc.
  - rewrite <- K9. split.
    + intros (z & E & H). repeat (destruct H as [H|H]; [injection H as <- ->; split; [|reflexivity]; eexists; split; [exact E|cbn; auto 8]|]). destruct H.
    + intros [(z & E & H) ->]. exists z. split; [exact E|]. cbn in H. repeat (destruct H as [<-|H]; [auto 8|]). destruct H.
  - congruence.
  - apply one_row. rewrite <- K10, <- K2. destruct b10, b2; intuition congruence.
  - apply one_row. rewrite <- K2. rewrite <- K10, <- K2 in W. destruct b10, b2; intuition congruence.
Qed.
Lemma reported_file f c m l : sel (in_file f) (m_notes m) = msg_notes MResponse l -> nid_file c = f -> (reported c m <-> In c (ev_classes l)).
Proof.
  intros H Hf. unfold reported. change (ev_classes l) with (flat_map (fun e => match e with EMsg _ c _ => [c] | _ => [] end) l).
  rewrite <- (msg_notes_cls MResponse), <- H, in_map_iff. split.
  - intros (n & Hn & E). exists n. split; [exact E|]. apply filter_In. split; [exact Hn|]. rewrite E. unfold in_file. rewrite Hf. apply String.eqb_refl.
  - intros (n & E & Hn). apply filter_In in Hn as [Hn _]. eauto.
Qed.
Lemma due_nodup t z : NoDup (map fst t) -> NoDup (due t z).
Proof.
  unfold due. induction t as [|((z' & c) & b) t IH]; cbn [map fst snd flat_map]; intros H; [constructor|].
  inversion H as [|x y Hn Hd]; subst. specialize (IH Hd). destruct (Z.eqb_spec z' z) as [->|]; [|exact IH]. destruct b; [|exact IH].
  cbn [andb app]. constructor; [|exact IH]. intros Hc. apply Hn. change (In c (due t z)) in Hc. apply due_in in Hc.
  apply in_map_iff. exists (z, c, true). auto.
Qed.
Fixpoint distinct {A} (eqb : A -> A -> bool) (l : list A) : bool :=
  match l with [] => true | x :: l' => negb (existsb (eqb x) l') && distinct eqb l' end.
Lemma distinct_nodup {A} (eqb : A -> A -> bool) l : (forall x, eqb x x = true) -> distinct eqb l = true -> NoDup l.
Proof.
  intros R. induction l as [|x l IH]; cbn; [constructor|]. intros H. apply andb_true_iff in H as [H1 H2]. constructor; [|auto].
  intros Hx. apply negb_true_iff in H1. assert (existsb (eqb x) l = true) by (apply existsb_exists; eauto). congruence.
Qed.
Lemma status_once m rel hit z : NoDup (due (the_rows m rel hit) z).
Proof.
  apply due_nodup, (distinct_nodup (fun a b : Z * nid => (fst a =? fst b)%Z && nid_eqb (snd a) (snd b))).
  - intros x. rewrite Z.eqb_refl, nid_eqb_refl. reflexivity.
  - unfold the_rows. generalize (lacksb rel "upgrade"), (lacksb rel "range"), (lacksb rel "expect"), (negb (m_has m "location")),
      (negb (m_has m "content-range")), (negb (m_has m "date")). intros. unfold rows. vm_compute. reflexivity.
Qed.
Lemma due_supported m rel hit z c : In c (due (the_rows m rel hit) z) -> In z supported /\ c <> STATUS_NONSTANDARD.
Proof.
  intros H. apply due_in in H.
  assert (X : In (z, c) (map fst (rows true true true true true true true true true true true true true))).
  { apply in_map with (f := fst) in H. exact H. }
  assert (Y : forallb (fun zc : Z * nid => is_supported (fst zc) && negb (nid_eqb (snd zc) STATUS_NONSTANDARD))
                (map fst (rows true true true true true true true true true true true true true)) = true) by (vm_compute; reflexivity).
  rewrite forallb_forall in Y. specialize (Y _ X). cbn [fst snd] in Y. apply andb_true_iff in Y as [Y1 Y2]. apply supported_spec in Y1.
  split; [exact Y1|]. intros ->. rewrite nid_eqb_refl in Y2. discriminate.
Qed.
Lemma ev_classes_cls t l : map n_cls (msg_notes t l) = ev_classes l. Proof. apply msg_notes_cls. Qed.
Lemma filter_in {A} (p q : A -> bool) l : (forall x, p x = true -> q x = true) -> filter p (filter q l) = filter p l.
Proof.
  intros H. induction l as [|x l IH]; [reflexivity|]. cbn [filter]. destruct (q x) eqn:E.
  - cbn [filter]. rewrite IH. reflexivity.
  - destruct (p x) eqn:E'; [rewrite (H _ E') in E; discriminate|exact IH].
Qed.
Lemma nodup_once c ns : NoDup (map n_cls ns) -> (length (filter (fun n => nid_eqb (n_cls n) c) ns) <= 1)%nat.
Proof.
  induction ns as [|n ns IH]; cbn [map filter length]; [lia|]. intros Hd. inversion Hd as [|x y Hn Hd']; subst. specialize (IH Hd').
  destruct (nid_eqb (n_cls n) c) eqn:E; [|exact IH]. apply nid_eqb_eq in E. subst c. cbn [length].
  assert (X : filter (fun k => nid_eqb (n_cls k) (n_cls n)) ns = []); [|rewrite X; cbn; lia].
  destruct (filter _ ns) as [|k l] eqn:Ef; [reflexivity|]. assert (Hk : In k (filter (fun k => nid_eqb (n_cls k) (n_cls n)) ns)) by (rewrite Ef; left; reflexivity).
  apply filter_In in Hk as [Hk E]. apply nid_eqb_eq in E. destruct Hn. rewrite <- E. apply in_map. exact Hk.
Qed.
Lemma of_one c ns : of_classes [c] ns = filter (fun n => nid_eqb (n_cls n) c) ns.
Proof. unfold of_classes. apply filter_ext. intros n. cbn. apply orb_false_r. Qed.
Lemma once_of f c m l : sel (in_file f) (m_notes m) = msg_notes MResponse l -> nid_file c = f -> NoDup (ev_classes l) ->
  (length (of_classes [c] (m_notes m)) <= 1)%nat.
Proof.
  intros H Hf Hd. rewrite of_one.
  rewrite <- (filter_in _ (fun n => in_file f (n_cls n))).
  - change (filter (fun n => in_file f (n_cls n)) (m_notes m)) with (sel (in_file f) (m_notes m)). rewrite H. apply nodup_once.
    rewrite ev_classes_cls. exact Hd.
  - intros n E. apply nid_eqb_eq in E. unfold in_file. rewrite E, Hf. apply String.eqb_refl.
Qed.

(** ** C23 *)
(** For a response that was linted to the end, a note of class [c] of status.py
    is reported iff [status_rule] says so, and then once. *)
Theorem C23_status : forall e rel top headers chunks complete trailers start nc head base m' rel',
  lint e rel top headers chunks complete trailers (new_linter MResponse start nc head base) = (m', rel', Ok tt) ->
  forall c, nid_file c = "status.py"%string ->
    (reported c m' <-> status_rule c m' rel) /\ (length (of_classes [c] (m_notes m')) <= 1)%nat.
Proof.
  intros e rel top headers chunks complete trailers start nc head base m' rel' E c Hf.
  destruct (lint_response _ _ _ _ _ _ _ _ _ _ _ _ _ E) as (lp & lc & lreq & k & ls & _ & _ & Es & _ & _ & _ & _ & N & _).
  pose proof (check_status_rows m' rel ls Es) as R.
  assert (Hc : In c status_classes) by (apply filter_In; split; [apply all_nids_complete|unfold in_file; rewrite Hf; reflexivity]).
  split.
  - rewrite (reported_file _ _ _ _ N Hf), R.
    assert (H405 : forall z, m_status m' = Some z -> z = 405%Z -> exists b, hitb m' rel = Ok b).
    { intros z Hz ->. unfold check_status in Es. rewrite Hz in Es. cbv zeta iota in Es. fold (request_method rel) in Es. fold (hitb m' rel) in Es.
      destruct (hitb m' rel); [eauto|discriminate]. }
    assert (Q : c <> STATUS_NONSTANDARD -> (status_rule c m' rel <-> exists z, m_status m' = Some z /\ In c (due (the_rows m' rel (match hitb m' rel with Ok b => b | Err _ => false end)) z))).
    { intros Hn. destruct (hitb m' rel) as [b|x] eqn:Eh.
      - rewrite <- (rows_rule m' rel b c (hit_spec m' rel b Eh) Hc Hn). split; intros (z & Ez & H); exists z; (split; [exact Ez|]); apply due_in; exact H.
      - (* the status is not 405: the condition plays no part *)
        assert (D : exists b, b = true <-> method_allowed m' rel).
        { unfold method_allowed, received. unfold hitb, m_get in Eh. destruct (request_method rel) as [[|y s]|]; try discriminate.
          destruct (dget _ _) as [a|]; [|discriminate]. exists false. split; [discriminate|]. intros (s' & v & E1 & _ & E2 & E3). injection E1 as <-. injection E2 as <-. congruence. }
        destruct D as [b Hb]. rewrite <- (rows_rule m' rel b c Hb Hc Hn).
        assert (I : forall z, z <> 405%Z -> forall b b', In (z, c, true) (the_rows m' rel b) -> In (z, c, true) (the_rows m' rel b')).
        { intros z Hz b0 b1. unfold the_rows, rows. rewrite !in_app_iff. intros [H|H]; [left|right; exact H].
          cbn [In] in *. repeat (destruct H as [H|H]; [first [left; exact H|injection H as H ? ?; congruence]|first [apply or_intror|idtac]]); destruct H. }
        split; intros (z & Ez & H); exists z; (split; [exact Ez|]).
        + apply due_in. apply (I z) with (b := b); [|exact H]. intros ->. destruct (H405 405%Z Ez eq_refl) as [? ?]. congruence.
        + apply due_in in H. apply (I z) with (2 := H). intros ->. destruct (H405 405%Z Ez eq_refl) as [? ?]. congruence. }
    destruct (nid_eqb c STATUS_NONSTANDARD) eqn:Ec.
    + apply nid_eqb_eq in Ec. subst c. cbn [status_rule]. unfold status_among, status_of. destruct (m_status m') as [z|].
      * destruct (is_supported z) eqn:Ez.
        -- apply supported_spec in Ez. split; [intros H; apply due_supported in H; destruct H; congruence|]. intros H. destruct H. eauto.
        -- split; [|left; reflexivity]. intros _ (z' & E' & H). injection E' as <-. apply supported_spec in H. congruence.
      * split; [|left; reflexivity]. intros _ (z & E' & _). discriminate.
    + assert (Hn : c <> STATUS_NONSTANDARD) by (intros ->; rewrite nid_eqb_refl in Ec; discriminate). rewrite (Q Hn).
      destruct (m_status m') as [z|].
      * destruct (is_supported z) eqn:Ez.
        -- split; [eauto|]. intros (z' & E' & H). injection E' as <-. exact H.
        -- split; [intros [H|[]]; congruence|]. intros (z' & E' & H). injection E' as <-. apply due_supported in H as [H _]. apply supported_spec in H. congruence.
      * split; [intros [H|[]]; congruence|]. intros (z' & E' & _). discriminate.
  - apply (once_of _ _ _ _ N Hf). rewrite R. destruct (m_status m') as [z|]; [|repeat constructor; auto].
    destruct (is_supported z); [apply status_once|repeat constructor; auto].
Qed.
Print Assumptions C23_status.
Definition status_classes_of (m : mstate) : list nid := filter (in_file "status.py") (map n_cls (m_notes m)).
Definition code_run (rel : option mstate) (s : string) (headers : list (string * string)) :=
  lint env0 rel (TopResponse (u "1.1") (u s) None) (map (fun h => (u (fst h), u (snd h))) headers) [] true [] (new_linter MResponse None false false []).
Example C23_status_ex :
  let ok (x : mstate * option mstate * res unit) l := snd x = Ok tt /\ status_classes_of (fst (fst x)) = l in
  let req := fst (fst (lint env0 None (TopRequest (u "GET") (u "/a") (u "1.1")) [(u "Host", u "a")] [] true [] (new_linter MRequest None false false []))) in
  ok (code_run None "302" []) [REDIRECT_WITHOUT_LOCATION] /\ ok (code_run None "302" [("Location", "/b")%string]) []
  /\ ok (code_run (Some req) "206" []) [PARTIAL_NOT_REQUESTED; PARTIAL_WITHOUT_RANGE]
  /\ ok (code_run (Some req) "405" [("Allow", "GET, PUT")%string]) [STATUS_405_METHOD_IN_ALLOW]
  /\ ok (code_run None "299" []) [STATUS_NONSTANDARD].
Proof. vm_compute. repeat split. Qed.

(** ** C24: CORS preflights *)
(** An OPTIONS request with Origin and Access-Control-Request-Method. *)
Definition preflight (m : mstate) : Prop :=
  m_method m = Some (u "OPTIONS") /\ has_field m "origin" /\ has_field m "access-control-request-method".
Definition asks_preflight (m : mstate) : Prop := has_field m "access-control-request-method" \/ has_field m "access-control-request-headers".
Lemma method_options m : method_is m "OPTIONS" = true <-> m_method m = Some (u "OPTIONS").
Proof. unfold method_is. destruct (m_method m) as [s|]; [|split; discriminate]. rewrite str_eqb_eq. split; [intros ->; reflexivity|intros H; injection H as ->; reflexivity]. Qed.
Lemma preflight_spec m : is_preflight m = true <-> preflight m.
Proof. unfold is_preflight, preflight. rewrite !andb_true_iff, method_options, !m_has_field. tauto. Qed.
Lemma reported_among l c m ns : sel (among l) (m_notes m) = sel (among l) ns -> In c l -> (reported c m <-> In c (map n_cls ns)).
Proof.
  intros H Hc. unfold reported. split.
  - intros (n & Hn & E). assert (Hs : In n (sel (among l) (m_notes m))) by (apply filter_In; split; [exact Hn|]; apply among_In; rewrite E; exact Hc).
    rewrite H in Hs. apply filter_In in Hs as [Hs _]. apply in_map_iff. eauto.
  - intros Hn. apply in_map_iff in Hn as (n & E & Hn). assert (Hs : In n (sel (among l) ns)) by (apply filter_In; split; [exact Hn|]; apply among_In; rewrite E; exact Hc).
    rewrite <- H in Hs. apply filter_In in Hs as [Hs _]. eauto.
Qed.
Theorem C24_request : forall e rel top headers chunks complete trailers start nc head base m' rel',
  lint e rel top headers chunks complete trailers (new_linter MRequest start nc head base) = (m', rel', Ok tt) ->
  (reported CORS_PREFLIGHT_REQUEST m' <-> preflight m')
  /\ (reported CORS_PREFLIGHT_REQ_METHOD_WRONG m' <-> asks_preflight m' /\ m_method m' <> Some (u "OPTIONS"))
  /\ (reported CORS_PREFLIGHT_REQ_NO_ORIGIN m' <-> asks_preflight m' /\ ~ has_field m' "origin")
  /\ (reported CORS_PREFLIGHT_REQ_NO_METHOD m' <-> asks_preflight m' /\ ~ has_field m' "access-control-request-method").
Proof.
  intros e rel top headers chunks complete trailers start nc head base m' rel' E.
  destruct (lint_request _ _ _ _ _ _ _ _ _ _ _ _ _ E) as (_ & lp & Ep & N).
  rewrite !(reported_among _ _ _ _ N) by (cbn; tauto).
  rewrite msg_notes_cls. unfold asks_preflight. rewrite <- preflight_spec, <- method_options, <- !m_has_field.
  unfold check_preflight_request, msg in Ep. unfold is_preflight in *.
  destruct (method_is m' "OPTIONS"), (m_has m' "origin"), (m_has m' "access-control-request-method"), (m_has m' "access-control-request-headers");
    cbn in Ep; injection Ep as <-; cbn; intuition congruence.
Qed.
Print Assumptions C24_request.

(** A response: whether it answers a preflight is a matter of the request only. *)
Definition answers_preflight (rel : option mstate) : Prop := exists r, rel = Some r /\ preflight r.
(** The headers that mean something only there, of those recorded, by canonical name. *)
Definition preflight_names (m : mstate) (l : list str) : Prop :=
  exists ks hs, ks = filter (m_has m) ["access-control-allow-headers"; "access-control-allow-methods"; "access-control-max-age"]%string
    /\ Forall2 (fun k h => dget (u k) (s_handlers (m_headers m)) = Some h) ks hs /\ l = map h_canon hs.
Theorem C24_response : forall e rel top headers chunks complete trailers start nc head base m' rel',
  lint e rel top headers chunks complete trailers (new_linter MResponse start nc head base) = (m', rel', Ok tt) ->
  (reported CORS_PREFLIGHT_RESPONSE m' <-> answers_preflight rel)
  /\ (forall n, In n (m_notes m') /\ n_cls n = CORS_PREFLIGHT_ONLY <->
        exists l, ~ answers_preflight rel /\ preflight_names m' l /\ l <> []
                  /\ n = mk_note MResponse (u "header-access-control-allow-headers") CORS_PREFLIGHT_ONLY None [(u "headers", VStr (join (u ", ") l))] [])
  /\ (reported CORS_PREFLIGHT_ONLY m' <-> ~ answers_preflight rel
        /\ (has_field m' "access-control-allow-headers" \/ has_field m' "access-control-allow-methods" \/ has_field m' "access-control-max-age"))
  /\ (reported ACAO_MULTIPLE_VALUES m' <-> exists s, received m' "access-control-allow-origin" (VStr s) /\ (In 32 s \/ In 44 s)).
Proof.
  intros e rel top headers chunks complete trailers start nc head base m' rel' E.
  destruct (lint_response _ _ _ _ _ _ _ _ _ _ _ _ _ E) as (lp & lc & lreq & k & ls & Ep & _ & _ & _ & _ & N & _).
  assert (A : answers_preflight rel <-> (match rel with Some r => is_preflight r | None => false end) = true).
  { unfold answers_preflight. destruct rel as [r|]; [|split; [intros (? & ? & _); discriminate|discriminate]]. rewrite preflight_spec.
    split; [intros (? & E' & H); injection E' as <-; exact H|eauto]. }
  assert (Nc : forall c, In c preflight_classes -> (reported c m' <-> In c (map n_cls (msg_notes MResponse lp)))).
  { intros c Hc. unfold reported. rewrite <- N. split.
    - intros (n & Hn & Ec). apply in_map_iff. exists n. split; [exact Ec|]. apply filter_In. split; [exact Hn|]. apply among_In. rewrite Ec. exact Hc.
    - intros Hn. apply in_map_iff in Hn as (n & Ec & Hn). apply filter_In in Hn as [Hn _]. eauto. }
  assert (No : forall n, In n (m_notes m') /\ n_cls n = CORS_PREFLIGHT_ONLY <-> In n (msg_notes MResponse lp) /\ n_cls n = CORS_PREFLIGHT_ONLY).
  { intros n. rewrite <- N. unfold sel. rewrite filter_In. split; [|tauto]. intros [H1 H2]. repeat split; auto. apply among_In. rewrite H2. cbn. tauto. }
  unfold check_preflight_response in Ep. unfold msg in Ep.
  set (tail := match m_get m' "access-control-allow-origin" with Some (VStr s) => _ | _ => _ end) in Ep.
  assert (T : exists l, tail = (l, Ok tt) /\ msg_notes MResponse l = map (fun _ => mk_note MResponse (u "header-access-control-allow-origin") ACAO_MULTIPLE_VALUES None [] []) l
     /\ (l <> [] <-> exists s, received m' "access-control-allow-origin" (VStr s) /\ (In 32 s \/ In 44 s))).
  { unfold tail, received, m_get. destruct (dget _ _) as [v|]; [|exists []; repeat split; [congruence|intros (s & H & _); discriminate]].
    destruct v; try (exists []; repeat split; [congruence|intros (s' & H & _); discriminate]).
    assert (X : forall c x, has_chr c x = true <-> In c x) by (intros; apply has_chr_In).
    unfold when. destruct (has_chr 32 s || has_chr 44 s) eqn:Eb; eexists; repeat split.
    - apply orb_true_iff in Eb. rewrite !X in Eb. intros _. exists s. auto.
    - discriminate.
    - intros H; destruct H; reflexivity.
    - intros (s' & H & H'). injection H as <-. rewrite <- !X, <- orb_true_iff in H'. congruence. }
  destruct T as (lt & -> & Tn & Tr). clearbody tail || idtac.
  assert (Tc : forall c, In c (map n_cls (msg_notes MResponse lt)) <-> c = ACAO_MULTIPLE_VALUES /\ lt <> []).
  { intros c. rewrite Tn, map_map. destruct lt as [|x lt]; cbn [map In]; [split; [intros []|intros [_ H]; congruence]|].
    split; [intros [<-|H]; [split; [reflexivity|discriminate]|]|intros [-> _]; left; reflexivity].
    apply in_map_iff in H as (? & <- & _). split; [reflexivity|discriminate]. }
  destruct (match rel with Some r => is_preflight r | None => false end) eqn:Ea.
  - cbn in Ep. injection Ep as <-.
    assert (M : msg_notes MResponse (EMsg [] CORS_PREFLIGHT_RESPONSE [] :: lt) = mk_note MResponse [] CORS_PREFLIGHT_RESPONSE None [] [] :: msg_notes MResponse lt) by reflexivity.
    rewrite (Nc CORS_PREFLIGHT_RESPONSE), (Nc CORS_PREFLIGHT_ONLY), (Nc ACAO_MULTIPLE_VALUES) by (clear; cbn; tauto). setoid_rewrite No. change (u "") with (@nil N) in *. rewrite M in *. cbn [map n_cls mk_note].
    split; [split; [intros _; apply A; reflexivity|left; reflexivity]|].
    split; [|split].
    + intros n. split.
      * intros [[<-|Hn] Hc]; [discriminate|]. assert (In (n_cls n) (map n_cls (msg_notes MResponse lt))) by (apply in_map; exact Hn).
        apply Tc in H as [H _]. congruence.
      * intros (l & Hn & _). destruct Hn. apply A. reflexivity.
    + split; [intros [H|H]; [discriminate|apply Tc in H as [H _]; discriminate]|intros [H _]; destruct H; apply A; reflexivity].
    + rewrite <- Tr. split; [intros [H|H]; [discriminate|apply Tc in H as [_ H]; exact H]|right; apply Tc; auto].
  - assert (NA : ~ answers_preflight rel) by (rewrite A; discriminate).
    set (ks := filter (m_has m') _) in Ep.
    destruct (mapR _ ks) as [bad|x] eqn:Em; [|discriminate].
    assert (P : forall l, preflight_names m' l <-> l = bad).
    { assert (Q : forall kk b, mapR (fun k0 : string => match dget (u k0) (s_handlers (m_headers m')) with Some h => Ok (h_canon h) | None => Err EKey end) kk = Ok b ->
         exists hs, Forall2 (fun k0 h => dget (u k0) (s_handlers (m_headers m')) = Some h) kk hs /\ b = map h_canon hs).
      { clear. induction kk as [|k0 kk IH]; cbn [mapR]; intros b H; [injection H as <-; exists []; split; [constructor|reflexivity]|].
        destruct (dget (u k0) _) as [h|] eqn:Eh; [|discriminate]. cbn [rbind] in H. destruct (mapR _ kk) as [b'|]; [|discriminate]. cbn in H. injection H as <-.
        destruct (IH b' eq_refl) as (hs & F & ->). exists (h :: hs). split; [constructor; assumption|reflexivity]. }
      assert (U : forall kk hs hs', Forall2 (fun k0 h => dget (u k0) (s_handlers (m_headers m')) = Some h) kk hs ->
         Forall2 (fun k0 h => dget (u k0) (s_handlers (m_headers m')) = Some h) kk hs' -> hs' = hs).
      { clear. intros kk hs hs' F. revert hs'. induction F; intros hs' F'; inversion F'; subst; [reflexivity|]. f_equal; [congruence|auto]. }
      destruct (Q _ _ Em) as (hs & F & ->). intros l. unfold preflight_names. split.
      - intros (ks' & hs' & -> & F' & ->). f_equal. exact (U _ _ _ F F').
      - intros ->. exists ks, hs. repeat split; auto. }
    assert (Lb : bad <> [] <-> has_field m' "access-control-allow-headers" \/ has_field m' "access-control-allow-methods" \/ has_field m' "access-control-max-age").
    { assert (Lk : bad <> [] <-> ks <> []).
      { clear - Em. destruct ks as [|k0 kk]; cbn [mapR] in Em; [injection Em as <-; tauto|]. destruct (dget _ _); [|discriminate]. cbn [rbind] in Em.
        destruct (mapR _ kk); [|discriminate]. cbn in Em. injection Em as <-. split; discriminate. }
      rewrite Lk, <- !m_has_field. unfold ks, preflight_only. cbn [filter].
      destruct (m_has m' "access-control-allow-headers"), (m_has m' "access-control-allow-methods"), (m_has m' "access-control-max-age"); clear; intuition congruence. }
    cbn [lift bind] in Ep.
    assert (M : msg_notes MResponse lp = (if nonempty bad then [mk_note MResponse (u "header-access-control-allow-headers") CORS_PREFLIGHT_ONLY None [(u "headers", VStr (join (u ", ") bad))] []] else []) ++ msg_notes MResponse lt).
    { revert Ep. unfold when, tell, lift, bind, ret. destruct (nonempty bad); cbn; intros H; injection H as <-; reflexivity. }
    rewrite (Nc CORS_PREFLIGHT_RESPONSE), (Nc CORS_PREFLIGHT_ONLY), (Nc ACAO_MULTIPLE_VALUES) by (clear; cbn; tauto). setoid_rewrite No. rewrite !M. clear M Ep.
    split; [|split; [|split]].
    + split; [|intros H; contradiction]. rewrite map_app, in_app_iff. intros [H|H]; [destruct (nonempty bad); [destruct H as [H|[]]; discriminate|destruct H]|].
      apply Tc in H as [H _]. discriminate.
    + intros n. rewrite in_app_iff. split.
      * intros [[H|H] Hc].
        -- destruct bad as [|b bad']; [destruct H|]. destruct H as [<-|[]]. exists (b :: bad'). repeat split; auto; [apply P; reflexivity|discriminate].
        -- assert (In (n_cls n) (map n_cls (msg_notes MResponse lt))) by (apply in_map; exact H). apply Tc in H0 as [H0 _]. congruence.
      * intros (l & _ & Hl & Hne & ->). apply P in Hl. subst l. split; [|reflexivity]. left. destruct bad; [congruence|left; reflexivity].
    + rewrite <- Lb. rewrite map_app, in_app_iff. split.
      * intros [H|H]; [destruct bad; [destruct H|split; [exact NA|discriminate]]|apply Tc in H as [H _]; discriminate].
      * intros [_ H]. left. destruct bad; [congruence|left; reflexivity].
    + rewrite <- Tr, map_app, in_app_iff. split.
      * intros [H|H]; [destruct (nonempty bad); [destruct H as [H|[]]; discriminate|destruct H]|apply Tc in H as [_ H]; exact H].
      * intros H. right. apply Tc. auto.
Qed.
Print Assumptions C24_response.
Example C24_ex :
  let cls (x : mstate * option mstate * res unit) := (snd x, filter (among preflight_classes) (map n_cls (m_notes (fst (fst x))))) in
  let req hs := lint env0 None (TopRequest (u "OPTIONS") (u "/a") (u "1.1")) (map (fun h => (u (fst h), u (snd h))) hs) [] true [] (new_linter MRequest None false false []) in
  let pre := [("Host", "a"); ("Origin", "https://a.example"); ("Access-Control-Request-Method", "PUT")]%string in
  let resp rel := code_run rel "200" [("Access-Control-Max-Age", "5"); ("Access-Control-Allow-Methods", "PUT")]%string in
  cls (req pre) = (Ok tt, [CORS_PREFLIGHT_REQUEST]) /\ cls (req [("Access-Control-Request-Headers", "a")]%string) = (Ok tt, [CORS_PREFLIGHT_REQ_NO_ORIGIN; CORS_PREFLIGHT_REQ_NO_METHOD])
  /\ cls (resp (Some (fst (fst (req pre))))) = (Ok tt, [CORS_PREFLIGHT_RESPONSE]) /\ cls (resp None) = (Ok tt, [CORS_PREFLIGHT_ONLY])
  /\ map n_vars (of_classes [CORS_PREFLIGHT_ONLY] (m_notes (fst (fst (resp None))))) <> [].
Proof. vm_compute. repeat split. discriminate. Qed.
