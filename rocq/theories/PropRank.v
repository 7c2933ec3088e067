(** * C39: the result does not depend on Python's hash seed *)
From Coq Require Import Permutation.
From Verif Require Import PyStr NoteTable Note Utils Types Framework Message Session TestEnv RankSpec RankLemmas RankRun PassFrame.
Open Scope N_scope.

(** Linting the same calls in two processes that iterate sets in different orders
    (and so, possibly, against related linters that differ in that way): the same
    linter state, the same related linter, the same exception or none; every note
    of the first run is in the second, in the same order but for the classes of
    [unordered]. *)
Theorem C39_order : forall order e rel rel' top headers chunks complete trailers m m',
  same_related rel rel' -> same_linter m m' ->
  let '(m1, rel1, r1) := lint e rel top headers chunks complete trailers m in
  let '(m2, rel2, r2) := lint (with_order order e) rel' top headers chunks complete trailers m' in
  same_linter m1 m2 /\ same_related rel1 rel2 /\ r2 = r1.
Proof.
  intros order e rel rel' top headers chunks complete trailers m m' R H. pose proof (lint_same order e rel rel' top headers chunks complete trailers m m' R H) as S.
  destruct (lint e rel _ _ _ _ _ m) as [[m1 q1] r1], (lint (with_order order e) rel' _ _ _ _ _ m') as [[m2 q2] r2]. exact S.
Qed.
Print Assumptions C39_order.

(** An exchange: a request, then the response to it. *)
Theorem C39_exchange : forall order e start nc base top headers chunks complete trailers start2 nc2 head2 base2 top2 headers2 chunks2 complete2 trailers2,
  let exchange e :=
    let '(q, _, r) := lint e None top headers chunks complete trailers (new_linter MRequest start nc false base) in
    let '(s, q2, r2) := lint e (Some q) top2 headers2 chunks2 complete2 trailers2 (new_linter MResponse start2 nc2 head2 base2) in
    (r, r2, q2, s) in
  let '(r, r2, q, s) := exchange e in
  let '(r', r2', q', s') := exchange (with_order order e) in
  r' = r /\ r2' = r2 /\ same_related q q' /\ same_linter s s'.
Proof.
  intros order e start nc base top headers chunks complete trailers start2 nc2 head2 base2 top2 headers2 chunks2 complete2 trailers2. cbv beta zeta.
  pose proof (C39_order order e None None top headers chunks complete trailers _ _ I (same_refl (new_linter MRequest start nc false base))) as S.
  destruct (lint (with_order order e) None top headers chunks complete trailers (new_linter MRequest start nc false base)) as [[m2 q2] r2].
  destruct (lint e None top headers chunks complete trailers (new_linter MRequest start nc false base)) as [[m1 q1] r1]. destruct S as (S1 & _ & ->).
  pose proof (C39_order order e (Some m1) (Some m2) top2 headers2 chunks2 complete2 trailers2 _ _ S1 (same_refl (new_linter MResponse start2 nc2 head2 base2))) as S.
  destruct (lint (with_order order e) (Some m2) top2 headers2 chunks2 complete2 trailers2 (new_linter MResponse start2 nc2 head2 base2)) as [[m4 q4] r4].
  destruct (lint e (Some m1) top2 headers2 chunks2 complete2 trailers2 (new_linter MResponse start2 nc2 head2 base2)) as [[m3 q3] r3]. destruct S as (S3 & S4 & ->).
  split; [reflexivity|]. split; [reflexivity|]. split; [exact S4|exact S3].
Qed.
Print Assumptions C39_exchange.

(** What [same_linter] means for a user: the same values and state, and the same
    notes up to their order. *)
Lemma rearranged_count (f : note -> bool) l l' : (forall n n', same_note_but_order n n' -> f n' = f n) -> rearranged same_note_but_order l l' ->
  length (filter f l') = length (filter f l).
Proof.
  intros Hf (l0 & P & F). transitivity (length (filter f l0)).
  - clear P. induction F as [|x y a b Hx F IH]; [reflexivity|]. cbn [filter]. rewrite (Hf x y Hx). destruct (f x); cbn [length]; rewrite IH; reflexivity.
  - symmetry. apply Permutation_length, filter_perm, P.
Qed.
Lemma part_count {A} (P f : A -> bool) l : length (filter f l) = (length (filter f (filter P l)) + length (filter f (filter (fun x => negb (P x)) l)))%nat.
Proof. induction l as [|x l IH]; [reflexivity|]. cbn [filter]. destruct (P x); cbn [negb filter]; destruct (f x); cbn [length]; lia. Qed.
Theorem C39_observed : forall m m', same_linter m m' ->
  s_parsed (m_headers m') = s_parsed (m_headers m) /\ s_parsed (m_trailers m') = s_parsed (m_trailers m) /\ s_text (m_headers m') = s_text (m_headers m)
  /\ m_caching m' = m_caching m /\ m_uri m' = m_uri m /\ m_clen m' = m_clen m /\ m_hash m' = m_hash m /\ m_dec_hash m' = m_dec_hash m /\ m_sample m' = m_sample m
  /\ length (m_notes m') = length (m_notes m)
  /\ (forall c, length (filter (fun n => nid_eqb (n_cls n) c) (m_notes m')) = length (filter (fun n => nid_eqb (n_cls n) c) (m_notes m)))
  /\ (forall n, In n (m_notes m) -> exists n', In n' (m_notes m') /\ same_note_but_order n n')
  /\ (forall n', In n' (m_notes m') -> exists n, In n (m_notes m) /\ same_note_but_order n n').
Proof.
  intros m m' [H [H1 H2]].
  assert (G : forall f, (forall n n', same_note_but_order n n' -> f n' = f n) -> length (filter f (m_notes m')) = length (filter f (m_notes m))).
  { intros f Hf. rewrite (part_count (fun n => existsb (nid_eqb (n_cls n)) unordered) f (m_notes m)), (part_count (fun n => existsb (nid_eqb (n_cls n)) unordered) f (m_notes m')).
    change (filter (fun x : note => negb (existsb (nid_eqb (n_cls x)) unordered))) with ordered_notes. rewrite H1. f_equal.
    apply rearranged_count; [exact Hf|exact H2]. }
  assert (T : forall l : list note, filter (fun _ => true) l = l) by (induction l as [|x l IH]; cbn; congruence).
  assert (S : forall n ns, In n ns <-> In n (ordered_notes ns) \/ In n (unordered_notes ns)).
  { intros n ns. unfold ordered_notes, unordered_notes. rewrite !filter_In. destruct (existsb _ _); cbn; intuition congruence. }
  destruct H2 as (l0 & P & F).
  repeat match goal with |- _ /\ _ => split end; try (rewrite H; reflexivity).
  - rewrite <- (T (m_notes m)), <- (T (m_notes m')). apply G. reflexivity.
  - intros c. apply G. intros n n' [->|(E1 & E2 & _)]; [reflexivity|rewrite E1, E2; reflexivity].
  - intros n Hn. apply S in Hn as [Hn|Hn]; [exists n; split; [apply S; left; rewrite H1; exact Hn|left; reflexivity]|].
    apply (Permutation_in _ P) in Hn. assert (X : exists n', In n' (unordered_notes (m_notes m')) /\ same_note_but_order n n').
    { clear P. induction F as [|x y a b Hx F IH]; [destruct Hn|]. destruct Hn as [->|Hn]; [exists y; split; [left; reflexivity|exact Hx]|]. destruct (IH Hn) as (z & Hz & Hs). exists z. split; [right; exact Hz|exact Hs]. }
    destruct X as (n' & Hn' & Hs). exists n'. split; [apply S; right; exact Hn'|exact Hs].
  - intros n' Hn. apply S in Hn as [Hn|Hn]; [exists n'; split; [apply S; left; rewrite <- H1; exact Hn|left; reflexivity]|].
    assert (X : exists n, In n l0 /\ same_note_but_order n n').
    { clear P. induction F as [|x y a b Hx F IH]; [destruct Hn|]. destruct Hn as [->|Hn]; [exists x; split; [left; reflexivity|exact Hx]|]. destruct (IH Hn) as (z & Hz & Hs). exists z. split; [right; exact Hz|exact Hs]. }
    destruct X as (n & Hl & Hs). exists n. split; [apply S; right; apply (Permutation_in n (Permutation_sym P)), Hl|exact Hs].
Qed.
Print Assumptions C39_observed.

(** The order does show: two seeds, two orders of notes, and two texts of one note. *)
Definition by_length (s : str) : N := N.of_nat (length s).
Definition by_shortness (s : str) : N := 100 - N.of_nat (length s).
Definition in_order (order : str -> N) (h : list (string * string)) : mstate :=
  fst (fst (lint (with_order order env0) None (TopResponse (u "1.1") (u "200") None) (map (fun h => (u (fst h), u (snd h))) h) [] true []
       (new_linter MResponse None false false []))).
Definition of_class (c : nid) (k : string) (m : mstate) : list (option pyval) :=
  map (fun n => dget (u k) (n_vars n)) (filter (fun n => nid_eqb (n_cls n) c) (m_notes m)).
Example C39_ex :
  let h := [("Content-Language", "en, fr-CA, en, fr-CA"); ("Cache-Control", "no-store, max-age=3, public")]%string in
  of_class CONTENT_LANGUAGE_DUP "lang" (in_order by_length h) = [Some (VStr (u "en")); Some (VStr (u "fr-ca"))]
  /\ of_class CONTENT_LANGUAGE_DUP "lang" (in_order by_shortness h) = [Some (VStr (u "fr-ca")); Some (VStr (u "en"))]
  /\ of_class CC_CONFLICTING "conflicts" (in_order by_length h) = [Some (markdown_list [u "public"; u "max-age"] (u "`"))]
  /\ of_class CC_CONFLICTING "conflicts" (in_order by_shortness h) = [Some (markdown_list [u "max-age"; u "public"] (u "`"))].
Proof. vm_compute. repeat split. Qed.
