(** * Field names: which class a name resolves to. *)
From Verif Require Import PyStr Regex Grammar Note PyLib Utils FieldAttrs Types Framework
  NoteLemmas LexLemmas ParamLemmas NumLemmas.
From Coq Require Import ZifyBool ZifyN.
Open Scope N_scope.

Lemma lowc_lowc c : lowc (lowc c) = lowc c.
Proof.
  destruct (N.eq_dec (lowc (lowc c)) (lowc c)) as [E|E]; [exact E|exfalso].
  destruct (N.eq_dec (lowc c) c) as [E2|E2]; [congruence|].
  apply lowc_other in E as [E _]. apply lowc_other in E2 as [E2 E3].
  rewrite E3 in E. unfold is_upper_ascii in *. lia.
Qed.
Lemma lower_lower s : lower (lower s) = lower s.
Proof. unfold lower. rewrite map_map. apply map_ext. apply lowc_lowc. Qed.

Definition swap (c : N) : N := if c =? 45 then 95 else c.
Lemma swap_lowc c : lowc (swap (lowc c)) = lowc (swap c).
Proof.
  unfold swap. destruct (N.eq_dec (lowc c) c) as [E|E]; [rewrite E; reflexivity|].
  destruct (lowc_other _ E) as [H1 H2]. unfold is_upper_ascii in H1.
  replace (lowc c =? 45) with false by lia. replace (c =? 45) with false by lia. apply lowc_lowc.
Qed.
Lemma token_swap s : name_token s = map (fun c => lowc (swap c)) s.
Proof. unfold name_token, lower, replace_chr. rewrite map_map. reflexivity. Qed.
Lemma name_token_lower s : name_token (lower s) = name_token s.
Proof. rewrite !token_swap. unfold lower. rewrite map_map. apply map_ext. apply swap_lowc. Qed.
Lemma find_class_lower s : find_class (lower s) = find_class s.
Proof. unfold find_class, find_module. rewrite name_token_lower, lower_lower. reflexivity. Qed.
Lemma find_class_case a b : lower a = lower b -> find_class a = find_class b.
Proof. intros H. rewrite <- (find_class_lower a), <- (find_class_lower b), H. reflexivity. Qed.

(** A name with a class of its own is a token. *)
Definition tok (s : str) : bool := nonempty s && forallb tchar s.
Lemma tok_token s : tok s = true <-> token s.
Proof. unfold tok, token. destruct s; cbn [nonempty]; rewrite andb_true_iff; intuition congruence. Qed.
Lemma tchar_lowc c : tchar (lowc c) = true -> tchar c = true.
Proof.
  destruct (N.eq_dec (lowc c) c) as [E|E]; [rewrite E; auto|].
  destruct (lowc_other _ E) as [[H|H] H2]; intros Ht; rewrite <- f_tchar_ok in *.
  - unfold is_upper_ascii in H. unfold f_tchar, in_ranges in *. cbn [existsb fst snd] in *. lia.
  - rewrite f_tchar_ok in Ht. apply tchar_facts in Ht. lia.
Qed.
Lemma tchar_swap c : tchar (lowc (swap c)) = true -> tchar c = true.
Proof.
  intros H. apply tchar_lowc in H. unfold swap in H. destruct (c =? 45) eqn:E; [|exact H].
  apply N.eqb_eq in E. subst. reflexivity.
Qed.
Lemma tok_lower s : tok (lower s) = true -> tok s = true.
Proof.
  unfold tok, lower. destruct s as [|c s]; [auto|]. cbn [nonempty map andb]. rewrite !forallb_forall.
  intros H x Hx. apply tchar_lowc, H. change (In (lowc x) (map lowc (c :: s))). apply in_map, Hx.
Qed.
Lemma tok_swap s : tok (name_token s) = true -> tok s = true.
Proof.
  rewrite token_swap. unfold tok. destruct s as [|c s]; [auto|]. cbn [nonempty map andb]. rewrite !forallb_forall.
  intros H x Hx. apply tchar_swap, H. change (In (lowc (swap x)) (map (fun c => lowc (swap c)) (c :: s))).
  apply in_map with (f := fun c => lowc (swap c)), Hx.
Qed.
Lemma slookup_keys {A} k (l : list (string * A)) v (P : str -> bool) :
  slookup k l = Some v -> forallb (fun kv => P (u (fst kv))) l = true -> P k = true.
Proof.
  unfold slookup. intros H Hl. apply dget_In, in_map_iff in H as (kv & E & Hin).
  rewrite forallb_forall in Hl. specialize (Hl _ Hin). injection E as <- _. exact Hl.
Qed.
Lemma module_tok f : In f module_fields -> tok (u (fa_module (attrs f))) = true.
Proof.
  revert f. apply forallb_forall. vm_compute. reflexivity.
Qed.
Lemma find_class_tok s : find_class s <> F__unknown -> tok s = true.
Proof.
  unfold find_class, find_module. set (t := name_token s). intros H.
  destruct (startswith (u "_") t) eqn:Es.
  2: destruct (find _ module_fields) as [f|] eqn:E.
  2: { apply find_some in E as [Hf E]. apply str_eqb_eq in E. apply tok_swap. fold t.
       unfold alias in E. destruct (slookup t field_aliases) as [x|] eqn:El.
       - apply (slookup_keys _ _ _ tok El). vm_compute. reflexivity.
       - rewrite <- E. apply module_tok, Hf. }
  all: destruct (dmem (lower s) _) eqn:E1;
    [apply tok_lower; apply dmem_In in E1; rewrite <- dget_Some_in in E1; destruct E1 as [v E1];
     apply (slookup_keys _ deprecated_fields v tok E1); vm_compute; reflexivity|].
  all: destruct (str_in (lower s) _) eqn:E2; [|congruence].
  all: apply tok_lower; apply str_in_In in E2; apply in_map_iff in E2 as (x & <- & Hx).
  all: revert x Hx; clear.
  all: assert (H : forallb (fun x => tok (u x)) unnecessary_fields = true) by (vm_compute; reflexivity).
  all: rewrite forallb_forall in H; exact H.
Qed.
Lemma tok_strip s : tok s = true -> strip s = s.
Proof.
  rewrite tok_token. intros [_ H]. apply strip_nospace. rewrite forallb_forall in *. intros c Hc.
  apply negb_true_iff, tchar_facts, H, Hc.
Qed.
Lemma tok_match s : tok s = true -> match_dollar (nocase rfc9110_token) s = true.
Proof. rewrite tok_token. intros H. apply token_match. left. exact H. Qed.
