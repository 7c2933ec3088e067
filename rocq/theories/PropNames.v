(** * Properties of field names: C11, C12, C41; misplaced fields are silent: C19. *)
From Verif Require Import PyStr Regex Grammar NoteTable Note PyLib Utils FieldAttrs Types Fields1 Fields2 Fields3 Framework Checks Message
  EvLogic NoteLemmas TestEnv LexLemmas ParamLemmas NumLemmas NameLemmas FrameLemmas PassParse PassEval PassFrame PassSec PassProc PassRun Session SessionLemmas
  SectionLemmas SecNotes SecValues LintLemmas ShunLemmas Describe FieldSpec PropFields PropValues.
From Coq Require Import ZifyBool ZifyN.
Open Scope N_scope.

(** ** C12: which class handles a field name *)
(** Names are compared in lower case, with underscores for hyphens. *)
Definition token_of (n : str) : str := map (fun c => if c =? 45 then 95 else c) (lower n).
(** Other names of some classes. *)
Definition nicknames (f : fname) : list str :=
  match f with
  | F_from_field => [u "from"]
  | F_connectiox => map u ["nncoection"; "cneonction"; "yyyyyyyyyy"; "xxxxxxxxxx"; "x_cnection"]%string
  | _ => []
  end.
Definition named (n : str) (f : fname) : Prop := In (token_of n) (u (fa_module (attrs f)) :: nicknames f).
Lemma lowc_cases c : lowc c = c \/ (lowc c = c + 32 /\ (65 <= c <= 90 \/ 192 <= c <= 222)).
Proof. unfold lowc, is_upper_ascii. destruct ((65 <=? c) && (c <=? 90)) eqn:E1; [right; lia|]. destruct (_ && negb _) eqn:E2; [right; lia|left; reflexivity]. Qed.
Lemma lowc_ascii c : (lowc c <? 128) = (c <? 128).
Proof. destruct (lowc_cases c) as [->|[-> H]]; [reflexivity|]. lia. Qed.
Lemma token_eq n : name_token n = token_of n.
Proof.
  unfold name_token, token_of, lower, replace_chr. rewrite !map_map. apply map_ext. intros c.
  destruct (N.eqb_spec c 45) as [->|H]; [reflexivity|]. destruct (lowc_cases c) as [->|[-> H2]].
  - destruct (N.eqb_spec c 45); [congruence|reflexivity].
  - destruct (N.eqb_spec (c + 32) 45); [lia|reflexivity].
Qed.
Definition known_tokens : list (str * fname) :=
  map (fun f => (u (fa_module (attrs f)), f)) module_fields ++ flat_map (fun f => map (fun a => (a, f)) (nicknames f)) [F_from_field; F_connectiox].
Definition by_token (t : str) : option fname := option_map snd (find (fun p => str_eqb (fst p) t) known_tokens).
Definition all_tokens : list str := map fst known_tokens ++ map (fun p => u (fst p)) field_aliases.
Lemma token_no_hyphen n : ~ In 45 (token_of n).
Proof.
  unfold token_of. rewrite in_map_iff. intros (c & E & _). destruct (N.eqb_spec c 45); congruence.
Qed.
Lemma find_known t : forall l : list fname, find (fun f => str_eqb (u (fa_module (attrs f))) t) l = option_map snd (find (fun p => str_eqb (fst p) t) (map (fun f => (u (fa_module (attrs f)), f)) l)).
Proof. induction l as [|f l IH]; [reflexivity|]. cbn [map find fst]. destruct (str_eqb _ _); [reflexivity|exact IH]. Qed.
Definition module_by (t : str) : option fname :=
  if startswith (u "_") t then None else find (fun f => str_eqb (u (fa_module (attrs f))) (alias t)) module_fields.
(** Outside the table of aliases, the name itself is looked up. *)
Lemma module_by_spec t f : ~ In 45 t -> In f module_fields ->
  (module_by t = Some f <-> In t (u (fa_module (attrs f)) :: nicknames f)).
Proof.
  intros Hh Hf. unfold module_by.
  assert (T : forallb (fun f => match module_by (u (fa_module (attrs f))) with Some g => fname_eqb g f | None => false end
                        && forallb (fun a => match module_by a with Some g => fname_eqb g f | None => false end) (nicknames f)) module_fields = true) by (vm_compute; reflexivity).
  rewrite forallb_forall in T. specialize (T f Hf). apply andb_prop in T as [T1 T2].
  split.
  - destruct (startswith (u "_") t) eqn:Es; [discriminate|]. intros H. apply find_some in H as [_ H]. apply str_eqb_eq in H.
    unfold alias in H. destruct (slookup t field_aliases) as [a|] eqn:Ea; [|left; exact H].
    right. unfold slookup in Ea. apply dget_In in Ea. apply in_map_iff in Ea as ([x y] & He & Hi). injection He as He <-. cbn [field_aliases In] in Hi.
    repeat (destruct Hi as [Hi|Hi]; [injection Hi as <- <-; subst t;
       first [exfalso; apply Hh; vm_compute; tauto
             |discriminate Es
             |assert (X : f = F_connectiox) by (revert H; clear; destruct f; intros H; first [reflexivity|discriminate H]); subst f; vm_compute; tauto
             |assert (X : f = F_from_field) by (revert H; clear; destruct f; intros H; first [reflexivity|discriminate H]); subst f; vm_compute; tauto]|]).
    destruct Hi.
  - assert (K : forall a, match module_by a with Some g => fname_eqb g f | None => false end = true -> module_by a = Some f).
    { intros a. destruct (module_by a); [|discriminate]. intros E. apply fname_eqb_eq in E. congruence. }
    intros [<-|H]; [apply K, T1|]. rewrite forallb_forall in T2. apply K, T2, H.
Qed.
Lemma find_module_by n : find_module n = module_by (token_of n).
Proof. unfold find_module, module_by. rewrite token_eq. reflexivity. Qed.
Theorem C12_class : forall n f, In f module_fields -> (find_class n = f <-> named n f).
Proof.
  intros n f Hf. unfold named. rewrite <- (module_by_spec (token_of n) f (token_no_hyphen n) Hf), <- find_module_by. unfold find_class.
  destruct (find_module n) as [g|]; [split; congruence|]. split; [|discriminate].
  assert (X : f <> F__deprecated /\ f <> F__unnecessary /\ f <> F__unknown).
  { repeat split; intros ->; revert Hf; vm_compute; intuition discriminate. }
  destruct X as (X1 & X2 & X3). destruct (dmem _ _); [intros; congruence|]. destruct (str_in _ _); intros; congruence.
Qed.
Print Assumptions C12_class.
Lemma no_module n : (forall f, In f module_fields -> ~ named n f) <-> find_module n = None.
Proof.
  split.
  - intros H. destruct (find_module n) as [f|] eqn:E; [|reflexivity]. exfalso.
    assert (Hf : In f module_fields). { unfold find_module in E. destruct (startswith _ _); [discriminate|]. apply find_some in E as [E _]. exact E. }
    apply (H f Hf). apply C12_class; [exact Hf|]. unfold find_class. rewrite E. reflexivity.
  - intros E f Hf H. apply C12_class in H; [|exact Hf].
    unfold find_class in H. rewrite E in H. destruct (dmem _ _); [|destruct (str_in _ _)]; subst f; revert Hf; vm_compute; intuition discriminate.
Qed.
Lemma dmem_in {A} k (l : list (string * A)) : dmem k (map (fun kv => (u (fst kv), snd kv)) l) = true <-> In k (map (fun p => u (fst p)) l).
Proof.
  unfold dmem. induction l as [|[a b] l IH]; cbn [map dget fst snd In]; [split; [discriminate|intros []]|].
  destruct (str_eqb k (u a)) eqn:E.
  - apply str_eqb_eq in E. split; auto.
  - rewrite IH. split; [auto|]. intros [H|H]; [|exact H]. rewrite <- H, str_eqb_refl in E. discriminate.
Qed.
(** ... and every other name by the generic classes. *)
Theorem C12_generic : forall n, (forall f, In f module_fields -> ~ named n f) ->
  (find_class n = F__deprecated <-> In (lower n) (map (fun p => u (fst p)) deprecated_fields))
  /\ (find_class n = F__unnecessary <-> In (lower n) (map u unnecessary_fields))
  /\ (find_class n = F__unknown <-> ~ In (lower n) (map (fun p => u (fst p)) deprecated_fields) /\ ~ In (lower n) (map u unnecessary_fields)).
Proof.
  intros n H. apply no_module in H. unfold find_class. rewrite H.
  assert (D : forall k, In k (map (fun p => u (fst p)) deprecated_fields) -> ~ In k (map u unnecessary_fields)).
  { intros k H1 H2. assert (X : forallb (fun a => negb (str_in a (map u unnecessary_fields))) (map (fun p => u (fst p)) deprecated_fields) = true) by (vm_compute; reflexivity).
    rewrite forallb_forall in X. specialize (X k H1). apply str_in_In in H2. rewrite H2 in X. discriminate. }
  pose proof (dmem_in (lower n) deprecated_fields) as Q1. pose proof (str_in_In (lower n) (map u unnecessary_fields)) as Q2.
  specialize (D (lower n)).
  destruct (dmem _ _); [|destruct (str_in _ _)].
  - assert (In (lower n) (map (fun p => u (fst p)) deprecated_fields)) by (apply Q1; reflexivity).
    repeat split; try discriminate; try tauto; intros; exfalso; tauto.
  - assert (In (lower n) (map u unnecessary_fields)) by (apply Q2; reflexivity).
    repeat split; try discriminate; try tauto; intros; exfalso; tauto.
  - assert (~ In (lower n) (map (fun p => u (fst p)) deprecated_fields)) by (intros C; apply Q1 in C; discriminate).
    assert (~ In (lower n) (map u unnecessary_fields)) by (intros C; apply Q2 in C; discriminate).
    repeat split; try discriminate; try tauto; intros; exfalso; tauto.
Qed.
Print Assumptions C12_generic.
(** Every class with a canonical name handles it, in any letter case. *)
Theorem C12_canonical : forall f c n, fa_canon (attrs f) = Some c -> lower n = lower (u c) -> find_class n = f.
Proof.
  intros f c n H E. rewrite (find_class_case n (u c) E). revert H. clear. destruct f; intros H; first [discriminate H|injection H as <-; vm_compute; reflexivity].
Qed.
Print Assumptions C12_canonical.
Example C12_ex : find_class (u "CACHE-Control") = F_cache_control /\ find_class (u "From") = F_from_field /\ find_class (u "nnCoection") = F_connectiox
  /\ find_class (u "X-UA-Compatible") = F__deprecated /\ find_class (u "x-powered-by") = F__unnecessary /\ find_class (u "X-Foo") = F__unknown.
Proof. vm_compute. repeat split. Qed.
(** Three of the aliases the code lists are never used: a name is compared after
    its hyphens were replaced. *)
Theorem C12_aliases_refuted : In ("xx-pad", "x-pad")%string field_aliases /\ find_class (u "XX-Pad") = F__unknown
  /\ find_class (u "X-Pad-For-Netscrape-Bug") = F__unknown /\ find_class (u "x-browseralignment") = F__unknown.
Proof. split; [cbn; tauto|]. vm_compute. repeat split. Qed.
Print Assumptions C12_aliases_refuted.

(** ** C11: letter case *)
Definition recased (a b : rawline) : Prop := lower (fst a) = lower (fst b) /\ snd a = snd b.
Lemma lower_filter a : lower (filter (fun c => c <? 128) a) = filter (fun c => c <? 128) (lower a).
Proof.
  unfold lower. induction a as [|c a IH]; [reflexivity|]. cbn [map filter].
  rewrite lowc_ascii. destruct (c <? 128); cbn [map]; rewrite IH; reflexivity.
Qed.
Lemma recased_key a b : recased a b -> key_of a = key_of b.
Proof. intros [H _]. unfold key_of, name_of. rewrite !lower_filter, H. reflexivity. Qed.
Lemma recased_values k l1 l2 : Forall2 recased l1 l2 -> values k l1 = values k l2.
Proof.
  unfold values. induction 1 as [|a b l1 l2 H _ IH]; [reflexivity|]. cbn [filter]. rewrite (recased_key a b H). destruct (str_eqb _ _); cbn [map]; [|exact IH].
  rewrite IH. f_equal. apply H.
Qed.
Lemma recased_fields l1 l2 : Forall2 recased l1 l2 -> fields_in l1 = fields_in l2.
Proof.
  unfold fields_in. set (g := fun (ks : list str) (r : rawline) => _). intros H. assert (G : forall ks, fold_left g l1 ks = fold_left g l2 ks); [|apply G].
  induction H as [|a b l1 l2 H _ IH]; intros ks; [reflexivity|]. cbn [fold_left]. rewrite IH. f_equal. unfold g. rewrite (recased_key a b H). reflexivity.
Qed.
Lemma recased_unpadded k l1 l2 : Forall2 recased l1 l2 -> unpadded k l1 -> unpadded k l2.
Proof. intros H [A B]. split; [exact A|]. induction H as [|a b l1 l2 H _ IH]; constructor; inversion B; subst; [rewrite <- (recased_key a b H); assumption|auto]. Qed.
Lemma ascii_lower s : ascii (lower s) = ascii s.
Proof.
  unfold ascii, lower. induction s as [|c s IH]; [reflexivity|]. cbn [map forallb]. rewrite IH, lowc_ascii. reflexivity.
Qed.
Lemma recased_report e t tr l1 l2 : Forall2 recased l1 l2 -> report_of e t tr l1 = report_of e t tr l2.
Proof.
  intros H. unfold report_of.
  assert (K : forall a b, recased a b -> raw_name a = name_of a /\ accepted t (raw_name a) = accepted t (raw_name b) /\ raw_size a = raw_size b /\ raw_key a = raw_key b).
  { intros a b R. split; [apply name_eq|]. pose proof (recased_key a b R) as E. rewrite !key_eq. split; [|split; [|exact E]].
    - rewrite !name_eq, <- (accepted_lower t (name_of a)), <- (accepted_lower t (name_of b)). unfold key_of in E. rewrite E. reflexivity.
    - unfold raw_size. destruct R as [R1 R2]. rewrite R2. do 2 f_equal. rewrite <- (map_length lowc (fst a)), <- (map_length lowc (fst b)). f_equal. exact R1. }
  assert (PL : forall o, Forall2 (fun x y => recased (fst x) (fst y) /\ snd x = snd y) (placed t o l1) (placed t o l2)).
  { clear - H K. induction H as [|a b l1 l2 H _ IH]; intros o; cbn [placed]; constructor; [auto|]. destruct (K a b H) as (_ & -> & _). apply IH. }
  assert (LR : forall x y, recased (fst x) (fst y) /\ snd x = snd y -> line_report t x = line_report t y).
  { intros [a o] [b o'] [R Eo]. cbn [fst snd] in *. subst o'. destruct (K a b R) as (_ & Ka & Ks & Kk). unfold line_report.
    unfold size_report. rewrite Ka, Ks. destruct R as [R1 R2]. assert (Ev : raw_value a = raw_value b) by (rewrite !value_eq; exact R2). rewrite Ev.
    assert (Ec : find_class (raw_name a) = find_class (raw_name b)) by (apply find_class_case; exact Kk). rewrite Ec.
    assert (En : enc_report a = enc_report b).
    { unfold enc_report, decode_ascii_strict. rewrite R2, (is_ascii_ascii (fst a)), (is_ascii_ascii (fst b)), (is_ascii_ascii (snd b)), <- (ascii_lower (fst a)), R1, ascii_lower. destruct (ascii (fst b)), (ascii (snd b)); reflexivity. }
    assert (Nn : name_report t (raw_name a) = name_report t (raw_name b)).
    { unfold name_report. rewrite Ec, (tok_strip_case (raw_name a) (raw_name b)) by exact Kk. reflexivity. }
    rewrite En, Nn. reflexivity. }
  f_equal; [|f_equal].
  - specialize (PL 0%nat). induction PL as [|x y p q R _ IH]; [reflexivity|]. cbn [flat_map]. rewrite (LR x y R), IH. reflexivity.
  - unfold section_report. assert (S : sum_sizes l1 = sum_sizes l2).
    { clear - H K. unfold sum_sizes. induction H as [|a b l1 l2 H _ IH]; [reflexivity|]. cbn [fold_right]. destruct (K a b H) as (_ & _ & -> & _). rewrite IH. reflexivity. }
    rewrite S. reflexivity.
  - rewrite !fields_eq, (recased_fields l1 l2 H). apply flat_map_ext. intros k. f_equal. unfold lines_of.
    specialize (PL 0%nat). induction PL as [|x y p q R _ IH]; [reflexivity|]. destruct R as [R1 R2].
    assert (Ky : keyed k x = keyed k y) by (unfold keyed; destruct (K _ _ R1) as (_ & _ & _ & ->); reflexivity).
    cbn [filter]. rewrite Ky. destruct (keyed k y); cbn [map]; [|exact IH]. rewrite IH. f_equal. unfold input_of. rewrite !value_eq, R2. destruct R1 as [_ R1].
    unfold value_of. rewrite R1. reflexivity.
Qed.
(** Writing field names in another letter case changes no parsed value and no
    note of the framework, nor what it is about. *)
Theorem C11_recase : forall e t start base h1 t1 m1 h2 t2 m2,
  run_of e t start base h1 t1 m1 -> run_of e t start base h2 t2 m2 -> Forall2 recased h1 h2 -> Forall2 recased t1 t2 ->
  (forall tr k, unpadded k (section_lines tr h1 t1) -> value_in tr k m1 = value_in tr k m2)
  /\ (forall c, framework c = true -> subjects c (m_notes m1) = subjects c (m_notes m2)).
Proof.
  intros e t start base h1 t1 m1 h2 t2 m2 R1 R2 H T. split.
  - intros tr k U. assert (Rt : Forall2 recased (section_lines tr h1 t1) (section_lines tr h2 t2)) by (destruct tr; assumption).
    apply (C33_values e t start base h1 t1 m1 h2 t2 m2 tr tr k R1 R2 U (recased_unpadded k _ _ Rt U) (recased_values k _ _ Rt)).
  - intros c Hc. destruct R1 as (rel & top & ch & co & nc & hd & rel' & E1). destruct R2 as (relb & topb & chb & cob & ncb & hdb & relb' & E2).
    rewrite !(subjects_pick c) by exact Hc. rewrite (lint_report _ _ _ _ _ _ _ _ _ _ _ _ _ _ E1), (lint_report _ _ _ _ _ _ _ _ _ _ _ _ _ _ E2).
    rewrite (recased_report e t false h1 h2 H), (recased_report e t true t1 t2 T). reflexivity.
Qed.
Print Assumptions C11_recase.
(** One handler for each name in lower case. *)
Lemma finish_all_keys e rel tr l : forall m m', incl (keys l) (keys (s_handlers (sec tr m))) -> Forall (lined (m_type m)) l -> finish_all e rel tr m l = (m', Ok tt) ->
  keys (s_handlers (sec tr m')) = keys (s_handlers (sec tr m)).
Proof.
  induction l as [|[k h] l IH]; intros m m' Hi Hl E; cbn [finish_all] in E; [injection E as <-; reflexivity|]. inversion Hl; subst.
  destruct (finish_one e rel tr m (k, h)) as [m1 [[]|x]] eqn:E1; [|discriminate].
  destruct (finish_one_facts e rel tr m k h m1 ltac:(assumption) E1) as (evs & h' & _ & _ & _ & _ & _ & _ & S1 & _ & _ & _ & _ & _ & T1).
  assert (K : keys (s_handlers (sec tr m1)) = keys (s_handlers (sec tr m))).
  { rewrite S1, keys_dset_in. replace (str_in k (keys (s_handlers (sec tr m)))) with true; [reflexivity|]. symmetry. apply str_in_In, Hi. left. reflexivity. }
  rewrite (IH m1 m'); [exact K| |rewrite T1; assumption|exact E]. rewrite K. intros a Ha. apply Hi. right. exact Ha.
Qed.
Theorem C11_handlers : forall e t start base hs ts m', run_of e t start base hs ts m' ->
  keys (s_handlers (m_headers m')) = fields_in hs /\ keys (s_handlers (m_trailers m')) = fields_in ts
  /\ NoDup (fields_in hs) /\ NoDup (fields_in ts)
  /\ (forall k l, In k (fields_in l) <-> exists r, In r l /\ key_of r = k).
Proof.
  intros e t start base hs ts m' (rel & top & ch & co & nc & hd & rel' & E).
  destruct (lint_sections _ _ _ _ _ _ _ _ _ _ _ _ _ _ E) as (mh & mh' & mt & mt' & S).
  destruct S as (H1 & H2 & H3 & T1 & T2 & T3 & _).
  assert (X : forall rel tr m raws m'', sec tr m = new_section tr -> process e rel tr m raws = (m'', Ok tt) -> keys (s_handlers (sec tr m'')) = fields_in raws).
  { intros rel0 tr m raws m'' Hs Ep. destruct (process_lines e rel0 tr m raws m'' Hs Ep) as (m1 & E1 & Ty & St & E2 & S1 & Ks & Hh & Ef).
    rewrite <- fields_eq, <- Ks, <- E2. apply (finish_all_keys e rel0 tr (s_handlers (sec tr m1)) (section_size tr m1) m''); [rewrite E2; apply incl_refl| |exact Ef].
    assert (T4 : m_type (section_size tr m1) = m_type m) by (unfold section_size; destruct (_ <? _); exact Ty). rewrite T4. apply S1. }
  pose proof (X rel false mh hs mh' H1 H2) as K1. pose proof (X rel true mt ts mt' T1 T2) as K2. cbn [sec] in K1, K2. rewrite H3, T3.
  assert (M : forall l ks, (forall k, In k (fold_left (fun ks r => if str_in (key_of r) ks then ks else ks ++ [key_of r]) l ks) <-> In k ks \/ exists r, In r l /\ key_of r = k)).
  { clear. induction l as [|r l IH]; intros ks k; cbn [fold_left].
    - split; [auto|intros [H|(r & [] & _)]; exact H].
    - rewrite IH. destruct (str_in (key_of r) ks) eqn:Ei.
      + split; [intros [H|(r' & H & K)]; [auto|right; exists r'; split; [right; exact H|exact K]]|].
        intros [H|(r' & [->|H] & K)]; [auto|left; apply str_in_In in Ei; congruence|right; eauto].
      + rewrite in_app_iff. cbn [In]. split.
        * intros [[H|[H|[]]]|(r' & H & K)]; [auto|right; exists r; split; [left; reflexivity|exact H]|right; exists r'; split; [right; exact H|exact K]].
        * intros [H|(r' & [->|H] & K)]; [auto|auto|right; eauto]. }
  assert (N : forall l : list rawline, NoDup (fields_in l)).
  { clear. unfold fields_in. assert (G : forall l ks, NoDup ks -> NoDup (fold_left (fun ks (r : rawline) => if str_in (key_of r) ks then ks else ks ++ [key_of r]) l ks)).
    { induction l as [|r l IH]; intros ks Hk; cbn [fold_left]; [exact Hk|]. apply IH. destruct (str_in (key_of r) ks) eqn:Ei; [exact Hk|].
      assert (Ni : ~ In (key_of r) ks) by (intros C; apply str_in_In in C; congruence). clear - Hk Ni. induction ks as [|x ks IH]; cbn [app]; [repeat constructor; auto|].
      inversion Hk; subst. constructor; [|apply IH; [assumption|intros C; apply Ni; right; exact C]]. rewrite in_app_iff. cbn [In]. intros [C|[C|[]]]; [auto|]. apply Ni. left. congruence. }
    intros l. apply G. constructor. }
  split; [exact K1|]. split; [exact K2|]. split; [apply N|]. split; [apply N|]. intros k l. unfold fields_in. rewrite M. cbn [In]. tauto.
Qed.
Print Assumptions C11_handlers.
Lemma deprecated_listed n : find_class n = F__deprecated -> dep_info (h_norm (new_handler n)) <> None.
Proof.
  cbn [new_handler h_norm]. unfold dep_info, find_class. destruct (find_module n) as [g|] eqn:Em.
  - intros ->. unfold find_module in Em. destruct (startswith _ _); [discriminate|]. exfalso. apply find_some in Em as [Em _]. revert Em. clear. vm_compute. intuition discriminate.
  - destruct (dmem (lower n) _) eqn:Ei; [|destruct (str_in _ _); discriminate]. intros _.
    apply dmem_in in Ei. assert (X : forall k, In k (map (fun p => u (fst p)) deprecated_fields) -> slookup (strip k) deprecated_fields <> None).
    { intros k Hk. assert (Y : forallb (fun k => match slookup (strip k) deprecated_fields with Some _ => true | None => false end) (map (fun p => u (fst p)) deprecated_fields) = true) by (vm_compute; reflexivity).
      rewrite forallb_forall in Y. specialize (Y k Hk). intros Z. rewrite Z in Y. discriminate. }
    apply X in Ei. rewrite strip_lower in Ei. exact Ei.
Qed.
Lemma describe_plain f canon norm ref canon' ref' : f <> F__deprecated -> describe_as f canon norm ref = describe_as f canon' norm ref'.
Proof. destruct f; intros H; try reflexivity. destruct (H eq_refl). Qed.
Theorem C11_description : forall a b, lower a = lower b -> get_field_description a = get_field_description b.
Proof.
  intros a b E. unfold get_field_description. rewrite (find_class_case a b E). destruct (fname_eqb _ _); [reflexivity|].
  assert (N : h_norm (new_handler a) = h_norm (new_handler b)) by (cbn [new_handler h_norm]; rewrite <- !strip_lower, E; reflexivity).
  assert (C : h_cls (new_handler a) = h_cls (new_handler b)) by (apply (find_class_case a b E)).
  assert (X : describe a = describe b); [|rewrite X; reflexivity].
  unfold describe. cbv zeta. rewrite C, N. destruct (fname_eqb (find_class b) F__deprecated) eqn:D.
  - apply fname_eqb_eq in D. pose proof (deprecated_listed b D) as L.
    assert (K : h_canon (new_handler a) = h_canon (new_handler b)).
    { cbn [new_handler h_canon h_norm] in *. rewrite (find_class_case a b E), D, N. destruct (dep_info _) as [[[? ?] ?]|] eqn:Ed; [reflexivity|destruct (L eq_refl)]. }
    assert (H : handler_ref (new_handler a) = handler_ref (new_handler b)) by (unfold handler_ref; rewrite N, C; reflexivity).
    rewrite K, H. reflexivity.
  - apply describe_plain. cbn [new_handler h_cls]. intros H. rewrite H in D. discriminate.
Qed.
Print Assumptions C11_description.
(** ** C41: descriptions *)
Lemma described f canon norm ref : f <> F__unnecessary -> describe_as f canon norm ref <> [].
Proof. destruct f; intros H; try discriminate. destruct (H eq_refl). Qed.
Theorem C41_known : forall n, find_class n <> F__unknown -> exists d, get_field_description n = Some d /\ d <> [].
Proof.
  intros n H. unfold get_field_description.
  assert (X : describe n <> []).
  { unfold describe. cbv zeta. cbn [new_handler h_cls]. destruct (fname_eqb (find_class n) F__unnecessary) eqn:D.
    2: { apply described. intros C. rewrite C in D. discriminate. }
    apply fname_eqb_eq in D. rewrite D. cbn [describe_as new_handler h_norm]. unfold find_class in D. destruct (find_module n) as [g|] eqn:Em.
    - subst g. unfold find_module in Em. destruct (startswith _ _); [discriminate|]. exfalso. apply find_some in Em as [Em _]. revert Em. clear. vm_compute. intuition discriminate.
    - destruct (dmem _ _); [discriminate|]. destruct (str_in _ _) eqn:Ei; [|discriminate]. apply str_in_In in Ei. rewrite <- strip_lower.
      assert (Y : forallb (fun k => match slookup (strip k) unnecessary_texts with Some (String _ _) => true | _ => false end) (map u unnecessary_fields) = true) by (vm_compute; reflexivity).
      rewrite forallb_forall in Y. specialize (Y _ Ei). destruct (slookup _ _) as [[|? ?]|]; discriminate. }
  destruct (fname_eqb _ _) eqn:U; [apply fname_eqb_eq in U; destruct (H U)|].
  destruct (describe n) as [|c d]; [destruct (X eq_refl)|]. exists (c :: d). split; [reflexivity|discriminate].
Qed.
Print Assumptions C41_known.
Theorem C41_unknown : forall n, find_class n = F__unknown -> get_field_description n = None.
Proof. intros n H. unfold get_field_description. rewrite H. reflexivity. Qed.
Print Assumptions C41_unknown.
Example C41_ex : get_field_description (u "x-powered-BY") = Some (u "x-powered-by reveals the technology used to generate the response.")
  /\ get_field_description (u "X-Foo") = None.
Proof. vm_compute. split; reflexivity. Qed.

(** ** C19: none of a misplaced field's own notes *)
Definition module_file (f : fname) : string := ("field/parsers/" ++ fa_module (attrs f) ++ ".py")%string.
Definition from_module (f : fname) (n : nid) : bool := String.eqb (nid_file n) (module_file f).
Definition misplaced_ok (t : mtype) (f : fname) : bool :=
  if allowed t f then true else match kind_of f with KBroken => true | _ => strange_b t (from_module f) && quiet_b (from_module f) end.
Lemma all_misplaced : forallb (fun f => misplaced_ok MRequest f && misplaced_ok MResponse f && misplaced_ok MMessage f) module_fields = true.
Proof. vm_compute. reflexivity. Qed.
Theorem C19_silent : forall e rel top headers chunks complete trailers t start nc head base m' rel' f,
  lint e rel top headers chunks complete trailers (new_linter t start nc head base) = (m', rel', Ok tt) ->
  allowed t f = false -> f <> F_cookie -> f <> F_set_cookie ->
  forall n, In n (m_notes m') -> nid_file (n_cls n) <> module_file f.
Proof.
  intros e rel top headers chunks complete trailers t start nc head base m' rel' f E Ha K1 K2 n Hn Hf.
  assert (X : strange_b t (from_module f) && quiet_b (from_module f) = true).
  { assert (Y : misplaced_ok t f = true).
    { destruct (module_fields_complete f) as [->|[->|[->|Hi]]]; [destruct t; discriminate Ha..|].
      pose proof all_misplaced as A. rewrite forallb_forall in A. specialize (A f Hi). apply andb_prop in A as [A A3]. apply andb_prop in A as [A1 A2]. destruct t; assumption. }
    unfold misplaced_ok in Y. rewrite Ha in Y. destruct (kind_of f) eqn:K; try exact Y.
    exfalso. clear - K K1 K2. destruct f; try discriminate K; congruence. }
  apply andb_prop in X as [X1 X2].
  pose proof (lint_strange (from_module f) _ _ _ _ _ _ _ _ _ _ _ _ _ _ E (strange_b_ok _ _ X1) (quiet_b_ok _ X2)) as S.
  assert (In n (sel (from_module f) (m_notes m'))) as I0.
  { unfold sel. apply filter_In. split; [exact Hn|]. unfold from_module. rewrite Hf. apply String.eqb_refl. }
  rewrite S in I0. destruct I0.
Qed.
Print Assumptions C19_silent.
