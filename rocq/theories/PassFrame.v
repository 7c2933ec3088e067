(** * From the parsers to a whole field section. *)
From Verif Require Import PyStr Regex Grammar Note PyLib Utils FieldAttrs Types Fields1 Fields2 Fields3 Framework
  Spans EvLogic NoteLemmas LexLemmas ParamLemmas NumLemmas NameLemmas PassParse PassEval PassSF.
Open Scope N_scope.

(** ** Which events keep every note renderable *)
Definition str_vars (b : vars) : Prop := Forall (fun kv => is_vstr (snd kv)) b.
(** The variables every note of a field section has. *)
Definition base_vars (b : vars) : Prop := str_vars b /\ incl (keys b) common_keys.
Definition gsev (s : sev) : Prop :=
  let '(_, base, e) := s in
  base_vars base /\
  match e with
  | ENote n _ vrs kids =>
      note_ok n (base_msg ++ keys base) vrs
      /\ (kids = [] \/ incl (keys vrs) parent_keys)
      /\ Forall (fun k => note_ok (fst k) (base_msg ++ keys base) (snd k) /\ timed n = false /\ kid_open n (fst k) = true) kids
  | EMsg _ n vrs => note_ok n base_msg vrs
  | EKid p n vrs =>
      note_ok n base_msg vrs /\ timed p = false /\ forallb (fun k => str_in k (open_keys p)) (open_keys n) = true
  | EDefer _ _ _ | EMark _ => True
  end.
(** The variables of a note of class [n]. *)
Definition nvars_ok (n : nid) (v : vars) : Prop :=
  covered n (keys v) = true /\ Forall (kv_ok n) v /\ In k_message_type (keys v).
Definition note_good (n : note) : Prop :=
  nvars_ok (n_cls n) (n_vars n) /\ Forall (fun k => nvars_ok (fst k) (snd k)) (n_kids n).

Lemma covered_incl n a b : incl a b -> covered n a = true -> covered n b = true.
Proof.
  unfold covered. rewrite !forallb_forall. intros Hi H k Hk. apply str_in_In, Hi, str_in_In, H, Hk.
Qed.
Lemma keys_default t : keys (default_vars t) = base_msg. Proof. reflexivity. Qed.
Lemma str_pv n b : str_vars b -> Forall (fun kv => pv_ok n (snd kv)) b.
Proof. apply Forall_impl. intros [k v] [s H]. cbn in *. subst. exact I. Qed.
Lemma base_kv n b : base_vars b -> Forall (kv_ok n) b.
Proof.
  intros [Hs Hk]. apply (str_pv n) in Hs. rewrite Forall_forall in *. intros kv Hkv. split; [exact (Hs kv Hkv)|].
  rewrite open_common; [discriminate|]. apply Hk. apply in_map, Hkv.
Qed.
Lemma default_kv n t : Forall (kv_ok n) (default_vars t).
Proof. apply base_kv. split; [constructor; [eexists; reflexivity|constructor]|]. intros k [<-|[]]. left. reflexivity. Qed.
Lemma kv_dupdate n (a b : vars) : Forall (kv_ok n) a -> Forall (kv_ok n) b -> Forall (kv_ok n) (dupdate a b).
Proof. rewrite !Forall_forall. intros Ha Hb kv H. apply in_dupdate in H as [H|H]; auto. Qed.
Lemma untimed_pv n n' v : timed n = false -> pv_ok n v -> pv_ok n' v.
Proof. destruct v; cbn; auto. congruence. Qed.
Lemma nvars_base t n base vrs : base_vars base -> note_ok n (base_msg ++ keys base) vrs ->
  nvars_ok n (dupdate (default_vars t) (dupdate base vrs)).
Proof.
  intros Hb [H1 H2]. split; [|split].
  - revert H1. apply covered_incl. intros k Hk. rewrite !in_keys_dupdate, keys_default.
    rewrite <- app_assoc in Hk. apply in_app_iff in Hk as [Hk|Hk]; [auto|]. apply in_app_iff in Hk. tauto.
  - apply kv_dupdate; [apply default_kv|]. apply kv_dupdate; [apply base_kv, Hb|exact H2].
  - rewrite in_keys_dupdate. left. left. reflexivity.
Qed.
(** The parent's variables that are outside a code span of the sub-note were so in the parent. *)
Lemma nvars_kid n n' (v vrs : vars) : timed n = false -> nvars_ok n v ->
  (forall k, In k (keys v) -> str_in k (open_keys n') = true -> str_in k (open_keys n) = true) ->
  covered n' (keys v ++ keys vrs) = true -> Forall (kv_ok n') vrs ->
  nvars_ok n' (dupdate v vrs).
Proof.
  intros Ht (H1 & H2 & H3) Ho H4 H5. split; [|split].
  - revert H4. apply covered_incl. intros k Hk. rewrite in_keys_dupdate. apply in_app_iff, Hk.
  - apply kv_dupdate; [|exact H5]. rewrite Forall_forall in *. intros kv Hkv. destruct (H2 kv Hkv) as [P1 P2].
    split; [apply (untimed_pv n _ _ Ht P1)|]. intros Hk. apply P2, Ho; [apply in_map, Hkv|exact Hk].
  - rewrite in_keys_dupdate. left. exact H3.
Qed.
Lemma mk_note_good t subj n cat base vrs kids : gsev (subj, base, ENote n cat vrs kids) ->
  note_good (mk_note t subj n cat (dupdate base vrs) kids).
Proof.
  intros (Hb & Hn & Hp & Hk). pose proof (nvars_base t n base vrs Hb Hn) as Hv. split; [exact Hv|].
  cbn [n_kids mk_note]. apply Forall_map. apply Forall_forall. intros k0 Hk0. rewrite Forall_forall in Hk. specialize (Hk _ Hk0).
  destruct k0 as [n' v']. destruct Hk as [[H1 H2] [Ht Ho]]. cbn [fst snd] in *. apply (nvars_kid n); auto.
  - intros k Hi Hk. destruct Hp as [->|Hp]; [destruct Hk0|]. unfold kid_open in Ho. rewrite forallb_forall in Ho.
    specialize (Ho k (proj1 (str_in_In _ _) Hk)). apply Bool.orb_true_iff in Ho as [Ho|Ho]; [exact Ho|exfalso].
    rewrite !in_keys_dupdate, keys_default in Hi.
    assert (Hc : In k common_keys \/ In k parent_keys).
    { destruct Hi as [[<-|[]]|[Hi|Hi]]; [left; left; reflexivity|left; apply Hb, Hi|right; apply Hp, Hi]. }
    destruct Hc as [Hc|Hc]; [rewrite (open_common _ _ Hc) in Hk; discriminate|].
    apply str_in_In in Hc. rewrite Hc in Ho. discriminate.
  - revert H1. apply covered_incl. intros k Hi. apply in_app_iff in Hi as [Hi|Hi]; apply in_app_iff; [left|right; exact Hi].
    rewrite !in_keys_dupdate, keys_default. apply in_app_iff in Hi. tauto.
Qed.
(** ... except a CONTENT_NOT_ALLOWED, which message.py adds without its variable. *)
Definition note_fine (n : note) : Prop :=
  (n_cls n = CONTENT_NOT_ALLOWED /\ keys (n_vars n) = [k_message_type]) \/ note_good n.
Lemma attach_good t p n vrs ns ns' : note_ok n base_msg vrs -> timed p = false ->
  forallb (fun k => str_in k (open_keys p)) (open_keys n) = true ->
  attach t p n vrs ns = Some ns' -> Forall note_fine ns -> Forall note_fine ns'.
Proof.
  intros [H1 H2] Ht Ho. revert ns'. induction ns as [|x ns IH]; intros ns' E H; cbn in E; [discriminate|].
  inversion H as [|? ? Hx Hns]; subst. destruct (nid_eqb (n_cls x) p) eqn:Ep.
  - apply nid_eqb_eq in Ep. injection E as <-. constructor; [|exact Hns]. destruct Hx as [Hx|[Hv Hk]]; [left; exact Hx|right].
    split; [exact Hv|].
    cbn [n_kids]. apply Forall_app. split; [exact Hk|]. constructor; [|constructor]. cbn [fst snd].
    apply (nvars_kid p); auto; [rewrite <- Ep; exact Hv| |].
    { intros k _ Hk'. rewrite forallb_forall in Ho. apply Ho, str_in_In, Hk'. }
    revert H1. apply covered_incl. intros k Hi. apply in_app_iff in Hi as [Hi|Hi]; apply in_app_iff; [left|right; exact Hi].
    destruct Hi as [<-|[]]. apply Hv.
  - destruct (attach t p n vrs ns) as [r|]; [|discriminate]. injection E as <-. constructor; auto.
Qed.
Lemma emit_one_good t ns s : gsev s -> Forall note_fine ns -> Forall note_fine (emit_one t ns s).
Proof.
  destruct s as [[subj base] e]. intros Hg Hns. destruct e as [n cat vrs kids|subj' n vrs|n c vrs|v|p n vrs]; cbn [emit_one]; auto.
  - apply Forall_app. split; [exact Hns|]. constructor; [|constructor]. right. apply mk_note_good, Hg.
  - destruct Hg as [_ Hn]. apply Forall_app. split; [exact Hns|]. constructor; [|constructor]. right.
    destruct Hn as [H1 H2]. split; [|constructor]. cbn [n_vars n_cls mk_note]. split; [|split].
    + revert H1. apply covered_incl. intros k Hk. rewrite in_keys_dupdate, keys_default. apply in_app_iff, Hk.
    + apply kv_dupdate; [apply default_kv|exact H2].
    + rewrite in_keys_dupdate. left. left. reflexivity.
  - destruct Hg as (Hb & Hn & Ht & Ho). destruct (attach t p n vrs ns) as [ns'|] eqn:E; [apply (attach_good t p n vrs ns); auto|].
    apply Forall_app. split; [exact Hns|]. constructor; [|constructor]. right. apply mk_note_good. split; [exact Hb|].
    split; [|split; [left; reflexivity|constructor]]. destruct Hn as [H1 H2]. split; [|exact H2]. revert H1. apply covered_incl.
    intros k Hk. apply in_app_iff in Hk as [Hk|Hk]; rewrite <- app_assoc, !in_app_iff; auto.
Qed.
Lemma emit_good t l : forall ns, Forall gsev l -> Forall note_fine ns -> Forall note_fine (emit t ns l).
Proof.
  induction l as [|s l IH]; intros ns Hl Hns; [exact Hns|]. inversion Hl; subst. cbn. apply IH; auto.
  apply emit_one_good; auto.
Qed.

(** ** Classes *)
Definition ev_cls (e : ev) : list nid :=
  match e with
  | ENote n _ _ _ | EMsg _ n _ => [n]
  | EKid p n _ => [p; n]
  | EDefer _ _ _ | EMark _ => []
  end.
Definition not_cls (P : nid -> bool) (s : sev) : Prop := Forall (fun n => P n = false) (ev_cls (snd s)).
Definition sel (P : nid -> bool) (ns : list note) : list note := filter (fun n => P (n_cls n)) ns.
Lemma sel_app P a b : sel P (a ++ b) = sel P a ++ sel P b.
Proof. apply filter_app. Qed.
Lemma attach_sel P t p n vrs ns ns' : P p = false -> attach t p n vrs ns = Some ns' -> sel P ns' = sel P ns.
Proof.
  intros Hp. revert ns'. induction ns as [|x ns IH]; intros ns' E; cbn in E; [discriminate|].
  destruct (nid_eqb (n_cls x) p) eqn:Ep.
  - apply nid_eqb_eq in Ep. injection E as <-. cbn. rewrite Ep, Hp. reflexivity.
  - destruct (attach t p n vrs ns) as [r|]; [|discriminate]. injection E as <-.
    change (sel P (x :: r)) with (if P (n_cls x) then x :: sel P r else sel P r). rewrite (IH r eq_refl). reflexivity.
Qed.
Lemma emit_one_sel P t ns s : not_cls P s -> sel P (emit_one t ns s) = sel P ns.
Proof.
  destruct s as [[subj base] e]. unfold not_cls. cbn [snd].
  destruct e as [n cat vrs kids|subj' n vrs|n c vrs|v|p n vrs]; cbn [ev_cls emit_one]; intros H; auto.
  - inversion H; subst. rewrite sel_app. cbn. rewrite H2. apply app_nil_r.
  - inversion H; subst. rewrite sel_app. cbn. rewrite H2. apply app_nil_r.
  - inversion H as [|? ? Hp Hn]; subst. inversion Hn; subst.
    destruct (attach t p n vrs ns) as [ns'|] eqn:E; [apply (attach_sel P t p n vrs); auto|].
    rewrite sel_app. cbn. rewrite H2. apply app_nil_r.
Qed.
Lemma emit_sel P t l : forall ns, Forall (not_cls P) l -> sel P (emit t ns l) = sel P ns.
Proof.
  induction l as [|s l IH]; intros ns Hl; [reflexivity|]. inversion Hl; subst.
  change (emit t ns (s :: l)) with (emit t (emit_one t ns s) l). rewrite IH; auto.
  apply emit_one_sel; auto.
Qed.

(** ** Events of a field section *)
Definition framework (n : nid) : bool :=
  existsb (String.eqb (nid_file n))
    ["field/section.py"; "field/__init__.py"; "field/singleton_field.py"; "field/structured_field.py";
     "field/json_field.py"]%string.
(** ... those reported when a value is parsed or evaluated *)
Definition inner (n : nid) : bool :=
  existsb (nid_eqb n) [BAD_SYNTAX; BAD_SYNTAX_DETAILED; SINGLE_HEADER_REPEAT; STRUCTURED_FIELD_PARSE_ERROR; DUPLICATE_KEY; BAD_JSON].
Lemma inner_framework n : inner n = true -> framework n = true.
Proof. intros H. apply existsb_exists in H as (x & Hx & E). apply nid_eqb_eq in E. subst x. repeat (destruct Hx as [<-|Hx]; [reflexivity|]). destruct Hx. Qed.
Definition fsevg (F : nid -> bool) (f : fname) (s : sev) : Prop :=
  let '(_, base, e) := s in
  base_vars base /\
  ((fev f e /\ In k_field_name (keys base))
   \/ exists n cat vrs, e = ENote n cat vrs [] /\ F n = true /\ note_ok n (base_msg ++ keys base) vrs).
Notation fsevf := (fsevg framework).
Notation fsevi := (fsevg inner).
Lemma fsevi_fsevf f l : Forall (fsevi f) l -> Forall (fsevf f) l.
Proof.
  apply Forall_impl. intros [[subj base] e] [Hb [H|(n & cat & vrs & E & Hn & H)]]; (split; [exact Hb|]); [left; exact H|right].
  exists n, cat, vrs. split; [exact E|]. split; [apply inner_framework, Hn|exact H].
Qed.
Definition fsev (s : sev) : Prop := exists f, fsevf f s.
Lemma fsevf_fsev f l : Forall (fsevf f) l -> Forall fsev l.
Proof. apply Forall_impl. intros s H. exists f. exact H. Qed.
Lemma fsevi_fsev f l : Forall (fsevi f) l -> Forall fsev l.
Proof. intros H. apply (fsevf_fsev f), fsevi_fsevf, H. Qed.
Lemma base_fld_incl (base : vars) : In k_field_name (keys base) -> incl base_fld (base_msg ++ keys base).
Proof. intros H k [<-|[<-|[]]]; [left; reflexivity|]. apply in_app_iff. right. exact H. Qed.
Lemma note_ok_incl n a b vrs : incl a b -> note_ok n a vrs -> note_ok n b vrs.
Proof.
  intros Hi [H1 H2]. split; [|exact H2]. revert H1. apply covered_incl. intros k Hk.
  apply in_app_iff in Hk as [Hk|Hk]; apply in_app_iff; auto.
Qed.
Lemma fsev_gsev s : fsev s -> gsev s.
Proof.
  destruct s as [[subj base] e]. intros [f [Hb [[He Hk]|(n & cat & vrs & -> & _ & Hn)]]]; (split; [exact Hb|]).
  - apply base_fld_incl in Hk.
    destruct e as [n cat vrs kids|subj' n vrs|n c vrs|v|p n vrs]; cbn [fev] in He; try exact I.
    + destruct He as (_ & Hn & Hp & Hkids). split; [apply (note_ok_incl _ _ _ _ Hk Hn)|]. split; [exact Hp|].
      eapply Forall_impl; [|exact Hkids]. intros k (_ & Hk1 & Hk2). split; [apply (note_ok_incl _ _ _ _ Hk Hk1)|exact Hk2].
    + apply He.
    + destruct He as (_ & _ & Hn & Ho & ->). auto.
  - split; [exact Hn|]. split; [left; reflexivity|constructor].
Qed.
(** The classes field code may report. *)
Definition field_cls (n : nid) : Prop := framework n = true \/ exists f, own f n = true.
Lemma fsev_cls s : fsev s -> Forall field_cls (ev_cls (snd s)).
Proof.
  destruct s as [[subj base] e]. intros [f [_ [[He _]|(n & cat & vrs & -> & Hn & _)]]]; cbn [snd ev_cls].
  - destruct e as [n cat vrs kids|subj' n vrs|n c vrs|v|p n vrs]; cbn [fev ev_cls] in *; try apply Forall_nil.
    + constructor; [right; exists f; apply He|constructor].
    + constructor; [right; exists f; apply He|constructor].
    + constructor; [right; exists f; apply He|]. constructor; [right; exists f; apply He|constructor].
  - constructor; [left; exact Hn|constructor].
Qed.
Definition cls_of (F : nid -> bool) (f : fname) (n : nid) : Prop := F n = true \/ own f n = true.
Lemma fsevg_cls F f s : fsevg F f s -> Forall (cls_of F f) (ev_cls (snd s)).
Proof.
  destruct s as [[subj base] e]. intros [_ [[He _]|(n & cat & vrs & -> & Hn & _)]]; cbn [snd ev_cls].
  - destruct e as [n cat vrs kids|subj' n vrs|n c vrs|v|p n vrs]; cbn [fev ev_cls] in *; try apply Forall_nil.
    + constructor; [right; apply He|constructor].
    + constructor; [right; apply He|constructor].
    + constructor; [right; apply He|]. constructor; [right; apply He|constructor].
  - constructor; [left; exact Hn|constructor].
Qed.
(** No event of field code is of a class in [P]. *)
Definition off_field (P : nid -> bool) : Prop := forall n, field_cls n -> P n = false.
Lemma fsev_not P l : off_field P -> Forall fsev l -> Forall (not_cls P) l.
Proof.
  intros HP. apply Forall_impl. intros s H. apply fsev_cls in H. unfold not_cls.
  eapply Forall_impl; [|exact H]. exact HP.
Qed.
Lemma own_file f n : own f n = true -> String.prefix "field/" (nid_file n) = true.
Proof.
  unfold own. rewrite orb_true_iff. intros [H|H].
  - apply existsb_exists in H as (x & Hin & Hx). apply String.eqb_eq in Hx. rewrite Hx. clear Hx.
    revert x Hin. assert (E : forallb (String.prefix "field/") (own_files f) = true) by (destruct f; vm_compute; reflexivity).
    rewrite forallb_forall in E. exact E.
  - destruct f; try discriminate. destruct n; try discriminate; vm_compute; reflexivity.
Qed.
Lemma field_cls_file n : field_cls n -> String.prefix "field/" (nid_file n) = true.
Proof.
  intros [H|[f H]]; [|apply (own_file f), H]. unfold framework in H.
  apply existsb_exists in H as (x & Hin & Hx). apply String.eqb_eq in Hx. rewrite Hx.
  repeat (destruct Hin as [<-|Hin]; [vm_compute; reflexivity|]). destruct Hin.
Qed.
Lemma off_prefix P : (forall n, P n = true -> String.prefix "field/" (nid_file n) = false) -> off_field P.
Proof.
  intros H n Hn. apply field_cls_file in Hn. destruct (P n) eqn:E; [|reflexivity]. rewrite (H n E) in Hn. discriminate.
Qed.

(** ** Framework notes, by class and subject *)
Definition ev_brief (s : sev) : list (nid * str) :=
  match s with
  | (subj, _, ENote n _ _ _) => [(n, subj)]
  | (_, _, EMsg subj n _) => [(n, subj)]
  | _ => []
  end.
Definition briefs (l : list sev) : list (nid * str) := filter (fun b => framework (fst b)) (flat_map ev_brief l).
Lemma briefs_app a b : briefs (a ++ b) = briefs a ++ briefs b.
Proof. unfold briefs. rewrite flat_map_app, filter_app. reflexivity. Qed.
Lemma own_framework f n : own f n = true -> framework n = false.
Proof.
  unfold own, framework. intros H. apply Bool.orb_true_iff in H as [H|H].
  - assert (D : forallb (fun x => negb (existsb (String.eqb x)
       ["field/section.py"; "field/__init__.py"; "field/singleton_field.py"; "field/structured_field.py"; "field/json_field.py"]%string)) (own_files f) = true)
      by (destruct f; vm_compute; reflexivity).
    apply existsb_exists in H as (x & Hx & E). apply String.eqb_eq in E. rewrite E. rewrite forallb_forall in D. specialize (D x Hx).
    apply Bool.negb_true_iff in D. exact D.
  - destruct f; try discriminate H. destruct n; try discriminate H; reflexivity.
Qed.
Lemma briefs_fev f subj base l : Forall (fev f) l -> briefs (tag subj base l) = [].
Proof.
  unfold briefs. induction 1 as [|e l He _ IH]; [reflexivity|]. cbn [tag map flat_map] in *. rewrite filter_app. unfold tag in IH. rewrite IH, app_nil_r.
  destruct e as [n cat vrs kids|subj' n vrs|n c vrs|v|p n vrs]; cbn [ev_brief filter fst]; try reflexivity; rewrite (own_framework f n) by apply He; reflexivity.
Qed.
