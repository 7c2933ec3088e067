(** * Rendering a note whose variables are all there. *)
From Verif Require Import PyStr Regex Note PyLib Utils FieldAttrs Types Framework Checks Message
  EvLogic NoteLemmas PassFrame.
Open Scope N_scope.

(** Every time interval among the variables is one Python's timedelta can hold. *)
Definition in_range (vs : vars) : Prop :=
  Forall (fun kv => match snd kv with VRel ut now _ => timedelta_ok (ut - now)%Q = true | _ => True end) vs.
Definition renders (e : env) (cls : nid) (vs : vars) : Prop :=
  exists s d, summary e cls vs = Ok s /\ detail_md e cls vs = Ok d.
Lemma py_str_ok e v : match v with VRel ut now _ => timedelta_ok (ut - now)%Q = true | _ => True end -> exists s, py_str e v = Ok s.
Proof. destruct v as [|[]| | | | | | | | | | | | | |]; cbn; intros H; try rewrite H; eexists; reflexivity. Qed.
Lemma py_str_bad e v s : py_str e v = Ok s -> match v with VRel ut now _ => timedelta_ok (ut - now)%Q = true | _ => True end.
Proof. destruct v; cbn; auto. destruct (timedelta_ok _); [reflexivity|discriminate]. Qed.
Lemma fill_ok conv vs l : (forall k, In k (seg_keys l) -> exists v s, dget k vs = Some v /\ conv v = Ok s) -> exists s, fill conv vs l = Ok s.
Proof.
  induction l as [|[s|k] l IH]; intros H; cbn [fill].
  - eexists; reflexivity.
  - destruct IH as [r ->]; [intros k Hk; apply H, Hk|]. eexists; reflexivity.
  - destruct (H k) as (v & s & -> & E); [left; reflexivity|]. destruct IH as [r ->]; [intros k2 Hk; apply H; right; exact Hk|].
    rewrite E. eexists; reflexivity.
Qed.
Lemma coerce_ok e v : match v with VRel ut now _ => timedelta_ok (ut - now)%Q = true | _ => True end -> exists s, coerce e v = Ok s.
Proof. intros H. destruct (py_str_ok e v H) as [s E]. unfold coerce. rewrite E. destruct v; eexists; reflexivity. Qed.
Lemma coerce_all_ok e vs : in_range vs -> exists safe, coerce_all e vs = Ok safe.
Proof.
  induction 1 as [|[k v] vs H _ IH]; cbn [coerce_all]; [eexists; reflexivity|]. cbn [snd] in H.
  destruct (coerce_ok e v H) as [s ->]. destruct IH as [safe ->]. eexists; reflexivity.
Qed.
Lemma coerce_all_keys e vs : forall safe, coerce_all e vs = Ok safe ->
  keys safe = keys vs /\ Forall (fun kv => exists s, snd kv = VStr s) safe /\ in_range vs.
Proof.
  induction vs as [|[k v] vs IH]; intros safe; cbn [coerce_all]; [intros E; injection E as <-; repeat constructor|].
  destruct (coerce e v) as [s|] eqn:Ec; [|discriminate]. cbn [rbind]. destruct (coerce_all e vs) as [r|]; [|discriminate].
  cbn [rmap]. intros E; injection E as <-. destruct (IH r eq_refl) as (K & F & R). split; [cbn; f_equal; exact K|]. split.
  - constructor; [eexists; reflexivity|exact F].
  - constructor; [|exact R]. cbn [snd]. destruct v; try exact I. cbn [coerce] in Ec. cbn in Ec. destruct (timedelta_ok _); [reflexivity|discriminate].
Qed.
Lemma dget_all (vs : vars) (k : str) : In k (keys vs) -> exists v, dget k vs = Some v /\ In (k, v) vs.
Proof. intros H. apply dget_Some_in in H as [v H]. exists v. split; [exact H|apply dget_In, H]. Qed.
Theorem renders_iff e cls vs : covered cls (keys vs) = true -> (renders e cls vs <-> in_range vs).
Proof.
  intros Hc. unfold covered in Hc. rewrite forallb_forall in Hc.
  assert (HK : forall k, In k (needed_keys cls) -> In k (keys vs)) by (intros k Hk; apply str_in_In, Hc, Hk).
  unfold needed_keys, summary_keys, text_keys in HK.
  destruct (templates_parse cls) as [T1 T2].
  destruct (tmpl (nid_summary cls)) as [l1|] eqn:E1; [|congruence]. destruct (tmpl (nid_text cls)) as [l2|] eqn:E2; [|congruence].
  split.
  - intros (s & d & _ & Hd). unfold detail_md in Hd. destruct (coerce_all e vs) as [safe|] eqn:Ec; [|discriminate].
    apply (coerce_all_keys e vs safe Ec).
  - intros Hr. destruct (coerce_all_ok e vs Hr) as [safe Ec]. destruct (coerce_all_keys e vs safe Ec) as (K & F & _).
    unfold renders, summary, detail_md, format. rewrite E1, E2, Ec. cbn [rbind].
    destruct (fill_ok (py_str e) vs l1) as [s Hs].
    { intros k Hk. destruct (dget_all vs k (HK k (in_or_app _ _ _ (or_introl Hk)))) as (v & Hv & Hin).
      unfold in_range in Hr. rewrite Forall_forall in Hr. destruct (py_str_ok e v (Hr _ Hin)) as [s Hs]. eauto. }
    destruct (fill_ok (py_str e) safe l2) as [d Hd].
    { intros k Hk. destruct (dget_all safe k) as (v & Hv & Hin); [rewrite K; apply HK, in_or_app; auto|].
      rewrite Forall_forall in F. destruct (F _ Hin) as [s2 Hs2]. cbn [snd] in Hs2. subst v. exists (VStr s2), s2. auto. }
    eauto.
Qed.
Lemma fill_missing conv vs k l : In k (seg_keys l) -> dget k vs = None -> forall s, fill conv vs l <> Ok s.
Proof.
  intros Hin Hn. induction l as [|[t|k2] l IH]; cbn [fill seg_keys flat_map] in *; [destruct Hin| |].
  - specialize (IH Hin). destruct (fill conv vs l); cbn; [|discriminate]. destruct (IH _ eq_refl).
  - destruct Hin as [<-|Hin]; [rewrite Hn; discriminate|]. destruct (dget k2 vs); [|discriminate]. specialize (IH Hin).
    destruct (conv p); [|discriminate]. cbn. destruct (fill conv vs l); cbn; [|discriminate]. destruct (IH _ eq_refl).
Qed.
(** ... and one whose summary needs a variable that is missing. *)
Lemma summary_missing e cls (vs : vars) k : In k (summary_keys cls) -> ~ In k (keys vs) -> forall s, summary e cls vs <> Ok s.
Proof.
  intros Hk Hn s. unfold summary, format, summary_keys in *. destruct (tmpl _) as [l|]; [|discriminate].
  apply (fill_missing _ _ k); [exact Hk|]. apply dget_None_notin, Hn.
Qed.
