(** * Facts about dictionaries, [Notes.add] and rendering. *)
From Verif Require Import PyStr Regex Note PyLib Utils FieldAttrs Types Fields1 Fields2 Fields3
  Framework Checks Message.
Open Scope N_scope.

(** ** Dictionaries *)
Lemma dget_dset {A} k k' (v : A) d :
  dget k (dset k' v d) = if str_eqb k k' then Some v else dget k d.
Proof.
  induction d as [|[k2 v2] d IH]; cbn.
  - destruct (str_eqb k k'); reflexivity.
  - destruct (str_eqb k' k2) eqn:E; cbn.
    + apply str_eqb_eq in E as ->. destruct (str_eqb k k2) eqn:E2; [reflexivity|]. reflexivity.
    + rewrite IH. destruct (str_eqb k k2) eqn:E2; [|reflexivity].
      apply str_eqb_eq in E2 as ->. rewrite str_eqb_sym, E. reflexivity.
Qed.
Lemma dget_In {A} k (v : A) d : dget k d = Some v -> In (k, v) d.
Proof.
  induction d as [|[k2 v2] d IH]; cbn; [discriminate|].
  destruct (str_eqb k k2) eqn:E; intros H; [|right; auto].
  apply str_eqb_eq in E as ->. injection H as ->. left. reflexivity.
Qed.
Lemma dget_None_notin {A} k (d : dict A) : dget k d = None <-> ~ In k (keys d).
Proof.
  induction d as [|[k2 v2] d IH]; cbn; [tauto|].
  destruct (str_eqb k k2) eqn:E.
  - apply str_eqb_eq in E as ->. split; [discriminate|tauto].
  - rewrite IH. apply str_eqb_neq in E. split; [|tauto]. intros H [H'|H']; [congruence|tauto].
Qed.
Lemma dget_Some_in {A} k (d : dict A) : (exists v, dget k d = Some v) <-> In k (keys d).
Proof.
  destruct (dget k d) eqn:E.
  - split; [intros _|eauto]. apply dget_In in E. apply (in_map fst) in E. exact E.
  - apply dget_None_notin in E. split; [intros [v H]; discriminate|contradiction].
Qed.
Lemma dmem_In {A} k (d : dict A) : dmem k d = true <-> In k (keys d).
Proof.
  unfold dmem. rewrite <- dget_Some_in. destruct (dget k d); split; eauto; try discriminate.
  intros [v H]; discriminate.
Qed.
Lemma In_dget {A} k (v : A) d : NoDup (keys d) -> In (k, v) d -> dget k d = Some v.
Proof.
  induction d as [|[k2 v2] d IH]; cbn; [tauto|]. intros Hn [H|H].
  - injection H as -> ->. rewrite str_eqb_refl. reflexivity.
  - inversion Hn as [|? ? H1 H2]; subst. destruct (str_eqb k k2) eqn:E; [|auto].
    apply str_eqb_eq in E as ->. exfalso. apply H1. apply (in_map fst) in H. exact H.
Qed.
Lemma dset_fresh {A} k (v : A) d : dget k d = None -> dset k v d = d ++ [(k, v)].
Proof.
  induction d as [|[k2 v2] d IH]; cbn; [reflexivity|].
  destruct (str_eqb k k2); [discriminate|]. intros H. rewrite IH by exact H. reflexivity.
Qed.
Lemma keys_dset {A} k (v : A) d :
  keys (dset k v d) = if dmem k d then keys d else keys d ++ [k].
Proof.
  unfold dmem. induction d as [|[k2 v2] d IH]; cbn; [reflexivity|].
  destruct (str_eqb k k2) eqn:E; cbn; [reflexivity|]. unfold keys in IH. rewrite IH.
  destruct (dget k d); reflexivity.
Qed.
Lemma dset_NoDup {A} k (v : A) d : NoDup (keys d) -> NoDup (keys (dset k v d)).
Proof.
  intros H. rewrite keys_dset. destruct (dmem k d) eqn:E; [exact H|].
  assert (~ In k (keys d)) by (rewrite <- dmem_In; congruence).
  clear E. revert H H0. generalize (keys d). clear d. induction l as [|x l IH]; cbn; intros H H0.
  - constructor; [tauto|constructor].
  - inversion H; subst. constructor.
    + rewrite in_app_iff. cbn. intros [G|[G|[]]]; [tauto|subst; tauto].
    + apply IH; tauto.
Qed.
Lemma in_dset {A} kv k (v : A) d : In kv (dset k v d) -> kv = (k, v) \/ In kv d.
Proof.
  induction d as [|[k2 v2] d IH]; cbn; [intros [<-|[]]; auto|].
  destruct (str_eqb k k2) eqn:E; cbn; intros [H|H]; auto.
  - apply str_eqb_eq in E as ->. auto.
  - destruct (IH H); auto.
Qed.
Lemma dupdate_nil {A} (d : dict A) : dupdate d [] = d.
Proof. reflexivity. Qed.
Lemma dupdate_cons {A} (d e : dict A) k v : dupdate d ((k, v) :: e) = dupdate (dset k v d) e.
Proof. reflexivity. Qed.
(** The last binding of a key. *)
Definition dlast {A} (k : str) (e : dict A) : option A := dget k (rev e).
Lemma dget_app {A} k (a b : dict A) :
  dget k (a ++ b) = match dget k a with Some v => Some v | None => dget k b end.
Proof.
  induction a as [|[k2 v2] a IH]; cbn; [reflexivity|]. destruct (str_eqb k k2); [reflexivity|exact IH].
Qed.
Lemma dget_dupdate {A} k (d e : dict A) :
  dget k (dupdate d e) = match dlast k e with Some v => Some v | None => dget k d end.
Proof.
  revert d; induction e as [|[k2 v2] e IH]; intros d; [reflexivity|].
  rewrite dupdate_cons, IH. unfold dlast. cbn [rev]. rewrite dget_app, dget_dset. cbn.
  destruct (dget k (rev e)); [reflexivity|]. destruct (str_eqb k k2); reflexivity.
Qed.
Lemma dlast_nodup {A} k (e : dict A) : NoDup (keys e) -> dlast k e = dget k e.
Proof.
  unfold dlast. intros H. destruct (dget k e) eqn:E.
  - apply In_dget; [unfold keys; rewrite map_rev; apply NoDup_rev; exact H|].
    apply -> in_rev. apply dget_In. exact E.
  - apply dget_None_notin. apply dget_None_notin in E. unfold keys. rewrite map_rev, <- in_rev. exact E.
Qed.
Lemma in_dupdate {A} kv (d e : dict A) : In kv (dupdate d e) -> In kv d \/ In kv e.
Proof.
  revert d; induction e as [|[k v] e IH]; intros d H; [auto|].
  rewrite dupdate_cons in H. apply IH in H as [H|H]; [|right; right; exact H].
  apply in_dset in H as [->|H]; [right; left; reflexivity|auto].
Qed.
Lemma dupdate_NoDup {A} (d e : dict A) : NoDup (keys d) -> NoDup (keys (dupdate d e)).
Proof.
  revert d; induction e as [|[k v] e IH]; intros d H; [exact H|].
  rewrite dupdate_cons. apply IH, dset_NoDup, H.
Qed.
Lemma in_keys_dupdate {A} k (d e : dict A) : In k (keys (dupdate d e)) <-> In k (keys d) \/ In k (keys e).
Proof.
  rewrite <- !dget_Some_in, dget_dupdate. unfold dlast.
  split.
  - intros [v H]. destruct (dget k (rev e)) eqn:E; [|eauto].
    right. rewrite dget_Some_in. apply dget_In, (in_map fst) in E.
    rewrite map_rev, <- in_rev in E. exact E.
  - intros [[v H]|H].
    + rewrite H. destruct (dget k (rev e)); eauto.
    + rewrite dget_Some_in in H. assert (G : In k (keys (rev e))).
      { unfold keys. rewrite map_rev, <- in_rev. exact H. }
      apply dget_Some_in in G as [v ->]. eauto.
Qed.

(** ** [Notes.add] *)

(** [n'] is [n], possibly with more sub-notes. *)
Definition same_note (n n' : note) : Prop :=
  n_cls n' = n_cls n /\ n_subj n' = n_subj n /\ n_cat n' = n_cat n /\ n_vars n' = n_vars n
  /\ exists more, n_kids n' = n_kids n ++ more.
(** [ns'] starts with the notes of [ns]. *)
Definition extends (ns ns' : list note) : Prop :=
  exists old new, ns' = old ++ new /\ Forall2 same_note ns old.

Lemma same_refl n : same_note n n.
Proof. repeat split; try reflexivity. exists []. rewrite app_nil_r. reflexivity. Qed.
Lemma same_trans a b c : same_note a b -> same_note b c -> same_note a c.
Proof.
  intros (A1 & A2 & A3 & A4 & x & A5) (B1 & B2 & B3 & B4 & y & B5).
  repeat split; try congruence. exists (x ++ y). rewrite B5, A5, app_assoc. reflexivity.
Qed.
Lemma all_same_refl l : Forall2 same_note l l.
Proof. induction l; constructor; [apply same_refl|assumption]. Qed.
Lemma all_same_trans a b c : Forall2 same_note a b -> Forall2 same_note b c -> Forall2 same_note a c.
Proof.
  intros H; revert c; induction H as [|x y a b Hxy _ IH]; intros c H2.
  - inversion H2. constructor.
  - inversion H2 as [|? z ? c' Hyz Hr]; subst. constructor; [eapply same_trans; eauto|auto].
Qed.
Lemma extends_refl l : extends l l.
Proof. exists l, []. rewrite app_nil_r. split; [reflexivity|apply all_same_refl]. Qed.
Lemma extends_app l x : extends l (l ++ x).
Proof. exists l, x. split; [reflexivity|apply all_same_refl]. Qed.
Lemma extends_trans a b c : extends a b -> extends b c -> extends a c.
Proof.
  intros (o1 & n1 & -> & H1) (o2 & n2 & -> & H2).
  apply Forall2_app_inv_l in H2 as (p & q & Hp & _ & ->).
  exists p, (q ++ n2). split; [rewrite app_assoc; reflexivity|eapply all_same_trans; eauto].
Qed.
Lemma attach_same t p c v l l' : attach t p c v l = Some l' -> Forall2 same_note l l'.
Proof.
  revert l'; induction l as [|n l IH]; cbn; intros l' H; [discriminate|].
  destruct (nid_eqb (n_cls n) p).
  - injection H as <-. constructor; [|apply all_same_refl].
    repeat split; cbn; eauto.
  - destruct (attach t p c v l) as [r|]; [|discriminate]. injection H as <-.
    constructor; [apply same_refl|auto].
Qed.
Lemma emit_one_extends t ns s : extends ns (emit_one t ns s).
Proof.
  destruct s as [[subj base] [| | | |]]; cbn; try apply extends_app; try apply extends_refl.
  destruct (attach _ _ _ _ _) as [ns'|] eqn:E; [|apply extends_app].
  exists ns', []. rewrite app_nil_r. split; [reflexivity|eapply attach_same; eauto].
Qed.
Lemma emit_extends t l ns : extends ns (emit t ns l).
Proof.
  revert ns; induction l as [|s l IH]; intros ns; cbn; [apply extends_refl|].
  eapply extends_trans; [apply emit_one_extends|apply IH].
Qed.
Lemma emit_app t ns a b : emit t ns (a ++ b) = emit t (emit t ns a) b.
Proof. unfold emit. apply fold_left_app. Qed.

(** *** Every API call extends the notes *)
Lemma notes_emit l m : m_notes (m_emit l m) = emit (m_type m) (m_notes m) l.
Proof. reflexivity. Qed.
Lemma mext_emit l m : extends (m_notes m) (m_notes (m_emit l m)).
Proof. apply emit_extends. Qed.
Lemma mext_sec tr s m : m_notes (m_set_sec tr s m) = m_notes m.
Proof. reflexivity. Qed.

Lemma field_line_extends e rel tr m o raw :
  extends (m_notes m) (m_notes (fst (fst (field_line e rel tr m o raw)))).
Proof.
  unfold field_line. destruct raw as [name value].
  destruct (read_name name) as [sname l1]. destruct (read_value sname value) as [svalue l2].
  destruct (find_handler _ sname) as [s2 h]. destruct (pre_check (m_type m) h) as [[h1 l3] go].
  destruct go; cbn [negb fst].
  - destruct (handle_input _ _ _ _) as [[l4 h2] r]. destruct r; cbn [fst].
    + eapply extends_trans; [|apply mext_emit]. eapply extends_trans; [|apply mext_emit].
      rewrite !mext_sec. apply mext_emit.
    + eapply extends_trans; [|apply mext_emit]. rewrite !mext_sec. apply mext_emit.
  - rewrite !mext_sec. apply mext_emit.
Qed.
Lemma field_lines_extends e rel tr l : forall m o,
  extends (m_notes m) (m_notes (fst (field_lines e rel tr m o l))).
Proof.
  induction l as [|raw l IH]; intros m o; cbn [field_lines]; [apply extends_refl|].
  pose proof (field_line_extends e rel tr m o raw) as H.
  destruct (field_line e rel tr m o raw) as [[m' o'] r]; cbn [fst] in H.
  destruct r; cbn [fst]; [|exact H]. eapply extends_trans; [exact H|apply IH].
Qed.
Lemma finish_one_extends e rel tr m kh :
  extends (m_notes m) (m_notes (fst (finish_one e rel tr m kh))).
Proof.
  unfold finish_one. destruct kh as [k h]. destruct (finish_handler _ _ _ _) as [[l h'] r].
  destruct r; cbn [fst]; rewrite ?mext_sec; eapply extends_trans; try apply mext_emit; apply extends_refl.
Qed.
Lemma finish_all_extends e rel tr l : forall m,
  extends (m_notes m) (m_notes (fst (finish_all e rel tr m l))).
Proof.
  induction l as [|kh l IH]; intros m; cbn [finish_all]; [apply extends_refl|].
  pose proof (finish_one_extends e rel tr m kh) as H.
  destruct (finish_one e rel tr m kh) as [m' r]; cbn [fst] in H.
  destruct r; cbn [fst]; [|exact H]. eapply extends_trans; [exact H|apply IH].
Qed.
Lemma section_size_extends tr m : extends (m_notes m) (m_notes (section_size tr m)).
Proof. unfold section_size. destruct (_ <? _); [apply mext_emit|apply extends_refl]. Qed.
Lemma process_extends e rel tr m l : extends (m_notes m) (m_notes (fst (process e rel tr m l))).
Proof.
  unfold process. pose proof (field_lines_extends e rel tr l m 0) as H.
  destruct (field_lines e rel tr m 0 l) as [m1 [x|x]]; cbn [fst] in H |- *; [|exact H].
  eapply extends_trans; [exact H|]. eapply extends_trans; [apply section_size_extends|apply finish_all_extends].
Qed.
Lemma process_headers_extends e rel l m :
  extends (m_notes m) (m_notes (fst (process_headers e rel l m))).
Proof.
  unfold process_headers. pose proof (process_extends e rel false m l) as H.
  destruct (process e rel false m l) as [m1 [x|x]]; cbn [fst] in H; [|exact H].
  destruct (m_get m1 "content-type"); [|exact H].
  destruct (rbind _ _); [|exact H]. destruct (dget _ _) as [[]|]; try exact H.
  destruct (e_codec e s) as [|[]]; exact H.
Qed.
Lemma sinks_notes outs : forall m, m_notes (fold_left (fun m o => sink o m) outs m) = m_notes m.
Proof. induction outs as [|o outs IH]; intros m; [reflexivity|]. cbn [fold_left]. rewrite IH. reflexivity. Qed.
Lemma sinks_type outs : forall m, m_type (fold_left (fun m o => sink o m) outs m) = m_type m.
Proof. induction outs as [|o outs IH]; intros m; [reflexivity|]. cbn [fold_left]. rewrite IH. reflexivity. Qed.
Lemma feed_content_extends e c m : extends (m_notes m) (m_notes (fst (feed_content e c m))).
Proof.
  unfold feed_content, decode_content. destruct (m_no_content m); [apply extends_refl|].
  destruct (match m_pipeline _ with Some st => _ | None => _ end) as [st|x]; [|apply extends_refl].
  destruct (pipe_feed _ _ _ _) as [[outs ns] st']. cbn [fst].
  rewrite notes_emit.
  replace (m_notes m) with (m_notes (m_set_pipeline (Some st') (fold_left (fun m o => sink o m) outs
     (m_set_hashed (m_hashed (m_set_clen (m_clen m + N.of_nat (length c)) m) ++ c)
        (m_set_clen (m_clen m + N.of_nat (length c)) m))))) at 1.
  - apply emit_extends.
  - cbn [m_notes m_set_pipeline]. rewrite sinks_notes. reflexivity.
Qed.
Lemma run_check_extends {A} (w : W A) m : extends (m_notes m) (m_notes (fst (run_check w m))).
Proof. apply mext_emit. Qed.
Lemma then_extends r k m :
  extends (m_notes m) (m_notes (fst r)) ->
  (forall m', extends (m_notes m') (m_notes (fst (k m')))) ->
  extends (m_notes m) (m_notes (fst (then_ r k))).
Proof.
  intros H Hk. destruct r as [m' [x|x]]; cbn [then_ fst] in *; [|exact H].
  eapply extends_trans; [exact H|apply Hk].
Qed.
Lemma note_msg_extends s n v m : extends (m_notes m) (m_notes (note_msg s n v m)).
Proof. apply mext_emit. Qed.
Lemma request_post_extends m : extends (m_notes m) (m_notes (fst (request_post_checks m))).
Proof.
  unfold request_post_checks. apply then_extends; [apply run_check_extends|].
  intros m'. cbn [fst].
  assert (H : extends (m_notes m') (m_notes (if m_has m' "user-agent" then m'
                 else note_msg "field-user-agent" MISSING_USER_AGENT [] m'))).
  { destruct (m_has _ _); [apply extends_refl|apply note_msg_extends]. }
  set (m2 := if m_has m' "user-agent" then m' else _) in *.
  destruct (m_method m2); [|exact H]. destruct (_ && _); [|exact H].
  eapply extends_trans; [exact H|apply note_msg_extends].
Qed.
Lemma response_post_extends e rel m :
  extends (m_notes m) (m_notes (fst (fst (response_post_checks e rel m)))).
Proof.
  unfold response_post_checks.
  pose proof (run_check_extends (check_preflight_response m rel) m) as H.
  destruct (run_check _ m) as [m1 [x|x]]; cbn [fst] in H; [|exact H].
  destruct (cache_check m1 rel) as [[l lreq] r]. destruct r as [k|err].
  - set (m2 := m_set_caching _ _).
    assert (H2 : extends (m_notes m) (m_notes m2)).
    { eapply extends_trans; [exact H|]. apply mext_emit. }
    match goal with |- context [then_ ?a ?b] => pose proof (then_extends a b m2) as H3 end.
    specialize (H3 (run_check_extends _ _)).
    match type of H3 with ?P -> _ => assert (HP : P) end.
    { intros m'. destruct (m_no_content m'); [apply extends_refl|].
      apply then_extends; [apply run_check_extends|]. intros; apply run_check_extends. }
    specialize (H3 HP). destruct (then_ _ _) as [m3 r3]. cbn [fst] in *.
    eapply extends_trans; eauto.
  - cbn [fst]. eapply extends_trans; [exact H|]. apply mext_emit.
Qed.
Lemma post_one_extends e rel tr m h : extends (m_notes m) (m_notes (fst (post_one e rel tr m h))).
Proof.
  unfold post_one. destruct (h_val h); try apply extends_refl;
    destruct (post_of _ _ _) as [evs rr]; apply mext_emit.
Qed.
Lemma post_all_extends e rel tr l : forall m,
  extends (m_notes m) (m_notes (fst (post_all e rel tr m l))).
Proof.
  induction l as [|[k h] l IH]; intros m; cbn [post_all]; [apply extends_refl|].
  apply then_extends; [apply post_one_extends|exact IH].
Qed.
Lemma ccl_extends m : extends (m_notes m) (m_notes (check_content_length m)).
Proof.
  unfold check_content_length.
  destruct (can_have_content m).
  - destruct (m_get m "content-length") as [v|]; [|apply extends_refl].
    destruct (m_no_content m); [apply extends_refl|]. destruct (match v with VInt _ => _ | _ => _ end); apply mext_emit.
  - destruct (_ && _); [apply mext_emit|apply extends_refl].
Qed.
Lemma post_checks_extends e rel m : extends (m_notes m) (m_notes (fst (fst (post_checks e rel m)))).
Proof.
  unfold post_checks. destruct (m_type m); [|apply response_post_extends|apply extends_refl].
  pose proof (request_post_extends m) as H. destruct (request_post_checks m). exact H.
Qed.
Lemma finish_content_extends e rel c tr m :
  extends (m_notes m) (m_notes (fst (fst (finish_content e rel c tr m)))).
Proof.
  unfold finish_content.
  set (m0 := m_set_hash _ _). change (m_notes m) with (m_notes m0).
  assert (H : extends (m_notes m0) (m_notes (fst (match tr with [] => (m0, Ok tt) | _ => process e rel true m0 tr end)))).
  { destruct tr; [apply extends_refl|apply process_extends]. }
  destruct (match tr with [] => _ | _ => _ end) as [m1 [x|x]]; cbn [fst] in H; [|exact H].
  set (m2 := check_content_length _).
  assert (H2 : extends (m_notes m0) (m_notes m2)).
  { eapply extends_trans; [exact H|]. unfold m2. eapply extends_trans; [|apply ccl_extends]. apply extends_refl. }
  pose proof (post_checks_extends e rel m2) as H3.
  destruct (post_checks e rel m2) as [[m3 rel3] r3]; cbn [fst] in H3.
  assert (H4 : extends (m_notes m0) (m_notes m3)) by (eapply extends_trans; eauto).
  destruct r3; [|exact H4].
  match goal with |- context [then_ ?a ?b] => pose proof (then_extends a b m3) as H5 end.
  specialize (H5 (post_all_extends _ _ _ _ _) (fun m' => post_all_extends _ _ _ _ m')).
  destruct (then_ _ _) as [m4 r4]; cbn [fst] in *. eapply extends_trans; eauto.
Qed.
Lemma set_uri_extends e s m : extends (m_notes m) (m_notes (fst (set_uri e s m))).
Proof.
  unfold set_uri. destruct (iri_to_uri e s) as [x|x].
  - cbn [fst].
    assert (H : forall n b v m0, extends (m_notes m) (m_notes m0) ->
                  extends (m_notes m) (m_notes (if b : bool then note_msg "uri" n v m0 else m0))).
    { intros n b v m0 H. destruct b; [|exact H]. eapply extends_trans; [exact H|apply note_msg_extends]. }
    apply H. destruct (match_ws_dollar _ _); [exact (extends_refl (m_notes m))|]. exact (mext_emit _ (m_set_iri (Some s) m)).
  - destruct (is_ValueError x); cbn [fst]; [exact (mext_emit _ (m_set_iri (Some s) m))|exact (extends_refl (m_notes m))].
Qed.
Lemma request_topline_extends e a b c m :
  extends (m_notes m) (m_notes (fst (process_request_topline e a b c m))).
Proof.
  unfold process_request_topline. pose proof (set_uri_extends e (e_utf8 e b) (m_set_method (Some (decode_ascii_replace a)) m)) as H.
  destruct (set_uri _ _ _) as [m1 [x|x]]; exact H.
Qed.
Lemma response_topline_extends a b c m :
  extends (m_notes m) (m_notes (process_response_topline a b c m)).
Proof.
  unfold process_response_topline.
  set (m0 := m_set_status_str _ _). change (m_notes m) with (m_notes m0).
  set (m1 := match py_int (decode_ascii_replace b) with Some z => _ | None => _ end).
  assert (H : extends (m_notes m0) (m_notes m1)).
  { unfold m1. destruct (py_int _); [apply extends_refl|apply note_msg_extends]. }
  destruct c as [[|c0 c]|]; try exact H.
  destruct (decode_ascii_strict _); [exact H|]. eapply extends_trans; [exact H|]. exact (mext_emit _ (m_set_phrase (Some (decode_ascii_replace (c0 :: c))) m1)).
Qed.

(** ** The semantics of one [add] *)
Lemma add_one t ns subj cls cat vrs :
  NoDup (keys vrs) ->
  exists n, emit_one t ns (subj, [], ENote cls cat vrs []) = ns ++ [n]
    /\ n_cls n = cls /\ n_subj n = subj /\ n_kids n = []
    /\ (forall k, dget k (n_vars n) =
                  match dget k vrs with
                  | Some v => Some v
                  | None => if str_eqb k (u "message_type") then Some (VStr (mtype_str t)) else None
                  end)
    /\ n_cat n = match cat with
                 | Some c => match nid_category cls with GENERAL => c | own => own end
                 | None => nid_category cls
                 end.
Proof.
  intros Hn. eexists. split; [reflexivity|]. cbn [n_cls n_subj n_kids n_vars n_cat mk_note].
  repeat (split; [reflexivity|]). split.
  - intros k. rewrite dget_dupdate.
    assert (E : dlast k (dupdate [] vrs) = dget k vrs).
    { rewrite dlast_nodup by (apply dupdate_NoDup; constructor).
      rewrite dget_dupdate, dlast_nodup by exact Hn. destruct (dget k vrs); reflexivity. }
    rewrite E. destruct (dget k vrs); [reflexivity|]. reflexivity.
  - destruct cat; [|reflexivity]. destruct (nid_category cls); reflexivity.
Qed.

(** ** Rendering *)

(** The text of a template variable's value in the detail. *)
Inductive piece : Type :=
| PTemplate (s : str)      (* written by the note's author *)
| PMarkdown (s : str)      (* a value the library marked MarkdownSafe *)
| PValue (s : str).        (* any other value *)
Definition piece_text (p : piece) : str :=
  match p with PTemplate s | PMarkdown s | PValue s => s end.

Lemma has_chr_remove_chr c s : has_chr c (remove_chr c s) = false.
Proof.
  unfold has_chr, remove_chr. induction s as [|d s IH]; cbn; [reflexivity|].
  destruct (d =? c) eqn:H; cbn; [exact IH|]. rewrite N.eqb_sym, H. exact IH.
Qed.
Lemma coerce_all_get e vrs safe k :
  coerce_all e vrs = Ok safe ->
  match dget k vrs with
  | Some v => exists s, coerce e v = Ok s /\ dget k safe = Some (VStr s)
  | None => dget k safe = None
  end.
Proof.
  revert safe; induction vrs as [|[k2 v] vrs IH]; cbn; intros safe H.
  - injection H as <-. reflexivity.
  - destruct (coerce e v) as [s|x] eqn:Ev; cbn in H; [|discriminate].
    destruct (coerce_all e vrs) as [r|x] eqn:Er; cbn in H; [|discriminate]. injection H as <-.
    cbn. destruct (str_eqb k k2); [eauto|]. apply IH. reflexivity.
Qed.
(** The pieces of a rendered template. *)
Fixpoint pieces (e : env) (vrs : vars) (l : list seg) : list piece :=
  match l with
  | [] => []
  | SLit s :: l' => PTemplate s :: pieces e vrs l'
  | SVar k :: l' =>
      match dget k vrs with
      | Some (VMd s) => PMarkdown s
      | Some v => PValue (match py_str e v with Ok s => remove_chr 96 s | Err _ => [] end)
      | None => PValue []
      end :: pieces e vrs l'
  end.
Lemma fill_pieces e vrs safe l s :
  coerce_all e vrs = Ok safe -> fill (py_str e) safe l = Ok s ->
  s = flat_map piece_text (pieces e vrs l).
Proof.
  intros Hc. revert s; induction l as [|[t|k] l IH]; cbn; intros s H.
  - injection H as <-. reflexivity.
  - destruct (fill _ _ l) as [r|x]; cbn in H; [|discriminate]. injection H as <-.
    rewrite (IH r eq_refl). reflexivity.
  - pose proof (coerce_all_get e vrs safe k Hc) as G.
    destruct (dget k vrs) as [v|]; [|rewrite G in H; discriminate].
    destruct G as (t & Ht & G). rewrite G in H. cbn in H.
    destruct (fill _ _ l) as [r|x]; cbn in H; [|discriminate]. injection H as <-.
    rewrite (IH r eq_refl). f_equal.
    destruct v; unfold coerce in Ht;
      try (destruct (py_str e _) as [w|w]; cbn in Ht; [|discriminate]; injection Ht as <-; reflexivity).
    injection Ht as <-. reflexivity.
Qed.
Lemma detail_pieces e cls vrs s l :
  tmpl (nid_text cls) = Some l -> detail_md e cls vrs = Ok s ->
  s = flat_map piece_text (pieces e vrs l).
Proof.
  intros Hl H. unfold detail_md in H. destruct (coerce_all e vrs) as [safe|x] eqn:Ec; [|discriminate].
  cbn in H. unfold format in H. rewrite Hl in H. eapply fill_pieces; eauto.
Qed.
Definition backticks (s : str) : nat := count_occ N.eq_dec s 96.
Lemma backticks_app a b : backticks (a ++ b) = (backticks a + backticks b)%nat.
Proof. apply count_occ_app. Qed.
Lemma backticks_none s : has_chr 96 s = false -> backticks s = O.
Proof.
  unfold backticks, has_chr. induction s as [|c s IH]; [reflexivity|]. cbn [existsb]. intros H.
  apply orb_false_iff in H as [H1 H2]. apply N.eqb_neq in H1.
  rewrite count_occ_cons_neq by congruence. auto.
Qed.
(** *** Specification for C08 *)
Definition piece_allowed (vrs : vars) (p : piece) : Prop :=
  match p with
  | PTemplate _ => True
  | PMarkdown s => exists k, dget k vrs = Some (VMd s)
  | PValue s => has_chr 96 s = false
  end.
Definition template_part (p : piece) : str := match p with PTemplate s => s | _ => [] end.
Definition markdown_part (p : piece) : str := match p with PMarkdown s => s | _ => [] end.

Lemma template_backticks : forall n,
  match tmpl (nid_text n) with
  | Some l => backticks (flat_map (fun g => match g with SLit s => s | SVar _ => [] end) l)
              = backticks (u (nid_text n))
  | None => True
  end.
Proof.
  assert (H : forallb (fun n =>
      match tmpl (nid_text n) with
      | Some l => Nat.eqb (backticks (flat_map (fun g => match g with SLit s => s | SVar _ => [] end) l))
                          (backticks (u (nid_text n)))
      | None => true
      end) all_nids = true) by (vm_compute; reflexivity).
  rewrite forallb_forall in H. intros n. specialize (H n (all_nids_complete n)).
  destruct (tmpl (nid_text n)); [apply Nat.eqb_eq in H; exact H|exact I].
Qed.
Lemma pieces_allowed e vrs l : Forall (piece_allowed vrs) (pieces e vrs l).
Proof.
  induction l as [|[t|k] l IH]; cbn; [constructor|constructor; [exact I|exact IH]|].
  constructor; [|exact IH].
  destruct (dget k vrs) as [v|] eqn:E; [|reflexivity].
  destruct v; cbn [piece_allowed]; try (destruct (py_str e _); [apply has_chr_remove_chr|reflexivity]).
  eauto.
Qed.
Lemma pieces_templates e vrs l :
  flat_map template_part (pieces e vrs l) = flat_map (fun g => match g with SLit s => s | SVar _ => [] end) l.
Proof.
  induction l as [|[t|k] l IH]; cbn; [reflexivity|rewrite IH; reflexivity|].
  destruct (dget k vrs) as [[]|]; exact IH.
Qed.
Lemma pieces_backticks vrs ps :
  Forall (piece_allowed vrs) ps ->
  backticks (flat_map piece_text ps)
  = (backticks (flat_map template_part ps) + backticks (flat_map markdown_part ps))%nat.
Proof.
  induction 1 as [|p ps Hp _ IH]; [reflexivity|]. cbn [flat_map].
  rewrite !backticks_app, IH. destruct p; cbn [piece_text template_part markdown_part];
    cbn [piece_allowed] in Hp; rewrite ?(backticks_none _ Hp); cbn; lia.
Qed.
Lemma detail_backticks e cls vrs s :
  detail_md e cls vrs = Ok s ->
  exists ps,
    s = flat_map piece_text ps
    /\ Forall (piece_allowed vrs) ps
    /\ backticks (flat_map template_part ps) = backticks (u (nid_text cls))
    /\ backticks s = (backticks (u (nid_text cls)) + backticks (flat_map markdown_part ps))%nat.
Proof.
  intros H. destruct (templates_parse cls) as [_ Hl].
  pose proof (template_backticks cls) as Hb.
  destruct (tmpl (nid_text cls)) as [l|] eqn:El; [|congruence].
  exists (pieces e vrs l). pose proof (detail_pieces e cls vrs s l El H) as Hs.
  pose proof (pieces_allowed e vrs l) as Ha.
  assert (E : backticks (flat_map template_part (pieces e vrs l)) = backticks (u (nid_text cls)))
    by (rewrite pieces_templates; exact Hb).
  repeat (split; [assumption|]). rewrite Hs, (pieces_backticks vrs) by exact Ha. rewrite E. reflexivity.
Qed.
(** No MarkdownSafe value: every backtick is the template's own. *)
Lemma detail_plain_backticks e cls vrs s :
  (forall k t, dget k vrs <> Some (VMd t)) ->
  detail_md e cls vrs = Ok s -> backticks s = backticks (u (nid_text cls)).
Proof.
  intros Hv H. destruct (detail_backticks e cls vrs s H) as (ps & _ & Ha & _ & E).
  rewrite E. replace (flat_map markdown_part ps) with (@nil N); [cbn; lia|].
  clear E. induction Ha as [|p ps Hp _ IH]; [reflexivity|]. cbn. rewrite <- IH, app_nil_r.
  destruct p; cbn in *; try reflexivity. destruct Hp as [k Hk]. exfalso. exact (Hv _ _ Hk).
Qed.
