(** * Nothing but the decoders reads the decoders' state

    [finish_content] gives the same result whatever [m_pipeline] is; so two
    states that differ only there end alike. *)
From Verif Require Import PyStr Regex Grammar Note PyLib Utils FieldAttrs Types Fields1 Fields2 Fields3
  Framework Checks Message NoteLemmas.
Open Scope N_scope.

Section Pl.
  Variables (e : env) (rel : option mstate) (p : option (list stage)).
  Notation sp := (m_set_pipeline p).
  Lemma parse_pl f m h v : parse_of f (mkCx e (sp m) rel) h v = parse_of f (mkCx e m rel) h v.
  Proof. destruct f; reflexivity. Qed.
  Lemma eval_pl f m h : eval_of f (mkCx e (sp m) rel) h = eval_of f (mkCx e m rel) h.
  Proof. destruct f; reflexivity. Qed.
  Lemma eval_item_pl f m h a b : eval_item f (mkCx e (sp m) rel) h a b = eval_item f (mkCx e m rel) h a b.
  Proof. destruct f; reflexivity. Qed.
  Lemma eval_list_pl f m h a : eval_list f (mkCx e (sp m) rel) h a = eval_list f (mkCx e m rel) h a.
  Proof. destruct f; reflexivity. Qed.
  Lemma eval_dict_pl f m h a : eval_dict f (mkCx e (sp m) rel) h a = eval_dict f (mkCx e m rel) h a.
  Proof. destruct f; reflexivity. Qed.
  Lemma post_pl f m h : post_of f (mkCx e (sp m) rel) h = post_of f (mkCx e m rel) h.
  Proof. destruct f; reflexivity. Qed.

  Definition lift {A} (r : mstate * A) : mstate * A := (sp (fst r), snd r).
  Lemma list_member_pl m h v : list_member (mkCx e (sp m) rel) h v = list_member (mkCx e m rel) h v.
  Proof. unfold list_member. rewrite parse_pl. reflexivity. Qed.
  Lemma list_input_pl m subj l : forall h,
    list_input (mkCx e (sp m) rel) subj h l = list_input (mkCx e m rel) subj h l.
  Proof.
    induction l as [|v l IH]; intros h; [reflexivity|]. cbn [list_input]. rewrite list_member_pl.
    destruct (list_member _ _ _) as [evs [o|x]]; [|reflexivity]. rewrite IH. reflexivity.
  Qed.
  Lemma handle_input_pl m h v o : handle_input (mkCx e (sp m) rel) h v o = handle_input (mkCx e m rel) h v o.
  Proof. unfold handle_input. destruct (kind_of (h_cls h)); try reflexivity. apply list_input_pl. Qed.
  Lemma base_finish_pl m subj base h :
    base_finish (mkCx e (sp m) rel) subj base h = base_finish (mkCx e m rel) subj base h.
  Proof. unfold base_finish. rewrite eval_pl. reflexivity. Qed.
  Lemma broken_values_pl m l : forall h acc,
    broken_values (mkCx e (sp m) rel) h l acc = broken_values (mkCx e m rel) h l acc.
  Proof.
    induction l as [|[raw off] l IH]; intros h acc; [reflexivity|]. cbn [broken_values]. rewrite parse_pl.
    destruct (parse_of _ _ _ _) as [l2 [v|x]]; rewrite IH; reflexivity.
  Qed.
  Lemma finish_handler_pl m subj base h :
    finish_handler (mkCx e (sp m) rel) subj base h = finish_handler (mkCx e m rel) subj base h.
  Proof.
    unfold finish_handler. destruct (kind_of (h_cls h)); try apply base_finish_pl.
    - unfold singleton_finish. destruct (h_raw h) as [|[raw o] more]; [reflexivity|]. rewrite parse_pl.
      destruct (parse_of _ _ _ _) as [l3 [v|x]]; [rewrite base_finish_pl|]; reflexivity.
    - unfold broken_finish. rewrite broken_values_pl. destruct (broken_values _ _ _ _) as [[evs h1] [l|x]];
        [rewrite base_finish_pl|]; reflexivity.
    - unfold sf_finish. destruct (negb _); [reflexivity|]. destruct (h_sf h); [reflexivity|].
      destruct (raw_texts _); [|reflexivity]. cbn [cx_env].
      destruct t; unfold sf_result.
      + destruct (e_sf_item _ _); try reflexivity; rewrite eval_item_pl; reflexivity.
      + destruct (e_sf_list _ _); try reflexivity; rewrite eval_list_pl; reflexivity.
      + destruct (e_sf_dict _ _); try reflexivity; rewrite eval_dict_pl; reflexivity.
    - unfold json_finish. destruct (negb _); [reflexivity|]. destruct (raw_texts _); [|reflexivity]. cbn [cx_env].
      destruct (e_json _ _); try reflexivity; apply base_finish_pl.
  Qed.
  Lemma sec_pl tr m : sec tr (sp m) = sec tr m.
  Proof. destruct tr; reflexivity. Qed.
  Lemma emit_pl l m : m_emit l (sp m) = sp (m_emit l m).
  Proof. reflexivity. Qed.
  Lemma set_sec_pl tr s m : m_set_sec tr s (sp m) = sp (m_set_sec tr s m).
  Proof. destruct tr; reflexivity. Qed.
  Lemma field_line_pl tr m o raw :
    field_line e rel tr (sp m) o raw
    = (let '(m', o', r) := field_line e rel tr m o raw in (sp m', o', r)).
  Proof.
    destruct raw as [name value]. unfold field_line. rewrite sec_pl.
    destruct (read_name name) as [sname l1]. destruct (read_value sname value) as [sv l2].
    destruct (find_handler _ _) as [s2 h]. change (m_type (sp m)) with (m_type m).
    destruct (pre_check _ _) as [[h1 l3] go]. cbv zeta.
    rewrite emit_pl, set_sec_pl. destruct (negb go); [reflexivity|].
    rewrite handle_input_pl. destruct (handle_input _ _ _ _) as [[l4 h2] [r|x]];
      rewrite sec_pl, set_sec_pl, !emit_pl; reflexivity.
  Qed.
  Lemma field_lines_pl tr l : forall m o,
    field_lines e rel tr (sp m) o l = lift (field_lines e rel tr m o l).
  Proof.
    induction l as [|raw l IH]; intros m o; [reflexivity|]. cbn [field_lines]. rewrite field_line_pl.
    destruct (field_line e rel tr m o raw) as [[m' o'] [r|x]]; [apply IH|reflexivity].
  Qed.
  Lemma finish_one_pl tr m kh : finish_one e rel tr (sp m) kh = lift (finish_one e rel tr m kh).
  Proof.
    destruct kh as [k h]. unfold finish_one. cbv zeta. rewrite finish_handler_pl.
    destruct (finish_handler _ _ _ _) as [[l h'] [r|x]]; rewrite sec_pl, set_sec_pl, emit_pl; [|reflexivity].
    rewrite !sec_pl, set_sec_pl. reflexivity.
  Qed.
  Lemma finish_all_pl tr l : forall m, finish_all e rel tr (sp m) l = lift (finish_all e rel tr m l).
  Proof.
    induction l as [|kh l IH]; intros m; [reflexivity|]. cbn [finish_all]. rewrite finish_one_pl.
    destruct (finish_one e rel tr m kh) as [m' [r|x]]; [apply IH|reflexivity].
  Qed.
  Lemma process_pl tr m l : process e rel tr (sp m) l = lift (process e rel tr m l).
  Proof.
    unfold process. rewrite field_lines_pl. destruct (field_lines e rel tr m 0 l) as [m1 [r|x]]; [|reflexivity].
    cbn [lift fst snd].
    assert (E : section_size tr (sp m1) = sp (section_size tr m1)).
    { unfold section_size. rewrite sec_pl. destruct (_ <? _); [apply emit_pl|reflexivity]. }
    rewrite E, sec_pl, finish_all_pl. reflexivity.
  Qed.
  Lemma post_one_pl tr m h : post_one e rel tr (sp m) h = lift (post_one e rel tr m h).
  Proof.
    unfold post_one. rewrite post_pl. destruct (h_val h); try reflexivity; destruct (post_of (h_cls h) _ h); reflexivity.
  Qed.
  Lemma post_all_pl tr l : forall m, post_all e rel tr (sp m) l = lift (post_all e rel tr m l).
  Proof.
    induction l as [|[k h] l IH]; intros m; [reflexivity|]. cbn [post_all]. rewrite post_one_pl.
    destruct (post_one e rel tr m h) as [m' [r|x]]; cbn [lift then_ fst snd]; [apply IH|reflexivity].
  Qed.
  Lemma run_check_pl {A} (w : W A) m : run_check w (sp m) = lift (run_check w m).
  Proof. reflexivity. Qed.
  Lemma lift_then r k k' :
    (forall m, k (sp m) = lift (k' m)) -> then_ (lift r) k = lift (then_ r k').
  Proof. destruct r as [m [x|x]]; intros H; cbn; [apply H|reflexivity]. Qed.
  Definition lift3 (r : mstate * option mstate * res unit) : mstate * option mstate * res unit :=
    let '(m, x, y) := r in (sp m, x, y).
  Lemma post_checks_pl m : post_checks e rel (sp m) = lift3 (post_checks e rel m).
  Proof.
    unfold post_checks. change (m_type (sp m)) with (m_type m). destruct (m_type m).
    - assert (E : request_post_checks (sp m) = lift (request_post_checks m)).
      { unfold request_post_checks. change (check_preflight_request (sp m)) with (check_preflight_request m).
        rewrite run_check_pl. apply lift_then. intros m'.
        change (m_has (sp m') "user-agent") with (m_has m' "user-agent").
        destruct (m_has m' "user-agent"); cbn [m_method m_set_pipeline]; unfold lift; cbn [fst snd]; f_equal;
          unfold note_msg; rewrite ?emit_pl; cbn [m_method m_emit m_set_notes m_set_pipeline];
          destruct (m_method m'); try reflexivity; cbn [m_clen m_no_content];
          destruct (_ && _); reflexivity. }
      rewrite E. destruct (request_post_checks m). reflexivity.
    - unfold response_post_checks.
      change (check_preflight_response (sp m) rel) with (check_preflight_response m rel).
      rewrite run_check_pl. destruct (run_check (check_preflight_response m rel) m) as [m1 [r|x]]; [|reflexivity].
      cbn [lift fst snd]. change (cache_check (sp m1) rel) with (cache_check m1 rel).
      destruct (cache_check m1 rel) as [[l lreq] [k|x]]; [|reflexivity].
      rewrite emit_pl. set (m2 := m_emit _ m1).
      change (m_set_caching (Some k) (sp m2)) with (sp (m_set_caching (Some k) m2)).
      set (m3 := m_set_caching _ m2). set (rel2 := option_map _ rel).
      change (check_status (sp m3) rel2) with (check_status m3 rel2).
      rewrite run_check_pl.
      match goal with |- (let '(a, b) := then_ (lift ?r) ?k in _) = _ =>
        rewrite (lift_then r k k) end.
      { match goal with |- context [then_ ?r ?k] => destruct (then_ r k) as [m4 r4] end. reflexivity. }
      intros m4. change (m_no_content (sp m4)) with (m_no_content m4). destruct (m_no_content m4); [reflexivity|].
      change (verify_content_type e (sp m4)) with (verify_content_type e m4). rewrite run_check_pl.
      apply lift_then. intros m5. change (verify_charset e (sp m5)) with (verify_charset e m5).
      apply run_check_pl.
    - reflexivity.
  Qed.
  Lemma check_content_length_pl m : check_content_length (sp m) = sp (check_content_length m).
  Proof.
    unfold check_content_length. change (can_have_content (sp m)) with (can_have_content m).
    change (m_get (sp m) "content-length") with (m_get m "content-length").
    change (m_no_content (sp m)) with (m_no_content m). change (m_clen (sp m)) with (m_clen m).
    destruct (can_have_content m).
    - destruct (m_get m "content-length") as [v|]; [|reflexivity]. destruct (m_no_content m); [reflexivity|].
      destruct (match v with VInt z => _ | _ => _ end); reflexivity.
    - destruct (_ && _); reflexivity.
  Qed.
End Pl.
Lemma finish_content_pl e rel p complete tr m :
  finish_content e rel complete tr (m_set_pipeline p m) = lift3 p (finish_content e rel complete tr m).
Proof.
  unfold finish_content.
  change (m_hashed (m_set_pipeline p m)) with (m_hashed m).
  change (m_set_hash (Some (e_md5 e (m_hashed m))) (m_set_complete complete (m_set_pipeline p m)))
    with (m_set_pipeline p (m_set_hash (Some (e_md5 e (m_hashed m))) (m_set_complete complete m))).
  set (m1 := m_set_hash _ _).
  assert (E : (match tr with [] => (m_set_pipeline p m1, Ok tt) | _ => process e rel true (m_set_pipeline p m1) tr end)
              = lift p (match tr with [] => (m1, Ok tt) | _ => process e rel true m1 tr end)).
  { destruct tr; [reflexivity|apply process_pl]. }
  rewrite E. clear E.
  destruct (match tr with [] => (m1, Ok tt) | _ => process e rel true m1 tr end) as [m2 [r|x]]; [|reflexivity]. cbn [lift fst snd].
  change (m_dec_hashed (m_set_pipeline p m2)) with (m_dec_hashed m2).
  change (m_set_dec_hash (Some (e_md5 e (m_dec_hashed m2))) (m_set_pipeline p m2))
    with (m_set_pipeline p (m_set_dec_hash (Some (e_md5 e (m_dec_hashed m2))) m2)).
  rewrite check_content_length_pl, post_checks_pl.
  destruct (post_checks e rel _) as [[m3 rel3] [r3|x]]; [|reflexivity]. cbn [lift3].
  change (m_headers (m_set_pipeline p m3)) with (m_headers m3). rewrite post_all_pl.
  match goal with |- (let '(a, b) := then_ (lift p ?r) ?k in _) = _ => rewrite (lift_then p r k k) end.
  - match goal with |- context [then_ ?r ?k] => destruct (then_ r k) as [m4 r4] end. reflexivity.
  - intros m4. apply post_all_pl.
Qed.
