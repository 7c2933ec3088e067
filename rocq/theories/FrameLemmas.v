(** * What each call leaves alone *)
From Verif Require Import PyStr Regex Note PyLib Utils FieldAttrs Types Framework Checks Message NoteLemmas.
Open Scope N_scope.

(** Only the notes changed. *)
Definition notes_only (m m' : mstate) : Prop := m' = m_set_notes (m_notes m') m.
Lemma notes_only_refl m : notes_only m m.
Proof. destruct m; reflexivity. Qed.
Lemma notes_only_trans a b c : notes_only a b -> notes_only b c -> notes_only a c.
Proof. unfold notes_only. intros -> ->. reflexivity. Qed.
Lemma notes_only_emit l m : notes_only m (m_emit l m).
Proof. reflexivity. Qed.
Lemma notes_only_then r k m :
  notes_only m (fst r) -> (forall m', notes_only m m' -> notes_only m (fst (k m'))) ->
  notes_only m (fst (then_ r k)).
Proof. destruct r as [m1 [x|x]]; cbn; auto. Qed.
(** Only the notes and one field section changed. *)
Definition sec_only (tr : bool) (m m' : mstate) : Prop :=
  m' = m_set_notes (m_notes m') (m_set_sec tr (sec tr m') m).
Lemma sec_only_refl tr m : sec_only tr m m.
Proof. destruct m, tr; reflexivity. Qed.
Lemma sec_only_trans tr a b c : sec_only tr a b -> sec_only tr b c -> sec_only tr a c.
Proof. unfold sec_only. intros -> ->. destruct tr; reflexivity. Qed.
Lemma sec_only_emit tr l m : sec_only tr m (m_emit l m).
Proof. destruct m, tr; reflexivity. Qed.
Lemma sec_only_set tr s m : sec_only tr m (m_set_sec tr s m).
Proof. destruct m, tr; reflexivity. Qed.
Lemma sec_only_emit_set tr l s m : sec_only tr m (m_emit l (m_set_sec tr s m)).
Proof. destruct m, tr; reflexivity. Qed.
Lemma sec_only_set_emit tr l s m : sec_only tr m (m_set_sec tr s (m_emit l m)).
Proof. destruct m, tr; reflexivity. Qed.

Lemma field_line_frame e rel tr m o raw : sec_only tr m (fst (fst (field_line e rel tr m o raw))).
Proof.
  destruct raw as [name value]. unfold field_line.
  destruct (read_name name) as [sname l1], (read_value sname value) as [sv l2].
  destruct (find_handler _ _) as [s2 h], (pre_check _ _) as [[h1 l3] go].
  destruct (negb go); [cbn [fst]; apply sec_only_set_emit|].
  destruct (handle_input _ _ _ _) as [[l4 h2] [r|x]]; cbn [fst].
  - eapply sec_only_trans; [|apply sec_only_emit]. eapply sec_only_trans; [|apply sec_only_emit_set].
    apply sec_only_set_emit.
  - eapply sec_only_trans; [|apply sec_only_emit_set]. apply sec_only_set_emit.
Qed.
Lemma field_lines_frame e rel tr l : forall m o, sec_only tr m (fst (field_lines e rel tr m o l)).
Proof.
  induction l as [|raw l IH]; intros m o; cbn [field_lines]; [apply sec_only_refl|].
  pose proof (field_line_frame e rel tr m o raw) as H.
  destruct (field_line e rel tr m o raw) as [[m' o'] [r|x]]; cbn [fst] in *; [|exact H].
  eapply sec_only_trans; [exact H|apply IH].
Qed.
Lemma finish_one_frame e rel tr m kh : sec_only tr m (fst (finish_one e rel tr m kh)).
Proof.
  destruct kh as [k h]. unfold finish_one. destruct (finish_handler _ _ _ _) as [[l h'] [r|x]]; cbn [fst].
  - eapply sec_only_trans; [apply sec_only_emit_set|apply sec_only_set].
  - apply sec_only_emit_set.
Qed.
Lemma finish_all_frame e rel tr l : forall m, sec_only tr m (fst (finish_all e rel tr m l)).
Proof.
  induction l as [|kh l IH]; intros m; cbn [finish_all]; [apply sec_only_refl|].
  pose proof (finish_one_frame e rel tr m kh) as H.
  destruct (finish_one e rel tr m kh) as [m' [r|x]]; cbn [fst] in *; [|exact H].
  eapply sec_only_trans; [exact H|apply IH].
Qed.
Lemma section_size_frame tr m : notes_only m (section_size tr m).
Proof. unfold section_size. destruct (_ <? _); [apply notes_only_emit|apply notes_only_refl]. Qed.
Lemma notes_sec_only tr m m' : notes_only m m' -> sec_only tr m m'.
Proof. intros ->. destruct m, tr; reflexivity. Qed.
Lemma process_frame e rel tr m l : sec_only tr m (fst (process e rel tr m l)).
Proof.
  unfold process. pose proof (field_lines_frame e rel tr l m 0) as H.
  destruct (field_lines e rel tr m 0 l) as [m1 [r|x]]; [|exact H].
  eapply sec_only_trans; [exact H|]. eapply sec_only_trans; [apply notes_sec_only, section_size_frame|].
  apply finish_all_frame.
Qed.
(** Only the notes, the header section and the declared encoding changed. *)
Definition headers_only (m m' : mstate) : Prop :=
  m' = m_set_notes (m_notes m') (m_set_charenc (m_charenc m') (m_set_sec false (m_headers m') m)).
Lemma process_headers_frame e rel l m : headers_only m (fst (process_headers e rel l m)).
Proof.
  unfold process_headers. pose proof (process_frame e rel false m l) as H.
  destruct (process e rel false m l) as [m1 [r|x]]; cbn [fst] in H.
  2: { cbn [fst]. unfold headers_only. rewrite H. destruct m; reflexivity. }
  assert (H1 : headers_only m m1) by (unfold headers_only; rewrite H; destruct m; reflexivity).
  assert (H2 : forall enc, headers_only m (m_set_charenc enc m1)).
  { intros enc. unfold headers_only. rewrite H. destruct m; reflexivity. }
  assert (H3 : forall l' , headers_only m (m_emit l' m1)).
  { intros l'. unfold headers_only. rewrite H. destruct m; reflexivity. }
  assert (H4 : forall l' enc, headers_only m (m_emit l' (m_set_charenc enc m1))).
  { intros l' enc. unfold headers_only. rewrite H. destruct m; reflexivity. }
  repeat match goal with
    | |- context [match ?x with _ => _ end] => destruct x; cbn [fst]; auto
    end.
Qed.
Lemma post_one_frame e rel tr m h : notes_only m (fst (post_one e rel tr m h)).
Proof.
  unfold post_one. destruct (h_val h); try (destruct (post_of _ _ _)); try apply notes_only_emit; apply notes_only_refl.
Qed.
Lemma post_all_frame e rel tr l : forall m, notes_only m (fst (post_all e rel tr m l)).
Proof.
  induction l as [|[k h] l IH]; intros m; cbn [post_all]; [apply notes_only_refl|].
  apply notes_only_then; [apply post_one_frame|]. intros m' H. eapply notes_only_trans; [exact H|apply IH].
Qed.
Lemma note_msg_frame a b c m : notes_only m (note_msg a b c m).
Proof. reflexivity. Qed.
Lemma check_content_length_frame m : notes_only m (check_content_length m).
Proof.
  unfold check_content_length. destruct (can_have_content m).
  - destruct (m_get m _) as [v|]; [|apply notes_only_refl]. destruct (m_no_content m); [apply notes_only_refl|].
    destruct (match v with VInt z => _ | _ => _ end); apply note_msg_frame.
  - destruct (_ && _); [apply note_msg_frame|apply notes_only_refl].
Qed.
Definition caching_only (m m' : mstate) : Prop := m' = m_set_notes (m_notes m') (m_set_caching (m_caching m') m).
Lemma notes_caching m m' : notes_only m m' -> caching_only m m'.
Proof. intros ->. destruct m; reflexivity. Qed.
Lemma caching_only_trans a b c : caching_only a b -> caching_only b c -> caching_only a c.
Proof. unfold caching_only. intros -> ->. reflexivity. Qed.
Lemma run_check_frame {A} (w : W A) m : notes_only m (fst (run_check w m)).
Proof. reflexivity. Qed.
Lemma request_post_frame m : notes_only m (fst (request_post_checks m)).
Proof.
  unfold request_post_checks. apply notes_only_then; [apply run_check_frame|]. intros m' H.
  eapply notes_only_trans; [exact H|]. cbn [fst]. clear m H.
  set (m2 := if m_has m' "user-agent" then m' else note_msg _ _ _ m').
  assert (H2 : notes_only m' m2).
  { unfold m2. destruct (m_has _ _); [apply notes_only_refl|apply note_msg_frame]. }
  eapply notes_only_trans; [exact H2|]. destruct (m_method m2); [|apply notes_only_refl].
  destruct (_ && _); [apply note_msg_frame|apply notes_only_refl].
Qed.
Lemma post_checks_frame e rel m : caching_only m (fst (fst (post_checks e rel m))).
Proof.
  unfold post_checks. destruct (m_type m).
  - pose proof (request_post_frame m) as H. destruct (request_post_checks m). apply notes_caching, H.
  - unfold response_post_checks.
    pose proof (run_check_frame (check_preflight_response m rel) m) as H.
    destruct (run_check (check_preflight_response m rel) m) as [m1 [r|x]]; cbn [fst] in *; [|apply notes_caching, H].
    destruct (cache_check m1 rel) as [[l lreq] [k|x]]; cbn [fst].
    2: { apply notes_caching. eapply notes_only_trans; [exact H|apply notes_only_emit]. }
    set (m2 := m_set_caching (Some k) (m_emit (tag [] [] l) m1)).
    assert (H2 : caching_only m m2) by (unfold m2; rewrite H; reflexivity).
    set (w := then_ _ _).
    assert (H3 : notes_only m2 (fst w)).
    { unfold w. apply notes_only_then; [apply run_check_frame|]. intros m' H'.
      destruct (m_no_content m'); [exact H'|]. eapply notes_only_trans; [exact H'|].
      apply notes_only_then; [apply run_check_frame|]. intros m'' H''.
      eapply notes_only_trans; [exact H''|]. apply run_check_frame. }
    destruct w as [m3 r3]. cbn [fst] in *. eapply caching_only_trans; [exact H2|apply notes_caching, H3].
  - apply notes_caching, notes_only_refl.
Qed.
(** [finish_content] sets the hashes, the completeness flag, the trailers, the
    caching verdict and the notes; everything else stays. *)
Definition finish_only (m m' : mstate) : Prop :=
  m' = m_set_notes (m_notes m') (m_set_caching (m_caching m') (m_set_dec_hash (m_dec_hash m')
         (m_set_hash (m_hash m') (m_set_complete (m_complete m') (m_set_sec true (m_trailers m') m))))).
Lemma finish_content_frame e rel complete tr m :
  finish_only m (fst (fst (finish_content e rel complete tr m)))
  /\ m_hash (fst (fst (finish_content e rel complete tr m))) = Some (e_md5 e (m_hashed m))
  /\ m_complete (fst (fst (finish_content e rel complete tr m))) = complete.
Proof.
  unfold finish_content. set (m1 := m_set_hash _ _).
  set (w := match tr with [] => _ | _ => _ end).
  assert (H1 : sec_only true m1 (fst w)).
  { unfold w. destruct tr; [apply sec_only_refl|apply process_frame]. }
  assert (F : forall m2, sec_only true m1 m2 ->
            finish_only m m2 /\ m_hash m2 = Some (e_md5 e (m_hashed m)) /\ m_complete m2 = complete).
  { intros m2 H. unfold finish_only. rewrite H. repeat split. }
  assert (G : forall m2 x m3, sec_only true m1 m2 -> caching_only (m_set_dec_hash x m2) m3 ->
            finish_only m m3 /\ m_hash m3 = Some (e_md5 e (m_hashed m)) /\ m_complete m3 = complete).
  { intros m2 x m3 H H'. unfold finish_only. rewrite H', H. repeat split. }
  destruct w as [m2 [r|x]]; [|apply F, H1]. cbn [fst] in H1.
  set (m3 := check_content_length _).
  pose proof (check_content_length_frame (m_set_dec_hash (Some (e_md5 e (m_dec_hashed m2))) m2)) as H3. fold m3 in H3.
  pose proof (post_checks_frame e rel m3) as H4.
  destruct (post_checks e rel m3) as [[m4 rel4] [r4|x]]; cbn [fst] in H4.
  - set (w := then_ _ _).
    assert (H5 : notes_only m4 (fst w)).
    { unfold w. apply notes_only_then; [apply post_all_frame|]. intros m' H'. eapply notes_only_trans; [exact H'|].
      apply post_all_frame. }
    destruct w as [m5 r5]. cbn [fst] in *. eapply G; [exact H1|].
    eapply caching_only_trans; [apply notes_caching, H3|]. eapply caching_only_trans; [exact H4|].
    apply notes_caching, H5.
  - cbn [fst]. eapply G; [exact H1|]. eapply caching_only_trans; [apply notes_caching, H3|exact H4].
Qed.
