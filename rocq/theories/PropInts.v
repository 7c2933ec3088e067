(** * C29 for whole runs: Age, Content-Length and Access-Control-Max-Age. *)
From Coq Require Import Lia.
From Verif Require Import PyStr Regex Grammar NoteTable Note PyLib Utils FieldAttrs Types Fields1 Fields2 Fields3 Framework Checks Message
  EvLogic NoteLemmas TestEnv LexLemmas ParamLemmas NumLemmas NameLemmas FrameLemmas PassParse PassEval PassFrame PassSec PassProc PassRun Session SessionLemmas
  SectionLemmas SecNotes SecValues LintLemmas FieldSpec PropFields PropValues PropNames PropParse OwnLemmas ListSpec PropLists ListExamples FieldExamples.
Open Scope N_scope.

(** ** Specification *)
(** The fields, and the least number each accepts (None: any). *)
Definition whole_number (k : str) : option (option Z) :=
  if str_eqb k (u "age") then Some (Some 0%Z)
  else if str_eqb k (u "access-control-max-age") then Some (Some 0%Z)
  else if str_eqb k (u "content-length") then Some None else None.
Definition enough (least : option Z) (z : Z) : Prop := match least with Some b => (b <= z)%Z | None => True end.
(** What is reported for the first line of a field in a section: [r], given
    the note (if any) for a text that is no integer and for each integer. *)
Definition judged (k : str) (bad : nid) (rate : Z -> option nid) (l : list rawline) (r : list (nid * str)) : Prop :=
  match values k l with
  | [] => r = []
  | v :: _ => ((forall z, ~ int_text (strip v) z) /\ r = [(bad, about_field k)])
              \/ exists z, int_text (strip v) z /\ r = match rate z with Some c => [(c, about_field k)] | None => [] end
  end.

(** Names without a hyphen have one spelling. *)
Lemma unhyphened k l : lower k = k -> forallb (fun c => negb (c =? 45) && negb (c =? 95)) k = true -> hyphened k l.
Proof.
  intros Lk Hk. apply Forall_forall. intros r _ H. unfold token_of in H. rewrite Lk in H. change (key_of r) with (lower (name_of r)). revert H.
  generalize (lower (name_of r)). clear Lk. induction k as [|c k IH]; intros [|d n] H; try discriminate H; [reflexivity|].
  cbn [forallb] in Hk. apply andb_prop in Hk as [Hc Hk]. apply andb_prop in Hc as [H1 H2]. apply negb_true_iff in H1, H2. cbn [map] in H. rewrite H1 in H.
  injection H as Hd H. rewrite (IH Hk n H). f_equal. destruct (d =? 45); [|exact Hd]. subst c. discriminate H2.
Qed.

(** ** The value *)
Lemma keyed_number k least : whole_number k = Some least ->
  (k = u "age" /\ least = Some 0%Z) \/ (k = u "access-control-max-age" /\ least = Some 0%Z) \/ (k = u "content-length" /\ least = None).
Proof.
  unfold whole_number. destruct (str_eqb k (u "age")) eqn:E1; [intros H; injection H as <-; apply str_eqb_eq in E1; auto|].
  destruct (str_eqb k (u "access-control-max-age")) eqn:E2; [intros H; injection H as <-; apply str_eqb_eq in E2; auto|].
  destruct (str_eqb k (u "content-length")) eqn:E3; [intros H; injection H as <-; apply str_eqb_eq in E3; auto|discriminate].
Qed.
Theorem C29_value : forall e t start base hs ts m' tr k least,
  run_of e t start base hs ts m' -> unpadded k (section_lines tr hs ts) -> whole_number k = Some least -> processed t k = true ->
  match values k (section_lines tr hs ts) with
  | [] => value_in tr k m' = None
  | v :: _ => (forall z, value_in tr k m' = Some (VInt z) <-> int_text (strip v) z /\ enough least z)
              /\ (value_in tr k m' = Some VNone <-> forall z, int_text (strip v) z -> ~ enough least z)
  end.
Proof.
  intros e t start base hs ts m' tr k least R U K Hp. rewrite (run_value _ _ _ _ _ _ _ _ _ R U). destruct (values k _) as [|v more]; [reflexivity|]. cbn [nonempty].
  rewrite <- processed_eq in Hp. unfold field_value. change (m_type (new_linter t start false false base)) with t. rewrite Hp.
  set (V := new_linter t start false false base). clearbody V. clear Hp R U hs ts m'.
  assert (X : match (match kind_of (find_class k) with KSingleton => match parsed_as e V (find_class k) v with x :: _ => x | [] => VNone end | _ => VNone end) with
              | VInt z => int_text (strip v) z /\ enough least z | VNone => forall z, int_text (strip v) z -> ~ enough least z | _ => False end
              /\ kind_of (find_class k) = KSingleton).
  { destruct (keyed_number k least K) as [[-> ->]|[[-> ->]|[-> ->]]].
    - change (find_class (u "age")) with F_age. split; [|reflexivity]. change (kind_of F_age) with KSingleton. cbv iota. unfold parsed_as. cbn [parse_of]. unfold p_age.
      destruct (int_cases v) as [(z0 & -> & H0 & Hu)|[-> Hn]]; [|cbn; intros z H; destruct (Hn z H)].
      destruct (z0 <? 0)%Z eqn:Ez; [apply Z.ltb_lt in Ez; cbn; intros z H; rewrite (Hu z H); lia|apply Z.ltb_ge in Ez].
      destruct (2147483648 <? z0)%Z; cbn; auto.
    - change (find_class (u "access-control-max-age")) with F_access_control_max_age. split; [|reflexivity]. change (kind_of F_access_control_max_age) with KSingleton. cbv iota. unfold parsed_as. cbn [parse_of]. unfold p_acma.
      destruct (int_cases v) as [(z0 & -> & H0 & Hu)|[-> Hn]]; [|cbn; intros z H; destruct (Hn z H)].
      destruct (z0 <? 0)%Z eqn:Ez; [apply Z.ltb_lt in Ez; cbn; intros z H; rewrite (Hu z H); lia|apply Z.ltb_ge in Ez]. cbn; auto.
    - change (find_class (u "content-length")) with F_content_length. split; [|reflexivity]. change (kind_of F_content_length) with KSingleton. cbv iota. unfold parsed_as. cbn [parse_of]. unfold p_content_length.
      destruct (int_cases v) as [(z0 & -> & H0 & Hu)|[-> Hn]]; [|cbn; intros z H; destruct (Hn z H)].
      destruct (9223372036854775807 <? z0)%Z; cbn; auto. }
  destruct X as [X Kd]. rewrite Kd in X. rewrite Kd. destruct (match parsed_as _ _ _ v with x :: _ => x | [] => VNone end) eqn:Ev; try destruct X.
  - split; [intros z; split; [discriminate|intros [H1 H2]; destruct (X z H1 H2)]|]. split; [intros _; exact X|reflexivity].
  - split.
    + intros z'. split; [intros Y; injection Y as <-; auto|]. intros [H1 _]. rewrite (int_text_fun _ _ _ H1 H). reflexivity.
    + split; [discriminate|]. intros Y. destruct (Y z H H0).
Qed.
Print Assumptions C29_value.

(** ** The notes *)
Definition age_classes : list nid := [AGE_NOT_INT; AGE_NEGATIVE; AGE_LARGE].
Definition age_rate (z : Z) : option nid := if (z <? 0)%Z then Some AGE_NEGATIVE else if (2 ^ 31 <? z)%Z then Some AGE_LARGE else None.
Definition length_classes : list nid := [CL_BAD_SYNTAX; CL_TOO_LARGE].
Definition length_rate (z : Z) : option nid := if (2 ^ 63 - 1 <? z)%Z then Some CL_TOO_LARGE else None.
Definition max_age_classes : list nid := [CORS_MAX_AGE_INVALID; CORS_MAX_AGE_NEGATIVE].
Definition max_age_rate (z : Z) : option nid := if (z <? 0)%Z then Some CORS_MAX_AGE_NEGATIVE else None.
Lemma judged_says k bad rate P p l :
  (forall v, ((forall z, ~ int_text (strip v) z) /\ map fst (speak P [] (about_field k) (fst (p (strip v)))) = [(bad, about_field k)])
             \/ exists z, int_text (strip v) z /\ map fst (speak P [] (about_field k) (fst (p (strip v)))) = match rate z with Some c => [(c, about_field k)] | None => [] end) ->
  judged k bad rate l (map fst (single_says P [] k p (fun v => ret v) l)).
Proof.
  intros H. unfold judged, single_says. destruct (values k l) as [|v more]; [reflexivity|].
  replace (match snd (p (strip v)) with Ok x => match x with VNone => [] | _ => fst (ret x) end | Err _ => [] end) with (@nil ev) by (destruct (snd (p (strip v))) as [[]|]; reflexivity).
  rewrite app_nil_r. apply H.
Qed.
Theorem C29_age_notes : forall e rel top headers chunks complete trailers t start nc head base m' rel',
  lint e rel top headers chunks complete trailers (new_linter t start nc head base) = (m', rel', Ok tt) -> t <> MRequest ->
  exists rh rt, reports age_classes (m_notes m') = rh ++ rt /\ judged (u "age") AGE_NOT_INT age_rate headers rh /\ judged (u "age") AGE_NOT_INT age_rate trailers rt.
Proof.
  intros e rel top headers chunks complete trailers t start nc head base m' rel' E Ht.
  set (p := fun v => p_age (mkCx e m' None) (new_handler (u "age")) v).
  exists (map fst (single_says (classes age_classes) [] (u "age") p (fun v => ret v) headers)), (map fst (single_says (classes age_classes) [] (u "age") p (fun v => ret v) trailers)).
  assert (J : forall l, judged (u "age") AGE_NOT_INT age_rate l (map fst (single_says (classes age_classes) [] (u "age") p (fun v => ret v) l))).
  { intros l. apply judged_says. intros v. unfold p, p_age, age_rate. destruct (int_cases v) as [(z0 & -> & H0 & Hu)|[-> Hn]].
    - right. exists z0. split; [exact H0|]. change (2 ^ 31)%Z with 2147483648%Z. destruct (z0 <? 0)%Z; [reflexivity|]. destruct (2147483648 <? z0)%Z; reflexivity.
    - left. split; [exact Hn|reflexivity]. }
  split; [|split; apply J]. rewrite (reports_heard _ []), <- map_app. f_equal.
  apply (single_own_top (classes age_classes) [] F_age (u "age") p (fun v => ret v) e rel top headers chunks complete trailers t start nc head base m' rel' E).
  - apply mine_b_ok. vm_compute. reflexivity.
  - apply quiet_b_ok. vm_compute. reflexivity.
  - reflexivity.
  - reflexivity.
  - vm_compute. tauto.
  - reflexivity.
  - reflexivity.
  - reflexivity.
  - destruct t; [congruence|reflexivity|reflexivity].
  - apply unhyphened; reflexivity.
  - apply unhyphened; reflexivity.
  - reflexivity.
  - intros v. unfold p, p_age. destruct (py_int v) as [z|]; [|repeat constructor]. destruct (z <? 0)%Z; [repeat constructor|]. destruct (2147483648 <? z)%Z; repeat constructor.
  - intros V h _ Hh. split; [|intros s]; destruct V, h; cbn in Hh; subst; try constructor; reflexivity.
Qed.
Print Assumptions C29_age_notes.
Theorem C29_content_length_notes : forall e rel top headers chunks complete trailers t start nc head base m' rel',
  lint e rel top headers chunks complete trailers (new_linter t start nc head base) = (m', rel', Ok tt) -> hyphened (u "content-length") headers -> hyphened (u "content-length") trailers ->
  exists rh rt, reports length_classes (m_notes m') = rh ++ rt /\ judged (u "content-length") CL_BAD_SYNTAX length_rate headers rh /\ judged (u "content-length") CL_BAD_SYNTAX length_rate trailers rt.
Proof.
  intros e rel top headers chunks complete trailers t start nc head base m' rel' E Y1 Y2.
  set (p := fun v => p_content_length (mkCx e m' None) (new_handler (u "content-length")) v).
  exists (map fst (single_says (classes length_classes) [] (u "content-length") p (fun v => ret v) headers)), (map fst (single_says (classes length_classes) [] (u "content-length") p (fun v => ret v) trailers)).
  assert (J : forall l, judged (u "content-length") CL_BAD_SYNTAX length_rate l (map fst (single_says (classes length_classes) [] (u "content-length") p (fun v => ret v) l))).
  { intros l. apply judged_says. intros v. unfold p, p_content_length, length_rate. destruct (int_cases v) as [(z0 & -> & H0 & Hu)|[-> Hn]].
    - right. exists z0. split; [exact H0|]. change (2 ^ 63 - 1)%Z with 9223372036854775807%Z. destruct (9223372036854775807 <? z0)%Z; reflexivity.
    - left. split; [exact Hn|reflexivity]. }
  split; [|split; apply J]. rewrite (reports_heard _ []), <- map_app. f_equal.
  apply (single_own_top (classes length_classes) [] F_content_length (u "content-length") p (fun v => ret v) e rel top headers chunks complete trailers t start nc head base m' rel' E).
  - apply mine_b_ok. vm_compute. reflexivity.
  - apply quiet_b_ok. vm_compute. reflexivity.
  - reflexivity.
  - reflexivity.
  - vm_compute. tauto.
  - reflexivity.
  - reflexivity.
  - reflexivity.
  - destruct t; reflexivity.
  - exact Y1.
  - exact Y2.
  - reflexivity.
  - intros v. unfold p, p_content_length. destruct (py_int v) as [z|]; [|repeat constructor]. destruct (9223372036854775807 <? z)%Z; repeat constructor.
  - intros V h _ Hh. unfold eval_of. cbn [eval_list eval_item eval_dict]. unfold keep, ev_content_length. destruct (has_hdr _ _); split; try (intros s; reflexivity); repeat constructor.
Qed.
Print Assumptions C29_content_length_notes.
Theorem C29_max_age_notes : forall e rel top headers chunks complete trailers t start nc head base m' rel',
  lint e rel top headers chunks complete trailers (new_linter t start nc head base) = (m', rel', Ok tt) -> t <> MRequest ->
  hyphened (u "access-control-max-age") headers -> hyphened (u "access-control-max-age") trailers ->
  exists rh rt, reports max_age_classes (m_notes m') = rh ++ rt /\ judged (u "access-control-max-age") CORS_MAX_AGE_INVALID max_age_rate headers rh /\ judged (u "access-control-max-age") CORS_MAX_AGE_INVALID max_age_rate trailers rt.
Proof.
  intros e rel top headers chunks complete trailers t start nc head base m' rel' E Ht Y1 Y2.
  set (p := fun v => p_acma (mkCx e m' None) (new_handler (u "access-control-max-age")) v).
  exists (map fst (single_says (classes max_age_classes) [] (u "access-control-max-age") p (fun v => ret v) headers)), (map fst (single_says (classes max_age_classes) [] (u "access-control-max-age") p (fun v => ret v) trailers)).
  assert (J : forall l, judged (u "access-control-max-age") CORS_MAX_AGE_INVALID max_age_rate l (map fst (single_says (classes max_age_classes) [] (u "access-control-max-age") p (fun v => ret v) l))).
  { intros l. apply judged_says. intros v. unfold p, p_acma, max_age_rate. destruct (int_cases v) as [(z0 & -> & H0 & Hu)|[-> Hn]].
    - right. exists z0. split; [exact H0|]. destruct (z0 <? 0)%Z; reflexivity.
    - left. split; [exact Hn|reflexivity]. }
  split; [|split; apply J]. rewrite (reports_heard _ []), <- map_app. f_equal.
  apply (single_own_top (classes max_age_classes) [] F_access_control_max_age (u "access-control-max-age") p (fun v => ret v) e rel top headers chunks complete trailers t start nc head base m' rel' E).
  - apply mine_b_ok. vm_compute. reflexivity.
  - apply quiet_b_ok. vm_compute. reflexivity.
  - reflexivity.
  - reflexivity.
  - vm_compute. tauto.
  - reflexivity.
  - reflexivity.
  - reflexivity.
  - destruct t; [congruence|reflexivity|reflexivity].
  - exact Y1.
  - exact Y2.
  - reflexivity.
  - intros v. unfold p, p_acma. destruct (py_int v) as [z|]; [|repeat constructor]. destruct (z <? 0)%Z; repeat constructor.
  - intros V h _ Hh. split; [|intros s]; destruct V, h; cbn in Hh; subst; try constructor; reflexivity.
Qed.
Print Assumptions C29_max_age_notes.
(** Concrete cases. *)
Definition int_sample : list rawline := raws [("Age", " -1 "); ("Content-Length", "+9223372036854775808"); ("age", "5"); ("Access-Control-Max-Age", "1__0"); ("Transfer-Encoding", "chunked")]%string.
Example C29_ex : let '(m, _, r) := lint env0 None NoTop int_sample [] true (raws [("Age", "3_0")]%string) (new_linter MResponse None false false []) in
  r = Ok tt /\ reports age_classes (m_notes m) = [(AGE_NEGATIVE, u "field-age")] /\ reports length_classes (m_notes m) = [(CL_TOO_LARGE, u "field-content-length")]
  /\ reports max_age_classes (m_notes m) = [(CORS_MAX_AGE_INVALID, u "field-access-control-max-age")]
  /\ value_in false (u "age") m = Some VNone /\ value_in true (u "age") m = Some (VInt 30) /\ value_in false (u "content-length") m = Some (VInt 9223372036854775808).
Proof. vm_compute. repeat split. Qed.
Example C29_hyp : hyphened (u "content-length") int_sample /\ hyphened (u "access-control-max-age") int_sample
  /\ unpadded (u "age") int_sample /\ unpadded (u "content-length") int_sample /\ unpadded (u "access-control-max-age") int_sample
  /\ processed MResponse (u "age") = true /\ processed MRequest (u "content-length") = true.
Proof. repeat split; try (apply hyphened_dec; vm_compute; reflexivity); try (apply unpadded_dec; vm_compute; reflexivity). Qed.
