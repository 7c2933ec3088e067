(** * What processing a field section does, line by line and field by field. *)
From Verif Require Import PyStr Regex Grammar Note PyLib Utils FieldAttrs Types Fields1 Fields2 Fields3 Framework
  EvLogic NoteLemmas LexLemmas ParamLemmas NumLemmas NameLemmas FrameLemmas PassFrame PassSec PassProc.
From Coq Require Import ZifyBool ZifyN.
Open Scope N_scope.

(** ** What parsing can see of the message: not its field sections or notes. *)
Definition still (m : mstate) : mstate := m_set_notes [] (m_set_sec true (new_section true) (m_set_sec false (new_section false) m)).
Lemma parse_still f e m rel h v : parse_of f (mkCx e m rel) h v = parse_of f (mkCx e (still m) rel) h v.
Proof. destruct m. destruct f; reflexivity. Qed.
(** ... and of its own handler: not what was parsed before. *)
Definition blank (h : handler) : handler := mkHandler (h_cls h) (h_wire h) [] [] VNone [] false [].
Lemma parse_blank f c h v : parse_of f c h v = parse_of f c (blank h) v.
Proof. destruct h. destruct f; reflexivity. Qed.
Lemma still_emit l m : still (m_emit l m) = still m. Proof. reflexivity. Qed.
Lemma still_notes l m : still (m_set_notes l m) = still m. Proof. reflexivity. Qed.
Lemma still_set tr s m : still (m_set_sec tr s m) = still m. Proof. destruct tr; reflexivity. Qed.
Lemma still_type m : m_type (still m) = m_type m. Proof. reflexivity. Qed.
Lemma list_member_still e m rel h v : list_member (mkCx e m rel) h v = list_member (mkCx e (still m) rel) h v.
Proof. unfold list_member. rewrite parse_still. reflexivity. Qed.
Lemma list_input_still e m rel subj l : forall h, list_input (mkCx e m rel) subj h l = list_input (mkCx e (still m) rel) subj h l.
Proof.
  induction l as [|v l IH]; intros h; [reflexivity|]. cbn [list_input]. rewrite list_member_still.
  destruct (list_member _ h v) as [evs [o|x]]; [|reflexivity]. rewrite IH. reflexivity.
Qed.
Lemma handle_input_still e m rel h v o : handle_input (mkCx e m rel) h v o = handle_input (mkCx e (still m) rel) h v o.
Proof. unfold handle_input. rewrite list_input_still. reflexivity. Qed.

(** ** One line *)
Definition raw_name (raw : bytes * bytes) : str := fst (read_name (fst raw)).
Definition raw_value (raw : bytes * bytes) : str := fst (read_value (raw_name raw) (snd raw)).
Definition raw_key (raw : bytes * bytes) : str := lower (raw_name raw).
Definition raw_size (raw : bytes * bytes) : N := N.of_nat (length (fst raw) + length (snd raw)).
Definition enc_events (raw : bytes * bytes) : list ev := snd (read_name (fst raw)) ++ snd (read_value (raw_name raw) (snd raw)).
Definition size_events (h : handler) (raw : bytes * bytes) : list ev :=
  if max_field_size <? raw_size raw
  then [ENote FIELD_TOO_LARGE None [(k_field_name, VStr (h_canon h)); (u "field_size", VStr (f_num (Z.of_N (raw_size raw))))] []]
  else [].
Definition own_handler (hs : dict handler) (raw : bytes * bytes) : handler :=
  match dget (raw_key raw) hs with Some h => h | None => new_handler (raw_name raw) end.
(** A line given to its handler: the pre-check's events, the input's, the
    handler, whether it was accepted. *)
Definition taken (e : env) (V : mstate) (rel : option mstate) (h : handler) (v : str) (o : nat)
  : list ev * list sev * handler * bool * res unit :=
  let '(h1, l3, go) := pre_check (m_type V) h in
  if go then let '(l4, h2, r) := handle_input (mkCx e V rel) h1 v o in (l3, l4, h2, true, r)
  else (l3, [], h1, false, Ok tt).
Lemma field_line_eq e rel tr m o raw :
  let s := sec tr m in
  let h := own_handler (s_handlers s) raw in
  let '(l3, l4, h2, go, r) := taken e (still m) rel h (raw_value raw) o in
  let evs := tag (offset_subj o) [] (enc_events raw) ++ tag (offset_subj o) (line_base h) l3 ++ l4
             ++ match go, r with true, Ok _ => tag (offset_subj o) [] (size_events h raw) | _, _ => [] end in
  field_line e rel tr m o raw =
    (m_emit evs (m_set_sec tr (mkSection (s_trailer s) (s_text s ++ [(raw_name raw, raw_value raw)]) (s_parsed s)
                                 (s_size s + raw_size raw) (dset (raw_key raw) h2 (s_handlers s))) m),
     match go, r with true, Ok _ => S o | _, _ => o end, r).
Proof.
  cbv zeta. unfold field_line, taken. destruct raw as [name value].
  unfold raw_size, raw_value, raw_key, enc_events, size_events, own_handler, raw_key, raw_name. cbn [fst snd].
  destruct (read_name name) as [sname l1]. cbn [fst snd]. destruct (read_value sname value) as [sv l2]. cbn [fst snd].
  set (s := sec tr m). set (size := N.of_nat _). set (s1 := s_line s size (sname, sv)).
  set (h := match dget (lower sname) (s_handlers s) with Some h => h | None => new_handler sname end).
  assert (F : exists s2, find_handler s1 sname = (s2, h) /\ forall h', put_handler (lower sname) h' s2 =
     mkSection (s_trailer s) (s_text s ++ [(sname, sv)]) (s_parsed s) (s_size s + size) (dset (lower sname) h' (s_handlers s))).
  { unfold find_handler, h. change (s_handlers s1) with (s_handlers s). destruct (dget (lower sname) (s_handlers s)) as [h0|].
    - exists s1. split; reflexivity.
    - eexists. split; [reflexivity|]. intros h'. unfold put_handler, s_set_handlers. cbn [s_handlers s_trailer s_text s_parsed s_size]. rewrite dset_dset. reflexivity. }
  destruct F as (s2 & -> & Hput). change (m_type (still m)) with (m_type m).
  destruct (pre_check (m_type m) h) as [[h1 l3] go]. set (m1 := m_set_sec tr _ _).
  assert (Em : forall a b s' m0, m_emit b (m_set_sec tr s' (m_emit a m0)) = m_emit (a ++ b) (m_set_sec tr s' m0)).
  { intros. unfold m_emit. destruct tr; cbn; rewrite emit_app; reflexivity. }
  assert (Ee : forall a b m0, m_emit b (m_emit a m0) = m_emit (a ++ b) m0).
  { intros. unfold m_emit. cbn. rewrite emit_app. reflexivity. }
  destruct go; cbn [negb].
  2: { f_equal. f_equal. unfold m1. rewrite Hput, app_nil_r. unfold m_emit. destruct tr; reflexivity. }
  assert (Sm : still m1 = still m) by (unfold m1; rewrite still_set; apply still_emit). rewrite (handle_input_still e m1), Sm.
  destruct (handle_input (mkCx e (still m) rel) h1 sv o) as [[l4 h2] r].
  assert (M2 : m_emit l4 (m_set_sec tr (put_handler (lower sname) h2 (sec tr m1)) m1) =
     m_emit (tag (offset_subj o) [] (l1 ++ l2) ++ tag (offset_subj o) (line_base h) l3 ++ l4)
       (m_set_sec tr (mkSection (s_trailer s) (s_text s ++ [(sname, sv)]) (s_parsed s) (s_size s + size) (dset (lower sname) h2 (s_handlers s))) m)).
  { unfold m1. rewrite sec_set, Hput.
    assert (Ep : put_handler (lower sname) h2 (mkSection (s_trailer s) (s_text s ++ [(sname, sv)]) (s_parsed s) (s_size s + size) (dset (lower sname) h1 (s_handlers s))) =
       mkSection (s_trailer s) (s_text s ++ [(sname, sv)]) (s_parsed s) (s_size s + size) (dset (lower sname) h2 (s_handlers s))).
    { unfold put_handler, s_set_handlers. cbn. rewrite dset_dset. reflexivity. }
    assert (SS : forall a b m0, m_set_sec tr a (m_set_sec tr b m0) = m_set_sec tr a m0) by (intros; destruct tr; reflexivity).
    rewrite Ep, SS, app_assoc, <- Em. reflexivity. }
  destruct r as [x|x]; rewrite M2.
  - destruct x. rewrite Ee, <- !app_assoc. reflexivity.
  - rewrite app_nil_r. reflexivity.
Qed.

(** ** The pre-check *)
Lemma isspace_lowc c : isspace (lowc c) = isspace c.
Proof.
  destruct (N.eq_dec (lowc c) c) as [E|E]; [rewrite E; reflexivity|].
  unfold lowc, is_upper_ascii in *. unfold isspace.
  destruct ((65 <=? c) && (c <=? 90)) eqn:E1; [|destruct ((192 <=? c) && (c <=? 222) && negb (c =? 215)) eqn:E2; [|congruence]]; lia.
Qed.
Lemma drop_while_lower s : drop_while isspace (lower s) = lower (drop_while isspace s).
Proof. induction s as [|c s IH]; [reflexivity|]. cbn. rewrite isspace_lowc. destruct (isspace c); [exact IH|reflexivity]. Qed.
Lemma strip_lower s : strip (lower s) = lower (strip s).
Proof.
  unfold strip, rstrip, lstrip, lower.
  assert (D : forall x, drop_while isspace (map lowc x) = map lowc (drop_while isspace x)) by exact drop_while_lower.
  rewrite ?map_rev, !D, <- ?map_rev, ?D, <- ?map_rev. reflexivity.
Qed.
Lemma tchar_lowc_iff c : tchar (lowc c) = tchar c.
Proof.
  destruct (tchar c) eqn:E.
  - destruct (N.eq_dec (lowc c) c) as [E2|E2]; [rewrite E2; exact E|].
    unfold lowc in *. destruct (is_upper_ascii c) eqn:Eu.
    + rewrite <- f_tchar_ok in *. unfold is_upper_ascii in Eu. unfold f_tchar, in_ranges in *. cbn [existsb fst snd] in *. lia.
    + destruct ((192 <=? c) && (c <=? 222) && negb (c =? 215)) eqn:E3; [|congruence]. apply tchar_facts in E. lia.
  - destruct (tchar (lowc c)) eqn:E2; [|reflexivity]. apply tchar_lowc in E2. congruence.
Qed.
Lemma tok_lower_iff s : tok (lower s) = tok s.
Proof.
  unfold tok, lower. destruct s as [|c s]; [reflexivity|]. cbn [nonempty map]. f_equal. change (lowc c :: map lowc s) with (map lowc (c :: s)). generalize (c :: s). intros x.
  induction x as [|y x IH]; [reflexivity|]. cbn [map forallb]. rewrite tchar_lowc_iff, IH. reflexivity.
Qed.
Lemma tok_strip_case a b : lower a = lower b -> tok (strip a) = tok (strip b).
Proof. intros H. rewrite <- (tok_lower_iff (strip a)), <- (tok_lower_iff (strip b)), <- !strip_lower, H. reflexivity. Qed.
Lemma match_tok s : match_dollar (nocase rfc9110_token) (strip s) = tok (strip s).
Proof.
  destruct (tok (strip s)) eqn:E; [apply tok_match, E|]. destruct (match_dollar _ _) eqn:E2; [|reflexivity].
  apply token_match in E2 as [H|(x & Hx & H)]; [apply tok_token in H; congruence|]. exfalso.
  destruct (strip_stripped s) as [_ B]. specialize (B 10). rewrite Hx in B. unfold last_chr in B. rewrite rev_app_distr in B. specialize (B eq_refl). discriminate.
Qed.
(** Whether a line is accepted depends on its name and the kind of message only. *)
Definition accepted (t : mtype) (n : str) : bool := negb (wrong t (find_class n)) && tok (strip n).
Definition wrong_class (t : mtype) : nid := match t with MRequest => RESPONSE_HDR_IN_REQUEST | _ => REQUEST_HDR_IN_RESPONSE end.
Definition dep_events (h : handler) : list ev :=
  if fa_dep (attrs (h_cls h)) then [ENote FIELD_DEPRECATED (Some (handler_cat h)) [(u "deprecation_ref", VStr (u (handler_ref h)))] []] else [].
Notation any := (fun _ : str => True).
Lemma pre_check_eq t k h n : ident any (k, h) -> k = lower n ->
  pre_check t h = if wrong t (find_class n) then (h_set_val h VNone, [ENote (wrong_class t) (Some (handler_cat h)) [] []], false)
                  else if tok (strip n) then (h, dep_events h, true) else (h, [ENote FIELD_NAME_BAD_SYNTAX None [] []], false).
Proof.
  intros (n' & _ & Ek & (E1 & E2 & _)) ->. cbn [fst snd] in *.
  assert (Ec : h_cls h = find_class n) by (rewrite E1; apply find_class_case; congruence).
  assert (Ew : match_dollar (nocase rfc9110_token) (h_wire h) = tok (strip n)).
  { rewrite E2. cbn [h_wire new_handler]. rewrite match_tok. apply tok_strip_case. congruence. }
  unfold pre_check, dep_events. rewrite Ew, Ec. unfold wrong, wrong_class.
  destruct t, (fa_req (attrs (find_class n))), (fa_resp (attrs (find_class n))); cbn [negb]; try reflexivity;
    destruct (tok (strip n)); cbn [negb]; try reflexivity; destruct (fa_dep _); reflexivity.
Qed.

(** ** All lines *)
(** Lines with the numbers they are known by: rejected lines are not counted. *)
Fixpoint placed (t : mtype) (o : nat) (raws : list (bytes * bytes)) : list (bytes * bytes * nat) :=
  match raws with
  | [] => []
  | r :: rs => (r, o) :: placed t (if accepted t (raw_name r) then S o else o) rs
  end.
Definition keyed (k : str) (ro : bytes * bytes * nat) : bool := str_eqb (raw_key (fst ro)) k.
Definition input_of (ro : bytes * bytes * nat) : str * nat := (raw_value (fst ro), snd ro).
(** A field's lines given to its handler, one by one. *)
Fixpoint feeds (e : env) (V : mstate) (rel : option mstate) (h : handler) (l : list (str * nat)) : list sev * handler * res unit :=
  match l with
  | [] => ([], h, Ok tt)
  | (v, o) :: l' =>
      let '(_, l4, h2, _, r) := taken e V rel h v o in
      match r with
      | Err x => (l4, h2, Err x)
      | Ok _ => let '(l5, h', r') := feeds e V rel h2 l' in (l4 ++ l5, h', r')
      end
  end.
Lemma feeds_cons e V rel h ro l : feeds e V rel h (map input_of (ro :: l)) =
  let '(_, l4, h2, _, r) := taken e V rel h (raw_value (fst ro)) (snd ro) in
  match r with
  | Err x => (l4, h2, Err x)
  | Ok _ => let '(l5, h', r') := feeds e V rel h2 (map input_of l) in (l4 ++ l5, h', r')
  end.
Proof. reflexivity. Qed.
Lemma own_handler_ident hs raw : Forall (ident any) hs -> ident any (raw_key raw, own_handler hs raw).
Proof.
  intros H. unfold own_handler. destruct (dget _ _) as [h|] eqn:E.
  - apply dget_In in E. rewrite Forall_forall in H. apply (H _ E).
  - exists (raw_name raw). split; [exact I|]. split; [reflexivity|apply same_id_refl].
Qed.
Lemma handle_input_id c h v o : same_id h (snd (fst (handle_input c h v o))).
Proof.
  assert (A : forall h x, same_id h (append_val h x)) by (intros h0 x; unfold append_val; destruct (h_val h0); repeat split).
  assert (L : forall subj l h, same_id h (snd (fst (list_input c subj h l)))).
  { intros subj l. induction l as [|x l IH]; intros h0; [apply same_id_refl|]. cbn [list_input]. destruct (list_member c h0 x) as [evs [o0|y]]; [|repeat split].
    set (h2 := match o0 with Some _ => _ | None => _ end). specialize (IH h2). destruct (list_input c subj h2 l) as [[evs' h'] r']. cbn [fst snd] in *.
    apply (same_id_trans _ h2); [|exact IH]. unfold h2. destruct o0; [|repeat split]. apply (same_id_trans _ (h_add_aux h0 (aux_of (tag subj (line_base h0) evs)))); [repeat split|apply A]. }
  unfold handle_input. destruct (kind_of _); cbn [fst snd]; first [apply L|apply A|exact (A h (VStr v))|solve [repeat split]].
Qed.
Lemma taken_id e V rel h v o : same_id h (snd (fst (fst (taken e V rel h v o)))).
Proof.
  unfold taken. assert (P : same_id h (fst (fst (pre_check (m_type V) h)))).
  { unfold pre_check. destruct (m_type V), (fa_req (attrs (h_cls h))), (fa_resp (attrs (h_cls h))); try solve [repeat split];
      destruct (match_dollar _ _); try solve [repeat split]; destruct (fa_dep (attrs (h_cls h))); repeat split. }
  destruct (pre_check (m_type V) h) as [[h1 l3] go]. cbn [fst] in P. destruct go; [|exact P].
  pose proof (handle_input_id (mkCx e V rel) h1 v o) as Q. destruct (handle_input (mkCx e V rel) h1 v o) as [[l4 h2] r]. cbn [fst snd] in *.
  exact (same_id_trans _ _ _ P Q).
Qed.
Lemma Forall_dset {A} (Q : str * A -> Prop) k v d : Forall Q d -> Q (k, v) -> Forall Q (dset k v d).
Proof.
  induction d as [|[k2 v2] d IH]; cbn [dset]; intros H Hv; [constructor; auto|]. inversion H; subst.
  destruct (str_eqb k k2) eqn:E; [|constructor; auto]. apply str_eqb_eq in E. subst. constructor; auto.
Qed.
Lemma line_step e rel tr m o raw m' o' : Forall (ident any) (s_handlers (sec tr m)) ->
  field_line e rel tr m o raw = (m', o', Ok tt) ->
  let h := own_handler (s_handlers (sec tr m)) raw in
  exists l3 l4 h2,
    taken e (still m) rel h (raw_value raw) o = (l3, l4, h2, accepted (m_type m) (raw_name raw), Ok tt)
    /\ o' = (if accepted (m_type m) (raw_name raw) then S o else o)
    /\ m' = m_emit (tag (offset_subj o) [] (enc_events raw) ++ tag (offset_subj o) (line_base h) l3 ++ l4
                    ++ if accepted (m_type m) (raw_name raw) then tag (offset_subj o) [] (size_events h raw) else [])
             (m_set_sec tr (mkSection (s_trailer (sec tr m)) (s_text (sec tr m) ++ [(raw_name raw, raw_value raw)]) (s_parsed (sec tr m))
                                 (s_size (sec tr m) + raw_size raw) (dset (raw_key raw) h2 (s_handlers (sec tr m)))) m)
    /\ Forall (ident any) (dset (raw_key raw) h2 (s_handlers (sec tr m))).
Proof.
  intros Hi E h. pose proof (field_line_eq e rel tr m o raw) as F. cbv zeta in F. fold h in F.
  pose proof (own_handler_ident _ raw Hi) as Hh. fold h in Hh.
  assert (G : snd (fst (taken e (still m) rel h (raw_value raw) o)) = accepted (m_type m) (raw_name raw)).
  { unfold taken. change (m_type (still m)) with (m_type m). rewrite (pre_check_eq _ _ _ (raw_name raw) Hh eq_refl). unfold accepted.
    destruct (wrong _ _); [reflexivity|]. destruct (tok _); [|reflexivity]. destruct (handle_input _ _ _ _) as [[? ?] ?]. reflexivity. }
  pose proof (taken_id e (still m) rel h (raw_value raw) o) as Hid.
  destruct (taken e (still m) rel h (raw_value raw) o) as [[[[l3 l4] h2] go] r]. cbn [fst snd] in G, Hid. subst go. rewrite E in F. injection F as Em Eo Er.
  subst r. exists l3, l4, h2. split; [reflexivity|]. split; [rewrite Eo; destruct (accepted _ _); reflexivity|].
  split; [rewrite Em; destruct (accepted _ _); reflexivity|]. apply Forall_dset; [exact Hi|]. apply (same_id_ident any _ _ _ Hh Hid).
Qed.
(** The section after its lines. *)
Definition sum_sizes (raws : list (bytes * bytes)) : N := fold_right (fun r n => raw_size r + n) 0 raws.
Lemma lines_section e rel tr raws : forall m o m', Forall (ident any) (s_handlers (sec tr m)) ->
  field_lines e rel tr m o raws = (m', Ok tt) ->
  s_text (sec tr m') = s_text (sec tr m) ++ map (fun r => (raw_name r, raw_value r)) raws
  /\ s_size (sec tr m') = s_size (sec tr m) + sum_sizes raws
  /\ s_parsed (sec tr m') = s_parsed (sec tr m) /\ still m' = still m
  /\ Forall (ident any) (s_handlers (sec tr m')) /\ (NoDup (keys (s_handlers (sec tr m))) -> NoDup (keys (s_handlers (sec tr m')))).
Proof.
  induction raws as [|raw raws IH]; intros m o m' Hi E; cbn [field_lines] in E.
  - injection E as <-. cbn. rewrite app_nil_r, N.add_0_r. auto 10.
  - destruct (field_line e rel tr m o raw) as [[m1 o1] [[]|x]] eqn:E1; [|discriminate].
    destruct (line_step e rel tr m o raw m1 o1 Hi E1) as (l3 & l4 & h2 & _ & _ & Em & Hi1).
    assert (S1 : sec tr m1 = mkSection (s_trailer (sec tr m)) (s_text (sec tr m) ++ [(raw_name raw, raw_value raw)]) (s_parsed (sec tr m))
                                 (s_size (sec tr m) + raw_size raw) (dset (raw_key raw) h2 (s_handlers (sec tr m)))) by (rewrite Em, sec_emit, sec_set; reflexivity).
    assert (St : still m1 = still m) by (rewrite Em, still_emit, still_set; reflexivity).
    destruct (IH m1 o1 m') as (A1 & A2 & A3 & A4 & A5 & A6); [rewrite S1; exact Hi1|exact E|].
    rewrite A1, A2, A3, A4, St, S1. cbn [s_text s_size s_parsed s_handlers map sum_sizes fold_right]. rewrite <- app_assoc, N.add_assoc.
    repeat (split; [reflexivity|]). split; [exact A5|]. intros Hn. apply A6. rewrite S1. apply dset_NoDup, Hn.
Qed.
(** Each field's handler. *)
Lemma lines_handlers e rel tr raws : forall m o m', Forall (ident any) (s_handlers (sec tr m)) ->
  field_lines e rel tr m o raws = (m', Ok tt) ->
  forall k, match filter (keyed k) (placed (m_type m) o raws) with
            | [] => dget k (s_handlers (sec tr m')) = dget k (s_handlers (sec tr m))
            | ro :: l => exists evs h', feeds e (still m) rel (own_handler (s_handlers (sec tr m)) (fst ro)) (map input_of (ro :: l)) = (evs, h', Ok tt)
                /\ dget k (s_handlers (sec tr m')) = Some h'
            end.
Proof.
  induction raws as [|raw raws IH]; intros m o m' Hi E k; cbn [field_lines placed filter] in *.
  - injection E as <-. reflexivity.
  - destruct (field_line e rel tr m o raw) as [[m1 o1] [[]|x]] eqn:E1; [|discriminate].
    destruct (line_step e rel tr m o raw m1 o1 Hi E1) as (l3 & l4 & h2 & Et & Eo & Em & Hi1).
    assert (S1 : s_handlers (sec tr m1) = dset (raw_key raw) h2 (s_handlers (sec tr m))) by (rewrite Em, sec_emit, sec_set; reflexivity).
    assert (St : still m1 = still m) by (rewrite Em, still_emit, still_set; reflexivity).
    assert (T1 : m_type m1 = m_type m) by (rewrite <- still_type, St; reflexivity).
    specialize (IH m1 o1 m'). rewrite S1 in IH. specialize (IH Hi1 E k). rewrite T1, Eo, St in IH.
    unfold keyed at 1. cbn [fst]. destruct (str_eqb (raw_key raw) k) eqn:Ek.
    + apply str_eqb_eq in Ek. rewrite feeds_cons. cbn [fst snd]. rewrite Et.
      destruct (filter (keyed k) _) as [|ro l] eqn:Ef.
      * exists (l4 ++ []), h2. split; [reflexivity|]. rewrite IH, dget_dset, Ek, str_eqb_refl. reflexivity.
      * destruct IH as (evs & h' & Hf & Hd).
        assert (Ko : raw_key (fst ro) = k).
        { assert (Hin : In ro (filter (keyed k) (placed (m_type m) (if accepted (m_type m) (raw_name raw) then S o else o) raws))) by (rewrite Ef; left; reflexivity).
          apply filter_In in Hin as [_ Hin]. apply str_eqb_eq in Hin. exact Hin. }
        assert (Oh : own_handler (dset (raw_key raw) h2 (s_handlers (sec tr m))) (fst ro) = h2).
        { unfold own_handler. rewrite dget_dset, Ko, Ek, str_eqb_refl. reflexivity. }
        rewrite Oh in Hf. rewrite Hf. eauto.
    + destruct (filter (keyed k) _) as [|ro l] eqn:Ef.
      * rewrite IH, dget_dset. rewrite str_eqb_sym in Ek. rewrite Ek. reflexivity.
      * destruct IH as (evs & h' & Hf & Hd). exists evs, h'. split; [|exact Hd]. rewrite <- Hf. f_equal.
        assert (Ko : raw_key (fst ro) = k).
        { assert (Hin : In ro (filter (keyed k) (placed (m_type m) (if accepted (m_type m) (raw_name raw) then S o else o) raws))) by (rewrite Ef; left; reflexivity).
          apply filter_In in Hin as [_ Hin]. apply str_eqb_eq in Hin. exact Hin. }
        unfold own_handler. rewrite dget_dset, Ko. rewrite str_eqb_sym in Ek. rewrite Ek. reflexivity.
Qed.
