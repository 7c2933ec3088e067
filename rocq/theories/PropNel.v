(** * C59: NEL and Report-To. *)
From Coq Require Import Lia QArith.
From Verif Require Import PyStr Regex Grammar NoteTable Note PyLib Utils FieldAttrs Types Fields1 Fields2 Fields3 Framework Checks Message
  EvLogic NoteLemmas TestEnv LexLemmas ParamLemmas NumLemmas NameLemmas FrameLemmas ContentLemmas BodyLemmas PassParse PassEval PassFrame PassSec PassProc PassRun Session SessionLemmas
  SectionLemmas SecNotes SecValues LintLemmas FieldSpec PropFields PropValues PropNames PropParse OwnLemmas ListSpec PropLists PropCC ListExamples FieldExamples PropInts FieldDue OwnTac OwnMore KidSpec OwnFull
  PlainSpec PropPlain SFSpec PropSF GroupRun GroupPost IsolationSpec PropIsolation PropConneg EndLemmas NelSpec.
Open Scope N_scope.

(** ** The last value of a key *)
Lemma last_get {A} (p : list (str * A)) k a : dget k (dupdate [] p) = Some a <-> last_of p k a.
Proof.
  rewrite dget_dupdate. unfold dlast. revert a. induction p as [|[x b] p IH] using rev_ind; intros a.
  - cbn [rev dget]. split; [discriminate|]. intros (p1 & p2 & H & _). destruct p1; discriminate.
  - rewrite rev_app_distr. cbn [rev app dget]. destruct (str_eqb k x) eqn:Ex.
    + apply str_eqb_eq in Ex. subst x. split.
      * intros H. injection H as <-. exists p, []. split; [reflexivity|intros []].
      * intros (p1 & p2 & H & Hn). destruct p2 as [|y p2] using rev_ind; [apply app_inj_tail in H as [_ H]; congruence|]. clear IHp2.
        assert (H' : p ++ [(k, b)] = (p1 ++ (k, a) :: p2) ++ [y]) by (rewrite H, <- app_assoc; reflexivity). apply app_inj_tail in H' as [_ <-].
        exfalso. apply Hn. rewrite map_app. apply in_or_app. right. left. reflexivity.
    + assert (Nx : k <> x) by (intros C; rewrite C, str_eqb_refl in Ex; discriminate).
      etransitivity; [exact (IH a)|]. split.
      * intros (p1 & p2 & -> & Hn). exists p1, (p2 ++ [(x, b)]). rewrite <- app_assoc. split; [reflexivity|]. rewrite map_app. intros C. apply in_app_or in C as [C|[C|[]]]; [exact (Hn C)|]. cbn [fst] in C. congruence.
      * intros (p1 & p2 & H & Hn). destruct p2 as [|y p2] using rev_ind; [apply app_inj_tail in H as [_ H]; congruence|]. clear IHp2.
        assert (H' : p ++ [(x, b)] = (p1 ++ (k, a) :: p2) ++ [y]) by (rewrite H, <- app_assoc; reflexivity). apply app_inj_tail in H' as [-> _]. exists p1, p2. split; [reflexivity|].
        intros C. apply Hn. rewrite map_app. apply in_or_app. left. exact C.
Qed.
Lemma last_one {A} (p : list (str * A)) k a b : last_of p k a -> last_of p k b -> a = b.
Proof. rewrite <- !last_get. congruence. Qed.
(** What a policy has for a key. *)
Lemma has_get d (k : string) : match dget (u k) (dupdate [] (map (fun kv : str * json => (fst kv, json_val (snd kv))) d)) with
                              | Some v => exists j, has d k j /\ v = json_val j
                              | None => forall j, ~ has d k j end.
Proof.
  pose proof (fun v => last_get (map (fun kv : str * json => (fst kv, json_val (snd kv))) d) (u k) v) as G.
  destruct (dget _ _) as [v|].
  - destruct (proj1 (G v) eq_refl) as (d1 & d2 & H & Hn). apply map_eq_app in H as (e1 & e2 & -> & <- & H). destruct e2 as [|[x j] e2]; [discriminate|]. cbn [map fst snd] in H. injection H as -> <- <-.
    exists j. split; [|reflexivity]. exists e1, e2. split; [reflexivity|]. rewrite map_map in Hn. exact Hn.
  - intros j (d1 & d2 & -> & Hn). specialize (G (json_val j)). destruct G as [_ G]. discriminate G. exists (map (fun kv : str * json => (fst kv, json_val (snd kv))) d1), (map (fun kv : str * json => (fst kv, json_val (snd kv))) d2).
    rewrite map_app. split; [reflexivity|]. rewrite map_map. exact Hn.
Qed.
Lemma has_one d k i j : has d k i -> has d k j -> i = j. Proof. apply last_one. Qed.
(** ** One policy *)
Definition marks_in (l : list ev) : list bool := flat_map (fun x => match x with EMark (VBool b) => [b] | _ => [] end) l.
Definition none {A} (l : list A) : bool := match l with [] => true | _ => false end.
(** A step tells [l], and is "clean" if that is nothing. *)
Definition step (cs : list nid) (w : W bool) (l : list (nid * list (option pyval))) : Prop :=
  snd w = Ok (none l) /\ pairs (classes cs) json_vars (fst w) = l /\ marks_in (fst w) = [] /\ Forall own_ev (fst w).
Lemma due_yes (A : Prop) n : A -> due_if A n [n]. Proof. left. auto. Qed.
Lemma due_no (A : Prop) n : ~ A -> due_if A n []. Proof. right. auto. Qed.
Lemma ok_text j : is_str (json_val j) = true <-> text j.
Proof. unfold text. destruct j; cbn [json_val is_str mk_dict]; split; intros H; try discriminate; eauto; destruct H as (? & H); discriminate. Qed.
Lemma ok_whole j : is_int (json_val j) = true <-> whole j.
Proof. unfold whole. destruct j; cbn [json_val is_int mk_dict]; split; intros H; try discriminate; eauto; destruct H as [(? & H)|(? & H)]; discriminate. Qed.
Lemma ok_yesno j : is_bool (json_val j) = true <-> yesno j.
Proof. unfold yesno. destruct j; cbn [json_val is_bool mk_dict]; split; intros H; try discriminate; eauto; destruct H as (? & H); discriminate. Qed.
Lemma ok_number j : is_num (json_val j) = true <-> number j.
Proof. unfold number, whole. destruct j; cbn [json_val is_num mk_dict]; split; intros H; try discriminate; eauto 6; destruct H as [[(? & H)|(? & H)]|(? & H)]; discriminate. Qed.
Lemma ok_between j : in_unit (json_val j) = true <-> between01 j.
Proof.
  unfold between01, yesno. destruct j as [|b|z|f|s|l|d]; cbn [json_val in_unit mk_dict].
  - split; [discriminate|]. intros [(? & H)|[H|[H|(? & H & _)]]]; discriminate.
  - split; eauto.
  - rewrite andb_true_iff, !Z.leb_le. split; [intros [H1 H2]; assert (z = 0 \/ z = 1)%Z as [->| ->] by lia; auto|]. intros [(? & H)|[H|[H|(? & H & _)]]]; try discriminate; injection H as ->; lia.
  - destruct f as [q| | | ]; cbn [in_unit]; try (split; [discriminate|]; intros [(? & H)|[H|[H|(? & H & _)]]]; discriminate).
    rewrite andb_true_iff, !Qle_bool_iff. split; [intros H; right; right; right; eauto|]. intros [(? & H)|[H|[H|(? & H & X)]]]; try discriminate. injection H as ->. exact X.
  - split; [discriminate|]. intros [(? & H)|[H|[H|(? & H & _)]]]; discriminate.
  - split; [discriminate|]. intros [(? & H)|[H|[H|(? & H & _)]]]; discriminate.
  - split; [discriminate|]. intros [(? & H)|[H|[H|(? & H & _)]]]; discriminate.
Qed.
Lemma step_req cs miss bad d k okb ok exp : classes cs miss = true -> classes cs bad = true -> (forall j, okb (json_val j) = true <-> ok j) ->
  exists l, required miss bad d k ok exp l /\ step cs (json_req miss bad (dupdate [] (map (fun kv : str * json => (fst kv, json_val (snd kv))) d)) k okb exp) l.
Proof.
  intros H1 H2 Ho. unfold json_req, required. pose proof (has_get d k) as G. destruct (dget _ _) as [v|].
  - destruct G as (j & Hj & ->). destruct (okb (json_val j)) eqn:Eo.
    + exists []. split; [|repeat split; constructor]. exists [], []. split; [reflexivity|]. split; apply due_no; [intros C; apply (C j Hj)|].
      intros (j' & Hj' & Hn). apply Hn. rewrite (has_one _ _ _ _ Hj' Hj). apply Ho, Eo.
    + exists [bad_type bad k exp]. split; [|split; [reflexivity|]; split; [cbn; rewrite H2; reflexivity|]; split; [reflexivity|repeat constructor]]. exists [], [bad_type bad k exp]. split; [reflexivity|]. split; [apply due_no; intros C; apply (C j Hj)|apply due_yes].
      exists j. split; [exact Hj|]. intros C. apply Ho in C. congruence.
  - exists [no_key miss k]. split; [|split; [reflexivity|]; split; [cbn; rewrite H1; reflexivity|]; split; [reflexivity|repeat constructor]]. exists [no_key miss k], []. split; [reflexivity|]. split; [apply due_yes; exact G|apply due_no]. intros (j & Hj & _). apply (G j Hj).
Qed.
Lemma step_sub d : exists l, optional d "include_subdomains" yesno "boolean" l /\ step nel_classes
  (match dget (u "include_subdomains") (dupdate [] (map (fun kv : str * json => (fst kv, json_val (snd kv))) d)) with
   | Some x => if is_bool x then ret true else add_note NEL_BAD_TYPE [vl "key" "include_subdomains"; vl "expected" "boolean"] ;;; ret false
   | None => ret true end) l.
Proof.
  unfold optional. pose proof (has_get d "include_subdomains") as G. destruct (dget _ _) as [v|].
  - destruct G as (j & Hj & ->). destruct (is_bool (json_val j)) eqn:Eo.
    + exists []. split; [|repeat split; constructor]. apply due_no. intros (j' & Hj' & Hn). apply Hn. rewrite (has_one _ _ _ _ Hj' Hj). apply ok_yesno, Eo.
    + eexists. split; [apply due_yes; exists j; split; [exact Hj|]; intros C; apply ok_yesno in C; congruence|]. split; [reflexivity|]. split; [reflexivity|]. split; [reflexivity|repeat constructor].
  - exists []. split; [|repeat split; constructor]. apply due_no. intros (j & Hj & _). apply (G j Hj).
Qed.
Lemma step_fraction d k det : exists l, fraction d k det l /\ step nel_classes (nel_fraction (dupdate [] (map (fun kv : str * json => (fst kv, json_val (snd kv))) d)) k det) l.
Proof.
  unfold fraction, optional, nel_fraction. pose proof (has_get d k) as G. destruct (dget _ _) as [v|].
  - destruct G as (j & Hj & ->). destruct (is_num (json_val j)) eqn:Eo; cbn [negb].
    + destruct (in_unit (json_val j)) eqn:Eu; cbn [negb].
      * exists []. split; [|repeat split; constructor]. exists [], []. split; [reflexivity|]. split; apply due_no.
        -- intros (j' & Hj' & Hn). apply Hn. rewrite (has_one _ _ _ _ Hj' Hj). apply ok_number, Eo.
        -- intros (j' & Hj' & _ & Hn). apply Hn. rewrite (has_one _ _ _ _ Hj' Hj). apply ok_between, Eu.
      * exists [bad_value k det]. split; [|split; [reflexivity|]; split; [reflexivity|]; split; [reflexivity|repeat constructor]]. exists [], [bad_value k det]. split; [reflexivity|]. split; [apply due_no|apply due_yes].
        -- intros (j' & Hj' & Hn). apply Hn. rewrite (has_one _ _ _ _ Hj' Hj). apply ok_number, Eo.
        -- exists j. split; [exact Hj|]. split; [apply ok_number, Eo|]. intros C. apply ok_between in C. congruence.
    + exists [bad_type NEL_BAD_TYPE k "number"]. split; [|split; [reflexivity|]; split; [reflexivity|]; split; [reflexivity|repeat constructor]]. exists [bad_type NEL_BAD_TYPE k "number"], []. split; [reflexivity|]. split; [apply due_yes|apply due_no].
      * exists j. split; [exact Hj|]. intros C. apply ok_number in C. congruence.
      * intros (j' & Hj' & Hn & _). rewrite (has_one _ _ _ _ Hj' Hj) in Hn. apply ok_number in Hn. congruence.
  - exists []. split; [|repeat split; constructor]. exists [], []. split; [reflexivity|]. split; apply due_no; [intros (j & Hj & _)|intros (j & Hj & _)]; apply (G j Hj).
Qed.
Lemma marks_app a b : marks_in (a ++ b) = marks_in a ++ marks_in b. Proof. apply flat_map_app. Qed.
Lemma step_bind {A} cs (w : W bool) l (f : bool -> W A) : step cs w l ->
  fst (bind w f) = fst w ++ fst (f (none l)) /\ snd (bind w f) = snd (f (none l)).
Proof. intros (Hs & _). unfold bind. destruct w as [lw rw]. cbn [fst snd] in *. subst rw. destruct (f (none l)) as [lf rf]. split; reflexivity. Qed.
Lemma none_app {A} (a b : list A) : none (a ++ b) = none a && none b. Proof. destruct a; reflexivity. Qed.
(** Due is [l]; the mark says whether that is nothing. *)
Lemma policy_step j : exists l, policy_due j l /\ snd (nel_policy (json_val j)) = Ok tt /\ pairs (classes nel_classes) json_vars (fst (nel_policy (json_val j))) = l
  /\ marks_in (fst (nel_policy (json_val j))) = [none l] /\ Forall own_ev (fst (nel_policy (json_val j))).
Proof.
  assert (Bad : forall v, (forall d, v <> VDict d) -> nel_policy v = (add_note NEL_BAD_STRUCTURE [] ;;; tell [EMark (VBool false)])) by (intros v H; destruct v; try reflexivity; destruct (H _ eq_refl)).
  destruct j as [|b|z|f|s|l|d]; try (rewrite Bad by (cbn [json_val]; intros; discriminate); eexists; split; [reflexivity|]; repeat split; repeat constructor).
  cbn [json_val]. unfold mk_dict, nel_policy. set (dd := dupdate _ _).
  destruct (step_req nel_classes NEL_MISSING_KEY NEL_BAD_TYPE d "report_to" is_str text "string" eq_refl eq_refl ok_text) as (l1 & D1 & S1). fold dd in S1.
  destruct (step_req nel_classes NEL_MISSING_KEY NEL_BAD_TYPE d "max_age" is_int whole "integer" eq_refl eq_refl ok_whole) as (l2 & D2 & S2). fold dd in S2.
  destruct (step_sub d) as (l3 & D3 & S3). fold dd in S3.
  destruct (step_fraction d "success_fraction" "itmust be between 0.0 and 1.0") as (l4 & D4 & S4). fold dd in S4.
  destruct (step_fraction d "failure_fraction" "it must be between 0.0 and 1.0") as (l5 & D5 & S5). fold dd in S5.
  exists (l1 ++ l2 ++ l3 ++ l4 ++ l5). split; [exists l1, l2, l3, l4, l5; split; [reflexivity|repeat split; assumption]|].
  repeat match goal with
  | S : step _ ?w _ |- context [bind ?w ?f] => let X := fresh in let Y := fresh in destruct (step_bind _ w _ f S) as [X Y]; rewrite X, Y; clear X Y
  end.
  destruct S1 as (_ & P1 & M1 & O1), S2 as (_ & P2 & M2 & O2), S3 as (_ & P3 & M3 & O3), S4 as (_ & P4 & M4 & O4), S5 as (_ & P5 & M5 & O5).
  rewrite !pairs_app, !marks_app, P1, P2, P3, P4, P5, M1, M2, M3, M4, M5. cbn [tell fst snd]. split; [reflexivity|]. split; [cbn; rewrite app_nil_r; reflexivity|].
  split; [rewrite !none_app, !andb_assoc; reflexivity|]. repeat (apply Forall_app; split); try assumption. repeat constructor.
Qed.
Lemma due_det (A : Prop) n a b : due_if A n a -> due_if A n b -> a = b.
Proof. intros [[H ->]|[H ->]] [[K ->]|[K ->]]; try reflexivity; contradiction. Qed.
Lemma required_det miss bad d k ok x a b : required miss bad d k ok x a -> required miss bad d k ok x b -> a = b.
Proof. intros (a1 & a2 & -> & A1 & A2) (b1 & b2 & -> & B1 & B2). rewrite (due_det _ _ _ _ A1 B1), (due_det _ _ _ _ A2 B2). reflexivity. Qed.
Lemma fraction_det d k x a b : fraction d k x a -> fraction d k x b -> a = b.
Proof. intros (a1 & a2 & -> & A1 & A2) (b1 & b2 & -> & B1 & B2). rewrite (due_det _ _ _ _ A1 B1), (due_det _ _ _ _ A2 B2). reflexivity. Qed.
Lemma policy_det j a b : policy_due j a -> policy_due j b -> a = b.
Proof.
  unfold policy_due. destruct j; try congruence. intros (a1 & a2 & a3 & a4 & a5 & -> & A1 & A2 & A3 & A4 & A5) (b1 & b2 & b3 & b4 & b5 & -> & B1 & B2 & B3 & B4 & B5).
  rewrite (required_det _ _ _ _ _ _ _ _ A1 B1), (required_det _ _ _ _ _ _ _ _ A2 B2), (due_det _ _ _ _ A3 B3), (fraction_det _ _ _ _ _ A4 B4), (fraction_det _ _ _ _ _ A5 B5). reflexivity.
Qed.
(** All policies *)
Lemma iter_fst {A} (g : A -> W unit) l : (forall a, In a l -> snd (g a) = Ok tt) -> snd (iterW g l) = Ok tt /\ fst (iterW g l) = flat_map (fun a => fst (g a)) l.
Proof.
  intros H. split; [|apply iter_in, H]. unfold iterW. assert (X : exists r, snd (mapW g l) = Ok r).
  { clear - H. induction l as [|a l IH]; cbn [mapW]; [eexists; reflexivity|]. pose proof (H a (or_introl eq_refl)) as Ha. destruct (g a) as [la ra]. cbn [snd] in Ha. subst ra.
    destruct IH as [r Hr]; [intros b Hb; apply H; right; exact Hb|]. unfold bind. destruct (mapW g l) as [lm rm]. cbn [snd] in Hr. subst rm. eexists; reflexivity. }
  destruct X as [r X]. unfold bind. destruct (mapW g l) as [lm rm]. cbn [snd] in X. subst rm. reflexivity.
Qed.
Definition clean (j : json) : bool := none (pairs (classes nel_classes) json_vars (fst (nel_policy (json_val j)))).
Lemma clean_ok j : clean j = true <-> policy_due j [].
Proof.
  destruct (policy_step j) as (l & D & _ & <- & _). unfold clean. split; [intros H; destruct (pairs _ _ _); [exact D|discriminate]|]. intros H. rewrite (policy_det _ _ _ D H). reflexivity.
Qed.
Lemma policies_step js : let w := iterW nel_policy (map json_val js) in
  snd w = Ok tt /\ each policy_due js (pairs (classes nel_classes) json_vars (fst w)) /\ marks_in (fst w) = map clean js /\ Forall own_ev (fst w).
Proof.
  cbv zeta. destruct (iter_fst nel_policy (map json_val js)) as [H1 H2]; [intros a Ha; apply in_map_iff in Ha as (j & <- & _); destruct (policy_step j) as (l & _ & H & _); exact H|]. split; [exact H1|]. rewrite H2. clear H1 H2.
  induction js as [|j js ((parts & F & E) & M & O)]; cbn [map flat_map].
  - split; [exists []; split; [constructor|reflexivity]|]. split; [reflexivity|constructor].
  - rewrite pairs_app, marks_app, E, M. destruct (policy_step j) as (l & D & _ & Ep & Em & Eo). rewrite Ep, Em. split; [exists (l :: parts); split; [constructor; assumption|reflexivity]|].
    split; [unfold clean; rewrite Ep; reflexivity|]. apply Forall_app. split; assumption.
Qed.
(** ** The endpoints *)
Lemma in_last {A} (d : list (str * A)) n a : In (n, a) (dupdate [] d) <-> last_of d n a.
Proof.
  rewrite <- last_get. split; [apply NoDup_dget, dupdate_NoDup; constructor|]. intros H. revert H. generalize (dupdate [] d). intros l. induction l as [|[k b] l IH]; [discriminate|].
  cbn [dget]. destruct (str_eqb n k) eqn:E; [|intros H; right; apply IH, H]. intros H. injection H as <-. apply str_eqb_eq in E. subst. left. reflexivity.
Qed.
Lemma head_index m : index (member_val m) 0 = Ok (mem_head m).
Proof. destruct m; reflexivity. Qed.
Lemma valid_ok e m r base d : m_base m = base -> (forall n mb s, In (n, mb) d -> is_string mb s -> splits e base s) -> forall acc,
  exists valid, foldW (fun acc (kv : str * pyval) => url <- lift (index (snd kv) 0) ;;
    match url with VStr s => sch <- lift (target_scheme (mkCx e m r) s) ;; if nonempty sch && negb (str_in sch [u "https"; u "wss"]) then ret acc else ret (acc ++ [fst kv]) | _ => ret acc end)
    (map (fun km : str * member => (fst km, member_val (snd km))) d) acc = ([], Ok (acc ++ valid)) /\ forall n, In n valid <-> exists mb s, In (n, mb) d /\ is_string mb s /\ ~ insecure e base s.
Proof.
  intros Hb. induction d as [|[n mb] d IH]; intros Hs acc; [exists []; rewrite app_nil_r; split; [reflexivity|]; intros n; split; [intros []|intros (mb & s & [] & _)]|].
  assert (Step : exists v1, (url <- lift (index (member_val mb) 0) ;;
    match url with VStr s => sch <- lift (target_scheme (mkCx e m r) s) ;; if nonempty sch && negb (str_in sch [u "https"; u "wss"]) then ret acc else ret (acc ++ [n]) | _ => ret acc end) = ([], Ok (acc ++ v1))
    /\ forall x, In x v1 <-> x = n /\ exists s, is_string mb s /\ ~ insecure e base s).
  { rewrite head_index, lift_ok. destruct (mem_head mb) eqn:M;
      try (exists []; rewrite app_nil_r; split; [reflexivity|]; intros x; split; [intros []|]; intros (_ & s0 & H & _); apply head_string in H; congruence).
    apply head_string in M. destruct (Hs n mb s (or_introl eq_refl) M) as (full & p & J & S). unfold target_scheme. cbn [cx_env cx_msg]. rewrite Hb, J. cbn [rbind]. rewrite S. cbn [rmap]. rewrite lift_ok.
    pose proof (not_secure_ok (mkCx e m r) s) as Ns. cbn [cx_env cx_msg] in Ns. rewrite Hb in Ns. destruct Ns as (b & Eb & Hn); [exists full, p; auto|].
    unfold not_secure, target_scheme in Eb. cbn [cx_env cx_msg] in Eb. rewrite Hb, J in Eb. cbn [rbind] in Eb. rewrite S in Eb. cbn [rmap] in Eb. apply (f_equal (fun x => match x with Ok y => y | _ => b end)) in Eb; cbv beta iota in Eb. rewrite Eb. destruct b.
    - exists []. rewrite app_nil_r. split; [reflexivity|]. intros x. split; [intros []|]. intros (_ & s' & M' & H). apply H. rewrite (string_fun _ _ _ M' M). apply Hn. reflexivity.
    - exists [n]. split; [reflexivity|]. intros x. split; [intros [<-|[]]|intros (-> & _); left; reflexivity]. split; [reflexivity|]. exists s. split; [exact M|]. intros H. apply Hn in H. discriminate. }
  destruct Step as (v1 & E1 & H1). destruct (IH (fun n' mb' s' Hi => Hs n' mb' s' (or_intror Hi)) (acc ++ v1)) as (v2 & E2 & H2). exists (v1 ++ v2). cbn [map foldW fst snd]. unfold bind at 1.
  match goal with |- (let '(_, _) := ?w in _) = _ /\ _ => change w with ([] : list ev, Ok (acc ++ v1)) || (replace w with (([] : list ev), Ok (acc ++ v1)) by (symmetry; exact E1)) end.
  cbv iota beta. rewrite E2, <- app_assoc. split; [reflexivity|]. intros x. rewrite in_app_iff, H1, H2. split.
  - intros [(-> & s & A & B)|(mb' & s & A & B)]; [exists mb, s; split; [left; reflexivity|auto]|exists mb', s; split; [right; exact A|exact B]].
  - intros (mb' & s & [A|A] & B); [injection A as <- <-; left; eauto|right; eauto].
Qed.
Lemma secure_value e rel top headers chunks complete trailers t start nc head base m' rel' r :
  lint e rel top headers chunks complete trailers (new_linter t start nc head base) = (m', rel', Ok tt) -> t <> MRequest -> unpadded (u "reporting-endpoints") headers -> endpoints_split e base headers ->
  exists valid, match hdr (mkCx e m' r) "reporting-endpoints" with Some v => if truthy v then d <- lift (as_dict v) ;; valid_endpoints (mkCx e m' r) d else ret [] | None => ret [] end = ([], Ok valid)
    /\ forall n, In n valid <-> secure_endpoint e base headers n.
Proof.
  intros E Ht Hu Hsp. assert (R : run_of e t start base headers trailers m') by (exists rel, top, chunks, complete, nc, head, rel'; exact E).
  assert (B : m_base m' = base) by (destruct (lint_facts _ _ _ _ _ _ _ _ _ _ _ _ _ _ E) as (SM & _); unfold setup in SM; injection SM as _ _ _ _ X; exact X).
  pose proof (run_value e t start base headers trailers m' false (u "reporting-endpoints") R Hu) as V. cbn [section_lines] in V. unfold value_in in V. unfold hdr. cbn [cx_msg].
  unfold secure_endpoint. destruct (values (u "reporting-endpoints") headers) as [|v l] eqn:Ev; cbn [nonempty] in V.
  - rewrite V. exists []. split; [reflexivity|]. intros n. split; [intros []|]. intros [H _]. destruct (H eq_refl).
  - rewrite V. unfold field_value. cbv zeta.
    assert (A : accepted (m_type (new_linter t start false false base)) (u "reporting-endpoints") = true) by (destruct t; try congruence; vm_compute; reflexivity). rewrite A.
    assert (F : find_class (u "reporting-endpoints") = F_reporting_endpoints) by (vm_compute; reflexivity). rewrite F. change (kind_of F_reporting_endpoints) with (KSF SFDict). cbv iota.
    assert (St : strip (join (u ", ") (v :: l)) = sf_text "reporting-endpoints" headers) by (unfold sf_text; rewrite Ev; reflexivity).
    unfold sf_value. unfold endpoints_split in Hsp. rewrite <- St in *. destruct (e_sf_dict e _) as [d dups|d pb pos|d pb].
    + assert (Hsd : forall n mb s, In (n, mb) (dupdate [] d) -> is_string mb s -> splits e base s).
      { intros n mb s Hi Hm. apply in_last in Hi as (d1 & d2 & Ed & _). apply (Hsp d dups eq_refl mb s); [|exact Hm]. rewrite Ed, map_app. apply in_or_app. right. left. reflexivity. }
      assert (Iff : forall n, (exists mb s, In (n, mb) (dupdate [] d) /\ is_string mb s /\ ~ insecure e base s) <-> v :: l <> [] /\ exists d0 dups0 mb s, SFOk d dups = SFOk d0 dups0 /\ last_of d0 n mb /\ is_string mb s /\ ~ insecure e base s).
      { intros n. split.
        - intros (mb & s & Hi & Hr). split; [discriminate|]. exists d, dups, mb, s. split; [reflexivity|]. split; [apply in_last, Hi|exact Hr].
        - intros (_ & d0 & du & mb & s & H & Hi & Hr). injection H as <- <-. exists mb, s. split; [apply in_last, Hi|exact Hr]. }
      destruct (valid_ok e m' r base (dupdate [] d) B Hsd []) as (valid & Ef & Hv). cbn [app] in Ef. exists valid. split; [|intros n; rewrite Hv; apply Iff].
      unfold sf_dict_val. destruct (dupdate [] d) as [|x xs] eqn:Ed.
      * cbn [map truthy nonempty]. cbn [map foldW] in Ef. injection Ef as <-. reflexivity.
      * cbn [map truthy nonempty as_dict]. rewrite lift_ok. unfold valid_endpoints. exact Ef.
    + exists []. split; [reflexivity|]. intros n. split; [intros []|]. intros (_ & d' & du & mb & s & H & _). discriminate.
    + exists []. split; [reflexivity|]. intros n. split; [intros []|]. intros (_ & d' & du & mb & s & H & _). discriminate.
Qed.
(** ** The checks at the end *)
Section Later.
  Variables (e : env) (base : str) (headers : list rawline) (eps valid : list str).
  Hypothesis He : forall n, In n eps <-> endpoint e headers n.
  Hypothesis Hv : forall n, In n valid <-> secure_endpoint e base headers n.
  Definition missing_due (j : json) (l : list (nid * list (option pyval))) : Prop :=
    (exists n, names j n /\ ~ endpoint e headers n /\ l = [(NEL_REPORT_TO_MISSING, nel_shows (Some (u "report_to")) None None (Some n) None)])
    \/ (forall n, names j n -> endpoint e headers n) /\ l = [].
  Definition used_due (j : json) (p : list str) : Prop := (exists n, usable e base headers j n /\ p = [n]) \/ (forall n, ~ usable e base headers j n) /\ p = [].
  Lemma secure_defined n : secure_endpoint e base headers n -> endpoint e headers n.
  Proof. intros (H & d & dups & m & s & E & (d1 & d2 & -> & _) & _). split; [exact H|]. exists (d1 ++ (n, m) :: d2), dups. split; [exact E|]. rewrite map_app. apply in_or_app. right. left. reflexivity. Qed.
  Lemma names_one j n n' : names j n -> names j n' -> n = n'.
  Proof. intros (d & -> & H & _) (d' & E & H' & _). injection E as <-. pose proof (has_one _ _ _ _ H H') as X. congruence. Qed.
  Lemma resolve_ok js : forall pre, exists l ls ps, nel_resolve eps valid (pre ++ map clean js) (length pre) (map json_val js) = (l, Ok (concat ps))
    /\ pairs (classes nel_classes) json_vars l = concat ls /\ Forall2 missing_due js ls /\ Forall2 used_due js ps.
  Proof.
    induction js as [|j js IH]; intros pre.
    - exists [], [], []. repeat split; constructor.
    - destruct (IH (pre ++ [clean j])) as (l & ls & ps & E & P & Fl & Fp). rewrite app_length in E. cbn [length] in E. rewrite Nat.add_1_r, <- app_assoc in E. cbn [app] in E.
      assert (Step : exists l1 r1, pairs (classes nel_classes) json_vars l1 = pairs (classes nel_classes) json_vars l1 /\ missing_due j (pairs (classes nel_classes) json_vars l1) /\ used_due j r1 /\
        (match json_val j with VDict d => match dget (u "report_to") d with Some (VStr rt) =>
           if negb (nonempty rt) then ret [] else if negb (str_in rt eps) then add_note NEL_REPORT_TO_MISSING [vl "key" "report_to"; vs "value" rt] ;;; ret []
           else if str_in rt valid then match nth_error (pre ++ map clean (j :: js)) (length pre) with Some true => ret [rt] | Some false => ret [] | None => raise EIndex end else ret []
           | _ => ret [] end | _ => ret [] end) = (l1, Ok r1)).
      { assert (Quiet : (forall n, ~ names j n) -> exists l1 r1, pairs (classes nel_classes) json_vars l1 = pairs (classes nel_classes) json_vars l1 /\ missing_due j (pairs (classes nel_classes) json_vars l1) /\ used_due j r1 /\ ret (@nil str) = (l1, Ok r1)).
        { intros N. exists [], []. split; [reflexivity|]. split; [right; split; [intros n H; destruct (N n H)|reflexivity]|]. split; [right; split; [intros n (H & _); exact (N n H)|reflexivity]|reflexivity]. }
        destruct j as [|b|z|f|s|jl|d]; cbn [json_val]; try (apply Quiet; intros n (d & H & _); discriminate H).
        unfold mk_dict. pose proof (has_get d "report_to") as G. destruct (dget _ _) as [v|]; [|apply Quiet; intros n (d' & H & Hh & _); injection H as <-; apply (G _ Hh)].
        destruct G as (j & Hj & ->).
        assert (Only : forall n, names (JDict d) n -> j = JStr n /\ n <> []) by (intros n (d' & H & Hh & Hn); injection H as <-; split; [apply (has_one _ _ _ _ Hj Hh)|exact Hn]).
        destruct j as [|b|z|f|rt|jl|d2]; cbn [json_val]; unfold mk_dict; try (apply Quiet; intros n H; destruct (Only n H) as [X _]; discriminate X).
        destruct rt as [|c rt]; [cbn [nonempty negb]; apply Quiet; intros n H; destruct (Only n H) as [X Y]; injection X as <-; congruence|]. cbn [nonempty negb]. set (n := c :: rt) in *.
        assert (Nm : names (JDict d) n) by (exists d; split; [reflexivity|]; split; [exact Hj|discriminate]).
        destruct (str_in n eps) eqn:Ei; cbn [negb].
        - apply str_in_In, He in Ei. assert (Md : missing_due (JDict d) []) by (right; split; [intros n' Hn'; rewrite (names_one _ _ _ Hn' Nm); exact Ei|reflexivity]).
          destruct (str_in n valid) eqn:Eva.
          + apply str_in_In, Hv in Eva. cbn [map]. rewrite nth_error_app2, Nat.sub_diag by lia. cbn [nth_error]. destruct (clean (JDict d)) eqn:Ec.
            * exists [], [n]. split; [reflexivity|]. split; [exact Md|]. split; [left; exists n; split; [split; [exact Nm|split; [apply clean_ok, Ec|exact Eva]]|reflexivity]|reflexivity].
            * exists [], []. split; [reflexivity|]. split; [exact Md|]. split; [right; split; [intros n' (_ & H & _); apply clean_ok in H; congruence|reflexivity]|reflexivity].
          + exists [], []. split; [reflexivity|]. split; [exact Md|]. split; [right; split; [intros n' (H & _ & Hs); rewrite (names_one _ _ _ H Nm) in Hs; apply Hv, str_in_In in Hs; congruence|reflexivity]|reflexivity].
        - assert (Ne : ~ endpoint e headers n) by (intros C; apply He, str_in_In in C; congruence).
          eexists _, []. split; [reflexivity|]. split; [|split; [|reflexivity]].
          + left. exists n. split; [exact Nm|]. split; [exact Ne|reflexivity].
          + right. split; [|reflexivity]. intros n' (H & _ & Hs). rewrite (names_one _ _ _ H Nm) in Hs. exact (Ne (secure_defined _ Hs)). }
      destruct Step as (l1 & r1 & _ & Hm & Hu & Es). exists (l1 ++ l), (pairs (classes nel_classes) json_vars l1 :: ls), (r1 :: ps). cbn [map nel_resolve].
      split; [|split; [rewrite pairs_app, P; reflexivity|split; constructor; assumption]]. cbn [map] in Es. rewrite Es. unfold bind at 1. cbn [map] in E. rewrite E. cbn [bind ret]. unfold bind. rewrite app_nil_r. reflexivity.
  Qed.
End Later.
Lemma nel_plain : plain_eval F_nel.
Proof. simple_eval. unfold ev_nel, nel_policy, json_req, nel_fraction. tms. Qed.
Lemma later_ok e rel top headers chunks complete trailers t start nc head base m' rel' h js :
  lint e rel top headers chunks complete trailers (new_linter t start nc head base) = (m', rel', Ok tt) -> t <> MRequest -> unpadded (u "reporting-endpoints") headers -> endpoints_split e base headers ->
  h_val h = VList (map json_val js) -> marked_bools h = map clean js ->
  nel_later_due e base headers js (pairs (classes nel_classes) json_vars (fst (post_of F_nel (mkCx e m' rel') h))).
Proof.
  intros E Ht Hu Hs Hv Hm. cbn [post_of]. unfold pc_nel. rewrite Hv. destruct js as [|j js].
  - cbn [map truthy nonempty negb]. exists [], [], []. split; [reflexivity|]. split; [exists []; split; [constructor|reflexivity]|]. split; [exists []; split; [reflexivity|constructor]|]. apply due_no. intros C. destruct (C eq_refl).
  - set (l0 := j :: js) in *. replace (truthy (VList (map json_val l0))) with true by reflexivity. cbn [negb].
    destruct (endpoint_value _ _ _ _ _ _ _ _ _ _ _ _ _ _ rel' E Ht Hu) as (eps & Ee & He). destruct (secure_value _ _ _ _ _ _ _ _ _ _ _ _ _ _ rel' E Ht Hu Hs) as (valid & Ev & Hva).
    destruct (resolve_ok e base headers eps valid He Hva l0 []) as (l & ls & ps & Er & P & Fl & Fp). cbn [app length] in Er.
    rewrite Ee, lift_ok. rewrite Ev. unfold bind at 1. cbv iota beta. cbn [as_list]. rewrite lift_ok. rewrite Hm.
    match goal with |- context [bind (nel_resolve ?a ?b ?c 0%nat ?d) ?f] => change (nel_resolve a b c 0%nat d) with (nel_resolve eps valid (map clean l0) 0 (map json_val l0)) end. rewrite Er. unfold bind.
    set (used := concat ps) in *. destruct used as [|n0 used0] eqn:Eu; cbn [nonempty when].
    + cbn [ret fst app]. rewrite app_nil_r, P. exists (concat ls), [], []. split; [rewrite app_nil_r; reflexivity|]. split; [exists ls; split; [exact Fl|reflexivity]|]. split; [exists ps; split; [symmetry; exact Eu|exact Fp]|]. apply due_no. intros C. destruct (C eq_refl).
    + cbn [add_note tell fst app]. rewrite pairs_app, P. eexists (concat ls), (n0 :: used0), _. split; [reflexivity|]. split; [exists ls; split; [exact Fl|reflexivity]|]. split; [exists ps; split; [symmetry; exact Eu|exact Fp]|].
      left. split; [discriminate|]. reflexivity.
Qed.
Lemma aux_marks s b l : flat_map (fun se : str * ev => match snd se with EMark (VBool b) => [b] | _ => [] end) (aux_of (tag s b l)) = marks_in l.
Proof. induction l as [|x l IH]; [reflexivity|]. unfold aux_of, marks_in. cbn [tag map flat_map]. fold (marks_in l). destruct x; try exact IH. cbn [flat_map snd app]. destruct v; try exact IH. cbn [app]. f_equal. exact IH. Qed.
Lemma nel_silent P : silent P F_nel.
Proof. intros c h v o l h2 r Hc _ _ E. unfold handle_input in E. rewrite Hc in E. change (kind_of F_nel) with KJson in E. injection E as <- _ _. constructor. Qed.
Theorem C59_nel : forall e rel top headers chunks complete trailers t start nc head base m' rel',
  lint e rel top headers chunks complete trailers (new_linter t start nc head base) = (m', rel', Ok tt) -> t <> MRequest ->
  hyphened (u "nel") headers -> hyphened (u "nel") trailers -> unpadded (u "reporting-endpoints") headers -> endpoints_split e base headers ->
  exists due later, (forall s, json_rule e (each policy_due) s (due s)) /\ (forall s, json_rule e (nel_later_due e base headers) s (later s))
    /\ heard (classes nel_classes) json_vars (m_notes m') = json_told "nel" due headers ++ json_told "nel" due trailers ++ json_told "nel" later headers ++ json_told "nel" later trailers.
Proof.
  intros e rel top headers chunks complete trailers t start nc head base m' rel' E Ht H1 H2 Hu Hs. set (P := classes nel_classes).
  set (hh := fun js => mkHandler F_nel [] [] [] (VList (map json_val js)) [] false (map (fun j => ([], EMark (VBool (clean j)))) js)).
  assert (Mh : forall js, marked_bools (hh js) = map clean js) by (intros js; unfold marked_bools, hh; cbn [h_aux]; clear; induction js as [|j js IH]; [reflexivity|]; cbn [map flat_map snd app]; rewrite IH; reflexivity).
  exists (fun s => match e_json e s with JOk js => pairs P json_vars (fst (iterW nel_policy (map json_val js))) | _ => [] end),
    (fun s => match e_json e s with JOk js => pairs P json_vars (fst (post_of F_nel (mkCx e m' rel') (hh js))) | _ => [] end).
  split; [|split].
  - intros s. unfold json_rule. destruct (e_json e s) as [js| |]; try reflexivity. apply (policies_step js).
  - intros s. unfold json_rule. destruct (e_json e s) as [js| |]; try reflexivity. apply (later_ok _ _ _ _ _ _ _ _ _ _ _ _ _ _ (hh js) js E Ht Hu Hs eq_refl (Mh js)).
  - assert (Ou : ours_b P [F_nel] = true) by (vm_compute; reflexivity). apply ours_b_ok in Ou.
    assert (Qu : quiet_b P = true) by (vm_compute; reflexivity). apply quiet_b_ok in Qu.
    assert (Mo : In F_nel module_fields) by (apply module_b; reflexivity).
    assert (Ks : own_keys json_vars = true) by (vm_compute; reflexivity).
    destruct (group_notes P [F_nel] (fun _ => true) F_nel (u "nel") e rel top headers chunks complete trailers t start nc head base m' rel' E Ou Qu) as (_ & Nh & Qh & Nt & Qt & A1 & A2 & N); try reflexivity; try assumption.
    + constructor; [apply nel_silent|constructor].
    + constructor; [apply settled_quick; [reflexivity|apply nel_plain]|constructor].
    + constructor; [reflexivity|constructor].
    + intros g [<-|[]]. exact Mo.
    + left. reflexivity.
    + intros x [Hx|[]] Hn. congruence.
    + match goal with |- _ = json_told _ ?d _ ++ _ ++ json_told _ ?p _ ++ _ => set (due := d); set (later := p) end.
      assert (Pc : forall tr raws N0 Q0, piece P F_nel (u "nel") e rel t m' rel' tr raws N0 Q0 -> map (told json_vars) N0 = json_told "nel" due raws /\ map (told json_vars) Q0 = json_told "nel" later raws).
      { clear N A1 A2 Nh Qh Nt Qt. intros tr raws N0 Q0. unfold piece, json_told. destruct (values (u "nel") raws) as [|v0 vl] eqn:Ev; cbn [nonempty]; [intros [-> ->]; split; reflexivity|].
        intros (m & h' & El & Tm & Fm & Mm & R & Hd & Hc & Hsb & -> & ->). destruct R as (evs & h & mi & h2 & Fd & Ek & Hl & St & Km & Om & Ff & Hid & Fin & Hd2).
        rewrite Hd in Hd2. injection Hd2 as <-. set (n := first_name (u "nel") raws) in *.
        assert (Hi : ident any (lower n, new_handler n)) by (exists n; split; [exact I|split; [reflexivity|apply same_id_refl]]).
        assert (Hnn : find_class n = F_nel) by (rewrite <- find_class_lower, <- Ek; reflexivity).
        destruct (feeds_got e (still m) rel n _ _ _ _ Hi Fd) as [Hid2 Gt].
        assert (Ha : accepted (m_type (still m)) n = true) by (rewrite <- (accepted_lower _ n), <- Ek; change (m_type (still m)) with (m_type m); rewrite Tm, processed_eq; its_type). rewrite Ha in Gt.
        destruct (fed_late e (still m) rel F_nel n _ eq_refl Hnn Ha _ _ _ Hi Fd) as [_ Ax]. change (h_aux (new_handler n)) with (@nil (str * ev)) in Ax.
        assert (Hch : h_cls h = F_nel) by (destruct Hid2 as [-> _]; exact Hnn).
        unfold got in Gt. cbn [new_handler h_cls] in Gt. rewrite Hnn in Gt. change (kind_of F_nel) with KJson in Gt. specialize (Gt [] eq_refl). cbn [app] in Gt. rewrite <- (map_map fst VStr), lines_vals, Ev in Gt.
        unfold finish_handler in Ff. rewrite Hch in Ff. change (kind_of F_nel) with KJson in Ff. unfold json_finish in Ff. rewrite Gt in Ff. cbn [truthy map nonempty negb] in Ff.
        change (VStr v0 :: map VStr vl) with (map VStr (v0 :: vl)) in Ff. rewrite raw_texts_strl in Ff. unfold json_array. rewrite Ev. clear Gt. cbn [cx_env] in Ff. set (s := _ ++ join _ _ ++ _) in *.
        assert (Su : subject_of (u "nel") = about_field (u "nel")) by (apply (subject_module F_nel (u "nel") Mo eq_refl)). rewrite Su in Ff.
        unfold due, later. destruct (e_json e s) as [js|msg|x0].
        - unfold base_finish in Ff. set (h1 := h_set_val h _) in Ff. assert (Hv : h_val h1 = VList (map json_val js)) by reflexivity. rewrite Hv in Ff. change (h_cls h1) with (h_cls h) in Ff. rewrite Hch in Ff.
          change (eval_of F_nel (mkCx e mi rel) h1) with (keep h1 (ev_nel (mkCx e mi rel) h1)) in Ff. unfold ev_nel in Ff. rewrite Hv in Ff. cbn [as_list] in Ff. rewrite lift_ok in Ff.
          destruct (policies_step js) as (S1 & _ & S3 & S4). unfold keep, bind in Ff. destruct (iterW nel_policy (map json_val js)) as [lw rw]. cbn [fst snd] in S1, S3, S4 |- *. subst rw. cbn [ret] in Ff. rewrite app_nil_r in Ff. unfold finish_eval in Ff. injection Ff as <- <-.
          split.
          + rewrite <- heard_sel, heard_tag by (try exact Ks; try (apply own_plain; exact Ks); apply own_ev_direct; exact S4). rewrite (speak_pairs P json_vars _ _ S4). reflexivity.
          + match goal with |- context [post_evs _ _ _ _ ?x] => set (h9 := x) in * end. assert (V9 : h_val h9 = VList (map json_val js)) by (unfold h9; cbn [h_set_val h_val]; exact Hv).
            assert (M9 : marked_bools h9 = map clean js). { assert (A9 : h_aux h9 = h_aux h ++ aux_of (tag (about_field (u "nel")) (sec_base tr h) lw)) by reflexivity. unfold marked_bools. rewrite A9, Ax. etransitivity; [apply aux_marks|exact S3]. }
            assert (Eq : post_of F_nel (mkCx e m' rel') h9 = post_of F_nel (mkCx e m' rel') (hh js)) by (cbn [post_of]; unfold pc_nel; rewrite V9, M9, Mh; reflexivity).
            unfold post_evs. rewrite V9, Hc, Hsb, Eq. pose proof (post_tame F_nel (mkCx e m' rel') (hh js) eq_refl) as Pt.
            rewrite <- heard_sel, heard_tag by (try exact Ks; try (apply own_plain; exact Ks); apply own_ev_direct; exact Pt). rewrite (speak_pairs P json_vars _ _ Pt). reflexivity.
        - pose proof (f_equal (fun x => snd (fst x)) Ff) as Fh. apply (f_equal (fun x => fst (fst x))) in Ff. cbn [fst snd] in Ff, Fh. rewrite <- Ff, <- Fh. split; [|reflexivity]. rewrite <- heard_sel, heard_tag; [reflexivity|exact Ks|apply own_plain; exact Ks|constructor; [exact I|constructor]].
        - discriminate Ff. }
      destruct (Pc _ _ _ _ A1) as [B1 B2]. destruct (Pc _ _ _ _ A2) as [B3 B4]. rewrite <- B1, <- B2, <- B3, <- B4, <- !map_app, heard_sel. f_equal. cbn [app] in N. rewrite <- N. unfold selS. clear. induction (sel P (m_notes m')) as [|x l IH]; [reflexivity|]. cbn [filter]. rewrite <- IH. reflexivity.
Qed.
Print Assumptions C59_nel.
(** ** Report-To *)
Definition rstep (w : W unit) (l : list (nid * list (option pyval))) : Prop := snd w = Ok tt /\ pairs (classes report_to_classes) json_vars (fst w) = l.
Lemma each_step {A} (g : A -> W unit) (R : A -> list (nid * list (option pyval)) -> Prop) js : (forall j, exists l, R j l /\ rstep (g j) l) ->
  exists l, each R js l /\ rstep (iterW g js) l.
Proof.
  intros H. exists (pairs (classes report_to_classes) json_vars (fst (iterW g js))). destruct (iter_fst g js) as [S F]; [intros a _; destruct (H a) as (l & _ & X & _); exact X|]. split; [|split; [exact S|reflexivity]]. rewrite F. clear S F.
  induction js as [|j js (parts & P & E)]; [exists []; split; [constructor|reflexivity]|]. cbn [flat_map]. rewrite pairs_app, E. destruct (H j) as (l & D & _ & ->). exists (l :: parts). split; [constructor; assumption|reflexivity].
Qed.
Lemma target_step j : exists l, target_due j l /\ rstep (report_endpoint (json_val j)) l.
Proof.
  assert (Bad : forall v, (forall d, v <> VDict d) -> report_endpoint v = add_note REPORT_TO_BAD_STRUCTURE [vl "details" "Endpoints must be objects."]) by (intros v H; destruct v; try reflexivity; destruct (H _ eq_refl)).
  destruct j as [|b|z|f|s|l|d]; try (rewrite Bad by (cbn [json_val]; intros; discriminate); eexists; split; [reflexivity|]; split; reflexivity).
  cbn [json_val]. unfold mk_dict, report_endpoint, target_due. pose proof (has_get d "url") as G. destruct (dget _ _) as [v|].
  - destruct G as (j & Hj & ->). destruct (is_str (json_val j)) eqn:Eo; cbn [negb when].
    + exists []. split; [|split; reflexivity]. exists [], []. split; [reflexivity|]. split; apply due_no; [intros C; apply (C j Hj)|]. intros (j' & Hj' & Hn). apply Hn. rewrite (has_one _ _ _ _ Hj' Hj). apply ok_text, Eo.
    + exists [bad_type REPORT_TO_BAD_TYPE "endpoints[].url" "string"]. split; [|split; reflexivity]. eexists [], _. split; [reflexivity|]. split; [apply due_no; intros C; apply (C j Hj)|apply due_yes]. exists j. split; [exact Hj|]. intros C. apply ok_text in C. congruence.
  - exists [no_key REPORT_TO_MISSING_KEY "endpoints[].url"]. split; [|split; reflexivity]. eexists _, []. split; [rewrite app_nil_r; reflexivity|]. split; [apply due_yes, G|apply due_no]. intros (j & Hj & _). apply (G j Hj).
Qed.
Lemma step_then cs (w : W bool) l (f : bool -> W unit) l2 : step cs w l -> cs = report_to_classes -> rstep (f (none l)) l2 -> rstep (bind w f) (l ++ l2).
Proof. intros S -> [R1 R2]. destruct (step_bind _ w l f S) as [A B]. destruct S as (_ & S & _). split; [congruence|]. rewrite A, pairs_app, S, R2. reflexivity. Qed.
Lemma report_step j : exists l, report_group_due j l /\ rstep (report_group (json_val j)) l.
Proof.
  assert (Bad : forall v, (forall d, v <> VDict d) -> report_group v = add_note REPORT_TO_BAD_STRUCTURE []) by (intros v H; destruct v; try reflexivity; destruct (H _ eq_refl)).
  destruct j as [|b|z|f|s|l|d]; try (rewrite Bad by (cbn [json_val]; intros; discriminate); eexists; split; [reflexivity|]; split; reflexivity).
  cbn [json_val]. unfold mk_dict, report_group, report_group_due.
  destruct (step_req report_to_classes REPORT_TO_MISSING_KEY REPORT_TO_BAD_TYPE d "max_age" is_int whole "integer" eq_refl eq_refl ok_whole) as (l1 & D1 & S1).
  match goal with |- exists l, _ /\ rstep (bind _ (fun _ => ?r)) l => set (rest := r) end.
  assert (Rest : exists l2 l3, required REPORT_TO_MISSING_KEY REPORT_TO_BAD_TYPE d "endpoints" (fun j => exists ts, j = JList ts) "list" l2
     /\ ((exists ts, has d "endpoints" (JList ts) /\ each target_due ts l3) \/ (forall ts, ~ has d "endpoints" (JList ts)) /\ l3 = []) /\ rstep rest (l2 ++ l3)).
  { unfold rest, required. pose proof (has_get d "endpoints") as G. destruct (dget _ _) as [v|].
    - destruct G as (j & Hj & ->).
      assert (No : (forall ts, j <> JList ts) -> exists l2 l3, (exists a b, l2 = a ++ b /\ due_if (forall j, ~ has d "endpoints" j) (no_key REPORT_TO_MISSING_KEY "endpoints") a /\ due_if (exists j, has d "endpoints" j /\ ~ (exists ts, j = JList ts)) (bad_type REPORT_TO_BAD_TYPE "endpoints" "list") b)
          /\ ((exists ts, has d "endpoints" (JList ts) /\ each target_due ts l3) \/ (forall ts, ~ has d "endpoints" (JList ts)) /\ l3 = []) /\ rstep (add_note REPORT_TO_BAD_TYPE [vl "key" "endpoints"; vl "expected" "list"]) (l2 ++ l3)).
      { intros N. exists [bad_type REPORT_TO_BAD_TYPE "endpoints" "list"], []. split; [eexists [], _; split; [reflexivity|]; split; [apply due_no; intros C; apply (C j Hj)|apply due_yes; exists j; split; [exact Hj|intros (ts & C); apply (N ts C)]]|].
        split; [right; split; [intros ts C; apply (N ts (has_one _ _ _ _ Hj C))|reflexivity]|]. split; reflexivity. }
      destruct j as [|b|z|f|s|ts|d2]; cbn [json_val]; unfold mk_dict; try (apply No; intros; discriminate).
      destruct (each_step (fun j => report_endpoint (json_val j)) target_due ts target_step) as (l3 & D3 & S3). exists [], l3. split; [|split; [left; eauto|]].
      + exists [], []. split; [reflexivity|]. split; apply due_no; [intros C; apply (C _ Hj)|]. intros (j' & Hj' & C). apply C. exists ts. apply (has_one _ _ _ _ Hj' Hj).
      + assert (X : iterW report_endpoint (map json_val ts) = iterW (fun j => report_endpoint (json_val j)) ts); [|rewrite X; exact S3]. unfold iterW. f_equal. clear. induction ts as [|j ts IH]; [reflexivity|]. cbn [map mapW]. rewrite IH. reflexivity.
    - exists [no_key REPORT_TO_MISSING_KEY "endpoints"], []. split; [eexists _, []; split; [rewrite app_nil_r; reflexivity|]; split; [apply due_yes, G|apply due_no; intros (j & Hj & _); apply (G j Hj)]|].
      split; [right; split; [intros ts C; apply (G _ C)|reflexivity]|]. split; reflexivity. }
  destruct Rest as (l2 & l3 & D2 & D3 & S2). exists (l1 ++ l2 ++ l3). split; [exists l1, l2, l3; auto|]. apply (step_then report_to_classes _ _ _ _ S1 eq_refl S2).
Qed.
Lemma iter_map {A B} (g : B -> W unit) (h : A -> B) l : iterW g (map h l) = iterW (fun a => g (h a)) l.
Proof. unfold iterW. f_equal. induction l as [|j ts IH]; [reflexivity|]. cbn [map mapW]. rewrite IH. reflexivity. Qed.
Theorem C59_report_to : forall e rel top headers chunks complete trailers t start nc head base m' rel',
  lint e rel top headers chunks complete trailers (new_linter t start nc head base) = (m', rel', Ok tt) -> t <> MRequest ->
  hyphened (u "report-to") headers -> hyphened (u "report-to") trailers ->
  exists due, (forall s, json_rule e (each report_group_due) s (due s))
    /\ heard (classes report_to_classes) json_vars (m_notes m') = json_told "report-to" due headers ++ json_told "report-to" due trailers.
Proof.
  intros e rel top headers chunks complete trailers t start nc head base m' rel' E Ht H1 H2.
  exists (fun s => match e_json e s with JOk js => pairs (classes report_to_classes) json_vars (fst (iterW report_group (map json_val js))) | _ => [] end). split.
  - intros s. unfold json_rule. destruct (e_json e s) as [js| |]; try reflexivity. rewrite iter_map. destruct (each_step (fun j => report_group (json_val j)) report_group_due js report_step) as (l & D & _ & ->). exact D.
  - assert (Ev : forall js, fst (eva F_report_to e rel m' (VList (map json_val js))) = fst (iterW report_group (map json_val js))).
    { intros js. unfold eva. cbn [eval_of]. rewrite keep_fst. unfold ev_report_to. cbn [blank_of h_val as_list]. rewrite lift_ok. reflexivity. }
    rewrite (json_run report_to_classes json_vars F_report_to (u "report-to") e rel top headers chunks complete trailers t start nc head base m' rel' E).
    + assert (L : forall l, json_says (classes report_to_classes) json_vars e (u "report-to") (eva F_report_to e rel m') l = json_told "report-to" (fun s => match e_json e s with JOk js => pairs (classes report_to_classes) json_vars (fst (iterW report_group (map json_val js))) | _ => [] end) l).
      { intros l. unfold json_says, json_told, json_text, json_array. destruct (values _ l) as [|v0 vl]; [reflexivity|]. cbn [nonempty]. destruct (e_json e _) as [js| |]; try reflexivity. rewrite Ev. apply speak_pairs.
        assert (T : tm (iterW report_group (map json_val js))) by (unfold report_group, report_endpoint, json_req; tms). exact T. }
      rewrite !L. reflexivity.
    + destruct t; try congruence; vm_compute; reflexivity.
    + reflexivity.
    + intros x. unfold eva. cbn [eval_of]. unfold ev_report_to, report_group, report_endpoint, json_req. nks.
    + exact H1.
    + exact H2.
Qed.
Print Assumptions C59_report_to.
(** ** Example *)
Definition nel_good : json := JDict [(u "report_to", JStr (u "a")); (u "max_age", JInt 60)].
Definition nel_poor : json := JDict [(u "report_to", JStr (u "b")); (u "success_fraction", JInt 2); (u "failure_fraction", JNull)].
Definition nel_env : env :=
  mkEnv (look []) (look []) (look [("a=""/r"""%string, [(u "a", MItem (BStr (u "/r")) [])])])
        (fun s => if str_eqb s (u "[G, P, 1]") then JOk [nel_good; nel_poor; JInt 1] else if str_eqb s (u "[R]") then JOk [JDict [(u "max_age", JBool true); (u "endpoints", JList [JDict []; JNull])]] else JErr [])
        (e_urlsplit env0) (fun _ b => Ok b) (e_quote env0) (e_unquote env0)
        (e_unsplit env0) (e_idna env0) (e_utf8 env0) (e_codec env0) (e_decode env0) (e_chardet env0) (e_sniff env0) (e_rank env0)
        (e_b64 env0) (e_md5 env0) (e_float_str env0) (e_reltime env0) (e_repr env0) (e_display env0)
        (e_inflate env0) (e_brotli env0).
Definition nel_lines : list rawline := raws [("NEL", "G"); ("Reporting-Endpoints", "a=""/r"""); ("nel", "P, 1"); ("Report-To", "R")]%string.
Example C59_ex : let '(m, _, r) := lint nel_env None (TopResponse (u "1.1") (u "200") None) nel_lines [] true [] (new_linter MResponse None false false []) in
  r = Ok tt /\ map (fun x => (fst (fst x), snd x)) (heard (classes (nel_classes ++ report_to_classes)) json_vars (m_notes m)) =
    [no_key NEL_MISSING_KEY "max_age"; bad_value "success_fraction" "itmust be between 0.0 and 1.0"; bad_type NEL_BAD_TYPE "failure_fraction" "number";
     (NEL_BAD_STRUCTURE, nel_shows None None None None None); no_key REPORT_TO_MISSING_KEY "endpoints[].url"; (REPORT_TO_BAD_STRUCTURE, nel_shows None None (Some (u "Endpoints must be objects.")) None None);
     (NEL_REPORT_TO_MISSING, nel_shows (Some (u "report_to")) None None (Some (u "b")) None); (NEL_CONFIGURED, nel_shows None None None None (Some (u "`a`")))].
Proof. vm_compute. repeat split. Qed.
Example C59_ex_hyps : hyphened (u "nel") nel_lines /\ hyphened (u "report-to") nel_lines /\ unpadded (u "reporting-endpoints") nel_lines /\ endpoints_split nel_env [] nel_lines.
Proof.
  split; [apply hyphened_dec; vm_compute; reflexivity|]. split; [apply hyphened_dec; vm_compute; reflexivity|]. split; [repeat split; repeat constructor; vm_compute; intros H; try discriminate H; reflexivity|].
  intros d dups H m s Hi (p & ->). assert (X : e_sf_dict nel_env (sf_text "reporting-endpoints" nel_lines) = SFOk [(u "a", MItem (BStr (u "/r")) [])] []) by (vm_compute; reflexivity). rewrite X in H. injection H as <- <-.
  destruct Hi as [Hi|[]]. cbn [snd] in Hi. injection Hi as <- <-. eexists _, _. split; vm_compute; reflexivity.
Qed.
