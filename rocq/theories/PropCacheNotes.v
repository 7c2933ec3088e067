(** * C68: what the notes about caching show. *)
From Coq Require Import QArith Lqa Lia.
From Verif Require Import PyStr Regex Grammar NoteTable Note PyLib Utils FieldAttrs Types Fields1 Fields2 Framework Checks Message Session
  EvLogic NoteLemmas TestEnv ContentLemmas LexLemmas NumLemmas FrameLemmas BodyLemmas PassFrame PassSec PassProc PassMsg PassRun
  SessionLemmas EndLemmas PropBody PropTop StatusSpec StatusLemmas PropStatus CacheSpec CacheLemmas PropCache CacheNotesSpec.
Open Scope N_scope.

Lemma seconds_proper p q : p == q -> seconds p = seconds q.
Proof.
  destruct p as [a b], q as [c d]. unfold Qeq, seconds. cbn [Qnum Qden]. intros H.
  rewrite <- (Z.quot_mul_cancel_r a (Z.pos b) (Z.pos d)) by lia. rewrite H. rewrite (Z.mul_comm (Z.pos b)). apply Z.quot_mul_cancel_r; lia.
Qed.
Lemma seconds_whole z : seconds (inject_Z z) = z.
Proof. unfold seconds. cbn [inject_Z Qnum Qden]. apply Z.quot_1_r. Qed.
Lemma num_int_seconds n : num_int n = seconds (num_q n).
Proof. destruct n as [z|q]; [symmetry; apply seconds_whole|reflexivity]. Qed.
Lemma int_sub_q z age n A : int_sub z age = Ok n -> num_q age == A -> num_q n == inject_Z z - A.
Proof.
  intros H E. rewrite <- E. destruct age as [a|q]; cbn [int_sub] in H.
  - injection H as <-. cbn [num_q]. unfold Qminus. rewrite <- inject_Z_opp, <- inject_Z_plus. reflexivity.
  - unfold int_to_float in H. destruct (_ <? _)%Z; [|discriminate]. injection H as <-. reflexivity.
Qed.

Definition ev_right (m : mstate) (rel : option mstate) (e : ev) : Prop :=
  exists c vrs, e = EMsg (cache_subject c m) c vrs /\ forall d, cache_shows c m rel (fun k => dget (u k) (dupdate d vrs)).
Lemma dl k (d vrs : dict pyval) v : dlast k vrs = Some v -> dget k (dupdate d vrs) = Some v.
Proof. intros H. rewrite dget_dupdate, H. reflexivity. Qed.
Ltac each_ev := repeat first [apply Forall_nil | apply Forall_cons].
Ltac right_ev := match goal with |- ev_right _ _ (EMsg _ ?c ?v) => exists c, v end; split; [reflexivity|intros ?; try exact I].
Lemma basic_right m rel l b : check_basic (the_in m rel) = (l, Ok b) -> Forall (ev_right m rel) l.
Proof.
  unfold check_basic. destruct (py_in _ _) as [s|]; [|discriminate]. cbv beta iota delta [lift bind]. unfold when.
  destruct s; [intros H; injection H as <- <-; constructor|].
  destruct (negb _); [destruct (_ || _)|]; intros H; injection H as <- <-; each_ev; right_ev.
Qed.
Lemma storable_right m rel l r : check_storable (the_in m rel) = (l, Ok r) -> Forall (ev_right m rel) l.
Proof.
  intros H. unfold check_storable in H. change (cc_has (the_in m rel)) with (hasb m) in H.
  pose proof (hasb_spec m "public") as Hp. pose proof (hasb_spec m "must-revalidate") as Hm. pose proof (hasb_spec m "s-maxage") as Hs.
  revert H. generalize (match i_req (the_in m rel) with Some r0 => str_in (u "authorization") (lower_names r0) | None => false end). intros auth.
  destruct (hasb m "no-store"); [intros H; injection H as <- <-; each_ev; right_ev|].
  destruct (hasb m "private"); [unfold when; destruct (hasb m "public"); intros H; injection H as <- <-; each_ev; right_ev|].
  destruct auth.
  - destruct (hasb m "public"); [|destruct (hasb m "must-revalidate"); [|destruct (hasb m "s-maxage")]]; intros H; injection H as <- <-; each_ev; right_ev; cbn [cache_shows]; unfold reads.
    + left. split; [apply Hp; reflexivity|]. apply dl. reflexivity.
    + right. left. split; [rewrite <- Hp; discriminate|]. split; [apply Hm; reflexivity|]. apply dl. reflexivity.
    + right. right. split; [rewrite <- Hp; discriminate|]. split; [rewrite <- Hm; discriminate|]. split; [apply Hs; reflexivity|]. apply dl. reflexivity.
  - destruct (_ || _); [|destruct (hasb m "s-maxage")]; intros H; injection H as <- <-; each_ev; right_ev.
Qed.
Lemma age_right m rel l age : check_age (the_in m rel) = (l, Ok age) -> Forall (ev_right m rel) l.
Proof.
  intros H. destruct (check_age_spec m rel l age H) as [Ea _]. unfold check_age in H.
  apply bind_inv in H as (l1 & ap & l2 & E1 & H & ->). injection E1 as <- _. apply bind_inv in H as (l3 & co & l4 & E3 & H & ->). injection E3 as <- _. cbv zeta in H. cbn [app].
  apply bind_inv in H as (l5 & [] & l6 & E5 & H & ->). injection H as <- Hr. rewrite Hr in E5. rewrite app_nil_r. unfold when in E5.
  destruct (Qle_bool 1 (num_q age)); injection E5 as <-; each_ev. right_ev. cbn [cache_shows]. eexists. split; [apply dl; reflexivity|exact Ea].
Qed.
Lemma lifetimes_subj m rel f : lifetimes (the_in m rel) = Ok f -> f_subj f = map u (freshness_fields m).
Proof.
  unfold lifetimes. rewrite clock_q, exp_present. change (i_resp_time (the_in m rel)) with (m_start m).
  set (B := match clock (m_start m) with Some _ => _ | None => _ end).
  assert (EB : forall f0, B = Ok f0 -> f_subj f0 = map u (["field-date"%string] ++ match clock (m_start m) with Some _ => if sent m "expires" then ["field-expires"%string] else [] | None => [] end)%list).
  { unfold B. intros f0. destruct (clock (m_start m)); [|intros H; injection H as <-; reflexivity]. destruct (sent m "expires"); [|intros H; injection H as <-; reflexivity].
    destruct (int_or _ 0); [|discriminate]. cbn [rbind]. destruct (int_or _ _); [|discriminate]. intros H. injection H as <-. reflexivity. }
  destruct B as [f0|]; [|discriminate]. cbn [rbind]. specialize (EB f0 eq_refl).
  destruct (cc_int (the_in m rel) "max-age") as [ma|] eqn:E1; [|discriminate]. cbn [rbind].
  destruct (cc_int (the_in m rel) "s-maxage") as [sm|] eqn:E2; [|discriminate]. cbn [rbind].
  apply cc_int_spec in E1 as [-> _], E2 as [-> _]. cbv zeta. intros H. injection H as <-. unfold freshness_fields. rewrite !map_app in *.
  destruct (setting m "max-age"), (setting m "s-maxage"); cbn [f_subj map]; rewrite ?EB, <- ?app_assoc, ?app_nil_r; reflexivity.
Qed.
Lemma freshness_right m rel age f l r : check_freshness (the_in m rel) age f = (l, Ok r) -> num_q age == age_of m rel ->
  f_priv f = or_zero (private_life m) -> f_shared f = or_zero (shared_life m) -> f_subj f = map u (freshness_fields m) -> Forall (ev_right m rel) l.
Proof.
  intros H Ea Ep Es Eb. unfold check_freshness in H.
  destruct (int_sub (f_priv f) age) as [n1|] eqn:E1; [|discriminate]. destruct (int_sub (f_shared f) age) as [n2|] eqn:E2; [|discriminate]. rewrite !bind_ok in H. cbv zeta in H.
  pose proof (int_sub_q _ _ _ _ E1 Ea) as Q1. pose proof (int_sub_q _ _ _ _ E2 Ea) as Q2.
  assert (D1 : Z.abs (num_int n1) = distance (or_zero (private_life m)) (age_of m rel)) by (unfold distance; rewrite num_int_seconds, (seconds_proper _ _ Q1), Ep; reflexivity).
  assert (D2 : Z.abs (num_int n2) = distance (or_zero (shared_life m)) (age_of m rel)) by (unfold distance; rewrite num_int_seconds, (seconds_proper _ _ Q2), Es; reflexivity).
  rewrite (int_sub_pos _ _ _ _ E1 Ea), (int_sub_pos _ _ _ _ E2 Ea), D1, D2, Ep, Es, Eb in H. fold (frb m rel) (shfb m rel) in H.
  pose proof (frb_spec m rel) as F1. pose proof (shfb_spec m rel) as F2.
  change (cc_has (the_in m rel)) with (hasb m) in H.
  destruct (hasb m "no-cache").
  { destruct (i_lm _); [destruct (i_etag _)|..]; injection H as <- <-; each_ev; right_ev. }
  apply bind_inv in H as (l1 & hs & l2 & E & H & ->). apply bind_inv in H as (l3 & [] & l4 & E3 & H & ->). injection H as <- _.
  repeat (apply Forall_app; split); [|clear E; unfold when in E3; destruct (_ && _); injection E3 as <-; each_ev; right_ev|constructor].
  clear E3. destruct (f_explicit f).
  - apply bind_inv in E as (l5 & [] & l6 & E5 & E & ->). apply Forall_app. split.
    + destruct (negb _); injection E5 as <-; each_ev.
      * right_ev. cbn [cache_shows]. unfold whole_span, rel_int, relative_time, state, reads, fresh_word.
        split; [apply dl; reflexivity|]. split; [apply dl; reflexivity|]. split; [apply dl; reflexivity|]. split; [apply dl; reflexivity|]. split.
        -- destruct (frb m rel); [left|right]; (split; [|apply dl; reflexivity]); [apply F1; reflexivity|rewrite <- F1; discriminate].
        -- destruct (shfb m rel); [left|right]; (split; [|apply dl; reflexivity]); [apply F2; reflexivity|rewrite <- F2; discriminate].
      * destruct (_ || _); right_ev; cbn [cache_shows]; unfold whole_span, rel_int, relative_time; (split; [apply dl; reflexivity|]; split; [apply dl; reflexivity|]; eexists; split; [apply dl; reflexivity|exact Ea]).
    + apply bind_inv in E as (l7 & [] & l8 & E7 & E & ->). injection E as <- _. rewrite app_nil_r. unfold when in E7. destruct (_ && _); injection E7 as <-; each_ev; right_ev.
  - destruct (status_is_in _ _); injection E as <- _; each_ev; right_ev.
Qed.
Lemma stale_right m rel f fr sh l : check_stale (the_in m rel) f fr sh = (l, Ok tt) -> Forall (ev_right m rel) l.
Proof.
  unfold check_stale. intros H. apply bind_inv in H as (l1 & [] & l2 & E1 & H & ->). apply Forall_app. split.
  - unfold when in E1. destruct (cc_has _ _); injection E1 as <-; each_ev; right_ev.
  - clear E1. unfold when in H. destruct (cc_has _ "stale-if-error"); [|destruct (cc_has _ "must-revalidate"); [destruct fr; [|destruct (f_explicit f)]|destruct (_ || _); [destruct sh; [|destruct (f_explicit f)]|]]];
    injection H as <-; each_ev; right_ev.
Qed.
Lemma cache_right m rel lc lreq k : cache_check m rel = (lc, lreq, Ok k) -> Forall (ev_right m rel) lc.
Proof.
  intros H. unfold cache_check in H. destruct (cache_in m rel) as [i|] eqn:Ei; [|discriminate]. apply cache_in_eq in Ei. subst i.
  destruct (check_basic (the_in m rel)) as [l1 [b|]] eqn:E1; [|discriminate]. apply basic_right in E1.
  destruct b; [|injection H as <- _ _; exact E1]. destruct (method_uncacheable _); [injection H as <- _ _; exact E1|].
  match type of H with (let '(_, _) := ?X in _) = _ => destruct X as [l2' r2] eqn:EX end. injection H as <- <- ->. apply Forall_app. split; [exact E1|]. clear E1 l1.
  apply bind_inv in EX as (l2 & [[go sp] ss] & l3 & E3 & EX & ->). apply storable_right in E3. apply Forall_app. split; [exact E3|]. clear E3 l2.
  destruct go; [|injection EX as <- _; constructor]. cbn [negb] in EX.
  apply bind_inv in EX as (l4 & age & l5 & E4 & EX & ->). pose proof (check_age_spec _ _ _ _ E4) as [Ea _]. apply age_right in E4. apply Forall_app. split; [exact E4|]. clear E4 l4.
  apply bind_inv in EX as (l6 & f & l7 & E5 & EX & ->). injection E5 as <- E5. pose proof (lifetimes_subj _ _ _ E5) as Sb. apply lifetimes_spec in E5 as (F1 & F2 & _). cbn [app].
  apply bind_inv in EX as (l8 & [[go fr] sh] & l9 & E6 & EX & ->). apply Forall_app. split; [exact (freshness_right _ _ _ _ _ _ E6 Ea F1 F2 Sb)|].
  apply bind_inv in EX as (l10 & [] & l11 & E8 & EX & ->). injection EX as <- _. rewrite app_nil_r. unfold when in E8. destruct go; [|injection E8 as <-; constructor]. apply (stale_right _ _ _ _ _ _ E8).
Qed.

(** ** The properties *)
Theorem C68_shows : forall e rel top headers chunks complete trailers start nc head base m' rel',
  lint e rel top headers chunks complete trailers (new_linter MResponse start nc head base) = (m', rel', Ok tt) ->
  forall n, In n (m_notes m') -> nid_file (n_cls n) = "cache.py"%string ->
    n_subj n = cache_subject (n_cls n) m' /\ cache_shows (n_cls n) m' rel (fun k => dget (u k) (n_vars n)).
Proof.
  intros e rel top headers chunks complete trailers start nc head base m' rel' E n Hn Hf.
  destruct (lint_response _ _ _ _ _ _ _ _ _ _ _ _ _ E) as (lp & lc & lreq & k & ls & _ & Ec & _ & _ & _ & _ & N & _).
  apply cache_right in Ec.
  assert (Hs : In n (sel (in_file "cache.py") (m_notes m'))) by (unfold sel; apply filter_In; split; [exact Hn|unfold in_file; rewrite Hf; reflexivity]).
  rewrite N in Hs. unfold msg_notes in Hs. apply in_flat_map in Hs as (x & Hx & Hs). rewrite Forall_forall in Ec. destruct (Ec x Hx) as (c & vrs & -> & Sh).
  destruct Hs as [<-|[]]. cbn [mk_note n_subj n_cls n_vars]. split; [reflexivity|apply Sh].
Qed.
Print Assumptions C68_shows.
Lemma chosen_filter t : NoDup (map fst t) -> chosen t = filter (row t) (map fst t).
Proof.
  intros H. assert (X : forall l, (forall c b, In (c, b) l -> row t c = b) -> chosen l = filter (row t) (map fst l)).
  { induction l as [|[c b] l IH]; intros R; [reflexivity|]. cbn [chosen flat_map map filter fst snd]. fold (chosen l). rewrite (R c b) by (left; reflexivity).
    rewrite IH by (intros c' b' Hc; apply R; right; exact Hc). destruct b; reflexivity. }
  apply X. clear X. intros c b Hc. destruct b; [apply (row_in t c H), Hc|]. destruct (row t c) eqn:E; [|reflexivity]. apply (row_in t c H) in E. exfalso.
  clear - H Hc E. induction t as [|[c' b] t IH]; [destruct Hc|]. cbn [map fst] in H. inversion H as [|? ? H1 H2]; subst.
  destruct Hc as [Hc|Hc], E as [E|E]; [congruence|..|apply (IH H2 Hc E)].
  - injection Hc as -> _. apply H1. apply (in_map fst) in E. exact E.
  - injection E as -> _. apply H1. apply (in_map fst) in Hc. exact Hc.
Qed.
Theorem C68_order : forall e rel top headers chunks complete trailers start nc head base m' rel',
  lint e rel top headers chunks complete trailers (new_linter MResponse start nc head base) = (m', rel', Ok tt) ->
  exists due : nid -> bool, (forall c, In c cache_order -> (due c = true <-> cache_rule c m' rel))
    /\ filter (fun c => String.eqb (nid_file c) "cache.py") (map n_cls (m_notes m')) = filter due cache_order.
Proof.
  intros e rel top headers chunks complete trailers start nc head base m' rel' E.
  destruct (lint_response _ _ _ _ _ _ _ _ _ _ _ _ _ E) as (lp & lc & lreq & k & ls & _ & Ec & _ & _ & _ & _ & N & _).
  apply cache_table in Ec as (R & _ & _ & _ & M & _).
  pose proof row_classes_nodup as Hd. rewrite <- (rows_classes m' rel) in Hd. exists (row (rows_of m' rel)). split.
  - intros c Hc. apply row_rule; assumption.
  - rewrite (chosen_filter _ Hd), rows_classes in R. change cache_order with row_classes. rewrite <- R.
    apply (f_equal (map n_cls)) in N. rewrite msg_notes_cls in N. unfold ev_classes. rewrite <- N. unfold sel. generalize (m_notes m'). clear. intros l. induction l as [|n l IH]; [reflexivity|].
    cbn [map filter]. unfold in_file at 1. destruct (String.eqb _ _); cbn [map]; rewrite IH; reflexivity.
Qed.
Print Assumptions C68_order.
Theorem C68_method : forall e r top headers chunks complete trailers start nc head base m' rel',
  lint e (Some r) top headers chunks complete trailers (new_linter MResponse start nc head base) = (m', rel', Ok tt) ->
  exists r' added, rel' = Some r' /\ m_notes r' = m_notes r ++ added
    /\ forall n, In n added -> n_cls n = STORE_METHOD_UNCACHEABLE /\ n_subj n = u "method" /\ exists s, m_method r = Some s /\ dget (u "method") (n_vars n) = Some (VStr s).
Proof.
  intros e r top headers chunks complete trailers start nc head base m' rel' E.
  destruct (lint_response _ _ _ _ _ _ _ _ _ _ _ _ _ E) as (lp & lc & lreq & k & ls & _ & Ec & _ & _ & Er & _ & _ & _ & F).
  exists (m_emit (tag [] [] lreq) r), (msg_notes (m_type r) lreq). split; [exact Er|]. split; [unfold m_emit; cbn [m_notes m_set_notes]; rewrite (emit_msgs _ _ _ F); reflexivity|].
  assert (X : lreq = [] \/ exists s, m_method r = Some s /\ lreq = [EMsg (u "method") STORE_METHOD_UNCACHEABLE [vs "method" s]]).
  { clear - Ec. unfold cache_check in Ec. destruct (cache_in m' (Some r)) as [i|] eqn:Ei; [|injection Ec as _ <- _; left; reflexivity]. apply cache_in_eq in Ei. subst i.
    destruct (check_basic _) as [l1 [[]|]]; try (injection Ec as _ <- _; left; reflexivity).
    destruct (method_uncacheable (the_in m' (Some r))) as [s|] eqn:Em.
    - injection Ec as _ <- _. right. exists s. split; [|reflexivity]. unfold method_uncacheable in Em. cbn [the_in i_req] in Em. destruct (m_method r) as [s0|]; [|discriminate]. destruct (_ && _); [injection Em as ->; reflexivity|discriminate].
    - match type of Ec with (let '(_, _) := ?X in _) = _ => destruct X as [l2' r2] end. injection Ec as _ <- _. left. reflexivity. }
  destruct X as [->|(s & Es & ->)]; [intros n []|]. intros n [<-|[]]. split; [reflexivity|]. split; [reflexivity|]. exists s. split; [exact Es|reflexivity].
Qed.
Print Assumptions C68_method.

(** Not vacuous: two responses and what their notes show. *)
Definition cache_vars (status : string) (start : option Q) (h : list (string * string)) :=
  let '(m, _, r) := lint env0 None (TopResponse (u "1.1") (u status) None) (map (fun h => (u (fst h), u (snd h))) h) [] true [] (new_linter MResponse start false false []) in
  (map (fun n => (n_cls n, n_subj n, map (fun k => dget (u k) (n_vars n)) ["age"; "fresh_lifetime"; "fresh_left"; "share_lifetime"; "share_left"; "private_status"; "shared_status"; "freshness_lifetime"; "freshness_left"; "current_age"]%string))
     (filter (fun n => match n_cls n with CURRENT_AGE | FRESHNESS_SHARED_PRIVATE | FRESHNESS_FRESH | FRESHNESS_STALE_ALREADY => true | _ => false end) (m_notes m)), r).
Example cache_shown :
  (* Date 30 s ago, Age 20; no Expires *)
  cache_vars "200" (Some (1767225630 # 1)) [("Cache-Control", "max-age=60"); jan1; ("Age", "20")]%string
    = ([(CURRENT_AGE, u "field-age field-date", [Some (VRel (30 # 1) 0 0); None; None; None; None; None; None; None; None; None]);
        (FRESHNESS_FRESH, u "field-date field-cache-control", [None; None; None; None; None; None; None; Some (VRel (60 # 1) 0 0); Some (VRel (30 # 1) 0 0); Some (VRel (30 # 1) 0 0)])], Ok tt)
  (* fresh for its user, stale in shared caches; both directives, and Expires *)
  /\ cache_vars "200" (Some (1767225630 # 1)) [("Cache-Control", "max-age=60, s-maxage=10"); jan1; ("Expires", "Thu, 01 Jan 2026 01:00:00 GMT")]%string
    = ([(CURRENT_AGE, u "field-age field-date", [Some (VRel (30 # 1) 0 0); None; None; None; None; None; None; None; None; None]);
        (FRESHNESS_SHARED_PRIVATE, u "field-date field-expires field-cache-control field-cache-control",
          [None; Some (VRel (60 # 1) 0 0); Some (VRel (30 # 1) 0 0); Some (VRel (10 # 1) 0 0); Some (VRel (20 # 1) 0 0); Some (VStr (u "fresh")); Some (VStr (u "stale")); None; None; None])], Ok tt).
Proof. vm_compute. split; reflexivity. Qed.
