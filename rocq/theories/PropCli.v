(** * C34: the command line. *)
From Verif Require Import PyStr NoteTable Note PyLib Types Framework Checks Message TestEnv Session PropRun Cli.
From Coq Require Import Lia.
Open Scope N_scope.

(** ** Words and white space *)
Definition spaces (s : bytes) : Prop := forallb bws s = true.
(** One word. *)
Definition word (s : bytes) : Prop := s <> [] /\ forallb (fun c => negb (bws c)) s = true.
(** Text without white space at its beginning (and, reversed, at its end). *)
Definition flush (s : bytes) : Prop := match s with c :: _ => bws c = false | [] => False end.

Lemma take_drop f s : take_while f s ++ drop_while f s = s.
Proof. induction s as [|c s IH]; [reflexivity|]. cbn. destruct (f c); cbn; [rewrite IH|]; reflexivity. Qed.
Lemma take_all f s : forallb f (take_while f s) = true.
Proof. induction s as [|c s IH]; [reflexivity|]. cbn. destruct (f c) eqn:E; cbn; [rewrite E|]; auto. Qed.
Lemma drop_head f s : match drop_while f s with c :: _ => f c = false | [] => True end.
Proof. induction s as [|c s IH]; [exact I|]. cbn. destruct (f c) eqn:E; [exact IH|exact E]. Qed.
Lemma drop_app_all f a b : forallb f a = true -> drop_while f (a ++ b) = drop_while f b.
Proof. induction a as [|c a IH]; cbn; [reflexivity|]. intros H. apply andb_prop in H as [H1 H2]. rewrite H1. apply IH, H2. Qed.
Lemma take_app_all f a b : forallb f a = true -> take_while f (a ++ b) = a ++ take_while f b.
Proof. induction a as [|c a IH]; cbn; [reflexivity|]. intros H. apply andb_prop in H as [H1 H2]. rewrite H1. f_equal. apply IH, H2. Qed.
Lemma drop_none f s : match s with c :: _ => f c = false | [] => True end -> drop_while f s = s /\ take_while f s = [].
Proof. destruct s as [|c s]; [auto|]. cbn. intros ->. auto. Qed.
Lemma spaces_rev s : spaces (rev s) <-> spaces s.
Proof. unfold spaces. rewrite !forallb_forall. split; intros H c Hc; apply H; [rewrite <- in_rev|rewrite in_rev]; exact Hc. Qed.
Lemma word_rev s : word (rev s) <-> word s.
Proof.
  unfold word. rewrite !forallb_forall. split; intros [H1 H2]; split; try (intros c Hc; apply H2; first [rewrite <- in_rev; exact Hc|rewrite in_rev; exact Hc]).
  - intros ->. apply H1. reflexivity.
  - intros E. apply H1. rewrite <- (rev_involutive s), E. reflexivity.
Qed.
Lemma word_flush s r : word s -> flush (s ++ r).
Proof. intros [H1 H2]. destruct s as [|c s]; [congruence|]. cbn in *. apply andb_prop in H2 as [H2 _]. apply Bool.negb_true_iff, H2. Qed.
(** [s.split(None, 1)] has two parts just when [s] is a word and more text. *)
Lemma bsplit_spec s w r : bsplit s = Some (w, r) <-> exists a b, s = a ++ w ++ b ++ r /\ spaces a /\ word w /\ spaces b /\ b <> [] /\ flush r.
Proof.
  unfold bsplit. set (s1 := drop_while bws s). set (nb := fun c => negb (bws c)). split.
  - intros E. assert (E' : w = take_while nb s1 /\ r = drop_while bws (drop_while nb s1) /\ w <> [] /\ r <> []).
    { destruct (take_while nb s1) as [|c w'] eqn:Ew; [discriminate|]. destruct (drop_while bws (drop_while nb s1)) as [|d r'] eqn:Er; [discriminate|].
      injection E as <- <-. repeat split; discriminate. }
    destruct E' as (-> & -> & Hw & Hr). exists (take_while bws s), (take_while bws (drop_while nb s1)).
    rewrite (take_drop bws (drop_while nb s1)), (take_drop nb s1). unfold s1 at 1. rewrite take_drop. split; [reflexivity|].
    split; [apply take_all|]. split; [split; [exact Hw|apply take_all]|]. split; [apply take_all|]. split.
    + intros Hb. pose proof (drop_head nb s1) as Hd. destruct (drop_while nb s1) as [|c x] eqn:Ed; [apply Hr; reflexivity|].
      unfold nb in Hd. apply Bool.negb_false_iff in Hd. cbn in Hb. rewrite Hd in Hb. discriminate.
    + pose proof (drop_head bws (drop_while nb s1)) as Hd. destruct (drop_while bws (drop_while nb s1)) as [|c x]; [congruence|exact Hd].
  - intros (a & b & -> & Ha & Hw & Hb & Hbn & Hr). unfold s1. rewrite (drop_app_all bws a _ Ha).
    assert (F : drop_while bws (w ++ b ++ r) = w ++ b ++ r).
    { apply drop_none. pose proof (word_flush w (b ++ r) Hw) as F. destruct (w ++ b ++ r); [exact I|exact F]. }
    rewrite F. destruct Hw as [Hw1 Hw2]. rewrite (take_app_all nb w _ Hw2), (drop_app_all nb w _ Hw2).
    assert (G : drop_while nb (b ++ r) = b ++ r /\ take_while nb (b ++ r) = []).
    { apply drop_none. destruct b as [|c b]; [congruence|]. cbn in *. unfold spaces in Hb. cbn in Hb. apply andb_prop in Hb as [Hb _]. unfold nb. rewrite Hb. reflexivity. }
    destruct G as [-> ->]. rewrite app_nil_r, (drop_app_all bws b _ Hb).
    assert (K : drop_while bws r = r) by (apply drop_none; destruct r; [exact I|exact Hr]). rewrite K.
    destruct w; [congruence|]. destruct r; [destruct Hr|]. reflexivity.
Qed.
Lemma brsplit_spec s w r : brsplit s = Some (w, r) <-> exists a b, s = w ++ b ++ r ++ a /\ spaces a /\ word r /\ spaces b /\ b <> [] /\ flush (rev w).
Proof.
  unfold brsplit. split.
  - destruct (bsplit (rev s)) as [[x y]|] eqn:E; [|discriminate]. intros H. injection H as <- <-. apply bsplit_spec in E as (a & b & E & Ha & Hw & Hb & Hn & Hr).
    exists (rev a), (rev b). rewrite <- (rev_involutive s), E, !rev_app_distr, <- !app_assoc, rev_involutive.
    split; [reflexivity|]. split; [apply spaces_rev, Ha|]. split; [apply word_rev, Hw|]. split; [apply spaces_rev, Hb|]. split; [|exact Hr].
    intros C. apply Hn. rewrite <- (rev_involutive b), C. reflexivity.
  - intros (a & b & -> & Ha & Hw & Hb & Hn & Hr).
    assert (E : bsplit (rev (w ++ b ++ r ++ a)) = Some (rev r, rev w)).
    { apply bsplit_spec. exists (rev a), (rev b). rewrite !rev_app_distr, <- !app_assoc. split; [reflexivity|]. split; [apply spaces_rev, Ha|]. split; [apply word_rev, Hw|].
      split; [apply spaces_rev, Hb|]. split; [|exact Hr]. intros C. apply Hn. rewrite <- (rev_involutive b), C. reflexivity. }
    rewrite E, !rev_involutive. reflexivity.
Qed.
Definition no_slash (s : bytes) : Prop := ~ In 47 s.
Lemma split1_spec c s a b : split1 c s = Some (a, b) <-> s = a ++ c :: b /\ ~ In c a.
Proof.
  revert a. induction s as [|x s IH]; intros a; cbn [split1].
  - split; [discriminate|]. intros [E _]. destruct a; discriminate.
  - destruct (N.eqb x c) eqn:E.
    + apply N.eqb_eq in E. subst x. split.
      * intros H. injection H as <- <-. split; [reflexivity|intros []].
      * intros [H Hn]. destruct a as [|y a]; [injection H as <-; reflexivity|]. injection H as -> _. exfalso. apply Hn. left. reflexivity.
    + apply N.eqb_neq in E. destruct (split1 c s) as [[a' b']|] eqn:Es.
      * split.
        -- intros H. injection H as <- <-. destruct (proj1 (IH a') eq_refl) as [-> Hn]. split; [reflexivity|]. intros [C|C]; [congruence|contradiction].
        -- intros [H Hn]. destruct a as [|y a]; [injection H as -> _; congruence|]. injection H as -> H.
           assert (X : Some (a', b') = Some (a, b)) by (apply IH; split; [exact H|intros C; apply Hn; right; exact C]). injection X as -> ->. reflexivity.
      * split; [discriminate|]. intros [H Hn]. destruct a as [|y a]; [injection H as -> _; congruence|]. injection H as -> H.
        assert (X : None = Some (a, b)) by (apply IH; split; [exact H|intros C; apply Hn; right; exact C]). discriminate.
Qed.
Lemma slash_spec s a b : slash s = Some (a, b) <-> s = a ++ 47 :: b /\ no_slash b.
Proof.
  unfold slash, no_slash. split.
  - destruct (split1 47 (rev s)) as [[x y]|] eqn:E; [|discriminate]. intros H. injection H as <- <-. apply split1_spec in E as [E Hn].
    rewrite <- (rev_involutive s), E, rev_app_distr. cbn [rev]. rewrite <- app_assoc. split; [reflexivity|]. rewrite <- in_rev. exact Hn.
  - intros [-> Hn]. assert (E : split1 47 (rev (a ++ 47 :: b)) = Some (rev b, rev a)).
    { apply split1_spec. rewrite rev_app_distr. cbn [rev]. rewrite <- app_assoc. split; [reflexivity|]. rewrite <- in_rev. exact Hn. }
    rewrite E, !rev_involutive. reflexivity.
Qed.

(** ** C34: start lines *)
(** A request line: the method, the target and a word proto/version, set apart by
    white space; white space within the target is kept. *)
Definition request_line (line method target version : bytes) : Prop :=
  exists a b c d proto, line = a ++ method ++ b ++ target ++ c ++ (proto ++ 47 :: version) ++ d
    /\ spaces a /\ spaces b /\ b <> [] /\ spaces c /\ c <> [] /\ spaces d
    /\ word method /\ word (proto ++ 47 :: version) /\ no_slash version /\ flush target /\ flush (rev target).
Lemma flush_app a b : flush a -> flush (a ++ b).
Proof. destruct a; [intros []|exact (fun H => H)]. Qed.
Theorem C34_request_line line method target version :
  request_topline line = Ok (method, target, version) <-> request_line line method target version.
Proof.
  unfold request_topline, request_line. split.
  - destruct (bsplit line) as [[m r]|] eqn:E1; [|discriminate]. destruct (brsplit r) as [[t v]|] eqn:E2; [|discriminate].
    destruct (slash v) as [[p v']|] eqn:E3; [|discriminate]. intros H. injection H as <- <- <-.
    apply bsplit_spec in E1 as (a & b & -> & Ha & Hm & Hb & Hbn & Hf). apply brsplit_spec in E2 as (d & c & -> & Hd & Hw & Hc & Hcn & Ht).
    apply slash_spec in E3 as [-> Hs]. exists a, b, c, d, p. do 7 (split; [first [reflexivity|assumption]|]). split; [exact Hm|]. split; [exact Hw|]. split; [exact Hs|]. split; [|exact Ht].
    destruct t as [|x t]; [destruct Ht|exact Hf].
  - intros (a & b & c & d & p & -> & Ha & Hb & Hbn & Hc & Hcn & Hd & Hm & Hw & Hs & Hf & Ht).
    assert (E1 : bsplit (a ++ method ++ b ++ target ++ c ++ (p ++ 47 :: version) ++ d) = Some (method, target ++ c ++ (p ++ 47 :: version) ++ d)).
    { apply bsplit_spec. exists a, b. split; [reflexivity|]. repeat (split; [assumption|]). apply flush_app, Hf. }
    rewrite E1.
    assert (E2 : brsplit (target ++ c ++ (p ++ 47 :: version) ++ d) = Some (target, p ++ 47 :: version)).
    { apply brsplit_spec. exists d, c. split; [reflexivity|]. repeat (split; [assumption|]). exact Ht. }
    rewrite E2, (proj2 (slash_spec (p ++ 47 :: version) p version) (conj eq_refl Hs)). reflexivity.
Qed.
Print Assumptions C34_request_line.
(** Any other line is a ValueError. *)
Theorem C34_request_error line : request_topline line = Err EValue \/ exists m t v, request_topline line = Ok (m, t, v).
Proof.
  unfold request_topline. destruct (bsplit line) as [[m r]|]; [|auto]. destruct (brsplit r) as [[t v]|]; [|auto]. destruct (slash v) as [[p v']|]; [right; eauto|auto].
Qed.
(** A status line: HTTP/version, the status code and the reason phrase, which may be
    missing; the phrase is kept as it is. *)
Definition status_line (line version code phrase : bytes) : Prop :=
  exists a b c, line = a ++ (u "HTTP/" ++ version) ++ b ++ code ++ c ++ phrase
    /\ spaces a /\ spaces b /\ b <> [] /\ spaces c /\ word code
    /\ In version [u "1.0"; u "1.1"; u "2"]
    /\ (phrase = [] \/ c <> [] /\ flush phrase).
Lemma bsplit_one s : flush s -> bsplit s = None -> exists w c, s = w ++ c /\ word w /\ spaces c.
Proof.
  intros Hf E. set (nb := fun c => negb (bws c)). exists (take_while nb s), (drop_while nb s). split; [symmetry; apply take_drop|].
  assert (Hw : word (take_while nb s)).
  { split; [|apply take_all]. destruct s as [|c s]; [destruct Hf|]. cbn in *. unfold nb. rewrite Hf. discriminate. }
  split; [exact Hw|]. unfold spaces. destruct (drop_while bws (drop_while nb s)) as [|c r] eqn:Er.
  - rewrite <- (take_drop bws (drop_while nb s)), Er, app_nil_r. apply take_all.
  - exfalso. assert (X : bsplit s = Some (take_while nb s, c :: r)); [|congruence]. apply bsplit_spec. exists [], (take_while bws (drop_while nb s)).
    rewrite <- Er. cbn [app]. rewrite (take_drop bws), (take_drop nb). split; [reflexivity|]. split; [reflexivity|]. split; [exact Hw|]. split; [apply take_all|]. split.
    + intros Hb. pose proof (drop_head nb s) as Hd. destruct (drop_while nb s) as [|d x]; [discriminate Er|].
      unfold nb in Hd. apply Bool.negb_false_iff in Hd. cbn in Hb. rewrite Hd in Hb. discriminate.
    + rewrite Er. pose proof (drop_head bws (drop_while nb s)) as Hd. rewrite Er in Hd. exact Hd.
Qed.
Lemma brstrip_word w c : word w -> spaces c -> brstrip (w ++ c) = w.
Proof.
  intros Hw Hc. unfold brstrip. rewrite rev_app_distr, (drop_app_all bws (rev c)) by (apply spaces_rev, Hc).
  destruct (drop_none bws (rev w)) as [-> _]; [|apply rev_involutive].
  pose proof (word_flush (rev w) [] (proj2 (word_rev w) Hw)) as F. rewrite app_nil_r in F. destruct (rev w); [exact I|exact F].
Qed.
Lemma bsplit_alone w c : word w -> spaces c -> bsplit (w ++ c) = None.
Proof.
  intros Hw Hc. destruct (bsplit (w ++ c)) as [[x r]|] eqn:E; [|reflexivity]. exfalso. unfold bsplit in E. set (nb := fun c => negb (bws c)) in E.
  assert (D : drop_while bws (w ++ c) = w ++ c). { apply drop_none. pose proof (word_flush w c Hw) as F. destruct (w ++ c); [exact I|exact F]. }
  rewrite D in E. rewrite (drop_app_all nb w _ (proj2 Hw)) in E.
  assert (G : drop_while nb c = c). { apply drop_none. destruct c as [|d c]; [exact I|]. unfold spaces in Hc. cbn in Hc. apply andb_prop in Hc as [Hc _]. unfold nb. rewrite Hc. reflexivity. }
  rewrite G in E. assert (K : drop_while bws c = []). { rewrite <- (app_nil_r c), (drop_app_all bws c [] Hc). reflexivity. }
  rewrite K in E. destruct (take_while nb (w ++ c)); discriminate.
Qed.
Theorem C34_status_line line version code phrase :
  response_topline line = Ok (version, code, phrase) <-> status_line line version code phrase.
Proof.
  unfold response_topline, status_line. split.
  - destruct (bsplit line) as [[pv st]|] eqn:E1; [|discriminate]. destruct (slash pv) as [[p v]|] eqn:E2; [|discriminate].
    destruct (str_eqb p (u "HTTP")) eqn:E3; [|discriminate]. cbn [negb orb]. destruct (str_in v [u "1.0"; u "1.1"; u "2"]) eqn:E4; [|discriminate]. cbn [negb].
    apply bsplit_spec in E1 as (a & b & -> & Ha & Hw & Hb & Hbn & Hf). apply slash_spec in E2 as [-> Hs]. apply str_eqb_eq in E3. subst p. apply str_in_In in E4.
    replace (u "HTTP" ++ 47 :: v) with (u "HTTP/" ++ v) in * by reflexivity.
    destruct (bsplit st) as [[c ph]|] eqn:E5; intros H; injection H as <- <- <-.
    + apply bsplit_spec in E5 as (x & y & -> & Hx & Hc & Hy & Hyn & Hph). destruct x as [|x0 x]; [|exfalso; unfold spaces in Hx; cbn in Hx, Hf; rewrite Hf in Hx; discriminate].
      exists a, b, y. cbn [app]. split; [reflexivity|]. do 4 (split; [assumption|]). split; [exact Hc|]. split; [exact E4|right; split; assumption].
    + destruct (bsplit_one st Hf E5) as (w & c & -> & Hw2 & Hc2). exists a, b, c. rewrite (brstrip_word w c Hw2 Hc2), app_nil_r. split; [reflexivity|]. do 4 (split; [assumption|]). split; [exact Hw2|]. split; [exact E4|left; reflexivity].
  - intros (a & b & c & -> & Ha & Hb & Hbn & Hc & Hw & Hv & Hp).
    assert (Hpw : word (u "HTTP/" ++ version)). { split; [discriminate|]. destruct Hv as [<-|[<-|[<-|[]]]]; reflexivity. }
    assert (Hns : no_slash version). { intros C. destruct Hv as [<-|[<-|[<-|[]]]]; cbn in C; intuition discriminate. }
    assert (E1 : bsplit (a ++ (u "HTTP/" ++ version) ++ b ++ code ++ c ++ phrase) = Some (u "HTTP/" ++ version, code ++ c ++ phrase)).
    { apply bsplit_spec. exists a, b. split; [reflexivity|]. repeat (split; [assumption|]). apply word_flush, Hw. }
    rewrite E1. change (u "HTTP/" ++ version) with (u "HTTP" ++ 47 :: version). rewrite (proj2 (slash_spec _ (u "HTTP") version) (conj eq_refl Hns)).
    rewrite str_eqb_refl, (proj2 (str_in_In _ _) Hv). cbn [negb orb].
    destruct Hp as [->|[Hcn Hp]].
    + rewrite app_nil_r, (bsplit_alone code c Hw Hc), (brstrip_word code c Hw Hc). reflexivity.
    + assert (E2 : bsplit (code ++ c ++ phrase) = Some (code, phrase)). { apply bsplit_spec. exists [], c. split; [reflexivity|]. split; [reflexivity|]. repeat (split; [assumption|]). exact Hp. }
      rewrite E2. reflexivity.
Qed.
Print Assumptions C34_status_line.
Theorem C34_status_error line : response_topline line = Err EValue \/ exists v c p, response_topline line = Ok (v, c, p).
Proof.
  unfold response_topline. destruct (bsplit line) as [[m r]|]; [|auto]. destruct (slash m) as [[t v]|]; [|auto]. destruct (_ || _); [auto|].
  destruct (bsplit r) as [[c p]|]; right; eauto.
Qed.
Example C34_lines_ex :
  request_topline (u " GET  /a b	HTTP/1.1 ") = Ok (u "GET", u "/a b", u "1.1")
  /\ request_topline (u "GET /a") = Err EValue /\ request_topline (u "GET /a HTTP") = Err EValue
  /\ response_topline (u "HTTP/1.1 404  Not  Found ") = Ok (u "1.1", u "404", u "Not  Found ")
  /\ response_topline (u "HTTP/1.0 200 ") = Ok (u "1.0", u "200", []) /\ response_topline (u "HTTP/3 200 OK") = Err EValue.
Proof. vm_compute. repeat split. Qed.

(** ** C34: what is printed *)
(** The categories in the order of their titles. *)
Definition order : list category := [SECURITY; CACHING; CONNECTION; CONNEG; COOKIES; CORS; GENERAL; RANGE; VALIDATION].
(** One line: its level and its summary. *)
Definition text_of (e : env) (indent : string) (c : nid) (vrs : vars) : str :=
  u indent ++ u "* [" ++ level_name (nid_level c) ++ u "] " ++ match summary e c vrs with Ok s => s | Err _ => [] end ++ [10].
(** A note: its line and those of its sub-notes. *)
Definition item (e : env) (n : note) : str := text_of e "" (n_cls n) (n_vars n) ++ flat_map (fun k => text_of e "  " (fst k) (snd k)) (n_kids n).
(** A category: its title and its notes in the order they were reported; nothing if there are none. *)
Definition group (e : env) (ns : list note) (c : category) : str :=
  match filter (fun n => category_eqb (n_cat n) c) ns with
  | [] => []
  | l => [10] ++ u "### " ++ cat_text c ++ [10; 10] ++ flat_map (item e) l
  end.
(** The summaries of a note and of its sub-notes can be formed (C03 says when). *)
Definition readable (e : env) (n : note) : Prop :=
  is_ok (summary e (n_cls n) (n_vars n)) = true /\ Forall (fun k => is_ok (summary e (fst k) (snd k)) = true) (n_kids n).

Lemma order_all c : In c order.
Proof. destruct c; cbn; tauto. Qed.
Lemma category_eqb_eq a b : category_eqb a b = true <-> a = b.
Proof. destruct a, b; cbn; split; congruence. Qed.
Definition le_cat (a b : category) : bool := str_leb (cat_text a) (cat_text b).
Lemma insert_pass x l r : Forall (fun y => le_cat (n_cat x) (n_cat y) = false) l -> note_insert x (l ++ r) = l ++ note_insert x r.
Proof. induction 1 as [|y l H _ IH]; [reflexivity|]. cbn [app note_insert]. unfold le_cat in H. rewrite H, IH. reflexivity. Qed.
Lemma insert_front x l : Forall (fun y => le_cat (n_cat x) (n_cat y) = true) l -> note_insert x l = x :: l.
Proof. destruct 1 as [|y l H _]; [reflexivity|]. cbn [note_insert]. unfold le_cat in H. rewrite H. reflexivity. Qed.
Definition those (ns : list note) (c : category) : list note := filter (fun n => category_eqb (n_cat n) c) ns.
Lemma those_cat ns c : Forall (fun y => n_cat y = c) (those ns c).
Proof. apply Forall_forall. intros y Hy. apply filter_In in Hy as [_ Hy]. apply category_eqb_eq, Hy. Qed.
Lemma flat_cat (P : category -> Prop) ns cs : Forall P cs -> Forall (fun y => P (n_cat y)) (flat_map (those ns) cs).
Proof.
  intros H. apply Forall_forall. intros y Hy. apply in_flat_map in Hy as (c & Hc & Hy). rewrite Forall_forall in H. pose proof (those_cat ns c) as T. rewrite Forall_forall in T.
  rewrite (T y Hy). apply H, Hc.
Qed.
Lemma flat_other x ns cs : ~ In (n_cat x) cs -> flat_map (those (x :: ns)) cs = flat_map (those ns) cs.
Proof.
  induction cs as [|c cs IH]; intros H; [reflexivity|]. cbn [flat_map]. rewrite IH by (intros C; apply H; right; exact C). f_equal. unfold those. cbn [filter].
  destruct (category_eqb (n_cat x) c) eqn:E; [|reflexivity]. apply category_eqb_eq in E. exfalso. apply H. left. congruence.
Qed.
Lemma insert_group x ns cs1 cs2 : Forall (fun c => le_cat (n_cat x) c = false) cs1 -> Forall (fun c => le_cat (n_cat x) c = true) (n_cat x :: cs2) -> ~ In (n_cat x) (cs1 ++ cs2) ->
  note_insert x (flat_map (those ns) (cs1 ++ n_cat x :: cs2)) = flat_map (those (x :: ns)) (cs1 ++ n_cat x :: cs2).
Proof.
  intros H1 H2 Hn. rewrite !flat_map_app, insert_pass by (apply (flat_cat (fun c => le_cat (n_cat x) c = false)), H1).
  rewrite insert_front by (apply (flat_cat (fun c => le_cat (n_cat x) c = true)), H2). cbn [flat_map].
  rewrite (flat_other x ns cs1) by (intros C; apply Hn, in_app_iff; left; exact C). rewrite (flat_other x ns cs2) by (intros C; apply Hn, in_app_iff; right; exact C).
  unfold those at 5. cbn [filter]. rewrite (proj2 (category_eqb_eq (n_cat x) (n_cat x)) eq_refl). reflexivity.
Qed.
Lemma sort_groups ns : sort_notes ns = flat_map (those ns) order.
Proof.
  induction ns as [|x ns IH]; [reflexivity|]. cbn [sort_notes fold_right]. fold (sort_notes ns). rewrite IH.
  assert (X : exists cs1 cs2, order = cs1 ++ n_cat x :: cs2 /\ forallb (fun c => negb (le_cat (n_cat x) c)) cs1 = true /\ forallb (le_cat (n_cat x)) (n_cat x :: cs2) = true
    /\ forallb (fun c => negb (category_eqb (n_cat x) c)) (cs1 ++ cs2) = true).
  { destruct (n_cat x).
    - exists [SECURITY; CACHING; CONNECTION; CONNEG; COOKIES; CORS], [RANGE; VALIDATION]. repeat split.
    - exists [SECURITY; CACHING], [CONNEG; COOKIES; CORS; GENERAL; RANGE; VALIDATION]. repeat split.
    - exists [], [CACHING; CONNECTION; CONNEG; COOKIES; CORS; GENERAL; RANGE; VALIDATION]. repeat split.
    - exists [SECURITY; CACHING; CONNECTION; CONNEG; COOKIES], [GENERAL; RANGE; VALIDATION]. repeat split.
    - exists [SECURITY; CACHING; CONNECTION; CONNEG], [CORS; GENERAL; RANGE; VALIDATION]. repeat split.
    - exists [SECURITY; CACHING; CONNECTION], [COOKIES; CORS; GENERAL; RANGE; VALIDATION]. repeat split.
    - exists [SECURITY], [CONNECTION; CONNEG; COOKIES; CORS; GENERAL; RANGE; VALIDATION]. repeat split.
    - exists [SECURITY; CACHING; CONNECTION; CONNEG; COOKIES; CORS; GENERAL; RANGE], []. repeat split.
    - exists [SECURITY; CACHING; CONNECTION; CONNEG; COOKIES; CORS; GENERAL], [VALIDATION]. repeat split. }
  destruct X as (cs1 & cs2 & -> & H1 & H2 & H3). rewrite forallb_forall in H1, H2, H3. apply insert_group.
  - apply Forall_forall. intros c Hc. apply Bool.negb_true_iff, H1, Hc.
  - apply Forall_forall. exact H2.
  - intros C. specialize (H3 _ C). rewrite (proj2 (category_eqb_eq (n_cat x) (n_cat x)) eq_refl) in H3. discriminate.
Qed.
Lemma print_kids_ok e l : Forall (fun k => is_ok (summary e (fst k) (snd k)) = true) l -> print_kids e l = (flat_map (fun k => text_of e "  " (fst k) (snd k)) l, Ok tt).
Proof.
  induction 1 as [|[c v] l H _ IH]; [reflexivity|]. cbn [print_kids flat_map fst snd] in *. unfold text_of at 1. destruct (summary e c v) as [s|x]; [|discriminate H].
  rewrite IH. cbn [app u]. rewrite <- !app_assoc. reflexivity.
Qed.
Lemma item_ok e n s : summary e (n_cls n) (n_vars n) = Ok s ->
  item e n = u "* [" ++ level_name (nid_level (n_cls n)) ++ u "] " ++ s ++ nl ++ flat_map (fun k => text_of e "  " (fst k) (snd k)) (n_kids n).
Proof. intros E. unfold item, text_of at 1. rewrite E. change (u "") with (@nil N). cbn [app]. rewrite <- !app_assoc. reflexivity. Qed.
Definition title (c : category) : str := [10] ++ u "### " ++ cat_text c ++ [10; 10].
Lemma print_same e c l r : Forall (readable e) l -> Forall (fun n => n_cat n = c) l ->
  print_notes e (Some c) (l ++ r) = (flat_map (item e) l ++ fst (print_notes e (Some c) r), snd (print_notes e (Some c) r)).
Proof.
  induction l as [|n l IH]; intros H1 H2; [cbn; destruct (print_notes _ _ _); reflexivity|].
  inversion H1 as [|? ? [Hs Hk] H1']; subst. inversion H2 as [|? ? Hc H2']; subst. cbn [app print_notes flat_map]. rewrite (proj2 (category_eqb_eq (n_cat n) (n_cat n)) eq_refl).
  specialize (IH H1' H2'). rewrite (print_kids_ok e _ Hk), IH. destruct (summary e (n_cls n) (n_vars n)) as [s|x] eqn:Es; [|discriminate Hs]. rewrite (item_ok e n s Es).
  cbn [app]. rewrite <- !app_assoc. reflexivity.
Qed.
Lemma print_groups e ns cs : Forall (readable e) ns -> NoDup cs -> forall cur, match cur with Some c => ~ In c cs | None => True end ->
  print_notes e cur (flat_map (those ns) cs) = (flat_map (group e ns) cs, Ok tt).
Proof.
  intros HR. induction 1 as [|c cs Hc _ IH]; intros cur Hcur; [destruct cur; reflexivity|]. cbn [flat_map]. unfold group at 1. fold (those ns c).
  pose proof (those_cat ns c) as T. assert (R : Forall (readable e) (those ns c)).
  { apply Forall_forall. intros y Hy. rewrite Forall_forall in HR. apply HR. apply filter_In in Hy. apply Hy. }
  destruct (those ns c) as [|n l]; [cbn [app]; apply IH; destruct cur; [intros C; apply Hcur; right; exact C|exact I]|].
  inversion T as [|? ? Hn T2]; subst. inversion R as [|? ? [Hs Hk] R2]; subst. cbn [app]. cbn [print_notes].
  assert (Hh : match cur with Some c => if category_eqb (n_cat n) c then [] else nl ++ u "### " ++ cat_text (n_cat n) ++ nl ++ nl
                            | None => nl ++ u "### " ++ cat_text (n_cat n) ++ nl ++ nl end = title (n_cat n)).
  { destruct cur as [c|]; [|reflexivity]. destruct (category_eqb (n_cat n) c) eqn:E; [|reflexivity]. apply category_eqb_eq in E. exfalso. apply Hcur. left. exact E. }
  rewrite Hh, (print_kids_ok e _ Hk), (print_same e (n_cat n) l _ R2 T2), (IH (Some (n_cat n)) Hc). cbn [fst snd flat_map].
  destruct (summary e (n_cls n) (n_vars n)) as [s|x] eqn:Es; [|discriminate Hs]. rewrite (item_ok e n s Es). unfold title, nl. rewrite <- !app_assoc. cbn [app]. rewrite <- !app_assoc. cbn [app]. rewrite <- !app_assoc.
  reflexivity.
Qed.
(** C34: every note is printed once, with its level and its sub-notes, under the
    title of its category; categories are in the order of their titles. *)
Theorem C34_print e ns : Forall (readable e) ns -> print_notes e None (sort_notes ns) = (flat_map (group e ns) order, Ok tt).
Proof.
  intros H. rewrite sort_groups. apply print_groups; [exact H| |exact I]. repeat constructor; cbn; intuition discriminate.
Qed.
Print Assumptions C34_print.

(** ** C34: modes *)
(** Without -i a response is linted: what is printed is what a session with the
    parts of the status line reports. *)
Theorem C34_response e no_body start line hdrs codes clen chunks trailers version code phrase m rel :
  args_mode None = Some (Member RESPONSE)
  /\ (status_line line version code phrase ->
      lint e None (TopResponse version code (Some phrase)) hdrs chunks true trailers (new_linter MResponse start false false []) = (m, rel, Ok tt) ->
      Forall (readable e) (m_notes m) ->
      cli_message e no_body (Member RESPONSE) start line hdrs codes clen chunks trailers = (flat_map (group e (m_notes m)) order, Ok tt)).
Proof.
  split; [reflexivity|]. intros Hl E Hr. apply C34_status_line in Hl. unfold cli_message, input_start. cbn [mode_is]. rewrite Hl. unfold lint in E. cbn [start_line then_] in E.
  destruct (process_headers e None hdrs _) as [m1 [[]|x]]; cbn [then_] in E; [|discriminate]. destruct (feed_all e chunks m1) as [m2 [[]|x]]; [|discriminate].
  unfold input_end. rewrite E. apply C34_print, Hr.
Qed.
Print Assumptions C34_response.
(** With -i, whatever the input, the result is an UnboundLocalError and nothing is
    printed; a request cannot be linted. *)
Theorem C34_mode_refuted e no_body start line hdrs codes clen chunks trailers s : In s [u "request"; u "response"] ->
  args_mode (Some s) = Some (Text s) /\ cli_message e no_body (Text s) start line hdrs codes clen chunks trailers = ([], Err EUnbound).
Proof. intros H. split; [|reflexivity]. cbn [args_mode]. rewrite (proj2 (str_in_In _ _) H). reflexivity. Qed.
Print Assumptions C34_mode_refuted.
Theorem C34_no_request given : args_mode given <> Some (Member REQUEST).
Proof. destruct given as [s|]; cbn; [destruct (_ || _); discriminate|discriminate]. Qed.
Example C34_ex :
  (let '(m, _, r) := lint env0 None (TopResponse (u "1.1") (u "200") (Some (u "OK"))) [(u "Server", u "x"); (u "Cache-Control", u "no-store, Public")] [] true [] (new_linter MResponse None false false []) in
   r = Ok tt
   /\ forallb (fun n => is_ok (summary env0 (n_cls n) (n_vars n)) && forallb (fun k => is_ok (summary env0 (fst k) (snd k))) (n_kids n)) (m_notes m) = true
   /\ map n_cat (sort_notes (m_notes m)) = repeat CACHING 3 ++ [GENERAL])
  /\ status_line (u "HTTP/1.1 200 OK") (u "1.1") (u "200") (u "OK").
Proof.
  split; [vm_compute; repeat split|]. apply C34_status_line. vm_compute. reflexivity.
Qed.
