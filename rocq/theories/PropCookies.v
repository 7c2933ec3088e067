(** * C49: Set-Cookie. *)
From Coq Require Import Lia ZifyBool ZifyN Sorted Permutation.
From Verif Require Import PyStr Regex Grammar NoteTable Note PyLib Utils FieldAttrs Types Fields1 Fields2 Fields3 Framework Checks Message
  EvLogic NoteLemmas TestEnv LexLemmas ParamLemmas NumLemmas PassParse Session SessionLemmas SecNotes SecValues LintLemmas FieldSpec PropFields PropValues PropNames PropParse PropTop PropCli OwnLemmas ListSpec PropLists PropCC ListExamples FieldExamples
  PropInts FieldDue OwnTac OwnMore CookieSpec.
Open Scope N_scope.

(** ** Reading the text *)
Lemma split1_parts c s : split1 c s = if has_chr c s then Some (before c s, after c s) else None.
Proof.
  induction s as [|x s IH]; [reflexivity|]. cbn [split1 before after]. unfold has_chr in *. cbn [existsb]. rewrite (N.eqb_sym c x). destruct (x =? c); [reflexivity|]. cbn [orb]. rewrite IH. destruct (existsb _ s); reflexivity.
Qed.
Lemma before_none c s : has_chr c s = false -> before c s = s /\ after c s = [].
Proof.
  induction s as [|x s IH]; [split; reflexivity|]. unfold has_chr in *. cbn [existsb before after]. rewrite (N.eqb_sym c x). destruct (x =? c); [discriminate|]. cbn [orb]. intros H. destruct (IH H) as [-> ->]. split; reflexivity.
Qed.
Lemma split_or_parts c s : split_or c s = (before c s, after c s).
Proof. unfold split_or. rewrite split1_parts. destruct (has_chr c s) eqn:E; [reflexivity|]. destruct (before_none c s E) as [-> ->]. reflexivity. Qed.
Lemma avs_texts s : cookie_avs s = attribute_texts s.
Proof. unfold cookie_avs, attribute_texts. destruct s; reflexivity. Qed.

Lemma leb_total a : forall b, str_leb a b = true \/ str_leb b a = true.
Proof.
  induction a as [|x a IH]; intros [|y b]; cbn [str_leb]; auto. destruct (N.ltb_spec x y); [auto|]. destruct (N.ltb_spec y x); [auto|]. apply IH.
Qed.
(** ** Deferred notes *)
Definition cks : list str := [u "cookie_name"; u "attribute"].
Definition put (e : ev) : list (nid * list (option pyval)) := match e with EDefer n _ vrs => [(n, map (fun k => dlast k vrs) cks)] | _ => [] end.
Definition puts (l : list ev) := flat_map put l.
Lemma puts_app a b : puts (a ++ b) = puts a ++ puts b. Proof. apply flat_map_app. Qed.
Lemma puts_bind {A B} (w : W A) (f : A -> W B) : puts (fst (bind w f)) = puts (fst w) ++ match snd w with Ok a => puts (fst (f a)) | Err _ => [] end.
Proof. unfold bind. destruct w as [l [a|x]]; cbn [fst snd]; [|rewrite app_nil_r; reflexivity]. destruct (f a) as [l' r]. cbn [fst]. apply puts_app. Qed.
Lemma puts_when b n vrs : puts (fst (when b (defer n vrs))) = if b then [(n, map (fun k => dlast k vrs) cks)] else []. Proof. destruct b; reflexivity. Qed.
Lemma when_ok b n vrs : snd (when b (defer n vrs)) = Ok tt. Proof. destruct b; reflexivity. Qed.
(** One attribute: what it puts off, what it means. *)
Definition nm (cn : str) (a : option str) : list (option pyval) := [Some (VStr cn); option_map VStr a].
Definition piece_puts (now : option Q) (cn : str) (ltn : bool) (p : piece) : list (nid * list (option pyval)) :=
  let one (b : bool) n := if b then [(n, nm cn None)] else [] in
  one (attr_is "expires" p && match loose_date_parse (snd p) with inr _ => true | inl _ => false end) SET_COOKIE_BAD_DATE
  ++ one (attr_is "max-age" p && negb (nonempty (snd p))) SET_COOKIE_EMPTY_MAX_AGE
  ++ one (attr_is "max-age" p && match snd p with 48 :: _ :: _ => true | _ => false end) SET_COOKIE_LEADING_ZERO_MAX_AGE
  ++ one (attr_is "max-age" p && nonempty (snd p) && negb (all_digits (snd p))) SET_COOKIE_NON_DIGIT_MAX_AGE
  ++ one (too_long now p && negb ltn) SET_COOKIE_LIFETIME_TOO_LONG
  ++ one (attr_is "domain" p && negb (nonempty (snd p))) SET_COOKIE_EMPTY_DOMAIN
  ++ one (attr_is "samesite" p && negb (same_site ["strict"; "lax"; "none"; ""]%string (snd p))) SET_COOKIE_UNKNOWN_ATTRIBUTE_VALUE
  ++ one (attr_is "priority" p) SET_COOKIE_PRIORITY ++ one (attr_is "version" p) SET_COOKIE_VERSION
  ++ if one_of known_attributes (lower (fst p)) then [] else [(SET_COOKIE_UNKNOWN_ATTRIBUTE, nm cn (Some (fst p)))].
Definition meaning (path : str) (p : piece) : list attr := match attr_value path p with Some a => [a] | None => [] end.
Ltac known k E one_known := apply str_eqb_eq in E; rewrite (one_known k) by (auto; cbn; tauto); try rewrite E;
  repeat match goal with |- context [str_eqb (u ?a) (u ?b)] => let x := eval vm_compute in (str_eqb (u a) (u b)) in change (str_eqb (u a) (u b)) with x end; cbv iota.
Lemma attribute_eq path now cn ltn n v :
  puts (fst (cookie_attribute path now cn ltn n v)) = piece_puts now cn ltn (n, v)
  /\ snd (cookie_attribute path now cn ltn n v) = if chokes (n, v) then Err EValue else Ok (meaning path (n, v), ltn || too_long now (n, v)).
Proof.
  unfold cookie_attribute, piece_puts, chokes, meaning, attr_value, too_long, attr_is. cbv zeta. cbn [fst snd].
  assert (one_known : forall k, In k known_attributes -> lower n = u k -> one_of known_attributes (lower n) = true).
  { intros k Hk H. unfold one_of. apply existsb_exists. exists k. split; [exact Hk|]. rewrite H. apply str_eqb_refl. }
  destruct (str_eqb (lower n) (u "expires")) eqn:E1.
  { known "expires"%string E1 one_known. cbn [andb orb app]. rewrite ?orb_false_r. change days_400 with cookie_limit.
    destruct (loose_date_parse v) as [z|why]; [|rewrite ?orb_false_r; split; reflexivity]. 
    destruct (q_truthy now) as [t|]; [|rewrite ?orb_false_r; split; reflexivity]. destruct (q_gt _ _), ltn; split; reflexivity. }
  destruct (str_eqb (lower n) (u "max-age")) eqn:E2.
  { known "max-age"%string E2 one_known. cbn [andb orb app]. change days_400 with cookie_limit. unfold all_digits.
    destruct v as [|a0 v]; [rewrite ?orb_false_r; split; reflexivity|]. cbn [nonempty andb negb app]. 
    assert (Z : (match a0 :: v with 48 :: _ :: _ => true | _ => false end) = (a0 =? 48) && Nat.ltb 1 (List.length (a0 :: v))).
    { destruct (a0 =? 48) eqn:A; [apply N.eqb_eq in A; subst; destruct v; reflexivity|]. apply N.eqb_neq in A. destruct a0 as [|p]; [reflexivity|].
      repeat (destruct p as [p|p|]; try reflexivity). destruct A. reflexivity. }
    rewrite Z. unfold int_of. set (b := (a0 =? 48) && Nat.ltb 1 (List.length (a0 :: v))). clearbody b.
    destruct (py_isdigit (a0 :: v)); cbn [negb andb]; [|destruct b, ltn; split; reflexivity].
    destruct (py_int (a0 :: v)) as [z|]; [|destruct b, ltn; split; reflexivity]. cbn [option_map]. rewrite lift_ok. cbv zeta. destruct (cookie_limit <? z)%Z, b, ltn; split; reflexivity. }
  rewrite ?orb_false_r. cbn [andb orb app].
  destruct (str_eqb (lower n) (u "domain")) eqn:E3.
  { known "domain"%string E3 one_known. cbn [andb orb app]. destruct v as [|a0 v]; [rewrite ?orb_false_r; split; reflexivity|]. split; [reflexivity|]. rewrite ?orb_false_r. cbn [negb nonempty snd ret]. unfold undotted. 
    destruct (a0 =? 46) eqn:A; [apply N.eqb_eq in A; subst; reflexivity|]. apply N.eqb_neq in A. destruct a0 as [|p]; [reflexivity|]. repeat (destruct p as [p|p|]; try reflexivity). destruct A. reflexivity. }
  destruct (str_eqb (lower n) (u "path")) eqn:E4.
  { known "path"%string E4 one_known. split; [reflexivity|]. rewrite ?orb_false_r. reflexivity. }
  destruct (str_eqb (lower n) (u "secure")) eqn:E5.
  { known "secure"%string E5 one_known. split; [reflexivity|]. rewrite ?orb_false_r. reflexivity. }
  destruct (str_eqb (lower n) (u "httponly")) eqn:E6.
  { known "httponly"%string E6 one_known. split; [reflexivity|]. rewrite ?orb_false_r. reflexivity. }
  destruct (str_eqb (lower n) (u "samesite")) eqn:E7.
  { known "samesite"%string E7 one_known. cbn [andb orb app]. unfold same_site, one_of, str_in. cbn [existsb]. rewrite ?orb_false_r.
    change (u "") with (@nil N). destruct (str_eqb (lower v) (u "strict")), (str_eqb (lower v) (u "none")), (str_eqb (lower v) (u "lax")), (str_eqb (lower v) []); split; try reflexivity; rewrite ?orb_false_r; reflexivity. }
  destruct (str_eqb (lower n) (u "partitioned")) eqn:E8.
  { known "partitioned"%string E8 one_known. split; [reflexivity|]. rewrite ?orb_false_r. reflexivity. }
  destruct (str_eqb (lower n) (u "priority")) eqn:E9.
  { known "priority"%string E9 one_known. split; [reflexivity|]. rewrite ?orb_false_r. reflexivity. }
  destruct (str_eqb (lower n) (u "version")) eqn:E10.
  { known "version"%string E10 one_known. split; [reflexivity|]. rewrite ?orb_false_r. reflexivity. }
  unfold one_of. cbn [existsb known_attributes]. rewrite E1, E2, E3, E4, E5, E6, E7, E8, E9, E10. split; [reflexivity|]. rewrite ?orb_false_r. reflexivity.
Qed.

(** ** All attributes *)
Definition pick (c : nid) (l : list (nid * list (option pyval))) : list (list (option pyval)) := flat_map (fun x => if nid_eqb (fst x) c then [snd x] else []) l.
Lemma pick_app c a b : pick c (a ++ b) = pick c a ++ pick c b. Proof. apply flat_map_app. Qed.
Definition dup_puts (cn : str) (seen : list str) (p : piece) : list (nid * list (option pyval)) := if existsb (str_eqb (lower (fst p))) seen then [(SET_COOKIE_ATTRIBUTE_DUP, nm cn (Some (fst p)))] else [].
Fixpoint loop_puts (now : option Q) (cn : str) (seen : list str) (ltn : bool) (ps : list piece) : list (nid * list (option pyval)) :=
  match ps with [] => [] | p :: r => dup_puts cn seen p ++ piece_puts now cn ltn p ++ if chokes p then [] else loop_puts now cn (lower (fst p) :: seen) (ltn || too_long now p) r end.
Lemma loop_eq path now cn avs : forall seen ltn,
  puts (fst (cookie_loop path now cn avs seen ltn)) = loop_puts now cn seen ltn (map read_piece avs)
  /\ snd (cookie_loop path now cn avs seen ltn) = if existsb chokes (map read_piece avs) then Err EValue else Ok (flat_map (meaning path) (map read_piece avs)).
Proof.
  induction avs as [|av avs IH]; intros seen ltn; [split; reflexivity|]. cbn [cookie_loop map loop_puts existsb flat_map]. rewrite split_or_parts. cbv zeta.
  destruct (attribute_eq path now cn ltn (strip (before 61 av)) (strip (after 61 av))) as [A1 A2]. change (strip (before 61 av), strip (after 61 av)) with (read_piece av) in *.
  set (n := strip (before 61 av)) in *. change (fst (read_piece av)) with n. destruct (IH (lower n :: seen) (ltn || too_long now (read_piece av))) as [I1 I2]. split.
  - rewrite puts_bind, puts_when, when_ok, puts_bind, A1, A2. f_equal. f_equal. destruct (chokes (read_piece av)); [reflexivity|]. rewrite puts_bind. cbn [snd]. rewrite I1, I2.
    destruct (existsb chokes _); apply app_nil_r.
  - unfold bind at 1. destruct (when _ _) as [lw rw] eqn:W. assert (R : rw = Ok tt) by (apply (f_equal snd) in W; rewrite when_ok in W; symmetry; exact W). rewrite R.
    destruct (cookie_attribute path now cn ltn n (strip (after 61 av))) as [la ra]. cbn [fst snd] in A1, A2. rewrite A2. destruct (chokes (read_piece av)); [reflexivity|]. cbn [orb].
    unfold bind. cbn [snd fst]. destruct (cookie_loop path now cn avs (lower n :: seen) (ltn || too_long now (read_piece av))) as [l2 r2]. cbn [snd] in I2. rewrite I2. destruct (existsb chokes _); reflexivity.
Qed.
(** By class. *)
Definition pieces_say (cn : str) (b : piece -> bool) (ps : list piece) : list (list (option pyval)) := map (nm cn) (each b ps).
Lemma say_cons cn (b : piece -> bool) (p : piece) ps : pieces_say cn b (p :: ps) = (if b p then [nm cn None] else []) ++ pieces_say cn b ps.
Proof. unfold pieces_say, each. cbn [flat_map]. rewrite map_app. destruct (b p); reflexivity. Qed.
Lemma by_piece now cn c (b : piece -> bool) : (forall (ltn : bool) (p : piece), pick c (piece_puts now cn ltn p) = if b p then [nm cn None] else []) -> (forall (seen : list str) (p : piece), pick c (dup_puts cn seen p) = []) ->
  forall ps seen ltn, pick c (loop_puts now cn seen ltn ps) = pieces_say cn b (live ps).
Proof.
  intros H1 H2. induction ps as [|p ps IH]; intros seen ltn; [reflexivity|]. cbn [loop_puts live]. rewrite !pick_app, H1, H2, say_cons. cbn [app]. f_equal. destruct (chokes p); [reflexivity|apply IH].
Qed.
Lemma pick_one c (b : bool) n (x : list (option pyval)) : pick c (if b then [(n, x)] else []) = if nid_eqb n c then if b then [x] else [] else [].
Proof. destruct b; unfold pick; cbn [flat_map fst snd]; destruct (nid_eqb n c); reflexivity. Qed.
Lemma pick_not c (b : bool) n (x : list (option pyval)) : pick c (if b then [] else [(n, x)]) = if nid_eqb n c then if b then [] else [x] else [].
Proof. destruct b; unfold pick; cbn [flat_map fst snd]; destruct (nid_eqb n c); reflexivity. Qed.
Lemma pick_if c (b : bool) l : pick c (if b then l else []) = if b then pick c l else []. Proof. destruct b; reflexivity. Qed.
Ltac classed := repeat match goal with |- context [nid_eqb ?a ?b] => let x := eval vm_compute in (nid_eqb a b) in change (nid_eqb a b) with x end; cbv iota; cbn [app]; rewrite ?app_nil_r.
Ltac picks := rewrite !pick_app, ?pick_one, ?pick_not; classed; try reflexivity.
Ltac pieced := apply by_piece; [let a := fresh in let b := fresh in intros a b; unfold piece_puts; cbv zeta; picks
  |let a := fresh in let b := fresh in intros a b; unfold dup_puts; rewrite pick_one; classed; reflexivity].
Definition piece_rule (c : nid) : option (piece -> bool) :=
  match c with
  | SET_COOKIE_BAD_DATE => Some (fun p => attr_is "expires" p && match loose_date_parse (snd p) with inr _ => true | inl _ => false end)
  | SET_COOKIE_EMPTY_MAX_AGE => Some (fun p => attr_is "max-age" p && negb (nonempty (snd p)))
  | SET_COOKIE_LEADING_ZERO_MAX_AGE => Some (fun p => attr_is "max-age" p && match snd p with 48 :: _ :: _ => true | _ => false end)
  | SET_COOKIE_NON_DIGIT_MAX_AGE => Some (fun p => attr_is "max-age" p && nonempty (snd p) && negb (all_digits (snd p)))
  | SET_COOKIE_EMPTY_DOMAIN => Some (fun p => attr_is "domain" p && negb (nonempty (snd p)))
  | SET_COOKIE_UNKNOWN_ATTRIBUTE_VALUE => Some (fun p => attr_is "samesite" p && negb (same_site ["strict"; "lax"; "none"; ""]%string (snd p)))
  | SET_COOKIE_PRIORITY => Some (attr_is "priority")
  | SET_COOKIE_VERSION => Some (attr_is "version")
  | SET_COOKIE_NO_NAME | SET_COOKIE_TOO_LARGE | SET_COOKIE_VALUE_TOO_LARGE | SET_COOKIE_NOT_SECURE | SET_COOKIE_PARTITIONED_NO_SECURE | SET_COOKIE_PREFIX_SECURE_MISSING
  | SET_COOKIE_PREFIX_HOST_BAD_PATH | SET_COOKIE_PREFIX_HOST_BAD_DOMAIN => Some (fun _ => false)
  | _ => None
  end.
Lemma loop_rule c b now cn ps : piece_rule c = Some b -> pick c (loop_puts now cn [] false ps) = pieces_say cn b (live ps).
Proof. intros H. destruct c; try discriminate H; injection H as <-; pieced. Qed.
Lemma loop_dup now cn ps : forall seen ltn, pick SET_COOKIE_ATTRIBUTE_DUP (loop_puts now cn seen ltn ps) = map (fun p => nm cn (Some (fst p))) (again seen (live ps)).
Proof.
  induction ps as [|p ps IH]; intros seen ltn; [reflexivity|]. cbn [loop_puts live again]. rewrite pick_app, map_app. f_equal.
  - unfold dup_puts. destruct (existsb _ seen); reflexivity.
  - rewrite pick_app. assert (X : pick SET_COOKIE_ATTRIBUTE_DUP (piece_puts now cn ltn p) = []) by (unfold piece_puts; cbv zeta; picks). rewrite X. cbn [app]. destruct (chokes p); [reflexivity|apply IH].
Qed.
Lemma loop_unknown now cn ps : forall seen ltn, pick SET_COOKIE_UNKNOWN_ATTRIBUTE (loop_puts now cn seen ltn ps) = map (nm cn) (flat_map (fun p => if one_of known_attributes (lower (fst p)) then [] else [Some (fst p)]) (live ps)).
Proof.
  induction ps as [|p ps IH]; intros seen ltn; [reflexivity|]. cbn [loop_puts live flat_map]. rewrite !pick_app, map_app.
  assert (X : pick SET_COOKIE_UNKNOWN_ATTRIBUTE (piece_puts now cn ltn p) = if one_of known_attributes (lower (fst p)) then [] else [nm cn (Some (fst p))]) by (unfold piece_puts; cbv zeta; picks).
  rewrite X. assert (Y : pick SET_COOKIE_UNKNOWN_ATTRIBUTE (dup_puts cn seen p) = []) by (unfold dup_puts; rewrite pick_one; classed; reflexivity). rewrite Y. cbn [app]. f_equal; [destruct (one_of _ _); reflexivity|].
  destruct (chokes p); [reflexivity|apply IH].
Qed.
Lemma loop_long now cn ps : forall seen ltn, pick SET_COOKIE_LIFETIME_TOO_LONG (loop_puts now cn seen ltn ps) = map (nm cn) (times (negb ltn && existsb (too_long now) (live ps))).
Proof.
  induction ps as [|p ps IH]; intros seen ltn; [rewrite andb_false_r; reflexivity|]. cbn [loop_puts live existsb]. rewrite !pick_app.
  assert (X : pick SET_COOKIE_LIFETIME_TOO_LONG (piece_puts now cn ltn p) = if too_long now p && negb ltn then [nm cn None] else []) by (unfold piece_puts; cbv zeta; picks).
  rewrite X. assert (Y : pick SET_COOKIE_LIFETIME_TOO_LONG (dup_puts cn seen p) = []) by (unfold dup_puts; rewrite pick_one; classed; reflexivity). rewrite Y. cbn [app].
  destruct (chokes p).
  - cbn [existsb]. rewrite orb_false_r. destruct (too_long now p), ltn; reflexivity.
  - rewrite IH. destruct (too_long now p), ltn; reflexivity.
Qed.

(** ** A line *)
Definition tail_puts (path : str) (l : line_of_cookie) : list (nid * list (option pyval)) :=
  let ps := l_pieces l in
  let one (b : bool) n := if b then [(n, nm (l_name l) None)] else [] in
  one (some_attr "samesite" (same_site ["none"]%string) ps && negb (secure ps)) SET_COOKIE_NOT_SECURE
  ++ one (some_attr "partitioned" any_value ps && negb (secure ps)) SET_COOKIE_PARTITIONED_NO_SECURE
  ++ one (is_prefix "__secure-" (l_name l) && negb (secure ps)) SET_COOKIE_PREFIX_SECURE_MISSING
  ++ one (is_prefix "__host-" (l_name l) && negb (secure ps)) SET_COOKIE_PREFIX_SECURE_MISSING
  ++ one (is_prefix "__host-" (l_name l) && negb (some_attr "path" (fun v => str_eqb (cookie_path path v) (u "/")) ps)) SET_COOKIE_PREFIX_HOST_BAD_PATH
  ++ if is_prefix "__host-" (l_name l) then flat_map (fun p => one (attr_is "domain" p && nonempty (snd p)) SET_COOKIE_PREFIX_HOST_BAD_DOMAIN) ps else [].
Definition line_puts (path : str) (now : option Q) (l : line_of_cookie) : list (nid * list (option pyval)) :=
  if nameless l then [(SET_COOKIE_NO_NAME, [None; None])]
  else (if 4096 <? N.of_nat (List.length (l_name l) + List.length (l_value l)) then [(SET_COOKIE_TOO_LARGE, nm (l_name l) None)] else [])
    ++ (if 128 <? N.of_nat (List.length (l_value l)) then [(SET_COOKIE_VALUE_TOO_LARGE, nm (l_name l) None)] else [])
    ++ loop_puts now (l_name l) [] false (l_pieces l)
    ++ if existsb chokes (l_pieces l) then [] else tail_puts path l.
Lemma attr_only k v path (b : piece -> bool) ps :
  (forall p, existsb (fun a : attr => str_eqb (fst a) (u k) && match snd a with AStr s => str_eqb s (u v) | AInt _ => false end) (meaning path p) = b p) ->
  has_attr k v (flat_map (meaning path) ps) = existsb b ps.
Proof. intros H. unfold has_attr. induction ps as [|p ps IH]; [reflexivity|]. cbn [flat_map existsb]. rewrite existsb_app. f_equal; [apply H|apply IH]. Qed.
Ltac strs := repeat match goal with |- context [str_eqb (u ?a) (u ?b)] => let x := eval vm_compute in (str_eqb (u a) (u b)) in change (str_eqb (u a) (u b)) with x end; cbn [andb orb].
Lemma attr_word p k k' : attr_is k p = true -> str_eqb (u k) (u k') = false -> attr_is k' p = false.
Proof. unfold attr_is. intros H N. apply str_eqb_eq in H. rewrite H. exact N. Qed.
Ltac others p E := repeat match goal with |- context [attr_is ?k' p] => rewrite (attr_word p _ k' E) by reflexivity end; cbv iota; cbn [andb].
Ltac attr_case p := unfold meaning, attr_value;
  repeat match goal with |- context [if attr_is ?k p then _ else _] => let E := fresh "E" in destruct (attr_is k p) eqn:E; [others p E|] end;
  repeat match goal with |- context [loose_date_parse ?x] => destruct (loose_date_parse x) | |- context [if all_digits ?x then _ else _] => destruct (all_digits x) | |- context [py_int ?x] => destruct (py_int x)
    | |- context [if nonempty ?x then _ else _] => destruct (nonempty x) | |- context [if same_site ?l ?x then _ else _] => let E := fresh "S" in destruct (same_site l x) eqn:E end;
  cbn [option_map existsb fst snd]; strs; try reflexivity.
Lemma has_secure path ps : has_attr "Secure" "" (flat_map (meaning path) ps) = secure ps.
Proof. unfold secure, some_attr, any_value. apply attr_only. intros p. attr_case p. Qed.
Lemma has_part path ps : has_attr "Partitioned" "" (flat_map (meaning path) ps) = some_attr "partitioned" any_value ps.
Proof. unfold some_attr, any_value. apply attr_only. intros p. attr_case p. Qed.
Lemma has_httponly path ps : has_attr "HttpOnly" "" (flat_map (meaning path) ps) = some_attr "httponly" any_value ps.
Proof. unfold some_attr, any_value. apply attr_only. intros p. attr_case p. Qed.
Lemma has_path path ps : has_attr "Path" "/" (flat_map (meaning path) ps) = some_attr "path" (fun v => str_eqb (cookie_path path v) (u "/")) ps.
Proof. unfold some_attr. apply attr_only. intros p. attr_case p. apply orb_false_r. Qed.
Lemma one_same s v : same_site [s] v = str_eqb (lower v) (u s). Proof. unfold same_site, one_of. cbn [existsb]. apply orb_false_r. Qed.
Lemma two_same s s' v : same_site [s; s'] v = str_eqb (lower v) (u s) || str_eqb (lower v) (u s'). Proof. unfold same_site, one_of. cbn [existsb]. rewrite orb_false_r. reflexivity. Qed.
Ltac lowered := rewrite ?one_same, ?two_same in *; repeat match goal with H : _ || _ = true |- _ => apply orb_true_iff in H; destruct H as [H|H] | H : _ || _ = false |- _ => apply orb_false_iff in H; destruct H end;
  repeat match goal with H : str_eqb (lower ?v) _ = true |- _ => apply str_eqb_eq in H; rewrite ?H in * end; strs; try reflexivity; try congruence.
Lemma has_none path ps : has_attr "SameSite" "None" (flat_map (meaning path) ps) = some_attr "samesite" (same_site ["none"]%string) ps.
Proof. unfold some_attr. apply attr_only. intros p. attr_case p; lowered. Qed.
Lemma has_strict path ps : has_attr "SameSite" "Strict" (flat_map (meaning path) ps) = some_attr "samesite" (same_site ["strict"]%string) ps.
Proof. unfold some_attr. apply attr_only. intros p. attr_case p; lowered. Qed.
Lemma has_lax path ps : has_attr "SameSite" "Lax" (flat_map (meaning path) ps) = some_attr "samesite" (same_site ["lax"; ""]%string) ps.
Proof. unfold some_attr. apply attr_only. intros p. attr_case p; lowered. Qed.
Lemma snd_bind {A B} (w : W A) (f : A -> W B) : snd (bind w f) = match snd w with Ok a => snd (f a) | Err x => Err x end.
Proof. unfold bind. destruct w as [l [a|x]]; cbn [snd]; [destruct (f a) as [l' r]; reflexivity|reflexivity]. Qed.
Lemma puts_map {A} (f : A -> W unit) l : (forall a, snd (f a) = Ok tt) -> puts (fst (mapW f l)) = flat_map (fun a => puts (fst (f a))) l /\ exists r, snd (mapW f l) = Ok r.
Proof.
  intros H. induction l as [|a l [I1 [r I2]]]; [split; [reflexivity|exists []; reflexivity]|]. cbn [mapW flat_map]. split.
  - rewrite puts_bind, H, puts_bind, I1, I2. f_equal. apply app_nil_r.
  - rewrite snd_bind, H, snd_bind, I2. exists (tt :: r). reflexivity.
Qed.
Lemma puts_iter {A} (f : A -> W unit) l : (forall a, snd (f a) = Ok tt) -> puts (fst (iterW f l)) = flat_map (fun a => puts (fst (f a))) l /\ snd (iterW f l) = Ok tt.
Proof. intros H. destruct (puts_map f l H) as [H1 [r H2]]. unfold iterW. rewrite puts_bind, snd_bind, H1, H2. split; [apply app_nil_r|reflexivity]. Qed.
Lemma domains_put path cn ps : puts (fst (iterW (fun a : attr => when (str_eqb (fst a) (u "Domain")) (defer SET_COOKIE_PREFIX_HOST_BAD_DOMAIN [vs "cookie_name" cn])) (flat_map (meaning path) ps)))
  = flat_map (fun p => if attr_is "domain" p && nonempty (snd p) then [(SET_COOKIE_PREFIX_HOST_BAD_DOMAIN, nm cn None)] else []) ps.
Proof.
  rewrite (proj1 (puts_iter _ _ (fun a => when_ok _ _ _))). induction ps as [|p ps IH]; [reflexivity|]. cbn [flat_map]. rewrite flat_map_app, IH. f_equal. clear.
  attr_case p.
Qed.
Lemma prefixes_eq path cn ps :
  puts (fst (check_prefixes cn (flat_map (meaning path) ps))) = 
    (if is_prefix "__secure-" cn && negb (secure ps) then [(SET_COOKIE_PREFIX_SECURE_MISSING, nm cn None)] else [])
    ++ (if is_prefix "__host-" cn && negb (secure ps) then [(SET_COOKIE_PREFIX_SECURE_MISSING, nm cn None)] else [])
    ++ (if is_prefix "__host-" cn && negb (some_attr "path" (fun v => str_eqb (cookie_path path v) (u "/")) ps) then [(SET_COOKIE_PREFIX_HOST_BAD_PATH, nm cn None)] else [])
    ++ (if is_prefix "__host-" cn then flat_map (fun p => if attr_is "domain" p && nonempty (snd p) then [(SET_COOKIE_PREFIX_HOST_BAD_DOMAIN, nm cn None)] else []) ps else [])
  /\ snd (check_prefixes cn (flat_map (meaning path) ps)) = Ok tt.
Proof.
  unfold check_prefixes, is_prefix. cbv zeta. rewrite has_secure, has_path. set (a := startswith (u "__secure-") _). set (b := startswith (u "__host-") _). clearbody a b. split.
  - rewrite puts_bind, puts_when, when_ok. f_equal. destruct b; [|reflexivity]. cbn [andb]. rewrite puts_bind, puts_when, when_ok, puts_bind, puts_when, when_ok, domains_put. reflexivity.
  - rewrite snd_bind, when_ok. destruct b; [|reflexivity]. rewrite snd_bind, when_ok, snd_bind, when_ok. apply (puts_iter _ _ (fun a => when_ok _ _ _)).
Qed.
Lemma parse_eq v path now : let l := read_cookie v in
  puts (fst (loose_parse v path now)) = line_puts path now l
  /\ snd (loose_parse v path now) = if whole l then Ok (l_name l, l_value l, attrs_of path l) else Err EValue.
Proof.
  intros l. unfold loose_parse. rewrite split_or_parts. rewrite split1_parts. cbv zeta. subst l. unfold read_cookie. cbv zeta.
  set (nv := if has_chr 61 (before 59 v) then (before 61 (before 59 v), after 61 (before 59 v)) else ([], before 59 v)).
  assert (X : (match (if has_chr 61 (before 59 v) then Some (before 61 (before 59 v), after 61 (before 59 v)) else None) with Some p => p | None => ([], before 59 v) end) = nv) by (unfold nv; destruct (has_chr _ _); reflexivity).
  rewrite X. clearbody nv. clear X. destruct nv as [n w]. rewrite avs_texts. set (avs := attribute_texts _). clearbody avs. set (name := strip n). set (val := strip w). clearbody name val. clear.
  remember (mkLine name val (map read_piece avs)) as l eqn:L. assert (Ln : name = l_name l) by (subst l; reflexivity). assert (Lv : val = l_value l) by (subst l; reflexivity). assert (Lp : map read_piece avs = l_pieces l) by (subst l; reflexivity).
  clear L. subst name val. unfold line_puts, whole. fold (nameless l).
  destruct (nameless l) eqn:N; [split; reflexivity|]. cbn [negb andb]. 
  assert (A : Nat.ltb (N.to_nat 4096) (List.length (l_name l) + List.length (l_value l)) = (4096 <? N.of_nat (List.length (l_name l) + List.length (l_value l)))) by lia.
  assert (B : Nat.ltb 128 (List.length (l_value l)) = (128 <? N.of_nat (List.length (l_value l)))) by lia.
  rewrite A, B. clear A B.
  destruct (loop_eq path now (l_name l) avs [] false) as [L1 L2]. rewrite Lp in L1, L2. destruct (prefixes_eq path (l_name l) (l_pieces l)) as [P1 P2].
  rewrite puts_bind, puts_when, when_ok, puts_bind, puts_when, when_ok, puts_bind, L1, L2. rewrite snd_bind, when_ok, snd_bind, when_ok, snd_bind, L2.
  destruct (existsb chokes (l_pieces l)); [split; reflexivity|]. cbn [negb].
  rewrite has_none, has_secure, has_part. split; [|rewrite snd_bind, when_ok, snd_bind, when_ok, snd_bind, P2; reflexivity].
  unfold tail_puts. cbv zeta. do 3 f_equal. rewrite puts_bind, puts_when, when_ok, puts_bind, puts_when, when_ok, puts_bind, P1, P2, app_nil_r. reflexivity.
Qed.
Lemma live_all ps : existsb chokes ps = false -> live ps = ps.
Proof. induction ps as [|p ps IH]; [reflexivity|]. cbn [existsb live]. intros H. apply orb_false_iff in H as [H1 H2]. rewrite H1, (IH H2). reflexivity. Qed.
Lemma no_pieces cn ps : pieces_say cn (fun _ => false) ps = []. Proof. induction ps; [reflexivity|]. rewrite say_cons. exact IHps. Qed.
Lemma pick_flat {A} c (f : A -> list (nid * list (option pyval))) l : pick c (flat_map f l) = flat_map (fun a => pick c (f a)) l.
Proof. induction l as [|a l IH]; [reflexivity|]. cbn [flat_map]. rewrite pick_app, IH. reflexivity. Qed.
Lemma flat_nil {A B} (l : list A) : flat_map (fun _ => @nil B) l = []. Proof. induction l; [reflexivity|exact IHl]. Qed.
Lemma times_map cn (b : bool) : (if b then [nm cn None] else []) = map (nm cn) (times b). Proof. destruct b; reflexivity. Qed.
Lemma each_false ps : each (fun _ => false) ps = []. Proof. apply flat_nil. Qed.
Lemma domains_said cn ps : flat_map (fun p : piece => if attr_is "domain" p && nonempty (snd p) then [nm cn None] else []) ps = map (nm cn) (each (fun p => attr_is "domain" p && nonempty (snd p)) ps).
Proof. induction ps as [|p ps IH]; [reflexivity|]. unfold each in *. cbn [flat_map]. rewrite map_app, IH, times_map. reflexivity. Qed.
Lemma prefixes_apart n : is_prefix "__secure-" n = true -> is_prefix "__host-" n = true -> False.
Proof.
  unfold is_prefix. generalize (lower n). intros s.
  let x := eval vm_compute in (u "__secure-") in change (u "__secure-") with x. let x := eval vm_compute in (u "__host-") in change (u "__host-") with x. intros H1 H2.
  do 3 (destruct s as [|? s]; [cbn [startswith] in H1; rewrite ?andb_false_r in H1; discriminate|]). cbn [startswith] in H1, H2.
  repeat match goal with H : _ && _ = true |- _ => apply andb_true_iff in H as [? H] end. lia.
Qed.
Lemma line_due path now l c : In c cookie_classes ->
  pick c (line_puts path now l) = map (fun a => [if nameless l then None else Some (VStr (l_name l)); option_map VStr a]) (cookie_due path now l c).
Proof.
  intros Hc. unfold line_puts, cookie_due. cbv zeta. destruct (nameless l) eqn:N.
  { assert (M : nid_eqb SET_COOKIE_NO_NAME c = nid_eqb c SET_COOKIE_NO_NAME) by (cbn [cookie_classes In] in Hc; repeat (destruct Hc as [<-|Hc]; [reflexivity|]); destruct Hc).
    unfold pick. cbn [flat_map fst snd]. rewrite M. destruct (nid_eqb c SET_COOKIE_NO_NAME); reflexivity. }
  change (fun a => [Some (VStr (l_name l)); option_map VStr a]) with (nm (l_name l)).
  assert (T : pick c (if existsb chokes (l_pieces l) then [] else tail_puts path l) = if whole l then pick c (tail_puts path l) else []) by (unfold whole; rewrite N; destruct (existsb _ _); reflexivity).
  assert (W : whole l = true -> live (l_pieces l) = l_pieces l) by (unfold whole; rewrite N; cbn [negb andb]; intros H; apply live_all; destruct (existsb _ _); [discriminate|reflexivity]).
  rewrite !pick_app, T. clear T. 
  assert (DD : pick c (if is_prefix "__host-" (l_name l) then flat_map (fun p => if attr_is "domain" p && nonempty (snd p) then [(SET_COOKIE_PREFIX_HOST_BAD_DOMAIN, nm (l_name l) None)] else []) (l_pieces l) else [])
    = if is_prefix "__host-" (l_name l) then flat_map (fun p => if nid_eqb SET_COOKIE_PREFIX_HOST_BAD_DOMAIN c then if attr_is "domain" p && nonempty (snd p) then [nm (l_name l) None] else [] else []) (l_pieces l) else []).
  { rewrite pick_if, pick_flat. destruct (is_prefix _ _); [|reflexivity]. apply flat_map_ext. intros p. apply pick_one. }
  assert (TT : pick c (tail_puts path l) = 
     (if nid_eqb SET_COOKIE_NOT_SECURE c then map (nm (l_name l)) (times (some_attr "samesite" (same_site ["none"]%string) (l_pieces l) && negb (secure (l_pieces l)))) else [])
     ++ (if nid_eqb SET_COOKIE_PARTITIONED_NO_SECURE c then map (nm (l_name l)) (times (some_attr "partitioned" any_value (l_pieces l) && negb (secure (l_pieces l)))) else [])
     ++ (if nid_eqb SET_COOKIE_PREFIX_SECURE_MISSING c then map (nm (l_name l)) (times (is_prefix "__secure-" (l_name l) && negb (secure (l_pieces l)))) else [])
     ++ (if nid_eqb SET_COOKIE_PREFIX_SECURE_MISSING c then map (nm (l_name l)) (times (is_prefix "__host-" (l_name l) && negb (secure (l_pieces l)))) else [])
     ++ (if nid_eqb SET_COOKIE_PREFIX_HOST_BAD_PATH c then map (nm (l_name l)) (times (is_prefix "__host-" (l_name l) && negb (some_attr "path" (fun v => str_eqb (cookie_path path v) (u "/")) (l_pieces l)))) else [])
     ++ (if nid_eqb SET_COOKIE_PREFIX_HOST_BAD_DOMAIN c then map (nm (l_name l)) (if is_prefix "__host-" (l_name l) then each (fun p => attr_is "domain" p && nonempty (snd p)) (l_pieces l) else []) else [])).
  { unfold tail_puts. cbv zeta. rewrite !pick_app, DD, !pick_one, !times_map. do 5 f_equal. destruct (is_prefix "__host-" _); [|destruct (nid_eqb _ _); reflexivity].
    destruct (nid_eqb _ _); [apply domains_said|apply flat_nil]. }
  rewrite TT. clear DD TT. rewrite !pick_one.
  assert (PX : is_prefix "__secure-" (l_name l) = true -> is_prefix "__host-" (l_name l) = true -> False) by (apply prefixes_apart).
  set (nsec := secure (l_pieces l)) in *.
  assert (Lp : forall c b, piece_rule c = Some b -> pick c (loop_puts now (l_name l) [] false (l_pieces l)) = pieces_say (l_name l) b (live (l_pieces l))) by (intros; apply loop_rule; assumption).
  pose proof (loop_dup now (l_name l) (l_pieces l) [] false) as Ld. pose proof (loop_long now (l_name l) (l_pieces l) [] false) as Ll. pose proof (loop_unknown now (l_name l) (l_pieces l) [] false) as Lu. cbn [negb andb] in Ll.
  destruct (whole l) eqn:Wh; [rewrite (W eq_refl) in *|]; clear W.
  - fold nsec. clearbody nsec. destruct (piece_rule c) as [b|] eqn:R.
    + rewrite (Lp c b R). cbn [cookie_classes In] in Hc.
      repeat (destruct Hc as [<-|Hc]; [try discriminate R; cbn [piece_rule] in R; injection R as <-; classed; rewrite ?no_pieces, ?times_map; cbn [app andb]; rewrite ?app_nil_r; try reflexivity|]).
      * revert PX. generalize (is_prefix "__secure-" (l_name l)), (is_prefix "__host-" (l_name l)). intros [] []; destruct nsec; cbn; intros PX; try reflexivity. destruct (PX eq_refl eq_refl).
      * destruct (is_prefix "__host-" (l_name l)); cbn [andb]; [reflexivity|]. rewrite each_false. reflexivity.
      * destruct Hc.
    + cbn [cookie_classes In] in Hc. repeat (destruct Hc as [<-|Hc]; [try discriminate R; classed; cbn [app andb]; rewrite ?app_nil_r|]); [| | |destruct Hc].
      * rewrite Ld, map_map. reflexivity.
      * exact Ll.
      * exact Lu.
  - cbn [andb]. rewrite !app_nil_r. destruct (piece_rule c) as [b|] eqn:R.
    + rewrite (Lp c b R). cbn [cookie_classes In] in Hc.
      repeat (destruct Hc as [<-|Hc]; [try discriminate R; cbn [piece_rule] in R; injection R as <-; classed; rewrite ?no_pieces, ?times_map, ?each_false; cbn [app andb]; rewrite ?app_nil_r; try reflexivity|]).
      destruct Hc.
    + cbn [cookie_classes In] in Hc. repeat (destruct Hc as [<-|Hc]; [try discriminate R; classed; cbn [app andb]; rewrite ?app_nil_r|]); [| | |destruct Hc].
      * rewrite Ld, map_map. reflexivity.
      * exact Ll.
      * exact Lu.
Qed.

(** ** What the parser and the evaluator emit *)
Definition defers {A} (w : W A) : Prop := Forall (fun x => match x with EDefer n _ _ => In n cookie_classes | _ => False end) (fst w).
Lemma df_ret {A} (a : A) : defers (ret a). Proof. constructor. Qed.
Lemma df_raise {A} x : defers (@raise A x). Proof. constructor. Qed.
Lemma df_defer n v : In n cookie_classes -> defers (defer n v). Proof. intros H. constructor; [exact H|constructor]. Qed.
Lemma df_lift {A} (r : res A) : defers (lift r). Proof. constructor. Qed.
Lemma df_bind {A B} (m : W A) (f : A -> W B) : defers m -> (forall a, defers (f a)) -> defers (bind m f).
Proof. intros H Hf. unfold defers, bind in *. destruct m as [l [a|x]]; cbn [fst] in *; [|exact H]. specialize (Hf a). destruct (f a) as [l' r]. cbn [fst] in *. apply Forall_app. auto. Qed.
Lemma df_when b m : defers m -> defers (when b m). Proof. destruct b; cbn; auto. intros _. constructor. Qed.
Lemma df_mapW {A B} (f : A -> W B) l : (forall a, defers (f a)) -> defers (mapW f l).
Proof. intros H. induction l as [|a l IH]; cbn [mapW]; [apply df_ret|]. apply df_bind; [apply H|]. intros b. apply df_bind; [exact IH|]. intros. apply df_ret. Qed.
Lemma df_iterW {A} (f : A -> W unit) l : (forall a, defers (f a)) -> defers (iterW f l).
Proof. intros H. unfold iterW. apply df_bind; [apply df_mapW, H|]. intros. apply df_ret. Qed.
Ltac dfs := repeat (cbv zeta; first
  [ apply df_ret | apply df_raise | (apply df_defer; cbn [cookie_classes In]; solve [repeat (first [left; reflexivity|right])]) | apply df_lift | (apply df_iterW; intro) | (apply df_bind; [|intro]) | apply df_when | match goal with |- defers (match ?x with _ => _ end) => destruct x end ]).
Lemma df_attribute path now cn ltn n v : defers (cookie_attribute path now cn ltn n v).
Proof. unfold cookie_attribute. dfs. Qed.
Lemma df_loop path now cn avs : forall seen ltn, defers (cookie_loop path now cn avs seen ltn).
Proof. induction avs as [|av avs IH]; intros seen ltn; cbn [cookie_loop]; dfs; try apply df_attribute. apply IH. Qed.
Lemma df_parse c h v : defers (p_set_cookie c h v).
Proof. unfold p_set_cookie, loose_parse, check_prefixes. dfs; apply df_loop. Qed.
Lemma says_none {A} P ks s (w : W A) : defers w -> speak P ks s (fst w) = [].
Proof. unfold defers, speak. induction 1 as [|x l H _ IH]; [reflexivity|]. cbn [flat_map]. rewrite IH. destruct x; first [reflexivity|destruct H]. Qed.
Lemma dlast_other {A} k k' (v : A) l : str_eqb k k' = false -> dlast k ((k', v) :: l) = dlast k l.
Proof.
  intros H. unfold dlast. cbn [rev]. generalize (rev l). intros r. induction r as [|[a b] r IH]; cbn [app dget].
  - rewrite H. reflexivity.
  - destruct (str_eqb k a); [reflexivity|exact IH].
Qed.
(** The notes put off come out in the end, each about its line. *)
Definition out_of (canon : str) (aux : list (str * ev)) : list ev :=
  flat_map (fun se : str * ev => match snd se with EDefer n _ vrs => [EMsg (fst se) n (vs "field_name" canon :: vrs)] | _ => [] end) aux.
Lemma outs (P : nid -> bool) s canon (aux : list (str * ev)) : speak P cks s (out_of canon aux) = flat_map (fun se : str * ev => flat_map (fun x : nid * list (option pyval) => if P (fst x) then [(fst x, fst se, snd x)] else []) (put (snd se))) aux.
Proof.
  unfold out_of, speak. induction aux as [|[o x] aux IH]; [reflexivity|]. cbn [flat_map fst snd]. rewrite flat_map_app, IH. f_equal. destruct x; try reflexivity. cbn [flat_map utter put fst snd].
  unfold vs, cks. cbn [map]. rewrite !dlast_other by reflexivity. destruct (P _); reflexivity.
Qed.
Lemma outs_put (P : nid -> bool) (o : str) (l : list ev) : flat_map (fun se : str * ev => flat_map (fun x : nid * list (option pyval) => if P (fst x) then [(fst x, fst se, snd x)] else []) (put (snd se))) (map (fun x => (o, x)) (flat_map put_off l))
  = flat_map (fun x : nid * list (option pyval) => if P (fst x) then [(fst x, o, snd x)] else []) (puts l).
Proof.
  unfold puts. induction l as [|x l IH]; [reflexivity|]. cbn [flat_map]. rewrite map_app, !flat_map_app, IH. f_equal. destruct x; try reflexivity. cbn [put_off map flat_map put fst snd]. rewrite !app_nil_r. reflexivity.
Qed.
Lemma class_pick c (o : str) l : flat_map (fun x : nid * list (option pyval) => if classes [c] (fst x) then [(fst x, o, snd x)] else []) l = map (fun x => (c, o, x)) (pick c l).
Proof.
  induction l as [|[n x] l IH]; [reflexivity|]. unfold pick in *. cbn [flat_map fst snd]. rewrite map_app, IH. f_equal. unfold classes. cbn [existsb]. rewrite orb_false_r.
  destruct (nid_eqb n c) eqn:E; [apply nid_eqb_eq in E; subst; reflexivity|reflexivity].
Qed.

(** ** The run *)
Section Cookies.
  Variables (e : env) (rel : option mstate) (top : topline) (headers : list rawline) (chunks : list bytes) (complete : bool) (trailers : list rawline).
  Variables (t : mtype) (start : option Q) (nc head : bool) (base : str) (m' : mstate) (rel' : option mstate).
  Hypothesis E : lint e rel top headers chunks complete trailers (new_linter t start nc head base) = (m', rel', Ok tt).
  Hypothesis Ht : t <> MRequest.
  Hypotheses (H1 : hyphened (u "set-cookie") headers) (H2 : hyphened (u "set-cookie") trailers).
  Definition ck_p (v : str) : W pyval := p <- lift (e_urlsplit e base) ;; k <- loose_parse v (u_path p) start ;; ret (cookie_val k).
  Definition ck_q (v : pyval) (aux : list (str * ev)) : W pyval :=
    let h := mkHandler F_set_cookie [] [] [] v [] false aux in keep h (ev_set_cookie (mkCx e m' rel) h).
  Lemma ck_setup : m_type m' = t /\ m_start m' = start /\ m_base m' = base.
  Proof using E. destruct (lint_facts _ _ _ _ _ _ _ _ _ _ _ _ _ _ E) as (SM & _). unfold setup in SM. injection SM as -> -> _ _ ->. auto. Qed.
  Lemma ck_parse V h v : front V = front (begun e top (new_linter t start nc head base)) -> h_cls h = F_set_cookie -> parse_of F_set_cookie (mkCx e V rel) h v = ck_p v.
  Proof using E.
    intros HV _. rewrite <- (lint_front _ _ _ _ _ _ _ _ _ _ _ _ _ _ E) in HV. destruct ck_setup as (_ & S1 & S2). cbn [parse_of]. unfold p_set_cookie, ck_p. cbn [cx_env cx_msg].
    pose proof (f_equal (fun x => snd (fst (fst (fst (fst (fst x)))))) HV) as A1. pose proof (f_equal (fun x => snd (fst (fst (fst x)))) HV) as A2. unfold front in A1, A2. cbn [fst snd] in A1, A2. rewrite A1, A2, S1, S2. reflexivity.
  Qed.
  Definition name_evs (l : list (str * list attr)) : list ev :=
    (if nonempty (dups (map fst l)) then [ENote SET_COOKIE_NAME_DUP None [vs "cookie_names" (join (u ", ") (py_sorted (dups (map fst l))))] []] else [])
    ++ (if nonempty (map fst (filter (fun k : str * list attr => is_hardened (snd k)) l))
        then [ENote SET_COOKIE_HARDENED None [vv "cookie_names" (VMd (join (u ", ") (map (fun n => bt ++ remove_chr 96 n ++ bt) (map fst (filter (fun k : str * list attr => is_hardened (snd k)) l)))))] []] else []).
  Lemma ev_fst c h : fst (keep h (ev_set_cookie c h)) = match rbind (as_list (h_val h)) (mapR as_cookie) with Ok l => name_evs l ++ out_of (h_canon h) (h_aux h) | Err _ => [] end.
  Proof.
    rewrite keep_fst. unfold ev_set_cookie. destruct (rbind _ _) as [l|x]; [|reflexivity]. rewrite lift_ok. cbv zeta. rewrite !bind_when by reflexivity. unfold name_evs, out_of. rewrite <- app_assoc. reflexivity.
  Qed.
  Lemma outs_any P ks s canon canon' aux : own_keys ks = true -> speak P ks s (out_of canon aux) = speak P ks s (out_of canon' aux).
  Proof.
    intros K. unfold out_of, speak. induction aux as [|[o x] aux IH]; [reflexivity|]. cbn [flat_map fst snd]. rewrite !flat_map_app, IH. f_equal. destruct x as [| |? ? l| |]; try reflexivity. cbn [flat_map utter fst snd].
    assert (X : forall c, map (fun k => dlast k (vs "field_name" c :: l)) ks = map (fun k => dlast k l) ks).
    { intros c. apply map_ext_in. intros k Hk. apply dlast_other. unfold own_keys in K. rewrite forallb_forall in K. specialize (K k Hk). apply negb_true_iff in K. unfold str_in in K. cbn [existsb] in K. apply orb_false_iff in K as [K _]. exact K. }
    rewrite !X. reflexivity.
  Qed.
  Lemma ck_says P ks V h : own_keys ks = true -> h_cls h = F_set_cookie -> says_like P ks (eval_of F_set_cookie (mkCx e V rel) h) (ck_q (h_val h) (h_aux h)).
  Proof.
    intros K _. cbn [eval_of]. unfold ck_q. cbv zeta. split.
    - rewrite ev_fst. destruct (rbind _ _) as [l|x]; [|constructor]. apply Forall_app. split.
      + unfold name_evs. destruct (nonempty (dups _)), (nonempty (map _ _)); repeat constructor.
      + unfold out_of. induction (h_aux h) as [|[o x] aux IH]; [constructor|]. cbn [flat_map]. apply Forall_app. split; [|exact IH]. destruct x; repeat constructor.
    - intros s. rewrite !ev_fst. cbn [h_val h_aux h_canon]. destruct (rbind _ _) as [l|x]; [|reflexivity]. rewrite !speak_app. f_equal. apply outs_any, K.
  Qed.
  Lemma ck_run cs ks : owns cs F_set_cookie (u "set-cookie") && own_keys ks = true ->
    heard (classes cs) ks (m_notes m') = broken_says (classes cs) ks t (u "set-cookie") ck_p ck_q headers ++ broken_says (classes cs) ks t (u "set-cookie") ck_p ck_q trailers.
  Proof using E Ht H1 H2.
    intros O. apply andb_prop in O as [O K]. destruct (owns_ok _ _ _ O) as (O1 & O2 & O3 & O4 & O5 & O6 & O7).
    apply (broken_own_top (classes cs) ks F_set_cookie (u "set-cookie") ck_p ck_q e rel top headers chunks complete trailers t start nc head base m' rel' E); auto.
    - destruct t; [congruence|reflexivity|reflexivity].
    - intros. apply ck_parse; assumption.
    - intros v. assert (D : defers (ck_p v)) by (exact (df_parse (mkCx e (new_linter t start nc head base) rel) (blank_of F_set_cookie VNone) v)). unfold defers in D. eapply Forall_impl; [|exact D]. intros [] X; try exact I; destruct X.
    - intros. apply ck_says; assumption.
  Qed.
End Cookies.

(** ** The theorems *)
Lemma meaning_attrs path l : flat_map (meaning path) (l_pieces l) = attrs_of path l. Proof. reflexivity. Qed.
Lemma cookie_val_eq path l : cookie_val (l_name l, l_value l, attrs_of path l) = cookie_value path l. Proof. reflexivity. Qed.
Lemma cookie_back path l : as_cookie (cookie_value path l) = Ok (l_name l, attrs_of path l).
Proof.
  unfold cookie_value, as_cookie. assert (X : forall (at_ : list attr), mapR as_attr (map (fun a => VTuple [VStr (fst a); match snd a with AStr s => VStr s | AInt z => VInt z end]) at_) = Ok at_).
  { induction at_ as [|[a b] at_ IH]; [reflexivity|]. cbn [map mapR fst snd]. rewrite IH. destruct b; reflexivity. }
  rewrite X. reflexivity.
Qed.
Lemma cookies_back path ls : mapR as_cookie (map (cookie_value path) ls) = Ok (map (fun l => (l_name l, attrs_of path l)) ls).
Proof. induction ls as [|l ls IH]; [reflexivity|]. cbn [map mapR]. rewrite cookie_back, IH. reflexivity. Qed.
Lemma ck_p_eq e start base v : match e_urlsplit e base with
  | Ok p => puts (fst (ck_p e start base v)) = line_puts (u_path p) start (read_cookie v) /\ snd (ck_p e start base v) = if whole (read_cookie v) then Ok (cookie_value (u_path p) (read_cookie v)) else Err EValue
  | Err x => puts (fst (ck_p e start base v)) = [] /\ snd (ck_p e start base v) = Err x
  end.
Proof.
  unfold ck_p. destruct (e_urlsplit e base) as [p|x]; [|split; reflexivity]. rewrite lift_ok. destruct (parse_eq v (u_path p) start) as [A B]. split.
  - rewrite puts_bind, A. destruct (snd _); cbn [ret fst puts flat_map]; apply app_nil_r.
  - rewrite snd_bind, B. destruct (whole _); [cbn [ret snd]; rewrite cookie_val_eq|]; reflexivity.
Qed.
Lemma ck_vals e start base vs : broken_vals (ck_p e start base) vs = cookie_values e base vs.
Proof.
  unfold broken_vals, cookie_values, cookies, base_path. assert (X := ck_p_eq e start base). destruct (e_urlsplit e base) as [p|x].
  - induction vs as [|v vs IH]; [reflexivity|]. cbn [flat_map map filter]. rewrite (proj2 (X (strip v))), IH. destruct (whole (read_cookie (strip v))); reflexivity.
  - induction vs as [|v vs IH]; [reflexivity|]. cbn [flat_map]. rewrite (proj2 (X (strip v))), IH. reflexivity.
Qed.
Lemma cookie_values_back e base vs : exists path, rbind (as_list (VList (cookie_values e base vs))) (mapR as_cookie) = Ok (map (fun l => (l_name l, attrs_of path l)) (cookies e base vs)).
Proof. unfold cookie_values, cookies. destruct (base_path e base) as [path|]; [|exists []; reflexivity]. exists path. cbn [as_list rbind]. apply cookies_back. Qed.
Lemma no_lines t k l : nonempty (values k l) = false -> field_lines_of t k l = [].
Proof.
  intros N. rewrite <- (lines_vals k t l), lines_eq in N. destruct (field_lines_of t k l); [reflexivity|discriminate].
Qed.
Lemma name_quiet c ls s : In c cookie_classes -> speak (classes [c]) cks s (name_evs ls) = [].
Proof.
  intros H. unfold name_evs. rewrite speak_app. set (a := dups _). set (b := map fst (filter _ ls)). clearbody a b.
  assert (X1 : classes [c] SET_COOKIE_NAME_DUP = false) by (cbn [cookie_classes In] in H; repeat (destruct H as [<-|H]; [reflexivity|]); destruct H).
  assert (X2 : classes [c] SET_COOKIE_HARDENED = false) by (cbn [cookie_classes In] in H; repeat (destruct H as [<-|H]; [reflexivity|]); destruct H).
  destruct (nonempty a), (nonempty b); unfold speak; cbn [flat_map utter app]; rewrite ?X1, ?X2; reflexivity.
Qed.
Lemma says_cookies e start base m' rel t l c : In c cookie_classes ->
  broken_says (classes [c]) cks t (u "set-cookie") (ck_p e start base) (ck_q e rel m') l = cookie_notes e t start base c l.
Proof.
  intros Hc. unfold broken_says. cbv zeta.
  assert (X : forall a s (v : str), speak (classes [c]) cks s (fst (ck_p e start base (strip v))) ++ a = a :> list (nid * str * list (option pyval))).
  { intros a s v. rewrite says_none; [reflexivity|]. exact (df_parse (mkCx e (new_linter t start false false base) rel) (blank_of F_set_cookie VNone) (strip v)). }
  assert (X' : forall (l : list (str * nat)), flat_map (fun vo => speak (classes [c]) cks (at_offset (snd vo)) (fst (ck_p e start base (strip (fst vo))))) l = []) by (induction l0 as [|[v o] l0 IH]; [reflexivity|]; cbn [flat_map fst snd]; rewrite X; exact IH).
  rewrite X'. cbn [app]. unfold cookie_notes. destruct (nonempty (values (u "set-cookie") l)) eqn:N.
  2:{ rewrite (no_lines t _ _ N). destruct (base_path e base); reflexivity. }
  unfold ck_q. cbv zeta. rewrite ev_fst. cbn [h_val h_aux h_canon]. rewrite ck_vals. destruct (cookie_values_back e base (values (u "set-cookie") l)) as [path0 ->].
  rewrite speak_app, (name_quiet c _ _ Hc). cbn [app]. rewrite outs. unfold broken_aux. clear N X X'.
  pose proof (ck_p_eq e start base) as Q. unfold base_path. induction (field_lines_of t (u "set-cookie") l) as [|[r o] ls IH].
  { destruct (e_urlsplit e base); reflexivity. }
  cbn [map flat_map fst snd]. rewrite flat_map_app, outs_put, IH, class_pick. clear IH. specialize (Q (strip (value_of r))). destruct (e_urlsplit e base) as [p|x]; destruct Q as [Q _]; rewrite Q; [|reflexivity]. f_equal.
  rewrite (line_due _ _ _ _ Hc), map_map. reflexivity.
Qed.
Theorem C49_cookie_lines : forall e rel top headers chunks complete trailers t start nc head base m' rel' c,
  lint e rel top headers chunks complete trailers (new_linter t start nc head base) = (m', rel', Ok tt) -> t <> MRequest ->
  hyphened (u "set-cookie") headers -> hyphened (u "set-cookie") trailers -> In c cookie_classes ->
  heard (classes [c]) [u "cookie_name"; u "attribute"] (m_notes m') = cookie_notes e t start base c headers ++ cookie_notes e t start base c trailers.
Proof.
  intros e rel top headers chunks complete trailers t start nc head base m' rel' c E Ht H1 H2 Hc. change [u "cookie_name"; u "attribute"] with cks.
  rewrite (ck_run e rel top headers chunks complete trailers t start nc head base m' rel' E Ht H1 H2 [c] cks); [rewrite !says_cookies by exact Hc; reflexivity|].
  cbn [cookie_classes In] in Hc. repeat (destruct Hc as [<-|Hc]; [vm_compute; reflexivity|]). destruct Hc.
Qed.
Print Assumptions C49_cookie_lines.

(** Names used twice, hardened cookies. *)
Lemma sorted_ins x l : Sorted (fun a b => str_leb a b = true) l -> Sorted (fun a b => str_leb a b = true) (str_insert x l).
Proof.
  induction 1 as [|y l H IH Hd]; cbn [str_insert]; [repeat constructor|]. destruct (str_leb x y) eqn:L; [constructor; [constructor; assumption|constructor; exact L]|].
  constructor; [exact IH|]. assert (T : str_leb y x = true) by (destruct (leb_total y x) as [T|T]; [exact T|congruence]). destruct l as [|z l]; cbn [str_insert]; [constructor; exact T|]. inversion Hd; subst. destruct (str_leb x z); constructor; assumption.
Qed.
Lemma ins_perm x l : Permutation (str_insert x l) (x :: l).
Proof. induction l as [|y l IH]; cbn [str_insert]; [reflexivity|]. destruct (str_leb x y); [reflexivity|]. rewrite IH. apply perm_swap. Qed.
Lemma sorted_perm l : Permutation (py_sorted l) l /\ Sorted (fun a b => str_leb a b = true) (py_sorted l).
Proof. unfold py_sorted. induction l as [|x l [P S]]; cbn [fold_right]; [split; constructor|]. split; [rewrite ins_perm, P; reflexivity|apply sorted_ins, S]. Qed.
Lemma dedup_in l x : In x (dedup l) <-> In x l.
Proof.
  induction l as [|y l IH]; [reflexivity|]. cbn [dedup In]. rewrite filter_In, IH. destruct (str_eqb y x) eqn:E; [apply str_eqb_eq in E; subst; tauto|]. cbn [negb]. split; [intuition|]. intros [->|H]; auto.
Qed.
Lemma dedup_once l : NoDup (dedup l).
Proof. induction l as [|y l IH]; cbn [dedup]; constructor; [|apply NoDup_filter, IH]. rewrite filter_In. intros [_ H]. rewrite str_eqb_refl in H. discriminate. Qed.
Lemma count_eq x l : count_str x l = count_occ (list_eq_dec N.eq_dec) l x.
Proof.
  unfold count_str. induction l as [|y l IH]; [reflexivity|]. cbn [filter count_occ]. destruct (list_eq_dec N.eq_dec y x) as [->|N]; [rewrite str_eqb_refl; cbn [List.length]; rewrite IH; reflexivity|].
  destruct (str_eqb x y) eqn:E; [apply str_eqb_eq in E; congruence|exact IH].
Qed.
Lemma dups_twice ns : used_twice ns (py_sorted (dups ns)).
Proof.
  destruct (sorted_perm (dups ns)) as [P S]. split; [exact S|]. split.
  - apply (Permutation_NoDup (Permutation_sym P)). apply NoDup_filter, dedup_once.
  - intros x. assert (A : In x (py_sorted (dups ns)) <-> In x (dups ns)) by (split; apply Permutation_in; [exact P|symmetry; exact P]). rewrite A. unfold dups. rewrite filter_In, dedup_in, count_eq, (count_occ_In (list_eq_dec N.eq_dec)). destruct (Nat.ltb_spec 1 (count_occ (list_eq_dec N.eq_dec) ns x)); intuition (try lia; try discriminate).
Qed.
Lemma some_two ps : some_attr "samesite" (same_site ["strict"; "lax"; ""]%string) ps = some_attr "samesite" (same_site ["strict"]%string) ps || some_attr "samesite" (same_site ["lax"; ""]%string) ps.
Proof.
  unfold some_attr. induction ps as [|p ps IH]; [reflexivity|]. cbn [existsb]. rewrite IH. assert (X : same_site ["strict"; "lax"; ""]%string (snd p) = same_site ["strict"]%string (snd p) || same_site ["lax"; ""]%string (snd p)) by (unfold same_site, one_of; cbn [existsb]; rewrite !orb_false_r; reflexivity).
  rewrite X. clear. set (a := attr_is _ p). set (b := same_site ["strict"]%string _). set (c := same_site ["lax"; ""]%string _). set (d := existsb (fun p => attr_is "samesite" p && same_site ["strict"]%string (snd p)) ps). set (f := existsb _ ps). clearbody a b c d f.
  destruct a, b, c, d, f; reflexivity.
Qed.
Lemma hardened_eq path l : is_hardened (attrs_of path l) = hardened l.
Proof. unfold is_hardened, hardened. rewrite <- meaning_attrs, has_secure, has_httponly, has_strict, has_lax, some_two. reflexivity. Qed.
Lemma says_names e start base m' rel t l : exists ds, used_twice (map l_name (cookies e base (values (u "set-cookie") l))) ds /\
  broken_says (classes [SET_COOKIE_NAME_DUP; SET_COOKIE_HARDENED]) [u "cookie_names"] t (u "set-cookie") (ck_p e start base) (ck_q e rel m') l = name_notes ds (cookies e base (values (u "set-cookie") l)).
Proof.
  set (cs := cookies e base (values (u "set-cookie") l)). exists (py_sorted (dups (map l_name cs))). split; [apply dups_twice|].
  unfold broken_says. cbv zeta. set (P := classes _).
  assert (X' : forall (l : list (str * nat)), flat_map (fun vo => speak P [u "cookie_names"] (at_offset (snd vo)) (fst (ck_p e start base (strip (fst vo))))) l = []).
  { induction l0 as [|[v o] l0 IH]; [reflexivity|]; cbn [flat_map fst snd]. rewrite says_none; [exact IH|]. exact (df_parse (mkCx e (new_linter t start false false base) rel) (blank_of F_set_cookie VNone) (strip v)). }
  rewrite X'. cbn [app]. destruct (nonempty (values (u "set-cookie") l)) eqn:N.
  2:{ subst cs. destruct (values (u "set-cookie") l); [|discriminate]. unfold cookies. destruct (base_path e base); reflexivity. }
  unfold ck_q. cbv zeta. rewrite ev_fst. cbn [h_val h_aux h_canon]. rewrite ck_vals. destruct (cookie_values_back e base (values (u "set-cookie") l)) as [path0 ->]. fold cs.
  rewrite speak_app. assert (Y : forall s, speak P [u "cookie_names"] s (out_of [] (broken_aux (ck_p e start base) (map (fun rn => (value_of (fst rn), snd rn)) (field_lines_of t (u "set-cookie") l)))) = []).
  { intros s. unfold broken_aux, out_of, speak. generalize (map (fun rn : rawline * nat => (value_of (fst rn), snd rn)) (field_lines_of t (u "set-cookie") l)). intros ls. induction ls as [|[v o] ls IH]; [reflexivity|].
    cbn [flat_map fst snd]. rewrite !flat_map_app, IH, app_nil_r. pose proof (df_parse (mkCx e (new_linter t start false false base) rel) (blank_of F_set_cookie VNone) (strip v)) as D. 
    change (p_set_cookie _ _ (strip v)) with (ck_p e start base (strip v)) in D. unfold defers in D. induction D as [|x evs Dx _ ID]; [reflexivity|]. cbn [flat_map]. rewrite map_app, !flat_map_app, ID, app_nil_r. destruct x as [| |n ca vr| |]; [destruct Dx|destruct Dx| |destruct Dx|destruct Dx].
    cbn [put_off map flat_map snd utter app]. 
    assert (Z : P n = false) by (subst P; cbn [cookie_classes In] in Dx; repeat (destruct Dx as [<-|Dx]; [reflexivity|]); destruct Dx). cbn [fst]. rewrite Z. reflexivity. }
  rewrite Y, app_nil_r. unfold name_evs, name_notes. rewrite map_map. cbn [fst]. set (ds := dups _).
  assert (Fd : nonempty ds = nonempty (py_sorted ds)).
  { destruct (sorted_perm ds) as [Pm _]. destruct ds as [|d ds]; [reflexivity|]. destruct (py_sorted (d :: ds)); [apply Permutation_nil in Pm; discriminate|reflexivity]. }
  rewrite Fd. clearbody ds. assert (Hd : map fst (filter (fun k : str * list attr => is_hardened (snd k)) (map (fun l => (l_name l, attrs_of path0 l)) cs)) = map l_name (filter hardened cs)).
  { clear. induction cs as [|c cs IH]; [reflexivity|]. cbn [map filter snd]. rewrite hardened_eq. destruct (hardened c); cbn [map]; rewrite IH; reflexivity. }
  rewrite Hd. rewrite speak_app. f_equal; [destruct (nonempty (py_sorted ds)); reflexivity|destruct (nonempty (map l_name (filter hardened cs))); reflexivity].
Qed.
Theorem C49_cookie_names : forall e rel top headers chunks complete trailers t start nc head base m' rel',
  lint e rel top headers chunks complete trailers (new_linter t start nc head base) = (m', rel', Ok tt) -> t <> MRequest ->
  hyphened (u "set-cookie") headers -> hyphened (u "set-cookie") trailers ->
  exists ds ds', used_twice (map l_name (cookies e base (values (u "set-cookie") headers))) ds /\ used_twice (map l_name (cookies e base (values (u "set-cookie") trailers))) ds'
  /\ heard (classes [SET_COOKIE_NAME_DUP; SET_COOKIE_HARDENED]) [u "cookie_names"] (m_notes m')
     = name_notes ds (cookies e base (values (u "set-cookie") headers)) ++ name_notes ds' (cookies e base (values (u "set-cookie") trailers)).
Proof.
  intros e rel top headers chunks complete trailers t start nc head base m' rel' E Ht H1 H2.
  rewrite (ck_run e rel top headers chunks complete trailers t start nc head base m' rel' E Ht H1 H2 [SET_COOKIE_NAME_DUP; SET_COOKIE_HARDENED] [u "cookie_names"]); [|vm_compute; reflexivity].
  destruct (says_names e start base m' rel t headers) as (ds & D1 & ->). destruct (says_names e start base m' rel t trailers) as (ds' & D2 & ->). exists ds, ds'. auto.
Qed.
Print Assumptions C49_cookie_names.
(** The value. *)
Theorem C49_cookie_value : forall e t start base hs ts m' tr, run_of e t start base hs ts m' -> t <> MRequest -> unpadded (u "set-cookie") (section_lines tr hs ts) ->
  value_in tr (u "set-cookie") m' = if nonempty (values (u "set-cookie") (section_lines tr hs ts)) then Some (VList (cookie_values e base (values (u "set-cookie") (section_lines tr hs ts)))) else None.
Proof.
  intros e t start base hs ts m' tr R Ht U. rewrite (run_value _ _ _ _ _ _ _ _ _ R U). set (l := values _ _). destruct (nonempty l); [|reflexivity]. unfold field_value. cbv zeta.
  change (m_type (new_linter t start false false base)) with t. rewrite processed_eq. assert (Pr : processed t (u "set-cookie") = true) by (destruct t; [congruence|reflexivity|reflexivity]). rewrite Pr.
  assert (F : find_class (u "set-cookie") = F_set_cookie) by reflexivity. rewrite F. cbn [kind_of attrs fa_kind]. do 2 f_equal. rewrite <- (ck_vals e start base l). reflexivity.
Qed.
Print Assumptions C49_cookie_value.
(** ** Examples *)
Definition cookie_sample : list rawline := raws [("Set-Cookie", "a=1; Max-Age=034560001; max-age=x; Foo=2"); ("Content-Type", "text/html"); ("Set-Cookie", "__Host-b=2; SameSite=None; Domain=.x.org;"); ("Set-Cookie", "a=3; Secure; HttpOnly; SameSite=lax"); ("set-cookie", " ; Path=/")]%string.
Example C49_hyph : hyphened (u "set-cookie") cookie_sample.
Proof. apply hyphened_dec. vm_compute. reflexivity. Qed.
Example C49_ex : let '(m, _, r) := lint env0 None (TopResponse (u "1.1") (u "200") None) cookie_sample [] true [] (new_linter MResponse None false false (u "http://x.org/a/b")) in
  r = Ok tt /\ heard (classes [SET_COOKIE_ATTRIBUTE_DUP; SET_COOKIE_UNKNOWN_ATTRIBUTE; SET_COOKIE_LIFETIME_TOO_LONG; SET_COOKIE_PREFIX_SECURE_MISSING; SET_COOKIE_PREFIX_HOST_BAD_PATH; SET_COOKIE_NO_NAME]) cks (m_notes m)
    = [(SET_COOKIE_LIFETIME_TOO_LONG, at_offset 0, nm (u "a") None); (SET_COOKIE_ATTRIBUTE_DUP, at_offset 0, nm (u "a") (Some (u "max-age"))); (SET_COOKIE_UNKNOWN_ATTRIBUTE, at_offset 0, nm (u "a") (Some (u "Foo")));
       (SET_COOKIE_PREFIX_SECURE_MISSING, at_offset 2, nm (u "__Host-b") None); (SET_COOKIE_PREFIX_HOST_BAD_PATH, at_offset 2, nm (u "__Host-b") None); (SET_COOKIE_NO_NAME, at_offset 4, [None; None])]
  /\ heard (classes [SET_COOKIE_NAME_DUP; SET_COOKIE_HARDENED]) [u "cookie_names"] (m_notes m)
    = [(SET_COOKIE_NAME_DUP, u "field-set-cookie", [Some (VStr (u "a"))]); (SET_COOKIE_HARDENED, u "field-set-cookie", [Some (VMd (u "`a`"))])].
Proof. vm_compute. repeat split. Qed.
