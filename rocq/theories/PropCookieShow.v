(** * C69: what the notes about Set-Cookie show. *)
From Coq Require Import Lia ZifyBool ZifyN Sorted Permutation.
From Verif Require Import PyStr Regex Grammar NoteTable Note PyLib Utils FieldAttrs Types Fields1 Fields2 Fields3 Framework Checks Message
  EvLogic NoteLemmas TestEnv LexLemmas ParamLemmas NumLemmas PassParse Session SessionLemmas SecNotes SecValues LintLemmas FieldSpec PropFields PropValues PropNames PropParse PropTop PropCli OwnLemmas ListSpec PropLists PropCC ListExamples FieldExamples
  PropInts FieldDue OwnTac OwnMore CookieSpec PropCookies CookieShowSpec.
Open Scope N_scope.

Definition sks : list str := map u shown_vars.
Definition sput (e : ev) : list (nid * list (option pyval)) := match e with EDefer n _ vrs => [(n, map (fun k => dlast k vrs) sks)] | _ => [] end.
Definition sputs (l : list ev) := flat_map sput l.
Definition st (x : tell) : nid * list (option pyval) := (fst x, shows (snd x)).
Lemma sputs_app a b : sputs (a ++ b) = sputs a ++ sputs b. Proof. apply flat_map_app. Qed.
Lemma sputs_bind {A B} (w : W A) (f : A -> W B) : sputs (fst (bind w f)) = sputs (fst w) ++ match snd w with Ok a => sputs (fst (f a)) | Err _ => [] end.
Proof. unfold bind. destruct w as [l [a|x]]; cbn [fst snd]; [|rewrite app_nil_r; reflexivity]. destruct (f a) as [l' r]. cbn [fst]. apply sputs_app. Qed.
Lemma sputs_when b n vrs : sputs (fst (when b (defer n vrs))) = if b then [(n, map (fun k => dlast k vrs) sks)] else []. Proof. destruct b; reflexivity. Qed.
Lemma isd : forall v : str, (match v with 48 :: _ :: _ => true | _ => false end) = match v with a0 :: v' => (a0 =? 48) && Nat.ltb 1 (List.length (a0 :: v')) | [] => false end.
Proof.
  intros [|a0 v]; [reflexivity|]. destruct (a0 =? 48) eqn:A; [apply N.eqb_eq in A; subst; destruct v; reflexivity|]. apply N.eqb_neq in A. destruct a0 as [|p]; [reflexivity|].
  repeat (destruct p as [p|p|]; try reflexivity). destruct A. reflexivity.
Qed.
Lemma sputs_map {A} (f : A -> W unit) l : (forall a, snd (f a) = Ok tt) -> sputs (fst (mapW f l)) = flat_map (fun a => sputs (fst (f a))) l /\ exists r, snd (mapW f l) = Ok r.
Proof.
  intros H. induction l as [|a l [I1 [r I2]]]; [split; [reflexivity|exists []; reflexivity]|]. cbn [mapW flat_map]. split.
  - rewrite sputs_bind, H, sputs_bind, I1, I2. f_equal. apply app_nil_r.
  - rewrite snd_bind, H, snd_bind, I2. exists (tt :: r). reflexivity.
Qed.
Lemma sputs_iter {A} (f : A -> W unit) l : (forall a, snd (f a) = Ok tt) -> sputs (fst (iterW f l)) = flat_map (fun a => sputs (fst (f a))) l /\ snd (iterW f l) = Ok tt.
Proof. intros H. destruct (sputs_map f l H) as [H1 [r H2]]. unfold iterW. rewrite sputs_bind, snd_bind, H1, H2. split; [apply app_nil_r|reflexivity]. Qed.
Section Piece.
  Variables (path : str) (now : option Q) (l : line_of_cookie).
  Lemma attribute_tells told n v : sputs (fst (cookie_attribute path now (l_name l) told n v)) = map st (piece_tells now l told (n, v)).
  Proof.
    unfold cookie_attribute, piece_tells, too_long, lives, attr_is. rewrite isd. cbv zeta. cbn [fst snd].
    assert (one_known : forall k, In k known_attributes -> lower n = u k -> one_of known_attributes (lower n) = true).
    { intros k Hk H. unfold one_of. apply existsb_exists. exists k. split; [exact Hk|]. rewrite H. apply str_eqb_refl. }
    destruct (str_eqb (lower n) (u "expires")) eqn:E1.
    { known "expires"%string E1 one_known. cbn [andb orb app negb note_if]. rewrite ?orb_false_r, ?app_nil_r. change days_400 with cookie_limit.
      destruct (loose_date_parse v) as [z|why]; [|reflexivity]. destruct now as [t|]; [|reflexivity].
      cbn [q_truthy]. destruct (Qeq_bool t 0); [reflexivity|]. destruct (q_gt _ _), told; reflexivity. }
    destruct (str_eqb (lower n) (u "max-age")) eqn:E2.
    { known "max-age"%string E2 one_known. cbn [andb orb app negb]. change days_400 with cookie_limit. unfold all_digits, int_of.
      destruct v as [|a0 v]; [reflexivity|]. cbn [nonempty andb negb app]. set (b := (a0 =? 48) && Nat.ltb 1 (List.length (a0 :: v))). clearbody b.
      destruct (py_isdigit (a0 :: v)); cbn [negb andb]; [|destruct b, told; reflexivity].
      destruct (py_int (a0 :: v)) as [z|]; [|destruct b, told; reflexivity]. rewrite lift_ok. cbv zeta. destruct (cookie_limit <? z)%Z, b, told; reflexivity. }
    cbn [andb orb app].
    destruct (str_eqb (lower n) (u "domain")) eqn:E3; [known "domain"%string E3 one_known; destruct v; reflexivity|].
    destruct (str_eqb (lower n) (u "path")) eqn:E4; [known "path"%string E4 one_known; reflexivity|].
    destruct (str_eqb (lower n) (u "secure")) eqn:E5; [known "secure"%string E5 one_known; reflexivity|].
    destruct (str_eqb (lower n) (u "httponly")) eqn:E6; [known "httponly"%string E6 one_known; reflexivity|].
    destruct (str_eqb (lower n) (u "samesite")) eqn:E7.
    { known "samesite"%string E7 one_known. cbn [andb orb app negb note_if]. rewrite ?app_nil_r. unfold same_site, one_of, str_in. cbn [existsb]. rewrite ?orb_false_r.
      change (u "") with (@nil N). destruct (str_eqb (lower v) (u "strict")), (str_eqb (lower v) (u "none")), (str_eqb (lower v) (u "lax")), (str_eqb (lower v) []); reflexivity. }
    destruct (str_eqb (lower n) (u "partitioned")) eqn:E8; [known "partitioned"%string E8 one_known; reflexivity|].
    destruct (str_eqb (lower n) (u "priority")) eqn:E9; [known "priority"%string E9 one_known; reflexivity|].
    destruct (str_eqb (lower n) (u "version")) eqn:E10; [known "version"%string E10 one_known; reflexivity|].
    unfold one_of. cbn [existsb known_attributes]. rewrite E1, E2, E3, E4, E5, E6, E7, E8, E9, E10. reflexivity.
  Qed.
  Lemma attribute_snd told n v : snd (cookie_attribute path now (l_name l) told n v) = if chokes (n, v) then Err EValue else Ok (meaning path (n, v), told || too_long now (n, v)).
  Proof. apply attribute_eq. Qed.
  Lemma loop_tells avs : forall seen told, sputs (fst (cookie_loop path now (l_name l) avs seen told)) = map st (pieces_tell now l seen told (live (map read_piece avs))).
  Proof.
    induction avs as [|av avs IH]; intros seen told; [reflexivity|]. cbn [cookie_loop map live pieces_tell]. rewrite split_or_parts. cbv zeta.
    pose proof (attribute_tells told (strip (before 61 av)) (strip (after 61 av))) as A1. pose proof (attribute_snd told (strip (before 61 av)) (strip (after 61 av))) as A2. change (strip (before 61 av), strip (after 61 av)) with (read_piece av) in *.
    set (n := strip (before 61 av)) in *. change (fst (read_piece av)) with n. rewrite !map_app. rewrite sputs_bind, sputs_when, when_ok, sputs_bind, A1, A2. f_equal; [unfold str_in; destruct (existsb _ seen); reflexivity|]. f_equal.
    destruct (chokes (read_piece av)); [reflexivity|]. rewrite sputs_bind. cbn [snd]. rewrite IH. match goal with |- context [match ?x with Ok _ => _ | Err _ => _ end] => destruct x end; apply app_nil_r.
  Qed.
  Lemma domains_tell ps : sputs (fst (iterW (fun a : attr => when (str_eqb (fst a) (u "Domain")) (defer SET_COOKIE_PREFIX_HOST_BAD_DOMAIN [vs "cookie_name" (l_name l)])) (flat_map (meaning path) ps)))
    = map st (flat_map (fun p => note_if l (attr_is "domain" p && nonempty (snd p)) SET_COOKIE_PREFIX_HOST_BAD_DOMAIN []) ps).
  Proof.
    rewrite (proj1 (sputs_iter _ _ (fun a => when_ok _ _ _))). induction ps as [|p ps IH]; [reflexivity|]. cbn [flat_map]. rewrite flat_map_app, map_app, IH. f_equal. clear. attr_case p.
  Qed.
  Lemma when_tells b c more vrs : map (fun k => dlast k vrs) sks = shows (("cookie_name"%string, VStr (l_name l)) :: more) -> sputs (fst (when b (defer c vrs))) = map st (note_if l b c more).
  Proof. intros H. rewrite sputs_when, H. destruct b; reflexivity. Qed.
  Lemma prefixes_tell ps : let host := is_prefix "__host-" (l_name l) in
    sputs (fst (check_prefixes (l_name l) (flat_map (meaning path) ps))) = map st (
      note_if l ((is_prefix "__secure-" (l_name l) || host) && negb (secure ps)) SET_COOKIE_PREFIX_SECURE_MISSING []
      ++ note_if l (host && negb (some_attr "path" (fun v => str_eqb (cookie_path path v) (u "/")) ps)) SET_COOKIE_PREFIX_HOST_BAD_PATH []
      ++ flat_map (fun p => note_if l (host && attr_is "domain" p && nonempty (snd p)) SET_COOKIE_PREFIX_HOST_BAD_DOMAIN []) ps).
  Proof.
    cbv zeta. pose proof (prefixes_apart (l_name l)) as PX. unfold check_prefixes. cbv zeta. rewrite has_secure, has_path. fold (is_prefix "__secure-" (l_name l)). fold (is_prefix "__host-" (l_name l)).
    revert PX. generalize (is_prefix "__secure-" (l_name l)), (is_prefix "__host-" (l_name l)). intros a b PX.
    rewrite sputs_bind, when_ok. rewrite (when_tells _ _ []) by reflexivity. destruct b.
    - destruct a; [destruct (PX eq_refl eq_refl)|]. cbn [andb orb]. rewrite sputs_bind, when_ok, sputs_bind, when_ok, (when_tells _ _ []), (when_tells _ _ []), domains_tell by reflexivity. rewrite !map_app. reflexivity.
    - rewrite orb_false_r. cbn [andb ret fst sputs flat_map]. rewrite !map_app. f_equal. cbn [note_if map app]. rewrite flat_nil. reflexivity.
  Qed.
End Piece.
Lemma parse_tells v path now : sputs (fst (loose_parse v path now)) = map st (line_tells path now (read_cookie v)).
Proof.
  unfold loose_parse. rewrite split_or_parts. rewrite split1_parts. cbv zeta. unfold read_cookie. cbv zeta.
  set (nv := if has_chr 61 (before 59 v) then (before 61 (before 59 v), after 61 (before 59 v)) else ([], before 59 v)).
  assert (X : (match (if has_chr 61 (before 59 v) then Some (before 61 (before 59 v), after 61 (before 59 v)) else None) with Some p => p | None => ([], before 59 v) end) = nv) by (unfold nv; destruct (has_chr _ _); reflexivity).
  rewrite X. clearbody nv. clear X. destruct nv as [n w]. rewrite avs_texts. set (avs := attribute_texts _). clearbody avs. set (name := strip n). set (val := strip w). clearbody name val. clear.
  remember (mkLine name val (map read_piece avs)) as l eqn:L. assert (Ln : name = l_name l) by (subst l; reflexivity). assert (Lv : val = l_value l) by (subst l; reflexivity). assert (Lp : map read_piece avs = l_pieces l) by (subst l; reflexivity).
  clear L. subst name val. unfold line_tells, whole. fold (nameless l).
  destruct (nameless l) eqn:N; [reflexivity|]. cbn [negb andb].
  assert (A : Nat.ltb (N.to_nat 4096) (List.length (l_name l) + List.length (l_value l)) = (4096 <? N.of_nat (List.length (l_name l) + List.length (l_value l)))) by lia.
  assert (B : Nat.ltb 128 (List.length (l_value l)) = (128 <? N.of_nat (List.length (l_value l)))) by lia.
  rewrite A, B. clear A B. rewrite !map_app.
  rewrite sputs_bind, when_ok, (when_tells l _ _ []) by reflexivity. f_equal.
  rewrite sputs_bind, when_ok, (when_tells l _ _ [("set_cookie_value_length"%string, VStr (f_comma (List.length (l_value l)) ++ u " bytes"))]) by reflexivity. f_equal.
  rewrite sputs_bind, loop_tells, (proj2 (loop_eq path now (l_name l) avs [] false)), Lp. f_equal.
  destruct (existsb chokes (l_pieces l)); [reflexivity|]. cbn [negb]. unfold all_tell. cbv zeta. rewrite has_none, has_secure, has_part. rewrite !map_app.
  rewrite sputs_bind, when_ok, (when_tells l _ _ []) by reflexivity. f_equal. rewrite sputs_bind, when_ok, (when_tells l _ _ []) by reflexivity. f_equal.
  rewrite sputs_bind, prefixes_tell, (proj2 (prefixes_eq path (l_name l) (l_pieces l))). cbv zeta. rewrite !map_app. cbn [ret fst sputs flat_map]. rewrite app_nil_r. reflexivity.
Qed.

(** ** A section *)
Definition all_classes : list nid := cookie_classes ++ [SET_COOKIE_NAME_DUP; SET_COOKIE_HARDENED].
Lemma of_cookies_eq c : of_cookies c = classes all_classes c.
Proof. unfold of_cookies. destruct c; vm_compute; reflexivity. Qed.
Lemma ck_p_tells e start base v : sputs (fst (ck_p e start base v)) = match base_path e base with Some path => map st (line_tells path start (read_cookie v)) | None => [] end.
Proof.
  unfold ck_p, base_path. destruct (e_urlsplit e base) as [p|x]; [|reflexivity]. rewrite lift_ok, sputs_bind, parse_tells. destruct (snd _); cbn [ret fst sputs flat_map]; apply app_nil_r.
Qed.
Lemma souts P s canon (aux : list (str * ev)) : speak P sks s (out_of canon aux) = flat_map (fun se : str * ev => flat_map (fun x : nid * list (option pyval) => if P (fst x) then [(fst x, fst se, snd x)] else []) (sput (snd se))) aux.
Proof.
  unfold out_of, speak. induction aux as [|[o x] aux IH]; [reflexivity|]. cbn [flat_map fst snd]. rewrite flat_map_app, IH. f_equal. destruct x; try reflexivity. cbn [flat_map utter sput fst snd].
  unfold vs, sks, shown_vars. cbn [map]. rewrite !dlast_other by reflexivity. destruct (P _); reflexivity.
Qed.
Lemma souts_put (P : nid -> bool) (o : str) (l : list ev) : flat_map (fun se : str * ev => flat_map (fun x : nid * list (option pyval) => if P (fst x) then [(fst x, fst se, snd x)] else []) (sput (snd se))) (map (fun x => (o, x)) (flat_map put_off l))
  = flat_map (fun x : nid * list (option pyval) => if P (fst x) then [(fst x, o, snd x)] else []) (sputs l).
Proof.
  unfold sputs. induction l as [|x l IH]; [reflexivity|]. cbn [flat_map]. rewrite map_app, !flat_map_app, IH. f_equal. destruct x; try reflexivity. cbn [put_off map flat_map sput fst snd]. rewrite !app_nil_r. reflexivity.
Qed.
Lemma ck_defers e start base v : defers (ck_p e start base v).
Proof. exact (df_parse (mkCx e (new_linter MResponse start false false base) None) (blank_of F_set_cookie VNone) v). Qed.
Lemma all_of_them (o : str) (l : list (nid * list (option pyval))) : Forall (fun x : nid * list (option pyval) => In (fst x) cookie_classes) l ->
  flat_map (fun x : nid * list (option pyval) => if classes all_classes (fst x) then [(fst x, o, snd x)] else []) l = map (fun x => (fst x, o, snd x)) l.
Proof.
  induction 1 as [|x l H _ IH]; [reflexivity|]. cbn [flat_map map]. rewrite IH. assert (C : classes all_classes (fst x) = true) by (unfold classes; apply existsb_exists; exists (fst x); split; [apply in_or_app; left; exact H|apply nid_eqb_eq; reflexivity]). rewrite C. reflexivity.
Qed.
Lemma sputs_in l : Forall (fun x => match x with EDefer n _ _ => In n cookie_classes | _ => False end) l -> Forall (fun x : nid * list (option pyval) => In (fst x) cookie_classes) (sputs l).
Proof. induction 1 as [|x l H _ IH]; [constructor|]. unfold sputs. cbn [flat_map]. apply Forall_app. split; [|exact IH]. destruct x; [destruct H|destruct H| |destruct H|destruct H]. constructor; [exact H|constructor]. Qed.
Lemma says_tells e start base m' rel t l : exists ds, used_twice (map l_name (cookies e base (values (u "set-cookie") l))) ds /\
  broken_says (classes all_classes) sks t (u "set-cookie") (ck_p e start base) (ck_q e rel m') l = section_tells e t start base ds l.
Proof.
  set (cs := cookies e base (values (u "set-cookie") l)). exists (py_sorted (dups (map l_name cs))). split; [apply dups_twice|].
  unfold broken_says. cbv zeta. set (P := classes all_classes).
  assert (X' : forall (l : list (str * nat)), flat_map (fun vo => speak P sks (at_offset (snd vo)) (fst (ck_p e start base (strip (fst vo))))) l = []).
  { induction l0 as [|[v o] l0 IH]; [reflexivity|]; cbn [flat_map fst snd]. rewrite says_none; [exact IH|]. apply ck_defers. }
  rewrite X'. cbn [app]. unfold section_tells. destruct (nonempty (values (u "set-cookie") l)) eqn:N.
  2:{ rewrite (no_lines t _ _ N). subst cs. unfold cookies. destruct (values (u "set-cookie") l); [|discriminate]. destruct (base_path e base); reflexivity. }
  unfold ck_q. cbv zeta. rewrite ev_fst. cbn [h_val h_aux h_canon]. rewrite ck_vals. destruct (cookie_values_back e base (values (u "set-cookie") l)) as [path0 ->]. fold cs.
  rewrite speak_app. clear N X'.
  assert (Y : speak P sks (about_field (u "set-cookie")) (name_evs (map (fun l => (l_name l, attrs_of path0 l)) cs)) = heard_of (about_field (u "set-cookie")) (names_tell (py_sorted (dups (map l_name cs))) cs)).
  { unfold name_evs, names_tell. rewrite map_map. cbn [fst]. set (ds := dups _).
    assert (Fd : nonempty ds = nonempty (py_sorted ds)).
    { destruct (sorted_perm ds) as [Pm _]. destruct ds as [|d ds]; [reflexivity|]. destruct (py_sorted (d :: ds)); [apply Permutation_nil in Pm; discriminate|reflexivity]. }
    rewrite Fd. clearbody ds. assert (Hd : map fst (filter (fun k : str * list attr => is_hardened (snd k)) (map (fun l => (l_name l, attrs_of path0 l)) cs)) = map l_name (filter hardened cs)).
    { clear. induction cs as [|c cs IH]; [reflexivity|]. cbn [map filter snd]. rewrite hardened_eq. destruct (hardened c); cbn [map]; rewrite IH; reflexivity. }
    rewrite Hd. destruct (nonempty (py_sorted ds)), (nonempty (map l_name (filter hardened cs))); reflexivity. }
  rewrite Y. clear Y. rewrite souts. unfold broken_aux.
  assert (Z : forall ls : list (rawline * nat), flat_map (fun se : str * ev => flat_map (fun x : nid * list (option pyval) => if P (fst x) then [(fst x, fst se, snd x)] else []) (sput (snd se)))
      (flat_map (fun vo : str * nat => map (fun x => (offset_subj (snd vo), x)) (flat_map put_off (fst (ck_p e start base (strip (fst vo)))))) (map (fun rn : rawline * nat => (value_of (fst rn), snd rn)) ls))
    = match base_path e base with Some path => flat_map (fun rn => heard_of (at_offset (snd rn)) (line_tells path start (read_cookie (strip (value_of (fst rn)))))) ls | None => [] end).
  { intros ls. induction ls as [|[r o] ls IH]; [destruct (base_path e base); reflexivity|]. cbn [map flat_map fst snd]. rewrite flat_map_app, souts_put, IH. unfold P. rewrite all_of_them by (apply sputs_in, ck_defers).
    rewrite ck_p_tells. destruct (base_path e base); [|reflexivity]. f_equal. unfold heard_of. rewrite map_map. reflexivity. }
  rewrite Z. unfold cs, cookies. destruct (base_path e base); reflexivity.
Qed.
Theorem C69_cookies : forall e rel top headers chunks complete trailers t start nc head base m' rel',
  lint e rel top headers chunks complete trailers (new_linter t start nc head base) = (m', rel', Ok tt) -> t <> MRequest ->
  hyphened (u "set-cookie") headers -> hyphened (u "set-cookie") trailers ->
  exists ds ds', used_twice (map l_name (cookies e base (values (u "set-cookie") headers))) ds /\ used_twice (map l_name (cookies e base (values (u "set-cookie") trailers))) ds'
  /\ heard of_cookies (map u shown_vars) (m_notes m') = section_tells e t start base ds headers ++ section_tells e t start base ds' trailers.
Proof.
  intros e rel top headers chunks complete trailers t start nc head base m' rel' E Ht H1 H2. 
  assert (X : heard of_cookies (map u shown_vars) (m_notes m') = heard (classes all_classes) sks (m_notes m')) by (unfold heard; f_equal; apply filter_ext; intros n; apply of_cookies_eq). rewrite X.
  rewrite (ck_run e rel top headers chunks complete trailers t start nc head base m' rel' E Ht H1 H2 all_classes sks); [|vm_compute; reflexivity].
  destruct (says_tells e start base m' rel t headers) as (ds & D1 & ->). destruct (says_tells e start base m' rel t trailers) as (ds' & D2 & ->). exists ds, ds'. auto.
Qed.
Print Assumptions C69_cookies.
(** The commas. *)
Lemma group3_step a b c d r f : group3 (S f) (a :: b :: c :: d :: r) = a :: b :: c :: 44 :: group3 f (d :: r). Proof. reflexivity. Qed.
Lemma group3_parts f : forall rd, rd <> [] -> (List.length rd <= f)%nat ->
  exists g gs, rev (group3 f rd) = join [44] (g :: gs) /\ rev rd = List.concat (g :: gs) /\ (1 <= List.length g <= 3)%nat /\ Forall (fun x => List.length x = 3%nat) gs.
Proof.
  assert (J : forall g (gs : list str) t, join [44] (g :: gs ++ [t]) = join [44] (g :: gs) ++ [44] ++ t).
  { intros g gs t. revert g. induction gs as [|h gs IH]; intros g; [reflexivity|]. change ((h :: gs) ++ [t]) with (h :: gs ++ [t]).
    assert (S : forall (x y : str) l, join [44] (x :: y :: l) = x ++ [44] ++ join [44] (y :: l)) by reflexivity. rewrite !S, IH, <- !app_assoc. reflexivity. }
  induction f as [|f IH]; intros rd H L; [destruct rd; [congruence|cbn [List.length] in L; lia]|].
  assert (Short : (List.length rd <= 3)%nat -> group3 (S f) rd = rd).
  { intros L3. destruct rd as [|a [|b [|c [|d r]]]]; try reflexivity. cbn [List.length] in L3. lia. }
  destruct (Nat.leb (List.length rd) 3) eqn:E3.
  - apply Nat.leb_le in E3. rewrite (Short E3). exists (rev rd), []. split; [reflexivity|]. split; [cbn [List.concat]; rewrite app_nil_r; reflexivity|]. rewrite rev_length. split; [|constructor].
    destruct rd; [congruence|]. cbn [List.length] in *. lia.
  - apply Nat.leb_gt in E3. destruct rd as [|a [|b [|c [|d r]]]]; try (cbn [List.length] in E3; lia). rewrite group3_step.
    destruct (IH (d :: r)) as (g & gs & A & B & C & D); [discriminate|cbn [List.length] in *; lia|].
    exists g, (gs ++ [[c; b; a]]). split; [|split; [|split; [exact C|apply Forall_app; split; [exact D|constructor; [reflexivity|constructor]]]]].
    + rewrite J, <- A. cbn [rev]. rewrite <- !app_assoc. reflexivity.
    + change (g :: gs ++ [[c; b; a]]) with ((g :: gs) ++ [[c; b; a]]). rewrite concat_app, <- B. cbn [rev List.concat]. rewrite <- !app_assoc. reflexivity.
Qed.
Lemma dec_nat_some n : dec_nat n <> [].
Proof.
  unfold dec_nat, dec_N. cbn [dec_aux]. assert (X : forall f m acc, acc <> [] -> dec_aux f m acc <> []).
  { induction f as [|f IH]; intros m acc H; [exact H|]. cbn [dec_aux]. destruct (m <? 10); [discriminate|]. apply IH. discriminate. }
  destruct (_ <? 10); [discriminate|]. apply X. discriminate.
Qed.
Lemma dec_aux_val f : forall n acc, n < 2 ^ N.of_nat f -> (1 <= f)%nat -> digits_val (dec_aux f n acc) = fold_left (fun a c => a * 10 + digit_val c) acc n.
Proof.
  induction f as [|f IH]; intros n acc H F; [lia|]. cbn [dec_aux]. destruct (N.ltb_spec n 10) as [L|L].
  - unfold digits_val. cbn [fold_left]. f_equal. unfold digit_val. rewrite N.mod_small by exact L. lia.
  - rewrite IH.
    + cbn [fold_left]. f_equal. unfold digit_val. pose proof (N.div_mod n 10). lia.
    + rewrite Nat2N.inj_succ, N.pow_succ_r' in H. apply N.div_lt_upper_bound; [lia|]. lia.
    + destruct f; [cbn in H; lia|lia].
Qed.
Lemma dec_aux_digits f : forall n acc, Forall (fun c => is_digit c = true) acc -> Forall (fun c => is_digit c = true) (dec_aux f n acc).
Proof.
  induction f as [|f IH]; intros n acc H; [exact H|]. cbn [dec_aux]. cbv zeta. assert (X : Forall (fun c => is_digit c = true) (48 + n mod 10 :: acc)).
  { constructor; [|exact H]. unfold is_digit. pose proof (N.mod_lt n 10). lia. }
  destruct (n <? 10); [exact X|]. apply IH, X.
Qed.
(** A size is shown by its decimal digits, in groups of three. *)
Theorem C69_commas : forall n, exists ds, with_commas ds (f_comma n) /\ Forall (fun c => is_digit c = true) ds /\ digits_val ds = N.of_nat n.
Proof.
  intros n. exists (dec_nat n). split; [|split; [apply dec_aux_digits; constructor|]].
  - unfold with_commas, f_comma. cbv zeta. destruct (group3_parts (List.length (dec_nat n)) (rev (dec_nat n))) as (g & gs & A & B & C & D).
    + intros H. apply (f_equal (@rev _)) in H. rewrite rev_involutive in H. revert H. apply dec_nat_some.
    + rewrite rev_length. lia.
    + exists g, gs. rewrite rev_involutive in B. auto.
  - unfold dec_nat, dec_N. rewrite dec_aux_val; [reflexivity| |lia]. rewrite Nat2N.inj_succ, N.pow_succ_r'. generalize (N.of_nat n). intros m. pose proof (N.size_gt m) as S. 
    assert (Z : N.of_nat (N.size_nat m) = N.size m) by (destruct m as [|p]; [reflexivity|]; cbn [N.size_nat N.size]; rewrite <- (positive_nat_N (Pos.size p)); f_equal; clear; induction p; cbn [Pos.size Pos.size_nat]; rewrite ?Pos2Nat.inj_succ; auto). rewrite Z. lia.
Qed.
Print Assumptions C69_commas.
(** ** Example *)
Example C69_ex : let '(m, _, r) := lint env0 None (TopResponse (u "1.1") (u "200") None) cookie_sample [] true [] (new_linter MResponse None false false (u "http://x.org/a/b")) in
  r = Ok tt /\ heard of_cookies (map u ["cookie_name"; "attribute"; "duration"; "cookie_names"]%string) (m_notes m)
    = [(SET_COOKIE_NAME_DUP, about_field (u "set-cookie"), [None; None; None; Some (VStr (u "a"))]); (SET_COOKIE_HARDENED, about_field (u "set-cookie"), [None; None; None; Some (VMd (u "`a`"))]);
       (SET_COOKIE_LEADING_ZERO_MAX_AGE, at_offset 0, [Some (VStr (u "a")); None; None; None]); (SET_COOKIE_LIFETIME_TOO_LONG, at_offset 0, [Some (VStr (u "a")); None; Some (VRel 34560001 0 0); None]);
       (SET_COOKIE_ATTRIBUTE_DUP, at_offset 0, [Some (VStr (u "a")); Some (VStr (u "max-age")); None; None]); (SET_COOKIE_NON_DIGIT_MAX_AGE, at_offset 0, [Some (VStr (u "a")); None; None; None]);
       (SET_COOKIE_UNKNOWN_ATTRIBUTE, at_offset 0, [Some (VStr (u "a")); Some (VStr (u "Foo")); None; None]);
       (SET_COOKIE_NOT_SECURE, at_offset 2, [Some (VStr (u "__Host-b")); None; None; None]); (SET_COOKIE_PREFIX_SECURE_MISSING, at_offset 2, [Some (VStr (u "__Host-b")); None; None; None]);
       (SET_COOKIE_PREFIX_HOST_BAD_PATH, at_offset 2, [Some (VStr (u "__Host-b")); None; None; None]); (SET_COOKIE_PREFIX_HOST_BAD_DOMAIN, at_offset 2, [Some (VStr (u "__Host-b")); None; None; None]);
       (SET_COOKIE_NO_NAME, at_offset 4, [None; None; None; None])].
Proof. vm_compute. split; reflexivity. Qed.
