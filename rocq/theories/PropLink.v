(** * C52: Link. *)
From Coq Require Import Lia ZifyBool ZifyN.
From Verif Require Import PyStr Regex Grammar NoteTable Note PyLib Utils FieldAttrs Types Fields1 Fields2 Fields3 Framework Checks Message
  EvLogic TestEnv LexLemmas ParamLemmas NumLemmas PassParse Session SessionLemmas SecNotes SecValues LintLemmas FieldSpec PropFields PropValues PropNames PropParse PropTop PropCli OwnLemmas ListSpec PropLists PropCC ListExamples FieldExamples
  PropInts FieldDue OwnTac CodingSpec PropCodings CookieSpec PropCookies PrefSpec PropPrefs PlainSpec PropPlain LinkSpec.
Open Scope N_scope.

Definition star_names : nostar := NoStarList (map u ["rel"; "rev"; "anchor"; "hreflang"; "type"; "media"]%string).
Definition bad_text (g : re) (d : dict (option str)) (k : string) : bool := match dget (u k) d with Some (Some a) => nonempty a && negb (match_ws_dollar g a) | _ => false end.
Definition link_b (e : env) (m : str) : list nid :=
  let d := link_params e m in
  only (match dget (u "rev") d with Some _ => true | None => false end) LINK_REV ++ only (bad_text rfc3986_URI_reference d "anchor") LINK_BAD_ANCHOR ++ only (bad_text rfc9110_media_type d "type") LINK_BAD_TYPE.
Lemma bad_text_ok g d k : bad_text g d k = true <-> exists s, dget (u k) d = Some (Some s) /\ s <> [] /\ ~ spaced g s.
Proof.
  unfold bad_text. destruct (dget (u k) d) as [[s|]|]; [|split; [discriminate|intros (s & H & _); discriminate]|split; [discriminate|intros (s & H & _); discriminate]].
  assert (U : match_ws_dollar g s = true <-> spaced g s) by apply match_ws_dollar_spec. rewrite andb_true_iff, negb_true_iff. split.
  - intros [H1 H2]. exists s. split; [reflexivity|]. split; [destruct s; [discriminate|discriminate]|]. rewrite <- U, H2. discriminate.
  - intros (x & X & H1 & H2). injection X as <-. split; [destruct s; [congruence|reflexivity]|]. destruct (match_ws_dollar g s); [destruct H2; apply U; reflexivity|reflexivity].
Qed.
Lemma link_b_due e m : link_due e m (link_b e m).
Proof.
  unfold link_b. cbv zeta. do 3 eexists. split; [reflexivity|]. split; [|split; apply bad_text_ok]. destruct (dget (u "rev") (link_params e m)); split; congruence.
Qed.
Definition link_item (e : env) (v : str) : pyval := VTuple [VStr (link_target v); param_dict_val (link_params e v)].
Definition link_rest (d : dict (option str)) (lv : str) : W pyval :=
  match dget (u "rev") d with Some r => add_note LINK_REV [vs "link" lv; vs "rev" (opt_text r)] | None => ret tt end ;;;
  match dget (u "anchor") d with
  | Some (Some a) => when (nonempty a && negb (match_ws_dollar rfc3986_URI_reference a)) (add_note LINK_BAD_ANCHOR [vs "link" lv; vs "anchor" a])
  | _ => ret tt end ;;;
  match dget (u "type") d with
  | Some (Some t) => when (nonempty t && negb (match_ws_dollar rfc9110_media_type t)) (add_note LINK_BAD_TYPE [vs "link" lv; vs "type" t])
  | _ => ret tt end ;;;
  ret (VTuple [VStr lv; param_dict_val d]).
Lemma p_link_eq c h v : p_link c h v = let '(lv, ps) := split_or 59 v in d <- parse_params (cx_env c) ps star_names DSemi ;; link_rest d (mid (strip lv)).
Proof. reflexivity. Qed.
Lemma link_rest_ok d lv : snd (link_rest d lv) = Ok (VTuple [VStr lv; param_dict_val d])
  /\ (forall s, map fst (speak (classes link_classes) [] s (fst (link_rest d lv))) = map (fun c => (c, s)) (only (match dget (u "rev") d with Some _ => true | None => false end) LINK_REV ++ only (bad_text rfc3986_URI_reference d "anchor") LINK_BAD_ANCHOR ++ only (bad_text rfc9110_media_type d "type") LINK_BAD_TYPE))
  /\ forall ks s, speak (classes hint_classes) ks s (fst (link_rest d lv)) = [].
Proof.
  unfold link_rest, bad_text. generalize (param_dict_val d). intros pd.
  destruct (dget (u "rev") d) as [r|]; destruct (dget (u "anchor") d) as [[a|]|]; destruct (dget (u "type") d) as [[t|]|];
    repeat match goal with |- context [nonempty ?a && negb ?b] => destruct (nonempty a && negb b) end; (split; [reflexivity|split; reflexivity]).
Qed.
Lemma link_par e rel m' v : snd (par F_link e rel m' v) = Ok (link_item e v)
  /\ (forall s, map fst (speak (classes link_classes) [] s (fst (par F_link e rel m' v))) = map (fun c => (c, s)) (link_b e v))
  /\ forall ks s, speak (classes hint_classes) ks s (fst (par F_link e rel m' v)) = [].
Proof.
  unfold par. cbn [parse_of]. rewrite p_link_eq, semi_split. change (mid (strip (before_semi v))) with (link_target v). cbn [cx_env].
  destruct (parameters_eq e star_names v) as (l & El). rewrite El.
  change (parameters e star_names v) with (link_params e v). pose proof (params_hush (classes link_classes) e (after_semi v) star_names DSemi eq_refl) as Hh. pose proof (params_hush (classes hint_classes) e (after_semi v) star_names DSemi eq_refl) as Hh2. rewrite El in Hh, Hh2. unfold hush in Hh, Hh2. cbn [fst] in Hh, Hh2.
  destruct (link_rest_ok (link_params e v) (link_target v)) as (R1 & R2 & R3). unfold bind at 1 2 3. destruct (link_rest (link_params e v) (link_target v)) as [l2 r2]. cbn [fst snd] in *.
  split; [exact R1|]. split; intros; rewrite speak_app, ?Hh, ?Hh2; [apply R2|apply R3].
Qed.
(** ** About each link *)
Section Elems2.
  Variables (cs : list nid) (f : fname) (k : string).
  Variables (e : env) (rel : option mstate) (top : topline) (headers : list (bytes * bytes)) (chunks : list bytes) (complete : bool) (trailers : list (bytes * bytes))
    (t : mtype) (start : option Q) (nc head : bool) (base : str) (m' : mstate) (rel' : option mstate).
  Hypothesis E : lint e rel top headers chunks complete trailers (new_linter t start nc head base) = (m', rel', Ok tt).
  Hypothesis Ho : owns cs f (u k) && plain f && processed t (u k) = true.
  Hypothesis Kd : kind_of f = KList.
  Hypothesis Hn : forall x, nk (eva f e rel m' x).
  Hypothesis H1 : hyphened (u k) headers.
  Hypothesis H2 : hyphened (u k) trailers.
  Lemma elements_due' due : (forall v s, map fst (speak (classes cs) [] s (fst (par f e rel m' v))) = map (fun c => (c, s)) (due v)) ->
    (forall x, hush (classes cs) (eva f e rel m' x)) ->
    reports cs (m_notes m') = element_notes t k due headers trailers.
  Proof.
    intros Hd Hh. rewrite (list_run_due cs f (u k) e rel top headers chunks complete trailers t start nc head base m' rel' E Ho) with (due1 := due) (due := fun _ => []); try assumption.
    - unfold element_notes, list_due. cbn [map]. destruct (values (u k) headers), (values (u k) trailers); rewrite ?app_nil_r; reflexivity.
    - intros vs. rewrite Hh. reflexivity.
  Qed.
End Elems2.
(** ** Resource hints *)
Definition item_hints (x : str * dict pyval) : list (str * str) :=
  match dget (u "rel") (snd x) with Some (VStr rel) => map (fun w => (w, fst x)) (filter (fun w => str_in w hint_names) (words (lower rel))) | _ => [] end.
Definition hint_tok (c : cx) (x : str) : list (str * str * str) -> str -> W (list (str * str * str)) := fun acc tok =>
  if str_in tok hint_names then sch <- lift (target_scheme c x) ;; ret (acc ++ [(tok, x, sch)]) else ret acc.
Definition hint_step (c : cx) : list (str * str * str) -> str * dict pyval -> W (list (str * str * str)) := fun acc x =>
  match dget (u "rel") (snd x) with Some (VStr rel) => foldW (hint_tok c (fst x)) (words (lower rel)) acc | _ => ret acc end.
Definition bad_hint (t : str * str * str) : bool := nonempty (snd t) && negb (str_in (snd t) [u "http"; u "https"]).
Definition link_tail (found : list (str * str * str)) : W unit :=
  iterW (fun t : str * str * str => add_note LINK_BAD_HINT_TARGET [vs "rel" (fst (fst t)); vs "link" (snd (fst t)); vs "scheme" (snd t)]) (filter bad_hint found) ;;;
  let good := filter (fun t => negb (bad_hint t)) found in
  let targets n := map (fun t : str * str * str => snd (fst t)) (filter (fun t => str_eqb (fst (fst t)) n) good) in
  let present := filter (fun n => nonempty (targets n)) hint_names in
  when (nonempty present)
    (add_note LINK_RESOURCE_HINTS
       [vs "hints" (join (u ", ") present);
        vv "detail_lines"
          (VMd (join [10] (map (fun n => u "- `" ++ n ++ u "`: "
                 ++ join (u ", ") (map (fun t => bt ++ remove_chr 96 t ++ bt) (targets n))) present)))]).
Lemma ev_link_eq c h : ev_link c h = (l <- lift (rbind (as_list (h_val h)) (mapR text_params)) ;; found <- foldW (hint_step c) l [] ;; link_tail found).
Proof. reflexivity. Qed.
Lemma mapR_app {A B} (f : A -> res B) a b : mapR f (a ++ b) = rbind (mapR f a) (fun x => rmap (app x) (mapR f b)).
Proof.
  induction a as [|x a IH]; cbn [app mapR].
  - cbn [rbind]. destruct (mapR f b); reflexivity.
  - rewrite IH. destruct (f x) as [y|]; cbn [rbind]; [|reflexivity]. destruct (mapR f a) as [z|]; cbn [rbind rmap]; [|reflexivity]. destruct (mapR f b); reflexivity.
Qed.
Lemma mapR_length {A B} (f : A -> res B) l r : mapR f l = Ok r -> List.length l = List.length r.
Proof.
  revert r. induction l as [|x l IH]; cbn [mapR]; intros r H; [injection H as <-; reflexivity|]. destruct (f x); cbn [rbind] in H; [|discriminate]. destruct (mapR f l) as [z|]; cbn [rmap] in H; [|discriminate].
  injection H as <-. cbn [List.length]. f_equal. apply IH. reflexivity.
Qed.
Lemma combine_app {A B} (a1 a2 : list A) (b1 b2 : list B) : List.length a1 = List.length b1 -> combine (a1 ++ a2) (b1 ++ b2) = combine a1 b1 ++ combine a2 b2.
Proof. revert b1. induction a1 as [|x a1 IH]; intros [|y b1] H; cbn [List.length] in H; try discriminate; [reflexivity|]. cbn [app combine]. f_equal. apply IH. lia. Qed.
Definition told_fold (c : cx) (acc : list (str * str * str)) (hs : list (str * str)) : res (list (str * str * str)) :=
  rmap (fun ss => acc ++ combine hs ss) (mapR (fun h => target_scheme c (snd h)) hs).
Lemma told_fold_app c acc a b : told_fold c acc (a ++ b) = rbind (told_fold c acc a) (fun acc' => told_fold c acc' b).
Proof.
  unfold told_fold. rewrite mapR_app. destruct (mapR _ a) as [x|] eqn:Ea; cbn [rbind rmap]; [|reflexivity]. destruct (mapR _ b) as [y|] eqn:Eb; cbn [rbind rmap]; [|reflexivity].
  rewrite combine_app by (eapply mapR_length; exact Ea). rewrite app_assoc. reflexivity.
Qed.
Lemma fold_tok c x ws : forall acc, foldW (hint_tok c x) ws acc = ([], told_fold c acc (map (fun w => (w, x)) (filter (fun w => str_in w hint_names) ws))).
Proof.
  induction ws as [|w ws IH]; intros acc; cbn [foldW filter map].
  - unfold told_fold. cbn. rewrite app_nil_r. reflexivity.
  - unfold hint_tok at 1. destruct (str_in w hint_names).
    + cbn [map]. change ((w, x) :: map (fun y => (y, x)) (filter (fun y => str_in y hint_names) ws)) with ([(w, x)] ++ map (fun y => (y, x)) (filter (fun y => str_in y hint_names) ws)).
      rewrite told_fold_app. unfold told_fold at 1. cbn [mapR snd]. destruct (target_scheme c x) as [s|er]; cbn [rbind rmap combine]; [|reflexivity].
      rewrite lift_ok, bind_ret, IH. reflexivity.
    + rewrite bind_ret, IH. reflexivity.
Qed.
Lemma fold_step c l : forall acc, foldW (hint_step c) l acc = ([], told_fold c acc (flat_map item_hints l)).
Proof.
  induction l as [|x l IH]; intros acc; cbn [foldW flat_map].
  - unfold told_fold. cbn. rewrite app_nil_r. reflexivity.
  - rewrite told_fold_app.
    assert (S : hint_step c acc x = ([], told_fold c acc (item_hints x))).
    { unfold hint_step, item_hints. assert (N : ret acc = ([], told_fold c acc [])) by (unfold told_fold; cbn; rewrite app_nil_r; reflexivity).
      destruct (dget (u "rel") (snd x)) as [[]|]; try exact N. apply fold_tok. }
    rewrite S. unfold bind. destruct (told_fold c acc (item_hints x)) as [a|er]; cbn [rbind]; [|reflexivity]. rewrite IH. reflexivity.
Qed.
Lemma str_in_names w : str_in w hint_names = one_of hint_types w.
Proof. reflexivity. Qed.
Lemma bad_hint_eq t : bad_hint t = bad_scheme (snd t).
Proof. reflexivity. Qed.
Lemma item_hints_eq e v : item_hints (link_target v, map (fun kv : str * option str => (fst kv, opt_str (snd kv))) (link_params e v)) = hints_of e v.
Proof.
  unfold item_hints, hints_of, text_of. cbn [fst snd]. rewrite dget_map. destruct (dget (u "rel") (link_params e v)) as [[s|]|]; reflexivity.
Qed.
Lemma link_items e (ms : list str) : mapR text_params (flat_map (fun v => [link_item e v]) ms)
  = Ok (map (fun v => (link_target v, map (fun kv : str * option str => (fst kv, opt_str (snd kv))) (link_params e v))) ms).
Proof. induction ms as [|m ms IH]; [reflexivity|]. cbn [flat_map app mapR map]. rewrite IH. reflexivity. Qed.
Definition hints_found (found : list (str * str * str)) : list (nid * list (option pyval)) :=
  let good := filter (fun x => negb (bad_scheme (snd x))) found in
  let types := filter (fun w => existsb (fun x => str_eqb (fst (fst x)) w) good) (map u hint_types) in
  map (fun x => (LINK_BAD_HINT_TARGET, [Some (VStr (fst (fst x))); Some (VStr (snd (fst x))); Some (VStr (snd x)); None])) (filter (fun x => bad_scheme (snd x)) found)
  ++ told_once (nonempty good) LINK_RESOURCE_HINTS [None; None; None; Some (VStr (join (u ", ") types))].
Definition link_keys : list str := map u ["rel"; "link"; "scheme"; "hints"]%string.
Lemma link_tail_ok found s : Forall (fun t => one_of hint_types (fst (fst t)) = true) found ->
  speak (classes hint_classes) link_keys s (fst (link_tail found)) = map (fun x => (fst x, s, snd x)) (hints_found found).
Proof.
  intros Hf. unfold link_tail, hints_found. cbv zeta. rewrite bind_iter by reflexivity. rewrite speak_app, map_app. f_equal.
  - change (filter bad_hint found) with (filter (fun x : str * str * str => bad_scheme (snd x)) found). induction (filter (fun x : str * str * str => bad_scheme (snd x)) found) as [|x l IH]; [reflexivity|].
    cbn [flat_map map]. rewrite speak_app, IH. reflexivity.
  - change (fun t => negb (bad_hint t)) with (fun x : str * str * str => negb (bad_scheme (snd x))).
    assert (Hg : Forall (fun t => one_of hint_types (fst (fst t)) = true) (filter (fun x => negb (bad_scheme (snd x))) found)).
    { apply Forall_forall. intros x Hx. apply filter_In in Hx as [Hx _]. rewrite Forall_forall in Hf. apply Hf, Hx. }
    generalize dependent (filter (fun x : str * str * str => negb (bad_scheme (snd x))) found). intros good Hg.
    assert (T : forall n : str, nonempty (map (fun t : str * str * str => snd (fst t)) (filter (fun t => str_eqb (fst (fst t)) n) good)) = existsb (fun x => str_eqb (fst (fst x)) n) good).
    { intros n. clear Hg. induction good as [|x l IH]; [reflexivity|]. cbn [filter existsb]. destruct (str_eqb (fst (fst x)) n); [reflexivity|exact IH]. }
    assert (F : filter (fun n => nonempty (map (fun t : str * str * str => snd (fst t)) (filter (fun t => str_eqb (fst (fst t)) n) good))) hint_names
      = filter (fun w => existsb (fun x => str_eqb (fst (fst x)) w) good) (map u hint_types)).
    { change hint_names with (map u hint_types). induction (map u hint_types) as [|w l IH]; [reflexivity|]. cbn [filter]. rewrite T, IH. reflexivity. }
    rewrite F. set (types := filter (fun w => existsb _ good) _).
    assert (N : nonempty types = nonempty good).
    { unfold types. destruct good as [|g good]; [reflexivity|]. inversion Hg as [|x l Hx Hl]; subst. cbn [nonempty]. unfold one_of in Hx. cbn [hint_types existsb] in Hx. cbn [hint_types map filter existsb].
      destruct (str_eqb (fst (fst g)) (u "preload")); [reflexivity|]. destruct (str_eqb (fst (fst g)) (u "preconnect")); [cbn [orb]; destruct (existsb _ good); reflexivity|].
      destruct (str_eqb (fst (fst g)) (u "dns-prefetch")); [|discriminate]. cbn [orb]. destruct (existsb _ good); [reflexivity|]. destruct (existsb _ good); reflexivity. }
    rewrite N. destruct (nonempty good); reflexivity.
Qed.
Definition hints_b (e : env) (base : str) (ms : list str) : list (nid * list (option pyval)) :=
  let hs := flat_map (hints_of e) ms in
  match mapR (fun h => rbind (e_urljoin e base (snd h)) (fun t => rmap (fun p => lower (u_scheme p)) (e_urlsplit e t))) hs with
  | Ok ss => hints_found (combine hs ss) | Err _ => [] end.
Lemma hints_b_due e base ms : resolves e base ms -> hints_due e base ms (hints_b e base ms).
Proof.
  unfold resolves, hints_due, hints_b. cbv zeta. generalize (flat_map (hints_of e) ms) as hs. intros hs Hr.
  assert (X : exists ss, mapR (fun h : str * str => rbind (e_urljoin e base (snd h)) (fun t => rmap (fun p => lower (u_scheme p)) (e_urlsplit e t))) hs = Ok ss /\ Forall2 (scheme_of e base) hs ss).
  { induction Hr as [|h hs (s & full & p & J & P & Hs) Hr (ss & I1 & I2)]; [exists []; split; [reflexivity|constructor]|].
    exists (s :: ss). split; [|constructor; [exists full, p; auto|exact I2]]. cbn [mapR]. rewrite J. cbn [rbind]. rewrite P. cbn [rmap rbind]. rewrite I1, <- Hs. reflexivity. }
  destruct X as (ss & -> & F). exists ss. split; [exact F|reflexivity].
Qed.
Lemma hints_types e ms : Forall (fun h : str * str => one_of hint_types (fst h) = true) (flat_map (hints_of e) ms).
Proof.
  apply Forall_forall. intros h Hh. apply in_flat_map in Hh as (m & _ & Hm). unfold hints_of in Hm. apply in_map_iff in Hm as (w & <- & Hw). apply filter_In in Hw as [_ Hw]. exact Hw.
Qed.
Lemma combine_types {B} (hs : list (str * str)) (ss : list B) : Forall (fun h : str * str => one_of hint_types (fst h) = true) hs -> Forall (fun t => one_of hint_types (fst (fst t)) = true) (combine hs ss).
Proof. intros H. revert ss. induction H as [|h hs Hh H IH]; intros [|s ss]; cbn [combine]; constructor; [exact Hh|apply IH]. Qed.
Lemma ev_link_hush (P : nid -> bool) c h : P LINK_BAD_HINT_TARGET = false -> P LINK_RESOURCE_HINTS = false -> hush P (ev_link c h).
Proof.
  intros P1 P2. rewrite ev_link_eq. apply hush_bind; [intros ks s; unfold lift; destruct (rbind _ _); reflexivity|]. intros l. apply hush_bind; [intros ks s; rewrite fold_step; reflexivity|].
  intros found. unfold link_tail. cbv zeta. apply hush_bind.
  - intros ks s. rewrite iter_in by reflexivity. induction (filter bad_hint found) as [|x y IH]; [reflexivity|]. cbn [flat_map]. rewrite speak_app, IH, app_nil_r. apply (hush_note P _ _ P1 ks s).
  - intros _. apply hush_when, hush_note, P2.
Qed.
Lemma ev_link_nk e rel m' x : nk (eva F_link e rel m' x).
Proof. unfold eva. cbn [eval_of]. unfold keep, ev_link. nks. Qed.
Theorem C52_link : forall e rel top headers chunks complete trailers t start nc head base m' rel',
  lint e rel top headers chunks complete trailers (new_linter t start nc head base) = (m', rel', Ok tt) ->
  exists due, (forall v, link_due e v (due v)) /\ reports link_classes (m_notes m') = element_notes t "link" due headers trailers.
Proof.
  intros e rel top headers chunks complete trailers t start nc head base m' rel' E. exists (link_b e). split; [apply link_b_due|].
  apply (elements_due' link_classes F_link "link" e rel top headers chunks complete trailers t start nc head base m' rel' E).
  - its_type.
  - reflexivity.
  - apply ev_link_nk.
  - apply unhyphened; reflexivity.
  - apply unhyphened; reflexivity.
  - intros v s. apply link_par.
  - intros x. unfold eva. cbn [eval_of]. unfold keep. apply hush_bind; [apply ev_link_hush; reflexivity|]. intros _. apply hush_ret.
Qed.
Print Assumptions C52_link.
Theorem C52_hints : forall e rel top headers chunks complete trailers t start nc head base m' rel',
  lint e rel top headers chunks complete trailers (new_linter t start nc head base) = (m', rel', Ok tt) ->
  exists due, (forall ms, resolves e (m_base m') ms -> hints_due e (m_base m') ms (due ms))
    /\ heard (classes hint_classes) (map u ["rel"; "link"; "scheme"; "hints"]%string) (m_notes m') = list_told "link" due headers ++ list_told "link" due trailers.
Proof.
  intros e rel top headers chunks complete trailers t start nc head base m' rel' E. exists (hints_b e (m_base m')). split; [apply hints_b_due|].
  apply (whole_due hint_classes link_keys F_link "link" e rel top headers chunks complete trailers t start nc head base m' rel' E) with (g := fun v => [link_item e v]).
  - its_type.
  - reflexivity.
  - apply ev_link_nk.
  - apply unhyphened; reflexivity.
  - apply unhyphened; reflexivity.
  - intros v s. apply link_par.
  - intros v. rewrite (proj1 (link_par e rel m' v)). reflexivity.
  - intros ms s. unfold eva. cbn [eval_of]. rewrite keep_fst, ev_link_eq. cbn [Types.h_val blank_of as_list rbind]. rewrite link_items, lift_ok, fold_step. unfold told_fold, hints_b.
    assert (F : flat_map item_hints (map (fun v => (link_target v, map (fun kv : str * option str => (fst kv, opt_str (snd kv))) (link_params e v))) ms) = flat_map (hints_of e) ms).
    { induction ms as [|v ms IH]; [reflexivity|]. cbn [map flat_map]. rewrite item_hints_eq, IH. reflexivity. }
    rewrite F. cbv zeta. pose proof (hints_types e ms) as Ht. generalize dependent (flat_map (hints_of e) ms). intros hs _ Ht.
    unfold target_scheme. cbn [cx_env cx_msg].
    change (mapR _ hs) with (mapR (fun h : str * str => rbind (e_urljoin e (m_base m') (snd h)) (fun t0 => rmap (fun p => lower (u_scheme p)) (e_urlsplit e t0))) hs).
    destruct (mapR _ hs) as [ss|er]; cbn [rmap]; [|reflexivity]. change ([], Ok ([] ++ combine hs ss)) with (@ret (list (str * str * str)) (combine hs ss)). rewrite bind_ret.
    apply link_tail_ok, combine_types, Ht.
Qed.
Print Assumptions C52_hints.
(** ** Examples *)
Definition link_sample : list rawline := raws [("Link", "<a>; rel=""preload nofollow""; rev=x, <b>; rel=Preconnect; type=""no type"""); ("Link", "<c>; anchor=""<>""; rel=dns-prefetch")]%string.
Example C52_ex : let '(m, _, r) := lint env0 None (TopResponse (u "1.1") (u "200") None) link_sample [] true [] (new_linter MResponse None false false []) in
  r = Ok tt /\ reports link_classes (m_notes m) = [(LINK_REV, u "offset-0"); (LINK_BAD_TYPE, u "offset-0"); (LINK_BAD_ANCHOR, u "offset-1")]
  /\ map (fun x => (fst (fst x), snd x)) (heard (classes hint_classes) [u "hints"] (m_notes m)) = [(LINK_RESOURCE_HINTS, [Some (VStr (u "preload, preconnect, dns-prefetch"))])].
Proof. vm_compute. repeat split. Qed.
