(** * C51: Alt-Svc, Content-Language, Pragma, Server, Server-Timing, Via. *)
From Coq Require Import Lia ZifyBool ZifyN.
From Verif Require Import PyStr Regex Grammar NoteTable Note PyLib Utils FieldAttrs Types Fields1 Fields2 Fields3 Framework Checks Message
  EvLogic TestEnv LexLemmas ParamLemmas NumLemmas PassParse Session SessionLemmas SecNotes SecValues LintLemmas FieldSpec PropFields PropValues PropNames PropParse PropTop PropCli OwnLemmas ListSpec PropLists PropCC ListExamples FieldExamples
  PropInts FieldDue OwnTac CodingSpec PropCodings CookieSpec PropCookies PrefSpec PropPrefs PlainSpec.
Open Scope N_scope.

(** ** Notes about list fields as a whole *)
Section Whole.
  Variables (cs : list nid) (ks : list str) (f : fname) (k : string).
  Variables (e : env) (rel : option mstate) (top : topline) (headers : list (bytes * bytes)) (chunks : list bytes) (complete : bool) (trailers : list (bytes * bytes))
    (t : mtype) (start : option Q) (nc head : bool) (base : str) (m' : mstate) (rel' : option mstate).
  Hypothesis E : lint e rel top headers chunks complete trailers (new_linter t start nc head base) = (m', rel', Ok tt).
  Hypothesis Ho : owns cs f (u k) && own_keys ks && plain f && processed t (u k) = true.
  Hypothesis Kd : kind_of f = KList.
  Hypothesis Hn : forall x, nk (eva f e rel m' x).
  Hypothesis H1 : hyphened (u k) headers.
  Hypothesis H2 : hyphened (u k) trailers.
  Lemma whole_due (g : str -> list pyval) (due : list str -> list (nid * list (option pyval))) :
    (forall v s, speak (classes cs) ks s (fst (par f e rel m' v)) = []) ->
    (forall v, (match snd (par f e rel m' v) with Ok x => [x] | Err _ => [] end) = g v) ->
    (forall ms s, speak (classes cs) ks s (fst (eva f e rel m' (VList (flat_map g ms)))) = map (fun x => (fst x, s, snd x)) (due ms)) ->
    heard (classes cs) ks (m_notes m') = list_told k due headers ++ list_told k due trailers.
  Proof.
    intros Hp Hg Hd. rewrite (list_run cs ks f (u k) e rel top headers chunks complete trailers t start nc head base m' rel' E Ho); try assumption.
    assert (S : forall l, list_says (classes cs) ks t (u k) (par f e rel m') (eva f e rel m') l = list_told k due l).
    { intros l. unfold list_says, list_told. rewrite (flat_none _ (elements t (u k) l)) by (intros; apply Hp). cbn [app].
      rewrite (members_elements t). destruct (values (u k) l); [reflexivity|]. cbn [nonempty]. rewrite <- Hd. f_equal. f_equal. f_equal. f_equal.
      induction (map fst (elements t (u k) l)) as [|v y IH]; [reflexivity|]. cbn [map flat_map]. rewrite IH, <- Hg. reflexivity. }
    rewrite !S. reflexivity.
  Qed.
End Whole.

(** ** Alt-Svc *)
Definition services_b (ms : list str) : list (nid * list (option pyval)) :=
  told_once (existsb (fun m => str_eqb m (u "clear")) (kept_services ms) && Nat.ltb 1 (List.length (kept_services ms))) ALTSVC_CLEAR_LIST [].
Theorem C51_alt_svc : forall e rel top headers chunks complete trailers t start nc head base m' rel',
  lint e rel top headers chunks complete trailers (new_linter t start nc head base) = (m', rel', Ok tt) -> t <> MRequest ->
  hyphened (u "alt-svc") headers -> hyphened (u "alt-svc") trailers ->
  exists due, (forall ms, services_due ms (due ms))
    /\ heard (classes [ALTSVC_CLEAR_LIST]) [] (m_notes m') = list_told "alt-svc" due headers ++ list_told "alt-svc" due trailers.
Proof.
  intros e rel top headers chunks complete trailers t start nc head base m' rel' E Ht H1 H2. exists services_b. split.
  - intros ms. eexists. split; [reflexivity|]. rewrite andb_true_iff, existsb_exists, Nat.ltb_lt. split.
    + intros [(x & Hx & Q) L]. apply str_eqb_eq in Q. subst. split; [exact Hx|exact L].
    + intros [Hx L]. split; [exists (u "clear"); split; [exact Hx|apply str_eqb_refl]|exact L].
  - apply (whole_due [ALTSVC_CLEAR_LIST] [] F_alt_svc "alt-svc" e rel top headers chunks complete trailers t start nc head base m' rel' E) with (g := fun v => if str_eqb v (u "clear") || has_chr 61 v then [VStr v] else []).
    + its_type.
    + reflexivity.
    + intros x. unfold eva. cbn [eval_of]. unfold keep, ev_alt_svc. nks.
    + exact H1.
    + exact H2.
    + intros v s. unfold par. cbn [parse_of]. unfold p_alt_svc. destruct (str_eqb v _); [reflexivity|]. destruct (has_chr 61 v); reflexivity.
    + intros v. unfold par. cbn [parse_of]. unfold p_alt_svc. destruct (str_eqb v (u "clear")) eqn:Q; [apply str_eqb_eq in Q; subst; reflexivity|]. destruct (has_chr 61 v); reflexivity.
    + intros ms s. unfold eva. cbn [eval_of]. rewrite keep_fst. unfold ev_alt_svc. cbn [Types.h_val blank_of].
      assert (F : flat_map (fun v => if str_eqb v (u "clear") || has_chr 61 v then [VStr v] else []) ms = map VStr (kept_services ms)).
      { unfold kept_services. induction ms as [|v ms IH]; [reflexivity|]. cbn [flat_map filter]. destruct (str_eqb v (u "clear") || has_chr 61 v); cbn [map app]; rewrite IH; reflexivity. }
      rewrite F. unfold services_b. generalize (kept_services ms) as l. intros l. rewrite map_length. replace (existsb (fun x => eq_text x (u "clear")) (map VStr l)) with (existsb (fun m => str_eqb m (u "clear")) l).
      * destruct (existsb _ l && Nat.ltb 1 (List.length l)); reflexivity.
      * induction l as [|x l IH]; [reflexivity|]. cbn [map existsb]. rewrite IH. reflexivity.
Qed.
Print Assumptions C51_alt_svc.

(** ** Content-Language *)
Theorem C51_content_language : forall e rel top headers chunks complete trailers t start nc head base m' rel',
  lint e rel top headers chunks complete trailers (new_linter t start nc head base) = (m', rel', Ok tt) ->
  hyphened (u "content-language") headers -> hyphened (u "content-language") trailers ->
  exists due, (forall ms, languages_due ms (due ms))
    /\ heard (classes [CONTENT_LANGUAGE_DUP]) [u "lang"] (m_notes m') = list_told "content-language" due headers ++ list_told "content-language" due trailers.
Proof.
  intros e rel top headers chunks complete trailers t start nc head base m' rel' E H1 H2. exists (fun ms => map (fun x => (CONTENT_LANGUAGE_DUP, [Some (VStr x)])) (py_set e (dups (map lower ms)))). split.
  - intros ms. exists (py_set e (dups (map lower ms))). split; [reflexivity|]. split; [apply py_set_NoDup|]. intros x. rewrite py_set_In.
    destruct (dups_twice (map lower ms)) as (_ & _ & T). specialize (T x). destruct (sorted_perm (dups (map lower ms))) as [P _].
    rewrite <- T. split; apply Permutation.Permutation_in; [symmetry; exact P|exact P].
  - apply (whole_due [CONTENT_LANGUAGE_DUP] [u "lang"] F_content_language "content-language" e rel top headers chunks complete trailers t start nc head base m' rel' E) with (g := fun v => [VStr (lower v)]).
    + its_type.
    + reflexivity.
    + intros x. unfold eva. cbn [eval_of]. unfold keep, ev_content_language. nks.
    + exact H1.
    + exact H2.
    + reflexivity.
    + reflexivity.
    + intros ms s. unfold eva. cbn [eval_of]. rewrite keep_fst. unfold ev_content_language. cbn [Types.h_val blank_of cx_env].
      assert (F : flat_map (fun v => [VStr (lower v)]) ms = map VStr (map lower ms)) by (induction ms as [|v ms IH]; [reflexivity|]; cbn [flat_map map app]; rewrite IH; reflexivity).
      rewrite F, strs_list, lift_ok. generalize (py_set e (dups (map lower ms))) as l. intros l. rewrite map_map. cbn [fst snd].
      replace (fst (iterW (fun x => add_note CONTENT_LANGUAGE_DUP [vs "lang" x]) l)) with (fst (iterW (fun x => add_note CONTENT_LANGUAGE_DUP [vs "lang" x]) l ;;; ret tt)).
      * rewrite bind_iter by reflexivity. cbn [ret fst]. rewrite app_nil_r. induction l as [|x l IH]; [reflexivity|]. cbn [flat_map map]. rewrite speak_app, IH. reflexivity.
      * unfold bind. destruct (iterW _ l) as [a [[]|y]]; cbn [ret fst]; [apply app_nil_r|reflexivity].
Qed.
Print Assumptions C51_content_language.

(** ** Pragma *)
Theorem C51_pragma : forall e rel top headers chunks complete trailers t start nc head base m' rel',
  lint e rel top headers chunks complete trailers (new_linter t start nc head base) = (m', rel', Ok tt) -> t = MRequest ->
  exists due, (forall ms, pragma_due ms (due ms))
    /\ heard (classes [PRAGMA_OTHER]) [] (m_notes m') = list_told "pragma" due headers ++ list_told "pragma" due trailers.
Proof.
  intros e rel top headers chunks complete trailers t start nc head base m' rel' E Ht. exists (fun ms => told_once (existsb (fun m => negb (str_eqb (lower m) (u "no-cache"))) ms) PRAGMA_OTHER []). split.
  - intros ms. eexists. split; [reflexivity|]. rewrite existsb_exists. split; intros (x & Hx & Q); exists x; (split; [exact Hx|]).
    + intros X. rewrite X, str_eqb_refl in Q. discriminate.
    + apply negb_true_iff. destruct (str_eqb (lower x) (u "no-cache")) eqn:X; [|reflexivity]. apply str_eqb_eq in X. congruence.
  - apply (whole_due [PRAGMA_OTHER] [] F_pragma "pragma" e rel top headers chunks complete trailers t start nc head base m' rel' E) with (g := fun v => [VStr (lower v)]).
    + subst t. vm_compute. reflexivity.
    + reflexivity.
    + intros x. unfold eva. cbn [eval_of]. unfold keep, ev_pragma. nks.
    + apply unhyphened; reflexivity.
    + apply unhyphened; reflexivity.
    + reflexivity.
    + reflexivity.
    + intros ms s. unfold eva. cbn [eval_of]. rewrite keep_fst. unfold ev_pragma. cbn [Types.h_val blank_of as_list]. rewrite lift_ok.
      replace (existsb (fun x => negb (eq_text x (u "no-cache"))) (flat_map (fun v => [VStr (lower v)]) ms)) with (existsb (fun m => negb (str_eqb (lower m) (u "no-cache"))) ms).
      * destruct (existsb _ ms); reflexivity.
      * induction ms as [|x ms IH]; [reflexivity|]. cbn [flat_map app existsb]. rewrite IH. reflexivity.
Qed.
Print Assumptions C51_pragma.

(** ** Via *)
Theorem C51_via : forall e rel top headers chunks complete trailers t start nc head base m' rel',
  lint e rel top headers chunks complete trailers (new_linter t start nc head base) = (m', rel', Ok tt) ->
  heard (classes [VIA_PRESENT]) [u "via_list"] (m_notes m') = list_told "via" via_due headers ++ list_told "via" via_due trailers.
Proof.
  intros e rel top headers chunks complete trailers t start nc head base m' rel' E.
  apply (whole_due [VIA_PRESENT] [u "via_list"] F_via "via" e rel top headers chunks complete trailers t start nc head base m' rel' E) with (g := fun v => [VStr v]).
  - its_type.
  - reflexivity.
  - intros x. unfold eva. cbn [eval_of]. unfold keep, ev_via. nks.
  - apply unhyphened; reflexivity.
  - apply unhyphened; reflexivity.
  - reflexivity.
  - reflexivity.
  - intros ms s. unfold eva. cbn [eval_of]. rewrite keep_fst. unfold ev_via. cbn [Types.h_val blank_of].
    assert (F : flat_map (fun v => [VStr v]) ms = map VStr ms) by (induction ms as [|v ms IH]; [reflexivity|]; cbn [flat_map map app]; rewrite IH; reflexivity).
    rewrite F, strs_list, lift_ok. reflexivity.
Qed.
Print Assumptions C51_via.

(** ** Server *)
Theorem C51_server : forall e rel top headers chunks complete trailers t start nc head base m' rel',
  lint e rel top headers chunks complete trailers (new_linter t start nc head base) = (m', rel', Ok tt) -> t <> MRequest ->
  exists due, (forall v, server_due v (due v))
    /\ reports [SERVER_TOO_LONG] (m_notes m') = element_notes t "server" due headers trailers.
Proof.
  intros e rel top headers chunks complete trailers t start nc head base m' rel' E Ht. exists (fun v => only (Nat.ltb 64 (List.length v)) SERVER_TOO_LONG). split.
  - intros v. eexists. split; [reflexivity|]. apply Nat.ltb_lt.
  - apply (elements_due [SERVER_TOO_LONG] F_server "server" e rel top headers chunks complete trailers t start nc head base m' rel' E).
    + its_type.
    + reflexivity.
    + reflexivity.
    + apply unhyphened; reflexivity.
    + apply unhyphened; reflexivity.
    + intros v s. unfold par. cbn [parse_of]. unfold p_server. destruct (Nat.ltb 64 _); reflexivity.
Qed.
Print Assumptions C51_server.

(** ** Server-Timing *)
Lemma iter_in {A} (g : A -> W unit) l : (forall a, In a l -> snd (g a) = Ok tt) -> fst (iterW g l) = flat_map (fun a => fst (g a)) l.
Proof.
  intros H. unfold iterW. assert (M : fst (mapW g l) = flat_map (fun a => fst (g a)) l /\ exists bs, snd (mapW g l) = Ok bs).
  { induction l as [|a l IH]; [split; [reflexivity|eexists; reflexivity]|]. destruct IH as [I1 (bs & I2)]; [intros; apply H; right; assumption|]. cbn [mapW flat_map].
    pose proof (H a (or_introl eq_refl)) as Ha. destruct (g a) as [l1 [[]|x]]; cbn [snd] in Ha; [|discriminate]. destruct (mapW g l) as [l2 r]. cbn [fst snd] in I1, I2. subst r l2. unfold bind, ret. cbn [fst snd app].
    rewrite app_nil_r. split; [reflexivity|eexists; reflexivity]. }
  destruct M as [M1 (bs & M2)]. destruct (mapW g l) as [l2 r]. cbn [fst snd] in M1, M2. subst r. unfold bind, ret. cbn [fst]. rewrite app_nil_r. exact M1.
Qed.
Definition metric_b (e : env) (m : str) : list (nid * list (option pyval)) :=
  let d := parameters e (NoStarList [u "desc"]) m in let name := Some (VStr (strip (before_semi m))) in
  told_once (match dget (u "dur") d with Some (Some _) => false | _ => true end) SERVER_TIMING_MISSING_DUR [name]
  ++ told_once (match dget (u "dur") d with Some (Some s) => match py_float s with None => true | _ => false end | _ => false end) SERVER_TIMING_BAD_PARAM [name]
  ++ told_once (match dget (u "desc") d with None => true | _ => false end) SERVER_TIMING_MISSING_DESC [name].
Lemma metric_ok e m : metric_due e m (metric_b e m).
Proof.
  unfold metric_due, metric_b. cbv zeta. set (d := parameters e _ m). clearbody d. do 3 eexists. split; [reflexivity|]. split; [|split].
  - destruct (dget (u "dur") d) as [[s|]|]; split; intros H; try discriminate; try reflexivity; try (intros x; discriminate). destruct (H s eq_refl).
  - destruct (dget (u "dur") d) as [[s|]|]; [|split; [discriminate|intros (x & X & _); discriminate]|split; [discriminate|intros (x & X & _); discriminate]].
    destruct (py_float s) eqn:F; split; intros H; try discriminate; try reflexivity.
    + destruct H as (x & X & Y). injection X as <-. congruence.
    + eauto.
  - destruct (dget (u "desc") d); split; congruence.
Qed.
Lemma dget_map {A B} (g : A -> B) k (d : dict A) : dget k (map (fun kv => (fst kv, g (snd kv))) d) = option_map g (dget k d).
Proof. induction d as [|[x y] d IH]; [reflexivity|]. cbn [map dget fst snd]. destruct (str_eqb k x); [reflexivity|exact IH]. Qed.
Definition timing_item (e : env) (v : str) : pyval := VTuple [VStr (strip (before_semi v)); param_dict_val (parameters e (NoStarList [u "desc"]) v)].
Lemma timing_items e (vs : list str) : mapR text_params (flat_map (fun v => [timing_item e v]) vs)
  = Ok (map (fun v => (strip (before_semi v), map (fun kv => (fst kv, opt_str (snd kv))) (parameters e (NoStarList [u "desc"]) v))) vs).
Proof. induction vs as [|v vs IH]; [reflexivity|]. cbn [flat_map app map mapR]. rewrite IH. reflexivity. Qed.
Definition timing_one (x : str * dict pyval) : W unit :=
  let m := vs "metric" (fst x) in
  match dget (u "dur") (snd x) with
  | None | Some VNone => add_note SERVER_TIMING_MISSING_DUR [m]
  | Some (VStr d) => when (match py_float d with None => true | Some _ => false end) (add_note SERVER_TIMING_BAD_PARAM [m; vl "param" "dur"; vs "value" d])
  | Some _ => raise EType
  end ;;;
  when (negb (dmem (u "desc") (snd x))) (add_note SERVER_TIMING_MISSING_DESC [m]).
Lemma timing_one_ok e v : let x := (strip (before_semi v), map (fun kv => (fst kv, opt_str (snd kv))) (parameters e (NoStarList [u "desc"]) v)) in
  snd (timing_one x) = Ok tt /\ forall s, speak (classes timing_classes) [u "metric"] s (fst (timing_one x)) = map (fun y => (fst y, s, snd y)) (metric_b e v).
Proof.
  unfold timing_one, metric_b. cbn [fst snd]. set (d := parameters e _ v). clearbody d. unfold dmem. rewrite !dget_map.
  destruct (dget (u "dur") d) as [[w|]|]; cbn [option_map opt_str]; [destruct (py_float w)| |]; (destruct (dget (u "desc") d) as [y|]; split; [reflexivity|intros s0; reflexivity|reflexivity|intros s0; reflexivity]).
Qed.
Theorem C51_server_timing : forall e rel top headers chunks complete trailers t start nc head base m' rel',
  lint e rel top headers chunks complete trailers (new_linter t start nc head base) = (m', rel', Ok tt) -> t <> MRequest ->
  hyphened (u "server-timing") headers -> hyphened (u "server-timing") trailers ->
  exists due, (forall ms, timing_due e ms (due ms))
    /\ heard (classes timing_classes) [u "metric"] (m_notes m') = list_told "server-timing" due headers ++ list_told "server-timing" due trailers.
Proof.
  intros e rel top headers chunks complete trailers t start nc head base m' rel' E Ht H1 H2. exists (fun ms => concat (map (metric_b e) ms)). split.
  - intros ms. exists (map (metric_b e) ms). split; [|reflexivity]. induction ms as [|m ms IH]; constructor; [apply metric_ok|exact IH].
  - apply (whole_due timing_classes [u "metric"] F_server_timing "server-timing" e rel top headers chunks complete trailers t start nc head base m' rel' E) with (g := fun v => [timing_item e v]).
    + its_type.
    + reflexivity.
    + intros x. unfold eva. cbn [eval_of]. unfold keep, ev_server_timing. nks.
    + exact H1.
    + exact H2.
    + intros v s. unfold par. cbn [parse_of]. unfold p_server_timing. rewrite semi_split. cbn [cx_env]. apply hush_bind; [apply params_hush; reflexivity|]. intros d. apply hush_ret.
    + intros v. unfold par. cbn [parse_of]. unfold p_server_timing. rewrite semi_split. cbn [cx_env]. destruct (parameters_eq e (NoStarList [u "desc"]) v) as (l & El). rewrite El. reflexivity.
    + intros ms s. unfold eva. cbn [eval_of]. rewrite keep_fst. unfold ev_server_timing. cbn [Types.h_val blank_of as_list rbind]. rewrite timing_items, lift_ok. fold timing_one.
      set (l := map _ ms).
      rewrite (iter_in timing_one).
      * unfold l. clear l. induction ms as [|m ms IH]; [reflexivity|]. cbn [map flat_map concat]. rewrite speak_app, map_app, IH. f_equal. apply timing_one_ok.
      * intros x Hx. apply in_map_iff in Hx as (v & <- & _). apply timing_one_ok.
Qed.
Print Assumptions C51_server_timing.
(** ** Examples *)
Definition plain_sample : list rawline := raws [("Alt-Svc", "clear, h2=x"); ("Content-Language", "en, EN, fr, fr"); ("Via", "1.1 a"); ("Server", "abc"); ("Server-Timing", "db;dur=1;desc=x, c;dur=z, d"); ("Via", "1.0 b")]%string.
Example C51_hyph : hyphened (u "alt-svc") plain_sample /\ hyphened (u "content-language") plain_sample /\ hyphened (u "server-timing") plain_sample.
Proof. repeat split; apply hyphened_dec; vm_compute; reflexivity. Qed.
Example C51_ex : let '(m, _, r) := lint env0 None (TopResponse (u "1.1") (u "200") None) plain_sample [] true [] (new_linter MResponse None false false []) in
  r = Ok tt /\ heard (classes [ALTSVC_CLEAR_LIST]) [] (m_notes m) = [(ALTSVC_CLEAR_LIST, u "field-alt-svc", [])]
  /\ map (fun x => snd x) (heard (classes [CONTENT_LANGUAGE_DUP]) [u "lang"] (m_notes m)) = [[Some (VStr (u "en"))]; [Some (VStr (u "fr"))]]
  /\ map (fun x => fst (fst x)) (heard (classes [VIA_PRESENT]) [] (m_notes m)) = [VIA_PRESENT] /\ reports [SERVER_TOO_LONG] (m_notes m) = []
  /\ map (fun x => (fst (fst x), snd x)) (heard (classes timing_classes) [u "metric"] (m_notes m))
     = [(SERVER_TIMING_BAD_PARAM, [Some (VStr (u "c"))]); (SERVER_TIMING_MISSING_DESC, [Some (VStr (u "c"))]); (SERVER_TIMING_MISSING_DUR, [Some (VStr (u "d"))]); (SERVER_TIMING_MISSING_DESC, [Some (VStr (u "d"))])].
Proof. vm_compute. repeat split. Qed.
Example C51_pragma_ex : let '(m, _, r) := lint env0 None (TopRequest (u "GET") (u "/") (u "1.1")) (raws [("Pragma", "No-Cache, x")]%string) [] true [] (new_linter MRequest None false false []) in
  r = Ok tt /\ map (fun x => fst (fst x)) (heard (classes [PRAGMA_OTHER]) [] (m_notes m)) = [PRAGMA_OTHER].
Proof. vm_compute. repeat split. Qed.
