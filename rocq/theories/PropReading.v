(** * The values of fields with a plain reading (C71) *)
From Verif Require Import PyStr Regex Grammar NoteTable Note PyLib Utils FieldAttrs Types Fields1 Fields2 Fields3 Framework Checks Message
  EvLogic NoteLemmas TestEnv LexLemmas ParamLemmas NumLemmas NameLemmas FrameLemmas PassParse PassEval PassFrame PassSec PassProc PassRun Session SessionLemmas
  SectionLemmas SecNotes SecValues LintLemmas FieldSpec FieldDue FieldExamples PropFields PropValues ReadingSpec.
From Verif Require ListSpec CodingSpec PropCodings PropLink.
Open Scope N_scope.

Definition maybe {A} (o : option A) : list A := match o with Some x => [x] | None => [] end.
Definition reads (f : fname) (r : reading) : Prop :=
  (forall e V v, parsed_as e V f v = maybe (read e r (strip v))) /\ (forall x, settled f x = x).

(** ** The parts *)
Lemma params_snd {A} e v n (k : dict (option str) -> W A) :
  snd (d <- parse_params e (CodingSpec.after_semi v) n DSemi ;; k d) = snd (k (CodingSpec.parameters e n v)).
Proof. destruct (PropCodings.parameters_eq e n v) as (l & ->). unfold bind. destruct (k _). reflexivity. Qed.
Lemma tail_snd {A} (m : W unit) (x : A) : snd m = Ok tt -> snd (m ;;; ret x) = Ok x.
Proof. intros H. rewrite (snd_skip m (ret x) H). reflexivity. Qed.
Lemma media_ok mt b r w ck : snd (check_media_type mt b r w ck) = Ok tt.
Proof.
  unfold check_media_type. destruct (partition_chr 47 mt) as [[ty sl] sub].
  assert (B : snd (match b with None => ret tt | Some n => add_note n ((k_value, VStr mt) :: match r with Some r0 => [(u "ref_uri", VStr (u r0))] | None => [] end) end) = Ok tt) by (destruct b; reflexivity).
  cbv zeta. destruct (negb _ || has_chr 47 sub); [exact B|]. destruct (_ && (_ || _)); [exact B|]. destruct (_ && ck); [exact B|].
  rewrite snd_skip by apply snd_when. apply snd_when.
Qed.
Lemma media_read e v b r w n : snd (p <- parse_media_type e v b r w n ;; ret (media_type_val p))
  = Ok (VTuple [VStr (lower (strip (CodingSpec.before_semi v))); param_values (CodingSpec.parameters e n v)]).
Proof.
  unfold parse_media_type. pose proof (PropCodings.semi_split v) as S. unfold split_or in S.
  assert (S2 : match split1 59 v with Some (a, c) => (a, c) | None => (v, []) end = (CodingSpec.before_semi v, CodingSpec.after_semi v)) by (rewrite <- S; destruct (split1 59 v) as [[a c]|]; reflexivity).
  rewrite S2. cbv zeta.
  pose proof (media_ok (lower (strip (CodingSpec.before_semi v))) b r w false) as M. destruct (check_media_type _ b r w false) as [l0 r0]. cbn [snd] in M. subst r0.
  destruct (PropCodings.parameters_eq e n v) as (l & E). unfold bind. rewrite E. reflexivity.
Qed.
Lemma maybe_ok f e V v r x : snd (parse_of f (mkCx e (core V) None) nobody (strip v)) = Ok x -> read e r (strip v) = Some x -> parsed_as e V f v = maybe (read e r (strip v)).
Proof. intros H ->. unfold parsed_as. rewrite H. reflexivity. Qed.
Lemma cut_split s : ListSpec.cut s = match split1 61 s with Some (a, b) => (a, Some b) | None => (s, None) end.
Proof.
  induction s as [|c s IH]; [reflexivity|]. cbn [ListSpec.cut split1]. destruct (c =? 61); [reflexivity|]. rewrite IH. destruct (split1 61 s) as [[a b]|]; reflexivity.
Qed.
Lemma has_exists c s : has_chr c s = existsb (N.eqb c) s.
Proof. reflexivity. Qed.

Ltac known := match goal with |- context [find_class (u ?k)] => let f := eval vm_compute in (find_class (u k)) in change (find_class (u k)) with f end.
Ltac plain_read := split; [intros e V v; first [reflexivity | eapply maybe_ok; [cbn [parse_of]; reflexivity | reflexivity]] | reflexivity].
Definition row_ok (kd : kind) (kr : string * reading) : Prop := kind_of (find_class (u (fst kr))) = kd /\ reads (find_class (u (fst kr))) (snd kr).
Lemma reads_params f n : (forall c h v, parse_of f c h v = let '(enc, ps) := split_or 59 v in d <- parse_params (cx_env c) ps n DSemi ;; ret (VTuple [VStr (lower enc); param_dict_val d])) ->
  (forall x, settled f x = x) -> reads f (WithParams n).
Proof.
  intros H S. split; [|exact S]. intros e V v. eapply maybe_ok; [|reflexivity]. rewrite H. generalize (strip v) as w. intros w. rewrite PropCodings.semi_split. cbn [cx_env]. rewrite params_snd. reflexivity.
Qed.

Lemma reads_media f n : (forall c h v, exists b r w, parse_of f c h v = (p <- parse_media_type (cx_env c) v b r w n ;; ret (media_type_val p))) ->
  (forall x, settled f x = x) -> reads f (MediaType n).
Proof.
  intros H S. split; [|exact S]. intros e V v. eapply maybe_ok; [|reflexivity]. destruct (H (mkCx e (core V) None) nobody (strip v)) as (b & r & w & ->). apply media_read.
Qed.
Lemma reads_disposition : reads F_content_disposition (WithParams NoStarNone).
Proof.
  split; [|reflexivity]. intros e V v. eapply maybe_ok; [|reflexivity]. cbn [parse_of]. generalize (strip v) as w. intros w. unfold p_content_disposition. rewrite PropCodings.semi_split. cbv zeta. cbn [cx_env]. rewrite params_snd.
  rewrite !snd_skip by apply snd_when. reflexivity.
Qed.
Lemma reads_te : reads F_transfer_encoding (WithParams NoStarTrue).
Proof.
  split; [|reflexivity]. intros e V v. eapply maybe_ok; [|reflexivity]. cbn [parse_of]. generalize (strip v) as w. intros w. unfold p_transfer_encoding. rewrite PropCodings.semi_split. cbn [cx_env]. rewrite params_snd.
  rewrite snd_skip by apply snd_when. reflexivity.
Qed.
Lemma reads_timing : reads F_server_timing Metric.
Proof.
  split; [|reflexivity]. intros e V v. eapply maybe_ok; [|reflexivity]. cbn [parse_of]. generalize (strip v) as w. intros w. unfold p_server_timing. rewrite PropCodings.semi_split. cbn [cx_env]. rewrite params_snd. reflexivity.
Qed.
Lemma reads_link : reads F_link Target.
Proof.
  split; [|reflexivity]. intros e V v. eapply maybe_ok; [|reflexivity]. cbn [parse_of]. generalize (strip v) as w. intros w. rewrite PropLink.p_link_eq, PropCodings.semi_split. cbn [cx_env]. rewrite params_snd.
  exact (proj1 (PropLink.link_rest_ok _ _)).
Qed.
Lemma reads_etag : reads F_etag EntityTag.
Proof.
  split; [|reflexivity]. intros e V v. eapply maybe_ok; [|reflexivity]. cbn [parse_of]. generalize (strip v) as w. intros w. unfold p_etag. destruct (str_eqb _ _); reflexivity.
Qed.
Lemma reads_true : reads F_access_control_allow_credentials OnlyTrue.
Proof.
  split; [|reflexivity]. intros e V v. unfold parsed_as. cbn [parse_of read]. generalize (strip v) as w. intros w. unfold p_acac. destruct (str_eqb w (u "true")) eqn:E; [apply str_eqb_eq in E; subst w|]; reflexivity.
Qed.
Lemma reads_alt : reads F_alt_svc AltService.
Proof.
  split; [|reflexivity]. intros e V v. unfold parsed_as. cbn [parse_of read]. generalize (strip v) as w. intros w. unfold p_alt_svc. change (existsb (N.eqb 61) w) with (has_chr 61 w). destruct (str_eqb w (u "clear")) eqn:E; [apply str_eqb_eq in E; subst w; reflexivity|]. destruct (has_chr 61 w); reflexivity.
Qed.
Lemma reads_pair : reads F_keep_alive NameValue.
Proof.
  split; [|reflexivity]. intros e V v. unfold parsed_as. cbn [parse_of read]. generalize (strip v) as w. intros w. unfold p_keep_alive. rewrite cut_split. destruct (split1 61 w) as [[a b]|]; reflexivity.
Qed.
Lemma reads_server : reads F_server AsText.
Proof.
  split; [|reflexivity]. intros e V v. eapply maybe_ok; [|reflexivity]. cbn [parse_of]. unfold p_server. rewrite snd_skip by apply snd_when. reflexivity.
Qed.
Lemma reads_ranges : reads F_accept_ranges InLower.
Proof.
  split; [|reflexivity]. intros e V v. eapply maybe_ok; [|reflexivity]. cbn [parse_of]. unfold p_accept_ranges. cbv zeta. rewrite snd_skip by apply snd_when. reflexivity.
Qed.
Lemma last_chr_last (s : str) x : last_chr (x :: s) = Some (last (x :: s) 0).
Proof. unfold last_chr. destruct (exists_last (l := x :: s)) as (l & y & ->); [discriminate|]. rewrite last_last, rev_app_distr. reflexivity. Qed.
Lemma reads_directive : reads F_clear_site_data Directive.
Proof.
  split; [|reflexivity]. intros e V v. eapply maybe_ok; [|reflexivity]. cbn [parse_of]. generalize (strip v) as w. intros w. unfold p_clear_site_data. cbv zeta.
  assert (Q : match w with 34 :: _ :: _ => match last_chr w with Some 34 => true | _ => false end | _ => false end = (2 <=? length w)%nat && (hd 0 w =? 34) && (last w 0 =? 34)).
  { assert (D : forall (A : Type) n (a b : A), match n with 34 => a | _ => b end = if n =? 34 then a else b) by (intros A n a b; destruct (n =? 34) eqn:E; [apply N.eqb_eq in E; subst; reflexivity|]; destruct n as [|p]; [reflexivity|]; do 6 (destruct p as [p|p|]; try reflexivity); discriminate E).
    destruct w as [|a [|b w]]; [reflexivity|cbn; destruct (a =? 34); rewrite D; destruct (a =? 34); reflexivity|].
    rewrite last_chr_last. rewrite D. rewrite (D _ (last _ _)). cbn [length Nat.leb hd andb]. destruct (a =? 34); [|reflexivity]. destruct (last (a :: b :: w) 0 =? 34); reflexivity. }
  rewrite Q. set (q := (2 <=? length w)%nat && (hd 0 w =? 34) && (last w 0 =? 34)). clearbody q. fold (mid w). generalize (if q then mid w else w) as x. intros x.
  rewrite snd_skip by (destruct (negb q && str_in x csd_known); reflexivity). destruct x as [|c x]; [reflexivity|]. cbn [nonempty negb]. rewrite snd_skip by apply snd_when. reflexivity.
Qed.
Lemma reads_text f : (forall c h v, parse_of f c h v = ret (VStr v)) -> (forall x, settled f x = x) -> reads f AsText.
Proof. intros H S. split; [|exact S]. intros e V v. eapply maybe_ok; [rewrite H; reflexivity|reflexivity]. Qed.
Lemma reads_lower f : (forall c h v, parse_of f c h v = ret (VStr (lower v))) -> (forall x, settled f x = x) -> reads f InLower.
Proof. intros H S. split; [|exact S]. intros e V v. eapply maybe_ok; [rewrite H; reflexivity|reflexivity]. Qed.
Ltac the_row :=
  unfold row_ok; cbn [fst snd]; known; split; [reflexivity|];
  first [ exact reads_disposition | exact reads_te | exact reads_timing | exact reads_link | exact reads_etag | exact reads_true | exact reads_alt | exact reads_pair
        | exact reads_server | exact reads_ranges | exact reads_directive
        | solve [apply reads_text; reflexivity] | solve [apply reads_lower; reflexivity]
        | solve [apply reads_params; reflexivity]
        | solve [apply reads_media; [intros c h v; do 3 eexists; reflexivity|reflexivity]]
        | solve [split; [intros e V v; eapply maybe_ok; [cbn [parse_of]; reflexivity|reflexivity]|reflexivity]]
        | solve [split; [intros e V v; eapply maybe_ok; [cbn [parse_of]; unfold p_tcn; reflexivity|reflexivity]|reflexivity]] ].
Lemma singles_ok : Forall (row_ok KSingleton) singles.
Proof. unfold singles, each. cbn [map app]. repeat (apply Forall_cons; [the_row|]). apply Forall_nil. Qed.
Lemma lists_ok : Forall (row_ok KList) lists.
Proof. unfold lists, each. cbn [map app]. repeat (apply Forall_cons; [the_row|]). apply Forall_nil. Qed.

(** ** The values *)
Definition processed_in (t : mtype) (k : string) : Prop := processed t (u k) = true.
Lemma value_here e t start base hs ts m' tr k : run_of e t start base hs ts m' -> unpadded k (section_lines tr hs ts) -> processed t k = true ->
  value_in tr k m' = match values k (section_lines tr hs ts) with
  | [] => None
  | (v :: _) as l =>
      Some (let f := find_class k in let V := new_linter t start false false base in
            match kind_of f with
            | KSingleton => match parsed_as e V f v with x :: _ => x | [] => VNone end
            | KList => settled f (VList (flat_map (fun v => flat_map (parsed_as e V f) (split_list_field v)) l))
            | KBroken => VList (flat_map (parsed_as e V f) l)
            | KSF t => sf_value e t f (strip (join (u ", ") l))
            | KJson => match e_json e (u "[" ++ join (u ", ") l ++ u "]") with JOk l => VList (map json_val l) | _ => VNone end
            | KUnknown => VList []
            end)
  end.
Proof.
  intros R U P. rewrite (run_value _ _ _ _ _ _ _ _ _ R U). destruct (values k _) as [|v more]; [reflexivity|]. cbn [nonempty]. f_equal.
  unfold field_value. change (m_type (new_linter t start false false base)) with t. rewrite processed_eq, P. reflexivity.
Qed.
Theorem C71_single : forall e t start base hs ts m' tr k r,
  In (k, r) singles -> run_of e t start base hs ts m' -> unpadded (u k) (section_lines tr hs ts) -> processed t (u k) = true ->
  value_in tr (u k) m' = single_value_is e r (u k) (section_lines tr hs ts).
Proof.
  intros e t start base hs ts m' tr k r I R U P. rewrite (value_here _ _ _ _ _ _ _ _ _ R U P). unfold single_value_is.
  pose proof (proj1 (Forall_forall _ _) singles_ok _ I) as (K & H & _). cbn [fst snd] in K, H. destruct (values (u k) _) as [|v more]; [reflexivity|].
  cbv zeta. rewrite K, H. destruct (read e r (strip v)); reflexivity.
Qed.
Print Assumptions C71_single.
Lemma list_read e V f r vs : (forall e V v, parsed_as e V f v = maybe (read e r (strip v))) ->
  flat_map (fun v => flat_map (parsed_as e V f) (split_list_field v)) vs = flat_map (fun v => maybe (read e r v)) (map strip (flat_map split_list_field vs)).
Proof.
  intros H. induction vs as [|v vs IH]; [reflexivity|]. cbn [flat_map]. rewrite map_app, flat_map_app, IH. f_equal. clear IH. generalize (split_list_field v). intros l.
  induction l as [|x l IH]; [reflexivity|]. cbn [flat_map map]. rewrite H, IH. reflexivity.
Qed.
Lemma list_here e t start base hs ts m' tr k r : reads (find_class k) r -> kind_of (find_class k) = KList ->
  run_of e t start base hs ts m' -> unpadded k (section_lines tr hs ts) -> processed t k = true ->
  value_in tr k m' = list_value_is e r k (section_lines tr hs ts).
Proof.
  intros [H S] K R U P. rewrite (value_here _ _ _ _ _ _ _ _ _ R U P). unfold list_value_is, members. destruct (values k _) as [|v more]; [reflexivity|].
  cbv zeta. rewrite K, S, (list_read e _ _ r _ H). reflexivity.
Qed.
Theorem C71_list : forall e t start base hs ts m' tr k r,
  In (k, r) lists -> run_of e t start base hs ts m' -> unpadded (u k) (section_lines tr hs ts) -> processed t (u k) = true ->
  value_in tr (u k) m' = list_value_is e r (u k) (section_lines tr hs ts).
Proof.
  intros e t start base hs ts m' tr k r I R U P. pose proof (proj1 (Forall_forall _ _) lists_ok _ I) as (K & H). cbn [fst snd] in K, H.
  exact (list_here e t start base hs ts m' tr (u k) r H K R U P).
Qed.
Print Assumptions C71_list.
(** Cookie: a list of pairs for each line. *)
Lemma cookie_read p : cookie_pair p = match strip p with [] => [] | w => match ListSpec.cut w with (n, Some x) => [VTuple [VStr n; VStr x]] | (_, None) => [VTuple [VStr []; VStr w]] end end.
Proof.
  unfold cookie_pair. cbv zeta. generalize (strip p) as w. intros w. destruct w as [|c w]; [reflexivity|]. rewrite (cut_split (c :: w)). cbn [nonempty negb]. destruct (split1 61 (c :: w)) as [[a b]|]; reflexivity.
Qed.
Theorem C71_cookie : forall e start base hs ts m' tr,
  run_of e MRequest start base hs ts m' -> unpadded (u "cookie") (section_lines tr hs ts) ->
  value_in tr (u "cookie") m' = match values (u "cookie") (section_lines tr hs ts) with
                                | [] => None
                                | vs => Some (VList (map (fun v => VList (cookie_pairs (strip v))) vs))
                                end.
Proof.
  intros e start base hs ts m' tr R U. rewrite (value_here _ _ _ _ _ _ _ _ _ R U eq_refl). destruct (values (u "cookie") _) as [|v more]; [reflexivity|]. cbv zeta.
  known. change (kind_of F_cookie) with KBroken. cbv iota. do 2 f_equal. generalize (v :: more). clear. intros l. induction l as [|v l IH]; [reflexivity|]. cbn [flat_map map]. rewrite IH.
  unfold parsed_as at 1. cbn [parse_of]. unfold p_cookie, ret. cbn [snd app]. f_equal. f_equal. unfold cookie_pairs. apply flat_map_ext. exact cookie_read.
Qed.
Print Assumptions C71_cookie.
(** Deprecated and unnecessary fields (C12 says which these are) have no values, one for each member; other unknown fields have an empty list. *)
Theorem C71_ignored : forall e t start base hs ts m' tr k,
  find_class k = F__deprecated \/ find_class k = F__unnecessary -> run_of e t start base hs ts m' -> unpadded k (section_lines tr hs ts) -> processed t k = true ->
  value_in tr k m' = list_value_is e Nothing k (section_lines tr hs ts).
Proof.
  intros e t start base hs ts m' tr k F R U P. refine (list_here e t start base hs ts m' tr k Nothing _ _ R U P); destruct F as [->| ->]; try reflexivity;
    (split; [intros e0 V v; reflexivity|reflexivity]).
Qed.
Print Assumptions C71_ignored.
Theorem C71_unknown : forall e t start base hs ts m' tr k,
  find_class k = F__unknown -> run_of e t start base hs ts m' -> unpadded k (section_lines tr hs ts) ->
  value_in tr k m' = match values k (section_lines tr hs ts) with [] => None | _ => Some (VList []) end.
Proof.
  intros e t start base hs ts m' tr k F R U. rewrite (run_value _ _ _ _ _ _ _ _ _ R U). destruct (values k _) as [|v more]; [reflexivity|]. cbn [nonempty]. f_equal.
  unfold field_value. rewrite F. destruct (accepted _ _); reflexivity.
Qed.
Print Assumptions C71_unknown.

(** ** Example *)
Definition read_lines : list rawline := raws [("ETag", "W/""a\""b"""); ("Allow", "GET , , ""x,y"""); ("allow", "PUT"); ("Alt-Svc", "clear, x, h2=1"); ("X-Frame-Options", "deny"); ("Link", "<http://e/>; rel=next;Title*=utf-8'en'a");
  ("Access-Control-Allow-Credentials", "TRUE"); ("Keep-Alive", "Timeout=""5"", x"); ("Content-Type", "Text/HTML ;charset=UTF-8"); ("X-New", "1"); ("Soapaction", "a"); ("Soapaction", "b"); ("Clear-Site-Data", """cache"", cookies")]%string.
Definition read_run := lint env0 None (TopResponse (u "1.1") (u "200") None) read_lines [] true [] (new_linter MResponse None false false []).
Example C71_ex : snd read_run = Ok tt /\
  map (fun k => value_in false (u k) (fst (fst read_run))) ["etag"; "allow"; "alt-svc"; "x-frame-options"; "access-control-allow-credentials"; "keep-alive"; "x-new"; "clear-site-data"; "via"]%string
  = [Some (VTuple [VBool true; VStr (u "a""b")]); Some (VList [VStr (u "GET"); VStr (u """x,y"""); VStr (u "PUT")]); Some (VList [VStr (u "clear"); VStr (u "h2=1")]); Some (VStr (u "DENY")); Some VNone;
     Some (VList [VTuple [VStr (u "timeout"); VStr (u "5")]; VTuple [VStr (u "x"); VNone]]); Some (VList []); Some (VList [VStr (u "cache"); VStr (u "cookies")]); None]
  /\ value_in false (u "link") (fst (fst read_run)) = Some (VList [VTuple [VStr (u "http://e/"); VDict [(u "rel", VStr (u "next")); (u "title*", VStr (e_unquote env0 (u "a")))]]])
  /\ value_in false (u "content-type") (fst (fst read_run)) = Some (VTuple [VStr (u "text/html"); VDict [(u "charset", VStr (u "UTF-8"))]]).
Proof. vm_compute. repeat split. Qed.
