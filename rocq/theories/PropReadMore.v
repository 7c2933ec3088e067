(** * The values of Content-Encoding, Location, Strict-Transport-Security, NEL and Report-To (C73). *)
From Verif Require Import PyStr Regex Grammar NoteTable Note PyLib Utils FieldAttrs Types Fields1 Fields2 Fields3 Framework Checks Message
  EvLogic NoteLemmas TestEnv LexLemmas ParamLemmas NumLemmas PassParse PassFrame Session SessionLemmas SecNotes SecValues LintLemmas FieldSpec PropFields PropValues PropNames PropTop OwnLemmas FieldExamples
  FieldDue OwnTac OriginSpec PropStart HstsSpec PropHsts PropReading ReadMoreSpec.
Open Scope N_scope.

Theorem C73_content_encoding : forall e t start base hs ts m' tr,
  run_of e t start base hs ts m' -> unpadded (u "content-encoding") (section_lines tr hs ts) ->
  value_in tr (u "content-encoding") m' = match values (u "content-encoding") (section_lines tr hs ts) with
    | [] => None | _ => Some (VList (map (fun v => VStr (lower v)) (members (u "content-encoding") (section_lines tr hs ts)))) end.
Proof.
  intros e t start base hs ts m' tr R U. rewrite (value_here _ _ _ _ _ _ _ _ _ R U) by (destruct t; reflexivity).
  unfold members. destruct (values _ _) as [|v l]; [reflexivity|]. cbv zeta. change (find_class (u "content-encoding")) with F_content_encoding. cbn [kind_of attrs fa_kind].
  change (kind_of F_content_encoding) with KList. cbv iota. f_equal. cbn [settled]. f_equal. generalize (v :: l) as ls. intros ls.
  induction ls as [|x ls IH]; [reflexivity|]. cbn [flat_map]. rewrite !map_app, IH. f_equal. clear. induction (split_list_field x) as [|y ys IH]; [reflexivity|]. cbn [flat_map map]. rewrite IH.
  assert (P : parsed_as e (new_linter t start false false base) F_content_encoding y = [VStr (lower (strip y))]) by (unfold parsed_as; cbn [parse_of]; unfold p_content_encoding, related_request; destruct t; reflexivity).
  rewrite P. reflexivity.
Qed.
Print Assumptions C73_content_encoding.
Theorem C73_location : forall e t start base hs ts m' tr, t <> MRequest ->
  run_of e t start base hs ts m' -> unpadded (u "location") (section_lines tr hs ts) ->
  match first_line (u "location") (section_lines tr hs ts) with
  | None => value_in tr (u "location") m' = None
  | Some v => exists x, location_read (e_urljoin e base) v x /\ value_in tr (u "location") m' = Some x
  end.
Proof.
  intros e t start base hs ts m' tr Ht R U. rewrite (single_value _ _ _ _ _ _ _ _ _ R U) by (destruct t; [congruence|reflexivity|reflexivity]).
  destruct (first_line _ _) as [v|]; [|reflexivity]. change (find_class (u "location")) with F_location. cbn [parse_of].
  eexists. split; [|reflexivity]. unfold p_location. cbn [cx_env cx_msg]. rewrite snd_skip by apply snd_when.
  pose proof (match_ws_dollar_spec rfc3986_URI v) as S. unfold location_read. change (is_uri v) with (exists a w b, v = a ++ w ++ b /\ forallb isspace a = true /\ forallb isspace b = true /\ lang rfc3986_URI w).
  change (m_base _) with base. destruct (match_ws_dollar rfc3986_URI v); cbn [negb].
  - left. split; [left; apply S; reflexivity|reflexivity].
  - assert (N : ~ exists a w b, v = a ++ w ++ b /\ forallb isspace a = true /\ forallb isspace b = true /\ lang rfc3986_URI w) by (intros H; apply S in H; discriminate).
    destruct (e_urljoin e base v) as [full|p] eqn:Ej.
    + left. split; [right; eauto|reflexivity].
    + right. split; [exact N|]. split; [eauto|reflexivity].
Qed.
Print Assumptions C73_location.
Theorem C73_hsts : forall e t start base hs ts m' tr, t <> MRequest ->
  run_of e t start base hs ts m' -> unpadded (u "strict-transport-security") (section_lines tr hs ts) ->
  match first_line (u "strict-transport-security") (section_lines tr hs ts) with
  | None => value_in tr (u "strict-transport-security") m' = None
  | Some v => exists x, hsts_value v x /\ value_in tr (u "strict-transport-security") m' = Some x
  end.
Proof.
  intros e t start base hs ts m' tr Ht R U. rewrite (single_value _ _ _ _ _ _ _ _ _ R U) by (destruct t; [congruence|reflexivity|reflexivity]).
  destruct (first_line _ _) as [v|]; [|reflexivity]. change (find_class (u "strict-transport-security")) with F_strict_transport_security. cbn [parse_of]. rewrite p_hsts_ok. cbn [snd].
  exists (hsts_val (state_of (ds_of v))). split; [|reflexivity]. exists (ds_of v), (tr_of v), (opt_int (age_of (ds_of v))). split; [apply read_ok|]. split; [|reflexivity].
  unfold age_of. pose proof (ds_stripped v) as S. rewrite Forall_forall in S. unfold first_named. match goal with |- context [find ?f (ds_of v)] => destruct (find f (ds_of v)) as [[n [s|]]|] eqn:F end; cbn [option_map snd].
  - apply find_some in F as [F _]. destruct (py_int s) as [z|] eqn:Ei; cbn [opt_int].
    + exists s. split; [reflexivity|]. apply (py_int_spec s z (S _ F s eq_refl)), Ei.
    + intros s' z Es H. injection Es as <-. apply (py_int_spec s z (S _ F s eq_refl)) in H. congruence.
  - cbn [opt_int]. intros s' z Es. discriminate.
  - cbn [opt_int]. intros s' z Es. discriminate.
Qed.
Print Assumptions C73_hsts.
Theorem C73_json : forall e t start base hs ts m' tr k, In k ["nel"; "report-to"]%string -> t <> MRequest ->
  run_of e t start base hs ts m' -> unpadded (u k) (section_lines tr hs ts) ->
  value_in tr (u k) m' = match values (u k) (section_lines tr hs ts) with
    | [] => None
    | l => Some (match e_json e (json_lines l) with JOk js => VList (map json_val js) | _ => VNone end)
    end.
Proof.
  intros e t start base hs ts m' tr k I Ht R U.
  assert (K : kind_of (find_class (u k)) = KJson /\ processed t (u k) = true) by (destruct I as [<-|[<-|[]]]; destruct t; try congruence; split; vm_compute; reflexivity).
  destruct K as [K P]. rewrite (value_here _ _ _ _ _ _ _ _ _ R U P). destruct (values _ _) as [|v l]; [reflexivity|]. cbv zeta. rewrite K. reflexivity.
Qed.
Print Assumptions C73_json.
Definition more_sample : list rawline := raws [("Content-Encoding", "GZip, x"); ("content-encoding", "BR"); ("Location", "/a"); ("Strict-Transport-Security", "Preload; max-age=7;max-age=8")]%string.
Example C73_ex : let '(m, _, r) := lint env0 None (TopResponse (u "1.1") (u "200") None) more_sample [] true [] (new_linter MResponse None false false (u "http://x/")) in
  r = Ok tt /\ value_in false (u "content-encoding") m = Some (VList [VStr (u "gzip"); VStr (u "x"); VStr (u "br")])
  /\ value_in false (u "strict-transport-security") m = Some (VDict [(u "max-age", VInt 7); (u "includesubdomains", VBool false); (u "preload", VBool true)]).
Proof. vm_compute. repeat split. Qed.
Example C73_hyp : unpadded (u "content-encoding") more_sample /\ unpadded (u "location") more_sample.
Proof. split; apply unpadded_dec; vm_compute; reflexivity. Qed.
