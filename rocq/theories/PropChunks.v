(** * C01 and C27 for whole runs: the body does not depend on how it is cut. *)
From Coq Require Import Lia.
From Verif Require Import PyStr Regex Grammar NoteTable Note PyLib Utils FieldAttrs Types Fields1 Framework Checks Message
  NoteLemmas TestEnv ContentLemmas GzipLemmas PipeLemmas FrameLemmas BodyLemmas PropContent Session SessionLemmas PassRun
  SectionLemmas SecNotes SecValues LintLemmas FieldSpec PropFields PropValues OwnLemmas FieldExamples.
Open Scope N_scope.

(** The content codings of a message, in the order of the field: the list
    members of all its Content-Encoding lines, in lower case. *)
Definition codings (headers : list rawline) : list str :=
  map (fun v => lower (strip v)) (flat_map split_list_field (values (u "content-encoding") headers)).

Lemma start_unfed e top m : unfed m -> unfed (fst (start_line e top m)).
Proof.
  intros H. destruct top as [|a b c|a b c]; cbn [start_line]; [exact H| |].
  - unfold process_request_topline, set_uri. destruct (iri_to_uri _ _) as [uri|x]; [|destruct (is_ValueError x)]; cbn [fst]; auto.
    destruct (match_ws_dollar _ _); destruct (Nat.ltb _ _); cbn [fst]; auto.
  - cbn [fst]. unfold process_response_topline. destruct (py_int _); destruct c as [[|x c]|]; auto; destruct (decode_ascii_strict _); auto.
Qed.
Lemma start_untouched e top m : untouched m -> untouched (fst (start_line e top m)).
Proof.
  intros H. destruct top as [|a b c|a b c]; cbn [start_line]; [exact H|apply request_topline_frame, H|apply response_topline_frame, H].
Qed.
Lemma headers_sec e rel l m m' : process_headers e rel l m = (m', Ok tt) -> exists m1, process e rel false m l = (m1, Ok tt) /\ m_headers m' = m_headers m1.
Proof.
  unfold process_headers. destruct (process e rel false m l) as [m1 [[]|x]]; [|discriminate]. intros E. exists m1. split; [reflexivity|]. revert E.
  destruct (m_get m1 "content-type") as [v|]; [|intros E; injection E as <-; reflexivity]. destruct (rbind _ _) as [ps|x]; [|discriminate].
  destruct (dget _ ps) as [[]|]; try (intros E; injection E as <-; reflexivity). destruct (e_codec e s) as [|[]]; try discriminate; intros E; injection E as <-; reflexivity.
Qed.
Lemma codings_value e V headers : nonempty (values (u "content-encoding") headers) = true ->
  field_value e V (u "content-encoding") (values (u "content-encoding") headers) = VList (map VStr (codings headers)).
Proof.
  intros _. unfold field_value, codings. change (find_class (u "content-encoding")) with F_content_encoding. change (kind_of F_content_encoding) with KList.
  assert (A : accepted (m_type V) (u "content-encoding") = true) by (destruct (m_type V); reflexivity). rewrite A. cbn [settled]. f_equal.
  rewrite <- flat_map_flat_map. generalize (flat_map split_list_field (values (u "content-encoding") headers)). intros l. induction l as [|v l IH]; [reflexivity|].
  cbn [flat_map map]. rewrite IH. unfold parsed_as. cbn [parse_of]. unfold p_content_encoding, related_request. cbn [cx_rel]. destruct (is_response _); reflexivity.
Qed.
Lemma run_codings e rel top headers t start nc head base ms mh : start_line e top (new_linter t start nc head base) = (ms, Ok tt) ->
  unpadded (u "content-encoding") headers -> process_headers e rel headers ms = (mh, Ok tt) ->
  unfed mh /\ m_no_content mh = nc /\ get_or mh "content-encoding" (VList []) = VList (map VStr (codings headers)).
Proof.
  intros Es Hu Eh.
  assert (Us : unfed ms) by (change ms with (fst (ms, @Ok unit tt)); rewrite <- Es; apply start_unfed; repeat split).
  assert (Uu : untouched ms) by (change ms with (fst (ms, @Ok unit tt)); rewrite <- Es; apply start_untouched; repeat split).
  assert (Ns : m_no_content ms = nc). { pose proof (setup_start e top (new_linter t start nc head base)) as S. rewrite Es in S. cbn [fst] in S. injection S as _ _ S _ _. exact S. }
  split; [|split].
  - change mh with (fst (mh, @Ok unit tt)). rewrite <- Eh. apply unfed_headers, Us.
  - pose proof (setup_headers e rel headers ms) as S. rewrite Eh in S. cbn [fst] in S. injection S as _ _ S _ _. rewrite S. exact Ns.
  - apply unpadded_apart in Hu as [Hk Ha]. destruct (headers_sec _ _ _ _ _ Eh) as (m1 & E1 & H1). destruct Uu as (U1 & _).
    pose proof (process_value e rel false ms headers m1 _ U1 E1 Hk Ha) as P. cbn [sec] in P.
    unfold get_or, m_get. rewrite H1, P. fold (a_line (u "content-encoding") headers). rewrite a_line_values, values_eq.
    destruct (nonempty _) eqn:Ev; [apply codings_value, Ev|]. unfold codings. destruct (values _ headers); [reflexivity|discriminate].
Qed.

(** Two ways of cutting the body into chunks: the same final linter (but for
    the decoders' private buffers), the same effect on the related linter, the
    same exception if any. *)
Theorem C01_chunking : forall e D B rel top headers c1 c2 complete trailers t start nc head base,
  unpadded (u "content-encoding") headers -> undo_good e D B (codings headers) (concat c1) -> concat c1 = concat c2 ->
  let m := new_linter t start nc head base in
  let '(m1, rel1, r1) := lint e rel top headers c1 complete trailers m in
  let '(m2, rel2, r2) := lint e rel top headers c2 complete trailers m in
  m_set_pipeline None m1 = m_set_pipeline None m2 /\ rel1 = rel2 /\ r1 = r2.
Proof.
  intros e D B rel top headers c1 c2 complete trailers t start nc head base Hu HX Ec m. unfold lint, then_.
  destruct (start_line e top m) as [ms [[]|x]] eqn:Es; [|auto].
  destruct (process_headers e rel headers ms) as [mh [[]|x]] eqn:Eh; [|auto].
  destruct (run_codings _ _ _ _ _ _ _ _ _ _ _ Es Hu Eh) as (U & _ & G).
  exact (lint_split e D B (codings headers) mh c1 c2 rel complete trailers U G HX Ec).
Qed.
Print Assumptions C01_chunking.
(** What the linter has of the body in the end. *)
Theorem C01_values : forall e D B rel top headers chunks complete trailers t start head base m' rel',
  lint e rel top headers chunks complete trailers (new_linter t start false head base) = (m', rel', Ok tt) ->
  unpadded (u "content-encoding") headers -> undo_good e D B (codings headers) (concat chunks) ->
  m_clen m' = N.of_nat (length (concat chunks))
  /\ m_hash m' = Some (e_md5 e (concat chunks))
  /\ m_sample m' = firstn (N.to_nat 8192) (undo D B (codings headers) (concat chunks))
  /\ m_dec_len m' = N.of_nat (length (undo D B (codings headers) (concat chunks))).
Proof.
  intros e D B rel top headers chunks complete trailers t start head base m' rel' E Hu HX. unfold lint, then_ in E.
  destruct (start_line e top _) as [ms [[]|x]] eqn:Es; [|discriminate]. destruct (process_headers e rel headers ms) as [mh [[]|x]] eqn:Eh; [|discriminate].
  destruct (run_codings _ _ _ _ _ _ _ _ _ _ _ Es Hu Eh) as (U & N & G).
  pose proof (lint_values e D B (codings headers) mh chunks rel complete trailers U N G HX) as L. unfold lint_body in L. rewrite E in L. exact L.
Qed.
Print Assumptions C01_values.
(** The length and the hash, whatever the body, the codings and the decoders. *)
Theorem C01_length_hash : forall e rel top headers chunks complete trailers t start nc head base m' rel',
  lint e rel top headers chunks complete trailers (new_linter t start nc head base) = (m', rel', Ok tt) -> unpadded (u "content-encoding") headers ->
  m_clen m' = N.of_nat (length (concat chunks)) /\ m_hash m' = Some (e_md5 e (if nc then [] else concat chunks)).
Proof.
  intros e rel top headers chunks complete trailers t start nc head base m' rel' E Hu. unfold lint, then_ in E.
  destruct (start_line e top _) as [ms [[]|x]] eqn:Es; [|discriminate]. destruct (process_headers e rel headers ms) as [mh [[]|x]] eqn:Eh; [|discriminate].
  destruct (run_codings _ _ _ _ _ _ _ _ _ _ _ Es Hu Eh) as (U & N & G).
  destruct (body_length_hash e mh chunks rel complete trailers _ U G) as [_ L]. unfold lint_body in L. rewrite E, N in L. exact L.
Qed.
Print Assumptions C01_length_hash.
(** Concrete: gzip in a world whose "deflate" is the identity, in two chunkings. *)
Definition gz_lines : list rawline := raws [("Content-Encoding", "GZIP, x-thing"); ("Content-Length", "13")]%string.
Example C01_ex : unpadded (u "content-encoding") gz_lines /\ codings gz_lines = [u "gzip"; u "x-thing"]
  /\ undo_good env0 ident ident (codings gz_lines) (gz_head ++ [1; 2; 3])
  /\ (let run c := lint env0 None NoTop gz_lines c true [] (new_linter MResponse None false false []) in
      let '(m1, _, r1) := run [firstn 4 gz_head; skipn 4 gz_head ++ [1]; []; [2; 3]] in let '(m2, _, r2) := run [gz_head ++ [1; 2; 3]] in
      r1 = Ok tt /\ m_sample m1 = [1; 2; 3] /\ m_set_pipeline None m1 = m_set_pipeline None m2 /\ r2 = Ok tt).
Proof.
  split; [apply unpadded_dec; vm_compute; reflexivity|]. split; [reflexivity|]. split.
  - change (codings gz_lines) with [u "gzip"; u "x-thing"]. split; [split; exact I|]. cbn. apply env0_streams. unfold max_decompressed; cbn; lia.
  - vm_compute. repeat split.
Qed.
(** The condition on the body is needed: what a decoder had put out before an
    error is lost if it came in the same chunk. *)
Theorem C01_refuted : exists e headers c1 c2,
  concat c1 = concat c2 /\ unpadded (u "content-encoding") headers
  /\ let run c := lint e None NoTop headers c true [] (new_linter MResponse None false false []) in
     snd (run c1) = Ok tt /\ snd (run c2) = Ok tt /\ m_sample (fst (fst (run c1))) <> m_sample (fst (fst (run c2))).
Proof.
  exists env_fail, (raws [("Content-Encoding", "br")]%string), [[65; 255]], [[65]; [255]].
  split; [reflexivity|]. split; [apply unpadded_dec; vm_compute; reflexivity|]. split; [vm_compute; reflexivity|]. split; [vm_compute; reflexivity|]. vm_compute. discriminate.
Qed.
Print Assumptions C01_refuted.
