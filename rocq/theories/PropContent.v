(** * Properties of the message body: C01, C02, C25, C26, C27. *)
From Verif Require Import PyStr Regex Note PyLib Utils FieldAttrs Types Framework Checks Message
  NoteLemmas TestEnv ContentLemmas GzipLemmas PipeLemmas FrameLemmas BodyLemmas.
Open Scope N_scope.

(** ** C01: chunking.

    [lint_body e rel complete tr chunks m] is [feed_content] on each chunk in
    turn, then [finish_content].  [undo_good e D B codings X]: the body [X] is
    free of errors in its codings, decodes to at most 100MB, and the
    decompression libraries are streaming ones ([D], [B] say what they make of
    each prefix).  With no content coding (or unsupported ones) it is no
    condition at all ([C01_no_coding]).

    Two ways of cutting the body give the same message state (notes, lengths,
    hashes, sample, everything) but for the decoders' private buffers, and the
    same exception if any. *)
Theorem body_chunking : forall e D B codings m c1 c2 rel complete tr,
  unfed m ->
  get_or m "content-encoding" (VList []) = VList (map VStr codings) ->
  undo_good e D B codings (concat c1) ->
  concat c1 = concat c2 ->
  let '(m1, rel1, r1) := lint_body e rel complete tr c1 m in
  let '(m2, rel2, r2) := lint_body e rel complete tr c2 m in
  m_set_pipeline None m1 = m_set_pipeline None m2 /\ rel1 = rel2 /\ r1 = r2.
Proof. exact lint_split. Qed.
(** A response with Content-Encoding: gzip in a world whose "deflate" is the
    identity, cut in two ways. *)
Definition gz_head : bytes := [31; 139; 8; 0; 0; 0; 0; 0; 0; 255].
Definition gz_msg : mstate :=
  fst (process_headers env0 None [(u "Content-Encoding", u "GZIP")] (new_message MResponse None false)).
Definition ident (b : bytes) : bytes := b.
Lemma consumed_env0 past todo : used env0 past todo = concat todo.
Proof.
  revert past; induction todo as [|i l IH]; intros past; [reflexivity|]. cbn [used concat].
  change (e_inflate env0 past i) with (@inl (bytes * bytes) str (i, [])). rewrite IH. f_equal.
  cbn [length]. rewrite Nat.sub_0_r. apply firstn_all.
Qed.
Lemma env0_streams Y : N.of_nat (length Y) <= max_decompressed -> inflate_stream env0 ident Y.
Proof.
  intros HY. split; [reflexivity|]. split.
  - intros p [r ->]. rewrite app_length in HY. unfold ident. lia.
  - intros hist input _. exists input, input, []. unfold ident. repeat split; [rewrite app_nil_r; reflexivity|congruence].
Qed.
Example body_chunking_ex :
  unfed gz_msg
  /\ get_or gz_msg "content-encoding" (VList []) = VList (map VStr [u "gzip"])
  /\ undo_good env0 ident ident [u "gzip"] (gz_head ++ [1; 2; 3])
  /\ m_sample (fst (fst (lint_body env0 None true [] [firstn 4 gz_head; skipn 4 gz_head ++ [1]; []; [2; 3]] gz_msg)))
     = [1; 2; 3].
Proof.
  split; [vm_compute; repeat split|]. split; [reflexivity|]. split; [|vm_compute; reflexivity].
  split; [exact I|]. cbn. apply env0_streams. unfold max_decompressed; cbn; lia.
Qed.

(** The values that chunking cannot change. *)
Theorem body_values : forall e D B codings m chunks rel complete tr,
  unfed m -> m_no_content m = false ->
  get_or m "content-encoding" (VList []) = VList (map VStr codings) ->
  undo_good e D B codings (concat chunks) ->
  let m' := fst (fst (lint_body e rel complete tr chunks m)) in
  m_clen m' = N.of_nat (length (concat chunks))
  /\ m_hash m' = Some (e_md5 e (concat chunks))
  /\ m_sample m' = firstn (N.to_nat 8192) (undo D B codings (concat chunks))
  /\ m_dec_len m' = N.of_nat (length (undo D B codings (concat chunks))).
Proof. exact lint_values. Qed.
Example body_values_ex :
  m_hash (fst (fst (lint_body env0 None true [] [gz_head; [7]] gz_msg))) = Some (gz_head ++ [7]).
Proof. vm_compute. reflexivity. Qed.
(** Without a supported coding the body is any list of bytes. *)
Theorem C01_no_coding : forall e D B codings X,
  Forall (fun c => ~ In c [u "gzip"; u "x-gzip"; u "br"]) codings ->
  undo_good e D B codings X /\ undo D B codings X = X.
Proof.
  intros e D B codings X H. induction H as [|c cs Hc _ [IH1 IH2]]; [split; [exact I|reflexivity]|].
  assert (E : str_eqb c (u "gzip") || str_eqb c (u "x-gzip") = false /\ str_eqb c (u "br") = false).
  { rewrite orb_false_iff. repeat split;
      match goal with |- str_eqb c ?x = false => destruct (str_eqb c x) eqn:E; [|reflexivity] end;
      exfalso; apply Hc; apply str_eqb_eq in E; subst; cbn; tauto. }
  destruct E as [E1 E2]. cbn [undo_good undo]. unfold good_one, undo_one. rewrite E1, E2.
  split; [split; [exact IH1|exact I]|exact IH2].
Qed.
Print Assumptions C01_no_coding.
Example C01_no_coding_ex : Forall (fun c => ~ In c [u "gzip"; u "x-gzip"; u "br"]) [u "identity"; u "deflate"].
Proof. repeat constructor; vm_compute; intuition discriminate. Qed.

(** Length and hash of the body: unconditionally (for any decompressors and any
    body), as long as no call raised; and feeding never raises when the
    Content-Encoding value is a list. *)
Theorem body_length_hash : forall e m chunks rel complete tr l,
  unfed m -> get_or m "content-encoding" (VList []) = VList l ->
  snd (feed_all e chunks m) = Ok tt
  /\ let m' := fst (fst (lint_body e rel complete tr chunks m)) in
     m_clen m' = N.of_nat (length (concat chunks))
     /\ m_hash m' = Some (e_md5 e (if m_no_content m then [] else concat chunks)).
Proof.
  intros e m chunks rel complete tr l HU Hg.
  assert (Hok : snd (feed_all e chunks m) = Ok tt).
  { eapply feed_all_ok. unfold pipeline_of. destruct HU as (-> & _). unfold build_pipeline. rewrite Hg. reflexivity. }
  split; [exact Hok|]. exact (lint_length e m chunks rel complete tr HU Hok).
Qed.
Example body_length_hash_ex :
  unfed (new_message MRequest None false)
  /\ get_or (new_message MRequest None false) "content-encoding" (VList []) = VList [].
Proof. split; [apply unfed_new|reflexivity]. Qed.
(** Header processing leaves a new linter ready for the body. *)
Theorem C01_reachable : forall e rel l t start nc,
  unfed (fst (process_headers e rel l (new_message t start nc))).
Proof. exact (fun e rel l t start nc => unfed_headers e rel l _ (unfed_new t start nc)). Qed.
Print Assumptions C01_reachable.

(** The claim as stated (no condition on the body) is false of the code: what a
    decoder had put out before an error is lost if it came in the same chunk. *)
Definition env_fail : env :=
  let e := env0 in
  mkEnv (e_sf_item e) (e_sf_list e) (e_sf_dict e) (e_json e) (e_urlsplit e) (e_urljoin e)
    (e_quote e) (e_unquote e) (e_unsplit e) (e_idna e) (e_utf8 e) (e_codec e) (e_decode e)
    (e_chardet e) (e_sniff e) (e_rank e) (e_b64 e) (e_md5 e) (e_float_str e) (e_reltime e)
    (e_repr e) (e_display e) (e_inflate e)
    (fun _ b => if has_chr 255 b then inr (u "corrupt") else inl b).
Definition br_msg : mstate :=
  fst (process_headers env_fail None [(u "Content-Encoding", u "br")] (new_message MResponse None false)).
Lemma body_refuted : exists e m c1 c2,
  unfed m /\ concat c1 = concat c2
  /\ m_sample (fst (fst (lint_body e None true [] c1 m))) <> m_sample (fst (fst (lint_body e None true [] c2 m)))
  /\ snd (lint_body e None true [] c1 m) = Ok tt /\ snd (lint_body e None true [] c2 m) = Ok tt.
Proof.
  exists env_fail, br_msg, [[65; 255]], [[65]; [255]].
  split; [vm_compute; repeat split|]. split; [reflexivity|]. split; [vm_compute; discriminate|].
  split; vm_compute; reflexivity.
Qed.

(** ** C02: the sample.  [m_dec_hashed] collects every byte the decoders put out
    (it is what [decoded.hash] is the hash of). *)
Theorem C02_sample : forall e chunks m,
  unfed m ->
  let m' := fst (feed_all e chunks m) in
  m_sample m' = firstn (N.to_nat 8192) (m_dec_hashed m')
  /\ m_dec_len m' = N.of_nat (length (m_dec_hashed m')).
Proof.
  intros e chunks m (_ & _ & _ & U4 & U5 & U6). apply (feed_all_sampled e chunks m).
  split; rewrite U6; [rewrite U4|rewrite U5]; reflexivity.
Qed.
Print Assumptions C02_sample.
Example C02_sample_ex :
  unfed (new_message MResponse None false)
  /\ N.of_nat (length (m_sample (fst (feed_all env0 [repeat 1 (N.to_nat 5000); repeat 2 (N.to_nat 5000)]
                                    (new_message MResponse None false))))) = 8192.
Proof. split; [apply unfed_new|]. vm_compute. reflexivity. Qed.
(** Without a supported coding the decoded bytes are the bytes fed. *)
Theorem C02_plain : forall e chunks m codings,
  unfed m -> m_no_content m = false ->
  get_or m "content-encoding" (VList []) = VList (map VStr codings) ->
  Forall (fun c => ~ In c [u "gzip"; u "x-gzip"; u "br"]) codings ->
  let m' := fst (feed_all e chunks m) in
  m_sample m' = firstn (N.to_nat 8192) (concat chunks)
  /\ m_dec_len m' = N.of_nat (length (concat chunks)).
Proof.
  intros e chunks m codings HU Hn Hg Hc.
  destruct (C01_no_coding e ident ident codings (concat chunks) Hc) as [HX HE].
  destruct (fed_state e ident ident codings m chunks HU Hn Hg HX) as (p & ->). rewrite HE. split; reflexivity.
Qed.
Print Assumptions C02_plain.
Example C02_plain_ex :
  let m := fst (process_headers env0 None [(u "Content-Encoding", u "deflate, x")] (new_message MResponse None false)) in
  m_no_content m = false
  /\ get_or m "content-encoding" (VList []) = VList (map VStr [u "deflate"; u "x"])
  /\ Forall (fun c => ~ In c [u "gzip"; u "x-gzip"; u "br"]) [u "deflate"; u "x"].
Proof. split; [reflexivity|]. split; [reflexivity|]. repeat constructor; vm_compute; intuition discriminate. Qed.

(** ** C25: the gzip header.

    [gz_member] is a gzip header with any of its optional parts and [gz_bytes]
    its serialisation (RFC 1952); [decoder_run] feeds a decoder chunk by chunk
    and lists the outputs and notes of each call; [open_gzip] is a decoder just
    past the header (it gives its input straight to zlib). *)
Theorem C25_handover : forall e g payload l,
  gz_wf g -> concat (map snd l) = gz_bytes g ++ payload ->
  exists l1 clen c rest l2,
    l = l1 ++ (clen, c) :: l2
    /\ rest ++ concat (map snd l2) = payload
    /\ fst (decoder_run e fresh_gzip l)
       = map (fun _ => ([], [])) l1 ++ fst (decoder_run e open_gzip ((clen, rest) :: l2)).
Proof. exact handover. Qed.
Print Assumptions C25_handover.
Definition gz_ex : gz_member := mkGz 30 (1, 2, 3, 4) 0 255 (Some [9; 0; 9]) (Some (u "a.txt")) (Some []) (Some (5, 6)).
Example C25_handover_ex :
  gz_wf gz_ex
  /\ flat_map fst (fst (decoder_run env0 fresh_gzip (map (fun c => (0, [c])) (gz_bytes gz_ex ++ [1; 2]))))
     = [[1]; [2]].
Proof.
  split; [repeat split; vm_compute; intuition discriminate|]. vm_compute. reflexivity.
Qed.

(** A proper prefix of a header: no output and no note, however it is cut. *)
Theorem C25_partial_header : forall e g p q l,
  gz_wf g -> gz_bytes g = p ++ q -> q <> [] -> concat (map snd l) = p ->
  Forall (fun r => r = ([], [])) (fst (decoder_run e fresh_gzip l)).
Proof.
  intros e g p q l W E Hq Hl. apply (partial_header e l []). cbn [app]. rewrite Hl.
  exact (member_prefix g p q W E Hq).
Qed.
Print Assumptions C25_partial_header.
Example C25_partial_header_ex :
  gz_bytes gz_ex = firstn 20 (gz_bytes gz_ex) ++ skipn 20 (gz_bytes gz_ex) /\ skipn 20 (gz_bytes gz_ex) <> [].
Proof. split; [reflexivity|vm_compute; discriminate]. Qed.

(** Something else than 1f 8b 08: BAD_GZIP exactly once, and no output. *)
Theorem C25_bad_header : forall e l,
  let x := concat (map snd l) in
  (10 <= length x)%nat -> ~ (exists flag rest, x = 31 :: 139 :: 8 :: flag :: rest) ->
  exists why,
  flat_map fst (fst (decoder_run e fresh_gzip l)) = []
  /\ flat_map snd (fst (decoder_run e fresh_gzip l)) = [(BAD_GZIP, [vs "gzip_error" why])].
Proof. exact bad_header. Qed.
Print Assumptions C25_bad_header.
Example C25_bad_header_ex :
  let x := u "GIF89a....." in
  (10 <= length x)%nat /\ ~ (exists flag rest, x = 31 :: 139 :: 8 :: flag :: rest).
Proof. split; [vm_compute; lia|]. intros (f & r & H). discriminate. Qed.

(** ** C26: decompression is bounded and stops after an error. *)
Theorem C26_decoder : forall e s l,
  s = Gzip [] false [] 0 true \/ s = Brotli [] 0 true ->
  let r := fst (decoder_run e s l) in
  N.of_nat (length (concat (flat_map fst r))) <= 104857600
  /\ (length (flat_map snd r) <= 1)%nat
  /\ Forall (fun n => In (fst n) [DECOMPRESSION_LIMIT; BAD_GZIP; BAD_ZLIB; BAD_BROTLI]) (flat_map snd r)
  /\ (forall a x b, r = a ++ x :: b -> snd x <> [] -> Forall (fun y => y = ([], [])) b).
Proof.
  intros e s l Hs.
  assert (H0 : stage_ok s = true /\ stage_total s = 0) by (destruct Hs as [-> | ->]; split; reflexivity).
  destruct H0 as [Hok Ht].
  destruct (decoder_run_bound e l s) as (B1 & B2 & B3 & B4); [intros _; rewrite Ht; unfold max_decompressed; lia|].
  specialize (B1 Hok). rewrite Ht in B1. exact (conj B1 (conj B2 (conj B3 B4))).
Qed.
Print Assumptions C26_decoder.
Example C26_decoder_ex :
  let r := fst (decoder_run env_fail (Brotli [] 0 true) [(0, [1]); (0, [255]); (0, [255]); (0, [1])]) in
  flat_map fst r = [[1]] /\ map fst (flat_map snd r) = [BAD_BROTLI].
Proof. split; vm_compute; reflexivity. Qed.

(** The whole pipeline of [n] decoders, fed any body in any chunks. *)
Theorem C26_message : forall e chunks m codings,
  unfed m ->
  get_or m "content-encoding" (VList []) = VList (map VStr codings) ->
  let n := length (filter (fun c => str_in c [u "gzip"; u "x-gzip"; u "br"]) codings) in
  n <> O ->
  let m' := fst (feed_all e chunks m) in
  m_dec_len m' <= 104857600
  /\ (dec_count (m_notes m') <= dec_count (m_notes m) + n)%nat.
Proof.
  intros e chunks m codings (U1 & _ & _ & _ & U5 & _) Hg n Hn.
  assert (Hc : count_codings m = n).
  { unfold count_codings, pipeline_of. rewrite U1, (build_stages m codings Hg).
    unfold stages_for, n. rewrite rev_length. clear. induction codings as [|c cs IH]; [reflexivity|].
    cbn [flat_map filter]. rewrite app_length, IH. unfold stage_of, str_in. cbn [existsb]. rewrite !orb_false_r.
    destruct (str_eqb c (u "gzip")); [reflexivity|]. destruct (str_eqb c (u "x-gzip")); [reflexivity|].
    cbn [orb]. destruct (str_eqb c (u "br")); reflexivity. }
  exact (feed_all_bound e chunks m n U1 U5 Hc Hn).
Qed.
Print Assumptions C26_message.
Example C26_message_ex :
  unfed gz_msg /\ get_or gz_msg "content-encoding" (VList []) = VList (map VStr [u "gzip"])
  /\ length (filter (fun c => str_in c [u "gzip"; u "x-gzip"; u "br"]) [u "gzip"]) = 1%nat
  /\ dec_count (m_notes (fst (feed_all env0 [u "0123456789"; u "abc"] gz_msg))) = 1%nat.
Proof. split; [vm_compute; repeat split|]. split; [reflexivity|]. split; vm_compute; reflexivity. Qed.

(** ** C27: codings are undone in reverse order ([undo]: the last one first). *)
Theorem C27_undo : forall e D B m codings chunks,
  unfed m -> m_no_content m = false ->
  get_or m "content-encoding" (VList []) = VList (map VStr codings) ->
  undo_good e D B codings (concat chunks) ->
  let m' := fst (feed_all e chunks m) in
  snd (feed_all e chunks m) = Ok tt
  /\ m_dec_hashed m' = undo D B codings (concat chunks)
  /\ m_notes m' = m_notes m.
Proof.
  intros e D B m codings chunks (U1 & _ & _ & _ & _ & U6) Hn Hg HX.
  exact (decoded_body e D B m codings chunks U1 Hn U6 Hg HX).
Qed.
Print Assumptions C27_undo.
(** "gzip, br": brotli is undone first. *)
Definition two_msg : mstate :=
  fst (process_headers env0 None [(u "Content-Encoding", u "gzip, br")] (new_message MResponse None false)).
Example C27_undo_ex :
  get_or two_msg "content-encoding" (VList []) = VList (map VStr [u "gzip"; u "br"])
  /\ undo_good env0 ident ident [u "gzip"; u "br"] (gz_head ++ [1; 2])
  /\ undo ident ident [u "gzip"; u "br"] (gz_head ++ [1; 2]) = [1; 2]
  /\ undo (fun x => 7 :: x) (fun x => 8 :: x) [u "br"; u "gzip"; u "x"] (gz_head ++ [1]) = [8; 7; 1].
Proof.
  split; [reflexivity|]. split; [|split; reflexivity].
  split; [split; [exact I|]|].
  - split; [reflexivity|]. split.
    + intros p [r E]. apply (f_equal (@length N)) in E. rewrite app_length in E. cbn in E.
      unfold ident, max_decompressed. lia.
    + intros hist input _. exists input. unfold ident. split; reflexivity.
  - cbn. apply env0_streams. unfold max_decompressed; cbn; lia.
Qed.
