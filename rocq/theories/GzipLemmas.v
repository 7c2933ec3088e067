(** * gzip headers and streaming decoders (C01, C25, C27). *)
From Verif Require Import PyStr Regex Note PyLib Utils FieldAttrs Types Fields1 Fields2 Fields3
  Framework Checks Message NoteLemmas ContentLemmas.
Open Scope N_scope.

(** ** The header parser is stable under more input *)
Definition stable (f : bytes -> option bytes) : Prop :=
  forall a b r, f a = Some r -> f (a ++ b) = Some (r ++ b).
Lemma stable_zero : stable skip_zero.
Proof.
  intros a b; induction a as [|c a IH]; cbn; intros r H; [discriminate|].
  destruct (c =? 0); [injection H as <-; reflexivity|auto].
Qed.
Lemma stable_n n : stable (skip_n n).
Proof.
  intros a b r. unfold skip_n. destruct (Nat.ltb_spec (length a) n) as [|L]; [discriminate|].
  intros H. injection H as <-. rewrite app_length.
  destruct (Nat.ltb_spec (length a + length b) n); [lia|].
  rewrite skipn_app. replace (n - length a)%nat with O by lia. reflexivity.
Qed.
Lemma stable_extra : stable skip_extra.
Proof. intros [|x [|y a]] b r H; cbn in *; try discriminate. apply stable_n. exact H. Qed.
Lemma stable_if flag bit f : stable f -> stable (skip_if flag bit f).
Proof.
  intros Hf a b r. unfold skip_if. destruct (N.testbit flag bit); [apply Hf|].
  intros H. injection H as <-. reflexivity.
Qed.
Lemma stable_comp f g : stable f -> stable g ->
  stable (fun b => match f b with Some r => g r | None => None end).
Proof.
  intros Hf Hg a b r. destruct (f a) as [x|] eqn:E; [|discriminate]. intros H.
  rewrite (Hf _ b _ E). apply Hg, H.
Qed.
Definition skip_opts (flag : N) (rest : bytes) : option bytes :=
  match skip_if flag 2 skip_extra rest with
  | Some r => match skip_if flag 3 skip_zero r with
              | Some r => match skip_if flag 4 skip_zero r with
                          | Some r => skip_if flag 1 (skip_n 2) r
                          | None => None
                          end
              | None => None
              end
  | None => None
  end.
Lemma stable_opts flag : stable (skip_opts flag).
Proof.
  unfold skip_opts.
  apply (stable_comp (skip_if flag 2 skip_extra)
           (fun r => match skip_if flag 3 skip_zero r with
              | Some r => match skip_if flag 4 skip_zero r with
                          | Some r => skip_if flag 1 (skip_n 2) r
                          | None => None
                          end
              | None => None
              end)); [apply stable_if, stable_extra|].
  apply (stable_comp (skip_if flag 3 skip_zero)
           (fun r => match skip_if flag 4 skip_zero r with
                          | Some r => skip_if flag 1 (skip_n 2) r
                          | None => None
                          end)); [apply stable_if, stable_zero|].
  apply (stable_comp (skip_if flag 4 skip_zero) (skip_if flag 1 (skip_n 2)));
    [apply stable_if, stable_zero|apply stable_if, stable_n].
Qed.
Lemma header_short (x : bytes) : (length x < 10)%nat -> gzip_header x = GzMore.
Proof. destruct x as [|? [|? [|? [|? [|? [|? [|? [|? [|? [|? ?]]]]]]]]]]; cbn [length]; intros; try reflexivity. lia. Qed.
Lemma header_long (x : bytes) : (10 <= length x)%nat ->
  exists a b c d t0 t1 t2 t3 t4 t5 rest, x = a :: b :: c :: d :: t0 :: t1 :: t2 :: t3 :: t4 :: t5 :: rest.
Proof.
  destruct x as [|? [|? [|? [|? [|? [|? [|? [|? [|? [|? ?]]]]]]]]]]; cbn [length]; intros; try lia. eauto 20.
Qed.
Lemma header_eq a b c d t0 t1 t2 t3 t4 t5 rest :
  gzip_header (a :: b :: c :: d :: t0 :: t1 :: t2 :: t3 :: t4 :: t5 :: rest)
  = if negb ((a =? 31) && (b =? 139))
    then GzBad (u "Not a gzip header (magic is hex " ++ hex [a; b] ++ u ", should be 1f8b)")
    else if negb (c =? 8) then GzBad (u "Unknown compression method")
    else match skip_opts d rest with Some r => GzOk r | None => GzMore end.
Proof. reflexivity. Qed.
Lemma header_stable_ok x y r : gzip_header x = GzOk r -> gzip_header (x ++ y) = GzOk (r ++ y).
Proof.
  destruct (Nat.lt_ge_cases (length x) 10) as [L|L]; [rewrite header_short by exact L; discriminate|].
  destruct (header_long x L) as (a & b & c & d & t0 & t1 & t2 & t3 & t4 & t5 & rest & ->).
  cbn [app]. rewrite !header_eq. destruct (negb _); [discriminate|]. destruct (negb _); [discriminate|].
  destruct (skip_opts d rest) as [r'|] eqn:E; [|discriminate]. intros H. injection H as ->.
  rewrite (stable_opts d _ _ _ E). reflexivity.
Qed.
Lemma header_stable_bad x y why : gzip_header x = GzBad why -> gzip_header (x ++ y) = GzBad why.
Proof.
  destruct (Nat.lt_ge_cases (length x) 10) as [L|L]; [rewrite header_short by exact L; discriminate|].
  destruct (header_long x L) as (a & b & c & d & t0 & t1 & t2 & t3 & t4 & t5 & rest & ->).
  cbn [app]. rewrite !header_eq. destruct (negb _); [auto|]. destruct (negb _); [auto|].
  destruct (skip_opts d rest); discriminate.
Qed.

(** ** What a gzip member header is (RFC 1952 section 2.3) *)
Record gz_member := mkGz {
  gz_flag : N;
  gz_time : N * N * N * N; gz_xfl : N; gz_os : N;
  gz_extra : option bytes; gz_name : option bytes; gz_comment : option bytes; gz_crc : option (N * N)
}.
Definition is_some {A} (o : option A) : bool := match o with Some _ => true | None => false end.
Definition gz_bytes (g : gz_member) : bytes :=
  [31; 139; 8; gz_flag g;
   fst (fst (fst (gz_time g))); snd (fst (fst (gz_time g))); snd (fst (gz_time g)); snd (gz_time g);
   gz_xfl g; gz_os g]
  ++ match gz_extra g with
     | Some x => [N.of_nat (length x) mod 256; N.of_nat (length x) / 256] ++ x
     | None => [] end
  ++ match gz_name g with Some x => x ++ [0] | None => [] end
  ++ match gz_comment g with Some x => x ++ [0] | None => [] end
  ++ match gz_crc g with Some (a, b) => [a; b] | None => [] end.
Definition no_zero (o : option bytes) : Prop := match o with Some x => ~ In 0 x | None => True end.
Definition gz_wf (g : gz_member) : Prop :=
  N.testbit (gz_flag g) 2 = is_some (gz_extra g)
  /\ N.testbit (gz_flag g) 3 = is_some (gz_name g)
  /\ N.testbit (gz_flag g) 4 = is_some (gz_comment g)
  /\ N.testbit (gz_flag g) 1 = is_some (gz_crc g)
  /\ no_zero (gz_name g) /\ no_zero (gz_comment g).
Lemma skip_zero_ok x r : ~ In 0 x -> skip_zero (x ++ 0 :: r) = Some r.
Proof.
  induction x as [|c x IH]; cbn; intros H; [reflexivity|].
  destruct (c =? 0) eqn:E; [apply N.eqb_eq in E; subst; tauto|]. apply IH. tauto.
Qed.
Lemma skip_n_ok x r : skip_n (length x) (x ++ r) = Some r.
Proof.
  unfold skip_n. rewrite app_length. destruct (Nat.ltb_spec (length x + length r) (length x)); [lia|].
  rewrite skipn_app, Nat.sub_diag, skipn_all. reflexivity.
Qed.
Lemma member_ok g payload : gz_wf g -> gzip_header (gz_bytes g ++ payload) = GzOk payload.
Proof.
  intros (W2 & W3 & W4 & W1 & Z3 & Z4). unfold gz_bytes. cbn [app]. rewrite header_eq.
  cbn [N.eqb Pos.eqb andb negb]. unfold skip_opts, skip_if. rewrite W2, W3, W4, W1.
  rewrite <- !app_assoc.
  assert (E1 : forall k, (if is_some (gz_extra g) then skip_extra (match gz_extra g with
                  | Some x => [N.of_nat (length x) mod 256; N.of_nat (length x) / 256] ++ x
                  | None => [] end ++ k) else Some (match gz_extra g with
                  | Some x => [N.of_nat (length x) mod 256; N.of_nat (length x) / 256] ++ x
                  | None => [] end ++ k)) = Some k).
  { intros k. destruct (gz_extra g) as [x|]; cbn [is_some]; [|reflexivity].
    cbn [app skip_extra].
    replace (N.of_nat (length x) mod 256 + 256 * (N.of_nat (length x) / 256)) with (N.of_nat (length x)).
    - rewrite Nat2N.id. apply skip_n_ok.
    - rewrite N.add_comm. apply N.div_mod. lia. }
  rewrite E1.
  assert (E2 : forall o k, no_zero o -> (if is_some o then skip_zero (match o with Some x => x ++ [0] | None => [] end ++ k)
                 else Some (match o with Some x => x ++ [0] | None => [] end ++ k)) = Some k).
  { intros [x|] k Hz; cbn [is_some]; [|reflexivity]. rewrite <- app_assoc. apply skip_zero_ok, Hz. }
  rewrite (E2 _ _ Z3), (E2 _ _ Z4).
  destruct (gz_crc g) as [[a b]|]; cbn [is_some app]; [|reflexivity].
  rewrite (skip_n_ok [a; b] payload : skip_n 2 (a :: b :: payload) = Some payload). reflexivity.
Qed.
Lemma member_prefix g p q : gz_wf g -> gz_bytes g = p ++ q -> q <> [] -> gzip_header p = GzMore.
Proof.
  intros W E Hq. pose proof (member_ok g [] W) as H. rewrite app_nil_r, E in H.
  destruct (gzip_header p) as [|why|r] eqn:Ep; [reflexivity| |].
  - rewrite (header_stable_bad _ q _ Ep) in H. discriminate.
  - rewrite (header_stable_ok _ q _ Ep) in H. injection H as H. apply app_eq_nil in H as [_ H]. contradiction.
Qed.
Definition fresh_gzip : stage := Gzip [] false [] 0 true.
Definition open_gzip : stage := Gzip [] true [] 0 true.
Lemma handover_gen e l : forall buf payload,
  gzip_header buf = GzMore -> gzip_header (buf ++ concat (map snd l)) = GzOk payload ->
  exists l1 clen c rest l2,
    l = l1 ++ (clen, c) :: l2
    /\ rest ++ concat (map snd l2) = payload
    /\ fst (decoder_run e (Gzip [] false buf 0 true) l)
       = map (fun _ => ([], [])) l1 ++ fst (decoder_run e open_gzip ((clen, rest) :: l2)).
Proof.
  induction l as [|[clen c] l IH]; intros buf payload Hb H.
  - cbn in H. rewrite app_nil_r, Hb in H. discriminate.
  - cbn [map concat snd] in H. rewrite app_assoc in H.
    destruct (gzip_header (buf ++ c)) as [|why|rest] eqn:Eh.
    + destruct (IH _ _ Eh H) as (l1 & cl & c' & rest & l2 & -> & E1 & E2).
      exists ((clen, c) :: l1), cl, c', rest, l2. split; [reflexivity|]. split; [exact E1|].
      cbn [decoder_run stage_feed negb]. rewrite Eh.
      destruct (decoder_run e (Gzip [] false (buf ++ c) 0 true) (l1 ++ (cl, c') :: l2)) as [r s].
      cbn [fst map app] in *. rewrite E2. reflexivity.
    + rewrite (header_stable_bad _ _ _ Eh) in H. discriminate.
    + rewrite (header_stable_ok _ (concat (map snd l)) _ Eh) in H. injection H as H.
      exists [], clen, c, rest, l. split; [reflexivity|]. split; [exact H|].
      cbn [map app decoder_run stage_feed negb open_gzip]. rewrite Eh. reflexivity.
Qed.
Lemma handover e g payload l :
  gz_wf g -> concat (map snd l) = gz_bytes g ++ payload ->
  exists l1 clen c rest l2,
    l = l1 ++ (clen, c) :: l2
    /\ rest ++ concat (map snd l2) = payload
    /\ fst (decoder_run e fresh_gzip l)
       = map (fun _ => ([], [])) l1 ++ fst (decoder_run e open_gzip ((clen, rest) :: l2)).
Proof.
  intros W E. apply handover_gen; [reflexivity|]. cbn [app]. rewrite E. apply member_ok, W.
Qed.
(** A partial header: silence. *)
Lemma partial_header e l : forall buf, gzip_header (buf ++ concat (map snd l)) = GzMore ->
  silent (fst (decoder_run e (Gzip [] false buf 0 true) l)).
Proof.
  induction l as [|[clen c] l IH]; intros buf H; cbn [decoder_run]; [constructor|].
  cbn [map concat snd] in H. rewrite app_assoc in H. cbn [stage_feed negb].
  destruct (gzip_header (buf ++ c)) as [|why|rest] eqn:Eh.
  - specialize (IH _ H). destruct (decoder_run e (Gzip [] false (buf ++ c) 0 true) l). cbn [fst] in *.
    constructor; [reflexivity|exact IH].
  - rewrite (header_stable_bad _ _ _ Eh) in H. discriminate.
  - rewrite (header_stable_ok _ (concat (map snd l)) _ Eh) in H. discriminate.
Qed.
Lemma silent_flat l : silent l -> flat_map fst l = [] /\ flat_map snd l = [].
Proof. induction 1 as [|x r Hx _ IH]; [split; reflexivity|]. subst x. exact IH. Qed.
Lemma bad_header_gen e why l : forall buf, gzip_header buf = GzMore ->
  gzip_header (buf ++ concat (map snd l)) = GzBad why ->
  flat_map fst (fst (decoder_run e (Gzip [] false buf 0 true) l)) = []
  /\ flat_map snd (fst (decoder_run e (Gzip [] false buf 0 true) l)) = [(BAD_GZIP, [vs "gzip_error" why])].
Proof.
  induction l as [|[clen c] l IH]; intros buf Hb H.
  - cbn in H. rewrite app_nil_r, Hb in H. discriminate.
  - cbn [map concat snd] in H. rewrite app_assoc in H. cbn [decoder_run stage_feed negb].
    destruct (gzip_header (buf ++ c)) as [|why'|rest] eqn:Eh.
    + specialize (IH _ Eh H). destruct (decoder_run e (Gzip [] false (buf ++ c) 0 true) l). exact IH.
    + rewrite (header_stable_bad _ _ _ Eh) in H. injection H as ->.
      pose proof (decoder_run_stopped e l (Gzip [] false [] 0 false) eq_refl) as Hs.
      destruct (decoder_run e (Gzip [] false [] 0 false) l) as [r s]. cbn [fst flat_map snd app] in *.
      apply silent_flat in Hs as [-> ->]. split; reflexivity.
    + rewrite (header_stable_ok _ (concat (map snd l)) _ Eh) in H. discriminate.
Qed.
Lemma bad_header e l :
  let x := concat (map snd l) in
  (10 <= length x)%nat -> ~ (exists flag rest, x = 31 :: 139 :: 8 :: flag :: rest) ->
  exists why,
  flat_map fst (fst (decoder_run e fresh_gzip l)) = []
  /\ flat_map snd (fst (decoder_run e fresh_gzip l)) = [(BAD_GZIP, [vs "gzip_error" why])].
Proof.
  intros x Hx Hn. destruct (header_long x Hx) as (a & b & c & d & t0 & t1 & t2 & t3 & t4 & t5 & rest & Ex).
  assert (H : exists why, gzip_header x = GzBad why).
  { rewrite Ex, header_eq. destruct (negb ((a =? 31) && (b =? 139))) eqn:E1; [eauto|].
    destruct (negb (c =? 8)) eqn:E2; [eauto|]. exfalso. apply Hn.
    apply negb_false_iff in E1, E2. apply andb_true_iff in E1 as [E1 E3].
    apply N.eqb_eq in E1, E2, E3. subst a b c. eauto. }
  destruct H as [why H]. exists why. apply (bad_header_gen e why l []); [reflexivity|exact H].
Qed.

(** ** Streaming decoders

    What a theorem about chunking needs of the decompression libraries: on the
    prefixes of a stream [Y] they report no error, and what they have put out
    depends only on what they have consumed ([D], [B]). *)
Definition prefix (a b : bytes) : Prop := exists r, b = a ++ r.
(** The bytes that a decompressor has consumed of the inputs it was given: each
    input without its unconsumed tail. *)
Fixpoint used (e : env) (past todo : list bytes) : bytes :=
  match todo with
  | [] => []
  | i :: rest =>
      match e_inflate e past i with
      | inl (_, tail) => firstn (length i - length tail) i
      | inr _ => i
      end ++ used e (past ++ [i]) rest
  end.
Definition consumed (e : env) (hist : list bytes) : bytes := used e [] hist.
Lemma used_app e l i : forall past,
  used e past (l ++ [i])
  = used e past l ++ match e_inflate e (past ++ l) i with
                     | inl (_, tail) => firstn (length i - length tail) i
                     | inr _ => i
                     end.
Proof.
  induction l as [|x l IH]; intros past; cbn [used app].
  - rewrite !app_nil_r. reflexivity.
  - rewrite IH, <- !app_assoc. reflexivity.
Qed.
Definition inflate_stream (e : env) (D : bytes -> bytes) (Y : bytes) : Prop :=
  D [] = []
  /\ (forall p, prefix p Y -> N.of_nat (length (D p)) <= max_decompressed)
  /\ (forall hist input, prefix (consumed e hist ++ input) Y ->
        exists out used tail,
          e_inflate e hist input = inl (out, tail)
          /\ input = used ++ tail
          /\ D (consumed e hist ++ used) = D (consumed e hist) ++ out
          /\ (tail <> [] -> out <> [])).
Definition brotli_stream (e : env) (B : bytes -> bytes) (Y : bytes) : Prop :=
  B [] = []
  /\ (forall p, prefix p Y -> N.of_nat (length (B p)) <= max_decompressed)
  /\ (forall hist input, prefix (concat hist ++ input) Y ->
        exists out, e_brotli e hist input = inl out
                    /\ B (concat hist ++ input) = B (concat hist) ++ out).

Lemma prefix_app_l a b c : prefix (a ++ b) c -> prefix a c.
Proof. intros [r ->]. exists (b ++ r). rewrite app_assoc. reflexivity. Qed.
Lemma prefix_refl a : prefix a a.
Proof. exists []. rewrite app_nil_r. reflexivity. Qed.

Lemma gzip_loop_stream e D Y clen hist total chunk :
  inflate_stream e D Y ->
  prefix (consumed e hist ++ chunk) Y -> total = N.of_nat (length (D (consumed e hist))) ->
  exists hist' outs,
    gzip_loop e clen hist total chunk
    = (hist', N.of_nat (length (D (consumed e hist ++ chunk))), outs, true, [])
    /\ consumed e hist' = consumed e hist ++ chunk
    /\ D (consumed e hist ++ chunk) = D (consumed e hist) ++ concat outs.
Proof.
  intros (HD & Hmax & Hstep) Hp Ht.
  assert (Htm : total <= max_decompressed) by (rewrite Ht; apply Hmax; eapply prefix_app_l; exact Hp).
  destruct (gzip_rounds_enough e clen chunk hist total Htm) as [r Hr].
  assert (Hg : gzip_loop e clen hist total chunk = r).
  { unfold gzip_loop. rewrite Hr. reflexivity. }
  set (I := fun s : gzst => let '(h, t, outs, input, first) := s in
              consumed e h ++ input = consumed e hist ++ chunk
              /\ D (consumed e h) = D (consumed e hist) ++ concat outs
              /\ t = N.of_nat (length (D (consumed e h)))).
  set (O := fun r : gzres => let '(h, t, outs, ok, ns) := r in
              ok = true /\ ns = [] /\ consumed e h = consumed e hist ++ chunk
              /\ D (consumed e h) = D (consumed e hist) ++ concat outs
              /\ t = N.of_nat (length (D (consumed e h)))).
  pose proof (iter_until_inv (gzip_step e clen chunk) I O) as H.
  match type of H with ?P -> _ => assert (HP : P) end.
  { clear H Hr Hg r. intros [[[[h t] outs] input] first] (I1 & I2 & I3). unfold I, O, gzip_step.
    destruct (Hstep h input) as (out & us & tail & Ee & Ei & Eo & Et); [rewrite I1; exact Hp|].
    rewrite Ee.
    assert (Ec : consumed e (h ++ [input]) = consumed e h ++ us).
    { unfold consumed. rewrite used_app. cbn [app]. fold (consumed e h). rewrite Ee. f_equal.
      rewrite Ei, app_length. replace (length us + length tail - length tail)%nat with (length us) by lia.
      rewrite firstn_app, firstn_all, Nat.sub_diag. cbn. apply app_nil_r. }
    assert (Etot : t + N.of_nat (length out) = N.of_nat (length (D (consumed e (h ++ [input]))))).
    { rewrite Ec, Eo, app_length, I3. lia. }
    assert (Hpre : prefix (consumed e (h ++ [input])) Y).
    { rewrite Ec. apply prefix_app_l with tail. rewrite <- app_assoc, <- Ei, I1. exact Hp. }
    destruct out as [|c out].
    - destruct tail as [|x tail]; [|exfalso; apply Et; congruence].
      cbn [nonempty]. rewrite Bool.andb_false_r. rewrite app_nil_r in Ei. subst us.
      split; [reflexivity|]. split; [reflexivity|]. rewrite Ec. split; [exact I1|].
      rewrite Eo, app_nil_r. split; [exact I2|exact I3].
    - assert (El : (max_decompressed <? t + N.of_nat (length (c :: out))) = false).
      { apply N.ltb_ge. rewrite Etot. apply Hmax, Hpre. }
      rewrite El.
      assert (EO : D (consumed e (h ++ [input])) = D (consumed e hist) ++ concat (outs ++ [c :: out])).
      { rewrite Ec, Eo, I2, concat_app. cbn [concat]. rewrite app_nil_r, <- app_assoc. reflexivity. }
      destruct tail as [|x tail]; cbn [nonempty].
      + rewrite app_nil_r in Ei. subst us.
        split; [reflexivity|]. split; [reflexivity|]. rewrite Ec at 1. split; [exact I1|].
        split; [exact EO|exact Etot].
      + rewrite Ec at 1. split; [rewrite <- app_assoc, <- Ei; exact I1|]. split; [exact EO|exact Etot]. }
  specialize (H HP gzip_rounds (hist, total, [], chunk, true)).
  match type of H with ?P -> _ => assert (HQ : P) end.
  { unfold I. cbn [concat]. rewrite app_nil_r. auto. }
  specialize (H HQ).
  assert (H' : O r).
  { clear - H Hr. revert H. unfold gzst, gzres in *. destruct (iter_until _ _ _) as [x|x]; [discriminate|].
    injection Hr as ->. exact (fun h => h). }
  clear H Hr. rename H' into H. rewrite Hg. clear Hg. destruct r as [[[[h t] outs] ok] ns].
  destruct H as (-> & -> & Ec & Eo & Et). rewrite Ec in Eo, Et. exists h, outs. split; [|auto].
  rewrite Et. reflexivity.
Qed.

Section Streams.
  Variables (e : env) (D B : bytes -> bytes).
  (** What a decoder makes of a whole (prefix of a) body. *)
  Definition gunzip (x : bytes) : bytes := match gzip_header x with GzOk rest => D rest | _ => [] end.
  Definition decode_of (s : stage) : bytes -> bytes :=
    match s with Gzip _ _ _ _ _ => gunzip | Brotli _ _ _ => B end.
  (** The body [X] is good input for the decoder. *)
  Definition good_gzip (X : bytes) : Prop :=
    match gzip_header X with
    | GzOk Y => inflate_stream e D Y
    | GzMore => True
    | GzBad _ => False
    end.
  Definition good_for (s : stage) (X : bytes) : Prop :=
    match s with Gzip _ _ _ _ _ => good_gzip X | Brotli _ _ _ => brotli_stream e B X end.
  (** The decoder has been fed [x]. *)
  Definition stage_at (s : stage) (x : bytes) : Prop :=
    match s with
    | Gzip hist in_gz buf total ok =>
        ok = true
        /\ if in_gz then exists rest, gzip_header x = GzOk rest /\ consumed e hist = rest
                                      /\ total = N.of_nat (length (D rest))
           else buf = x /\ gzip_header x = GzMore /\ hist = [] /\ total = 0
    | Brotli hist total ok => ok = true /\ concat hist = x /\ total = N.of_nat (length (B x))
    end.
  Lemma stage_feed_stream clen s x chunk X :
    good_for s X -> stage_at s x -> prefix (x ++ chunk) X ->
    exists outs s',
      stage_feed e clen s chunk = (outs, [], s')
      /\ stage_at s' (x ++ chunk) /\ decode_of s (x ++ chunk) = decode_of s x ++ concat outs
      /\ decode_of s' = decode_of s /\ (good_for s' X).
  Proof.
    destruct s as [hist in_gz buf total ok|hist total ok]; cbn [good_for stage_at decode_of].
    - intros HX (-> & Hat) [r Hr]. cbn [stage_feed negb]. destruct in_gz.
      + destruct Hat as (rest & Hh & Hc & Ht).
        pose proof (header_stable_ok _ chunk _ Hh) as Hh2.
        pose proof (header_stable_ok _ r _ Hh2) as Hh3. rewrite <- Hr in Hh3.
        pose proof HX as HX'. unfold good_gzip in HX. rewrite Hh3 in HX.
        destruct (gzip_loop_stream e D _ clen hist total chunk HX) as (hist' & outs & El & Ec & Eo).
        * rewrite Hc. exists r. reflexivity.
        * rewrite Hc. exact Ht.
        * rewrite Hc in *. exists outs, (Gzip hist' true [] (N.of_nat (length (D (rest ++ chunk)))) true).
          split; [rewrite El; reflexivity|]. split.
          { cbn. split; [reflexivity|]. exists (rest ++ chunk). auto. }
          split; [unfold gunzip; rewrite Hh2, Hh; exact Eo|]. split; [reflexivity|exact HX'].
      + destruct Hat as (-> & Hh & -> & ->).
        destruct (gzip_header (x ++ chunk)) as [|why|rest] eqn:Eh.
        * exists [], (Gzip [] false (x ++ chunk) 0 true). split; [reflexivity|].
          split; [cbn; auto|]. split; [unfold gunzip; rewrite Eh, Hh; reflexivity|]. split; [reflexivity|exact HX].
        * exfalso. unfold good_gzip in HX. rewrite Hr, (header_stable_bad _ r _ Eh) in HX. exact HX.
        * pose proof (header_stable_ok _ r _ Eh) as Hh3. rewrite <- Hr in Hh3.
          pose proof HX as HX'. unfold good_gzip in HX. rewrite Hh3 in HX.
          assert (HD0 : D [] = []) by apply HX.
          destruct (gzip_loop_stream e D _ clen [] 0 rest HX) as (hist' & outs & El & Ec & Eo).
          { exists r. reflexivity. }
          { change (consumed e []) with (@nil N). rewrite HD0. reflexivity. }
          change (consumed e []) with (@nil N) in *. cbn [app] in *. rewrite HD0 in Eo. cbn [app] in Eo.
          exists outs, (Gzip hist' true [] (N.of_nat (length (D rest))) true).
          split; [rewrite El; reflexivity|]. split.
          { cbn. split; [reflexivity|]. exists rest. auto. }
          split; [unfold gunzip; rewrite Eh, Hh; exact Eo|]. split; [reflexivity|exact HX'].
    - intros HX (-> & <- & Ht) Hp. cbn [stage_feed negb].
      pose proof HX as (HB0 & Hmax & Hstep). destruct (Hstep hist chunk Hp) as (out & Ee & Eo).
      rewrite Ee.
      assert (Hl : total + N.of_nat (length out) = N.of_nat (length (B (concat hist ++ chunk)))).
      { rewrite Eo, app_length, Ht. lia. }
      assert (Hc : concat (hist ++ [chunk]) = concat hist ++ chunk).
      { rewrite concat_app. cbn. rewrite app_nil_r. reflexivity. }
      destruct out as [|c out].
      + exists [], (Brotli (hist ++ [chunk]) total true). split; [reflexivity|].
        cbn [length N.of_nat] in Hl. rewrite N.add_0_r in Hl.
        split; [cbn [stage_at]; auto|]. split; [exact Eo|]. split; [reflexivity|exact HX].
      + assert (El : (max_decompressed <? total + N.of_nat (length (c :: out))) = false).
        { apply N.ltb_ge. rewrite Hl. apply Hmax, Hp. }
        rewrite El. exists [c :: out], (Brotli (hist ++ [chunk]) (total + N.of_nat (length (c :: out))) true).
        split; [reflexivity|]. split; [cbn [stage_at]; auto|].
        split; [cbn [concat]; rewrite app_nil_r; exact Eo|]. split; [reflexivity|exact HX].
  Qed.
  Lemma stage_feeds_stream clen X chunks : forall s x,
    good_for s X -> stage_at s x -> prefix (x ++ concat chunks) X ->
    exists outs s',
      stage_feeds e clen s chunks = (outs, [], s')
      /\ stage_at s' (x ++ concat chunks)
      /\ decode_of s (x ++ concat chunks) = decode_of s x ++ concat outs
      /\ decode_of s' = decode_of s /\ (good_for s' X).
  Proof.
    induction chunks as [|c cs IH]; intros s x HX Hat Hp; cbn [stage_feeds concat] in *.
    - exists [], s. rewrite !app_nil_r. auto 10.
    - rewrite app_assoc in Hp.
      destruct (stage_feed_stream clen s x c X HX Hat) as (o1 & s1 & E1 & A1 & D1 & F1 & G1);
        [eapply prefix_app_l; exact Hp|].
      destruct (IH s1 (x ++ c) G1 A1 Hp) as (o2 & s2 & E2 & A2 & D2 & F2 & G2).
      exists (o1 ++ o2), s2. rewrite E1, E2. split; [reflexivity|].
      rewrite app_assoc. split; [exact A2|].
      split; [rewrite F1 in D2; rewrite D2, D1, concat_app, app_assoc; reflexivity|].
      split; [congruence|exact G2].
  Qed.
  (** A pipeline: each decoder is fed what the one before it puts out. *)
  Fixpoint pipe_decode (st : list stage) (x : bytes) : bytes :=
    match st with [] => x | s :: st' => pipe_decode st' (decode_of s x) end.
  Fixpoint pipe_at (st : list stage) (x : bytes) : Prop :=
    match st with [] => True | s :: st' => stage_at s x /\ pipe_at st' (decode_of s x) end.
  Fixpoint pipe_good (st : list stage) (X : bytes) : Prop :=
    match st with [] => True | s :: st' => good_for s X /\ pipe_good st' (decode_of s X) end.
  (** Outputs of prefixes are prefixes. *)
  Definition mono_decode (F : bytes -> bytes) (X : bytes) : Prop :=
    forall a b, prefix (a ++ b) X -> prefix (F a) (F (a ++ b)).
  Lemma good_fresh_mono s X : good_for s X -> 
    forall x, stage_at s x -> prefix x X -> prefix (decode_of s x) (decode_of s X).
  Proof.
    intros HX x Hat [r ->]. destruct (stage_feeds_stream 0 (x ++ r) [r] s x HX Hat) as (o & s' & _ & _ & E & _).
    - cbn. rewrite app_nil_r. apply prefix_refl.
    - cbn [concat] in E. rewrite app_nil_r in E. rewrite E. eexists; reflexivity.
  Qed.
  Lemma pipe_feed_stream clen st : forall x X chunks,
    pipe_good st X -> pipe_at st x -> prefix (x ++ concat chunks) X ->
    exists outs st',
      pipe_feed e clen st chunks = (outs, [], st')
      /\ pipe_at st' (x ++ concat chunks)
      /\ pipe_decode st (x ++ concat chunks) = pipe_decode st x ++ concat outs
      /\ (forall y, pipe_decode st' y = pipe_decode st y) /\ pipe_good st' X.
  Proof.
    induction st as [|s st IH]; intros x X chunks HX Hat Hp; cbn [pipe_feed].
    - exists chunks, []. cbn. auto 10.
    - destruct HX as [HX HXs], Hat as [Hat Hats].
      destruct (stage_feeds_stream clen X chunks s x HX Hat Hp) as (o1 & s1 & E1 & A1 & D1 & F1 & G1).
      assert (Hp2 : prefix (decode_of s x ++ concat o1) (decode_of s X)).
      { rewrite <- D1. rewrite <- F1. apply good_fresh_mono; assumption. }
      destruct (IH (decode_of s x) (decode_of s X) o1 HXs Hats Hp2) as (o2 & st2 & E2 & A2 & D2 & F2 & G2).
      exists o2, (s1 :: st2). rewrite E1, E2. split; [reflexivity|].
      cbn [pipe_at pipe_decode pipe_good]. rewrite F1. rewrite D1.
      split; [split; [exact A1|exact A2]|]. split; [exact D2|]. split; [intros y; apply F2|].
      split; [exact G1|exact G2].
  Qed.

  (** Feeding a body in any chunks. *)
  Lemma feed_all_stream X chunks : forall m st x,
    pipeline_of m = Ok st -> pipe_good st X -> pipe_at st x -> prefix (x ++ concat chunks) X ->
    m_no_content m = false -> m_dec_hashed m = pipe_decode st x ->
    let m' := fst (feed_all e chunks m) in
    snd (feed_all e chunks m) = Ok tt
    /\ m_dec_hashed m' = pipe_decode st (x ++ concat chunks)
    /\ m_notes m' = m_notes m.
  Proof.
    induction chunks as [|c cs IH]; intros m st x Hp HX Hat Hpre Hn Hd; cbn [feed_all].
    - cbn. rewrite app_nil_r. auto.
    - pose proof (feed_content_spec e c m) as H. cbv zeta in H.
      destruct H as (_ & _ & Hn' & _ & H). destruct (H Hn) as (_ & H'). rewrite Hp in H'.
      cbn [concat] in Hpre. rewrite app_assoc in Hpre.
      match type of H' with context [pipe_feed e ?k st ?cc] =>
        destruct (pipe_feed_stream k st x X cc HX Hat) as (outs & st' & Ef & A1 & D1 & F1 & G1) end.
      { cbn [concat]. rewrite app_nil_r. eapply prefix_app_l. exact Hpre. }
      rewrite Ef in H'. cbn [concat] in *. rewrite app_nil_r in *.
      destruct H' as (R1 & R2 & R3 & _ & _ & R6).
      destruct (feed_content e c m) as [m1 r]. cbn [fst snd] in *. subst r. cbn [then_].
      destruct (IH m1 st' (x ++ c)) as (I1 & I2 & I3); try assumption.
      + unfold pipeline_of. rewrite R2. reflexivity.
      + congruence.
      + rewrite R3, Hd, F1, D1. reflexivity.
      + cbv zeta. split; [exact I1|]. rewrite I2, I3, R6, F1, app_assoc. split; reflexivity.
  Qed.

  (** Which decoder undoes a content coding: an independent specification of
      the order (Content-Encoding: a, b means that b was applied last). *)
  Definition undo_one (coding : str) : bytes -> bytes :=
    if str_eqb coding (u "gzip") || str_eqb coding (u "x-gzip") then gunzip
    else if str_eqb coding (u "br") then B
    else fun x => x.
  Definition good_one (coding : str) (X : bytes) : Prop :=
    if str_eqb coding (u "gzip") || str_eqb coding (u "x-gzip") then good_gzip X
    else if str_eqb coding (u "br") then brotli_stream e B X
    else True.
  Fixpoint undo (codings : list str) (x : bytes) : bytes :=
    match codings with [] => x | c :: cs => undo_one c (undo cs x) end.
  Fixpoint undo_good (codings : list str) (x : bytes) : Prop :=
    match codings with [] => True | c :: cs => undo_good cs x /\ good_one c (undo cs x) end.

  Lemma pipe_decode_app a b x : pipe_decode (a ++ b) x = pipe_decode b (pipe_decode a x).
  Proof. revert x; induction a as [|s a IH]; intros x; [reflexivity|]. apply IH. Qed.
  Lemma pipe_good_app a b x : pipe_good (a ++ b) x <-> pipe_good a x /\ pipe_good b (pipe_decode a x).
  Proof. revert x; induction a as [|s a IH]; intros x; cbn; [tauto|]. rewrite IH. tauto. Qed.
  Lemma pipe_at_app a b x : pipe_at (a ++ b) x <-> pipe_at a x /\ pipe_at b (pipe_decode a x).
  Proof. revert x; induction a as [|s a IH]; intros x; cbn; [tauto|]. rewrite IH. tauto. Qed.
  Lemma stage_of_decode c x : pipe_decode (stage_of c) x = undo_one c x.
  Proof.
    unfold stage_of, undo_one, str_in. cbn [existsb]. rewrite orb_false_r.
    destruct (str_eqb c (u "gzip") || str_eqb c (u "x-gzip")); [reflexivity|].
    destruct (str_eqb c (u "br")); reflexivity.
  Qed.
  Lemma stage_of_good c x : pipe_good (stage_of c) x <-> good_one c x.
  Proof.
    unfold stage_of, good_one, str_in. cbn [existsb]. rewrite orb_false_r.
    destruct (str_eqb c (u "gzip") || str_eqb c (u "x-gzip")); cbn [pipe_good good_for]; [tauto|].
    destruct (str_eqb c (u "br")); cbn [pipe_good good_for]; tauto.
  Qed.
  Definition stages_for (codings : list str) : list stage := rev (flat_map stage_of codings).
  Lemma stages_cons c cs : stages_for (c :: cs) = stages_for cs ++ stage_of c.
  Proof.
    unfold stages_for. cbn [flat_map]. rewrite rev_app_distr. f_equal.
    unfold stage_of. destruct (str_in _ _); [reflexivity|]. destruct (str_eqb _ _); reflexivity.
  Qed.
  Lemma stages_decode cs : forall x, pipe_decode (stages_for cs) x = undo cs x.
  Proof.
    induction cs as [|c cs IH]; intros x; [reflexivity|].
    rewrite stages_cons, pipe_decode_app, IH. apply stage_of_decode.
  Qed.
  Lemma stages_good cs : forall x, undo_good cs x -> pipe_good (stages_for cs) x.
  Proof.
    induction cs as [|c cs IH]; intros x; [exact (fun H => H)|]. intros [H1 H2].
    rewrite stages_cons, pipe_good_app, stages_decode. split; [apply IH, H1|apply stage_of_good, H2].
  Qed.
  (** Before any input. *)
  Lemma good_nil cs X : undo_good cs X -> undo cs [] = [] /\ pipe_at (stages_for cs) [].
  Proof.
    induction cs as [|c cs IH]; intros H; [split; [reflexivity|exact I]|].
    destruct H as [H1 H2]. destruct (IH H1) as [E A]. cbn [undo]. rewrite E. split.
    - unfold undo_one, good_one in *. destruct (_ || _); [reflexivity|].
      destruct (str_eqb c (u "br")); [apply H2|reflexivity].
    - rewrite stages_cons, pipe_at_app, stages_decode, E. split; [exact A|].
      unfold stage_of, str_in. unfold good_one in H2. cbn [existsb]. rewrite orb_false_r.
      destruct (str_eqb c (u "gzip") || str_eqb c (u "x-gzip")).
      + cbn. auto 10.
      + destruct (str_eqb c (u "br")); cbn; [|exact I]. destruct H2 as (HB0 & _). rewrite HB0. auto.
  Qed.
  Lemma build_stages m codings :
    get_or m "content-encoding" (VList []) = VList (map VStr codings) ->
    build_pipeline m = Ok (stages_for codings).
  Proof.
    intros H. unfold build_pipeline. rewrite H. cbn [as_list rmap]. f_equal. unfold stages_for. f_equal.
    clear H. induction codings as [|c cs IH]; [reflexivity|]. cbn. rewrite IH. reflexivity.
  Qed.
  Lemma decoded_body m codings chunks :
    m_pipeline m = None -> m_no_content m = false -> m_dec_hashed m = [] ->
    get_or m "content-encoding" (VList []) = VList (map VStr codings) ->
    undo_good codings (concat chunks) ->
    let m' := fst (feed_all e chunks m) in
    snd (feed_all e chunks m) = Ok tt
    /\ m_dec_hashed m' = undo codings (concat chunks)
    /\ m_notes m' = m_notes m.
  Proof.
    intros Hp Hn Hd Hg HX. destruct (good_nil codings (concat chunks) HX) as [E A].
    destruct (feed_all_stream (concat chunks) chunks m (stages_for codings) []) as (R1 & R2 & R3); auto.
    - unfold pipeline_of. rewrite Hp. apply build_stages, Hg.
    - apply stages_good, HX.
    - apply prefix_refl.
    - rewrite stages_decode, E. exact Hd.
    - cbn [app] in R2. rewrite stages_decode in R2. auto.
  Qed.
End Streams.
