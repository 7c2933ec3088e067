(** * A whole field section. *)
From Verif Require Import PyStr Regex Grammar Note PyLib Utils FieldAttrs Types Fields1 Fields2 Fields3 Framework Checks Message
  Spans EvLogic NoteLemmas LexLemmas ParamLemmas NumLemmas NameLemmas FrameLemmas PassParse PassEval PassSF PassFrame PassSec.
Open Scope N_scope.

(** [G]: what is known about the names received. *)
Definition ident (G : str -> Prop) (kh : str * handler) : Prop :=
  exists name, G name /\ fst kh = lower name /\ same_id (new_handler name) (snd kh).
Definition sinv (G : str -> Prop) (t : mtype) (s : section) : Prop :=
  NoDup (keys (s_handlers s)) /\ Forall (fun kh => linv t (snd kh) /\ ident G kh) (s_handlers s).
(** [m'] has [m]'s notes and those of well-behaved field events. *)
Definition noted (m m' : mstate) : Prop :=
  exists evs, m_notes m' = emit (m_type m) (m_notes m) evs /\ Forall fsev evs.
Lemma noted_refl m : noted m m. Proof. exists []. split; [reflexivity|constructor]. Qed.
Lemma noted_trans a b c : m_type b = m_type a -> noted a b -> noted b c -> noted a c.
Proof.
  intros Ht (l1 & E1 & H1) (l2 & E2 & H2). exists (l1 ++ l2). rewrite emit_app, <- E1, <- Ht. split; [exact E2|apply Forall_app; auto].
Qed.
Lemma noted_emit m l : Forall fsev l -> noted m (m_emit l m).
Proof. intros H. exists l. split; [apply notes_emit|exact H]. Qed.
Lemma noted_emit_set tr m s l : Forall fsev l -> noted m (m_emit l (m_set_sec tr s m)).
Proof. intros H. exists l. split; [reflexivity|exact H]. Qed.
Lemma noted_set_emit tr m s l : Forall fsev l -> noted m (m_set_sec tr s (m_emit l m)).
Proof. intros H. exists l. split; [reflexivity|exact H]. Qed.

Lemma sec_only_type tr m m' : sec_only tr m m' -> m_type m' = m_type m.
Proof. intros ->. destruct tr; reflexivity. Qed.
Lemma sane_same e rel m m' : s_parsed (m_headers m') = s_parsed (m_headers m) -> m_type m' = m_type m -> m_caching m' = m_caching m ->
  sane (mkCx e m rel) -> sane (mkCx e m' rel).
Proof.
  intros H1 H2 H3 (S1 & S2 & S3). split; [|split]; cbn [cx_msg cx_rel] in *; auto.
  - intros k v. rewrite H1, H2. apply S1.
  - rewrite H2, H3. exact S3.
Qed.
Lemma sec_only_parsed tr m m' : sec_only tr m m' -> s_parsed (sec tr m') = s_parsed (sec tr m) ->
  s_parsed (m_headers m') = s_parsed (m_headers m) /\ m_type m' = m_type m /\ m_caching m' = m_caching m.
Proof. intros H Hp. rewrite H in *. destruct tr; cbn in *; auto. Qed.
Lemma sane_sec tr e rel m m' : sec_only tr m m' -> s_parsed (sec tr m') = s_parsed (sec tr m) ->
  sane (mkCx e m rel) -> sane (mkCx e m' rel).
Proof. intros H Hp. destruct (sec_only_parsed _ _ _ H Hp) as (H1 & H2 & H3). apply sane_same; auto. Qed.

Lemma read_name_ok g f name : Forall (fsevf g) (tag f [] (snd (read_name name))).
Proof.
  unfold read_name. destruct (decode_ascii_strict name); cbn [snd]; [constructor|]. constructor; [|constructor].
  split; [split; [constructor|intros ? []]|]. right. eexists _, _, _. split; [reflexivity|]. split; [vm_compute; reflexivity|]. split; [vm_compute; reflexivity|].
  pv_tac.
Qed.
Lemma read_value_ok g f n v : Forall (fsevf g) (tag f [] (snd (read_value n v))).
Proof.
  unfold read_value. destruct (decode_ascii_strict v); cbn [snd]; [constructor|]. constructor; [|constructor].
  split; [split; [constructor|intros ? []]|]. right. eexists _, _, _. split; [reflexivity|]. split; [vm_compute; reflexivity|]. split; [vm_compute; reflexivity|].
  pv_tac.
Qed.
Lemma sec_set tr s m : sec tr (m_set_sec tr s m) = s. Proof. destruct tr; reflexivity. Qed.
Lemma sec_emit tr l m : sec tr (m_emit l m) = sec tr m. Proof. destruct tr; reflexivity. Qed.
Lemma sinv_put G t k h s : sinv G t s -> linv t h -> ident G (k, h) -> sinv G t (put_handler k h s).
Proof.
  intros [Hn Hf] Hl Hi. split; cbn [s_handlers put_handler s_set_handlers]; [apply dset_NoDup, Hn|].
  apply Forall_forall. intros kh Hin. apply in_dset in Hin as [->|Hin]; [auto|]. rewrite Forall_forall in Hf. apply Hf, Hin.
Qed.
Lemma dset_dset {A} k (a b : A) d : dset k b (dset k a d) = dset k b d.
Proof.
  induction d as [|[k2 v2] d IH]; cbn; [rewrite str_eqb_refl; reflexivity|].
  destruct (str_eqb k k2) eqn:E; cbn; rewrite E; [reflexivity|f_equal; exact IH].
Qed.
(** The handler for a line. *)
Lemma find_handler_pass G t s name s2 h : find_handler s name = (s2, h) -> sinv G t s -> G name ->
  hpre t h /\ ident G (lower name, h) /\ s_parsed s2 = s_parsed s
  /\ (forall h', put_handler (lower name) h' s2 = put_handler (lower name) h' s).
Proof.
  unfold find_handler. destruct (dget (lower name) (s_handlers s)) as [h0|] eqn:E; intros H [Hn Hf] Hg; injection H as <- <-.
  - apply dget_In in E. rewrite Forall_forall in Hf. destruct (Hf _ E) as [Hl Hi]. split; [apply Hl|]. auto.
  - split; [apply hpre_new|]. split; [exists name; split; [exact Hg|]; split; [reflexivity|apply same_id_refl]|]. split; [reflexivity|].
    intros h'. unfold put_handler, s_set_handlers. cbn [s_handlers s_trailer s_text s_parsed s_size]. rewrite dset_dset. reflexivity.
Qed.
Lemma linv_pre t h h1 : hpre t h1 -> (wrong t (h_cls h) = true /\ h1 = h_set_val h VNone) \/ (h_cls h = F__unknown /\ h1 = h) -> linv t h1.
Proof.
  intros Hp H. split; [exact Hp|]. destruct H as [[Hw ->]|[Hu ->]]; cbn [h_cls h_val h_raw h_set_val].
  - split; [destruct (kind_of _); auto; discriminate|]. intros E. rewrite E, wrong_ct in Hw. discriminate.
  - rewrite Hu. split; [exact I|discriminate].
Qed.
Lemma same_id_ident G k h h' : ident G (k, h) -> same_id h h' -> ident G (k, h').
Proof. intros (n & H1 & H2 & H3) Hi. exists n. split; [exact H1|]. split; [exact H2|]. apply (same_id_trans _ _ _ H3 Hi). Qed.

Lemma field_line_pass G e rel tr m o raw :
  sinv G (m_type m) (sec tr m) -> G (fst (read_name (fst raw))) ->
  let '(m', o', r) := field_line e rel tr m o raw in
  noted m m' /\ sinv G (m_type m) (sec tr m') /\ s_parsed (sec tr m') = s_parsed (sec tr m)
  /\ match r with Ok _ => True | Err _ => bad_world (mkCx e m rel) end.
Proof.
  destruct raw as [name value]. intros Hs Hg. unfold field_line. cbn [fst] in Hg.
  pose proof (fsevf_fsev _ _ (read_name_ok F__unknown (offset_subj o) name)) as E1. destruct (read_name name) as [sname l1]. cbn [fst snd] in *.
  pose proof (fsevf_fsev _ _ (read_value_ok F__unknown (offset_subj o) sname value)) as E2. destruct (read_value sname value) as [sv l2]. cbn [snd] in E2.
  set (size := N.of_nat _). set (s1 := s_line (sec tr m) size (sname, sv)).
  assert (Hs1 : sinv G (m_type m) s1) by exact Hs.
  destruct (find_handler s1 sname) as [s2 h] eqn:Ef.
  destruct (find_handler_pass G (m_type m) s1 sname s2 h Ef Hs1 Hg) as (Hp & Hi & Hpar & Hput).
  pose proof (pre_check_pass (m_type m) h Hp) as Hpc.
  destruct (pre_check (m_type m) h) as [[h1 l3] go]. destruct Hpc as (E3 & Hid & Hraw & Haux & Hp1 & Hgo & Hstop).
  pose proof (fsevf_fsev _ _ (tag_fsev _ _ (offset_subj o) (line_base h) _ (line_base_str h) (fbase_in _ (fbase_line h)) E3)) as F3.
  assert (F : Forall fsev (tag (offset_subj o) [] (l1 ++ l2) ++ tag (offset_subj o) (line_base h) l3)).
  { apply Forall_app. split; [|exact F3]. rewrite tag_app. apply Forall_app. auto. }
  set (m1 := m_set_sec tr _ _).
  assert (N1 : noted m m1) by (apply noted_set_emit, F).
  assert (S1 : sec_only tr m m1) by apply sec_only_set_emit.
  assert (T1 : m_type m1 = m_type m) by (apply (sec_only_type tr), S1).
  assert (P1 : s_parsed (sec tr m1) = s_parsed (sec tr m)).
  { unfold m1. rewrite sec_set. cbn [s_parsed put_handler s_set_handlers]. exact Hpar. }
  assert (Hi1 : ident G (lower sname, h1)) by (eapply same_id_ident; [exact Hi|exact Hid]).
  destruct go; cbn [negb].
  2: { split; [exact N1|]. split; [|auto]. unfold m1. rewrite sec_set, Hput. apply sinv_put; auto.
       apply (linv_pre (m_type m) h h1 Hp1). apply Hstop. reflexivity. }
  destruct (Hgo eq_refl) as [Hw ->].
  assert (HI := handle_input_pass (mkCx e m1 rel) h sv o). cbn [cx_msg] in HI. rewrite T1 in HI. specialize (HI Hp Hw).
  destruct (handle_input (mkCx e m1 rel) h sv o) as [[l4 h2] r]. destruct HI as (F4 & I4 & L4 & R4).
  set (m2 := m_emit l4 _).
  assert (N2 : noted m m2).
  { apply (noted_trans m m1 m2); [exact T1|exact N1|]. apply noted_emit_set, (fsevi_fsev _ _ F4). }
  assert (S2 : sinv G (m_type m) (sec tr m2)).
  { unfold m2. rewrite sec_emit, sec_set. unfold m1. rewrite sec_set.
    assert (Eq : put_handler (lower sname) h2 (put_handler (lower sname) h s2) = put_handler (lower sname) h2 s1).
    { rewrite Hput. unfold put_handler, s_set_handlers. cbn [s_handlers s_trailer s_text s_parsed s_size]. rewrite dset_dset. reflexivity. }
    rewrite Eq. apply sinv_put; auto. eapply same_id_ident; [exact Hi|exact I4]. }
  assert (P2 : s_parsed (sec tr m2) = s_parsed (sec tr m)).
  { unfold m2. rewrite sec_emit, sec_set. cbn [s_parsed put_handler s_set_handlers]. exact P1. }
  assert (T2 : m_type m2 = m_type m) by (unfold m2, m1; destruct tr; reflexivity).
  destruct r as [x|x].
  - split; [|split; [rewrite sec_emit; exact S2|split; [rewrite sec_emit; exact P2|exact I]]].
    apply (noted_trans m m2); [exact T2|exact N2|]. apply noted_emit. destruct (max_field_size <? size); [|constructor].
    constructor; [|constructor]. exists F__unknown. split; [split; [constructor|intros ? []]|]. right. eexists _, _, _. split; [reflexivity|]. split; [vm_compute; reflexivity|].
    split; [vm_compute; reflexivity|]. pv_tac.
  - split; [exact N2|]. split; [exact S2|]. split; [exact P2|]. intros [Hc Hsn]. apply R4. split; [exact Hc|].
    apply (sane_sec tr e rel m m1 S1 P1 Hsn).
Qed.
Lemma field_lines_pass G e rel tr l : forall m o,
  sinv G (m_type m) (sec tr m) -> Forall (fun raw => G (fst (read_name (fst raw)))) l ->
  let '(m', r) := field_lines e rel tr m o l in
  noted m m' /\ sinv G (m_type m) (sec tr m') /\ s_parsed (sec tr m') = s_parsed (sec tr m)
  /\ match r with Ok _ => True | Err _ => bad_world (mkCx e m rel) end.
Proof.
  induction l as [|raw l IH]; intros m o Hs Hg; cbn [field_lines].
  - split; [apply noted_refl|]. auto.
  - inversion Hg as [|? ? Hg1 Hg2]; subst. pose proof (field_line_pass G e rel tr m o raw Hs Hg1) as H.
    pose proof (field_line_frame e rel tr m o raw) as Fr.
    destruct (field_line e rel tr m o raw) as [[m' o'] [u|x]]; cbn [fst] in Fr; destruct H as (N & S & P & R); [|auto].
    pose proof (sec_only_type _ _ _ Fr) as T. specialize (IH m' o'). rewrite T in IH. specialize (IH S Hg2).
    destruct (field_lines e rel tr m' o' l) as [m2 r2]. destruct IH as (N2 & S2 & P2 & R2).
    split; [apply (noted_trans m m' m2); auto|]. split; [exact S2|]. split; [congruence|].
    destruct r2; [exact I|]. intros [Hc Hsn]. apply R2. split; [exact Hc|]. apply (sane_sec tr e rel m m' Fr P Hsn).
Qed.
Lemma section_size_pass tr m : noted m (section_size tr m) /\ sec tr (section_size tr m) = sec tr m.
Proof.
  unfold section_size. destruct (_ <? _); [|split; [apply noted_refl|reflexivity]]. split; [|apply sec_emit].
  apply noted_emit. constructor; [|constructor]. exists F__unknown. split; [split; [constructor|intros ? []]|]. right. eexists _, _, _. split; [reflexivity|]. split; [vm_compute; reflexivity|].
  split; [vm_compute; reflexivity|]. pv_tac.
Qed.

(** The library functions do what fields with names in [G] need. *)
Definition calm (G : str -> Prop) (e : env) : Prop := url_errors e /\ forall n, G n -> fit (find_class n) e.
Definition gwild (G : str -> Prop) (c : cx) : Prop := ~ (calm G (cx_env c) /\ sane c).
Lemma wild_gwild (G : str -> Prop) k h c : ident G (k, h) -> wild (h_cls h) c -> gwild G c.
Proof.
  intros (n & Hn & _ & (E1 & _)) Hw [[H1 H2] H3]. apply Hw. split; [exact H1|]. split; [|exact H3].
  cbn [snd] in E1. rewrite E1. apply (H2 n Hn).
Qed.
(** Names without surrounding whitespace. *)
Definition bare_name (s : str) : Prop := strip s = s.
Lemma ident_norm (G : str -> Prop) k h : (forall n, G n -> bare_name n) -> ident G (k, h) -> find_class (h_norm h) = h_cls h.
Proof.
  intros HG (n & Hn & _ & (E1 & _ & E3 & _)). cbn [fst snd] in *. rewrite E1, E3. cbn [h_norm h_cls new_handler].
  rewrite (HG n Hn). apply find_class_lower.
Qed.
(** The handler of every parsed field is there. *)
Definition kept (s : section) : Prop := forall k, dmem k (s_parsed s) = true -> dmem k (s_handlers s) = true.
Lemma ident_key (G : str -> Prop) k h : (forall n, G n -> bare_name n) -> ident G (k, h) -> h_norm h = k.
Proof.
  intros HG (n & Hn & Ek & (_ & _ & E3 & _)). cbn [fst snd] in *. rewrite E3, Ek. cbn [h_norm new_handler].
  rewrite (HG n Hn). reflexivity.
Qed.
Definition all_fin (t : mtype) (s : section) : Prop :=
  NoDup (keys (s_handlers s)) /\ forall k h, dget k (s_handlers s) = Some h -> fin_ok t h.
Definition tsane (e : env) (rel : option mstate) (m : mstate) : Prop := sane (mkCx e m rel).

Lemma finish_one_pass (G : str -> Prop) e rel tr m k h :
  linv (m_type m) h -> ident G (k, h) ->
  let '(m', r) := finish_one e rel tr m (k, h) in
  noted m m'
  /\ match r with
     | Ok _ => (exists h', fin_ok (m_type m) h' /\ same_id h h' /\ s_handlers (sec tr m') = dset k h' (s_handlers (sec tr m)))
               /\ ((forall n, G n -> bare_name n) -> tsane e rel m -> tsane e rel m')
               /\ ((forall n, G n -> bare_name n) -> kept (sec tr m) -> kept (sec tr m'))
     | Err _ => gwild G (mkCx e m rel)
     end.
Proof.
  intros Hl Hi. unfold finish_one.
  pose proof (finish_pass (mkCx e m rel) (field_subj h) (sec_base tr h) h (fbase_sec tr h) Hl) as H.
  destruct (finish_handler _ _ _ _) as [[l h'] r]. destruct H as (F & I' & R). cbn [cx_msg] in R.
  set (m1 := m_emit l _). assert (N1 : noted m m1) by (apply noted_emit_set, (fsevi_fsev _ _ F)).
  destruct r as [x|x]; [|split; [exact N1|apply (wild_gwild G k h _ Hi R)]]. destruct R as [R _].
  split; [destruct tr; exact N1|]. split.
  - exists h'. split; [exact R|]. split; [exact I'|]. rewrite sec_set. cbn [s_handlers s_set_parsed]. unfold m1.
    rewrite sec_emit, sec_set. reflexivity.
  - split.
    2: { intros HG Hk k2. pose proof (ident_key G k h' HG (same_id_ident G k h h' Hi I')) as Hn.
         unfold m1. rewrite sec_set, !sec_emit, sec_set. cbn [s_parsed s_handlers s_set_parsed put_handler s_set_handlers]. rewrite Hn.
         unfold dmem. rewrite !dget_dset. destruct (str_eqb k2 k); [reflexivity|]. apply Hk. }
    intros HG Hs. pose proof (ident_norm G k h' HG (same_id_ident G k h h' Hi I')) as Hc.
    destruct tr.
    + revert Hs. unfold tsane. apply sane_same; reflexivity.
    + destruct Hs as (S1 & S2 & S3). split; [|split]; cbn [cx_msg cx_rel] in *; auto.
      intros k2 v. cbn. rewrite dget_dset. destruct (str_eqb k2 (h_norm h')) eqn:E.
      * apply str_eqb_eq in E. subst k2. intros Ev. injection Ev as <-. rewrite Hc. apply R.
      * apply S1.
Qed.
Lemma finish_all_pass (G : str -> Prop) e rel tr l : forall m,
  NoDup (keys l) -> Forall (fun kh => linv (m_type m) (snd kh) /\ ident G kh) l ->
  NoDup (keys (s_handlers (sec tr m))) -> Forall (ident G) (s_handlers (sec tr m)) ->
  (forall k h, dget k (s_handlers (sec tr m)) = Some h -> fin_ok (m_type m) h \/ In k (keys l)) ->
  let '(m', r) := finish_all e rel tr m l in
  noted m m'
  /\ match r with
     | Ok _ => all_fin (m_type m) (sec tr m') /\ Forall (ident G) (s_handlers (sec tr m'))
               /\ ((forall n, G n -> bare_name n) -> tsane e rel m -> tsane e rel m')
               /\ ((forall n, G n -> bare_name n) -> kept (sec tr m) -> kept (sec tr m'))
     | Err _ => (forall n, G n -> bare_name n) -> gwild G (mkCx e m rel)
     end.
Proof.
  induction l as [|[k h] l IH]; intros m Hn Hf Hnd Hidn Hd; cbn [finish_all].
  - split; [apply noted_refl|]. split; [|auto]. split; [exact Hnd|]. intros k h E. destruct (Hd k h E) as [H|[]]. exact H.
  - inversion Hf as [|? ? [Hl Hi] Hf2]; subst. inversion Hn as [|? ? Hnk Hn2]; subst. cbn [snd] in Hl.
    pose proof (finish_one_pass G e rel tr m k h Hl Hi) as H. pose proof (finish_one_frame e rel tr m (k, h)) as Fr.
    destruct (finish_one e rel tr m (k, h)) as [m' [u|x]]; cbn [fst] in Fr; destruct H as [N R]; [|split; [exact N|auto]].
    destruct R as [(h' & Hfin & Hid & Eh) [Hty Hkp]]. pose proof (sec_only_type _ _ _ Fr) as T.
    specialize (IH m' Hn2). rewrite T in IH. specialize (IH Hf2).
    assert (Hnd' : NoDup (keys (s_handlers (sec tr m')))) by (rewrite Eh; apply dset_NoDup, Hnd). specialize (IH Hnd').
    assert (Hidn' : Forall (ident G) (s_handlers (sec tr m'))).
    { rewrite Eh. apply Forall_forall. intros [k2 h2] Hin. apply in_dset in Hin as [Hin|Hin].
      - injection Hin as -> ->. apply (same_id_ident G k h h' Hi Hid).
      - rewrite Forall_forall in Hidn. apply Hidn, Hin. }
    specialize (IH Hidn').
    assert (Hd' : forall k2 h2, dget k2 (s_handlers (sec tr m')) = Some h2 -> fin_ok (m_type m) h2 \/ In k2 (keys l)).
    { intros k2 h2. rewrite Eh, dget_dset. destruct (str_eqb k2 k) eqn:E.
      - intros E2. injection E2 as <-. left. exact Hfin.
      - intros E2. destruct (Hd k2 h2 E2) as [H|[H|H]]; [left; exact H| |right; exact H].
        cbn in H. subst k2. rewrite str_eqb_refl in E. discriminate. }
    specialize (IH Hd'). destruct (finish_all e rel tr m' l) as [m2 r2]. destruct IH as [N2 R2].
    split; [apply (noted_trans m m' m2); auto|]. destruct r2 as [u2|x2].
    + destruct R2 as (A2 & I2 & B2 & C2). split; [exact A2|]. split; [exact I2|]. split; [intros HG Hs; apply B2, Hty; auto|]. intros HG Hk. apply C2, Hkp; auto.
    + intros HG [Hc Hs]. apply (R2 HG). split; [exact Hc|]. exact (Hty HG Hs).
Qed.

Theorem process_pass (G : str -> Prop) e rel tr m l :
  s_handlers (sec tr m) = [] -> Forall (fun raw => G (fst (read_name (fst raw)))) l ->
  let '(m', r) := process e rel tr m l in
  noted m m'
  /\ match r with
     | Ok _ => all_fin (m_type m) (sec tr m') /\ Forall (ident G) (s_handlers (sec tr m'))
               /\ ((forall n, G n -> bare_name n) -> tsane e rel m -> tsane e rel m')
               /\ ((forall n, G n -> bare_name n) -> s_parsed (sec tr m) = [] -> kept (sec tr m'))
     | Err _ => (forall n, G n -> bare_name n) -> gwild G (mkCx e m rel)
     end.
Proof.
  intros H0 Hg. unfold process.
  assert (Hs : sinv G (m_type m) (sec tr m)) by (split; rewrite H0; constructor).
  pose proof (field_lines_pass G e rel tr l m 0 Hs Hg) as H. pose proof (field_lines_frame e rel tr l m 0) as Fr.
  destruct (field_lines e rel tr m 0 l) as [m1 [u|x]]; cbn [fst] in Fr; destruct H as (N & S & P & R); [|split; [exact N|]; intros _ [[Hc _] Hsn]; apply R; split; assumption].
  cbv zeta. destruct (section_size_pass tr m1) as [N2 E2]. set (m2 := section_size tr m1) in *.
  pose proof (sec_only_type _ _ _ Fr) as T. pose proof (section_size_frame tr m1) as Fr2. fold m2 in Fr2.
  assert (T2 : m_type m2 = m_type m) by (rewrite Fr2; exact T).
  assert (N12 : noted m m2) by (apply (noted_trans m m1 m2); auto).
  assert (SS : tsane e rel m -> tsane e rel m2).
  { intros Hsn. apply (sane_sec tr e rel m1 m2); [apply notes_sec_only, Fr2|rewrite E2; reflexivity|].
    apply (sane_sec tr e rel m m1 Fr P Hsn). }
  destruct S as [S1 S2]. rewrite <- E2 in S1, S2.
  pose proof (finish_all_pass G e rel tr (s_handlers (sec tr m2)) m2 S1) as H. rewrite T2 in H. specialize (H S2 S1).
  specialize (H (Forall_impl _ (fun a Ha => proj2 Ha) S2)).
  assert (Hd : forall k h, dget k (s_handlers (sec tr m2)) = Some h -> fin_ok (m_type m) h \/ In k (keys (s_handlers (sec tr m2)))).
  { intros k h E. right. rewrite <- dget_Some_in. eauto. }
  specialize (H Hd). destruct (finish_all e rel tr m2 (s_handlers (sec tr m2))) as [m3 r3]. destruct H as [N3 R3].
  split; [apply (noted_trans m m2 m3); auto|]. destruct r3 as [u3|x3].
  - destruct R3 as (A & I3 & B & C). split; [exact A|]. split; [exact I3|]. split; [intros HG Hsn; apply B; auto|]. intros HG Hp. apply (C HG).
    intros k. rewrite E2, P, Hp. discriminate.
  - intros HG [Hc Hsn]. apply (R3 HG). split; [exact Hc|]. exact (SS Hsn).
Qed.
