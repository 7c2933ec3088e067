(** * A program logic for the [W] monad, and what every note of field code
    satisfies.

    [wp P E Q m]: every event of [m] satisfies [P]; if [m] returns, its value
    satisfies [Q]; if it raises, the exception satisfies [E]. *)
From Verif Require Import PyStr Regex Note PyLib Utils FieldAttrs Types Fields1 Fields2 Fields3 Framework Spans.
Open Scope N_scope.

Definition wp {A} (P : ev -> Prop) (E : exn -> Prop) (Q : A -> Prop) (m : W A) : Prop :=
  Forall P (fst m) /\ match snd m with Ok a => Q a | Err e => E e end.
Definition rp {A} (E : exn -> Prop) (Q : A -> Prop) (r : res A) : Prop :=
  match r with Ok a => Q a | Err e => E e end.

Section Rules.
  Variables (P : ev -> Prop) (E : exn -> Prop).

  Lemma wp_ret {A} (Q : A -> Prop) a : Q a -> wp P E Q (ret a).
  Proof. split; [constructor|exact H]. Qed.
  Lemma wp_raise {A} (Q : A -> Prop) x : E x -> wp P E Q (raise x).
  Proof. split; [constructor|exact H]. Qed.
  Lemma wp_tell (Q : unit -> Prop) l : Forall P l -> Q tt -> wp P E Q (tell l).
  Proof. split; assumption. Qed.
  Lemma wp_note (Q : unit -> Prop) n v : P (ENote n None v []) -> Q tt -> wp P E Q (add_note n v).
  Proof. intros; apply wp_tell; auto. Qed.
  Lemma wp_lift {A} (Q : A -> Prop) r : rp E Q r -> wp P E Q (lift r).
  Proof. split; [constructor|exact H]. Qed.
  Lemma wp_bind {A B} (R : A -> Prop) (Q : B -> Prop) m f :
    wp P E R m -> (forall a, R a -> wp P E Q (f a)) -> wp P E Q (bind m f).
  Proof.
    intros [H1 H2] Hf. destruct m as [l [a|x]]; cbn in *.
    - specialize (Hf a H2). destruct (f a) as [l' r]; cbn in *. destruct Hf as [Hl Hr].
      split; cbn; [apply Forall_app; auto|exact Hr].
    - split; cbn; assumption.
  Qed.
  (** The value of the first part is not used. *)
  Lemma wp_seq {A B} (Q : B -> Prop) (m : W A) k :
    wp P E (fun _ => True) m -> wp P E Q k -> wp P E Q (bind m (fun _ => k)).
  Proof. intros; eapply wp_bind; eauto. Qed.
  Lemma wp_when (Q : unit -> Prop) b m : (b = true -> wp P E Q m) -> Q tt -> wp P E Q (when b m).
  Proof. destruct b; cbn; intros; auto. apply wp_ret; auto. Qed.
  Lemma wp_when_seq {B} (Q : B -> Prop) b m k :
    (b = true -> wp P E (fun _ => True) m) -> wp P E Q k -> wp P E Q (bind (when b m) (fun _ => k)).
  Proof. intros; apply wp_seq; auto. apply wp_when; auto. Qed.
  Lemma wp_conseq {A} (P' : ev -> Prop) (E' : exn -> Prop) (Q Q' : A -> Prop) m :
    wp P' E' Q' m -> (forall e, P' e -> P e) -> (forall x, E' x -> E x) -> (forall a, Q' a -> Q a) ->
    wp P E Q m.
  Proof.
    intros [H1 H2] HP HE HQ. split.
    - eapply Forall_impl; eauto.
    - destruct (snd m); auto.
  Qed.
  Lemma wp_bind_lift {A B} (R : A -> Prop) (Q : B -> Prop) r f :
    rp E R r -> (forall a, R a -> wp P E Q (f a)) -> wp P E Q (bind (lift r) f).
  Proof. intros; eapply wp_bind; eauto. apply wp_lift; auto. Qed.
  Lemma wp_mapW {A B} (R : B -> Prop) (f : A -> W B) l :
    (forall x, In x l -> wp P E R (f x)) -> wp P E (fun ys => Forall R ys) (mapW f l).
  Proof.
    induction l as [|a l IH]; intros H; cbn [mapW].
    - apply wp_ret; constructor.
    - eapply wp_bind; [apply H; left; reflexivity|]. intros b Hb.
      eapply wp_bind; [apply IH; intros; apply H; right; assumption|]. intros bs Hbs.
      apply wp_ret; constructor; auto.
  Qed.
  Lemma wp_iterW {A} (Q : unit -> Prop) (f : A -> W unit) l :
    (forall x, In x l -> wp P E (fun _ => True) (f x)) -> Q tt -> wp P E Q (iterW f l).
  Proof.
    intros H HQ. unfold iterW. eapply wp_bind; [apply wp_mapW; exact H|].
    intros; apply wp_ret; auto.
  Qed.
  Lemma wp_foldW {A S} (I : S -> Prop) (f : S -> A -> W S) l s :
    I s -> (forall s x, I s -> In x l -> wp P E I (f s x)) -> wp P E I (foldW f l s).
  Proof.
    revert s; induction l as [|a l IH]; intros s Hs H; cbn [foldW].
    - apply wp_ret; auto.
    - eapply wp_bind; [apply H; [exact Hs|left; reflexivity]|].
      intros s' Hs'. apply IH; auto. intros; apply H; auto. right; auto.
  Qed.
  Lemma wp_catch {A} (Q : A -> Prop) m h :
    wp P (fun x => is_ValueError x = true \/ E x) Q m -> wp P E Q h -> wp P E Q (catch_value m h).
  Proof.
    intros [H1 H2] [H3 H4]. destruct m as [l [a|x]]; cbn in *; [split; auto|].
    destruct (is_ValueError x) eqn:Hx.
    - destruct h as [l' r]; split; cbn in *; [apply Forall_app; auto|auto].
    - split; cbn; auto. destruct H2; [congruence|auto].
  Qed.
End Rules.

Section ResRules.
  Variable (E : exn -> Prop).
  Lemma rp_rbind {A B} (R : A -> Prop) (Q : B -> Prop) r f :
    rp E R r -> (forall a, R a -> rp E Q (f a)) -> rp E Q (rbind r f).
  Proof. destruct r; cbn; auto. Qed.
  Lemma rp_rmap {A B} (Q : B -> Prop) (r : res A) f :
    rp E (fun a => Q (f a)) r -> rp E Q (rmap f r).
  Proof. destruct r; cbn; auto. Qed.
  Lemma rp_conseq {A} (Q Q' : A -> Prop) r : rp E Q r -> (forall a, Q a -> Q' a) -> rp E Q' r.
  Proof. destruct r; cbn; auto. Qed.
  Lemma rp_mapR {A B} (R : B -> Prop) (f : A -> res B) l :
    (forall x, In x l -> rp E R (f x)) -> rp E (fun ys => Forall R ys) (mapR f l).
  Proof.
    induction l as [|a l IH]; intros H; cbn [mapR]; [constructor|].
    eapply rp_rbind; [apply H; left; reflexivity|]. intros b Hb.
    apply rp_rmap. eapply rp_conseq; [apply IH; intros; apply H; right; auto|].
    intros; constructor; auto.
  Qed.
End ResRules.

(** ** What a note of field code satisfies *)

(** The text of a [MarkdownSafe] value: code spans, each after one of a few
    fixed separators; what is inside a span has no backtick. *)
Definition md_seps : list str := [u "- "; 10 :: u "- "; u "* "; 10 :: u "* "; u ", "; u ": "; []].
Definition md_span (p : str * str) : str := fst p ++ [96] ++ snd p ++ [96].
Definition md_shape (s : str) : Prop :=
  exists l : list (str * str),
    s = flat_map md_span l
    /\ Forall (fun p => In (fst p) md_seps /\ has_chr 96 (snd p) = false) l.

(** The note classes whose variables hold a RelativeTime. *)
Definition timed (n : nid) : bool :=
  match n with
  | DATE_INCORRECT | LM_PRESENT | SET_COOKIE_LIFETIME_TOO_LONG
  | CURRENT_AGE | FRESHNESS_SHARED_PRIVATE | FRESHNESS_FRESH | FRESHNESS_STALE_ALREADY => true
  | _ => false
  end.
(** A note variable of a note of class [n]. *)
Definition pv_ok (n : nid) (v : pyval) : Prop :=
  match v with VMd s => md_shape s | VRel _ _ _ => timed n = true | _ => True end.
(** ... and what it may be outside a code span. *)
Definition kv_ok (n : nid) (kv : str * pyval) : Prop :=
  pv_ok n (snd kv) /\ (str_in (fst kv) (open_keys n) = true -> tame (snd kv) = true).
Definition k_message_type : str := u "message_type".
(** The templates of [n] need nothing but [base] and [ks]. *)
Definition covered (n : nid) (ks : list str) : bool := forallb (fun k => str_in k ks) (needed_keys n).
Definition note_ok (n : nid) (base : list str) (vrs : vars) : Prop :=
  covered n (base ++ keys vrs) = true /\ Forall (kv_ok n) vrs.

(** The files whose note classes field [f] may report (and four of cors.py). *)
Definition parsers (s : string) : string := ("field/parsers/" ++ s ++ ".py")%string.
Definition own_files (f : fname) : list string :=
  parsers (fa_module (attrs f)) :: "field/utils.py"%string ::
  match f with
  | F_content_security_policy_report_only => [parsers "content_security_policy"]
  | F_cross_origin_embedder_policy_report_only => [parsers "cross_origin_embedder_policy"]
  | F_cross_origin_opener_policy_report_only => [parsers "cross_origin_opener_policy"]
  | F_cache_control => []
  | F_tcn | F__unnecessary => ["field/unnecessary.py"]
  | _ => []
  end%string.
Definition own (f : fname) (n : nid) : bool :=
  existsb (String.eqb (nid_file n)) (own_files f)
  || match f, n with
     | F_access_control_allow_origin,
       (CORS_ORIGIN_NULL | CORS_ORIGIN_STAR | CORS_ORIGIN_MATCH | CORS_ORIGIN_MISMATCH) => true
     | _, _ => false
     end.
Definition base_msg : list str := [k_message_type].
Definition base_fld : list str := [k_message_type; k_field_name].
(** A sub-note also has its parent's variables: these, and those of every note. *)
Definition parent_keys : list str := [u "report_only"; u "report_only_text"].
Definition kid_open (parent kid : nid) : bool :=
  forallb (fun k => str_in k (open_keys parent) || negb (str_in k parent_keys))%bool (open_keys kid).
Definition kid_ok (f : fname) (parent : nid) (k : nid * vars) : Prop :=
  own f (fst k) = true /\ note_ok (fst k) base_fld (snd k)
  /\ (timed parent = false /\ kid_open parent (fst k) = true).
(** A subject that is not that of a field line. *)
Definition offless (s : str) : Prop := startswith (u "offset-") s = false.
Definition fev (f : fname) (e : ev) : Prop :=
  match e with
  | ENote n _ vrs kids =>
      own f n = true /\ note_ok n base_fld vrs /\ (kids = [] \/ incl (keys vrs) parent_keys) /\ Forall (kid_ok f n) kids
  | EMsg s n vrs => own f n = true /\ note_ok n base_msg vrs /\ (f = F_set_cookie \/ offless s)
  | EDefer n _ vrs =>
      (* reported later, as a sub-note of a note with field_name, or with field_name itself *)
      own f n = true /\ note_ok n base_fld vrs /\ forallb (fun k => negb (str_in k parent_keys)) (open_keys n) = true
  | EMark _ => True
  | EKid p n vrs => own f n = true /\ own f p = true /\ note_ok n base_msg vrs
                  /\ forallb (fun k => str_in k (open_keys p)) (open_keys n) = true /\ p = CONTENT_SECURITY_POLICY
  end.

(** Facts about [md_shape]. *)
Lemma has_chr_remove c s : has_chr c (remove_chr c s) = false.
Proof.
  unfold has_chr, remove_chr. induction s as [|d s IH]; cbn; [reflexivity|].
  destruct (d =? c) eqn:H; cbn; [exact IH|].
  destruct (c =? d) eqn:H'; cbn; [apply N.eqb_eq in H'; subst; rewrite N.eqb_refl in H; discriminate|exact IH].
Qed.
Definition span_ok (p : str * str) : Prop := In (fst p) md_seps /\ has_chr 96 (snd p) = false.
Lemma join_cons sep a b l : join sep (a :: b :: l) = a ++ sep ++ join sep (b :: l).
Proof. reflexivity. Qed.
(** Items made of spans, joined by a separator that merges with the next
    item's first separator. *)
Lemma join_spans sep its :
  Forall (fun it => exists h x r, it = (h, x) :: r /\ Forall span_ok it /\ In (sep ++ h) md_seps) its ->
  md_shape (join sep (map (flat_map md_span) its)).
Proof.
  intros H.
  assert (G : forall its, Forall (fun it => exists h x r, it = (h, x) :: r /\ Forall span_ok it
                                            /\ In (sep ++ h) md_seps) its ->
              its <> [] ->
              exists h x r, join sep (map (flat_map md_span) its) = flat_map md_span ((h, x) :: r)
                            /\ Forall span_ok ((h, x) :: r) /\ In (sep ++ h) md_seps).
  { clear. induction its as [|it its IH]; intros H Hne; [congruence|].
    inversion H as [|? ? (h & x & r & E & Hok & Hin) Ht]; subst.
    destruct its as [|it2 its].
    - exists h, x, r. cbn [map join]. auto.
    - destruct IH as (h2 & x2 & r2 & E2 & Hok2 & Hin2); [exact Ht|congruence|].
      exists h, x, (r ++ (sep ++ h2, x2) :: r2). split; [|split; auto].
      + change (join sep (map (flat_map md_span) (((h, x) :: r) :: it2 :: its)))
          with (flat_map md_span ((h, x) :: r) ++ sep ++ join sep (map (flat_map md_span) (it2 :: its))).
        rewrite E2.
        cbn [flat_map]. rewrite flat_map_app. cbn [flat_map]. unfold md_span; cbn [fst snd].
        rewrite <- !app_assoc. reflexivity.
      + inversion Hok; subst. constructor; auto. apply Forall_app; split; auto.
        inversion Hok2 as [|? ? [Hi Hb] Hr]; subst. constructor; auto. split; auto. }
  destruct its as [|it its].
  - exists []. split; [reflexivity|constructor].
  - destruct (G _ H) as (h & x & r & E & Hok & _); [congruence|].
    exists ((h, x) :: r). split; auto.
Qed.
Lemma join_items (pre sep : str) (l : list str) :
  In pre md_seps -> In (sep ++ pre) md_seps -> Forall (fun i => has_chr 96 i = false) l ->
  md_shape (join sep (map (fun i => pre ++ [96] ++ i ++ [96]) l)).
Proof.
  intros H1 H2 H.
  replace (map (fun i => pre ++ [96] ++ i ++ [96]) l)
    with (map (flat_map md_span) (map (fun i => [(pre, i)]) l)).
  - apply join_spans. apply Forall_map. eapply Forall_impl; [|exact H]. intros i Hi.
    exists pre, i, []. repeat split; auto. constructor; [split; auto|constructor].
  - rewrite map_map. apply map_ext. intros i. cbn. unfold md_span; cbn. rewrite app_nil_r. reflexivity.
Qed.
Lemma clean_items (pre sep : str) (l : list str) :
  In pre md_seps -> In (sep ++ pre) md_seps ->
  md_shape (join sep (map (fun i => pre ++ [96] ++ remove_chr 96 i ++ [96]) l)).
Proof.
  intros H1 H2.
  pose proof (join_items pre sep (map (remove_chr 96) l) H1 H2) as H.
  rewrite map_map in H. apply H. apply Forall_map, Forall_forall. intros; apply has_chr_remove.
Qed.
Lemma markdown_list_ok n l : pv_ok n (markdown_list l bt).
Proof. apply (clean_items (u "- ") [10] l); [now left|right; now left]. Qed.
Lemma star_list_ok n l : pv_ok n (star_list l).
Proof.
  unfold star_list. rewrite map_map.
  apply (clean_items (u "* ") [10] l); [right; right; now left|right; right; right; now left].
Qed.
Lemma hardened_ok n l :
  pv_ok n (VMd (join (u ", ") (map (fun n => bt ++ remove_chr 96 n ++ bt) l))).
Proof. apply (clean_items [] (u ", ") l); [do 6 right; now left|do 4 right; now left]. Qed.
Lemma hint_lines_ok n (targets : str -> list str) (l : list str) :
  Forall (fun x => has_chr 96 x = false /\ targets x <> []) l ->
  pv_ok n (VMd (join [10] (map (fun n => u "- `" ++ n ++ u "`: "
                 ++ join (u ", ") (map (fun t => bt ++ remove_chr 96 t ++ bt) (targets n))) l))).
Proof.
  intros H. cbn [pv_ok].
  set (sp := fun n => (u "- ", n) :: match targets n with
                                     | [] => []
                                     | t :: ts => (u ": ", remove_chr 96 t)
                                                  :: map (fun t => (u ", ", remove_chr 96 t)) ts
                                     end).
  assert (E : map (fun n => u "- `" ++ n ++ u "`: "
                 ++ join (u ", ") (map (fun t => bt ++ remove_chr 96 t ++ bt) (targets n))) l
              = map (flat_map md_span) (map sp l)).
  { rewrite map_map. apply map_ext_in. intros a Ha.
    rewrite Forall_forall in H. destruct (H a Ha) as [_ Hne].
    unfold sp. destruct (targets a) as [|t ts]; [congruence|]. clear.
    cbn [flat_map]. unfold md_span at 1 2. cbn [fst snd].
    change (u "- `") with (u "- " ++ [96]). change (u "`: ") with ([96] ++ u ": ").
    rewrite <- !app_assoc. do 5 f_equal.
    revert t. induction ts as [|t2 ts IH]; intros t.
    - cbn. rewrite <- ?app_assoc, ?app_nil_r. reflexivity.
    - cbn [map]. rewrite join_cons. cbn [map] in IH. rewrite IH.
      cbn [flat_map map]. unfold md_span at 2. cbn [fst snd]. unfold bt. rewrite <- !app_assoc. reflexivity. }
  rewrite E. apply join_spans. apply Forall_map. eapply Forall_impl; [|exact H].
  intros a [Ha Hne]. unfold sp. destruct (targets a) as [|t ts]; [congruence|].
  eexists _, _, _. split; [reflexivity|]. split.
  - constructor; [split; [now left|exact Ha]|].
    constructor; [split; [do 5 right; now left|apply has_chr_remove]|].
    apply Forall_map, Forall_forall. intros. split; [do 4 right; now left|apply has_chr_remove].
  - right; now left.
Qed.

(** ** The types of parsed values *)
Definition s_or_none (v : pyval) : Prop := v = VNone \/ exists s, v = VStr s.
Definition i_or_none (v : pyval) : Prop := v = VNone \/ exists z, v = VInt z.
Definition pdict (v : pyval) : Prop := exists d, v = VDict d /\ Forall (fun kv => s_or_none (snd kv)) d.
Definition text_pd (v : pyval) : Prop := exists s p, v = VTuple [VStr s; p] /\ pdict p.
Definition is_vstr (v : pyval) : Prop := exists s, v = VStr s.
Definition is_vint (v : pyval) : Prop := exists z, v = VInt z.
Definition q_or_none (v : pyval) : Prop := v = VNone \/ exists f, v = VFloat f.
Definition cc_ok (v : pyval) : Prop :=
  exists d x, v = VTuple [VStr d; x] /\ (s_or_none x \/ is_vint x)
              /\ (match dget d known_cc with Some (_, _, CCInt) => is_vint x | _ => True end).
Definition val_ok (f : fname) (v : pyval) : Prop :=
  match f with
  | F_accept => exists s p q, v = VTuple [VStr s; p; q] /\ pdict p /\ q_or_none q
  | F_accept_encoding | F_te | F_accept_patch | F_accept_post | F_content_disposition
  | F_content_type | F_link | F_server_timing | F_transfer_encoding => text_pd v
  | F_accept_language => exists s q, v = VTuple [VStr s; q] /\ q_or_none q
  | F_access_control_max_age | F_age | F_content_length | F_date | F_expires | F_last_modified
  | F_sunset => is_vint v
  | F_cache_control => cc_ok v
  | F_content_range =>
      exists s a b c, v = VTuple [VStr s; a; b; c] /\ i_or_none a /\ i_or_none b /\ i_or_none c
  | F_content_security_policy | F_content_security_policy_report_only =>
      exists d, v = VDict d /\ Forall (fun kv => is_vstr (snd kv)) d
  | F_cookie => exists l, v = VList l /\ Forall (fun x => exists a b, x = VTuple [VStr a; VStr b]) l
  | F_etag => exists b s, v = VTuple [VBool b; VStr s]
  | F_keep_alive => exists s x, v = VTuple [VStr s; x] /\ s_or_none x
  | F_origin => v = VNone \/ exists a b c, v = VOrigin a b c
  | F_range =>
      exists s l, v = VTuple [VStr s; VList l]
                  /\ Forall (fun x => exists a b, x = VTuple [a; b] /\ i_or_none a /\ i_or_none b) l
  | F_set_cookie =>
      exists n w l, v = VTuple [VStr n; VStr w; VList l]
        /\ Forall (fun x => exists k y, x = VTuple [VStr k; y] /\ (is_vstr y \/ is_vint y)) l
  | F_strict_transport_security =>
      exists m s p, v = VDict [(u "max-age", m); (u "includesubdomains", VBool s); (u "preload", VBool p)]
                    /\ i_or_none m
  | F__unnecessary | F__deprecated => v = VNone
  | _ => is_vstr v
  end.

(** The kind of message the field is not defined for. *)
Definition wrong (t : mtype) (f : fname) : bool :=
  match t with MRequest => negb (fa_req (attrs f)) | _ => negb (fa_resp (attrs f)) end.
Definition bare_pv (v : pyval) : Prop := exists b, v = bare_val b.
Definition sf_pd (v : pyval) : Prop := exists d, v = VDict d /\ Forall (fun kv => bare_pv (snd kv)) d.
(** An item or inner list with parameters. *)
Definition sf_mem (v : pyval) : Prop :=
  exists x p, v = VTuple [x; p] /\ sf_pd p /\ (bare_pv x \/ exists l, x = VList l).
(** The value of a handler of class [f], after the section is finished. *)
Definition hval_ok (t : mtype) (f : fname) (v : pyval) : Prop :=
  match kind_of f with
  | KList => (wrong t f = true /\ v = VNone)
             \/ (exists l, v = VList l /\ Forall (val_ok f) l)
  | KSingleton => (v = VNone /\ f <> F_content_type) \/ val_ok f v
  | KBroken => exists l, v = VList l /\ Forall (val_ok f) l
  | KSF SFItem => v = VNone \/ exists x p, v = VTuple [x; p] /\ bare_pv x /\ sf_pd p
  | KSF SFList => v = VNone \/ exists l, v = VList l /\ Forall sf_mem l
  | KSF SFDict => v = VNone \/ exists d, v = VDict d /\ Forall (fun kv => sf_mem (snd kv)) d
  | KJson => v = VNone \/ exists l, v = VList (map json_val l)
  | KUnknown => v = VList []
  end.
(** All parsed values of the header section of [m] have their types. *)
Definition typed (m : mstate) : Prop :=
  forall k v, dget k (s_parsed (m_headers m)) = Some v -> hval_ok (m_type m) (find_class k) v.
(** What Python documents about the URL functions, and their never failing. *)
Definition url_errors (e : env) : Prop :=
  (forall s x, e_urlsplit e s = Err x -> is_ValueError x = true)
  /\ (forall a b x, e_urljoin e a b = Err x -> is_ValueError x = true).
Definition url_total (e : env) : Prop :=
  (forall s x, e_urlsplit e s <> Err x) /\ (forall a b x, e_urljoin e a b <> Err x).
Definition sane (c : cx) : Prop :=
  typed (cx_msg c) /\ (match cx_rel c with Some r => typed r /\ m_type r = MRequest | None => True end)
  /\ (m_caching (cx_msg c) <> None -> m_type (cx_msg c) <> MRequest).
(** The exceptions a parser may raise, and an evaluate. *)
Definition Ep (c : cx) (x : exn) : Prop := url_errors (cx_env c) -> sane c -> is_ValueError x = true.
Definition Ee (c : cx) (x : exn) : Prop := ~ (url_total (cx_env c) /\ sane c).

(** ** Automation *)
Ltac keys_tac :=
  match goal with |- covered ?n _ = true => is_constructor n end;
  unfold covered, keys; cbn [map fst snd app vs vl vv]; unfold vs, vl, vv; cbn [fst];
  solve [vm_compute; reflexivity].
Ltac pv_old_tac :=
  cbn [snd vs vl vv]; try exact I;
  cbn [pv_ok];
  first [apply (markdown_list_ok CL_CORRECT) | apply (star_list_ok CL_CORRECT) | apply (hardened_ok CL_CORRECT) | reflexivity | idtac].
(** The variable is inside a code span, or its value is tame. *)
Create HintDb tame.
Lemma harmless_rev s : harmless (rev s) = harmless s.
Proof. induction s as [|c s IH]; [reflexivity|]. cbn [rev]. rewrite harmless_app, IH. cbn [harmless forallb]. rewrite Bool.andb_true_r. apply Bool.andb_comm. Qed.
Lemma harmless_cons c s : harmless (c :: s) = (negb (existsb (N.eqb c) [60; 62; 91; 93]) && harmless s)%bool.
Proof. reflexivity. Qed.
Lemma harmless_group3 n : forall s, harmless s = true -> harmless (group3 n s) = true.
Proof.
  induction n as [|n IH]; intros s H; [exact H|]. destruct s as [|a [|b [|c [|d s]]]]; try exact H.
  change (group3 (S n) (a :: b :: c :: d :: s)) with (a :: b :: c :: 44 :: group3 n (d :: s)).
  rewrite !harmless_cons in *. apply andb_true_iff in H as [H1 H]. apply andb_true_iff in H as [H2 H]. apply andb_true_iff in H as [H3 H].
  rewrite H1, H2, H3, (IH (d :: s) H). reflexivity.
Qed.
Lemma harmless_comma n : harmless (f_comma n ++ u " bytes") = true.
Proof.
  rewrite harmless_app, Bool.andb_true_r. unfold f_comma. cbv zeta. rewrite harmless_rev. apply harmless_group3. rewrite harmless_rev.
  unfold dec_nat, dec_N. apply harmless_dec_aux. reflexivity.
Qed.
#[export] Hint Resolve harmless_num harmless_comma : tame.
Lemma harmless_in l s : forallb harmless l = true -> str_in s l = true -> harmless s = true.
Proof. rewrite forallb_forall. intros H Hs. apply H, str_in_In, Hs. Qed.
Ltac open_tac :=
  cbn [fst snd vs vl vv v_ref];
  lazymatch goal with
  | |- str_in ?k (open_keys ?n) = true -> _ =>
      let b := eval vm_compute in (str_in k (open_keys n)) in
      lazymatch b with
      | false => let H := fresh in intros H; exfalso; vm_compute in H; discriminate H
      | _ => intros _; cbn [tame]; first [reflexivity | solve [auto with tame] | solve [vm_compute; reflexivity] | idtac]
      end
  end.
Ltac pv_tac :=
  repeat (apply Forall_cons || apply Forall_nil); (split; [pv_old_tac | open_tac]).
Ltac note_tac := split; [keys_tac | pv_tac].
Lemma own_utils f n : nid_file n = "field/utils.py"%string -> own f n = true.
Proof.
  intros H. unfold own, own_files. cbn [existsb]. rewrite H, String.eqb_refl.
  rewrite Bool.orb_true_r. reflexivity.
Qed.
(** [f] is a variable only where the note is one of field/utils.py. *)
Ltac own_tac :=
  match goal with
  | |- own ?f ?n = true =>
      first [assumption
            | is_constructor n; apply own_utils; reflexivity
            | is_constructor n; is_constructor f; vm_compute; reflexivity]
  end.
Ltac ev_tac :=
  cbn [fev]; repeat match goal with |- _ /\ _ => split end;
  match goal with
  | |- own _ _ = true => try own_tac
  | |- note_ok _ _ _ => note_tac
  | |- Forall _ [] => apply Forall_nil
  | |- timed _ = false => reflexivity
  | |- kid_open _ _ = true => vm_compute; reflexivity
  | |- forallb _ (open_keys ?n) = true => is_constructor n; vm_compute; reflexivity
  | |- [] = [] \/ _ => left; reflexivity
  | |- CONTENT_SECURITY_POLICY = CONTENT_SECURITY_POLICY => reflexivity
  | |- _ = F_set_cookie \/ offless _ => try (right; reflexivity)
  | _ => idtac
  end.

Ltac wp_step :=
  match goal with
  | |- wp _ _ _ (ret _) => apply wp_ret
  | |- wp _ _ _ (raise _) => apply wp_raise
  | |- wp _ _ _ (add_note _ _) => apply wp_note
  | |- wp _ _ _ (tell [_]) => apply wp_tell; [apply Forall_cons; [|apply Forall_nil]|]
  | |- wp _ _ _ (when _ _) => apply wp_when; [intro|]
  | |- wp _ _ _ (bind (when _ _) (fun _ => _)) => apply wp_when_seq; [intro|]
  | |- wp _ _ _ (bind (add_note _ _) (fun _ => _)) => apply wp_seq
  | |- wp _ _ _ (bind (tell _) (fun _ => _)) => apply wp_seq
  | |- wp _ _ _ (bind (ret _) _) => eapply wp_bind; [apply wp_ret; reflexivity|intros ? <-]
  | |- wp _ _ _ (if ?b then _ else _) => destruct b eqn:?
  | |- wp _ _ _ (let '(_, _) := ?x in _) => destruct x eqn:?
  | |- wp _ _ _ (match ?x with Some _ => _ | None => _ end) => destruct x eqn:?
  | |- wp _ _ (fun _ => True) (bind _ (fun _ => _)) => apply wp_seq
  | |- True => exact I
  | |- fev _ (ENote _ _ _ _) => ev_tac
  | |- fev _ (EMsg _ _ _) => ev_tac
  | |- fev _ (EDefer _ _ _) => ev_tac
  | |- fev _ (EMark _) => exact I
  | |- fev _ (EKid _ _ _) => ev_tac
  end.
Ltac wpt := repeat wp_step.
