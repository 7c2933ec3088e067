(** * A model of Python's backtracking regular expressions.

    [re] is the AST of the (pure) regular expressions in httplint/syntax/*.py.
    [ms r s] lists, in the priority order in which CPython's [sre] engine tries
    them, the remainders of [s] after every successful match of [r] at the
    start of [s].  [lang] is the textbook language; [ms_correct] ties the two. *)
From Verif Require Import PyStr.

Inductive re : Type :=
| Eps : re
| Chr : (N -> bool) -> re            (* a character or a character class *)
| NChr : (N -> bool) -> re           (* a negated class, [^...] or . *)
| Seq : re -> re -> re
| Alt : re -> re -> re
| Star : re -> re.                   (* greedy *)

(** Greedy star with [sre]'s guard: an iteration that consumes nothing ends the
    loop (its tail is tried, no further iteration is). *)
Fixpoint star_ms (body : str -> list str) (fuel : nat) (s : str) : list str :=
  match fuel with
  | O => [s]
  | S f =>
      flat_map (fun s' => if Nat.ltb (length s') (length s) then star_ms body f s' else [s'])
               (body s) ++ [s]
  end.

Fixpoint ms (r : re) (s : str) : list str :=
  match r with
  | Eps => [s]
  | Chr f => match s with
             | [] => []
             | c :: s' => if f c then [s'] else []
             end
  | NChr f => match s with
              | [] => []
              | c :: s' => if f c then [] else [s']
              end
  | Seq a b => flat_map (ms b) (ms a s)
  | Alt a b => ms a s ++ ms b s
  | Star a => star_ms (ms a) (length s) s
  end.

(** ** Derived operators *)
Definition Opt (r : re) : re := Alt r Eps.               (* r? *)
Definition Plus (r : re) : re := Seq r (Star r).         (* r+ *)
Definition Nothing : re := Chr (fun _ => false).
Definition chr (c : N) : re := Chr (N.eqb c).
Definition rng (a b : N) : re := Chr (fun c => (a <=? c) && (c <=? b)).
(** A class of code-point ranges, and its complement. *)
Definition in_ranges (l : list (N * N)) (c : N) : bool :=
  existsb (fun r => (fst r <=? c) && (c <=? snd r)) l.
Definition cls (l : list (N * N)) : re := Chr (in_ranges l).
Definition ncls (l : list (N * N)) : re := NChr (in_ranges l).
Fixpoint lit_ (s : str) : re :=
  match s with
  | [] => Eps
  | [c] => chr c
  | c :: s' => Seq (chr c) (lit_ s')
  end.
Definition lit (s : string) : re := lit_ (u s).
Fixpoint alts (l : list re) : re :=
  match l with
  | [] => Nothing
  | [r] => r
  | r :: l' => Alt r (alts l')
  end.
Fixpoint seqs (l : list re) : re :=
  match l with
  | [] => Eps
  | [r] => r
  | r :: l' => Seq r (seqs l')
  end.
(** r{n} *)
Fixpoint rep (n : nat) (r : re) : re :=
  match n with O => Eps | S O => r | S n' => Seq r (rep n' r) end.
(** r{0,n} *)
Fixpoint upto (n : nat) (r : re) : re :=
  match n with O => Eps | S n' => Opt (Seq r (upto n' r)) end.
(** r{a,b} *)
Definition between (a b : nat) (r : re) : re := Seq (rep a r) (upto (b - a)%nat r).
(** r{n,} *)
Definition atleast (n : nat) (r : re) : re := Seq (rep n r) (Star r).

(** re.IGNORECASE: a character matches a class if some character with the same
    lower-case form is in it; a negated class is the complement of that. *)
Definition ci (f : N -> bool) (c : N) : bool := f c || f (lowc c) || f (upc c).
Fixpoint nocase (r : re) : re :=
  match r with
  | Eps => Eps
  | Chr f => Chr (ci f)
  | NChr f => NChr (ci f)
  | Seq a b => Seq (nocase a) (nocase b)
  | Alt a b => Alt (nocase a) (nocase b)
  | Star a => Star (nocase a)
  end.

(** \s *)
Definition ws : re := Chr isspace.

(** [$] without re.MULTILINE: at the end, or just before a final newline. *)
Definition at_eol (s : str) : bool :=
  match s with [] => true | [10%N] => true | _ => false end.

(** [re.match(r"^r$", s) is not None]. *)
Definition match_dollar (r : re) (s : str) : bool := existsb at_eol (ms r s).
(** [re.match(r"^\s*(?:r)\s*$", s) is not None]. *)
Definition match_ws_dollar (r : re) (s : str) : bool :=
  match_dollar (Seq (Star ws) (Seq r (Star ws))) s.
(** [re.match(r, s)]: the number of characters matched ([match.end()]). *)
Definition match_prefix (r : re) (s : str) : option nat :=
  match ms r s with
  | [] => None
  | rest :: _ => Some (length s - length rest)%nat
  end.

(** The lookahead [(?=split|\s*$)] used by split_string / split_list_field. *)
Definition look_split_end (split : re) (rest : str) : bool :=
  match ms split rest with
  | _ :: _ => true
  | [] => existsb at_eol (ms (Star ws) rest)
  end.

(** [re.findall(item(?=look), s)]: at each position the first (in priority
    order) match of [item] whose remainder satisfies the lookahead; scanning
    resumes after a match, one character further on if there is none.  The
    items used by httplint never match the empty string, so the special rule
    for empty matches is not needed ([findall] stops on one). *)
Fixpoint findall_aux (fuel : nat) (item : re) (look : str -> bool) (s : str) : list str :=
  match fuel with
  | O => []
  | S f =>
      match find look (ms item s) with
      | Some rest =>
          let k := (length s - length rest)%nat in
          firstn k s :: findall_aux f item look rest
      | None => match s with
                | [] => []
                | _ :: s' => findall_aux f item look s'
                end
      end
  end.
Definition findall (item : re) (look : str -> bool) (s : str) : list str :=
  findall_aux (S (length s)) item look s.

(** ** Language semantics *)
Inductive lang : re -> str -> Prop :=
| L_eps : lang Eps []
| L_chr f c : f c = true -> lang (Chr f) [c]
| L_nchr f c : f c = false -> lang (NChr f) [c]
| L_seq a b x y : lang a x -> lang b y -> lang (Seq a b) (x ++ y)
| L_altl a b x : lang a x -> lang (Alt a b) x
| L_altr a b x : lang b x -> lang (Alt a b) x
| L_star0 a : lang (Star a) []
| L_star1 a x y : lang a x -> lang (Star a) y -> lang (Star a) (x ++ y).
Global Hint Constructors lang : lang.

Lemma star_ms_suffix body :
  (forall s s', In s' (body s) -> exists p, s = p ++ s') ->
  forall fuel s s', In s' (star_ms body fuel s) -> exists p, s = p ++ s'.
Proof.
  intros HB; induction fuel as [|f IH]; simpl; intros s s' H.
  - destruct H as [<-|[]]. exists []; reflexivity.
  - apply in_app_or in H as [H|[<-|[]]]; [|exists []; reflexivity].
    apply in_flat_map in H as (t & Ht & H).
    destruct (HB _ _ Ht) as [p ->].
    destruct (Nat.ltb _ _).
    + destruct (IH _ _ H) as [q ->]. exists (p ++ q). rewrite app_assoc. reflexivity.
    + destruct H as [<-|[]]. exists p; reflexivity.
Qed.

Lemma ms_sound r : forall s s', In s' (ms r s) -> exists p, s = p ++ s' /\ lang r p.
Proof.
  induction r as [|f|f|a IHa b IHb|a IHa b IHb|a IHa]; simpl; intros s s' H.
  - destruct H as [<-|[]]. exists []. split; [reflexivity|constructor].
  - destruct s as [|c s]; [destruct H|]. destruct (f c) eqn:E; [|destruct H].
    destruct H as [<-|[]]. exists [c]. split; [reflexivity|constructor; exact E].
  - destruct s as [|c s]; [destruct H|]. destruct (f c) eqn:E; [destruct H|].
    destruct H as [<-|[]]. exists [c]. split; [reflexivity|constructor; exact E].
  - apply in_flat_map in H as (t & Ht & H).
    destruct (IHa _ _ Ht) as (p & -> & Hp). destruct (IHb _ _ H) as (q & -> & Hq).
    exists (p ++ q). rewrite app_assoc. split; [reflexivity|constructor; assumption].
  - apply in_app_or in H as [H|H].
    + destruct (IHa _ _ H) as (p & -> & Hp). exists p. split; [reflexivity|apply L_altl; exact Hp].
    + destruct (IHb _ _ H) as (p & -> & Hp). exists p. split; [reflexivity|apply L_altr; exact Hp].
  - revert H. generalize (length s) as fuel. revert s s'.
    enough (G : forall fuel s s', In s' (star_ms (ms a) fuel s) ->
                exists p, s = p ++ s' /\ lang (Star a) p) by (intros; eapply G; eassumption).
    induction fuel as [|f IH]; simpl; intros s s' H.
    + destruct H as [<-|[]]. exists []. split; [reflexivity|constructor].
    + apply in_app_or in H as [H|[<-|[]]].
      * apply in_flat_map in H as (t & Ht & H).
        destruct (IHa _ _ Ht) as (p & -> & Hp).
        destruct (Nat.ltb _ _).
        -- destruct (IH _ _ H) as (q & -> & Hq). exists (p ++ q).
           rewrite app_assoc. split; [reflexivity|constructor; assumption].
        -- destruct H as [<-|[]]. exists p. split; [reflexivity|].
           rewrite <- (app_nil_r p). constructor; [exact Hp|constructor].
      * exists []. split; [reflexivity|constructor].
Qed.

Lemma star_ms_fuel a : forall fuel p s', (length p <= fuel)%nat ->
  (forall x s, lang a x -> In s (ms a (x ++ s))) ->
  lang (Star a) p -> In s' (star_ms (ms a) fuel (p ++ s')).
Proof.
  intros fuel p s' Hf Ha Hp.
  remember (Star a) as r eqn:Er. revert fuel Hf.
  induction Hp as [| | | | | |a'|a' x y Hx _ Hy IHy]; try discriminate; intros fuel Hf.
  - simpl. destruct fuel; simpl; [left; reflexivity|]. apply in_or_app. right. left. reflexivity.
  - injection Er as ->. rewrite app_length in Hf.
    destruct x as [|c x].
    + simpl. simpl in Hf. apply IHy; [reflexivity|exact Hf].
    + destruct fuel as [|f]; [simpl in Hf; lia|].
      cbn [star_ms]. apply in_or_app. left.
      apply in_flat_map. exists (y ++ s'). split.
      * rewrite <- app_assoc. apply Ha. exact Hx.
      * rewrite !app_length. cbn [length].
        destruct (Nat.ltb_spec (length y + length s') (S (length x) + length y + length s')) as [_|G];
          [|lia].
        apply IHy; [reflexivity|]. simpl in Hf. lia.
Qed.

Lemma ms_complete r : forall p s', lang r p -> In s' (ms r (p ++ s')).
Proof.
  induction r as [|f|f|a IHa b IHb|a IHa b IHb|a IHa]; intros p s' H.
  - inversion H; subst. left. reflexivity.
  - inversion H as [|f' c E| | | | | |]; subst. simpl. rewrite E. left. reflexivity.
  - inversion H as [| |f' c E| | | | |]; subst. simpl. rewrite E. left. reflexivity.
  - inversion H as [| | |a' b' x y Hx Hy| | | |]; subst. cbn [ms].
    apply in_flat_map. exists (y ++ s'). rewrite <- app_assoc. split; [apply IHa|apply IHb]; assumption.
  - cbn [ms]. apply in_or_app.
    inversion H; subst; [left; apply IHa|right; apply IHb]; assumption.
  - cbn [ms]. apply star_ms_fuel; [rewrite app_length; lia| |exact H].
    intros x s Hx. apply IHa. exact Hx.
Qed.

Theorem ms_correct r s s' : In s' (ms r s) <-> exists p, s = p ++ s' /\ lang r p.
Proof.
  split; [apply ms_sound|]. intros (p & -> & Hp). apply ms_complete. exact Hp.
Qed.

(** ** Inversion lemmas in [iff] form *)
Lemma lang_eps s : lang Eps s <-> s = [].
Proof. split; [inversion 1; reflexivity|intros ->; constructor]. Qed.
Lemma lang_chr f s : lang (Chr f) s <-> exists c, s = [c] /\ f c = true.
Proof.
  split; [inversion 1 as [|f' c E| | | | | |]; subst; exists c; auto|].
  intros (c & -> & E). constructor. exact E.
Qed.
Lemma lang_nchr f s : lang (NChr f) s <-> exists c, s = [c] /\ f c = false.
Proof.
  split; [inversion 1 as [| |f' c E| | | | |]; subst; exists c; auto|].
  intros (c & -> & E). constructor. exact E.
Qed.
Lemma lang_seq a b s : lang (Seq a b) s <-> exists x y, s = x ++ y /\ lang a x /\ lang b y.
Proof.
  split; [inversion 1; subst; eauto|]. intros (x & y & -> & H1 & H2). constructor; assumption.
Qed.
Lemma lang_alt a b s : lang (Alt a b) s <-> lang a s \/ lang b s.
Proof.
  split; [inversion 1; subst; auto|]. intros [H|H]; [apply L_altl|apply L_altr]; exact H.
Qed.
Lemma lang_opt a s : lang (Opt a) s <-> s = [] \/ lang a s.
Proof. unfold Opt. rewrite lang_alt, lang_eps. tauto. Qed.
Lemma lang_nothing s : ~ lang Nothing s.
Proof. intros H. apply lang_chr in H as (c & _ & E). discriminate. Qed.

Lemma lang_star_app a x y : lang (Star a) x -> lang (Star a) y -> lang (Star a) (x ++ y).
Proof.
  intros Hx Hy. remember (Star a) as r eqn:E. revert y Hy.
  induction Hx as [| | | | | |a'|a' x1 x2 H1 _ H2 IH]; try discriminate; intros y Hy.
  - exact Hy.
  - injection E as ->. rewrite <- app_assoc. constructor; [exact H1|apply IH; [reflexivity|exact Hy]].
Qed.
Lemma lang_star_one a x : lang a x -> lang (Star a) x.
Proof. intros H. rewrite <- (app_nil_r x). constructor; [exact H|constructor]. Qed.

Lemma lang_star_ind (a : re) (P : str -> Prop) :
  P [] -> (forall x y, lang a x -> lang (Star a) y -> P y -> P (x ++ y)) ->
  forall s, lang (Star a) s -> P s.
Proof.
  intros H0 H1 s H. remember (Star a) as r eqn:E.
  induction H as [| | | | | |a'|a' x y Hx _ Hy IHy]; try discriminate.
  - exact H0.
  - injection E as ->. apply H1; auto.
Qed.

Lemma lang_star_concat a s : lang (Star a) s <-> exists l, s = concat l /\ Forall (lang a) l.
Proof.
  split.
  - intros H. pattern s. revert s H. apply lang_star_ind.
    + exists []. split; [reflexivity|constructor].
    + intros x y Hx _ (l & -> & Hl). exists (x :: l). split; [reflexivity|constructor; assumption].
  - intros (l & -> & Hl). induction Hl as [|x l Hx _ IH]; simpl; constructor; assumption.
Qed.

Lemma lang_star_chr f s : lang (Star (Chr f)) s <-> forallb f s = true.
Proof.
  split.
  - intros H. pattern s. revert s H. apply lang_star_ind; [reflexivity|]. intros x y Hx _ IH.
    apply lang_chr in Hx as (c & -> & E). simpl. rewrite E, IH. reflexivity.
  - induction s as [|c s IH]; simpl; intros H; [constructor|].
    apply andb_true_iff in H as [H1 H2].
    change (c :: s) with ([c] ++ s). constructor; [constructor; exact H1|apply IH; exact H2].
Qed.
Lemma lang_plus_chr f s : lang (Plus (Chr f)) s <-> s <> [] /\ forallb f s = true.
Proof.
  unfold Plus. rewrite lang_seq. split.
  - intros (x & y & -> & Hx & Hy). apply lang_chr in Hx as (c & -> & E).
    apply lang_star_chr in Hy. simpl. rewrite E, Hy. split; [discriminate|reflexivity].
  - intros (Hn & H). destruct s as [|c s]; [contradiction|]. simpl in H.
    apply andb_true_iff in H as [H1 H2]. exists [c], s. repeat split.
    + constructor. exact H1.
    + apply lang_star_chr. exact H2.
Qed.

Lemma lang_star_mono a b : (forall s, lang a s -> lang b s) -> forall s, lang (Star a) s -> lang (Star b) s.
Proof.
  intros H. apply lang_star_ind; [constructor|]. intros x y Hx _ Hy. constructor; auto.
Qed.
Lemma lang_star_ext a b s : (forall s, lang a s <-> lang b s) -> (lang (Star a) s <-> lang (Star b) s).
Proof. intros H; split; apply lang_star_mono; intros; apply H; assumption. Qed.
Lemma lang_plus_ext a b s : (forall s, lang a s <-> lang b s) -> (lang (Plus a) s <-> lang (Plus b) s).
Proof.
  intros H. unfold Plus. rewrite !lang_seq.
  split; intros (x & y & -> & Hx & Hy); exists x, y; (split; [reflexivity|]); split;
    try (apply H; assumption); eapply lang_star_ext; try eassumption; intros; rewrite H; reflexivity.
Qed.
Lemma lang_alt_chr f g s : lang (Alt (Chr f) (Chr g)) s <-> lang (Chr (fun c => f c || g c)) s.
Proof.
  rewrite lang_alt, !lang_chr. split.
  - intros [(c & -> & E)|(c & -> & E)]; exists c; rewrite E, ?orb_true_r; auto.
  - intros (c & -> & E). apply orb_true_iff in E as [E|E]; eauto.
Qed.

Lemma lang_lit_ l s : lang (lit_ l) s <-> s = l.
Proof.
  revert s; induction l as [|c l IH]; intros s.
  - apply lang_eps.
  - destruct l as [|d l].
    + simpl. unfold chr. rewrite lang_chr. split.
      * intros (x & -> & E). apply N.eqb_eq in E. congruence.
      * intros ->. exists c. split; [reflexivity|apply N.eqb_refl].
    + cbn [lit_] in *. rewrite lang_seq. split.
      * intros (x & y & -> & Hx & Hy). apply lang_chr in Hx as (z & -> & E).
        apply N.eqb_eq in E. apply IH in Hy. subst. reflexivity.
      * intros ->. exists [c], (d :: l). repeat split.
        -- constructor. apply N.eqb_refl.
        -- apply IH. reflexivity.
Qed.
Lemma lang_lit l s : lang (lit l) s <-> s = u l.
Proof. apply lang_lit_. Qed.

(** ** Matching functions in terms of the language *)
Lemma at_eol_spec s : at_eol s = true <-> s = [] \/ s = [10%N].
Proof.
  split.
  - destruct s as [|c [|d s]]; simpl; auto.
    + intros H. right. destruct c as [|[[[[]|[]|]|[[]|[]|]|]|[[[]|[]|]|[[]|[]|]|]|]]; try discriminate; reflexivity.
    + destruct c as [|[[[[]|[]|]|[[]|[]|]|]|[[[]|[]|]|[[]|[]|]|]|]]; discriminate.
  - intros [->| ->]; reflexivity.
Qed.

Lemma match_dollar_spec r s :
  match_dollar r s = true <-> lang r s \/ exists p, s = p ++ [10%N] /\ lang r p.
Proof.
  unfold match_dollar. rewrite existsb_exists. split.
  - intros (t & Ht & E). apply ms_sound in Ht as (p & -> & Hp).
    apply at_eol_spec in E as [->| ->].
    + left. rewrite app_nil_r. exact Hp.
    + right. eauto.
  - intros [H|(p & -> & H)].
    + exists []. split; [|reflexivity]. rewrite <- (app_nil_r s). apply ms_complete. exact H.
    + exists [10%N]. split; [|reflexivity]. apply ms_complete. exact H.
Qed.

Lemma match_ws_dollar_spec r s :
  match_ws_dollar r s = true <->
  exists a v b, s = a ++ v ++ b /\ forallb isspace a = true /\ forallb isspace b = true /\ lang r v.
Proof.
  unfold match_ws_dollar. rewrite match_dollar_spec. unfold ws.
  split.
  - intros [H|(p & -> & H)]; apply lang_seq in H as (a & y & -> & Ha & H);
      apply lang_seq in H as (v & b & -> & Hv & Hb); apply lang_star_chr in Ha, Hb.
    + exists a, v, b. auto.
    + exists a, v, (b ++ [10%N]). rewrite <- !app_assoc. repeat split; auto.
      rewrite forallb_app, Hb. reflexivity.
  - intros (a & v & b & -> & Ha & Hb & Hv). left.
    apply lang_seq. exists a, (v ++ b). repeat split; [apply lang_star_chr; exact Ha|].
    apply lang_seq. exists v, b. repeat split; [exact Hv|apply lang_star_chr; exact Hb].
Qed.
