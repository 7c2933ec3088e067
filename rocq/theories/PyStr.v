(** * Python strings, bytes and the string methods httplint uses.

    A [str] is the list of code points of a Python string; [bytes] objects are
    lists of numbers below 256.  Everything here models the *Python standard
    library* (CPython 3.10+), not httplint itself; the httplint call sites are
    cited where each function is used. *)

From Coq Require Export Ascii String.
From Coq Require Export NArith ZArith Bool Lia.
From Coq Require Export List.
Export ListNotations.
Open Scope bool_scope.
Open Scope N_scope.
Notation length := List.length.

Definition str := list N.
Definition bytes := list N.

(** String literals. Only ASCII literals are used. *)
Definition u (s : string) : str := map N_of_ascii (list_ascii_of_string s).

Fixpoint str_eqb (a b : str) : bool :=
  match a, b with
  | [], [] => true
  | x :: a', y :: b' => N.eqb x y && str_eqb a' b'
  | _, _ => false
  end.

Definition str_in (x : str) (l : list str) : bool := existsb (str_eqb x) l.

(** ** Character classes *)

(** [str.isspace] for one character (Unicode White_Space plus the four
    separators 0x1c-0x1f, as CPython's [_PyUnicode_IsWhitespace]). *)
Definition isspace (c : N) : bool :=
  ((9 <=? c) && (c <=? 13)) || ((28 <=? c) && (c <=? 32)) || (c =? 133) || (c =? 160)
  || (c =? 5760) || ((8192 <=? c) && (c <=? 8202)) || (c =? 8232) || (c =? 8233)
  || (c =? 8239) || (c =? 8287) || (c =? 12288).

(** C [isspace] on ASCII: what [bytes.split(None)] and [int()] use. *)
Definition ascii_space (c : N) : bool := ((9 <=? c) && (c <=? 13)) || (c =? 32).

Definition is_digit (c : N) : bool := (48 <=? c) && (c <=? 57).
Definition is_upper_ascii (c : N) : bool := (65 <=? c) && (c <=? 90).
Definition is_lower_ascii (c : N) : bool := (97 <=? c) && (c <=? 122).
Definition is_ascii (s : list N) : bool := forallb (fun c => c <? 128) s.

(** [str.lower] / [str.upper] per character. Exact on Latin-1 text, which is
    all that field names and values can contain (section.py:56-66); identity
    on other code points (simplification). U+00FF and U+00B5 have upper-case
    forms outside Latin-1 and are left alone by [upc]. *)
Definition lowc (c : N) : N :=
  if is_upper_ascii c then c + 32
  else if (192 <=? c) && (c <=? 222) && negb (c =? 215) then c + 32 else c.
Definition upc (c : N) : N :=
  if is_lower_ascii c then c - 32
  else if (224 <=? c) && (c <=? 254) && negb (c =? 247) then c - 32 else c.
Definition lower (s : str) : str := map lowc s.

(** ** Stripping, splitting, joining *)

Fixpoint drop_while (f : N -> bool) (s : str) : str :=
  match s with
  | [] => []
  | c :: s' => if f c then drop_while f s' else s
  end.
Definition lstrip (s : str) : str := drop_while isspace s.
Definition rstrip (s : str) : str := rev (drop_while isspace (rev s)).
Definition strip (s : str) : str := rstrip (lstrip s).

(** Split at the first occurrence of a one-character separator; [None] if it
    does not occur: [a, b = s.split(c, 1)] raises ValueError exactly then. *)
Fixpoint split1 (c : N) (s : str) : option (str * str) :=
  match s with
  | [] => None
  | x :: s' =>
      if N.eqb x c then Some ([], s')
      else match split1 c s' with
           | Some (a, b) => Some (x :: a, b)
           | None => None
           end
  end.

(** [s.partition(c)] for a one-character separator. *)
Definition partition_chr (c : N) (s : str) : str * str * str :=
  match split1 c s with
  | Some (a, b) => (a, [c], b)
  | None => (s, [], [])
  end.

(** [s.split(c)] for a one-character separator: never empty. *)
Fixpoint split_all (c : N) (s : str) : list str :=
  match s with
  | [] => [[]]
  | x :: s' =>
      if N.eqb x c then [] :: split_all c s'
      else match split_all c s' with
           | [] => [[x]]
           | w :: ws => (x :: w) :: ws
           end
  end.

(** [s.split(c, n)]. *)
Fixpoint split_max (n : nat) (c : N) (s : str) : list str :=
  match n with
  | O => [s]
  | S n' => match split1 c s with
            | Some (a, b) => a :: split_max n' c b
            | None => [s]
            end
  end.

(** [s.split()] / [s.split(None)] with whitespace predicate [f]: maximal runs
    of non-whitespace. *)
Fixpoint words_aux (f : N -> bool) (s : str) (acc : str) : list str :=
  match s with
  | [] => match acc with [] => [] | _ => [rev acc] end
  | c :: s' =>
      if f c then match acc with
                  | [] => words_aux f s' []
                  | _ => rev acc :: words_aux f s' []
                  end
      else words_aux f s' (c :: acc)
  end.
Definition words (s : str) : list str := words_aux isspace s [].

Fixpoint join (sep : str) (l : list str) : str :=
  match l with
  | [] => []
  | [x] => x
  | x :: l' => x ++ sep ++ join sep l'
  end.

Fixpoint startswith (p s : str) : bool :=
  match p, s with
  | [], _ => true
  | x :: p', y :: s' => N.eqb x y && startswith p' s'
  | _ :: _, [] => false
  end.
Definition endswith (p s : str) : bool := startswith (rev p) (rev s).

(** [c in s] for a single character. *)
Definition has_chr (c : N) (s : str) : bool := existsb (N.eqb c) s.

(** [sub in s]. *)
Fixpoint has_sub (sub s : str) : bool :=
  startswith sub s || match s with [] => false | _ :: s' => has_sub sub s' end.

(** [s.replace(c, "")] for one character. *)
Definition remove_chr (c : N) (s : str) : str := filter (fun x => negb (N.eqb x c)) s.
(** [s.replace(a, b)] for single characters. *)
Definition replace_chr (a b : N) (s : str) : str := map (fun x => if N.eqb x a then b else x) s.

(** [s[0]] and [s[-1]]; [None] is IndexError. *)
Definition first_chr (s : str) : option N := hd_error s.
Definition last_chr (s : str) : option N := hd_error (rev s).
(** [s[1:-1]]. *)
Definition mid (s : str) : str := removelast (tl s).

(** ** Decoding *)

(** [b.decode("ascii", "strict")]: [None] is UnicodeError. *)
Definition decode_ascii_strict (b : bytes) : option str := if is_ascii b then Some b else None.
Definition decode_ascii_ignore (b : bytes) : str := filter (fun c => c <? 128) b.
Definition decode_ascii_replace (b : bytes) : str := map (fun c => if c <? 128 then c else 65533%N) b.
(** [b.decode("iso-8859-1", "replace")]: total, the identity on code points. *)
Definition decode_latin1 (b : bytes) : str := b.

(** ** Numbers *)

(** Decimal digits of a natural number (most significant first). *)
Fixpoint dec_aux (fuel : nat) (n : N) (acc : str) : str :=
  match fuel with
  | O => acc
  | S f => let acc' := (48 + n mod 10)%N :: acc in
           if (n <? 10)%N then acc' else dec_aux f (n / 10)%N acc'
  end.
Definition dec_N (n : N) : str := dec_aux (S (N.size_nat n)) n [].
Definition dec_Z (z : Z) : str :=
  match z with
  | Zneg p => 45%N :: dec_N (Npos p)
  | _ => dec_N (Z.to_N z)
  end.
Definition dec_nat (n : nat) : str := dec_N (N.of_nat n).

Definition digit_val (c : N) : N := c - 48.

(** Value of a digit string, left to right. *)
Definition digits_val (ds : str) : N := fold_left (fun a c => a * 10 + digit_val c)%N ds 0%N.

(** Digits with optional single underscores between them (PEP 515), as
    accepted by [int()]. Returns the digits. [prev] says whether the previous
    character was a digit. *)
Fixpoint uscore_digits (prev : bool) (s : str) : option str :=
  match s with
  | [] => if prev then Some [] else None
  | c :: s' =>
      if is_digit c then
        match uscore_digits true s' with Some ds => Some (c :: ds) | None => None end
      else if N.eqb c 95 && prev then uscore_digits false s'
      else None
  end.

(** CPython's default limit on the number of digits [int()] converts. *)
Definition int_max_str_digits : N := 4300.

(** [int(s)] for a string; [None] is ValueError. Surrounding whitespace is
    skipped: for pure-ASCII strings C [isspace], otherwise [str.isspace] (after
    [_PyUnicode_TransformDecimalAndSpaceToASCII]). Non-ASCII decimal digits do
    not exist in Latin-1 and are not modelled. *)
Definition py_int (s : str) : option Z :=
  let sp := if is_ascii s then ascii_space else isspace in
  let s := rev (drop_while sp (rev (drop_while sp s))) in
  let '(neg, body) := match s with
                      | 45%N :: s' => (true, s')
                      | 43%N :: s' => (false, s')
                      | _ => (false, s)
                      end in
  match uscore_digits false body with
  | Some ds =>
      if (int_max_str_digits <? N.of_nat (length ds))%N then None
      else let v := Z.of_N (digits_val ds) in Some (if neg then (- v)%Z else v)
  | None => None
  end.

(** util.py:31-42 [f_num(i)]: [locale.format_string("%d", i, grouping=True)].
    httplint never calls [setlocale], so the C locale (no grouping) applies. *)
Definition f_num (z : Z) : str := dec_Z z.

(** ** Basic facts *)

Lemma str_eqb_eq a b : str_eqb a b = true <-> a = b.
Proof.
  revert b; induction a as [|x a IH]; intros [|y b]; simpl; split; intros H;
    try discriminate; try reflexivity.
  - apply andb_true_iff in H as [H1 H2]. apply N.eqb_eq in H1. apply IH in H2. congruence.
  - injection H as -> ->. rewrite N.eqb_refl. simpl. apply IH. reflexivity.
Qed.

Lemma str_eqb_refl a : str_eqb a a = true.
Proof. apply str_eqb_eq. reflexivity. Qed.

Lemma str_eqb_neq a b : str_eqb a b = false <-> a <> b.
Proof.
  split; intros H.
  - intros E. apply str_eqb_eq in E. congruence.
  - destruct (str_eqb a b) eqn:E; [apply str_eqb_eq in E; contradiction|reflexivity].
Qed.

Lemma str_eqb_sym a b : str_eqb a b = str_eqb b a.
Proof.
  destruct (str_eqb a b) eqn:E.
  - apply str_eqb_eq in E. subst. symmetry. apply str_eqb_refl.
  - symmetry. apply str_eqb_neq. apply str_eqb_neq in E. congruence.
Qed.

Lemma str_in_In x l : str_in x l = true <-> In x l.
Proof.
  unfold str_in. rewrite existsb_exists. split.
  - intros (y & Hy & E). apply str_eqb_eq in E. subst. exact Hy.
  - intros H. exists x. split; [exact H|apply str_eqb_refl].
Qed.

Definition str_eq_dec (a b : str) : {a = b} + {a <> b} := list_eq_dec N.eq_dec a b.

Lemma length_u s : length (u s) = String.length s.
Proof.
  unfold u. rewrite map_length. induction s as [|c s IH]; simpl; [reflexivity|].
  f_equal. exact IH.
Qed.
