(** * More of the Python standard library: float(), dates, sets, isdigit.

    Models of CPython functions that httplint calls (not of httplint itself). *)
From Verif Require Import PyStr Note.
Open Scope N_scope.

(** [str.upper]; exact on Latin-1 text (used once, x_frame_options.py:38). *)
Definition upper_chr (c : N) : str :=
  if c =? 223 then [83; 83] else if c =? 255 then [376] else if c =? 181 then [924] else [upc c].
Definition upper (s : str) : str := flat_map upper_chr s.

(** [str.isdigit] on Latin-1 text: superscripts two, three and one count. *)
Definition isdigit_chr (c : N) : bool := is_digit c || (c =? 178) || (c =? 179) || (c =? 185).
Definition py_isdigit (s : str) : bool := match s with [] => false | _ => forallb isdigit_chr s end.

(** ** float(s)

    [None] is ValueError.  The value is the exact rational the text denotes: no
    rounding to binary64, but overflow to infinity beyond the largest double. *)
Definition max_double : Q := inject_Z (2 ^ 1024 - 2 ^ 970).
Definition norm_float (q : Q) : pyfloat :=
  if Qle_bool max_double q then FPosInf
  else if Qle_bool q (- max_double) then FNegInf else FFin q.

(** Digits with single underscores between them; possibly none at all. *)
Definition digit_part (s : str) : option str :=
  match s with [] => Some [] | _ => uscore_digits false s end.

Definition float_body (s : str) : option Q :=
  (* split at the first e/E *)
  let s := lower s in
  let '(mant, expo) := match split1 101 s with
                       | Some (m, e) => (m, Some e)
                       | None => (s, None)
                       end in
  let '(ip, fp) := match split1 46 mant with
                   | Some (a, b) => (a, b)
                   | None => (mant, [])
                   end in
  match digit_part ip, digit_part fp with
  | Some di, Some df =>
      match di ++ df with
      | [] => None
      | ds =>
          let m := inject_Z (Z.of_N (digits_val ds)) in
          let sc := (- Z.of_nat (length df))%Z in
          match expo with
          | None => Some (m * Qpower 10 sc)%Q
          | Some e =>
              let '(neg, ed) := match e with
                                | 45 :: e' => (true, e') | 43 :: e' => (false, e') | _ => (false, e)
                                end in
              match uscore_digits false ed with
              | None => None
              | Some ds' =>
                  let k := Z.of_N (digits_val ds') in
                  Some (m * Qpower 10 (sc + if neg then - k else k))%Q
              end
          end
      end
  | _, _ => None
  end.
Definition py_float (s : str) : option pyfloat :=
  let sp := isspace in
  let s := strip s in
  let '(neg, b) := match s with
                   | 45 :: s' => (true, s') | 43 :: s' => (false, s') | _ => (false, s)
                   end in
  let lb := lower b in
  if str_in lb [u "inf"; u "infinity"] then Some (if neg then FNegInf else FPosInf)
  else if str_eqb lb (u "nan") then Some FNan
  else match float_body b with
       | Some q => Some (norm_float (if neg then - q else q)%Q)
       | None => None
       end.

(** Comparisons with a number: every comparison with NaN is false. *)
Definition f_lt (a : pyfloat) (b : Q) : bool :=
  match a with FFin q => negb (Qle_bool b q) | FNegInf => true | _ => false end.
Definition f_gt (a : pyfloat) (b : Q) : bool :=
  match a with FFin q => negb (Qle_bool q b) | FPosInf => true | _ => false end.

(** [float(z)]: OverflowError if it does not fit a double. *)
Definition int_to_float (z : Z) : res Q :=
  if (Z.abs z <? 2 ^ 1024 - 2 ^ 970)%Z then Ok (inject_Z z) else Err EOverflow.

(** ** email.utils.parsedate *)
Definition daynames : list str :=
  map u ["mon"; "tue"; "wed"; "thu"; "fri"; "sat"; "sun"]%string.
Definition monthnames : list str :=
  map u ["jan"; "feb"; "mar"; "apr"; "may"; "jun"; "jul"; "aug"; "sep"; "oct"; "nov"; "dec";
         "january"; "february"; "march"; "april"; "may"; "june"; "july"; "august"; "september";
         "october"; "november"; "december"]%string.
Fixpoint index_of (x : str) (l : list str) (i : Z) : option Z :=
  match l with
  | [] => None
  | y :: l' => if str_eqb x y then Some i else index_of x l' (i + 1)%Z
  end.
(** [i = s.find(c)]: the text before, and from, the first occurrence. *)
Definition cut_at (c : N) (s : str) : option (str * str) :=
  match split1 c s with Some (a, b) => Some (a, c :: b) | None => None end.
Definition drop_last_comma (s : str) : str :=
  match last_chr s with Some 44 => removelast s | _ => s end.
(** The text after the last comma, if there is one. *)
Definition after_last (c : N) (s : str) : str := last (split_all c s) [].

(** [(year, month, day, hour, minute, second)]; None: not a date. *)
Definition parsedate (v : str) : option (Z * Z * Z * Z * Z * Z) :=
  match words v with
  | [] => None
  | w0 :: ws =>
    let data := if endswith (u ",") w0 || str_in (lower w0) daynames then ws
                else after_last 44 w0 :: ws in
    let data := match data with
                | [a; b; c] => match split_all 45 a with
                               | [x; y; z] => [x; y; z; b; c]
                               | _ => data
                               end
                | _ => data
                end in
    let data := match data with
                | [a; b; c; s] =>
                    let cut := match cut_at 43 s with Some p => Some p | None => cut_at 45 s end in
                    match cut with
                    | Some ((_ :: _) as x, y) => [a; b; c; x; y]
                    | _ => [a; b; c; s; []]
                    end
                | _ => data
                end in
    match data with
    | dd :: mm :: yy :: tm :: tz :: _ =>
      match dd, mm, yy with
      | [], _, _ | _, [], _ | _, _, [] => None
      | _, _, _ =>
        let mm := lower mm in
        match (match index_of mm monthnames 1%Z with
               | Some i => Some (dd, i)
               | None => match index_of (lower dd) monthnames 1%Z with
                         | Some i => Some (mm, i)
                         | None => None
                         end
               end) with
        | None => None
        | Some (dd, mi) =>
          let mi := if (12 <? mi)%Z then (mi - 12)%Z else mi in
          let dd := drop_last_comma dd in
          let '(yy, tm) := match split1 58 yy with
                           | Some (_ :: _, _) => (tm, yy)
                           | _ => (yy, tm)
                           end in
          (* yy[-1], yy[0], tm[-1] raise IndexError on an empty string; words
             are never empty, only the dummy time zone is *)
          let yy := drop_last_comma yy in
          match yy with
          | [] => None
          | y0 :: _ =>
            let yy := if isdigit_chr y0 then yy else tz in
            let tm := drop_last_comma tm in
            let hms := match split_all 58 tm with
                       | [a; b] => Some (a, b, u "0")
                       | [a; b; c] => Some (a, b, c)
                       | [a] => match split_all 46 a with
                                | [a; b] => Some (a, b, u "0")
                                | [a; b; c] => Some (a, b, c)
                                | _ => None
                                end
                       | _ => None
                       end in
            match hms with
            | None => None
            | Some (h, m, s) =>
              match py_int yy, py_int dd, py_int h, py_int m, py_int s with
              | Some y, Some d, Some h, Some m, Some s =>
                  let y := if (y <? 100)%Z then (if (68 <? y)%Z then y + 1900 else y + 2000)%Z else y in
                  Some (y, mi, d, h, m, s)
              | _, _, _, _, _ => None
              end
            end
          end
        end
      end
    | _ => None
    end
  end.

(** ** calendar.timegm *)
Definition leap (y : Z) : bool :=
  ((y mod 4 =? 0) && (negb (y mod 100 =? 0) || (y mod 400 =? 0)))%Z%bool.
(** datetime's [_days_before_year] and [_days_before_month]. *)
Definition days_before_year (y : Z) : Z :=
  let y := (y - 1)%Z in (y * 365 + y / 4 - y / 100 + y / 400)%Z.
Definition days_before_month (y m : Z) : Z :=
  (nth (Z.to_nat m) [0; 0; 31; 59; 90; 120; 151; 181; 212; 243; 273; 304; 334]%Z 0%Z
   + (if ((2 <? m)%Z && leap y)%bool then 1 else 0))%Z.
(** [datetime.date(year, month, 1).toordinal()]: ValueError outside 1..9999. *)
Definition ordinal (y m d : Z) : Z := (days_before_year y + days_before_month y m + d)%Z.
Definition epoch_ord : Z := 719163.
Definition timegm (y mo d h mi s : Z) : res Z :=
  if ((1 <=? y) && (y <=? 9999) && (1 <=? mo) && (mo <=? 12))%Z%bool then
    Ok ((((ordinal y mo 1 - epoch_ord + d - 1) * 24 + h) * 60 + mi) * 60 + s)%Z
  else Err EValue.

(** ** Sets of strings

    [set(l)]: the distinct elements, in an order the run decides: they are
    sorted by the oracle's rank ([e_rank]), ties by first occurrence. *)
Fixpoint dedup (l : list str) : list str :=
  match l with
  | [] => []
  | x :: l' => x :: filter (fun y => negb (str_eqb x y)) (dedup l')
  end.
Fixpoint rank_insert (e : env) (x : str) (l : list str) : list str :=
  match l with
  | [] => [x]
  | y :: l' => if e_rank e x <=? e_rank e y then x :: l else y :: rank_insert e x l'
  end.
Fixpoint rank_sort (e : env) (l : list str) : list str :=
  match l with [] => [] | x :: l' => rank_insert e x (rank_sort e l') end.
Definition py_set (e : env) (l : list str) : list str := rank_sort e (dedup l).

Lemma dedup_In x l : In x (dedup l) <-> In x l.
Proof.
  induction l as [|y l IH]; simpl; [tauto|].
  rewrite filter_In, IH. split.
  - intros [->|[H _]]; auto.
  - intros [->|H]; [auto|]. destruct (str_eqb y x) eqn:E.
    + left. apply str_eqb_eq in E. exact E.
    + right. split; [exact H|reflexivity].
Qed.
Lemma dedup_NoDup l : NoDup (dedup l).
Proof.
  induction l as [|y l IH]; simpl; constructor.
  - rewrite filter_In. intros [_ H]. rewrite str_eqb_refl in H. discriminate.
  - apply NoDup_filter. exact IH.
Qed.
Lemma rank_insert_In e x y l : In y (rank_insert e x l) <-> y = x \/ In y l.
Proof.
  induction l as [|z l IH]; simpl.
  - firstorder.
  - destruct (e_rank e x <=? e_rank e z); simpl; [firstorder|]. rewrite IH. firstorder.
Qed.
Lemma rank_sort_In e y l : In y (rank_sort e l) <-> In y l.
Proof.
  induction l as [|z l IH]; simpl; [tauto|]. rewrite rank_insert_In, IH. firstorder.
Qed.
Lemma py_set_In e y l : In y (py_set e l) <-> In y l.
Proof. unfold py_set. rewrite rank_sort_In. apply dedup_In. Qed.
Lemma rank_insert_NoDup e x l : ~ In x l -> NoDup l -> NoDup (rank_insert e x l).
Proof.
  induction l as [|z l IH]; simpl; intros Hx Hl.
  - constructor; [tauto|constructor].
  - destruct (e_rank e x <=? e_rank e z).
    + constructor; [exact Hx|exact Hl].
    + inversion Hl as [|? ? H1 H2]; subst. constructor.
      * rewrite rank_insert_In. intros [->|H]; [apply Hx; auto|contradiction].
      * apply IH; [firstorder|exact H2].
Qed.
Lemma rank_sort_NoDup e l : NoDup l -> NoDup (rank_sort e l).
Proof.
  induction 1 as [|z l H1 H2 IH]; simpl; [constructor|].
  apply rank_insert_NoDup; [rewrite rank_sort_In; exact H1|exact IH].
Qed.
Lemma py_set_NoDup e l : NoDup (py_set e l).
Proof. apply rank_sort_NoDup, dedup_NoDup. Qed.
Lemma rank_insert_length e x l : length (rank_insert e x l) = S (length l).
Proof.
  induction l as [|z l IH]; simpl; [reflexivity|].
  destruct (e_rank e x <=? e_rank e z); simpl; [reflexivity|rewrite IH; reflexivity].
Qed.
Lemma rank_sort_length e l : length (rank_sort e l) = length l.
Proof.
  induction l as [|z l IH]; simpl; [reflexivity|]. rewrite rank_insert_length, IH. reflexivity.
Qed.
(** [len(set(l))] does not depend on the order. *)
Lemma py_set_length e l : length (py_set e l) = length (dedup l).
Proof. apply rank_sort_length. Qed.

(** [sorted(l)] for strings: by code points; equal strings are interchangeable. *)
Fixpoint str_leb (a b : str) : bool :=
  match a, b with
  | [], _ => true
  | _ :: _, [] => false
  | x :: a', y :: b' => if x <? y then true else if y <? x then false else str_leb a' b'
  end.
Fixpoint str_insert (x : str) (l : list str) : list str :=
  match l with
  | [] => [x]
  | y :: l' => if str_leb x y then x :: l else y :: str_insert x l'
  end.
Definition py_sorted (l : list str) : list str := fold_right str_insert [] l.

(** The elements that occur more than once (httplint's [seen]/[duplicates]
    loops), in first-occurrence order. *)
Definition count_str (x : str) (l : list str) : nat := length (filter (str_eqb x) l).
Definition dups (l : list str) : list str :=
  filter (fun x => Nat.ltb 1 (count_str x l)) (dedup l).

(** [f"{n:,}"]: groups of three digits. *)
Fixpoint group3 (fuel : nat) (rd : str) : str :=   (* reversed digits *)
  match fuel with
  | O => rd
  | S f => match rd with
           | a :: b :: c :: (_ :: _) as r => a :: b :: c :: 44 :: group3 f (skipn 3 rd)
           | _ => rd
           end
  end.
Definition f_comma (n : nat) : str := let d := dec_nat n in rev (group3 (length d) (rev d)).

(** [int(x)] of a finite float: truncation towards zero. *)
Definition q_trunc (q : Q) : Z := Z.quot (Qnum q) (Zpos (Qden q)).
(** [x > y] on numbers. *)
Definition q_gt (x y : Q) : bool := negb (Qle_bool x y).

(** [int(s)] with its exception. *)
Definition int_of (s : str) : res Z := match py_int s with Some z => Ok z | None => Err EValue end.

(** ** Truth values *)
Definition nonempty {A} (l : list A) : bool := match l with [] => false | _ => true end.
(** [bool(v)]. *)
Definition truthy (v : pyval) : bool :=
  match v with
  | VNone => false
  | VBool b => b
  | VInt z => negb (z =? 0)%Z
  | VFloat (FFin q) => negb (Qeq_bool q 0)
  | VFloat _ => true
  | VDec q => negb (Qeq_bool q 0)
  | VStr s | VToken s | VDisplay s | VMd s => nonempty s
  | VBytes b => nonempty b
  | VDate _ | VRel _ _ _ | VOrigin _ _ _ => true
  | VTuple l | VList l => nonempty l
  | VDict l => nonempty l
  end.

Section Tests.
Local Open Scope Z_scope.
Example t1 : parsedate (u "Sun, 06 Nov 1994 08:49:37 GMT") = Some (1994, 11, 6, 8, 49, 37).
Proof. reflexivity. Qed.
Example t2 : parsedate (u "Sunday, 06-Nov-94 08:49:37 GMT") = Some (1994, 11, 6, 8, 49, 37).
Proof. reflexivity. Qed.
Example t3 : parsedate (u "Sun Nov  6 08:49:37 1994") = Some (1994, 11, 6, 8, 49, 37).
Proof. reflexivity. Qed.
Example t4 : timegm 1994 11 6 8 49 37 = Ok 784111777.
Proof. reflexivity. Qed.
Example t5 : py_float (u " 1_0.5e-1 ") = Some (FFin (105 # 100))
             \/ exists q, py_float (u " 1_0.5e-1 ") = Some (FFin q) /\ (q == 105 # 100)%Q.
Proof. right. eexists. split; [reflexivity|reflexivity]. Qed.
Example t6 : py_float (u "1e400") = Some FPosInf.
Proof. vm_compute. reflexivity. Qed.
End Tests.
