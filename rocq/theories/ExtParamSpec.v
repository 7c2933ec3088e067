(** * Specification of parameters, extended (name*=) ones included (C70).
    [param_form p] (ParamLemmas.v): a token name, "=", a token or quoted-string value, in optional whitespace. *)
From Verif Require Import PyStr Regex Grammar Note PyLib Utils LexLemmas ParamLemmas.
Open Scope N_scope.

(** The name, in lower case; the name without its last character. *)
Definition norm (p : param) : str := lower (pa_name p).
Definition base (p : param) : str := removelast (norm p).
(** An extended parameter's name ends in an asterisk. *)
Definition extended (p : param) : bool := match last_chr (pa_name p) with Some c => c =? 42 | None => false end.
(** The field's rule about extended parameters: they are all allowed, none is, or those with the names [l] are not. *)
Definition forbids (n : nostar) (k : str) : bool :=
  match n with NoStarNone => false | NoStarTrue => true | NoStarList l => existsb (str_eqb k) l end.
Definition is_quoted (v : pval) : bool := match v with PTok _ => false | PQuoted _ => true end.
(** What is written between the quotes, escapes included; a token as it is. *)
Definition inner (v : pval) : str := match v with PTok s => s | PQuoted its => flat_map q_text its end.
(** The value text (a token then) begins and ends with an apostrophe; it may be just one apostrophe. *)
Definition in_apostrophes (v : pval) : bool :=
  match v with PTok s => (hd 0 s =? 39) && (last s 0 =? 39) | PQuoted _ => false end.

(** RFC 8187: charset, apostrophe, language, apostrophe, percent-encoded text. *)
Fixpoint before (c : N) (s : str) : str := match s with [] => [] | x :: s' => if x =? c then [] else x :: before c s' end.
Fixpoint after (c : N) (s : str) : str := match s with [] => [] | x :: s' => if x =? c then s' else after c s' end.
Inductive ext := ExtBad | ExtNoCharset | ExtCharset (c : str) | ExtText (s : str).
Fixpoint count (c : N) (s : str) : nat := match s with [] => O | x :: s' => if x =? c then S (count c s') else count c s' end.
Definition ext_read (s : str) : ext :=
  if Nat.eqb (count 39 s) 2
  then match lower (before 39 s) with
       | [] => ExtNoCharset
       | c => if str_eqb c (u "utf-8") then ExtText (after 39 (after 39 s)) else ExtCharset c
       end
  else ExtBad.

(** The entry a parameter gives, if it gives one. *)
Definition entry (e : env) (n : nostar) (p : param) : option str :=
  if extended p
  then if forbids n (base p) then None
       else match ext_read (inner (pa_val p)) with ExtText s => Some (e_unquote e s) | _ => None end
  else Some (pval_value (pa_val p)).
(** The last entry under the name [k]. *)
Fixpoint last_entry (e : env) (n : nostar) (k : str) (ps : list param) : option str :=
  match ps with
  | [] => None
  | p :: ps' => match last_entry e n k ps' with
                | Some v => Some v
                | None => if str_eqb k (norm p) then entry e n p else None
                end
  end.

(** A note: its class and its variables. *)
Definition note := (nid * list (string * str))%type.
(** The notes about a parameter; [seen]: it has an entry already. *)
Definition param_tells (n : nostar) (seen : bool) (p : param) : list note :=
  let v := pa_val p in
  (if seen then [(PARAM_REPEATS, [("param"%string, norm p)])] else [])
  ++ (if in_apostrophes v
      then [(PARAM_SINGLE_QUOTED, [("param"%string, norm p); ("param_val"%string, inner v); ("param_val_unquoted"%string, removelast (tl (inner v)))])]
      else [])
  ++ (if extended p
      then if forbids n (base p) then [(PARAM_STAR_BAD, [("param"%string, base p)])]
           else (if is_quoted v then [(PARAM_STAR_QUOTED, [("param"%string, norm p)])] else [])
                ++ match ext_read (inner v) with
                   | ExtBad => [(PARAM_STAR_ERROR, [("param"%string, norm p)])]
                   | ExtNoCharset => [(PARAM_STAR_NOCHARSET, [("param"%string, norm p)])]
                   | ExtCharset c => [(PARAM_STAR_CHARSET, [("param"%string, norm p); ("enc"%string, c)])]
                   | ExtText _ => []
                   end
      else []).
(** Each parameter after [done], whose entries are there already. *)
Fixpoint params_tell (e : env) (n : nostar) (done ps : list param) : list note :=
  match ps with
  | [] => []
  | p :: ps' => param_tells n (match last_entry e n (norm p) done with Some _ => true | None => false end) p
                ++ params_tell e n (done ++ [p]) ps'
  end.
(** As the model records it: no subject of its own, no sub-notes. *)
Definition recorded (x : note) : ev := ENote (fst x) None (map (fun kv : string * str => (u (fst kv), VStr (snd kv))) (snd x)) [].
