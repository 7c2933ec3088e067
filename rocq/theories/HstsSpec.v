(** * Specification of Strict-Transport-Security (C54). *)
From Verif Require Import PyStr Regex Note PyLib Utils FieldAttrs Types Framework NumLemmas FieldSpec FieldDue PlainSpec KidSpec.
Open Scope N_scope.

(** A directive: its name in lower case and, after an equals sign, its value. *)
Definition directive : Type := str * option str.
Definition directive_of (part : str) (d : directive) : Prop :=
  exists a, ~ In 61 a /\ fst d = lower (strip a) /\ ((strip part = a /\ snd d = None) \/ exists b, strip part = a ++ 61 :: b /\ snd d = Some (strip b)).
(** The directives are separated by semicolons; there may be one at the end. *)
Definition hsts_read (v : str) (ds : list directive) (trailing : bool) : Prop :=
  exists parts, v = join [59] parts /\ Forall (fun p => ~ In 59 p) parts
    /\ if trailing then exists pre x, parts = pre ++ [x] /\ strip x = [] /\ Forall2 directive_of pre ds
       else (exists pre x, parts = pre ++ [x] /\ strip x <> []) /\ Forall2 directive_of parts ds.
(** The first directive with a name counts. *)
Definition first_named (n : string) (ds : list directive) : option (option str) := option_map snd (find (fun d => str_eqb (fst d) (u n)) ds).
Definition has (n : string) (ds : list directive) : bool := match first_named n ds with Some _ => true | None => false end.

(** The sub-notes about one directive, after others. *)
Definition directive_notes (before : list directive) (d : directive) (l : list (nid * list (option pyval))) : Prop :=
  exists b1 b2 b3 b4,
    l = told_once b1 HSTS_DUPLICATE_DIRECTIVE [Some (VStr (fst d)); None]
        ++ told_once b2 HSTS_BAD_MAX_AGE [None; Some (VStr (match snd d with Some v => v | None => u "None" end))]
        ++ told_once b3 HSTS_VALUE_NOT_ALLOWED [Some (VStr (u "includeSubDomains")); None]
        ++ told_once b4 HSTS_VALUE_NOT_ALLOWED [Some (VStr (u "preload")); None]
    /\ (b1 = true <-> In (fst d) (map fst before))
    /\ (b2 = true <-> b1 = false /\ fst d = u "max-age" /\ forall v z, snd d = Some v -> ~ int_text v z)
    /\ (b3 = true <-> b1 = false /\ fst d = u "includesubdomains" /\ snd d <> None)
    /\ (b4 = true <-> b1 = false /\ fst d = u "preload" /\ snd d <> None).
Definition all_directive_notes (ds : list directive) (l : list (nid * list (option pyval))) : Prop :=
  exists parts, l = concat parts /\ List.length parts = List.length ds
    /\ forall i d p, nth_error ds i = Some d -> nth_error parts i = Some p -> directive_notes (firstn i ds) d p.

Definition no_vars : list (option pyval) := [None; None].
Definition long_enough : Z := 1536000.
Definition preload_note (ds : list directive) (ma : option Z) : nid :=
  if has "preload" ds
  then if has "includesubdomains" ds && match ma with Some z => (long_enough <=? z)%Z | None => false end then HSTS_PRELOAD else HSTS_PRELOAD_NOT_SUITABLE
  else HSTS_NO_PRELOAD.
Definition age_notes (ds : list directive) (ma : option Z) : list nid :=
  match ma with
  | None => only (negb (has "max-age" ds)) HSTS_NO_MAX_AGE
  | Some z => if (z =? 0)%Z then [HSTS_MAX_AGE_ZERO] else only (z <? long_enough)%Z HSTS_SHORT_MAX_AGE
  end.
(** One note for the field, with all the others under it. [insecure]: the response came over HTTP. *)
Definition hsts_due (insecure : Prop) (v : str) (x : nid * list (nid * list (option pyval))) : Prop :=
  exists ds trailing dl ma over,
    hsts_read v ds trailing /\ all_directive_notes ds dl
    /\ (forall z, ma = Some z <-> exists s, first_named "max-age" ds = Some (Some s) /\ int_text s z)
    /\ (over = true <-> insecure)
    /\ snd x = told_once trailing HSTS_TRAILING_SEMICOLON no_vars ++ dl
               ++ map (fun c => (c, no_vars)) ([preload_note ds ma] ++ age_notes ds ma ++ [if has "includesubdomains" ds then HSTS_SUBDOMAINS else HSTS_NO_SUBDOMAINS] ++ only over HSTS_OVER_HTTP)
    /\ (fst x = HSTS_VALID /\ ma <> None /\ dl = [] /\ over = false \/ fst x = HSTS_INVALID /\ ~ (ma <> None /\ dl = [] /\ over = false)).
Definition hsts_told (k : string) (due : str -> nid * list (nid * list (option pyval))) (l : list rawline) : list heard_note :=
  match first_line (u k) l with Some v => [(fst (due v), about_field (u k), no_vars, snd (due v))] | None => [] end.
Definition hsts_classes : list nid :=
  [HSTS_VALID; HSTS_INVALID; HSTS_TRAILING_SEMICOLON; HSTS_DUPLICATE_DIRECTIVE; HSTS_BAD_MAX_AGE; HSTS_VALUE_NOT_ALLOWED; HSTS_PRELOAD; HSTS_PRELOAD_NOT_SUITABLE; HSTS_NO_PRELOAD;
   HSTS_NO_MAX_AGE; HSTS_MAX_AGE_ZERO; HSTS_SHORT_MAX_AGE; HSTS_SUBDOMAINS; HSTS_NO_SUBDOMAINS; HSTS_OVER_HTTP].
