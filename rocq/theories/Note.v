(** * Python values, exceptions, notes (httplint/note.py, util.py). *)
From Verif Require Import PyStr.
From Verif Require Export NoteTable.
From Coq Require Export QArith.
Open Scope N_scope.
Open Scope bool_scope.

(** ** Dynamic values

    Everything a parsed field value or a note variable can be.  Finite floats
    are rationals (no IEEE rounding).  [VDec] is a [decimal.Decimal] (http_sf),
    [VOrigin] the [OriginValue] of field/parsers/origin.py.  [VRel] is util.py:73-93 [RelativeTime];
    [VMd] is note.py:22-31 [MarkdownSafe]; [VToken], [VDisplay], [VDate] are
    http_sf's types ([Token] is a [UserString], not a [str]). *)
Inductive pyfloat := FFin (q : Q) | FPosInf | FNegInf | FNan.
Inductive pyval : Type :=
| VNone
| VBool (b : bool)
| VInt (z : Z)
| VFloat (f : pyfloat)
| VDec (q : Q)
| VStr (s : str)
| VBytes (b : bytes)
| VToken (s : str)
| VDisplay (s : str)
| VDate (z : Z)
| VTuple (l : list pyval)
| VList (l : list pyval)
| VDict (l : list (str * pyval))
| VMd (s : str)
| VRel (utime now : Q) (show_sign : Z)
| VOrigin (scheme host : str) (port : option Z).

(** ** Ordered dictionaries with string keys *)
Definition dict (A : Type) := list (str * A).
Fixpoint dget {A} (k : str) (d : dict A) : option A :=
  match d with
  | [] => None
  | (k', v) :: d' => if str_eqb k k' then Some v else dget k d'
  end.
(** [d[k] = v]: an existing key keeps its position. *)
Fixpoint dset {A} (k : str) (v : A) (d : dict A) : dict A :=
  match d with
  | [] => [(k, v)]
  | (k', v') :: d' => if str_eqb k k' then (k', v) :: d' else (k', v') :: dset k v d'
  end.
Definition dmem {A} (k : str) (d : dict A) : bool :=
  match dget k d with Some _ => true | None => false end.
(** [d.update(e)] *)
Definition dupdate {A} (d e : dict A) : dict A := fold_left (fun d kv => dset (fst kv) (snd kv) d) e d.
Definition keys {A} (d : dict A) : list str := map fst d.

(** ** Exceptions *)
Inductive exn :=
| EValue           (* ValueError, and its subclasses other than UnicodeError *)
| EUnicode         (* UnicodeError itself, a ValueError *)
| EDecode          (* UnicodeDecodeError, a UnicodeError *)
| EType | EKey | EIndex | EAttr | EAssert | EOverflow | EUnbound
| ELookup
| ERecursion
| EOther.          (* whatever an external library raises *)
(** [except ValueError]. *)
Definition is_ValueError (e : exn) : bool :=
  match e with EValue | EUnicode | EDecode => true | _ => false end.

Inductive res (A : Type) := Ok (a : A) | Err (e : exn).
Arguments Ok {A} a.
Arguments Err {A} e.
Definition rbind {A B} (r : res A) (f : A -> res B) : res B :=
  match r with Ok a => f a | Err e => Err e end.
Definition rmap {A B} (f : A -> B) (r : res A) : res B :=
  match r with Ok a => Ok (f a) | Err e => Err e end.

(** ** Notes *)
Definition vars := dict pyval.

(** A reported note: its class, subject, (possibly overridden) category,
    variables, and sub-notes (class and variables; a sub-note has its parent's
    subject and its class's own category). *)
Record note := mkNote {
  n_cls : nid;
  n_subj : str;
  n_cat : category;
  n_vars : vars;
  n_kids : list (nid * vars)
}.

Definition category_eqb (a b : category) : bool :=
  match a, b with
  | GENERAL, GENERAL | CONNECTION, CONNECTION | SECURITY, SECURITY | CORS, CORS
  | COOKIES, COOKIES | CONNEG, CONNEG | CACHING, CACHING | VALIDATION, VALIDATION
  | RANGE, RANGE => true
  | _, _ => false
  end.

(** note.py:69-71: the default variables, set by message.py:63 to the message
    type. *)
Inductive mtype := MRequest | MResponse | MMessage.
Definition mtype_str (t : mtype) : str :=
  match t with MRequest => u "request" | MResponse => u "response" | MMessage => u "message" end.
Definition default_vars (t : mtype) : vars := [(u "message_type", VStr (mtype_str t))].

(** note.py:73-86 [Notes.add]. *)
Definition mk_note (t : mtype) (subj : str) (cls : nid) (cat : option category) (vrs : vars)
    (kids : list (nid * vars)) : note :=
  let tmp_vars := dupdate (default_vars t) vrs in
  {| n_cls := cls;
     n_subj := subj;
     n_cat := match cat with
              | Some c => if category_eqb (nid_category cls) GENERAL then c else nid_category cls
              | None => nid_category cls
              end;
     n_vars := tmp_vars;
     (* note.py:110-115 [add_child]: the parent's variables updated by the child's *)
     n_kids := map (fun k => (fst k, dupdate tmp_vars (snd k))) kids |}.

(** ** What field code does with [add_note]

    A field method's effect is a list of events.  [ENote] is
    [add_note(cls, category=cat, **vars)] through the [partial] that the
    framework built (subject and [field_name]/[field_type] are added by the
    framework); [EMsg] is a direct [self.message.notes.add(subject, cls, ...)];
    [EDefer]/[EMark] store a deferred note / a marker on the handler instance
    (set_cookie, strict_transport_security, content_security_policy, nel,
    clear_site_data keep such lists).  [EKid parent cls vars] is
    content_security_policy.py's search through [self.message.notes] for the
    first note of class [parent], to which [cls] is attached as a sub-note; if
    there is none it is [add_note(cls, **vars)]. *)
Inductive ev :=
| ENote (cls : nid) (cat : option category) (vrs : vars) (kids : list (nid * vars))
| EMsg (subj : str) (cls : nid) (vrs : vars)
| EDefer (cls : nid) (cat : option category) (vrs : vars)
| EMark (v : pyval)
| EKid (parent cls : nid) (vrs : vars).

(** Writer of events plus exceptions; events emitted before an exception stay. *)
Definition W (A : Type) := (list ev * res A)%type.
Definition ret {A} (a : A) : W A := ([], Ok a).
Definition raise {A} (e : exn) : W A := ([], Err e).
Definition tell (l : list ev) : W unit := (l, Ok tt).
Definition bind {A B} (m : W A) (f : A -> W B) : W B :=
  match m with
  | (l, Ok a) => let '(l', r) := f a in (l ++ l', r)
  | (l, Err e) => (l, Err e)
  end.
Definition lift {A} (r : res A) : W A := ([], r).
(** [try: m except ValueError: h]. *)
Definition catch_value {A} (m : W A) (h : W A) : W A :=
  match m with
  | (l, Err e) => if is_ValueError e then let '(l', r) := h in (l ++ l', r) else (l, Err e)
  | _ => m
  end.
Definition add_note (cls : nid) (vrs : vars) : W unit := tell [ENote cls None vrs []].
Definition add_note_cat (cls : nid) (cat : category) (vrs : vars) : W unit :=
  tell [ENote cls (Some cat) vrs []].
Definition when (b : bool) (m : W unit) : W unit := if b then m else ret tt.

Fixpoint mapW {A B} (f : A -> W B) (l : list A) : W (list B) :=
  match l with
  | [] => ret []
  | a :: l' => bind (f a) (fun b => bind (mapW f l') (fun bs => ret (b :: bs)))
  end.
Definition iterW {A} (f : A -> W unit) (l : list A) : W unit := bind (mapW f l) (fun _ => ret tt).
(** A loop threading a state. *)
Fixpoint foldW {A S} (f : S -> A -> W S) (l : list A) (s : S) : W S :=
  match l with
  | [] => ret s
  | a :: l' => bind (f s a) (fun s' => foldW f l' s')
  end.

Declare Scope w_scope.
Delimit Scope w_scope with W.
Notation "x <- m ;; k" := (bind m (fun x => k))
  (at level 61, m at next level, right associativity) : w_scope.
Notation "m ;;; k" := (bind m (fun _ => k)) (at level 61, right associativity) : w_scope.
Open Scope w_scope.

(** ** External libraries as oracles

    See DESIGN.md section 3.  Everything httplint imports and this model does
    not re-implement.  Theorems quantify over all of them. *)
Inductive sftype := SFItem | SFList | SFDict.
(** What [http_sf.parse] returns (RFC 9651 data model), before conversion to
    the Python tuples [(value, params)]. *)
Inductive bare :=
| BInt (z : Z) | BDec (q : Q) | BStr (s : str) | BTok (s : str) | BBytes (b : bytes)
| BBool (b : bool) | BDate (z : Z) | BDisp (s : str).
Definition sfparams := list (str * bare).
Inductive member :=
| MItem (b : bare) (p : sfparams)
| MInner (l : list (bare * sfparams)) (p : sfparams).
(** [http_sf.parse]: a value plus the duplicate keys it reported (key and
    context, in order), or an error with its message and position. [SFOther]
    is any other exception (structured_field.py:66-81 treats both alike). *)
Inductive sfres (A : Type) :=
| SFOk (v : A) (dups : list (str * str))
| SFErr (dups : list (str * str)) (problem : str) (position : option nat)
| SFOther (dups : list (str * str)) (problem : str).
Arguments SFOk {A}. Arguments SFErr {A}. Arguments SFOther {A}.

Definition bare_val (b : bare) : pyval :=
  match b with
  | BInt z => VInt z | BDec q => VDec q | BStr s => VStr s | BTok s => VToken s
  | BBytes b => VBytes b | BBool b => VBool b | BDate z => VDate z | BDisp s => VDisplay s
  end.
(** A Python dict built key by key: a repeated key keeps its first position. *)
Definition mk_dict (l : list (str * pyval)) : pyval := VDict (dupdate [] l).
Definition params_val (p : sfparams) : pyval := mk_dict (map (fun kv => (fst kv, bare_val (snd kv))) p).
Definition item_val (b : bare) (p : sfparams) : pyval := VTuple [bare_val b; params_val p].
Definition member_val (m : member) : pyval :=
  match m with
  | MItem b p => item_val b p
  | MInner l p => VTuple [VList (map (fun bp => item_val (fst bp) (snd bp)) l); params_val p]
  end.

(** [json.loads] of a text that starts with "[" and ends with "]"
    (json_field.py:25-27): a list of values, a JSONDecodeError, or another
    exception (e.g. RecursionError). *)
Inductive json :=
| JNull | JBool (b : bool) | JInt (z : Z) | JFloat (f : pyfloat) | JStr (s : str)
| JList (l : list json) | JDict (l : list (str * json)).
Fixpoint json_val (j : json) : pyval :=
  match j with
  | JNull => VNone | JBool b => VBool b | JInt z => VInt z | JFloat f => VFloat f | JStr s => VStr s
  | JList l => VList (map json_val l)
  | JDict l => mk_dict (map (fun kv => (fst kv, json_val (snd kv))) l)
  end.
Inductive jsres := JOk (v : list json) | JErr (msg : str) | JRaise (e : exn).

Record urlparts := mkUrl {
  u_scheme : str; u_netloc : str; u_path : str; u_query : str; u_frag : str }.

Record env := mkEnv {
  e_sf_item : str -> sfres (bare * sfparams);
  e_sf_list : str -> sfres (list member);
  e_sf_dict : str -> sfres (list (str * member));
  e_json : str -> jsres;
  (* urllib.parse.urlsplit; Err EValue for e.g. a bad IPv6 literal *)
  e_urlsplit : str -> res urlparts;
  (* urllib.parse.urljoin *)
  e_urljoin : str -> str -> res str;
  (* urllib.parse.quote with a set of safe characters, unquote *)
  e_quote : str -> str -> str;
  e_unquote : str -> str;
  e_unsplit : urlparts -> str;
  (* str.encode("idna").decode("ascii") *)
  e_idna : str -> res str;
  (* bytes.decode("utf-8", "replace") *)
  e_utf8 : bytes -> str;
  (* codecs.lookup(name).name *)
  e_codec : str -> res str;
  (* bytes.decode(charset, "strict") *)
  e_decode : str -> bytes -> res str;
  (* chardet.detect(sample): encoding (None allowed), confidence *)
  e_chardet : bytes -> option str * Q;
  (* str(sniffpy.sniff(sample, declared)); None: it raised *)
  e_sniff : bytes -> str -> option str;
  (* iteration order of a Python set of strings (string hashing is randomised) *)
  e_rank : str -> N;
  (* base64.b64decode(s) of an ASCII string: None is binascii.Error *)
  e_b64 : str -> option bytes;
  e_md5 : bytes -> bytes;
  (* str() of a float, a timedelta description, repr() of containers *)
  e_float_str : pyval -> str;
  e_reltime : Q -> Z -> str;
  e_repr : pyval -> str;
  (* util.py:45-58 display_bytes(chunk) *)
  e_display : bytes -> str;
  (* one zlib.decompressobj(-MAX_WBITS): the inputs given so far and the next
     input of decompress(input, 1048576); the output and unconsumed_tail, or
     the text of zlib.error *)
  e_inflate : list bytes -> bytes -> (bytes * bytes) + str;
  (* one brotli.Decompressor: inputs so far, next input; output or the text of
     brotli.error *)
  e_brotli : list bytes -> bytes -> bytes + str
}.

(** ** Rendering *)

(** [timedelta(seconds=d)] accepts -999999999 days .. just under 10^9 days
    (microsecond rounding is ignored), util.py:81. *)
Definition timedelta_ok (d : Q) : bool :=
  Qle_bool (- inject_Z 86399999913600) d && negb (Qle_bool (inject_Z 86400000000000) d).

(** [str(v)]. *)
Definition py_str (e : env) (v : pyval) : res str :=
  match v with
  | VNone => Ok (u "None")
  | VBool true => Ok (u "True")
  | VBool false => Ok (u "False")
  | VInt z => Ok (dec_Z z)
  | VFloat _ | VDec _ => Ok (e_float_str e v)
  | VStr s | VToken s | VDisplay s | VMd s => Ok s
  | VRel ut now sign =>
      let d := (ut - now)%Q in
      if timedelta_ok d then Ok (e_reltime e d sign) else Err EOverflow
  | _ => Ok (e_repr e v)
  end.

(** A parsed template. *)
Inductive seg := SLit (s : str) | SVar (k : str).

(** Split a template at [%(key)s] and [%%]; [None] for any other use of [%]
    (none of httplint's templates has one, see [templates_parse] below). *)
Fixpoint parse_tmpl (fuel : nat) (s : str) (acc : str) : option (list seg) :=
  match fuel with
  | O => None
  | S f =>
    match s with
    | [] => Some [SLit (rev acc)]
    | 37 :: 37 :: s' => parse_tmpl f s' (37 :: acc)
    | 37 :: 40 :: s' =>
        match split1 41 s' with
        | Some (k, 115 :: s'') =>
            match parse_tmpl f s'' [] with
            | Some l => Some (SLit (rev acc) :: SVar k :: l)
            | None => None
            end
        | _ => None
        end
    | 37 :: _ => None
    | c :: s' => parse_tmpl f s' (c :: acc)
    end
  end.
Definition tmpl (s : string) : option (list seg) :=
  parse_tmpl (S (String.length s)) (u s) [].

Definition seg_keys (l : list seg) : list str :=
  flat_map (fun g => match g with SVar k => [k] | SLit _ => [] end) l.

(** The variables a note class's templates need. *)
Definition summary_keys (n : nid) : list str :=
  match tmpl (nid_summary n) with Some l => seg_keys l | None => [] end.
Definition text_keys (n : nid) : list str :=
  match tmpl (nid_text n) with Some l => seg_keys l | None => [] end.
Definition needed_keys (n : nid) : list str := summary_keys n ++ text_keys n.

(** [template % vars] where [conv] turns a value into text. *)
Fixpoint fill (conv : pyval -> res str) (vs : vars) (l : list seg) : res str :=
  match l with
  | [] => Ok []
  | SLit s :: l' => rmap (fun r => s ++ r) (fill conv vs l')
  | SVar k :: l' =>
      match dget k vs with
      | None => Err EKey
      | Some v => rbind (conv v) (fun s => rmap (fun r => s ++ r) (fill conv vs l'))
      end
  end.
Definition format (conv : pyval -> res str) (t : string) (vs : vars) : res str :=
  match tmpl t with
  | None => Err EValue
  | Some l => fill conv vs l
  end.

(** note.py:127-134 [_get_summary] (untranslated, locale "en": i18n.py:13). *)
Definition summary (e : env) (cls : nid) (vs : vars) : res str :=
  format (py_str e) (nid_summary cls) vs.

(** note.py:152-155 [_coerce]. *)
Definition coerce (e : env) (v : pyval) : res str :=
  match v with
  | VMd s => Ok s
  | _ => rmap (remove_chr 96) (py_str e v)
  end.
(** note.py:157: every variable is coerced, used or not. *)
Fixpoint coerce_all (e : env) (vs : vars) : res vars :=
  match vs with
  | [] => Ok []
  | (k, v) :: vs' =>
      rbind (coerce e v) (fun s => rmap (fun r => (k, VStr s) :: r) (coerce_all e vs'))
  end.
(** note.py:136-160 [_get_detail], up to the call of the Markdown renderer. *)
Definition detail_md (e : env) (cls : nid) (vs : vars) : res str :=
  rbind (coerce_all e vs) (fun safe => format (py_str e) (nid_text cls) safe).

Definition is_ok {A} (r : res A) : bool := match r with Ok _ => true | Err _ => false end.

(** Every template of the table parses (finite check over all note classes). *)
Lemma templates_parse : forall n, tmpl (nid_summary n) <> None /\ tmpl (nid_text n) <> None.
Proof.
  assert (H : forallb (fun n => match tmpl (nid_summary n), tmpl (nid_text n) with
                                | Some _, Some _ => true | _, _ => false end) all_nids = true)
    by (vm_compute; reflexivity).
  rewrite forallb_forall in H. intros n. specialize (H n (all_nids_complete n)).
  destruct (tmpl (nid_summary n)), (tmpl (nid_text n)); split; congruence.
Qed.
