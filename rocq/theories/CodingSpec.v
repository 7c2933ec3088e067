(** * Specification of Transfer-Encoding (C47) and Content-Disposition (C48). *)
From Verif Require Import PyStr Regex Grammar Note PyLib Utils FieldAttrs Types Fields1 Framework NumLemmas FieldSpec FieldDue OwnLemmas.
Open Scope N_scope.

(** What is before and after the first semicolon. *)
Fixpoint before_semi (s : str) : str := match s with [] => [] | c :: s' => if c =? 59 then [] else c :: before_semi s' end.
Fixpoint after_semi (s : str) : str := match s with [] => [] | c :: s' => if c =? 59 then s' else after_semi s' end.
(** The parameters of an element (what these are is C17): each name with its value, if it has one. *)
Definition parameters (e : env) (n : nostar) (v : str) : dict (option str) :=
  match snd (parse_params e (after_semi v) n DSemi) with Ok d => d | Err _ => [] end.

(** ** Transfer-Encoding *)
(** The names that field [k] of the request lists, if a response is linted with its request. *)
Definition offers (t : mtype) (rel : option mstate) (k : string) (o : option (list str)) : Prop :=
  match t, rel with
  | MResponse, Some r =>
      match m_type r with
      | MRequest =>
          match rel_hdr r k with
          | None => o = Some []
          | Some x => exists l items, o = Some l /\ x = VList items /\ Forall2 (fun i n => exists d, i = VTuple [VStr n; d]) items l
          end
      | _ => o = None
      end
  | _, _ => o = None
  end.
Definition transfer_codings (l : list rawline) : list str := map (fun v => lower (before_semi v)) (members (u "transfer-encoding") l).
Definition transfer_classes : list nid := [TRANSFER_CODING_PARAM; TRANSFER_CODING_UNWANTED; TRANSFER_CODING_IDENTITY].
(** [us]: each unwanted coding once. *)
Definition unwanted (o : option (list str)) (l : list rawline) (us : list str) : Prop :=
  NoDup us /\ forall x, In x us <-> In x (transfer_codings l) /\ x <> u "chunked" /\ x <> u "identity" /\ match o with Some te => ~ In x te | None => True end.
Definition transfer_says (e : env) (t : mtype) (l : list rawline) (us : list str) : list (nid * str * list (option pyval)) :=
  let k := u "transfer-encoding" in
  flat_map (fun vo => if nonempty (parameters e NoStarTrue (strip (fst vo))) then [(TRANSFER_CODING_PARAM, at_offset (snd vo), [None])] else []) (elements t k l)
  ++ map (fun x => (TRANSFER_CODING_UNWANTED, u "field-transfer-encoding", [Some (VStr x)])) us
  ++ map (fun c => (c, u "field-transfer-encoding", [None])) (only (existsb (str_eqb (u "identity")) (transfer_codings l)) TRANSFER_CODING_IDENTITY).

(** ** Content-Disposition *)
Definition text_of (d : dict (option str)) (k : string) : str := match dget (u k) d with Some (Some s) => s | _ => [] end.
Definition given (d : dict (option str)) (k : string) : bool := match dget (u k) d with Some _ => true | None => false end.
Definition disposition_classes : list nid := [DISPOSITION_UNKNOWN; DISPOSITION_OMITS_FILENAME; DISPOSITION_FILENAME_PERCENT; DISPOSITION_FILENAME_PATH_CHAR].
(** The conditions are on the type (in lower case) and the parameters. *)
Definition disposition_of (type : str) (d : dict (option str)) (l : list nid) : Prop :=
  exists b1 b2 b3 b4, l = only b1 DISPOSITION_UNKNOWN ++ only b2 DISPOSITION_OMITS_FILENAME ++ only b3 DISPOSITION_FILENAME_PERCENT ++ only b4 DISPOSITION_FILENAME_PATH_CHAR
    /\ (b1 = true <-> type <> u "inline" /\ type <> u "attachment")
    /\ (b2 = true <-> type = u "attachment" /\ given d "filename" = false)
    /\ (b3 = true <-> In 37 (text_of d "filename"))
    /\ (b4 = true <-> In 47 (text_of d "filename") \/ occurs [92; 92] (text_of d "filename*")).
