(** * Specification of Accept-CH, Available-Dictionary and Content-Encoding (C58). *)
From Verif Require Import PyStr Regex Note PyLib Utils FieldAttrs Types Framework FieldSpec FieldDue PlainSpec CodingSpec ListSpec SFSpec PermissionsSpec IsolationSpec.
Open Scope N_scope.

(** The linter's verdict on the response: some cache may store it. *)
Definition storable (m : mstate) : Prop := exists k, m_caching m = Some k /\ (c_store_shared k = true \/ c_store_private k = true).
(** The names that the Vary headers list, in lower case. *)
Definition varied (headers : list rawline) (s : str) : bool := str_in s (vary_names (values (u "vary") headers)).

(** ** Accept-CH *)
Definition hint_classes : list nid := [ACCEPT_CH_BAD_TYPE; ACCEPT_CH_IN_PLAIN_HTTP; ACCEPT_CH_MISSING_VARY].
Definition hint_token (m : member) : Prop := exists s p, m = MItem (BTok s) p.
Definition hint_type_due (ms : list member) (l : list (nid * list (option pyval))) : Prop :=
  exists b, l = told_once b ACCEPT_CH_BAD_TYPE [None] /\ (b = true <-> exists m, In m ms /\ ~ hint_token m).
(** The related request's URI is a plain HTTP one. *)
Definition plain_http (rel : option mstate) : Prop := exists r w rest, rel = Some r /\ m_uri r = Some w /\ lower w = u "http:" ++ rest.
(** Vary does not list the member; its text as it stands is looked up. *)
Definition unvaried (headers : list rawline) (m : member) : bool :=
  match m with MItem b _ => match bare_text b with Some s => negb (varied headers s) | None => true end | MInner _ _ => true end.
(** What str() makes of a member. *)
Definition hint_text (e : env) (m : member) (s : str) : Prop :=
  match m with
  | MItem b _ => match bare_text b with Some x => s = x | None => shown e b s end
  | MInner l _ => s = e_repr e (VList (map (fun bp => item_val (fst bp) (snd bp)) l))
  end.
Definition hint_later_due (e : env) (rel : option mstate) (m : mstate) (headers : list rawline) (ms : list member) (l : list (nid * list (option pyval))) : Prop :=
  exists b1 b2 texts, l = told_once b1 ACCEPT_CH_IN_PLAIN_HTTP [None] ++ told_once b2 ACCEPT_CH_MISSING_VARY [Some (VStr (join (u ", ") texts))]
    /\ (b1 = true <-> plain_http rel)
    /\ Forall2 (hint_text e) (filter (unvaried headers) ms) texts
    /\ (b2 = true <-> storable m /\ texts <> []).

(** ** Available-Dictionary *)
Definition dictionary_classes : list nid := [AVAILABLE_DICTIONARY_BAD_TYPE; AVAILABLE_DICTIONARY_MISSING_AE].
Definition dictionary_type_due (b : bare) (l : list (nid * list (option pyval))) : Prop :=
  (exists x, b = BBytes x) /\ l = [] \/ (forall x, b <> BBytes x) /\ l = [(AVAILABLE_DICTIONARY_BAD_TYPE, [Some (VStr (u (bare_kind b)))])].
(** The codings that Accept-Encoding headers list: what is before a semicolon, in lower case. *)
Definition accepts (headers : list rawline) (n : string) : Prop := In (u n) (map (fun v => lower (before_semi v)) (members (u "accept-encoding") headers)).
Definition dictionary_later_due (headers : list rawline) (l : list (nid * list (option pyval))) : Prop :=
  exists b, l = told_once b AVAILABLE_DICTIONARY_MISSING_AE [None] /\ (b = true <-> ~ accepts headers "dcb" /\ ~ accepts headers "dcz").

(** ** Content-Encoding *)
Definition content_codings (l : list rawline) : list str := map lower (members (u "content-encoding") l).
(** [o]: what the related request accepts; no note without one. *)
Definition coding_due (o : option (list str)) (v : str) (l : list (nid * list (option pyval))) : Prop :=
  exists b, l = told_once b ENCODING_UNWANTED [Some (VStr v)] /\ (b = true <-> exists ae, o = Some ae /\ ~ In (lower v) ae).
(** Once for each section with the field; the headers' values count. *)
Definition unlisted (t : mtype) (m : mstate) (headers : list rawline) : Prop :=
  t = MResponse /\ (In (u "dcb") (content_codings headers) \/ In (u "dcz") (content_codings headers)) /\ storable m /\ varied headers (u "available-dictionary") = false.
Definition unlisted_told (b : bool) (l : list rawline) : list (nid * str) :=
  match values (u "content-encoding") l with [] => [] | _ => map (fun c => (c, u "field-content-encoding")) (only b DICTIONARY_COMPRESSED_MISSING_VARY) end.
