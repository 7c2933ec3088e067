(** * Specification of the comparison of content and Content-Type (C63). *)
From Coq Require Import QArith.
From Verif Require Import PyStr Regex Grammar Note PyLib Utils FieldAttrs Types FieldSpec FieldDue CodingSpec PrefSpec RangeSpec ShowSpec.
Open Scope N_scope.
Notation tale := (nid * str * list (option pyval))%type.

(** The content of the response is a whole representation that was looked at: [nc] is
    the linter's no_content flag. *)
Definition judged (nc : bool) (m : mstate) : Prop :=
  nc = false /\ m_head m = false /\ (exists c l, m_hash m = Some (c :: l))
  /\ forall z, m_status m = Some z -> ~ In z [204; 205; 206; 304]%Z /\ ~ (100 <= z < 199)%Z.
(** The media type and the charset parameter of the (first) Content-Type header. *)
Definition declares (e : env) (headers : list rawline) (ty : str) (cs : option str) : Prop :=
  exists v, first_line (u "content-type") headers = Some v /\ ty = type_of v
    /\ cs = match dget (u "charset") (parameters e (NoStarList [u "charset"]) v) with Some (Some s) => Some s | _ => None end.
(** What the sniffer makes of the sample contradicts the type: not for HTML and the two feeds. *)
Definition contradicts (ty s : str) : Prop := s <> ty /\ ~ (ty = u "text/html" /\ (s = u "application/rss+xml" \/ s = u "application/atom+xml")).
Definition sniff_says (e : env) (nc : bool) (headers : list rawline) (m : mstate) (r : list tale) : Prop :=
  (exists ty cs s, judged nc m /\ declares e headers ty cs /\ ty <> [] /\ e_sniff e (m_sample m) ty = Some s /\ contradicts ty s
     /\ r = [(CONTENT_TYPE_MISMATCH, u "content-type", [text ty; text s])])
  \/ ((forall ty cs s, judged nc m -> declares e headers ty cs -> ty <> [] -> e_sniff e (m_sample m) ty = Some s -> ~ contradicts ty s) /\ r = []).

(** Types that are always UTF-8. *)
Definition json_type (ty : str) : Prop :=
  ty = u "application/json" \/ ty = u "text/json"
  \/ exists sub p, sub = p ++ u "+json" /\ ((exists major, cut_at 47 ty major sub) \/ (~ In 47 ty /\ sub = ty)).
(** The charset in force, and whether it was only implied by the type. *)
Definition charset_of (ty : str) (cs : option str) (c : str) (implied : bool) : Prop :=
  (json_type ty /\ c = u "utf-8" /\ implied = match cs with None => true | _ => false end)
  \/ (~ json_type ty /\ (exists p, ty = u "text/" ++ p) /\ cs = Some c /\ c <> [] /\ implied = false).
(** There is something to compare: a known charset (with the codec's own name [name]) and content beyond ASCII. *)
Definition comparable (e : env) (nc : bool) (headers : list rawline) (m : mstate) (ty c : str) (implied : bool) (name : str) : Prop :=
  judged nc m /\ (exists cs, declares e headers ty cs /\ charset_of ty cs c implied) /\ ty <> [] /\ e_codec e c = Ok name /\ exists b, In b (m_sample m) /\ 128 <= b.
(** The detector's guess. *)
Definition guess (e : env) (m : mstate) (d : str) : Prop := fst (e_chardet e (m_sample m)) = Some d /\ d <> [].
(** The guess counts against the charset: it has another codec, it is at least half sure, and the two codecs do not read the content as the same text. *)
Definition suspect (e : env) (m : mstate) (name d : str) : Prop :=
  guess e m d /\ (exists dn, dn <> [] /\ e_codec e d = Ok dn /\ dn <> name
                    /\ ~ exists x, e_decode e name (m_sample m) = Ok x /\ e_decode e dn (m_sample m) = Ok x)
  /\ Qle (1 # 2) (snd (e_chardet e (m_sample m))).
Definition charset_says (e : env) (nc : bool) (headers : list rawline) (m : mstate) (r : list tale) : Prop :=
  (exists ty c implied name, comparable e nc headers m ty c implied name /\
     (((forall x, e_decode e c (m_sample m) <> Ok x)
        /\ exists shown, (guess e m shown \/ ((forall d, ~ guess e m d) /\ shown = u "unknown"))
        /\ r = [(CHARSET_UNDECODABLE, u "content-type", [None; text c; text shown])])
      \/ ((exists x, e_decode e c (m_sample m) = Ok x)
          /\ ((exists d, suspect e m name d
                /\ r = [if implied then (CHARSET_IMPLICIT_MISMATCH, u "content-type", [text ty; text c; text d]) else (CHARSET_MISMATCH, u "content-type", [None; text c; text d])])
              \/ ((forall d, ~ suspect e m name d) /\ r = [])))))
  \/ ((forall ty c implied name, ~ comparable e nc headers m ty c implied name) /\ r = []).
(** The linter's character_encoding attribute: the charset parameter, when its codec is known. *)
Definition encoding_says (e : env) (headers : list rawline) (o : option str) : Prop :=
  (exists ty c name, declares e headers ty (Some c) /\ e_codec e c = Ok name /\ o = Some c)
  \/ ((forall ty c name, declares e headers ty (Some c) -> e_codec e c <> Ok name) /\ o = None).
