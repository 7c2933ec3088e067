(** * Specification of the status checks (C23): when each class of note is due. *)
From Verif Require Import PyStr Note PyLib Utils Types PropBody.
Open Scope N_scope.

(** ** Vocabulary *)
(** A value was recorded for header [k]. *)
Definition has_field (m : mstate) (k : string) : Prop := exists v, received m k v.
(** A header line named [k] (in any letter case) was received, whatever became of it. *)
Definition line_of (m : mstate) (k : string) : Prop := exists n v, In (n, v) (s_text (m_headers m)) /\ lower n = u k.
(** ... and one of its comma-separated parts is [x]. *)
Definition line_lists (m : mstate) (k x : string) : Prop :=
  exists n v p, In (n, v) (s_text (m_headers m)) /\ lower n = u k /\ In p (split_all 44 v) /\ strip p = u x.
(** The related request is known and lacks every header in [ks]. *)
Definition without (rel : option mstate) (ks : list string) : Prop :=
  exists r, rel = Some r /\ forall k, In k ks -> ~ line_of r k.
Definition status_of (m : mstate) (z : Z) : Prop := m_status m = Some z.
Definition status_among (m : mstate) (l : list Z) : Prop := exists z, status_of m z /\ In z l.
(** The method the response is about. *)
Definition request_method (rel : option mstate) : option str := match rel with Some r => m_method r | None => Some (u "request") end.
(** ... is in the parsed Allow; [py_in] is Python's [in], for a list of strings
    that is membership. *)
Definition method_allowed (m : mstate) (rel : option mstate) : Prop :=
  exists s v, request_method rel = Some s /\ s <> [] /\ received m "allow" v /\ py_in s v = Ok true.
Lemma py_in_list s l : py_in s (VList (map VStr l)) = Ok true <-> In s l.
Proof.
  cbn [py_in]. split.
  - intros H. injection H as H. apply existsb_exists in H as (x & Hx & E). apply in_map_iff in Hx as (t & <- & Ht). cbn in E. apply str_eqb_eq in E. subst. exact Ht.
  - intros H. f_equal. apply existsb_exists. exists (VStr s). split; [apply in_map, H|]. cbn. apply str_eqb_refl.
Qed.

(** The supported codes: the [statusNNN] methods of status.py. *)
Definition supported : list Z :=
  [100; 101; 102; 103; 104; 200; 201; 202; 203; 204; 205; 206; 207; 208; 226; 300; 301; 302; 303; 304; 305; 306; 307; 308;
   400; 401; 402; 403; 404; 405; 406; 407; 408; 409; 410; 411; 412; 413; 414; 415; 416; 417; 418; 421; 422; 423; 424; 425; 426; 428; 429; 431; 451;
   500; 501; 502; 503; 504; 505; 506; 507; 508; 510; 511]%Z.
(** Codes that always get the same note. *)
Definition plain : list (Z * nid) :=
  [(103, STATUS_EARLY_HINTS); (104, STATUS_UPLOAD_RESUMPTION_SUPPORTED); (208, STATUS_ALREADY_REPORTED); (305, STATUS_DEPRECATED);
   (306, STATUS_RESERVED); (400, STATUS_BAD_REQUEST); (403, STATUS_FORBIDDEN); (404, STATUS_NOT_FOUND); (409, STATUS_CONFLICT); (410, STATUS_GONE);
   (413, STATUS_REQUEST_ENTITY_TOO_LARGE); (414, STATUS_URI_TOO_LONG); (415, STATUS_UNSUPPORTED_MEDIA_TYPE); (418, STATUS_IM_A_TEAPOT);
   (421, STATUS_MISDIRECTED_REQUEST); (425, STATUS_TOO_EARLY); (428, STATUS_PRECONDITION_REQUIRED); (429, STATUS_TOO_MANY_REQUESTS);
   (431, STATUS_REQUEST_HEADER_FIELDS_TOO_LARGE); (451, STATUS_UNAVAILABLE_FOR_LEGAL_REASONS); (500, STATUS_INTERNAL_SERVICE_ERROR);
   (501, STATUS_NOT_IMPLEMENTED); (502, STATUS_BAD_GATEWAY); (503, STATUS_SERVICE_UNAVAILABLE); (504, STATUS_GATEWAY_TIMEOUT);
   (505, STATUS_VERSION_NOT_SUPPORTED); (508, STATUS_LOOP_DETECTED); (511, STATUS_NETWORK_AUTHENTICATION_REQUIRED)]%Z.
(** When each class of note is due. *)
Definition status_rule (c : nid) (m : mstate) (rel : option mstate) : Prop :=
  match c with
  | STATUS_NONSTANDARD => ~ status_among m supported
  | UNEXPECTED_CONTINUE => status_of m 100 /\ exists r, rel = Some r /\ ~ line_lists r "expect" "100-continue"
  | UPGRADE_NOT_REQUESTED => status_of m 101 /\ without rel ["upgrade"]%string
  | CREATED_SAFE_METHOD => status_of m 201 /\ exists r s, rel = Some r /\ m_method r = Some s /\ In s (map u ["GET"; "HEAD"; "OPTIONS"; "TRACE"]%string)
  | CREATED_WITHOUT_LOCATION => status_of m 201 /\ ~ has_field m "location"
  | PARTIAL_NOT_REQUESTED => status_of m 206 /\ without rel ["range"]%string
  | PARTIAL_WITHOUT_RANGE => status_of m 206 /\ ~ has_field m "content-range"
  | REDIRECT_WITHOUT_LOCATION => status_among m [301; 302; 303; 307; 308]%Z /\ ~ has_field m "location"
  | NO_DATE_304 => status_of m 304 /\ ~ has_field m "date"
  | HEADER_SHOULD_NOT_BE_IN_304 => status_of m 304 /\ (has_field m "content-type" \/ has_field m "content-encoding" \/ has_field m "content-language")
  | STATUS_405_METHOD_IN_ALLOW => status_of m 405 /\ method_allowed m rel
  | STATUS_METHOD_NOT_ALLOWED => status_of m 405 /\ ~ method_allowed m rel
  | STATUS_406_WITHOUT_NEGOTIATION => status_of m 406 /\ without rel ["accept"; "accept-charset"; "accept-encoding"; "accept-language"]%string
  | STATUS_NOT_ACCEPTABLE => status_of m 406 /\ ~ without rel ["accept"; "accept-charset"; "accept-encoding"; "accept-language"]%string
  | STATUS_412_WITHOUT_PRECONDITION =>
      status_of m 412 /\ without rel ["if-match"; "if-none-match"; "if-modified-since"; "if-unmodified-since"; "if-range"]%string
  | STATUS_PRECONDITION_FAILED =>
      status_of m 412 /\ ~ without rel ["if-match"; "if-none-match"; "if-modified-since"; "if-unmodified-since"; "if-range"]%string
  | STATUS_416_WITHOUT_RANGE => status_of m 416 /\ without rel ["range"]%string
  | STATUS_417_WITHOUT_EXPECT => status_of m 417 /\ without rel ["expect"]%string
  | STATUS_417_WITH_100_CONTINUE => status_of m 417 /\ exists r, rel = Some r /\ line_lists r "expect" "100-continue"
  | STATUS_EXPECTATION_FAILED => status_of m 417 /\ ~ without rel ["expect"]%string /\ ~ exists r, rel = Some r /\ line_lists r "expect" "100-continue"
  | _ => exists z, status_of m z /\ In (z, c) plain
  end.

