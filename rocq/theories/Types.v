(** * State: field handlers, field sections, messages. *)
From Verif Require Import PyStr Regex Note PyLib Utils FieldAttrs.
Open Scope N_scope.

(** field/__init__.py:100-106 [HttpField.__init__] and the attributes that
    singleton_field.py:18, broken_field.py:17, structured_field.py:25 add.
    [h_aux] holds the extra per-instance lists of a few parsers (set_cookie,
    clear_site_data, content_security_policy, nel). *)
Record handler := mkHandler {
  h_cls : fname;
  h_wire : str;             (* wire_name *)
  h_norm : str;             (* norm_name *)
  h_canon : str;            (* canonical_name *)
  h_val : pyval;            (* value *)
  h_raw : list (str * nat); (* raw_values (and, for BrokenField, offsets) *)
  h_sf : bool;              (* _sf_parsed *)
  h_aux : list (str * ev)   (* with the subject they were recorded under *)
}.
Definition h_set_val (h : handler) (v : pyval) : handler :=
  mkHandler (h_cls h) (h_wire h) (h_norm h) (h_canon h) v (h_raw h) (h_sf h) (h_aux h).
Definition h_add_raw (h : handler) (r : str * nat) : handler :=
  mkHandler (h_cls h) (h_wire h) (h_norm h) (h_canon h) (h_val h) (h_raw h ++ [r]) (h_sf h) (h_aux h).
Definition h_set_sf (h : handler) (b : bool) : handler :=
  mkHandler (h_cls h) (h_wire h) (h_norm h) (h_canon h) (h_val h) (h_raw h) b (h_aux h).
Definition h_add_aux (h : handler) (l : list (str * ev)) : handler :=
  mkHandler (h_cls h) (h_wire h) (h_norm h) (h_canon h) (h_val h) (h_raw h) (h_sf h) (h_aux h ++ l).

(** field/section.py:26-33 [FieldSection]. *)
Record section := mkSection {
  s_trailer : bool;
  s_text : list (str * str);
  s_parsed : dict pyval;
  s_size : N;
  s_handlers : dict handler
}.
Definition new_section (tr : bool) : section := mkSection tr [] [] 0 [].
Definition s_set_parsed (s : section) (p : dict pyval) : section :=
  mkSection (s_trailer s) (s_text s) p (s_size s) (s_handlers s).
Definition s_set_handlers (s : section) (h : dict handler) : section :=
  mkSection (s_trailer s) (s_text s) (s_parsed s) (s_size s) h.

(** cache.py:13-22: the public attributes of ResponseCacheChecker. *)
Record caching := mkCaching {
  c_age : Q;
  c_store_private : bool;
  c_store_shared : bool;
  c_life_private : Z;
  c_life_shared : Z
}.

(** content_encoding.py:79-87, 210-216: one decoder of the pipeline.  The
    library decompressor's state is the list of the inputs it has been given. *)
Inductive stage :=
| Gzip (hist : list bytes) (in_gzip : bool) (buf : bytes) (total : N) (ok : bool)
| Brotli (hist : list bytes) (total : N) (ok : bool).

(** message.py:57-91, 200-204, 268-274. *)
Record mstate := mkMsg {
  m_type : mtype;
  m_start : option Q;
  m_no_content : bool;
  m_version : str;
  m_base : str;
  m_headers : section;
  m_trailers : section;
  m_clen : N;                     (* content_length *)
  m_hashed : bytes;               (* what _hash_processor was fed *)
  m_hash : option bytes;          (* content_hash *)
  m_charenc : option str;         (* character_encoding *)
  m_sample : bytes;
  m_complete : bool;
  m_pipeline : option (list stage);   (* decoded.pipeline, outermost (last coding) first *)
  m_dec_len : N;                  (* decoded.length *)
  m_dec_hashed : bytes;           (* what decoded._hash_processor was fed *)
  m_dec_hash : option bytes;      (* decoded.hash *)
  m_method : option str; m_iri : option str; m_uri : option str;
  m_status_str : option str; m_status : option Z; m_phrase : option str;
  m_head : bool;                  (* is_head_response *)
  m_caching : option caching;
  m_notes : list note
}.

(** What field code can reach: the libraries, its message, the related message
    ([self.message.request] of a response). *)
Record cx := mkCx { cx_env : env; cx_msg : mstate; cx_rel : option mstate }.

(** [self.message.headers.parsed.get(k)]. *)
Definition hdr (c : cx) (k : string) : option pyval := dget (u k) (s_parsed (m_headers (cx_msg c))).
Definition has_hdr (c : cx) (k : string) : bool := dmem (u k) (s_parsed (m_headers (cx_msg c))).
(** [self.message.request.headers.parsed.get(k)] *)
Definition rel_hdr (r : mstate) (k : string) : option pyval := dget (u k) (s_parsed (m_headers r)).
Definition is_request (c : cx) : bool := match m_type (cx_msg c) with MRequest => true | _ => false end.
Definition is_response (c : cx) : bool := match m_type (cx_msg c) with MResponse => true | _ => false end.
