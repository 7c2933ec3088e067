(** * Properties of notes: C07, C08. *)
From Verif Require Import PyStr Regex Note PyLib Utils FieldAttrs Types Framework Checks Message
  NoteLemmas TestEnv.
Open Scope N_scope.

(** ** C07: adding a note.  [emit_one] with an [ENote] event is [Notes.add]. *)
Theorem C07_add : forall t ns subj cls cat vrs,
  NoDup (keys vrs) ->
  exists n, emit_one t ns (subj, [], ENote cls cat vrs []) = ns ++ [n]
    /\ n_cls n = cls /\ n_subj n = subj /\ n_kids n = []
    /\ (forall k, dget k (n_vars n) =
                  match dget k vrs with
                  | Some v => Some v
                  | None => if str_eqb k (u "message_type") then Some (VStr (mtype_str t)) else None
                  end)
    /\ n_cat n = match cat with
                 | Some c => match nid_category cls with GENERAL => c | own => own end
                 | None => nid_category cls
                 end.
Proof. exact add_one. Qed.
Print Assumptions C07_add.
Example C07_add_ex :
  NoDup (keys [(u "message_type", VInt 1); (u "a", VInt 2)])
  /\ n_vars (mk_note MRequest [] BAD_SYNTAX None (dupdate [] [(u "message_type", VInt 1); (u "a", VInt 2)]) [])
     = [(u "message_type", VInt 1); (u "a", VInt 2)].
Proof. split; [|reflexivity]. repeat constructor; cbn; intuition discriminate. Qed.

(** No API call removes, reorders or changes a note already reported; it can
    only append notes and attach sub-notes. *)
Theorem C07_history : forall e rel m,
  (forall l, extends (m_notes m) (m_notes (fst (process_headers e rel l m))))
  /\ (forall c, extends (m_notes m) (m_notes (fst (feed_content e c m))))
  /\ (forall complete tr, extends (m_notes m) (m_notes (fst (fst (finish_content e rel complete tr m)))))
  /\ (forall a b c, extends (m_notes m) (m_notes (fst (process_request_topline e a b c m))))
  /\ (forall a b c, extends (m_notes m) (m_notes (process_response_topline a b c m))).
Proof.
  exact (fun e rel m =>
    conj (fun l => process_headers_extends e rel l m)
   (conj (fun c => feed_content_extends e c m)
   (conj (fun c tr => finish_content_extends e rel c tr m)
   (conj (fun a b c => request_topline_extends e a b c m)
         (fun a b c => response_topline_extends a b c m))))).
Qed.
Print Assumptions C07_history.
Example C07_history_ex :
  let m := process_response_topline (u "1.1") (u "abc") None (new_message MResponse None false) in
  map n_cls (m_notes m) = [STATUS_CODE_NON_NUMERIC]
  /\ map n_cls (m_notes (fst (process_headers env0 None [(u "a b", u "c")] m)))
     = [STATUS_CODE_NON_NUMERIC; FIELD_NAME_BAD_SYNTAX].
Proof. vm_compute. split; reflexivity. Qed.

(** ** C08: backticks.  The detail of a note is made of pieces of its template,
    MarkdownSafe values of the note, and other values' texts; only the first
    two may contain a backtick. *)
Theorem C08_pieces : forall e cls vrs s,
  detail_md e cls vrs = Ok s ->
  exists ps,
    s = flat_map piece_text ps
    /\ Forall (piece_allowed vrs) ps
    /\ backticks (flat_map template_part ps) = backticks (u (nid_text cls))
    /\ backticks s = (backticks (u (nid_text cls)) + backticks (flat_map markdown_part ps))%nat.
Proof. exact detail_backticks. Qed.
Print Assumptions C08_pieces.
Example C08_ex :
  detail_md env0 BAD_SYNTAX_DETAILED
    [(u "field_name", VStr (u "A`B")); (u "ref_uri", VStr (u "http://x/")); (u "value", VStr (u "``"));
     (u "problem", VMd (u "`p`"))] <> Err EKey
  /\ backticks (u (nid_text BAD_SYNTAX_DETAILED)) = 2%nat.
Proof. split; [vm_compute; discriminate|vm_compute; reflexivity]. Qed.

Theorem C08_count : forall e cls vrs s,
  (forall k t, dget k vrs <> Some (VMd t)) ->
  detail_md e cls vrs = Ok s ->
  backticks s = backticks (u (nid_text cls)).
Proof. exact detail_plain_backticks. Qed.
Print Assumptions C08_count.
Example C08_count_ex :
  exists s, detail_md env0 FIELD_TOO_LARGE
              [(u "message_type", VStr (u "request")); (u "field_name", VStr (u "A`B`"));
               (u "field_size", VStr (u "9`9"))] = Ok s.
Proof. eexists. vm_compute. reflexivity. Qed.
