(** * Specification of what the structured fields' notes show (C66). *)
From Coq Require Import QArith.
From Verif Require Import PyStr Regex Grammar Note PyLib Utils FieldAttrs Types Fields1 Framework NumLemmas FieldSpec FieldDue CodingSpec PlainSpec LinkSpec SFSpec.
Open Scope N_scope.

(** A Python value for an item, and for a member: an inner list is a list of pairs of an item and its parameters. *)
Definition as_value (b : bare) : pyval :=
  match b with
  | BInt z => VInt z | BDec q => VDec q | BStr s => VStr s | BTok s => VToken s | BBytes x => VBytes x | BBool x => VBool x | BDate z => VDate z | BDisp s => VDisplay s
  end.
Definition with_params (bp : bare * sfparams) : pyval := VTuple [as_value (fst bp); VDict (map (fun kv => (fst kv, as_value (snd kv))) (dupdate [] (snd bp)))].
Definition member_value (m : member) : pyval := match m with MItem b _ => as_value b | MInner l _ => VList (map with_params l) end.
(** How Python prints them; the text of fractions, byte sequences, dates and lists is left to Python. *)
Definition printed_item (e : env) (b : bare) : str :=
  match b with
  | BInt z => dec_Z z
  | BBool true => u "True" | BBool false => u "False"
  | BStr s | BTok s | BDisp s => s
  | BDec q => e_float_str e (VDec q)
  | BBytes _ | BDate _ => e_repr e (as_value b)
  end.
Definition printed (e : env) (m : member) : str := match m with MItem b _ => printed_item e b | MInner _ _ => e_repr e (member_value m) end.
Definition told1 (x : string) : option pyval := Some (VStr (u x)).

(** Deprecation: date, item_type. The date is printed with a T in place of the blank. *)
Definition deprecation_says (e : env) (start : option Q) (b : bare) (l : list (nid * list (option pyval))) : Prop :=
  match b with
  | BDate z =>
      let d := Some (VStr (map (fun c => if c =? 32 then 84 else c) (printed_item e b))) in
      (exists st, start = Some st /\ ~ (st == 0)%Q /\ ((st < inject_Z z)%Q /\ l = [(DEPRECATION_FUTURE, [d; None])] \/ (inject_Z z <= st)%Q /\ l = [(DEPRECATION_PAST, [d; None])]))
      \/ (forall st, start = Some st -> (st == 0)%Q) /\ l = []
  | BBool true => l = [(DEPRECATION_TRUE, [None; None])]
  | BBool false => l = [(DEPRECATION_BAD_TYPE, [None; told1 "Boolean False"])]
  | _ => l = [(DEPRECATION_BAD_TYPE, [None; told1 (bare_kind b)])]
  end.

(** Accept-Query: value, ref_uri. *)
Definition query_says (e : env) (m : member) (l : list (nid * list (option pyval))) : Prop :=
  (exists s ty sub, word_of m s /\ media_range true true (lower s) ty sub /\ l = [])
  \/ (exists s, word_of m s /\ (forall ty sub, ~ media_range true true (lower s) ty sub)
       /\ l = [(ACCEPT_QUERY_BAD_SYNTAX, [Some (VStr (lower s)); told1 "https://www.rfc-editor.org/rfc/rfc10008.html#section-3"])])
  \/ ((forall s, ~ word_of m s) /\ l = [(ACCEPT_QUERY_BAD_TYPE, [Some (VStr (printed e m)); None])]).

(** Reporting-Endpoints and Speculation-Rules: name, url, value, found_type. *)
Definition url_says (e : env) (base : str) (name : option pyval) (insecurely bad : nid) (m : member) (l : list (nid * list (option pyval))) : Prop :=
  (exists s, is_string m s /\ (insecure e base s /\ l = [(insecurely, [name; Some (VStr s); None; None])] \/ ~ insecure e base s /\ l = []))
  \/ ((forall s, ~ is_string m s) /\ l = [(bad, [name; None; Some (member_value m); told1 (kind m)])]).

(** CDN-Cache-Control: bad_directive, expected_type. *)
Definition directive_says (km : str * member) (l : list (nid * list (option pyval))) : Prop :=
  let n := lower (fst km) in
  let wrong expected := l = [(BAD_CDN_CC_TYPE, [Some (VStr n); told1 expected])] in
  (one_of bare_directives n = true /\ ~ is_yes (snd km) /\ wrong "no value"%string)
  \/ (one_of number_directives n = true /\ ~ is_number (snd km) /\ wrong "integer"%string)
  \/ (one_of text_directives n = true /\ ~ is_yes (snd km) /\ (forall s, ~ is_string (snd km) s) /\ wrong "a string"%string)
  \/ ((one_of bare_directives n = true -> is_yes (snd km)) /\ (one_of number_directives n = true -> is_number (snd km))
       /\ (one_of text_directives n = true -> is_yes (snd km) \/ exists s, is_string (snd km) s) /\ l = []).
Definition cdn_says (d : list (str * member)) (l : list (nid * list (option pyval))) : Prop :=
  exists l2, l = (CDN_CACHE_CONTROL_PRESENT, [None; None]) :: l2 /\ each directive_says d l2.

(** Use-As-Dictionary: param, expected, got. What is shown as the parameter is its value. *)
Definition use_says (km : str * member) (l : list (nid * list (option pyval))) : Prop :=
  let wrong expected := l = [(USE_AS_DICTIONARY_BAD_TYPE, [Some (member_value (snd km)); told1 expected; told1 (kind (snd km))])] in
  (one_of ["match"; "id"; "type"]%string (fst km) = true /\ ((exists s, is_string (snd km) s) /\ l = [] \/ (forall s, ~ is_string (snd km) s) /\ wrong "str"%string))
  \/ (fst km = u "ttl" /\ (is_number (snd km) /\ l = [] \/ ~ is_number (snd km) /\ wrong "int"%string))
  \/ (fst km = u "match-dest" /\ (destinations (snd km) /\ l = [] \/ ~ destinations (snd km) /\ l = [(USE_AS_DICTIONARY_BAD_MATCH_DEST, [None; None; told1 (kind (snd km))])]))
  \/ (one_of ["match"; "id"; "type"; "ttl"; "match-dest"]%string (fst km) = false /\ l = []).

(** Cache-Status and Proxy-Status: param, value, status. A table gives the text for each parameter, around its value, or a text for some of its values. *)
Definition text_table := list (string * (option string * option string * list (string * string))).
Definition cache_texts : text_table :=
  [("hit", ((Some "The response was served from the cache.", None), []));
   ("fwd", ((None, None), [("bypass", "The cache was configured to bypass the cache.");
      ("method", "The request method's semantics require the request to be forwarded.");
      ("uri-miss", "The cache did not contain a response for the URI.");
      ("vary-miss", "The cache contained a response for the URI, but it could not be selected.");
      ("miss", "The cache did not contain a response.");
      ("request", "The cache was requested to forward the request.");
      ("stale", "The cache contained a stale response.");
      ("partial", "The cache contained a partial response.")]));
   ("fwd-status", ((Some "The status code of the forwarded request was ", Some "."), []));
   ("ttl", ((Some "The response's remaining time-to-live was ", Some " seconds."), []));
   ("stored", ((Some "The response was stored in the cache.", None), []));
   ("collapsed", ((Some "The request was collapsed with another request.", None), []));
   ("key", ((Some "The cache key was `", Some "`."), []));
   ("detail", ((Some "Additional details: ", Some ""), []))]%string.
Definition proxy_texts : text_table :=
  [("error", ((None, None), [("dns_timeout", "The proxy encountered a timeout when trying to resolve the hostname.");
      ("dns_error", "The proxy encountered a DNS error.");
      ("destination_not_found", "The proxy could not determine the IP address of the next hop.");
      ("destination_unavailable", "The proxy could not connect to the next hop.");
      ("destination_ip_prohibited", "The proxy was configured to block access to the next hop IP.");
      ("destination_ip_unroutable", "The proxy could not route packets to the next hop IP.");
      ("connection_refused", "The proxy's connection to the next hop was refused.");
      ("connection_terminated", "The proxy's connection to the next hop was closed.");
      ("connection_timeout", "The proxy's connection to the next hop timed out.");
      ("connection_read_timeout", "The proxy encountered a timeout while waiting for data.");
      ("connection_write_timeout", "The proxy encountered a timeout while writing data.");
      ("connection_limit_reached", "The proxy reached a limit on open connections.");
      ("tls_protocol_error", "The proxy encountered a TLS error.");
      ("tls_certificate_error", "The proxy encountered a certificate error.");
      ("tls_alert_received", "The proxy received a TLS alert.");
      ("http_request_error", "The proxy encountered an error while generating the request.");
      ("http_request_denied", "The proxy denied the request.");
      ("http_response_incomplete", "The proxy received an incomplete response.");
      ("http_response_header_section_size", "The proxy received a header section that was too large.");
      ("http_response_header_size", "The proxy received a header that was too large.");
      ("http_response_body_size", "The proxy received a body that was too large.");
      ("http_response_transfer_coding", "The proxy encountered an error decoding the transfer coding.");
      ("http_response_content_coding", "The proxy encountered an error decoding the content coding.");
      ("http_response_timeout", "The proxy encountered a timeout while waiting for the response.");
      ("http_upgrade_failed", "The proxy failed to upgrade the connection.");
      ("http_protocol_error", "The proxy encountered a protocol error.");
      ("proxy_internal_error", "The proxy encountered an internal error.");
      ("proxy_configuration_error", "The proxy encountered a configuration error.");
      ("proxy_loop_detected", "The proxy detected a loop.")]));
   ("next-hop", ((Some "The next hop was `", Some "`."), []));
   ("next-protocol", ((Some "The next protocol was `", Some "`."), []));
   ("received-status", ((Some "The received status code was ", Some "."), []));
   ("details", ((Some "Additional details: ", Some ""), []))]%string.
Definition lookup {A} (n : str) (tab : list (string * A)) : option A := match find (fun row => str_eqb n (u (fst row))) tab with Some row => Some (snd row) | None => None end.
(** The text for a parameter: literally, unless it is known and its value is allowed and has a text.
    The text around a value that is true is shown as it is in the table, with %s. *)
Definition literally (e : env) (kv : str * bare) : str := u "* `" ++ fst kv ++ u "`: `" ++ printed_item e (snd kv) ++ u "`".
Definition param_text (e : env) (texts : text_table) (kv : str * bare) : str :=
  match lookup (fst kv) texts with
  | Some (Some p, q, _) =>
      match snd kv, q with
      | BBool true, Some q => u "* " ++ u p ++ u "%s" ++ u q
      | _, Some q => u "* " ++ u p ++ printed_item e (snd kv) ++ u q
      | _, None => u "* " ++ u p
      end
  | Some (None, _, vals) =>
      match snd kv with
      | BTok s | BStr s | BDisp s => match lookup s vals with Some t => u "* " ++ u t | None => literally e kv end
      | _ => literally e kv
      end
  | None => literally e kv
  end.
Definition param_says (e : env) (tab : param_table) (texts : text_table) (unk bad : nid) (kv : str * bare) (l : list (nid * list (option pyval))) (line : str) : Prop :=
  match lookup (fst kv) tab with
  | None => l = [(unk, [Some (VStr (fst kv)); None; None])] /\ line = literally e kv
  | Some (types, vals) =>
      allowed types vals (snd kv) /\ l = [] /\ line = param_text e texts kv
      \/ ~ allowed types vals (snd kv) /\ l = [(bad, [Some (VStr (fst kv)); Some (as_value (snd kv)); None])] /\ line = literally e kv
  end.
(** A member: its name (bytes that are not ASCII replaced), and a line for each parameter. *)
Definition target (e : env) (m : member) : str :=
  match m with MItem (BBytes x) _ => map (fun c => if c <? 128 then c else 65533) x | _ => printed e m end.
Definition member_says (e : env) (tab : param_table) (texts : text_table) (unk bad : nid) (m : member) (l : list (nid * list (option pyval))) (text : str) : Prop :=
  exists said, Forall2 (fun kv x => param_says e tab texts unk bad kv (fst x) (snd x)) (attributes m) said
    /\ l = concat (map fst said) /\ text = u "**" ++ target e m ++ u "**:" ++ [10] ++ join [10] (map snd said).
Definition status_says (e : env) (tab : param_table) (texts : text_table) (present unk bad : nid) (ms : list member) (l : list (nid * list (option pyval))) : Prop :=
  exists said, Forall2 (fun m x => member_says e tab texts unk bad m (fst x) (snd x)) ms said
    /\ l = concat (map fst said) ++ told_once (nonempty ms) present [None; None; Some (VStr (join [10; 10] (map snd said)))].
