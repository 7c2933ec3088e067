(** * Specification of the values of fields with a plain reading (C71). *)
From Verif Require Import PyStr Regex Grammar Note PyLib Utils FieldAttrs Types Fields1 Framework NumLemmas FieldSpec FieldDue.
From Verif Require ListSpec CodingSpec.
Open Scope N_scope.

Inductive reading :=
| AsText | InLower | InUpper
| OnlyTrue           (* "true"; nothing else *)
| EntityTag          (* is it weak, and its text without quotes *)
| NameValue          (* a name in lower case, and what is after "=", without quotes *)
| AltService         (* "clear", or a text with "=" in it; nothing else *)
| Directive          (* without its quotes, if it has them *)
| WithParams (n : nostar)    (* a name in lower case, and the parameters after a semicolon (C17, C70) *)
| MediaType (n : nostar)     (* the same, white space around the name removed *)
| Metric                     (* the same, the name as it is *)
| Target                     (* the same, the name without the angle brackets around it *)
| Nothing.                   (* no value *)
Definition param_values (d : dict (option str)) : pyval :=
  VDict (map (fun kv : str * option str => (fst kv, match snd kv with Some s => VStr s | None => VNone end)) d).
Definition link_stars : nostar := NoStarList (map u ["rel"; "rev"; "anchor"; "hreflang"; "type"; "media"]%string).
(** What a text (without white space around it) is read as, if it is readable. *)
Definition read (e : env) (r : reading) (v : str) : option pyval :=
  match r with
  | AsText => Some (VStr v)
  | InLower => Some (VStr (lower v))
  | InUpper => Some (VStr (upper v))
  | OnlyTrue => if str_eqb v (u "true") then Some (VStr v) else None
  | EntityTag => let weak := str_eqb (firstn 2 v) (u "W/") in
                 Some (VTuple [VBool weak; VStr (unquote_string (if weak then skipn 2 v else v))])
  | NameValue => let '(a, b) := ListSpec.cut v in
                 Some (VTuple [VStr (lower a); match b with Some s => VStr (unquote_string s) | None => VNone end])
  | AltService => if str_eqb v (u "clear") || existsb (N.eqb 61) v then Some (VStr v) else None
  | Directive => Some (VStr (if (2 <=? length v)%nat && (hd 0 v =? 34) && (last v 0 =? 34) then removelast (tl v) else v))
  | WithParams n => Some (VTuple [VStr (lower (CodingSpec.before_semi v)); param_values (CodingSpec.parameters e n v)])
  | MediaType n => Some (VTuple [VStr (lower (strip (CodingSpec.before_semi v))); param_values (CodingSpec.parameters e n v)])
  | Metric => Some (VTuple [VStr (strip (CodingSpec.before_semi v)); param_values (CodingSpec.parameters e (NoStarList [u "desc"]) v)])
  | Target => Some (VTuple [VStr (removelast (tl (strip (CodingSpec.before_semi v)))); param_values (CodingSpec.parameters e link_stars v)])
  | Nothing => Some VNone
  end.
Definition each (r : reading) (ks : list string) : list (string * reading) := map (fun k => (k, r)) ks.
(** Fields that may occur once. *)
Definition singles : list (string * reading) :=
  each AsText ["access-control"; "access-control-allow-origin"; "access-control-request-method"; "authorization"; "connectiox"; "content-base";
    "content-location"; "content-md5"; "content-transfer-encoding"; "cross-origin-resource-policy"; "cteonnt-length"; "from"; "host";
    "if-modified-since"; "if-range"; "if-unmodified-since"; "max-forwards"; "mime-version"; "p3p"; "proxy-authorization"; "referer";
    "retry-after"; "soapaction"; "user-agent"; "x-pad"]%string
  ++ [("x-frame-options", InUpper); ("access-control-allow-credentials", OnlyTrue); ("etag", EntityTag);
      ("content-disposition", WithParams NoStarNone); ("content-type", MediaType (NoStarList [u "charset"]))]%string.
(** Fields that are lists. *)
Definition lists : list (string * reading) :=
  each AsText ["access-control-allow-methods"; "access-control-expose-headers"; "allow"; "authentication-info"; "connection"; "expect"; "if-match";
    "if-none-match"; "proxy-authenticate"; "proxy-authentication-info"; "server"; "set-cookie2"; "tcn"; "trailer"; "upgrade"; "via"; "warning";
    "www-authenticate"; "x-cache"; "x-cache-lookup"; "x-content-type-options"]%string
  ++ each InLower ["accept-ranges"; "access-control-allow-headers"; "access-control-request-headers"; "content-language"; "pragma"; "referrer-policy"]%string
  ++ each (WithParams (NoStarList [u "q"])) ["accept-encoding"; "te"]%string
  ++ each (MediaType NoStarNone) ["accept-patch"; "accept-post"]%string
  ++ [("transfer-encoding", WithParams NoStarTrue); ("server-timing", Metric); ("link", Target); ("keep-alive", NameValue);
      ("alt-svc", AltService); ("clear-site-data", Directive)]%string.
(** Cookie: the pairs between semicolons; a pair without "=" is a value. *)
Definition cookie_pairs (v : str) : list pyval :=
  flat_map (fun p => match strip p with
                     | [] => []
                     | w => match ListSpec.cut w with
                            | (n, Some x) => [VTuple [VStr n; VStr x]]
                            | (_, None) => [VTuple [VStr []; VStr w]]
                            end
                     end) (split_all 59 v).
(** The value of such a field in a section with the lines [l]. *)
Definition single_value_is (e : env) (r : reading) (k : str) (l : list rawline) : option pyval :=
  match values k l with
  | [] => None
  | v :: _ => Some (match read e r (strip v) with Some x => x | None => VNone end)
  end.
Definition list_value_is (e : env) (r : reading) (k : str) (l : list rawline) : option pyval :=
  match values k l with
  | [] => None
  | _ => Some (VList (flat_map (fun v => match read e r v with Some x => [x] | None => [] end) (members k l)))
  end.
