(** * cli/__init__.py and cli/http_parser.py: the command line.

    thor's HTTP/1 parser (HttpMessageHandler) is not modelled: what it found in
    the input (the start line, the field lines, the framing it derived, the body's
    chunks, the trailers) are arguments here.  argparse is modelled as far as the
    value of [args.mode] goes. *)
From Verif Require Import PyStr NoteTable Note PyLib Types Framework Checks Message Session.
Open Scope N_scope.

(** ** Options *)
(** cli/http_parser.py:13-17, a plain Enum: a member equals no string. *)
Inductive modes := REQUEST | RESPONSE.
(** What [args.mode] can be: the default, or the text of the option. *)
Inductive mode := Member (m : modes) | Text (s : str).
(** cli/__init__.py:19-29: [choices] are the values of the members, the default is
    a member; [None] is argparse's exit with a usage message. *)
Definition args_mode (given : option str) : option mode :=
  match given with
  | None => Some (Member RESPONSE)
  | Some s => if str_in s [u "request"; u "response"] then Some (Text s) else None
  end.
(** [args.mode == modes.X] *)
Definition mode_is (a : mode) (x : modes) : bool :=
  match a, x with Member REQUEST, REQUEST | Member RESPONSE, RESPONSE => true | _, _ => false end.

(** ** Start lines *)
(** White space for [bytes.split]. *)
Definition bws (c : N) : bool := ((9 <=? c) && (c <=? 13)) || (c =? 32).
Fixpoint take_while (f : N -> bool) (s : str) : str :=
  match s with
  | c :: s' => if f c then c :: take_while f s' else []
  | [] => []
  end.
(** [a, b = s.split(None, 1)]; [None] is the ValueError of fewer than two parts. *)
Definition bsplit (s : bytes) : option (bytes * bytes) :=
  let s := drop_while bws s in
  let w := take_while (fun c => negb (bws c)) s in
  let r := drop_while bws (drop_while (fun c => negb (bws c)) s) in
  match w, r with
  | [], _ | _, [] => None
  | _, _ => Some (w, r)
  end.
(** [a, b = s.rsplit(None, 1)] *)
Definition brsplit (s : bytes) : option (bytes * bytes) :=
  match bsplit (rev s) with Some (w, r) => Some (rev r, rev w) | None => None end.
(** [a, b = s.rsplit(b"/", 1)] *)
Definition slash (s : bytes) : option (bytes * bytes) :=
  match split1 47 (rev s) with Some (b, a) => Some (rev a, rev b) | None => None end.
Definition brstrip (s : bytes) : bytes := rev (drop_while bws (rev s)).

(** cli/http_parser.py:79-87: a ValueError or an IndexError becomes a ValueError;
    [input_error] does nothing. *)
Definition request_topline (line : bytes) : res (bytes * bytes * bytes) :=
  match bsplit line with
  | None => Err EValue
  | Some (method, req_line) =>
      match brsplit req_line with
      | None => Err EValue
      | Some (uri, version) =>
          match slash version with
          | None => Err EValue
          | Some (_, version) => Ok (method, uri, version)
          end
      end
  end.
(** cli/http_parser.py:89-104 *)
Definition response_topline (line : bytes) : res (bytes * bytes * bytes) :=
  match bsplit line with
  | None => Err EValue
  | Some (proto_version, status_txt) =>
      match slash proto_version with
      | None => Err EValue
      | Some (proto, version) =>
          if negb (str_eqb proto (u "HTTP")) || negb (str_in version [u "1.0"; u "1.1"; u "2"]) then Err EValue
          else match bsplit status_txt with
               | Some (status_code, status_phrase) => Ok (version, status_code, status_phrase)
               | None => Ok (version, brstrip status_txt, [])
               end
      end
  end.

(** ** The message *)
(** cli/http_parser.py:33-62 [input_start]: the linter, if one was made, and
    (allows_body, is_final).  [no_body] is thor's no_body_status. *)
Definition input_start (e : env) (no_body : list bytes) (a : mode) (start : option Q) (top_line : bytes)
    (hdrs : list (bytes * bytes)) (transfer_codes : list bytes) (content_length : option Z)
  : option mstate * res (bool * bool) :=
  let '(l, r) :=
    if mode_is a REQUEST then
      let m := new_linter MRequest start false false [] in
      match request_topline top_line with
      | Err x => (Some m, Err x)
      | Ok (method, iri, version) =>
          match then_ (process_request_topline e method iri version m) (process_headers e None hdrs) with
          | (m, Ok _) => (Some m, Ok (Some (match content_length with Some z => (0 <? z)%Z | None => false end
                                            || negb (match transfer_codes with [] => true | _ => false end), true)))
          | (m, Err x) => (Some m, Err x)
          end
      end
    else (None, Ok None) in
  match r with
  | Err x => (l, Err x)
  | Ok b =>
      if mode_is a RESPONSE then
        let m := new_linter MResponse start false false [] in
        match response_topline top_line with
        | Err x => (Some m, Err x)
        | Ok (version, status, phrase) =>
            match process_headers e None hdrs (process_response_topline version status (Some phrase) m) with
            | (m, Ok _) =>
                let is_final := negb (startswith (u "1") status) in
                (Some m, Ok (is_final && negb (str_in status no_body), is_final))
            | (m, Err x) => (Some m, Err x)
            end
        end
      else match b with
           | Some x => (l, Ok x)
           | None => (l, Err EUnbound)   (* [return allows_body, is_final] *)
           end
  end.

(** ** Printing *)
(** note.py:42-52: the values of the members of [categories]. *)
Definition cat_text (c : category) : str :=
  u match c with
    | GENERAL => "General" | CONNECTION => "Connection" | SECURITY => "Browser Security"
    | CORS => "Cross-Origin Resource Sharing" | COOKIES => "Cookies" | CONNEG => "Content Negotiation"
    | CACHING => "Caching" | VALIDATION => "Validation" | RANGE => "Partial Content"
    end%string.
(** the names of the members of [levels] *)
Definition level_name (l : level) : str :=
  u match l with GOOD => "GOOD" | WARN => "WARN" | BAD => "BAD" | INFO => "INFO" end%string.
(** [sorted(notes, key=lambda n: n.category.value)]: stable *)
Fixpoint note_insert (x : note) (l : list note) : list note :=
  match l with
  | [] => [x]
  | y :: l' => if str_leb (cat_text (n_cat x)) (cat_text (n_cat y)) then x :: l else y :: note_insert x l'
  end.
Definition sort_notes (l : list note) : list note := fold_right note_insert [] l.
Definition nl : str := [10].
(** cli/http_parser.py:67-77 (locale "en", where [translate] is the identity): the
    text printed until the end or the first exception *)
Fixpoint print_kids (e : env) (l : list (nid * vars)) : str * res unit :=
  match l with
  | [] => ([], Ok tt)
  | (c, vrs) :: l' =>
      match summary e c vrs with
      | Err x => ([], Err x)
      | Ok s => let '(out, r) := print_kids e l' in
                (u "  * [" ++ level_name (nid_level c) ++ u "] " ++ s ++ nl ++ out, r)
      end
  end.
Fixpoint print_notes (e : env) (current : option category) (l : list note) : str * res unit :=
  match l with
  | [] => ([], Ok tt)
  | n :: l' =>
      let head := match current with
                  | Some c => if category_eqb (n_cat n) c then [] else nl ++ u "### " ++ cat_text (n_cat n) ++ nl ++ nl
                  | None => nl ++ u "### " ++ cat_text (n_cat n) ++ nl ++ nl
                  end in
      match summary e (n_cls n) (n_vars n) with
      | Err x => (head, Err x)
      | Ok s =>
          let line := u "* [" ++ level_name (nid_level (n_cls n)) ++ u "] " ++ s ++ nl in
          match print_kids e (n_kids n) with
          | (kids, Err x) => (head ++ line ++ kids, Err x)
          | (kids, Ok _) => let '(out, r) := print_notes e (Some (n_cat n)) l' in (head ++ line ++ kids ++ out, r)
          end
      end
  end.
(** cli/http_parser.py:67-78 [input_end]: what is printed *)
Definition input_end (e : env) (trailers : list (bytes * bytes)) (m : mstate) : str * res unit :=
  match finish_content e None true trailers m with
  | (_, _, Err x) => ([], Err x)
  | (m, _, Ok _) => print_notes e None (sort_notes (m_notes m))
  end.
(** A message: its start, the chunks of its body, its end. *)
Definition cli_message (e : env) (no_body : list bytes) (a : mode) (start : option Q) (top_line : bytes)
    (hdrs : list (bytes * bytes)) (transfer_codes : list bytes) (content_length : option Z)
    (chunks : list bytes) (trailers : list (bytes * bytes)) : str * res unit :=
  match input_start e no_body a start top_line hdrs transfer_codes content_length with
  | (Some m, Ok _) =>
      match feed_all e chunks m with
      | (m, Ok _) => input_end e trailers m
      | (_, Err x) => ([], Err x)
      end
  | (_, Err x) => ([], Err x)
  | (None, Ok _) => ([], Err EAttr)   (* self.linter is not set *)
  end.
