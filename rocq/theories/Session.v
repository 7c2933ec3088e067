(** * How the API is used: the documented order of calls on one linter. *)
From Verif Require Import PyStr Note Types Framework Checks Message.
Open Scope N_scope.

(** message.py:57-91, 200-204, 268-274: a linter as constructed; [is_head_response]
    and [base_uri] are plain attributes the caller may assign. *)
Definition new_linter (t : mtype) (start : option Q) (no_content head : bool) (base : str) : mstate :=
  mkMsg t start no_content [] base (new_section false) (new_section true)
        0 [] None None [] false None 0 [] None None None None None None None head None [].

Inductive phase := Fresh | Started | Headed | Finished | Raised.
Definition after (r : res unit) (p : phase) : phase := match r with Ok _ => p | Err _ => Raised end.
(** The states of a linter whose related linter is [rel]: at most one top line,
    then the headers once, then any number of chunks, then [finish_content] once;
    [Raised] is the state a call left behind that raised. *)
Inductive linted (e : env) (rel : option mstate) : phase -> mstate -> Prop :=
| L_new t start no_content head base : linted e rel Fresh (new_linter t start no_content head base)
| L_request m method iri version m' r : linted e rel Fresh m ->
    process_request_topline e method iri version m = (m', r) -> linted e rel (after r Started) m'
| L_response m version status phrase : linted e rel Fresh m ->
    linted e rel Started (process_response_topline version status phrase m)
| L_headers p m raws m' r : linted e rel p m -> p = Fresh \/ p = Started ->
    process_headers e rel raws m = (m', r) -> linted e rel (after r Headed) m'
| L_feed m chunk m' r : linted e rel Headed m ->
    feed_content e chunk m = (m', r) -> linted e rel (after r Headed) m'
| L_finish m complete trailers m' rel' r : linted e rel Headed m ->
    finish_content e rel complete trailers m = (m', rel', r) -> linted e rel (after r Finished) m'.

(** A whole session as one function; it stops at the first exception. *)
Inductive topline := NoTop | TopRequest (method iri version : bytes) | TopResponse (version status : bytes) (phrase : option bytes).
Definition start_line (e : env) (t : topline) (m : mstate) : mstate * res unit :=
  match t with
  | NoTop => (m, Ok tt)
  | TopRequest a b c => process_request_topline e a b c m
  | TopResponse a b c => (process_response_topline a b c m, Ok tt)
  end.
Definition lint (e : env) (rel : option mstate) (t : topline) (headers : list (bytes * bytes)) (chunks : list bytes)
    (complete : bool) (trailers : list (bytes * bytes)) (m : mstate) : mstate * option mstate * res unit :=
  match then_ (start_line e t m) (fun m => then_ (process_headers e rel headers m) (feed_all e chunks)) with
  | (m, Ok _) => finish_content e rel complete trailers m
  | (m, Err x) => (m, rel, Err x)
  end.
