# A Rocq (Coq 8.16.1) model of mnot/httplint

Everything is in `rocq/theories` (logical name `Verif`). Only the Coq standard
library is used. `/repo` is read as text; nothing in it was executed.
`properties.jsonl` has the properties, `MANIFEST.json` the theorem names.

## 1. Shape of the model

The model is a *shallow* one: each Python function becomes a total Gallina
function that mirrors it branch by branch, with a comment citing the file and
lines it models and any simplification.

* **Strings** are `str = list N` (code points), bytes are `list N` too (each
  < 256). `PyStr.v` and `PyLib.v` model the Python string methods, `int()`,
  `float()`, `isdigit`, sets, `email.utils.parsedate` and `calendar.timegm`.
* **Regular expressions**: `Regex.v` has an AST and a *backtracking* matcher
  returning all successes in Python's priority order, so that `re.match`,
  `re.fullmatch`, `re.findall` and `re.sub` are modelled exactly; it is proved
  sound and complete for the ordinary language semantics (`lang`).
  `Grammar.v` is generated from the text of `httplint/syntax/*.py`.
* **Exceptions are values**: `res A = Ok a | Err e`; code that also reports
  notes is in the writer monad `W A = list ev * res A` (events reported before
  an exception stay reported, as in Python).
* **Notes**: `NoteTable.v` is generated from the text of /repo: one constructor
  per `Note` subclass with level, category and the exact templates. `Note.v`
  models `%`-formatting, `Notes.add`, `add_child`, `_get_summary`, `_get_detail`
  up to the Markdown renderer.
* **Fields**: `FieldAttrs.v` is generated (class attributes of each field class);
  `Fields1-3.v` model every `parse`, `evaluate` and `post_check` of
  `field/parsers/*.py`; `Framework.v` models the finder, `HttpField`,
  `SingletonField`, `HttpListField`, `BrokenField`, `StructuredField`,
  `JsonField` and `FieldSection.process`.
* **Messages**: `Checks.v` (cors, cache, status, content type, charset),
  `Message.v` (content_encoding.py, message.py), `Session.v` (the documented
  order of API calls on a linter: `new_linter`, then `lint` = start line,
  headers, content chunks, finish with trailers), `Cli.v` (command line),
  `Describe.v` (field descriptions), `Locale.v` and `Cat_*.v` (the shipped
  catalogues, generated from the .mo files).
* **Dynamic values**: parsed field values are the inductive `pyval`, so that
  e.g. indexing `None` is a `TypeError` value of the model.
* **External code** is the record `env` (Note.v) of arbitrary functions, an
  ordinary argument: http_sf, json, urllib.parse (urlsplit, urljoin, quote...),
  idna, UTF-8 and other codecs, chardet, sniffpy, set iteration order, base64,
  md5, str() of floats, relative times, repr(), zlib, brotli. Theorems quantify
  over all `env`; when one needs something of a library (e.g. that a streaming
  decompressor is insensitive to chunking) it is an explicit hypothesis that
  `TestEnv.v` shows can be met.

### What is not modelled

* Threads, weak references, pickling; two messages linted at the same time
  interact only through `related`, which is modelled.
* The Markdown-to-HTML converter and the text of `show_*` HTML; C43 uses a model
  of Markdown code spans (between a backtick and the next one in the paragraph).
* IEEE rounding: time stamps and q-values are exact rationals, finite.
* Running time (regex backtracking), recursion limits, memory.
* `int`/`str` conversions: Python's limit of 4300 digits is modelled for `int()`
  (a ValueError), not for `str()`.
* Letter case is modelled for ASCII and Latin-1; header text is decoded from
  bytes as the code does (ASCII, else Latin-1), so this loses nothing for fields.
* `thor` (which frames messages for the CLI), `argparse`, and the CLI in locales
  other than the default.
* gettext's fallback from `es_MX` to `es`; translated category titles,
  message types and relative times.
* Several `process` calls on one section are modelled, but not the aliasing of
  handlers between them; the theorems are about the documented use (once).

## 2. Properties: what is modelled and how it is proved

| id | modelled | how it is proved |
|---|---|---|
| C01, C02, C25-C27 | `feed_content`, content codings, gzip header parser, arbitrary decompressors | invariants over chunks, induction; gzip headers by encoder/parser round trip; C01 for bodies that are free of coding errors (`undo_good`) and decoders that satisfy a streaming law |
| C03-C05 | `finish_content`, `can_have_content`, `post_checks` | case analysis to an iff over the notes of a whole run |
| C06, C08, C32 | all code: every event of every function | a program logic (`EvLogic.v`: `wp`, `fev`) run over every parser, evaluator, check and API call (`Pass*.v`): which notes with which variables, which exceptions under which condition |
| C07 | `Notes.add`, `add_child` | induction over histories |
| C09, C10, C36 | `FieldSection.process` | exact account of a section's notes by line and by field (`SectionLemmas`, `SecNotes`), offsets by a separate invariant (`OffsetLemmas`) |
| C11-C14, C18, C19, C33, C40 | framework | `SecValues`: the value of a field is a function of its own lines; `LintLemmas`: a whole run is start line + two sections + final checks |
| C15-C17, C38 | lexical layer | regex lemmas, induction over elements and parameters |
| C20-C22 | `cache.py` | compiled to a table (`CacheLemmas`), compared with the rules of `CacheSpec.v` |
| C23 | `status.py` | table against `StatusSpec.v` |
| C24 | `cors.py`, Access-Control-Allow-Origin | tables, and the notes of one field over a run |
| C28 | dates | digit arithmetic, civil calendar, all three formats, all strings |
| C29 | integer fields | characterisation of `int()` |
| C30, C31 | Cache-Control, Vary | notes of one field over a whole run (`OwnLemmas`: `list_own_top`, `single_own_top`) |
| C34 | CLI | against a functional account of the two files |
| C35, C37 | request line, status line | direct |
| C39 | set order as an environment parameter | relational (two-run) proof over the whole model (`RankLemmas`, `RankRun`) |
| C41 | descriptions | finite table lifted by the name lemmas |
| C42, C43 | catalogues, templates | finite check of each template (kernel computation) lifted to every note event of every session |
| C44-C74 ... | single fields: policies, ranges, Origin/Location/Referer/Expect/Max-Forwards, Transfer-Encoding, Content-Disposition, Set-Cookie, Accept*, plain list fields, Link, ten structured fields, Strict-Transport-Security, Permissions-Policy, embedder and opener policies (`GroupRun`/`GroupPost`: fields whose code looks at others after the sections), Accept-CH/Available-Dictionary/Content-Encoding, NEL and Report-To, Content-Security-Policy, what notes show and the later ones, Clear-Site-Data, dates and the clock, content against Content-Type, Content-Length beside Transfer-Encoding, fields that can be removed, what the structured fields' notes show, what the general field notes show, what the caching notes show, what the Set-Cookie notes show, extended parameters, values, notes, values, categories (`FiledPass`, `FiledDate`: the category field code passes, by a pass over every parser and evaluator) | `OwnTac.v`: the notes of a field's own classes in a whole run are its own code's events on its own lines; then the code is compared with rules in a `*Spec.v` file |

Conventions of the statements:

* `lint ... (new_linter ...) = (m', rel', Ok tt)`: a whole use of the API that
  raised no exception (C32 says when it does).
* `reports cs (m_notes m')`: the notes of the classes `cs`, as (class, subject)
  pairs in order; `heard` adds some variables. `single_due k due lines`: the
  notes due for the first line of a singleton field, `list_due`/`member_due` for
  a list field (`FieldDue.v`).
* `hyphened k lines`: a line whose name resolves to the same class as `k` is
  spelled `k` (the code also accepts underscores: `Content_Range` is handled as
  Content-Range but kept under another key). `unpadded`: no name with trailing
  whitespace, which the code looks up under another key.

Where the code deviates from what one would expect, the property is worded as
what the code does, the deviation is named, and where useful a `*_refuted`
theorem shows the failing case.

## 3. Trusted base

* Coq's kernel (8.16.1), including `vm_compute`.
* `Print Assumptions` prints "Closed under the global context" for every theorem
  of the manifest: no axioms. (vcheck lists seven `Coq.ssr.ssrunder` entries:
  module-type parameters of the standard library's ssreflect files that
  `Require` loads; no theorem uses them.)
* The reading of the Python source and of the library functions cited in the
  comments, and the generators in `tools/` (`gennotes.py`, `genfields.py`,
  `gengrammar.py`, `gencat.py`), which parse the text of /repo. Their output is
  committed; the build does not run them.

## 4. Findings about the code

Behaviour the proofs turned up (most are part of a property or a `_refuted`
theorem):

* C01: output of a decoder before an error in the same chunk is lost.
* C06: CONTENT_NOT_ALLOWED's summary cannot be rendered.
* C10: a line that fails the pre-check does not count in later offsets.
* C12: aliases with hyphens never match; "From-Field" is handled as From.
* C19: Cookie / Set-Cookie in the wrong kind of message are evaluated anyway.
* C20: STORE_UNSTORABLE and STORE_STORABLE_SHARED_ONLY leave the storable flags
  true; STORE_METHOD_UNCACHEABLE goes to the request's notes.
* C22: Expires gives no lifetime unless the response time is known; time 0
  counts as unknown.
* C29: signs, underscores and negative lengths are accepted by `int()`.
* C30: a bare `no-cache` or `private` gets the field name "None".
* C32: several inputs raise (URL with a bad IPv6 literal, JSON nesting, a
  charset that is no text codec, Age of a huge number of digits ...).
* C33: the notes of Date read Age, Content-Length reads Transfer-Encoding,
  Last-Modified reads Date, so their order matters.
* C34: the CLI's `-i` fails with UnboundLocalError.
* C35: a fragment is kept when splitting the URI fails.
* C39: the order of some notes and the text of CC_CONFLICTING depend on the hash
  seed.
* C42: notes without a text show the catalogue's header in the shipped locales.
* C43: ENCODING_UNWANTED's template has an unbalanced backtick, and other
  variables are outside code spans, so message text is interpreted as Markdown.
* C44: X-Frame-Options is matched by substring, X-Content-Type-Options is
  case-sensitive.
* C45, C46: superscript digits or over 4300 digits silently give the value up.
* C47: "chunked ;x=y" counts as a coding other than chunked.
* C48: a filename* with one backslash is not reported.
* C49: a Max-Age of superscript digits, or of over 4300 digits, drops the cookie in the middle of its line, silently; a base URI that `urlsplit` refuses drops all cookies.
* C50: `1e-1` and `+.5` are taken as quality values.
* C51: Server is split at commas; VIA_PRESENT puts the field's text into HTML
  unescaped.
* Grammar slips: rfc5646 `alphanum`, rfc3986 `path_empty` and `userinfo`, IPv6
  literals are rejected, rfc9110 `int_range` does not match "5-", rfc9112
  `chunked_body` contains the literal word.
* C53: `Cache-Status: x; hit=?0` (also stored and collapsed) raises TypeError from
  the description's `%` formatting; booleans count as integers, so a bare `max-age`
  in CDN-Cache-Control and `fwd-status=?1` are accepted.
* C54: `max-age=-1` is only called short; `;;` counts as a directive named "" (twice:
  a duplicate directive); a base URI `HTTP://...` is not seen as insecure.
* C56: `*` in parentheses in Permissions-Policy is reported as an unknown token.
* C57: in COEP and COOP `report-to` without a value is reported as endpoint "True",
  `report-to=""` never; a token, string and display string of the same text name the
  same endpoint. The text of CROSS_ORIGIN_EMBEDDER_POLICY_BAD_VALUE does not use the
  value it is given.
* C58: Accept-CH's tokens are compared with Vary's lower-case names as written, so
  `Accept-CH: Sec-CH-UA` is reported even with `Vary: Sec-CH-UA`; `dcb ;q=1` in
  Accept-Encoding is read as `dcb ` and does not count.
* C59: `"max_age": true` is an integer in NEL and Report-To; the details of a bad
  `success_fraction` read "itmust be between"; REPORT_TO_BAD_STRUCTURE is given
  details that its text does not use.
* C60: a `report-to` that names no known endpoint is reported under the first
  `CONTENT_SECURITY_POLICY` note of the message, so one in
  `Content-Security-Policy` is shown under the report-only policy's note if that
  field comes first.
* C61: a value given both with and without quotes is not listed as cleared, although
  the quoted one is.
* C62: the notes on Date and Last-Modified depend on whether the Age (Date) header stands
  before them: the same fields in another order give DATE_INCORRECT instead of DATE_CORRECT (C62_ex_order).
* C63: status 199 is judged although 100 to 198 are not (content_type.py and charset.py both test
  `100 <= status_code < 199`).
* C64: CL_AND_TE_PRESENT, the sign of a request-smuggling attempt, is missed when Transfer-Encoding comes
  after Content-Length (C64_ex_order), the usual order of an attack.
* C65: UNNECESSARY_HEADER is repeated for every element of a value, and an empty X-Powered-By is not reported (C65).
* C66: USE_AS_DICTIONARY_BAD_TYPE names the parameter by its value, and `Cache-Status: x; ttl=?1` or `Proxy-Status: p; received-status=?1` shows the raw template "… %s." (C66).
* C67: the invalid character of an element is the one after the first match the regular expression finds, not after the longest word; a single value is checked against its grammar only on its first line (C67).
* C68: the freshness notes show the distance to the end of the lifetime without its sign, so FRESHNESS_SHARED_PRIVATE says "stale for 20 seconds" but also "can consider it fresh ... (until 20 seconds from now)"; with both max-age and s-maxage its subject lists field-cache-control twice (C68).
* C69: the lifetime of a cookie whose Expires and Max-Age are both too long is reported once, for the attribute that comes first, although Max-Age has precedence (C69).
* C70: an extended parameter that fails to parse leaves no entry, so its repetition is not noted; a token that is one apostrophe counts as quoted with apostrophes; backslash escapes in a quoted extended value are kept (C70).
* C71: Keep-Alive, ETag and Alt-Svc take anything: a weak prefix is W/ in capitals only, and an ETag without quotes is read like one with them (C71).
* C72: the note that Origin is missing names Access-Control-Request-Method even if the request has only Access-Control-Request-Headers, and the length of a Server string is in characters though it says bytes (C72).
* C73: Strict-Transport-Security with max-age twice, the first without a number, has no max-age even if the second has one (C73).
* C74: BAD_SYNTAX of a field with a single value (ETag, for example) is filed under General even if the field has a category of its own; for list fields it is filed with the field (C74).

## 5. Testing the theorems against wrong programs

`tools/mutants.py` has the edits, `tools/mutate.py` applies each to a scratch copy
of a built tree, rebuilds and records which files and theorems fail;
`seeded/LOG.jsonl` is the log.
