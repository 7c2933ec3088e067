"""Writes /verif/properties.jsonl (the list lives here so it is easy to edit)."""
import json
P=[]
def p(i,title,statement,quantifier,why,anchors):
    P.append(dict(id=i,title=title,statement=statement,quantifier=quantifier,why_tests_cant=why,anchors=anchors))
M="httplint/message.py:"; S="httplint/field/section.py:"; U="httplint/field/utils.py:"
p("C01","Body chunking does not matter",
 "However a message body is cut into feed_content() calls, content_length is the total number of bytes fed and content_hash is the hash of their concatenation; and for a body that is free of errors in its supported content codings and within the 100MB decompression limit (any body at all, without such codings) the linter ends in the same state (sample, decoded length and hash, notes, caching results) with the same effect on the related linter and the same exception, if any, the decompression libraries being streaming ones. For a corrupt body the sample and the notes do depend on the chunking, because output that precedes an error in the same chunk is lost (a deviation that C01_refuted exhibits).",
 "every body, every way of splitting it into any number of (possibly empty) chunks, request or response, with or without a content coding",
 "There are exponentially many splits of each body and unboundedly many bodies; tests feed one or two.",
 [M+"HttpMessageLinter.feed_content",M+"HttpMessageLinter.finish_content","httplint/content_encoding.py:ContentEncodingProcessor"])
p("C02","content_sample is the exact prefix of the decoded body",
 "After any sequence of feed_content() calls, content_sample is exactly the first min(8192, n) bytes of the n decoded bytes, whatever the chunk sizes.",
 "every sequence of chunks of any sizes",
 "Off-by-one truncation errors appear only for particular alignments of chunk boundaries with the 8192 limit.",
 [M+"HttpMessageLinter._content_sample_processor"])
p("C03","Content-Length verdict",
 "After finish_content(), exactly one of CL_CORRECT / CL_INCORRECT is reported if a Content-Length header was received, the message may have content and no_content is off, and it is CL_CORRECT iff the parsed value equals the number of bytes fed; otherwise neither is reported.",
 "every message, status, parsed header value and body length",
 "The verdict is an equivalence over all integers and all message states.",
 [M+"HttpMessageLinter.finish_content","httplint/field/parsers/content_length.py:content_length"])
p("C04","no_content suppresses all body checks",
 "With no_content=True no byte fed to the linter is hashed, decoded or sampled, and no note about the body (length, coding, content type, charset, forbidden or undefined content) is ever reported.",
 "every message and every sequence of chunks",
 "A negative statement over all inputs.",
 [M+"HttpMessageLinter.feed_content",M+"HttpMessageLinter.finish_content",M+"HttpResponseLinter.post_checks"])
p("C05","Forbidden content is reported iff present",
 "For a response to HEAD or a 304 response CONTENT_NOT_ALLOWED is reported iff at least one body byte was fed (and no_content is off), and it is never reported for any other message; for requests REQUEST_CONTENT_NOT_DEFINED is reported iff the method is GET, HEAD, DELETE, CONNECT or TRACE and there was content.",
 "every message, status, method and body",
 "Equivalence over all methods, statuses and bodies.",
 [M+"HttpMessageLinter.finish_content",M+"HttpResponseLinter.can_have_content",M+"HttpRequestLinter.post_checks"])
p("C06","Every reported note can be rendered",
 "For every note and sub-note the linter reports, at any point of a session, every %(variable)s in its templates has a value and reading note.summary and note.detail succeeds exactly if every relative time among its variables is within the range of timedelta; only DATE_INCORRECT, LM_PRESENT, SET_COOKIE_LIFETIME_TOO_LONG, CURRENT_AGE, FRESHNESS_SHARED_PRIVATE, FRESHNESS_FRESH and FRESHNESS_STALE_ALREADY have one, so all other notes always render. The one exception is CONTENT_NOT_ALLOWED, whose summary always raises because its template asks for %(message)s, which is never given.",
 "every message and every note reported on it",
 "A missing variable or unformattable value is only seen if the note is both triggered and rendered; 329 note classes times all inputs.",
 ["httplint/note.py:Note._get_summary","httplint/note.py:Note._get_detail","httplint/note.py:Notes.add"])
p("C07","Notes.add semantics",
 "Adding a note appends exactly one note and changes no earlier one; its variables are the caller's over the message's default variables; the category argument takes effect iff the note's own category is GENERAL.",
 "every note list, note class, category argument and variable set, and every sequence of additions",
 "Ranges over all histories of additions.",
 ["httplint/note.py:Notes.add","httplint/note.py:Note.add_child"])
p("C08","Wire data cannot close a code span",
 "In the Markdown source of note.detail, every backtick comes from the note's own template or from a value the library marked MarkdownSafe; no other interpolated value contributes one; and each MarkdownSafe value of a linted message is a sequence of fixed separators and code spans whose contents hold no backtick.",
 "every template, every variable assignment",
 "An escaping property over all attacker-supplied strings.",
 ["httplint/note.py:Note._get_detail","httplint/util.py:markdown_list"])
p("C09","Received fields are recorded faithfully",
 "After a lint, headers.text (and trailers.text) has exactly one (name, value) pair per raw field, in order: names with their ASCII bytes (others dropped), values decoded byte for byte, so pure-ASCII fields are unchanged; section size is the sum of all name and value lengths; FIELD_NAME_ENCODING / FIELD_VALUE_ENCODING is reported once for each line whose name / value has a non-ASCII byte, about that line, and for no other.",
 "every list of raw (name, value) byte pairs",
 "All byte strings and list lengths.",
 [S+"FieldSection.process"])
p("C10","offset-N subjects identify the field line",
 "Every reported note whose subject begins with offset- has the subject offset-N for a number N such that the note is about line N of the header or of the trailer section: if its class is one a field's own module reports, then the N-th processed line (counting from 0) of that section belongs to that field; if it is one of the general notes about field lines (encoding, size, name, misplaced, deprecated, syntax), line N is that line or an unprocessed one before it. Deviation from the obvious reading, listed: a line that is not processed (misplaced field or a name that is not a token) does not advance the number, so N is not the index of the raw line.",
 "every list of raw fields",
 "The offset drifts only for particular mixtures of accepted and rejected fields.",
 [S+"FieldSection.process","httplint/field/list_field.py:HttpListField.handle_input"])
p("C11","Field names are matched case-insensitively, one handler per name",
 "Field lines whose names differ only in ASCII case are combined into one field: they share one handler and one entry in parsed, and get_field_description gives the same answer for both spellings.",
 "every field name, every recasing of it, every list of fields",
 "2^n recasings per name and all interleavings with other fields.",
 ["httplint/field/finder.py:HttpFieldFinder.find_handler","httplint/field/finder.py:HttpFieldFinder.find_handler_class"])
p("C12","Every known field name and alias resolves to its own linter",
 "Each supported field name, in any letter case, is handled by its own class, as is each alias that names an existing module; deprecated and unnecessary names without a class of their own are handled by the generic classes, and every other name by the unknown-field class. Deviations listed: names with underscores for hyphens resolve to the same class, and the three hyphenated aliases (xx-pad, x-pad-for-netscrape-bug, x-browseralignment) are dead because hyphens are replaced before the alias table is consulted.",
 "every field name",
 "Dispatch over an infinite set of names, including names that are only prefixes or near misses.",
 ["httplint/field/finder.py:HttpFieldFinder.find_handler_class","httplint/field/finder.py:HttpFieldFinder.field_aliases"])
p("C13","Singleton fields use the first line",
 "For a field that may occur once, the parsed value is that of the first line whatever follows it, and SINGLE_HEADER_REPEAT is reported, once and about that field, iff more than one line was accepted. (For names without surrounding white space.)",
 "every sequence of lines for the field",
 "Unbounded sequences.",
 ["httplint/field/singleton_field.py:SingletonField.finish"])
p("C14","List fields: one line or many, same value",
 "Sending the elements of a list field on one comma-separated line or spread over several lines in the same order gives the same parsed value; for Structured Fields and JSON fields likewise when lines are joined with a comma and a space. (For names without surrounding white space.)",
 "every list of well-formed elements (quoted strings with commas included) and every grouping of it into lines",
 "Exponentially many groupings; quoting interacts with the splitter.",
 ["httplint/field/list_field.py:HttpListField.handle_input",U+"split_list_field"])
p("C15","Comma splitting respects quoted strings",
 "Splitting a comma-separated list of well-formed elements returns exactly those elements in order: no element lost, merged or cut inside a quoted string; empty elements are dropped.",
 "every list of elements built from non-quote non-comma characters and quoted strings",
 "Quoted strings may contain commas, escaped quotes and backslashes in any arrangement.",
 [U+"split_list_field","httplint/syntax/rfc9110.py:quoted_string"])
p("C16","Quoted strings unquote to what was quoted",
 "Quoting any string (escaping quotes and backslashes) and then unquoting it gives the string back; unquoting a string without quotes only strips surrounding whitespace.",
 "every string",
 "All strings, including ones made only of quotes and backslashes.",
 [U+"unquote_string"])
p("C17","Parameter parsing",
 "Parsing name=value parameters returns, for each name (case-insensitively), the value of its last occurrence, unquoted; PARAM_REPEATS is reported iff a name was already present.",
 "every list of well-formed parameters",
 "All lists of parameters and quoting styles.",
 [U+"parse_params",U+"split_string"])
p("C18","Invalid field names are reported and ignored",
 "FIELD_NAME_BAD_SYNTAX is reported for a field line iff its name, stripped, is not an HTTP token (1*tchar) and the field belongs in this message type; the line's value then contributes nothing: the parsed value is the empty list that an unknown field gets.",
 "every field name",
 "Membership in a grammar over all strings.",
 ["httplint/field/__init__.py:HttpField.pre_check","httplint/syntax/rfc9110.py:token"])
p("C19","Fields in the wrong kind of message are reported and ignored",
 "A field defined only for responses (requests) that is found in a request (response) is reported as such, once per line; its parsed value is None and no note of that field's own module is reported. Deviation: for Cookie and Set-Cookie the value is the empty list, and their checks do run (on that empty list).",
 "every field class and message",
 "All field classes times all messages.",
 ["httplint/field/__init__.py:HttpField.pre_check","httplint/field/__init__.py:HttpField.__init_subclass__"])
p("C20","Cache storability verdict",
 "store_private is False iff the response has Vary: *, answers a method other than GET or HEAD, or says no-store; store_shared is False iff store_private is, or it says private, or the request was authenticated and it says none of public, must-revalidate and s-maxage. Each class of caching note is reported exactly under its documented condition and at most once; STORE_METHOD_UNCACHEABLE is added to the request's notes, nothing else about the request changes. Deviation: for a response that is neither explicitly nor heuristically cacheable STORE_UNSTORABLE (or STORE_STORABLE_SHARED_ONLY) is reported but both flags stay True.",
 "every request/response pair and parsed header state",
 "A decision table over all combinations of directives, methods, statuses and headers.",
 ["httplint/cache.py:ResponseCacheChecker.check_basic","httplint/cache.py:ResponseCacheChecker.check_storable"])
p("C21","Age calculation",
 "For a storable response the reported age is the larger of the apparent age (response time minus Date, at least 0; 0 if either is unknown) and the corrected age (Age, plus the time between request and response if both are known); it is never negative. For any other response it is 0. Computing it raises only in the cases C32 lists.",
 "every Age, Date, request and response time",
 "All numeric values, including missing and invalid ones.",
 ["httplint/cache.py:ResponseCacheChecker.check_age"])
p("C22","Freshness lifetime precedence",
 "For a storable response freshness_lifetime_private is max-age if present, else Expires minus Date (or minus the response time) if there is an Expires line and the response time is known, else 0; freshness_lifetime_shared is s-maxage if present, else the private lifetime. A response with an explicit lifetime that may be used without validation is reported as exactly one of fresh, already stale, or different for shared and private caches; FRESHNESS_FRESH is reported only if both lifetimes exceed its age and FRESHNESS_STALE_ALREADY only if neither does.",
 "every combination of directives, dates, ages and clocks",
 "Decision logic over all integers and all directive combinations.",
 ["httplint/cache.py:ResponseCacheChecker.check_freshness"])
p("C23","Status-code checks",
 "STATUS_NONSTANDARD is reported iff the status is not one of the supported codes; the code-specific notes are reported exactly under their documented conditions (e.g. redirects iff there is no Location, 201 without Location, 206 not requested iff no Range in the request, 405 with the method in Allow).",
 "every status code, request and parsed headers",
 "All integers and all header combinations.",
 ["httplint/status.py:StatusChecker"])
p("C24","CORS preflight classification",
 "A request is reported as a preflight iff it is OPTIONS with Origin and Access-Control-Request-Method; preflight-only response headers are reported, by name, iff the response does not answer such a request; if the request has an Origin, the first Access-Control-Allow-Origin line of a section is classified by exactly one note as star, null, match or mismatch, and a match or mismatch note shows the request's origin (as scheme://host[:port]) and, for a mismatch, the field's value (an Origin that could not be parsed counts as null: a deviation).",
 "every request/response pair",
 "All methods and header combinations.",
 ["httplint/field/cors.py:is_cors_preflight_request","httplint/field/cors.py:check_preflight_request","httplint/field/cors.py:check_preflight_response","httplint/field/cors.py:check_access_control_allow_origin"])
p("C25","gzip header parsing is incremental and exact",
 "Feeding a gzip member in any chunks hands the decompressor exactly the bytes after the header, for every combination of optional header parts; a prefix of a valid header is never rejected; a wrong magic number or method is reported as BAD_GZIP exactly once.",
 "every gzip header and every chunking",
 "All header contents, flag combinations and split points.",
 ["httplint/content_encoding.py:GzipProcessor.__call__","httplint/content_encoding.py:GzipProcessor._read_gzip_header"])
p("C26","Decompression is bounded and stops after an error",
 "A decoder never passes more than 100MB of output on, reports DECOMPRESSION_LIMIT, BAD_GZIP, BAD_ZLIB or BAD_BROTLI at most once per decoder, and passes nothing on after such a report.",
 "every compressed stream and every behaviour of the decompressor",
 "Safety over every history of chunks, including decompression bombs.",
 ["httplint/content_encoding.py:GzipProcessor.__call__","httplint/content_encoding.py:BrotliProcessor.__call__"])
p("C27","Content codings are undone in reverse order",
 "Content-Encoding: a, b is decoded by undoing b first and then a, for any number of supported codings; other codings are passed through unchanged.",
 "every list of codings",
 "Lists of any length.",
 ["httplint/content_encoding.py:ContentEncodingProcessor._build_pipeline"])
p("C28","HTTP dates",
 "Every valid HTTP-date (IMF-fixdate, RFC 850, asctime) is parsed to the number of seconds since the epoch it denotes in the proleptic Gregorian calendar; obsolete forms get DATE_OBSOLETE; two-digit years mean 1969-2068; anything not in one of the three forms gets BAD_DATE_SYNTAX and no value. (Known deviations, part of the claim: a four-digit year below 100 is read as a two-digit year, and day and time digits are not range-checked, so 31 Feb counts on from 1 Feb.)",
 "every date in years 1-9999 and every other string",
 "Calendar arithmetic over ten thousand years; syntax over all strings.",
 [U+"parse_http_date","httplint/syntax/rfc9110.py:HTTP_date"])
p("C29","Integer-valued fields",
 "The value of Age, Content-Length or Access-Control-Max-Age in a section is the integer its first line denotes (after stripping whitespace), if that is an optional sign and at most 4300 digits with single underscores between digits, and not negative (Content-Length may be: a deviation); otherwise there is no value. For each section with the field exactly one note says that it is not an integer (AGE_NOT_INT, CL_BAD_SYNTAX, CORS_MAX_AGE_INVALID), negative (AGE_NEGATIVE, CORS_MAX_AGE_NEGATIVE), or over 2^31 (AGE_LARGE) or 2^63-1 (CL_TOO_LARGE), none otherwise. Texts of 1*DIGIT have their decimal value; that signs and underscores are accepted is a deviation from the grammar that C29_refuted exhibits.",
 "every message with any lines of these fields",
 "Lexical grammar over all strings.",
 ["httplint/field/parsers/age.py:age","httplint/field/parsers/content_length.py:content_length"])
p("C30","Cache-Control parsing and conflicts",
 "Each element becomes (lower-cased name, value), the name being what precedes the first =; the value of a directive that takes a number is that integer (an element without a valid integer is reported as CC_BAD_VALUE_TYPE and dropped), that of no-cache and private is unquoted (the text None if there is none: a deviation), any other is kept as it is. CC_MISCAP, CC_SHOULD_NOT_HAVE_VALUE and CC_MAX_AGE_TOO_LARGE are reported per element exactly when they apply, at the line of the element; CC_CONFLICTING is reported for a response iff a directive is present together with one it overrides, and only for the most significant; CC_WRONG_MESSAGE once for each known directive used in the wrong message; CC_DUP once for each other known directive that occurs twice; and one CHECK_ note exactly when pre-check or post-check is present. (For lines whose name is spelled with hyphens.)",
 "every list of directives, every message type",
 "All directive lists.",
 ["httplint/field/parsers/cache_control.py:cache_control"])
p("C31","Vary",
 "In a response, the parsed value is the list of names in lower case without duplicates in first-occurrence order; VARY_DUPLICATE is reported iff something was dropped, and VARY_ASTERISK, VARY_COMPLEX (more than three names), VARY_USER_AGENT, VARY_HOST and VARY_NEGOTIATE exactly when they apply, each once per section.",
 "every list of names",
 "All lists.",
 ["httplint/field/parsers/vary.py:vary"])
p("C32","Linting never raises",
 "For every session (top line, headers, chunks, trailers of arbitrary bytes) no linter method raises an exception, except in these cases, each of which does raise: a field name with whitespace around it; Link, Referer, NEL, Reporting-Endpoints or Speculation-Rules with a URL that urllib rejects; NEL or Report-To JSON that makes the decoder raise something other than JSONDecodeError; a Cache-Status flag that is false; a charset whose codec raises something other than LookupError or UnicodeDecodeError; and, if both the request and the response time are known, an Age that could not be parsed or numbers that do not fit a float.",
 "every message, split into any chunks, with any bytes in names, values, top line and body",
 "Robustness against all inputs.",
 [M+"HttpMessageLinter",S+"FieldSection.process"])
p("C33","Order of different fields does not matter",
 "Permuting field lines so that lines of the same field keep their relative order does not change any parsed value; it does not change how many notes of each general class (encoding, name syntax, size, deprecation, wrong message type, repetition, value syntax, structured-field and JSON errors) are reported; and it does not change the notes of a field's own module, their variables or their order, apart from the line number in their subject, for every field except those that look at other fields (Date, Last-Modified, Content-Length, Strict-Transport-Security, CSP, COEP, COOP and their report-only forms), that check again after the message is complete (Accept-CH, Available-Dictionary, Content-Encoding, NEL) or whose notes quote the spelling of the name (TCN, From, the misspelt Connection and Content-Length). For Content-Length the order does matter (a deviation that C33_refuted exhibits: CL_AND_TE_PRESENT appears only if Transfer-Encoding comes first).",
 "every list of fields and every such permutation",
 "n! permutations.",
 [S+"FieldSection.process","httplint/field/parsers/date.py:date","httplint/field/parsers/content_length.py:content_length"])
p("C34","Command line",
 "Without -i the command line lints a response: the status line is split exactly into version (one of 1.0, 1.1, 2), status code and reason phrase (possibly empty), any other line is a ValueError, and when linting ends every note is printed once under the title of its category, with its level and its sub-notes, categories in the order of their titles and notes of a category in the order they were reported. A request line is split exactly into method, target and version, any other line being a ValueError. With -i request or -i response every input ends in UnboundLocalError with nothing printed, so no option makes the tool lint a request (a deviation from the documented options that C34_mode_refuted and C34_no_request exhibit).",
 "every start line, every list of notes, every option value and every input",
 "All input bytes; all note lists.",
 ["httplint/cli/http_parser.py:HttpCliParser","httplint/cli/__init__.py:getargs"])
p("C35","Request URI",
 "If the request target can be converted to a URI, the linter's uri is that URI up to its first # (so it has no fragment), URI_TOO_LONG is reported iff it is longer than 8000 characters and URI_BAD_SYNTAX iff the URI is outside the grammar; if it cannot be converted, uri is the target unchanged (a fragment stays: a deviation from the intent that C35_refuted exhibits), URI_BAD_SYNTAX is reported and URI_TOO_LONG is not; method and version are the decoded top-line parts.",
 "every request target",
 "All byte strings.",
 [M+"HttpRequestLinter.set_uri","httplint/util.py:iri_to_uri"])
p("C36","Field and section size limits",
 "FIELD_TOO_LARGE is reported for a processed field iff name plus value exceed 8192 bytes; FIELD_SECTION_TOO_LARGE is reported once iff the section exceeds 32768 bytes.",
 "every list of raw fields",
 "Boundary behaviour for all sizes.",
 [S+"FieldSection.process"])
p("C37","Status line",
 "status_code is the integer value of the status text as Python's int() reads it (surrounding white space, a sign and underscores between digits are accepted; three digits give the usual value); STATUS_CODE_NON_NUMERIC is reported iff it is not such an integer; STATUS_PHRASE_ENCODING iff the phrase has a non-ASCII byte; each at most once.",
 "every status line",
 "All byte strings.",
 [M+"HttpResponseLinter.process_response_topline"])
p("C38","Media types",
 "A media type is reported as malformed, unregistrable or too long exactly when it is not type/subtype, has a name outside the RFC 6838 alphabet, or has a name longer than 127 characters; type names are case-normalised; wildcards are accepted only where media ranges are.",
 "every string",
 "Grammar membership over all strings.",
 [U+"parse_media_type",U+"check_media_type"])
p("C39","The result does not depend on the hash seed, except for the order of five kinds of notes",
 "Linting the same request and then its response again, in a process where Python iterates over sets in another order (string hashing is seeded per process), gives the same outcome of every call and leaves both linters with the same state: header and trailer values, caching answers, body facts, URI. The notes are the same and in the same order, except that notes of the classes CC_CONFLICTING, CC_WRONG_MESSAGE, CC_DUP, CONTENT_LANGUAGE_DUP and TRANSFER_CODING_UNWANTED may come in another order among themselves, and the list of directives shown by CC_CONFLICTING may be in another order. Linting a response changes its request only by at most one appended STORE_METHOD_UNCACHEABLE note.",
 "every message or exchange, every environment, every iteration order of sets",
 "Tests run with one hash seed at a time, and most orders never come up.",
 [M+"HttpMessageLinter","httplint/field/parsers/cache_control.py:cache_control.evaluate","httplint/field/parsers/content_language.py:content_language.evaluate","httplint/field/parsers/transfer_encoding.py:transfer_encoding.evaluate"])
p("C40","Syntax checks are exactly grammar membership",
 "For a field with a declared syntax whose class does not switch the report off: BAD_SYNTAX is reported for a singleton field iff its first line, ignoring surrounding white space and letter case, is not in the language of that grammar; for an element of a list field iff neither the element nor a beginning of it is; and BAD_SYNTAX_DETAILED for an element iff a beginning of it is in the language but the whole is not. Access-Control-Allow-Credentials alone is compared case-sensitively.",
 "every grammar and every value",
 "Languages are infinite.",
 ["httplint/field/singleton_field.py:SingletonField.finish","httplint/field/list_field.py:HttpListField.handle_input","httplint/field/broken_field.py:BrokenField.finish"])
exec(open('/verif/tools/moreprops.py').read()) if __import__('os').path.exists('/verif/tools/moreprops.py') else None
open('/verif/properties.jsonl','w').write(''.join(json.dumps(x)+'\n' for x in P))
print(len(P))
