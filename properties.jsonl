{"id": "C01", "title": "Body chunking does not matter", "statement": "However a message body is cut into feed_content() calls, content_length is the total number of bytes fed and content_hash is the hash of their concatenation; and for a body that is free of errors in its supported content codings and within the 100MB decompression limit (any body at all, without such codings) the linter ends in the same state (sample, decoded length and hash, notes, caching results) with the same effect on the related linter and the same exception, if any, the decompression libraries being streaming ones. For a corrupt body the sample and the notes do depend on the chunking, because output that precedes an error in the same chunk is lost (a deviation that C01_refuted exhibits).", "quantifier": "every body, every way of splitting it into any number of (possibly empty) chunks, request or response, with or without a content coding", "why_tests_cant": "There are exponentially many splits of each body and unboundedly many bodies; tests feed one or two.", "anchors": ["httplint/message.py:HttpMessageLinter.feed_content", "httplint/message.py:HttpMessageLinter.finish_content", "httplint/content_encoding.py:ContentEncodingProcessor"]}
{"id": "C02", "title": "content_sample is the exact prefix of the decoded body", "statement": "After any sequence of feed_content() calls, content_sample is exactly the first min(8192, n) bytes of the n decoded bytes, whatever the chunk sizes.", "quantifier": "every sequence of chunks of any sizes", "why_tests_cant": "Off-by-one truncation errors appear only for particular alignments of chunk boundaries with the 8192 limit.", "anchors": ["httplint/message.py:HttpMessageLinter._content_sample_processor"]}
{"id": "C03", "title": "Content-Length verdict", "statement": "After finish_content(), exactly one of CL_CORRECT / CL_INCORRECT is reported if a Content-Length header was received, the message may have content and no_content is off, and it is CL_CORRECT iff the parsed value equals the number of bytes fed; otherwise neither is reported.", "quantifier": "every message, status, parsed header value and body length", "why_tests_cant": "The verdict is an equivalence over all integers and all message states.", "anchors": ["httplint/message.py:HttpMessageLinter.finish_content", "httplint/field/parsers/content_length.py:content_length"]}
{"id": "C04", "title": "no_content suppresses all body checks", "statement": "With no_content=True no byte fed to the linter is hashed, decoded or sampled, and no note about the body (length, coding, content type, charset, forbidden or undefined content) is ever reported.", "quantifier": "every message and every sequence of chunks", "why_tests_cant": "A negative statement over all inputs.", "anchors": ["httplint/message.py:HttpMessageLinter.feed_content", "httplint/message.py:HttpMessageLinter.finish_content", "httplint/message.py:HttpResponseLinter.post_checks"]}
{"id": "C05", "title": "Forbidden content is reported iff present", "statement": "For a response to HEAD or a 304 response CONTENT_NOT_ALLOWED is reported iff at least one body byte was fed (and no_content is off), and it is never reported for any other message; for requests REQUEST_CONTENT_NOT_DEFINED is reported iff the method is GET, HEAD, DELETE, CONNECT or TRACE and there was content.", "quantifier": "every message, status, method and body", "why_tests_cant": "Equivalence over all methods, statuses and bodies.", "anchors": ["httplint/message.py:HttpMessageLinter.finish_content", "httplint/message.py:HttpResponseLinter.can_have_content", "httplint/message.py:HttpRequestLinter.post_checks"]}
{"id": "C06", "title": "Every reported note can be rendered", "statement": "For every note and sub-note the linter reports, at any point of a session, every %(variable)s in its templates has a value and reading note.summary and note.detail succeeds exactly if every relative time among its variables is within the range of timedelta; only DATE_INCORRECT, LM_PRESENT, SET_COOKIE_LIFETIME_TOO_LONG, CURRENT_AGE, FRESHNESS_SHARED_PRIVATE, FRESHNESS_FRESH and FRESHNESS_STALE_ALREADY have one, so all other notes always render. The one exception is CONTENT_NOT_ALLOWED, whose summary always raises because its template asks for %(message)s, which is never given.", "quantifier": "every message and every note reported on it", "why_tests_cant": "A missing variable or unformattable value is only seen if the note is both triggered and rendered; 329 note classes times all inputs.", "anchors": ["httplint/note.py:Note._get_summary", "httplint/note.py:Note._get_detail", "httplint/note.py:Notes.add"]}
{"id": "C07", "title": "Notes.add semantics", "statement": "Adding a note appends exactly one note and changes no earlier one; its variables are the caller's over the message's default variables; the category argument takes effect iff the note's own category is GENERAL.", "quantifier": "every note list, note class, category argument and variable set, and every sequence of additions", "why_tests_cant": "Ranges over all histories of additions.", "anchors": ["httplint/note.py:Notes.add", "httplint/note.py:Note.add_child"]}
{"id": "C08", "title": "Wire data cannot close a code span", "statement": "In the Markdown source of note.detail, every backtick comes from the note's own template or from a value the library marked MarkdownSafe; no other interpolated value contributes one; and each MarkdownSafe value of a linted message is a sequence of fixed separators and code spans whose contents hold no backtick.", "quantifier": "every template, every variable assignment", "why_tests_cant": "An escaping property over all attacker-supplied strings.", "anchors": ["httplint/note.py:Note._get_detail", "httplint/util.py:markdown_list"]}
{"id": "C09", "title": "Received fields are recorded faithfully", "statement": "After a lint, headers.text (and trailers.text) has exactly one (name, value) pair per raw field, in order: names with their ASCII bytes (others dropped), values decoded byte for byte, so pure-ASCII fields are unchanged; section size is the sum of all name and value lengths; FIELD_NAME_ENCODING / FIELD_VALUE_ENCODING is reported once for each line whose name / value has a non-ASCII byte, about that line, and for no other.", "quantifier": "every list of raw (name, value) byte pairs", "why_tests_cant": "All byte strings and list lengths.", "anchors": ["httplint/field/section.py:FieldSection.process"]}
{"id": "C10", "title": "offset-N subjects identify the field line", "statement": "Every reported note whose subject begins with offset- has the subject offset-N for a number N such that the note is about line N of the header or of the trailer section: if its class is one a field's own module reports, then the N-th processed line (counting from 0) of that section belongs to that field; if it is one of the general notes about field lines (encoding, size, name, misplaced, deprecated, syntax), line N is that line or an unprocessed one before it. Deviation from the obvious reading, listed: a line that is not processed (misplaced field or a name that is not a token) does not advance the number, so N is not the index of the raw line.", "quantifier": "every list of raw fields", "why_tests_cant": "The offset drifts only for particular mixtures of accepted and rejected fields.", "anchors": ["httplint/field/section.py:FieldSection.process", "httplint/field/list_field.py:HttpListField.handle_input"]}
{"id": "C11", "title": "Field names are matched case-insensitively, one handler per name", "statement": "Field lines whose names differ only in ASCII case are combined into one field: they share one handler and one entry in parsed, and get_field_description gives the same answer for both spellings.", "quantifier": "every field name, every recasing of it, every list of fields", "why_tests_cant": "2^n recasings per name and all interleavings with other fields.", "anchors": ["httplint/field/finder.py:HttpFieldFinder.find_handler", "httplint/field/finder.py:HttpFieldFinder.find_handler_class"]}
{"id": "C12", "title": "Every known field name and alias resolves to its own linter", "statement": "Each supported field name, in any letter case, is handled by its own class, as is each alias that names an existing module; deprecated and unnecessary names without a class of their own are handled by the generic classes, and every other name by the unknown-field class. Deviations listed: names with underscores for hyphens resolve to the same class, and the three hyphenated aliases (xx-pad, x-pad-for-netscrape-bug, x-browseralignment) are dead because hyphens are replaced before the alias table is consulted.", "quantifier": "every field name", "why_tests_cant": "Dispatch over an infinite set of names, including names that are only prefixes or near misses.", "anchors": ["httplint/field/finder.py:HttpFieldFinder.find_handler_class", "httplint/field/finder.py:HttpFieldFinder.field_aliases"]}
{"id": "C13", "title": "Singleton fields use the first line", "statement": "For a field that may occur once, the parsed value is that of the first line whatever follows it, and SINGLE_HEADER_REPEAT is reported, once and about that field, iff more than one line was accepted. (For names without surrounding white space.)", "quantifier": "every sequence of lines for the field", "why_tests_cant": "Unbounded sequences.", "anchors": ["httplint/field/singleton_field.py:SingletonField.finish"]}
{"id": "C14", "title": "List fields: one line or many, same value", "statement": "Sending the elements of a list field on one comma-separated line or spread over several lines in the same order gives the same parsed value; for Structured Fields and JSON fields likewise when lines are joined with a comma and a space. (For names without surrounding white space.)", "quantifier": "every list of well-formed elements (quoted strings with commas included) and every grouping of it into lines", "why_tests_cant": "Exponentially many groupings; quoting interacts with the splitter.", "anchors": ["httplint/field/list_field.py:HttpListField.handle_input", "httplint/field/utils.py:split_list_field"]}
{"id": "C15", "title": "Comma splitting respects quoted strings", "statement": "Splitting a comma-separated list of well-formed elements returns exactly those elements in order: no element lost, merged or cut inside a quoted string; empty elements are dropped.", "quantifier": "every list of elements built from non-quote non-comma characters and quoted strings", "why_tests_cant": "Quoted strings may contain commas, escaped quotes and backslashes in any arrangement.", "anchors": ["httplint/field/utils.py:split_list_field", "httplint/syntax/rfc9110.py:quoted_string"]}
{"id": "C16", "title": "Quoted strings unquote to what was quoted", "statement": "Quoting any string (escaping quotes and backslashes) and then unquoting it gives the string back; unquoting a string without quotes only strips surrounding whitespace.", "quantifier": "every string", "why_tests_cant": "All strings, including ones made only of quotes and backslashes.", "anchors": ["httplint/field/utils.py:unquote_string"]}
{"id": "C17", "title": "Parameter parsing", "statement": "Parsing name=value parameters returns, for each name (case-insensitively), the value of its last occurrence, unquoted; PARAM_REPEATS is reported iff a name was already present.", "quantifier": "every list of well-formed parameters", "why_tests_cant": "All lists of parameters and quoting styles.", "anchors": ["httplint/field/utils.py:parse_params", "httplint/field/utils.py:split_string"]}
{"id": "C18", "title": "Invalid field names are reported and ignored", "statement": "FIELD_NAME_BAD_SYNTAX is reported for a field line iff its name, stripped, is not an HTTP token (1*tchar) and the field belongs in this message type; the line's value then contributes nothing: the parsed value is the empty list that an unknown field gets.", "quantifier": "every field name", "why_tests_cant": "Membership in a grammar over all strings.", "anchors": ["httplint/field/__init__.py:HttpField.pre_check", "httplint/syntax/rfc9110.py:token"]}
{"id": "C19", "title": "Fields in the wrong kind of message are reported and ignored", "statement": "A field defined only for responses (requests) that is found in a request (response) is reported as such, once per line; its parsed value is None and no note of that field's own module is reported. Deviation: for Cookie and Set-Cookie the value is the empty list, and their checks do run (on that empty list).", "quantifier": "every field class and message", "why_tests_cant": "All field classes times all messages.", "anchors": ["httplint/field/__init__.py:HttpField.pre_check", "httplint/field/__init__.py:HttpField.__init_subclass__"]}
{"id": "C20", "title": "Cache storability verdict", "statement": "store_private is False iff the response has Vary: *, answers a method other than GET or HEAD, or says no-store; store_shared is False iff store_private is, or it says private, or the request was authenticated and it says none of public, must-revalidate and s-maxage. Each class of caching note is reported exactly under its documented condition and at most once; STORE_METHOD_UNCACHEABLE is added to the request's notes, nothing else about the request changes. Deviation: for a response that is neither explicitly nor heuristically cacheable STORE_UNSTORABLE (or STORE_STORABLE_SHARED_ONLY) is reported but both flags stay True.", "quantifier": "every request/response pair and parsed header state", "why_tests_cant": "A decision table over all combinations of directives, methods, statuses and headers.", "anchors": ["httplint/cache.py:ResponseCacheChecker.check_basic", "httplint/cache.py:ResponseCacheChecker.check_storable"]}
{"id": "C21", "title": "Age calculation", "statement": "For a storable response the reported age is the larger of the apparent age (response time minus Date, at least 0; 0 if either is unknown) and the corrected age (Age, plus the time between request and response if both are known); it is never negative. For any other response it is 0. Computing it raises only in the cases C32 lists.", "quantifier": "every Age, Date, request and response time", "why_tests_cant": "All numeric values, including missing and invalid ones.", "anchors": ["httplint/cache.py:ResponseCacheChecker.check_age"]}
{"id": "C22", "title": "Freshness lifetime precedence", "statement": "For a storable response freshness_lifetime_private is max-age if present, else Expires minus Date (or minus the response time) if there is an Expires line and the response time is known, else 0; freshness_lifetime_shared is s-maxage if present, else the private lifetime. A response with an explicit lifetime that may be used without validation is reported as exactly one of fresh, already stale, or different for shared and private caches; FRESHNESS_FRESH is reported only if both lifetimes exceed its age and FRESHNESS_STALE_ALREADY only if neither does.", "quantifier": "every combination of directives, dates, ages and clocks", "why_tests_cant": "Decision logic over all integers and all directive combinations.", "anchors": ["httplint/cache.py:ResponseCacheChecker.check_freshness"]}
{"id": "C23", "title": "Status-code checks", "statement": "STATUS_NONSTANDARD is reported iff the status is not one of the supported codes; the code-specific notes are reported exactly under their documented conditions (e.g. redirects iff there is no Location, 201 without Location, 206 not requested iff no Range in the request, 405 with the method in Allow).", "quantifier": "every status code, request and parsed headers", "why_tests_cant": "All integers and all header combinations.", "anchors": ["httplint/status.py:StatusChecker"]}
{"id": "C24", "title": "CORS preflight classification", "statement": "A request is reported as a preflight iff it is OPTIONS with Origin and Access-Control-Request-Method; preflight-only response headers are reported, by name, iff the response does not answer such a request; if the request has an Origin, the first Access-Control-Allow-Origin line of a section is classified by exactly one note as star, null, match or mismatch, and a match or mismatch note shows the request's origin (as scheme://host[:port]) and, for a mismatch, the field's value (an Origin that could not be parsed counts as null: a deviation).", "quantifier": "every request/response pair", "why_tests_cant": "All methods and header combinations.", "anchors": ["httplint/field/cors.py:is_cors_preflight_request", "httplint/field/cors.py:check_preflight_request", "httplint/field/cors.py:check_preflight_response", "httplint/field/cors.py:check_access_control_allow_origin"]}
{"id": "C25", "title": "gzip header parsing is incremental and exact", "statement": "Feeding a gzip member in any chunks hands the decompressor exactly the bytes after the header, for every combination of optional header parts; a prefix of a valid header is never rejected; a wrong magic number or method is reported as BAD_GZIP exactly once.", "quantifier": "every gzip header and every chunking", "why_tests_cant": "All header contents, flag combinations and split points.", "anchors": ["httplint/content_encoding.py:GzipProcessor.__call__", "httplint/content_encoding.py:GzipProcessor._read_gzip_header"]}
{"id": "C26", "title": "Decompression is bounded and stops after an error", "statement": "A decoder never passes more than 100MB of output on, reports DECOMPRESSION_LIMIT, BAD_GZIP, BAD_ZLIB or BAD_BROTLI at most once per decoder, and passes nothing on after such a report.", "quantifier": "every compressed stream and every behaviour of the decompressor", "why_tests_cant": "Safety over every history of chunks, including decompression bombs.", "anchors": ["httplint/content_encoding.py:GzipProcessor.__call__", "httplint/content_encoding.py:BrotliProcessor.__call__"]}
{"id": "C27", "title": "Content codings are undone in reverse order", "statement": "Content-Encoding: a, b is decoded by undoing b first and then a, for any number of supported codings; other codings are passed through unchanged.", "quantifier": "every list of codings", "why_tests_cant": "Lists of any length.", "anchors": ["httplint/content_encoding.py:ContentEncodingProcessor._build_pipeline"]}
{"id": "C28", "title": "HTTP dates", "statement": "Every valid HTTP-date (IMF-fixdate, RFC 850, asctime) is parsed to the number of seconds since the epoch it denotes in the proleptic Gregorian calendar; obsolete forms get DATE_OBSOLETE; two-digit years mean 1969-2068; anything not in one of the three forms gets BAD_DATE_SYNTAX and no value. (Known deviations, part of the claim: a four-digit year below 100 is read as a two-digit year, and day and time digits are not range-checked, so 31 Feb counts on from 1 Feb.)", "quantifier": "every date in years 1-9999 and every other string", "why_tests_cant": "Calendar arithmetic over ten thousand years; syntax over all strings.", "anchors": ["httplint/field/utils.py:parse_http_date", "httplint/syntax/rfc9110.py:HTTP_date"]}
{"id": "C29", "title": "Integer-valued fields", "statement": "The value of Age, Content-Length or Access-Control-Max-Age in a section is the integer its first line denotes (after stripping whitespace), if that is an optional sign and at most 4300 digits with single underscores between digits, and not negative (Content-Length may be: a deviation); otherwise there is no value. For each section with the field exactly one note says that it is not an integer (AGE_NOT_INT, CL_BAD_SYNTAX, CORS_MAX_AGE_INVALID), negative (AGE_NEGATIVE, CORS_MAX_AGE_NEGATIVE), or over 2^31 (AGE_LARGE) or 2^63-1 (CL_TOO_LARGE), none otherwise. Texts of 1*DIGIT have their decimal value; that signs and underscores are accepted is a deviation from the grammar that C29_refuted exhibits.", "quantifier": "every message with any lines of these fields", "why_tests_cant": "Lexical grammar over all strings.", "anchors": ["httplint/field/parsers/age.py:age", "httplint/field/parsers/content_length.py:content_length"]}
{"id": "C30", "title": "Cache-Control parsing and conflicts", "statement": "Each element becomes (lower-cased name, value), the name being what precedes the first =; the value of a directive that takes a number is that integer (an element without a valid integer is reported as CC_BAD_VALUE_TYPE and dropped), that of no-cache and private is unquoted (the text None if there is none: a deviation), any other is kept as it is. CC_MISCAP, CC_SHOULD_NOT_HAVE_VALUE and CC_MAX_AGE_TOO_LARGE are reported per element exactly when they apply, at the line of the element; CC_CONFLICTING is reported for a response iff a directive is present together with one it overrides, and only for the most significant; CC_WRONG_MESSAGE once for each known directive used in the wrong message; CC_DUP once for each other known directive that occurs twice; and one CHECK_ note exactly when pre-check or post-check is present. (For lines whose name is spelled with hyphens.)", "quantifier": "every list of directives, every message type", "why_tests_cant": "All directive lists.", "anchors": ["httplint/field/parsers/cache_control.py:cache_control"]}
{"id": "C31", "title": "Vary", "statement": "In a response, the parsed value is the list of names in lower case without duplicates in first-occurrence order; VARY_DUPLICATE is reported iff something was dropped, and VARY_ASTERISK, VARY_COMPLEX (more than three names), VARY_USER_AGENT, VARY_HOST and VARY_NEGOTIATE exactly when they apply, each once per section.", "quantifier": "every list of names", "why_tests_cant": "All lists.", "anchors": ["httplint/field/parsers/vary.py:vary"]}
{"id": "C32", "title": "Linting never raises", "statement": "For every session (top line, headers, chunks, trailers of arbitrary bytes) no linter method raises an exception, except in these cases, each of which does raise: a field name with whitespace around it; Link, Referer, NEL, Reporting-Endpoints or Speculation-Rules with a URL that urllib rejects; NEL or Report-To JSON that makes the decoder raise something other than JSONDecodeError; a Cache-Status flag that is false; a charset whose codec raises something other than LookupError or UnicodeDecodeError; and, if both the request and the response time are known, an Age that could not be parsed or numbers that do not fit a float.", "quantifier": "every message, split into any chunks, with any bytes in names, values, top line and body", "why_tests_cant": "Robustness against all inputs.", "anchors": ["httplint/message.py:HttpMessageLinter", "httplint/field/section.py:FieldSection.process"]}
{"id": "C33", "title": "Order of different fields does not matter", "statement": "Permuting field lines so that lines of the same field keep their relative order does not change any parsed value; it does not change how many notes of each general class (encoding, name syntax, size, deprecation, wrong message type, repetition, value syntax, structured-field and JSON errors) are reported; and it does not change the notes of a field's own module, their variables or their order, apart from the line number in their subject, for every field except those that look at other fields (Date, Last-Modified, Content-Length, Strict-Transport-Security, CSP, COEP, COOP and their report-only forms), that check again after the message is complete (Accept-CH, Available-Dictionary, Content-Encoding, NEL) or whose notes quote the spelling of the name (TCN, From, the misspelt Connection and Content-Length). For Content-Length the order does matter (a deviation that C33_refuted exhibits: CL_AND_TE_PRESENT appears only if Transfer-Encoding comes first).", "quantifier": "every list of fields and every such permutation", "why_tests_cant": "n! permutations.", "anchors": ["httplint/field/section.py:FieldSection.process", "httplint/field/parsers/date.py:date", "httplint/field/parsers/content_length.py:content_length"]}
{"id": "C34", "title": "Command line", "statement": "Without -i the command line lints a response: the status line is split exactly into version (one of 1.0, 1.1, 2), status code and reason phrase (possibly empty), any other line is a ValueError, and when linting ends every note is printed once under the title of its category, with its level and its sub-notes, categories in the order of their titles and notes of a category in the order they were reported. A request line is split exactly into method, target and version, any other line being a ValueError. With -i request or -i response every input ends in UnboundLocalError with nothing printed, so no option makes the tool lint a request (a deviation from the documented options that C34_mode_refuted and C34_no_request exhibit).", "quantifier": "every start line, every list of notes, every option value and every input", "why_tests_cant": "All input bytes; all note lists.", "anchors": ["httplint/cli/http_parser.py:HttpCliParser", "httplint/cli/__init__.py:getargs"]}
{"id": "C35", "title": "Request URI", "statement": "If the request target can be converted to a URI, the linter's uri is that URI up to its first # (so it has no fragment), URI_TOO_LONG is reported iff it is longer than 8000 characters and URI_BAD_SYNTAX iff the URI is outside the grammar; if it cannot be converted, uri is the target unchanged (a fragment stays: a deviation from the intent that C35_refuted exhibits), URI_BAD_SYNTAX is reported and URI_TOO_LONG is not; method and version are the decoded top-line parts.", "quantifier": "every request target", "why_tests_cant": "All byte strings.", "anchors": ["httplint/message.py:HttpRequestLinter.set_uri", "httplint/util.py:iri_to_uri"]}
{"id": "C36", "title": "Field and section size limits", "statement": "FIELD_TOO_LARGE is reported for a processed field iff name plus value exceed 8192 bytes; FIELD_SECTION_TOO_LARGE is reported once iff the section exceeds 32768 bytes.", "quantifier": "every list of raw fields", "why_tests_cant": "Boundary behaviour for all sizes.", "anchors": ["httplint/field/section.py:FieldSection.process"]}
{"id": "C37", "title": "Status line", "statement": "status_code is the integer value of the status text as Python's int() reads it (surrounding white space, a sign and underscores between digits are accepted; three digits give the usual value); STATUS_CODE_NON_NUMERIC is reported iff it is not such an integer; STATUS_PHRASE_ENCODING iff the phrase has a non-ASCII byte; each at most once.", "quantifier": "every status line", "why_tests_cant": "All byte strings.", "anchors": ["httplint/message.py:HttpResponseLinter.process_response_topline"]}
{"id": "C38", "title": "Media types", "statement": "A media type is reported as malformed, unregistrable or too long exactly when it is not type/subtype, has a name outside the RFC 6838 alphabet, or has a name longer than 127 characters; type names are case-normalised; wildcards are accepted only where media ranges are.", "quantifier": "every string", "why_tests_cant": "Grammar membership over all strings.", "anchors": ["httplint/field/utils.py:parse_media_type", "httplint/field/utils.py:check_media_type"]}
{"id": "C39", "title": "The result does not depend on the hash seed, except for the order of five kinds of notes", "statement": "Linting the same request and then its response again, in a process where Python iterates over sets in another order (string hashing is seeded per process), gives the same outcome of every call and leaves both linters with the same state: header and trailer values, caching answers, body facts, URI. The notes are the same and in the same order, except that notes of the classes CC_CONFLICTING, CC_WRONG_MESSAGE, CC_DUP, CONTENT_LANGUAGE_DUP and TRANSFER_CODING_UNWANTED may come in another order among themselves, and the list of directives shown by CC_CONFLICTING may be in another order. Linting a response changes its request only by at most one appended STORE_METHOD_UNCACHEABLE note.", "quantifier": "every message or exchange, every environment, every iteration order of sets", "why_tests_cant": "Tests run with one hash seed at a time, and most orders never come up.", "anchors": ["httplint/message.py:HttpMessageLinter", "httplint/field/parsers/cache_control.py:cache_control.evaluate", "httplint/field/parsers/content_language.py:content_language.evaluate", "httplint/field/parsers/transfer_encoding.py:transfer_encoding.evaluate"]}
{"id": "C40", "title": "Syntax checks are exactly grammar membership", "statement": "For a field with a declared syntax whose class does not switch the report off: BAD_SYNTAX is reported for a singleton field iff its first line, ignoring surrounding white space and letter case, is not in the language of that grammar; for an element of a list field iff neither the element nor a beginning of it is; and BAD_SYNTAX_DETAILED for an element iff a beginning of it is in the language but the whole is not. Access-Control-Allow-Credentials alone is compared case-sensitively.", "quantifier": "every grammar and every value", "why_tests_cant": "Languages are infinite.", "anchors": ["httplint/field/singleton_field.py:SingletonField.finish", "httplint/field/list_field.py:HttpListField.handle_input", "httplint/field/broken_field.py:BrokenField.finish"]}
{"id": "C41", "title": "Every known field has a description", "statement": "get_field_description(name) returns a non-empty text for every name that some class other than the unknown-field class handles, in any letter case, and None for every other name.", "quantifier": "every field name", "why_tests_cant": "All spellings of all names.", "anchors": ["httplint/field/description.py:get_field_description", "httplint/field/finder.py:HttpFieldFinder.find_handler_class"]}
{"id": "C42", "title": "Notes can be read in every shipped locale", "statement": "In each of the locales shipped with the library (and in any other, where notes are in English) every template of every note class asks for exactly the variables its English original asks for, so the summary and the detail of every note and sub-note reported in any session can be read in the locale iff they can be read in English. Notes without a text are an exception to what a reader expects: in a shipped locale their detail is the header of the message catalogue (a deviation C42_header exhibits), in English it is empty.", "quantifier": "every session, note, locale and value of the variables", "why_tests_cant": "All notes any session can report, in all locales.", "anchors": ["httplint/i18n.py:translate", "httplint/i18n.py:get_translations", "httplint/note.py:Note._get_summary", "httplint/note.py:Note._get_detail", "httplint/translations/*/LC_MESSAGES/messages.mo"]}
{"id": "C43", "title": "Message text is shown inside code spans", "statement": "In the detail of any note or sub-note of any session, a variable that the template puts outside its Markdown code spans is shown as text without the characters of tags and links (<, >, [, ]), as a relative time, or as a list of code spans - so a linted message cannot inject HTML or links there - except for a stated list: ENCODING_UNWANTED.coding (whose template has an unbalanced backtick), CACHE_STATUS.status and PROXY_STATUS.status, ACCEPT_CH_MISSING_VARY.missing_fields, NEL_CONFIGURED.endpoints, texts of other libraries (BAD_JSON.error, DUPLICATE_KEY.key and .context, BAD_ZLIB and BAD_BROTLI.chunk_sample, DEPRECATION_PAST and _FUTURE.date), field names and contexts (STRUCTURED_FIELD_PARSE_ERROR.field_name and .context, CORS_PREFLIGHT_ONLY.headers) and CC_WRONG_MESSAGE.message_type. The shipped translations expose a further stated list of variables.", "quantifier": "every session, note, sub-note and variable, in English and in each shipped locale", "why_tests_cant": "All messages and all notes; an injection needs one hostile value.", "anchors": ["httplint/note.py:Note._get_detail", "httplint/field/parsers/content_encoding.py:ENCODING_UNWANTED", "httplint/field/utils.py:PARAM_STAR_BAD", "httplint/translations/*/LC_MESSAGES/messages.mo"]}
{"id": "C44", "title": "Framing, sniffing, resource and referrer policies", "statement": "For each section of a response: X-Frame-Options gets exactly one note, about DENY if that occurs anywhere in its first line in any case, else about SAMEORIGIN if that occurs, else FRAME_OPTIONS_UNKNOWN; X-Content-Type-Options exactly one, CONTENT_TYPE_OPTIONS iff nosniff is a list member in exactly this case; Cross-Origin-Resource-Policy exactly one, by its first line compared exactly with same-origin, same-site and cross-origin; Referrer-Policy one REFERRER_POLICY_UNKNOWN per member that is not a policy, then REFERRER_POLICY_EMPTY if there is none that is, else MULTIPLE iff there are several and UNSAFE or STRICT according to the last. (For lines whose name is spelled with hyphens.)", "quantifier": "every response and every list of lines of these fields", "why_tests_cant": "All texts and all lists of members.", "anchors": ["httplint/field/parsers/x_frame_options.py:x_frame_options", "httplint/field/parsers/x_content_type_options.py:x_content_type_options", "httplint/field/parsers/cross_origin_resource_policy.py:cross_origin_resource_policy", "httplint/field/parsers/referrer_policy.py:referrer_policy"]}
{"id": "C45", "title": "Content-Range, Range and Accept-Ranges", "statement": "For each section of a response the notes about the first Content-Range line are CONTENT_RANGE_MEANINGLESS iff the status is neither 206 nor 416 (or unknown), then those that the syntax rules unit SP range / length ask for: exactly one note for the first part that is missing or malformed, otherwise RANGE_INVALID for a range whose end is before its start and for one that ends at or after the length, UNKNOWN_LENGTH for a length *, UNSATISFIED_BAD_SC for a range * with status 206; the parsed value is exactly the unit, positions and length, and None if a part is malformed. Likewise for each request the notes and the value of Range follow unit=first-last,...: RANGE_BAD_SYNTAX once, for the first malformed part, and RANGE_INVALID for each range before it that ends before it starts. Accept-Ranges gets UNKNOWN_RANGE once for each member other than bytes and none, at its line. Deviation: positions of more than 4300 digits or with superscript digits give the field up without a note.", "quantifier": "every response or request, every text of these fields", "why_tests_cant": "All texts of the fields, all statuses.", "anchors": ["httplint/field/parsers/content_range.py:content_range.parse", "httplint/field/parsers/range.py:range.parse", "httplint/field/parsers/accept_ranges.py:accept_ranges.parse"]}
{"id": "C46", "title": "Fields judged by the start of the message", "statement": "Origin (requests): null is accepted; otherwise the text before the first space is read as scheme://host[:port], ORIGIN_MULTIPLE_VALUES is reported iff there is a space, BAD_ORIGIN_SYNTAX iff that text does not fit the grammar, and the value is the lower-cased scheme and host with the port as a number - the same parts in every way the text can be matched. Location (responses): LOCATION_UNDEFINED iff the status is not one of 201, 300-303, 305, 307, 308; LOCATION_NOT_ABSOLUTE iff the text is no URI and can be joined with the base URI. Referer: from https or wss, SECURE_TO_INSECURE iff the request URI is http or ws and SECURE_TO_DIFFERENT_ORIGIN iff scheme or authority differ. Expect: EXPECT_HTTP_1_0 iff the version is 1.0, EXPECT_UNKNOWN iff some member is not 100-continue. Max-Forwards: MAX_FORWARDS_IGNORED iff the method is neither TRACE nor OPTIONS. Deviation: a port of more than 4300 digits gives the value up without a note.", "quantifier": "every message, every text of these fields, every start line", "why_tests_cant": "All texts, statuses, methods and URIs.", "anchors": ["httplint/field/parsers/origin.py:origin.parse", "httplint/field/parsers/location.py:location.parse", "httplint/field/parsers/referer.py:referer.evaluate", "httplint/field/parsers/expect.py:expect.evaluate", "httplint/field/parsers/max_forwards.py:max_forwards.evaluate"]}
{"id": "C47", "title": "Transfer codings", "statement": "For each section of a message, Transfer-Encoding gets TRANSFER_CODING_PARAM at its line for each element with a parameter; TRANSFER_CODING_UNWANTED, naming the coding, once for each coding that is listed, is neither chunked nor identity, and - if a response is linted with its request - that the request's TE header does not list; and TRANSFER_CODING_IDENTITY once iff identity is listed; and no more notes of these classes. Codings are compared in lower case. Deviation: the coding is the text before the semicolon with its trailing space, so chunked followed by a space and a semicolon counts as another coding.", "quantifier": "every message, every list of codings, every related request", "why_tests_cant": "All lists of codings with all parameters; set semantics.", "anchors": ["httplint/field/parsers/transfer_encoding.py:transfer_encoding.parse", "httplint/field/parsers/transfer_encoding.py:transfer_encoding.evaluate"]}
{"id": "C48", "title": "Content-Disposition", "statement": "For each section the notes about the first Content-Disposition line are DISPOSITION_UNKNOWN iff the type is neither inline nor attachment in any case, DISPOSITION_OMITS_FILENAME iff it is attachment without a filename parameter, DISPOSITION_FILENAME_PERCENT iff the unquoted filename contains a percent sign, and DISPOSITION_FILENAME_PATH_CHAR iff the filename contains a slash or the filename* parameter contains two backslashes in a row (a single backslash is not reported, a deviation); for values written as a type and name=value parameters, the filename is the unquoted value of the last parameter with that name.", "quantifier": "every message, every text of the field", "why_tests_cant": "All texts and all lists of parameters.", "anchors": ["httplint/field/parsers/content_disposition.py:content_disposition.parse", "httplint/field/utils.py:parse_params"]}
{"id": "C49", "title": "Set-Cookie", "statement": "In a message that is not a request, each Set-Cookie line is read as a name=value pair and attributes separated by semicolons, and for each of the nineteen line-level classes the notes are exactly those the line asks for, in order, each at its line, naming the cookie: no name, sizes over 4096 and 128 characters, attribute names used again (each time, naming the attribute), Expires that is no date, Max-Age that is empty, has a leading zero or is no number, a lifetime over 400 days (once for a cookie), an empty Domain, an unknown SameSite value, Priority, Version, unknown attributes (naming them), SameSite=None or Partitioned without Secure, and the __Secure- and __Host- prefixes without what they require. One note per section names, in alphabetical order, the cookie names used more than once, and one names the hardened cookies in order. The field's value is the list of the cookies with their attributes in order, paths completed from the base URI. A date written as weekday, day, month, year and time denotes its second since 1970, or is rejected if the day, the year (before 1601) or the time is out of range. Deviations: a Max-Age of superscript digits or of more than 4300 digits makes the line be dropped in the middle, without a note; a base URI that cannot be split drops all cookies silently.", "quantifier": "every message, every set of Set-Cookie lines, every base URI and clock", "why_tests_cant": "All texts of all lines, with attributes in all orders and repetitions; the notes come late, from a queue.", "anchors": ["httplint/field/parsers/set_cookie.py:loose_parse", "httplint/field/parsers/set_cookie.py:loose_date_parse", "httplint/field/parsers/set_cookie.py:set_cookie.evaluate", "httplint/field/broken_field.py:BrokenField"]}
{"id": "C50", "title": "Preferences: quality values and media ranges", "statement": "In a request, for each element of Accept (and of Accept-Language) the notes are exactly: bad syntax if its type in lower case is no media range (for a language: if it has parameters besides q), and a bad q note if it has a q parameter that is not a quality value, i.e. not at most five characters that float() reads as a number from 0 to 1. For Accept-Patch (no wildcards) and Accept-Post (wildcards allowed) there is exactly one note for each element that is no media type, at its line. The values of these fields are the elements' types, parameters without q, and the weight or nothing. A decimal numeral of at most three places from 0 to 1 is a quality value and denotes its number. Deviations: \"1e-1\" and \"+.5\" count as quality values; no note says that a q value has too many digits as long as it has at most five characters.", "quantifier": "every message, every set of lines, elements, parameters and q texts", "why_tests_cant": "Every text is a possible element; float() takes infinitely many numerals.", "anchors": ["httplint/field/parsers/accept.py:accept", "httplint/field/parsers/accept_language.py:accept_language", "httplint/field/parsers/accept_patch.py:accept_patch", "httplint/field/parsers/accept_post.py:accept_post", "httplint/field/utils.py:parse_media_type"]}
{"id": "C51", "title": "Plain list fields: Alt-Svc, Content-Language, Pragma, Server, Server-Timing, Via", "statement": "ALTSVC_CLEAR_LIST exactly when \"clear\" is not alone among the members that are \"clear\" or have an equals sign; CONTENT_LANGUAGE_DUP exactly once for each tag given twice in any letter case, naming it; PRAGMA_OTHER exactly when a request's Pragma has something besides no-cache; VIA_PRESENT once per section with Via, showing its members as an HTML list (unescaped); SERVER_TOO_LONG for each comma-separated part of Server over 64 characters; for each Server-Timing metric, in order and named, a note if dur is missing, no number, or desc is missing.", "quantifier": "every message, every set of lines and members", "why_tests_cant": "Any number of members in any order and on any lines.", "anchors": ["httplint/field/parsers/alt_svc.py:alt_svc", "httplint/field/parsers/content_language.py:content_language", "httplint/field/parsers/pragma.py:pragma", "httplint/field/parsers/server.py:server", "httplint/field/parsers/server_timing.py:server_timing", "httplint/field/parsers/via.py:via"]}
{"id": "C52", "title": "Link", "statement": "For each element of Link the notes are exactly: LINK_REV if it has a rev parameter, LINK_BAD_ANCHOR if it has a non-empty anchor that is no URI reference, LINK_BAD_TYPE if it has a non-empty type that is no media type, each at its line. For each relation type preload, preconnect or dns-prefetch (any letter case) of each link whose target, resolved against the base URI, has a scheme other than http and https there is one LINK_BAD_HINT_TARGET naming type, target and scheme; if there are others, exactly one LINK_RESOURCE_HINTS names their types, in a fixed order.", "quantifier": "every message, base URI, set of Link lines and parameters, and every URL library", "why_tests_cant": "Every text is a possible link; hints accumulate over all elements of all lines.", "anchors": ["httplint/field/parsers/link.py:link"]}
{"id": "C53", "title": "Structured fields' own rules", "statement": "For Deprecation, Accept-Query, Cache-Groups, Cache-Group-Invalidation, Reporting-Endpoints, Speculation-Rules, CDN-Cache-Control, Use-As-Dictionary, Cache-Status and Proxy-Status in a message that is not a request: each section's lines are read together as one text (joined with comma and space, stripped); if the structured-field library reads no value in it, there is no note of the field's own classes; otherwise these are exactly those the value asks for, in the order of the members, entries and parameters: a date before or after the start of the message, TRUE or another type; members that are no media range or neither token nor string; the alphabetical list of wrong types (and a note if the related request's method is safe); URLs that resolve to a scheme other than https and wss, or no string; always a note plus the directives (in lower case) with a value of the wrong type; keys with the wrong type; unknown parameters and those with a wrong type or value, and one summary note if there is a member. Deviations: Python's True and False are integers, so a bare max-age, or received-status=?1, is accepted; hit=?0, stored=?0 and collapsed=?0 raise TypeError; an Accept-Query string in quotes is still a media range in lower case.", "quantifier": "every message, every set of lines, and every result of the structured-field and URL libraries", "why_tests_cant": "Every value of the structured-field types, of any size, with any parameters.", "anchors": ["httplint/field/structured_field.py:StructuredField", "httplint/field/parsers/cdn_cache_control.py:cdn_cache_control", "httplint/field/parsers/cache_status.py:cache_status", "httplint/field/parsers/proxy_status.py:proxy_status", "httplint/field/parsers/deprecation.py:deprecation", "httplint/field/parsers/accept_query.py:accept_query", "httplint/field/parsers/cache_groups.py:cache_groups", "httplint/field/parsers/cache_group_invalidation.py:cache_group_invalidation", "httplint/field/parsers/reporting_endpoints.py:reporting_endpoints", "httplint/field/parsers/speculation_rules.py:speculation_rules", "httplint/field/parsers/use_as_dictionary.py:use_as_dictionary"]}
{"id": "C54", "title": "Strict-Transport-Security", "statement": "In a message that is not a request, each section with the field gets exactly one note of the field's classes, for its first line: HSTS_VALID iff max-age is readable as an integer, no directive is faulty and the response did not come over HTTP, and HSTS_INVALID otherwise. Its sub-notes are exactly, in this order: a trailing semicolon; for each directive in order a directive used again (naming it), a max-age that is missing or no integer (showing it), and a value given to includeSubDomains or preload; then one of preload / preload not suitable (without includeSubDomains, or max-age under 1536000) / no preload; no max-age, max-age zero or short max-age (under 1536000); subdomains or no subdomains; and HSTS_OVER_HTTP iff a response whose base URI starts with http: has a status other than 301. Only the first directive of a name counts; names ignore letter case; other names are ignored. Deviations: int() decides, so +5 and 1_000 are readable and a negative max-age is merely short; two semicolons in a row count as a directive with an empty name; only a lower-case http: is seen as insecure.", "quantifier": "every message, every text of the field, every base URI and status", "why_tests_cant": "Directives in every number, order and spelling; the verdict depends on notes that were put off while parsing.", "anchors": ["httplint/field/parsers/strict_transport_security.py:strict_transport_security"]}
{"id": "C55", "title": "What notes show", "statement": "Notes name the text at fault. In each section, each note shows in its variables exactly: Content-Range the length that is no number, or else the first of the range's parts that is no number, or the range without a hyphen; Range which of the five problems a range specifier has; Accept-Ranges the unit in lower case; Content-Disposition the disposition; Cross-Origin-Resource-Policy the value; Expect the unknown expectations in order; Location the resolved URI; Origin the text before the first space; Accept, Accept-Patch and Accept-Post the element's type; Accept-Language the language; Server the part; Link the target and the rev, anchor or type; Cache-Control the directive in lower case, the value and expected type, the other kind of message, and the overridden directives, each once; Referrer-Policy the unknown policy, or the last known one; Vary how many different names there are. Variables that a class does not use are not set.", "quantifier": "every message, every set of lines of these fields, and every note of their classes", "why_tests_cant": "What a note shows depends on arbitrary texts in the lines, and which of several parts is at fault on all of them.", "anchors": ["httplint/field/parsers/content_range.py:content_range", "httplint/field/parsers/range.py:range", "httplint/field/parsers/cache_control.py:cache_control", "httplint/field/parsers/referrer_policy.py:referrer_policy", "httplint/field/parsers/vary.py:vary", "httplint/field/parsers/link.py:link", "httplint/note.py:Note"]}
{"id": "C56", "title": "Permissions-Policy", "statement": "In a message that is not a request, each section whose Permissions-Policy lines together are read by the structured-field library as a Dictionary with at least one entry gets exactly one note of the field's classes, PERMISSIONS_POLICY_PRESENT, and otherwise none. Its sub-notes are exactly, for each feature in order: for each member of a parenthesised allowlist in order, a token other than self and src (naming it), one of self, src, * and none in quotes, or a member that is neither token nor string (as str() shows it); for a value without parentheses, one that is not the token *; and the token * for one of ten sensitive features. Each names its feature. Deviation: other sensitive features' names are not known, and * in parentheses is reported as an unknown token rather than a wildcard.", "quantifier": "every message, every set of lines, every Dictionary", "why_tests_cant": "Dictionaries with any number of features and members of any type.", "anchors": ["httplint/field/parsers/permissions_policy.py:permissions_policy"]}
{"id": "C57", "title": "Cross-Origin-Embedder-Policy and Cross-Origin-Opener-Policy", "statement": "In a message that is not a request, the notes of these fields' classes about each of the two fields and their report-only forms are exactly: for each section whose lines the structured-field library reads as an Item, first (report-only form with the other form among the headers) one duplicate note; then the note of the token the item is, or BAD_VALUE showing the value for everything else; and after both sections, one REPORT_TO_MISSING for each section whose report-to parameter (the last one given) is not among the names that the Reporting-Endpoints headers define, showing it. Report-only notes say so in their texts. Notes of these classes are about these fields only. Deviations: a report-to Python takes for false (\"\", 0, ?0) is never reported, a report-to without a value is reported as endpoint True, and tokens, strings and display strings with the same text are taken for the same endpoint.", "quantifier": "every message, every set of lines of the five fields, every result of the structured-field library", "why_tests_cant": "Which notes are due depends on several fields, in any order, and on two sections.", "anchors": ["httplint/field/parsers/cross_origin_embedder_policy.py", "httplint/field/parsers/cross_origin_opener_policy.py", "httplint/field/parsers/cross_origin_embedder_policy_report_only.py", "httplint/field/parsers/cross_origin_opener_policy_report_only.py"]}
{"id": "C58", "title": "Accept-CH, Available-Dictionary and Content-Encoding", "statement": "Accept-CH in a message that is not a request, for each section in which the structured-field library reads a List: ACCEPT_CH_BAD_TYPE exactly if a member is no token; at the end ACCEPT_CH_IN_PLAIN_HTTP exactly if the related request's URI starts with http: in any letter case, and ACCEPT_CH_MISSING_VARY exactly if the linter found that some cache may store the response and Vary lacks a member, naming all such members in order. Available-Dictionary in a request: BAD_TYPE naming the type of an Item that is no byte sequence, and at the end MISSING_AE exactly if the Accept-Encoding headers list neither dcb nor dcz. Content-Encoding: ENCODING_UNWANTED for exactly the codings that the related request's Accept-Encoding does not list, at their lines and as written; DICTIONARY_COMPRESSED_MISSING_VARY (for each section with the field) exactly if a response's Content-Encoding headers list dcb or dcz, some cache may store it and Vary does not list available-dictionary. Deviations: Vary's names are kept in lower case and Accept-CH's are not, so a token with a capital letter is always reported as missing; text before a semicolon is not stripped, so dcb ;q=1 does not count as dcb; * in Accept-Encoding accepts nothing.", "quantifier": "every message, related request and set of lines of these fields, and every result of the structured-field library", "why_tests_cant": "Which notes are due at the end depends on several fields of two messages and on the verdict about caching.", "anchors": ["httplint/field/parsers/accept_ch.py:accept_ch", "httplint/field/parsers/available_dictionary.py:available_dictionary", "httplint/field/parsers/content_encoding.py:content_encoding"]}
{"id": "C59", "title": "NEL and Report-To", "statement": "In a message that is not a request, for each section in which the JSON library reads the field's lines, joined by commas and put in brackets, as an array. NEL: for each element, NEL_BAD_STRUCTURE exactly if it is no object; otherwise, in this order, NEL_MISSING_KEY or NEL_BAD_TYPE for report_to (a string) and max_age (an integer), NEL_BAD_TYPE for include_subdomains that is no boolean, and for success_fraction and failure_fraction NEL_BAD_TYPE if one is no number and NEL_BAD_VALUE if it is not from 0 to 1; of a repeated key the last value counts. At the end: NEL_REPORT_TO_MISSING naming each element's nonempty report_to that the Reporting-Endpoints headers do not define, and NEL_CONFIGURED exactly if there is an element without any of the above notes whose report_to names an endpoint that is a String and has, resolved against the base URI, no scheme or https or wss; the note names exactly these in order. Report-To: the same kind of notes for max_age, endpoints (a list) and each endpoint's url. Nothing else leads to notes of these classes. Deviations: true and false are integers and numbers; the details of success_fraction's note read itmust; an array in a line counts as an element that is no object.", "quantifier": "every message, every set of lines of these fields and of Reporting-Endpoints, every result of the JSON and structured-field libraries, and every resolution of URLs", "why_tests_cant": "The elements of all lines of the field count, together with other headers and the base URI.", "anchors": ["httplint/field/parsers/nel.py:nel", "httplint/field/parsers/report_to.py:report_to", "httplint/field/json_field.py:JsonField"]}
{"id": "C60", "title": "Content-Security-Policy", "statement": "In a message that is not a request there is one CONTENT_SECURITY_POLICY note for each of Content-Security-Policy and Content-Security-Policy-Report-Only and each section in which the field has a member, about that field, in the order of the fields and sections. A member is a policy: its directives are its parts between semicolons, a name in lower case up to the first space and a value; the first of each name is in force. The note's sub-notes are exactly: for each policy with repeated names, CSP_DUPLICATE_DIRECTIVE listing the repeated ones; CSP_DEPRECATED_REPORT_URI if a report-uri is in force; and CSP_WIDE_OPEN, CSP_UNSAFE_INLINE, CSP_UNSAFE_EVAL and CSP_HTTP_URI listing, if there are any, all directives in force that are script-src, style-src or object-src with the word *, or contain 'unsafe-inline', or 'unsafe-eval', or have the word http:. CSP_REPORT_TO_MISSING comes for each report-to in force whose value is no name the Reporting-Endpoints headers define. The parsed value is the list of the policies' directives in force. Deviations: all CSP_REPORT_TO_MISSING sub-notes are put under the first CONTENT_SECURITY_POLICY note of the message, whichever field they are about; a member without any directive counts as a policy; 'unsafe-inline' counts anywhere in a value, even within another word.", "quantifier": "every message, every set of lines of both fields and of Reporting-Endpoints in headers and trailers, and every result of the structured-field library", "why_tests_cant": "Where a sub-note ends up depends on other fields and on the order of all lines.", "anchors": ["httplint/field/parsers/content_security_policy.py:content_security_policy", "httplint/field/parsers/content_security_policy_report_only.py:content_security_policy_report_only"]}
{"id": "C61", "title": "Clear-Site-Data", "statement": "In a message that is not a request, a member of Clear-Site-Data names the text in its double quotes, or itself if it is not in quotes. For each member, at its line: CSD_EMPTY if the named text is empty, CSD_UNKNOWN_VALUE showing it if it is not one of cache, cookies, storage, executionContexts and *, and nothing else. For each section with the field, about the field: CSD_UNQUOTED listing the known values given without quotes, in order, if there are any; then CSD_EMPTY if there is no member at all, otherwise CSD_PRESENT listing, in order, the known values named that are not in the list of unquoted ones, if there are any. No other notes of these classes are reported. The field's value is the list of the named texts.", "quantifier": "every message, every set of lines of the field in headers and trailers", "why_tests_cant": "The notes at the end depend on the members of all lines, quoted and unquoted, in order.", "anchors": ["httplint/field/parsers/clear_site_data.py:clear_site_data", "httplint/field/list_field.py:HttpListField"]}
{"id": "C62", "title": "Date, Last-Modified and Sunset against the clock", "statement": "A start time of 0 counts as no start time, and a date that names the second 0 counts as no date. Response with a start time and a Date line whose first value is an HTTP date: let d be the date, n the start time truncated to whole seconds and a the Age seen (the first Age value if it is a whole number of at least 0, otherwise 0). If a is over 5 and n - d is under 5, AGE_PENALTY is reported about Date and Age; otherwise, if d + a - n is more than 5 away from 0, DATE_INCORRECT with that skew; otherwise DATE_CORRECT. Last-Modified whose first value is an HTTP date, not in a request: it is compared with the Date seen or, when none is seen, with the start time (untruncated; with neither, nothing is reported): LM_FUTURE if it is later, otherwise LM_PRESENT, showing the two times. Sunset, not in a request and with a start time: SUNSET_PAST if the start time is later than it. Each section (headers, trailers) is judged separately, and no other notes of these classes are reported. What a header sees of Age or Date is only what stands in the header lines before its own first line; a trailer sees all the header lines; trailer lines are never seen.", "quantifier": "every message, start time, set of header and trailer lines in any order and any spelling of the dates", "why_tests_cant": "The verdict depends on the clock, two fields and the order of all lines.", "anchors": ["httplint/field/parsers/date.py:date", "httplint/field/parsers/last_modified.py:last_modified", "httplint/field/parsers/sunset.py:sunset", "httplint/field/utils.py:parse_http_date", "httplint/field/section.py:FieldSection.process"]}
{"id": "C63", "title": "Content and its Content-Type", "statement": "For a response whose content was looked at (the linter was not told there is none; no HEAD request; status not 204, 205, 206, 304 or 100 to 198): CONTENT_TYPE_MISMATCH is reported exactly when the sniffer, given the first bytes of the content and the type of the first Content-Type line, names a different type, unless the declared type is text/html and the sniffed one an RSS or Atom feed; the note shows both. The charset in force is utf-8 for application/json, text/json and subtypes ending in +json (a charset parameter other than that is not used), and the charset parameter for text/*; there is none otherwise. If it is known and the sample holds a byte of 128 or more: CHARSET_UNDECODABLE when the sample does not decode (showing the detector's guess or `unknown`), otherwise a mismatch note when the detector is at least half sure of another codec and the two codecs do not read the sample as the same text: CHARSET_IMPLICIT_MISMATCH if the type is always UTF-8 and no charset is given, CHARSET_MISMATCH otherwise; nothing else of these classes. Requests never get these notes. character_encoding is the charset parameter if its codec is known, None otherwise.", "quantifier": "every message, content and chunking, and every behaviour of the codecs, the sniffer and the charset detector under which linting does not raise", "why_tests_cant": "It relates the content, the status, the header and three external functions; tests sample a few pairs.", "anchors": ["httplint/content_type.py:verify_content_type", "httplint/charset.py:verify_charset", "httplint/charset.py:_canonical", "httplint/message.py:HttpMessageLinter.process_headers", "httplint/field/parsers/content_type.py:content_type"]}
{"id": "C64", "title": "Content-Length beside Transfer-Encoding", "statement": "CL_AND_TE_PRESENT is reported about Content-Length once for each section (headers, trailers) whose first Content-Length line holds an integer (as in C29) while a Transfer-Encoding line stands among the header lines before it; for Content-Length in the trailers, anywhere in the header lines. It is reported in no other case: not when Transfer-Encoding comes after Content-Length, nor when Transfer-Encoding is itself a trailer, nor when the first Content-Length is no integer.", "quantifier": "every message and every set and order of header and trailer lines", "why_tests_cant": "The verdict depends on two fields and on the order of all lines.", "anchors": ["httplint/field/parsers/content_length.py:content_length.evaluate", "httplint/field/section.py:FieldSection.process"]}
{"id": "C65", "title": "Fields that can be removed", "statement": "UNNECESSARY_HEADER is reported exactly once for each element of each line of TCN and of the twelve fields x-aspnet-version, x-aspnetmvc-version, x-powered-by, x-generator, x-drupal-cache, x-varnish, x-mod-pagespeed, x-pingback, x-runtime, x-rack-cache, x-content-encoded-by, x-backend-server, in any letter case, in headers and trailers, if the line is processed (TCN: not in requests); in the order of the lines, about the line, with header_name as the first line of that field in the section spells it. A line whose value has no element (an empty one) gives none, and no other field gives one.", "quantifier": "every message, and every set of header and trailer lines", "why_tests_cant": "The number, order and text of the notes depend on all lines, through the handler that the first line of a field created.", "anchors": ["httplint/field/unnecessary.py:UnnecessaryField.parse", "httplint/field/parsers/tcn.py:tcn.parse", "httplint/field/finder.py:HttpFieldFinder"]}
{"id": "C66", "title": "What the structured fields' notes show", "statement": "For each section, the notes reported for Deprecation, Accept-Query, Reporting-Endpoints, Speculation-Rules, CDN-Cache-Control, Use-As-Dictionary, Cache-Status and Proxy-Status are, in order, those due for the combined value, with exactly these values: Deprecation's date (as Python prints it, a T in place of the blank) or the type found (\"Boolean False\" for ?0); Accept-Query's text in lower case with the reference of the field, or the text of a member that is no word; the endpoint's name, the URL as received, the rejected value and its type; the CDN directive in lower case with \"no value\", \"integer\" or \"a string\"; for Use-As-Dictionary the VALUE of the parameter (its name is not shown), the expected type and the type found; for Cache-Status and Proxy-Status the parameter and its value for each unknown or not allowed parameter, then one note whose status has for each member its name in bold and a line for each parameter: the text of the parameter's table row with its value, the text of its value, or the parameter literally when it is unknown, not allowed or has no text. A value ?1 that the row would quote leaves \"%s\" in the text.", "quantifier": "every message, and every set of header and trailer lines; every answer of the structured field library", "why_tests_cant": "The values depend on every member and parameter of a value of any size, on which member of a name wins, and on all rows of the tables.", "anchors": ["httplint/field/parsers/deprecation.py", "httplint/field/parsers/accept_query.py", "httplint/field/parsers/reporting_endpoints.py", "httplint/field/parsers/speculation_rules.py", "httplint/field/parsers/cdn_cache_control.py", "httplint/field/parsers/use_as_dictionary.py", "httplint/field/parsers/cache_status.py", "httplint/field/parsers/proxy_status.py", "httplint/field/utils.py:check_sf_params"]}
{"id": "C67", "title": "What the general notes about fields show", "statement": "For each section the notes about syntax, deprecated fields, sizes, duplicate keys, structured fields that do not parse and bad JSON are, in order: for every processed line its deprecation note with the reference of the field (for a deprecated field without a module, that of the table), for every element of a list field that does not fit its grammar one note - with the element, its first invalid character, the position of it counted from 1 and an excerpt of at most 20 characters on each side with a caret below that position, or, when no beginning of the element is a word of the grammar, the bare note if the field asks for it - and the exact size of a line over 8192 bytes; then the exact size of a section over 32768 bytes; then for every field, in the order of first appearance, the bare syntax note of a single value that does not fit (only the FIRST line is looked at), the keys the structured field library found twice with their text, the problem it reports with an excerpt of at most 35 characters on each side of the position it reports (of the combined value, without surrounding white space), or the message of the JSON decoder. Each about its line, its field or the block, and nothing else.", "quantifier": "every message of every type, and every set of header and trailer lines, of any number and size; every answer of the structured field library and the JSON decoder", "why_tests_cant": "The notes depend on the whole text of every line, on all grammars, and on positions in values of any length.", "anchors": ["httplint/field/singleton_field.py:SingletonField", "httplint/field/structured_field.py:StructuredField", "httplint/field/json_field.py:JsonField", "httplint/field/section.py:FieldSection.process", "httplint/field/__init__.py:HttpField", "httplint/field/list_field.py:HttpListField.handle_input"]}
{"id": "C68", "title": "What the notes about caching show", "statement": "For a response the notes about caching are, in a fixed order, exactly those the caching rules call for, and each is about, and shows, what the verdict rests on: the age note is about Age and Date and shows the exact age; the freshness notes are about Date, then Expires (when it counts and the time of the response is known), then Cache-Control once for max-age and once for s-maxage, and show the lifetime(s) in whole seconds, the whole seconds between the age and the end of each lifetime WITHOUT their direction, the exact age, and when the two lifetimes differ, for each kind of cache whether the response is fresh or stale; the note about a cacheable response to an authenticated request names the first of public, must-revalidate and s-maxage that is present; the note added to an uncacheable request names its method, is about the method, and is the only note added to the request.", "quantifier": "every response with every set of header and trailer lines, every status, every time it was received at, and every request it belongs to or none", "why_tests_cant": "The spans are sums and differences of dates, ages and directives over unbounded integers and rational clocks, and which fields a verdict rests on depends on the whole header block.", "anchors": ["httplint/cache.py:ResponseCacheChecker", "httplint/util.py:RelativeTime"]}
{"id": "C69", "title": "What the notes about Set-Cookie show", "statement": "The notes about Set-Cookie are, for each section, in order: the note about names used more than once (with them, in alphabetical order) and the note about hardened cookies (with their names), about the field; then for every Set-Cookie line, each about its line: the note of a line without name and value, with no variable, or else, each with the name of the cookie, too large a cookie, too large a value (with its length: its decimal digits in groups of three with commas, and \"bytes\"), for every attribute in order its repetition (with the attribute as it is spelled here), an Expires that is no date (with the reason), an empty, zero-padded or non-numeric Max-Age, the FIRST lifetime over 400 days of the line (with the span from the time of the response to Expires, or that of Max-Age; without direction), an empty Domain, a SameSite of unknown value (with the attribute's spelling and the value), Priority, Version, an unknown attribute (with it), and last SameSite=None or Partitioned without Secure and a name prefix without Secure, with the wrong Path or with a Domain (once per Domain). A Max-Age that Python cannot read ends the line there. No other note of that field exists.", "quantifier": "every response, with every base URI, time, number and content of header and trailer lines, in any letter case", "why_tests_cant": "The notes and what they show depend on every attribute of lines of any length, on their order, and on all lines of the section.", "anchors": ["httplint/field/parsers/set_cookie.py:loose_parse", "httplint/field/parsers/set_cookie.py:_process_cookie_attribute", "httplint/field/parsers/set_cookie.py:check_prefixes", "httplint/field/parsers/set_cookie.py:set_cookie.evaluate"]}
{"id": "C70", "title": "Extended parameters are read as RFC 8187 says", "statement": "Parameters (a token name, '=', a token or quoted-string, in optional whitespace, joined by the delimiter) parse without an exception whether or not their names end in an asterisk. The result gives every lower-cased name the last value a parameter of that name has: for a name without asterisk the token or the unescaped content of the quotes; for a name with one, if the field allows it there, the percent-decoded text of a value (without its quotes, if it has them) of the form charset'language'text with exactly two apostrophes and the charset UTF-8 in any case, and no entry otherwise. The notes are, for every parameter in order: that its name has an entry already; that the value is in apostrophes (with it and what is between them); and for a name with asterisk either that it is not allowed here (with the name without asterisk), or that it is quoted, followed by at most one of: not of that form, no charset, another charset (with it, in lower case). No other note exists. For Content-Disposition the rules about the file name hold of the last such value of filename, and of filename* as decoded.", "quantifier": "every list of such parameters, of any length, with any whitespace around them, every delimiter, and every rule of the field about asterisks", "why_tests_cant": "Which value wins and which repetitions are noted depend on all parameters of a list of any length, and on values with any number of apostrophes and escapes.", "anchors": ["httplint/field/utils.py:parse_params", "httplint/field/utils.py:split_string", "httplint/field/parsers/content_disposition.py:content_disposition.evaluate"]}
{"id": "C71", "title": "What the values of fields are", "statement": "The value of a field in a section is as follows. For 25 fields that may occur once (among them Authorization, Host, If-Range, Referer, Retry-After, User-Agent) it is the text of the first line; for X-Frame-Options that text in upper case; for Access-Control-Allow-Credentials 'true' if it is that, else None; for ETag whether it begins with W/ and the unquoted rest; for Content-Disposition and Content-Type the name before the semicolon in lower case and the parameters after it. For 21 list fields (among them Allow, Connection, If-Match, If-None-Match, Upgrade, Via, Warning) it is the list of members of all lines in order; for six more (among them Accept-Ranges, Pragma, Content-Language) these in lower case; for Accept-Encoding, TE, Transfer-Encoding, Accept-Patch, Accept-Post, Server-Timing and Link the members' names (in lower case, except Server-Timing's metrics and Link's targets, which lose their angle brackets) with their parameters; for Keep-Alive the names in lower case with the unquoted values; for Alt-Svc the members that are 'clear' or have an equals sign; for Clear-Site-Data the members without quotes. Cookie has for each line the list of its name-value pairs. Deprecated and unnecessary fields have None for every member; fields httplint does not know have an empty list. No field without a line has a value.", "quantifier": "every message, with every number, order and content of header and trailer lines, in any letter case, and every such field that is processed in that kind of message", "why_tests_cant": "The value depends on all lines of the field, on quoting and whitespace in lines of any length, and must not depend on any other field or on the content.", "anchors": ["httplint/field/parsers/*:parse", "httplint/field/singleton_field.py:SingletonField", "httplint/field/list_field.py:HttpListField", "httplint/field/broken_field.py:BrokenField", "httplint/field/parsers/etag.py:etag.parse", "httplint/field/parsers/cookie.py:cookie.parse", "httplint/field/parsers/keep_alive.py:keep_alive.parse"]}
{"id": "C72", "title": "What the notes about preflights, Server and pre-check/post-check show", "statement": "Of the notes about CORS preflights a linted request has, in this order and no others: that it is a preflight, if its method is OPTIONS and it has Origin and Access-Control-Request-Method; and, if it has Access-Control-Request-Method or Access-Control-Request-Headers: a note that shows 'Access-Control-Request-Method' and the method, if the method is not OPTIONS; one that shows 'Access-Control-Request-Method' if Origin is missing (even if only Access-Control-Request-Headers was sent); one that shows 'Access-Control-Request-Headers' if Access-Control-Request-Method is missing. A response has: that it answers a preflight, if its request is one; otherwise, if it has any of Access-Control-Allow-Headers, -Methods and Access-Control-Max-Age, one note with the canonical names of those it has, in that order and with commas; and one if the value of Access-Control-Allow-Origin contains a space or comma. A note about a long Server member shows the member and its length in characters, with commas between groups of three digits and ' bytes' after it, and is there only if it is longer than 64 characters. A note about pre-check and post-check together shows the numbers of the last member that gives one for each; the second is not zero and not greater than the first.", "quantifier": "every linted request and response that ends without an error, with every set of fields, spellings, order of lines and related request, and Server members and Cache-Control lists of any length", "why_tests_cant": "The notes depend on all fields of a message and of its request together, on lists of any length, and on how the spelling of a name on the wire is turned into its canonical form.", "anchors": ["httplint/field/cors.py:check_preflight_request", "httplint/field/cors.py:check_preflight_response", "httplint/field/parsers/server.py:server.parse", "httplint/field/parsers/cache_control.py:cache_control.evaluate", "httplint/util.py:f_num"]}
{"id": "C73", "title": "The values of Content-Encoding, Location, Strict-Transport-Security, NEL and Report-To", "statement": "The value of Content-Encoding is the list of its members, of all lines in order, in lower case, whether or not the request asked for them. The value of Location is the text of its first line if that is a URI or can be resolved against the base URI of the linter, and None if it can not. The value of Strict-Transport-Security is a record of the number of the first max-age directive of the first line (None if that directive has no number, even if a later one has), and of whether directives named includeSubDomains and preload are there, with or without a value. The value of NEL and Report-To is the list that the JSON library reads from all lines joined with commas and put in brackets, and None if it is not JSON. Without a line there is no value.", "quantifier": "every message, with every number, order, spelling and content of header and trailer lines, every related request and base URI, and every behaviour of the JSON and URL libraries", "why_tests_cant": "The value depends on all lines, on directives in any order and number, and must not depend on any other field, on the related request or on the content.", "anchors": ["httplint/field/parsers/content_encoding.py:content_encoding.parse", "httplint/field/parsers/location.py:location.parse", "httplint/field/parsers/strict_transport_security.py:strict_transport_security.parse", "httplint/field/json_field.py:JsonField.finish", "httplint/field/parsers/nel.py:nel", "httplint/field/parsers/report_to.py:report_to"]}
{"id": "C74", "title": "The categories notes are filed under", "statement": "Every note of a kind with a category other than General has that category. The general notes about fields of the kinds REQUEST_HDR_IN_RESPONSE, RESPONSE_HDR_IN_REQUEST, FIELD_DEPRECATED, BAD_SYNTAX_DETAILED, STRUCTURED_FIELD_PARSE_ERROR and BAD_JSON are about a line or a field of the message (as their subject says) and have the category of that field; for a deprecated field without a module of its own that of the table of deprecated fields. BAD_SYNTAX has the category of its field if it is about a line of a list field, and General if it is about a field with a single value. The other general notes about fields (names and values that are not ASCII, names that are not tokens, sizes, repeated single fields, repeated keys) are General, and so is every general note of the module of a single field, except the two about dates (BAD_DATE_SYNTAX, DATE_OBSOLETE), which are about a Date, Expires, Last-Modified or Sunset field of the message and have its category.", "quantifier": "every message, with every top line, every number, order, spelling and content of header and trailer lines and body chunks, every related message and every behaviour of the libraries", "why_tests_cant": "The category depends on the field's class, found by name among some 190 fields and tables, and must not be changed by the rest of the message, by sub-notes added later, or by other fields.", "anchors": ["httplint/note.py:Notes.add", "httplint/field/__init__.py:HttpField.pre_check", "httplint/field/deprecated.py:DeprecatedField.pre_check", "httplint/field/list_field.py:HttpListField.handle_input", "httplint/field/singleton_field.py:SingletonField.finish", "httplint/field/structured_field.py:StructuredField.finish", "httplint/field/json_field.py:JsonField.finish"]}
