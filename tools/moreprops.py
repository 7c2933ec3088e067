p("C41","Every known field has a description",
 "get_field_description(name) returns a non-empty text for every name that some class other than the unknown-field class handles, in any letter case, and None for every other name.",
 "every field name",
 "All spellings of all names.",
 ["httplint/field/description.py:get_field_description","httplint/field/finder.py:HttpFieldFinder.find_handler_class"])
p("C42","Notes can be read in every shipped locale",
 "In each of the locales shipped with the library (and in any other, where notes are in English) every template of every note class asks for exactly the variables its English original asks for, so the summary and the detail of every note and sub-note reported in any session can be read in the locale iff they can be read in English. Notes without a text are an exception to what a reader expects: in a shipped locale their detail is the header of the message catalogue (a deviation C42_header exhibits), in English it is empty.",
 "every session, note, locale and value of the variables",
 "All notes any session can report, in all locales.",
 ["httplint/i18n.py:translate","httplint/i18n.py:get_translations","httplint/note.py:Note._get_summary","httplint/note.py:Note._get_detail","httplint/translations/*/LC_MESSAGES/messages.mo"])
p("C43","Message text is shown inside code spans",
 "In the detail of any note or sub-note of any session, a variable that the template puts outside its Markdown code spans is shown as text without the characters of tags and links (<, >, [, ]), as a relative time, or as a list of code spans - so a linted message cannot inject HTML or links there - except for a stated list: ENCODING_UNWANTED.coding (whose template has an unbalanced backtick), CACHE_STATUS.status and PROXY_STATUS.status, ACCEPT_CH_MISSING_VARY.missing_fields, NEL_CONFIGURED.endpoints, texts of other libraries (BAD_JSON.error, DUPLICATE_KEY.key and .context, BAD_ZLIB and BAD_BROTLI.chunk_sample, DEPRECATION_PAST and _FUTURE.date), field names and contexts (STRUCTURED_FIELD_PARSE_ERROR.field_name and .context, CORS_PREFLIGHT_ONLY.headers) and CC_WRONG_MESSAGE.message_type. The shipped translations expose a further stated list of variables.",
 "every session, note, sub-note and variable, in English and in each shipped locale",
 "All messages and all notes; an injection needs one hostile value.",
 ["httplint/note.py:Note._get_detail","httplint/field/parsers/content_encoding.py:ENCODING_UNWANTED","httplint/field/utils.py:PARAM_STAR_BAD","httplint/translations/*/LC_MESSAGES/messages.mo"])
p("C44","Framing, sniffing, resource and referrer policies",
 "For each section of a response: X-Frame-Options gets exactly one note, about DENY if that occurs anywhere in its first line in any case, else about SAMEORIGIN if that occurs, else FRAME_OPTIONS_UNKNOWN; X-Content-Type-Options exactly one, CONTENT_TYPE_OPTIONS iff nosniff is a list member in exactly this case; Cross-Origin-Resource-Policy exactly one, by its first line compared exactly with same-origin, same-site and cross-origin; Referrer-Policy one REFERRER_POLICY_UNKNOWN per member that is not a policy, then REFERRER_POLICY_EMPTY if there is none that is, else MULTIPLE iff there are several and UNSAFE or STRICT according to the last. (For lines whose name is spelled with hyphens.)",
 "every response and every list of lines of these fields",
 "All texts and all lists of members.",
 ["httplint/field/parsers/x_frame_options.py:x_frame_options","httplint/field/parsers/x_content_type_options.py:x_content_type_options","httplint/field/parsers/cross_origin_resource_policy.py:cross_origin_resource_policy","httplint/field/parsers/referrer_policy.py:referrer_policy"])
p("C45","Content-Range, Range and Accept-Ranges",
 "For each section of a response the notes about the first Content-Range line are CONTENT_RANGE_MEANINGLESS iff the status is neither 206 nor 416 (or unknown), then those that the syntax rules unit SP range / length ask for: exactly one note for the first part that is missing or malformed, otherwise RANGE_INVALID for a range whose end is before its start and for one that ends at or after the length, UNKNOWN_LENGTH for a length *, UNSATISFIED_BAD_SC for a range * with status 206; the parsed value is exactly the unit, positions and length, and None if a part is malformed. Likewise for each request the notes and the value of Range follow unit=first-last,...: RANGE_BAD_SYNTAX once, for the first malformed part, and RANGE_INVALID for each range before it that ends before it starts. Accept-Ranges gets UNKNOWN_RANGE once for each member other than bytes and none, at its line. Deviation: positions of more than 4300 digits or with superscript digits give the field up without a note.",
 "every response or request, every text of these fields",
 "All texts of the fields, all statuses.",
 ["httplint/field/parsers/content_range.py:content_range.parse","httplint/field/parsers/range.py:range.parse","httplint/field/parsers/accept_ranges.py:accept_ranges.parse"])
p("C46","Fields judged by the start of the message",
 "Origin (requests): null is accepted; otherwise the text before the first space is read as scheme://host[:port], ORIGIN_MULTIPLE_VALUES is reported iff there is a space, BAD_ORIGIN_SYNTAX iff that text does not fit the grammar, and the value is the lower-cased scheme and host with the port as a number - the same parts in every way the text can be matched. Location (responses): LOCATION_UNDEFINED iff the status is not one of 201, 300-303, 305, 307, 308; LOCATION_NOT_ABSOLUTE iff the text is no URI and can be joined with the base URI. Referer: from https or wss, SECURE_TO_INSECURE iff the request URI is http or ws and SECURE_TO_DIFFERENT_ORIGIN iff scheme or authority differ. Expect: EXPECT_HTTP_1_0 iff the version is 1.0, EXPECT_UNKNOWN iff some member is not 100-continue. Max-Forwards: MAX_FORWARDS_IGNORED iff the method is neither TRACE nor OPTIONS. Deviation: a port of more than 4300 digits gives the value up without a note.",
 "every message, every text of these fields, every start line",
 "All texts, statuses, methods and URIs.",
 ["httplint/field/parsers/origin.py:origin.parse","httplint/field/parsers/location.py:location.parse","httplint/field/parsers/referer.py:referer.evaluate","httplint/field/parsers/expect.py:expect.evaluate","httplint/field/parsers/max_forwards.py:max_forwards.evaluate"])
p("C47","Transfer codings",
 "For each section of a message, Transfer-Encoding gets TRANSFER_CODING_PARAM at its line for each element with a parameter; TRANSFER_CODING_UNWANTED, naming the coding, once for each coding that is listed, is neither chunked nor identity, and - if a response is linted with its request - that the request's TE header does not list; and TRANSFER_CODING_IDENTITY once iff identity is listed; and no more notes of these classes. Codings are compared in lower case. Deviation: the coding is the text before the semicolon with its trailing space, so chunked followed by a space and a semicolon counts as another coding.",
 "every message, every list of codings, every related request",
 "All lists of codings with all parameters; set semantics.",
 ["httplint/field/parsers/transfer_encoding.py:transfer_encoding.parse","httplint/field/parsers/transfer_encoding.py:transfer_encoding.evaluate"])
p("C48","Content-Disposition",
 "For each section the notes about the first Content-Disposition line are DISPOSITION_UNKNOWN iff the type is neither inline nor attachment in any case, DISPOSITION_OMITS_FILENAME iff it is attachment without a filename parameter, DISPOSITION_FILENAME_PERCENT iff the unquoted filename contains a percent sign, and DISPOSITION_FILENAME_PATH_CHAR iff the filename contains a slash or the filename* parameter contains two backslashes in a row (a single backslash is not reported, a deviation); for values written as a type and name=value parameters, the filename is the unquoted value of the last parameter with that name.",
 "every message, every text of the field",
 "All texts and all lists of parameters.",
 ["httplint/field/parsers/content_disposition.py:content_disposition.parse","httplint/field/utils.py:parse_params"])
p("C49","Set-Cookie",
 "In a message that is not a request, each Set-Cookie line is read as a name=value pair and attributes separated by semicolons, and for each of the nineteen line-level classes the notes are exactly those the line asks for, in order, each at its line, naming the cookie: no name, sizes over 4096 and 128 characters, attribute names used again (each time, naming the attribute), Expires that is no date, Max-Age that is empty, has a leading zero or is no number, a lifetime over 400 days (once for a cookie), an empty Domain, an unknown SameSite value, Priority, Version, unknown attributes (naming them), SameSite=None or Partitioned without Secure, and the __Secure- and __Host- prefixes without what they require. One note per section names, in alphabetical order, the cookie names used more than once, and one names the hardened cookies in order. The field's value is the list of the cookies with their attributes in order, paths completed from the base URI. A date written as weekday, day, month, year and time denotes its second since 1970, or is rejected if the day, the year (before 1601) or the time is out of range. Deviations: a Max-Age of superscript digits or of more than 4300 digits makes the line be dropped in the middle, without a note; a base URI that cannot be split drops all cookies silently.",
 "every message, every set of Set-Cookie lines, every base URI and clock",
 "All texts of all lines, with attributes in all orders and repetitions; the notes come late, from a queue.",
 ["httplint/field/parsers/set_cookie.py:loose_parse","httplint/field/parsers/set_cookie.py:loose_date_parse","httplint/field/parsers/set_cookie.py:set_cookie.evaluate","httplint/field/broken_field.py:BrokenField"])
p("C50","Preferences: quality values and media ranges",
 "In a request, for each element of Accept (and of Accept-Language) the notes are exactly: bad syntax if its type in lower case is no media range (for a language: if it has parameters besides q), and a bad q note if it has a q parameter that is not a quality value, i.e. not at most five characters that float() reads as a number from 0 to 1. For Accept-Patch (no wildcards) and Accept-Post (wildcards allowed) there is exactly one note for each element that is no media type, at its line. The values of these fields are the elements' types, parameters without q, and the weight or nothing. A decimal numeral of at most three places from 0 to 1 is a quality value and denotes its number. Deviations: \"1e-1\" and \"+.5\" count as quality values; no note says that a q value has too many digits as long as it has at most five characters.",
 "every message, every set of lines, elements, parameters and q texts",
 "Every text is a possible element; float() takes infinitely many numerals.",
 ["httplint/field/parsers/accept.py:accept","httplint/field/parsers/accept_language.py:accept_language","httplint/field/parsers/accept_patch.py:accept_patch","httplint/field/parsers/accept_post.py:accept_post","httplint/field/utils.py:parse_media_type"])
p("C51","Plain list fields: Alt-Svc, Content-Language, Pragma, Server, Server-Timing, Via",
 "ALTSVC_CLEAR_LIST exactly when \"clear\" is not alone among the members that are \"clear\" or have an equals sign; CONTENT_LANGUAGE_DUP exactly once for each tag given twice in any letter case, naming it; PRAGMA_OTHER exactly when a request's Pragma has something besides no-cache; VIA_PRESENT once per section with Via, showing its members as an HTML list (unescaped); SERVER_TOO_LONG for each comma-separated part of Server over 64 characters; for each Server-Timing metric, in order and named, a note if dur is missing, no number, or desc is missing.",
 "every message, every set of lines and members",
 "Any number of members in any order and on any lines.",
 ["httplint/field/parsers/alt_svc.py:alt_svc","httplint/field/parsers/content_language.py:content_language","httplint/field/parsers/pragma.py:pragma","httplint/field/parsers/server.py:server","httplint/field/parsers/server_timing.py:server_timing","httplint/field/parsers/via.py:via"])
p("C52","Link",
 "For each element of Link the notes are exactly: LINK_REV if it has a rev parameter, LINK_BAD_ANCHOR if it has a non-empty anchor that is no URI reference, LINK_BAD_TYPE if it has a non-empty type that is no media type, each at its line. For each relation type preload, preconnect or dns-prefetch (any letter case) of each link whose target, resolved against the base URI, has a scheme other than http and https there is one LINK_BAD_HINT_TARGET naming type, target and scheme; if there are others, exactly one LINK_RESOURCE_HINTS names their types, in a fixed order.",
 "every message, base URI, set of Link lines and parameters, and every URL library",
 "Every text is a possible link; hints accumulate over all elements of all lines.",
 ["httplint/field/parsers/link.py:link"])
p("C53","Structured fields' own rules",
 "For Deprecation, Accept-Query, Cache-Groups, Cache-Group-Invalidation, Reporting-Endpoints, Speculation-Rules, CDN-Cache-Control, Use-As-Dictionary, Cache-Status and Proxy-Status in a message that is not a request: each section's lines are read together as one text (joined with comma and space, stripped); if the structured-field library reads no value in it, there is no note of the field's own classes; otherwise these are exactly those the value asks for, in the order of the members, entries and parameters: a date before or after the start of the message, TRUE or another type; members that are no media range or neither token nor string; the alphabetical list of wrong types (and a note if the related request's method is safe); URLs that resolve to a scheme other than https and wss, or no string; always a note plus the directives (in lower case) with a value of the wrong type; keys with the wrong type; unknown parameters and those with a wrong type or value, and one summary note if there is a member. Deviations: Python's True and False are integers, so a bare max-age, or received-status=?1, is accepted; hit=?0, stored=?0 and collapsed=?0 raise TypeError; an Accept-Query string in quotes is still a media range in lower case.",
 "every message, every set of lines, and every result of the structured-field and URL libraries",
 "Every value of the structured-field types, of any size, with any parameters.",
 ["httplint/field/structured_field.py:StructuredField","httplint/field/parsers/cdn_cache_control.py:cdn_cache_control","httplint/field/parsers/cache_status.py:cache_status","httplint/field/parsers/proxy_status.py:proxy_status","httplint/field/parsers/deprecation.py:deprecation","httplint/field/parsers/accept_query.py:accept_query","httplint/field/parsers/cache_groups.py:cache_groups","httplint/field/parsers/cache_group_invalidation.py:cache_group_invalidation","httplint/field/parsers/reporting_endpoints.py:reporting_endpoints","httplint/field/parsers/speculation_rules.py:speculation_rules","httplint/field/parsers/use_as_dictionary.py:use_as_dictionary"])
p("C54","Strict-Transport-Security",
 "In a message that is not a request, each section with the field gets exactly one note of the field's classes, for its first line: HSTS_VALID iff max-age is readable as an integer, no directive is faulty and the response did not come over HTTP, and HSTS_INVALID otherwise. Its sub-notes are exactly, in this order: a trailing semicolon; for each directive in order a directive used again (naming it), a max-age that is missing or no integer (showing it), and a value given to includeSubDomains or preload; then one of preload / preload not suitable (without includeSubDomains, or max-age under 1536000) / no preload; no max-age, max-age zero or short max-age (under 1536000); subdomains or no subdomains; and HSTS_OVER_HTTP iff a response whose base URI starts with http: has a status other than 301. Only the first directive of a name counts; names ignore letter case; other names are ignored. Deviations: int() decides, so +5 and 1_000 are readable and a negative max-age is merely short; two semicolons in a row count as a directive with an empty name; only a lower-case http: is seen as insecure.",
 "every message, every text of the field, every base URI and status",
 "Directives in every number, order and spelling; the verdict depends on notes that were put off while parsing.",
 ["httplint/field/parsers/strict_transport_security.py:strict_transport_security"])
p("C55","What notes show",
 "Notes name the text at fault. In each section, each note shows in its variables exactly: Content-Range the length that is no number, or else the first of the range's parts that is no number, or the range without a hyphen; Range which of the five problems a range specifier has; Accept-Ranges the unit in lower case; Content-Disposition the disposition; Cross-Origin-Resource-Policy the value; Expect the unknown expectations in order; Location the resolved URI; Origin the text before the first space; Accept, Accept-Patch and Accept-Post the element's type; Accept-Language the language; Server the part; Link the target and the rev, anchor or type; Cache-Control the directive in lower case, the value and expected type, the other kind of message, and the overridden directives, each once; Referrer-Policy the unknown policy, or the last known one; Vary how many different names there are. Variables that a class does not use are not set.",
 "every message, every set of lines of these fields, and every note of their classes",
 "What a note shows depends on arbitrary texts in the lines, and which of several parts is at fault on all of them.",
 ["httplint/field/parsers/content_range.py:content_range","httplint/field/parsers/range.py:range","httplint/field/parsers/cache_control.py:cache_control","httplint/field/parsers/referrer_policy.py:referrer_policy","httplint/field/parsers/vary.py:vary","httplint/field/parsers/link.py:link","httplint/note.py:Note"])
p("C56","Permissions-Policy",
 "In a message that is not a request, each section whose Permissions-Policy lines together are read by the structured-field library as a Dictionary with at least one entry gets exactly one note of the field's classes, PERMISSIONS_POLICY_PRESENT, and otherwise none. Its sub-notes are exactly, for each feature in order: for each member of a parenthesised allowlist in order, a token other than self and src (naming it), one of self, src, * and none in quotes, or a member that is neither token nor string (as str() shows it); for a value without parentheses, one that is not the token *; and the token * for one of ten sensitive features. Each names its feature. Deviation: other sensitive features' names are not known, and * in parentheses is reported as an unknown token rather than a wildcard.",
 "every message, every set of lines, every Dictionary",
 "Dictionaries with any number of features and members of any type.",
 ["httplint/field/parsers/permissions_policy.py:permissions_policy"])
p("C57","Cross-Origin-Embedder-Policy and Cross-Origin-Opener-Policy",
 "In a message that is not a request, the notes of these fields' classes about each of the two fields and their report-only forms are exactly: for each section whose lines the structured-field library reads as an Item, first (report-only form with the other form among the headers) one duplicate note; then the note of the token the item is, or BAD_VALUE showing the value for everything else; and after both sections, one REPORT_TO_MISSING for each section whose report-to parameter (the last one given) is not among the names that the Reporting-Endpoints headers define, showing it. Report-only notes say so in their texts. Notes of these classes are about these fields only. Deviations: a report-to Python takes for false (\"\", 0, ?0) is never reported, a report-to without a value is reported as endpoint True, and tokens, strings and display strings with the same text are taken for the same endpoint.",
 "every message, every set of lines of the five fields, every result of the structured-field library",
 "Which notes are due depends on several fields, in any order, and on two sections.",
 ["httplint/field/parsers/cross_origin_embedder_policy.py","httplint/field/parsers/cross_origin_opener_policy.py","httplint/field/parsers/cross_origin_embedder_policy_report_only.py","httplint/field/parsers/cross_origin_opener_policy_report_only.py"])
p("C58","Accept-CH, Available-Dictionary and Content-Encoding",
 "Accept-CH in a message that is not a request, for each section in which the structured-field library reads a List: ACCEPT_CH_BAD_TYPE exactly if a member is no token; at the end ACCEPT_CH_IN_PLAIN_HTTP exactly if the related request's URI starts with http: in any letter case, and ACCEPT_CH_MISSING_VARY exactly if the linter found that some cache may store the response and Vary lacks a member, naming all such members in order. Available-Dictionary in a request: BAD_TYPE naming the type of an Item that is no byte sequence, and at the end MISSING_AE exactly if the Accept-Encoding headers list neither dcb nor dcz. Content-Encoding: ENCODING_UNWANTED for exactly the codings that the related request's Accept-Encoding does not list, at their lines and as written; DICTIONARY_COMPRESSED_MISSING_VARY (for each section with the field) exactly if a response's Content-Encoding headers list dcb or dcz, some cache may store it and Vary does not list available-dictionary. Deviations: Vary's names are kept in lower case and Accept-CH's are not, so a token with a capital letter is always reported as missing; text before a semicolon is not stripped, so dcb ;q=1 does not count as dcb; * in Accept-Encoding accepts nothing.",
 "every message, related request and set of lines of these fields, and every result of the structured-field library",
 "Which notes are due at the end depends on several fields of two messages and on the verdict about caching.",
 ["httplint/field/parsers/accept_ch.py:accept_ch","httplint/field/parsers/available_dictionary.py:available_dictionary","httplint/field/parsers/content_encoding.py:content_encoding"])
p("C59","NEL and Report-To",
 "In a message that is not a request, for each section in which the JSON library reads the field's lines, joined by commas and put in brackets, as an array. NEL: for each element, NEL_BAD_STRUCTURE exactly if it is no object; otherwise, in this order, NEL_MISSING_KEY or NEL_BAD_TYPE for report_to (a string) and max_age (an integer), NEL_BAD_TYPE for include_subdomains that is no boolean, and for success_fraction and failure_fraction NEL_BAD_TYPE if one is no number and NEL_BAD_VALUE if it is not from 0 to 1; of a repeated key the last value counts. At the end: NEL_REPORT_TO_MISSING naming each element's nonempty report_to that the Reporting-Endpoints headers do not define, and NEL_CONFIGURED exactly if there is an element without any of the above notes whose report_to names an endpoint that is a String and has, resolved against the base URI, no scheme or https or wss; the note names exactly these in order. Report-To: the same kind of notes for max_age, endpoints (a list) and each endpoint's url. Nothing else leads to notes of these classes. Deviations: true and false are integers and numbers; the details of success_fraction's note read itmust; an array in a line counts as an element that is no object.",
 "every message, every set of lines of these fields and of Reporting-Endpoints, every result of the JSON and structured-field libraries, and every resolution of URLs",
 "The elements of all lines of the field count, together with other headers and the base URI.",
 ["httplint/field/parsers/nel.py:nel","httplint/field/parsers/report_to.py:report_to","httplint/field/json_field.py:JsonField"])
p("C60","Content-Security-Policy",
 "In a message that is not a request there is one CONTENT_SECURITY_POLICY note for each of Content-Security-Policy and Content-Security-Policy-Report-Only and each section in which the field has a member, about that field, in the order of the fields and sections. A member is a policy: its directives are its parts between semicolons, a name in lower case up to the first space and a value; the first of each name is in force. The note's sub-notes are exactly: for each policy with repeated names, CSP_DUPLICATE_DIRECTIVE listing the repeated ones; CSP_DEPRECATED_REPORT_URI if a report-uri is in force; and CSP_WIDE_OPEN, CSP_UNSAFE_INLINE, CSP_UNSAFE_EVAL and CSP_HTTP_URI listing, if there are any, all directives in force that are script-src, style-src or object-src with the word *, or contain 'unsafe-inline', or 'unsafe-eval', or have the word http:. CSP_REPORT_TO_MISSING comes for each report-to in force whose value is no name the Reporting-Endpoints headers define. The parsed value is the list of the policies' directives in force. Deviations: all CSP_REPORT_TO_MISSING sub-notes are put under the first CONTENT_SECURITY_POLICY note of the message, whichever field they are about; a member without any directive counts as a policy; 'unsafe-inline' counts anywhere in a value, even within another word.",
 "every message, every set of lines of both fields and of Reporting-Endpoints in headers and trailers, and every result of the structured-field library",
 "Where a sub-note ends up depends on other fields and on the order of all lines.",
 ["httplint/field/parsers/content_security_policy.py:content_security_policy","httplint/field/parsers/content_security_policy_report_only.py:content_security_policy_report_only"])
p("C61","Clear-Site-Data",
 "In a message that is not a request, a member of Clear-Site-Data names the text in its double quotes, or itself if it is not in quotes. For each member, at its line: CSD_EMPTY if the named text is empty, CSD_UNKNOWN_VALUE showing it if it is not one of cache, cookies, storage, executionContexts and *, and nothing else. For each section with the field, about the field: CSD_UNQUOTED listing the known values given without quotes, in order, if there are any; then CSD_EMPTY if there is no member at all, otherwise CSD_PRESENT listing, in order, the known values named that are not in the list of unquoted ones, if there are any. No other notes of these classes are reported. The field's value is the list of the named texts.",
 "every message, every set of lines of the field in headers and trailers",
 "The notes at the end depend on the members of all lines, quoted and unquoted, in order.",
 ["httplint/field/parsers/clear_site_data.py:clear_site_data", "httplint/field/list_field.py:HttpListField"])
p("C62","Date, Last-Modified and Sunset against the clock",
 "A start time of 0 counts as no start time, and a date that names the second 0 counts as no date. Response with a start time and a Date line whose first value is an HTTP date: let d be the date, n the start time truncated to whole seconds and a the Age seen (the first Age value if it is a whole number of at least 0, otherwise 0). If a is over 5 and n - d is under 5, AGE_PENALTY is reported about Date and Age; otherwise, if d + a - n is more than 5 away from 0, DATE_INCORRECT with that skew; otherwise DATE_CORRECT. Last-Modified whose first value is an HTTP date, not in a request: it is compared with the Date seen or, when none is seen, with the start time (untruncated; with neither, nothing is reported): LM_FUTURE if it is later, otherwise LM_PRESENT, showing the two times. Sunset, not in a request and with a start time: SUNSET_PAST if the start time is later than it. Each section (headers, trailers) is judged separately, and no other notes of these classes are reported. What a header sees of Age or Date is only what stands in the header lines before its own first line; a trailer sees all the header lines; trailer lines are never seen.",
 "every message, start time, set of header and trailer lines in any order and any spelling of the dates",
 "The verdict depends on the clock, two fields and the order of all lines.",
 ["httplint/field/parsers/date.py:date", "httplint/field/parsers/last_modified.py:last_modified", "httplint/field/parsers/sunset.py:sunset", "httplint/field/utils.py:parse_http_date", "httplint/field/section.py:FieldSection.process"])
p("C63","Content and its Content-Type",
 "For a response whose content was looked at (the linter was not told there is none; no HEAD request; status not 204, 205, 206, 304 or 100 to 198): CONTENT_TYPE_MISMATCH is reported exactly when the sniffer, given the first bytes of the content and the type of the first Content-Type line, names a different type, unless the declared type is text/html and the sniffed one an RSS or Atom feed; the note shows both. The charset in force is utf-8 for application/json, text/json and subtypes ending in +json (a charset parameter other than that is not used), and the charset parameter for text/*; there is none otherwise. If it is known and the sample holds a byte of 128 or more: CHARSET_UNDECODABLE when the sample does not decode (showing the detector's guess or `unknown`), otherwise a mismatch note when the detector is at least half sure of another codec and the two codecs do not read the sample as the same text: CHARSET_IMPLICIT_MISMATCH if the type is always UTF-8 and no charset is given, CHARSET_MISMATCH otherwise; nothing else of these classes. Requests never get these notes. character_encoding is the charset parameter if its codec is known, None otherwise.",
 "every message, content and chunking, and every behaviour of the codecs, the sniffer and the charset detector under which linting does not raise",
 "It relates the content, the status, the header and three external functions; tests sample a few pairs.",
 ["httplint/content_type.py:verify_content_type", "httplint/charset.py:verify_charset", "httplint/charset.py:_canonical", "httplint/message.py:HttpMessageLinter.process_headers", "httplint/field/parsers/content_type.py:content_type"])
p("C64","Content-Length beside Transfer-Encoding",
 "CL_AND_TE_PRESENT is reported about Content-Length once for each section (headers, trailers) whose first Content-Length line holds an integer (as in C29) while a Transfer-Encoding line stands among the header lines before it; for Content-Length in the trailers, anywhere in the header lines. It is reported in no other case: not when Transfer-Encoding comes after Content-Length, nor when Transfer-Encoding is itself a trailer, nor when the first Content-Length is no integer.",
 "every message and every set and order of header and trailer lines",
 "The verdict depends on two fields and on the order of all lines.",
 ["httplint/field/parsers/content_length.py:content_length.evaluate", "httplint/field/section.py:FieldSection.process"])
p("C65","Fields that can be removed",
 "UNNECESSARY_HEADER is reported exactly once for each element of each line of TCN and of the twelve fields x-aspnet-version, x-aspnetmvc-version, x-powered-by, x-generator, x-drupal-cache, x-varnish, x-mod-pagespeed, x-pingback, x-runtime, x-rack-cache, x-content-encoded-by, x-backend-server, in any letter case, in headers and trailers, if the line is processed (TCN: not in requests); in the order of the lines, about the line, with header_name as the first line of that field in the section spells it. A line whose value has no element (an empty one) gives none, and no other field gives one.",
 "every message, and every set of header and trailer lines",
 "The number, order and text of the notes depend on all lines, through the handler that the first line of a field created.",
 ["httplint/field/unnecessary.py:UnnecessaryField.parse", "httplint/field/parsers/tcn.py:tcn.parse", "httplint/field/finder.py:HttpFieldFinder"])
p("C66","What the structured fields' notes show",
 "For each section, the notes reported for Deprecation, Accept-Query, Reporting-Endpoints, Speculation-Rules, CDN-Cache-Control, Use-As-Dictionary, Cache-Status and Proxy-Status are, in order, those due for the combined value, with exactly these values: Deprecation's date (as Python prints it, a T in place of the blank) or the type found (\"Boolean False\" for ?0); Accept-Query's text in lower case with the reference of the field, or the text of a member that is no word; the endpoint's name, the URL as received, the rejected value and its type; the CDN directive in lower case with \"no value\", \"integer\" or \"a string\"; for Use-As-Dictionary the VALUE of the parameter (its name is not shown), the expected type and the type found; for Cache-Status and Proxy-Status the parameter and its value for each unknown or not allowed parameter, then one note whose status has for each member its name in bold and a line for each parameter: the text of the parameter's table row with its value, the text of its value, or the parameter literally when it is unknown, not allowed or has no text. A value ?1 that the row would quote leaves \"%s\" in the text.",
 "every message, and every set of header and trailer lines; every answer of the structured field library",
 "The values depend on every member and parameter of a value of any size, on which member of a name wins, and on all rows of the tables.",
 ["httplint/field/parsers/deprecation.py", "httplint/field/parsers/accept_query.py", "httplint/field/parsers/reporting_endpoints.py", "httplint/field/parsers/speculation_rules.py", "httplint/field/parsers/cdn_cache_control.py", "httplint/field/parsers/use_as_dictionary.py", "httplint/field/parsers/cache_status.py", "httplint/field/parsers/proxy_status.py", "httplint/field/utils.py:check_sf_params"])
p("C67","What the general notes about fields show",
 "For each section the notes about syntax, deprecated fields, sizes, duplicate keys, structured fields that do not parse and bad JSON are, in order: for every processed line its deprecation note with the reference of the field (for a deprecated field without a module, that of the table), for every element of a list field that does not fit its grammar one note - with the element, its first invalid character, the position of it counted from 1 and an excerpt of at most 20 characters on each side with a caret below that position, or, when no beginning of the element is a word of the grammar, the bare note if the field asks for it - and the exact size of a line over 8192 bytes; then the exact size of a section over 32768 bytes; then for every field, in the order of first appearance, the bare syntax note of a single value that does not fit (only the FIRST line is looked at), the keys the structured field library found twice with their text, the problem it reports with an excerpt of at most 35 characters on each side of the position it reports (of the combined value, without surrounding white space), or the message of the JSON decoder. Each about its line, its field or the block, and nothing else.",
 "every message of every type, and every set of header and trailer lines, of any number and size; every answer of the structured field library and the JSON decoder",
 "The notes depend on the whole text of every line, on all grammars, and on positions in values of any length.",
 ["httplint/field/singleton_field.py:SingletonField", "httplint/field/structured_field.py:StructuredField", "httplint/field/json_field.py:JsonField", "httplint/field/section.py:FieldSection.process", "httplint/field/__init__.py:HttpField", "httplint/field/list_field.py:HttpListField.handle_input"])
p("C68","What the notes about caching show",
 "For a response the notes about caching are, in a fixed order, exactly those the caching rules call for, and each is about, and shows, what the verdict rests on: the age note is about Age and Date and shows the exact age; the freshness notes are about Date, then Expires (when it counts and the time of the response is known), then Cache-Control once for max-age and once for s-maxage, and show the lifetime(s) in whole seconds, the whole seconds between the age and the end of each lifetime WITHOUT their direction, the exact age, and when the two lifetimes differ, for each kind of cache whether the response is fresh or stale; the note about a cacheable response to an authenticated request names the first of public, must-revalidate and s-maxage that is present; the note added to an uncacheable request names its method, is about the method, and is the only note added to the request.",
 "every response with every set of header and trailer lines, every status, every time it was received at, and every request it belongs to or none",
 "The spans are sums and differences of dates, ages and directives over unbounded integers and rational clocks, and which fields a verdict rests on depends on the whole header block.",
 ["httplint/cache.py:ResponseCacheChecker", "httplint/util.py:RelativeTime"])
p("C69","What the notes about Set-Cookie show",
 "The notes about Set-Cookie are, for each section, in order: the note about names used more than once (with them, in alphabetical order) and the note about hardened cookies (with their names), about the field; then for every Set-Cookie line, each about its line: the note of a line without name and value, with no variable, or else, each with the name of the cookie, too large a cookie, too large a value (with its length: its decimal digits in groups of three with commas, and \"bytes\"), for every attribute in order its repetition (with the attribute as it is spelled here), an Expires that is no date (with the reason), an empty, zero-padded or non-numeric Max-Age, the FIRST lifetime over 400 days of the line (with the span from the time of the response to Expires, or that of Max-Age; without direction), an empty Domain, a SameSite of unknown value (with the attribute's spelling and the value), Priority, Version, an unknown attribute (with it), and last SameSite=None or Partitioned without Secure and a name prefix without Secure, with the wrong Path or with a Domain (once per Domain). A Max-Age that Python cannot read ends the line there. No other note of that field exists.",
 "every response, with every base URI, time, number and content of header and trailer lines, in any letter case",
 "The notes and what they show depend on every attribute of lines of any length, on their order, and on all lines of the section.",
 ["httplint/field/parsers/set_cookie.py:loose_parse", "httplint/field/parsers/set_cookie.py:_process_cookie_attribute", "httplint/field/parsers/set_cookie.py:check_prefixes", "httplint/field/parsers/set_cookie.py:set_cookie.evaluate"])
p("C70","Extended parameters are read as RFC 8187 says",
 "Parameters (a token name, '=', a token or quoted-string, in optional whitespace, joined by the delimiter) parse without an exception whether or not their names end in an asterisk. The result gives every lower-cased name the last value a parameter of that name has: for a name without asterisk the token or the unescaped content of the quotes; for a name with one, if the field allows it there, the percent-decoded text of a value (without its quotes, if it has them) of the form charset'language'text with exactly two apostrophes and the charset UTF-8 in any case, and no entry otherwise. The notes are, for every parameter in order: that its name has an entry already; that the value is in apostrophes (with it and what is between them); and for a name with asterisk either that it is not allowed here (with the name without asterisk), or that it is quoted, followed by at most one of: not of that form, no charset, another charset (with it, in lower case). No other note exists. For Content-Disposition the rules about the file name hold of the last such value of filename, and of filename* as decoded.",
 "every list of such parameters, of any length, with any whitespace around them, every delimiter, and every rule of the field about asterisks",
 "Which value wins and which repetitions are noted depend on all parameters of a list of any length, and on values with any number of apostrophes and escapes.",
 ["httplint/field/utils.py:parse_params", "httplint/field/utils.py:split_string", "httplint/field/parsers/content_disposition.py:content_disposition.evaluate"])
p("C71","What the values of fields are",
 "The value of a field in a section is as follows. For 25 fields that may occur once (among them Authorization, Host, If-Range, Referer, Retry-After, User-Agent) it is the text of the first line; for X-Frame-Options that text in upper case; for Access-Control-Allow-Credentials 'true' if it is that, else None; for ETag whether it begins with W/ and the unquoted rest; for Content-Disposition and Content-Type the name before the semicolon in lower case and the parameters after it. For 21 list fields (among them Allow, Connection, If-Match, If-None-Match, Upgrade, Via, Warning) it is the list of members of all lines in order; for six more (among them Accept-Ranges, Pragma, Content-Language) these in lower case; for Accept-Encoding, TE, Transfer-Encoding, Accept-Patch, Accept-Post, Server-Timing and Link the members' names (in lower case, except Server-Timing's metrics and Link's targets, which lose their angle brackets) with their parameters; for Keep-Alive the names in lower case with the unquoted values; for Alt-Svc the members that are 'clear' or have an equals sign; for Clear-Site-Data the members without quotes. Cookie has for each line the list of its name-value pairs. Deprecated and unnecessary fields have None for every member; fields httplint does not know have an empty list. No field without a line has a value.",
 "every message, with every number, order and content of header and trailer lines, in any letter case, and every such field that is processed in that kind of message",
 "The value depends on all lines of the field, on quoting and whitespace in lines of any length, and must not depend on any other field or on the content.",
 ["httplint/field/parsers/*:parse", "httplint/field/singleton_field.py:SingletonField", "httplint/field/list_field.py:HttpListField", "httplint/field/broken_field.py:BrokenField", "httplint/field/parsers/etag.py:etag.parse", "httplint/field/parsers/cookie.py:cookie.parse", "httplint/field/parsers/keep_alive.py:keep_alive.parse"])
p("C72","What the notes about preflights, Server and pre-check/post-check show",
 "Of the notes about CORS preflights a linted request has, in this order and no others: that it is a preflight, if its method is OPTIONS and it has Origin and Access-Control-Request-Method; and, if it has Access-Control-Request-Method or Access-Control-Request-Headers: a note that shows 'Access-Control-Request-Method' and the method, if the method is not OPTIONS; one that shows 'Access-Control-Request-Method' if Origin is missing (even if only Access-Control-Request-Headers was sent); one that shows 'Access-Control-Request-Headers' if Access-Control-Request-Method is missing. A response has: that it answers a preflight, if its request is one; otherwise, if it has any of Access-Control-Allow-Headers, -Methods and Access-Control-Max-Age, one note with the canonical names of those it has, in that order and with commas; and one if the value of Access-Control-Allow-Origin contains a space or comma. A note about a long Server member shows the member and its length in characters, with commas between groups of three digits and ' bytes' after it, and is there only if it is longer than 64 characters. A note about pre-check and post-check together shows the numbers of the last member that gives one for each; the second is not zero and not greater than the first.",
 "every linted request and response that ends without an error, with every set of fields, spellings, order of lines and related request, and Server members and Cache-Control lists of any length",
 "The notes depend on all fields of a message and of its request together, on lists of any length, and on how the spelling of a name on the wire is turned into its canonical form.",
 ["httplint/field/cors.py:check_preflight_request", "httplint/field/cors.py:check_preflight_response", "httplint/field/parsers/server.py:server.parse", "httplint/field/parsers/cache_control.py:cache_control.evaluate", "httplint/util.py:f_num"])
p("C73","The values of Content-Encoding, Location, Strict-Transport-Security, NEL and Report-To",
 "The value of Content-Encoding is the list of its members, of all lines in order, in lower case, whether or not the request asked for them. The value of Location is the text of its first line if that is a URI or can be resolved against the base URI of the linter, and None if it can not. The value of Strict-Transport-Security is a record of the number of the first max-age directive of the first line (None if that directive has no number, even if a later one has), and of whether directives named includeSubDomains and preload are there, with or without a value. The value of NEL and Report-To is the list that the JSON library reads from all lines joined with commas and put in brackets, and None if it is not JSON. Without a line there is no value.",
 "every message, with every number, order, spelling and content of header and trailer lines, every related request and base URI, and every behaviour of the JSON and URL libraries",
 "The value depends on all lines, on directives in any order and number, and must not depend on any other field, on the related request or on the content.",
 ["httplint/field/parsers/content_encoding.py:content_encoding.parse", "httplint/field/parsers/location.py:location.parse", "httplint/field/parsers/strict_transport_security.py:strict_transport_security.parse", "httplint/field/json_field.py:JsonField.finish", "httplint/field/parsers/nel.py:nel", "httplint/field/parsers/report_to.py:report_to"])
p("C74","The categories notes are filed under",
 "Every note of a kind with a category other than General has that category. The general notes about fields of the kinds REQUEST_HDR_IN_RESPONSE, RESPONSE_HDR_IN_REQUEST, FIELD_DEPRECATED, BAD_SYNTAX_DETAILED, STRUCTURED_FIELD_PARSE_ERROR and BAD_JSON are about a line or a field of the message (as their subject says) and have the category of that field; for a deprecated field without a module of its own that of the table of deprecated fields. BAD_SYNTAX has the category of its field if it is about a line of a list field, and General if it is about a field with a single value. The other general notes about fields (names and values that are not ASCII, names that are not tokens, sizes, repeated single fields, repeated keys) are General, and so is every general note of the module of a single field, except the two about dates (BAD_DATE_SYNTAX, DATE_OBSOLETE), which are about a Date, Expires, Last-Modified or Sunset field of the message and have its category.",
 "every message, with every top line, every number, order, spelling and content of header and trailer lines and body chunks, every related message and every behaviour of the libraries",
 "The category depends on the field's class, found by name among some 190 fields and tables, and must not be changed by the rest of the message, by sub-notes added later, or by other fields.",
 ["httplint/note.py:Notes.add", "httplint/field/__init__.py:HttpField.pre_check", "httplint/field/deprecated.py:DeprecatedField.pre_check", "httplint/field/list_field.py:HttpListField.handle_input", "httplint/field/singleton_field.py:SingletonField.finish", "httplint/field/structured_field.py:StructuredField.finish", "httplint/field/json_field.py:JsonField.finish"])
