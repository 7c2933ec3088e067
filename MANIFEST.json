{
 "claims": [
  {
   "property": "C01",
   "status": "proved",
   "theorems": [
    "C01_chunking",
    "C01_values",
    "C01_length_hash",
    "C01_no_coding",
    "C01_reachable",
    "C01_refuted"
   ],
   "note": "for whole runs; undo_good says what it is for a body to be free of coding errors, within the limit, with streaming decompressors; C01_refuted is the deviation for corrupt bodies"
  },
  {
   "property": "C02",
   "status": "proved",
   "theorems": [
    "C02_sample",
    "C02_plain"
   ],
   "note": "any chunks, any decoders"
  },
  {
   "property": "C07",
   "status": "proved",
   "theorems": [
    "C07_add",
    "C07_history"
   ],
   "note": ""
  },
  {
   "property": "C08",
   "status": "proved",
   "theorems": [
    "C08_pieces",
    "C08_count",
    "C08_library"
   ],
   "note": ""
  },
  {
   "property": "C25",
   "status": "proved",
   "theorems": [
    "C25_handover",
    "C25_partial_header",
    "C25_bad_header"
   ],
   "note": ""
  },
  {
   "property": "C26",
   "status": "proved",
   "theorems": [
    "C26_decoder",
    "C26_message"
   ],
   "note": ""
  },
  {
   "property": "C27",
   "status": "proved",
   "theorems": [
    "C27_undo"
   ],
   "note": "for bodies that are well formed in their codings (undo_good), any number of codings, unsupported ones passed through"
  },
  {
   "property": "C15",
   "status": "proved",
   "theorems": [
    "C15_split"
   ],
   "note": "elements are any mix of characters other than quote and comma and well-formed quoted strings"
  },
  {
   "property": "C16",
   "status": "proved",
   "theorems": [
    "C16_round_trip",
    "C16_quoted",
    "C16_unquoted"
   ],
   "note": ""
  },
  {
   "property": "C17",
   "status": "proved",
   "theorems": [
    "C17_params",
    "C17_repeats"
   ],
   "note": "for name=value parameters whose name does not end in an asterisk (extended parameters are modelled but outside this property)"
  },
  {
   "property": "C29",
   "status": "proved",
   "theorems": [
    "C29_value",
    "C29_age_notes",
    "C29_content_length_notes",
    "C29_max_age_notes",
    "C29_age",
    "C29_content_length",
    "C29_max_age",
    "C29_digits",
    "C29_refuted"
   ],
   "note": "int_text is what Python int() reads; C29_refuted is the deviation from 1*DIGIT"
  },
  {
   "property": "C38",
   "status": "proved",
   "theorems": [
    "C38_malformed",
    "C38_names",
    "C38_value"
   ],
   "note": "names that are not tokens are left to the field's syntax check unless check_token is set, as in the code"
  },
  {
   "property": "C28",
   "status": "proved",
   "theorems": [
    "C28_imf",
    "C28_rfc850",
    "C28_asctime",
    "C28_early",
    "C28_bad",
    "C28_deviations"
   ],
   "note": "All strings are covered: the three forms (letter case ignored, one trailing newline allowed) against a from-scratch calendar, everything else rejected. Deviations a user may not expect are in the statement and in C28_deviations."
  },
  {
   "property": "C03",
   "status": "proved",
   "theorems": [
    "C03_verdict"
   ],
   "note": "over whole sessions (lint) that did not raise; a Content-Length that could not be parsed counts as received and gives CL_INCORRECT, as in the code"
  },
  {
   "property": "C04",
   "status": "proved",
   "theorems": [
    "C04_notes",
    "C04_bytes"
   ],
   "note": "over whole sessions that did not raise"
  },
  {
   "property": "C05",
   "status": "proved",
   "theorems": [
    "C05_not_allowed",
    "C05_not_defined"
   ],
   "note": "over whole sessions that did not raise"
  },
  {
   "property": "C06",
   "status": "proved",
   "theorems": [
    "C06_renders",
    "C06_times",
    "C06_untimed",
    "C06_not_allowed",
    "C06_refuted"
   ],
   "note": "C06_refuted: the two ways of failing do occur"
  },
  {
   "property": "C32",
   "status": "proved",
   "theorems": [
    "C32_no_raise",
    "C32_easy",
    "C32_refuted_name",
    "C32_refuted_flag",
    "C32_refuted_url",
    "C32_refuted_json",
    "C32_refuted_charset",
    "C32_refuted_age",
    "C32_refuted_float"
   ],
   "note": "C32_easy is the version with only hypotheses the documented library functions meet; the library functions themselves are parameters"
  },
  {
   "property": "C23",
   "status": "proved",
   "theorems": [
    "C23_status"
   ],
   "note": "for every class of note of status.py: reported iff its rule in StatusSpec.v holds, and at most once; over whole sessions that did not raise"
  },
  {
   "property": "C24",
   "status": "proved",
   "theorems": [
    "C24_request",
    "C24_response",
    "C24_origin",
    "C24_shown"
   ],
   "note": "every run without an exception; the origin theorem for names spelled with hyphens"
  },
  {
   "property": "C35",
   "status": "proved",
   "theorems": [
    "C35_request",
    "C35_refuted"
   ],
   "note": "C35_refuted shows the deviation named in the statement"
  },
  {
   "property": "C37",
   "status": "proved",
   "theorems": [
    "C37_status_line",
    "C37_three_digits"
   ],
   "note": ""
  },
  {
   "property": "C09",
   "status": "proved",
   "theorems": [
    "C09_text",
    "C09_encoding"
   ],
   "note": "over whole sessions that did not raise; a line's number in its subject is the number of processed lines before it"
  },
  {
   "property": "C11",
   "status": "proved",
   "theorems": [
    "C11_recase",
    "C11_handlers",
    "C11_description"
   ],
   "note": "recasing every name changes no parsed value and no note of the field framework"
  },
  {
   "property": "C12",
   "status": "proved",
   "theorems": [
    "C12_class",
    "C12_generic",
    "C12_canonical",
    "C12_aliases_refuted"
   ],
   "note": "C12_aliases_refuted shows the dead aliases named in the statement"
  },
  {
   "property": "C13",
   "status": "proved",
   "theorems": [
    "C13_first",
    "C13_repeat"
   ],
   "note": ""
  },
  {
   "property": "C14",
   "status": "proved",
   "theorems": [
    "C14_list",
    "C14_structured"
   ],
   "note": ""
  },
  {
   "property": "C18",
   "status": "proved",
   "theorems": [
    "C18_notes",
    "C18_value"
   ],
   "note": ""
  },
  {
   "property": "C19",
   "status": "proved",
   "theorems": [
    "C19_notes",
    "C19_value",
    "C19_silent",
    "C19_refuted"
   ],
   "note": "C19_refuted shows the deviation named in the statement"
  },
  {
   "property": "C33",
   "status": "proved",
   "theorems": [
    "C33_values",
    "C33_notes",
    "C33_general",
    "C33_refuted"
   ],
   "note": "C33_notes holds for any two runs in which the field has the same values, however other fields change; order-sensitive fields are listed in [social]; C33_refuted is the deviation"
  },
  {
   "property": "C36",
   "status": "proved",
   "theorems": [
    "C36_field",
    "C36_section"
   ],
   "note": ""
  },
  {
   "property": "C40",
   "status": "proved",
   "theorems": [
    "C40_case",
    "C40_exact"
   ],
   "note": ""
  },
  {
   "property": "C41",
   "status": "proved",
   "theorems": [
    "C41_known",
    "C41_unknown"
   ],
   "note": "names of ASCII or Latin-1 characters, default locale"
  },
  {
   "property": "C20",
   "status": "proved",
   "theorems": [
    "C20_flags",
    "C20_notes",
    "C20_request",
    "C20_refuted"
   ],
   "note": "C20_refuted shows the deviation named in the statement; rules per class in CacheSpec.v"
  },
  {
   "property": "C21",
   "status": "proved",
   "theorems": [
    "C21_age"
   ],
   "note": "times are exact rationals: float rounding is not modelled"
  },
  {
   "property": "C22",
   "status": "proved",
   "theorems": [
    "C22_lifetimes",
    "C22_verdict",
    "C20_notes",
    "C22_expires_refuted"
   ],
   "note": "C22_expires_refuted: without a response time Expires gives no lifetime"
  },
  {
   "property": "C30",
   "status": "proved",
   "theorems": [
    "C30_value",
    "C30_notes"
   ],
   "note": "every run without an exception; the order of the notes that come from iterating over a Python set is left open (a listing of the distinct directives); for names spelled with hyphens (an underscore spelling is a second handler of the same class)"
  },
  {
   "property": "C31",
   "status": "proved",
   "theorems": [
    "C31_value",
    "C31_notes"
   ],
   "note": "every run of a response (or plain message); in a request Vary is misplaced: C19"
  },
  {
   "property": "C10",
   "status": "proved",
   "theorems": [
    "C10_offsets",
    "C10_one_line"
   ],
   "note": "Stated with the numbering of processed lines; which general notes are reported at which offset is exact in C09, C12, C18, C19, C36."
  },
  {
   "property": "C34",
   "status": "proved",
   "theorems": [
    "C34_request_line",
    "C34_request_error",
    "C34_status_line",
    "C34_status_error",
    "C34_print",
    "C34_response",
    "C34_mode_refuted",
    "C34_no_request"
   ],
   "note": "The thor HTTP parser that reads stdin and argparse are not modelled: headers, body chunks and trailers are given, and an option value is one of the documented choices; output is in the default locale."
  },
  {
   "property": "C42",
   "status": "proved",
   "theorems": [
    "C42_default",
    "C42_variables",
    "C42_renders",
    "C42_header",
    "C42_textless"
   ],
   "note": "CONTENT_NOT_ALLOWED's summary cannot be read in any locale (C06_not_allowed); the translated message_type, category titles and relative times are values or titles outside the templates and are not modelled; gettext's fallback from a name such as es_MX to es is not modelled."
  },
  {
   "property": "C43",
   "status": "proved",
   "theorems": [
    "C43",
    "C43_locales",
    "C43_refuted"
   ],
   "note": "The deviations are part of the statement; C43_refuted shows three of them with a tag in the detail. A code span is modelled as what is between a backtick and the next one in the same paragraph; the Markdown renderer itself is not modelled."
  },
  {
   "property": "C39",
   "status": "proved",
   "theorems": [
    "C39_order",
    "C39_exchange",
    "C39_observed",
    "C20_request"
   ],
   "note": "Set iteration order is the parameter e_rank of the environment; C39_ex shows that the order of notes and the text of CC_CONFLICTING do vary"
  },
  {
   "property": "C44",
   "status": "proved",
   "theorems": [
    "C44_frame_options",
    "C44_content_type_options",
    "C44_resource_policy",
    "C44_referrer_policy"
   ],
   "note": ""
  },
  {
   "property": "C45",
   "status": "proved",
   "theorems": [
    "C45_content_range",
    "C45_content_range_rules",
    "C45_content_range_value",
    "C45_range",
    "C45_range_rules",
    "C45_range_value",
    "C45_accept_ranges"
   ],
   "note": "RangeSpec.v states the rules; the _rules theorems show that they give one answer for each text"
  },
  {
   "property": "C46",
   "status": "proved",
   "theorems": [
    "C46_origin",
    "C46_origin_rules",
    "C46_origin_groups",
    "C46_origin_value",
    "C46_location",
    "C46_referer",
    "C46_expect",
    "C46_max_forwards"
   ],
   "note": "urllib.parse.urlsplit and urljoin are parameters of the environment; OriginSpec.v states the rules"
  },
  {
   "property": "C47",
   "status": "proved",
   "theorems": [
    "C47_transfer_encoding"
   ],
   "note": "parameters of an element are those of C17; offers says what the related request's TE header lists"
  },
  {
   "property": "C48",
   "status": "proved",
   "theorems": [
    "C48_disposition",
    "C48_written"
   ],
   "note": "C48_written makes the parameters explicit with C17"
  },
  {
   "property": "C49",
   "status": "proved",
   "theorems": [
    "C49_cookie_lines",
    "C49_cookie_names",
    "C49_cookie_value",
    "C49_expires"
   ],
   "note": "C49_expires covers the weekday-first date forms; other texts the loose parser takes or refuses are described by the model only (loose_date_parse in CookieSpec's rules)"
  },
  {
   "property": "C50",
   "status": "proved",
   "theorems": [
    "C50_accept",
    "C50_language",
    "C50_media_types",
    "C50_values",
    "C50_quality",
    "C50_written"
   ],
   "note": "float() is modelled for ASCII and its digits, see PyLib"
  },
  {
   "property": "C51",
   "status": "proved",
   "theorems": [
    "C51_alt_svc",
    "C51_content_language",
    "C51_pragma",
    "C51_via",
    "C51_server",
    "C51_server_timing"
   ],
   "note": ""
  },
  {
   "property": "C52",
   "status": "proved",
   "theorems": [
    "C52_link",
    "C52_hints"
   ],
   "note": "hints: of runs whose hint targets can be resolved and split by urllib (others raise)"
  },
  {
   "property": "C53",
   "status": "proved",
   "theorems": [
    "C53_deprecation",
    "C53_accept_query",
    "C53_cache_groups",
    "C53_invalidation",
    "C53_reporting_endpoints",
    "C53_speculation_rules",
    "C53_cdn_cache_control",
    "C53_use_as_dictionary",
    "C53_cache_status",
    "C53_proxy_status"
   ],
   "note": "what the structured-field library reads in a text is a parameter of the environment; the rules for URLs are for values whose URLs urllib can join and split, those of Cache-Status for values without hit=?0, stored=?0, collapsed=?0: the code raises on the others"
  },
  {
   "property": "C54",
   "status": "proved",
   "theorems": [
    "C54_hsts"
   ],
   "note": "heard_deep (KidSpec.v) shows notes with their sub-notes; int_text (NumLemmas) says what int() reads"
  },
  {
   "property": "C55",
   "status": "proved",
   "theorems": [
    "C55_content_range",
    "C55_range",
    "C55_accept_ranges",
    "C55_disposition",
    "C55_resource_policy",
    "C55_location",
    "C55_origin",
    "C55_accept",
    "C55_media_types",
    "C55_language",
    "C55_server",
    "C55_link",
    "C55_expect",
    "C55_referrer_policy",
    "C55_vary",
    "C55_cache_control"
   ],
   "note": "ShowSpec.v says what each class shows; the theorems of C44-C52 say which notes there are. Added when a wrong program (M80) that shows the wrong part of a Content-Range was not caught"
  },
  {
   "property": "C56",
   "status": "proved",
   "theorems": [
    "C56_permissions_policy"
   ],
   "note": "what the structured-field library reads in a text is a parameter of the environment"
  },
  {
   "property": "C57",
   "status": "proved",
   "theorems": [
    "C57_embedder",
    "C57_opener",
    "C57_embedder_report_only",
    "C57_opener_report_only",
    "C57_subjects"
   ],
   "note": "the structured-field library is a parameter of the environment; Reporting-Endpoints names in the headers have no surrounding whitespace"
  },
  {
   "property": "C58",
   "status": "proved",
   "theorems": [
    "C58_accept_ch",
    "C58_available_dictionary",
    "C58_content_encoding",
    "C58_dictionary_vary"
   ],
   "note": "storable reads the linter's caching attribute, whose value is C20-C23's subject; what the request's Accept-Encoding lists (offers) is what its linter kept: C50_values"
  },
  {
   "property": "C59",
   "status": "proved",
   "theorems": [
    "C59_nel",
    "C59_report_to"
   ],
   "note": "for NEL's notes at the end the URLs of the defined endpoints must be ones urljoin and urlsplit do not raise on; otherwise lint raises (C01)"
  },
  {
   "property": "C60",
   "status": "proved",
   "theorems": [
    "C60_policies",
    "C60_values"
   ],
   "note": "word_of, occurs and in_force in CspSpec.v say what a directive is; hyphened: no line spells a name with underscores"
  },
  {
   "property": "C61",
   "status": "proved",
   "theorems": [
    "C61_clear_site_data",
    "C61_values"
   ],
   "note": "hyphened: no line spells the name with underscores"
  },
  {
   "property": "C62",
   "status": "proved",
   "theorems": [
    "C62_date",
    "C62_last_modified",
    "C62_sunset",
    "C62_dated_one",
    "C62_age_one"
   ],
   "note": "age/date names unpadded; the two relations of the specification are functional (C62_dated_one, C62_age_one)"
  },
  {
   "property": "C63",
   "status": "proved",
   "theorems": [
    "C63_sniff",
    "C63_charset",
    "C63_encoding",
    "C63_sniff_one",
    "C63_charset_one"
   ],
   "note": "codecs, sniffer and detector are arbitrary functions of the environment; the specification has one answer (C63_sniff_one, C63_charset_one)"
  },
  {
   "property": "C64",
   "status": "proved",
   "theorems": [
    "C64_framing"
   ],
   "note": "Content-Length not also spelled with an underscore; Transfer-Encoding unpadded"
  },
  {
   "property": "C65",
   "status": "proved",
   "theorems": [
    "C65_removable"
   ],
   "note": "of runs without a Python exception; names compared with the thirteen literal names, in lower case"
  },
  {
   "property": "C66",
   "status": "proved",
   "theorems": [
    "C66_deprecation",
    "C66_accept_query",
    "C66_reporting_endpoints",
    "C66_speculation_rules",
    "C66_cdn_cache_control",
    "C66_use_as_dictionary",
    "C66_cache_status",
    "C66_proxy_status"
   ],
   "note": "of runs without a Python exception, responses; what the library http_sf answers, and how Python prints decimals, bytes, dates and lists, is an oracle; Cache-Status where hit, stored and collapsed are not false (otherwise see C53)"
  },
  {
   "property": "C67",
   "status": "proved",
   "theorems": [
    "C67_general"
   ],
   "note": "of runs without a Python exception; which word of the grammar an invalid element begins with is that of the regular expression's greedy search: the theorem says it is one of them; what the libraries answer is an oracle; sizes are printed as in the C locale"
  },
  {
   "property": "C68",
   "status": "proved",
   "theorems": [
    "C68_shows",
    "C68_order",
    "C68_method"
   ],
   "note": "of runs without a Python exception; how a span is worded (RelativeTime, Babel) is an oracle of the environment; times are exact rationals instead of floats"
  },
  {
   "property": "C69",
   "status": "proved",
   "theorems": [
    "C69_cookies",
    "C69_commas"
   ],
   "note": "of runs without a Python exception; extends C49, which counts the notes by class; the reason a date is bad is the text of the model of loose_date_parse (its dates are C49's); urlsplit of the base URI is an oracle"
  },
  {
   "property": "C70",
   "status": "proved",
   "theorems": [
    "C70_params",
    "C70_text",
    "C70_disposition"
   ],
   "note": "extends C17 (which leaves out extended parameters) and C48; percent-decoding (urllib) is an oracle"
  },
  {
   "property": "C71",
   "status": "proved",
   "theorems": [
    "C71_single",
    "C71_list",
    "C71_cookie",
    "C71_ignored",
    "C71_unknown"
   ],
   "note": "of runs without a Python exception; values of Cache-Control are C30, of numbers C29, of dates C28 and C62, of Vary C31, of Set-Cookie C49, of preferences C50, of Structured Fields C53; splitting into members is C15, unquoting C16, parameters C17 and C70"
  },
  {
   "property": "C72",
   "status": "proved",
   "theorems": [
    "C72_request",
    "C72_response",
    "C72_server",
    "C72_checks"
   ],
   "note": "of runs without a Python exception; 'has' means that a value was recorded, as in C24, which says when each class is reported. The texts of these notes are C40"
  },
  {
   "property": "C73",
   "status": "proved",
   "theorems": [
    "C73_content_encoding",
    "C73_location",
    "C73_hsts",
    "C73_json"
   ],
   "note": "of runs without a Python exception. The JSON and URL libraries are oracles of the model (DESIGN.md); Location, Strict-Transport-Security, NEL and Report-To are read in responses and bare messages only"
  },
  {
   "property": "C74",
   "status": "proved",
   "theorems": [
    "C74_filed",
    "C74_kinds",
    "C74_own",
    "C74_of_a_field",
    "C74_dates"
   ],
   "note": "of runs without a Python exception; the general notes of the modules of single fields are C74_own and C74_dates; the general notes about the whole message (of other modules) are not covered"
  }
 ]
}