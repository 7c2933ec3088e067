(** GENERATED by tools/gennotes.py from the text of /repo: do not edit.
    One constructor per [Note] subclass, with the class attributes
    [category], [level], [_summary], [_text] copied verbatim. *)
From Coq Require Import String NArith List.
Import ListNotations.
Local Open Scope string_scope.

(** note.py:41-53 *)
Inductive category := GENERAL | CONNECTION | SECURITY | CORS | COOKIES | CONNEG | CACHING | VALIDATION | RANGE.
(** note.py:55-62 *)
Inductive level := GOOD | WARN | BAD | INFO.

Inductive nid : Set :=
| DATE_CLOCKLESS (* httplint/cache.py:260-266 *)
| DATE_CLOCKLESS_BAD_HDR (* httplint/cache.py:269-276 *)
| STORE_METHOD_UNCACHEABLE (* httplint/cache.py:279-284 *)
| STORE_NO_STORE (* httplint/cache.py:287-292 *)
| STORE_PRIVATE_CC (* httplint/cache.py:295-302 *)
| STORE_PRIVATE_PUBLIC_CONFLICT (* httplint/cache.py:305-312 *)
| STORE_PRIVATE_AUTH (* httplint/cache.py:315-323 *)
| STORE_PUBLIC_AUTH (* httplint/cache.py:326-335 *)
| STORE_PUBLIC_UNNECESSARY (* httplint/cache.py:338-349 *)
| STORE_STORABLE (* httplint/cache.py:352-359 *)
| STORE_STORABLE_SHARED_ONLY (* httplint/cache.py:362-374 *)
| STORE_UNSTORABLE (* httplint/cache.py:377-387 *)
| FRESHNESS_NO_CACHE (* httplint/cache.py:390-397 *)
| FRESHNESS_NO_CACHE_NO_VALIDATOR (* httplint/cache.py:400-411 *)
| CURRENT_AGE (* httplint/cache.py:414-421 *)
| FRESHNESS_FRESH (* httplint/cache.py:424-430 *)
| FRESHNESS_SHARED_PRIVATE (* httplint/cache.py:433-447 *)
| FRESHNESS_STALE_ALREADY (* httplint/cache.py:450-464 *)
| FRESHNESS_HEURISTIC (* httplint/cache.py:467-480 *)
| FRESHNESS_NONE (* httplint/cache.py:483-497 *)
| STALE_SERVABLE (* httplint/cache.py:500-509 *)
| STALE_IF_ERROR (* httplint/cache.py:512-521 *)
| STALE_WHILE_REVALIDATE (* httplint/cache.py:524-532 *)
| FRESH_MUST_REVALIDATE (* httplint/cache.py:535-544 *)
| STALE_MUST_REVALIDATE (* httplint/cache.py:547-556 *)
| FRESH_PROXY_REVALIDATE (* httplint/cache.py:559-570 *)
| STALE_PROXY_REVALIDATE (* httplint/cache.py:573-584 *)
| CC_AND_EXPIRES (* httplint/cache.py:587-594 *)
| CHARSET_MISMATCH (* httplint/charset.py:142-150 *)
| CHARSET_IMPLICIT_MISMATCH (* httplint/charset.py:153-162 *)
| CHARSET_UNDECODABLE (* httplint/charset.py:165-174 *)
| DECOMPRESSION_LIMIT (* httplint/content_encoding.py:242-248 *)
| BAD_GZIP (* httplint/content_encoding.py:251-258 *)
| BAD_ZLIB (* httplint/content_encoding.py:261-273 *)
| BAD_BROTLI (* httplint/content_encoding.py:276-288 *)
| CONTENT_TYPE_MISMATCH (* httplint/content_type.py:7-13 *)
| FIELD_NAME_BAD_SYNTAX (* httplint/field/__init__.py:162-170 *)
| BAD_SYNTAX (* httplint/field/__init__.py:174-185 *)
| BAD_SYNTAX_DETAILED (* httplint/field/__init__.py:189-201 *)
| REQUEST_HDR_IN_RESPONSE (* httplint/field/__init__.py:204-210 *)
| RESPONSE_HDR_IN_REQUEST (* httplint/field/__init__.py:213-219 *)
| FIELD_DEPRECATED (* httplint/field/__init__.py:222-230 *)
| CORS_PREFLIGHT_REQUEST (* httplint/field/cors.py:136-144 *)
| CORS_PREFLIGHT_REQ_METHOD_WRONG (* httplint/field/cors.py:147-155 *)
| CORS_PREFLIGHT_REQ_NO_ORIGIN (* httplint/field/cors.py:158-166 *)
| CORS_PREFLIGHT_REQ_NO_METHOD (* httplint/field/cors.py:169-177 *)
| CORS_PREFLIGHT_RESPONSE (* httplint/field/cors.py:180-188 *)
| CORS_PREFLIGHT_ONLY (* httplint/field/cors.py:191-204 *)
| ACAO_MULTIPLE_VALUES (* httplint/field/cors.py:207-213 *)
| ACAC_NOT_TRUE (* httplint/field/cors.py:216-222 *)
| CORS_ORIGIN_MATCH (* httplint/field/cors.py:225-232 *)
| CORS_ORIGIN_MISMATCH (* httplint/field/cors.py:235-243 *)
| CORS_ORIGIN_NULL (* httplint/field/cors.py:246-252 *)
| CORS_ORIGIN_STAR (* httplint/field/cors.py:255-261 *)
| BAD_JSON (* httplint/field/json_field.py:35-43 *)
| BAD_Q_VALUE (* httplint/field/parsers/accept.py:66-71 *)
| ACCEPT_BAD_SYNTAX (* httplint/field/parsers/accept.py:74-81 *)
| ACCEPT_CH_IN_PLAIN_HTTP (* httplint/field/parsers/accept_ch.py:67-74 *)
| ACCEPT_CH_MISSING_VARY (* httplint/field/parsers/accept_ch.py:77-86 *)
| ACCEPT_CH_BAD_TYPE (* httplint/field/parsers/accept_ch.py:89-98 *)
| BAD_Q_VALUE_accept_language (* httplint/field/parsers/accept_language.py:67-72 *)
| ACCEPT_LANGUAGE_BAD_SYNTAX (* httplint/field/parsers/accept_language.py:75-81 *)
| ACCEPT_PATCH_BAD_SYNTAX (* httplint/field/parsers/accept_patch.py:31-38 *)
| ACCEPT_POST_BAD_SYNTAX (* httplint/field/parsers/accept_post.py:38-45 *)
| ACCEPT_QUERY_BAD_TYPE (* httplint/field/parsers/accept_query.py:55-62 *)
| ACCEPT_QUERY_BAD_SYNTAX (* httplint/field/parsers/accept_query.py:65-72 *)
| UNKNOWN_RANGE (* httplint/field/parsers/accept_ranges.py:29-37 *)
| CORS_MAX_AGE_INVALID (* httplint/field/parsers/access_control_max_age.py:38-44 *)
| CORS_MAX_AGE_NEGATIVE (* httplint/field/parsers/access_control_max_age.py:47-53 *)
| AGE_NOT_INT (* httplint/field/parsers/age.py:37-43 *)
| AGE_NEGATIVE (* httplint/field/parsers/age.py:46-52 *)
| AGE_LARGE (* httplint/field/parsers/age.py:55-62 *)
| ALTSVC_CLEAR_LIST (* httplint/field/parsers/alt_svc.py:48-54 *)
| AVAILABLE_DICTIONARY_MISSING_AE (* httplint/field/parsers/available_dictionary.py:45-56 *)
| AVAILABLE_DICTIONARY_BAD_TYPE (* httplint/field/parsers/available_dictionary.py:59-64 *)
| CC_SHOULD_NOT_HAVE_VALUE (* httplint/field/parsers/cache_control.py:201-205 *)
| CC_BAD_VALUE_TYPE (* httplint/field/parsers/cache_control.py:208-215 *)
| CC_MAX_AGE_TOO_LARGE (* httplint/field/parsers/cache_control.py:218-224 *)
| CC_MISCAP (* httplint/field/parsers/cache_control.py:227-235 *)
| CC_DUP (* httplint/field/parsers/cache_control.py:238-245 *)
| CC_CONFLICTING (* httplint/field/parsers/cache_control.py:248-258 *)
| CC_WRONG_MESSAGE (* httplint/field/parsers/cache_control.py:261-267 *)
| CHECK_SINGLE (* httplint/field/parsers/cache_control.py:270-282 *)
| CHECK_ALL_ZERO (* httplint/field/parsers/cache_control.py:285-299 *)
| CHECK_POST_BIGGER (* httplint/field/parsers/cache_control.py:302-313 *)
| CHECK_POST_ZERO (* httplint/field/parsers/cache_control.py:316-328 *)
| CHECK_POST_PRE (* httplint/field/parsers/cache_control.py:331-346 *)
| CACHE_GROUP_INVALIDATION_BAD_TYPE (* httplint/field/parsers/cache_group_invalidation.py:46-51 *)
| CACHE_GROUP_INVALIDATION_IGNORED (* httplint/field/parsers/cache_group_invalidation.py:54-60 *)
| CACHE_GROUPS_BAD_TYPE (* httplint/field/parsers/cache_groups.py:39-44 *)
| CACHE_STATUS (* httplint/field/parsers/cache_status.py:95-103 *)
| CACHE_STATUS_UNKNOWN_PARAM (* httplint/field/parsers/cache_status.py:106-112 *)
| CACHE_STATUS_BAD_PARAM_VAL (* httplint/field/parsers/cache_status.py:115-121 *)
| BAD_CDN_CC_TYPE (* httplint/field/parsers/cdn_cache_control.py:73-77 *)
| CDN_CACHE_CONTROL_PRESENT (* httplint/field/parsers/cdn_cache_control.py:80-87 *)
| CSD_PRESENT (* httplint/field/parsers/clear_site_data.py:59-68 *)
| CSD_UNKNOWN_VALUE (* httplint/field/parsers/clear_site_data.py:71-77 *)
| CSD_EMPTY (* httplint/field/parsers/clear_site_data.py:80-85 *)
| CSD_UNQUOTED (* httplint/field/parsers/clear_site_data.py:88-95 *)
| DISPOSITION_UNKNOWN (* httplint/field/parsers/content_disposition.py:47-54 *)
| DISPOSITION_OMITS_FILENAME (* httplint/field/parsers/content_disposition.py:57-66 *)
| DISPOSITION_FILENAME_PERCENT (* httplint/field/parsers/content_disposition.py:69-85 *)
| DISPOSITION_FILENAME_PATH_CHAR (* httplint/field/parsers/content_disposition.py:88-102 *)
| DICTIONARY_COMPRESSED_MISSING_VARY (* httplint/field/parsers/content_encoding.py:60-73 *)
| ENCODING_UNWANTED (* httplint/field/parsers/content_encoding.py:76-85 *)
| CONTENT_LANGUAGE_DUP (* httplint/field/parsers/content_language.py:38-45 *)
| CL_BAD_SYNTAX (* httplint/field/parsers/content_length.py:42-47 *)
| CL_AND_TE_PRESENT (* httplint/field/parsers/content_length.py:50-58 *)
| CL_TOO_LARGE (* httplint/field/parsers/content_length.py:61-67 *)
| CONTENT_RANGE_MEANINGLESS (* httplint/field/parsers/content_range.py:121-130 *)
| CONTENT_RANGE_MISSING_UNIT (* httplint/field/parsers/content_range.py:133-144 *)
| CONTENT_RANGE_INVALID_ASTERISK (* httplint/field/parsers/content_range.py:147-153 *)
| CONTENT_RANGE_MISSING_SLASH (* httplint/field/parsers/content_range.py:156-166 *)
| RANGE_MISSING_HYPHEN (* httplint/field/parsers/content_range.py:169-174 *)
| RANGE_INVALID_INTEGER (* httplint/field/parsers/content_range.py:177-182 *)
| RANGE_INVALID (* httplint/field/parsers/content_range.py:185-191 *)
| CONTENT_RANGE_UNSATISFIED_BAD_SC (* httplint/field/parsers/content_range.py:194-205 *)
| CONTENT_RANGE_UNKNOWN_LENGTH (* httplint/field/parsers/content_range.py:208-214 *)
| CONTENT_SECURITY_POLICY (* httplint/field/parsers/content_security_policy.py:182-188 *)
| CSP_UNSAFE_INLINE (* httplint/field/parsers/content_security_policy.py:191-203 *)
| CSP_UNSAFE_EVAL (* httplint/field/parsers/content_security_policy.py:206-217 *)
| CSP_HTTP_URI (* httplint/field/parsers/content_security_policy.py:220-230 *)
| CSP_DUPLICATE_DIRECTIVE (* httplint/field/parsers/content_security_policy.py:233-242 *)
| CSP_DEPRECATED_REPORT_URI (* httplint/field/parsers/content_security_policy.py:245-253 *)
| CSP_WIDE_OPEN (* httplint/field/parsers/content_security_policy.py:256-267 *)
| CSP_REPORT_TO_MISSING (* httplint/field/parsers/content_security_policy.py:270-277 *)
| COEP_REQUIRE_CORP (* httplint/field/parsers/cross_origin_embedder_policy.py:87-95 *)
| COEP_CREDENTIALLESS (* httplint/field/parsers/cross_origin_embedder_policy.py:98-107 *)
| COEP_UNSAFE_NONE (* httplint/field/parsers/cross_origin_embedder_policy.py:110-122 *)
| CROSS_ORIGIN_EMBEDDER_POLICY_BAD_VALUE (* httplint/field/parsers/cross_origin_embedder_policy.py:125-132 *)
| COEP_REPORT_TO_MISSING (* httplint/field/parsers/cross_origin_embedder_policy.py:135-143 *)
| COEP_REPORT_ONLY_DUPLICATE (* httplint/field/parsers/cross_origin_embedder_policy_report_only.py:34-40 *)
| COOP_SAME_ORIGIN (* httplint/field/parsers/cross_origin_opener_policy.py:87-95 *)
| COOP_SAME_ORIGIN_ALLOW_POPUPS (* httplint/field/parsers/cross_origin_opener_policy.py:98-106 *)
| COOP_UNSAFE_NONE (* httplint/field/parsers/cross_origin_opener_policy.py:109-120 *)
| CROSS_ORIGIN_OPENER_POLICY_BAD_VALUE (* httplint/field/parsers/cross_origin_opener_policy.py:123-130 *)
| COOP_REPORT_TO_MISSING (* httplint/field/parsers/cross_origin_opener_policy.py:133-141 *)
| COOP_REPORT_ONLY_DUPLICATE (* httplint/field/parsers/cross_origin_opener_policy_report_only.py:34-40 *)
| CORP_SAME_ORIGIN (* httplint/field/parsers/cross_origin_resource_policy.py:40-48 *)
| CORP_SAME_SITE (* httplint/field/parsers/cross_origin_resource_policy.py:51-59 *)
| CORP_CROSS_ORIGIN (* httplint/field/parsers/cross_origin_resource_policy.py:62-70 *)
| CROSS_ORIGIN_RESOURCE_POLICY_BAD_VALUE (* httplint/field/parsers/cross_origin_resource_policy.py:73-80 *)
| DATE_CORRECT (* httplint/field/parsers/date.py:45-51 *)
| DATE_INCORRECT (* httplint/field/parsers/date.py:54-70 *)
| AGE_PENALTY (* httplint/field/parsers/date.py:73-86 *)
| DEPRECATION_PAST (* httplint/field/parsers/deprecation.py:45-50 *)
| DEPRECATION_FUTURE (* httplint/field/parsers/deprecation.py:53-58 *)
| DEPRECATION_TRUE (* httplint/field/parsers/deprecation.py:61-66 *)
| DEPRECATION_BAD_TYPE (* httplint/field/parsers/deprecation.py:69-75 *)
| EXPECT_UNKNOWN (* httplint/field/parsers/expect.py:35-40 *)
| EXPECT_HTTP_1_0 (* httplint/field/parsers/expect.py:43-48 *)
| LM_FUTURE (* httplint/field/parsers/last_modified.py:43-50 *)
| LM_PRESENT (* httplint/field/parsers/last_modified.py:53-61 *)
| LINK_RESOURCE_HINTS (* httplint/field/parsers/link.py:84-97 *)
| LINK_BAD_HINT_TARGET (* httplint/field/parsers/link.py:100-106 *)
| LINK_REV (* httplint/field/parsers/link.py:109-118 *)
| LINK_BAD_ANCHOR (* httplint/field/parsers/link.py:121-129 *)
| LINK_BAD_TYPE (* httplint/field/parsers/link.py:132-140 *)
| LOCATION_UNDEFINED (* httplint/field/parsers/location.py:47-59 *)
| LOCATION_NOT_ABSOLUTE (* httplint/field/parsers/location.py:62-71 *)
| MAX_FORWARDS_IGNORED (* httplint/field/parsers/max_forwards.py:11-17 *)
| NEL_BAD_STRUCTURE (* httplint/field/parsers/nel.py:139-145 *)
| NEL_MISSING_KEY (* httplint/field/parsers/nel.py:148-153 *)
| NEL_BAD_TYPE (* httplint/field/parsers/nel.py:156-161 *)
| NEL_BAD_VALUE (* httplint/field/parsers/nel.py:164-170 *)
| NEL_CONFIGURED (* httplint/field/parsers/nel.py:173-183 *)
| NEL_REPORT_TO_MISSING (* httplint/field/parsers/nel.py:186-193 *)
| BAD_ORIGIN_SYNTAX (* httplint/field/parsers/origin.py:60-66 *)
| ORIGIN_MULTIPLE_VALUES (* httplint/field/parsers/origin.py:69-75 *)
| PERMISSIONS_POLICY_PRESENT (* httplint/field/parsers/permissions_policy.py:74-79 *)
| PERMISSIONS_POLICY_WILDCARD (* httplint/field/parsers/permissions_policy.py:82-88 *)
| PERMISSIONS_POLICY_INVALID_VALUE (* httplint/field/parsers/permissions_policy.py:91-97 *)
| PERMISSIONS_POLICY_UNKNOWN_TOKEN (* httplint/field/parsers/permissions_policy.py:100-106 *)
| PERMISSIONS_POLICY_QUOTED_KEYWORD (* httplint/field/parsers/permissions_policy.py:109-115 *)
| PERMISSIONS_POLICY_INVALID_ITEM_TYPE (* httplint/field/parsers/permissions_policy.py:118-124 *)
| PRAGMA_OTHER (* httplint/field/parsers/pragma.py:34-38 *)
| PROXY_STATUS (* httplint/field/parsers/proxy_status.py:113-121 *)
| PROXY_STATUS_UNKNOWN_PARAM (* httplint/field/parsers/proxy_status.py:124-130 *)
| PROXY_STATUS_BAD_PARAM_VAL (* httplint/field/parsers/proxy_status.py:133-139 *)
| RANGE_INVALID_range (* httplint/field/parsers/range.py:94-100 *)
| RANGE_BAD_SYNTAX (* httplint/field/parsers/range.py:103-110 *)
| REFERER_SECURE_TO_INSECURE (* httplint/field/parsers/referer.py:49-58 *)
| REFERER_SECURE_TO_DIFFERENT_ORIGIN (* httplint/field/parsers/referer.py:61-71 *)
| REFERRER_POLICY_STRICT (* httplint/field/parsers/referrer_policy.py:43-50 *)
| REFERRER_POLICY_UNSAFE (* httplint/field/parsers/referrer_policy.py:53-60 *)
| REFERRER_POLICY_UNKNOWN (* httplint/field/parsers/referrer_policy.py:63-69 *)
| REFERRER_POLICY_EMPTY (* httplint/field/parsers/referrer_policy.py:72-78 *)
| REFERRER_POLICY_MULTIPLE (* httplint/field/parsers/referrer_policy.py:81-87 *)
| REPORT_TO_BAD_STRUCTURE (* httplint/field/parsers/report_to.py:50-56 *)
| REPORT_TO_MISSING_KEY (* httplint/field/parsers/report_to.py:59-64 *)
| REPORT_TO_BAD_TYPE (* httplint/field/parsers/report_to.py:67-72 *)
| ENDPOINT_NOT_SECURE (* httplint/field/parsers/reporting_endpoints.py:44-49 *)
| BAD_REPORTING_ENDPOINT_SYNTAX (* httplint/field/parsers/reporting_endpoints.py:52-58 *)
| SERVER_TOO_LONG (* httplint/field/parsers/server.py:36-44 *)
| SERVER_TIMING_BAD_PARAM (* httplint/field/parsers/server_timing.py:61-68 *)
| SERVER_TIMING_MISSING_DUR (* httplint/field/parsers/server_timing.py:71-79 *)
| SERVER_TIMING_MISSING_DESC (* httplint/field/parsers/server_timing.py:82-90 *)
| SET_COOKIE_NO_NAME (* httplint/field/parsers/set_cookie.py:399-406 *)
| SET_COOKIE_BAD_DATE (* httplint/field/parsers/set_cookie.py:409-415 *)
| SET_COOKIE_EMPTY_MAX_AGE (* httplint/field/parsers/set_cookie.py:418-425 *)
| SET_COOKIE_LEADING_ZERO_MAX_AGE (* httplint/field/parsers/set_cookie.py:428-435 *)
| SET_COOKIE_NON_DIGIT_MAX_AGE (* httplint/field/parsers/set_cookie.py:438-445 *)
| SET_COOKIE_EMPTY_DOMAIN (* httplint/field/parsers/set_cookie.py:448-458 *)
| SET_COOKIE_NOT_SECURE (* httplint/field/parsers/set_cookie.py:461-470 *)
| SET_COOKIE_UNKNOWN_ATTRIBUTE (* httplint/field/parsers/set_cookie.py:473-480 *)
| SET_COOKIE_PRIORITY (* httplint/field/parsers/set_cookie.py:483-489 *)
| SET_COOKIE_VERSION (* httplint/field/parsers/set_cookie.py:492-503 *)
| SET_COOKIE_UNKNOWN_ATTRIBUTE_VALUE (* httplint/field/parsers/set_cookie.py:506-513 *)
| SET_COOKIE_PARTITIONED_NO_SECURE (* httplint/field/parsers/set_cookie.py:516-527 *)
| SET_COOKIE_TOO_LARGE (* httplint/field/parsers/set_cookie.py:530-537 *)
| SET_COOKIE_VALUE_TOO_LARGE (* httplint/field/parsers/set_cookie.py:540-546 *)
| SET_COOKIE_LIFETIME_TOO_LONG (* httplint/field/parsers/set_cookie.py:556-564 *)
| SET_COOKIE_PREFIX_SECURE_MISSING (* httplint/field/parsers/set_cookie.py:567-575 *)
| SET_COOKIE_PREFIX_HOST_BAD_DOMAIN (* httplint/field/parsers/set_cookie.py:578-585 *)
| SET_COOKIE_PREFIX_HOST_BAD_PATH (* httplint/field/parsers/set_cookie.py:588-595 *)
| SET_COOKIE_ATTRIBUTE_DUP (* httplint/field/parsers/set_cookie.py:598-605 *)
| SET_COOKIE_HARDENED (* httplint/field/parsers/set_cookie.py:608-617 *)
| SET_COOKIE_NAME_DUP (* httplint/field/parsers/set_cookie.py:620-628 *)
| SPECULATION_RULE_NOT_SECURE (* httplint/field/parsers/speculation_rules.py:44-49 *)
| SPECULATION_RULES_BAD_TYPE (* httplint/field/parsers/speculation_rules.py:52-59 *)
| HSTS_VALID (* httplint/field/parsers/strict_transport_security.py:154-160 *)
| HSTS_INVALID (* httplint/field/parsers/strict_transport_security.py:163-171 *)
| HSTS_NO_MAX_AGE (* httplint/field/parsers/strict_transport_security.py:174-179 *)
| HSTS_MAX_AGE_ZERO (* httplint/field/parsers/strict_transport_security.py:182-188 *)
| HSTS_SHORT_MAX_AGE (* httplint/field/parsers/strict_transport_security.py:191-196 *)
| HSTS_SUBDOMAINS (* httplint/field/parsers/strict_transport_security.py:199-205 *)
| HSTS_NO_SUBDOMAINS (* httplint/field/parsers/strict_transport_security.py:208-218 *)
| HSTS_PRELOAD (* httplint/field/parsers/strict_transport_security.py:221-231 *)
| HSTS_PRELOAD_NOT_SUITABLE (* httplint/field/parsers/strict_transport_security.py:234-243 *)
| HSTS_NO_PRELOAD (* httplint/field/parsers/strict_transport_security.py:246-255 *)
| HSTS_DUPLICATE_DIRECTIVE (* httplint/field/parsers/strict_transport_security.py:258-264 *)
| HSTS_TRAILING_SEMICOLON (* httplint/field/parsers/strict_transport_security.py:267-274 *)
| HSTS_OVER_HTTP (* httplint/field/parsers/strict_transport_security.py:277-283 *)
| HSTS_BAD_MAX_AGE (* httplint/field/parsers/strict_transport_security.py:286-292 *)
| HSTS_VALUE_NOT_ALLOWED (* httplint/field/parsers/strict_transport_security.py:295-301 *)
| SUNSET_PAST (* httplint/field/parsers/sunset.py:25-31 *)
| TRANSFER_CODING_IDENTITY (* httplint/field/parsers/transfer_encoding.py:68-76 *)
| TRANSFER_CODING_UNWANTED (* httplint/field/parsers/transfer_encoding.py:79-88 *)
| TRANSFER_CODING_PARAM (* httplint/field/parsers/transfer_encoding.py:91-100 *)
| USE_AS_DICTIONARY_BAD_TYPE (* httplint/field/parsers/use_as_dictionary.py:78-83 *)
| USE_AS_DICTIONARY_BAD_MATCH_DEST (* httplint/field/parsers/use_as_dictionary.py:86-91 *)
| VARY_ASTERISK (* httplint/field/parsers/vary.py:41-47 *)
| VARY_USER_AGENT (* httplint/field/parsers/vary.py:50-62 *)
| VARY_HOST (* httplint/field/parsers/vary.py:65-78 *)
| VARY_NEGOTIATE (* httplint/field/parsers/vary.py:81-90 *)
| VARY_DUPLICATE (* httplint/field/parsers/vary.py:93-101 *)
| VARY_COMPLEX (* httplint/field/parsers/vary.py:104-112 *)
| VIA_PRESENT (* httplint/field/parsers/via.py:27-41 *)
| CONTENT_TYPE_OPTIONS (* httplint/field/parsers/x_content_type_options.py:24-38 *)
| CONTENT_TYPE_OPTIONS_UNKNOWN (* httplint/field/parsers/x_content_type_options.py:41-52 *)
| FRAME_OPTIONS_DENY (* httplint/field/parsers/x_frame_options.py:49-63 *)
| FRAME_OPTIONS_SAMEORIGIN (* httplint/field/parsers/x_frame_options.py:66-80 *)
| FRAME_OPTIONS_UNKNOWN (* httplint/field/parsers/x_frame_options.py:83-94 *)
| FIELD_TOO_LARGE (* httplint/field/section.py:101-106 *)
| FIELD_SECTION_TOO_LARGE (* httplint/field/section.py:109-115 *)
| FIELD_NAME_ENCODING (* httplint/field/section.py:118-123 *)
| FIELD_VALUE_ENCODING (* httplint/field/section.py:126-135 *)
| SINGLE_HEADER_REPEAT (* httplint/field/singleton_field.py:49-56 *)
| DUPLICATE_KEY (* httplint/field/structured_field.py:87-92 *)
| STRUCTURED_FIELD_PARSE_ERROR (* httplint/field/structured_field.py:95-107 *)
| UNNECESSARY_HEADER (* httplint/field/unnecessary.py:42-50 *)
| MEDIA_TYPE_BAD_NAME (* httplint/field/utils.py:310-321 *)
| MEDIA_TYPE_LONG_NAME (* httplint/field/utils.py:324-333 *)
| PARAM_REPEATS (* httplint/field/utils.py:336-342 *)
| PARAM_SINGLE_QUOTED (* httplint/field/utils.py:345-354 *)
| PARAM_STAR_BAD (* httplint/field/utils.py:357-366 *)
| PARAM_STAR_QUOTED (* httplint/field/utils.py:369-378 *)
| PARAM_STAR_ERROR (* httplint/field/utils.py:381-390 *)
| PARAM_STAR_NOCHARSET (* httplint/field/utils.py:393-402 *)
| PARAM_STAR_CHARSET (* httplint/field/utils.py:405-414 *)
| BAD_DATE_SYNTAX (* httplint/field/utils.py:417-427 *)
| DATE_OBSOLETE (* httplint/field/utils.py:430-438 *)
| CL_CORRECT (* httplint/message.py:316-322 *)
| CL_INCORRECT (* httplint/message.py:325-334 *)
| CONTENT_NOT_ALLOWED (* httplint/message.py:337-344 *)
| REQUEST_CONTENT_NOT_DEFINED (* httplint/message.py:347-355 *)
| URI_TOO_LONG (* httplint/message.py:358-364 *)
| URI_BAD_SYNTAX (* httplint/message.py:367-373 *)
| STATUS_CODE_NON_NUMERIC (* httplint/message.py:376-381 *)
| STATUS_PHRASE_ENCODING (* httplint/message.py:384-389 *)
| MISSING_USER_AGENT (* httplint/message.py:392-400 *)
| NO_DATE_304 (* httplint/status.py:316-322 *)
| HEADER_SHOULD_NOT_BE_IN_304 (* httplint/status.py:325-336 *)
| UNEXPECTED_CONTINUE (* httplint/status.py:339-353 *)
| UPGRADE_NOT_REQUESTED (* httplint/status.py:356-365 *)
| CREATED_SAFE_METHOD (* httplint/status.py:368-380 *)
| CREATED_WITHOUT_LOCATION (* httplint/status.py:383-391 *)
| PARTIAL_WITHOUT_RANGE (* httplint/status.py:394-402 *)
| PARTIAL_NOT_REQUESTED (* httplint/status.py:405-413 *)
| REDIRECT_WITHOUT_LOCATION (* httplint/status.py:416-422 *)
| STATUS_DEPRECATED (* httplint/status.py:425-431 *)
| STATUS_RESERVED (* httplint/status.py:434-440 *)
| STATUS_NONSTANDARD (* httplint/status.py:443-450 *)
| STATUS_BAD_REQUEST (* httplint/status.py:453-458 *)
| STATUS_FORBIDDEN (* httplint/status.py:461-466 *)
| STATUS_METHOD_NOT_ALLOWED (* httplint/status.py:469-475 *)
| STATUS_405_METHOD_IN_ALLOW (* httplint/status.py:478-487 *)
| STATUS_NOT_FOUND (* httplint/status.py:490-495 *)
| STATUS_NOT_ACCEPTABLE (* httplint/status.py:498-506 *)
| STATUS_406_WITHOUT_NEGOTIATION (* httplint/status.py:509-518 *)
| STATUS_CONFLICT (* httplint/status.py:521-526 *)
| STATUS_GONE (* httplint/status.py:529-534 *)
| STATUS_REQUEST_ENTITY_TOO_LARGE (* httplint/status.py:537-542 *)
| STATUS_URI_TOO_LONG (* httplint/status.py:545-550 *)
| STATUS_UNSUPPORTED_MEDIA_TYPE (* httplint/status.py:553-558 *)
| STATUS_IM_A_TEAPOT (* httplint/status.py:561-572 *)
| STATUS_INTERNAL_SERVICE_ERROR (* httplint/status.py:575-580 *)
| STATUS_NOT_IMPLEMENTED (* httplint/status.py:583-588 *)
| STATUS_BAD_GATEWAY (* httplint/status.py:591-596 *)
| STATUS_SERVICE_UNAVAILABLE (* httplint/status.py:599-604 *)
| STATUS_GATEWAY_TIMEOUT (* httplint/status.py:607-612 *)
| STATUS_VERSION_NOT_SUPPORTED (* httplint/status.py:615-620 *)
| STATUS_PRECONDITION_FAILED (* httplint/status.py:623-630 *)
| STATUS_EXPECTATION_FAILED (* httplint/status.py:633-639 *)
| STATUS_412_WITHOUT_PRECONDITION (* httplint/status.py:642-651 *)
| STATUS_416_WITHOUT_RANGE (* httplint/status.py:654-662 *)
| STATUS_417_WITHOUT_EXPECT (* httplint/status.py:665-673 *)
| STATUS_417_WITH_100_CONTINUE (* httplint/status.py:676-685 *)
| STATUS_EARLY_HINTS (* httplint/status.py:688-694 *)
| STATUS_UPLOAD_RESUMPTION_SUPPORTED (* httplint/status.py:697-703 *)
| STATUS_ALREADY_REPORTED (* httplint/status.py:706-712 *)
| STATUS_MISDIRECTED_REQUEST (* httplint/status.py:715-721 *)
| STATUS_TOO_EARLY (* httplint/status.py:724-730 *)
| STATUS_PRECONDITION_REQUIRED (* httplint/status.py:733-739 *)
| STATUS_TOO_MANY_REQUESTS (* httplint/status.py:742-748 *)
| STATUS_REQUEST_HEADER_FIELDS_TOO_LARGE (* httplint/status.py:751-757 *)
| STATUS_UNAVAILABLE_FOR_LEGAL_REASONS (* httplint/status.py:760-766 *)
| STATUS_LOOP_DETECTED (* httplint/status.py:769-775 *)
| STATUS_NETWORK_AUTHENTICATION_REQUIRED (* httplint/status.py:778-784 *)
.

(** Python class name. *)
Definition nid_name (n : nid) : string :=
  match n with
  | DATE_CLOCKLESS => "DATE_CLOCKLESS"
  | DATE_CLOCKLESS_BAD_HDR => "DATE_CLOCKLESS_BAD_HDR"
  | STORE_METHOD_UNCACHEABLE => "STORE_METHOD_UNCACHEABLE"
  | STORE_NO_STORE => "STORE_NO_STORE"
  | STORE_PRIVATE_CC => "STORE_PRIVATE_CC"
  | STORE_PRIVATE_PUBLIC_CONFLICT => "STORE_PRIVATE_PUBLIC_CONFLICT"
  | STORE_PRIVATE_AUTH => "STORE_PRIVATE_AUTH"
  | STORE_PUBLIC_AUTH => "STORE_PUBLIC_AUTH"
  | STORE_PUBLIC_UNNECESSARY => "STORE_PUBLIC_UNNECESSARY"
  | STORE_STORABLE => "STORE_STORABLE"
  | STORE_STORABLE_SHARED_ONLY => "STORE_STORABLE_SHARED_ONLY"
  | STORE_UNSTORABLE => "STORE_UNSTORABLE"
  | FRESHNESS_NO_CACHE => "FRESHNESS_NO_CACHE"
  | FRESHNESS_NO_CACHE_NO_VALIDATOR => "FRESHNESS_NO_CACHE_NO_VALIDATOR"
  | CURRENT_AGE => "CURRENT_AGE"
  | FRESHNESS_FRESH => "FRESHNESS_FRESH"
  | FRESHNESS_SHARED_PRIVATE => "FRESHNESS_SHARED_PRIVATE"
  | FRESHNESS_STALE_ALREADY => "FRESHNESS_STALE_ALREADY"
  | FRESHNESS_HEURISTIC => "FRESHNESS_HEURISTIC"
  | FRESHNESS_NONE => "FRESHNESS_NONE"
  | STALE_SERVABLE => "STALE_SERVABLE"
  | STALE_IF_ERROR => "STALE_IF_ERROR"
  | STALE_WHILE_REVALIDATE => "STALE_WHILE_REVALIDATE"
  | FRESH_MUST_REVALIDATE => "FRESH_MUST_REVALIDATE"
  | STALE_MUST_REVALIDATE => "STALE_MUST_REVALIDATE"
  | FRESH_PROXY_REVALIDATE => "FRESH_PROXY_REVALIDATE"
  | STALE_PROXY_REVALIDATE => "STALE_PROXY_REVALIDATE"
  | CC_AND_EXPIRES => "CC_AND_EXPIRES"
  | CHARSET_MISMATCH => "CHARSET_MISMATCH"
  | CHARSET_IMPLICIT_MISMATCH => "CHARSET_IMPLICIT_MISMATCH"
  | CHARSET_UNDECODABLE => "CHARSET_UNDECODABLE"
  | DECOMPRESSION_LIMIT => "DECOMPRESSION_LIMIT"
  | BAD_GZIP => "BAD_GZIP"
  | BAD_ZLIB => "BAD_ZLIB"
  | BAD_BROTLI => "BAD_BROTLI"
  | CONTENT_TYPE_MISMATCH => "CONTENT_TYPE_MISMATCH"
  | FIELD_NAME_BAD_SYNTAX => "FIELD_NAME_BAD_SYNTAX"
  | BAD_SYNTAX => "BAD_SYNTAX"
  | BAD_SYNTAX_DETAILED => "BAD_SYNTAX_DETAILED"
  | REQUEST_HDR_IN_RESPONSE => "REQUEST_HDR_IN_RESPONSE"
  | RESPONSE_HDR_IN_REQUEST => "RESPONSE_HDR_IN_REQUEST"
  | FIELD_DEPRECATED => "FIELD_DEPRECATED"
  | CORS_PREFLIGHT_REQUEST => "CORS_PREFLIGHT_REQUEST"
  | CORS_PREFLIGHT_REQ_METHOD_WRONG => "CORS_PREFLIGHT_REQ_METHOD_WRONG"
  | CORS_PREFLIGHT_REQ_NO_ORIGIN => "CORS_PREFLIGHT_REQ_NO_ORIGIN"
  | CORS_PREFLIGHT_REQ_NO_METHOD => "CORS_PREFLIGHT_REQ_NO_METHOD"
  | CORS_PREFLIGHT_RESPONSE => "CORS_PREFLIGHT_RESPONSE"
  | CORS_PREFLIGHT_ONLY => "CORS_PREFLIGHT_ONLY"
  | ACAO_MULTIPLE_VALUES => "ACAO_MULTIPLE_VALUES"
  | ACAC_NOT_TRUE => "ACAC_NOT_TRUE"
  | CORS_ORIGIN_MATCH => "CORS_ORIGIN_MATCH"
  | CORS_ORIGIN_MISMATCH => "CORS_ORIGIN_MISMATCH"
  | CORS_ORIGIN_NULL => "CORS_ORIGIN_NULL"
  | CORS_ORIGIN_STAR => "CORS_ORIGIN_STAR"
  | BAD_JSON => "BAD_JSON"
  | BAD_Q_VALUE => "BAD_Q_VALUE"
  | ACCEPT_BAD_SYNTAX => "ACCEPT_BAD_SYNTAX"
  | ACCEPT_CH_IN_PLAIN_HTTP => "ACCEPT_CH_IN_PLAIN_HTTP"
  | ACCEPT_CH_MISSING_VARY => "ACCEPT_CH_MISSING_VARY"
  | ACCEPT_CH_BAD_TYPE => "ACCEPT_CH_BAD_TYPE"
  | BAD_Q_VALUE_accept_language => "BAD_Q_VALUE"
  | ACCEPT_LANGUAGE_BAD_SYNTAX => "ACCEPT_LANGUAGE_BAD_SYNTAX"
  | ACCEPT_PATCH_BAD_SYNTAX => "ACCEPT_PATCH_BAD_SYNTAX"
  | ACCEPT_POST_BAD_SYNTAX => "ACCEPT_POST_BAD_SYNTAX"
  | ACCEPT_QUERY_BAD_TYPE => "ACCEPT_QUERY_BAD_TYPE"
  | ACCEPT_QUERY_BAD_SYNTAX => "ACCEPT_QUERY_BAD_SYNTAX"
  | UNKNOWN_RANGE => "UNKNOWN_RANGE"
  | CORS_MAX_AGE_INVALID => "CORS_MAX_AGE_INVALID"
  | CORS_MAX_AGE_NEGATIVE => "CORS_MAX_AGE_NEGATIVE"
  | AGE_NOT_INT => "AGE_NOT_INT"
  | AGE_NEGATIVE => "AGE_NEGATIVE"
  | AGE_LARGE => "AGE_LARGE"
  | ALTSVC_CLEAR_LIST => "ALTSVC_CLEAR_LIST"
  | AVAILABLE_DICTIONARY_MISSING_AE => "AVAILABLE_DICTIONARY_MISSING_AE"
  | AVAILABLE_DICTIONARY_BAD_TYPE => "AVAILABLE_DICTIONARY_BAD_TYPE"
  | CC_SHOULD_NOT_HAVE_VALUE => "CC_SHOULD_NOT_HAVE_VALUE"
  | CC_BAD_VALUE_TYPE => "CC_BAD_VALUE_TYPE"
  | CC_MAX_AGE_TOO_LARGE => "CC_MAX_AGE_TOO_LARGE"
  | CC_MISCAP => "CC_MISCAP"
  | CC_DUP => "CC_DUP"
  | CC_CONFLICTING => "CC_CONFLICTING"
  | CC_WRONG_MESSAGE => "CC_WRONG_MESSAGE"
  | CHECK_SINGLE => "CHECK_SINGLE"
  | CHECK_ALL_ZERO => "CHECK_ALL_ZERO"
  | CHECK_POST_BIGGER => "CHECK_POST_BIGGER"
  | CHECK_POST_ZERO => "CHECK_POST_ZERO"
  | CHECK_POST_PRE => "CHECK_POST_PRE"
  | CACHE_GROUP_INVALIDATION_BAD_TYPE => "CACHE_GROUP_INVALIDATION_BAD_TYPE"
  | CACHE_GROUP_INVALIDATION_IGNORED => "CACHE_GROUP_INVALIDATION_IGNORED"
  | CACHE_GROUPS_BAD_TYPE => "CACHE_GROUPS_BAD_TYPE"
  | CACHE_STATUS => "CACHE_STATUS"
  | CACHE_STATUS_UNKNOWN_PARAM => "CACHE_STATUS_UNKNOWN_PARAM"
  | CACHE_STATUS_BAD_PARAM_VAL => "CACHE_STATUS_BAD_PARAM_VAL"
  | BAD_CDN_CC_TYPE => "BAD_CDN_CC_TYPE"
  | CDN_CACHE_CONTROL_PRESENT => "CDN_CACHE_CONTROL_PRESENT"
  | CSD_PRESENT => "CSD_PRESENT"
  | CSD_UNKNOWN_VALUE => "CSD_UNKNOWN_VALUE"
  | CSD_EMPTY => "CSD_EMPTY"
  | CSD_UNQUOTED => "CSD_UNQUOTED"
  | DISPOSITION_UNKNOWN => "DISPOSITION_UNKNOWN"
  | DISPOSITION_OMITS_FILENAME => "DISPOSITION_OMITS_FILENAME"
  | DISPOSITION_FILENAME_PERCENT => "DISPOSITION_FILENAME_PERCENT"
  | DISPOSITION_FILENAME_PATH_CHAR => "DISPOSITION_FILENAME_PATH_CHAR"
  | DICTIONARY_COMPRESSED_MISSING_VARY => "DICTIONARY_COMPRESSED_MISSING_VARY"
  | ENCODING_UNWANTED => "ENCODING_UNWANTED"
  | CONTENT_LANGUAGE_DUP => "CONTENT_LANGUAGE_DUP"
  | CL_BAD_SYNTAX => "CL_BAD_SYNTAX"
  | CL_AND_TE_PRESENT => "CL_AND_TE_PRESENT"
  | CL_TOO_LARGE => "CL_TOO_LARGE"
  | CONTENT_RANGE_MEANINGLESS => "CONTENT_RANGE_MEANINGLESS"
  | CONTENT_RANGE_MISSING_UNIT => "CONTENT_RANGE_MISSING_UNIT"
  | CONTENT_RANGE_INVALID_ASTERISK => "CONTENT_RANGE_INVALID_ASTERISK"
  | CONTENT_RANGE_MISSING_SLASH => "CONTENT_RANGE_MISSING_SLASH"
  | RANGE_MISSING_HYPHEN => "RANGE_MISSING_HYPHEN"
  | RANGE_INVALID_INTEGER => "RANGE_INVALID_INTEGER"
  | RANGE_INVALID => "RANGE_INVALID"
  | CONTENT_RANGE_UNSATISFIED_BAD_SC => "CONTENT_RANGE_UNSATISFIED_BAD_SC"
  | CONTENT_RANGE_UNKNOWN_LENGTH => "CONTENT_RANGE_UNKNOWN_LENGTH"
  | CONTENT_SECURITY_POLICY => "CONTENT_SECURITY_POLICY"
  | CSP_UNSAFE_INLINE => "CSP_UNSAFE_INLINE"
  | CSP_UNSAFE_EVAL => "CSP_UNSAFE_EVAL"
  | CSP_HTTP_URI => "CSP_HTTP_URI"
  | CSP_DUPLICATE_DIRECTIVE => "CSP_DUPLICATE_DIRECTIVE"
  | CSP_DEPRECATED_REPORT_URI => "CSP_DEPRECATED_REPORT_URI"
  | CSP_WIDE_OPEN => "CSP_WIDE_OPEN"
  | CSP_REPORT_TO_MISSING => "CSP_REPORT_TO_MISSING"
  | COEP_REQUIRE_CORP => "COEP_REQUIRE_CORP"
  | COEP_CREDENTIALLESS => "COEP_CREDENTIALLESS"
  | COEP_UNSAFE_NONE => "COEP_UNSAFE_NONE"
  | CROSS_ORIGIN_EMBEDDER_POLICY_BAD_VALUE => "CROSS_ORIGIN_EMBEDDER_POLICY_BAD_VALUE"
  | COEP_REPORT_TO_MISSING => "COEP_REPORT_TO_MISSING"
  | COEP_REPORT_ONLY_DUPLICATE => "COEP_REPORT_ONLY_DUPLICATE"
  | COOP_SAME_ORIGIN => "COOP_SAME_ORIGIN"
  | COOP_SAME_ORIGIN_ALLOW_POPUPS => "COOP_SAME_ORIGIN_ALLOW_POPUPS"
  | COOP_UNSAFE_NONE => "COOP_UNSAFE_NONE"
  | CROSS_ORIGIN_OPENER_POLICY_BAD_VALUE => "CROSS_ORIGIN_OPENER_POLICY_BAD_VALUE"
  | COOP_REPORT_TO_MISSING => "COOP_REPORT_TO_MISSING"
  | COOP_REPORT_ONLY_DUPLICATE => "COOP_REPORT_ONLY_DUPLICATE"
  | CORP_SAME_ORIGIN => "CORP_SAME_ORIGIN"
  | CORP_SAME_SITE => "CORP_SAME_SITE"
  | CORP_CROSS_ORIGIN => "CORP_CROSS_ORIGIN"
  | CROSS_ORIGIN_RESOURCE_POLICY_BAD_VALUE => "CROSS_ORIGIN_RESOURCE_POLICY_BAD_VALUE"
  | DATE_CORRECT => "DATE_CORRECT"
  | DATE_INCORRECT => "DATE_INCORRECT"
  | AGE_PENALTY => "AGE_PENALTY"
  | DEPRECATION_PAST => "DEPRECATION_PAST"
  | DEPRECATION_FUTURE => "DEPRECATION_FUTURE"
  | DEPRECATION_TRUE => "DEPRECATION_TRUE"
  | DEPRECATION_BAD_TYPE => "DEPRECATION_BAD_TYPE"
  | EXPECT_UNKNOWN => "EXPECT_UNKNOWN"
  | EXPECT_HTTP_1_0 => "EXPECT_HTTP_1_0"
  | LM_FUTURE => "LM_FUTURE"
  | LM_PRESENT => "LM_PRESENT"
  | LINK_RESOURCE_HINTS => "LINK_RESOURCE_HINTS"
  | LINK_BAD_HINT_TARGET => "LINK_BAD_HINT_TARGET"
  | LINK_REV => "LINK_REV"
  | LINK_BAD_ANCHOR => "LINK_BAD_ANCHOR"
  | LINK_BAD_TYPE => "LINK_BAD_TYPE"
  | LOCATION_UNDEFINED => "LOCATION_UNDEFINED"
  | LOCATION_NOT_ABSOLUTE => "LOCATION_NOT_ABSOLUTE"
  | MAX_FORWARDS_IGNORED => "MAX_FORWARDS_IGNORED"
  | NEL_BAD_STRUCTURE => "NEL_BAD_STRUCTURE"
  | NEL_MISSING_KEY => "NEL_MISSING_KEY"
  | NEL_BAD_TYPE => "NEL_BAD_TYPE"
  | NEL_BAD_VALUE => "NEL_BAD_VALUE"
  | NEL_CONFIGURED => "NEL_CONFIGURED"
  | NEL_REPORT_TO_MISSING => "NEL_REPORT_TO_MISSING"
  | BAD_ORIGIN_SYNTAX => "BAD_ORIGIN_SYNTAX"
  | ORIGIN_MULTIPLE_VALUES => "ORIGIN_MULTIPLE_VALUES"
  | PERMISSIONS_POLICY_PRESENT => "PERMISSIONS_POLICY_PRESENT"
  | PERMISSIONS_POLICY_WILDCARD => "PERMISSIONS_POLICY_WILDCARD"
  | PERMISSIONS_POLICY_INVALID_VALUE => "PERMISSIONS_POLICY_INVALID_VALUE"
  | PERMISSIONS_POLICY_UNKNOWN_TOKEN => "PERMISSIONS_POLICY_UNKNOWN_TOKEN"
  | PERMISSIONS_POLICY_QUOTED_KEYWORD => "PERMISSIONS_POLICY_QUOTED_KEYWORD"
  | PERMISSIONS_POLICY_INVALID_ITEM_TYPE => "PERMISSIONS_POLICY_INVALID_ITEM_TYPE"
  | PRAGMA_OTHER => "PRAGMA_OTHER"
  | PROXY_STATUS => "PROXY_STATUS"
  | PROXY_STATUS_UNKNOWN_PARAM => "PROXY_STATUS_UNKNOWN_PARAM"
  | PROXY_STATUS_BAD_PARAM_VAL => "PROXY_STATUS_BAD_PARAM_VAL"
  | RANGE_INVALID_range => "RANGE_INVALID"
  | RANGE_BAD_SYNTAX => "RANGE_BAD_SYNTAX"
  | REFERER_SECURE_TO_INSECURE => "REFERER_SECURE_TO_INSECURE"
  | REFERER_SECURE_TO_DIFFERENT_ORIGIN => "REFERER_SECURE_TO_DIFFERENT_ORIGIN"
  | REFERRER_POLICY_STRICT => "REFERRER_POLICY_STRICT"
  | REFERRER_POLICY_UNSAFE => "REFERRER_POLICY_UNSAFE"
  | REFERRER_POLICY_UNKNOWN => "REFERRER_POLICY_UNKNOWN"
  | REFERRER_POLICY_EMPTY => "REFERRER_POLICY_EMPTY"
  | REFERRER_POLICY_MULTIPLE => "REFERRER_POLICY_MULTIPLE"
  | REPORT_TO_BAD_STRUCTURE => "REPORT_TO_BAD_STRUCTURE"
  | REPORT_TO_MISSING_KEY => "REPORT_TO_MISSING_KEY"
  | REPORT_TO_BAD_TYPE => "REPORT_TO_BAD_TYPE"
  | ENDPOINT_NOT_SECURE => "ENDPOINT_NOT_SECURE"
  | BAD_REPORTING_ENDPOINT_SYNTAX => "BAD_REPORTING_ENDPOINT_SYNTAX"
  | SERVER_TOO_LONG => "SERVER_TOO_LONG"
  | SERVER_TIMING_BAD_PARAM => "SERVER_TIMING_BAD_PARAM"
  | SERVER_TIMING_MISSING_DUR => "SERVER_TIMING_MISSING_DUR"
  | SERVER_TIMING_MISSING_DESC => "SERVER_TIMING_MISSING_DESC"
  | SET_COOKIE_NO_NAME => "SET_COOKIE_NO_NAME"
  | SET_COOKIE_BAD_DATE => "SET_COOKIE_BAD_DATE"
  | SET_COOKIE_EMPTY_MAX_AGE => "SET_COOKIE_EMPTY_MAX_AGE"
  | SET_COOKIE_LEADING_ZERO_MAX_AGE => "SET_COOKIE_LEADING_ZERO_MAX_AGE"
  | SET_COOKIE_NON_DIGIT_MAX_AGE => "SET_COOKIE_NON_DIGIT_MAX_AGE"
  | SET_COOKIE_EMPTY_DOMAIN => "SET_COOKIE_EMPTY_DOMAIN"
  | SET_COOKIE_NOT_SECURE => "SET_COOKIE_NOT_SECURE"
  | SET_COOKIE_UNKNOWN_ATTRIBUTE => "SET_COOKIE_UNKNOWN_ATTRIBUTE"
  | SET_COOKIE_PRIORITY => "SET_COOKIE_PRIORITY"
  | SET_COOKIE_VERSION => "SET_COOKIE_VERSION"
  | SET_COOKIE_UNKNOWN_ATTRIBUTE_VALUE => "SET_COOKIE_UNKNOWN_ATTRIBUTE_VALUE"
  | SET_COOKIE_PARTITIONED_NO_SECURE => "SET_COOKIE_PARTITIONED_NO_SECURE"
  | SET_COOKIE_TOO_LARGE => "SET_COOKIE_TOO_LARGE"
  | SET_COOKIE_VALUE_TOO_LARGE => "SET_COOKIE_VALUE_TOO_LARGE"
  | SET_COOKIE_LIFETIME_TOO_LONG => "SET_COOKIE_LIFETIME_TOO_LONG"
  | SET_COOKIE_PREFIX_SECURE_MISSING => "SET_COOKIE_PREFIX_SECURE_MISSING"
  | SET_COOKIE_PREFIX_HOST_BAD_DOMAIN => "SET_COOKIE_PREFIX_HOST_BAD_DOMAIN"
  | SET_COOKIE_PREFIX_HOST_BAD_PATH => "SET_COOKIE_PREFIX_HOST_BAD_PATH"
  | SET_COOKIE_ATTRIBUTE_DUP => "SET_COOKIE_ATTRIBUTE_DUP"
  | SET_COOKIE_HARDENED => "SET_COOKIE_HARDENED"
  | SET_COOKIE_NAME_DUP => "SET_COOKIE_NAME_DUP"
  | SPECULATION_RULE_NOT_SECURE => "SPECULATION_RULE_NOT_SECURE"
  | SPECULATION_RULES_BAD_TYPE => "SPECULATION_RULES_BAD_TYPE"
  | HSTS_VALID => "HSTS_VALID"
  | HSTS_INVALID => "HSTS_INVALID"
  | HSTS_NO_MAX_AGE => "HSTS_NO_MAX_AGE"
  | HSTS_MAX_AGE_ZERO => "HSTS_MAX_AGE_ZERO"
  | HSTS_SHORT_MAX_AGE => "HSTS_SHORT_MAX_AGE"
  | HSTS_SUBDOMAINS => "HSTS_SUBDOMAINS"
  | HSTS_NO_SUBDOMAINS => "HSTS_NO_SUBDOMAINS"
  | HSTS_PRELOAD => "HSTS_PRELOAD"
  | HSTS_PRELOAD_NOT_SUITABLE => "HSTS_PRELOAD_NOT_SUITABLE"
  | HSTS_NO_PRELOAD => "HSTS_NO_PRELOAD"
  | HSTS_DUPLICATE_DIRECTIVE => "HSTS_DUPLICATE_DIRECTIVE"
  | HSTS_TRAILING_SEMICOLON => "HSTS_TRAILING_SEMICOLON"
  | HSTS_OVER_HTTP => "HSTS_OVER_HTTP"
  | HSTS_BAD_MAX_AGE => "HSTS_BAD_MAX_AGE"
  | HSTS_VALUE_NOT_ALLOWED => "HSTS_VALUE_NOT_ALLOWED"
  | SUNSET_PAST => "SUNSET_PAST"
  | TRANSFER_CODING_IDENTITY => "TRANSFER_CODING_IDENTITY"
  | TRANSFER_CODING_UNWANTED => "TRANSFER_CODING_UNWANTED"
  | TRANSFER_CODING_PARAM => "TRANSFER_CODING_PARAM"
  | USE_AS_DICTIONARY_BAD_TYPE => "USE_AS_DICTIONARY_BAD_TYPE"
  | USE_AS_DICTIONARY_BAD_MATCH_DEST => "USE_AS_DICTIONARY_BAD_MATCH_DEST"
  | VARY_ASTERISK => "VARY_ASTERISK"
  | VARY_USER_AGENT => "VARY_USER_AGENT"
  | VARY_HOST => "VARY_HOST"
  | VARY_NEGOTIATE => "VARY_NEGOTIATE"
  | VARY_DUPLICATE => "VARY_DUPLICATE"
  | VARY_COMPLEX => "VARY_COMPLEX"
  | VIA_PRESENT => "VIA_PRESENT"
  | CONTENT_TYPE_OPTIONS => "CONTENT_TYPE_OPTIONS"
  | CONTENT_TYPE_OPTIONS_UNKNOWN => "CONTENT_TYPE_OPTIONS_UNKNOWN"
  | FRAME_OPTIONS_DENY => "FRAME_OPTIONS_DENY"
  | FRAME_OPTIONS_SAMEORIGIN => "FRAME_OPTIONS_SAMEORIGIN"
  | FRAME_OPTIONS_UNKNOWN => "FRAME_OPTIONS_UNKNOWN"
  | FIELD_TOO_LARGE => "FIELD_TOO_LARGE"
  | FIELD_SECTION_TOO_LARGE => "FIELD_SECTION_TOO_LARGE"
  | FIELD_NAME_ENCODING => "FIELD_NAME_ENCODING"
  | FIELD_VALUE_ENCODING => "FIELD_VALUE_ENCODING"
  | SINGLE_HEADER_REPEAT => "SINGLE_HEADER_REPEAT"
  | DUPLICATE_KEY => "DUPLICATE_KEY"
  | STRUCTURED_FIELD_PARSE_ERROR => "STRUCTURED_FIELD_PARSE_ERROR"
  | UNNECESSARY_HEADER => "UNNECESSARY_HEADER"
  | MEDIA_TYPE_BAD_NAME => "MEDIA_TYPE_BAD_NAME"
  | MEDIA_TYPE_LONG_NAME => "MEDIA_TYPE_LONG_NAME"
  | PARAM_REPEATS => "PARAM_REPEATS"
  | PARAM_SINGLE_QUOTED => "PARAM_SINGLE_QUOTED"
  | PARAM_STAR_BAD => "PARAM_STAR_BAD"
  | PARAM_STAR_QUOTED => "PARAM_STAR_QUOTED"
  | PARAM_STAR_ERROR => "PARAM_STAR_ERROR"
  | PARAM_STAR_NOCHARSET => "PARAM_STAR_NOCHARSET"
  | PARAM_STAR_CHARSET => "PARAM_STAR_CHARSET"
  | BAD_DATE_SYNTAX => "BAD_DATE_SYNTAX"
  | DATE_OBSOLETE => "DATE_OBSOLETE"
  | CL_CORRECT => "CL_CORRECT"
  | CL_INCORRECT => "CL_INCORRECT"
  | CONTENT_NOT_ALLOWED => "CONTENT_NOT_ALLOWED"
  | REQUEST_CONTENT_NOT_DEFINED => "REQUEST_CONTENT_NOT_DEFINED"
  | URI_TOO_LONG => "URI_TOO_LONG"
  | URI_BAD_SYNTAX => "URI_BAD_SYNTAX"
  | STATUS_CODE_NON_NUMERIC => "STATUS_CODE_NON_NUMERIC"
  | STATUS_PHRASE_ENCODING => "STATUS_PHRASE_ENCODING"
  | MISSING_USER_AGENT => "MISSING_USER_AGENT"
  | NO_DATE_304 => "NO_DATE_304"
  | HEADER_SHOULD_NOT_BE_IN_304 => "HEADER_SHOULD_NOT_BE_IN_304"
  | UNEXPECTED_CONTINUE => "UNEXPECTED_CONTINUE"
  | UPGRADE_NOT_REQUESTED => "UPGRADE_NOT_REQUESTED"
  | CREATED_SAFE_METHOD => "CREATED_SAFE_METHOD"
  | CREATED_WITHOUT_LOCATION => "CREATED_WITHOUT_LOCATION"
  | PARTIAL_WITHOUT_RANGE => "PARTIAL_WITHOUT_RANGE"
  | PARTIAL_NOT_REQUESTED => "PARTIAL_NOT_REQUESTED"
  | REDIRECT_WITHOUT_LOCATION => "REDIRECT_WITHOUT_LOCATION"
  | STATUS_DEPRECATED => "STATUS_DEPRECATED"
  | STATUS_RESERVED => "STATUS_RESERVED"
  | STATUS_NONSTANDARD => "STATUS_NONSTANDARD"
  | STATUS_BAD_REQUEST => "STATUS_BAD_REQUEST"
  | STATUS_FORBIDDEN => "STATUS_FORBIDDEN"
  | STATUS_METHOD_NOT_ALLOWED => "STATUS_METHOD_NOT_ALLOWED"
  | STATUS_405_METHOD_IN_ALLOW => "STATUS_405_METHOD_IN_ALLOW"
  | STATUS_NOT_FOUND => "STATUS_NOT_FOUND"
  | STATUS_NOT_ACCEPTABLE => "STATUS_NOT_ACCEPTABLE"
  | STATUS_406_WITHOUT_NEGOTIATION => "STATUS_406_WITHOUT_NEGOTIATION"
  | STATUS_CONFLICT => "STATUS_CONFLICT"
  | STATUS_GONE => "STATUS_GONE"
  | STATUS_REQUEST_ENTITY_TOO_LARGE => "STATUS_REQUEST_ENTITY_TOO_LARGE"
  | STATUS_URI_TOO_LONG => "STATUS_URI_TOO_LONG"
  | STATUS_UNSUPPORTED_MEDIA_TYPE => "STATUS_UNSUPPORTED_MEDIA_TYPE"
  | STATUS_IM_A_TEAPOT => "STATUS_IM_A_TEAPOT"
  | STATUS_INTERNAL_SERVICE_ERROR => "STATUS_INTERNAL_SERVICE_ERROR"
  | STATUS_NOT_IMPLEMENTED => "STATUS_NOT_IMPLEMENTED"
  | STATUS_BAD_GATEWAY => "STATUS_BAD_GATEWAY"
  | STATUS_SERVICE_UNAVAILABLE => "STATUS_SERVICE_UNAVAILABLE"
  | STATUS_GATEWAY_TIMEOUT => "STATUS_GATEWAY_TIMEOUT"
  | STATUS_VERSION_NOT_SUPPORTED => "STATUS_VERSION_NOT_SUPPORTED"
  | STATUS_PRECONDITION_FAILED => "STATUS_PRECONDITION_FAILED"
  | STATUS_EXPECTATION_FAILED => "STATUS_EXPECTATION_FAILED"
  | STATUS_412_WITHOUT_PRECONDITION => "STATUS_412_WITHOUT_PRECONDITION"
  | STATUS_416_WITHOUT_RANGE => "STATUS_416_WITHOUT_RANGE"
  | STATUS_417_WITHOUT_EXPECT => "STATUS_417_WITHOUT_EXPECT"
  | STATUS_417_WITH_100_CONTINUE => "STATUS_417_WITH_100_CONTINUE"
  | STATUS_EARLY_HINTS => "STATUS_EARLY_HINTS"
  | STATUS_UPLOAD_RESUMPTION_SUPPORTED => "STATUS_UPLOAD_RESUMPTION_SUPPORTED"
  | STATUS_ALREADY_REPORTED => "STATUS_ALREADY_REPORTED"
  | STATUS_MISDIRECTED_REQUEST => "STATUS_MISDIRECTED_REQUEST"
  | STATUS_TOO_EARLY => "STATUS_TOO_EARLY"
  | STATUS_PRECONDITION_REQUIRED => "STATUS_PRECONDITION_REQUIRED"
  | STATUS_TOO_MANY_REQUESTS => "STATUS_TOO_MANY_REQUESTS"
  | STATUS_REQUEST_HEADER_FIELDS_TOO_LARGE => "STATUS_REQUEST_HEADER_FIELDS_TOO_LARGE"
  | STATUS_UNAVAILABLE_FOR_LEGAL_REASONS => "STATUS_UNAVAILABLE_FOR_LEGAL_REASONS"
  | STATUS_LOOP_DETECTED => "STATUS_LOOP_DETECTED"
  | STATUS_NETWORK_AUTHENTICATION_REQUIRED => "STATUS_NETWORK_AUTHENTICATION_REQUIRED"
  end.

(** The file of the class, under httplint/. *)
Definition nid_file (n : nid) : string :=
  match n with
  | DATE_CLOCKLESS => "cache.py"
  | DATE_CLOCKLESS_BAD_HDR => "cache.py"
  | STORE_METHOD_UNCACHEABLE => "cache.py"
  | STORE_NO_STORE => "cache.py"
  | STORE_PRIVATE_CC => "cache.py"
  | STORE_PRIVATE_PUBLIC_CONFLICT => "cache.py"
  | STORE_PRIVATE_AUTH => "cache.py"
  | STORE_PUBLIC_AUTH => "cache.py"
  | STORE_PUBLIC_UNNECESSARY => "cache.py"
  | STORE_STORABLE => "cache.py"
  | STORE_STORABLE_SHARED_ONLY => "cache.py"
  | STORE_UNSTORABLE => "cache.py"
  | FRESHNESS_NO_CACHE => "cache.py"
  | FRESHNESS_NO_CACHE_NO_VALIDATOR => "cache.py"
  | CURRENT_AGE => "cache.py"
  | FRESHNESS_FRESH => "cache.py"
  | FRESHNESS_SHARED_PRIVATE => "cache.py"
  | FRESHNESS_STALE_ALREADY => "cache.py"
  | FRESHNESS_HEURISTIC => "cache.py"
  | FRESHNESS_NONE => "cache.py"
  | STALE_SERVABLE => "cache.py"
  | STALE_IF_ERROR => "cache.py"
  | STALE_WHILE_REVALIDATE => "cache.py"
  | FRESH_MUST_REVALIDATE => "cache.py"
  | STALE_MUST_REVALIDATE => "cache.py"
  | FRESH_PROXY_REVALIDATE => "cache.py"
  | STALE_PROXY_REVALIDATE => "cache.py"
  | CC_AND_EXPIRES => "cache.py"
  | CHARSET_MISMATCH => "charset.py"
  | CHARSET_IMPLICIT_MISMATCH => "charset.py"
  | CHARSET_UNDECODABLE => "charset.py"
  | DECOMPRESSION_LIMIT => "content_encoding.py"
  | BAD_GZIP => "content_encoding.py"
  | BAD_ZLIB => "content_encoding.py"
  | BAD_BROTLI => "content_encoding.py"
  | CONTENT_TYPE_MISMATCH => "content_type.py"
  | FIELD_NAME_BAD_SYNTAX => "field/__init__.py"
  | BAD_SYNTAX => "field/__init__.py"
  | BAD_SYNTAX_DETAILED => "field/__init__.py"
  | REQUEST_HDR_IN_RESPONSE => "field/__init__.py"
  | RESPONSE_HDR_IN_REQUEST => "field/__init__.py"
  | FIELD_DEPRECATED => "field/__init__.py"
  | CORS_PREFLIGHT_REQUEST => "field/cors.py"
  | CORS_PREFLIGHT_REQ_METHOD_WRONG => "field/cors.py"
  | CORS_PREFLIGHT_REQ_NO_ORIGIN => "field/cors.py"
  | CORS_PREFLIGHT_REQ_NO_METHOD => "field/cors.py"
  | CORS_PREFLIGHT_RESPONSE => "field/cors.py"
  | CORS_PREFLIGHT_ONLY => "field/cors.py"
  | ACAO_MULTIPLE_VALUES => "field/cors.py"
  | ACAC_NOT_TRUE => "field/cors.py"
  | CORS_ORIGIN_MATCH => "field/cors.py"
  | CORS_ORIGIN_MISMATCH => "field/cors.py"
  | CORS_ORIGIN_NULL => "field/cors.py"
  | CORS_ORIGIN_STAR => "field/cors.py"
  | BAD_JSON => "field/json_field.py"
  | BAD_Q_VALUE => "field/parsers/accept.py"
  | ACCEPT_BAD_SYNTAX => "field/parsers/accept.py"
  | ACCEPT_CH_IN_PLAIN_HTTP => "field/parsers/accept_ch.py"
  | ACCEPT_CH_MISSING_VARY => "field/parsers/accept_ch.py"
  | ACCEPT_CH_BAD_TYPE => "field/parsers/accept_ch.py"
  | BAD_Q_VALUE_accept_language => "field/parsers/accept_language.py"
  | ACCEPT_LANGUAGE_BAD_SYNTAX => "field/parsers/accept_language.py"
  | ACCEPT_PATCH_BAD_SYNTAX => "field/parsers/accept_patch.py"
  | ACCEPT_POST_BAD_SYNTAX => "field/parsers/accept_post.py"
  | ACCEPT_QUERY_BAD_TYPE => "field/parsers/accept_query.py"
  | ACCEPT_QUERY_BAD_SYNTAX => "field/parsers/accept_query.py"
  | UNKNOWN_RANGE => "field/parsers/accept_ranges.py"
  | CORS_MAX_AGE_INVALID => "field/parsers/access_control_max_age.py"
  | CORS_MAX_AGE_NEGATIVE => "field/parsers/access_control_max_age.py"
  | AGE_NOT_INT => "field/parsers/age.py"
  | AGE_NEGATIVE => "field/parsers/age.py"
  | AGE_LARGE => "field/parsers/age.py"
  | ALTSVC_CLEAR_LIST => "field/parsers/alt_svc.py"
  | AVAILABLE_DICTIONARY_MISSING_AE => "field/parsers/available_dictionary.py"
  | AVAILABLE_DICTIONARY_BAD_TYPE => "field/parsers/available_dictionary.py"
  | CC_SHOULD_NOT_HAVE_VALUE => "field/parsers/cache_control.py"
  | CC_BAD_VALUE_TYPE => "field/parsers/cache_control.py"
  | CC_MAX_AGE_TOO_LARGE => "field/parsers/cache_control.py"
  | CC_MISCAP => "field/parsers/cache_control.py"
  | CC_DUP => "field/parsers/cache_control.py"
  | CC_CONFLICTING => "field/parsers/cache_control.py"
  | CC_WRONG_MESSAGE => "field/parsers/cache_control.py"
  | CHECK_SINGLE => "field/parsers/cache_control.py"
  | CHECK_ALL_ZERO => "field/parsers/cache_control.py"
  | CHECK_POST_BIGGER => "field/parsers/cache_control.py"
  | CHECK_POST_ZERO => "field/parsers/cache_control.py"
  | CHECK_POST_PRE => "field/parsers/cache_control.py"
  | CACHE_GROUP_INVALIDATION_BAD_TYPE => "field/parsers/cache_group_invalidation.py"
  | CACHE_GROUP_INVALIDATION_IGNORED => "field/parsers/cache_group_invalidation.py"
  | CACHE_GROUPS_BAD_TYPE => "field/parsers/cache_groups.py"
  | CACHE_STATUS => "field/parsers/cache_status.py"
  | CACHE_STATUS_UNKNOWN_PARAM => "field/parsers/cache_status.py"
  | CACHE_STATUS_BAD_PARAM_VAL => "field/parsers/cache_status.py"
  | BAD_CDN_CC_TYPE => "field/parsers/cdn_cache_control.py"
  | CDN_CACHE_CONTROL_PRESENT => "field/parsers/cdn_cache_control.py"
  | CSD_PRESENT => "field/parsers/clear_site_data.py"
  | CSD_UNKNOWN_VALUE => "field/parsers/clear_site_data.py"
  | CSD_EMPTY => "field/parsers/clear_site_data.py"
  | CSD_UNQUOTED => "field/parsers/clear_site_data.py"
  | DISPOSITION_UNKNOWN => "field/parsers/content_disposition.py"
  | DISPOSITION_OMITS_FILENAME => "field/parsers/content_disposition.py"
  | DISPOSITION_FILENAME_PERCENT => "field/parsers/content_disposition.py"
  | DISPOSITION_FILENAME_PATH_CHAR => "field/parsers/content_disposition.py"
  | DICTIONARY_COMPRESSED_MISSING_VARY => "field/parsers/content_encoding.py"
  | ENCODING_UNWANTED => "field/parsers/content_encoding.py"
  | CONTENT_LANGUAGE_DUP => "field/parsers/content_language.py"
  | CL_BAD_SYNTAX => "field/parsers/content_length.py"
  | CL_AND_TE_PRESENT => "field/parsers/content_length.py"
  | CL_TOO_LARGE => "field/parsers/content_length.py"
  | CONTENT_RANGE_MEANINGLESS => "field/parsers/content_range.py"
  | CONTENT_RANGE_MISSING_UNIT => "field/parsers/content_range.py"
  | CONTENT_RANGE_INVALID_ASTERISK => "field/parsers/content_range.py"
  | CONTENT_RANGE_MISSING_SLASH => "field/parsers/content_range.py"
  | RANGE_MISSING_HYPHEN => "field/parsers/content_range.py"
  | RANGE_INVALID_INTEGER => "field/parsers/content_range.py"
  | RANGE_INVALID => "field/parsers/content_range.py"
  | CONTENT_RANGE_UNSATISFIED_BAD_SC => "field/parsers/content_range.py"
  | CONTENT_RANGE_UNKNOWN_LENGTH => "field/parsers/content_range.py"
  | CONTENT_SECURITY_POLICY => "field/parsers/content_security_policy.py"
  | CSP_UNSAFE_INLINE => "field/parsers/content_security_policy.py"
  | CSP_UNSAFE_EVAL => "field/parsers/content_security_policy.py"
  | CSP_HTTP_URI => "field/parsers/content_security_policy.py"
  | CSP_DUPLICATE_DIRECTIVE => "field/parsers/content_security_policy.py"
  | CSP_DEPRECATED_REPORT_URI => "field/parsers/content_security_policy.py"
  | CSP_WIDE_OPEN => "field/parsers/content_security_policy.py"
  | CSP_REPORT_TO_MISSING => "field/parsers/content_security_policy.py"
  | COEP_REQUIRE_CORP => "field/parsers/cross_origin_embedder_policy.py"
  | COEP_CREDENTIALLESS => "field/parsers/cross_origin_embedder_policy.py"
  | COEP_UNSAFE_NONE => "field/parsers/cross_origin_embedder_policy.py"
  | CROSS_ORIGIN_EMBEDDER_POLICY_BAD_VALUE => "field/parsers/cross_origin_embedder_policy.py"
  | COEP_REPORT_TO_MISSING => "field/parsers/cross_origin_embedder_policy.py"
  | COEP_REPORT_ONLY_DUPLICATE => "field/parsers/cross_origin_embedder_policy_report_only.py"
  | COOP_SAME_ORIGIN => "field/parsers/cross_origin_opener_policy.py"
  | COOP_SAME_ORIGIN_ALLOW_POPUPS => "field/parsers/cross_origin_opener_policy.py"
  | COOP_UNSAFE_NONE => "field/parsers/cross_origin_opener_policy.py"
  | CROSS_ORIGIN_OPENER_POLICY_BAD_VALUE => "field/parsers/cross_origin_opener_policy.py"
  | COOP_REPORT_TO_MISSING => "field/parsers/cross_origin_opener_policy.py"
  | COOP_REPORT_ONLY_DUPLICATE => "field/parsers/cross_origin_opener_policy_report_only.py"
  | CORP_SAME_ORIGIN => "field/parsers/cross_origin_resource_policy.py"
  | CORP_SAME_SITE => "field/parsers/cross_origin_resource_policy.py"
  | CORP_CROSS_ORIGIN => "field/parsers/cross_origin_resource_policy.py"
  | CROSS_ORIGIN_RESOURCE_POLICY_BAD_VALUE => "field/parsers/cross_origin_resource_policy.py"
  | DATE_CORRECT => "field/parsers/date.py"
  | DATE_INCORRECT => "field/parsers/date.py"
  | AGE_PENALTY => "field/parsers/date.py"
  | DEPRECATION_PAST => "field/parsers/deprecation.py"
  | DEPRECATION_FUTURE => "field/parsers/deprecation.py"
  | DEPRECATION_TRUE => "field/parsers/deprecation.py"
  | DEPRECATION_BAD_TYPE => "field/parsers/deprecation.py"
  | EXPECT_UNKNOWN => "field/parsers/expect.py"
  | EXPECT_HTTP_1_0 => "field/parsers/expect.py"
  | LM_FUTURE => "field/parsers/last_modified.py"
  | LM_PRESENT => "field/parsers/last_modified.py"
  | LINK_RESOURCE_HINTS => "field/parsers/link.py"
  | LINK_BAD_HINT_TARGET => "field/parsers/link.py"
  | LINK_REV => "field/parsers/link.py"
  | LINK_BAD_ANCHOR => "field/parsers/link.py"
  | LINK_BAD_TYPE => "field/parsers/link.py"
  | LOCATION_UNDEFINED => "field/parsers/location.py"
  | LOCATION_NOT_ABSOLUTE => "field/parsers/location.py"
  | MAX_FORWARDS_IGNORED => "field/parsers/max_forwards.py"
  | NEL_BAD_STRUCTURE => "field/parsers/nel.py"
  | NEL_MISSING_KEY => "field/parsers/nel.py"
  | NEL_BAD_TYPE => "field/parsers/nel.py"
  | NEL_BAD_VALUE => "field/parsers/nel.py"
  | NEL_CONFIGURED => "field/parsers/nel.py"
  | NEL_REPORT_TO_MISSING => "field/parsers/nel.py"
  | BAD_ORIGIN_SYNTAX => "field/parsers/origin.py"
  | ORIGIN_MULTIPLE_VALUES => "field/parsers/origin.py"
  | PERMISSIONS_POLICY_PRESENT => "field/parsers/permissions_policy.py"
  | PERMISSIONS_POLICY_WILDCARD => "field/parsers/permissions_policy.py"
  | PERMISSIONS_POLICY_INVALID_VALUE => "field/parsers/permissions_policy.py"
  | PERMISSIONS_POLICY_UNKNOWN_TOKEN => "field/parsers/permissions_policy.py"
  | PERMISSIONS_POLICY_QUOTED_KEYWORD => "field/parsers/permissions_policy.py"
  | PERMISSIONS_POLICY_INVALID_ITEM_TYPE => "field/parsers/permissions_policy.py"
  | PRAGMA_OTHER => "field/parsers/pragma.py"
  | PROXY_STATUS => "field/parsers/proxy_status.py"
  | PROXY_STATUS_UNKNOWN_PARAM => "field/parsers/proxy_status.py"
  | PROXY_STATUS_BAD_PARAM_VAL => "field/parsers/proxy_status.py"
  | RANGE_INVALID_range => "field/parsers/range.py"
  | RANGE_BAD_SYNTAX => "field/parsers/range.py"
  | REFERER_SECURE_TO_INSECURE => "field/parsers/referer.py"
  | REFERER_SECURE_TO_DIFFERENT_ORIGIN => "field/parsers/referer.py"
  | REFERRER_POLICY_STRICT => "field/parsers/referrer_policy.py"
  | REFERRER_POLICY_UNSAFE => "field/parsers/referrer_policy.py"
  | REFERRER_POLICY_UNKNOWN => "field/parsers/referrer_policy.py"
  | REFERRER_POLICY_EMPTY => "field/parsers/referrer_policy.py"
  | REFERRER_POLICY_MULTIPLE => "field/parsers/referrer_policy.py"
  | REPORT_TO_BAD_STRUCTURE => "field/parsers/report_to.py"
  | REPORT_TO_MISSING_KEY => "field/parsers/report_to.py"
  | REPORT_TO_BAD_TYPE => "field/parsers/report_to.py"
  | ENDPOINT_NOT_SECURE => "field/parsers/reporting_endpoints.py"
  | BAD_REPORTING_ENDPOINT_SYNTAX => "field/parsers/reporting_endpoints.py"
  | SERVER_TOO_LONG => "field/parsers/server.py"
  | SERVER_TIMING_BAD_PARAM => "field/parsers/server_timing.py"
  | SERVER_TIMING_MISSING_DUR => "field/parsers/server_timing.py"
  | SERVER_TIMING_MISSING_DESC => "field/parsers/server_timing.py"
  | SET_COOKIE_NO_NAME => "field/parsers/set_cookie.py"
  | SET_COOKIE_BAD_DATE => "field/parsers/set_cookie.py"
  | SET_COOKIE_EMPTY_MAX_AGE => "field/parsers/set_cookie.py"
  | SET_COOKIE_LEADING_ZERO_MAX_AGE => "field/parsers/set_cookie.py"
  | SET_COOKIE_NON_DIGIT_MAX_AGE => "field/parsers/set_cookie.py"
  | SET_COOKIE_EMPTY_DOMAIN => "field/parsers/set_cookie.py"
  | SET_COOKIE_NOT_SECURE => "field/parsers/set_cookie.py"
  | SET_COOKIE_UNKNOWN_ATTRIBUTE => "field/parsers/set_cookie.py"
  | SET_COOKIE_PRIORITY => "field/parsers/set_cookie.py"
  | SET_COOKIE_VERSION => "field/parsers/set_cookie.py"
  | SET_COOKIE_UNKNOWN_ATTRIBUTE_VALUE => "field/parsers/set_cookie.py"
  | SET_COOKIE_PARTITIONED_NO_SECURE => "field/parsers/set_cookie.py"
  | SET_COOKIE_TOO_LARGE => "field/parsers/set_cookie.py"
  | SET_COOKIE_VALUE_TOO_LARGE => "field/parsers/set_cookie.py"
  | SET_COOKIE_LIFETIME_TOO_LONG => "field/parsers/set_cookie.py"
  | SET_COOKIE_PREFIX_SECURE_MISSING => "field/parsers/set_cookie.py"
  | SET_COOKIE_PREFIX_HOST_BAD_DOMAIN => "field/parsers/set_cookie.py"
  | SET_COOKIE_PREFIX_HOST_BAD_PATH => "field/parsers/set_cookie.py"
  | SET_COOKIE_ATTRIBUTE_DUP => "field/parsers/set_cookie.py"
  | SET_COOKIE_HARDENED => "field/parsers/set_cookie.py"
  | SET_COOKIE_NAME_DUP => "field/parsers/set_cookie.py"
  | SPECULATION_RULE_NOT_SECURE => "field/parsers/speculation_rules.py"
  | SPECULATION_RULES_BAD_TYPE => "field/parsers/speculation_rules.py"
  | HSTS_VALID => "field/parsers/strict_transport_security.py"
  | HSTS_INVALID => "field/parsers/strict_transport_security.py"
  | HSTS_NO_MAX_AGE => "field/parsers/strict_transport_security.py"
  | HSTS_MAX_AGE_ZERO => "field/parsers/strict_transport_security.py"
  | HSTS_SHORT_MAX_AGE => "field/parsers/strict_transport_security.py"
  | HSTS_SUBDOMAINS => "field/parsers/strict_transport_security.py"
  | HSTS_NO_SUBDOMAINS => "field/parsers/strict_transport_security.py"
  | HSTS_PRELOAD => "field/parsers/strict_transport_security.py"
  | HSTS_PRELOAD_NOT_SUITABLE => "field/parsers/strict_transport_security.py"
  | HSTS_NO_PRELOAD => "field/parsers/strict_transport_security.py"
  | HSTS_DUPLICATE_DIRECTIVE => "field/parsers/strict_transport_security.py"
  | HSTS_TRAILING_SEMICOLON => "field/parsers/strict_transport_security.py"
  | HSTS_OVER_HTTP => "field/parsers/strict_transport_security.py"
  | HSTS_BAD_MAX_AGE => "field/parsers/strict_transport_security.py"
  | HSTS_VALUE_NOT_ALLOWED => "field/parsers/strict_transport_security.py"
  | SUNSET_PAST => "field/parsers/sunset.py"
  | TRANSFER_CODING_IDENTITY => "field/parsers/transfer_encoding.py"
  | TRANSFER_CODING_UNWANTED => "field/parsers/transfer_encoding.py"
  | TRANSFER_CODING_PARAM => "field/parsers/transfer_encoding.py"
  | USE_AS_DICTIONARY_BAD_TYPE => "field/parsers/use_as_dictionary.py"
  | USE_AS_DICTIONARY_BAD_MATCH_DEST => "field/parsers/use_as_dictionary.py"
  | VARY_ASTERISK => "field/parsers/vary.py"
  | VARY_USER_AGENT => "field/parsers/vary.py"
  | VARY_HOST => "field/parsers/vary.py"
  | VARY_NEGOTIATE => "field/parsers/vary.py"
  | VARY_DUPLICATE => "field/parsers/vary.py"
  | VARY_COMPLEX => "field/parsers/vary.py"
  | VIA_PRESENT => "field/parsers/via.py"
  | CONTENT_TYPE_OPTIONS => "field/parsers/x_content_type_options.py"
  | CONTENT_TYPE_OPTIONS_UNKNOWN => "field/parsers/x_content_type_options.py"
  | FRAME_OPTIONS_DENY => "field/parsers/x_frame_options.py"
  | FRAME_OPTIONS_SAMEORIGIN => "field/parsers/x_frame_options.py"
  | FRAME_OPTIONS_UNKNOWN => "field/parsers/x_frame_options.py"
  | FIELD_TOO_LARGE => "field/section.py"
  | FIELD_SECTION_TOO_LARGE => "field/section.py"
  | FIELD_NAME_ENCODING => "field/section.py"
  | FIELD_VALUE_ENCODING => "field/section.py"
  | SINGLE_HEADER_REPEAT => "field/singleton_field.py"
  | DUPLICATE_KEY => "field/structured_field.py"
  | STRUCTURED_FIELD_PARSE_ERROR => "field/structured_field.py"
  | UNNECESSARY_HEADER => "field/unnecessary.py"
  | MEDIA_TYPE_BAD_NAME => "field/utils.py"
  | MEDIA_TYPE_LONG_NAME => "field/utils.py"
  | PARAM_REPEATS => "field/utils.py"
  | PARAM_SINGLE_QUOTED => "field/utils.py"
  | PARAM_STAR_BAD => "field/utils.py"
  | PARAM_STAR_QUOTED => "field/utils.py"
  | PARAM_STAR_ERROR => "field/utils.py"
  | PARAM_STAR_NOCHARSET => "field/utils.py"
  | PARAM_STAR_CHARSET => "field/utils.py"
  | BAD_DATE_SYNTAX => "field/utils.py"
  | DATE_OBSOLETE => "field/utils.py"
  | CL_CORRECT => "message.py"
  | CL_INCORRECT => "message.py"
  | CONTENT_NOT_ALLOWED => "message.py"
  | REQUEST_CONTENT_NOT_DEFINED => "message.py"
  | URI_TOO_LONG => "message.py"
  | URI_BAD_SYNTAX => "message.py"
  | STATUS_CODE_NON_NUMERIC => "message.py"
  | STATUS_PHRASE_ENCODING => "message.py"
  | MISSING_USER_AGENT => "message.py"
  | NO_DATE_304 => "status.py"
  | HEADER_SHOULD_NOT_BE_IN_304 => "status.py"
  | UNEXPECTED_CONTINUE => "status.py"
  | UPGRADE_NOT_REQUESTED => "status.py"
  | CREATED_SAFE_METHOD => "status.py"
  | CREATED_WITHOUT_LOCATION => "status.py"
  | PARTIAL_WITHOUT_RANGE => "status.py"
  | PARTIAL_NOT_REQUESTED => "status.py"
  | REDIRECT_WITHOUT_LOCATION => "status.py"
  | STATUS_DEPRECATED => "status.py"
  | STATUS_RESERVED => "status.py"
  | STATUS_NONSTANDARD => "status.py"
  | STATUS_BAD_REQUEST => "status.py"
  | STATUS_FORBIDDEN => "status.py"
  | STATUS_METHOD_NOT_ALLOWED => "status.py"
  | STATUS_405_METHOD_IN_ALLOW => "status.py"
  | STATUS_NOT_FOUND => "status.py"
  | STATUS_NOT_ACCEPTABLE => "status.py"
  | STATUS_406_WITHOUT_NEGOTIATION => "status.py"
  | STATUS_CONFLICT => "status.py"
  | STATUS_GONE => "status.py"
  | STATUS_REQUEST_ENTITY_TOO_LARGE => "status.py"
  | STATUS_URI_TOO_LONG => "status.py"
  | STATUS_UNSUPPORTED_MEDIA_TYPE => "status.py"
  | STATUS_IM_A_TEAPOT => "status.py"
  | STATUS_INTERNAL_SERVICE_ERROR => "status.py"
  | STATUS_NOT_IMPLEMENTED => "status.py"
  | STATUS_BAD_GATEWAY => "status.py"
  | STATUS_SERVICE_UNAVAILABLE => "status.py"
  | STATUS_GATEWAY_TIMEOUT => "status.py"
  | STATUS_VERSION_NOT_SUPPORTED => "status.py"
  | STATUS_PRECONDITION_FAILED => "status.py"
  | STATUS_EXPECTATION_FAILED => "status.py"
  | STATUS_412_WITHOUT_PRECONDITION => "status.py"
  | STATUS_416_WITHOUT_RANGE => "status.py"
  | STATUS_417_WITHOUT_EXPECT => "status.py"
  | STATUS_417_WITH_100_CONTINUE => "status.py"
  | STATUS_EARLY_HINTS => "status.py"
  | STATUS_UPLOAD_RESUMPTION_SUPPORTED => "status.py"
  | STATUS_ALREADY_REPORTED => "status.py"
  | STATUS_MISDIRECTED_REQUEST => "status.py"
  | STATUS_TOO_EARLY => "status.py"
  | STATUS_PRECONDITION_REQUIRED => "status.py"
  | STATUS_TOO_MANY_REQUESTS => "status.py"
  | STATUS_REQUEST_HEADER_FIELDS_TOO_LARGE => "status.py"
  | STATUS_UNAVAILABLE_FOR_LEGAL_REASONS => "status.py"
  | STATUS_LOOP_DETECTED => "status.py"
  | STATUS_NETWORK_AUTHENTICATION_REQUIRED => "status.py"
  end.

Definition nid_code (n : nid) : N :=
  match n with
  | DATE_CLOCKLESS => 0
  | DATE_CLOCKLESS_BAD_HDR => 1
  | STORE_METHOD_UNCACHEABLE => 2
  | STORE_NO_STORE => 3
  | STORE_PRIVATE_CC => 4
  | STORE_PRIVATE_PUBLIC_CONFLICT => 5
  | STORE_PRIVATE_AUTH => 6
  | STORE_PUBLIC_AUTH => 7
  | STORE_PUBLIC_UNNECESSARY => 8
  | STORE_STORABLE => 9
  | STORE_STORABLE_SHARED_ONLY => 10
  | STORE_UNSTORABLE => 11
  | FRESHNESS_NO_CACHE => 12
  | FRESHNESS_NO_CACHE_NO_VALIDATOR => 13
  | CURRENT_AGE => 14
  | FRESHNESS_FRESH => 15
  | FRESHNESS_SHARED_PRIVATE => 16
  | FRESHNESS_STALE_ALREADY => 17
  | FRESHNESS_HEURISTIC => 18
  | FRESHNESS_NONE => 19
  | STALE_SERVABLE => 20
  | STALE_IF_ERROR => 21
  | STALE_WHILE_REVALIDATE => 22
  | FRESH_MUST_REVALIDATE => 23
  | STALE_MUST_REVALIDATE => 24
  | FRESH_PROXY_REVALIDATE => 25
  | STALE_PROXY_REVALIDATE => 26
  | CC_AND_EXPIRES => 27
  | CHARSET_MISMATCH => 28
  | CHARSET_IMPLICIT_MISMATCH => 29
  | CHARSET_UNDECODABLE => 30
  | DECOMPRESSION_LIMIT => 31
  | BAD_GZIP => 32
  | BAD_ZLIB => 33
  | BAD_BROTLI => 34
  | CONTENT_TYPE_MISMATCH => 35
  | FIELD_NAME_BAD_SYNTAX => 36
  | BAD_SYNTAX => 37
  | BAD_SYNTAX_DETAILED => 38
  | REQUEST_HDR_IN_RESPONSE => 39
  | RESPONSE_HDR_IN_REQUEST => 40
  | FIELD_DEPRECATED => 41
  | CORS_PREFLIGHT_REQUEST => 42
  | CORS_PREFLIGHT_REQ_METHOD_WRONG => 43
  | CORS_PREFLIGHT_REQ_NO_ORIGIN => 44
  | CORS_PREFLIGHT_REQ_NO_METHOD => 45
  | CORS_PREFLIGHT_RESPONSE => 46
  | CORS_PREFLIGHT_ONLY => 47
  | ACAO_MULTIPLE_VALUES => 48
  | ACAC_NOT_TRUE => 49
  | CORS_ORIGIN_MATCH => 50
  | CORS_ORIGIN_MISMATCH => 51
  | CORS_ORIGIN_NULL => 52
  | CORS_ORIGIN_STAR => 53
  | BAD_JSON => 54
  | BAD_Q_VALUE => 55
  | ACCEPT_BAD_SYNTAX => 56
  | ACCEPT_CH_IN_PLAIN_HTTP => 57
  | ACCEPT_CH_MISSING_VARY => 58
  | ACCEPT_CH_BAD_TYPE => 59
  | BAD_Q_VALUE_accept_language => 60
  | ACCEPT_LANGUAGE_BAD_SYNTAX => 61
  | ACCEPT_PATCH_BAD_SYNTAX => 62
  | ACCEPT_POST_BAD_SYNTAX => 63
  | ACCEPT_QUERY_BAD_TYPE => 64
  | ACCEPT_QUERY_BAD_SYNTAX => 65
  | UNKNOWN_RANGE => 66
  | CORS_MAX_AGE_INVALID => 67
  | CORS_MAX_AGE_NEGATIVE => 68
  | AGE_NOT_INT => 69
  | AGE_NEGATIVE => 70
  | AGE_LARGE => 71
  | ALTSVC_CLEAR_LIST => 72
  | AVAILABLE_DICTIONARY_MISSING_AE => 73
  | AVAILABLE_DICTIONARY_BAD_TYPE => 74
  | CC_SHOULD_NOT_HAVE_VALUE => 75
  | CC_BAD_VALUE_TYPE => 76
  | CC_MAX_AGE_TOO_LARGE => 77
  | CC_MISCAP => 78
  | CC_DUP => 79
  | CC_CONFLICTING => 80
  | CC_WRONG_MESSAGE => 81
  | CHECK_SINGLE => 82
  | CHECK_ALL_ZERO => 83
  | CHECK_POST_BIGGER => 84
  | CHECK_POST_ZERO => 85
  | CHECK_POST_PRE => 86
  | CACHE_GROUP_INVALIDATION_BAD_TYPE => 87
  | CACHE_GROUP_INVALIDATION_IGNORED => 88
  | CACHE_GROUPS_BAD_TYPE => 89
  | CACHE_STATUS => 90
  | CACHE_STATUS_UNKNOWN_PARAM => 91
  | CACHE_STATUS_BAD_PARAM_VAL => 92
  | BAD_CDN_CC_TYPE => 93
  | CDN_CACHE_CONTROL_PRESENT => 94
  | CSD_PRESENT => 95
  | CSD_UNKNOWN_VALUE => 96
  | CSD_EMPTY => 97
  | CSD_UNQUOTED => 98
  | DISPOSITION_UNKNOWN => 99
  | DISPOSITION_OMITS_FILENAME => 100
  | DISPOSITION_FILENAME_PERCENT => 101
  | DISPOSITION_FILENAME_PATH_CHAR => 102
  | DICTIONARY_COMPRESSED_MISSING_VARY => 103
  | ENCODING_UNWANTED => 104
  | CONTENT_LANGUAGE_DUP => 105
  | CL_BAD_SYNTAX => 106
  | CL_AND_TE_PRESENT => 107
  | CL_TOO_LARGE => 108
  | CONTENT_RANGE_MEANINGLESS => 109
  | CONTENT_RANGE_MISSING_UNIT => 110
  | CONTENT_RANGE_INVALID_ASTERISK => 111
  | CONTENT_RANGE_MISSING_SLASH => 112
  | RANGE_MISSING_HYPHEN => 113
  | RANGE_INVALID_INTEGER => 114
  | RANGE_INVALID => 115
  | CONTENT_RANGE_UNSATISFIED_BAD_SC => 116
  | CONTENT_RANGE_UNKNOWN_LENGTH => 117
  | CONTENT_SECURITY_POLICY => 118
  | CSP_UNSAFE_INLINE => 119
  | CSP_UNSAFE_EVAL => 120
  | CSP_HTTP_URI => 121
  | CSP_DUPLICATE_DIRECTIVE => 122
  | CSP_DEPRECATED_REPORT_URI => 123
  | CSP_WIDE_OPEN => 124
  | CSP_REPORT_TO_MISSING => 125
  | COEP_REQUIRE_CORP => 126
  | COEP_CREDENTIALLESS => 127
  | COEP_UNSAFE_NONE => 128
  | CROSS_ORIGIN_EMBEDDER_POLICY_BAD_VALUE => 129
  | COEP_REPORT_TO_MISSING => 130
  | COEP_REPORT_ONLY_DUPLICATE => 131
  | COOP_SAME_ORIGIN => 132
  | COOP_SAME_ORIGIN_ALLOW_POPUPS => 133
  | COOP_UNSAFE_NONE => 134
  | CROSS_ORIGIN_OPENER_POLICY_BAD_VALUE => 135
  | COOP_REPORT_TO_MISSING => 136
  | COOP_REPORT_ONLY_DUPLICATE => 137
  | CORP_SAME_ORIGIN => 138
  | CORP_SAME_SITE => 139
  | CORP_CROSS_ORIGIN => 140
  | CROSS_ORIGIN_RESOURCE_POLICY_BAD_VALUE => 141
  | DATE_CORRECT => 142
  | DATE_INCORRECT => 143
  | AGE_PENALTY => 144
  | DEPRECATION_PAST => 145
  | DEPRECATION_FUTURE => 146
  | DEPRECATION_TRUE => 147
  | DEPRECATION_BAD_TYPE => 148
  | EXPECT_UNKNOWN => 149
  | EXPECT_HTTP_1_0 => 150
  | LM_FUTURE => 151
  | LM_PRESENT => 152
  | LINK_RESOURCE_HINTS => 153
  | LINK_BAD_HINT_TARGET => 154
  | LINK_REV => 155
  | LINK_BAD_ANCHOR => 156
  | LINK_BAD_TYPE => 157
  | LOCATION_UNDEFINED => 158
  | LOCATION_NOT_ABSOLUTE => 159
  | MAX_FORWARDS_IGNORED => 160
  | NEL_BAD_STRUCTURE => 161
  | NEL_MISSING_KEY => 162
  | NEL_BAD_TYPE => 163
  | NEL_BAD_VALUE => 164
  | NEL_CONFIGURED => 165
  | NEL_REPORT_TO_MISSING => 166
  | BAD_ORIGIN_SYNTAX => 167
  | ORIGIN_MULTIPLE_VALUES => 168
  | PERMISSIONS_POLICY_PRESENT => 169
  | PERMISSIONS_POLICY_WILDCARD => 170
  | PERMISSIONS_POLICY_INVALID_VALUE => 171
  | PERMISSIONS_POLICY_UNKNOWN_TOKEN => 172
  | PERMISSIONS_POLICY_QUOTED_KEYWORD => 173
  | PERMISSIONS_POLICY_INVALID_ITEM_TYPE => 174
  | PRAGMA_OTHER => 175
  | PROXY_STATUS => 176
  | PROXY_STATUS_UNKNOWN_PARAM => 177
  | PROXY_STATUS_BAD_PARAM_VAL => 178
  | RANGE_INVALID_range => 179
  | RANGE_BAD_SYNTAX => 180
  | REFERER_SECURE_TO_INSECURE => 181
  | REFERER_SECURE_TO_DIFFERENT_ORIGIN => 182
  | REFERRER_POLICY_STRICT => 183
  | REFERRER_POLICY_UNSAFE => 184
  | REFERRER_POLICY_UNKNOWN => 185
  | REFERRER_POLICY_EMPTY => 186
  | REFERRER_POLICY_MULTIPLE => 187
  | REPORT_TO_BAD_STRUCTURE => 188
  | REPORT_TO_MISSING_KEY => 189
  | REPORT_TO_BAD_TYPE => 190
  | ENDPOINT_NOT_SECURE => 191
  | BAD_REPORTING_ENDPOINT_SYNTAX => 192
  | SERVER_TOO_LONG => 193
  | SERVER_TIMING_BAD_PARAM => 194
  | SERVER_TIMING_MISSING_DUR => 195
  | SERVER_TIMING_MISSING_DESC => 196
  | SET_COOKIE_NO_NAME => 197
  | SET_COOKIE_BAD_DATE => 198
  | SET_COOKIE_EMPTY_MAX_AGE => 199
  | SET_COOKIE_LEADING_ZERO_MAX_AGE => 200
  | SET_COOKIE_NON_DIGIT_MAX_AGE => 201
  | SET_COOKIE_EMPTY_DOMAIN => 202
  | SET_COOKIE_NOT_SECURE => 203
  | SET_COOKIE_UNKNOWN_ATTRIBUTE => 204
  | SET_COOKIE_PRIORITY => 205
  | SET_COOKIE_VERSION => 206
  | SET_COOKIE_UNKNOWN_ATTRIBUTE_VALUE => 207
  | SET_COOKIE_PARTITIONED_NO_SECURE => 208
  | SET_COOKIE_TOO_LARGE => 209
  | SET_COOKIE_VALUE_TOO_LARGE => 210
  | SET_COOKIE_LIFETIME_TOO_LONG => 211
  | SET_COOKIE_PREFIX_SECURE_MISSING => 212
  | SET_COOKIE_PREFIX_HOST_BAD_DOMAIN => 213
  | SET_COOKIE_PREFIX_HOST_BAD_PATH => 214
  | SET_COOKIE_ATTRIBUTE_DUP => 215
  | SET_COOKIE_HARDENED => 216
  | SET_COOKIE_NAME_DUP => 217
  | SPECULATION_RULE_NOT_SECURE => 218
  | SPECULATION_RULES_BAD_TYPE => 219
  | HSTS_VALID => 220
  | HSTS_INVALID => 221
  | HSTS_NO_MAX_AGE => 222
  | HSTS_MAX_AGE_ZERO => 223
  | HSTS_SHORT_MAX_AGE => 224
  | HSTS_SUBDOMAINS => 225
  | HSTS_NO_SUBDOMAINS => 226
  | HSTS_PRELOAD => 227
  | HSTS_PRELOAD_NOT_SUITABLE => 228
  | HSTS_NO_PRELOAD => 229
  | HSTS_DUPLICATE_DIRECTIVE => 230
  | HSTS_TRAILING_SEMICOLON => 231
  | HSTS_OVER_HTTP => 232
  | HSTS_BAD_MAX_AGE => 233
  | HSTS_VALUE_NOT_ALLOWED => 234
  | SUNSET_PAST => 235
  | TRANSFER_CODING_IDENTITY => 236
  | TRANSFER_CODING_UNWANTED => 237
  | TRANSFER_CODING_PARAM => 238
  | USE_AS_DICTIONARY_BAD_TYPE => 239
  | USE_AS_DICTIONARY_BAD_MATCH_DEST => 240
  | VARY_ASTERISK => 241
  | VARY_USER_AGENT => 242
  | VARY_HOST => 243
  | VARY_NEGOTIATE => 244
  | VARY_DUPLICATE => 245
  | VARY_COMPLEX => 246
  | VIA_PRESENT => 247
  | CONTENT_TYPE_OPTIONS => 248
  | CONTENT_TYPE_OPTIONS_UNKNOWN => 249
  | FRAME_OPTIONS_DENY => 250
  | FRAME_OPTIONS_SAMEORIGIN => 251
  | FRAME_OPTIONS_UNKNOWN => 252
  | FIELD_TOO_LARGE => 253
  | FIELD_SECTION_TOO_LARGE => 254
  | FIELD_NAME_ENCODING => 255
  | FIELD_VALUE_ENCODING => 256
  | SINGLE_HEADER_REPEAT => 257
  | DUPLICATE_KEY => 258
  | STRUCTURED_FIELD_PARSE_ERROR => 259
  | UNNECESSARY_HEADER => 260
  | MEDIA_TYPE_BAD_NAME => 261
  | MEDIA_TYPE_LONG_NAME => 262
  | PARAM_REPEATS => 263
  | PARAM_SINGLE_QUOTED => 264
  | PARAM_STAR_BAD => 265
  | PARAM_STAR_QUOTED => 266
  | PARAM_STAR_ERROR => 267
  | PARAM_STAR_NOCHARSET => 268
  | PARAM_STAR_CHARSET => 269
  | BAD_DATE_SYNTAX => 270
  | DATE_OBSOLETE => 271
  | CL_CORRECT => 272
  | CL_INCORRECT => 273
  | CONTENT_NOT_ALLOWED => 274
  | REQUEST_CONTENT_NOT_DEFINED => 275
  | URI_TOO_LONG => 276
  | URI_BAD_SYNTAX => 277
  | STATUS_CODE_NON_NUMERIC => 278
  | STATUS_PHRASE_ENCODING => 279
  | MISSING_USER_AGENT => 280
  | NO_DATE_304 => 281
  | HEADER_SHOULD_NOT_BE_IN_304 => 282
  | UNEXPECTED_CONTINUE => 283
  | UPGRADE_NOT_REQUESTED => 284
  | CREATED_SAFE_METHOD => 285
  | CREATED_WITHOUT_LOCATION => 286
  | PARTIAL_WITHOUT_RANGE => 287
  | PARTIAL_NOT_REQUESTED => 288
  | REDIRECT_WITHOUT_LOCATION => 289
  | STATUS_DEPRECATED => 290
  | STATUS_RESERVED => 291
  | STATUS_NONSTANDARD => 292
  | STATUS_BAD_REQUEST => 293
  | STATUS_FORBIDDEN => 294
  | STATUS_METHOD_NOT_ALLOWED => 295
  | STATUS_405_METHOD_IN_ALLOW => 296
  | STATUS_NOT_FOUND => 297
  | STATUS_NOT_ACCEPTABLE => 298
  | STATUS_406_WITHOUT_NEGOTIATION => 299
  | STATUS_CONFLICT => 300
  | STATUS_GONE => 301
  | STATUS_REQUEST_ENTITY_TOO_LARGE => 302
  | STATUS_URI_TOO_LONG => 303
  | STATUS_UNSUPPORTED_MEDIA_TYPE => 304
  | STATUS_IM_A_TEAPOT => 305
  | STATUS_INTERNAL_SERVICE_ERROR => 306
  | STATUS_NOT_IMPLEMENTED => 307
  | STATUS_BAD_GATEWAY => 308
  | STATUS_SERVICE_UNAVAILABLE => 309
  | STATUS_GATEWAY_TIMEOUT => 310
  | STATUS_VERSION_NOT_SUPPORTED => 311
  | STATUS_PRECONDITION_FAILED => 312
  | STATUS_EXPECTATION_FAILED => 313
  | STATUS_412_WITHOUT_PRECONDITION => 314
  | STATUS_416_WITHOUT_RANGE => 315
  | STATUS_417_WITHOUT_EXPECT => 316
  | STATUS_417_WITH_100_CONTINUE => 317
  | STATUS_EARLY_HINTS => 318
  | STATUS_UPLOAD_RESUMPTION_SUPPORTED => 319
  | STATUS_ALREADY_REPORTED => 320
  | STATUS_MISDIRECTED_REQUEST => 321
  | STATUS_TOO_EARLY => 322
  | STATUS_PRECONDITION_REQUIRED => 323
  | STATUS_TOO_MANY_REQUESTS => 324
  | STATUS_REQUEST_HEADER_FIELDS_TOO_LARGE => 325
  | STATUS_UNAVAILABLE_FOR_LEGAL_REASONS => 326
  | STATUS_LOOP_DETECTED => 327
  | STATUS_NETWORK_AUTHENTICATION_REQUIRED => 328
  end%N.

Definition all_nids : list nid :=
  [DATE_CLOCKLESS;
   DATE_CLOCKLESS_BAD_HDR;
   STORE_METHOD_UNCACHEABLE;
   STORE_NO_STORE;
   STORE_PRIVATE_CC;
   STORE_PRIVATE_PUBLIC_CONFLICT;
   STORE_PRIVATE_AUTH;
   STORE_PUBLIC_AUTH;
   STORE_PUBLIC_UNNECESSARY;
   STORE_STORABLE;
   STORE_STORABLE_SHARED_ONLY;
   STORE_UNSTORABLE;
   FRESHNESS_NO_CACHE;
   FRESHNESS_NO_CACHE_NO_VALIDATOR;
   CURRENT_AGE;
   FRESHNESS_FRESH;
   FRESHNESS_SHARED_PRIVATE;
   FRESHNESS_STALE_ALREADY;
   FRESHNESS_HEURISTIC;
   FRESHNESS_NONE;
   STALE_SERVABLE;
   STALE_IF_ERROR;
   STALE_WHILE_REVALIDATE;
   FRESH_MUST_REVALIDATE;
   STALE_MUST_REVALIDATE;
   FRESH_PROXY_REVALIDATE;
   STALE_PROXY_REVALIDATE;
   CC_AND_EXPIRES;
   CHARSET_MISMATCH;
   CHARSET_IMPLICIT_MISMATCH;
   CHARSET_UNDECODABLE;
   DECOMPRESSION_LIMIT;
   BAD_GZIP;
   BAD_ZLIB;
   BAD_BROTLI;
   CONTENT_TYPE_MISMATCH;
   FIELD_NAME_BAD_SYNTAX;
   BAD_SYNTAX;
   BAD_SYNTAX_DETAILED;
   REQUEST_HDR_IN_RESPONSE;
   RESPONSE_HDR_IN_REQUEST;
   FIELD_DEPRECATED;
   CORS_PREFLIGHT_REQUEST;
   CORS_PREFLIGHT_REQ_METHOD_WRONG;
   CORS_PREFLIGHT_REQ_NO_ORIGIN;
   CORS_PREFLIGHT_REQ_NO_METHOD;
   CORS_PREFLIGHT_RESPONSE;
   CORS_PREFLIGHT_ONLY;
   ACAO_MULTIPLE_VALUES;
   ACAC_NOT_TRUE;
   CORS_ORIGIN_MATCH;
   CORS_ORIGIN_MISMATCH;
   CORS_ORIGIN_NULL;
   CORS_ORIGIN_STAR;
   BAD_JSON;
   BAD_Q_VALUE;
   ACCEPT_BAD_SYNTAX;
   ACCEPT_CH_IN_PLAIN_HTTP;
   ACCEPT_CH_MISSING_VARY;
   ACCEPT_CH_BAD_TYPE;
   BAD_Q_VALUE_accept_language;
   ACCEPT_LANGUAGE_BAD_SYNTAX;
   ACCEPT_PATCH_BAD_SYNTAX;
   ACCEPT_POST_BAD_SYNTAX;
   ACCEPT_QUERY_BAD_TYPE;
   ACCEPT_QUERY_BAD_SYNTAX;
   UNKNOWN_RANGE;
   CORS_MAX_AGE_INVALID;
   CORS_MAX_AGE_NEGATIVE;
   AGE_NOT_INT;
   AGE_NEGATIVE;
   AGE_LARGE;
   ALTSVC_CLEAR_LIST;
   AVAILABLE_DICTIONARY_MISSING_AE;
   AVAILABLE_DICTIONARY_BAD_TYPE;
   CC_SHOULD_NOT_HAVE_VALUE;
   CC_BAD_VALUE_TYPE;
   CC_MAX_AGE_TOO_LARGE;
   CC_MISCAP;
   CC_DUP;
   CC_CONFLICTING;
   CC_WRONG_MESSAGE;
   CHECK_SINGLE;
   CHECK_ALL_ZERO;
   CHECK_POST_BIGGER;
   CHECK_POST_ZERO;
   CHECK_POST_PRE;
   CACHE_GROUP_INVALIDATION_BAD_TYPE;
   CACHE_GROUP_INVALIDATION_IGNORED;
   CACHE_GROUPS_BAD_TYPE;
   CACHE_STATUS;
   CACHE_STATUS_UNKNOWN_PARAM;
   CACHE_STATUS_BAD_PARAM_VAL;
   BAD_CDN_CC_TYPE;
   CDN_CACHE_CONTROL_PRESENT;
   CSD_PRESENT;
   CSD_UNKNOWN_VALUE;
   CSD_EMPTY;
   CSD_UNQUOTED;
   DISPOSITION_UNKNOWN;
   DISPOSITION_OMITS_FILENAME;
   DISPOSITION_FILENAME_PERCENT;
   DISPOSITION_FILENAME_PATH_CHAR;
   DICTIONARY_COMPRESSED_MISSING_VARY;
   ENCODING_UNWANTED;
   CONTENT_LANGUAGE_DUP;
   CL_BAD_SYNTAX;
   CL_AND_TE_PRESENT;
   CL_TOO_LARGE;
   CONTENT_RANGE_MEANINGLESS;
   CONTENT_RANGE_MISSING_UNIT;
   CONTENT_RANGE_INVALID_ASTERISK;
   CONTENT_RANGE_MISSING_SLASH;
   RANGE_MISSING_HYPHEN;
   RANGE_INVALID_INTEGER;
   RANGE_INVALID;
   CONTENT_RANGE_UNSATISFIED_BAD_SC;
   CONTENT_RANGE_UNKNOWN_LENGTH;
   CONTENT_SECURITY_POLICY;
   CSP_UNSAFE_INLINE;
   CSP_UNSAFE_EVAL;
   CSP_HTTP_URI;
   CSP_DUPLICATE_DIRECTIVE;
   CSP_DEPRECATED_REPORT_URI;
   CSP_WIDE_OPEN;
   CSP_REPORT_TO_MISSING;
   COEP_REQUIRE_CORP;
   COEP_CREDENTIALLESS;
   COEP_UNSAFE_NONE;
   CROSS_ORIGIN_EMBEDDER_POLICY_BAD_VALUE;
   COEP_REPORT_TO_MISSING;
   COEP_REPORT_ONLY_DUPLICATE;
   COOP_SAME_ORIGIN;
   COOP_SAME_ORIGIN_ALLOW_POPUPS;
   COOP_UNSAFE_NONE;
   CROSS_ORIGIN_OPENER_POLICY_BAD_VALUE;
   COOP_REPORT_TO_MISSING;
   COOP_REPORT_ONLY_DUPLICATE;
   CORP_SAME_ORIGIN;
   CORP_SAME_SITE;
   CORP_CROSS_ORIGIN;
   CROSS_ORIGIN_RESOURCE_POLICY_BAD_VALUE;
   DATE_CORRECT;
   DATE_INCORRECT;
   AGE_PENALTY;
   DEPRECATION_PAST;
   DEPRECATION_FUTURE;
   DEPRECATION_TRUE;
   DEPRECATION_BAD_TYPE;
   EXPECT_UNKNOWN;
   EXPECT_HTTP_1_0;
   LM_FUTURE;
   LM_PRESENT;
   LINK_RESOURCE_HINTS;
   LINK_BAD_HINT_TARGET;
   LINK_REV;
   LINK_BAD_ANCHOR;
   LINK_BAD_TYPE;
   LOCATION_UNDEFINED;
   LOCATION_NOT_ABSOLUTE;
   MAX_FORWARDS_IGNORED;
   NEL_BAD_STRUCTURE;
   NEL_MISSING_KEY;
   NEL_BAD_TYPE;
   NEL_BAD_VALUE;
   NEL_CONFIGURED;
   NEL_REPORT_TO_MISSING;
   BAD_ORIGIN_SYNTAX;
   ORIGIN_MULTIPLE_VALUES;
   PERMISSIONS_POLICY_PRESENT;
   PERMISSIONS_POLICY_WILDCARD;
   PERMISSIONS_POLICY_INVALID_VALUE;
   PERMISSIONS_POLICY_UNKNOWN_TOKEN;
   PERMISSIONS_POLICY_QUOTED_KEYWORD;
   PERMISSIONS_POLICY_INVALID_ITEM_TYPE;
   PRAGMA_OTHER;
   PROXY_STATUS;
   PROXY_STATUS_UNKNOWN_PARAM;
   PROXY_STATUS_BAD_PARAM_VAL;
   RANGE_INVALID_range;
   RANGE_BAD_SYNTAX;
   REFERER_SECURE_TO_INSECURE;
   REFERER_SECURE_TO_DIFFERENT_ORIGIN;
   REFERRER_POLICY_STRICT;
   REFERRER_POLICY_UNSAFE;
   REFERRER_POLICY_UNKNOWN;
   REFERRER_POLICY_EMPTY;
   REFERRER_POLICY_MULTIPLE;
   REPORT_TO_BAD_STRUCTURE;
   REPORT_TO_MISSING_KEY;
   REPORT_TO_BAD_TYPE;
   ENDPOINT_NOT_SECURE;
   BAD_REPORTING_ENDPOINT_SYNTAX;
   SERVER_TOO_LONG;
   SERVER_TIMING_BAD_PARAM;
   SERVER_TIMING_MISSING_DUR;
   SERVER_TIMING_MISSING_DESC;
   SET_COOKIE_NO_NAME;
   SET_COOKIE_BAD_DATE;
   SET_COOKIE_EMPTY_MAX_AGE;
   SET_COOKIE_LEADING_ZERO_MAX_AGE;
   SET_COOKIE_NON_DIGIT_MAX_AGE;
   SET_COOKIE_EMPTY_DOMAIN;
   SET_COOKIE_NOT_SECURE;
   SET_COOKIE_UNKNOWN_ATTRIBUTE;
   SET_COOKIE_PRIORITY;
   SET_COOKIE_VERSION;
   SET_COOKIE_UNKNOWN_ATTRIBUTE_VALUE;
   SET_COOKIE_PARTITIONED_NO_SECURE;
   SET_COOKIE_TOO_LARGE;
   SET_COOKIE_VALUE_TOO_LARGE;
   SET_COOKIE_LIFETIME_TOO_LONG;
   SET_COOKIE_PREFIX_SECURE_MISSING;
   SET_COOKIE_PREFIX_HOST_BAD_DOMAIN;
   SET_COOKIE_PREFIX_HOST_BAD_PATH;
   SET_COOKIE_ATTRIBUTE_DUP;
   SET_COOKIE_HARDENED;
   SET_COOKIE_NAME_DUP;
   SPECULATION_RULE_NOT_SECURE;
   SPECULATION_RULES_BAD_TYPE;
   HSTS_VALID;
   HSTS_INVALID;
   HSTS_NO_MAX_AGE;
   HSTS_MAX_AGE_ZERO;
   HSTS_SHORT_MAX_AGE;
   HSTS_SUBDOMAINS;
   HSTS_NO_SUBDOMAINS;
   HSTS_PRELOAD;
   HSTS_PRELOAD_NOT_SUITABLE;
   HSTS_NO_PRELOAD;
   HSTS_DUPLICATE_DIRECTIVE;
   HSTS_TRAILING_SEMICOLON;
   HSTS_OVER_HTTP;
   HSTS_BAD_MAX_AGE;
   HSTS_VALUE_NOT_ALLOWED;
   SUNSET_PAST;
   TRANSFER_CODING_IDENTITY;
   TRANSFER_CODING_UNWANTED;
   TRANSFER_CODING_PARAM;
   USE_AS_DICTIONARY_BAD_TYPE;
   USE_AS_DICTIONARY_BAD_MATCH_DEST;
   VARY_ASTERISK;
   VARY_USER_AGENT;
   VARY_HOST;
   VARY_NEGOTIATE;
   VARY_DUPLICATE;
   VARY_COMPLEX;
   VIA_PRESENT;
   CONTENT_TYPE_OPTIONS;
   CONTENT_TYPE_OPTIONS_UNKNOWN;
   FRAME_OPTIONS_DENY;
   FRAME_OPTIONS_SAMEORIGIN;
   FRAME_OPTIONS_UNKNOWN;
   FIELD_TOO_LARGE;
   FIELD_SECTION_TOO_LARGE;
   FIELD_NAME_ENCODING;
   FIELD_VALUE_ENCODING;
   SINGLE_HEADER_REPEAT;
   DUPLICATE_KEY;
   STRUCTURED_FIELD_PARSE_ERROR;
   UNNECESSARY_HEADER;
   MEDIA_TYPE_BAD_NAME;
   MEDIA_TYPE_LONG_NAME;
   PARAM_REPEATS;
   PARAM_SINGLE_QUOTED;
   PARAM_STAR_BAD;
   PARAM_STAR_QUOTED;
   PARAM_STAR_ERROR;
   PARAM_STAR_NOCHARSET;
   PARAM_STAR_CHARSET;
   BAD_DATE_SYNTAX;
   DATE_OBSOLETE;
   CL_CORRECT;
   CL_INCORRECT;
   CONTENT_NOT_ALLOWED;
   REQUEST_CONTENT_NOT_DEFINED;
   URI_TOO_LONG;
   URI_BAD_SYNTAX;
   STATUS_CODE_NON_NUMERIC;
   STATUS_PHRASE_ENCODING;
   MISSING_USER_AGENT;
   NO_DATE_304;
   HEADER_SHOULD_NOT_BE_IN_304;
   UNEXPECTED_CONTINUE;
   UPGRADE_NOT_REQUESTED;
   CREATED_SAFE_METHOD;
   CREATED_WITHOUT_LOCATION;
   PARTIAL_WITHOUT_RANGE;
   PARTIAL_NOT_REQUESTED;
   REDIRECT_WITHOUT_LOCATION;
   STATUS_DEPRECATED;
   STATUS_RESERVED;
   STATUS_NONSTANDARD;
   STATUS_BAD_REQUEST;
   STATUS_FORBIDDEN;
   STATUS_METHOD_NOT_ALLOWED;
   STATUS_405_METHOD_IN_ALLOW;
   STATUS_NOT_FOUND;
   STATUS_NOT_ACCEPTABLE;
   STATUS_406_WITHOUT_NEGOTIATION;
   STATUS_CONFLICT;
   STATUS_GONE;
   STATUS_REQUEST_ENTITY_TOO_LARGE;
   STATUS_URI_TOO_LONG;
   STATUS_UNSUPPORTED_MEDIA_TYPE;
   STATUS_IM_A_TEAPOT;
   STATUS_INTERNAL_SERVICE_ERROR;
   STATUS_NOT_IMPLEMENTED;
   STATUS_BAD_GATEWAY;
   STATUS_SERVICE_UNAVAILABLE;
   STATUS_GATEWAY_TIMEOUT;
   STATUS_VERSION_NOT_SUPPORTED;
   STATUS_PRECONDITION_FAILED;
   STATUS_EXPECTATION_FAILED;
   STATUS_412_WITHOUT_PRECONDITION;
   STATUS_416_WITHOUT_RANGE;
   STATUS_417_WITHOUT_EXPECT;
   STATUS_417_WITH_100_CONTINUE;
   STATUS_EARLY_HINTS;
   STATUS_UPLOAD_RESUMPTION_SUPPORTED;
   STATUS_ALREADY_REPORTED;
   STATUS_MISDIRECTED_REQUEST;
   STATUS_TOO_EARLY;
   STATUS_PRECONDITION_REQUIRED;
   STATUS_TOO_MANY_REQUESTS;
   STATUS_REQUEST_HEADER_FIELDS_TOO_LARGE;
   STATUS_UNAVAILABLE_FOR_LEGAL_REASONS;
   STATUS_LOOP_DETECTED;
   STATUS_NETWORK_AUTHENTICATION_REQUIRED].

Definition nid_level (n : nid) : level :=
  match n with
  | DATE_CLOCKLESS => WARN
  | DATE_CLOCKLESS_BAD_HDR => BAD
  | STORE_METHOD_UNCACHEABLE => INFO
  | STORE_NO_STORE => INFO
  | STORE_PRIVATE_CC => INFO
  | STORE_PRIVATE_PUBLIC_CONFLICT => BAD
  | STORE_PRIVATE_AUTH => INFO
  | STORE_PUBLIC_AUTH => INFO
  | STORE_PUBLIC_UNNECESSARY => WARN
  | STORE_STORABLE => INFO
  | STORE_STORABLE_SHARED_ONLY => INFO
  | STORE_UNSTORABLE => INFO
  | FRESHNESS_NO_CACHE => INFO
  | FRESHNESS_NO_CACHE_NO_VALIDATOR => WARN
  | CURRENT_AGE => INFO
  | FRESHNESS_FRESH => GOOD
  | FRESHNESS_SHARED_PRIVATE => GOOD
  | FRESHNESS_STALE_ALREADY => INFO
  | FRESHNESS_HEURISTIC => WARN
  | FRESHNESS_NONE => INFO
  | STALE_SERVABLE => INFO
  | STALE_IF_ERROR => INFO
  | STALE_WHILE_REVALIDATE => INFO
  | FRESH_MUST_REVALIDATE => INFO
  | STALE_MUST_REVALIDATE => INFO
  | FRESH_PROXY_REVALIDATE => INFO
  | STALE_PROXY_REVALIDATE => INFO
  | CC_AND_EXPIRES => INFO
  | CHARSET_MISMATCH => WARN
  | CHARSET_IMPLICIT_MISMATCH => WARN
  | CHARSET_UNDECODABLE => BAD
  | DECOMPRESSION_LIMIT => BAD
  | BAD_GZIP => BAD
  | BAD_ZLIB => BAD
  | BAD_BROTLI => BAD
  | CONTENT_TYPE_MISMATCH => WARN
  | FIELD_NAME_BAD_SYNTAX => BAD
  | BAD_SYNTAX => WARN
  | BAD_SYNTAX_DETAILED => BAD
  | REQUEST_HDR_IN_RESPONSE => BAD
  | RESPONSE_HDR_IN_REQUEST => BAD
  | FIELD_DEPRECATED => WARN
  | CORS_PREFLIGHT_REQUEST => INFO
  | CORS_PREFLIGHT_REQ_METHOD_WRONG => BAD
  | CORS_PREFLIGHT_REQ_NO_ORIGIN => BAD
  | CORS_PREFLIGHT_REQ_NO_METHOD => BAD
  | CORS_PREFLIGHT_RESPONSE => INFO
  | CORS_PREFLIGHT_ONLY => BAD
  | ACAO_MULTIPLE_VALUES => BAD
  | ACAC_NOT_TRUE => BAD
  | CORS_ORIGIN_MATCH => INFO
  | CORS_ORIGIN_MISMATCH => INFO
  | CORS_ORIGIN_NULL => INFO
  | CORS_ORIGIN_STAR => INFO
  | BAD_JSON => BAD
  | BAD_Q_VALUE => WARN
  | ACCEPT_BAD_SYNTAX => BAD
  | ACCEPT_CH_IN_PLAIN_HTTP => WARN
  | ACCEPT_CH_MISSING_VARY => WARN
  | ACCEPT_CH_BAD_TYPE => BAD
  | BAD_Q_VALUE_accept_language => WARN
  | ACCEPT_LANGUAGE_BAD_SYNTAX => BAD
  | ACCEPT_PATCH_BAD_SYNTAX => BAD
  | ACCEPT_POST_BAD_SYNTAX => BAD
  | ACCEPT_QUERY_BAD_TYPE => BAD
  | ACCEPT_QUERY_BAD_SYNTAX => BAD
  | UNKNOWN_RANGE => WARN
  | CORS_MAX_AGE_INVALID => BAD
  | CORS_MAX_AGE_NEGATIVE => BAD
  | AGE_NOT_INT => BAD
  | AGE_NEGATIVE => BAD
  | AGE_LARGE => WARN
  | ALTSVC_CLEAR_LIST => BAD
  | AVAILABLE_DICTIONARY_MISSING_AE => WARN
  | AVAILABLE_DICTIONARY_BAD_TYPE => WARN
  | CC_SHOULD_NOT_HAVE_VALUE => BAD
  | CC_BAD_VALUE_TYPE => BAD
  | CC_MAX_AGE_TOO_LARGE => WARN
  | CC_MISCAP => WARN
  | CC_DUP => WARN
  | CC_CONFLICTING => WARN
  | CC_WRONG_MESSAGE => WARN
  | CHECK_SINGLE => WARN
  | CHECK_ALL_ZERO => WARN
  | CHECK_POST_BIGGER => WARN
  | CHECK_POST_ZERO => BAD
  | CHECK_POST_PRE => INFO
  | CACHE_GROUP_INVALIDATION_BAD_TYPE => WARN
  | CACHE_GROUP_INVALIDATION_IGNORED => WARN
  | CACHE_GROUPS_BAD_TYPE => WARN
  | CACHE_STATUS => INFO
  | CACHE_STATUS_UNKNOWN_PARAM => INFO
  | CACHE_STATUS_BAD_PARAM_VAL => WARN
  | BAD_CDN_CC_TYPE => BAD
  | CDN_CACHE_CONTROL_PRESENT => INFO
  | CSD_PRESENT => GOOD
  | CSD_UNKNOWN_VALUE => WARN
  | CSD_EMPTY => WARN
  | CSD_UNQUOTED => INFO
  | DISPOSITION_UNKNOWN => WARN
  | DISPOSITION_OMITS_FILENAME => WARN
  | DISPOSITION_FILENAME_PERCENT => WARN
  | DISPOSITION_FILENAME_PATH_CHAR => WARN
  | DICTIONARY_COMPRESSED_MISSING_VARY => WARN
  | ENCODING_UNWANTED => WARN
  | CONTENT_LANGUAGE_DUP => INFO
  | CL_BAD_SYNTAX => BAD
  | CL_AND_TE_PRESENT => BAD
  | CL_TOO_LARGE => WARN
  | CONTENT_RANGE_MEANINGLESS => WARN
  | CONTENT_RANGE_MISSING_UNIT => BAD
  | CONTENT_RANGE_INVALID_ASTERISK => BAD
  | CONTENT_RANGE_MISSING_SLASH => BAD
  | RANGE_MISSING_HYPHEN => BAD
  | RANGE_INVALID_INTEGER => BAD
  | RANGE_INVALID => BAD
  | CONTENT_RANGE_UNSATISFIED_BAD_SC => WARN
  | CONTENT_RANGE_UNKNOWN_LENGTH => INFO
  | CONTENT_SECURITY_POLICY => GOOD
  | CSP_UNSAFE_INLINE => WARN
  | CSP_UNSAFE_EVAL => WARN
  | CSP_HTTP_URI => WARN
  | CSP_DUPLICATE_DIRECTIVE => WARN
  | CSP_DEPRECATED_REPORT_URI => WARN
  | CSP_WIDE_OPEN => WARN
  | CSP_REPORT_TO_MISSING => WARN
  | COEP_REQUIRE_CORP => GOOD
  | COEP_CREDENTIALLESS => GOOD
  | COEP_UNSAFE_NONE => WARN
  | CROSS_ORIGIN_EMBEDDER_POLICY_BAD_VALUE => BAD
  | COEP_REPORT_TO_MISSING => WARN
  | COEP_REPORT_ONLY_DUPLICATE => WARN
  | COOP_SAME_ORIGIN => GOOD
  | COOP_SAME_ORIGIN_ALLOW_POPUPS => GOOD
  | COOP_UNSAFE_NONE => WARN
  | CROSS_ORIGIN_OPENER_POLICY_BAD_VALUE => BAD
  | COOP_REPORT_TO_MISSING => WARN
  | COOP_REPORT_ONLY_DUPLICATE => WARN
  | CORP_SAME_ORIGIN => GOOD
  | CORP_SAME_SITE => GOOD
  | CORP_CROSS_ORIGIN => INFO
  | CROSS_ORIGIN_RESOURCE_POLICY_BAD_VALUE => WARN
  | DATE_CORRECT => GOOD
  | DATE_INCORRECT => BAD
  | AGE_PENALTY => WARN
  | DEPRECATION_PAST => WARN
  | DEPRECATION_FUTURE => WARN
  | DEPRECATION_TRUE => WARN
  | DEPRECATION_BAD_TYPE => BAD
  | EXPECT_UNKNOWN => WARN
  | EXPECT_HTTP_1_0 => INFO
  | LM_FUTURE => BAD
  | LM_PRESENT => INFO
  | LINK_RESOURCE_HINTS => GOOD
  | LINK_BAD_HINT_TARGET => WARN
  | LINK_REV => WARN
  | LINK_BAD_ANCHOR => WARN
  | LINK_BAD_TYPE => WARN
  | LOCATION_UNDEFINED => WARN
  | LOCATION_NOT_ABSOLUTE => INFO
  | MAX_FORWARDS_IGNORED => WARN
  | NEL_BAD_STRUCTURE => BAD
  | NEL_MISSING_KEY => WARN
  | NEL_BAD_TYPE => WARN
  | NEL_BAD_VALUE => WARN
  | NEL_CONFIGURED => GOOD
  | NEL_REPORT_TO_MISSING => WARN
  | BAD_ORIGIN_SYNTAX => BAD
  | ORIGIN_MULTIPLE_VALUES => WARN
  | PERMISSIONS_POLICY_PRESENT => GOOD
  | PERMISSIONS_POLICY_WILDCARD => WARN
  | PERMISSIONS_POLICY_INVALID_VALUE => WARN
  | PERMISSIONS_POLICY_UNKNOWN_TOKEN => WARN
  | PERMISSIONS_POLICY_QUOTED_KEYWORD => WARN
  | PERMISSIONS_POLICY_INVALID_ITEM_TYPE => WARN
  | PRAGMA_OTHER => WARN
  | PROXY_STATUS => INFO
  | PROXY_STATUS_UNKNOWN_PARAM => INFO
  | PROXY_STATUS_BAD_PARAM_VAL => WARN
  | RANGE_INVALID_range => BAD
  | RANGE_BAD_SYNTAX => BAD
  | REFERER_SECURE_TO_INSECURE => BAD
  | REFERER_SECURE_TO_DIFFERENT_ORIGIN => WARN
  | REFERRER_POLICY_STRICT => GOOD
  | REFERRER_POLICY_UNSAFE => WARN
  | REFERRER_POLICY_UNKNOWN => WARN
  | REFERRER_POLICY_EMPTY => INFO
  | REFERRER_POLICY_MULTIPLE => WARN
  | REPORT_TO_BAD_STRUCTURE => BAD
  | REPORT_TO_MISSING_KEY => WARN
  | REPORT_TO_BAD_TYPE => WARN
  | ENDPOINT_NOT_SECURE => WARN
  | BAD_REPORTING_ENDPOINT_SYNTAX => BAD
  | SERVER_TOO_LONG => INFO
  | SERVER_TIMING_BAD_PARAM => WARN
  | SERVER_TIMING_MISSING_DUR => INFO
  | SERVER_TIMING_MISSING_DESC => INFO
  | SET_COOKIE_NO_NAME => BAD
  | SET_COOKIE_BAD_DATE => WARN
  | SET_COOKIE_EMPTY_MAX_AGE => WARN
  | SET_COOKIE_LEADING_ZERO_MAX_AGE => WARN
  | SET_COOKIE_NON_DIGIT_MAX_AGE => WARN
  | SET_COOKIE_EMPTY_DOMAIN => WARN
  | SET_COOKIE_NOT_SECURE => WARN
  | SET_COOKIE_UNKNOWN_ATTRIBUTE => WARN
  | SET_COOKIE_PRIORITY => WARN
  | SET_COOKIE_VERSION => WARN
  | SET_COOKIE_UNKNOWN_ATTRIBUTE_VALUE => WARN
  | SET_COOKIE_PARTITIONED_NO_SECURE => WARN
  | SET_COOKIE_TOO_LARGE => BAD
  | SET_COOKIE_VALUE_TOO_LARGE => INFO
  | SET_COOKIE_LIFETIME_TOO_LONG => WARN
  | SET_COOKIE_PREFIX_SECURE_MISSING => BAD
  | SET_COOKIE_PREFIX_HOST_BAD_DOMAIN => BAD
  | SET_COOKIE_PREFIX_HOST_BAD_PATH => BAD
  | SET_COOKIE_ATTRIBUTE_DUP => WARN
  | SET_COOKIE_HARDENED => GOOD
  | SET_COOKIE_NAME_DUP => WARN
  | SPECULATION_RULE_NOT_SECURE => WARN
  | SPECULATION_RULES_BAD_TYPE => BAD
  | HSTS_VALID => GOOD
  | HSTS_INVALID => BAD
  | HSTS_NO_MAX_AGE => BAD
  | HSTS_MAX_AGE_ZERO => WARN
  | HSTS_SHORT_MAX_AGE => WARN
  | HSTS_SUBDOMAINS => INFO
  | HSTS_NO_SUBDOMAINS => WARN
  | HSTS_PRELOAD => GOOD
  | HSTS_PRELOAD_NOT_SUITABLE => BAD
  | HSTS_NO_PRELOAD => INFO
  | HSTS_DUPLICATE_DIRECTIVE => WARN
  | HSTS_TRAILING_SEMICOLON => INFO
  | HSTS_OVER_HTTP => WARN
  | HSTS_BAD_MAX_AGE => BAD
  | HSTS_VALUE_NOT_ALLOWED => BAD
  | SUNSET_PAST => WARN
  | TRANSFER_CODING_IDENTITY => INFO
  | TRANSFER_CODING_UNWANTED => BAD
  | TRANSFER_CODING_PARAM => WARN
  | USE_AS_DICTIONARY_BAD_TYPE => WARN
  | USE_AS_DICTIONARY_BAD_MATCH_DEST => WARN
  | VARY_ASTERISK => WARN
  | VARY_USER_AGENT => WARN
  | VARY_HOST => WARN
  | VARY_NEGOTIATE => INFO
  | VARY_DUPLICATE => WARN
  | VARY_COMPLEX => WARN
  | VIA_PRESENT => INFO
  | CONTENT_TYPE_OPTIONS => GOOD
  | CONTENT_TYPE_OPTIONS_UNKNOWN => WARN
  | FRAME_OPTIONS_DENY => GOOD
  | FRAME_OPTIONS_SAMEORIGIN => GOOD
  | FRAME_OPTIONS_UNKNOWN => WARN
  | FIELD_TOO_LARGE => WARN
  | FIELD_SECTION_TOO_LARGE => WARN
  | FIELD_NAME_ENCODING => BAD
  | FIELD_VALUE_ENCODING => WARN
  | SINGLE_HEADER_REPEAT => BAD
  | DUPLICATE_KEY => WARN
  | STRUCTURED_FIELD_PARSE_ERROR => BAD
  | UNNECESSARY_HEADER => INFO
  | MEDIA_TYPE_BAD_NAME => WARN
  | MEDIA_TYPE_LONG_NAME => WARN
  | PARAM_REPEATS => WARN
  | PARAM_SINGLE_QUOTED => WARN
  | PARAM_STAR_BAD => BAD
  | PARAM_STAR_QUOTED => BAD
  | PARAM_STAR_ERROR => BAD
  | PARAM_STAR_NOCHARSET => WARN
  | PARAM_STAR_CHARSET => WARN
  | BAD_DATE_SYNTAX => BAD
  | DATE_OBSOLETE => WARN
  | CL_CORRECT => GOOD
  | CL_INCORRECT => BAD
  | CONTENT_NOT_ALLOWED => BAD
  | REQUEST_CONTENT_NOT_DEFINED => BAD
  | URI_TOO_LONG => WARN
  | URI_BAD_SYNTAX => BAD
  | STATUS_CODE_NON_NUMERIC => BAD
  | STATUS_PHRASE_ENCODING => BAD
  | MISSING_USER_AGENT => WARN
  | NO_DATE_304 => WARN
  | HEADER_SHOULD_NOT_BE_IN_304 => WARN
  | UNEXPECTED_CONTINUE => BAD
  | UPGRADE_NOT_REQUESTED => BAD
  | CREATED_SAFE_METHOD => WARN
  | CREATED_WITHOUT_LOCATION => BAD
  | PARTIAL_WITHOUT_RANGE => BAD
  | PARTIAL_NOT_REQUESTED => BAD
  | REDIRECT_WITHOUT_LOCATION => BAD
  | STATUS_DEPRECATED => BAD
  | STATUS_RESERVED => BAD
  | STATUS_NONSTANDARD => BAD
  | STATUS_BAD_REQUEST => WARN
  | STATUS_FORBIDDEN => INFO
  | STATUS_METHOD_NOT_ALLOWED => INFO
  | STATUS_405_METHOD_IN_ALLOW => WARN
  | STATUS_NOT_FOUND => INFO
  | STATUS_NOT_ACCEPTABLE => INFO
  | STATUS_406_WITHOUT_NEGOTIATION => WARN
  | STATUS_CONFLICT => INFO
  | STATUS_GONE => INFO
  | STATUS_REQUEST_ENTITY_TOO_LARGE => INFO
  | STATUS_URI_TOO_LONG => BAD
  | STATUS_UNSUPPORTED_MEDIA_TYPE => INFO
  | STATUS_IM_A_TEAPOT => WARN
  | STATUS_INTERNAL_SERVICE_ERROR => INFO
  | STATUS_NOT_IMPLEMENTED => INFO
  | STATUS_BAD_GATEWAY => INFO
  | STATUS_SERVICE_UNAVAILABLE => INFO
  | STATUS_GATEWAY_TIMEOUT => INFO
  | STATUS_VERSION_NOT_SUPPORTED => BAD
  | STATUS_PRECONDITION_FAILED => INFO
  | STATUS_EXPECTATION_FAILED => INFO
  | STATUS_412_WITHOUT_PRECONDITION => WARN
  | STATUS_416_WITHOUT_RANGE => WARN
  | STATUS_417_WITHOUT_EXPECT => WARN
  | STATUS_417_WITH_100_CONTINUE => INFO
  | STATUS_EARLY_HINTS => INFO
  | STATUS_UPLOAD_RESUMPTION_SUPPORTED => INFO
  | STATUS_ALREADY_REPORTED => INFO
  | STATUS_MISDIRECTED_REQUEST => INFO
  | STATUS_TOO_EARLY => INFO
  | STATUS_PRECONDITION_REQUIRED => INFO
  | STATUS_TOO_MANY_REQUESTS => INFO
  | STATUS_REQUEST_HEADER_FIELDS_TOO_LARGE => INFO
  | STATUS_UNAVAILABLE_FOR_LEGAL_REASONS => INFO
  | STATUS_LOOP_DETECTED => INFO
  | STATUS_NETWORK_AUTHENTICATION_REQUIRED => INFO
  end.

Definition nid_category (n : nid) : category :=
  match n with
  | DATE_CLOCKLESS => GENERAL
  | DATE_CLOCKLESS_BAD_HDR => CACHING
  | STORE_METHOD_UNCACHEABLE => CACHING
  | STORE_NO_STORE => CACHING
  | STORE_PRIVATE_CC => CACHING
  | STORE_PRIVATE_PUBLIC_CONFLICT => CACHING
  | STORE_PRIVATE_AUTH => CACHING
  | STORE_PUBLIC_AUTH => CACHING
  | STORE_PUBLIC_UNNECESSARY => CACHING
  | STORE_STORABLE => CACHING
  | STORE_STORABLE_SHARED_ONLY => CACHING
  | STORE_UNSTORABLE => CACHING
  | FRESHNESS_NO_CACHE => CACHING
  | FRESHNESS_NO_CACHE_NO_VALIDATOR => CACHING
  | CURRENT_AGE => CACHING
  | FRESHNESS_FRESH => CACHING
  | FRESHNESS_SHARED_PRIVATE => CACHING
  | FRESHNESS_STALE_ALREADY => CACHING
  | FRESHNESS_HEURISTIC => CACHING
  | FRESHNESS_NONE => CACHING
  | STALE_SERVABLE => CACHING
  | STALE_IF_ERROR => CACHING
  | STALE_WHILE_REVALIDATE => CACHING
  | FRESH_MUST_REVALIDATE => CACHING
  | STALE_MUST_REVALIDATE => CACHING
  | FRESH_PROXY_REVALIDATE => CACHING
  | STALE_PROXY_REVALIDATE => CACHING
  | CC_AND_EXPIRES => CACHING
  | CHARSET_MISMATCH => GENERAL
  | CHARSET_IMPLICIT_MISMATCH => GENERAL
  | CHARSET_UNDECODABLE => GENERAL
  | DECOMPRESSION_LIMIT => CONNEG
  | BAD_GZIP => CONNEG
  | BAD_ZLIB => CONNEG
  | BAD_BROTLI => CONNEG
  | CONTENT_TYPE_MISMATCH => GENERAL
  | FIELD_NAME_BAD_SYNTAX => GENERAL
  | BAD_SYNTAX => GENERAL
  | BAD_SYNTAX_DETAILED => GENERAL
  | REQUEST_HDR_IN_RESPONSE => GENERAL
  | RESPONSE_HDR_IN_REQUEST => GENERAL
  | FIELD_DEPRECATED => GENERAL
  | CORS_PREFLIGHT_REQUEST => CORS
  | CORS_PREFLIGHT_REQ_METHOD_WRONG => CORS
  | CORS_PREFLIGHT_REQ_NO_ORIGIN => CORS
  | CORS_PREFLIGHT_REQ_NO_METHOD => CORS
  | CORS_PREFLIGHT_RESPONSE => CORS
  | CORS_PREFLIGHT_ONLY => CORS
  | ACAO_MULTIPLE_VALUES => CORS
  | ACAC_NOT_TRUE => CORS
  | CORS_ORIGIN_MATCH => CORS
  | CORS_ORIGIN_MISMATCH => CORS
  | CORS_ORIGIN_NULL => CORS
  | CORS_ORIGIN_STAR => CORS
  | BAD_JSON => GENERAL
  | BAD_Q_VALUE => CONNEG
  | ACCEPT_BAD_SYNTAX => CONNEG
  | ACCEPT_CH_IN_PLAIN_HTTP => CONNEG
  | ACCEPT_CH_MISSING_VARY => CONNEG
  | ACCEPT_CH_BAD_TYPE => CONNEG
  | BAD_Q_VALUE_accept_language => CONNEG
  | ACCEPT_LANGUAGE_BAD_SYNTAX => CONNEG
  | ACCEPT_PATCH_BAD_SYNTAX => GENERAL
  | ACCEPT_POST_BAD_SYNTAX => GENERAL
  | ACCEPT_QUERY_BAD_TYPE => GENERAL
  | ACCEPT_QUERY_BAD_SYNTAX => GENERAL
  | UNKNOWN_RANGE => RANGE
  | CORS_MAX_AGE_INVALID => CORS
  | CORS_MAX_AGE_NEGATIVE => CORS
  | AGE_NOT_INT => CACHING
  | AGE_NEGATIVE => CACHING
  | AGE_LARGE => CACHING
  | ALTSVC_CLEAR_LIST => CONNECTION
  | AVAILABLE_DICTIONARY_MISSING_AE => GENERAL
  | AVAILABLE_DICTIONARY_BAD_TYPE => GENERAL
  | CC_SHOULD_NOT_HAVE_VALUE => CACHING
  | CC_BAD_VALUE_TYPE => CACHING
  | CC_MAX_AGE_TOO_LARGE => CACHING
  | CC_MISCAP => CACHING
  | CC_DUP => CACHING
  | CC_CONFLICTING => CACHING
  | CC_WRONG_MESSAGE => CACHING
  | CHECK_SINGLE => CACHING
  | CHECK_ALL_ZERO => CACHING
  | CHECK_POST_BIGGER => CACHING
  | CHECK_POST_ZERO => CACHING
  | CHECK_POST_PRE => CACHING
  | CACHE_GROUP_INVALIDATION_BAD_TYPE => GENERAL
  | CACHE_GROUP_INVALIDATION_IGNORED => GENERAL
  | CACHE_GROUPS_BAD_TYPE => GENERAL
  | CACHE_STATUS => CACHING
  | CACHE_STATUS_UNKNOWN_PARAM => CACHING
  | CACHE_STATUS_BAD_PARAM_VAL => CACHING
  | BAD_CDN_CC_TYPE => CACHING
  | CDN_CACHE_CONTROL_PRESENT => CACHING
  | CSD_PRESENT => SECURITY
  | CSD_UNKNOWN_VALUE => SECURITY
  | CSD_EMPTY => SECURITY
  | CSD_UNQUOTED => SECURITY
  | DISPOSITION_UNKNOWN => GENERAL
  | DISPOSITION_OMITS_FILENAME => GENERAL
  | DISPOSITION_FILENAME_PERCENT => GENERAL
  | DISPOSITION_FILENAME_PATH_CHAR => GENERAL
  | DICTIONARY_COMPRESSED_MISSING_VARY => CONNEG
  | ENCODING_UNWANTED => CONNEG
  | CONTENT_LANGUAGE_DUP => GENERAL
  | CL_BAD_SYNTAX => GENERAL
  | CL_AND_TE_PRESENT => GENERAL
  | CL_TOO_LARGE => GENERAL
  | CONTENT_RANGE_MEANINGLESS => RANGE
  | CONTENT_RANGE_MISSING_UNIT => RANGE
  | CONTENT_RANGE_INVALID_ASTERISK => RANGE
  | CONTENT_RANGE_MISSING_SLASH => RANGE
  | RANGE_MISSING_HYPHEN => RANGE
  | RANGE_INVALID_INTEGER => RANGE
  | RANGE_INVALID => RANGE
  | CONTENT_RANGE_UNSATISFIED_BAD_SC => RANGE
  | CONTENT_RANGE_UNKNOWN_LENGTH => RANGE
  | CONTENT_SECURITY_POLICY => SECURITY
  | CSP_UNSAFE_INLINE => SECURITY
  | CSP_UNSAFE_EVAL => SECURITY
  | CSP_HTTP_URI => SECURITY
  | CSP_DUPLICATE_DIRECTIVE => SECURITY
  | CSP_DEPRECATED_REPORT_URI => SECURITY
  | CSP_WIDE_OPEN => SECURITY
  | CSP_REPORT_TO_MISSING => SECURITY
  | COEP_REQUIRE_CORP => SECURITY
  | COEP_CREDENTIALLESS => SECURITY
  | COEP_UNSAFE_NONE => SECURITY
  | CROSS_ORIGIN_EMBEDDER_POLICY_BAD_VALUE => SECURITY
  | COEP_REPORT_TO_MISSING => SECURITY
  | COEP_REPORT_ONLY_DUPLICATE => SECURITY
  | COOP_SAME_ORIGIN => SECURITY
  | COOP_SAME_ORIGIN_ALLOW_POPUPS => SECURITY
  | COOP_UNSAFE_NONE => SECURITY
  | CROSS_ORIGIN_OPENER_POLICY_BAD_VALUE => SECURITY
  | COOP_REPORT_TO_MISSING => SECURITY
  | COOP_REPORT_ONLY_DUPLICATE => SECURITY
  | CORP_SAME_ORIGIN => SECURITY
  | CORP_SAME_SITE => SECURITY
  | CORP_CROSS_ORIGIN => SECURITY
  | CROSS_ORIGIN_RESOURCE_POLICY_BAD_VALUE => SECURITY
  | DATE_CORRECT => GENERAL
  | DATE_INCORRECT => GENERAL
  | AGE_PENALTY => GENERAL
  | DEPRECATION_PAST => GENERAL
  | DEPRECATION_FUTURE => GENERAL
  | DEPRECATION_TRUE => GENERAL
  | DEPRECATION_BAD_TYPE => GENERAL
  | EXPECT_UNKNOWN => GENERAL
  | EXPECT_HTTP_1_0 => GENERAL
  | LM_FUTURE => GENERAL
  | LM_PRESENT => GENERAL
  | LINK_RESOURCE_HINTS => GENERAL
  | LINK_BAD_HINT_TARGET => GENERAL
  | LINK_REV => GENERAL
  | LINK_BAD_ANCHOR => GENERAL
  | LINK_BAD_TYPE => GENERAL
  | LOCATION_UNDEFINED => GENERAL
  | LOCATION_NOT_ABSOLUTE => GENERAL
  | MAX_FORWARDS_IGNORED => GENERAL
  | NEL_BAD_STRUCTURE => GENERAL
  | NEL_MISSING_KEY => GENERAL
  | NEL_BAD_TYPE => GENERAL
  | NEL_BAD_VALUE => GENERAL
  | NEL_CONFIGURED => GENERAL
  | NEL_REPORT_TO_MISSING => GENERAL
  | BAD_ORIGIN_SYNTAX => CORS
  | ORIGIN_MULTIPLE_VALUES => CORS
  | PERMISSIONS_POLICY_PRESENT => SECURITY
  | PERMISSIONS_POLICY_WILDCARD => SECURITY
  | PERMISSIONS_POLICY_INVALID_VALUE => SECURITY
  | PERMISSIONS_POLICY_UNKNOWN_TOKEN => SECURITY
  | PERMISSIONS_POLICY_QUOTED_KEYWORD => SECURITY
  | PERMISSIONS_POLICY_INVALID_ITEM_TYPE => SECURITY
  | PRAGMA_OTHER => GENERAL
  | PROXY_STATUS => CACHING
  | PROXY_STATUS_UNKNOWN_PARAM => CACHING
  | PROXY_STATUS_BAD_PARAM_VAL => CACHING
  | RANGE_INVALID_range => RANGE
  | RANGE_BAD_SYNTAX => RANGE
  | REFERER_SECURE_TO_INSECURE => SECURITY
  | REFERER_SECURE_TO_DIFFERENT_ORIGIN => SECURITY
  | REFERRER_POLICY_STRICT => SECURITY
  | REFERRER_POLICY_UNSAFE => SECURITY
  | REFERRER_POLICY_UNKNOWN => SECURITY
  | REFERRER_POLICY_EMPTY => SECURITY
  | REFERRER_POLICY_MULTIPLE => SECURITY
  | REPORT_TO_BAD_STRUCTURE => GENERAL
  | REPORT_TO_MISSING_KEY => GENERAL
  | REPORT_TO_BAD_TYPE => GENERAL
  | ENDPOINT_NOT_SECURE => SECURITY
  | BAD_REPORTING_ENDPOINT_SYNTAX => GENERAL
  | SERVER_TOO_LONG => GENERAL
  | SERVER_TIMING_BAD_PARAM => GENERAL
  | SERVER_TIMING_MISSING_DUR => GENERAL
  | SERVER_TIMING_MISSING_DESC => GENERAL
  | SET_COOKIE_NO_NAME => COOKIES
  | SET_COOKIE_BAD_DATE => COOKIES
  | SET_COOKIE_EMPTY_MAX_AGE => COOKIES
  | SET_COOKIE_LEADING_ZERO_MAX_AGE => COOKIES
  | SET_COOKIE_NON_DIGIT_MAX_AGE => COOKIES
  | SET_COOKIE_EMPTY_DOMAIN => COOKIES
  | SET_COOKIE_NOT_SECURE => COOKIES
  | SET_COOKIE_UNKNOWN_ATTRIBUTE => COOKIES
  | SET_COOKIE_PRIORITY => COOKIES
  | SET_COOKIE_VERSION => COOKIES
  | SET_COOKIE_UNKNOWN_ATTRIBUTE_VALUE => COOKIES
  | SET_COOKIE_PARTITIONED_NO_SECURE => COOKIES
  | SET_COOKIE_TOO_LARGE => COOKIES
  | SET_COOKIE_VALUE_TOO_LARGE => COOKIES
  | SET_COOKIE_LIFETIME_TOO_LONG => COOKIES
  | SET_COOKIE_PREFIX_SECURE_MISSING => COOKIES
  | SET_COOKIE_PREFIX_HOST_BAD_DOMAIN => COOKIES
  | SET_COOKIE_PREFIX_HOST_BAD_PATH => COOKIES
  | SET_COOKIE_ATTRIBUTE_DUP => COOKIES
  | SET_COOKIE_HARDENED => COOKIES
  | SET_COOKIE_NAME_DUP => COOKIES
  | SPECULATION_RULE_NOT_SECURE => SECURITY
  | SPECULATION_RULES_BAD_TYPE => GENERAL
  | HSTS_VALID => SECURITY
  | HSTS_INVALID => SECURITY
  | HSTS_NO_MAX_AGE => SECURITY
  | HSTS_MAX_AGE_ZERO => SECURITY
  | HSTS_SHORT_MAX_AGE => SECURITY
  | HSTS_SUBDOMAINS => SECURITY
  | HSTS_NO_SUBDOMAINS => SECURITY
  | HSTS_PRELOAD => SECURITY
  | HSTS_PRELOAD_NOT_SUITABLE => SECURITY
  | HSTS_NO_PRELOAD => SECURITY
  | HSTS_DUPLICATE_DIRECTIVE => SECURITY
  | HSTS_TRAILING_SEMICOLON => SECURITY
  | HSTS_OVER_HTTP => SECURITY
  | HSTS_BAD_MAX_AGE => SECURITY
  | HSTS_VALUE_NOT_ALLOWED => SECURITY
  | SUNSET_PAST => GENERAL
  | TRANSFER_CODING_IDENTITY => CONNECTION
  | TRANSFER_CODING_UNWANTED => CONNECTION
  | TRANSFER_CODING_PARAM => CONNECTION
  | USE_AS_DICTIONARY_BAD_TYPE => GENERAL
  | USE_AS_DICTIONARY_BAD_MATCH_DEST => GENERAL
  | VARY_ASTERISK => CACHING
  | VARY_USER_AGENT => CACHING
  | VARY_HOST => CACHING
  | VARY_NEGOTIATE => CONNEG
  | VARY_DUPLICATE => CACHING
  | VARY_COMPLEX => CACHING
  | VIA_PRESENT => GENERAL
  | CONTENT_TYPE_OPTIONS => SECURITY
  | CONTENT_TYPE_OPTIONS_UNKNOWN => SECURITY
  | FRAME_OPTIONS_DENY => SECURITY
  | FRAME_OPTIONS_SAMEORIGIN => SECURITY
  | FRAME_OPTIONS_UNKNOWN => SECURITY
  | FIELD_TOO_LARGE => GENERAL
  | FIELD_SECTION_TOO_LARGE => GENERAL
  | FIELD_NAME_ENCODING => GENERAL
  | FIELD_VALUE_ENCODING => GENERAL
  | SINGLE_HEADER_REPEAT => GENERAL
  | DUPLICATE_KEY => GENERAL
  | STRUCTURED_FIELD_PARSE_ERROR => GENERAL
  | UNNECESSARY_HEADER => GENERAL
  | MEDIA_TYPE_BAD_NAME => GENERAL
  | MEDIA_TYPE_LONG_NAME => GENERAL
  | PARAM_REPEATS => GENERAL
  | PARAM_SINGLE_QUOTED => GENERAL
  | PARAM_STAR_BAD => GENERAL
  | PARAM_STAR_QUOTED => GENERAL
  | PARAM_STAR_ERROR => GENERAL
  | PARAM_STAR_NOCHARSET => GENERAL
  | PARAM_STAR_CHARSET => GENERAL
  | BAD_DATE_SYNTAX => GENERAL
  | DATE_OBSOLETE => GENERAL
  | CL_CORRECT => GENERAL
  | CL_INCORRECT => GENERAL
  | CONTENT_NOT_ALLOWED => GENERAL
  | REQUEST_CONTENT_NOT_DEFINED => GENERAL
  | URI_TOO_LONG => GENERAL
  | URI_BAD_SYNTAX => GENERAL
  | STATUS_CODE_NON_NUMERIC => GENERAL
  | STATUS_PHRASE_ENCODING => GENERAL
  | MISSING_USER_AGENT => GENERAL
  | NO_DATE_304 => VALIDATION
  | HEADER_SHOULD_NOT_BE_IN_304 => GENERAL
  | UNEXPECTED_CONTINUE => GENERAL
  | UPGRADE_NOT_REQUESTED => GENERAL
  | CREATED_SAFE_METHOD => GENERAL
  | CREATED_WITHOUT_LOCATION => GENERAL
  | PARTIAL_WITHOUT_RANGE => GENERAL
  | PARTIAL_NOT_REQUESTED => GENERAL
  | REDIRECT_WITHOUT_LOCATION => GENERAL
  | STATUS_DEPRECATED => GENERAL
  | STATUS_RESERVED => GENERAL
  | STATUS_NONSTANDARD => GENERAL
  | STATUS_BAD_REQUEST => GENERAL
  | STATUS_FORBIDDEN => GENERAL
  | STATUS_METHOD_NOT_ALLOWED => GENERAL
  | STATUS_405_METHOD_IN_ALLOW => GENERAL
  | STATUS_NOT_FOUND => GENERAL
  | STATUS_NOT_ACCEPTABLE => GENERAL
  | STATUS_406_WITHOUT_NEGOTIATION => GENERAL
  | STATUS_CONFLICT => GENERAL
  | STATUS_GONE => GENERAL
  | STATUS_REQUEST_ENTITY_TOO_LARGE => GENERAL
  | STATUS_URI_TOO_LONG => GENERAL
  | STATUS_UNSUPPORTED_MEDIA_TYPE => GENERAL
  | STATUS_IM_A_TEAPOT => GENERAL
  | STATUS_INTERNAL_SERVICE_ERROR => GENERAL
  | STATUS_NOT_IMPLEMENTED => GENERAL
  | STATUS_BAD_GATEWAY => GENERAL
  | STATUS_SERVICE_UNAVAILABLE => GENERAL
  | STATUS_GATEWAY_TIMEOUT => GENERAL
  | STATUS_VERSION_NOT_SUPPORTED => GENERAL
  | STATUS_PRECONDITION_FAILED => GENERAL
  | STATUS_EXPECTATION_FAILED => GENERAL
  | STATUS_412_WITHOUT_PRECONDITION => GENERAL
  | STATUS_416_WITHOUT_RANGE => GENERAL
  | STATUS_417_WITHOUT_EXPECT => GENERAL
  | STATUS_417_WITH_100_CONTINUE => GENERAL
  | STATUS_EARLY_HINTS => GENERAL
  | STATUS_UPLOAD_RESUMPTION_SUPPORTED => GENERAL
  | STATUS_ALREADY_REPORTED => GENERAL
  | STATUS_MISDIRECTED_REQUEST => GENERAL
  | STATUS_TOO_EARLY => GENERAL
  | STATUS_PRECONDITION_REQUIRED => GENERAL
  | STATUS_TOO_MANY_REQUESTS => GENERAL
  | STATUS_REQUEST_HEADER_FIELDS_TOO_LARGE => GENERAL
  | STATUS_UNAVAILABLE_FOR_LEGAL_REASONS => GENERAL
  | STATUS_LOOP_DETECTED => GENERAL
  | STATUS_NETWORK_AUTHENTICATION_REQUIRED => GENERAL
  end.

Definition nid_summary (n : nid) : string :=
  match n with
  | DATE_CLOCKLESS =>
"This response doesn't have a Date header."
  | DATE_CLOCKLESS_BAD_HDR =>
"This response has an Expires or Last-Modified header, but no Date."
  | STORE_METHOD_UNCACHEABLE =>
"Responses to the %(method)s method can't be stored by caches."
  | STORE_NO_STORE =>
"This response can't be stored by caches."
  | STORE_PRIVATE_CC =>
"This response allows only private caches to store it."
  | STORE_PRIVATE_PUBLIC_CONFLICT =>
"This response contains both the `public` and `private` Cache-Control directives."
  | STORE_PRIVATE_AUTH =>
"This response can only be stored by private caches, because the request was authenticated."
  | STORE_PUBLIC_AUTH =>
"This response can be stored by all caches, even though the request was authenticated."
  | STORE_PUBLIC_UNNECESSARY =>
"Cache-Control: public is probably not necessary."
  | STORE_STORABLE =>
"This response allows all caches to store it."
  | STORE_STORABLE_SHARED_ONLY =>
"This response allows only shared caches to store it."
  | STORE_UNSTORABLE =>
"This response cannot be stored by caches."
  | FRESHNESS_NO_CACHE =>
"This response cannot be served from cache without validation."
  | FRESHNESS_NO_CACHE_NO_VALIDATOR =>
"This response cannot be served from cache without validation, and doesn't have a validator."
  | CURRENT_AGE =>
"This response has already been cached for %(age)s."
  | FRESHNESS_FRESH =>
"This response is fresh for %(freshness_left)s."
  | FRESHNESS_SHARED_PRIVATE =>
"This response is %(private_status)s for %(fresh_left)s (%(shared_status)s for %(share_left)s in shared caches)."
  | FRESHNESS_STALE_ALREADY =>
"This response is stale."
  | FRESHNESS_HEURISTIC =>
"This response allows caches to assign their own freshness lifetimes to it."
  | FRESHNESS_NONE =>
"This response cannot be considered fresh by caches."
  | STALE_SERVABLE =>
"In exceptional circumstances, caches can serve this response stale."
  | STALE_IF_ERROR =>
"If an error occurs, caches can serve this response stale."
  | STALE_WHILE_REVALIDATE =>
"This response can be served stale from a cache while it is being revalidated."
  | FRESH_MUST_REVALIDATE =>
"This response cannot be served by a cache once it becomes stale."
  | STALE_MUST_REVALIDATE =>
"This response cannot be served by a cache now that it is stale."
  | FRESH_PROXY_REVALIDATE =>
"This response cannot be served by a shared cache once it becomes stale."
  | STALE_PROXY_REVALIDATE =>
"This response cannot be served by a shared cache now that it is stale."
  | CC_AND_EXPIRES =>
"Cache-Control: max-age and Expires are both present."
  | CHARSET_MISMATCH =>
"The declared character encoding doesn't match the content."
  | CHARSET_IMPLICIT_MISMATCH =>
"The content isn't %(declared_charset)s, as required for %(media_type)s."
  | CHARSET_UNDECODABLE =>
"The content can't be decoded using the declared character encoding."
  | DECOMPRESSION_LIMIT =>
"This message was truncated because it decompressed to more than 100MB."
  | BAD_GZIP =>
"This message was compressed, but the GZIP header wasn't valid."
  | BAD_ZLIB =>
"This message was compressed using GZip, but the data was corrupt."
  | BAD_BROTLI =>
"This message was compressed using Brotli, but the data was corrupt."
  | CONTENT_TYPE_MISMATCH =>
"The content doesn't match the declared Content-Type."
  | FIELD_NAME_BAD_SYNTAX =>
"""%(field_name)s"" is not a valid field name."
  | BAD_SYNTAX =>
"The %(field_name)s field value doesn't conform to its specified syntax."
  | BAD_SYNTAX_DETAILED =>
"The %(field_name)s field value doesn't conform to its specified syntax."
  | REQUEST_HDR_IN_RESPONSE =>
"""%(field_name)s"" isn't valid in a response."
  | RESPONSE_HDR_IN_REQUEST =>
"""%(field_name)s"" isn't valid in a request."
  | FIELD_DEPRECATED =>
"The %(field_name)s header is deprecated."
  | CORS_PREFLIGHT_REQUEST =>
"This is a CORS preflight request."
  | CORS_PREFLIGHT_REQ_METHOD_WRONG =>
"The %(field_name)s header requires the OPTIONS method."
  | CORS_PREFLIGHT_REQ_NO_ORIGIN =>
"The %(field_name)s header requires the Origin header."
  | CORS_PREFLIGHT_REQ_NO_METHOD =>
"The %(field_name)s header requires the Access-Control-Request-Method header."
  | CORS_PREFLIGHT_RESPONSE =>
"This is a CORS preflight response."
  | CORS_PREFLIGHT_ONLY =>
"CORS headers are only allowed in preflight responses."
  | ACAO_MULTIPLE_VALUES =>
"Access-Control-Allow-Origin should not have multiple values."
  | ACAC_NOT_TRUE =>
"Access-Control-Allow-Credentials must be 'true'."
  | CORS_ORIGIN_MATCH =>
"The Access-Control-Allow-Origin header allows the requesting origin."
  | CORS_ORIGIN_MISMATCH =>
"The Access-Control-Allow-Origin header does not allow the requesting origin."
  | CORS_ORIGIN_NULL =>
"The Access-Control-Allow-Origin header does not allow any origin."
  | CORS_ORIGIN_STAR =>
"The Access-Control-Allow-Origin header allows any origin."
  | BAD_JSON =>
"The %(field_name)s header value isn't valid JSON."
  | BAD_Q_VALUE =>
"The q value on '%(media_type)s' is invalid."
  | ACCEPT_BAD_SYNTAX =>
"The Accept header contains a value that is not a media range."
  | ACCEPT_CH_IN_PLAIN_HTTP =>
"Accept-CH is ignored over plain HTTP."
  | ACCEPT_CH_MISSING_VARY =>
"Accept-CH lists fields that are missing from Vary."
  | ACCEPT_CH_BAD_TYPE =>
"The Accept-CH header isn't a List of Tokens."
  | BAD_Q_VALUE_accept_language =>
"The q value on '{language}' is invalid."
  | ACCEPT_LANGUAGE_BAD_SYNTAX =>
"The Accept-Language header isn't valid."
  | ACCEPT_PATCH_BAD_SYNTAX =>
"The Accept-Patch header contains a value that is not a media type."
  | ACCEPT_POST_BAD_SYNTAX =>
"The Accept-Post header contains a value that is not a media type."
  | ACCEPT_QUERY_BAD_TYPE =>
"The Accept-Query header contains a value that isn't a media range."
  | ACCEPT_QUERY_BAD_SYNTAX =>
"The Accept-Query header contains a value that is not a media range."
  | UNKNOWN_RANGE =>
"This response advertises support for non-standard range-units."
  | CORS_MAX_AGE_INVALID =>
"Access-Control-Max-Age must be an integer."
  | CORS_MAX_AGE_NEGATIVE =>
"Access-Control-Max-Age must be non-negative."
  | AGE_NOT_INT =>
"The Age header's value should be an integer."
  | AGE_NEGATIVE =>
"The Age headers' value must be a positive integer."
  | AGE_LARGE =>
"The Age header's value is very large."
  | ALTSVC_CLEAR_LIST =>
"The Alt-Svc 'clear' token cannot be used with other values."
  | AVAILABLE_DICTIONARY_MISSING_AE =>
"This request advertises a dictionary for compression, but the client doesn't support it."
  | AVAILABLE_DICTIONARY_BAD_TYPE =>
"The Available-Dictionary header has an invalid type."
  | CC_SHOULD_NOT_HAVE_VALUE =>
"The %(directive)s cache directive does not accept a value."
  | CC_BAD_VALUE_TYPE =>
"The %(directive)s cache directive's value is incorrect."
  | CC_MAX_AGE_TOO_LARGE =>
"The %(directive)s cache directive is very large."
  | CC_MISCAP =>
"The %(directive)s cache directive has non-lowercase characters."
  | CC_DUP =>
"The %(directive)s cache directive appears more than once."
  | CC_CONFLICTING =>
"The %(directive)s cache directive overrides other directives."
  | CC_WRONG_MESSAGE =>
"The %(directive)s cache directive has no meaning in a %(message_type)s."
  | CHECK_SINGLE =>
"Only one of the pre-check and post-check cache directives is present."
  | CHECK_ALL_ZERO =>
"The pre-check and post-check cache directives are both '0'."
  | CHECK_POST_BIGGER =>
"The post-check cache directive's value is larger than pre-check's."
  | CHECK_POST_ZERO =>
"The post-check cache directive's value is '0'."
  | CHECK_POST_PRE =>
"This response may be refreshed in the background by Internet Explorer."
  | CACHE_GROUP_INVALIDATION_BAD_TYPE =>
"Cache groups need to be strings."
  | CACHE_GROUP_INVALIDATION_IGNORED =>
"The Cache-Group-Invalidation header is ignored for %(method)s requests."
  | CACHE_GROUPS_BAD_TYPE =>
"Cache groups need to be strings."
  | CACHE_STATUS =>
"Detailed information about caching is available."
  | CACHE_STATUS_UNKNOWN_PARAM =>
"The Cache-Status header has an unknown parameter '%(param)s'."
  | CACHE_STATUS_BAD_PARAM_VAL =>
"The Cache-Status header has an unknown value for '%(param)s'."
  | BAD_CDN_CC_TYPE =>
"The %(bad_directive)s CDN cache directive's value is incorrect."
  | CDN_CACHE_CONTROL_PRESENT =>
"This response targets cache directives to Content Delivery Networks."
  | CSD_PRESENT =>
"This response clears browser-side data for this origin."
  | CSD_UNKNOWN_VALUE =>
"The Clear-Site-Data header contains an unknown value '%(value)s'."
  | CSD_EMPTY =>
"The Clear-Site-Data header has an empty value."
  | CSD_UNQUOTED =>
"Clear-Site-Data contains unquoted values."
  | DISPOSITION_UNKNOWN =>
"The '%(disposition)s' Content-Disposition isn't known."
  | DISPOSITION_OMITS_FILENAME =>
"The Content-Disposition header doesn't have a 'filename' parameter."
  | DISPOSITION_FILENAME_PERCENT =>
"The 'filename' parameter on the Content-Disposition header contains a '%%' character."
  | DISPOSITION_FILENAME_PATH_CHAR =>
"The filename in the Content-Disposition header contains a path character."
  | DICTIONARY_COMPRESSED_MISSING_VARY =>
"This response is compressed with a dictionary,but is missing Vary: Available-Dictionary."
  | ENCODING_UNWANTED =>
"This response uses the '%(coding)s' content-coding, but it wasn't requested."
  | CONTENT_LANGUAGE_DUP =>
"The %(lang)s language tag appears more than once."
  | CL_BAD_SYNTAX =>
"Content-Length should be an integer."
  | CL_AND_TE_PRESENT =>
"Content-Length and Transfer-Encoding should not be present together."
  | CL_TOO_LARGE =>
"The Content-Length header is very large."
  | CONTENT_RANGE_MEANINGLESS =>
"This response shouldn't have a Content-Range header."
  | CONTENT_RANGE_MISSING_UNIT =>
"The Content-Range header is missing a unit (e.g., 'bytes')."
  | CONTENT_RANGE_INVALID_ASTERISK =>
"The Content-Range header invalidly uses wildcards."
  | CONTENT_RANGE_MISSING_SLASH =>
"The Content-Range header is missing a slash separator."
  | RANGE_MISSING_HYPHEN =>
"The Content-Range header is missing a hyphen."
  | RANGE_INVALID_INTEGER =>
"The Content-Range header contains a non-integer value."
  | RANGE_INVALID =>
"The Content-Range header is invalid."
  | CONTENT_RANGE_UNSATISFIED_BAD_SC =>
"The Content-Range header indicates an unsatisfied range, but the status code is 206."
  | CONTENT_RANGE_UNKNOWN_LENGTH =>
"The Content-Range header indicates an unknown total length."
  | CONTENT_SECURITY_POLICY =>
"This response sets a Content Security Policy%(report_only)s."
  | CSP_UNSAFE_INLINE =>
"Inline scripts are allowed."
  | CSP_UNSAFE_EVAL =>
"Unsafe script evaluation is allowed."
  | CSP_HTTP_URI =>
"Loading from insecure HTTP sources is allowed."
  | CSP_DUPLICATE_DIRECTIVE =>
"Duplicate directives are present."
  | CSP_DEPRECATED_REPORT_URI =>
"The deprecated report-uri directive is used."
  | CSP_WIDE_OPEN =>
"All sources are allowed in one or more directives."
  | CSP_REPORT_TO_MISSING =>
"The report-to endpoint '%(endpoint)s' is not defined."
  | COEP_REQUIRE_CORP =>
"This response requires resources to have a CORP header%(report_only)s."
  | COEP_CREDENTIALLESS =>
"This response loads cross-origin resources without credentials%(report_only)s."
  | COEP_UNSAFE_NONE =>
"This response allows loading cross-origin resources without restriction%(report_only)s."
  | CROSS_ORIGIN_EMBEDDER_POLICY_BAD_VALUE =>
"This response's %(field_name)s has an invalid value."
  | COEP_REPORT_TO_MISSING =>
"The report-to endpoint '%(endpoint)s' is not defined%(report_only)s."
  | COEP_REPORT_ONLY_DUPLICATE =>
"This response has both enforcing and report-only COEP headers."
  | COOP_SAME_ORIGIN =>
"This response isolates the browsing context to the same origin%(report_only)s."
  | COOP_SAME_ORIGIN_ALLOW_POPUPS =>
"This response isolates the browsing context but allows popups%(report_only)s."
  | COOP_UNSAFE_NONE =>
"This response allows sharing the browsing context with cross-origin documents%(report_only)s."
  | CROSS_ORIGIN_OPENER_POLICY_BAD_VALUE =>
"This response's %(field_name)s has an invalid value."
  | COOP_REPORT_TO_MISSING =>
"The report-to endpoint '%(endpoint)s' is not defined%(report_only)s."
  | COOP_REPORT_ONLY_DUPLICATE =>
"This response has both enforcing and report-only COOP headers."
  | CORP_SAME_ORIGIN =>
"This response is only available for reading to requests from the same origin."
  | CORP_SAME_SITE =>
"This response is available for reading to requests from the same site."
  | CORP_CROSS_ORIGIN =>
"This response is available for reading to requests from all origins."
  | CROSS_ORIGIN_RESOURCE_POLICY_BAD_VALUE =>
"Cross-Origin-Resource-Policy has an invalid value."
  | DATE_CORRECT =>
"The server's clock is correct."
  | DATE_INCORRECT =>
"The server's clock is %(clock_skew_string)s."
  | AGE_PENALTY =>
"It appears that the Date header has been changed by an intermediary."
  | DEPRECATION_PAST =>
"The resource has been deprecated."
  | DEPRECATION_FUTURE =>
"The resource will be deprecated."
  | DEPRECATION_TRUE =>
"The resource is deprecated."
  | DEPRECATION_BAD_TYPE =>
"The Deprecation header value is invalid."
  | EXPECT_UNKNOWN =>
"The '%(expectation)s' expectation is not supported."
  | EXPECT_HTTP_1_0 =>
"The Expect header is not supported in HTTP/1.0."
  | LM_FUTURE =>
"The Last-Modified time is in the future."
  | LM_PRESENT =>
"The resource last changed %(last_modified_string)s."
  | LINK_RESOURCE_HINTS =>
"This response provides resource hints (%(hints)s)."
  | LINK_BAD_HINT_TARGET =>
"The %(rel)s Link target uses an unsupported scheme."
  | LINK_REV =>
"The 'rev' parameter on the Link header is deprecated."
  | LINK_BAD_ANCHOR =>
"The 'anchor' parameter on the %(link)s Link header isn't a URI."
  | LINK_BAD_TYPE =>
"The 'type' parameter on the %(link)s Link header isn't a media type."
  | LOCATION_UNDEFINED =>
"This status code doesn't define any meaning for the Location header."
  | LOCATION_NOT_ABSOLUTE =>
"The Location header contains a relative URI."
  | MAX_FORWARDS_IGNORED =>
"The Max-Forwards header is ignored for this method."
  | NEL_BAD_STRUCTURE =>
"The NEL header has an invalid structure."
  | NEL_MISSING_KEY =>
"The NEL policy is missing the '%(key)s' key."
  | NEL_BAD_TYPE =>
"The NEL policy has an invalid type for '%(key)s'."
  | NEL_BAD_VALUE =>
"The NEL policy has an invalid value for '%(key)s'."
  | NEL_CONFIGURED =>
"Network Error Logging is configured for this response."
  | NEL_REPORT_TO_MISSING =>
"The reporting endpoint '%(value)s' is not defined."
  | BAD_ORIGIN_SYNTAX =>
"%(value)s is not a valid origin."
  | ORIGIN_MULTIPLE_VALUES =>
"The Origin header contains multiple values."
  | PERMISSIONS_POLICY_PRESENT =>
"This response sets a Permissions Policy."
  | PERMISSIONS_POLICY_WILDCARD =>
"The '%(feature)s' feature is allowed for all origins."
  | PERMISSIONS_POLICY_INVALID_VALUE =>
"The value for '%(feature)s' should be an Inner List or the token '*'."
  | PERMISSIONS_POLICY_UNKNOWN_TOKEN =>
"'%(token)s' is not valid in an allowlist."
  | PERMISSIONS_POLICY_QUOTED_KEYWORD =>
"The value '%(value)s' looks like a keyword but is a string."
  | PERMISSIONS_POLICY_INVALID_ITEM_TYPE =>
"The item '%(item)s' is not a valid type for an allowlist."
  | PRAGMA_OTHER =>
"The Pragma header is being used in an undefined way."
  | PROXY_STATUS =>
"Information about intermediaries is available."
  | PROXY_STATUS_UNKNOWN_PARAM =>
"The Proxy-Status header has an unknown parameter '%(param)s'."
  | PROXY_STATUS_BAD_PARAM_VAL =>
"The Proxy-Status header has an unknown value for '%(param)s'."
  | RANGE_INVALID_range =>
"The Range header is invalid."
  | RANGE_BAD_SYNTAX =>
"The Range header value isn't valid."
  | REFERER_SECURE_TO_INSECURE =>
"The Referer header is sent from a secure origin to an insecure target."
  | REFERER_SECURE_TO_DIFFERENT_ORIGIN =>
"The Referer header is sent from a secure origin to a different origin."
  | REFERRER_POLICY_STRICT =>
"This response's Referrer-Policy ('%(policy)s') restricts referrer leakage."
  | REFERRER_POLICY_UNSAFE =>
"This response's Referrer-Policy allows unsafe URLs."
  | REFERRER_POLICY_UNKNOWN =>
"The Referrer-Policy value '%(policy)s' is unknown."
  | REFERRER_POLICY_EMPTY =>
"No valid Referrer-Policy found."
  | REFERRER_POLICY_MULTIPLE =>
"Multiple Referrer-Policy values found; only '%(effective)s' is used."
  | REPORT_TO_BAD_STRUCTURE =>
"The Report-To header value has an invalid structure."
  | REPORT_TO_MISSING_KEY =>
"The Report-To header value is missing the '%(key)s' key."
  | REPORT_TO_BAD_TYPE =>
"The Report-To header has an invalid type for '%(key)s'."
  | ENDPOINT_NOT_SECURE =>
"The %(name)s reporting endpoint is not secure."
  | BAD_REPORTING_ENDPOINT_SYNTAX =>
"The %(name)s reporting endpoint is invalid."
  | SERVER_TOO_LONG =>
"The Server header is long."
  | SERVER_TIMING_BAD_PARAM =>
"The '%(param)s' parameter on the '%(metric)s' metric has a non-numeric value."
  | SERVER_TIMING_MISSING_DUR =>
"The '%(metric)s' metric is missing the 'dur' parameter."
  | SERVER_TIMING_MISSING_DESC =>
"The '%(metric)s' metric is missing the 'desc' parameter."
  | SET_COOKIE_NO_NAME =>
"This response has a Set-Cookie header without a cookie-name."
  | SET_COOKIE_BAD_DATE =>
"The %(cookie_name)s cookie has an invalid Expires date."
  | SET_COOKIE_EMPTY_MAX_AGE =>
"The %(cookie_name)s cookie has an empty Max-Age."
  | SET_COOKIE_LEADING_ZERO_MAX_AGE =>
"The %(cookie_name)s cookie has a Max-Age with a leading zero."
  | SET_COOKIE_NON_DIGIT_MAX_AGE =>
"The %(cookie_name)s cookie has a non-numeric Max-Age."
  | SET_COOKIE_EMPTY_DOMAIN =>
"The %(cookie_name)s cookie has an empty domain."
  | SET_COOKIE_NOT_SECURE =>
"The %(cookie_name)s cookie is missing the Secure attribute."
  | SET_COOKIE_UNKNOWN_ATTRIBUTE =>
"The %(cookie_name)s cookie has an unknown attribute, '%(attribute)s'."
  | SET_COOKIE_PRIORITY =>
"The 'Priority' Set-Cookie attribute is deprecated."
  | SET_COOKIE_VERSION =>
"The 'Version Set-Cookie attribute is deprecated."
  | SET_COOKIE_UNKNOWN_ATTRIBUTE_VALUE =>
"The %(cookie_name)s cookie has an unknown '%(attribute_name)s' attribute value."
  | SET_COOKIE_PARTITIONED_NO_SECURE =>
"The %(cookie_name)s cookie has the Partitioned attribute but is missing the Secure attribute."
  | SET_COOKIE_TOO_LARGE =>
"The %(cookie_name)s Set-Cookie header is too large."
  | SET_COOKIE_VALUE_TOO_LARGE =>
"The %(cookie_name)s Set-Cookie value is large."
  | SET_COOKIE_LIFETIME_TOO_LONG =>
"The %(cookie_name)s Set-Cookie header has a lifetime that is too long."
  | SET_COOKIE_PREFIX_SECURE_MISSING =>
"The %(cookie_name)s Set-Cookie header requires the Secure attribute."
  | SET_COOKIE_PREFIX_HOST_BAD_DOMAIN =>
"The %(cookie_name)s Set-Cookie header has a __Host- prefix but sets a Domain."
  | SET_COOKIE_PREFIX_HOST_BAD_PATH =>
"The %(cookie_name)s Set-Cookie header has a __Host- prefix but does not set Path=/."
  | SET_COOKIE_ATTRIBUTE_DUP =>
"The %(cookie_name)s Set-Cookie header has duplicate '%(attribute)s' attributes."
  | SET_COOKIE_HARDENED =>
"This response sets cookies restricted with Secure, HttpOnly, and SameSite."
  | SET_COOKIE_NAME_DUP =>
"This response sets duplicate cookies."
  | SPECULATION_RULE_NOT_SECURE =>
"The speculation rule URL is not secure."
  | SPECULATION_RULES_BAD_TYPE =>
"The speculation rule value is invalid."
  | HSTS_VALID =>
"Strict Transport Security (HSTS) is enabled."
  | HSTS_INVALID =>
"This response's Strict Transport Security (HSTS) header is invalid."
  | HSTS_NO_MAX_AGE =>
"There is no max-age directive."
  | HSTS_MAX_AGE_ZERO =>
"The max-age is 0."
  | HSTS_SHORT_MAX_AGE =>
"The max-age is less than one year."
  | HSTS_SUBDOMAINS =>
"HSTS applies to subdomains."
  | HSTS_NO_SUBDOMAINS =>
"HSTS doesn't apply to subdomains."
  | HSTS_PRELOAD =>
"Browser preloading is allowed."
  | HSTS_PRELOAD_NOT_SUITABLE =>
"Browser preloading is allowed, but this policy isn't suitable for it."
  | HSTS_NO_PRELOAD =>
"Browser preloading isn't allowed."
  | HSTS_DUPLICATE_DIRECTIVE =>
"The HSTS header contains a duplicate directive."
  | HSTS_TRAILING_SEMICOLON =>
"The Strict-Transport-Security header has a trailing semicolon."
  | HSTS_OVER_HTTP =>
"The HSTS header is sent over HTTP."
  | HSTS_BAD_MAX_AGE =>
"The max-age directive in the HSTS header is invalid."
  | HSTS_VALUE_NOT_ALLOWED =>
"The %(directive)s directive in the HSTS header must not have a value."
  | SUNSET_PAST =>
"The resource has Sunset."
  | TRANSFER_CODING_IDENTITY =>
"The identity transfer-coding isn't necessary."
  | TRANSFER_CODING_UNWANTED =>
"This response uses the '%(coding)s' transfer-coding, but it wasn't requested."
  | TRANSFER_CODING_PARAM =>
"This message had parameters on its transfer-codings."
  | USE_AS_DICTIONARY_BAD_TYPE =>
"The %(field_name)s parameter '%(param)s' has an invalid type."
  | USE_AS_DICTIONARY_BAD_MATCH_DEST =>
"The match-dest parameter has an invalid type."
  | VARY_ASTERISK =>
"Vary: * effectively makes this response uncacheable."
  | VARY_USER_AGENT =>
"Vary: User-Agent can cause cache inefficiency."
  | VARY_HOST =>
"Vary: Host is not necessary."
  | VARY_NEGOTIATE =>
"Transparent Content Negotiation is not widely supported."
  | VARY_DUPLICATE =>
"The Vary header contains duplicate values."
  | VARY_COMPLEX =>
"This resource varies in %(vary_count)s ways."
  | VIA_PRESENT =>
"One or more intermediaries are present."
  | CONTENT_TYPE_OPTIONS =>
"This response instructs browsers not to 'sniff' its media type."
  | CONTENT_TYPE_OPTIONS_UNKNOWN =>
"X-Content-Type-Options contains an unknown value."
  | FRAME_OPTIONS_DENY =>
"This response prevents browsers from rendering it within a frame."
  | FRAME_OPTIONS_SAMEORIGIN =>
"This response prevents browsers from rendering it within a frame on another site."
  | FRAME_OPTIONS_UNKNOWN =>
"The X-Frame-Options header contains an unknown value."
  | FIELD_TOO_LARGE =>
"The %(field_name)s field is very large (%(field_size)s bytes)."
  | FIELD_SECTION_TOO_LARGE =>
"The %(field_type)s section is very large (%(section_size)s bytes)."
  | FIELD_NAME_ENCODING =>
"The %(field_name)s field's name contains non-ASCII characters."
  | FIELD_VALUE_ENCODING =>
"The %(field_name)s field's value contains non-ASCII characters."
  | SINGLE_HEADER_REPEAT =>
"Only one %(field_name)s field is allowed in a message."
  | DUPLICATE_KEY =>
"In %(field_name)s, the %(context)s key '%(key)s' is duplicated."
  | STRUCTURED_FIELD_PARSE_ERROR =>
"The %(field_name)s field value isn't a valid Structured Field."
  | UNNECESSARY_HEADER =>
"The %(header_name)s header can probably be removed."
  | MEDIA_TYPE_BAD_NAME =>
"The %(field_name)s field's media type name isn't registrable."
  | MEDIA_TYPE_LONG_NAME =>
"The %(field_name)s field's media type name is too long."
  | PARAM_REPEATS =>
"The '%(param)s' parameter repeats in the %(field_name)s header."
  | PARAM_SINGLE_QUOTED =>
"The '%(param)s' parameter on the %(field_name)s header is single-quoted."
  | PARAM_STAR_BAD =>
"The %(param)s* parameter isn't allowed on the %(field_name)s field."
  | PARAM_STAR_QUOTED =>
"The '%(param)s' parameter's value cannot be quoted."
  | PARAM_STAR_ERROR =>
"The %(param)s parameter's value is invalid."
  | PARAM_STAR_NOCHARSET =>
"The %(param)s parameter's value doesn't define an encoding."
  | PARAM_STAR_CHARSET =>
"The %(param)s parameter's value uses an encoding other than UTF-8."
  | BAD_DATE_SYNTAX =>
"The %(field_name)s header's value isn't a valid date."
  | DATE_OBSOLETE =>
"The %(field_name)s header's value uses an obsolete format."
  | CL_CORRECT =>
"The Content-Length header is correct."
  | CL_INCORRECT =>
"The Content-Length header is incorrect."
  | CONTENT_NOT_ALLOWED =>
"%(message)s can not have content."
  | REQUEST_CONTENT_NOT_DEFINED =>
"The %(method)s doesn't define any meaning for content."
  | URI_TOO_LONG =>
"The URI is very long (%(uri_len)s characters)."
  | URI_BAD_SYNTAX =>
"The URI's syntax isn't valid."
  | STATUS_CODE_NON_NUMERIC =>
"The status code is not an integer."
  | STATUS_PHRASE_ENCODING =>
"The status phrase contains non-ASCII characters."
  | MISSING_USER_AGENT =>
"The User-Agent header is missing."
  | NO_DATE_304 =>
"304 (Not Modified) responses need to have a Date header."
  | HEADER_SHOULD_NOT_BE_IN_304 =>
"This 304 (Not Modified) response contains headers that should not be sent."
  | UNEXPECTED_CONTINUE =>
"A 100 (Continue) response was sent when it wasn't asked for."
  | UPGRADE_NOT_REQUESTED =>
"The protocol was upgraded without being requested."
  | CREATED_SAFE_METHOD =>
"A new resource was created in response to a safe request."
  | CREATED_WITHOUT_LOCATION =>
"A new resource was created without its location being sent."
  | PARTIAL_WITHOUT_RANGE =>
"This response is partial, but doesn't have a Content-Range header."
  | PARTIAL_NOT_REQUESTED =>
"A partial response was sent when it wasn't requested."
  | REDIRECT_WITHOUT_LOCATION =>
"Redirects need to have a Location header."
  | STATUS_DEPRECATED =>
"The %(status)s status code is deprecated."
  | STATUS_RESERVED =>
"The %(status)s status code is reserved."
  | STATUS_NONSTANDARD =>
"%(status)s is not a standard HTTP status code."
  | STATUS_BAD_REQUEST =>
"The server didn't understand the request."
  | STATUS_FORBIDDEN =>
"The server has forbidden this request."
  | STATUS_METHOD_NOT_ALLOWED =>
"The resource does not allow the %(method)s method."
  | STATUS_405_METHOD_IN_ALLOW =>
"%(method)s is not allowed, but the resource lists it in Allow."
  | STATUS_NOT_FOUND =>
"The resource could not be found."
  | STATUS_NOT_ACCEPTABLE =>
"The resource cannot produce a response that is acceptable to the client."
  | STATUS_406_WITHOUT_NEGOTIATION =>
"The 406 (Not Acceptable) status code appears to be misused."
  | STATUS_CONFLICT =>
"The request conflicted with the state of the resource."
  | STATUS_GONE =>
"The resource is gone."
  | STATUS_REQUEST_ENTITY_TOO_LARGE =>
"The request content was too large for the server."
  | STATUS_URI_TOO_LONG =>
"The server won't accept a URI this long %(uri_len)s."
  | STATUS_UNSUPPORTED_MEDIA_TYPE =>
"The resource doesn't support this media type in requests."
  | STATUS_IM_A_TEAPOT =>
"The server returned 418 (I'm a Teapot), an easter egg defined in RFC 2324."
  | STATUS_INTERNAL_SERVICE_ERROR =>
"There was a general server error."
  | STATUS_NOT_IMPLEMENTED =>
"The server doesn't implement the request method."
  | STATUS_BAD_GATEWAY =>
"An intermediary encountered an error."
  | STATUS_SERVICE_UNAVAILABLE =>
"The server is temporarily unavailable."
  | STATUS_GATEWAY_TIMEOUT =>
"An intermediary timed out."
  | STATUS_VERSION_NOT_SUPPORTED =>
"The request HTTP version isn't supported."
  | STATUS_PRECONDITION_FAILED =>
"The request precondition failed."
  | STATUS_EXPECTATION_FAILED =>
"The request expectation failed."
  | STATUS_412_WITHOUT_PRECONDITION =>
"The request didn't have any preconditions."
  | STATUS_416_WITHOUT_RANGE =>
"The request didn't have a Range header."
  | STATUS_417_WITHOUT_EXPECT =>
"The request didn't have an Expect header."
  | STATUS_417_WITH_100_CONTINUE =>
"The server couldn't meet the 100-continue expectation."
  | STATUS_EARLY_HINTS =>
"The server sent early hints."
  | STATUS_UPLOAD_RESUMPTION_SUPPORTED =>
"The server supports upload resumption."
  | STATUS_ALREADY_REPORTED =>
"The members of a DAV binding have already been enumerated."
  | STATUS_MISDIRECTED_REQUEST =>
"The request was directed at a server that is not able to produce a response."
  | STATUS_TOO_EARLY =>
"The server is unwilling to risk processing a request that might be replayed."
  | STATUS_PRECONDITION_REQUIRED =>
"The origin server requires the request to be conditional."
  | STATUS_TOO_MANY_REQUESTS =>
"The client has sent too many requests in a given amount of time."
  | STATUS_REQUEST_HEADER_FIELDS_TOO_LARGE =>
"The server is unwilling to process the request because its headers are too large."
  | STATUS_UNAVAILABLE_FOR_LEGAL_REASONS =>
"The resource is unavailable for legal reasons."
  | STATUS_LOOP_DETECTED =>
"The server terminated an operation because it encountered an infinite loop."
  | STATUS_NETWORK_AUTHENTICATION_REQUIRED =>
"The client needs to authenticate to gain network access."
  end.

Definition nid_text (n : nid) : string :=
  match n with
  | DATE_CLOCKLESS =>
"Although HTTP allows a server not to send a `Date` header in responses if it doesn't have a local
clock, this can make calculation of a stored response's age inexact."
  | DATE_CLOCKLESS_BAD_HDR =>
"Because both the `Expires` and `Last-Modified` headers are date-based, it's necessary to send when
the message was generated in `Date` for them to be useful; otherwise, clock drift, transit times
between nodes as well as caching could skew their application."
  | STORE_METHOD_UNCACHEABLE =>
""
  | STORE_NO_STORE =>
"The `Cache-Control: no-store` directive indicates that this response can't be stored by a cache."
  | STORE_PRIVATE_CC =>
"The `Cache-Control: private` directive indicates that the response can only be stored by caches
that are specific to a single user; for example, a browser cache. Shared caches, such as those in
proxies, cannot store it."
  | STORE_PRIVATE_PUBLIC_CONFLICT =>
"`Cache-Control: public` and `Cache-Control: private` conflict; they should not occur on the same message.

Conservative caches will ignore `public` and honor `private`, but this cannot be relied upon."
  | STORE_PRIVATE_AUTH =>
"Because the request was authenticated and this response doesn't contain a `Cache-Control: public`
directive, this response can only be stored by caches that are specific to a single user; for
example, a browser cache. Shared caches, such as those in proxies, cannot store it."
  | STORE_PUBLIC_AUTH =>
"Usually, responses to authenticated requests can't be stored by shared caches. However, because
This response contains a `Cache-Control: %(directive)s` directive, it can be stored by all caches,
including shared caches (like those in proxies)."
  | STORE_PUBLIC_UNNECESSARY =>
"The `Cache-Control: public` directive allows caches to store and use responses
in some circumstances when they would otherwise not be able to.

For example, it allows responses to authenticated requests to be stored by shared caches.

Other responses **do not need to contain `public`**; it does not make the
response ""more cacheable"", and only makes the response headers larger."
  | STORE_STORABLE =>
"A cache can store this response; it may or may not be able to use it to satisfy a particular
request."
  | STORE_STORABLE_SHARED_ONLY =>
"A shared cache can store this response; it may or may not be able to use it to satisfy a
particular request.

Private caches cannot store it, because there is no explicit freshness information
(such as Cache-Control: max-age), and the status code is not heuristically cacheable.

Note that a cache extension might override this behaviour."
  | STORE_UNSTORABLE =>
"While caches can store many kinds of response as being heuristically cacheable -- that is,
they can store them without explicit caching directives like Cache-Control:max-age, this
reponse's status code is not defined as being heuristically cacheable, and other directives
that would allow it to be stored (such as Cache-Control: public) are not present.

Note that a cache extension might override this behaviour."
  | FRESHNESS_NO_CACHE =>
"The `Cache-Control: no-cache` directive means that while caches can store this
response, they cannot use it to satisfy a request unless it has been validated (either with an
`If-None-Match` or `If-Modified-Since` conditional) for that request."
  | FRESHNESS_NO_CACHE_NO_VALIDATOR =>
"The `Cache-Control: no-cache` directive means that while caches can store this response, they
cannot use it to satisfy a request unless it has been validated (either with an `If-None-Match` or
`If-Modified-Since` conditional) for that request.

This response doesn't have a `Last-Modified` or `ETag` header, so it effectively can't be used by a
cache. `Cache-Control: no-store` is more appropriate."
  | CURRENT_AGE =>
"HTTP defines an algorithm that uses the `Age` header, `Date` header, and local time observations to
determine the age of a response. As a result, caches might use a value other than that in the `Age`
header to determine how old the response is -- and therefore how much longer it can be used."
  | FRESHNESS_FRESH =>
"A response can be considered fresh when its age (here, %(current_age)s) is less than its freshness
lifetime (in this case, %(freshness_lifetime)s)."
  | FRESHNESS_SHARED_PRIVATE =>
"This response has different freshness lifetimes for private (e.g., browser) and shared (e.g., proxy)
caches.

Private caches can consider it fresh for %(fresh_lifetime)s (until %(fresh_left)s from
now).

Shared caches can consider it fresh for %(share_lifetime)s (until %(share_left)s from now)."
  | FRESHNESS_STALE_ALREADY =>
"A HTTP response is stale when its age (here, %(current_age)s) is equal to or exceeds
its freshness lifetime (in this case, %(freshness_lifetime)s).

There are a few reasons why a cache might serve a stale response:

* HTTP allows stale responses to be used to satisfy requests in exceptional circumstances;
e.g., when they lose contact with the origin server. This is subject to a number of requirements.
* Response directives like `stale-if-error` and `stale-while-revalidate` explicitly allow stale
  responses to be used in particular circumstances.
* Some caches are configured to ignore the response's freshness directives."
  | FRESHNESS_HEURISTIC =>
"When a response doesn't have explicit freshness information (like a `Cache-Control: max-age`
directive, or `Expires` header), caches are allowed to estimate how fresh it is using a heuristic
(provided that the status code allows it).

Caches often do this using the `Last-Modified` header. For example, if a response was last modified a
week ago, a cache might consider it fresh for a day.

Consider adding a `Cache-Control: max-age` header; otherwise, it may be cached for longer or shorter
than you'd like."
  | FRESHNESS_NONE =>
"This response doesn't have explicit freshness information (like a ` Cache-Control: max-age`
directive, or `Expires` header), and this status code doesn't allow caches to calculate their own.

Additionally, its status code doesn't allow caches to assign their own freshness lifetimes to it.

Therefore, while caches might be allowed to store it, they generally can't use it, unless it can be
served stale.

As a result, many caches will not store the response at all, because it is not generally useful to do
so."
  | STALE_SERVABLE =>
"HTTP allows stale responses to be served in some circumstances; for example, if the origin
server can't be contacted, a stale response can be used even if it doesn't have explicit freshness
information available.

This behaviour can be prevented by using the `Cache-Control: must-revalidate` response directive."
  | STALE_IF_ERROR =>
"The `stale-if-error` cache directive allows a cache to return a stale response when an error
(e.g., a 500 Internal Server Error, or a network timeout) is encountered while attempting to
revalidate it.

See [RFC 5861](https://www.rfc-editor.org/rfc/rfc5861) for more information."
  | STALE_WHILE_REVALIDATE =>
"The `stale-while-revalidate` cache directive allows a cache to serve a stale response while a
revalidation request is happening in the background.

See [RFC 5861](https://www.rfc-editor.org/rfc/rfc5861) for more information."
  | FRESH_MUST_REVALIDATE =>
"The `Cache-Control: must-revalidate` directive forbids caches from using stale responses to satisfy
requests.

For example, caches often use stale responses when they cannot connect to the origin server; when
this directive is present, they will return an error rather than a stale response."
  | STALE_MUST_REVALIDATE =>
"The `Cache-Control: must-revalidate` directive forbids caches from using stale responses to satisfy
requests.

For example, caches often use stale responses when they cannot connect to the origin server; when
this directive is present, they will return an error rather than a stale response."
  | FRESH_PROXY_REVALIDATE =>
"The presence of the `Cache-Control: proxy-revalidate` and/or `s-maxage` directives forbids shared
caches (e.g., proxy caches) from using stale responses to satisfy requests.

For example, caches often use stale responses when they cannot connect to the origin server; when
this directive is present, they will return an error rather than a stale response.

These directives do not affect private caches; for example, those in browsers."
  | STALE_PROXY_REVALIDATE =>
"The presence of the `Cache-Control: proxy-revalidate` and/or `s-maxage` directives forbids shared
caches (e.g., proxy caches) from using stale responses to satisfy requests.

For example, caches often use stale responses when they cannot connect to the origin server; when
this directive is present, they will return an error rather than a stale response.

These directives do not affect private caches; for example, those in browsers."
  | CC_AND_EXPIRES =>
"The `Cache-Control: max-age` directive and the `Expires` header are both present.

`max-age` takes precedence over `Expires`, so `Expires` is redundant and can be removed."
  | CHARSET_MISMATCH =>
"The `Content-Type` header declares the character encoding as `%(declared_charset)s`,
but the content appears to be encoded as `%(detected_charset)s`.

Recipients that trust the declared charset might misinterpret the content."
  | CHARSET_IMPLICIT_MISMATCH =>
"The `%(media_type)s` media type requires content to be encoded as
`%(declared_charset)s`, but the content appears to be `%(detected_charset)s`.

Recipients might interpret this content as `%(declared_charset)s` regardless
of what was sent, so non-ASCII characters may be misrendered."
  | CHARSET_UNDECODABLE =>
"The content was declared as `%(declared_charset)s` (either explicitly or by
the media type's definition), but it cannot be decoded using that encoding;
it looks more like `%(detected_charset)s`.

This will likely cause decoding errors in recipients."
  | DECOMPRESSION_LIMIT =>
"httplint limits decompressed content to 100MB to avoid resource exhaustion. This message
exceeded that limit and was not fully decoded."
  | BAD_GZIP =>
"GZip-compressed responses have a header that contains metadata. Here, that header wasn't valid;
the error encountered was ""`%(gzip_error)s`""."
  | BAD_ZLIB =>
"GZip-compressed responses use zlib compression to reduce the number of bytes transferred on the
wire. However, this response could not be decompressed; the error encountered was
""`%(zlib_error)s`"".

%(ok_zlib_len)s bytes were decompressed successfully before this; the erroneous chunk starts with (in hex):

    %(chunk_sample)s
"
  | BAD_BROTLI =>
"Brotli-compressed responses use brotli compression to reduce the number of bytes transferred on the
wire. However, this response could not be decompressed; the error encountered was
""`%(brotli_error)s`"".

%(ok_brotli_len)s bytes were decompressed successfully before this; the erroneous chunk starts with (in hex):

    %(chunk_sample)s
"
  | CONTENT_TYPE_MISMATCH =>
"The `Content-Type` header declares the content as `%(declared_type)s`, but it looks like
`%(sniffed_type)s`."
  | FIELD_NAME_BAD_SYNTAX =>
"Field names are limited to the `token` production in HTTP; i.e., they can't contain parenthesis,
angle brackets (<>), ampersands (@), commas, semicolons, colons, backslashes (\), forward
slashes (/), quotes, square brackets ([]), question marks, equals signs (=), curly brackets ({})
spaces or tabs."
  | BAD_SYNTAX =>
"The value for this field has syntax specified using 
[Augmented BNF](https://www.rfc-editor.org/rfc/rfc5234.html),
but doesn't conform to it. See [the field's ABNF](%(ref_uri)s) for more information.

This error may or may not prevent recipients from parsing the field; fixing it will
improve interoperability.
"
  | BAD_SYNTAX_DETAILED =>
"The value for this field has syntax specified using 
[Augmented BNF](https://www.rfc-editor.org/rfc/rfc5234.html),
but doesn't conform to it. See [the field's ABNF](%(ref_uri)s) for more information.

This error may or may not prevent recipients from parsing the field; fixing it will
improve interoperability.

`%(problem)s`"
  | REQUEST_HDR_IN_RESPONSE =>
"The `%(field_name)s` field only has meaning in requests. Sending it a response
doesn't do anything. REDbot (and most recipients) will ignore it."
  | RESPONSE_HDR_IN_REQUEST =>
"The `%(field_name)s` field only has meaning in responses. Sending it in a request
doesn't do anything. REDbot (and most recipients) will ignore it."
  | FIELD_DEPRECATED =>
"This field is no longer recommended for use, because of interoperability problems and/or
lack of use. This field should probably be removed.

See [the deprecation notice](%(deprecation_ref)s) for more information."
  | CORS_PREFLIGHT_REQUEST =>
"This is a Cross-Origin Resource Sharing (CORS) preflight request.

A preflight request uses the `OPTIONS` method and includes an `Origin` and `Access-Control-Request-Method`
header."
  | CORS_PREFLIGHT_REQ_METHOD_WRONG =>
"The `%(field_name)s` header is only used in a Cross-Origin Resource Sharing (CORS) preflight
request.

A preflight request uses the `OPTIONS` method; this request uses `%(method)s`."
  | CORS_PREFLIGHT_REQ_NO_ORIGIN =>
"The `%(field_name)s` header is only used in a Cross-Origin Resource Sharing (CORS) preflight
request.

A preflight request requires the `Origin` header to be present."
  | CORS_PREFLIGHT_REQ_NO_METHOD =>
"The `%(field_name)s` header is only used in a Cross-Origin Resource Sharing (CORS) preflight
request.

A preflight request requires the `Access-Control-Request-Method` header to be present."
  | CORS_PREFLIGHT_RESPONSE =>
"This is a Cross-Origin Resource Sharing (CORS) preflight response.

It is a response to an `OPTIONS` request that includes an `Origin` and `Access-Control-Request-Method`
header."
  | CORS_PREFLIGHT_ONLY =>
"The following header(s) are only used in the response to a Cross-Origin Resource Sharing (CORS)
preflight request:

%(headers)s

A preflight request is an `OPTIONS` request that includes an `Origin` header and an
`Access-Control-Request-Method` header.

This response was not to a CORS preflight request, so these headers should not be present."
  | ACAO_MULTIPLE_VALUES =>
"The `Access-Control-Allow-Origin` header can only contain a single origin, `*`, or `null`. It
cannot contain a list of origins."
  | ACAC_NOT_TRUE =>
"The `Access-Control-Allow-Credentials` header must be set to `true` if present. If you don't want
to allow credentials, omit the header."
  | CORS_ORIGIN_MATCH =>
"The `Access-Control-Allow-Origin` header matches the `Origin` header in the request (`%(origin)s`).

This means that the browser will let the requesting site access the response."
  | CORS_ORIGIN_MISMATCH =>
"The `Access-Control-Allow-Origin` header (`%(acao_value)s`) does not match the `Origin` header
in the request (`%(origin)s`).

This means that the browser will **not** let the requesting site access the response."
  | CORS_ORIGIN_NULL =>
"The `Access-Control-Allow-Origin` header is set to `null`; this means that no origin can access
the response."
  | CORS_ORIGIN_STAR =>
"The `Access-Control-Allow-Origin` header is set to `*`; this means that any origin can access
the response, unless the request includes credentials or requires a preflight check."
  | BAD_JSON =>
"Each `%(field_name)s` field line must be valid JSON.

The JSON parsing error was:
    %(error)s"
  | BAD_Q_VALUE =>
"The `q` parameter must be a decimal number between 0 and 1, with at most 3 digits of precision."
  | ACCEPT_BAD_SYNTAX =>
"`%(value)s` is not a valid media range. `Accept` is a list of media ranges
(e.g., `text/html`, `image/*`, `*/*`) that the client prefers in the response;
see [its definition](%(ref_uri)s) for more information."
  | ACCEPT_CH_IN_PLAIN_HTTP =>
"The `Accept-CH` header field should only be used on secure (HTTPS) responses. Using it over plain
HTTP exposes the user's information to network observers. Because of this, browsers will ignore the
header."
  | ACCEPT_CH_MISSING_VARY =>
"The following fields appear in `Accept-CH` but are not listed in the `Vary` header:
%(missing_fields)s, even though the response is cacheable.

Because these fields can affect the response content, they should be included in `Vary` to ensure
that caches store separate responses for different client hints."
  | ACCEPT_CH_BAD_TYPE =>
"The value for this field is legally formatted as a
[Structured Field](https://www.rfc-editor.org/rfc/rfc8941.html), but it isn't a list of Tokens.
As a result, it will likely be ignored by browsers.

See [its definition](%(ref_uri)s) for more information."
  | BAD_Q_VALUE_accept_language =>
"The `q` parameter must be a decimal number between 0 and 1, with at most 3 digits of precision."
  | ACCEPT_LANGUAGE_BAD_SYNTAX =>
"The value for this field doesn't conform to its specified syntax; see [its
definition](%(ref_uri)s) for more information."
  | ACCEPT_PATCH_BAD_SYNTAX =>
"`%(value)s` is not a valid media type. `Accept-Patch` is a list of media types
(e.g., `application/json-patch+json`) accepted in a PATCH request; see [its
definition](%(ref_uri)s) for more information."
  | ACCEPT_POST_BAD_SYNTAX =>
"`%(value)s` is not a valid media type. `Accept-Post` is a list of media types
(e.g., `text/turtle`) accepted in a POST request; see [its definition](%(ref_uri)s)
for more information."
  | ACCEPT_QUERY_BAD_TYPE =>
"`Accept-Query` is a List Structured Field whose members are Tokens or Strings, each
naming a media range accepted in the content of a QUERY request. `%(value)s` is
neither, so it will be ignored."
  | ACCEPT_QUERY_BAD_SYNTAX =>
"`%(value)s` is not a valid media range. `Accept-Query` is a list of media ranges
(e.g., `application/sparql-query`, `text/*`) accepted in the content of a QUERY
request; see [its definition](%(ref_uri)s) for more information."
  | UNKNOWN_RANGE =>
"The `Accept-Ranges` response header tells clients what `range-unit`s a resource is willing to
process in future requests. HTTP only defines two: `bytes` and `none`.

Clients who don't know about the non-standard range-unit will not be able to use it."
  | CORS_MAX_AGE_INVALID =>
"The `Access-Control-Max-Age` header indicates how many seconds a preflight response can be cached
for. It must be a non-negative integer."
  | CORS_MAX_AGE_NEGATIVE =>
"The `Access-Control-Max-Age` header indicates how many seconds a preflight response can be cached
for. It cannot be less than zero."
  | AGE_NOT_INT =>
"The `Age` header indicates the age of the response; i.e., how long it has been cached
since it was generated. The value given was not an integer, so it is not a valid age."
  | AGE_NEGATIVE =>
"The `Age` header indicates the age of the response; i.e., how long it has been cached
since it was generated. The value given was negative, so it is not a valid age."
  | AGE_LARGE =>
"The `Age` header's value is greater than 2,147,483,648. Some implementations may represent it
using that value (which is over 68 years).
"
  | ALTSVC_CLEAR_LIST =>
"The `Alt-Svc` header field value ""clear"" is used to invalidate previous alternative services.
It cannot be combined with other alternative service advertisements."
  | AVAILABLE_DICTIONARY_MISSING_AE =>
"The `Available-Dictionary` header is present, but `Accept-Encoding` does not contain 'dcb' or 'dcz'.

[RFC 9842 Section 6.1](https://www.rfc-editor.org/rfc/rfc9842.html#section-6.1) requires that if a
client sends `Available-Dictionary`, it MUST also advertise support for dictionary-based content
encoding (dcb or dcz) in `Accept-Encoding`."
  | AVAILABLE_DICTIONARY_BAD_TYPE =>
"The `Available-Dictionary` header value must be a Byte Sequence. Found `%(got)s`."
  | CC_SHOULD_NOT_HAVE_VALUE =>
"The `%(directive)s` cache directive is a flag; it shouldn't have a value."
  | CC_BAD_VALUE_TYPE =>
"The `%(directive)s` cache directive type is %(expected_type)s, but `%(value)s` was found."
  | CC_MAX_AGE_TOO_LARGE =>
"The `%(directive)s` cache directive's value is greater than 2^31-1. Some implementations may not be
able to handle values this large."
  | CC_MISCAP =>
"cache directive names are case-insensitive, but some implementations don't
recognize directives that aren't all-lowercase.

Therefore, it's safest to use `%(directive_lower)s` instead of `%(directive)s`."
  | CC_DUP =>
"The `%(directive)s` cache directive is only defined to appear once; it is used more than
once here, so implementations may use different instances (e.g., the first, or the last),
making their behaviour unpredictable."
  | CC_CONFLICTING =>
"The `%(directive)s` cache directive overrides or conflicts with these other directives: 

%(conflicts)s

The conflicting directives will be ignored by caches, and can be safely omitted.
    "
  | CC_WRONG_MESSAGE =>
"The `%(directive)s` cache directive is only defined to appear in %(other_message)s
messages; is has no defined meaning in a %(message_type)s."
  | CHECK_SINGLE =>
"Microsoft Internet Explorer implements two `Cache-Control` extensions, `pre-check` and
`post-check`, to give more control over how its cache stores responses.

This response uses only one of these directives; as a result, Internet Explorer will ignore the
directive, since it requires both to be present.
"
  | CHECK_ALL_ZERO =>
"Microsoft Internet Explorer implements two `Cache-Control` extensions, `pre-check` and
`post-check`, to give more control over how its cache stores responses.

This response gives a value of ""0"" for both; as a result, Internet Explorer will ignore the
directive, since it requires both to be present.

In other words, setting these to zero has **no effect** (besides wasting bandwidth),
and may trigger bugs in some beta versions of IE."
  | CHECK_POST_BIGGER =>
"Microsoft Internet Explorer implements two `Cache-Control` extensions, `pre-check` and
`post-check`, to give more control over how its cache stores responses.

This response assigns a higher value to `post-check` than to `pre-check`; this means that Internet
Explorer will treat `post-check` as if its value is the same as `pre-check`'s."
  | CHECK_POST_ZERO =>
"Microsoft Internet Explorer implements two `Cache-Control` extensions, `pre-check` and
`post-check`, to give more control over how its cache stores responses.

This response assigns a value of ""0"" to `post-check`, which means that Internet Explorer will reload
the content as soon as it enters the browser cache, effectively **doubling the load on the
server**."
  | CHECK_POST_PRE =>
"Microsoft Internet Explorer implements two `Cache-Control` extensions, `pre-check` and
`post-check`, to give more control over how its cache stores responses.

Once it has been cached for more than %(post_check)s seconds, a new request will result in the
cached response being served while it is refreshed in the background. However, if it has been
cached for more than %(pre_check)s seconds, the browser will download a fresh response before
showing it to the user.

Note that these directives do not have any effect on other clients or caches."
  | CACHE_GROUP_INVALIDATION_BAD_TYPE =>
"The `%(field_name)s` header values must be Strings. Found `%(got)s`."
  | CACHE_GROUP_INVALIDATION_IGNORED =>
"The `Cache-Group-Invalidation` header is only processed for unsafe methods (like POST, PUT, DELETE).
It will be ignored for `%(method)s` requests."
  | CACHE_GROUPS_BAD_TYPE =>
"The `%(field_name)s` header values must be Strings. Found `%(got)s`."
  | CACHE_STATUS =>
"The `Cache-Status` header field indicates how caches have handled the response.

%(status)s
"
  | CACHE_STATUS_UNKNOWN_PARAM =>
"The `%(param)s` parameter is not defined in the Cache-Status specification.
"
  | CACHE_STATUS_BAD_PARAM_VAL =>
"The value `%(value)s` is not defined for the `%(param)s` parameter.
"
  | BAD_CDN_CC_TYPE =>
"The value for this directive must be %(expected_type)s."
  | CDN_CACHE_CONTROL_PRESENT =>
"The `CDN-Cache-Control` header field allows you to specify cache directives that are targeted at
Content Delivery Network (CDN) caches, separately from the `Cache-Control` header field (which
applies to all caches)."
  | CSD_PRESENT =>
"The `Clear-Site-Data` header instructs the browser to clear the following data for this origin:
%(values)s.

This is useful for actions such as logout, account switching, or session termination, where
locally-stored data should not persist."
  | CSD_UNKNOWN_VALUE =>
"The `Clear-Site-Data` header contains a value that is not recognized.
Valid values are: `""cache""`, `""cookies""`, `""storage""`, `""executionContexts""`, `""*""`."
  | CSD_EMPTY =>
"The `Clear-Site-Data` header value is empty. It should contain at least one directive."
  | CSD_UNQUOTED =>
"Values in the `Clear-Site-Data` header must be quoted; unquoted values will be ignored. 

The following values were found unquoted: `%(values)s`."
  | DISPOSITION_UNKNOWN =>
"The `Content-Disposition` header has two widely-known values; `inline` and `attachment`.
`%(disposition)s` isn't recognised, and most implementations will default to handling it like
`attachment`."
  | DISPOSITION_OMITS_FILENAME =>
"The `Content-Disposition` header with a disposition of `attachment` suggests a filename for clients
to use when saving the file locally.

It should always contain a `filename` parameter, even when the `filename*` parameter is used to
carry an internationalised filename, so that browsers can fall back to an ASCII-only filename."
  | DISPOSITION_FILENAME_PERCENT =>
"The `Content-Disposition` header suggests a filename for clients to use when saving the file
locally, using the `filename` parameter.

[RFC6266](https://www.rfc-editor.org/rfc/rfc6266) specifies how to carry non-ASCII characters in this
parameter. However, historically some (but not all) browsers have also decoded %%-encoded
characters in the `filename` parameter, which means that they'll be treated differently depending
on the browser you're using.

As a result, it's not interoperable to use percent characters in the `filename` parameter. Use the
correct encoding in the `filename*` parameter instead."
  | DISPOSITION_FILENAME_PATH_CHAR =>
"The `Content-Disposition` header suggests a filename for clients to use when saving the file
locally, using the `filename` and `filename*` parameters.

One of these parameters contains a path character (""\"" or ""/""), used to navigate between
directories on common operating systems.

Because this can be used to attach the browser's host operating system (e.g., by saving a file to a
system directory), browsers will usually ignore these parameters, or remove path information.

You should remove these characters."
  | DICTIONARY_COMPRESSED_MISSING_VARY =>
"The response is compressed with a dictionary (dcb or dcz) and is cacheable, but does not list
`Available-Dictionary` in the `Vary` header.

[RFC 9842 Section 6.2](https://www.rfc-editor.org/rfc/rfc9842.html#section-6.2) requires that
cacheable dictionary-compressed responses MUST include `Available-Dictionary` in the `Vary` header
to prevent serving compressed content to clients that do not have the dictionary."
  | ENCODING_UNWANTED =>
"This response's `Content-Encoding` header indicates it has the `%(coding)s content-coding applied
, but the client didn't indicate support for it in the request.

Normally, clients ask for the encodings they want in the `Accept-Encoding` request header. Using
encodings that the client doesn't explicitly request can lead to interoperability problems."
  | CONTENT_LANGUAGE_DUP =>
"The `%(lang)s` language tag is used more than once in the `Content-Language` header.

Recipients will likely ignore duplicates."
  | CL_BAD_SYNTAX =>
"The `Content-Length` header should be an integer, but it was not."
  | CL_AND_TE_PRESENT =>
"RFC 9110 Section 8.6:
> A sender MUST NOT send a Content-Length header field in any message that contains a Transfer-Encoding header field.

This is because `Transfer-Encoding` overrides `Content-Length`."
  | CL_TOO_LARGE =>
"The `Content-Length` header's value is greater than 2^63-1. Some implementations may not be able to
handle values this large."
  | CONTENT_RANGE_MEANINGLESS =>
"HTTP only defines meaning for the `Content-Range` header in responses with a `206` (Partial
Content) or `416` (Requested Range Not Satisfiable) status code.

Because the status code is neither of those, this `Content-Range` header may confuse caches and
clients."
  | CONTENT_RANGE_MISSING_UNIT =>
"The `Content-Range` header is missing a range unit at the start; it should
almost always be `bytes`.

For example:

    Content-Range: bytes 1-100/200
"
  | CONTENT_RANGE_INVALID_ASTERISK =>
"The `Content-Range` header cannot use a wildcard (`*`) for both the range and the complete length.
"
  | CONTENT_RANGE_MISSING_SLASH =>
"The `Content-Range` header is missing a slash (`/`) separating the range from the complete length.

For example:

    Content-Range: bytes 1-100/200
"
  | RANGE_MISSING_HYPHEN =>
"The range specifier `%(value)s` is missing a hyphen separating the start and end positions."
  | RANGE_INVALID_INTEGER =>
"The value `%(value)s` is not a valid integer."
  | RANGE_INVALID =>
"The values indicated by the `Content-Range` header are not valid. The first position must be less
than or equal to the last position, and the last position must be less than the complete length."
  | CONTENT_RANGE_UNSATISFIED_BAD_SC =>
"The `Content-Range` header uses the `*/<length>` syntax, which is reserved for `416` (Requested
Range Not Satisfiable) responses to indicate the actual length of the resource.

The `206` response status code indicates a successful range response, so this header is
incorrect."
  | CONTENT_RANGE_UNKNOWN_LENGTH =>
"The `Content-Range` header uses `*` for the instance length, indicating that the total length of
the resource is unknown."
  | CONTENT_SECURITY_POLICY =>
"[Content Security Policy](https://www.w3.org/TR/CSP3/) allows the server to declare
the sources of content that browsers are allowed to use on a page.%(report_only_text)s"
  | CSP_UNSAFE_INLINE =>
"The `'unsafe-inline'` [Content Security Policy](https://www.w3.org/TR/CSP3/)
directive allows the execution of inline scripts and event handlers, which
significantly reduces the protection provided by CSP against Cross-Site
Scripting (XSS) attacks.

It was found in the following directives:

%(directives_list)s"
  | CSP_UNSAFE_EVAL =>
"The `'unsafe-eval'` [Content Security Policy](https://www.w3.org/TR/CSP3/)
directive allows the use of string-to-code mechanisms like `eval()`, which can make it easier for
attackers to execute malicious code.

It was found in the following directives:

%(directives_list)s"
  | CSP_HTTP_URI =>
"Allowing `http:` sources in `%(field_name)s` can allow attackers to intercept and modify
content loaded by the page, potentially bypassing security controls.

It was found in the following directives:

%(directives_list)s"
  | CSP_DUPLICATE_DIRECTIVE =>
"Directives must only appear once in the `%(field_name)s` header; subsequent occurrences are ignored.

The following directives were duplicated:

%(directives_list)s"
  | CSP_DEPRECATED_REPORT_URI =>
"The `report-uri` [Content Security Policy](https://www.w3.org/TR/CSP3/)
directive is deprecated in favor of `report-to`. It is recommended to use `report-to`
for reporting violations, although `report-uri` may still be supported for backward
compatibility."
  | CSP_WIDE_OPEN =>
"The `*` [Content Security Policy](https://www.w3.org/TR/CSP3/)
directive allows resources to be loaded from any origin, which significantly reduces the protection
provided by CSP.%(report_only_text)s

It was found in the following directives:

%(directives_list)s"
  | CSP_REPORT_TO_MISSING =>
"The `report-to` directive [Content Security Policy](https://www.w3.org/TR/CSP3/)
specifies a reporting endpoint, but no matching endpoint refers to it in the
`Reporting-Endpoints` header.%(report_only_text)s"
  | COEP_REQUIRE_CORP =>
"The `require-corp`
[Cross Origin Embedder Policy](https://fetch.spec.whatwg.org/#cross-origin-embedder-policy-header)
requires that all cross-origin resources must explicitly grant permission to be loaded via a
`Cross-Origin-Resource-Policy` header, in supporting browsers.%(report_only_text)s"
  | COEP_CREDENTIALLESS =>
"The `credentialless`
[Cross-Origin Embedder Policy](https://fetch.spec.whatwg.org/#cross-origin-embedder-policy-header)
allows loading cross-origin resources without explicit permission in supporting browsers, but
requests for them will not include credentials (cookies, client certificates,
etc.).%(report_only_text)s"
  | COEP_UNSAFE_NONE =>
"The `unsafe-none`
[Cross-Origin Embedder Policy](https://fetch.spec.whatwg.org/#cross-origin-embedder-policy-header)
is the default behavior, allowing cross-origin resources to be loaded
without explicit permission in supporting browsers.

This does not provide cross-origin isolation.%(report_only_text)s"
  | CROSS_ORIGIN_EMBEDDER_POLICY_BAD_VALUE =>
"The `%(field_name)s` header must be one of `require-corp`, `credentialless`, or
`unsafe-none`.
"
  | COEP_REPORT_TO_MISSING =>
"The `report-to` parameter in the
[Cross-Origin Embedder Policy](https://fetch.spec.whatwg.org/#cross-origin-embedder-policy-header)
header specifies a reporting endpoint, but no matching endpoint refers to it in the
`Reporting-Endpoints` header."
  | COEP_REPORT_ONLY_DUPLICATE =>
"A response should not have both `Cross-Origin-Embedder-Policy` and
`Cross-Origin-Embedder-Policy-Report-Only` headers. The report-only header will be ignored."
  | COOP_SAME_ORIGIN =>
"The `same-origin`
[Cross-Origin Opener Policy](https://html.spec.whatwg.org/multipage/origin.html#coop)
isolates the browsing context, preventing it from sharing a window object
with cross-origin documents in supporting browsers.%(report_only_text)s"
  | COOP_SAME_ORIGIN_ALLOW_POPUPS =>
"The `same-origin-allow-popups`
[Cross-Origin Opener Policy](https://html.spec.whatwg.org/multipage/origin.html#coop)
isolates the browsing context but maintains a relationship
with popups that it opens, or that opened it, in supporting browsers.%(report_only_text)s"
  | COOP_UNSAFE_NONE =>
"The `unsafe-none`
[Cross-Origin Opener Policy](https://html.spec.whatwg.org/multipage/origin.html#coop)
is the default behavior in supporting browsers. It allows the document to share a browsing context
group with other documents unless they enforce isolation.%(report_only_text)s"
  | CROSS_ORIGIN_OPENER_POLICY_BAD_VALUE =>
"The `%(field_name)s` header must be one of `same-origin`, `same-origin-allow-popups`,
or `unsafe-none`.
"
  | COOP_REPORT_TO_MISSING =>
"The `report-to` parameter in the
[Cross-Origin Opener Policy](https://html.spec.whatwg.org/multipage/origin.html#coop)
header specifies a reporting endpoint, but no matching endpoint refers to it in the
`Reporting-Endpoints` header."
  | COOP_REPORT_ONLY_DUPLICATE =>
"A response should not have both `Cross-Origin-Opener-Policy` and
`Cross-Origin-Opener-Policy-Report-Only` headers. The report-only header will be ignored."
  | CORP_SAME_ORIGIN =>
"The `same-origin`
[Cross-Origin Resource Policy](https://fetch.spec.whatwg.org/#cross-origin-resource-policy-header)
prevents the resource from being read by any cross-origin document 
in supporting browsers.%(report_only_text)s"
  | CORP_SAME_SITE =>
"The `same-site`
[Cross-Origin Resource Policy](https://fetch.spec.whatwg.org/#cross-origin-resource-policy-header)
allows the resource to be read by documents from the same site, but
prevents it from being read by cross-site documents in supporting browsers.%(report_only_text)s"
  | CORP_CROSS_ORIGIN =>
"The `cross-origin`
[Cross-Origin Resource Policy](https://fetch.spec.whatwg.org/#cross-origin-resource-policy-header)
allows the resource to be read by any document in supporting browsers, regardless of its 
origin.%(report_only_text)s"
  | CROSS_ORIGIN_RESOURCE_POLICY_BAD_VALUE =>
"`%(value)s` is not a valid in the `Cross-Origin-Resource-Policy` header;
it must be one of `same-origin`, `same-site`, or `cross-origin`.
"
  | DATE_CORRECT =>
"HTTP's caching model assumes reasonable synchronisation between clocks on the server and client;
compared to the local clock, the server's clock appears to be well-synchronised."
  | DATE_INCORRECT =>
"Compared to the local clock, the server's clock does not appear to be well-synchronised.

HTTP's caching model assumes reasonable synchronisation between clocks on the server and client;
clock skew can cause responses that should be cacheable to be considered uncacheable (especially if
their freshness lifetime is short).

Ask your server administrator to synchronise the clock, e.g., using
[NTP](http://en.wikipedia.org/wiki/Network_Time_Protocol Network Time Protocol).

Apparent clock skew can also be caused by caching the response without adjusting the `Age` header;
e.g., in a reverse proxy or Content Delivery network. See [this
paper](https://www.usenix.org/legacy/events/usits01/full_papers/cohen/cohen_html/index.html) for more information. "
  | AGE_PENALTY =>
"It appears that this response has been cached by a reverse proxy or Content Delivery Network,
because the `Age` header is present, but the `Date` header is more recent than it indicates.

Generally, reverse proxies should either omit the `Age` header (if they have another means of
determining how fresh the response is), or leave the `Date` header alone (i.e., act as a normal
HTTP cache).

See [this paper](https://www.usenix.org/legacy/events/usits01/full_papers/cohen/cohen_html/index.html)
for more information."
  | DEPRECATION_PAST =>
"The `Deprecation` header indicates that this resource was deprecated on %(date)s."
  | DEPRECATION_FUTURE =>
"The `Deprecation` header indicates that this resource will be deprecated on %(date)s."
  | DEPRECATION_TRUE =>
"The `Deprecation` header indicates that this resource is deprecated."
  | DEPRECATION_BAD_TYPE =>
"The `Deprecation` [Structured Field](https://www.rfc-editor.org/rfc/rfc8941.html)
header must be a Date or a Boolean. Found: %(item_type)s."
  | EXPECT_UNKNOWN =>
"HTTP only defines one expectation, `100-continue`. This expectation is not recognized."
  | EXPECT_HTTP_1_0 =>
"The `Expect` header was added in HTTP/1.1; it has no meaning in HTTP/1.0."
  | LM_FUTURE =>
"The `Last-Modified` header indicates the last point in time that the resource has changed.
This response's `Last-Modified` time is in the future, which doesn't have any defined meaning in
HTTP."
  | LM_PRESENT =>
"The `Last-Modified` header indicates the last point in time that the resource has changed. It is
used in HTTP for validating cached responses, and for calculating heuristic freshness in caches.

This resource last changed %(last_modified_string)s."
  | LINK_RESOURCE_HINTS =>
"The `Link` header advertises the following
[resource hints](https://www.w3.org/TR/resource-hints/), allowing the client to begin work on
related resources before the current response is fully processed:

%(detail_lines)s

`preload` triggers the browser to fetch a resource needed for the current page; `preconnect`
opens a connection (DNS + TCP + TLS) to an origin in advance; `dns-prefetch` performs a DNS
lookup only. Used appropriately, these hints can reduce critical-path latency."
  | LINK_BAD_HINT_TARGET =>
"The `Link` header advertises a `%(rel)s` resource hint for `%(link)s`, but its scheme
(`%(scheme)s`) is not `http` or `https`. Browsers will ignore this hint."
  | LINK_REV =>
"The `Link` header, defined by [RFC 8288](https://www.rfc-editor.org/rfc/rfc8288#section-3), uses the
`rel` parameter to communicate the type of a link. `rev` is deprecated by that specification
because it is often confusing.

Use `rel` and an appropriate relation."
  | LINK_BAD_ANCHOR =>
"The `Link` header, defined by [RFC 8288](https://www.rfc-editor.org/rfc/rfc8288#section-3), uses the
`anchor` parameter to define the context URI for the link.

This parameter can be an absolute or relative URI; however, `%(anchor)s` is neither."
  | LINK_BAD_TYPE =>
"The `Link` header, defined by [RFC 8288](https://www.rfc-editor.org/rfc/rfc8288#section-3), uses the
`type` parameter to define the media type of the link target.

However, `%(type)s` is not a valid media type."
  | LOCATION_UNDEFINED =>
"The `Location` header is used for specific purposes in HTTP; mostly to indicate the URI of another
resource (e.g., in redirection, or when a new resource is created).

In other status codes (such as this one) it doesn't have a defined meaning, so any use of it won't
be interoperable.

Sometimes `Location` is confused with `Content-Location`, which indicates a URI for the payload of
the message that it appears in."
  | LOCATION_NOT_ABSOLUTE =>
"`Location` was originally specified to contain an absolute, not relative, URI.

It is in the process of being updated, and most clients will work around this.

The correct absolute URI is (probably): `%(full_uri)s`"
  | MAX_FORWARDS_IGNORED =>
"The `Max-Forwards` header is only defined for `TRACE` and `OPTIONS` requests; for other methods, it
is likely to be ignored."
  | NEL_BAD_STRUCTURE =>
"The `NEL` header should be a list of objects.
"
  | NEL_MISSING_KEY =>
"The `%(key)s` key is required in `NEL` policies."
  | NEL_BAD_TYPE =>
"The `%(key)s` key must be of type %(expected)s."
  | NEL_BAD_VALUE =>
"The `%(key)s` key has an invalid value; %(details)s.
Details: %(details)s"
  | NEL_CONFIGURED =>
"The `NEL` header configures
[Network Error Logging](https://w3c.github.io/network-error-logging/), which instructs the browser
to report network-level errors (DNS, TCP, TLS, and HTTP failures) to the reporting endpoint(s):
%(endpoints)s.

This supports observability of failures that would otherwise be invisible to the server."
  | NEL_REPORT_TO_MISSING =>
"The `report_to` member in the [Network Error Logging](https://w3c.github.io/network-error-logging/)
policy specifies a reporting endpoint, but no matching endpoint refers to it in the
`Reporting-Endpoints` header."
  | BAD_ORIGIN_SYNTAX =>
"The Origin header must contain a list of serialized origins (scheme, host, and optional port), or
the string ""null""."
  | ORIGIN_MULTIPLE_VALUES =>
"The `Origin` header should only contain a single value. Any values after the first
will be ignored."
  | PERMISSIONS_POLICY_PRESENT =>
"The `Permissions-Policy` header allows a site to control the use of browser features."
  | PERMISSIONS_POLICY_WILDCARD =>
"The `%(feature)s` feature is allowed for all origins (using `*`).
This is insecure and should be restricted to specific origins or `self`."
  | PERMISSIONS_POLICY_INVALID_VALUE =>
"The value for the `%(feature)s` feature in `Permissions-Policy` is invalid. It should be either
an Inner List of origins (e.g., `(self ""https://example.com"")`) or the special token `*`."
  | PERMISSIONS_POLICY_UNKNOWN_TOKEN =>
"The token `%(token)s` is not a valid keyword in an allowlist.
Valid tokens are `self` and `src`."
  | PERMISSIONS_POLICY_QUOTED_KEYWORD =>
"The value `%(value)s` is a string, but it looks like a keyword.
If you meant to use the keyword, remove the quotes (e.g., `self` instead of `""self""`)."
  | PERMISSIONS_POLICY_INVALID_ITEM_TYPE =>
"The item `%(item)s` is not a valid type for an allowlist.
Allowlists should contain origins (strings) or keywords (tokens)."
  | PRAGMA_OTHER =>
"HTTP only defines `Pragma: no-cache`; other uses of this header are deprecated."
  | PROXY_STATUS =>
"The `Proxy-Status` header field indicates how intermediaries have handled the response.

%(status)s
"
  | PROXY_STATUS_UNKNOWN_PARAM =>
"The `%(param)s` parameter is not defined in the Proxy-Status specification.
"
  | PROXY_STATUS_BAD_PARAM_VAL =>
"The value `%(value)s` is not defined for the `%(param)s` parameter.
"
  | RANGE_INVALID_range =>
"The values indicated by the `Range` header are not valid. The first position must be less
than or equal to the last position."
  | RANGE_BAD_SYNTAX =>
"The value for this field doesn't conform to its specified syntax; %(problem)s.

See [its definition](%(ref_uri)s) for more information."
  | REFERER_SECURE_TO_INSECURE =>
"HTTP prohibits a user agent from sending a Referer header field in an unsecured HTTP request
if the referring resource was accessed with a secure protocol.

See [RFC 9110 Section 10.1.3](https://www.rfc-editor.org/rfc/rfc9110.html#section-10.1.3)
for details."
  | REFERER_SECURE_TO_DIFFERENT_ORIGIN =>
"HTTP prohibits a user agent from sending a Referer header field if the referring resource was
accessed with a secure protocol and the request target has an origin differing from that of the
referring resource, unless the referring resource explicitly allows Referer to be sent.

See [RFC 9110 Section 10.1.3](https://www.rfc-editor.org/rfc/rfc9110.html#section-10.1.3)
for details."
  | REFERRER_POLICY_STRICT =>
"The `Referrer-Policy` value `%(policy)s` prevents the full URL from being sent as a referrer to
less-secure or cross-origin destinations, reducing the risk of leaking sensitive information in
the `Referer` request header."
  | REFERRER_POLICY_UNSAFE =>
"Using `unsafe-url` in `Referrer-Policy` means that the full URL (including query parameters) will
be sent as a referrer to all origins, including those that are not secure (HTTP). This can leak
sensitive information."
  | REFERRER_POLICY_UNKNOWN =>
"The `Referrer-Policy` header contains the value `%(policy)s`, which is not a known referrer policy.
It will be ignored by browsers."
  | REFERRER_POLICY_EMPTY =>
"The `Referrer-Policy` header does not contain any valid policies. Browsers will use their default
policy (usually `strict-origin-when-cross-origin`)."
  | REFERRER_POLICY_MULTIPLE =>
"The `Referrer-Policy` header contains multiple valid policies. Browsers will only use the last
valid policy found, which is `%(effective)s`. Earlier values are ignored."
  | REPORT_TO_BAD_STRUCTURE =>
"The `Report-To` header should be a list of objects.
"
  | REPORT_TO_MISSING_KEY =>
"The `%(key)s` key is required in `Report-To` objects."
  | REPORT_TO_BAD_TYPE =>
"The `%(key)s` key must be of type %(expected)s."
  | ENDPOINT_NOT_SECURE =>
"The reporting endpoint `%(name)s` uses an insecure URL (`%(url)s`). Browsers may ignore it."
  | BAD_REPORTING_ENDPOINT_SYNTAX =>
"The reporting endpoint `%(name)s` must be a string URL.
Found: `%(value)s` (type `%(found_type)s`)."
  | SERVER_TOO_LONG =>
"The `Server` header is %(server_length)s long, which uses unnecessary bandwidth
and can expose details of the back-end system to attackers.

Consider shortening it."
  | SERVER_TIMING_BAD_PARAM =>
"The `%(param)s` parameter on the `%(metric)s` metric of the Server-Timing header requires a
valid number, but `%(value)s` was found.
"
  | SERVER_TIMING_MISSING_DUR =>
"The `%(metric)s` metric in the Server-Timing header is missing the `dur` (duration) parameter.

This parameter isn't required, but without it browsers may not be able to usefully display it.
"
  | SERVER_TIMING_MISSING_DESC =>
"The `%(metric)s` metric in the Server-Timing header is missing the `desc` (description) parameter.

Descriptions can help contextualise a metric when displayed.
"
  | SET_COOKIE_NO_NAME =>
"This `Set-Cookie` header has an empty name; there needs to be a name before the `=`.

Browsers will ignore this cookie."
  | SET_COOKIE_BAD_DATE =>
"The `expires` date on this `Set-Cookie` header isn't valid; see
[RFC6265](https://www.rfc-editor.org/rfc/rfc6265) for details of the correct format."
  | SET_COOKIE_EMPTY_MAX_AGE =>
"The `max-age` parameter on this `Set-Cookie` header doesn't have a value.

Browsers will ignore the `max-age` value as a result."
  | SET_COOKIE_LEADING_ZERO_MAX_AGE =>
"The `max-age` parameter on this `Set-Cookie` header has a leading zero.

Browsers will ignore the `max-age` value as a result."
  | SET_COOKIE_NON_DIGIT_MAX_AGE =>
"The `max-age` parameter on this `Set-Cookie` header isn't numeric.

Browsers will ignore the `max-age` value as a result."
  | SET_COOKIE_EMPTY_DOMAIN =>
"The `domain` parameter on this `Set-Cookie` header is empty.

Note that handling of empty domains is 
[not interoperable](https://chromestatus.com/feature/5674723800252416).

Browsers will probably ignore it as a result."
  | SET_COOKIE_NOT_SECURE =>
"The `Secure` attribute on this `Set-Cookie` header is missing.

Because the `SameSite` attribute is set to `None`, the `Secure` attribute is required.

Browsers will ignore this cookie."
  | SET_COOKIE_UNKNOWN_ATTRIBUTE =>
"This cookie has an extra parameter, `%(attribute)s`.

Browsers will ignore it."
  | SET_COOKIE_PRIORITY =>
"The `Priority` attribute was an experiment, and is no longer supported.
"
  | SET_COOKIE_VERSION =>
"The `Version` attribute is no longer part of the `Set-Cookie` specification,
and is ignored by browsers.

Because some software still interprets cookies differently when it is present,
[it can cause security 
issues](https://portswigger.net/research/bypassing-wafs-with-the-phantom-version-cookie).
"
  | SET_COOKIE_UNKNOWN_ATTRIBUTE_VALUE =>
"This `Set-Cookie` header has an unknown `%(attribute_name)s` attribute value, `%(attribute_value)s`.

Browsers will probably ignore it as a result."
  | SET_COOKIE_PARTITIONED_NO_SECURE =>
"The `Partitioned` attribute on this `Set-Cookie` header is present, but the `Secure` attribute is
missing.

Browsers will ignore the `Partitioned` attribute as a result."
  | SET_COOKIE_TOO_LARGE =>
"The `Set-Cookie` header is larger than 4096 bytes.

Browsers will ignore this cookie."
  | SET_COOKIE_VALUE_TOO_LARGE =>
"This `Set-Cookie` value is %(set_cookie_value_length)s long.
"
  | SET_COOKIE_LIFETIME_TOO_LONG =>
"The `Set-Cookie` header has a lifetime (Max-Age or Expires) of %(duration)s, which is greater than
400 days.

Browsers will cap the lifetime to 400 days."
  | SET_COOKIE_PREFIX_SECURE_MISSING =>
"The `Set-Cookie` header has a prefix (e.g., `__Secure-` or `__Host-`) that requires the `Secure`
attribute.

Browsers will reject this cookie."
  | SET_COOKIE_PREFIX_HOST_BAD_DOMAIN =>
"The `Set-Cookie` header has a `__Host-` prefix, but it sets a `Domain` attribute.

Browsers will reject this cookie."
  | SET_COOKIE_PREFIX_HOST_BAD_PATH =>
"The `Set-Cookie` header has a `__Host-` prefix, but it does not set `Path=/`.

Browsers will reject this cookie."
  | SET_COOKIE_ATTRIBUTE_DUP =>
"The `%(attribute)s` attribute appears more than once in this `Set-Cookie` header.

Browsers will only use the last occurrence."
  | SET_COOKIE_HARDENED =>
"The following cookies set `Secure` (only sent over HTTPS), `HttpOnly` (inaccessible to
JavaScript), and a non-`None` `SameSite` value (limiting cross-site sending): %(cookie_names)s.

Together, these attributes substantially reduce a cookie's exposure to common attacks such as
theft over plaintext connections, cross-site scripting, and cross-site request forgery."
  | SET_COOKIE_NAME_DUP =>
"The following cookies are set more than once in this response: `%(cookie_names)s`.

Browsers will likely accept all of them, but the order of application
may vary or be confusing."
  | SPECULATION_RULE_NOT_SECURE =>
"The speculation rule `%(url)s` uses an insecure URL. Browsers may ignore it."
  | SPECULATION_RULES_BAD_TYPE =>
"The speculation rule is a
[Structured Field](https://www.rfc-editor.org/rfc/rfc8941.html) list of Items, where
each item must be a string URL. Found: `%(value)s` (type `%(found_type)s`)."
  | HSTS_VALID =>
"This site has enabled HTTP Strict Transport Security (HSTS), which tells the browser to only
communicate with it over a secure connection."
  | HSTS_INVALID =>
"This site has attempted to enable HTTP Strict Transport Security (HSTS), which tells the browser to only
communicate with it over a secure connection.

However, one or more issues prevent it from being valid. See the child notes for details."
  | HSTS_NO_MAX_AGE =>
"The `Strict-Transport-Security` header requires a `max-age` directive to be valid."
  | HSTS_MAX_AGE_ZERO =>
"A `max-age` of 0 tells the browser to expire the `Strict-Transport-Security` policy immediately,
effectively disabling it."
  | HSTS_SHORT_MAX_AGE =>
"Most sites should set a `max-age` of at least one year on `Strict-Transport-Security`."
  | HSTS_SUBDOMAINS =>
"The `includeSubDomains` directive indicates that this HSTS policy applies to this domain as well as
all of its subdomains."
  | HSTS_NO_SUBDOMAINS =>
"The `includeSubDomains` directive indicates that this HSTS policy applies to this domain as well as
all of its subdomains.

Because cookies can be set across HTTP and HTTPS sites as well as across subdomains, this means 
that an attacker might be able to take advantage of a subdomain that doesn't have HSTS enabled.
"
  | HSTS_PRELOAD =>
"The `preload` directive on `Strict-Transport-Security` allows browsers to preload the site in
its HSTS lists, avoiding the potential for making unencrypted requests when first accessing the
site.

See the [HSTS Preload List](https://hstspreload.org/) for more information.
"
  | HSTS_PRELOAD_NOT_SUITABLE =>
"Preloading a site in a browser's HSTS list requires a `max-age` of at least one year and the
`includeSubDomains` directive.

See the [HSTS Preload List](https://hstspreload.org/) for more information.
"
  | HSTS_NO_PRELOAD =>
"Without a `preload` directive, browsers may make an unencrypted request when first accessing the
site, potentially exposing sensitive information.

See the [HSTS Preload List](https://hstspreload.org/) for more information.
"
  | HSTS_DUPLICATE_DIRECTIVE =>
"The `%(directive)s` directive appears more than once in the `Strict-Transport-Security` header.
Directives must only appear once."
  | HSTS_TRAILING_SEMICOLON =>
"The `Strict-Transport-Security` header contains a trailing semicolon. Technically, this violates
the grammar, so strict implementations might find it confusing. However, most implementations
should ignore it."
  | HSTS_OVER_HTTP =>
"The `Strict-Transport-Security` header is ignored when sent over HTTP, unless it's a 301 Redirect.
It should only be sent over HTTPS."
  | HSTS_BAD_MAX_AGE =>
"The `max-age` directive in the `Strict-Transport-Security` header must be a non-negative
integer. The value `%(max_age)s` is not valid."
  | HSTS_VALUE_NOT_ALLOWED =>
"The `%(directive)s` directive in the `Strict-Transport-Security` header is a valueless
directive. It should not have an associated value."
  | SUNSET_PAST =>
"The `Sunset` header indicates that this resource has already passed its sunset date and may become
unresponsive."
  | TRANSFER_CODING_IDENTITY =>
"HTTP defines _transfer-codings_ as a hop-by-hop encoding of the message's content. The `identity`
transfer-coding was defined as the absence of encoding; it doesn't do anything, so it is unnecessary.

You can remove this token to save a few bytes."
  | TRANSFER_CODING_UNWANTED =>
"This response's `Transfer-Encoding` header indicates it has the `%(coding)s` transfer-coding applied,
but the client didn't indicate support for it in the request.

Normally, clients ask for the encodings they want in the `TE` request header. Using codings that
the client doesn't explicitly request can lead to interoperability problems."
  | TRANSFER_CODING_PARAM =>
"HTTP allows transfer-codings in the `Transfer-Encoding` header to have optional parameters, but it
doesn't define what they mean.

This message has encodings with such parameters; although they're technically allowed, they may
cause interoperability problems. They should be removed."
  | USE_AS_DICTIONARY_BAD_TYPE =>
"The `%(field_name)s` parameter `%(param)s` must be a `%(expected)s`. Found `%(got)s`."
  | USE_AS_DICTIONARY_BAD_MATCH_DEST =>
"The `match-dest` parameter must be a String or a list of Strings."
  | VARY_ASTERISK =>
"`Vary *` indicates that responses for this resource vary by some aspect that can't (or won't) be
described by the server. This makes this response effectively uncacheable."
  | VARY_USER_AGENT =>
"Sending `Vary: User-Agent` requires caches to store a separate copy of the response for every
`User-Agent` request header they see.

Since there are so many different `User-Agent`s, this can ""bloat"" caches with many copies of the
same thing, or cause them to give up on storing these responses at all.

Consider having different URIs for the various versions of your content instead; this will give
finer control over caching without sacrificing efficiency."
  | VARY_HOST =>
"Some servers (e.g., [Apache](http://httpd.apache.org/) with
[mod_rewrite](http://httpd.apache.org/docs/2.4/mod/mod_rewrite.html)) will send `Host` in the
`Vary` header, in the belief that this is necessary.

This is not the case; HTTP specifies that the URI is the basis of the cache key, and the URI
incorporates the `Host` header.

The presence of `Vary: Host` may make some caches not store an otherwise cacheable response (since
some cache implementations will not store anything that has a `Vary` header)."
  | VARY_NEGOTIATE =>
"The `Vary: Negotiate` header value is not necessary, as 
[Transparent Content Negotiation](https://www.rfc-editor.org/rfc/rfc2295.html)
is not widely supported.

Consider removing it."
  | VARY_DUPLICATE =>
"The `Vary` header allows you to list the parts of the request that effectively change the response
representation.

Listing the same header more than once is redundant and can be confusing."
  | VARY_COMPLEX =>
"The `Vary` mechanism allows a resource to describe the dimensions that its responses vary, or
change, over; each listed header is another dimension.

Varying by too many dimensions makes using this information impractical."
  | VIA_PRESENT =>
"The `Via` header indicates that one or more intermediaries are present between the user agent and
the origin server for the resource.

This may indicate that a proxy is configured, or that the server uses a ""reverse proxy"" or CDN in
front of it.

There field has three space-separated components; first, the HTTP version of the message that the
intermediary received, then the identity of the intermediary (usually but not always its hostname),
and then optionally a product identifier or comment (usually used to identify the software being
used)."
  | CONTENT_TYPE_OPTIONS =>
"Many Web browsers ""sniff"" the media type of responses to figure out whether they're HTML, RSS or
another format, no matter what the `Content-Type` header says.

This header instructs browsers not to do this, but to always respect the
Content-Type header. It probably won't have any effect in other clients.

See [MDN](https://developer.mozilla.org/en-US/docs/Web/HTTP/Headers/X-Content-Type-Options)
for more information about this header."
  | CONTENT_TYPE_OPTIONS_UNKNOWN =>
"Only one value is currently defined for this header, `nosniff`. Using other values here won't
necessarily cause problems, but they probably won't have any effect either.

See [MDN](https://developer.mozilla.org/en-US/docs/Web/HTTP/Headers/X-Content-Type-Options)
for more information about this header."
  | FRAME_OPTIONS_DENY =>
"The `DENY` value of `X-Frame-Options` prevents this content from being rendered within a frame,
defending against clickjacking-style attacks.

Note that `X-Frame-Options` has been superseded by the
[`frame-ancestors`](https://www.w3.org/TR/CSP3/#directive-frame-ancestors) directive of
`Content-Security-Policy`, which offers finer-grained control and is the modern equivalent.
If both are present, browsers that support CSP will use `frame-ancestors` and ignore this header.

See [MDN](https://developer.mozilla.org/en-US/docs/Web/HTTP/Headers/X-Frame-Options) for more information.
"
  | FRAME_OPTIONS_SAMEORIGIN =>
"The `SAMEORIGIN` value of `X-Frame-Options` prevents this content from being rendered within a
frame on a different origin, defending against clickjacking-style attacks.

Note that `X-Frame-Options` has been superseded by the
[`frame-ancestors`](https://www.w3.org/TR/CSP3/#directive-frame-ancestors) directive of
`Content-Security-Policy`, which offers finer-grained control and is the modern equivalent.
If both are present, browsers that support CSP will use `frame-ancestors` and ignore this header.

See [MDN](https://developer.mozilla.org/en-US/docs/Web/HTTP/Headers/X-Frame-Options) for more information.
"
  | FRAME_OPTIONS_UNKNOWN =>
"Only two values are currently defined for this header, `DENY` and `SAMEORIGIN`. Using other values
here won't necessarily cause problems, but they probably won't have any effect either.

See [MDN](https://developer.mozilla.org/en-US/docs/Web/HTTP/Headers/X-Frame-Options) for more information.
"
  | FIELD_TOO_LARGE =>
"Some implementations limit the size of any single field line."
  | FIELD_SECTION_TOO_LARGE =>
"Some implementations limit the total size of a field section. 32KB is a reasonable
upper limit."
  | FIELD_NAME_ENCODING =>
"HTTP field names can only contain ASCII characters."
  | FIELD_VALUE_ENCODING =>
"HTTP fields notionally use the ISO-8859-1 character set, but in most cases are pure ASCII
(a subset of this encoding).

This field has non-ASCII characters, which have been interpreted as being encoded in
ISO-8859-1. If another encoding is used (e.g., UTF-8), the results may be unpredictable."
  | SINGLE_HEADER_REPEAT =>
"This field is designed to only occur once in a message. When it occurs more than once, a receiver
needs to choose the one to use, which can lead to interoperability problems, since different
implementations may make different choices."
  | DUPLICATE_KEY =>
"The %(context)s key '%(key)s' is duplicated. All instances after the first will be ignored."
  | STRUCTURED_FIELD_PARSE_ERROR =>
"The %(field_name)s field is defined as a
[Structured Field](https://www.rfc-editor.org/rfc/rfc9651.html),
but its value can't be parsed as one. As a result, this field is likely
to be ignored.

The parser reports this error: `%(problem)s`

%(context)s"
  | UNNECESSARY_HEADER =>
"The `%(header_name)s` header adds little value, contributes to unnecessary bandwidth,
and may increase security risk by exposing details of the back-end system.

Consider removing it."
  | MEDIA_TYPE_BAD_NAME =>
"[RFC6838](https://www.rfc-editor.org/rfc/rfc6838.html#section-4.2) requires the type and
subtype names in a media type to start with a letter or a digit, and to use only letters,
digits and the characters `!`, `#`, `$`, `&`, `-`, `^`, `_`, `.` and `+`. `%(value)s`
uses something else.

HTTP's own syntax for media types is more permissive, so recipients are likely to accept
this; however, a media type named this way can't be registered with IANA."
  | MEDIA_TYPE_LONG_NAME =>
"[RFC6838](https://www.rfc-editor.org/rfc/rfc6838.html#section-4.2) limits the type and
subtype names in a media type to 127 characters each; `%(value)s` is longer than that.

It also recommends keeping them to 64 characters, because longer names run into
implementation limits."
  | PARAM_REPEATS =>
"Parameters on the `%(field_name)s` field should not repeat; implementations may handle them
differently."
  | PARAM_SINGLE_QUOTED =>
"The `%(param)s`'s value on the `%(field_name)s` field starts and ends with a single quote (').
However, single quotes don't mean anything there.

This means that the value will be interpreted as `%(param_val)s`, **not**
`%(param_val_unquoted)s`. If you intend the latter, remove the single quotes."
  | PARAM_STAR_BAD =>
"Parameter values that end in '*' are reserved for non-ascii text, as explained in
[RFC5987](https://www.rfc-editor.org/rfc/rfc5987).

The `%(param)s` parameter on the `%(field_name)s` field does not allow this; you should use
%(param)s without the ""*"" on the end (and without the associated encoding)."
  | PARAM_STAR_QUOTED =>
"Parameter values that end in '*' have a specific format, defined in
[RFC5987](https://www.rfc-editor.org/rfc/rfc5987), to allow non-ASCII text.

The `%(param)s` parameter on the `%(field_name)s` field has double-quotes around it, which is not
valid."
  | PARAM_STAR_ERROR =>
"Parameter values that end in '*' have a specific format, defined in
[RFC5987](https://www.rfc-editor.org/rfc/rfc5987), to allow non-ASCII text.

The `%(param)s` parameter on the `%(field_name)s` field is not valid; it needs to have three
parts, separated by single quotes (')."
  | PARAM_STAR_NOCHARSET =>
"Parameter values that end in '*' have a specific format, defined in
[RFC5987](https://www.rfc-editor.org/rfc/rfc5987), to allow non-ASCII text.

The `%(param)s` parameter on the `%(field_name)s` header doesn't declare its character encoding,
which means that recipients can't understand it. It should be `UTF-8`."
  | PARAM_STAR_CHARSET =>
"Parameter values that end in '*' have a specific format, defined in
[RFC5987](https://www.rfc-editor.org/rfc/rfc5987), to allow non-ASCII text.

The `%(param)s` parameter on the `%(field_name)s` header uses the `'%(enc)s` encoding, which has
interoperability issues with some browsers. It should be `UTF-8`."
  | BAD_DATE_SYNTAX =>
"HTTP dates have specific syntax, and sending an invalid date can cause a number of problems,
especially with caching. Common problems include sending ""1 May"" instead of ""01 May"" (the month
is a fixed-width field), and sending a date in a timezone other than GMT.

See [the HTTP specification](https://www.rfc-editor.org/rfc/rfc9110.html#name-date-time-formats) for more
information."
  | DATE_OBSOLETE =>
"HTTP has a number of defined date formats for historical reasons. This header is using an old
format that are now obsolete. See [the
specification](https://www.rfc-editor.org/rfc/rfc9110.html#name-obsolete-date-formats) for more information.
"
  | CL_CORRECT =>
"`Content-Length` is used by HTTP to delimit messages; that is, to mark the end of one message and
the beginning of the next."
  | CL_INCORRECT =>
"`Content-Length` is used by HTTP to delimit messages; that is, to mark the end of one message and
the beginning of the next. An incorrect `Content-Length` can cause security and interoperability
issues.

The actual content size was %(content_length)s bytes."
  | CONTENT_NOT_ALLOWED =>
""
  | REQUEST_CONTENT_NOT_DEFINED =>
"There are no defined semantics for content in %(method)s requests. While HTTP's framing layer
allows content to appear, that does not mean it is valid for every request method, and
including content in a %(method)s request can cause interoperability and security issues.
"
  | URI_TOO_LONG =>
"Long URIs aren't supported by some implementations, including proxies. A reasonable upper size
limit is 8192 characters."
  | URI_BAD_SYNTAX =>
"This isn't a valid URI. See
[RFC3986](http://www.ietf.org/rfc/rfc3986.txt) for more information."
  | STATUS_CODE_NON_NUMERIC =>
"This isn't a valid status code; it needs to be an ASCII integer."
  | STATUS_PHRASE_ENCODING =>
"The status phrase can only contain ASCII characters."
  | MISSING_USER_AGENT =>
"Clients SHOULD send a `User-Agent` header field.

See [RFC 9110 Section 10.1.5](https://www.rfc-editor.org/rfc/rfc9110.html#section-10.1.5)
for details."
  | NO_DATE_304 =>
"HTTP requires `304 (Not Modified)` responses to have a `Date` header in all but the most unusual
circumstances."
  | HEADER_SHOULD_NOT_BE_IN_304 =>
"These headers are representation metadata that should not be sent in a 304 response unless
they are being used to guide cache updates:

%(headers)s

See [RFC 9110 Section 15.4.5](https://www.rfc-editor.org/rfc/rfc9110.html#section-15.4.5) for
more information."
  | UNEXPECTED_CONTINUE =>
"HTTP allows clients to ask a server if a request containing content (e.g., uploading a large file)
will succeed before sending it, using a mechanism called ""Expect/continue"".

When used, the client sends an `Expect: 100-continue`, in the request headers, and if the server is
willing to process it, it will send a `100 (Continue)` status code to indicate that the request
should continue.

This response has a `100 (Continue)` status code, but the request did not ask for it using the
`Expect` request header. Sending this status code without it being requested can cause
interoperability problems."
  | UPGRADE_NOT_REQUESTED =>
"HTTP defines the `Upgrade` header as a means of negotiating a change of protocol; i.e., it
allows you to switch the protocol on a given connection from HTTP to something else.

This response was upgraded, but the request did not contain an `Upgrade` header field.
"
  | CREATED_SAFE_METHOD =>
"The `201 (Created)` status code indicates that the request created a new resource.

However, the request method used (%(method)s) is defined as a ""safe"" method; that is, it
should not have any side effects.

Creating resources as a side effect of a safe method can have unintended consequences; for example,
search engine spiders and similar automated agents often follow links, and intermediaries sometimes
re-try safe methods when they fail."
  | CREATED_WITHOUT_LOCATION =>
"The `201 (Created)` status code indicates that the request created a new resource.

HTTP specifies that the URL of the new resource is to be indicated in the `Location` header,
but it isn't present in this response."
  | PARTIAL_WITHOUT_RANGE =>
"The `206 (Partial Response)` status code indicates that the response content is only partial.

However, for a response to be partial, it needs to have a `Content-Range` header to indicate
what part of the full response it carries. This response does not have one."
  | PARTIAL_NOT_REQUESTED =>
"The `206 (Partial Response)` status code indicates that the response content is only partial.

However, the client needs to ask for it with the `Range` header, and the request did not
include one."
  | REDIRECT_WITHOUT_LOCATION =>
"The %(status)s status code redirects users to another URI. The `Location` header is used to
convey this URI, but a valid one isn't present in this response."
  | STATUS_DEPRECATED =>
"When a status code is deprecated, it should not be used, because its meaning is not well-defined
enough to ensure interoperability."
  | STATUS_RESERVED =>
"Reserved status codes can only be used by future, standard protocol extensions; they are not for
private use."
  | STATUS_NONSTANDARD =>
"Non-standard status codes are not well-defined and interoperable. Instead of defining your own
status code, you should reuse one of the more generic ones; for example, `400` for a client-side
problem, or `500` for a server-side problem."
  | STATUS_BAD_REQUEST =>
""
  | STATUS_FORBIDDEN =>
""
  | STATUS_METHOD_NOT_ALLOWED =>
"The `405 (Method Not Allowed)` status code indicates that the HTTP method is
known by the origin server but not supported by the target resource."
  | STATUS_405_METHOD_IN_ALLOW =>
"The `405 (Method Not Allowed)` status code indicates that the HTTP method is
known by the origin server but not supported by the target resource.

However, the `Allow` header field listed in the response contains the method used,
indicating that it is allowed."
  | STATUS_NOT_FOUND =>
"The server couldn't find any resource to serve for the given URI."
  | STATUS_NOT_ACCEPTABLE =>
"The `406 (Not Acceptable)` status code indicates that the resource cannot produce a response matching
the list of acceptable values defined in the request's proactive negotiation header fields, such
as `Accept`, `Accept-Charset`, `Accept-Encoding`, or `Accept-Language`.
"
  | STATUS_406_WITHOUT_NEGOTIATION =>
"The `406 (Not Acceptable)` status code indicates that the request cannot produce a response matching
the list of acceptable values defined in the request's proactive negotiation header fields.

However, this request didn't contain any proactive negotiation headers (such as `Accept`,
`Accept-Charset`, `Accept-Encoding`, or `Accept-Language`)."
  | STATUS_CONFLICT =>
""
  | STATUS_GONE =>
"The server previously had a resource at the given URI, but it is no longer there."
  | STATUS_REQUEST_ENTITY_TOO_LARGE =>
"The server rejected the request because the request content sent was too large."
  | STATUS_URI_TOO_LONG =>
"The %(status)s status code means that the server can't or won't accept a request-uri this long."
  | STATUS_UNSUPPORTED_MEDIA_TYPE =>
""
  | STATUS_IM_A_TEAPOT =>
"RFC 2324 was an April Fools' Day RFC that lampooned the various ways HTTP was abused; one such abuse
was the definition of the application-specific `418 (I'm a Teapot)` status code. In the
intervening years, this status code has been sometimes implemented as an ""easter egg"".

This status code is not a part of HTTP and hence it might not be supported by some strict
standards-compliant clients.
"
  | STATUS_INTERNAL_SERVICE_ERROR =>
""
  | STATUS_NOT_IMPLEMENTED =>
""
  | STATUS_BAD_GATEWAY =>
""
  | STATUS_SERVICE_UNAVAILABLE =>
""
  | STATUS_GATEWAY_TIMEOUT =>
""
  | STATUS_VERSION_NOT_SUPPORTED =>
""
  | STATUS_PRECONDITION_FAILED =>
"The `412 (Precondition Failed)` status code indicates that one or more conditions given in the
request header fields (typically, those starting with `If-`)evaluated to false when tested 
on the server."
  | STATUS_EXPECTATION_FAILED =>
"The `417 (Expectation Failed)` status code indicates that the expectation given in the request's
`Expect` header field could not be met by at least one of the inbound servers."
  | STATUS_412_WITHOUT_PRECONDITION =>
"The `412 (Precondition Failed)` status code indicates that one or more conditions given in the
request header fields evaluated to false when tested on the server.

However, this request didn't contain any conditional headers (such as `If-Match`, `If-None-Match`,
`If-Modified-Since`, `If-Unmodified-Since`, or `If-Range`)."
  | STATUS_416_WITHOUT_RANGE =>
"The `416 (Range Not Satisfiable)` status code indicates that the set of ranges in the request's
`Range` header field overlap the current extent of the selected resource.

However, this request didn't contain a `Range` header."
  | STATUS_417_WITHOUT_EXPECT =>
"The `417 (Expectation Failed)` status code indicates that the expectation given in the request's
`Expect` header field could not be met by at least one of the inbound servers.

However, this request didn't contain an `Expect` header."
  | STATUS_417_WITH_100_CONTINUE =>
"The `417 (Expectation Failed)` status code indicates that the expectation given in the request's
`Expect` header field could not be met by at least one of the inbound servers.

In this case, the client requested `100-continue`, but the server (or an intermediary) couldn't
satisfy it."
  | STATUS_EARLY_HINTS =>
"The `103 (Early Hints)` status code allows the server to send some headers before the final response,
typically to help the client start fetching resources earlier."
  | STATUS_UPLOAD_RESUMPTION_SUPPORTED =>
"The `104 (Upload Resumption Supported)` status code indicates that the server supports resumable
uploads."
  | STATUS_ALREADY_REPORTED =>
"The `208 (Already Reported)` status code can be used inside a DAV: propstat response element to
avoid enumerating the internal members of multiple bindings to the same collection repeatedly."
  | STATUS_MISDIRECTED_REQUEST =>
"The `421 (Misdirected Request)` status code indicates that the request was directed at a server
that is not able to produce a response. This can happen when a connection is reused."
  | STATUS_TOO_EARLY =>
"The `425 (Too Early)` status code indicates that the server is unwilling to risk processing a
request that might be replayed."
  | STATUS_PRECONDITION_REQUIRED =>
"The `428 (Precondition Required)` status code indicates that the origin server requires the request
to be conditional."
  | STATUS_TOO_MANY_REQUESTS =>
"The `429 (Too Many Requests)` status code indicates that the client has sent too many requests in a
given amount of time (""rate limiting"")."
  | STATUS_REQUEST_HEADER_FIELDS_TOO_LARGE =>
"The `431 (Request Header Fields Too Large)` status code indicates that the server is unwilling to
process the request because its header fields are too large."
  | STATUS_UNAVAILABLE_FOR_LEGAL_REASONS =>
"The `451 (Unavailable For Legal Reasons)` status code indicates that the server is denying access to
the resource as a consequence of a legal demand."
  | STATUS_LOOP_DETECTED =>
"The `508 (Loop Detected)` status code indicates that the server terminated an operation because it
encountered an infinite loop while processing a request with ""Depth: infinity""."
  | STATUS_NETWORK_AUTHENTICATION_REQUIRED =>
"The `511 (Network Authentication Required)` status code indicates that the client needs to
authenticate to gain network access."
  end.

Lemma nid_code_nth n : nth_error all_nids (N.to_nat (nid_code n)) = Some n.
Proof. destruct n; reflexivity. Qed.
Lemma nid_code_inj a b : nid_code a = nid_code b -> a = b.
Proof.
  intros H. assert (E : Some a = Some b).
  { rewrite <- (nid_code_nth a), <- (nid_code_nth b), H. reflexivity. }
  congruence.
Qed.
Definition nid_eqb (a b : nid) : bool := N.eqb (nid_code a) (nid_code b).
Lemma nid_eqb_eq a b : nid_eqb a b = true <-> a = b.
Proof.
  unfold nid_eqb. rewrite N.eqb_eq. split; [apply nid_code_inj|intros ->; reflexivity].
Qed.
Lemma nid_eqb_refl a : nid_eqb a a = true.
Proof. apply nid_eqb_eq. reflexivity. Qed.
Lemma all_nids_complete n : In n all_nids.
Proof. eapply nth_error_In. apply nid_code_nth. Qed.
