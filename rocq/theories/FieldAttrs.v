(** GENERATED by tools/genfields.py from the text of /repo/httplint/field: do not edit.

    The class attributes of every field linter (field/parsers/*.py), with the
    defaults of field/__init__.py:30-43 and the message kinds computed by
    [__init_subclass__] (field/__init__.py:53-97) from the protocol argument.
    A syntax is already wrapped in [nocase] (RE_FLAGS has IGNORECASE); for a
    list field it is the syntax of one element (list_field.py:35-39).  Fields
    whose class declares no [syntax] at all are structured fields, which never
    read it. *)
From Verif Require Import PyStr Regex Grammar Note.
Local Open Scope string_scope.

Inductive kind := KSingleton | KList | KBroken | KSF (t : sftype) | KJson | KUnknown.

Record fattrs := mkAttrs {
  fa_module : string;          (* module and class name under httplint.field.parsers *)
  fa_canon : option string;    (* canonical_name; None: the wire name is used *)
  fa_kind : kind;
  fa_syntax : option re;
  fa_report : bool;            (* report_syntax *)
  fa_ref : string;             (* reference *)
  fa_cat : category;
  fa_dep : bool;               (* deprecated *)
  fa_req : bool;               (* valid_in_requests *)
  fa_resp : bool               (* valid_in_responses *)
}.

Inductive fname :=
| F_accept
| F_accept_ch
| F_accept_encoding
| F_accept_language
| F_accept_patch
| F_accept_post
| F_accept_query
| F_accept_ranges
| F_access_control
| F_access_control_allow_credentials
| F_access_control_allow_headers
| F_access_control_allow_methods
| F_access_control_allow_origin
| F_access_control_expose_headers
| F_access_control_max_age
| F_access_control_request_headers
| F_access_control_request_method
| F_age
| F_allow
| F_alt_svc
| F_authentication_info
| F_authorization
| F_available_dictionary
| F_cache_control
| F_cache_group_invalidation
| F_cache_groups
| F_cache_status
| F_cdn_cache_control
| F_clear_site_data
| F_connection
| F_connectiox
| F_content_base
| F_content_disposition
| F_content_encoding
| F_content_language
| F_content_length
| F_content_location
| F_content_md5
| F_content_range
| F_content_security_policy
| F_content_security_policy_report_only
| F_content_transfer_encoding
| F_content_type
| F_cookie
| F_cross_origin_embedder_policy
| F_cross_origin_embedder_policy_report_only
| F_cross_origin_opener_policy
| F_cross_origin_opener_policy_report_only
| F_cross_origin_resource_policy
| F_cteonnt_length
| F_date
| F_deprecation
| F_etag
| F_expect
| F_expires
| F_from_field
| F_host
| F_if_match
| F_if_modified_since
| F_if_none_match
| F_if_range
| F_if_unmodified_since
| F_keep_alive
| F_last_modified
| F_link
| F_location
| F_max_forwards
| F_mime_version
| F_nel
| F_origin
| F_p3p
| F_permissions_policy
| F_pragma
| F_proxy_authenticate
| F_proxy_authentication_info
| F_proxy_authorization
| F_proxy_status
| F_range
| F_referer
| F_referrer_policy
| F_report_to
| F_reporting_endpoints
| F_retry_after
| F_server
| F_server_timing
| F_set_cookie
| F_set_cookie2
| F_soapaction
| F_speculation_rules
| F_strict_transport_security
| F_sunset
| F_tcn
| F_te
| F_trailer
| F_transfer_encoding
| F_upgrade
| F_use_as_dictionary
| F_user_agent
| F_vary
| F_via
| F_warning
| F_www_authenticate
| F_x_cache
| F_x_cache_lookup
| F_x_content_type_options
| F_x_frame_options
| F_x_pad
(* deprecated.py DeprecatedField, unnecessary.py UnnecessaryField, finder.py UnknownHttpField *)
| F__deprecated
| F__unnecessary
| F__unknown.

Definition attrs (f : fname) : fattrs :=
  match f with
  (* field/parsers/accept.py:25 *)
  | F_accept => mkAttrs "accept" (Some "Accept") KList (Some (nocase rfc9110_Accept_element)) true "http://httpwg.org/specs/rfc9110#field.accept" CONNEG false true false
  (* field/parsers/accept_ch.py:18 *)
  | F_accept_ch => mkAttrs "accept_ch" (Some "Accept-CH") (KSF SFList) None true "https://www.rfc-editor.org/rfc/rfc8942.html#section-3.1" CONNEG false false true
  (* field/parsers/accept_encoding.py:15 *)
  | F_accept_encoding => mkAttrs "accept_encoding" (Some "Accept-Encoding") KList (Some (nocase rfc9110_Accept_Encoding_element)) true "http://httpwg.org/specs/rfc9110#field.accept-encoding" CONNEG false true false
  (* field/parsers/accept_language.py:23 *)
  | F_accept_language => mkAttrs "accept_language" (Some "Accept-Language") KList (Some (nocase rfc9110_Accept_Language_element)) true "http://httpwg.org/specs/rfc9110#field.accept-language" CONNEG false true false
  (* field/parsers/accept_patch.py:17 *)
  | F_accept_patch => mkAttrs "accept_patch" (Some "Accept-Patch") KList (Some (nocase field_accept_patch_element)) true "https://www.rfc-editor.org/rfc/rfc5789.html#section-3.1" GENERAL false false true
  (* field/parsers/accept_post.py:17 *)
  | F_accept_post => mkAttrs "accept_post" (Some "Accept-Post") KList (Some (nocase field_accept_post_element)) true "https://www.w3.org/TR/ldp/#header-accept-post" GENERAL false false true
  (* field/parsers/accept_query.py:17 *)
  | F_accept_query => mkAttrs "accept_query" (Some "Accept-Query") (KSF SFList) None true "https://www.rfc-editor.org/rfc/rfc10008.html#section-3" GENERAL false false true
  (* field/parsers/accept_ranges.py:12 *)
  | F_accept_ranges => mkAttrs "accept_ranges" (Some "Accept-Ranges") KList (Some (nocase rfc9110_Accept_Ranges_element)) true "http://httpwg.org/specs/rfc9110#field.accept-ranges" RANGE false false true
  (* field/parsers/access_control.py:11 *)
  | F_access_control => mkAttrs "access_control" (Some "Access-Control") KSingleton None true "https://www.w3.org/TR/2007/WD-access-control-20071126/#access-control0" SECURITY true true true
  (* field/parsers/access_control_allow_credentials.py:12 *)
  | F_access_control_allow_credentials => mkAttrs "access_control_allow_credentials" (Some "Access-Control-Allow-Credentials") KSingleton (Some field_access_control_allow_credentials) true "https://fetch.spec.whatwg.org/#http-access-control-allow-credentials" CORS false false true
  (* field/parsers/access_control_allow_headers.py:13 *)
  | F_access_control_allow_headers => mkAttrs "access_control_allow_headers" (Some "Access-Control-Allow-Headers") KList (Some (nocase rfc9110_token)) true "https://fetch.spec.whatwg.org/#http-access-control-allow-headers" CORS false false true
  (* field/parsers/access_control_allow_methods.py:13 *)
  | F_access_control_allow_methods => mkAttrs "access_control_allow_methods" (Some "Access-Control-Allow-Methods") KList (Some (nocase rfc9110_token)) true "https://fetch.spec.whatwg.org/#http-access-control-allow-methods" CORS false false true
  (* field/parsers/access_control_allow_origin.py:19 *)
  | F_access_control_allow_origin => mkAttrs "access_control_allow_origin" (Some "Access-Control-Allow-Origin") KSingleton (Some (nocase field_access_control_allow_origin)) true "https://fetch.spec.whatwg.org/#http-access-control-allow-origin" CORS false false true
  (* field/parsers/access_control_expose_headers.py:10 *)
  | F_access_control_expose_headers => mkAttrs "access_control_expose_headers" (Some "Access-Control-Expose-Headers") KList (Some (nocase rfc9110_token)) true "https://fetch.spec.whatwg.org/#http-access-control-expose-headers" CORS false false true
  (* field/parsers/access_control_max_age.py:13 *)
  | F_access_control_max_age => mkAttrs "access_control_max_age" (Some "Access-Control-Max-Age") KSingleton (Some (nocase rfc9110_delay_seconds)) false "https://fetch.spec.whatwg.org/#http-access-control-max-age" CORS false false true
  (* field/parsers/access_control_request_headers.py:13 *)
  | F_access_control_request_headers => mkAttrs "access_control_request_headers" (Some "Access-Control-Request-Headers") KList (Some (nocase rfc9110_token)) true "https://fetch.spec.whatwg.org/#http-access-control-request-headers" CORS false true false
  (* field/parsers/access_control_request_method.py:12 *)
  | F_access_control_request_method => mkAttrs "access_control_request_method" (Some "Access-Control-Request-Method") KSingleton (Some (nocase rfc9110_token)) true "https://fetch.spec.whatwg.org/#http-access-control-request-method" CORS false true false
  (* field/parsers/age.py:12 *)
  | F_age => mkAttrs "age" (Some "Age") KSingleton (Some (nocase rfc9111_Age)) false "http://httpwg.org/specs/rfc9111#field.age" CACHING false false true
  (* field/parsers/allow.py:9 *)
  | F_allow => mkAttrs "allow" (Some "Allow") KList (Some (nocase rfc9110_Allow_element)) true "http://httpwg.org/specs/rfc9110#field.allow" GENERAL false false true
  (* field/parsers/alt_svc.py:16 *)
  | F_alt_svc => mkAttrs "alt_svc" (Some "Alt-Svc") KList (Some (nocase field_alt_svc)) true "https://www.rfc-editor.org/rfc/rfc7838#section-3" GENERAL false false true
  (* field/parsers/authentication_info.py:11 *)
  | F_authentication_info => mkAttrs "authentication_info" (Some "Authentication-Info") KList (Some (nocase rfc9110_Authentication_Info_element)) true "http://httpwg.org/specs/rfc9110#field.authentication-info" SECURITY false false true
  (* field/parsers/authorization.py:11 *)
  | F_authorization => mkAttrs "authorization" (Some "Authorization") KSingleton (Some (nocase rfc9110_Authorization)) true "http://httpwg.org/specs/rfc9110#field.authorization" SECURITY false true false
  (* field/parsers/available_dictionary.py:14 *)
  | F_available_dictionary => mkAttrs "available_dictionary" (Some "Available-Dictionary") (KSF SFItem) None true "https://www.rfc-editor.org/rfc/rfc9842.html" CONNEG false true false
  (* field/parsers/cache_control.py:85 *)
  | F_cache_control => mkAttrs "cache_control" (Some "Cache-Control") KList (Some (nocase rfc9111_Cache_Control_element)) true "http://httpwg.org/specs/rfc9111#field.cache-control" CACHING false true true
  (* field/parsers/cache_group_invalidation.py:12 *)
  | F_cache_group_invalidation => mkAttrs "cache_group_invalidation" (Some "Cache-Group-Invalidation") (KSF SFList) None true "https://www.rfc-editor.org/rfc/rfc9875.html" CACHING false false true
  (* field/parsers/cache_groups.py:12 *)
  | F_cache_groups => mkAttrs "cache_groups" (Some "Cache-Groups") (KSF SFList) None true "https://www.rfc-editor.org/rfc/rfc9875.html" CACHING false false true
  (* field/parsers/cache_status.py:18 *)
  | F_cache_status => mkAttrs "cache_status" (Some "Cache-Status") (KSF SFList) None true "https://www.rfc-editor.org/rfc/rfc9211.html#section-2" CACHING false false true
  (* field/parsers/cdn_cache_control.py:16 *)
  | F_cdn_cache_control => mkAttrs "cdn_cache_control" (Some "CDN-Cache-Control") (KSF SFDict) None true "https://www.rfc-editor.org/rfc/rfc9213.html" CACHING false false true
  (* field/parsers/clear_site_data.py:13 *)
  | F_clear_site_data => mkAttrs "clear_site_data" (Some "Clear-Site-Data") KList (Some (nocase field_clear_site_data_element)) true "https://www.w3.org/TR/clear-site-data/#field-clear-site-data" GENERAL false false true
  (* field/parsers/connection.py:9 *)
  | F_connection => mkAttrs "connection" (Some "Connection") KList (Some (nocase rfc9110_Connection_element)) true "http://httpwg.org/specs/rfc9110#field.connection" GENERAL false true true
  (* field/parsers/connectiox.py:7 *)
  | F_connectiox => mkAttrs "connectiox" None KSingleton None true "https://bugzilla.mozilla.org/show_bug.cgi?id=868638" GENERAL false true true
  (* field/parsers/content_base.py:7 *)
  | F_content_base => mkAttrs "content_base" (Some "Content-Base") KSingleton None true "https://www.rfc-editor.org/rfc/rfc2068#section-14.11" GENERAL true true true
  (* field/parsers/content_disposition.py:16 *)
  | F_content_disposition => mkAttrs "content_disposition" (Some "Content-Disposition") KSingleton (Some (nocase field_content_disposition)) true "https://www.rfc-editor.org/rfc/rfc6266.html" GENERAL false true true
  (* field/parsers/content_encoding.py:17 *)
  | F_content_encoding => mkAttrs "content_encoding" (Some "Content-Encoding") KList (Some (nocase rfc9110_Content_Encoding_element)) true "http://httpwg.org/specs/rfc9110#field.content-encoding" CONNEG false true true
  (* field/parsers/content_language.py:12 *)
  | F_content_language => mkAttrs "content_language" (Some "Content-Language") KList (Some (nocase rfc9110_Content_Language_element)) true "http://httpwg.org/specs/rfc9110#field.content-language" CONNEG false true true
  (* field/parsers/content_length.py:13 *)
  | F_content_length => mkAttrs "content_length" (Some "Content-Length") KSingleton (Some (nocase rfc9110_Content_Length)) false "http://httpwg.org/specs/rfc9110#field.content-length" GENERAL false true true
  (* field/parsers/content_location.py:9 *)
  | F_content_location => mkAttrs "content_location" (Some "Content-Location") KSingleton (Some (nocase rfc9110_Content_Location)) true "http://httpwg.org/specs/rfc9110#field.content-location" GENERAL false false true
  (* field/parsers/content_md5.py:10 *)
  | F_content_md5 => mkAttrs "content_md5" (Some "Content-MD5") KSingleton (Some (nocase field_content_md5)) true "https://www.rfc-editor.org/rfc/rfc1864" GENERAL true true true
  (* field/parsers/content_range.py:26 *)
  | F_content_range => mkAttrs "content_range" (Some "Content-Range") KSingleton (Some (nocase rfc9110_Content_Range)) false "http://httpwg.org/specs/rfc9110#field.content-range" GENERAL false false true
  (* field/parsers/content_security_policy.py:23 *)
  | F_content_security_policy => mkAttrs "content_security_policy" (Some "Content-Security-Policy") KList (Some (nocase field_content_security_policy)) true "https://www.w3.org/TR/CSP3/" SECURITY false false true
  (* field/parsers/content_security_policy_report_only.py:13 *)
  | F_content_security_policy_report_only => mkAttrs "content_security_policy_report_only" (Some "Content-Security-Policy-Report-Only") KList (Some (nocase field_content_security_policy)) true "https://www.w3.org/TR/CSP3/" SECURITY false false true
  (* field/parsers/content_transfer_encoding.py:7 *)
  | F_content_transfer_encoding => mkAttrs "content_transfer_encoding" (Some "Content-Transfer-Encoding") KSingleton None true "https://www.rfc-editor.org/rfc/rfc2616#section-19.4.5" GENERAL true true true
  (* field/parsers/content_type.py:19 *)
  | F_content_type => mkAttrs "content_type" (Some "Content-Type") KSingleton (Some (nocase rfc9110_Content_Type)) true "http://httpwg.org/specs/rfc9110#field.content-type" GENERAL false true true
  (* field/parsers/cookie.py:16 *)
  | F_cookie => mkAttrs "cookie" (Some "Cookie") KBroken None true "https://www.rfc-editor.org/rfc/rfc6265.html#section-4.2" COOKIES false true false
  (* field/parsers/cross_origin_embedder_policy.py:17 *)
  | F_cross_origin_embedder_policy => mkAttrs "cross_origin_embedder_policy" (Some "Cross-Origin-Embedder-Policy") (KSF SFItem) None true "https://html.spec.whatwg.org/multipage/origin.html#coep" SECURITY false false true
  (* field/parsers/cross_origin_embedder_policy_report_only.py:19 *)
  | F_cross_origin_embedder_policy_report_only => mkAttrs "cross_origin_embedder_policy_report_only" (Some "Cross-Origin-Embedder-Policy-Report-Only") (KSF SFItem) None true "https://html.spec.whatwg.org/multipage/origin.html#coep" SECURITY false false true
  (* field/parsers/cross_origin_opener_policy.py:17 *)
  | F_cross_origin_opener_policy => mkAttrs "cross_origin_opener_policy" (Some "Cross-Origin-Opener-Policy") (KSF SFItem) None true "https://html.spec.whatwg.org/multipage/origin.html#coop" SECURITY false false true
  (* field/parsers/cross_origin_opener_policy_report_only.py:19 *)
  | F_cross_origin_opener_policy_report_only => mkAttrs "cross_origin_opener_policy_report_only" (Some "Cross-Origin-Opener-Policy-Report-Only") (KSF SFItem) None true "https://html.spec.whatwg.org/multipage/origin.html#coop" SECURITY false false true
  (* field/parsers/cross_origin_resource_policy.py:13 *)
  | F_cross_origin_resource_policy => mkAttrs "cross_origin_resource_policy" (Some "Cross-Origin-Resource-Policy") KSingleton None true "https://fetch.spec.whatwg.org/#cross-origin-resource-policy-header" SECURITY false false true
  (* field/parsers/cteonnt_length.py:5 *)
  | F_cteonnt_length => mkAttrs "cteonnt_length" None KSingleton None true "https://bugzilla.mozilla.org/show_bug.cgi?id=868638" GENERAL false true true
  (* field/parsers/date.py:16 *)
  | F_date => mkAttrs "date" (Some "Date") KSingleton None true "http://httpwg.org/specs/rfc9110#field.date" GENERAL false true true
  (* field/parsers/deprecation.py:15 *)
  | F_deprecation => mkAttrs "deprecation" (Some "Deprecation") (KSF SFItem) None true "https://www.rfc-editor.org/rfc/rfc9651.html" GENERAL false false true
  (* field/parsers/etag.py:16 *)
  | F_etag => mkAttrs "etag" (Some "ETag") KSingleton (Some (nocase rfc9110_ETag)) true "http://httpwg.org/specs/rfc9110#field.etag" CACHING false true true
  (* field/parsers/expect.py:12 *)
  | F_expect => mkAttrs "expect" (Some "Expect") KList (Some (nocase rfc9110_Expect_element)) true "http://httpwg.org/specs/rfc9110#field.expect" GENERAL false true false
  (* field/parsers/expires.py:13 *)
  | F_expires => mkAttrs "expires" (Some "Expires") KSingleton None true "http://httpwg.org/specs/rfc9111#field.expires" CACHING false false true
  (* field/parsers/from_field.py:10 *)
  | F_from_field => mkAttrs "from_field" (Some "From") KSingleton (Some (nocase rfc9110_From)) true "http://httpwg.org/specs/rfc9110#field.from" GENERAL false true false
  (* field/parsers/host.py:10 *)
  | F_host => mkAttrs "host" (Some "Host") KSingleton (Some (nocase rfc9110_Host)) true "http://httpwg.org/specs/rfc9110#field.host" GENERAL false true false
  (* field/parsers/if_match.py:10 *)
  | F_if_match => mkAttrs "if_match" (Some "If-Match") KList (Some (nocase rfc9110_If_Match)) true "http://httpwg.org/specs/rfc9110#field.if-match" GENERAL false true false
  (* field/parsers/if_modified_since.py:10 *)
  | F_if_modified_since => mkAttrs "if_modified_since" (Some "If-Modified-Since") KSingleton (Some (nocase rfc9110_If_Modified_Since)) true "http://httpwg.org/specs/rfc9110#field.if-modified-since" GENERAL false true false
  (* field/parsers/if_none_match.py:11 *)
  | F_if_none_match => mkAttrs "if_none_match" (Some "If-None-Match") KList (Some (nocase rfc9110_If_None_Match)) true "http://httpwg.org/specs/rfc9110#field.if-none-match" VALIDATION false true false
  (* field/parsers/if_range.py:11 *)
  | F_if_range => mkAttrs "if_range" (Some "If-Range") KSingleton (Some (nocase rfc9110_If_Range)) true "http://httpwg.org/specs/rfc9110#field.if-range" VALIDATION false true false
  (* field/parsers/if_unmodified_since.py:11 *)
  | F_if_unmodified_since => mkAttrs "if_unmodified_since" (Some "If-Unmodified-Since") KSingleton (Some (nocase rfc9110_If_Unmodified_Since)) true "http://httpwg.org/specs/rfc9110#field.if-unmodified-since" VALIDATION false true false
  (* field/parsers/keep_alive.py:15 *)
  | F_keep_alive => mkAttrs "keep_alive" (Some "Keep-Alive") KList (Some (nocase field_keep_alive_element)) true "https://www.rfc-editor.org/rfc/rfc2068.html#section-19.7.1" GENERAL true true true
  (* field/parsers/last_modified.py:14 *)
  | F_last_modified => mkAttrs "last_modified" (Some "Last-Modified") KSingleton None true "http://httpwg.org/specs/rfc9110#field.last-modified" CACHING false false true
  (* field/parsers/link.py:19 *)
  | F_link => mkAttrs "link" (Some "Link") KList (Some (nocase rfc8288_Link_element)) true "http://httpwg.org/specs/rfc8288#header.link" GENERAL false true true
  (* field/parsers/location.py:14 *)
  | F_location => mkAttrs "location" (Some "Location") KSingleton (Some (nocase rfc9110_Location)) true "http://httpwg.org/specs/rfc9110#field.location" GENERAL false false true
  (* field/parsers/max_forwards.py:20 *)
  | F_max_forwards => mkAttrs "max_forwards" (Some "Max-Forwards") KSingleton (Some (nocase rfc9110_Max_Forwards)) true "http://httpwg.org/specs/rfc9110#field.max-forwards" GENERAL false true false
  (* field/parsers/mime_version.py:8 *)
  | F_mime_version => mkAttrs "mime_version" (Some "MIME-Version") KSingleton None true "https://www.rfc-editor.org/rfc/rfc2616.html#%s#section-19.4.1" GENERAL true true true
  (* field/parsers/nel.py:30 *)
  | F_nel => mkAttrs "nel" (Some "NEL") KJson None true "https://w3c.github.io/network-error-logging/#nel-header-field" GENERAL false false true
  (* field/parsers/origin.py:23 *)
  | F_origin => mkAttrs "origin" (Some "Origin") KSingleton None true "https://www.rfc-editor.org/rfc/rfc6454.html#section-7" CORS false true false
  (* field/parsers/p3p.py:7 *)
  | F_p3p => mkAttrs "p3p" (Some "P3P") KSingleton None true "http://www.w3.org/TR/P3P/#syntax_ext" GENERAL true false true
  (* field/parsers/permissions_policy.py:14 *)
  | F_permissions_policy => mkAttrs "permissions_policy" (Some "Permissions-Policy") (KSF SFDict) None true "https://www.w3.org/TR/permissions-policy/" SECURITY false false true
  (* field/parsers/pragma.py:13 *)
  | F_pragma => mkAttrs "pragma" (Some "Pragma") KList (Some (nocase rfc9111_Pragma_element)) true "http://httpwg.org/specs/rfc9111#field.pragma" CACHING true true false
  (* field/parsers/proxy_authenticate.py:6 *)
  | F_proxy_authenticate => mkAttrs "proxy_authenticate" (Some "Proxy-Authenticate") KList (Some (nocase rfc9110_Proxy_Authenticate_element)) true "http://httpwg.org/specs/rfc9110#field.proxy-authenticate" GENERAL false false true
  (* field/parsers/proxy_authentication_info.py:7 *)
  | F_proxy_authentication_info => mkAttrs "proxy_authentication_info" (Some "Proxy-Authentication-Info") KList (Some (nocase rfc9110_Proxy_Authentication_Info_element)) true "http://httpwg.org/specs/rfc9110#field.proxy-authentication-info" GENERAL false false true
  (* field/parsers/proxy_authorization.py:7 *)
  | F_proxy_authorization => mkAttrs "proxy_authorization" (Some "Proxy-Authorization") KSingleton (Some (nocase rfc9110_Proxy_Authorization)) true "http://httpwg.org/specs/rfc9110#field.proxy-authorization" GENERAL false true false
  (* field/parsers/proxy_status.py:18 *)
  | F_proxy_status => mkAttrs "proxy_status" (Some "Proxy-Status") (KSF SFList) None true "https://www.rfc-editor.org/rfc/rfc9209.html#section-2" GENERAL false false true
  (* field/parsers/range.py:17 *)
  | F_range => mkAttrs "range" (Some "Range") KSingleton (Some (nocase rfc9110_Range)) false "http://httpwg.org/specs/rfc9110#field.range" RANGE false true false
  (* field/parsers/referer.py:13 *)
  | F_referer => mkAttrs "referer" (Some "Referer") KSingleton (Some (nocase rfc9110_Referer)) true "http://httpwg.org/specs/rfc9110#field.referer" GENERAL false true false
  (* field/parsers/referrer_policy.py:8 *)
  | F_referrer_policy => mkAttrs "referrer_policy" (Some "Referrer-Policy") KList (Some (nocase rfc9110_token)) true "https://www.w3.org/TR/referrer-policy/" SECURITY false false true
  (* field/parsers/report_to.py:8 *)
  | F_report_to => mkAttrs "report_to" (Some "Report-To") KJson None true "https://w3c.github.io/reporting/#header" GENERAL true false true
  (* field/parsers/reporting_endpoints.py:15 *)
  | F_reporting_endpoints => mkAttrs "reporting_endpoints" (Some "Reporting-Endpoints") (KSF SFDict) None true "https://www.w3.org/TR/reporting/#header" GENERAL false false true
  (* field/parsers/retry_after.py:6 *)
  | F_retry_after => mkAttrs "retry_after" (Some "Retry-After") KSingleton (Some (nocase rfc9110_Retry_After)) true "http://httpwg.org/specs/rfc9110#field.retry-after" GENERAL false false true
  (* field/parsers/server.py:10 *)
  | F_server => mkAttrs "server" (Some "Server") KList (Some (nocase rfc9110_Server)) true "http://httpwg.org/specs/rfc9110#field.server" GENERAL false false true
  (* field/parsers/server_timing.py:16 *)
  | F_server_timing => mkAttrs "server_timing" (Some "Server-Timing") KList (Some (nocase field_server_timing_element)) true "https://w3c.github.io/server-timing/#the-server-timing-header-field" GENERAL false false true
  (* field/parsers/set_cookie.py:24 *)
  | F_set_cookie => mkAttrs "set_cookie" (Some "Set-Cookie") KBroken None true "https://www.rfc-editor.org/rfc/rfc6265.html#%s" COOKIES false false true
  (* field/parsers/set_cookie2.py:7 *)
  | F_set_cookie2 => mkAttrs "set_cookie2" (Some "Set-Cookie2") KList None true "https://www.rfc-editor.org/rfc/rfc6265.html#%s" COOKIES true false true
  (* field/parsers/soapaction.py:5 *)
  | F_soapaction => mkAttrs "soapaction" (Some "SoapAction") KSingleton None true "http://www.w3.org/TR/2000/NOTE-SOAP-20000508/#_Toc478383528" GENERAL false true false
  (* field/parsers/speculation_rules.py:18 *)
  | F_speculation_rules => mkAttrs "speculation_rules" (Some "Speculation-Rules") (KSF SFList) None true "https://wicg.github.io/nav-speculation/speculation-rules.html" GENERAL false false true
  (* field/parsers/strict_transport_security.py:17 *)
  | F_strict_transport_security => mkAttrs "strict_transport_security" (Some "Strict-Transport-Security") KSingleton (Some (nocase field_strict_transport_security)) true "https://www.rfc-editor.org/rfc/rfc6797" SECURITY false false true
  (* field/parsers/sunset.py:8 *)
  | F_sunset => mkAttrs "sunset" (Some "Sunset") KSingleton None true "https://www.rfc-editor.org/rfc/rfc8594.html" GENERAL false false true
  (* field/parsers/tcn.py:6 *)
  | F_tcn => mkAttrs "tcn" (Some "TCN") KList None true "https://www.rfc-editor.org/rfc/rfc2295" CONNEG false false true
  (* field/parsers/te.py:10 *)
  | F_te => mkAttrs "te" (Some "TE") KList (Some (nocase rfc9110_TE_element)) true "http://httpwg.org/specs/rfc9110#field.te" GENERAL false true true
  (* field/parsers/trailer.py:6 *)
  | F_trailer => mkAttrs "trailer" (Some "Trailer") KList (Some (nocase rfc9110_Trailer_element)) true "http://httpwg.org/specs/rfc9110#field.trailer" GENERAL false true true
  (* field/parsers/transfer_encoding.py:18 *)
  | F_transfer_encoding => mkAttrs "transfer_encoding" (Some "Transfer-Encoding") KList (Some (nocase rfc9112_Transfer_Encoding_element)) true "http://httpwg.org/specs/rfc9112#field.transfer-encoding" GENERAL false true true
  (* field/parsers/upgrade.py:7 *)
  | F_upgrade => mkAttrs "upgrade" (Some "Upgrade") KList (Some (nocase rfc9110_Upgrade_element)) true "http://httpwg.org/specs/rfc9110#field.upgrade" GENERAL false true true
  (* field/parsers/use_as_dictionary.py:14 *)
  | F_use_as_dictionary => mkAttrs "use_as_dictionary" (Some "Use-As-Dictionary") (KSF SFDict) None true "https://www.rfc-editor.org/rfc/rfc9842.html" CONNEG false false true
  (* field/parsers/user_agent.py:7 *)
  | F_user_agent => mkAttrs "user_agent" (Some "User-Agent") KSingleton (Some (nocase rfc9110_User_Agent)) true "http://httpwg.org/specs/rfc9110#field.user-agent" GENERAL false true false
  (* field/parsers/vary.py:9 *)
  | F_vary => mkAttrs "vary" (Some "Vary") KList (Some (nocase rfc9110_Vary_element)) true "http://httpwg.org/specs/rfc9110#field.vary" CACHING false false true
  (* field/parsers/via.py:12 *)
  | F_via => mkAttrs "via" (Some "Via") KList (Some (nocase rfc9110_Via_element)) true "http://httpwg.org/specs/rfc9110#field.via" GENERAL false true true
  (* field/parsers/warning.py:9 *)
  | F_warning => mkAttrs "warning" (Some "Warning") KList (Some (nocase rfc9111_Warning__element)) true "http://httpwg.org/specs/rfc9111#field.warning" CACHING true false true
  (* field/parsers/www_authenticate.py:7 *)
  | F_www_authenticate => mkAttrs "www_authenticate" (Some "WWW-Authenticate") KList (Some (nocase rfc9110_WWW_Authenticate_element)) true "http://httpwg.org/specs/rfc9110#field.www-authenticate" GENERAL false false true
  (* field/parsers/x_cache.py:6 *)
  | F_x_cache => mkAttrs "x_cache" (Some "X-Cache") KList None true "https://lyte.id.au/2014/08/28/x-cache-and-x-cache-lookupheaders/" CACHING false false true
  (* field/parsers/x_cache_lookup.py:6 *)
  | F_x_cache_lookup => mkAttrs "x_cache_lookup" (Some "X-Cache-Lookup") KList None true "https://lyte.id.au/2014/08/28/x-cache-and-x-cache-lookupheaders/" CACHING false false true
  (* field/parsers/x_content_type_options.py:8 *)
  | F_x_content_type_options => mkAttrs "x_content_type_options" (Some "X-Content-Type-Options") KList (Some (nocase field_x_content_type_options)) true "https://fetch.spec.whatwg.org/#x-content-type-options-header" SECURITY false false true
  (* field/parsers/x_frame_options.py:26 *)
  | F_x_frame_options => mkAttrs "x_frame_options" (Some "X-Frame-Options") KSingleton (Some (nocase field_x_frame_options)) true "https://www.rfc-editor.org/rfc/rfc7034" SECURITY false false true
  (* field/parsers/x_pad.py:5 *)
  | F_x_pad => mkAttrs "x_pad" (Some "X-Pad") KSingleton None true "https://www.oreilly.com/library/view/http-the-definitive/1565925092/re61.html" GENERAL true false true
  (* field/deprecated.py:194-199; canonical name, category and reference are set per instance *)
  | F__deprecated => mkAttrs "" None KList None true "" GENERAL true true true
  (* field/unnecessary.py:28-36 *)
  | F__unnecessary => mkAttrs "" None KList None true "about:blank" GENERAL false true true
  (* field/finder.py:88-95 *)
  | F__unknown => mkAttrs "" None KUnknown None true "about:blank" GENERAL false true true
  end.

Definition module_fields : list fname :=
  [F_accept;
   F_accept_ch;
   F_accept_encoding;
   F_accept_language;
   F_accept_patch;
   F_accept_post;
   F_accept_query;
   F_accept_ranges;
   F_access_control;
   F_access_control_allow_credentials;
   F_access_control_allow_headers;
   F_access_control_allow_methods;
   F_access_control_allow_origin;
   F_access_control_expose_headers;
   F_access_control_max_age;
   F_access_control_request_headers;
   F_access_control_request_method;
   F_age;
   F_allow;
   F_alt_svc;
   F_authentication_info;
   F_authorization;
   F_available_dictionary;
   F_cache_control;
   F_cache_group_invalidation;
   F_cache_groups;
   F_cache_status;
   F_cdn_cache_control;
   F_clear_site_data;
   F_connection;
   F_connectiox;
   F_content_base;
   F_content_disposition;
   F_content_encoding;
   F_content_language;
   F_content_length;
   F_content_location;
   F_content_md5;
   F_content_range;
   F_content_security_policy;
   F_content_security_policy_report_only;
   F_content_transfer_encoding;
   F_content_type;
   F_cookie;
   F_cross_origin_embedder_policy;
   F_cross_origin_embedder_policy_report_only;
   F_cross_origin_opener_policy;
   F_cross_origin_opener_policy_report_only;
   F_cross_origin_resource_policy;
   F_cteonnt_length;
   F_date;
   F_deprecation;
   F_etag;
   F_expect;
   F_expires;
   F_from_field;
   F_host;
   F_if_match;
   F_if_modified_since;
   F_if_none_match;
   F_if_range;
   F_if_unmodified_since;
   F_keep_alive;
   F_last_modified;
   F_link;
   F_location;
   F_max_forwards;
   F_mime_version;
   F_nel;
   F_origin;
   F_p3p;
   F_permissions_policy;
   F_pragma;
   F_proxy_authenticate;
   F_proxy_authentication_info;
   F_proxy_authorization;
   F_proxy_status;
   F_range;
   F_referer;
   F_referrer_policy;
   F_report_to;
   F_reporting_endpoints;
   F_retry_after;
   F_server;
   F_server_timing;
   F_set_cookie;
   F_set_cookie2;
   F_soapaction;
   F_speculation_rules;
   F_strict_transport_security;
   F_sunset;
   F_tcn;
   F_te;
   F_trailer;
   F_transfer_encoding;
   F_upgrade;
   F_use_as_dictionary;
   F_user_agent;
   F_vary;
   F_via;
   F_warning;
   F_www_authenticate;
   F_x_cache;
   F_x_cache_lookup;
   F_x_content_type_options;
   F_x_frame_options;
   F_x_pad].

(** finder.py:14-25 *)
Definition field_aliases : list (string * string) :=
  [("x-pad-for-netscrape-bug", "x-pad");
   ("xx-pad", "x-pad");
   ("x-browseralignment", "x-pad");
   ("nncoection", "connectiox");
   ("cneonction", "connectiox");
   ("yyyyyyyyyy", "connectiox");
   ("xxxxxxxxxx", "connectiox");
   ("x_cnection", "connectiox");
   ("_onnection", "connectiox");
   ("from", "from_field")].

(** deprecated.py:187-191: lower-cased name, canonical name, category, reference *)
Definition deprecated_fields : list (string * (string * category * string)) :=
  [("x-ua-compatible", ("X-UA-Compatible", GENERAL, "https://learn.microsoft.com/en-us/openspecs/ie_standards/ms-iedoco/380e2488-f5eb-4457-a07a-0cb1b6e4b4b5"));
   ("x-meta-mssmarttagspreventparsing", ("X-Meta-MSSmartTagsPreventParsing", SECURITY, "https://web.archive.org/web/20120211140254/http://blogs.msdn.com/b/ieinternals/archive/2009/06/30/internet-explorer-custom-http-headers.aspx"));
   ("x-download-options", ("X-Download-Options", SECURITY, "https://web.archive.org/web/20120211140254/http://blogs.msdn.com/b/ieinternals/archive/2009/06/30/internet-explorer-custom-http-headers.aspx"));
   ("x-xss-protection", ("X-XSS-Protection", SECURITY, "https://developer.mozilla.org/en-US/docs/Web/HTTP/Reference/Headers/X-XSS-Protection"));
   ("accept-ch-lifetime", ("Accept-CH-Lifetime", CONNEG, "https://datatracker.ietf.org/doc/html/draft-ietf-httpbis-client-hints-08#appendix-B.8"));
   ("accept-charset", ("Accept-Charset", CONNEG, "https://www.rfc-editor.org/rfc/rfc9110.html#name-accept-charset"));
   ("c-pep-info", ("C-PEP-Info", GENERAL, "https://datatracker.ietf.org/doc/status-change-http-experiments-to-historic/"));
   ("pragma", ("Pragma", CACHING, "https://www.rfc-editor.org/rfc/rfc9111.html#name-pragma"));
   ("protocol-info", ("Protocol-Info", GENERAL, "https://www.w3.org/TR/NOTE-jepi"));
   ("protocol-query", ("Protocol-Query", GENERAL, "https://www.w3.org/TR/NOTE-jepi"));
   ("access-control", ("Access-Control", SECURITY, "https://www.w3.org/TR/2007/WD-access-control-20071126/#access-control0"));
   ("c-ext", ("C-Ext", GENERAL, "https://datatracker.ietf.org/doc/status-change-http-experiments-to-historic/"));
   ("c-man", ("C-Man", GENERAL, "https://datatracker.ietf.org/doc/status-change-http-experiments-to-historic/"));
   ("c-opt", ("C-Opt", GENERAL, "https://datatracker.ietf.org/doc/status-change-http-experiments-to-historic/"));
   ("c-pep", ("C-PEP", GENERAL, "https://datatracker.ietf.org/doc/status-change-http-experiments-to-historic/"));
   ("content-base", ("Content-Base", GENERAL, "https://www.rfc-editor.org/rfc/rfc2616.html#section-19.6.3"));
   ("content-dpr", ("Content-DPR", CONNEG, "https://datatracker.ietf.org/doc/html/draft-ietf-httpbis-client-hints-07#appendix-B.8"));
   ("content-id", ("Content-ID", GENERAL, "https://www.w3.org/TR/NOTE-drp"));
   ("content-md5", ("Content-MD5", GENERAL, "https://www.rfc-editor.org/rfc/rfc7231.html#appendix-B"));
   ("content-script-type", ("Content-Script-Type", GENERAL, "https://www.w3.org/TR/html4/interact/scripts.html#h-18.2.2.1"));
   ("content-style-type", ("Content-Style-Type", GENERAL, "https://www.w3.org/TR/html401/present/styles.html#h-14.2.1"));
   ("content-version", ("Content-Version", GENERAL, "https://www.rfc-editor.org/rfc/rfc2616.html#section-19.6.3"));
   ("cookie2", ("Cookie2", COOKIES, "https://www.rfc-editor.org/rfc/rfc6265.html#section-1"));
   ("default-style", ("Default-Style", GENERAL, "https://www.w3.org/TR/2010/WD-html-markup-20100624/meta.http-equiv.default-style.html"));
   ("derived-from", ("Derived-From", GENERAL, "https://www.rfc-editor.org/rfc/rfc2616.html#section-19.6.3"));
   ("dnt", ("DNT", GENERAL, "https://w3c.github.io/dnt/drafts/tracking-dnt.html#dnt-header-field"));
   ("differential-id", ("Differential-ID", GENERAL, "https://www.w3.org/TR/NOTE-drp"));
   ("digest", ("Digest", GENERAL, "https://datatracker.ietf.org/doc/draft-ietf-httpbis-digest-headers/"));
   ("dpr", ("DPR", CONNEG, "https://wicg.github.io/responsive-image-client-hints/#sec-ch-dpr"));
   ("expect-ct", ("Expect-CT", SECURITY, "https://mailarchive.ietf.org/arch/msg/httpbisa/XpAWZsIre5WAte3lXGTh6A77sok/"));
   ("ext", ("Ext", GENERAL, "https://datatracker.ietf.org/doc/status-change-http-experiments-to-historic/"));
   ("feature-policy", ("Feature-Policy", SECURITY, "https://www.w3.org/TR/feature-policy/"));
   ("getprofile", ("GetProfile", GENERAL, "https://www.w3.org/TR/NOTE-OPS-OverHTTP"));
   ("http2-settings", ("HTTP2-Settings", GENERAL, "https://www.rfc-editor.org/rfc/rfc9113.html#name-http2-settings-header-field"));
   ("man", ("Man", GENERAL, "https://datatracker.ietf.org/doc/status-change-http-experiments-to-historic/"));
   ("method-check", ("Method-Check", SECURITY, "https://www.w3.org/TR/2007/WD-access-control-20071126/#method-check"));
   ("method-check-expires", ("Method-Check-Expires", SECURITY, "https://www.w3.org/TR/2007/WD-access-control-20071126/#method-check-expires"));
   ("opt", ("Opt", GENERAL, "https://datatracker.ietf.org/doc/status-change-http-experiments-to-historic/"));
   ("p3p", ("P3P", GENERAL, "https://www.w3.org/TR/P3P"));
   ("pep", ("PEP", GENERAL, "http://www.w3.org/TR/WD-http-pep"));
   ("pep-info", ("Pep-Info", GENERAL, "http://www.w3.org/TR/WD-http-pep"));
   ("pics-label", ("PICS-Label", GENERAL, "https://www.w3.org/TR/REC-PICS-labels-961031"));
   ("profileobject", ("ProfileObject", GENERAL, "https://www.w3.org/TR/NOTE-OPS-OverHTTP"));
   ("protocol", ("Protocol", GENERAL, "https://www.w3.org/TR/REC-PICS-labels-961031"));
   ("protocol-request", ("Protocol-Request", GENERAL, "https://www.w3.org/TR/REC-PICS-labels-961031"));
   ("proxy-features", ("Proxy-Features", GENERAL, "https://www.w3.org/TR/WD-proxy.html"));
   ("proxy-instruction", ("Proxy-Instruction", GENERAL, "https://www.w3.org/TR/WD-proxy.html"));
   ("public", ("Public", GENERAL, "https://www.rfc-editor.org/rfc/rfc2616.html#section-19.6.3"));
   ("public-key-pins", ("Public-Key-Pins", SECURITY, "https://www.rfc-editor.org/rfc/rfc7469.html"));
   ("public-key-pins-report-only", ("Public-Key-Pins-Report-Only", SECURITY, "https://www.rfc-editor.org/rfc/rfc7469.html"));
   ("referer-root", ("Referer-Root", SECURITY, "https://www.w3.org/TR/2007/WD-access-control-20071126/#referer-root"));
   ("safe", ("Safe", GENERAL, "https://datatracker.ietf.org/doc/status-change-http-experiments-to-historic/"));
   ("security-scheme", ("Security-Scheme", SECURITY, "https://datatracker.ietf.org/doc/status-change-http-experiments-to-historic/"));
   ("set-cookie2", ("Set-Cookie2", COOKIES, "https://www.rfc-editor.org/rfc/rfc6265.html#section-1"));
   ("setprofile", ("SetProfile", GENERAL, "https://www.w3.org/TR/NOTE-OPS-OverHTTP"));
   ("uri", ("URI", GENERAL, "https://www.rfc-editor.org/rfc/rfc2068.html#section-19.6.2.5"));
   ("viewport-width", ("Viewport-Width", CONNEG, "https://wicg.github.io/responsive-image-client-hints/#sec-ch-viewport-width"));
   ("want-digest", ("Want-Digest", GENERAL, "https://datatracker.ietf.org/doc/draft-ietf-httpbis-digest-headers/"));
   ("warning", ("Warning", CACHING, "https://www.rfc-editor.org/rfc/rfc9111.html#name-warning"));
   ("width", ("Width", CONNEG, "https://wicg.github.io/responsive-image-client-hints/#sec-ch-width"));
   ("x-content-security-policy", ("X-Content-Security-Policy", SECURITY, "https://cheatsheetseries.owasp.org/cheatsheets/Content_Security_Policy_Cheat_Sheet.html#warning"));
   ("x-webkit-csp", ("X-Webkit-CSP", SECURITY, "https://cheatsheetseries.owasp.org/cheatsheets/Content_Security_Policy_Cheat_Sheet.html#warning"))].

(** unnecessary.py:7-25 *)
Definition unnecessary_fields : list string :=
  ["x-aspnet-version";
   "x-aspnetmvc-version";
   "x-powered-by";
   "x-generator";
   "x-drupal-cache";
   "x-varnish";
   "x-mod-pagespeed";
   "x-pingback";
   "x-runtime";
   "x-rack-cache";
   "x-content-encoded-by";
   "x-backend-server"].

Definition kind_of (f : fname) : kind := fa_kind (attrs f).

Definition fname_eqb (a b : fname) : bool :=
  match a, b with
  | F_accept, F_accept => true
  | F_accept_ch, F_accept_ch => true
  | F_accept_encoding, F_accept_encoding => true
  | F_accept_language, F_accept_language => true
  | F_accept_patch, F_accept_patch => true
  | F_accept_post, F_accept_post => true
  | F_accept_query, F_accept_query => true
  | F_accept_ranges, F_accept_ranges => true
  | F_access_control, F_access_control => true
  | F_access_control_allow_credentials, F_access_control_allow_credentials => true
  | F_access_control_allow_headers, F_access_control_allow_headers => true
  | F_access_control_allow_methods, F_access_control_allow_methods => true
  | F_access_control_allow_origin, F_access_control_allow_origin => true
  | F_access_control_expose_headers, F_access_control_expose_headers => true
  | F_access_control_max_age, F_access_control_max_age => true
  | F_access_control_request_headers, F_access_control_request_headers => true
  | F_access_control_request_method, F_access_control_request_method => true
  | F_age, F_age => true
  | F_allow, F_allow => true
  | F_alt_svc, F_alt_svc => true
  | F_authentication_info, F_authentication_info => true
  | F_authorization, F_authorization => true
  | F_available_dictionary, F_available_dictionary => true
  | F_cache_control, F_cache_control => true
  | F_cache_group_invalidation, F_cache_group_invalidation => true
  | F_cache_groups, F_cache_groups => true
  | F_cache_status, F_cache_status => true
  | F_cdn_cache_control, F_cdn_cache_control => true
  | F_clear_site_data, F_clear_site_data => true
  | F_connection, F_connection => true
  | F_connectiox, F_connectiox => true
  | F_content_base, F_content_base => true
  | F_content_disposition, F_content_disposition => true
  | F_content_encoding, F_content_encoding => true
  | F_content_language, F_content_language => true
  | F_content_length, F_content_length => true
  | F_content_location, F_content_location => true
  | F_content_md5, F_content_md5 => true
  | F_content_range, F_content_range => true
  | F_content_security_policy, F_content_security_policy => true
  | F_content_security_policy_report_only, F_content_security_policy_report_only => true
  | F_content_transfer_encoding, F_content_transfer_encoding => true
  | F_content_type, F_content_type => true
  | F_cookie, F_cookie => true
  | F_cross_origin_embedder_policy, F_cross_origin_embedder_policy => true
  | F_cross_origin_embedder_policy_report_only, F_cross_origin_embedder_policy_report_only => true
  | F_cross_origin_opener_policy, F_cross_origin_opener_policy => true
  | F_cross_origin_opener_policy_report_only, F_cross_origin_opener_policy_report_only => true
  | F_cross_origin_resource_policy, F_cross_origin_resource_policy => true
  | F_cteonnt_length, F_cteonnt_length => true
  | F_date, F_date => true
  | F_deprecation, F_deprecation => true
  | F_etag, F_etag => true
  | F_expect, F_expect => true
  | F_expires, F_expires => true
  | F_from_field, F_from_field => true
  | F_host, F_host => true
  | F_if_match, F_if_match => true
  | F_if_modified_since, F_if_modified_since => true
  | F_if_none_match, F_if_none_match => true
  | F_if_range, F_if_range => true
  | F_if_unmodified_since, F_if_unmodified_since => true
  | F_keep_alive, F_keep_alive => true
  | F_last_modified, F_last_modified => true
  | F_link, F_link => true
  | F_location, F_location => true
  | F_max_forwards, F_max_forwards => true
  | F_mime_version, F_mime_version => true
  | F_nel, F_nel => true
  | F_origin, F_origin => true
  | F_p3p, F_p3p => true
  | F_permissions_policy, F_permissions_policy => true
  | F_pragma, F_pragma => true
  | F_proxy_authenticate, F_proxy_authenticate => true
  | F_proxy_authentication_info, F_proxy_authentication_info => true
  | F_proxy_authorization, F_proxy_authorization => true
  | F_proxy_status, F_proxy_status => true
  | F_range, F_range => true
  | F_referer, F_referer => true
  | F_referrer_policy, F_referrer_policy => true
  | F_report_to, F_report_to => true
  | F_reporting_endpoints, F_reporting_endpoints => true
  | F_retry_after, F_retry_after => true
  | F_server, F_server => true
  | F_server_timing, F_server_timing => true
  | F_set_cookie, F_set_cookie => true
  | F_set_cookie2, F_set_cookie2 => true
  | F_soapaction, F_soapaction => true
  | F_speculation_rules, F_speculation_rules => true
  | F_strict_transport_security, F_strict_transport_security => true
  | F_sunset, F_sunset => true
  | F_tcn, F_tcn => true
  | F_te, F_te => true
  | F_trailer, F_trailer => true
  | F_transfer_encoding, F_transfer_encoding => true
  | F_upgrade, F_upgrade => true
  | F_use_as_dictionary, F_use_as_dictionary => true
  | F_user_agent, F_user_agent => true
  | F_vary, F_vary => true
  | F_via, F_via => true
  | F_warning, F_warning => true
  | F_www_authenticate, F_www_authenticate => true
  | F_x_cache, F_x_cache => true
  | F_x_cache_lookup, F_x_cache_lookup => true
  | F_x_content_type_options, F_x_content_type_options => true
  | F_x_frame_options, F_x_frame_options => true
  | F_x_pad, F_x_pad => true
  | F__deprecated, F__deprecated | F__unnecessary, F__unnecessary | F__unknown, F__unknown => true
  | _, _ => false
  end.
Lemma fname_eqb_eq : forall a b, fname_eqb a b = true <-> a = b.
Proof. intros a b; split; [destruct a, b; simpl; congruence | intros ->; destruct b; reflexivity]. Qed.
Lemma module_fields_complete : forall f,
  f = F__deprecated \/ f = F__unnecessary \/ f = F__unknown \/ In f module_fields.
Proof. intros f; destruct f; simpl; tauto. Qed.
