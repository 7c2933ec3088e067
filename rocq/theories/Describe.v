(** * Descriptions of fields: field/description.py, the [description] attributes of
    field/parsers/*.py, field/deprecated.py and field/unnecessary.py.
    The tables are generated by tools/gendesc.py; translation (i18n.py) is not
    modelled: the locale is the default one, whose catalogue is the source text. *)
From Verif Require Import PyStr Note FieldAttrs Types Framework.
Local Open Scope string_scope.

(** The class attribute [description] of each field class (file and line at each case). *)
Definition description_of (f : fname) : string :=
  match f with
  (* parsers/accept.py:27 *)
  | F_accept => "The `Accept` header field can be used by user agents to specify response media types that are
acceptable in responses."
  (* parsers/accept_ch.py:20 *)
  | F_accept_ch => "The `Accept-CH` response header field allows servers to indicate the Client Hints that they are
willing to process."
  (* parsers/accept_encoding.py:17 *)
  | F_accept_encoding => "The `Accept-Encoding` header field can be used by user agents to indicate what response content-codings are
acceptable in the response."
  (* parsers/accept_language.py:25 *)
  | F_accept_language => "The `Accept-Language` header field can be used by user agents to indicate the set of natural languages that are
preferred in the response."
  (* parsers/accept_patch.py:19 *)
  | F_accept_patch => "The `Accept-Patch` response header advertises which media types are accepted by the server in a
PATCH request."
  (* parsers/accept_post.py:19 *)
  | F_accept_post => "The `Accept-Post` response header advertises which media types are accepted by the server in a
POST request."
  (* parsers/accept_query.py:19 *)
  | F_accept_query => "The `Accept-Query` response header advertises which media types are accepted by the server in the
content of a QUERY request."
  (* parsers/accept_ranges.py:14 *)
  | F_accept_ranges => "The `Accept-Ranges` response header allows the server to indicate that it accepts range requests
for a resource."
  (* parsers/access_control.py:13 *)
  | F_access_control => "The `Access-Control` header was an experimental header for controlling access to resources. It is
obsolete and should not be used."
  (* parsers/access_control_allow_credentials.py:14 *)
  | F_access_control_allow_credentials => "The `Access-Control-Allow-Credentials` response header tells browsers whether to expose the response
to frontend code when the request's credentials mode (`Request.credentials`) is
`include`."
  (* parsers/access_control_allow_headers.py:15 *)
  | F_access_control_allow_headers => "The `Access-Control-Allow-Headers` response header is used in response to a CORS preflight
request to indicate which HTTP headers can be used during the actual request."
  (* parsers/access_control_allow_methods.py:15 *)
  | F_access_control_allow_methods => "The `Access-Control-Allow-Methods` response header specifies the method or methods allowed when
accessing the resource in response to a CORS preflight request."
  (* parsers/access_control_allow_origin.py:21 *)
  | F_access_control_allow_origin => "The `Access-Control-Allow-Origin` response header indicates whether the response can be shared with
requesting code from the given origin."
  (* parsers/access_control_expose_headers.py:12 *)
  | F_access_control_expose_headers => "The `Access-Control-Expose-Headers` response header allows a server to indicate which response
headers should be made available to scripts running in the browser, in response to a cross-origin
request."
  (* parsers/access_control_max_age.py:15 *)
  | F_access_control_max_age => "The `Access-Control-Max-Age` response header indicates how long the results of a CORS preflight
request (as scoped by the `Access-Control-Allow-Methods` and
`Access-Control-Allow-Headers` request headers) can be cached."
  (* parsers/access_control_request_headers.py:15 *)
  | F_access_control_request_headers => "The `Access-Control-Request-Headers` request header is used by browsers when issuing a CORS
preflight request, to let the server know which HTTP headers the client might send when the actual
request is made."
  (* parsers/access_control_request_method.py:14 *)
  | F_access_control_request_method => "The `Access-Control-Request-Method` request header is used by browsers when issuing a CORS
preflight request, to let the server know which HTTP method will be used when the actual request
is made."
  (* parsers/age.py:14 *)
  | F_age => "The `Age` response header conveys the sender's estimate of the amount of time since the response
(or its validation) was generated at the origin server."
  (* parsers/allow.py:11 *)
  | F_allow => "The `Allow` response header advertises the set of methods that are supported by the resource."
  (* parsers/alt_svc.py:18 *)
  | F_alt_svc => "The `Alt-Svc` HTTP header field identifies an alternative service that can be arranged to access the
resources identifying the origin serving the field."
  (* parsers/authentication_info.py:13 *)
  | F_authentication_info => "The `Authentication-Info` header field is used to communicate information after 
the client's authentication credentials have been accepted."
  (* parsers/authorization.py:13 *)
  | F_authorization => "The `Authorization` header field allows a user agent to authenticate itself with an origin server
-- usually, but not necessarily, after receiving a 401 (Unauthorized) response."
  (* parsers/available_dictionary.py:16 *)
  | F_available_dictionary => "The `Available-Dictionary` header field is used by a client to indicate that it has a matching
dictionary available for use in compressing the response."
  (* parsers/cache_control.py:87 *)
  | F_cache_control => "The `Cache-Control` header is used to specify required directives to all caches that
handle the response. It can also occur in requests, but caches have the option of
ignoring it there."
  (* parsers/cache_group_invalidation.py:14 *)
  | F_cache_group_invalidation => "The `Cache-Group-Invalidation` header field allows a response to invalidate a group of cached
responses."
  (* parsers/cache_groups.py:14 *)
  | F_cache_groups => "The `Cache-Groups` header field helps caches group responses together for invalidation."
  (* parsers/cache_status.py:20 *)
  | F_cache_status => "The `Cache-Status` header field indicates how caches have handled the response, to help with
debugging caches."
  (* parsers/cdn_cache_control.py:18 *)
  | F_cdn_cache_control => "The `CDN-Cache-Control` header field targets cache directives to Content Delivery Networks."
  (* parsers/clear_site_data.py:15 *)
  | F_clear_site_data => "The `Clear-Site-Data` header clears the data associated with the requesting website in the user's
browser. It allows web developers to have more control over the data stored by a client for their
origin."
  (* parsers/connection.py:11 *)
  | F_connection => "The `Connection` header allows senders to specify which headers are hop-by-hop; that is, those that
are not forwarded by intermediaries.

It also indicates options that are desired for this particular connection; e.g., `close` means that
it should not be reused.

Connection is only valid in HTTP/1.x; HTTP/2 and HTTP/3 forbit it."
  (* parsers/connectiox.py:8 *)
  | F_connectiox => "The `%(field_name)s` field usually means that a HTTP load balancer, proxy or other intermediary in
front of the server has rewritten the `Connection` header, to allow it to insert its own.

Usually, this is done so that clients won't see `Connection: close` so that the connection can be
reused.

It takes this form because the most efficient way of assuring that clients don't see the header is
to rearrange or change individual characters in its name.
"
  (* parsers/content_base.py:9 *)
  | F_content_base => "The `Content-Base` header established the base URI of the message. It has been
deprecated, because it was not implemented widely.
"
  (* parsers/content_disposition.py:18 *)
  | F_content_disposition => "The `Content-Disposition` header suggests a name to use when saving the file.

When the disposition (the first value) is set to `attachment`, it also prompts browsers to download
the file, rather than display it."
  (* parsers/content_encoding.py:19 *)
  | F_content_encoding => "The `Content-Encoding` header's value indicates what content codings have
been applied, and thus what decoding mechanisms must be used to obtain the
media-type referenced by the Content-Type header.

Content-Encoding is primarily used to allow a document to be compressed without losing the identity
of its underlying media type; e.g., `gzip` and `deflate`."
  (* parsers/content_language.py:14 *)
  | F_content_language => "The `Content-Language` header describes the natural language(s) of the intended audience for the
messsage. Note that this might not convey all of the languages used."
  (* parsers/content_length.py:15 *)
  | F_content_length => "The `Content-Length` header indicates the size of the content, in number of bytes. In responses to
the HEAD method, it indicates the size of the content that would have been sent had the request
been a GET.

If Content-Length is incorrect, HTTP/1.1 persistent connections will not work, and caches may not
store the response (since they can't be sure if they have the whole response)."
  (* parsers/content_location.py:11 *)
  | F_content_location => "The `Content-Location` response header can used to supply an address for the
representation when it is accessible from a location separate from the request
URI."
  (* parsers/content_md5.py:12 *)
  | F_content_md5 => "The `Content-MD5` header is an MD5 digest of the content, and provides an end-to-end message
integrity check (MIC).

Note that while a MIC is good for detecting accidental modification of content in transit, it is
not proof against malicious attacks."
  (* parsers/content_range.py:28 *)
  | F_content_range => "The `Content-Range` response header is sent in a `206` (Partial Content) response to indicate
where in the full response content the partial content is located. It is also used
in `416` (Requested Range Not Satisfiable) responses."
  (* parsers/content_security_policy.py:25 *)
  | F_content_security_policy => "The `Content-Security-Policy` response header allows web site administrators to declare approved
sources of content that browsers are allowed to load on a page."
  (* parsers/content_security_policy_report_only.py:15 *)
  | F_content_security_policy_report_only => "The `Content-Security-Policy-Report-Only` response header allows web site administrators to monitor
the effects of a content security policy without enforcing it."
  (* parsers/content_transfer_encoding.py:9 *)
  | F_content_transfer_encoding => "The `Content-Transfer-Encoding` isn't part of HTTP, but it is used in MIME protocols in a manner
analogous to `Transfer-Encoding`."
  (* parsers/content_type.py:21 *)
  | F_content_type => "The `Content-Type` header indicates the media type of the content sent to the recipient or, in the
case of responses to the HEAD method, the media type that would have been sent had the request been
a GET."
  (* parsers/cookie.py:18 *)
  | F_cookie => "The `Cookie` header field contains stored HTTP cookies previously sent by the server with the
`Set-Cookie` header."
  (* parsers/cross_origin_embedder_policy.py:19 *)
  | F_cross_origin_embedder_policy => "The `Cross-Origin-Embedder-Policy` header field prevents a document from loading any cross-origin
resources that don't explicitly grant the document permission (using CORP or CORS)."
  (* parsers/cross_origin_embedder_policy_report_only.py:21 *)
  | F_cross_origin_embedder_policy_report_only => "The `Cross-Origin-Embedder-Policy-Report-Only` header field allows a document to report on
potential violations of its Cross-Origin Embedder Policy without enforcing them."
  (* parsers/cross_origin_opener_policy.py:19 *)
  | F_cross_origin_opener_policy => "The `Cross-Origin-Opener-Policy` header field allows a document to disown its opener, ensuring that
it doesn't have a reference to the opener's window object."
  (* parsers/cross_origin_opener_policy_report_only.py:21 *)
  | F_cross_origin_opener_policy_report_only => "The `Cross-Origin-Opener-Policy-Report-Only` header field allows a document to report on
potential violations of its Cross-Origin Opener Policy without enforcing them."
  (* parsers/cross_origin_resource_policy.py:15 *)
  | F_cross_origin_resource_policy => "The `Cross-Origin-Resource-Policy` header field allows a resource to indicate whether it can be
loaded by a cross-origin document."
  (* parsers/cteonnt_length.py:6 *)
  | F_cteonnt_length => "The `%(field_name)s` field usually means that a HTTP load balancer, proxy or
other intermediary in front of the server has rewritten the `Content-Length`
header, to allow it to insert its own.

Usually, this is done because an intermediary has dynamically compressed the
message.

It takes this form because the most efficient way of assuring that clients
don't see the header is to rearrange or change individual characters in its
name. "
  (* parsers/date.py:18 *)
  | F_date => "The `Date` header represents the time when the message was generated, regardless of caching that
happened since.

It is used by caches as input to expiration calculations, and to detect clock drift."
  (* parsers/deprecation.py:17 *)
  | F_deprecation => "The `Deprecation` header field allows a server to communicate to a client that the resource is or
will be deprecated."
  (* parsers/etag.py:18 *)
  | F_etag => "The `ETag` header provides an opaque identifier for the representation."
  (* parsers/expect.py:14 *)
  | F_expect => "The `Expect` header field in a request indicates behaviors (expectations) that need to be
fulfilled by the server in order to properly handle the request."
  (* parsers/expires.py:15 *)
  | F_expires => "The `Expires` response header gives a time after which the response is considered stale by
caches."
  (* parsers/from_field.py:12 *)
  | F_from_field => "The `From` header field contains an Internet email address for the human user who controls the
requesting user agent."
  (* parsers/host.py:12 *)
  | F_host => "The `Host` header field provides the host and port information from the target URI, enabling the
origin server to distinguish between resources while servicing requests for multiple host names on
a single IP address."
  (* parsers/if_match.py:12 *)
  | F_if_match => "The `If-Match` header field makes the request method conditional on the recipient origin server
having a current representation of the target resource."
  (* parsers/if_modified_since.py:12 *)
  | F_if_modified_since => "The `If-Modified-Since` header field makes a request method conditional on the
selected representation's modification date being more recent than the date provided in the
field-value."
  (* parsers/if_none_match.py:13 *)
  | F_if_none_match => "The `If-None-Match` header field makes the request method conditional on the
absence of a matching entity tag, or if the field-value is ""*"", the absence of
any current representation of the target resource."
  (* parsers/if_range.py:13 *)
  | F_if_range => "The `If-Range` header field allows a client to ""short-circuit"" the second request. It means: if
the representation is unchanged, send me the part(s) that I am missing; otherwise, send me the
entire new representation."
  (* parsers/if_unmodified_since.py:13 *)
  | F_if_unmodified_since => "The `If-Unmodified-Since` header field makes the request method conditional on the selected
representation's last modification date being earlier than or equal to the date provided in the
field-value."
  (* parsers/keep_alive.py:17 *)
  | F_keep_alive => "The `Keep-Alive` header is completely optional; it is defined primarily because the `keep-alive`
connection token implies that such a header exists, not because anyone actually uses it.

Some implementations (e.g., [Apache](http://httpd.apache.org/)) do generate a `Keep-Alive` header
to convey how many requests they're willing to serve on a single connection, what the connection
timeout is and other information. However, this isn't usually used by clients.

It's safe to remove this header if you wish to save a few bytes."
  (* parsers/last_modified.py:16 *)
  | F_last_modified => "The `Last-Modified` response header indicates the time that the origin server believes the
representation was last modified."
  (* parsers/link.py:21 *)
  | F_link => "The `Link` header allows links related to the content to be conveyed. A link can be viewed as a
statement of the form ""[context IRI] has a [relation type] resource at [target IRI], which has
[target attributes]."
  (* parsers/location.py:16 *)
  | F_location => "The `Location` response header is used in `3xx` responses to redirect the recipient to a different location
to complete the request.

In `201` (Created) responses, it identifies a newly created resource."
  (* parsers/max_forwards.py:22 *)
  | F_max_forwards => "The `Max-Forwards` header field provides a mechanism to limit
the number of times that the request is forwarded by intermediaries."
  (* parsers/mime_version.py:10 *)
  | F_mime_version => "HTTP is not a MIME-compliant protocol. However, HTTP/1.1 messages can include a single MIME-Version
header to indicate what version of the MIME protocol was used to construct the message. Use
of the MIME-Version header indicates that the message is in full compliance with the MIME
protocol."
  (* parsers/nel.py:32 *)
  | F_nel => "The `NEL` header field configures Network Error Logging policies. 
It allows websites to declare that they want to receive reports about network errors."
  (* parsers/origin.py:25 *)
  | F_origin => "The `Origin` header field indicates where a fetch originates from. It is used to prevent Cross-Site
Request Forgery (CSRF) and in Cross-Origin Resource Sharing (CORS)."
  (* parsers/p3p.py:9 *)
  | F_p3p => "The `P3P` response header allows a server to describe its privacy policy in a
machine-readable way. It has been deprecated, because client support was poor.
"
  (* parsers/permissions_policy.py:16 *)
  | F_permissions_policy => "The `Permissions-Policy` response header allows a site to control the use of browser features."
  (* parsers/pragma.py:15 *)
  | F_pragma => "The `Pragma` header is used to include implementation-specific directives that might apply to any
recipient along the request chain.

This header is deprecated, in favour of `Cache-Control`."
  (* parsers/proxy_authenticate.py:8 *)
  | F_proxy_authenticate => "The `Proxy-Authenticate` response header consists of a challenge that indicates the authentication
scheme and parameters applicable to the proxy for this request-target."
  (* parsers/proxy_authentication_info.py:9 *)
  | F_proxy_authentication_info => "The `Proxy-Authentication-Info` header field is used to communicate information after
the client's authentication credentials have been accepted by a proxy."
  (* parsers/proxy_authorization.py:9 *)
  | F_proxy_authorization => "The `Proxy-Authorization` header field allows a user agent to authenticate itself with a proxy
-- usually, but not necessarily, after receiving a 407 (Proxy Authentication Required) response."
  (* parsers/proxy_status.py:20 *)
  | F_proxy_status => "The `Proxy-Status` header field indicates how intermediaries have handled the response."
  (* parsers/range.py:19 *)
  | F_range => "The `Range` header field on a GET request modifies the method semantics to request only those
parts of the representation that are specified."
  (* parsers/referer.py:15 *)
  | F_referer => "The `Referer` [sic] header field allows the user agent to specify a URI Reference for the
resource from which the target URI was obtained (i.e., the ""referrer"")."
  (* parsers/referrer_policy.py:10 *)
  | F_referrer_policy => "The `Referrer-Policy` response header controls how much referrer information (sent via the `Referer`
header) should be included with requests."
  (* parsers/report_to.py:10 *)
  | F_report_to => "The `Report-To` header field configured the browser to send reports to specified endpoints.
It has been replaced by the Reporting-Endpoints header field."
  (* parsers/reporting_endpoints.py:17 *)
  | F_reporting_endpoints => "The `Reporting-Endpoints` header field defines one or more reporting endpoints for the Reporting
API."
  (* parsers/retry_after.py:8 *)
  | F_retry_after => "The `Retry-After` response header can be used with a `503` (Service Unavailable) response to
indicate how long the service is expected to be unavailable to the requesting client.

The value of this field can be either a date or an integer number of seconds."
  (* parsers/server.py:12 *)
  | F_server => "The `Server` response header contains information about the software used by the origin server to
handle the request."
  (* parsers/server_timing.py:18 *)
  | F_server_timing => "The `Server-Timing` header field communicates one or more metrics and descriptions for the given
request-response cycle. It is used to surface any backend server timing metrics (e.g. database
read/write, CPU time, file system access, etc.) in the developer tools in the browser or any other
consumer of Server-Timing."
  (* parsers/set_cookie.py:26 *)
  | F_set_cookie => "The `Set-Cookie` response header sets a stateful ""cookie"" on the client, to be included in future
requests to the server."
  (* parsers/set_cookie2.py:9 *)
  | F_set_cookie2 => "The `Set-Cookie2` header has been deprecated; use `Set-Cookie` instead."
  (* parsers/soapaction.py:7 *)
  | F_soapaction => "The `SOAPAction` request header is used by SOAP, which isn't really HTTP. Stop it."
  (* parsers/speculation_rules.py:20 *)
  | F_speculation_rules => "The `Speculation-Rules` header field allows the server to provide the client with a list of URLs that
point to speculation rules files."
  (* parsers/strict_transport_security.py:19 *)
  | F_strict_transport_security => "The `Strict-Transport-Security` response header (often abbreviated as HSTS) lets a web site tell
browsers that it should only be communicated with using HTTPS, instead of using HTTP."
  (* parsers/sunset.py:10 *)
  | F_sunset => "The `Sunset` header field indicates that the resource is likely to become unresponsive at the
specified timestamp."
  (* parsers/tcn.py:8 *)
  | F_tcn => "The `TCN` response header is part of an experimental transparent content negotiation scheme. It
is not widely supported in clients.
"
  (* parsers/te.py:12 *)
  | F_te => "The `TE` request header indicates what HTTP/1.1 transfer-codings the client is willing to accept in
the response. Additionally, if it contains the special value `trailers` it indicates that the sender is willing to accept trailer fields after the content.

The most common transfer-coding, `chunked`, doesn't need to be listed in `TE`.

`TE` can only be used with the value `trailers` in HTTP/2 and HTTP/3.
"
  (* parsers/trailer.py:8 *)
  | F_trailer => "The `Trailer` header indicates that the given set of headers will be
present in the trailer of the message, after the content."
  (* parsers/transfer_encoding.py:20 *)
  | F_transfer_encoding => "The `Transfer-Encoding` header indicates what (if any) type of transformation has been applied to
the message content.

This differs from `Content-Encoding` in that transfer codings are a property of the message, not of
the representation; i.e., it will be removed by the next ""hop"", whereas content codings are
end-to-end.

The most commonly used transfer coding is `chunked`, which allows HTTP/1.1 persistent connections
to be used without knowing the content's length.

Transfer codings can only be used in HTTP/1; HTTP/2 and HTTP/3 do not support them.
"
  (* parsers/upgrade.py:9 *)
  | F_upgrade => "The `Upgrade` header allows the client to specify what additional communication
protocols it supports and would like to use if the server finds it appropriate
to switch protocols. Servers use it to confirm upgrade to a specific
protocol.

`Upgrade` cannot be used in HTTP/2 or HTTP/3.
"
  (* parsers/use_as_dictionary.py:16 *)
  | F_use_as_dictionary => "The `Use-As-Dictionary` header field is used by a server to indicate that the response can be used
as a compression dictionary for future requests."
  (* parsers/user_agent.py:9 *)
  | F_user_agent => "The `User-Agent` header field contains information about the user agent originating the request."
  (* parsers/vary.py:11 *)
  | F_vary => "The `Vary` response header indicates the set of request headers that determines whether a cache is
permitted to use the response to reply to a subsequent request without validation.

In uncacheable or stale responses, the Vary field value advises the user agent about the criteria
that were used to select the representation."
  (* parsers/via.py:14 *)
  | F_via => "The `Via` header is added to requests and responses by proxies and other HTTP intermediaries. It
can be used to help avoid request loops and identify the protocol capabilities of all senders along
the request/response chain."
  (* parsers/warning.py:11 *)
  | F_warning => "The `Warning` response header was used to carry additional information about the status or
transformation of a message that might not be reflected in it. It has been deprecated."
  (* parsers/www_authenticate.py:9 *)
  | F_www_authenticate => "The `WWW-Authenticate` response header consists of at least one challenge that
indicates the authentication scheme(s) and parameters applicable."
  (* parsers/x_cache.py:8 *)
  | F_x_cache => "The `X-Cache` response header is used by some caches to indicate whether or not the response was
served from cache; if it contains `HIT`, it was."
  (* parsers/x_cache_lookup.py:8 *)
  | F_x_cache_lookup => "The `X-Cache-Lookup` response header is used by some caches to show whether there was a response in
cache for this URL; if it contains `HIT`, it was in cache (but not necessarily used)."
  (* parsers/x_content_type_options.py:10 *)
  | F_x_content_type_options => "Indicates that the client should not 'sniff' the `Content-Type` of the message from its content."
  (* parsers/x_frame_options.py:29 *)
  | F_x_frame_options => "
The X-Frame-Options response header declares a policy regarding whether the browser may display
the transmitted content in frames that are part of other web pages.
"
  (* parsers/x_pad.py:7 *)
  | F_x_pad => "    The `%(field_name)s` response header is used to ""pad"" the size of the response's headers.

    Very old versions of the Netscape browser had a bug whereby a response whose headers were exactly
    256 or 257 bytes long, the browser would consider the response invalid.

    Since the affected browsers (specifically, Netscape 2.x, 3.x and 4.0 up to beta 2) are no longer
    widely used, it's safe to omit this header."
  | F__deprecated | F__unnecessary => ""
  | F__unknown => "Unknown"
  end.

(** unnecessary.py:7-24 *)
Definition unnecessary_texts : list (string * string) :=
  [("x-aspnet-version", "x-aspnet-version reveals the ASP.NET version.");
   ("x-aspnetmvc-version", "x-aspnetmvc-version reveals the ASP.NET MVC version.");
   ("x-powered-by", "x-powered-by reveals the technology used to generate the response.");
   ("x-generator", "x-generator reveals the software used to generate the response.");
   ("x-drupal-cache", "x-drupal-cache reveals Drupal caching information.");
   ("x-varnish", "x-varnish reveals Varnish caching information.");
   ("x-mod-pagespeed", "x-mod-pagespeed reveals that mod_pagespeed is in use, which is usually not needed by the client.");
   ("x-pingback", "x-pingback advertises a Pingback endpoint, which is rarely used.");
   ("x-runtime", "x-runtime reveals the time taken to generate the response, which is usually not needed by the client.");
   ("x-rack-cache", "x-rack-cache reveals Rack::Cache information, which is usually not needed by the client.");
   ("x-content-encoded-by", "x-content-encoded-by reveals the software used to encode the content, which is usually not needed by the client.");
   ("x-backend-server", "x-backend-server reveals the backend server identity.")].

(** deprecated.py:209-211, unnecessary.py:36, and the class attribute: the
    [description] of a handler for [name]. *)
Definition describe_as (f : fname) (canon norm : str) (ref : string) : str :=
  match f with
  | F__deprecated =>
      (u "The " ++ canon ++ u " field is deprecated; it is not actively used by HTTP software.
It is safe to remove it from this message. For more information, see [here](" ++ u ref ++ u ").")%list
  | F__unnecessary => match slookup norm unnecessary_texts with Some s => u s | None => [] end
  | _ => u (description_of f)
  end.
Definition describe (name : str) : str :=
  let h := new_handler name in describe_as (h_cls h) (h_canon h) (h_norm h) (handler_ref h).
(** description.py:10-17 [get_field_description]; find_handler_class is None for an unknown name.
    [field_name] is an ASCII string. *)
Definition get_field_description (name : str) : option str :=
  if fname_eqb (find_class name) F__unknown then None
  else match describe name with [] => None | d => Some d end.
