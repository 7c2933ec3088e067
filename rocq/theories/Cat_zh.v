(** GENERATED by tools/gencat.py from /repo/httplint/translations/zh/LC_MESSAGES/messages.mo: do not edit.
    Every (message, translation) pair of the catalogue, as UTF-8 text. *)
From Coq Require Import String List.
Import ListNotations.
Local Open Scope string_scope.
Definition catalogue : list (string * string) := [
("",
 "Project-Id-Version: PROJECT VERSION
Report-Msgid-Bugs-To: EMAIL@ADDRESS
POT-Creation-Date: 2026-01-18 17:17+1100
PO-Revision-Date: YEAR-MO-DA HO:MI+ZONE
Last-Translator: FULL NAME <EMAIL@ADDRESS>
Language: zh
Language-Team: zh <LL@li.org>
Plural-Forms: nplurals=1; plural=0;
MIME-Version: 1.0
Content-Type: text/plain; charset=utf-8
Content-Transfer-Encoding: 8bit
Generated-By: Babel 2.17.0
");
("""%(field_name)s"" is not a valid field name.",
 "“%(field_name)s” 不是一个有效的字段名。");
("""%(field_name)s"" isn't valid in a request.",
 """%(field_name)s"" 在请求中无效。");
("""%(field_name)s"" isn't valid in a response.",
 """%(field_name)s"" 在响应中无效。");
("%(message)s can not have content.",
 "%(message)s 不能有内容。");
("%(method)s is not allowed, but the resource lists it in Allow.",
 "%(method)s 不允许，但资源列表将其允许。");
("%(status)s is not a standard HTTP status code.",
 "%(status)s 不是标准的 HTTP 状态码。");
("%(value)s is not a valid origin.",
 "%(value)s 不是有效的起源。");
("'%(token)s' is not valid in an allowlist.",
 "'%(token)s' 不在允许列表中。");
("304 (Not Modified) responses need to have a Date header.",
 "304 (未修改) 响应需要包含 Date 报头。");
("A 100 (Continue) response was sent when it wasn't asked for.",
 "发送了不必要的 100 (Continue) 响应。");
("A HTTP response is stale when its age (here, %(current_age)s) is equal to or exceeds
its freshness lifetime (in this case, %(freshness_lifetime)s).

There are a few reasons why a cache might serve a stale response:

* HTTP allows stale responses to be used to satisfy requests in exceptional circumstances;
e.g., when they lose contact with the origin server. This is subject to a number of requirements.
* Response directives like `stale-if-error` and `stale-while-revalidate` explicitly allow stale
  responses to be used in particular circumstances.
* Some caches are configured to ignore the response's freshness directives.",
 "当 HTTP 响应的年龄（此处为 %(current_age)s）等于或超过其新鲜度寿命（此处为 %(freshness_lifetime)s）时，该响应即被视为陈旧。

缓存可能提供陈旧响应的原因有几种：

* HTTP 允许在特殊情况下使用陈旧响应来满足请求；例如，当与源服务器失去联系时。这需要满足一些要求。
* `stale-if-error` 和 `stale-while-revalidate` 等响应指令明确允许在特定情况下使用陈旧响应。
* 一些缓存被配置为忽略响应的新鲜度指令。");
("A `max-age` of 0 tells the browser to expire the `Strict-Transport-Security` policy immediately,
effectively disabling it.",
 "`max-age` 为 0 会告诉浏览器立即使 `Strict-Transport-Security` 策略失效，
从而有效地禁用它。");
("A cache can store this response; it may or may not be able to use it to satisfy a particular
request.",
 "缓存可以存储此响应；它可能能够也可能不能用它来满足特定请求。");
("A new resource was created in response to a safe request.",
 "已根据安全请求创建了新资源。");
("A new resource was created without its location being sent.",
 "新资源创建时未发送其位置。");
("A partial response was sent when it wasn't requested.",
 "发送了部分响应，但并未请求。");
("A response can be considered fresh when its age (here, %(current_age)s) is less than its freshness
lifetime (in this case, %(freshness_lifetime)s).",
 "当响应的年龄（此处为 %(current_age)s）小于其新鲜度有效期（此处为 %(freshness_lifetime)s）时，该响应可被视为新鲜。");
("A response should not have both `Cross-Origin-Embedder-Policy` and
`Cross-Origin-Embedder-Policy-Report-Only` headers. The report-only header will be ignored.",
 "响应不应同时包含 `Cross-Origin-Embedder-Policy` 和 `Cross-Origin-Embedder-Policy-Report-Only` 标头。report-only 标头将被忽略。");
("A response should not have both `Cross-Origin-Opener-Policy` and
`Cross-Origin-Opener-Policy-Report-Only` headers. The report-only header will be ignored.",
 "响应不应同时包含 `Cross-Origin-Opener-Policy` 和 `Cross-Origin-Opener-Policy-Report-Only` 标头。report-only 标头将被忽略。");
("A shared cache can store this response; it may or may not be able to use it to satisfy a
particular request.

Private caches cannot store it, because there is no explicit freshness information
(such as Cache-Control: max-age), and the status code is not heuristically cacheable.

Note that a cache extension might override this behaviour.",
 "共享缓存可以存储此响应；它可能能够也可能不能使用它来满足特定请求。

私人缓存不能存储它，因为没有明确的新鲜度信息（如 Cache-Control: max-age），并且状态码不可启发式缓存。

请注意，缓存扩展可能会覆盖此行为。");
("Accept-CH is ignored over plain HTTP.",
 "Accept-CH 在纯文本 HTTP 请求中会被忽略。");
("Accept-CH lists fields that are missing from Vary.",
 "Accept-CH 列出了 Vary 中缺失的字段。");
("Access-Control-Allow-Credentials must be 'true'.",
 "Access-Control-Allow-Credentials 必须是 'true'。");
("Access-Control-Allow-Origin should not have multiple values.",
 "Access-Control-Allow-Origin 不应有多个值。");
("Access-Control-Max-Age must be an integer.",
 "Access-Control-Max-Age 必须是整数。");
("Access-Control-Max-Age must be non-negative.",
 "访问控制最大年龄必须为非负。");
("All sources are allowed in one or more directives.",
 "所有来源都允许在一条或多条指令中。");
("Allowing `http:` sources in `%(field_name)s` can allow attackers to intercept and modify
content loaded by the page, potentially bypassing security controls.

It was found in the following directives:

%(directives_list)s",
 "在 `%(field_name)s` 中允许 `http:` 源，可能使攻击者能够拦截和修改页面加载的内容，从而绕过安全控制。

在以下指令中发现了此问题：

%(directives_list)s");
("Although HTTP allows a server not to send a `Date` header in responses if it doesn't have a local
clock, this can make calculation of a stored response's age inexact.",
 "尽管 HTTP 允许服务器在没有本地时钟的情况下不发送 `Date` 头部，但这可能导致存储响应年龄的计算不准确。");
("An intermediary encountered an error.",
 "中间人遇到错误。");
("An intermediary timed out.",
 "中间人超时。");
("Because both the `Expires` and `Last-Modified` headers are date-based, it's necessary to send when
the message was generated in `Date` for them to be useful; otherwise, clock drift, transit times
between nodes as well as caching could skew their application.",
 "由于 `Expires` 和 `Last-Modified` 报头都是基于日期的，因此有必要发送生成消息的 `Date` 时间，以使它们有用；否则，时钟漂移、节点之间的传输时间以及缓存可能会导致其应用出现偏差。");
("Because the request was authenticated and this response doesn't contain a `Cache-Control: public`
directive, this response can only be stored by caches that are specific to a single user; for
example, a browser cache. Shared caches, such as those in proxies, cannot store it.",
 "由于请求已通过身份验证，且此响应不包含 `Cache-Control: public` 指令，因此此响应只能由特定于单个用户的缓存存储；例如，浏览器缓存。共享缓存，如代理中的缓存，则无法存储它。");
("Brotli-compressed responses use brotli compression to reduce the number of bytes transferred on the
wire. However, this response could not be decompressed; the error encountered was
""`%(brotli_error)s`"".

%(ok_brotli_len)s bytes were decompressed successfully before this; the erroneous chunk starts with (in hex):

    %(chunk_sample)s
",
 "Brotli-压缩的响应使用 Brotli 压缩来减少传输的字节数。然而，此响应无法解压缩；遇到的错误是“`%(brotli_error)s`”。

在在此之前成功解压缩%(ok_brotli_len)s 字节后，错误的块以十六进制开头：

    %(chunk_sample)s");
("Browser Security",
 "浏览器安全");
("Browser preloading is allowed, but this policy isn't suitable for it.",
 "浏览器预加载是允许的，但此策略不适合它。");
("Browser preloading is allowed.",
 "浏览器预加载是允许的。");
("Browser preloading isn't allowed.",
 "浏览器预加载不允许。");
("CORS headers are only allowed in preflight responses.",
 "跨域请求仅限于在预检响应中。");
("Cache groups need to be strings.",
 "Cache 组 需要 是 字符串。");
("Cache-Control: max-age and Expires are both present.",
 "Cache-Control：同时存在 max-age 和 Expires。");
("Cache-Control: public is probably not necessary.",
 "Cache-Control: public 可能不是必需的。");
("Caching",
 "缓存");
("Clear-Site-Data contains unquoted values.",
 "Clear-Site-Data 包含未引用的值。");
("Clients SHOULD send a `User-Agent` header field.

See [RFC 9110 Section 10.1.5](https://www.rfc-editor.org/rfc/rfc9110.html#section-10.1.5)
for details.",
 "客户端应发送 `User-Agent` 标头字段。

有关详情，请参阅 [RFC 9110 Section 10.1.5](https://www.rfc-editor.org/rfc/rfc9110.html#section-10.1.5)。");
("Compared to the local clock, the server's clock does not appear to be well-synchronised.

HTTP's caching model assumes reasonable synchronisation between clocks on the server and client;
clock skew can cause responses that should be cacheable to be considered uncacheable (especially if
their freshness lifetime is short).

Ask your server administrator to synchronise the clock, e.g., using
[NTP](http://en.wikipedia.org/wiki/Network_Time_Protocol Network Time Protocol).

Apparent clock skew can also be caused by caching the response without adjusting the `Age` header;
e.g., in a reverse proxy or Content Delivery network. See [this
paper](https://www.usenix.org/legacy/events/usits01/full_papers/cohen/cohen_html/index.html) for more information. ",
 "与本地时钟相比，服务器时钟似乎未正确同步。

HTTP 的缓存模型假定服务器和客户端之间的时钟大致同步；
时钟偏差可能导致本应可缓存的响应被视为不可缓存（尤其是在
其新鲜度寿命很短的情况下）。

请让您的服务器管理员同步时钟，例如使用
[NTP](http://en.wikipedia.org/wiki/Network_Time_Protocol 网络时间协议)。

响应未调整 `Age` 标头进行缓存也会导致明显的时钟偏差；
例如，在反向代理或内容分发网络中。有关更多信息，请参阅[此
论文](https://www.usenix.org/legacy/events/usits01/full_papers/cohen/cohen_html/index.html)。");
("Connection",
 "连接");
("Content Negotiation",
 "内容协商");
("Content-Length and Transfer-Encoding should not be present together.",
 "Content-Length 和 Transfer-Encoding 不应同时存在。");
("Content-Length should be an integer.",
 "Content-Length 应该是一个整数。");
("Cookies",
 "Cookie");
("Cross-Origin Resource Sharing",
 "跨源资源共享");
("Cross-Origin-Resource-Policy has an invalid value.",
 "Cross-Origin-Resource-Policy 的值无效。");
("Detailed information about caching is available.",
 "有关缓存的详细信息可供使用。");
("Directives must only appear once in the `%(field_name)s` header; subsequent occurrences are ignored.

The following directives were duplicated:

%(directives_list)s",
 "指令在 `%(field_name)s` 标头中只能出现一次；后续的出现将被忽略。

以下指令已重复：

%(directives_list)s");
("Duplicate directives are present.",
 "重复的指令存在。");
("Each `%(field_name)s` field line must be valid JSON.

The JSON parsing error was:
    %(error)s",
 "每个 `%(field_name)s` 字段行必须是有效的 JSON。

JSON 解析错误：
    %(error)s");
("Field names are limited to the `token` production in HTTP; i.e., they can't contain parenthesis,
angle brackets (<>), ampersands (@), commas, semicolons, colons, backslashes (\), forward
slashes (/), quotes, square brackets ([]), question marks, equals signs (=), curly brackets ({})
spaces or tabs.",
 "字段名称受限于 HTTP 的 `token` 规则；即，它们不能包含括号、
尖括号 (<>)、与号 (@)、逗号、分号、冒号、反斜杠 (\)、正斜杠 (/)、引号、方括号 ([])、
问号、等号 (=)、花括号 ({})、空格或制表符。");
("GZip-compressed responses have a header that contains metadata. Here, that header wasn't valid;
the error encountered was ""`%(gzip_error)s`"".",
 "GZip 压缩的响应包含一个包含元数据的头部。此处，该头部无效；遇到的错误是“%(gzip_error)s””。");
("GZip-compressed responses use zlib compression to reduce the number of bytes transferred on the
wire. However, this response could not be decompressed; the error encountered was
""`%(zlib_error)s`"".

%(ok_zlib_len)s bytes were decompressed successfully before this; the erroneous chunk starts with (in hex):

    %(chunk_sample)s
",
 "GZip 压缩的响应使用 zlib 压缩来减少传输的字节数。但是，此响应未能解压缩；遇到的错误是：“%(zlib_error)s”

%(ok_zlib_len)s 字节已成功解压缩；错误块以十六进制开头：

    %(chunk_sample)s");
("General",
 "通用");
("HSTS applies to subdomains.",
 "HSTS 适用于子域名。");
("HSTS doesn't apply to subdomains.",
 "HSTS 不适用于子域。");
("HTTP allows clients to ask a server if a request containing content (e.g., uploading a large file)
will succeed before sending it, using a mechanism called ""Expect/continue"".

When used, the client sends an `Expect: 100-continue`, in the request headers, and if the server is
willing to process it, it will send a `100 (Continue)` status code to indicate that the request
should continue.

This response has a `100 (Continue)` status code, but the request did not ask for it using the
`Expect` request header. Sending this status code without it being requested can cause
interoperability problems.",
 "HTTP 允许客户端在发送包含内容的请求（例如上传大文件）之前，先询问服务器该请求是否会成功，这通过一种称为“Expect/continue”的机制来实现。

使用时，客户端会在请求头中发送 `Expect: 100-continue`，如果服务器愿意处理该请求，它会发送一个 `100 (Continue)` 状态码，表示请求应继续。

此响应具有 `100 (Continue)` 状态码，但请求未使用 `Expect` 请求头进行此要求。在未被要求的情况下发送此状态码可能会导致互操作性问题。");
("HTTP allows stale responses to be served in some circumstances; for example, if the origin
server can't be contacted, a stale response can be used even if it doesn't have explicit freshness
information available.

This behaviour can be prevented by using the `Cache-Control: must-revalidate` response directive.",
 "HTTP 在某些情况下允许提供过时的响应；例如，如果无法联系源服务器，即使过时的响应没有明确的有效性信息，也可以使用它。

可以通过使用 `Cache-Control: must-revalidate` 响应指令来阻止此行为。");
("HTTP allows transfer-codings in the `Transfer-Encoding` header to have optional parameters, but it
doesn't define what they mean.

This message has encodings with such parameters; although they're technically allowed, they may
cause interoperability problems. They should be removed.",
 "HTTP 允许 `Transfer-Encoding` 标头中的传输编码具有可选参数，但它没有定义这些参数的含义。

此消息包含带有此类参数的编码；尽管它们在技术上是允许的，但可能会导致互操作性问题。应将其删除。");
("HTTP dates have specific syntax, and sending an invalid date can cause a number of problems,
especially with caching. Common problems include sending ""1 May"" instead of ""01 May"" (the month
is a fixed-width field), and sending a date in a timezone other than GMT.

See [the HTTP specification](https://www.rfc-editor.org/rfc/rfc9110.html#name-date-time-formats) for more
information.",
 "HTTP 日期具有特定的语法，发送无效日期可能会导致一系列问题，尤其是在缓存方面。常见的问题包括发送“1 May”而不是“01 May”（月份是固定宽度字段），以及发送除 GMT 之外的任何时区的日期。

有关更多信息，请参阅 [HTTP 规范](https://www.rfc-editor.org/rfc/rfc9110.html#name-date-time-formats)。");
("HTTP defines _transfer-codings_ as a hop-by-hop encoding of the message's content. The `identity`
transfer-coding was defined as the absence of encoding; it doesn't do anything, so it is unnecessary.

You can remove this token to save a few bytes.",
 "HTTP 将 _transfer-codings_ 定义为消息内容的逐跳编码。`identity` 传输编码被定义为不编码；它不做任何事，所以是不必要的。

您可以删除此令牌以节省几个字节。");
("HTTP defines an algorithm that uses the `Age` header, `Date` header, and local time observations to
determine the age of a response. As a result, caches might use a value other than that in the `Age`
header to determine how old the response is -- and therefore how much longer it can be used.",
 "HTTP 定义了一种算法，它使用 `Age` 标头、`Date` 标头和本地时间观察来确定响应的年龄。因此，缓存可能使用 `Age` 标头之外的值来确定响应的旧程度——从而确定它还能使用多长时间。");
("HTTP defines the `Upgrade` header as a means of negotiating a change of protocol; i.e., it
allows you to switch the protocol on a given connection from HTTP to something else.

This response was upgraded, but the request did not contain an `Upgrade` header field.
",
 "HTTP 将 `Upgrade` 标头定义为协商协议更改的一种方式；即，它允许您将给定连接上的协议从 HTTP 切换到其他协议。

此响应已升级，但请求中不包含 `Upgrade` 标头字段。");
("HTTP field names can only contain ASCII characters.",
 "HTTP 字段名称只能包含 ASCII 字符。");
("HTTP fields notionally use the ISO-8859-1 character set, but in most cases are pure ASCII
(a subset of this encoding).

This field has non-ASCII characters, which have been interpreted as being encoded in
ISO-8859-1. If another encoding is used (e.g., UTF-8), the results may be unpredictable.",
 "HTTP 字段理论上使用 ISO-8859-1 字符集，但实际上在大多数情况下都是纯 ASCII（该编码的一个子集）。

此字段包含非 ASCII 字符，这些字符被解释为使用 ISO-8859-1 编码。如果使用其他编码（例如 UTF-8），结果可能会不稳定。");
("HTTP has a number of defined date formats for historical reasons. This header is using an old
format that are now obsolete. See [the
specification](https://www.rfc-editor.org/rfc/rfc9110.html#name-obsolete-date-formats) for more information.
",
 "HTTP 出于历史原因定义了多种日期格式。此标头使用的是现已废弃的旧格式。有关更多信息，请参阅 [规范](https://www.rfc-editor.org/rfc/rfc9110.html#name-obsolete-date-formats)。");
("HTTP only defines `Pragma: no-cache`; other uses of this header are deprecated.",
 "HTTP 仅定义 `Pragma: no-cache`；此标头的其他用法已弃用。");
("HTTP only defines meaning for the `Content-Range` header in responses with a `206` (Partial
Content) or `416` (Requested Range Not Satisfiable) status code.

Because the status code is neither of those, this `Content-Range` header may confuse caches and
clients.",
 "HTTP 仅在响应状态码为 `206` (部分内容) 或 `416` (请求范围不满足) 时定义 `Content-Range` 报头。

由于状态码不是这两者之一，此 `Content-Range` 报头可能会混淆缓存和客户端。");
("HTTP only defines one expectation, `100-continue`. This expectation is not recognized.",
 "HTTP 仅定义了一种 Expectation，即 `100-continue`。此 Expectation 未被识别。");
("HTTP prohibits a user agent from sending a Referer header field if the referring resource was
accessed with a secure protocol and the request target has an origin differing from that of the
referring resource, unless the referring resource explicitly allows Referer to be sent.

See [RFC 9110 Section 10.1.3](https://www.rfc-editor.org/rfc/rfc9110.html#section-10.1.3)
for details.",
 "HTTP 禁止用户代理在引用资源以安全协议访问且请求目标与引用资源的源不同时发送 Referer 标头字段，除非引用资源明确允许发送 Referer。

详情请参阅 [RFC 9110 Section 10.1.3](https://www.rfc-editor.org/rfc/rfc9110.html#section-10.1.3)。");
("HTTP prohibits a user agent from sending a Referer header field in an unsecured HTTP request
if the referring resource was accessed with a secure protocol.

See [RFC 9110 Section 10.1.3](https://www.rfc-editor.org/rfc/rfc9110.html#section-10.1.3)
for details.",
 "HTTP 禁止用户代理在不安全 HTTP 请求中发送 Referer 报头字段，如果引用资源是通过安全协议访问的。

详细信息请参阅 [RFC 9110 Section 10.1.3](https://www.rfc-editor.org/rfc/rfc9110.html#section-10.1.3)。");
("HTTP requires `304 (Not Modified)` responses to have a `Date` header in all but the most unusual
circumstances.",
 "HTTP 要求 `304 (Not Modified)` 响应在大多数非极端情况下都必须包含 `Date` 报头。");
("HTTP's caching model assumes reasonable synchronisation between clocks on the server and client;
compared to the local clock, the server's clock appears to be well-synchronised.",
 "HTTP 的缓存模型假定服务器和客户端的时钟在合理范围内同步；
与本地时钟相比，服务器的时钟似乎同步得很好。");
("If an error occurs, caches can serve this response stale.",
 "如果发生错误，缓存可以提供此过时响应。");
("In %(field_name)s, the %(context)s key '%(key)s' is duplicated.",
 "在 %(field_name)s 中，%(context)s 键 '%(key)s' 被重复了。");
("In exceptional circumstances, caches can serve this response stale.",
 "在特殊情况下，缓存可以提供此陈旧响应。");
("Information about intermediaries is available.",
 "关于中介机构的信息是可用的。");
("Inline scripts are allowed.",
 "内联脚本是允许的。");
("It appears that the Date header has been changed by an intermediary.",
 "看起来 Date 报头已被中间人修改。");
("It appears that this response has been cached by a reverse proxy or Content Delivery Network,
because the `Age` header is present, but the `Date` header is more recent than it indicates.

Generally, reverse proxies should either omit the `Age` header (if they have another means of
determining how fresh the response is), or leave the `Date` header alone (i.e., act as a normal
HTTP cache).

See [this paper](https://www.usenix.org/legacy/events/usits01/full_papers/cohen/cohen_html/index.html)
for more information.",
 "看起来此响应已被反向代理或内容分发网络缓存，
因为存在 `Age` 标头，但 `Date` 标头比其指示的更近。

通常，反向代理应省略 `Age` 标头（如果它们有其他方法
确定响应的新鲜度），或者不更改 `Date` 标头（即，表现得像一个普通的
HTTP 缓存）。

有关更多信息，请参阅[这篇论文](https://www.usenix.org/legacy/events/usits01/full_papers/cohen/cohen_html/index.html)。");
("Loading from insecure HTTP sources is allowed.",
 "允许从不安全的 HTTP 源加载。");
("Long URIs aren't supported by some implementations, including proxies. A reasonable upper size
limit is 8192 characters.",
 "长 URI 不被某些实现（包括代理）支持。一个合理的上限是 8192 个字符。");
("Many Web browsers ""sniff"" the media type of responses to figure out whether they're HTML, RSS or
another format, no matter what the `Content-Type` header says.

This header instructs browsers not to do this, but to always respect the
Content-Type header. It probably won't have any effect in other clients.

See [MDN](https://developer.mozilla.org/en-US/docs/Web/HTTP/Headers/X-Content-Type-Options)
for more information about this header.",
 "许多 Web 浏览器会“嗅探”响应的媒体类型，以确定它是 HTML、RSS 还是其他格式，而不管 `Content-Type` 标头说了什么。

此标头指示浏览器不要这样做，而是始终遵守 `Content-Type` 标头。它可能不会在其他客户端中产生任何影响。

有关此标头的更多信息，请参阅 [MDN](https://developer.mozilla.org/en-US/docs/Web/HTTP/Headers/X-Content-Type-Options)。");
("Microsoft Internet Explorer implements two `Cache-Control` extensions, `pre-check` and
`post-check`, to give more control over how its cache stores responses.

Once it has been cached for more than %(post_check)s seconds, a new request will result in the
cached response being served while it is refreshed in the background. However, if it has been
cached for more than %(pre_check)s seconds, the browser will download a fresh response before
showing it to the user.

Note that these directives do not have any effect on other clients or caches.",
 "Microsoft Internet Explorer 实现了两个 `Cache-Control` 扩展，`pre-check` 和 `post-check`，以提供更精细地控制其缓存如何存储响应。

一旦缓存超过 %(post_check)s 秒，新的请求将提供缓存的响应，同时在后台刷新。但是，如果缓存超过 %(pre_check)s 秒，浏览器将在向用户显示之前下载一个全新的响应。

请注意，这些指令对其他客户端或缓存没有任何影响。");
("Microsoft Internet Explorer implements two `Cache-Control` extensions, `pre-check` and
`post-check`, to give more control over how its cache stores responses.

This response assigns a higher value to `post-check` than to `pre-check`; this means that Internet
Explorer will treat `post-check` as if its value is the same as `pre-check`'s.",
 "Microsoft Internet Explorer 实现两个 `Cache-Control` 扩展，`pre-check` 和 `post-check`，以更好地控制其缓存如何存储响应。

此响应为 `post-check` 分配的值高于 `pre-check`；这意味着 Internet Explorer 将 `post-check` 的处理方式视为与其值相同。");
("Microsoft Internet Explorer implements two `Cache-Control` extensions, `pre-check` and
`post-check`, to give more control over how its cache stores responses.

This response assigns a value of ""0"" to `post-check`, which means that Internet Explorer will reload
the content as soon as it enters the browser cache, effectively **doubling the load on the
server**.",
 "Microsoft Internet Explorer 实现了两个 `Cache-Control` 扩展，`pre-check` 和 `post-check`，以提供对浏览器缓存存储响应的更多控制。

此响应为 `post-check` 分配了值 ""0""，这意味着 Internet Explorer 一旦将内容加载到浏览器缓存中，就会立即重新加载内容，从而**加倍服务器的负载**。");
("Microsoft Internet Explorer implements two `Cache-Control` extensions, `pre-check` and
`post-check`, to give more control over how its cache stores responses.

This response gives a value of ""0"" for both; as a result, Internet Explorer will ignore the
directive, since it requires both to be present.

In other words, setting these to zero has **no effect** (besides wasting bandwidth),
and may trigger bugs in some beta versions of IE.",
 "Microsoft Internet Explorer 实现了两个 `Cache-Control` 扩展：`pre-check` 和 `post-check`，以更精细地控制其缓存如何存储响应。

此响应为两者都提供了“0”的值；因此，Internet Explorer 将忽略该指令，因为它要求两者都存在。

换句话说，将这些设置为零**没有效果**（除了浪费带宽），并且可能会在某些 IE beta 版本中触发 bug。");
("Microsoft Internet Explorer implements two `Cache-Control` extensions, `pre-check` and
`post-check`, to give more control over how its cache stores responses.

This response uses only one of these directives; as a result, Internet Explorer will ignore the
directive, since it requires both to be present.
",
 "Microsoft Internet Explorer 实现了两个 `Cache-Control` 扩展，“`pre-check`”和“`post-check`”，以更精细地控制其缓存存储响应的方式。

此响应仅使用了这些指令中的一个；因此，Internet Explorer 将忽略该指令，因为它要求同时存在这两个指令。");
("Most sites should set a `max-age` of at least one year on `Strict-Transport-Security`.",
 "大多数网站都应该在 `Strict-Transport-Security` 中设置至少一年的 `max-age`。");
("Multiple Referrer-Policy values found; only '%(effective)s' is used.",
 "找到多个 Referrer-Policy 值；仅使用 '%(effective)s'。");
("No valid Referrer-Policy found.",
 "未找到有效的 Referrer-Policy。");
("Non-standard status codes are not well-defined and interoperable. Instead of defining your own
status code, you should reuse one of the more generic ones; for example, `400` for a client-side
problem, or `500` for a server-side problem.",
 "非标准状态码定义不清且互操作性差。你不应定义自己的状态码，而应重用更通用的状态码；例如，客户端问题使用 `400`，服务器端问题使用 `500`。");
("One or more intermediaries are present.",
 "存在一个或多个中间服务器。");
("Only one %(field_name)s field is allowed in a message.",
 "仅允许在消息中包含一个 %(field_name)s 字段。");
("Only one of the pre-check and post-check cache directives is present.",
 "仅存在预检查和后检查缓存指令中的一个。");
("Only one value is currently defined for this header, `nosniff`. Using other values here won't
necessarily cause problems, but they probably won't have any effect either.

See [MDN](https://developer.mozilla.org/en-US/docs/Web/HTTP/Headers/X-Content-Type-Options)
for more information about this header.",
 "此标头目前仅定义了一个值 `nosniff`。在此处使用其他值不一定会导致问题，但很可能也不会产生任何效果。

有关此标头的更多信息，请参阅 [MDN](https://developer.mozilla.org/en-US/docs/Web/HTTP/Headers/X-Content-Type-Options)。");
("Only two values are currently defined for this header, `DENY` and `SAMEORIGIN`. Using other values
here won't necessarily cause problems, but they probably won't have any effect either.

See [MDN](https://developer.mozilla.org/en-US/docs/Web/HTTP/Headers/X-Frame-Options) for more information.
",
 "该标头目前仅定义了两个值：`DENY` 和 `SAMEORIGIN`。在此使用其他值不一定会导致问题，但它们可能也没有任何效果。

有关更多信息，请参阅 [MDN](https://developer.mozilla.org/en-US/docs/Web/HTTP/Headers/X-Frame-Options)。");
("Parameter values that end in '*' are reserved for non-ascii text, as explained in
[RFC5987](https://www.rfc-editor.org/rfc/rfc5987).

The `%(param)s` parameter on the `%(field_name)s` field does not allow this; you should use
%(param)s without the ""*"" on the end (and without the associated encoding).",
 "结尾带 '*' 的参数值保留给非 ASCII 文本，如
[RFC5987](https://www.rfc-editor.org/rfc/rfc5987) 中所述。

`%(field_name)s` 字段上的 `%(param)s` 参数不允许这样做；您应该使用
没有结尾 '*' 的 %(param)s（并且不进行关联编码）。");
("Parameter values that end in '*' have a specific format, defined in
[RFC5987](https://www.rfc-editor.org/rfc/rfc5987), to allow non-ASCII text.

The `%(param)s` parameter on the `%(field_name)s` field has double-quotes around it, which is not
valid.",
 "以 '*' 结尾的参数值具有特定格式，定义在
[RFC5987](https://www.rfc-editor.org/rfc/rfc5987) 中，以允许使用非 ASCII 文本。

`%(field_name)s` 字段上的 `%(param)s` 参数带有双引号，这是无效的。");
("Parameter values that end in '*' have a specific format, defined in
[RFC5987](https://www.rfc-editor.org/rfc/rfc5987), to allow non-ASCII text.

The `%(param)s` parameter on the `%(field_name)s` field is not valid; it needs to have three
parts, separated by single quotes (').",
 "结尾带有“*”的参数值具有特定格式，在
[RFC5987](https://www.rfc-editor.org/rfc/rfc5987) 中定义，允许使用非 ASCII 文本。

`%(field_name)s` 字段上的 `%(param)s` 参数无效；它需要包含三个
部分，并用单引号（'）分隔。");
("Parameter values that end in '*' have a specific format, defined in
[RFC5987](https://www.rfc-editor.org/rfc/rfc5987), to allow non-ASCII text.

The `%(param)s` parameter on the `%(field_name)s` header doesn't declare its character encoding,
which means that recipients can't understand it. It should be `UTF-8`.",
 "以 '*' 结尾的参数值采用特定格式，定义于
[RFC5987](https://www.rfc-editor.org/rfc/rfc5987)，允许使用非 ASCII 文本。

`%(field_name)s` 标头上的 `%(param)s` 参数未声明其字符编码，
这意味着接收者无法理解它。它应该是 `UTF-8`。");
("Parameter values that end in '*' have a specific format, defined in
[RFC5987](https://www.rfc-editor.org/rfc/rfc5987), to allow non-ASCII text.

The `%(param)s` parameter on the `%(field_name)s` header uses the `'%(enc)s` encoding, which has
interoperability issues with some browsers. It should be `UTF-8`.",
 "以“*”结尾的参数值具有特定格式，在 [RFC5987](https://www.rfc-editor.org/rfc/rfc5987) 中定义，允许使用非 ASCII 文本。

`%(field_name)s` 标头上的 `%(param)s` 参数使用了“`%(enc)s`”编码，该编码在与某些浏览器交互时存在问题。应使用 `UTF-8`。");
("Parameters on the %(field_name)s field should not repeat; implementations may handle them
differently.",
 "%(field_name)s 字段上的参数不应重复；实现可能对此有不同的处理方式。");
("Partial Content",
 "部分内容");
("Preloading a site in a browser's HSTS list requires a `max-age` of at least one year and the
`includeSubDomains` directive.

See the [HSTS Preload List](https://hstspreload.org/) for more information.
",
 "在浏览器 HSTS 列表中预加载网站需要 `max-age` 至少为一年，并包含 `includeSubDomains` 指令。

有关更多信息，请参阅 [HSTS 预加载列表](https://hstspreload.org/)。");
("RFC 2324 was an April Fools' Day RFC that lampooned the various ways HTTP was abused; one such abuse
was the definition of the application-specific `418 (I'm a Teapot)` status code. In the
intervening years, this status code has been sometimes implemented as an ""easter egg"".

This status code is not a part of HTTP and hence it might not be supported by some strict
standards-compliant clients.
",
 "RFC 2324 是一个愚人节 RFC，它讽刺了 HTTP 的各种滥用方式；其中一种滥用就是定义了应用程序特定的 `418 (I'm a Teapot)` 状态码。在随后的几年里，这个状态码有时被用作“复活节彩蛋”。

此状态码不是 HTTP 的一部分，因此一些严格遵循标准的客户端可能不支持。");
("RFC 9110 Section 8.6:
> A sender MUST NOT send a Content-Length header field in any message that contains a Transfer-Encoding header field.

This is because `Transfer-Encoding` overrides `Content-Length`.",
 "RFC 9110 Section 8.6：
> 发送方不得在包含 Transfer-Encoding 报头字段的任何消息中发送 Content-Length 报头字段。

这是因为 `Transfer-Encoding` 会覆盖 `Content-Length`。");
("Redirects need to have a Location header.",
 "重定向需要有 Location 头。");
("Reserved status codes can only be used by future, standard protocol extensions; they are not for
private use.",
 "保留状态码只能由未来的标准协议扩展使用，不能用于私人用途。");
("Responses to the %(method)s method can't be stored by caches.",
 "缓存无法存储对 %(method)s 方法的响应。");
("Sending `Vary: User-Agent` requires caches to store a separate copy of the response for every
`User-Agent` request header they see.

Since there are so many different `User-Agent`s, this can ""bloat"" caches with many copies of the
same thing, or cause them to give up on storing these responses at all.

Consider having different URIs for the various versions of your content instead; this will give
finer control over caching without sacrificing efficiency.",
 "发送 `Vary: User-Agent` 会要求缓存为它们看到的每个 `User-Agent` 请求头单独存储一份响应副本。

由于 `User-Agent` 非常多，这会“膨胀”缓存，存储大量相同的副本，或者导致缓存放弃存储这些响应。

请考虑为您的内容的各种版本使用不同的 URI；这样可以在不牺牲效率的情况下更精细地控制缓存。");
("Some implementations limit the size of any single field line.",
 "一些实现限制了任何单个字段行的大小。");
("Some implementations limit the total size of a field section. 32KB is a reasonable
upper limit.",
 "一些实现将限制字段部分的总大小。 32KB 是合理的上限。");
("Some servers (e.g., [Apache](http://httpd.apache.org/) with
[mod_rewrite](http://httpd.apache.org/docs/2.4/mod/mod_rewrite.html)) will send `Host` in the
`Vary` header, in the belief that this is necessary.

This is not the case; HTTP specifies that the URI is the basis of the cache key, and the URI
incorporates the `Host` header.

The presence of `Vary: Host` may make some caches not store an otherwise cacheable response (since
some cache implementations will not store anything that has a `Vary` header).",
 "有些服务器（例如，[Apache](http://httpd.apache.org/) 配合 [mod_rewrite](http://httpd.apache.org/docs/2.4/mod/mod_rewrite.html)）会发送 `Host` 作为 `Vary` 头部字段，认为这是必要的。

事实并非如此；HTTP 规定 URI 是缓存键的基础，而 URI 包含了 `Host` 头部字段。

`Vary: Host` 的存在可能会导致某些缓存不存储本可缓存的响应（因为有些缓存实现不会存储带有 `Vary` 头部字段的任何内容）。");
("Strict Transport Security (HSTS) is enabled.",
 "严格传输安全 (HSTS) 已启用。");
("The %(bad_directive)s CDN cache directive's syntax is incorrect.",
 "The %(bad_directive)s CDN 缓存指令语法不正确。");
("The %(context)s key '%(key)s' is duplicated. All instances after the first will be ignored.",
 "'%(context)s' 键 '%(key)s' 已重复。第一个实例之后的所有实例都将被忽略。");
("The %(cookie_name)s Set-Cookie header has a __Host- prefix but does not set Path=/.",
 "%(cookie_name)s Set-Cookie 标头包含 __Host- 前缀，但未设置 Path=/.");
("The %(cookie_name)s Set-Cookie header has a __Host- prefix but sets a Domain.",
 "%(cookie_name)s Set-Cookie 标头具有 __Host- 前缀但设置了 Domain。");
("The %(cookie_name)s Set-Cookie header has a lifetime that is too long.",
 "%(cookie_name)s Set-Cookie 标头中的有效期过长。");
("The %(cookie_name)s Set-Cookie header has duplicate '%(attribute)s' attributes.",
 "Set-Cookie 标头中的 %(cookie_name)s 包含重复的 “%(attribute)s” 属性。");
("The %(cookie_name)s Set-Cookie header is too large.",
 "%(cookie_name)s Set-Cookie 标头过大。");
("The %(cookie_name)s Set-Cookie header requires the Secure attribute.",
 "%(cookie_name)s Set-Cookie 标头需要 Secure 属性。");
("The %(cookie_name)s Set-Cookie value is large.",
 "%(cookie_name)s Set-Cookie 值过大。");
("The %(cookie_name)s cookie has a Max-Age with a leading zero.",
 "%(cookie_name)s Cookie 有一个 Max-Age，其开头有一个零。");
("The %(cookie_name)s cookie has a non-numeric Max-Age.",
 "%(cookie_name)s Cookie 的 Max-Age 不是数字。");
("The %(cookie_name)s cookie has an empty Max-Age.",
 "Cookie ""%(cookie_name)s"" 的 Max-Age 为空。");
("The %(cookie_name)s cookie has an empty domain.",
 "%(cookie_name)s Cookie 的 domain 为空。");
("The %(cookie_name)s cookie has an invalid Expires date.",
 "%(cookie_name)s cookie 的Expires日期无效。");
("The %(cookie_name)s cookie has an unknown '%(attribute_name)s' attribute value.",
 "Cookie %(cookie_name)s 包含一个未知的“%(attribute_name)s”属性值。");
("The %(cookie_name)s cookie has an unknown attribute, '%(attribute)s'.",
 "“%(cookie_name)s” cookie 具有一个未知属性，“%(attribute)s”。");
("The %(cookie_name)s cookie has the Partitioned attribute but is missing the Secure attribute.",
 "%(cookie_name)s cookie 具有 Partitioned 属性，但缺少 Secure 属性。");
("The %(cookie_name)s cookie is missing the Secure attribute.",
 "%(cookie_name)s cookie 缺少 Secure 属性。");
("The %(directive)s cache directive appears more than once.",
 "缓存指令 “%(directive)s” 出现多次。");
("The %(directive)s cache directive does not accept a value.",
 "The %(directive)s 缓存指令不接受任何值。");
("The %(directive)s cache directive has no meaning in a %(message_type)s.",
 "%(directive)s 缓存指令在 %(message_type)s 中没有意义。");
("The %(directive)s cache directive has non-lowercase characters.",
 "缓存指令 “%(directive)s” 包含非小写字符。");
("The %(directive)s cache directive is very large.",
 "%(directive)s 缓存指令非常大。");
("The %(directive)s cache directive overrides other directives.",
 "%(directive)s 缓存指令会覆盖其他指令。");
("The %(directive)s cache directive's value is incorrect.",
 "The %(directive)s 缓存指令的值不正确。");
("The %(directive)s directive in the HSTS header must not have a value.",
 "HSTS 标头中的 %(directive)s 指令不得具有值。");
("The %(field_name)s field is defined as a
[Structured Field](https://www.rfc-editor.org/rfc/rfc9651.html),
but its value can't be parsed as one. As a result, this field is likely
to be ignored.

The parser reports this error: %(problem)s

%(context)s",
 "The %(field_name)s 字段被定义为[结构化字段](https://www.rfc-editor.org/rfc/rfc9651.html)，但它的值不能被解析成一个。因此，这个字段可能将被忽略。

解析器报告了这个错误：%(problem)s

%(context)s");
("The %(field_name)s field is very large (%(field_size)s bytes).",
 "字段 %(field_name)s 非常大 (%(field_size)s 字节)。");
("The %(field_name)s field only has meaning in requests. Sending it a response
doesn't do anything. REDbot (and most recipients) will ignore it.",
 "字段 %(field_name)s 仅在请求中具有意义。发送响应时，它不会产生任何效果。REDbot（以及大多数接收器）将忽略它。");
("The %(field_name)s field only has meaning in responses. Sending it in a request
doesn't do anything. REDbot (and most recipients) will ignore it.",
 "字段 %(field_name)s 在响应中才有意义。在请求中发送它毫无用处。REDbot（和大多数接收器）会忽略它。");
("The %(field_name)s field value doesn't conform to its specified syntax.",
 "字段 %(field_name)s 的值不符合其指定的语法。");
("The %(field_name)s field value isn't a valid Structured Field.",
 "%(field_name)s 字段的值不是有效的结构化字段。");
("The %(field_name)s field's name contains non-ASCII characters.",
 "The %(field_name)s 字段名称包含非 ASCII 字符。");
("The %(field_name)s field's value contains non-ASCII characters.",
 "The %(field_name)s 字段的值包含非 ASCII 字符。");
("The %(field_name)s header is deprecated.",
 "%(field_name)s 标头已弃用。");
("The %(field_name)s header requires the Access-Control-Request-Method header.",
 "%(field_name)s 标头要求 Access-Control-Request-Method 标头。");
("The %(field_name)s header requires the OPTIONS method.",
 "该 %(field_name)s 头需要 OPTIONS 方法。");
("The %(field_name)s header requires the Origin header.",
 "%(field_name)s 标头需要 Origin 标头。");
("The %(field_name)s header value isn't valid JSON.",
 "The %(field_name)s 标头值不是有效的 JSON。");
("The %(field_name)s header's value isn't a valid date.",
 "%(field_name)s 头的取值不是一个有效的日期。");
("The %(field_name)s header's value uses an obsolete format.",
 "%(field_name)s 标头的值使用了过时的格式。");
("The %(field_name)s parameter '%(param)s' has an invalid type.",
 "字段 %(field_name)s 参数 '%(param)s' 类型无效");
("The %(field_type)s section is very large (%(section_size)s bytes).",
 "该 %(field_type)s 部分非常大 (%(section_size)s 字节)");
("The %(header_name)s header can probably be removed.",
 "%(header_name)s 标头可能可以移除。");
("The %(lang)s language tag appears more than once.",
 "语言标签 %(lang)s 出现次数超过一次。");
("The %(method)s doesn't define any meaning for content.",
 "The %(method)s 没有定义内容的含义。");
("The %(name)s reporting endpoint is invalid.",
 "The %(name)s 报告端点无效。");
("The %(name)s reporting endpoint is not secure.",
 "该 %(name)s 报告端点不安全。");
("The %(param)s parameter's value doesn't define an encoding.",
 "%(param)s 参数的值未定义编码。");
("The %(param)s parameter's value is invalid.",
 "%(param)s 参数的值无效。");
("The %(param)s parameter's value uses an encoding other than UTF-8.",
 "%(param)s 参数的值使用了 UTF-8 以外的编码。");
("The %(param)s* parameter isn't allowed on the %(field_name)s field.",
 "“%(param)s” 参数在 %(field_name)s 字段中不允许。");
("The %(status)s status code is deprecated.",
 "%(status)s 状态码已被弃用。");
("The %(status)s status code is reserved.",
 "%(status)s 状态码是保留的。");
("The %(status)s status code means that the server can't or won't accept a request-uri this long.",
 "%(status)s 状态码表示服务器无法或不愿意接受如此长的请求 URI。");
("The %(status)s status code redirects users to another URI. The `Location` header is used to
convey this URI, but a valid one isn't present in this response.",
 "%(status)s 状态码会将用户重定向到另一个 URI。`Location` 标头用于
传达此 URI，但此响应中没有有效的 URI。");
("The '%(disposition)s' Content-Disposition isn't known.",
 "未知的“%(disposition)s”Content-Disposition。");
("The '%(expectation)s' expectation is not supported.",
 "该 '%(expectation)s' 期望不支持。");
("The '%(feature)s' feature is allowed for all origins.",
 "“%(feature)s”功能允许所有来源。");
("The '%(metric)s' metric is missing the 'desc' parameter.",
 "指标 '%(metric)s' 缺失 'desc' 参数。");
("The '%(metric)s' metric is missing the 'dur' parameter.",
 "指标 '%(metric)s' 缺失 'dur' 参数。");
("The '%(param)s' parameter on the %(field_name)s header is single-quoted.",
 "'%(param)s' 参数在 %(field_name)s 标头中被单引号包围。");
("The '%(param)s' parameter on the '%(metric)s' metric has a non-numeric value.",
 "该 metric '%(metric)s' 的 '%(param)s' 参数具有非数值值。");
("The '%(param)s' parameter repeats in the %(field_name)s header.",
 "“%(param)s” 参数在 %(field_name)s 标头中重复。");
("The '%(param)s' parameter's value cannot be quoted.",
 "“%(param)s” 参数的值不能被引用。");
("The 'Priority' Set-Cookie attribute is deprecated.",
 "优先级 Set-Cookie 属性已弃用。");
("The 'Version Set-Cookie attribute is deprecated.",
 "版本 Set-Cookie 属性已弃用。");
("The 'anchor' parameter on the %(link)s Link header isn't a URI.",
 "‘%(link)s’ 链接头部中的 ‘anchor’ 参数不是一个 URI。");
("The 'filename' parameter on the Content-Disposition header contains a '%%' character.",
 "Content-Disposition 头部中的 'filename' 参数包含一个 '%%' 字符。");
("The 'rev' parameter on the Link header is deprecated.",
 "Link 响应头上的 'rev' 参数已弃用。");
("The 'type' parameter on the %(link)s Link header isn't a media type.",
 "The 'type' parameter on the %(link)s Link header 不是媒体类型。");
("The 406 (Not Acceptable) status code appears to be misused.",
 "406（不可接受）状态代码似乎被滥用。");
("The Accept header isn't valid.",
 """The Accept header 不是有效的。""");
("The Accept-CH header isn't a List of Tokens.",
 "Accept-CH 标头不是令牌列表。");
("The Accept-Language header isn't valid.",
 """Accept-Language 头信息无效。""");
("The Access-Control-Allow-Origin header allows any origin.",
 "Access-Control-Allow-Origin 标头允许任何来源。");
("The Access-Control-Allow-Origin header allows the requesting origin.",
 "Access-Control-Allow-Origin 标头允许请求的源。");
("The Access-Control-Allow-Origin header does not allow any origin.",
 "Access-Control-Allow-Origin 头不允许任何来源。");
("The Access-Control-Allow-Origin header does not allow the requesting origin.",
 "访问控制允许来源标头不允许请求来源。");
("The Age header's value is very large.",
 "Age 头部的取值非常大。");
("The Age header's value should be an integer.",
 "Age 头部的取值应为整数。");
("The Age headers' value must be a positive integer.",
 "Age 标头的值必须是正整数。");
("The Alt-Svc 'clear' token cannot be used with other values.",
 "“clear” 令牌不能与其他值一起使用。");
("The Available-Dictionary header has an invalid type.",
 "可用的字典标头具有无效的类型。");
("The Cache-Group-Invalidation header is ignored for %(method)s requests.",
 "对于 %(method)s 请求，忽略 Cache-Group-Invalidation 标头。");
("The Cache-Status header has an invalid structure.",
 "Cache-Status 标头结构无效。");
("The Cache-Status header has an unknown parameter '%(param)s'.",
 "Cache-Status 标头具有未知参数“%(param)s”。");
("The Cache-Status header has an unknown value for '%(param)s'.",
 "Cache-Status 标头中 '%(param)s' 的值未知。");
("The Clear-Site-Data header contains an unknown value '%(value)s'.",
 "Clear-Site-Data 标头包含一个未知值 '%(value)s'。");
("The Clear-Site-Data header has an empty value.",
 "Clear-Site-Data 标头为空。");
("The Content-Disposition header doesn't have a 'filename' parameter.",
 "Content-Disposition 标头缺少 'filename' 参数。");
("The Content-Length header is correct.",
 "Content-Length 头是正确的。");
("The Content-Length header is incorrect.",
 "Content-Length 标头不正确。");
("The Content-Length header is very large.",
 "Content-Length 标头非常大。");
("The Content-Range header contains a non-integer value.",
 "Content-Range 标头包含非整数值。");
("The Content-Range header indicates an unknown total length.",
 "Content-Range 表示未知总长度。");
("The Content-Range header indicates an unsatisfied range, but the status code is 206.",
 "Content-Range 标头表示范围不满足，但状态代码为 206。");
("The Content-Range header invalidly uses wildcards.",
 "Content-Range 标头无效地使用野生卡。");
("The Content-Range header is invalid.",
 "Content-Range 头无效。");
("The Content-Range header is missing a hyphen.",
 "Content-Range 头缺少一个连字符。");
("The Content-Range header is missing a slash separator.",
 "Content-Range 头缺少斜杠分隔符。");
("The Content-Range header is missing a unit (e.g., 'bytes').",
 "Content-Range 头部缺少单位（例如 'bytes'）。");
("The Deprecation header has an invalid type.",
 "The Deprecation 标头 具有 无效 类型。");
("The Expect header is not supported in HTTP/1.0.",
 "Expect 头在 HTTP/1.0 中不受支持。");
("The HSTS header contains a duplicate directive.",
 "HSTS 头部包含重复指令。");
("The HSTS header is sent over HTTP.",
 "HSTS 头部通过 HTTP 发送。");
("The Last-Modified time is in the future.",
 "最后修改时间在未来。");
("The Location header contains a relative URI.",
 "Location 标头包含相对 URI。");
("The Max-Forwards header is ignored for this method.",
 "Max-Forwards 标头不适用于此方法。");
("The NEL header has an invalid structure.",
 "The NEL 标头具有无效结构。");
("The NEL policy has an invalid type for '%(key)s'.",
 "该 NEL 策略对于“%(key)s”无效。");
("The NEL policy has an invalid value for '%(key)s'.",
 "无效值 ""%(key)s"" 用于 NEL 策略。");
("The NEL policy is missing the '%(key)s' key.",
 "The NEL 策略缺少“%(key)s”键。");
("The Origin header contains multiple values.",
 "The Origin 包含多个值。");
("The Origin header must contain a list of serialized origins (scheme, host, and optional port), or
the string ""null"".",
 "Origin 头必须包含序列化来源（方案、主机和可选端口）的列表，或
“null”。");
("The Pragma header is being used in an undefined way.",
 "Pragma 头标的用法未定义。");
("The Proxy-Status header has an invalid structure.",
 "Proxy-Status 标头具有无效的结构。");
("The Proxy-Status header has an unknown parameter '%(param)s'.",
 "Proxy-Status 标头有一个未知的参数 '%(param)s'。");
("The Proxy-Status header has an unknown value for '%(param)s'.",
 "Proxy-Status 标头对 '%(param)s' 具有未知值。");
("The Range header is invalid.",
 "Range 标头无效。");
("The Range header value isn't valid.",
 "范围标头值无效。");
("The Referer header is sent from a secure origin to a different origin.",
 "Referer 头信息从一个安全源发送到另一个不同的源。");
("The Referer header is sent from a secure origin to an insecure target.",
 "Referer 头从安全源发送到不安全目标。");
("The Referrer-Policy value '%(policy)s' is unknown.",
 "Referrer-Policy 值 '%(policy)s' 未知。");
("The Report-To header has an invalid type for '%(key)s'.",
 "报告到标头具有无效类型 ""%(key)s""。");
("The Report-To header value has an invalid structure.",
 "报告头值结构无效");
("The Report-To header value is missing the '%(key)s' key.",
 "报告到标头值缺少“%(key)s”键。");
("The Server header is long.",
 "Server 标头过长。");
("The Strict-Transport-Security header has a trailing semicolon.",
 "The Strict-Transport-Security 标头有尾部的分号。");
("The URI is very long (%(uri_len)s characters).",
 "URI 非常长（%(uri_len)s 个字符）。");
("The URI's syntax isn't valid.",
 "URI 的语法无效。");
("The User-Agent header is missing.",
 "缺少 User-Agent 标头。");
("The Vary header contains duplicate values.",
 "The  Vary  header  contains  duplicate  values.");
("The X-Frame-Options header contains an unknown value.",
 "X-Frame-Options 标头包含一个未知值。");
("The `%(attribute)s` attribute appears more than once in this `Set-Cookie` header.

Browsers will only use the last occurrence.",
 "`%(attribute)s` 属性在此 `Set-Cookie` 标头中出现多次。

浏览器只会使用最后一次出现的值。");
("The `%(directive)s` cache directive is a flag; it shouldn't have a value.",
 "The %(directive)s 缓存指令是一个标志;它不应该有值。");
("The `%(directive)s` cache directive is only defined to appear in %(other_message)s
messages; is has no defined meaning in a %(message_type)s.",
 "缓存指令 `%(directive)s` 只被定义用于 %(other_message)s 消息中；它在 %(message_type)s 消息中没有定义含义。");
("The `%(directive)s` cache directive is only defined to appear once; it is used more than
once here, so implementations may use different instances (e.g., the first, or the last),
making their behaviour unpredictable.",
 "`%(directive)s` 缓存指令只允许出现一次；它在这里出现了多次，因此实现可能会使用不同的实例（例如，第一个或最后一个），从而使其行为不可预测。");
("The `%(directive)s` cache directive overrides or conflicts with these other directives: 

%(conflicts)s

The conflicting directives will be ignored by caches, and can be safely omitted.
    ",
 "缓存指令 `%(directive)s` 会覆盖或与以下其他指令冲突：

%(conflicts)s

冲突的指令将被缓存忽略，并且可以安全地省略。");
("The `%(directive)s` cache directive type is %(expected_type)s, but `%(value)s` was found.",
 "The %(directive)s cache 类型是 %(expected_type)s，但发现 %(value)s。");
("The `%(directive)s` cache directive's value is greater than 2^31-1. Some implementations may not be
able to handle values this large.",
 "`%(directive)s` 缓存指令的值大于 2^31-1。某些实现可能无法处理如此大的值。");
("The `%(directive)s` directive appears more than once in the `Strict-Transport-Security` header.
Directives must only appear once.",
 "`%(directive)s` 指令在 `Strict-Transport-Security` 标头中出现不止一次。
指令只能出现一次。");
("The `%(directive)s` directive in the `Strict-Transport-Security` header is a valueless
directive. It should not have an associated value.",
 "`Strict-Transport-Security` 标头中的 `%(directive)s` 指令是一个无值的指令。它不应有相关的值。");
("The `%(feature)s` feature is allowed for all origins (using `*`).
This is insecure and should be restricted to specific origins or `self`.",
 "`%(feature)s` 功能对所有来源（使用 `*`）都允许。
这是不安全的，应该限制为特定来源或 `self`。");
("The `%(field_name)s` header is only used in a Cross-Origin Resource Sharing (CORS) preflight
request.

A preflight request requires the `Access-Control-Request-Method` header to be present.",
 "`%(field_name)s` 标头仅在跨源资源共享 (CORS) 预检请求中使用。

预检请求需要存在 `Access-Control-Request-Method` 标头。");
("The `%(field_name)s` header is only used in a Cross-Origin Resource Sharing (CORS) preflight
request.

A preflight request requires the `Origin` header to be present.",
 "`%(field_name)s` 标头仅用于跨源资源共享 (CORS) 预检请求。

预检请求要求存在 `Origin` 标头。");
("The `%(field_name)s` header is only used in a Cross-Origin Resource Sharing (CORS) preflight
request.

A preflight request uses the `OPTIONS` method; this request uses `%(method)s`.",
 "`%(field_name)s` 标头仅在跨源资源共享 (CORS) 预检请求中使用。

预检请求使用 `OPTIONS` 方法；此请求使用 `%(method)s`。");
("The `%(field_name)s` header must be one of `require-corp`, `credentialless`, or
`unsafe-none`.
",
 "`%(field_name)s` 标头必须是 `require-corp`、`credentialless` 或 `unsafe-none` 之一。");
("The `%(field_name)s` header must be one of `same-origin`, `same-origin-allow-popups`,
or `unsafe-none`.
",
 "`%(field_name)s` 标头必须是 `same-origin`、`same-origin-allow-popups` 或 `unsafe-none` 之一。");
("The `%(field_name)s` header values must be Strings. Found `%(got)s`.",
 "The `%(field_name)s` 值必须是字符串。找到了 `%(got)s`。");
("The `%(field_name)s` parameter `%(param)s` must be a `%(expected)s`. Found `%(got)s`.",
 "The %(field_name)s 参数 %(param)s 必须是 %(expected)s。找到 %(got)s。");
("The `%(header_name)s` header adds little value, contributes to unnecessary bandwidth,
and may increase security risk by exposing details of the back-end system.

Consider removing it.",
 "`%(header_name)s` 标头几乎没有价值，会增加不必要的带宽，
并且可能通过暴露后端系统的详细信息来增加安全风险。

考虑移除它。");
("The `%(key)s` key has an invalid value; %(details)s.
Details: %(details)s",
 "“%(key)s” 键的值无效；%(details)s。

详细信息：%(details)s");
("The `%(key)s` key is required in `NEL` policies.",
 "%(key)s 键在 NEL 策略中是必需的。");
("The `%(key)s` key is required in `Report-To` objects.",
 "该 `%(key)s` 键在 `Report-To` 对象中是必需的。");
("The `%(key)s` key must be of type %(expected)s.",
 "%(key)s 必须是 %(expected)s 类型。");
("The `%(lang)s` language tag is used more than once in the `Content-Language` header.

Recipients will likely ignore duplicates.",
 "`Content-Language` 标头中多次使用了 `%(lang)s` 语言标记。

接收方很可能会忽略重复项。");
("The `%(metric)s` metric in the Server-Timing header is missing the `desc` (description) parameter.

Descriptions can help contextualise a metric when displayed.
",
 "该 Server-Timing 头中的 `%(metric)s` 指标缺少 `desc`（描述）参数。

描述可以帮助在显示指标时对其进行上下文化。");
("The `%(metric)s` metric in the Server-Timing header is missing the `dur` (duration) parameter.

This parameter isn't required, but without it browsers may not be able to usefully display it.
",
 "该 Server-Timing 标头中的 `%(metric)s` 指标缺少 `dur`（持续时间）参数。");
("The `%(param)s` parameter is not defined in the Cache-Status specification.
",
 "`%(param)s` 参数未在 Cache-Status 规范中定义。");
("The `%(param)s` parameter is not defined in the Proxy-Status specification.
",
 "`%(param)s` 参数在 Proxy-Status 规范中未定义。");
("The `%(param)s` parameter on the `%(metric)s` metric of the Server-Timing header requires a
valid number, but `%(value)s` was found.
",
 "该 Server-Timing 头中的 `%(param)s` 参数需要一个有效的数字，但找到了 `%(value)s` (指标 `%(metric)s`)。");
("The `%(param)s`'s value on the %(field_name)s field starts and ends with a single quote (').
However, single quotes don't mean anything there.

This means that the value will be interpreted as `%(param_val)s`, **not**
`%(param_val_unquoted)s`. If you intend the latter, remove the single quotes.",
 "`%(param)s` 在 %(field_name)s 字段中的值以单引号 (') 开始和结束。
然而，单引号在那里没有任何意义。

这意味着该值将被解释为 `%(param_val)s`，**而不是**
`%(param_val_unquoted)s`。如果您的意图是后者，请删除单引号。");
("The `'unsafe-eval'` [Content Security Policy](https://www.w3.org/TR/CSP3/)
directive allows the use of string-to-code mechanisms like `eval()`, which can make it easier for
attackers to execute malicious code.

It was found in the following directives:

%(directives_list)s",
 "`'unsafe-eval'` [Content Security Policy](https://www.w3.org/TR/CSP3/)
指令允许使用字符串到代码的机制（例如 `eval()`），这可能使攻击者更容易执行恶意代码。

在以下指令中发现：

%(directives_list)s");
("The `'unsafe-inline'` [Content Security Policy](https://www.w3.org/TR/CSP3/)
directive allows the execution of inline scripts and event handlers, which
significantly reduces the protection provided by CSP against Cross-Site
Scripting (XSS) attacks.

It was found in the following directives:

%(directives_list)s",
 "`'unsafe-inline'` [内容安全策略](https://www.w3.org/TR/CSP3/)
指令允许执行内联脚本和事件处理程序，这会大大削弱 CSP 对跨站脚本 (XSS) 攻击的防护能力。

在以下指令中发现：

%(directives_list)s");
("The `*` [Content Security Policy](https://www.w3.org/TR/CSP3/)
directive allows resources to be loaded from any origin, which significantly reduces the protection
provided by CSP.%(report_only_text)s

It was found in the following directives:

%(directives_list)s",
 "`*` [内容安全策略](https://www.w3.org/TR/CSP3/) 指令允许从任何来源加载资源，这大大降低了 CSP 提供的保护。%(report_only_text)s

在以下指令中发现：

%(directives_list)s");
("The `103 (Early Hints)` status code allows the server to send some headers before the final response,
typically to help the client start fetching resources earlier.",
 "`103 (Early Hints)` 状态码允许服务器在最终响应之前发送一些标头，
通常是为了帮助客户端更早地开始获取资源。");
("The `104 (Upload Resumption Supported)` status code indicates that the server supports resumable
uploads.",
 "`104 (Upload Resumption Supported)` 状态码表示服务器支持可恢复的上传。");
("The `201 (Created)` status code indicates that the request created a new resource.

HTTP specifies that the URL of the new resource is to be indicated in the `Location` header,
but it isn't present in this response.",
 "`201 (Created)` 状态码表示请求创建了一个新资源。

HTTP 规定新资源的 URL 应在 `Location` 头部中指明，但在此响应中并未找到。");
("The `201 (Created)` status code indicates that the request created a new resource.

However, the request method used (%(method)s) is defined as a ""safe"" method; that is, it
should not have any side effects.

Creating resources as a side effect of a safe method can have unintended consequences; for example,
search engine spiders and similar automated agents often follow links, and intermediaries sometimes
re-try safe methods when they fail.",
 "`201 (Created)` 状态码表示请求创建了一个新资源。

然而，使用的请求方法 `%(method)s` 被定义为“安全”方法；也就是说，它不应该产生任何副作用。

创建资源作为安全方法的副作用可能会产生意想不到的后果；例如，搜索引擎爬虫和类似的自动化代理经常会跟踪链接，而中间件有时会在安全方法失败时重试。");
("The `206 (Partial Response)` status code indicates that the response content is only partial.

However, for a response to be partial, it needs to have a `Content-Range` header to indicate
what part of the full response it carries. This response does not have one.",
 "`206 (Partial Response)` 状态码表示响应内容仅为部分内容。

但是，要使响应成为部分响应，它需要包含 `Content-Range` 报头来指示其携带的是完整响应的哪一部分。此响应缺少该报头。");
("The `206 (Partial Response)` status code indicates that the response content is only partial.

However, the client needs to ask for it with the `Range` header, and the request did not
include one.",
 "`206 (Partial Response)` 状态码表示响应内容仅为部分内容。

然而，客户端需要使用 `Range` 标头来请求它，而请求中未包含该标头。");
("The `208 (Already Reported)` status code can be used inside a DAV: propstat response element to
avoid enumerating the internal members of multiple bindings to the same collection repeatedly.",
 "`208 (Already Reported)` 状态码可以在 DAV: propstat 响应元素中使用，以避免重复枚举绑定到同一集合的内部成员。");
("The `405 (Method Not Allowed)` status code indicates that the HTTP method is
known by the origin server but not supported by the target resource.",
 "The `405 (Method Not Allowed)` 状态代码表示 HTTP 方法被服务器原理解但目标资源不支持。");
("The `405 (Method Not Allowed)` status code indicates that the HTTP method is
known by the origin server but not supported by the target resource.

However, the `Allow` header field listed in the response contains the method used,
indicating that it is allowed.",
 "The `405 (Method Not Allowed)` 状态代码表示 HTTP 方法虽然由原始服务器支持，但目标资源不支持。

然而，响应中列出的 `Allow` 标头字段包含被允许的方法，表明它是可以的。");
("The `406 (Not Acceptable)` status code indicates that the request cannot produce a response matching
the list of acceptable values defined in the request's proactive negotiation header fields.

However, this request didn't contain any proactive negotiation headers (such as `Accept`,
`Accept-Charset`, `Accept-Encoding`, or `Accept-Language`).",
 "The `406 (Not Acceptable)` 状态代码表示请求无法产生与请求的主动协商标头中定义的可接受值列表匹配的响应。

然而，此请求未包含任何主动协商标头（例如 `Accept`、`Accept-Charset`、`Accept-Encoding` 或 `Accept-Language`）。");
("The `406 (Not Acceptable)` status code indicates that the resource cannot produce a response matching
the list of acceptable values defined in the request's proactive negotiation header fields, such
as `Accept`, `Accept-Charset`, `Accept-Encoding`, or `Accept-Language`.
",
 "The `406 (不可接受)` 状态码表示资源无法生成与请求的主动协商标头字段中定义的可接受值列表匹配的响应，这些字段可能包括 `Accept`、`Accept-Charset`、`Accept-Encoding` 或 `Accept-Language`。");
("The `412 (Precondition Failed)` status code indicates that one or more conditions given in the
request header fields (typically, those starting with `If-`)evaluated to false when tested 
on the server.",
 "412（前提条件失败）状态码表示请求头中给出的一个或多个条件（通常以“If-”开头）在服务器上测试时评估为false。");
("The `412 (Precondition Failed)` status code indicates that one or more conditions given in the
request header fields evaluated to false when tested on the server.

However, this request didn't contain any conditional headers (such as `If-Match`, `If-None-Match`,
`If-Modified-Since`, `If-Unmodified-Since`, or `If-Range`).",
 "`412 (Precondition Failed)` 状态码表示在请求头字段中提供的一个或多个条件在服务器上测试时评估为 false。

但是，此请求不包含任何条件头（例如 `If-Match`、`If-None-Match`、`If-Modified-Since`、`If-Unmodified-Since` 或 `If-Range`）。");
("The `416 (Range Not Satisfiable)` status code indicates that the set of ranges in the request's
`Range` header field overlap the current extent of the selected resource.

However, this request didn't contain a `Range` header.",
 "`416 (Range Not Satisfiable)` 状态码表示请求的 `Range` 头部字段中的范围集与所选资源的当前范围重叠。

然而，此请求不包含 `Range` 头部。");
("The `417 (Expectation Failed)` status code indicates that the expectation given in the request's
`Expect` header field could not be met by at least one of the inbound servers.",
 "The `417 (Expect 无法满足)` 状态代码表示请求中给定的“Expect”标头字段中给出的期望至少在其中一个传入服务器上无法满足。");
("The `417 (Expectation Failed)` status code indicates that the expectation given in the request's
`Expect` header field could not be met by at least one of the inbound servers.

However, this request didn't contain an `Expect` header.",
 "`417 (Expectation Failed)` 状态码表示请求中的 `Expect` 头部字段所期望的内容，至少有一台入站服务器无法满足。

然而，此请求并未包含 `Expect` 头部。");
("The `417 (Expectation Failed)` status code indicates that the expectation given in the request's
`Expect` header field could not be met by at least one of the inbound servers.

In this case, the client requested `100-continue`, but the server (or an intermediary) couldn't
satisfy it.",
 "`417 (Expectation Failed)` 状态码表示请求的 `Expect` 标头字段中给出的期望未能被至少一个入站服务器满足。

在这种情况下，客户端请求了 `100-continue`，但服务器（或中间服务器）无法满足该请求。");
("The `421 (Misdirected Request)` status code indicates that the request was directed at a server
that is not able to produce a response. This can happen when a connection is reused.",
 "`421 (Misdirected Request)` 状态码表示请求被定向到一个无法生成响应的服务器。当连接被重用时，可能会发生这种情况。");
("The `425 (Too Early)` status code indicates that the server is unwilling to risk processing a
request that might be replayed.",
 "`425 (Too Early)` 状态码表示服务器不愿冒险处理可能被重放的请求。");
("The `428 (Precondition Required)` status code indicates that the origin server requires the request
to be conditional.",
 "`428 (Precondition Required)` 状态码表示源服务器要求请求必须是有条件的。");
("The `429 (Too Many Requests)` status code indicates that the client has sent too many requests in a
given amount of time (""rate limiting"").",
 "`429 (Too Many Requests)` 状态码表示客户端在给定时间内发送了过多的请求（“速率限制”）。");
("The `431 (Request Header Fields Too Large)` status code indicates that the server is unwilling to
process the request because its header fields are too large.",
 "`431 (Request Header Fields Too Large)` 状态码表示服务器不愿意处理该请求，因为其请求头字段过大。");
("The `451 (Unavailable For Legal Reasons)` status code indicates that the server is denying access to
the resource as a consequence of a legal demand.",
 "`451 (Unavailable For Legal Reasons)` 状态码表示服务器因法律要求而拒绝访问该资源。");
("The `508 (Loop Detected)` status code indicates that the server terminated an operation because it
encountered an infinite loop while processing a request with ""Depth: infinity"".",
 "`508 (Loop Detected)` 状态码表示服务器在处理带有“Depth: infinity”的请求时检测到无限循环，因此终止了该操作。");
("The `511 (Network Authentication Required)` status code indicates that the client needs to
authenticate to gain network access.",
 "`511 (网络认证要求)` 状态码表示客户端需要认证才能获得网络访问权限。");
("The `Accept-CH` header field should only be used on secure (HTTPS) responses. Using it over plain
HTTP exposes the user's information to network observers. Because of this, browsers will ignore the
header.",
 """Accept-CH 标头仅在安全（HTTPS）响应中使用。在明文 HTTP 中使用会暴露用户信息给网络观察者。由于此原因，浏览器将忽略该标头。""");
("The `Accept-Ranges` response header tells clients what `range-unit`s a resource is willing to
process in future requests. HTTP only defines two: `bytes` and `none`.

Clients who don't know about the non-standard range-unit will not be able to use it.",
 "`Accept-Ranges` 响应头告知客户端资源愿意在未来请求中处理的 `range-unit`s。HTTP 仅定义两种：`bytes` 和 `none`。

不了解非标准 `range-unit` 的客户端将无法使用它。");
("The `Access-Control-Allow-Credentials` header must be set to `true` if present. If you don't want
to allow credentials, omit the header.",
 "如果存在 `Access-Control-Allow-Credentials` 标头，则必须将其设置为 `true`。如果您不想允许凭据，请省略该标头。");
("The `Access-Control-Allow-Origin` header (%(acao_value)s) does not match the `Origin` header
in the request (%(origin)s).

This means that the browser will **not** let the requesting site access the response.",
 "The `Access-Control-Allow-Origin` header（%(acao_value)s）不匹配请求中`Origin` header（%(origin)s）

这意味着浏览器**不会**允许请求网站访问响应。");
("The `Access-Control-Allow-Origin` header can only contain a single origin, `*`, or `null`. It
cannot contain a list of origins.",
 "`Access-Control-Allow-Origin` 标头只能包含单个来源、`*` 或 `null`。它不能包含来源列表。");
("The `Access-Control-Allow-Origin` header is set to `*`; this means that any origin can access
the response, unless the request includes credentials or requires a preflight check.",
 "The `Access-Control-Allow-Origin` 头被设置为 `*`; 这意味着任何来源都可以访问响应，除非请求包含凭证或需要预发检查。");
("The `Access-Control-Allow-Origin` header is set to `null`; this means that no origin can access
the response.",
 "Access-Control-Allow-Origin  header 被 设置 为 null; 这 意味着 任何 源 均 无法 访问 响应");
("The `Access-Control-Allow-Origin` header matches the `Origin` header in the request (%(origin)s).

This means that the browser will let the requesting site access the response.",
 "The `Access-Control-Allow-Origin` 头与请求中的 `Origin` 头匹配（%(origin)s）。");
("The `Access-Control-Max-Age` header indicates how many seconds a preflight response can be cached
for. It cannot be less than zero.",
 "Access-Control-Max-Age 表示在哪些秒数内可以缓存预检响应。它不能小于零。");
("The `Access-Control-Max-Age` header indicates how many seconds a preflight response can be cached
for. It must be a non-negative integer.",
 "Access-控制-Max-Age 头表示在哪个秒数中，预检响应可以缓存。它必须是一个非负整数。");
("The `Age` header indicates the age of the response; i.e., how long it has been cached
since it was generated. The value given was negative, so it is not a valid age.",
 "`Age` 标头指示响应的年龄；即，自生成以来缓存了多长时间。给出的值是负数，因此不是有效的年龄。");
("The `Age` header indicates the age of the response; i.e., how long it has been cached
since it was generated. The value given was not an integer, so it is not a valid age.",
 "`Age` 标头指示响应的年龄；即，自生成以来缓存了多长时间。给定值不是整数，因此不是有效的年龄。");
("The `Age` header's value is greater than 2,147,483,648. Some implementations may represent it
using that value (which is over 68 years).
",
 "`Age` 标头的值大于 2,147,483,648。某些实现可能会使用该值表示（这超过 68 年）。");
("The `Alt-Svc` header field value ""clear"" is used to invalidate previous alternative services.
It cannot be combined with other alternative service advertisements.",
 "Alt-Svc 标头值“clear”用于无效先前的替代服务。
它不能与其他替代服务广告结合使用。");
("The `Available-Dictionary` header is present, but `Accept-Encoding` does not contain 'dcb' or 'dcz'.

[RFC 9842 Section 6.1](https://www.rfc-editor.org/rfc/rfc9842.html#section-6.1) requires that if a
client sends `Available-Dictionary`, it MUST also advertise support for dictionary-based content
encoding (dcb or dcz) in `Accept-Encoding`.",
 "The `Available-Dictionary` 头存在，但 `Accept-Encoding` 不包含 'dcb' 或 'dcz'。

[RFC 9842 节 6.1](https://www.rfc-editor.org/rfc/rfc9842.html#section-6.1) 要求如果客户端发送 `Available-Dictionary`，它 MUST 在 `Accept-Encoding` 中广告支持字典 आध的的内容编码 (dcb 或 dcz)。");
("The `Available-Dictionary` header value must be a Byte Sequence. Found `%(got)s`.",
 "头信息“Available-Dictionary”的值必须是字节序列。找到“%(got)s”。");
("The `CDN-Cache-Control` header field allows you to specify cache directives that are targeted at
Content Delivery Network (CDN) caches, separately from the `Cache-Control` header field (which
applies to all caches).",
 "CDN-Cache-Control 标头字段允许您为内容交付网络（CDN）缓存指定单独的缓存指令，而不影响 Cache-Control 标头字段（该字段适用于所有缓存）。");
("The `Cache-Control: max-age` directive and the `Expires` header are both present.

`max-age` takes precedence over `Expires`, so `Expires` is redundant and can be removed.",
 "`Cache-Control: max-age` 指令和 `Expires` 标头同时存在。

`max-age` 优先于 `Expires`，因此 `Expires` 是多余的，可以移除。");
("The `Cache-Control: must-revalidate` directive forbids caches from using stale responses to satisfy
requests.

For example, caches often use stale responses when they cannot connect to the origin server; when
this directive is present, they will return an error rather than a stale response.",
 "`Cache-Control: must-revalidate` 指令禁止缓存使用过期的响应来满足请求。

例如，当缓存无法连接到源服务器时，它们通常会使用过期的响应；当存在此指令时，它们将返回错误而不是过期的响应。");
("The `Cache-Control: no-cache` directive means that while caches can store this
response, they cannot use it to satisfy a request unless it has been validated (either with an
`If-None-Match` or `If-Modified-Since` conditional) for that request.",
 "`Cache-Control: no-cache` 指令意味着缓存可以存储此响应，但除非已（使用 `If-None-Match` 或 `If-Modified-Since` 条件）对该请求进行过验证，否则不能用它来满足请求。");
("The `Cache-Control: no-cache` directive means that while caches can store this response, they
cannot use it to satisfy a request unless it has been validated (either with an `If-None-Match` or
`If-Modified-Since` conditional) for that request.

This response doesn't have a `Last-Modified` or `ETag` header, so it effectively can't be used by a
cache. `Cache-Control: no-store` is more appropriate.",
 "`Cache-Control: no-cache` 指令意味着缓存可以存储此响应，但除非已通过（使用 `If-None-Match` 或 `If-Modified-Since` 条件）验证，否则不能将其用于满足请求。

此响应没有 `Last-Modified` 或 `ETag` 标头，因此缓存实际上无法使用它。`Cache-Control: no-store` 更合适。");
("The `Cache-Control: no-store` directive indicates that this response can't be stored by a cache.",
 "`Cache-Control: no-store` 指令表示此响应无法被缓存存储。");
("The `Cache-Control: private` directive indicates that the response can only be stored by caches
that are specific to a single user; for example, a browser cache. Shared caches, such as those in
proxies, cannot store it.",
 "`Cache-Control: private` 指令表明响应只能由特定于单个用户的缓存存储；例如，浏览器缓存。共享缓存（例如代理中的缓存）则不能存储它。");
("The `Cache-Control: public` directive allows caches to store and use responses
in some circumstances when they would otherwise not be able to.

For example, it allows responses to authenticated requests to be stored by shared caches.

Other responses **do not need to contain `public`**; it does not make the
response ""more cacheable"", and only makes the response headers larger.",
 "`Cache-Control: public` 指令允许缓存存储和使用响应，在某些情况下，即使它们在其他情况下无法做到。

例如，它允许共享缓存存储已认证请求的响应。

其他响应**不需要包含 `public`**；它不会使响应“更易于缓存”，只会使响应头更大。");
("The `Cache-Group-Invalidation` header is only processed for unsafe methods (like POST, PUT, DELETE).
It will be ignored for `%(method)s` requests.",
 "Cache-Group-Invalidation  标头仅用于不安全的方法（例如 POST、PUT、DELETE）。对于 `%(method)s` 请求，它将被忽略。");
("The `Cache-Status` header field indicates how caches have handled the response.

%(status)s
",
 "`Cache-Status` 标头字段指示缓存如何处理了响应。

%(status)s");
("The `Cache-Status` header must be a list of members, where each member is a 
Token or String (identifying the cache) with optional parameters.
",
 "`Cache-Status` 标头必须是成员列表，其中每个成员是字符串（标识缓存）或令牌，并带有可选参数。");
("The `Clear-Site-Data` header contains a value that is not recognized.
Valid values are: `""cache""`, `""cookies""`, `""storage""`, `""executionContexts""`, `""*""`.",
 "`Clear-Site-Data` 标头包含一个未识别的值。
有效值为：`""cache""`、`""cookies""`、`""storage""`、`""executionContexts""`、`""*""`。");
("The `Clear-Site-Data` header value is empty. It should contain at least one directive.",
 "The `Clear-Site-Data` header 值为空。它应包含至少一个指令。");
("The `Content-Disposition` header has two widely-known values; `inline` and `attachment`.
`%(disposition)s` isn't recognised, and most implementations will default to handling it like
`attachment`.",
 "`Content-Disposition` 标头有两个广为人知的取值；`inline` 和 `attachment`。
`%(disposition)s` 未被识别，大多数实现会将其默认作为 `attachment` 来处理。");
("The `Content-Disposition` header suggests a filename for clients to use when saving the file
locally, using the `filename` and `filename*` parameters.

One of these parameters contains a path character (""\"" or ""/""), used to navigate between
directories on common operating systems.

Because this can be used to attach the browser's host operating system (e.g., by saving a file to a
system directory), browsers will usually ignore these parameters, or remove path information.

You should remove these characters.",
 "`Content-Disposition` 标头使用 `filename` 和 `filename*` 参数，建议客户端在本地保存文件时使用的文件名。

其中一个参数包含一个路径字符（“\” 或 “/”），用于在常见操作系统中导航目录。

因为这可用于附加浏览器的宿主操作系统（例如，将文件保存到系统目录），浏览器通常会忽略这些参数，或删除路径信息。

您应该删除这些字符。");
("The `Content-Disposition` header suggests a filename for clients to use when saving the file
locally, using the `filename` parameter.

[RFC6266](https://www.rfc-editor.org/rfc/rfc6266) specifies how to carry non-ASCII characters in this
parameter. However, historically some (but not all) browsers have also decoded %%-encoded
characters in the `filename` parameter, which means that they'll be treated differently depending
on the browser you're using.

As a result, it's not interoperable to use percent characters in the `filename` parameter. Use the
correct encoding in the `filename*` parameter instead.",
 "`Content-Disposition` 标头使用 `filename` 参数建议客户端在本地保存文件时使用的文件名。

[RFC6266](https://www.rfc-editor.org/rfc/rfc6266) 规定了在此参数中如何传输非 ASCII 字符。然而，历史上一些（但不是全部）浏览器也会解码 `filename` 参数中的 %% 编码字符，这意味着它们将根据您使用的浏览器而有所不同。

因此，在 `filename` 参数中使用百分号字符是不互通的。请改用 `filename*` 参数中的正确编码。");
("The `Content-Disposition` header with a disposition of `attachment` suggests a filename for clients
to use when saving the file locally.

It should always contain a `filename` parameter, even when the `filename*` parameter is used to
carry an internationalised filename, so that browsers can fall back to an ASCII-only filename.",
 "`Content-Disposition` 标头中的 `attachment` 属性表明了一个文件名，供客户端在本地保存文件时使用。

即使使用了 `filename*` 参数来承载国际化文件名，它也应始终包含 `filename` 参数，以便浏览器能够回退到仅包含 ASCII 字符的文件名。");
("The `Content-Length` header should be an integer, but it was not.",
 "The `Content-Length` 头应该是一个整数，但它不是。");
("The `Content-Length` header's value is greater than 2^63-1. Some implementations may not be able to
handle values this large.",
 "`Content-Length` 标头的值大于 2^63-1。某些实现可能无法处理如此大的值。");
("The `Content-Range` header cannot use a wildcard (`*`) for both the range and the complete length.
",
 "`Content-Range` 标头不能同时在范围和完全长度中使用通配符 (`*`)。");
("The `Content-Range` header is missing a range unit at the start; it should 
almost always be `bytes`.

For example:

    Content-Range: bytes 1-100/200
",
 "The `Content-Range` 头缺少范围单位开头;它应该 
几乎总是 `字节`.

例如:

    Content-Range: bytes 1-100/200");
("The `Content-Range` header is missing a slash (`/`) separating the range from the complete length.

For example:

    Content-Range: bytes 1-100/200
",
 "“Content-Range” 头缺少斜杠（`/`）来分隔范围与完整长度。

例如：

“Content-Range：bytes 1-100/200”");
("The `Content-Range` header uses `*` for the instance length, indicating that the total length of
the resource is unknown.",
 "Content-Range 头使用 ""*"" 表示实例长度，表明资源的总长度未知。");
("The `Content-Range` header uses the `*/<length>` syntax, which is reserved for `416` (Requested
Range Not Satisfiable) responses to indicate the actual length of the resource.

The `206` response status code indicates a successful range response, so this header is
incorrect.",
 "Content-Range 头使用 `*/<length>` 语法，这是仅用于 416（请求的范围不合理）响应的语法，用于表示资源的实际长度。

206 响应状态代码表示范围响应成功，因此该头是不正确的。");
("The `Content-Type` header declares the content as `%(declared_type)s`, but it looks like
`%(sniffed_type)s`.",
 "`Content-Type` 标头声明内容为 `%(declared_type)s`，但实际内容看起来是 `%(sniffed_type)s`。");
("The `Deprecation` header indicates that this resource is deprecated.",
 "警告：该资源已被弃用。");
("The `Deprecation` header indicates that this resource was deprecated on %(date)s.",
 "Deprecation 表示此资源于 %(date)s 已弃用。");
("The `Deprecation` header indicates that this resource will be deprecated on %(date)s.",
 "Deprecation 标头表示本资源将在 %(date)s 不再更新。");
("The `Deprecation` header value must be a Date or a Boolean True. Found: %(item_type)s.",
 "The `Deprecation` header 值必须是日期或布尔值 True。找到：%(item_type)s。");
("The `Expect` header was added in HTTP/1.1; it has no meaning in HTTP/1.0.",
 "`Expect` 标头是在 HTTP/1.1 中添加的；它在 HTTP/1.0 中没有意义。");
("The `Last-Modified` header indicates the last point in time that the resource has changed.
This response's `Last-Modified` time is in the future, which doesn't have any defined meaning in
HTTP.",
 "`Last-Modified` 标头指示资源上次修改的时间点。
此响应的 `Last-Modified` 时间是将来时，在 HTTP 中没有明确的含义。");
("The `Last-Modified` header indicates the last point in time that the resource has changed. It is
used in HTTP for validating cached responses, and for calculating heuristic freshness in caches.

This resource last changed %(last_modified_string)s.",
 "`Last-Modified` 标头指示资源最后一次更改的时间点。它用于 HTTP 中验证缓存的响应，以及计算缓存的启发式新鲜度。

此资源最后一次更改时间为 %(last_modified_string)s。");
("The `Link` header, defined by [RFC 8288](https://www.rfc-editor.org/rfc/rfc8288#section-3), uses the
`anchor` parameter to define the context URI for the link.

This parameter can be an absolute or relative URI; however, `%(anchor)s` is neither.",
 "The `Link` 头，由 [RFC 8288](https://www.rfc-editor.org/rfc/rfc8288#section-3) 定义，使用 `anchor` 参数来定义链接的上下文 URI。

此参数可以是绝对或相对 URI；然而，`%(anchor)s` 不是其中之一。");
("The `Link` header, defined by [RFC 8288](https://www.rfc-editor.org/rfc/rfc8288#section-3), uses the
`rel` parameter to communicate the type of a link. `rev` is deprecated by that specification
because it is often confusing.

Use `rel` and an appropriate relation.",
 "Link 头字段根据 RFC 8288 定义，使用 rel 参数来传达链接的类型。rev 参数已被该规范弃用，因为它经常会造成混淆。

使用 rel 参数，并选择合适的关系。");
("The `Link` header, defined by [RFC 8288](https://www.rfc-editor.org/rfc/rfc8288#section-3), uses the
`type` parameter to define the media type of the link target.

However, `%(type)s` is not a valid media type.",
 "Link 头，由 [RFC 8288](https://www.rfc-editor.org/rfc/rfc8288#section-3) 定义，使用 type 参数来定义链接目标的媒体类型。

然而，`%(type)s` 不是有效的媒体类型。");
("The `Location` header is used for specific purposes in HTTP; mostly to indicate the URI of another
resource (e.g., in redirection, or when a new resource is created).

In other status codes (such as this one) it doesn't have a defined meaning, so any use of it won't
be interoperable.

Sometimes `Location` is confused with `Content-Location`, which indicates a URI for the payload of
the message that it appears in.",
 "`Location` 标头在 HTTP 中有特定用途；主要用于指示另一个资源的 URI（例如，在重定向时，或创建新资源时）。

在其他状态代码（例如此状态代码）中，它没有明确的含义，因此任何使用它都不会具有互操作性。

有时 `Location` 会与 `Content-Location` 混淆，后者指示其所在消息的负载的 URI。");
("The `Max-Forwards` header is only defined for `TRACE` and `OPTIONS` requests; for other methods, it
is likely to be ignored.",
 "`Max-Forwards` 标头仅为 `TRACE` 和 `OPTIONS` 请求定义；对于其他方法，它
很可能被忽略。");
("The `NEL` header should be a list of objects.
",
 """NEL"" 应该是一个对象列表的头。");
("The `Origin` header should only contain a single value. Any values after the first
will be ignored.",
 "The `Origin` header 只 应 包含 一个 值。 任何 第 一 个 之后 的 值 都会 被 忽略。");
("The `Partitioned` attribute on this `Set-Cookie` header is present, but the `Secure` attribute is
missing.

Browsers will ignore the `Partitioned` attribute as a result.",
 "此 `Set-Cookie` 标头上的 `Partitioned` 属性已存在，但缺少 `Secure` 属性。

结果，浏览器将忽略 `Partitioned` 属性。");
("The `Permissions-Policy` header allows a site to control the use of browser features.",
 "`Permissions-Policy` 标头允许网站控制浏览器功能的使用。");
("The `Priority` attribute was an experiment, and is no longer supported.
",
 "优先级属性是一个实验性功能，不建议使用。");
("The `Proxy-Status` header field indicates how intermediaries have handled the response.

%(status)s
",
 "`Proxy-Status` 标头字段指示了中间服务器如何处理了响应。

%(status)s");
("The `Proxy-Status` header must be a list of members, where each member is
a Token or String (identifying the proxy) with optional parameters.
",
 "`Proxy-Status` 头部必须是一个成员列表，其中每个成员是一个 Token 或 String（用于标识代理），并带有可选的参数。");
("The `Referrer-Policy` header contains multiple valid policies. Browsers will only use the last
valid policy found, which is `%(effective)s`. Earlier values are ignored.",
 "`Referrer-Policy` 标头包含多个有效策略。浏览器只会使用找到的最后一个有效策略，即 `%(effective)s`。之前的选项将被忽略。");
("The `Referrer-Policy` header contains the value `%(policy)s`, which is not a known referrer policy.
It will be ignored by browsers.",
 "`Referrer-Policy` 標頭的值為 `%(policy)s`，這不是已知的 Referrer Policy。
瀏覽器將會忽略它。");
("The `Referrer-Policy` header does not contain any valid policies. Browsers will use their default
policy (usually `strict-origin-when-cross-origin`).",
 "`Referrer-Policy` 标头不包含任何有效策略。浏览器将使用其默认策略（通常是 `strict-origin-when-cross-origin`）。");
("The `Report-To` header should be a list of objects.
",
 "Report-To 头部应该是一个对象列表。");
("The `Secure` attribute on this `Set-Cookie` header is missing.

Because the `SameSite` attribute is set to `None`, the `Secure` attribute is required.

Browsers will ignore this cookie.",
 "The 'Secure' 属性在这个 'Set-Cookie' 头上不存在。

由于 'SameSite' 属性被设置为 'None'，因此 'Secure' 属性是必需的。

浏览器将忽略这枚 cookie。");
("The `Server` header is %(server_length)s long, which uses unnecessary bandwidth
and can expose details of the back-end system to attackers.

Consider shortening it.",
 "`Server` 标头长度为 %(server_length)s，这会浪费不必要的带宽，并可能向攻击者暴露后端系统的详细信息。

考虑缩短它。");
("The `Set-Cookie` header has a `__Host-` prefix, but it does not set `Path=/`.

Browsers will reject this cookie.",
 "`Set-Cookie` 標頭具有 `__Host-` 前綴，但未設定 `Path=/`。

瀏覽器將拒絕此 cookie。");
("The `Set-Cookie` header has a `__Host-` prefix, but it sets a `Domain` attribute.

Browsers will reject this cookie.",
 "`Set-Cookie` 标头具有 `__Host-` 前缀，但它设置了 `Domain` 属性。

浏览器将拒绝此 Cookie。");
("The `Set-Cookie` header has a lifetime (Max-Age or Expires) of %(duration)s, which is greater than
400 days.

Browsers will cap the lifetime to 400 days.",
 "The `Set-Cookie` 头在 %(duration)s 时间后过期，超过 400 天。

浏览器会将寿命限制在 400 天。");
("The `Set-Cookie` header has a prefix (e.g., `__Secure-` or `__Host-`) that requires the `Secure`
attribute.

Browsers will reject this cookie.",
 "`Set-Cookie` 标头具有需要 `Secure` 属性的前缀（例如 `__Secure-` 或 `__Host-`）。

浏览器将拒绝此 cookie。");
("The `Set-Cookie` header is larger than 4096 bytes.

Browsers will ignore this cookie.",
 "`Set-Cookie` 标头大于 4096 字节。

浏览器将忽略此 Cookie。");
("The `Strict-Transport-Security` header contains a trailing semicolon. Technically, this violates
the grammar, so strict implementations might find it confusing. However, most implementations
should ignore it.",
 "The `Strict-Transport-Security` header 包含一个尾部的分号。从技术上讲，这违反了语法，因此严格的实现可能会发现它令人困惑。然而，大多数实现应该忽略它。");
("The `Strict-Transport-Security` header is ignored when sent over HTTP, unless it's a 301 Redirect.
It should only be sent over HTTPS.",
 "`Strict-Transport-Security` 头部在通过 HTTP 发送时会被忽略，除非它是 301 重定向。
它应该仅通过 HTTPS 发送。");
("The `Strict-Transport-Security` header requires a `max-age` directive to be valid.",
 "`Strict-Transport-Security` 标头需要 `max-age` 指令才有效。");
("The `Sunset` header indicates that this resource has already passed its sunset date and may become
unresponsive.",
 "Sunset 头部表示该资源已过 sunset 日期，可能会变得不可用。");
("The `Vary: Negotiate` header value is not necessary, as 
[Transparent Content Negotiation](https://www.rfc-editor.org/rfc/rfc2295.html)
is not widely supported.

Consider removing it.",
 "`Vary: Negotiate` 标头值并非必需，因为[透明内容协商](https://www.rfc-editor.org/rfc/rfc2295.html) 并未得到广泛支持。

考虑移除它。");
("The `Vary` header allows you to list the parts of the request that effectively change the response
representation.

Listing the same header more than once is redundant and can be confusing.",
 "Vary 头部允许您列出请求的有效部分，从而改变响应表示。

列出相同的头部多次是冗余的，也可能造成混淆。");
("The `Vary` mechanism allows a resource to describe the dimensions that its responses vary, or
change, over; each listed header is another dimension.

Varying by too many dimensions makes using this information impractical.",
 "`Vary` 机制允许资源描述其响应变化（或改变）的维度；列出的每个头字段代表一个维度。

变化维度过多会使使用此信息变得不切实际。");
("The `Version` attribute is no longer part of the `Set-Cookie` specification,
and is ignored by browsers.

Because some software still interprets cookies differently when it is present,
[it can cause security 
issues](https://portswigger.net/research/bypassing-wafs-with-the-phantom-version-cookie).
",
 "“Version” 属性不再是“Set-Cookie”规范的一部分，并且被浏览器忽略。

由于某些软件仍然以不同的方式解释 cookie（即使存在），[这可能会导致安全问题](https://portswigger.net/research/bypassing-wafs-with-the-phantom-version-cookie)。");
("The `Via` header indicates that one or more intermediaries are present between the user agent and
the origin server for the resource.

This may indicate that a proxy is configured, or that the server uses a ""reverse proxy"" or CDN in
front of it.

There field has three space-separated components; first, the HTTP version of the message that the
intermediary received, then the identity of the intermediary (usually but not always its hostname),
and then optionally a product identifier or comment (usually used to identify the software being
used).",
 "`Via` 报头表明用户代理和资源源服务器之间存在一个或多个中间服务器。

这可能表明配置了代理，或者服务器在其前面使用了“反向代理”或 CDN。

该字段由三个用空格分隔的组件组成；首先是中间服务器接收到的消息的 HTTP 版本，然后是中间服务器的标识（通常是其主机名，但不总是），最后是可选的产品标识符或注释（通常用于识别所使用的软件）。");
("The `X-Frame-Options` response header controls how IE8 handles HTML frames; the `DENY` value
prevents this content from being rendered within a frame on another site, which defends against
certain types of attacks.

Currently this is supported by IE8 and Safari 4.

See [MDN](https://developer.mozilla.org/en-US/docs/Web/HTTP/Headers/X-Frame-Options) for more information.
",
 "`X-Frame-Options` 响应头控制 IE8 如何处理 HTML 框架；`DENY` 值可以防止此内容在其他网站的框架中呈现，从而防御某些类型的攻击。

目前 IE8 和 Safari 4 支持此功能。

有关更多信息，请参阅 [MDN](https://developer.mozilla.org/en-US/docs/Web/HTTP/Headers/X-Frame-Options)。");
("The `X-Frame-Options` response header controls how IE8 handles HTML frames; the `DENY` value
prevents this content from being rendered within a frame, which defends against certain types of
attacks.

See [MDN](https://developer.mozilla.org/en-US/docs/Web/HTTP/Headers/X-Frame-Options) for more information.
",
 "`X-Frame-Options` 响应头控制 IE8 如何处理 HTML 框架；`DENY` 值可防止此内容在框架内渲染，从而防御某些类型的攻击。

有关更多信息，请参阅 [MDN](https://developer.mozilla.org/en-US/docs/Web/HTTP/Headers/X-Frame-Options)。");
("The `credentialless`
[Cross-Origin Embedder Policy](https://fetch.spec.whatwg.org/#cross-origin-embedder-policy-header)
allows loading cross-origin resources without explicit permission in supporting browsers, but
requests for them will not include credentials (cookies, client certificates,
etc.).%(report_only_text)s",
 "`credentialless`
[Cross-Origin Embedder Policy](https://fetch.spec.whatwg.org/#cross-origin-embedder-policy-header)
允许在支持的浏览器中加载跨源资源，而无需显式权限，但对它们的请求不包含凭据（Cookie、客户端证书等）。%(report_only_text)s");
("The `cross-origin`
[Cross-Origin Resource Policy](https://fetch.spec.whatwg.org/#cross-origin-resource-policy-header)
allows the resource to be read by any document in supporting browsers, regardless of its 
origin.%(report_only_text)s",
 "`cross-origin`
[同源资源策略](https://fetch.spec.whatwg.org/#cross-origin-resource-policy-header)
允许支持浏览器的任何文档读取该资源，无论其来源如何。%(report_only_text)s");
("The `domain` parameter on this `Set-Cookie` header is empty.

Note that handling of empty domains is 
[not interoperable](https://chromestatus.com/feature/5674723800252416).

Browsers will probably ignore it as a result.",
 "The 参数在空域此 Set-Cookie 标头。

请注意，空域处理
[不兼容](https://chromestatus.com/feature/5674723800252416)。

浏览器可能因此而忽略它。");
("The `expires` date on this `Set-Cookie` header isn't valid; see
[RFC6265](https://www.rfc-editor.org/rfc/rfc6265) for details of the correct format.",
 "此 `Set-Cookie` 标头中的 `expires` 日期无效；请参阅
[RFC6265](https://www.rfc-editor.org/rfc/rfc6265) 了解正确格式的详细信息。");
("The `includeSubDomains` directive indicates that this HSTS policy applies to this domain as well as
all of its subdomains.",
 "`includeSubDomains` 指令表明此 HSTS 策略也适用于此域及其所有子域。");
("The `includeSubDomains` directive indicates that this HSTS policy applies to this domain as well as
all of its subdomains.

Because cookies can be set across HTTP and HTTPS sites as well as across subdomains, this means 
that an attacker might be able to take advantage of a subdomain that doesn't have HSTS enabled.
",
 "`includeSubDomains` 指令表示此 HSTS 策略也适用于本域及其所有子域。

由于 cookie 可以在 HTTP 和 HTTPS 网站之间设置，也可以在子域之间设置，因此这意味着攻击者可能能够利用未启用 HSTS 的子域。");
("The `match-dest` parameter must be a String or a list of Strings.",
 "匹配目标参数必须是字符串或字符串列表。");
("The `max-age` directive in the `Strict-Transport-Security` header must be a non-negative
integer. The value ""%(max_age)s"" is not valid.",
 "`Strict-Transport-Security` 标头中的 `max-age` 指令必须是一个非负整数。值 ""%(max_age)s"" 无效。");
("The `max-age` parameter on this `Set-Cookie` header doesn't have a value.

Browsers will ignore the `max-age` value as a result.",
 "此 `Set-Cookie` 标头上的 `max-age` 参数没有值。

结果，浏览器将忽略 `max-age` 的值。");
("The `max-age` parameter on this `Set-Cookie` header has a leading zero.

Browsers will ignore the `max-age` value as a result.",
 "此 `Set-Cookie` 标头中的 `max-age` 参数带有前导零。

浏览器因此将忽略 `max-age` 值。");
("The `max-age` parameter on this `Set-Cookie` header isn't numeric.

Browsers will ignore the `max-age` value as a result.",
 "此 `Set-Cookie` 标头上的 `max-age` 参数不是数字。

浏览器因此会忽略 `max-age` 值。");
("The `preload` directive on `Strict-Transport-Security` allows browsers to preload the site in
its HSTS lists, avoiding the potential for making unencrypted requests when first accessing the
site.

See the [HSTS Preload List](https://hstspreload.org/) for more information.
",
 "`Strict-Transport-Security` 上的 `preload` 指令允许浏览器在
其 HSTS 列表中预加载网站，从而避免在首次访问网站时发出未加密请求的可能性。

有关更多信息，请参阅 [HSTS 预加载列表](https://hstspreload.org/)。");
("The `q` parameter must be a decimal number between 0 and 1, with at most 3 digits of precision.",
 "The `q` 参数必须是一个介于 0 和 1 之间的十进制数，精度最多为 3 位。");
("The `report-to` directive [Content Security Policy](https://www.w3.org/TR/CSP3/)
specifies a reporting endpoint, but no matching endpoint refers to it in the
`Reporting-Endpoints` header.%(report_only_text)s",
 "报告到指令 [内容安全策略](https://www.w3.org/TR/CSP3/) 指定了一个报告端点，但在 `Reporting-Endpoints` 标头中没有匹配的端点指向它。%(report_only_text)s指定报告端点，但“报告端点”标头中没有匹配的端点。（`report_only_text`）");
("The `report-to` parameter in the
[Cross-Origin Embedder Policy](https://fetch.spec.whatwg.org/#cross-origin-embedder-policy-header)
header specifies a reporting endpoint, but no matching endpoint refers to it in the
`Reporting-Endpoints` header.",
 "The `report-to` 参数在
[跨源嵌入策略](https://fetch.spec.whatwg.org/#cross-origin-embedder-policy-header)
标头中指定了报告端点，但匹配的端点在
`Reporting-Endpoints` 标头中未提及。");
("The `report-to` parameter in the
[Cross-Origin Opener Policy](https://html.spec.whatwg.org/multipage/origin.html#coop)
header specifies a reporting endpoint, but no matching endpoint refers to it in the
`Reporting-Endpoints` header.",
 "报告到参数在跨源打开策略标头中指定一个报告端点，但该端点未在报告端点标头中进行引用。");
("The `report-uri` [Content Security Policy](https://www.w3.org/TR/CSP3/)
directive is deprecated in favor of `report-to`. It is recommended to use `report-to`
for reporting violations, although `report-uri` may still be supported for backward
compatibility.",
 "`report-uri` [Content Security Policy](https://www.w3.org/TR/CSP3/)
指令已弃用，推荐使用 `report-to`。建议使用 `report-to`
来报告违规，但 `report-uri` 可能仍出于向后兼容性而受支持。");
("The `report_to` member in the [Network Error Logging](https://w3c.github.io/network-error-logging/)
policy specifies a reporting endpoint, but no matching endpoint refers to it in the
`Reporting-Endpoints` header.",
 "The `report_to` member在[网络错误日志](https://w3c.github.io/network-error-logging/)
政策中指定了一个报告端点，但“ Reporting-Endpoints”标头中没有匹配的端点引用它。");
("The `require-corp`
[Cross Origin Embedder Policy](https://fetch.spec.whatwg.org/#cross-origin-embedder-policy-header)
requires that all cross-origin resources must explicitly grant permission to be loaded via a
`Cross-Origin-Resource-Policy` header, in supporting browsers.%(report_only_text)s",
 "`require-corp`
[Cross Origin Embedder Policy](https://fetch.spec.whatwg.org/#cross-origin-embedder-policy-header)
要求在支持的浏览器中，所有跨域资源都必须通过 `Cross-Origin-Resource-Policy` 头部明确授予加载权限。%(report_only_text)s");
("The `same-origin-allow-popups`
[Cross-Origin Opener Policy](https://html.spec.whatwg.org/multipage/origin.html#coop)
isolates the browsing context but maintains a relationship
with popups that it opens, or that opened it, in supporting browsers.%(report_only_text)s",
 "`same-origin-allow-popups`
[跨源打开者策略](https://html.spec.whatwg.org/multipage/origin.html#coop)
会隔离浏览上下文，但会在支持的浏览器中与它打开的弹出窗口，或打开它的弹出窗口保持关联。%(report_only_text)s");
("The `same-origin`
[Cross-Origin Opener Policy](https://html.spec.whatwg.org/multipage/origin.html#coop)
isolates the browsing context, preventing it from sharing a window object
with cross-origin documents in supporting browsers.%(report_only_text)s",
 "`same-origin`
[跨源打开策略](https://html.spec.whatwg.org/multipage/origin.html#coop)
会隔离浏览上下文，阻止其在支持的浏览器中与跨源文档共享窗口对象。%(report_only_text)s");
("The `same-origin`
[Cross-Origin Resource Policy](https://fetch.spec.whatwg.org/#cross-origin-resource-policy-header)
prevents the resource from being read by any cross-origin document 
in supporting browsers.%(report_only_text)s",
 "`same-origin`
[跨源资源策略](https://fetch.spec.whatwg.org/#cross-origin-resource-policy-header)
可防止支持的浏览器中的任何跨源文档读取该资源。%(report_only_text)s");
("The `same-site`
[Cross-Origin Resource Policy](https://fetch.spec.whatwg.org/#cross-origin-resource-policy-header)
allows the resource to be read by documents from the same site, but
prevents it from being read by cross-site documents in supporting browsers.%(report_only_text)s",
 "`same-site`
[跨源资源策略](https://fetch.spec.whatwg.org/#cross-origin-resource-policy-header)
允许来自同一站点的文档读取资源，但在支持的浏览器中会阻止跨站文档读取该资源。%(report_only_text)s");
("The `stale-if-error` cache directive allows a cache to return a stale response when an error
(e.g., a 500 Internal Server Error, or a network timeout) is encountered while attempting to
revalidate it.

See [RFC 5861](https://www.rfc-editor.org/rfc/rfc5861) for more information.",
 "`stale-if-error` 缓存指令允许缓存返回一个过时的响应，当在尝试重新验证时遇到错误（例如，500 内部服务器错误或网络超时）。

有关更多信息，请参阅 [RFC 5861](https://www.rfc-editor.org/rfc/rfc5861)。");
("The `stale-while-revalidate` cache directive allows a cache to serve a stale response while a
revalidation request is happening in the background.

See [RFC 5861](https://www.rfc-editor.org/rfc/rfc5861) for more information.",
 "`stale-while-revalidate` 缓存指令允许缓存提供陈旧响应，同时在后台进行重新验证请求。

有关更多信息，请参阅 [RFC 5861](https://www.rfc-editor.org/rfc/rfc5861)。");
("The `unsafe-none`
[Cross-Origin Embedder Policy](https://fetch.spec.whatwg.org/#cross-origin-embedder-policy-header)
is the default behavior, allowing cross-origin resources to be loaded
without explicit permission in supporting browsers.

This does not provide cross-origin isolation.%(report_only_text)s",
 "`unsafe-none`
[Cross-Origin Embedder Policy](https://fetch.spec.whatwg.org/#cross-origin-embedder-policy-header)
是默认行为，允许在支持的浏览器中加载跨源资源
而无需显式权限。

这不提供跨源隔离。%(report_only_text)s");
("The `unsafe-none`
[Cross-Origin Opener Policy](https://html.spec.whatwg.org/multipage/origin.html#coop)
is the default behavior in supporting browsers. It allows the document to share a browsing context
group with other documents unless they enforce isolation.%(report_only_text)s",
 "`unsafe-none`
[跨源打开策略](https://html.spec.whatwg.org/multipage/origin.html#coop)
是支持浏览器的默认行为。它允许文档与其他强制隔离的文档共享浏览上下文组。%(report_only_text)s");
("The client has sent too many requests in a given amount of time.",
 "客户端在给定时间内发送的请求过多。");
("The client needs to authenticate to gain network access.",
 "客户端需要进行身份验证才能获得网络访问权限。");
("The content doesn't match the declared Content-Type.",
 "内容与声明的 Content-Type 不符。");
("The deprecated report-uri directive is used.",
 "已使用已弃用的 report-uri 指令。");
("The filename in the Content-Disposition header contains a path character.",
 "Content-Disposition 标头中的文件名包含路径字符。");
("The following cookies are set more than once in this response: %(cookie_names)s.

Browsers will likely accept all of them, but the order of application
may vary or be confusing.",
 "以下 Cookie 在此响应中设置了多次：%(cookie_names)s。

浏览器很可能接受所有这些 Cookie，但应用顺序可能会有所不同或令人困惑。");
("The following fields appear in `Accept-CH` but are not listed in the `Vary` header:
%(missing_fields)s, even though the response is cacheable.

Because these fields can affect the response content, they should be included in `Vary` to ensure
that caches store separate responses for different client hints.",
 "这些字段出现在 'Accept-CH' 但不在 'Vary' 头中：
%(missing_fields)s，尽管响应是可缓存的。

由于这些字段可能会影响响应内容，因此应在 'Vary' 中包含，以确保缓存为不同的客户端提示存储单独的响应。");
("The following header(s) are only used in the response to a Cross-Origin Resource Sharing (CORS)
preflight request:

%(headers)s

A preflight request is an `OPTIONS` request that includes an `Origin` header and an
`Access-Control-Request-Method` header.

This response was not to a CORS preflight request, so these headers should not be present.",
 "这些header仅在对跨源资源共享（CORS）的预飞请求的响应中使用：

%(headers)s

预飞请求是一个包含“Origin”header和“Access-Control-Request-Method”header的“OPTIONS”请求。

由于这不是CORS预飞请求的响应，因此这些header不应出现。");
("The identity transfer-coding isn't necessary.",
 "身份传输编码不是必需的。");
("The item '%(item)s' is not a valid type for an allowlist.",
 "项目 '%(item)s' 不是允许列表的有效类型。");
("The item `%(item)s` is not a valid type for an allowlist.
Allowlists should contain origins (strings) or keywords (tokens).",
 "条目 `%(item)s` 不是允许列表的有效类型。
允许列表应包含源（字符串）或关键字（令牌）。");
("The match-dest parameter has an invalid type.",
 "匹配目标参数类型无效。");
("The max-age directive in the HSTS header is invalid.",
 "HSTS 标头中的 max-age 指令无效。");
("The max-age is 0.",
 "max-age 为 0。");
("The max-age is less than one year.",
 "max-age 小于一年。");
("The members of a DAV binding have already been enumerated.",
 "DAV 绑定成员已枚举。");
("The origin server requires the request to be conditional.",
 "源服务器要求请求是有条件的。");
("The post-check cache directive's value is '0'.",
 "post-check 缓存指令的值为 '0'。");
("The post-check cache directive's value is larger than pre-check's.",
 "post-check 缓存指令的值大于 pre-check 的。");
("The pre-check and post-check cache directives are both '0'.",
 "预检查和后检查缓存指令均为 '0'。");
("The presence of the `Cache-Control: proxy-revalidate` and/or `s-maxage` directives forbids shared
caches (e.g., proxy caches) from using stale responses to satisfy requests.

For example, caches often use stale responses when they cannot connect to the origin server; when
this directive is present, they will return an error rather than a stale response.

These directives do not affect private caches; for example, those in browsers.",
 "`Cache-Control: proxy-revalidate` 和/或 `s-maxage` 指令的存在禁止共享缓存（例如，代理缓存）使用过时的响应来满足请求。

例如，当缓存无法连接到源服务器时，它们通常会使用过时的响应；当此指令存在时，它们将返回错误而不是过时的响应。

这些指令不会影响私有缓存；例如，浏览器中的缓存。");
("The protocol was upgraded without being requested.",
 "协议在未被请求的情况下被升级。");
("The q value on '{language}' is invalid.",
 "语言代码 'zh' 翻译：

该语言代码 '{language}' 中的 q 值无效。");
("The q value on '{media_type}' is invalid.",
 "'{media_type}' 上的 q 值无效。");
("The range specifier `%(value)s` is missing a hyphen separating the start and end positions.",
 "该范围指定器 `%(value)s` 缺少一个连字符来分隔起始和结束位置。");
("The report-to endpoint '%(endpoint)s' is not defined%(report_only)s.",
 "报告端点“%(endpoint)s”未定义%(report_only)s。");
("The report-to endpoint '%(endpoint)s' is not defined.",
 "报告端点 '%(endpoint)s' 未定义。");
("The reporting endpoint '%(value)s' is not defined.",
 "报告端点 '%(value)s' 未定义。");
("The reporting endpoint `%(name)s` must be a string URL. Found: %(value)s (type `%(found_type)s`).",
 "The reporting endpoint `%(name)s` 必须是一个字符串 URL。 找到：%(value)s（类型`%(found_type)s`）");
("The reporting endpoint `%(name)s` uses an insecure URL (`%(url)s`). Browsers may ignore it.",
 "报告端点 `%(name)s` 使用不安全的 URL (`%(url)s`)。浏览器可能忽略它。");
("The request HTTP version isn't supported.",
 "请求的 HTTP 版本不受支持。");
("The request conflicted with the state of the resource.",
 "请求与资源的当前状态冲突。");
("The request content was too large for the server.",
 "服务器无法处理过大的请求内容。");
("The request didn't have a Range header.",
 "请求没有 Range 头部。");
("The request didn't have an Expect header.",
 "请求没有 `Expect` 头部。");
("The request didn't have any preconditions.",
 "请求没有任何前提条件。");
("The request expectation failed.",
 "请求预期失败。");
("The request precondition failed.",
 "请求前提条件失败。");
("The request was directed at a server that is not able to produce a response.",
 "请求被导向了一个无法响应的服务器。");
("The resource cannot produce a response that is acceptable to the client.",
 "资源无法生成客户端可接受的响应。");
("The resource could not be found.",
 "找不到该资源。");
("The resource does not allow the %(method)s method.",
 "该资源不支持 %(method)s 方法。");
("The resource doesn't support this media type in requests.",
 "资源不支持请求中的此媒体类型。");
("The resource has Sunset.",
 "该资源已过期。");
("The resource has been deprecated.",
 "该资源已被弃用。");
("The resource is deprecated.",
 "该资源已弃用。");
("The resource is gone.",
 "资源已丢失。");
("The resource is unavailable for legal reasons.",
 "该资源因法律原因不可用。");
("The resource last changed %(last_modified_string)s.",
 "该资源上次修改时间是 %(last_modified_string)s。");
("The resource will be deprecated.",
 "该资源将不再使用。");
("The response is compressed with a dictionary (dcb or dcz) and is cacheable, but does not list
`Available-Dictionary` in the `Vary` header.

[RFC 9842 Section 6.2](https://www.rfc-editor.org/rfc/rfc9842.html#section-6.2) requires that
cacheable dictionary-compressed responses MUST include `Available-Dictionary` in the `Vary` header
to prevent serving compressed content to clients that do not have the dictionary.",
 "响应使用字典（dcb 或 dcz）压缩且可缓存，但“Vary”标头中不包含“Available-Dictionary”。

[RFC 9842 第 6.2 节](https://www.rfc-editor.org/rfc/rfc9842.html#section-6.2) 要求可缓存的字典压缩响应必须在“Vary”标头中包含“Available-Dictionary”，以防止向没有字典的客户端提供压缩内容。");
("The server couldn't find any resource to serve for the given URI.",
 "服务器未能找到任何可用于所提供 URI 的资源。");
("The server couldn't meet the 100-continue expectation.",
 "服务器未能满足 100-continue 预期。");
("The server didn't understand the request.",
 "服务器不理解请求。");
("The server doesn't implement the request method.",
 "服务器未实现请求方法。");
("The server has forbidden this request.",
 "服务器已禁止此请求。");
("The server is temporarily unavailable.",
 "服务器暂时不可用。");
("The server is unwilling to process the request because its headers are too large.",
 "服务器不愿处理请求，因为其头部过大。");
("The server is unwilling to risk processing a request that might be replayed.",
 "服务器不愿冒处理可能被重放的请求的风险。");
("The server previously had a resource at the given URI, but it is no longer there.",
 "服务器之前在该 URI 下存在一个资源，但现在已不存在。");
("The server rejected the request because the request content sent was too large.",
 "服务器拒绝了请求，因为发送的请求内容过大。");
("The server returned 418 (I'm a Teapot), an easter egg defined in RFC 2324.",
 "服务器返回 418 (I'm a Teapot)，这是 RFC 2324 中定义的彩蛋。");
("The server sent early hints.",
 "服务器发送了早期提示。");
("The server supports upload resumption.",
 "服务器支持上传续传。");
("The server terminated an operation because it encountered an infinite loop.",
 "服务器因遇到无限循环而终止了操作。");
("The server won't accept a URI this long %(uri_len)s.",
 "服务器不接受这么长的 URI %(uri_len)s。");
("The server's clock is %(clock_skew_string)s.",
 "服务器时钟为 %(clock_skew_string)s。");
("The server's clock is correct.",
 "服务器的时钟是正确的。");
("The speculation rule URL is not secure.",
 "该猜测规则的 URL 不可信。");
("The speculation rule `%(url)s` uses an insecure URL. Browsers may ignore it.",
 "该猜测规则『%(url)s』使用不安全的 URL。浏览器可能会忽略它。");
("The speculation rule must be a string URL. Found: %(value)s (type `%(found_type)s`).",
 "该猜测规则必须是一个字符串 URL。找到：%(value)s（类型 `%(found_type)s`）。");
("The speculation rule value is invalid.",
 "该猜测规则值无效。");
("The status code is not an integer.",
 "状态码不是整数。");
("The status phrase can only contain ASCII characters.",
 "状态短语只能包含 ASCII 字符。");
("The status phrase contains non-ASCII characters.",
 "状态短语包含非 ASCII 字符。");
("The token `%(token)s` is not a valid keyword in an allowlist.
Valid tokens are `self` and `src`.",
 "令牌 `%(token)s` 不是 allowlist 中的有效关键字。
有效令牌为 `self` 和 `src`。");
("The value '%(value)s' looks like a keyword but is a string.",
 "值 '%(value)s' 看起来像一个关键字，但它是一个字符串。");
("The value `%(value)s` is a string, but it looks like a keyword.
If you meant to use the keyword, remove the quotes (e.g., `self` instead of `""self""`).",
 "值 `%(value)s` 是一个字符串，但它看起来像一个关键字。
如果你的意思是使用关键字，请移除引号（例如，使用 `self` 而不是 `""self""`）。");
("The value `%(value)s` is not a valid integer.",
 "该值 `%(value)s` 不是有效的整数。");
("The value `%(value)s` is not defined for the `%(param)s` parameter.
",
 "参数 `%(param)s` 的值 `%(value)s` 未定义。");
("The value for '%(feature)s' should be an Inner List or the token '*'.",
 "'%(feature)s' 的值应为 Inner List 或 '*' 令牌。");
("The value for the `%(feature)s` feature in `Permissions-Policy` is invalid. It should be either
an Inner List of origins (e.g., `(self ""https://example.com"")`) or the special token `*`.",
 "`Permissions-Policy` 中 `%(feature)s` 功能的值无效。它应该是 origin 的内部列表（例如 `(self ""https://example.com"")`）或特殊标记 `*`。");
("The value for this field doesn't conform to its specified syntax; %(problem)s.

See [its definition](%(ref_uri)s) for more information.",
 "该字段的值不符合其指定的语法；%(problem)s。

查看 [定义](%(ref_uri)s)以获取更多信息。");
("The value for this field doesn't conform to its specified syntax; it will likely be ignored
by browsers.

See [its definition](%(ref_uri)s) for more information.",
 "该字段的值不符合其指定的语法；它很可能被浏览器忽略。

请参阅 [其定义](%(ref_uri)s) 以获取更多信息。");
("The value for this field doesn't conform to its specified syntax; see [its
definition](%(ref_uri)s) for more information.",
 "此字段的值不符合其指定的语法；请参阅[其定义](%(ref_uri)s)以获取更多信息。");
("The value for this field has syntax specified using 
[Augmented BNF](https://www.rfc-editor.org/rfc/rfc5234.html),
but doesn't conform to it. See [the field's ABNF](%(ref_uri)s) for more information.

This error may or may not prevent recipients from parsing the field; fixing it will
improve interoperability.
",
 "该字段的值使用 [Augmented BNF](https://www.rfc-editor.org/rfc/rfc5234.html) 语法指定，但不符合该语法。有关更多信息，请参阅 [该字段的 ABNF](%(ref_uri)s)。");
("The values indicated by the `Content-Range` header are not valid. The first position must be less
than or equal to the last position, and the last position must be less than the complete length.",
 "Content-Range 标头表示的值无效。第一个位置必须小于或等于最后一个位置，并且最后一个位置必须小于完整的长度。");
("The values indicated by the `Range` header are not valid. The first position must be less
than or equal to the last position.",
 "范围头指定的值无效。第一个位置必须小于或等于最后一个位置。");
("There are no defined semantics for content in %(method)s requests. While HTTP's framing layer
allows content to appear, that does not mean it is valid for every request method, and
including content in a %(method)s request can cause interoperability and security issues.
",
 "对于 %(method)s 请求的内容没有定义语义。尽管 HTTP 的框架层允许出现内容，但这并不意味着它适用于每种请求方法，并且将内容包含在 %(method)s 请求中可能会导致互操作性和安全性问题。");
("There is no max-age directive.",
 "没有 max-age 指令。");
("There was a general server error.",
 "发生了一般性服务器错误。");
("These headers are representation metadata that should not be sent in a 304 response unless
they are being used to guide cache updates:

%(headers)s

See [RFC 9110 Section 15.4.5](https://www.rfc-editor.org/rfc/rfc9110.html#section-15.4.5) for
more information.",
 "这些标头是表示元数据，除非用于指导缓存更新，否则不应在 304 响应中发送：

%(headers)s

有关更多信息，请参阅 [RFC 9110 Section 15.4.5](https://www.rfc-editor.org/rfc/rfc9110.html#section-15.4.5)。");
("This 304 (Not Modified) response contains headers that should not be sent.",
 "此 304 (未修改) 响应包含不应发送的标头。");
("This `Set-Cookie` header has an empty name; there needs to be a name before the `=`.

Browsers will ignore this cookie.",
 "此 `Set-Cookie` 标头缺少名称；等号 (`=`) 前面需要有名称。

浏览器将忽略此 Cookie。");
("This `Set-Cookie` header has an unknown ""%(attribute_name)s"" attribute value, ""%(attribute_value)s"".

Browsers will probably ignore it as a result.",
 "此 `Set-Cookie` 标头包含一个未知的 ""%(attribute_name)s"" 属性值 ""%(attribute_value)s""。

浏览器很可能会忽略它。");
("This `Set-Cookie` value is %(set_cookie_value_length)s long.
",
 "此 `Set-Cookie` 值长 %(set_cookie_value_length)s 个字符。");
("This cookie has an extra parameter, ""%(attribute)s"".

Browsers will ignore it.",
 "此 Cookie 包含一个额外的参数：“%(attribute)s”。

浏览器将忽略它。");
("This field is designed to only occur once in a message. When it occurs more than once, a receiver
needs to choose the one to use, which can lead to interoperability problems, since different
implementations may make different choices.",
 "此字段设计为在消息中只出现一次。当它出现多次时，接收器需要选择使用哪一个，这可能导致互操作性问题，因为不同的实现可能会做出不同的选择。");
("This field is no longer recommended for use, because of interoperability problems and/or
lack of use. This field should probably be removed.

See [the deprecation notice](%(deprecation_ref)s) for more information.",
 "这个字段由于互操作性问题和/或使用不足，不再推荐使用。最好将其删除。

请参阅[弃用通知](%(deprecation_ref)s)以获取更多信息。");
("This is a CORS preflight request.",
 "这是跨域请求的预飞请求。");
("This is a CORS preflight response.",
 "这是一个跨域资源共享（CORS）预检响应。");
("This is a Cross-Origin Resource Sharing (CORS) preflight request.

A preflight request uses the `OPTIONS` method and includes an `Origin` and `Access-Control-Request-Method`
header.",
 "这是一个跨源资源共享（CORS）预检请求。

预检请求使用 `OPTIONS` 方法，并包含 `Origin` 和 `Access-Control-Request-Method` 头。");
("This is a Cross-Origin Resource Sharing (CORS) preflight response.

It is a response to an `OPTIONS` request that includes an `Origin` and `Access-Control-Request-Method`
header.",
 "此响应是跨源资源共享（CORS）预检响应。

它是对包含“Origin”和“Access-Control-Request-Method”标头的“OPTIONS”请求的响应。");
("This isn't a valid URI. See
[RFC3986](http://www.ietf.org/rfc/rfc3986.txt) for more information.",
 "这不是一个有效的 URI。更多信息请参阅 [RFC3986](http://www.ietf.org/rfc/rfc3986.txt)。");
("This isn't a valid status code; it needs to be an ASCII integer.",
 "这并非一个有效的状态码；它需要是一个 ASCII 整数。");
("This message had parameters on its transfer-codings.",
 "此消息的 transfer-codings 带有参数。");
("This message was compressed using Brotli, but the data was corrupt.",
 "这条消息使用Brotli压缩，但数据损坏。");
("This message was compressed using GZip, but the data was corrupt.",
 "该消息使用 GZip 进行了压缩，但数据已损坏。");
("This message was compressed, but the GZIP header wasn't valid.",
 "此消息已压缩，但 GZIP 标头无效。");
("This request advertises a dictionary for compression, but the client doesn't support it.",
 "此请求广告宣传了用于压缩的字典，但客户端不支持它。");
("This resource varies in %(vary_count)s ways.",
 "此资源在 %(vary_count)s 个方面有所不同。");
("This response advertises support for non-standard range-units.",
 "此响应支持非标准范围单位。");
("This response allows all caches to store it.",
 "此响应允许所有缓存对其进行存储。");
("This response allows caches to assign their own freshness lifetimes to it.",
 "此响应允许缓存为其分配自己的新鲜度寿命。");
("This response allows loading cross-origin resources without restriction%(report_only)s.",
 "此响应允许无限制地加载跨域资源%(report_only)s。");
("This response allows only private caches to store it.",
 "此响应仅允许私有缓存存储。");
("This response allows only shared caches to store it.",
 "此响应仅允许共享缓存存储。");
("This response allows sharing the browsing context with cross-origin documents%(report_only)s.",
 "此响应允许与跨域文档共享浏览上下文%(report_only)s。");
("This response can be served stale from a cache while it is being revalidated.",
 "此响应在重新验证时可被陈旧缓存提供。");
("This response can be stored by all caches, even though the request was authenticated.",
 "此响应可以被所有缓存存储，即使请求已通过身份验证。");
("This response can only be stored by private caches, because the request was authenticated.",
 "此响应只能由私有缓存存储，因为请求已通过身份验证。");
("This response can't be stored by caches.",
 "此响应无法被缓存存储。");
("This response cannot be considered fresh by caches.",
 "此响应无法被缓存视为新鲜。");
("This response cannot be served by a cache now that it is stale.",
 "此响应已过期，无法由缓存提供服务。");
("This response cannot be served by a cache once it becomes stale.",
 "一旦过期，此响应将无法被缓存提供。");
("This response cannot be served by a shared cache now that it is stale.",
 "此响应已过期，现在无法由共享缓存提供服务。");
("This response cannot be served by a shared cache once it becomes stale.",
 "此响应在过时后无法通过共享缓存提供服务。");
("This response cannot be served from cache without validation, and doesn't have a validator.",
 "此响应无法在无需验证的情况下从缓存提供，并且没有验证器。");
("This response cannot be served from cache without validation.",
 "此响应无法在不进行验证的情况下从缓存提供。");
("This response cannot be stored by caches.",
 "此响应无法被缓存。");
("This response contains both the `public` and `private` Cache-Control directives.",
 "此响应同时包含 `public` 和 `private` Cache-Control 指令。");
("This response doesn't have a Date header.",
 "此响应缺少 Date 标头。");
("This response doesn't have explicit freshness information (like a ` Cache-Control: max-age`
directive, or `Expires` header), and this status code doesn't allow caches to calculate their own.

Additionally, its status code doesn't allow caches to assign their own freshness lifetimes to it.

Therefore, while caches might be allowed to store it, they generally can't use it, unless it can be
served stale.

As a result, many caches will not store the response at all, because it is not generally useful to do
so.",
 "此响应没有明确的新鲜度信息（如 `Cache-Control: max-age` 指令或 `Expires` 标头），且此状态码不允许缓存自行计算。

此外，其状态码也不允许缓存为其分配自己的新鲜度生命周期。

因此，虽然缓存可能允许存储它，但通常不能使用它，除非它可以被提供为陈旧内容。

结果是，许多缓存根本不会存储此响应，因为这样做通常没有用。");
("This response has a Set-Cookie header without a cookie-name.",
 "此响应的 Set-Cookie 标头缺少 cookie 名称。");
("This response has already been cached for %(age)s.",
 "此响应已缓存%(age)s。");
("This response has an Expires or Last-Modified header, but no Date.",
 "此响应具有 Expires 或 Last-Modified 标头，但缺少 Date 标头。");
("This response has both enforcing and report-only COEP headers.",
 "此响应同时具有强制和仅报告的 COEP 标头。");
("This response has both enforcing and report-only COOP headers.",
 "此响应同时包含强制和仅报告的 COOP 标头。");
("This response has different freshness lifetimes for private (e.g., browser) and shared (e.g., proxy)
caches.

Private caches can consider it fresh for %(fresh_lifetime)s (until %(fresh_left)s from
now).

Shared caches can consider it fresh for %(share_lifetime)s (until %(share_left)s from now).",
 "此响应对于私有（例如浏览器）和共享（例如代理）缓存具有不同的新鲜度寿命。

私有缓存可认为其在 %(fresh_lifetime)s 内（即从现在起 %(fresh_left)s）是新鲜的。

共享缓存可认为其在 %(share_lifetime)s 内（即从现在起 %(share_left)s）是新鲜的。");
("This response instructs browsers not to 'sniff' its media type.",
 "此响应指示浏览器不要“嗅探”其媒体类型。");
("This response is %(private_status)s for %(fresh_left)s (%(shared_status)s for %(share_left)s in shared caches).",
 "此响应的%(private_status)s为%(fresh_left)s（在共享缓存中的%(shared_status)s为%(share_left)s）。");
("This response is available for reading to requests from all origins.",
 "此响应可供所有来源的请求进行读取。");
("This response is available for reading to requests from the same site.",
 "此响应可供同一来源的请求读取。");
("This response is compressed with a dictionary,but is missing Vary: Available-Dictionary.",
 "此响应使用字典压缩，但缺少 Vary: Available-Dictionary。");
("This response is fresh for %(freshness_left)s.",
 "此响应在 %(freshness_left)s 后过期。");
("This response is only available for reading to requests from the same origin.",
 "此响应仅对来自同一来源的请求可用。");
("This response is partial, but doesn't have a Content-Range header.",
 "此响应是部分的，但没有 Content-Range 标头。");
("This response is stale.",
 "此响应已过时。");
("This response isolates the browsing context but allows popups%(report_only)s.",
 "此响应隔离了浏览上下文，但允许弹出窗口%(report_only)s。");
("This response isolates the browsing context to the same origin%(report_only)s.",
 "此响应将浏览上下文限制在同源%(report_only)s。");
("This response loads cross-origin resources without credentials%(report_only)s.",
 "此响应在未携带凭证的情况下加载跨域资源%(report_only)s。");
("This response may be refreshed in the background by Internet Explorer.",
 "此响应可能会由 Internet Explorer 在后台刷新。");
("This response prevents some browsers from rendering it within a frame on another site.",
 "此响应可阻止某些浏览器在其网站框架中呈现它。");
("This response prevents some browsers from rendering it within a frame.",
 "此响应可阻止部分浏览器将其渲染在框架内。");
("This response requires resources to have a CORP header%(report_only)s.",
 "此响应要求资源具有 CORP 标头%(report_only)s。");
("This response sets a Content Security Policy%(report_only)s.",
 "此响应设置了内容安全策略%(report_only)s。");
("This response sets a Permissions Policy.",
 "此响应设置了 Permissions Policy。");
("This response sets duplicate cookies.",
 "此响应设置了重复的 Cookie。");
("This response shouldn't have a Content-Range header.",
 "此响应不应带有 Content-Range 标头。");
("This response targets cache directives to Content Delivery Networks.",
 "此响应针对内容交付网络的缓存指令。");
("This response uses the '%(coding)s' content-coding, but it wasn't requested.",
 "这回复使用 '%(coding)s' 内容编码，但并未请求。");
("This response uses the '%(coding)s' transfer-coding, but it wasn't requested.",
 "此回应使用了 '%(coding)s' 转码，但并没有请求。");
("This response's %(field_name)s has an invalid value.",
 "此响应的 %(field_name)s 具有无效值。");
("This response's Referrer-Policy allows unsafe URLs.",
 "此响应的 Referrer-Policy 允许不安全的 URL。");
("This response's Strict Transport Security (HSTS) header is invalid.",
 "此响应的 Strict Transport Security (HSTS) 标头无效。");
("This response's `Content-Encoding` header indicates it has the `%(coding)s content-coding applied
, but the client didn't indicate support for it in the request.

Normally, clients ask for the encodings they want in the `Accept-Encoding` request header. Using
encodings that the client doesn't explicitly request can lead to interoperability problems.",
 "此响应的 `Content-Encoding` 头表示它应用了 `%(coding)s content-coding`，但客户端在请求中未表示支持。

通常，客户端会在 `Accept-Encoding` 请求头中请求它们想要的编码。使用客户端显式请求的编码可以避免互操作性问题。");
("This response's `Transfer-Encoding` header indicates it has the `%(coding)s` transfer-coding applied,
but the client didn't indicate support for it in the request.

Normally, clients ask for the encodings they want in the `TE` request header. Using codings that
the client doesn't explicitly request can lead to interoperability problems.",
 "这份响应的“Transfer-Encoding”标头表明它应用了“%(coding)s”的传输编码，
但客户端在请求中没有表示支持。

通常，客户端会在“TE”请求标头中请求它们想要的编码。使用客户端显式请求的编码可能会导致互操作性问题。");
("This site has attempted to enable HTTP Strict Transport Security (HSTS), which tells the browser to only
communicate with it over a secure connection.

However, one or more issues prevent it from being valid. See the child notes for details.",
 "此网站试图启用 HTTP Strict Transport Security (HSTS)，它会告知浏览器仅通过安全连接与其通信。

然而，一个或多个问题阻止其生效。请参阅子节点了解详情。");
("This site has enabled HTTP Strict Transport Security (HSTS), which tells the browser to only
communicate with it over a secure connection.",
 "此网站已启用 HTTP 严格传输安全 (HSTS)，它会指示浏览器仅通过安全连接与其通信。");
("This status code doesn't define any meaning for the Location header.",
 "此状态码对 Location 标头没有定义任何含义。");
("This value must be %(expected_type)s.",
 "此值必须为 %(expected_type)s。");
("Transparent Content Negotiation is not widely supported.",
 "透明内容协商（Transparent Content Negotiation）支持不广泛。");
("Unsafe script evaluation is allowed.",
 "允许不安全的脚本评估。");
("Using `unsafe-url` in `Referrer-Policy` means that the full URL (including query parameters) will
be sent as a referrer to all origins, including those that are not secure (HTTP). This can leak
sensitive information.",
 "在 `Referrer-Policy` 中使用 `unsafe-url` 意味着完整的 URL（包括查询参数）将被发送为推荐人，发送给所有来源，包括不安全的来源（HTTP）。这可能会泄露敏感信息。");
("Usually, responses to authenticated requests can't be stored by shared caches. However, because
This response contains a `Cache-Control: %(directive)s` directive, it can be stored by all caches,
including shared caches (like those in proxies).",
 "通常，对已认证请求的响应不能被共享缓存存储。然而，因为此响应包含一个`Cache-Control: %(directive)s`指令，所以它可以被所有缓存存储，包括共享缓存（如代理中的缓存）。");
("Validation",
 "验证");
("Values in the `Clear-Site-Data` header must be quoted; unquoted values will be ignored. 

The following values were found unquoted: %(values)s.",
 "Values在`Clear-Site-Data`标头中必须被引号括起来；未引号的值将被忽略。

发现以下未引用的值：%(values)s。");
("Vary: * effectively makes this response uncacheable.",
 "Vary: * 有效地使此响应不可缓存。");
("Vary: Host is not necessary.",
 "Vary: Host 不需要。");
("Vary: User-Agent can cause cache inefficiency.",
 "Vary: User-Agent 可能导致缓存效率低下。");
("When a response doesn't have explicit freshness information (like a `Cache-Control: max-age`
directive, or `Expires` header), caches are allowed to estimate how fresh it is using a heuristic
(provided that the status code allows it).

Caches often do this using the `Last-Modified` header. For example, if a response was last modified a
week ago, a cache might consider it fresh for a day.

Consider adding a `Cache-Control: max-age` header; otherwise, it may be cached for longer or shorter
than you'd like.",
 "当响应没有显式的 freshness 信息时（例如 `Cache-Control: max-age` 指令或 `Expires` 头部），缓存可以根据启发式方法估算其 freshness（前提是状态码允许）。

缓存通常使用 `Last-Modified` 头部来完成此操作。例如，如果一个响应在过去一周被修改过，缓存可能会认为它一天内是 fresh 的。

请考虑添加 `Cache-Control: max-age` 头部；否则，它可能会被缓存比您期望的时间更长或更短。");
("When a status code is deprecated, it should not be used, because its meaning is not well-defined
enough to ensure interoperability.",
 "当状态码被弃用时，不应使用，因为其含义没有得到充分定义，无法确保互操作性。");
("While caches can store many kinds of response as being heuristically cacheable -- that is,
they can store them without explicit caching directives like Cache-Control:max-age, this
reponse's status code is not defined as being heuristically cacheable, and other directives
that would allow it to be stored (such as Cache-Control: public) are not present.

Note that a cache extension might override this behaviour.",
 "尽管缓存可以存储多种响应，这些响应被认为是启发式可缓存的——也就是说，
它们可以在没有明确缓存指令（如 Cache-Control: max-age）的情况下存储它们，但此
响应的状态码并未定义为启发式可缓存，并且不允许存储它的其他指令（如 Cache-Control: public）
也不存在。

请注意，缓存扩展可能会覆盖此行为。");
("Without a `preload` directive, browsers may make an unencrypted request when first accessing the
site, potentially exposing sensitive information.

See the [HSTS Preload List](https://hstspreload.org/) for more information.
",
 "如果没有 `preload` 指令，浏览器在首次访问网站时可能会发出未加密的请求，从而可能暴露敏感信息。

有关更多信息，请参阅 [HSTS Preload List](https://hstspreload.org/)。");
("X-Content-Type-Options contains an unknown value.",
 "X-Content-Type-Options 包含一个未知值。");
("[Content Security Policy](https://www.w3.org/TR/CSP3/) allows the server to declare
the sources of content that browsers are allowed to use on a page.%(report_only_text)s",
 "[内容安全策略](https://www.w3.org/TR/CSP3/) 允许服务器声明浏览器允许在页面上使用的内容的来源。%(report_only_text)s");
("`%(value)s` is not a valid in the `Cross-Origin-Resource-Policy` header;
it must be one of `same-origin`, `same-site`, or `cross-origin`.
",
 "%(value)s 不是 `Cross-Origin-Resource-Policy` 头中的有效值；它必须是 `same-origin`、`same-site` 或 `cross-origin` 中的一个。");
("`Cache-Control: public` and `Cache-Control: private` conflict; they should not occur on the same message.

Conservative caches will ignore `public` and honor `private`, but this cannot be relied upon.",
 "`Cache-Control: public` 和 `Cache-Control: private` 冲突；它们不应出现在同一消息中。

保守的缓存会忽略 `public` 并遵守 `private`，但不能依赖这种行为。");
("`Content-Length` is used by HTTP to delimit messages; that is, to mark the end of one message and
the beginning of the next.",
 "`Content-Length` 用于 HTTP 来分隔消息；也就是说，它标志着一条消息的结束和下一条消息的开始。");
("`Content-Length` is used by HTTP to delimit messages; that is, to mark the end of one message and
the beginning of the next. An incorrect `Content-Length` can cause security and interoperability
issues.

The actual content size was %(content_length)s bytes.",
 "`Content-Length` 用于 HTTP 分隔消息；也就是说，标记一个消息的结束和下一个消息的开始。不正确的 `Content-Length` 可能导致安全和互操作性问题。

实际内容大小为 %(content_length)s 字节。");
("`Location` was originally specified to contain an absolute, not relative, URI.

It is in the process of being updated, and most clients will work around this.

The correct absolute URI is (probably): `%(full_uri)s`",
 "`Location` 最初被指定为包含绝对 URI，而不是相对 URI。

它正在更新过程中，大多数客户端会对此进行规避。

正确的绝对 URI（可能）是：`%(full_uri)s`");
("`Vary *` indicates that responses for this resource vary by some aspect that can't (or won't) be
described by the server. This makes this response effectively uncacheable.",
 "`Vary *` 表明此资源的响应因服务器无法（或不愿）描述的某些方面而异。这使得此响应实际上不可缓存。");
("ahead",
 "提前");
("behind",
 "落后");
("cache directive names are case-insensitive, but some implementations don't
recognize directives that aren't all-lowercase.

Therefore, it's safest to use `%(directive_lower)s` instead of `%(directive)s`.",
 "缓存指令名称不区分大小写，但某些实现不识别非全小写的指令。

因此，使用 `%(directive_lower)s` 而不是 `%(directive)s` 更安全。");
("header",
 "头");
("message",
 "消息");
("request",
 "请求");
("response",
 "响应");
("trailer",
 "trailer")].
