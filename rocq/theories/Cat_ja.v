(** GENERATED by tools/gencat.py from /repo/httplint/translations/ja/LC_MESSAGES/messages.mo: do not edit.
    Every (message, translation) pair of the catalogue, as UTF-8 text. *)
From Coq Require Import String List.
Import ListNotations.
Local Open Scope string_scope.
Definition catalogue : list (string * string) := [
("",
 "Project-Id-Version: PROJECT VERSION
Report-Msgid-Bugs-To: EMAIL@ADDRESS
POT-Creation-Date: 2026-01-18 17:17+1100
PO-Revision-Date: 2025-12-02 12:04+1100
Last-Translator: FULL NAME <EMAIL@ADDRESS>
Language: ja
Language-Team: ja <LL@li.org>
Plural-Forms: nplurals=1; plural=0;
MIME-Version: 1.0
Content-Type: text/plain; charset=utf-8
Content-Transfer-Encoding: 8bit
Generated-By: Babel 2.17.0
");
("""%(field_name)s"" is not a valid field name.",
 "「%(field_name)s」は、有効なフィールド名ではありません。");
("""%(field_name)s"" isn't valid in a request.",
 """%(field_name)s"" はリクエストでは有効ではありません。");
("""%(field_name)s"" isn't valid in a response.",
 "%(field_name)s はレスポンスでは有効な値ではありません");
("%(message)s can not have content.",
 "%(message)s にはコンテンツを含めることができません。");
("%(method)s is not allowed, but the resource lists it in Allow.",
 "%(method)s は許可されていませんが、リソースは Allow でリストされています。");
("%(status)s is not a standard HTTP status code.",
 "%(status)s は標準的な HTTP ステータスコードではありません。");
("%(value)s is not a valid origin.",
 "%(value)s は有効な起源ではありません。");
("'%(token)s' is not valid in an allowlist.",
 "「%(token)s」は許可リストで無効です。");
("304 (Not Modified) responses need to have a Date header.",
 "304 (Not Modified) レスポンスには Date ヘッダーが必要です。");
("A 100 (Continue) response was sent when it wasn't asked for.",
 "100 (Continue) レスポンスは、要求されていないのに送信されました。");
("A HTTP response is stale when its age (here, %(current_age)s) is equal to or exceeds
its freshness lifetime (in this case, %(freshness_lifetime)s).

There are a few reasons why a cache might serve a stale response:

* HTTP allows stale responses to be used to satisfy requests in exceptional circumstances;
e.g., when they lose contact with the origin server. This is subject to a number of requirements.
* Response directives like `stale-if-error` and `stale-while-revalidate` explicitly allow stale
  responses to be used in particular circumstances.
* Some caches are configured to ignore the response's freshness directives.",
 "HTTP レスポンスは、その Age（ここでは %(current_age)s）が Freshness Lifetime（この場合は %(freshness_lifetime)s）に等しいか、それを超えた場合に Stale（古くなった）とみなされます。

キャッシュが Stale なレスポンスを提供するのには、いくつかの理由があります。

* HTTP は、例外的な状況下で Stale なレスポンスを使用してリクエストを満たすことを許可しています。例として、オリジンサーバーとの連絡が途絶えた場合などです。これにはいくつかの要件が伴います。
* `stale-if-error` や `stale-while-revalidate` のようなレスポンスディレクティブは、特定の状況下で Stale なレスポンスの使用を明示的に許可しています。
* 一部のキャッシュは、レスポンスの Freshness ディレクティブを無視するように設定されています。");
("A `max-age` of 0 tells the browser to expire the `Strict-Transport-Security` policy immediately,
effectively disabling it.",
 "`max-age` を 0 にすると、ブラウザは `Strict-Transport-Security` ポリシーを直ちに無効にし、事実上無効化します。");
("A cache can store this response; it may or may not be able to use it to satisfy a particular
request.",
 "このレスポンスはキャッシュに保存できます。特定の要求を満たすために使用できる場合もあれば、そうでない場合もあります。");
("A new resource was created in response to a safe request.",
 "安全なリクエストへの応答として、新しいリソースが作成されました。");
("A new resource was created without its location being sent.",
 "新しいリソースが、その場所（Locationヘッダー）なしで作成されました。");
("A partial response was sent when it wasn't requested.",
 "一部のレスポンスが、要求されていないのに送信されました。");
("A response can be considered fresh when its age (here, %(current_age)s) is less than its freshness
lifetime (in this case, %(freshness_lifetime)s).",
 "レスポンスの年齢（ここでは %(current_age)s）がフレッシュネスの有効期間（この場合は %(freshness_lifetime)s）よりも短い場合、そのレスポンスはフレッシュであると見なすことができます。");
("A response should not have both `Cross-Origin-Embedder-Policy` and
`Cross-Origin-Embedder-Policy-Report-Only` headers. The report-only header will be ignored.",
 "`Cross-Origin-Embedder-Policy` ヘッダーと `Cross-Origin-Embedder-Policy-Report-Only` ヘッダーの両方をレスポンスに含めるべきではありません。レポート専用ヘッダーは無視されます。");
("A response should not have both `Cross-Origin-Opener-Policy` and
`Cross-Origin-Opener-Policy-Report-Only` headers. The report-only header will be ignored.",
 "`Cross-Origin-Opener-Policy` ヘッダーと `Cross-Origin-Opener-Policy-Report-Only` ヘッダーの両方をレスポンスに含めることはできません。レポート専用ヘッダーは無視されます。");
("A shared cache can store this response; it may or may not be able to use it to satisfy a
particular request.

Private caches cannot store it, because there is no explicit freshness information
(such as Cache-Control: max-age), and the status code is not heuristically cacheable.

Note that a cache extension might override this behaviour.",
 "共有キャッシュはこのレスポンスを保存できますが、特定の要求を満たすために使用できるかどうかは保証されません。

プライベートキャッシュは、明示的な鮮度情報（Cache-Control: max-ageなど）がなく、ステータスコードが推論でキャッシュ可能ではないため、これを保存できません。

キャッシュ拡張機能がこの動作を上書きする可能性があることに注意してください。");
("Accept-CH is ignored over plain HTTP.",
 "Accept-CH は平文の HTTP で無視されます。");
("Accept-CH lists fields that are missing from Vary.",
 "Accept-CH で指定されたフィールドが Vary ヘッダーで指定されていません。");
("Access-Control-Allow-Credentials must be 'true'.",
 "Access-Control-Allow-Credentials は 'true' である必要があります。");
("Access-Control-Allow-Origin should not have multiple values.",
 "Access-Control-Allow-Origin には複数の値を持たせるべきではありません。");
("Access-Control-Max-Age must be an integer.",
 "Access-Control-Max-Age は整数でなければなりません。");
("Access-Control-Max-Age must be non-negative.",
 "Access-Control-Max-Age は非負でなければなりません。");
("All sources are allowed in one or more directives.",
 "すべてのソースは、1つ以上のディレクティブで許可されます。");
("Allowing `http:` sources in `%(field_name)s` can allow attackers to intercept and modify
content loaded by the page, potentially bypassing security controls.

It was found in the following directives:

%(directives_list)s",
 "`%(field_name)s` で `http:` ソースを許可すると、攻撃者がページで読み込まれるコンテンツを傍受および変更できるようになり、セキュリティ制御を回避できる可能性があります。

以下のディレクティブで見つかりました:

%(directives_list)s");
("Although HTTP allows a server not to send a `Date` header in responses if it doesn't have a local
clock, this can make calculation of a stored response's age inexact.",
 "HTTPは、サーバーがローカルクロックを持っていない場合にレスポンスで`Date`ヘッダーを送信しないことを許可していますが、これにより保存されたレスポンスの経過時間を不正確に計算する可能性があります。");
("An intermediary encountered an error.",
 "中間サーバーでエラーが発生しました。");
("An intermediary timed out.",
 "中間サーバーがタイムアウトしました。");
("Because both the `Expires` and `Last-Modified` headers are date-based, it's necessary to send when
the message was generated in `Date` for them to be useful; otherwise, clock drift, transit times
between nodes as well as caching could skew their application.",
 "`Expires` および `Last-Modified` ヘッダーはどちらも日付ベースであるため、それらが有用であるためには `Date` ヘッダーでメッセージが生成された時刻を送信する必要があります。そうしないと、クロックドリフト、ノード間の転送時間、キャッシュなどがそれらを歪める可能性があります。");
("Because the request was authenticated and this response doesn't contain a `Cache-Control: public`
directive, this response can only be stored by caches that are specific to a single user; for
example, a browser cache. Shared caches, such as those in proxies, cannot store it.",
 "リクエストは認証済みであり、このレスポンスに `Cache-Control: public` ディレクティブが含まれていないため、このレスポンスは単一ユーザー専用のキャッシュ（例: ブラウザキャッシュ）にのみ保存できます。プロキシなどの共有キャッシュには保存できません。");
("Brotli-compressed responses use brotli compression to reduce the number of bytes transferred on the
wire. However, this response could not be decompressed; the error encountered was
""`%(brotli_error)s`"".

%(ok_brotli_len)s bytes were decompressed successfully before this; the erroneous chunk starts with (in hex):

    %(chunk_sample)s
",
 "Brotli-compressed応答はBrotli圧縮を使用して、ワイヤ上で転送されるバイト数を減らします。しかし、この応答はデcompressできませんでした; 遭遇したエラーは「%(brotli_error)s」でした。

この前に%(ok_brotli_len)sバイトが成功してデcompressされました; エラーのチャンクは次のとおりです (16進で):

    %(chunk_sample)s");
("Browser Security",
 "ブラウザセキュリティ");
("Browser preloading is allowed, but this policy isn't suitable for it.",
 "ブラウザプリロードは許可されていますが、このポリシーはそれに適していません。");
("Browser preloading is allowed.",
 "ブラウザプリロードが許可されています。");
("Browser preloading isn't allowed.",
 "ブラウザプリロードは許可されていません。");
("CORS headers are only allowed in preflight responses.",
 "CORS ヘッダーはプリフライト応答でのみ許可されます。");
("Cache groups need to be strings.",
 "キャッシュグループは文字列でなければなりません。");
("Cache-Control: max-age and Expires are both present.",
 "Cache-Control: max-age と Expires の両方が存在します。");
("Cache-Control: public is probably not necessary.",
 "Cache-Control: public はおそらく不要です。");
("Caching",
 "キャッシング");
("Clear-Site-Data contains unquoted values.",
 "クリアサイトデータには引用符のない値が含まれています。");
("Clients SHOULD send a `User-Agent` header field.

See [RFC 9110 Section 10.1.5](https://www.rfc-editor.org/rfc/rfc9110.html#section-10.1.5)
for details.",
 "クライアントは `User-Agent` ヘッダーフィールドを送信する必要があります。

詳細は [RFC 9110 Section 10.1.5](https://www.rfc-editor.org/rfc/rfc9110.html#section-10.1.5) を参照してください。");
("Compared to the local clock, the server's clock does not appear to be well-synchronised.

HTTP's caching model assumes reasonable synchronisation between clocks on the server and client;
clock skew can cause responses that should be cacheable to be considered uncacheable (especially if
their freshness lifetime is short).

Ask your server administrator to synchronise the clock, e.g., using
[NTP](http://en.wikipedia.org/wiki/Network_Time_Protocol Network Time Protocol).

Apparent clock skew can also be caused by caching the response without adjusting the `Age` header;
e.g., in a reverse proxy or Content Delivery network. See [this
paper](https://www.usenix.org/legacy/events/usits01/full_papers/cohen/cohen_html/index.html) for more information. ",
 "ローカルクロックと比較して、サーバーのクロックは同期が取れていないようです。

HTTPのキャッシュモデルでは、サーバーとクライアントのクロック間で合理的な同期が取れていることを前提としています。
クロックのずれは、キャッシュ可能であるべきレスポンスがキャッシュ不可能と見なされる原因となり得ます（特に鮮度寿命が短い場合）。

サーバー管理者にクロックの同期を依頼してください。例えば、
[NTP](http://en.wikipedia.org/wiki/Network_Time_Protocol ネットワーク・タイム・プロトコル) を使用して同期してください。

`Age` ヘッダーを調整せずにレスポンスをキャッシュすることによっても、クロックのずれが生じることがあります。
例えば、リバースプロキシやコンテンツデリバリネットワークです。詳細については、[こちらの論文](https://www.usenix.org/legacy/events/usits01/full_papers/cohen/cohen_html/index.html) を参照してください。");
("Connection",
 "接続");
("Content Negotiation",
 "コンテンツネゴシエーション");
("Content-Length and Transfer-Encoding should not be present together.",
 "Content-Length と Transfer-Encoding は同時に存在することはできません。");
("Content-Length should be an integer.",
 "Content-Length は整数である必要があります。");
("Cookies",
 "Cookie");
("Cross-Origin Resource Sharing",
 "CORS");
("Cross-Origin-Resource-Policy has an invalid value.",
 "Cross-Origin-Resource-Policy に無効な値が指定されています。");
("Detailed information about caching is available.",
 "キャッシングに関する詳細情報が利用可能です。");
("Directives must only appear once in the `%(field_name)s` header; subsequent occurrences are ignored.

The following directives were duplicated:

%(directives_list)s",
 "`%(field_name)s` ヘッダーにはディレクティブは一度だけ出現する必要があります。それ以降の出現は無視されます。

以下のディレクティブが重複していました：

%(directives_list)s");
("Duplicate directives are present.",
 "重複したディレクティブが存在します。");
("Each `%(field_name)s` field line must be valid JSON.

The JSON parsing error was:
    %(error)s",
 "各 `%(field_name)s` フィールド行は有効な JSON でなければなりません。

JSON 解析エラーは次のとおりです:
    %(error)s");
("Field names are limited to the `token` production in HTTP; i.e., they can't contain parenthesis,
angle brackets (<>), ampersands (@), commas, semicolons, colons, backslashes (\), forward
slashes (/), quotes, square brackets ([]), question marks, equals signs (=), curly brackets ({})
spaces or tabs.",
 "フィールド名はHTTPの`token`プロダクションに限定されます。つまり、括弧、山括弧（<>）、アンパサンド（@）、カンマ、セミコロン、コロン、バックスラッシュ（\）、フォワードスラッシュ（/）、引用符、角括弧（[]）、疑問符、等号（=）、波括弧（{}）、スペース、タブは含めることができません。");
("GZip-compressed responses have a header that contains metadata. Here, that header wasn't valid;
the error encountered was ""`%(gzip_error)s`"".",
 "GZip圧縮されたレスポンスにはメタデータを含むヘッダーがあります。ここでは、そのヘッダーが無効でした。発生したエラーは「`%(gzip_error)s`」でした。");
("GZip-compressed responses use zlib compression to reduce the number of bytes transferred on the
wire. However, this response could not be decompressed; the error encountered was
""`%(zlib_error)s`"".

%(ok_zlib_len)s bytes were decompressed successfully before this; the erroneous chunk starts with (in hex):

    %(chunk_sample)s
",
 "GZip圧縮されたレスポンスは、転送されるバイト数を削減するためにzlib圧縮を使用しています。しかし、このレスポンスは解凍できませんでした。発生したエラーは「`%(zlib_error)s`」です。

%(ok_zlib_len)s バイトは正常に解凍されました。エラーのあるチャンクは、(16進数で)以下で始まります。

    %(chunk_sample)s");
("General",
 "一般");
("HSTS applies to subdomains.",
 "HSTSはサブドメインにも適用されます。");
("HSTS doesn't apply to subdomains.",
 "HSTS はサブドメインには適用されません。");
("HTTP allows clients to ask a server if a request containing content (e.g., uploading a large file)
will succeed before sending it, using a mechanism called ""Expect/continue"".

When used, the client sends an `Expect: 100-continue`, in the request headers, and if the server is
willing to process it, it will send a `100 (Continue)` status code to indicate that the request
should continue.

This response has a `100 (Continue)` status code, but the request did not ask for it using the
`Expect` request header. Sending this status code without it being requested can cause
interoperability problems.",
 "HTTP は、クライアントが「Expect/continue」と呼ばれるメカニズムを使用して、サーバーにコンテンツ（例: 大規模なファイルのアップロード）を含むリクエストが送信前に成功するかどうかをサーバーに尋ねることを可能にします。

使用される場合、クライアントはリクエストヘッダーに `Expect: 100-continue` を送信し、サーバーがそれを処理する意思がある場合、リクエストを続行するように示すために `100 (Continue)` ステータスコードを送信します。

このレスポンスは `100 (Continue)` ステータスコードを持っていますが、リクエストは `Expect` リクエストヘッダーを使用してそれを要求しませんでした。要求されていないステータスコードを送信すると、相互運用性の問題を引き起こす可能性があります。");
("HTTP allows stale responses to be served in some circumstances; for example, if the origin
server can't be contacted, a stale response can be used even if it doesn't have explicit freshness
information available.

This behaviour can be prevented by using the `Cache-Control: must-revalidate` response directive.",
 "HTTPでは、場合によっては古いレスポンスを提供することが許可されています。例えば、オリジンサーバーに連絡できない場合、明示的な鮮度情報が利用できない場合でも、古いレスポンスを使用できます。

この動作は、`Cache-Control: must-revalidate` レスポンスディレクティブを使用することで防止できます。");
("HTTP allows transfer-codings in the `Transfer-Encoding` header to have optional parameters, but it
doesn't define what they mean.

This message has encodings with such parameters; although they're technically allowed, they may
cause interoperability problems. They should be removed.",
 "HTTP では `Transfer-Encoding` ヘッダーの transfer-codings にオプションのパラメータを含めることができますが、その意味は定義されていません。

このメッセージには、そのようなパラメータを持つエンコーディングが含まれています。技術的には許可されていますが、相互運用の問題を引き起こす可能性があります。削除する必要があります。");
("HTTP dates have specific syntax, and sending an invalid date can cause a number of problems,
especially with caching. Common problems include sending ""1 May"" instead of ""01 May"" (the month
is a fixed-width field), and sending a date in a timezone other than GMT.

See [the HTTP specification](https://www.rfc-editor.org/rfc/rfc9110.html#name-date-time-formats) for more
information.",
 "HTTP の日付には特定の構文があり、無効な日付を送信すると、特にキャッシュにおいて多くの問題が発生する可能性があります。一般的な問題としては、「01 May」の代わりに「1 May」を送信すること（月は固定幅フィールドです）、GMT 以外のタイムゾーンで日付を送信することなどがあります。

詳細については、[HTTP 仕様](https://www.rfc-editor.org/rfc/rfc9110.html#name-date-time-formats)を参照してください。");
("HTTP defines _transfer-codings_ as a hop-by-hop encoding of the message's content. The `identity`
transfer-coding was defined as the absence of encoding; it doesn't do anything, so it is unnecessary.

You can remove this token to save a few bytes.",
 "HTTPでは、メッセージのコンテンツをホップバイホップでエンコードするものを _transfer-codings_ と定義しています。「identity」
transfer-coding は、エンコードがないことを示すものとして定義されました。何も行わないため、不要です。

このトークンを削除すると、数バイト節約できます。");
("HTTP defines an algorithm that uses the `Age` header, `Date` header, and local time observations to
determine the age of a response. As a result, caches might use a value other than that in the `Age`
header to determine how old the response is -- and therefore how much longer it can be used.",
 "HTTPは、`Age`ヘッダー、`Date`ヘッダー、およびローカル時間の観測値を使用して、レスポンスの経過時間を決定するアルゴリズムを定義しています。その結果、キャッシュは`Age`ヘッダーの値とは異なる値を使用して、レスポンスの経過時間、したがってあとどれくらい使用できるかを判断する場合があります。");
("HTTP defines the `Upgrade` header as a means of negotiating a change of protocol; i.e., it
allows you to switch the protocol on a given connection from HTTP to something else.

This response was upgraded, but the request did not contain an `Upgrade` header field.
",
 "HTTP は、プロトコルの変更をネゴシエートする手段として `Upgrade` ヘッダーを定義しています。つまり、指定された接続のプロトコルを HTTP から別のものに切り替えることができます。

このレスポンスはアップグレードされましたが、リクエストには `Upgrade` ヘッダーフィールドが含まれていませんでした。");
("HTTP field names can only contain ASCII characters.",
 "HTTP フィールド名は ASCII 文字のみを含めることができます。");
("HTTP fields notionally use the ISO-8859-1 character set, but in most cases are pure ASCII
(a subset of this encoding).

This field has non-ASCII characters, which have been interpreted as being encoded in
ISO-8859-1. If another encoding is used (e.g., UTF-8), the results may be unpredictable.",
 "HTTP フィールドは ISO-8859-1 文字セットを使用すると考えられますが、実際には ASCII のサブセット (このエンコーディングの subset) を使用しています。

このフィールドには、ISO-8859-1 でエンコードされた非 ASCII 文字が含まれています。別のエンコーディング（例：UTF-8）が使用されている場合、予期しない結果になる可能性があります。");
("HTTP has a number of defined date formats for historical reasons. This header is using an old
format that are now obsolete. See [the
specification](https://www.rfc-editor.org/rfc/rfc9110.html#name-obsolete-date-formats) for more information.
",
 "HTTPには、歴史的な理由からいくつかの定義済みの日付フォーマットがあります。このヘッダーは、現在廃止されている古いフォーマットを使用しています。詳細については、[仕様](https://www.rfc-editor.org/rfc/rfc9110.html#name-obsolete-date-formats)を参照してください。");
("HTTP only defines `Pragma: no-cache`; other uses of this header are deprecated.",
 "HTTP は `Pragma: no-cache` のみを定義しており、このヘッダーのその他の使用方法は非推奨です。");
("HTTP only defines meaning for the `Content-Range` header in responses with a `206` (Partial
Content) or `416` (Requested Range Not Satisfiable) status code.

Because the status code is neither of those, this `Content-Range` header may confuse caches and
clients.",
 "HTTP は `206` (Partial Content) または `416` (Requested Range Not Satisfiable) のステータスコードを持つレスポンスにおける `Content-Range` ヘッダーの解釈のみを定義しています。

ステータスコードがそれらのいずれでもないため、この `Content-Range` ヘッダーはキャッシュやクライアントを混乱させる可能性があります。");
("HTTP only defines one expectation, `100-continue`. This expectation is not recognized.",
 "HTTP では `100-continue` という 1 つの期待のみが定義されています。この期待は認識されません。");
("HTTP prohibits a user agent from sending a Referer header field if the referring resource was
accessed with a secure protocol and the request target has an origin differing from that of the
referring resource, unless the referring resource explicitly allows Referer to be sent.

See [RFC 9110 Section 10.1.3](https://www.rfc-editor.org/rfc/rfc9110.html#section-10.1.3)
for details.",
 "HTTP では、参照元のリソースがセキュアなプロトコルでアクセスされ、リクエストターゲットが参照元リソースと異なるオリジンを持つ場合、参照元リソースが Referer の送信を明示的に許可しない限り、ユーザーエージェントが Referer ヘッダーフィールドを送信することを禁止しています。

詳細は [RFC 9110 Section 10.1.3](https://www.rfc-editor.org/rfc/rfc9110.html#section-10.1.3) を参照してください。");
("HTTP prohibits a user agent from sending a Referer header field in an unsecured HTTP request
if the referring resource was accessed with a secure protocol.

See [RFC 9110 Section 10.1.3](https://www.rfc-editor.org/rfc/rfc9110.html#section-10.1.3)
for details.",
 "HTTPでは、参照元のリソースがセキュアなプロトコルでアクセスされた場合、ユーザーエージェントはセキュアでないHTTPリクエストで Referer ヘッダーフィールドを送信することを禁止しています。

詳細は [RFC 9110 Section 10.1.3](https://www.rfc-editor.org/rfc/rfc9110.html#section-10.1.3) を参照してください。");
("HTTP requires `304 (Not Modified)` responses to have a `Date` header in all but the most unusual
circumstances.",
 "HTTPは、ごくまれな例外を除き、`304 (Not Modified)` レスポンスに `Date` ヘッダーを含めることを要求します。");
("HTTP's caching model assumes reasonable synchronisation between clocks on the server and client;
compared to the local clock, the server's clock appears to be well-synchronised.",
 "HTTPのキャッシュモデルは、サーバーとクライアントの時計の合理的な同期を前提としています。ローカル時計と比較して、サーバーの時計は適切に同期されているように見えます。");
("If an error occurs, caches can serve this response stale.",
 "エラーが発生した場合、キャッシュはこのレスポンスを古い状態で提供することがあります。");
("In %(field_name)s, the %(context)s key '%(key)s' is duplicated.",
 "%(field_name)s では、%(context)s キー '%(key)s' が重複しています。");
("In exceptional circumstances, caches can serve this response stale.",
 "例外的な状況では、キャッシュはこのレスポンスを期限切れのまま提供することができます。");
("Information about intermediaries is available.",
 "中間業者に関する情報が利用可能です。");
("Inline scripts are allowed.",
 "インラインスクリプトは許可されています。");
("It appears that the Date header has been changed by an intermediary.",
 "Date ヘッダーが中間者によって変更されたようです。");
("It appears that this response has been cached by a reverse proxy or Content Delivery Network,
because the `Age` header is present, but the `Date` header is more recent than it indicates.

Generally, reverse proxies should either omit the `Age` header (if they have another means of
determining how fresh the response is), or leave the `Date` header alone (i.e., act as a normal
HTTP cache).

See [this paper](https://www.usenix.org/legacy/events/usits01/full_papers/cohen/cohen_html/index.html)
for more information.",
 "このレスポンスは、`Age`ヘッダーが存在するにもかかわらず、`Date`ヘッダーがそれよりも新しい値を示しているため、リバースプロキシまたはCDNによってキャッシュされているようです。

一般的に、リバースプロキシは、レスポンスの鮮度を判断する他の手段がある場合は`Age`ヘッダーを省略するか、`Date`ヘッダーはそのままにして（つまり、通常のHTTPキャッシュとして動作する）べきです。

詳細については、[こちらの論文](https://www.usenix.org/legacy/events/usits01/full_papers/cohen/cohen_html/index.html) を参照してください。");
("Loading from insecure HTTP sources is allowed.",
 "安全でないHTTPソースからの読み込みが許可されています。");
("Long URIs aren't supported by some implementations, including proxies. A reasonable upper size
limit is 8192 characters.",
 "一部の実装（プロキシなど）では、長いURIはサポートされていません。合理的な上限サイズは8192文字です。");
("Many Web browsers ""sniff"" the media type of responses to figure out whether they're HTML, RSS or
another format, no matter what the `Content-Type` header says.

This header instructs browsers not to do this, but to always respect the
Content-Type header. It probably won't have any effect in other clients.

See [MDN](https://developer.mozilla.org/en-US/docs/Web/HTTP/Headers/X-Content-Type-Options)
for more information about this header.",
 "多くのWebブラウザは、`Content-Type` ヘッダーが何と指示していても、レスポンスのメディアタイプを「スニッフィング」して、それがHTMLなのかRSSなのか、あるいは他のフォーマットなのかを判断します。

このヘッダーは、ブラウザにこのようなスニッフィングをしないように指示し、常にContent-Typeヘッダーを尊重させるものです。他のクライアントでは効果がない可能性が高いです。

このヘッダーに関する詳細については、[MDN](https://developer.mozilla.org/en-US/docs/Web/HTTP/Headers/X-Content-Type-Options) を参照してください。");
("Microsoft Internet Explorer implements two `Cache-Control` extensions, `pre-check` and
`post-check`, to give more control over how its cache stores responses.

Once it has been cached for more than %(post_check)s seconds, a new request will result in the
cached response being served while it is refreshed in the background. However, if it has been
cached for more than %(pre_check)s seconds, the browser will download a fresh response before
showing it to the user.

Note that these directives do not have any effect on other clients or caches.",
 "Microsoft Internet Explorer は、キャッシュが応答をどのように格納するかについて、より詳細な制御を行うための 2 つの `Cache-Control` 拡張機能、`pre-check` および `post-check` を実装しています。

%(post_check)s 秒を超えてキャッシュされた後、新しいリクエストがあった場合、バックグラウンドでキャッシュが更新されている間、キャッシュされた応答が提供されます。ただし、%(pre_check)s 秒を超えてキャッシュされた場合、ブラウザはユーザーに表示する前に新しい応答をダウンロードします。

これらのディレクティブは、他のクライアントやキャッシュには影響しないことに注意してください。");
("Microsoft Internet Explorer implements two `Cache-Control` extensions, `pre-check` and
`post-check`, to give more control over how its cache stores responses.

This response assigns a higher value to `post-check` than to `pre-check`; this means that Internet
Explorer will treat `post-check` as if its value is the same as `pre-check`'s.",
 "Microsoft Internet Explorer は、キャッシュが応答をどのように格納するかについて、より詳細な制御を提供するために、2 つの `Cache-Control` 拡張機能、`pre-check` と `post-check` を実装しています。

この応答では、`post-check` の値が `pre-check` よりも高く割り当てられています。これは、Internet Explorer が `post-check` を、その値が `pre-check` の値と同じであるかのように扱うことを意味します。");
("Microsoft Internet Explorer implements two `Cache-Control` extensions, `pre-check` and
`post-check`, to give more control over how its cache stores responses.

This response assigns a value of ""0"" to `post-check`, which means that Internet Explorer will reload
the content as soon as it enters the browser cache, effectively **doubling the load on the
server**.",
 "Microsoft Internet Explorer は、キャッシュが応答をどのように保存するかをより細かく制御するために、`pre-check` と `post-check` という 2 つの `Cache-Control` 拡張機能を実装しています。

この応答では `post-check` に ""0"" という値を割り当てています。これは、Internet Explorer がコンテンツをブラウザキャッシュに入力するとすぐに再読み込みすることを意味し、事実上 **サーバーへの負荷を倍増させます**。");
("Microsoft Internet Explorer implements two `Cache-Control` extensions, `pre-check` and
`post-check`, to give more control over how its cache stores responses.

This response gives a value of ""0"" for both; as a result, Internet Explorer will ignore the
directive, since it requires both to be present.

In other words, setting these to zero has **no effect** (besides wasting bandwidth),
and may trigger bugs in some beta versions of IE.",
 "Microsoft Internet Explorer は、キャッシュが応答をどのように格納するかをより細かく制御するために、`pre-check` および `post-check` という 2 つの `Cache-Control` 拡張機能を実装しています。

この応答では、両方に ""0"" という値が与えられます。その結果、Internet Explorer は両方が存在することを要求しているため、ディレクティブを無視します。

つまり、これらをゼロに設定しても**効果はありません**（帯域幅の無駄遣い以外）、一部の IE ベータ版ではバグを引き起こす可能性があります。");
("Microsoft Internet Explorer implements two `Cache-Control` extensions, `pre-check` and
`post-check`, to give more control over how its cache stores responses.

This response uses only one of these directives; as a result, Internet Explorer will ignore the
directive, since it requires both to be present.
",
 "Microsoft Internet Explorer は、キャッシュが応答をどのように保存するかをより細かく制御するために、`pre-check` および `post-check` という 2 つの `Cache-Control` 拡張機能を実装しています。

この応答では、これらのディレクティブのうち 1 つのみが使用されています。その結果、Internet Explorer はディレクティブを無視します。なぜなら、両方が存在する必要があるためです。");
("Most sites should set a `max-age` of at least one year on `Strict-Transport-Security`.",
 "ほとんどのサイトでは、`Strict-Transport-Security` に少なくとも1年間の `max-age` を設定すべきです。");
("Multiple Referrer-Policy values found; only '%(effective)s' is used.",
 "複数の Referrer-Policy 値が見つかりました。 '%(effective)s' のみが使用されます。");
("No valid Referrer-Policy found.",
 "有効な Referrer-Policy が見つかりませんでした。");
("Non-standard status codes are not well-defined and interoperable. Instead of defining your own
status code, you should reuse one of the more generic ones; for example, `400` for a client-side
problem, or `500` for a server-side problem.",
 "標準的でないステータスコードは、定義が不明確で相互運用性が低いです。独自のステータスコードを定義する代わりに、より汎用的なもの（例：クライアント側の問題の場合は`400`、サーバー側の問題の場合は`500`）を再利用してください。");
("One or more intermediaries are present.",
 "一つ以上の仲介者が存在します。");
("Only one %(field_name)s field is allowed in a message.",
 "メッセージには1つの %(field_name)s フィールドのみを指定できます。");
("Only one of the pre-check and post-check cache directives is present.",
 "プリチェックとポストチェックのキャッシュディレクティブのいずれか1つのみが存在します。");
("Only one value is currently defined for this header, `nosniff`. Using other values here won't
necessarily cause problems, but they probably won't have any effect either.

See [MDN](https://developer.mozilla.org/en-US/docs/Web/HTTP/Headers/X-Content-Type-Options)
for more information about this header.",
 "このヘッダーには現在 `nosniff` という 1 つの値のみが定義されています。他の値を使用しても、必ずしも問題が発生するわけではありませんが、効果がない可能性が高いです。

このヘッダーの詳細については、[MDN](https://developer.mozilla.org/en-US/docs/Web/HTTP/Headers/X-Content-Type-Options) を参照してください。");
("Only two values are currently defined for this header, `DENY` and `SAMEORIGIN`. Using other values
here won't necessarily cause problems, but they probably won't have any effect either.

See [MDN](https://developer.mozilla.org/en-US/docs/Web/HTTP/Headers/X-Frame-Options) for more information.
",
 "このヘッダーには現在、`DENY` と `SAMEORIGIN` の2つの値のみが定義されています。これら以外の値を使用しても、必ずしも問題が発生するわけではありませんが、効果もない可能性が高いです。

詳細については、[MDN](https://developer.mozilla.org/en-US/docs/Web/HTTP/Headers/X-Frame-Options) を参照してください。");
("Parameter values that end in '*' are reserved for non-ascii text, as explained in
[RFC5987](https://www.rfc-editor.org/rfc/rfc5987).

The `%(param)s` parameter on the `%(field_name)s` field does not allow this; you should use
%(param)s without the ""*"" on the end (and without the associated encoding).",
 "末尾に'*'が付くパラメータ値は、[RFC5987](https://www.rfc-editor.org/rfc/rfc5987)で説明されているように、非ASCIIテキスト用に予約されています。

`%(field_name)s` フィールドの `%(param)s` パラメータはこれを許可していません。末尾の'*'を付けずに（および関連するエンコーディングなしで）%(param)sを使用してください。");
("Parameter values that end in '*' have a specific format, defined in
[RFC5987](https://www.rfc-editor.org/rfc/rfc5987), to allow non-ASCII text.

The `%(param)s` parameter on the `%(field_name)s` field has double-quotes around it, which is not
valid.",
 "`*`で終わるパラメータ値は、非ASCIIテキストを許可するために[RFC5987](https://www.rfc-editor.org/rfc/rfc5987)で定義された特定フォーマットを持っています。

`%(field_name)s`フィールドの`%(param)s`パラメータが二重引用符で囲まれていますが、これは無効です。");
("Parameter values that end in '*' have a specific format, defined in
[RFC5987](https://www.rfc-editor.org/rfc/rfc5987), to allow non-ASCII text.

The `%(param)s` parameter on the `%(field_name)s` field is not valid; it needs to have three
parts, separated by single quotes (').",
 "`*` で終わるパラメータ値は、ASCII 以外のテキストを許可するために [RFC5987](https://www.rfc-editor.org/rfc/rfc5987) で定義された特定の形式を持っています。

`%(field_name)s` フィールドの `%(param)s` パラメータは無効です。単一引用符 (') で区切られた 3 つの部分が必要です。");
("Parameter values that end in '*' have a specific format, defined in
[RFC5987](https://www.rfc-editor.org/rfc/rfc5987), to allow non-ASCII text.

The `%(param)s` parameter on the `%(field_name)s` header doesn't declare its character encoding,
which means that recipients can't understand it. It should be `UTF-8`.",
 "'*'で終わるパラメータ値は、非ASCIIテキストを許可するために[RFC5987](https://www.rfc-editor.org/rfc/rfc5987)で定義された特定の形式を持っています。

`%(field_name)s` ヘッダーの `%(param)s` パラメータは文字エンコーディングを宣言していないため、受信側で理解できません。`UTF-8` であるべきです。");
("Parameter values that end in '*' have a specific format, defined in
[RFC5987](https://www.rfc-editor.org/rfc/rfc5987), to allow non-ASCII text.

The `%(param)s` parameter on the `%(field_name)s` header uses the `'%(enc)s` encoding, which has
interoperability issues with some browsers. It should be `UTF-8`.",
 "'*'で終わるパラメータ値は、ASCII以外のテキストを許可するために[RFC5987](https://www.rfc-editor.org/rfc/rfc5987)で定義された特定の形式を持ちます。

`%(field_name)s`ヘッダーの`%(param)s`パラメータは、一部のブラウザで相互運用性の問題がある`'%(enc)s`エンコーディングを使用しています。`UTF-8`であるべきです。");
("Parameters on the %(field_name)s field should not repeat; implementations may handle them
differently.",
 "`%(field_name)s` フィールドのパラメータは繰り返されるべきではありません。実装によって異なる場合があります。");
("Partial Content",
 "部分コンテンツ");
("Preloading a site in a browser's HSTS list requires a `max-age` of at least one year and the
`includeSubDomains` directive.

See the [HSTS Preload List](https://hstspreload.org/) for more information.
",
 "ブラウザのHSTSリストにサイトをプリロードするには、`max-age`が少なくとも1年で、`includeSubDomains`ディレクティブが必要です。

詳細については、[HSTSプリロードリスト](https://hstspreload.org/)を参照してください。");
("RFC 2324 was an April Fools' Day RFC that lampooned the various ways HTTP was abused; one such abuse
was the definition of the application-specific `418 (I'm a Teapot)` status code. In the
intervening years, this status code has been sometimes implemented as an ""easter egg"".

This status code is not a part of HTTP and hence it might not be supported by some strict
standards-compliant clients.
",
 "RFC 2324 は、HTTP がどのように悪用されていたかを風刺したエイプリルフールの RFC でした。そのような悪用の一つに、アプリケーション固有の `418 (I'm a Teapot)` ステータスコードの定義がありました。それ以来、このステータスコードは「イースターエッグ」として実装されることもありました。

このステータスコードは HTTP の一部ではないため、厳密な標準準拠クライアントではサポートされていない可能性があります。");
("RFC 9110 Section 8.6:
> A sender MUST NOT send a Content-Length header field in any message that contains a Transfer-Encoding header field.

This is because `Transfer-Encoding` overrides `Content-Length`.",
 "RFC 9110 セクション 8.6:
> 送信者は、`Transfer-Encoding` ヘッダーフィールドを含むメッセージに `Content-Length` ヘッダーフィールドを送信してはならない。

これは `Transfer-Encoding` が `Content-Length` をオーバーライドするためです。");
("Redirects need to have a Location header.",
 "リダイレクトには Location ヘッダーが必要です。");
("Reserved status codes can only be used by future, standard protocol extensions; they are not for
private use.",
 "予約済みステータスコードは、将来の標準プロトコル拡張でのみ使用でき、プライベートな用途には使用できません。");
("Responses to the %(method)s method can't be stored by caches.",
 "%(method)s メソッドへの応答は、キャッシュに保存できません。");
("Sending `Vary: User-Agent` requires caches to store a separate copy of the response for every
`User-Agent` request header they see.

Since there are so many different `User-Agent`s, this can ""bloat"" caches with many copies of the
same thing, or cause them to give up on storing these responses at all.

Consider having different URIs for the various versions of your content instead; this will give
finer control over caching without sacrificing efficiency.",
 "`Vary: User-Agent` を送信すると、キャッシュは、参照した `User-Agent` リクエストヘッダーごとにレスポンスの別個のコピーを保存する必要があります。

`User-Agent` は非常に多いため、キャッシュに同じもののコピーがたくさん「肥大化」したり、これらのレスポンスの保存を完全に中止したりする可能性があります。

代わりに、コンテンツのさまざまなバージョンに対して異なる URI を持つことを検討してください。これにより、効率を犠牲にすることなく、キャッシングをより細かく制御できます。");
("Some implementations limit the size of any single field line.",
 "一部の実施では、任意の単一のフィールド ラインのサイズに制限を課します。");
("Some implementations limit the total size of a field section. 32KB is a reasonable
upper limit.",
 "一部の実施では、フィールド セクションの合計サイズを制限します。 32KB は妥当な上限です。");
("Some servers (e.g., [Apache](http://httpd.apache.org/) with
[mod_rewrite](http://httpd.apache.org/docs/2.4/mod/mod_rewrite.html)) will send `Host` in the
`Vary` header, in the belief that this is necessary.

This is not the case; HTTP specifies that the URI is the basis of the cache key, and the URI
incorporates the `Host` header.

The presence of `Vary: Host` may make some caches not store an otherwise cacheable response (since
some cache implementations will not store anything that has a `Vary` header).",
 "一部のサーバー（例：[Apache](http://httpd.apache.org/) の [mod_rewrite](http://httpd.apache.org/docs/2.4/mod/mod_rewrite.html)）は、必要だと考えて `Host` を `Vary` ヘッダーに含めることがあります。

しかし、これは正しくありません。HTTP では、URI がキャッシュキーの基盤であり、URI には `Host` ヘッダーが含まれると規定されています。

`Vary: Host` の存在は、キャッシュ可能なレスポンスであっても、一部のキャッシュが保存しない原因となる可能性があります（一部のキャッシュ実装では、`Vary` ヘッダーを持つものは何も保存しないため）。");
("Strict Transport Security (HSTS) is enabled.",
 "Strict Transport Security (HSTS) が有効です。");
("The %(bad_directive)s CDN cache directive's syntax is incorrect.",
 "The %(bad_directive)s CDNキャッシュディレクティブの構文は正しくありません。");
("The %(context)s key '%(key)s' is duplicated. All instances after the first will be ignored.",
 "%(context)s のキー '%(key)s' が重複しています。最初のインスタンス以降は無視されます。");
("The %(cookie_name)s Set-Cookie header has a __Host- prefix but does not set Path=/.",
 "`%(cookie_name)s` Set-Cookieヘッダーには`__Host-`プレフィックスが付いていますが、Path=/が設定されていません。");
("The %(cookie_name)s Set-Cookie header has a __Host- prefix but sets a Domain.",
 "`%(cookie_name)s` Set-Cookie ヘッダーに `__Host-` プレフィックスがありますが、Domain が設定されています。");
("The %(cookie_name)s Set-Cookie header has a lifetime that is too long.",
 "%(cookie_name)s Set-Cookie ヘッダーの有効期間が長すぎます。");
("The %(cookie_name)s Set-Cookie header has duplicate '%(attribute)s' attributes.",
 "%(cookie_name)s Set-Cookie ヘッダーに重複した '%(attribute)s' 属性があります。");
("The %(cookie_name)s Set-Cookie header is too large.",
 "%(cookie_name)s Set-Cookie ヘッダーが大きすぎます。");
("The %(cookie_name)s Set-Cookie header requires the Secure attribute.",
 "%(cookie_name)s Set-Cookie ヘッダーには Secure 属性が必要です。");
("The %(cookie_name)s Set-Cookie value is large.",
 "%(cookie_name)s の Set-Cookie 値は大きすぎます。");
("The %(cookie_name)s cookie has a Max-Age with a leading zero.",
 "%(cookie_name)s クッキーの Max-Age に先頭のゼロがあります。");
("The %(cookie_name)s cookie has a non-numeric Max-Age.",
 "%(cookie_name)s クッキーの Max-Age が数値ではありません。");
("The %(cookie_name)s cookie has an empty Max-Age.",
 "%(cookie_name)s クッキーの Max-Age が空です。");
("The %(cookie_name)s cookie has an empty domain.",
 "%(cookie_name)s クッキーのドメインが空です。");
("The %(cookie_name)s cookie has an invalid Expires date.",
 "%(cookie_name)s クッキーのExpiresの日付が無効です。");
("The %(cookie_name)s cookie has an unknown '%(attribute_name)s' attribute value.",
 "%(cookie_name)s クッキーに、不明な '%(attribute_name)s' 属性値があります。");
("The %(cookie_name)s cookie has an unknown attribute, '%(attribute)s'.",
 "「%(cookie_name)s」Cookie には、未知の属性「%(attribute)s」があります。");
("The %(cookie_name)s cookie has the Partitioned attribute but is missing the Secure attribute.",
 "%(cookie_name)s クッキーには Partitioned 属性がありますが、Secure 属性がありません。");
("The %(cookie_name)s cookie is missing the Secure attribute.",
 "`%(cookie_name)s` クッキーに Secure 属性がありません。");
("The %(directive)s cache directive appears more than once.",
 "%(directive)s キャッシュディレクティブが複数回出現しています。");
("The %(directive)s cache directive does not accept a value.",
 "キャッシュディレクティブ「%(directive)s」は値を受け入れません。");
("The %(directive)s cache directive has no meaning in a %(message_type)s.",
 "%(directive)s キャッシュディレクティブは %(message_type)s では意味がありません。");
("The %(directive)s cache directive has non-lowercase characters.",
 "キャッシュディレクティブ「%(directive)s」に小文字以外の文字が含まれています。");
("The %(directive)s cache directive is very large.",
 "%(directive)s キャッシュディレクティブは非常に大きいです。");
("The %(directive)s cache directive overrides other directives.",
 "%(directive)s キャッシュディレクティブは他のディレクティブを上書きします。");
("The %(directive)s cache directive's value is incorrect.",
 "The %(directive)s のキャッシュディレクティブの値は正しくありません。");
("The %(directive)s directive in the HSTS header must not have a value.",
 "HSTS ヘッダーの %(directive)s ディレクティブには値があってはなりません。");
("The %(field_name)s field is defined as a
[Structured Field](https://www.rfc-editor.org/rfc/rfc9651.html),
but its value can't be parsed as one. As a result, this field is likely
to be ignored.

The parser reports this error: %(problem)s

%(context)s",
 "The %(field_name)s フィールドは構造化フィールドとして定義されていますが、その値を解析できません。このフィールドは無視される可能性があります。

パーサーは次のエラーメッセージを報告します: %(problem)s

%(context)s");
("The %(field_name)s field is very large (%(field_size)s bytes).",
 "The %(field_name)s フィールドは非常に大きいです %(field_size)s バイト).");
("The %(field_name)s field only has meaning in requests. Sending it a response
doesn't do anything. REDbot (and most recipients) will ignore it.",
 "フィールド「%(field_name)s」はリクエストでのみ意味を持ちます。応答として送信しても無駄です。REDbot（およびほとんどの受信者）は無視します。");
("The %(field_name)s field only has meaning in responses. Sending it in a request
doesn't do anything. REDbot (and most recipients) will ignore it.",
 "%(field_name)s フィールドは応答でのみ意味を持ちます。リクエストに送信しても何も起こりません。REDbot（およびほとんどの受信者）はそれを無視します。");
("The %(field_name)s field value doesn't conform to its specified syntax.",
 "%(field_name)s フィールドの値は指定された構文と一致しません。");
("The %(field_name)s field value isn't a valid Structured Field.",
 "%(field_name)sフィールドの値は、有効な構造化フィールドではありません。");
("The %(field_name)s field's name contains non-ASCII characters.",
 "The %(field_name)s フィールドの名前には、非 ASCII 文字が含まれています。");
("The %(field_name)s field's value contains non-ASCII characters.",
 "The %(field_name)s フィールドの値に ASCII 以外の文字が含まれています。");
("The %(field_name)s header is deprecated.",
 "「%(field_name)s」ヘッダーは非推奨です。");
("The %(field_name)s header requires the Access-Control-Request-Method header.",
 "ヘッダー '%(field_name)s' には Access-Control-Request-Method ヘッダーが必要です。");
("The %(field_name)s header requires the OPTIONS method.",
 "The %(field_name)s ヘッダーには OPTIONS メソッドが必要です。");
("The %(field_name)s header requires the Origin header.",
 "%(field_name)s ヘッダーには Origin ヘッダーが必要です。");
("The %(field_name)s header value isn't valid JSON.",
 "%(field_name)s ヘッダの値は有効な JSON ではありません");
("The %(field_name)s header's value isn't a valid date.",
 "「%(field_name)s」ヘッダーの値は有効な日付ではありません。");
("The %(field_name)s header's value uses an obsolete format.",
 "「%(field_name)s」ヘッダーの値は廃止された形式を使用しています。");
("The %(field_name)s parameter '%(param)s' has an invalid type.",
 "%(field_name)s パラメータ '%(param)s' の型が無効です。");
("The %(field_type)s section is very large (%(section_size)s bytes).",
 "The %(field_type)s セクションは非常に大きく (%(section_size)s バイト) です。");
("The %(header_name)s header can probably be removed.",
 "`%(header_name)s` ヘッダーは削除しても問題ないでしょう。");
("The %(lang)s language tag appears more than once.",
 "%(lang)s言語タグが複数回出現しています。");
("The %(method)s doesn't define any meaning for content.",
 "The %(method)s にはコンテンツの意味を定義する内容が含まれていません。");
("The %(name)s reporting endpoint is invalid.",
 "The %(name)s レポート エンドポイントは無効です。");
("The %(name)s reporting endpoint is not secure.",
 "The %(name)s レポート エンドポイントは安全ではありません。");
("The %(param)s parameter's value doesn't define an encoding.",
 "%(param)s パラメータの値はエンコーディングを定義していません。");
("The %(param)s parameter's value is invalid.",
 "%(param)s パラメータの値が無効です。");
("The %(param)s parameter's value uses an encoding other than UTF-8.",
 "%(param)s パラメータの値は UTF-8 以外のエンコーディングを使用しています。");
("The %(param)s* parameter isn't allowed on the %(field_name)s field.",
 "%(param)s* パラメータは %(field_name)s フィールドでは許可されていません。");
("The %(status)s status code is deprecated.",
 "%(status)s ステータスコードは非推奨です。");
("The %(status)s status code is reserved.",
 "%(status)s ステータスコードは予約されています。");
("The %(status)s status code means that the server can't or won't accept a request-uri this long.",
 "%(status)s ステータスコードは、サーバーが長すぎるリクエスト URI を受け入れられない、または受け入れないことを意味します。");
("The %(status)s status code redirects users to another URI. The `Location` header is used to
convey this URI, but a valid one isn't present in this response.",
 "%(status)s ステータスコードは、ユーザーを別の URI にリダイレクトします。`Location` ヘッダーはこの URI を伝えるために使用されますが、このレスポンスには有効なものが含まれていません。");
("The '%(disposition)s' Content-Disposition isn't known.",
 "「%(disposition)s」というContent-Dispositionは不明です。");
("The '%(expectation)s' expectation is not supported.",
 "「%(expectation)s」の期待はサポートされていません。");
("The '%(feature)s' feature is allowed for all origins.",
 "「%(feature)s」機能は、すべてのオリジンで許可されています。");
("The '%(metric)s' metric is missing the 'desc' parameter.",
 "The '%(metric)s' メトリックは 'desc' パラメータが不足しています。");
("The '%(metric)s' metric is missing the 'dur' parameter.",
 "The '%(metric)s' メトリックは 'dur' パラメータが不足しています。");
("The '%(param)s' parameter on the %(field_name)s header is single-quoted.",
 "`%(param)s` パラメータは、`%(field_name)s` ヘッダーで単一引用符で囲まれています。");
("The '%(param)s' parameter on the '%(metric)s' metric has a non-numeric value.",
 "The '%(param)s' パラメータ '%(metric)s' メトリクスで非数値の値です。");
("The '%(param)s' parameter repeats in the %(field_name)s header.",
 "「%(param)s」パラメータが %(field_name)s ヘッダーで繰り返されています。");
("The '%(param)s' parameter's value cannot be quoted.",
 "「%(param)s」パラメータの値は引用できません。");
("The 'Priority' Set-Cookie attribute is deprecated.",
 "「Priority」の Set-Cookie 属性は非推奨です。");
("The 'Version Set-Cookie attribute is deprecated.",
 "バージョン Set-Cookie 属性は非推奨です。");
("The 'anchor' parameter on the %(link)s Link header isn't a URI.",
 "%(link)s の Link ヘッダーの 'anchor' パラメーターは URI ではありません。");
("The 'filename' parameter on the Content-Disposition header contains a '%%' character.",
 "Content-Disposition ヘッダーの「filename」パラメーターには「%%」文字が含まれています。");
("The 'rev' parameter on the Link header is deprecated.",
 "Link ヘッダーの 'rev' パラメータは非推奨です。");
("The 'type' parameter on the %(link)s Link header isn't a media type.",
 "The 'type' parameter on the %(link)s Link header is not a media type.");
("The 406 (Not Acceptable) status code appears to be misused.",
 "The 406 (Not Acceptable) ステータスコードが誤用されているようです。");
("The Accept header isn't valid.",
 "Accept ヘッダーが無効です。");
("The Accept-CH header isn't a List of Tokens.",
 "Accept-CH ヘッダーはトークンのリストではありません。");
("The Accept-Language header isn't valid.",
 "The Accept-Language ヘッダーは有効ではありません。");
("The Access-Control-Allow-Origin header allows any origin.",
 "Access-Control-Allow-Origin ヘッダーは任意のオリジンを許可します。");
("The Access-Control-Allow-Origin header allows the requesting origin.",
 "Access-Control-Allow-Origin ヘッダーは要求元のドメインを許可します。");
("The Access-Control-Allow-Origin header does not allow any origin.",
 "Access-Control-Allow-Origin ヘッダーはどんなオリジンにもアクセスを許可しません。");
("The Access-Control-Allow-Origin header does not allow the requesting origin.",
 "Access-Control-Allow-Origin ヘッダーは要求元を許可していません");
("The Age header's value is very large.",
 "Age ヘッダーの値が大きすぎます。");
("The Age header's value should be an integer.",
 "Ageヘッダーの値は整数である必要があります。");
("The Age headers' value must be a positive integer.",
 "Age ヘッダーの値は正の整数である必要があります。");
("The Alt-Svc 'clear' token cannot be used with other values.",
 """clear"" トークンは、他の値と併用することはできません。");
("The Available-Dictionary header has an invalid type.",
 "The Available-Dictionary ヘッダーには無効な型が含まれています。");
("The Cache-Group-Invalidation header is ignored for %(method)s requests.",
 "The Cache-Group-Invalidation ヘッダーは無視されます %(method)s リクエスト。");
("The Cache-Status header has an invalid structure.",
 "Cache-Status ヘッダーの構造が無効です。");
("The Cache-Status header has an unknown parameter '%(param)s'.",
 "Cache-Status ヘッダーに不明なパラメータ '%(param)s' があります。");
("The Cache-Status header has an unknown value for '%(param)s'.",
 "Cache-Status ヘッダーに '%(param)s' の未知の値があります。");
("The Clear-Site-Data header contains an unknown value '%(value)s'.",
 "Clear-Site-Data ヘッダーに不明な値 '%(value)s' が含まれています。");
("The Clear-Site-Data header has an empty value.",
 "The ""Clear-Site-Data"" ヘッダーは空の値を持っています。");
("The Content-Disposition header doesn't have a 'filename' parameter.",
 "Content-Disposition ヘッダーに 'filename' パラメーターがありません。");
("The Content-Length header is correct.",
 "Content-Length ヘッダーは正しいです。");
("The Content-Length header is incorrect.",
 "Content-Length ヘッダーが正しくありません。");
("The Content-Length header is very large.",
 "Content-Length ヘッダーが非常に大きいです。");
("The Content-Range header contains a non-integer value.",
 "Content-Range ヘッダーに整数でない値が含まれています。");
("The Content-Range header indicates an unknown total length.",
 "Content-Range ヘッダーは未知の総長を示します。");
("The Content-Range header indicates an unsatisfied range, but the status code is 206.",
 "Content-Range ヘッダーは未満の範囲を示していますが、ステータスコードは 206 です。");
("The Content-Range header invalidly uses wildcards.",
 "Content-Range ヘッダーはワイルドカードを不適切に使用しています。");
("The Content-Range header is invalid.",
 "コンテンツレンジヘッダーが無効です");
("The Content-Range header is missing a hyphen.",
 "Content-Range ヘッダーにハイフンが不足しています");
("The Content-Range header is missing a slash separator.",
 "Content-Range ヘッダーにスラッシュ区切りが欠けています。");
("The Content-Range header is missing a unit (e.g., 'bytes').",
 "Content-Range ヘッダーに単位 (e.g., 'バイト') が含まれていません");
("The Deprecation header has an invalid type.",
 "The Deprecation ヘッダーは無効な型です。");
("The Expect header is not supported in HTTP/1.0.",
 "HTTP/1.0 では Expect ヘッダーはサポートされていません。");
("The HSTS header contains a duplicate directive.",
 "HSTS ヘッダーに重複したディレクティブが含まれています。");
("The HSTS header is sent over HTTP.",
 "HSTS ヘッダーは HTTP で送信されます。");
("The Last-Modified time is in the future.",
 "最終更新時刻が未来の日付になっています。");
("The Location header contains a relative URI.",
 "Location ヘッダーには相対 URI が含まれています。");
("The Max-Forwards header is ignored for this method.",
 "Max-Forwards ヘッダーは、このメソッドでは無視されます。");
("The NEL header has an invalid structure.",
 """The NEL header has an invalid structure.""");
("The NEL policy has an invalid type for '%(key)s'.",
 "The NEL ポリシーには、'%(key)s' の無効なタイプがあります。");
("The NEL policy has an invalid value for '%(key)s'.",
 "The NEL ポリシーには無効な値が「%(key)s」です。");
("The NEL policy is missing the '%(key)s' key.",
 "ネル ポリシーには '%(key)s' キーが不足しています。");
("The Origin header contains multiple values.",
 "The Origin ヘッダーには複数の値が含まれています。");
("The Origin header must contain a list of serialized origins (scheme, host, and optional port), or
the string ""null"".",
 "The Origin headerは、シリアル化されたオリジン（スキーム、ホスト、オプションのポート）のリスト、または
""null""を含める必要があります。");
("The Pragma header is being used in an undefined way.",
 "Pragma ヘッダーが未定義の方法で使用されています。");
("The Proxy-Status header has an invalid structure.",
 "Proxy-Status ヘッダーの構造が無効です。");
("The Proxy-Status header has an unknown parameter '%(param)s'.",
 "Proxy-Status ヘッダーに不明なパラメーター '%(param)s' があります。");
("The Proxy-Status header has an unknown value for '%(param)s'.",
 "Proxy-Status ヘッダーの '%(param)s' に未知の値があります。");
("The Range header is invalid.",
 "Range ヘッダーは無効です。");
("The Range header value isn't valid.",
 """The Range header value isn't valid.""");
("The Referer header is sent from a secure origin to a different origin.",
 "Referer ヘッダーは、セキュアなオリジンから別のオリジンに送信されます。");
("The Referer header is sent from a secure origin to an insecure target.",
 "Referer ヘッダーがセキュアなオリジンからセキュアでないターゲットに送信されました。");
("The Referrer-Policy value '%(policy)s' is unknown.",
 "Referrer-Policy の値 '%(policy)s' は不明です。");
("The Report-To header has an invalid type for '%(key)s'.",
 "The Report-To ヘッダーのタイプ '%(key)s' は無効です。");
("The Report-To header value has an invalid structure.",
 "The Report-To ヘッダー値の構造が無効です");
("The Report-To header value is missing the '%(key)s' key.",
 "The Report-To ヘッダー値に %(key)s キーが欠けています。");
("The Server header is long.",
 "Server ヘッダーが長すぎます。");
("The Strict-Transport-Security header has a trailing semicolon.",
 "The Strict-Transport-Security 頭部にセミコロンがついています。");
("The URI is very long (%(uri_len)s characters).",
 "URIが長すぎます（%(uri_len)s文字）。");
("The URI's syntax isn't valid.",
 "URI の構文が無効です。");
("The User-Agent header is missing.",
 "User-Agent ヘッダーが見つかりません。");
("The Vary header contains duplicate values.",
 "The Vary ヘッダーには重複値が含まれています。");
("The X-Frame-Options header contains an unknown value.",
 "X-Frame-Options ヘッダーに不明な値が含まれています。");
("The `%(attribute)s` attribute appears more than once in this `Set-Cookie` header.

Browsers will only use the last occurrence.",
 "`%(attribute)s` 属性がこの `Set-Cookie` ヘッダーに複数回出現しています。

ブラウザは最後の出現のみを使用します。");
("The `%(directive)s` cache directive is a flag; it shouldn't have a value.",
 "`%(directive)s` キャッシュ指令はフラグであり、値は必要ありません。");
("The `%(directive)s` cache directive is only defined to appear in %(other_message)s
messages; is has no defined meaning in a %(message_type)s.",
 "`%(directive)s` キャッシュディレクティブは、%(other_message)s メッセージでのみ定義されており、%(message_type)s では定義された意味がありません。");
("The `%(directive)s` cache directive is only defined to appear once; it is used more than
once here, so implementations may use different instances (e.g., the first, or the last),
making their behaviour unpredictable.",
 "`%(directive)s` キャッシュディレクティブは一度だけ定義されており、ここで複数回使用されているため、実装によって異なるインスタンス (例: 最初または最後) が使用される可能性があり、その動作は予測不能になります。");
("The `%(directive)s` cache directive overrides or conflicts with these other directives: 

%(conflicts)s

The conflicting directives will be ignored by caches, and can be safely omitted.
    ",
 "`%(directive)s` キャッシュディレクティブは、これらの他のディレクティブを上書きまたは競合しています。

%(conflicts)s

競合するディレクティブはキャッシュによって無視され、安全に省略できます。");
("The `%(directive)s` cache directive type is %(expected_type)s, but `%(value)s` was found.",
 "The `%(directive)s` キャッシュ ディレクティブの型は %(expected_type)s ですが、`%(value)s` が見つかりました。");
("The `%(directive)s` cache directive's value is greater than 2^31-1. Some implementations may not be
able to handle values this large.",
 "`%(directive)s` キャッシュディレクティブの値が 2^31-1 を超えています。一部の実装では、この値が大きすぎると処理できない場合があります。");
("The `%(directive)s` directive appears more than once in the `Strict-Transport-Security` header.
Directives must only appear once.",
 "`Strict-Transport-Security` ヘッダーに `%(directive)s` ディレクティブが複数回出現しています。
ディレクティブは一度だけ出現する必要があります。");
("The `%(directive)s` directive in the `Strict-Transport-Security` header is a valueless
directive. It should not have an associated value.",
 "`Strict-Transport-Security` ヘッダーの `%(directive)s` ディレクティブは値を持たないディレクティブです。関連する値を持つべきではありません。");
("The `%(feature)s` feature is allowed for all origins (using `*`).
This is insecure and should be restricted to specific origins or `self`.",
 "`%(feature)s` 機能はすべてのオリジン ( `*` を使用) で許可されています。
これは安全ではなく、特定のオリジンまたは `self` に制限する必要があります。");
("The `%(field_name)s` header is only used in a Cross-Origin Resource Sharing (CORS) preflight
request.

A preflight request requires the `Access-Control-Request-Method` header to be present.",
 "`%(field_name)s` ヘッダーは、Cross-Origin Resource Sharing (CORS) のプリフライトリクエストでのみ使用されます。

プリフライトリクエストには、`Access-Control-Request-Method` ヘッダーが必要です。");
("The `%(field_name)s` header is only used in a Cross-Origin Resource Sharing (CORS) preflight
request.

A preflight request requires the `Origin` header to be present.",
 "`%(field_name)s` ヘッダーは、Cross-Origin Resource Sharing (CORS) のプリフライトリクエストでのみ使用されます。

プリフライトリクエストには `Origin` ヘッダーが必要です。");
("The `%(field_name)s` header is only used in a Cross-Origin Resource Sharing (CORS) preflight
request.

A preflight request uses the `OPTIONS` method; this request uses `%(method)s`.",
 "`%(field_name)s` ヘッダーは Cross-Origin Resource Sharing (CORS) のプリフライトリクエストでのみ使用されます。

プリフライトリクエストは `OPTIONS` メソッドを使用しますが、このリクエストは `%(method)s` を使用しています。");
("The `%(field_name)s` header must be one of `require-corp`, `credentialless`, or
`unsafe-none`.
",
 "`%(field_name)s` ヘッダーは、`require-corp`、`credentialless`、または `unsafe-none` のいずれかでなければなりません。");
("The `%(field_name)s` header must be one of `same-origin`, `same-origin-allow-popups`,
or `unsafe-none`.
",
 "`%(field_name)s` ヘッダーは、`same-origin`、`same-origin-allow-popups`、または `unsafe-none` のいずれかである必要があります。");
("The `%(field_name)s` header values must be Strings. Found `%(got)s`.",
 "ヘッダ値は `%(field_name)s` 型でなければならず、`%(got)s` が見つかりました。");
("The `%(field_name)s` parameter `%(param)s` must be a `%(expected)s`. Found `%(got)s`.",
 "`%(field_name)s` パラメーター `%(param)s` は `%(expected)s` である必要があります。実際の値は `%(got)s` です。");
("The `%(header_name)s` header adds little value, contributes to unnecessary bandwidth,
and may increase security risk by exposing details of the back-end system.

Consider removing it.",
 "`%(header_name)s` ヘッダーはほとんど価値がなく、不要な帯域幅を消費し、バックエンドシステムの詳細を公開することでセキュリティリスクを高める可能性があります。

削除を検討してください。");
("The `%(key)s` key has an invalid value; %(details)s.
Details: %(details)s",
 "%(key)s のキーに無効な値が指定されています。%(details)s に関する詳細: %(details)s");
("The `%(key)s` key is required in `NEL` policies.",
 "%(key)s キーは NEL ポリシーで必要です");
("The `%(key)s` key is required in `Report-To` objects.",
 "The `%(key)s` key は `Report-To` オブジェクトに必要です。");
("The `%(key)s` key must be of type %(expected)s.",
 "`%(key)s` キーは %(expected)s 型でなければなりません。");
("The `%(lang)s` language tag is used more than once in the `Content-Language` header.

Recipients will likely ignore duplicates.",
 "`Content-Language` ヘッダーで `%(lang)s` 言語タグが複数回使用されています。

重複は受信者によって無視される可能性が高いです。");
("The `%(metric)s` metric in the Server-Timing header is missing the `desc` (description) parameter.

Descriptions can help contextualise a metric when displayed.
",
 "The `%(metric)s` metric in the Server-Timing header is missing the `desc` (description) parameter.

Descriptions can help contextualize a metric when displayed.");
("The `%(metric)s` metric in the Server-Timing header is missing the `dur` (duration) parameter.

This parameter isn't required, but without it browsers may not be able to usefully display it.
",
 "The `%(metric)s`  in the Server-Timing header is missing the `dur` (duration) parameter.");
("The `%(param)s` parameter is not defined in the Cache-Status specification.
",
 "`%(param)s` パラメータは Cache-Status 仕様で定義されていません。");
("The `%(param)s` parameter is not defined in the Proxy-Status specification.
",
 "`%(param)s` パラメータは Proxy-Status 仕様で定義されていません。");
("The `%(param)s` parameter on the `%(metric)s` metric of the Server-Timing header requires a
valid number, but `%(value)s` was found.
",
 "The `%(param)s` パラメータは、Server-Timing ヘッダの `%(metric)s` メトリックに有効な数値が必要ですが、`%(value)s` が見つかりました。");
("The `%(param)s`'s value on the %(field_name)s field starts and ends with a single quote (').
However, single quotes don't mean anything there.

This means that the value will be interpreted as `%(param_val)s`, **not**
`%(param_val_unquoted)s`. If you intend the latter, remove the single quotes.",
 "`%(field_name)s` フィールドの `%(param)s` の値は、シングルクォート（'）で始まり、シングルクォート（'）で終わっています。
しかし、シングルクォートはそこでは意味を持ちません。

これは、値が `%(param_val_unquoted)s` **ではなく** `%(param_val)s` として解釈されることを意味します。後者の意図がある場合は、シングルクォートを削除してください。");
("The `'unsafe-eval'` [Content Security Policy](https://www.w3.org/TR/CSP3/)
directive allows the use of string-to-code mechanisms like `eval()`, which can make it easier for
attackers to execute malicious code.

It was found in the following directives:

%(directives_list)s",
 "`'unsafe-eval'` [Content Security Policy](https://www.w3.org/TR/CSP3/)
ディレクティブは、`eval()` のような文字列からコードへの変換メカニズムの使用を許可しますが、これは攻撃者が悪意のあるコードを実行するのを容易にする可能性があります。

以下のディレクティブで見つかりました：

%(directives_list)s");
("The `'unsafe-inline'` [Content Security Policy](https://www.w3.org/TR/CSP3/)
directive allows the execution of inline scripts and event handlers, which
significantly reduces the protection provided by CSP against Cross-Site
Scripting (XSS) attacks.

It was found in the following directives:

%(directives_list)s",
 "`'unsafe-inline'` [Content Security Policy](https://www.w3.org/TR/CSP3/)
ディレクティブは、インラインスクリプトとイベントハンドラーの実行を許可します。これは、クロスサイトスクリプティング（XSS）攻撃に対するCSPが提供する保護を大幅に低下させます。

以下のディレクティブで見つかりました。

%(directives_list)s");
("The `*` [Content Security Policy](https://www.w3.org/TR/CSP3/)
directive allows resources to be loaded from any origin, which significantly reduces the protection
provided by CSP.%(report_only_text)s

It was found in the following directives:

%(directives_list)s",
 "`*` [Content Security Policy](https://www.w3.org/TR/CSP3/) ディレクティブにより、あらゆるオリジンからリソースを読み込むことができるため、CSP によって提供される保護が大幅に低下します。%(report_only_text)s

以下のディレクティブで見つかりました。

%(directives_list)s");
("The `103 (Early Hints)` status code allows the server to send some headers before the final response,
typically to help the client start fetching resources earlier.",
 "`103 (Early Hints)` ステータスコードにより、サーバーは最終的なレスポンスの前に一部のヘッダーを送信でき、
通常はクライアントがリソースの取得をより早く開始するのに役立ちます。");
("The `104 (Upload Resumption Supported)` status code indicates that the server supports resumable
uploads.",
 "`104 (Upload Resumption Supported)` ステータスコードは、サーバーが再開可能なアップロードをサポートしていることを示します。");
("The `201 (Created)` status code indicates that the request created a new resource.

HTTP specifies that the URL of the new resource is to be indicated in the `Location` header,
but it isn't present in this response.",
 "`201 (Created)` ステータスコードは、リクエストが新しいリソースを作成したことを示します。

HTTPでは、新しいリソースのURLを`Location`ヘッダーで示すことになっていますが、このレスポンスには存在しません。");
("The `201 (Created)` status code indicates that the request created a new resource.

However, the request method used (%(method)s) is defined as a ""safe"" method; that is, it
should not have any side effects.

Creating resources as a side effect of a safe method can have unintended consequences; for example,
search engine spiders and similar automated agents often follow links, and intermediaries sometimes
re-try safe methods when they fail.",
 "`201 (Created)` ステータスコードは、リクエストによって新しいリソースが作成されたことを示します。

ただし、使用されたリクエストメソッド（%(method)s）は、「セーフ」メソッドとして定義されています。つまり、副作用があってはなりません。

セーフメソッドの副作用としてリソースを作成すると、意図しない結果を招く可能性があります。たとえば、検索エンジンスパイダーや同様の自動エージェントはリンクをたどることが多く、中間サーバーは失敗した場合にセーフメソッドを再試行することがあります。");
("The `206 (Partial Response)` status code indicates that the response content is only partial.

However, for a response to be partial, it needs to have a `Content-Range` header to indicate
what part of the full response it carries. This response does not have one.",
 "`206 (Partial Response)` ステータスコードは、レスポンスコンテンツが一部であることを示します。

しかし、レスポンスが一部であるためには、完全なレスポンスのどの部分を運んでいるかを示す `Content-Range` ヘッダーが必要です。このレスポンスにはそれがないようです。");
("The `206 (Partial Response)` status code indicates that the response content is only partial.

However, the client needs to ask for it with the `Range` header, and the request did not
include one.",
 "`206 (Partial Response)` ステータスコードは、レスポンスコンテンツが一部であることを示します。

しかし、クライアントは `Range` ヘッダーでそれを要求する必要がありましたが、リクエストには含まれていませんでした。");
("The `208 (Already Reported)` status code can be used inside a DAV: propstat response element to
avoid enumerating the internal members of multiple bindings to the same collection repeatedly.",
 "`208 (Already Reported)` ステータスコードは、同じコレクションへの複数のバインディングの内部メンバーを繰り返し列挙することを避けるために、DAV: propstat レスポンス要素内で使用できます。");
("The `405 (Method Not Allowed)` status code indicates that the HTTP method is
known by the origin server but not supported by the target resource.",
 "The `405 (Method Not Allowed)` ステータスコードは、HTTP メソッドはオリジン サーバーによって認識されますが、対象リソースではサポートされていないことを示します。");
("The `405 (Method Not Allowed)` status code indicates that the HTTP method is
known by the origin server but not supported by the target resource.

However, the `Allow` header field listed in the response contains the method used,
indicating that it is allowed.",
 "The `405 (Method Not Allowed)` ステータスコードは、HTTP メソッドがオリジン サーバーによって知られていますが、ターゲット リソースによってサポートされていないことを示します。

しかし、応答の `Allow` ヘッダー フィールドには、使用されているメソッドが含まれており、それが許可されていることを示しています。");
("The `406 (Not Acceptable)` status code indicates that the request cannot produce a response matching
the list of acceptable values defined in the request's proactive negotiation header fields.

However, this request didn't contain any proactive negotiation headers (such as `Accept`,
`Accept-Charset`, `Accept-Encoding`, or `Accept-Language`).",
 "The `406 (Not Acceptable)` ステータスコードは、リクエストがリクエストのプロアクティブネゴシエーションヘッダーで定義された受け入れ可能な値のリストと一致しないことを示します。

しかし、このリクエストには、Accept、Accept-Charset、Accept-Encoding、またはAccept-Languageなどのプロアクティブネゴシエーションヘッダーが含まれていませんでした。");
("The `406 (Not Acceptable)` status code indicates that the resource cannot produce a response matching
the list of acceptable values defined in the request's proactive negotiation header fields, such
as `Accept`, `Accept-Charset`, `Accept-Encoding`, or `Accept-Language`.
",
 "The `406 (Not Acceptable)` ステータスコードは、リクエストのプロアクティブネゴシエーションヘッダー（`Accept`、`Accept-Charset`、`Accept-Encoding`、または `Accept-Language` など）で定義された受け入れ可能な値のリストと一致する応答をリソースが生成できないことを示します。");
("The `412 (Precondition Failed)` status code indicates that one or more conditions given in the
request header fields (typically, those starting with `If-`)evaluated to false when tested 
on the server.",
 "`412 (失敗した前提条件)` ステータスコードは、要求ヘッダー フィールド（通常は `If-` で始まるもの）で指定された 1 つ以上の条件がサーバーで評価されなかったことを示します。");
("The `412 (Precondition Failed)` status code indicates that one or more conditions given in the
request header fields evaluated to false when tested on the server.

However, this request didn't contain any conditional headers (such as `If-Match`, `If-None-Match`,
`If-Modified-Since`, `If-Unmodified-Since`, or `If-Range`).",
 "`412 (Precondition Failed)` ステータスコードは、リクエストヘッダーフィールドで指定された条件の1つ以上が、サーバーでテストされたときに偽と評価されたことを示します。

しかし、このリクエストには条件付きヘッダー（`If-Match`、`If-None-Match`、`If-Modified-Since`、`If-Unmodified-Since`、`If-Range` など）は含まれていませんでした。");
("The `416 (Range Not Satisfiable)` status code indicates that the set of ranges in the request's
`Range` header field overlap the current extent of the selected resource.

However, this request didn't contain a `Range` header.",
 "`416 (Range Not Satisfiable)` ステータスコードは、リクエストの `Range` ヘッダーフィールドの範囲セットが、選択されたリソースの現在の範囲と重複していることを示します。

しかし、このリクエストには `Range` ヘッダーが含まれていませんでした。");
("The `417 (Expectation Failed)` status code indicates that the expectation given in the request's
`Expect` header field could not be met by at least one of the inbound servers.",
 "The `417 (期待を満たせなかった)` ステータスコードは、リクエストの `Expect` ヘッダーで指定された期待が、少なくとも 1 つのインバウンド サーバーによって満たされることができなかったことを示します。");
("The `417 (Expectation Failed)` status code indicates that the expectation given in the request's
`Expect` header field could not be met by at least one of the inbound servers.

However, this request didn't contain an `Expect` header.",
 "`417 (Expectation Failed)` ステータスコードは、リクエストの `Expect` ヘッダーフィールドで指定された期待値が、少なくとも1つのインバウンドサーバーで満たされなかったことを示します。

ただし、このリクエストには `Expect` ヘッダーが含まれていませんでした。");
("The `417 (Expectation Failed)` status code indicates that the expectation given in the request's
`Expect` header field could not be met by at least one of the inbound servers.

In this case, the client requested `100-continue`, but the server (or an intermediary) couldn't
satisfy it.",
 "`417 (Expectation Failed)` ステータスコードは、リクエストの `Expect` ヘッダーフィールドで指定された期待値が、少なくとも1つのインバウンドサーバーで満たされなかったことを示します。

この場合、クライアントは `100-continue` を要求しましたが、サーバー（または中間サーバー）はそれを満たすことができませんでした。");
("The `421 (Misdirected Request)` status code indicates that the request was directed at a server
that is not able to produce a response. This can happen when a connection is reused.",
 "`421 (Misdirected Request)` ステータスコードは、応答を生成できないサーバーにリクエストが送信されたことを示します。これは、接続が再利用された場合に発生する可能性があります。");
("The `425 (Too Early)` status code indicates that the server is unwilling to risk processing a
request that might be replayed.",
 "`425 (Too Early)` ステータスコードは、サーバーが再利用される可能性のあるリクエストの処理をリスクとすることを望まないことを示します。");
("The `428 (Precondition Required)` status code indicates that the origin server requires the request
to be conditional.",
 "`428 (Precondition Required)` ステータスコードは、オリジンサーバーがリクエストに条件を要求することを示します。");
("The `429 (Too Many Requests)` status code indicates that the client has sent too many requests in a
given amount of time (""rate limiting"").",
 "`429 (Too Many Requests)` ステータスコードは、クライアントが指定された時間内に多すぎるリクエストを送信したこと（「レート制限」）を示します。");
("The `431 (Request Header Fields Too Large)` status code indicates that the server is unwilling to
process the request because its header fields are too large.",
 "`431 (Request Header Fields Too Large)` ステータスコードは、サーバーがリクエストのヘッダーフィールドが大きすぎるために処理を拒否したことを示します。");
("The `451 (Unavailable For Legal Reasons)` status code indicates that the server is denying access to
the resource as a consequence of a legal demand.",
 "`451 (法的な理由により利用不可)` ステータスコードは、サーバーが法的要求の結果としてリソースへのアクセスを拒否していることを示します。");
("The `508 (Loop Detected)` status code indicates that the server terminated an operation because it
encountered an infinite loop while processing a request with ""Depth: infinity"".",
 "`508 (Loop Detected)` ステータスコードは、サーバーが ""Depth: infinity"" を使用したリクエストの処理中に無限ループを検出したため、操作を終了したことを示します。");
("The `511 (Network Authentication Required)` status code indicates that the client needs to
authenticate to gain network access.",
 "`511 (Network Authentication Required)` ステータスコードは、クライアントがネットワークアクセスを得るために認証する必要があることを示します。");
("The `Accept-CH` header field should only be used on secure (HTTPS) responses. Using it over plain
HTTP exposes the user's information to network observers. Because of this, browsers will ignore the
header.",
 "The `Accept-CH` ヘッダーは、安全な HTTPS レスポンスでのみ使用する必要があります。HTTP 経由で平文の応答で利用すると、ユーザーの情報がネットワーク上の傍受者に公開されます。そのため、ブラウザはこのヘッダーを無視します。");
("The `Accept-Ranges` response header tells clients what `range-unit`s a resource is willing to
process in future requests. HTTP only defines two: `bytes` and `none`.

Clients who don't know about the non-standard range-unit will not be able to use it.",
 "`Accept-Ranges` レスポンスヘッダーは、リソースが将来のリクエストで処理できる `range-unit` をクライアントに伝えます。HTTP で定義されているのは `bytes` と `none` の 2 つだけです。

標準外の `range-unit` を知らないクライアントは、それを使用できません。");
("The `Access-Control-Allow-Credentials` header must be set to `true` if present. If you don't want
to allow credentials, omit the header.",
 "`Access-Control-Allow-Credentials` ヘッダーは、存在する場合 `true` に設定する必要があります。
認証情報を許可しない場合は、ヘッダーを省略してください。");
("The `Access-Control-Allow-Origin` header (%(acao_value)s) does not match the `Origin` header
in the request (%(origin)s).

This means that the browser will **not** let the requesting site access the response.",
 "The `Access-Control-Allow-Origin` ヘッダー（%(acao_value)s）は、リクエストの `Origin` ヘッダー（%(origin)s）と一致しません。

これは、ブラウザが要求元のサイトにレスポンスへのアクセスを **許可しません** ことを意味します。");
("The `Access-Control-Allow-Origin` header can only contain a single origin, `*`, or `null`. It
cannot contain a list of origins.",
 "`Access-Control-Allow-Origin` ヘッダーには、単一のオリジン、`*`、または `null` のいずれかのみを含めることができます。オリジンのリストは含めることができません。");
("The `Access-Control-Allow-Origin` header is set to `*`; this means that any origin can access
the response, unless the request includes credentials or requires a preflight check.",
 "Access-Control-Allow-Origin ヘッダーが ""*"" に設定されているため、リクエストに資格情報が含まれている場合や、事前フライト チェックが必要な場合を除き、応答にアクセスできるソースはどんなソースでもあります。");
("The `Access-Control-Allow-Origin` header is set to `null`; this means that no origin can access
the response.",
 "Access-Control-Allow-Origin ヘッダーが null に設定されているため、応答にアクセスできるオリジンがありません。");
("The `Access-Control-Allow-Origin` header matches the `Origin` header in the request (%(origin)s).

This means that the browser will let the requesting site access the response.",
 "Access-Control-Allow-Origin ヘッダーは、リクエストで Origin ヘッダーと一致します (%(origin)s)。これは、ブラウザがリクエストしたサイトにレスポンスへのアクセスを許可することを意味します。");
("The `Access-Control-Max-Age` header indicates how many seconds a preflight response can be cached
for. It cannot be less than zero.",
 "Access-Control-Max-Age ヘッダーは、プリフライトルイーティング応答がキャッシュできる秒数を指定します。 0 以下に設定することはできません。");
("The `Access-Control-Max-Age` header indicates how many seconds a preflight response can be cached
for. It must be a non-negative integer.",
 "Access-Control-Max-Age ヘッダーは、プリフライト応答がキャッシュされる最大秒数を指定します。これは非負の整数でなければなりません。");
("The `Age` header indicates the age of the response; i.e., how long it has been cached
since it was generated. The value given was negative, so it is not a valid age.",
 "`Age` ヘッダーは、レスポンスの経過時間、つまりキャッシュされてから生成されるまでの時間を示します。指定された値は負だったため、有効な経過時間ではありません。");
("The `Age` header indicates the age of the response; i.e., how long it has been cached
since it was generated. The value given was not an integer, so it is not a valid age.",
 "`Age` ヘッダーは、レスポンスの経過時間、つまりキャッシュされてから生成されるまでの時間を表します。指定された値は整数ではなかったため、有効な経過時間ではありません。");
("The `Age` header's value is greater than 2,147,483,648. Some implementations may represent it
using that value (which is over 68 years).
",
 "`Age` ヘッダーの値は 2,147,483,648 を超えています。一部の実装では、この値（68年以上）で表現される場合があります。");
("The `Alt-Svc` header field value ""clear"" is used to invalidate previous alternative services.
It cannot be combined with other alternative service advertisements.",
 "The `Alt-Svc` ヘッダー値 ""clear"" は、以前の代替サービスを無効にするために使用されます。他の代替サービスの広告と組み合わせることはできません。");
("The `Available-Dictionary` header is present, but `Accept-Encoding` does not contain 'dcb' or 'dcz'.

[RFC 9842 Section 6.1](https://www.rfc-editor.org/rfc/rfc9842.html#section-6.1) requires that if a
client sends `Available-Dictionary`, it MUST also advertise support for dictionary-based content
encoding (dcb or dcz) in `Accept-Encoding`.",
 "The `Available-Dictionary` ヘッダーは存在しますが、`Accept-Encoding` は 'dcb' または 'dcz' を含みません。

[RFC 9842 Section 6.1](https://www.rfc-editor.org/rfc/rfc9842.html#section-6.1) では、クライアントが `Available-Dictionary` を送信する場合、辞書ベースのコンテンツ エンコード (dcb または dcz) をサポートしていることを示すために `Accept-Encoding` で 'dcb' または 'dcz' を含める必要があると指定しています。");
("The `Available-Dictionary` header value must be a Byte Sequence. Found `%(got)s`.",
 "The `Available-Dictionary` ヘッダー値はバイトシーケンスでなければなりません。見つかりました `%(got)s`");
("The `CDN-Cache-Control` header field allows you to specify cache directives that are targeted at
Content Delivery Network (CDN) caches, separately from the `Cache-Control` header field (which
applies to all caches).",
 "The `CDN-Cache-Control` ヘッダー フィールドを使用すると、コンテンツ配信ネットワーク（CDN）キャッシュに固有のキャッシュ指示を指定できます。このヘッダーは、`Cache-Control` ヘッダーとは別に、すべてのキャッシュに適用されるものとは異なります。");
("The `Cache-Control: max-age` directive and the `Expires` header are both present.

`max-age` takes precedence over `Expires`, so `Expires` is redundant and can be removed.",
 "`Cache-Control: max-age` ディレクティブと `Expires` ヘッダーが両方存在します。

`max-age` は `Expires` よりも優先されるため、`Expires` は冗長であり削除できます。");
("The `Cache-Control: must-revalidate` directive forbids caches from using stale responses to satisfy
requests.

For example, caches often use stale responses when they cannot connect to the origin server; when
this directive is present, they will return an error rather than a stale response.",
 "`Cache-Control: must-revalidate` ディレクティブは、キャッシュが期限切れのレスポンスを使用してリクエストを満たすことを禁止します。

たとえば、キャッシュはオリジンサーバーに接続できない場合に期限切れのレスポンスを使用することがよくありますが、このディレクティブが存在する場合、期限切れのレスポンスを返すのではなくエラーを返します。");
("The `Cache-Control: no-cache` directive means that while caches can store this
response, they cannot use it to satisfy a request unless it has been validated (either with an
`If-None-Match` or `If-Modified-Since` conditional) for that request.",
 "`Cache-Control: no-cache` ディレクティブは、キャッシュはこのレスポンスを保存できますが、そのレスポンスがリクエストに対して検証されない限り（`If-None-Match` または `If-Modified-Since` 条件付きリクエストによる）、リクエストを処理するために使用できないことを意味します。");
("The `Cache-Control: no-cache` directive means that while caches can store this response, they
cannot use it to satisfy a request unless it has been validated (either with an `If-None-Match` or
`If-Modified-Since` conditional) for that request.

This response doesn't have a `Last-Modified` or `ETag` header, so it effectively can't be used by a
cache. `Cache-Control: no-store` is more appropriate.",
 "`Cache-Control: no-cache` ディレクティブは、キャッシュはこのレスポンスを保存できますが、リクエストを検証しない限り（そのリクエストに対して `If-None-Match` または `If-Modified-Since` 条件付きで）、リクエストを処理するために使用できないことを意味します。

このレスポンスには `Last-Modified` または `ETag` ヘッダーがないため、事実上キャッシュで使用することはできません。`Cache-Control: no-store` の方が適切です。");
("The `Cache-Control: no-store` directive indicates that this response can't be stored by a cache.",
 "`Cache-Control: no-store` ディレクティブは、このレスポンスがキャッシュに保存できないことを示します。");
("The `Cache-Control: private` directive indicates that the response can only be stored by caches
that are specific to a single user; for example, a browser cache. Shared caches, such as those in
proxies, cannot store it.",
 "`Cache-Control: private` ディレクティブは、レスポンスが単一ユーザー固有のキャッシュでのみ保存可能であることを示します。例えば、ブラウザキャッシュなどです。プロキシ内のキャッシュなどの共有キャッシュは、これを保存できません。");
("The `Cache-Control: public` directive allows caches to store and use responses
in some circumstances when they would otherwise not be able to.

For example, it allows responses to authenticated requests to be stored by shared caches.

Other responses **do not need to contain `public`**; it does not make the
response ""more cacheable"", and only makes the response headers larger.",
 "`Cache-Control: public` ディレクティブにより、通常はキャッシュできない場合でも、条件付きでレスポンスをキャッシュに保存して使用できるようになります。

例えば、認証されたリクエストに対するレスポンスを共有キャッシュに保存できるようになります。

その他のレスポンスでは `public` を含める**必要はありません**。レスポンスが「よりキャッシュしやすくなる」わけではなく、レスポンスヘッダーが大きくなるだけです。");
("The `Cache-Group-Invalidation` header is only processed for unsafe methods (like POST, PUT, DELETE).
It will be ignored for `%(method)s` requests.",
 "The `Cache-Group-Invalidation` ヘッダーは、安全でないメソッド（POST、PUT、DELETEなど）でのみ処理されます。
`%(method)s` リクエストでは無視されます。");
("The `Cache-Status` header field indicates how caches have handled the response.

%(status)s
",
 "`Cache-Status` ヘッダーフィールドは、キャッシュがレスポンスをどのように処理したかを示します。

%(status)s");
("The `Cache-Status` header must be a list of members, where each member is a 
Token or String (identifying the cache) with optional parameters.
",
 "`Cache-Status` ヘッダーは、メンバーのリストである必要があります。各メンバーは、オプションのパラメータを持つトークンまたは文字列（キャッシュを識別する）です。");
("The `Clear-Site-Data` header contains a value that is not recognized.
Valid values are: `""cache""`, `""cookies""`, `""storage""`, `""executionContexts""`, `""*""`.",
 "`Clear-Site-Data` ヘッダーの値が認識されません。
有効な値は次のとおりです: `""cache""`、`""cookies""`、`""storage""`、`""executionContexts""`、`""*""`。");
("The `Clear-Site-Data` header value is empty. It should contain at least one directive.",
 "The `Clear-Site-Data` ヘッファーの値は空です。少なくとも 1 つのディレクティブを含む必要があります。");
("The `Content-Disposition` header has two widely-known values; `inline` and `attachment`.
`%(disposition)s` isn't recognised, and most implementations will default to handling it like
`attachment`.",
 "`Content-Disposition` ヘッダーには、`inline` と `attachment` という広く知られた2つの値があります。
`%(disposition)s` は認識されず、ほとんどの実装では `attachment` と同様に処理されるデフォルトになります。");
("The `Content-Disposition` header suggests a filename for clients to use when saving the file
locally, using the `filename` and `filename*` parameters.

One of these parameters contains a path character (""\"" or ""/""), used to navigate between
directories on common operating systems.

Because this can be used to attach the browser's host operating system (e.g., by saving a file to a
system directory), browsers will usually ignore these parameters, or remove path information.

You should remove these characters.",
 "`Content-Disposition` ヘッダーは、クライアントがファイルをローカルに保存する際に使用するファイル名を `filename` および `filename*` パラメーターで提案します。

これらのパラメーターのいずれかに、一般的なオペレーティングシステムでのディレクトリ間の移動に使用されるパス文字（""\"" または ""/""）が含まれています。

これは、ブラウザーのホストオペレーティングシステムにファイルを添付するために使用される可能性があるため（例: システムディレクトリにファイルを保存する）、ブラウザーは通常これらのパラメーターを無視するか、パス情報を削除します。

これらの文字を削除してください。");
("The `Content-Disposition` header suggests a filename for clients to use when saving the file
locally, using the `filename` parameter.

[RFC6266](https://www.rfc-editor.org/rfc/rfc6266) specifies how to carry non-ASCII characters in this
parameter. However, historically some (but not all) browsers have also decoded %%-encoded
characters in the `filename` parameter, which means that they'll be treated differently depending
on the browser you're using.

As a result, it's not interoperable to use percent characters in the `filename` parameter. Use the
correct encoding in the `filename*` parameter instead.",
 "`Content-Disposition` ヘッダーは、クライアントがファイルをローカルに保存する際に使用するファイル名を `filename` パラメーターで示唆します。

[RFC6266](https://www.rfc-editor.org/rfc/rfc6266) は、このパラメーターで非 ASCII 文字をどのように伝送するかを規定しています。しかし、歴史的には一部のブラウザー（すべてではありません）が `filename` パラメーター内の %% エンコードされた文字をデコードしていたため、使用するブラウザーによって異なる扱いを受けることになります。

その結果、`filename` パラメーターでパーセント文字を使用するのは相互運用性がありません。代わりに、`filename*` パラメーターで正しいエンコーディングを使用してください。");
("The `Content-Disposition` header with a disposition of `attachment` suggests a filename for clients
to use when saving the file locally.

It should always contain a `filename` parameter, even when the `filename*` parameter is used to
carry an internationalised filename, so that browsers can fall back to an ASCII-only filename.",
 "`attachment` の disposition を持つ `Content-Disposition` ヘッダーは、クライアントがファイルをローカルに保存する際に使用するファイル名を示唆します。

国際化されたファイル名を指定するために `filename*` パラメータが使用されている場合でも、ブラウザが ASCII のみで構成されるファイル名にフォールバックできるように、常に `filename` パラメータを含む必要があります。");
("The `Content-Length` header should be an integer, but it was not.",
 "Content-Length ヘッダーは整数であるべきですが、そうではありませんでした。");
("The `Content-Length` header's value is greater than 2^63-1. Some implementations may not be able to
handle values this large.",
 "`Content-Length` ヘッダーの値が 2^63-1 より大きいです。一部の実装では、これほど大きな値を扱えない場合があります。");
("The `Content-Range` header cannot use a wildcard (`*`) for both the range and the complete length.
",
 "Content-Range ヘッダーは、範囲と完全な長さの両方にワイルドカード (`*`) を使用できません。");
("The `Content-Range` header is missing a range unit at the start; it should 
almost always be `bytes`.

For example:

    Content-Range: bytes 1-100/200
",
 "The `Content-Range` ヘッダーは、開始時にバイト単位の範囲が不足しています。これは通常、`bytes` でなければなりません。

例:

    Content-Range: bytes 1-100/200");
("The `Content-Range` header is missing a slash (`/`) separating the range from the complete length.

For example:

    Content-Range: bytes 1-100/200
",
 "Content-Range ヘッダーにスラッシュ ( `/` ) がなく、範囲と完全な長さの区切りに使われていません。

例：

    Content-Range: bytes 1-100/200");
("The `Content-Range` header uses `*` for the instance length, indicating that the total length of
the resource is unknown.",
 "Content-Range ヘッダーでは、インスタンス長に「*」を使用して、リソースの合計長さが不明であることを示します。");
("The `Content-Range` header uses the `*/<length>` syntax, which is reserved for `416` (Requested
Range Not Satisfiable) responses to indicate the actual length of the resource.

The `206` response status code indicates a successful range response, so this header is
incorrect.",
 "The `Content-Range` ヘッダーは `*/<length>` 構文を使用し、`416` (リクエストされた範囲が満足されない) 応答に予約されています。実際の resource の長さを表します。

`206` 応答ステータスコードは範囲応答の成功を示しているため、このヘッダーは正しくありません。");
("The `Content-Type` header declares the content as `%(declared_type)s`, but it looks like
`%(sniffed_type)s`.",
 "`Content-Type` ヘッダーはコンテンツを `%(declared_type)s` として宣言していますが、
`%(sniffed_type)s` のようです。");
("The `Deprecation` header indicates that this resource is deprecated.",
 "Deprecationヘッダーは、このリソースが非推奨であることを示します。");
("The `Deprecation` header indicates that this resource was deprecated on %(date)s.",
 "Deprecationヘッダーは、このリソースが%(date)sに非推奨になったことを示しています。");
("The `Deprecation` header indicates that this resource will be deprecated on %(date)s.",
 "Deprecation ヘッダーは、このリソースが %(date)s で非推奨になると示しています。");
("The `Deprecation` header value must be a Date or a Boolean True. Found: %(item_type)s.",
 "The `Deprecation` header値はDateまたはBoolean Trueでなければなりません。見つかりました：%(item_type)s");
("The `Expect` header was added in HTTP/1.1; it has no meaning in HTTP/1.0.",
 "`Expect` ヘッダーは HTTP/1.1 で追加されました。HTTP/1.0 では意味がありません。");
("The `Last-Modified` header indicates the last point in time that the resource has changed.
This response's `Last-Modified` time is in the future, which doesn't have any defined meaning in
HTTP.",
 "`Last-Modified` ヘッダーは、リソースが最後に変更された時点を示します。
このレスポンスの `Last-Modified` 時刻は未来であり、HTTP では定義された意味を持ちません。");
("The `Last-Modified` header indicates the last point in time that the resource has changed. It is
used in HTTP for validating cached responses, and for calculating heuristic freshness in caches.

This resource last changed %(last_modified_string)s.",
 "`Last-Modified` ヘッダーは、リソースが最後に変更された時点を示します。HTTP では、キャッシュされた応答の検証や、キャッシュでのヒューリスティックな鮮度計算に使用されます。

このリソースは %(last_modified_string)s に最後に変更されました。");
("The `Link` header, defined by [RFC 8288](https://www.rfc-editor.org/rfc/rfc8288#section-3), uses the
`anchor` parameter to define the context URI for the link.

This parameter can be an absolute or relative URI; however, `%(anchor)s` is neither.",
 "The `Link` ヘッダーは、[RFC 8288](https://www.rfc-editor.org/rfc/rfc8288#section-3) で定義されており、アンカー パラメーターを使用してリンクのコンテキスト URI を定義します。

このパラメーターは、絶対 URI または相対 URI のいずれかになりますが、`%(anchor)s` はどちらでもありません。");
("The `Link` header, defined by [RFC 8288](https://www.rfc-editor.org/rfc/rfc8288#section-3), uses the
`rel` parameter to communicate the type of a link. `rev` is deprecated by that specification
because it is often confusing.

Use `rel` and an appropriate relation.",
 "Link ヘッダーは [RFC 8288](https://www.rfc-editor.org/rfc/rfc8288#section-3) で定義されており、`rel` パラメーターを使用してリンクの種類を伝達します。`rev` はその仕様で非推奨となっており、混乱を招くことが多いためです。

`rel` と適切な関係を使用してください。");
("The `Link` header, defined by [RFC 8288](https://www.rfc-editor.org/rfc/rfc8288#section-3), uses the
`type` parameter to define the media type of the link target.

However, `%(type)s` is not a valid media type.",
 "The `Link` ヘッダーは、[RFC 8288](https://www.rfc-editor.org/rfc/rfc8288#section-3) で定義されており、リンク先のメディアタイプを定義するために `type` パラメータを使用します。

しかし、`%(type)s` は有効なメディアタイプではありません。");
("The `Location` header is used for specific purposes in HTTP; mostly to indicate the URI of another
resource (e.g., in redirection, or when a new resource is created).

In other status codes (such as this one) it doesn't have a defined meaning, so any use of it won't
be interoperable.

Sometimes `Location` is confused with `Content-Location`, which indicates a URI for the payload of
the message that it appears in.",
 "`Location` ヘッダーは HTTP で特定の目的、主に別のリソースの URI を示すために使用されます（例：リダイレクト時、または新しいリソースが作成された場合）。

（このコードのような）他のステータスコードでは、定義された意味を持たないため、その使用は相互運用性がありません。

`Location` は、メッセージのペイロードの URI を示す `Content-Location` と混同されることがあります。");
("The `Max-Forwards` header is only defined for `TRACE` and `OPTIONS` requests; for other methods, it
is likely to be ignored.",
 "`Max-Forwards` ヘッダーは `TRACE` および `OPTIONS` リクエストでのみ定義されています。他のメソッドでは、無視される可能性が高いです。");
("The `NEL` header should be a list of objects.
",
 "The `NEL` ヘッダーはオブジェクトのリストであるべきです。");
("The `Origin` header should only contain a single value. Any values after the first
will be ignored.",
 "The `Origin` header には 1 つの値のみが含まれるべきです。最初の値以降の値は無視されます。");
("The `Partitioned` attribute on this `Set-Cookie` header is present, but the `Secure` attribute is
missing.

Browsers will ignore the `Partitioned` attribute as a result.",
 "この `Set-Cookie` ヘッダーの `Partitioned` 属性は存在しますが、`Secure` 属性がありません。

その結果、ブラウザはこの `Partitioned` 属性を無視します。");
("The `Permissions-Policy` header allows a site to control the use of browser features.",
 "`Permissions-Policy` ヘッダーを使用すると、サイトはブラウザ機能の使用を制御できます。");
("The `Priority` attribute was an experiment, and is no longer supported.
",
 "優先度属性は実験的なもので、現在はサポートされていません。");
("The `Proxy-Status` header field indicates how intermediaries have handled the response.

%(status)s
",
 "`Proxy-Status` ヘッダーフィールドは、中間サーバーがレスポンスをどのように処理したかを示します。

%(status)s");
("The `Proxy-Status` header must be a list of members, where each member is
a Token or String (identifying the proxy) with optional parameters.
",
 "`Proxy-Status` ヘッダーは、トークンまたは文字列（プロキシを識別する）とオプションのパラメータで構成されるメンバーのリストである必要があります。");
("The `Referrer-Policy` header contains multiple valid policies. Browsers will only use the last
valid policy found, which is `%(effective)s`. Earlier values are ignored.",
 "`Referrer-Policy` ヘッダーには複数の有効なポリシーが含まれています。ブラウザは、最初に見つかった有効なポリシーのうち最後のもの、つまり `%(effective)s` のみを使用します。それより前の値は無視されます。");
("The `Referrer-Policy` header contains the value `%(policy)s`, which is not a known referrer policy.
It will be ignored by browsers.",
 "`Referrer-Policy` ヘッダーの値 `%(policy)s` は、既知のリファラーポリシーではありません。
ブラウザでは無視されます。");
("The `Referrer-Policy` header does not contain any valid policies. Browsers will use their default
policy (usually `strict-origin-when-cross-origin`).",
 "`Referrer-Policy` ヘッダーに有効なポリシーが含まれていません。ブラウザはデフォルトのポリシー（通常は `strict-origin-when-cross-origin`）を使用します。");
("The `Report-To` header should be a list of objects.
",
 "The `Report-To` ヘッダーはオブジェクトのリストであるべきです。");
("The `Secure` attribute on this `Set-Cookie` header is missing.

Because the `SameSite` attribute is set to `None`, the `Secure` attribute is required.

Browsers will ignore this cookie.",
 "この `Set-Cookie` ヘッダーから `Secure` 属性が欠けています。

`SameSite` 属性が `None` に設定されているため、`Secure` 属性が必要です。

ブラウザはこのクッキーを無視します。");
("The `Server` header is %(server_length)s long, which uses unnecessary bandwidth
and can expose details of the back-end system to attackers.

Consider shortening it.",
 "`Server` ヘッダーは %(server_length)s バイトです。これは帯域幅の無駄遣いであり、バックエンドシステムの詳細が攻撃者に露呈する可能性があります。

短縮することを検討してください。");
("The `Set-Cookie` header has a `__Host-` prefix, but it does not set `Path=/`.

Browsers will reject this cookie.",
 "`Set-Cookie` ヘッダーに `__Host-` プレフィックスがありますが、`Path=/` が設定されていません。

ブラウザはこのクッキーを拒否します。");
("The `Set-Cookie` header has a `__Host-` prefix, but it sets a `Domain` attribute.

Browsers will reject this cookie.",
 "`Set-Cookie` ヘッダーに `__Host-` プレフィックスがありますが、`Domain` 属性が設定されています。

ブラウザはこの Cookie を拒否します。");
("The `Set-Cookie` header has a lifetime (Max-Age or Expires) of %(duration)s, which is greater than
400 days.

Browsers will cap the lifetime to 400 days.",
 "The `Set-Cookie` ヘッダーは、%(duration)s という寿命（Max-Age または Expires）を持ち、400 日以上です。

ブラウザは寿命を 400 日までに制限します。");
("The `Set-Cookie` header has a prefix (e.g., `__Secure-` or `__Host-`) that requires the `Secure`
attribute.

Browsers will reject this cookie.",
 "`Set-Cookie` ヘッダーにプレフィックス (例: `__Secure-` または `__Host-`) があり、`Secure` 属性が必要です。

ブラウザはこのクッキーを拒否します。");
("The `Set-Cookie` header is larger than 4096 bytes.

Browsers will ignore this cookie.",
 "`Set-Cookie` ヘッダーが 4096 バイトを超えています。

ブラウザーはこの Cookie を無視します。");
("The `Strict-Transport-Security` header contains a trailing semicolon. Technically, this violates
the grammar, so strict implementations might find it confusing. However, most implementations
should ignore it.",
 "The `Strict-Transport-Security` ヘッダーには末尾のセミコロンが含まれています。技術的には、これは文法に違反しているため、厳密な実装では混乱を招く可能性があります。しかし、ほとんどの実装では無視すべきです。");
("The `Strict-Transport-Security` header is ignored when sent over HTTP, unless it's a 301 Redirect.
It should only be sent over HTTPS.",
 "HTTPでは、`Strict-Transport-Security`ヘッダーは、301リダイレクトでない限り無視されます。HTTPSでのみ送信してください。");
("The `Strict-Transport-Security` header requires a `max-age` directive to be valid.",
 "`Strict-Transport-Security` ヘッダーには、有効であるために `max-age` ディレクティブが必要です。");
("The `Sunset` header indicates that this resource has already passed its sunset date and may become
unresponsive.",
 "Sunsetヘッダーは、このリソースがサンセット日を過ぎ、応答しなくなる可能性があることを示します。");
("The `Vary: Negotiate` header value is not necessary, as 
[Transparent Content Negotiation](https://www.rfc-editor.org/rfc/rfc2295.html)
is not widely supported.

Consider removing it.",
 "`Vary: Negotiate` ヘッダーの値は、[Transparent Content Negotiation](https://www.rfc-editor.org/rfc/rfc2295.html) が広くサポートされていないため、不要です。

削除を検討してください。");
("The `Vary` header allows you to list the parts of the request that effectively change the response
representation.

Listing the same header more than once is redundant and can be confusing.",
 "The `Vary` ヘッダーは、リクエストの代表的な応答を変える効果的な方法をリストすることで、応答表現を変更します。

同じヘッダーを複数回リストすることは冗長であり、混乱を招く可能性があります。");
("The `Vary` mechanism allows a resource to describe the dimensions that its responses vary, or
change, over; each listed header is another dimension.

Varying by too many dimensions makes using this information impractical.",
 "`Vary` メカニズムにより、リソースは、そのレスポンスが変化する、または変更されるディメンションを記述できます。リストされた各ヘッダーは別のディメンションです。

ディメンションが多すぎると、この情報の利用が非現実的になります。");
("The `Version` attribute is no longer part of the `Set-Cookie` specification,
and is ignored by browsers.

Because some software still interprets cookies differently when it is present,
[it can cause security 
issues](https://portswigger.net/research/bypassing-wafs-with-the-phantom-version-cookie).
",
 "「Version」属性は「Set-Cookie」仕様の一部ではなくなり、ブラウザによって無視されます。

一部のソフトウェアは、この属性がある場合にクッキーを依然として異なる方法で解釈するため、[セキュリティ上の問題が発生する可能性があります](https://portswigger.net/research/bypassing-wafs-with-the-phantom-version-cookie)。");
("The `Via` header indicates that one or more intermediaries are present between the user agent and
the origin server for the resource.

This may indicate that a proxy is configured, or that the server uses a ""reverse proxy"" or CDN in
front of it.

There field has three space-separated components; first, the HTTP version of the message that the
intermediary received, then the identity of the intermediary (usually but not always its hostname),
and then optionally a product identifier or comment (usually used to identify the software being
used).",
 "`Via` ヘッダーは、リソースへのユーザーエージェントとオリジンサーバーの間に1つ以上の仲介が存在することを示します。

これは、プロキシが構成されていること、またはサーバーがその前に「リバースプロキシ」またはCDNを使用していることを示している可能性があります。

このフィールドには、スペースで区切られた3つのコンポーネントがあります。まず、仲介が受信したメッセージのHTTPバージョン、次に仲介の識別子（通常はホスト名ですが、常にそうとは限りません）、そしてオプションで製品識別子またはコメント（通常は使用されているソフトウェアを識別するために使用されます）。");
("The `X-Frame-Options` response header controls how IE8 handles HTML frames; the `DENY` value
prevents this content from being rendered within a frame on another site, which defends against
certain types of attacks.

Currently this is supported by IE8 and Safari 4.

See [MDN](https://developer.mozilla.org/en-US/docs/Web/HTTP/Headers/X-Frame-Options) for more information.
",
 "`X-Frame-Options` レスポンスヘッダーは、IE8 が HTML フレームをどのように処理するかを制御します。`DENY` 値は、このコンテンツが他のサイトのフレーム内でレンダリングされるのを防ぎ、特定の種類の攻撃から保護します。

現在、これは IE8 と Safari 4 でサポートされています。

詳細については、[MDN](https://developer.mozilla.org/en-US/docs/Web/HTTP/Headers/X-Frame-Options) を参照してください。");
("The `X-Frame-Options` response header controls how IE8 handles HTML frames; the `DENY` value
prevents this content from being rendered within a frame, which defends against certain types of
attacks.

See [MDN](https://developer.mozilla.org/en-US/docs/Web/HTTP/Headers/X-Frame-Options) for more information.
",
 "`X-Frame-Options` レスポンスヘッダーは、IE8 が HTML フレームをどのように処理するかを制御します。`DENY` 値は、このコンテンツがフレーム内でレンダリングされるのを防ぎ、特定の種類の攻撃から保護します。

詳細については、[MDN](https://developer.mozilla.org/en-US/docs/Web/HTTP/Headers/X-Frame-Options) を参照してください。");
("The `credentialless`
[Cross-Origin Embedder Policy](https://fetch.spec.whatwg.org/#cross-origin-embedder-policy-header)
allows loading cross-origin resources without explicit permission in supporting browsers, but
requests for them will not include credentials (cookies, client certificates,
etc.).%(report_only_text)s",
 "`credentialless`
[Cross-Origin Embedder Policy](https://fetch.spec.whatwg.org/#cross-origin-embedder-policy-header)
は、対応ブラウザで明示的な許可なしにクロスオリジンリソースを読み込むことを許可しますが、それらのリソースに対するリクエストには認証情報（Cookie、クライアント証明書など）は含まれません。%(report_only_text)s");
("The `cross-origin`
[Cross-Origin Resource Policy](https://fetch.spec.whatwg.org/#cross-origin-resource-policy-header)
allows the resource to be read by any document in supporting browsers, regardless of its 
origin.%(report_only_text)s",
 "`cross-origin`
[Cross-Origin Resource Policy](https://fetch.spec.whatwg.org/#cross-origin-resource-policy-header)
により、リソースは、そのオリジンに関係なく、サポートしているブラウザの任意のドキュメントから読み取ることができます。%(report_only_text)s");
("The `domain` parameter on this `Set-Cookie` header is empty.

Note that handling of empty domains is 
[not interoperable](https://chromestatus.com/feature/5674723800252416).

Browsers will probably ignore it as a result.",
 "The `domain` パラメータがこの `Set-Cookie` ヘッダーで空です。

空のドメインの処理は
[非互換性があります](https://chromestatus.com/feature/5674723800252416)。

ブラウザはおそらくそれを無視するでしょう。");
("The `expires` date on this `Set-Cookie` header isn't valid; see
[RFC6265](https://www.rfc-editor.org/rfc/rfc6265) for details of the correct format.",
 "この`Set-Cookie`ヘッダーの`expires`日付は無効です。正しい形式については[RFC6265](https://www.rfc-editor.org/rfc/rfc6265)を参照してください。");
("The `includeSubDomains` directive indicates that this HSTS policy applies to this domain as well as
all of its subdomains.",
 "`includeSubDomains` ディレクティブは、この HSTS ポリシーがこのドメインおよびそのすべてのサブドメインに適用されることを示します。");
("The `includeSubDomains` directive indicates that this HSTS policy applies to this domain as well as
all of its subdomains.

Because cookies can be set across HTTP and HTTPS sites as well as across subdomains, this means 
that an attacker might be able to take advantage of a subdomain that doesn't have HSTS enabled.
",
 "`includeSubDomains` ディレクティブは、このHSTSポリシーがこのドメインおよびそのすべてのサブドメインに適用されることを示します。

CookieはHTTPサイトとHTTPSサイトの両方、およびサブドメイン全体で設定できるため、攻撃者がHSTSが有効になっていないサブドメインを利用する可能性があることを意味します。");
("The `match-dest` parameter must be a String or a list of Strings.",
 "The `match-dest` パラメータは、String または String のリストである必要があります。");
("The `max-age` directive in the `Strict-Transport-Security` header must be a non-negative
integer. The value ""%(max_age)s"" is not valid.",
 "`Strict-Transport-Security` ヘッダーの `max-age` ディレクティブは、非負の整数でなければなりません。値 ""%(max_age)s"" は無効です。");
("The `max-age` parameter on this `Set-Cookie` header doesn't have a value.

Browsers will ignore the `max-age` value as a result.",
 "この `Set-Cookie` ヘッダーの `max-age` パラメーターには値が指定されていません。

この結果、ブラウザーはこの `max-age` 値を無視します。");
("The `max-age` parameter on this `Set-Cookie` header has a leading zero.

Browsers will ignore the `max-age` value as a result.",
 "この`Set-Cookie`ヘッダーの`max-age`パラメータには、先頭にゼロが付いています。

その結果、ブラウザはこの`max-age`値を無視します。");
("The `max-age` parameter on this `Set-Cookie` header isn't numeric.

Browsers will ignore the `max-age` value as a result.",
 "`Set-Cookie` ヘッダーの `max-age` パラメーターは数値ではありません。

この結果、ブラウザーは `max-age` の値を無視します。");
("The `preload` directive on `Strict-Transport-Security` allows browsers to preload the site in
its HSTS lists, avoiding the potential for making unencrypted requests when first accessing the
site.

See the [HSTS Preload List](https://hstspreload.org/) for more information.
",
 "`Strict-Transport-Security` ヘッダーの `preload` ディレクティブは、ブラウザがサイトをHSTSリストにプリロードできるようにします。これにより、サイトに最初にアクセスしたときに暗号化されていないリクエストが行われる可能性を回避できます。

詳細については、[HSTS Preload List](https://hstspreload.org/) を参照してください。");
("The `q` parameter must be a decimal number between 0 and 1, with at most 3 digits of precision.",
 "The `q` パラメーターは、0 から 1 までの小数で、最大 3 桁の精度で表す必要があります。");
("The `report-to` directive [Content Security Policy](https://www.w3.org/TR/CSP3/)
specifies a reporting endpoint, but no matching endpoint refers to it in the
`Reporting-Endpoints` header.%(report_only_text)s",
 "The `report-to` ディレクティブ [Content Security Policy](https://www.w3.org/TR/CSP3/)
指定レポートエンドポイントですが、`Reporting-Endpoints` ヘッダーにはそれに一致するエンドポイントが含まれていません。%(report_only_text)s");
("The `report-to` parameter in the
[Cross-Origin Embedder Policy](https://fetch.spec.whatwg.org/#cross-origin-embedder-policy-header)
header specifies a reporting endpoint, but no matching endpoint refers to it in the
`Reporting-Endpoints` header.",
 "The `report-to` パラメーターは、
[クロスオリジン・エンベッダー・ポリシー](https://fetch.spec.whatwg.org/#cross-origin-embedder-policy-header)
ヘッダーで報告エンドポイントを指定しますが、`Reporting-Endpoints` ヘッダーに一致するエンドポイントはありません。");
("The `report-to` parameter in the
[Cross-Origin Opener Policy](https://html.spec.whatwg.org/multipage/origin.html#coop)
header specifies a reporting endpoint, but no matching endpoint refers to it in the
`Reporting-Endpoints` header.",
 "The `report-to` パラメータは、
[Cross-Origin Opener Policy](https://html.spec.whatwg.org/multipage/origin.html#coop)
ヘッダーで報告エンドポイントを指定しますが、`Reporting-Endpoints` ヘッダーでそれに言及しているエンドポイントはありません。");
("The `report-uri` [Content Security Policy](https://www.w3.org/TR/CSP3/)
directive is deprecated in favor of `report-to`. It is recommended to use `report-to`
for reporting violations, although `report-uri` may still be supported for backward
compatibility.",
 "`report-uri` [Content Security Policy](https://www.w3.org/TR/CSP3/)
ディレクティブは `report-to` に置き換えられ、非推奨になりました。違反の報告には `report-to` の使用が推奨されますが、後方互換性のために `report-uri` が引き続きサポートされる場合もあります。");
("The `report_to` member in the [Network Error Logging](https://w3c.github.io/network-error-logging/)
policy specifies a reporting endpoint, but no matching endpoint refers to it in the
`Reporting-Endpoints` header.",
 "The `report_to` メンバーは、[Network Error Logging](https://w3c.github.io/network-error-logging/) ポリシーで指定されたレポートエンドポイントを参照しますが、`Reporting-Endpoints` ヘッダーに一致するエンドポイントはありません。");
("The `require-corp`
[Cross Origin Embedder Policy](https://fetch.spec.whatwg.org/#cross-origin-embedder-policy-header)
requires that all cross-origin resources must explicitly grant permission to be loaded via a
`Cross-Origin-Resource-Policy` header, in supporting browsers.%(report_only_text)s",
 "`require-corp`
[Cross Origin Embedder Policy](https://fetch.spec.whatwg.org/#cross-origin-embedder-policy-header)
により、サポートされているブラウザでは、すべてのクロスオリジンリソースが
`Cross-Origin-Resource-Policy` ヘッダーを介して明示的に読み込み権限を付与する必要があります。%(report_only_text)s");
("The `same-origin-allow-popups`
[Cross-Origin Opener Policy](https://html.spec.whatwg.org/multipage/origin.html#coop)
isolates the browsing context but maintains a relationship
with popups that it opens, or that opened it, in supporting browsers.%(report_only_text)s",
 "`same-origin-allow-popups`
[Cross-Origin Opener Policy](https://html.spec.whatwg.org/multipage/origin.html#coop)
は、ブラウジングコンテキストを分離しますが、サポートしているブラウザで開くポップアップ、または自分を開いたポップアップとの関係を維持します。%(report_only_text)s");
("The `same-origin`
[Cross-Origin Opener Policy](https://html.spec.whatwg.org/multipage/origin.html#coop)
isolates the browsing context, preventing it from sharing a window object
with cross-origin documents in supporting browsers.%(report_only_text)s",
 "`same-origin`
[Cross-Origin Opener Policy](https://html.spec.whatwg.org/multipage/origin.html#coop)
はブラウジングコンテキストを分離し、対応ブラウザではクロスオリジンのドキュメントとウィンドウオブジェクトを共有できないようにします。%(report_only_text)s");
("The `same-origin`
[Cross-Origin Resource Policy](https://fetch.spec.whatwg.org/#cross-origin-resource-policy-header)
prevents the resource from being read by any cross-origin document 
in supporting browsers.%(report_only_text)s",
 "`same-origin`
[Cross-Origin Resource Policy](https://fetch.spec.whatwg.org/#cross-origin-resource-policy-header)
は、サポートしているブラウザにおいて、クロスオリジン文書からのリソースの読み取りを防止します。%(report_only_text)s");
("The `same-site`
[Cross-Origin Resource Policy](https://fetch.spec.whatwg.org/#cross-origin-resource-policy-header)
allows the resource to be read by documents from the same site, but
prevents it from being read by cross-site documents in supporting browsers.%(report_only_text)s",
 "`same-site`
[Cross-Origin Resource Policy](https://fetch.spec.whatwg.org/#cross-origin-resource-policy-header)
により、リソースは同一サイトのドキュメントから読み取ることができますが、対応ブラウザではクロスサイトのドキュメントからの読み取りを防ぎます。%(report_only_text)s");
("The `stale-if-error` cache directive allows a cache to return a stale response when an error
(e.g., a 500 Internal Server Error, or a network timeout) is encountered while attempting to
revalidate it.

See [RFC 5861](https://www.rfc-editor.org/rfc/rfc5861) for more information.",
 "`stale-if-error` キャッシュディレクティブにより、キャッシュは、再検証の試行中にエラー（例：500 Internal Server Error、またはネットワークタイムアウト）が発生した場合に、古いレスポンスを返すことができます。

詳細については、[RFC 5861](https://www.rfc-editor.org/rfc/rfc5861) を参照してください。");
("The `stale-while-revalidate` cache directive allows a cache to serve a stale response while a
revalidation request is happening in the background.

See [RFC 5861](https://www.rfc-editor.org/rfc/rfc5861) for more information.",
 "`stale-while-revalidate` キャッシュディレクティブにより、キャッシュはバックグラウンドで再検証リクエストが発生している間に、古いレスポンスを提供できます。

詳細については、[RFC 5861](https://www.rfc-editor.org/rfc/rfc5861) を参照してください。");
("The `unsafe-none`
[Cross-Origin Embedder Policy](https://fetch.spec.whatwg.org/#cross-origin-embedder-policy-header)
is the default behavior, allowing cross-origin resources to be loaded
without explicit permission in supporting browsers.

This does not provide cross-origin isolation.%(report_only_text)s",
 "`unsafe-none`
[Cross-Origin Embedder Policy](https://fetch.spec.whatwg.org/#cross-origin-embedder-policy-header)
はデフォルトの動作であり、サポートしているブラウザでは明示的な許可なしにオリジン外のリソースを読み込むことができます。

これにより、オリジン外からの分離は提供されません。%(report_only_text)s");
("The `unsafe-none`
[Cross-Origin Opener Policy](https://html.spec.whatwg.org/multipage/origin.html#coop)
is the default behavior in supporting browsers. It allows the document to share a browsing context
group with other documents unless they enforce isolation.%(report_only_text)s",
 "`unsafe-none`
[Cross-Origin Opener Policy](https://html.spec.whatwg.org/multipage/origin.html#coop)
は、対応ブラウザにおけるデフォルトの動作です。これにより、ドキュメントは、他のドキュメントが分離を強制しない限り、ブラウジングコンテキストグループを共有できます。%(report_only_text)s");
("The client has sent too many requests in a given amount of time.",
 "クライアントが一定時間内に多すぎるリクエストを送信しました。");
("The client needs to authenticate to gain network access.",
 "クライアントはネットワークアクセス権を得るために認証する必要があります。");
("The content doesn't match the declared Content-Type.",
 "Content-Typeで宣言された値とコンテンツが一致しません。");
("The deprecated report-uri directive is used.",
 "非推奨の report-uri ディレクティブが使用されています。");
("The filename in the Content-Disposition header contains a path character.",
 "Content-Disposition ヘッダーのファイル名にパス文字が含まれています。");
("The following cookies are set more than once in this response: %(cookie_names)s.

Browsers will likely accept all of them, but the order of application
may vary or be confusing.",
 "このレスポンスでは、以下のクッキーが複数回設定されています: %(cookie_names)s。

ブラウザはすべてを受け入れる可能性が高いですが、適用順序が異なる場合や混乱を招く可能性があります。");
("The following fields appear in `Accept-CH` but are not listed in the `Vary` header:
%(missing_fields)s, even though the response is cacheable.

Because these fields can affect the response content, they should be included in `Vary` to ensure
that caches store separate responses for different client hints.",
 "次のフィールドは `Accept-CH` に出現しますが、`Vary` ヘッダーにはリストされていません:
%(missing_fields)s, にもかかわらず応答はキャッシュ可能です.

これらのフィールドは応答のコンテンツに影響を与える可能性があるため、`Vary` を含めることで、キャッシュがクライアントのヒントごとに別々の応答を保存することを保証する必要があります.");
("The following header(s) are only used in the response to a Cross-Origin Resource Sharing (CORS)
preflight request:

%(headers)s

A preflight request is an `OPTIONS` request that includes an `Origin` header and an
`Access-Control-Request-Method` header.

This response was not to a CORS preflight request, so these headers should not be present.",
 "The following header(s)は、クロスオリジンリソース共有（CORS）プリフライトレクエストへの応答にのみ使用されます：

%(headers)s

プリフライトレクエストは、`OPTIONS` リクエストで、`Origin` ヘッダーと `Access-Control-Request-Method` ヘッダーが含まれます。

この応答は CORS プリフライトレクエストへの応答ではないため、これらのヘッダーは存在すべきではありません。");
("The identity transfer-coding isn't necessary.",
 "ID転送コーディングは不要です。");
("The item '%(item)s' is not a valid type for an allowlist.",
 "「%(item)s」という項目は、許可リストの有効なタイプではありません。");
("The item `%(item)s` is not a valid type for an allowlist.
Allowlists should contain origins (strings) or keywords (tokens).",
 "`%(item)s` は、許可リストの有効なタイプではありません。
許可リストには、オリジン（文字列）またはキーワード（トークン）を含める必要があります。");
("The match-dest parameter has an invalid type.",
 """The match-dest パラメータの型が無効です。""");
("The max-age directive in the HSTS header is invalid.",
 "HSTS ヘッダーの max-age ディレクティブが無効です。");
("The max-age is 0.",
 "max-age は 0 です。");
("The max-age is less than one year.",
 "max-age は1年未満です。");
("The members of a DAV binding have already been enumerated.",
 "DAV バインディングのメンバーは既に列挙されています。");
("The origin server requires the request to be conditional.",
 "オリジンサーバーは、リクエストが条件付きであることを要求しています。");
("The post-check cache directive's value is '0'.",
 "post-check キャッシュディレクティブの値は「0」です。");
("The post-check cache directive's value is larger than pre-check's.",
 "チェック後のキャッシュディレクティブの値がチェック前の値よりも大きいです。");
("The pre-check and post-check cache directives are both '0'.",
 "プリチェックおよびポストチェックのキャッシュディレクティブは両方とも '0' です。");
("The presence of the `Cache-Control: proxy-revalidate` and/or `s-maxage` directives forbids shared
caches (e.g., proxy caches) from using stale responses to satisfy requests.

For example, caches often use stale responses when they cannot connect to the origin server; when
this directive is present, they will return an error rather than a stale response.

These directives do not affect private caches; for example, those in browsers.",
 "`Cache-Control: proxy-revalidate` または `s-maxage` ディレクティブが存在すると、共有キャッシュ（例：プロキシキャッシュ）が期限切れのレスポンスを使用してリクエストを処理することが禁じられます。

たとえば、キャッシュはオリジンサーバーに接続できない場合に、しばしば期限切れのレスポンスを使用します。このディレクティブが存在すると、期限切れのレスポンスを返すのではなく、エラーが返されます。

これらのディレクティブは、プライベートキャッシュ（例：ブラウザのキャッシュ）には影響しません。");
("The protocol was upgraded without being requested.",
 "プロトコルは要求されずにアップグレードされました。");
("The q value on '{language}' is invalid.",
 "The q値が '{language}' で無効です。");
("The q value on '{media_type}' is invalid.",
 """The q値が'{media_type}'で無効です。""");
("The range specifier `%(value)s` is missing a hyphen separating the start and end positions.",
 "%(value)s の範囲指定子がハイフンで区切られていません");
("The report-to endpoint '%(endpoint)s' is not defined%(report_only)s.",
 "レポートエンドポイント「%(endpoint)s」は定義されていません%(report_only)s。");
("The report-to endpoint '%(endpoint)s' is not defined.",
 "レポートエンドポイント '%(endpoint)s' は定義されていません。");
("The reporting endpoint '%(value)s' is not defined.",
 "レポートエンドポイント '%(value)s' は定義されていません。");
("The reporting endpoint `%(name)s` must be a string URL. Found: %(value)s (type `%(found_type)s`).",
 "報告エンドポイント「%(name)s」は、文字列URLでなければなりません。見つかりました: %(value)s (型「%(found_type)s」)");
("The reporting endpoint `%(name)s` uses an insecure URL (`%(url)s`). Browsers may ignore it.",
 "報告エンドポイント `%(name)s` では、非暗号化 URL (`%(url)s`) を使用しています。ブラウザはこれを無視する場合があります。");
("The request HTTP version isn't supported.",
 "リクエストのHTTPバージョンはサポートされていません。");
("The request conflicted with the state of the resource.",
 "リソースの状態とリクエストが競合しました。");
("The request content was too large for the server.",
 "リクエストコンテンツがサーバーに対して大きすぎました。");
("The request didn't have a Range header.",
 "リクエストにRangeヘッダーがありませんでした。");
("The request didn't have an Expect header.",
 "リクエストに `Expect` ヘッダーがありませんでした。");
("The request didn't have any preconditions.",
 "リクエストに事前条件がありませんでした。");
("The request expectation failed.",
 "リクエストの期待値に失敗しました。");
("The request precondition failed.",
 "リクエストの前条件に失敗しました。");
("The request was directed at a server that is not able to produce a response.",
 "サーバーは応答を生成できませんでした。");
("The resource cannot produce a response that is acceptable to the client.",
 "このリソースはクライアントにとって受け入れ可能な応答を生成できません。");
("The resource could not be found.",
 "リソースが見つかりませんでした。");
("The resource does not allow the %(method)s method.",
 "リソースは、%(method)s メソッドを許可していません。");
("The resource doesn't support this media type in requests.",
 "リソースはリクエストでこのメディアタイプをサポートしていません。");
("The resource has Sunset.",
 "リソースには、 Sunset があります。");
("The resource has been deprecated.",
 "このリソースは非推奨です。");
("The resource is deprecated.",
 "このリソースは非推奨です。");
("The resource is gone.",
 "リソースは削除されました。");
("The resource is unavailable for legal reasons.",
 "リソースは、法的な理由により利用できません。");
("The resource last changed %(last_modified_string)s.",
 "リソースは%(last_modified_string)sに最後に変更されました。");
("The resource will be deprecated.",
 "このリソースは非推奨となります。");
("The response is compressed with a dictionary (dcb or dcz) and is cacheable, but does not list
`Available-Dictionary` in the `Vary` header.

[RFC 9842 Section 6.2](https://www.rfc-editor.org/rfc/rfc9842.html#section-6.2) requires that
cacheable dictionary-compressed responses MUST include `Available-Dictionary` in the `Vary` header
to prevent serving compressed content to clients that do not have the dictionary.",
 "応答は辞書（dcb または dcz）で圧縮され、キャッシュ可能ですが、Vary ヘッダーに「Available-Dictionary」を含みません。");
("The server couldn't find any resource to serve for the given URI.",
 "サーバーは、指定されたURIに対応するリソースを見つけられませんでした。");
("The server couldn't meet the 100-continue expectation.",
 "サーバーは100-continueの期待に応えられませんでした。");
("The server didn't understand the request.",
 "サーバーがリクエストを理解できませんでした。");
("The server doesn't implement the request method.",
 "サーバーはリクエストメソッドを実装していません。");
("The server has forbidden this request.",
 "サーバーはこのリクエストを禁止しました。");
("The server is temporarily unavailable.",
 "サーバーは現在一時的に利用できません。");
("The server is unwilling to process the request because its headers are too large.",
 "サーバーは、ヘッダーが大きすぎるため、リクエストの処理を拒否しました。");
("The server is unwilling to risk processing a request that might be replayed.",
 "サーバーは、再送される可能性のあるリクエストの処理をリスクとして回避したいと考えています。");
("The server previously had a resource at the given URI, but it is no longer there.",
 "サーバーは以前、指定されたURIにリソースを持っていましたが、現在は存在しません。");
("The server rejected the request because the request content sent was too large.",
 "サーバーは、送信されたリクエストコンテンツが大きすぎたため、リクエストを拒否しました。");
("The server returned 418 (I'm a Teapot), an easter egg defined in RFC 2324.",
 "サーバーは418 (I'm a Teapot) を返しました。これはRFC 2324 で定義されているイースターエッグです。");
("The server sent early hints.",
 "サーバーが早期ヒントを送信しました。");
("The server supports upload resumption.",
 "サーバーはアップロード再開をサポートしています。");
("The server terminated an operation because it encountered an infinite loop.",
 "サーバーで無限ループが検出されたため、操作が終了しました。");
("The server won't accept a URI this long %(uri_len)s.",
 "サーバーは、これほど長いURI（%(uri_len)s）を受け付けません。");
("The server's clock is %(clock_skew_string)s.",
 "サーバーの時計は %(clock_skew_string)s です。");
("The server's clock is correct.",
 "サーバーの時計は正しいです。");
("The speculation rule URL is not secure.",
 "「推測ルールURLは安全ではありません」");
("The speculation rule `%(url)s` uses an insecure URL. Browsers may ignore it.",
 "不安全なURLを使用する「%(url)s」の推測ルール。ブラウザはそれを無視する可能性があります。");
("The speculation rule must be a string URL. Found: %(value)s (type `%(found_type)s`).",
 "The specification rule must be a string URL. Found: %(value)s (type `%(found_type)s`).");
("The speculation rule value is invalid.",
 """The specification rule value is invalid.""");
("The status code is not an integer.",
 "ステータスコードは整数ではありません。");
("The status phrase can only contain ASCII characters.",
 "ステータスフレーズにはASCII文字のみを含めることができます。");
("The status phrase contains non-ASCII characters.",
 "ステータスフレーズにASCII以外の文字が含まれています。");
("The token `%(token)s` is not a valid keyword in an allowlist.
Valid tokens are `self` and `src`.",
 "トークン `%(token)s` は、allowlist の有効なキーワードではありません。
有効なトークンは `self` および `src` です。");
("The value '%(value)s' looks like a keyword but is a string.",
 "値 '%(value)s' はキーワードのように見えますが、文字列です。");
("The value `%(value)s` is a string, but it looks like a keyword.
If you meant to use the keyword, remove the quotes (e.g., `self` instead of `""self""`).",
 "値 `%(value)s` は文字列ですが、キーワードのように見えます。
キーワードを使用するつもりだった場合は、引用符を削除してください（例：「self」ではなく `self`）。");
("The value `%(value)s` is not a valid integer.",
 "値 `%(value)s` は有効な整数ではありません。");
("The value `%(value)s` is not defined for the `%(param)s` parameter.
",
 "`%(value)s` の値は `%(param)s` パラメータで定義されていません。");
("The value for '%(feature)s' should be an Inner List or the token '*'.",
 "「%(feature)s」の値は、Inner List またはトークン「*」である必要があります。");
("The value for the `%(feature)s` feature in `Permissions-Policy` is invalid. It should be either
an Inner List of origins (e.g., `(self ""https://example.com"")`) or the special token `*`.",
 "`Permissions-Policy` の `%(feature)s` フィーチャーの値が無効です。オリジンの内部リスト（例：`(self ""https://example.com"")`）または特殊トークン `*` のいずれかである必要があります。");
("The value for this field doesn't conform to its specified syntax; %(problem)s.

See [its definition](%(ref_uri)s) for more information.",
 "このフィールドの値はその構文に準拠していません; %(problem)s。

詳細については、[定義] (%(ref_uri)s) を参照してください。");
("The value for this field doesn't conform to its specified syntax; it will likely be ignored
by browsers.

See [its definition](%(ref_uri)s) for more information.",
 "このフィールドの値は指定された構文に準拠していません。ブラウザーによって無視される可能性があります。

詳細情報については [その定義](%(ref_uri)s) を参照してください。");
("The value for this field doesn't conform to its specified syntax; see [its
definition](%(ref_uri)s) for more information.",
 "このフィールドの値は指定された構文に準拠していません。[定義](%(ref_uri)s)を参照してください。");
("The value for this field has syntax specified using 
[Augmented BNF](https://www.rfc-editor.org/rfc/rfc5234.html),
but doesn't conform to it. See [the field's ABNF](%(ref_uri)s) for more information.

This error may or may not prevent recipients from parsing the field; fixing it will
improve interoperability.
",
 "このフィールドの値は、[Augmented BNF](https://www.rfc-editor.org/rfc/rfc5234.html) で構文が指定されていますが、それに準拠していません。詳細については、[フィールドの ABNF](%(ref_uri)s) を参照してください。");
("The values indicated by the `Content-Range` header are not valid. The first position must be less
than or equal to the last position, and the last position must be less than the complete length.",
 "`Content-Range` ヘッダで示された値は有効ではありません。最初の位置は最後的位置より小さか、またはそれに等しい必要があり、最後的位置は完全な長さの値より小さい必要があります。");
("The values indicated by the `Range` header are not valid. The first position must be less
than or equal to the last position.",
 "`Range` ヘッダで指定された値は有効ではありません。最初の位置は最後の位置以下である必要があります。");
("There are no defined semantics for content in %(method)s requests. While HTTP's framing layer
allows content to appear, that does not mean it is valid for every request method, and
including content in a %(method)s request can cause interoperability and security issues.
",
 "コンテンツのセマンティクスは %(method)s リクエストで定義されていません。HTTP のフレーム層はコンテンツを許可しますが、すべてのリクエスト メソッドで有効であるとは限りません。リクエストにコンテンツを含めると、互換性とセキュリティの問題が発生する可能性があります。");
("There is no max-age directive.",
 "max-age ディレクティブがありません。");
("There was a general server error.",
 "一般的なサーバーエラーが発生しました。");
("These headers are representation metadata that should not be sent in a 304 response unless
they are being used to guide cache updates:

%(headers)s

See [RFC 9110 Section 15.4.5](https://www.rfc-editor.org/rfc/rfc9110.html#section-15.4.5) for
more information.",
 "これらのヘッダーは、キャッシュ更新のガイダンスに使用されている場合を除き、304 レスポンスでは送信されるべきではない表現メタデータです。

%(headers)s

詳細については、[RFC 9110 セクション 15.4.5](https://www.rfc-editor.org/rfc/rfc9110.html#section-15.4.5) を参照してください。");
("This 304 (Not Modified) response contains headers that should not be sent.",
 "この304 (Not Modified) レスポンスには、送信されるべきではないヘッダーが含まれています。");
("This `Set-Cookie` header has an empty name; there needs to be a name before the `=`.

Browsers will ignore this cookie.",
 "この `Set-Cookie` ヘッダーには名前がありません。 `=` の前に名前が必要です。

ブラウザはこのクッキーを無視します。");
("This `Set-Cookie` header has an unknown ""%(attribute_name)s"" attribute value, ""%(attribute_value)s"".

Browsers will probably ignore it as a result.",
 "この `Set-Cookie` ヘッダーには、不明な ""%(attribute_name)s"" 属性値 ""%(attribute_value)s"" が含まれています。

このため、ブラウザはこれを無視する可能性が高いです。");
("This `Set-Cookie` value is %(set_cookie_value_length)s long.
",
 "この `Set-Cookie` 値は %(set_cookie_value_length)s 長いです。");
("This cookie has an extra parameter, ""%(attribute)s"".

Browsers will ignore it.",
 "このCookieには、追加のパラメータ「%(attribute)s」が含まれています。

ブラウザはこれを無視します。");
("This field is designed to only occur once in a message. When it occurs more than once, a receiver
needs to choose the one to use, which can lead to interoperability problems, since different
implementations may make different choices.",
 "このフィールドは、メッセージ内で1度だけ出現するように設計されています。複数回出現した場合、受信側はどちらを使用するかを選択する必要があり、実装によって選択が異なる可能性があるため、相互運用性の問題につながる可能性があります。");
("This field is no longer recommended for use, because of interoperability problems and/or
lack of use. This field should probably be removed.

See [the deprecation notice](%(deprecation_ref)s) for more information.",
 "このフィールドは、相互運用性の問題や/または使用不足のために、推奨されなくなりました。このフィールドは削除されるべきでしょう。

詳細情報については、[廃止通知](%(deprecation_ref)s) を参照してください。");
("This is a CORS preflight request.",
 "このリクエストは CORS の事前フライトリクエストです。");
("This is a CORS preflight response.",
 "これはクロスオリジンリクエストのプリフライト応答です。");
("This is a Cross-Origin Resource Sharing (CORS) preflight request.

A preflight request uses the `OPTIONS` method and includes an `Origin` and `Access-Control-Request-Method`
header.",
 "これは、クロスオリジンリソース共有（CORS）プリフライトレクエストです。

プリフライトレクエストは、`OPTIONS` メソッドを使用し、`Origin` と `Access-Control-Request-Method` ヘッダーを含みます。");
("This is a Cross-Origin Resource Sharing (CORS) preflight response.

It is a response to an `OPTIONS` request that includes an `Origin` and `Access-Control-Request-Method`
header.",
 "この Cross-Origin Resource Sharing (CORS) 事前処理応答です。

これは、`Origin` と `Access-Control-Request-Method` ヘッダーを含む `OPTIONS` 要求に対する応答です。");
("This isn't a valid URI. See
[RFC3986](http://www.ietf.org/rfc/rfc3986.txt) for more information.",
 "これは有効なURIではありません。[RFC3986](http://www.ietf.org/rfc/rfc3986.txt) を参照してください。");
("This isn't a valid status code; it needs to be an ASCII integer.",
 "これは有効なステータスコードではありません。ASCII整数である必要があります。");
("This message had parameters on its transfer-codings.",
 "このメッセージは transfer-codings にパラメータがありました。");
("This message was compressed using Brotli, but the data was corrupt.",
 "このメッセージは Brotli で圧縮されていましたが、データが破損しています。");
("This message was compressed using GZip, but the data was corrupt.",
 "このメッセージはGZipで圧縮されましたが、データが破損していました。");
("This message was compressed, but the GZIP header wasn't valid.",
 "このメッセージは圧縮されましたが、GZIPヘッダーが無効でした。");
("This request advertises a dictionary for compression, but the client doesn't support it.",
 "このリクエストは圧縮のための辞書を広告していますが、クライアントはそれをサポートしていません。");
("This resource varies in %(vary_count)s ways.",
 "このリソースは%(vary_count)s の点で異なります。");
("This response advertises support for non-standard range-units.",
 "このレスポンスは、非標準の range-units のサポートを広告しています。");
("This response allows all caches to store it.",
 "このレスポンスは、すべてのキャッシュが保存することを許可しています。");
("This response allows caches to assign their own freshness lifetimes to it.",
 "このレスポンスは、キャッシュが独自の鮮度寿命を割り当てることを許可します。");
("This response allows loading cross-origin resources without restriction%(report_only)s.",
 "このレスポンスは、クロスオリジンリソースの読み込みを無制限に許可します%(report_only)s。");
("This response allows only private caches to store it.",
 "このレスポンスは、プライベートキャッシュのみが保存できます。");
("This response allows only shared caches to store it.",
 "このレスポンスは共有キャッシュのみに保存を許可します。");
("This response allows sharing the browsing context with cross-origin documents%(report_only)s.",
 "このレスポンスは、クロスオリジン文書とブラウジングコンテキストを共有できます%(report_only)s。");
("This response can be served stale from a cache while it is being revalidated.",
 "このレスポンスは、再検証中にキャッシュから提供される場合に「stale」とみなされる可能性があります。");
("This response can be stored by all caches, even though the request was authenticated.",
 "このレスポンスは、リクエストが認証済みであっても、すべてのキャッシュによって格納できます。");
("This response can only be stored by private caches, because the request was authenticated.",
 "このレスポンスは、リクエストが認証されたため、プライベートキャッシュのみに保存できます。");
("This response can't be stored by caches.",
 "このレスポンスはキャッシュに保存できません。");
("This response cannot be considered fresh by caches.",
 "このレスポンスはキャッシュでフレッシュであるとはみなされません。");
("This response cannot be served by a cache now that it is stale.",
 "このレスポンスは、キャッシュが無効になったため、キャッシュから提供できません。");
("This response cannot be served by a cache once it becomes stale.",
 "このレスポンスは、鮮度を失った後にキャッシュから提供することはできません。");
("This response cannot be served by a shared cache now that it is stale.",
 "このレスポンスは、共有キャッシュでは提供できません。鮮度が低下しています。");
("This response cannot be served by a shared cache once it becomes stale.",
 "このレスポンスは、鮮度を失った後は共有キャッシュで提供できません。");
("This response cannot be served from cache without validation, and doesn't have a validator.",
 "このレスポンスは検証なしではキャッシュから提供できません。また、バリデーターも含まれていません。");
("This response cannot be served from cache without validation.",
 "このレスポンスは、検証なしではキャッシュから提供できません。");
("This response cannot be stored by caches.",
 "このレスポンスはキャッシュに保存できません。");
("This response contains both the `public` and `private` Cache-Control directives.",
 "このレスポンスには `public` と `private` の両方の Cache-Control ディレクティブが含まれています。");
("This response doesn't have a Date header.",
 "このレスポンスにはDateヘッダーがありません。");
("This response doesn't have explicit freshness information (like a ` Cache-Control: max-age`
directive, or `Expires` header), and this status code doesn't allow caches to calculate their own.

Additionally, its status code doesn't allow caches to assign their own freshness lifetimes to it.

Therefore, while caches might be allowed to store it, they generally can't use it, unless it can be
served stale.

As a result, many caches will not store the response at all, because it is not generally useful to do
so.",
 "このレスポンスには、`Cache-Control: max-age` ディレクティブや `Expires` ヘッダーのような明示的な鮮度情報がありません。また、このステータスコードではキャッシュが独自に鮮度を計算することもできません。

さらに、このステータスコードでは、キャッシュが独自に鮮度ライフタイムを割り当てることもできません。

そのため、キャッシュは保存を許可されるかもしれませんが、通常は期限切れとして提供できる場合を除いて、使用することはできません。

結果として、多くのキャッシュでは、一般的に有用ではないため、このレスポンスをまったく保存しません。");
("This response has a Set-Cookie header without a cookie-name.",
 "このレスポンスには、Cookie名のないSet-Cookieヘッダーが含まれています。");
("This response has already been cached for %(age)s.",
 "このレスポンスは%(age)s前からキャッシュされています。");
("This response has an Expires or Last-Modified header, but no Date.",
 "このレスポンスにはExpires または Last-Modified ヘッダーがありますが、Date ヘッダーがありません。");
("This response has both enforcing and report-only COEP headers.",
 "このレスポンスには、強制モードとレポートオンリーモードの両方の COEP ヘッダーが含まれています。");
("This response has both enforcing and report-only COOP headers.",
 "このレスポンスには、enforce および report-only の COOP ヘッダーの両方が含まれています。");
("This response has different freshness lifetimes for private (e.g., browser) and shared (e.g., proxy)
caches.

Private caches can consider it fresh for %(fresh_lifetime)s (until %(fresh_left)s from
now).

Shared caches can consider it fresh for %(share_lifetime)s (until %(share_left)s from now).",
 "このレスポンスは、プライベートキャッシュ（例：ブラウザ）と共有キャッシュ（例：プロキシ）で異なる鮮度有効期限を持っています。

プライベートキャッシュは %(fresh_lifetime)s （現在から %(fresh_left)s まで）の間、これを新鮮とみなすことができます。

共有キャッシュは %(share_lifetime)s （現在から %(share_left)s まで）の間、これを新鮮とみなすことができます。");
("This response instructs browsers not to 'sniff' its media type.",
 "このレスポンスは、ブラウザにメディアタイプを「スニッフィング」しないように指示します。");
("This response is %(private_status)s for %(fresh_left)s (%(shared_status)s for %(share_left)s in shared caches).",
 "このレスポンスは、%(fresh_left)s に対して%(private_status)sです（共有キャッシュでは%(share_left)s に対して%(shared_status)s）。");
("This response is available for reading to requests from all origins.",
 "このレスポンスは、すべてのオリジンからのリクエストで読み取り可能です。");
("This response is available for reading to requests from the same site.",
 "このレスポンスは、同一サイトからのリクエストでのみ読み取り可能です。");
("This response is compressed with a dictionary,but is missing Vary: Available-Dictionary.",
 "この応答は辞書で圧縮されていますが、Vary: Available-Dictionary がありません。");
("This response is fresh for %(freshness_left)s.",
 "このレスポンスは%(freshness_left)s間フレッシュです。");
("This response is only available for reading to requests from the same origin.",
 "このレスポンスは、同一オリジンからのリクエストに対してのみ読み取り専用で利用可能です。");
("This response is partial, but doesn't have a Content-Range header.",
 "このレスポンスは部分的ですが、Content-Range ヘッダーがありません。");
("This response is stale.",
 "このレスポンスは古いものです。");
("This response isolates the browsing context but allows popups%(report_only)s.",
 "このレスポンスは、ブラウジングコンテキストを分離しますが、ポップアップを許可します%(report_only)s。");
("This response isolates the browsing context to the same origin%(report_only)s.",
 "このレスポンスは、ブラウジングコンテキストを同一オリジンに限定します%(report_only)s。");
("This response loads cross-origin resources without credentials%(report_only)s.",
 "このレスポンスは、認証情報なしでクロスオリジンリソースを読み込みます%(report_only)s。");
("This response may be refreshed in the background by Internet Explorer.",
 "このレスポンスは、Internet Explorer によってバックグラウンドでリフレッシュされる可能性があります。");
("This response prevents some browsers from rendering it within a frame on another site.",
 "このレスポンスは、一部のブラウザが別のサイトでフレーム内にレンダリングすることを防ぎます。");
("This response prevents some browsers from rendering it within a frame.",
 "このレスポンスにより、一部のブラウザでのフレーム内レンダリングが防止されます。");
("This response requires resources to have a CORP header%(report_only)s.",
 "このレスポンスには、CORP ヘッダーを持つリソースが必要です%(report_only)s。");
("This response sets a Content Security Policy%(report_only)s.",
 "このレスポンスはContent Security Policy%(report_only)s を設定しています。");
("This response sets a Permissions Policy.",
 "このレスポンスは Permissions Policy を設定しています。");
("This response sets duplicate cookies.",
 "このレスポンスは重複したCookieを設定しています。");
("This response shouldn't have a Content-Range header.",
 "このレスポンスには Content-Range ヘッダーを含めるべきではありません。");
("This response targets cache directives to Content Delivery Networks.",
 "この応答は、コンテンツ配信ネットワークを対象としたキャッシュ指令を対象としています。");
("This response uses the '%(coding)s' content-coding, but it wasn't requested.",
 "この応答では、'%(coding)s' コンテンツコードを使用していますが、リクエストはされていません。");
("This response uses the '%(coding)s' transfer-coding, but it wasn't requested.",
 "この応答では「%(coding)s」転送コーディングを使用していますが、リクエストはありません。");
("This response's %(field_name)s has an invalid value.",
 "このレスポンスの%(field_name)sには無効な値が含まれています。");
("This response's Referrer-Policy allows unsafe URLs.",
 "このレスポンスのReferrer-Policyは、安全でないURLを許可します。");
("This response's Strict Transport Security (HSTS) header is invalid.",
 "このレスポンスの Strict Transport Security (HSTS) ヘッダーは無効です。");
("This response's `Content-Encoding` header indicates it has the `%(coding)s content-coding applied
, but the client didn't indicate support for it in the request.

Normally, clients ask for the encodings they want in the `Accept-Encoding` request header. Using
encodings that the client doesn't explicitly request can lead to interoperability problems.",
 "この応答の `Content-Encoding` ヘッダーは、`%(coding)s content-coding` が適用されていることを示していますが、クライアントは要求でそれをサポートしていないようです。

通常、クライアントは `Accept-Encoding` 要求ヘッダーで希望するエンコーディングを問い合わせます。クライアントが明示的に要求していないエンコーディングを使用すると、相互運用性の問題が発生する可能性があります。");
("This response's `Transfer-Encoding` header indicates it has the `%(coding)s` transfer-coding applied,
but the client didn't indicate support for it in the request.

Normally, clients ask for the encodings they want in the `TE` request header. Using codings that
the client doesn't explicitly request can lead to interoperability problems.",
 "この応答の `Transfer-Encoding` ヘッダーは、`%(coding)s` 転送エンコーディングが適用されていることを示していますが、クライアントはリクエストでそれをサポートしていないことを示しています。

通常、クライアントは `TE` リクエスト ヘッダーで希望するエンコーディングをリクエストします。クライアントが明示的に要求していないエンコーディングを使用すると、互換性 문제가発生する可能性があります。");
("This site has attempted to enable HTTP Strict Transport Security (HSTS), which tells the browser to only
communicate with it over a secure connection.

However, one or more issues prevent it from being valid. See the child notes for details.",
 "このサイトはHTTP Strict Transport Security (HSTS) を有効にしようとしましたが、ブラウザは安全な接続でのみ通信するように指示されています。

しかし、1つ以上の問題により、有効になりませんでした。詳細は子ノートを参照してください。");
("This site has enabled HTTP Strict Transport Security (HSTS), which tells the browser to only
communicate with it over a secure connection.",
 "このサイトではHTTP Strict Transport Security (HSTS) が有効になっており、ブラウザは安全な接続でのみ通信するように指示されます。");
("This status code doesn't define any meaning for the Location header.",
 "このステータスコードは、Locationヘッダーに定義された意味を持ちません。");
("This value must be %(expected_type)s.",
 "この値は%(expected_type)sでなければなりません。");
("Transparent Content Negotiation is not widely supported.",
 "透過型コンテンツネゴシエーションは広くサポートされていません。");
("Unsafe script evaluation is allowed.",
 "安全でないスクリプト評価が許可されています。");
("Using `unsafe-url` in `Referrer-Policy` means that the full URL (including query parameters) will
be sent as a referrer to all origins, including those that are not secure (HTTP). This can leak
sensitive information.",
 "`Referrer-Policy` で `unsafe-url` を使用すると、クエリパラメータを含む完全なURLが、安全でない (HTTP) オリジンを含むすべてのオリジンへのリファラーとして送信されます。これは機密情報を漏洩する可能性があります。");
("Usually, responses to authenticated requests can't be stored by shared caches. However, because
This response contains a `Cache-Control: %(directive)s` directive, it can be stored by all caches,
including shared caches (like those in proxies).",
 "通常、認証済みリクエストへの応答は共有キャッシュに保存できません。しかし、この応答には `Cache-Control: %(directive)s` ディレクティブが含まれているため、プロキシなどの共有キャッシュを含むすべてのキャッシュに保存できます。");
("Validation",
 "検証");
("Values in the `Clear-Site-Data` header must be quoted; unquoted values will be ignored. 

The following values were found unquoted: %(values)s.",
 "値は `Clear-Site-Data` ヘッダーで引用符で囲まなければならず、引用符で囲まれていない値は無視されます。

次の値が引用符で囲まれていないことが見つかりました: %(values)s.");
("Vary: * effectively makes this response uncacheable.",
 "Vary: * は、このレスポンスを実質的にキャッシュ不可能にします。");
("Vary: Host is not necessary.",
 "Vary: Host は不要です。");
("Vary: User-Agent can cause cache inefficiency.",
 "Vary: User-Agent はキャッシュの効率を低下させる可能性があります。");
("When a response doesn't have explicit freshness information (like a `Cache-Control: max-age`
directive, or `Expires` header), caches are allowed to estimate how fresh it is using a heuristic
(provided that the status code allows it).

Caches often do this using the `Last-Modified` header. For example, if a response was last modified a
week ago, a cache might consider it fresh for a day.

Consider adding a `Cache-Control: max-age` header; otherwise, it may be cached for longer or shorter
than you'd like.",
 "明確な鮮度情報（`Cache-Control: max-age` ディレクティブや `Expires` ヘッダーなど）がない場合、キャッシュはヒューリスティックを使用して鮮度を推定できます（ステータスコードが許可する場合）。

キャッシュはしばしば `Last-Modified` ヘッダーを使用してこれを行います。たとえば、応答が1週間前に最後に変更された場合、キャッシュは1日新鮮だと見なすかもしれません。

`Cache-Control: max-age` ヘッダーを追加することを検討してください。そうしないと、意図したよりも長く、または短くキャッシュされる可能性があります。");
("When a status code is deprecated, it should not be used, because its meaning is not well-defined
enough to ensure interoperability.",
 "ステータスコードが非推奨の場合は、相互運用性を確保するのに十分なほど意味が定義されていないため、使用しないでください。");
("While caches can store many kinds of response as being heuristically cacheable -- that is,
they can store them without explicit caching directives like Cache-Control:max-age, this
reponse's status code is not defined as being heuristically cacheable, and other directives
that would allow it to be stored (such as Cache-Control: public) are not present.

Note that a cache extension might override this behaviour.",
 "キャッシュは、Cache-Control:max-age のような明示的なキャッシュディレクティブなしで、ヒューリスティックにキャッシュ可能と見なされる多くの種類の応答を保存できますが、この応答のステータスコードはヒューリスティックにキャッシュ可能とは定義されておらず、保存を許可する他のディレクティブ (Cache-Control: public など) も存在しません。

キャッシュ拡張機能がこの動作を上書きする可能性があることに注意してください。");
("Without a `preload` directive, browsers may make an unencrypted request when first accessing the
site, potentially exposing sensitive information.

See the [HSTS Preload List](https://hstspreload.org/) for more information.
",
 "`preload` ディレクティブがない場合、ブラウザは最初にサイトにアクセスする際に暗号化されていないリクエストを行う可能性があり、機密情報が公開される恐れがあります。

詳細については、[HSTS Preload List](https://hstspreload.org/) を参照してください。");
("X-Content-Type-Options contains an unknown value.",
 "X-Content-Type-Options に未知の値が含まれています。");
("[Content Security Policy](https://www.w3.org/TR/CSP3/) allows the server to declare
the sources of content that browsers are allowed to use on a page.%(report_only_text)s",
 "[Content Security Policy](https://www.w3.org/TR/CSP3/) は、ブラウザがページで使用することを許可されるコンテンツのソースをサーバーが宣言できるようにします。%(report_only_text)s");
("`%(value)s` is not a valid in the `Cross-Origin-Resource-Policy` header;
it must be one of `same-origin`, `same-site`, or `cross-origin`.
",
 "%(value)s は `Cross-Origin-Resource-Policy` ヘッダーで有効な値ではありません。 `same-origin`、 `same-site`、または `cross-origin` のいずれかである必要があります。");
("`Cache-Control: public` and `Cache-Control: private` conflict; they should not occur on the same message.

Conservative caches will ignore `public` and honor `private`, but this cannot be relied upon.",
 "`Cache-Control: public` と `Cache-Control: private` は競合します。同じメッセージに含めるべきではありません。

保守的なキャッシュは `public` を無視して `private` を優先しますが、これは信頼できません。");
("`Content-Length` is used by HTTP to delimit messages; that is, to mark the end of one message and
the beginning of the next.",
 "`Content-Length` は、HTTP がメッセージを区切るために使用されます。つまり、あるメッセージの終わりと次のメッセージの始まりを示します。");
("`Content-Length` is used by HTTP to delimit messages; that is, to mark the end of one message and
the beginning of the next. An incorrect `Content-Length` can cause security and interoperability
issues.

The actual content size was %(content_length)s bytes.",
 "`Content-Length` は HTTP でメッセージを区切るために使用されます。つまり、あるメッセージの終端と次のメッセージの開始を示します。不正確な `Content-Length` は、セキュリティおよび相互運用性の問題を引き起こす可能性があります。

実際のコンテンツサイズは %(content_length)s バイトでした。");
("`Location` was originally specified to contain an absolute, not relative, URI.

It is in the process of being updated, and most clients will work around this.

The correct absolute URI is (probably): `%(full_uri)s`",
 "`Location` は、相対URIではなく絶対URIを含むように当初指定されていました。

現在更新中であり、ほとんどのクライアントはこの問題を回避します。

正しい絶対URIは（おそらく）次のとおりです。`%(full_uri)s`");
("`Vary *` indicates that responses for this resource vary by some aspect that can't (or won't) be
described by the server. This makes this response effectively uncacheable.",
 "`Vary *` は、サーバーで説明できない（または説明しない）何らかの側面によって、このリソースの応答が異なることを示します。これにより、この応答は実質的にキャッシュ不可能になります。");
("ahead",
 "先頭");
("behind",
 "後ろ");
("cache directive names are case-insensitive, but some implementations don't
recognize directives that aren't all-lowercase.

Therefore, it's safest to use `%(directive_lower)s` instead of `%(directive)s`.",
 "キャッシュディレクティブ名はケースインセンシティブですが、一部の実装では
すべて小文字でないディレクティブを認識しません。

そのため、`%(directive)s` の代わりに `%(directive_lower)s` を使用するのが安全です。");
("header",
 "ヘッダー");
("message",
 "メッセージ");
("request",
 "リクエスト");
("response",
 "レスポンス");
("trailer",
 "トレーラー")].
