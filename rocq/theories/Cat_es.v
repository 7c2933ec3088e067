(** GENERATED by tools/gencat.py from /repo/httplint/translations/es/LC_MESSAGES/messages.mo: do not edit.
    Every (message, translation) pair of the catalogue, as UTF-8 text. *)
From Coq Require Import String List.
Import ListNotations.
Local Open Scope string_scope.
Definition catalogue : list (string * string) := [
("",
 "Project-Id-Version: PROJECT VERSION
Report-Msgid-Bugs-To: EMAIL@ADDRESS
POT-Creation-Date: 2026-01-18 17:17+1100
PO-Revision-Date: 2025-12-01 09:53+1100
Last-Translator: FULL NAME <EMAIL@ADDRESS>
Language: es
Language-Team: es <LL@li.org>
Plural-Forms: nplurals=2; plural=(n != 1);
MIME-Version: 1.0
Content-Type: text/plain; charset=utf-8
Content-Transfer-Encoding: 8bit
Generated-By: Babel 2.17.0
");
("""%(field_name)s"" is not a valid field name.",
 """%(field_name)s"" no es un nombre de campo válido.");
("""%(field_name)s"" isn't valid in a request.",
 """%(field_name)s"" no es válido en una solicitud.");
("""%(field_name)s"" isn't valid in a response.",
 """%(field_name)s"" no es válido en una respuesta.");
("%(message)s can not have content.",
 "No puede tener contenido %(message)s.");
("%(method)s is not allowed, but the resource lists it in Allow.",
 "%(method)s no está permitido, pero el recurso lo enumera en Allow.");
("%(status)s is not a standard HTTP status code.",
 "%(status)s no es un código de estado HTTP estándar.");
("%(value)s is not a valid origin.",
 "El %(value)s no es un origen válido.");
("'%(token)s' is not valid in an allowlist.",
 "'%(token)s' no es válido en una lista blanca.");
("304 (Not Modified) responses need to have a Date header.",
 "Las respuestas 304 (No modificado) necesitan tener una cabecera Date.");
("A 100 (Continue) response was sent when it wasn't asked for.",
 "Se envió una respuesta 100 (Continue) cuando no se solicitó.");
("A HTTP response is stale when its age (here, %(current_age)s) is equal to or exceeds
its freshness lifetime (in this case, %(freshness_lifetime)s).

There are a few reasons why a cache might serve a stale response:

* HTTP allows stale responses to be used to satisfy requests in exceptional circumstances;
e.g., when they lose contact with the origin server. This is subject to a number of requirements.
* Response directives like `stale-if-error` and `stale-while-revalidate` explicitly allow stale
  responses to be used in particular circumstances.
* Some caches are configured to ignore the response's freshness directives.",
 "Una respuesta HTTP está obsoleta cuando su antigüedad (aquí, %(current_age)s) es igual o excede
su vida útil de frescura (en este caso, %(freshness_lifetime)s).

Hay varias razones por las que una caché podría servir una respuesta obsoleta:

* HTTP permite que las respuestas obsoletas se utilicen para satisfacer solicitudes en circunstancias excepcionales;
por ejemplo, cuando pierden el contacto con el servidor de origen. Esto está sujeto a una serie de requisitos.
* Directivas de respuesta como `stale-if-error` y `stale-while-revalidate` permiten explícitamente que las respuestas obsoletas se utilicen en circunstancias particulares.
* Algunas cachés están configuradas para ignorar las directivas de frescura de la respuesta.");
("A `max-age` of 0 tells the browser to expire the `Strict-Transport-Security` policy immediately,
effectively disabling it.",
 "Un `max-age` de 0 le dice al navegador que expire la política `Strict-Transport-Security` inmediatamente,
deshabilitándola efectivamente.");
("A cache can store this response; it may or may not be able to use it to satisfy a particular
request.",
 "Una caché puede almacenar esta respuesta; puede que pueda o no utilizarla para satisfacer una solicitud concreta.");
("A new resource was created in response to a safe request.",
 "Se creó un nuevo recurso en respuesta a una solicitud segura.");
("A new resource was created without its location being sent.",
 "Se creó un nuevo recurso sin que se enviara su ubicación.");
("A partial response was sent when it wasn't requested.",
 "Se envió una respuesta parcial cuando no se solicitó.");
("A response can be considered fresh when its age (here, %(current_age)s) is less than its freshness
lifetime (in this case, %(freshness_lifetime)s).",
 "Una respuesta puede considerarse fresca cuando su antigüedad (aquí, %(current_age)s) es menor que su vida útil de frescura (en este caso, %(freshness_lifetime)s).");
("A response should not have both `Cross-Origin-Embedder-Policy` and
`Cross-Origin-Embedder-Policy-Report-Only` headers. The report-only header will be ignored.",
 "Una respuesta no debe tener las cabeceras `Cross-Origin-Embedder-Policy` y
`Cross-Origin-Embedder-Policy-Report-Only` al mismo tiempo. La cabecera report-only será ignorada.");
("A response should not have both `Cross-Origin-Opener-Policy` and
`Cross-Origin-Opener-Policy-Report-Only` headers. The report-only header will be ignored.",
 "Una respuesta no debería tener las cabeceras `Cross-Origin-Opener-Policy` y
`Cross-Origin-Opener-Policy-Report-Only` al mismo tiempo. La cabecera report-only será ignorada.");
("A shared cache can store this response; it may or may not be able to use it to satisfy a
particular request.

Private caches cannot store it, because there is no explicit freshness information
(such as Cache-Control: max-age), and the status code is not heuristically cacheable.

Note that a cache extension might override this behaviour.",
 "Una caché compartida puede almacenar esta respuesta; puede o no poder usarla para satisfacer una solicitud particular.

Las cachés privadas no pueden almacenarla, porque no hay información explícita de frescura (como Cache-Control: max-age), y el código de estado no es heurísticamente almacenable en caché.

Tenga en cuenta que una extensión de caché podría anular este comportamiento.");
("Accept-CH is ignored over plain HTTP.",
 "Accept-CH se ignora en HTTP simple.");
("Accept-CH lists fields that are missing from Vary.",
 "Accept-CH: enum(header, fields)");
("Access-Control-Allow-Credentials must be 'true'.",
 "Access-Control-Allow-Credentials debe ser 'true'.");
("Access-Control-Allow-Origin should not have multiple values.",
 "Access-Control-Allow-Origin no debe tener valores múltiples.");
("Access-Control-Max-Age must be an integer.",
 "El Access-Control-Max-Age debe ser un entero.");
("Access-Control-Max-Age must be non-negative.",
 "El Access-Control-Max-Age debe ser no negativo.");
("All sources are allowed in one or more directives.",
 "Se permiten todas las fuentes en una o más directivas.");
("Allowing `http:` sources in `%(field_name)s` can allow attackers to intercept and modify
content loaded by the page, potentially bypassing security controls.

It was found in the following directives:

%(directives_list)s",
 "Permitir fuentes `http:` en `%(field_name)s` puede permitir a los atacantes interceptar y modificar el contenido cargado por la página, eludiendo potencialmente los controles de seguridad.

Se encontró en las siguientes directivas:

%(directives_list)s");
("Although HTTP allows a server not to send a `Date` header in responses if it doesn't have a local
clock, this can make calculation of a stored response's age inexact.",
 "Aunque HTTP permite que un servidor no envíe una cabecera `Date` en las respuestas si no tiene un reloj local, esto puede hacer que el cálculo de la antigüedad de una respuesta almacenada sea inexacto.");
("An intermediary encountered an error.",
 "Un intermediario encontró un error.");
("An intermediary timed out.",
 "Un intermediario agotó el tiempo de espera.");
("Because both the `Expires` and `Last-Modified` headers are date-based, it's necessary to send when
the message was generated in `Date` for them to be useful; otherwise, clock drift, transit times
between nodes as well as caching could skew their application.",
 "Dado que tanto las cabeceras `Expires` como `Last-Modified` se basan en fechas, es necesario enviar la fecha de generación del mensaje en `Date` para que sean útiles; de lo contrario, la deriva del reloj, los tiempos de tránsito entre nodos, así como el almacenamiento en caché, podrían sesgar su aplicación.");
("Because the request was authenticated and this response doesn't contain a `Cache-Control: public`
directive, this response can only be stored by caches that are specific to a single user; for
example, a browser cache. Shared caches, such as those in proxies, cannot store it.",
 "Debido a que la solicitud fue autenticada y esta respuesta no contiene la directiva `Cache-Control: public`, esta respuesta solo puede ser almacenada por cachés que son específicos para un solo usuario; por ejemplo, la caché de un navegador. Las cachés compartidas, como las de los proxies, no pueden almacenarla.");
("Brotli-compressed responses use brotli compression to reduce the number of bytes transferred on the
wire. However, this response could not be decompressed; the error encountered was
""`%(brotli_error)s`"".

%(ok_brotli_len)s bytes were decompressed successfully before this; the erroneous chunk starts with (in hex):

    %(chunk_sample)s
",
 "Respuestas Brotli-comprimidas utilizan la compresión Brotli para reducir la cantidad de bytes transferidos por el cable. Sin embargo, esta respuesta no pudo descomprimirse; el error encontrado fue:

`%(brotli_error)s`.

Se descomprimieron correctamente %(ok_brotli_len)s bytes antes de esto; el fragmento erráneo comienza con (en hexadecimal):

`%(chunk_sample)s`");
("Browser Security",
 "Seguridad del navegador");
("Browser preloading is allowed, but this policy isn't suitable for it.",
 "La precarga del navegador está permitida, pero esta política no es adecuada para ello.");
("Browser preloading is allowed.",
 "Se permite la precarga del navegador.");
("Browser preloading isn't allowed.",
 "La precarga del navegador no está permitida.");
("CORS headers are only allowed in preflight responses.",
 "Los encabezados CORS solo están permitidos en respuestas de pre-vuelo.");
("Cache groups need to be strings.",
 "Los grupos de caché necesitan ser cadenas.");
("Cache-Control: max-age and Expires are both present.",
 "Cache-Control: max-age y Expires están presentes.");
("Cache-Control: public is probably not necessary.",
 "Cache-Control: public probablemente no sea necesario.");
("Caching",
 "Almacenamiento en caché");
("Clear-Site-Data contains unquoted values.",
 "Clear-Site-Data contiene valores sin comillas.");
("Clients SHOULD send a `User-Agent` header field.

See [RFC 9110 Section 10.1.5](https://www.rfc-editor.org/rfc/rfc9110.html#section-10.1.5)
for details.",
 "Los clientes DEBERÍAN enviar un campo de encabezado `User-Agent`.

Consulte [RFC 9110 Sección 10.1.5](https://www.rfc-editor.org/rfc/rfc9110.html#section-10.1.5)
para ver los detalles.");
("Compared to the local clock, the server's clock does not appear to be well-synchronised.

HTTP's caching model assumes reasonable synchronisation between clocks on the server and client;
clock skew can cause responses that should be cacheable to be considered uncacheable (especially if
their freshness lifetime is short).

Ask your server administrator to synchronise the clock, e.g., using
[NTP](http://en.wikipedia.org/wiki/Network_Time_Protocol Network Time Protocol).

Apparent clock skew can also be caused by caching the response without adjusting the `Age` header;
e.g., in a reverse proxy or Content Delivery network. See [this
paper](https://www.usenix.org/legacy/events/usits01/full_papers/cohen/cohen_html/index.html) for more information. ",
 "Comparado con el reloj local, el reloj del servidor no parece estar bien sincronizado.

El modelo de caché de HTTP asume una sincronización razonable entre los relojes del servidor y el cliente; la desviación del reloj puede hacer que las respuestas que deberían ser cacheadas se consideren no cacheadas (especialmente si su vida útil de frescura es corta).

Pida a su administrador de servidor que sincronice el reloj, por ejemplo, usando [NTP](http://en.wikipedia.org/wiki/Network_Time_Protocol Protocolo de Tiempo de Red).

La desviación aparente del reloj también puede ser causada al cachear la respuesta sin ajustar la cabecera `Age`; por ejemplo, en un proxy inverso o una red de entrega de contenidos. Consulte [este artículo](https://www.usenix.org/legacy/events/usits01/full_papers/cohen/cohen_html/index.html) para más información.");
("Connection",
 "Conexión");
("Content Negotiation",
 "Negociación de contenido");
("Content-Length and Transfer-Encoding should not be present together.",
 "Content-Length y Transfer-Encoding no deben estar presentes juntos.");
("Content-Length should be an integer.",
 "Content-Length debería ser un entero.");
("Cookies",
 "Cookies");
("Cross-Origin Resource Sharing",
 "Compartir recursos entre orígenes");
("Cross-Origin-Resource-Policy has an invalid value.",
 "Cross-Origin-Resource-Policy tiene un valor no válido.");
("Detailed information about caching is available.",
 "Hay información detallada sobre el almacenamiento en caché disponible.");
("Directives must only appear once in the `%(field_name)s` header; subsequent occurrences are ignored.

The following directives were duplicated:

%(directives_list)s",
 "Las directivas solo deben aparecer una vez en la cabecera `%(field_name)s`; las ocurrencias subsiguientes se ignoran.

Las siguientes directivas se duplicaron:

%(directives_list)s");
("Duplicate directives are present.",
 "Se encuentran directivas duplicadas.");
("Each `%(field_name)s` field line must be valid JSON.

The JSON parsing error was:
    %(error)s",
 "Cada línea de campo «%(field_name)s» debe ser un JSON válido.

El error de análisis JSON fue:
    «%(error)s»");
("Field names are limited to the `token` production in HTTP; i.e., they can't contain parenthesis,
angle brackets (<>), ampersands (@), commas, semicolons, colons, backslashes (\), forward
slashes (/), quotes, square brackets ([]), question marks, equals signs (=), curly brackets ({})
spaces or tabs.",
 "Los nombres de campo están limitados a la producción `token` en HTTP; es decir, no pueden contener paréntesis, corchetes angulares (<>), ampersands (@), comas, punto y coma, dos puntos, barras invertidas (\), barras diagonales (/), comillas, corchetes ([]) , signos de interrogación, signos de igual (=), llaves ({}) espacios o tabulaciones.");
("GZip-compressed responses have a header that contains metadata. Here, that header wasn't valid;
the error encountered was ""`%(gzip_error)s`"".",
 "Las respuestas GZip comprimidas tienen una cabecera que contiene metadatos. Aquí, esa cabecera no era válida;
el error encontrado fue ""`%(gzip_error)s`"".");
("GZip-compressed responses use zlib compression to reduce the number of bytes transferred on the
wire. However, this response could not be decompressed; the error encountered was
""`%(zlib_error)s`"".

%(ok_zlib_len)s bytes were decompressed successfully before this; the erroneous chunk starts with (in hex):

    %(chunk_sample)s
",
 "Las respuestas comprimidas con GZip utilizan la compresión zlib para reducir el número de bytes transferidos por la red. Sin embargo, esta respuesta no pudo ser descomprimida; el error encontrado fue ""`%(zlib_error)s`"".

Se descomprimieron %(ok_zlib_len)s bytes correctamente antes de esto; el fragmento erróneo comienza con (en hexadecimal):

    %(chunk_sample)s");
("General",
 "General");
("HSTS applies to subdomains.",
 "HSTS se aplica a subdominios.");
("HSTS doesn't apply to subdomains.",
 "HSTS no se aplica a subdominios.");
("HTTP allows clients to ask a server if a request containing content (e.g., uploading a large file)
will succeed before sending it, using a mechanism called ""Expect/continue"".

When used, the client sends an `Expect: 100-continue`, in the request headers, and if the server is
willing to process it, it will send a `100 (Continue)` status code to indicate that the request
should continue.

This response has a `100 (Continue)` status code, but the request did not ask for it using the
`Expect` request header. Sending this status code without it being requested can cause
interoperability problems.",
 "HTTP permite a los clientes preguntar a un servidor si una solicitud que contiene contenido (por ejemplo, la carga de un archivo grande)
tendrá éxito antes de enviarla, utilizando un mecanismo llamado ""Expect/continue"".

Cuando se utiliza, el cliente envía un `Expect: 100-continue` en las cabeceras de la solicitud, y si el servidor está
dispuesto a procesarla, enviará un código de estado `100 (Continue)` para indicar que la solicitud
debe continuar.

Esta respuesta tiene un código de estado `100 (Continue)`, pero la solicitud no lo pidió utilizando la
cabecera de solicitud `Expect`. Enviar este código de estado sin que se solicite puede causar
problemas de interoperabilidad.");
("HTTP allows stale responses to be served in some circumstances; for example, if the origin
server can't be contacted, a stale response can be used even if it doesn't have explicit freshness
information available.

This behaviour can be prevented by using the `Cache-Control: must-revalidate` response directive.",
 "HTTP permite que se sirvan respuestas obsoletas en algunas circunstancias; por ejemplo, si no se puede contactar al servidor de origen, se puede usar una respuesta obsoleta incluso si no tiene información de frescura explícita disponible.

Este comportamiento se puede prevenir usando la directiva de respuesta `Cache-Control: must-revalidate`.");
("HTTP allows transfer-codings in the `Transfer-Encoding` header to have optional parameters, but it
doesn't define what they mean.

This message has encodings with such parameters; although they're technically allowed, they may
cause interoperability problems. They should be removed.",
 "HTTP permite a las `transfer-codings` en la cabecera `Transfer-Encoding` tener parámetros opcionales, pero no define su significado.

Este mensaje tiene codificaciones con tales parámetros; aunque técnicamente están permitidos, pueden causar problemas de interoperabilidad. Deberían eliminarse.");
("HTTP dates have specific syntax, and sending an invalid date can cause a number of problems,
especially with caching. Common problems include sending ""1 May"" instead of ""01 May"" (the month
is a fixed-width field), and sending a date in a timezone other than GMT.

See [the HTTP specification](https://www.rfc-editor.org/rfc/rfc9110.html#name-date-time-formats) for more
information.",
 "Las fechas HTTP tienen una sintaxis específica, y enviar una fecha no válida puede causar una serie de problemas, especialmente con el almacenamiento en caché. Los problemas comunes incluyen enviar ""1 May"" en lugar de ""01 May"" (el mes es un campo de ancho fijo) y enviar una fecha en una zona horaria distinta de GMT.

Consulte [la especificación HTTP](https://www.rfc-editor.org/rfc/rfc9110.html#name-date-time-formats) para obtener más información.");
("HTTP defines _transfer-codings_ as a hop-by-hop encoding of the message's content. The `identity`
transfer-coding was defined as the absence of encoding; it doesn't do anything, so it is unnecessary.

You can remove this token to save a few bytes.",
 "HTTP define _transfer-codings_ como una codificación hop-by-hop del contenido del mensaje. La _transfer-coding_ `identity` se definió como la ausencia de codificación; no hace nada, por lo que es innecesaria.

Puede eliminar este token para ahorrar unos pocos bytes.");
("HTTP defines an algorithm that uses the `Age` header, `Date` header, and local time observations to
determine the age of a response. As a result, caches might use a value other than that in the `Age`
header to determine how old the response is -- and therefore how much longer it can be used.",
 "HTTP define un algoritmo que utiliza la cabecera `Age`, la cabecera `Date` y las observaciones de tiempo local para
determinar la antigüedad de una respuesta. Como resultado, las cachés pueden usar un valor diferente al de la cabecera `Age`
para determinar cuánta antigüedad tiene la respuesta y, por lo tanto, cuánto tiempo más se puede utilizar.");
("HTTP defines the `Upgrade` header as a means of negotiating a change of protocol; i.e., it
allows you to switch the protocol on a given connection from HTTP to something else.

This response was upgraded, but the request did not contain an `Upgrade` header field.
",
 "HTTP define la cabecera `Upgrade` como un medio para negociar un cambio de protocolo; es decir, permite cambiar el protocolo en una conexión dada de HTTP a otra cosa.

Esta respuesta se actualizó, pero la solicitud no contenía un campo de cabecera `Upgrade`.");
("HTTP field names can only contain ASCII characters.",
 "Los nombres de campo HTTP solo pueden contener caracteres ASCII.");
("HTTP fields notionally use the ISO-8859-1 character set, but in most cases are pure ASCII
(a subset of this encoding).

This field has non-ASCII characters, which have been interpreted as being encoded in
ISO-8859-1. If another encoding is used (e.g., UTF-8), the results may be unpredictable.",
 "HTTP campos teóricamente utilizan el conjunto de caracteres ISO-8859-1, pero en la mayoría de los casos son ASCII puro (un subconjunto de esta codificación).");
("HTTP has a number of defined date formats for historical reasons. This header is using an old
format that are now obsolete. See [the
specification](https://www.rfc-editor.org/rfc/rfc9110.html#name-obsolete-date-formats) for more information.
",
 "HTTP tiene varios formatos de fecha definidos por razones históricas. Esta cabecera está utilizando un formato antiguo que ahora está obsoleto. Consulte [la especificación](https://www.rfc-editor.org/rfc/rfc9110.html#name-obsolete-date-formats) para obtener más información.");
("HTTP only defines `Pragma: no-cache`; other uses of this header are deprecated.",
 "HTTP solo define `Pragma: no-cache`; otros usos de esta cabecera están obsoletos.");
("HTTP only defines meaning for the `Content-Range` header in responses with a `206` (Partial
Content) or `416` (Requested Range Not Satisfiable) status code.

Because the status code is neither of those, this `Content-Range` header may confuse caches and
clients.",
 "HTTP solo define el significado de la cabecera `Content-Range` en respuestas con un código de estado `206` (Contenido Parcial) o `416` (Rango Solicitado No Satisfecho).

Dado que el código de estado no es ninguno de estos, esta cabecera `Content-Range` puede confundir a las cachés y a los clientes.");
("HTTP only defines one expectation, `100-continue`. This expectation is not recognized.",
 "HTTP solo define una expectativa, `100-continue`. Esta expectativa no es reconocida.");
("HTTP prohibits a user agent from sending a Referer header field if the referring resource was
accessed with a secure protocol and the request target has an origin differing from that of the
referring resource, unless the referring resource explicitly allows Referer to be sent.

See [RFC 9110 Section 10.1.3](https://www.rfc-editor.org/rfc/rfc9110.html#section-10.1.3)
for details.",
 "HTTP prohíbe que un agente de usuario envíe un campo de encabezado Referer si el recurso de referencia se accedió con un protocolo seguro y el objetivo de la solicitud tiene un origen diferente al del recurso de referencia, a menos que el recurso de referencia permita explícitamente el envío de Referer.

Consulte [RFC 9110 Sección 10.1.3](https://www.rfc-editor.org/rfc/rfc9110.html#section-10.1.3) para obtener más detalles.");
("HTTP prohibits a user agent from sending a Referer header field in an unsecured HTTP request
if the referring resource was accessed with a secure protocol.

See [RFC 9110 Section 10.1.3](https://www.rfc-editor.org/rfc/rfc9110.html#section-10.1.3)
for details.",
 "HTTP prohíbe que un agente de usuario envíe el campo de encabezado Referer en una solicitud HTTP no segura si el recurso de referencia se accedió con un protocolo seguro.

Consulte [RFC 9110 Sección 10.1.3](https://www.rfc-editor.org/rfc/rfc9110.html#section-10.1.3) para obtener detalles.");
("HTTP requires `304 (Not Modified)` responses to have a `Date` header in all but the most unusual
circumstances.",
 "HTTP requiere que las respuestas `304 (No Modificado)` tengan una cabecera `Date` en casi todas las circunstancias.");
("HTTP's caching model assumes reasonable synchronisation between clocks on the server and client;
compared to the local clock, the server's clock appears to be well-synchronised.",
 "El modelo de caché de HTTP asume una sincronización razonable entre los relojes del servidor y el cliente;
en comparación con el reloj local, el reloj del servidor parece estar bien sincronizado.");
("If an error occurs, caches can serve this response stale.",
 "Si ocurre un error, las cachés pueden servir esta respuesta como obsoleta.");
("In %(field_name)s, the %(context)s key '%(key)s' is duplicated.",
 "En %(field_name)s, la clave '%(key)s' de %(context)s está duplicada.");
("In exceptional circumstances, caches can serve this response stale.",
 "En circunstancias excepcionales, las cachés pueden servir esta respuesta como obsoleta.");
("Information about intermediaries is available.",
 "Hay información disponible sobre intermediarios.");
("Inline scripts are allowed.",
 "Se permiten scripts en línea.");
("It appears that the Date header has been changed by an intermediary.",
 "Parece que la cabecera Date ha sido modificada por un intermediario.");
("It appears that this response has been cached by a reverse proxy or Content Delivery Network,
because the `Age` header is present, but the `Date` header is more recent than it indicates.

Generally, reverse proxies should either omit the `Age` header (if they have another means of
determining how fresh the response is), or leave the `Date` header alone (i.e., act as a normal
HTTP cache).

See [this paper](https://www.usenix.org/legacy/events/usits01/full_papers/cohen/cohen_html/index.html)
for more information.",
 "Parece que esta respuesta ha sido almacenada en caché por un proxy inverso o una Red de Entrega de Contenidos,
porque el encabezado `Age` está presente, pero el encabezado `Date` es más reciente de lo que indica.

Por lo general, los proxies inversos deberían omitir el encabezado `Age` (si tienen otro medio para
determinar cuán reciente es la respuesta) o dejar el encabezado `Date` solo (es decir, actuar como una caché HTTP normal).

Consulte [este documento](https://www.usenix.org/legacy/events/usits01/full_papers/cohen/cohen_html/index.html)
para obtener más información.");
("Loading from insecure HTTP sources is allowed.",
 "Se permite la carga desde fuentes HTTP inseguras.");
("Long URIs aren't supported by some implementations, including proxies. A reasonable upper size
limit is 8192 characters.",
 "Las URIs largas no están soportadas por algunas implementaciones, incluyendo proxies. Un límite de tamaño razonable es 8192 caracteres.");
("Many Web browsers ""sniff"" the media type of responses to figure out whether they're HTML, RSS or
another format, no matter what the `Content-Type` header says.

This header instructs browsers not to do this, but to always respect the
Content-Type header. It probably won't have any effect in other clients.

See [MDN](https://developer.mozilla.org/en-US/docs/Web/HTTP/Headers/X-Content-Type-Options)
for more information about this header.",
 "Muchos navegadores web ""detectan"" el tipo de medio de las respuestas para averiguar si son HTML, RSS u otro formato, sin importar lo que diga la cabecera `Content-Type`.

Esta cabecera instruye a los navegadores a no hacer esto, sino a respetar siempre la cabecera Content-Type. Probablemente no tendrá ningún efecto en otros clientes.

Ver [MDN](https://developer.mozilla.org/en-US/docs/Web/HTTP/Headers/X-Content-Type-Options) para más información sobre esta cabecera.");
("Microsoft Internet Explorer implements two `Cache-Control` extensions, `pre-check` and
`post-check`, to give more control over how its cache stores responses.

Once it has been cached for more than %(post_check)s seconds, a new request will result in the
cached response being served while it is refreshed in the background. However, if it has been
cached for more than %(pre_check)s seconds, the browser will download a fresh response before
showing it to the user.

Note that these directives do not have any effect on other clients or caches.",
 "Microsoft Internet Explorer implementa dos extensiones de `Cache-Control`, `pre-check` y
`post-check`, para dar más control sobre cómo su caché almacena respuestas.

Una vez que se ha almacenado en caché durante más de %(post_check)s segundos, una nueva solicitud resultará en que
la respuesta en caché se sirva mientras se actualiza en segundo plano. Sin embargo, si se ha
almacenado en caché durante más de %(pre_check)s segundos, el navegador descargará una respuesta nueva antes
de mostrarla al usuario.

Tenga en cuenta que estas directivas no tienen ningún efecto en otros clientes o cachés.");
("Microsoft Internet Explorer implements two `Cache-Control` extensions, `pre-check` and
`post-check`, to give more control over how its cache stores responses.

This response assigns a higher value to `post-check` than to `pre-check`; this means that Internet
Explorer will treat `post-check` as if its value is the same as `pre-check`'s.",
 "Microsoft Internet Explorer implementa dos extensiones de `Cache-Control`, `pre-check` y `post-check`, para dar más control sobre cómo su caché almacena las respuestas.

Esta respuesta asigna un valor más alto a `post-check` que a `pre-check`; esto significa que Internet Explorer tratará `post-check` como si su valor fuera el mismo que el de `pre-check`.");
("Microsoft Internet Explorer implements two `Cache-Control` extensions, `pre-check` and
`post-check`, to give more control over how its cache stores responses.

This response assigns a value of ""0"" to `post-check`, which means that Internet Explorer will reload
the content as soon as it enters the browser cache, effectively **doubling the load on the
server**.",
 "Microsoft Internet Explorer implementa dos extensiones de `Cache-Control`, `pre-check` y
`post-check`, para dar más control sobre cómo su caché almacena las respuestas.

Esta respuesta asigna un valor de ""0"" a `post-check`, lo que significa que Internet Explorer recargará
el contenido tan pronto como entre en la caché del navegador, **duplicando efectivamente la carga en el
servidor**.");
("Microsoft Internet Explorer implements two `Cache-Control` extensions, `pre-check` and
`post-check`, to give more control over how its cache stores responses.

This response gives a value of ""0"" for both; as a result, Internet Explorer will ignore the
directive, since it requires both to be present.

In other words, setting these to zero has **no effect** (besides wasting bandwidth),
and may trigger bugs in some beta versions of IE.",
 "Microsoft Internet Explorer implementa dos extensiones de `Cache-Control`, `pre-check` y
`post-check`, para tener un mayor control sobre cómo su caché almacena las respuestas.

Esta respuesta proporciona un valor de ""0"" para ambas; como resultado, Internet Explorer ignorará la
directiva, ya que requiere que ambas estén presentes.

En otras palabras, establecer estos valores a cero **no tiene ningún efecto** (además de desperdiciar ancho de banda),
y puede desencadenar errores en algunas versiones beta de IE.");
("Microsoft Internet Explorer implements two `Cache-Control` extensions, `pre-check` and
`post-check`, to give more control over how its cache stores responses.

This response uses only one of these directives; as a result, Internet Explorer will ignore the
directive, since it requires both to be present.
",
 "Microsoft Internet Explorer implementa dos extensiones de `Cache-Control`, `pre-check` y `post-check`, para dar más control sobre cómo su caché almacena las respuestas.

Esta respuesta utiliza solo una de estas directivas; como resultado, Internet Explorer ignorará la directiva, ya que requiere que ambas estén presentes.");
("Most sites should set a `max-age` of at least one year on `Strict-Transport-Security`.",
 "La mayoría de los sitios deberían establecer un `max-age` de al menos un año en `Strict-Transport-Security`.");
("Multiple Referrer-Policy values found; only '%(effective)s' is used.",
 "Se encontraron múltiples valores de Referrer-Policy; solo se utiliza '%(effective)s'.");
("No valid Referrer-Policy found.",
 "No se encontró una Referrer-Policy válida.");
("Non-standard status codes are not well-defined and interoperable. Instead of defining your own
status code, you should reuse one of the more generic ones; for example, `400` for a client-side
problem, or `500` for a server-side problem.",
 "Los códigos de estado no estándar no están bien definidos e interoperables. En lugar de definir su propio
código de estado, debería reutilizar uno de los más genéricos; por ejemplo, `400` para un problema del lado del
cliente, o `500` para un problema del lado del servidor.");
("One or more intermediaries are present.",
 "Hay uno o más intermediarios presentes.");
("Only one %(field_name)s field is allowed in a message.",
 "Solo se permite un campo %(field_name)s en un mensaje.");
("Only one of the pre-check and post-check cache directives is present.",
 "Solo una de las directivas de caché pre-check y post-check está presente.");
("Only one value is currently defined for this header, `nosniff`. Using other values here won't
necessarily cause problems, but they probably won't have any effect either.

See [MDN](https://developer.mozilla.org/en-US/docs/Web/HTTP/Headers/X-Content-Type-Options)
for more information about this header.",
 "Actualmente solo se define un valor para esta cabecera, `nosniff`. Usar otros valores aquí no
necesariamente causará problemas, pero es probable que tampoco tengan ningún efecto.

Vea [MDN](https://developer.mozilla.org/en-US/docs/Web/HTTP/Headers/X-Content-Type-Options)
para más información sobre esta cabecera.");
("Only two values are currently defined for this header, `DENY` and `SAMEORIGIN`. Using other values
here won't necessarily cause problems, but they probably won't have any effect either.

See [MDN](https://developer.mozilla.org/en-US/docs/Web/HTTP/Headers/X-Frame-Options) for more information.
",
 "Actualmente solo se definen dos valores para esta cabecera, `DENY` y `SAMEORIGIN`. Usar otros valores aquí no necesariamente causará problemas, pero probablemente tampoco tendrán ningún efecto.

Ver [MDN](https://developer.mozilla.org/en-US/docs/Web/HTTP/Headers/X-Frame-Options) para más información.");
("Parameter values that end in '*' are reserved for non-ascii text, as explained in
[RFC5987](https://www.rfc-editor.org/rfc/rfc5987).

The `%(param)s` parameter on the `%(field_name)s` field does not allow this; you should use
%(param)s without the ""*"" on the end (and without the associated encoding).",
 "Los valores de parámetro que terminan en '*' están reservados para texto no ASCII, como se explica en
[RFC5987](https://www.rfc-editor.org/rfc/rfc5987).

El parámetro `%(param)s` en el campo `%(field_name)s` no lo permite; deberías usar
%(param)s sin el ""*"" al final (y sin la codificación asociada).");
("Parameter values that end in '*' have a specific format, defined in
[RFC5987](https://www.rfc-editor.org/rfc/rfc5987), to allow non-ASCII text.

The `%(param)s` parameter on the `%(field_name)s` field has double-quotes around it, which is not
valid.",
 "Los valores de parámetro que terminan en '*' tienen un formato específico, definido en
[RFC5987](https://www.rfc-editor.org/rfc/rfc5987), para permitir texto no ASCII.

El parámetro `%(param)s` en el campo `%(field_name)s` tiene comillas dobles alrededor, lo cual no
es válido.");
("Parameter values that end in '*' have a specific format, defined in
[RFC5987](https://www.rfc-editor.org/rfc/rfc5987), to allow non-ASCII text.

The `%(param)s` parameter on the `%(field_name)s` field is not valid; it needs to have three
parts, separated by single quotes (').",
 "Los valores de los parámetros que terminan en '*' tienen un formato específico, definido en
[RFC5987](https://www.rfc-editor.org/rfc/rfc5987), para permitir texto no ASCII.

El parámetro `%(param)s` en el campo `%(field_name)s` no es válido; necesita tener tres
partes, separadas por comillas simples (').");
("Parameter values that end in '*' have a specific format, defined in
[RFC5987](https://www.rfc-editor.org/rfc/rfc5987), to allow non-ASCII text.

The `%(param)s` parameter on the `%(field_name)s` header doesn't declare its character encoding,
which means that recipients can't understand it. It should be `UTF-8`.",
 "Los valores de parámetro que terminan en '*' tienen un formato específico, definido en
[RFC5987](https://www.rfc-editor.org/rfc/rfc5987), para permitir texto no ASCII.

El parámetro `%(param)s` en la cabecera `%(field_name)s` no declara su codificación de caracteres,
lo que significa que los destinatarios no pueden entenderlo. Debería ser `UTF-8`.");
("Parameter values that end in '*' have a specific format, defined in
[RFC5987](https://www.rfc-editor.org/rfc/rfc5987), to allow non-ASCII text.

The `%(param)s` parameter on the `%(field_name)s` header uses the `'%(enc)s` encoding, which has
interoperability issues with some browsers. It should be `UTF-8`.",
 "Los valores de parámetro que terminan en '*' tienen un formato específico, definido en
[RFC5987](https://www.rfc-editor.org/rfc/rfc5987), para permitir texto no ASCII.

El parámetro `%(param)s` en la cabecera `%(field_name)s` utiliza la codificación `'%(enc)s`, que tiene
problemas de interoperabilidad con algunos navegadores. Debería ser `UTF-8`.");
("Parameters on the %(field_name)s field should not repeat; implementations may handle them
differently.",
 "Los parámetros en el campo %(field_name)s no deben repetirse; las implementaciones pueden manejarlos de manera diferente.");
("Partial Content",
 "Contenido Parcial");
("Preloading a site in a browser's HSTS list requires a `max-age` of at least one year and the
`includeSubDomains` directive.

See the [HSTS Preload List](https://hstspreload.org/) for more information.
",
 "Precargar un sitio en la lista HSTS de un navegador requiere un `max-age` de al menos un año y la directiva `includeSubDomains`.

Consulte la [Lista de Precarga HSTS](https://hstspreload.org/) para más información.");
("RFC 2324 was an April Fools' Day RFC that lampooned the various ways HTTP was abused; one such abuse
was the definition of the application-specific `418 (I'm a Teapot)` status code. In the
intervening years, this status code has been sometimes implemented as an ""easter egg"".

This status code is not a part of HTTP and hence it might not be supported by some strict
standards-compliant clients.
",
 "RFC 2324 fue un RFC del Día de los Inocentes que se burlaba de las diversas formas en que se abusaba de HTTP; uno de esos abusos
fue la definición del código de estado específico de la aplicación `418 (I'm a Teapot)`. En los
años transcurridos, este código de estado se ha implementado a veces como un ""huevo de Pascua"".

Este código de estado no forma parte de HTTP y, por lo tanto, es posible que no sea compatible con algunos clientes estrictos
que cumplen las normas.");
("RFC 9110 Section 8.6:
> A sender MUST NOT send a Content-Length header field in any message that contains a Transfer-Encoding header field.

This is because `Transfer-Encoding` overrides `Content-Length`.",
 "RFC 9110 Sección 8.6:
> Un remitente NO DEBE enviar un campo de encabezado Content-Length en ningún mensaje que contenga un campo de encabezado Transfer-Encoding.

Esto se debe a que `Transfer-Encoding` anula `Content-Length`.");
("Redirects need to have a Location header.",
 "Las redirecciones necesitan una cabecera Location.");
("Reserved status codes can only be used by future, standard protocol extensions; they are not for
private use.",
 "Los códigos de estado reservados solo pueden ser utilizados por futuras extensiones del protocolo estándar; no son para uso privado.");
("Responses to the %(method)s method can't be stored by caches.",
 "Las respuestas al método %(method)s no pueden ser almacenadas por las cachés.");
("Sending `Vary: User-Agent` requires caches to store a separate copy of the response for every
`User-Agent` request header they see.

Since there are so many different `User-Agent`s, this can ""bloat"" caches with many copies of the
same thing, or cause them to give up on storing these responses at all.

Consider having different URIs for the various versions of your content instead; this will give
finer control over caching without sacrificing efficiency.",
 "Enviar `Vary: User-Agent` requiere que las cachés almacenen una copia separada de la respuesta para cada cabecera `User-Agent` que vean.

Dado que hay tantos `User-Agent` diferentes, esto puede ""hinchar"" las cachés con muchas copias de lo mismo o hacer que renuncien a almacenar estas respuestas por completo.

Considere tener URIs diferentes para las diversas versiones de su contenido en su lugar; esto le dará un control más fino sobre el almacenamiento en caché sin sacrificar la eficiencia.");
("Some implementations limit the size of any single field line.",
 "Algunas implementaciones limitan el tamaño de cualquier línea de campo individual.");
("Some implementations limit the total size of a field section. 32KB is a reasonable
upper limit.",
 "Algunas implementaciones limitan el tamaño total de una sección de campo. 32 KB es un límite razonable.");
("Some servers (e.g., [Apache](http://httpd.apache.org/) with
[mod_rewrite](http://httpd.apache.org/docs/2.4/mod/mod_rewrite.html)) will send `Host` in the
`Vary` header, in the belief that this is necessary.

This is not the case; HTTP specifies that the URI is the basis of the cache key, and the URI
incorporates the `Host` header.

The presence of `Vary: Host` may make some caches not store an otherwise cacheable response (since
some cache implementations will not store anything that has a `Vary` header).",
 "Algunos servidores (por ejemplo, [Apache](http://httpd.apache.org/) con [mod_rewrite](http://httpd.apache.org/docs/2.4/mod/mod_rewrite.html)) enviarán `Host` en la cabecera `Vary`, con la creencia de que esto es necesario.

Este no es el caso; HTTP especifica que la URI es la base de la clave de caché, y la URI incorpora la cabecera `Host`.

La presencia de `Vary: Host` puede hacer que algunas cachés no almacenen una respuesta que de otro modo sería almacenable en caché (ya que algunas implementaciones de caché no almacenarán nada que tenga una cabecera `Vary`).");
("Strict Transport Security (HSTS) is enabled.",
 "Seguridad de Transporte Estricta (HSTS) está habilitada.");
("The %(bad_directive)s CDN cache directive's syntax is incorrect.",
 "La sintaxis del %(bad_directive)s CDN cache directive es incorrecta.");
("The %(context)s key '%(key)s' is duplicated. All instances after the first will be ignored.",
 "La clave '%(key)s' en el contexto '%(context)s' está duplicada. Todas las instancias después de la primera serán ignoradas.");
("The %(cookie_name)s Set-Cookie header has a __Host- prefix but does not set Path=/.",
 "La cabecera Set-Cookie de %(cookie_name)s tiene el prefijo __Host- pero no establece Path=/.");
("The %(cookie_name)s Set-Cookie header has a __Host- prefix but sets a Domain.",
 "La cabecera Set-Cookie de %(cookie_name)s tiene el prefijo __Host- pero establece un Dominio.");
("The %(cookie_name)s Set-Cookie header has a lifetime that is too long.",
 "La cabecera Set-Cookie de %(cookie_name)s tiene una vida útil demasiado larga.");
("The %(cookie_name)s Set-Cookie header has duplicate '%(attribute)s' attributes.",
 "La cabecera Set-Cookie de %(cookie_name)s tiene atributos '%(attribute)s' duplicados.");
("The %(cookie_name)s Set-Cookie header is too large.",
 "La cabecera Set-Cookie %(cookie_name)s es demasiado grande.");
("The %(cookie_name)s Set-Cookie header requires the Secure attribute.",
 "La cabecera Set-Cookie de %(cookie_name)s requiere el atributo Secure.");
("The %(cookie_name)s Set-Cookie value is large.",
 "El valor de Set-Cookie de %(cookie_name)s es grande.");
("The %(cookie_name)s cookie has a Max-Age with a leading zero.",
 "La cookie %(cookie_name)s tiene un Max-Age con un cero inicial.");
("The %(cookie_name)s cookie has a non-numeric Max-Age.",
 "La cookie %(cookie_name)s tiene un Max-Age no numérico.");
("The %(cookie_name)s cookie has an empty Max-Age.",
 "La cookie %(cookie_name)s tiene un Max-Age vacío.");
("The %(cookie_name)s cookie has an empty domain.",
 "La cookie %(cookie_name)s tiene un dominio vacío.");
("The %(cookie_name)s cookie has an invalid Expires date.",
 "La cookie %(cookie_name)s tiene una fecha Expires no válida.");
("The %(cookie_name)s cookie has an unknown '%(attribute_name)s' attribute value.",
 "La cookie ""%(cookie_name)s"" tiene un valor de atributo ""%(attribute_name)s"" desconocido.");
("The %(cookie_name)s cookie has an unknown attribute, '%(attribute)s'.",
 "La cookie %(cookie_name)s tiene un atributo desconocido, '%(attribute)s'.");
("The %(cookie_name)s cookie has the Partitioned attribute but is missing the Secure attribute.",
 "La cookie %(cookie_name)s tiene el atributo Partitioned pero le falta el atributo Secure.");
("The %(cookie_name)s cookie is missing the Secure attribute.",
 "La cookie %(cookie_name)s no tiene el atributo Secure.");
("The %(directive)s cache directive appears more than once.",
 "La directiva de caché %(directive)s aparece más de una vez.");
("The %(directive)s cache directive does not accept a value.",
 "La directiva %(directive)s de caché no acepta ningún valor.");
("The %(directive)s cache directive has no meaning in a %(message_type)s.",
 "La directiva de caché %(directive)s no tiene significado en un %(message_type)s.");
("The %(directive)s cache directive has non-lowercase characters.",
 "La directiva de caché %(directive)s tiene caracteres que no son en minúsculas.");
("The %(directive)s cache directive is very large.",
 "La directiva de caché %(directive)s es muy grande.");
("The %(directive)s cache directive overrides other directives.",
 "La directiva de caché %(directive)s anula otras directivas.");
("The %(directive)s cache directive's value is incorrect.",
 "El valor de la directiva %(directive)s de caché es incorrecto.");
("The %(directive)s directive in the HSTS header must not have a value.",
 "La directiva %(directive)s en la cabecera HSTS no debe tener valor.");
("The %(field_name)s field is defined as a
[Structured Field](https://www.rfc-editor.org/rfc/rfc9651.html),
but its value can't be parsed as one. As a result, this field is likely
to be ignored.

The parser reports this error: %(problem)s

%(context)s",
 "El campo %(field_name)s está definido como un
[campo estructurado](https://www.rfc-editor.org/rfc/rfc9651.html),
pero su valor no puede ser analizado como uno. Como resultado, este campo es probable que sea ignorado.

El analisador reporta este error: %(problem)s

%(context)s");
("The %(field_name)s field is very large (%(field_size)s bytes).",
 "El campo %(field_name)s es muy grande (%(field_size)s bytes).");
("The %(field_name)s field only has meaning in requests. Sending it a response
doesn't do anything. REDbot (and most recipients) will ignore it.",
 "El campo %(field_name)s solo tiene significado en las solicitudes. Enviarlo en una respuesta no hace nada. REDbot (y la mayoría de los destinatarios) lo ignorarán.");
("The %(field_name)s field only has meaning in responses. Sending it in a request
doesn't do anything. REDbot (and most recipients) will ignore it.",
 "El %(field_name)s solo tiene significado en las respuestas. Enviarlo en una solicitud no hace nada. REDbot (y la mayoría de los destinatarios) lo ignorarán.");
("The %(field_name)s field value doesn't conform to its specified syntax.",
 "El valor del campo %(field_name)s no cumple con su sintaxis especificada.");
("The %(field_name)s field value isn't a valid Structured Field.",
 "El valor del campo %(field_name)s no es un campo estructurado válido.");
("The %(field_name)s field's name contains non-ASCII characters.",
 "El nombre del campo %(field_name)s contiene caracteres no ASCII.");
("The %(field_name)s field's value contains non-ASCII characters.",
 "El valor del campo %(field_name)s contiene caracteres no ASCII.");
("The %(field_name)s header is deprecated.",
 "La cabecera %(field_name)s está obsoleta.");
("The %(field_name)s header requires the Access-Control-Request-Method header.",
 "La cabecera %(field_name)s requiere la cabecera Access-Control-Request-Method.");
("The %(field_name)s header requires the OPTIONS method.",
 "El encabezado %(field_name)s requiere el método OPTIONS.");
("The %(field_name)s header requires the Origin header.",
 "La cabecera %(field_name)s requiere la cabecera Origin.");
("The %(field_name)s header value isn't valid JSON.",
 "El valor del encabezado %(field_name)s no es válido JSON.");
("The %(field_name)s header's value isn't a valid date.",
 "El valor del encabezado %(field_name)s no es una fecha válida.");
("The %(field_name)s header's value uses an obsolete format.",
 "El valor de la cabecera %(field_name)s usa un formato obsoleto.");
("The %(field_name)s parameter '%(param)s' has an invalid type.",
 "El parámetro %(field_name)s '%(param)s' tiene un tipo no válido.");
("The %(field_type)s section is very large (%(section_size)s bytes).",
 "La sección %(field_type)s es muy grande (%(section_size)s bytes).");
("The %(header_name)s header can probably be removed.",
 "La cabecera %(header_name)s probablemente se pueda eliminar.");
("The %(lang)s language tag appears more than once.",
 "La etiqueta de idioma %(lang)s aparece más de una vez.");
("The %(method)s doesn't define any meaning for content.",
 "El %(method)s no define ningún significado para el contenido.");
("The %(name)s reporting endpoint is invalid.",
 "El punto final de informe %(name)s es inválido.");
("The %(name)s reporting endpoint is not secure.",
 "El punto final de informe %(name)s no es seguro.");
("The %(param)s parameter's value doesn't define an encoding.",
 "El valor del parámetro %(param)s no define una codificación.");
("The %(param)s parameter's value is invalid.",
 "El valor del parámetro %(param)s no es válido.");
("The %(param)s parameter's value uses an encoding other than UTF-8.",
 "El valor del parámetro %(param)s utiliza una codificación distinta a UTF-8.");
("The %(param)s* parameter isn't allowed on the %(field_name)s field.",
 "El parámetro %(param)s* no está permitido en el campo %(field_name)s.");
("The %(status)s status code is deprecated.",
 "El código de estado %(status)s está obsoleto.");
("The %(status)s status code is reserved.",
 "El código de estado %(status)s está reservado.");
("The %(status)s status code means that the server can't or won't accept a request-uri this long.",
 "El código de estado %(status)s significa que el servidor no puede o no aceptará una URI de solicitud tan larga.");
("The %(status)s status code redirects users to another URI. The `Location` header is used to
convey this URI, but a valid one isn't present in this response.",
 "El código de estado %(status)s redirige a los usuarios a otra URI. La cabecera `Location` se utiliza para
transmitir esta URI, pero no hay una válida presente en esta respuesta.");
("The '%(disposition)s' Content-Disposition isn't known.",
 "La Content-Disposition '%(disposition)s' no es conocida.");
("The '%(expectation)s' expectation is not supported.",
 "La expectativa '%(expectation)s' no es compatible.");
("The '%(feature)s' feature is allowed for all origins.",
 "La característica '%(feature)s' está permitida para todos los orígenes.");
("The '%(metric)s' metric is missing the 'desc' parameter.",
 "La métrica '%(metric)s' falta el parámetro 'desc'.");
("The '%(metric)s' metric is missing the 'dur' parameter.",
 "La métrica '%(metric)s' falta el parámetro 'dur'.");
("The '%(param)s' parameter on the %(field_name)s header is single-quoted.",
 "El parámetro '%(param)s' en la cabecera %(field_name)s está entrecomillado.");
("The '%(param)s' parameter on the '%(metric)s' metric has a non-numeric value.",
 "El parámetro '%(param)s' en la métrica '%(metric)s' tiene un valor no numérico.");
("The '%(param)s' parameter repeats in the %(field_name)s header.",
 "El parámetro '%(param)s' se repite en la cabecera %(field_name)s.");
("The '%(param)s' parameter's value cannot be quoted.",
 "El valor del parámetro '%(param)s' no puede ser entrecomillado.");
("The 'Priority' Set-Cookie attribute is deprecated.",
 "El atributo 'Priority' Set-Cookie está obsoleto.");
("The 'Version Set-Cookie attribute is deprecated.",
 "La 'atributo Set-Cookie' se ha quedado obsoleto.");
("The 'anchor' parameter on the %(link)s Link header isn't a URI.",
 "El parámetro 'anchor' en el encabezado Link de %(link)s no es una URI.");
("The 'filename' parameter on the Content-Disposition header contains a '%%' character.",
 "El parámetro 'filename' en la cabecera Content-Disposition contiene un carácter '%%'.");
("The 'rev' parameter on the Link header is deprecated.",
 "El parámetro 'rev' en la cabecera Link está obsoleto.");
("The 'type' parameter on the %(link)s Link header isn't a media type.",
 "El 'tipo' en el encabezado de enlace %(link)s no es un tipo de medio.");
("The 406 (Not Acceptable) status code appears to be misused.",
 "El código de estado 406 (No Acceptable) parece ser utilizado de manera incorrecta.");
("The Accept header isn't valid.",
 "El encabezado Accept no es válido.");
("The Accept-CH header isn't a List of Tokens.",
 "La cabecera Accept-CH no es una lista de tokens.");
("The Accept-Language header isn't valid.",
 "La cabecera Accept-Language no es válida.");
("The Access-Control-Allow-Origin header allows any origin.",
 "La Access-Control-Allow-Origin header permite cualquier origen.");
("The Access-Control-Allow-Origin header allows the requesting origin.",
 "La cabecera Access-Control-Allow-Origin permite el origen solicitante.");
("The Access-Control-Allow-Origin header does not allow any origin.",
 "La cabecera Access-Control-Allow-Origin no permite ningún origen.");
("The Access-Control-Allow-Origin header does not allow the requesting origin.",
 "El encabezado Access-Control-Allow-Origin no permite el origen que está solicitando.");
("The Age header's value is very large.",
 "El valor del encabezado Age es muy grande.");
("The Age header's value should be an integer.",
 "El valor del encabezado Age debe ser un entero.");
("The Age headers' value must be a positive integer.",
 "El valor de la cabecera Age debe ser un entero positivo.");
("The Alt-Svc 'clear' token cannot be used with other values.",
 "El token 'clear' de Alt-Svc no puede usarse con otros valores.");
("The Available-Dictionary header has an invalid type.",
 "El encabezado Available-Dictionary tiene un tipo no válido.");
("The Cache-Group-Invalidation header is ignored for %(method)s requests.",
 "La cabecera 'Cache-Group-Invalidation' es ignorada para %(method)s solicitudes.");
("The Cache-Status header has an invalid structure.",
 "La cabecera Cache-Status tiene una estructura inválida.");
("The Cache-Status header has an unknown parameter '%(param)s'.",
 "La cabecera Cache-Status tiene un parámetro desconocido '%(param)s'.");
("The Cache-Status header has an unknown value for '%(param)s'.",
 "La cabecera Cache-Status tiene un valor desconocido para '%(param)s'.");
("The Clear-Site-Data header contains an unknown value '%(value)s'.",
 "El encabezado Clear-Site-Data contiene un valor desconocido '%(value)s'.");
("The Clear-Site-Data header has an empty value.",
 "La cabecera Clear-Site-Data tiene un valor vacío.");
("The Content-Disposition header doesn't have a 'filename' parameter.",
 "El encabezado Content-Disposition no tiene el parámetro 'filename'.");
("The Content-Length header is correct.",
 "El encabezado Content-Length es correcto.");
("The Content-Length header is incorrect.",
 "La cabecera Content-Length es incorrecta.");
("The Content-Length header is very large.",
 "La cabecera Content-Length es muy grande.");
("The Content-Range header contains a non-integer value.",
 "El encabezado Content-Range contiene un valor no entero.");
("The Content-Range header indicates an unknown total length.",
 "El encabezado Content-Range indica una longitud total desconocida.");
("The Content-Range header indicates an unsatisfied range, but the status code is 206.",
 "El encabezado Content-Range indica un rango no satisfecho, pero el código de estado es 206.");
("The Content-Range header invalidly uses wildcards.",
 "La cabecera Content-Range usa de forma inválida caracteres comodín.");
("The Content-Range header is invalid.",
 "El encabezado Content-Range es inválido.");
("The Content-Range header is missing a hyphen.",
 "El encabezado Content-Range falta un guión.");
("The Content-Range header is missing a slash separator.",
 "El encabezado Content-Range falta el separador de barra.");
("The Content-Range header is missing a unit (e.g., 'bytes').",
 "La cabecera Content-Range está faltando un unitario (por ejemplo, 'bytes').");
("The Deprecation header has an invalid type.",
 "El encabezado de desuso tiene un tipo no válido.");
("The Expect header is not supported in HTTP/1.0.",
 "El encabezado Expect no es compatible con HTTP/1.0.");
("The HSTS header contains a duplicate directive.",
 "La cabecera HSTS contiene una directiva duplicada.");
("The HSTS header is sent over HTTP.",
 "La cabecera HSTS se envía a través de HTTP.");
("The Last-Modified time is in the future.",
 "La hora Last-Modified está en el futuro.");
("The Location header contains a relative URI.",
 "La cabecera Location contiene una URI relativa.");
("The Max-Forwards header is ignored for this method.",
 "La cabecera Max-Forwards se ignora para este método.");
("The NEL header has an invalid structure.",
 "La cabecera NEL tiene una estructura no válida.");
("The NEL policy has an invalid type for '%(key)s'.",
 "La política NEL tiene un tipo no válido para '%(key)s'.");
("The NEL policy has an invalid value for '%(key)s'.",
 "La política NEL tiene un valor no válido para '%(key)s'.");
("The NEL policy is missing the '%(key)s' key.",
 "La política NEL falta la clave '%(key)s'.");
("The Origin header contains multiple values.",
 "La cabecera Origin contiene múltiples valores.");
("The Origin header must contain a list of serialized origins (scheme, host, and optional port), or
the string ""null"".",
 "La cabecera Origin debe contener una lista de orígenes serializados (esquema, host y puerto opcional), o
la cadena ""null"".");
("The Pragma header is being used in an undefined way.",
 "El encabezado Pragma se está utilizando de una manera indefinida.");
("The Proxy-Status header has an invalid structure.",
 "La cabecera Proxy-Status tiene una estructura inválida.");
("The Proxy-Status header has an unknown parameter '%(param)s'.",
 "La cabecera Proxy-Status tiene un parámetro desconocido '%(param)s'.");
("The Proxy-Status header has an unknown value for '%(param)s'.",
 "La cabecera Proxy-Status tiene un valor desconocido para '%(param)s'.");
("The Range header is invalid.",
 "El encabezado Range es inválido.");
("The Range header value isn't valid.",
 "El valor del encabezado Range no es válido.");
("The Referer header is sent from a secure origin to a different origin.",
 "La cabecera Referer se envía desde un origen seguro a un origen diferente.");
("The Referer header is sent from a secure origin to an insecure target.",
 "La cabecera Referer se envía desde un origen seguro a un destino inseguro.");
("The Referrer-Policy value '%(policy)s' is unknown.",
 "El valor de Referrer-Policy '%(policy)s' es desconocido.");
("The Report-To header has an invalid type for '%(key)s'.",
 "La cabecera Report-To tiene un tipo no válido para '%(key)s'.");
("The Report-To header value has an invalid structure.",
 "El valor del encabezado Report-To tiene una estructura no válida.");
("The Report-To header value is missing the '%(key)s' key.",
 "La valor de encabezado Report-To falta la clave «%(key)s».");
("The Server header is long.",
 "La cabecera Server es larga.");
("The Strict-Transport-Security header has a trailing semicolon.",
 "El encabezado Strict-Transport-Security tiene un punto y coma al final.");
("The URI is very long (%(uri_len)s characters).",
 "La URI es muy larga (%(uri_len)s caracteres).");
("The URI's syntax isn't valid.",
 "La sintaxis de la URI no es válida.");
("The User-Agent header is missing.",
 "Falta la cabecera User-Agent.");
("The Vary header contains duplicate values.",
 "El encabezado Vary contiene valores duplicados.");
("The X-Frame-Options header contains an unknown value.",
 "La cabecera X-Frame-Options contiene un valor desconocido.");
("The `%(attribute)s` attribute appears more than once in this `Set-Cookie` header.

Browsers will only use the last occurrence.",
 "El atributo `%(attribute)s` aparece más de una vez en esta cabecera `Set-Cookie`.

Los navegadores solo utilizarán la última aparición.");
("The `%(directive)s` cache directive is a flag; it shouldn't have a value.",
 "La directiva `%(directive)s` de caché es una bandera; no debería tener ningún valor.");
("The `%(directive)s` cache directive is only defined to appear in %(other_message)s
messages; is has no defined meaning in a %(message_type)s.",
 "La directiva de caché `%(directive)s` solo está definida para aparecer en mensajes %(other_message)s; no tiene un significado definido en un %(message_type)s.");
("The `%(directive)s` cache directive is only defined to appear once; it is used more than
once here, so implementations may use different instances (e.g., the first, or the last),
making their behaviour unpredictable.",
 "La directiva de caché `%(directive)s` solo está definida para aparecer una vez; se usa más de una vez aquí, por lo que las implementaciones pueden usar instancias diferentes (por ejemplo, la primera o la última), lo que hace que su comportamiento sea impredecible.");
("The `%(directive)s` cache directive overrides or conflicts with these other directives: 

%(conflicts)s

The conflicting directives will be ignored by caches, and can be safely omitted.
    ",
 "La directiva de caché `%(directive)s` anula o entra en conflicto con estas otras directivas:

%(conflicts)s

Las directivas en conflicto serán ignoradas por las cachés y se pueden omitir sin peligro.");
("The `%(directive)s` cache directive type is %(expected_type)s, but `%(value)s` was found.",
 "El tipo de directiva de caché '%(directive)s' es %(expected_type)s, pero se encontró '%(value)s'.");
("The `%(directive)s` cache directive's value is greater than 2^31-1. Some implementations may not be
able to handle values this large.",
 "El valor de la directiva de caché `%(directive)s` es mayor que 2^31-1. Algunas implementaciones podrían no ser capaces de manejar valores tan grandes.");
("The `%(directive)s` directive appears more than once in the `Strict-Transport-Security` header.
Directives must only appear once.",
 "La directiva `%(directive)s` aparece más de una vez en el encabezado `Strict-Transport-Security`. Las directivas solo deben aparecer una vez.");
("The `%(directive)s` directive in the `Strict-Transport-Security` header is a valueless
directive. It should not have an associated value.",
 "La directiva `%(directive)s` en la cabecera `Strict-Transport-Security` es una directiva sin valor. No debería tener un valor asociado.");
("The `%(feature)s` feature is allowed for all origins (using `*`).
This is insecure and should be restricted to specific origins or `self`.",
 "La característica `%(feature)s` está permitida para todos los orígenes (usando `*`).
Esto es inseguro y debería restringirse a orígenes específicos o `self`.");
("The `%(field_name)s` header is only used in a Cross-Origin Resource Sharing (CORS) preflight
request.

A preflight request requires the `Access-Control-Request-Method` header to be present.",
 "La cabecera `%(field_name)s` solo se utiliza en una solicitud preflight de Cross-Origin Resource Sharing (CORS).

Una solicitud preflight requiere que la cabecera `Access-Control-Request-Method` esté presente.");
("The `%(field_name)s` header is only used in a Cross-Origin Resource Sharing (CORS) preflight
request.

A preflight request requires the `Origin` header to be present.",
 "La cabecera `%(field_name)s` solo se usa en una solicitud de pre-vuelo Cross-Origin Resource Sharing (CORS).

Una solicitud de pre-vuelo requiere que la cabecera `Origin` esté presente.");
("The `%(field_name)s` header is only used in a Cross-Origin Resource Sharing (CORS) preflight
request.

A preflight request uses the `OPTIONS` method; this request uses `%(method)s`.",
 "La cabecera `%(field_name)s` solo se usa en una solicitud de preflight de Intercambio de Recursos de Origen Cruzado (CORS).

Una solicitud de preflight usa el método `OPTIONS`; esta solicitud usa `%(method)s`.");
("The `%(field_name)s` header must be one of `require-corp`, `credentialless`, or
`unsafe-none`.
",
 "El encabezado `%(field_name)s` debe ser uno de `require-corp`, `credentialless` o `unsafe-none`.");
("The `%(field_name)s` header must be one of `same-origin`, `same-origin-allow-popups`,
or `unsafe-none`.
",
 "La cabecera `%(field_name)s` debe ser `same-origin`, `same-origin-allow-popups` o `unsafe-none`.");
("The `%(field_name)s` header values must be Strings. Found `%(got)s`.",
 "Los valores del encabezado `%(field_name)s` deben ser cadenas. Se encontró `%(got)s`.");
("The `%(field_name)s` parameter `%(param)s` must be a `%(expected)s`. Found `%(got)s`.",
 "El parámetro `'%(field_name)s'` `'%(param)s'` debe ser de `'%(expected)s'. Se encontró `'%(got)s'`.");
("The `%(header_name)s` header adds little value, contributes to unnecessary bandwidth,
and may increase security risk by exposing details of the back-end system.

Consider removing it.",
 "El encabezado `%(header_name)s` aporta poco valor, contribuye al ancho de banda innecesario y puede aumentar el riesgo de seguridad al exponer detalles del sistema de backend.

Considere eliminarlo.");
("The `%(key)s` key has an invalid value; %(details)s.
Details: %(details)s",
 "La clave `'%(key)s'` tiene un valor no válido; `'%(details)s'`.");
("The `%(key)s` key is required in `NEL` policies.",
 "El `%(key)s` es un campo obligatorio en las políticas `NEL`.");
("The `%(key)s` key is required in `Report-To` objects.",
 "El `%(key)s` es un campo necesario en objetos `Report-To`.");
("The `%(key)s` key must be of type %(expected)s.",
 "La clave `'%(key)s'` debe ser del tipo `'%(expected)s'`.");
("The `%(lang)s` language tag is used more than once in the `Content-Language` header.

Recipients will likely ignore duplicates.",
 "La etiqueta de idioma `%(lang)s` se usa más de una vez en la cabecera `Content-Language`.

Los destinatarios probablemente ignorarán los duplicados.");
("The `%(metric)s` metric in the Server-Timing header is missing the `desc` (description) parameter.

Descriptions can help contextualise a metric when displayed.
",
 "La métrica `%(metric)s` en el encabezado Server-Timing falta el parámetro `desc` (descripción). Las descripciones pueden ayudar a contextualizar una métrica cuando se muestra.");
("The `%(metric)s` metric in the Server-Timing header is missing the `dur` (duration) parameter.

This parameter isn't required, but without it browsers may not be able to usefully display it.
",
 "El `%(metric)s` en el encabezado Server-Timing falta el parámetro `dur` (duración).

Este parámetro no es obligatorio, pero sin él, los navegadores pueden no ser capaces de mostrarlo de manera útil.");
("The `%(param)s` parameter is not defined in the Cache-Status specification.
",
 "El parámetro `%(param)s` no está definido en la especificación Cache-Status.");
("The `%(param)s` parameter is not defined in the Proxy-Status specification.
",
 "El parámetro `%(param)s` no está definido en la especificación Proxy-Status.");
("The `%(param)s` parameter on the `%(metric)s` metric of the Server-Timing header requires a
valid number, but `%(value)s` was found.
",
 "El parámetro `%(param)s` en el parámetro `%(metric)s` de la cabecera Server-Timing requiere un número
válido, pero se encontró `%(value)s`.");
("The `%(param)s`'s value on the %(field_name)s field starts and ends with a single quote (').
However, single quotes don't mean anything there.

This means that the value will be interpreted as `%(param_val)s`, **not**
`%(param_val_unquoted)s`. If you intend the latter, remove the single quotes.",
 "El valor de `%(param)s` en el campo %(field_name)s empieza y termina con una comilla simple (').
Sin embargo, las comillas simples no significan nada ahí.

Esto significa que el valor se interpretará como `%(param_val)s`, **no**
como `%(param_val_unquoted)s`. Si quieres lo último, elimina las comillas simples.");
("The `'unsafe-eval'` [Content Security Policy](https://www.w3.org/TR/CSP3/)
directive allows the use of string-to-code mechanisms like `eval()`, which can make it easier for
attackers to execute malicious code.

It was found in the following directives:

%(directives_list)s",
 "La directiva `'unsafe-eval'` de [Content Security Policy](https://www.w3.org/TR/CSP3/)
permite el uso de mecanismos de cadena a código como `eval()`, lo que puede facilitar que
los atacantes ejecuten código malicioso.

Se encontró en las siguientes directivas:

%(directives_list)s");
("The `'unsafe-inline'` [Content Security Policy](https://www.w3.org/TR/CSP3/)
directive allows the execution of inline scripts and event handlers, which
significantly reduces the protection provided by CSP against Cross-Site
Scripting (XSS) attacks.

It was found in the following directives:

%(directives_list)s",
 "La directiva `'unsafe-inline'` de la [Política de Seguridad de Contenidos](https://www.w3.org/TR/CSP3/) permite la ejecución de scripts y manejadores de eventos en línea, lo que reduce significativamente la protección proporcionada por CSP contra ataques de Cross-Site Scripting (XSS).

Se encontró en las siguientes directivas:

%(directives_list)s");
("The `*` [Content Security Policy](https://www.w3.org/TR/CSP3/)
directive allows resources to be loaded from any origin, which significantly reduces the protection
provided by CSP.%(report_only_text)s

It was found in the following directives:

%(directives_list)s",
 "La directiva `*` de [Content Security Policy](https://www.w3.org/TR/CSP3/) permite cargar recursos desde cualquier origen, lo que reduce significativamente la protección proporcionada por CSP.%(report_only_text)s

Se encontró en las siguientes directivas:

%(directives_list)s");
("The `103 (Early Hints)` status code allows the server to send some headers before the final response,
typically to help the client start fetching resources earlier.",
 "El código de estado `103 (Early Hints)` permite al servidor enviar algunas cabeceras antes de la respuesta final,
típicamente para ayudar al cliente a empezar a obtener recursos antes.");
("The `104 (Upload Resumption Supported)` status code indicates that the server supports resumable
uploads.",
 "El código de estado `104 (Upload Resumption Supported)` indica que el servidor admite cargas resumibles.");
("The `201 (Created)` status code indicates that the request created a new resource.

HTTP specifies that the URL of the new resource is to be indicated in the `Location` header,
but it isn't present in this response.",
 "El código de estado `201 (Created)` indica que la solicitud creó un nuevo recurso.

HTTP especifica que la URL del nuevo recurso debe indicarse en la cabecera `Location`,
pero no está presente en esta respuesta.");
("The `201 (Created)` status code indicates that the request created a new resource.

However, the request method used (%(method)s) is defined as a ""safe"" method; that is, it
should not have any side effects.

Creating resources as a side effect of a safe method can have unintended consequences; for example,
search engine spiders and similar automated agents often follow links, and intermediaries sometimes
re-try safe methods when they fail.",
 "El código de estado `201 (Created)` indica que la solicitud creó un nuevo recurso.

Sin embargo, el método de solicitud utilizado (%(method)s) se define como un método ""seguro""; es decir, no debería tener ningún efecto secundario.

Crear recursos como efecto secundario de un método seguro puede tener consecuencias no deseadas; por ejemplo, los rastreadores de motores de búsqueda y agentes automatizados similares a menudo siguen enlaces, y los intermediarios a veces reintentan métodos seguros cuando fallan.");
("The `206 (Partial Response)` status code indicates that the response content is only partial.

However, for a response to be partial, it needs to have a `Content-Range` header to indicate
what part of the full response it carries. This response does not have one.",
 "El código de estado `206 (Respuesta Parcial)` indica que el contenido de la respuesta es solo parcial.

Sin embargo, para que una respuesta sea parcial, necesita tener una cabecera `Content-Range` para indicar qué parte de la respuesta completa transporta. Esta respuesta no la tiene.");
("The `206 (Partial Response)` status code indicates that the response content is only partial.

However, the client needs to ask for it with the `Range` header, and the request did not
include one.",
 "El código de estado `206 (Respuesta parcial)` indica que el contenido de la respuesta es solo parcial.

Sin embargo, el cliente necesita solicitarlo con la cabecera `Range`, y la solicitud no incluía una.");
("The `208 (Already Reported)` status code can be used inside a DAV: propstat response element to
avoid enumerating the internal members of multiple bindings to the same collection repeatedly.",
 "El código de estado `208 (Already Reported)` puede usarse dentro de un elemento de respuesta DAV: propstat para evitar enumerar repetidamente los miembros internos de múltiples vinculaciones a la misma colección.");
("The `405 (Method Not Allowed)` status code indicates that the HTTP method is
known by the origin server but not supported by the target resource.",
 "El código de estado `405 (Método no permitido)` indica que el método HTTP es
conocido por el servidor de origen, pero no es compatible con el recurso de destino.");
("The `405 (Method Not Allowed)` status code indicates that the HTTP method is
known by the origin server but not supported by the target resource.

However, the `Allow` header field listed in the response contains the method used,
indicating that it is allowed.",
 "El código de estado `405 (Método no permitido)` indica que el método HTTP es
conocido por el servidor de origen, pero no es compatible con el recurso de destino.

Sin embargo, el campo de encabezado ""Permitir"" incluido en la respuesta contiene el método utilizado,
indicando que está permitido.");
("The `406 (Not Acceptable)` status code indicates that the request cannot produce a response matching
the list of acceptable values defined in the request's proactive negotiation header fields.

However, this request didn't contain any proactive negotiation headers (such as `Accept`,
`Accept-Charset`, `Accept-Encoding`, or `Accept-Language`).",
 "El código de estado '406 (No aceptable)' indica que la solicitud no puede producir una respuesta que coincida con la lista de valores aceptables definidos en los campos de encabezado de negociación proactiva de la solicitud.

Sin embargo, esta solicitud no contenía ningún encabezado de negociación proactiva (como 'Accept', 'Accept-Charset', 'Accept-Encoding' o 'Accept-Language').");
("The `406 (Not Acceptable)` status code indicates that the resource cannot produce a response matching
the list of acceptable values defined in the request's proactive negotiation header fields, such
as `Accept`, `Accept-Charset`, `Accept-Encoding`, or `Accept-Language`.
",
 "El código de estado `406 (No aceptable)` indica que el recurso no puede producir una respuesta que coincida con la lista de valores aceptables definidos en los campos de encabezado de negociación proactiva de la solicitud, como `Accept`, `Accept-Charset`, `Accept-Encoding` o `Accept-Language`.");
("The `412 (Precondition Failed)` status code indicates that one or more conditions given in the
request header fields (typically, those starting with `If-`)evaluated to false when tested 
on the server.",
 "El código de estado `412 (Precondición fallida)` indica que uno o más de las condiciones
indicadas en los campos de encabezado de la solicitud (generalmente, aquellos que comienzan con
""Si-"") se evaluaron como falsas cuando se probaron en el servidor.");
("The `412 (Precondition Failed)` status code indicates that one or more conditions given in the
request header fields evaluated to false when tested on the server.

However, this request didn't contain any conditional headers (such as `If-Match`, `If-None-Match`,
`If-Modified-Since`, `If-Unmodified-Since`, or `If-Range`).",
 "El código de estado `412 (Precondition Failed)` indica que una o más condiciones dadas en los campos de encabezado de la solicitud se evaluaron como falsas en el servidor.

Sin embargo, esta solicitud no contenía ningún encabezado condicional (como `If-Match`, `If-None-Match`, `If-Modified-Since`, `If-Unmodified-Since` o `If-Range`).");
("The `416 (Range Not Satisfiable)` status code indicates that the set of ranges in the request's
`Range` header field overlap the current extent of the selected resource.

However, this request didn't contain a `Range` header.",
 "El código de estado `416 (Range Not Satisfiable)` indica que el conjunto de rangos en el campo de encabezado `Range` de la solicitud se superpone con la extensión actual del recurso seleccionado.

Sin embargo, esta solicitud no contenía un encabezado `Range`.");
("The `417 (Expectation Failed)` status code indicates that the expectation given in the request's
`Expect` header field could not be met by at least one of the inbound servers.",
 "El código de estado ""417 (Expectativa no cumplida)"" indica que la expectativa dada en el campo de encabezado ""Expect"" de la solicitud no pudo ser cumplida por al menos uno de los servidores entrantes.");
("The `417 (Expectation Failed)` status code indicates that the expectation given in the request's
`Expect` header field could not be met by at least one of the inbound servers.

However, this request didn't contain an `Expect` header.",
 "El código de estado `417 (Expectation Failed)` indica que la expectativa dada en el encabezado `Expect` de la solicitud no pudo ser cumplida por al menos uno de los servidores entrantes.

Sin embargo, esta solicitud no contenía un encabezado `Expect`.");
("The `417 (Expectation Failed)` status code indicates that the expectation given in the request's
`Expect` header field could not be met by at least one of the inbound servers.

In this case, the client requested `100-continue`, but the server (or an intermediary) couldn't
satisfy it.",
 "El código de estado `417 (Expectation Failed)` indica que la expectativa dada en el campo de cabecera `Expect` de la solicitud no pudo ser satisfecha por al menos uno de los servidores entrantes.

En este caso, el cliente solicitó `100-continue`, pero el servidor (o un intermediario) no pudo satisfacerla.");
("The `421 (Misdirected Request)` status code indicates that the request was directed at a server
that is not able to produce a response. This can happen when a connection is reused.",
 "El código de estado `421 (Misdirected Request)` indica que la solicitud se dirigió a un servidor que no puede producir una respuesta. Esto puede ocurrir cuando se reutiliza una conexión.");
("The `425 (Too Early)` status code indicates that the server is unwilling to risk processing a
request that might be replayed.",
 "El código de estado `425 (Too Early)` indica que el servidor no está dispuesto a arriesgarse a procesar una solicitud que podría ser reproducida.");
("The `428 (Precondition Required)` status code indicates that the origin server requires the request
to be conditional.",
 "El código de estado `428 (Precondition Required)` indica que el servidor de origen requiere que la solicitud sea condicional.");
("The `429 (Too Many Requests)` status code indicates that the client has sent too many requests in a
given amount of time (""rate limiting"").",
 "El código de estado `429 (Too Many Requests)` indica que el cliente ha enviado demasiadas solicitudes en un período de tiempo determinado (""limitación de velocidad"").");
("The `431 (Request Header Fields Too Large)` status code indicates that the server is unwilling to
process the request because its header fields are too large.",
 "El código de estado `431 (Campos de encabezado de solicitud demasiado grandes)` indica que el servidor no está dispuesto a procesar la solicitud porque sus campos de encabezado son demasiado grandes.");
("The `451 (Unavailable For Legal Reasons)` status code indicates that the server is denying access to
the resource as a consequence of a legal demand.",
 "El código de estado `451 (Unavailable For Legal Reasons)` indica que el servidor está denegando el acceso al recurso como consecuencia de una demanda legal.");
("The `508 (Loop Detected)` status code indicates that the server terminated an operation because it
encountered an infinite loop while processing a request with ""Depth: infinity"".",
 "El código de estado `508 (Loop Detected)` indica que el servidor terminó una operación porque encontró un bucle infinito al procesar una solicitud con ""Depth: infinity"".");
("The `511 (Network Authentication Required)` status code indicates that the client needs to
authenticate to gain network access.",
 "El código de estado `511 (Network Authentication Required)` indica que el cliente necesita autenticarse para obtener acceso a la red.");
("The `Accept-CH` header field should only be used on secure (HTTPS) responses. Using it over plain
HTTP exposes the user's information to network observers. Because of this, browsers will ignore the
header.",
 "El campo de encabezado `Accept-CH` solo debe usarse en respuestas seguras (HTTPS). Su uso en HTTP sin cifrar expone la información del usuario a los observadores de la red. Por este motivo, los navegadores ignorarán el encabezado.");
("The `Accept-Ranges` response header tells clients what `range-unit`s a resource is willing to
process in future requests. HTTP only defines two: `bytes` and `none`.

Clients who don't know about the non-standard range-unit will not be able to use it.",
 "La cabecera de respuesta `Accept-Ranges` indica a los clientes qué `range-unit`s está dispuesto a procesar un recurso en futuras solicitudes. HTTP solo define dos: `bytes` y `none`.

Los clientes que no conozcan el `range-unit` no estándar no podrán utilizarlo.");
("The `Access-Control-Allow-Credentials` header must be set to `true` if present. If you don't want
to allow credentials, omit the header.",
 "La cabecera `Access-Control-Allow-Credentials` debe establecerse en `true` si está presente. Si no desea permitir credenciales, omita la cabecera.");
("The `Access-Control-Allow-Origin` header (%(acao_value)s) does not match the `Origin` header
in the request (%(origin)s).

This means that the browser will **not** let the requesting site access the response.",
 "La cabecera 'Access-Control-Allow-Origin' (%(acao_value)s) no coincide con la cabecera 'Origin'
en la solicitud (%(origin)s).

Esto significa que el navegador no permitirá que el sitio solicitante acceda a la respuesta.");
("The `Access-Control-Allow-Origin` header can only contain a single origin, `*`, or `null`. It
cannot contain a list of origins.",
 "La cabecera `Access-Control-Allow-Origin` solo puede contener un único origen, `*`, o `null`.
No puede contener una lista de orígenes.");
("The `Access-Control-Allow-Origin` header is set to `*`; this means that any origin can access
the response, unless the request includes credentials or requires a preflight check.",
 "La cabecera 'Access-Control-Allow-Origin' está configurada en '*'; esto significa que cualquier origen puede acceder a la respuesta, a menos que la solicitud incluya credenciales o requiera una comprobación previa del vuelo.");
("The `Access-Control-Allow-Origin` header is set to `null`; this means that no origin can access
the response.",
 "La cabecera 'Access-Control-Allow-Origin' está configurada en 'null'; esto significa que ninguna
origen puede acceder a la respuesta.");
("The `Access-Control-Allow-Origin` header matches the `Origin` header in the request (%(origin)s).

This means that the browser will let the requesting site access the response.",
 "La cabecera `Access-Control-Allow-Origin` coincide con la cabecera `Origin` en la solicitud (%(origin)s). Esto significa que el navegador permitirá que el sitio que realiza la solicitud acceda a la respuesta.");
("The `Access-Control-Max-Age` header indicates how many seconds a preflight response can be cached
for. It cannot be less than zero.",
 "La cabecera `Access-Control-Max-Age` indica cuántos segundos puede almacenarse en caché una respuesta de pre-vuelo. No puede ser menor que cero.");
("The `Access-Control-Max-Age` header indicates how many seconds a preflight response can be cached
for. It must be a non-negative integer.",
 "La cabecera 'Access-Control-Max-Age' indica cuántos segundos se puede almacenar en caché una respuesta de pre-vuelo. Debe ser un número entero positivo o cero.");
("The `Age` header indicates the age of the response; i.e., how long it has been cached
since it was generated. The value given was negative, so it is not a valid age.",
 "La cabecera `Age` indica la antigüedad de la respuesta; es decir, cuánto tiempo ha estado en caché
desde que se generó. El valor proporcionado fue negativo, por lo que no es una edad válida.");
("The `Age` header indicates the age of the response; i.e., how long it has been cached
since it was generated. The value given was not an integer, so it is not a valid age.",
 "La cabecera `Age` indica la edad de la respuesta; es decir, cuánto tiempo ha estado en caché
desde que se generó. El valor proporcionado no era un entero, por lo que no es una edad válida.");
("The `Age` header's value is greater than 2,147,483,648. Some implementations may represent it
using that value (which is over 68 years).
",
 "El valor del encabezado `Age` es mayor que 2.147.483.648. Algunas implementaciones pueden representarlo
usando ese valor (que es más de 68 años).");
("The `Alt-Svc` header field value ""clear"" is used to invalidate previous alternative services.
It cannot be combined with other alternative service advertisements.",
 "El valor del campo de encabezado `Alt-Svc` ""clear"" se utiliza para invalidar los servicios alternativos anteriores. No se puede combinar con otras publicidades de servicios alternativos.");
("The `Available-Dictionary` header is present, but `Accept-Encoding` does not contain 'dcb' or 'dcz'.

[RFC 9842 Section 6.1](https://www.rfc-editor.org/rfc/rfc9842.html#section-6.1) requires that if a
client sends `Available-Dictionary`, it MUST also advertise support for dictionary-based content
encoding (dcb or dcz) in `Accept-Encoding`.",
 "La cabecera 'Available-Dictionary' está presente, pero 'Accept-Encoding' no contiene 'dcb' ni 'dcz'.

[Sección 6.1 del RFC 9842](https://www.rfc-editor.org/rfc/rfc9842.html#section-6.1) establece que si un cliente envía la cabecera 'Available-Dictionary', debe anunciar su apoyo a la codificación de contenido basada en diccionario (dcb o dcz) en 'Accept-Encoding'.");
("The `Available-Dictionary` header value must be a Byte Sequence. Found `%(got)s`.",
 "El valor de la cabecera `Available-Dictionary` debe ser una Secuencia de Bytes. Se encontró `%(got)s`.");
("The `CDN-Cache-Control` header field allows you to specify cache directives that are targeted at
Content Delivery Network (CDN) caches, separately from the `Cache-Control` header field (which
applies to all caches).",
 "El campo de encabezado 'CDN-Cache-Control' le permite especificar directivas de caché que van dirigidas a las
redes de entrega de contenido (CDN) caches, por separado del campo de encabezado 'Cache-Control' (que
se aplica a todos los cachés).");
("The `Cache-Control: max-age` directive and the `Expires` header are both present.

`max-age` takes precedence over `Expires`, so `Expires` is redundant and can be removed.",
 "La directiva `Cache-Control: max-age` y la cabecera `Expires` están ambas presentes.

`max-age` tiene prioridad sobre `Expires`, por lo que `Expires` es redundante y se puede eliminar.");
("The `Cache-Control: must-revalidate` directive forbids caches from using stale responses to satisfy
requests.

For example, caches often use stale responses when they cannot connect to the origin server; when
this directive is present, they will return an error rather than a stale response.",
 "La directiva `Cache-Control: must-revalidate` prohíbe que las cachés utilicen respuestas obsoletas para satisfacer
solicitudes.

Por ejemplo, las cachés a menudo utilizan respuestas obsoletas cuando no pueden conectarse al servidor de origen; cuando
esta directiva está presente, devolverán un error en lugar de una respuesta obsoleta.");
("The `Cache-Control: no-cache` directive means that while caches can store this
response, they cannot use it to satisfy a request unless it has been validated (either with an
`If-None-Match` or `If-Modified-Since` conditional) for that request.",
 "La directiva `Cache-Control: no-cache` significa que si bien las cachés pueden almacenar esta respuesta, no pueden usarla para satisfacer una solicitud a menos que haya sido validada (ya sea con una condicional `If-None-Match` o `If-Modified-Since`) para esa solicitud.");
("The `Cache-Control: no-cache` directive means that while caches can store this response, they
cannot use it to satisfy a request unless it has been validated (either with an `If-None-Match` or
`If-Modified-Since` conditional) for that request.

This response doesn't have a `Last-Modified` or `ETag` header, so it effectively can't be used by a
cache. `Cache-Control: no-store` is more appropriate.",
 "La directiva `Cache-Control: no-cache` significa que, aunque las cachés pueden almacenar esta respuesta, no pueden usarla para satisfacer una solicitud a menos que haya sido validada (ya sea con una condicional `If-None-Match` o `If-Modified-Since`) para esa solicitud.

Esta respuesta no tiene una cabecera `Last-Modified` o `ETag`, por lo que efectivamente no puede ser utilizada por una caché. `Cache-Control: no-store` es más apropiado.");
("The `Cache-Control: no-store` directive indicates that this response can't be stored by a cache.",
 "La directiva `Cache-Control: no-store` indica que esta respuesta no puede ser almacenada por una caché.");
("The `Cache-Control: private` directive indicates that the response can only be stored by caches
that are specific to a single user; for example, a browser cache. Shared caches, such as those in
proxies, cannot store it.",
 "La directiva `Cache-Control: private` indica que la respuesta solo puede ser almacenada por cachés
que son específicos de un solo usuario; por ejemplo, la caché del navegador. Los cachés compartidos,
como los de los proxies, no pueden almacenarla.");
("The `Cache-Control: public` directive allows caches to store and use responses
in some circumstances when they would otherwise not be able to.

For example, it allows responses to authenticated requests to be stored by shared caches.

Other responses **do not need to contain `public`**; it does not make the
response ""more cacheable"", and only makes the response headers larger.",
 "La directiva `Cache-Control: public` permite que las cachés almacenen y utilicen respuestas
en algunas circunstancias en las que de otro modo no podrían hacerlo.

Por ejemplo, permite que las respuestas a solicitudes autenticadas sean almacenadas por cachés compartidas.

Otras respuestas **no necesitan contener `public`**; no hace que la
respuesta sea ""más almacenable en caché"" y solo aumenta el tamaño de las cabeceras de la respuesta.");
("The `Cache-Group-Invalidation` header is only processed for unsafe methods (like POST, PUT, DELETE).
It will be ignored for `%(method)s` requests.",
 "La cabecera `Cache-Group-Invalidation` solo es procesada para métodos inseguros (como POST, PUT, DELETE).
Será ignorada para `%(method)s` solicitudes.");
("The `Cache-Status` header field indicates how caches have handled the response.

%(status)s
",
 "El campo de encabezado `Cache-Status` indica cómo han gestionado las cachés la respuesta.

%(status)s");
("The `Cache-Status` header must be a list of members, where each member is a 
Token or String (identifying the cache) with optional parameters.
",
 "La cabecera `Cache-Status` debe ser una lista de miembros, donde cada miembro es un Token o String (identificando la caché) con parámetros opcionales.");
("The `Clear-Site-Data` header contains a value that is not recognized.
Valid values are: `""cache""`, `""cookies""`, `""storage""`, `""executionContexts""`, `""*""`.",
 "La cabecera `Clear-Site-Data` contiene un valor que no se reconoce.
Los valores válidos son: `""cache""`, `""cookies""`, `""storage""`, `""executionContexts""`, `""*""`.");
("The `Clear-Site-Data` header value is empty. It should contain at least one directive.",
 "El valor de la cabecera 'Clear-Site-Data' está vacío. Debería contener al menos una directiva.");
("The `Content-Disposition` header has two widely-known values; `inline` and `attachment`.
`%(disposition)s` isn't recognised, and most implementations will default to handling it like
`attachment`.",
 "La cabecera `Content-Disposition` tiene dos valores conocidos: `inline` y `attachment`.
`%(disposition)s` no se reconoce, y la mayoría de las implementaciones lo tratarán por defecto como `attachment`.");
("The `Content-Disposition` header suggests a filename for clients to use when saving the file
locally, using the `filename` and `filename*` parameters.

One of these parameters contains a path character (""\"" or ""/""), used to navigate between
directories on common operating systems.

Because this can be used to attach the browser's host operating system (e.g., by saving a file to a
system directory), browsers will usually ignore these parameters, or remove path information.

You should remove these characters.",
 "La cabecera `Content-Disposition` sugiere un nombre de archivo para que los clientes lo utilicen al guardar el archivo
localmente, usando los parámetros `filename` y `filename*`.

Uno de estos parámetros contiene un carácter de ruta (""\"" o ""/""), utilizado para navegar entre
directorios en sistemas operativos comunes.

Debido a que esto se puede usar para adjuntar el sistema operativo anfitrión del navegador (por ejemplo, guardando un archivo en un
directorio del sistema), los navegadores generalmente ignorarán estos parámetros o eliminarán la información de la ruta.

Deberías eliminar estos caracteres.");
("The `Content-Disposition` header suggests a filename for clients to use when saving the file
locally, using the `filename` parameter.

[RFC6266](https://www.rfc-editor.org/rfc/rfc6266) specifies how to carry non-ASCII characters in this
parameter. However, historically some (but not all) browsers have also decoded %%-encoded
characters in the `filename` parameter, which means that they'll be treated differently depending
on the browser you're using.

As a result, it's not interoperable to use percent characters in the `filename` parameter. Use the
correct encoding in the `filename*` parameter instead.",
 "La cabecera `Content-Disposition` sugiere un nombre de archivo para que los clientes lo usen al guardar el archivo localmente, utilizando el parámetro `filename`.

[RFC6266](https://www.rfc-editor.org/rfc/rfc6266) especifica cómo transportar caracteres no ASCII en este parámetro. Sin embargo, históricamente algunos (pero no todos) navegadores también han decodificado caracteres codificados con %% en el parámetro `filename`, lo que significa que se tratarán de forma diferente según el navegador que esté utilizando.

Como resultado, no es interoperable usar caracteres de porcentaje en el parámetro `filename`. Utilice la codificación correcta en el parámetro `filename*` en su lugar.");
("The `Content-Disposition` header with a disposition of `attachment` suggests a filename for clients
to use when saving the file locally.

It should always contain a `filename` parameter, even when the `filename*` parameter is used to
carry an internationalised filename, so that browsers can fall back to an ASCII-only filename.",
 "La cabecera `Content-Disposition` con una disposición de `attachment` sugiere un nombre de archivo para que los clientes lo utilicen al guardar el archivo localmente.

Siempre debe contener un parámetro `filename`, incluso cuando se utiliza el parámetro `filename*` para incluir un nombre de archivo internacionalizado, de modo que los navegadores puedan recurrir a un nombre de archivo que solo contenga caracteres ASCII.");
("The `Content-Length` header should be an integer, but it was not.",
 "La cabecera `Content-Length` debería ser un entero, pero no lo era.");
("The `Content-Length` header's value is greater than 2^63-1. Some implementations may not be able to
handle values this large.",
 "El valor del encabezado `Content-Length` es mayor que 2^63-1. Algunas implementaciones pueden no ser capaces de
manejar valores tan grandes.");
("The `Content-Range` header cannot use a wildcard (`*`) for both the range and the complete length.
",
 "El encabezado `Content-Range` no puede utilizar un carácter comodín (`*`) para ambas la gama y la longitud completa.");
("The `Content-Range` header is missing a range unit at the start; it should 
almost always be `bytes`.

For example:

    Content-Range: bytes 1-100/200
",
 "La cabecera `Content-Range` carece de la unidad de rango al principio; debería ser `bytes` casi siempre.

Por ejemplo:

    Content-Range: bytes 1-100/200");
("The `Content-Range` header is missing a slash (`/`) separating the range from the complete length.

For example:

    Content-Range: bytes 1-100/200
",
 "La cabecera `Content-Range` falta el slash (`/`) separando el rango de la longitud completa.

Por ejemplo:

    Content-Range: bytes 1-100/200");
("The `Content-Range` header uses `*` for the instance length, indicating that the total length of
the resource is unknown.",
 "La cabecera `Content-Range` utiliza `*` para la longitud de instancia, lo que indica que la longitud
total del recurso es desconocida.");
("The `Content-Range` header uses the `*/<length>` syntax, which is reserved for `416` (Requested
Range Not Satisfiable) responses to indicate the actual length of the resource.

The `206` response status code indicates a successful range response, so this header is
incorrect.",
 "El encabezado `Content-Range` utiliza la sintaxis `*/<length>`, que está reservada para las respuestas `416` (Rango solicitado no satisfactoria) para indicar la longitud real del recurso.

El código de estado de respuesta `206` indica una respuesta de rango exitosa, por lo que este encabezado es incorrecto.");
("The `Content-Type` header declares the content as `%(declared_type)s`, but it looks like
`%(sniffed_type)s`.",
 "La cabecera `Content-Type` declara el contenido como `%(declared_type)s`, pero parece ser
`%(sniffed_type)s`.");
("The `Deprecation` header indicates that this resource is deprecated.",
 "La `Deprecation` header indica que este recurso está en desuso.");
("The `Deprecation` header indicates that this resource was deprecated on %(date)s.",
 "La cabecera `Deprecation` indica que este recurso fue depreciado el %(date)s.");
("The `Deprecation` header indicates that this resource will be deprecated on %(date)s.",
 "El encabezado `Deprecation` indica que este recurso será obsoleto el %(date)s.");
("The `Deprecation` header value must be a Date or a Boolean True. Found: %(item_type)s.",
 "La `Deprecation` header value must be a Date or a Boolean True. Encontrado: %(item_type)s.");
("The `Expect` header was added in HTTP/1.1; it has no meaning in HTTP/1.0.",
 "La cabecera `Expect` se añadió en HTTP/1.1; no tiene significado en HTTP/1.0.");
("The `Last-Modified` header indicates the last point in time that the resource has changed.
This response's `Last-Modified` time is in the future, which doesn't have any defined meaning in
HTTP.",
 "La cabecera `Last-Modified` indica el último punto en el tiempo en que el recurso ha cambiado.
La hora `Last-Modified` de esta respuesta está en el futuro, lo cual no tiene ningún significado definido en
HTTP.");
("The `Last-Modified` header indicates the last point in time that the resource has changed. It is
used in HTTP for validating cached responses, and for calculating heuristic freshness in caches.

This resource last changed %(last_modified_string)s.",
 "La cabecera `Last-Modified` indica el último momento en que el recurso ha cambiado. Se usa en HTTP para validar respuestas cacheadas y para calcular la frescura heurística en las cachés.

Este recurso cambió por última vez el %(last_modified_string)s.");
("The `Link` header, defined by [RFC 8288](https://www.rfc-editor.org/rfc/rfc8288#section-3), uses the
`anchor` parameter to define the context URI for the link.

This parameter can be an absolute or relative URI; however, `%(anchor)s` is neither.",
 "La cabecera `Link`, definida por [RFC 8288](https://www.rfc-editor.org/rfc/rfc8288#section-3), utiliza el
parámetro `anchor` para definir la URI de contexto para el enlace.

Este parámetro puede ser una URI absoluta o relativa; sin embargo, `%(anchor)s` no lo es.");
("The `Link` header, defined by [RFC 8288](https://www.rfc-editor.org/rfc/rfc8288#section-3), uses the
`rel` parameter to communicate the type of a link. `rev` is deprecated by that specification
because it is often confusing.

Use `rel` and an appropriate relation.",
 "La cabecera `Link`, definida por [RFC 8288](https://www.rfc-editor.org/rfc/rfc8288#section-3), utiliza el parámetro `rel` para comunicar el tipo de un enlace. `rev` está en desuso por esa especificación porque a menudo es confusa.

Utilice `rel` y una relación apropiada.");
("The `Link` header, defined by [RFC 8288](https://www.rfc-editor.org/rfc/rfc8288#section-3), uses the
`type` parameter to define the media type of the link target.

However, `%(type)s` is not a valid media type.",
 "La cabecera 'Link', definida en [RFC 8288](https://www.rfc-editor.org/rfc/rfc8288#section-3), utiliza el
parámetro 'type' para definir el tipo de medio del objetivo de la vinculación.

Sin embargo, '%(type)s' no es un tipo de medio válido.");
("The `Location` header is used for specific purposes in HTTP; mostly to indicate the URI of another
resource (e.g., in redirection, or when a new resource is created).

In other status codes (such as this one) it doesn't have a defined meaning, so any use of it won't
be interoperable.

Sometimes `Location` is confused with `Content-Location`, which indicates a URI for the payload of
the message that it appears in.",
 "La cabecera `Location` se utiliza para fines específicos en HTTP; principalmente para indicar la URI de otro recurso (por ejemplo, en redireccionamientos, o cuando se crea un nuevo recurso).

En otros códigos de estado (como este) no tiene un significado definido, por lo que su uso no será interoperable.

A veces `Location` se confunde con `Content-Location`, que indica una URI para el contenido del mensaje en el que aparece.");
("The `Max-Forwards` header is only defined for `TRACE` and `OPTIONS` requests; for other methods, it
is likely to be ignored.",
 "La cabecera `Max-Forwards` solo está definida para peticiones `TRACE` y `OPTIONS`; para otros métodos, es probable que se ignore.");
("The `NEL` header should be a list of objects.
",
 "La cabecera `NEL` debe ser una lista de objetos.");
("The `Origin` header should only contain a single value. Any values after the first
will be ignored.",
 "La cabecera 'Origin' solo debe contener un valor. Los valores posteriores al primero serán ignorados.");
("The `Partitioned` attribute on this `Set-Cookie` header is present, but the `Secure` attribute is
missing.

Browsers will ignore the `Partitioned` attribute as a result.",
 "El atributo `Partitioned` en esta cabecera `Set-Cookie` está presente, pero falta el atributo `Secure`.

Como resultado, los navegadores ignorarán el atributo `Partitioned`.");
("The `Permissions-Policy` header allows a site to control the use of browser features.",
 "La cabecera `Permissions-Policy` permite a un sitio controlar el uso de características del navegador.");
("The `Priority` attribute was an experiment, and is no longer supported.
",
 "El atributo `Priority` fue un experimento, y ya no se admite.");
("The `Proxy-Status` header field indicates how intermediaries have handled the response.

%(status)s
",
 "El campo de cabecera `Proxy-Status` indica cómo han manejado la respuesta los intermediarios.

%(status)s");
("The `Proxy-Status` header must be a list of members, where each member is
a Token or String (identifying the proxy) with optional parameters.
",
 "La cabecera `Proxy-Status` debe ser una lista de miembros, donde cada miembro es
un Token o String (identificando al proxy) con parámetros opcionales.");
("The `Referrer-Policy` header contains multiple valid policies. Browsers will only use the last
valid policy found, which is `%(effective)s`. Earlier values are ignored.",
 "La cabecera `Referrer-Policy` contiene varias políticas válidas. Los navegadores solo usarán la última política válida encontrada, que es `%(effective)s`. Los valores anteriores se ignoran.");
("The `Referrer-Policy` header contains the value `%(policy)s`, which is not a known referrer policy.
It will be ignored by browsers.",
 "La cabecera `Referrer-Policy` contiene el valor `%(policy)s`, que no es una política de remitente conocida.
Los navegadores lo ignorarán.");
("The `Referrer-Policy` header does not contain any valid policies. Browsers will use their default
policy (usually `strict-origin-when-cross-origin`).",
 "La cabecera `Referrer-Policy` no contiene ninguna política válida. Los navegadores usarán su política predeterminada (normalmente `strict-origin-when-cross-origin`).");
("The `Report-To` header should be a list of objects.
",
 "La cabecera 'Report-To' debe ser una lista de objetos.");
("The `Secure` attribute on this `Set-Cookie` header is missing.

Because the `SameSite` attribute is set to `None`, the `Secure` attribute is required.

Browsers will ignore this cookie.",
 "El atributo 'Secure' en este encabezado 'Set-Cookie' está faltando.

Dado que el atributo 'SameSite' está configurado en 'None', el atributo 'Secure' es obligatorio.

Los navegadores ignorarán este cookie.");
("The `Server` header is %(server_length)s long, which uses unnecessary bandwidth
and can expose details of the back-end system to attackers.

Consider shortening it.",
 "La cabecera `Server` tiene una longitud de %(server_length)s, lo que consume ancho de banda innecesario y puede exponer detalles del sistema de fondo a los atacantes.

Considere acortarla.");
("The `Set-Cookie` header has a `__Host-` prefix, but it does not set `Path=/`.

Browsers will reject this cookie.",
 "El encabezado `Set-Cookie` tiene un prefijo `__Host-`, pero no establece `Path=/`.

Los navegadores rechazarán esta cookie.");
("The `Set-Cookie` header has a `__Host-` prefix, but it sets a `Domain` attribute.

Browsers will reject this cookie.",
 "El encabezado `Set-Cookie` tiene el prefijo `__Host-`, pero establece un atributo `Domain`.

Los navegadores rechazarán esta cookie.");
("The `Set-Cookie` header has a lifetime (Max-Age or Expires) of %(duration)s, which is greater than
400 days.

Browsers will cap the lifetime to 400 days.",
 "La cabecera 'Set-Cookie' tiene una vida útil (Max-Age o Expires) de %(duration)s, lo que es mayor a 400 días.

Los navegadores limitarán la vida útil a 400 días.");
("The `Set-Cookie` header has a prefix (e.g., `__Secure-` or `__Host-`) that requires the `Secure`
attribute.

Browsers will reject this cookie.",
 "La cabecera `Set-Cookie` tiene un prefijo (por ejemplo, `__Secure-` o `__Host-`) que requiere el atributo `Secure`.

Los navegadores rechazarán esta cookie.");
("The `Set-Cookie` header is larger than 4096 bytes.

Browsers will ignore this cookie.",
 "La cabecera `Set-Cookie` es mayor que 4096 bytes.

Los navegadores ignorarán esta cookie.");
("The `Strict-Transport-Security` header contains a trailing semicolon. Technically, this violates
the grammar, so strict implementations might find it confusing. However, most implementations
should ignore it.",
 "El encabezado `Strict-Transport-Security` contiene un punto y coma final. Técnicamente, esto viola
la gramática, por lo que las implementaciones estrictas pueden encontrarlo confuso. Sin embargo, la mayoría
de las implementaciones deberían ignorarlo.");
("The `Strict-Transport-Security` header is ignored when sent over HTTP, unless it's a 301 Redirect.
It should only be sent over HTTPS.",
 "La cabecera `Strict-Transport-Security` se ignora cuando se envía sobre HTTP, a menos que sea una Redirección 301.
Solo debe enviarse sobre HTTPS.");
("The `Strict-Transport-Security` header requires a `max-age` directive to be valid.",
 "La cabecera `Strict-Transport-Security` requiere una directiva `max-age` para ser válida.");
("The `Sunset` header indicates that this resource has already passed its sunset date and may become
unresponsive.",
 "La cabecera `Sunset` indica que este recurso ya ha pasado su fecha de ocaso y puede volverse inaccesible.");
("The `Vary: Negotiate` header value is not necessary, as 
[Transparent Content Negotiation](https://www.rfc-editor.org/rfc/rfc2295.html)
is not widely supported.

Consider removing it.",
 "El valor del encabezado `Vary: Negotiate` no es necesario, ya que la [Negociación de Contenido Transparente](https://www.rfc-editor.org/rfc/rfc2295.html) no tiene un amplio soporte.

Considere eliminarlo.");
("The `Vary` header allows you to list the parts of the request that effectively change the response
representation.

Listing the same header more than once is redundant and can be confusing.",
 "La cabecera 'Vary' permite listar las partes de la solicitud que cambian efectivamente la representación de la respuesta.

Listar la misma cabecera más de una vez es redundante y puede ser confuso.");
("The `Vary` mechanism allows a resource to describe the dimensions that its responses vary, or
change, over; each listed header is another dimension.

Varying by too many dimensions makes using this information impractical.",
 "El mecanismo `Vary` permite a un recurso describir las dimensiones sobre las cuales sus respuestas varían o cambian; cada encabezado listado es otra dimensión.

Variar por demasiadas dimensiones hace que sea poco práctico usar esta información.");
("The `Version` attribute is no longer part of the `Set-Cookie` specification,
and is ignored by browsers.

Because some software still interprets cookies differently when it is present,
[it can cause security 
issues](https://portswigger.net/research/bypassing-wafs-with-the-phantom-version-cookie).
",
 "El atributo 'Version' ya no forma parte de la especificación de 'Set-Cookie' e es ignorado por los navegadores. Debido a que algunos softwares interpretan las cookies de forma diferente cuando este atributo está presente, [puede causar problemas de seguridad](https://portswigger.net/research/bypassing-wafs-with-the-phantom-version-cookie).");
("The `Via` header indicates that one or more intermediaries are present between the user agent and
the origin server for the resource.

This may indicate that a proxy is configured, or that the server uses a ""reverse proxy"" or CDN in
front of it.

There field has three space-separated components; first, the HTTP version of the message that the
intermediary received, then the identity of the intermediary (usually but not always its hostname),
and then optionally a product identifier or comment (usually used to identify the software being
used).",
 "La cabecera `Via` indica que hay uno o más intermediarios entre el agente de usuario y el servidor de origen del recurso.

Esto puede indicar que hay un proxy configurado, o que el servidor utiliza un ""proxy inverso"" o CDN delante de él.

Este campo tiene tres componentes separados por espacios; primero, la versión HTTP del mensaje que recibió el intermediario, luego la identidad del intermediario (generalmente pero no siempre su nombre de host), y luego opcionalmente un identificador de producto o comentario (generalmente utilizado para identificar el software que se está utilizando).");
("The `X-Frame-Options` response header controls how IE8 handles HTML frames; the `DENY` value
prevents this content from being rendered within a frame on another site, which defends against
certain types of attacks.

Currently this is supported by IE8 and Safari 4.

See [MDN](https://developer.mozilla.org/en-US/docs/Web/HTTP/Headers/X-Frame-Options) for more information.
",
 "La cabecera de respuesta `X-Frame-Options` controla cómo IE8 maneja los marcos HTML; el valor `DENY`
impide que este contenido se muestre dentro de un marco en otro sitio, lo que se defiende contra
ciertos tipos de ataques.

Actualmente esto está soportado por IE8 y Safari 4.

Consulta [MDN](https://developer.mozilla.org/en-US/docs/Web/HTTP/Headers/X-Frame-Options) para más información.");
("The `X-Frame-Options` response header controls how IE8 handles HTML frames; the `DENY` value
prevents this content from being rendered within a frame, which defends against certain types of
attacks.

See [MDN](https://developer.mozilla.org/en-US/docs/Web/HTTP/Headers/X-Frame-Options) for more information.
",
 "El encabezado de respuesta `X-Frame-Options` controla cómo IE8 maneja los marcos HTML; el valor `DENY`
impide que este contenido se renderice dentro de un marco, lo que defiende contra ciertos tipos de
ataques.

Ver [MDN](https://developer.mozilla.org/en-US/docs/Web/HTTP/Headers/X-Frame-Options) para más información.");
("The `credentialless`
[Cross-Origin Embedder Policy](https://fetch.spec.whatwg.org/#cross-origin-embedder-policy-header)
allows loading cross-origin resources without explicit permission in supporting browsers, but
requests for them will not include credentials (cookies, client certificates,
etc.).%(report_only_text)s",
 "La política `credentialless` de
[Cross-Origin Embedder Policy](https://fetch.spec.whatwg.org/#cross-origin-embedder-policy-header)
permite cargar recursos de origen cruzado sin permiso explícito en navegadores compatibles, pero
las solicitudes para ellos no incluirán credenciales (cookies, certificados de cliente,
etc.).%(report_only_text)s");
("The `cross-origin`
[Cross-Origin Resource Policy](https://fetch.spec.whatwg.org/#cross-origin-resource-policy-header)
allows the resource to be read by any document in supporting browsers, regardless of its 
origin.%(report_only_text)s",
 "La directiva `cross-origin`
[Cross-Origin Resource Policy](https://fetch.spec.whatwg.org/#cross-origin-resource-policy-header)
permite que el recurso sea leído por cualquier documento en navegadores compatibles, independientemente de su
origen.%(report_only_text)s");
("The `domain` parameter on this `Set-Cookie` header is empty.

Note that handling of empty domains is 
[not interoperable](https://chromestatus.com/feature/5674723800252416).

Browsers will probably ignore it as a result.",
 "El parámetro `domain` en este encabezado `Set-Cookie` está vacío.

Tenga en cuenta que el manejo de dominios vacíos no es
[interoperable](https://chromestatus.com/feature/5674723800252416).

Es probable que los navegadores lo ignorarán como resultado.");
("The `expires` date on this `Set-Cookie` header isn't valid; see
[RFC6265](https://www.rfc-editor.org/rfc/rfc6265) for details of the correct format.",
 "La fecha `expires` en esta cabecera `Set-Cookie` no es válida; consulte
[RFC6265](https://www.rfc-editor.org/rfc/rfc6265) para más detalles sobre el formato correcto.");
("The `includeSubDomains` directive indicates that this HSTS policy applies to this domain as well as
all of its subdomains.",
 "La directiva `includeSubDomains` indica que esta política HSTS se aplica a este dominio y a todos sus subdominios.");
("The `includeSubDomains` directive indicates that this HSTS policy applies to this domain as well as
all of its subdomains.

Because cookies can be set across HTTP and HTTPS sites as well as across subdomains, this means 
that an attacker might be able to take advantage of a subdomain that doesn't have HSTS enabled.
",
 "La directiva `includeSubDomains` indica que esta política HSTS se aplica a este dominio así como a todos sus subdominios.

Dado que las cookies se pueden establecer en sitios HTTP y HTTPS, así como entre subdominios, esto significa que un atacante podría aprovecharse de un subdominio que no tenga HSTS habilitado.");
("The `match-dest` parameter must be a String or a list of Strings.",
 "El parámetro `match-dest` debe ser una cadena o una lista de cadenas.");
("The `max-age` directive in the `Strict-Transport-Security` header must be a non-negative
integer. The value ""%(max_age)s"" is not valid.",
 "La directiva `max-age` en la cabecera `Strict-Transport-Security` debe ser un entero no negativo. El valor ""%(max_age)s"" no es válido.");
("The `max-age` parameter on this `Set-Cookie` header doesn't have a value.

Browsers will ignore the `max-age` value as a result.",
 "El parámetro `max-age` en esta cabecera `Set-Cookie` no tiene un valor.

Los navegadores ignorarán el valor de `max-age` como resultado.");
("The `max-age` parameter on this `Set-Cookie` header has a leading zero.

Browsers will ignore the `max-age` value as a result.",
 "El parámetro `max-age` en esta cabecera `Set-Cookie` tiene un cero a la izquierda.

Los navegadores ignorarán el valor de `max-age` como resultado.");
("The `max-age` parameter on this `Set-Cookie` header isn't numeric.

Browsers will ignore the `max-age` value as a result.",
 "El parámetro `max-age` en esta cabecera `Set-Cookie` no es numérico.

Los navegadores ignorarán el valor de `max-age` como resultado.");
("The `preload` directive on `Strict-Transport-Security` allows browsers to preload the site in
its HSTS lists, avoiding the potential for making unencrypted requests when first accessing the
site.

See the [HSTS Preload List](https://hstspreload.org/) for more information.
",
 "La directiva `preload` en `Strict-Transport-Security` permite a los navegadores precargar el sitio en
su lista HSTS, evitando la posibilidad de realizar solicitudes sin cifrar al acceder por primera vez al
sitio.

Consulte la [Lista de precarga HSTS](https://hstspreload.org/) para obtener más información.");
("The `q` parameter must be a decimal number between 0 and 1, with at most 3 digits of precision.",
 "El parámetro `q` debe ser un número decimal entre 0 y 1, con un máximo de 3 dígitos de precisión.");
("The `report-to` directive [Content Security Policy](https://www.w3.org/TR/CSP3/)
specifies a reporting endpoint, but no matching endpoint refers to it in the
`Reporting-Endpoints` header.%(report_only_text)s",
 "La directiva `report-to` [Política de Seguridad de Contenido](https://www.w3.org/TR/CSP3/) especifica un punto final de reporte, pero ningún punto final coincidente se refiere a él en el encabezado `Reporting-Endpoints`.%(report_only_text)s");
("The `report-to` parameter in the
[Cross-Origin Embedder Policy](https://fetch.spec.whatwg.org/#cross-origin-embedder-policy-header)
header specifies a reporting endpoint, but no matching endpoint refers to it in the
`Reporting-Endpoints` header.",
 "El parámetro `report-to` en el encabezado [Cross-Origin Embedder Policy](https://fetch.spec.whatwg.org/#cross-origin-embedder-policy-header) especifica un punto final de informe, pero ningún punto final coincidente hace referencia a él en el encabezado `Reporting-Endpoints`.");
("The `report-to` parameter in the
[Cross-Origin Opener Policy](https://html.spec.whatwg.org/multipage/origin.html#coop)
header specifies a reporting endpoint, but no matching endpoint refers to it in the
`Reporting-Endpoints` header.",
 "El parámetro `report-to` en el encabezado [Cross-Origin Opener Policy](https://html.spec.whatwg.org/multipage/origin.html#coop) especifica un punto final de informe, pero ningún punto final coincidente hace referencia a él en el encabezado `Reporting-Endpoints`.");
("The `report-uri` [Content Security Policy](https://www.w3.org/TR/CSP3/)
directive is deprecated in favor of `report-to`. It is recommended to use `report-to`
for reporting violations, although `report-uri` may still be supported for backward
compatibility.",
 "La directiva `report-uri` de [Content Security Policy](https://www.w3.org/TR/CSP3/) está obsoleta en favor de `report-to`. Se recomienda usar `report-to` para informar sobre violaciones, aunque `report-uri` todavía puede ser compatible por compatibilidad retroactiva.");
("The `report_to` member in the [Network Error Logging](https://w3c.github.io/network-error-logging/)
policy specifies a reporting endpoint, but no matching endpoint refers to it in the
`Reporting-Endpoints` header.",
 "La `report_to` en la [politica de registro de errores de red](https://w3c.github.io/network-error-logging/)
se especifica un punto final de informes, pero ningún punto final coincidente lo hace en el
""Encabezado de puntos finales de informes"".");
("The `require-corp`
[Cross Origin Embedder Policy](https://fetch.spec.whatwg.org/#cross-origin-embedder-policy-header)
requires that all cross-origin resources must explicitly grant permission to be loaded via a
`Cross-Origin-Resource-Policy` header, in supporting browsers.%(report_only_text)s",
 "La política `require-corp`
[Cross Origin Embedder Policy](https://fetch.spec.whatwg.org/#cross-origin-embedder-policy-header)
requiere que todos los recursos de origen cruzado otorguen explícitamente permiso para ser cargados a través de una cabecera
`Cross-Origin-Resource-Policy`, en navegadores compatibles.%(report_only_text)s");
("The `same-origin-allow-popups`
[Cross-Origin Opener Policy](https://html.spec.whatwg.org/multipage/origin.html#coop)
isolates the browsing context but maintains a relationship
with popups that it opens, or that opened it, in supporting browsers.%(report_only_text)s",
 "La política `same-origin-allow-popups`
[Cross-Origin Opener Policy](https://html.spec.whatwg.org/multipage/origin.html#coop)
aísla el contexto de navegación pero mantiene una relación
con las ventanas emergentes que abre, o que la abrieron, en navegadores compatibles.%(report_only_text)s");
("The `same-origin`
[Cross-Origin Opener Policy](https://html.spec.whatwg.org/multipage/origin.html#coop)
isolates the browsing context, preventing it from sharing a window object
with cross-origin documents in supporting browsers.%(report_only_text)s",
 "La política `same-origin`
[Cross-Origin Opener Policy](https://html.spec.whatwg.org/multipage/origin.html#coop)
aísla el contexto de navegación, impidiendo que comparta un objeto de ventana
con documentos de origen cruzado en navegadores compatibles.%(report_only_text)s");
("The `same-origin`
[Cross-Origin Resource Policy](https://fetch.spec.whatwg.org/#cross-origin-resource-policy-header)
prevents the resource from being read by any cross-origin document 
in supporting browsers.%(report_only_text)s",
 "La política de recursos de origen cruzado `same-origin`
[Cross-Origin Resource Policy](https://fetch.spec.whatwg.org/#cross-origin-resource-policy-header)
evita que el recurso sea leído por cualquier documento de origen cruzado
en navegadores compatibles.%(report_only_text)s");
("The `same-site`
[Cross-Origin Resource Policy](https://fetch.spec.whatwg.org/#cross-origin-resource-policy-header)
allows the resource to be read by documents from the same site, but
prevents it from being read by cross-site documents in supporting browsers.%(report_only_text)s",
 "La política `same-site` de
[Cross-Origin Resource Policy](https://fetch.spec.whatwg.org/#cross-origin-resource-policy-header)
permite que el recurso sea leído por documentos del mismo sitio, pero
evita que sea leído por documentos de sitios cruzados en navegadores compatibles.%(report_only_text)s");
("The `stale-if-error` cache directive allows a cache to return a stale response when an error
(e.g., a 500 Internal Server Error, or a network timeout) is encountered while attempting to
revalidate it.

See [RFC 5861](https://www.rfc-editor.org/rfc/rfc5861) for more information.",
 "La directiva de caché `stale-if-error` permite que una caché devuelva una respuesta obsoleta cuando se encuentra un error
(por ejemplo, un 500 Internal Server Error, o un tiempo de espera de red) al intentar
revalidarla.

Consulte [RFC 5861](https://www.rfc-editor.org/rfc/rfc5861) para obtener más información.");
("The `stale-while-revalidate` cache directive allows a cache to serve a stale response while a
revalidation request is happening in the background.

See [RFC 5861](https://www.rfc-editor.org/rfc/rfc5861) for more information.",
 "La directiva de caché `stale-while-revalidate` permite que una caché sirva una respuesta obsoleta mientras se está realizando una solicitud de revalidación en segundo plano.

Consulte [RFC 5861](https://www.rfc-editor.org/rfc/rfc5861) para obtener más información.");
("The `unsafe-none`
[Cross-Origin Embedder Policy](https://fetch.spec.whatwg.org/#cross-origin-embedder-policy-header)
is the default behavior, allowing cross-origin resources to be loaded
without explicit permission in supporting browsers.

This does not provide cross-origin isolation.%(report_only_text)s",
 "El `unsafe-none`
[Cross-Origin Embedder Policy](https://fetch.spec.whatwg.org/#cross-origin-embedder-policy-header)
es el comportamiento predeterminado, permitiendo que los recursos de origen cruzado se carguen
sin permiso explícito en navegadores compatibles.

Esto no proporciona aislamiento de origen cruzado.%(report_only_text)s");
("The `unsafe-none`
[Cross-Origin Opener Policy](https://html.spec.whatwg.org/multipage/origin.html#coop)
is the default behavior in supporting browsers. It allows the document to share a browsing context
group with other documents unless they enforce isolation.%(report_only_text)s",
 "El `unsafe-none` de la
[Política de Apertura de Origen Cruzado](https://html.spec.whatwg.org/multipage/origin.html#coop)
es el comportamiento predeterminado en los navegadores compatibles. Permite que el documento comparta un grupo de contexto de navegación
con otros documentos a menos que apliquen aislamiento.%(report_only_text)s");
("The client has sent too many requests in a given amount of time.",
 "El cliente ha enviado demasiadas solicitudes en un período de tiempo determinado.");
("The client needs to authenticate to gain network access.",
 "El cliente necesita autenticarse para obtener acceso a la red.");
("The content doesn't match the declared Content-Type.",
 "El contenido no coincide con el Content-Type declarado.");
("The deprecated report-uri directive is used.",
 "Se usa la directiva report-uri obsoleta.");
("The filename in the Content-Disposition header contains a path character.",
 "El nombre de archivo en la cabecera Content-Disposition contiene un carácter de ruta.");
("The following cookies are set more than once in this response: %(cookie_names)s.

Browsers will likely accept all of them, but the order of application
may vary or be confusing.",
 "Las siguientes cookies se establecen más de una vez en esta respuesta: %(cookie_names)s.

Es probable que los navegadores acepten todas, pero el orden de aplicación
puede variar o ser confuso.");
("The following fields appear in `Accept-CH` but are not listed in the `Vary` header:
%(missing_fields)s, even though the response is cacheable.

Because these fields can affect the response content, they should be included in `Vary` to ensure
that caches store separate responses for different client hints.",
 "Los siguientes campos aparecen en 'Accept-CH' pero no están listados en el encabezado 'Vary':
%(missing_fields)s, a pesar de que la respuesta es cacheable.

Como estos campos pueden afectar el contenido de la respuesta, deben incluirse en 'Vary' para garantizar que los cachés almacenen respuestas separadas para diferentes sugerencias de cliente.");
("The following header(s) are only used in the response to a Cross-Origin Resource Sharing (CORS)
preflight request:

%(headers)s

A preflight request is an `OPTIONS` request that includes an `Origin` header and an
`Access-Control-Request-Method` header.

This response was not to a CORS preflight request, so these headers should not be present.",
 "Los siguientes encabezados solo se utilizan en la respuesta a una solicitud de intercambio de recursos entre orígenes (CORS):

%(headers)s

Una solicitud de pre-búsqueda es una solicitud `OPTIONS` que incluye un encabezado `Origin` y un encabezado `Access-Control-Request-Method`.

Esta respuesta no fue una solicitud de pre-búsqueda de CORS, por lo que estos encabezados no deberían estar presentes.");
("The identity transfer-coding isn't necessary.",
 "La codificación de transferencia de identidad no es necesaria.");
("The item '%(item)s' is not a valid type for an allowlist.",
 "El elemento '%(item)s' no es un tipo válido para una lista de permitidos.");
("The item `%(item)s` is not a valid type for an allowlist.
Allowlists should contain origins (strings) or keywords (tokens).",
 "El elemento `%(item)s` no es un tipo válido para una lista de permitidos.
Las listas de permitidos deben contener orígenes (cadenas) o palabras clave (tokens).");
("The match-dest parameter has an invalid type.",
 "El parámetro match-dest tiene un tipo no válido.");
("The max-age directive in the HSTS header is invalid.",
 "La directiva max-age en la cabecera HSTS no es válida.");
("The max-age is 0.",
 "El max-age es 0.");
("The max-age is less than one year.",
 "La antigüedad máxima es inferior a un año.");
("The members of a DAV binding have already been enumerated.",
 "Los miembros de un enlace DAV ya han sido enumerados.");
("The origin server requires the request to be conditional.",
 "El servidor de origen requiere que la solicitud sea condicional.");
("The post-check cache directive's value is '0'.",
 "El valor de la directiva de caché post-check es '0'.");
("The post-check cache directive's value is larger than pre-check's.",
 "El valor de la directiva de caché post-comprobación es mayor que el de pre-comprobación.");
("The pre-check and post-check cache directives are both '0'.",
 "Las directivas de caché pre-comprobación y post-comprobación son ambas '0'.");
("The presence of the `Cache-Control: proxy-revalidate` and/or `s-maxage` directives forbids shared
caches (e.g., proxy caches) from using stale responses to satisfy requests.

For example, caches often use stale responses when they cannot connect to the origin server; when
this directive is present, they will return an error rather than a stale response.

These directives do not affect private caches; for example, those in browsers.",
 "La presencia de las directivas `Cache-Control: proxy-revalidate` y/o `s-maxage` prohíbe a las cachés compartidas (por ejemplo, cachés de proxy) usar respuestas obsoletas para satisfacer solicitudes.

Por ejemplo, las cachés a menudo usan respuestas obsoletas cuando no pueden conectarse al servidor de origen; cuando esta directiva está presente, devolverán un error en lugar de una respuesta obsoleta.

Estas directivas no afectan a las cachés privadas; por ejemplo, las de los navegadores.");
("The protocol was upgraded without being requested.",
 "El protocolo se actualizó sin ser solicitado.");
("The q value on '{language}' is invalid.",
 "El valor q en '{language}' es inválido.");
("The q value on '{media_type}' is invalid.",
 "El valor q en '{media_type}' es inválido.");
("The range specifier `%(value)s` is missing a hyphen separating the start and end positions.",
 "El especificador de rango `'%(value)s'` carece de un guión que separa las posiciones de inicio y fin.");
("The report-to endpoint '%(endpoint)s' is not defined%(report_only)s.",
 "El punto final 'report-to' '%(endpoint)s' no está definido.%(report_only)s.");
("The report-to endpoint '%(endpoint)s' is not defined.",
 "El punto final 'report-to' '%(endpoint)s' no está definido.");
("The reporting endpoint '%(value)s' is not defined.",
 "El punto final de informe '%(value)s' no está definido.");
("The reporting endpoint `%(name)s` must be a string URL. Found: %(value)s (type `%(found_type)s`).",
 "El punto final de informe `'%(name)s'` debe ser una URL de cadena. Encontrado: `'%(value)s'` (tipo `'%(found_type)s'`).");
("The reporting endpoint `%(name)s` uses an insecure URL (`%(url)s`). Browsers may ignore it.",
 "El punto final de informes `%(name)s` utiliza una URL no segura (`%(url)s`). Los navegadores pueden ignorarlo.");
("The request HTTP version isn't supported.",
 "La versión HTTP de la solicitud no es compatible.");
("The request conflicted with the state of the resource.",
 "La solicitud entró en conflicto con el estado del recurso.");
("The request content was too large for the server.",
 "El contenido de la solicitud era demasiado grande para el servidor.");
("The request didn't have a Range header.",
 "La solicitud no tenía una cabecera Range.");
("The request didn't have an Expect header.",
 "La solicitud no tenía una cabecera Expect.");
("The request didn't have any preconditions.",
 "La solicitud no tenía ninguna precondición.");
("The request expectation failed.",
 "La expectativa de la solicitud falló.");
("The request precondition failed.",
 "El prefijo de la solicitud no tuvo éxito.");
("The request was directed at a server that is not able to produce a response.",
 "La solicitud se dirigió a un servidor que no pudo producir una respuesta.");
("The resource cannot produce a response that is acceptable to the client.",
 "El recurso no puede generar una respuesta aceptable para el cliente.");
("The resource could not be found.",
 "El recurso no pudo ser encontrado.");
("The resource does not allow the %(method)s method.",
 "El recurso no permite el método %(method)s.");
("The resource doesn't support this media type in requests.",
 "El recurso no admite este tipo de medio en las solicitudes.");
("The resource has Sunset.",
 "El recurso tiene Sunset.");
("The resource has been deprecated.",
 "El recurso ha sido deprecado.");
("The resource is deprecated.",
 "El recurso está en desuso.");
("The resource is gone.",
 "El recurso se ha ido.");
("The resource is unavailable for legal reasons.",
 "El recurso no está disponible por razones legales.");
("The resource last changed %(last_modified_string)s.",
 "El recurso cambió por última vez %(last_modified_string)s.");
("The resource will be deprecated.",
 "El recurso va a ser depreciado.");
("The response is compressed with a dictionary (dcb or dcz) and is cacheable, but does not list
`Available-Dictionary` in the `Vary` header.

[RFC 9842 Section 6.2](https://www.rfc-editor.org/rfc/rfc9842.html#section-6.2) requires that
cacheable dictionary-compressed responses MUST include `Available-Dictionary` in the `Vary` header
to prevent serving compressed content to clients that do not have the dictionary.",
 "La respuesta está comprimida con un diccionario (dcb o dcz) y es cacheable, pero no incluye
`Available-Dictionary` en el encabezado `Vary`.

[La sección 6.2 del RFC 9842](https://www.rfc-editor.org/rfc/rfc9842.html#section-6.2) requiere que las respuestas
cacheables y comprimidas con diccionario MUST incluir `Available-Dictionary` en el encabezado `Vary`
para evitar servir contenido comprimido a clientes que no tengan el diccionario.");
("The server couldn't find any resource to serve for the given URI.",
 "El servidor no pudo encontrar ningún recurso para servir para la URI proporcionada.");
("The server couldn't meet the 100-continue expectation.",
 "El servidor no pudo cumplir la expectativa de 100-continue.");
("The server didn't understand the request.",
 "El servidor no entendió la solicitud.");
("The server doesn't implement the request method.",
 "El servidor no implementa el método de la solicitud.");
("The server has forbidden this request.",
 "El servidor ha prohibido esta solicitud.");
("The server is temporarily unavailable.",
 "El servidor no está disponible temporalmente.");
("The server is unwilling to process the request because its headers are too large.",
 "El servidor no está dispuesto a procesar la solicitud porque sus encabezados son demasiado grandes.");
("The server is unwilling to risk processing a request that might be replayed.",
 "El servidor no está dispuesto a arriesgarse a procesar una solicitud que podría ser reproducida.");
("The server previously had a resource at the given URI, but it is no longer there.",
 "El servidor tenía previamente un recurso en la URI dada, pero ya no está allí.");
("The server rejected the request because the request content sent was too large.",
 "El servidor rechazó la solicitud porque el contenido de la solicitud enviado era demasiado grande.");
("The server returned 418 (I'm a Teapot), an easter egg defined in RFC 2324.",
 "El servidor devolvió 418 (Soy una tetera), un huevo de pascua definido en RFC 2324.");
("The server sent early hints.",
 "El servidor envió sugerencias tempranas.");
("The server supports upload resumption.",
 "El servidor admite la reanudación de cargas.");
("The server terminated an operation because it encountered an infinite loop.",
 "El servidor terminó una operación porque encontró un bucle infinito.");
("The server won't accept a URI this long %(uri_len)s.",
 "El servidor no aceptará una URI tan larga %(uri_len)s.");
("The server's clock is %(clock_skew_string)s.",
 "El reloj del servidor está %(clock_skew_string)s.");
("The server's clock is correct.",
 "El reloj del servidor es correcto.");
("The speculation rule URL is not secure.",
 "La URL de la regla de especulación no es segura.");
("The speculation rule `%(url)s` uses an insecure URL. Browsers may ignore it.",
 "La regla de especulación `%(url)s` utiliza una URL insegura. Los navegadores pueden ignorarla.");
("The speculation rule must be a string URL. Found: %(value)s (type `%(found_type)s`).",
 "La regla de especulación debe ser una URL de cadena. Encontrado: %(value)s (tipo `%(found_type)s`).");
("The speculation rule value is invalid.",
 "El valor de la especulación de la regla es inválido.");
("The status code is not an integer.",
 "El código de estado no es un entero.");
("The status phrase can only contain ASCII characters.",
 "La frase de estado solo puede contener caracteres ASCII.");
("The status phrase contains non-ASCII characters.",
 "La frase de estado contiene caracteres no ASCII.");
("The token `%(token)s` is not a valid keyword in an allowlist.
Valid tokens are `self` and `src`.",
 "El token `%(token)s` no es una palabra clave válida en una lista de permitidos.
Los tokens válidos son `self` y `src`.");
("The value '%(value)s' looks like a keyword but is a string.",
 "El valor '%(value)s' parece una palabra clave pero es una cadena.");
("The value `%(value)s` is a string, but it looks like a keyword.
If you meant to use the keyword, remove the quotes (e.g., `self` instead of `""self""`).",
 "El valor `%(value)s` es una cadena, pero parece una palabra clave.
Si querías usar la palabra clave, quita las comillas (por ejemplo, `self` en lugar de `""self""`).");
("The value `%(value)s` is not a valid integer.",
 "El valor `%(value)s` no es un entero válido.");
("The value `%(value)s` is not defined for the `%(param)s` parameter.
",
 "El valor `%(value)s` no está definido para el parámetro `%(param)s`.");
("The value for '%(feature)s' should be an Inner List or the token '*'.",
 "El valor para '%(feature)s' debe ser una Lista Interna o el token '*'.");
("The value for the `%(feature)s` feature in `Permissions-Policy` is invalid. It should be either
an Inner List of origins (e.g., `(self ""https://example.com"")`) or the special token `*`.",
 "El valor para la característica `%(feature)s` en `Permissions-Policy` es inválido. Debe ser una Lista Interna de orígenes (por ejemplo, `(self ""https://example.com"")`) o el token especial `*`.");
("The value for this field doesn't conform to its specified syntax; %(problem)s.

See [its definition](%(ref_uri)s) for more information.",
 "El valor de este campo no cumple con su sintaxis especificada; %(problem)s.

Consulte [su definición](%(ref_uri)s) para más información.");
("The value for this field doesn't conform to its specified syntax; it will likely be ignored
by browsers.

See [its definition](%(ref_uri)s) for more information.",
 "El valor para este campo no cumple con su sintaxis especificada; es probable que los navegadores lo ignoren.

Consulte [su definición](%(ref_uri)s) para obtener más información.");
("The value for this field doesn't conform to its specified syntax; see [its
definition](%(ref_uri)s) for more information.",
 "El valor de este campo no se ajusta a su sintaxis especificada; consulte [su definición](%(ref_uri)s) para obtener más información.");
("The value for this field has syntax specified using 
[Augmented BNF](https://www.rfc-editor.org/rfc/rfc5234.html),
but doesn't conform to it. See [the field's ABNF](%(ref_uri)s) for more information.

This error may or may not prevent recipients from parsing the field; fixing it will
improve interoperability.
",
 "El valor de este campo tiene una sintaxis especificada mediante
[Augmented BNF](https://www.rfc-editor.org/rfc/rfc5234.html),
pero no cumple con ella. Consulte [la ABNF del campo](%(ref_uri)s) para obtener más información.

Este error puede o no impedir que los destinatarios analicen el campo; solucionarlo mejorará la interoperabilidad.");
("The values indicated by the `Content-Range` header are not valid. The first position must be less
than or equal to the last position, and the last position must be less than the complete length.",
 "Los valores indicados en el encabezado `Content-Range` no son válidos. La primera posición debe ser menor o igual que la última posición, y la última posición debe ser menor que la longitud completa.");
("The values indicated by the `Range` header are not valid. The first position must be less
than or equal to the last position.",
 "Los valores indicados en el encabezado `Range` no son válidos. La primera posición debe ser menor o igual que la última posición.");
("There are no defined semantics for content in %(method)s requests. While HTTP's framing layer
allows content to appear, that does not mean it is valid for every request method, and
including content in a %(method)s request can cause interoperability and security issues.
",
 "No hay semántica definida para el contenido en %(method)s solicitudes. Aunque la capa de framing de HTTP permite que el contenido aparezca, eso no significa que sea válido para todos los métodos de solicitud, e incluir contenido en una %(method)s solicitud puede causar problemas de interoperabilidad y seguridad.");
("There is no max-age directive.",
 "No hay directiva max-age.");
("There was a general server error.",
 "Hubo un error general del servidor.");
("These headers are representation metadata that should not be sent in a 304 response unless
they are being used to guide cache updates:

%(headers)s

See [RFC 9110 Section 15.4.5](https://www.rfc-editor.org/rfc/rfc9110.html#section-15.4.5) for
more information.",
 "Estas cabeceras son metadatos de representación que no deben enviarse en una respuesta 304 a menos que se utilicen para guiar las actualizaciones de caché:

%(headers)s

Consulte [RFC 9110 Sección 15.4.5](https://www.rfc-editor.org/rfc/rfc9110.html#section-15.4.5) para
más información.");
("This 304 (Not Modified) response contains headers that should not be sent.",
 "Esta respuesta 304 (No modificado) contiene cabeceras que no deberían enviarse.");
("This `Set-Cookie` header has an empty name; there needs to be a name before the `=`.

Browsers will ignore this cookie.",
 "Esta cabecera `Set-Cookie` tiene un nombre vacío; debe haber un nombre antes del `=`.

Los navegadores ignorarán esta cookie.");
("This `Set-Cookie` header has an unknown ""%(attribute_name)s"" attribute value, ""%(attribute_value)s"".

Browsers will probably ignore it as a result.",
 "Esta cabecera `Set-Cookie` tiene un valor de atributo ""%(attribute_name)s"" desconocido, ""%(attribute_value)s"".

Es probable que los navegadores lo ignoren como resultado.");
("This `Set-Cookie` value is %(set_cookie_value_length)s long.
",
 "Este valor `Set-Cookie` es de %(set_cookie_value_length)s longitud.");
("This cookie has an extra parameter, ""%(attribute)s"".

Browsers will ignore it.",
 "Esta cookie tiene un parámetro extra, ""%(attribute)s"".

Los navegadores lo ignorarán.");
("This field is designed to only occur once in a message. When it occurs more than once, a receiver
needs to choose the one to use, which can lead to interoperability problems, since different
implementations may make different choices.",
 "Este campo está diseñado para que aparezca solo una vez en un mensaje. Cuando aparece más de una vez, el receptor debe elegir cuál usar, lo que puede generar problemas de interoperabilidad, ya que diferentes implementaciones pueden tomar decisiones distintas.");
("This field is no longer recommended for use, because of interoperability problems and/or
lack of use. This field should probably be removed.

See [the deprecation notice](%(deprecation_ref)s) for more information.",
 "Este campo ya no se recomienda para su uso, debido a problemas de interoperabilidad y/o falta de adopción. Es probable que este campo deba eliminarse.

Consulte la [notificación de desuso](%(deprecation_ref)s) para obtener más información.");
("This is a CORS preflight request.",
 "Este es un pedido de pre-vuelo CORS.");
("This is a CORS preflight response.",
 "Esta es una respuesta de pre-vuelo CORS.");
("This is a Cross-Origin Resource Sharing (CORS) preflight request.

A preflight request uses the `OPTIONS` method and includes an `Origin` and `Access-Control-Request-Method`
header.",
 "Este es un solicitud de pre-vuelo para el uso compartido de recursos entre orígenes (CORS).

Una solicitud de pre-vuelo utiliza el método `OPTIONS` e incluye un encabezado `Origin` y `Access-Control-Request-Method`.");
("This is a Cross-Origin Resource Sharing (CORS) preflight response.

It is a response to an `OPTIONS` request that includes an `Origin` and `Access-Control-Request-Method`
header.",
 "Esta es una respuesta de pre-vuelo de Cross-Origin Resource Sharing (CORS).

Es una respuesta a una solicitud `OPTIONS` que incluye los encabezados `Origin` y `Access-Control-Request-Method`.");
("This isn't a valid URI. See
[RFC3986](http://www.ietf.org/rfc/rfc3986.txt) for more information.",
 "Esta no es una URI válida. Consulte
[RFC3986](http://www.ietf.org/rfc/rfc3986.txt) para más información.");
("This isn't a valid status code; it needs to be an ASCII integer.",
 "Este no es un código de estado válido; debe ser un entero ASCII.");
("This message had parameters on its transfer-codings.",
 "Este mensaje tenía parámetros en sus transfer-codings.");
("This message was compressed using Brotli, but the data was corrupt.",
 "Este mensaje se comprimiron usando Brotli, pero los datos estaban corruptos.");
("This message was compressed using GZip, but the data was corrupt.",
 "Este mensaje fue comprimido usando GZip, pero los datos estaban corruptos.");
("This message was compressed, but the GZIP header wasn't valid.",
 "Este mensaje fue comprimido, pero la cabecera GZIP no era válida.");
("This request advertises a dictionary for compression, but the client doesn't support it.",
 "Este pedido anuncia un diccionario para la compresión, pero el cliente no lo admite.");
("This resource varies in %(vary_count)s ways.",
 "Este recurso varía de %(vary_count)s maneras.");
("This response advertises support for non-standard range-units.",
 "Esta respuesta anuncia soporte para unidades de rango no estándar.");
("This response allows all caches to store it.",
 "Esta respuesta permite que todas las cachés la almacenen.");
("This response allows caches to assign their own freshness lifetimes to it.",
 "Esta respuesta permite a las cachés asignar sus propias vidas útiles de frescura.");
("This response allows loading cross-origin resources without restriction%(report_only)s.",
 "Esta respuesta permite cargar recursos de origen cruzado sin restricción%(report_only)s.");
("This response allows only private caches to store it.",
 "Esta respuesta solo permite que las cachés privadas la almacenen.");
("This response allows only shared caches to store it.",
 "Esta respuesta solo permite que las cachés compartidas la almacenen.");
("This response allows sharing the browsing context with cross-origin documents%(report_only)s.",
 "Esta respuesta permite compartir el contexto de navegación con documentos de origen cruzado%(report_only)s.");
("This response can be served stale from a cache while it is being revalidated.",
 "Esta respuesta se puede servir obsoleta desde una caché mientras se está revalidando.");
("This response can be stored by all caches, even though the request was authenticated.",
 "Esta respuesta puede ser almacenada por todas las cachés, aunque la solicitud fue autenticada.");
("This response can only be stored by private caches, because the request was authenticated.",
 "Esta respuesta solo puede ser almacenada por cachés privados, porque la solicitud fue autenticada.");
("This response can't be stored by caches.",
 "Esta respuesta no puede ser almacenada por cachés.");
("This response cannot be considered fresh by caches.",
 "Esta respuesta no puede considerarse fresca por las cachés.");
("This response cannot be served by a cache now that it is stale.",
 "Esta respuesta no puede ser servida por una caché ahora que está obsoleta.");
("This response cannot be served by a cache once it becomes stale.",
 "Esta respuesta no puede ser servida por una caché una vez que se vuelve obsoleta.");
("This response cannot be served by a shared cache now that it is stale.",
 "Esta respuesta no puede ser servida por una caché compartida ahora que está obsoleta.");
("This response cannot be served by a shared cache once it becomes stale.",
 "Esta respuesta no puede ser servida por una caché compartida una vez que esté obsoleta.");
("This response cannot be served from cache without validation, and doesn't have a validator.",
 "Esta respuesta no se puede servir desde la caché sin validación y no tiene un validador.");
("This response cannot be served from cache without validation.",
 "Esta respuesta no puede servirse desde la caché sin validación.");
("This response cannot be stored by caches.",
 "Esta respuesta no puede ser almacenada por cachés.");
("This response contains both the `public` and `private` Cache-Control directives.",
 "Esta respuesta contiene tanto las directivas `public` como `private` de Cache-Control.");
("This response doesn't have a Date header.",
 "Esta respuesta no tiene una cabecera Date.");
("This response doesn't have explicit freshness information (like a ` Cache-Control: max-age`
directive, or `Expires` header), and this status code doesn't allow caches to calculate their own.

Additionally, its status code doesn't allow caches to assign their own freshness lifetimes to it.

Therefore, while caches might be allowed to store it, they generally can't use it, unless it can be
served stale.

As a result, many caches will not store the response at all, because it is not generally useful to do
so.",
 "Esta respuesta no tiene información explícita de frescura (como la directiva `Cache-Control: max-age` o la cabecera `Expires`), y este código de estado no permite a las cachés calcular la suya propia.

Además, su código de estado no permite a las cachés asignarles sus propias vidas útiles de frescura.

Por lo tanto, aunque las cachés puedan estar autorizadas a almacenarla, generalmente no podrán usarla, a menos que se pueda servir obsoleta.

Como resultado, muchas cachés no almacenarán la respuesta en absoluto, porque no es generalmente útil hacerlo.");
("This response has a Set-Cookie header without a cookie-name.",
 "Esta respuesta tiene una cabecera Set-Cookie sin nombre de cookie.");
("This response has already been cached for %(age)s.",
 "Esta respuesta ya ha sido cachead por %(age)s.");
("This response has an Expires or Last-Modified header, but no Date.",
 "Esta respuesta tiene una cabecera Expires o Last-Modified, pero no Date.");
("This response has both enforcing and report-only COEP headers.",
 "Esta respuesta tiene encabezados COEP de aplicación forzosa y solo de informe.");
("This response has both enforcing and report-only COOP headers.",
 "Esta respuesta tiene cabeceras COOP de imposición y solo de reporte.");
("This response has different freshness lifetimes for private (e.g., browser) and shared (e.g., proxy)
caches.

Private caches can consider it fresh for %(fresh_lifetime)s (until %(fresh_left)s from
now).

Shared caches can consider it fresh for %(share_lifetime)s (until %(share_left)s from now).",
 "Esta respuesta tiene diferentes tiempos de vida de frescura para cachés privados (por ejemplo, navegador) y compartidos (por ejemplo, proxy).

Las cachés privadas pueden considerarla fresca durante %(fresh_lifetime)s (hasta %(fresh_left)s desde ahora).

Las cachés compartidas pueden considerarla fresca durante %(share_lifetime)s (hasta %(share_left)s desde ahora).");
("This response instructs browsers not to 'sniff' its media type.",
 "Esta respuesta instruye a los navegadores a no 'olfatear' su tipo de medio.");
("This response is %(private_status)s for %(fresh_left)s (%(shared_status)s for %(share_left)s in shared caches).",
 "Esta respuesta es %(private_status)s durante %(fresh_left)s (%(shared_status)s durante %(share_left)s en cachés compartidos).");
("This response is available for reading to requests from all origins.",
 "Esta respuesta está disponible para su lectura por solicitudes de todos los orígenes.");
("This response is available for reading to requests from the same site.",
 "Esta respuesta está disponible para ser leída por solicitudes del mismo sitio.");
("This response is compressed with a dictionary,but is missing Vary: Available-Dictionary.",
 "Esta respuesta está comprimida con un diccionario, pero falta Vary: Available-Dictionary.");
("This response is fresh for %(freshness_left)s.",
 "Esta respuesta está fresca por %(freshness_left)s.");
("This response is only available for reading to requests from the same origin.",
 "Esta respuesta solo está disponible para lectura en solicitudes del mismo origen.");
("This response is partial, but doesn't have a Content-Range header.",
 "Esta respuesta es parcial, pero no tiene una cabecera Content-Range.");
("This response is stale.",
 "Esta respuesta está obsoleta.");
("This response isolates the browsing context but allows popups%(report_only)s.",
 "Esta respuesta aísla el contexto de navegación pero permite ventanas emergentes%(report_only)s.");
("This response isolates the browsing context to the same origin%(report_only)s.",
 "Esta respuesta aísla el contexto de navegación al mismo origen%(report_only)s.");
("This response loads cross-origin resources without credentials%(report_only)s.",
 "Esta respuesta carga recursos cross-origin sin credenciales%(report_only)s.");
("This response may be refreshed in the background by Internet Explorer.",
 "Es posible que Internet Explorer actualice esta respuesta en segundo plano.");
("This response prevents some browsers from rendering it within a frame on another site.",
 "Esta respuesta impide que algunos navegadores la rendericen dentro de un frame en otro sitio.");
("This response prevents some browsers from rendering it within a frame.",
 "Esta respuesta evita que algunos navegadores la rendericen dentro de un frame.");
("This response requires resources to have a CORP header%(report_only)s.",
 "Esta respuesta requiere que los recursos tengan una cabecera CORP%(report_only)s.");
("This response sets a Content Security Policy%(report_only)s.",
 "Esta respuesta establece una Política de Seguridad de Contenido%(report_only)s.");
("This response sets a Permissions Policy.",
 "Esta respuesta establece una Política de Permisos.");
("This response sets duplicate cookies.",
 "Esta respuesta establece cookies duplicadas.");
("This response shouldn't have a Content-Range header.",
 "Esta respuesta no debería tener una cabecera Content-Range.");
("This response targets cache directives to Content Delivery Networks.",
 "Esta respuesta va dirigida a las directivas de caché para redes de entrega de contenido.");
("This response uses the '%(coding)s' content-coding, but it wasn't requested.",
 "Este respuesta usa el código de contenido '%(coding)s', pero no se solicitó.");
("This response uses the '%(coding)s' transfer-coding, but it wasn't requested.",
 "Este respuesta utiliza el '%(coding)s' transfer-coding, pero no se solicitó.");
("This response's %(field_name)s has an invalid value.",
 "El campo %(field_name)s de esta respuesta tiene un valor inválido.");
("This response's Referrer-Policy allows unsafe URLs.",
 "La política de Referente de esta respuesta permite URLs inseguras.");
("This response's Strict Transport Security (HSTS) header is invalid.",
 "La cabecera Strict Transport Security (HSTS) de esta respuesta no es válida.");
("This response's `Content-Encoding` header indicates it has the `%(coding)s content-coding applied
, but the client didn't indicate support for it in the request.

Normally, clients ask for the encodings they want in the `Accept-Encoding` request header. Using
encodings that the client doesn't explicitly request can lead to interoperability problems.",
 "El encabezado 'Content-Encoding' de esta respuesta indica que se ha aplicado un '%(coding)s content-coding', pero el cliente no lo solicitó en la solicitud.

Normalmente, los clientes solicitan los códigos de contenido que desean en el encabezado 'Accept-Encoding' de la solicitud. El uso de códigos que el cliente no solicita explícitamente puede provocar problemas de interoperabilidad.");
("This response's `Transfer-Encoding` header indicates it has the `%(coding)s` transfer-coding applied,
but the client didn't indicate support for it in the request.

Normally, clients ask for the encodings they want in the `TE` request header. Using codings that
the client doesn't explicitly request can lead to interoperability problems.",
 "Esta respuesta indica en el encabezado 'Transfer-Encoding' que se ha aplicado el codificación '%(coding)s',
pero el cliente no la ha solicitado en la solicitud.

Normalmente, los clientes piden las codificaciones que desean en el encabezado de solicitud 'TE'. El uso de codificaciones
que el cliente no ha solicitado explícitamente puede provocar problemas de interoperabilidad.");
("This site has attempted to enable HTTP Strict Transport Security (HSTS), which tells the browser to only
communicate with it over a secure connection.

However, one or more issues prevent it from being valid. See the child notes for details.",
 "Este sitio ha intentado habilitar HTTP Strict Transport Security (HSTS), que le indica al navegador que solo se comunique con él a través de una conexión segura.

Sin embargo, uno o varios problemas impiden que sea válido. Consulte las notas secundarias para obtener más detalles.");
("This site has enabled HTTP Strict Transport Security (HSTS), which tells the browser to only
communicate with it over a secure connection.",
 "Este sitio ha habilitado HTTP Strict Transport Security (HSTS), que indica al navegador que solo se comunique con él a través de una conexión segura.");
("This status code doesn't define any meaning for the Location header.",
 "Este código de estado no define ningún significado para la cabecera Location.");
("This value must be %(expected_type)s.",
 "Este valor debe ser %(expected_type)s.");
("Transparent Content Negotiation is not widely supported.",
 "La Negociación de Contenido Transparente no está ampliamente soportada.");
("Unsafe script evaluation is allowed.",
 "La evaluación de scripts no segura está permitida.");
("Using `unsafe-url` in `Referrer-Policy` means that the full URL (including query parameters) will
be sent as a referrer to all origins, including those that are not secure (HTTP). This can leak
sensitive information.",
 "Usar `unsafe-url` en `Referrer-Policy` significa que la URL completa (incluidos los parámetros de consulta) se enviará como referente a todos los orígenes, incluidos aquellos que no son seguros (HTTP). Esto puede filtrar información sensible.");
("Usually, responses to authenticated requests can't be stored by shared caches. However, because
This response contains a `Cache-Control: %(directive)s` directive, it can be stored by all caches,
including shared caches (like those in proxies).",
 "Por lo general, las respuestas a solicitudes autenticadas no pueden ser almacenadas por cachés compartidos. Sin embargo, debido a que
esta respuesta contiene la directiva `Cache-Control: %(directive)s`, puede ser almacenada por todas las cachés,
incluyendo las cachés compartidas (como las de los proxies).");
("Validation",
 "Validación");
("Values in the `Clear-Site-Data` header must be quoted; unquoted values will be ignored. 

The following values were found unquoted: %(values)s.",
 "Los valores en el encabezado `Clear-Site-Data` deben estar entre comillas; los valores sin comillas se ignorarán. 

Los siguientes valores no tienen comillas: %(values)s.");
("Vary: * effectively makes this response uncacheable.",
 "Vary: * hace que esta respuesta sea efectivamente no cacheadable.");
("Vary: Host is not necessary.",
 "Vary: Host no es necesario.");
("Vary: User-Agent can cause cache inefficiency.",
 "Vary: User-Agent puede causar ineficiencia en la caché.");
("When a response doesn't have explicit freshness information (like a `Cache-Control: max-age`
directive, or `Expires` header), caches are allowed to estimate how fresh it is using a heuristic
(provided that the status code allows it).

Caches often do this using the `Last-Modified` header. For example, if a response was last modified a
week ago, a cache might consider it fresh for a day.

Consider adding a `Cache-Control: max-age` header; otherwise, it may be cached for longer or shorter
than you'd like.",
 "Cuando una respuesta no tiene información de frescura explícita (como una directiva `Cache-Control: max-age` o la cabecera `Expires`), las cachés pueden estimar su frescura utilizando una heurística (siempre que el código de estado lo permita).

Las cachés a menudo hacen esto utilizando la cabecera `Last-Modified`. Por ejemplo, si una respuesta se modificó por última vez hace una semana, una caché podría considerarla fresca durante un día.

Considere agregar una cabecera `Cache-Control: max-age`; de lo contrario, podría ser cachead por más tiempo o menos tiempo del que le gustaría.");
("When a status code is deprecated, it should not be used, because its meaning is not well-defined
enough to ensure interoperability.",
 "Cuando un código de estado está obsoleto, no debe usarse, porque su significado no está bien definido
para garantizar la interoperabilidad.");
("While caches can store many kinds of response as being heuristically cacheable -- that is,
they can store them without explicit caching directives like Cache-Control:max-age, this
reponse's status code is not defined as being heuristically cacheable, and other directives
that would allow it to be stored (such as Cache-Control: public) are not present.

Note that a cache extension might override this behaviour.",
 "Si bien las cachés pueden almacenar muchos tipos de respuestas como siendo heurísticamente almacenables en caché (es decir, pueden almacenarlas sin directivas de caché explícitas como Cache-Control:max-age), el código de estado de esta respuesta no está definido como siendo heurísticamente almacenable en caché, y otras directivas que permitirían su almacenamiento (como Cache-Control: public) no están presentes.

Tenga en cuenta que una extensión de caché podría anular este comportamiento.");
("Without a `preload` directive, browsers may make an unencrypted request when first accessing the
site, potentially exposing sensitive information.

See the [HSTS Preload List](https://hstspreload.org/) for more information.
",
 "Sin una directiva `preload`, los navegadores pueden realizar una solicitud no cifrada al acceder por primera vez al sitio, lo que podría exponer información confidencial.

Consulte la [Lista de Precarga HSTS](https://hstspreload.org/) para obtener más información.");
("X-Content-Type-Options contains an unknown value.",
 "X-Content-Type-Options contiene un valor desconocido.");
("[Content Security Policy](https://www.w3.org/TR/CSP3/) allows the server to declare
the sources of content that browsers are allowed to use on a page.%(report_only_text)s",
 "[Content Security Policy](https://www.w3.org/TR/CSP3/) permite al servidor declarar
las fuentes de contenido que los navegadores pueden utilizar en una página.%(report_only_text)s");
("`%(value)s` is not a valid in the `Cross-Origin-Resource-Policy` header;
it must be one of `same-origin`, `same-site`, or `cross-origin`.
",
 "El `%(value)s` no es válido en el encabezado `Cross-Origin-Resource-Policy`; debe ser `same-origin`, `same-site` o `cross-origin`.");
("`Cache-Control: public` and `Cache-Control: private` conflict; they should not occur on the same message.

Conservative caches will ignore `public` and honor `private`, but this cannot be relied upon.",
 "`Cache-Control: public` y `Cache-Control: private` entran en conflicto; no deberían ocurrir en el mismo mensaje.

Las cachés conservadoras ignorarán `public` y respetarán `private`, pero no se puede confiar en esto.");
("`Content-Length` is used by HTTP to delimit messages; that is, to mark the end of one message and
the beginning of the next.",
 "`Content-Length` es usado por HTTP para delimitar mensajes; es decir, para marcar el final de un mensaje y el principio del siguiente.");
("`Content-Length` is used by HTTP to delimit messages; that is, to mark the end of one message and
the beginning of the next. An incorrect `Content-Length` can cause security and interoperability
issues.

The actual content size was %(content_length)s bytes.",
 "`Content-Length` es usado por HTTP para delimitar mensajes; es decir, para marcar el final de un mensaje y
el principio del siguiente. Un `Content-Length` incorrecto puede causar problemas de seguridad e interoperabilidad.

El tamaño real del contenido fue de %(content_length)s bytes.");
("`Location` was originally specified to contain an absolute, not relative, URI.

It is in the process of being updated, and most clients will work around this.

The correct absolute URI is (probably): `%(full_uri)s`",
 "`Location` originalmente se especificó para contener una URI absoluta, no relativa.

Está en proceso de actualización y la mayoría de los clientes lo solucionarán.

La URI absoluta correcta es (probablemente): `%(full_uri)s`");
("`Vary *` indicates that responses for this resource vary by some aspect that can't (or won't) be
described by the server. This makes this response effectively uncacheable.",
 "`Vary *` indica que las respuestas para este recurso varían según algún aspecto que el servidor no puede (o no quiere) describir. Esto hace que esta respuesta sea efectivamente no almacenable en caché.");
("ahead",
 "adelante");
("behind",
 "detrás");
("cache directive names are case-insensitive, but some implementations don't
recognize directives that aren't all-lowercase.

Therefore, it's safest to use `%(directive_lower)s` instead of `%(directive)s`.",
 "los nombres de las directivas de caché no distinguen entre mayúsculas y minúsculas, pero algunas implementaciones no reconocen las directivas que no están en minúsculas.

Por lo tanto, es más seguro usar `%(directive_lower)s` en lugar de `%(directive)s`.");
("header",
 "Encabezado");
("message",
 "mensaje");
("request",
 "solicitud");
("response",
 "respuesta");
("trailer",
 "traila")].
