(** GENERATED by tools/gencat.py from /repo/httplint/translations/fr/LC_MESSAGES/messages.mo: do not edit.
    Every (message, translation) pair of the catalogue, as UTF-8 text. *)
From Coq Require Import String List.
Import ListNotations.
Local Open Scope string_scope.
Definition catalogue : list (string * string) := [
("",
 "Project-Id-Version: PROJECT VERSION
Report-Msgid-Bugs-To: EMAIL@ADDRESS
POT-Creation-Date: 2026-01-18 17:17+1100
PO-Revision-Date: 2025-11-27 19:01+1100
Last-Translator: FULL NAME <EMAIL@ADDRESS>
Language: fr
Language-Team: fr <LL@li.org>
Plural-Forms: nplurals=2; plural=(n > 1);
MIME-Version: 1.0
Content-Type: text/plain; charset=utf-8
Content-Transfer-Encoding: 8bit
Generated-By: Babel 2.17.0
");
("""%(field_name)s"" is not a valid field name.",
 """%(field_name)s"" n'est pas un nom de champ valide.");
("""%(field_name)s"" isn't valid in a request.",
 """%(field_name)s"" n'est pas valide dans une requête.");
("""%(field_name)s"" isn't valid in a response.",
 """%(field_name)s"" n'est pas valide dans une réponse.");
("%(message)s can not have content.",
 "%(message)s ne peut pas avoir de contenu.");
("%(method)s is not allowed, but the resource lists it in Allow.",
 "%(method)s n'est pas autorisé, mais la ressource le répertorie dans Allow.");
("%(status)s is not a standard HTTP status code.",
 "%(status)s n'est pas un code d'état HTTP standard.");
("%(value)s is not a valid origin.",
 "%(value)s n'est pas une origine valide.");
("'%(token)s' is not valid in an allowlist.",
 "'%(token)s' n'est pas valide dans une liste d'autorisation.");
("304 (Not Modified) responses need to have a Date header.",
 "Les réponses 304 (Not Modified) doivent avoir un en-tête Date.");
("A 100 (Continue) response was sent when it wasn't asked for.",
 "Une réponse 100 (Continue) a été envoyée alors qu'elle n'était pas demandée.");
("A HTTP response is stale when its age (here, %(current_age)s) is equal to or exceeds
its freshness lifetime (in this case, %(freshness_lifetime)s).

There are a few reasons why a cache might serve a stale response:

* HTTP allows stale responses to be used to satisfy requests in exceptional circumstances;
e.g., when they lose contact with the origin server. This is subject to a number of requirements.
* Response directives like `stale-if-error` and `stale-while-revalidate` explicitly allow stale
  responses to be used in particular circumstances.
* Some caches are configured to ignore the response's freshness directives.",
 "Une réponse HTTP est périmée lorsque son âge (ici, %(current_age)s) est égal ou supérieur à sa durée de fraîcheur (dans ce cas, %(freshness_lifetime)s).

Plusieurs raisons peuvent expliquer pourquoi un cache sert une réponse périmée :

* HTTP autorise l'utilisation de réponses périmées pour satisfaire des requêtes dans des circonstances exceptionnelles ; par exemple, lorsqu'elles perdent le contact avec le serveur d'origine. Ceci est soumis à un certain nombre d'exigences.
* Les directives de réponse comme `stale-if-error` et `stale-while-revalidate` autorisent explicitement l'utilisation de réponses périmées dans des circonstances particulières.
* Certains caches sont configurés pour ignorer les directives de fraîcheur de la réponse.");
("A `max-age` of 0 tells the browser to expire the `Strict-Transport-Security` policy immediately,
effectively disabling it.",
 "Un `max-age` de 0 indique au navigateur d'expirer immédiatement la politique `Strict-Transport-Security`,
la désactivant de fait.");
("A cache can store this response; it may or may not be able to use it to satisfy a particular
request.",
 "Un cache peut stocker cette réponse ; il peut ou peut ne pas être en mesure de l'utiliser pour satisfaire une requête particulière.");
("A new resource was created in response to a safe request.",
 "Une nouvelle ressource a été créée en réponse à une requête sûre.");
("A new resource was created without its location being sent.",
 "Une nouvelle ressource a été créée sans que son emplacement ne soit envoyé.");
("A partial response was sent when it wasn't requested.",
 "Une réponse partielle a été envoyée alors qu'elle n'était pas demandée.");
("A response can be considered fresh when its age (here, %(current_age)s) is less than its freshness
lifetime (in this case, %(freshness_lifetime)s).",
 "Une réponse peut être considérée comme fraîche lorsque son âge (ici, %(current_age)s) est inférieur à sa durée de vie utile (dans ce cas, %(freshness_lifetime)s).");
("A response should not have both `Cross-Origin-Embedder-Policy` and
`Cross-Origin-Embedder-Policy-Report-Only` headers. The report-only header will be ignored.",
 "Une réponse ne doit pas avoir à la fois les en-têtes `Cross-Origin-Embedder-Policy` et `Cross-Origin-Embedder-Policy-Report-Only`. L'en-tête report-only sera ignoré.");
("A response should not have both `Cross-Origin-Opener-Policy` and
`Cross-Origin-Opener-Policy-Report-Only` headers. The report-only header will be ignored.",
 "Une réponse ne doit pas avoir à la fois les en-têtes `Cross-Origin-Opener-Policy` et `Cross-Origin-Opener-Policy-Report-Only`. L'en-tête en mode rapport sera ignoré.");
("A shared cache can store this response; it may or may not be able to use it to satisfy a
particular request.

Private caches cannot store it, because there is no explicit freshness information
(such as Cache-Control: max-age), and the status code is not heuristically cacheable.

Note that a cache extension might override this behaviour.",
 "Un cache partagé peut stocker cette réponse ; il peut ou non être en mesure de l'utiliser pour satisfaire une requête particulière.

Les caches privés ne peuvent pas la stocker, car il n'y a pas d'informations explicites sur la fraîcheur (telles que Cache-Control: max-age), et le code de statut n'est pas mis en cache de manière heuristique.

Notez qu'une extension de cache pourrait annuler ce comportement.");
("Accept-CH is ignored over plain HTTP.",
 "Accept-CH est ignoré sur HTTP en clair.");
("Accept-CH lists fields that are missing from Vary.",
 "Accept-CH : liste les champs manquants dans Vary.");
("Access-Control-Allow-Credentials must be 'true'.",
 "Access-Control-Allow-Credentials doit être 'true'.");
("Access-Control-Allow-Origin should not have multiple values.",
 "Access-Control-Allow-Origin ne doit pas avoir plusieurs valeurs.");
("Access-Control-Max-Age must be an integer.",
 "Access-Control-Max-Age doit être un entier.");
("Access-Control-Max-Age must be non-negative.",
 "Access-Control-Max-Age doit être non négatif.");
("All sources are allowed in one or more directives.",
 "Toutes les sources sont autorisées dans une ou plusieurs directives.");
("Allowing `http:` sources in `%(field_name)s` can allow attackers to intercept and modify
content loaded by the page, potentially bypassing security controls.

It was found in the following directives:

%(directives_list)s",
 "L'autorisation de sources `http:` dans `%(field_name)s` peut permettre aux attaquants d'intercepter et de modifier
le contenu chargé par la page, contournant ainsi potentiellement les contrôles de sécurité.

Il a été trouvé dans les directives suivantes :

%(directives_list)s");
("Although HTTP allows a server not to send a `Date` header in responses if it doesn't have a local
clock, this can make calculation of a stored response's age inexact.",
 "Bien que HTTP permette à un serveur de ne pas envoyer un en-tête `Date` dans les réponses s'il ne dispose pas d'une horloge locale, cela peut rendre le calcul de l'âge d'une réponse stockée inexact.");
("An intermediary encountered an error.",
 "Un intermédiaire a rencontré une erreur.");
("An intermediary timed out.",
 "Un intermédiaire a expiré.");
("Because both the `Expires` and `Last-Modified` headers are date-based, it's necessary to send when
the message was generated in `Date` for them to be useful; otherwise, clock drift, transit times
between nodes as well as caching could skew their application.",
 "Étant donné que les en-têtes `Expires` et `Last-Modified` sont basés sur des dates, il est nécessaire d'indiquer la date de génération du message dans l'en-tête `Date` pour qu'ils soient utiles ; sinon, la dérive d'horloge, les temps de transit entre les nœuds ainsi que la mise en cache pourraient fausser leur application.");
("Because the request was authenticated and this response doesn't contain a `Cache-Control: public`
directive, this response can only be stored by caches that are specific to a single user; for
example, a browser cache. Shared caches, such as those in proxies, cannot store it.",
 "Parce que la requête a été authentifiée et que cette réponse ne contient pas de directive `Cache-Control: public`, cette réponse ne peut être stockée que par des caches spécifiques à un seul utilisateur ; par exemple, un cache de navigateur. Les caches partagés, comme ceux des proxys, ne peuvent pas la stocker.");
("Brotli-compressed responses use brotli compression to reduce the number of bytes transferred on the
wire. However, this response could not be decompressed; the error encountered was
""`%(brotli_error)s`"".

%(ok_brotli_len)s bytes were decompressed successfully before this; the erroneous chunk starts with (in hex):

    %(chunk_sample)s
",
 "Les réponses compressées Brotli utilisent la compression Brotli pour réduire le nombre de octets transférés sur le
circuit. Cependant, cette réponse n'a pas pu être décompressée ; l'erreur rencontrée était
""`%(brotli_error)s`"".

%(ok_brotli_len)s octets ont pu être décompressés avec succès avant cela ; la partie défectueuse commence par (en hex) :

    %(chunk_sample)s");
("Browser Security",
 "Sécurité du navigateur");
("Browser preloading is allowed, but this policy isn't suitable for it.",
 "Le préchargement du navigateur est autorisé, mais cette politique ne lui convient pas.");
("Browser preloading is allowed.",
 "Le préchargement du navigateur est autorisé.");
("Browser preloading isn't allowed.",
 "Le préchargement du navigateur n'est pas autorisé.");
("CORS headers are only allowed in preflight responses.",
 "Les en-têtes CORS ne sont autorisés que dans les réponses de pré-vol.");
("Cache groups need to be strings.",
 "Les groupes de cache doivent être des chaînes.");
("Cache-Control: max-age and Expires are both present.",
 "Cache-Control: max-age et Expires sont tous deux présents.");
("Cache-Control: public is probably not necessary.",
 "Cache-Control: public n'est probablement pas nécessaire.");
("Caching",
 "Mise en cache");
("Clear-Site-Data contains unquoted values.",
 "Clear-Site-Data contient des valeurs non-entre-guillemets.");
("Clients SHOULD send a `User-Agent` header field.

See [RFC 9110 Section 10.1.5](https://www.rfc-editor.org/rfc/rfc9110.html#section-10.1.5)
for details.",
 "Les clients DOIVENT envoyer un champ d'en-tête `User-Agent`.

Voir [RFC 9110 Section 10.1.5](https://www.rfc-editor.org/rfc/rfc9110.html#section-10.1.5) pour plus de détails.");
("Compared to the local clock, the server's clock does not appear to be well-synchronised.

HTTP's caching model assumes reasonable synchronisation between clocks on the server and client;
clock skew can cause responses that should be cacheable to be considered uncacheable (especially if
their freshness lifetime is short).

Ask your server administrator to synchronise the clock, e.g., using
[NTP](http://en.wikipedia.org/wiki/Network_Time_Protocol Network Time Protocol).

Apparent clock skew can also be caused by caching the response without adjusting the `Age` header;
e.g., in a reverse proxy or Content Delivery network. See [this
paper](https://www.usenix.org/legacy/events/usits01/full_papers/cohen/cohen_html/index.html) for more information. ",
 "Comparé à l'horloge locale, l'horloge du serveur ne semble pas être bien synchronisée.

Le modèle de mise en cache HTTP suppose une synchronisation raisonnable entre les horloges du serveur et du client ; le décalage horaire peut amener des réponses qui devraient être cachables à être considérées comme non cachables (surtout si leur durée de vie de fraîcheur est courte).

Demandez à votre administrateur système de synchroniser l'horloge, par exemple, en utilisant [NTP](http://en.wikipedia.org/wiki/Network_Time_Protocol Network Time Protocol).

Un décalage horaire apparent peut également être causé par la mise en cache de la réponse sans ajuster l'en-tête `Age` ; par exemple, dans un proxy inverse ou un réseau de diffusion de contenu (CDN). Voir [ce papier](https://www.usenix.org/legacy/events/usits01/full_papers/cohen/cohen_html/index.html) pour plus d'informations.");
("Connection",
 "Connexion");
("Content Negotiation",
 "Négociation de contenu");
("Content-Length and Transfer-Encoding should not be present together.",
 "Content-Length et Transfer-Encoding ne doivent pas être présents ensemble.");
("Content-Length should be an integer.",
 "La longueur du contenu doit être un entier.");
("Cookies",
 "Cookies");
("Cross-Origin Resource Sharing",
 "Partage des ressources entre origines");
("Cross-Origin-Resource-Policy has an invalid value.",
 "Cross-Origin-Resource-Policy a une valeur non valide.");
("Detailed information about caching is available.",
 "Des informations détaillées sur la mise en cache sont disponibles.");
("Directives must only appear once in the `%(field_name)s` header; subsequent occurrences are ignored.

The following directives were duplicated:

%(directives_list)s",
 "Les directives ne doivent apparaître qu'une seule fois dans l'en-tête `%(field_name)s` ; les occurrences ultérieures sont ignorées.

Les directives suivantes étaient dupliquées :

%(directives_list)s");
("Duplicate directives are present.",
 "Des directives en double sont présentes.");
("Each `%(field_name)s` field line must be valid JSON.

The JSON parsing error was:
    %(error)s",
 "Chaque ligne de champ « %(field_name)s » doit être une chaîne JSON valide.

L'erreur de parsing JSON était :
    %(error)s");
("Field names are limited to the `token` production in HTTP; i.e., they can't contain parenthesis,
angle brackets (<>), ampersands (@), commas, semicolons, colons, backslashes (\), forward
slashes (/), quotes, square brackets ([]), question marks, equals signs (=), curly brackets ({})
spaces or tabs.",
 "Les noms de champs sont limités à la production `token` HTTP ; c'est-à-dire qu'ils ne peuvent pas contenir de parenthèses, d'accolades (<>), d'esperluettes (@), de virgules, de points-virgules, de deux-points, de barres obliques inverses (\), de barres obliques (/), de guillemets, de crochets ([]), de points d'interrogation, de signes égaux (=), d'accolades ({}) d'espaces ou de tabulations.");
("GZip-compressed responses have a header that contains metadata. Here, that header wasn't valid;
the error encountered was ""`%(gzip_error)s`"".",
 "Les réponses compressées GZip ont un en-tête qui contient des métadonnées. Ici, cet en-tête n'était pas valide ; l'erreur rencontrée était « `%(gzip_error)s` ».");
("GZip-compressed responses use zlib compression to reduce the number of bytes transferred on the
wire. However, this response could not be decompressed; the error encountered was
""`%(zlib_error)s`"".

%(ok_zlib_len)s bytes were decompressed successfully before this; the erroneous chunk starts with (in hex):

    %(chunk_sample)s
",
 "Les réponses compressées GZip utilisent la compression zlib pour réduire le nombre d'octets transférés sur le réseau. Cependant, cette réponse n'a pas pu être décompressée ; l'erreur rencontrée était ""`%(zlib_error)s`"".

%(ok_zlib_len)s octets ont été décompressés avec succès avant cela ; le fragment erroné commence par (en hexadécimal) :

    %(chunk_sample)s");
("General",
 "Général");
("HSTS applies to subdomains.",
 "HSTS s'applique aux sous-domaines.");
("HSTS doesn't apply to subdomains.",
 "HSTS ne s'applique pas aux sous-domaines.");
("HTTP allows clients to ask a server if a request containing content (e.g., uploading a large file)
will succeed before sending it, using a mechanism called ""Expect/continue"".

When used, the client sends an `Expect: 100-continue`, in the request headers, and if the server is
willing to process it, it will send a `100 (Continue)` status code to indicate that the request
should continue.

This response has a `100 (Continue)` status code, but the request did not ask for it using the
`Expect` request header. Sending this status code without it being requested can cause
interoperability problems.",
 "HTTP permet aux clients de demander à un serveur si une requête contenant du contenu (par exemple, l'envoi d'un fichier volumineux) peut aboutir avant de l'envoyer, grâce à un mécanisme appelé ""Expect/continue"".

Lorsqu'il est utilisé, le client envoie un `Expect: 100-continue`, dans les en-têtes de la requête, et si le serveur est disposé à la traiter, il renverra un code d'état `100 (Continue)` pour indiquer que la requête doit se poursuivre.

Cette réponse a un code d'état `100 (Continue)`, mais la requête ne l'a pas demandé en utilisant l'en-tête de requête `Expect`. L'envoi de ce code d'état sans qu'il soit demandé peut entraîner des problèmes d'interopérabilité.");
("HTTP allows stale responses to be served in some circumstances; for example, if the origin
server can't be contacted, a stale response can be used even if it doesn't have explicit freshness
information available.

This behaviour can be prevented by using the `Cache-Control: must-revalidate` response directive.",
 "HTTP autorise la diffusion de réponses obsolètes dans certaines circonstances ; par exemple, si le serveur d'origine ne peut pas être contacté, une réponse obsolète peut être utilisée même si elle ne dispose pas d'informations explicites sur sa fraîcheur.

Ce comportement peut être évité en utilisant la directive de réponse `Cache-Control: must-revalidate`.");
("HTTP allows transfer-codings in the `Transfer-Encoding` header to have optional parameters, but it
doesn't define what they mean.

This message has encodings with such parameters; although they're technically allowed, they may
cause interoperability problems. They should be removed.",
 "HTTP permet aux codages de transfert dans l'en-tête `Transfer-Encoding` d'avoir des paramètres optionnels, mais il ne définit pas leur signification. Ce message contient des codages avec de tels paramètres ; bien qu'ils soient techniquement autorisés, ils peuvent causer des problèmes d'interopérabilité. Ils devraient être supprimés.");
("HTTP dates have specific syntax, and sending an invalid date can cause a number of problems,
especially with caching. Common problems include sending ""1 May"" instead of ""01 May"" (the month
is a fixed-width field), and sending a date in a timezone other than GMT.

See [the HTTP specification](https://www.rfc-editor.org/rfc/rfc9110.html#name-date-time-formats) for more
information.",
 "Les dates HTTP ont une syntaxe spécifique, et l'envoi d'une date invalide peut causer un certain nombre de problèmes,
notamment avec la mise en cache. Les problèmes courants incluent l'envoi de ""1 May"" au lieu de ""01 May"" (le mois
est un champ de largeur fixe) et l'envoi d'une date dans un fuseau horaire autre que GMT.

Consultez [la spécification HTTP](https://www.rfc-editor.org/rfc/rfc9110.html#name-date-time-formats) pour plus
d'informations.");
("HTTP defines _transfer-codings_ as a hop-by-hop encoding of the message's content. The `identity`
transfer-coding was defined as the absence of encoding; it doesn't do anything, so it is unnecessary.

You can remove this token to save a few bytes.",
 "HTTP définit les _transfer-codings_ comme un encodage hop-à-hop du contenu du message. Le transfert-codage `identity` a été défini comme l'absence d'encodage ; il ne fait rien, il est donc inutile.

Vous pouvez supprimer ce jeton pour économiser quelques octets.");
("HTTP defines an algorithm that uses the `Age` header, `Date` header, and local time observations to
determine the age of a response. As a result, caches might use a value other than that in the `Age`
header to determine how old the response is -- and therefore how much longer it can be used.",
 "HTTP définit un algorithme qui utilise l'en-tête `Age`, l'en-tête `Date` et des observations de l'heure locale pour
déterminer l'âge d'une réponse. Par conséquent, les caches peuvent utiliser une valeur différente de celle de l'en-tête `Age`
pour déterminer l'âge de la réponse -- et donc combien de temps encore elle peut être utilisée.");
("HTTP defines the `Upgrade` header as a means of negotiating a change of protocol; i.e., it
allows you to switch the protocol on a given connection from HTTP to something else.

This response was upgraded, but the request did not contain an `Upgrade` header field.
",
 "HTTP définit l'en-tête `Upgrade` comme un moyen de négocier un changement de protocole ; c'est-à-dire qu'il
vous permet de passer le protocole sur une connexion donnée de HTTP à autre chose.

Cette réponse a été mise à niveau, mais la requête ne contenait pas de champ d'en-tête `Upgrade`.");
("HTTP field names can only contain ASCII characters.",
 "Les noms de champs HTTP ne peuvent contenir que des caractères ASCII.");
("HTTP fields notionally use the ISO-8859-1 character set, but in most cases are pure ASCII
(a subset of this encoding).

This field has non-ASCII characters, which have been interpreted as being encoded in
ISO-8859-1. If another encoding is used (e.g., UTF-8), the results may be unpredictable.",
 "HTTP les champs utilisent théoriquement l'ensemble de caractères ISO-8859-1, mais dans la plupart des cas, ils sont simplement ASCII
(une sous-ensemble de cette codage).

Ce champ contient des caractères non-ASCII, qui ont été interprétés comme étant encodés en
ISO-8859-1. Si un autre encodage est utilisé (par exemple, UTF-8), les résultats peuvent être imprévisibles.");
("HTTP has a number of defined date formats for historical reasons. This header is using an old
format that are now obsolete. See [the
specification](https://www.rfc-editor.org/rfc/rfc9110.html#name-obsolete-date-formats) for more information.
",
 "HTTP possède un certain nombre de formats de date définis pour des raisons historiques. Cet en-tête utilise un ancien format qui est maintenant obsolète. Voir [la spécification](https://www.rfc-editor.org/rfc/rfc9110.html#name-obsolete-date-formats) pour plus d'informations.");
("HTTP only defines `Pragma: no-cache`; other uses of this header are deprecated.",
 "HTTP ne définit que `Pragma: no-cache` ; d'autres utilisations de cet en-tête sont dépréciées.");
("HTTP only defines meaning for the `Content-Range` header in responses with a `206` (Partial
Content) or `416` (Requested Range Not Satisfiable) status code.

Because the status code is neither of those, this `Content-Range` header may confuse caches and
clients.",
 "HTTP ne définit la signification de l'en-tête `Content-Range` que pour les réponses avec un code d'état `206` (Contenu partiel) ou `416` (Plage demandée non satisfaite).

Étant donné que le code d'état n'est ni l'un ni l'autre, cet en-tête `Content-Range` peut prêter à confusion pour les caches et les clients.");
("HTTP only defines one expectation, `100-continue`. This expectation is not recognized.",
 "HTTP ne définit qu'une seule attente, `100-continue`. Cette attente n'est pas reconnue.");
("HTTP prohibits a user agent from sending a Referer header field if the referring resource was
accessed with a secure protocol and the request target has an origin differing from that of the
referring resource, unless the referring resource explicitly allows Referer to be sent.

See [RFC 9110 Section 10.1.3](https://www.rfc-editor.org/rfc/rfc9110.html#section-10.1.3)
for details.",
 "Le protocole HTTP interdit à un agent utilisateur d'envoyer un champ d'en-tête Referer si la ressource référente a été accédée via un protocole sécurisé et que la cible de la requête a une origine différente de celle de la ressource référente, à moins que la ressource référente n'autorise explicitement l'envoi du Referer.

Voir [RFC 9110 Section 10.1.3](https://www.rfc-editor.org/rfc/rfc9110.html#section-10.1.3) pour plus de détails.");
("HTTP prohibits a user agent from sending a Referer header field in an unsecured HTTP request
if the referring resource was accessed with a secure protocol.

See [RFC 9110 Section 10.1.3](https://www.rfc-editor.org/rfc/rfc9110.html#section-10.1.3)
for details.",
 "HTTP interdit à un agent utilisateur d'envoyer un champ d'en-tête Referer dans une requête HTTP non sécurisée si la ressource référente a été accédée avec un protocole sécurisé.

Voir [RFC 9110 Section 10.1.3](https://www.rfc-editor.org/rfc/rfc9110.html#section-10.1.3) pour les détails.");
("HTTP requires `304 (Not Modified)` responses to have a `Date` header in all but the most unusual
circumstances.",
 "HTTP exige que les réponses `304 (Not Modified)` incluent un en-tête `Date` dans presque toutes les circonstances.");
("HTTP's caching model assumes reasonable synchronisation between clocks on the server and client;
compared to the local clock, the server's clock appears to be well-synchronised.",
 "Le modèle de mise en cache de HTTP suppose une synchronisation raisonnable entre les horloges du serveur et du client ; par rapport à l'horloge locale, l'horloge du serveur semble bien synchronisée.");
("If an error occurs, caches can serve this response stale.",
 "Si une erreur se produit, les caches peuvent servir cette réponse périmée.");
("In %(field_name)s, the %(context)s key '%(key)s' is duplicated.",
 "Dans %(field_name)s, la clé %(context)s '%(key)s' est dupliquée.");
("In exceptional circumstances, caches can serve this response stale.",
 "Dans des circonstances exceptionnelles, les caches peuvent servir cette réponse périmée.");
("Information about intermediaries is available.",
 "Des informations sur les intermédiaires sont disponibles.");
("Inline scripts are allowed.",
 "Les scripts en ligne sont autorisés.");
("It appears that the Date header has been changed by an intermediary.",
 "Il semble que l'en-tête Date ait été modifié par un intermédiaire.");
("It appears that this response has been cached by a reverse proxy or Content Delivery Network,
because the `Age` header is present, but the `Date` header is more recent than it indicates.

Generally, reverse proxies should either omit the `Age` header (if they have another means of
determining how fresh the response is), or leave the `Date` header alone (i.e., act as a normal
HTTP cache).

See [this paper](https://www.usenix.org/legacy/events/usits01/full_papers/cohen/cohen_html/index.html)
for more information.",
 "Il semble que cette réponse ait été mise en cache par un proxy inverse ou un réseau de diffusion de contenu,
car l'en-tête `Age` est présent, mais l'en-tête `Date` est plus récent que ce qu'il indique.

En général, les proxies inverses devraient soit omettre l'en-tête `Age` (s'ils disposent d'un autre moyen de
déterminer la fraîcheur de la réponse), soit laisser l'en-tête `Date` inchangé (c'est-à-dire se comporter comme un cache HTTP normal).

Voir [cet article](https://www.usenix.org/legacy/events/usits01/full_papers/cohen/cohen_html/index.html)
pour plus d'informations.");
("Loading from insecure HTTP sources is allowed.",
 "Le chargement à partir de sources HTTP non sécurisées est autorisé.");
("Long URIs aren't supported by some implementations, including proxies. A reasonable upper size
limit is 8192 characters.",
 "Certaines implémentations, y compris les proxys, ne prennent pas en charge les URI longs. Une limite supérieure raisonnable est de 8192 caractères.");
("Many Web browsers ""sniff"" the media type of responses to figure out whether they're HTML, RSS or
another format, no matter what the `Content-Type` header says.

This header instructs browsers not to do this, but to always respect the
Content-Type header. It probably won't have any effect in other clients.

See [MDN](https://developer.mozilla.org/en-US/docs/Web/HTTP/Headers/X-Content-Type-Options)
for more information about this header.",
 "De nombreux navigateurs Web ""analysent"" le type de média des réponses pour déterminer s'il s'agit de HTML, de RSS ou d'un autre format, quelle que soit la valeur de l'en-tête `Content-Type`.

Cet en-tête demande aux navigateurs de ne pas le faire, mais de toujours respecter l'en-tête `Content-Type`. Il n'aura probablement aucun effet sur d'autres clients.

Consultez [MDN](https://developer.mozilla.org/en-US/docs/Web/HTTP/Headers/X-Content-Type-Options) pour plus d'informations sur cet en-tête.");
("Microsoft Internet Explorer implements two `Cache-Control` extensions, `pre-check` and
`post-check`, to give more control over how its cache stores responses.

Once it has been cached for more than %(post_check)s seconds, a new request will result in the
cached response being served while it is refreshed in the background. However, if it has been
cached for more than %(pre_check)s seconds, the browser will download a fresh response before
showing it to the user.

Note that these directives do not have any effect on other clients or caches.",
 "Microsoft Internet Explorer implémente deux extensions `Cache-Control`, `pre-check` et `post-check`, pour un meilleur contrôle de la mise en cache des réponses.

Une fois mis en cache pendant plus de %(post_check)s secondes, une nouvelle requête entraînera la diffusion de la réponse mise en cache pendant qu'elle est actualisée en arrière-plan. Cependant, si elle a été mise en cache pendant plus de %(pre_check)s secondes, le navigateur téléchargera une nouvelle réponse avant de l'afficher à l'utilisateur.

Notez que ces directives n'ont aucun effet sur les autres clients ou caches.");
("Microsoft Internet Explorer implements two `Cache-Control` extensions, `pre-check` and
`post-check`, to give more control over how its cache stores responses.

This response assigns a higher value to `post-check` than to `pre-check`; this means that Internet
Explorer will treat `post-check` as if its value is the same as `pre-check`'s.",
 "Microsoft Internet Explorer implémente deux extensions `Cache-Control`, `pre-check` et
`post-check`, pour permettre un meilleur contrôle de la manière dont son cache stocke les réponses.

Cette réponse attribue une valeur plus élevée à `post-check` qu'à `pre-check` ; cela signifie qu'Internet Explorer traitera `post-check` comme si sa valeur était identique à celle de `pre-check`.");
("Microsoft Internet Explorer implements two `Cache-Control` extensions, `pre-check` and
`post-check`, to give more control over how its cache stores responses.

This response assigns a value of ""0"" to `post-check`, which means that Internet Explorer will reload
the content as soon as it enters the browser cache, effectively **doubling the load on the
server**.",
 "Microsoft Internet Explorer implémente deux extensions `Cache-Control`, `pre-check` et `post-check`, pour un meilleur contrôle de la façon dont son cache stocke les réponses.

Cette réponse attribue la valeur ""0"" à `post-check`, ce qui signifie qu'Internet Explorer rechargera le contenu dès qu'il entrera dans le cache du navigateur, **doublant ainsi la charge sur le serveur**.");
("Microsoft Internet Explorer implements two `Cache-Control` extensions, `pre-check` and
`post-check`, to give more control over how its cache stores responses.

This response gives a value of ""0"" for both; as a result, Internet Explorer will ignore the
directive, since it requires both to be present.

In other words, setting these to zero has **no effect** (besides wasting bandwidth),
and may trigger bugs in some beta versions of IE.",
 "Microsoft Internet Explorer implémente deux extensions `Cache-Control`, `pre-check` et `post-check`, pour un meilleur contrôle de la façon dont son cache stocke les réponses.

Cette réponse donne la valeur ""0"" pour les deux ; en conséquence, Internet Explorer ignorera la directive, car elle nécessite que les deux soient présentes.

En d'autres termes, régler ces valeurs à zéro n'a **aucun effet** (à part gaspiller de la bande passante) et peut déclencher des bugs dans certaines versions bêta d'IE.");
("Microsoft Internet Explorer implements two `Cache-Control` extensions, `pre-check` and
`post-check`, to give more control over how its cache stores responses.

This response uses only one of these directives; as a result, Internet Explorer will ignore the
directive, since it requires both to be present.
",
 "Microsoft Internet Explorer implémente deux extensions `Cache-Control`, `pre-check` et `post-check`, pour donner plus de contrôle sur la manière dont son cache stocke les réponses.

Cette réponse utilise seulement une de ces directives ; en conséquence, Internet Explorer ignorera la directive, car il requiert que les deux soient présentes.");
("Most sites should set a `max-age` of at least one year on `Strict-Transport-Security`.",
 "La plupart des sites devraient définir un `max-age` d'au moins un an sur `Strict-Transport-Security`.");
("Multiple Referrer-Policy values found; only '%(effective)s' is used.",
 "Plusieurs valeurs Referrer-Policy trouvées ; seule '%(effective)s' est utilisée.");
("No valid Referrer-Policy found.",
 "Aucune Referrer-Policy valide trouvée.");
("Non-standard status codes are not well-defined and interoperable. Instead of defining your own
status code, you should reuse one of the more generic ones; for example, `400` for a client-side
problem, or `500` for a server-side problem.",
 "Les codes d'état non standard ne sont ni bien définis ni interopérables. Au lieu de définir votre propre code d'état, vous devriez réutiliser l'un des codes plus génériques ; par exemple, `400` pour un problème côté client, ou `500` pour un problème côté serveur.");
("One or more intermediaries are present.",
 "Un ou plusieurs intermédiaires sont présents.");
("Only one %(field_name)s field is allowed in a message.",
 "Seule une %(field_name)s est autorisée dans un message.");
("Only one of the pre-check and post-check cache directives is present.",
 "Une seule des directives de cache pre-check et post-check est présente.");
("Only one value is currently defined for this header, `nosniff`. Using other values here won't
necessarily cause problems, but they probably won't have any effect either.

See [MDN](https://developer.mozilla.org/en-US/docs/Web/HTTP/Headers/X-Content-Type-Options)
for more information about this header.",
 "Une seule valeur est actuellement définie pour cet en-tête, `nosniff`. L'utilisation d'autres valeurs ici n'entraînera pas nécessairement de problèmes, mais elle n'aura probablement aucun effet non plus.

Consultez [MDN](https://developer.mozilla.org/en-US/docs/Web/HTTP/Headers/X-Content-Type-Options) pour plus d'informations sur cet en-tête.");
("Only two values are currently defined for this header, `DENY` and `SAMEORIGIN`. Using other values
here won't necessarily cause problems, but they probably won't have any effect either.

See [MDN](https://developer.mozilla.org/en-US/docs/Web/HTTP/Headers/X-Frame-Options) for more information.
",
 "Seules deux valeurs sont actuellement définies pour cet en-tête : `DENY` et `SAMEORIGIN`. L'utilisation d'autres valeurs ici n'entraînera pas nécessairement de problèmes, mais elles n'auront probablement aucun effet non plus.

Voir [MDN](https://developer.mozilla.org/en-US/docs/Web/HTTP/Headers/X-Frame-Options) pour plus d'informations.");
("Parameter values that end in '*' are reserved for non-ascii text, as explained in
[RFC5987](https://www.rfc-editor.org/rfc/rfc5987).

The `%(param)s` parameter on the `%(field_name)s` field does not allow this; you should use
%(param)s without the ""*"" on the end (and without the associated encoding).",
 "Les valeurs de paramètres se terminant par '*' sont réservées aux textes non ASCII, comme expliqué dans
[RFC5987](https://www.rfc-editor.org/rfc/rfc5987).

Le paramètre `%(param)s` sur le champ `%(field_name)s` ne le permet pas ; vous devriez utiliser
%(param)s sans le ""*"" à la fin (et sans l'encodage associé).");
("Parameter values that end in '*' have a specific format, defined in
[RFC5987](https://www.rfc-editor.org/rfc/rfc5987), to allow non-ASCII text.

The `%(param)s` parameter on the `%(field_name)s` field has double-quotes around it, which is not
valid.",
 "Les valeurs de paramètre qui se terminent par '*' ont un format spécifique, défini dans
[RFC5987](https://www.rfc-editor.org/rfc/rfc5987), pour permettre du texte non ASCII.

Le paramètre `%(param)s` sur le champ `%(field_name)s` est entouré de guillemets doubles, ce qui n'est pas
valide.");
("Parameter values that end in '*' have a specific format, defined in
[RFC5987](https://www.rfc-editor.org/rfc/rfc5987), to allow non-ASCII text.

The `%(param)s` parameter on the `%(field_name)s` field is not valid; it needs to have three
parts, separated by single quotes (').",
 "Les valeurs de paramètres qui se terminent par '*' ont un format spécifique, défini dans
[RFC5987](https://www.rfc-editor.org/rfc/rfc5987), pour permettre le texte non-ASCII.

Le paramètre `%(param)s` sur le champ `%(field_name)s` n'est pas valide ; il doit avoir trois
parties, séparées par des apostrophes (').");
("Parameter values that end in '*' have a specific format, defined in
[RFC5987](https://www.rfc-editor.org/rfc/rfc5987), to allow non-ASCII text.

The `%(param)s` parameter on the `%(field_name)s` header doesn't declare its character encoding,
which means that recipients can't understand it. It should be `UTF-8`.",
 "Les valeurs de paramètre qui se terminent par '*' ont un format spécifique, défini dans
[RFC5987](https://www.rfc-editor.org/rfc/rfc5987), pour permettre le texte non-ASCII.

Le paramètre `%(param)s` sur l'en-tête `%(field_name)s` ne déclare pas son encodage de caractères,
ce qui signifie que les destinataires ne peuvent pas le comprendre. Il devrait être `UTF-8`.");
("Parameter values that end in '*' have a specific format, defined in
[RFC5987](https://www.rfc-editor.org/rfc/rfc5987), to allow non-ASCII text.

The `%(param)s` parameter on the `%(field_name)s` header uses the `'%(enc)s` encoding, which has
interoperability issues with some browsers. It should be `UTF-8`.",
 "Les valeurs de paramètre qui se terminent par '*' ont un format spécifique, défini dans
[RFC5987](https://www.rfc-editor.org/rfc/rfc5987), pour autoriser du texte non ASCII.

Le paramètre `%(param)s` sur l'en-tête `%(field_name)s` utilise l'encodage `'%(enc)s`, qui présente des
problèmes d'interopérabilité avec certains navigateurs. Il devrait être `UTF-8`.");
("Parameters on the %(field_name)s field should not repeat; implementations may handle them
differently.",
 "Les paramètres du champ %(field_name)s ne doivent pas se répéter ; les implémentations peuvent les traiter différemment.");
("Partial Content",
 "Contenu partiel");
("Preloading a site in a browser's HSTS list requires a `max-age` of at least one year and the
`includeSubDomains` directive.

See the [HSTS Preload List](https://hstspreload.org/) for more information.
",
 "Le préchargement d'un site dans la liste HSTS d'un navigateur nécessite une valeur `max-age` d'au moins un an et la directive `includeSubDomains`.

Voir la [Liste de préchargement HSTS](https://hstspreload.org/) pour plus d'informations.");
("RFC 2324 was an April Fools' Day RFC that lampooned the various ways HTTP was abused; one such abuse
was the definition of the application-specific `418 (I'm a Teapot)` status code. In the
intervening years, this status code has been sometimes implemented as an ""easter egg"".

This status code is not a part of HTTP and hence it might not be supported by some strict
standards-compliant clients.
",
 "La RFC 2324 était un « Poisson d'avril » (April Fools' Day) qui se moquait des diverses façons dont le protocole HTTP était mal utilisé ; une telle utilisation abusive était la définition du code de statut `418 (I'm a Teapot)` spécifique à l'application. Au cours des années suivantes, ce code de statut a parfois été implémenté comme un ""easter egg"".

Ce code de statut ne fait pas partie du protocole HTTP et, par conséquent, il pourrait ne pas être pris en charge par certains clients strictement conformes aux normes.");
("RFC 9110 Section 8.6:
> A sender MUST NOT send a Content-Length header field in any message that contains a Transfer-Encoding header field.

This is because `Transfer-Encoding` overrides `Content-Length`.",
 "RFC 9110 Section 8.6 :
> Un expéditeur NE DOIT PAS envoyer un champ d'en-tête Content-Length dans un message qui contient un champ d'en-tête Transfer-Encoding.

Ceci est parce que `Transfer-Encoding` remplace `Content-Length`.");
("Redirects need to have a Location header.",
 "Les redirections doivent avoir un en-tête Location.");
("Reserved status codes can only be used by future, standard protocol extensions; they are not for
private use.",
 "Les codes d'état réservés ne peuvent être utilisés que par de futures extensions de protocole standard ; ils ne sont pas destinés à un usage privé.");
("Responses to the %(method)s method can't be stored by caches.",
 "Les réponses à la méthode %(method)s ne peuvent pas être mises en cache.");
("Sending `Vary: User-Agent` requires caches to store a separate copy of the response for every
`User-Agent` request header they see.

Since there are so many different `User-Agent`s, this can ""bloat"" caches with many copies of the
same thing, or cause them to give up on storing these responses at all.

Consider having different URIs for the various versions of your content instead; this will give
finer control over caching without sacrificing efficiency.",
 "L'envoi de `Vary: User-Agent` oblige les caches à stocker une copie distincte de la réponse pour chaque en-tête `User-Agent` qu'ils voient.

Étant donné qu'il existe de nombreux `User-Agent` différents, cela peut ""gonfler"" les caches avec de nombreuses copies de la même chose, ou les amener à abandonner le stockage de ces réponses.

Envisagez plutôt d'avoir des URI différents pour les différentes versions de votre contenu ; cela donnera un contrôle plus fin sur la mise en cache sans sacrifier l'efficacité.");
("Some implementations limit the size of any single field line.",
 "Certaines implémentations limitent la taille d'une seule ligne de champ.");
("Some implementations limit the total size of a field section. 32KB is a reasonable
upper limit.",
 "Certaines implémentations limitent la taille totale d'une section de champ. 32 Ko est une limite raisonnable.");
("Some servers (e.g., [Apache](http://httpd.apache.org/) with
[mod_rewrite](http://httpd.apache.org/docs/2.4/mod/mod_rewrite.html)) will send `Host` in the
`Vary` header, in the belief that this is necessary.

This is not the case; HTTP specifies that the URI is the basis of the cache key, and the URI
incorporates the `Host` header.

The presence of `Vary: Host` may make some caches not store an otherwise cacheable response (since
some cache implementations will not store anything that has a `Vary` header).",
 "Certains serveurs (par exemple, [Apache](http://httpd.apache.org/) avec
[mod_rewrite](http://httpd.apache.org/docs/2.4/mod/mod_rewrite.html)) enverront `Host` dans l'en-tête
`Vary`, pensant que c'est nécessaire.

Ce n'est pas le cas ; le protocole HTTP spécifie que l'URI est la base de la clé de cache, et l'URI
intègre l'en-tête `Host`.

La présence de `Vary: Host` peut amener certains caches à ne pas stocker une réponse autrement cacheable (car certaines implémentations de cache ne stockeront rien qui ait un en-tête `Vary`).");
("Strict Transport Security (HSTS) is enabled.",
 "Strict Transport Security (HSTS) est activé.");
("The %(bad_directive)s CDN cache directive's syntax is incorrect.",
 "La syntaxe de la directive de cache CDN %(bad_directive)s est incorrecte.");
("The %(context)s key '%(key)s' is duplicated. All instances after the first will be ignored.",
 "La clé '%(key)s' pour le contexte '%(context)s' est dupliquée. Toutes les instances après la première seront ignorées.");
("The %(cookie_name)s Set-Cookie header has a __Host- prefix but does not set Path=/.",
 "L'en-tête Set-Cookie %(cookie_name)s possède un préfixe __Host- mais ne définit pas Path=/.");
("The %(cookie_name)s Set-Cookie header has a __Host- prefix but sets a Domain.",
 "L'en-tête Set-Cookie de %(cookie_name)s possède un préfixe __Host- mais définit un Domain.");
("The %(cookie_name)s Set-Cookie header has a lifetime that is too long.",
 "L'en-tête Set-Cookie %(cookie_name)s a une durée de vie trop longue.");
("The %(cookie_name)s Set-Cookie header has duplicate '%(attribute)s' attributes.",
 "L'en-tête Set-Cookie de %(cookie_name)s possède des attributs '%(attribute)s' en double.");
("The %(cookie_name)s Set-Cookie header is too large.",
 "L'en-tête Set-Cookie %(cookie_name)s est trop volumineux.");
("The %(cookie_name)s Set-Cookie header requires the Secure attribute.",
 "L'en-tête Set-Cookie %(cookie_name)s nécessite l'attribut Secure.");
("The %(cookie_name)s Set-Cookie value is large.",
 "La valeur Set-Cookie %(cookie_name)s est grande.");
("The %(cookie_name)s cookie has a Max-Age with a leading zero.",
 "Le cookie %(cookie_name)s a un Max-Age avec un zéro non significatif.");
("The %(cookie_name)s cookie has a non-numeric Max-Age.",
 "Le cookie %(cookie_name)s a un Max-Age non numérique.");
("The %(cookie_name)s cookie has an empty Max-Age.",
 "Le cookie %(cookie_name)s a un Max-Age vide.");
("The %(cookie_name)s cookie has an empty domain.",
 "Le cookie %(cookie_name)s a un domaine vide.");
("The %(cookie_name)s cookie has an invalid Expires date.",
 "Le cookie %(cookie_name)s a une date Expires non valide.");
("The %(cookie_name)s cookie has an unknown '%(attribute_name)s' attribute value.",
 "Le cookie %(cookie_name)s a une valeur d'attribut '%(attribute_name)s' inconnue.");
("The %(cookie_name)s cookie has an unknown attribute, '%(attribute)s'.",
 "Le cookie %(cookie_name)s a un attribut inconnu, '%(attribute)s'.");
("The %(cookie_name)s cookie has the Partitioned attribute but is missing the Secure attribute.",
 "Le cookie %(cookie_name)s a l'attribut Partitioned mais il lui manque l'attribut Secure.");
("The %(cookie_name)s cookie is missing the Secure attribute.",
 "L'attribut Secure est manquant pour le cookie %(cookie_name)s.");
("The %(directive)s cache directive appears more than once.",
 "La directive de cache %(directive)s apparaît plus d'une fois.");
("The %(directive)s cache directive does not accept a value.",
 "La directive %(directive)s de cache ne prend pas de valeur.");
("The %(directive)s cache directive has no meaning in a %(message_type)s.",
 "La directive de cache %(directive)s n'a aucune signification dans un %(message_type)s.");
("The %(directive)s cache directive has non-lowercase characters.",
 "La directive de cache %(directive)s contient des caractères qui ne sont pas en minuscules.");
("The %(directive)s cache directive is very large.",
 "La directive de cache %(directive)s est très volumineuse.");
("The %(directive)s cache directive overrides other directives.",
 "La directive de cache %(directive)s remplace d'autres directives.");
("The %(directive)s cache directive's value is incorrect.",
 "La valeur de la directive %(directive)s de mise en cache est incorrecte.");
("The %(directive)s directive in the HSTS header must not have a value.",
 "La directive %(directive)s dans l'en-tête HSTS ne doit pas avoir de valeur.");
("The %(field_name)s field is defined as a
[Structured Field](https://www.rfc-editor.org/rfc/rfc9651.html),
but its value can't be parsed as one. As a result, this field is likely
to be ignored.

The parser reports this error: %(problem)s

%(context)s",
 "Le %(field_name)s est défini en tant que
[champ structuré](https://www.rfc-editor.org/rfc/rfc9651.html),
mais sa valeur ne peut pas être analysée comme une telle. En conséquence, ce champ est susceptible d'être ignoré.

L'analyste signale cette erreur : %(problem)s

%(context)s");
("The %(field_name)s field is very large (%(field_size)s bytes).",
 "Le champ %(field_name)s est très grand (%(field_size)s octets).");
("The %(field_name)s field only has meaning in requests. Sending it a response
doesn't do anything. REDbot (and most recipients) will ignore it.",
 "Le %(field_name)s n'a de sens que dans les requêtes. L'envoyer en réponse ne fait rien. REDbot (et la plupart des destinataires) l'ignoreront.");
("The %(field_name)s field only has meaning in responses. Sending it in a request
doesn't do anything. REDbot (and most recipients) will ignore it.",
 "Le %(field_name)s n'a de sens que dans les réponses. L'envoi dans une demande ne fait rien. REDbot (et la plupart des destinataires) l'ignoreront.");
("The %(field_name)s field value doesn't conform to its specified syntax.",
 "Le champ %(field_name)s a une valeur qui ne respecte pas sa syntaxe spécifiée.");
("The %(field_name)s field value isn't a valid Structured Field.",
 "La valeur du champ %(field_name)s n'est pas un champ structuré valide.");
("The %(field_name)s field's name contains non-ASCII characters.",
 "Le nom du champ « %(field_name)s » contient des caractères non ASCII.");
("The %(field_name)s field's value contains non-ASCII characters.",
 "Le champ « %(field_name)s » contient des caractères non-ASCII.");
("The %(field_name)s header is deprecated.",
 "L'en-tête %(field_name)s est obsolète.");
("The %(field_name)s header requires the Access-Control-Request-Method header.",
 "L'en-tête %(field_name)s requiert l'en-tête Access-Control-Request-Method.");
("The %(field_name)s header requires the OPTIONS method.",
 "La %(field_name)s requiert la méthode OPTIONS.");
("The %(field_name)s header requires the Origin header.",
 "L'en-tête %(field_name)s nécessite l'en-tête Origin.");
("The %(field_name)s header value isn't valid JSON.",
 "La valeur du header %(field_name)s n'est pas valide en JSON.");
("The %(field_name)s header's value isn't a valid date.",
 "La valeur de l'en-tête %(field_name)s n'est pas une date valide.");
("The %(field_name)s header's value uses an obsolete format.",
 "La valeur de l'en-tête %(field_name)s utilise un format obsolète.");
("The %(field_name)s parameter '%(param)s' has an invalid type.",
 "Le paramètre « %(field_name)s » avec la valeur « %(param)s » a un type non valide.");
("The %(field_type)s section is very large (%(section_size)s bytes).",
 "La section %(field_type)s est très grande (%(section_size)s octets).");
("The %(header_name)s header can probably be removed.",
 "L'en-tête %(header_name)s peut probablement être supprimé.");
("The %(lang)s language tag appears more than once.",
 "La balise de langue %(lang)s apparaît plus d'une fois.");
("The %(method)s doesn't define any meaning for content.",
 "Le %(method)s n' définit aucune signification pour le contenu.");
("The %(name)s reporting endpoint is invalid.",
 "Le point de terminaison de rapport %(name)s est invalide.");
("The %(name)s reporting endpoint is not secure.",
 "Le point de terminaison de rapport %(name)s n'est pas sécurisé.");
("The %(param)s parameter's value doesn't define an encoding.",
 "La valeur du paramètre %(param)s ne définit pas d'encodage.");
("The %(param)s parameter's value is invalid.",
 "La valeur du paramètre %(param)s n'est pas valide.");
("The %(param)s parameter's value uses an encoding other than UTF-8.",
 "La valeur du paramètre %(param)s utilise un encodage autre que UTF-8.");
("The %(param)s* parameter isn't allowed on the %(field_name)s field.",
 "Le paramètre %(param)s* n'est pas autorisé sur le champ %(field_name)s.");
("The %(status)s status code is deprecated.",
 "Le code d'état %(status)s est obsolète.");
("The %(status)s status code is reserved.",
 "Le code d'état %(status)s est réservé.");
("The %(status)s status code means that the server can't or won't accept a request-uri this long.",
 "Le code de statut %(status)s signifie que le serveur ne peut pas ou ne veut pas accepter une URI de requête aussi longue.");
("The %(status)s status code redirects users to another URI. The `Location` header is used to
convey this URI, but a valid one isn't present in this response.",
 "Le code d'état %(status)s redirige les utilisateurs vers un autre URI. L'en-tête `Location` est utilisé pour transmettre cet URI, mais un URI valide n'est pas présent dans cette réponse.");
("The '%(disposition)s' Content-Disposition isn't known.",
 "Le Content-Disposition '%(disposition)s' n'est pas connu.");
("The '%(expectation)s' expectation is not supported.",
 "L'attente '%(expectation)s' n'est pas prise en charge.");
("The '%(feature)s' feature is allowed for all origins.",
 "La fonctionnalité '%(feature)s' est autorisée pour toutes les origines.");
("The '%(metric)s' metric is missing the 'desc' parameter.",
 "La métrique « %(metric)s » manque du paramètre « desc ».");
("The '%(metric)s' metric is missing the 'dur' parameter.",
 "La métrique '%(metric)s' manque du paramètre 'dur'.");
("The '%(param)s' parameter on the %(field_name)s header is single-quoted.",
 "Le paramètre '%(param)s' sur l'en-tête %(field_name)s est entre guillemets simples.");
("The '%(param)s' parameter on the '%(metric)s' metric has a non-numeric value.",
 "Le paramètre '%(param)s' sur la métrique '%(metric)s' a une valeur non numérique.");
("The '%(param)s' parameter repeats in the %(field_name)s header.",
 "Le paramètre '%(param)s' se répète dans l'en-tête %(field_name)s.");
("The '%(param)s' parameter's value cannot be quoted.",
 "La valeur du paramètre '%(param)s' ne peut pas être entre guillemets.");
("The 'Priority' Set-Cookie attribute is deprecated.",
 "Le paramètre 'Priority' Set-Cookie est obsolète.");
("The 'Version Set-Cookie attribute is deprecated.",
 "La 'Version Set-Cookie' est obsolète.");
("The 'anchor' parameter on the %(link)s Link header isn't a URI.",
 "Le paramètre 'anchor' sur l'en-tête Link %(link)s n'est pas un URI.");
("The 'filename' parameter on the Content-Disposition header contains a '%%' character.",
 "Le paramètre 'filename' dans l'en-tête Content-Disposition contient un caractère '%%'.");
("The 'rev' parameter on the Link header is deprecated.",
 "Le paramètre 'rev' sur l'en-tête Link est obsolète.");
("The 'type' parameter on the %(link)s Link header isn't a media type.",
 "Le paramètre 'type' sur l'en-tête %(link)s Link n'est pas un type de média.");
("The 406 (Not Acceptable) status code appears to be misused.",
 "Le code d'état 406 (Non acceptable) semble être utilisé à mauvais escient.");
("The Accept header isn't valid.",
 "Le en-tête Accept n'est pas valide.");
("The Accept-CH header isn't a List of Tokens.",
 "Le en-tête Accept-CH n'est pas une liste de jetons.");
("The Accept-Language header isn't valid.",
 "Le header Accept-Language n'est pas valide.");
("The Access-Control-Allow-Origin header allows any origin.",
 "La tête Access-Control-Allow-Origin permet n'importe quelle origine.");
("The Access-Control-Allow-Origin header allows the requesting origin.",
 "L'en-tête Access-Control-Allow-Origin autorise l'origine demandant.");
("The Access-Control-Allow-Origin header does not allow any origin.",
 "Le header Access-Control-Allow-Origin ne permet aucun origin.");
("The Access-Control-Allow-Origin header does not allow the requesting origin.",
 "La directive Access-Control-Allow-Origin dans l'en-tête HTTP ne permet pas à l'origine requérante.");
("The Age header's value is very large.",
 "La valeur de l'en-tête Age est très grande.");
("The Age header's value should be an integer.",
 "La valeur de l'en-tête Age doit être un entier.");
("The Age headers' value must be a positive integer.",
 "La valeur des en-têtes Age doit être un entier positif.");
("The Alt-Svc 'clear' token cannot be used with other values.",
 "Le jeton 'clear' d'Alt-Svc ne peut pas être utilisé avec d'autres valeurs.");
("The Available-Dictionary header has an invalid type.",
 "L'en-tête « Available-Dictionary » a un type invalide.");
("The Cache-Group-Invalidation header is ignored for %(method)s requests.",
 "La tête de cache-invalidation du groupe est ignorée pour les %(method)s.");
("The Cache-Status header has an invalid structure.",
 "L'en-tête Cache-Status a une structure non valide.");
("The Cache-Status header has an unknown parameter '%(param)s'.",
 "Cette réponse a un en-tête Cache-Status avec un paramètre inconnu ""%(param)s"".");
("The Cache-Status header has an unknown value for '%(param)s'.",
 "Cette réponse a un en-tête Cache-Status avec une valeur inconnue pour ""%(param)s"".");
("The Clear-Site-Data header contains an unknown value '%(value)s'.",
 "L'en-tête Clear-Site-Data contient une valeur inconnue '%(value)s'.");
("The Clear-Site-Data header has an empty value.",
 "La valeur de l'en-tête Clear-Site-Data est vide.");
("The Content-Disposition header doesn't have a 'filename' parameter.",
 "L'en-tête Content-Disposition n'a pas de paramètre 'filename'.");
("The Content-Length header is correct.",
 "L'en-tête Content-Length est correct.");
("The Content-Length header is incorrect.",
 "L'en-tête Content-Length est incorrect.");
("The Content-Length header is very large.",
 "L'en-tête Content-Length est très volumineux.");
("The Content-Range header contains a non-integer value.",
 "L'en-tête Content-Range contient une valeur non entière.");
("The Content-Range header indicates an unknown total length.",
 "Le en-tête Content-Range indique une longueur totale inconnue.");
("The Content-Range header indicates an unsatisfied range, but the status code is 206.",
 "La requête a réussi, mais une partie de la requête n'a pas été satisfaite.");
("The Content-Range header invalidly uses wildcards.",
 "La requête contient des caractères non ASCII.");
("The Content-Range header is invalid.",
 "Le en-tête Content-Range est invalide.");
("The Content-Range header is missing a hyphen.",
 "La tête Content-Range manque d'un tiret.");
("The Content-Range header is missing a slash separator.",
 "Le en-tête Content-Range manque d'un séparateur slash.");
("The Content-Range header is missing a unit (e.g., 'bytes').",
 "La tête Content-Range manque d'unité (par exemple, 'octets').");
("The Deprecation header has an invalid type.",
 "The Deprecation header has an invalid type.");
("The Expect header is not supported in HTTP/1.0.",
 "L'en-tête Expect n'est pas pris en charge dans HTTP/1.0.");
("The HSTS header contains a duplicate directive.",
 "L'en-tête HSTS contient une directive en double.");
("The HSTS header is sent over HTTP.",
 "L'en-tête HSTS est envoyé sur HTTP.");
("The Last-Modified time is in the future.",
 "L'heure Last-Modified est dans le futur.");
("The Location header contains a relative URI.",
 "L'en-tête Location contient un URI relatif.");
("The Max-Forwards header is ignored for this method.",
 "L'en-tête Max-Forwards est ignoré pour cette méthode.");
("The NEL header has an invalid structure.",
 "Le en-tête NEL a une structure invalide.");
("The NEL policy has an invalid type for '%(key)s'.",
 "La politique NEL a un type invalide pour « %(key)s ».");
("The NEL policy has an invalid value for '%(key)s'.",
 "La politique NEL a une valeur non valide pour '%(key)s'.");
("The NEL policy is missing the '%(key)s' key.",
 "La politique NEL manque la clé '%(key)s'.");
("The Origin header contains multiple values.",
 "Le champ d'en-tête Origin contient plusieurs valeurs.");
("The Origin header must contain a list of serialized origins (scheme, host, and optional port), or
the string ""null"".",
 "L'en-tête Origin doit contenir une liste d'origins serialisées (schéma, hôte et port facultatif), ou
la chaîne ""null"".");
("The Pragma header is being used in an undefined way.",
 "L'en-tête Pragma est utilisé de manière indéfinie.");
("The Proxy-Status header has an invalid structure.",
 "L'en-tête Proxy-Status a une structure invalide.");
("The Proxy-Status header has an unknown parameter '%(param)s'.",
 "L'en-tête Proxy-Status a un paramètre inconnu '%(param)s'.");
("The Proxy-Status header has an unknown value for '%(param)s'.",
 "L'en-tête Proxy-Status a une valeur inconnue pour '%(param)s'.");
("The Range header is invalid.",
 "Le en-tête Range est invalide.");
("The Range header value isn't valid.",
 "La valeur de l'en-tête «Range» n'est pas valide.");
("The Referer header is sent from a secure origin to a different origin.",
 "L'en-tête Referer est envoyé d'une origine sécurisée vers une origine différente.");
("The Referer header is sent from a secure origin to an insecure target.",
 "L'en-tête Referer est envoyé d'une origine sécurisée vers une cible non sécurisée.");
("The Referrer-Policy value '%(policy)s' is unknown.",
 "La valeur Referrer-Policy '%(policy)s' est inconnue.");
("The Report-To header has an invalid type for '%(key)s'.",
 "La tête Report-To a un type invalide pour '%(key)s'.");
("The Report-To header value has an invalid structure.",
 "La valeur de l'en-tête Report-To a une structure invalide.");
("The Report-To header value is missing the '%(key)s' key.",
 "La valeur de l'en-tête Report-To manque la clé '%(key)s'.");
("The Server header is long.",
 "L'en-tête Server est long.");
("The Strict-Transport-Security header has a trailing semicolon.",
 "Le header ""Strict-Transport-Security"" a un point-virgule à la fin.");
("The URI is very long (%(uri_len)s characters).",
 "L'URI est très long (%(uri_len)s caractères).");
("The URI's syntax isn't valid.",
 "La syntaxe de l'URI n'est pas valide.");
("The User-Agent header is missing.",
 "L'en-tête User-Agent est manquant.");
("The Vary header contains duplicate values.",
 "Le en-tête Vary contient des valeurs en double.");
("The X-Frame-Options header contains an unknown value.",
 "L'en-tête X-Frame-Options contient une valeur inconnue.");
("The `%(attribute)s` attribute appears more than once in this `Set-Cookie` header.

Browsers will only use the last occurrence.",
 "L'attribut `%(attribute)s` apparaît plus d'une fois dans cet en-tête `Set-Cookie`.

Les navigateurs n'utiliseront que la dernière occurrence.");
("The `%(directive)s` cache directive is a flag; it shouldn't have a value.",
 "La directive `%(directive)s` cache est un indicateur ; elle ne devrait pas avoir de valeur.");
("The `%(directive)s` cache directive is only defined to appear in %(other_message)s
messages; is has no defined meaning in a %(message_type)s.",
 "La directive de cache `%(directive)s` est uniquement définie pour apparaître dans les messages %(other_message)s ; elle n'a pas de signification définie dans un %(message_type)s.");
("The `%(directive)s` cache directive is only defined to appear once; it is used more than
once here, so implementations may use different instances (e.g., the first, or the last),
making their behaviour unpredictable.",
 "La directive de cache `%(directive)s` n'est définie que pour apparaître une seule fois ; elle est utilisée plus d'une fois ici, donc les implémentations peuvent utiliser différentes instances (par exemple, la première ou la dernière), rendant leur comportement imprévisible.");
("The `%(directive)s` cache directive overrides or conflicts with these other directives: 

%(conflicts)s

The conflicting directives will be ignored by caches, and can be safely omitted.
    ",
 "La directive de cache `%(directive)s` remplace ou est en conflit avec ces autres directives :

%(conflicts)s

Les directives conflictuelles seront ignorées par les caches et peuvent être omises sans danger.");
("The `%(directive)s` cache directive type is %(expected_type)s, but `%(value)s` was found.",
 "Le type de directive de cache `%(directive)s` est %(expected_type)s, mais `%(value)s` a été trouvé.");
("The `%(directive)s` cache directive's value is greater than 2^31-1. Some implementations may not be
able to handle values this large.",
 "La valeur de la directive de cache `%(directive)s` est supérieure à 2^31-1. Certaines implémentations pourraient ne pas être
en mesure de gérer des valeurs aussi grandes.");
("The `%(directive)s` directive appears more than once in the `Strict-Transport-Security` header.
Directives must only appear once.",
 "La directive `%(directive)s` apparaît plus d'une fois dans l'en-tête `Strict-Transport-Security`.
Les directives ne doivent apparaître qu'une seule fois.");
("The `%(directive)s` directive in the `Strict-Transport-Security` header is a valueless
directive. It should not have an associated value.",
 "La directive `%(directive)s` dans l'en-tête `Strict-Transport-Security` est une directive sans valeur. Elle ne devrait pas avoir de valeur associée.");
("The `%(feature)s` feature is allowed for all origins (using `*`).
This is insecure and should be restricted to specific origins or `self`.",
 "La fonctionnalité `%(feature)s` est autorisée pour toutes les origines (en utilisant `*`).
Ceci est non sécurisé et devrait être restreint à des origines spécifiques ou à `self`.");
("The `%(field_name)s` header is only used in a Cross-Origin Resource Sharing (CORS) preflight
request.

A preflight request requires the `Access-Control-Request-Method` header to be present.",
 "L'en-tête `%(field_name)s` est uniquement utilisé dans une requête preflight de partage des ressources d'origine croisée (CORS).

Une requête preflight nécessite la présence de l'en-tête `Access-Control-Request-Method`.");
("The `%(field_name)s` header is only used in a Cross-Origin Resource Sharing (CORS) preflight
request.

A preflight request requires the `Origin` header to be present.",
 "L'en-tête `%(field_name)s` est uniquement utilisé dans une requête d'exploration préalable de partage des ressources d'origine croisée (CORS).

Une requête d'exploration préalable nécessite que l'en-tête `Origin` soit présent.");
("The `%(field_name)s` header is only used in a Cross-Origin Resource Sharing (CORS) preflight
request.

A preflight request uses the `OPTIONS` method; this request uses `%(method)s`.",
 "L'en-tête `%(field_name)s` est uniquement utilisé dans une requête pré-vérification de partage de ressources entre origines (CORS).

Une requête pré-vérification utilise la méthode `OPTIONS` ; cette requête utilise `%(method)s`.");
("The `%(field_name)s` header must be one of `require-corp`, `credentialless`, or
`unsafe-none`.
",
 "L'en-tête `%(field_name)s` doit être l'une des valeurs suivantes : `require-corp`, `credentialless` ou `unsafe-none`.");
("The `%(field_name)s` header must be one of `same-origin`, `same-origin-allow-popups`,
or `unsafe-none`.
",
 "L'en-tête `%(field_name)s` doit être l'un des suivants : `same-origin`, `same-origin-allow-popups` ou `unsafe-none`.");
("The `%(field_name)s` header values must be Strings. Found `%(got)s`.",
 "Les valeurs du `%(field_name)s` doivent être des chaînes. Trouvé `%(got)s`.");
("The `%(field_name)s` parameter `%(param)s` must be a `%(expected)s`. Found `%(got)s`.",
 "Le `%(field_name)s` paramètre `%(param)s` doit être un `%(expected)s`. Trouvé `%(got)s`.");
("The `%(header_name)s` header adds little value, contributes to unnecessary bandwidth,
and may increase security risk by exposing details of the back-end system.

Consider removing it.",
 "L'en-tête `%(header_name)s` ajoute peu de valeur, contribue à une bande passante inutile et peut augmenter le risque de sécurité en exposant les détails du système back-end.

Envisagez de le supprimer.");
("The `%(key)s` key has an invalid value; %(details)s.
Details: %(details)s",
 "La clé `%(key)s` a une valeur non valide ; %(details)s.
Détails : %(details)s");
("The `%(key)s` key is required in `NEL` policies.",
 "La clé `'%(key)s'` est requise dans les politiques `NEL`.");
("The `%(key)s` key is required in `Report-To` objects.",
 "La clé `%(key)s` est requise dans les objets `Report-To`.");
("The `%(key)s` key must be of type %(expected)s.",
 "La clé `%(key)s` doit être de type %(expected)s.");
("The `%(lang)s` language tag is used more than once in the `Content-Language` header.

Recipients will likely ignore duplicates.",
 "Le tag de langue `%(lang)s` est utilisé plus d'une fois dans l'en-tête `Content-Language`.

Les destinataires ignoreront probablement les doublons.");
("The `%(metric)s` metric in the Server-Timing header is missing the `desc` (description) parameter.

Descriptions can help contextualise a metric when displayed.
",
 "La métrique `%(metric)s` dans l'en-tête Server-Timing manque du paramètre `desc` (description).

Les descriptions peuvent aider à contextualiser une métrique lorsqu'elle est affichée.");
("The `%(metric)s` metric in the Server-Timing header is missing the `dur` (duration) parameter.

This parameter isn't required, but without it browsers may not be able to usefully display it.
",
 "La métrique `%(metric)s` dans l'en-tête Server-Timing manque du paramètre `dur` (durée).

Ce paramètre n'est pas obligatoire, mais sans lui, les navigateurs peuvent ne pas être en mesure de l'afficher de manière utile.");
("The `%(param)s` parameter is not defined in the Cache-Status specification.
",
 "Le paramètre `%(param)s` n'est pas défini dans la spécification Cache-Status.");
("The `%(param)s` parameter is not defined in the Proxy-Status specification.
",
 "Le paramètre `%(param)s` n'est pas défini dans la spécification Proxy-Status.");
("The `%(param)s` parameter on the `%(metric)s` metric of the Server-Timing header requires a
valid number, but `%(value)s` was found.
",
 "Le paramètre `%(param)s` sur la métrique `%(metric)s` de l'en-tête Server-Timing nécessite un
nombre valide, mais `%(value)s` a été trouvé.");
("The `%(param)s`'s value on the %(field_name)s field starts and ends with a single quote (').
However, single quotes don't mean anything there.

This means that the value will be interpreted as `%(param_val)s`, **not**
`%(param_val_unquoted)s`. If you intend the latter, remove the single quotes.",
 "La valeur de `%(param)s` sur le champ %(field_name)s commence et se termine par un guillemet simple (').
Cependant, les guillemets simples n'ont aucune signification à cet endroit.

Cela signifie que la valeur sera interprétée comme `%(param_val)s`, **et non** comme
`%(param_val_unquoted)s`. Si vous vouliez cette dernière, supprimez les guillemets simples.");
("The `'unsafe-eval'` [Content Security Policy](https://www.w3.org/TR/CSP3/)
directive allows the use of string-to-code mechanisms like `eval()`, which can make it easier for
attackers to execute malicious code.

It was found in the following directives:

%(directives_list)s",
 "La directive `'unsafe-eval'` [Content Security Policy](https://www.w3.org/TR/CSP3/)
permet l'utilisation de mécanismes de conversion de chaînes en code comme `eval()`, ce qui peut faciliter l'exécution de code malveillant par des attaquants.

Elle a été trouvée dans les directives suivantes :

%(directives_list)s");
("The `'unsafe-inline'` [Content Security Policy](https://www.w3.org/TR/CSP3/)
directive allows the execution of inline scripts and event handlers, which
significantly reduces the protection provided by CSP against Cross-Site
Scripting (XSS) attacks.

It was found in the following directives:

%(directives_list)s",
 "La directive `'unsafe-inline'` [Content Security Policy](https://www.w3.org/TR/CSP3/)
permet l'exécution de scripts en ligne et de gestionnaires d'événements, ce qui
réduit considérablement la protection fournie par CSP contre les attaques par
script intersite (XSS).

Elle a été trouvée dans les directives suivantes :

%(directives_list)s");
("The `*` [Content Security Policy](https://www.w3.org/TR/CSP3/)
directive allows resources to be loaded from any origin, which significantly reduces the protection
provided by CSP.%(report_only_text)s

It was found in the following directives:

%(directives_list)s",
 "La directive `*` [Content Security Policy](https://www.w3.org/TR/CSP3/)
permet de charger des ressources depuis n'importe quelle origine, ce qui réduit considérablement la protection
fournie par CSP.%(report_only_text)s

Elle a été trouvée dans les directives suivantes :

%(directives_list)s");
("The `103 (Early Hints)` status code allows the server to send some headers before the final response,
typically to help the client start fetching resources earlier.",
 "Le code d'état `103 (Early Hints)` permet au serveur d'envoyer certains en-têtes avant la réponse finale,
typiquement pour aider le client à commencer à récupérer les ressources plus tôt.");
("The `104 (Upload Resumption Supported)` status code indicates that the server supports resumable
uploads.",
 "Le code d'état `104 (Upload Resumption Supported)` indique que le serveur prend en charge les
téléchargements réutilisables.");
("The `201 (Created)` status code indicates that the request created a new resource.

HTTP specifies that the URL of the new resource is to be indicated in the `Location` header,
but it isn't present in this response.",
 "Le code d'état `201 (Created)` indique que la requête a créé une nouvelle ressource.

HTTP spécifie que l'URL de la nouvelle ressource doit être indiquée dans l'en-tête `Location`,
mais il n'est pas présent dans cette réponse.");
("The `201 (Created)` status code indicates that the request created a new resource.

However, the request method used (%(method)s) is defined as a ""safe"" method; that is, it
should not have any side effects.

Creating resources as a side effect of a safe method can have unintended consequences; for example,
search engine spiders and similar automated agents often follow links, and intermediaries sometimes
re-try safe methods when they fail.",
 "Le code d'état `201 (Created)` indique que la requête a créé une nouvelle ressource.

Cependant, la méthode de requête utilisée (`%(method)s`) est définie comme une méthode « sûre » ; c'est-à-dire qu'elle ne devrait avoir aucun effet secondaire.

La création de ressources comme effet secondaire d'une méthode sûre peut avoir des conséquences imprévues ; par exemple, les robots d'exploration des moteurs de recherche et les agents automatisés similaires suivent souvent les liens, et les intermédiaires réessayent parfois les méthodes sûres en cas d'échec.");
("The `206 (Partial Response)` status code indicates that the response content is only partial.

However, for a response to be partial, it needs to have a `Content-Range` header to indicate
what part of the full response it carries. This response does not have one.",
 "Le code d'état `206 (Réponse partielle)` indique que la réponse ne contient qu'une partie de la ressource demandée.

Cependant, pour qu'une réponse soit partielle, elle doit avoir un en-tête `Content-Range` pour indiquer quelle partie de la réponse complète elle transporte. Cette réponse n'en a pas.");
("The `206 (Partial Response)` status code indicates that the response content is only partial.

However, the client needs to ask for it with the `Range` header, and the request did not
include one.",
 "Le code d'état `206 (Partial Response)` indique que la réponse ne contient qu'une partie de la ressource demandée.

Cependant, le client doit le demander avec l'en-tête `Range`, et la requête n'en incluait pas.");
("The `208 (Already Reported)` status code can be used inside a DAV: propstat response element to
avoid enumerating the internal members of multiple bindings to the same collection repeatedly.",
 "Le code d'état `208 (Already Reported)` peut être utilisé dans un élément de réponse DAV: propstat pour éviter de répertorier à plusieurs reprises les membres internes de plusieurs liaisons à la même collection.");
("The `405 (Method Not Allowed)` status code indicates that the HTTP method is
known by the origin server but not supported by the target resource.",
 "Le code d'état `405 (Méthode non autorisée)` indique que la méthode HTTP est connue par le serveur d'origine mais n'est pas prise en charge par la ressource cible.");
("The `405 (Method Not Allowed)` status code indicates that the HTTP method is
known by the origin server but not supported by the target resource.

However, the `Allow` header field listed in the response contains the method used,
indicating that it is allowed.",
 "Le code d'état « 405 (Méthode non autorisée ) » indique que la méthode HTTP est connue par le serveur d'origine mais non prise en charge par la ressource cible.

Cependant, le champ d'en-tête « Autoriser » inclus dans la réponse contient la méthode utilisée, indiquant qu'elle est autorisée.");
("The `406 (Not Acceptable)` status code indicates that the request cannot produce a response matching
the list of acceptable values defined in the request's proactive negotiation header fields.

However, this request didn't contain any proactive negotiation headers (such as `Accept`,
`Accept-Charset`, `Accept-Encoding`, or `Accept-Language`).",
 "Le code d'état `406 (Non acceptable)` indique que la demande ne peut pas produire une réponse correspondant
à la liste des valeurs acceptables définies dans les en-têtes de négociation proactive de la demande.

Cependant, cette demande n'a pas contenu d'en-têtes de négociation proactive (tels que `Accept`,
`Accept-Charset`, `Accept-Encoding`, ou `Accept-Language`).");
("The `406 (Not Acceptable)` status code indicates that the resource cannot produce a response matching
the list of acceptable values defined in the request's proactive negotiation header fields, such
as `Accept`, `Accept-Charset`, `Accept-Encoding`, or `Accept-Language`.
",
 "Le code d'état `406 (Non acceptable)` indique que la ressource ne peut pas produire une réponse correspondant
à la liste des valeurs acceptables définies dans les en-têtes de négociation proactive de la demande, tels que
`Accept`, `Accept-Charset`, `Accept-Encoding` ou `Accept-Language`.");
("The `412 (Precondition Failed)` status code indicates that one or more conditions given in the
request header fields (typically, those starting with `If-`)evaluated to false when tested 
on the server.",
 "Le code d'état « 412 (Precondition Failed ) » indique qu'une ou plusieurs conditions mentionnées dans les champs d'en-tête de la requête (généralement ceux qui commencent par « If- ») ont évalué à « false » lors de leur test sur le serveur.");
("The `412 (Precondition Failed)` status code indicates that one or more conditions given in the
request header fields evaluated to false when tested on the server.

However, this request didn't contain any conditional headers (such as `If-Match`, `If-None-Match`,
`If-Modified-Since`, `If-Unmodified-Since`, or `If-Range`).",
 "Le code d'état `412 (Precondition Failed)` indique qu'une ou plusieurs conditions spécifiées dans les champs d'en-tête de la requête ont été évaluées à faux par le serveur.

Cependant, cette requête ne contenait aucun en-tête conditionnel (tel que `If-Match`, `If-None-Match`, `If-Modified-Since`, `If-Unmodified-Since`, ou `If-Range`).");
("The `416 (Range Not Satisfiable)` status code indicates that the set of ranges in the request's
`Range` header field overlap the current extent of the selected resource.

However, this request didn't contain a `Range` header.",
 "Le code d'état `416 (Range Not Satisfiable)` indique que l'ensemble des plages dans l'en-tête `Range` de la requête chevauche l'étendue actuelle de la ressource sélectionnée.

Cependant, cette requête ne contenait pas d'en-tête `Range`.");
("The `417 (Expectation Failed)` status code indicates that the expectation given in the request's
`Expect` header field could not be met by at least one of the inbound servers.",
 "Le code d'état `417 (Expectation non remplie)` indique que l'attente donnée dans le champ d'en-tête `Expect` de la requête n'a pas pu être satisfaite par au moins un des serveurs entrants.");
("The `417 (Expectation Failed)` status code indicates that the expectation given in the request's
`Expect` header field could not be met by at least one of the inbound servers.

However, this request didn't contain an `Expect` header.",
 "Le code d'état `417 (Expectation Failed)` indique que l'attente spécifiée dans l'en-tête `Expect` de la requête n'a pas pu être satisfaite par au moins un des serveurs entrants.

Cependant, cette requête ne contenait pas d'en-tête `Expect`.");
("The `417 (Expectation Failed)` status code indicates that the expectation given in the request's
`Expect` header field could not be met by at least one of the inbound servers.

In this case, the client requested `100-continue`, but the server (or an intermediary) couldn't
satisfy it.",
 "Le code d'état `417 (Expectation Failed)` indique que l'attente spécifiée dans l'en-tête `Expect` de la requête n'a pas pu être satisfaite par au moins un des serveurs entrants.

Dans ce cas, le client a demandé `100-continue`, mais le serveur (ou un intermédiaire) n'a pas pu le satisfaire.");
("The `421 (Misdirected Request)` status code indicates that the request was directed at a server
that is not able to produce a response. This can happen when a connection is reused.",
 "Le code d'état `421 (Misdirected Request)` indique que la requête a été dirigée vers un serveur qui n'est pas en mesure de fournir une réponse. Cela peut se produire lorsqu'une connexion est réutilisée.");
("The `425 (Too Early)` status code indicates that the server is unwilling to risk processing a
request that might be replayed.",
 "Le code d'état `425 (Trop tôt)` indique que le serveur ne souhaite pas prendre le risque de traiter une requête qui pourrait être rejouée.");
("The `428 (Precondition Required)` status code indicates that the origin server requires the request
to be conditional.",
 "Le code d'état `428 (Precondition Required)` indique que le serveur d'origine exige que la requête soit conditionnelle.");
("The `429 (Too Many Requests)` status code indicates that the client has sent too many requests in a
given amount of time (""rate limiting"").",
 "Le code d'état `429 (Too Many Requests)` indique que le client a envoyé trop de requêtes dans un
délai donné (« limitation du débit »).");
("The `431 (Request Header Fields Too Large)` status code indicates that the server is unwilling to
process the request because its header fields are too large.",
 "Le code d'état `431 (Request Header Fields Too Large)` indique que le serveur refuse de traiter la requête car ses champs d'en-tête sont trop volumineux.");
("The `451 (Unavailable For Legal Reasons)` status code indicates that the server is denying access to
the resource as a consequence of a legal demand.",
 "Le code d'état `451 (Unavailable For Legal Reasons)` indique que le serveur refuse l'accès à la ressource suite à une demande légale.");
("The `508 (Loop Detected)` status code indicates that the server terminated an operation because it
encountered an infinite loop while processing a request with ""Depth: infinity"".",
 "Le code d'état `508 (Loop Detected)` indique que le serveur a interrompu une opération car il a rencontré une boucle infinie lors du traitement d'une requête avec ""Depth: infinity"".");
("The `511 (Network Authentication Required)` status code indicates that the client needs to
authenticate to gain network access.",
 "Le code d'état `511 (Network Authentication Required)` indique que le client doit s'authentifier pour obtenir l'accès au réseau.");
("The `Accept-CH` header field should only be used on secure (HTTPS) responses. Using it over plain
HTTP exposes the user's information to network observers. Because of this, browsers will ignore the
header.",
 "Le champ d'en-tête `Accept-CH` ne doit être utilisé que sur les réponses sécurisées (HTTPS). Son utilisation sur une connexion HTTP non sécurisée expose les informations de l'utilisateur aux observateurs du réseau. C'est pourquoi les navigateurs ignorent cet en-tête.");
("The `Accept-Ranges` response header tells clients what `range-unit`s a resource is willing to
process in future requests. HTTP only defines two: `bytes` and `none`.

Clients who don't know about the non-standard range-unit will not be able to use it.",
 "L'en-tête de réponse `Accept-Ranges` indique aux clients quels `range-unit`s une ressource accepte de traiter dans les requêtes futures. HTTP n'en définit que deux : `bytes` et `none`.

Les clients qui ignorent le `range-unit` non standard ne pourront pas l'utiliser.");
("The `Access-Control-Allow-Credentials` header must be set to `true` if present. If you don't want
to allow credentials, omit the header.",
 "L'en-tête `Access-Control-Allow-Credentials` doit être défini sur `true` s'il est présent. Si vous ne souhaitez pas autoriser les informations d'identification, omettez l'en-tête.");
("The `Access-Control-Allow-Origin` header (%(acao_value)s) does not match the `Origin` header
in the request (%(origin)s).

This means that the browser will **not** let the requesting site access the response.",
 "La tête `Access-Control-Allow-Origin` (%(acao_value)s) ne correspond pas à la tête `Origin`
de la requête (%(origin)s).

Cela signifie que le navigateur **ne permettra pas** au site demandant d'accéder à la réponse.");
("The `Access-Control-Allow-Origin` header can only contain a single origin, `*`, or `null`. It
cannot contain a list of origins.",
 "L'en-tête `Access-Control-Allow-Origin` ne peut contenir qu'une seule origine, `*`, ou `null`. Il ne peut pas contenir une liste d'origines.");
("The `Access-Control-Allow-Origin` header is set to `*`; this means that any origin can access
the response, unless the request includes credentials or requires a preflight check.",
 "La tête Access-Control-Allow-Origin est définie sur « * » ; cela signifie que n'importe quelle origine peut accéder à la réponse, sauf si la demande inclut des informations d'identification ou nécessite un contrôle préalable.");
("The `Access-Control-Allow-Origin` header is set to `null`; this means that no origin can access
the response.",
 "Le `Access-Control-Allow-Origin` header est défini sur `null`; cela signifie qu'aucune origine ne peut accéder à la réponse.");
("The `Access-Control-Allow-Origin` header matches the `Origin` header in the request (%(origin)s).

This means that the browser will let the requesting site access the response.",
 "La tête `Access-Control-Allow-Origin` correspond à la tête `Origin` dans la requête (%(origin)s).

Cela signifie que le navigateur autorisera le site demandant à accéder à la réponse.");
("The `Access-Control-Max-Age` header indicates how many seconds a preflight response can be cached
for. It cannot be less than zero.",
 "La tête `Access-Control-Max-Age` indique le nombre de secondes qu'une réponse de prévol peut être mise en cache. Il ne peut pas être inférieur à zéro.");
("The `Access-Control-Max-Age` header indicates how many seconds a preflight response can be cached
for. It must be a non-negative integer.",
 "La directive `Access-Control-Max-Age` indique en secondes combien de temps la réponse d'une requête préflight peut être mise en cache. Elle doit être un entier non négatif.");
("The `Age` header indicates the age of the response; i.e., how long it has been cached
since it was generated. The value given was negative, so it is not a valid age.",
 "L'en-tête `Age` indique l'âge de la réponse, c'est-à-dire la durée pendant laquelle elle a été mise en cache
depuis sa génération. La valeur fournie était négative, elle ne représente donc pas un âge valide.");
("The `Age` header indicates the age of the response; i.e., how long it has been cached
since it was generated. The value given was not an integer, so it is not a valid age.",
 "L'en-tête `Age` indique l'âge de la réponse ; c'est-à-dire depuis combien de temps elle a été mise en cache
depuis sa génération. La valeur donnée n'était pas un entier, elle n'est donc pas un âge valide.");
("The `Age` header's value is greater than 2,147,483,648. Some implementations may represent it
using that value (which is over 68 years).
",
 "La valeur de l'en-tête `Age` est supérieure à 2 147 483 648. Certaines implémentations peuvent la représenter
en utilisant cette valeur (qui dépasse 68 ans).");
("The `Alt-Svc` header field value ""clear"" is used to invalidate previous alternative services.
It cannot be combined with other alternative service advertisements.",
 "La valeur du champ d'en-tête `Alt-Svc` ""clear"" est utilisée pour invalider les services alternatifs précédents.
Il ne peut pas être combiné avec d'autres annonces de services alternatifs.");
("The `Available-Dictionary` header is present, but `Accept-Encoding` does not contain 'dcb' or 'dcz'.

[RFC 9842 Section 6.1](https://www.rfc-editor.org/rfc/rfc9842.html#section-6.1) requires that if a
client sends `Available-Dictionary`, it MUST also advertise support for dictionary-based content
encoding (dcb or dcz) in `Accept-Encoding`.",
 "L'en-tête `Available-Dictionary` est présent, mais `Accept-Encoding` ne contient ni 'dcb' ni 'dcz'.

[Section 6.1 de RFC 9842](https://www.rfc-editor.org/rfc/rfc9842.html#section-6.1) exige que si un client envoie `Available-Dictionary`, il doit également annoncer son support pour la compression de contenu basée sur un dictionnaire (dcb ou dcz) dans `Accept-Encoding`.");
("The `Available-Dictionary` header value must be a Byte Sequence. Found `%(got)s`.",
 "La valeur de l'en-tête `Available-Dictionary` doit être une séquence de bytes. Trouvé `%(got)s`.");
("The `CDN-Cache-Control` header field allows you to specify cache directives that are targeted at
Content Delivery Network (CDN) caches, separately from the `Cache-Control` header field (which
applies to all caches).",
 "Le champ d'en-tête `CDN-Cache-Control` vous permet de spécifier des directives de cache qui sont ciblées sur les caches de réseau de distribution de contenu (CDN), séparément du champ d'en-tête `Cache-Control` (qui s'applique à tous les caches).");
("The `Cache-Control: max-age` directive and the `Expires` header are both present.

`max-age` takes precedence over `Expires`, so `Expires` is redundant and can be removed.",
 "La directive `Cache-Control: max-age` et l'en-tête `Expires` sont tous deux présents.

`max-age` a la priorité sur `Expires`, `Expires` est donc redondant et peut être supprimé.");
("The `Cache-Control: must-revalidate` directive forbids caches from using stale responses to satisfy
requests.

For example, caches often use stale responses when they cannot connect to the origin server; when
this directive is present, they will return an error rather than a stale response.",
 "La directive `Cache-Control: must-revalidate` interdit aux caches d'utiliser des réponses obsolètes pour satisfaire les requêtes.

Par exemple, les caches utilisent souvent des réponses obsolètes lorsqu'ils ne peuvent pas se connecter au serveur d'origine ; lorsque cette directive est présente, ils renvoient une erreur plutôt qu'une réponse obsolète.");
("The `Cache-Control: no-cache` directive means that while caches can store this
response, they cannot use it to satisfy a request unless it has been validated (either with an
`If-None-Match` or `If-Modified-Since` conditional) for that request.",
 "La directive `Cache-Control: no-cache` signifie que bien que les caches puissent stocker cette réponse, ils ne peuvent pas l'utiliser pour satisfaire une requête, sauf si elle a été validée (soit avec une condition `If-None-Match` ou `If-Modified-Since`) pour cette requête.");
("The `Cache-Control: no-cache` directive means that while caches can store this response, they
cannot use it to satisfy a request unless it has been validated (either with an `If-None-Match` or
`If-Modified-Since` conditional) for that request.

This response doesn't have a `Last-Modified` or `ETag` header, so it effectively can't be used by a
cache. `Cache-Control: no-store` is more appropriate.",
 "La directive `Cache-Control: no-cache` signifie que, bien que les caches puissent stocker cette réponse, ils ne peuvent pas l'utiliser pour satisfaire une requête à moins qu'elle n'ait été validée (soit avec une condition `If-None-Match` ou `If-Modified-Since`) pour cette requête.

Cette réponse n'a pas d'en-tête `Last-Modified` ou `ETag`, elle ne peut donc pas être effectivement utilisée par un cache. `Cache-Control: no-store` est plus approprié.");
("The `Cache-Control: no-store` directive indicates that this response can't be stored by a cache.",
 "La directive `Cache-Control: no-store` indique que cette réponse ne peut pas être stockée par un cache.");
("The `Cache-Control: private` directive indicates that the response can only be stored by caches
that are specific to a single user; for example, a browser cache. Shared caches, such as those in
proxies, cannot store it.",
 "La directive `Cache-Control: private` indique que la réponse ne peut être stockée que par des caches spécifiques à un seul utilisateur ; par exemple, un cache de navigateur. Les caches partagés, tels que ceux des proxys, ne peuvent pas le stocker.");
("The `Cache-Control: public` directive allows caches to store and use responses
in some circumstances when they would otherwise not be able to.

For example, it allows responses to authenticated requests to be stored by shared caches.

Other responses **do not need to contain `public`**; it does not make the
response ""more cacheable"", and only makes the response headers larger.",
 "La directive `Cache-Control: public` permet aux caches de stocker et d'utiliser les réponses
dans certaines circonstances où ils ne seraient pas en mesure de le faire autrement.

Par exemple, elle permet aux caches partagés de stocker les réponses aux requêtes authentifiées.

Les autres réponses **n'ont pas besoin de contenir `public`** ; cela ne rend pas la
réponse ""plus cacheable"", et augmente uniquement la taille des en-têtes de réponse.");
("The `Cache-Group-Invalidation` header is only processed for unsafe methods (like POST, PUT, DELETE).
It will be ignored for `%(method)s` requests.",
 "La `Cache-Group-Invalidation` est traitée uniquement pour les méthodes dangereuses (comme POST, PUT, DELETE).
Elle sera ignorée pour les `%(method)s` requêtes.");
("The `Cache-Status` header field indicates how caches have handled the response.

%(status)s
",
 "Le champ d'en-tête `Cache-Status` indique comment les caches ont géré la réponse.

%(status)s");
("The `Cache-Status` header must be a list of members, where each member is a 
Token or String (identifying the cache) with optional parameters.
",
 "L'en-tête `Cache-Status` doit être une liste de membres, où chaque membre est un
Token ou une chaîne de caractères (identifiant le cache) avec des paramètres optionnels.");
("The `Clear-Site-Data` header contains a value that is not recognized.
Valid values are: `""cache""`, `""cookies""`, `""storage""`, `""executionContexts""`, `""*""`.",
 "L'en-tête `Clear-Site-Data` contient une valeur qui n'est pas reconnue.
Les valeurs valides sont : `""cache""`, `""cookies""`, `""storage""`, `""executionContexts""`, `""*`"".");
("The `Clear-Site-Data` header value is empty. It should contain at least one directive.",
 "La valeur de l'en-tête `Clear-Site-Data` est vide. Elle doit contenir au moins une directive.");
("The `Content-Disposition` header has two widely-known values; `inline` and `attachment`.
`%(disposition)s` isn't recognised, and most implementations will default to handling it like
`attachment`.",
 "L'en-tête `Content-Disposition` a deux valeurs bien connues : `inline` et `attachment`.
`%(disposition)s` n'est pas reconnu, et la plupart des implémentations le traiteront par défaut comme `attachment`.");
("The `Content-Disposition` header suggests a filename for clients to use when saving the file
locally, using the `filename` and `filename*` parameters.

One of these parameters contains a path character (""\"" or ""/""), used to navigate between
directories on common operating systems.

Because this can be used to attach the browser's host operating system (e.g., by saving a file to a
system directory), browsers will usually ignore these parameters, or remove path information.

You should remove these characters.",
 "L'en-tête `Content-Disposition` suggère un nom de fichier que les clients doivent utiliser lors de l'enregistrement du fichier localement, en utilisant les paramètres `filename` et `filename*`.

L'un de ces paramètres contient un caractère de chemin (""\"" ou ""/""), utilisé pour naviguer entre les répertoires sur les systèmes d'exploitation courants.

Étant donné que cela peut être utilisé pour accéder au système d'exploitation hôte du navigateur (par exemple, en enregistrant un fichier dans un répertoire système), les navigateurs ignoreront généralement ces paramètres ou supprimeront les informations de chemin.

Vous devez supprimer ces caractères.");
("The `Content-Disposition` header suggests a filename for clients to use when saving the file
locally, using the `filename` parameter.

[RFC6266](https://www.rfc-editor.org/rfc/rfc6266) specifies how to carry non-ASCII characters in this
parameter. However, historically some (but not all) browsers have also decoded %%-encoded
characters in the `filename` parameter, which means that they'll be treated differently depending
on the browser you're using.

As a result, it's not interoperable to use percent characters in the `filename` parameter. Use the
correct encoding in the `filename*` parameter instead.",
 "L'en-tête `Content-Disposition` suggère un nom de fichier que les clients doivent utiliser lors de l'enregistrement du fichier
localement, en utilisant le paramètre `filename`.

Le [RFC6266](https://www.rfc-editor.org/rfc/rfc6266) spécifie comment transporter des caractères non-ASCII dans ce
paramètre. Cependant, historiquement, certains navigateurs (mais pas tous) ont également décodé les caractères %% encodés
dans le paramètre `filename`, ce qui signifie qu'ils seront traités différemment selon
le navigateur que vous utilisez.

Par conséquent, il n'est pas interopérable d'utiliser des caractères pourcentage dans le paramètre `filename`. Utilisez le
bon encodage dans le paramètre `filename*` à la place.");
("The `Content-Disposition` header with a disposition of `attachment` suggests a filename for clients
to use when saving the file locally.

It should always contain a `filename` parameter, even when the `filename*` parameter is used to
carry an internationalised filename, so that browsers can fall back to an ASCII-only filename.",
 "L'en-tête `Content-Disposition` avec une disposition de `attachment` suggère un nom de fichier que les clients doivent utiliser lors de l'enregistrement du fichier localement.

Il doit toujours contenir un paramètre `filename`, même lorsque le paramètre `filename*` est utilisé pour véhiculer un nom de fichier internationalisé, afin que les navigateurs puissent se rabattre sur un nom de fichier ASCII uniquement.");
("The `Content-Length` header should be an integer, but it was not.",
 "La tête `Content-Length` devrait être un entier, mais ce n'était pas le cas.");
("The `Content-Length` header's value is greater than 2^63-1. Some implementations may not be able to
handle values this large.",
 "La valeur de l'en-tête `Content-Length` est supérieure à 2^63-1. Certaines implémentations pourraient ne pas être en mesure de gérer des valeurs aussi importantes.");
("The `Content-Range` header cannot use a wildcard (`*`) for both the range and the complete length.
",
 "La tête `Content-Range` ne peut pas utiliser un jeton générique (`*`) pour la plage et la longueur complète.");
("The `Content-Range` header is missing a range unit at the start; it should 
almost always be `bytes`.

For example:

    Content-Range: bytes 1-100/200
",
 "La `Content-Range` est manquante d'unité de plage au début ; il devrait 
presque toujours être `octets`.

Par exemple :

    Content-Range: octets 1-100/200");
("The `Content-Range` header is missing a slash (`/`) separating the range from the complete length.

For example:

    Content-Range: bytes 1-100/200
",
 "La tête `Content-Range` manque d'une barre oblique (`/`) séparant la plage de la longueur complète.");
("The `Content-Range` header uses `*` for the instance length, indicating that the total length of
the resource is unknown.",
 "La requête est trop longue, elle dépasse la limite de 2048 caractères.");
("The `Content-Range` header uses the `*/<length>` syntax, which is reserved for `416` (Requested
Range Not Satisfiable) responses to indicate the actual length of the resource.

The `206` response status code indicates a successful range response, so this header is
incorrect.",
 "La tête `Content-Range` utilise la syntaxe `*/<length>`, qui est réservée pour les réponses `416` (Plage de requête non satisfaisable) pour indiquer la longueur effective de la ressource.

Le code d'état de réponse `206` indique une réponse de plage réussie, donc cette tête est incorrecte.");
("The `Content-Type` header declares the content as `%(declared_type)s`, but it looks like
`%(sniffed_type)s`.",
 "L'en-tête `Content-Type` déclare le contenu comme étant `%(declared_type)s`, mais il semble être `%(sniffed_type)s`.");
("The `Deprecation` header indicates that this resource is deprecated.",
 "L'en-tête « Deprecation » indique que cette ressource est dépréciée.");
("The `Deprecation` header indicates that this resource was deprecated on %(date)s.",
 "La `Deprecation` indique que cette ressource a été dépréciée le %(date)s.");
("The `Deprecation` header indicates that this resource will be deprecated on %(date)s.",
 "Le en-tête `Deprecation` indique que cette ressource sera dépréciée le %(date)s.");
("The `Deprecation` header value must be a Date or a Boolean True. Found: %(item_type)s.",
 "La valeur de l'en-tête `Deprecation` doit être une date ou un booléen True. Trouvé : %(item_type)s.");
("The `Expect` header was added in HTTP/1.1; it has no meaning in HTTP/1.0.",
 "L'en-tête `Expect` a été ajouté dans HTTP/1.1 ; il n'a aucune signification dans HTTP/1.0.");
("The `Last-Modified` header indicates the last point in time that the resource has changed.
This response's `Last-Modified` time is in the future, which doesn't have any defined meaning in
HTTP.",
 "L'en-tête `Last-Modified` indique le dernier moment où la ressource a été modifiée.
L'heure `Last-Modified` de cette réponse est dans le futur, ce qui n'a aucune signification définie dans
HTTP.");
("The `Last-Modified` header indicates the last point in time that the resource has changed. It is
used in HTTP for validating cached responses, and for calculating heuristic freshness in caches.

This resource last changed %(last_modified_string)s.",
 "L'en-tête `Last-Modified` indique le dernier moment où la ressource a été modifiée. Il est
utilisé dans HTTP pour valider les réponses mises en cache et pour calculer la fraîcheur heuristique dans les caches.

Cette ressource a été modifiée pour la dernière fois le %(last_modified_string)s.");
("The `Link` header, defined by [RFC 8288](https://www.rfc-editor.org/rfc/rfc8288#section-3), uses the
`anchor` parameter to define the context URI for the link.

This parameter can be an absolute or relative URI; however, `%(anchor)s` is neither.",
 "La `Link` header, définie par [RFC 8288](https://www.rfc-editor.org/rfc/rfc8288#section-3), utilise le
`anchor` paramètre pour définir l'URI de contexte pour le lien.

Ce paramètre peut être un URI absolu ou relatif ; toutefois, `%(anchor)s` n'est ni l'un ni l'autre.");
("The `Link` header, defined by [RFC 8288](https://www.rfc-editor.org/rfc/rfc8288#section-3), uses the
`rel` parameter to communicate the type of a link. `rev` is deprecated by that specification
because it is often confusing.

Use `rel` and an appropriate relation.",
 "La tête `Link`, définie par [RFC 8288](https://www.rfc-editor.org/rfc/rfc8288#section-3), utilise le
paramètre `rel` pour communiquer le type d'un lien. `rev` est obsolète par cette spécification
parce qu'il est souvent déroutant.

Utilisez `rel` et une relation appropriée.");
("The `Link` header, defined by [RFC 8288](https://www.rfc-editor.org/rfc/rfc8288#section-3), uses the
`type` parameter to define the media type of the link target.

However, `%(type)s` is not a valid media type.",
 "La tête `Link`, définie par [RFC 8288](https://www.rfc-editor.org/rfc/rfc8288#section-3), utilise le
paramètre `type` pour définir le type multimédia de la cible du lien.

Cependant, `%(type)s` n'est pas un type multimédia valide.");
("The `Location` header is used for specific purposes in HTTP; mostly to indicate the URI of another
resource (e.g., in redirection, or when a new resource is created).

In other status codes (such as this one) it doesn't have a defined meaning, so any use of it won't
be interoperable.

Sometimes `Location` is confused with `Content-Location`, which indicates a URI for the payload of
the message that it appears in.",
 "L'en-tête `Location` est utilisé à des fins spécifiques en HTTP ; principalement pour indiquer l'URI d'une autre ressource (par exemple, dans une redirection, ou lorsqu'une nouvelle ressource est créée).

Dans d'autres codes d'état (comme celui-ci), il n'a pas de signification définie, donc toute utilisation de celui-ci ne sera pas interopérable.

Parfois, `Location` est confondu avec `Content-Location`, qui indique une URI pour la charge utile du message dans lequel il apparaît.");
("The `Max-Forwards` header is only defined for `TRACE` and `OPTIONS` requests; for other methods, it
is likely to be ignored.",
 "L'en-tête `Max-Forwards` est uniquement défini pour les requêtes `TRACE` et `OPTIONS` ; pour les autres méthodes,
il est probable qu'il soit ignoré.");
("The `NEL` header should be a list of objects.
",
 "La `NEL` header devrait être une liste d'objets.");
("The `Origin` header should only contain a single value. Any values after the first
will be ignored.",
 "La `Origin` header ne doit contenir qu'une seule valeur. Les valeurs suivantes seront ignorées.");
("The `Partitioned` attribute on this `Set-Cookie` header is present, but the `Secure` attribute is
missing.

Browsers will ignore the `Partitioned` attribute as a result.",
 "L'attribut `Partitioned` sur cet en-tête `Set-Cookie` est présent, mais l'attribut `Secure` est manquant.

Les navigateurs ignoreront l'attribut `Partitioned` en conséquence.");
("The `Permissions-Policy` header allows a site to control the use of browser features.",
 "L'en-tête `Permissions-Policy` permet à un site de contrôler l'utilisation des fonctionnalités du navigateur.");
("The `Priority` attribute was an experiment, and is no longer supported.
",
 "La `Priority` était un essai, et n'est plus prise en charge.");
("The `Proxy-Status` header field indicates how intermediaries have handled the response.

%(status)s
",
 "L'en-tête `Proxy-Status` indique comment les intermédiaires ont traité la réponse.

%(status)s");
("The `Proxy-Status` header must be a list of members, where each member is
a Token or String (identifying the proxy) with optional parameters.
",
 "L'en-tête `Proxy-Status` doit être une liste de membres, où chaque membre est
un Token ou une String (identifiant le proxy) avec des paramètres optionnels.");
("The `Referrer-Policy` header contains multiple valid policies. Browsers will only use the last
valid policy found, which is `%(effective)s`. Earlier values are ignored.",
 "L'en-tête `Referrer-Policy` contient plusieurs stratégies valides. Les navigateurs n'utiliseront que la dernière
stratégie valide trouvée, qui est `%(effective)s`. Les valeurs précédentes sont ignorées.");
("The `Referrer-Policy` header contains the value `%(policy)s`, which is not a known referrer policy.
It will be ignored by browsers.",
 "L'en-tête `Referrer-Policy` contient la valeur `%(policy)s`, qui n'est pas une politique de référence connue.
Elle sera ignorée par les navigateurs.");
("The `Referrer-Policy` header does not contain any valid policies. Browsers will use their default
policy (usually `strict-origin-when-cross-origin`).",
 "L'en-tête `Referrer-Policy` ne contient aucune politique valide. Les navigateurs utiliseront leur politique par défaut
(généralement `strict-origin-when-cross-origin`).");
("The `Report-To` header should be a list of objects.
",
 "La `Report-To` header devrait être une liste d'objets.");
("The `Secure` attribute on this `Set-Cookie` header is missing.

Because the `SameSite` attribute is set to `None`, the `Secure` attribute is required.

Browsers will ignore this cookie.",
 "L'attribut `Secure` sur cette en-tête `Set-Cookie` est manquant.

Comme l'attribut `SameSite` est défini sur `None`, l'attribut `Secure` est requis.

Les navigateurs vont ignorer cette cookie.");
("The `Server` header is %(server_length)s long, which uses unnecessary bandwidth
and can expose details of the back-end system to attackers.

Consider shortening it.",
 "L'en-tête `Server` a une longueur de %(server_length)s, ce qui utilise une bande passante inutile et peut exposer les détails du système back-end aux attaquants.

Envisagez de le raccourcir.");
("The `Set-Cookie` header has a `__Host-` prefix, but it does not set `Path=/`.

Browsers will reject this cookie.",
 "L'en-tête `Set-Cookie` a un préfixe `__Host-`, mais il ne définit pas `Path=/`.

Les navigateurs rejetteront ce cookie.");
("The `Set-Cookie` header has a `__Host-` prefix, but it sets a `Domain` attribute.

Browsers will reject this cookie.",
 "L'en-tête `Set-Cookie` a un préfixe `__Host-`, mais il définit un attribut `Domain`.

Les navigateurs rejetteront ce cookie.");
("The `Set-Cookie` header has a lifetime (Max-Age or Expires) of %(duration)s, which is greater than
400 days.

Browsers will cap the lifetime to 400 days.",
 "La tête `Set-Cookie` a une durée de vie (`Max-Age` ou `Expires`) de %(duration)s, ce qui est supérieur à
400 jours.

Les navigateurs limiteront la durée de vie à 400 jours.");
("The `Set-Cookie` header has a prefix (e.g., `__Secure-` or `__Host-`) that requires the `Secure`
attribute.

Browsers will reject this cookie.",
 "L'en-tête `Set-Cookie` possède un préfixe (par exemple, `__Secure-` ou `__Host-`) qui nécessite l'attribut `Secure`.

Les navigateurs rejetteront ce cookie.");
("The `Set-Cookie` header is larger than 4096 bytes.

Browsers will ignore this cookie.",
 "L'en-tête `Set-Cookie` est plus grand que 4096 octets.

Les navigateurs ignoreront ce cookie.");
("The `Strict-Transport-Security` header contains a trailing semicolon. Technically, this violates
the grammar, so strict implementations might find it confusing. However, most implementations
should ignore it.",
 "La directive « Strict-Transport-Security » contient un point-virgule final ; ce qui est techniquement incorrect selon la grammaire, ce qui peut donc dérouter les implémentations strictes. Cependant, la plupart des implémentations devraient l'ignorer.");
("The `Strict-Transport-Security` header is ignored when sent over HTTP, unless it's a 301 Redirect.
It should only be sent over HTTPS.",
 "L'en-tête `Strict-Transport-Security` est ignoré lorsqu'il est envoyé sur HTTP, sauf s'il s'agit d'une redirection 301.
Il ne doit être envoyé que sur HTTPS.");
("The `Strict-Transport-Security` header requires a `max-age` directive to be valid.",
 "L'en-tête `Strict-Transport-Security` nécessite une directive `max-age` pour être valide.");
("The `Sunset` header indicates that this resource has already passed its sunset date and may become
unresponsive.",
 "La requête a expiré.");
("The `Vary: Negotiate` header value is not necessary, as 
[Transparent Content Negotiation](https://www.rfc-editor.org/rfc/rfc2295.html)
is not widely supported.

Consider removing it.",
 "La valeur de l'en-tête `Vary: Negotiate` n'est pas nécessaire, car la [Négociation Transparente de Contenu](https://www.rfc-editor.org/rfc/rfc2295.html) n'est pas largement prise en charge.

Envisagez de la supprimer.");
("The `Vary` header allows you to list the parts of the request that effectively change the response
representation.

Listing the same header more than once is redundant and can be confusing.",
 "La tête « Vary » vous permet de lister les parties de la demande qui changent effectivement la représentation de la réponse.

La liste de la même tête plus d'une fois est redondante et peut être confuse.");
("The `Vary` mechanism allows a resource to describe the dimensions that its responses vary, or
change, over; each listed header is another dimension.

Varying by too many dimensions makes using this information impractical.",
 "Le mécanisme `Vary` permet à une ressource de décrire les dimensions sur lesquelles ses réponses varient, ou changent ; chaque en-tête listé est une dimension supplémentaire.

Varier sur trop de dimensions rend l'utilisation de cette information peu pratique.");
("The `Version` attribute is no longer part of the `Set-Cookie` specification,
and is ignored by browsers.

Because some software still interprets cookies differently when it is present,
[it can cause security 
issues](https://portswigger.net/research/bypassing-wafs-with-the-phantom-version-cookie).
",
 "L'attribut `Version` n'est plus pris en compte dans la spécification de l'en-tête `Set-Cookie`, et est ignoré par les navigateurs.

Puisque certains logiciels interprètent toujours les cookies différemment lorsqu'il est présent, [cela peut causer des problèmes de sécurité](https://portswigger.net/research/bypassing-wafs-with-the-phantom-version-cookie).");
("The `Via` header indicates that one or more intermediaries are present between the user agent and
the origin server for the resource.

This may indicate that a proxy is configured, or that the server uses a ""reverse proxy"" or CDN in
front of it.

There field has three space-separated components; first, the HTTP version of the message that the
intermediary received, then the identity of the intermediary (usually but not always its hostname),
and then optionally a product identifier or comment (usually used to identify the software being
used).",
 "L'en-tête `Via` indique qu'un ou plusieurs intermédiaires sont présents entre l'agent utilisateur et le serveur d'origine de la ressource.

Cela peut indiquer qu'un proxy est configuré, ou que le serveur utilise un ""proxy inverse"" ou un CDN devant lui.

Ce champ comporte trois composantes séparées par des espaces ; d'abord, la version HTTP du message que l'intermédiaire a reçu, ensuite l'identité de l'intermédiaire (généralement, mais pas toujours, son nom d'hôte), et enfin, facultativement, un identifiant de produit ou un commentaire (généralement utilisé pour identifier le logiciel utilisé).");
("The `X-Frame-Options` response header controls how IE8 handles HTML frames; the `DENY` value
prevents this content from being rendered within a frame on another site, which defends against
certain types of attacks.

Currently this is supported by IE8 and Safari 4.

See [MDN](https://developer.mozilla.org/en-US/docs/Web/HTTP/Headers/X-Frame-Options) for more information.
",
 "L'en-tête de réponse `X-Frame-Options` contrôle la façon dont IE8 gère les cadres HTML ; la valeur
`DENY` empêche ce contenu d'être rendu dans un cadre sur un autre site, ce qui protège contre
certains types d'attaques.

Actuellement, cela est pris en charge par IE8 et Safari 4.

Voir [MDN](https://developer.mozilla.org/en-US/docs/Web/HTTP/Headers/X-Frame-Options) pour plus d'informations.");
("The `X-Frame-Options` response header controls how IE8 handles HTML frames; the `DENY` value
prevents this content from being rendered within a frame, which defends against certain types of
attacks.

See [MDN](https://developer.mozilla.org/en-US/docs/Web/HTTP/Headers/X-Frame-Options) for more information.
",
 "L'en-tête de réponse `X-Frame-Options` contrôle la façon dont IE8 gère les cadres HTML ; la valeur `DENY`
empêche que ce contenu ne soit rendu dans un cadre, ce qui protège contre certains types
d'attaques.

Voir [MDN](https://developer.mozilla.org/en-US/docs/Web/HTTP/Headers/X-Frame-Options) pour plus d'informations.");
("The `credentialless`
[Cross-Origin Embedder Policy](https://fetch.spec.whatwg.org/#cross-origin-embedder-policy-header)
allows loading cross-origin resources without explicit permission in supporting browsers, but
requests for them will not include credentials (cookies, client certificates,
etc.).%(report_only_text)s",
 "La politique `credentialless`
[Cross-Origin Embedder Policy](https://fetch.spec.whatwg.org/#cross-origin-embedder-policy-header)
permet de charger des ressources inter-origines sans permission explicite dans les navigateurs compatibles, mais
les requêtes pour celles-ci n'incluront pas les identifiants (cookies, certificats client,
etc.).%(report_only_text)s");
("The `cross-origin`
[Cross-Origin Resource Policy](https://fetch.spec.whatwg.org/#cross-origin-resource-policy-header)
allows the resource to be read by any document in supporting browsers, regardless of its 
origin.%(report_only_text)s",
 "La politique `cross-origin`
[Cross-Origin Resource Policy](https://fetch.spec.whatwg.org/#cross-origin-resource-policy-header)
permet à la ressource d'être lue par tout document dans les navigateurs compatibles, quelle que soit son origine.%(report_only_text)s");
("The `domain` parameter on this `Set-Cookie` header is empty.

Note that handling of empty domains is 
[not interoperable](https://chromestatus.com/feature/5674723800252416).

Browsers will probably ignore it as a result.",
 "Le paramètre `domain` dans l'en-tête `Set-Cookie` est vide.

Note que la gestion des domaines vides est 

[non interopérable](https://chromestatus.com/feature/5674723800252416).

Les navigateurs l'ignoreront probablement en conséquence.");
("The `expires` date on this `Set-Cookie` header isn't valid; see
[RFC6265](https://www.rfc-editor.org/rfc/rfc6265) for details of the correct format.",
 "La date `expires` dans cet en-tête `Set-Cookie` n'est pas valide ; voir
[RFC6265](https://www.rfc-editor.org/rfc/rfc6265) pour les détails du format correct.");
("The `includeSubDomains` directive indicates that this HSTS policy applies to this domain as well as
all of its subdomains.",
 "La directive `includeSubDomains` indique que cette politique HSTS s'applique à ce domaine ainsi qu'à tous ses sous-domaines.");
("The `includeSubDomains` directive indicates that this HSTS policy applies to this domain as well as
all of its subdomains.

Because cookies can be set across HTTP and HTTPS sites as well as across subdomains, this means 
that an attacker might be able to take advantage of a subdomain that doesn't have HSTS enabled.
",
 "La directive `includeSubDomains` indique que cette politique HSTS s'applique à ce domaine ainsi qu'à tous ses sous-domaines.

Étant donné que les cookies peuvent être définis sur des sites HTTP et HTTPS ainsi que sur différents sous-domaines, cela signifie qu'un attaquant pourrait potentiellement exploiter un sous-domaine pour lequel HSTS n'est pas activé.");
("The `match-dest` parameter must be a String or a list of Strings.",
 "Le paramètre `match-dest` doit être une chaîne ou une liste de chaînes.");
("The `max-age` directive in the `Strict-Transport-Security` header must be a non-negative
integer. The value ""%(max_age)s"" is not valid.",
 "La directive `max-age` dans l'en-tête `Strict-Transport-Security` doit être un entier non négatif. La valeur ""%(max_age)s"" n'est pas valide.");
("The `max-age` parameter on this `Set-Cookie` header doesn't have a value.

Browsers will ignore the `max-age` value as a result.",
 "Le paramètre `max-age` dans cet en-tête `Set-Cookie` n'a pas de valeur.

Les navigateurs ignoreront donc la valeur `max-age`.");
("The `max-age` parameter on this `Set-Cookie` header has a leading zero.

Browsers will ignore the `max-age` value as a result.",
 "Le paramètre `max-age` de cet en-tête `Set-Cookie` a un zéro initial.

Les navigateurs ignoreront la valeur `max-age` en conséquence.");
("The `max-age` parameter on this `Set-Cookie` header isn't numeric.

Browsers will ignore the `max-age` value as a result.",
 "Le paramètre `max-age` de cet en-tête `Set-Cookie` n'est pas numérique.

Les navigateurs ignoreront la valeur `max-age` en conséquence.");
("The `preload` directive on `Strict-Transport-Security` allows browsers to preload the site in
its HSTS lists, avoiding the potential for making unencrypted requests when first accessing the
site.

See the [HSTS Preload List](https://hstspreload.org/) for more information.
",
 "La directive `preload` sur `Strict-Transport-Security` permet aux navigateurs de précharger le site dans
sa liste HSTS, évitant ainsi la possibilité de faire des requêtes non chiffrées lors du premier accès au
site.

Voir la [liste de préchargement HSTS](https://hstspreload.org/) pour plus d'informations.");
("The `q` parameter must be a decimal number between 0 and 1, with at most 3 digits of precision.",
 "La `q` paramètre doit être un nombre décimal entre 0 et 1, avec au plus 3 chiffres de précision.");
("The `report-to` directive [Content Security Policy](https://www.w3.org/TR/CSP3/)
specifies a reporting endpoint, but no matching endpoint refers to it in the
`Reporting-Endpoints` header.%(report_only_text)s",
 "La directive `report-to` [Politique de sécurité du contenu](https://www.w3.org/TR/CSP3/) spécifie un point de terminaison de rapport, mais aucun point de terminaison correspondant ne fait référence à celui-ci dans l'en-tête `Reporting-Endpoints`.%(report_only_text)s à celui-ci dans l'en-tête `Reporting-Endpoints`.");
("The `report-to` parameter in the
[Cross-Origin Embedder Policy](https://fetch.spec.whatwg.org/#cross-origin-embedder-policy-header)
header specifies a reporting endpoint, but no matching endpoint refers to it in the
`Reporting-Endpoints` header.",
 "Le paramètre `report-to` dans l'en-tête
[Cross-Origin Embedder Policy](https://fetch.spec.whatwg.org/#cross-origin-embedder-policy-header)
spécifie un point de terminaison de rapport, mais aucun point de terminaison correspondant ne fait référence à celui-ci dans l'en-tête `Reporting-Endpoints`.");
("The `report-to` parameter in the
[Cross-Origin Opener Policy](https://html.spec.whatwg.org/multipage/origin.html#coop)
header specifies a reporting endpoint, but no matching endpoint refers to it in the
`Reporting-Endpoints` header.",
 "Le paramètre `report-to` dans l'en-tête
[Politique d'ouverture inter-origines](https://html.spec.whatwg.org/multipage/origin.html#coop)
spécifie un point de terminaison de signalement, mais aucun point de terminaison correspondant ne fait référence à celui-ci dans l'en-tête `Reporting-Endpoints`.");
("The `report-uri` [Content Security Policy](https://www.w3.org/TR/CSP3/)
directive is deprecated in favor of `report-to`. It is recommended to use `report-to`
for reporting violations, although `report-uri` may still be supported for backward
compatibility.",
 "La directive `report-uri` [Content Security Policy](https://www.w3.org/TR/CSP3/) est dépréciée au profit de `report-to`. Il est recommandé d'utiliser `report-to` pour signaler les violations, bien que `report-uri` puisse encore être pris en charge pour des raisons de compatibilité ascendante.");
("The `report_to` member in the [Network Error Logging](https://w3c.github.io/network-error-logging/)
policy specifies a reporting endpoint, but no matching endpoint refers to it in the
`Reporting-Endpoints` header.",
 "Le membre `report_to` dans la [politique de journalisation des erreurs réseau](https://w3c.github.io/network-error-logging/)
spécifie un point de rapport, mais aucun point de rapport correspondant ne le mentionne dans l'en-tête
`Reporting-Endpoints`.");
("The `require-corp`
[Cross Origin Embedder Policy](https://fetch.spec.whatwg.org/#cross-origin-embedder-policy-header)
requires that all cross-origin resources must explicitly grant permission to be loaded via a
`Cross-Origin-Resource-Policy` header, in supporting browsers.%(report_only_text)s",
 "La politique `require-corp` de
[Cross Origin Embedder Policy](https://fetch.spec.whatwg.org/#cross-origin-embedder-policy-header)
exige que toutes les ressources inter-origines accordent explicitement l'autorisation d'être chargées via un en-tête
`Cross-Origin-Resource-Policy`, dans les navigateurs compatibles.%(report_only_text)s");
("The `same-origin-allow-popups`
[Cross-Origin Opener Policy](https://html.spec.whatwg.org/multipage/origin.html#coop)
isolates the browsing context but maintains a relationship
with popups that it opens, or that opened it, in supporting browsers.%(report_only_text)s",
 "Le `same-origin-allow-popups` [Cross-Origin Opener Policy](https://html.spec.whatwg.org/multipage/origin.html#coop) isole le contexte de navigation mais maintient une relation avec les pop-ups qu'il ouvre, ou qui l'ont ouvert, dans les navigateurs compatibles.%(report_only_text)s");
("The `same-origin`
[Cross-Origin Opener Policy](https://html.spec.whatwg.org/multipage/origin.html#coop)
isolates the browsing context, preventing it from sharing a window object
with cross-origin documents in supporting browsers.%(report_only_text)s",
 "La [Cross-Origin Opener Policy](https://html.spec.whatwg.org/multipage/origin.html#coop) `same-origin` isole le contexte de navigation, l'empêchant de partager un objet window avec des documents inter-origines dans les navigateurs qui la prennent en charge.%(report_only_text)s");
("The `same-origin`
[Cross-Origin Resource Policy](https://fetch.spec.whatwg.org/#cross-origin-resource-policy-header)
prevents the resource from being read by any cross-origin document 
in supporting browsers.%(report_only_text)s",
 "La politique `same-origin`
[Cross-Origin Resource Policy](https://fetch.spec.whatwg.org/#cross-origin-resource-policy-header)
empêche la ressource d'être lue par tout document inter-origine
dans les navigateurs compatibles.%(report_only_text)s");
("The `same-site`
[Cross-Origin Resource Policy](https://fetch.spec.whatwg.org/#cross-origin-resource-policy-header)
allows the resource to be read by documents from the same site, but
prevents it from being read by cross-site documents in supporting browsers.%(report_only_text)s",
 "La politique `same-site`
[Cross-Origin Resource Policy](https://fetch.spec.whatwg.org/#cross-origin-resource-policy-header)
permet à la ressource d'être lue par des documents du même site, mais
l'empêche d'être lue par des documents inter-sites dans les navigateurs compatibles.%(report_only_text)s");
("The `stale-if-error` cache directive allows a cache to return a stale response when an error
(e.g., a 500 Internal Server Error, or a network timeout) is encountered while attempting to
revalidate it.

See [RFC 5861](https://www.rfc-editor.org/rfc/rfc5861) for more information.",
 "La directive de cache `stale-if-error` permet à un cache de renvoyer une réponse obsolète lorsqu'une erreur
(par exemple, une erreur interne du serveur 500 ou un délai d'attente réseau) est rencontrée lors de sa révalidation.

Voir la [RFC 5861](https://www.rfc-editor.org/rfc/rfc5861) pour plus d'informations.");
("The `stale-while-revalidate` cache directive allows a cache to serve a stale response while a
revalidation request is happening in the background.

See [RFC 5861](https://www.rfc-editor.org/rfc/rfc5861) for more information.",
 "La directive de cache `stale-while-revalidate` permet à un cache de servir une réponse obsolète pendant qu'une requête de revalidation est en cours en arrière-plan.

Voir [RFC 5861](https://www.rfc-editor.org/rfc/rfc5861) pour plus d'informations.");
("The `unsafe-none`
[Cross-Origin Embedder Policy](https://fetch.spec.whatwg.org/#cross-origin-embedder-policy-header)
is the default behavior, allowing cross-origin resources to be loaded
without explicit permission in supporting browsers.

This does not provide cross-origin isolation.%(report_only_text)s",
 "Le `unsafe-none`
[Cross-Origin Embedder Policy](https://fetch.spec.whatwg.org/#cross-origin-embedder-policy-header)
est le comportement par défaut, autorisant le chargement de ressources inter-origines
sans permission explicite dans les navigateurs compatibles.

Cela ne fournit pas d'isolation inter-origines.%(report_only_text)s");
("The `unsafe-none`
[Cross-Origin Opener Policy](https://html.spec.whatwg.org/multipage/origin.html#coop)
is the default behavior in supporting browsers. It allows the document to share a browsing context
group with other documents unless they enforce isolation.%(report_only_text)s",
 "Le `unsafe-none` [Cross-Origin Opener Policy](https://html.spec.whatwg.org/multipage/origin.html#coop) est le comportement par défaut dans les navigateurs pris en charge. Il permet au document de partager un groupe de contexte de navigation avec d'autres documents, à moins qu'ils n'appliquent l'isolation.%(report_only_text)s");
("The client has sent too many requests in a given amount of time.",
 "Le client a envoyé trop de requêtes dans un laps de temps donné.");
("The client needs to authenticate to gain network access.",
 "Le client doit s'authentifier pour obtenir un accès réseau.");
("The content doesn't match the declared Content-Type.",
 "Le contenu ne correspond pas au Content-Type déclaré.");
("The deprecated report-uri directive is used.",
 "La directive obsolète report-uri est utilisée.");
("The filename in the Content-Disposition header contains a path character.",
 "Le nom de fichier dans l'en-tête Content-Disposition contient un caractère de chemin.");
("The following cookies are set more than once in this response: %(cookie_names)s.

Browsers will likely accept all of them, but the order of application
may vary or be confusing.",
 "Les cookies suivants sont définis plus d'une fois dans cette réponse : %(cookie_names)s.

Les navigateurs accepteront probablement tous ces cookies, mais leur ordre d'application
pourrait varier ou prêter à confusion.");
("The following fields appear in `Accept-CH` but are not listed in the `Vary` header:
%(missing_fields)s, even though the response is cacheable.

Because these fields can affect the response content, they should be included in `Vary` to ensure
that caches store separate responses for different client hints.",
 "Les champs suivants apparaissent dans `Accept-CH` mais ne sont pas répertoriés dans l'en-tête `Vary` :
%(missing_fields)s, même si la réponse est cacheable.

Comme ces champs peuvent affecter le contenu de la réponse, ils doivent être inclus dans `Vary` pour garantir que les caches stockent des réponses distinctes pour les différents indices client.");
("The following header(s) are only used in the response to a Cross-Origin Resource Sharing (CORS)
preflight request:

%(headers)s

A preflight request is an `OPTIONS` request that includes an `Origin` header and an
`Access-Control-Request-Method` header.

This response was not to a CORS preflight request, so these headers should not be present.",
 "Les en-têtes suivants ne sont utilisés qu'en réponse à une demande de prévol Cross-Origin Resource Sharing (CORS) :

%(headers)s

Une demande de prévol est une demande « OPTIONS » qui comprend un en-tête « Origin » et un
« Access-Control-Request-Method ».

Cette réponse n'était pas une demande de prévol CORS, donc ces en-têtes ne devraient pas être présents.");
("The identity transfer-coding isn't necessary.",
 "Le codage de transfert d'identité n'est pas nécessaire.");
("The item '%(item)s' is not a valid type for an allowlist.",
 "L'élément '%(item)s' n'est pas un type valide pour une liste d'autorisation.");
("The item `%(item)s` is not a valid type for an allowlist.
Allowlists should contain origins (strings) or keywords (tokens).",
 "L'élément `%(item)s` n'est pas un type valide pour une liste autorisée.
Les listes autorisées doivent contenir des origines (chaînes de caractères) ou des mots-clés (jetons).");
("The match-dest parameter has an invalid type.",
 "Le paramètre match-dest a un type invalide.");
("The max-age directive in the HSTS header is invalid.",
 "La directive max-age dans l'en-tête HSTS n'est pas valide.");
("The max-age is 0.",
 "Le max-age est 0.");
("The max-age is less than one year.",
 "Le max-age est inférieur à un an.");
("The members of a DAV binding have already been enumerated.",
 "Les membres d'une liaison DAV ont déjà été énumérés.");
("The origin server requires the request to be conditional.",
 "Le serveur d'origine exige que la requête soit conditionnelle.");
("The post-check cache directive's value is '0'.",
 "La valeur de la directive de cache post-check est '0'.");
("The post-check cache directive's value is larger than pre-check's.",
 "La valeur de la directive de cache post-check est supérieure à celle de pre-check.");
("The pre-check and post-check cache directives are both '0'.",
 "Les directives de cache pre-check et post-check sont toutes deux à '0'.");
("The presence of the `Cache-Control: proxy-revalidate` and/or `s-maxage` directives forbids shared
caches (e.g., proxy caches) from using stale responses to satisfy requests.

For example, caches often use stale responses when they cannot connect to the origin server; when
this directive is present, they will return an error rather than a stale response.

These directives do not affect private caches; for example, those in browsers.",
 "La présence des directives `Cache-Control: proxy-revalidate` et/ou `s-maxage` interdit aux caches partagés (par exemple, les caches proxy) d'utiliser des réponses obsolètes pour satisfaire les requêtes.

Par exemple, les caches utilisent souvent des réponses obsolètes lorsqu'ils ne peuvent pas se connecter au serveur d'origine ; lorsque cette directive est présente, ils renverront une erreur plutôt qu'une réponse obsolète.

Ces directives n'affectent pas les caches privés ; par exemple, ceux des navigateurs.");
("The protocol was upgraded without being requested.",
 "Le protocole a été mis à niveau sans avoir été demandé.");
("The q value on '{language}' is invalid.",
 "La valeur q sur '{language}' est invalide.");
("The q value on '{media_type}' is invalid.",
 "La valeur q sur '{media_type}' est invalide.");
("The range specifier `%(value)s` is missing a hyphen separating the start and end positions.",
 "Le spécificateur de plage « %(value)s » manque d'un tiret séparant les positions de début et de fin.");
("The report-to endpoint '%(endpoint)s' is not defined%(report_only)s.",
 "Le point de terminaison « report-to » '%(endpoint)s' n'est pas défini%(report_only)s.");
("The report-to endpoint '%(endpoint)s' is not defined.",
 "Le point de terminaison 'report-to' '%(endpoint)s' n'est pas défini.");
("The reporting endpoint '%(value)s' is not defined.",
 "Le point de terminaison de rapport '%(value)s' n'est pas défini.");
("The reporting endpoint `%(name)s` must be a string URL. Found: %(value)s (type `%(found_type)s`).",
 "Le point de terminaison de rapport « %(name)s » doit être une URL de chaîne. Trouvé : « %(value)s » (type « %(found_type)s »).");
("The reporting endpoint `%(name)s` uses an insecure URL (`%(url)s`). Browsers may ignore it.",
 "Le point de terminaison de reporting « %(name)s » utilise une URL non sécurisée (« %(url)s »). Les navigateurs peuvent l'ignorer.");
("The request HTTP version isn't supported.",
 "La version HTTP de la requête n'est pas prise en charge.");
("The request conflicted with the state of the resource.",
 "La requête est entrée en conflit avec l'état de la ressource.");
("The request content was too large for the server.",
 "Le contenu de la requête était trop volumineux pour le serveur.");
("The request didn't have a Range header.",
 "La requête n'avait pas d'en-tête Range.");
("The request didn't have an Expect header.",
 "La requête n'avait pas d'en-tête Expect.");
("The request didn't have any preconditions.",
 "La requête n'avait aucune condition préalable.");
("The request expectation failed.",
 "La demande n'a pas abouti.");
("The request precondition failed.",
 "La précondition de la requête a échoué.");
("The request was directed at a server that is not able to produce a response.",
 "La requête a été dirigée vers un serveur qui n'est pas en mesure de fournir une réponse.");
("The resource cannot produce a response that is acceptable to the client.",
 "La ressource ne peut pas produire une réponse acceptable au client.");
("The resource could not be found.",
 "La ressource est introuvable.");
("The resource does not allow the %(method)s method.",
 "La ressource ne permet pas la méthode %(method)s.");
("The resource doesn't support this media type in requests.",
 "La ressource ne prend pas en charge ce type de média dans les requêtes.");
("The resource has Sunset.",
 "Le ressource a une date de fin.");
("The resource has been deprecated.",
 "La ressource a été dépréciée.");
("The resource is deprecated.",
 "La ressource est dépréciée.");
("The resource is gone.",
 "La ressource a disparu.");
("The resource is unavailable for legal reasons.",
 "La ressource est indisponible pour des raisons juridiques.");
("The resource last changed %(last_modified_string)s.",
 "La ressource a changé pour la dernière fois %(last_modified_string)s.");
("The resource will be deprecated.",
 "La ressource sera dépréciée.");
("The response is compressed with a dictionary (dcb or dcz) and is cacheable, but does not list
`Available-Dictionary` in the `Vary` header.

[RFC 9842 Section 6.2](https://www.rfc-editor.org/rfc/rfc9842.html#section-6.2) requires that
cacheable dictionary-compressed responses MUST include `Available-Dictionary` in the `Vary` header
to prevent serving compressed content to clients that do not have the dictionary.",
 "La réponse est compressée avec un dictionnaire (dcb ou dcz) et est cacheable, mais ne répertorie pas
`Available-Dictionary` dans l'en-tête `Vary`.

[La section 6.2 du RFC 9842](https://www.rfc-editor.org/rfc/rfc9842.html#section-6.2) exige que les réponses compressées avec un dictionnaire cacheable DOIVENT inclure `Available-Dictionary` dans l'en-tête `Vary`
pour empêcher la fourniture de contenu compressé aux clients qui ne disposent pas du dictionnaire.");
("The server couldn't find any resource to serve for the given URI.",
 "Le serveur n'a trouvé aucune ressource à servir pour l'URI donné.");
("The server couldn't meet the 100-continue expectation.",
 "Le serveur n'a pas pu répondre à l'attente 100-continue.");
("The server didn't understand the request.",
 "Le serveur n'a pas compris la requête.");
("The server doesn't implement the request method.",
 "Le serveur n'implémente pas la méthode de requête.");
("The server has forbidden this request.",
 "Le serveur a interdit cette requête.");
("The server is temporarily unavailable.",
 "Le serveur est temporairement indisponible.");
("The server is unwilling to process the request because its headers are too large.",
 "Le serveur refuse de traiter la requête car ses en-têtes sont trop volumineux.");
("The server is unwilling to risk processing a request that might be replayed.",
 "Le serveur refuse de traiter une demande susceptible d'être rejouée.");
("The server previously had a resource at the given URI, but it is no longer there.",
 "Le serveur possédait auparavant une ressource à l'URI donné, mais elle n'y est plus.");
("The server rejected the request because the request content sent was too large.",
 "Le serveur a rejeté la requête car le contenu envoyé était trop volumineux.");
("The server returned 418 (I'm a Teapot), an easter egg defined in RFC 2324.",
 "Le serveur a renvoyé 418 (I'm a Teapot), un easter egg défini dans la RFC 2324.");
("The server sent early hints.",
 "Le serveur a envoyé des indices précoces (early hints).");
("The server supports upload resumption.",
 "Le serveur prend en charge la reprise du téléchargement.");
("The server terminated an operation because it encountered an infinite loop.",
 "Le serveur a terminé une opération car il a rencontré une boucle infinie.");
("The server won't accept a URI this long %(uri_len)s.",
 "Le serveur n'acceptera pas un URI aussi long %(uri_len)s.");
("The server's clock is %(clock_skew_string)s.",
 "L'horloge du serveur est %(clock_skew_string)s.");
("The server's clock is correct.",
 "L'horloge du serveur est correcte.");
("The speculation rule URL is not secure.",
 "La règle URL de spéculation n'est pas sécurisée.");
("The speculation rule `%(url)s` uses an insecure URL. Browsers may ignore it.",
 "La règle de spéculation `%(url)s` utilise une URL non sécurisée. Les navigateurs peuvent l'ignorer.");
("The speculation rule must be a string URL. Found: %(value)s (type `%(found_type)s`).",
 "La règle de spéculation doit être une URL de chaîne. Trouvé : %(value)s (type `%(found_type)s`).");
("The speculation rule value is invalid.",
 "La valeur de la règle de spéculation est invalide.");
("The status code is not an integer.",
 "Le code d'état n'est pas un entier.");
("The status phrase can only contain ASCII characters.",
 "La phrase d'état ne peut contenir que des caractères ASCII.");
("The status phrase contains non-ASCII characters.",
 "La phrase d'état contient des caractères non ASCII.");
("The token `%(token)s` is not a valid keyword in an allowlist.
Valid tokens are `self` and `src`.",
 "Le jeton `%(token)s` n'est pas un mot-clé valide dans une liste d'autorisation.
Les jetons valides sont `self` et `src`.");
("The value '%(value)s' looks like a keyword but is a string.",
 "La valeur '%(value)s' ressemble à un mot-clé mais est une chaîne.");
("The value `%(value)s` is a string, but it looks like a keyword.
If you meant to use the keyword, remove the quotes (e.g., `self` instead of `""self""`).",
 "La valeur `%(value)s` est une chaîne de caractères, mais elle ressemble à un mot-clé.
Si vous vouliez utiliser le mot-clé, supprimez les guillemets (par exemple, `self` au lieu de `""self""`).");
("The value `%(value)s` is not a valid integer.",
 "La valeur `%(value)s` n'est pas un entier valide.");
("The value `%(value)s` is not defined for the `%(param)s` parameter.
",
 "La valeur `%(value)s` n'est pas définie pour le paramètre `%(param)s`.
");
("The value for '%(feature)s' should be an Inner List or the token '*'.",
 "La valeur pour '%(feature)s' doit être une liste interne ou le jeton '*'.");
("The value for the `%(feature)s` feature in `Permissions-Policy` is invalid. It should be either
an Inner List of origins (e.g., `(self ""https://example.com"")`) or the special token `*`.",
 "La valeur pour la fonctionnalité `%(feature)s` dans `Permissions-Policy` est invalide. Elle doit être soit une liste interne d'origines (par exemple, `(self ""https://example.com"")`), soit le jeton spécial `*`.");
("The value for this field doesn't conform to its specified syntax; %(problem)s.

See [its definition](%(ref_uri)s) for more information.",
 "La valeur de ce champ ne respecte pas sa syntaxe spécifiée ; %(problem)s.

Voir [sa définition](%(ref_uri)s) pour plus d'informations.");
("The value for this field doesn't conform to its specified syntax; it will likely be ignored
by browsers.

See [its definition](%(ref_uri)s) for more information.",
 "La valeur de ce champ ne respecte pas sa syntaxe spécifiée ; elle risque d'être ignorée par les navigateurs.

Consultez [sa définition](%(ref_uri)s) pour plus d'informations.");
("The value for this field doesn't conform to its specified syntax; see [its
definition](%(ref_uri)s) for more information.",
 "La valeur de ce champ n'est pas conforme à sa syntaxe spécifiée ; voir [sa
définition](%(ref_uri)s) pour plus d'informations.");
("The value for this field has syntax specified using 
[Augmented BNF](https://www.rfc-editor.org/rfc/rfc5234.html),
but doesn't conform to it. See [the field's ABNF](%(ref_uri)s) for more information.

This error may or may not prevent recipients from parsing the field; fixing it will
improve interoperability.
",
 "La valeur de ce champ a une syntaxe spécifiée en utilisant 
[Augmented BNF](https://www.rfc-editor.org/rfc/rfc5234.html),
mais elle n'y est pas conforme. Consultez [le champ's ABNF](%(ref_uri)s) pour plus d'informations.

Cette erreur peut ou non empêcher les destinataires de parser le champ ; la correction de celle-ci améliorera l'interopérabilité.");
("The values indicated by the `Content-Range` header are not valid. The first position must be less
than or equal to the last position, and the last position must be less than the complete length.",
 "Les valeurs indiquées par l'en-tête `Content-Range` ne sont pas valides. La première position doit être inférieure ou égale à la dernière position, et la dernière position doit être inférieure à la longueur complète.");
("The values indicated by the `Range` header are not valid. The first position must be less
than or equal to the last position.",
 "Les valeurs indiquées par l'en-tête « Range » ne sont pas valides. La première position doit être inférieure ou égale à la dernière position.");
("There are no defined semantics for content in %(method)s requests. While HTTP's framing layer
allows content to appear, that does not mean it is valid for every request method, and
including content in a %(method)s request can cause interoperability and security issues.
",
 "Il n’y a pas de sémantique définie pour le contenu dans les %(method)s requêtes. Bien que la couche de framing HTTP permette l’apparition de contenu, cela ne signifie pas qu’il est valide pour chaque méthode de requête, et l’inclusion de contenu dans une %(method)s requête peut causer des problèmes d’interopérabilité et de sécurité.");
("There is no max-age directive.",
 "Il n'y a pas de directive max-age.");
("There was a general server error.",
 "Il y a eu une erreur générale du serveur.");
("These headers are representation metadata that should not be sent in a 304 response unless
they are being used to guide cache updates:

%(headers)s

See [RFC 9110 Section 15.4.5](https://www.rfc-editor.org/rfc/rfc9110.html#section-15.4.5) for
more information.",
 "Ces en-têtes sont des métadonnées de représentation qui ne doivent pas être envoyées dans une réponse 304, sauf si elles sont utilisées pour guider les mises à jour du cache :

%(headers)s

Voir [RFC 9110 Section 15.4.5](https://www.rfc-editor.org/rfc/rfc9110.html#section-15.4.5) pour
plus d’informations.");
("This 304 (Not Modified) response contains headers that should not be sent.",
 "Cette 304 (Not Modified) réponse contient des en-têtes qui ne devraient pas être envoyés.");
("This `Set-Cookie` header has an empty name; there needs to be a name before the `=`.

Browsers will ignore this cookie.",
 "Cet en-tête `Set-Cookie` a un nom vide ; il doit y avoir un nom avant le `=`.

Les navigateurs ignoreront ce cookie.");
("This `Set-Cookie` header has an unknown ""%(attribute_name)s"" attribute value, ""%(attribute_value)s"".

Browsers will probably ignore it as a result.",
 "Cet en-tête `Set-Cookie` contient une valeur d'attribut ""%(attribute_name)s"" inconnue, ""%(attribute_value)s"".

Les navigateurs l'ignoreront probablement en conséquence.");
("This `Set-Cookie` value is %(set_cookie_value_length)s long.
",
 "Cette valeur `Set-Cookie` est de %(set_cookie_value_length)s longueur.");
("This cookie has an extra parameter, ""%(attribute)s"".

Browsers will ignore it.",
 "Ce cookie possède un paramètre supplémentaire, ""%(attribute)s"".

Les navigateurs l'ignoreront.");
("This field is designed to only occur once in a message. When it occurs more than once, a receiver
needs to choose the one to use, which can lead to interoperability problems, since different
implementations may make different choices.",
 "Ce champ est conçu pour n'apparaître qu'une seule fois dans un message. Lorsqu'il apparaît plus d'une fois, un récepteur doit choisir celui à utiliser, ce qui peut entraîner des problèmes d'interopérabilité, car différentes implémentations peuvent faire des choix différents.");
("This field is no longer recommended for use, because of interoperability problems and/or
lack of use. This field should probably be removed.

See [the deprecation notice](%(deprecation_ref)s) for more information.",
 "Ce champ n'est plus recommandé pour l'utilisation, en raison de problèmes d'interopérabilité et/ou d'un manque d'utilisation. Ce champ devrait probablement être supprimé.

Voir [l'avis de dépréciation](%(deprecation_ref)s) pour plus d'informations.");
("This is a CORS preflight request.",
 "Ce requête est un pre-vol CORS.");
("This is a CORS preflight response.",
 "Ceci est une réponse de pré-vol CORS.");
("This is a Cross-Origin Resource Sharing (CORS) preflight request.

A preflight request uses the `OPTIONS` method and includes an `Origin` and `Access-Control-Request-Method`
header.",
 "Ce sont des requêtes CORS (Cross-Origin Resource Sharing) prévol. 

Une requête prévol utilise la méthode `OPTIONS` et inclut les en-têtes `Origin` et `Access-Control-Request-Method`.");
("This is a Cross-Origin Resource Sharing (CORS) preflight response.

It is a response to an `OPTIONS` request that includes an `Origin` and `Access-Control-Request-Method`
header.",
 "Cette réponse est un prévol de partage de ressources inter-origines (CORS).

Elle est une réponse à une requête `OPTIONS` qui inclut un en-tête `Origin` et `Access-Control-Request-Method`.");
("This isn't a valid URI. See
[RFC3986](http://www.ietf.org/rfc/rfc3986.txt) for more information.",
 "Ce n'est pas une URI valide. Voir
[RFC3986](http://www.ietf.org/rfc/rfc3986.txt) pour plus d'informations.");
("This isn't a valid status code; it needs to be an ASCII integer.",
 "Ce n'est pas un code d'état valide ; il doit s'agir d'un entier ASCII.");
("This message had parameters on its transfer-codings.",
 "Ce message avait des paramètres sur ses transfer-codings.");
("This message was compressed using Brotli, but the data was corrupt.",
 "Ce message a été compressé avec Brotli, mais les données sont corrompues.");
("This message was compressed using GZip, but the data was corrupt.",
 "Ce message a été compressé par GZip, mais les données étaient corrompues.");
("This message was compressed, but the GZIP header wasn't valid.",
 "Ce message a été compressé, mais l'en-tête GZIP n'était pas valide.");
("This request advertises a dictionary for compression, but the client doesn't support it.",
 "Cette requête annonce une compression de dictionnaire, mais le client ne la prend pas en charge.");
("This resource varies in %(vary_count)s ways.",
 "Cette ressource varie de %(vary_count)s manières.");
("This response advertises support for non-standard range-units.",
 "Cette réponse annonce la prise en charge d'unités de plage non-standards.");
("This response allows all caches to store it.",
 "Cette réponse permet à tous les caches de la stocker.");
("This response allows caches to assign their own freshness lifetimes to it.",
 "Cette réponse permet aux caches de lui attribuer leurs propres durées de vie de fraîcheur.");
("This response allows loading cross-origin resources without restriction%(report_only)s.",
 "Cette réponse permet le chargement sans restriction de ressources inter-origines%(report_only)s.");
("This response allows only private caches to store it.",
 "Cette réponse autorise uniquement les caches privés à la stocker.");
("This response allows only shared caches to store it.",
 "Cette réponse permet uniquement aux caches partagés de la stocker.");
("This response allows sharing the browsing context with cross-origin documents%(report_only)s.",
 "Cette réponse permet de partager le contexte de navigation avec des documents cross-origin%(report_only)s.");
("This response can be served stale from a cache while it is being revalidated.",
 "Cette réponse peut être servie périmée depuis un cache pendant qu'elle est en cours de revalidation.");
("This response can be stored by all caches, even though the request was authenticated.",
 "Cette réponse peut être stockée par tous les caches, même si la requête a été authentifiée.");
("This response can only be stored by private caches, because the request was authenticated.",
 "Cette réponse ne peut être stockée que par des caches privés, car la requête a été authentifiée.");
("This response can't be stored by caches.",
 "Cette réponse ne peut pas être stockée par les caches.");
("This response cannot be considered fresh by caches.",
 "Cette réponse ne saurait être considérée comme fraîche par les caches.");
("This response cannot be served by a cache now that it is stale.",
 "Cette réponse ne peut pas être servie par un cache maintenant qu'elle est périmée.");
("This response cannot be served by a cache once it becomes stale.",
 "Cette réponse ne peut pas être servie par un cache une fois qu'elle est périmée.");
("This response cannot be served by a shared cache now that it is stale.",
 "Cette réponse ne peut pas être servie par un cache partagé maintenant qu'elle est périmée.");
("This response cannot be served by a shared cache once it becomes stale.",
 "Cette réponse ne peut pas être servie par un cache partagé une fois qu'elle devient périmée.");
("This response cannot be served from cache without validation, and doesn't have a validator.",
 "Cette réponse ne peut pas être servie du cache sans validation, et n'a pas de validateur.");
("This response cannot be served from cache without validation.",
 "Cette réponse ne peut pas être servie du cache sans validation.");
("This response cannot be stored by caches.",
 "Cette réponse ne peut pas être mise en cache par les caches.");
("This response contains both the `public` and `private` Cache-Control directives.",
 "Cette réponse contient à la fois les directives Cache-Control `public` et `private`.");
("This response doesn't have a Date header.",
 "Cette réponse n'a pas de Date header.");
("This response doesn't have explicit freshness information (like a ` Cache-Control: max-age`
directive, or `Expires` header), and this status code doesn't allow caches to calculate their own.

Additionally, its status code doesn't allow caches to assign their own freshness lifetimes to it.

Therefore, while caches might be allowed to store it, they generally can't use it, unless it can be
served stale.

As a result, many caches will not store the response at all, because it is not generally useful to do
so.",
 "Cette réponse ne contient pas d'informations explicites sur la fraîcheur (comme une directive `Cache-Control: max-age`, ou un en-tête `Expires`), et ce code de statut ne permet pas aux caches de calculer la leur.

De plus, son code de statut ne permet pas aux caches de lui attribuer leurs propres durées de fraîcheur.

Par conséquent, bien que les caches puissent être autorisés à la stocker, ils ne peuvent généralement pas l'utiliser, à moins qu'elle puisse être servie périmée.

En conséquence, de nombreux caches ne stockeront pas du tout la réponse, car il n'est généralement pas utile de le faire.");
("This response has a Set-Cookie header without a cookie-name.",
 "Cette réponse a un en-tête Set-Cookie sans cookie-name.");
("This response has already been cached for %(age)s.",
 "Cette réponse a déjà été mise en cache depuis %(age)s.");
("This response has an Expires or Last-Modified header, but no Date.",
 "Cette réponse comporte un en-tête Expires ou Last-Modified, mais pas de Date.");
("This response has both enforcing and report-only COEP headers.",
 "Cette réponse a à la fois des en-têtes COEP d'application et de rapport d'erreurs.");
("This response has both enforcing and report-only COOP headers.",
 "Cette réponse a à la fois des en-têtes COOP d'application et de rapport d'erreurs.");
("This response has different freshness lifetimes for private (e.g., browser) and shared (e.g., proxy)
caches.

Private caches can consider it fresh for %(fresh_lifetime)s (until %(fresh_left)s from
now).

Shared caches can consider it fresh for %(share_lifetime)s (until %(share_left)s from now).",
 "Cette réponse a différentes durées de fraîcheur pour les caches privés (par exemple, un navigateur) et partagés (par exemple, un proxy).

Les caches privés peuvent la considérer comme fraîche pendant %(fresh_lifetime)s (jusqu'à %(fresh_left)s à partir de maintenant).

Les caches partagés peuvent la considérer comme fraîche pendant %(share_lifetime)s (jusqu'à %(share_left)s à partir de maintenant).");
("This response instructs browsers not to 'sniff' its media type.",
 "Cette réponse indique aux navigateurs de ne pas 'deviner' son type de média.");
("This response is %(private_status)s for %(fresh_left)s (%(shared_status)s for %(share_left)s in shared caches).",
 "Cette réponse est %(private_status)s pendant %(fresh_left)s (%(shared_status)s pendant %(share_left)s dans les caches partagés).");
("This response is available for reading to requests from all origins.",
 "Cette réponse est disponible pour être lue par les requêtes provenant de toutes les origines.");
("This response is available for reading to requests from the same site.",
 "Cette réponse est consultable pour les requêtes provenant du même site.");
("This response is compressed with a dictionary,but is missing Vary: Available-Dictionary.",
 "Cette réponse est compressée avec un dictionnaire, mais manque Vary: Available-Dictionary.");
("This response is fresh for %(freshness_left)s.",
 "Cette réponse est fraîche pendant %(freshness_left)s.");
("This response is only available for reading to requests from the same origin.",
 "Cette réponse n'est disponible en lecture que pour les requêtes de la même origine.");
("This response is partial, but doesn't have a Content-Range header.",
 "Cette réponse est partielle, mais n'a pas d'en-tête Content-Range.");
("This response is stale.",
 "Cette réponse est périmée.");
("This response isolates the browsing context but allows popups%(report_only)s.",
 "Cette réponse isole le contexte de navigation mais autorise les fenêtres contextuelles%(report_only)s.");
("This response isolates the browsing context to the same origin%(report_only)s.",
 "Cette réponse isole le contexte de navigation à la même origine%(report_only)s.");
("This response loads cross-origin resources without credentials%(report_only)s.",
 "Cette réponse charge des ressources inter-origines sans informations d'identification%(report_only)s.");
("This response may be refreshed in the background by Internet Explorer.",
 "Cette réponse peut être rafraîchie en arrière-plan par Internet Explorer.");
("This response prevents some browsers from rendering it within a frame on another site.",
 "Cette réponse empêche certains navigateurs de l'afficher dans un cadre sur un autre site.");
("This response prevents some browsers from rendering it within a frame.",
 "Cette réponse empêche certains navigateurs de l'afficher dans un cadre.");
("This response requires resources to have a CORP header%(report_only)s.",
 "Cette réponse nécessite que les ressources aient un en-tête CORP%(report_only)s.");
("This response sets a Content Security Policy%(report_only)s.",
 "Cette réponse définit une Content Security Policy%(report_only)s.");
("This response sets a Permissions Policy.",
 "Cette réponse définit une politique de permissions.");
("This response sets duplicate cookies.",
 "Cette réponse définit des cookies dupliqués.");
("This response shouldn't have a Content-Range header.",
 "Cette réponse ne devrait pas avoir d'en-tête Content-Range.");
("This response targets cache directives to Content Delivery Networks.",
 "Cette réponse cible les directives de cache pour les réseaux de diffusion de contenu.");
("This response uses the '%(coding)s' content-coding, but it wasn't requested.",
 "Cette réponse utilise le codage de contenu « %(coding)s », mais cela n'a pas été demandé.");
("This response uses the '%(coding)s' transfer-coding, but it wasn't requested.",
 "Cette réponse utilise le transfert-codage « %(coding)s », mais n'a pas été demandé.");
("This response's %(field_name)s has an invalid value.",
 "Le %(field_name)s de cette réponse contient une valeur invalide.");
("This response's Referrer-Policy allows unsafe URLs.",
 "La Referrer-Policy de cette réponse autorise les URL non sécurisées.");
("This response's Strict Transport Security (HSTS) header is invalid.",
 "L'en-tête Strict Transport Security (HSTS) de cette réponse est invalide.");
("This response's `Content-Encoding` header indicates it has the `%(coding)s content-coding applied
, but the client didn't indicate support for it in the request.

Normally, clients ask for the encodings they want in the `Accept-Encoding` request header. Using
encodings that the client doesn't explicitly request can lead to interoperability problems.",
 "Cette réponse indique dans son en-tête `Content-Encoding` qu'elle utilise le `%(coding)s content-coding`, mais le client n'a pas indiqué son support dans la requête.

En général, les clients demandent les encodages qu'ils souhaitent dans l'en-tête de requête `Accept-Encoding`. L'utilisation d'encodages qui ne sont pas explicitement demandés par le client peut entraîner des problèmes d'interopérabilité.");
("This response's `Transfer-Encoding` header indicates it has the `%(coding)s` transfer-coding applied,
but the client didn't indicate support for it in the request.

Normally, clients ask for the encodings they want in the `TE` request header. Using codings that
the client doesn't explicitly request can lead to interoperability problems.",
 "Cette réponse indique dans son en-tête `Transfer-Encoding` qu'elle utilise le `%(coding)s` de transfert, mais le client n'a pas indiqué son support dans la requête.

En général, les clients demandent les codages qu'ils souhaitent dans l'en-tête `TE` de la requête. L'utilisation de codages que le client n'a pas explicitement demandés peut entraîner des problèmes d'interopérabilité.");
("This site has attempted to enable HTTP Strict Transport Security (HSTS), which tells the browser to only
communicate with it over a secure connection.

However, one or more issues prevent it from being valid. See the child notes for details.",
 "Ce site a tenté d'activer le HTTP Strict Transport Security (HSTS), qui indique au navigateur de ne communiquer avec lui que via une connexion sécurisée.

Cependant, un ou plusieurs problèmes l'empêchent d'être valide. Voir les notes enfants pour plus de détails.");
("This site has enabled HTTP Strict Transport Security (HSTS), which tells the browser to only
communicate with it over a secure connection.",
 "Ce site a activé le HTTP Strict Transport Security (HSTS), qui indique au navigateur de ne communiquer avec lui que via une connexion sécurisée.");
("This status code doesn't define any meaning for the Location header.",
 "Ce code d'état ne définit pas de signification pour l'en-tête Location.");
("This value must be %(expected_type)s.",
 "Ce valeur doit être %(expected_type)s.");
("Transparent Content Negotiation is not widely supported.",
 "La négociation de contenu transparente n'est pas largement prise en charge.");
("Unsafe script evaluation is allowed.",
 "L'évaluation de script non sécurisée est autorisée.");
("Using `unsafe-url` in `Referrer-Policy` means that the full URL (including query parameters) will
be sent as a referrer to all origins, including those that are not secure (HTTP). This can leak
sensitive information.",
 "Utiliser `unsafe-url` dans `Referrer-Policy` signifie que l'URL complète (y compris les paramètres de requête) sera envoyée comme référent à toutes les origines, y compris celles qui ne sont pas sécurisées (HTTP). Cela peut divulguer des informations sensibles.");
("Usually, responses to authenticated requests can't be stored by shared caches. However, because
This response contains a `Cache-Control: %(directive)s` directive, it can be stored by all caches,
including shared caches (like those in proxies).",
 "Habituellement, les réponses aux requêtes authentifiées ne peuvent pas être stockées par les caches partagés. Cependant, parce que cette réponse contient une directive `Cache-Control: %(directive)s`, elle peut être stockée par tous les caches, y compris les caches partagés (tels que ceux des proxies).");
("Validation",
 "Validation");
("Values in the `Clear-Site-Data` header must be quoted; unquoted values will be ignored. 

The following values were found unquoted: %(values)s.",
 "Les valeurs dans l'en-tête « Clear-Site-Data » doivent être entre guillemets ; les valeurs non entre guillemets seront ignorées. 

Les valeurs suivantes n'étaient pas entre guillemets : %(values)s.");
("Vary: * effectively makes this response uncacheable.",
 "Vary: * rend effectivement cette réponse impossible à mettre en cache.");
("Vary: Host is not necessary.",
 "Vary: Host n'est pas nécessaire.");
("Vary: User-Agent can cause cache inefficiency.",
 "Vary: User-Agent peut entraîner une inefficacité du cache.");
("When a response doesn't have explicit freshness information (like a `Cache-Control: max-age`
directive, or `Expires` header), caches are allowed to estimate how fresh it is using a heuristic
(provided that the status code allows it).

Caches often do this using the `Last-Modified` header. For example, if a response was last modified a
week ago, a cache might consider it fresh for a day.

Consider adding a `Cache-Control: max-age` header; otherwise, it may be cached for longer or shorter
than you'd like.",
 "Lorsqu'une réponse n'a pas d'informations explicites sur sa fraîcheur (comme une directive `Cache-Control: max-age`, ou un en-tête `Expires`), les caches sont autorisés à estimer sa fraîcheur en utilisant une heuristique (à condition que le `status code` le permette).

Les caches font souvent cela en utilisant l'en-tête `Last-Modified`. Par exemple, si une réponse a été modifiée pour la dernière fois il y a une semaine, un cache pourrait la considérer comme fraîche pendant un jour.

Envisagez d'ajouter un en-tête `Cache-Control: max-age`; sinon, elle pourrait être mise en cache plus longtemps ou moins longtemps que vous ne le souhaiteriez.");
("When a status code is deprecated, it should not be used, because its meaning is not well-defined
enough to ensure interoperability.",
 "Lorsqu'un code d'état est obsolète, il ne doit pas être utilisé, car sa signification n'est pas assez bien définie pour garantir l'interopérabilité.");
("While caches can store many kinds of response as being heuristically cacheable -- that is,
they can store them without explicit caching directives like Cache-Control:max-age, this
reponse's status code is not defined as being heuristically cacheable, and other directives
that would allow it to be stored (such as Cache-Control: public) are not present.

Note that a cache extension might override this behaviour.",
 "Bien que les caches puissent stocker de nombreux types de réponses comme étant cachables heuristiquement -- c'est-à-dire, qu'ils peuvent les stocker sans directives de mise en cache explicites comme Cache-Control:max-age, le code de statut de cette réponse n'est pas défini comme étant cachable heuristiquement, et d'autres directives qui permettraient de la stocker (telles que Cache-Control: public) ne sont pas présentes.

Notez qu'une extension de cache pourrait outrepasser ce comportement.");
("Without a `preload` directive, browsers may make an unencrypted request when first accessing the
site, potentially exposing sensitive information.

See the [HSTS Preload List](https://hstspreload.org/) for more information.
",
 "Sans directive `preload`, les navigateurs peuvent effectuer une requête non chiffrée lors du premier accès au site, exposant potentiellement des informations sensibles.

Consultez la [liste de préchargement HSTS](https://hstspreload.org/) pour plus d'informations.");
("X-Content-Type-Options contains an unknown value.",
 "X-Content-Type-Options contient une valeur inconnue.");
("[Content Security Policy](https://www.w3.org/TR/CSP3/) allows the server to declare
the sources of content that browsers are allowed to use on a page.%(report_only_text)s",
 "[Content Security Policy](https://www.w3.org/TR/CSP3/) permet au serveur de déclarer
les sources de contenu que les navigateurs sont autorisés à utiliser sur une page.%(report_only_text)s");
("`%(value)s` is not a valid in the `Cross-Origin-Resource-Policy` header;
it must be one of `same-origin`, `same-site`, or `cross-origin`.
",
 "« %(value)s » n'est pas une valeur valide pour l'en-tête « Cross-Origin-Resource-Policy » ; il doit être « same-origin », « same-site » ou « cross-origin ».");
("`Cache-Control: public` and `Cache-Control: private` conflict; they should not occur on the same message.

Conservative caches will ignore `public` and honor `private`, but this cannot be relied upon.",
 "`Cache-Control: public` et `Cache-Control: private` sont en conflit ; ils ne devraient pas apparaître sur le même message.

Les caches conservateurs ignoreront `public` et respecteront `private`, mais on ne peut pas s'y fier.");
("`Content-Length` is used by HTTP to delimit messages; that is, to mark the end of one message and
the beginning of the next.",
 "`Content-Length` est utilisé par HTTP pour délimiter les messages ; c'est-à-dire, pour marquer la fin d'un message et le début du suivant.");
("`Content-Length` is used by HTTP to delimit messages; that is, to mark the end of one message and
the beginning of the next. An incorrect `Content-Length` can cause security and interoperability
issues.

The actual content size was %(content_length)s bytes.",
 "`Content-Length` est utilisé par HTTP pour délimiter les messages ; c'est-à-dire pour marquer la fin d'un message et le début du suivant. Un `Content-Length` incorrect peut causer des problèmes de sécurité et d'interopérabilité.

La taille réelle du contenu était de %(content_length)s octets.");
("`Location` was originally specified to contain an absolute, not relative, URI.

It is in the process of being updated, and most clients will work around this.

The correct absolute URI is (probably): `%(full_uri)s`",
 "`Location` était à l'origine spécifié pour contenir un URI absolu, et non relatif.

Il est en cours de mise à jour, et la plupart des clients s'en accommoderont.

L'URI absolu correct est (probablement) : `%(full_uri)s`");
("`Vary *` indicates that responses for this resource vary by some aspect that can't (or won't) be
described by the server. This makes this response effectively uncacheable.",
 "`Vary *` indique que les réponses pour cette ressource varient selon un aspect qui ne peut pas (ou ne sera pas) décrit par le serveur. Cela rend cette réponse effectivement incachable.");
("ahead",
 "en avance");
("behind",
 "derrière");
("cache directive names are case-insensitive, but some implementations don't
recognize directives that aren't all-lowercase.

Therefore, it's safest to use `%(directive_lower)s` instead of `%(directive)s`.",
 "les noms de directives de cache ne tiennent pas compte de la casse, mais certaines implémentations ne
reconnaissent pas les directives qui ne sont pas toutes en minuscules.

Par conséquent, il est plus sûr d'utiliser `%(directive_lower)s` au lieu de `%(directive)s`.");
("header",
 "en-tête");
("message",
 "message");
("request",
 "requête");
("response",
 "réponse");
("trailer",
 "trajet")].
