{"id": "C01", "title": "Most specific route wins", "statement": "Whatever order routes are written in the configuration, a request whose URI is matched by several routes is served by one with the greatest configured path length among those that match; no matching route with a strictly longer path is passed over.", "quantifier": "every configuration accepted at boot (any number of routes, any order, any behaviour of an unstable sort on ties) and every request URI", "why_tests_cant": "The number of route orders and URIs is unbounded and the standard sort is unstable, so a test exercises one order of ties only.", "anchors": ["config.go:validateRoutes", "route.go:Routes.Less", "proxyhandler.go:proxyHandler"]}
{"id": "C02", "title": "Literal route paths are prefix matches, and nothing else is routed", "statement": "For a route whose path has no regular-expression metacharacters and starts with a slash, the route matches a request exactly when the raw request URI starts with that path. A request matched by no route gets 404 and no upstream server is contacted.", "quantifier": "every literal path, every request URI, every configuration", "why_tests_cant": "Paths and URIs are arbitrary strings.", "anchors": ["route.go:matchURI", "config.go:compileRoutePaths", "proxyhandler.go:proxyHandler"]}
{"id": "C03", "title": "Leading slash in a route path is optional", "statement": "A route configured as 'todos' serves the same requests as one configured as '/todos', as the boot code that prepends the slash intends.", "quantifier": "every route path without a leading slash and every request URI", "why_tests_cant": "Concerns the order of two boot passes over all paths and all URIs.", "anchors": ["config.go:validateRoutes", "config.go:compileRoutePaths", "server.go:BootStrap"]}
{"id": "C04", "title": "Regular-expression routes are anchored at the start of the URI", "statement": "A route path used as a regular expression matches a request only if some prefix of the request URI matches the path; text in the middle of the URI or the query string never selects the route.", "quantifier": "every regular-expression path, every request URI", "why_tests_cant": "Quantifies over all patterns and all URIs.", "anchors": ["config.go:compileRoutePaths", "route.go:matchURI"]}
{"id": "C05", "title": "Boot fills in defaults and keeps explicit settings", "statement": "After boot every connection parameter that was left out (zero) has its documented default, every non-zero parameter given in the configuration is unchanged (mode is only upper-cased), and running the default passes again changes nothing.", "quantifier": "every connection configuration", "why_tests_cant": "All combinations of set and unset numeric parameters, including negative ones.", "anchors": ["config.go:setDefaultDownstreamParams", "config.go:setDefaultUpstreamParams", "config.go:isTLSMode"]}
{"id": "C06", "title": "Invalid configurations never reach the serving state", "statement": "The server only starts serving if every route path compiles, every route transform is empty or starts with a slash, every jwt named by a route is defined, and every jwt definition validates; otherwise it exits.", "quantifier": "every configuration", "why_tests_cant": "Unbounded space of configurations.", "anchors": ["server.go:BootStrap", "config.go:validateRoutes", "config.go:compileRouteTransforms", "config.go:validateJwt"]}
{"id": "C07", "title": "Configuration source precedence", "statement": "An explicit -c file wins over the J8ACFG_YML environment variable, which wins over the default file; a source that yields no routes makes the server exit and is never silently replaced by a lower-priority one.", "quantifier": "every combination of sources and contents", "why_tests_cant": "Combinatorial over presence and content of the sources.", "anchors": ["config.go:load"]}
{"id": "C08", "title": "Upstream schemes are normalised", "statement": "After boot every resource URL scheme that was empty or contains 'http' is exactly 'http' or 'https', it is 'https' exactly when the configured text contains 'https', and normalising twice changes nothing.", "quantifier": "every resource map and scheme string", "why_tests_cant": "Arbitrary strings.", "anchors": ["config.go:reApplyResourceSchemes"]}
{"id": "C09", "title": "Policies written in the configuration are the ones used", "statement": "Boot adds a 'default' policy with one label 'default' of weight 1 and leaves every policy the user configured as it was.", "quantifier": "every policy map", "why_tests_cant": "All policy names, including the reserved one.", "anchors": ["config.go:addDefaultPolicy"]}
{"id": "C10", "title": "Traffic is split in proportion to the configured weights", "statement": "For a policy whose weights sum to 1, over all equally likely dice values, the share of requests that resolve to a label is exactly the total weight configured for that label, independently of the order in which the labels are configured.", "quantifier": "every policy (any number of labels, repeated labels, any order) and all dice outcomes", "why_tests_cant": "A statistical test samples a few thousand dice for one policy with a tolerance.", "anchors": ["policy.go:resolveLabel"]}
{"id": "C11", "title": "A fully weighted policy always yields one of its own labels", "statement": "If the weights of a policy sum to at least 1 every dice value resolves to a label that is in the policy and has a positive weight; the fallback label 'default' is returned only when the dice is not below the sum of the weights.", "quantifier": "every policy with non-negative weights and every dice in [0,1)", "why_tests_cant": "All dice values; floating point rounding of sums.", "anchors": ["policy.go:resolveLabel"]}
{"id": "C12", "title": "Serving requests never changes a policy", "statement": "However many requests are served, and however they interleave, every policy keeps the same labels and weights it was configured with.", "quantifier": "every interleaving of concurrent requests", "why_tests_cant": "Needs a particular interleaving of two in-place sorts of a shared slice.", "anchors": ["policy.go:resolveLabel", "policy.go:Policy.Swap", "route.go:mapURL"]}
{"id": "C13", "title": "Load-balancing choices do not depend on unrelated requests", "statement": "The label chosen for a request is drawn independently of other traffic: serving error responses or the about page does not make the next choices repeat.", "quantifier": "every history of requests within a second", "why_tests_cant": "Depends on histories mixing reseeding with policy choices.", "anchors": ["responses.go:randomHuttese", "policy.go:resolveLabel"]}
{"id": "C14", "title": "A mapped request goes to a server of its own resource", "statement": "A request on a route is sent to a URL listed under the resource of that route: without a policy the first one, with a policy the first one carrying the chosen label. If there is none the client gets 503 and no upstream is contacted.", "quantifier": "every resource map, policy, dice value and route", "why_tests_cant": "Arbitrary configurations.", "anchors": ["route.go:mapURL", "proxyhandler.go:proxyHandler"]}
{"id": "C15", "title": "Without a transform the URI is forwarded unchanged", "statement": "On a route without transform, the upstream URL is scheme://host:port of the mapped server followed by exactly the path and query the client sent.", "quantifier": "every route, server and request URI", "why_tests_cant": "Arbitrary strings.", "anchors": ["proxy.go:resolveUpstreamURI", "upstream.go:URL.String"]}
{"id": "C16", "title": "A transform rewrites the matched path prefix and nothing else", "statement": "On a route with a transform, the upstream URI is the transform (or nothing, for '/') followed by what the client sent after the route path; later occurrences of the path, and the query string, are untouched.", "quantifier": "every route path, transform and matching request URI", "why_tests_cant": "Arbitrary strings; includes paths that are regular expressions.", "anchors": ["proxy.go:resolveUpstreamURI"]}
{"id": "C17", "title": "A client cannot steer a request to another host", "statement": "Whatever URI a client sends, the host and port of the upstream URL are those of the configured server.", "quantifier": "every request URI, including adversarial ones, every transform", "why_tests_cant": "Adversarial strings such as '@' directly after the route path.", "anchors": ["proxy.go:resolveUpstreamURI", "proxyhandler.go:scaffoldUpstreamRequest"]}
{"id": "C18", "title": "Request bodies over the limit are rejected with 413", "statement": "A request whose body is larger than maxBodyBytes is answered 413 and never forwarded upstream; a request whose body is at most maxBodyBytes is not rejected for its size.", "quantifier": "every body, every declared or undeclared content length, every limit", "why_tests_cant": "Boundary and transfer-encoding combinations.", "anchors": ["proxy.go:parseRequestBody", "proxyhandler.go:validate"]}
{"id": "C19", "title": "The upstream receives exactly the body the client sent, on every attempt", "statement": "Each upstream attempt carries the complete request body that was read from the client, byte for byte, including after retries.", "quantifier": "every body and number of attempts", "why_tests_cant": "Any body and any sequence of failures.", "anchors": ["proxy.go:bodyReader", "proxy.go:parseRequestBody", "proxyhandler.go:scaffoldUpstreamRequest"]}
{"id": "C20", "title": "Only known methods are proxied", "statement": "A request whose method, upper-cased, is not one of GET HEAD OPTIONS TRACE PUT DELETE POST CONNECT gets 400 and no upstream is contacted.", "quantifier": "every method string", "why_tests_cant": "Arbitrary method tokens.", "anchors": ["proxy.go:hasLegalHTTPMethod", "proxyhandler.go:proxyHandler"]}
{"id": "C21", "title": "Retries are bounded and only for repeatable methods", "statement": "A request causes at most max(1, maxAttempts) upstream attempts, and exactly one at most unless its method is GET, HEAD, OPTIONS, TRACE, PUT or DELETE, for every interleaving of timeouts and upstream behaviour.", "quantifier": "every schedule of upstream responses, errors, timers and goroutines", "why_tests_cant": "Unbounded schedules.", "anchors": ["proxy.go:shouldRetryUpstreamAttempt", "proxyhandler.go:handle"]}
{"id": "C22", "title": "Request headers reach the upstream unchanged", "statement": "Every request header other than Date, Content-Length, Transfer-Encoding, Server and X-Request-Id reaches the upstream with the same values in the same order; those four never do.", "quantifier": "every header multimap", "why_tests_cant": "Arbitrary headers.", "anchors": ["proxyhandler.go:scaffoldUpstreamRequest", "proxyhandler.go:shouldProxyHeader"]}
{"id": "C23", "title": "One X-Request-Id per request, end to end", "statement": "The id is the client's own X-Request-Id if it sent a non-empty one and a generated one otherwise; every upstream attempt carries it as its only X-Request-Id, and the response carries it.", "quantifier": "every request, every outcome", "why_tests_cant": "All request headers and all code paths producing a response.", "anchors": ["proxy.go:createXRequestID", "server.go:writeStandardResponseHeaders", "proxyhandler.go:scaffoldUpstreamRequest"]}
{"id": "C24", "title": "Upstream response headers reach the client", "statement": "On a proxied response every upstream header other than Date, Content-Length, Transfer-Encoding, Server (and Content-Encoding, which is recomputed) reaches the client with the same values in order; the Server header is the proxy's own and is the only one.", "quantifier": "every upstream header multimap", "why_tests_cant": "Arbitrary headers.", "anchors": ["proxy.go:copyUpstreamResponseHeaders", "server.go:writeStandardResponseHeaders"]}
{"id": "C25", "title": "Every request is answered exactly once", "statement": "For every interleaving, a request gets exactly one response (one status line), never two.", "quantifier": "every schedule", "why_tests_cant": "Unbounded schedules of goroutines and timers.", "anchors": ["proxyhandler.go:handle", "proxyhandler.go:processUpstreamResponse"]}
{"id": "C26", "title": "The client sees the upstream status, or 502/504", "statement": "The status of a response to a request that was sent upstream is the status of an upstream response below 500, or 502, or 504.", "quantifier": "every schedule and upstream behaviour", "why_tests_cant": "Unbounded schedules.", "anchors": ["proxyhandler.go:processUpstreamResponse", "proxyhandler.go:handle"]}
{"id": "C27", "title": "Status, headers and body come from the same upstream attempt", "statement": "A proxied response never mixes the status code of one attempt with the headers or body (or compression state) of another.", "quantifier": "every schedule with retries", "why_tests_cant": "Needs a late goroutine of an abandoned attempt.", "anchors": ["proxyhandler.go:performUpstreamRequest", "proxyhandler.go:parseUpstreamResponse"]}
{"id": "C28", "title": "No schedule makes the handler crash", "statement": "No interleaving of upstream answers, cancellations and timers makes the request handler panic (dropping the connection without a response).", "quantifier": "every schedule", "why_tests_cant": "Needs a particular late write.", "anchors": ["proxyhandler.go:performUpstreamRequest", "proxyhandler.go:shouldProxyUpstreamResponse"]}
{"id": "C29", "title": "The client decodes the same content the upstream sent", "statement": "Decoding the response body according to its Content-Encoding gives the same content as decoding the upstream body according to the upstream Content-Encoding, whether or not the client accepts gzip.", "quantifier": "every body, every honest upstream encoding, both client preferences", "why_tests_cant": "All bodies; gzip detection by magic bytes.", "anchors": ["proxy.go:encodeUpstreamResponseBody", "proxy.go:contentEncoding", "proxy.go:writeContentEncodingHeader", "proxyhandler.go:parseUpstreamResponse"]}
{"id": "C30", "title": "Content-Length tells the truth", "statement": "For proxied responses other than to HEAD and CONNECT and other than 1xx/204, the Content-Length header equals the number of body bytes written; for HEAD it is the upstream's Content-Length when that is a number and 0 otherwise.", "quantifier": "every proxied response", "why_tests_cant": "All bodies and statuses.", "anchors": ["proxy.go:setContentLengthHeader", "proxy.go:pipeDownstreamResponse"]}
{"id": "C31", "title": "Error responses are readable JSON", "statement": "Every error response produced by the proxy is a JSON document stating the status code and a message, in the encoding its headers announce.", "quantifier": "every error path, every client", "why_tests_cant": "All paths times client encodings.", "anchors": ["server.go:sendStatusCodeAsJSON", "responses.go:AsJSON", "proxy.go:writeContentEncodingHeader"]}
{"id": "C32", "title": "A client that does not accept gzip never gets gzip from the proxy", "statement": "If the Accept-Encoding header does not allow gzip the body is not gzip-compressed by the proxy and gzip upstream bodies are decompressed.", "quantifier": "every Accept-Encoding value and upstream body", "why_tests_cant": "Arbitrary header values (q-values).", "anchors": ["proxy.go:parseIncoming", "proxy.go:shouldGzipDecodeResponseBody", "proxy.go:shouldGzipEncodeResponseBody"]}
{"id": "C33", "title": "Downstream round-trip timeout yields 504", "statement": "If the downstream round-trip timer fires before the proxy has committed to an upstream response, the client gets 504, at most one more upstream attempt is started, and no upstream response is proxied.", "quantifier": "every schedule", "why_tests_cant": "Timer can fire at any of unboundedly many points.", "anchors": ["proxy.go:hasDownstreamAborted", "proxyhandler.go:handle", "proxyhandler.go:performUpstreamRequest"]}
{"id": "C34", "title": "Upstream timeouts are retried like other failures, then 504", "statement": "If the last permitted attempt times out upstream the client gets 504; if it fails otherwise (error or status >= 500) without any timeout the client gets 502.", "quantifier": "every schedule", "why_tests_cant": "Unbounded schedules.", "anchors": ["proxyhandler.go:handle", "proxy.go:hasUpstreamAttemptAborted"]}
{"id": "C35", "title": "A request never hangs", "statement": "From every reachable state the request can be answered using only timer expiries and the handler's own steps, and the handler makes a bounded number of steps in any run, whatever upstream servers do.", "quantifier": "every schedule", "why_tests_cant": "Liveness over unbounded schedules.", "anchors": ["proxyhandler.go:performUpstreamRequest", "proxyhandler.go:parseUpstreamResponse", "proxyhandler.go:handle"]}
{"id": "C36", "title": "No upstream attempt is left running after the response", "statement": "When the response is sent every upstream attempt has either delivered its complete outcome or has had its context cancelled.", "quantifier": "every schedule", "why_tests_cant": "Unbounded schedules.", "anchors": ["proxy.go:abortAllUpstreamAttempts", "proxyhandler.go:parseUpstreamResponse"]}
{"id": "C37", "title": "The proxy's own 504 beats the server write timeout", "statement": "The server's write timeout is strictly longer than the round-trip timeout, so the 504 of a timed-out request can still be written.", "quantifier": "every configured timeout that does not overflow", "why_tests_cant": "Arithmetic over all values.", "anchors": ["server.go:startListening", "config.go:getDownstreamRoundTripTimeoutDuration"]}
{"id": "C38", "title": "Upstream 4xx is replaced by a JSON error of the same code", "statement": "An upstream response with status 400..499 gives the client that status with the proxy's JSON body naming the standard message for the code; upstream body and headers are not forwarded.", "quantifier": "every upstream response", "why_tests_cant": "All headers, bodies and codes.", "anchors": ["proxyhandler.go:isUpstreamClientError", "server.go:sendStatusCodeAsJSON", "responses.go:withCode"]}
{"id": "C39", "title": "A jwt-protected route never contacts the upstream without a valid token", "statement": "If the route selected for a request names a jwt configuration, no upstream attempt is made and the client gets 401 unless the request carries a bearer token that validates against that configuration.", "quantifier": "every request, configuration and token", "why_tests_cant": "All tokens and routes.", "anchors": ["proxyhandler.go:proxyHandler", "proxy.go:validateJwt"]}
{"id": "C40", "title": "A token is accepted exactly when a configured key verifies it and its dates hold", "statement": "With a signature algorithm configured, a well-formed token is accepted if and only if some key of the configured set verifies its signature under the configured algorithm and its date claims hold; the kid header only affects which key is tried first.", "quantifier": "every token, key set, kid", "why_tests_cant": "All key sets and kid collisions.", "anchors": ["proxy.go:verifySignature", "proxy.go:validateJwt"]}
{"id": "C41", "title": "Date claims are checked with the configured skew", "statement": "A token is accepted only if now < exp + skew, now >= iat - skew and now >= nbf - skew, for the claims it has, and a token meeting these is not rejected for its dates.", "quantifier": "every claim value, skew and time", "why_tests_cant": "All integer values, including overflow.", "anchors": ["proxy.go:verifyDateClaims"]}
{"id": "C42", "title": "No algorithm confusion", "statement": "Keys are only ever used with the algorithm configured for their jwt, an unsigned token is accepted only if the configured algorithm is 'none', and the alg header of a token cannot change which key type is used.", "quantifier": "every token and configuration that passes validation", "why_tests_cant": "All tokens.", "anchors": ["proxy.go:validateJwt", "jwt.go:Validate"]}
{"id": "C43", "title": "Malformed tokens are answered 401", "statement": "A request to a protected route whose Authorization header has anything other than a valid token gets a 401 response.", "quantifier": "every Authorization header value", "why_tests_cant": "Arbitrary strings.", "anchors": ["proxy.go:validateJwt", "proxy.go:verifySignature"]}
{"id": "C44", "title": "Key rotation replaces a key published under an existing kid", "statement": "After a JWKS refresh that publishes a new key under a kid already known, tokens signed with the new key are accepted and lookups by that kid give the new key.", "quantifier": "every key set and update history", "why_tests_cant": "Histories of refreshes.", "anchors": ["jwt.go:KeySet.Upsert", "jwt.go:LoadJwks"]}
{"id": "C45", "title": "A refresh only ever adds keys of the configured algorithm", "statement": "Whatever a JWKS endpoint returns, a refresh installs only keys whose algorithm equals the configured one, never installs symmetric secrets, and never removes or reorders keys already installed.", "quantifier": "every JWKS document and history of refreshes", "why_tests_cant": "All documents and histories.", "anchors": ["jwt.go:LoadJwks", "jwt.go:KeySet.Upsert"]}
{"id": "C46", "title": "JWKS refreshes are mutually exclusive and rate limited", "statement": "At any time at most one refresh per jwt is running, and after the initial one two refreshes of the same jwt never start within ten seconds of each other, however many bad tokens arrive.", "quantifier": "every schedule of refresh triggers", "why_tests_cant": "Concurrency and time.", "anchors": ["jwt.go:LoadJwks", "proxy.go:triggerKeyRotationCheck"]}
{"id": "C47", "title": "Every usable key of a JWKS document becomes usable", "statement": "After a successful load every key of the document can verify tokens.", "quantifier": "every JWKS document", "why_tests_cant": "Documents with missing or duplicate kids.", "anchors": ["jwt.go:LoadJwks", "jwt.go:KeySet.Upsert"]}
{"id": "C48", "title": "Jwt definitions are validated", "statement": "A jwt definition is accepted only if it has a name, a known algorithm, key material consistent with it ('none' has no key, others have a key or JWKS URL that yields one) and a skew that is a non-negative number; an omitted skew becomes 120 seconds.", "quantifier": "every jwt definition", "why_tests_cant": "All combinations of fields.", "anchors": ["jwt.go:Validate", "jwt.go:parseKey", "jwt.go:checkECDSABitSize"]}
{"id": "C49", "title": "A jwt on the about route is enforced", "statement": "If the about route names a jwt configuration, the about page is only served to requests with a valid token.", "quantifier": "every configuration and request", "why_tests_cant": "All configurations.", "anchors": ["server.go:mapPathsToHandler", "responses.go:aboutHandler"]}
{"id": "C50", "title": "Logged client addresses come from the message", "statement": "The address extracted from a log message is 'not found' or a substring of the message matching one of the four address patterns, and it is 'not found' only if none of them occurs anywhere in it.", "quantifier": "every message", "why_tests_cant": "Arbitrary messages.", "anchors": ["iprex.go:extractAddr"]}
{"id": "C51", "title": "IPv4 client addresses are logged exactly", "statement": "For every IPv4 address and port, the address extracted from 'a.b.c.d:port' is exactly 'a.b.c.d'.", "quantifier": "all 2^32 addresses and all ports", "why_tests_cant": "2^48 inputs.", "anchors": ["iprex.go:extractAddr"]}
{"id": "C52", "title": "IPv6 client addresses are logged exactly", "statement": "For every valid textual IPv6 address, the address extracted from '[addr]:port' is exactly addr.", "quantifier": "every textual IPv6 address", "why_tests_cant": "Huge input space.", "anchors": ["iprex.go:extractAddr"]}
{"id": "C53", "title": "The certificate that expires first is identified", "statement": "Of a verified chain exactly one certificate is flagged as expiring earliest, no other has a shorter remaining validity, and it is the first such.", "quantifier": "every non-empty chain and current time", "why_tests_cant": "Any chain length and dates.", "anchors": ["tls.go:parseTlsLinks"]}
{"id": "C54", "title": "Certificate serial numbers are printed in full", "statement": "For every certificate serial number the printed form is its hexadecimal digits in pairs separated by dashes.", "quantifier": "every non-negative integer serial", "why_tests_cant": "Unbounded integers.", "anchors": ["tls.go:formatSerial"]}
{"id": "C55", "title": "Expiry warnings are raised in time", "statement": "The periodic certificate check logs at warning level exactly when the earliest remaining validity in the chain is under 30 days.", "quantifier": "every chain and time", "why_tests_cant": "All dates.", "anchors": ["tls.go:logCertStats", "tls.go:tlsHealthCheck"]}
{"id": "C56", "title": "Only self-signed CA certificates in the configured chain become trust roots", "statement": "When verifying its own chain the proxy treats as trust roots exactly the CA certificates of the chain whose issuer name equals their subject name, as intermediates the other CA certificates, and non-CA certificates as neither; without own roots the system roots are used.", "quantifier": "every certificate chain", "why_tests_cant": "Any chain.", "anchors": ["tls.go:splitCertPools", "tls.go:isRoot", "tls.go:verifyOptions"]}
{"id": "C57", "title": "Memory history is bounded and keeps the most recent samples", "statement": "After any number of samples the history holds at most 24, and they are the most recent ones in order.", "quantifier": "every sequence of samples", "why_tests_cant": "Unbounded sequences.", "anchors": ["stats.go:samples.append"]}
{"id": "C58", "title": "Memory growth is flagged exactly when it doubled", "statement": "A sample in the history is flagged high exactly when its resident size is at least twice that of the oldest sample; if any sample is missing nothing is flagged.", "quantifier": "every history", "why_tests_cant": "All values.", "anchors": ["stats.go:samples.log"]}
{"id": "C59", "title": "JSON bodies are well formed and faithful", "statement": "The JSON body of error and about responses parses as a JSON object with keys j8a, ServerID, Version (and Code, Message) carrying exactly the given values. Whatever bytes go in, the body is valid UTF-8 without raw control characters, <, >, & or the line separators U+2028 and U+2029, so it cannot turn into markup or script.", "quantifier": "every message, version and server id", "why_tests_cant": "Escaping of arbitrary strings.", "anchors": ["responses.go:AsJSON"]}
{"id": "C60", "title": "Standard messages for status codes", "statement": "The message for a status code is the registered one if the code is known and 'unspecified response code' otherwise.", "quantifier": "every integer code", "why_tests_cant": "All codes.", "anchors": ["responses.go:withCode"]}
{"id": "C61", "title": "The about page is self-describing", "statement": "The about page is answered 200 with a JSON body in the encoding announced by its headers and a correct Content-Length, for every Accept-Encoding.", "quantifier": "every request to the about page", "why_tests_cant": "Arbitrary header values.", "anchors": ["responses.go:aboutHandler"]}
{"id": "C62", "title": "Hop-by-hop headers are not forwarded", "statement": "Connection-specific header fields (Connection, Keep-Alive, Proxy-Authenticate, Proxy-Authorization, TE, Trailer, Transfer-Encoding, Upgrade) of the client are not forwarded to the upstream.", "quantifier": "every header multimap", "why_tests_cant": "Arbitrary headers.", "anchors": ["proxyhandler.go:shouldProxyHeader"]}
{"id": "C63", "title": "Serving is total: every parsed request ends in a response or an upstream attempt", "statement": "For every configuration accepted at boot and every request, the handler either answers with 400, 401, 404, 413 or 503, or starts an upstream attempt; it does not crash.", "quantifier": "every accepted configuration and request", "why_tests_cant": "All configurations and requests.", "anchors": ["proxyhandler.go:proxyHandler", "route.go:mapURL", "proxy.go:validateJwt", "proxyhandler.go:scaffoldUpstreamRequest"]}
{"id": "C64", "title": "Request path confinement of protected resources", "statement": "If a URI that names a path under a protected route is sent in any equivalent percent-encoded form, it is still handled by the protected route.", "quantifier": "every URI and its percent-encoded variants", "why_tests_cant": "Adversarial encodings.", "anchors": ["route.go:matchURI", "proxyhandler.go:proxyHandler"]}
{"id": "C65", "title": "A JWKS document cannot crash the proxy", "statement": "Whatever document a JWKS endpoint returns, a refresh ends with or without an error; it does not panic (it runs in its own goroutine, where a panic ends the process).", "quantifier": "every JWKS document and jwt definition in use", "why_tests_cant": "Adversarial remote documents.", "anchors": ["jwt.go:LoadJwks", "jwt.go:checkECDSABitSize", "proxy.go:triggerKeyRotationCheck"]}
{"id": "C66", "title": "Reporting memory growth never crashes the process", "statement": "However the hourly sampling and the hourly report interleave, the report ends without a panic, and it reports the rates of the history.", "quantifier": "every interleaving of the two goroutines", "why_tests_cant": "Interleavings of goroutines without a lock.", "anchors": ["stats.go:samples.append", "stats.go:samples.log", "stats.go:logProcStats"]}
{"id": "C67", "title": "No dot segments reach an upstream", "statement": "The decoded path of a request that is proxied has no '.' or '..' segment and no empty segment other than a trailing one.", "quantifier": "every request", "why_tests_cant": "Adversarial encodings of paths.", "anchors": ["server.go:mapPathsToHandler", "proxyhandler.go:proxyHandler"]}
{"id": "C68", "title": "A configuration accepted by validation can be served", "statement": "Every configuration that passes validation at boot yields a server that starts to listen; in particular registering its paths does not panic.", "quantifier": "every accepted configuration", "why_tests_cant": "All configurations.", "anchors": ["server.go:mapPathsToHandler", "config.go:validateRoutes"]}
{"id": "C69", "title": "The about route serves the about page, and only it does", "statement": "A request is answered with the about page exactly when the route selected for it is the about route.", "quantifier": "every configuration and request", "why_tests_cant": "Two independent dispatchers, the mux and the route table, must agree on every URI.", "anchors": ["server.go:mapPathsToHandler", "route.go:matchURI"]}
{"id": "C70", "title": "Clients of a TLS proxy are told to stay with TLS", "statement": "Every response of a proxy in TLS mode, errors and the about page included, has Strict-Transport-Security: max-age=31536000 as its first such header; in other modes the header comes only from an upstream server.", "quantifier": "every configuration, request and schedule", "why_tests_cant": "All kinds of responses on all paths through the proxy.", "anchors": ["server.go:writeStandardResponseHeaders", "config.go:isTLSMode"]}
{"id": "C71", "title": "Every response is logged once, truthfully", "statement": "For every response sent to a client exactly one line is logged, with the status sent, the request id, method, path, HTTP version, user agent, TLS version and address of the request, at warning level exactly for statuses of 400 and above; nothing is logged without a response.", "quantifier": "every configuration, request and schedule of goroutines", "why_tests_cant": "All interleavings of the attempts' goroutines with the handler that logs.", "anchors": ["proxyhandler.go:logHandledDownstreamRoundtrip", "server.go:sendStatusCodeAsJSON", "responses.go:aboutHandler"]}
{"id": "C72", "title": "Errors are logged with the message of their body", "statement": "The line logged for a response with status 400 or above has the message that stands in the JSON document sent to the client.", "quantifier": "every configuration, request and schedule", "why_tests_cant": "All paths to an error and all interleavings.", "anchors": ["server.go:sendStatusCodeAsJSON", "proxyhandler.go:logHandledDownstreamRoundtrip"]}
{"id": "C73", "title": "The content encoding logged is the one sent", "statement": "The content encoding in the line is the Content-Encoding header of the response, and 'identity' if it has none.", "quantifier": "every configuration, request and schedule", "why_tests_cant": "Combinations of encodings, kinds of responses and schedules.", "anchors": ["proxy.go:contentEncoding", "proxyhandler.go:logHandledDownstreamRoundtrip"]}
{"id": "C74", "title": "The upstream attempt logged is the last one made", "statement": "If upstream attempts were made, the line has the URI of the last one, its status, and its number out of the configured maximum; otherwise the line has no upstream part.", "quantifier": "every configuration, request and schedule", "why_tests_cant": "Unbounded numbers of attempts and all interleavings.", "anchors": ["proxyhandler.go:logHandledDownstreamRoundtrip", "proxy.go:hasMadeUpstreamAttempt"]}
{"id": "C75", "title": "The proxy listens exactly if its configuration is usable", "statement": "The process ends up listening exactly if the source with the highest priority yields a configuration with routes, that configuration is valid, its paths can be registered, in TLS mode certificate and key belong together and the certificate verifies and has a DNS name, and the port is free; that configuration is then in use. In no case does it fall back to another source, mode or port.", "quantifier": "every host environment, command line, file system and configuration", "why_tests_cant": "All combinations of sources, configurations and certificate chains.", "anchors": ["server.go:BootStrap", "server.go:startListening", "config.go:load", "cmd/j8a/main.go:main"]}
{"id": "C76", "title": "Listener timeouts are those configured", "statement": "Address, read, header, idle and write timeouts of the listener are the configured seconds, or the defaults if not configured; the write timeout is one second longer than the round-trip timeout.", "quantifier": "every configuration", "why_tests_cant": "All integers, including those that overflow a duration.", "anchors": ["server.go:startListening"]}
{"id": "C77", "title": "TLS mode is honoured and unknown modes are rejected", "statement": "The proxy listens with TLS exactly if the mode is TLS in any letter case, and then with TLS 1.2 or later and the configured, verified certificate; a mode other than HTTP and TLS is an error.", "quantifier": "every configuration and certificate chain", "why_tests_cant": "All modes and chains.", "anchors": ["config.go:isTLSMode", "server.go:tlsConfig", "server.go:startListening"]}
{"id": "C78", "title": "The upstream client is set up as configured", "statement": "Dial and TLS handshake timeouts, idle timeout and pool size of the upstream client are those configured or the defaults; certificates of upstreams go unverified only if the configuration says so.", "quantifier": "every configuration", "why_tests_cant": "All integers, including those that overflow a duration.", "anchors": ["httpclient.go:scaffoldHTTPClient"]}
{"id": "C79", "title": "Keep-alive probes span the idle timeout", "statement": "The keep-alive interval times the number of probes of the operating system is the upstream idle timeout: for timeouts up to 13 days it never exceeds it and falls short by at most a nanosecond for each probe; beyond that up to a relative error of 2^-50.", "quantifier": "every idle timeout up to 272 years, every operating system", "why_tests_cant": "Floating-point rounding for all values.", "anchors": ["httpclient.go:getKeepAliveIntervalDuration", "httpclient.go:getTCPKeepCnt"]}
{"id": "C80", "title": "The server id identifies host and version", "statement": "The server id is eight lower-case hexadecimal digits that depend on host name and version only; what is hashed differs for different pairs of host name and version.", "quantifier": "every host name, version and hash function", "why_tests_cant": "All pairs of names.", "anchors": ["logger.go:initServerID", "logger.go:getHost", "logger.go:getVersion"]}
{"id": "C81", "title": "Lines of error responses are always written", "statement": "At every log level the line of a response with status 400 or above is written; those of other responses are written unless the level is WARN; unknown levels count as INFO.", "quantifier": "every value of LOGLEVEL, every response", "why_tests_cant": "All level names.", "anchors": ["logger.go:initLogger", "proxyhandler.go:logHandledDownstreamRoundtrip"]}
{"id": "C82", "title": "Failed TLS handshakes are logged with the client's address", "statement": "Every handshake error reported by net/http is written as a warning, at every level, with the IP address of the client.", "quantifier": "every IPv4 and IPv6 address and error text", "why_tests_cant": "All addresses and error texts.", "anchors": ["server.go:Write", "iprex.go:extractAddr"]}
{"id": "C83", "title": "Panics while serving a request can be seen", "statement": "If the handler of a request panics, the log says so at the default level.", "quantifier": "every request that makes the handler panic", "why_tests_cant": "Requires every panic path.", "anchors": ["server.go:Write"]}
{"id": "C84", "title": "The key a token names is the one its header says", "statement": "For every token the kid the proxy looks for is the value of the last member kid of the JSON object that is the base64 of its first segment, escapes resolved; a token whose header is no such document, or whose kid is no non-empty text, names none.", "quantifier": "every token", "why_tests_cant": "Adversarial tokens: arbitrary bytes, JSON documents and escapes.", "anchors": ["proxy.go:extractKid"]}
{"id": "C85", "title": "Keys are refreshed exactly when a token names an unknown key", "statement": "A request starts a refresh of the key set exactly if the jwt has a signing algorithm and a JWKS URL and the bearer token is a signed message that names a kid which is not among the known keys.", "quantifier": "every jwt configuration, key set history, token and time", "why_tests_cant": "All tokens and histories of key sets.", "anchors": ["proxy.go:verifyJwtSignature", "proxy.go:triggerKeyRotationCheck", "proxy.go:extractKid"]}
{"id": "C86", "title": "The report about the certificate chain is right", "statement": "For each certificate of the chain the report gives position, serial number, names and remaining validity; it says that the validity is above the 398 days of browsers, with the number of days, exactly if it is, when browsers will stop to accept the certificate, and which certificate expires first.", "quantifier": "every chain and time", "why_tests_cant": "All dates and chains.", "anchors": ["tls.go:logCertStats", "tls.go:printRemainingValidity", "tls.go:AsDays"]}
{"id": "C87", "title": "Tokens open a protected route only with keys published until then", "statement": "At any time in the life of the process, whatever other requests and refreshes are under way, a request on a route with a jwt goes upstream only with a bearer token that is in time and, for a signing algorithm, verifies with a key of the right kind that is configured for that jwt or was in a document fetched for it until then.", "quantifier": "every process that has started, every interleaving of any number of requests and refreshes, every document", "why_tests_cant": "Unbounded histories of requests and documents.", "anchors": ["proxy.go:validateJwt", "proxy.go:verifyJwtSignature", "jwt.go:LoadJwks", "proxyhandler.go:proxyHandler"]}
{"id": "C88", "title": "Refreshes are rare, one at a time, and asked for", "statement": "For each jwt at most one refresh is under way; its lock is taken exactly meanwhile; refreshes begin at least ten seconds apart, however many requests come in; each was asked for by a request of its own, and requests ask for one exactly if they carry a signed token for a route with that jwt that names an unknown kid.", "quantifier": "every process that has started, every interleaving of any number of requests, refreshes and passing time", "why_tests_cant": "Unbounded numbers of concurrent requests.", "anchors": ["jwt.go:LoadJwks", "proxy.go:triggerKeyRotationCheck"]}
{"id": "C89", "title": "After a key rotation tokens with the new key are accepted", "statement": "When a refresh is done with a document, every new key in it is in use, and a request with a token signed with a key in use is not refused for its token; a request refused for its unknown key can be repeated with success after the refresh it started, without any time passing.", "quantifier": "every process that has started, every interleaving, every document", "why_tests_cant": "Depends on the order of requests and refreshes in the whole history.", "anchors": ["jwt.go:LoadJwks", "proxy.go:verifyJwtSignature", "proxy.go:triggerKeyRotationCheck"]}
{"id": "C90", "title": "Requests do not influence each other", "statement": "Whatever other requests and refreshes are under way, a request is served as if it were alone with the key sets of the moment it came in; on a route without jwt its outcome and all states of its run depend on itself and its own steps only.", "quantifier": "every process that has started, every interleaving of any number of requests and refreshes", "why_tests_cant": "All interleavings of any number of requests.", "anchors": ["proxyhandler.go:proxyHandler", "proxy.go:Proxy"]}
{"id": "C91", "title": "Keys withdrawn by their publisher are not accepted any more", "statement": "After a refresh has processed a document, a token signed with a key that is not in it is refused.", "quantifier": "every process that has started, every history of documents", "why_tests_cant": "Depends on the whole history of documents.", "anchors": ["jwt.go:LoadJwks", "jwt.go:KeySet.Upsert"]}
{"id": "C92", "title": "Path expressions are read by the documented syntax", "statement": "A path is accepted as a regular expression exactly if it is one by the documented syntax (sequences, alternatives, groups, sets, shorthands, escapes, counted repetition up to 1000), each accepted text has one meaning, and an expression is found in a text exactly where that meaning says.", "quantifier": "every path and every request URI", "why_tests_cant": "Unboundedly many expressions and texts.", "anchors": ["config.go:compileRoutePaths", "route.go:matchURI"]}
{"id": "C93", "title": "Compressing for one client does not affect another", "statement": "Whatever other calls of Gzip and Gunzip run at the same time, and whichever writers and readers the pools hand out, a call returns what it would return alone; the bytes returned never change afterwards, and no call has to wait for another.", "quantifier": "every number and interleaving of calls, every input, every choice of the pools", "why_tests_cant": "Pooled objects are shared by all requests; only some interleavings would expose a mistake.", "anchors": ["gzip.go:Gzip", "gzip.go:Gunzip"]}
{"id": "C94", "title": "An upstream body that cannot be decoded does not reach the client as valid", "statement": "If an upstream labels a body gzip and it is not valid gzip, say because it is incomplete, the client does not receive a response whose body is valid under its own Content-Encoding.", "quantifier": "every body and client", "why_tests_cant": "All corrupt and truncated bodies.", "anchors": ["gzip.go:Gunzip", "proxy.go:encodeUpstreamResponseBody"]}
{"id": "C95", "title": "Taking process samples goes on and does not end the process", "statement": "Samples are taken one at a time as long as the process runs; no measurement ends the process; the history holds the latest 24 of the keeping goroutine, and the other logs each of its samples.", "quantifier": "every interleaving of both goroutines, every outcome of the measurements", "why_tests_cant": "Failures of the operating system's process interface at any time.", "anchors": ["stats.go:getSample", "stats.go:logProcStats"]}
{"id": "C96", "title": "HEAD declares the length GET would have", "statement": "The response to a HEAD request has the Content-Length that the response to the same GET request has (RFC 7230, 3.3.2), if the upstream server itself answers both with the same headers.", "quantifier": "every request, upstream response, body and schedule", "why_tests_cant": "All combinations of codings, lengths and clients.", "anchors": ["proxy.go:setContentLengthHeader", "proxy.go:encodeUpstreamResponseBody"]}
{"id": "C97", "title": "Responses and log lines do not give away what a request carries", "statement": "The line logged for a response at the levels info and warn, and the response itself, do not depend on the values of headers other than X-Request-Id, User-Agent and Accept-Encoding, nor on the bytes of the request body, nor on the query; a token shows only in whether the request is passed on and with which status it is answered.", "quantifier": "every pair of requests that differ in those parts only, every schedule", "why_tests_cant": "A statement about pairs of runs (noninterference).", "anchors": ["proxyhandler.go:logHandledDownstreamRoundtrip", "proxyhandler.go:proxyHandler", "server.go:sendStatusCodeAsJSON"]}
{"id": "C98", "title": "Bodies of upstream responses are released", "statement": "When the handling of a request is over, the body of every response received for one of its attempts has been closed by the handler, or the context of that attempt has been cancelled because its read timeout or the round trip timeout was over. No body is closed twice, and none without a response.", "quantifier": "for all runs of the handler: all methods, attempt limits, responses, interleavings of goroutines, timers and the handler, including runs that panic", "why_tests_cant": "a leak shows under load only, and depends on when the goroutine of an attempt gets its response relative to the timers", "anchors": "proxyhandler.go:60-90; proxyhandler.go:140-200; proxy.go:120-190"}
{"id": "C99", "title": "Lines about attempts tell what happened", "statement": "The lines logged about the attempts of a request carry its id and the number of an attempt, in order. When the request is over, each attempt has one line that it began and one with its outcome; either one line says that the last attempt succeeded, with the status sent to the client, or one line says that retries stopped and the response is an error of the proxy. The lines leave the process exactly if LOGLEVEL is TRACE, or if it is DEBUG and the request asks for it with X-Request-Debug: true.", "quantifier": "for all runs of the handler (all methods, attempt limits, responses, interleavings) and all values of LOGLEVEL and of the header", "why_tests_cant": "the lines come from many places in the handler and depend on the interleaving with timers and goroutines; tests see few schedules", "anchors": "proxyhandler.go:170-240; proxyhandler.go:293-306; proxyhandler.go:340-360; proxy.go:140-190; proxy.go:300-303; proxy.go:355-390; proxy.go:405-432"}
{"id": "C100", "title": "A configuration is used as written or refused", "statement": "Every setting in the configuration document is used as written, with names in letters of any case; routes are used in order, jwts, policies and resources under their names; a setting that is not there has the value that stands for its default. A document that cannot be used, because it is no YAML, has no routes or has a value of the wrong type for a setting, is refused.", "quantifier": "for all documents: any nesting of objects, arrays, texts, numbers, flags and nulls", "why_tests_cant": "the space of documents is infinite, and tests use documents that are right; errors of the decoder are ignored, so nothing fails visibly when a value is dropped", "anchors": "config.go:18-24; config.go:92-96; config.go:84-90; route.go:26-33; jwt.go:48-61; upstream.go:8-12; resource.go:4-8; connection.go:4-69; policy.go:9-15"}
{"id": "C101", "title": "What the document protects is protected", "statement": "Whatever a started process sends upstream goes over a route in its configuration document, one with the longest path that matches the request; if the document has a jwt for that route, the request has a token signed with a key of the definition with this name in the document, for the algorithm written there, and in time with the skew written there.", "quantifier": "for all documents, hosts, requests, tokens, key documents loaded before and while the process runs", "why_tests_cant": "the claim spans decoding, validation, sorting, matching and verification; tests check each with a few configurations", "anchors": "config.go:92-96; config.go:125-134; config.go:243-258; route.go:26-60; jwt.go:48-61; proxy.go:518-690"}
{"id": "C102", "title": "Requests go where the document says", "statement": "Whatever a started process sends upstream goes over a route in its configuration document, one with the longest path that matches; to a server the document has for the resource of that route, the first one or, with a policy, one with the label chosen; with the URI of the request, or with its path replaced by the transform of the route; and at most maxAttempts times.", "quantifier": "for all documents, hosts, requests, choices of labels and runs of attempts", "why_tests_cant": "the claim spans decoding, defaults, sorting, matching, mapping and retries; tests check each with a few configurations", "anchors": "config.go:92-96; config.go:98-124; config.go:145-170; route.go:35-96; policy.go:20-49; proxy.go:200-290; proxyhandler.go:60-130"}
{"id": "C103", "title": "The process listens and connects as its document says", "statement": "A started process listens on the port in its configuration document, or that of its mode; with TLS exactly if the mode in the document is TLS in letters of any case, and then with the certificate and key in the document; with the timeouts and the body limit in the document or their defaults; its client has the timeouts, pool size and certificate check in the document or their defaults. Timeouts have to fit into a duration of 292 years.", "quantifier": "for all documents and hosts", "why_tests_cant": "the settings pass through decoding, defaults and conversions before they reach the listener; tests do not look at the listener", "anchors": "config.go:92-96; config.go:172-242; connection.go:4-65; server.go:90-200; httpclient.go:20-91"}
{"id": "C104", "title": "A request is over when its timeouts are", "statement": "If the handler makes each step it can make within some delay, and timers fire within that delay, then the handling of a request is over when the round trip timeout, counted from the arrival of the request, and 24 delays for each permitted attempt have passed; and also when for each permitted attempt the read timeout and 25 delays have passed. This holds whatever upstream servers do.", "quantifier": "for all timed runs: all interleavings of handler, goroutines and timers with arbitrary times in between, all timeouts, delays and numbers of attempts", "why_tests_cant": "how long a request takes depends on two kinds of timers and their races with goroutines; tests wait for single timeouts", "anchors": "proxyhandler.go:83-282; proxy.go:196-206; config.go:260-262"}
{"id": "C105", "title": "No request is given up before a timeout is over", "statement": "A response with status 504 is sent only if the round trip timeout has passed since the request arrived, or the read timeout since one of its upstream requests was sent. If neither has passed when the response is sent, the response is the answer to the last attempt, or 502 if that failed and no more attempts are permitted, and all earlier attempts failed.", "quantifier": "for all timed runs", "why_tests_cant": "a timer of one attempt can fire while another is running, and tests do not check that no timeout comes early", "anchors": "proxyhandler.go:83-282; proxy.go:115-160"}
{"id": "C106", "title": "The timeouts of requests are those in the document", "statement": "C104 and C105 hold of a started process with roundTripTimeoutSeconds, readTimeoutSeconds and maxAttempts as in its configuration document, or their defaults.", "quantifier": "for all documents, requests and timed runs", "why_tests_cant": "the numbers pass through decoding, defaults and conversion to nanoseconds before they reach a timer", "anchors": "config.go:92-96; config.go:172-242; config.go:260-262; proxyhandler.go:113-115; proxy.go:203-205"}
{"id": "C107", "title": "Durations in the log are right", "statement": "dwnElapsedMicros and upAtmptElapsedMicros in lines about attempts and responses are the whole microseconds since the begin of the request and of the attempt; lines about a timeout tell at least its duration, and no line tells more than the timeouts and the delays of the steps permit. No attempt lasts longer than its request.", "quantifier": "for all requests, upstream behaviours and timed runs", "why_tests_cant": "the lines are written by a handler that waits on goroutines and timers; tests cannot cover all delays", "anchors": "proxyhandler.go:300-343; proxy.go:197; proxy.go:343-382"}
{"id": "C108", "title": "Attempts are repeated neither early nor late", "statement": "The first attempt is made at once. A further one is made only once the one before it has failed or its read timeout is over, within that timeout and the delays of the steps in between, and not once the round trip timeout is over.", "quantifier": "for all requests, upstream behaviours and timed runs", "why_tests_cant": "which event ends an attempt depends on the interleaving of timers, goroutines and the handler", "anchors": "proxyhandler.go:79-103; proxyhandler.go:105-191; proxyhandler.go:223-283; proxy.go:366-382"}
{"id": "C109", "title": "Traffic is split as the weights state, with floating point weights and the dice of math/rand", "statement": "With weights given as decimal numbers that are rounded to binary64, and over all throws of math/rand's Float64, a label of a policy with n entries is drawn with a share that differs from its stated weight by at most (3n+4)/2^53 for each of its entries. If the weights add up to 1, the share of requests that find no label because of rounding is at most (2n+1)/2^53. From the document on: requests of a route with such a policy go to servers with the label drawn, in these shares.", "quantifier": "for all policies of up to 2^50 entries, weights, orders of equal weights, documents and configured servers", "why_tests_cant": "there are 2^63 throws of the dice, and the effect of rounding on the running totals depends on all weights and their order", "anchors": "policy.go:26-51; proxyhandler.go:23-77; config.go:108-160"}
{"id": "C110", "title": "The log tells what became of each body", "statement": "All lines logged at level trace or debug while a request is handled have its id. The first line says whether the body was absent, refused for its length, broken off or read, and the second how many bytes were kept: those that upstream servers get, with the method in the line. A body is logged as refused exactly if the client gets a 413.", "quantifier": "for all requests, configurations, upstream behaviours and runs", "why_tests_cant": "lengths may be announced or not, bodies may break off anywhere, and tests do not read the log", "anchors": "proxy.go:196-282; proxyhandler.go:33-53"}
{"id": "C111", "title": "The log tells which tokens are rejected, and why", "statement": "For each request on a route with a jwt exactly one line tells whether its token was accepted: no if and only if the client gets a 401. The key id and dates in it are those of the token, dates of accepted tokens are in time, and the cause for a rejection is true. A check for new keys is logged exactly for tokens that name a key that is not known.", "quantifier": "for all requests, tokens, answers of jwx, configurations and states of the keys", "why_tests_cant": "the cause depends on signature, keys, dates and skew together; tests assert the verdict for a few tokens, not what is logged", "anchors": "proxy.go:518-661; proxyhandler.go:55-63"}
{"id": "C112", "title": "The log tells which server gets a request", "statement": "The server that upstream requests of a client request are sent to is logged once, before the first of them, with the label drawn and the policy. A route that cannot be mapped is logged as such exactly if the client gets a 503. Every upstream request is logged with its URI, in the order of sending.", "quantifier": "for all requests, configurations, labels drawn, upstream behaviours and runs", "why_tests_cant": "lines and requests are written at different places, and retries repeat some of them", "anchors": "route.go:47-92; proxyhandler.go:65-76; proxyhandler.go:105-127"}
{"id": "C113", "title": "Trace lines give away no secrets of a request", "statement": "Of the headers, the token and the body of a request, the lines at level trace and debug show the request id, sizes, and what the token tells jwx (key id, dates, and why it is rejected): two requests that agree in these leave the same lines, in every run.", "quantifier": "for all pairs of requests and all runs", "why_tests_cant": "a secret could show in any line of any run; tests look for known strings at best", "anchors": "proxy.go:196-282; proxy.go:518-661; route.go:47-92; proxyhandler.go:33-127"}
{"id": "C114", "title": "The handler behaves like a sequential proxy", "statement": "The handler with its goroutines and timers does what a proxy does that makes one attempt after the other in one thread: it repeats failed and timed out attempts as long as permitted, passes on the first good answer, and answers 502 or 504 for the last attempt or 504 once the time for the request is over. Every run gives the response of such a sequence with what became of its own attempts, and every such sequence is a run.", "quantifier": "for all requests, upstream behaviours and schedules, and all sequences of fates of attempts", "why_tests_cant": "the number of interleavings of handler, goroutines and timers is unbounded, and a test sees one of them", "anchors": "proxyhandler.go:83-282; proxy.go:115-189; proxy.go:343-389"}
{"id": "C115", "title": "The labels a process draws come from one stream of dice", "statement": "While neither an error document nor the about page is rendered, the labels that all requests of a process draw, from whatever policies, are those for consecutive values of one generator, and the policies stay what the configuration says although they are sorted in place. So requests influence the labels of others by how often they draw from which policy only, and over values that are spread evenly each label gets its stated weight. Right after a document the label depends on the second only. Two processes with the same policies start with the same labels.", "quantifier": "for all processes that have started, generators, histories of requests, refreshes and documents", "why_tests_cant": "the generator and the policies are shared by all requests of a process; which value a request gets depends on the whole history", "anchors": ["policy.go:resolveLabel", "responses.go:randomHuttese", "route.go:mapURL", "proxyhandler.go:proxyHandler"]}
{"id": "C116", "title": "A response that depends on Accept-Encoding says so in Vary", "statement": "If requests to the same process that differ in Accept-Encoding only get different bytes, the responses name Accept-Encoding (or *) in Vary (RFC 7231 section 7.1.4), so that no cache gives a compressed body to a client that cannot read it.", "quantifier": "for all configurations, requests, upstream answers and on-time schedules", "why_tests_cant": "Tests look at one response at a time and with a client that understands it; the rule relates two responses, and only a shared cache shows the damage.", "anchors": ["proxy.go:407-446", "proxyhandler.go:251-264", "responses.go:154-184"]}
{"id": "C117", "title": "Bodies the upstream marked with no-transform are not transformed", "statement": "If an upstream answer has Cache-Control: no-transform, the client gets its bytes unchanged (RFC 7230 section 5.7.2), for every client.", "quantifier": "for all configurations, requests, upstream answers with no-transform and on-time schedules", "why_tests_cant": "No test sends the directive; whether it is obeyed depends on the combination of the client's Accept-Encoding and the first bytes of the body.", "anchors": ["proxy.go:407-432", "proxyhandler.go:206"]}
{"id": "C118", "title": "Strong validators and byte ranges stay true", "statement": "Responses with the same strong ETag have the same bytes if the upstream's have (RFC 7232 section 2.1), and a 206 response has as many bytes as its Content-Range says (RFC 7233 section 4.2).", "quantifier": "for all pairs of requests, upstream answers and on-time schedules", "why_tests_cant": "It relates several responses to each other or a body to a header copied elsewhere; tests compare neither.", "anchors": ["proxy.go:407-479", "proxyhandler.go:251-264"]}
{"id": "C119", "title": "Client errors keep the headers that say what to do", "statement": "A 401 response has a WWW-Authenticate challenge (RFC 7235 section 3.1), be it the proxy's or an upstream's, a 405 response has Allow (RFC 7231 section 6.5.5), and the upstream's Retry-After reaches the client.", "quantifier": "for all requests, upstream answers from 400 to 499 and on-time schedules", "why_tests_cant": "Tests check status and body of error responses, not what is absent from their headers.", "anchors": ["proxyhandler.go:251-275", "server.go:214-238", "proxy.go:518-574"]}
{"id": "C120", "title": "The proxy takes part in counting and naming hops", "statement": "TRACE and OPTIONS requests with Max-Forwards 0 are not passed on and larger values are counted down (RFC 7231 section 5.1.2), and every request sent names the proxy in Via (RFC 7230 section 5.7.1).", "quantifier": "for all requests and every attempt sent upstream", "why_tests_cant": "Loops and hop limits only show with several proxies; tests use one.", "anchors": ["proxyhandler.go:105-145", "proxy.go:41-48"]}
{"id": "C121", "title": "TLS sessions are strong, and clients that are up to date get one", "statement": "Every TLS session of a process in TLS mode uses TLS 1.2 or later with ephemeral keys and authenticated encryption; and every client that offers TLS 1.2 or 1.3 with the recommended suites (RFC 7525) and curves gets a session, whatever kind of key the certificate has.", "quantifier": "for all configurations that listen in TLS mode, all first messages of clients and all kinds of certificate keys", "why_tests_cant": "A test uses one client with one certificate; which clients are turned away depends on combinations of version, suites, curves and the kind of key.", "anchors": ["server.go:175-212"]}
{"id": "C122", "title": "A start announces what it does", "statement": "Boot is signalled as over, and the line that says j8a is listening is written, only by a process that listens; the line gives its version, mode and port.", "quantifier": "for all hosts, configurations, certificates and ports that are free or taken", "why_tests_cant": "Tests look at starts that succeed; the failing ones end the process.", "anchors": ["server.go:58-129"]}
{"id": "C123", "title": "The keys held are no more than those published", "statement": "At any time a jwt definition holds at most one key for each kid, requests alone make it hold no more, a document that comes again adds nothing, and the number of keys held stays bounded by the size of the documents published at any one time.", "quantifier": "for all configurations, all sequences of requests, refreshes and documents, however long", "why_tests_cant": "Growth shows only over many rotations of keys; tests see one.", "anchors": ["jwt.go:21-37", "jwt.go:170-255"]}
{"id": "C124", "title": "The target of a request gets to the upstream byte for byte", "statement": "If no transform applies, the target on the request line sent upstream is the one on the client's request line, every byte of path and query alike.", "quantifier": "for all configurations, targets in origin form, schedules and attempts", "why_tests_cant": "There are infinitely many targets; those that change need an unusual character beside an escaped one, or a number sign in the query.", "anchors": ["proxy.go:129-139", "proxy.go:207-210", "proxyhandler.go:117-131"]}
{"id": "C125", "title": "No request line makes the handler panic", "statement": "Whatever target net/http accepts from a client, the proxy can make an upstream request of it, so that the handler gets to answer.", "quantifier": "for all configurations with well-formed server addresses and no transform, all targets in origin form", "why_tests_cant": "Only targets that net/http reads in one way and the proxy in another fail; a test has to know them.", "anchors": ["proxyhandler.go:117-136", "proxy.go:129-139"]}
{"id": "C126", "title": "What needs a token to ask for is not sent without one", "statement": "If the process would demand a token for the target that it sends upstream, it demands one for the target that the client sent: the routes of the two are the same.", "quantifier": "for all configurations with literal route paths and no transform, all targets in origin form", "why_tests_cant": "The two targets differ only for paths that mix escapes with characters that must be escaped.", "anchors": ["proxy.go:129-139", "proxy.go:207-210", "proxyhandler.go:49-75", "route.go:35-46"]}
{"id": "C127", "title": "Requests sent upstream are framed by their own bodies", "statement": "A request on the wire to an upstream has no Transfer-Encoding line, in whatever case the client wrote it, and at most one Content-Length line, which is the length of the body that is sent; without one there is no body. No framing of the client's gets through.", "quantifier": "for all configurations, requests with arbitrary headers, schedules and attempts", "why_tests_cant": "Smuggling needs unusual combinations of framing headers; the space of headers cannot be enumerated.", "anchors": ["proxyhandler.go:28", "proxyhandler.go:117-144", "proxyhandler.go:284-291", "proxy.go:336-341"]}
{"id": "C128", "title": "Upstreams get the client's header lines", "statement": "Apart from the host, framing, Date, Server and X-Request-Id, the header lines that an upstream gets are those of the client, neither more nor fewer.", "quantifier": "for all configurations, requests with arbitrary headers, schedules and attempts", "why_tests_cant": "The lines that differ are added below the code, so a test that inspects the request handed to http.Client sees none of them.", "anchors": ["proxyhandler.go:133-144", "httpclient.go:20-47"]}
{"id": "C129", "title": "Copies of a request are bounded by the attempts", "statement": "An upstream gets at most as many copies of a request as attempts are configured, and at most one of a request whose method is not repeatable.", "quantifier": "for all configurations, requests, schedules, and fates of connections", "why_tests_cant": "Copies arise when pooled connections break at the right moment.", "anchors": ["proxyhandler.go:84-103", "proxyhandler.go:150-172", "httpclient.go:20-47", "proxy.go:343-360"]}
{"id": "C130", "title": "What leaves the upstream is what the client decodes", "statement": "For every client and every coding used on the wire, decoding what the client gets gives the content that the upstream coded, whichever of transport and handler decodes or encodes in between.", "quantifier": "for all configurations, requests, answers, contents and timely schedules, for any gzip that undoes itself", "why_tests_cant": "Two layers decode, each depending on headers of the request and on the first bytes of the content; contents cannot be enumerated.", "anchors": ["gzip.go:31-57", "proxyhandler.go:223-260", "proxy.go:406-454", "httpclient.go:20-47"]}
{"id": "C131", "title": "A doubling of memory within a day is reported", "statement": "The hourly reports say that memory has grown by a factor of 2 in the previous day exactly if at some time in it there was at least twice as much as before.", "quantifier": "for all sequences of samples and all times of samples and reports", "why_tests_cant": "It takes days of running, and depends on two loops that drift apart by two seconds an hour.", "anchors": ["stats.go:46-84", "stats.go:114-131"]}
{"id": "C132", "title": "Durations and dates are told truly", "statement": "The daily report about certificates tells for each of them the date of issue, how long it is valid and how long browsers will accept it or how long ago they ceased to, to within the last unit told, and the daily line about the uptime tells the days the process has run.", "quantifier": "for all chains, all times, all durations up to 292 years and all sequences of turns of the loops", "why_tests_cant": "Tests look at single durations; the texts depend on the date, the calendar and how long the process has run.", "anchors": ["tls.go:19-21", "tls.go:45-51", "tls.go:125-182", "stats.go:134-147"]}
{"id": "C133", "title": "The log tells truly which keys were loaded", "statement": "While keys are loaded from a JWKS document, the line about the document tells how many entries it has, every line that says a key was parsed stands for a key that can be used, and a load that fails leaves a warning.", "quantifier": "for all documents, all jwt definitions reached by boot and refreshes", "why_tests_cant": "Tests load documents whose entries are all good or all bad; the lines are not looked at, and mixed documents are not tried.", "anchors": ["jwt.go:170-255", "proxy.go:620-632"]}
{"id": "C134", "title": "Requests do not disturb one another while looking for client addresses", "statement": "However many requests look for the address of their client at the same time, each finds the one in its own text, none of them panics, each ends, and no two goroutines access the shared patterns with one of them writing and nothing ordering them.", "quantifier": "for all numbers of concurrent calls, all texts, all interleavings of their accesses", "why_tests_cant": "Tests call extractAddr in one goroutine on a value of their own; whether goroutines meet while the shared patterns are set depends on scheduling.", "anchors": ["iprex.go:6-58", "proxyhandler.go:31", "proxyhandler.go:320"]}
{"id": "C135", "title": "A token is verified with the keys of one moment", "statement": "A request that verifies a token while keys are loaded sees the keys of one moment, among them all that were there when it began, and accesses nothing in memory but keys.", "quantifier": "for all loads, all numbers of concurrent requests, all interleavings and orders of the stores and copies of the words of the slice", "why_tests_cant": "Tests load keys before they verify tokens; a copy of a slice that is torn depends on the compiler and on scheduling and is rare.", "anchors": ["jwt.go:19-41", "jwt.go:174", "jwt.go:214", "jwt.go:229", "proxy.go:540-544", "proxy.go:577-612"]}
{"id": "C136", "title": "The credentials checked are the credentials sent", "statement": "What is sent upstream over a route with a jwt has one Authorization field, which is credentials of the scheme Bearer with the token that was verified, and it makes no difference how the credentials are spelled.", "quantifier": "for all configurations in use, all requests with any number of Authorization fields", "why_tests_cant": "Tests send one Authorization field with the scheme Bearer and one space; what other spellings and further fields do is not tried.", "anchors": ["proxy.go:527-531", "proxyhandler.go:131-135", "proxy.go:336-341"]}
{"id": "C137", "title": "Clients can neither break nor forge log lines", "statement": "Whatever clients send, each event is one line of the log, which is read as the values that were logged, so that lines about different things differ and no line is in the log that the program has not written.", "quantifier": "for all values of all fields of log lines, with and without colour", "why_tests_cant": "Tests look at the log of a few requests with harmless fields; quotes, line ends and bytes that are no UTF-8 in fields and messages are not tried.", "anchors": ["logger.go:23", "logger.go:59-69", "proxyhandler.go:308-343", "proxy.go:620-632"]}
{"id": "C138", "title": "The process tells truly what it uses, where it can be read", "statement": "A process writes a line for each sample of its use of the machine, for each report of grown memory and for its uptime, whatever the settings. Each line is a JSON object with just the values measured; the shares of processor and memory are told as the nearest hundredth of a percent, half way to the even one, so that larger shares never look smaller, and what is no number does not look like one.", "quantifier": "All measurements, all finite, infinite and undefined floating point numbers, any number of decimals, all histories of samples, all environments.", "why_tests_cant": "Tests format a few numbers; ties, subnormal and huge floats and the level at which the lines are written are not tried.", "anchors": ["stats.go:39-44", "stats.go:73-81", "stats.go:134-147", "logger.go:44-58"]}
{"id": "C139", "title": "Responses are well-formed HTTP/2 in TLS mode", "statement": "In TLS mode HTTP/2 is offered to clients, and every response of the proxy becomes a well-formed HTTP/2 response (RFC 7540 section 8.1.2): a three-digit status, names that are lower case tokens, values without control characters, no connection-specific field, and a content-length, if any, that is true. Other upstream headers arrive with their values in order. The client's connection, which carries other requests, is not closed because an upstream closes its own.", "quantifier": "All responses, all requests, settings, routes, upstream answers, headers and bodies, all schedules in which the last answer is read in time.", "why_tests_cant": "Tests speak HTTP/1.1 to the proxy, with upstreams that send no Keep-Alive header.", "anchors": ["server.go:100-122", "server.go:199-207", "proxyhandler.go:28", "proxyhandler.go:284-291", "proxy.go:398-404"]}
{"id": "C140", "title": "Requests go to the server of their route", "statement": "The host that net/http connects to and names in the Host line of a request is the host and port of the URL's authority (RFC 3986), decoded, with a port of digits and well-formed user information; for the URLs the proxy makes, that is the server of the route.", "quantifier": "All URL texts, all routes, servers with plain names, transforms, request URIs, headers.", "why_tests_cant": "Tests send a few well-behaved URIs to one upstream; the host told is never compared with the URL's text.", "anchors": ["proxy.go:129-139", "proxyhandler.go:119-122", "proxyhandler.go:105-144", "route.go:26-33"]}
{"id": "C141", "title": "Requests over HTTP/2 reach upstreams as the HTTP/1.1 requests they stand for", "statement": "In TLS mode clients may speak HTTP/2. Every well-formed request over HTTP/2 gets to the handler with its method, target, fields and body, others do not; what the upstream gets has a request line of three parts separated by single spaces (RFC 7230 section 3.1.1), no hop-by-hop header of the client, and the body the client sent.", "quantifier": "All lists of fields, all frames and lengths, all configurations, schedules, upstream servers with plain names.", "why_tests_cant": "Tests use HTTP/1.1 clients, or clients that escape what they send; none sends raw fields over HTTP/2.", "anchors": ["server.go:89-105", "proxy.go:200-230", "proxy.go:231-282", "proxyhandler.go:119-144"]}
{"id": "C142", "title": "Responses over HTTP/1 are framed by their own bodies", "statement": "A client of HTTP/1.0 or 1.1 that reads by RFC 7230 section 3.3.3 gets exactly the body of the response, and what follows it on a connection that stays open is the next message; no message has both Transfer-Encoding and Content-Length, chunks go to HTTP/1.1 clients only; connections are closed exactly if the client or the response says close or a request body was left unread, and clients are told so exactly then; Date is the time of writing, Content-Type the upstream's.", "quantifier": "All configurations, requests, schedules, upstream responses with status 200 to 999, client versions and connection preferences.", "why_tests_cant": "Go's test client hides the framing; no test looks at the bytes of several messages on a connection, at CONNECT, at methods in lower case, or at responses without a type.", "anchors": ["proxy.go:391-440", "proxy.go:481-497", "server.go:214-238", "responses.go:154-184"]}
