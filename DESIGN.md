# A machine-checked model of j8a

`rocq/theories` holds a Coq 8.16.1 model of the Go sources in /repo and proofs about it.
The Go code is read as text; it is never built or run here.

## How the model is built

* Go strings and byte slices are Coq `string`s (lists of bytes).  Case mapping is ASCII only.
* Header maps are lists of (canonical key, value) pairs.  `Get` is the first value of a key, `Add`
  appends, `Set` removes and appends.  Go's unspecified iteration order over keys is not visible
  in this form, because only the order of values of one key is observable.
* `int` and `int64` are `Z`.  They wrap only where a property is about overflow.
* A panic or process exit is an explicit outcome, never a missing case.
* `sort.Sort` is any function returning a sorted permutation.  Theorems quantify over it.
* Code outside the repository is an argument of the model (an oracle): gzip, signature checks, PEM
  and JWK parsing, the dice, uuids, the clock.  What a theorem needs from an oracle is a hypothesis
  of that theorem, and a concrete instance beside it shows the hypotheses can be met.
* Goroutines, channels, contexts and timers of one request are a labelled transition system.  Every
  theorem about it holds for all finite label sequences.

Files: `X.v` (model, each definition cites file and lines), `XSpec.v` (specification vocabulary that
does not use the model), `XProofs.v` (lemmas), `Thm_X.v` (property theorems only, each followed by
`Print Assumptions`).

## Plan per property

| id | modelled as | proof |
|---|---|---|
| C01 | routes after boot, first match, any sort meeting the contract | permutation + sortedness |
| C02 | regex parser and matcher, `^`+path | matcher soundness and completeness, literal patterns |
| C03 | order of boot passes | expected to fail: counterexample, plus what holds |
| C04 | regex language | expected to fail for a top-level `|`: counterexample, plus theorem for the rest |
| C05 | default passes over the connection record | case analysis |
| C06 | boot as a pipeline returning an option | case analysis over the pipeline |
| C07 | source selection | case analysis |
| C08 | scheme pass | string lemmas |
| C09 | policy map update | expected to fail for the name `default`: counterexample, plus the rest |
| C10 | cumulative weights over rationals, dice k/N | counting lemma by induction |
| C11 | as C10; also binary64 weights | induction; float counterexample |
| C12 | sequential: permutation; concurrent: swaps of shared slots | induction; race counterexample |
| C13 | generator state reseeded by responses | counterexample |
| C14 | mapURL | induction over the resource list |
| C15-C17 | string functions | string induction; counterexamples for C16 and C17 |
| C18-C20 | request parsing | case analysis; counterexample for C18 |
| C21, C25-C28, C33-C36 | transition system of one request | inductive invariants over all schedules; race counterexamples for C26-C28 |
| C22-C24, C62 | header functions | list induction; counterexample for C62 |
| C29-C32, C38 | response assembly with gzip oracle | case analysis, for C29 (and C94, C130) exhaustive: what is decoded in every case (`ContentSpec.v`) and the exact condition; counterexamples |
| C37 | durations | arithmetic |
| C39-C43 | token validation with signature oracle | case analysis, list induction; counterexamples |
| C44, C45, C47 | key sets, JWKS load | list induction; counterexamples for C44 and C47 |
| C46 | timed machine of triggers, lock and sleep | invariant over all timed schedules; every refresh ends |
| C84 | base64, UTF-8, the JSON scanner and decoder applied to a token's header (`Kid*.v`) | soundness and completeness of the parser against a grammar, by induction |
| C86 | what the report says about each link | list induction, case analysis; counterexamples |
| C87-C91 | the whole process: any number of requests and refreshes, one transition system (`Process.v`) | invariants and simulation into the machines of one request and of one jwt's refreshes |
| C85 | reached key sets and token validation | C84 with an invariant of reached key sets |
| C48 | Validate, parseKey | case analysis |
| C49 | mux dispatch and about handler | counterexample |
| C92 | regex syntax, parser | independent grammar and meaning (`RegexGrammar.v`), parser sound and complete for it; routing theorems are stated with it |
| C50-C52 | the four patterns parsed by the regex model; the texts net writes for addresses (`IpText.v`) | matcher theorems, digit sweep; inversion of matches into groups for the exact condition; counterexamples for C52 |
| C53-C56 | chain functions | list induction; counterexamples for C54 and C56 |
| C57, C58 | history functions | induction over samples |
| C59, C60 | JSON rendering, message table | parser round trip by string induction |
| C61 | about handler | case analysis |
| C63 | the request pipeline | case analysis; counterexamples |
| C64 | percent-decoding and routes | counterexample; theorem for unencoded paths |
| C65 | LoadJwks on any document, with panics | case analysis; counterexample |
| C66 | sample history, report split into its reads | interleaving counterexample; theorem without overlap |
| C67 | path cleaning and redirect of the request multiplexer | segment induction; counterexample for CONNECT |
| C68 | registration of handlers | exact condition; counterexample |
| C69 | dispatch to the about page | counterexamples; exact description of the dispatch |
| C70 | response headers of whole requests | case analysis over all responses, any schedule |
| C71, C72 | runs with the lines they log | invariant over all schedules; race counterexamples |
| C73 | logged and sent encoding | equality for relayed bodies; four counterexamples |
| C74 | upstream part of the line | invariant over all schedules; counterexample |
| C75 | start of the process, from command line and environment to the listener | equivalence with a list of conditions |
| C76, C77, C78 | parameters of listener, TLS and upstream client | equalities under the absence of overflow; counterexamples |
| C79 | binary64 division, multiplication and truncation | error analysis of the rounding steps |
| C80 | id from any hash | induction on the digits; counterexample for all hashes |
| C81, C82, C83 | levels, lines of net/http | case analysis with the address theorems; counterexamples |
| C93 | calls of Gzip and Gunzip with their pools, byte by byte | invariant over all interleavings: writers and buffers have one owner |
| C94 | relayed gzip bodies | counterexample; exact condition from the cases of C29 |
| C95 | the sampling goroutines and their lock | invariant over all interleavings; counterexample |
| C96 | pairs of GET and HEAD requests | counterexamples; exact condition |
| C97 | pairs of requests that differ in secrets | noninterference by simulation over all runs; counterexample for the query |
| C98 | runs of the handler with the bodies it closes | invariant over runs |
| C99 | runs of the handler with the lines about attempts | invariant over runs; characterisation of the header; counterexamples for late goroutines |
| C100 | configuration documents, decoded into the structs | induction over members and elements; counterexamples for values of the wrong type |
| C101 | document, start, request | composition of C100, C75, C01 and C39 to C41 |
| C102, C103 | document, start, listener and requests | composition of C100 with C15, C16, C21 and C76 to C78 |
| C104, C105, C106 | the machine of C25 with a clock (`Timing.v`) | invariants of timed runs: nothing is late, since when the handler can move; time can always pass; composition with C100 and C34 |
| C107 | timed runs with the lines and their durations (`Elapsed.v`) | erasing durations gives the lines of C71 and C99; invariants for the begin of the attempt, the time of the response and its message |
| C108 | timed runs (`Timing.v`) | invariant for the moment before an attempt is sent, the invariants of C34 and C104 |
| C109 | binary64 weights (`SpecFloat`), `rand.Float64` over the values of Int63 (`Dice.v`) | error bounds of sums in units of 2^-1074, counting of dice values below a boundary; from the document on by way of C103 |
| C110 | the lines of `parseIncoming` and `parseRequestBody` (`TraceLog.v`) | case analysis on the body, shared with C20 and C23; the body kept is the one sent |
| C111 | the lines of `validateJwt`, `verifyJwtSignature`, `triggerKeyRotationCheck` and `logDateClaims` | the lines are those of the verdict, which C39 to C46 characterise; kid by `Kid.v` |
| C112 | the lines of `mapURL` and the URI of attempts | mapping by C10 to C13; induction over the run for the URIs |
| C113 | two requests side by side | both runs are simulated in lockstep as for C97, with tokens that jwx cannot tell apart |
| C114 | an inductive relation for a proxy in one thread, beside the transition system | soundness from the invariants of C34, completeness by building a run for each attempt; the race of C26 as counterexample. For a process (`Thm_Concurrent.v`), any interleaving of steps that requests can take can be taken, and leads to the same state (C90), so that runs for single requests combine (C35, C114) |
| C115 | a generator and the sorted policies beside the process of `Process.v` (`Balance.v`) | the policies are an invariant up to sorting; the labels of a run are those of a stream of the generator, by induction over events; C109 for shares; for C13 a process and any generator as counterexample |
| C116 to C118 | none beyond `Exchange.v` and the whole-request model (vocabulary in `ConformSpec.v`) | exactly when the bytes and the headers of a relayed answer stay; two settings that differ in Accept-Encoding as counterexamples |
| C119, C120 | the same | headers of all 4xx responses and of all requests sent; an upstream's 401, a route with a token check and a TRACE request as counterexamples |
| C121 | choices of a TLS server with the parameters of server.go, any first message of a client | list search; exact characterisation; an ECDSA certificate as counterexample |
| C122 | signs of a start in order, beside `start` | case analysis, tied to C75; a taken port and a certificate without key as counterexamples |
| C123 | the process of `Process.v` | distinct kids as an invariant of every way to load keys; a bound by inclusion in what was fetched; a round of request, fetch and wait repeated by induction as counterexample |
| C124-C126 | net/url and net/http of Go 1.15 as far as a target goes through them (`Url.v`), composed with the system of one request | induction over texts: decoding and encoding against a relation, well-formed paths are fixed; an undecodable fragment, a re-encoded path and a path that changes its route as counterexamples |
| C127-C129 | the header lines and the connections of net/http's client (`Wire.v`), composed with the system of one request | the values of every name, line by line; induction over the connections tried; stale connections as counterexamples |
| C130 | answers as the transport hands them over (`Wire.v`) | reduction to C29 case by case; an archive packed twice as counterexample |
| C131 | samples and reports over time (`StatsDay.v`) | every pair of samples is at some time compared; induction over times; counterexamples |
| C132 | texts of durations, dates, the report and the uptime (`CertText.v`) | greedy decomposition by induction over units; the calendar as a relation between days, with a count of days as inverse; counterexamples |
| C133 | the load of keys with its lines (`KeyLog.v`) | refinement of the load without lines; the lines by induction over the document; counterexample |
| C134 | concurrent calls of `extractAddr` over shared patterns (`IprexShared.v`) | invariant over all interleavings, a measure per call; counterexample |
| C135 | key sets as slices in memory, written by a load and copied by requests word by word (`KeyMemory.v`) | invariant over all interleavings that refines `Jwt.upsert`; counterexample |
| C136 | request, verdict, headers sent (`Handler.v`, no new model) | case analysis of the handler; counterexamples |
| C137 | text of log lines (`LogText.v`) | an independent JSON reader reads back what was written; a token for every kid |
| C138 | what the process tells of itself (`SelfReport.v`) | rounding in integers, carried over to rationals; an independent decimal reader; the JSON reader of C137; counterexample |
| C139 | responses over HTTP/2 (`Http2.v`) | a specification of well-formed responses after RFC 7540; canonical names are known by their lower case; where each header of a response comes from (C119); counterexamples |
| C140 | hosts of URLs, the Host line (`Url.v`, `Wire.v`) | the parser of net/url agrees with the grammar of RFC 3986; composed with the exact condition of C17; counterexample |
| C141 | requests over HTTP/2, request lines (`Http2Req.v`) | field lists split and checked against RFC 7540, composed with C22 and C124; exact condition for the line; counterexamples |
| C142 | responses over HTTP/1 (`Http1.v`) | net/http's writer against a reader by RFC 7230, composed with C61 and C124; induction over hexadecimal digits; counterexamples |

`SystemSpec.v` and `Thm_System.v` put the parts together: a setting (process, configuration, request,
schedule) determines what is sent upstream (`asks`) and to the client (`replies`), and the claims C15,
C16, C18 to C26, C29 to C32, C38, C63 and C70 are stated for these as well, so that a mistake in how the
parts are connected shows in a theorem.  `Thm_Startup.v` restates C18, C31 and C70 for requests served by
a process that has started (`serves`), without assumptions about process values.

`Thm_Text.v` ties the functions on text that statements mention (`to_upper`, `contains`, `canon`, `join`,
`itoa_Z`, `random_huttese`, `equal_fold`) to definitions of their own in `TextSpec.v` and `NumberSpec.v`.

## Trusted base

1. The kernel of Coq 8.16.1.  No kernel check is switched off, no plugin is loaded, native compilation
   is not used by any proof.  `vm_compute` is used for closed computations.
2. Axioms: none.  `Print Assumptions` stands under every theorem of every `Thm_*.v` file, and for each
   of them it prints `Closed under the global context`.  (The standard library contains axioms that are
   loaded with `lia` and the ssreflect support files, such as `Coq.ssr.ssrunder.Under_rel`; no theorem
   depends on them.)
3. The reading of the Go code: that each definition in `X.v` says what the cited lines do.  Each
   definition carries a citation and names its simplifications.
4. The Go language and library facts written into the model.  They are listed in the next section.
5. The specification files `XSpec.v`: that they say what the English properties say.

### Library behaviour assumed

Written into the model as fact, because the repository's behaviour cannot be stated without it:

* `http.Header`: canonical keys (`textproto.CanonicalMIMEHeaderKey`), `Get`, `Set`, `Add`.
* `http.MaxBytesReader` with `ioutil.ReadAll`: an error and the first `max` bytes for longer bodies.
* `ResponseWriter.WriteHeader` panics for statuses outside 100 to 999.
* `http.ServeMux`: exact patterns before prefix patterns, the longest prefix first, path cleaning and
  redirects except for CONNECT, a 400 for the request URI `*`, panics for empty and repeated patterns.
* `http.NewRequestWithContext` returns nil for a URL with an invalid port and for an invalid method.  For C124 to C126 it
  and the rest of net/url and net/http that a target goes through (`http.ReadRequest`, `url.ParseRequestURI`, `url.Parse`,
  `URL.RequestURI`, `URL.EscapedPath`, the request line written by the client) are written out in `Url.v` after Go 1.15.
* `regexp`: syntax of the operators `. * + ? | ( ) [ ] { } ^ $ \d \w \s` and their negations; leftmost
  match, with the preferred alternative first.  `RegexGrammar.v` states this syntax and its meaning, and the
  model of the parser is proved equivalent to it (C92).  Other syntax is outside the model (an error).
* `strings`: `Contains`, `Replace` with count 1, `Split`, `ToUpper`, `EqualFold` on ASCII.
* `encoding/json`: escapes `<`, `>`, `&`, control characters, U+2028/9; invalid UTF-8 becomes U+FFFD;
  decoding into a map as written out in `Kid.v`: grammar of RFC 8259, nesting up to 10000, last member
  wins, numbers that do not fit a float64 are an error, lone surrogates become U+FFFD.
* `encoding/json`, decoding into structs, as written out in `Decode.v`: names match fields without regard to
  the case of letters, unknown names are ignored, a value of the wrong type leaves its field unchanged and
  decoding goes on, the error being returned at the end.
* `base64.RawURLEncoding`: skips CR and LF, ignores unused bits of the last character.
* `rand.Seed`, `rand.Float64`: an arbitrary generator, with the state the seed determines.  For C109,
  `Float64` is `float64(Int63()) / (1<<63)`, drawn anew when that is 1 (Go 1.15), and shares are taken over all
  values of `Int63`, which says nothing about the order in which a generator goes through them; a weight in the
  document is rounded to within 2^-54, as `strconv.ParseFloat` does for numbers up to 1.  The policies kept
  in the configuration are not reordered by the in-place sorts, but the theorems hold for any order.
* `sort.Sort`: any function returning a sorted permutation; for the race of C12, in-place swaps.
* `math/big`'s `Text(16)`; `time.Duration` as int64 nanoseconds with wrap-around; binary64 division and multiplication (`SpecFloat`);
  conversion to int64 gives the least integer when out of range.
* zerolog writes events whose level is not below the global one, as JSON in the order of the calls, or with its ConsoleWriter the message as it is and fields by `strconv.Quote` unless they are printable ASCII without blanks, quotes and backslashes (`LogText.v`, from knowledge of v1.20.0, whose source is not at hand); `strconv.Quote` yields no line end; times in RFC 3339 are digits, `-:TZ+.`; `hex.EncodeToString`; `http.Server`
  treats timeouts of zero and below as none; the texts `http: TLS handshake error from ` and
  `http: panic serving ` of net/http.
* `sync.Pool` hands out an object that was put and takes it out, or a new one; a `gzip.Writer` writes only to
  what it was last reset to, a `gzip.Reader` reads only from what it was last reset to, and a reset leaves
  nothing of the earlier state.
* `net.IP.String`, `TCPAddr.String` and `JoinHostPort` of Go 1.15 as written out in `IpText.v` and, with zones, in `AddrZone.v`.
* durafmt's `Parse(...).LimitFirstN(n).String()`, and `Time.Format("2006-01-02")` with the algorithm of `time.absDate`, as written out in
  `CertText.v`; `time.Sleep` does not end early.
* gopsutil's `MemoryInfo` returns nil with an error. `fmt`'s `%.2f` rounds the exact value of a float to the nearest, half way to even (`SelfReport.v`).
* crypto/tls of Go 1.15 as a server (`Handshake.v`): the client's preference decides the version, the server's the
  curve and the suite; `CipherSuites` does not apply to TLS 1.3; a suite of TLS 1.2 goes with one kind of key.  The kind of
  the certificate's key and the signatures a client accepts are arguments.
* net/http's HTTP/1 server of Go 1.15 as written out in `Http1.v` and `Http1Client.v` (C142): when a request asks for its connection to be closed or kept, what it adds to and takes out of the headers of a response,
  chunks, and when it closes the connection.  This is from knowledge of Go, too.
* net/http's HTTP/2 server of Go 1.15 as written out in `Http2Req.v` (C141): which streams are reset or answered with 400,
  method, target and fields of the others, joined cookies, lengths and data; the first line written by its client.
* net/http's HTTP/2 server of Go 1.15 as written out in `Http2.v` (C139): ListenAndServeTLS offers HTTP/2 unless told
  otherwise, response headers go out in lower case without `Connection` and `Transfer-Encoding`, fields with wrong names or values
  are left out, and `Connection: close` winds the connection down.  This is from knowledge of Go; its source is not at hand.
* Upstream requests and responses are those the repository's code passes to and gets from `http.Client.Do`.
  What the transport writes and when it tries again is in `Wire.v` (C127 to C130), after Go 1.15.  For requests other than HEAD without `Accept-Encoding` and
  `Range` it asks for gzip and decodes the answer, dropping `Content-Encoding` and `Content-Length`.
* Channels, `close`, `select`, `context` cancellation, `time.AfterFunc`, `defer`/`recover`.  Timers do not fire early; in
  `Timing.v` (C104 to C106) they and the handler, including its writes to the client, are late by at most a delay, which is an argument.
* A panic in an `http` handler goroutine ends the connection without a response; a panic in another
  goroutine ends the process.

Arguments of the model (oracles), constrained only where a theorem says so:

* gzip and its inverse (`gzips`, `gunzip`; C29 and C30 need that one undoes the other);
* `yaml.YAMLToJSON` (the tree of a document, or an error), `strconv.ParseFloat`;
* `md5.Sum` (16 bytes), `tls.X509KeyPair`, whether a port can be listened on;
* `x509.Verify`, PEM decoding, JWK parsing, `jws.Verify`, `jwt.Parse` (`honest`: what jwx verifies
  was signed with that key and algorithm, and verification does not change the claims read);
* the generator of math/rand (C115): any states, any Seed and Int63, of 63 bits for `C115_draw` and `C115_value`; without Seed it starts like after Seed(1) (Go 1.15).
  `sort.Sort` changes nothing in a policy that it has sorted, which holds for fewer than 12 entries.
* uuids, the clock, the dice, process statistics, what upstreams answer and when.

## Modelled code

| file | modelled | not modelled |
|---|---|---|
| config.go | everything: sources, decoding of a document into the structs (`Decode.v`), the boot passes in order, defaults, TLS mode | YAML syntax (the tree of the document is the input); theorems about the boot take the decoded record as input, C100 to C103 start from the document |
| connection.go, resource.go, upstream.go | the records, `URL.String` | |
| route.go | sorting, `matchURI`, `mapURL`, `hasJwt`, the lines of `mapURL` (`TraceLog.v`) | |
| policy.go | everything, sequentially and with overlapping in-place sorts, with rational and with binary64 weights (`Policy.v`, `Dice.v`) | |
| proxy.go | parsing of requests and bodies, attempts, abort flags, retries, transforms, response assembly, token validation, kid extraction (down to the bytes, `Kid.v`), the request data logged, the lines about attempts and `parseXRequestDebug` (`AttemptLog.v`), the lines about bodies and tokens (`TraceLog.v`) | the texts of errors in them |
| proxyhandler.go | the goroutines, selects and timers step by step, also with a clock (`Timing.v`); the line logged for each response (`AccessLog.v`); the bodies closed and the lines about attempts (`AttemptLog.v`); the durations in these lines (`Elapsed.v`); the URI of attempts (`TraceLog.v`) | the lines after a recovered panic, which are never written (`C28_closed_once`) |
| responses.go | JSON documents, messages, about page, reseeding of the generator | which Huttese sentence is chosen |
| jwt.go | everything: validation, key parsing, key sets, JWKS loading and its lines (`KeyLog.v`), the rate limit, the slices in memory (`KeyMemory.v`) | freeing of arrays; what Go's memory model allows for racing accesses beyond torn copies |
| iprex.go | everything: the four expressions through the regular expression model; concurrent calls (`IprexShared.v`) with accesses that take effect in one order for all goroutines | what else Go's memory model allows for racing accesses |
| gzip.go | Gzip and Gunzip with their pools, run by many goroutines; elsewhere as functions, which C93 justifies | compress/gzip itself |
| tls.go | chain checks, links, serials, expiry, pools, the health-check loop, what the report says (`TlsReport.v`) and in which words (`CertText.v`) | |
| stats.go | taking of samples with its lock, history, growth rates, overlap of append and report, reports over time, uptime line (`CertText.v`), all lines (`SelfReport.v`) | how gopsutil computes percentages |
| server.go | everything else: boot order, listener and TLS parameters, failures, dispatch, standard headers, JSON answers, lines of net/http (`Startup.v`, `Handler.v`), TLS parameters in use and the announcements of a start (`Handshake.v`) | debug lines |
| the running process | requests side by side and the refreshes they start, sharing the key sets (`Process.v`) | dice and labels are chances of each request; `Balance.v` has the generator and the policies behind them, with the label drawn when the request arrives and sorting as one step (see C12 for overlapping sorts) |
| httpclient.go | everything: client parameters, keep-alive interval, redirects | debug line |
| logger.go, time.go, cmd/j8a/main.go | configuration file, level, server id, version, time zone, text of the lines about responses, unknown kids and the process in JSON (`LogText.v`, `SelfReport.v`), of the former two in colour | text of the other lines, usage text |

Outside the repository nothing is modelled beyond the list of assumed library behaviour.  In particular:
net/http's connection handling beyond `Wire.v`, `Http1.v`, `Http1Client.v`, `Http2.v` and `Http2Req.v`, frames and flow control of HTTP/2, trailers, HTTP parsing beyond `Url.v`, DNS, memory behaviour other than the modelled data races.

## Findings

Statements of `properties.jsonl` that are false of the model.  Each is a theorem ending in `_refuted`.

| id | finding |
|---|---|
| C03 | A route path without a leading slash is compiled before the slash is added, and matches no request. |
| C04 | `/a\|/b` matches `/b` anywhere in the request URI, also in the query string. A path like `*/b`, no expression by itself, is accepted and matches `/b` anywhere, since the operator applies to the `^` put in front of it. |
| C09 | A user policy named `default` is replaced at boot. |
| C11 | Ten binary64 weights of 0.1 sum to less than 1; a dice value above the sum yields the label `default`. |
| C12 | `resolveLabel` sorts the shared slice in place; two overlapping requests can lose a label for good. |
| C13 | Every error response reseeds the global generator with the second, so following choices repeat. |
| C16 | With a regular expression path, a transform leaves the matched prefix and can rewrite the query string. |
| C17 | Transform `/` turns `/mse6@evil.com/x` into a URL whose host is `evil.com`; a client can choose any host this way, and a digit behind the path changes the port. |
| C18 | A chunked body over the limit is not rejected, and a declared body of exactly the limit is. |
| C19 | The chunked body over the limit is forwarded empty. |
| C20 | An unknown method with an oversized body is answered 413, not 400. |
| C24 | Upstream `X-Request-Id` and `Strict-Transport-Security` reach the client beside the proxy's own. |
| C25, C28 | A late goroutine write, or an upstream status below 100, makes the handler panic; no response is sent. |
| C26, C27 | The goroutine of a timed-out attempt writes status and gzip flag into the attempt that replaced it. |
| C29 | Bodies in other codings are compressed again and mislabelled; gzip archives are unpacked; empty gzip content is announced as gzip. |
| C31 | Error documents are compressed without a `Content-Encoding` for clients that accept gzip. |
| C32 | `Accept-Encoding: gzip;q=0` gets gzip. |
| C39, C43, C63 | A bearer token that is no JWS message makes the handler panic. |
| C41 | The skew guard compares seconds with milliseconds: with a skew above now/1000 a valid token is rejected; very large skews overflow. |
| C44 | A key published under a known kid never replaces the old key; tokens that name that kid do not even start a refresh. |
| C47 | Of several keys with the same kid, or without one, only one is usable. |
| C49 | The about page never checks its jwt. |
| C52 | IPv6 addresses with five groups before `::` are cut, and so are those with four or more behind it (`C52_rest_partial`). What is left is an address itself, namely that of another host: `2001:db8:1:2:3::6` and `2a02:db8:1:2:3::6` are both logged as `db8:1:2:3::6` (`C52_another_refuted`, `C71_client_refuted`). This is so for every address that is cut: read as RFC 4291 says, the log always names another host (`C52_others_refuted`, `C71_others_refuted`). Autoconfigured link-local clients are among them: `[fe80::21a:2bff:fe3c:4d5e%eth0]:51000` is logged as `fe80::21a:2bff:fe3c`, and the zone never is, although one alternative of the third pattern is meant for zones: others before it match first (`C52_link_refuted`, `C52_links_refuted`). |
| C54, C55 | A serial with an odd number of hexadecimal digits panics in `formatSerial`; the health check ends. Expired certificates give no warning. |
| C56 | Roots are told from intermediates by common name only. |
| C58 | Growth is misjudged above 2^53 bytes and for a resident size of zero. |
| C59 | A version that is not valid UTF-8 is altered. |
| C62 | Hop-by-hop headers other than Transfer-Encoding are forwarded. |
| C63 | A resource with an empty server list, and an upstream URL with an invalid port, make the handler panic. |
| C64 | `/%61dmin` is routed past the protected `/admin`; with a catch-all route every path can be taken round its own route this way. |
| C65 | A JWKS entry marked ES256 that is no ECDSA key panics in a goroutine and ends the process. One request whose token names an unknown kid, otherwise worthless, is enough to have such a document fetched. |
| C66 | The growth report can overlap an append and index out of range. |
| C67 | Paths of CONNECT requests keep their dot segments. |
| C68 | Two about routes with one path, or one with path `/`, pass validation and panic at registration. |
| C69 | `/about/more` matches the about route and gets 503; `/%61bout` gets the about page though its route is another. |
| C71 | A late missing response, stored while the line of another attempt is put together, makes the handler panic after the response was sent: the response is not logged. |
| C72 | After a late status write the response is an error with the upstream's body, and its line says `none`. |
| C73 | The line names `identity` for the compressed about page; `gzip` for error documents, which are sent without `Content-Encoding`, and for empty bodies; the upstream's coding for 4xx answers, whose body is replaced. |
| C74 | If no attempt got an answer, the line has no upstream part, however many attempts were made. |
| C76 | Timeouts of 9223372037 seconds and more overflow a duration; the listener then has none, or a short one. |
| C77 | Mode `HTTPS`, or any other word, passes validation and serves plain HTTP, although certificate and key are configured. |
| C78 | A socket timeout of 9223372037 seconds becomes a negative dial timeout: every connection to an upstream fails before it is tried. |
| C80 | Host `a` with version `b1` and host `ab` with version `1` get the same id, whatever the hash. |
| C82 | The addresses of C52 are cut in these lines, too. |
| C83 | What net/http reports, panics of handlers included, is logged at level TRACE; at the default level a request that makes its handler panic leaves no trace. |
| C86 | Every site certificate is said to be disrupted 398 days after its issue, also one for 90 days, long after it expires. An authority that expires first is not pointed out. A certificate without a well-defined end is said to be valid for 106751 days. |
| C88 | A jwt with both a key and a URL fetches nothing at boot, so its count of refreshes is 0 and the first refresh does not wait: its first two refreshes can begin at the same time. |
| C89 | A JWKS document with an entry for another algorithm, as publishers of RSA and EC keys have it, stops the load there: keys behind that entry never come to be used, and requests with tokens signed with them are refused however often they are repeated (`C89_refuted`). |
| C91 | Keys are only added or replaced. A key its publisher withdraws, say because it was stolen, is accepted until the process is restarted. |
| C94 | `Gunzip` ignores errors: for a client without gzip, an upstream body that breaks off is cut at that point and delivered as a complete 200 with a matching `Content-Length`. |
| C95 | `getSample` ignores the error of `MemoryInfo` and uses its nil result: one failed measurement ends the process. |
| C96 | A HEAD response repeats the upstream's `Content-Length`, but GET bodies are compressed for gzip clients, so the lengths differ; an upstream that sends no length makes HEAD say `0`. |
| C97 | The line at level info leaves the query out of `dwnReqPath` but has it in `upReqURI`, with whatever credentials it contains. |
| C99 | The line that calls an attempt successful has the status of its response, while the client gets the one a late goroutine stored; after a panic the attempt has no outcome line at all. |
| C100 | `parse` ignores the error of `json.Unmarshal`, so a value of the wrong type is dropped without a word and the process starts: a route with `jwt: [auth]` is served without a token; `acceptableSkewSeconds: 0` as a number, the form used in `integration/j8a1.yml`, gives the default of 120 seconds; a port of 65536 or more gives 0; `maxBodyBytes: "10"` gives the default. |
| C100 | Names are compared without regard to case and nothing refuses a setting that is written twice: a route with `JWT: auth` and `jwt: ""` is served without a token, as `YAMLToJSON` writes capitals first and the last value of the right type counts (`C100_twice_refuted`). |
| C106 | A round trip timeout of 9223372037 seconds or more overflows and is negative, so every request is answered 504 at once. |
| C107 | In the line about a response the duration of the request is read before that of the attempt, so the attempt may seem to last longer than its request. |
| C108 | The goroutine of a timed-out attempt can store its response, say a 503, in the attempt that replaced it; that one is then repeated although it was answered in full and in time. |
| C111 | A token with an expiry (or another date) of at most one second after 1970, 0 say, is rejected for its dates, while the line about it says that it has no such claim (proxy.go:634-661). A token that makes the handler panic leaves no line. |
| C112 | A request that gets a 503 because the resource of its route is not configured leaves no line about it, only those whose label matches no server do (route.go:47-92). |
| C110 | The line "body too large" (proxy.go:262-265) is never written: the reader stops at the limit, and a body without announced length that exceeds it is logged as broken off and passed on as empty (C110_body with `bt_broken`). |
| C114 | A response made from the late status of an abandoned attempt is one that no order of attempts, one after the other, leads to. |
| C115 | The generator is not seeded at the start, so all replicas of a process give their first requests the same labels (`C115_replicas`). A client who asks for an unknown path just before each request, in the same second, gets one and the same label for any number of requests (`C13_process_refuted`); so can anyone steer the requests of others that come next. |
| C116 | Bodies are compressed or decompressed by Accept-Encoding, but Vary is never added: a shared cache may give compressed bytes to a client that cannot read them (`C116_refuted`, `C116_source`). |
| C117 | Cache-Control: no-transform is ignored: a text is compressed for a client with gzip, and whatever begins like gzip is decompressed for others (`C117_refuted`). |
| C118 | Compressed and plain responses have the same strong ETag (`C118_tags_refuted`), and the part in a 206 response is compressed while its Content-Range counts the plain bytes (`C118_part_refuted`). |
| C119 | No 4xx response has a header of the upstream's: an upstream's 401 loses its challenge, 405 its Allow, 429 its Retry-After; the proxy's own 401 has no challenge either (`C119_bare`, `C119_refuted`). |
| C120 | TRACE and OPTIONS requests with Max-Forwards 0 are passed on, Via is never added, and X-Forwarded-For and the like are the client's own claims (`C120_kept`, `C120_hops_refuted`, `C120_via_refuted`). |
| C121 | Only suites for RSA keys are configured for TLS 1.2, so with an ECDSA (or Ed25519) certificate, which is accepted at start, every TLS 1.2 client is turned away; clients that only offer X25519 are turned away in any version (`C121_welcome_partial`, `C121_refuted`). |
| C122 | `Boot.Done` comes before the certificate is looked at, and the line that says j8a is listening before it tries to (`C122_boot_refuted`, `C122_line_refuted`). |
| C123 | Keys are added but never given up (`Upsert` keeps the first key of a kid for good), so with keys that rotate the set grows without bound although each document has one key; each look-up walks the whole set (`C123_bound_partial`, `C123_refuted`). |
| C124 | A path with a character that may not occur in one (`\|`, a space, a byte above 127) is decoded and encoded again, so that `/a%2Fb\|` is sent as `/a/b%7C`; of a query everything from `#` on is dropped (`C124_path_refuted`, `C124_query_refuted`). |
| C125 | net/http accepts `GET /a?#%` from a client, but http.NewRequestWithContext takes `#%` for a fragment and fails; proxyhandler.go:119 ignores the error and the handler panics, so the client gets no response (`C125_fragment_refuted`). |
| C126 | Routes are chosen by the raw target and upstreams get the re-encoded one: `/%61dmin/\|` misses the route `/admin` with its token check, is served by `/`, and is sent as `/admin/%7C` (`C126_refuted`). |
| C128 | Upstreams of clients without a User-Agent are told `Go-http-client/1.1`, of several User-Agent lines only the first is sent, and gzip is asked for on behalf of clients whose Accept-Encoding is empty (`C128_agent_refuted`, `C128_coding_refuted`). |
| C129 | The transport repeats GET, HEAD, OPTIONS and TRACE requests, and with an `Idempotency-Key` or `X-Idempotency-Key` of the client any request, when a pooled connection breaks before the answer begins; these copies are not counted as attempts, so that `maxAttempts` does not bound them (`C129_refuted`). |
| C130 | An archive that an upstream sends with `Content-Encoding: gzip` reaches clients that take gzip as it is; for a client without Accept-Encoding the transport undoes the coding and the handler, seeing the first bytes of the archive, unpacks the archive as well (`C130_archive_refuted`). |
| C131 | The message speaks of an increase in the previous day, but 24 hourly samples are 23 hours: memory that doubles in 24 hours and not in less is never reported (`C131_day_refuted`). After a peak the message goes on although there is less memory in use than at the beginning (`C131_fallen_refuted`). |
| C132 | Once browsers have ceased to accept a certificate the report says so with a negative time, e.g. `Validity grace period expired -2 days ago` (`C132_grace`, for every such certificate). The uptime of day 7 to day 13 is told as `1 week`, that of two years less a day as `1 year`, and in the first day none is told (`C132_days_refuted`, `C132_first_day`). |
| C133 | An entry of a JWKS document that is no usable key, say because its modulus cannot be decoded or its curve is the wrong one, is logged as `successfully parsed` like the others. If it is the last, the load fails; the goroutine that loads drops the error (proxy.go:625), and nothing is logged at a level above debug. A document without entries is told as `fetched 0 jwk` and fails in silence too (`C133_warned_partial`, `C133_refuted`). |
| C134 | The patterns that find addresses are compiled on first use and kept in a global variable that the handlers of all requests read and write without synchronisation (iprex.go:22-37, proxyhandler.go:31, 320): the first requests that are logged at the same time race. With accesses that take effect in one order nothing wrong comes of it (`C134_alone`, `C134_whole`), but Go promises no such order for racing accesses (`C134_refuted`, `C134_settled_partial`). The same method is used by the logger of the library (server.go:38-57), which calls it under a mutex. |
| C135 | The key sets are slices that a refresh appends to while requests copy them; the lock of jwt.go:174 is between refreshes only. A slice is three words: a request that copies the pointer before and the length after a refresh has replaced the array accesses memory beyond the old array and takes what is there for a key, without a check of Go noticing (`C135_exact`, `C135_refuted`). That needs an append without spare capacity, which the second, third and fifth key are. The other models take key sets to be read at once. |
| C136 | Of the Authorization fields of a request the first is looked at, and of that the second word, while all fields are sent: an upstream that reads the last field trusts one that nobody has checked (`C136_second_refuted`). The scheme may be any (`C136_scheme_refuted`). Two spaces in front of the token, which RFC 7235 allows, make the handler panic if jwx takes nothing for no JWS message (`C136_spaces_refuted`). |
| C137 | With LOGCOLOR zerolog prints messages as they are, and the message about an unknown kid (proxy.go:632) carries the kid of the token, which may hold line ends: at LOGLEVEL=DEBUG whoever can reach a route with a jwt writes any lines into the log, with no valid token (`C137_colour_refuted`). In JSON every event is one line, but bytes that are no UTF-8 are all logged as U+FFFD, so that User-Agents with different such bytes look the same (`C137_bytes_refuted`). |
| C138 | Samples, the warning that memory doubled within a day and the uptime are logged at level debug: unless LOGLEVEL is DEBUG or TRACE none of them is ever written. |
| C139 | In TLS mode net/http speaks HTTP/2 by itself, but hop-by-hop headers of upstreams are still copied. net/http drops Connection and Transfer-Encoding; Keep-Alive (sent by node.js by default), Proxy-Connection and Upgrade go out and make the response malformed for clients that keep to RFC 7540 section 8.1.2.2. Connection: close from an upstream winds down the client's whole connection. |
| C140 | The steering of C17 passes net/http: for a route with transform `/`, `GET /mse6@evil.com:81/` makes a request with `Host: evil.com:81`; every host name and port can be reached so. |
| C141 | Over HTTP/2 a client can put spaces into the query, and the proxy writes them into the request line of the upstream: `:path` `/a?b HTTP/1.0` becomes `GET /a?b HTTP/1.0 HTTP/1.1`, which a lenient upstream reads as target `/a?b`. A Content-Length that is no number (400 over HTTP/1.1) sends the request upstream without its body. CONNECT, a known method, is answered 404 by net/http over HTTP/2. Hop-by-hop headers, which pass over HTTP/1.1 (C62), are kept out by net/http. |
| C142 | The answer to a CONNECT that an upstream served loses its body: the length is announced as 0, net/http refuses the bytes and closes the connection, having said keep-alive. A request with method `head` gets the upstream's Content-Length and no body: its client waits until the connection is closed. An upstream's `Connection: close, upgrade` is passed on and the connection stays open. A client of HTTP/1.0 that asked for keep-alive is told so although the connection is closed, if net/http did not read its request to the end (`C142_old_refuted`, a property of net/http with any handler). An upstream response with an empty Content-Encoding and no type gets a type that net/http guesses. |

Two remarks that are no claim of their own: `jwk.Fetch` has no timeout, so a refresh holds its lock as
long as the server keeps the connection open; the fields `RSAPublic`, `ECDSAPublic` and `Secret` of a jwt
could be set from the configuration file, though not to keys that verify anything (the theorems assume they
are not, `blank`; with the decoder of `Decode.v` this always holds).

## Wrong programs

`seeded/LOG.jsonl` has one line for each wrong version of the model that was tried: the definition, the
edit, the claim it breaks, the theorems that failed and those that were tightened.  The edited copy is
rebuilt; each proof that fails is cut out, and a theorem counts as failed if it depends on one that was.
