{"id": "C01", "title": "TCP segmentation does not change the parsed request", "statement": "For every well-formed HTTP/1.x request head that fits the configured limits, the method, path, raw query, protocol, header list (names, values, order), content length, transfer-encoding flags, connection/upgrade fields handed to the router, and the bytes left over for the body, are the same for every way the network splits the head into reads (including one byte at a time), and equal to what the head says.", "quantifier": "all well-formed request heads, all segmentations into reads, all limits with room for the head, all leftover bytes after the head", "why_tests_cant": "The number of segmentations is exponential in the length of the head and heads are unbounded; a test suite picks a handful of chunk sizes for a handful of heads.", "anchors": ["internal/protocol/http1/parser.go:Parser.Parse", "internal/protocol/http1/parser.go:Parser.cleanup", "internal/protocol/http1/suit.go:Suit.serve"]}
{"id": "C02", "title": "No bytes sent by a peer can crash the server process", "statement": "Whatever bytes a peer sends, in whatever segmentation, the request parser returns pending, completed or an error; it never panics (a panic in a connection goroutine is not recovered and takes the whole process down).", "quantifier": "all byte streams, all segmentations, all limits", "why_tests_cant": "Absence of a panic over all byte streams is a universal claim; a test only shows it for the streams it tries, and the existing ones always end lines with CRLF.", "anchors": ["internal/protocol/http1/parser.go:Parser.Parse", "internal/protocol/http1/parser.go:trimPrefixSpaces", "internal/tcp/server.go:Server.Start"]}
{"id": "C03", "title": "Header and request-line limits bound the memory a peer can make the server hold", "statement": "At any point of any connection, the bytes the parser keeps for the start line, the header names and the header values never exceed the configured maxima, and the number of headers handed to a handler never exceeds the configured maximal number, for any input including input that never completes.", "quantifier": "all byte streams, all segmentations, all limit settings, all points in time", "why_tests_cant": "It is an invariant over unbounded adversarial executions; tests check that one over-long input is refused.", "anchors": ["internal/protocol/http1/parser.go:Parser.Parse", "config/config.go:Headers", "internal/construct/constructors.go:Buffers"]}
{"id": "C04", "title": "Content-Length framing value is the decimal number the client sent", "statement": "When a request is accepted with a Content-Length header, the length the handler sees (and that frames the body) is exactly the decimal value written by the client; requests with conflicting or unrepresentable lengths are not silently given another length.", "quantifier": "all header values, all repetitions of the header in one request", "why_tests_cant": "Wrap-around needs 20-digit inputs and repeated headers interact through retained parser state; both are outside any finite sample.", "anchors": ["internal/protocol/http1/parser.go:Parser.Parse", "http/request.go:Request.ContentLength"]}
{"id": "C05", "title": "Header-field values cannot forge header names", "statement": "The names of headers handed to a handler never contain CR or LF, so a header name a handler sees is one line of the request.", "quantifier": "all byte streams and segmentations", "why_tests_cant": "Universal over adversarial byte streams.", "anchors": ["internal/protocol/http1/parser.go:Parser.Parse"]}
{"id": "C06", "title": "Transfer-Encoding: chunked is recognised and last-coding semantics hold", "statement": "If the Transfer-Encoding value is a comma-separated list that contains the token chunked (any letter case, surrounding spaces allowed), the request is framed as chunked, and the list of codings shown to the handler is exactly the list of the other tokens in order.", "quantifier": "all comma-separated values, all token limits", "why_tests_cant": "Token lists are unbounded and the limit on their number makes long lists behave differently.", "anchors": ["internal/protocol/http1/parser.go:parseEncodingString", "http/encoding.go:Encoding"]}
{"id": "C07", "title": "Keep-alive and pipelining: one response per request, in order", "statement": "On a connection carrying a sequence of well-formed requests with fixed-length bodies, however the bytes are segmented, the handler is invoked exactly once per request in order with that request's data, its body accessors yield exactly that request's body, and one response per request is written in the same order; bytes of one request are never interpreted as part of another, whether or not the handler reads the body.", "quantifier": "all sequences of requests of any length, all bodies, all segmentations, all handlers (reading the body fully, partly or not at all)", "why_tests_cant": "A statement about unbounded sequences of requests, with segment boundaries anywhere relative to the request boundaries.", "anchors": ["internal/protocol/http1/suit.go:Suit.serve", "internal/protocol/http1/body.go:Body", "internal/tcp/client.go:client.Read", "internal/tcp/client.go:client.Unread", "http/request.go:Request.Clear"]}
{"id": "C08", "title": "Fixed-length bodies are delivered exactly", "statement": "For a request with Content-Length n not above the size limit, Body.Bytes, Body.String, Body.Read (any buffer sizes), Body.Callback and Body.Retrieve all deliver exactly the next n bytes of the stream, in order, then end of file, and leave the following bytes unread for the next request.", "quantifier": "all n, all streams, all segmentations, all caller buffer sizes", "why_tests_cant": "The result must be independent of unbounded families of segmentations and of caller buffer sizes.", "anchors": ["internal/protocol/http1/body.go:Body", "internal/stash/reader.go:Reader.Read", "internal/tcp/client.go:client"]}
{"id": "C09", "title": "Body size limit is never exceeded", "statement": "No body accessor ever hands the application more than the configured maximal body size in bytes: a fixed-length body with a larger Content-Length and a chunked body growing larger end in an error before that many bytes are delivered.", "quantifier": "all streams, all limits, all content lengths, all chunk layouts (relative to the external chunk parser)", "why_tests_cant": "Invariant over unbounded adversarial streams.", "anchors": ["internal/protocol/http1/body.go:Body", "config/config.go:Body"]}
{"id": "C10", "title": "Chunked bodies: data delivered is the concatenation of the chunks", "statement": "For a chunked request the accessors deliver the concatenation of the chunk payloads reported by the chunk decoder, stop at its end-of-body signal, and push the bytes after the body back so that they start the next request.", "quantifier": "all behaviours of the chunk decoder that satisfy its contract, all segmentations", "why_tests_cant": "Depends on the interaction of pushed-back bytes and further reads for every segmentation.", "anchors": ["internal/protocol/http1/body.go:Body", "internal/tcp/client.go:client.Unread"]}
{"id": "C11", "title": "A handler never sees body data of an earlier request", "statement": "Whatever accessors earlier handlers on the connection used, the body data returned for a request consists only of bytes of that request.", "quantifier": "all histories of requests and accessor calls on one connection", "why_tests_cant": "Leaks depend on the order of accessor calls across requests; histories are unbounded.", "anchors": ["internal/protocol/http1/body.go:Body.Bytes", "internal/protocol/http1/body.go:Body.Init"]}
{"id": "C12", "title": "Requests on one connection are isolated from each other", "statement": "After a request has been handled and cleared, every request attribute visible to the next handler (query, path parameters, headers, content length and type, encodings, connection, upgrade, context, error environment) is a function of the new request only; the TLS marker of the connection survives.", "quantifier": "all pairs of consecutive requests on a connection, all states the first one left", "why_tests_cant": "Quantifies over arbitrary leftover states.", "anchors": ["http/request.go:Request.Clear", "http/query/query.go:Query.Set", "internal/protocol/http1/parser.go:Parser.cleanup"]}
{"id": "C13", "title": "Percent-decoding is correct and in place decoding is safe", "statement": "Decoding a path in place into its own memory gives exactly the percent-decoding of the original bytes; the output is never longer than the input; bytes of the buffer behind the path (the query string) are untouched; strings without escapes are returned unchanged.", "quantifier": "all byte strings, all memory contents around them", "why_tests_cant": "Aliasing between source and destination: correctness depends on the write position never overtaking the read position for any input.", "anchors": ["internal/uridecode/decoder.go:Decode", "internal/hexconv/hexconv.go:Parse", "internal/protocol/http1/parser.go:Parser.Parse"]}
{"id": "C14", "title": "Malformed percent escapes are rejected", "statement": "A path or query with a percent sign not followed by two hexadecimal digits is refused with a URI decoding error.", "quantifier": "all byte strings", "why_tests_cant": "Universal over inputs.", "anchors": ["internal/uridecode/decoder.go:Decode", "internal/hexconv/hexconv.go:Parse"]}
{"id": "C15", "title": "Query parameters round-trip", "statement": "If a client sends name/value pairs encoded as an application/x-www-form-urlencoded query, the parameters a handler reads are exactly those pairs in order.", "quantifier": "all lists of pairs of byte strings, names non-empty", "why_tests_cant": "Round trip over arbitrary data including separators inside names and values.", "anchors": ["http/query/query.go:Query", "http/query/internal/parser.go:Parse", "internal/uridecode/decoder.go:Decode"]}
{"id": "C16", "title": "A bad query is reported on every access", "statement": "If the query string is malformed, every call of the query accessors reports the error, not just the first one, and repeated accesses with a good query return the same answer.", "quantifier": "all queries, all sequences of accessor calls", "why_tests_cant": "State carried between accessor calls.", "anchors": ["http/query/query.go:Query.Get", "http/query/query.go:Query.Unwrap"]}
{"id": "C17", "title": "Header/parameter storage behaves as a case-insensitive ordered multimap", "statement": "After any sequence of Add, lookups return the first value added under a key equal up to letter case, Values returns all of them in insertion order, Keys returns each key once (spelling of first insertion, insertion order), Has agrees with Get, Clear empties, Clone is independent; lookups do not change the contents.", "quantifier": "all sequences of operations, all keys and values", "why_tests_cant": "Unbounded histories, internal reuse of result buffers.", "anchors": ["internal/keyvalue/storage.go:Storage", "http/headers/headers.go:Headers"]}
{"id": "C18", "title": "Cookies sent by a client are read back exactly", "statement": "For any list of name=value cookies joined with '; ' (names without '=' , ';' or leading space, values without ';'), the cookie jar contains exactly those pairs in order; any text without '=' is reported as a bad cookie.", "quantifier": "all lists of cookies", "why_tests_cant": "Round trip over unbounded data.", "anchors": ["http/cookie/jar.go:Parse", "http/request.go:Request.Cookies"]}
{"id": "C19", "title": "Set-Cookie lines contain exactly the attributes that were set", "statement": "Each cookie attached to a response yields one Set-Cookie line with name=value followed by exactly the attributes that were set, with their standard names, separated by '; '.", "quantifier": "all cookies with all combinations of attributes", "why_tests_cant": "All combinations of optional attributes and arbitrary values.", "anchors": ["internal/protocol/http1/serializer.go:Serializer.renderCookie", "http/cookie/cookie.go:Cookie"]}
{"id": "C20", "title": "Responses are framed correctly", "statement": "For every response without attachment, the bytes written are status line, one line per header, one blank line and body, such that an HTTP parser reading them recovers the status code, exactly the headers set plus defaults, cookies, content type and Content-Length equal to the body length, and exactly the body; nothing else is written.", "quantifier": "all responses whose header fields contain no line breaks, all previous contents of the connection's response buffer", "why_tests_cant": "Re-parsing every possible output is a universal statement over data.", "anchors": ["internal/protocol/http1/serializer.go:Serializer.Write"]}
{"id": "C21", "title": "Header values cannot inject response headers", "statement": "The number of header lines in the response equals the number of headers set, whatever bytes the values contain.", "quantifier": "all header values, including values taken from the decoded request path as the bundled redirecting middlewares do", "why_tests_cant": "Universal over attacker-controlled data.", "anchors": ["internal/protocol/http1/serializer.go:Serializer.renderHeaders", "router/inbuilt/middleware/httpsonly.go:HTTPSOnly"]}
{"id": "C22", "title": "Chunked streaming transmits the attachment exactly", "statement": "When a reader of unknown size is attached, what is written after the header is a valid chunked message body that decodes to exactly the bytes the reader produced, terminated by exactly one last-chunk, for any behaviour of the reader that ends with EOF.", "quantifier": "all readers (any sizes of partial reads, empty reads, data together with EOF), all buffer sizes", "why_tests_cant": "Chunk headers are rendered into the same buffer as the data; correctness depends on all read sizes.", "anchors": ["internal/protocol/http1/serializer.go:Serializer.writeChunkedBody"]}
{"id": "C23", "title": "Fixed-size attachments transmit the reader's content", "statement": "When a reader of known size is attached, the body written is exactly the bytes the reader produced.", "quantifier": "all readers, all buffer sizes", "why_tests_cant": "Readers have unboundedly many behaviours, among them returning data together with EOF.", "anchors": ["internal/protocol/http1/serializer.go:Serializer.writePlainBody"]}
{"id": "C24", "title": "Attachment responses obey the same rules as plain ones", "statement": "A response with an attachment carries the cookies that were set, closes the attachment in every case (also HEAD and write errors), and leaves the connection open exactly when a plain response would.", "quantifier": "all responses with attachments, all request methods and protocols, all writer failures", "why_tests_cant": "All combinations of method, protocol, connection header, size and failure.", "anchors": ["internal/protocol/http1/serializer.go:Serializer.sendAttachment"]}
{"id": "C25", "title": "HEAD responses carry the GET headers and no body", "statement": "The response to HEAD is byte for byte the response to GET cut after the blank line.", "quantifier": "all responses without attachment, all protocols", "why_tests_cant": "Equality of outputs for all responses.", "anchors": ["internal/protocol/http1/serializer.go:Serializer.Write"]}
{"id": "C26", "title": "Default headers appear on every response that does not override them", "statement": "Each configured default header is written exactly once in every response whose headers do not contain that name (up to case), and not at all in those that do, for every position of the response on the connection.", "quantifier": "all sequences of responses on a connection", "why_tests_cant": "State retained between responses; unbounded histories.", "anchors": ["internal/protocol/http1/serializer.go:defaultHeaders.Exclude", "internal/protocol/http1/serializer.go:defaultHeaders.Reset"]}
{"id": "C27", "title": "Connection persistence follows the protocol version and Connection header", "statement": "After a plain response the server closes iff the request was HTTP/1.0 without Connection: keep-alive or HTTP/1.1 with Connection: close (letter case ignored) or an unknown protocol, given no upgrade is requested.", "quantifier": "all protocols, all Connection values, all responses", "why_tests_cant": "Universal over header values.", "anchors": ["internal/protocol/http1/serializer.go:isKeepAlive", "internal/protocol/http1/serializer.go:Serializer.Write"]}
{"id": "C28", "title": "Status lines are well-formed", "statement": "Every response starts with the protocol version, a space, the three digit code that was set, a space, and the reason phrase; the reason phrase is the custom one if set, else the standard phrase for the code.", "quantifier": "all status codes, all custom phrases, all requests including those rejected as unsupported", "why_tests_cant": "Tables over all codes; custom phrase arbitrary.", "anchors": ["internal/protocol/http1/serializer.go:Serializer.renderResponseLine", "http/status/codes.go:Line", "http/status/codes.go:Text"]}
{"id": "C29", "title": "Static routing: exactly the registered routes answer", "statement": "With routes registered without path parameters: a request whose normalized path and method were registered reaches exactly that handler; HEAD falls back to the GET handler; a registered path with another method gives 405 with an Allow list of exactly the registered methods; any other path gives 404.", "quantifier": "all sets of routes, all registration orders, all requests", "why_tests_cant": "Quantifies over all route tables and all paths.", "anchors": ["router/inbuilt/inbuilt.go:runtimeRouter.onRequest", "router/inbuilt/registrar.go:registrar", "router/inbuilt/types.go:getAllowString"]}
{"id": "C30", "title": "Dynamic routing delivers the path parameters", "statement": "With templates registered, a request path matching a template position by position (static segments equal, each {name} one non-empty segment) reaches that template's handler and the parameters are exactly the wildcard names bound to the corresponding segments, in order, static segments taking precedence.", "quantifier": "all sets of templates, all insertion orders, all paths", "why_tests_cant": "Trees are unbounded; matching is greedy.", "anchors": ["router/inbuilt/internal/radix/tree.go:Node.Match", "router/inbuilt/internal/radix/tree.go:Node.Insert", "router/inbuilt/internal/radix/arrmap.go:arrMap"]}
{"id": "C31", "title": "Templates mean what they say", "statement": "Every template accepted at registration is split into exactly its path segments (static text or wildcard name), malformed templates are refused, and each well-formed template is accepted.", "quantifier": "all strings", "why_tests_cant": "Universal over strings; boundary cases at the last segment.", "anchors": ["router/inbuilt/internal/radix/template.go:Parse"]}
{"id": "C32", "title": "Trailing slashes do not matter for routing", "statement": "Paths differing only in trailing slashes are routed identically; normalization is idempotent and only ever strips trailing slashes.", "quantifier": "all paths", "why_tests_cant": "Universal over strings.", "anchors": ["router/inbuilt/uri/normalize.go:Normalize"]}
{"id": "C33", "title": "Middlewares run in the documented order", "statement": "For a handler registered in nested groups, middlewares run outermost group first, in order of registration within a group, then the route's own, then the handler, each exactly once.", "quantifier": "all group trees, all numbers of middlewares at every level, all registration orders of routes and Use calls", "why_tests_cant": "Unbounded nesting and interleaving of registrations.", "anchors": ["router/inbuilt/middlewares.go:compose", "router/inbuilt/groups.go:Router.prepare", "router/inbuilt/registrar.go:registrar.Apply"]}
{"id": "C34", "title": "Error handlers: the most specific one answers", "statement": "An error raised while serving is handled by the handler registered for exactly that error, else by the universal handler, else by a default response carrying the error's status code; error handlers of groups participate and only the router-level middlewares wrap them.", "quantifier": "all error handler tables and errors", "why_tests_cant": "All tables and all errors.", "anchors": ["router/inbuilt/inbuilt.go:runtimeRouter.onError", "router/inbuilt/route.go:Router.RouteError", "router/inbuilt/groups.go:Router.prepare"]}
{"id": "C35", "title": "Catchers: the longest matching prefix wins", "statement": "When no route matches, the catcher registered under the longest prefix of the path handles the request; without any such prefix the not-found error handler does.", "quantifier": "all catcher sets, all registration orders, all paths", "why_tests_cant": "All sets of prefixes; result must not depend on registration order.", "anchors": ["router/inbuilt/catchers.go:Router.Catch", "router/inbuilt/inbuilt.go:runtimeRouter.onError"]}
{"id": "C36", "title": "Static file serving never leaves its root", "statement": "For every request path, the file opened by a Static route is root plus a suffix of the request path that contains no '..' component, so lexical resolution stays below root.", "quantifier": "all request paths, all prefixes and roots, all histories of earlier requests through the shared path buffer", "why_tests_cant": "Path traversal is a universal claim over adversarial paths and buffer history.", "anchors": ["router/inbuilt/static.go:Router.Static", "internal/pathlib/pathlib.go:Path"]}
{"id": "C37", "title": "Static file serving is safe under concurrent connections", "statement": "With any number of connections being served concurrently, every Static request opens the file belonging to its own path, and the path that was checked is the path that is opened.", "quantifier": "all interleavings of any number of concurrent requests", "why_tests_cant": "A property of all schedules; tests run sequentially and a race detector only sees executed schedules.", "anchors": ["router/inbuilt/static.go:Router.Static", "internal/pathlib/pathlib.go:Path.Set", "internal/pathlib/pathlib.go:Path.Relative"]}
{"id": "C38", "title": "Static routes map the URL suffix to the file", "statement": "A request for prefix/rest is served from root/rest, also when the Static route is registered inside a group.", "quantifier": "all prefixes, group prefixes, roots and rests", "why_tests_cant": "Universal over strings and group nesting.", "anchors": ["router/inbuilt/static.go:Router.Static", "router/inbuilt/catchers.go:Router.Catch", "internal/pathlib/pathlib.go:Path"]}
{"id": "C39", "title": "TRACE echoes the request and nothing else", "statement": "The automatic TRACE answer contains exactly the request line and headers of the request being answered.", "quantifier": "all sequences of TRACE requests, on the same or different connections", "why_tests_cant": "State retained between requests of different clients.", "anchors": ["router/inbuilt/trace.go:renderHTTPRequest", "router/inbuilt/inbuilt.go:runtimeRouter.onError"]}
{"id": "C40", "title": "Virtual hosts: a request reaches the router registered for its host", "statement": "A request whose Host header is a host registered with Host(...) reaches that host's router; several or missing Host headers give the default router or 400; an unknown host gives the default router or 421.", "quantifier": "all host tables, all Host headers", "why_tests_cant": "All tables and strings.", "anchors": ["router/virtual/virtual.go:runtimeRouter.getRouter", "router/virtual/internal/domain/normalize.go:Normalize"]}
{"id": "C41", "title": "Each listener serves with its own transport marker", "statement": "With several listeners bound by one app, requests arriving at a listener are handled by the handler configured for it and marked with its encryption, for every request on the connection.", "quantifier": "all lists of listeners, all connections, all positions of the request on the connection", "why_tests_cant": "Depends on closure capture across loop iterations and on state reset between requests.", "anchors": ["indi.go:App.bind", "http/request.go:Request.Clear", "http/serve/http1.go:HTTP1", "router/inbuilt/middleware/httpsonly.go:HTTPSOnly"]}
{"id": "C42", "title": "Graceful stop: OnStop runs after every client is gone", "statement": "When OnStop is called, no connection handler is running and none will start.", "quantifier": "all interleavings of accepting, serving, stopping", "why_tests_cant": "Schedules.", "anchors": ["indi.go:App.run", "internal/tcp/server.go:Server.Start", "internal/tcp/server.go:Server.Pause", "internal/tcp/server.go:Server.Wait"]}
{"id": "C43", "title": "Stop requests terminate the application and do not block", "statement": "Every call of Stop or GracefulStop returns, and a running application eventually leaves Serve when all its clients end; no goroutine started by Serve outlives it.", "quantifier": "all interleavings, any number of Stop calls, any number of listeners, listener failures at any time", "why_tests_cant": "Schedules.", "anchors": ["indi.go:App.Stop", "indi.go:App.GracefulStop", "indi.go:App.run"]}
{"id": "C44", "title": "Log escaping prevents forged log lines", "statement": "The escaped form of any path contains no control characters, printable ASCII is unchanged, and every output byte is printable ASCII.", "quantifier": "all byte strings, including invalid UTF-8", "why_tests_cant": "Universal over byte strings, with rune iteration skipping bytes.", "anchors": ["http/path.go:Escape"]}
{"id": "C45", "title": "Methods, protocols and status tables are consistent", "statement": "Parsing a method or protocol token and printing it are inverse on the supported set and reject every other string; the preformatted status line of each code agrees with its code and reason phrase.", "quantifier": "all byte strings, all codes", "why_tests_cant": "Reject-everything-else is universal over strings.", "anchors": ["http/method/method.go:Parse", "http/proto/proto.go:FromBytes", "http/status/codes.go:Line"]}
{"id": "C46", "title": "Configuration: unset values get defaults, set values are kept", "statement": "Filling a configuration replaces exactly the zero-valued settings by the defaults and keeps all others; filling twice changes nothing; filling the defaults changes nothing.", "quantifier": "all configurations", "why_tests_cant": "All combinations of set and unset fields.", "anchors": ["config/config.go:Fill", "config/config.go:Default"]}
{"id": "C47", "title": "Upgrade handshake announces the protocol switched to", "statement": "When a request asks for an upgrade to a supported HTTP/1.x protocol, exactly one 101 response naming the chosen protocol precedes the response, for every upgrade on the connection, and the following responses use that protocol.", "quantifier": "all sequences of requests on a connection", "why_tests_cant": "State of the pre-response across requests.", "anchors": ["internal/protocol/http1/suit.go:Suit.serve", "internal/protocol/http1/serializer.go:Serializer.PreWrite", "http/proto/upgrade.go:ChooseUpgrade"]}
{"id": "C48", "title": "A response builder starts clean", "statement": "The response builder obtained for a request carries nothing of previous responses: code 200, no custom phrase, no headers, no cookies, no body, no attachment, default content type.", "quantifier": "all histories of builder calls before", "why_tests_cant": "All histories.", "anchors": ["http/response.go:Response.Clear", "http/response.go:Respond"]}
{"id": "C49", "title": "Header parameter helpers", "statement": "For a header value v;p1=x1;...;pn=xn the helpers return v, the value of a named parameter, the charset and the quality as written.", "quantifier": "all values and parameter lists", "why_tests_cant": "Universal over strings.", "anchors": ["http/headers/valueaccessors.go:ParamOf"]}
{"id": "C50", "title": "Path aliases", "statement": "A request to an alias is routed exactly as a request to its target and the original path remains available; other requests are untouched; error handling sees the same path as the handler.", "quantifier": "all alias tables, all requests", "why_tests_cant": "All tables and chains.", "anchors": ["router/inbuilt/mutator/alias.go:Alias", "router/inbuilt/inbuilt.go:runtimeRouter.OnRequest"]}
{"id": "C51", "title": "Router initialization is repeatable and registration order of groups is irrelevant", "statement": "Duplicate registrations of a method and path are refused wherever in the group tree they occur; without duplicates all routes of all groups are reachable under their full prefix.", "quantifier": "all group trees", "why_tests_cant": "Unbounded trees.", "anchors": ["router/inbuilt/registrar.go:registrar.Merge", "router/inbuilt/groups.go:Router.prepare", "router/inbuilt/inbuilt.go:Router.Initialize"]}
{"id": "C52", "title": "Content codings", "statement": "The coding manager returns data unchanged for empty/identity coding, applies exactly the registered coder for a token (including the x- aliases), and reports an error for unknown tokens.", "quantifier": "all tokens, all registered coders, all data", "why_tests_cant": "All tables.", "anchors": ["http/coding/codings.go:Manager"]}
{"id": "C53", "title": "Network bytes are neither lost nor duplicated by push-back", "statement": "For every sequence of reads and push-backs performed by the server, the bytes handed out, with pushed-back bytes handed out again first, are exactly the bytes received from the network in order.", "quantifier": "all read/unread sequences of the shape the server performs, all segmentations", "why_tests_cant": "Unbounded interleavings of reads and push-backs.", "anchors": ["internal/tcp/client.go:client"]}
{"id": "C54", "title": "Addresses are normalized", "statement": "An address without host part gets the wildcard host, any other is unchanged.", "quantifier": "all strings", "why_tests_cant": "Universal over strings.", "anchors": ["internal/address/address.go:Normalize"]}
{"id": "C55", "title": "A body cut short is reported", "statement": "When the connection ends or fails before the announced number of body bytes has arrived, the body accessors report an error; an incomplete body is never presented as complete and no received byte is dropped.", "quantifier": "all streams shorter than the announced length, all ways of ending", "why_tests_cant": "Tests feed complete bodies; the end-of-file value doubles as end of body, which only shows for truncated streams of every length.", "anchors": ["internal/protocol/http1/body.go:plainBodyReader.read", "internal/protocol/http1/body.go:Body.Bytes"]}
{"id": "C56", "title": "Body callbacks are only called with data", "statement": "Body.Callback calls the function only when at least one byte of the body was received and does not notify it of the end.", "quantifier": "all requests, all segmentations", "why_tests_cant": "Depends on how the last byte and the end of the body coincide for every segmentation.", "anchors": ["internal/protocol/http1/body.go:Body.Callback", "http/body.go:Body"]}
{"id": "C57", "title": "HTTP/1.0 clients never receive the chunked coding", "statement": "A response to an HTTP/1.0 request does not use Transfer-Encoding: chunked.", "quantifier": "all HTTP/1.0 requests, all responses the handler can build without naming the header itself", "why_tests_cant": "Needs every combination of protocol, attachment and size; tests only use HTTP/1.1 with streams.", "anchors": ["internal/protocol/http1/serializer.go:Serializer.sendAttachment", "internal/protocol/http1/serializer.go:Serializer.writeChunkedBody"]}
{"id": "C58", "title": "A file opened for a response is closed or handed over", "statement": "Response.TryFile either hands the opened file over to the response or closes it; on errors the response is unchanged.", "quantifier": "all paths, all results of opening and of stat, all response states", "why_tests_cant": "Tests do not count descriptors and do not let stat fail.", "anchors": ["http/response.go:Response.TryFile"]}
{"id": "C59", "title": "Taking over a connection hands over exactly the bytes behind the request", "statement": "When a handler takes over the connection, it gets the connection at the first byte behind its request (head and body), nothing written for this request; after it returns the server neither reads nor writes the connection any more.", "quantifier": "all requests with fixed-length or chunked bodies, all segmentations, all handlers that use the body in any way before", "why_tests_cant": "The boundary may fall anywhere inside a read and the body may be unread, partly read or read.", "anchors": ["internal/protocol/http1/suit.go:Suit.serve", "http/request.go:Request.Hijack", "internal/tcp/client.go:client.Unread"]}
{"id": "C60", "title": "Errors are handled independently of earlier requests", "statement": "What the error handler is told about a malformed request, and the response sent for it, depend only on the bytes of that request, not on the requests served before on the connection.", "quantifier": "all malformed requests, all sequences of earlier requests", "why_tests_cant": "Tests send malformed requests on new connections.", "anchors": ["internal/protocol/http1/suit.go:Suit.serve", "http/request.go:Request.Clear", "internal/protocol/http1/serializer.go:Serializer.Write"]}
{"id": "C61", "title": "A malformed head gets exactly one response and ends the connection", "statement": "When the parser rejects a head, exactly one response, complete with a status line, is written, and nothing is read or handled on the connection afterwards.", "quantifier": "all rejected byte streams, all segmentations, all error handlers", "why_tests_cant": "Universal over malformed streams and what follows them.", "anchors": ["internal/protocol/http1/suit.go:Suit.serve"]}
{"id": "C62", "title": "Errors behind a virtual router keep their status", "statement": "An error found on a connection (a bad request, an oversized header or URI) handed to a virtual router reaches the OnError of the router of the request's host, or of the default router, with the error unchanged; so the client sees the status of the error.", "quantifier": "all host tables, all requests, all errors, including errors found before the Host header is read", "why_tests_cant": "All tables and strings; errors occur before the Host header is known.", "anchors": ["router/virtual/virtual.go:runtimeRouter.OnError", "router/virtual/virtual.go:runtimeRouter.getRouter"]}
{"id": "C63", "title": "A failed Serve leaves no listener open", "statement": "When Serve returns because one of the listeners could not be bound, no listener bound before it stays open.", "quantifier": "all lists of listeners, all positions of the failure", "why_tests_cant": "All positions of the failure.", "anchors": ["indi.go:App.bind", "indi.go:App.Serve"]}
{"id": "C64", "title": "HTTPSOnly redirects to the same resource over https", "statement": "The HTTPSOnly middleware answers every plain request that has a host with 301 and a Location that is https, the host of the request (or RedirectTo), the configured port, and the path and query the client asked for; requests without a host get 400, requests over TLS are passed on unchanged.", "quantifier": "all requests, all Host values, all parameters, all handlers behind the middleware", "why_tests_cant": "Host values and paths are arbitrary strings, aliases rewrite the path before the middleware runs.", "anchors": ["router/inbuilt/middleware/httpsonly.go:HTTPSOnly", "router/inbuilt/middleware/httpsonly.go:removePort"]}
{"id": "C65", "title": "Bundled middlewares leave the exchange alone", "statement": "ServerHeader, LogRequests, CustomContext and Redirect work with every handler: ServerHeader adds exactly one header, LogRequests writes one line per logger (none for the code that closes the connection) and returns the response as it is, CustomContext changes the context only, Redirect answers its path only; a handler that may be used without them may be used behind them.", "quantifier": "all handlers, all requests, all responses including nil", "why_tests_cant": "All handlers and all orders of middlewares.", "anchors": ["router/inbuilt/middleware/serverheader.go:ServerHeader", "router/inbuilt/middleware/logging.go:LogRequests", "router/inbuilt/middleware/customcontext.go:CustomContext", "router/inbuilt/middleware/redirect.go:Redirect"]}
{"id": "C66", "title": "Recover turns panics into 500", "statement": "A panic in any middleware or handler behind Recover is answered with 500 Internal Server Error, and the connection goes on with the next request; a handler that does not panic gives the same result as without Recover.", "quantifier": "all handlers, all points at which they panic, all following requests", "why_tests_cant": "All handlers; the state left by a handler that was interrupted differs at each point.", "anchors": ["router/inbuilt/middleware/recover.go:Recover", "internal/protocol/http1/suit.go:Suit.serve"]}
{"id": "C67", "title": "The end of a connection is reported exactly once", "statement": "When a connection ends without having been taken over, the router's OnError has been called exactly once on it, as the last call: with ErrCloseConnection if the peer or a response ended it or a read or write failed, with the parser's error if the head was malformed. A connection taken over by a handler is not reported.", "quantifier": "all byte streams, all segmentations, all failures of reads and writes, all handlers", "why_tests_cant": "All the ways a connection can end, after any number of requests.", "anchors": ["internal/protocol/http1/suit.go:Suit.serve"]}
{"id": "C68", "title": "A response is what the calls on it say", "statement": "After any sequence of builder calls the response has the code, status, content type, transfer encoding and attachment of the last call that set them, all headers and cookies in the order of the calls, and the body of the last String, Bytes or JSON call followed by what was written since; Clear forgets everything before it. Header panics only for Content-Type or Transfer-Encoding without a value.", "quantifier": "all finite sequences of builder calls with all arguments", "why_tests_cant": "Unbounded sequences of calls.", "anchors": ["http/response.go:Response.Code", "http/response.go:Response.Header", "http/response.go:Response.Headers", "http/response.go:Response.Write", "http/response.go:Response.TryFile", "http/response.go:Response.JSON", "http/response.go:Response.Error", "internal/response/fields.go:Fields.Clear"]}
{"id": "C69", "title": "The verdict on a head does not depend on how its bytes arrive", "statement": "For every byte stream, well-formed or malformed, and any two ways of dividing it into reads, the request parser reaches the same outcome: it waits for more, accepts the same request leaving the same bytes, refuses it with the same error, or panics in both cases.", "quantifier": "all byte streams, all pairs of segmentations, all parser configurations", "why_tests_cant": "The number of segmentations of a stream is exponential and malformed streams are unbounded; tests fix a few splits of well-formed requests.", "anchors": ["internal/protocol/http1/parser.go:74-380"]}
{"id": "C70", "title": "A malformed request line gets the error of its defect", "statement": "A request line that fits the buffer but is malformed is refused with exactly the error of its first defect: empty method, missing version or empty path 400, unknown method 501, truncated escape 400 (URI decoding), unsupported version 505; regardless of segmentation and of what follows.", "quantifier": "all request lines, all segmentations, all following bytes", "why_tests_cant": "Malformed lines form an infinite set and each may be cut at any place; tests contain a handful.", "anchors": ["internal/protocol/http1/parser.go:99-184", "http/method/method.go:27-60", "http/proto/proto.go:38-52"]}
{"id": "C71", "title": "Exceeding a limit is refused with that limit's status", "statement": "A well-formed head whose headers exceed any configured limit (number, size of all names, size of all values, size of one value) is refused with 431; a request target longer than the URL buffer is refused with 414; an endless method is refused with 400 (or 501 when it arrives together with the space behind it). This holds for every segmentation and whatever follows.", "quantifier": "all well-formed heads, all limits, all segmentations, all following bytes", "why_tests_cant": "Tests try one limit with one head in one read; the check is spread over six places in the parser and every place must answer alike.", "anchors": ["internal/protocol/http1/parser.go:99-118", "internal/protocol/http1/parser.go:134-148", "internal/protocol/http1/parser.go:186-221", "internal/protocol/http1/parser.go:285-307"]}
{"id": "C72", "title": "A server with the built-in router answers every request with the response of the handler registered for it", "statement": "For a client sending well-formed requests, in any segmentation, the bytes sent are the responses, in order and each once, of the handlers the registrations designate: the handler of the route and method behind its middlewares with the path parameters, HEAD falling back to GET, 405 with the Allow list for other methods, the longest catcher or 404 for no route.", "quantifier": "all applications (registrations in any order, any map iteration order), all sequences of well-formed requests, all segmentations, all handlers within the stated class, all applications states", "why_tests_cant": "Combines all routes, all requests, all orders of map iteration and all segmentations with state shared between requests of a connection.", "anchors": ["internal/protocol/http1/suit.go:Suit.Serve", "router/inbuilt/inbuilt.go:runtimeRouter.OnRequest", "router/inbuilt/inbuilt.go:runtimeRouter.onRequest", "router/inbuilt/inbuilt.go:getHandler"]}
{"id": "C73", "title": "Bytes that are no request get one response with the status of their defect, and the connection ends", "statement": "When a malformed or oversized head follows any number of requests, the server sends exactly one more response, with the status code of the defect and an empty body, calls no handler for it, reads nothing more and closes the connection.", "quantifier": "all request sequences before it, all malformed request lines and oversized heads, all segmentations, all applications without own error handlers", "why_tests_cant": "All defects at all positions in all segmentations, after all histories of the connection.", "anchors": ["internal/protocol/http1/suit.go:Suit.Serve", "internal/protocol/http1/parser.go:Parser.Parse", "router/inbuilt/inbuilt.go:runtimeRouter.OnError", "router/inbuilt/defaulterrhandlers.go"]}
{"id": "C74", "title": "A map by key length returns exactly the first value inserted under a key", "statement": "For every history of Insert and Get on a new strlenmap.Map nothing panics, and every Get returns the value inserted first under exactly this key, or reports that there is none.", "quantifier": "all value types, all keys (of any length, also the empty one), all histories", "why_tests_cant": "Keys of equal length share a bucket and insertions resize the table; only a proof covers all histories of insertions of all lengths in all orders.", "anchors": ["internal/strlenmap/map.go:Map.Get", "internal/strlenmap/map.go:Map.Insert", "internal/strlenmap/map.go:Map.resize"]}
{"id": "C75", "title": "The simple router gives every request to the handler once and every malformed head to the error handler", "statement": "On a connection with the simple router, every well-formed request is given unchanged to the handler, once and in order, and its responses are sent. A malformed head is given to the error handler with the error in the environment, its response is sent and the connection ends.", "quantifier": "all handlers within the stated class, all request sequences, all segmentations, all malformed heads, all states of the application", "why_tests_cant": "All handlers and all streams in all segmentations.", "anchors": ["router/simple/simple.go:Router.OnRequest", "router/simple/simple.go:Router.OnError", "internal/protocol/http1/suit.go:Suit.Serve"]}
{"id": "C76", "title": "The request log has exactly one line per request, and none can be forged", "statement": "With the request-log mutator every logger gets one line per request, with its method and path, and no path can make it write a line break or another control character.", "quantifier": "all streams, segmentations, read and write errors, applications that do not write to the log themselves, and numbers of loggers", "why_tests_cant": "Log forging is about all paths, and the count is about all ways a connection can go.", "anchors": ["router/inbuilt/mutator/requestlogger.go:RequestsLog", "router/inbuilt/inbuilt.go:runtimeRouter.OnRequest", "router/inbuilt/inbuilt.go:runtimeRouter.OnError"]}
{"id": "C77", "title": "Generated requests are parsed as the requests they were generated from", "statement": "What requestgen.Generate writes for a URI and headers is parsed, in every segmentation, as a GET request with this path, query and these headers. Headers(n) are n different headers that can be sent, the last one the host.", "quantifier": "all paths, queries and headers without separators, all segmentations, all limits they fit into, all n", "why_tests_cant": "The benchmarks that use the generator assume it for the sizes they happen to use.", "anchors": ["internal/requestgen/genrequests.go:Generate", "internal/requestgen/genrequests.go:Headers", "internal/requestgen/genrequests.go:HeadersBlock", "internal/protocol/http1/parser.go:Parser.Parse"]}
{"id": "C78", "title": "A dumped request is read back as the same request", "statement": "What httptest.Dump writes for a request is read by httptest.Parse as a request with the same method, target, version, headers and body.", "quantifier": "all requests, all bodies", "why_tests_cant": "Round trips depend on every text of the request: path, parameters, header names and values, body.", "anchors": ["internal/httptest/dump.go:Dump", "internal/httptest/parse.go:Parse", "internal/httptest/parse.go:parseHeaders", "internal/httptest/parse.go:getContentLength"]}
{"id": "C79", "title": "The comparison of requests used by tests reports exactly the differences", "statement": "httptest.Compare returns no complaints exactly if the requests have the same method, path, version and body and the same values, in order, under every header name.", "quantifier": "all pairs of requests", "why_tests_cant": "A comparison that misses differences makes tests pass; whether it misses one is a statement about all pairs.", "anchors": ["internal/httptest/parse.go:Compare", "internal/httptest/parse.go:cmpSlice"]}
{"id": "C80", "title": "Request.JSON decodes exactly the request's body", "statement": "For a request whose content type is JSON or not given, Request.JSON hands the decoder exactly the body of that request and returns what the decoder says; for every other content type it returns 415 and leaves body and model alone.", "quantifier": "all requests, bodies, segmentations, decoders, any number of calls", "why_tests_cant": "Depends on the transport of the body in every segmentation and on every content type text.", "anchors": ["http/request.go:Request.JSON", "internal/protocol/http1/body.go:Body.Bytes"]}
{"id": "C81", "title": "Slices of the shared connection buffer behave like values", "statement": "Everything read from a connection goes through one buffer, and the parser, the body accessors, the stash reader and the push-back hand around slices of it. No byte that is still to be delivered is ever overwritten: served requests, answers of body accessors and written responses are the same as if every slice were a copy.", "quantifier": "all inputs, segmentations that fit the buffer, sequences of accessor calls, handlers, outcomes of writes", "why_tests_cant": "Overwriting depends on the interleaving of accessor calls with the segmentation of the input; tests deliver a body in one read.", "anchors": ["internal/tcp/client.go:client.Read", "internal/tcp/client.go:client.Unread", "internal/stash/reader.go:Reader.Read", "internal/protocol/http1/body.go:Body.Retrieve", "internal/protocol/http1/suit.go:Suit.serve"]}
{"id": "C82", "title": "The verdict on any stream is the one its lines say", "statement": "Whatever bytes arrive as the head of a request, in whatever pieces, the server does what the lines of the stream say: it waits for more, takes the request with exactly the meaning of its lines and leaves the bytes behind it, or refuses it with the error of its first defect and answers that with its status code in the version named last. There is exactly one such verdict for every stream.", "quantifier": "all byte streams, segmentations, limits, earlier requests of the connection", "why_tests_cant": "Tests try some malformed heads in a few pieces; the claim is a complete classification of all streams.", "anchors": ["internal/protocol/http1/parser.go:Parser.Parse", "internal/protocol/http1/suit.go:Suit.serve"]}
{"id": "C83", "title": "The self-signed certificate is usable", "statement": "Whenever AutoHTTPS gets a self-signed certificate for a local address, the certificate and the key on disk belong together and can be loaded, whatever happened to earlier runs (errors, full disk, process killed), the certificate is valid at that time and names the host; nothing else on disk is touched.", "quantifier": "all file systems, environments, failures and interruptions of any sequence of runs", "why_tests_cant": "Tests run it once on a working disk; failures and kills at every single operation cannot be enumerated by tests.", "anchors": ["https.go:generateSelfSignedCert", "https.go:cacheDir", "https.go:certExists", "https.go:mkdirIfNotExists"]}
{"id": "C84", "title": "AutoHTTPS uses a self-signed certificate exactly for local hosts", "statement": "AutoHTTPS adds one TLS listener: with a self-signed certificate exactly if the host is localhost or an IP address, and otherwise with certificates for exactly the given domains.", "quantifier": "all addresses and domain lists", "why_tests_cant": "Tests try two addresses.", "anchors": ["indi.go:App.AutoHTTPS", "internal/address/address.go:IsIP", "internal/address/address.go:IsLocalhost"]}
{"id": "C85", "title": "Every setting of the configuration takes effect", "statement": "A connection is served with the limits the application was tuned with: each setting of the configuration limits what its documentation says.", "quantifier": "all configurations, streams and applications", "why_tests_cant": "Tests use the default configuration or change one or two settings.", "anchors": ["http/serve/http1.go:HTTP1", "internal/construct/constructors.go:Buffers", "internal/protocol/http1/suit.go:Initialize", "config/config.go:Config"]}
{"id": "C86", "title": "The tests' client repeats its data", "statement": "The circular client returns its pieces in order, again and again, with pushed-back data first; one made one-time returns its data once.", "quantifier": "all data, all sequences of calls", "why_tests_cant": "It is what tests rely on; nothing tests it.", "anchors": ["internal/tcp/dummy/client.go:CircularClient.Read", "internal/tcp/dummy/client.go:CircularClient.Unread"]}
{"id": "C87", "title": "Serving once, again and again, is serving", "statement": "Calling ServeOnce until it returns false has the effect of Serve.", "quantifier": "all streams, applications, connection states", "why_tests_cant": "Benchmarks use ServeOnce, servers use Serve; that they agree is assumed.", "anchors": ["internal/protocol/http1/suit.go:Suit.ServeOnce", "internal/protocol/http1/suit.go:Suit.serve"]}
{"id": "C88", "title": "A failed write ends the output of a connection", "statement": "When a write to the connection fails, nothing more is written: the peer has received a prefix of what it would have received over a connection on which every write succeeds, and the connection is closed. Writes that all succeed leave everything else the same.", "quantifier": "all applications that leave writing to the server, all streams, all states of a connection, all outcomes of its writes", "why_tests_cant": "Tests use connections whose writes succeed; here every position of a failure in every stream of responses matters, in the middle of a file too.", "anchors": ["internal/protocol/http1/suit.go:Suit.serve", "internal/protocol/http1/serializer.go:Serializer.Write", "internal/protocol/http1/serializer.go:Serializer.sendAttachment", "internal/tcp/client.go:client.Write"]}
{"id": "C89", "title": "Each request goes to the host it names", "statement": "On a connection that carries requests for several virtual hosts, each request is answered by the router registered for its own Host header (or by the default router, or is refused with 400 or 421), whatever the requests before it named, and however the stream is cut into reads.", "quantifier": "all tables of virtual hosts, all sequences of well-formed requests, all segmentations, all ordinary handlers of the routers", "why_tests_cant": "Tests build requests for one host each; that the choice depends on nothing left over from earlier requests of the connection needs all sequences.", "anchors": ["router/virtual/virtual.go:runtimeRouter.OnRequest", "router/virtual/virtual.go:runtimeRouter.getRouter", "internal/protocol/http1/suit.go:Suit.serve"]}
{"id": "C90", "title": "Header fields are recognised by their names", "statement": "The server acts on a header field (as Content-Length, Transfer-Encoding, Content-Encoding, Content-Type, Connection, Upgrade or Trailer) exactly if the name of the field is that name up to letter case; comparing names word by word decides this, and a field with another name changes nothing but the list of headers.", "quantifier": "all field names, all values, all requests", "why_tests_cant": "The comparison packs up to eight bytes into an integer with a bit set in each; that no other name packs to the same words is a statement about 2^64 words.", "anchors": ["internal/protocol/http1/parser.go:encodeU64", "internal/protocol/http1/parser.go:encodeU32", "internal/protocol/http1/parser.go:encodeU16", "internal/protocol/http1/parser.go:Parser.Parse"]}
{"id": "C91", "title": "OPTIONS is supported by default", "statement": "As the comment on Router promises, OPTIONS requests are supported by default, including server-wide ones: OPTIONS * and OPTIONS on a registered path are answered with success and tell the allowed methods.", "quantifier": "all applications, all OPTIONS requests", "why_tests_cant": "No test sends OPTIONS; that no registration at all can make OPTIONS * work is a statement about all applications.", "anchors": ["router/inbuilt/inbuilt.go:Router", "router/inbuilt/inbuilt.go:isServerWideOptions", "router/inbuilt/inbuilt.go:runtimeRouter.onRequest"]}
{"id": "C92", "title": "Shorthands and resources register what their names say", "statement": "Router.Get, Head, Post, ... and the methods of Resource register the handler for the method they are named after, for the path of the router or the resource, behind the middlewares of all enclosing groups, of the resource and of the call, in this order, whenever Use was called.", "quantifier": "all sequences of calls, all paths, handlers and middlewares", "why_tests_cant": "Tests try a few methods; the order of middlewares over nested groups and resources has unboundedly many shapes.", "anchors": ["router/inbuilt/predicates.go", "router/inbuilt/resource.go:Resource.Route", "router/inbuilt/resource.go:Resource.Use"]}
{"id": "C93", "title": "Predefined errors are distinguishable and carry standard statuses", "statement": "The predefined HTTP errors are pairwise different under == (except for pairs meant to be the same), comparison of errors is equality of code and message, each error has a status code from 400 to 599 with a known reason phrase, except for the three signals to the server, and its message is that phrase up to letter case unless it has words of its own.", "quantifier": "all predefined errors, all errors an application makes", "why_tests_cant": "No test compares the errors; two errors with the same code and message would be the same key in the table of error handlers.", "anchors": ["http/status/errors.go", "http/status/errors.go:NewError", "http/status/errors.go:HTTPError.Error"]}
{"id": "C94", "title": "The example applications do what they say", "statement": "Served on a connection with the default configuration, each application in examples/ answers every well-formed request with the text its handlers spell out (200 with the page, 404, 405 with Allow, 418, 500 behind Recover), in order, whatever the requests and however they are split into reads, up to the first request that closes the connection; middlewares and combined log what they say they log; connhijack logs everything behind the request.", "quantifier": "all sequences of requests, all ways to split them into reads, all states of the application", "why_tests_cant": "The examples have no tests; each claim is about every request sequence and composes parser, router, middlewares, handlers, serializer and the connection loop.", "anchors": ["examples/helloworld/helloworld.go", "examples/helloworld_norouter/helloworld.go", "examples/dynroute/dynroute.go", "examples/middlewares/middlewares.go", "examples/combined/combined.go", "examples/connhijack/connhijack.go"]}
{"id": "C95", "title": "A file server sends the files of its directory", "statement": "An application whose only route is Static(prefix, root) answers every sequence of requests, in order: a path beneath the prefix gets the whole content of the file it names under the root, with the Content-Length and the media type its ending is registered for (application/octet-stream otherwise); HEAD gets the same head and no content; what cannot be opened, directories, paths with two dots in a row and paths outside the prefix get 404; a file without a status gets 500.", "quantifier": "all prefixes that Clean leaves alone, all roots, all file systems that do not change meanwhile and all ways reading splits the contents, all sequences of requests and all ways to split them into reads", "why_tests_cant": "The tests serve two or three files with one request each; the claim composes parser, router, path replacement, file lookup, serializer and the connection loop for all of them.", "anchors": ["router/inbuilt/static.go:13-46", "internal/pathlib/pathlib.go", "http/response.go:126-159", "http/mime/exts.go:3-29", "internal/protocol/http1/serializer.go"]}
{"id": "C96", "title": "Hooks are called at their moments, and Serve says why it stopped", "statement": "In every execution OnBind is called once per listener, in order, after listening succeeded; OnStart once, after every server was started; OnStop once, after every listener is closed and at most one client of each is left; a Serve that fails to listen calls OnBind for the listeners before and nothing else. The error a Serve returns is what Stop or GracefulStop sent or the error of an Accept that failed during it (for the first Serve; later ones may receive something left over).", "quantifier": "all lists of listeners, all hooks, all calls of Stop and GracefulStop by other goroutines, all interleavings, any number of Serves", "why_tests_cant": "The tests of the application set no hooks but OnStart and see one interleaving.", "anchors": ["indi.go:43-62", "indi.go:111-193"]}
{"id": "C97", "title": "An application can be stopped from its hooks and served again", "statement": "Stop and GracefulStop are documented as not blocking: a hook may call them and Serve then returns; after Serve returned it may be called again, and the application runs until it is told to stop or a listener fails.", "quantifier": "all lists of listeners, all hooks, all calls of Stop and GracefulStop, all interleavings", "why_tests_cant": "No test calls Stop from a hook or Serve twice; what happens depends on a goroutine left behind by the first Serve.", "anchors": ["indi.go:111-193", "indi.go:43-62"]}
{"id": "C98", "title": "Once Serve has returned nothing is listened on", "statement": "In every execution, when Serve has returned, every listener it opened is closed.", "quantifier": "all lists of listeners, all hooks, all interleavings, any number of Serves, listening failing at any point", "why_tests_cant": "No test lets listening fail behind a listener that succeeded.", "anchors": ["indi.go:129-149", "indi.go:151-177"]}
{"id": "C99", "title": "Connections do not influence each other", "statement": "However the connections of an application are interleaved, each is read, answered and ended exactly as if it were the only one, provided the application's own handlers do not share state; none waits for another.", "quantifier": "all applications of the built-in, simple and virtual routers with handlers that keep to their request, any number of connections, all bytes in all pieces, all interleavings of their rounds", "why_tests_cant": "Tests serve one connection at a time; what leaks shows only when somebody else asked before.", "anchors": ["internal/tcp/server.go:44-76", "http/serve/http1.go:14-24", "internal/protocol/http1/suit.go:58-121", "router/inbuilt/inbuilt.go:49-57", "router/inbuilt/inbuilt.go:136-141"]}
{"id": "C100", "title": "Building a response changes nothing else", "statement": "The calls that build a response write to no memory but the response's own: what a handler lends to it with Bytes or String, the constants of the program and the connection's buffer stay as they are, and the body is made of the bytes that were passed.", "quantifier": "all memory, all sequences of Bytes, String, Write, JSON, Error and Clear, all capacities and growth policies", "why_tests_cant": "Tests look at the body of the response, not at the memory behind the slice; whether append writes in place depends on capacities no test controls.", "anchors": ["http/response.go:108-123", "http/response.go:176-195", "internal/response/fields.go:25-34", "internal/protocol/http1/body.go:158-183", "internal/tcp/client.go:35-61"]}
{"id": "C101", "title": "Applications started at once share a usable certificate", "statement": "If several applications call AutoHTTPS for a local address at the same time on one machine, then all of them end up with a certificate and the key it is for.", "quantifier": "all numbers of processes, all interleavings of their file operations, all states of the cache directory, all keys and clocks", "why_tests_cant": "The interleavings of file operations of several processes cannot be chosen by a test, and the bad ones are rare.", "anchors": ["https.go:87-154", "https.go:156-172", "indi.go:88-109"]}
{"id": "C102", "title": "The private key is kept from other users", "statement": "No user but the one running the application can read the private key it writes to the cache directory.", "quantifier": "all umasks, all states and permissions of the cache directory and of the files in it, every moment of the run", "why_tests_cant": "Tests run with one umask in one home directory.", "anchors": ["https.go:136-150", "https.go:156-162"]}
{"id": "C103", "title": "Files and readers a handler brings are closed", "statement": "Every file a handler opens with File or TryFile, and every reader with a Close method it attaches, is closed once the response has been written, exactly once.", "quantifier": "all responses, all sequences of builder calls, all requests and clients, all readers", "why_tests_cant": "A lost descriptor changes no response; it shows only when a server runs out of descriptors, depending on the garbage collector.", "anchors": ["http/response.go:126-166", "http/response.go:227-230", "internal/protocol/http1/serializer.go:164-206"]}
{"id": "C104", "title": "The read timeout disconnects silent clients and nobody else", "statement": "A client is disconnected a ReadTimeout after it went silent; a client that keeps sending is served; no client keeps a connection beyond the timeout without sending a request.", "quantifier": "all arrival times of all bytes, all times the server spends between reads, all read sizes, all configurations", "why_tests_cant": "Depends on when bytes arrive relative to deadlines; tests use connections that are always ready.", "anchors": ["internal/tcp/client.go:35-50", "config/config.go:94-99", "config/config.go:163","config/config.go:211"]}
{"id": "C105", "title": "Any bytes a client sends, in any reads, are answered as the requests they contain", "statement": "Whatever bytes arrive, they are cut into requests in one way; each is answered by the handler the application has for it, in order, until a response closes the connection or what is left is no request; then the connection waits, or the error of the first defect is answered.", "quantifier": "all byte streams, all ways they are split into reads, all applications of ordinary handlers, all configurations, all chunked decoders that satisfy the contract", "why_tests_cant": "Tests send well-formed requests; nobody can send all byte streams in all splits to all applications.", "anchors": ["internal/protocol/http1/suit.go:57-122", "internal/protocol/http1/parser.go:63-517", "router/inbuilt/router.go:61-117"]}
{"id": "C106", "title": "The body of one request is never served as another request", "statement": "When a connection goes on after a request, the bytes taken since its head were exactly its body, and the next request is looked for right behind it.", "quantifier": "all bytes, all reads and read failures, all states of the connection, all handlers that leave the connection alone, all limits, all chunked decoders that do not lie", "why_tests_cant": "Depends on where a body is given up and on how the bytes behind it were split into reads; tests send one request per connection or bodies within the limits.", "anchors": ["internal/protocol/http1/body.go:205-228", "internal/protocol/http1/body.go:121-152", "internal/protocol/http1/suit.go:78-109", "http/request.go:169-186"]}
{"id": "C107", "title": "Serving a connection comes to an end", "statement": "No input makes the serving loop or a body accessor go round for ever: with finitely much input every connection ends after at most one round per read and byte.", "quantifier": "all inputs, all reads, all states of the connection, all handlers including ones that hijack or panic, all limits, all chunked decoders that make progress", "why_tests_cant": "A test that hangs shows one hanging input; that there is none is a statement about all of them.", "anchors": ["internal/protocol/http1/suit.go:57-122", "internal/protocol/http1/body.go:57-228", "internal/protocol/http1/serializer.go:61-240"]}
{"id": "C108", "title": "A cookie a handler sets is what the client sends back", "statement": "The cookies of a response reach the client as they were meant: name, value, domain, path, lifetime and flags; the client keeps the last one of each name, domain and path, and when it sends cookies back the handler reads what was sent.", "quantifier": "all lists of cookies whose text is not mistaken for structure, all other fields of the response, all clients that follow RFC 6265 section 5, all contents of the client's store, all times", "why_tests_cant": "The tests compare the text of a Set-Cookie line; they have no client that reads it, keeps it and sends it again.", "anchors": ["internal/protocol/http1/serializer.go:272-325", "http/cookie/cookie.go:1-84", "http/cookie/jar.go:1-65"]}
{"id": "C109", "title": "An expiry date means the same instant to the client", "statement": "The date written for Cookie.Expires is the calendar date of that instant in GMT, in the format RFC 7231 prefers, and a client reading it by the algorithm of RFC 6265 gets the instant back.", "quantifier": "all instants a time.Time can hold", "why_tests_cant": "Tests try one date; leap years, ends of centuries and the ends of the range are infinitely many cases.", "anchors": ["internal/protocol/http1/serializer.go:33", "internal/protocol/http1/serializer.go:291-297"]}
{"id": "C110", "title": "The client can tell the responses apart", "statement": "A client that reads the bytes sent on a connection by the rules of HTTP gets one message for every request that was answered, in the order of the requests, each with the status, fields and body the handler gave, and nothing is left over.", "quantifier": "all sequences of well-formed requests, all segmentations of them, all application states, all handlers that answer with responses that can be framed, all reading clients (HEAD, bodyless, Content-Length and chunked framing)", "why_tests_cant": "Tests compare single responses; a body that is one byte too long or short shows only in what a client makes of the response after it.", "anchors": ["internal/protocol/http1/serializer.go:69-230", "internal/protocol/http1/suit.go:58-170"]}
{"id": "C111", "title": "Mutators", "statement": "Every mutator registered on the router or any of its groups runs exactly once for every request that arrives, whatever its path, before it is routed; registering it on a group affects only the order: first those of the router, then those of its groups in the order of their creation, each followed by its own groups, within a group in the order of the calls.", "quantifier": "all lists of calls on the router and its groups, all mutators, all requests and errors", "why_tests_cant": "Tests register one mutator on the root; the order depends on the whole tree of groups, and that they run again at the end of a connection shows only in mutators that are not idempotent.", "anchors": ["router/inbuilt/mutator.go:7-18", "router/inbuilt/inbuilt.go:91-134", "router/inbuilt/inbuilt.go:170-174", "router/inbuilt/groups.go"]}
{"id": "C112", "title": "Handlers that panic", "statement": "A handler that panics costs at most its own request: the earlier requests of the connection are answered completely and in order, and later requests of the same connection and those of other connections are served.", "quantifier": "all handlers (panicking at any point, after any calls on the body), all pipelined well-formed requests, all cuts into reads, any number of connections, all interleavings", "why_tests_cant": "A panic ends the test process itself; which responses were already written depends on the point of the panic, the pipelining and the interleaving with other connections.", "anchors": ["internal/protocol/http1/suit.go:58-121", "internal/tcp/server.go:44-76", "router/inbuilt/middleware/recover.go"]}
