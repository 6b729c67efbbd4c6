# Formal model of indigo (HTTP/1.x web framework) in Rocq

## Approach

* `/repo` is read as text at its pinned commit and is never built or changed.
* Every Go function we talk about is transcribed into a total, computable Gallina
  function (`rocq/theories/M_*.v`, "M" for model).  Each definition cites file and lines.
  Panics, errors and nil are explicit values.  Go `int`/`uint` arithmetic is written
  with explicit wrap-around where a peer can drive it to overflow.
* Bytes are `Coq.Init.Byte.byte` (exactly 256 values), Go strings and byte slices are
  `list byte`.  Where aliasing matters (in-place decoding, path buffer, chunk rendering,
  cloned storages) the memory is modelled as one list and slices as ranges in it.  For the
  connection buffer both are there: values in `M_Client`/`M_Body`/`M_Suit`, ranges in
  `M_Mem`/`M_MemSuit`, and `P_Mem` (C81) says when they agree.
* Loops become structural recursion or recursion on explicit fuel.  Running out of fuel is
  a value of its own, and the theorems either say "for all fuel from some n on" or exclude
  the value in their conclusion.
* Handlers and middlewares are programs in a small free monad (`M_Suit.hprog`): they may read
  the request, change it, use every accessor of the body, hijack, panic, use state shared by
  all requests of the application, and return a response or nil.  Theorems quantify over
  all of them, or over the class named in the statement.
* Specifications live apart from the model (`S_*.v`, or next to the property statement):
  grammars (what a well-formed head is and what it means), decoders (percent decoding,
  chunked decoding, response reading), ordered multimaps, logs, registrations.
* Lemmas and proofs are in `L_*.v`; the property theorems are in `P_*.v` (nothing else in
  there but `Theorem ... exact lemma`, its `Print Assumptions`, and concrete examples).
  `Cnn_case` examples are tests and non-vacuity checks, not part of any claim.
* Where the code violates the property as a user would state it, we keep the property,
  prove a `..._refuted` theorem with a concrete witness evaluated on the model, and prove
  the strongest guarded version (`..._partial`) that does hold.

## Trusted base

* Coq 8.16.1's kernel (with its `vm_compute`, used in examples and refutations).
* No axioms of our own.  `Print Assumptions` stands under each property theorem, and says
  "Closed under the global context" for every one of them (table at the end).
  The only library axioms that a check of all loaded files can list are the seven of
  `Coq.ssr.ssrunder.Under_rel`, a module of the standard library that its own files load
  (`List` among them); no theorem depends on them.
* The faithfulness of the transcription, which can be reviewed definition by definition
  against the cited lines.
* External code that is not in `/repo` and enters the model as follows:
  * `utils/buffer.Buffer` - modelled from its use and documented behaviour (`M_Parser.v`): a byte
    array with a segment start; `Append` refuses to grow above the maximum.
  * `utils/strcomp.EqualFold` - equality after folding each byte with
    `fold : byte -> byte` (ASCII lower case).
  * `utils/uf` (zero-copy conversions) - identity on contents; aliasing is modelled where
    it matters (`M_Uri`, `M_Query.query_raw_after`, `M_KvHeap`, `M_Static`).
  * `chunkedbody.Parser` - an arbitrary step function with a stated contract
    (`S_Body.DecoderOk`; for bytes that are no coding `S_Sync.DecoderSound`, it does not lie, and
    `S_Ends.DecoderMoves`, it makes progress, and `S_Broken.DecoderHonest`, it hands out what is determined
    and reports only errors; section variables, theorems quantify over every such function).
    A reference decoder in `S_Chunk.v` is proved to meet the contract, so it is not vacuous.
  * Go's `bytes`, `strings`, `strconv`, `sort`, `path` functions - small Gallina functions.
  * Maps: iteration order is an arbitrary permutation given from outside.
  * `net.Conn`, `net.Listener`, `io.Reader`: adversarial oracles (lists of results, including
    errors, data together with errors, short writes).
  * JSON encoding and decoding, the file system: inputs of the model (what they return).
  * Goroutines, wait groups, channels: transition systems whose steps are single operations
    on something shared (`M_Server.v`, `M_Static.sh_*`); sequentially consistent interleaving.
  * `go.mod` says `go 1.18`: loop variables are shared between the iterations.
* Not modelled: TLS and cryptography (`https.go` is modelled as file operations), timeouts and deadlines other
  than as failing reads, `time` other than the format of cookie dates, allocation failure (apart from lengths that can
  never be allocated, C09), Go's memory model below sequential consistency, growth of slices
  by append (except in `M_KvHeap.v`), `internal/tcp/dummy/conn.go` (does nothing),
  `http/mime/common.go`, `version.go` (constants).

## What is modelled where

| model file | code in /repo |
|------------|---------------|
| `M_Base.v` | bytes, strings and the functions of Go's standard library that are used |
| `M_Status.v` | `http/status/codes.go`, `http/status/errors.go` |
| `M_Method.v` | `http/method/method.go`, `method_string.go` |
| `M_Proto.v` | `http/proto/proto.go`, `upgrade.go` |
| `M_Uri.v` | `internal/hexconv`, `internal/uridecode`: functional and in-place on memory |
| `M_KeyValue.v` | `internal/keyvalue/storage.go` (also `http/headers/headers.go`, which is an alias) |
| `M_KvHeap.v` | the arrays behind `keyvalue.Storage`, `Clone`, the parser's buffer behind its strings |
| `M_Query.v` | `http/query/query.go`, `http/query/internal/parser.go` |
| `M_Request.v` | `http/request.go` (the object, `NewRequest`, `Clear`), `http/encoding.go`, `http/encryption` |
| `M_Parser.v` | `internal/protocol/http1/parser.go` completely, `internal/construct/constructors.go` (buffers) |
| `M_Client.v` | `internal/tcp/client.go` (without deadlines) |
| `M_Body.v` | `internal/protocol/http1/body.go`, `internal/stash/reader.go`, `http/body.go`, `Request.Clear`, `Request.Hijack` |
| `M_Response.v` | `http/response.go`, `internal/response/fields.go`, `internal/types/attachment.go`, `http/cookie/cookie.go`, `http/mime/exts.go` |
| `M_Serializer.v` | `internal/protocol/http1/serializer.go` |
| `M_Suit.v` | `internal/protocol/http1/suit.go`, `http/serve/http1.go`, `router/router.go` |
| `M_CookieJar.v` | `http/cookie/jar.go`, `Request.Cookies` |
| `M_Time.v` | the call `Expires.In(gmt).Format(time.RFC1123)` in `serializer.go`, with the parts of Go's `time` it needs (trusted to be Go's algorithm) |
| `M_Escape.v` | `http/path.go` |
| `M_HeaderValue.v` | `http/headers/valueaccessors.go`, `strconv.Atoi` |
| `M_Coding.v` | `http/coding/codings.go` |
| `M_Config.v` | `config/config.go` |
| `M_Address.v` | `internal/address/address.go` |
| `M_Path.v` | `router/inbuilt/uri/normalize.go`, `path.Clean`, `path.Join` |
| `M_Radix.v` | `router/inbuilt/internal/radix` (templates, arrmap, tree) |
| `M_Router.v` | `router/inbuilt`: registrar, resources, groups, middlewares, catchers, aliases and mutators, error handlers, TRACE, `Initialize`, `OnRequest`, `OnError` |
| `M_Static.v` | `router/inbuilt/static.go`, `internal/pathlib/pathlib.go`; interleavings on the shared buffer |
| `M_Middleware.v`, `M_Bundled.v` | `router/inbuilt/middleware` (all of them) |
| `M_Virtual.v` | `router/virtual` |
| `M_App.v` | `indi.go`: `New`, `Listen`, `HTTPS`, `AutoHTTPS` (as sources), `Serve`, `bind` |
| `M_Server.v` | `indi.go`: `run`, `Stop`, `GracefulStop`; `internal/tcp/server.go` |
| `M_Life.v` | `indi.go`: `Serve`, `bind`, the calls of the hooks, Serve being called again |
| `M_Many.v` | the connections of a server at once: rounds of `suit.go`'s loop interleaved |
| `M_Overlap.v` | the same with handlers that run at the same time, each seeing any shared state |
| `M_RespMem.v` | the response's body as a slice of memory: `http/response.go` Bytes, String, Write, TryJSON, Clear |
| `M_Started.v` | `https.go` generateSelfSignedCert run by several processes at once, step by step |
| `M_Modes.v` | the permissions of the files and directories `https.go` makes |
| `M_Descr.v` | which readers a response holds and loses: `http/response.go` and the closing of attachments in the serializer |
| `M_Timed.v` | `internal/tcp/client.go` Read with its deadline over bytes that arrive in time |
| `M_Tools.v` | `internal/strlenmap`, `router/simple`, `mutator/requestlogger.go`, `internal/requestgen`, `internal/httptest` |
| `M_Examples.v` | `examples/` (as calls on a router) |
| `M_Errors.v` | `http/status/errors.go`: all predefined errors |
| `M_Resource.v` | `router/inbuilt/predicates.go`, `router/inbuilt/resource.go`: shorthands and resources |
| `M_Words.v` | the packed comparison of header names in `internal/protocol/http1/parser.go` |
| `M_Mem.v`, `M_MemSuit.v` | `internal/tcp/client.go`, `internal/protocol/http1/body.go`, `internal/stash/reader.go`, `internal/protocol/http1/suit.go` once more, with the buffer they share |
| `M_Https.v` | `https.go`: cache directory, self-signed certificate, as a program over a file system that may fail at every operation; `address.IsIP`; `AutoHTTPS` |
| `M_ServeHttp1.v` | `http/serve/http1.go`, `internal/construct`, `App.Tune`, `Suit.ServeOnce` |
| `M_Dummy.v` | `internal/tcp/dummy/client.go` |
| `M_Json.v` | `Request.JSON`, with the decoder as an input |

## Plan per property

| id | modelled | how |
|----|----------|-----|
| C01 | `Parser.Parse` byte-accurately, as a state machine over reads | spec grammar of a request head; induction over the segmentation with an invariant relating parser state to position in the head |
| C02 | same | refutation witnesses; guarded theorem: streams in which no LF directly follows a space or colon never panic |
| C03 | same | invariant over all streams |
| C04 | same | value theorem for a single all-digit header below 2^63; refutations for repetition and wrap |
| C05 | same | refutation; guarded by the grammar in C01 |
| C06 | `parseEncodingString` | spec split/trim; theorem within the token limit; refutation above it |
| C07 | suit loop over parser, body, client | simulation by a queue of requests (`S_Conn.Conversation`) |
| C08-C10, C53, C55, C56 | body readers, stash reader, client | induction over segmentations; oracle contract for the chunk parser |
| C11, C12 | `Body.Init/Bytes`, `Request.Clear` | refutation of the stale buffer; isolation theorems |
| C13, C14 | `uridecode.Decode`, `hexconv.Parse` | functional model and memory model, refinement proof; refutation |
| C15, C16 | query parser | round trip for data without separators; refutations |
| C17 | keyvalue storage | refinement to list of pairs; heap model for clones |
| C18, C19 | cookie jar, cookie rendering | round trip |
| C20-C28, C47, C57, C58 | serializer, response builder | independent response reader, inversion proof; refutations |
| C29-C35, C50, C51 | router | what a list of calls registers (`S_Router`), tables as lists, tree as inductive type |
| C36-C38 | static + pathlib | memory model; interleaving model for C37 |
| C39 | trace | refutation, exact history theorem |
| C88 | client writes with outcomes | simulation against a connection without failures |
| C89 | virtual router under the suit loop | C07's conversation, with the router chosen by the Host lines |
| C90 | packed words as numbers | Horner digits; byte-wise parser is the word-wise one |
| C91, C92 | predicates.go, resource.go over the router's calls | refutation; routing theorem of C29-C35 |
| C93 | table of all predefined errors | decision over the table |
| C94 | the applications of examples/ as lists of calls on a router | C82's dialogue, dispatch computed per application |
| C95 | an application with one Static route, over any file system | C82's dialogue; the path replacer in closed form; a registry of media types |
| C96 | phases of Serve around the goroutines of C43; hooks as a log | invariants over action lists |
| C97 | what earlier runs left, on the same channel | the goroutine that stays (C43) keeps its error |
| C98 | listeners of a Serve that returned | the same invariants |
| C99 | rounds of many connections in any order, one shared state, or any state seen by each handler | programs alike up to the state they leave; simulation by the connection alone |
| C100 | arrays with capacity, append in place or into a new array | whose memory the body is, from sizes alone; invariant over all calls |
| C101 | any number of processes taking turns on one file system | who wrote a file last; invariant over all schedules |
| C102 | permission bits next to the files | bits of a mode, from the umask and what was there before |
| C103 | readers numbered by the builder call that brought them, next to the response | the last call that sets the attachment; invariant over all sequences of calls |
| C104 | bytes with arrival times, reads with deadlines | invariant: the unread bytes are steady from a time not after now; C07 over the data of the reads |
| C105 | the connection loop over arbitrary reads, with the router | induction on the bytes left; each turn by the verdict on its head, the body's view and the dispatch |
| C106 | the body reader after any bytes, the clear after a response, the loop | invariant tying the bytes taken to the announced length or to a beginning of the coding; witness run for the refutation |
| C107 | every loop of the connection | a measure: bytes and reads left; each accessor, handler and round uses some of it |
| C108 | the rendered cookie line, the response fields, the cookie jar | independent reading of RFC 6265 section 5 (`S_Agent.v`); the line is read by C19's reader, attribute by attribute; induction over the lines |
| C109 | `time.Time.Format(RFC1123)` for instants in GMT | calendar as a relation, day after day; Go's arithmetic shown to step with it; the tokens of the text |
| C110 | the whole connection loop and serializer | a client that reads message after message (`S_Hears.v`), reading is a function; composition of C07 with the framing of C20, C22, C23 |
| C111 | the registration of mutators, `prepare`, `runMutators` | the tree of groups walked in pre-order (`S_Mutators.v`); aliases followed one by one for C50_exact |
| C112 | `serve` with handlers that panic (`HCrash`), the middleware Recover, all connections of a process (`M_Many.v`) | a conversation up to the first panic (`S_Crash.v`) |
| C40, C62 | virtual router | refutation for normalized registrations; theorem for hosts already normalized |
| C41, C63 | bind loop with Go 1.18 loop variable semantics; `Request.Clear` | refutation and exact characterisation |
| C42, C43 | accept loop / stop protocol as a transition system | invariants and refuting schedules |
| C44 | `Escape` with Go's UTF-8 range loop | all-strings theorem, refutation for printable claim |
| C45 | tables | exhaustive and structural proofs |
| C46 | config records | direct |
| C48, C68 | response builder | what a sequence of calls amounts to (`S_Builder`) |
| C49 | header helpers | string lemmas, refutations |
| C52 | coding manager | table lemmas |
| C54 | address | direct |
| C59-C61, C67 | the loop's ends | one lemma per way a round of the loop can end, then induction |
| C64-C66 | bundled middlewares | programs before and behind the middleware are compared |
| C69-C71 | the parser on arbitrary streams | simulation between two segmentations; classification of defects |
| C72, C73 | everything together | C07/C59/C61 instantiated with the built-in router and C29-C35 |
| C74-C79 | smaller packages | refinement to association lists; generic connection invariant for the log; round trips |
| C80, C81 | `Request.JSON`; the buffer shared by reads | refinement of the value model by the memory model |
| C82 | the parser on every stream in every segmentation | relational classification line by line, proved total, unique and followed; reads that begin within a name as a rewriting of the stream |
| C83, C84 | `https.go` as a program over files | relation of all executions, inversion; refuting executions |
| C85-C87 | configuration to connection, rounds, the tests' client | C72/C82 instantiated; inductions |

## Findings: where the code does not do what the property says

Each line is a theorem `exists witness, ...` evaluated on the model; the witness is in its
statement.

| theorem | what happens | where |
|---------|--------------|-------|
| `C02_refuted` | false as it stands. Two short requests with bare LF line ends make the parser index an empty slice; nothing recovers the panic. | `internal/protocol/http1/parser.go:Parser.Parse`, `internal/protocol/http1/parser.go:trimPrefixSpaces` |
| `C04_refuted_repeated` | two Content-Length headers are read as one number nobody sent | `internal/protocol/http1/parser.go:Parser.Parse`, `http/request.go:Request.ContentLength` |
| `C04_refuted_wrap` | a Content-Length of 2^63 and more wraps around, even to a negative length | `internal/protocol/http1/parser.go:Parser.Parse`, `http/request.go:Request.ContentLength` |
| `C05_refuted` | false as it stands: a line without a colon is glued to the next one. | `internal/protocol/http1/parser.go:Parser.Parse` |
| `C06_refuted_chunked_listed` | chunked is itself listed among the codings of the body | `internal/protocol/http1/parser.go:parseEncodingString`, `http/encoding.go:Encoding` |
| `C06_refuted_limit` | above the token limit the Transfer-Encoding header is ignored, and the chunked body is read as the next request | `internal/protocol/http1/parser.go:parseEncodingString`, `http/encoding.go:Encoding` |
| `C07_refuted` | false as it stands. Three pipelined requests; the handlers of the second and third drop their body and ask for it afterwards: both get the body of the first. | `internal/protocol/http1/suit.go:Suit.serve`, `internal/protocol/http1/body.go:Body` |
| `C09_connection_refuted` | A length that cannot be allocated: the handler that asks for the body does not get an error, and the client no response: the goroutine of the connection panics. | `internal/protocol/http1/body.go:Body`, `config/config.go:Body` |
| `C09_refuted_alloc` | Bytes reserves room for the announced length before anything is checked, so an absurd Content-Length panics | `internal/protocol/http1/body.go:Body`, `config/config.go:Body` |
| `C11_refuted` | false as it stands. Request 1 has the body "secret", read with Bytes; request 2 has the body "x", which is discarded before Bytes is called: the answer is "secret". | `internal/protocol/http1/body.go:Body.Bytes`, `internal/protocol/http1/body.go:Body.Init` |
| `C12_refuted_tls` | the TLS marker set once per connection does not survive the first request | `http/request.go:Request.Clear`, `http/query/query.go:Query.Set` |
| `C14_refuted` | an escape whose two characters are no hexadecimal digits is accepted, the digits counting as 0 | `internal/uridecode/decoder.go:Decode`, `internal/hexconv/hexconv.go:Parse` |
| `C15_refuted_ampersand` | an encoded & in a value is decoded before the text is split: a=b%26c=d is read as two pairs | `http/query/query.go:Query`, `http/query/internal/parser.go:Parse` |
| `C15_refuted_plus` | and the value "1+1" is read as "1 1" | `http/query/query.go:Query`, `http/query/internal/parser.go:Parse` |
| `C16_refuted` | the second access to a bad query reports no error | `http/query/query.go:Query.Get`, `http/query/query.go:Query.Unwrap` |
| `C16_refuted_raw` | Raw changes after the first access: parsing decodes it in place | `http/query/query.go:Query.Get`, `http/query/query.go:Query.Unwrap` |
| `C17_clone_deep_refuted` | but the clone is not the deep copy it is documented to be: its strings still lie in the parser's buffer and change with the next request on the connection. | `internal/keyvalue/storage.go:Storage`, `http/headers/headers.go:Headers` |
| `C18_refuted_piece` | A piece without '=' before a good cookie is not reported: it becomes part of the name. | `http/cookie/jar.go:Parse`, `http/request.go:Request.Cookies` |
| `C19_refuted` | the attribute is written MaxAge, the standard name is Max-Age | `internal/protocol/http1/serializer.go:Serializer.renderCookie`, `http/cookie/cookie.go:Cookie` |
| `C20_bodyless_refuted` | (2) a body set on a 204 response is sent, and is read as the start of the next response; | `internal/protocol/http1/serializer.go:Serializer.Write` |
| `C20_transfer_encoding_refuted` | (3) Transfer-Encoding set by the handler is announced, but the body is not encoded. | `internal/protocol/http1/serializer.go:Serializer.Write` |
| `C20_two_lengths_refuted` | Missing for the full C20, and false: (1) a Content-Length header set by the handler is sent beside the computed one; | `internal/protocol/http1/serializer.go:Serializer.Write` |
| `C21_https_only_refuted` | With the HTTPSOnly middleware the value comes from the decoded request path: a single plain HTTP request makes the server send a header of the client's choice. | `internal/protocol/http1/serializer.go:Serializer.renderHeaders`, `router/inbuilt/middleware/httpsonly.go:HTTPSOnly` |
| `C21_refuted` | Missing for the full C21, and false: a value with a line break adds a header line. | `internal/protocol/http1/serializer.go:Serializer.renderHeaders`, `router/inbuilt/middleware/httpsonly.go:HTTPSOnly` |
| `C22_refuted` | Missing, and false: with a buffer above 4 GiB a reader can return a piece whose size needs nine hexadecimal digits, and the slice bounds become negative. | `internal/protocol/http1/serializer.go:Serializer.writeChunkedBody` |
| `C23_refuted` | Missing for the full C23, and false: data returned together with EOF, which io.Reader allows, is lost; the body is then shorter than its Content-Length. | `internal/protocol/http1/serializer.go:Serializer.writePlainBody` |
| `C24_cookies_refuted` | Missing for the full C24, and false: cookies are not sent; | `internal/protocol/http1/serializer.go:Serializer.sendAttachment` |
| `C24_not_closed_refuted` | the attachment stays open for HEAD and when the head cannot be written; | `internal/protocol/http1/serializer.go:Serializer.sendAttachment` |
| `C24_persistence_refuted` | the connection is left open although a plain response would close it. | `internal/protocol/http1/serializer.go:Serializer.sendAttachment` |
| `C26_case_refuted` | of two defaults that differ only in case, one is sent although the response has the header; | `internal/protocol/http1/serializer.go:defaultHeaders.Exclude`, `internal/protocol/http1/serializer.go:defaultHeaders.Reset` |
| `C26_content_type_refuted` | a default Content-Type is sent beside the response's own one. | `internal/protocol/http1/serializer.go:defaultHeaders.Exclude`, `internal/protocol/http1/serializer.go:defaultHeaders.Reset` |
| `C26_never_back_refuted` | Missing for the full C26, and false: once overridden, a default never comes back; | `internal/protocol/http1/serializer.go:defaultHeaders.Exclude`, `internal/protocol/http1/serializer.go:defaultHeaders.Reset` |
| `C28_custom_refuted` | Missing for the full C28, and false: a custom phrase is not sent; | `internal/protocol/http1/serializer.go:Serializer.renderResponseLine`, `http/status/codes.go:Line` |
| `C28_digits_refuted` | a code of other than three digits is sent as it is. | `internal/protocol/http1/serializer.go:Serializer.renderResponseLine`, `http/status/codes.go:Line` |
| `C28_switching_refuted` | 101 has a non-standard phrase; | `internal/protocol/http1/serializer.go:Serializer.renderResponseLine`, `http/status/codes.go:Line` |
| `C28_version_refuted` | a request of an unsupported protocol is answered without a version; | `internal/protocol/http1/serializer.go:Serializer.renderResponseLine`, `http/status/codes.go:Line` |
| `C29_trace_refuted` | TRACE is answered with 200 at registered paths that do not have it | `router/inbuilt/inbuilt.go:runtimeRouter.onRequest`, `router/inbuilt/registrar.go:registrar` |
| `C30_backtracking_refuted` | a path matches a template, yet is not found: the tree does not come back from the static segment | `router/inbuilt/internal/radix/tree.go:Node.Match`, `router/inbuilt/internal/radix/tree.go:Node.Insert` |
| `C30_leftover_refuted` | parameters met on the way to a dead end are left to the error handler | `router/inbuilt/internal/radix/tree.go:Node.Match`, `router/inbuilt/internal/radix/tree.go:Node.Insert` |
| `C30_order_refuted` | two routes with the same segments (C31): which handler answers depends on the order in which Go iterates over its map | `router/inbuilt/internal/radix/tree.go:Node.Match`, `router/inbuilt/internal/radix/tree.go:Node.Insert` |
| `C30_root_refuted` | the root path is answered with 405 and an empty Allow list, without being registered | `router/inbuilt/internal/radix/tree.go:Node.Match`, `router/inbuilt/internal/radix/tree.go:Node.Insert` |
| `C31_accepts_refuted` | a well-formed template is refused | `router/inbuilt/internal/radix/template.go:Parse` |
| `C31_empty_segment_refuted` | an empty segment becomes part of the next one | `router/inbuilt/internal/radix/template.go:Parse` |
| `C31_refuses_refuted` | a malformed template is accepted | `router/inbuilt/internal/radix/template.go:Parse` |
| `C31_segments_refuted` | a template loses its last segment, when that is a single character | `router/inbuilt/internal/radix/template.go:Parse` |
| `C32_routed_refuted` | "/a" is found, "/a/" is not | `router/inbuilt/uri/normalize.go:Normalize` |
| `C32_short_refuted` | shorter paths keep all of them | `router/inbuilt/uri/normalize.go:Normalize` |
| `C34_trace_refuted` | ... nor does any handler get the 405 of a TRACE request | `router/inbuilt/inbuilt.go:runtimeRouter.onError`, `router/inbuilt/route.go:Router.RouteError` |
| `C34_universal_refuted` | the universal handler of the application does not get 405 | `router/inbuilt/inbuilt.go:runtimeRouter.onError`, `router/inbuilt/route.go:Router.RouteError` |
| `C36_panic_refuted` | ... or the handler panics | `router/inbuilt/static.go:Router.Static`, `internal/pathlib/pathlib.go:Path` |
| `C36_refuted` | false as it stands. Static("/static//", "/srv/files"): the catcher gets "/static", and a file outside of the root is opened. | `router/inbuilt/static.go:Router.Static`, `internal/pathlib/pathlib.go:Path` |
| `C37_other_file_refuted` | ... or simply gets the file of the other | `router/inbuilt/static.go:Router.Static`, `internal/pathlib/pathlib.go:Path.Set` |
| `C37_refuted` | false. Two requests at once: the first passes the check with its own path, and then opens the path of the second, which leaves the root. | `router/inbuilt/static.go:Router.Static`, `internal/pathlib/pathlib.go:Path.Set` |
| `C38_group_refuted` | false in groups: the prefix of the group is not replaced, but that many bytes are cut off | `router/inbuilt/static.go:Router.Static`, `router/inbuilt/catchers.go:Router.Catch` |
| `C38_neighbour_refuted` | other paths that start with the same letters are served, too, without their first letter | `router/inbuilt/static.go:Router.Static`, `router/inbuilt/catchers.go:Router.Catch` |
| `C39_refuted` | the trace buffer is never emptied: the second answer contains the first request | `router/inbuilt/trace.go:renderHTTPRequest`, `router/inbuilt/inbuilt.go:runtimeRouter.onError` |
| `C40_refuted` | false: hosts are registered without "www." and default ports, but the Host header is compared as it is | `router/virtual/virtual.go:runtimeRouter.getRouter`, `router/virtual/internal/domain/normalize.go:Normalize` |
| `C41_refuted` | false: New(":80").HTTPS(":443", ...): the connections of port 80 are marked as encrypted, so HTTPSOnly lets them pass | `indi.go:App.bind`, `http/request.go:Request.Clear` |
| `C41_second_refuted` | the mark of an encrypted connection is cleared with the first request, so HTTPSOnly redirects the second request on a TLS connection | `indi.go:App.bind`, `http/request.go:Request.Clear` |
| `C42_graceful_refuted` | the same after GracefulStop | `indi.go:App.run`, `internal/tcp/server.go:Server.Start` |
| `C42_refuted` | after Stop, a client that was accepted but not yet counted is served after OnStop was called | `indi.go:App.run`, `internal/tcp/server.go:Server.Start` |
| `C43_refuted` | the second call of Stop never returns | `indi.go:App.Stop`, `indi.go:App.GracefulStop` |
| `C44_refuted` | Missing for the full C44, and false: the loop runs over runes, so the continuation bytes of a multi-byte rune are copied. Here 0x9b (the 8-bit control CSI) reaches the log. | `http/path.go:Escape` |
| `C45_protocol_refuted` | Missing, and false: any byte is accepted in place of the dot, and HTTP/2.0 prints otherwise. | `http/method/method.go:Parse`, `http/proto/proto.go:FromBytes` |
| `C45_status_refuted` | the status line of 101 has a non-standard phrase | `http/method/method.go:Parse`, `http/proto/proto.go:FromBytes` |
| `C46_refuted` | Missing, and false: CookiesPreAllocate is dropped, so filling the defaults changes them. | `config/config.go:Fill`, `config/config.go:Default` |
| `C46_shrunk_refuted` | false: a maximum set below the default size leaves a buffer that starts bigger than it may ever be | `config/config.go:Fill`, `config/config.go:Default` |
| `C46_zero_body_refuted` | false: Body.MaxSize = 0 is documented to refuse all bodies (config.go:73-75), but Tune takes it for unset: bodies up to 512 MB are accepted; no configuration refuses all bodies | `config/config.go:Fill`, `config/config.go:Default` |
| `C47_accumulates_refuted` | false: the second 101 response on a connection repeats the headers of the first | `internal/protocol/http1/suit.go:Suit.serve`, `internal/protocol/http1/serializer.go:Serializer.PreWrite` |
| `C47_hijack_refuted` | false: no 101 response when the handler takes over the connection | `internal/protocol/http1/suit.go:Suit.serve`, `internal/protocol/http1/serializer.go:Serializer.PreWrite` |
| `C47_later_refuted` | false: after a switch to HTTP/1.1 the next response says HTTP/1.0 again | `internal/protocol/http1/suit.go:Suit.serve`, `internal/protocol/http1/serializer.go:Serializer.PreWrite` |
| `C47_names_old_refuted` | false: the 101 response to an upgrade from 1.0 to 1.1 names HTTP/1.0 | `internal/protocol/http1/suit.go:Suit.serve`, `internal/protocol/http1/serializer.go:Serializer.PreWrite` |
| `C49_refuted` | Missing, and false: other spellings of quality. 0.75 ranks above 0.9, 1 and 0 rank like 0.9; with a space after the semicolon no parameter is found at all. | `http/headers/valueaccessors.go:ParamOf` |
| `C49_refuted_space` | with a space after the semicolon no parameter is found | `http/headers/valueaccessors.go:ParamOf` |
| `C50_chain_refuted` | through two aliases, the original path is lost | `router/inbuilt/mutator/alias.go:Alias`, `router/inbuilt/inbuilt.go:runtimeRouter.OnRequest` |
| `C50_error_path_refuted` | error handling applies the aliases once more to the path of the handler: it sees another path than the handler has seen | `router/inbuilt/mutator/alias.go:Alias`, `router/inbuilt/inbuilt.go:runtimeRouter.OnRequest` |
| `C50_slash_refuted` | an alias does not apply to its path with a trailing slash, while routes do (C32) | `router/inbuilt/mutator/alias.go:Alias`, `router/inbuilt/inbuilt.go:runtimeRouter.OnRequest` |
| `C51_names_refuted` | without duplicates, a router may still not start: parameters of different names | `router/inbuilt/registrar.go:registrar.Merge`, `router/inbuilt/groups.go:Router.prepare` |
| `C51_repeat_middlewares_refuted` | ... without groups, the middlewares run twice afterwards | `router/inbuilt/registrar.go:registrar.Merge`, `router/inbuilt/groups.go:Router.prepare` |
| `C51_repeat_refuted` | Initialize is not repeatable: with a group, the second call panics ... | `router/inbuilt/registrar.go:registrar.Merge`, `router/inbuilt/groups.go:Router.prepare` |
| `C55_refuted` | false as it stands: when the peer closes the connection in the middle of a body, the truncated body is delivered as if it was complete. | `internal/protocol/http1/body.go:plainBodyReader.read`, `internal/protocol/http1/body.go:Body.Bytes` |
| `C55_refuted_chunked` | Missing: the orderly close, for chunked bodies as well | `internal/protocol/http1/body.go:plainBodyReader.read`, `internal/protocol/http1/body.go:Body.Bytes` |
| `C55_refuted_with_error` | bytes that a read returns together with an error are dropped | `internal/protocol/http1/body.go:plainBodyReader.read`, `internal/protocol/http1/body.go:Body.Bytes` |
| `C56_refuted` | false as it stands: for a request without a body the callback is called with nothing | `internal/protocol/http1/body.go:Body.Callback`, `http/body.go:Body` |
| `C56_refuted_chunked` | For a chunked body the callback is also called with nothing: after the size line and at the end. | `internal/protocol/http1/body.go:Body.Callback`, `http/body.go:Body` |
| `C57_refuted` | an attachment of unknown size is sent chunked also to an HTTP/1.0 client | `internal/protocol/http1/serializer.go:Serializer.sendAttachment`, `internal/protocol/http1/serializer.go:Serializer.writeChunkedBody` |
| `C58_refuted` | Missing, and false: the descriptor of a directory is neither closed nor handed over. | `http/response.go:Response.TryFile` |
| `C60_refuted` | false. The same malformed request, first on a connection and after a HEAD request: the error handler is told the path of the HEAD request, and the response is sent without its body although its length is announced. | `internal/protocol/http1/suit.go:Suit.serve`, `http/request.go:Request.Clear` |
| `C61_refuted` | false for an unknown version: the response has no version | `internal/protocol/http1/suit.go:Suit.serve` |
| `C62_refuted` | false: an error that comes before the Host header is read has no host, and is answered with 400 | `router/virtual/virtual.go:runtimeRouter.OnError`, `router/virtual/virtual.go:runtimeRouter.getRouter` |
| `C63_refuted` | when binding fails, the listeners bound before stay open | `indi.go:App.bind`, `indi.go:App.Serve` |
| `C64_ipv6_refuted` | nor does it work for IPv6 addresses: the host is cut at the first colon | `router/inbuilt/middleware/httpsonly.go:HTTPSOnly`, `router/inbuilt/middleware/httpsonly.go:removePort` |
| `C64_refuted` | false as it stands: the query is lost | `router/inbuilt/middleware/httpsonly.go:HTTPSOnly`, `router/inbuilt/middleware/httpsonly.go:removePort` |
| `C65_refuted` | false as it stands: a handler may return nil, but not behind these two | `router/inbuilt/middleware/serverheader.go:ServerHeader`, `router/inbuilt/middleware/logging.go:LogRequests` |
| `C69_limit_refuted` | C69 does not hold of request lines at the limit either: the method counts only when it does not arrive in one piece | `internal/protocol/http1/parser.go:74-380` |
| `C69_refuted` | C69 does not hold of header lines with a LF in the name: in one read the name is "ab LF cd", in two reads the head ends at the LF and the rest becomes the next request | `internal/protocol/http1/parser.go:74-380` |
| `C70_refuted` | C70 does not hold of a line that ends with a space: there is no answer, the parser panics | `internal/protocol/http1/parser.go:99-184`, `http/method/method.go:27-60` |
| `C72_refuted` | The root path of an application with parameters is answered with 405 and an empty Allow list, though no route is registered for it. | `internal/protocol/http1/suit.go:Suit.Serve`, `router/inbuilt/inbuilt.go:runtimeRouter.OnRequest` |
| `C73_refuted` | A request line that ends with a space gets no response: the goroutine of the connection panics. | `internal/protocol/http1/suit.go:Suit.Serve`, `internal/protocol/http1/parser.go:Parser.Parse` |
| `C76_refuted` | false as it stands: when the only request has been answered and the client goes away, it is logged again | `router/inbuilt/mutator/requestlogger.go:RequestsLog`, `router/inbuilt/inbuilt.go:runtimeRouter.OnRequest` |
| `C78_chunked_refuted` | a chunked body is dumped with Content-Length: 0, and the dump is refused | `internal/httptest/dump.go:Dump`, `internal/httptest/parse.go:Parse` |
| `C78_refuted` | the path is dumped decoded, a space in it is read back as the end of the target | `internal/httptest/dump.go:Dump`, `internal/httptest/parse.go:Parse` |
| `C80_refuted` | Missing: content types that say JSON otherwise are refused, with parameters as well as in another case | `http/request.go:Request.JSON`, `internal/protocol/http1/body.go:Body.Bytes` |
| `C81_refuted` | Read keeps a slice of the connection buffer between calls. When another accessor reads from the connection meanwhile, the next Read returns what that one has read instead of the bytes held back: of the body "abcd" in two reads, Read (1 byte), Retrieve, Read (1 byte) gives "a", "cd", "d"; the byte "b" is lost and "d" delivered twice. | `internal/tcp/client.go:client.Read`, `internal/tcp/client.go:client.Unread` |
| `C82_refuted` | A request none of whose lines is named Content-Length has a length, and the next five bytes are taken for its body: a CR inside the name counts as '-'. | `internal/protocol/http1/parser.go:Parser.Parse`, `internal/protocol/http1/suit.go:Suit.serve` |
| `C83_expired_refuted` | false: a pair is returned however long it has expired, and it never names a host: for every time after its end and every host it is not usable | `https.go:generateSelfSignedCert`, `https.go:cacheDir` |
| `C83_mismatch_refuted` | false: the certificate was removed, and the key can not be written: a new certificate is left beside the old key, and the next call returns the two | `https.go:generateSelfSignedCert`, `https.go:cacheDir` |
| `C83_refuted` | false: if the disk is full when the key is written, the call fails and TLS is disabled, but the next call takes the empty key file for a good one; from then on New(":80").AutoHTTPS(":443") can not be served at all | `https.go:generateSelfSignedCert`, `https.go:cacheDir` |
| `C84_domains_refuted` | false: AutoHTTPS(":443", "example.com"): the domain is forgotten, whatever the certificate, which is the self-signed one | `indi.go:App.AutoHTTPS`, `internal/address/address.go:IsIP` |
| `C84_ipv6_refuted` | false: IPv6 addresses, even ::1, are not taken for IP addresses; a certificate is asked for from the authority instead | `indi.go:App.AutoHTTPS`, `internal/address/address.go:IsIP` |
| `C85_key_refuted` | false: with MaxKeyLength = 3 a header with a name of 4 bytes is still accepted, and files are read in pieces of ResponseBuffSize, 1 KiB by default, instead of FileBuffSize, 64 KiB | `http/serve/http1.go:HTTP1`, `internal/construct/constructors.go:Buffers` |
| `C86_refuted` | false: a OneTime client gives one piece only, whatever it was made from, and loses what is pushed back; and one made from nothing panics when it is read | `internal/tcp/dummy/client.go:CircularClient.Read`, `internal/tcp/dummy/client.go:CircularClient.Unread` |
| `C90_refuted_length` | C90, false as it stands: CR is taken for the hyphen: a field whose name no other implementation takes for Content-Length or Transfer-Encoding frames the body. | `internal/protocol/http1/parser.go:encodeU64`, `internal/protocol/http1/parser.go:encodeU32` |
| `C90_refuted_transfer` | likewise Transfer<CR>Encoding: chunked makes the body chunked | `internal/protocol/http1/parser.go:encodeU64`, `internal/protocol/http1/parser.go:encodeU32` |
| `C91_path_refuted` | ... and an OPTIONS request for a resource with 405 | `router/inbuilt/inbuilt.go:Router`, `router/inbuilt/inbuilt.go:isServerWideOptions` |
| `C91_refuted` | "OPTIONS (including server-wide ones)" are not supported by default: a server-wide OPTIONS request is answered with 404, ... | `router/inbuilt/inbuilt.go:Router`, `router/inbuilt/inbuilt.go:isServerWideOptions` |
| `C94_index_refuted` | false: combined registers a handler for POST "/" that logs what is said, but no request ever reaches it: the alias of "/" takes every method to the file index.html | `examples/helloworld/helloworld.go`, `examples/helloworld_norouter/helloworld.go` |
| `C94_order_refuted` | false: the example says that its second middleware runs "before first one"; it runs after it | `examples/helloworld/helloworld.go`, `examples/helloworld_norouter/helloworld.go` |
| `C97_again_refuted` | an application stopped by Stop and served again stops by itself: nobody called Stop again, no Accept failed during the second Serve | `indi.go:111-193`, `indi.go:43-62` |
| `C97_refuted` | an OnStart that stops the application - Stop is documented as not blocking - makes it hang: clients are served, Serve never returns | `indi.go:111-193`, `indi.go:43-62` |
| `C98_refuted` | an application of two listeners, the second of which cannot be opened: Serve returns its error and leaves the first open, so that serving again on that address may fail | `indi.go:129-149`, `indi.go:151-177` |
| `C99_crash_refuted` | REFUTED: connections do not end each other: nothing recovers from a panic of a handler, so it ends the process, and every other connection with it, here in the middle of a request. | `internal/tcp/server.go:44-76`, `http/serve/http1.go:14-24` |
| `C99_refuted` | REFUTED: answers go to the one who asks: TRACE is answered from a buffer of the router that all connections share and nothing empties, so a client that asks for it is sent the headers - cookies, authorization - of the clients that asked before. | `internal/tcp/server.go:44-76`, `http/serve/http1.go:14-24` |
| `C100_buffer_refuted` | Two requests arrive at once: a POST with the body "GET /b", then "GET /a". The handler of the POST echoes the body twice, Bytes(data) and Write(data); the response is as it should be, but the server then answers "GET /b", which nobody requested, and never sees "GET /a". | `http/response.go:108-123`, `http/response.go:176-195` |
| `C100_crash_refuted` | A middleware that turns the text of an error into JSON: String("internal server error"), as onError does, then JSON. The encoder's 14 bytes are written over the constant, which is in read-only memory, and the process ends. | `http/response.go:108-123`, `http/response.go:176-195` |
| `C100_refuted` | JSON empties the body in place and writes over whatever Bytes lent to it: after Bytes(b).JSON(1), the caller's b reads "1ello". | `http/response.go:108-123`, `http/response.go:176-195` |
| `C101_early_refuted` | an application that is started while another one is between creating the key's file and writing it takes the two files for a pair, and cannot load them: the key's file is empty | `https.go:87-154`, `https.go:156-172` |
| `C101_refuted` | two applications are started on a machine that has no certificate yet. The second is faster between the first one's writing of the certificate and of the key: both report success, the certificate on the disk is the second one's and the key the first one's, and neither they nor any later start can load the pair: every later start finds the files and takes them | `https.go:87-154`, `https.go:156-172` |
| `C102_refuted` | the cache directory is there, open to everybody (0755), and the umask is the usual 022: the private key is written with permissions 0644, and every user of the machine can read it | `https.go:136-150`, `https.go:156-162` |
| `C103_refuted` | false: a file that another one replaces, one that Clear or request.Respond drops, a directory, and the file of an answer to HEAD are not closed | `http/response.go:126-166`, `http/response.go:227-230` |
| `C104_negative_refuted` | C104 also fails for negative timeouts, which the configuration keeps: every read fails at once, whatever has arrived: each connection is closed unanswered | `internal/tcp/client.go:35-50`, `config/config.go:94-99` |
| `C104_refuted` | C104 is false as documented: the timeout bounds each read, not the client: one that sends one byte per timeout keeps its connection for as long as it likes without ever sending a request: nothing limits the digits of Content-Length | `internal/tcp/client.go:35-50`, `config/config.go:94-99` |
| `C105_reads_refuted` | the same bytes are not cut into requests in one way: it depends on the reads whether a line feed within a header name is a part of the name, so that two requests get one answer or two | `internal/protocol/http1/suit.go:57-122`, `internal/protocol/http1/parser.go:63-517` |
| `C105_refuted` | C105 is false in full: bytes that are no request may get no answer and end in a panic: a request line that ends with a space (C70) | `internal/protocol/http1/suit.go:57-122`, `internal/protocol/http1/parser.go:63-517` |
| `C106_refuted` | The body of a request is served as a request. The client sends two requests without defect; the body of the first is longer than allowed, its handler is told so and answers with 413. The connection goes on nevertheless: the bytes behind the refused body that were read together with it (the head of the second request) are lost, and the next ones (its body) are taken for the rest of the refused body and for a third request, GET /c, which the client never sent. | `internal/protocol/http1/body.go:205-228`, `internal/protocol/http1/body.go:121-152` |
| `C108_age_refuted` | For the same reason a cookie meant for an hour lasts as long as the client is open. | `internal/protocol/http1/serializer.go:272-325`, `http/cookie/cookie.go:1-84` |
| `C108_names_refuted` | Names: a client keeps "id" and "ID" apart and sends both, the jar a handler asks does not: asked for "ID" it gives the value of "id". | `internal/protocol/http1/serializer.go:272-325`, `http/cookie/cookie.go:1-84` |
| `C108_refuted` | A cookie deleted by MaxAge -1 is kept for good: the attribute is written "MaxAge=0", the clients' name for it is Max-Age. | `internal/protocol/http1/serializer.go:272-325`, `http/cookie/cookie.go:1-84` |
| `C109_never_refuted` | A date behind the year 9999, meant as "never", can not be read: the cookie ends with the session. | `internal/protocol/http1/serializer.go:33`, `internal/protocol/http1/serializer.go:291-297` |
| `C109_refuted` | A date of the year 50, long past, is read as one of the year 2050. | `internal/protocol/http1/serializer.go:33`, `internal/protocol/http1/serializer.go:291-297` |
| `C110_method_refuted` | a handler that changes request.Method to HEAD (and nothing else that matters to the connection) gets its body left out although its length is announced: the client takes the beginning of the next response for the body, and what is left of that for a response. | `internal/protocol/http1/serializer.go:69-230`, `internal/protocol/http1/suit.go:58-170` |
| `C110_refuted` | false as it stands. The handler answers the first request with status 204 and a body; the body is sent, and the client takes it for the answer to its second request. What the handler said to that comes third, unasked for. | `internal/protocol/http1/serializer.go:69-230`, `internal/protocol/http1/suit.go:58-170` |
| `C111_refuted` | false: the mutators run on a request again when its connection ends | `router/inbuilt/mutator.go:7-18`, `router/inbuilt/inbuilt.go:91-134` |
| `C112_refuted` | false as it stands: a panic is recovered nowhere. Three pipelined requests, the handler of the second one panics: the first is answered, the third is not, and the process is gone (C99_crash_refuted: with all other connections). | `internal/protocol/http1/suit.go:58-121`, `internal/tcp/server.go:44-76` |

## Theorems and what they assume

Every theorem below is "Closed under the global context" (`Print Assumptions` stands under each of
them in its file).

| property | theorems |
|----------|----------|
| C01 (P_Parser.v) | C01_segmentation, C01_same_for_all_segmentations, C01_prefix_pending, C01_new_parser_ready |
| C02 (P_Arrive.v, P_Parser.v, P_Verdict.v) | C02_exact, C02_refuted, C02_no_panic_partial, C02_terminates, C02_exactly_partial |
| C03 (P_Parser.v) | C03_limits, C03_initial, C03_next |
| C04 (P_Arrive.v, P_Parser.v, P_Verdict.v) | C04_exact, C04_value_partial, C04_refuted_repeated, C04_refuted_wrap, C04_exactly_partial |
| C05 (P_Arrive.v, P_Parser.v) | C05_exact, C05_refuted, C05_names_partial |
| C06 (P_Exact2.v, P_Parser.v) | C06_exactly_partial, C06_elements, C06_trimmed, C06_transfer_encoding_partial, C06_refuted_limit, C06_refuted_chunked_listed |
| C07 (P_Conn.v, P_Fail.v, P_Upgrade.v) | C07_refuted, C07_conversation_partial, C07_boundary_partial, C07_new_connection, C07_writes_partial, C07_upgrades_partial, C07_upgrades_none, C07_upgrades_new, C07_upgrades_writes_partial |
| C08 (P_Body.v) | C08_fixed_length |
| C09 (P_Body.v, P_Exact.v) | C09_limit, C09_fixed_too_large_partial, C09_refuted_alloc, C09_chunked_too_large, C09_connection_refuted, C09_alloc_exact |
| C10 (P_Body.v) | C10_chunked, C10_next_body, C10_contract_met |
| C11 (P_Body.v, P_Stale.v) | C11_refuted, C11_independent_partial, C11_bytes_first_partial, C11_no_bytes_partial, C11_exact, C11_failed_exact |
| C12 (P_Body.v, P_Iso.v) | C12_isolated_partial, C12_query_fresh_partial, C12_refuted_tls, C12_any_stream_partial |
| C13 (P_Uri.v) | C13_decoding_correct, C13_in_place, C13_in_place_any, C13_never_longer, C13_identity |
| C14 (P_Exact.v, P_Uri.v) | C14_exact, C14_truncated_partial, C14_refuted |
| C15 (P_Exact2.v, P_Query.v) | C15_exact, C15_round_trip_partial, C15_object_invariant, C15_refuted_ampersand, C15_refuted_plus, C15_meaning |
| C16 (P_Exact2.v, P_Query.v) | C16_exact, C16_raw_exact, C16_good_or_bad, C16_first_access_partial, C16_refuted, C16_refuted_raw, C16_raw_size |
| C17 (P_KeyValue.v) | C17_multimap, C17_multimap_from, C17_keys_distinct, C17_clone_independent, C17_storages, C17_clone_deep_refuted, C17_clone_deep_exact |
| C18 (P_Exact2.v, P_Values.v) | C18_exact, C18_request_exact, C18_round_trip, C18_request, C18_bad_text, C18_refuted_piece |
| C19 (P_Response.v) | C19_line_partial, C19_read_back_partial, C19_read_all_partial, C19_exact, C19_refuted |
| C20 (P_Response.v) | C20_shape, C20_framed_partial, C20_exact, C20_buffer_empty, C20_two_lengths_refuted, C20_bodyless_refuted, C20_transfer_encoding_refuted |
| C21 (P_Response.v) | C21_header_lines_partial, C21_exact, C21_refuted, C21_https_only_refuted |
| C22 (P_Response.v) | C22_chunked_partial, C22_reader_failure, C22_exact, C22_refuted |
| C23 (P_Exact.v, P_Response.v) | C23_exact, C23_fixed_partial, C23_refuted |
| C24 (P_Exact3.v, P_Response.v) | C24_closed_exact, C24_closed_partial, C24_cookies_refuted, C24_not_closed_refuted, C24_persistence_refuted |
| C25 (P_Response.v) | C25_head_is_get_cut |
| C26 (P_Response.v) | C26_defaults_partial, C26_exact, C26_never_back_refuted, C26_case_refuted, C26_content_type_refuted |
| C27 (P_Response.v) | C27_persistence, C27_upgrade |
| C28 (P_Response.v) | C28_status_line_partial, C28_standard_partial, C28_exact, C28_custom_refuted, C28_switching_refuted, C28_version_refuted, C28_digits_refuted |
| C29 (P_Router.v) | C29_static, C29_arrives, C29_one_handler, C29_runs, C29_errors_partial, C29_trace_refuted |
| C30 (P_AnyRoutes.v, P_Frail.v, P_Router.v, P_Tree.v) | C30_exact, C30_panic_exact, C30_backtracking_refuted, C30_root_refuted, C30_order_refuted, C30_leftover_refuted, C30_templates_partial, C30_routes_partial, C30_every_path, C30_no_panic, C30_tree_exact |
| C31 (P_Exact3.v, P_Routes.v) | C31_exact, C31_accepts_refuted, C31_segments_refuted, C31_refuses_refuted, C31_empty_segment_refuted, C31_accepted_partial, C31_split_partial, C31_unambiguous, C31_no_slash_refused, C31_bad_segment_refused |
| C32 (P_Exact.v, P_Router.v, P_Routes.v) | C32_exact, C32_routed_partial, C32_routed_refuted, C32_only_strips, C32_idempotent, C32_strips_all_partial, C32_short_refuted |
| C33 (P_Around.v, P_Router.v) | C33_first, C33_order, C33_registered, C33_each_once, C33_stops, C33_nested |
| C34 (P_Router.v) | C34_universal_refuted, C34_trace_refuted, C34_chosen_partial, C34_exact, C34_last, C34_last_universal, C34_others, C34_default |
| C35 (P_Router.v) | C35_longest, C35_the_longest, C35_none, C35_behind, C35_twice_refused, C35_two_groups |
| C36 (P_Static.v) | C36_refuted, C36_panic_refuted, C36_below_partial, C36_caught, C36_no_panic_partial, C36_history, C36_check, C36_exact, C36_registered_exact, C36_refused |
| C37 (P_Static.v) | C37_refuted, C37_other_file_refuted, C37_serial_partial, C37_alone_partial, C37_no_panic_partial |
| C38 (P_Options.v, P_Static.v) | C38_group_exact, C38_group_refuted, C38_neighbour_refuted, C38_dotted_root, C38_file_partial, C38_route_partial |
| C39 (P_Static.v) | C39_refuted, C39_accumulates_partial, C39_first_partial |
| C40 (P_Exact3.v, P_Virtual.v) | C40_exact, C40_refuted, C40_shortened, C40_known_as, C40_host_partial, C40_canonical_partial, C40_default, C40_refused |
| C41 (P_App.v) | C41_refuted, C41_last, C41_same_partial, C41_first_partial, C41_second_refuted |
| C42 (P_Server.v) | C42_refuted, C42_graceful_refuted, C42_at_most_one_partial, C42_quiet_partial, C42_paused |
| C43 (P_Server.v) | C43_refuted, C43_late_call, C43_leaks, C43_leak_one, C43_failure_partial, C43_returns_partial, C43_closed_returns |
| C44 (P_Bundled.v, P_Exact.v, P_Tables.v) | C44_log_partial, C44_exact, C44_no_controls_partial, C44_printable_unchanged, C44_ascii_partial, C44_refuted |
| C45 (P_Tables.v) | C45_method_round_trip, C45_method_only, C45_protocol_versions, C45_protocol_round_trip_partial, C45_protocol_exact, C45_protocol_refuted, C45_status_lines_partial, C45_status_three_digits, C45_status_exact, C45_status_refuted |
| C46 (P_Errors.v, P_ServeHttp1.v, P_Tables.v) | C46_documented, C46_positive, C46_last, C46_zero_body_refuted, C46_shrunk_refuted, C46_fill_partial, C46_fill_default_headers, C46_idempotent, C46_refuted |
| C47 (P_Conn.v, P_Takeover.v) | C47_first_partial, C47_names_old_refuted, C47_accumulates_refuted, C47_later_refuted, C47_hijack_refuted, C47_exact |
| C48 (P_Response.v) | C48_clean, C48_clean_after_sending |
| C49 (P_Exact2.v, P_Values.v) | C49_value_exact, C49_param_exact, C49_param_default_exact, C49_charset_exact, C49_quality_exact, C49_value, C49_param, C49_charset, C49_quality_partial, C49_quality_digits, C49_quality_absent, C49_refuted, C49_refuted_space |
| C50 (P_Router.v) | C50_chain_refuted, C50_error_path_refuted, C50_slash_refuted, C50_target_partial, C50_others_partial, C50_errors_partial, C50_exact, C50_follows_one, C50_registered |
| C51 (P_Again.v, P_Router.v) | C51_repeat_exact, C51_repeated_exact, C51_starts, C51_route_refused, C51_reachable_partial, C51_repeat_refuted, C51_repeat_middlewares_refuted, C51_names_refuted |
| C52 (P_Values.v) | C52_identity, C52_registered, C52_unknown |
| C53 (P_Body.v) | C53_accounting |
| C54 (P_Tables.v) | C54_host_kept, C54_no_host, C54_idempotent |
| C55 (P_Body.v, P_Cut.v) | C55_refuted_with_error, C55_refuted, C55_broken_partial, C55_fixed_partial, C55_chunked_partial, C55_refuted_chunked |
| C56 (P_Body.v, P_Cut.v, P_Exact2.v) | C56_refuted, C56_pieces_partial, C56_refuted_chunked, C56_exact_partial, C56_nothing |
| C57 (P_Exact.v, P_Response.v) | C57_exact, C57_known_size_partial, C57_refuted |
| C58 (P_Exact3.v, P_Response.v) | C58_lost_exact, C58_handed_over_partial, C58_refuted |
| C59 (P_Conn.v, P_Takeover.v) | C59_hijack, C59_reads, C59_pipelined, C59_app |
| C60 (P_Conn.v, P_Iso.v) | C60_refuted, C60_told_partial, C60_answered_partial |
| C61 (P_Conn.v) | C61_bad_head_partial, C61_refuted |
| C62 (P_Exact3.v, P_Virtual.v) | C62_exact, C62_refuted, C62_host_partial, C62_default_partial |
| C63 (P_App.v) | C63_refuted, C63_open_partial, C63_exact, C63_clean_exact |
| C64 (P_Bundled.v, P_Exact2.v) | C64_refuted, C64_ipv6_refuted, C64_plain_partial, C64_fixed_partial, C64_no_host, C64_secure, C64_exact |
| C65 (P_Bundled.v) | C65_refuted, C65_nil, C65_server_partial, C65_log_partial, C65_log_close, C65_abort, C65_context, C65_redirect, C65_tame |
| C66 (P_Bundled.v) | C66_recover, C66_never_panics, C66_only_writing, C66_in_front, C66_ordinary |
| C67 (P_ConnEnd.v) | C67_end |
| C68 (P_Builder.v) | C68_calls, C68_panics |
| C69 (P_Arrive.v, P_Split.v) | C69_heard_partial, C69_arrival_partial, C69_refuted, C69_limit_refuted |
| C70 (P_Split.v) | C70_line_partial, C70_refuted |
| C71 (P_Over.v) | C71_headers, C71_line, C71_method, C71_codes |
| C72 (P_Exact.v, P_Mutated.v, P_Serve.v, P_Upgrade.v) | C72_refuted, C72_mutators_partial, C72_end_to_end_partial, C72_one_handler, C72_upgrades_partial |
| C73 (P_Exact.v, P_Serve.v, P_Verdict.v) | C73_refuted, C73_refused_partial, C73_own_partial |
| C74 (P_Tools.v) | C74_map |
| C75 (P_Tools.v) | C75_requests, C75_errors |
| C76 (P_Tools.v) | C76_refuted, C76_lines_partial, C76_line |
| C77 (P_Tools.v) | C77_generate, C77_headers |
| C78 (P_Dump.v, P_Exact.v, P_Tools.v) | C78_dump_exact, C78_exact, C78_refuted, C78_chunked_refuted, C78_round_trip_partial |
| C79 (P_Tools.v) | C79_compare |
| C80 (P_Json.v) | C80_body_partial, C80_again_partial, C80_other_type_partial, C80_server_partial, C80_refuted |
| C81 (P_Mem.v) | C81_loop, C81_accessors_partial, C81_unmixed_partial, C81_reads_first_partial, C81_refuted, C81_server_partial |
| C82 (P_Arrive.v, P_ArriveConn.v, P_Exact.v, P_Verdict.v) | C82_exact, C82_exact_total, C82_exact_unique, C82_connection_heard_partial, C82_refuted, C82_verdict_partial, C82_total_partial, C82_unique, C82_connection_partial, C82_own_partial |
| C83 (P_Dirs.v, P_Https.v) | C83_dir_exact, C83_refuted, C83_mismatch_refuted, C83_expired_refuted, C83_success_partial, C83_life_partial, C83_ended_partial, C83_untouched, C83_place |
| C84 (P_Https.v) | C84_local, C84_sources, C84_domains_refuted, C84_domains_partial, C84_ipv6_refuted |
| C85 (P_ServeHttp1.v) | C85_tuned_partial, C85_unused, C85_key_refuted |
| C86 (P_Dummy.v, P_ServeHttp1.v) | C86_exact, C86_closed_exact, C86_once_exact, C86_cycle, C86_unread, C86_sink, C86_refuted |
| C87 (P_ServeHttp1.v) | C87_rounds |
| C88 (P_Fail.v) | C88_cut, C88_prefix |
| C89 (P_Upgrade.v, P_VirtualServe.v) | C89_upgrades, C89_one_place, C89_dialogue, C89_writes |
| C90 (P_Words.v) | C90_length, C90_fields, C90_parser, C90_names_partial, C90_refuted_length, C90_refuted_transfer |
| C91 (P_Options.v, P_Resource.v) | C91_exact, C91_own, C91_refuted, C91_path_refuted, C91_serverwide_partial, C91_options_partial, C91_unregistrable |
| C92 (P_Resource.v) | C92_shorthands, C92_every_method, C92_resource, C92_answers, C92_catch, C92_use, C92_static |
| C93 (P_Errors.v) | C93_distinct, C93_comparison, C93_status, C93_signals, C93_texts, C93_constants |
| C94 (P_Combined.v, P_Examples.v) | C94_files, C94_helloworld, C94_norouter, C94_dynroute, C94_dynroute_one, C94_middlewares, C94_combined_partial, C94_connhijack, C94_index_refuted, C94_order_refuted |
| C95 (P_Files.v) | C95_content_type, C95_content_type_one, C95_asks, C95_files, C95_capital_letters |
| C96 (P_Life.v) | C96_order, C96_bound, C96_started, C96_stopped, C96_over, C96_reason, C96_reason_first |
| C97 (P_Life.v) | C97_blocked, C97_hooks, C97_refuted, C97_again_refuted, C97_stale, C97_again_partial |
| C98 (P_Life.v) | C98_partial, C98_left, C98_refuted |
| C99 (P_Many.v, P_Overlap.v) | C99_partial, C99_simple, C99_virtual, C99_alone, C99_turns, C99_refuted, C99_crash_refuted, C99_overlap_partial, C99_overlap_sequence, C99_served_partial |
| C100 (P_RespMem.v) | C100_partial, C100_exact, C100_constants, C100_refuted, C100_crash, C100_crash_refuted, C100_buffer_partial, C100_buffer_exact, C100_buffer_refuted |
| C101 (P_Started.v) | C101_refuted, C101_early_refuted, C101_partial, C101_found, C101_alone |
| C102 (P_Modes.v) | C102_refuted, C102_partial, C102_exact |
| C103 (P_Descr.v) | C103_refuted, C103_lost_exact, C103_closed_exact |
| C104 (P_Timed.v) | C104_steady_exact, C104_not_early, C104_bound, C104_served_partial, C104_refuted, C104_negative_refuted |
| C105 (P_MutTalk.v, P_TakeTalk.v, P_Talk.v) | C105_mutators_partial, C105_takeover_partial, C105_partial, C105_refuted, C105_reads_refuted, C105_chunked, C105_honest, C105_cases, C105_one_way |
| C106 (P_Sync.v) | C106_refuted, C106_partial, C106_contract_met |
| C107 (P_Ends.v) | C107_ends, C107_accessors, C107_handlers, C107_contract_met |
| C108 (P_Agent.v) | C108_lines, C108_reads_exact, C108_partial, C108_last, C108_refuted, C108_age_refuted, C108_names_refuted |
| C109 (P_Agent.v) | C109_partial, C109_exact, C109_zero_exact, C109_text_partial, C109_refuted, C109_never_refuted |
| C110 (P_Hears.v) | C110_partial, C110_any_partial, C110_sent, C110_router, C110_one_reading, C110_refuted, C110_method_refuted |
| C111 (P_Mutated.v, P_Mutators.v) | C111_behind, C111_routes_kept, C111_order, C111_settled, C111_all, C111_before_routing, C111_before_errors, C111_refuted |
| C112 (P_Around.v, P_Crash.v, P_Frail.v, P_Guarded.v, P_Recovered.v) | C112_app_until_panic, C112_app_guarded, C112_refuted, C112_partial, C112_process_partial, C112_recover, C112_recover_exact, C112_frail_partial, C112_app, C112_app_errors, C112_app_partial, C112_until_panic |
