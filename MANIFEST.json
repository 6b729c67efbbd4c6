{
 "claims": [
  {
   "property": "C01",
   "status": "proved",
   "theorems": [
    "C01_segmentation",
    "C01_same_for_all_segmentations",
    "C01_prefix_pending",
    "C01_new_parser_ready"
   ],
   "note": "Every well-formed head within the limits, every segmentation, any following bytes: completed with the meaning of the head and the exact leftover; two segmentations give the same request object; proper prefixes are pending."
  },
  {
   "property": "C02",
   "status": "partial",
   "theorems": [
    "C02_exact",
    "C02_refuted",
    "C02_no_panic_partial",
    "C02_terminates",
    "C02_exactly_partial"
   ],
   "note": "Refuted by two LF-terminated requests that make the parser index an empty slice. C02_exact: for all bytes in all reads, it panics exactly when the verdict of HeadHeard is a panic (a line feed right behind the space of the request line or behind the blanks after a colon). No panic is proved for every stream where no LF directly follows a space or colon; termination is proved for all input."
  },
  {
   "property": "C03",
   "status": "proved",
   "theorems": [
    "C03_limits",
    "C03_initial",
    "C03_next"
   ],
   "note": "Buffers and request contents stay within the maxima for every input and segmentation; the hypotheses are shown for the first and each later request."
  },
  {
   "property": "C04",
   "status": "partial",
   "theorems": [
    "C04_exact",
    "C04_value_partial",
    "C04_refuted_repeated",
    "C04_refuted_wrap",
    "C04_exactly_partial"
   ],
   "note": "Proved for one Content-Length line with a value below 2^63 (the number sent). Refuted for repeated headers and for larger numbers; C04_exact says what the value is for every request that is taken, whatever its bytes and reads."
  },
  {
   "property": "C05",
   "status": "partial",
   "theorems": [
    "C05_exact",
    "C05_refuted",
    "C05_names_partial"
   ],
   "note": "Refuted: a header line without colon is merged with the next one. Proved for heads in which every line has a colon. C05_exact: for every request that is taken, from any bytes in any reads, the headers are exactly its lines, and a name has a line break in it if and only if a name of the head has."
  },
  {
   "property": "C06",
   "status": "partial",
   "theorems": [
    "C06_exactly_partial",
    "C06_elements",
    "C06_trimmed",
    "C06_transfer_encoding_partial",
    "C06_refuted_limit",
    "C06_refuted_chunked_listed"
   ],
   "note": "Proved within the token limit, with all elements listed. Refuted: above the token limit the header is ignored; 'chunked' itself is among the listed codings. C06_exactly_partial: what the codings are for every value, limit or not; C06_trimmed: what trimming does, for every text."
  },
  {
   "property": "C07",
   "status": "partial",
   "theorems": [
    "C07_refuted",
    "C07_conversation_partial",
    "C07_boundary_partial",
    "C07_new_connection",
    "C07_writes_partial",
    "C07_upgrades_partial",
    "C07_upgrades_none",
    "C07_upgrades_new",
    "C07_upgrades_writes_partial"
   ],
   "note": "Whole connections: all request sequences, segmentations and ordinary handlers are served as a Conversation. Refuted as stated: Bytes after the end was reached otherwise gives an earlier body. With failing writes the same conversation is cut at the first failure (C07_writes_partial). With upgrades: C07_upgrades_partial (also with failing writes), whose special case is the conversation (C07_upgrades_none). Slices are values here; C81 says when that is right."
  },
  {
   "property": "C08",
   "status": "proved",
   "theorems": [
    "C08_fixed_length"
   ],
   "note": "All accessors (Bytes/String, Callback, Retrieve, Read with any buffer sizes, any mix followed by Discard), every division of the stream into reads, every earlier state of the body object; the length must be one that can be allocated (2^48). Streams ending early are C55."
  },
  {
   "property": "C09",
   "status": "partial",
   "theorems": [
    "C09_limit",
    "C09_fixed_too_large_partial",
    "C09_refuted_alloc",
    "C09_chunked_too_large",
    "C09_connection_refuted",
    "C09_alloc_exact"
   ],
   "note": "Nothing above the limit is handed out, for every stream, decoder, length and mix of accessors; larger bodies are errors. Refuted: Bytes allocates the announced length before checking it, so an absurd Content-Length panics. C09_alloc_exact: exactly when Bytes panics; C09_connection_refuted: such a panic ends the connection without a response."
  },
  {
   "property": "C10",
   "status": "proved",
   "theorems": [
    "C10_chunked",
    "C10_next_body",
    "C10_contract_met"
   ],
   "note": "Relative to the contract of the external chunk decoder (DecoderOk), which a reference decoder for the chunked coding is proved to meet."
  },
  {
   "property": "C11",
   "status": "partial",
   "theorems": [
    "C11_refuted",
    "C11_independent_partial",
    "C11_bytes_first_partial",
    "C11_no_bytes_partial",
    "C11_exact",
    "C11_failed_exact"
   ],
   "note": "Refuted: Bytes after the end was reached by another accessor returns the body of an earlier request. Proved as non-interference for all handlers that do not do this. C11_exact: after the end was reached Bytes answers with the text of the last Bytes of the connection, whatever the history; C11_failed_exact: what a failed Bytes leaves."
  },
  {
   "property": "C12",
   "status": "partial",
   "theorems": [
    "C12_isolated_partial",
    "C12_query_fresh_partial",
    "C12_refuted_tls",
    "C12_any_stream_partial"
   ],
   "note": "Everything a handler can see equals what a brand-new request object would show: for all well-formed heads within the limits (C12_isolated), and for arbitrary bytes in any segmentation, refused ones included, up to the parts of the first line that were never reached (C12_any_stream). Refuted: the TLS marker is wiped after the first request."
  },
  {
   "property": "C13",
   "status": "proved",
   "theorems": [
    "C13_decoding_correct",
    "C13_in_place",
    "C13_in_place_any",
    "C13_never_longer",
    "C13_identity"
   ],
   "note": "Against an inductive percent-decoding relation; the in-place version on memory is covered."
  },
  {
   "property": "C14",
   "status": "partial",
   "theorems": [
    "C14_exact",
    "C14_truncated_partial",
    "C14_refuted"
   ],
   "note": "Truncated escapes are refused; escapes with non-hexadecimal digits are accepted (refuted). C14_exact: what every text is decoded to, and exactly which are refused."
  },
  {
   "property": "C15",
   "status": "partial",
   "theorems": [
    "C15_exact",
    "C15_round_trip_partial",
    "C15_object_invariant",
    "C15_refuted_ampersand",
    "C15_refuted_plus",
    "C15_meaning"
   ],
   "note": "Round trip for every form-encoded list whose names and values have no encoded '&' or '+', no '=' in names and no empty names. Refuted for the rest: the text is decoded before it is split. C15_exact, C16_exact: what is read from every text, and every history of accesses to it."
  },
  {
   "property": "C16",
   "status": "partial",
   "theorems": [
    "C16_exact",
    "C16_raw_exact",
    "C16_good_or_bad",
    "C16_first_access_partial",
    "C16_refuted",
    "C16_refuted_raw",
    "C16_raw_size"
   ],
   "note": "Repeated access to a good query is right in every history and the first access to a bad one reports the error. Refuted: later accesses report nothing, and Raw changes. C16_exact, C16_raw_exact: exactly what is answered and what Raw holds, for every text and history."
  },
  {
   "property": "C17",
   "status": "proved",
   "theorems": [
    "C17_multimap",
    "C17_multimap_from",
    "C17_keys_distinct",
    "C17_clone_independent",
    "C17_storages",
    "C17_clone_deep_refuted",
    "C17_clone_deep_exact"
   ],
   "note": "Every history of calls refines an ordered case-insensitive multimap; clones are independent under any interleaving. The documented deep copy of the strings themselves is refuted separately; C17_clone_deep_exact says exactly when the clone's strings survive, C17_storages which memory each storage uses."
  },
  {
   "property": "C18",
   "status": "proved",
   "theorems": [
    "C18_exact",
    "C18_request_exact",
    "C18_round_trip",
    "C18_request",
    "C18_bad_text",
    "C18_refuted_piece"
   ],
   "note": "Round trip for all good cookie lists, all Cookie headers of a request; text without '=' is refused. A '='-less piece followed by a good cookie is shown to be merged. C18_exact: what every text gives."
  },
  {
   "property": "C19",
   "status": "partial",
   "theorems": [
    "C19_line_partial",
    "C19_read_back_partial",
    "C19_read_all_partial",
    "C19_exact",
    "C19_refuted"
   ],
   "note": "Every cookie yields one line with exactly the attributes set; with MaxAge unset it is read back by an independent reader. Refuted: the attribute is written MaxAge instead of Max-Age. C19_exact: exactly which cookies are read back."
  },
  {
   "property": "C20",
   "status": "partial",
   "theorems": [
    "C20_shape",
    "C20_framed_partial",
    "C20_exact",
    "C20_buffer_empty",
    "C20_two_lengths_refuted",
    "C20_bodyless_refuted",
    "C20_transfer_encoding_refuted"
   ],
   "note": "Exact text for every response without attachment after any history of the serializer; read back exactly by an independent HTTP reader when the handler sets no framing headers and no body on a bodyless code. Refuted without these conditions. C20_exact: exactly which responses are read back as they were given."
  },
  {
   "property": "C21",
   "status": "partial",
   "theorems": [
    "C21_header_lines_partial",
    "C21_exact",
    "C21_refuted",
    "C21_https_only_refuted"
   ],
   "note": "Proved when no text contains CR or LF. Refuted for arbitrary values, also end to end through the HTTPSOnly middleware. C21_exact: a reader sees the lines that were meant and no others exactly when no text contains CR or LF."
  },
  {
   "property": "C22",
   "status": "partial",
   "theorems": [
    "C22_chunked_partial",
    "C22_reader_failure",
    "C22_exact",
    "C22_refuted"
   ],
   "note": "Proved for every reader and buffer as long as a piece is below 2^32 bytes (larger: refuted); failing readers leave the body visibly unfinished. C22_exact: of the readers that keep io.Reader's contract, exactly those that never return 2^32 bytes at once are sent; the others panic."
  },
  {
   "property": "C23",
   "status": "partial",
   "theorems": [
    "C23_exact",
    "C23_fixed_partial",
    "C23_refuted"
   ],
   "note": "Proved for readers returning EOF alone. Refuted: data returned together with EOF is dropped. C23_exact: for every reader that ends, exactly what is sent and how the connection goes on."
  },
  {
   "property": "C24",
   "status": "partial",
   "theorems": [
    "C24_closed_exact",
    "C24_closed_partial",
    "C24_cookies_refuted",
    "C24_not_closed_refuted",
    "C24_persistence_refuted"
   ],
   "note": "Closed exactly once when the body is sent. Refuted: cookies missing, not closed for HEAD or when the head cannot be written, persistence ignored. C24_closed_exact: for every response, exactly when the attachment is closed."
  },
  {
   "property": "C25",
   "status": "proved",
   "theorems": [
    "C25_head_is_get_cut"
   ],
   "note": "For all responses without attachment, protocols and serializer states."
  },
  {
   "property": "C26",
   "status": "partial",
   "theorems": [
    "C26_defaults_partial",
    "C26_exact",
    "C26_never_back_refuted",
    "C26_case_refuted",
    "C26_content_type_refuted"
   ],
   "note": "Exact characterisation over all histories: a default is sent unless this or an earlier response had a header of that name. Refuted as intended: an overridden default never returns; case variants; Content-Type. C26_exact: exactly when a response has the default or its own value."
  },
  {
   "property": "C27",
   "status": "proved",
   "theorems": [
    "C27_persistence",
    "C27_upgrade"
   ],
   "note": "For all protocols, Connection values, responses and serializer states, no upgrade requested, head written."
  },
  {
   "property": "C28",
   "status": "partial",
   "theorems": [
    "C28_status_line_partial",
    "C28_standard_partial",
    "C28_exact",
    "C28_custom_refuted",
    "C28_switching_refuted",
    "C28_version_refuted",
    "C28_digits_refuted"
   ],
   "note": "Line shape for every response (also attachments) with a known protocol; standard phrases. Refuted: custom phrase, 101, unknown protocol, codes below 100. C28_exact: exactly when the line is well-formed."
  },
  {
   "property": "C29",
   "status": "partial",
   "theorems": [
    "C29_static",
    "C29_arrives",
    "C29_one_handler",
    "C29_runs",
    "C29_errors_partial",
    "C29_trace_refuted"
   ],
   "note": "For all calls, orders and requests the routing decision is as stated (C29_static), and the default error responses carry 405 with the exact Allow list or 404 (C29_errors_partial). Refuted for TRACE, which is answered with 200 at registered paths without a TRACE handler (C29_trace_refuted). Application error handlers and catchers change the response: C34, C35."
  },
  {
   "property": "C30",
   "status": "partial",
   "theorems": [
    "C30_exact",
    "C30_panic_exact",
    "C30_backtracking_refuted",
    "C30_root_refuted",
    "C30_order_refuted",
    "C30_leftover_refuted",
    "C30_templates_partial",
    "C30_routes_partial",
    "C30_every_path",
    "C30_no_panic",
    "C30_tree_exact"
   ],
   "note": "Proved for all sets of proper templates, all insertion orders and all paths: the matching template that no route's static text overrules is reached with exactly its parameters (C30_templates_partial, C30_routes_partial, no panics C30_no_panic). Refuted in full: no backtracking from a static segment, the root path gives 405 with an empty Allow list, routes parsing to the same segments overwrite each other depending on map order, parameters of a dead end are left to the 404 handler. C30_tree_exact: the tree by itself panics for the empty path and no other. C30_exact: every router with parameters, whatever its templates, and every path but the empty one: the request is answered at a place or gets a 404, and which of the two. C30_panic_exact: a router panics for a request exactly if it has parameters and the mutators and aliases leave an empty path."
  },
  {
   "property": "C31",
   "status": "partial",
   "theorems": [
    "C31_exact",
    "C31_accepts_refuted",
    "C31_segments_refuted",
    "C31_refuses_refuted",
    "C31_empty_segment_refuted",
    "C31_accepted_partial",
    "C31_split_partial",
    "C31_unambiguous",
    "C31_no_slash_refused",
    "C31_bad_segment_refused"
   ],
   "note": "Refuted: '/{x}' is refused, a last segment of one character is dropped, an unclosed parameter at the end is accepted, empty segments are glued to the next. Proved for all templates: well-formed ones with a static first segment are accepted and split exactly (up to that last segment), and everything accepted without empty segments is split into its segments up to that last one; braces inside segments and missing leading slashes are refused. C31_exact: what every text is read as or refused with, piece by piece."
  },
  {
   "property": "C32",
   "status": "partial",
   "theorems": [
    "C32_exact",
    "C32_routed_partial",
    "C32_routed_refuted",
    "C32_only_strips",
    "C32_idempotent",
    "C32_strips_all_partial",
    "C32_short_refuted"
   ],
   "note": "Normalization strips only trailing slashes and is idempotent for all paths; paths of the shape q c //... with |q| >= 2 are routed identically. Refuted for shorter paths: '/a' and '/a/' differ. C32_exact: what normalization does to every path."
  },
  {
   "property": "C33",
   "status": "proved",
   "theorems": [
    "C33_first",
    "C33_order",
    "C33_registered",
    "C33_each_once",
    "C33_stops",
    "C33_nested"
   ],
   "note": "For all group trees, numbers of middlewares and orders of calls: every handler reached is exactly behind(chain of the groups from the root ++ the route's own)(handler); behind runs each once in this order (C33_each_once, C33_stops). C33_first: a middleware used first on the router is in front of all handlers, catchers and error handlers and changes no routing."
  },
  {
   "property": "C34",
   "status": "partial",
   "theorems": [
    "C34_universal_refuted",
    "C34_trace_refuted",
    "C34_chosen_partial",
    "C34_exact",
    "C34_last",
    "C34_last_universal",
    "C34_others",
    "C34_default"
   ],
   "note": "For all tables and errors the handler registered for the code, else the universal one, else the default runs, behind the root middlewares only. Refuted: the library's own 405 handler precedes the application's universal one, and 405 of TRACE requests reaches no handler. C34_exact: for every error and request, which of the TRACE answer, the longest catcher, and the error handlers answers."
  },
  {
   "property": "C35",
   "status": "proved",
   "theorems": [
    "C35_longest",
    "C35_the_longest",
    "C35_none",
    "C35_behind",
    "C35_twice_refused",
    "C35_two_groups"
   ],
   "note": "For all catchers, orders and paths: a catcher with a longest matching prefix handles the request, it is unique unless the same prefix is registered in two groups, and without any the 404 error handler runs. Which of two such is unspecified (C35_two_groups: sort.Slice is not stable)."
  },
  {
   "property": "C36",
   "status": "partial",
   "theorems": [
    "C36_refuted",
    "C36_panic_refuted",
    "C36_below_partial",
    "C36_caught",
    "C36_no_panic_partial",
    "C36_history",
    "C36_check",
    "C36_exact",
    "C36_registered_exact",
    "C36_refused"
   ],
   "note": "For all prefixes, roots, paths and buffer histories: the opened file has no '..', is below the root by its names and is root plus a suffix of the path, provided the path is not shorter than the prefix, which the catcher ensures unless the prefix is shortened by path.Join (C36_caught). Earlier requests never matter (C36_history). Refuted: Static(\"/static//\", ...) opens a file next to the root or panics. C36_exact: for all prefixes, roots, requests and earlier requests exactly which name is opened, refused, or panics; C36_registered_exact: which registrations panic."
  },
  {
   "property": "C37",
   "status": "partial",
   "theorems": [
    "C37_refuted",
    "C37_other_file_refuted",
    "C37_serial_partial",
    "C37_alone_partial",
    "C37_no_panic_partial"
   ],
   "note": "Refuted with schedules of two requests: a checked request opens another request's traversal path, or another request's file. Proved for any number of requests and any schedule: a request during whose handling no other one writes the shared buffer opens its own file (C37_alone_partial, C37_serial_partial), and none panics if the paths are long enough (C37_no_panic_partial)."
  },
  {
   "property": "C38",
   "status": "partial",
   "theorems": [
    "C38_group_exact",
    "C38_group_refuted",
    "C38_neighbour_refuted",
    "C38_dotted_root",
    "C38_file_partial",
    "C38_route_partial"
   ],
   "note": "For all clean prefixes at the root router, roots, rests and earlier requests the file root/rest is opened, also end to end through the router. Refuted: inside groups, for neighbouring paths that share the prefix's letters; roots with '..' serve nothing. C38_group_exact: exactly which file is opened inside a group, for all groups, prefixes, roots and paths; it is the one meant only without a group."
  },
  {
   "property": "C39",
   "status": "partial",
   "theorems": [
    "C39_refuted",
    "C39_accumulates_partial",
    "C39_first_partial"
   ],
   "note": "Refuted: the buffer is never emptied, so the second answer contains the first request. Proved for all sequences: each answer is the concatenation of all requests so far, each with an added Content-Length: 0; so the first one is right but for this header."
  },
  {
   "property": "C40",
   "status": "partial",
   "theorems": [
    "C40_exact",
    "C40_refuted",
    "C40_shortened",
    "C40_known_as",
    "C40_host_partial",
    "C40_canonical_partial",
    "C40_default",
    "C40_refused"
   ],
   "note": "Refuted: hosts are registered without www. and default ports but the Host header is compared as it is; general form: every host with something to remove gets 421. Proved for all tables: the first host known under the name of the header (up to case) gets the request; default router; 400 for several hosts; 400 and 421 without a default. C40_exact: for every request exactly one router or code belongs to its Host headers and gets it."
  },
  {
   "property": "C41",
   "status": "partial",
   "theorems": [
    "C41_refuted",
    "C41_last",
    "C41_same_partial",
    "C41_first_partial",
    "C41_second_refuted"
   ],
   "note": "Refuted twice: the loop variable of bind is shared (go 1.18), so all listeners use the handler of the last source; and the mark is cleared after the first request. Both proved in general: last handler for all listeners, own handlers iff all sources agree, marks are enc followed by plain only."
  },
  {
   "property": "C42",
   "status": "partial",
   "theorems": [
    "C42_refuted",
    "C42_graceful_refuted",
    "C42_at_most_one_partial",
    "C42_quiet_partial",
    "C42_paused"
   ],
   "note": "Refuted for Stop and GracefulStop: a client accepted but not yet counted is served after OnStop. Proved for all interleavings: at most one such client per listener, all listeners closed, and none at all if nothing is in flight when the last listener is closed. While paused no client is accepted (C42_paused)."
  },
  {
   "property": "C43",
   "status": "partial",
   "theorems": [
    "C43_refuted",
    "C43_late_call",
    "C43_leaks",
    "C43_leak_one",
    "C43_failure_partial",
    "C43_returns_partial",
    "C43_closed_returns"
   ],
   "note": "Refuted: the second Stop never returns. Proved for all interleavings: no call outstanding when run has its reason ever returns; a stop by a call always leaves exactly one goroutine in the send for ever; a stop by a listener leaves none; run returns within a bounded number of steps without new clients, and without any assumption once the listeners are closed."
  },
  {
   "property": "C44",
   "status": "partial",
   "theorems": [
    "C44_log_partial",
    "C44_exact",
    "C44_no_controls_partial",
    "C44_printable_unchanged",
    "C44_ascii_partial",
    "C44_refuted"
   ],
   "note": "No control bytes for any input, identity on printable input, printable output for 7-bit input. Refuted for multi-byte runes, whose continuation bytes are copied. C44_exact: the escaped form of every byte string."
  },
  {
   "property": "C45",
   "status": "partial",
   "theorems": [
    "C45_method_round_trip",
    "C45_method_only",
    "C45_protocol_versions",
    "C45_protocol_round_trip_partial",
    "C45_protocol_exact",
    "C45_protocol_refuted",
    "C45_status_lines_partial",
    "C45_status_three_digits",
    "C45_status_exact",
    "C45_status_refuted"
   ],
   "note": "Methods: full. Protocols and status lines: full except for the arbitrary byte in place of the dot and the line of 101 (both refuted). C45_protocol_exact and C45_status_exact: exactly which protocol tokens are read and what every status line is."
  },
  {
   "property": "C46",
   "status": "partial",
   "theorems": [
    "C46_documented",
    "C46_positive",
    "C46_last",
    "C46_zero_body_refuted",
    "C46_shrunk_refuted",
    "C46_fill_partial",
    "C46_fill_default_headers",
    "C46_idempotent",
    "C46_refuted"
   ],
   "note": "All settings except CookiesPreAllocate, which is dropped (refuted); idempotence holds. C46_positive, C46_last: what Tune leads to. Also refuted: Body.MaxSize = 0 (C46_zero_body_refuted), a maximum below the default size (C46_shrunk_refuted). C46_documented: the default configuration has the documented values."
  },
  {
   "property": "C47",
   "status": "partial",
   "theorems": [
    "C47_first_partial",
    "C47_names_old_refuted",
    "C47_accumulates_refuted",
    "C47_later_refuted",
    "C47_hijack_refuted",
    "C47_exact"
   ],
   "note": "First upgrade: exactly one 101 then the response in the new version. Refuted: 101 names the old version, headers accumulate, later responses use the old version, no 101 when hijacked. Whole connections with any number of upgrades, anywhere in the pipeline: C07_upgrades_partial says exactly what is sent. C47_exact: exactly what is sent for a request that makes the server switch, whether its handler answers or takes over."
  },
  {
   "property": "C48",
   "status": "proved",
   "theorems": [
    "C48_clean",
    "C48_clean_after_sending"
   ],
   "note": "Clear returns the new response from every state."
  },
  {
   "property": "C49",
   "status": "partial",
   "theorems": [
    "C49_value_exact",
    "C49_param_exact",
    "C49_param_default_exact",
    "C49_charset_exact",
    "C49_quality_exact",
    "C49_value",
    "C49_param",
    "C49_charset",
    "C49_quality_partial",
    "C49_quality_digits",
    "C49_quality_absent",
    "C49_refuted",
    "C49_refuted_space"
   ],
   "note": "Value, named parameter and charset: full. Quality only for one decimal; other spellings and a space after the semicolon are refuted. The _exact theorems: what the helpers return for every text."
  },
  {
   "property": "C50",
   "status": "partial",
   "theorems": [
    "C50_chain_refuted",
    "C50_error_path_refuted",
    "C50_slash_refuted",
    "C50_target_partial",
    "C50_others_partial",
    "C50_errors_partial",
    "C50_exact",
    "C50_follows_one",
    "C50_registered"
   ],
   "note": "For all alias tables without chains and other mutators: routed as the target with the original path in the environment, others untouched, error handling sees the same path. Refuted: chains lose the original path, error handling applies aliases again, an alias does not apply to its path with a trailing slash. C50_exact: for all alias tables, chains included, where every request ends up and which path is noted."
  },
  {
   "property": "C51",
   "status": "partial",
   "theorems": [
    "C51_repeat_exact",
    "C51_repeated_exact",
    "C51_starts",
    "C51_route_refused",
    "C51_reachable_partial",
    "C51_repeat_refuted",
    "C51_repeat_middlewares_refuted",
    "C51_names_refuted"
   ],
   "note": "The router starts exactly if no (method, path) is registered twice anywhere and no parameter names clash (C51_starts); routes of all groups are reachable (C51_reachable_partial for static routing, C30 for dynamic). C51_repeat_exact, C51_repeated_exact: a second Initialize succeeds exactly if no route is on a group, and doubles the router's middlewares. Refuted: Initialize cannot be repeated (second call panics with groups, doubles middlewares without); different parameter names at one place panic without any duplicate."
  },
  {
   "property": "C52",
   "status": "proved",
   "theorems": [
    "C52_identity",
    "C52_registered",
    "C52_unknown"
   ],
   "note": "For every sequence of registrations."
  },
  {
   "property": "C53",
   "status": "proved",
   "theorems": [
    "C53_accounting"
   ],
   "note": "For the read / use a prefix / push back the rest pattern, any number of times, any segmentation, up to the first failed read."
  },
  {
   "property": "C54",
   "status": "proved",
   "theorems": [
    "C54_host_kept",
    "C54_no_host",
    "C54_idempotent"
   ],
   "note": "For all strings: C54_no_host (\":rest\" and \"\" get 0.0.0.0), C54_host_kept (a host before the first colon is kept), C54_idempotent."
  },
  {
   "property": "C55",
   "status": "partial",
   "theorems": [
    "C55_refuted_with_error",
    "C55_refuted",
    "C55_broken_partial",
    "C55_fixed_partial",
    "C55_chunked_partial",
    "C55_refuted_chunked"
   ],
   "note": "Refuted: io.EOF in mid-body is taken as the end of the body (fixed length and chunked); data returned along with an error is dropped. Proved for every other way of losing the connection: no mix of accessors ever reports an incomplete body as complete, also when reading goes on after failures, and uniform reading loses nothing; fixed length and chunked. Slices are values here; C81 says when that is right."
  },
  {
   "property": "C56",
   "status": "partial",
   "theorems": [
    "C56_refuted",
    "C56_pieces_partial",
    "C56_refuted_chunked",
    "C56_exact_partial",
    "C56_nothing"
   ],
   "note": "Refuted: a request without body, and chunked bodies, invoke the callback with no data. Proved: fixed-length bodies with at least one byte and non-empty reads. C56_exact_partial: exactly which calls a body of known length brings."
  },
  {
   "property": "C57",
   "status": "partial",
   "theorems": [
    "C57_exact",
    "C57_known_size_partial",
    "C57_refuted"
   ],
   "note": "Proved for attachments of known size. Refuted for unknown size. C57_exact: which coding is announced for every attachment, whatever the version."
  },
  {
   "property": "C58",
   "status": "partial",
   "theorems": [
    "C58_lost_exact",
    "C58_handed_over_partial",
    "C58_refuted"
   ],
   "note": "Handed over when no error, response unchanged on error. Refuted: directories and stat failures leak the descriptor. C58_lost_exact: exactly these."
  },
  {
   "property": "C59",
   "status": "proved",
   "theorems": [
    "C59_hijack",
    "C59_reads",
    "C59_pipelined",
    "C59_app"
   ],
   "note": "All good requests without upgrade, all segmentations, all uses of the body before. C59_pipelined: any number of requests before and behind it, upgrades included, handlers that decide at any point whether to take over, and exactly what they read and write then; C59_app: the same for applications of the built-in router."
  },
  {
   "property": "C60",
   "status": "partial",
   "theorems": [
    "C60_refuted",
    "C60_told_partial",
    "C60_answered_partial"
   ],
   "note": "Refuted: path and method of the previous request are visible; error body suppressed after HEAD. Proved: for arbitrary bytes on any two connections the error is the same and the error handler is told the same apart from method, path and version; handlers that ignore those give the same answer."
  },
  {
   "property": "C61",
   "status": "partial",
   "theorems": [
    "C61_bad_head_partial",
    "C61_refuted"
   ],
   "note": "One write and the end of the connection, for error handlers that leave body and connection alone (they may recover); refuted for unknown versions: the response is then the one of any other version without the version and the space behind it (SentIn), no more and no less."
  },
  {
   "property": "C62",
   "status": "partial",
   "theorems": [
    "C62_exact",
    "C62_refuted",
    "C62_host_partial",
    "C62_default_partial"
   ],
   "note": "Refuted: errors before the Host header (e.g. URI too long) are answered 400 instead of their status. Proved when the request has one registered host or a default router applies. C62_exact: for every error and every list of Host headers, who gets it."
  },
  {
   "property": "C63",
   "status": "partial",
   "theorems": [
    "C63_refuted",
    "C63_open_partial",
    "C63_exact",
    "C63_clean_exact"
   ],
   "note": "Refuted. C63_exact: exactly the listeners before the failing one stay open, so none does exactly if the first one fails (C63_clean_exact)."
  },
  {
   "property": "C64",
   "status": "partial",
   "theorems": [
    "C64_refuted",
    "C64_ipv6_refuted",
    "C64_plain_partial",
    "C64_fixed_partial",
    "C64_no_host",
    "C64_secure",
    "C64_exact"
   ],
   "note": "Exact response for names and names with a port, for RedirectTo, without Host, over TLS. Refuted: the query is dropped, and IPv6 hosts are cut at the first colon. C64_exact: the answer to every plain request."
  },
  {
   "property": "C65",
   "status": "partial",
   "theorems": [
    "C65_refuted",
    "C65_nil",
    "C65_server_partial",
    "C65_log_partial",
    "C65_log_close",
    "C65_abort",
    "C65_context",
    "C65_redirect",
    "C65_tame"
   ],
   "note": "Exact results for every handler that returns a response; behind ServerHeader and LogRequests a nil response, legal elsewhere, panics (refuted)."
  },
  {
   "property": "C66",
   "status": "proved",
   "theorems": [
    "C66_recover",
    "C66_never_panics",
    "C66_only_writing",
    "C66_in_front",
    "C66_ordinary"
   ],
   "note": "Same result without a panic, 500 with one, at every point; never a panic behind Recover; a connection with such a handler is a conversation in the sense of C07. panic(nil) and what is logged are not modelled."
  },
  {
   "property": "C67",
   "status": "proved",
   "theorems": [
    "C67_end"
   ],
   "note": "For all streams, failures and handlers; the number and kinds of calls as noticed by the application."
  },
  {
   "property": "C68",
   "status": "proved",
   "theorems": [
    "C68_calls",
    "C68_panics"
   ],
   "note": "All builder calls; the file system and the JSON encoder are inputs."
  },
  {
   "property": "C69",
   "status": "partial",
   "theorems": [
    "C69_heard_partial",
    "C69_arrival_partial",
    "C69_refuted",
    "C69_limit_refuted"
   ],
   "note": "C69_heard_partial: any two segmentations of the same bytes have the same outcome if the request line fits with its method and no read begins with CR or LF within a name. C69_arrival_partial is the case of plain names. Both guards are necessary: C69_refuted (LF within a header name) and C69_limit_refuted (request line at the limit). C82_exact says what comes of the excluded segmentations."
  },
  {
   "property": "C70",
   "status": "partial",
   "theorems": [
    "C70_line_partial",
    "C70_refuted"
   ],
   "note": "C70_line_partial: exact error for every listed kind of malformed request line within the buffer, any segmentation, any following bytes. C70_refuted: an empty version makes the parser panic instead of answering."
  },
  {
   "property": "C71",
   "status": "proved",
   "theorems": [
    "C71_headers",
    "C71_line",
    "C71_method",
    "C71_codes"
   ],
   "note": "C71_headers (431), C71_line (414), C71_method (400/501), C71_codes."
  },
  {
   "property": "C72",
   "status": "partial",
   "theorems": [
    "C72_refuted",
    "C72_mutators_partial",
    "C72_end_to_end_partial",
    "C72_one_handler",
    "C72_upgrades_partial"
   ],
   "note": "End to end: bytes in, registered handlers, bytes out. Missing: what C07 leaves out (C11 stale body, C26 header names), in applications with parameters aliases to the empty path (which panic: C112_frail_partial says where), and the behaviours C30 and C39 found wrong, which the specification admits as separate cases. With upgrades: C72_upgrades_partial; also with any mutators and aliases, however they interfere: C72_mutators_partial. C72_refuted: the root path of a router with parameters gets 405 instead of 404. C72_one_handler: the specification names one handler."
  },
  {
   "property": "C73",
   "status": "partial",
   "theorems": [
    "C73_refuted",
    "C73_refused_partial",
    "C73_own_partial"
   ],
   "note": "Covers malformed request lines and oversized heads. Missing: which version the response names (none when that of the request is unknown, C61_refuted), a line ending with a space (C70_refuted). Defects of header lines and the version named: C82_connection_partial. C73_own_partial: the same with error handlers and middlewares of the application, Recover included, and unknown versions. C73_refuted: the line ending with a space panics without a response."
  },
  {
   "property": "C74",
   "status": "proved",
   "theorems": [
    "C74_map"
   ],
   "note": "All histories of insertions and look-ups, over any type of values."
  },
  {
   "property": "C75",
   "status": "proved",
   "theorems": [
    "C75_requests",
    "C75_errors"
   ],
   "note": "Handlers as in C07: those that answer with an ordinary response (S_Conn.Ordinary); error handlers that do not touch the connection (Detached)."
  },
  {
   "property": "C76",
   "status": "partial",
   "theorems": [
    "C76_refuted",
    "C76_lines_partial",
    "C76_line"
   ],
   "note": "False as it stands: the end of a connection is reported to the router as an error, and the mutator runs for it too, so the last request is logged twice (C76_refuted). Proved: one line per logger and call of the router, no line with control characters, and what the line says."
  },
  {
   "property": "C77",
   "status": "proved",
   "theorems": [
    "C77_generate",
    "C77_headers"
   ],
   "note": "Headers other than those with a meaning for the parser (Content-Length, Transfer-Encoding, ...: good_header) and without separators."
  },
  {
   "property": "C78",
   "status": "partial",
   "theorems": [
    "C78_dump_exact",
    "C78_exact",
    "C78_refuted",
    "C78_chunked_refuted",
    "C78_round_trip_partial"
   ],
   "note": "False as it stands: the path is dumped decoded (C78_refuted), and a chunked body with length 0 (C78_chunked_refuted). Proved for requests whose texts contain no separators. C78_exact: what Parse returns for every text. C78_dump_exact: what Dump returns for every request."
  },
  {
   "property": "C79",
   "status": "proved",
   "theorems": [
    "C79_compare"
   ],
   "note": "All pairs of requests with a storage of headers (a nil storage is not modelled)."
  },
  {
   "property": "C80",
   "status": "partial",
   "theorems": [
    "C80_body_partial",
    "C80_again_partial",
    "C80_other_type_partial",
    "C80_server_partial",
    "C80_refuted"
   ],
   "note": "Content types are compared literally: with parameters or in another case JSON is refused (C80_refuted). Otherwise proved, for a single call, repeated calls and whole connections; the decoder of json-iterator is an arbitrary function."
  },
  {
   "property": "C81",
   "status": "partial",
   "theorems": [
    "C81_loop",
    "C81_accessors_partial",
    "C81_unmixed_partial",
    "C81_reads_first_partial",
    "C81_refuted",
    "C81_server_partial"
   ],
   "note": "Refuted: Read keeps a slice of the buffer, so Read, Retrieve, Read delivers overwritten bytes. Proved: any mix of accessors differs from copying only in the bytes of such a Read; other uses and whole connections with handlers that do not mix so agree exactly. The buffers of utils/buffer (external) and slices kept by handlers are outside."
  },
  {
   "property": "C82",
   "status": "partial",
   "theorems": [
    "C82_exact",
    "C82_exact_total",
    "C82_exact_unique",
    "C82_connection_heard_partial",
    "C82_refuted",
    "C82_verdict_partial",
    "C82_total_partial",
    "C82_unique",
    "C82_connection_partial",
    "C82_own_partial"
   ],
   "note": "C82_exact, C82_exact_total, C82_exact_unique: all bytes in all reads have exactly one verdict, and the parser follows it (only guard: the buffer size is not negative). C82_connection_heard_partial carries it to whole connections with any router and any error handlers of the application; C82_connection_partial has the answers in bytes for the built-in router. C82_refuted: a field named Content<CR>Length sets the length of the body."
  },
  {
   "property": "C83",
   "status": "partial",
   "theorems": [
    "C83_dir_exact",
    "C83_refuted",
    "C83_mismatch_refuted",
    "C83_expired_refuted",
    "C83_success_partial",
    "C83_life_partial",
    "C83_ended_partial",
    "C83_untouched",
    "C83_place"
   ],
   "note": "C83_success_partial, C83_life_partial: a successful call leaves a matching pair unless both files were there before. Refuted: a call that failed while writing the key leaves files that later calls take for good, so that Serve fails (C83_refuted); a new certificate beside an old key (C83_mismatch_refuted); expiry is not looked at and no host is named (C83_expired_refuted). C83_ended_partial: which broken states there can be. Windows paths, file modes and cryptography are not modelled. C83_dir_exact: the directory of the files, for every system and environment."
  },
  {
   "property": "C84",
   "status": "partial",
   "theorems": [
    "C84_local",
    "C84_sources",
    "C84_domains_refuted",
    "C84_domains_partial",
    "C84_ipv6_refuted"
   ],
   "note": "C84_local: exactly which addresses are local; C84_sources: what AutoHTTPS adds. Refuted: domains given with a local address or with a port only are dropped; IPv6 addresses are not recognized."
  },
  {
   "property": "C85",
   "status": "partial",
   "theorems": [
    "C85_tuned_partial",
    "C85_unused",
    "C85_key_refuted"
   ],
   "note": "C85_tuned_partial: the end-to-end theorem for every configuration. Refuted: MaxKeyLength, DecodingBufferSize and FileBuffSize have no effect (C85_unused, C85_key_refuted)."
  },
  {
   "property": "C86",
   "status": "partial",
   "theorems": [
    "C86_exact",
    "C86_closed_exact",
    "C86_once_exact",
    "C86_cycle",
    "C86_unread",
    "C86_sink",
    "C86_refuted"
   ],
   "note": "C86_cycle, C86_unread. Refuted for OneTime and for a client without data. C86_sink: the writes of a connection are what the client receives. C86_exact: what any calls of Read and Unread give; C86_closed_exact, C86_once_exact: after Close and after OneTime."
  },
  {
   "property": "C87",
   "status": "proved",
   "theorems": [
    "C87_rounds"
   ],
   "note": "ServeOnce repeated is Serve, for all streams, applications and numbers of rounds."
  },
  {
   "property": "C88",
   "status": "proved",
   "theorems": [
    "C88_cut",
    "C88_prefix"
   ],
   "note": "For applications that never write to the connection themselves (NoWrites), all streams and all outcomes of writes: output, ending and all objects are those of a connection without failures, or the output is cut at the first failing write and the connection closed (C88_cut); in bytes, a prefix (C88_prefix). C07_writes_partial carries C07's conversation over to failing writes. A hijacking handler writes on its own account (Example C88_own_writes)."
  },
  {
   "property": "C89",
   "status": "proved",
   "theorems": [
    "C89_upgrades",
    "C89_one_place",
    "C89_dialogue",
    "C89_writes"
   ],
   "note": "For all tables of hosts whose routers are ordinary (no hijack), all pipelined well-formed requests and segmentations: HostDialogue, in which each request is given to the router its Host lines say (C89_dialogue), also when writes fail (C89_writes) and with upgrades (C89_upgrades). That a host registered with www. or a default port is known under another name is C40's finding, and is in HostIs."
  },
  {
   "property": "C90",
   "status": "partial",
   "theorems": [
    "C90_length",
    "C90_fields",
    "C90_parser",
    "C90_names_partial",
    "C90_refuted_length",
    "C90_refuted_transfer"
   ],
   "note": "For all names: the words compared are the bytes with bit 5 set (C90_length, C90_fields), so the byte-wise parser of the other properties is this one (C90_parser). Names without CR: exactly the name up to letter case (C90_names_partial). False with CR, which is taken for the hyphen: Content<CR>Length and Transfer<CR>Encoding frame the body (C90_refuted_length, C90_refuted_transfer)."
  },
  {
   "property": "C91",
   "status": "partial",
   "theorems": [
    "C91_exact",
    "C91_own",
    "C91_refuted",
    "C91_path_refuted",
    "C91_serverwide_partial",
    "C91_options_partial",
    "C91_unregistrable"
   ],
   "note": "False: OPTIONS * gets 404 and OPTIONS on a path 405 (C91_refuted, C91_path_refuted). What happens instead: paths without a leading slash always go to the 404 error (C91_serverwide_partial) and cannot be registered (C91_unregistrable); without parameters in routes OPTIONS on a path goes to the 405 error with the list of methods (C91_options_partial). C91_exact: exactly where every OPTIONS request goes in every application, with parameters too; C91_own: only ever to a handler the application registered for OPTIONS."
  },
  {
   "property": "C92",
   "status": "proved",
   "theorems": [
    "C92_shorthands",
    "C92_every_method",
    "C92_resource",
    "C92_answers",
    "C92_catch",
    "C92_use",
    "C92_static"
   ],
   "note": "Every shorthand is for the method it is named after and every method has exactly one (C92_shorthands, C92_every_method); routes and middlewares of resources, with the order (C92_resource); requests reach them, without parameters in the routes (C92_answers)."
  },
  {
   "property": "C93",
   "status": "proved",
   "theorems": [
    "C93_distinct",
    "C93_comparison",
    "C93_status",
    "C93_signals",
    "C93_texts",
    "C93_constants"
   ],
   "note": "Over the whole table of http/status/errors.go; Twins, signals and own_words list the exceptions by name. C93_constants ties the constants used by the rest of the model to the table."
  },
  {
   "property": "C94",
   "status": "partial",
   "theorems": [
    "C94_files",
    "C94_helloworld",
    "C94_norouter",
    "C94_dynroute",
    "C94_dynroute_one",
    "C94_middlewares",
    "C94_combined_partial",
    "C94_connhijack",
    "C94_index_refuted",
    "C94_order_refuted"
   ],
   "note": "The exact bytes sent, for helloworld, helloworld_norouter, dynroute (one answer only: C94_dynroute_one), middlewares (with the log), combined (with the log and the stop; the requests about files: C94_files, which file is answered with and what is logged; missing: their exact bytes, for which see C95_files) and connhijack. TRACE is left to C39. False for combined: POST / never reaches IndexSay (C94_index_refuted); and for middlewares: the second does not run before the first (C94_order_refuted)."
  },
  {
   "property": "C95",
   "status": "proved",
   "theorems": [
    "C95_content_type",
    "C95_content_type_one",
    "C95_asks",
    "C95_files",
    "C95_capital_letters"
   ],
   "note": "C95_files gives the bytes sent for a whole pipeline (FileText, FileTalk), with the file each path asks for (Asks: a path asks for at most one, C95_asks); the defects of C24 (the connection is kept open behind a file) and C38 (the byte behind the prefix is not looked at) show in FileTalk and Asks. An empty file is sent in chunks. C95_content_type compares the table of the program with an independently written registry, for all paths."
  },
  {
   "property": "C96",
   "status": "proved",
   "theorems": [
    "C96_order",
    "C96_bound",
    "C96_started",
    "C96_stopped",
    "C96_over",
    "C96_reason",
    "C96_reason_first"
   ],
   "note": "Order, number and moments of the hooks in every state of every execution, any number of Serves; the reason of each Serve."
  },
  {
   "property": "C97",
   "status": "partial",
   "theorems": [
    "C97_blocked",
    "C97_hooks",
    "C97_refuted",
    "C97_again_refuted",
    "C97_stale",
    "C97_again_partial"
   ],
   "note": "False both ways: a hook that calls Stop never comes back (C97_refuted; C97_blocked: always so, C97_hooks: Serve returns only if no hook calls any); after a Stop the next Serve finds the error a goroutine of the first is waiting to send and stops by itself (C97_again_refuted; C97_stale: always possible). Proved: if the first Serve ended because of a listener and its goroutines came to rest, the second receives nothing old (C97_again_partial). Missing: when the goroutines have not come to rest."
  },
  {
   "property": "C98",
   "status": "partial",
   "theorems": [
    "C98_partial",
    "C98_left",
    "C98_refuted"
   ],
   "note": "True whenever run was reached (C98_partial). False when listening fails: all listeners opened before stay open (C98_refuted, C98_left)."
  },
  {
   "property": "C99",
   "status": "partial",
   "theorems": [
    "C99_partial",
    "C99_simple",
    "C99_virtual",
    "C99_alone",
    "C99_turns",
    "C99_refuted",
    "C99_crash_refuted",
    "C99_overlap_partial",
    "C99_overlap_sequence",
    "C99_served_partial"
   ],
   "note": "Byte for byte as if alone, for the built-in router unless the connection itself asks for TRACE (C99_partial), for virtual hosts (C99_virtual) and without condition for the simple router (C99_simple). False for TRACE: the answer carries the headers of the TRACE requests of others (C99_refuted); false after a panic, which ends all connections (C99_crash_refuted). Also when handlers run at the same time and see anything others may have left (C99_overlap_partial, M_Overlap.v); every client sending well-formed requests without TRACE gets the responses of the registered handlers, nothing else, within finitely many turns (C99_served_partial, with C72). A handler that looks at shared things twice is not modelled."
  },
  {
   "property": "C100",
   "status": "partial",
   "theorems": [
    "C100_partial",
    "C100_exact",
    "C100_constants",
    "C100_refuted",
    "C100_crash",
    "C100_crash_refuted",
    "C100_buffer_partial",
    "C100_buffer_exact",
    "C100_buffer_refuted"
   ],
   "note": "Holds exactly when no call adds to lent memory, which lengths and capacities decide (C100_partial, C100_exact). False otherwise: JSON after Bytes writes over the caller's slice (C100_refuted), JSON after a string constant ends the process (C100_crash, C100_crash_refuted), and Write after Bytes of a piece from Retrieve replaces the next request in the connection's buffer (C100_buffer_exact, C100_buffer_refuted). uf.S2B (external) is taken to give a slice without spare capacity; what the JSON encoder writes is given."
  },
  {
   "property": "C101",
   "status": "partial",
   "theorems": [
    "C101_refuted",
    "C101_early_refuted",
    "C101_partial",
    "C101_found",
    "C101_alone"
   ],
   "note": "False: between the check and the last write nothing keeps others out, so that a certificate and a key of two different processes can be left, which every later start takes and cannot load (C101_refuted); and an application can take a key file another one has not written yet (C101_early_refuted). If no file is written by two at a time, all succeed and the pair is usable exactly if both files were written last by the same process (C101_partial); if the files are there nobody touches them (C101_found). The steps are those of C83's model (C101_alone)."
  },
  {
   "property": "C102",
   "status": "partial",
   "theorems": [
    "C102_refuted",
    "C102_partial",
    "C102_exact"
   ],
   "note": "False if the cache directory is there and open: the key is created with 0666 less the umask (C102_refuted). True if the directory is not there, since it is made with 0700 (C102_partial); C102_exact says when exactly. Unix permission bits of the directory and the file only: directories above, access lists and Windows are left out."
  },
  {
   "property": "C103",
   "status": "partial",
   "theorems": [
    "C103_refuted",
    "C103_lost_exact",
    "C103_closed_exact"
   ],
   "note": "False: a file replaced by a later File or Attachment, dropped by Clear or request.Respond, a directory, and the file of an answer to HEAD stay open (C103_refuted). C103_lost_exact and C103_closed_exact say for every call exactly when what it brought is lost and when it is closed. Descriptors closed by the garbage collector are not counted."
  },
  {
   "property": "C104",
   "status": "partial",
   "theorems": [
    "C104_steady_exact",
    "C104_not_early",
    "C104_bound",
    "C104_served_partial",
    "C104_refuted",
    "C104_negative_refuted"
   ],
   "note": "False as documented: the timeout bounds each read, so a client sending one byte per timeout holds a connection for as long as it likes (C104_refuted, for every duration); negative timeouts, which the configuration keeps, make every read fail (C104_negative_refuted). Proved: clients that never pause longer than the timeout are never cut off and get the answers of C07 (C104_steady_exact, C104_served_partial); a cut-off comes exactly one timeout after a read began with no byte arrived (C104_not_early). Writes have no deadline and take no time in the model."
  },
  {
   "property": "C105",
   "status": "partial",
   "theorems": [
    "C105_mutators_partial",
    "C105_takeover_partial",
    "C105_partial",
    "C105_refuted",
    "C105_reads_refuted",
    "C105_chunked",
    "C105_honest",
    "C105_cases",
    "C105_one_way"
   ],
   "note": "C105_partial composes C94's verdicts, C07's bodies, C47's upgrades and C72's routing without any hypothesis on the bytes; C105_one_way: they are cut in one way; C105_chunked, C105_honest: the coding of RFC 9112 and its reference decoder satisfy the assumptions. The cutting is not that of RFC 9112 in every case (C94: carriage returns and line feeds in names depend on the reads). Bodies that do not come are included: fixed-length ones cut short or too long, chunked ones cut short, too long or malformed; C105_cases: nothing else is left apart from bodies of more than 2^48 bytes. C105_refuted: some bytes end in a panic; C105_reads_refuted: the cutting depends on the reads. Missing: such bodies; aliases to the empty path in applications with parameters; handlers that panic without Recover; what a connection does after its handler was told that a chunked body is refused (C106_refuted). C105_mutators_partial: the same with any mutators and aliases, however they interfere; behind Recover handlers may panic (C112_app); connections that are taken over: C59_app. C105_takeover_partial: any bytes and handlers that may take the connection over at any point (missing there: requests whose body does not come)."
  },
  {
   "property": "C106",
   "status": "partial",
   "theorems": [
    "C106_refuted",
    "C106_partial",
    "C106_contract_met"
   ],
   "note": "False: when a chunked body is refused as too long (or malformed) the bytes read behind it are dropped while the connection stays open, so the body of a well-formed second request can be served as a request nobody sent (C106_refuted). C106_partial: apart from that and from a client that hung up (C55), the next request is looked for right behind the body, for any bytes. Missing: handlers that use the connection themselves (C59)."
  },
  {
   "property": "C107",
   "status": "proved",
   "theorems": [
    "C107_ends",
    "C107_accessors",
    "C107_handlers",
    "C107_contract_met"
   ],
   "note": "C107_ends for the loop, C107_accessors for bodies, C107_handlers for handlers. Assumed: the chunk decoder makes progress (met by the reference decoder, C107_contract_met; needed, C107_decoder_needed), attached readers end or fail at last. How long a read takes is C104."
  },
  {
   "property": "C108",
   "status": "partial",
   "theorems": [
    "C108_lines",
    "C108_reads_exact",
    "C108_partial",
    "C108_last",
    "C108_refuted",
    "C108_age_refuted",
    "C108_names_refuted"
   ],
   "note": "False because of MaxAge: clients do not know the attribute as it is written, so a cookie deleted with it stays (C108_refuted) and one meant for an hour lasts for the session (C108_age_refuted); and names that differ in case are kept apart by clients but not by the jar (C108_names_refuted). C108_partial: without MaxAge cookies are kept as meant and read back as sent; C108_reads_exact says for every cookie what a client makes of it; C108_lines that the lines arrive; C108_last which ones count. Dates between 1601 and 9999 (C109)."
  },
  {
   "property": "C109",
   "status": "partial",
   "theorems": [
    "C109_partial",
    "C109_exact",
    "C109_zero_exact",
    "C109_text_partial",
    "C109_refuted",
    "C109_never_refuted"
   ],
   "note": "Proved for the years 1601 to 9999 (C109_partial), the format for the years 0 to 9999 (C109_text_partial). False outside: the year 50 is read as 2050, the year 10000 not at all. C109_exact says for every instant what a client reads, if anything. C109_zero_exact: no date is written exactly for the zero time."
  },
  {
   "property": "C110",
   "status": "partial",
   "theorems": [
    "C110_partial",
    "C110_any_partial",
    "C110_sent",
    "C110_router",
    "C110_one_reading",
    "C110_refuted",
    "C110_method_refuted"
   ],
   "note": "False as it stands: the body of a 204 response is sent and taken for the next response (C110_refuted), and a handler that sets request.Method to HEAD on a GET gets a response without the body it announces (C110_method_refuted). C110_partial: for Legible responses and handlers that leave the method alone, a client reads exactly what the handlers said, one message per request; C110_one_reading: there is no other way to read it. C110_any_partial: the same for applications with the built-in router and any bytes whatever, up to the point where C105's talk stops; C110_sent: every single Legible response, however it comes to be sent, is read as one message; C110_router: the router's own answers are Legible."
  },
  {
   "property": "C111",
   "status": "partial",
   "theorems": [
    "C111_behind",
    "C111_routes_kept",
    "C111_order",
    "C111_settled",
    "C111_all",
    "C111_before_routing",
    "C111_before_errors",
    "C111_refuted"
   ],
   "note": "Which mutators run, in which order, for every request and error: full (C111_order, C111_settled, C111_all, C111_before_routing, C111_before_errors). False: they run again on the last request when its connection ends (C111_refuted). A mutator is a function of the request here; those that write a log are C76. The router behind them is the one built by the other calls (C111_behind, C111_routes_kept); on a connection: C72_mutators_partial."
  },
  {
   "property": "C112",
   "status": "partial",
   "theorems": [
    "C112_app_until_panic",
    "C112_app_guarded",
    "C112_refuted",
    "C112_partial",
    "C112_process_partial",
    "C112_recover",
    "C112_recover_exact",
    "C112_frail_partial",
    "C112_app",
    "C112_app_errors",
    "C112_app_partial",
    "C112_until_panic"
   ],
   "note": "False: a panic is recovered nowhere, so it ends the connection and the process (C112_refuted, C99_crash_refuted). C112_partial: up to the first panic everything is served as a conversation, and nothing of the panicking request is sent; C112_process_partial: exactly when the process dies. Behind the middleware Recover it holds (C112_recover, C112_recover_exact), for whole applications too, with panicking handlers, catchers, error handlers and middlewares (C112_app, C112_app_errors, C112_app_partial). C112_frail_partial: whole applications without Recover, with any mutators and aliases (also to the empty path): every request is answered by the handler it is dispatched to, up to the first panic, of a handler or of the router itself. C112_until_panic: for all bytes, handlers and error handlers, Recover changes nothing unless the connection ends in a panic, and then what was sent before it is the same; C112_app_until_panic: the same of every application of the built-in router and that application using Recover first. C112_app_guarded: that application is one of C112_app, so what holds there holds without Recover up to the first panic."
  }
 ]
}