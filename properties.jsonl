{"id": "C01", "title": "A response reaches only the waiter of its own request", "statement": "In any history of register/complete/cancel calls on Protocol, the receiver returned by register_request(id) obtains at most one response; that response was passed to complete_request/complete_request_for_transport with that same id while the receiver was the newest registration of that id, and every pending request with another id is left exactly as it was.", "quantifier": "every finite history of register_request, complete_request, complete_request_for_transport and cancel_request calls from any number of transports, every request id", "why_tests_cant": "A test runs one history; the claim is about every finite sequence of calls, including repeated and interleaved ids.", "anchors": ["src/shared/protocol.rs: Protocol::register_request, complete_request, complete_request_for_transport, cancel_request"]}
{"id": "C02", "title": "A response from the wrong transport changes nothing", "statement": "A response arriving for a transport other than the one that registered the request neither completes the request nor removes it: the request stays pending and a later response from the right transport still completes it. A response for an unknown id is a no-op.", "quantifier": "every reachable protocol state, every request id, every pair of transport ids", "why_tests_cant": "A test runs one history; the claim is about every finite sequence of calls, including repeated and interleaved ids.", "anchors": ["src/shared/protocol.rs: complete_request, complete_request_for_transport, is_request_for_transport"]}
{"id": "C03", "title": "Parallel batch answers are in request order, one per request", "statement": "process_batch_parallel returns exactly one response per request and in the order of the requests, whatever order the handlers finish in.", "quantifier": "every batch, every handler, every order in which the tasks complete, every positive concurrency limit", "why_tests_cant": "The outcome depends on the scheduler; a test samples a handful of interleavings and cannot show that no other one breaks the claim.", "anchors": ["src/utils/parallel_batch.rs: process_batch_parallel", "src/shared/batch.rs: process_batch_request"]}
{"id": "C04", "title": "Every batch answer carries its request's id", "statement": "Each response of a processed batch has the id of the request it answers, also when the handler failed or exceeded the per-request timeout.", "quantifier": "every batch, every handler outcome including timeout", "why_tests_cant": "The outcome depends on the scheduler; a test samples a handful of interleavings and cannot show that no other one breaks the claim.", "anchors": ["src/utils/parallel_batch.rs: process_batch_parallel", "src/server/batch.rs: process_batch"]}
{"id": "C05", "title": "The concurrency limit is never exceeded", "statement": "At no moment are more than max_concurrency handlers of one process_batch_parallel call running, and with a positive limit every schedule that keeps running ends with all handlers finished.", "quantifier": "every schedule of task starts and completions, every batch size, every limit", "why_tests_cant": "The outcome depends on the scheduler; a test samples a handful of interleavings and cannot show that no other one breaks the claim.", "anchors": ["src/utils/parallel_batch.rs: process_batch_parallel", "src/utils/parallel_batch.rs: ParallelBatchConfig"]}
{"id": "C06", "title": "A batch array is answered by an array", "statement": "A batch (JSON array) of requests is answered by an array with one response per request, a single request by a single response object.", "quantifier": "every batch length including zero and one", "why_tests_cant": "A test feeds a few inputs; the claim is about every input of every length, including adversarial ones.", "anchors": ["src/shared/batch.rs: BatchRequest::into_requests, BatchResponse::from_responses"]}
{"id": "C07", "title": "The event store keeps the newest events, in order, up to its limit", "statement": "After any history of store_event and clear_events_before calls the store holds at most max_events events; what it holds is a contiguous newest suffix of the events stored, in storing order.", "quantifier": "every history of stores and clears, every clock, every limit", "why_tests_cant": "A test runs one history; the claim is about every finite sequence of calls, including repeated and interleaved ids.", "anchors": ["src/shared/event_store.rs: InMemoryEventStore::store_event, cleanup, clear_events_before"]}
{"id": "C08", "title": "Resuming after a known event returns exactly what followed it", "statement": "get_events_since(id) for an event id still retained returns exactly the events stored after it, in order, each once, truncated to the limit; nothing at or before id is returned.", "quantifier": "every retained history, every id, every limit", "why_tests_cant": "A test runs one history; the claim is about every finite sequence of calls, including repeated and interleaved ids.", "anchors": ["src/shared/event_store.rs: get_events_since, resume_from_token"]}
{"id": "C09", "title": "Resuming from a token never replays events the client already saw", "statement": "resume_from_token returns only events recorded after the event the token was created at, even when the token's event has been evicted.", "quantifier": "every history of record/evict/create token/resume", "why_tests_cant": "A test runs one history; the claim is about every finite sequence of calls, including repeated and interleaved ids.", "anchors": ["src/shared/event_store.rs: ResumptionManager::resume_from_token, InMemoryEventStore::get_events_since"]}
{"id": "C10", "title": "Sequence numbers of recorded events are never reused", "statement": "The sequence numbers given to successive record_outbound/record_inbound calls of one ResumptionManager are strictly increasing, also after resume_from_token.", "quantifier": "every history of record, create_token and resume_from_token calls", "why_tests_cant": "A test runs one history; the claim is about every finite sequence of calls, including repeated and interleaved ids.", "anchors": ["src/shared/event_store.rs: ResumptionManager::record_outbound, record_inbound, resume_from_token"]}
{"id": "C11", "title": "The session limit holds", "statement": "The number of live sessions never exceeds max_sessions.", "quantifier": "every history and every interleaving of create_session calls", "why_tests_cant": "The outcome depends on the scheduler; a test samples a handful of interleavings and cannot show that no other one breaks the claim.", "anchors": ["src/shared/session.rs: SessionManager::create_session"]}
{"id": "C12", "title": "A destroyed session stays destroyed", "statement": "Once destroy_session(id) returned, no later call yields that session again unless a session with this id is created anew.", "quantifier": "every history and every interleaving of session operations", "why_tests_cant": "The outcome depends on the scheduler; a test samples a handful of interleavings and cannot show that no other one breaks the claim.", "anchors": ["src/shared/session.rs: get_session, destroy_session, update_session"]}
{"id": "C13", "title": "An expired session is never accepted", "statement": "A session whose expiry time has passed is not handed to a caller as valid.", "quantifier": "every history of session operations, every clock", "why_tests_cant": "A test runs one history; the claim is about every finite sequence of calls, including repeated and interleaved ids.", "anchors": ["src/shared/session.rs: validate_session, get_session, cleanup_expired, SessionMiddleware::process"]}
{"id": "C14", "title": "Sessions are isolated from each other", "statement": "Every session operation on one id leaves the data, authentication state and existence of every other session unchanged.", "quantifier": "every reachable session table, every operation, every pair of distinct ids", "why_tests_cant": "A test runs one history; the claim is about every finite sequence of calls, including repeated and interleaved ids.", "anchors": ["src/shared/session.rs: update_session, authenticate_session, destroy_session, validate_session"]}
{"id": "C15", "title": "Expanded URI text is safe", "statement": "A value expanded by a simple, label, path, parameter, query or continuation expression contributes only unreserved characters and %XX escapes to the URI, so no value can inject a delimiter; percent-decoding the contribution gives the value back.", "quantifier": "every template, every variable assignment, every Unicode string", "why_tests_cant": "A test feeds a few inputs; the claim is about every input of every length, including adversarial ones.", "anchors": ["src/shared/uri_template.rs: expand, expand_multiple, encode_value"]}
{"id": "C16", "title": "Matching recovers the expanded variables", "statement": "match_uri on a URI produced by expand returns the assignment that was expanded.", "quantifier": "every template and every assignment", "why_tests_cant": "A test feeds a few inputs; the claim is about every input of every length, including adversarial ones.", "anchors": ["src/shared/uri_template.rs: expand, match_uri, to_regex_pattern"]}
{"id": "C17", "title": "Template literals survive expansion", "statement": "expand outputs the literal text of the template unchanged and in order around the expansions; undefined variables contribute nothing.", "quantifier": "every template text, every assignment", "why_tests_cant": "A test feeds a few inputs; the claim is about every input of every length, including adversarial ones.", "anchors": ["src/shared/uri_template.rs: parse_template, expand"]}
{"id": "C18", "title": "SSE format/parse round trip", "statement": "Feeding the text form of an SSE event (followed by the blank line it ends with) to a fresh parser yields exactly that event.", "quantifier": "every event whose fields contain no line breaks in id/event and whose data is non-empty", "why_tests_cant": "A test feeds a few inputs; the claim is about every input of every length, including adversarial ones.", "anchors": ["src/shared/sse_parser.rs: Display for SseEvent, SseParser::feed"]}
{"id": "C19", "title": "SSE parsing does not depend on chunking", "statement": "Splitting the text at any character positions and feeding the pieces yields the same events in the same order as feeding it at once.", "quantifier": "every text, every split into chunks", "why_tests_cant": "A test feeds a few inputs; the claim is about every input of every length, including adversarial ones.", "anchors": ["src/shared/sse_parser.rs: SseParser::feed"]}
{"id": "C20", "title": "The SSE parser never panics", "statement": "feed returns for every text fed, on every parser state.", "quantifier": "every parser state, every Unicode text", "why_tests_cant": "A test feeds a few inputs; the claim is about every input of every length, including adversarial ones.", "anchors": ["src/shared/sse_parser.rs: SseParser::feed"]}
{"id": "C21", "title": "Request ids of different requests are different", "statement": "Converting distinct integers to RequestId gives distinct ids, and an id survives serialisation.", "quantifier": "every u64 / i64 / string id", "why_tests_cant": "A test feeds a few inputs; the claim is about every input of every length, including adversarial ones.", "anchors": ["src/types/jsonrpc.rs: RequestId, From<u64>, From<i64>"]}
{"id": "C22", "title": "Error codes survive the JSON-RPC round trip", "statement": "An error converted to a JSON-RPC error object and back keeps its code, message and data.", "quantifier": "every i32 code, every message and data", "why_tests_cant": "A test feeds a few inputs; the claim is about every input of every length, including adversarial ones.", "anchors": ["src/error/mod.rs: ErrorCode::from_i32, as_i32, Error::from_jsonrpc_error", "src/types/jsonrpc.rs: From<Error> for JSONRPCError"]}
{"id": "C23", "title": "An open circuit breaker stops calls", "statement": "While the breaker guarding an operation is open and its timeout has not elapsed, the operation is not invoked.", "quantifier": "every history of successes, failures and clock readings", "why_tests_cant": "A test runs one history; the claim is about every finite sequence of calls, including repeated and interleaved ids.", "anchors": ["src/error/recovery.rs: CircuitBreaker, execute_with_recovery, execute_with_circuit_breaker"]}
{"id": "C24", "title": "The circuit breaker follows its threshold contract", "statement": "The breaker opens exactly when failure_threshold failures accumulated since the last success, lets trial calls through only after the timeout, closes after success_threshold trial successes and re-opens on a trial failure.", "quantifier": "every history of outcomes and clock readings, every configuration", "why_tests_cant": "A test runs one history; the claim is about every finite sequence of calls, including repeated and interleaved ids.", "anchors": ["src/error/recovery.rs: CircuitBreaker::allow_request, record_success, record_failure"]}
{"id": "C25", "title": "Retries are bounded and back off within limits", "statement": "A retried operation is invoked at most the configured number of times, stops at the first success and returns its value, and the waiting times are the configured geometric sequence capped by max_delay.", "quantifier": "every outcome sequence, every retry configuration", "why_tests_cant": "A test feeds a few inputs; the claim is about every input of every length, including adversarial ones.", "anchors": ["src/error/recovery.rs: retry_fixed, retry_exponential, with_retry"]}
{"id": "C26", "title": "Requests and notifications survive the wire", "statement": "Parsing the JSON-RPC request built for a typed request yields the same typed request; no two different methods are confused.", "quantifier": "every request and notification variant, every parameter value", "why_tests_cant": "A test feeds a few inputs; the claim is about every input of every length, including adversarial ones.", "anchors": ["src/shared/protocol_helpers.rs: create_request, parse_request, create_notification, parse_notification"]}
{"id": "C27", "title": "Batched notifications are neither lost, duplicated nor reordered", "statement": "The concatenation of the batches a MessageBatcher emits is the sequence of notifications added, and no batch exceeds max_batch_size.", "quantifier": "every sequence of adds and timer firings", "why_tests_cant": "A test runs one history; the claim is about every finite sequence of calls, including repeated and interleaved ids.", "anchors": ["src/utils/batching.rs: MessageBatcher::add, flush_batch, start_timer"]}
{"id": "C28", "title": "Debouncing delivers the latest notification of each key once", "statement": "After a key has been quiet for the interval the debouncer emits exactly one notification for it, the last one added; different keys do not affect each other.", "quantifier": "every sequence of adds, timer firings and flushes", "why_tests_cant": "A test runs one history; the claim is about every finite sequence of calls, including repeated and interleaved ids.", "anchors": ["src/utils/batching.rs: MessageDebouncer::add, flush"]}
{"id": "C29", "title": "Cancelling a request cancels exactly its token", "statement": "cancel_request(id) cancels the token registered for id and no other token, at most once, and emits one cancelled notification iff such a token existed.", "quantifier": "every history of token creations, removals and cancellations", "why_tests_cant": "A test runs one history; the claim is about every finite sequence of calls, including repeated and interleaved ids.", "anchors": ["src/server/cancellation.rs: CancellationManager"]}
{"id": "C30", "title": "A cancelled request is reported as cancelled", "statement": "After cancel_request(id) of a registered request, is_cancelled(id) is true until the token is removed.", "quantifier": "every history", "why_tests_cant": "A test runs one history; the claim is about every finite sequence of calls, including repeated and interleaved ids.", "anchors": ["src/server/cancellation.rs: cancel_request, is_cancelled"]}
{"id": "C31", "title": "Subscriptions behave as a relation", "statement": "The subscription manager behaves as a set of (uri, client) pairs: subscribing twice is once, unsubscribing removes exactly that pair, disconnecting a client removes exactly its pairs, and the update notification count is the number of current subscribers.", "quantifier": "every history of subscribe, unsubscribe, unsubscribe_all and notify", "why_tests_cant": "A test runs one history; the claim is about every finite sequence of calls, including repeated and interleaved ids.", "anchors": ["src/server/subscriptions.rs: SubscriptionManager"]}
{"id": "C32", "title": "Roots: unregistering a root removes that root", "statement": "The unregister closure returned by register_root removes the root it was returned for and no other, and every change of the list is announced exactly once.", "quantifier": "every history of registrations and unregistrations", "why_tests_cant": "A test runs one history; the claim is about every finite sequence of calls, including repeated and interleaved ids.", "anchors": ["src/server/roots.rs: RootsManager::register_root"]}
{"id": "C33", "title": "Elicitation answers reach the right waiter", "statement": "Each elicit_input call ends with the response of its own elicitation id, a timeout, a cancellation or a closed-channel error; a response is consumed by at most one waiter; no pending entry remains after all waiters ended.", "quantifier": "every history and interleaving of elicit, respond, cancel and timeout", "why_tests_cant": "The outcome depends on the scheduler; a test samples a handful of interleavings and cannot show that no other one breaks the claim.", "anchors": ["src/server/elicitation.rs: ElicitationManager"]}
{"id": "C34", "title": "Reconnect delays stay within the configured bounds", "statement": "calculate_delay is never negative and never exceeds max_delay plus the jitter share; without jitter it is min(initial*growth^n, max).", "quantifier": "every configuration, every retry count, every random jitter", "why_tests_cant": "A test feeds a few inputs; the claim is about every input of every length, including adversarial ones.", "anchors": ["src/shared/reconnect.rs: ReconnectManager::calculate_delay"]}
{"id": "C35", "title": "Reconnection stops at the retry limit and respects the circuit breaker", "statement": "should_reconnect is false once retry_count reached max_retries, and false while the breaker is open and its timeout has not elapsed.", "quantifier": "every history of connection events and clock readings", "why_tests_cant": "A test runs one history; the claim is about every finite sequence of calls, including repeated and interleaved ids.", "anchors": ["src/shared/reconnect.rs: should_reconnect, on_connected, on_failed, on_disconnected"]}
{"id": "C36", "title": "Middleware runs in order and stops at the first error", "statement": "Middlewares see the message in registration order, each receives what the previous one produced, the first error stops the chain and is returned, later middlewares are not invoked.", "quantifier": "every chain length, every middleware behaviour", "why_tests_cant": "A test feeds a few inputs; the claim is about every input of every length, including adversarial ones.", "anchors": ["src/shared/middleware.rs: MiddlewareChain"]}
{"id": "C37", "title": "Stdio framing is transparent", "statement": "Every sequence of messages written with the Content-Length framing is read back as exactly that sequence; payload bytes never influence where a frame ends.", "quantifier": "every sequence of payloads of arbitrary bytes", "why_tests_cant": "A test feeds a few inputs; the claim is about every input of every length, including adversarial ones.", "anchors": ["src/shared/stdio.rs: write_message, read_headers, parse_content_length, receive"]}
{"id": "C38", "title": "The server answers every request exactly once, with its id, in order", "statement": "For any sequence of incoming messages until the transport fails, the server sends exactly one response per request, in request order, carrying the request's id, and none for notifications and responses.", "quantifier": "every sequence of incoming messages, every handler behaviour", "why_tests_cant": "A test runs one history; the claim is about every finite sequence of calls, including repeated and interleaved ids.", "anchors": ["src/server/mod.rs: message loop, handle_transport_message, handle_request"]}
{"id": "C39", "title": "Requests are routed to the handler registered under their name", "statement": "tools/call and prompts/get invoke exactly the handler last registered under the requested name with the request's arguments, and no handler if there is none.", "quantifier": "every builder history, every request", "why_tests_cant": "A test runs one history; the claim is about every finite sequence of calls, including repeated and interleaved ids.", "anchors": ["src/server/mod.rs: handle_call_tool, handle_get_prompt, ServerBuilder::tool, prompt"]}
{"id": "C40", "title": "No request is served before initialization", "statement": "Before the initialize handshake the server rejects every request except initialize and ping.", "quantifier": "every sequence of incoming messages", "why_tests_cant": "A test runs one history; the claim is about every finite sequence of calls, including repeated and interleaved ids.", "anchors": ["src/server/mod.rs: handle_request, Server::initialized"]}
{"id": "C41", "title": "The server reports the error's own code", "statement": "When a handler or lookup fails with a protocol error the JSON-RPC error response carries that error's code.", "quantifier": "every error value", "why_tests_cant": "A test feeds a few inputs; the claim is about every input of every length, including adversarial ones.", "anchors": ["src/server/mod.rs: create_response"]}
{"id": "C42", "title": "The client sends nothing it is not allowed to send", "statement": "An uninitialized client sends no request other than initialize, and a client never sends a request for a capability the server did not advertise; the call fails locally instead.", "quantifier": "every history of client calls, every server capability set", "why_tests_cant": "A test runs one history; the claim is about every finite sequence of calls, including repeated and interleaved ids.", "anchors": ["src/client/mod.rs: ensure_initialized, assert_capability, send_request"]}
{"id": "C43", "title": "A client call returns the response to its own request", "statement": "A client method returns the result of the response whose id is the id of the request it sent.", "quantifier": "every sequence of messages delivered by the transport, every interleaving of client clones", "why_tests_cant": "The outcome depends on the scheduler; a test samples a handful of interleavings and cannot show that no other one breaks the claim.", "anchors": ["src/client/mod.rs: send_request"]}
{"id": "C44", "title": "HTTP session lifecycle", "statement": "In stateful mode a non-initialize request is processed only with the id of a live session; a session id returned by a successful initialize is live until DELETE; after DELETE every request with it gets 404.", "quantifier": "every history of POST, GET and DELETE requests", "why_tests_cant": "A test runs one history; the claim is about every finite sequence of calls, including repeated and interleaved ids.", "anchors": ["src/server/streamable_http_server.rs: process_init_session, validate_non_init_session, handle_delete_session"]}
{"id": "C45", "title": "Event replay never crosses sessions", "statement": "A GET with Last-Event-ID replays only events of the requesting session, exactly those after the given id.", "quantifier": "every history of stored events over several sessions, every Last-Event-ID", "why_tests_cant": "A test runs one history; the claim is about every finite sequence of calls, including repeated and interleaved ids.", "anchors": ["src/server/streamable_http_server.rs: InMemoryEventStore, handle_get_sse"]}
{"id": "C46", "title": "HTTP negotiation is enforced", "statement": "A POST is processed only with a JSON content type and an acceptable Accept header, a GET only when the client accepts event streams; a request whose protocol version is unsupported or differs from the negotiated one is rejected.", "quantifier": "every header combination, every session state", "why_tests_cant": "A test feeds a few inputs; the claim is about every input of every length, including adversarial ones.", "anchors": ["src/server/streamable_http_server.rs: validate_headers, validate_protocol_version"]}
{"id": "C47", "title": "An authorization code is usable at most once", "statement": "Over any history at most one exchange_code call for a given issued code succeeds, only before the code's expiry, only with the client id, redirect uri and PKCE verifier it was issued for.", "quantifier": "every history and interleaving of provider calls, every clock", "why_tests_cant": "The outcome depends on the scheduler; a test samples a handful of interleavings and cannot show that no other one breaks the claim.", "anchors": ["src/server/auth/oauth2.rs: create_authorization_code, exchange_code"]}
{"id": "C48", "title": "A revoked or expired token never validates", "statement": "After revoke_token(t) or after expiry, validate_token(t) fails for ever, and the refresh token that was issued with a revoked access token cannot be used.", "quantifier": "every history of provider calls, every clock", "why_tests_cant": "A test runs one history; the claim is about every finite sequence of calls, including repeated and interleaved ids.", "anchors": ["src/server/auth/oauth2.rs: revoke_token, validate_token, refresh_token"]}
{"id": "C49", "title": "A refresh token is usable at most once", "statement": "Two refresh_token calls with the same refresh token never both succeed.", "quantifier": "every interleaving of concurrent refreshes and revocations", "why_tests_cant": "The outcome depends on the scheduler; a test samples a handful of interleavings and cannot show that no other one breaks the claim.", "anchors": ["src/server/auth/oauth2.rs: refresh_token"]}
{"id": "C50", "title": "Token operations do not deadlock", "statement": "Concurrent exchange, refresh, revoke and validate calls on one provider always finish.", "quantifier": "every interleaving of the lock acquisitions", "why_tests_cant": "The outcome depends on the scheduler; a test samples a handful of interleavings and cannot show that no other one breaks the claim.", "anchors": ["src/server/auth/oauth2.rs: create_access_token, refresh_token, revoke_token, validate_token, exchange_code"]}
{"id": "C51", "title": "Authentication middlewares grant access only to valid credentials", "statement": "Bearer and client-credential middlewares succeed only for credentials the provider accepts, a scope middleware only when the authenticated scopes satisfy the requirement, a composite only when a member succeeds or authentication is optional.", "quantifier": "every credential, every provider state, every middleware tree", "why_tests_cant": "A test feeds a few inputs; the claim is about every input of every length, including adversarial ones.", "anchors": ["src/server/auth/middleware.rs"]}
{"id": "C52", "title": "Granted scopes never exceed what was authorised", "statement": "An access token carries exactly the user, client and scopes of the authorization code or refresh token it came from, and the scopes authorised for a client are among those the client registered.", "quantifier": "every history of provider calls", "why_tests_cant": "A test runs one history; the claim is about every finite sequence of calls, including repeated and interleaved ids.", "anchors": ["src/server/auth/oauth2.rs: validate_authorization, exchange_code, refresh_token"]}
{"id": "C53", "title": "Dynamic registration is last-writer-wins per name", "statement": "DynamicServerManager's tools and prompts behave as maps: add overwrites, remove deletes exactly that name and fails when absent, reload replaces the whole set; other names are untouched.", "quantifier": "every history of dynamic operations", "why_tests_cant": "A test runs one history; the claim is about every finite sequence of calls, including repeated and interleaved ids.", "anchors": ["src/server/dynamic.rs: DynamicServerManager"]}
{"id": "C54", "title": "Capability listeners see the accumulated capabilities", "statement": "After any history the capabilities last announced to listeners reflect every dynamically added feature that is still present.", "quantifier": "every history of dynamic operations", "why_tests_cant": "A test runs one history; the claim is about every finite sequence of calls, including repeated and interleaved ids.", "anchors": ["src/server/dynamic.rs: update_capabilities"]}
{"id": "C55", "title": "File change notifications are debounced and complete", "statement": "Every tracked file that changed is announced exactly once per quiet period, no untracked file is announced.", "quantifier": "every sequence of file events and timer ticks", "why_tests_cant": "A test runs one history; the claim is about every finite sequence of calls, including repeated and interleaved ids.", "anchors": ["src/server/resource_watcher.rs: process_events, add_resource"]}
{"id": "C56", "title": "SIMD scanners agree with the scalar definition", "statement": "find_whitespace_simd, find_escapes_simd and find_pattern_simd return what the scalar definition returns, on every input, and terminate.", "quantifier": "every byte string", "why_tests_cant": "A test feeds a few inputs; the claim is about every input of every length, including adversarial ones.", "anchors": ["src/simd/mod.rs: find_whitespace_simd, find_escapes_simd, find_pattern_simd"]}
{"id": "C57", "title": "SIMD UTF-8 validation accepts exactly UTF-8", "statement": "validate_utf8_simd accepts every valid UTF-8 byte string and rejects every invalid one.", "quantifier": "every byte string", "why_tests_cant": "A test feeds a few inputs; the claim is about every input of every length, including adversarial ones.", "anchors": ["src/simd/mod.rs: validate_utf8_simd"]}
{"id": "C58", "title": "Base64, XOR masking, run-length coding, copy and checksum are exact", "statement": "base64_encode_simd output decodes to the input (RFC 4648), masking twice is the identity and equals the per-byte definition, run-length output expands to the input, copy_simd copies exactly the source, and the checksum is the byte sum modulo 2^32.", "quantifier": "every byte string, every mask", "why_tests_cant": "A test feeds a few inputs; the claim is about every input of every length, including adversarial ones.", "anchors": ["src/simd/mod.rs: base64_encode_simd, xor_mask_simd, rle_encode_simd, copy_simd, batch_checksum_simd"]}
{"id": "C59", "title": "Fast JSON parsing accepts exactly what standard parsing accepts", "statement": "parse_json_fast gives the same result as serde_json::from_slice.", "quantifier": "every byte string", "why_tests_cant": "A test feeds a few inputs; the claim is about every input of every length, including adversarial ones.", "anchors": ["src/utils/json_simd.rs: parse_json_fast"]}
{"id": "C60", "title": "Fast pretty printing preserves the document", "statement": "Removing the whitespace that pretty_print_fast inserted outside strings gives back the compact serialisation.", "quantifier": "every JSON value", "why_tests_cant": "A test feeds a few inputs; the claim is about every input of every length, including adversarial ones.", "anchors": ["src/utils/json_simd.rs: pretty_print_fast"]}
{"id": "C61", "title": "Trace context survives header propagation", "statement": "from_headers(to_headers(ctx)) restores trace id, request id, user, session and baggage, and records the sender's span as parent.", "quantifier": "every request context", "why_tests_cant": "A test feeds a few inputs; the claim is about every input of every length, including adversarial ones.", "anchors": ["src/shared/context.rs: to_headers, from_headers, child"]}
{"id": "C62", "title": "The rate limiter enforces its rate", "statement": "A rate-limited batch processor created for n requests per second lets at most n requests through in any second.", "quantifier": "every rate, every number of requests", "why_tests_cant": "A test feeds a few inputs; the claim is about every input of every length, including adversarial ones.", "anchors": ["src/utils/parallel_batch.rs: rate_limited_processor"]}
{"id": "C63", "title": "Fail-fast stops the batch", "statement": "With fail_fast set, no further request of the batch is started once a response is an error.", "quantifier": "every configuration, every schedule", "why_tests_cant": "The outcome depends on the scheduler; a test samples a handful of interleavings and cannot show that no other one breaks the claim.", "anchors": ["src/utils/parallel_batch.rs: ParallelBatchConfig::fail_fast, process_batch_parallel"]}
{"id": "C64", "title": "Batch metrics add up", "statement": "After any history of batches: successes + errors + timeouts = total requests processed, the maximum is the largest batch time and the average is total batch time over total requests.", "quantifier": "every history of processed batches", "why_tests_cant": "A test runs one history; the claim is about every finite sequence of calls, including repeated and interleaved ids.", "anchors": ["src/utils/parallel_batch.rs: BatchProcessor::process, BatchMetrics"]}
{"id": "C65", "title": "Resumption is confined to the session", "statement": "resume_from_token returns only events of the session the token was created for, also when several sessions share a store.", "quantifier": "every history of several managers over one store", "why_tests_cant": "A test runs one history; the claim is about every finite sequence of calls, including repeated and interleaved ids.", "anchors": ["src/shared/event_store.rs: resume_from_token, create_resumption_token, get_events_since"]}
{"id": "C66", "title": "A resumption token stops working when it expires", "statement": "resume_from_token fails for a token whose expires_at has passed.", "quantifier": "every history, every clock", "why_tests_cant": "A test runs one history; the claim is about every finite sequence of calls, including repeated and interleaved ids.", "anchors": ["src/shared/event_store.rs: create_resumption_token, validate_resumption_token"]}
{"id": "C67", "title": "Resumption reports lost events", "statement": "If an event stored after the token was created is no longer retained, resume_from_token fails or signals the gap.", "quantifier": "every history of stores, evictions and resumptions", "why_tests_cant": "A test runs one history; the claim is about every finite sequence of calls, including repeated and interleaved ids.", "anchors": ["src/shared/event_store.rs: resume_from_token, get_events_since, cleanup"]}
{"id": "C68", "title": "Using a session keeps it alive", "statement": "Validating (documented as refreshing) a session before it expires extends its lifetime by the configured timeout.", "quantifier": "every history of session operations, every clock", "why_tests_cant": "A test runs one history; the claim is about every finite sequence of calls, including repeated and interleaved ids.", "anchors": ["src/shared/session.rs: validate_session, get_session, update_session"]}
{"id": "C69", "title": "Concurrent session updates are not lost", "statement": "Every successful update_session or authenticate_session is visible to all later lookups of the session.", "quantifier": "every interleaving of lookups and updates of one session", "why_tests_cant": "The outcome depends on the scheduler; a test samples a handful of interleavings and cannot show that no other one breaks the claim.", "anchors": ["src/shared/session.rs: get_session, update_session, authenticate_session"]}
{"id": "C70", "title": "The session id is taken from the session cookie", "statement": "For every well-formed cookie header the extracted id is the value of the first cookie with the configured session cookie name; other cookies cannot influence it; without such a cookie the X-Session-ID header is used.", "quantifier": "every cookie header, every cookie name and value", "why_tests_cant": "A test feeds a few inputs; the claim is about every input of every length, including adversarial ones.", "anchors": ["src/shared/session.rs: extract_session_id, SessionConfig::cookie_name"]}
{"id": "C71", "title": "SSE lines are interpreted as the standard says", "statement": "Every complete line sets the field before its first colon to the text after it (one leading space dropped); a line without colon sets the field to the empty text; comments, unknown fields, ids with NUL and unparsable retry values change nothing; an empty line dispatches the event exactly if it has data.", "quantifier": "every line, every parser state", "why_tests_cant": "A test feeds a few inputs; the claim is about every input of every length, including adversarial ones.", "anchors": ["src/shared/sse_parser.rs: SseParser::process_line, dispatch_event, feed"]}
{"id": "C72", "title": "URI template expansion conforms to RFC 6570", "statement": "Expanding an expression over string variables gives what RFC 6570 (levels 1-4, strings) specifies: per operator first character, separator, names, handling of empty values, prefix modifier and allowed characters.", "quantifier": "every operator, every variable list, every Unicode value", "why_tests_cant": "A test feeds a few inputs; the claim is about every input of every length, including adversarial ones.", "anchors": ["src/shared/uri_template.rs: expand_multiple, encode_value"]}
{"id": "C73", "title": "Template validation accepts exactly well-formed templates", "statement": "A template is accepted only if all its braces form expressions with valid variable names and prefix lengths 1 to 10000; every well-formed template text is accepted and parsed into what it says.", "quantifier": "every template text", "why_tests_cant": "A test feeds a few inputs; the claim is about every input of every length, including adversarial ones.", "anchors": ["src/shared/uri_template.rs: UriTemplate::new, parse_template, parse_expression, parse_var_spec"]}
{"id": "C74", "title": "JSON-RPC envelopes survive serialisation", "statement": "A JSON-RPC request, notification or response written as JSON bytes and read back is the same envelope: same id, method, params, result and error.", "quantifier": "every id, method, params, result and error value", "why_tests_cant": "A test feeds a few inputs; the claim is about every input of every length, including adversarial ones.", "anchors": ["src/types/jsonrpc.rs: JSONRPCRequest, JSONRPCNotification, JSONRPCResponse, ResponsePayload"]}
{"id": "C75", "title": "Raw messages are classified by what they are", "statement": "The serialised form of every request, notification and response is classified as a request, notification or response respectively.", "quantifier": "every envelope value", "why_tests_cant": "A test feeds a few inputs; the claim is about every input of every length, including adversarial ones.", "anchors": ["src/shared/protocol_helpers.rs: RawMessage, message_type"]}
{"id": "C76", "title": "Every protocol type survives JSON", "statement": "Every value of every protocol type serialises to JSON that deserialises to the same value; only documents of the type's shape are accepted; the order of fields and unknown fields do not matter.", "quantifier": "every protocol type, every value and every JSON document", "why_tests_cant": "A test feeds a few inputs; the claim is about every input of every length, including adversarial ones.", "anchors": ["src/types/protocol.rs", "src/types/capabilities.rs", "src/types/auth.rs", "src/types/elicitation.rs"]}
{"id": "C77", "title": "Optional parameters may be omitted", "statement": "A request whose parameters are all optional is accepted without a params member, and a ping is accepted with any params, as JSON-RPC peers may send them.", "quantifier": "every id, every such method", "why_tests_cant": "A test feeds a few inputs; the claim is about every input of every length, including adversarial ones.", "anchors": ["src/shared/protocol_helpers.rs: parse_request", "src/types/protocol.rs: ClientRequest"]}
{"id": "C78", "title": "Messages survive the stdio serialisation", "statement": "The bytes the stdio transport writes for a message are parsed back to the same message.", "quantifier": "every message", "why_tests_cant": "A test feeds a few inputs; the claim is about every input of every length, including adversarial ones.", "anchors": ["src/shared/stdio.rs: serialize_message, parse_message"]}
{"id": "C79", "title": "The JSON-RPC version is checked", "statement": "A message whose jsonrpc member is not 2.0 is rejected.", "quantifier": "every message", "why_tests_cant": "A test feeds a few inputs; the claim is about every input of every length, including adversarial ones.", "anchors": ["src/types/jsonrpc.rs: validate", "src/shared/protocol_helpers.rs: parse_request"]}
{"id": "C80", "title": "Closing the stdio transport is final", "statement": "Once close() was called or the end of the input was reported, every later send and receive fails with ConnectionClosed and nothing more is written.", "quantifier": "every history of transport calls, every input", "why_tests_cant": "A test runs one history; the claim is about every finite sequence of calls, including repeated and interleaved ids.", "anchors": ["src/shared/stdio.rs: send, receive, close, read_headers"]}
{"id": "C81", "title": "No input makes the stdio transport panic", "statement": "receive returns a message or an error whatever bytes the peer sends.", "quantifier": "every input byte string", "why_tests_cant": "A test feeds a few inputs; the claim is about every input of every length, including adversarial ones.", "anchors": ["src/shared/stdio.rs: read_headers, read_message_body, parse_content_length"]}
{"id": "C82", "title": "The configured recovery strategy is applied", "statement": "For a failing operation the strategy last added for its error code is applied, the default for other codes; fail-fast returns the error after one call, a fallback returns what the operation's handler returns.", "quantifier": "every policy, every error, every handler table", "why_tests_cant": "A test feeds a few inputs; the claim is about every input of every length, including adversarial ones.", "anchors": ["src/error/recovery.rs: RecoveryPolicy, execute_with_recovery, fallback"]}
{"id": "C83", "title": "Reconnection with a retry limit ends", "statement": "reconnect_with stops at the first success, calls connect at most max_retries times (one more if it starts with an open breaker), returns the error of the last call, and sleeps with growing retry counts between calls.", "quantifier": "every connect behaviour, every configuration with a limit, every clock", "why_tests_cant": "A test runs one history; the claim is about every finite sequence of calls, including repeated and interleaved ids.", "anchors": ["src/shared/reconnect.rs: ReconnectManager::reconnect_with"]}
{"id": "C84", "title": "Listings show exactly what is registered", "statement": "tools/list and prompts/list answer with every registered name exactly once and nothing else, in the documented shape.", "quantifier": "every builder history", "why_tests_cant": "A test runs one history; the claim is about every finite sequence of calls, including repeated and interleaved ids.", "anchors": ["src/server/mod.rs: handle_list_tools, handle_list_prompts"]}
{"id": "C85", "title": "The server advertises what it can serve", "statement": "The capabilities in the initialize result include those for which handlers are registered.", "quantifier": "every builder history", "why_tests_cant": "A test runs one history; the claim is about every finite sequence of calls, including repeated and interleaved ids.", "anchors": ["src/server/mod.rs: ServerBuilder, handle_request"]}
{"id": "C86", "title": "A request in progress can be cancelled", "statement": "After cancel_request for a request in progress, or a cancelled notification from the client, the token given to its handler is cancelled.", "quantifier": "every sequence of messages and API calls", "why_tests_cant": "A test runs one history; the claim is about every finite sequence of calls, including repeated and interleaved ids.", "anchors": ["src/server/mod.rs: cancel_request, handle_call_tool, handle_transport_message"]}
{"id": "C87", "title": "A client that subscribes is notified", "statement": "After resources/subscribe for a URI, notify_resource_updated for it sends an update.", "quantifier": "every sequence of messages and API calls", "why_tests_cant": "A test runs one history; the claim is about every finite sequence of calls, including repeated and interleaved ids.", "anchors": ["src/server/mod.rs: process_client_request, subscribe_resource, notify_resource_updated"]}
{"id": "C88", "title": "Outgoing notifications are sent promptly, once and in order", "statement": "A notification posted by the server is sent once, in order, without waiting for the client to say something.", "quantifier": "every interleaving of the server's tasks", "why_tests_cant": "The outcome depends on the scheduler; a test samples a handful of interleavings and cannot show that no other one breaks the claim.", "anchors": ["src/server/mod.rs: spawn_notification_handler, spawn_message_handler, receive_message_from_transport"]}
{"id": "C89", "title": "The protocol version is negotiated", "statement": "The initialize result names the server and a version the client asked for if it is supported.", "quantifier": "every initialize request", "why_tests_cant": "A test feeds a few inputs; the claim is about every input of every length, including adversarial ones.", "anchors": ["src/server/mod.rs: handle_request"]}
{"id": "C90", "title": "A server is built iff it has a name and a version, from the last settings", "statement": "build succeeds exactly if name and version were set; the last setting of each kind and name is used.", "quantifier": "every builder history", "why_tests_cant": "A test runs one history; the claim is about every finite sequence of calls, including repeated and interleaved ids.", "anchors": ["src/server/mod.rs: ServerBuilder"]}
{"id": "C91", "title": "Batched requests are answered like single ones", "statement": "handle_batch_request answers each request as the server would alone, under its id; unknown methods get the method-not-found code.", "quantifier": "every request", "why_tests_cant": "A test feeds a few inputs; the claim is about every input of every length, including adversarial ones.", "anchors": ["src/server/batch.rs: handle_batch_request"]}
{"id": "C92", "title": "What a server advertises can be called", "statement": "Once a client has completed the handshake with a server that advertises a capability, every client method for that capability sends its request.", "quantifier": "every server capability set, every client method", "why_tests_cant": "A test feeds a few inputs; the claim is about every input of every length, including adversarial ones.", "anchors": ["src/client/mod.rs: assert_capability, create_message"]}
{"id": "C93", "title": "The client's handshake is all or nothing", "statement": "initialize succeeds at most once; when it succeeds the request and then the initialized notification have been sent and the server's version is a supported one; when it fails the client is not initialized and initialize may be tried again.", "quantifier": "every history of calls, every server answer, failure at any send or receive", "why_tests_cant": "A test runs one history; the claim is about every finite sequence of calls, including repeated and interleaved ids.", "anchors": ["src/client/mod.rs: initialize"]}
{"id": "C94", "title": "Finished client calls leave nothing behind", "statement": "When a client call has returned, successfully or not, the client keeps no record of its request.", "quantifier": "every history of calls and transport failures", "why_tests_cant": "A test runs one history; the claim is about every finite sequence of calls, including repeated and interleaved ids.", "anchors": ["src/client/mod.rs: send_request, cancel_request"]}
{"id": "C95", "title": "Client and server of this library understand each other", "statement": "Every successful response of the library's server is accepted by the client method that sent the request, with the handler's result as its value, and every handshake between the two succeeds.", "quantifier": "every server configuration, handler result and request", "why_tests_cant": "A test feeds a few inputs; the claim is about every input of every length, including adversarial ones.", "anchors": ["src/client/mod.rs", "src/server/mod.rs: process_client_request"]}
{"id": "C96", "title": "The client notifies only as it declared", "statement": "A client sends no notification before the handshake (other than initialized) and no roots/list_changed unless it declared that capability.", "quantifier": "every client state and declared capabilities", "why_tests_cant": "A test feeds a few inputs; the claim is about every input of every length, including adversarial ones.", "anchors": ["src/client/mod.rs: send_roots_list_changed, send_progress, cancel_request"]}
{"id": "C97", "title": "HTTP requests only after initialize", "statement": "A stateful HTTP server processes requests other than initialize only in sessions for which an initialize request was processed.", "quantifier": "every history of HTTP requests, every interleaving", "why_tests_cant": "A test runs one history; the claim is about every finite sequence of calls, including repeated and interleaved ids.", "anchors": ["src/server/streamable_http_server.rs: handle_get_sse, process_init_session, validate_non_init_session"]}
{"id": "C98", "title": "One event stream per session, replaceable", "statement": "A session has at most one event stream at a time, and a client whose stream broke can open a new one for its session.", "quantifier": "every history of GET, DELETE and disconnects, every interleaving", "why_tests_cant": "The outcome depends on the scheduler; a test samples a handful of interleavings and cannot show that no other one breaks the claim.", "anchors": ["src/server/streamable_http_server.rs: handle_get_sse"]}
{"id": "C99", "title": "HTTP answers reach their sender", "statement": "The answer to every accepted request is in the response to its POST or is delivered on the session's event stream.", "quantifier": "every request, configuration and state of the streams", "why_tests_cant": "A test runs one history; the claim is about every finite sequence of calls, including repeated and interleaved ids.", "anchors": ["src/server/streamable_http_server.rs: build_response, handle_post_request"]}
{"id": "C100", "title": "Event streams are isolated", "statement": "Whatever is delivered on a session's event stream is an answer to a request of that session.", "quantifier": "every history and interleaving of POST, GET, DELETE and disconnects over several sessions", "why_tests_cant": "The outcome depends on the scheduler; a test samples a handful of interleavings and cannot show that no other one breaks the claim.", "anchors": ["src/server/streamable_http_server.rs: build_response, handle_get_sse"]}
{"id": "C101", "title": "HTTP bodies are JSON-RPC messages", "statement": "A POST whose body is a JSON-RPC 2.0 request, notification or response of MCP is understood as that message.", "quantifier": "every request id, method and parameter", "why_tests_cant": "A test feeds a few inputs; the claim is about every input of every length, including adversarial ones.", "anchors": ["src/shared/transport.rs: TransportMessage", "src/server/streamable_http_server.rs: handle_post_request"]}
{"id": "C102", "title": "Exchanging a code needs the client's secret", "statement": "exchange_code succeeds for a confidential client only if the request carries the secret the client was registered with.", "quantifier": "every history and interleaving of provider calls, every secret", "why_tests_cant": "A test runs one history; the claim is about every finite sequence of calls, including repeated and interleaved ids.", "anchors": ["src/server/auth/oauth2.rs: exchange_code, register_client"]}
{"id": "C103", "title": "Registering a client does not change another one", "statement": "register_client stores the client under its own (or a generated) id and leaves every other registered client as it was; an id in use cannot be taken over.", "quantifier": "every set of registered clients, every registration", "why_tests_cant": "A test feeds a few inputs; the claim is about every input of every length, including adversarial ones.", "anchors": ["src/server/auth/oauth2.rs: register_client, get_client"]}
{"id": "C104", "title": "is_required tells whether anonymous requests are refused", "statement": "is_required() of a middleware is true exactly when a request without credentials is refused.", "quantifier": "every tree of middlewares, every provider", "why_tests_cant": "A test feeds a few inputs; the claim is about every input of every length, including adversarial ones.", "anchors": ["src/server/auth/middleware.rs: is_required, authenticate"]}
{"id": "C105", "title": "A reload is seen as a whole", "statement": "reload_configuration replaces the whole dynamic configuration: afterwards exactly the tools, prompts and resources of the new configuration are there, and a concurrent reader sees the old configuration or the new one, never a mixture.", "quantifier": "every sequence of operations on the dynamic server manager, every interleaving of readers", "why_tests_cant": "The outcome depends on the scheduler; a test samples a handful of interleavings and cannot show that no other one breaks the claim.", "anchors": ["src/server/dynamic.rs: reload_configuration"]}
{"id": "C106", "title": "A tool added at runtime can be called", "statement": "After add_tool has succeeded, the server lists the tool and a call of it reaches its handler, until it is removed.", "quantifier": "every sequence of operations, every tool name", "why_tests_cant": "A test runs one history; the claim is about every finite sequence of calls, including repeated and interleaved ids.", "anchors": ["src/server/dynamic.rs: add_tool, remove_tool", "src/server/mod.rs: handle_call_tool, handle_list_tools"]}
{"id": "C107", "title": "A resource added to the watcher is tracked", "statement": "When add_resource returns Ok the resource is tracked until it is removed; the configured limit is never exceeded.", "quantifier": "every sequence of additions, removals, events and ticks", "why_tests_cant": "A test runs one history; the claim is about every finite sequence of calls, including repeated and interleaved ids.", "anchors": ["src/server/resource_watcher.rs: add_resource, remove_resource"]}
{"id": "C108", "title": "Merged notifications are sent exactly once, in order", "statement": "With merging enabled the notification debouncer sends every submitted notification exactly once, those of one kind in the order of submission.", "quantifier": "every sequence of submissions, ticks and flushes", "why_tests_cant": "A test runs one history; the claim is about every finite sequence of calls, including repeated and interleaved ids.", "anchors": ["src/server/notification_debouncer.rs: NotificationDebouncer::submit, flush_pending, flush_all"]}
{"id": "C109", "title": "No debounced notification waits too long", "statement": "A kind of notification that has been quiet for its interval is sent at the next tick, and no notification waits longer than max_wait_time and one tick.", "quantifier": "every sequence of submissions and ticks", "why_tests_cant": "A test runs one history; the claim is about every finite sequence of calls, including repeated and interleaved ids.", "anchors": ["src/server/notification_debouncer.rs: flush_pending"]}
{"id": "C110", "title": "Without merging the latest notification of each kind is sent", "statement": "With merging disabled what is sent of a kind is the latest submitted, and notifications of different types do not displace each other.", "quantifier": "every sequence of submissions and ticks", "why_tests_cant": "A test runs one history; the claim is about every finite sequence of calls, including repeated and interleaved ids.", "anchors": ["src/server/notification_debouncer.rs: submit, notification_key"]}
{"id": "C111", "title": "Configured debounce intervals apply", "statement": "The interval configured for a type of notification is the one used for notifications of that type.", "quantifier": "every configuration and notification", "why_tests_cant": "A test feeds a few inputs; the claim is about every input of every length, including adversarial ones.", "anchors": ["src/server/notification_debouncer.rs: NotificationDebouncerConfig::default, flush_pending, notification_key"]}
{"id": "C112", "title": "The notification batcher delivers everything once, by kind", "statement": "Every notification added is sent in exactly one batch; a batch is not empty, holds one kind and at most max_batch_size notifications; what waits is sent when its timer fires; notifications of one kind are sent in order.", "quantifier": "every interleaving of additions, sends, timers and flushes", "why_tests_cant": "The outcome depends on the scheduler; a test samples a handful of interleavings and cannot show that no other one breaks the claim.", "anchors": ["src/server/notification_debouncer.rs: NotificationBatcher::add, flush"]}
{"id": "C113", "title": "batch_validate_lengths tells which lengths are within the limit", "statement": "The i-th result is true exactly when the i-th length is at most max_length.", "quantifier": "every list of u32 lengths, every limit", "why_tests_cant": "A test feeds a few inputs; the claim is about every input of every length, including adversarial ones.", "anchors": ["src/simd/mod.rs: batch_validate_lengths"]}
{"id": "C114", "title": "Fast JSON writing gives the standard bytes", "statement": "serialize_json_fast returns exactly the bytes of serde_json::to_vec.", "quantifier": "every JSON value", "why_tests_cant": "A test feeds a few inputs; the claim is about every input of every length, including adversarial ones.", "anchors": ["src/utils/json_simd.rs: serialize_json_fast"]}
{"id": "C115", "title": "Messages in HTTP replies are received exactly once and in order", "statement": "Every message the server puts in a reply to the streamable HTTP client - alone, in a JSON array, or as events of an event stream - is returned by receive() exactly once, in the order it arrived, and nothing else is.", "quantifier": "every sequence of sends, replies, stream bodies, receives and closes, in any interleaving, and every reply", "why_tests_cant": "The outcome depends on the scheduler; a test samples a handful of interleavings and cannot show that no other one breaks the claim.", "anchors": ["src/shared/streamable_http.rs: send_with_options, start_sse, receive"]}
{"id": "C116", "title": "Requests carry the current session and protocol version", "statement": "Every request of the streamable HTTP client carries the session id and protocol version assigned last (by a reply's headers or by the caller), none before one is assigned or after the session was deleted; a session the server no longer knows is given up.", "quantifier": "every history of sends, replies, settings and closes, and every configuration", "why_tests_cant": "A test runs one history; the claim is about every finite sequence of calls, including repeated and interleaved ids.", "anchors": ["src/shared/streamable_http.rs: build_request, process_response_headers, close"]}
{"id": "C117", "title": "Resumption tokens are reported and used", "statement": "The resumption callback gets the id of every event in order, last_event_id is the last of them, a stream started with a token asks for the events after it, and a message sent with resumption options is sent.", "quantifier": "every event stream, every history", "why_tests_cant": "A test runs one history; the claim is about every finite sequence of calls, including repeated and interleaved ids.", "anchors": ["src/shared/streamable_http.rs: start_sse, send_with_options, last_event_id"]}
{"id": "C118", "title": "The client listens to the server after initialization", "statement": "After the initialized notification is acknowledged with 202 the client opens the server's event stream (tolerating 405).", "quantifier": "every history of sends and replies", "why_tests_cant": "A test runs one history; the claim is about every finite sequence of calls, including repeated and interleaved ids.", "anchors": ["src/shared/streamable_http.rs: send_with_options, start_sse"]}
{"id": "C119", "title": "Client and server of the library understand each other over HTTP", "statement": "A request sent by the streamable HTTP client to the library's streamable HTTP server is processed once, as sent, in the client's session, and its response is returned by the client's receive(); initializing gives both the same session and protocol version.", "quantifier": "every history of client and server, every request and response that can be written as JSON, both response modes", "why_tests_cant": "A test runs one history; the claim is about every finite sequence of calls, including repeated and interleaved ids.", "anchors": ["src/shared/streamable_http.rs: send_with_options", "src/server/streamable_http_server.rs: handle_post_request, build_response"]}
{"id": "C120", "title": "What a WebSocket peer sends is received once, in order", "statement": "Every message a peer sends as a text frame over an accepted connection is returned by the server transport's receive exactly once and in order; when the peer has gone, receive returns what is left and then an error.", "quantifier": "every history of bind, accept, send, receive, close, frames of any kind read from any number of successive connections, and rounds of the background tasks", "why_tests_cant": "The outcome depends on the scheduler; a test samples a handful of interleavings and cannot show that no other one breaks the claim.", "anchors": ["src/server/transport/websocket.rs: WebSocketServerTransport::accept, receive, close"]}
{"id": "C121", "title": "What the WebSocket server sends is transmitted once, in order", "statement": "A message for which the server transport's send returned Ok is written to the connection in use exactly once, in the order of the calls, and to no other connection; send fails when there is no working connection.", "quantifier": "every history of calls, failures of the socket and rounds of the background tasks", "why_tests_cant": "The outcome depends on the scheduler; a test samples a handful of interleavings and cannot show that no other one breaks the claim.", "anchors": ["src/server/transport/websocket.rs: WebSocketServerTransport::send, accept"]}
{"id": "C122", "title": "WebSocket pings are answered", "statement": "Every ping read from a peer is answered by one pong with the same data, in order, independently of the messages sent.", "quantifier": "every history of frames and rounds of the tasks", "why_tests_cant": "The outcome depends on the scheduler; a test samples a handful of interleavings and cannot show that no other one breaks the claim.", "anchors": ["src/server/transport/websocket.rs: WebSocketServerTransport::accept"]}
{"id": "C123", "title": "The WebSocket server knows whether it is connected", "statement": "is_connected of the server transport is true exactly while there is a connection over which messages can be exchanged.", "quantifier": "every history of calls, peers that go away and failing sockets", "why_tests_cant": "A test runs one history; the claim is about every finite sequence of calls, including repeated and interleaved ids.", "anchors": ["src/server/transport/websocket.rs: is_connected, close, accept"]}
{"id": "C124", "title": "WebSocket connection attempts are bounded and back off", "statement": "connect tries until it succeeds, at most as often as configured; the waits double from the initial delay and never exceed the configured maximum.", "quantifier": "every sequence of outcomes, limit, initial delay and maximum", "why_tests_cant": "A test feeds a few inputs; the claim is about every input of every length, including adversarial ones.", "anchors": ["src/shared/websocket.rs: WebSocketTransport::connect, connect_with_retry"]}
{"id": "C125", "title": "What the WebSocket client sends is transmitted", "statement": "A message for which the client transport's send returned Ok is written to the connection.", "quantifier": "every history of calls and rounds of the tasks", "why_tests_cant": "A test runs one history; the claim is about every finite sequence of calls, including repeated and interleaved ids.", "anchors": ["src/shared/websocket.rs: WebSocketTransport::send, connect_once"]}
{"id": "C126", "title": "What the WebSocket server sends is received by the client once, in order", "statement": "Every message read from a connection is returned by the client transport's receive exactly once, in order per connection, also across reconnections.", "quantifier": "every history of connects, calls, frames and rounds of the tasks", "why_tests_cant": "The outcome depends on the scheduler; a test samples a handful of interleavings and cannot show that no other one breaks the claim.", "anchors": ["src/shared/websocket.rs: WebSocketTransport::connect_once, receive"]}
{"id": "C127", "title": "The end of a WebSocket connection is reported to the client", "statement": "When the server closes the connection, it breaks or the transport is closed, is_connected is false, receive returns an error after the last message and send fails.", "quantifier": "every history", "why_tests_cant": "A test runs one history; the claim is about every finite sequence of calls, including repeated and interleaved ids.", "anchors": ["src/shared/websocket.rs: receive, send, close, is_connected, connect_once"]}
{"id": "C128", "title": "WebSocket client and server of the library understand each other", "statement": "Messages sent by the server transport arrive at the client transport connected to it unchanged, once and in order, and the other way round.", "quantifier": "every history of both sides and every message", "why_tests_cant": "The outcome depends on the scheduler; a test samples a handful of interleavings and cannot show that no other one breaks the claim.", "anchors": ["src/shared/websocket.rs", "src/server/transport/websocket.rs"]}
{"id": "C129", "title": "HTTP transport: stream messages arrive once, in order, unchanged", "statement": "Every message the server writes to the event stream of an HttpTransport, and every answer to a request, is returned by receive exactly once, unchanged, in the order written, however the stream is divided into chunks.", "quantifier": "all histories of calls and of rounds of the reading tasks, all streams, all divisions into chunks", "why_tests_cant": "The outcome depends on the scheduler; a test samples a handful of interleavings and cannot show that no other one breaks the claim.", "anchors": ["src/shared/http.rs:HttpTransport::connect_sse", "src/shared/http.rs:Transport::receive", "src/shared/sse_parser.rs:SseParser::feed"]}
{"id": "C130", "title": "HTTP transport: result of send", "statement": "send on an HttpTransport makes exactly one request with the message as body, and succeeds exactly if the server accepted it; an answer in the reply is then available to receive. In particular a notification the server accepts without an answer is sent successfully.", "quantifier": "all states, all messages, all replies", "why_tests_cant": "A test feeds a few inputs; the claim is about every input of every length, including adversarial ones.", "anchors": ["src/shared/http.rs:send_request"]}
{"id": "C131", "title": "HTTP transport: send returns", "statement": "When the server has replied, send on an HttpTransport returns, whatever waits to be received.", "quantifier": "all states, all messages, all continuations", "why_tests_cant": "The outcome depends on the scheduler; a test samples a handful of interleavings and cannot show that no other one breaks the claim.", "anchors": ["src/shared/http.rs:send_request", "src/shared/http.rs:HttpTransport::new"]}
{"id": "C132", "title": "HTTP transport: is_connected, close and the end of a stream", "statement": "is_connected on an HttpTransport is true exactly from a successful connect_sse until close or the end of the stream; after close no more messages arrive and receive fails instead of waiting for ever.", "quantifier": "all histories of calls and of rounds of the reading tasks", "why_tests_cant": "The outcome depends on the scheduler; a test samples a handful of interleavings and cannot show that no other one breaks the claim.", "anchors": ["src/shared/http.rs:connect_sse", "src/shared/http.rs:close", "src/shared/http.rs:is_connected"]}
{"id": "C133", "title": "HTTP transport: configured headers and the SDK's own server", "statement": "Every request of an HttpTransport carries the headers of its configuration, and the SDK's own HTTP server accepts its requests.", "quantifier": "all configurations, all histories, all messages, all states of the server", "why_tests_cant": "A test feeds a few inputs; the claim is about every input of every length, including adversarial ones.", "anchors": ["src/shared/http.rs:HttpConfig", "src/shared/http.rs:send_request", "src/server/streamable_http_server.rs:validate_headers"]}
{"id": "C134", "title": "OIDC discovery retries temporary failures, boundedly", "statement": "discover makes at least one and at most max_retries requests, all to the issuer's discovery url; it repeats a request exactly after a network failure while attempts are left, pausing in between, and returns the first success or the last failure.", "quantifier": "all limits, all issuers, all sequences of replies", "why_tests_cant": "A test runs one history; the claim is about every finite sequence of calls, including repeated and interleaved ids.", "anchors": ["src/client/auth.rs:OidcDiscoveryClient::discover", "src/client/auth.rs:should_retry"]}
{"id": "C135", "title": "The discovery url is determined by the issuer", "statement": "Two issuer urls are looked up at the same discovery url exactly if they differ only in slashes at the end; it is the well-known path below the issuer, without a doubled slash.", "quantifier": "all issuer texts", "why_tests_cant": "A test feeds a few inputs; the claim is about every input of every length, including adversarial ones.", "anchors": ["src/client/auth.rs:OidcDiscoveryClient::discover"]}
{"id": "C136", "title": "Discovery returns the published document", "statement": "When the issuer answers with a conforming discovery document, in particular the one of this SDK's provider, discover returns it unchanged.", "quantifier": "all documents, all successful statuses, all provider urls", "why_tests_cant": "A test feeds a few inputs; the claim is about every input of every length, including adversarial ones.", "anchors": ["src/client/auth.rs:fetch_discovery", "src/server/auth/oauth2.rs:OidcDiscoveryMetadata", "src/server/auth/oauth2.rs:InMemoryOAuthProvider::metadata"]}
{"id": "C137", "title": "Token requests carry exactly the given parameters and credentials", "statement": "The form a server reads from an exchange_code or refresh_token request has exactly the parameters of the call, whatever characters are in them, and the client credentials it reads are those given; without a secret there are none.", "quantifier": "all codes, tokens, ids, secrets, uris, verifiers and scopes", "why_tests_cant": "A test feeds a few inputs; the claim is about every input of every length, including adversarial ones.", "anchors": ["src/client/auth.rs:TokenExchangeClient::exchange_code", "src/client/auth.rs:TokenExchangeClient::refresh_token"]}
{"id": "C138", "title": "Token replies are classified", "statement": "exchange_code and refresh_token return the token of a successful reply, in particular every token this SDK's server type can express, and otherwise an error that tells a failed request, a refusal with the server's text, and an unreadable token apart.", "quantifier": "all replies, all tokens", "why_tests_cant": "A test feeds a few inputs; the claim is about every input of every length, including adversarial ones.", "anchors": ["src/client/auth.rs:TokenResponse", "src/client/auth.rs:exchange_code", "src/server/auth/oauth2.rs:AccessToken"]}
{"id": "C139", "title": "Static completion offers exactly the matching items", "statement": "For every list of items and every partial text, a static completion provider returns exactly those items, in their order and with everything in them, whose value or label begins with the partial text; built from strings, the strings that begin with it.", "quantifier": "every list of items and every partial text", "why_tests_cant": "A test feeds a few inputs; the claim is about every input of every length, including adversarial ones.", "anchors": ["src/types/completable.rs: StaticCompletionProvider::complete, from_strings"]}
{"id": "C140", "title": "File completion offers the entries of the directory being typed", "statement": "For every file system and every partial path, a file completion provider suggests exactly the entries of the directory part (below the base directory if the path is relative) whose names begin with the last part and pass the extension filter, each as the directory part followed by the name, in sorted order.", "quantifier": "every file system, configuration and partial path", "why_tests_cant": "A test feeds a few inputs; the claim is about every input of every length, including adversarial ones.", "anchors": ["src/types/completable.rs: FileCompletionProvider::complete"]}
{"id": "C141", "title": "File completion stays below its base directory", "statement": "Whatever partial path a client asks to complete, a provider with a base directory lists only that directory and directories below it.", "quantifier": "every partial path, base directory and file system", "why_tests_cant": "A test feeds a few inputs; the claim is about every input of every length, including adversarial ones.", "anchors": ["src/types/completable.rs: FileCompletionProvider::complete, with_base_dir"]}
{"id": "C142", "title": "File completion respects the listed extensions", "statement": "With extensions configured, every suggested file has one of them, written as the documentation does; directories are always suggested.", "quantifier": "every list of extensions, partial path and file system", "why_tests_cant": "A test feeds a few inputs; the claim is about every input of every length, including adversarial ones.", "anchors": ["src/types/completable.rs: FileCompletionProvider::complete, with_extensions, CompletableArgument"]}
{"id": "C143", "title": "The elicitation builder keeps the last value given for each part", "statement": "After any sequence of builder calls the built request holds the given type and prompt, for every other part the value given last (or none), is marked required iff that was asked for at any point, has validation rules iff any was given, and for each metadata key the value given last.", "quantifier": "every sequence of builder calls", "why_tests_cant": "A test runs one history; the claim is about every finite sequence of calls, including repeated and interleaved ids.", "anchors": ["src/types/elicitation.rs: ElicitInputBuilder"]}
{"id": "C144", "title": "A built elicitation request is read by the client as it was built", "statement": "Every request built with the elicitation builder is, after serialisation and parsing, read back with the same id, type, prompt, description, default, validation and metadata.", "quantifier": "every sequence of builder calls and every order of the metadata map", "why_tests_cant": "A test feeds a few inputs; the claim is about every input of every length, including adversarial ones.", "anchors": ["src/types/elicitation.rs: ElicitInputBuilder::build, ElicitInputRequest"]}
{"id": "C145", "title": "Only requests of live sessions reach the server (HTTP)", "statement": "In stateful mode every request other than initialize gets past the checks of the HTTP transport only with the id of a session that is live at that moment; a session stays live, and its requests are admitted, until it is deleted, whatever other requests come in between.", "quantifier": "every history of HTTP requests, in any interleaving", "why_tests_cant": "A test runs one history; the claim is about every finite sequence of calls, including repeated and interleaved ids.", "anchors": ["src/server/streamable_http_server.rs: handle_post_request, validate_non_init_session"]}
{"id": "C146", "title": "Requests with wrong headers are refused before anything happens (HTTP)", "statement": "A POST without the JSON content type or without accepting both reply types is refused with 415 or 406, a GET not accepting an event stream with 406, and after an initialize answered with a version, requests of that session with another version with 400; the server's state is unchanged by them.", "quantifier": "every state, request and history", "why_tests_cant": "A test runs one history; the claim is about every finite sequence of calls, including repeated and interleaved ids.", "anchors": ["src/server/streamable_http_server.rs: handle_post_request, handle_get_sse, validate_protocol_version"]}
{"id": "C147", "title": "A server's responses are those of its requests, in order", "statement": "Whatever fails or panics, the responses a server has sent are, in order, what handling the first of the received requests gave, one each; all of them as long as it listens; nothing is sent after a transport failure.", "quantifier": "every sequence of received messages and failures", "why_tests_cant": "A test runs one history; the claim is about every finite sequence of calls, including repeated and interleaved ids.", "anchors": ["src/server/mod.rs: run, run_main_loop"]}
{"id": "C148", "title": "No message is received twice by concurrent client calls", "statement": "In any interleaving of concurrent calls on one client, the messages that arrived are received once each, in order of arrival, and no call receives two.", "quantifier": "every interleaving of calls", "why_tests_cant": "The outcome depends on the scheduler; a test samples a handful of interleavings and cannot show that no other one breaks the claim.", "anchors": ["src/client/mod.rs: send_request"]}
{"id": "C149", "title": "The watcher announces exactly the files that have become quiet", "statement": "A tick of the watcher announces, once each, exactly the tracked files whose last event is not announced yet and lies at least the debounce time back; nothing else announces anything; between two events of a file it is announced at most once.", "quantifier": "every history of events and ticks", "why_tests_cant": "A test runs one history; the claim is about every finite sequence of calls, including repeated and interleaved ids.", "anchors": ["src/server/resource_watcher.rs: process_events"]}
{"id": "C150", "title": "Watch patterns select exactly the matching files", "statement": "A file is watched exactly when it lies under the base directory, some pattern matches its relative path there and no ignore pattern does.", "quantifier": "every path, list of patterns and list of ignore patterns", "why_tests_cant": "A test feeds a few inputs; the claim is about every input of every length, including adversarial ones.", "anchors": ["src/server/resource_watcher.rs: matches_patterns"]}
{"id": "C151", "title": "The number of watched resources never exceeds its limit", "statement": "In every history the watcher tracks at most the configured number of resources, and removing one removes exactly it.", "quantifier": "every history", "why_tests_cant": "A test runs one history; the claim is about every finite sequence of calls, including repeated and interleaved ids.", "anchors": ["src/server/resource_watcher.rs: add_resource, remove_resource"]}
{"id": "C152", "title": "Batch metrics add up", "statement": "For every sequence of processed batches the total is the number of responses, each response is counted in exactly one of success, timeout and error, and the largest duration is the maximum.", "quantifier": "every sequence of batches", "why_tests_cant": "A test runs one history; the claim is about every finite sequence of calls, including repeated and interleaved ids.", "anchors": ["src/utils/parallel_batch.rs: BatchProcessor::process, BatchMetrics"]}
{"id": "C153", "title": "The notification batcher sends each notification exactly once", "statement": "In every interleaving of additions, timers and flushes, what was sent, is being sent or waits is what was added, each as often; every batch has between one and the maximal number of notifications, all of one kind; whatever waits has a timer that will send it.", "quantifier": "every interleaving of additions, sends, timers and flushes", "why_tests_cant": "The outcome depends on the scheduler; a test samples a handful of interleavings and cannot show that no other one breaks the claim.", "anchors": ["src/server/notification_debouncer.rs: NotificationBatcher"]}
{"id": "C154", "title": "Debounced notifications about different things do not affect each other", "statement": "Submitting a notification changes nothing that waits about another operation, resource or list; two notifications share a place exactly if they are about the same one.", "quantifier": "every history and every pair of notifications", "why_tests_cant": "A test runs one history; the claim is about every finite sequence of calls, including repeated and interleaved ids.", "anchors": ["src/server/notification_debouncer.rs: submit, notification_key"]}
{"id": "C155", "title": "The streamable HTTP client delivers each message once and in order", "statement": "The messages of a JSON reply are queued in order; receive returns the queue in order, each once, and waits if it is empty; what was received followed by what is queued only grows, by complete replies and streams, each of which counts once.", "quantifier": "every history of calls, replies and streams", "why_tests_cant": "The outcome depends on the scheduler; a test samples a handful of interleavings and cannot show that no other one breaks the claim.", "anchors": ["src/shared/streamable_http.rs: send_with_options, receive, start_sse"]}
{"id": "C156", "title": "The resumption token is always the last event id seen", "statement": "Every event with an id is reported in order, and at any time the remembered id is the one reported last.", "quantifier": "every history of streams", "why_tests_cant": "A test runs one history; the claim is about every finite sequence of calls, including repeated and interleaved ids.", "anchors": ["src/shared/streamable_http.rs: start_sse, last_event_id"]}
{"id": "C157", "title": "The WebSocket server transport returns what was read, in order", "statement": "What receive returned of a connection, what waits in its channel and what its reader holds are together the messages in the frames read; of a replaced connection a first part was returned; when the peer has gone receive returns the rest and then fails.", "quantifier": "every history of calls and rounds of the tasks", "why_tests_cant": "The outcome depends on the scheduler; a test samples a handful of interleavings and cannot show that no other one breaks the claim.", "anchors": ["src/server/transport/websocket.rs"]}
{"id": "C158", "title": "The WebSocket server transport writes what was sent, in order", "statement": "The text frames written to a connection are in order the first of the messages send accepted for it, the others wait while its writer works, and as many rounds as messages wait write all; send fails exactly without a working connection and affects no other connection.", "quantifier": "every history of calls and rounds of the tasks", "why_tests_cant": "The outcome depends on the scheduler; a test samples a handful of interleavings and cannot show that no other one breaks the claim.", "anchors": ["src/server/transport/websocket.rs"]}
{"id": "C159", "title": "Connecting a WebSocket tries as often as configured", "statement": "connect stops at the first successful attempt and otherwise makes exactly the configured number of attempts (at least one), waiting between them by the backoff rule; it ends whenever there is a limit or some attempt succeeds.", "quantifier": "every sequence of outcomes, limit and delays", "why_tests_cant": "A test runs one history; the claim is about every finite sequence of calls, including repeated and interleaved ids.", "anchors": ["src/shared/websocket.rs: connect"]}
{"id": "C160", "title": "Messages sent over a WebSocket arrive unchanged and in order", "statement": "If a client reads what the server wrote, it receives the messages the server sent, in order, as many as it has read.", "quantifier": "every pair of histories of server and client", "why_tests_cant": "The outcome depends on the scheduler; a test samples a handful of interleavings and cannot show that no other one breaks the claim.", "anchors": ["src/server/transport/websocket.rs", "src/shared/websocket.rs"]}
{"id": "C161", "title": "The HTTP transport with an event stream loses and repeats nothing", "statement": "What receive returned of a stream, what waits in the channel and what the reading task holds are together the messages in the events of the chunks read, in order; likewise for the answers to posts.", "quantifier": "every history of calls, replies and chunks", "why_tests_cant": "The outcome depends on the scheduler; a test samples a handful of interleavings and cannot show that no other one breaks the claim.", "anchors": ["src/shared/http.rs: connect_sse, send, receive"]}
{"id": "C162", "title": "Each send of the HTTP transport makes exactly one request", "statement": "The requests made are those of the calls of send, in order, each with its message as body, none repeated.", "quantifier": "every history", "why_tests_cant": "A test runs one history; the claim is about every finite sequence of calls, including repeated and interleaved ids.", "anchors": ["src/shared/http.rs: send"]}
{"id": "C163", "title": "A discovery document that follows the schema is accepted unchanged", "statement": "Every metadata document of the right type in a successful reply is returned as it is; in particular what the SDK's own provider publishes, whatever its url.", "quantifier": "every document and base url", "why_tests_cant": "A test feeds a few inputs; the claim is about every input of every length, including adversarial ones.", "anchors": ["src/client/auth.rs: fetch_discovery", "src/server/auth/oauth2.rs: metadata"]}
{"id": "C164", "title": "Token requests carry exactly the given parameters", "statement": "The form body of an authorization-code or refresh request, decoded, is exactly the list of parameters of the call, for all texts; credentials are sent iff a secret is given.", "quantifier": "all texts given", "why_tests_cant": "A test feeds a few inputs; the claim is about every input of every length, including adversarial ones.", "anchors": ["src/client/auth.rs: exchange_code, refresh_token"]}
{"id": "C165", "title": "File suggestions are always sorted", "statement": "Whatever is typed and whatever the file system answers, suggestions come in the order of their values.", "quantifier": "every partial text, configuration and file system", "why_tests_cant": "A test feeds a few inputs; the claim is about every input of every length, including adversarial ones.", "anchors": ["src/types/completable.rs: FileCompletionProvider::complete"]}
{"id": "C166", "title": "Whitespace between tokens does not matter to the fast JSON parser", "statement": "Removing all whitespace outside of strings never changes the value of a text that parses, and parsing a batch gives for each input what parsing it alone gives, in order.", "quantifier": "every text and every list of inputs", "why_tests_cant": "A test feeds a few inputs; the claim is about every input of every length, including adversarial ones.", "anchors": ["src/utils/json_simd.rs: parse_json_fast, parse_json_batch"]}
{"id": "C167", "title": "Fast JSON writing gives the standard bytes", "statement": "Whenever fast serialisation succeeds its output is the bytes of the standard serialisation.", "quantifier": "every JSON value and target", "why_tests_cant": "A test feeds a few inputs; the claim is about every input of every length, including adversarial ones.", "anchors": ["src/utils/json_simd.rs: serialize_json_fast"]}
{"id": "C168", "title": "A child context keeps everything of its parent", "statement": "For every context and span id, a child context has the parent's request id, user, client and metadata, the new span and the parent's span as its parent.", "quantifier": "every context", "why_tests_cant": "A test feeds a few inputs; the claim is about every input of every length, including adversarial ones.", "anchors": ["src/shared/context.rs: child"]}
{"id": "C169", "title": "An accepted request is the one that was sent", "statement": "If a message is accepted as a typed request, the id and method are those of the message and the body is of the method's type; distinct requests have distinct methods, but for sampling/createMessage.", "quantifier": "every message", "why_tests_cant": "A test feeds a few inputs; the claim is about every input of every length, including adversarial ones.", "anchors": ["src/shared/protocol_helpers.rs: parse_request"]}
{"id": "C170", "title": "Only well-typed documents are accepted, whatever the order of fields", "statement": "Whatever a protocol type is read from, what is accepted is a value of that type, and neither the order of fields nor unknown fields change the result.", "quantifier": "every protocol type and JSON document", "why_tests_cant": "A test feeds a few inputs; the claim is about every input of every length, including adversarial ones.", "anchors": ["src/types"]}
{"id": "C171", "title": "The session cookie is found among other cookies", "statement": "The session id taken from a cookie header is the value of the first cookie with the right name, whatever the others are.", "quantifier": "every list of cookies", "why_tests_cant": "A test feeds a few inputs; the claim is about every input of every length, including adversarial ones.", "anchors": ["src/shared/session.rs: extract_session_id"]}
{"id": "C172", "title": "Lines of an event stream mean what the standard says", "statement": "Complete lines set the named field with one space after the colon dropped; comments and unknown fields are ignored; an empty line dispatches the event unless it has no data.", "quantifier": "every line and state", "why_tests_cant": "A test feeds a few inputs; the claim is about every input of every length, including adversarial ones.", "anchors": ["src/shared/sse_parser.rs: process_line"]}
{"id": "C173", "title": "Well-formed URI templates are accepted as what they say", "statement": "Every template text written from literals and well-formed expressions is parsed into exactly these, and whatever is accepted consists of well-formed expressions.", "quantifier": "every template", "why_tests_cant": "A test feeds a few inputs; the claim is about every input of every length, including adversarial ones.", "anchors": ["src/shared/uri_template.rs: parse_template"]}
{"id": "C174", "title": "A successful initialize is complete, and happens once", "statement": "After a successful initialize the client has sent the request in the latest version and then the notification, knows the server's capabilities and information, and the version is a supported one; a second initialize is refused without effect.", "quantifier": "every history of calls and messages", "why_tests_cant": "A test runs one history; the claim is about every finite sequence of calls, including repeated and interleaved ids.", "anchors": ["src/client/mod.rs: initialize"]}
{"id": "C175", "title": "Client and server of this SDK always agree on a handshake", "statement": "For every server with capabilities of the right types, the handshake of a fresh client succeeds and the client then knows exactly the server's capabilities.", "quantifier": "every server configuration, client and capabilities", "why_tests_cant": "A test feeds a few inputs; the claim is about every input of every length, including adversarial ones.", "anchors": ["src/client/mod.rs: initialize", "src/server/mod.rs"]}
{"id": "C176", "title": "Fixed retries are made exactly as configured", "statement": "With a fixed strategy an operation is tried until it succeeds or fails for the last allowed time, with the configured delay between attempts; with_retry makes at most the given number of calls.", "quantifier": "every sequence of outcomes and configuration", "why_tests_cant": "A test runs one history; the claim is about every finite sequence of calls, including repeated and interleaved ids.", "anchors": ["src/error/recovery.rs: execute_with_recovery, with_retry"]}
{"id": "C177", "title": "Registering a root succeeds exactly for file URIs", "statement": "In every history registration succeeds exactly for URIs with the file scheme and appends the root; otherwise nothing changes.", "quantifier": "every history of the roots manager", "why_tests_cant": "A test runs one history; the claim is about every finite sequence of calls, including repeated and interleaved ids.", "anchors": ["src/server/roots.rs: register_root"]}
{"id": "C178", "title": "Expired sessions are never returned and cleanup removes exactly them", "statement": "In any interleaving validate never returns an expired session, and cleanup removes exactly the sessions that have expired.", "quantifier": "every state and interleaving", "why_tests_cant": "The outcome depends on the scheduler; a test samples a handful of interleavings and cannot show that no other one breaks the claim.", "anchors": ["src/shared/session.rs: validate_session, cleanup_expired"]}
{"id": "C179", "title": "Requests of a batch are treated like single ones", "statement": "The response to a request in a batch has its id, and is what the server answers to the same request sent alone in the same state.", "quantifier": "every request, server and state", "why_tests_cant": "A test feeds a few inputs; the claim is about every input of every length, including adversarial ones.", "anchors": ["src/server/batch.rs: handle_batch_request"]}
{"id": "C180", "title": "Initializing over streamable HTTP opens a session both sides know", "statement": "Client and server of this SDK, composed: initialize is answered, the answer arrives, and both have the same session and protocol version; closing sends a DELETE exactly if there is a session, and forgets it.", "quantifier": "every server, client, message and id", "why_tests_cant": "A test feeds a few inputs; the claim is about every input of every length, including adversarial ones.", "anchors": ["src/shared/streamable_http.rs", "src/server/streamable_http_server.rs"]}
{"id": "C181", "title": "Request ids survive the wire", "statement": "Every request id that can be built is, after serialisation and parsing, the same id.", "quantifier": "every id", "why_tests_cant": "A test feeds a few inputs; the claim is about every input of every length, including adversarial ones.", "anchors": ["src/types/jsonrpc.rs: RequestId"]}
{"id": "C182", "title": "Sleeping in a browser lasts as long as asked", "statement": "On wasm32 targets, sleep waits for the duration it is given: not shorter and not longer by the runtime's own arithmetic.", "quantifier": "every duration", "why_tests_cant": "A test feeds a few inputs; the claim is about every input of every length, including adversarial ones.", "anchors": ["src/shared/runtime.rs:sleep"]}
{"id": "C183", "title": "The browser channel delivers every value once, in order", "statement": "Whatever sequence of sends and receives happens on a channel of the wasm32 runtime, the values received are the values sent, each once and in the order sent, and the values still waiting are exactly the rest.", "quantifier": "every buffer size and every sequence of operations", "why_tests_cant": "A test runs one history; the claim is about every finite sequence of calls, including repeated and interleaved ids.", "anchors": ["src/shared/runtime.rs:channel::Sender::send", "src/shared/runtime.rs:channel::Receiver::recv"]}
{"id": "C184", "title": "The browser channel ends, waits and refuses as a bounded channel does", "statement": "On a channel of the wasm32 runtime receiving ends only once the sender is gone and everything was received, sending waits while the buffer is full, and sending fails once the receiver is gone.", "quantifier": "every buffer size and every sequence of operations", "why_tests_cant": "A test runs one history; the claim is about every finite sequence of calls, including repeated and interleaved ids.", "anchors": ["src/shared/runtime.rs:channel::channel", "src/shared/runtime.rs:channel::Receiver::recv"]}
{"id": "C185", "title": "A log entry names the request it was logged for", "statement": "A structured log entry carries the request id, trace id, span id, user and session of the innermost RequestContext::run its own task is inside of, and none of them outside of every such call, whatever other tasks run in between.", "quantifier": "every history of scopes entered and left by any number of interleaved tasks", "why_tests_cant": "The outcome depends on the scheduler; a test samples a handful of interleavings and cannot show that no other one breaks the claim.", "anchors": ["src/shared/logging.rs:LogEntry::new", "src/shared/context.rs:RequestContext::run", "src/shared/context.rs:RequestContext::current"]}
{"id": "C186", "title": "Work started within a request is logged under the request", "statement": "Entries logged by tasks started while a request's context is current name that request.", "quantifier": "every history of scopes and started tasks", "why_tests_cant": "The outcome depends on the scheduler; a test samples a handful of interleavings and cannot show that no other one breaks the claim.", "anchors": ["src/shared/context.rs:RequestContext::current", "src/shared/logging.rs:LogEntry::new"]}
{"id": "C187", "title": "An entry is logged at the level it names", "statement": "LogEntry::log emits the entry at the level its level text names, in capital or small letters, for all the level names in use in the protocol and in tracing.", "quantifier": "every level text", "why_tests_cant": "A test feeds a few inputs; the claim is about every input of every length, including adversarial ones.", "anchors": ["src/shared/logging.rs:LogEntry::log"]}
{"id": "C188", "title": "A log line holds the entry it was made from", "statement": "The emitted line is one JSON object in which message, level, request, trace, span, user and session are those of the entry, and each field has the value it was last given.", "quantifier": "every entry and every set of fields", "why_tests_cant": "A test feeds a few inputs; the claim is about every input of every length, including adversarial ones.", "anchors": ["src/shared/logging.rs:LogEntry::with_field", "src/shared/logging.rs:LogEntry::log"]}
{"id": "C189", "title": "An executor keeps one breaker for each operation", "statement": "With the circuit-breaker strategy an executor decides whether to call a failed operation again as one breaker would that is told the outcomes of that operation alone; an execution returns the first success, the second call's outcome or that the breaker is open; and failure_threshold failing executions in a row stop second calls until the timeout has passed.", "quantifier": "every sequence of executions of any operations, every outcome and clock reading, every configuration", "why_tests_cant": "A test runs one history; the claim is about every finite sequence of calls, including repeated and interleaved ids.", "anchors": ["src/error/recovery.rs: execute_with_recovery, circuit_breaker"]}
{"id": "C190", "title": "Reconnection statistics count what happened", "statement": "stats() reports as many attempts and successes as were started and reported, the failures since the last success or reset, and the retries since the retry count was last reset; reconnect_with adds one attempt for each call of connect and one success if it succeeds.", "quantifier": "every history of connection events, every configuration, every connect behaviour", "why_tests_cant": "A test runs one history; the claim is about every finite sequence of calls, including repeated and interleaved ids.", "anchors": ["src/shared/reconnect.rs: stats, on_connecting, on_connected, on_connection_failed, reset"]}
{"id": "C191", "title": "A stream answering a request is read until it ends; the listening stream until it is replaced or closed", "statement": "An event stream a server opens in reply to a sent request goes on being read until the server ends it, whatever is called in between, including opening the listening stream again and closing the client. The listening stream a client opened is read until the server ends it, another one is asked for or the client is closed, and then no longer. No stream goes on being read after the client asked for another or closed.", "quantifier": "all configurations, histories of calls, replies in any order and ends of streams", "why_tests_cant": "The outcome depends on the scheduler; a test samples a handful of interleavings and cannot show that no other one breaks the claim.", "anchors": ["src/shared/streamable_http.rs: StreamableHttpTransport::start_sse, send_with_options, close"]}
{"id": "C192", "title": "An event stream carries what is put on it, in order and once", "statement": "Every accepted GET opens a new event stream. As long as its client reads it, the messages written on it and those still waiting are, in order and each once, the replayed ones and the answers put on it since; what has been written does not change, and all that waits can be written. Once its client has gone nothing more is written on it.", "quantifier": "every state, stream and history of POST, GET, DELETE, writes and disconnects", "why_tests_cant": "A test runs one history; the claim is about every finite sequence of calls, including repeated and interleaved ids.", "anchors": ["src/server/streamable_http_server.rs: handle_get_sse, build_response"]}
{"id": "C193", "title": "Stdio reads header blocks of any shape", "statement": "A reader of the stdio transport accepts a header block with any number of other headers before and after the content length, any white space around the name and the number, and any line of white space as its end; of several lengths the last one counts, and exactly the announced bytes are the message. A block without a length is reported as an invalid message, a line that is not UTF-8 or a body that ends early as an I/O error, and reading goes on behind it.", "quantifier": "every header block, payload and following input", "why_tests_cant": "A test feeds a few inputs; the claim is about every input of every length, including adversarial ones.", "anchors": ["src/shared/stdio.rs read_headers", "src/shared/stdio.rs parse_content_length", "src/shared/stdio.rs receive"]}
{"id": "C194", "title": "Debouncing never invents or repeats notifications", "statement": "Whatever the interleaving of adds, timers, flushes and receives of a debouncer, the receiver gets exactly what the timers sent, in that order, and the notifications sent or returned by a flush are added ones, each delivered at most once per add. A notification a timer holds because the channel is full was not delivered before and goes out as soon as there is room.", "quantifier": "every schedule of the steps of adds, timers, flushes and receives, and every wait", "why_tests_cant": "The outcome depends on the scheduler; a test samples a handful of interleavings and cannot show that no other one breaks the claim.", "anchors": ["src/utils/batching.rs MessageDebouncer"]}
{"id": "C195", "title": "A refused request is told why", "statement": "Whatever the tree of authentication middlewares, a refusal because of missing permission is given only to a request whose credentials were accepted but lack a required scope, a provider error only if the provider failed to look up the named client, and every other refusal asks for authentication. A failing provider and missing scopes are always reported as such, and of several alternatives that all refuse the last one's reason is given.", "quantifier": "every tree of the library's middlewares, every request and every answer of the provider", "why_tests_cant": "A test feeds a few inputs; the claim is about every input of every length, including adversarial ones.", "anchors": ["src/server/auth/middleware.rs BearerTokenMiddleware", "src/server/auth/middleware.rs ClientCredentialsMiddleware", "src/server/auth/middleware.rs ScopeMiddleware", "src/server/auth/middleware.rs CompositeMiddleware"]}
{"id": "C196", "title": "No headers crash the extraction of a request context", "statement": "Making a request context from the headers of an incoming request returns for every header map, whatever its trace header holds.", "quantifier": "every header map, with any text in the trace header", "why_tests_cant": "A test feeds a few inputs; the claim is about every input of every length, including adversarial ones.", "anchors": ["src/shared/context.rs RequestContext::from_headers"]}
{"id": "C197", "title": "A session over stdio returns exactly what the server's handlers did", "statement": "Connect a client and a server of this library by two pipes, each on the stdio transport. In every session of calls made one after the other: initialize succeeds and tells each side the other's capabilities; the handlers run exactly once for each request the client sent, in that order, with the arguments given; a call the server's capabilities allow returns what its handler returned (a tool's value as JSON text), or the handler's error text with code -32603; a tool or prompt that is not registered is reported by name and runs nothing; listing the tools gives the registered ones, each once; and a call that is not allowed does not reach the server.", "quantifier": "All server configurations, all handlers that do not panic (their results may depend on all earlier calls), all sequences of client calls with any parameters and ids whose messages can be serialised, through the actual bytes of both pipes.", "why_tests_cant": "A test runs one history; the claim is about every finite sequence of calls, including repeated and interleaved ids.", "anchors": ["src/client/mod.rs: Client::initialize, call_tool, list_tools, send_request", "src/server/mod.rs: Server::run, handle_request, process_client_request", "src/shared/stdio.rs: StdioTransport::send, receive", "src/shared/protocol_helpers.rs"]}
{"id": "C198", "title": "Browser transport: messages arrive once, in order, unchanged", "statement": "Every message a peer of this library writes to the socket of a WasmWebSocketTransport is returned by receive exactly once, in order, with the same id, method and content; other texts and binary data are ignored.", "quantifier": "all histories of calls, socket states and message events; all messages", "why_tests_cant": "A test runs one history; the claim is about every finite sequence of calls, including repeated and interleaved ids.", "anchors": ["src/shared/wasm_websocket.rs:WasmWebSocketTransport::connect", "src/shared/wasm_websocket.rs:WasmWebSocketTransport::receive", "src/shared/wasm_websocket.rs:parse_transport_message"]}
{"id": "C199", "title": "Browser transport: the library's servers understand what it sends", "statement": "A message given to WasmWebSocketTransport::send is read by this library's WebSocket and stdio peers as the same message.", "quantifier": "all messages", "why_tests_cant": "A test feeds a few inputs; the claim is about every input of every length, including adversarial ones.", "anchors": ["src/shared/wasm_websocket.rs:serialize_transport_message", "src/shared/stdio.rs:StdioTransport::parse_message"]}
{"id": "C200", "title": "Browser transport: sending needs an open socket", "statement": "While the socket is open, send hands the browser exactly one text, the message's document. In any other state it fails and sends nothing; after close nothing is ever sent.", "quantifier": "all states and histories", "why_tests_cant": "A test runs one history; the claim is about every finite sequence of calls, including repeated and interleaved ids.", "anchors": ["src/shared/wasm_websocket.rs:WasmWebSocketTransport::send", "src/shared/wasm_websocket.rs:WasmWebSocketTransport::close"]}
{"id": "C201", "title": "Browser transport: receive ends with the connection", "statement": "When the socket has been closed, by either side, a pending receive returns (with an error) once the messages that had arrived are consumed.", "quantifier": "all histories", "why_tests_cant": "A test runs one history; the claim is about every finite sequence of calls, including repeated and interleaved ids.", "anchors": ["src/shared/wasm_websocket.rs:WasmWebSocketTransport::receive"]}
{"id": "C202", "title": "Browser transport: connecting ends, and succeeds exactly if the socket opens in time", "statement": "connect looks at the socket's state at most 101 times, 100 ms apart. It succeeds exactly if the first state other than connecting it sees is open.", "quantifier": "all sequences of socket states", "why_tests_cant": "The outcome depends on the scheduler; a test samples a handful of interleavings and cannot show that no other one breaks the claim.", "anchors": ["src/shared/wasm_websocket.rs:wait_for_open"]}
{"id": "C203", "title": "A tool has the name and description its attribute gives", "statement": "In a block annotated with tool_router, the name and description of a tool are those written in its tool attribute, whatever texts they are and however the attribute is spaced; without a name the method's name is used and without a description the block does not compile.", "quantifier": "all attributes: spacing, order of the pairs, other pairs, texts", "why_tests_cant": "A test feeds a few inputs; the claim is about every input of every length, including adversarial ones.", "anchors": ["pmcp-macros/src/tool_router.rs:parse_tool_attribute", "pmcp-macros/src/tool_router.rs:collect_tool_methods"]}
{"id": "C204", "title": "A tool that is listed is called by its name", "statement": "The generated list of tools has the annotated methods in order, and calling a listed name calls the method listed with it and returns its value or its error; other names are refused as unknown.", "quantifier": "all blocks, names, arguments and results of the methods", "why_tests_cant": "A test feeds a few inputs; the claim is about every input of every length, including adversarial ones.", "anchors": ["pmcp-macros/src/tool_router.rs:generate_tools_method", "pmcp-macros/src/tool_router.rs:generate_handle_tool_method"]}
{"id": "C205", "title": "A tool function is called with the arguments of the request", "statement": "A function annotated with tool is called exactly when each argument it gets has the type of its parameter and no required one is lacking, with these values; otherwise the caller is told the first parameter at fault.", "quantifier": "all parameter lists, types and argument documents", "why_tests_cant": "A test feeds a few inputs; the claim is about every input of every length, including adversarial ones.", "anchors": ["pmcp-macros/src/tool.rs:generate_param_extraction", "pmcp-macros/src/tool.rs:expand_tool"]}
{"id": "C206", "title": "Arguments that satisfy the schema listed for a tool are accepted", "statement": "The schema listed for an annotated function describes its parameters: a document that satisfies it is never refused for a missing parameter.", "quantifier": "all parameter lists and argument documents", "why_tests_cant": "A test feeds a few inputs; the claim is about every input of every length, including adversarial ones.", "anchors": ["pmcp-macros/src/tool.rs:expand_tool", "pmcp-macros/src/tool_router.rs:generate_tools_method"]}
{"id": "C207", "title": "Handlers generated for different functions have different names", "statement": "Two functions of one module annotated with tool get handlers with different names.", "quantifier": "all pairs of ASCII function names", "why_tests_cant": "A test feeds a few inputs; the claim is about every input of every length, including adversarial ones.", "anchors": ["pmcp-macros/src/tool.rs:to_pascal_case", "pmcp-macros/src/tool.rs:expand_tool"]}
{"id": "C208", "title": "Access with a bearer token is always backed by a standing authorization", "statement": "A request gets through authentication middlewares that take only bearer tokens, in front of the library's OAuth provider, only with a token the provider validated, and the request then acts for exactly a client, user and scopes that were once authorised; a token that was revoked, or that was issued more than an hour ago, opens nothing any more.", "quantifier": "every history and interleaving of provider calls, every clock, every tree of middlewares, every request", "why_tests_cant": "A test runs one history; the claim is about every finite sequence of calls, including repeated and interleaved ids.", "anchors": ["src/server/auth/middleware.rs: authenticate", "src/server/auth/oauth2.rs: validate_token, revoke_token, exchange_code, refresh_token"]}
{"id": "C209", "title": "A session over HTTP is the session itself, whatever the HTTP options", "statement": "Connect a client and a stateful server of this library over streamable HTTP. In every session of calls made one after the other, with JSON responses or event streams, with or without an event store, with or without authentication: initialize succeeds, tells each side the other's capabilities and leaves the transport in a session the server knows; the handlers run exactly once for each request the client sent, in that order, with the arguments given; a call the server's capabilities allow returns what its handler returned or the handler's error; an unregistered tool or prompt is reported by name and runs nothing; a call that is not allowed posts nothing. The same calls made over stdio return the same results, leave the same client state and run the same handlers with the same arguments.", "quantifier": "All server configurations and HTTP options (stateful), all handlers that do not panic, all sequences of client calls with any parameters and ids whose messages can be serialised, all generated session and event ids and tokens.", "why_tests_cant": "A test runs one history; the claim is about every finite sequence of calls, including repeated and interleaved ids.", "anchors": ["src/client/mod.rs: Client::initialize, call_tool, send_request", "src/shared/streamable_http.rs: StreamableHttpTransport::send, receive", "src/server/streamable_http_server.rs: handle_post_request", "src/server/mod.rs: Server::handle_request"]}
{"id": "C210", "title": "Clients of one HTTP server do not disturb each other", "statement": "Connect any number of clients of this library to one stateful HTTP server. However their calls interleave - requests of several clients waiting for the server at once, answered in any order, methods returning in any order, request ids shared between clients - handlers come back exactly once for each answered request, with its arguments, and panic exactly once for each request whose call fails with a transport error; each client that has been answered is in a session of its own, and what the server handled for that session is what this client sent, in order; what a call returns is what its own handler invocation returned; and a waiting request can be answered whatever else waits, whereupon its method returns and nothing changes for the other clients.", "quantifier": "all builder histories, handlers (panicking ones included), HTTP options, numbers of clients, and histories of calls, answers and returns with distinct generated session ids", "why_tests_cant": "The outcome depends on the scheduler; a test samples a handful of interleavings and cannot show that no other one breaks the claim.", "anchors": ["src/client/mod.rs: Client", "src/shared/streamable_http.rs: StreamableHttpTransport::send, receive", "src/server/streamable_http_server.rs: handle_post_request", "src/server/mod.rs: Server::handle_request"]}
{"id": "C211", "title": "The server knows the capabilities of each client it serves over HTTP", "statement": "While clients are connected over HTTP, get_client_capabilities reports what the client being served declared when it initialized, not what some other client declared.", "quantifier": "all histories of several clients' calls, answers and returns", "why_tests_cant": "A test runs one history; the claim is about every finite sequence of calls, including repeated and interleaved ids.", "anchors": ["src/server/mod.rs: get_client_capabilities, handle_request", "src/server/streamable_http_server.rs: handle_post_request"]}
{"id": "C212", "title": "Capability presets and queries decide what a client may call", "statement": "After the handshake, a client's call about tools, prompts or resources is sent to the server exactly if the corresponding query (provides_tools, provides_prompts, provides_resources, and the subscribe flag for subscriptions) on the server's capabilities says yes; otherwise it fails and the server sees nothing.  Each preset (minimal, tools_only, prompts_only, resources_only) leaves open exactly the methods it is named after.  The capabilities the server reports of its client are those the client declared.", "quantifier": "all servers, capabilities, sessions over stdio and calls; all presets and methods", "why_tests_cant": "A test runs one history; the claim is about every finite sequence of calls, including repeated and interleaved ids.", "anchors": ["src/types/capabilities.rs: minimal, full, tools_only, prompts_only, resources_only, provides_*, supports_*", "src/client/mod.rs: assert_capability"]}
{"id": "C213", "title": "Authentication information survives JSON", "statement": "Writing an AuthInfo as JSON and reading it back gives the same AuthInfo: the same scheme, token, OAuth data and parameters, and hence the same authorization header and the same answer to is_required.", "quantifier": "all AuthInfo values", "why_tests_cant": "A test feeds a few inputs; the claim is about every input of every length, including adversarial ones.", "anchors": ["src/types/auth.rs: AuthInfo, AuthScheme, OAuthInfo, authorization_header, is_required"]}
{"id": "C214", "title": "A reset parser starts over", "statement": "After reset, an SSE parser reads what it is fed as a new stream: nothing of an event or a line that was not finished before the reset shows in later events; events that had arrived are not lost; and last_event_id is unchanged by the reset and is always the id of an event that arrived.", "quantifier": "all histories of feed and reset calls and all later texts, in any chunks", "why_tests_cant": "A test runs one history; the claim is about every finite sequence of calls, including repeated and interleaved ids.", "anchors": ["src/shared/sse_parser.rs: SseParser::reset, feed, last_event_id"]}
{"id": "C215", "title": "A built event stream carries what was put in", "statement": "The text SseStream::build returns, fed to an SSE parser in any chunks, gives exactly the events that were added with event, data and typed_event, in order, and contains the comments that were added with comment.", "quantifier": "all sequences of builder calls and all ways to cut the text", "why_tests_cant": "A test feeds a few inputs; the claim is about every input of every length, including adversarial ones.", "anchors": ["src/shared/sse_parser.rs: SseStream::{event, data, typed_event, comment, build}, SseParser::feed"]}
{"id": "C216", "title": "A caller can tell errors apart", "statement": "An error's code is the one it was made with, as is_error_code and error_code tell; and when a handler fails with an error, the caller of the client's method gets an error with the same code, message and data.", "quantifier": "all errors and all sessions of a client and a server over stdio", "why_tests_cant": "A test runs one history; the claim is about every finite sequence of calls, including repeated and interleaved ids.", "anchors": ["src/error/mod.rs: Error constructors, is_error_code, error_code", "src/server/mod.rs: create_response", "src/client/mod.rs: call_tool and the other methods"]}
{"id": "C217", "title": "The library's middlewares do their work and nothing else", "statement": "LoggingMiddleware, AuthMiddleware and RetryMiddleware, anywhere in a chain, change nothing for the user's own middlewares; AuthMiddleware puts its token into every request and RetryMiddleware has failed requests repeated; and neither tokens nor the contents of messages are written to the log.", "quantifier": "all chains of the library's and the user's middlewares and all messages", "why_tests_cant": "A test feeds a few inputs; the claim is about every input of every length, including adversarial ones.", "anchors": ["src/shared/middleware.rs: LoggingMiddleware, AuthMiddleware, RetryMiddleware, MiddlewareChain"]}
{"id": "C218", "title": "Handlers of a batch share their state safely", "statement": "When the handlers of a batch change a shared state, no change is lost or made twice: the final state and every reply are those of the handlers' sections run one after the other in some order that keeps the order within each request, and all sections of all requests have run when the batch returns.  A request reported as timed out has changed nothing.", "quantifier": "all batches, states, handlers, limits, timeouts and schedules", "why_tests_cant": "The outcome depends on the scheduler; a test samples a handful of interleavings and cannot show that no other one breaks the claim.", "anchors": ["src/utils/parallel_batch.rs: process_batch_parallel_stateful, process_batch_parallel"]}
{"id": "C219", "title": "Over HTTP a handler that panics takes only its own call with it", "statement": "Whatever has happened before, when a client's request gets the HTTP server's lock and its handler panics, exactly that call fails with a transport error; its client stays initialized and in its session, and every other client, their waiting requests, all sessions and event streams and what the server knows are as before - unlike a server run on a transport of its own, which stops (C38).", "quantifier": "all builder histories, handlers, HTTP options, numbers of clients and histories of calls, answers and returns", "why_tests_cant": "The outcome depends on the scheduler; a test samples a handful of interleavings and cannot show that no other one breaks the claim.", "anchors": ["src/server/streamable_http_server.rs: handle_post_request, ServerState", "src/server/mod.rs: Server::handle_request", "src/shared/streamable_http.rs: StreamableHttpTransport::send", "src/client/mod.rs: Client::send_request"]}
{"id": "C220", "title": "An HTTP server without sessions serves any number of clients correctly", "statement": "Connect any number of clients of this library to one stateless HTTP server. However their calls interleave, handlers come back exactly once for each answered request, with its arguments, and panic exactly once for each request whose call fails with a transport error; the server handles each client's requests in the order it sent them; what a call returns is what its own handler invocation returned; a waiting request can be answered whatever else waits, whereupon its method returns - with a transport error if and only if its handler panicked just then - and nothing changes for the other clients; and no client ever gets a session. This needs nothing of the session id generator.", "quantifier": "all builder histories, handlers (panicking ones included), HTTP options without sessions, numbers of clients, and histories of calls, answers and returns", "why_tests_cant": "The outcome depends on the scheduler; a test samples a handful of interleavings and cannot show that no other one breaks the claim.", "anchors": ["src/client/mod.rs: Client", "src/shared/streamable_http.rs: StreamableHttpTransport::send, receive", "src/server/streamable_http_server.rs: handle_post_request, process_init_session, validate_non_init_session", "src/server/mod.rs: Server::handle_request"]}
{"id": "C221", "title": "The protocol version agreed on over HTTP is kept", "statement": "After initialize the transport's protocol_version() is the version the initialize result named, and stays so: this is the version the client sends along with every later request.", "quantifier": "all HTTP options, numbers of clients and histories of calls, answers and returns", "why_tests_cant": "A test runs one history; the claim is about every finite sequence of calls, including repeated and interleaved ids.", "anchors": ["src/server/streamable_http_server.rs: handle_post_request", "src/shared/streamable_http.rs: StreamableHttpTransport::protocol_version, process_response_headers"]}
{"id": "C222", "title": "Cancelling and reporting progress over HTTP", "statement": "A client connected over HTTP that is not in a call can call cancel_request and send_progress whatever else waits: the call returns at once, succeeds once the client is initialized, and disturbs nothing - the server's sessions and waiting requests and the other clients are as before. A request cancelled while it waits is not carried out, or at least the server learns of it.", "quantifier": "all builder histories, handlers, HTTP options, numbers of clients, histories of calls, answers and returns, and ids to cancel", "why_tests_cant": "The outcome depends on the scheduler; a test samples a handful of interleavings and cannot show that no other one breaks the claim.", "anchors": ["src/client/mod.rs: Client::cancel_request, send_progress, send_notification", "src/shared/streamable_http.rs: StreamableHttpTransport::send", "src/server/streamable_http_server.rs: handle_post_request (notifications)"]}
{"id": "C223", "title": "What a server says about itself", "statement": "has_tool and has_prompt are true exactly for the names the builder was given, and exactly for those does tools/call or prompts/get reach a handler; otherwise the call is refused. get_client_capabilities gives what the last handled initialize request said; is_initialized is true exactly when there was one, whatever fails or panics later, and never becomes false again. An initialized server has completed the handshake with its client.", "quantifier": "every builder history, server configuration, handler behaviour and history of messages, failures and calls", "why_tests_cant": "A test runs one history; the claim is about every finite sequence of calls, including repeated and interleaved ids.", "anchors": ["src/server/mod.rs: has_tool, has_prompt, get_client_capabilities, is_initialized, handle_request"]}
{"id": "C224", "title": "Reloading a built configuration", "statement": "After reload_configuration with a configuration from DynamicConfigBuilder that nobody interferes with, each name has the handler given last for it and other names none; the resource and sampling handlers are those given last, or the earlier ones if none was given. The order in which different names were given does not matter. Every capability listener is told once for each handler of the new configuration, and is told what the reload takes away.", "quantifier": "every history of builder calls, every state of the manager before, every name and listener", "why_tests_cant": "A test runs one history; the claim is about every finite sequence of calls, including repeated and interleaved ids.", "anchors": ["src/server/dynamic.rs: DynamicConfigBuilder, reload_configuration"]}
{"id": "C225", "title": "Closing one HTTP client", "statement": "With any number of clients on one HTTP server: when a client that is not in a call closes its transport, the server forgets that client's session and nothing else. From then on every method of that client fails, and neither the closing nor what the client tries afterwards makes a difference for anyone else: the other clients get the same results, the handlers are called in the same way, and the same requests wait.", "quantifier": "every number of clients, every history of calls, answers and returns before and after, every point at which an idle client closes, every behaviour of the handlers", "why_tests_cant": "The outcome depends on the scheduler; a test samples a handful of interleavings and cannot show that no other one breaks the claim.", "anchors": ["src/shared/streamable_http.rs: close", "src/server/streamable_http_server.rs: handle_delete_session, validate_non_init_session", "src/client/mod.rs: initialize"]}
{"id": "C226", "title": "A server on a WebSocket connection", "statement": "When a server runs on a WebSocket connection it has accepted, then at every moment the text frames the peer has been sent are, in order, the first of the answers the server gives to the messages in the peer's frames taken one after the other, and its handlers have been called as for the first of these messages: nothing is answered twice, out of order, or without having been asked. Whatever has happened so far, after finitely many further rounds of the tasks nothing is left to be done, and then every request has been answered under its id and the next frame of a peer that has not ended the connection is read.", "quantifier": "every sequence of frames from the peer (texts, binary frames, pings, pongs, garbage, close), every interleaving of the reader, the writer and the message task, full channels, every behaviour of the handlers, every configuration", "why_tests_cant": "The outcome depends on the scheduler; a test samples a handful of interleavings and cannot show that no other one breaks the claim.", "anchors": ["src/server/transport/websocket.rs: WebSocketServerTransport, accept_connection", "src/server/mod.rs: run, spawn_message_handler, handle_transport_message"]}
{"id": "C227", "title": "A stdio server facing any program", "statement": "When a server runs on its standard streams, then whatever bytes arrive, what it writes are exactly the frames of its answers to the messages that arrived, one for each request, with its id and in order, and nothing else; its handlers are called for these requests only. A frame it cannot read is reported to the sender, or at least does not keep later requests from being answered.", "quantifier": "every input byte string, every configuration, every behaviour of the handlers", "why_tests_cant": "A test feeds a few inputs; the claim is about every input of every length, including adversarial ones.", "anchors": ["src/server/mod.rs: run_stdio, spawn_message_handler", "src/shared/stdio.rs: receive, parse_message", "src/shared/protocol_helpers.rs: parse_request"]}
{"id": "C228", "title": "A built completable argument says what it was told", "statement": "The argument built by CompletableBuilder has the given name, the last description given, is required exactly if required() was called, and has the completions of the last static_completions or file_completions call; its JSON is read back as the same argument, also where prompts list arguments, and different arguments have different JSON.", "quantifier": "every name and every sequence of builder calls", "why_tests_cant": "A test feeds a few inputs; the claim is about every input of every length, including adversarial ones.", "anchors": ["src/types/completable.rs: CompletableBuilder, CompletableArgument", "src/types/protocol.rs: PromptArgument"]}
{"id": "C229", "title": "Batch metrics count what ended since the last reset", "statement": "When several tasks use one BatchProcessor, metrics() counts exactly the batches that ended since the last reset_metrics (or ever), each response in its class, with the longest time and the average time per request; batches given up are not counted.", "quantifier": "every interleaving of process calls, abandoned calls and resets", "why_tests_cant": "The outcome depends on the scheduler; a test samples a handful of interleavings and cannot show that no other one breaks the claim.", "anchors": ["src/utils/parallel_batch.rs: BatchProcessor::process, metrics, reset_metrics"]}
{"id": "C230", "title": "The WebSocket server enforces its configured limits", "statement": "A WebSocket server transport built with given frame and message size limits and masking rule receives exactly the messages within them: longer messages are refused, messages within the limits arrive, and unmasked frames are taken exactly if allowed.", "quantifier": "every sequence of builder calls, every text and every way of cutting it into frames", "why_tests_cant": "A test feeds a few inputs; the claim is about every input of every length, including adversarial ones.", "anchors": ["src/server/transport/websocket.rs: WebSocketServerConfig, WebSocketServerBuilder, accept"]}
{"id": "C231", "title": "A built watcher watches what it was told to", "statement": "A watcher made by ResourceWatcherBuilder needs a base directory, uses the last interval and limit given, notices changes of files that match one of the patterns given and no pattern to ignore, and nothing else.", "quantifier": "every sequence of builder calls, every glob matcher and every sequence of reported file changes", "why_tests_cant": "A test runs one history; the claim is about every finite sequence of calls, including repeated and interleaved ids.", "anchors": ["src/server/resource_watcher.rs: ResourceWatcherBuilder, WatchConfig, matches_patterns"]}
{"id": "C232", "title": "A clone of a client is as good as the client", "statement": "A clone of a client can be used in its place: every call on the clone gives what the same call on the original would give and sends the same over the one connection they share, whatever was done with either before.", "quantifier": "every history of cloning and of calls on the clones, and every further call", "why_tests_cant": "A test runs one history; the claim is about every finite sequence of calls, including repeated and interleaved ids.", "anchors": ["src/client/mod.rs: Clone for Client", "src/client/mod.rs: Client::initialize"]}
{"id": "C233", "title": "The options of a client take effect", "statement": "A client built with ClientBuilder has the options given last; without strict capability enforcement it does not refuse calls the server has not declared, and notifications whose method is listed as debounced are not sent one by one.", "quantifier": "every sequence of builder calls and every history of the client built", "why_tests_cant": "A test runs one history; the claim is about every finite sequence of calls, including repeated and interleaved ids.", "anchors": ["src/client/mod.rs: ClientBuilder", "src/shared/protocol.rs: ProtocolOptions"]}
{"id": "C234", "title": "A WebSocket client keeps its connection alive", "statement": "With a ping interval the WebSocket client writes a ping when it has connected and one for each interval that has passed, never more often, and ends with the connection; without one it writes none.", "quantifier": "every interval and every interleaving of time, ping task, writer, closing and the peer's leaving", "why_tests_cant": "The outcome depends on the scheduler; a test samples a handful of interleavings and cannot show that no other one breaks the claim.", "anchors": ["src/shared/websocket.rs: WebSocketTransport::connect_once", "src/shared/websocket.rs: WebSocketConfig::ping_interval"]}
{"id": "C235", "title": "A lost WebSocket connection is made again", "statement": "A WebSocket client with auto_reconnect, which is on by default, connects again after its connection was lost; and receive does not wait longer than request_timeout.", "quantifier": "every configuration and every history of the transport after the loss", "why_tests_cant": "A test runs one history; the claim is about every finite sequence of calls, including repeated and interleaved ids.", "anchors": ["src/shared/websocket.rs: WebSocketConfig::auto_reconnect", "src/shared/websocket.rs: WebSocketConfig::request_timeout", "src/shared/websocket.rs: WebSocketTransport::connect"]}
{"id": "C236", "title": "URI templates survive JSON", "statement": "A URI template written as JSON and read back expands and matches exactly as before; from JSON a template is read exactly if it is a string that UriTemplate::new accepts; different templates are written differently.", "quantifier": "every template text, every JSON value, every set of variables and every URI", "why_tests_cant": "A test feeds a few inputs; the claim is about every input of every length, including adversarial ones.", "anchors": ["src/shared/uri_template.rs: Serialize for UriTemplate", "src/shared/uri_template.rs: Deserialize for UriTemplate", "src/shared/uri_template.rs: UriTemplate::new"]}
{"id": "C237", "title": "Session callbacks report each session's life", "statement": "on_create is called once for each session created, with that session; exactly one of on_destroy and on_expire is called once when it ends, with that session, and on_expire exactly if it ended because it expired.", "quantifier": "every interleaving of creating, looking up, validating, changing, destroying and cleaning up sessions", "why_tests_cant": "The outcome depends on the scheduler; a test samples a handful of interleavings and cannot show that no other one breaks the claim.", "anchors": ["src/shared/session.rs: SessionCallbacks", "src/shared/session.rs: SessionManager::create_session", "src/shared/session.rs: SessionManager::destroy_session", "src/shared/session.rs: SessionManager::cleanup_expired"]}
{"id": "C238", "title": "Overlapping runtime changes lose nothing and listeners know what there is", "statement": "However calls that add, remove and replace tools, prompts and handlers at runtime overlap, the manager ends up with what the changes made one after the other would give; each call that succeeds tells every listener there is by then exactly once; and the last thing a listener is told agrees with what there is.", "quantifier": "every interleaving of the halves (change, announcement) of any number of calls", "why_tests_cant": "The outcome depends on the scheduler; a test samples a handful of interleavings and cannot show that no other one breaks the claim.", "anchors": ["src/server/dynamic.rs: DynamicServerManager, update_capabilities"]}
{"id": "C239", "title": "The OAuth client and provider of this library work together", "statement": "With a token endpoint that hands the requests of the library's OAuth client to the library's provider: a client that exchanges the code it was given, in time, as the only one and with the fitting verifier, gets a token with the scopes granted, whatever else the provider is doing; it reads the answer as it was given; a refresh uses the refresh token it was given and may ask for fewer scopes; and the provider sees the client's secret.", "quantifier": "every history of calls of the provider, interleaved in any way, and every code, client, redirect uri, verifier and scope", "why_tests_cant": "The outcome depends on the scheduler; a test samples a handful of interleavings and cannot show that no other one breaks the claim.", "anchors": ["src/client/auth.rs: TokenExchangeClient", "src/server/auth/oauth2.rs: TokenRequest, InMemoryOAuthProvider, AccessToken"]}
{"id": "C240", "title": "A registered OAuth client is the one its document describes", "statement": "With a registration endpoint that hands JSON documents to the library's provider: a client document can be written and read back unchanged; a document that is accepted registers the client it describes, with an id and a secret made up where it has none, and the answer describes the client that is stored, with all metadata of the document; an application can register without an id and without a secret.", "quantifier": "every client with any metadata, every document, every set of registered clients", "why_tests_cant": "A test feeds a few inputs; the claim is about every input of every length, including adversarial ones.", "anchors": ["src/server/auth/oauth2.rs: OAuthClient, GrantType, ResponseType, register_client"]}
{"id": "C241", "title": "A stdio transport can be polled in pieces and a receive given up", "statement": "What receive returns does not depend on how the bytes of the peer are split on their way; and a caller may give up waiting for a message (with a timeout or a select) and call receive again: every message that arrives is then still received, in order.", "quantifier": "every stream of bytes, every way it is split, every history of polling and giving up", "why_tests_cant": "The outcome depends on the scheduler; a test samples a handful of interleavings and cannot show that no other one breaks the claim.", "anchors": ["src/shared/stdio.rs: receive, read_headers, read_message_body"]}
{"id": "C242", "title": "A client call can be given up", "statement": "A caller may give up a call of a client, for example with a timeout: the other calls still return the replies to their own requests, and the client keeps nothing of the call. Calls that are given up before their request was sent send nothing.", "quantifier": "every history of calls one after the other, given up or not, every order in which messages arrive meanwhile, every peer that answers each request once", "why_tests_cant": "A test runs one history; the claim is about every finite sequence of calls, including repeated and interleaved ids.", "anchors": ["src/client/mod.rs: send_request, active_requests"]}
{"id": "C243", "title": "Reconnecting can be shared and given up", "statement": "Several tasks may call reconnect_with on one manager: at most one of them connects at a time. A caller may give up such a call, for example with a timeout: later calls connect as before.", "quantifier": "every interleaving of calls by any number of tasks, given up anywhere, every outcome of connect, every clock and configuration", "why_tests_cant": "The outcome depends on the scheduler; a test samples a handful of interleavings and cannot show that no other one breaks the claim.", "anchors": ["src/shared/reconnect.rs: reconnect_with, should_reconnect, on_connecting, ReconnectGuard"]}
{"id": "C244", "title": "Giving up an add affects at most what it was adding", "statement": "A caller may give up an add() of a MessageBatcher or MessageDebouncer, for example with a timeout, at any moment: at most the notification it was adding is lost, and notifications whose add() returned Ok are delivered as if it had not been called.", "quantifier": "every interleaving of adds, timers, sends and receives, given up anywhere, every batch size and number of tasks", "why_tests_cant": "The outcome depends on the scheduler; a test samples a handful of interleavings and cannot show that no other one breaks the claim.", "anchors": ["src/utils/batching.rs: MessageBatcher::add, start_timer, receive_batch, MessageDebouncer::add"]}
{"id": "C245", "title": "Giving up a call of the notification batcher loses nothing of others", "statement": "A caller may give up an add() or a flush() of a NotificationBatcher, for example with a timeout: every other notification added is still sent exactly once. A flush() that returns has sent everything that was collected when it was called.", "quantifier": "every interleaving of adds, flushes, timers, sends and receives, given up anywhere, every batch size and size of the output channel", "why_tests_cant": "The outcome depends on the scheduler; a test samples a handful of interleavings and cannot show that no other one breaks the claim.", "anchors": ["src/server/notification_debouncer.rs: NotificationBatcher::add, NotificationBatcher::flush"]}
{"id": "C246", "title": "A client that goes away leaves an HTTP server as it was", "statement": "If a client of the HTTP server closes its connection while its request waits to be served, everybody else gets the answers they would have got, and the server keeps nothing of the request.", "quantifier": "every state of the server, every request and every interleaving with requests, answers, deletes and disconnections of any number of other clients", "why_tests_cant": "The outcome depends on the scheduler; a test samples a handful of interleavings and cannot show that no other one breaks the claim.", "anchors": ["src/server/streamable_http_server.rs: handle_post_request, handle_get_sse, process_init_session"]}
