# A Rocq model of paiml/rust-mcp-sdk

Everything here is about a Gallina model of the Rust sources in `/repo`, which were read as text and
never built.  Each area of the code has these files in `rocq/theories/`:

* `<Area>Model.v`  – definitions only, each with a comment citing the file and lines it models and
  saying where it simplifies;
* `<Area>Spec.v`   – the vocabulary the properties are stated in, independent of how the code works
  (in small areas this is at the head of the Props file);
* `<Area>Proofs.v` – lemmas and invariants;
* `<Area>Props.v`  – the property theorems, a non-vacuity example beside each group, and
  `Print Assumptions` for every theorem.

## Naming

* `Cnn_…`          the property, or a conjunct of it, as stated in `properties.jsonl`;
* `Cnn_…_partial`  a weaker statement; what is missing is said beside it and in `MANIFEST.json`;
* `Cnn_…_refuted`  the code, faithfully modelled, violates the property.  Most are general: they
  describe every input or history of a kind and say what happens instead; a few exhibit one history;
* `Cnn_example`    a concrete case that meets the hypotheses, evaluated by the kernel.

A property that is false of the code keeps its full statement in `properties.jsonl`, has status
"partial", and comes with the part that holds and the refutation of the rest.

## Modelling conventions

* Strings that are only compared are Coq `string`s or lists of code points; text that is processed is
  a `list N` of bytes or of code points, whichever the Rust code indexes by.
* `HashMap`/`DashMap` are std++ `gmap`s.  Where Rust iterates over a map the order is unspecified; the
  model leaves it open (a permutation) or nothing depends on it.
* `&mut self` functions return the new state; `Result`/`Option` stay data; panics are an explicit
  outcome.  Loops that may not end are relations or fuelled functions whose out-of-fuel outcome the
  theorems exclude, or show for every fuel.
* Async functions are cut where they release the lock that protects the shared state, or wait; a
  schedule is a list of such atomic steps.  Sequential theorems quantify over all lists of calls,
  concurrent ones over all interleavings of steps.
* Clocks and random ids are inputs of each call.  Where a theorem needs fresh UUIDs it says so.
* External code whose result matters (SHA-256, f64 rounding, the user's handlers, token providers,
  the Debug form of a token) is a Section variable or function argument, so that after the section the
  theorem quantifies over it.

## Trusted base

* **Coq 8.16.1's kernel**, including its virtual machine (`vm_compute` in examples and in finite
  checks over bytes).  No kernel check is switched off, no axiom, parameter, plugin, functor or module
  type is declared.
* **Print Assumptions**: every `Cnn_*` theorem prints "Closed under the global context": no axioms at
  all, neither functional extensionality nor classical logic.  Loading std++ loads Coq's own
  `Coq.ssr.ssrunder`, whose module-type fields (`Under_rel`, `Over_rel`, `Under_rel_from_rel`,
  `over_rel`, `over_rel_done`, `Under_relE`, `under_rel_done`) a list of all loaded constants shows;
  no theorem here depends on them.
* **Libraries used**: Coq's standard library (`QArith`, `ZArith`, `NArith`, `Ascii`, `String`, `lia`)
  and std++.
* **The model is the code**: the definitions were written by hand from the source.  Every definition
  cites its lines so that this can be checked by reading; mutation of the model (`seeded/LOG.jsonl`)
  checks that the theorems notice changes, not that the model is right.

Assumed about code outside `/repo`:

| what | assumed | where |
|------|---------|-------|
| serde_json 1.0 text | reader and writer as in `JsonLib` (duplicate keys: last wins, depth limit 128, numbers outside i64/u64 kept as text) | everything that goes through JSON |
| serde derive | the interpreter of type descriptions in `SerdeLib`; derived untagged and adjacently tagged enums modelled by hand in `RpcModel`, `HttpModel` | Rpc, Stdio, Server, Client, Http, HttpClient |
| `regex` | leftmost-first backtracking match of the literals and classes the templates compile to | C16 |
| f64 delays | any monotone rounding, exact arithmetic being one; jitter is an input | C25, C34 |
| tokio `RwLock`/`Mutex` | mutual exclusion; a fair queue only in C88 and C50 | all interleaving models |
| tokio `mpsc`, `oneshot`, `Notify`, `broadcast` | FIFO with the documented capacity and closing rules | Delivery, Server, Managers, Watch, WebSocket |
| UUID v4 | fresh where a theorem says so | C42, C47–C49, C52, C61 |
| SHA-256 + base64 of it | an arbitrary function | C47 |
| token provider | answers do not change during one authentication | C51, C195 |
| AVX2/SSE intrinsics | their documented lane semantics, as in `SimdModel` | C56–C60, C113, C114 |
| axum, hyper, reqwest | a handler runs once per request; headers are appended in call order; an `Event` is written as its display; a response without Content-Type has none | Http, HttpClient |
| operating system pipes | bytes arrive in order; reads and writes of stdio do not fail | C37, C80, C81, C193 |

Never modelled: tokio's scheduler, sockets, TLS, DNS, the file system and its notification library,
memory exhaustion, tracing output, metrics other than those named, and the Rust compiler.

## What is modelled, and what is not

| area | files under `/repo/src` | modelled | not modelled |
|---|---|---|---|
| `Protocol` | shared/protocol.rs:86-275 | the pending-request table: register, complete, complete for a transport, fail, cleanup | options, progress callbacks |
| `Batch` | shared/batch.rs, utils/parallel_batch.rs, server/batch.rs | task and semaphore states, collection and sorting of results, metrics, rate limiter, batch request and response parsing | the fixed delay between retries of the rate limiter |
| `EventStore` | shared/event_store.rs | store, cleanup, resumption manager | file-backed stores (there are none) |
| `Session` | shared/session.rs | all calls, each map access a step; cookie parsing | - |
| `Uri` | shared/uri_template.rs | parser, validator, expander, matcher, printer | - |
| `Sse` | shared/sse_parser.rs | feed with its byte and character offsets, event formatting | - |
| `Rpc` | types/*.rs, types/jsonrpc.rs, error/mod.rs, shared/protocol_helpers.rs, shared/stdio.rs (messages) | every derived protocol type as a description, envelopes, ids, codes, request/notification parsing and creation | constructors of error values; Display of errors other than the ones used |
| `Stdio` | shared/stdio.rs | byte-level framing, parsing, closing | concurrent readers (the API takes &mut self) |
| `Recovery` | error/recovery.rs | policy, breaker, retry strategies, fallback, execute_with_recovery, with_retry | log output |
| `Delivery` | utils/batching.rs | batcher and debouncer at lock and channel granularity | - |
| `Managers` | server/cancellation.rs, subscriptions.rs, roots.rs, elicitation.rs | all calls at lock granularity | statistics averages |
| `Reconnect` | shared/reconnect.rs, shared/middleware.rs | delay calculation, reconnection state machine, middleware chains | logging/metrics middlewares' output |
| `Server` | server/mod.rs, server/batch.rs | builder, dispatch of every request, message task, notification task and the lock of the transport between them | user handlers (oracles that answer, fail or panic) |
| `Client` | client/mod.rs | every call of the client over a transport that delivers arbitrary messages | - |
| `Http` | server/streamable_http_server.rs | POST, GET and DELETE, headers, sessions, streams, event store, replay; waiting for the server's lock is a step | the text of error bodies; storing of stream events is one step |
| `HttpClient` | shared/streamable_http.rs | send, GET stream, close, headers, replies as JSON, array or event stream; overlapping calls of clones | the provider of authentication tokens (its header is an input) |
| `OAuth` | server/auth/oauth2.rs | InMemoryOAuthProvider at lock granularity; PKCE | the HTTP endpoints (there are none) |
| `Auth` | server/auth/middleware.rs, types/auth.rs | bearer, client credentials, composite, scope and optional middlewares | - |
| `Dyn` | server/dynamic.rs | manager operations, listeners, reload | an operation and its announcement are one step |
| `Watch` | server/resource_watcher.rs | event processor, debouncing, patterns, tracked set, channel | the notify library |
| `Notif` | server/notification_debouncer.rs | debouncer and batcher at lock granularity | - |
| `Simd` | simd/mod.rs | all routines on x86_64 with the feature | the scalar fallback of other platforms, where it differs |
| `JsonFast` | utils/json_simd.rs | strip, parse, pretty print, serialise | serde_json's pretty printer as fallback; target type serde_json::Value |
| `Context` | shared/context.rs | contexts, children, header propagation | timestamps; the task-local current context |
| `Ws` | server/transport/websocket.rs, shared/websocket.rs | accept, send, receive, close, reader and writer tasks with their bounded channels; connection attempts | tokio-tungstenite (frames are inputs; its own size limits, masking and automatic replies) |
| `HttpSse` | shared/http.rs | connect_sse, send, receive, close, is_connected, the reading task with the bounded channel, String::from_utf8_lossy | hyper (replies and body frames are inputs), URL joining, the time limit of a request |
| `Oidc` | client/auth.rs, OidcDiscoveryMetadata, AccessToken and metadata of server/auth/oauth2.rs | discover with its retry loop, fetch_discovery, should_retry, exchange_code, refresh_token: requests made and replies read; form encoding and Basic credentials as reqwest writes them | reqwest's transport, redirects and charsets; durations |
| `Complete` | types/completable.rs, types/elicitation.rs | static and file completion with Unix paths as text (parent, file_name, join, extension), the elicitation builder and the JSON of the built request | reading directories (a function from paths to entries), Windows paths, CompletableBuilder |
| `Guarantees` | (as the areas they come from) | no further definitions: the parts of properties above that hold without restriction, as properties of their own | - |
| `Log` | shared/logging.rs (LogEntry), shared/context.rs (run, current), shared/runtime.rs (wasm32 sleep and channel) | scopes of tasks as histories of entering and leaving, the entry and its JSON line, the level of the line, the delay handed to the browser, the channel | tracing subscribers, layers and spans, error details and timestamps of entries, tokio task-locals (a scope is restored when it ends), native runtime functions, browser timers |
| `Stack` | client/mod.rs, server/mod.rs, shared/stdio.rs, shared/protocol_helpers.rs | no new functions: the models of client, server and stdio transport composed through the bytes of two pipes | concurrent calls (Client area), panicking handlers (Server area) |
| `Wasm` | shared/wasm_websocket.rs | wait_for_open, the message handler, send, receive, close, parse_transport_message, serialize_transport_message; the browser changes the socket's state and fires events between any two steps | console output, WasmWebSocketConfig (unused), the browser's own buffering; the file is for wasm32 only and names error variants the crate does not have, so the model takes them as failures |
| `Macros` | pmcp-macros/src/tool.rs, tool_router.rs (beside /repo/src) | parse_tool_attribute on the attribute's text, collect_tool_methods, the generated tools(), handle_tool(), parameter extraction, result conversion and schema, to_pascal_case | parsing by syn and darling, visibility, utils.rs (unused by the macros), non-ASCII identifiers; the generated code names error variants the crate does not have, which the model takes as failures |
| `Access` | src/server/auth/middleware.rs, oauth2.rs (composition of OAuth and Auth) | the middlewares of the Auth area asking the provider of the OAuth area, over every interleaved history of provider calls | client-credential middlewares in the tree (C51 covers them); distinctness of generated values is assumed |
| `HttpStack` | client/mod.rs, shared/streamable_http.rs, server/streamable_http_server.rs, server/mod.rs | no new functions: the models of client, HTTP transport, HTTP server and MCP server composed; one exchange after the other | concurrent calls, panicking handlers, other clients of the same server, the stateless mode |
| `HttpCloud` | client/mod.rs, shared/streamable_http.rs, server/streamable_http_server.rs, server/mod.rs | no new functions: any number of the clients of HttpStack with one HTTP server, all interleavings of calls, answers and returns | event streams opened with GET, repeated session ids, several requests on one connection (HTTP/2), where a panic would take the others along |
| `HttpStateless` | client/mod.rs, shared/streamable_http.rs, server/streamable_http_server.rs, server/mod.rs | no new functions: HttpCloud with the HTTP server's sessions switched off (proofs in HttpCloudProofs3) | as HttpCloud |
| `HttpSignal` | client/mod.rs, shared/streamable_http.rs, server/streamable_http_server.rs | no new functions: cancel_request and send_progress in the histories of HttpCloud | as HttpCloud |
| `HttpClose` | shared/streamable_http.rs (close), server/streamable_http_server.rs (handle_delete_session) | close of an idle client in the histories of HttpCloud | closing while a call of the same client waits |
| `WsServer` | server/transport/websocket.rs, server/mod.rs (run) | the message task of the Server area on an accepted connection of the Ws area, interleaved with the reader and writer tasks | notifications sent by the server meanwhile, other tasks calling the server, a second accept |
| `StdioServer` | server/mod.rs (run_stdio), shared/stdio.rs | the message task of the Stack area on any input | notifications sent by the server meanwhile, failing writes |
| `Arg` | types/completable.rs (CompletableBuilder) | the builder's calls and the JSON of what it builds | JSON that cannot be carried (see storable) |
| `Metrics` | utils/parallel_batch.rs (BatchProcessor) | process, reset_metrics and abandoned calls of several tasks on one processor; the recording of the Batch area | f64 rounding of the average (exact rationals) |
| `WsLimit` | server/transport/websocket.rs (configuration and builder) | the frames of text messages under tungstenite's limits, then the reader of the Ws area | binary frames and control frames between fragments; tungstenite itself is assumed |
| `WatchBuild` | server/resource_watcher.rs (ResourceWatcherBuilder) | the builder and what its configuration lets through, on the file system task of the Watch area | glob_match, which is any function |
| `Clone` | client/mod.rs (Clone for Client, ClientBuilder) | cloning and the builder options, on the client of the Client area: each clone has its own handshake fields, all share the connection | calls of clones that overlap in time; instructions and notification_tx, which are not read |
| `WsKeep` | shared/websocket.rs (the writer and ping tasks, WebSocketConfig) | the ping task, its channel and the writer as a machine over time; the settings nothing reads, on the client transport of the Ws area | what a sink does with a ping it takes; the time a task needs to be scheduled, which is any |
| `UriJson` | shared/uri_template.rs (Serialize and Deserialize for UriTemplate) | a template as text and expressions, written as a JSON string and read through new, on the Uri area and the JSON library | nothing |
| `SessionCb` | shared/session.rs (SessionCallbacks) | the calls of on_create, on_destroy and on_expire made by each step of the Session area | what callbacks do (they may not call the manager for the same entry); the moment between a change of the map and the call |
| `DynRace` | server/dynamic.rs | each change of a DynamicServerManager cut between the registry and the announcement, interleaved in any way | listeners that call the manager |
| `Flow` | client/auth.rs, server/auth/oauth2.rs (TokenRequest, AccessToken) | a token endpoint between the client of the Oidc area and the provider of the OAuth area: the form it reads, the method it calls, the JSON it answers with | the endpoint itself, which users write; its HTTP |
| `Reg` | server/auth/oauth2.rs (OAuthClient, register_client) | the JSON of a client with its flattened metadata, registering with all fields, an endpoint that reads a document and answers with the client | the endpoint itself, which users write; texts with a key given twice |
| `StdioDrop` | shared/stdio.rs | receive as a future that takes bytes as they arrive and can be dropped: read_headers, read_message_body | the end of the input (Stdio area), the wakers |
| `CallDrop` | client/mod.rs | send_request step by step, with calls dropped by their caller; active_requests | overlapping calls (ClientConc area), failing sends |
| `HttpDrop` | server/streamable_http_server.rs | the HTTP server of HttpModel whose clients may go away while their request waits for the MCP server (the future of the handler is dropped) | handlers that have got the lock are not dropped (see C219 for handlers that panic) |
| `NotifDrop` | server/notification_debouncer.rs | NotificationBatcher::add and flush step by step, dropped while they wait for room in an output channel of any size; timers, which hold the lock while they send | notification_key is any function to keys; when timers fire is any schedule |
| `BatchDrop` | utils/batching.rs | MessageBatcher::add up to and in its send, dropped while it waits for room; the timer task; receive_batch; MessageDebouncer::add dropped at its two locks (steps of DeliveryModel) | logging; waiting for a lock has no effect and is not a step |
| `ReconDrop` | shared/reconnect.rs | reconnect_with by several tasks step by step, dropped anywhere; on_disconnected by ReconnectGuard | callbacks and logging; each of the four state changes is one step |
| `Query` | server/mod.rs, server/dynamic.rs | has_tool, has_prompt, get_client_capabilities, is_initialized; DynamicConfigBuilder | Debug output |
| `Caps` | types/capabilities.rs, client/mod.rs (assert_capability) | the presets and queries of both sides; what they mean in a session of the Stack area | - |
| `Creds` | types/auth.rs | AuthInfo as JSON (to_value, from_value), its header and is_required | reading JSON text straight into the struct, which rejects repeated names |
| `Stream` | shared/sse_parser.rs | SseStream with its methods; histories of feed and reset on one parser | SseConfig, which nothing reads |
| `Errors` | error/mod.rs | the constructors of Error, is_error_code and error_code, with sessions of the Stack model | the From conversions of library errors, whose text is opaque |
| `Builtin` | shared/middleware.rs | the hooks and log lines of LoggingMiddleware, AuthMiddleware and RetryMiddleware in chains with middlewares of the user's | tracing itself: whether a line is shown; the derived Debug is any function |
| `Shared` | utils/parallel_batch.rs | process_batch_parallel_stateful: handlers as sequences of sections under the write lock, interleaved with each other, with replies and with timeouts | sections under the read lock (a section that changes nothing), panicking handlers |

Libraries of the model: `ListLib`, `TextLib`, `Utf8Lib` (Rust's text functions), `JsonLib`
(serde_json), `SerdeLib` (derived code), `TypesModel` (the protocol types).

Not modelled at all: the tracing layers and spans of shared/logging.rs, spawning in shared/runtime.rs.

## Properties

For each property: what is modelled and proved.  The theorems are in `MANIFEST.json`.

### Protocol

Method: invariant over histories of calls; `fate_of` is the independent specification.

| id | property | status | proved, and what is false of the code |
|---|---|---|---|
| C01 | A response reaches only the waiter of its own request | proved | All histories of calls and task schedules of one Protocol value; fate_of is the independent specification. |
| C02 | A response from the wrong transport changes nothing | proved | Wrong-transport completions are erased from any history; unknown ids are no-ops. |

### Batch

Method: invariants over schedules; sorting lemmas; rational arithmetic for the average.

| id | property | status | proved, and what is false of the code |
|---|---|---|---|
| C03 | Parallel batch answers are in request order, one per request | proved | Every complete schedule of starts, completions and timeouts, every order of collected results. |
| C04 | Every batch answer carries its request's id | partial | Holds while no per-request timeout fires; refuted otherwise: whenever a request of an executed batch times out, its response carries the id "null" instead of the request's, for every batch and schedule. |
| C05 | The concurrency limit is never exceeded | proved | Bound, progress for positive limits, exact termination; limit 0 is stuck. |
| C06 | A batch array is answered by an array | partial | Holds for arrays of length other than one; an array of one request is answered by a bare object (refuted). |
| C62 | The rate limiter enforces its rate | partial | Refuted: n permits held for 1/n s each let n*n requests through per second. |
| C63 | Fail-fast stops the batch | partial | Refuted: fail_fast changes no run: every run is the same with and without it, no batch returns before all its requests were started, and a request may be started right after another failed. |
| C64 | Batch metrics add up | partial | Counters and maximum proved; average proved when the first batch is non-empty, NaN otherwise (refuted). |

### EventStore

Method: refinement to a log; invariants over histories.

| id | property | status | proved, and what is false of the code |
|---|---|---|---|
| C07 | The event store keeps the newest events, in order, up to its limit | proved | Push and cleanup are separate atomic steps; survives is the independent fate specification; the iff needs non-decreasing timestamps and distinct ids. |
| C08 | Resuming after a known event returns exactly what followed it | proved | End-to-end over histories. |
| C09 | Resuming from a token never replays events the client already saw | proved | Only events stored after token creation are returned, retained or not. |
| C10 | Sequence numbers of recorded events are never reused | partial | Consecutive without resume for every interleaving; resume_from_token reuses numbers (after any history, resuming from a live token makes the next record repeat a number already given) and concurrent records may be stored out of order (both refuted for every history of that shape). Distinct numbers for every history without resume (C10_distinct_partial); what is stored is what was recorded (C10_recorded). |
| C65 | Resumption is confined to the session | partial | Refuted for every store: a resumption token taken at one session's event replays the later events of the other sessions as well. |
| C66 | A resumption token stops working when it expires | partial | Refuted: proved that a token is accepted at every later time. |
| C67 | Resumption reports lost events | partial | Refuted for every history that discarded events: the resumption succeeds and silently skips them. |

### Session

Method: invariants over interleavings.

| id | property | status | proved, and what is false of the code |
|---|---|---|---|
| C11 | The session limit holds | partial | Proved bound max_sessions + C - 1 for at most C overlapping calls (exact for C = 1); the limit itself is refuted: from any state with n sessions below the limit, k overlapping creates that all checked first end with n + k sessions, whatever max_sessions is. |
| C12 | A destroyed session stays destroyed | partial | Proved when no lookup overlaps the destruction; refuted otherwise: after any history, a lookup that read the session before its destruction and writes after it brings the session back. |
| C13 | An expired session is never accepted | partial | validate_session and cleanup_expired proved; get_session/SessionMiddleware accept expired sessions (refuted). |
| C14 | Sessions are isolated from each other | proved | Every atomic step of every call. |
| C68 | Using a session keeps it alive | partial | Refuted: expiry is fixed at creation over every history. |
| C69 | Concurrent session updates are not lost | partial | Refuted after every history: a lookup that read the session before an authenticate and writes back after it undoes the authenticate. |
| C70 | The session id is taken from the session cookie | partial | Proved for the fixed name mcp-session-id; the configured cookie_name is ignored (refuted). |

### Uri

Method: induction over text; explicit backtracking search.

| id | property | status | proved, and what is false of the code |
|---|---|---|---|
| C15 | Expanded URI text is safe | proved | Every operator that escapes, every value of Unicode scalars; the reserved operator is outside the statement. |
| C16 | Matching recovers the expanded variables | partial | Proved for unambiguous templates whose values need no escaping; refuted generally: values come back percent-encoded, expressions with several variables are dropped or shift captures to later variables, adjacent variables are cut wrongly. Rust's regex is modelled as greedy leftmost-first matching of literals and classes. |
| C17 | Template literals survive expansion | proved | Texts, literals and expansions related piece by piece. |
| C72 | URI template expansion conforms to RFC 6570 | partial | Proved where the code follows the RFC; general refutations for {+x} with a space, {#x} with reserved characters and {;x} with an empty value. |
| C73 | Template validation accepts exactly well-formed templates | partial | Accepted implies well-formed and print/parse round trip proved; unbalanced or empty braces are accepted as literals (refuted). |

### Sse

Method: simulation between feed and a line-level specification.

| id | property | status | proved, and what is false of the code |
|---|---|---|---|
| C18 | SSE format/parse round trip | partial | Proved for every sequence of writable events and every chunking; for any data free of carriage returns C18_seen_partial says exactly what arrives, and C18_ends_refuted that data starting or ending with a line feed never arrives unchanged. Refuted also for CRLF data and line feeds in the id (event injection). |
| C19 | SSE parsing does not depend on chunking | partial | Proved for every text whose lines are each ASCII or undisturbed by a misplaced carriage return (C19_lines_partial; ASCII or carriage-return-free text is such text), from every parser state; refuted otherwise (byte/char offset mix in feed): no CRLF-ended line beyond ASCII fed by itself loses its carriage return (C19_crlf_refuted). |
| C20 | The SSE parser never panics | partial | The exact condition of a panic is proved (C20_panics, an equivalence); ASCII or carriage-return-free text never meets it, \u00e9\u00e9 LF CR does. |
| C71 | SSE lines are interpreted as the standard says | partial | Interpretation of every line proved; that lines reach it unchanged is proved for texts as in C19_lines_partial (see C19/C20). C71_crlf_refuted shows a line ending for which it fails. |

### Rpc

Method: round trips by induction over descriptions.

| id | property | status | proved, and what is false of the code |
|---|---|---|---|
| C21 | Request ids of different requests are different | partial | Distinctness proved for i64, strings and u64 below 2^63, and ids survive JSON; u64 conversions saturate at i64::MAX (refuted above it) and the Display form does not separate numbers from strings (refuted). |
| C22 | Error codes survive the JSON-RPC round trip | partial | Exact characterisation (iff) of the codes that survive; refuted for the unnamed server codes -32099..-32000 that the i32 conversion does not keep and for error kinds other than Protocol. |
| C26 | Requests and notifications survive the wire | partial | Proved for every well-typed request that is only client-side or only server-side and for all notifications; refuted for elicitation (unparsable) and server-sent sampling (parsed as the client request). |
| C74 | JSON-RPC envelopes survive serialisation | partial | Proved for all envelopes except params null, result null (refuted: null members read back as absent). serde_json is modelled in JsonLib/SerdeLib. |
| C75 | Raw messages are classified by what they are | partial | Proved for all envelopes with non-null result; a success response whose result is null is classified invalid (refuted). |
| C76 | Every protocol type survives JSON | partial | Proved for all protocol types; an Option field holding Some(null) reads back as None (refuted, excluded by is_of). Serde's derive macros are modelled by the schema interpreter SerdeLib.decode. |
| C77 | Optional parameters may be omitted | partial | List requests accept any or no cursor inside a params object; refuted: omitting params is an error for every request with parameters and ping rejects params. |
| C78 | Messages survive the stdio serialisation | partial | Proved for every well-typed message except elicitation requests (refuted: they read back as an error). |
| C79 | The JSON-RPC version is checked | partial | validate is exact, but no parsing path calls it: parse_request, parse_notification and the stdio parser ignore the version (refuted). |

### Stdio

Method: parser/printer round trip, histories.

| id | property | status | proved, and what is false of the code |
|---|---|---|---|
| C37 | Stdio framing is transparent | proved | Framing proved for arbitrary payload bytes; end to end for every history of the sender, messages as in C78. The operating system's pipes are modelled as byte lists whose reads and writes do not fail. |
| C80 | Closing the stdio transport is final | proved | Sequential histories (send and receive take &mut self). |
| C81 | No input makes the stdio transport panic | partial | Every panic is traced to a header line announcing more than isize::MAX bytes, and every such line causes it (refuted). Memory exhaustion below that is not modelled. |
| C193 | Stdio reads header blocks of any shape | proved | header blocks of arbitrary lines, with the white space of Unicode around the length; missing lengths, lines that are not text and truncated bodies |

### Recovery

Method: invariants over histories of calls with clocks.

| id | property | status | proved, and what is false of the code |
|---|---|---|---|
| C23 | An open circuit breaker stops calls | partial | Refuted: execute_with_recovery invokes the operation before it asks the breaker, so an open breaker never prevents a call, and a success through an open breaker closes it. Proved: no second invocation while it is open. |
| C24 | The circuit breaker follows its threshold contract | partial | Contract proved for all sequential histories except a success reported while open, which closes the breaker (refuted); overlapping calls act on a stale state (refuted by a trial success overlapping a trial failure). |
| C25 | Retries are bounded and back off within limits | partial | Bounds, stop at first success, returned value and waits proved; the first wait is not capped by max_delay and a negative multiplier panics (refuted). f64 multiplication is an arbitrary function to nanoseconds. |
| C82 | The configured recovery strategy is applied | proved | Policies built by any sequence of add_strategy. |
| C189 | An executor keeps one breaker for each operation | proved | Executions one after the other; overlapping executions are the subject of C24_race_refuted. |

### Delivery

Method: conservation invariants over schedules.

| id | property | status | proved, and what is false of the code |
|---|---|---|---|
| C27 | Batched notifications are neither lost, duplicated nor reordered | partial | Order to the receiver holds when no batch is formed while another waits for channel room (C27_order_partial); otherwise two waiting senders can overtake each other (C27_order_refuted). Nothing is lost or duplicated under any schedule. |
| C28 | Debouncing delivers the latest notification of each key once | partial | Proved for calls that do not overlap and a receiver that keeps up. A notification held by a timer waiting for channel room is destroyed by the next flush or add (C28_blocked_refuted); two overlapping adds of one key deliver before the quiet period (C28_overlap_refuted). |
| C194 | Debouncing never invents or repeats notifications | proved | multiset invariant over all schedules of the locked steps of the debouncer |

### Managers

Method: refinement to relations; invariants over schedules.

| id | property | status | proved, and what is false of the code |
|---|---|---|---|
| C29 | Cancelling a request cancels exactly its token | proved | At the granularity of locks: the removal of the token and its cancellation are separate steps, and any number of calls may be between them. |
| C30 | A cancelled request is reported as cancelled | partial | The token stays cancelled and its holder sees it; is_cancelled itself never reports a cancellation made through the manager (C30_report_refuted). |
| C31 | Subscriptions behave as a relation | proved | The average in the statistics (a float quotient) is not modelled. |
| C32 | Roots: unregistering a root removes that root | partial | Exact when standing registrations have distinct URIs; a URI registered twice makes an unregister function remove the other registration (C32_twin_refuted). |
| C33 | Elicitation answers reach the right waiter | proved | Interleavings of all locked sections. Beyond the property: a caller that drops its future leaves its entry (C33_abandoned_leaks), and reusing an identifier lets an older call's timeout remove a newer entry (C33_reuse_interferes). |

### Reconnect

Method: rational arithmetic, invariants, induction over the chain.

| id | property | status | proved, and what is false of the code |
|---|---|---|---|
| C34 | Reconnect delays stay within the configured bounds | partial | Bounds for every monotone rounding; exact arithmetic is one. Refuted: an initial delay of 0 becomes max_delay when the power overflows (C34_zero_refuted), and a max_delay of 2^64 seconds panics (C34_panic_refuted). The f64 rounding of the jitter band is explicit in the statement. |
| C35 | Reconnection stops at the retry limit and respects the circuit breaker | partial | Limit proved without a breaker; breaker refusals proved for checks until the timeout. Refuted: the check that closes the breaker ignores the limit (C35_open_ignores_limit_refuted), a disconnect notice bypasses the breaker (C35_disconnect_bypasses_refuted). |
| C36 | Middleware runs in order and stops at the first error | proved | All four process functions; added middlewares run in the order added. |
| C83 | Reconnection with a retry limit ends | proved | Sleeps are recorded by the retry count their length is calculated from. |
| C190 | Reconnection statistics count what happened | proved | Counters do not wrap in the model. |

### Server

Method: induction over inbound histories, interleavings of the two tasks.

| id | property | status | proved, and what is false of the code |
|---|---|---|---|
| C38 | The server answers every request exactly once, with its id, in order | partial | Holds while no handler panics: one panic ends the message task and nothing is answered any more (C38_panic_refuted). |
| C39 | Requests are routed to the handler registered under their name | proved | Every request kind; the shapes the destinations are read from are those of parsed requests (C39_shape). |
| C40 | No request is served before initialization | partial | Refuted: the server serves everything regardless (C40_ungated_refuted). Proved: what is_initialized and get_client_capabilities report. |
| C41 | The server reports the error's own code | partial | Refuted: always -32603 (C41_code_refuted). Errors without a code of their own are reported as by the error conversion; the message names the error. |
| C84 | Listings show exactly what is registered | proved | A hash map's iteration order is left open: a permutation of the registered names. |
| C85 | The server advertises what it can serve | partial | Refuted for tools, prompts and resources (C85_silent_refuted) and for sampling set before capabilities (C85_overwritten_refuted). |
| C86 | A request in progress can be cancelled | partial | Refuted: no token is ever registered, so cancel_request does nothing (C86_unreachable_refuted) and client notifications are ignored (C86_ignored_refuted). No positive part. |
| C87 | A client that subscribes is notified | partial | Refuted: resources/subscribe registers nothing (C87_requests_refuted). Subscriptions made through the API are those of C31's manager. |
| C88 | Outgoing notifications are sent promptly, once and in order | partial | Order and at-most-once proved for all interleavings with a fair lock; refuted: while waiting for a message the server holds the transport, so nothing goes out until the client sends something (C88_blocked_refuted). Beyond 100 waiting notifications new ones are dropped. |
| C89 | The protocol version is negotiated | partial | Refuted: always 2024-11-05 (C89_fixed_refuted). |
| C90 | A server is built iff it has a name and a version, from the last settings | proved | Induction over the builder calls. |
| C91 | Batched requests are answered like single ones | partial | Refuted: unknown methods get -32700 (C91_unknown_refuted). Order of the responses is C03. |

### Client

Method: invariants over histories of calls; the client composed with the server model.

| id | property | status | proved, and what is false of the code |
|---|---|---|---|
| C42 | The client sends nothing it is not allowed to send | proved | Requests only; notifications are C96. Ids are assumed fresh (UUIDs) in C42_one_handshake. |
| C43 | A client call returns the response to its own request | partial | Proved when calls are made one at a time and the transport delivers exactly one response per request, or when calls and responses come in the same order. Refuted in general: the id is never compared (C43_any_id_refuted), one stray message shifts all later answers (C43_shift_refuted), concurrent calls can swap answers (C43_swap_refuted). |
| C92 | What a server advertises can be called | partial | Refuted for sampling: create_message is always refused (C92_sampling_refuted). |
| C93 | The client's handshake is all or nothing | partial | Refuted when the initialized notification cannot be sent: initialize fails but the client is initialized and never announces it (C93_half_refuted). |
| C94 | Finished client calls leave nothing behind | partial | Proved while every request is sent and something is received; refuted for failed sends (C94_leak_refuted). |
| C95 | Client and server of this library understand each other | partial | Proved for every method but complete; refuted for completion/complete (C95_complete_refuted). typed: handlers return values of their Rust result types. |
| C96 | The client notifies only as it declared | partial | Refuted: undeclared roots (C96_undeclared_refuted), progress and cancel before the handshake (C96_early_refuted). Clients that declared the capability: C96_declared_partial. |

### Http

Method: invariants over interleavings of HTTP requests.

| id | property | status | proved, and what is false of the code |
|---|---|---|---|
| C44 | HTTP session lifecycle | partial | Admission, the id issued by initialize, liveness until DELETE and 404 after it are proved for all histories, with the waits at the MCP server's lock as separate steps.  False in part: a request waiting for the lock while its session is deleted is still processed (C44_race_refuted); initialize with a supplied id that is not live is answered with success and that id although no session exists (C44_supplied_refuted). |
| C45 | Event replay never crosses sessions | partial | Proved: exactly the events after the id are replayed, in order.  False: events of all sessions are replayed (C45_cross_refuted); an unknown id – even without any session – replays everything ever stored (C45_unknown_refuted); the id sent with a POST's event is not the stored one (C45_ids_refuted); replayed events are stored again (C45_duplicates_refuted). |
| C46 | HTTP negotiation is enforced | partial | Header checks and version checks are proved for every state, the negotiated version for every later history until DELETE.  False in part: a media type only has to contain the right substring (C46_substring_refuted); the version sent with initialize is not checked (C46_initialize_refuted). |
| C97 | HTTP requests only after initialize | partial | False: a GET without session opens a session in which every request is processed (C97_get_refuted).  Proved: a POST opens a session only for initialize. |
| C98 | One event stream per session, replaceable | partial | Proved: while a stream is registered another GET is refused.  False: two concurrent GETs both get one (C98_two_refuted), and after a disconnect the session never gets another (C98_reconnect_refuted). |
| C99 | HTTP answers reach their sender | partial | Proved: the answer is in the POST's response or waits in the registered stream if it is still read.  False: when that stream's client has gone away the answer is lost (C99_lost_refuted). |
| C100 | Event streams are isolated | partial | Proved for all interleavings of histories without replay; with Last-Event-ID it is false (C100_replay_refuted, see also C45_cross_refuted). |
| C101 | HTTP bodies are JSON-RPC messages | partial | Proved for responses, client notifications and requests in the library's own {id, request} wrapping.  False for requests: no JSON-RPC request is understood (C101_request_refuted).  Reading the derived untagged enum from objects is modelled by hand. |
| C192 | An event stream carries what is put on it, in order and once | proved | Over all histories after a stream was opened; answers routed to a stream are those of requests naming its session. |

### HttpClient

Method: invariants over interleavings; client and server models composed through the text on the wire.

| id | property | status | proved, and what is false of the code |
|---|---|---|---|
| C115 | Messages in HTTP replies are received exactly once and in order | partial | JSON replies, ended event streams, conservation, FIFO and at-most-once effect proved for every interleaving. Refuted: an array with one entry that is not a message loses all of it (C115_array_refuted); starting a stream aborts the one being read and loses what it carried (C115_restart_refuted). A stream is only read when it ends (see C119). |
| C116 | Requests carry the current session and protocol version | partial | Every request carries the latest session id and version, for configurations whose extra headers do not use the transport's own names; closing deletes the session. Refuted: an extra header of the same name hides the session id (C116_extra_refuted); after a 404 the dead session id is kept (C116_dead_refuted) and initializing again with the library's server does not revive it (C116_again_refuted). |
| C117 | Resumption tokens are reported and used | partial | Reporting, last_event_id and the Last-Event-ID header proved. Refuted: a message sent with a resumption token is never posted although the call succeeds (C117_unsent_refuted); a stream whose connection breaks leaves no id (C117_broken_refuted); a stream started without a token ignores the remembered id (C117_forgotten_refuted). |
| C118 | The client listens to the server after initialization | partial | Streams asked for explicitly are opened, 405 tolerated. Refuted: 202 is a success status, so the branch that would open the stream is never taken and no history of sends makes a GET (C118_never_refuted). |
| C119 | Client and server of the library understand each other over HTTP | partial | Proved for initialization and for every request in a live session without an open stream, in JSON and event mode, through the text on the wire. Refuted: once the session has an event stream the answer goes there and the client receives nothing until the stream ends (C119_stream_refuted). |
| C191 | A stream answering a request is read until it ends; the listening stream until it is replaced or closed | partial | Answers and the last listening stream: proved. The last sentence is false (C191_overlap_refuted): if two listening streams are asked for before the first reply arrives, only the handle of the second is kept and the first is read on after any later start or close. |

### OAuth

Method: invariants over interleavings; wait-for states for deadlock.

| id | property | status | proved, and what is false of the code |
|---|---|---|---|
| C47 | An authorization code is usable at most once | proved | Over every interleaving of provider calls (each lock acquisition is a step), under the assumption that generated UUIDs are new: at most one exchange of a code succeeds, and its client id, redirect uri, PKCE verifier and time fit the code. SHA-256 is a parameter. |
| C48 | A revoked or expired token never validates | proved | Calls that start after the revocation returned (or run after the expiry) fail, in every interleaving; also for revocation by the refresh token. |
| C49 | A refresh token is usable at most once | partial | False under concurrency: C49_race_refuted shows that two interleaved refreshes with one token always can both succeed. Proved for a refresh that starts after another succeeded. |
| C50 | Token operations do not deadlock | partial | False: C50_deadlock_refuted shows that create_access_token (holds tokens, waits for refresh_tokens) and refresh_token (holds refresh_tokens, waits for tokens) can block each other for ever, from every idle state with a good refresh token. Proved without refresh_token and revoke_token calls. |
| C52 | Granted scopes never exceed what was authorised | partial | Token contents follow the code or the old token (proved over every history). False for the client's registered scopes: C52_client_scopes_refuted. |
| C102 | Exchanging a code needs the client's secret | partial | False: C102_secret_refuted shows that no result depends on the secrets. Proved: the client id must be that of the code. |
| C103 | Registering a client does not change another one | partial | False for ids in use: C103_takeover_refuted. Proved for generated ids and for all other clients. |

### Auth

Method: induction over trees of middlewares.

| id | property | status | proved, and what is false of the code |
|---|---|---|---|
| C51 | Authentication middlewares grant access only to valid credentials | proved | Exact characterisation of each middleware and, by induction, of every tree of them; the provider is arbitrary (its answers are assumed not to change during one authentication). Trees with foreign implementations of the trait are excluded where stated. |
| C104 | is_required tells whether anonymous requests are refused | partial | False for composites and scopes: C104_composite_refuted, C104_empty_refuted, C104_scope_refuted. Proved for single middlewares, and one direction for scopes. |
| C195 | A refused request is told why | proved | every denial of a tree of middlewares is traced to its cause; the exact condition for provider errors and missing scopes |

### Dyn

Method: induction over operations.

| id | property | status | proved, and what is false of the code |
|---|---|---|---|
| C53 | Dynamic registration is last-writer-wins per name | proved | By induction over every sequence of operations: the registry holds exactly what was added or loaded last and not removed since. |
| C54 | Capability listeners see the accumulated capabilities | partial | False for more than one operation: C54_accumulated_refuted and C54_removed_refuted show that an announcement describes the static capabilities and the last operation only. Proved: the announcement of one operation. Registry update and announcement are one step in the model. |
| C105 | A reload is seen as a whole | partial | Proved for a reload nobody interferes with: exactly the new tools and prompts (and the server's own) are there afterwards, the handlers given are set (C105_reload_partial), and while it goes on a reader of the tools or of the prompts sees only new ones (C105_during_partial). Refuted: a reader finds tools missing that are in both configurations (C105_gap_refuted), handlers the new configuration lacks stay (C105_handlers_refuted), two reloads at once leave the tools of both (C105_mixed_refuted). |
| C106 | A tool added at runtime can be called | partial | False: C106_call_refuted shows that the server never consults the dynamic registry. Proved: the manager goes on knowing the tools the server was built with. |

### Watch

Method: state machine invariants.

| id | property | status | proved, and what is false of the code |
|---|---|---|---|
| C55 | File change notifications are debounced and complete | partial | Proved for the event processor, for every history of events, ticks and changes of the tracked set (a tick is one step): C55_tick, C55_only, C55_once; and for the file system side while its channel of 1000 reports is not full. False beyond: C55_overflow_refuted. |
| C107 | A resource added to the watcher is tracked | partial | False at the limit: C107_full_refuted (Ok, nothing tracked, also for updates of tracked resources). Proved below it, and that the limit holds. |

### Notif

Method: invariants over schedules with clocks.

| id | property | status | proved, and what is false of the code |
|---|---|---|---|
| C108 | Merged notifications are sent exactly once, in order | partial | False past max_batch_size (C108_lost_refuted) and for flush, which leaves everything pending (C108_flush_refuted). Proved within these limits, for every history. The Debug output of tokens is a parameter. |
| C109 | No debounced notification waits too long | proved | C109_quiet and C109_max hold without restriction: after any tick, whatever still waits began waiting less than max_wait_time before that tick. C109_sent shows in addition, with merging, room in the queue, no flush and a clock that does not run backwards, that what was submitted has been sent by then (without room it can be dropped instead). |
| C110 | Without merging the latest notification of each kind is sent | partial | Proved per key, but log messages and root changes share one key: C110_unknown_refuted. |
| C111 | Configured debounce intervals apply | partial | False for the documented types: no interval of the default configuration is ever used (C111_default_refuted, C111_progress_refuted). Proved for keys that are matched exactly. |
| C112 | The notification batcher delivers everything once, by kind | partial | All but the order proved for every interleaving. The order is false in general (C112_order_refuted) and proved when full batches are sent at once. |

### Simd

Method: equality with scalar definitions; divergence for every fuel.

| id | property | status | proved, and what is false of the code |
|---|---|---|---|
| C56 | SIMD scanners agree with the scalar definition | partial | False for inputs in which a block of 32 bytes ends in a byte that is looked for: the scanners then never return (C56_whitespace_hangs_refuted, C56_escapes_hangs_refuted, C56_pattern_hangs_refuted). Proved for all other inputs, that an answer of find_pattern_simd is always right, and exactly when there is one (C56_pattern_stops). Vector registers are lists of lanes. |
| C57 | SIMD UTF-8 validation accepts exactly UTF-8 | partial | False in both directions: C57_overlong_refuted, C57_high_refuted, C57_continuations_refuted (invalid input accepted) and C57_crossing_refuted (valid input rejected). Proved: the exact set accepted (C57_exact, an equivalence for inputs of every length), and acceptance of valid text in which no character crosses a block. |
| C58 | Base64, XOR masking, run-length coding, copy and checksum are exact | proved | For every byte string. The decoders of base64 and run lengths are part of the specification. |
| C113 | batch_validate_lengths tells which lengths are within the limit | partial | False in full blocks of eight: C113_equal_refuted, C113_large_refuted. Proved for lengths and limits below 2^31 that differ, and for the last block. |

### JsonFast

Method: automaton equalities.

| id | property | status | proved, and what is false of the code |
|---|---|---|---|
| C59 | Fast JSON parsing accepts exactly what standard parsing accepts | partial | False: whitespace between two tokens is removed before parsing, so that '1 2' is the number 12 (C59_joined_refuted); parsing hangs when a block of 32 bytes ends in whitespace (C59_hangs_refuted) and rejects valid text with a character across byte 32 (C59_crossing_refuted). Proved: every text accepted by standard parsing is accepted with the same value outside these cases, and equality also for rejected texts with little whitespace. The target type is serde_json::Value. |
| C60 | Fast pretty printing preserves the document | partial | False outside ASCII: bytes are pushed as characters (C60_characters_refuted), and printing hangs when a block of the compact text ends in a quote or backslash (C60_hangs_refuted). Proved: the exact text otherwise, and preservation for ASCII documents. The fallback printer of serde_json is not modelled. |
| C114 | Fast JSON writing gives the standard bytes | partial | False when a character lies across a block of 32 bytes: C114_crossing_refuted. Proved otherwise, and that no other bytes are ever returned. |

### Context

Method: round trips.

| id | property | status | proved, and what is false of the code |
|---|---|---|---|
| C61 | Trace context survives header propagation | partial | False for the span: only the first half of the sender's span is restored (C61_parent_refuted). False for trace ids that are not UUID texts (C61_trace_refuted), string request ids (C61_string_id_refuted) and short spans, which panic (C61_short_span_refuted). Proved: trace, request, user, session and baggage survive any number of nested operations and requests for contexts as the library makes them with numeric ids; user, session, baggage and the digits of the trace for every other. |
| C196 | No headers crash the extraction of a request context | partial | false of the code: it cuts the parts of the trace header at byte offsets, so a header with a multi-byte character across an offset panics (C196_crash_refuted). Proved: the exact condition for the panic over all header values (C196_panics_partial with C196_parts), and that ASCII headers never panic (C196_ascii_partial) |

### Ws

Method: conservation invariants over interleavings; the two models composed.

| id | property | status | proved, and what is false of the code |
|---|---|---|---|
| C120 | What a WebSocket peer sends is received once, in order | partial | Conservation, order and the final error proved for every history; false for a connection that is replaced: accept and close throw away what was received and not yet returned (C120_replaced_refuted). |
| C121 | What the WebSocket server sends is transmitted once, in order | partial | Order, at most once, isolation and the exact conditions of refusal proved. False: send succeeds when the message is queued; if the socket then fails it is never written (C121_lost_refuted). The configured size limits are not used by the code. |
| C122 | WebSocket pings are answered | proved | For every history; the pong channel's capacity only delays. |
| C123 | The WebSocket server knows whether it is connected | partial | Proved: true exactly between a successful accept and close. False: a peer that has gone makes no difference (C123_peer_refuted). |
| C124 | WebSocket connection attempts are bounded and back off | partial | Attempts and waits exactly as specified; false for the first wait, which may exceed the maximum (C124_first_refuted), and for delays that cannot be doubled, which panic (C124_panic_refuted). The attempt counter is unbounded in the model; auto_reconnect is not used by the code. |
| C125 | What the WebSocket client sends is transmitted | partial | False: nothing but pings is ever written (C125_silent_refuted). Proved: send fails when not connected. |
| C126 | What the WebSocket server sends is received by the client once, in order | proved | For every interleaving of readers, calls and reconnections. |
| C127 | The end of a WebSocket connection is reported to the client | partial | False: receive never fails, the transport stays connected after the peer has gone (C127_end_refuted), and close leaves the connection open and read (C127_close_refuted). Proved: is_connected follows the calls. |
| C128 | WebSocket client and server of the library understand each other | partial | Server to client proved, through the text on the wire, for messages as in C78. False from client to server (C128_to_server_refuted). |

### HttpSse

Method: conservation invariants over interleavings; the parser's round trip (SSE area); UTF-8 decoding of a cut character.

| id | property | status | proved, and what is false of the code |
|---|---|---|---|
| C129 | HTTP transport: stream messages arrive once, in order, unchanged | partial | Conservation and order proved for every history (C129_conserved). Unchanged: proved when no character is cut by the end of a chunk (C129_stream_partial), for messages as in C78 and events as in C18; missing and false otherwise: C129_cut_refuted, each chunk is decoded by itself, so a cut character becomes replacement characters. C129_mended says exactly what text any bytes become. |
| C130 | HTTP transport: result of send | partial | One request per call proved (C130_posted); success is characterised exactly (C130_result_partial), but it is not acceptance by the server: a 202 or an empty body is an error (C130_accepted_refuted). |
| C131 | HTTP transport: send returns | partial | Proved while fewer than 100 messages wait to be received. False with 100: C131_stuck_refuted, the call waits for ever and, having the transport for itself, prevents the receive it waits for. |
| C132 | HTTP transport: is_connected, close and the end of a stream | partial | Proved without an event stream. False with one: C132_flag_refuted, C132_close_refuted, C132_receive_refuted. |
| C133 | HTTP transport: configured headers and the SDK's own server | partial | False: C133_headers_refuted, the configured headers are never sent; C133_server_refuted, the streamable HTTP server refuses every POST with 406. Only the GET request is acceptable to it (C133_stream_partial). |

### Oidc

Method: induction over the attempts; round trips of form, base64, UTF-8 and serde.

| id | property | status | proved, and what is false of the code |
|---|---|---|---|
| C134 | OIDC discovery retries temporary failures, boundedly | partial | Proved for positive limits, with the exact criterion (C134_temporary). False for a limit of 0 (C134_zero_refuted) and for network failures described without one of four words (C134_failed_refuted). |
| C135 | The discovery url is determined by the issuer | proved | For all texts, by the shape of trim_end_matches. |
| C136 | Discovery returns the published document | partial | Proved for documents with all lists (C136_document, C136_own). False for conforming documents without an optional list (C136_optional_refuted) or with another response type (C136_response_refuted). |
| C137 | Token requests carry exactly the given parameters and credentials | partial | Parameters proved through form encoding and decoding. Credentials proved for ids without a colon; false with one (C137_colon_refuted) and for servers that decode as RFC 6749 says (C137_encoding_refuted). |
| C138 | Token replies are classified | proved | For JSON bodies as in C78; the text of a refusal is that of a UTF-8 body. |

### Complete

Method: path lemmas over segment lists; sorting by insertion; induction over builder calls; serde round trip.

| id | property | status | proved, and what is false of the code |
|---|---|---|---|
| C139 | Static completion offers exactly the matching items | proved | All items, labels and partial texts. |
| C140 | File completion offers the entries of the directory being typed | partial | Proved for paths of ordinary segments. False for a name alone without a base directory (nothing is suggested), for a last part "." (hidden files: the parent's entries are suggested) and for ".." (C140_*_refuted). Order proved always. |
| C141 | File completion stays below its base directory | partial | Proved for relative texts without a segment "..". False for absolute texts and for "../" (C141_absolute_refuted, C141_parent_refuted). |
| C142 | File completion respects the listed extensions | partial | Proved for every listed extension as compared; false for extensions written with the dot, as in the documentation (C142_dotted_refuted). |
| C143 | The elicitation builder keeps the last value given for each part | proved | Induction over the calls. |
| C144 | A built elicitation request is read by the client as it was built | partial | Proved for metadata keys that are no field names and defaults other than null; false for these (C144_metadata_refuted, C144_null_default_refuted). |

### Guarantees

Method: theorems of the areas.

| id | property | status | proved, and what is false of the code |
|---|---|---|---|
| C145 | Only requests of live sessions reach the server (HTTP) | proved | Stated separately from C44, which also claims what does not hold. |
| C146 | Requests with wrong headers are refused before anything happens (HTTP) | proved | Stated separately from C46, which also claims what does not hold. |
| C147 | A server's responses are those of its requests, in order | proved | Stated separately from C38, which also claims what does not hold. |
| C148 | No message is received twice by concurrent client calls | proved | Stated separately from C43, which also claims what does not hold. |
| C149 | The watcher announces exactly the files that have become quiet | proved | Stated separately from C55, which also claims what does not hold. |
| C150 | Watch patterns select exactly the matching files | proved | Stated separately from C55, which also claims what does not hold. |
| C151 | The number of watched resources never exceeds its limit | proved | Stated separately from C107, which also claims what does not hold. |
| C152 | Batch metrics add up | proved | Stated separately from C64, which also claims what does not hold. |
| C153 | The notification batcher sends each notification exactly once | proved | Stated separately from C112, which also claims what does not hold. |
| C154 | Debounced notifications about different things do not affect each other | proved | Stated separately from C108, C109, C110, which also claims what does not hold. |
| C155 | The streamable HTTP client delivers each message once and in order | proved | Stated separately from C115, which also claims what does not hold. |
| C156 | The resumption token is always the last event id seen | proved | Stated separately from C117, which also claims what does not hold. |
| C157 | The WebSocket server transport returns what was read, in order | proved | Stated separately from C120, which also claims what does not hold. |
| C158 | The WebSocket server transport writes what was sent, in order | proved | Stated separately from C121, which also claims what does not hold. |
| C159 | Connecting a WebSocket tries as often as configured | proved | Stated separately from C124, which also claims what does not hold. |
| C160 | Messages sent over a WebSocket arrive unchanged and in order | proved | Stated separately from C128, which also claims what does not hold. |
| C161 | The HTTP transport with an event stream loses and repeats nothing | proved | Stated separately from C129, which also claims what does not hold. |
| C162 | Each send of the HTTP transport makes exactly one request | proved | Stated separately from C130, which also claims what does not hold. |
| C163 | A discovery document that follows the schema is accepted unchanged | proved | Stated separately from C136, which also claims what does not hold. |
| C164 | Token requests carry exactly the given parameters | proved | Stated separately from C137, which also claims what does not hold. |
| C165 | File suggestions are always sorted | proved | Stated separately from C140, which also claims what does not hold. |
| C166 | Whitespace between tokens does not matter to the fast JSON parser | proved | Stated separately from C59, which also claims what does not hold. |
| C167 | Fast JSON writing gives the standard bytes | proved | Stated separately from C114, which also claims what does not hold. |
| C168 | A child context keeps everything of its parent | proved | Stated separately from C61, which also claims what does not hold. |
| C169 | An accepted request is the one that was sent | proved | Stated separately from C26, which also claims what does not hold. |
| C170 | Only well-typed documents are accepted, whatever the order of fields | proved | Stated separately from C76, which also claims what does not hold. |
| C171 | The session cookie is found among other cookies | proved | Stated separately from C70, which also claims what does not hold. |
| C172 | Lines of an event stream mean what the standard says | proved | Stated separately from C71, which also claims what does not hold. |
| C173 | Well-formed URI templates are accepted as what they say | proved | Stated separately from C73, which also claims what does not hold. |
| C174 | A successful initialize is complete, and happens once | proved | Stated separately from C93, which also claims what does not hold. |
| C175 | Client and server of this SDK always agree on a handshake | proved | Stated separately from C95, which also claims what does not hold. |
| C176 | Fixed retries are made exactly as configured | proved | Stated separately from C25, which also claims what does not hold. |
| C177 | Registering a root succeeds exactly for file URIs | proved | Stated separately from C32, which also claims what does not hold. |
| C178 | Expired sessions are never returned and cleanup removes exactly them | proved | Stated separately from C13, which also claims what does not hold. |
| C179 | Requests of a batch are treated like single ones | proved | Stated separately from C91, which also claims what does not hold. |
| C180 | Initializing over streamable HTTP opens a session both sides know | proved | Stated separately from C116, C119, which also claims what does not hold. |
| C181 | Request ids survive the wire | proved | Stated separately from C21, which also claims what does not hold. |

### Log

Method: balanced histories for scopes by induction on their length; invariant over operations for the channel; arithmetic for the delay.

| id | property | status | proved, and what is false of the code |
|---|---|---|---|
| C182 | Sleeping in a browser lasts as long as asked | partial | Exact for whole milliseconds below 2^31 and never longer; a fraction of a millisecond is dropped, and 2^31 to 2^32 ms (modulo 2^32) is no wait at all because the count is cast to i32 (C182_fraction_refuted, C182_long_refuted). |
| C183 | The browser channel delivers every value once, in order | proved | Received values followed by the waiting ones are the values sent; further receives drain them. |
| C184 | The browser channel ends, waits and refuses as a bounded channel does | partial | A waiting value is always received. recv returns None at once when nothing is waiting although the sender lives; send never waits, whatever the buffer, and succeeds with the receiver gone. |
| C185 | A log entry names the request it was logged for | proved | Scopes are described by balanced histories, independent of the stack the model keeps; nested histories are inside or outside, never both. |
| C186 | Work started within a request is logged under the request | partial | True for a task that enters the context itself; a task started without doing so logs no ids (C186_spawn_refuted): the context is task-local. |
| C187 | An entry is logged at the level it names | partial | The five tracing names are honoured in any case; warning, critical, alert, emergency and fatal are logged at info (C187_warning_refuted). |
| C188 | A log line holds the entry it was made from | proved | For entries whose texts are Unicode, ids fit i64 and fields are below serde_json's depth limit; error details are not modelled. |

### Stack

Method: invariant between calls, by induction over the session; the round trips of the Stdio and Rpc areas.

| id | property | status | proved, and what is false of the code |
|---|---|---|---|
| C197 | A session over stdio returns exactly what the server's handlers did | proved | StackModel composes ClientModel, ServerModel and StdioModel through bytes. Each process handles what has arrived before the other goes on, which is what happens when calls are made one after the other; concurrent calls are C43. That every message sent can be serialised and read back is assumed of the session as C37 assumes it of a stream (travels); C197_travels shows it of a session with successes, failures and refusals. A panicking handler ends the server (C38). create_message never reaches a server (C92) and complete is never understood (C95). |

### Wasm

Method: conservation over histories; serde round trips shared with the Http area; induction over the looks at the socket.

| id | property | status | proved, and what is false of the code |
|---|---|---|---|
| C198 | Browser transport: messages arrive once, in order, unchanged | partial | C198_conserved holds for every history and every text. C198_received_partial: all messages of the library's stdio and WebSocket peers but the server's request for input, which is written under a method no type declares (C78). C198_browsers_partial: between two browsers. C198_unnamed_refuted: the common progress and cancellation notifications are written without their method and never received. Where client and server have a notification of the same name the client's variant is read (browser_sees). |
| C199 | Browser transport: the library's servers understand what it sends | partial | Only responses are (C199_responses_partial). C199_unread_refuted: no request and no notification is understood, since the jsonrpc member is left out. |
| C200 | Browser transport: sending needs an open socket | proved | The browser's refusal (WebSocket.send throws) is an input; stays_shut: browsers never reopen a socket. C200_written: over every history, the socket's state and exactly which texts were written. |
| C201 | Browser transport: receive ends with the connection | partial | C201_kept_partial: messages that had arrived are still received. C201_waits_refuted: with nothing queued receive waits for ever, because the transport keeps a sender of its own channel. |
| C202 | Browser transport: connecting ends, and succeeds exactly if the socket opens in time | proved | The states seen at the looks are an arbitrary sequence. |

### Macros

Method: search lemmas over quote-delimited segments; induction over parameters; injectivity by induction over words.

| id | property | status | proved, and what is false of the code |
|---|---|---|---|
| C203 | A tool has the name and description its attribute gives | partial | Proved for texts without quotes and backslashes that do not end in a key. Refuted: a quote cuts the description (C203_quote_refuted); after a description ending in 'name = ' the name is misread (C203_name_refuted). |
| C204 | A tool that is listed is called by its name | partial | Listing, first match and unknown names for every block; each tool reached when names differ (C204_each_partial). Refuted: equal names are accepted and hide the second tool (C204_twice_refuted). |
| C205 | A tool function is called with the arguments of the request | partial | Exactly when the function is called, with which values, and which parameter is reported (C205_called). Refuted: an ill-typed argument of an optional parameter is silently dropped (C205_wrong_refuted). Types are those of the serde model; the generated code names error variants the crate lacks. |
| C206 | Arguments that satisfy the schema listed for a tool are accepted | partial | Proved for functions without required parameters. Refuted: the schema is the same for every tool and lists nothing (C206_schema_refuted). |
| C207 | Handlers generated for different functions have different names | partial | Proved for names of lower-case words that start with a letter. Refuted: digits after an underscore and doubled underscores (C207_same_refuted). |

### Access

Method: invariants over the history: a validated token has a stored record, a stored record has an authorisation.

| id | property | status | proved, and what is false of the code |
|---|---|---|---|
| C208 | Access with a bearer token is always backed by a standing authorization | proved | Composes the provider of C47-C52 with the middlewares of C51. The middleware's question to the provider is tied to a validate_token call of the history (backed); generated values are assumed distinct. |

### HttpStack

Method: invariant between calls, by induction over the session; simulation between the HTTP and the stdio composition.

| id | property | status | proved, and what is false of the code |
|---|---|---|---|
| C209 | A session over HTTP is the session itself, whatever the HTTP options | proved | HttpStackModel composes ClientModel, HttpClientModel, HttpModel and ServerModel; each HTTP exchange is completed before the client goes on. Left out here: cancel_request and send_progress (C222), panicking handlers (C219), other clients of the same server (C210) and a stateless server (C220). answers_travel: the answers can be written and read back; C209_travels shows it of a session with successes, failures and refusals. C209_same compares with the stdio composition of C197. |

### HttpCloud

Method: one invariant over the whole system, by induction over the history: who waits for what, which session belongs to whom, what has been handled for it.

| id | property | status | proved, and what is false of the code |
|---|---|---|---|
| C210 | Clients of one HTTP server do not disturb each other | proved | HttpCloudModel runs any number of clients (each one call at a time, as the methods borrow the client mutably) against one HTTP server; a request waits for the MCP server's lock in the HTTP server and gets it in any order. Generated session ids are distinct (the code uses UUIDs; a repeated one would reset another client's session). cancel_request and send_progress are among the calls (see C222); stateless servers are C220; handlers may panic (C219). C210_usable, C210_example and C210_travels show two clients with interleaved requests and equal request ids meeting the hypotheses. |
| C211 | The server knows the capabilities of each client it serves over HTTP | partial | False with more than one client: the server has a single slot. C211_last_partial says exactly what it holds (the capabilities in the last initialize handled, for whichever session); C211_overwritten_refuted says that in every history handling one client's initialize replaces what was known, although the other clients' sessions go on unchanged. With one client it is right (C209_handshake). |
| C219 | Over HTTP a handler that panics takes only its own call with it | proved | The panic unwinds the task of its connection; tokio's Mutex is not poisoned, so the lock is free again, and the client's send fails. Assumes one request per connection (HTTP/1). C210_progress then applies to the resulting state: whoever else waits can be answered. C219_example runs two clients with a tool that panics once. |

### HttpStateless

Method: a second, simpler invariant over the whole system, by induction over the history: no transport has a session, who waits for what, what has been handled.

| id | property | status | proved, and what is false of the code |
|---|---|---|---|
| C220 | An HTTP server without sessions serves any number of clients correctly | proved | The model and vocabulary of C210 with sessions switched off; no assumption on generated ids. cancel_request and send_progress are among the calls. C220_example, C220_travels and C220_panic_example run the two clients of C210_example against a stateless server. |
| C221 | The protocol version agreed on over HTTP is kept | partial | True with sessions: C221_kept_partial, for every client in every history. False without: C221_lost_refuted shows that in every history the answer to a call makes the transport report the default version 2025-03-26 although the initialize result named 2024-11-05 (handle_post_request falls back to DEFAULT_PROTOCOL_VERSION when there is no session). The server does not mind, as it supports both (C220). |

### HttpSignal

Method: from the two invariants of HttpCloudProofs2 and HttpCloudProofs3: the call is refused or accepted without changing the server.

| id | property | status | proved, and what is false of the code |
|---|---|---|---|
| C222 | Cancelling and reporting progress over HTTP | partial | True: C222_harmless - the call comes back at once with success unless the server keeps sessions and the client has none (then a transport error), nothing else changes. False: C222_cancelled_refuted - in every history, a waiting request whose id was successfully cancelled is still waiting, its handler is called and its client gets the answer exactly as without the cancellation (handle_post_request answers every notification with 202 and does nothing with it). C222_example runs it with and without sessions. Both notifications are also part of every history of C210, C219, C220 and C221. |

### HttpClose

Method: a simulation between the server with and without the closed session, and one between the history with and without what the closed client does; both by induction over the future.

| id | property | status | proved, and what is false of the code |
|---|---|---|---|
| C225 | Closing one HTTP client | partial | Proved for clients that have initialized with a server that keeps sessions: C225_closed, C225_others. False otherwise: C225_stays_refuted - without sessions, or before initialize, closing changes nothing at all, and the client's methods work as before. |

### WsServer

Method: invariant tying the wire, the channels and the message task to the fold of the server over the messages read; a measure for coming to rest.

| id | property | status | proved, and what is false of the code |
|---|---|---|---|
| C226 | A server on a WebSocket connection | partial | Proved as long as the socket takes what is written and no handler panics: C226_answers (which needs neither), C226_all, C226_settles, C226_reads. False otherwise: C226_panic_refuted - after one handler's panic nothing the peer sends is handled or answered, although the connection stays open; C226_unanswered_refuted - a request with an unknown method, or without its optional parameters, gets no answer at all. |

### StdioServer

Method: induction over the input, each message being shorter than what it was read from; framing lemmas of the Stdio area.

| id | property | status | proved, and what is false of the code |
|---|---|---|---|
| C227 | A stdio server facing any program | partial | Proved: C227_any (for every input: exactly the answers to the messages before the first thing that is no message), C227_messages (a program that writes messages only gets them all answered). The last sentence is false: C227_bad_refuted (a frame that cannot be read ends the server's service for good), in particular a request with an unknown method (C227_unknown_refuted) or one that leaves out optional parameters (C227_omitted_refuted). |

### Arg

Method: induction over the calls; the serde round trip of the Types area.

| id | property | status | proved, and what is false of the code |
|---|---|---|---|
| C228 | A built completable argument says what it was told | proved | Proved for every sequence of builder calls; the wire statement is for values JSON can carry (storable: strings of Unicode scalars, nesting below serde_json's limit). |

### Metrics

Method: invariant over histories: the metrics are the recording of the batches that ended since the last reset.

| id | property | status | proved, and what is false of the code |
|---|---|---|---|
| C229 | Batch metrics count what ended since the last reset | partial | Counts, maximum and reset proved for every interleaving (C229_counts, C229_reset); the average when the first batch since the reset has requests (C229_average_partial), otherwise it is NaN until the next reset (C229_empty_refuted). C229_straddle_refuted: a batch that began before the reset counts in full, with a time that may exceed the time since the reset. |

### WsLimit

Method: induction over the frames.

| id | property | status | proved, and what is false of the code |
|---|---|---|---|
| C230 | The WebSocket server enforces its configured limits | partial | accept uses accept_async without the configuration, so the limits are always tungstenite's defaults (its behaviour is assumed, see WsLimitModel.v). Proved: C230_builder, C230_received_partial, C230_bounded. False: lower limits are not enforced (C230_lower_refuted), frames above 16 MiB end the connection even within the default limit (C230_higher_refuted), unmasked frames are never taken (C230_unmasked_refuted). |

### WatchBuild

Method: induction over the calls and over the reports.

| id | property | status | proved, and what is false of the code |
|---|---|---|---|
| C231 | A built watcher watches what it was told to | partial | Proved: what is built (C231_builder) and that ignored or foreign paths are never noticed (C231_ignored). False for patterns: pattern() adds to the default '**/*', so no pattern given narrows anything down (C231_narrow_refuted, C231_unwanted_refuted); glob_match is any function that takes '**/*' for everything. |

### Clone

Method: induction over histories of calls and clonings: what one operation keeps of each clone.

| id | property | status | proved, and what is false of the code |
|---|---|---|---|
| C232 | A clone of a client is as good as the client | partial | Proved: clones of an initialized client are interchangeable in every later history (C232_same_partial) and share one connection (C232_connection). False for a clone made before: it refuses every call whatever happens to the original (C232_early_refuted), and initializing it sends a second initialize request over the same connection (C232_twice_refuted). Calls that overlap in time are C43's subject. |
| C233 | The options of a client take effect | partial | Proved: the options given last are kept (C233_kept). False that they do anything: undeclared calls are refused although strict is off (C233_lenient_refuted), and every progress notification is sent at once whatever is listed (C233_debounced_refuted). |

### WsKeep

Method: an invariant over histories that counts the ticks; induction over histories after the loss.

| id | property | status | proved, and what is false of the code |
|---|---|---|---|
| C234 | A WebSocket client keeps its connection alive | partial | Proved for every interleaving: never too often (C234_rate), exactly the due ones whenever the tasks are idle and no write failed (C234_due), none after a failed write (C234_failed), none without an interval or with one of zero (C234_off). False that they end with the connection: neither close nor the peer's leaving changes anything (C234_closed_refuted). |
| C235 | A lost WebSocket connection is made again | partial | Proved: connections are exactly those made by successful connects (C235_connections), and connecting again makes the transport receive again (C235_again). False that anything else does, whatever auto_reconnect says, and receive waits for ever (C235_lost_refuted): nothing reads auto_reconnect and request_timeout. |

### UriJson

Method: the JSON round trip.

| id | property | status | proved, and what is false of the code |
|---|---|---|---|
| C236 | URI templates survive JSON | proved | Through the bytes serde_json writes; text is any sequence of Unicode scalar values, as in every Rust String. |

### SessionCb

Method: a balance of reports and live sessions kept by every step of every interleaving.

| id | property | status | proved, and what is false of the code |
|---|---|---|---|
| C237 | Session callbacks report each session's life | partial | Proved for every interleaving: the balance of reports (C237_balance), once each where no lookup puts back a removed session (C237_once_partial), which session is reported (C237_which), and exactly the expired ones by cleanup_expired (C237_cleanup). False: validate_session reports an expired session as destroyed (C237_expired_refuted), and a session put back by a lookup is reported to end twice (C237_twice_refuted). |

### DynRace

Method: induction over interleavings against the model of whole calls in the Dyn area.

| id | property | status | proved, and what is false of the code |
|---|---|---|---|
| C238 | Overlapping runtime changes lose nothing and listeners know what there is | partial | Registries are those of the changes in order (C238_registries), whole calls are the Dyn area's (C238_sequential) and each call tells each listener once (C238_told). False: listeners know what there is. The change and the announcement are under different locks, so after any history a resource handler set and removed by overlapping calls leaves every listener told that there are resources while there are none (C238_stale_refuted). |

### Flow

Method: an invariant over histories of the provider: a code stays until its exchange runs; following one call through any interleaving.

| id | property | status | proved, and what is false of the code |
|---|---|---|---|
| C239 | The OAuth client and provider of this library work together | partial | The exchange succeeds whenever it returns (C239_exchange), the answer is read as given, its scopes being the words of the text (C239_answer), a refresh reaches the provider with its token (C239_refresh), requests of any other grant reach none of its methods (C239_others). That it returns at all is C50 (calls of refresh and revoke can block it for ever). False: a client can ask for fewer scopes when refreshing, since the provider's method takes no scopes (C239_narrow_refuted); and the provider sees the secret, since the client sends it in a header only, which TokenRequest does not read (C239_secret_refuted). |

### Reg

Method: the members of what is written as an association list; a refinement to the registration of the OAuth area.

| id | property | status | proved, and what is false of the code |
|---|---|---|---|
| C240 | A registered OAuth client is the one its document describes | partial | A client survives JSON exactly if no metadata is named like a field (C240_survives_partial); an accepted document is answered with the client that is stored, all other members as in the document (C240_answer); this registration is the one of C103 (C240_same). False: metadata named like a field takes its place (C240_replaced_refuted); an application can leave out the id, as RFC 7591 has it: a document without a client_id is refused (C240_required_refuted), only an empty one is replaced; and an application can stay public: every client gets a secret (C240_public_refuted). |

### StdioDrop

Method: each state of a call in progress is the rest of a call of the Stdio area; induction over histories; invariant of a stream out of step.

| id | property | status | proved, and what is false of the code |
|---|---|---|---|
| C241 | A stdio transport can be polled in pieces and a receive given up | partial | Without giving up, the calls return what they return when all bytes are there at once, for any bytes and any pieces (C241_patient); with frames, calls given up only between messages lose nothing (C241_between_partial, C241_received_partial). False in general: what a call has taken goes with it. After a call is given up when part of a message was taken, neither this message nor any later one is ever received, however many arrive (C241_lost_refuted, C241_desync_refuted). |

### CallDrop

Method: invariants by induction over histories: which message and which request a call stands for.

| id | property | status | proved, and what is false of the code |
|---|---|---|---|
| C242 | A client call can be given up | partial | The calls are those of the client model (C242_same) and take the messages strictly in order, whatever was given up (C242_order). As long as calls are only given up before their request was sent, each returns the reply to its own request (C242_own_partial), and without any given up nothing is left (C242_tidy_partial). False in general: once one call was given up while it waited, every later call returns the reply to an earlier request as its own (C242_shift_refuted), and the entry of a call that was given up stays for good (C242_tracked_refuted). |

### HttpDrop

Method: simulation: the run with the request and without it, step by step.

| id | property | status | proved, and what is false of the code |
|---|---|---|---|
| C246 | A client that goes away leaves an HTTP server as it was | partial | Without disconnections it is the server of C44 (C246_same). Proved for every request that opens no session: whatever happens in between, responses and final state are those without it (C246_unsent_partial for POST, C246_listen_partial for GET; simulation over all histories). False for initialize (and so for clients that time out while they connect): the session it opened, of which the callback was told, stays until somebody deletes it, but its id was sent to nobody (C246_session_refuted). Missing: clients that go away while a handler is running (C219 covers handlers that panic). |

### NotifDrop

Method: multiset invariant over all schedules.

| id | property | status | proved, and what is false of the code |
|---|---|---|---|
| C245 | Giving up a call of the notification batcher loses nothing of others | partial | Whatever is given up, what was received, is in the channel, is held or collected and what was lost are the added notifications, each as often (C245_kept); nothing is lost while the channel has room (C245_roomy_partial); a flush that is not given up ends only when everything collected was sent (C245_flush); an add that is given up loses one batch of one kind that ends with its own notification (C245_add). False: that batch holds notifications of other calls that returned Ok (C245_others_refuted), and a flush that is given up while the channel is full loses everything collected, of every kind (C245_flush_refuted). |

### BatchDrop

Method: multiset invariant over all schedules; refinement of the batcher of C27.

| id | property | status | proved, and what is false of the code |
|---|---|---|---|
| C244 | Giving up an add affects at most what it was adding | partial | Without giving up the batcher is the one of C27 (C244_same). Whatever is given up, what was received, is in the channel, is held or pending and what was lost are the added notifications, each as often (C244_kept); nothing is lost while the channel has room (C244_roomy_partial); an add that is given up loses one batch of at most max_batch_size notifications that ends with its own (C244_lost), so with batches of one nothing else (C244_own_partial). False: with larger batches the notifications of other calls that returned Ok before are lost with it (C244_others_refuted); an add of the debouncer that is given up between its locks leaves a notification that is never sent until the key is added again or flushed (C244_debounce_refuted), or a timer that later adds do not stop and that sends too early (C244_early_refuted). |

### ReconDrop

Method: invariants by induction over histories: who tries, and what the manager believes.

| id | property | status | proved, and what is false of the code |
|---|---|---|---|
| C243 | Reconnecting can be shared and given up | partial | A call on its own is the one of C83 (C243_same). If each call goes on from its check to connect at once, and no loss of a connection is reported meanwhile, at most one connects at a time (C243_one_partial); a call given up while it sleeps leaves the way free (C243_asleep_partial); reporting a lost connection always does (C243_recovers). False: two calls that check before either goes on both connect (C243_two_refuted); and once a call was given up while its connect was running the manager believes for ever that one is: there is never another attempt and every call fails, also after reset or set_enabled (C243_stuck_refuted). |

### Query

Method: induction over histories of the Server and Dyn areas.

| id | property | status | proved, and what is false of the code |
|---|---|---|---|
| C223 | What a server says about itself | partial | True: C223_registered, C223_called, C223_initialized, C223_agree, C223_stays. False: C223_handshake_refuted - is_initialized is true as soon as an initialize request was handled, even if the answer could not be sent; the documentation says it means a completed handshake. |
| C224 | Reloading a built configuration | partial | True: C224_reloaded, C224_order, C224_told. False: C224_silent_refuted - a reload clears the registries without telling anyone, so listeners never hear of tools and prompts it takes away. |

### Caps

Method: case analysis over presets and methods; the session theorems of the Stack area.

| id | property | status | proved, and what is false of the code |
|---|---|---|---|
| C212 | Capability presets and queries decide what a client may call | proved | The queries are tied to what happens in a whole session over stdio (composition of client, transport and server). create_message, set_logging_level and complete have no query and are covered by C42 and C92. |

### Creds

Method: serde round trip with a flattened map; last insertion wins.

| id | property | status | proved, and what is false of the code |
|---|---|---|---|
| C213 | Authentication information survives JSON | partial | C213_survives_partial is an equivalence: the round trip through serde_json::Value holds exactly if no parameter is named scheme, token or oauth. Otherwise the parameter replaces the field (C213_replaced_refuted): another token is sent in the header (C213_header_refuted), credentials cease to be required (C213_required_refuted). |

### Stream

Method: reduction to the round trip of C18 with any last event id.

| id | property | status | proved, and what is false of the code |
|---|---|---|---|
| C214 | A reset parser starts over | partial | Proved for every history and every later text: C214_restart (what arrives after a reset), C214_forgets and C214_fresh (any text, also malformed), C214_keeps. Refuted: the last event id is that of the last id line, even if its event was never finished (C214_unfinished_refuted), so resuming after it skips that event. |
| C215 | A built event stream carries what was put in | partial | Proved for events that can be written (C215_arrives_partial) and, up to line feeds at the ends of the data, for all data without carriage returns (C215_seen_partial); see C18 for what cannot be written. Refuted: comments are never written (C215_comment_refuted, C215_silent_refuted). |

### Errors

Method: case analysis; C197 for what a caller gets; number parsing for reading the code from the text.

| id | property | status | proved, and what is false of the code |
|---|---|---|---|
| C216 | A caller can tell errors apart | partial | Proved within a program (C216_made, C216_standard, C216_others). Between server and client refuted for every session and every handler error: the code is always -32603 and the data is dropped (C216_call_refuted); only the text arrives, from which code and message of a protocol error can be told (C216_text_partial, C216_told_partial). Error::cancelled makes a validation error (C216_cancelled_refuted). |

### Builtin

Method: induction over the chain.

| id | property | status | proved, and what is false of the code |
|---|---|---|---|
| C217 | The library's middlewares do their work and nothing else | partial | Proved for every chain: transparency for the user's own middlewares and for all four hooks (C217_transparent), tokens never reach the log (C217_tokens), contents do not except at level TRACE (C217_contents_partial); each line is at the level that was chosen and names its message (C217_logged). Refuted: no chain of them ever changes or repeats a request (C217_nothing_refuted); at TRACE the whole request is logged (C217_trace_refuted). |

### Shared

Method: invariant over the schedule relating the shared state to the sections run; the batch theorems (C03, C05) underneath.

| id | property | status | proved, and what is false of the code |
|---|---|---|---|
| C218 | Handlers of a batch share their state safely | partial | Proved for every schedule: the state and the replies are those of the sections one by one, in the order in which they ran (C218_one_by_one, C218_replies), and without timeouts all sections run exactly once (C218_all_once). Refuted for timeouts (C218_timeout_refuted): the handler may have run in part or in full, its changes stay. A section is one closure under the state's write lock; panicking handlers are not modelled. |

Nothing in the list is considered inexpressible.
