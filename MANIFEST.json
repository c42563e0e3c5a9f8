{
 "claims": [
  {
   "property": "C01",
   "status": "proved",
   "theorems": [
    "C01_response_matches_request",
    "C01_response_delivered",
    "C01_tasks_drain",
    "C01_pending_iff_waiting"
   ],
   "note": "All histories of calls and task schedules of one Protocol value; fate_of is the independent specification."
  },
  {
   "property": "C02",
   "status": "proved",
   "theorems": [
    "C02_wrong_transport_invisible",
    "C02_complete_for_transport",
    "C02_complete_request"
   ],
   "note": "Wrong-transport completions are erased from any history; unknown ids are no-ops."
  },
  {
   "property": "C03",
   "status": "proved",
   "theorems": [
    "C03_parallel_order",
    "C03_batch_count"
   ],
   "note": "Every complete schedule of starts, completions and timeouts, every order of collected results."
  },
  {
   "property": "C04",
   "status": "partial",
   "theorems": [
    "C04_ids_match_partial",
    "C04_timeout_id_refuted"
   ],
   "note": "Holds while no per-request timeout fires; refuted otherwise: whenever a request of an executed batch times out, its response carries the id \"null\" instead of the request's, for every batch and schedule."
  },
  {
   "property": "C05",
   "status": "proved",
   "theorems": [
    "C05_concurrency_bounded",
    "C05_progress",
    "C05_terminates",
    "C05_zero_limit_stuck"
   ],
   "note": "Bound, progress for positive limits, exact termination; limit 0 is stuck."
  },
  {
   "property": "C06",
   "status": "partial",
   "theorems": [
    "C06_shape_partial",
    "C06_single_shape",
    "C06_array_of_one_refuted"
   ],
   "note": "Holds for arrays of length other than one; an array of one request is answered by a bare object (refuted)."
  },
  {
   "property": "C07",
   "status": "proved",
   "theorems": [
    "C07_newest_suffix",
    "C07_bounded",
    "C07_retained_iff",
    "C07_clear_count"
   ],
   "note": "Push and cleanup are separate atomic steps; survives is the independent fate specification; the iff needs non-decreasing timestamps and distinct ids."
  },
  {
   "property": "C08",
   "status": "proved",
   "theorems": [
    "C08_resume_after_known"
   ],
   "note": "End-to-end over histories."
  },
  {
   "property": "C09",
   "status": "proved",
   "theorems": [
    "C09_resume_no_replay",
    "C09_resume_complete"
   ],
   "note": "Only events stored after token creation are returned, retained or not."
  },
  {
   "property": "C10",
   "status": "partial",
   "theorems": [
    "C10_consecutive_partial",
    "C10_distinct_partial",
    "C10_recorded",
    "C10_resume_reuses_refuted",
    "C10_store_order_refuted"
   ],
   "note": "Consecutive without resume for every interleaving; resume_from_token reuses numbers (after any history, resuming from a live token makes the next record repeat a number already given) and concurrent records may be stored out of order (both refuted for every history of that shape). Distinct numbers for every history without resume (C10_distinct_partial); what is stored is what was recorded (C10_recorded)."
  },
  {
   "property": "C11",
   "status": "partial",
   "theorems": [
    "C11_limit_partial",
    "C11_create_exact",
    "C11_concurrent_create_refuted"
   ],
   "note": "Proved bound max_sessions + C - 1 for at most C overlapping calls (exact for C = 1); the limit itself is refuted: from any state with n sessions below the limit, k overlapping creates that all checked first end with n + k sessions, whatever max_sessions is."
  },
  {
   "property": "C12",
   "status": "partial",
   "theorems": [
    "C12_destroyed_stays_partial",
    "C12_resurrected_refuted"
   ],
   "note": "Proved when no lookup overlaps the destruction; refuted otherwise: after any history, a lookup that read the session before its destruction and writes after it brings the session back."
  },
  {
   "property": "C13",
   "status": "partial",
   "theorems": [
    "C13_validate_not_expired",
    "C13_validate_exact",
    "C13_cleanup_exact",
    "C13_middleware_accepts_expired_refuted"
   ],
   "note": "validate_session and cleanup_expired proved; get_session/SessionMiddleware accept expired sessions (refuted)."
  },
  {
   "property": "C14",
   "status": "proved",
   "theorems": [
    "C14_isolation",
    "C14_update_exact",
    "C14_authenticate_exact"
   ],
   "note": "Every atomic step of every call."
  },
  {
   "property": "C15",
   "status": "proved",
   "theorems": [
    "C15_safe_expansion",
    "C15_encode_decode",
    "C15_no_delimiter"
   ],
   "note": "Every operator that escapes, every value of Unicode scalars; the reserved operator is outside the statement."
  },
  {
   "property": "C16",
   "status": "partial",
   "theorems": [
    "C16_match_recovers_partial",
    "C16_whole_uri_partial",
    "C16_encoded_refuted",
    "C16_several_refuted",
    "C16_misassigned_refuted",
    "C16_adjacent_refuted"
   ],
   "note": "Proved for unambiguous templates whose values need no escaping; refuted generally: values come back percent-encoded, expressions with several variables are dropped or shift captures to later variables, adjacent variables are cut wrongly. Rust's regex is modelled as greedy leftmost-first matching of literals and classes."
  },
  {
   "property": "C17",
   "status": "proved",
   "theorems": [
    "C17_literals",
    "C17_no_hidden_expression",
    "C17_undefined",
    "C17_only_variables",
    "C17_last_pair"
   ],
   "note": "Texts, literals and expansions related piece by piece."
  },
  {
   "property": "C18",
   "status": "partial",
   "theorems": [
    "C18_round_trip_partial",
    "C18_round_trip_one_partial",
    "C18_seen_partial",
    "C18_ends_refuted",
    "C18_trailing_newline_refuted",
    "C18_leading_newline_refuted",
    "C18_crlf_data_refuted",
    "C18_injection_refuted"
   ],
   "note": "Proved for every sequence of writable events and every chunking; for any data free of carriage returns C18_seen_partial says exactly what arrives, and C18_ends_refuted that data starting or ending with a line feed never arrives unchanged. Refuted also for CRLF data and line feeds in the id (event injection)."
  },
  {
   "property": "C19",
   "status": "partial",
   "theorems": [
    "C19_chunking_partial",
    "C19_lines_partial",
    "C19_plain_lines",
    "C19_buffer_has_no_line",
    "C19_chunking_refuted",
    "C19_crlf_refuted"
   ],
   "note": "Proved for every text whose lines are each ASCII or undisturbed by a misplaced carriage return (C19_lines_partial; ASCII or carriage-return-free text is such text), from every parser state; refuted otherwise (byte/char offset mix in feed): no CRLF-ended line beyond ASCII fed by itself loses its carriage return (C19_crlf_refuted)."
  },
  {
   "property": "C20",
   "status": "partial",
   "theorems": [
    "C20_no_panic_partial",
    "C20_panics",
    "C20_panic_refuted"
   ],
   "note": "The exact condition of a panic is proved (C20_panics, an equivalence); ASCII or carriage-return-free text never meets it, \\u00e9\\u00e9 LF CR does."
  },
  {
   "property": "C21",
   "status": "partial",
   "theorems": [
    "C21_distinct_partial",
    "C21_survives",
    "C21_saturates_refuted",
    "C21_display_refuted"
   ],
   "note": "Distinctness proved for i64, strings and u64 below 2^63, and ids survive JSON; u64 conversions saturate at i64::MAX (refuted above it) and the Display form does not separate numbers from strings (refuted)."
  },
  {
   "property": "C22",
   "status": "partial",
   "theorems": [
    "C22_roundtrip_partial",
    "C22_server_codes_refuted",
    "C22_other_kinds_refuted"
   ],
   "note": "Exact characterisation (iff) of the codes that survive; refuted for the unnamed server codes -32099..-32000 that the i32 conversion does not keep and for error kinds other than Protocol."
  },
  {
   "property": "C23",
   "status": "partial",
   "theorems": [
    "C23_guarded_partial",
    "C23_invoked_refuted",
    "C23_success_refuted"
   ],
   "note": "Refuted: execute_with_recovery invokes the operation before it asks the breaker, so an open breaker never prevents a call, and a success through an open breaker closes it. Proved: no second invocation while it is open."
  },
  {
   "property": "C24",
   "status": "partial",
   "theorems": [
    "C24_closed_partial",
    "C24_opens_partial",
    "C24_open_partial",
    "C24_trial_partial",
    "C24_late_success_refuted",
    "C24_race_refuted"
   ],
   "note": "Contract proved for all sequential histories except a success reported while open, which closes the breaker (refuted); overlapping calls act on a stale state (refuted by a trial success overlapping a trial failure)."
  },
  {
   "property": "C25",
   "status": "partial",
   "theorems": [
    "C25_fixed",
    "C25_exponential_partial",
    "C25_first_wait_refuted",
    "C25_negative_refuted",
    "C25_with_retry"
   ],
   "note": "Bounds, stop at first success, returned value and waits proved; the first wait is not capped by max_delay and a negative multiplier panics (refuted). f64 multiplication is an arbitrary function to nanoseconds."
  },
  {
   "property": "C26",
   "status": "partial",
   "theorems": [
    "C26_request_partial",
    "C26_only",
    "C26_methods_distinct",
    "C26_elicit_refuted",
    "C26_sampling_refuted",
    "C26_notification_partial"
   ],
   "note": "Proved for every well-typed request that is only client-side or only server-side and for all notifications; refuted for elicitation (unparsable) and server-sent sampling (parsed as the client request)."
  },
  {
   "property": "C27",
   "status": "partial",
   "theorems": [
    "C27_batches_partial",
    "C27_complete_partial",
    "C27_timer_partial",
    "C27_order_partial",
    "C27_order_refuted"
   ],
   "note": "Order to the receiver holds when no batch is formed while another waits for channel room (C27_order_partial); otherwise two waiting senders can overtake each other (C27_order_refuted). Nothing is lost or duplicated under any schedule."
  },
  {
   "property": "C28",
   "status": "partial",
   "theorems": [
    "C28_latest_partial",
    "C28_delivered_partial",
    "C28_once_partial",
    "C28_flush_partial",
    "C28_keys_partial",
    "C28_blocked_refuted",
    "C28_overlap_refuted"
   ],
   "note": "Proved for calls that do not overlap and a receiver that keeps up. A notification held by a timer waiting for channel room is destroyed by the next flush or add (C28_blocked_refuted); two overlapping adds of one key deliver before the quiet period (C28_overlap_refuted)."
  },
  {
   "property": "C29",
   "status": "proved",
   "theorems": [
    "C29_token",
    "C29_exact",
    "C29_once",
    "C29_completes"
   ],
   "note": "At the granularity of locks: the removal of the token and its cancellation are separate steps, and any number of calls may be between them."
  },
  {
   "property": "C30",
   "status": "partial",
   "theorems": [
    "C30_token_partial",
    "C30_report_refuted",
    "C30_holder_partial"
   ],
   "note": "The token stays cancelled and its holder sees it; is_cancelled itself never reports a cancellation made through the manager (C30_report_refuted)."
  },
  {
   "property": "C31",
   "status": "proved",
   "theorems": [
    "C31_queries",
    "C31_notify",
    "C31_stats"
   ],
   "note": "The average in the statistics (a float quotient) is not modelled."
  },
  {
   "property": "C32",
   "status": "partial",
   "theorems": [
    "C32_register",
    "C32_uris_partial",
    "C32_distinct_partial",
    "C32_twin_refuted"
   ],
   "note": "Exact when standing registrations have distinct URIs; a URI registered twice makes an unregister function remove the other registration (C32_twin_refuted)."
  },
  {
   "property": "C33",
   "status": "proved",
   "theorems": [
    "C33_own",
    "C33_once",
    "C33_clean",
    "C33_refused",
    "C33_moves",
    "C33_ends",
    "C33_reached",
    "C33_exclusive",
    "C33_abandoned_leaks",
    "C33_reuse_interferes"
   ],
   "note": "Interleavings of all locked sections. Beyond the property: a caller that drops its future leaves its entry (C33_abandoned_leaks), and reusing an identifier lets an older call's timeout remove a newer entry (C33_reuse_interferes)."
  },
  {
   "property": "C34",
   "status": "partial",
   "theorems": [
    "C34_bounds_partial",
    "C34_plain_partial",
    "C34_overflow_partial",
    "C34_zero_refuted",
    "C34_panic_refuted"
   ],
   "note": "Bounds for every monotone rounding; exact arithmetic is one. Refuted: an initial delay of 0 becomes max_delay when the power overflows (C34_zero_refuted), and a max_delay of 2^64 seconds panics (C34_panic_refuted). The f64 rounding of the jitter band is explicit in the statement."
  },
  {
   "property": "C35",
   "status": "partial",
   "theorems": [
    "C35_off",
    "C35_limit_partial",
    "C35_breaker_partial",
    "C35_open_ignores_limit_refuted",
    "C35_disconnect_bypasses_refuted",
    "C35_reopens_at_once"
   ],
   "note": "Limit proved without a breaker; breaker refusals proved for checks until the timeout. Refuted: the check that closes the breaker ignores the limit (C35_open_ignores_limit_refuted), a disconnect notice bypasses the breaker (C35_disconnect_bypasses_refuted)."
  },
  {
   "property": "C36",
   "status": "proved",
   "theorems": [
    "C36_order",
    "C36_added",
    "C36_last"
   ],
   "note": "All four process functions; added middlewares run in the order added."
  },
  {
   "property": "C37",
   "status": "proved",
   "theorems": [
    "C37_frames",
    "C37_end_to_end"
   ],
   "note": "Framing proved for arbitrary payload bytes; end to end for every history of the sender, messages as in C78. The operating system's pipes are modelled as byte lists whose reads and writes do not fail."
  },
  {
   "property": "C38",
   "status": "partial",
   "theorems": [
    "C38_answers_partial",
    "C38_prefix",
    "C38_own",
    "C38_failure",
    "C38_panic_refuted"
   ],
   "note": "Holds while no handler panics: one panic ends the message task and nothing is answered any more (C38_panic_refuted)."
  },
  {
   "property": "C39",
   "status": "proved",
   "theorems": [
    "C39_routed",
    "C39_shape",
    "C39_tool"
   ],
   "note": "Every request kind; the shapes the destinations are read from are those of parsed requests (C39_shape)."
  },
  {
   "property": "C40",
   "status": "partial",
   "theorems": [
    "C40_ungated_refuted",
    "C40_reported_partial"
   ],
   "note": "Refuted: the server serves everything regardless (C40_ungated_refuted). Proved: what is_initialized and get_client_capabilities report."
  },
  {
   "property": "C41",
   "status": "partial",
   "theorems": [
    "C41_code_refuted",
    "C41_other_partial",
    "C41_message_partial"
   ],
   "note": "Refuted: always -32603 (C41_code_refuted). Errors without a code of their own are reported as by the error conversion; the message names the error."
  },
  {
   "property": "C42",
   "status": "proved",
   "theorems": [
    "C42_gated",
    "C42_one_handshake",
    "C42_refused",
    "C42_uninitialized"
   ],
   "note": "Requests only; notifications are C96. Ids are assumed fresh (UUIDs) in C42_one_handshake."
  },
  {
   "property": "C43",
   "status": "partial",
   "theorems": [
    "C43_sequential_partial",
    "C43_conserved",
    "C43_in_turn_partial",
    "C43_any_id_refuted",
    "C43_shift_refuted",
    "C43_swap_refuted"
   ],
   "note": "Proved when calls are made one at a time and the transport delivers exactly one response per request, or when calls and responses come in the same order. Refuted in general: the id is never compared (C43_any_id_refuted), one stray message shifts all later answers (C43_shift_refuted), concurrent calls can swap answers (C43_swap_refuted)."
  },
  {
   "property": "C44",
   "status": "partial",
   "theorems": [
    "C44_admitted",
    "C44_processed_partial",
    "C44_processed_now",
    "C44_race_refuted",
    "C44_issued",
    "C44_until_delete",
    "C44_deleted_partial",
    "C44_supplied_refuted",
    "C44_again"
   ],
   "note": "Admission, the id issued by initialize, liveness until DELETE and 404 after it are proved for all histories, with the waits at the MCP server's lock as separate steps.  False in part: a request waiting for the lock while its session is deleted is still processed (C44_race_refuted); initialize with a supplied id that is not live is answered with success and that id although no session exists (C44_supplied_refuted)."
  },
  {
   "property": "C45",
   "status": "partial",
   "theorems": [
    "C45_replay_partial",
    "C45_stored",
    "C45_cross_refuted",
    "C45_unknown_refuted",
    "C45_ids_refuted",
    "C45_duplicates_refuted"
   ],
   "note": "Proved: exactly the events after the id are replayed, in order.  False: events of all sessions are replayed (C45_cross_refuted); an unknown id – even without any session – replays everything ever stored (C45_unknown_refuted); the id sent with a POST's event is not the stored one (C45_ids_refuted); replayed events are stored again (C45_duplicates_refuted)."
  },
  {
   "property": "C46",
   "status": "partial",
   "theorems": [
    "C46_post_headers",
    "C46_get_headers",
    "C46_unsupported_partial",
    "C46_negotiated",
    "C46_substring_refuted",
    "C46_initialize_refuted"
   ],
   "note": "Header checks and version checks are proved for every state, the negotiated version for every later history until DELETE.  False in part: a media type only has to contain the right substring (C46_substring_refuted); the version sent with initialize is not checked (C46_initialize_refuted)."
  },
  {
   "property": "C47",
   "status": "proved",
   "theorems": [
    "C47_once",
    "C47_conditions"
   ],
   "note": "Over every interleaving of provider calls (each lock acquisition is a step), under the assumption that generated UUIDs are new: at most one exchange of a code succeeds, and its client id, redirect uri, PKCE verifier and time fit the code. SHA-256 is a parameter."
  },
  {
   "property": "C48",
   "status": "proved",
   "theorems": [
    "C48_revoked",
    "C48_refresh_revoked",
    "C48_expired"
   ],
   "note": "Calls that start after the revocation returned (or run after the expiry) fail, in every interleaving; also for revocation by the refresh token."
  },
  {
   "property": "C49",
   "status": "partial",
   "theorems": [
    "C49_sequential_partial",
    "C49_race_refuted"
   ],
   "note": "False under concurrency: C49_race_refuted shows that two interleaved refreshes with one token always can both succeed. Proved for a refresh that starts after another succeeded."
  },
  {
   "property": "C50",
   "status": "partial",
   "theorems": [
    "C50_progress_partial",
    "C50_deadlock_refuted"
   ],
   "note": "False: C50_deadlock_refuted shows that create_access_token (holds tokens, waits for refresh_tokens) and refresh_token (holds refresh_tokens, waits for tokens) can block each other for ever, from every idle state with a good refresh token. Proved without refresh_token and revoke_token calls."
  },
  {
   "property": "C51",
   "status": "proved",
   "theorems": [
    "C51_bearer",
    "C51_client",
    "C51_scope",
    "C51_composite",
    "C51_tree",
    "C51_scoped_tree"
   ],
   "note": "Exact characterisation of each middleware and, by induction, of every tree of them; the provider is arbitrary (its answers are assumed not to change during one authentication). Trees with foreign implementations of the trait are excluded where stated."
  },
  {
   "property": "C52",
   "status": "partial",
   "theorems": [
    "C52_exchange_partial",
    "C52_refresh_partial",
    "C52_client_scopes_refuted",
    "C52_accepted"
   ],
   "note": "Token contents follow the code or the old token (proved over every history). False for the client's registered scopes: C52_client_scopes_refuted."
  },
  {
   "property": "C53",
   "status": "proved",
   "theorems": [
    "C53_tools",
    "C53_prompts",
    "C53_has",
    "C53_remove",
    "C53_reload"
   ],
   "note": "By induction over every sequence of operations: the registry holds exactly what was added or loaded last and not removed since."
  },
  {
   "property": "C54",
   "status": "partial",
   "theorems": [
    "C54_one_partial",
    "C54_added",
    "C54_accumulated_refuted",
    "C54_removed_refuted"
   ],
   "note": "False for more than one operation: C54_accumulated_refuted and C54_removed_refuted show that an announcement describes the static capabilities and the last operation only. Proved: the announcement of one operation. Registry update and announcement are one step in the model."
  },
  {
   "property": "C55",
   "status": "partial",
   "theorems": [
    "C55_tick",
    "C55_only",
    "C55_once",
    "C55_reports_partial",
    "C55_overflow_refuted",
    "C55_overflow_reached",
    "C55_patterns"
   ],
   "note": "Proved for the event processor, for every history of events, ticks and changes of the tracked set (a tick is one step): C55_tick, C55_only, C55_once; and for the file system side while its channel of 1000 reports is not full. False beyond: C55_overflow_refuted."
  },
  {
   "property": "C56",
   "status": "partial",
   "theorems": [
    "C56_whitespace_partial",
    "C56_escapes_partial",
    "C56_whitespace_hangs_refuted",
    "C56_escapes_hangs_refuted",
    "C56_pattern",
    "C56_pattern_stops",
    "C56_pattern_hangs_refuted"
   ],
   "note": "False for inputs in which a block of 32 bytes ends in a byte that is looked for: the scanners then never return (C56_whitespace_hangs_refuted, C56_escapes_hangs_refuted, C56_pattern_hangs_refuted). Proved for all other inputs, that an answer of find_pattern_simd is always right, and exactly when there is one (C56_pattern_stops). Vector registers are lists of lanes."
  },
  {
   "property": "C57",
   "status": "partial",
   "theorems": [
    "C57_accepts_partial",
    "C57_short_partial",
    "C57_exact",
    "C57_overlong_refuted",
    "C57_high_refuted",
    "C57_continuations_refuted",
    "C57_crossing_refuted"
   ],
   "note": "False in both directions: C57_overlong_refuted, C57_high_refuted, C57_continuations_refuted (invalid input accepted) and C57_crossing_refuted (valid input rejected). Proved: the exact set accepted (C57_exact, an equivalence for inputs of every length), and acceptance of valid text in which no character crosses a block."
  },
  {
   "property": "C58",
   "status": "proved",
   "theorems": [
    "C58_base64",
    "C58_mask",
    "C58_mask_twice",
    "C58_rle",
    "C58_copy",
    "C58_copy_short",
    "C58_checksum"
   ],
   "note": "For every byte string. The decoders of base64 and run lengths are part of the specification."
  },
  {
   "property": "C59",
   "status": "partial",
   "theorems": [
    "C59_valid_partial",
    "C59_same_partial",
    "C59_whitespace",
    "C59_joined_refuted",
    "C59_hangs_refuted",
    "C59_crossing_refuted",
    "C59_batch"
   ],
   "note": "False: whitespace between two tokens is removed before parsing, so that '1 2' is the number 12 (C59_joined_refuted); parsing hangs when a block of 32 bytes ends in whitespace (C59_hangs_refuted) and rejects valid text with a character across byte 32 (C59_crossing_refuted). Proved: every text accepted by standard parsing is accepted with the same value outside these cases, and equality also for rejected texts with little whitespace. The target type is serde_json::Value."
  },
  {
   "property": "C60",
   "status": "partial",
   "theorems": [
    "C60_printed",
    "C60_ascii_partial",
    "C60_characters_refuted",
    "C60_hangs_refuted"
   ],
   "note": "False outside ASCII: bytes are pushed as characters (C60_characters_refuted), and printing hangs when a block of the compact text ends in a quote or backslash (C60_hangs_refuted). Proved: the exact text otherwise, and preservation for ASCII documents. The fallback printer of serde_json is not modelled."
  },
  {
   "property": "C61",
   "status": "partial",
   "theorems": [
    "C61_restored_partial",
    "C61_travel_partial",
    "C61_fields_partial",
    "C61_child",
    "C61_parent_refuted",
    "C61_trace_refuted",
    "C61_string_id_refuted",
    "C61_short_span_refuted"
   ],
   "note": "False for the span: only the first half of the sender's span is restored (C61_parent_refuted). False for trace ids that are not UUID texts (C61_trace_refuted), string request ids (C61_string_id_refuted) and short spans, which panic (C61_short_span_refuted). Proved: trace, request, user, session and baggage survive any number of nested operations and requests for contexts as the library makes them with numeric ids; user, session, baggage and the digits of the trace for every other."
  },
  {
   "property": "C62",
   "status": "partial",
   "theorems": [
    "C62_rate_limit_refuted"
   ],
   "note": "Refuted: n permits held for 1/n s each let n*n requests through per second."
  },
  {
   "property": "C63",
   "status": "partial",
   "theorems": [
    "C63_fail_fast_refuted"
   ],
   "note": "Refuted: fail_fast changes no run: every run is the same with and without it, no batch returns before all its requests were started, and a request may be started right after another failed."
  },
  {
   "property": "C64",
   "status": "partial",
   "theorems": [
    "C64_metrics_counts",
    "C64_metrics_classes",
    "C64_average_partial",
    "C64_average_nan_refuted"
   ],
   "note": "Counters and maximum proved; average proved when the first batch is non-empty, NaN otherwise (refuted)."
  },
  {
   "property": "C65",
   "status": "partial",
   "theorems": [
    "C65_session_isolation_refuted"
   ],
   "note": "Refuted for every store: a resumption token taken at one session's event replays the later events of the other sessions as well."
  },
  {
   "property": "C66",
   "status": "partial",
   "theorems": [
    "C66_token_never_expires_refuted"
   ],
   "note": "Refuted: proved that a token is accepted at every later time."
  },
  {
   "property": "C67",
   "status": "partial",
   "theorems": [
    "C67_silent_gap_refuted"
   ],
   "note": "Refuted for every history that discarded events: the resumption succeeds and silently skips them."
  },
  {
   "property": "C68",
   "status": "partial",
   "theorems": [
    "C68_lifetime_fixed_refuted"
   ],
   "note": "Refuted: expiry is fixed at creation over every history."
  },
  {
   "property": "C69",
   "status": "partial",
   "theorems": [
    "C69_lost_update_refuted"
   ],
   "note": "Refuted after every history: a lookup that read the session before an authenticate and writes back after it undoes the authenticate."
  },
  {
   "property": "C70",
   "status": "partial",
   "theorems": [
    "C70_cookie",
    "C70_every_header",
    "C70_no_cookie",
    "C70_configured_name_refuted"
   ],
   "note": "Proved for the fixed name mcp-session-id; the configured cookie_name is ignored (refuted)."
  },
  {
   "property": "C71",
   "status": "partial",
   "theorems": [
    "C71_field_lines",
    "C71_other_lines",
    "C71_lines_partial",
    "C71_crlf_refuted"
   ],
   "note": "Interpretation of every line proved; that lines reach it unchanged is proved for texts as in C19_lines_partial (see C19/C20). C71_crlf_refuted shows a line ending for which it fails."
  },
  {
   "property": "C72",
   "status": "partial",
   "theorems": [
    "C72_rfc6570_partial",
    "C72_reserved_refuted",
    "C72_fragment_refuted",
    "C72_param_refuted"
   ],
   "note": "Proved where the code follows the RFC; general refutations for {+x} with a space, {#x} with reserved characters and {;x} with an empty value."
  },
  {
   "property": "C73",
   "status": "partial",
   "theorems": [
    "C73_accepted_good",
    "C73_parse_print",
    "C73_blanks",
    "C73_unbalanced_refuted"
   ],
   "note": "Accepted implies well-formed and print/parse round trip proved; unbalanced or empty braces are accepted as literals (refuted)."
  },
  {
   "property": "C74",
   "status": "partial",
   "theorems": [
    "C74_request_partial",
    "C74_notification_partial",
    "C74_response_partial",
    "C74_null_refuted"
   ],
   "note": "Proved for all envelopes except params null, result null (refuted: null members read back as absent). serde_json is modelled in JsonLib/SerdeLib."
  },
  {
   "property": "C75",
   "status": "partial",
   "theorems": [
    "C75_classify_partial",
    "C75_null_result_refuted"
   ],
   "note": "Proved for all envelopes with non-null result; a success response whose result is null is classified invalid (refuted)."
  },
  {
   "property": "C76",
   "status": "partial",
   "theorems": [
    "C76_roundtrip_partial",
    "C76_sound",
    "C76_fields",
    "C76_null_option_refuted",
    "C76_flags",
    "C76_context",
    "C76_numbers"
   ],
   "note": "Proved for all protocol types; an Option field holding Some(null) reads back as None (refuted, excluded by is_of). Serde's derive macros are modelled by the schema interpreter SerdeLib.decode."
  },
  {
   "property": "C77",
   "status": "partial",
   "theorems": [
    "C77_list_params_partial",
    "C77_omitted_refuted",
    "C77_ping_refuted"
   ],
   "note": "List requests accept any or no cursor inside a params object; refuted: omitting params is an error for every request with parameters and ping rejects params."
  },
  {
   "property": "C78",
   "status": "partial",
   "theorems": [
    "C78_message_partial",
    "C78_elicitation_refuted"
   ],
   "note": "Proved for every well-typed message except elicitation requests (refuted: they read back as an error)."
  },
  {
   "property": "C79",
   "status": "partial",
   "theorems": [
    "C79_validate_partial",
    "C79_unchecked_refuted"
   ],
   "note": "validate is exact, but no parsing path calls it: parse_request, parse_notification and the stdio parser ignore the version (refuted)."
  },
  {
   "property": "C80",
   "status": "proved",
   "theorems": [
    "C80_closed",
    "C80_only"
   ],
   "note": "Sequential histories (send and receive take &mut self)."
  },
  {
   "property": "C81",
   "status": "partial",
   "theorems": [
    "C81_cause_partial",
    "C81_no_panic_refuted"
   ],
   "note": "Every panic is traced to a header line announcing more than isize::MAX bytes, and every such line causes it (refuted). Memory exhaustion below that is not modelled."
  },
  {
   "property": "C82",
   "status": "proved",
   "theorems": [
    "C82_lookup",
    "C82_applied",
    "C82_default"
   ],
   "note": "Policies built by any sequence of add_strategy."
  },
  {
   "property": "C83",
   "status": "proved",
   "theorems": [
    "C83_bounded",
    "C83_open_start",
    "C83_unlimited"
   ],
   "note": "Sleeps are recorded by the retry count their length is calculated from."
  },
  {
   "property": "C84",
   "status": "proved",
   "theorems": [
    "C84_tools",
    "C84_prompts",
    "C84_typed"
   ],
   "note": "A hash map's iteration order is left open: a permutation of the registered names."
  },
  {
   "property": "C85",
   "status": "partial",
   "theorems": [
    "C85_silent_refuted",
    "C85_sampling_partial",
    "C85_overwritten_refuted"
   ],
   "note": "Refuted for tools, prompts and resources (C85_silent_refuted) and for sampling set before capabilities (C85_overwritten_refuted)."
  },
  {
   "property": "C86",
   "status": "partial",
   "theorems": [
    "C86_unreachable_refuted",
    "C86_ignored_refuted"
   ],
   "note": "Refuted: no token is ever registered, so cancel_request does nothing (C86_unreachable_refuted) and client notifications are ignored (C86_ignored_refuted). No positive part."
  },
  {
   "property": "C87",
   "status": "partial",
   "theorems": [
    "C87_requests_refuted",
    "C87_api_partial"
   ],
   "note": "Refuted: resources/subscribe registers nothing (C87_requests_refuted). Subscriptions made through the API are those of C31's manager."
  },
  {
   "property": "C88",
   "status": "partial",
   "theorems": [
    "C88_order_partial",
    "C88_next_partial",
    "C88_blocked_refuted"
   ],
   "note": "Order and at-most-once proved for all interleavings with a fair lock; refuted: while waiting for a message the server holds the transport, so nothing goes out until the client sends something (C88_blocked_refuted). Beyond 100 waiting notifications new ones are dropped."
  },
  {
   "property": "C89",
   "status": "partial",
   "theorems": [
    "C89_fixed_refuted",
    "C89_info_partial"
   ],
   "note": "Refuted: always 2024-11-05 (C89_fixed_refuted)."
  },
  {
   "property": "C90",
   "status": "proved",
   "theorems": [
    "C90_build",
    "C90_last"
   ],
   "note": "Induction over the builder calls."
  },
  {
   "property": "C91",
   "status": "partial",
   "theorems": [
    "C91_ids",
    "C91_unknown_refuted",
    "C91_same"
   ],
   "note": "Refuted: unknown methods get -32700 (C91_unknown_refuted). Order of the responses is C03."
  },
  {
   "property": "C92",
   "status": "partial",
   "theorems": [
    "C92_reachable_partial",
    "C92_sampling_refuted"
   ],
   "note": "Refuted for sampling: create_message is always refused (C92_sampling_refuted)."
  },
  {
   "property": "C93",
   "status": "partial",
   "theorems": [
    "C93_success",
    "C93_once",
    "C93_failure_partial",
    "C93_half_refuted"
   ],
   "note": "Refuted when the initialized notification cannot be sent: initialize fails but the client is initialized and never announces it (C93_half_refuted)."
  },
  {
   "property": "C94",
   "status": "partial",
   "theorems": [
    "C94_clean_partial",
    "C94_leak_refuted"
   ],
   "note": "Proved while every request is sent and something is received; refuted for failed sends (C94_leak_refuted)."
  },
  {
   "property": "C95",
   "status": "partial",
   "theorems": [
    "C95_understood_partial",
    "C95_handshake",
    "C95_complete_refuted"
   ],
   "note": "Proved for every method but complete; refuted for completion/complete (C95_complete_refuted). typed: handlers return values of their Rust result types."
  },
  {
   "property": "C96",
   "status": "partial",
   "theorems": [
    "C96_roots_partial",
    "C96_declared_partial",
    "C96_undeclared_refuted",
    "C96_early_refuted"
   ],
   "note": "Refuted: undeclared roots (C96_undeclared_refuted), progress and cancel before the handshake (C96_early_refuted). Clients that declared the capability: C96_declared_partial."
  },
  {
   "property": "C97",
   "status": "partial",
   "theorems": [
    "C97_opened_partial",
    "C97_get_refuted"
   ],
   "note": "False: a GET without session opens a session in which every request is processed (C97_get_refuted).  Proved: a POST opens a session only for initialize."
  },
  {
   "property": "C98",
   "status": "partial",
   "theorems": [
    "C98_one_partial",
    "C98_two_refuted",
    "C98_reconnect_refuted"
   ],
   "note": "Proved: while a stream is registered another GET is refused.  False: two concurrent GETs both get one (C98_two_refuted), and after a disconnect the session never gets another (C98_reconnect_refuted)."
  },
  {
   "property": "C99",
   "status": "partial",
   "theorems": [
    "C99_answered_partial",
    "C99_lost_refuted"
   ],
   "note": "Proved: the answer is in the POST's response or waits in the registered stream if it is still read.  False: when that stream's client has gone away the answer is lost (C99_lost_refuted)."
  },
  {
   "property": "C100",
   "status": "partial",
   "theorems": [
    "C100_isolation_partial",
    "C100_replay_refuted"
   ],
   "note": "Proved for all interleavings of histories without replay; with Last-Event-ID it is false (C100_replay_refuted, see also C45_cross_refuted)."
  },
  {
   "property": "C101",
   "status": "partial",
   "theorems": [
    "C101_responses_partial",
    "C101_notifications_partial",
    "C101_wrapped_partial",
    "C101_request_refuted"
   ],
   "note": "Proved for responses, client notifications and requests in the library's own {id, request} wrapping.  False for requests: no JSON-RPC request is understood (C101_request_refuted).  Reading the derived untagged enum from objects is modelled by hand."
  },
  {
   "property": "C102",
   "status": "partial",
   "theorems": [
    "C102_secret_refuted",
    "C102_client_id_partial"
   ],
   "note": "False: C102_secret_refuted shows that no result depends on the secrets. Proved: the client id must be that of the code."
  },
  {
   "property": "C103",
   "status": "partial",
   "theorems": [
    "C103_others_partial",
    "C103_generated_partial",
    "C103_takeover_refuted"
   ],
   "note": "False for ids in use: C103_takeover_refuted. Proved for generated ids and for all other clients."
  },
  {
   "property": "C104",
   "status": "partial",
   "theorems": [
    "C104_single_partial",
    "C104_scope_partial",
    "C104_composite_refuted",
    "C104_empty_refuted",
    "C104_scope_refuted"
   ],
   "note": "False for composites and scopes: C104_composite_refuted, C104_empty_refuted, C104_scope_refuted. Proved for single middlewares, and one direction for scopes."
  },
  {
   "property": "C105",
   "status": "partial",
   "theorems": [
    "C105_reload_partial",
    "C105_during_partial",
    "C105_mixed_refuted",
    "C105_gap_refuted",
    "C105_handlers_refuted"
   ],
   "note": "Proved for a reload nobody interferes with: exactly the new tools and prompts (and the server's own) are there afterwards, the handlers given are set (C105_reload_partial), and while it goes on a reader of the tools or of the prompts sees only new ones (C105_during_partial). Refuted: a reader finds tools missing that are in both configurations (C105_gap_refuted), handlers the new configuration lacks stay (C105_handlers_refuted), two reloads at once leave the tools of both (C105_mixed_refuted)."
  },
  {
   "property": "C106",
   "status": "partial",
   "theorems": [
    "C106_call_refuted",
    "C106_static_partial"
   ],
   "note": "False: C106_call_refuted shows that the server never consults the dynamic registry. Proved: the manager goes on knowing the tools the server was built with."
  },
  {
   "property": "C107",
   "status": "partial",
   "theorems": [
    "C107_add_partial",
    "C107_limit",
    "C107_full_refuted",
    "C107_remove"
   ],
   "note": "False at the limit: C107_full_refuted (Ok, nothing tracked, also for updates of tracked resources). Proved below it, and that the limit holds."
  },
  {
   "property": "C108",
   "status": "partial",
   "theorems": [
    "C108_merged_partial",
    "C108_lost_refuted",
    "C108_flush_refuted",
    "C108_flush"
   ],
   "note": "False past max_batch_size (C108_lost_refuted) and for flush, which leaves everything pending (C108_flush_refuted). Proved within these limits, for every history. The Debug output of tokens is a parameter."
  },
  {
   "property": "C109",
   "status": "proved",
   "theorems": [
    "C109_quiet",
    "C109_max",
    "C109_sent"
   ],
   "note": "C109_quiet and C109_max hold without restriction: after any tick, whatever still waits began waiting less than max_wait_time before that tick. C109_sent shows in addition, with merging, room in the queue, no flush and a clock that does not run backwards, that what was submitted has been sent by then (without room it can be dropped instead)."
  },
  {
   "property": "C110",
   "status": "partial",
   "theorems": [
    "C110_latest_partial",
    "C110_kinds",
    "C110_other",
    "C110_unknown_refuted"
   ],
   "note": "Proved per key, but log messages and root changes share one key: C110_unknown_refuted."
  },
  {
   "property": "C111",
   "status": "partial",
   "theorems": [
    "C111_interval_partial",
    "C111_default_refuted",
    "C111_progress_refuted"
   ],
   "note": "False for the documented types: no interval of the default configuration is ever used (C111_default_refuted, C111_progress_refuted). Proved for keys that are matched exactly."
  },
  {
   "property": "C112",
   "status": "partial",
   "theorems": [
    "C112_once",
    "C112_batch",
    "C112_timer",
    "C112_order_partial",
    "C112_order_refuted"
   ],
   "note": "All but the order proved for every interleaving. The order is false in general (C112_order_refuted) and proved when full batches are sent at once."
  },
  {
   "property": "C113",
   "status": "partial",
   "theorems": [
    "C113_lengths_partial",
    "C113_size",
    "C113_equal_refuted",
    "C113_large_refuted"
   ],
   "note": "False in full blocks of eight: C113_equal_refuted, C113_large_refuted. Proved for lengths and limits below 2^31 that differ, and for the last block."
  },
  {
   "property": "C114",
   "status": "partial",
   "theorems": [
    "C114_bytes",
    "C114_written_partial",
    "C114_crossing_refuted"
   ],
   "note": "False when a character lies across a block of 32 bytes: C114_crossing_refuted. Proved otherwise, and that no other bytes are ever returned."
  },
  {
   "property": "C115",
   "status": "partial",
   "theorems": [
    "C115_json",
    "C115_stream_partial",
    "C115_received",
    "C115_conserved",
    "C115_once",
    "C115_array_refuted",
    "C115_restart_refuted"
   ],
   "note": "JSON replies, ended event streams, conservation, FIFO and at-most-once effect proved for every interleaving. Refuted: an array with one entry that is not a message loses all of it (C115_array_refuted); starting a stream aborts the one being read and loses what it carried (C115_restart_refuted). A stream is only read when it ends (see C119)."
  },
  {
   "property": "C116",
   "status": "partial",
   "theorems": [
    "C116_carried_partial",
    "C116_closed",
    "C116_extra_refuted",
    "C116_dead_refuted",
    "C116_again_refuted"
   ],
   "note": "Every request carries the latest session id and version, for configurations whose extra headers do not use the transport's own names; closing deletes the session. Refuted: an extra header of the same name hides the session id (C116_extra_refuted); after a 404 the dead session id is kept (C116_dead_refuted) and initializing again with the library's server does not revive it (C116_again_refuted)."
  },
  {
   "property": "C117",
   "status": "partial",
   "theorems": [
    "C117_reported",
    "C117_last",
    "C117_resumed_partial",
    "C117_unsent_refuted",
    "C117_broken_refuted",
    "C117_forgotten_refuted"
   ],
   "note": "Reporting, last_event_id and the Last-Event-ID header proved. Refuted: a message sent with a resumption token is never posted although the call succeeds (C117_unsent_refuted); a stream whose connection breaks leaves no id (C117_broken_refuted); a stream started without a token ignores the remembered id (C117_forgotten_refuted)."
  },
  {
   "property": "C118",
   "status": "partial",
   "theorems": [
    "C118_asked_partial",
    "C118_failed",
    "C118_no_token",
    "C118_never_refuted"
   ],
   "note": "Streams asked for explicitly are opened, 405 tolerated. Refuted: 202 is a success status, so the branch that would open the stream is never taken and no history of sends makes a GET (C118_never_refuted)."
  },
  {
   "property": "C119",
   "status": "partial",
   "theorems": [
    "C119_initialized",
    "C119_answered_partial",
    "C119_stream_refuted"
   ],
   "note": "Proved for initialization and for every request in a live session without an open stream, in JSON and event mode, through the text on the wire. Refuted: once the session has an event stream the answer goes there and the client receives nothing until the stream ends (C119_stream_refuted)."
  },
  {
   "property": "C120",
   "status": "partial",
   "theorems": [
    "C120_received",
    "C120_end",
    "C120_gone",
    "C120_reads",
    "C120_replaced_refuted"
   ],
   "note": "Conservation, order and the final error proved for every history; false for a connection that is replaced: accept and close throw away what was received and not yet returned (C120_replaced_refuted)."
  },
  {
   "property": "C121",
   "status": "partial",
   "theorems": [
    "C121_order",
    "C121_send",
    "C121_written",
    "C121_ended",
    "C121_finishes",
    "C121_lost_refuted"
   ],
   "note": "Order, at most once, isolation and the exact conditions of refusal proved. False: send succeeds when the message is queued; if the socket then fails it is never written (C121_lost_refuted). The configured size limits are not used by the code."
  },
  {
   "property": "C122",
   "status": "proved",
   "theorems": [
    "C122_pongs",
    "C122_next"
   ],
   "note": "For every history; the pong channel's capacity only delays."
  },
  {
   "property": "C123",
   "status": "partial",
   "theorems": [
    "C123_api_partial",
    "C123_peer_refuted"
   ],
   "note": "Proved: true exactly between a successful accept and close. False: a peer that has gone makes no difference (C123_peer_refuted)."
  },
  {
   "property": "C124",
   "status": "partial",
   "theorems": [
    "C124_attempts",
    "C124_ends",
    "C124_capped_partial",
    "C124_first_refuted",
    "C124_panic_refuted"
   ],
   "note": "Attempts and waits exactly as specified; false for the first wait, which may exceed the maximum (C124_first_refuted), and for delays that cannot be doubled, which panic (C124_panic_refuted). The attempt counter is unbounded in the model; auto_reconnect is not used by the code."
  },
  {
   "property": "C125",
   "status": "partial",
   "theorems": [
    "C125_silent_refuted",
    "C125_refused_partial"
   ],
   "note": "False: nothing but pings is ever written (C125_silent_refuted). Proved: send fails when not connected."
  },
  {
   "property": "C126",
   "status": "proved",
   "theorems": [
    "C126_received",
    "C126_next",
    "C126_reads"
   ],
   "note": "For every interleaving of readers, calls and reconnections."
  },
  {
   "property": "C127",
   "status": "partial",
   "theorems": [
    "C127_end_refuted",
    "C127_close_refuted",
    "C127_state_partial"
   ],
   "note": "False: receive never fails, the transport stays connected after the peer has gone (C127_end_refuted), and close leaves the connection open and read (C127_close_refuted). Proved: is_connected follows the calls."
  },
  {
   "property": "C128",
   "status": "partial",
   "theorems": [
    "C128_to_client",
    "C128_to_server_refuted"
   ],
   "note": "Server to client proved, through the text on the wire, for messages as in C78. False from client to server (C128_to_server_refuted)."
  },
  {
   "property": "C129",
   "status": "partial",
   "theorems": [
    "C129_conserved",
    "C129_stream_partial",
    "C129_mended",
    "C129_cut_refuted"
   ],
   "note": "Conservation and order proved for every history (C129_conserved). Unchanged: proved when no character is cut by the end of a chunk (C129_stream_partial), for messages as in C78 and events as in C18; missing and false otherwise: C129_cut_refuted, each chunk is decoded by itself, so a cut character becomes replacement characters. C129_mended says exactly what text any bytes become."
  },
  {
   "property": "C130",
   "status": "partial",
   "theorems": [
    "C130_posted",
    "C130_result_partial",
    "C130_accepted_refuted"
   ],
   "note": "One request per call proved (C130_posted); success is characterised exactly (C130_result_partial), but it is not acceptance by the server: a 202 or an empty body is an error (C130_accepted_refuted)."
  },
  {
   "property": "C131",
   "status": "partial",
   "theorems": [
    "C131_returns_partial",
    "C131_stuck_refuted"
   ],
   "note": "Proved while fewer than 100 messages wait to be received. False with 100: C131_stuck_refuted, the call waits for ever and, having the transport for itself, prevents the receive it waits for."
  },
  {
   "property": "C132",
   "status": "partial",
   "theorems": [
    "C132_simple_partial",
    "C132_flag_refuted",
    "C132_close_refuted",
    "C132_receive_refuted"
   ],
   "note": "Proved without an event stream. False with one: C132_flag_refuted, C132_close_refuted, C132_receive_refuted."
  },
  {
   "property": "C133",
   "status": "partial",
   "theorems": [
    "C133_headers_refuted",
    "C133_server_refuted",
    "C133_stream_partial"
   ],
   "note": "False: C133_headers_refuted, the configured headers are never sent; C133_server_refuted, the streamable HTTP server refuses every POST with 406. Only the GET request is acceptable to it (C133_stream_partial)."
  },
  {
   "property": "C134",
   "status": "partial",
   "theorems": [
    "C134_retries_partial",
    "C134_outcome",
    "C134_temporary",
    "C134_zero_refuted",
    "C134_failed_refuted"
   ],
   "note": "Proved for positive limits, with the exact criterion (C134_temporary). False for a limit of 0 (C134_zero_refuted) and for network failures described without one of four words (C134_failed_refuted)."
  },
  {
   "property": "C135",
   "status": "proved",
   "theorems": [
    "C135_issuer",
    "C135_url"
   ],
   "note": "For all texts, by the shape of trim_end_matches."
  },
  {
   "property": "C136",
   "status": "partial",
   "theorems": [
    "C136_document",
    "C136_own",
    "C136_optional_refuted",
    "C136_response_refuted"
   ],
   "note": "Proved for documents with all lists (C136_document, C136_own). False for conforming documents without an optional list (C136_optional_refuted) or with another response type (C136_response_refuted)."
  },
  {
   "property": "C137",
   "status": "partial",
   "theorems": [
    "C137_exchange",
    "C137_refresh",
    "C137_basic_partial",
    "C137_colon_refuted",
    "C137_encoding_refuted",
    "C137_plain"
   ],
   "note": "Parameters proved through form encoding and decoding. Credentials proved for ids without a colon; false with one (C137_colon_refuted) and for servers that decode as RFC 6749 says (C137_encoding_refuted)."
  },
  {
   "property": "C138",
   "status": "proved",
   "theorems": [
    "C138_token",
    "C138_own",
    "C138_errors",
    "C138_refused",
    "C138_lifetime"
   ],
   "note": "For JSON bodies as in C78; the text of a refusal is that of a UTF-8 body."
  },
  {
   "property": "C139",
   "status": "proved",
   "theorems": [
    "C139_static",
    "C139_strings"
   ],
   "note": "All items, labels and partial texts."
  },
  {
   "property": "C140",
   "status": "partial",
   "theorems": [
    "C140_suggestions_partial",
    "C140_sorted",
    "C140_bare_name_refuted",
    "C140_hidden_refuted",
    "C140_dots_refuted"
   ],
   "note": "Proved for paths of ordinary segments. False for a name alone without a base directory (nothing is suggested), for a last part \".\" (hidden files: the parent's entries are suggested) and for \"..\" (C140_*_refuted). Order proved always."
  },
  {
   "property": "C141",
   "status": "partial",
   "theorems": [
    "C141_inside_partial",
    "C141_absolute_refuted",
    "C141_parent_refuted"
   ],
   "note": "Proved for relative texts without a segment \"..\". False for absolute texts and for \"../\" (C141_absolute_refuted, C141_parent_refuted)."
  },
  {
   "property": "C142",
   "status": "partial",
   "theorems": [
    "C142_extension_partial",
    "C142_dotted_refuted"
   ],
   "note": "Proved for every listed extension as compared; false for extensions written with the dot, as in the documentation (C142_dotted_refuted)."
  },
  {
   "property": "C143",
   "status": "proved",
   "theorems": [
    "C143_builder"
   ],
   "note": "Induction over the calls."
  },
  {
   "property": "C144",
   "status": "partial",
   "theorems": [
    "C144_wire_partial",
    "C144_metadata_refuted",
    "C144_null_default_refuted"
   ],
   "note": "Proved for metadata keys that are no field names and defaults other than null; false for these (C144_metadata_refuted, C144_null_default_refuted)."
  },
  {
   "property": "C145",
   "status": "proved",
   "theorems": [
    "C44_admitted",
    "C44_until_delete"
   ],
   "note": "Stated separately from C44, which also claims what does not hold."
  },
  {
   "property": "C146",
   "status": "proved",
   "theorems": [
    "C46_post_headers",
    "C46_get_headers",
    "C46_negotiated"
   ],
   "note": "Stated separately from C46, which also claims what does not hold."
  },
  {
   "property": "C147",
   "status": "proved",
   "theorems": [
    "C38_prefix",
    "C38_own",
    "C38_failure"
   ],
   "note": "Stated separately from C38, which also claims what does not hold."
  },
  {
   "property": "C148",
   "status": "proved",
   "theorems": [
    "C43_conserved"
   ],
   "note": "Stated separately from C43, which also claims what does not hold."
  },
  {
   "property": "C149",
   "status": "proved",
   "theorems": [
    "C55_tick",
    "C55_only",
    "C55_once"
   ],
   "note": "Stated separately from C55, which also claims what does not hold."
  },
  {
   "property": "C150",
   "status": "proved",
   "theorems": [
    "C55_patterns"
   ],
   "note": "Stated separately from C55, which also claims what does not hold."
  },
  {
   "property": "C151",
   "status": "proved",
   "theorems": [
    "C107_limit",
    "C107_remove"
   ],
   "note": "Stated separately from C107, which also claims what does not hold."
  },
  {
   "property": "C152",
   "status": "proved",
   "theorems": [
    "C64_metrics_counts",
    "C64_metrics_classes"
   ],
   "note": "Stated separately from C64, which also claims what does not hold."
  },
  {
   "property": "C153",
   "status": "proved",
   "theorems": [
    "C112_once",
    "C112_batch",
    "C112_timer"
   ],
   "note": "Stated separately from C112, which also claims what does not hold."
  },
  {
   "property": "C154",
   "status": "proved",
   "theorems": [
    "C110_other",
    "C110_kinds",
    "C108_flush",
    "C109_quiet"
   ],
   "note": "Stated separately from C108, C109, C110, which also claims what does not hold."
  },
  {
   "property": "C155",
   "status": "proved",
   "theorems": [
    "C115_json",
    "C115_received",
    "C115_conserved",
    "C115_once"
   ],
   "note": "Stated separately from C115, which also claims what does not hold."
  },
  {
   "property": "C156",
   "status": "proved",
   "theorems": [
    "C117_reported",
    "C117_last"
   ],
   "note": "Stated separately from C117, which also claims what does not hold."
  },
  {
   "property": "C157",
   "status": "proved",
   "theorems": [
    "C120_received",
    "C120_end",
    "C120_gone"
   ],
   "note": "Stated separately from C120, which also claims what does not hold."
  },
  {
   "property": "C158",
   "status": "proved",
   "theorems": [
    "C121_order",
    "C121_send",
    "C121_written"
   ],
   "note": "Stated separately from C121, which also claims what does not hold."
  },
  {
   "property": "C159",
   "status": "proved",
   "theorems": [
    "C124_attempts",
    "C124_ends"
   ],
   "note": "Stated separately from C124, which also claims what does not hold."
  },
  {
   "property": "C160",
   "status": "proved",
   "theorems": [
    "C128_to_client"
   ],
   "note": "Stated separately from C128, which also claims what does not hold."
  },
  {
   "property": "C161",
   "status": "proved",
   "theorems": [
    "C129_conserved"
   ],
   "note": "Stated separately from C129, which also claims what does not hold."
  },
  {
   "property": "C162",
   "status": "proved",
   "theorems": [
    "C130_posted"
   ],
   "note": "Stated separately from C130, which also claims what does not hold."
  },
  {
   "property": "C163",
   "status": "proved",
   "theorems": [
    "C136_document",
    "C136_own"
   ],
   "note": "Stated separately from C136, which also claims what does not hold."
  },
  {
   "property": "C164",
   "status": "proved",
   "theorems": [
    "C137_exchange",
    "C137_refresh"
   ],
   "note": "Stated separately from C137, which also claims what does not hold."
  },
  {
   "property": "C165",
   "status": "proved",
   "theorems": [
    "C140_sorted"
   ],
   "note": "Stated separately from C140, which also claims what does not hold."
  },
  {
   "property": "C166",
   "status": "proved",
   "theorems": [
    "C59_whitespace",
    "C59_batch"
   ],
   "note": "Stated separately from C59, which also claims what does not hold."
  },
  {
   "property": "C167",
   "status": "proved",
   "theorems": [
    "C114_bytes"
   ],
   "note": "Stated separately from C114, which also claims what does not hold."
  },
  {
   "property": "C168",
   "status": "proved",
   "theorems": [
    "C61_child"
   ],
   "note": "Stated separately from C61, which also claims what does not hold."
  },
  {
   "property": "C169",
   "status": "proved",
   "theorems": [
    "C26_only",
    "C26_methods_distinct"
   ],
   "note": "Stated separately from C26, which also claims what does not hold."
  },
  {
   "property": "C170",
   "status": "proved",
   "theorems": [
    "C76_sound",
    "C76_fields"
   ],
   "note": "Stated separately from C76, which also claims what does not hold."
  },
  {
   "property": "C171",
   "status": "proved",
   "theorems": [
    "C70_cookie"
   ],
   "note": "Stated separately from C70, which also claims what does not hold."
  },
  {
   "property": "C172",
   "status": "proved",
   "theorems": [
    "C71_field_lines",
    "C71_other_lines"
   ],
   "note": "Stated separately from C71, which also claims what does not hold."
  },
  {
   "property": "C173",
   "status": "proved",
   "theorems": [
    "C73_accepted_good",
    "C73_parse_print"
   ],
   "note": "Stated separately from C73, which also claims what does not hold."
  },
  {
   "property": "C174",
   "status": "proved",
   "theorems": [
    "C93_success",
    "C93_once"
   ],
   "note": "Stated separately from C93, which also claims what does not hold."
  },
  {
   "property": "C175",
   "status": "proved",
   "theorems": [
    "C95_handshake"
   ],
   "note": "Stated separately from C95, which also claims what does not hold."
  },
  {
   "property": "C176",
   "status": "proved",
   "theorems": [
    "C25_fixed",
    "C25_with_retry"
   ],
   "note": "Stated separately from C25, which also claims what does not hold."
  },
  {
   "property": "C177",
   "status": "proved",
   "theorems": [
    "C32_register"
   ],
   "note": "Stated separately from C32, which also claims what does not hold."
  },
  {
   "property": "C178",
   "status": "proved",
   "theorems": [
    "C13_validate_not_expired",
    "C13_cleanup_exact"
   ],
   "note": "Stated separately from C13, which also claims what does not hold."
  },
  {
   "property": "C179",
   "status": "proved",
   "theorems": [
    "C91_ids",
    "C91_same"
   ],
   "note": "Stated separately from C91, which also claims what does not hold."
  },
  {
   "property": "C180",
   "status": "proved",
   "theorems": [
    "C119_initialized",
    "C116_closed"
   ],
   "note": "Stated separately from C116, C119, which also claims what does not hold."
  },
  {
   "property": "C181",
   "status": "proved",
   "theorems": [
    "C21_survives"
   ],
   "note": "Stated separately from C21, which also claims what does not hold."
  },
  {
   "property": "C182",
   "status": "partial",
   "theorems": [
    "C182_wait_partial",
    "C182_not_longer",
    "C182_fraction_refuted",
    "C182_long_refuted"
   ],
   "note": "Exact for whole milliseconds below 2^31 and never longer; a fraction of a millisecond is dropped, and 2^31 to 2^32 ms (modulo 2^32) is no wait at all because the count is cast to i32 (C182_fraction_refuted, C182_long_refuted)."
  },
  {
   "property": "C183",
   "status": "proved",
   "theorems": [
    "C183_order",
    "C183_drain"
   ],
   "note": "Received values followed by the waiting ones are the values sent; further receives drain them."
  },
  {
   "property": "C184",
   "status": "partial",
   "theorems": [
    "C184_get_partial",
    "C184_end_refuted",
    "C184_send_refuted",
    "C184_room_refuted"
   ],
   "note": "A waiting value is always received. recv returns None at once when nothing is waiting although the sender lives; send never waits, whatever the buffer, and succeeds with the receiver gone."
  },
  {
   "property": "C185",
   "status": "proved",
   "theorems": [
    "C185_scope",
    "C185_none",
    "C185_cases",
    "C185_one"
   ],
   "note": "Scopes are described by balanced histories, independent of the stack the model keeps; nested histories are inside or outside, never both."
  },
  {
   "property": "C186",
   "status": "partial",
   "theorems": [
    "C186_own_partial",
    "C186_spawn_refuted"
   ],
   "note": "True for a task that enters the context itself; a task started without doing so logs no ids (C186_spawn_refuted): the context is task-local."
  },
  {
   "property": "C187",
   "status": "partial",
   "theorems": [
    "C187_level",
    "C187_other_partial",
    "C187_warning_refuted"
   ],
   "note": "The five tracing names are honoured in any case; warning, critical, alert, emergency and fatal are logged at info (C187_warning_refuted)."
  },
  {
   "property": "C188",
   "status": "proved",
   "theorems": [
    "C188_line",
    "C188_field",
    "C188_rest"
   ],
   "note": "For entries whose texts are Unicode, ids fit i64 and fields are below serde_json's depth limit; error details are not modelled."
  },
  {
   "property": "C189",
   "status": "proved",
   "theorems": [
    "C189_follows",
    "C189_result",
    "C189_trips"
   ],
   "note": "Executions one after the other; overlapping executions are the subject of C24_race_refuted."
  },
  {
   "property": "C190",
   "status": "proved",
   "theorems": [
    "C190_totals",
    "C190_failures",
    "C190_retries",
    "C190_reconnect"
   ],
   "note": "Counters do not wrap in the model."
  },
  {
   "property": "C191",
   "status": "partial",
   "theorems": [
    "C191_answer",
    "C191_listening",
    "C191_overlap_refuted"
   ],
   "note": "Answers and the last listening stream: proved. The last sentence is false (C191_overlap_refuted): if two listening streams are asked for before the first reply arrives, only the handle of the second is kept and the first is read on after any later start or close."
  },
  {
   "property": "C192",
   "status": "proved",
   "theorems": [
    "C192_opens",
    "C192_order",
    "C192_written",
    "C192_gone"
   ],
   "note": "Over all histories after a stream was opened; answers routed to a stream are those of requests naming its session."
  },
  {
   "property": "C193",
   "status": "proved",
   "theorems": [
    "C193_read",
    "C193_missing",
    "C193_garbage",
    "C193_truncated"
   ],
   "note": "header blocks of arbitrary lines, with the white space of Unicode around the length; missing lengths, lines that are not text and truncated bodies"
  },
  {
   "property": "C194",
   "status": "proved",
   "theorems": [
    "C194_once",
    "C194_waiting",
    "C194_room"
   ],
   "note": "multiset invariant over all schedules of the locked steps of the debouncer"
  },
  {
   "property": "C195",
   "status": "proved",
   "theorems": [
    "C195_tree",
    "C195_client",
    "C195_scope",
    "C195_composite"
   ],
   "note": "every denial of a tree of middlewares is traced to its cause; the exact condition for provider errors and missing scopes"
  },
  {
   "property": "C196",
   "status": "partial",
   "theorems": [
    "C196_panics_partial",
    "C196_parts",
    "C196_ascii_partial",
    "C196_crash_refuted"
   ],
   "note": "false of the code: it cuts the parts of the trace header at byte offsets, so a header with a multi-byte character across an offset panics (C196_crash_refuted). Proved: the exact condition for the panic over all header values (C196_panics_partial with C196_parts), and that ASCII headers never panic (C196_ascii_partial)"
  },
  {
   "property": "C197",
   "status": "proved",
   "theorems": [
    "C197_once",
    "C197_handshake",
    "C197_result",
    "C197_absent",
    "C197_list",
    "C197_refused"
   ],
   "note": "StackModel composes ClientModel, ServerModel and StdioModel through bytes. Each process handles what has arrived before the other goes on, which is what happens when calls are made one after the other; concurrent calls are C43. That every message sent can be serialised and read back is assumed of the session as C37 assumes it of a stream (travels); C197_travels shows it of a session with successes, failures and refusals. A panicking handler ends the server (C38). create_message never reaches a server (C92) and complete is never understood (C95)."
  },
  {
   "property": "C198",
   "status": "partial",
   "theorems": [
    "C198_conserved",
    "C198_received_partial",
    "C198_browsers_partial",
    "C198_unnamed_refuted"
   ],
   "note": "C198_conserved holds for every history and every text. C198_received_partial: all messages of the library's stdio and WebSocket peers but the server's request for input, which is written under a method no type declares (C78). C198_browsers_partial: between two browsers. C198_unnamed_refuted: the common progress and cancellation notifications are written without their method and never received. Where client and server have a notification of the same name the client's variant is read (browser_sees)."
  },
  {
   "property": "C199",
   "status": "partial",
   "theorems": [
    "C199_responses_partial",
    "C199_unread_refuted"
   ],
   "note": "Only responses are (C199_responses_partial). C199_unread_refuted: no request and no notification is understood, since the jsonrpc member is left out."
  },
  {
   "property": "C200",
   "status": "proved",
   "theorems": [
    "C200_sent",
    "C200_written",
    "C200_closed"
   ],
   "note": "The browser's refusal (WebSocket.send throws) is an input; stays_shut: browsers never reopen a socket. C200_written: over every history, the socket's state and exactly which texts were written."
  },
  {
   "property": "C201",
   "status": "partial",
   "theorems": [
    "C201_waits_refuted",
    "C201_kept_partial"
   ],
   "note": "C201_kept_partial: messages that had arrived are still received. C201_waits_refuted: with nothing queued receive waits for ever, because the transport keeps a sender of its own channel."
  },
  {
   "property": "C202",
   "status": "proved",
   "theorems": [
    "C202_connects",
    "C202_iff"
   ],
   "note": "The states seen at the looks are an arbitrary sequence."
  },
  {
   "property": "C203",
   "status": "partial",
   "theorems": [
    "C203_read_partial",
    "C203_quote_refuted",
    "C203_name_refuted"
   ],
   "note": "Proved for texts without quotes and backslashes that do not end in a key. Refuted: a quote cuts the description (C203_quote_refuted); after a description ending in 'name = ' the name is misread (C203_name_refuted)."
  },
  {
   "property": "C204",
   "status": "partial",
   "theorems": [
    "C204_listed",
    "C204_called",
    "C204_each_partial",
    "C204_twice_refuted"
   ],
   "note": "Listing, first match and unknown names for every block; each tool reached when names differ (C204_each_partial). Refuted: equal names are accepted and hide the second tool (C204_twice_refuted)."
  },
  {
   "property": "C205",
   "status": "partial",
   "theorems": [
    "C205_called",
    "C205_wrong_refuted"
   ],
   "note": "Exactly when the function is called, with which values, and which parameter is reported (C205_called). Refuted: an ill-typed argument of an optional parameter is silently dropped (C205_wrong_refuted). Types are those of the serde model; the generated code names error variants the crate lacks."
  },
  {
   "property": "C206",
   "status": "partial",
   "theorems": [
    "C206_optional_partial",
    "C206_schema_refuted"
   ],
   "note": "Proved for functions without required parameters. Refuted: the schema is the same for every tool and lists nothing (C206_schema_refuted)."
  },
  {
   "property": "C207",
   "status": "partial",
   "theorems": [
    "C207_names_partial",
    "C207_same_refuted"
   ],
   "note": "Proved for names of lower-case words that start with a letter. Refuted: digits after an underscore and doubled underscores (C207_same_refuted)."
  },
  {
   "property": "C208",
   "status": "proved",
   "theorems": [
    "C208_origin",
    "C208_granted",
    "C208_revoked",
    "C208_expired"
   ],
   "note": "Composes the provider of C47-C52 with the middlewares of C51. The middleware's question to the provider is tied to a validate_token call of the history (backed); generated values are assumed distinct."
  },
  {
   "property": "C209",
   "status": "proved",
   "theorems": [
    "C209_once",
    "C209_handshake",
    "C209_result",
    "C209_absent",
    "C209_refused",
    "C209_same"
   ],
   "note": "HttpStackModel composes ClientModel, HttpClientModel, HttpModel and ServerModel; each HTTP exchange is completed before the client goes on. Left out here: cancel_request and send_progress (C222), panicking handlers (C219), other clients of the same server (C210) and a stateless server (C220). answers_travel: the answers can be written and read back; C209_travels shows it of a session with successes, failures and refusals. C209_same compares with the stdio composition of C197."
  },
  {
   "property": "C210",
   "status": "proved",
   "theorems": [
    "C210_once",
    "C210_sessions",
    "C210_result",
    "C210_progress"
   ],
   "note": "HttpCloudModel runs any number of clients (each one call at a time, as the methods borrow the client mutably) against one HTTP server; a request waits for the MCP server's lock in the HTTP server and gets it in any order. Generated session ids are distinct (the code uses UUIDs; a repeated one would reset another client's session). cancel_request and send_progress are among the calls (see C222); stateless servers are C220; handlers may panic (C219). C210_usable, C210_example and C210_travels show two clients with interleaved requests and equal request ids meeting the hypotheses."
  },
  {
   "property": "C211",
   "status": "partial",
   "theorems": [
    "C211_last_partial",
    "C211_overwritten_refuted"
   ],
   "note": "False with more than one client: the server has a single slot. C211_last_partial says exactly what it holds (the capabilities in the last initialize handled, for whichever session); C211_overwritten_refuted says that in every history handling one client's initialize replaces what was known, although the other clients' sessions go on unchanged. With one client it is right (C209_handshake)."
  },
  {
   "property": "C212",
   "status": "proved",
   "theorems": [
    "C212_queries",
    "C212_presets",
    "C212_client",
    "C212_declared",
    "C212_extremes"
   ],
   "note": "The queries are tied to what happens in a whole session over stdio (composition of client, transport and server). create_message, set_logging_level and complete have no query and are covered by C42 and C92."
  },
  {
   "property": "C213",
   "status": "partial",
   "theorems": [
    "C213_survives_partial",
    "C213_made",
    "C213_replaced_refuted",
    "C213_header_refuted",
    "C213_required_refuted"
   ],
   "note": "C213_survives_partial is an equivalence: the round trip through serde_json::Value holds exactly if no parameter is named scheme, token or oauth. Otherwise the parameter replaces the field (C213_replaced_refuted): another token is sent in the header (C213_header_refuted), credentials cease to be required (C213_required_refuted)."
  },
  {
   "property": "C214",
   "status": "partial",
   "theorems": [
    "C214_restart",
    "C214_forgets",
    "C214_fresh",
    "C214_keeps",
    "C214_unfinished_refuted"
   ],
   "note": "Proved for every history and every later text: C214_restart (what arrives after a reset), C214_forgets and C214_fresh (any text, also malformed), C214_keeps. Refuted: the last event id is that of the last id line, even if its event was never finished (C214_unfinished_refuted), so resuming after it skips that event."
  },
  {
   "property": "C215",
   "status": "partial",
   "theorems": [
    "C215_arrives_partial",
    "C215_seen_partial",
    "C215_comment_refuted",
    "C215_silent_refuted"
   ],
   "note": "Proved for events that can be written (C215_arrives_partial) and, up to line feeds at the ends of the data, for all data without carriage returns (C215_seen_partial); see C18 for what cannot be written. Refuted: comments are never written (C215_comment_refuted, C215_silent_refuted)."
  },
  {
   "property": "C216",
   "status": "partial",
   "theorems": [
    "C216_made",
    "C216_given",
    "C216_standard",
    "C216_others",
    "C216_call_refuted",
    "C216_text_partial",
    "C216_told_partial",
    "C216_cancelled_refuted",
    "C216_twice_refuted"
   ],
   "note": "Proved within a program (C216_made, C216_standard, C216_others). Between server and client refuted for every session and every handler error: the code is always -32603 and the data is dropped (C216_call_refuted); only the text arrives, from which code and message of a protocol error can be told (C216_text_partial, C216_told_partial). Error::cancelled makes a validation error (C216_cancelled_refuted)."
  },
  {
   "property": "C217",
   "status": "partial",
   "theorems": [
    "C217_transparent",
    "C217_nothing_refuted",
    "C217_tokens",
    "C217_contents_partial",
    "C217_trace_refuted",
    "C217_logged"
   ],
   "note": "Proved for every chain: transparency for the user's own middlewares and for all four hooks (C217_transparent), tokens never reach the log (C217_tokens), contents do not except at level TRACE (C217_contents_partial); each line is at the level that was chosen and names its message (C217_logged). Refuted: no chain of them ever changes or repeats a request (C217_nothing_refuted); at TRACE the whole request is logged (C217_trace_refuted)."
  },
  {
   "property": "C218",
   "status": "partial",
   "theorems": [
    "C218_one_by_one",
    "C218_replies",
    "C218_all_once",
    "C218_timeout_refuted"
   ],
   "note": "Proved for every schedule: the state and the replies are those of the sections one by one, in the order in which they ran (C218_one_by_one, C218_replies), and without timeouts all sections run exactly once (C218_all_once). Refuted for timeouts (C218_timeout_refuted): the handler may have run in part or in full, its changes stay. A section is one closure under the state's write lock; panicking handlers are not modelled."
  },
  {
   "property": "C219",
   "status": "proved",
   "theorems": [
    "C219_panic"
   ],
   "note": "The panic unwinds the task of its connection; tokio's Mutex is not poisoned, so the lock is free again, and the client's send fails. Assumes one request per connection (HTTP/1). C210_progress then applies to the resulting state: whoever else waits can be answered. C219_example runs two clients with a tool that panics once."
  },
  {
   "property": "C220",
   "status": "proved",
   "theorems": [
    "C220_once",
    "C220_order",
    "C220_result",
    "C220_progress"
   ],
   "note": "The model and vocabulary of C210 with sessions switched off; no assumption on generated ids. cancel_request and send_progress are among the calls. C220_example, C220_travels and C220_panic_example run the two clients of C210_example against a stateless server."
  },
  {
   "property": "C221",
   "status": "partial",
   "theorems": [
    "C221_kept_partial",
    "C221_lost_refuted"
   ],
   "note": "True with sessions: C221_kept_partial, for every client in every history. False without: C221_lost_refuted shows that in every history the answer to a call makes the transport report the default version 2025-03-26 although the initialize result named 2024-11-05 (handle_post_request falls back to DEFAULT_PROTOCOL_VERSION when there is no session). The server does not mind, as it supports both (C220)."
  },
  {
   "property": "C222",
   "status": "partial",
   "theorems": [
    "C222_harmless",
    "C222_cancelled_refuted"
   ],
   "note": "True: C222_harmless - the call comes back at once with success unless the server keeps sessions and the client has none (then a transport error), nothing else changes. False: C222_cancelled_refuted - in every history, a waiting request whose id was successfully cancelled is still waiting, its handler is called and its client gets the answer exactly as without the cancellation (handle_post_request answers every notification with 202 and does nothing with it). C222_example runs it with and without sessions. Both notifications are also part of every history of C210, C219, C220 and C221."
  },
  {
   "property": "C223",
   "status": "partial",
   "theorems": [
    "C223_registered",
    "C223_called",
    "C223_initialized",
    "C223_agree",
    "C223_stays",
    "C223_handshake_refuted"
   ],
   "note": "True: C223_registered, C223_called, C223_initialized, C223_agree, C223_stays. False: C223_handshake_refuted - is_initialized is true as soon as an initialize request was handled, even if the answer could not be sent; the documentation says it means a completed handshake."
  },
  {
   "property": "C224",
   "status": "partial",
   "theorems": [
    "C224_reloaded",
    "C224_order",
    "C224_told",
    "C224_silent_refuted"
   ],
   "note": "True: C224_reloaded, C224_order, C224_told. False: C224_silent_refuted - a reload clears the registries without telling anyone, so listeners never hear of tools and prompts it takes away."
  },
  {
   "property": "C225",
   "status": "partial",
   "theorems": [
    "C225_closed",
    "C225_others",
    "C225_stays_refuted"
   ],
   "note": "Proved for clients that have initialized with a server that keeps sessions: C225_closed, C225_others. False otherwise: C225_stays_refuted - without sessions, or before initialize, closing changes nothing at all, and the client's methods work as before."
  },
  {
   "property": "C226",
   "status": "partial",
   "theorems": [
    "C226_answers",
    "C226_all",
    "C226_settles",
    "C226_reads",
    "C226_panic_refuted",
    "C226_unanswered_refuted"
   ],
   "note": "Proved as long as the socket takes what is written and no handler panics: C226_answers (which needs neither), C226_all, C226_settles, C226_reads. False otherwise: C226_panic_refuted - after one handler's panic nothing the peer sends is handled or answered, although the connection stays open; C226_unanswered_refuted - a request with an unknown method, or without its optional parameters, gets no answer at all."
  },
  {
   "property": "C227",
   "status": "partial",
   "theorems": [
    "C227_any",
    "C227_messages",
    "C227_bad_refuted",
    "C227_unknown_refuted",
    "C227_omitted_refuted"
   ],
   "note": "Proved: C227_any (for every input: exactly the answers to the messages before the first thing that is no message), C227_messages (a program that writes messages only gets them all answered). The last sentence is false: C227_bad_refuted (a frame that cannot be read ends the server's service for good), in particular a request with an unknown method (C227_unknown_refuted) or one that leaves out optional parameters (C227_omitted_refuted)."
  },
  {
   "property": "C228",
   "status": "proved",
   "theorems": [
    "C228_builder",
    "C228_wire",
    "C228_told"
   ],
   "note": "Proved for every sequence of builder calls; the wire statement is for values JSON can carry (storable: strings of Unicode scalars, nesting below serde_json's limit)."
  },
  {
   "property": "C229",
   "status": "partial",
   "theorems": [
    "C229_counts",
    "C229_reset",
    "C229_average_partial",
    "C229_empty_refuted",
    "C229_straddle_refuted"
   ],
   "note": "Counts, maximum and reset proved for every interleaving (C229_counts, C229_reset); the average when the first batch since the reset has requests (C229_average_partial), otherwise it is NaN until the next reset (C229_empty_refuted). C229_straddle_refuted: a batch that began before the reset counts in full, with a time that may exceed the time since the reset."
  },
  {
   "property": "C230",
   "status": "partial",
   "theorems": [
    "C230_builder",
    "C230_received_partial",
    "C230_bounded",
    "C230_lower_refuted",
    "C230_higher_refuted",
    "C230_unmasked_refuted"
   ],
   "note": "accept uses accept_async without the configuration, so the limits are always tungstenite's defaults (its behaviour is assumed, see WsLimitModel.v). Proved: C230_builder, C230_received_partial, C230_bounded. False: lower limits are not enforced (C230_lower_refuted), frames above 16 MiB end the connection even within the default limit (C230_higher_refuted), unmasked frames are never taken (C230_unmasked_refuted)."
  },
  {
   "property": "C231",
   "status": "partial",
   "theorems": [
    "C231_builder",
    "C231_ignored",
    "C231_narrow_refuted",
    "C231_unwanted_refuted"
   ],
   "note": "Proved: what is built (C231_builder) and that ignored or foreign paths are never noticed (C231_ignored). False for patterns: pattern() adds to the default '**/*', so no pattern given narrows anything down (C231_narrow_refuted, C231_unwanted_refuted); glob_match is any function that takes '**/*' for everything."
  },
  {
   "property": "C232",
   "status": "partial",
   "theorems": [
    "C232_same_partial",
    "C232_clone",
    "C232_connection",
    "C232_early_refuted",
    "C232_twice_refuted"
   ],
   "note": "Proved: clones of an initialized client are interchangeable in every later history (C232_same_partial) and share one connection (C232_connection). False for a clone made before: it refuses every call whatever happens to the original (C232_early_refuted), and initializing it sends a second initialize request over the same connection (C232_twice_refuted). Calls that overlap in time are C43's subject."
  },
  {
   "property": "C233",
   "status": "partial",
   "theorems": [
    "C233_kept",
    "C233_lenient_refuted",
    "C233_debounced_refuted"
   ],
   "note": "Proved: the options given last are kept (C233_kept). False that they do anything: undeclared calls are refused although strict is off (C233_lenient_refuted), and every progress notification is sent at once whatever is listed (C233_debounced_refuted)."
  },
  {
   "property": "C234",
   "status": "partial",
   "theorems": [
    "C234_rate",
    "C234_due",
    "C234_failed",
    "C234_off",
    "C234_closed_refuted"
   ],
   "note": "Proved for every interleaving: never too often (C234_rate), exactly the due ones whenever the tasks are idle and no write failed (C234_due), none after a failed write (C234_failed), none without an interval or with one of zero (C234_off). False that they end with the connection: neither close nor the peer's leaving changes anything (C234_closed_refuted)."
  },
  {
   "property": "C235",
   "status": "partial",
   "theorems": [
    "C235_connections",
    "C235_lost_refuted",
    "C235_again"
   ],
   "note": "Proved: connections are exactly those made by successful connects (C235_connections), and connecting again makes the transport receive again (C235_again). False that anything else does, whatever auto_reconnect says, and receive waits for ever (C235_lost_refuted): nothing reads auto_reconnect and request_timeout."
  },
  {
   "property": "C236",
   "status": "proved",
   "theorems": [
    "C236_roundtrip",
    "C236_reads",
    "C236_injective"
   ],
   "note": "Through the bytes serde_json writes; text is any sequence of Unicode scalar values, as in every Rust String."
  },
  {
   "property": "C237",
   "status": "partial",
   "theorems": [
    "C237_balance",
    "C237_once_partial",
    "C237_which",
    "C237_cleanup",
    "C237_expired_refuted",
    "C237_twice_refuted"
   ],
   "note": "Proved for every interleaving: the balance of reports (C237_balance), once each where no lookup puts back a removed session (C237_once_partial), which session is reported (C237_which), and exactly the expired ones by cleanup_expired (C237_cleanup). False: validate_session reports an expired session as destroyed (C237_expired_refuted), and a session put back by a lookup is reported to end twice (C237_twice_refuted)."
  },
  {
   "property": "C238",
   "status": "partial",
   "theorems": [
    "C238_registries",
    "C238_sequential",
    "C238_told",
    "C238_stale_refuted"
   ],
   "note": "Registries are those of the changes in order (C238_registries), whole calls are the Dyn area's (C238_sequential) and each call tells each listener once (C238_told). False: listeners know what there is. The change and the announcement are under different locks, so after any history a resource handler set and removed by overlapping calls leaves every listener told that there are resources while there are none (C238_stale_refuted)."
  },
  {
   "property": "C239",
   "status": "partial",
   "theorems": [
    "C239_exchange",
    "C239_answer",
    "C239_refresh",
    "C239_others",
    "C239_narrow_refuted",
    "C239_secret_refuted"
   ],
   "note": "The exchange succeeds whenever it returns (C239_exchange), the answer is read as given, its scopes being the words of the text (C239_answer), a refresh reaches the provider with its token (C239_refresh), requests of any other grant reach none of its methods (C239_others). That it returns at all is C50 (calls of refresh and revoke can block it for ever). False: a client can ask for fewer scopes when refreshing, since the provider's method takes no scopes (C239_narrow_refuted); and the provider sees the secret, since the client sends it in a header only, which TokenRequest does not read (C239_secret_refuted)."
  },
  {
   "property": "C240",
   "status": "partial",
   "theorems": [
    "C240_survives_partial",
    "C240_answer",
    "C240_same",
    "C240_required_refuted",
    "C240_public_refuted",
    "C240_replaced_refuted"
   ],
   "note": "A client survives JSON exactly if no metadata is named like a field (C240_survives_partial); an accepted document is answered with the client that is stored, all other members as in the document (C240_answer); this registration is the one of C103 (C240_same). False: metadata named like a field takes its place (C240_replaced_refuted); an application can leave out the id, as RFC 7591 has it: a document without a client_id is refused (C240_required_refuted), only an empty one is replaced; and an application can stay public: every client gets a secret (C240_public_refuted)."
  },
  {
   "property": "C241",
   "status": "partial",
   "theorems": [
    "C241_patient",
    "C241_between_partial",
    "C241_desync_refuted",
    "C241_received_partial",
    "C241_lost_refuted"
   ],
   "note": "Without giving up, the calls return what they return when all bytes are there at once, for any bytes and any pieces (C241_patient); with frames, calls given up only between messages lose nothing (C241_between_partial, C241_received_partial). False in general: what a call has taken goes with it. After a call is given up when part of a message was taken, neither this message nor any later one is ever received, however many arrive (C241_lost_refuted, C241_desync_refuted)."
  },
  {
   "property": "C242",
   "status": "partial",
   "theorems": [
    "C242_same",
    "C242_order",
    "C242_own_partial",
    "C242_shift_refuted",
    "C242_tracked_refuted",
    "C242_tidy_partial"
   ],
   "note": "The calls are those of the client model (C242_same) and take the messages strictly in order, whatever was given up (C242_order). As long as calls are only given up before their request was sent, each returns the reply to its own request (C242_own_partial), and without any given up nothing is left (C242_tidy_partial). False in general: once one call was given up while it waited, every later call returns the reply to an earlier request as its own (C242_shift_refuted), and the entry of a call that was given up stays for good (C242_tracked_refuted)."
  },
  {
   "property": "C243",
   "status": "partial",
   "theorems": [
    "C243_one_partial",
    "C243_two_refuted",
    "C243_stuck_refuted",
    "C243_recovers",
    "C243_asleep_partial",
    "C243_same"
   ],
   "note": "A call on its own is the one of C83 (C243_same). If each call goes on from its check to connect at once, and no loss of a connection is reported meanwhile, at most one connects at a time (C243_one_partial); a call given up while it sleeps leaves the way free (C243_asleep_partial); reporting a lost connection always does (C243_recovers). False: two calls that check before either goes on both connect (C243_two_refuted); and once a call was given up while its connect was running the manager believes for ever that one is: there is never another attempt and every call fails, also after reset or set_enabled (C243_stuck_refuted)."
  },
  {
   "property": "C244",
   "status": "partial",
   "theorems": [
    "C244_kept",
    "C244_roomy_partial",
    "C244_lost",
    "C244_own_partial",
    "C244_others_refuted",
    "C244_same",
    "C244_debounce_refuted",
    "C244_early_refuted"
   ],
   "note": "Without giving up the batcher is the one of C27 (C244_same). Whatever is given up, what was received, is in the channel, is held or pending and what was lost are the added notifications, each as often (C244_kept); nothing is lost while the channel has room (C244_roomy_partial); an add that is given up loses one batch of at most max_batch_size notifications that ends with its own (C244_lost), so with batches of one nothing else (C244_own_partial). False: with larger batches the notifications of other calls that returned Ok before are lost with it (C244_others_refuted); an add of the debouncer that is given up between its locks leaves a notification that is never sent until the key is added again or flushed (C244_debounce_refuted), or a timer that later adds do not stop and that sends too early (C244_early_refuted)."
  },
  {
   "property": "C245",
   "status": "partial",
   "theorems": [
    "C245_kept",
    "C245_roomy_partial",
    "C245_add",
    "C245_others_refuted",
    "C245_flush_refuted",
    "C245_flush"
   ],
   "note": "Whatever is given up, what was received, is in the channel, is held or collected and what was lost are the added notifications, each as often (C245_kept); nothing is lost while the channel has room (C245_roomy_partial); a flush that is not given up ends only when everything collected was sent (C245_flush); an add that is given up loses one batch of one kind that ends with its own notification (C245_add). False: that batch holds notifications of other calls that returned Ok (C245_others_refuted), and a flush that is given up while the channel is full loses everything collected, of every kind (C245_flush_refuted)."
  },
  {
   "property": "C246",
   "status": "partial",
   "theorems": [
    "C246_unsent_partial",
    "C246_listen_partial",
    "C246_session_refuted",
    "C246_same"
   ],
   "note": "Without disconnections it is the server of C44 (C246_same). Proved for every request that opens no session: whatever happens in between, responses and final state are those without it (C246_unsent_partial for POST, C246_listen_partial for GET; simulation over all histories). False for initialize (and so for clients that time out while they connect): the session it opened, of which the callback was told, stays until somebody deletes it, but its id was sent to nobody (C246_session_refuted). Missing: clients that go away while a handler is running (C219 covers handlers that panic)."
  }
 ]
}