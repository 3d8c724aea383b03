{
 "claims": [
  {
   "property": "C01",
   "status": "proved",
   "theorems": [
    "C01_access_decision_iff_spec"
   ],
   "note": "strtod and C double comparison are an arbitrary numlib; string sets/maps are lists."
  },
  {
   "property": "C02",
   "status": "proved",
   "theorems": [
    "C02_order_irrelevant"
   ],
   "note": "Reordering of policies in roles and statements in policies."
  },
  {
   "property": "C03",
   "status": "proved",
   "theorems": [
    "C03_unset_role_denied",
    "C03_unknown_role_denied",
    "C03_default_deny",
    "C03_deny_wins",
    "C03_more_denies_never_grant"
   ],
   "note": ""
  },
  {
   "property": "C04",
   "status": "proved",
   "theorems": [
    "C04_missing_attribute_never_matches",
    "C04_condition_iff_some_value",
    "C04_string_equals",
    "C04_condition_first_decided",
    "C04_error_denies",
    "C04_unparsable_attribute_errs",
    "C04_variable_resolution"
   ],
   "note": "Value order matters when a value is not of the operator type, see C61."
  },
  {
   "property": "C05",
   "status": "partial",
   "theorems": [
    "C05_string_not_equals_refuted",
    "C05_string_not_equals_actual",
    "C05_string_not_equals_single_partial"
   ],
   "note": "The code violates the documented meaning for two or more values (refuted); proved for a single value and the actual meaning characterised."
  },
  {
   "property": "C06",
   "status": "proved",
   "theorems": [
    "C06_access_uses_identity",
    "C06_identity_unique"
   ],
   "note": "The attributes given by the caller must not use the two reserved names, see the no_reserved hypothesis."
  },
  {
   "property": "C07",
   "status": "proved",
   "theorems": [
    "C07_usernames_valid_and_unique"
   ],
   "note": "Loaded states must satisfy the property themselves (loads_ok)."
  },
  {
   "property": "C08",
   "status": "partial",
   "theorems": [
    "C08_fingerprint_unique_refuted",
    "C08_fingerprint_unique_partial",
    "C08_shared_means"
   ],
   "note": "Refuted through nm_iam_set/add_user_fingerprint; proved for histories in which the unchecked entry points are used with unused fingerprints."
  },
  {
   "property": "C09",
   "status": "partial",
   "theorems": [
    "C09_user_limit_refuted",
    "C09_user_limit_partial"
   ],
   "note": "Refuted: open pairing ignores the limit; proved for histories where open pairing only happens while there is room."
  },
  {
   "property": "C10",
   "status": "partial",
   "theorems": [
    "C10_success_effect_refuted",
    "C10_failed_call_changes_nothing",
    "C10_failed_request_changes_nothing",
    "C10_success_effect_partial",
    "C10_success_validated",
    "C10_request_effect",
    "C10_request_success_acts"
   ],
   "note": "Refuted for nm_iam_create_user (OK without effect when the device refuses the token); everything else proved: failing calls change nothing, successful ones change exactly the documented field."
  },
  {
   "property": "C11",
   "status": "proved",
   "theorems": [
    "C11_state_round_trip",
    "C11_text_round_trip"
   ],
   "note": "Text level: cJSON printing and parsing included; users compared up to their allocation."
  },
  {
   "property": "C12",
   "status": "partial",
   "theorems": [
    "C12_reload_text_partial",
    "C12_reload_refuted",
    "C12_reload_partial"
   ],
   "note": "Refuted: the CoAP fingerprint resource accepts values of any length that the loader refuses. Proved for histories without the listed exceptions (reload_safe)."
  },
  {
   "property": "C13",
   "status": "proved",
   "theorems": [
    "C13_conf_round_trip",
    "C13_same_decisions"
   ],
   "note": "Text level: cJSON printing and parsing included; the loaded configuration is equal to the dumped one."
  },
  {
   "property": "C14",
   "status": "partial",
   "theorems": [
    "C14_announced_refuted",
    "C14_requests_announced",
    "C14_pairing_modes_announced",
    "C14_api_announced_later_partial",
    "C14_failures_silent"
   ],
   "note": "Refuted for the nm_iam_* setters, which announce the change only with the next CoAP request; proved for CoAP requests and pairing mode setters."
  },
  {
   "property": "C15",
   "status": "partial",
   "theorems": [
    "C15_open_password_refuted",
    "C15_pairing_guards_partial",
    "C15_initial_once",
    "C15_invite_single_use"
   ],
   "note": "Refuted: password open pairing accepts a connection authenticated with an individual user password; all other guards, single use of initial and invite pairing proved."
  },
  {
   "property": "C16",
   "status": "proved",
   "theorems": [
    "C16_changes_need_permission",
    "C16_only_the_named_user"
   ],
   "note": "Permission is evaluated in the state before the request."
  },
  {
   "property": "C17",
   "status": "partial",
   "theorems": [
    "C17_freed_user_refuted",
    "C17_freed_user_partial"
   ],
   "note": "Refuted: delete after authorize; proved when users are only removed while no connection is authorized as them."
  },
  {
   "property": "C18",
   "status": "partial",
   "theorems": [
    "C18_closed_connection_refuted",
    "C18_closed_connection_partial",
    "C18_no_entry_no_identity",
    "C18_no_client_denied"
   ],
   "note": "Refuted by authorizing a connection twice; proved when each connection is authorized once."
  },
  {
   "property": "C19",
   "status": "proved",
   "theorems": [
    "C19_guesses_rate_limited",
    "C19_rejected_iff_401",
    "C19_refused_not_evaluated",
    "C19_not_locked_out"
   ],
   "note": "Bound 10 + T/1000 for every segment of every history; the timer may fire arbitrarily late."
  },
  {
   "property": "C20",
   "status": "partial",
   "theorems": [
    "C20_identity_refuted",
    "C20_identity_partial"
   ],
   "note": "Refuted: a first step for another user after authentication changes the reported username. Proved for connections without a key exchange after the accepted proof and without failed exchanges."
  },
  {
   "property": "C21",
   "status": "proved",
   "theorems": [
    "C21_only_by_proof"
   ],
   "note": "Cryptography symbolic: key derivation and confirmation are arbitrary functions."
  },
  {
   "property": "C22",
   "status": "proved",
   "theorems": [
    "C22_answered_exactly_once",
    "C22_set_password",
    "C22_free",
    "C22_stop"
   ],
   "note": "Allocations succeed; the listener is stopped before it is freed."
  },
  {
   "property": "C23",
   "status": "proved",
   "theorems": [
    "C23_round_trip",
    "C23_write_bytes",
    "C23_parse_inside",
    "C23_accepted_complete",
    "C23_truncated_rejected"
   ],
   "note": "The reader looks at the first byte before checking the size; callers pass at least one byte."
  },
  {
   "property": "C24",
   "status": "proved",
   "theorems": [
    "C24_round_trip",
    "C24_accepts_exactly"
   ],
   "note": ""
  },
  {
   "property": "C25",
   "status": "partial",
   "theorems": [
    "C25_terminated_refuted",
    "C25_virtual_never_terminated_refuted",
    "C25_terminated_partial"
   ],
   "note": "Refuted: nabto_device_connection_get_device_fingerprint of a virtual connection returns 64 digits without terminator. Proved for all other fingerprint strings."
  },
  {
   "property": "C26",
   "status": "proved",
   "theorems": [
    "C26_token_shape",
    "C26_alphabet",
    "C26_uniform",
    "C26_every_token",
    "C26_errors_reported",
    "C26_terminates"
   ],
   "note": "Uniformity is stated by counting byte sequences."
  },
  {
   "property": "C27",
   "status": "proved",
   "theorems": [
    "C27_queue_is_an_agenda",
    "C27_never_early",
    "C27_runs_as_taken",
    "C27_at_most_once",
    "C27_taken_in_turn",
    "C27_posted_last"
   ],
   "note": "Refinement of an agenda with an unbounded clock; delays and lateness below 2^30 ms."
  },
  {
   "property": "C28",
   "status": "partial",
   "theorems": [
    "C28_cancelled_never_runs_refuted",
    "C28_destroyed_not_used_refuted",
    "C28_cancelled_never_runs_partial",
    "C28_in_callbacks_partial",
    "C28_destroyed_not_used_partial"
   ],
   "note": "Refuted: the queue thread drops the queue mutex before it locks the core mutex, a cancel or destroy in between is lost (callback runs, freed event used). Proved for cancels made while the event is not in between, e.g. all cancels made in callbacks."
  },
  {
   "property": "C29",
   "status": "partial",
   "theorems": [
    "C29_dead_peer_found_partial",
    "C29_patience",
    "C29_probes_then_closes",
    "C29_live_peer_kept_partial",
    "C29_answering_peer_kept_partial",
    "C29_live_peer_kept_refuted",
    "C29_dead_peer_found_refuted",
    "C29_new_connection_refuted"
   ],
   "note": "Refuted: the uint32 packet counters wrap, a live connection is closed after 2^32 packets; settings with maxRetries + interval/retryInterval = 2^32-1 never time out; a new connection keeps the tick count of the connection before it. Proved for fewer than 2^32 packets and limits below 2^32-1, with the exact number of probes."
  },
  {
   "property": "C30",
   "status": "partial",
   "theorems": [
    "C30_attach_response_refuted",
    "C30_attach_response_partial",
    "C30_settings_taken"
   ],
   "note": "Refuted: RetryInterval 0 (or a multiple of 2^32) divides by zero. Proved that this is the only undefined case, and what every other response changes. CBOR decoding of tinycbor is not modelled, the response is a tree."
  },
  {
   "property": "C31",
   "status": "proved",
   "theorems": [
    "C31_callbacks_once",
    "C31_callbacks_all",
    "C31_nothing_lost_at_stop",
    "C31_error_code",
    "C31_two_callbacks_refuted"
   ],
   "note": "For applications which use a future for one operation at a time and set at most one callback per operation. Setting a second callback before the first one is called corrupts the queue (C31_two_callbacks_refuted)."
  },
  {
   "property": "C32",
   "status": "partial",
   "theorems": [
    "C32_wait_refuted",
    "C32_wait_partial",
    "C32_timed_wait",
    "C32_woken_partial",
    "C32_woken_refuted"
   ],
   "note": "Refuted: nabto_device_future_wait takes a spurious wake up for the result and returns OK on an unresolved future; of two waiters only one is woken, and none when a callback is set. Proved: the result a wait returns once the future is resolved, timed waits for every wake up, and the wake up of a lone waiter."
  },
  {
   "property": "C33",
   "status": "proved",
   "theorems": [
    "C33_in_order",
    "C33_answers",
    "C33_never_idle",
    "C33_futures_once",
    "C33_after_stop",
    "C33_init_twice_refuted"
   ],
   "note": "For a listener initialised once. A second nabto_device_*_init_listener on the same listener loses queued events (C33_init_twice_refuted). What each callback does with a released event is modelled for authorization (C34) only; the CoAP callback does not free the request of the server for events which are released."
  },
  {
   "property": "C34",
   "status": "partial",
   "theorems": [
    "C34_safe",
    "C34_one_verdict",
    "C34_allow_only",
    "C34_everyone_told",
    "C34_memory",
    "C34_stale_listener_refuted"
   ],
   "note": "Refuted: after nabto_device_listener_stop and nabto_device_listener_free the module still points to the freed listener, the next check uses it, and no other listener can be registered. Proved for every other history: one verdict, default deny, first verdict wins, everyone is told, memory released once. Out of memory in the creation of a request is not modelled."
  },
  {
   "property": "C35",
   "status": "partial",
   "theorems": [
    "C35_stream_listener_refuted",
    "C35_read_all_refuted",
    "C35_stop_queue_refuted",
    "C35_then_stuck",
    "C35_release_partial",
    "C35_user_partial",
    "C35_unlock_partial",
    "C35_callbacks"
   ],
   "note": "VIOLATED for three API functions: nabto_device_stream_init_listener and its ephemeral variant (port in use, failed initialisation) and nabto_device_virtual_stream_read_all (read in progress) return with the lock of the device (C35_stream_listener_refuted, C35_read_all_refuted); thread_event_queue_stop_blocking called twice keeps the queue lock (C35_stop_queue_refuted). C35_then_stuck shows the effect. For the other 166 of the 169 API functions, the threads and the callbacks of the core the property is proved for all paths (C35_release_partial, C35_user_partial, C35_unlock_partial, C35_callbacks). The code is modelled as lock skeletons: conditions are choices."
  },
  {
   "property": "C36",
   "status": "partial",
   "theorems": [
    "C36_at_most_once_partial",
    "C36_no_crash_partial",
    "C36_exactly_once_partial",
    "C36_code_partial",
    "C36_posted",
    "C36_in_progress_partial",
    "C36_next_partial",
    "C36_lost_refuted",
    "C36_twice_refuted",
    "C36_accept_refuted"
   ],
   "note": "Futures of the stream API over the model of the core stream. Proved for every history in which the stream is not closed again before the future of the close before is resolved: every future is resolved at most once, never one which was not given, exactly once when the stream has ended and the event queue has run, with the code of the stream; a second accept, read or write is answered OPERATION_IN_PROGRESS and changes nothing. Refuted for the other histories: with a second close the first future is lost and a destroyed event is resolved, or a future is resolved twice; a second accept is rejected also when the first is resolved."
  },
  {
   "property": "C37",
   "status": "proved",
   "theorems": [
    "C37_redirects_bounded",
    "C37_where_to",
    "C37_gives_up"
   ],
   "note": "At most four redirects are followed in one attempt: MAX_REDIRECT_FOLLOW is five, but the counter is compared before the fifth is followed. The DTLS and the CoAP client keep the contracts of [allowed]."
  },
  {
   "property": "C38",
   "status": "partial",
   "theorems": [
    "C38_alternate_refuted",
    "C38_detached_first_refuted",
    "C38_alternate_partial",
    "C38_alternate_own_partial"
   ],
   "note": "Refuted: disabling attaching reports DETACHED a second time, or without an ATTACHED before. Proved: alternation in every history without a disable, and in every history for the events other than the one at the end of a disable."
  },
  {
   "property": "C39",
   "status": "partial",
   "theorems": [
    "C39_at_most_once",
    "C39_no_attempt",
    "C39_completes",
    "C39_closed_is_closed_partial",
    "C39_closed_is_closed_refuted"
   ],
   "note": "Refuted: disable, enable and close in one go reports the close while a name is being resolved. Proved: at most one callback for every call, no attempt after a close, every close can complete and does unless it is overtaken, and the callback is not early when the application does not start again. An overwritten callback (disable followed by close) is never called and is not counted as a failure."
  },
  {
   "property": "C40",
   "status": "partial",
   "theorems": [
    "C40_retries_refuted",
    "C40_cancelled_refuted",
    "C40_outstanding_partial",
    "C40_retries_partial",
    "C40_no_crash"
   ],
   "note": "Refuted when memory runs out: the deferred wait posts itself for ever and no timer is started; a late close event cancels the timer of the next attempt. Proved when starting the resolver and connections never fails for lack of memory; everything else may fail."
  },
  {
   "property": "C41",
   "status": "proved",
   "theorems": [
    "C41_synchronized"
   ],
   "note": "A token which was refused for lack of memory is not counted as added. Overflow of the 64 bit versions is not modelled."
  },
  {
   "property": "C42",
   "status": "partial",
   "theorems": [
    "C42_limit",
    "C42_unique_partial",
    "C42_resolves_partial",
    "C42_reuse_refuted"
   ],
   "note": "Refuted: after 2^64 - 1 connections the counter wraps and references are given again. Proved for every shorter history."
  },
  {
   "property": "C43",
   "status": "partial",
   "theorems": [
    "C43_moved_refuted",
    "C43_moved_partial"
   ],
   "note": "Refuted: any datagram with the 14 byte connection id and the channel of a connection moves its endpoint and the local flag, authenticated or not. Proved: nothing else does, but for authenticated data on another channel."
  },
  {
   "property": "C44",
   "status": "partial",
   "theorems": [
    "C44_dispatch",
    "C44_short",
    "C44_no_crash",
    "C44_ids_unique",
    "C44_delivered",
    "C44_new_partial",
    "C44_hello_refuted"
   ],
   "note": "Refuted: the test for a client hello is one byte (22), which every handshake record has. Proved: dispatch, short packets, no read outside the packet (for sequences of packets of DTLS which carry at least one byte), unique connection ids, delivery."
  },
  {
   "property": "C45",
   "status": "partial",
   "theorems": [
    "C45_at_most_one",
    "C45_not_larger",
    "C45_queue",
    "C45_known_refuted",
    "C45_known_partial"
   ],
   "note": "Refuted: the id is looked up one byte off, a known connection gets no response and an id which contains the known one does. Proved: at most one response for every request and endpoint, not larger, at most ten queued, and no response unless the shifted id is known."
  },
  {
   "property": "C46",
   "status": "proved",
   "theorems": [
    "C46_prefix",
    "C46_nothing_lost",
    "C46_write_ok",
    "C46_at_most_once",
    "C46_read",
    "C46_no_stall",
    "C46_refused"
   ],
   "note": "All histories of operations of both sides; events are numbers used once. Reference counts and the stream list are not part of this model."
  },
  {
   "property": "C47",
   "status": "partial",
   "theorems": [
    "C47_lost_refuted",
    "C47_early_eof_refuted",
    "C47_eof_partial",
    "C47_close_partial",
    "C47_drain_partial"
   ],
   "note": "Violated: C47_lost_refuted (device writes, then closes before the client reads: client gets EOF, bytes, write and close are stuck), C47_early_eof_refuted (read all of the device gets EOF although bytes of the client wait). Proved: EOF of a device read some means everything is received, EOF otherwise means so unless a write waits; a close without waiting write completes; a read some drains a closed client."
  },
  {
   "property": "C48",
   "status": "partial",
   "theorems": [
    "C48_read_refuted",
    "C48_device_abort_refuted",
    "C48_close_refuted",
    "C48_client_abort_partial",
    "C48_aborted_partial",
    "C48_device_partial"
   ],
   "note": "Violated: C48_read_refuted (a client read after its abort never completes), C48_device_abort_refuted (abort by the device leaves the client's operations), C48_close_refuted (abort by the client leaves the device's close). Proved: everything else completes exactly once, with ABORTED when it waited."
  },
  {
   "property": "C49",
   "status": "proved",
   "theorems": [
    "C49_at_most_once",
    "C49_only_begun",
    "C49_rejected",
    "C49_one_of_a_kind",
    "C49_stop",
    "C49_stopped",
    "C49_after_stop",
    "C49_read",
    "C49_read_inside",
    "C49_write",
    "C49_closed"
   ],
   "note": "Operations of a core stream with the stream protocol as an oracle: every operation is completed at most once and, when the stream has been stopped, exactly once; with ABORTED for the outstanding ones and STOPPED for later ones; reads fill the buffer without gaps and report the length."
  },
  {
   "property": "C50",
   "status": "proved",
   "theorems": [
    "C50_ids",
    "C50_ports",
    "C50_listen",
    "C50_limit",
    "C50_opens",
    "C50_offered"
   ],
   "note": "Ids of live streams, ports of listeners, ephemeral ports, the limit on streams, opening and offering, for every history of the stream manager; the streaming protocol is an oracle."
  },
  {
   "property": "C51",
   "status": "partial",
   "theorems": [
    "C51_inside_refuted",
    "C51_inside_partial",
    "C51_long_packets_partial",
    "C51_sent_is_parsed",
    "C51_parsed_is_there"
   ],
   "note": "Refuted: a packet which ends right after its stream id is read one byte too far. Proved: exactly those packets, and the rest parses to what was sent."
  },
  {
   "property": "C52",
   "status": "partial",
   "theorems": [
    "C52_once",
    "C52_release",
    "C52_resolved_partial",
    "C52_meaning",
    "C52_careful_partial",
    "C52_unanswered_refuted",
    "C52_client_free_refuted",
    "C52_payload_refuted",
    "C52_twice_refuted",
    "C52_leak_refuted"
   ],
   "note": "Model of the virtual request parts of nc_coap_server.c and nabto_device_virtual_connection.c. Proved: at most one resolution and one release in every history; released exactly when both sides have freed; resolved when answered, when no resource is found, or when the connection is freed while the client has it; an application which keeps requests until they are resolved meets nothing undefined. Refuted: a request the device side frees unanswered is never resolved (the header promises a 500); freeing before the response leads to a use after free; a payload which fails to be set again makes execute read NULL; executed twice the first future is never resolved and the first request never freed; a payload set twice loses memory."
  },
  {
   "property": "C53",
   "status": "proved",
   "theorems": [
    "C53_status_round_trip"
   ],
   "note": "NABTO_COAP_CODE of the missing submodule is taken from RFC 7252."
  },
  {
   "property": "C54",
   "status": "partial",
   "theorems": [
    "C54_once",
    "C54_progress",
    "C54_stop",
    "C54_content",
    "C54_meaning",
    "C54_name_partial",
    "C54_name_refuted"
   ],
   "note": "Model of nc_stun.c and nc_stun_coap.c with the STUN protocol, the lookups and the sockets as inputs. Proved for all histories: every request for endpoints gets at most one response; all have theirs once the module is stopped, or once no lookup, send or timer is outstanding (as long as the protocol always wants something); the response has the external endpoint exactly if the analysis succeeded, and it is one an analysis found. Refuted: with the threaded resolver the name of the server is read after it was freed when the basestation names another server during a lookup; memory safety is proved without that."
  },
  {
   "property": "C55",
   "status": "partial",
   "theorems": [
    "C55_once",
    "C55_result",
    "C55_refused",
    "C55_found",
    "C55_safe_partial",
    "C55_overflow_refuted"
   ],
   "note": "Model of nc_dns_multi_resolver.c with both resolvers, nm_unix_dns.c and nm_libevent_dns.c. Proved for all histories without a crash: one completion per request; the result is the first n addresses of the alternation, or the error of v4 if both lookups failed; refused only while another request is under way; addresses are those the system gave. Refuted: with nm_unix_dns.c more than four addresses of one family are written outside the array; safe with libevent or with at most four."
  },
  {
   "property": "C56",
   "status": "partial",
   "theorems": [
    "C56_authorised",
    "C56_limit",
    "C56_granted",
    "C56_streams",
    "C56_open",
    "C56_removed",
    "C56_alive_refuted"
   ],
   "note": "Model of nm_tcp_tunnel.c. Proved: a tunnel is opened only after an allow for TcpTunnel:Connect asked once with the connection of the stream and the identifier and type of the service at whose port the stream came, to the address of that service, while it is there; opening never takes the open tunnels of a type above the limit; an allowed stream within the limit is opened; each stream is settled once; open tunnels belong to services which are there; a stream waiting when its service is removed is never opened. Refuted: tunnels of removed services which have not ended yet are not counted, so more than the limit may be alive."
  },
  {
   "property": "C57",
   "status": "proved",
   "theorems": [
    "C57_relay",
    "C57_once",
    "C57_release_idle",
    "C57_never_forgotten"
   ],
   "note": "Model of nm_tcp_tunnel_connection.c with both TCP sockets and the stream operations it uses; posted completions run in any order. Prefixes in both directions, released exactly once, only by its last completion with nothing outstanding, never forgotten while live."
  },
  {
   "property": "C58",
   "status": "partial",
   "theorems": [
    "C58_in_order",
    "C58_freed",
    "C58_no_stall_partial",
    "C58_drains_partial",
    "C58_close_does_not_cancel",
    "C58_sent_partial",
    "C58_stall_refuted"
   ],
   "note": "Refuted: when a write fails or finds no buffer, the rest of the queue is not sent until something else happens on the connection. Proved: order and at most one completion always, all complete when the connection is freed, and no stall while every write has put a packet on its way. mbedtls is an oracle."
  },
  {
   "property": "C59",
   "status": "partial",
   "theorems": [
    "C59_at_most_once_partial",
    "C59_exactly_once_partial",
    "C59_no_crash",
    "C59_overlap_refuted",
    "C59_twice_refuted",
    "C59_stop_refuted"
   ],
   "note": "Refuted: a start while another start is in progress loses the future of the first (or resolves that of the second twice), and nabto_device_stop while client connections are being closed leaves the future of the close unresolved. Proved for all histories without these: at most once, and exactly once when the platform completes what it was asked for. A close during a start resolves with STOPPED."
  },
  {
   "property": "C60",
   "status": "partial",
   "theorems": [
    "C60_strings_partial",
    "C60_settings",
    "C60_key",
    "C60_ports_partial",
    "C60_ports_refuted",
    "C60_use_after_free_refuted",
    "C60_root_certs_partial",
    "C60_root_certs_refuted",
    "C60_host_refuted"
   ],
   "note": "Refuted: product id, device id, server url, app name and version are accepted after the start, and the attacher then uses freed strings; the local port is read after the first socket is bound; root certificates are accepted after a start without attach; a failed start leaves its default host behind. Proved: settings of modules are refused without effect, the key has no effect, and without string setters after the start every attempt uses the configuration of the start."
  },
  {
   "property": "C61",
   "status": "partial",
   "theorems": [
    "C61_value_order_refuted",
    "C61_value_order_partial",
    "C61_string_conditions_well_typed"
   ],
   "note": "Refuted when some value does not parse; proved for well typed values."
  },
  {
   "property": "C62",
   "status": "partial",
   "theorems": [
    "C62_tokens_registered_refuted",
    "C62_tokens_registered_partial"
   ],
   "note": "Refuted through nm_iam_set_user_sct; proved for histories without it and without device errors in the CoAP variant."
  },
  {
   "property": "C63",
   "status": "partial",
   "theorems": [
    "C63_optional_name_refuted",
    "C63_given_arguments_defined_partial"
   ],
   "note": "Refuted: NULL fingerprint name is dereferenced; with all strings given no call is undefined."
  },
  {
   "property": "C64",
   "status": "partial",
   "theorems": [
    "C64_requests_defined_refuted",
    "C64_requests_defined_partial"
   ],
   "note": "Refuted: create user with a CBOR null username. Every other request is defined as long as no user pointer dangles (C17)."
  },
  {
   "property": "C65",
   "status": "partial",
   "theorems": [
    "C65_restriction_dropped_refuted",
    "C65_restrictions_kept_partial"
   ],
   "note": "Refuted: a Conditions value which is an object is ignored, further operators or keys of a condition object are ignored. Proved for lists of conditions with one operator and one key each."
  },
  {
   "property": "C66",
   "status": "partial",
   "theorems": [
    "C66_unknown_version_refuted",
    "C66_newer_version_partial",
    "C66_refused_load_changes_nothing",
    "C66_version_1_fingerprint"
   ],
   "note": "Refuted: versions below 1 are accepted and lose the fingerprints. Newer versions are refused, refused loads change nothing, version 1 fingerprints are kept."
  },
  {
   "property": "C67",
   "status": "partial",
   "theorems": [
    "C67_user_lost_refuted",
    "C67_users_kept_partial"
   ],
   "note": "Refuted: a user whose name is not valid any more is skipped silently. Proved for documents with valid names."
  },
  {
   "property": "C68",
   "status": "proved",
   "theorems": [
    "C68_key_bound_to_inputs",
    "C68_transcript_injective"
   ],
   "note": "Curve and hash are arbitrary; collisions of the hash are the explicit alternative."
  },
  {
   "property": "C69",
   "status": "proved",
   "theorems": [
    "C69_right_password_accepted"
   ],
   "note": "The client is the SPAKE2 counterpart, it is not part of the repository."
  },
  {
   "property": "C70",
   "status": "partial",
   "theorems": [
    "C70_username_refuted",
    "C70_username_partial"
   ],
   "note": "Refuted: NULL username of a connection without a completed exchange. Proved for authenticated connections."
  },
  {
   "property": "C71",
   "status": "proved",
   "theorems": [
    "C71_no_oversleeping"
   ],
   "note": ""
  },
  {
   "property": "C72",
   "status": "partial",
   "theorems": [
    "C72_packets",
    "C72_one_at_a_time",
    "C72_answered",
    "C72_silent_without_completion",
    "C72_length_partial",
    "C72_length_refuted"
   ],
   "note": "Refuted in part: the length is stored through a size_t pointer to a uint16_t field, which gives length 0 on big endian machines; and a send refused by the DTLS layer comes without completion, after which keep alive is silent for good (C72_silent_without_completion). The rest is proved."
  },
  {
   "property": "C73",
   "status": "partial",
   "theorems": [
    "C73_closed_once_partial",
    "C73_never_refuted",
    "C73_accepts_refuted"
   ],
   "note": "Refuted: when DTLS reports the last end during the call, OK is returned and the callback never comes; new connections are accepted while closing. Proved: exactly once when DTLS reports every end later."
  },
  {
   "property": "C74",
   "status": "partial",
   "theorems": [
    "C74_amplified_refuted",
    "C74_reply_partial",
    "C74_one_at_a_time"
   ],
   "note": "Refuted: a 17 byte packet is answered with 31 bytes. The rest is proved."
  },
  {
   "property": "C75",
   "status": "partial",
   "theorems": [
    "C75_never_refuted",
    "C75_stays_refuted",
    "C75_follows_partial"
   ],
   "note": "Refuted: with the DTLS server the channel of the packet is not passed on, the channel never changes. Proved for builds with NABTO_DEVICE_DTLS_CLIENT_ONLY."
  },
  {
   "property": "C76",
   "status": "partial",
   "theorems": [
    "C76_one_at_a_time",
    "C76_completes",
    "C76_sent_partial",
    "C76_lost_refuted"
   ],
   "note": "Refuted: a send on a channel which has been replaced is accepted, but no packet is sent and it never completes. Proved for the current and the default channel, and exactly one completion."
  },
  {
   "property": "C77",
   "status": "partial",
   "theorems": [
    "C77_reported_at_most_once",
    "C77_not_before",
    "C77_released_partial",
    "C77_leak_refuted",
    "C77_leak_always_refuted",
    "C77_use_after_free_refuted",
    "C77_stale_refuted"
   ],
   "note": "Refuted: an end found while a packet is on its way leaks the connection (a failed handshake with alert), a lost connection still reports to its owner, and an end found in a send callback uses freed memory. Proved: reported and freed at most once always; the rest for ends which are found outside of send callbacks and with no packet on its way or after a close."
  },
  {
   "property": "C78",
   "status": "partial",
   "theorems": [
    "C78_at_most_once",
    "C78_released",
    "C78_not_before",
    "C78_close_partial",
    "C78_eof_refuted",
    "C78_stale_partial",
    "C78_stale_refuted"
   ],
   "note": "Refuted: after mbedtls_ssl_read returns 0 no end is ever reported, not even after a close; a connection which was destroyed while a packet was on its way reports CLOSED to its owner when that packet completes. Proved: at most one end, released exactly once and not used afterwards, for every history; close leads to the end when there is no end of file; and no other event is stale."
  },
  {
   "property": "C79",
   "status": "partial",
   "theorems": [
    "C79_in_order",
    "C79_freed",
    "C79_no_stall_partial",
    "C79_drains_partial",
    "C79_sent_partial",
    "C79_eof_refuted"
   ],
   "note": "Refuted: after an end of file accepted sends do not complete until the connection is destroyed. Proved: order, at most one completion, all complete at the end, and no stall without an end of file."
  },
  {
   "property": "C80",
   "status": "partial",
   "theorems": [
    "C80_attaches_partial",
    "C80_not_before",
    "C80_stopped",
    "C80_closed_partial",
    "C80_disabled_refuted",
    "C80_enabled_refuted"
   ],
   "note": "Refuted: calls while a start is in progress (disabled is ignored, enabled makes the start fail half way). Proved for all other histories; not after a stop always; not after a successful close for devices which are not started again."
  },
  {
   "property": "C81",
   "status": "partial",
   "theorems": [
    "C81_read",
    "C81_write_partial",
    "C81_eof",
    "C81_close",
    "C81_accept",
    "C81_empty_write_refuted"
   ],
   "note": "Reads, writes of at least one byte, accepts, closes and the end of the stream complete with the event which allows it. Refuted: a write of zero bytes waits until the stream ends."
  },
  {
   "property": "C82",
   "status": "partial",
   "theorems": [
    "C82_no_listener_refuted",
    "C82_refused_refuted",
    "C82_no_crash_partial",
    "C82_in_use",
    "C82_no_leak",
    "C82_no_leak_virtual"
   ],
   "note": "Proved: no lawful history in which virtual streams are opened only to served ports uses a freed stream or frees one twice, streams in use are not freed, and ended streams which are given back are freed. Refuted: opening a virtual stream to a port without a listener, or to a listener which does not take it, uses a freed stream (nc_stream_manager_accept_virtual_stream, nc_virtual_stream_init)."
  },
  {
   "property": "C83",
   "status": "partial",
   "theorems": [
    "C83_rst_refuted",
    "C83_stream_refuted",
    "C83_rst_partial",
    "C83_stream_partial"
   ],
   "note": "Refuted: after DTLS refuses an RST no RST is ever sent again (rstBuf stays set), and after it refuses a packet of a stream the stream never sends again (isSending stays set). Proved as long as DTLS refuses nothing."
  },
  {
   "property": "C84",
   "status": "partial",
   "theorems": [
    "C84_order_partial",
    "C84_no_deadlock_partial"
   ],
   "note": "Proved for all API functions but the three which keep the lock (see C35), for any number of threads and any interleaving. A wait for a condition is modelled as one which may end at any time; joins are excluded, as a callback of the user which stops the device joins its own thread."
  },
  {
   "property": "C85",
   "status": "partial",
   "theorems": [
    "C85_refuted",
    "C85_stop_refuted",
    "C85_core_locked_partial",
    "C85_callbacks_partial"
   ],
   "note": "VIOLATED by nabto_device_listener_new (list of listeners), nabto_device_ice_servers_request_new (CoAP client) and nabto_device_stop (walks the list of listeners) (C85_refuted, C85_stop_refuted). Proved for 159 of the 169 API functions, the threads and the callbacks (C85_core_locked_partial, C85_callbacks_partial); the others excluded are nabto_device_new, nabto_device_free, nabto_device_get_app_name and nabto_device_get_app_version, and the three of C35."
  },
  {
   "property": "C86",
   "status": "partial",
   "theorems": [
    "C86_service_refuted",
    "C86_client_refuted",
    "C86_abort_refuted",
    "C86_close_partial",
    "C86_eof_passed",
    "C86_shut_partial"
   ],
   "note": "Refuted: a TCP failure before the first byte is read is shown to the client as a clean end, even when bytes had arrived (rlen is 0); an aborted stream or a lost client is shown to the service as a clean end (streamReadSize is 0). Proved: a clean end to the client means that the service closed and all bytes were passed on, or that the connection failed and no byte was passed on; a clean end to the service means that all bytes were passed on and the stream had ended, was gone or was stopped; an end of the service is passed on when the stream stands."
  },
  {
   "property": "C87",
   "status": "partial",
   "theorems": [
    "C87_remove_refuted",
    "C87_failure_refuted",
    "C87_client_refuted",
    "C87_remove_select_partial",
    "C87_remove_libevent_partial"
   ],
   "note": "Refuted: with libevent a removal just after connecting, or a failure while bytes are being written, leaves the connection for ever or until the service acts; with both, a lost client leaves it until the service acts. Proved: with select, five events after the removal it is released whatever happens; with libevent the same when it is the first stop and no successful completion is waiting."
  },
  {
   "property": "C88",
   "status": "partial",
   "theorems": [
    "C88_list",
    "C88_info_partial",
    "C88_info_same_partial",
    "C88_info_refuted",
    "C88_once"
   ],
   "note": "Refuted: the service is looked up again by its identifier after the verdict, so when it was removed and added again with another type the client is told about a type the application was never asked about. Proved: the list goes out only after an allow of TcpTunnel:ListServices and has the services there are; data go out only after an allow for that identifier, and for that type unless a service of that identifier was removed in between; each request is answered once."
  },
  {
   "property": "C89",
   "status": "partial",
   "theorems": [
    "C89_not_found",
    "C89_add",
    "C89_limit",
    "C89_metadata_partial",
    "C89_metadata_refuted",
    "C89_limit_refuted",
    "C89_leak_refuted"
   ],
   "note": "Refuted when memory runs out: metadata is reported as set although old and new value are gone; a limit which could not be set removes the old one; a service which could not be added is never freed. Proved: not found means exactly that there is none and nothing changed; adding adds that service or leaves services, limits and requests as they were; the limits in force are those set last; metadata set is what clients are told."
  },
  {
   "property": "C90",
   "status": "partial",
   "theorems": [
    "C90_request",
    "C90_path",
    "C90_response",
    "C90_not_found",
    "C90_not_yet",
    "C90_format_refuted",
    "C90_error_refuted"
   ],
   "note": "Proved: the handler gets the segments, payload and content format given; any path of nonempty-ended segments, with or without a slash at the end, becomes these segments; the client reads what was set last, 404 without a resource, INVALID_STATE before the response. Refuted: a content format is told which was never set, UNKNOWN instead of NO_DATA for a missing payload, and an error response whose message cannot be allocated is reported as sent and is sent without it."
  },
  {
   "property": "C91",
   "status": "partial",
   "theorems": [
    "C91_progress_partial",
    "C91_single",
    "C91_refused_refuted",
    "C91_forgotten_refuted"
   ],
   "note": "Model of the event loops of nc_coap_client.c and nc_coap_server.c with the protocol as an input. Proved: one packet at DTLS at a time and each buffer freed once, in every history; nothing wanted is forgotten as long as DTLS takes packets, waits are shorter than three days and the timer fires at least every three days. Refuted: after 2^29 ms without the timer the next wait arms none; a packet which DTLS refuses (closing connection) blocks all later packets on all connections."
  },
  {
   "property": "C92",
   "status": "partial",
   "theorems": [
    "C92_descriptors_partial",
    "C92_rebind_refuted",
    "C92_close_refuted",
    "C92_ipv4_partial",
    "C92_ipv4_refuted",
    "C92_in_use_partial",
    "C92_in_use_refuted",
    "C92_reception",
    "C92_order",
    "C92_failure_partial",
    "C92_failure_refuted"
   ],
   "note": "Model of nm_select_unix_udp.c, nm_libevent_udp.c and the receive loop of nc_udp_dispatch.c with the table of open descriptors and the rest of the process as environment. Proved for all histories: reception goes on after it was started until abort, destroy or a reported failure (C92_reception), packets are handed on in order and once (C92_order), descriptors are balanced and nothing foreign is touched as long as the socket is not bound again after it was bound and, with the select module, no bind fails (C92_descriptors_partial), failures are reported only after an abort, a read error or a double start. Refuted: a second start leaks the first descriptor (both modules); a failed bind of the select module makes destroy close whatever was opened under the number since; on a host without IPv6 the select module always fails and leaks; it never reports a port in use; stopping a device without any error reports a platform failure."
  },
  {
   "property": "C93",
   "status": "partial",
   "theorems": [
    "C93_once_partial",
    "C93_writes_partial",
    "C93_connect_partial",
    "C93_progress_partial",
    "C93_writes_refuted",
    "C93_once_refuted",
    "C93_crash_refuted",
    "C93_connect_refuted",
    "C93_select_refuted",
    "C93_progress_refuted",
    "C93_descriptor_refuted"
   ],
   "note": "Model of one socket of nm_select_unix_tcp.c with the loop of nm_select_unix.c, both threads stepping at the granularity of the accesses to the shared fields. The module shares the fields between the core thread and the network thread without a lock. Proved for the histories in which the calls exclude the network thread (as a lock would make them): once, no NULL event, all done after an abort, bytes in order and complete, and, when select does not fail, connections reported only when established and pending operations completed. Refuted without that: a write reported done of which nothing was sent, a read completed twice, a NULL event resolved, a connection reported before connect(). Refuted even with it: a select which fails (EINTR) reports a pending connection as established, and makes the network thread sleep for ever in the read of an empty pipe; FD_ISSET of -1 for a socket not connected yet."
  },
  {
   "property": "C94",
   "status": "partial",
   "theorems": [
    "C94_once",
    "C94_resolved",
    "C94_request_partial",
    "C94_safe_partial",
    "C94_response_partial",
    "C94_status",
    "C94_complete_partial",
    "C94_accept",
    "C94_release_partial",
    "C94_busy_partial",
    "C94_connection_refuted",
    "C94_stop_refuted",
    "C94_state_refuted",
    "C94_message_refuted",
    "C94_list_refuted",
    "C94_status_refuted",
    "C94_body_refuted",
    "C94_complete_refuted",
    "C94_release_refuted",
    "C94_retry_refuted",
    "C94_return_refuted",
    "C94_identifier_refuted"
   ],
   "note": "Model of nc_attacher_fcm.c, nc_attacher_service_invoke.c, nc_attacher_ice_servers.c and their API files with the CoAP client as an input and payloads as CBOR trees. Proved for all histories: at most one resolution (C94_once), exactly one when answered (C94_resolved), what is sent is what was set last and, but for ICE requests, goes to the current connection (C94_request_partial), every good answer is a success (C94_accept), what is told after a success is in the answer when its integers fit in 32 bits (C94_response_partial), the status is 0 until a success (C94_status), CoAP requests are released when no allocation fails, nothing undefined for an application which sets everything first and does not stop after the answer. Refuted: ICE requests go to the connection there was when the object was made; stop after completion uses freed memory; a missing project id or a message which could not be copied reads NULL instead of INVALID_STATE; a server which is not a map is undefined; 2^32+200 is told as 200; a body is told after BAD_RESPONSE; a credential without username is dropped; a CoAP request is lost when its buffer cannot be allocated; after NOT_ATTACHED the object says IN_PROGRESS for ever; an ICE request returns OK when not attached, and takes any identifier."
  },
  {
   "property": "C95",
   "status": "partial",
   "theorems": [
    "C95_allowed_partial",
    "C95_allowed_refuted",
    "C95_me",
    "C95_user",
    "C95_settings",
    "C95_pairing",
    "C95_categories",
    "C95_user_secret",
    "C95_open_secret",
    "C95_accept",
    "C95_users_refuted",
    "C95_roles_refuted",
    "C95_answered_partial",
    "C95_alive",
    "C95_answered_refuted",
    "C95_fcm_partial",
    "C95_fcm_message_refuted",
    "C95_fcm_reply",
    "C95_fcm_once_partial",
    "C95_fcm_alive_partial",
    "C95_fcm_failed_refuted"
   ],
   "note": "Model of the reading CoAP handlers of the IAM module, of the tinycbor encoder they use (byte level, both passes) and of the fcm-test handler. Proved for all states, policies and requests: no answer but a refusal without permission when the username could be inserted (C95_allowed_partial); payloads decode, with an independent CBOR decoder, to exactly the stored values (C95_me, C95_user, C95_settings, C95_pairing, C95_categories; payloads below 2^64 bytes); answers do not depend on passwords (C95_user_secret, C95_open_secret); allowed requests are told (C95_accept); with memory every request is answered (C95_answered_partial) and nothing freed is used while the users of connections exist (C95_alive); test notifications (C95_fcm_partial, C95_fcm_reply, C95_fcm_once_partial, C95_fcm_alive_partial). Violated by the code: a failed insertion of the username bypasses a Deny on it (C95_allowed_refuted); GET /iam/users never tells the users and GET /iam/roles never the roles, because the first encoding pass stops at the OutOfMemory it has to expect (C95_users_refuted, C95_roles_refuted); without memory four handlers give no answer (C95_answered_refuted); the token is put into the JSON message unescaped (C95_fcm_message_refuted); after a failed notification ctx is read after it was freed (C95_fcm_failed_refuted). The access check itself is the subject of C01-C06."
  },
  {
   "property": "C96",
   "status": "partial",
   "theorems": [
    "C96_descriptor_partial",
    "C96_descriptor_refuted",
    "C96_content",
    "C96_listen_published",
    "C96_reason",
    "C96_answer",
    "C96_announce",
    "C96_listening_partial",
    "C96_listening_refuted",
    "C96_reply_target",
    "C96_close_once",
    "C96_goodbye_once",
    "C96_goodbye_v4_partial",
    "C96_goodbye_v6_partial",
    "C96_goodbye_refuted",
    "C96_close_code_refuted",
    "C96_update_refuted"
   ],
   "note": "Content, reasons, answers, announcements, single outstanding operation, reply target, single answer to close and single goodbye are proved for every history. Violations proved: one receive error silences a family for good although the service stays published (C96_listening_refuted); the IPv4 goodbye is skipped when something is being sent although close answers OK (C96_goodbye_refuted); close answers IN_PROGRESS or UNKNOWN without any platform error (C96_close_code_refuted); a changed description is not announced (C96_update_refuted); a bind failing after socket() leaves the closed descriptor number in the socket, so the goodbye is sent on and destruction closes a foreign descriptor (C96_descriptor_refuted, both platforms)."
  },
  {
   "property": "C97",
   "status": "partial",
   "theorems": [
    "C97_answer",
    "C97_yes",
    "C97_once",
    "C97_asked",
    "C97_answered",
    "C97_defined",
    "C97_shortage_refuted",
    "C97_identity_refuted",
    "C97_shortage_partial"
   ],
   "note": "The authorization module (AuthModel), the IAM state machine (IamStateModel), the handler of nm_iam_auth_handler.c and the askers of the tunnel module run together. Proved for every history: answers are the decisions of the policies (C97_answer), yes only comes from the handler (C97_yes), at most one answer and only to questions asked (C97_once), questions are passed on unless memory is short (C97_asked), from every state the device's own steps answer every question whatever memory there is (C97_answered), nothing is undefined but for users freed under the handler, which is C17 (C97_defined). Violations proved: when an insertion into the attribute map fails a deny statement no longer applies and the service is granted (C97_shortage_refuted); when the fingerprint cannot be written out a paired user is judged as unpaired (C97_identity_refuted). C97_shortage_partial: with the identity looked up, a configuration which only allows and only compares strings never grants because of missing memory."
  },
  {
   "property": "C98",
   "status": "partial",
   "theorems": [
    "C98_whole_state",
    "C98_broken_file_refused",
    "C98_latest_partial",
    "C98_not_opened_unchanged",
    "C98_starts_again_partial",
    "C98_same_identity",
    "C98_power_loss_refuted",
    "C98_disk_full_refuted",
    "C98_promise_refuted",
    "C98_odd_fingerprint_refuted",
    "C98_first_start_refuted"
   ],
   "note": "Proved for every history: whole states only (C98_whole_state), broken files are refused and left alone, the latest saved state is the one a later start has when the file could be opened (C98_latest_partial), a completely saved state is started again with the same identity under the listed conditions (C98_starts_again_partial), one identity (C98_same_identity). Refuted, each with a concrete history: the file is emptied before it is written, so power loss during a save leaves a device which never starts again (C98_power_loss_refuted); the result of fclose is ignored, so a full disk does the same without any message (C98_disk_full_refuted); the answer is sent before the save (C98_promise_refuted); a request may store a fingerprint of another length, after which the device refuses its own file for ever (C98_odd_fingerprint_refuted); power loss while the key is made (C98_first_start_refuted)."
  },
  {
   "property": "C99",
   "status": "partial",
   "theorems": [
    "C99_matrix",
    "C99_roles_ordered",
    "C99_changes",
    "C99_given_to_nobody",
    "C99_no_escalation",
    "C99_no_tunnels",
    "C99_first_start",
    "C99_owner",
    "C99_modes",
    "C99_owner_refuted",
    "C99_password",
    "C99_password_fair"
   ],
   "note": "The default configuration and the three setups, on top of the IAM, JSON and file models. Proved: the role table (C99_matrix), the order of the roles (C99_roles_ordered), who changes what (C99_changes, C99_given_to_nobody), no escalation over all histories with restarts and power losses after a careful setup (C99_no_escalation, C99_no_tunnels; the administrator's password and local initial pairing are excluded), the first start (C99_first_start), the owner's pairing (C99_owner), passwords (C99_password, C99_password_fair). Refuted: the results of random_password are not checked, so a setup whose generator fails reports success and leaves a device nobody can log in to (C99_owner_refuted). The demo setup makes everybody near it an administrator by design (C99_ex_demo)."
  },
  {
   "property": "C100",
   "status": "partial",
   "theorems": [
    "C100_exact",
    "C100_definitions",
    "C100_hosts",
    "C100_runs",
    "C100_written",
    "C100_torn",
    "C100_default",
    "C100_kept",
    "C100_first_start_refuted",
    "C100_same_id_refuted",
    "C100_port_refuted",
    "C100_memory_refuted",
    "C100_crash_refuted",
    "C100_no_crash_partial",
    "C100_config",
    "C100_config_torn",
    "C100_config_read"
   ],
   "note": "On the JSON and tunnel models, for every text and every history of starts. Proved: the services offered are exactly those described when ids and metadata names differ and memory suffices (C100_exact, C100_runs), nothing but arrays of definitions (C100_definitions), hosts (C100_hosts), written files describe their services (C100_written), cut files never run (C100_torn), the default (C100_default), files are kept (C100_kept), no crash with memory for the text (C100_no_crash_partial), the device configuration (C100_config, C100_config_torn, C100_config_read). Refuted: a first start which loses power while it writes the default file leaves a device which never runs again (C100_first_start_refuted); of two services with one id the first gets the metadata of the second (C100_same_id_refuted); a port above 65535 is taken and changed (C100_port_refuted); memory which ends while the vector grows drops a service silently (C100_memory_refuted); the text buffer is used unchecked (C100_crash_refuted)."
  },
  {
   "property": "C101",
   "status": "partial",
   "theorems": [
    "C101_cancelled",
    "C101_status_partial",
    "C101_status_refuted",
    "C101_callback"
   ],
   "note": "For every history and every start of the clock: cancelled timers (C101_cancelled), the answers (C101_status_partial, for intermediate delays and waits of at most 2^31 ms), the report of the final delay (C101_callback). Refuted: the intermediate delay is compared as a signed 32 bit difference, so that after 2^31 ms the answer goes back from 1 to 0 (C101_status_refuted)."
  },
  {
   "property": "C102",
   "status": "partial",
   "theorems": [
    "C102_report",
    "C102_attached",
    "C102_device_refuted",
    "C102_healthy_refuted"
   ],
   "note": "For every history of a watchdog: when it reports (C102_report) and that it never does while attached (C102_attached). Refuted: no device has a watchdog, nc_attacher_watchdog_init is called by a test only, so the documented event is never given (C102_device_refuted); a device waiting an hour after a refusal or told to detach would be reported after ten minutes (C102_healthy_refuted)."
  },
  {
   "property": "C103",
   "status": "partial",
   "theorems": [
    "C103_prompt",
    "C103_inside",
    "C103_yes_no",
    "C103_number",
    "C103_range",
    "C103_service_partial",
    "C103_cut_refuted",
    "C103_tab_refuted",
    "C103_memory_refuted",
    "C103_end_refuted",
    "C103_zero_refuted"
   ],
   "note": "For every buffer, memory and input: lines (C103_prompt), no write outside (C103_inside), yes and no (C103_yes_no), numbers (C103_number, C103_range), a service from its lines when texts have at most nineteen characters (C103_service_partial). Refuted: a text of twenty characters, as many as the question allows, loses its last one silently (C103_cut_refuted); unprintable characters leave gaps, so 2<tab>2 is 2 (C103_tab_refuted) and a line which is no ASCII means what the memory held (C103_memory_refuted); a zero byte leaves a string without end (C103_zero_refuted); at the end of the input questions without a default are asked for ever (C103_end_refuted)."
  },
  {
   "property": "C104",
   "status": "partial",
   "theorems": [
    "C104_safe",
    "C104_text",
    "C104_invalid",
    "C104_silent_refuted",
    "C104_pointer_refuted",
    "C104_token"
   ],
   "note": "The parser (nabto_coap) is not in the repository: its results are inputs, with tokens of at most eight bytes (C104_token shows that safety needs this). Proved for every message: no write outside (C104_safe), the text (C104_text, C104_invalid). Refuted: a line whose last text does not fit is logged as if it were whole (C104_silent_refuted); after a long path a pointer lies far outside of the buffer, which the C standard forbids though nothing is written there (C104_pointer_refuted)."
  },
  {
   "property": "C105",
   "status": "partial",
   "theorems": [
    "C105_addresses",
    "C105_local_network_refuted",
    "C105_two_networks_refuted"
   ],
   "note": "Proved for all answers of the system and all room (C105_addresses): the address each family would send from, in order, inside the room, with the sockets closed. Refuted: the address is that of the route to a public server, so a host without a default route tells none of its local addresses (C105_local_network_refuted) and a host in two networks tells one (C105_two_networks_refuted)."
  },
  {
   "property": "C106",
   "status": "partial",
   "theorems": [
    "C106_delivery",
    "C106_level_unique",
    "C106_callback_unique",
    "C106_level",
    "C106_first_device_refuted",
    "C106_utf8_refuted"
   ],
   "note": "Proved for every history, message and memory: delivery (C106_delivery), with the level and the callback of a history unique (C106_level_unique, C106_callback_unique), and invalid levels (C106_level). Refuted: what fails in nabto_device_new before nabto_device_logging_init is not given to a callback set before the first device (C106_first_device_refuted); a text is cut after 254 bytes wherever that is, so a message may be no UTF-8 (C106_utf8_refuted)."
  },
  {
   "property": "C107",
   "status": "partial",
   "theorems": [
    "C107_mutex",
    "C107_post_partial",
    "C107_double",
    "C107_timed",
    "C107_cancel",
    "C107_lost_refuted",
    "C107_deadlock_refuted"
   ],
   "note": "libevent is not in the repository, what is assumed of it heads LeqModel.v; nothing in the repository calls libevent_event_queue_create, it is offered to integrators. Proved for every interleaving: the mutex (C107_mutex), double posts (C107_double), timed events (C107_timed), cancelled ones (C107_cancel), and posts as long as no event is cancelled between a post and its callback (C107_post_partial). Refuted: cancel drops a posted event and leaves its flag, after which post_maybe_double does nothing for ever (C107_lost_refuted); cancelling a timer the loop has just taken stops both threads for ever (C107_deadlock_refuted)."
  }
 ]
}