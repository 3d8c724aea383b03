{"id": "C01", "title": "IAM grants access exactly when the policies say so", "statement": "nm_iam_check_access on a role returns true if and only if every policy named by the role is configured, no statement of those policies that applies to the action and attributes is a Deny or evaluates to an error, and at least one applying statement is an Allow.", "quantifier": "every configuration (roles, policies, statements, conditions), every action, every attribute map", "why_tests_cant": "the policy language is unbounded: any number of policies, statements and conditions combine; a test samples a few documents", "anchors": ["src/modules/iam/nm_iam_internal.c: nm_iam_internal_check_access, nm_iam_check_access_role", "src/modules/iam/policies/nm_policy.c: nm_policy_eval, nm_policy_statement_eval", "src/modules/iam/policies/nm_statement.c: nm_statement_eval"]}
{"id": "C02", "title": "Order of policies and statements never changes an access decision", "statement": "Reordering the policies of a role or the statements of a policy never changes whether an access request is granted.", "quantifier": "every permutation of every policy list and statement list, every action and attribute map", "why_tests_cant": "the number of permutations is factorial; evaluation is a stateful left-to-right fold", "anchors": ["src/modules/iam/policies/nm_policy.c: nm_policy_statement_eval", "src/modules/iam/nm_iam_internal.c: nm_iam_check_access_role"]}
{"id": "C03", "title": "Deny by default and deny wins", "statement": "A request is denied when the role is unset or unknown, when no statement applies, or when any applying statement says Deny, whatever else is configured; adding further Deny statements never turns a denial into a grant.", "quantifier": "every configuration, action, attribute map and additional statement", "why_tests_cant": "must hold for all configurations, including ones combined with arbitrary Allow statements", "anchors": ["src/modules/iam/nm_iam_internal.c: nm_iam_internal_check_access, nm_iam_check_access_role", "src/modules/iam/policies/nm_policy.c"]}
{"id": "C04", "title": "Condition operators mean what the policy documentation says", "statement": "A condition over an attribute that is not present never applies the statement; StringEquals applies exactly when some (variable-resolved) value equals the attribute; the numeric and boolean operators apply exactly when some value satisfies the comparison, and an unparsable operand makes the whole request denied; a condition value ${name} stands for the attribute called name.", "quantifier": "every condition, operator, list of values and attribute map", "why_tests_cant": "unbounded strings, value lists and attribute maps", "anchors": ["src/modules/iam/policies/nm_condition.c: nm_condition_matches, match, resolve_value, numeric_operator, bool_equals, parse_bool"]}
{"id": "C05", "title": "StringNotEquals excludes every listed value", "statement": "A StringNotEquals condition applies only if the attribute differs from all listed values.", "quantifier": "every value list and attribute value", "why_tests_cant": "a one-value test passes; only lists with two different values expose the quantifier order", "anchors": ["src/modules/iam/policies/nm_condition.c: nm_condition_matches, match", "src/modules/iam/policies/nm_condition.h"]}
{"id": "C06", "title": "Access decisions use the right identity", "statement": "An access request on a connection is evaluated with the role of the user paired with the connection's client fingerprint if there is one, else of the user the connection is password authenticated as, else of the user the connection was authorized as, else with the configured unpaired role; a non virtual connection without a client fingerprint is always denied.", "quantifier": "every IAM state, every connection and every combination of authentication results", "why_tests_cant": "the cross product of fingerprint, password and token identities over arbitrary user lists", "anchors": ["src/modules/iam/nm_iam_internal.c: nm_iam_internal_check_access, nm_iam_internal_find_user_by_fingerprint", "src/modules/iam/nm_iam_state.c: nm_iam_state_find_user_by_username"]}
{"id": "C07", "title": "Usernames are always valid and unique", "statement": "After any sequence of user management API calls, pairings and CoAP user operations starting from an empty state, every user has a non empty username made of [a-z0-9_.-] and no two users have the same username.", "quantifier": "every history of operations with arbitrary arguments", "why_tests_cant": "histories are unbounded; duplicates may only show up after particular interleavings of create, rename, pair and delete", "anchors": ["src/modules/iam/nm_iam_internal.c: nm_iam_internal_create_user, nm_iam_internal_pair_new_client", "src/modules/iam/nm_iam_user.c: nm_iam_user_validate_username, nm_iam_user_set_username", "src/modules/iam/coap_handler/nm_iam_set_user_name.c"]}
{"id": "C08", "title": "One client fingerprint identifies at most one user", "statement": "No sequence of IAM operations leads to a state in which the same client public key fingerprint belongs to two different users.", "quantifier": "every history of operations", "why_tests_cant": "requires reasoning over all histories and all entry points that write fingerprints", "anchors": ["src/modules/iam/nm_iam_internal.c: nm_iam_internal_set_user_fingerprint, nm_iam_internal_add_user_fingerprint, nm_iam_internal_pair_new_client", "src/modules/iam/coap_handler/nm_iam_add_user_fingerprint.c"]}
{"id": "C09", "title": "The configured maximum number of users is never exceeded", "statement": "After nm_iam_set_max_users(n) on a state with at most n users, no sequence of IAM operations leads to more than n users.", "quantifier": "every n and every history of operations", "why_tests_cant": "each way to add a user needs the check; histories are unbounded", "anchors": ["src/modules/iam/nm_iam_internal.c: nm_iam_internal_create_user, nm_iam_internal_pair_new_client", "src/modules/iam/nm_iam.c: nm_iam_set_max_users"]}
{"id": "C10", "title": "A failing user update changes nothing and a succeeding one touches one user only", "statement": "Every nm_iam user management call that returns an error leaves the whole IAM state unchanged, and one that succeeds changes only the named field of the named user (or adds/removes exactly that user).", "quantifier": "every state, every call, every argument", "why_tests_cant": "frame conditions quantify over all other users and fields of an arbitrary state", "anchors": ["src/modules/iam/nm_iam_internal.c: nm_iam_internal_set_user_*, nm_iam_internal_create_user, nm_iam_internal_delete_user", "src/modules/iam/nm_iam_user.c"]}
{"id": "C11", "title": "Persisted IAM state survives a dump/load round trip", "statement": "Loading the JSON produced by dumping a valid IAM state yields the same users with the same fields, fingerprints, passwords, roles and pairing settings.", "quantifier": "every valid IAM state, of any number of users and any field contents", "why_tests_cant": "the space of states is unbounded; a missing field for one optional combination loses data only then", "anchors": ["src/modules/iam/nm_iam_serializer.c: nm_iam_serializer_state_dump_json, nm_iam_serializer_state_load_json", "src/modules/iam/nm_iam_to_json.c", "src/modules/iam/nm_iam_from_json.c"]}
{"id": "C12", "title": "Every reachable IAM state can be reloaded", "statement": "If the IAM module reaches some state by accepted operations, a state dump of it is accepted by nm_iam_load_state after a restart.", "quantifier": "every history of accepted operations and every later restart point", "why_tests_cant": "accepting and validating code are different functions whose checks must agree for all inputs", "anchors": ["src/modules/iam/nm_iam_internal.c: nm_iam_internal_load_state, validate_state", "src/modules/iam/coap_handler/nm_iam_add_user_fingerprint.c"]}
{"id": "C13", "title": "Policy configuration survives a dump/load round trip", "statement": "Loading the JSON produced by dumping an IAM configuration yields the same roles, policies, statements and conditions, hence the same access decisions.", "quantifier": "every configuration", "why_tests_cant": "unbounded nested documents", "anchors": ["src/modules/iam/nm_iam_serializer.c: nm_iam_serializer_configuration_dump_json, nm_iam_serializer_configuration_load_json", "src/modules/iam/policies/nm_policies_to_json.c", "src/modules/iam/policies/nm_policies_from_json.c"]}
{"id": "C14", "title": "Every accepted change of IAM state is announced", "statement": "Whenever an IAM operation has changed the persistent state, the registered state-changed callback is invoked before the operation's call returns.", "quantifier": "every history of operations", "why_tests_cant": "must hold for every mutating entry point and every history", "anchors": ["src/modules/iam/nm_iam_internal.c: nm_iam_internal_do_callbacks", "src/modules/iam/nm_iam.c"]}
{"id": "C15", "title": "A client can pair only through an enabled pairing mode", "statement": "A CoAP pairing request adds a user only if that pairing mode is enabled and possible, access to its action is granted, and (for password modes) the connection is password authenticated for it; the new user gets the mode's configured role; the initial pairing succeeds at most once.", "quantifier": "every state, every request, every history of requests", "why_tests_cant": "all combinations of flags, roles, authentication and history", "anchors": ["src/modules/iam/nm_iam_pairing.c", "src/modules/iam/coap_handler/nm_iam_pairing_local_open.c", "src/modules/iam/coap_handler/nm_iam_pairing_password_open.c", "src/modules/iam/coap_handler/nm_iam_pairing_password_invite.c", "src/modules/iam/coap_handler/nm_iam_pairing_local_initial.c"]}
{"id": "C16", "title": "Remote clients change IAM state only with permission", "statement": "A CoAP request to an IAM user or settings resource changes the IAM state only if the access check for the corresponding action with the target username attribute granted it.", "quantifier": "every request, payload, state and configuration", "why_tests_cant": "every handler, every payload shape and every policy outcome", "anchors": ["src/modules/iam/coap_handler/*.c: handle_request"]}
{"id": "C17", "title": "No IAM operation touches a freed user", "statement": "After a user is deleted or a new state is loaded, no later access check reads the memory of a removed user.", "quantifier": "every history of authorize, delete, load and access check operations", "why_tests_cant": "use after free depends on histories across connections; a test may read freed memory without noticing", "anchors": ["src/modules/iam/nm_iam_internal.c: nm_iam_internal_authorize_connection, nm_iam_internal_delete_user, nm_iam_internal_load_state, nm_iam_internal_check_access"]}
{"id": "C18", "title": "Token-based identity ends with the connection", "statement": "After a connection is closed, the module holds no authorization for it, so no access check is ever evaluated with a user it had been authorized as.", "quantifier": "every history of authorizations and connection events", "why_tests_cant": "histories with repeated authorizations of the same connection", "anchors": ["src/modules/iam/nm_iam_connection_events.c", "src/modules/iam/nm_iam_internal.c: nm_iam_internal_authorize_connection"]}
{"id": "C19", "title": "Password guessing is rate limited", "statement": "Over any period of T milliseconds a device answers at most 10 + T/1000 wrong password proofs, over all connections together, and answers 429 without evaluating the proof otherwise.", "quantifier": "every arrival pattern of guesses on any number of connections, every timing of the refill timer, unbounded T", "why_tests_cant": "a bound over unbounded time and all interleavings with a timer", "anchors": ["src/core/nc_spake2.c: nc_spake2_spend_token, nc_spake2_newTokenEvent", "src/core/nc_spake2_coap.c: coap_handle_1, coap_handle_2"]}
{"id": "C20", "title": "A connection is password authenticated only as a user whose password it proved", "statement": "If nabto_device_connection_is_password_authenticated is true and the reported username is u, then the client proved knowledge of u's password on that connection.", "quantifier": "every sequence of authentication requests on a connection, every set of users and passwords", "why_tests_cant": "adversarial request sequences are unbounded; functional tests run the protocol once", "anchors": ["src/core/nc_spake2.c: nc_spake2_password_ready", "src/core/nc_spake2_coap.c: coap_handle_2", "src/api/nabto_device_password_authentication.c"]}
{"id": "C21", "title": "A connection becomes password authenticated only by a correct proof", "statement": "nabto_device_connection_is_password_authenticated turns true only on a key confirmation that matches the key derived from the password the application supplied for a request on the same connection.", "quantifier": "every sequence of authentication requests", "why_tests_cant": "adversarial sequences are unbounded", "anchors": ["src/core/nc_spake2.c", "src/core/nc_spake2_coap.c: coap_handle_2"]}
{"id": "C22", "title": "Every password request is answered exactly once", "statement": "Every accepted password authentication request leads to exactly one CoAP answer, whether the application sets a password, sets it twice, sets none and frees it, or the listener is stopped.", "quantifier": "every order of application calls on any number of requests", "why_tests_cant": "API call orders and listener states interleave arbitrarily", "anchors": ["src/api/nabto_device_password_authentication.c", "src/core/nc_spake2.c: nc_spake2_password_ready"]}
{"id": "C23", "title": "Variable length integers round trip and parsing is memory safe", "statement": "A value below 2^62 written by the packet encoder is read back as the same value from exactly the bytes written, leaving the remaining bytes; reading never accesses bytes outside the packet and rejects truncated input.", "quantifier": "every value, every buffer content and length", "why_tests_cant": "2^62 values times all buffers", "anchors": ["src/core/nc_packet.c: var_uint_read, var_uint_write_forward"]}
{"id": "C24", "title": "Hex conversion round trips and is strict", "statement": "np_hex_to_data(np_data_to_hex(d)) = d for every byte string; any string accepted consists only of hex digits of length 2n or 2n-1 and decodes to its positional value; anything else is rejected.", "quantifier": "every byte string and every character string", "why_tests_cant": "unbounded strings", "anchors": ["src/platform/np_util.c: np_hex_to_data_length, np_data_to_hex"]}
{"id": "C25", "title": "Fingerprint strings returned by the API are terminated", "statement": "Every fingerprint string returned by the API is a NUL terminated 64 character string inside its allocation.", "quantifier": "every connection type and every fingerprint", "why_tests_cant": "an over-read is usually invisible in a test run", "anchors": ["src/api/nabto_device_virtual_connection.c: nabto_device_connection_get_device_fingerprint", "src/api/nabto_device.c: toHex"]}
{"id": "C26", "title": "Generated server connect tokens are uniform 12 character tokens", "statement": "nabto_device_create_server_connect_token returns a string of exactly 12 characters from A-Za-z0-9 as soon as the random source delivers twelve usable bytes; for every n each token is the result of equally many sequences of n random bytes (so uniform bytes give uniform tokens); random source errors are reported.", "quantifier": "every output of the random source", "why_tests_cant": "uniformity is a statement about all byte sequences", "anchors": ["src/api/nabto_device.c: nabto_device_create_server_connect_token"]}
{"id": "C27", "title": "Event queue runs events once, in order, and never early", "statement": "Posted events run exactly once in post order, double posts are absorbed, a cancelled event does not run, and a timed event is taken only at or after its expiry and in expiry order, also across 32 bit timestamp wrap around, as long as delays and lateness stay below 2^30 ms.", "quantifier": "every sequence of post, cancel, timed post and take operations, every clock", "why_tests_cant": "unbounded operation sequences and all 2^32 clock phases", "anchors": ["src/modules/event_queue/nm_event_queue.c", "src/platform/np_timestamp_wrapper.c"]}
{"id": "C28", "title": "A cancelled or destroyed event never runs", "statement": "After cancel (or destroy) of an event returns to a caller holding the core lock, its callback does not run any more.", "quantifier": "every interleaving of the queue thread with API threads", "why_tests_cant": "a race between taking an event from the queue and locking the core mutex", "anchors": ["src/modules/event_queue/thread_event_queue.c: queue_thread, cancel_event, destroy_event"]}
{"id": "C29", "title": "Keep alive detects dead peers in bounded time and never drops live ones", "statement": "With settings (interval, retryInterval>0, maxRetries) a connection on which nothing is received any more is reported dead after a bounded number of keep alive ticks determined by the settings; as long as something is both received and sent between any two ticks it is never reported dead.", "quantifier": "every settings value, every traffic history", "why_tests_cant": "unbounded traffic histories and all parameter values", "anchors": ["src/core/nc_keep_alive.c: nc_keep_alive_should_send, nc_keep_alive_set_settings"]}
{"id": "C30", "title": "Keep alive settings from the server cannot crash the device", "statement": "Every attach response of the basestation is handled without undefined behaviour.", "quantifier": "every decoded attach response", "why_tests_cant": "tests use the well behaved server values", "anchors": ["src/core/nc_attacher_attach_start.c: handle_attached", "src/core/nc_keep_alive.c: nc_keep_alive_set_settings"]}
{"id": "C31", "title": "Device futures resolve exactly once and callbacks run exactly once", "statement": "For a future passed to an operation, once the operation resolves it, ready/error code are set once, a callback set before or after the resolution runs exactly once with that error code.", "quantifier": "every interleaving of resolve, set_callback, wait and the callback thread", "why_tests_cant": "thread interleavings", "anchors": ["src/api/nabto_device_future.c", "src/api/nabto_device_future_queue.c"]}
{"id": "C32", "title": "Waiting on a future returns only after it resolved", "statement": "nabto_device_future_wait returns only when the future is resolved, with the resolved error code.", "quantifier": "every schedule, including spurious wake ups permitted by condition variables", "why_tests_cant": "spurious wake ups do not occur on demand", "anchors": ["src/api/nabto_device_future.c: nabto_device_future_wait, nabto_device_future_timed_wait"]}
{"id": "C33", "title": "Listeners deliver every event once and in order", "statement": "Events added to a listener are handed to the application's futures in arrival order, each exactly once, at most one future outstanding; after stop or error the outstanding future resolves with an error, no further event is delivered and every undelivered event is released exactly once.", "quantifier": "every interleaving of new events, new futures, stop and error", "why_tests_cant": "unbounded histories", "anchors": ["src/api/nabto_device_listener.c"]}
{"id": "C34", "title": "Authorization requests get exactly one verdict, default deny", "statement": "Every authorization check invokes its callback exactly once; the answer is allow only if the application gave an allow verdict as its first verdict before freeing the request; missing listener, stopped listener, out of resources or free without verdict deny; the request memory is released exactly once after both sides are done.", "quantifier": "every order of platform and application steps", "why_tests_cant": "all interleavings of verdict, free, listener stop and event loop", "anchors": ["src/api/nabto_device_authorization.c", "src/api/nabto_device_authorization_events.c"]}
{"id": "C35", "title": "API calls never return with the device lock held", "statement": "Every API function that takes the device lock has released it when it returns, whatever error it returns.", "quantifier": "every API function and every path through it", "why_tests_cant": "error paths such as a port collision are rarely executed; the effect is a later deadlock", "anchors": ["src/api/nabto_device_stream.c: nabto_device_stream_init_listener", "src/api/nabto_device_virtual_connection.c: nabto_device_virtual_stream_read_all", "src/modules/event_queue/thread_event_queue.c: thread_event_queue_stop_blocking"]}
{"id": "C36", "title": "Stream API futures always resolve exactly once", "statement": "Each future given to nabto_device_stream_accept/read_all/read_some/write/close is resolved exactly once when the underlying stream completes or is aborted; a second operation of the same kind while one is outstanding resolves with OPERATION_IN_PROGRESS.", "quantifier": "every order of API calls and stream events", "why_tests_cant": "unbounded histories", "anchors": ["src/api/nabto_device_stream.c"]}
{"id": "C37", "title": "Attach redirects are bounded", "statement": "In one attach attempt the device follows at most 5 redirects, then waits the retry period and starts over from the configured server.", "quantifier": "every sequence of server responses", "why_tests_cant": "an adversarial server can redirect forever", "anchors": ["src/core/nc_attacher.c: coap_attach_start_callback, handle_dtls_closed, reattach"]}
{"id": "C38", "title": "Attached and detached events alternate", "statement": "The application sees DETACHED only after ATTACHED and never two ATTACHED in a row without a DETACHED.", "quantifier": "every sequence of network events, timers, API calls", "why_tests_cant": "unbounded histories of an event driven state machine", "anchors": ["src/core/nc_attacher.c: coap_attach_end_handler, reset_dtls_connection"]}
{"id": "C39", "title": "Closing the attacher completes exactly once", "statement": "After a close is requested the closed callback is called at most once, and no new attach attempt is started before a restart.", "quantifier": "every state in which close may be called, every later event order", "why_tests_cant": "every state times every event order", "anchors": ["src/core/nc_attacher.c: nc_attacher_do_close, nc_attacher_resolve_close, handle_state_change"]}
{"id": "C40", "title": "The device always retries attaching", "statement": "While started and not closed, the attacher always has an operation or timer outstanding that leads to the next attach attempt.", "quantifier": "every history of failures", "why_tests_cant": "includes rare failures such as out of memory when creating the DTLS connection", "anchors": ["src/core/nc_attacher.c: handle_state_change, handle_state_change_deferred"]}
{"id": "C41", "title": "Server connect token synchronization is reported truthfully", "statement": "nabto_device_are_server_connect_tokens_synchronized returns OK while attached only if every token added so far is contained in an upload the server acknowledged.", "quantifier": "every interleaving of token additions, uploads, failures and reattaches", "why_tests_cant": "needs all interleavings of additions with in flight uploads", "anchors": ["src/core/nc_attacher.c: nc_attacher_add_server_connect_token, nc_attacher_is_server_connect_tokens_synchronized", "src/core/nc_attacher_sct.c"]}
{"id": "C42", "title": "Connection limits and references", "statement": "The number of open connections never exceeds the configured limit by accepting a new one; connection references are never reused and identify at most one connection; a closed connection's reference no longer resolves.", "quantifier": "every history of connects and disconnects, limit changes", "why_tests_cant": "unbounded histories", "anchors": ["src/core/nc_connection.c: nc_connections_alloc_client_connection, nc_connections_free_connection, nc_connections_connection_from_ref", "src/core/nc_device.c: nc_device_next_connection_ref"]}
{"id": "C43", "title": "Only authenticated traffic can move a connection", "statement": "The remote endpoint used for an established connection, and whether it counts as local, changes only due to packets authenticated by DTLS.", "quantifier": "every datagram an off-path attacher can send", "why_tests_cant": "needs an adversary model", "anchors": ["src/core/nc_client_connection.c: nc_client_connection_handle_packet"]}
{"id": "C44", "title": "Datagram dispatch is total and unambiguous", "statement": "Every received UDP packet is given to exactly one of STUN, attach, client connection and rendezvous handling or dropped, according to its first byte; packets too short for the handler are dropped without reading outside the packet; a new connection is created only for a client hello with unknown connection id.", "quantifier": "every byte string", "why_tests_cant": "all packets of all lengths", "anchors": ["src/core/nc_udp_dispatch.c: nc_udp_dispatch_handle_packet", "src/core/nc_client_connection_dispatch.c: nc_client_connection_dispatch_handle_packet", "src/core/nc_rendezvous.c: nc_rendezvous_handle_packet"]}
{"id": "C45", "title": "Rendezvous handling cannot be used for amplification", "statement": "Every rendezvous packet causes at most one response, not larger than the request, a connection response is only sent for a known connection id, and at most 10 rendezvous requests are queued.", "quantifier": "every packet and every queue history", "why_tests_cant": "all packets and histories", "anchors": ["src/core/nc_rendezvous.c", "src/core/nc_rendezvous.h"]}
{"id": "C46", "title": "Virtual streams are faithful byte pipes", "statement": "On a virtual stream the bytes read by one side are always a prefix of the bytes written by the other side, in order, without loss or duplication; a read_all completes with OK only when full or on close; each operation completes at most once.", "quantifier": "every interleaving of reads and writes of all sizes on both sides", "why_tests_cant": "all interleavings and sizes", "anchors": ["src/core/nc_virtual_stream.c"]}
{"id": "C47", "title": "Data written before close is delivered on virtual streams", "statement": "Bytes written by one side before it closes the virtual stream are delivered to the other side before EOF, and once the other side has read them the write and the close complete.", "quantifier": "every interleaving of writes, closes and reads of both sides", "why_tests_cant": "depends on the order of close and read", "anchors": ["src/core/nc_virtual_stream.c: nc_virtual_stream_client_async_read_all, nc_virtual_stream_server_close"]}
{"id": "C48", "title": "Stopping a virtual stream completes everything", "statement": "After abort of a virtual stream every outstanding and every later operation completes.", "quantifier": "every state in which abort can happen and every later call", "why_tests_cant": "all states", "anchors": ["src/core/nc_virtual_stream.c: nc_virtual_stream_client_stop, nc_virtual_stream_client_async_read_all"]}
{"id": "C49", "title": "Core streams complete each operation exactly once", "statement": "On a stream at most one accept, one read, one write and one close are outstanding, a further one is rejected with OPERATION_IN_PROGRESS; each accepted operation is completed at most once, and stop completes all outstanding ones with ABORTED.", "quantifier": "every order of API calls and protocol events", "why_tests_cant": "unbounded histories", "anchors": ["src/core/nc_stream.c"]}
{"id": "C50", "title": "Stream identifiers, ports and limits", "statement": "No two live streams of a connection have the same id, no two stream listeners share a port, ephemeral ports are at least 0x80000000, the number of streams never exceeds the limit by accepting a new one, and streams initiated by clients have even ids.", "quantifier": "every history of opens, closes and listener changes", "why_tests_cant": "unbounded histories", "anchors": ["src/core/nc_stream_manager.c"]}
{"id": "C51", "title": "Stream packet parsing stays inside the packet", "statement": "Handling a stream packet from a peer never reads outside the received packet.", "quantifier": "every packet", "why_tests_cant": "an over-read by one byte is invisible in tests", "anchors": ["src/core/nc_stream_manager.c: nc_stream_manager_handle_packet"]}
{"id": "C52", "title": "Virtual CoAP requests resolve once and are freed once", "statement": "A virtual CoAP request's response handler is called exactly once, and its memory is released exactly when both the device side and the client side have freed it.", "quantifier": "every order of responses, errors, connection close and frees", "why_tests_cant": "all interleavings", "anchors": ["src/core/nc_coap_server.c: nc_coap_server_create_virtual_request, nc_coap_server_request_free, nc_coap_server_virtual_request_free"]}
{"id": "C53", "title": "CoAP status codes convert losslessly", "statement": "Setting a human readable status (e.g. 404) on a response and reading it back gives the same status for every class 0-7 and detail 0-31.", "quantifier": "all codes", "why_tests_cant": "finite but the boundary cases are where conversions break", "anchors": ["src/core/nc_coap_server.c: nc_coap_server_response_set_code_human, nc_coap_server_response_get_code_human"]}
{"id": "C54", "title": "STUN analysis callbacks are invoked exactly once", "statement": "Every accepted STUN analysis request is answered exactly once, also on stop, DNS failure and timeouts.", "quantifier": "every interleaving", "why_tests_cant": "unbounded histories of an event driven state machine", "anchors": ["src/core/nc_stun.c"]}
{"id": "C55", "title": "Hostname resolution interleaves v4 and v6 results", "statement": "Resolving a hostname returns the first n addresses of the alternation of v4 and v6 results, fails only if both lookups fail, and completes exactly once per request.", "quantifier": "every pair of lookup results of all sizes and completion orders", "why_tests_cant": "all result lists and orders", "anchors": ["src/core/nc_dns_multi_resolver.c"]}
{"id": "C56", "title": "Tunnels are opened only when authorized and within limits", "statement": "A TCP tunnel connection to a service is made only after an allow decision for action TcpTunnel:Connect with that service's id and type, only if the service still exists, and never raises the number of connections of a type above its configured limit.", "quantifier": "every interleaving of opens, verdicts, service removals and limit changes", "why_tests_cant": "asynchronous decisions interleave arbitrarily", "anchors": ["src/modules/tcp_tunnel/nm_tcp_tunnel.c: nm_tcp_tunnel_service_stream_listener_callback, service_stream_iam_callback"]}
{"id": "C57", "title": "Tunnels relay bytes faithfully and end cleanly", "statement": "The bytes written to the TCP socket are always a prefix of the bytes read from the stream and vice versa; the tunnel connection is released exactly once, and only when none of its operations is outstanding.", "quantifier": "every order of completions, errors and stop", "why_tests_cant": "all interleavings and error points", "anchors": ["src/modules/tcp_tunnel/nm_tcp_tunnel_connection.c"]}
{"id": "C58", "title": "DTLS server sends queued data in order and never stalls", "statement": "Data queued for a client connection is sent in order, each send completes exactly once, and whenever data is queued some event is pending that will send it.", "quantifier": "every order of sends, send failures, close", "why_tests_cant": "includes rare failures of a single send", "anchors": ["src/modules/mbedtls/nm_mbedtls_srv.c: nm_mbedtls_srv_start_send_deferred, nm_mbedtls_srv_async_send_data, nm_mbedtls_srv_mbedtls_send"]}
{"id": "C59", "title": "Device start and close futures resolve exactly once", "statement": "Each future passed to nabto_device_start and nabto_device_close is resolved exactly once.", "quantifier": "every order of API calls and completions", "why_tests_cant": "double calls and races of start/close", "anchors": ["src/api/nabto_device.c: nabto_device_start, nabto_device_close", "src/core/nc_device.c: nc_device_start, nc_device_close"]}
{"id": "C60", "title": "Configuration is frozen after start", "statement": "After the device has started, setters of identity, keys, ports and server settings return INVALID_STATE or have no effect on the running device.", "quantifier": "every order of setter and lifecycle calls", "why_tests_cant": "all orders", "anchors": ["src/core/nc_attacher.c", "src/core/nc_device.c", "src/api/nabto_device.c"]}
{"id": "C61", "title": "The order of a condition's values does not matter", "statement": "The values of a policy condition form an unordered set: the order in which they are listed or stored never changes whether the condition applies.", "quantifier": "every condition, every permutation of its values, every attribute map", "why_tests_cant": "all permutations of arbitrary value lists, including values that do not parse", "anchors": ["src/modules/iam/policies/nm_condition.c: nm_condition_matches"]}
{"id": "C62", "title": "Server connect tokens of users are registered with the device", "statement": "After any history, every server connect token stored for a user has been registered with the device, so that the user can connect remotely with it.", "quantifier": "every history of API calls, CoAP requests, pairings and loads", "why_tests_cant": "needs an invariant over all ways a token can be stored", "anchors": ["src/modules/iam/nm_iam.c: nm_iam_set_user_sct", "src/modules/iam/nm_iam_internal.c: nm_iam_internal_add_user, nm_iam_internal_load_state", "src/modules/iam/coap_handler/nm_iam_set_user_sct.c"]}
{"id": "C63", "title": "Documented optional arguments are safe", "statement": "Calling a user management function with the arguments its documentation allows never has undefined behaviour; in particular the fingerprint name of nm_iam_add_user_fingerprint may be NULL.", "quantifier": "every state and every combination of documented arguments", "why_tests_cant": "undefined behaviour is not observable by a passing test; all argument combinations must be covered", "anchors": ["src/modules/iam/nm_iam.c: nm_iam_add_user_fingerprint", "src/modules/iam/nm_iam.h: nm_iam_add_user_fingerprint"]}
{"id": "C64", "title": "No remote request triggers undefined behaviour in the IAM module", "statement": "Whatever payload and path a client sends to the IAM CoAP resources, the handler never dereferences NULL or freed memory.", "quantifier": "every reachable state, connection and decoded request payload", "why_tests_cant": "all payload shapes in all reachable states cannot be enumerated by tests", "anchors": ["src/modules/iam/coap_handler/nm_iam_create_user.c", "src/modules/iam/coap_handler/nm_iam_coap_handler.c"]}
{"id": "C65", "title": "Loading a policy document never drops a restriction", "statement": "If a configuration document is accepted, every condition written in a statement is enforced by the loaded configuration; a document whose conditions cannot be understood is refused instead of being loaded with fewer restrictions.", "quantifier": "every configuration document", "why_tests_cant": "any of infinitely many malformed or unusual documents may be accepted with a wider permission than written", "anchors": ["src/modules/iam/policies/nm_policies_from_json.c: nm_statement_from_json, nm_condition_from_json", "src/modules/iam/nm_iam_serializer.c: nm_iam_serializer_configuration_load_json"]}
{"id": "C66", "title": "State documents of unknown versions are refused and a refused load changes nothing", "statement": "Loading a state document succeeds only for the versions this SDK knows; when the load returns false the state object is unchanged; a version 1 user keeps its fingerprint.", "quantifier": "every text and every state object loaded into", "why_tests_cant": "unbounded documents; the failing paths are many", "anchors": ["src/modules/iam/nm_iam_serializer.c: nm_iam_serializer_state_load_json", "src/modules/iam/nm_iam_from_json.c: nm_iam_user_from_json"]}
{"id": "C67", "title": "A successful state load loses no user", "statement": "If a state document is accepted, every user written in it is a user afterwards, in the same order.", "quantifier": "every state document", "why_tests_cant": "a user lost during a restart is locked out; depends on the contents of every user of the document", "anchors": ["src/modules/iam/nm_iam_serializer.c: nm_iam_serializer_state_load_json", "src/modules/iam/nm_iam_from_json.c: nm_iam_user_from_json"]}
{"id": "C68", "title": "The password key is bound to both fingerprints, the client share and the password", "statement": "Two key exchanges end in the same key only if client fingerprint, device fingerprint, client share and password hash are the same in both, unless a collision of the hash function is found.", "quantifier": "every pair of exchanges, every group, every hash function", "why_tests_cant": "a statement about all inputs of a hash; tests compare one transcript with one expected value", "anchors": ["src/modules/mbedtls/nm_mbedtls_spake2.c: nm_mbedtls_spake2_calculate_key, hashData, hashPoint, hashMpi"]}
{"id": "C69", "title": "A client with the right password is let in", "statement": "A client which computes its share and its proof from the password the application sets for its request is answered 201 twice, the connection becomes password authenticated and reports the username of the request, as long as the guess limit is not exhausted.", "quantifier": "every password, every pair of secrets, every commutative group with the annihilator of M as order, every reachable state", "why_tests_cant": "holds for all scalars; tests run a handful of random exchanges", "anchors": ["src/modules/mbedtls/nm_mbedtls_spake2.c: nm_mbedtls_spake2_calculate_key", "src/core/nc_spake2_coap.c: nc_spake2_handle_coap_2"]}
{"id": "C70", "title": "Asking for the authenticated username is always defined", "statement": "nabto_device_connection_get_password_authentication_username returns a documented error code or a username for every connection, it never accesses invalid memory.", "quantifier": "every connection state reachable by any sequence of authentication requests", "why_tests_cant": "needs all request sequences, a functional test asks after a completed exchange", "anchors": ["src/api/nabto_device_password_authentication.c: nabto_device_connection_get_password_authentication_username"]}
{"id": "C71", "title": "The event queue thread never oversleeps", "statement": "Whenever the queue thread waits on its condition variable no posted event is pending, no stop is requested, and the wait is limited so that it ends no later than the earliest due time plus the time the thread spent between reading the clock and going to sleep.", "quantifier": "every interleaving of posts, timed posts, cancels, stop, spurious wake ups and thread steps, every clock", "why_tests_cant": "a lost wake up needs one particular interleaving", "anchors": ["src/modules/event_queue/thread_event_queue.c: queue_thread, post_event, post_timed_event, thread_event_queue_stop_blocking"]}
{"id": "C72", "title": "Keep alive packets are well formed, never overlap and answer requests", "statement": "Every keep alive packet has 18 bytes and is a request, or a response which echoes the 16 bytes of a request that was received. A packet is only handed to the connection when the one before it has been completed. A request of at least 18 bytes is answered at once unless a keep alive packet is on its way.", "quantifier": "every history of packets, ticks, completions and reconnects; every request", "why_tests_cant": "histories are unbounded and the buffer is shared between requests and responses", "anchors": ["src/core/nc_keep_alive.c: nc_keep_alive_create_request, nc_keep_alive_handle_request, nc_keep_alive_packet_sent", "src/core/nc_attacher.c: keep_alive_send_req, keep_alive_send_response", "src/platform/np_dtls.h: np_dtls_send_context"]}
{"id": "C73", "title": "Closing all connections is reported exactly once", "statement": "When closing all connections is started with a callback and is not refused, the callback is called exactly once, after the last connection is gone, and no connection is accepted in the meantime.", "quantifier": "every history of connections, datagrams and DTLS events before and after the close; every way DTLS may end connections", "why_tests_cant": "depends on when each connection ends relative to the call", "anchors": ["src/core/nc_connection.c: nc_connections_async_close, nc_connections_free_connection", "src/core/nc_client_connection.c: nc_client_connection_close_connection, nc_client_connection_destroy_connection"]}
{"id": "C74", "title": "The internal error reply cannot be used for amplification", "statement": "A client hello which cannot be served is answered with an alert to the endpoint it came from, with the connection id of the request; only one such reply is on its way at any time, it is not larger than the request, and a known connection never gets one.", "quantifier": "every datagram and every history", "why_tests_cant": "all packets and histories", "anchors": ["src/core/nc_client_connection_dispatch.c: nc_client_connection_dispatch_send_internal_error"]}
{"id": "C75", "title": "A connection follows its client to another channel", "statement": "When the client sends new authenticated data on another channel, the device uses that channel and endpoint from then on and reports the change.", "quantifier": "every connection history, channel, endpoint and sequence number", "why_tests_cant": "needs all histories of channels and sequence numbers", "anchors": ["src/core/nc_client_connection.c: nc_client_connection_handle_packet, nc_client_connection_handle_data"]}
{"id": "C76", "title": "Every packet which DTLS sends is put on the wire and completed", "statement": "A send by the DTLS layer which is accepted results in one UDP packet made of the connection id, the channel and the data, to the endpoint of that channel, and completes exactly once; a second send before that is refused.", "quantifier": "every history of sends, completions and datagrams, every channel", "why_tests_cant": "the alternative channel can be replaced between a packet and the answer to it", "anchors": ["src/core/nc_client_connection.c: nc_client_connection_async_send_to_udp, nc_client_connection_send_to_udp_cb", "src/modules/mbedtls/nm_mbedtls_cli.c: nm_dtls_mbedtls_send"]}
{"id": "C77", "title": "A client connection of the DTLS server reports its end once and is released", "statement": "The end of a DTLS server connection is reported to its owner at most once; afterwards nothing is reported, its memory is freed exactly once when no packet of it is on its way, and is not used again.", "quantifier": "every history of datagrams, timers, sends, completions, close and destroy, and every answer of the TLS library", "why_tests_cant": "the end can be found in any callback while a packet is on its way", "anchors": ["src/modules/mbedtls/nm_mbedtls_srv.c: nm_mbedtls_srv_do_one, nm_mbedtls_srv_connection_send_callback, nm_mbedtls_srv_destroy_connection, nm_mbedtls_srv_do_free_connection", "src/core/nc_client_connection.c: nc_client_connection_handle_event"]}
{"id": "C78", "title": "The DTLS connection to the basestation ends once, closes when asked and is released", "statement": "The end of a DTLS client connection is reported at most once, every close leads to it, nothing is reported for a connection which its owner has destroyed, and its memory is freed exactly once, when no packet of it is on its way, and not used again.", "quantifier": "every history of datagrams, timers, sends, completions, close and destroy, and every answer of the TLS library", "why_tests_cant": "needs every order of the end of a connection and the completion of its packets", "anchors": ["src/modules/mbedtls/nm_mbedtls_cli.c: event_do_one, nm_dtls_do_close, async_close, dtls_udp_send_callback, destroy_connection, do_free_connection", "src/core/nc_attacher.c: reset_dtls_connection"]}
{"id": "C79", "title": "Data for the basestation is sent in order and every send completes", "statement": "Accepted sends of a DTLS client connection are sent in order, complete exactly once, and while the connection lasts a queued send is always waiting for a packet on its way or for an event which is pending.", "quantifier": "every history of sends, failures, completions, close and destroy", "why_tests_cant": "includes failures of a single write and every order of completions", "anchors": ["src/modules/mbedtls/nm_mbedtls_cli.c: async_send_data, start_send_deferred, nm_dtls_mbedtls_send"]}
{"id": "C80", "title": "The device attaches exactly when attach is enabled", "statement": "After nabto_device_start has succeeded and until the device is closed or stopped, the device attaches to the basestation if and only if the last accepted call of nabto_device_set_basestation_attach (or nabto_device_disable_remote_access before the start) has enabled it; it never attaches before the start, after a successful close, or after nabto_device_stop.", "quantifier": "every order of configuration, start, close, stop and attach calls and of the completions of the platform", "why_tests_cant": "the calls race with the completion of the start, and the setting may be toggled any number of times", "anchors": ["src/core/nc_device.c: nc_device_set_basestation_attach, nc_device_sockets_bound", "src/core/nc_attacher.c: nc_attacher_start, nc_attacher_restart, nc_attacher_async_close"]}
{"id": "C81", "title": "Stream operations complete as soon as the protocol allows", "statement": "When the stream protocol has data or has room, the outstanding read or write is served by the same event: a read completes when it has enough, a write when everything is taken, the end of the stream is reported as EOF, and a close completes when the protocol says so; no operation waits for an event which has already happened.", "quantifier": "every history of operations and events and every amount of bytes the protocol delivers or takes", "why_tests_cant": "lost wakeups depend on the order of the event and the call", "anchors": ["src/core/nc_stream.c: nc_stream_do_read, nc_stream_do_write_all, nc_stream_application_event_callback, nc_stream_handle_close"]}
{"id": "C82", "title": "A stream lives as long as it is used and no longer", "statement": "A stream is not freed while the application or the user of a virtual stream holds it or while a packet or event of it is pending, it is freed exactly once, and it is freed when it has ended, everybody has given it back and nothing of it is pending. Opening a virtual stream never crashes the device, whether or not somebody listens on the port.", "quantifier": "every history of packets, timers, deferred events, sends, connection closes, aborts, frees and virtual streams", "why_tests_cant": "use after free and leaks depend on the order of frees and pending callbacks", "anchors": ["src/core/nc_stream.c: nc_stream_ref_count_dec, nc_stream_destroy, nc_stream_event", "src/core/nc_stream_manager.c: nc_stream_manager_remove_connection, nc_stream_manager_accept_virtual_stream", "src/core/nc_virtual_stream.c"]}
{"id": "C83", "title": "Sending on streams recovers after a failed send", "statement": "After an attempt to send a packet of a stream or an RST fails, later packets of the stream and later RSTs are still sent.", "quantifier": "every history which contains a failed send", "why_tests_cant": "needs a refusal by the transport at the right moment followed by an arbitrary future", "anchors": ["src/core/nc_stream.c: nc_stream_send_packet", "src/core/nc_stream_manager.c: nc_stream_manager_send_rst"]}
{"id": "C84", "title": "Locks are taken in one order and calls do not deadlock", "statement": "Whatever API functions several threads call, and whatever callbacks of the user call in turn, the SDK takes its mutexes in one fixed order and never one it already holds; so as long as some thread is neither finished nor joining another thread, some thread can go on, and no mutex ever has two owners.", "quantifier": "any number of threads, any calls, any paths through them, any interleaving", "why_tests_cant": "a deadlock needs a particular interleaving of particular paths in two threads; tests run a few schedules", "anchors": ["src/api/nabto_device_future.c: nabto_device_future_resolve", "src/api/nabto_device_future_queue.c: execution_thread", "src/modules/event_queue/thread_event_queue.c: queue_thread", "src/api/nabto_device.c: nabto_device_stop"]}
{"id": "C85", "title": "The core is used only with the device lock", "statement": "Every API function and every thread of the SDK uses the state of the device core and the listener lists only while it holds the lock of the device.", "quantifier": "every API function, callback and thread and every path through it", "why_tests_cant": "a data race shows only under particular timing and often has no visible effect", "anchors": ["src/api/nabto_device_listener.c: nabto_device_listener_new, nabto_device_listener_stop_all", "src/api/nabto_device_ice_servers.c: nabto_device_ice_servers_request_new", "src/modules/event_queue/thread_event_queue.c: queue_thread"]}
{"id": "C86", "title": "The end of one side of a tunnel connection is passed on truthfully", "statement": "A tunnel client is told that the data of the TCP service has ended only if the service has closed its side and every byte of it was passed on; the service is told that the data of the client has ended only if the client ended it cleanly and every byte of it was passed on. A failure on one side is never shown as a clean end on the other.", "quantifier": "every order of data, ends, failures, completions and removals, for both TCP implementations", "why_tests_cant": "depends on which completion fails first and on what was read before; needs a connection that is reset at each point", "anchors": ["src/modules/tcp_tunnel/nm_tcp_tunnel_connection.c:tcp_readen", "src/modules/tcp_tunnel/nm_tcp_tunnel_connection.c:stream_readen", "src/modules/libevent/nm_libevent_tcp.c", "src/modules/select_unix/nm_select_unix_tcp.c"]}
{"id": "C87", "title": "A tunnel connection ends when it has to", "statement": "After the service of a tunnel connection is removed, after its TCP connection has failed, or after the connection of its client is gone, the tunnel connection is released within a bounded number of turns of the event loop, whatever else happens or does not happen.", "quantifier": "every state of the connection at that moment and everything after it", "why_tests_cant": "liveness over all later histories, including peers which never act again", "anchors": ["src/modules/tcp_tunnel/nm_tcp_tunnel_connection.c:abort_connection", "src/modules/tcp_tunnel/nm_tcp_tunnel.c:nm_tcp_tunnel_service_destroy", "src/modules/libevent/nm_libevent_tcp.c:tcp_abort", "src/modules/libevent/nm_libevent_tcp.c:tcp_error"]}
{"id": "C88", "title": "Clients learn about tunnel services only what the application allowed", "statement": "The list of tunnel services, or the data of one service, is sent to a CoAP client only after the application allowed it for that client, that action and that very service (identifier and type); the list has exactly the services there are; each request is answered exactly once.", "quantifier": "every interleaving of requests, verdicts, additions and removals of services, every allocation failure", "why_tests_cant": "verdicts arrive asynchronously and the services may change in between", "anchors": ["src/modules/tcp_tunnel/nm_tcp_tunnel_coap.c:list_services", "src/modules/tcp_tunnel/nm_tcp_tunnel_coap.c:get_service_action", "src/modules/tcp_tunnel/nm_tcp_tunnel_coap.c:get_service_iam", "src/modules/tcp_tunnel/nm_tcp_tunnel_coap.c:list_services_iam"]}
{"id": "C89", "title": "Calls which configure tunnels do what they report", "statement": "A call which adds or removes a tunnel service, sets a limit, or sets or removes metadata and reports success has taken effect; one which reports failure changes nothing and keeps no memory.", "quantifier": "every history of calls and every allocation failure", "why_tests_cant": "allocation failures at every point of every history", "anchors": ["src/api/nabto_device_tcp_tunnelling.c:nabto_device_add_tcp_tunnel_service", "src/modules/tcp_tunnel/nm_tcp_tunnel.c:nm_tcp_tunnel_limit_concurrent_connections_by_type", "src/modules/tcp_tunnel/nm_tcp_tunnel.c:nm_tcp_tunnel_service_add_metadata", "src/modules/tcp_tunnel/nm_tcp_tunnel.c:nm_tcp_tunnel_service_destroy_by_id"]}
{"id": "C90", "title": "Virtual CoAP requests and responses are carried faithfully", "statement": "The handler of a resource gets the path segments, payload and content format the virtual request was given; after the response the client reads the code, content format and payload set last, reads 404 when there is no resource, and is told INVALID_STATE before the response.", "quantifier": "every history of calls on both sides, every path of segments, every allocation failure", "why_tests_cant": "all paths, histories and failures", "anchors": ["src/api/nabto_device_virtual_connection.c:nabto_device_virtual_coap_request_new", "src/api/nabto_device_virtual_connection.c:nabto_device_virtual_coap_request_get_response_payload", "src/core/nc_coap_server.c:nc_coap_server_create_virtual_request", "src/core/nc_coap_server.c:nc_coap_server_send_error_response"]}
{"id": "C91", "title": "CoAP retransmissions and sends are never forgotten", "statement": "Whatever the CoAP protocol of the device wants to do next (send, wait for a retransmission, call back) is done: at every moment an event, the completion of a send or a timer which is not too late is outstanding; the DTLS layer never has two packets of the CoAP client or of the CoAP server at once, and each packet buffer is freed exactly once.", "quantifier": "every history of packets, application calls, timers, refused sends, failed allocations and clock values", "why_tests_cant": "the clock wraps, and failures show only after days without traffic or in a race with a closing connection", "anchors": ["src/core/nc_coap_client.c: nc_coap_client_event, nc_coap_client_handle_send, nc_coap_client_handle_wait", "src/core/nc_coap_server.c: nc_coap_server_event, nc_coap_server_handle_send, nc_coap_server_handle_wait"]}
{"id": "C92", "title": "The device's UDP sockets are opened, used and closed correctly", "statement": "Every socket descriptor the device opens is closed exactly once and no descriptor of another part of the program is closed or read; a host without IPv6 gets an IPv4 socket and a port in use is reported as such; once started, reception goes on and packets are handed on in order until the device is stopped or a platform failure is reported, and a platform failure is reported only if something failed.", "quantifier": "every history of starts, stops, socket errors, failed allocations, readable events and descriptors opened and closed by the rest of the program, on both socket modules", "why_tests_cant": "the failing system calls, hosts without IPv6 and reuse of descriptor numbers by other threads do not occur on a test machine", "anchors": ["src/modules/select_unix/nm_select_unix_udp.c: create_socket_any, nm_select_unix_udp_async_bind_port_ec, nm_select_unix_udp_free_socket", "src/modules/libevent/nm_libevent_udp.c: udp_async_bind_port_ec, udp_create_socket_any, udp_destroy", "src/core/nc_udp_dispatch.c: async_recv_wait_complete, start_recv"]}
{"id": "C93", "title": "TCP connections of the device complete their operations truthfully", "statement": "On a TCP socket of the device every connect, read and write is completed once and never twice, all of them when the socket is aborted or destroyed; the bytes the operating system is given are those of the writes, in order, and a write is reported as done only when all its bytes were taken; a connection is reported only when it was established; a pending operation completes when the peer is ready; no undefined behaviour.", "quantifier": "every interleaving of the steps of the core thread and the network thread, every result of socket, connect, select, recv and send", "why_tests_cant": "races between two threads and interrupted system calls", "anchors": ["src/modules/select_unix/nm_select_unix_tcp.c: async_connect, async_write, async_read, tcp_abort, nm_select_unix_tcp_handle_select, nm_select_unix_tcp_build_fd_sets", "src/modules/select_unix/nm_select_unix.c: network_thread, nm_select_unix_inf_wait, nm_select_unix_read"]}
{"id": "C94", "title": "Notifications, service invocations and ICE server requests are sent and answered faithfully", "statement": "Each future given to a send of a notification, a service invocation or an ICE server request is resolved at most once, and exactly once when the basestation has answered; what is sent is what the application set last, on the connection the device is attached with; a future is resolved with OK for every well formed answer, and only then; then the status code, body, message, format and ICE servers the application reads are those of the answer; a failed notification reads 0 and NULL; nothing is lost or used after it was freed.", "quantifier": "every history of calls, connections and answers (any CBOR value), every allocation failure", "why_tests_cant": "answers of the basestation are arbitrary CBOR, and the failures need lost connections and failed allocations at each point", "anchors": ["src/core/nc_attacher_fcm.c: nc_attacher_fcm_send, coap_handler, parse_response", "src/core/nc_attacher_service_invoke.c: nc_attacher_service_invoke_execute, parse_response", "src/core/nc_attacher_ice_servers.c: nc_attacher_request_ice_servers, parse_response", "src/api/nabto_device_fcm.c", "src/api/nabto_device_service_invocation.c", "src/api/nabto_device_ice_servers.c"]}
{"id": "C95", "title": "Clients read from the IAM module what they are allowed to, all of it, and no secrets", "statement": "A client which asks for its own user, a user, the users, the roles, the settings, the pairing modes or the notification categories is told that content if and only if the policies allow it the action on that user; the payload is CBOR with exactly the stored values (for pairing exactly the modes possible on that connection); no answer depends on the password of a user, and only the settings on the password of open pairing; every request is answered. A test notification is sent only for an allowed request, to the token and project of that user, with the fixed text; each such request is answered and freed once.", "quantifier": "every state of the module, policy, connection, request, allocation failure, and history of notification requests and their results", "why_tests_cant": "the policies, users and strings are arbitrary and the payload sizes cross every length boundary of the encoding; allocation failures cannot be provoked at each point", "anchors": ["src/modules/iam/coap_handler/nm_iam_get_me.c", "src/modules/iam/coap_handler/nm_iam_get_user.c", "src/modules/iam/coap_handler/nm_iam_list_users.c: encode_users", "src/modules/iam/coap_handler/nm_iam_list_roles.c: encode_roles", "src/modules/iam/coap_handler/nm_iam_settings_get.c", "src/modules/iam/coap_handler/nm_iam_pairing_get.c", "src/modules/iam/coap_handler/nm_iam_get_notification_categories.c", "src/modules/iam/coap_handler/nm_iam_send_fcm_test.c: handle_request, msg_sent_callback", "src/modules/iam/coap_handler/nm_iam_coap_handler.c: nm_iam_cbor_encode_user, request_callback", "3rdparty/tinycbor/tinycbor_src/src/cborencoder.c"]}
{"id": "C96", "title": "Local discovery announces and answers exactly what is published, and is withdrawn on close", "statement": "Every mDNS packet the device sends carries the port and description last published and the addresses of that moment. Announcements and answers leave only while the service is published; an answer repeats the id of the query and goes to the asker alone exactly when the query did not come from the mDNS port, and its destination is not overwritten while it is being sent. While the service is published each family keeps exactly one operation outstanding, so it keeps listening through allocation failures, oversized packets and failed sends. Each close is answered exactly once, a goodbye is sent at most once per family, only on close. The sockets close every descriptor they opened exactly once and touch no descriptor of somebody else.", "quantifier": "every history of publish, close and stop calls, completions of the UDP module with any code, packets, allocation failures and builder failures, on both address families; for descriptors every history of binds, sends and destruction interleaved with the rest of the process opening and closing descriptors", "why_tests_cant": "the faults need a close while a send is in flight, a receive error, or a bind failure followed by reuse of the descriptor number elsewhere in the process", "anchors": ["src/modules/mdns/nm_mdns_server.c: publish_service, nm_mdns_send_packet, nm_mdns_packet_recv_wait_completed, nm_mdns_server_close, nm_mdns_server_close_instance, v4_closed, v6_closed, nm_mdns_server_stop", "src/modules/select_unix/nm_select_unix_mdns_udp_bind.c: nm_select_unix_async_bind_mdns_ipv4_ec, nm_select_unix_async_bind_mdns_ipv6_ec", "src/modules/libevent/nm_libevent_mdns_udp_bind.c: udp_async_bind_mdns_ipv4_ec, udp_async_bind_mdns_ipv6_ec"]}
{"id": "C97", "title": "Every tunnel request is answered once, with exactly what the policies decide", "statement": "When a client opens a tunnel or asks about tunnel services, the question is passed to the IAM module, or refused when there is no memory for it. Every question passed on is answered exactly once. The answer is yes or no exactly as the policies decide for the user of the connection, the action and the id and type of the service, at a moment after the question was asked; or no when the module is not serving requests. Questions are answered however many wait, and whatever the other steps of the device are interleaved with. Lack of memory never grants access.", "quantifier": "every history of questions, changes of users, roles, policies and settings, verdict events, starts and stops of the module and steps of its handler, in any order, with any allocation failing", "why_tests_cant": "the answer must be right for all policies and users and all interleavings of three parties; the faults need one particular allocation inside a decision to fail", "anchors": ["src/modules/iam/nm_iam_auth_handler.c: request_callback, handle_request", "src/modules/iam/nm_iam_internal.c: nm_iam_internal_check_access", "src/api/nabto_device_authorization.c: create_request, add_string_attribute, check_access, nabto_device_authorization_request_verdict", "src/modules/tcp_tunnel/nm_tcp_tunnel.c: nm_tcp_tunnel_service_stream_listener_callback", "src/modules/tcp_tunnel/nm_tcp_tunnel_coap.c: list_services, get_service_action", "src/api/nabto_device.c: nabto_device_connection_get_client_fingerprint"]}
{"id": "C98", "title": "The state and identity of the TCP tunnel device survive restarts", "statement": "Whenever the TCP tunnel device starts, its users and settings are exactly those of one moment of its past (or of the file it was first given), never a part of one or a mixture of two, whatever power losses, failing writes and short reads happened; a change which was answered with success is still there after a restart; a device which ran starts again when nothing around it is short; and it keeps the fingerprint it had.", "quantifier": "all histories of starts, stops, requests, authorization questions and closed connections; power loss and write failure at every byte of every write of the state and key file; reads which end early; all behaviours of the number conversion and the key parser of the libraries", "why_tests_cant": "Tests start a device a few times on files which were written completely; power loss at each byte, a disk which fills up when the file is closed, and requests which make a state the loader refuses are not among them.", "anchors": ["apps/tcp_tunnel_device/src/tcp_tunnel_main.c:iam_user_changed", "apps/tcp_tunnel_device/src/tcp_tunnel_state.c:load_tcp_tunnel_state", "apps/tcp_tunnel_device/src/tcp_tunnel_state.c:save_tcp_tunnel_state", "apps/common/private_key.c:load_or_create_private_key", "apps/common/string_file.c:string_file_load", "src/modules/fs/posix/nm_fs_posix.c:write_file"]}
{"id": "C99", "title": "A setup of the TCP tunnel device gives nobody more than it says", "statement": "With the configuration the setup program writes, each role may do exactly what the setup program says of it and each role what the lower ones may; only administrators change more than their own user; a device set up so that those who pair become guests at most never lets anybody open a tunnel, see the services or manage others, unless they know the password of the administrator or pair as its first user; every setup gives a device which starts with exactly those users and settings; the owner can pair with the password of the setup, once; and that password is a fair choice among all passwords of its length over characters which are not easily confused.", "quantifier": "all requests, connections, attributes and roles; all histories of starts, stops, power losses, pairings and other requests after the setup, all answers given to the setup program, all outputs of the random generator", "why_tests_cant": "Tests try some requests with some roles; that no sequence of pairings, self-service requests and restarts leads a guest to a tunnel is a statement about all sequences, and fairness of the passwords is one about all outputs of the generator.", "anchors": ["apps/tcp_tunnel_device/src/iam_config.c:iam_config_create_default", "apps/tcp_tunnel_device/src/tcp_tunnel_init.c:create_state_default", "apps/tcp_tunnel_device/src/tcp_tunnel_init.c:create_state_interactive_custom", "apps/tcp_tunnel_device/src/tcp_tunnel_init.c:tcp_tunnel_demo_config", "apps/common/random_string.c:random_password", "src/modules/iam/nm_iam_internal.c:nm_iam_internal_check_access"]}
{"id": "C100", "title": "The TCP tunnel device offers exactly the services of its services file", "statement": "Whenever the TCP tunnel device runs, it offers exactly the services its services file describes, each with the type, address, port and metadata of the file and in its order. One wrong definition or one host which is no IPv4 address keeps the device from running with any of them. Power lost while a services file or a device configuration is written never leads to a device with a part of it. Without a file the first start offers SSH on the local host and writes a file which says so; an existing file is never changed. A saved device configuration is loaded again with the same product id, device id, server and port.", "quantifier": "all texts of the file, all lists of services and metadata, all histories of starts, power loss and short reads at every byte, all allocation failures, all behaviours of the number conversion of the C library", "why_tests_cant": "Tests load a few well-formed files; wrong elements behind right ones, equal ids, ports which do not fit, files cut at each byte and memory which ends inside the loop are not among them.", "anchors": ["apps/tcp_tunnel_device/src/tcp_tunnel_services.c:load_tcp_tunnel_services", "apps/tcp_tunnel_device/src/tcp_tunnel_services.c:service_from_json", "apps/tcp_tunnel_device/src/tcp_tunnel_services.c:tcp_tunnel_create_default_services_file", "apps/common/json_config.c:json_config_load", "apps/common/json_config.c:json_config_save", "apps/common/device_config.c:load_device_config", "apps/common/device_config.c:save_device_config", "apps/tcp_tunnel_device/src/tcp_tunnel_main.c:handle_main"]}
{"id": "C101", "title": "The DTLS timer tells the library how much of its delays is over", "statement": "The timer handed to the DTLS library answers -1 when no delay is set, otherwise 2 once its final delay was reported, 1 from the intermediate delay on and 0 before. The final delay is reported at most once for each delay set, never before it is over, always when it is over and the queue runs, and never after the timer was cancelled or set to 0.", "quantifier": "all histories of setting delays, asking, cancelling, passing time and running the queue, all start times of the 32 bit clock", "why_tests_cant": "Tests wait for short delays; delays of weeks, the wrap of the clock at every point and each order of cancelling and setting again cannot be tried.", "anchors": ["src/modules/mbedtls/nm_mbedtls_timer.c:nm_mbedtls_timer_set_delay", "src/modules/mbedtls/nm_mbedtls_timer.c:nm_mbedtls_timer_get_delay", "src/platform/np_timestamp_wrapper.c:np_timestamp_passed_or_now"]}
{"id": "C102", "title": "A device which stays unattached without cycling its states says so", "statement": "The documented watchdog event is given when the device is not attached and its attach states did not change for the timeout of the watchdog: once for each such period, never earlier and never while the device is attached. A device which cycles its states as it should never gives it.", "quantifier": "all histories of state changes, timeouts set, passing time and running the queue", "why_tests_cant": "The event is about states which last ten minutes and longer, in every order; the test of the watchdog makes one itself and shortens its timeout.", "anchors": ["src/core/nc_attacher_watchdog.c:handle_state_changed", "src/core/nc_attacher_watchdog.c:nc_attacher_watchdog_init", "src/core/nc_attacher.c:handle_state_change", "src/core/nc_device.c:nc_device_init", "include/nabto/nabto_device.h:NABTO_DEVICE_EVENT_WATCHDOG_FAILURE"]}
{"id": "C103", "title": "The setup program of the TCP tunnel device keeps what was typed", "statement": "Every question of the setup program takes the first line which answers it and leaves the lines behind it for the next questions: yes or no in small or capital letters, a number of digits up to the maximum, a text which is not empty; an empty line means the default where there is one. A service is made of exactly the lines typed. Whatever is typed, nothing is written outside of a buffer, no number above its maximum is taken and every question ends.", "quantifier": "all sequences of bytes on the standard input and its end at every point, all contents of uninitialised memory", "why_tests_cant": "The setup program is interactive; no test types into it, and lines which are too long, bytes which are no ASCII, zero bytes, the end of the input and what the stack held before are out of reach of one.", "anchors": ["apps/common/prompt_stdin.c:prompt", "apps/common/prompt_stdin.c:prompt_repeating", "apps/common/prompt_stdin.c:prompt_yes_no", "apps/common/prompt_stdin.c:prompt_yes_no_default", "apps/common/prompt_stdin.c:prompt_uint16", "apps/common/prompt_stdin.c:prompt_uint16_default", "apps/tcp_tunnel_device/src/tcp_tunnel_init.c:createService"]}
{"id": "C104", "title": "Logging a CoAP packet is safe whatever the peer sends", "statement": "Every CoAP packet a peer sends is printed to the log. Whatever its options, their number and their lengths, nothing is written outside of the buffers of the printer. A line of at most 1022 characters says what the packet is: type, code, message id, token, paths, blocks, the other options with their lengths, and the length of the payload; of a longer one a beginning is logged or that it cannot be printed.", "quantifier": "all messages a parser may give, all lengths and contents of options and tokens, all headers", "why_tests_cant": "The packets come from peers; which combination of long options fills the buffer to the byte cannot be tried by examples.", "anchors": ["src/core/nc_coap_packet_printer.c:nc_coap_packet_print", "src/core/nc_coap_packet_printer.c:safeWrite", "src/core/nc_coap_packet_printer.c:tokenToString", "src/core/nc_coap_packet_printer.c:blockToString", "src/core/nc_coap_packet_printer.c:coapCodeToString", "src/core/nc_coap_packet_printer.c:coapOptionToString", "src/core/nc_coap_server.c:nc_coap_server_handle_packet"]}
{"id": "C105", "title": "A device tells its local addresses", "statement": "When the device is asked for its local addresses it gives the addresses it has in its networks, IPv4 before IPv6, as many as there is room for: never an unspecified address, never more than the room, never a write outside of it, with the number as result. Every socket opened for this is closed.", "quantifier": "all answers of the system to socket, connect and getsockname for both families, all sizes of the room", "why_tests_cant": "The answers depend on the network of the host; hosts without routes, with one family only or without descriptors left are not where tests run.", "anchors": ["src/modules/unix/nm_unix_local_ip.c:get_local_ips", "src/modules/libevent/nm_libevent_get_local_ip.c:get_local_ips", "src/platform/interfaces/np_local_ip.h:get_local_ips", "src/modules/mdns/nm_mdns_server.c:nm_mdns_update_local_ips", "src/core/nc_stun_coap.c:np_local_ip_get_local_ips"]}
{"id": "C106", "title": "Log messages reach the last callback set, filtered by the last valid level", "statement": "After any sequence of the log functions by any devices of the process, a message of the device reaches a callback exactly if it is at least as severe as the last valid level set (info before) and a callback is set, which is the last one set, with its data. The message has its severity, file and line and a null terminated UTF-8 text; the messages of the initialization of a device are given too if a callback was set before. An invalid level is refused and changes nothing. No text is written outside of the buffer.", "quantifier": "all sequences of nabto_device_new and of the log functions, all messages of any length, all contents of the memory of the buffer", "why_tests_cant": "The globals are shared by all devices and functions, so every order of calls matters; the length and the bytes of a text are unbounded.", "anchors": ["src/api/nabto_device_logging.c:logging_log", "src/api/nabto_device_logging.c:nabto_device_set_log_level", "src/api/nabto_device_logging.c:nabto_device_logging_set_callback", "src/platform/np_logging.c:np_log", "src/api/nabto_device.c:nabto_device_new", "include/nabto/nabto_device.h:nabto_device_set_log_callback"]}
{"id": "C107", "title": "Events of the queue on libevent run as posted, timed and cancelled", "statement": "An event of the queue on libevent which is posted runs; post_maybe_double returns true if it scheduled the event and false only if it is scheduled already; a timed event runs when its time is over and not before; cancelling stops a timed event and no posted one; the callback has the core mutex; and the thread of the application and the loop never wait for each other.", "quantifier": "all interleavings of the loop and of a thread of the application, of any length, all times", "why_tests_cant": "Interleavings of two threads around the core mutex and libevent's own lock cannot be enumerated by tests.", "anchors": ["src/nabto_device_libevent/libevent_event_queue.c:post_maybe_double", "src/nabto_device_libevent/libevent_event_queue.c:cancel", "src/nabto_device_libevent/libevent_event_queue.c:handle_event", "src/nabto_device_libevent/libevent_event_queue.c:post_timed", "src/platform/interfaces/np_event_queue.h:np_event_queue_functions", "src/modules/libevent/nm_libevent.c:evthread_use_pthreads"]}
