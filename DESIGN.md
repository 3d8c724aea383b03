# Formal model of nabto-embedded-sdk: design

The code in /repo (C, pinned commit) is modelled by small total Gallina
functions, one per C function where practical, each citing file and lines. The
theorems are about those functions; the tie to the C code is the reading
recorded in the citations. Nothing in /repo is executed.

## File layout (rocq/theories)

For every area `X`:

* `XModel.v`  – the model, definitions only;
* `XSpec.v`   – the small independent specification the theorems refer to;
* `XProofs.v` and other `X*.v` – lemmas and proofs;
* `XProps.v`  – the property theorems `Cnn_...`, each with `Print Assumptions`,
  and the examples `Cnn_ex...` which show that concrete, non trivial cases meet
  the hypotheses.

## Conventions

* `nat` for lengths and indices, `N`/`Z` for machine integers; wrap around is
  written explicitly (`mod 2^32`) where the code relies on it or can hit it.
* Undefined behaviour is a separate outcome (`None`, `UB`, `Crash`, a flag or a
  dead state), never a default value.
* Code which is not in this repository (the `nabto-common` submodule is empty:
  linked lists, string maps and sets, CoAP, STUN, mDNS and stream protocol
  engines; also mbedtls, libevent and the operating system) is represented by
  its documented behaviour (lists, sets, association lists) or by an *input* of
  the step function, an oracle, so that the theorem holds for every behaviour of
  it. cJSON and tinycbor are in /repo and are modelled where they matter.
* Memory allocation failure is an oracle where a property is about it, or where
  the code has a path for it which matters; otherwise allocation succeeds, which
  is said at the definition or in the header of the model.
* A system is `init`, `step : state -> op -> state * list out` and `run` over an
  arbitrary list of operations: calls of the application, network input,
  completions and timer events in any order. Properties are about all such
  lists. Code which runs under one lock is one step; where two threads share
  data without a common lock (event queue thread, future queue thread, select
  module, lock skeletons) their steps are interleaved.
* When the code violates the property, a theorem `..._refuted` exhibits the
  violating execution of the model and `..._partial` theorems prove the
  strongest part which does hold.
* `seeded/LOG.jsonl` records the wrong programs (edits of the model) against
  which the theorems were tested.


## Modelled code, area by area

`Area` is the prefix of the Coq files. Line ranges are in the comments of the model files.

### IamPolicy — C01, C02, C03, C04, C05, C61

* Code: src/modules/iam/policies/*.c (conditions, statements, policies), role evaluation in nm_iam_internal.c
* Model: evaluation folds, condition operators, variable resolution
* Assumed or left out: the numeric reading of a string (`strtod`) is an oracle; attribute maps are association lists
* Proof method: equivalence with a declarative predicate by induction over policies and statements; permutation lemmas

### IamState — C06, C07, C08, C09, C10, C12, C14, C15, C16, C17, C18, C62, C63, C64

* Code: src/modules/iam/nm_iam*.c, nm_iam_user.c, nm_iam_state.c, coap_handler/*.c (changing requests), nm_iam_connection_events.c, nm_iam_pake_handler.c
* Model: state with user list; every API call and CoAP request is an operation; users carry allocation ids so that dangling pointers show
* Assumed or left out: allocation succeeds; C strings without NUL; decoded CBOR fields are inputs (absent or of the wrong type is a case); linked lists and string sets behave as documented
* Proof method: invariants over histories, frame lemmas, per handler case analysis, refutations

### IamJson — C11, C12, C13, C65, C66, C67

* Code: nm_iam_serializer.c, nm_iam_to_json.c, nm_iam_from_json.c, nm_policies_to_json.c, nm_policies_from_json.c
* Model: documents as JSON trees, both directions, down to text through area Json
* Assumed or left out: allocation succeeds; the text level is that of area Json
* Proof method: round trips by induction

### Json — used by other areas

* Code: 3rdparty/cjson/cjson/cJSON.c: unformatted printer and parser
* Model: character level printer and parser
* Assumed or left out: `strtod` is a parameter; a number is kept as its integer value; the printer only meets integers; allocation succeeds; nesting limit as in the code
* Proof method: parse after print by induction over the tree

### PwAuth — C19, C20, C21, C22, C68, C69, C70

* Code: nc_spake2.c, nc_spake2_coap.c, nm_mbedtls_spake2.c (with area Spake), nabto_device_password_authentication.c
* Model: token bucket with clock, per connection authentication state, requests and their answers
* Assumed or left out: allocation succeeds; the CBOR parse of a request is an input; connection references are not reused
* Proof method: counting invariants over traces, refutations

### Spake — used by other areas

* Code: nm_mbedtls_spake2.c 64-198
* Model: key agreement over an arbitrary commutative group and an arbitrary hash
* Assumed or left out: symbolic cryptography: no statement on computational hardness; random generator failures left out
* Proof method: group algebra

### Codec — C23, C24, C25, C26, C51, C53

* Code: nc_packet.c, header parser of nc_stream_manager.c, np_util.c, fingerprint strings, token generator, CoAP status conversion
* Model: bytes are N, memory regions are lists, an access outside is undefined behaviour
* Assumed or left out: the random generator is an input
* Proof method: arithmetic and induction on byte lists

### Event — C27, C28, C71

* Code: nm_event_queue.c, thread_event_queue.c, np_timestamp_wrapper.c
* Model: lists of events, unbounded clock of which the code sees the value modulo 2^32, queue thread with its own steps
* Assumed or left out: an event is in one list only; the condition variable wakes in time (timing assumption of C71 is part of its statement)
* Proof method: list invariants; refutation by schedule

### KeepAlive — C29, C30, C72

* Code: nc_keep_alive.c and its callers, settings in nc_attacher_attach_start.c
* Model: counters with explicit 32 bit wrap around
* Assumed or left out: packets are counted only
* Proof method: induction over ticks

### Future — C31, C32

* Code: nabto_device_future.c, nabto_device_future_queue.c
* Model: futures, queue thread steps pop, take, call; waits as sleeping threads
* Assumed or left out: build without future queue left out
* Proof method: invariant over arbitrary lists of operations (induction on the history); counting invariants for exactly-once statements; refutations by a concrete history, generalised where possible

### Listener — C33

* Code: nabto_device_listener.c and its six users
* Model: events, waiting future, status
* Assumed or left out: list of all listeners left out
* Proof method: invariant over arbitrary lists of operations (induction on the history); counting invariants for exactly-once statements; refutations by a concrete history, generalised where possible

### Auth — C34

* Code: nabto_device_authorization.c, nabto_device_authorization_events.c
* Model: requests and verdicts
* Assumed or left out: attributes and allocation failure left out
* Proof method: invariant over arbitrary lists of operations (induction on the history); counting invariants for exactly-once statements; refutations by a concrete history, generalised where possible

### Lock — C35, C84, C85

* Code: src/api/*.c, thread_event_queue.c, nabto_platform_libevent.c
* Model: skeletons of all functions: locks, waits, joins, calls, control flow with conditions as choices (LockCode.v), semantics as an inductive relation
* Assumed or left out: extracted for one configuration; logging, allocation, mbedtls, libevent left out; data is not seen
* Proof method: verified static checker, soundness by induction over executions; refutations by concrete executions

### Attach — C37, C38, C39, C40, C41

* Code: nc_attacher.c, nc_attacher_attach_start.c, nc_attacher_attach_end.c, nc_attacher_sct.c, parts of nc_device.c
* Model: one step per call into the attacher; event queue as list
* Assumed or left out: DTLS and CoAP clients obey their contract (handlers once, CoAP answers only for requests sent); payload decoding is an input; keep alive in its own area
* Proof method: invariants, ranking functions for progress, refutations

### Net — C42, C43, C44, C45, C73, C74, C75, C76

* Code: nc_udp_dispatch.c, nc_client_connection_dispatch.c, nc_client_connection.c, nc_connection.c, nc_virtual_connection.c, nc_rendezvous.c
* Model: datagrams as byte lists, connection table, sending and its completions
* Assumed or left out: what DTLS does with a packet is an input
* Proof method: invariant over arbitrary lists of operations (induction on the history); counting invariants for exactly-once statements; refutations by a concrete history, generalised where possible

### Virt — C46, C47, C48

* Code: nc_virtual_stream.c and the virtual branches of nc_stream.c
* Model: byte contents of buffers, completion events
* Assumed or left out: reference counts (area Mgr) left out
* Proof method: ghost histories, invariant over arbitrary lists of operations (induction on the history); counting invariants for exactly-once statements; refutations by a concrete history, generalised where possible

### Str — C49, C81

* Code: nc_stream.c 342-679
* Model: operation slots; which part of a buffer is filled or taken
* Assumed or left out: the stream protocol is an oracle
* Proof method: invariant over arbitrary lists of operations (induction on the history); counting invariants for exactly-once statements; refutations by a concrete history, generalised where possible

### Sap — C36

* Code: nabto_device_stream.c over area Str
* Model: API objects, futures and completion events
* Assumed or left out: creating a completion event succeeds
* Proof method: invariant over arbitrary lists of operations (induction on the history); counting invariants for exactly-once statements; refutations by a concrete history, generalised where possible

### Mgr — C50, C82, C83

* Code: nc_stream_manager.c, reference counts of nc_stream.c and nc_virtual_stream.c
* Model: heap of streams; use after free is a crash
* Assumed or left out: the stream protocol is an oracle; allocation of other objects succeeds
* Proof method: invariant over arbitrary lists of operations (induction on the history); counting invariants for exactly-once statements; refutations by a concrete history, generalised where possible

### Vco — C52, C90

* Code: nabto_device_virtual_connection.c 208-383, virtual parts of nc_coap_server.c, nc_virtual_connection.c
* Model: client and server side of virtual requests, payload bytes, paths at character level
* Assumed or left out: one virtual connection
* Proof method: invariant over arbitrary lists of operations (induction on the history); counting invariants for exactly-once statements; refutations by a concrete history, generalised where possible

### Stun — C54

* Code: nc_stun.c, nc_stun_coap.c
* Model: analysis and endpoint requests
* Assumed or left out: the STUN protocol is an oracle
* Proof method: invariant over arbitrary lists of operations (induction on the history); counting invariants for exactly-once statements; refutations by a concrete history, generalised where possible

### Dns — C55

* Code: nc_dns_multi_resolver.c, nm_unix_dns.c, nm_libevent_dns.c
* Model: resolver with both platform back ends
* Assumed or left out: the answers of the system are inputs
* Proof method: invariant over arbitrary lists of operations (induction on the history); counting invariants for exactly-once statements; refutations by a concrete history, generalised where possible

### Tun — C56, C88, C89

* Code: nm_tcp_tunnel.c, nm_tcp_tunnel_coap.c, nabto_device_tcp_tunnelling.c
* Model: services, limits, authorization questions, CoAP answers as trees
* Assumed or left out: the verdicts of the application, chosen stream ports and allocation are inputs; weak pointers do not wrap
* Proof method: invariant over arbitrary lists of operations (induction on the history); counting invariants for exactly-once statements; refutations by a concrete history, generalised where possible

### Rly — C57, C86, C87

* Code: nm_tcp_tunnel_connection.c with either TCP implementation and the stream
* Model: byte contents of both directions, posted completions
* Assumed or left out: socket and stream obey their contract; bytes arrive in order
* Proof method: invariant over arbitrary lists of operations (induction on the history); counting invariants for exactly-once statements; refutations by a concrete history, generalised where possible

### Srv — C58, C77

* Code: nm_mbedtls_srv.c with its owner nc_client_connection.c
* Model: queue of sends, timer, close
* Assumed or left out: mbedtls is an oracle; buffers are tokens; the timer may fire at any time
* Proof method: invariant over arbitrary lists of operations (induction on the history); counting invariants for exactly-once statements; refutations by a concrete history, generalised where possible

### Cli — C78, C79

* Code: nm_mbedtls_cli.c with its owner nc_attacher.c
* Model: as Srv
* Assumed or left out: as Srv
* Proof method: invariant over arbitrary lists of operations (induction on the history); counting invariants for exactly-once statements; refutations by a concrete history, generalised where possible

### Dev — C59, C60, C80

* Code: nabto_device.c, nc_device.c: configuration, start, close, stop, attach setting
* Model: strings on a heap, futures, states
* Assumed or left out: sockets, connections, attacher and platform complete by events of their own; the attacher is abstract
* Proof method: invariant over arbitrary lists of operations (induction on the history); counting invariants for exactly-once statements; refutations by a concrete history, generalised where possible

### Cdr — C91

* Code: nc_coap_client.c, nc_coap_server.c 34-242
* Model: event loops with timer and send buffer
* Assumed or left out: the CoAP protocol is an oracle which wants something until the next call; comparison of time stamps behaves as documented
* Proof method: invariant over arbitrary lists of operations (induction on the history); counting invariants for exactly-once statements; refutations by a concrete history, generalised where possible

### Udp — C92

* Code: nm_select_unix_udp.c, nm_libevent_udp.c, nc_udp_dispatch.c
* Model: descriptor table shared with the rest of the process, receive loop
* Assumed or left out: system calls are inputs; addresses and bytes opaque
* Proof method: invariant over arbitrary lists of operations (induction on the history); counting invariants for exactly-once statements; refutations by a concrete history, generalised where possible

### Tsel — C93

* Code: nm_select_unix_tcp.c, loop of nm_select_unix.c
* Model: two threads interleaved inside the functions
* Assumed or left out: stores of data and length are one step; closing of descriptors left out
* Proof method: invariant over arbitrary lists of operations (induction on the history); counting invariants for exactly-once statements; refutations by a concrete history, generalised where possible

### Clo — C94

* Code: nabto_device_fcm.c, nabto_device_service_invocation.c, nabto_device_ice_servers.c with nc_attacher_fcm.c, nc_attacher_service_invoke.c, nc_attacher_ice_servers.c
* Model: one object with its core part; CBOR as trees
* Assumed or left out: the CoAP client calls the handler of a sent request once; allocation is an input
* Proof method: invariant over arbitrary lists of operations (induction on the history); counting invariants for exactly-once statements; refutations by a concrete history, generalised where possible

### Ird — C95

* Code: reading CoAP handlers of src/modules/iam/coap_handler, nm_iam_send_fcm_test.c, cborencoder.c as used
* Model: byte level encoder with its error protocol, state and access check of IamState
* Assumed or left out: the notification request is answered once; handlers run one at a time
* Proof method: byte level round trips, case analysis, invariant over arbitrary lists of operations (induction on the history); counting invariants for exactly-once statements; refutations by a concrete history, generalised where possible

### Mdns — C96

* Code: nm_mdns_server.c
* Model: both address families, publish, close, stop, completions
* Assumed or left out: packet builder and query parser (nabto-common), local addresses and UDP completions are inputs; initialisation left out
* Proof method: invariant over arbitrary lists of operations (induction on the history); counting invariants for exactly-once statements; refutations by a concrete history, generalised where possible

### Mdb — C96

* Code: nm_select_unix_mdns_udp_bind.c, nm_libevent_mdns_udp_bind.c
* Model: one socket over the descriptor table
* Assumed or left out: system calls are inputs; group membership left out
* Proof method: invariant over arbitrary lists of operations (induction on the history); counting invariants for exactly-once statements; refutations by a concrete history, generalised where possible

### Iah — C97

* Code: nm_iam_auth_handler.c, nm_iam_internal.c 13-95 with nabto_device_authorization.c and the askers in nm_tcp_tunnel.c, nm_tcp_tunnel_coap.c
* Model: Auth and IamState models run together with the handler; each allocation may fail
* Assumed or left out: the connection information is an input of each decision; the handler is not deinitialised; a failed map insertion leaves the map as it was
* Proof method: invariant over arbitrary lists of operations (induction on the history); counting invariants for exactly-once statements; refutations by a concrete history, generalised where possible

### Per — C98

* Code: tcp_tunnel_state.c 21-66, tcp_tunnel_main.c 408, 488-694, 791-831, private_key.c, string_file.c, nm_fs_posix.c 53-138, with the IAM module and the JSON reader and printer
* Model: IamState and IamJson models run on a device with two files; each write ends complete, cut, unopened or with power loss at any byte
* Assumed or left out: what a start does before the state is loaded and between the key and the IAM module is one outcome each; the other files are not modelled; a lost write keeps a beginning of the text (no reordering inside the file)
* Proof method: invariant over arbitrary lists of operations (induction on the history); counting invariants for exactly-once statements; refutations by a concrete history, generalised where possible

### Def — C99

* Code: iam_config.c 32-135, tcp_tunnel_init.c 117-215 and 305-316, random_string.c 14-58, with the models of areas IamPolicy, IamState, IamJson and Per
* Model: the default configuration and the first states are data of those models; the answers to the setup program and the random bytes are inputs
* Assumed or left out: the prompts and the services part of the setup are left out; writing the configuration file is covered by reading any beginning of its text; the generator of mbedTLS is an arbitrary list of bytes and failures
* Proof method: invariant over arbitrary lists of operations (induction on the history); counting invariants for exactly-once statements; refutations by a concrete history, generalised where possible

### Svf — C100

* Code: tcp_tunnel_services.c 32-168, json_config.c 14-75, device_config.c 20-71, tcp_tunnel_main.c 581-601
* Model: the file is a text or missing; the JSON model reads and prints it; the services are given to the tunnel model; writes end as in area Per; every allocation is an input
* Assumed or left out: results of strdup and of the cJSON constructors are taken to succeed; numbers are integers; nn_string_map (not in the repository) keeps entries in the order of insertion; the rest of a start is one outcome before, between and after
* Proof method: The invariants are that the newest service is the only one with its id and its number, so that its metadata reaches it, and that a beginning of a printed array is never read as an array.

### Tmr — C101, C102

* Code: nm_mbedtls_timer.c, np_timestamp_wrapper.c 8-24, nc_attacher_watchdog.c
* Model: the timer and the watchdog are records with one deadline each; time is unbounded, the clock shows its low 32 bits
* Assumed or left out: the event queue runs a due event at any later moment (C27 is about the queue itself); creating events succeeds; the states of the attacher are four classes; a watchdog removed while the attacher runs is not told of changes
* Proof method: After the last delay or change the deadline is fixed until it is reported or cancelled; the theorems split a history there.

### Prm — C103

* Code: prompt_stdin.c, tcp_tunnel_init.c 217-252
* Model: the input is a list of bytes with its end; buffers are lists, a write outside of one is an outcome; uninitialised memory is an input; loops are cut after a number of attempts
* Assumed or left out: what is printed; more than 2^31 characters in a line; the order of the questions outside of createService
* Proof method: The loop of prompt is proved for a buffer split at the number of characters read; the questions go by induction on the lines.

### Ppr — C104

* Code: nc_coap_packet_printer.c
* Model: texts are lists of bytes; sprintf into a small buffer and vsnprintf check their bounds in the model, a write outside is an outcome
* Assumed or left out: the parser of nabto_coap (not in the repository) is an input; vsnprintf does not fail; the size_t passed for an int precision
* Proof method: The buffer holds the first 1022 characters of what was to be written, and the cursor is the length of all of it or none.

### Lip — C105

* Code: nm_unix_local_ip.c 26-106, nm_libevent_get_local_ip.c 51-131
* Model: the array is a list, a write outside of it is an outcome; the answers of the system are inputs; the calls are listed
* Assumed or left out: close does not fail; the literals are valid addresses; the Windows includes
* Proof method: By cases over the answers, for an array of any length.

### Lgg — C106

* Code: nabto_device_logging.c, np_logging.c, nabto_device.c 73-89
* Model: the globals are a record, a history a list of calls; the 256 bytes of the buffer are a list with any contents, a write outside of it is an outcome
* Assumed or left out: the format and its arguments are the text they make, without zero bytes; vsnprintf does not fail; the callback to standard output is available; two threads logging while a callback is changed
* Proof method: By induction over the history from its end; the cut text by splitting the buffer.

### Leq — C107

* Code: libevent_event_queue.c 69-147
* Model: one event with its flag and what libevent keeps of it; the loop and one thread of the application take turns in steps; a step which has to wait is not possible
* Assumed or left out: libevent (event_active, event_add, event_del, its waiting for a running callback) is assumed as described; event_add and event_assign succeed; more threads of the application; handle_event's callback is a counter
* Proof method: Invariants over the steps by cases on both threads; what is lost or stopped stays so by induction over the steps after.

## Plan and result per property

Every property is expressible in the model. `proved`: the statement holds of the model as it stands. `partial`: either part of it is missing or the code violates it; then a `_refuted` theorem exhibits the violating execution and the `_partial` theorems prove what does hold (see the note).

| id | property | area | status | theorems |
|----|----------|------|--------|----------|
| C01 | IAM grants access exactly when the policies say so | IamPolicy | proved | `access_decision_iff_spec` |
| C02 | Order of policies and statements never changes an access decision | IamPolicy | proved | `order_irrelevant` |
| C03 | Deny by default and deny wins | IamPolicy | proved | `unset_role_denied`, `unknown_role_denied`, `default_deny`, `deny_wins`, `more_denies_never_grant` |
| C04 | Condition operators mean what the policy documentation says | IamPolicy | proved | `missing_attribute_never_matches`, `condition_iff_some_value`, `string_equals`, `condition_first_decided`, `error_denies`, `unparsable_attribute_errs`, `variable_resolution` |
| C05 | StringNotEquals excludes every listed value | IamPolicy | partial | `string_not_equals_refuted`, `string_not_equals_actual`, `string_not_equals_single_partial` |
| C06 | Access decisions use the right identity | IamState | proved | `access_uses_identity`, `identity_unique` |
| C07 | Usernames are always valid and unique | IamState | proved | `usernames_valid_and_unique` |
| C08 | One client fingerprint identifies at most one user | IamState | partial | `fingerprint_unique_refuted`, `fingerprint_unique_partial`, `shared_means` |
| C09 | The configured maximum number of users is never exceeded | IamState | partial | `user_limit_refuted`, `user_limit_partial` |
| C10 | A failing user update changes nothing and a succeeding one touches one user only | IamState | partial | `success_effect_refuted`, `failed_call_changes_nothing`, `failed_request_changes_nothing`, `success_effect_partial`, `success_validated`, `request_effect`, `request_success_acts` |
| C11 | Persisted IAM state survives a dump/load round trip | IamJson | proved | `state_round_trip`, `text_round_trip` |
| C12 | Every reachable IAM state can be reloaded | IamJson, IamState | partial | `reload_text_partial`, `reload_refuted`, `reload_partial` |
| C13 | Policy configuration survives a dump/load round trip | IamJson | proved | `conf_round_trip`, `same_decisions` |
| C14 | Every accepted change of IAM state is announced | IamState | partial | `announced_refuted`, `requests_announced`, `pairing_modes_announced`, `api_announced_later_partial`, `failures_silent` |
| C15 | A client can pair only through an enabled pairing mode | IamState | partial | `open_password_refuted`, `pairing_guards_partial`, `initial_once`, `invite_single_use` |
| C16 | Remote clients change IAM state only with permission | IamState | proved | `changes_need_permission`, `only_the_named_user` |
| C17 | No IAM operation touches a freed user | IamState | partial | `freed_user_refuted`, `freed_user_partial` |
| C18 | Token-based identity ends with the connection | IamState | partial | `closed_connection_refuted`, `closed_connection_partial`, `no_entry_no_identity`, `no_client_denied` |
| C19 | Password guessing is rate limited | PwAuth | proved | `guesses_rate_limited`, `rejected_iff_401`, `refused_not_evaluated`, `not_locked_out` |
| C20 | A connection is password authenticated only as a user whose password it proved | PwAuth | partial | `identity_refuted`, `identity_partial` |
| C21 | A connection becomes password authenticated only by a correct proof | PwAuth | proved | `only_by_proof` |
| C22 | Every password request is answered exactly once | PwAuth | proved | `answered_exactly_once`, `set_password`, `free`, `stop` |
| C23 | Variable length integers round trip and parsing is memory safe | Codec | proved | `round_trip`, `write_bytes`, `parse_inside`, `accepted_complete`, `truncated_rejected` |
| C24 | Hex conversion round trips and is strict | Codec | proved | `round_trip`, `accepts_exactly` |
| C25 | Fingerprint strings returned by the API are terminated | Codec | partial | `terminated_refuted`, `virtual_never_terminated_refuted`, `terminated_partial` |
| C26 | Generated server connect tokens are uniform 12 character tokens | Codec | proved | `token_shape`, `alphabet`, `uniform`, `every_token`, `errors_reported`, `terminates` |
| C27 | Event queue runs events once, in order, and never early | Event | proved | `queue_is_an_agenda`, `never_early`, `runs_as_taken`, `at_most_once`, `taken_in_turn`, `posted_last` |
| C28 | A cancelled or destroyed event never runs | Event | partial | `cancelled_never_runs_refuted`, `destroyed_not_used_refuted`, `cancelled_never_runs_partial`, `in_callbacks_partial`, `destroyed_not_used_partial` |
| C29 | Keep alive detects dead peers in bounded time and never drops live ones | KeepAlive | partial | `dead_peer_found_partial`, `patience`, `probes_then_closes`, `live_peer_kept_partial`, `answering_peer_kept_partial`, `live_peer_kept_refuted`, `dead_peer_found_refuted`, `new_connection_refuted` |
| C30 | Keep alive settings from the server cannot crash the device | KeepAlive | partial | `attach_response_refuted`, `attach_response_partial`, `settings_taken` |
| C31 | Device futures resolve exactly once and callbacks run exactly once | Future | proved | `callbacks_once`, `callbacks_all`, `nothing_lost_at_stop`, `error_code`, `two_callbacks_refuted` |
| C32 | Waiting on a future returns only after it resolved | Future | partial | `wait_refuted`, `wait_partial`, `timed_wait`, `woken_partial`, `woken_refuted` |
| C33 | Listeners deliver every event once and in order | Listener | proved | `in_order`, `answers`, `never_idle`, `futures_once`, `after_stop`, `init_twice_refuted` |
| C34 | Authorization requests get exactly one verdict, default deny | Auth | partial | `safe`, `one_verdict`, `allow_only`, `everyone_told`, `memory`, `stale_listener_refuted` |
| C35 | API calls never return with the device lock held | Lock | partial | `stream_listener_refuted`, `read_all_refuted`, `stop_queue_refuted`, `then_stuck`, `release_partial`, `user_partial`, `unlock_partial`, `callbacks` |
| C36 | Stream API futures always resolve exactly once | Sap | partial | `at_most_once_partial`, `no_crash_partial`, `exactly_once_partial`, `code_partial`, `posted`, `in_progress_partial`, `next_partial`, `lost_refuted`, `twice_refuted`, `accept_refuted` |
| C37 | Attach redirects are bounded | Attach | proved | `redirects_bounded`, `where_to`, `gives_up` |
| C38 | Attached and detached events alternate | Attach | partial | `alternate_refuted`, `detached_first_refuted`, `alternate_partial`, `alternate_own_partial` |
| C39 | Closing the attacher completes exactly once | Attach | partial | `at_most_once`, `no_attempt`, `completes`, `closed_is_closed_partial`, `closed_is_closed_refuted` |
| C40 | The device always retries attaching | Attach | partial | `retries_refuted`, `cancelled_refuted`, `outstanding_partial`, `retries_partial`, `no_crash` |
| C41 | Server connect token synchronization is reported truthfully | Attach | proved | `synchronized` |
| C42 | Connection limits and references | Net | partial | `limit`, `unique_partial`, `resolves_partial`, `reuse_refuted` |
| C43 | Only authenticated traffic can move a connection | Net | partial | `moved_refuted`, `moved_partial` |
| C44 | Datagram dispatch is total and unambiguous | Net | partial | `dispatch`, `short`, `no_crash`, `ids_unique`, `delivered`, `new_partial`, `hello_refuted` |
| C45 | Rendezvous handling cannot be used for amplification | Net | partial | `at_most_one`, `not_larger`, `queue`, `known_refuted`, `known_partial` |
| C46 | Virtual streams are faithful byte pipes | Virt | proved | `prefix`, `nothing_lost`, `write_ok`, `at_most_once`, `read`, `no_stall`, `refused` |
| C47 | Data written before close is delivered on virtual streams | Virt | partial | `lost_refuted`, `early_eof_refuted`, `eof_partial`, `close_partial`, `drain_partial` |
| C48 | Stopping a virtual stream completes everything | Virt | partial | `read_refuted`, `device_abort_refuted`, `close_refuted`, `client_abort_partial`, `aborted_partial`, `device_partial` |
| C49 | Core streams complete each operation exactly once | Str | proved | `at_most_once`, `only_begun`, `rejected`, `one_of_a_kind`, `stop`, `stopped`, `after_stop`, `read`, `read_inside`, `write`, `closed` |
| C50 | Stream identifiers, ports and limits | Mgr | proved | `ids`, `ports`, `listen`, `limit`, `opens`, `offered` |
| C51 | Stream packet parsing stays inside the packet | Codec | partial | `inside_refuted`, `inside_partial`, `long_packets_partial`, `sent_is_parsed`, `parsed_is_there` |
| C52 | Virtual CoAP requests resolve once and are freed once | Vco | partial | `once`, `release`, `resolved_partial`, `meaning`, `careful_partial`, `unanswered_refuted`, `client_free_refuted`, `payload_refuted`, `twice_refuted`, `leak_refuted` |
| C53 | CoAP status codes convert losslessly | Codec | proved | `status_round_trip` |
| C54 | STUN analysis callbacks are invoked exactly once | Stun | partial | `once`, `progress`, `stop`, `content`, `meaning`, `name_partial`, `name_refuted` |
| C55 | Hostname resolution interleaves v4 and v6 results | Dns | partial | `once`, `result`, `refused`, `found`, `safe_partial`, `overflow_refuted` |
| C56 | Tunnels are opened only when authorized and within limits | Tun | partial | `authorised`, `limit`, `granted`, `streams`, `open`, `removed`, `alive_refuted` |
| C57 | Tunnels relay bytes faithfully and end cleanly | Rly | proved | `relay`, `once`, `release_idle`, `never_forgotten` |
| C58 | DTLS server sends queued data in order and never stalls | Srv | partial | `in_order`, `freed`, `no_stall_partial`, `drains_partial`, `close_does_not_cancel`, `sent_partial`, `stall_refuted` |
| C59 | Device start and close futures resolve exactly once | Dev | partial | `at_most_once_partial`, `exactly_once_partial`, `no_crash`, `overlap_refuted`, `twice_refuted`, `stop_refuted` |
| C60 | Configuration is frozen after start | Dev | partial | `strings_partial`, `settings`, `key`, `ports_partial`, `ports_refuted`, `use_after_free_refuted`, `root_certs_partial`, `root_certs_refuted`, `host_refuted` |
| C61 | The order of a condition's values does not matter | IamPolicy | partial | `value_order_refuted`, `value_order_partial`, `string_conditions_well_typed` |
| C62 | Server connect tokens of users are registered with the device | IamState | partial | `tokens_registered_refuted`, `tokens_registered_partial` |
| C63 | Documented optional arguments are safe | IamState | partial | `optional_name_refuted`, `given_arguments_defined_partial` |
| C64 | No remote request triggers undefined behaviour in the IAM module | IamState | partial | `requests_defined_refuted`, `requests_defined_partial` |
| C65 | Loading a policy document never drops a restriction | IamJson | partial | `restriction_dropped_refuted`, `restrictions_kept_partial` |
| C66 | State documents of unknown versions are refused and a refused load changes nothing | IamJson | partial | `unknown_version_refuted`, `newer_version_partial`, `refused_load_changes_nothing`, `version_1_fingerprint` |
| C67 | A successful state load loses no user | IamJson | partial | `user_lost_refuted`, `users_kept_partial` |
| C68 | The password key is bound to both fingerprints, the client share and the password | PwAuth | proved | `key_bound_to_inputs`, `transcript_injective` |
| C69 | A client with the right password is let in | PwAuth | proved | `right_password_accepted` |
| C70 | Asking for the authenticated username is always defined | PwAuth | partial | `username_refuted`, `username_partial` |
| C71 | The event queue thread never oversleeps | Event | proved | `no_oversleeping` |
| C72 | Keep alive packets are well formed, never overlap and answer requests | KeepAlive | partial | `packets`, `one_at_a_time`, `answered`, `silent_without_completion`, `length_partial`, `length_refuted` |
| C73 | Closing all connections is reported exactly once | Net | partial | `closed_once_partial`, `never_refuted`, `accepts_refuted` |
| C74 | The internal error reply cannot be used for amplification | Net | partial | `amplified_refuted`, `reply_partial`, `one_at_a_time` |
| C75 | A connection follows its client to another channel | Net | partial | `never_refuted`, `stays_refuted`, `follows_partial` |
| C76 | Every packet which DTLS sends is put on the wire and completed | Net | partial | `one_at_a_time`, `completes`, `sent_partial`, `lost_refuted` |
| C77 | A client connection of the DTLS server reports its end once and is released | Srv | partial | `reported_at_most_once`, `not_before`, `released_partial`, `leak_refuted`, `leak_always_refuted`, `use_after_free_refuted`, `stale_refuted` |
| C78 | The DTLS connection to the basestation ends once, closes when asked and is released | Cli | partial | `at_most_once`, `released`, `not_before`, `close_partial`, `eof_refuted`, `stale_partial`, `stale_refuted` |
| C79 | Data for the basestation is sent in order and every send completes | Cli | partial | `in_order`, `freed`, `no_stall_partial`, `drains_partial`, `sent_partial`, `eof_refuted` |
| C80 | The device attaches exactly when attach is enabled | Dev | partial | `attaches_partial`, `not_before`, `stopped`, `closed_partial`, `disabled_refuted`, `enabled_refuted` |
| C81 | Stream operations complete as soon as the protocol allows | Str | partial | `read`, `write_partial`, `eof`, `close`, `accept`, `empty_write_refuted` |
| C82 | A stream lives as long as it is used and no longer | Mgr | partial | `no_listener_refuted`, `refused_refuted`, `no_crash_partial`, `in_use`, `no_leak`, `no_leak_virtual` |
| C83 | Sending on streams recovers after a failed send | Mgr | partial | `rst_refuted`, `stream_refuted`, `rst_partial`, `stream_partial` |
| C84 | Locks are taken in one order and calls do not deadlock | Lock | partial | `order_partial`, `no_deadlock_partial` |
| C85 | The core is used only with the device lock | Lock | partial | `refuted`, `stop_refuted`, `core_locked_partial`, `callbacks_partial` |
| C86 | The end of one side of a tunnel connection is passed on truthfully | Rly | partial | `service_refuted`, `client_refuted`, `abort_refuted`, `close_partial`, `eof_passed`, `shut_partial` |
| C87 | A tunnel connection ends when it has to | Rly | partial | `remove_refuted`, `failure_refuted`, `client_refuted`, `remove_select_partial`, `remove_libevent_partial` |
| C88 | Clients learn about tunnel services only what the application allowed | Tun | partial | `list`, `info_partial`, `info_same_partial`, `info_refuted`, `once` |
| C89 | Calls which configure tunnels do what they report | Tun | partial | `not_found`, `add`, `limit`, `metadata_partial`, `metadata_refuted`, `limit_refuted`, `leak_refuted` |
| C90 | Virtual CoAP requests and responses are carried faithfully | Vco | partial | `request`, `path`, `response`, `not_found`, `not_yet`, `format_refuted`, `error_refuted` |
| C91 | CoAP retransmissions and sends are never forgotten | Cdr | partial | `progress_partial`, `single`, `refused_refuted`, `forgotten_refuted` |
| C92 | The device's UDP sockets are opened, used and closed correctly | Udp | partial | `descriptors_partial`, `rebind_refuted`, `close_refuted`, `ipv4_partial`, `ipv4_refuted`, `in_use_partial`, `in_use_refuted`, `reception`, `order`, `failure_partial`, `failure_refuted` |
| C93 | TCP connections of the device complete their operations truthfully | Tsel | partial | `once_partial`, `writes_partial`, `connect_partial`, `progress_partial`, `writes_refuted`, `once_refuted`, `crash_refuted`, `connect_refuted`, `select_refuted`, `progress_refuted`, `descriptor_refuted` |
| C94 | Notifications, service invocations and ICE server requests are sent and answered faithfully | Clo | partial | `once`, `resolved`, `request_partial`, `safe_partial`, `response_partial`, `status`, `complete_partial`, `accept`, `release_partial`, `busy_partial`, `connection_refuted`, `stop_refuted`, `state_refuted`, `message_refuted`, `list_refuted`, `status_refuted`, `body_refuted`, `complete_refuted`, `release_refuted`, `retry_refuted`, `return_refuted`, `identifier_refuted` |
| C95 | Clients read from the IAM module what they are allowed to, all of it, and no secrets | Ird | partial | `allowed_partial`, `allowed_refuted`, `me`, `user`, `settings`, `pairing`, `categories`, `user_secret`, `open_secret`, `accept`, `users_refuted`, `roles_refuted`, `answered_partial`, `alive`, `answered_refuted`, `fcm_partial`, `fcm_message_refuted`, `fcm_reply`, `fcm_once_partial`, `fcm_alive_partial`, `fcm_failed_refuted` |
| C96 | Local discovery announces and answers exactly what is published, and is withdrawn on close | Mdb, Mdns | partial | `descriptor_partial`, `descriptor_refuted`, `content`, `listen_published`, `reason`, `answer`, `announce`, `listening_partial`, `listening_refuted`, `reply_target`, `close_once`, `goodbye_once`, `goodbye_v4_partial`, `goodbye_v6_partial`, `goodbye_refuted`, `close_code_refuted`, `update_refuted` |
| C97 | Every tunnel request is answered once, with exactly what the policies decide | Iah | partial | `answer`, `yes`, `once`, `asked`, `answered`, `defined`, `shortage_refuted`, `identity_refuted`, `shortage_partial` |
| C98 | The state and identity of the TCP tunnel device survive restarts | Per | partial | `whole_state`, `broken_file_refused`, `latest_partial`, `not_opened_unchanged`, `starts_again_partial`, `same_identity`, `power_loss_refuted`, `disk_full_refuted`, `promise_refuted`, `odd_fingerprint_refuted`, `first_start_refuted` |
| C99 | A setup of the TCP tunnel device gives nobody more than it says | Def | partial | `matrix`, `roles_ordered`, `changes`, `given_to_nobody`, `no_escalation`, `no_tunnels`, `first_start`, `owner`, `modes`, `owner_refuted`, `password`, `password_fair` |
| C100 | The TCP tunnel device offers exactly the services of its services file | Svf | partial | `exact`, `definitions`, `hosts`, `runs`, `written`, `torn`, `default`, `kept`, `first_start_refuted`, `same_id_refuted`, `port_refuted`, `memory_refuted`, `crash_refuted`, `no_crash_partial`, `config`, `config_torn`, `config_read` |
| C101 | The DTLS timer tells the library how much of its delays is over | Tmr | partial | `cancelled`, `status_partial`, `status_refuted`, `callback` |
| C102 | A device which stays unattached without cycling its states says so | Tmr | partial | `report`, `attached`, `device_refuted`, `healthy_refuted` |
| C103 | The setup program of the TCP tunnel device keeps what was typed | Prm | partial | `prompt`, `inside`, `yes_no`, `number`, `range`, `service_partial`, `cut_refuted`, `tab_refuted`, `memory_refuted`, `end_refuted`, `zero_refuted` |
| C104 | Logging a CoAP packet is safe whatever the peer sends | Ppr | partial | `safe`, `text`, `invalid`, `silent_refuted`, `pointer_refuted`, `token` |
| C105 | A device tells its local addresses | Lip | partial | `addresses`, `local_network_refuted`, `two_networks_refuted` |
| C106 | Log messages reach the last callback set, filtered by the last valid level | Lgg | partial | `delivery`, `level_unique`, `callback_unique`, `level`, `first_device_refuted`, `utf8_refuted` |
| C107 | Events of the queue on libevent run as posted, timed and cancelled | Leq | partial | `mutex`, `post_partial`, `double`, `timed`, `cancel`, `lost_refuted`, `deadlock_refuted` |

(Theorem names are prefixed with the id, e.g. `C01_...`.)

## Findings and gaps

Notes of all properties which are not plainly proved.

* **C05** The code violates the documented meaning for two or more values (refuted); proved for a single value and the actual meaning characterised.
* **C08** Refuted through nm_iam_set/add_user_fingerprint; proved for histories in which the unchecked entry points are used with unused fingerprints.
* **C09** Refuted: open pairing ignores the limit; proved for histories where open pairing only happens while there is room.
* **C10** Refuted for nm_iam_create_user (OK without effect when the device refuses the token); everything else proved: failing calls change nothing, successful ones change exactly the documented field.
* **C12** Refuted: the CoAP fingerprint resource accepts values of any length that the loader refuses. Proved for histories without the listed exceptions (reload_safe).
* **C14** Refuted for the nm_iam_* setters, which announce the change only with the next CoAP request; proved for CoAP requests and pairing mode setters.
* **C15** Refuted: password open pairing accepts a connection authenticated with an individual user password; all other guards, single use of initial and invite pairing proved.
* **C17** Refuted: delete after authorize; proved when users are only removed while no connection is authorized as them.
* **C18** Refuted by authorizing a connection twice; proved when each connection is authorized once.
* **C20** Refuted: a first step for another user after authentication changes the reported username. Proved for connections without a key exchange after the accepted proof and without failed exchanges.
* **C25** Refuted: nabto_device_connection_get_device_fingerprint of a virtual connection returns 64 digits without terminator. Proved for all other fingerprint strings.
* **C28** Refuted: the queue thread drops the queue mutex before it locks the core mutex, a cancel or destroy in between is lost (callback runs, freed event used). Proved for cancels made while the event is not in between, e.g. all cancels made in callbacks.
* **C29** Refuted: the uint32 packet counters wrap, a live connection is closed after 2^32 packets; settings with maxRetries + interval/retryInterval = 2^32-1 never time out; a new connection keeps the tick count of the connection before it. Proved for fewer than 2^32 packets and limits below 2^32-1, with the exact number of probes.
* **C30** Refuted: RetryInterval 0 (or a multiple of 2^32) divides by zero. Proved that this is the only undefined case, and what every other response changes. CBOR decoding of tinycbor is not modelled, the response is a tree.
* **C32** Refuted: nabto_device_future_wait takes a spurious wake up for the result and returns OK on an unresolved future; of two waiters only one is woken, and none when a callback is set. Proved: the result a wait returns once the future is resolved, timed waits for every wake up, and the wake up of a lone waiter.
* **C34** Refuted: after nabto_device_listener_stop and nabto_device_listener_free the module still points to the freed listener, the next check uses it, and no other listener can be registered. Proved for every other history: one verdict, default deny, first verdict wins, everyone is told, memory released once. Out of memory in the creation of a request is not modelled.
* **C35** VIOLATED for three API functions: nabto_device_stream_init_listener and its ephemeral variant (port in use, failed initialisation) and nabto_device_virtual_stream_read_all (read in progress) return with the lock of the device (C35_stream_listener_refuted, C35_read_all_refuted); thread_event_queue_stop_blocking called twice keeps the queue lock (C35_stop_queue_refuted). C35_then_stuck shows the effect. For the other 166 of the 169 API functions, the threads and the callbacks of the core the property is proved for all paths (C35_release_partial, C35_user_partial, C35_unlock_partial, C35_callbacks). The code is modelled as lock skeletons: conditions are choices.
* **C36** Futures of the stream API over the model of the core stream. Proved for every history in which the stream is not closed again before the future of the close before is resolved: every future is resolved at most once, never one which was not given, exactly once when the stream has ended and the event queue has run, with the code of the stream; a second accept, read or write is answered OPERATION_IN_PROGRESS and changes nothing. Refuted for the other histories: with a second close the first future is lost and a destroyed event is resolved, or a future is resolved twice; a second accept is rejected also when the first is resolved.
* **C38** Refuted: disabling attaching reports DETACHED a second time, or without an ATTACHED before. Proved: alternation in every history without a disable, and in every history for the events other than the one at the end of a disable.
* **C39** Refuted: disable, enable and close in one go reports the close while a name is being resolved. Proved: at most one callback for every call, no attempt after a close, every close can complete and does unless it is overtaken, and the callback is not early when the application does not start again. An overwritten callback (disable followed by close) is never called and is not counted as a failure.
* **C40** Refuted when memory runs out: the deferred wait posts itself for ever and no timer is started; a late close event cancels the timer of the next attempt. Proved when starting the resolver and connections never fails for lack of memory; everything else may fail.
* **C42** Refuted: after 2^64 - 1 connections the counter wraps and references are given again. Proved for every shorter history.
* **C43** Refuted: any datagram with the 14 byte connection id and the channel of a connection moves its endpoint and the local flag, authenticated or not. Proved: nothing else does, but for authenticated data on another channel.
* **C44** Refuted: the test for a client hello is one byte (22), which every handshake record has. Proved: dispatch, short packets, no read outside the packet (for sequences of packets of DTLS which carry at least one byte), unique connection ids, delivery.
* **C45** Refuted: the id is looked up one byte off, a known connection gets no response and an id which contains the known one does. Proved: at most one response for every request and endpoint, not larger, at most ten queued, and no response unless the shifted id is known.
* **C47** Violated: C47_lost_refuted (device writes, then closes before the client reads: client gets EOF, bytes, write and close are stuck), C47_early_eof_refuted (read all of the device gets EOF although bytes of the client wait). Proved: EOF of a device read some means everything is received, EOF otherwise means so unless a write waits; a close without waiting write completes; a read some drains a closed client.
* **C48** Violated: C48_read_refuted (a client read after its abort never completes), C48_device_abort_refuted (abort by the device leaves the client's operations), C48_close_refuted (abort by the client leaves the device's close). Proved: everything else completes exactly once, with ABORTED when it waited.
* **C51** Refuted: a packet which ends right after its stream id is read one byte too far. Proved: exactly those packets, and the rest parses to what was sent.
* **C52** Model of the virtual request parts of nc_coap_server.c and nabto_device_virtual_connection.c. Proved: at most one resolution and one release in every history; released exactly when both sides have freed; resolved when answered, when no resource is found, or when the connection is freed while the client has it; an application which keeps requests until they are resolved meets nothing undefined. Refuted: a request the device side frees unanswered is never resolved (the header promises a 500); freeing before the response leads to a use after free; a payload which fails to be set again makes execute read NULL; executed twice the first future is never resolved and the first request never freed; a payload set twice loses memory.
* **C54** Model of nc_stun.c and nc_stun_coap.c with the STUN protocol, the lookups and the sockets as inputs. Proved for all histories: every request for endpoints gets at most one response; all have theirs once the module is stopped, or once no lookup, send or timer is outstanding (as long as the protocol always wants something); the response has the external endpoint exactly if the analysis succeeded, and it is one an analysis found. Refuted: with the threaded resolver the name of the server is read after it was freed when the basestation names another server during a lookup; memory safety is proved without that.
* **C55** Model of nc_dns_multi_resolver.c with both resolvers, nm_unix_dns.c and nm_libevent_dns.c. Proved for all histories without a crash: one completion per request; the result is the first n addresses of the alternation, or the error of v4 if both lookups failed; refused only while another request is under way; addresses are those the system gave. Refuted: with nm_unix_dns.c more than four addresses of one family are written outside the array; safe with libevent or with at most four.
* **C56** Model of nm_tcp_tunnel.c. Proved: a tunnel is opened only after an allow for TcpTunnel:Connect asked once with the connection of the stream and the identifier and type of the service at whose port the stream came, to the address of that service, while it is there; opening never takes the open tunnels of a type above the limit; an allowed stream within the limit is opened; each stream is settled once; open tunnels belong to services which are there; a stream waiting when its service is removed is never opened. Refuted: tunnels of removed services which have not ended yet are not counted, so more than the limit may be alive.
* **C58** Refuted: when a write fails or finds no buffer, the rest of the queue is not sent until something else happens on the connection. Proved: order and at most one completion always, all complete when the connection is freed, and no stall while every write has put a packet on its way. mbedtls is an oracle.
* **C59** Refuted: a start while another start is in progress loses the future of the first (or resolves that of the second twice), and nabto_device_stop while client connections are being closed leaves the future of the close unresolved. Proved for all histories without these: at most once, and exactly once when the platform completes what it was asked for. A close during a start resolves with STOPPED.
* **C60** Refuted: product id, device id, server url, app name and version are accepted after the start, and the attacher then uses freed strings; the local port is read after the first socket is bound; root certificates are accepted after a start without attach; a failed start leaves its default host behind. Proved: settings of modules are refused without effect, the key has no effect, and without string setters after the start every attempt uses the configuration of the start.
* **C61** Refuted when some value does not parse; proved for well typed values.
* **C62** Refuted through nm_iam_set_user_sct; proved for histories without it and without device errors in the CoAP variant.
* **C63** Refuted: NULL fingerprint name is dereferenced; with all strings given no call is undefined.
* **C64** Refuted: create user with a CBOR null username. Every other request is defined as long as no user pointer dangles (C17).
* **C65** Refuted: a Conditions value which is an object is ignored, further operators or keys of a condition object are ignored. Proved for lists of conditions with one operator and one key each.
* **C66** Refuted: versions below 1 are accepted and lose the fingerprints. Newer versions are refused, refused loads change nothing, version 1 fingerprints are kept.
* **C67** Refuted: a user whose name is not valid any more is skipped silently. Proved for documents with valid names.
* **C70** Refuted: NULL username of a connection without a completed exchange. Proved for authenticated connections.
* **C72** Refuted in part: the length is stored through a size_t pointer to a uint16_t field, which gives length 0 on big endian machines; and a send refused by the DTLS layer comes without completion, after which keep alive is silent for good (C72_silent_without_completion). The rest is proved.
* **C73** Refuted: when DTLS reports the last end during the call, OK is returned and the callback never comes; new connections are accepted while closing. Proved: exactly once when DTLS reports every end later.
* **C74** Refuted: a 17 byte packet is answered with 31 bytes. The rest is proved.
* **C75** Refuted: with the DTLS server the channel of the packet is not passed on, the channel never changes. Proved for builds with NABTO_DEVICE_DTLS_CLIENT_ONLY.
* **C76** Refuted: a send on a channel which has been replaced is accepted, but no packet is sent and it never completes. Proved for the current and the default channel, and exactly one completion.
* **C77** Refuted: an end found while a packet is on its way leaks the connection (a failed handshake with alert), a lost connection still reports to its owner, and an end found in a send callback uses freed memory. Proved: reported and freed at most once always; the rest for ends which are found outside of send callbacks and with no packet on its way or after a close.
* **C78** Refuted: after mbedtls_ssl_read returns 0 no end is ever reported, not even after a close; a connection which was destroyed while a packet was on its way reports CLOSED to its owner when that packet completes. Proved: at most one end, released exactly once and not used afterwards, for every history; close leads to the end when there is no end of file; and no other event is stale.
* **C79** Refuted: after an end of file accepted sends do not complete until the connection is destroyed. Proved: order, at most one completion, all complete at the end, and no stall without an end of file.
* **C80** Refuted: calls while a start is in progress (disabled is ignored, enabled makes the start fail half way). Proved for all other histories; not after a stop always; not after a successful close for devices which are not started again.
* **C81** Reads, writes of at least one byte, accepts, closes and the end of the stream complete with the event which allows it. Refuted: a write of zero bytes waits until the stream ends.
* **C82** Proved: no lawful history in which virtual streams are opened only to served ports uses a freed stream or frees one twice, streams in use are not freed, and ended streams which are given back are freed. Refuted: opening a virtual stream to a port without a listener, or to a listener which does not take it, uses a freed stream (nc_stream_manager_accept_virtual_stream, nc_virtual_stream_init).
* **C83** Refuted: after DTLS refuses an RST no RST is ever sent again (rstBuf stays set), and after it refuses a packet of a stream the stream never sends again (isSending stays set). Proved as long as DTLS refuses nothing.
* **C84** Proved for all API functions but the three which keep the lock (see C35), for any number of threads and any interleaving. A wait for a condition is modelled as one which may end at any time; joins are excluded, as a callback of the user which stops the device joins its own thread.
* **C85** VIOLATED by nabto_device_listener_new (list of listeners), nabto_device_ice_servers_request_new (CoAP client) and nabto_device_stop (walks the list of listeners) (C85_refuted, C85_stop_refuted). Proved for 159 of the 169 API functions, the threads and the callbacks (C85_core_locked_partial, C85_callbacks_partial); the others excluded are nabto_device_new, nabto_device_free, nabto_device_get_app_name and nabto_device_get_app_version, and the three of C35.
* **C86** Refuted: a TCP failure before the first byte is read is shown to the client as a clean end, even when bytes had arrived (rlen is 0); an aborted stream or a lost client is shown to the service as a clean end (streamReadSize is 0). Proved: a clean end to the client means that the service closed and all bytes were passed on, or that the connection failed and no byte was passed on; a clean end to the service means that all bytes were passed on and the stream had ended, was gone or was stopped; an end of the service is passed on when the stream stands.
* **C87** Refuted: with libevent a removal just after connecting, or a failure while bytes are being written, leaves the connection for ever or until the service acts; with both, a lost client leaves it until the service acts. Proved: with select, five events after the removal it is released whatever happens; with libevent the same when it is the first stop and no successful completion is waiting.
* **C88** Refuted: the service is looked up again by its identifier after the verdict, so when it was removed and added again with another type the client is told about a type the application was never asked about. Proved: the list goes out only after an allow of TcpTunnel:ListServices and has the services there are; data go out only after an allow for that identifier, and for that type unless a service of that identifier was removed in between; each request is answered once.
* **C89** Refuted when memory runs out: metadata is reported as set although old and new value are gone; a limit which could not be set removes the old one; a service which could not be added is never freed. Proved: not found means exactly that there is none and nothing changed; adding adds that service or leaves services, limits and requests as they were; the limits in force are those set last; metadata set is what clients are told.
* **C90** Proved: the handler gets the segments, payload and content format given; any path of nonempty-ended segments, with or without a slash at the end, becomes these segments; the client reads what was set last, 404 without a resource, INVALID_STATE before the response. Refuted: a content format is told which was never set, UNKNOWN instead of NO_DATA for a missing payload, and an error response whose message cannot be allocated is reported as sent and is sent without it.
* **C91** Model of the event loops of nc_coap_client.c and nc_coap_server.c with the protocol as an input. Proved: one packet at DTLS at a time and each buffer freed once, in every history; nothing wanted is forgotten as long as DTLS takes packets, waits are shorter than three days and the timer fires at least every three days. Refuted: after 2^29 ms without the timer the next wait arms none; a packet which DTLS refuses (closing connection) blocks all later packets on all connections.
* **C92** Model of nm_select_unix_udp.c, nm_libevent_udp.c and the receive loop of nc_udp_dispatch.c with the table of open descriptors and the rest of the process as environment. Proved for all histories: reception goes on after it was started until abort, destroy or a reported failure (C92_reception), packets are handed on in order and once (C92_order), descriptors are balanced and nothing foreign is touched as long as the socket is not bound again after it was bound and, with the select module, no bind fails (C92_descriptors_partial), failures are reported only after an abort, a read error or a double start. Refuted: a second start leaks the first descriptor (both modules); a failed bind of the select module makes destroy close whatever was opened under the number since; on a host without IPv6 the select module always fails and leaks; it never reports a port in use; stopping a device without any error reports a platform failure.
* **C93** Model of one socket of nm_select_unix_tcp.c with the loop of nm_select_unix.c, both threads stepping at the granularity of the accesses to the shared fields. The module shares the fields between the core thread and the network thread without a lock. Proved for the histories in which the calls exclude the network thread (as a lock would make them): once, no NULL event, all done after an abort, bytes in order and complete, and, when select does not fail, connections reported only when established and pending operations completed. Refuted without that: a write reported done of which nothing was sent, a read completed twice, a NULL event resolved, a connection reported before connect(). Refuted even with it: a select which fails (EINTR) reports a pending connection as established, and makes the network thread sleep for ever in the read of an empty pipe; FD_ISSET of -1 for a socket not connected yet.
* **C94** Model of nc_attacher_fcm.c, nc_attacher_service_invoke.c, nc_attacher_ice_servers.c and their API files with the CoAP client as an input and payloads as CBOR trees. Proved for all histories: at most one resolution (C94_once), exactly one when answered (C94_resolved), what is sent is what was set last and, but for ICE requests, goes to the current connection (C94_request_partial), every good answer is a success (C94_accept), what is told after a success is in the answer when its integers fit in 32 bits (C94_response_partial), the status is 0 until a success (C94_status), CoAP requests are released when no allocation fails, nothing undefined for an application which sets everything first and does not stop after the answer. Refuted: ICE requests go to the connection there was when the object was made; stop after completion uses freed memory; a missing project id or a message which could not be copied reads NULL instead of INVALID_STATE; a server which is not a map is undefined; 2^32+200 is told as 200; a body is told after BAD_RESPONSE; a credential without username is dropped; a CoAP request is lost when its buffer cannot be allocated; after NOT_ATTACHED the object says IN_PROGRESS for ever; an ICE request returns OK when not attached, and takes any identifier.
* **C95** Model of the reading CoAP handlers of the IAM module, of the tinycbor encoder they use (byte level, both passes) and of the fcm-test handler. Proved for all states, policies and requests: no answer but a refusal without permission when the username could be inserted (C95_allowed_partial); payloads decode, with an independent CBOR decoder, to exactly the stored values (C95_me, C95_user, C95_settings, C95_pairing, C95_categories; payloads below 2^64 bytes); answers do not depend on passwords (C95_user_secret, C95_open_secret); allowed requests are told (C95_accept); with memory every request is answered (C95_answered_partial) and nothing freed is used while the users of connections exist (C95_alive); test notifications (C95_fcm_partial, C95_fcm_reply, C95_fcm_once_partial, C95_fcm_alive_partial). Violated by the code: a failed insertion of the username bypasses a Deny on it (C95_allowed_refuted); GET /iam/users never tells the users and GET /iam/roles never the roles, because the first encoding pass stops at the OutOfMemory it has to expect (C95_users_refuted, C95_roles_refuted); without memory four handlers give no answer (C95_answered_refuted); the token is put into the JSON message unescaped (C95_fcm_message_refuted); after a failed notification ctx is read after it was freed (C95_fcm_failed_refuted). The access check itself is the subject of C01-C06.
* **C96** Content, reasons, answers, announcements, single outstanding operation, reply target, single answer to close and single goodbye are proved for every history. Violations proved: one receive error silences a family for good although the service stays published (C96_listening_refuted); the IPv4 goodbye is skipped when something is being sent although close answers OK (C96_goodbye_refuted); close answers IN_PROGRESS or UNKNOWN without any platform error (C96_close_code_refuted); a changed description is not announced (C96_update_refuted); a bind failing after socket() leaves the closed descriptor number in the socket, so the goodbye is sent on and destruction closes a foreign descriptor (C96_descriptor_refuted, both platforms).
* **C97** The authorization module (AuthModel), the IAM state machine (IamStateModel), the handler of nm_iam_auth_handler.c and the askers of the tunnel module run together. Proved for every history: answers are the decisions of the policies (C97_answer), yes only comes from the handler (C97_yes), at most one answer and only to questions asked (C97_once), questions are passed on unless memory is short (C97_asked), from every state the device's own steps answer every question whatever memory there is (C97_answered), nothing is undefined but for users freed under the handler, which is C17 (C97_defined). Violations proved: when an insertion into the attribute map fails a deny statement no longer applies and the service is granted (C97_shortage_refuted); when the fingerprint cannot be written out a paired user is judged as unpaired (C97_identity_refuted). C97_shortage_partial: with the identity looked up, a configuration which only allows and only compares strings never grants because of missing memory.
* **C98** Proved for every history: whole states only (C98_whole_state), broken files are refused and left alone, the latest saved state is the one a later start has when the file could be opened (C98_latest_partial), a completely saved state is started again with the same identity under the listed conditions (C98_starts_again_partial), one identity (C98_same_identity). Refuted, each with a concrete history: the file is emptied before it is written, so power loss during a save leaves a device which never starts again (C98_power_loss_refuted); the result of fclose is ignored, so a full disk does the same without any message (C98_disk_full_refuted); the answer is sent before the save (C98_promise_refuted); a request may store a fingerprint of another length, after which the device refuses its own file for ever (C98_odd_fingerprint_refuted); power loss while the key is made (C98_first_start_refuted).
* **C99** The default configuration and the three setups, on top of the IAM, JSON and file models. Proved: the role table (C99_matrix), the order of the roles (C99_roles_ordered), who changes what (C99_changes, C99_given_to_nobody), no escalation over all histories with restarts and power losses after a careful setup (C99_no_escalation, C99_no_tunnels; the administrator's password and local initial pairing are excluded), the first start (C99_first_start), the owner's pairing (C99_owner), passwords (C99_password, C99_password_fair). Refuted: the results of random_password are not checked, so a setup whose generator fails reports success and leaves a device nobody can log in to (C99_owner_refuted). The demo setup makes everybody near it an administrator by design (C99_ex_demo).
* **C100** On the JSON and tunnel models, for every text and every history of starts. Proved: the services offered are exactly those described when ids and metadata names differ and memory suffices (C100_exact, C100_runs), nothing but arrays of definitions (C100_definitions), hosts (C100_hosts), written files describe their services (C100_written), cut files never run (C100_torn), the default (C100_default), files are kept (C100_kept), no crash with memory for the text (C100_no_crash_partial), the device configuration (C100_config, C100_config_torn, C100_config_read). Refuted: a first start which loses power while it writes the default file leaves a device which never runs again (C100_first_start_refuted); of two services with one id the first gets the metadata of the second (C100_same_id_refuted); a port above 65535 is taken and changed (C100_port_refuted); memory which ends while the vector grows drops a service silently (C100_memory_refuted); the text buffer is used unchecked (C100_crash_refuted).
* **C101** For every history and every start of the clock: cancelled timers (C101_cancelled), the answers (C101_status_partial, for intermediate delays and waits of at most 2^31 ms), the report of the final delay (C101_callback). Refuted: the intermediate delay is compared as a signed 32 bit difference, so that after 2^31 ms the answer goes back from 1 to 0 (C101_status_refuted).
* **C102** For every history of a watchdog: when it reports (C102_report) and that it never does while attached (C102_attached). Refuted: no device has a watchdog, nc_attacher_watchdog_init is called by a test only, so the documented event is never given (C102_device_refuted); a device waiting an hour after a refusal or told to detach would be reported after ten minutes (C102_healthy_refuted).
* **C103** For every buffer, memory and input: lines (C103_prompt), no write outside (C103_inside), yes and no (C103_yes_no), numbers (C103_number, C103_range), a service from its lines when texts have at most nineteen characters (C103_service_partial). Refuted: a text of twenty characters, as many as the question allows, loses its last one silently (C103_cut_refuted); unprintable characters leave gaps, so 2<tab>2 is 2 (C103_tab_refuted) and a line which is no ASCII means what the memory held (C103_memory_refuted); a zero byte leaves a string without end (C103_zero_refuted); at the end of the input questions without a default are asked for ever (C103_end_refuted).
* **C104** The parser (nabto_coap) is not in the repository: its results are inputs, with tokens of at most eight bytes (C104_token shows that safety needs this). Proved for every message: no write outside (C104_safe), the text (C104_text, C104_invalid). Refuted: a line whose last text does not fit is logged as if it were whole (C104_silent_refuted); after a long path a pointer lies far outside of the buffer, which the C standard forbids though nothing is written there (C104_pointer_refuted).
* **C105** Proved for all answers of the system and all room (C105_addresses): the address each family would send from, in order, inside the room, with the sockets closed. Refuted: the address is that of the route to a public server, so a host without a default route tells none of its local addresses (C105_local_network_refuted) and a host in two networks tells one (C105_two_networks_refuted).
* **C106** Proved for every history, message and memory: delivery (C106_delivery), with the level and the callback of a history unique (C106_level_unique, C106_callback_unique), and invalid levels (C106_level). Refuted: what fails in nabto_device_new before nabto_device_logging_init is not given to a callback set before the first device (C106_first_device_refuted); a text is cut after 254 bytes wherever that is, so a message may be no UTF-8 (C106_utf8_refuted).
* **C107** libevent is not in the repository, what is assumed of it heads LeqModel.v; nothing in the repository calls libevent_event_queue_create, it is offered to integrators. Proved for every interleaving: the mutex (C107_mutex), double posts (C107_double), timed events (C107_timed), cancelled ones (C107_cancel), and posts as long as no event is cancelled between a post and its callback (C107_post_partial). Refuted: cancel drops a posted event and leaves its flag, after which post_maybe_double does nothing for ever (C107_lost_refuted); cancelling a timer the loop has just taken stops both threads for ever (C107_deadlock_refuted).

## Not modelled

* `nabto-common` (empty submodule), mbedtls, libevent, the C library and the
  operating system: oracles or documented behaviour, see the areas.
* The wolfSSL variants of the DTLS client, server and SPAKE2 modules
  (`src/modules/wolfssl`); the mbedtls ones are modelled.
* Certificate and key handling (`nm_mbedtls_util.c`, random generator,
  `crypto`), logging, the CoAP packet printer, `nabto_device_tcp_probe.c`,
  file system helpers, the timestamp and thread wrappers, local address
  enumeration, the platform glue of other systems, and the apps and tests.
* Memory layout below the level of buffers: pointers are identifiers, structures
  are records. Stack use, alignment and time are not modelled except for the
  clock of the event queue and the token bucket of password attempts.
* Initialisation and deinitialisation of modules, except where a property is
  about them (device life cycle, sockets, streams, connections).

## Trusted base

* The Coq 8.16.1 kernel (checked again with `coqchk`).
* `Print Assumptions` prints `Closed under the global context` for each of the
  574 theorems listed in MANIFEST.json: no axiom is used, neither of the standard
  library nor of another library. No flag of the kernel is changed and no
  `Axiom`, `Parameter`, `Admitted` or module type is declared.
* Only the standard library of Coq is imported.
* The reading of the C code recorded in the comments of the model files, and the
  statements in the `Spec` and `Props` files.
* The assumptions on code outside the model listed per area above.
