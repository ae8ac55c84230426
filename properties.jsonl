{"id": "C01", "title": "Server never forwards unauthenticated traffic", "statement": "On a server connection he_conn never calls inside_write_cb with tunnel data before one of the host's authentication callbacks (auth_cb, auth_token_cb, auth_buf_cb) has accepted a client on this connection (and populate_network_config_ipv4_cb has succeeded).", "quantifier": "every sequence of API calls, every outcome of every host callback, of wolfSSL, of the clock, of the allocator and of the RNG", "why_tests_cant": "An unauthenticated path may need a particular interleaving of messages, callback failures, fragments and reconnects; a test can only sample sequences.", "anchors": ["src/he/msg_handlers.c:he_handle_msg_auth, he_internal_handle_data", "src/he/flow.c:he_internal_flow_process_message"]}
{"id": "C02", "title": "Client forwards tunnel traffic only once configured", "statement": "On a client connection inside_write_cb is only called while the reported state is ONLINE, and a client reports ONLINE only after the server's network configuration was received and network_config_ipv4_cb (when set) returned success.", "quantifier": "every sequence of API calls, every outcome of every host callback, of wolfSSL, of the clock, of the allocator and of the RNG", "why_tests_cant": "Quantifies over all message histories and callback results.", "anchors": ["src/he/msg_handlers.c:he_handle_msg_config_ipv4, he_internal_handle_data"]}
{"id": "C03", "title": "State-change callbacks are a faithful log of the connection state", "statement": "The sequence of states passed to state_change_cb never reports the same state twice in a row, every value reported is the value he_conn_get_state returns from then until the next report, and a client whose handshake completes (LINK_UP) has left LINK_UP again before the API call returns.", "quantifier": "every sequence of API calls, every outcome of every host callback, of wolfSSL, of the clock, of the allocator and of the RNG", "why_tests_cant": "Holds of whole traces, not of single calls.", "anchors": ["src/he/conn.c:he_internal_change_conn_state", "src/he/conn.c:he_internal_conn_connect", "src/he/flow.c:he_internal_flow_outside_data_verify_connection"]}
{"id": "C04", "title": "FIRST_MESSAGE_RECEIVED is reported at most once", "statement": "For one connection object the event HE_EVENT_FIRST_MESSAGE_RECEIVED is delivered to event_cb at most once, and only during a call of he_conn_outside_data_received.", "quantifier": "every sequence of API calls, every outcome of every host callback, of wolfSSL, of the clock, of the allocator and of the RNG; in the multithreaded build also every interleaving of threads", "why_tests_cant": "Needs all histories and schedules.", "anchors": ["src/he/flow.c:he_internal_flow_outside_data_handle_messages"]}
{"id": "C05", "title": "At most one nudge timer is outstanding", "statement": "Between two calls of he_conn_nudge (or a disconnect/connect) the library calls nudge_time_cb at most once, so a host that arms one timer per callback and does not call back into the library from nudge_time_cb never has two pending (single-threaded build). With a host that re-enters the library this fails (refuted).", "quantifier": "every sequence of API calls, every outcome of every host callback, of wolfSSL, of the clock, of the allocator and of the RNG; for the multithreaded part every interleaving", "why_tests_cant": "Schedules and histories.", "anchors": ["src/he/conn.c:he_internal_update_timeout", "src/he/conn.c:he_conn_nudge"]}
{"id": "C06", "title": "A disconnected connection is silent", "statement": "After he_conn_disconnect returns success and until the next connect call, no API call invokes outside_write_cb, inside_write_cb, state_change_cb or event_cb, and nothing is passed to wolfSSL_write (nudge_time_cb may still be called: refuted companion).", "quantifier": "every sequence of API calls, every outcome of every host callback, of wolfSSL, of the clock, of the allocator and of the RNG", "why_tests_cant": "Every later API sequence must be considered.", "anchors": ["src/he/conn.c:he_conn_disconnect"]}
{"id": "C07", "title": "Every datagram emitted is a well-formed Helium datagram", "statement": "On a datagram connection every buffer passed to outside_write_cb (with no plugins rewriting it) is between 16 and 1500 bytes long (larger records are refused), starts with 'H' 'e', the connection's protocol version, the aggressive-mode flag, three zero bytes and a 64-bit session id, followed by exactly the bytes wolfSSL produced. The session id is the connection's current one (or a pending one being announced); on a client it may be one brought by a configuration message received during the same call.", "quantifier": "every buffer wolfSSL may produce, every connection state", "why_tests_cant": "All payloads, all sizes up to the boundary, all flag combinations.", "anchors": ["src/he/wolf.c:he_wolf_dtls_write, he_internal_write_packet_header"]}
{"id": "C08", "title": "Copies of a datagram", "statement": "A datagram is handed to outside_write_cb exactly once when the connection is ONLINE without aggressive mode, and exactly three times (identical bytes) when it is not ONLINE or aggressive mode is on and no write fails; a failing write stops the copies.", "quantifier": "every state, every write outcome", "why_tests_cant": "All combinations of state, mode and callback results.", "anchors": ["src/he/wolf.c:he_wolf_dtls_write"]}
{"id": "C09", "title": "Fragmentation is an exact partition", "statement": "When an inside packet on a datagram connection is larger than the effective path MTU, the fragments sent carry consecutive byte ranges that partition the packet exactly, with the same id, offsets multiple of 8, the more-fragments flag on all but the last, and each fragment payload is at most the effective PMTU minus 4 (rounded down to 8).", "quantifier": "every packet content and length up to 1500 (65535 in the codec), every PMTU >= 8", "why_tests_cant": "All contents, all sizes.", "anchors": ["src/he/frag.c:he_internal_frag_and_send_message", "src/he/flow.c:he_conn_inside_packet_received"]}
{"id": "C10", "title": "Reassembly delivers exactly the packet that was sent", "statement": "Whatever order the fragments of one packet arrive in (each once, within the TTL), the receiver hands exactly the original packet to inside_write_cb, once.", "quantifier": "every packet, every fragment size, every permutation of arrivals", "why_tests_cant": "Permutations are unbounded; contents are unbounded.", "anchors": ["src/he/frag.c:he_internal_fragment_entry_update", "src/he/msg_handlers.c:he_handle_msg_data_with_frag"]}
{"id": "C11", "title": "Reassembly never invents bytes", "statement": "Every byte of a reassembled packet was received in some fragment of that packet at that position; bytes of two packets are never mixed; nothing outside a packet buffer is read or written, whatever fragments an authenticated peer sends.", "quantifier": "every sequence of fragment headers and payloads", "why_tests_cant": "Arbitrary adversarial sequences.", "anchors": ["src/he/frag.c:he_internal_fragment_entry_update", "src/he/frag.c:he_internal_frag_table_find"]}
{"id": "C12", "title": "PMTU discovery stays within its bounds", "statement": "In every state, he_conn_get_effective_pmtu is between 512 and 1416; every probe sent has a size in that range; a size is probed at most 3 times before the search moves on; and the effective PMTU reported after a completed search was acknowledged by the peer.", "quantifier": "every sequence of API calls, every outcome of every host callback, of wolfSSL, of the clock, of the allocator and of the RNG", "why_tests_cant": "The search is a long-running state machine driven by timers, acks and data events.", "anchors": ["src/he/pmtud.c", "src/he/conn.c:he_conn_get_effective_pmtu"]}
{"id": "C13", "title": "MSS clamping", "statement": "he_internal_clamp_mss never reads or writes outside the packet, never changes the packet unless it is a TCP SYN whose MSS option exceeds the clamp, then only lowers the MSS value (to the clamp) and updates the TCP checksum so that a valid checksum stays valid; every other byte is unchanged.", "quantifier": "every byte string presented as an inside packet, every clamp value", "why_tests_cant": "All 2^(8*1500) packets.", "anchors": ["src/he/mss.c:he_internal_clamp_mss", "src/he/network.c"]}
{"id": "C14", "title": "Data messages round-trip", "statement": "For each supported protocol version, whatever inside packet one side accepts for a data message is exactly what the peer hands to inside_write_cb after decryption; lengths, padding and headers never leak into it. (Version 1.0 peers must share a byte order: the mixed case is refuted.)", "quantifier": "every packet content and length, every padding type, every version", "why_tests_cant": "All contents and lengths.", "anchors": ["src/he/flow.c:he_conn_inside_packet_received", "src/he/msg_handlers.c:he_handle_msg_data, he_handle_msg_deprecated_13"]}
{"id": "C15", "title": "Authentication messages round-trip", "statement": "The credentials a client sends are those its setters have established: when TLS comes up, and again whenever the timer fires while it waits for the answer, it sends exactly one message that carries them, and at no other time. A server asks its auth_cb / auth_token_cb / auth_buf_cb exactly what the messages it receives contain, so with such a message it asks for exactly the username and password (as C strings), token or buffer set on the client.", "quantifier": "every sequence of API calls, every credential, every message a peer can send, every behaviour of wolfSSL and of the host", "why_tests_cant": "All strings, all lengths, boundaries.", "anchors": ["src/he/conn.c:he_internal_send_auth", "src/he/msg_handlers.c:he_handle_msg_auth"]}
{"id": "C16", "title": "Configuration messages round-trip", "statement": "The network configuration produced by the server host is exactly what network_config_ipv4_cb receives on the client (strings truncated to their field), and the MTU it reports is valid (1..1350); server-config blobs round-trip through he_conn_send_server_config and server_config_cb.", "quantifier": "every configuration", "why_tests_cant": "All strings, MTUs and blobs.", "anchors": ["src/he/msg_handlers.c:he_handle_msg_config_ipv4, he_handle_msg_server_config"]}
{"id": "C17", "title": "Plugin chains run in order and compose", "statement": "Ingress runs plugins in registration order and egress in the reverse order; each plugin gets what the one before it left; the first plugin that drops the packet or fails stops the chain (dropped: the call reports success and nothing is sent or delivered; failed: HE_ERR_FAILED); with plugins whose ingress inverts their egress, the receiving chain restores the packet.", "quantifier": "every chain length, every plugin behaviour", "why_tests_cant": "All chains, all behaviours.", "anchors": ["src/he/plugin_chain.c"]}
{"id": "C18", "title": "Protocol version admission", "statement": "A wire version is accepted exactly when it lies lexicographically between the configured minimum and maximum; the setters accept exactly the known versions.", "quantifier": "every pair of bytes and every configured range", "why_tests_cant": "Whole domain.", "anchors": ["src/he/ssl_ctx.c:he_internal_ssl_ctx_is_supported_version..."]}
{"id": "C19", "title": "Decrypted messages cannot corrupt memory", "statement": "Whatever bytes an authenticated TLS/DTLS peer sends as a Helium message (any type, any length up to the packet buffer), processing them never reads outside the received message / packet buffer, never writes outside a buffer and never dereferences NULL, given that allocations succeed and that no connect call was left without its TLS object (unstarted context, failed wolfSSL_new).", "quantifier": "every decrypted byte string, every connection state", "why_tests_cant": "Adversarial inputs.", "anchors": ["src/he/msg_handlers.c", "src/he/flow.c", "src/he/frag.c"]}
{"id": "C20", "title": "Outside datagrams cannot corrupt memory and are admitted exactly by the header rule", "statement": "he_conn_outside_data_received never reads outside the buffer given; on a datagram connection without plugins a datagram is passed to TLS exactly when it has at least 16 bytes, starts with 'He', carries the connection's version and does not carry the all-ones reject session; otherwise a fixed error code is returned and nothing changes.", "quantifier": "every byte string, every connection", "why_tests_cant": "All datagrams.", "anchors": ["src/he/flow.c:he_internal_flow_outside_packet_received"]}
{"id": "C21", "title": "Stream reads deliver exactly the received bytes", "statement": "On a stream connection the bytes wolfSSL reads are exactly the received bytes, in order, none duplicated or lost while the buffer lives; on a datagram connection each received datagram payload is read at most once and in full.", "quantifier": "every buffer and every sequence of read sizes", "why_tests_cant": "All chunkings.", "anchors": ["src/he/wolf.c:he_wolf_tls_read, he_wolf_dtls_read"]}
{"id": "C22", "title": "Session identity rules", "statement": "A server connection's session id changes only by he_conn_server_connect, by he_conn_set_session_id while it is 0, or when a packet acknowledges a pending rotation; a rotation is refused while another is pending or on a client; a client adopts the id found in server packets.", "quantifier": "every sequence of API calls, every outcome of every host callback, of wolfSSL, of the clock, of the allocator and of the RNG", "why_tests_cant": "All histories.", "anchors": ["src/he/conn.c:he_conn_rotate_session_id, he_conn_set_session_id", "src/he/flow.c:he_internal_update_session_incoming"]}
{"id": "C23", "title": "String setters store what they accept", "statement": "he_conn_set_username/password accept exactly strings of 1 to 50 bytes, set_auth_token 1 to 1349, set_auth_buffer 1 to 1346; accepted tokens and buffers and strings of at most 49 bytes are stored unchanged, a 50-byte string loses its last byte; a rejected call stores nothing (but a rejected username or password still selects username/password authentication); set_sni_hostname keeps the first 255 bytes.", "quantifier": "every string", "why_tests_cant": "Boundary behaviour over all strings.", "anchors": ["src/he/config.c", "src/he/conn.c:he_conn_set_username..."]}
{"id": "C24", "title": "Padding hides lengths", "statement": "With padding FULL every data message carrying at most the MTU has the same size, with padding 450 the size is one of the 450-byte buckets, the padded message is never shorter than the data, padding bytes are zero and a padded message never exceeds the path MTU.", "quantifier": "every length, every padding type, every MTU", "why_tests_cant": "All lengths.", "anchors": ["src/he/conn.c:he_internal_calculate_data_packet_length"]}
{"id": "C25", "title": "Fatal / non-fatal classification", "statement": "he_conn_is_error_fatal returns false exactly for the documented transient codes; in particular no datagram an off-path attacker can forge makes he_conn_outside_data_received return a fatal error.", "quantifier": "every return code, every forged datagram", "why_tests_cant": "All datagrams.", "anchors": ["src/he/conn.c:he_conn_is_error_fatal"]}
{"id": "C26", "title": "Connect requires a complete configuration", "statement": "he_conn_client_connect (he_conn_server_connect) proceeds past validation only when the context/connection carries every item the documentation requires, and otherwise returns an error without any observable effect.", "quantifier": "every combination of settings", "why_tests_cant": "All combinations.", "anchors": ["src/he/conn.c:he_conn_is_valid_client, he_conn_is_valid_server"]}
{"id": "C27", "title": "Renegotiation events alternate", "statement": "HE_EVENT_SECURE_RENEGOTIATION_STARTED and _COMPLETED alternate strictly, starting with STARTED, for each connection.", "quantifier": "every sequence of API calls, every outcome of every host callback, of wolfSSL, of the clock, of the allocator and of the RNG", "why_tests_cant": "Histories of timers, messages and TLS outcomes.", "anchors": ["src/he/conn.c:he_internal_renegotiate_ssl", "src/he/flow.c:he_internal_flow_outside_data_handle_messages"]}
{"id": "C28", "title": "Credentials leave only through an established TLS session", "statement": "The library passes an AUTH message to wolfSSL_write only on a client and only after wolfSSL_negotiate reported success on that connection; a server never sends one.", "quantifier": "every sequence of API calls, every outcome of every host callback, of wolfSSL, of the clock, of the allocator and of the RNG", "why_tests_cant": "All histories.", "anchors": ["src/he/conn.c:he_internal_send_auth", "src/he/flow.c:he_internal_flow_outside_data_verify_connection"]}
{"id": "C29", "title": "Data leaves only while ONLINE", "statement": "DATA and fragment messages are passed to wolfSSL_write only while the reported state is ONLINE, and every buffer passed to wolfSSL_write is between 1 and 1500 bytes.", "quantifier": "every sequence of API calls, every outcome of every host callback, of wolfSSL, of the clock, of the allocator and of the RNG", "why_tests_cant": "All histories.", "anchors": ["src/he/flow.c:he_conn_inside_packet_received", "src/he/conn.c:he_internal_send_message"]}
{"id": "C30", "title": "Keepalive and pong accounting", "statement": "he_conn_send_keepalive sends a ping whose id is the successor (mod 2^16) of the previous one and only while ONLINE; a PONG event is delivered exactly for each received pong whose id equals that of the most recent keepalive sent (0 before any), and a well-formed ping of id n received while ONLINE is answered by exactly one pong of id n. (A pong is reported again when repeated, and a pong of id 0 before any keepalive: refuted companions.) For a host that also makes calls inside callbacks a PONG event is still reported only for a pong received in the same outermost call with an id a keepalive was sent with (or 0); a pong handed over from inside the outside_write_cb of its own keepalive is not reported (refuted companion). Also for such hosts every well-formed ping received while ONLINE is answered, by the very next thing that happens, with one pong of its id, and no other pong is ever sent.", "quantifier": "every sequence of API calls, every outcome of every host callback, of wolfSSL, of the clock, of the allocator and of the RNG", "why_tests_cant": "All histories.", "anchors": ["src/he/msg_handlers.c:he_handle_msg_ping, he_handle_msg_pong", "src/he/conn.c:he_internal_send_keepalive"]}
{"id": "C31", "title": "Outside MTU is always usable", "statement": "he_conn_set_outside_mtu succeeds exactly on values from which the per-packet overhead can be subtracted (> 114), so a data message that is accepted fits the MTU; he_conn_inside_packet_received accepts a packet only if length + overhead fits.", "quantifier": "every MTU and packet length", "why_tests_cant": "All values.", "anchors": ["src/he/conn.c:he_conn_set_outside_mtu", "src/he/flow.c:he_conn_inside_packet_received"]}
{"id": "C32", "title": "Thread-safe build: single events and distinct fragment ids", "statement": "In the HE_ENABLE_MULTITHREADED build, for every interleaving of any number of threads, FIRST_MESSAGE_RECEIVED is generated exactly once and the fragment ids taken by threads are pairwise distinct as long as at most 65536 packets are sent; every fragment of every packet is sent once, in order, under the packet's id; the number of nudge timers asked for is bounded by (threads that update the timeout) * (nudges + 1), and at least one is asked for if none was running; a thread that runs alone behaves, in either build, as its calls one after the other.", "quantifier": "every number of threads and every interleaving", "why_tests_cant": "Schedules.", "anchors": ["src/he/flow.c", "src/he/frag.c", "src/he/conn_internal.h"]}
{"id": "C33", "title": "End-to-end tunnel", "statement": "For two endpoints that are ONLINE, over a transport that delivers wolfSSL records, every inside packet the client accepts is delivered by the server's inside_write_cb with its contents identical apart from the MSS clamp (unfragmented, or fragmented with in-order delivery).", "quantifier": "every packet", "why_tests_cant": "All packets and MTUs.", "anchors": ["src/he/flow.c", "src/he/msg_handlers.c"]}
{"id": "C34", "title": "Goodbye and rejection end the session", "statement": "A GOODBYE from the peer (on any connection), or an AUTH_RESPONSE on a client, makes he_conn_outside_data_received return a fatal error at once, with no inside write, state change or message in between. he_conn_disconnect on an established connection returns success, sends exactly one GOODBYE between the DISCONNECTING and DISCONNECTED state changes and ends DISCONNECTED; in any other state it is refused without effect.", "quantifier": "every message content and state", "why_tests_cant": "All states.", "anchors": ["src/he/msg_handlers.c:he_handle_msg_goodbye, he_handle_msg_auth_response", "src/he/conn.c:he_conn_disconnect"]}
{"id": "C35", "title": "Unknown or malformed messages are rejected without effect", "statement": "A decrypted message that is shorter than its fixed header or inconsistent with its own length fields makes he_conn_outside_data_received return an error at once, one of unknown type or not meant for this role (or a short PONG) is ignored; neither makes an inside write, a state change, an event or a message of its own.", "quantifier": "every byte string", "why_tests_cant": "All byte strings.", "anchors": ["src/he/flow.c:he_internal_flow_process_message", "src/he/msg_handlers.c"]}
{"id": "C36", "title": "Context start keeps the host's version range", "statement": "The minimum and maximum wire version set by the host before starting the context stay in force, and min <= max always holds.", "quantifier": "every sequence of setters", "why_tests_cant": "All sequences.", "anchors": ["src/he/ssl_ctx.c"]}
{"id": "C37", "title": "Result names are total and unambiguous", "statement": "he_return_code_name, he_client_state_name, he_client_event_name return a proper distinct name for every declared constant and a fixed fallback otherwise.", "quantifier": "every integer", "why_tests_cant": "Whole domain.", "anchors": ["src/he/utils.c"]}
{"id": "C38", "title": "API calls terminate", "statement": "Every API call returns provided wolfSSL eventually stops producing messages for a buffer; in particular fragmenting, message handling and MSS clamping loops terminate for every input.", "quantifier": "every input", "why_tests_cant": "Termination is not testable.", "anchors": ["src/he/flow.c", "src/he/frag.c", "src/he/mss.c"]}
{"id": "C39", "title": "Memory is freed once and not used afterwards", "statement": "In the life of a client (he_client_create, he_client_connect, plugins, fragments from the peer, he_client_destroy) no call uses or frees memory that is not allocated, dereferences NULL or leaves an array, and he_client_destroy frees everything the library allocated.", "quantifier": "every sequence of calls and fragments, every pattern of failing allocations", "why_tests_cant": "The order of fragments and the failing allocations are chosen by the peer and the system; there are unboundedly many.", "anchors": ["src/he/frag.c: he_fragment_entry_update, he_internal_fragment_table_*", "src/he/client.c", "src/he/conn.c: he_conn_create, he_conn_destroy, he_internal_conn_configure", "src/he/ssl_ctx.c: he_ssl_ctx_start, he_ssl_ctx_destroy", "src/he/memory.c"]}
{"id": "C40", "title": "Creating a client is all or nothing; plugins are kept in order", "statement": "he_client_create returns a complete client or NULL and nothing allocated; he_plugin_register_plugin appends the plugin, or fails and leaves the chain as it was; ingress visits the plugins in the order of registration, egress in reverse.", "quantifier": "every pattern of failing allocations, every sequence of registrations", "why_tests_cant": "All failure patterns and all lengths of the chain.", "anchors": ["src/he/client.c: he_client_create, he_client_destroy", "src/he/plugin_chain.c"]}
{"id": "C41", "title": "The host is told the right timeout and no timer is lost", "statement": "Every nudge_time_cb value is 100 times wolfSSL's current timeout, or a quarter of it when wolfSSL wants a quick timeout; he_conn_get_nudge_time returns the timeout last worked out, and 0 while ONLINE and not renegotiating; an ONLINE connection asks for timers only while it renegotiates; from a successful connect until the connection is ONLINE or disconnected there is always a timer outstanding; when it fires, he_conn_nudge gives the connection up (HE_CONNECTION_TIMED_OUT, DISCONNECTED) exactly when wolfSSL has given up, and otherwise leaves the state alone; a datagram that leaves the handshake unfinished asks wolfSSL for its timeout again and leaves a timer outstanding, and so does one after which wolfSSL says that a renegotiation is still going on, and so does a timer that fires while there is something left to wait for.", "quantifier": "every sequence of API calls, every datagram and every behaviour of wolfSSL", "why_tests_cant": "A lost timer shows only in particular orders of datagrams, timers and losses; a handshake then hangs.", "anchors": ["src/he/conn.c: he_internal_update_timeout, he_conn_get_nudge_time, he_conn_nudge, he_internal_conn_connect", "src/he/flow.c: he_internal_flow_outside_data_verify_connection, he_internal_flow_outside_data_handle_messages"]}
{"id": "C42", "title": "Settings reach the TLS session before the handshake, or connect fails", "statement": "A connect that passes its checks gives wolfSSL, before the first handshake step and in a fixed order, the MTU for datagrams, ClientHello fragmentation on a datagram server, the SNI name on a stream client, the name the server certificate must carry, and the post-quantum key share of a client that wants it, with the values the host configured; if wolfSSL refuses one, connect returns the matching error and no handshake step is made. No other call changes these settings.", "quantifier": "every configuration, every connection state a host can reach, every answer of wolfSSL", "why_tests_cant": "Skipping the certificate name check or the key share is silent: the handshake still succeeds against an honest server; all combinations of settings and refusals matter.", "anchors": ["src/he/conn.c: he_internal_conn_configure, he_internal_conn_configure_dn, he_conn_client_connect, he_conn_server_connect"]}
{"id": "C43", "title": "Starting a context configures wolfSSL completely or fails with the matching error", "statement": "he_ssl_ctx_start and he_ssl_ctx_start_server create the wolfSSL context for the connection type and role, load the configured CA or certificate and key, set the minimum DTLS version (client), the cipher list, the groups (server), I/O callbacks and renegotiation support in order; the first refusal stops the start and determines the error. A client's cipher list always shares a suite with a server of the same connection type, and only AEAD suites are ever enabled.", "quantifier": "every context configuration and every pattern of answers of wolfSSL", "why_tests_cant": "All combinations of connection type, cipher choice and refused wolfSSL calls; the effect of a missing call is not visible in a successful handshake.", "anchors": ["src/he/ssl_ctx.c: he_ssl_ctx_start, he_ssl_ctx_start_server, he_internal_ssl_ctx_start_common"]}
{"id": "C44", "title": "The client interface does what the connection and context interfaces do", "statement": "Any history of he_client_*, he_conn_* and he_ssl_ctx_* calls on a client leaves its connection in a state a directly used connection can reach; he_client_connect returns the first missing setting without touching the connection, the error of starting the context, or the result of connecting; he_client_disconnect is he_conn_disconnect; he_client_is_config_valid reports the first missing setting, and agrees with what he_client_connect then does.", "quantifier": "every history of calls, every behaviour of wolfSSL and the host", "why_tests_cant": "All histories and configurations; the check and the connect can disagree only for particular settings.", "anchors": ["src/he/client.c: he_client_connect, he_client_disconnect, he_client_is_config_valid"]}
{"id": "C45", "title": "The tunnel never corrupts packets", "statement": "A sender and a receiver of the same protocol version make any calls (no new connect, no version change; the receiver does not disconnect); the network loses, repeats, delays and reorders the datagrams arbitrarily. Every packet the receiver gives to inside_write_cb is then a packet the sender's host gave to he_conn_inside_packet_received and that was accepted, with at most the MSS of a TCP SYN lowered, byte for byte, as long as the receiver's fragment table has a place of its own for each packet that was cut; with the default table: for up to 65536 cut packets. No packet is made of pieces of different packets, or of a part of one.", "quantifier": "every pair of reachable connections, every sequence of calls on both, every loss, duplication and order of messages, every clock, every outcome of allocations, every TLS behaviour that delivers only what was sent", "why_tests_cant": "The orders, losses and repetitions of fragments of many packets are unbounded; a test covers a few interleavings.", "anchors": ["src/he/flow.c: he_conn_inside_packet_received", "src/he/frag.c: he_internal_frag_and_send_message, he_fragment_entry_update, he_internal_fragment_table_find", "src/he/msg_handlers.c: he_handle_msg_data, he_handle_msg_data_with_frag"]}
{"id": "C46", "title": "he_conn_get_ssl_error explains TLS errors", "statement": "After any call other than a connect, he_conn_get_ssl_error returns the last error wolfSSL reported during the call that no return code of its own stands for (failed write, read, handshake, renegotiation, key update), and otherwise what it returned before the call. Whenever such a call returns HE_ERR_SSL_ERROR or HE_ERR_SSL_ERROR_NONFATAL, there was such an error during that very call and its detail is what he_conn_get_ssl_error returns, unless the code was chosen by a callback of the host; on a stream whose previous data is not used up the detail is 0. A connect records no detail of a handshake that fails at once (HE_ERR_CONNECT_FAILED), and it returns HE_ERR_SSL_ERROR only when wolfSSL refused the server name of a stream client, in which case the detail is the stale one from before.", "quantifier": "every state, every call, every behaviour of wolfSSL, plugins and callbacks (which do not call the library)", "why_tests_cant": "The claim is about every error wolfSSL can report in every operation of every call and about staleness after arbitrary histories; tests force a handful of errors through mocks.", "anchors": ["src/he/conn.c: he_conn_get_ssl_error, he_internal_send_message, he_internal_renegotiate_ssl, he_conn_internal_connect", "src/he/flow.c: he_internal_flow_fetch_message, he_internal_flow_outside_data_verify_connection, he_internal_flow_outside_data_handle_messages", "src/he/core.c: he_internal_setup_stream_state", "public/he.h: he_conn_get_ssl_error"]}
{"id": "C47", "title": "Connections on the same thread do not get each other's datagrams or errors", "statement": "With several connections used from several threads, in any interleaving: what wolfSSL reads for a datagram connection is nothing or the datagram passed in the very call it is working for, never another connection's, never through a pointer whose call is over, and never twice; he_conn_get_ssl_error shows the last error of that connection. In the plain build (variables per connection) wolfSSL only ever gets datagrams passed for this connection and the error is the last one of this connection. In the multithreaded build (variables per thread) the first part holds as long as wolfSSL reads during every call that brings a datagram, and the error is the last one of the calling thread, of whatever connection.", "quantifier": "every number of threads and connections, every interleaving of their calls, every sequence of reads and errors of wolfSSL inside the calls", "why_tests_cant": "The tests run one connection on one thread; the claim is about all interleavings of calls on different connections and about datagrams wolfSSL leaves unread.", "anchors": ["src/he/flow.h: he_internal_set_packet, he_internal_is_pkt_available, he_internal_copy_packet", "src/he/flow.c: cur_packet, packet_seen, he_internal_flow_outside_packet_received", "src/he/wolf.c: he_wolf_dtls_read", "src/he/conn.c: wolf_error, he_conn_set_ssl_error, he_conn_get_ssl_error"]}
{"id": "C48", "title": "The statistics plugin counts and does not interfere", "statement": "A statistics plugin that was created lets every packet pass unchanged, in both directions. It prints a line for a direction at every 100000th packet of that direction and never otherwise; the line gives the number of packets of that direction, the sum, the sum of squares, the smallest and the largest of their lengths, their mean (the nearest double) and their standard deviation.", "quantifier": "every sequence of packets of any lengths in both directions", "why_tests_cant": "The tests feed a few packets; the claim is about sums of any number of lengths in floating point and about interleavings of both directions.", "anchors": ["src/he/plugin_stats.c: stats_sample, stats_mean, stats_stddev, stats_dump, stats_plugin_do_ingress, stats_plugin_do_egress, stats_plugin_create", "src/he/plugin_stats.h: stats_t, PACKET_SAMPLE_N"]}
{"id": "C49", "title": "Connecting again starts a new session", "statement": "A connection that was disconnected can be connected again. A successful he_conn_client_connect or he_conn_server_connect, whatever was done with the connection before, takes role, plugins, callbacks and settings from its arguments, keeps the credentials, server name and MTU the host has set, forgets fragments and restarts keepalive ids at 1; the new session then behaves like one of a new connection with the same settings. (The last part is false: the session id a client shows, an announced session id, the first-message flag, the awaited pong, the path MTU and its discovery, an unfinished renegotiation and the protocol version are carried over.)", "quantifier": "every history before the connect, every outcome of wolfSSL, allocator and callbacks", "why_tests_cant": "The tests connect fresh objects; the claim is about every earlier history of the same object.", "anchors": ["src/he/conn.c: he_internal_conn_configure, he_conn_internal_connect, he_conn_client_connect, he_conn_server_connect, he_conn_disconnect", "src/he/flow.c: he_internal_flow_outside_data_verify_connection"]}
{"id": "C50", "title": "What the host has set on a connection stays as it is", "statement": "After any history of calls he_conn_get_outside_mtu, the password, the authentication method and the token or buffer are what the setters accepted last; no other call, packet or answer of the peer changes them or the server name. The protocol version changes only by he_conn_set_protocol_version and by a connect that gets as far as allocating (which takes the maximum of its context if the major number is 0). The username changes only by he_conn_set_username, and on a packet in which a peer logs in with username and password: then he_conn_get_username is the last name the authentication callback was asked about.", "quantifier": "every history of calls, every packet and every outcome of wolfSSL, plugins, callbacks and allocator; password, method, data and MTU also for hosts that call the library inside callbacks to any depth, server name, version and username for hosts that do not", "why_tests_cant": "The tests read values back right after setting them; the claim is about all the calls in between and all packets of the peer.", "anchors": ["src/he/conn.c: he_conn_set_username, he_conn_get_username, he_conn_set_password, he_conn_set_auth_token, he_conn_set_auth_buffer2, he_conn_set_outside_mtu, he_conn_get_outside_mtu, he_conn_set_protocol_version, he_conn_get_protocol_version, he_conn_set_sni_hostname, he_internal_conn_configure", "src/he/msg_handlers.c: he_handle_msg_auth"]}
{"id": "C51", "title": "A context keeps what was set, and a connection calls the callbacks registered", "statement": "After any sequence of he_ssl_ctx_set_* calls, each setting and each of the 13 callbacks of a context is the one given last by a call that was accepted, whatever else was set, started or refused in between; refused calls change nothing and the queries report what was set. A connection calls, for each kind of callback, exactly the function that was registered last on the context it was connected with before it connected: later changes to that or other contexts do not matter until the next connect, and after a disconnect the two callbacks that write are gone. Every callback is passed the pointer attached last with he_conn_set_context. With a NULL context the setters fail and the queries say that nothing is set. (False in details: with NULL, he_ssl_ctx_is_server_cert_key_set says true and he_ssl_ctx_get_padding_type returns an error code; he_ssl_ctx_is_auth_cb_set does not count the token callback, so a server that only takes tokens cannot be started.) A callback is seen as set, by the context and by a connection made with it, exactly if the pointer registered last is not NULL.", "quantifier": "every sequence of setter calls with any arguments on any number of contexts, interleaved with connects and disconnects of a connection", "why_tests_cant": "Tests set one value and read it back; the claim is about all interleavings of setters, contexts, connects and disconnects.", "anchors": ["src/he/ssl_ctx.c: he_ssl_ctx_set_*, he_ssl_ctx_is_*, he_ssl_ctx_get_*", "src/he/conn.c: he_internal_conn_configure, he_conn_disconnect, he_conn_set_context, he_conn_get_context"]}
{"id": "C52", "title": "The two ends agree on who has logged in and with which configuration", "statement": "Take a client and a server joined by TLS, so that each message either of them receives is one the other has sent; messages may be lost, repeated or reordered. Before the server delivers or sends any packet, and whenever it is ONLINE, its authentication callback has accepted credentials that the client's host had set: the same user name and password, token or buffer, sent with the method the client's host chose. Before the client delivers or sends any packet, and whenever it is ONLINE, it has received a configuration message that the server sent after such a login, made from addresses that the server's host gave before. Whatever network_config_ipv4_cb is told is what the server's host gave (up to 23 bytes of each address) and the MTU 1350.", "quantifier": "every history of calls on the client and every history on the server, every order, loss and repetition of the messages between them, every behaviour of both hosts that does not call the library inside callbacks", "why_tests_cant": "The tests run one end with mocked messages; the claim is about every pair of histories of two ends.", "anchors": ["src/he/conn.c: he_internal_send_auth, he_conn_outside_data_received, he_conn_inside_packet_received", "src/he/msg_handlers.c: he_handle_msg_auth, he_handle_msg_config_ipv4"]}
{"id": "C53", "title": "Memory comes from the host's allocators and goes back to the one it came from", "statement": "After any history he_malloc, he_calloc, he_realloc and he_free each make exactly one call, to the function of that kind given last in a he_set_allocators that wolfSSL accepted (libc's if that was null or none was given), with the same arguments and the same result. A refused he_set_allocators fails with HE_ERR_INIT_FAILED and changes nothing; after an accepted one wolfSSL uses the same malloc, realloc and free. Every block is freed or resized by the allocator it came from. (True of a host that gives all four functions of one allocator or none and changes them only while no block is in use; he_set_allocators accepts a part of an allocator, and a change while blocks are in use, and then it is false. The statistics plugin never uses the host's allocator.)", "quantifier": "every sequence of he_set_allocators, he_malloc, he_calloc, he_realloc, he_free and plugin creations and destructions with any arguments and any failures of the allocators", "why_tests_cant": "The tests install one set of functions and count one call of each; the claim is about every interleaving of changes and blocks in use.", "anchors": ["src/he/memory.c: he_set_allocators, he_malloc, he_calloc, he_realloc, he_free", "src/he/plugin_stats.c: stats_plugin_create, stats_plugin_destroy"]}
{"id": "C54", "title": "The state of a connection is exactly what has happened to it", "statement": "After every call he_conn_get_state is a function of the state before and of what happened during the call, in order: starting a handshake makes it CONNECTING; its success makes it LINK_UP on a server and AUTHENTICATING on a client; a configuration message of at least 105 bytes that reaches a client in AUTHENTICATING makes it CONFIGURING (ONLINE if the host has no network_config_ipv4_cb) and the callback's success makes it ONLINE; on a server a refused login, or one by a method the host has no callback for, makes it DISCONNECTING, and success of populate_network_config_ipv4_cb makes it ONLINE; a successful he_conn_disconnect, or he_conn_nudge returning HE_CONNECTION_TIMED_OUT, makes it DISCONNECTED. Nothing else changes it: no other call, message, plugin, timer, or error. Within a call these come in order: a handshake is only begun first, by a connect or in CONNECTING; messages are taken only when no handshake is under way; the host is asked to judge a login exactly when a well-formed login by a method it has a callback for arrives, to provide a configuration exactly after it accepted a login, and to apply one exactly when it arrives in AUTHENTICATING; each is answered before anything else is taken. Once DISCONNECTING or DISCONNECTED it stays one of them, takes no message and refuses he_conn_disconnect, until the host connects again.", "quantifier": "every call from every state of the connection, for all contexts, callbacks, plugins, wolfSSL answers and received bytes; every sequence of calls without a connect", "why_tests_cant": "Tests follow a few paths through the state machine; that no combination of messages, callback answers and wolfSSL results moves the state in another way needs all of them.", "anchors": ["src/he/conn.c:he_internal_change_conn_state, he_conn_internal_connect, he_conn_disconnect, he_conn_nudge", "src/he/msg_handlers.c:he_handle_msg_auth, he_handle_msg_config_ipv4", "src/he/flow.c:he_internal_flow_outside_data_verify_connection, he_conn_outside_data_received"]}
{"id": "C55", "title": "A login completes, and one retry makes good whatever was lost", "statement": "A client in AUTHENTICATING always has credentials, and every he_conn_nudge sends the one login message they make, returns HE_SUCCESS and keeps waiting. A server that receives such a message, whatever its state (not yet closed) and even if it had answered before, asks the host exactly once about exactly these credentials, provided the host has the callbacks for them; a refusal closes the connection and sends no configuration; an acceptance asks the host once for a configuration, and if it provides one, the server is ONLINE in the same call and exactly that configuration goes out. A client in AUTHENTICATING that receives it tells its host exactly that configuration and is ONLINE in the same call if the host applies it (CONFIGURING if not; ONLINE at once if it has no callback). So if login or answer were lost, one nudge whose messages arrive leaves both ends ONLINE.", "quantifier": "every history of the client and every state of the server, all credentials, callbacks, plugins, wolfSSL behaviours and received datagrams that carry exactly these messages", "why_tests_cant": "A test loses one message at one point; that no earlier history (lost, repeated or refused messages) can leave a pair that a retry does not repair needs all histories of both ends.", "anchors": ["src/he/conn.c:he_conn_nudge, he_internal_send_auth, he_internal_send_auth_userpass, he_internal_send_auth_token, he_internal_send_auth_buf", "src/he/msg_handlers.c:he_handle_msg_auth, he_handle_msg_config_ipv4", "src/he/flow.c:he_conn_outside_data_received"]}
{"id": "C56", "title": "New keys on request", "statement": "he_conn_schedule_renegotiation always returns HE_SUCCESS and does nothing else at once. The request is kept through every later call until, in a call that receives a packet, wolfSSL has handed over everything it had; at that moment it is used up. If the connection is ONLINE then and no rekeying is going on, wolfSSL is made to begin one in that call (DTLS 1.2: a renegotiation, after asking whether it supports it and only if it does; otherwise a key update), event_cb is told STARTED exactly once, and the call returns the error if it fails. While one is going on, every such moment looks after it: COMPLETED is told exactly when wolfSSL says nothing is pending (for key updates: and the update did not fail). Nothing else rekeys: no other call, no moment without a request, never two at once. What a user might also expect is false: a request made before ONLINE or during a rekeying is silently dropped at the next packet although HE_SUCCESS was returned.", "quantifier": "every history of API calls, every received packet, all wolfSSL answers and errors, every state, with and without event_cb", "why_tests_cant": "The request and its effect are separated by arbitrary calls and packets, and the outcome depends on the state and on wolfSSL's answers at one moment inside a later call; tests try a few such interleavings.", "anchors": ["src/he/conn.c:he_conn_schedule_renegotiation, he_internal_renegotiate_ssl", "src/he/flow.c:he_internal_flow_outside_data_handle_messages, he_internal_flow_fetch_message"]}
{"id": "C57", "title": "A denied login is answered with a rejection, an accepted one with a configuration", "statement": "As soon as an authentication callback has answered, the server acts on the answer and on nothing else: if it said no (0), the very next thing is that the rejection (AUTH_RESPONSE) is given to wolfSSL; if it said yes, populate_network_config_ipv4_cb is called; and as soon as that one has answered, the configuration is sent if it succeeded and the rejection if it failed. None of these happens otherwise: addresses are asked for only right after an authentication callback accepted, a configuration is sent only right after addresses were given out, and a rejection (always the same 53 bytes) only right after a callback said no or right after an AUTH message arrived that no callback was asked about. This holds whatever calls the host makes, also inside the callbacks. What the field of the message suggests is false: the status byte of the rejection is HE_AUTH_STATUS_SUCCESS.", "quantifier": "every history of API calls at every nesting depth of calls from callbacks, all messages received, all callback and wolfSSL results, also histories cut short by undefined behaviour", "why_tests_cant": "The verdict is given in the middle of a call during which the host may make others (disconnect, send, receive further logins); that nothing slips between the verdict and the answer, and that no other path sends a configuration, is about all histories. The unit test for a denial only checks the length of the message, not its contents.", "anchors": ["src/he/msg_handlers.c:he_handle_msg_auth, he_internal_send_auth_denied_response", "src/he/he_internal.h:he_msg_auth_response_t, HE_AUTH_STATUS_SUCCESS"]}
