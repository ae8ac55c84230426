{
 "claims": [
  {
   "property": "C13",
   "status": "partial",
   "theorems": [
    "C13_clamp_mss_memory_safe",
    "C13_clamp_mss_result",
    "C13_clamp_mss_unchanged",
    "C13_clamp_mss_lowers",
    "C13_clamp_mss_checksum_partial",
    "C13_clamp_mss_checksum_refuted"
   ],
   "note": "checksum wrong when the option sits at an odd offset"
  },
  {
   "property": "C10",
   "status": "partial",
   "theorems": [
    "C10_reassembly_partial",
    "C10_api_partial",
    "C10_connect_frees",
    "C10_any_order_refuted",
    "C10_single_fragment_refuted"
   ],
   "note": "as stated the property is false of the code: see the refutations"
  },
  {
   "property": "C11",
   "status": "partial",
   "theorems": [
    "C11_bytes_were_received",
    "C11_received_or_zero",
    "C11_memory_safe",
    "C11_refused_fragment_refuted",
    "C11_ids_mixed_refuted"
   ],
   "note": "as stated the property is false of the code: see the refutations"
  },
  {
   "property": "C18",
   "status": "proved",
   "theorems": [
    "C18_admission",
    "C18_set_minimum",
    "C18_set_maximum"
   ],
   "note": ""
  },
  {
   "property": "C36",
   "status": "partial",
   "theorems": [
    "C36_range_kept_without_start_partial",
    "C36_start_resets",
    "C36_start_discards_range_refuted",
    "C36_min_above_max_refuted"
   ],
   "note": "start overwrites the range"
  },
  {
   "property": "C37",
   "status": "partial",
   "theorems": [
    "C37_return_code_name_partial",
    "C37_return_code_name_refuted",
    "C37_client_state_name",
    "C37_client_event_name",
    "C37_protocol_name",
    "C37_pmtud_state_name"
   ],
   "note": "one return code has no name"
  },
  {
   "property": "C16",
   "status": "proved",
   "theorems": [
    "C16_server_replies",
    "C16_server_config",
    "C16_client_told",
    "C16_no_other",
    "C16_round_trip",
    "C16_server_config_round_trip",
    "C16_mtu_valid",
    "C16_large_mtu_refuted",
    "C16_told_any_host"
   ],
   "note": "the configuration message carries exactly what the host filled in, and the client is told exactly its fields; an MTU text of more than 32 bits is taken modulo 2^32. C16_told_any_host: what the configuration callbacks are told, for hosts that call the library inside callbacks, to any depth"
  },
  {
   "property": "C26",
   "status": "proved",
   "theorems": [
    "C26_client_connect",
    "C26_server_connect",
    "C26_not_started",
    "C26_start_client",
    "C26_start_server",
    "C26_token_only_server_refuted"
   ],
   "note": "connect checks exactly the documented items, otherwise returns the documented code and changes nothing; starting a context likewise; a server with only a token callback cannot start"
  },
  {
   "property": "C01",
   "status": "proved",
   "theorems": [
    "C01_user_data_only_after_authentication",
    "C01_user_data_only_after_authentication_in_this_session",
    "C01_configuration_only_after_authentication",
    "C01_since_last_connect_call_refuted"
   ],
   "note": ""
  },
  {
   "property": "C02",
   "status": "proved",
   "theorems": [
    "C02_user_data_only_after_configuration",
    "C02_user_data_only_after_configuration_in_this_session",
    "C02_inside_only_online",
    "C02_network_config_callback"
   ],
   "note": ""
  },
  {
   "property": "C28",
   "status": "proved",
   "theorems": [
    "C28_credentials_only_after_tls",
    "C28_credentials_only_in_a_negotiated_session",
    "C28_negotiated_since_last_connect_call_refuted"
   ],
   "note": ""
  },
  {
   "property": "C29",
   "status": "proved",
   "theorems": [
    "C29_every_message_fits",
    "C29_data_only_online",
    "C29_message_types"
   ],
   "note": ""
  },
  {
   "property": "C03",
   "status": "proved",
   "theorems": [
    "C03_reports_are_true_and_changes",
    "C03_state_is_the_reported_one",
    "C03_state_order",
    "C03_link_up_after_negotiation",
    "C03_client_leaves_link_up"
   ],
   "note": ""
  },
  {
   "property": "C04",
   "status": "proved",
   "theorems": [
    "C04_first_message_at_most_once",
    "C04_first_message_only_from_outside"
   ],
   "note": ""
  },
  {
   "property": "C05",
   "status": "proved",
   "theorems": [
    "C05_one_timer_outstanding",
    "C05_reentrant_host_refuted"
   ],
   "note": "single-threaded build, hosts that do not call back from nudge_time_cb; re-entrant hosts refuted"
  },
  {
   "property": "C06",
   "status": "proved",
   "theorems": [
    "C06_silent_after_disconnect",
    "C06_timer_after_disconnect_refuted"
   ],
   "note": ""
  },
  {
   "property": "C27",
   "status": "proved",
   "theorems": [
    "C27_renegotiation_events_alternate",
    "C27_event_cb_changes_refuted"
   ],
   "note": "every context has event_cb set"
  },
  {
   "property": "C19",
   "status": "proved",
   "theorems": [
    "C19_memory_safe",
    "C19_reconnect_refuted"
   ],
   "note": "given that allocations succeed and that every connect call got a wolfSSL object; refuted without the latter: after a reconnect with a context that was not started, a nudge passes NULL to wolfSSL_version, which reads through it"
  },
  {
   "property": "C39",
   "status": "partial",
   "theorems": [
    "C39_safe",
    "C39_freed",
    "C39_remains",
    "C39_same",
    "C39_freed_refuted",
    "C39_reconnect_refuted",
    "C39_null_refuted"
   ],
   "note": "the code refutes the full statement: a peer can make it lose range records (three fragments), a second connect loses the first table and WOLFSSL objects, and the allocation of a range record is not checked; C39_safe and C39_freed say what holds otherwise; single-threaded; callbacks that destroy the connection are not covered"
  },
  {
   "property": "C40",
   "status": "proved",
   "theorems": [
    "C40_create",
    "C40_plugins",
    "C40_plugins_null"
   ],
   "note": ""
  },
  {
   "property": "C38",
   "status": "proved",
   "theorems": [
    "C38_calls_return",
    "C38_every_call_ends"
   ],
   "note": ""
  },
  {
   "property": "C20",
   "status": "proved",
   "theorems": [
    "C20_no_stale_buffer",
    "C20_stale_buffer_in_nudge_refuted",
    "C20_rejected_without_effect",
    "C20_admitted_reaches_tls"
   ],
   "note": ""
  },
  {
   "property": "C34",
   "status": "proved",
   "theorems": [
    "C34_goodbye_and_rejection",
    "C34_codes_fatal",
    "C34_disconnect"
   ],
   "note": ""
  },
  {
   "property": "C35",
   "status": "proved",
   "theorems": [
    "C35_no_effect",
    "C35_server"
   ],
   "note": "C35_server: AUTH messages a server refuses, for a host without calls inside callbacks"
  },
  {
   "property": "C14",
   "status": "proved",
   "theorems": [
    "C14_packet_sent",
    "C14_packets_received",
    "C14_data_roundtrip",
    "C14_mixed_endian_refuted",
    "C14_delivered_any_host",
    "C14_unchanged_any_host"
   ],
   "note": "between hosts of the same byte order, or versions other than 1.0 (the mixed case is refuted). the last two: every packet handed to the host is carried by a message received in the same call, also for hosts that call the library inside callbacks, to any depth"
  },
  {
   "property": "C09",
   "status": "proved",
   "theorems": [
    "C09_fragments",
    "C14_packet_sent"
   ],
   "note": ""
  },
  {
   "property": "C33",
   "status": "proved",
   "theorems": [
    "C33_end_to_end"
   ],
   "note": ""
  },
  {
   "property": "C24",
   "status": "partial",
   "theorems": [
    "C24_message_size",
    "C24_full",
    "C24_450",
    "C24_none",
    "C24_path_mtu_refuted"
   ],
   "note": "padding ignores the path MTU"
  },
  {
   "property": "C31",
   "status": "partial",
   "theorems": [
    "C31_set_mtu",
    "C31_online",
    "C31_fits",
    "C31_padding_refuted",
    "C31_large_mtu_refuted"
   ],
   "note": "padding ignores the outside MTU; MTUs above 1614 lose data"
  },
  {
   "property": "C30",
   "status": "proved",
   "theorems": [
    "C30_keepalive",
    "C30_pong_event",
    "C30_pong_only",
    "C30_pong_reply",
    "C30_pong_any_host",
    "C30_reply_any_host",
    "C30_reply_only_any_host",
    "C30_unsolicited_refuted",
    "C30_repeated_refuted",
    "C30_inline_answer_refuted"
   ],
   "note": "C30_pong_any_host, C30_reply_any_host, C30_reply_only_any_host: hosts that also make calls inside callbacks, however deep. For such a host the other direction of the first fails: the answer handed over from inside outside_write_cb of the keepalive itself is not reported (C30_inline_answer_refuted)."
  },
  {
   "property": "C12",
   "status": "partial",
   "theorems": [
    "C12_effective_range",
    "C12_effective_range_once",
    "C12_probe_size",
    "C12_search",
    "C12_phases",
    "C12_patient",
    "C12_justified",
    "C12_ends",
    "C12_unacknowledged_refuted",
    "C12_minimum_unusable_refuted",
    "C12_not_probed_refuted"
   ],
   "note": "range, probe sizes, the whole search (PmSpec), at most three probes in a row, what the result rests on, that a search ends; refuted: the effective PMTU itself need not have been acknowledged (1250 may rest on 512; 1384 rests on 1410). C12_patient, C12_justified and C12_ends assume that the timer and pongs come only while ONLINE and that no PONG has id 0"
  },
  {
   "property": "C07",
   "status": "proved",
   "theorems": [
    "C07_size",
    "C07_datagram",
    "C07_stream"
   ],
   "note": ""
  },
  {
   "property": "C08",
   "status": "proved",
   "theorems": [
    "C08_copies",
    "C08_exact"
   ],
   "note": ""
  },
  {
   "property": "C23",
   "status": "proved",
   "theorems": [
    "C23_username",
    "C23_password",
    "C23_token",
    "C23_buffer",
    "C23_sni",
    "C23_truncated_refuted",
    "C23_refused_username_refuted"
   ],
   "note": "exact verdict, stored text and frame of each setter; the two departures from the documented behaviour are refuted"
  },
  {
   "property": "C15",
   "status": "proved",
   "theorems": [
    "C15_login",
    "C15_any_host",
    "C15_questions",
    "C15_no_questions",
    "C15_round_trip",
    "C15_terminated_refuted",
    "C15_asked_any_host"
   ],
   "note": "sent exactly at link-up and on a nudge while waiting; the question asked is exactly what was set (after C23 truncation to 49 bytes); a hostile peer can pass unterminated arrays (refuted). C15_any_host: every AUTH a client sends carries exactly the credentials its host gave, also for hosts that call the library inside callbacks, to any depth. C15_asked_any_host: the questions, for such hosts"
  },
  {
   "property": "C17",
   "status": "proved",
   "theorems": [
    "C17_inside",
    "C17_outside",
    "C17_chains",
    "C17_restores"
   ],
   "note": "every plugin call of every API call belongs to a complete pass in the stated order, and what comes out of the pass is what is sent, written or delivered; a plugin result other than FAIL and DROP lets the pass go on, as in the code"
  },
  {
   "property": "C21",
   "status": "proved",
   "theorems": [
    "C21_received",
    "C21_other_calls",
    "C21_stream_order",
    "C21_stream_progress",
    "C21_datagram_once",
    "C21_stream_history",
    "C21_leftover_refused"
   ],
   "note": "per call and over whole histories of a stream connection; leftover bytes make the next buffer refused, as in the code; reads through a dangling buffer pointer are the separate outcome UB_stale (C20)"
  },
  {
   "property": "C22",
   "status": "proved",
   "theorems": [
    "C22_calls",
    "C22_received",
    "C22_server",
    "C22_authentic_refuted",
    "C22_unknown_refused_refuted",
    "C22_no_roaming_refuted"
   ],
   "note": "exact effect of every API call on the two identifiers and exactly when the host is told; refuted: that a client's id changes only on authenticated packets, that an unknown session's packet is not processed, that a peer accepts packets of a connection with roaming disabled"
  },
  {
   "property": "C25",
   "status": "partial",
   "theorems": [
    "C25_codes",
    "C25_fatal_cause",
    "C25_forged_partial",
    "C25_forged_refuted"
   ],
   "note": "the classification of every integer is proved, and every fatal result of a received datagram is traced to its cause; the code refutes that forged datagrams cannot cause one (another version, reject session), so that half holds only for other headers"
  },
  {
   "property": "C32",
   "status": "proved",
   "theorems": [
    "C32_first_once",
    "C32_fragment_ids",
    "C32_all_fragments",
    "C32_alone",
    "C32_timers",
    "C32_lost_timer_refuted",
    "C32_plain_build_refuted",
    "C32_id_reuse_refuted",
    "C32_two_timers_refuted",
    "C32_acknowledged_twice_refuted",
    "C32_lost_rotation_refuted",
    "C32_state_twice_refuted",
    "C32_empty_session_refuted"
   ],
   "note": "every number of threads, jobs and interleavings of the accesses to the atomic variables (sequentially consistent, as C11's defaults); refuted for the build without the atomics, for 65537 packets, and for other guarantees one may expect of the multithreaded build"
  },
  {
   "property": "C41",
   "status": "proved",
   "theorems": [
    "C41_value",
    "C41_nudge",
    "C41_query",
    "C41_online",
    "C41_waits",
    "C41_refresh",
    "C41_renegotiates",
    "C41_rearms"
   ],
   "note": "C41_value for hosts that call back to any depth; the others for hosts that do not call the library inside callbacks"
  },
  {
   "property": "C42",
   "status": "proved",
   "theorems": [
    "C42_connect",
    "C42_other",
    "C42_unchecked_refuted"
   ],
   "note": "single calls from every reachable state, hosts that do not call the library inside callbacks; refuted: a refused setting on a connection already ONLINE leaves it ONLINE with a new TLS session"
  },
  {
   "property": "C43",
   "status": "proved",
   "theorems": [
    "C43_client",
    "C43_server",
    "C43_client_refines",
    "C43_server_refines",
    "C43_compatible",
    "C43_groups",
    "C43_typed",
    "C43_server_minimum_refuted",
    "C43_server_chacha_refuted"
   ],
   "note": "every answer of wolfSSL; Linux build (no Windows, no iOS variants)"
  },
  {
   "property": "C44",
   "status": "partial",
   "theorems": [
    "C44_client_is_connection",
    "C44_is_valid",
    "C44_connect",
    "C44_agree_partial",
    "C44_disconnect",
    "C44_valid_too_strict_refuted",
    "C44_valid_too_lax_refuted"
   ],
   "note": "the agreement of he_client_is_config_valid with he_client_connect is proved unless the host names a wire version with a context maximum other than 1.2, where the code refutes it in both directions"
  },
  {
   "property": "C45",
   "status": "proved",
   "theorems": [
    "C45_integrity",
    "C45_default",
    "C45_connected",
    "C45_few_places_refuted"
   ],
   "note": "hosts that do not call the library inside callbacks, no plugins on the inside; refuted when two packets that are cut share a place in the receiver's table"
  },
  {
   "property": "C46",
   "status": "proved",
   "theorems": [
    "C46_value",
    "C46_explained",
    "C46_unread",
    "C46_connect",
    "C46_sni_refuted"
   ],
   "note": "hosts that do not call the library inside callbacks; single-threaded build (the multithreaded build keeps the detail per thread); the stale detail after a refused server name is refuted"
  },
  {
   "property": "C47",
   "status": "partial",
   "theorems": [
    "C47_own_datagram_partial",
    "C47_once",
    "C47_first",
    "C47_plain",
    "C47_plain_refines",
    "C47_error",
    "C47_mixed_refuted",
    "C47_stale_refuted",
    "C47_error_mixed_refuted"
   ],
   "note": "full isolation holds in the plain build; in the multithreaded build it is proved when wolfSSL reads during each call that brings a datagram, and refuted otherwise; errors are per thread there (refuted per connection)"
  },
  {
   "property": "C48",
   "status": "partial",
   "theorems": [
    "C48_stddev_partial",
    "C48_passes",
    "C48_line_partial",
    "C48_stddev_refuted",
    "C48_exact_refuted"
   ],
   "note": "the numbers are exact while the sum of the squares is below 2^53 (4 thousand million packets of full size), refuted beyond; the printed standard deviation is refuted (NaN for packets of one size) in general, and proved to be the nearest double while the square of the sum is below 2^53 and the two divisions have no remainder"
  },
  {
   "property": "C49",
   "status": "partial",
   "theorems": [
    "C49_connect",
    "C49_session_refuted",
    "C49_first_message_refuted",
    "C49_pong_refuted",
    "C49_path_mtu_refuted",
    "C49_renegotiation_refuted",
    "C49_version_refuted",
    "C49_pending_refuted"
   ],
   "note": "C49_connect says exactly what a connect sets, keeps and carries over (hosts that do not call the library inside callbacks); that the new session is like one of a new connection is refuted in seven ways"
  },
  {
   "property": "C50",
   "status": "proved",
   "theorems": [
    "C50_protocol",
    "C50_settings",
    "C50_history",
    "C50_any_host",
    "C50_version",
    "C50_queries",
    "C50_tls",
    "C50_support",
    "C50_support_refuted",
    "C50_session"
   ],
   "note": "C50_support_refuted (outside the statement): he_conn_supports_renegotiation passes NULL to wolfSSL on a connection that never connected; with C23_* (what each setter does); C50_any_host: password, method, data and MTU also for hosts that call the library inside callbacks, to any depth; the other parts: hosts that do not call the library inside callbacks"
  },
  {
   "property": "C51",
   "status": "partial",
   "theorems": [
    "C51_versions",
    "C51_registered",
    "C51_context",
    "C51_callbacks",
    "C51_refused",
    "C51_queries",
    "C51_called",
    "C51_data",
    "C51_refines",
    "C51_conn_refines",
    "C51_null_partial",
    "C51_null_refuted",
    "C51_token_refuted"
   ],
   "note": "proved for non-NULL contexts; the behaviour with a NULL context and of he_ssl_ctx_is_auth_cb_set is refuted in three details, the rest of it proved"
  },
  {
   "property": "C52",
   "status": "proved",
   "theorems": [
    "C52_server_data",
    "C52_server_online",
    "C52_client_online",
    "C52_client_data",
    "C52_configuration"
   ],
   "note": "peers (AgreeSpec.v) assumes that TLS delivers only messages of the other end; hosts that do not call the library inside callbacks"
  },
  {
   "property": "C53",
   "status": "partial",
   "theorems": [
    "C53_plugin_freed",
    "C53_used",
    "C53_set",
    "C53_matched_partial",
    "C53_mixed_refuted",
    "C53_midway_refuted",
    "C53_plugin_refuted"
   ],
   "note": "that blocks go back to their allocator is proved for hosts that give all four functions of one allocator, or none, while nothing is in use; refuted otherwise and for the statistics plugin"
  },
  {
   "property": "C54",
   "status": "proved",
   "theorems": [
    "C54_asks",
    "C54_state",
    "C54_still",
    "C54_online",
    "C54_final"
   ],
   "note": "hosts that do not call the library inside callbacks"
  },
  {
   "property": "C55",
   "status": "proved",
   "theorems": [
    "C55_retry",
    "C55_server",
    "C55_client",
    "C55_completes"
   ],
   "note": "hosts that do not call the library inside callbacks"
  },
  {
   "property": "C56",
   "status": "proved",
   "theorems": [
    "C56_packet",
    "C56_elsewhere",
    "C56_kept",
    "C56_method",
    "C56_lost_refuted"
   ],
   "note": "everything stated is proved, for hosts that do not call the library inside callbacks; that every accepted request leads to a rekeying is refuted: one made before ONLINE or during a rekeying is dropped"
  },
  {
   "property": "C57",
   "status": "proved",
   "theorems": [
    "C57_answered",
    "C57_only_then",
    "C57_status_refuted"
   ],
   "note": "at every nesting depth, and also for histories that end in undefined behaviour; which logins no callback is asked about is C35 (server)"
  }
 ]
}