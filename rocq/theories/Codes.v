(** Constants of lightway-core, copied from the headers.  Return codes are plain
    [Z] (not an enumerated type) because host callbacks and plugins return
    arbitrary ints through the same type. *)
From Verif Require Import Base.


(** include/he.h:68-195 he_return_code_t *)
Definition HE_SUCCESS : Z := 0.
Definition HE_ERR_STRING_TOO_LONG : Z := -1.
Definition HE_ERR_EMPTY_STRING : Z := -2.
Definition HE_ERR_INVALID_CONN_STATE : Z := -3.
Definition HE_ERR_NULL_POINTER : Z := -4.
Definition HE_ERR_EMPTY_PACKET : Z := -5.
Definition HE_ERR_PACKET_TOO_SMALL : Z := -6.
Definition HE_ERR_ZERO_SIZE : Z := -7.
Definition HE_ERR_NEGATIVE_NUMBER : Z := -8.
Definition HE_ERR_INIT_FAILED : Z := -9.
Definition HE_ERR_NO_MEMORY : Z := -10.
Definition HE_ERR_NOT_HE_PACKET : Z := -11.
Definition HE_ERR_SSL_BAD_FILETYPE : Z := -12.
Definition HE_ERR_SSL_BAD_FILE : Z := -13.
Definition HE_ERR_SSL_OUT_OF_MEMORY : Z := -14.
Definition HE_ERR_SSL_ASN_INPUT : Z := -15.
Definition HE_ERR_SSL_BUFFER : Z := -16.
Definition HE_ERR_SSL_CERT : Z := -17.
Definition HE_ERR_SSL_ERROR : Z := -18.
Definition HE_ERR_CONF_USERNAME_NOT_SET : Z := -19.
Definition HE_ERR_CONF_PASSWORD_NOT_SET : Z := -20.
Definition HE_ERR_CONF_CA_NOT_SET : Z := -21.
Definition HE_ERR_CONF_MTU_NOT_SET : Z := -22.
Definition HE_WANT_READ : Z := -23.
Definition HE_WANT_WRITE : Z := -24.
Definition HE_ERR_CONF_OUTSIDE_WRITE_CB_NOT_SET : Z := -25.
Definition HE_ERR_CONNECT_FAILED : Z := -26.
Definition HE_CONNECTION_TIMED_OUT : Z := -27.
Definition HE_ERR_NOT_CONNECTED : Z := -28.
Definition HE_ERR_UNSUPPORTED_PACKET_TYPE : Z := -29.
Definition HE_ERR_CONNECTION_WAS_CLOSED : Z := -30.
Definition HE_ERR_BAD_PACKET : Z := -31.
Definition HE_ERR_CALLBACK_FAILED : Z := -32.
Definition HE_ERR_FAILED : Z := -33.
Definition HE_ERR_SERVER_DN_MISMATCH : Z := -34.
Definition HE_ERR_CANNOT_VERIFY_SERVER_CERT : Z := -35.
Definition HE_ERR_NEVER_CONNECTED : Z := -36.
Definition HE_ERR_INVALID_MTU_SIZE : Z := -37.
Definition HE_ERR_CLEANUP_FAILED : Z := -38.
Definition HE_ERR_REJECTED_SESSION : Z := -39.
Definition HE_ERR_ACCESS_DENIED : Z := -40.
Definition HE_ERR_PACKET_TOO_LARGE : Z := -41.
Definition HE_ERR_INACTIVITY_TIMEOUT : Z := -42.
Definition HE_ERR_POINTER_WOULD_OVERFLOW : Z := -43.
Definition HE_ERR_INVALID_CONNECTION_TYPE : Z := -46.
Definition HE_ERR_RNG_FAILURE : Z := -47.
Definition HE_ERR_CONF_AUTH_CB_NOT_SET : Z := -48.
Definition HE_ERR_PLUGIN_DROP : Z := -49.
Definition HE_ERR_UNKNOWN_SESSION : Z := -50.
Definition HE_ERR_SSL_ERROR_NONFATAL : Z := -51.
Definition HE_ERR_INCORRECT_PROTOCOL_VERSION : Z := -52.
Definition HE_ERR_CONF_CONFLICTING_AUTH_METHODS : Z := -53.
Definition HE_ERR_ACCESS_DENIED_NO_AUTH_BUF_HANDLER : Z := -54.
Definition HE_ERR_ACCESS_DENIED_NO_AUTH_USERPASS_HANDLER : Z := -55.
Definition HE_ERR_SERVER_GOODBYE : Z := -56.
Definition HE_ERR_INVALID_AUTH_TYPE : Z := -57.
Definition HE_ERR_ACCESS_DENIED_NO_AUTH_TOKEN_HANDLER : Z := -58.
Definition HE_ERR_PMTUD_CALLBACKS_NOT_SET : Z := -59.
Definition HE_ERR_BAD_FRAGMENT : Z := -60.
Definition HE_ERR_SECURE_RENEGOTIATION_ERROR : Z := -61.
Definition HE_ERR_CANNOT_ENABLE_CH_FRAG : Z := -62.

(** include/he.h:204-222 he_conn_state_t *)
Definition HE_STATE_NONE : Z := 0.
Definition HE_STATE_DISCONNECTED : Z := 1.
Definition HE_STATE_CONNECTING : Z := 2.
Definition HE_STATE_DISCONNECTING : Z := 4.
Definition HE_STATE_AUTHENTICATING : Z := 5.
Definition HE_STATE_LINK_UP : Z := 6.
Definition HE_STATE_ONLINE : Z := 7.
Definition HE_STATE_CONFIGURING : Z := 8.

(** include/he.h:224-238 he_conn_event_t *)
Definition HE_EVENT_FIRST_MESSAGE_RECEIVED : Z := 1.
Definition HE_EVENT_PONG : Z := 2.
Definition HE_EVENT_REJECTED_FRAGMENTED_PACKETS_SENT_BY_HOST : Z := 3.
Definition HE_EVENT_SECURE_RENEGOTIATION_STARTED : Z := 4.
Definition HE_EVENT_SECURE_RENEGOTIATION_COMPLETED : Z := 5.
Definition HE_EVENT_PENDING_SESSION_ACKNOWLEDGED : Z := 6.

(** include/he.h:244-251 he_padding_type_t *)
Definition HE_PADDING_NONE : Z := 0.
Definition HE_PADDING_FULL : Z := 1.
Definition HE_PADDING_450 : Z := 2.

(** include/he.h:256-261 he_connection_type_t *)
Definition HE_CONNECTION_TYPE_DATAGRAM : Z := 0.
Definition HE_CONNECTION_TYPE_STREAM : Z := 1.

(** include/he.h:266-275 he_connection_protocol_t *)
Definition HE_CONNECTION_PROTOCOL_NONE : Z := 0.
Definition HE_CONNECTION_PROTOCOL_TLS_1_3 : Z := 1.
Definition HE_CONNECTION_PROTOCOL_DTLS_1_2 : Z := 2.
Definition HE_CONNECTION_PROTOCOL_DTLS_1_3 : Z := 3.

(** include/he.h:281-316 he_pmtud_state_t *)
Definition HE_PMTUD_STATE_DISABLED : Z := 0.
Definition HE_PMTUD_STATE_BASE : Z := 1.
Definition HE_PMTUD_STATE_SEARCHING : Z := 2.
Definition HE_PMTUD_STATE_SEARCH_COMPLETE : Z := 3.
Definition HE_PMTUD_STATE_ERROR : Z := 4.

(** include/he.h:41-63 *)
Definition HE_MAX_WIRE_MTU : Z := 1500.
Definition HE_MAX_MTU : Z := 1350.
Definition HE_MAX_MTU_STR : bytes := [49; 51; 53; 48; 0].   (* "1350" *)
Definition HE_WIRE_MINIMUM_PROTOCOL_MAJOR_VERSION : Z := 1.
Definition HE_WIRE_MINIMUM_PROTOCOL_MINOR_VERSION : Z := 0.
Definition HE_WIRE_MAXIMUM_PROTOCOL_MAJOR_VERSION : Z := 1.
Definition HE_WIRE_MAXIMUM_PROTOCOL_MINOR_VERSION : Z := 2.
Definition HE_CONFIG_TEXT_FIELD_LENGTH : Z := 50.
Definition HE_MAX_IPV4_STRING_LENGTH : Z := 24.
Definition HE_MAX_HOSTNAME_LENGTH : Z := 255.

(** include/he.h:337-344 he_auth_type_t *)
Definition HE_AUTH_TYPE_USERPASS : Z := 1.
Definition HE_AUTH_TYPE_TOKEN : Z := 2.
Definition HE_AUTH_TYPE_CB : Z := 23.

(** include/he_plugin.h:36-40 *)
Definition HE_PLUGIN_SUCCESS : Z := 0.
Definition HE_PLUGIN_FAIL : Z := -1.
Definition HE_PLUGIN_DROP : Z := -2.

(** src/he/he_internal.h:297-328 msg_ids_t *)
Definition HE_MSGID_NOOP : Z := 1.
Definition HE_MSGID_PING : Z := 2.
Definition HE_MSGID_PONG : Z := 3.
Definition HE_MSGID_AUTH : Z := 4.
Definition HE_MSGID_DATA : Z := 5.
Definition HE_MSGID_CONFIG_IPV4 : Z := 6.
Definition HE_MSGID_AUTH_RESPONSE : Z := 7.
Definition HE_MSGID_AUTH_RESPONSE_WITH_CONFIG : Z := 8.
Definition HE_MSGID_EXTENSION : Z := 9.
Definition HE_MSGID_SESSION_REQUEST : Z := 10.
Definition HE_MSGID_SESSION_RESPONSE : Z := 11.
Definition HE_MSGID_GOODBYE : Z := 12.
Definition HE_MSGID_DEPRECATED_13 : Z := 13.
Definition HE_MSGID_SERVER_CONFIG : Z := 14.
Definition HE_MSGID_DATA_WITH_FRAG : Z := 15.

(** sizeof of the packed structs, src/he/he_internal.h:330-444 and
    include/he.h he_wire_hdr_t *)
Definition sizeof_wire_hdr : Z := 16.
Definition sizeof_msg_hdr : Z := 1.
Definition sizeof_ping : Z := 5.
Definition sizeof_pong : Z := 5.
Definition sizeof_auth_hdr : Z := 2.
Definition sizeof_auth : Z := 104.
Definition sizeof_auth_token : Z := 4.
Definition sizeof_auth_buf : Z := 4.
Definition sizeof_server_config : Z := 3.
Definition sizeof_config_ipv4 : Z := 105.
Definition sizeof_data : Z := 3.
Definition sizeof_data_frag : Z := 7.
Definition sizeof_deprecated_13 : Z := 5.
Definition sizeof_auth_response : Z := 53.
Definition sizeof_goodbye : Z := 1.

(** src/he/he_internal.h:399-401, 415-416, 456-477 *)
Definition HE_FRAG_MF_MASK : Z := 8192.
Definition HE_FRAG_OFF_MASK : Z := 8191.
Definition HE_FRAG_TTL : Z := 64.
Definition HE_AUTH_STATUS_SUCCESS : Z := 0.
Definition HE_AUTH_STATUS_FAILURE : Z := 1.
Definition HE_WOLF_MAX_HEADER_SIZE : Z := 37.
Definition HE_IPV4_HEADER_SIZE : Z := 20.
Definition HE_TCP_HEADER_SIZE : Z := 20.
Definition HE_UDP_HEADER_SIZE : Z := 8.
Definition HE_HEADER_SAFE_GAP : Z := 28.
Definition HE_PACKET_OVERHEAD : Z :=
  sizeof_deprecated_13 + sizeof_wire_hdr + HE_IPV4_HEADER_SIZE + HE_UDP_HEADER_SIZE +
  HE_WOLF_MAX_HEADER_SIZE + HE_HEADER_SAFE_GAP.
Definition HE_MSS_OVERHEAD : Z := HE_IPV4_HEADER_SIZE + HE_TCP_HEADER_SIZE.

(** src/he/pmtud.h:33-59 *)
Definition MAX_PROBES : Z := 3.
Definition MIN_PLPMTU : Z := 512.
Definition MAX_PLPMTU : Z :=
  HE_MAX_WIRE_MTU - HE_IPV4_HEADER_SIZE - HE_UDP_HEADER_SIZE - sizeof_wire_hdr -
  HE_WOLF_MAX_HEADER_SIZE - sizeof_data.
Definition INITIAL_PLPMTU : Z := 1250.
Definition PMTUD_PROBE_TIMEOUT_MS : Z := 5000.
Definition PMTUD_PROBE_BIG_STEP : Z := 32.
Definition PMTUD_PROBE_SMALL_STEP : Z := 8.
Definition PMTUD_ERROR_RETRY_TIMEOUT_MS : Z := 60000.
Definition PMTUD_SUCCESSFUL_SEARCH_RETRY_TIMEOUT_MS : Z := 600000.

(** src/he/frag.h:31, src/he/conn.h:48-56, src/he/core.h *)
Definition MAX_FRAGMENT_ENTRIES : Z := 65536.
Definition HE_WOLF_TIMEOUT_MULTIPLIER : Z := 100.
Definition HE_WOLF_RENEGOTIATION_TIMEOUT_MULTIPLIER : Z := 100.
Definition HE_WOLF_QUICK_TIMEOUT_DIVIDER : Z := 4.
Definition HE_PACKET_SESSION_EMPTY : Z := 0.
Definition HE_PACKET_SESSION_REJECT : Z := 18446744073709551615.

(** wolfSSL constants used by the code (wolfssl/ssl.h, error-ssl.h, wolfio.h).
    wolfSSL is not part of /repo; only the pairwise distinctness of the error
    codes switched on together matters. *)
Definition SSL_SUCCESS : Z := 1.
Definition SSL_ERROR_NONE : Z := 0.
Definition SSL_ERROR_WANT_READ : Z := 2.
Definition SSL_ERROR_WANT_WRITE : Z := 3.
Definition APP_DATA_READY : Z := -441.
Definition SECURE_RENEGOTIATION_E : Z := -388.
Definition ASN_SIG_CONFIRM_E : Z := -155.
Definition DOMAIN_NAME_MISMATCH : Z := -322.
Definition MEMORY_E : Z := -125.
Definition BAD_FUNC_ARG : Z := -173.
Definition WOLFSSL_CBIO_ERR_GENERAL : Z := -1.
Definition WOLFSSL_CBIO_ERR_WANT_READ : Z := -2.
Definition DTLS1_2_VERSION : Z := 65277.
Definition DTLS1_3_VERSION : Z := 65276.
Definition TLS1_3_VERSION : Z := 772.
