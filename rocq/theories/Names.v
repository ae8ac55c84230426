(** Model of the name functions of src/he/utils.c and, separately, the
    enumerations they name, both transcribed by script from the sources. *)
From Coq Require Import String.
From Verif Require Import Base Codes.

(** A switch of DEFCASE lines: the first case whose constant equals the value
    returns the constant's spelling; falling through returns the default. *)
Fixpoint switch (cases : list (Z * string)) (dflt : string) (v : Z) : string :=
  match cases with
  | [] => dflt
  | (c, s) :: t => if v =? c then s else switch t dflt v
  end.

(** include/he.h:68-199: the declared constants of he_return_code_t. *)
Definition return_code_decl : list (Z * string) :=
  [ (HE_SUCCESS, "HE_SUCCESS"%string);
    (HE_ERR_STRING_TOO_LONG, "HE_ERR_STRING_TOO_LONG"%string);
    (HE_ERR_EMPTY_STRING, "HE_ERR_EMPTY_STRING"%string);
    (HE_ERR_INVALID_CONN_STATE, "HE_ERR_INVALID_CONN_STATE"%string);
    (HE_ERR_NULL_POINTER, "HE_ERR_NULL_POINTER"%string);
    (HE_ERR_EMPTY_PACKET, "HE_ERR_EMPTY_PACKET"%string);
    (HE_ERR_PACKET_TOO_SMALL, "HE_ERR_PACKET_TOO_SMALL"%string);
    (HE_ERR_ZERO_SIZE, "HE_ERR_ZERO_SIZE"%string);
    (HE_ERR_NEGATIVE_NUMBER, "HE_ERR_NEGATIVE_NUMBER"%string);
    (HE_ERR_INIT_FAILED, "HE_ERR_INIT_FAILED"%string);
    (HE_ERR_NO_MEMORY, "HE_ERR_NO_MEMORY"%string);
    (HE_ERR_NOT_HE_PACKET, "HE_ERR_NOT_HE_PACKET"%string);
    (HE_ERR_SSL_BAD_FILETYPE, "HE_ERR_SSL_BAD_FILETYPE"%string);
    (HE_ERR_SSL_BAD_FILE, "HE_ERR_SSL_BAD_FILE"%string);
    (HE_ERR_SSL_OUT_OF_MEMORY, "HE_ERR_SSL_OUT_OF_MEMORY"%string);
    (HE_ERR_SSL_ASN_INPUT, "HE_ERR_SSL_ASN_INPUT"%string);
    (HE_ERR_SSL_BUFFER, "HE_ERR_SSL_BUFFER"%string);
    (HE_ERR_SSL_CERT, "HE_ERR_SSL_CERT"%string);
    (HE_ERR_SSL_ERROR, "HE_ERR_SSL_ERROR"%string);
    (HE_ERR_CONF_USERNAME_NOT_SET, "HE_ERR_CONF_USERNAME_NOT_SET"%string);
    (HE_ERR_CONF_PASSWORD_NOT_SET, "HE_ERR_CONF_PASSWORD_NOT_SET"%string);
    (HE_ERR_CONF_CA_NOT_SET, "HE_ERR_CONF_CA_NOT_SET"%string);
    (HE_ERR_CONF_MTU_NOT_SET, "HE_ERR_CONF_MTU_NOT_SET"%string);
    (HE_WANT_READ, "HE_WANT_READ"%string);
    (HE_WANT_WRITE, "HE_WANT_WRITE"%string);
    (HE_ERR_CONF_OUTSIDE_WRITE_CB_NOT_SET, "HE_ERR_CONF_OUTSIDE_WRITE_CB_NOT_SET"%string);
    (HE_ERR_CONNECT_FAILED, "HE_ERR_CONNECT_FAILED"%string);
    (HE_CONNECTION_TIMED_OUT, "HE_CONNECTION_TIMED_OUT"%string);
    (HE_ERR_NOT_CONNECTED, "HE_ERR_NOT_CONNECTED"%string);
    (HE_ERR_UNSUPPORTED_PACKET_TYPE, "HE_ERR_UNSUPPORTED_PACKET_TYPE"%string);
    (HE_ERR_CONNECTION_WAS_CLOSED, "HE_ERR_CONNECTION_WAS_CLOSED"%string);
    (HE_ERR_BAD_PACKET, "HE_ERR_BAD_PACKET"%string);
    (HE_ERR_CALLBACK_FAILED, "HE_ERR_CALLBACK_FAILED"%string);
    (HE_ERR_FAILED, "HE_ERR_FAILED"%string);
    (HE_ERR_SERVER_DN_MISMATCH, "HE_ERR_SERVER_DN_MISMATCH"%string);
    (HE_ERR_CANNOT_VERIFY_SERVER_CERT, "HE_ERR_CANNOT_VERIFY_SERVER_CERT"%string);
    (HE_ERR_NEVER_CONNECTED, "HE_ERR_NEVER_CONNECTED"%string);
    (HE_ERR_INVALID_MTU_SIZE, "HE_ERR_INVALID_MTU_SIZE"%string);
    (HE_ERR_CLEANUP_FAILED, "HE_ERR_CLEANUP_FAILED"%string);
    (HE_ERR_REJECTED_SESSION, "HE_ERR_REJECTED_SESSION"%string);
    (HE_ERR_ACCESS_DENIED, "HE_ERR_ACCESS_DENIED"%string);
    (HE_ERR_PACKET_TOO_LARGE, "HE_ERR_PACKET_TOO_LARGE"%string);
    (HE_ERR_INACTIVITY_TIMEOUT, "HE_ERR_INACTIVITY_TIMEOUT"%string);
    (HE_ERR_POINTER_WOULD_OVERFLOW, "HE_ERR_POINTER_WOULD_OVERFLOW"%string);
    (HE_ERR_INVALID_CONNECTION_TYPE, "HE_ERR_INVALID_CONNECTION_TYPE"%string);
    (HE_ERR_RNG_FAILURE, "HE_ERR_RNG_FAILURE"%string);
    (HE_ERR_CONF_AUTH_CB_NOT_SET, "HE_ERR_CONF_AUTH_CB_NOT_SET"%string);
    (HE_ERR_PLUGIN_DROP, "HE_ERR_PLUGIN_DROP"%string);
    (HE_ERR_UNKNOWN_SESSION, "HE_ERR_UNKNOWN_SESSION"%string);
    (HE_ERR_SSL_ERROR_NONFATAL, "HE_ERR_SSL_ERROR_NONFATAL"%string);
    (HE_ERR_INCORRECT_PROTOCOL_VERSION, "HE_ERR_INCORRECT_PROTOCOL_VERSION"%string);
    (HE_ERR_CONF_CONFLICTING_AUTH_METHODS, "HE_ERR_CONF_CONFLICTING_AUTH_METHODS"%string);
    (HE_ERR_ACCESS_DENIED_NO_AUTH_BUF_HANDLER, "HE_ERR_ACCESS_DENIED_NO_AUTH_BUF_HANDLER"%string);
    (HE_ERR_ACCESS_DENIED_NO_AUTH_USERPASS_HANDLER, "HE_ERR_ACCESS_DENIED_NO_AUTH_USERPASS_HANDLER"%string);
    (HE_ERR_SERVER_GOODBYE, "HE_ERR_SERVER_GOODBYE"%string);
    (HE_ERR_INVALID_AUTH_TYPE, "HE_ERR_INVALID_AUTH_TYPE"%string);
    (HE_ERR_ACCESS_DENIED_NO_AUTH_TOKEN_HANDLER, "HE_ERR_ACCESS_DENIED_NO_AUTH_TOKEN_HANDLER"%string);
    (HE_ERR_PMTUD_CALLBACKS_NOT_SET, "HE_ERR_PMTUD_CALLBACKS_NOT_SET"%string);
    (HE_ERR_BAD_FRAGMENT, "HE_ERR_BAD_FRAGMENT"%string);
    (HE_ERR_SECURE_RENEGOTIATION_ERROR, "HE_ERR_SECURE_RENEGOTIATION_ERROR"%string);
    (HE_ERR_CANNOT_ENABLE_CH_FRAG, "HE_ERR_CANNOT_ENABLE_CH_FRAG"%string) ].

(** utils.c:8-72 he_return_code_name *)
Definition return_code_cases : list (Z * string) :=
  [ (HE_SUCCESS, "HE_SUCCESS"%string);
    (HE_ERR_STRING_TOO_LONG, "HE_ERR_STRING_TOO_LONG"%string);
    (HE_ERR_EMPTY_STRING, "HE_ERR_EMPTY_STRING"%string);
    (HE_ERR_INVALID_CONN_STATE, "HE_ERR_INVALID_CONN_STATE"%string);
    (HE_ERR_NULL_POINTER, "HE_ERR_NULL_POINTER"%string);
    (HE_ERR_EMPTY_PACKET, "HE_ERR_EMPTY_PACKET"%string);
    (HE_ERR_PACKET_TOO_SMALL, "HE_ERR_PACKET_TOO_SMALL"%string);
    (HE_ERR_ZERO_SIZE, "HE_ERR_ZERO_SIZE"%string);
    (HE_ERR_NEGATIVE_NUMBER, "HE_ERR_NEGATIVE_NUMBER"%string);
    (HE_ERR_INIT_FAILED, "HE_ERR_INIT_FAILED"%string);
    (HE_ERR_NO_MEMORY, "HE_ERR_NO_MEMORY"%string);
    (HE_ERR_NOT_HE_PACKET, "HE_ERR_NOT_HE_PACKET"%string);
    (HE_ERR_SSL_BAD_FILETYPE, "HE_ERR_SSL_BAD_FILETYPE"%string);
    (HE_ERR_SSL_BAD_FILE, "HE_ERR_SSL_BAD_FILE"%string);
    (HE_ERR_SSL_OUT_OF_MEMORY, "HE_ERR_SSL_OUT_OF_MEMORY"%string);
    (HE_ERR_SSL_ASN_INPUT, "HE_ERR_SSL_ASN_INPUT"%string);
    (HE_ERR_SSL_BUFFER, "HE_ERR_SSL_BUFFER"%string);
    (HE_ERR_SSL_CERT, "HE_ERR_SSL_CERT"%string);
    (HE_ERR_SSL_ERROR, "HE_ERR_SSL_ERROR"%string);
    (HE_ERR_CONF_USERNAME_NOT_SET, "HE_ERR_CONF_USERNAME_NOT_SET"%string);
    (HE_ERR_CONF_PASSWORD_NOT_SET, "HE_ERR_CONF_PASSWORD_NOT_SET"%string);
    (HE_ERR_CONF_CA_NOT_SET, "HE_ERR_CONF_CA_NOT_SET"%string);
    (HE_ERR_CONF_MTU_NOT_SET, "HE_ERR_CONF_MTU_NOT_SET"%string);
    (HE_WANT_READ, "HE_WANT_READ"%string);
    (HE_WANT_WRITE, "HE_WANT_WRITE"%string);
    (HE_ERR_CONF_OUTSIDE_WRITE_CB_NOT_SET, "HE_ERR_CONF_OUTSIDE_WRITE_CB_NOT_SET"%string);
    (HE_ERR_CONNECT_FAILED, "HE_ERR_CONNECT_FAILED"%string);
    (HE_CONNECTION_TIMED_OUT, "HE_CONNECTION_TIMED_OUT"%string);
    (HE_ERR_NOT_CONNECTED, "HE_ERR_NOT_CONNECTED"%string);
    (HE_ERR_UNSUPPORTED_PACKET_TYPE, "HE_ERR_UNSUPPORTED_PACKET_TYPE"%string);
    (HE_ERR_CONNECTION_WAS_CLOSED, "HE_ERR_CONNECTION_WAS_CLOSED"%string);
    (HE_ERR_BAD_PACKET, "HE_ERR_BAD_PACKET"%string);
    (HE_ERR_CALLBACK_FAILED, "HE_ERR_CALLBACK_FAILED"%string);
    (HE_ERR_FAILED, "HE_ERR_FAILED"%string);
    (HE_ERR_SERVER_DN_MISMATCH, "HE_ERR_SERVER_DN_MISMATCH"%string);
    (HE_ERR_CANNOT_VERIFY_SERVER_CERT, "HE_ERR_CANNOT_VERIFY_SERVER_CERT"%string);
    (HE_ERR_NEVER_CONNECTED, "HE_ERR_NEVER_CONNECTED"%string);
    (HE_ERR_INVALID_MTU_SIZE, "HE_ERR_INVALID_MTU_SIZE"%string);
    (HE_ERR_CLEANUP_FAILED, "HE_ERR_CLEANUP_FAILED"%string);
    (HE_ERR_REJECTED_SESSION, "HE_ERR_REJECTED_SESSION"%string);
    (HE_ERR_ACCESS_DENIED, "HE_ERR_ACCESS_DENIED"%string);
    (HE_ERR_PACKET_TOO_LARGE, "HE_ERR_PACKET_TOO_LARGE"%string);
    (HE_ERR_INACTIVITY_TIMEOUT, "HE_ERR_INACTIVITY_TIMEOUT"%string);
    (HE_ERR_POINTER_WOULD_OVERFLOW, "HE_ERR_POINTER_WOULD_OVERFLOW"%string);
    (HE_ERR_INVALID_CONNECTION_TYPE, "HE_ERR_INVALID_CONNECTION_TYPE"%string);
    (HE_ERR_RNG_FAILURE, "HE_ERR_RNG_FAILURE"%string);
    (HE_ERR_CONF_AUTH_CB_NOT_SET, "HE_ERR_CONF_AUTH_CB_NOT_SET"%string);
    (HE_ERR_PLUGIN_DROP, "HE_ERR_PLUGIN_DROP"%string);
    (HE_ERR_UNKNOWN_SESSION, "HE_ERR_UNKNOWN_SESSION"%string);
    (HE_ERR_SSL_ERROR_NONFATAL, "HE_ERR_SSL_ERROR_NONFATAL"%string);
    (HE_ERR_INCORRECT_PROTOCOL_VERSION, "HE_ERR_INCORRECT_PROTOCOL_VERSION"%string);
    (HE_ERR_CONF_CONFLICTING_AUTH_METHODS, "HE_ERR_CONF_CONFLICTING_AUTH_METHODS"%string);
    (HE_ERR_ACCESS_DENIED_NO_AUTH_USERPASS_HANDLER, "HE_ERR_ACCESS_DENIED_NO_AUTH_USERPASS_HANDLER"%string);
    (HE_ERR_ACCESS_DENIED_NO_AUTH_BUF_HANDLER, "HE_ERR_ACCESS_DENIED_NO_AUTH_BUF_HANDLER"%string);
    (HE_ERR_SERVER_GOODBYE, "HE_ERR_SERVER_GOODBYE"%string);
    (HE_ERR_INVALID_AUTH_TYPE, "HE_ERR_INVALID_AUTH_TYPE"%string);
    (HE_ERR_ACCESS_DENIED_NO_AUTH_TOKEN_HANDLER, "HE_ERR_ACCESS_DENIED_NO_AUTH_TOKEN_HANDLER"%string);
    (HE_ERR_PMTUD_CALLBACKS_NOT_SET, "HE_ERR_PMTUD_CALLBACKS_NOT_SET"%string);
    (HE_ERR_BAD_FRAGMENT, "HE_ERR_BAD_FRAGMENT"%string);
    (HE_ERR_SECURE_RENEGOTIATION_ERROR, "HE_ERR_SECURE_RENEGOTIATION_ERROR"%string) ].
Definition he_return_code_name (v : Z) : string := switch return_code_cases "HE_ERR_UNKNOWN"%string v.

(** include/he.h:204-222: the declared constants of he_conn_state_t. *)
Definition conn_state_decl : list (Z * string) :=
  [ (HE_STATE_NONE, "HE_STATE_NONE"%string);
    (HE_STATE_DISCONNECTED, "HE_STATE_DISCONNECTED"%string);
    (HE_STATE_CONNECTING, "HE_STATE_CONNECTING"%string);
    (HE_STATE_DISCONNECTING, "HE_STATE_DISCONNECTING"%string);
    (HE_STATE_AUTHENTICATING, "HE_STATE_AUTHENTICATING"%string);
    (HE_STATE_LINK_UP, "HE_STATE_LINK_UP"%string);
    (HE_STATE_ONLINE, "HE_STATE_ONLINE"%string);
    (HE_STATE_CONFIGURING, "HE_STATE_CONFIGURING"%string) ].

(** utils.c:74-86 he_client_state_name *)
Definition conn_state_cases : list (Z * string) :=
  [ (HE_STATE_NONE, "HE_STATE_NONE"%string);
    (HE_STATE_DISCONNECTED, "HE_STATE_DISCONNECTED"%string);
    (HE_STATE_CONNECTING, "HE_STATE_CONNECTING"%string);
    (HE_STATE_DISCONNECTING, "HE_STATE_DISCONNECTING"%string);
    (HE_STATE_AUTHENTICATING, "HE_STATE_AUTHENTICATING"%string);
    (HE_STATE_LINK_UP, "HE_STATE_LINK_UP"%string);
    (HE_STATE_ONLINE, "HE_STATE_ONLINE"%string);
    (HE_STATE_CONFIGURING, "HE_STATE_CONFIGURING"%string) ].
Definition he_client_state_name (v : Z) : string := switch conn_state_cases "HE_STATE_UNKNOWN"%string v.

(** include/he.h:224-238: the declared constants of he_conn_event_t. *)
Definition conn_event_decl : list (Z * string) :=
  [ (HE_EVENT_FIRST_MESSAGE_RECEIVED, "HE_EVENT_FIRST_MESSAGE_RECEIVED"%string);
    (HE_EVENT_PONG, "HE_EVENT_PONG"%string);
    (HE_EVENT_REJECTED_FRAGMENTED_PACKETS_SENT_BY_HOST, "HE_EVENT_REJECTED_FRAGMENTED_PACKETS_SENT_BY_HOST"%string);
    (HE_EVENT_SECURE_RENEGOTIATION_STARTED, "HE_EVENT_SECURE_RENEGOTIATION_STARTED"%string);
    (HE_EVENT_SECURE_RENEGOTIATION_COMPLETED, "HE_EVENT_SECURE_RENEGOTIATION_COMPLETED"%string);
    (HE_EVENT_PENDING_SESSION_ACKNOWLEDGED, "HE_EVENT_PENDING_SESSION_ACKNOWLEDGED"%string) ].

(** utils.c:88-98 he_client_event_name *)
Definition conn_event_cases : list (Z * string) :=
  [ (HE_EVENT_FIRST_MESSAGE_RECEIVED, "HE_EVENT_FIRST_MESSAGE_RECEIVED"%string);
    (HE_EVENT_PONG, "HE_EVENT_PONG"%string);
    (HE_EVENT_REJECTED_FRAGMENTED_PACKETS_SENT_BY_HOST, "HE_EVENT_REJECTED_FRAGMENTED_PACKETS_SENT_BY_HOST"%string);
    (HE_EVENT_SECURE_RENEGOTIATION_STARTED, "HE_EVENT_SECURE_RENEGOTIATION_STARTED"%string);
    (HE_EVENT_SECURE_RENEGOTIATION_COMPLETED, "HE_EVENT_SECURE_RENEGOTIATION_COMPLETED"%string);
    (HE_EVENT_PENDING_SESSION_ACKNOWLEDGED, "HE_EVENT_PENDING_SESSION_ACKNOWLEDGED"%string) ].
Definition he_client_event_name (v : Z) : string := switch conn_event_cases "HE_EVENT_UNKNOWN"%string v.

(** include/he.h:266-275: the declared constants of he_connection_protocol_t. *)
Definition protocol_decl : list (Z * string) :=
  [ (HE_CONNECTION_PROTOCOL_NONE, "HE_CONNECTION_PROTOCOL_NONE"%string);
    (HE_CONNECTION_PROTOCOL_TLS_1_3, "HE_CONNECTION_PROTOCOL_TLS_1_3"%string);
    (HE_CONNECTION_PROTOCOL_DTLS_1_2, "HE_CONNECTION_PROTOCOL_DTLS_1_2"%string);
    (HE_CONNECTION_PROTOCOL_DTLS_1_3, "HE_CONNECTION_PROTOCOL_DTLS_1_3"%string) ].

(** utils.c:100-108 he_connection_protocol_name *)
Definition protocol_cases : list (Z * string) :=
  [ (HE_CONNECTION_PROTOCOL_NONE, "HE_CONNECTION_PROTOCOL_NONE"%string);
    (HE_CONNECTION_PROTOCOL_TLS_1_3, "HE_CONNECTION_PROTOCOL_TLS_1_3"%string);
    (HE_CONNECTION_PROTOCOL_DTLS_1_2, "HE_CONNECTION_PROTOCOL_DTLS_1_2"%string);
    (HE_CONNECTION_PROTOCOL_DTLS_1_3, "HE_CONNECTION_PROTOCOL_DTLS_1_3"%string) ].
Definition he_connection_protocol_name (v : Z) : string := switch protocol_cases "HE_CONNECTION_PROTOCOL_UNKNOWN"%string v.

(** include/he.h:281-312: the declared constants of he_pmtud_state_t. *)
Definition pmtud_state_decl : list (Z * string) :=
  [ (HE_PMTUD_STATE_DISABLED, "HE_PMTUD_STATE_DISABLED"%string);
    (HE_PMTUD_STATE_BASE, "HE_PMTUD_STATE_BASE"%string);
    (HE_PMTUD_STATE_SEARCHING, "HE_PMTUD_STATE_SEARCHING"%string);
    (HE_PMTUD_STATE_SEARCH_COMPLETE, "HE_PMTUD_STATE_SEARCH_COMPLETE"%string);
    (HE_PMTUD_STATE_ERROR, "HE_PMTUD_STATE_ERROR"%string) ].

(** utils.c:110-119 he_pmtud_state_name *)
Definition pmtud_state_cases : list (Z * string) :=
  [ (HE_PMTUD_STATE_DISABLED, "HE_PMTUD_STATE_DISABLED"%string);
    (HE_PMTUD_STATE_BASE, "HE_PMTUD_STATE_BASE"%string);
    (HE_PMTUD_STATE_SEARCHING, "HE_PMTUD_STATE_SEARCHING"%string);
    (HE_PMTUD_STATE_SEARCH_COMPLETE, "HE_PMTUD_STATE_SEARCH_COMPLETE"%string);
    (HE_PMTUD_STATE_ERROR, "HE_PMTUD_STATE_ERROR"%string) ].
Definition he_pmtud_state_name (v : Z) : string := switch pmtud_state_cases "HE_STATE_UNKNOWN"%string v.
