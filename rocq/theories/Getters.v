(** Model of the queries of conn.c (non-NULL connections; with NULL they return
    false, 0 or NULL). *)
From Verif Require Import Base Codes ConnState.

(** conn.c:964-971 he_conn_is_username_set, 983-990 he_conn_is_password_set *)
Definition is_username_set (c : conn) : bool := negb (nth 0 (c_username c) 0 =? 0).
Definition is_password_set (c : conn) : bool := negb (nth 0 (c_password c) 0 =? 0).
(** conn.c:1011-1018 he_conn_is_auth_token_set, 1040-1047 he_conn_is_auth_buffer_set *)
Definition is_auth_token_set (c : conn) : bool := (c_auth_type c =? HE_AUTH_TYPE_TOKEN) && negb (c_auth_len c =? 0).
Definition is_auth_buffer_set (c : conn) : bool := negb (c_auth_len c =? 0).
(** conn.c:1065-1081 he_conn_get_outside_mtu, he_conn_is_outside_mtu_set *)
Definition get_outside_mtu (c : conn) : Z := c_mtu c.
Definition is_outside_mtu_set (c : conn) : bool := 0 <? c_mtu c.
(** conn.c:1180-1197 he_conn_get_current_protocol; [v]: wolfSSL_version *)
Definition get_current_protocol (v : Z) (c : conn) : Z :=
  if negb (c_wolf c) then HE_CONNECTION_PROTOCOL_NONE
  else if v =? TLS1_3_VERSION then HE_CONNECTION_PROTOCOL_TLS_1_3
  else if v =? DTLS1_2_VERSION then HE_CONNECTION_PROTOCOL_DTLS_1_2
  else if v =? DTLS1_3_VERSION then HE_CONNECTION_PROTOCOL_DTLS_1_3
  else HE_CONNECTION_PROTOCOL_NONE.
(** conn.c:1169-1178 he_conn_get_current_cipher, 1199-1204 he_conn_get_curve_name:
    [r] is what wolfSSL names ([None]: NULL). *)
Definition get_name (r : option bytes) (c : conn) : option bytes := if negb (c_wolf c) then None else r.
(** conn.c:909-919 he_conn_supports_renegotiation; [v]: wolfSSL_version, [sup]:
    wolfSSL_SSL_get_secure_renegotiation_support. Unlike the other queries of the
    TLS session it does not test [wolf_ssl]; wolfSSL reads through the pointer. *)
Definition supports_renegotiation (v : Z) (sup : bool) (c : conn) : res bool :=
  if negb (c_wolf c) then Ub UB_null else Val (if v =? DTLS1_2_VERSION then sup else true).
(** conn.c:1138-1154 he_conn_get_session_id, he_conn_get_pending_session_id *)
Definition get_session_id (c : conn) : Z := c_session c.
Definition get_pending_session_id (c : conn) : Z := c_pending c.
