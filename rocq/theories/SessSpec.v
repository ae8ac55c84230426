(** Vocabulary for C22: session identifiers. *)
From Verif Require Import Base Codes Ctx ConnState ConnSpec WireSpec MsgSpec CallSpec.

(** The two identifiers of a connection (he_conn_get_session_id, he_conn_get_pending_session_id): the one in use and the one a server has
    announced (0: none). *)
Definition ids (w : world) : Z * Z := (c_session (w_c w), c_pending (w_c w)).
(** Numbers the random number generator gave. *)
Definition drawn (s : Z) (e : ev) : list Z := match e with EAsk QRngValue v => [v mod 2 ^ 64] | _ => [] end.
(** The host is told that a pending session was acknowledged. *)
Definition ack_event (s : Z) (e : ev) : list Z :=
  match e with EEvent v => if v =? HE_EVENT_PENDING_SESSION_ACKNOWLEDGED then [v] else [] | _ => [] end.

(** The session a decrypted message announces to a client: a complete IPv4
    configuration that arrives in state AUTHENTICATING, bytes 97-104. *)
Definition told (le : bool) (x : Z * bytes) : list Z :=
  let '(s, m) := x in
  if (s =? HE_STATE_AUTHENTICATING) && (msg_type m =? HE_MSGID_CONFIG_IPV4) && (105 <=? len m)
  then [host64 le (slice m 97 8)] else [].
(** The session after messages [ms]: servers do not listen. *)
Definition session_after (le server : bool) (old : Z) (ms : list (Z * bytes)) : Z :=
  if server then old else last (flat_map (told le) ms) old.

(** A packet whose header carries session [h] reaches a connection with
    identifiers [s] and [p]: the result, the new identifiers, is there an event. *)
Definition packet_session (server : bool) (s p h : Z) : Z * (Z * Z) * bool :=
  if h =? 0 then (HE_SUCCESS, (s, p), false)
  else if server then
    if h =? s then (HE_SUCCESS, (s, p), false)
    else if h =? p then (HE_SUCCESS, (p, 0), true)
    else (HE_ERR_UNKNOWN_SESSION, (s, p), false)
  else (HE_SUCCESS, (h, p), false).
(** The session in a packet's header; streams have no header. *)
Definition header_session (le : bool) (c : conn) (d : bytes) : Z :=
  if c_ctype c =? HE_CONNECTION_TYPE_DATAGRAM then host64 le (slice d 8 8) else 0.
