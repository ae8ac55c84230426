(** Messages that must not have an effect, and what the call that reads them
    does.  Independent of the code. *)
From Verif Require Import Base Codes Ctx ConnState ConnSpec WireSpec.

(** The 16-bit field at [i] in network order; in little-endian order. *)
Definition field16 (m : bytes) (i : nat) : Z := nth i m 0 * 256 + nth (S i) m 0.
Definition field16le (m : bytes) (i : nat) : Z := nth i m 0 + nth (S i) m 0 * 256.

(** The states in which a client takes server configuration blobs. *)
Definition takes_server_config (s : Z) : bool :=
  (s =? HE_STATE_LINK_UP) || (s =? HE_STATE_AUTHENTICATING) || (s =? HE_STATE_CONFIGURING) || (s =? HE_STATE_ONLINE).

(** [no_effect client s m = Some code]: a message [m] that arrives in state [s]
    has no effect; [code] is HE_SUCCESS if it is ignored (the library goes on
    with the next message), otherwise the error the call returns at once.
    [client]: the connection has never been a server's.  [None]: it may have an
    effect. *)
Definition no_effect (client : bool) (s : Z) (m : bytes) : option Z :=
  let ty := msg_type m in
  let online := s =? HE_STATE_ONLINE in
  if ty =? HE_MSGID_GOODBYE then Some HE_ERR_SERVER_GOODBYE
  else if ty =? HE_MSGID_PING then
    if negb online then Some HE_ERR_INVALID_CONN_STATE
    else if len m <? 5 then Some HE_ERR_PACKET_TOO_SMALL
    else None
  else if ty =? HE_MSGID_PONG then
    if len m <? 5 then Some HE_SUCCESS else None
  else if ty =? HE_MSGID_DATA then
    if negb online then Some HE_ERR_INVALID_CONN_STATE
    else if len m <? 3 then Some HE_ERR_PACKET_TOO_SMALL
    else if (len m - 3 <? field16 m 1) && (len m - 3 <? field16le m 1) then Some HE_ERR_POINTER_WOULD_OVERFLOW
    else None
  else if ty =? HE_MSGID_DATA_WITH_FRAG then
    if negb online then Some HE_ERR_INVALID_CONN_STATE
    else if len m <? 7 then Some HE_ERR_PACKET_TOO_SMALL
    else if len m - 7 <? field16 m 1 then Some HE_ERR_POINTER_WOULD_OVERFLOW
    else if 1500 <? (field16 m 5 mod 8192) * 8 + field16 m 1 then Some HE_ERR_POINTER_WOULD_OVERFLOW
    else None
  else if ty =? HE_MSGID_DEPRECATED_13 then
    if negb online then Some HE_ERR_INVALID_CONN_STATE
    else if len m <? 5 then Some HE_ERR_PACKET_TOO_SMALL
    else if len m - 5 <? field16 m 1 then Some HE_ERR_POINTER_WOULD_OVERFLOW
    else None
  else if ty =? HE_MSGID_AUTH then
    if client then Some HE_SUCCESS else None
  else if ty =? HE_MSGID_AUTH_RESPONSE then
    if client then Some HE_ERR_ACCESS_DENIED else None
  else if ty =? HE_MSGID_CONFIG_IPV4 then
    if negb client then None
    else if online then Some HE_SUCCESS
    else if negb (s =? HE_STATE_AUTHENTICATING) then Some HE_ERR_INVALID_CONN_STATE
    else if len m <? 105 then Some HE_ERR_PACKET_TOO_SMALL
    else None
  else if ty =? HE_MSGID_SERVER_CONFIG then
    if negb client then None
    else if negb (takes_server_config s) then Some HE_ERR_INVALID_CONN_STATE
    else if len m <? 3 then Some HE_ERR_PACKET_TOO_SMALL
    else if len m - 3 <? field16 m 1 then Some HE_ERR_POINTER_WOULD_OVERFLOW
    else None
  else Some HE_SUCCESS.   (* NOOP, EXTENSION, AUTH_RESPONSE_WITH_CONFIG, unknown types *)

(** The log ends with wolfSSL_read having returned such a message. *)
Definition hot (t : trace) : option Z :=
  match t with
  | (s, EWEnd WRecv r _ m) :: past => if 0 <? r then no_effect (negb (has server_call past)) s m else None
  | _ => None
  end.

(** What must be logged next. *)
Definition reacts (code : Z) (e : ev) : bool :=
  if code =? HE_SUCCESS then match e with EWOp WRecv => true | _ => false end
  else match e with ERet (OOutside _) rc | ENestRet (OOutside _) rc => rc =? code | _ => false end.

(** ** The same for a server, in a single call *)
(** Why a server whose context has the callbacks [k] does not look at an AUTH
    message: it cannot answer, or the message is shorter than it says. *)
Definition auth_refused (k : cbs) (m : bytes) : option Z :=
  if negb (cb_populate k) || negb (cb_auth k || cb_authtok k || cb_authbuf k) then Some HE_ERR_INVALID_CONN_STATE
  else if len m <? 2 then Some HE_ERR_PACKET_TOO_SMALL
  else
    let method := nth 1 m 0 in
    let short := (len m <=? 4) || (len m <? 4 + field16 m 2) in
    if (method =? HE_AUTH_TYPE_USERPASS) && cb_auth k && (len m <? 104) ||
       (method =? HE_AUTH_TYPE_TOKEN) && cb_authtok k && short ||
       (method =? HE_AUTH_TYPE_CB) && cb_authbuf k && short
    then Some HE_ERR_PACKET_TOO_SMALL else None.
(** Messages without effect on a server: as above; AUTH messages that are
    refused; and what only a client takes is ignored. *)
Definition server_no_effect (k : cbs) (s : Z) (m : bytes) : option Z :=
  let ty := msg_type m in
  if ty =? HE_MSGID_AUTH then auth_refused k m
  else if (ty =? HE_MSGID_AUTH_RESPONSE) || (ty =? HE_MSGID_CONFIG_IPV4) || (ty =? HE_MSGID_SERVER_CONFIG) then Some HE_SUCCESS
  else no_effect false s m.
(** The log ends with wolfSSL_read having returned such a message. *)
Definition server_hot (k : cbs) (t : trace) : option Z :=
  match t with (s, EWEnd WRecv r _ m) :: _ => if 0 <? r then server_no_effect k s m else None | _ => None end.
