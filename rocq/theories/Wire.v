(** The messages the library builds, as byte buffers (packed structs of
    src/he/he_internal.h:330-444 in host order unless htons is applied), and
    small pure helpers of the connection code. *)
From Verif Require Import Base Codes.

(** include/he.h he_wire_hdr_t, written by wolf.c:74-104
    he_internal_write_packet_header into a zeroed buffer [b]. *)
Definition write_packet_header (le : bool) (vmaj vmin : Z) (aggressive no_roaming : bool)
    (session pending : Z) (b : bytes) : res bytes :=
  do b <- st8 b 0 72;                                  (* 'H' *)
  do b <- st8 b 1 101;                                 (* 'e' *)
  do b <- st8 b 2 vmaj;
  do b <- st8 b 3 vmin;
  do b <- (if aggressive then st8 b 4 1 else Val b);
  sth64 le b 8
    (if negb no_roaming
     then (if negb (pending =? HE_PACKET_SESSION_EMPTY) then pending else session)
     else HE_PACKET_SESSION_REJECT).

(** conn.c:513-520, with [length = 0]; pmtud.c:60-73 with a payload: the ping in
    a zeroed buffer of [total] bytes. *)
Definition build_ping (le : bool) (total id payload : Z) : res bytes :=
  do b <- st8 (zeros total) 0 HE_MSGID_PING;
  do b <- sth16 le b 1 (htons le id);
  sth16 le b 3 (htons le payload).

(** msg_handlers.c:57-63; [id] is the raw (network order) field of the ping. *)
Definition build_pong (le : bool) (id : Z) : res bytes :=
  do b <- st8 (zeros sizeof_pong) 0 HE_MSGID_PONG;
  sth16 le b 1 id.

(** conn.c:490-496 *)
Definition build_goodbye : res bytes := st8 (zeros sizeof_goodbye) 0 HE_MSGID_GOODBYE.

(** msg_handlers.c:207-215 *)
Definition build_auth_response : res bytes :=
  do b <- st8 (zeros sizeof_auth_response) 0 HE_MSGID_AUTH_RESPONSE;
  st8 b 1 HE_AUTH_STATUS_SUCCESS.

(** conn.c:569-582: the whole buffer of HE_MAX_MTU bytes. *)
Definition build_server_config (le : bool) (data : bytes) : res bytes :=
  do b <- st8 (zeros HE_MAX_MTU) 0 HE_MSGID_SERVER_CONFIG;
  do b <- sth16 le b 1 (htons le (len data));
  stn b sizeof_server_config data.

(** conn.c:585-609.  [username], [password]: the 51-byte fields. *)
Definition build_auth_userpass (username password : bytes) : res bytes :=
  do b <- st8 (zeros sizeof_auth) 0 HE_MSGID_AUTH;
  do b <- st8 b 1 HE_AUTH_TYPE_USERPASS;
  do ul <- strnlen username HE_CONFIG_TEXT_FIELD_LENGTH;
  do pl <- strnlen password HE_CONFIG_TEXT_FIELD_LENGTH;
  do b <- st8 b 2 ul;
  do b <- st8 b 3 pl;
  do u <- ldn username 0 ul;
  do b <- stn b 4 u;
  do p <- ldn password 0 pl;
  stn b (4 + HE_CONFIG_TEXT_FIELD_LENGTH) p.

(** conn.c:619-640 ([bufsize] = HE_MAX_WIRE_MTU) and 648-667 ([bufsize] =
    HE_MAX_MTU): header, 16-bit length, the auth buffer. *)
Definition build_auth_buffer (le : bool) (bufsize auth_type : Z) (buf : bytes) (n : Z) : res bytes :=
  do b <- st8 (zeros bufsize) 0 HE_MSGID_AUTH;
  do b <- st8 b 1 auth_type;
  do b <- sth16 le b 2 (htons le n);
  do d <- ldn buf 0 n;
  stn b 4 d.

(** msg_handlers.c:318-352.  The three strings are the 24-byte fields the host's
    callback filled in. *)
Definition put_ipstr (b : bytes) (off : Z) (s : bytes) : res bytes :=
  do w <- strncpy_nat s (Z.to_nat HE_MAX_IPV4_STRING_LENGTH);
  do b <- stn b off w;
  st8 b (off + HE_MAX_IPV4_STRING_LENGTH - 1) 0.
Definition build_config_ipv4 (le : bool) (session : Z) (local peer dns : bytes) : res bytes :=
  do b <- st8 (zeros sizeof_config_ipv4) 0 HE_MSGID_CONFIG_IPV4;
  do b <- sth64 le b 97 session;
  do b <- put_ipstr b 1 local;
  do b <- put_ipstr b 25 peer;
  do b <- put_ipstr b 49 dns;
  do m <- strncpy_nat HE_MAX_MTU_STR (Z.to_nat HE_MAX_IPV4_STRING_LENGTH);
  stn b 73 m.

(** flow.c:106-127: the data message in a zeroed buffer of HE_MAX_WIRE_MTU
    bytes; version 1.0 leaves the length in host order. *)
Definition build_data (le : bool) (vmaj vmin : Z) (packet : bytes) : res bytes :=
  do b <- st8 (zeros HE_MAX_WIRE_MTU) 0 HE_MSGID_DATA;
  do b <- sth16 le b 1 (if (vmaj =? 1) && (vmin =? 0) then u16 (len packet) else htons le (u16 (len packet)));
  stn b sizeof_data packet.

(** conn.c:1083-1116 he_internal_calculate_data_packet_length *)
Definition data_packet_length (padding length : Z) : Z :=
  if HE_MAX_MTU <=? length then length
  else if padding =? HE_PADDING_NONE then length
  else if padding =? HE_PADDING_FULL then HE_MAX_MTU
  else if length <=? 450 then 450
  else if length <=? 900 then 900
  else HE_MAX_MTU.

(** msg_handlers.c:148-170: one string field of the configuration message, as
    copied to the host's structure. *)
Definition get_ipstr (pkt : bytes) (off : Z) : res bytes :=
  do s <- ldn pkt off HE_MAX_IPV4_STRING_LENGTH;
  do w <- strncpy_nat s (Z.to_nat HE_MAX_IPV4_STRING_LENGTH);
  do b <- stn (zeros HE_MAX_IPV4_STRING_LENGTH) 0 w;
  st8 b (HE_MAX_IPV4_STRING_LENGTH - 1) 0.

(** sscanf(s, "%u", &int) of msg_handlers.c:176 as glibc does it on a 64-bit
    host: white space, an optional sign, decimal digits; strtoul saturation;
    the result stored in a 32-bit int.  [None]: no conversion. *)
Definition is_space (b : Z) : bool := (b =? 32) || ((9 <=? b) && (b <=? 13)).
Definition is_digit (b : Z) : bool := (48 <=? b) && (b <=? 57).
Fixpoint skip_space (s : bytes) : bytes :=
  match s with
  | b :: t => if is_space b then skip_space t else s
  | [] => []
  end.
Fixpoint digits (s : bytes) (acc : option Z) : option Z :=
  match s with
  | b :: t => if is_digit b
              then digits t (Some (10 * match acc with Some a => a | None => 0 end + (b - 48)))
              else acc
  | [] => acc
  end.
Definition to_int32 (v : Z) : Z :=
  let w := v mod 4294967296 in if w <? 2147483648 then w else w - 4294967296.
Definition sscanf_u (s : bytes) : option Z :=
  let s := skip_space (cstr s) in
  let '(neg, s) := match s with
                   | 45 :: t => (true, t)
                   | 43 :: t => (false, t)
                   | _ => (false, s)
                   end in
  match digits s None with
  | None => None
  | Some v =>
    Some (to_int32 (if 18446744073709551615 <? v then 18446744073709551615
                    else if neg then - v else v))
  end.

(** msg_handlers.c:172-183: the MTU of the configuration. *)
Definition parse_mtu (field : bytes) : res Z :=
  do f <- st8 field (HE_MAX_IPV4_STRING_LENGTH - 1) 0;
  match sscanf_u f with
  | None => Val HE_MAX_MTU
  | Some v => if (v <=? 0) || (HE_MAX_MTU <? v) then Val HE_MAX_MTU else Val v
  end.

(** conn.c:35-83 he_conn_is_error_fatal *)
Definition is_error_fatal (ctype code : Z) : bool :=
  if ctype =? HE_CONNECTION_TYPE_STREAM then
    negb (existsb (Z.eqb code)
      [HE_SUCCESS; HE_ERR_SSL_ERROR_NONFATAL; HE_WANT_READ; HE_WANT_WRITE; HE_ERR_NOT_CONNECTED])
  else
    negb (existsb (Z.eqb code)
      [HE_SUCCESS; HE_ERR_INVALID_CONN_STATE; HE_ERR_SSL_ERROR_NONFATAL; HE_WANT_READ;
       HE_WANT_WRITE; HE_ERR_SECURE_RENEGOTIATION_ERROR; HE_ERR_NOT_CONNECTED;
       HE_ERR_EMPTY_PACKET; HE_ERR_PACKET_TOO_SMALL; HE_ERR_NOT_HE_PACKET;
       HE_ERR_UNSUPPORTED_PACKET_TYPE; HE_ERR_BAD_PACKET; HE_ERR_BAD_FRAGMENT;
       HE_ERR_UNKNOWN_SESSION]).
