(** The formats of packets and messages, as byte strings: what the peer's parser
    and an observer of the wire expect.  Independent of the code that builds
    them. *)
From Verif Require Import Base Codes.

(** A 16-bit field in network order. *)
Definition be16 (v : Z) : bytes := [v / 256; v mod 256].
(** A string in a field of [n] bytes, padded with NULs. *)
Definition padded (n : Z) (s : bytes) : bytes := s ++ zeros (n - len s).

(** The 16-byte header of a datagram: 'H' 'e', version, the duplicate flag, three
    reserved bytes, the session (in the sender's byte order). *)
Definition wire_header (le : bool) (major minor : Z) (aggressive : bool) (session : Z) : bytes :=
  [72; 101; major; minor; if aggressive then 1 else 0; 0; 0; 0] ++ bytes64 le session.

(** Messages. *)
Definition ping_message (id payload : Z) : bytes :=
  HE_MSGID_PING :: be16 id ++ be16 payload ++ zeros payload.
Definition pong_message (id : Z) : bytes := HE_MSGID_PONG :: be16 id ++ [0; 0].
Definition goodbye_message : bytes := [HE_MSGID_GOODBYE].
Definition auth_denied_message : bytes := HE_MSGID_AUTH_RESPONSE :: zeros 52.
Definition server_config_message (data : bytes) : bytes :=
  HE_MSGID_SERVER_CONFIG :: be16 (len data) ++ data.
Definition userpass_message (username password : bytes) : bytes :=
  [HE_MSGID_AUTH; HE_AUTH_TYPE_USERPASS; len username; len password] ++
  padded 50 username ++ padded 50 password.
Definition auth_buffer_message (auth_type : Z) (data : bytes) : bytes :=
  [HE_MSGID_AUTH; auth_type] ++ be16 (len data) ++ data.
Definition config_message (le : bool) (local peer dns : bytes) (session : Z) : bytes :=
  HE_MSGID_CONFIG_IPV4 :: padded 24 local ++ padded 24 peer ++ padded 24 dns ++
  padded 24 [49; 51; 53; 48] ++ bytes64 le session.
(** Protocol version 1.0 sends the length of a data message in the sender's byte
    order, later versions in network order. *)
Definition data_length_field (le : bool) (major minor n : Z) : bytes :=
  if (major =? 1) && (minor =? 0) then bytes16 le n else be16 n.
Definition data_message (le : bool) (major minor : Z) (packet : bytes) (pad : Z) : bytes :=
  HE_MSGID_DATA :: data_length_field le major minor (len packet) ++ packet ++ zeros pad.
(** Offset in units of 8 bytes, bit 13: more fragments. *)
Definition fragment_message (id offset : Z) (more : bool) (data : bytes) : bytes :=
  HE_MSGID_DATA_WITH_FRAG :: be16 (len data) ++ be16 id ++
  be16 (offset / 8 + (if more then 8192 else 0)) ++ data.
