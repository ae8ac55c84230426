(** Vocabulary for C49: using a connection again. *)
From Verif Require Import Base Codes Ctx ConnState ConnSpec CallSpec.

(** What a connect gets from its arguments: the role, the plugin chains and the
    settings of the context (roaming, padding, aggressive mode, post-quantum key
    share, kind of connection, callbacks). *)
Definition from_call (c : conn) :=
  (c_is_server c, c_in_chain c, c_out_chain c, (c_no_roam c, c_padding c, c_aggr c, c_pqc c, c_ctype c, c_io c, c_cbs c)).
Definition from_context (server : bool) (x : ctx) (i o : chain) :=
  (server, i, o, (x_no_roaming x, x_padding x, x_aggressive x, x_pqc x, x_type x, x_io x, x_cbs x)).
(** What the host has set on the connection: credentials, server name, MTU. *)
Definition from_host (c : conn) :=
  (c_auth_type c, c_username c, c_password c, c_sni c, c_auth_buf c, c_auth_len c, c_mtu c).
(** The protocol version: that of the context unless there is one already. *)
Definition version_after (x : ctx) (c : conn) : Z * Z :=
  if c_vmaj c =? 0 then (u8 (x_max_major x), u8 (x_max_minor x)) else (c_vmaj c, c_vmin c).

(** What belongs to a session: the pending session id, whether a first message was
    reported, the renegotiation under way or due, the id of the keepalive whose
    answer is awaited, the path MTU and its discovery. *)
Definition of_session (c : conn) := (c_pending c, c_first c, (c_prog c, c_due c), c_ping_pend c, c_pm c).
