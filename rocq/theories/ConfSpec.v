(** Vocabulary for C16: configuration on its way from the server's host to the
    client's host. *)
From Verif Require Import Base Codes Ctx MssSpec WireSpec MsgSpec ConnState Conn ConnSpec CallSpec.

(** What fits of a C string into a field of 24 bytes with its NUL. *)
Definition fit (s : bytes) : bytes := firstn 23 (cstr s).

(** ** The server's side *)
(** What the host's populate_network_config_ipv4_cb leaves in the structure it is
    given, what it returns, and configuration messages given to wolfSSL. *)
Inductive offer : Type :=
| Host (local peer dns : bytes)
| HostCode (rc : Z)
| Reply (m : bytes).
Definition offering (s : Z) (e : ev) : list offer :=
  match e with
  | ECfg l p d => [Host l p d]
  | ECbRet KPopulate v => [HostCode v]
  | EWOp (WSend m) => if msg_type m =? HE_MSGID_CONFIG_IPV4 then [Reply m] else []
  | _ => []
  end.
(** Each time the host is asked and answers with success, exactly its answer and the
    session go out, and nothing else ever does. *)
Inductive offers (le : bool) (session : Z) : list offer -> Prop :=
| offers_none : offers le session []
| offers_sent l p d rest : offers le session rest ->
    offers le session (Host l p d :: HostCode HE_SUCCESS ::
      Reply (config_message le (fit l) (fit p) (fit d) session) :: rest)
| offers_failed l p d v rest : v <> HE_SUCCESS -> offers le session rest ->
    offers le session (Host l p d :: HostCode v :: rest).

(** ** The client's side *)
(** What the callbacks network_config_ipv4_cb and server_config_cb are told. *)
Inductive configured : Type :=
| NetCfg (local peer dns : bytes) (mtu : Z)
| SrvCfg (b : bytes).
Definition configuring (s : Z) (e : ev) : list configured :=
  match e with
  | ENetCfg l p d mtu => [NetCfg l p d mtu]
  | ESrvCfg b => [SrvCfg b]
  | _ => []
  end.

(** Decimal numbers. *)
Definition decimal_digit (b : Z) : Prop := 48 <= b <= 57.
Definition decimal (s : bytes) : Z := fold_left (fun v b => 10 * v + (b - 48)) s 0.
(** The MTU told for the text in [field]: a valid one, and the one in the text if
    that is a valid number. *)
Definition mtu_told (field : bytes) (mtu : Z) : Prop :=
  1 <= mtu <= 1350 /\
  (fit field <> [] -> Forall decimal_digit (fit field) -> 1 <= decimal (fit field) <= 1350 -> mtu = decimal (fit field)).

Definition ready_for_server_config (s : Z) : bool :=
  (s =? HE_STATE_LINK_UP) || (s =? HE_STATE_AUTHENTICATING) || (s =? HE_STATE_CONFIGURING) || (s =? HE_STATE_ONLINE).
(** What message [m], received in state [s], makes a client with callbacks [k] tell. *)
Definition tells (k : cbs) (x : Z * bytes) (l : list configured) : Prop :=
  let (s, m) := x in
  if (msg_type m =? HE_MSGID_CONFIG_IPV4) && (s =? HE_STATE_AUTHENTICATING) && (105 <=? len m) && cb_netcfg k then
    exists mtu, mtu_told (slice m 73 24) mtu /\
      l = [NetCfg (padded 24 (fit (slice m 1 24))) (padded 24 (fit (slice m 25 24))) (padded 24 (fit (slice m 49 24))) mtu]
  else if (msg_type m =? HE_MSGID_SERVER_CONFIG) && ready_for_server_config s && (3 <=? len m) && (3 + field16 m 1 <=? len m) && cb_srvcfg k then
    l = [SrvCfg (slice m 3 (field16 m 1))]
  else l = [].
