(** Specifications of the properties of histories.  Everything is said in terms
    of the log: the calls of the host and their results, the callbacks and their
    results, the messages given to and obtained from wolfSSL, and the state
    he_conn_get_state reports at each moment. *)
From Verif Require Import Base Codes Ctx ConnState ConnSpec.

(** User data: a packet is delivered to the inside, or a message carrying one is
    given to wolfSSL for encryption. *)
Definition is_inside (e : ev) : bool := match e with EInside _ => true | _ => false end.
Definition is_data_type (ty : Z) : bool := (ty =? HE_MSGID_DATA) || (ty =? HE_MSGID_DATA_WITH_FRAG).
Definition is_data_send (e : ev) : bool := match e with EWOp (WSend m) => is_data_type (msg_type m) | _ => false end.
Definition user_data (e : ev) : bool := is_inside e || is_data_send e.

(** A connect call was left without a wolfSSL object: it was given a context that
    has not been started, or wolfSSL_new failed. *)
Definition tls_lost (e : ev) : bool :=
  match e with
  | EAsk QWolfNew r => r =? 0
  | ECall (OClientConnect x _ _) | ENest (OClientConnect x _ _)
  | ECall (OServerConnect x _ _) | ENest (OServerConnect x _ _) => negb (x_wolf x)
  | _ => false
  end.

(** Since the last connect call that returned success. *)
Definition since_connect (t : trace) : trace := upto connected_ok t.

(** In [t], an authentication callback accepted and later
    populate_network_config_ipv4_cb succeeded. *)
Definition authenticated (t : trace) : Prop :=
  exists later s e earlier,
    t = later ++ (s, e) :: earlier /\ populate_ok e = true /\ has auth_accepted_ev earlier = true.

(** In [t], a CONFIG_IPV4 message arrived and later network_config_ipv4_cb accepted it. *)
Definition configured (t : trace) : Prop :=
  exists later s e earlier,
    t = later ++ (s, e) :: earlier /\ netcfg_ok e = true /\ has (received HE_MSGID_CONFIG_IPV4) earlier = true.

Definition is_state_ev (e : ev) : bool := match e with EState _ => true | _ => false end.

(** The order in which a connection goes through its states. *)
Definition next_state_ok (from to : Z) : bool :=
  if to =? HE_STATE_CONNECTING then true
  else if to =? HE_STATE_LINK_UP then from =? HE_STATE_CONNECTING
  else if to =? HE_STATE_AUTHENTICATING then from =? HE_STATE_LINK_UP
  else if to =? HE_STATE_CONFIGURING then from =? HE_STATE_AUTHENTICATING
  else if to =? HE_STATE_ONLINE then
    negb (from =? HE_STATE_DISCONNECTING) && negb (from =? HE_STATE_DISCONNECTED)
  else if to =? HE_STATE_DISCONNECTING then negb (from =? HE_STATE_DISCONNECTED)
  else to =? HE_STATE_DISCONNECTED.

(** The calls during which each state may be entered. *)
Definition state_call_ok (to : Z) (o : op) : bool :=
  if to =? HE_STATE_CONNECTING then is_connect_op o
  else if to =? HE_STATE_ONLINE then match o with OOutside _ => true | _ => false end
  else if to =? HE_STATE_DISCONNECTING then match o with OOutside _ | ODisconnect => true | _ => false end
  else if to =? HE_STATE_DISCONNECTED then match o with ONudge | ODisconnect => true | _ => false end
  else true.

Definition first_message (e : ev) : bool :=
  match e with EEvent v => v =? HE_EVENT_FIRST_MESSAGE_RECEIVED | _ => false end.

(** nudge_time_cb and he_conn_nudge *)
Definition timer_set (e : ev) : bool := match e with ENudge _ => true | _ => false end.
Definition timer_fired (e : ev) : bool := match e with ECall ONudge | ENest ONudge => true | _ => false end.

(** A timer was asked for and has not fired. *)
Definition outstanding (t : trace) : bool := has timer_set (upto timer_fired t).

(** Renegotiation events: the last one announced. *)
Definition reneg_event (e : ev) : bool :=
  match e with EEvent v => (v =? HE_EVENT_SECURE_RENEGOTIATION_STARTED) || (v =? HE_EVENT_SECURE_RENEGOTIATION_COMPLETED)
             | _ => false end.
Fixpoint last_reneg (t : trace) : option Z :=
  match t with
  | [] => None
  | (_, EEvent v) :: p => if reneg_event (EEvent v) then Some v else last_reneg p
  | _ :: p => last_reneg p
  end.

(** Anything a disconnected connection must not do. *)
Definition active (e : ev) : bool :=
  match e with
  | EInside _ | EOutside _ | EState _ | EEvent _ | ENetCfg _ _ _ _ | ESrvCfg _
  | EAuthUser _ _ | EAuthToken _ | EAuthBuf _ _ | EPopulate | EWOp (WSend _) => true
  | _ => false
  end.
(** he_conn_disconnect has succeeded and no connect call was made since. *)
Definition is_disconnected (t : trace) : bool := has disconnected_ok (upto connect_call t).
