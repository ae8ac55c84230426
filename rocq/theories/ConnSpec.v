(** Vocabulary for statements about histories (the log of [ConnState.v]): what
    happened before, since when, how often.  Nothing here depends on how the
    connection code works. *)
From Verif Require Import Base Codes Ctx ConnState.

(** [P s e past] holds of every entry [(s, e)] of the log, [past] being what
    was logged before it. *)
Fixpoint every (P : Z -> ev -> trace -> Prop) (t : trace) : Prop :=
  match t with
  | [] => True
  | (s, e) :: past => P s e past /\ every P past
  end.

(** An event satisfying [f] has been logged. *)
Definition has (f : ev -> bool) (t : trace) : bool := existsb (fun x => f (snd x)) t.

(** How many. *)
Definition count (f : ev -> bool) (t : trace) : nat := length (filter (fun x => f (snd x)) t).

(** The part of the log after the most recent event satisfying [stop] (all of
    it if there is none). *)
Fixpoint upto (stop : ev -> bool) (t : trace) : trace :=
  match t with
  | [] => []
  | (s, e) :: past => if stop e then [] else (s, e) :: upto stop past
  end.

(** The part before the most recent event satisfying [f]. *)
Fixpoint before (f : ev -> bool) (t : trace) : trace :=
  match t with
  | [] => []
  | (_, e) :: past => if f e then past else before f past
  end.

(** The host's call being executed (or last executed). *)
Fixpoint last_call (t : trace) : option op :=
  match t with
  | [] => None
  | (_, ECall o) :: _ => Some o
  | _ :: past => last_call past
  end.

Definition is_call (e : ev) : bool := match e with ECall _ => true | _ => false end.
Definition is_nest (e : ev) : bool := match e with ENest _ => true | _ => false end.

(** The host has made an API call from inside a callback. *)
Definition re (t : trace) : bool := has is_nest t.

Definition is_client_op (o : op) : bool := match o with OClientConnect _ _ _ => true | _ => false end.
Definition is_server_op (o : op) : bool := match o with OServerConnect _ _ _ => true | _ => false end.
Definition is_connect_op (o : op) : bool := is_client_op o || is_server_op o.

(** he_conn_client_connect / he_conn_server_connect has been called (from
    outside or inside a callback). *)
Definition called (f : op -> bool) (e : ev) : bool :=
  match e with ECall o | ENest o => f o | _ => false end.
Definition client_call := called is_client_op.
Definition server_call := called is_server_op.
Definition connect_call := called is_connect_op.

(** A connect call of the host has returned success. *)
Definition connected_ok (e : ev) : bool :=
  match e with ERet o rc => is_connect_op o && (rc =? 0) | _ => false end.
(** he_conn_disconnect has returned success. *)
Definition disconnected_ok (e : ev) : bool :=
  match e with ERet ODisconnect rc => rc =? 0 | _ => false end.

(** wolfSSL_negotiate has reported success. *)
Definition negotiated (e : ev) : bool :=
  match e with EWEnd WNegotiate r _ _ => r =? SSL_SUCCESS | _ => false end.

(** One of the authentication callbacks accepted (returned non-zero). *)
Definition auth_accepted_ev (e : ev) : bool :=
  match e with ECbRet KAuth v => negb (v =? 0) | _ => false end.
(** One of the authentication callbacks is called. *)
Definition auth_asked_ev (e : ev) : bool :=
  match e with EAuthUser _ _ | EAuthToken _ | EAuthBuf _ _ => true | _ => false end.
(** populate_network_config_ipv4_cb returned HE_SUCCESS. *)
Definition populate_ok (e : ev) : bool :=
  match e with ECbRet KPopulate v => v =? HE_SUCCESS | _ => false end.
(** network_config_ipv4_cb returned HE_SUCCESS. *)
Definition netcfg_ok (e : ev) : bool :=
  match e with ECbRet KNetCfg v => v =? HE_SUCCESS | _ => false end.

(** wolfSSL_read returned the message [m] / a message of type [ty]. *)
Definition msg_type (m : bytes) : Z := nth 0 m 0.
Definition received (ty : Z) (e : ev) : bool :=
  match e with EWEnd WRecv r _ d => (0 <? r) && (msg_type d =? ty) | _ => false end.

(** Every context ever passed to a connect call satisfies [P]. *)
Fixpoint connects (P : ctx -> bool) (t : trace) : bool :=
  match t with
  | [] => true
  | (_, ECall (OClientConnect x _ _)) :: p | (_, ECall (OServerConnect x _ _)) :: p
  | (_, ENest (OClientConnect x _ _)) :: p | (_, ENest (OServerConnect x _ _)) :: p =>
    P x && connects P p
  | _ :: p => connects P p
  end.

(** The state last reported to state_change_cb. *)
Fixpoint reported (t : trace) : Z :=
  match t with
  | [] => HE_STATE_NONE
  | (_, EState s) :: _ => s
  | _ :: past => reported past
  end.
