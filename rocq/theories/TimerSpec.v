(** Timers: what the host is told, in terms of the answers of wolfSSL in the log. *)
From Verif Require Import Base Codes Ctx ConnState ConnSpec HistSpec.

(** wolfSSL has just been asked for its timeout [t], for the version and, unless
    that is DTLS 1.2, whether it wants a quick timeout.  [ms]: 100 times [t], a
    quarter of this (rounded towards 0) for a quick timeout. *)
Definition just_asked (past : trace) (ms : Z) : Prop :=
  match past with
  | (_, EAsk QQuickTimeout q) :: (_, EAsk QVersion v) :: (_, EAsk QTimeout t) :: _ =>
    v <> DTLS1_2_VERSION /\ ms = if q =? 0 then 100 * t else Z.quot (100 * t) 4
  | (_, EAsk QVersion v) :: (_, EAsk QTimeout t) :: _ => v = DTLS1_2_VERSION /\ ms = 100 * t
  | _ => False
  end.

(** The timeout last worked out that way; 0 before the first and after a
    successful [he_conn_disconnect]. *)
Fixpoint chosen (t : trace) : Z :=
  match t with
  | [] => 0
  | (_, EAsk QTimeout v) :: _ => 100 * v
  | (_, EAsk QQuickTimeout q) :: past => if q =? 0 then chosen past else Z.quot (chosen past) 4
  | (_, ERet ODisconnect rc) :: past => if rc =? 0 then 0 else chosen past
  | _ :: past => chosen past
  end.

(** wolfSSL has been told to renegotiate (DTLS 1.2) or to update its keys (1.3),
    and when last asked it was not finished. *)
Fixpoint renegotiating (t : trace) : bool :=
  match t with
  | [] => false
  | (_, EWEnd WRehandshake _ _ _) :: _ | (_, EWEnd WUpdateKeys _ _ _) :: _ => true
  | (_, EAsk QRenegPending p) :: _ => negb (p =? 0)
  | (_, EAsk QKeyUpdatePending p) :: past =>
    match past with
    | (_, EAsk QKeyUpdate rc) :: _ => if rc =? 0 then negb (p =? 0) else renegotiating past
    | _ => renegotiating past
    end
  | _ :: past => renegotiating past
  end.

(** The state is one in which the library waits for nothing of wolfSSL. *)
Definition settled (s : Z) : bool :=
  (s =? HE_STATE_ONLINE) || (s =? HE_STATE_DISCONNECTING) || (s =? HE_STATE_DISCONNECTED).
(** The last connect call returned success, its context has nudge_time_cb, and the
    connection has been neither ONLINE nor disconnected since. *)
Fixpoint handshaking (t : trace) : bool :=
  match t with
  | [] => false
  | (s, ERet (OClientConnect x _ _) rc) :: _ | (s, ERet (OServerConnect x _ _) rc) :: _ =>
    (rc =? 0) && cb_nudge (x_cbs x) && negb (settled s)
  | (s, _) :: past => negb (settled s) && handshaking past
  end.
