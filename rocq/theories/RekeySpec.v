(** Rekeying on request ([he_conn_schedule_renegotiation]), in terms of what wolfSSL
    is asked and answers and of what the host is told. *)
From Verif Require Import Base Codes Ctx ConnState ConnSpec HistSpec.

(** wolfSSL has handed over everything it had: a read that gives nothing and says
    that nothing is wrong, or that it needs the network. *)
Definition drained (e : ev) : bool :=
  match e with
  | EWEnd WRecv r err _ => (r <=? 0) && ((err =? SSL_ERROR_NONE) || (err =? SSL_ERROR_WANT_READ) || (err =? SSL_ERROR_WANT_WRITE))
  | _ => false
  end.
(** The host has asked for new keys and there has been no such moment since. *)
Fixpoint requested (t : trace) : bool :=
  match t with
  | [] => false
  | (_, ERet OScheduleReneg _) :: _ => true
  | (_, e) :: past => if drained e then false else requested past
  end.

(** What is looked at: those moments with the state at the time; wolfSSL asked
    whether it can renegotiate, told to begin ([WRehandshake]: renegotiation of
    DTLS 1.2, [WUpdateKeys]: key update of 1.3) with its answer, asked to go on with
    the key update ([Updated]) and whether there is still something to do
    ([Still]); and the two events. *)
Inductive item :=
| Drained (s : Z) | Support (r : Z) | Begun (o : wop) (r err : Z) | Updated (rc : Z) | Still (p : Z) | Told (v : Z).
Definition rekey (s : Z) (e : ev) : list item :=
  match e with
  | EWEnd WRecv _ _ _ => if drained e then [Drained s] else []
  | EAsk QRenegSupport r => [Support r]
  | EWEnd WRehandshake r err _ => [Begun WRehandshake r err]
  | EWEnd WUpdateKeys r err _ => [Begun WUpdateKeys r err]
  | EAsk QKeyUpdate rc => [Updated rc]
  | EAsk QRenegPending p | EAsk QKeyUpdatePending p => [Still p]
  | EEvent v => if (v =? HE_EVENT_SECURE_RENEGOTIATION_STARTED) || (v =? HE_EVENT_SECURE_RENEGOTIATION_COMPLETED) then [Told v] else []
  | _ => []
  end.

Section S.
(** [k]: the host has event_cb. *)
Variable k : bool.
Definition told (v : Z) : list item := if k then [Told v] else [].
Definition begin_code (r err : Z) : Z :=
  if (r =? SSL_SUCCESS) || (err =? SSL_ERROR_NONE) || (err =? SSL_ERROR_WANT_READ) || (err =? SSL_ERROR_WANT_WRITE) || (err =? APP_DATA_READY)
  then HE_SUCCESS
  else if err =? SECURE_RENEGOTIATION_E then HE_ERR_SECURE_RENEGOTIATION_ERROR else HE_ERR_SSL_ERROR.
(** Beginning: [began started rc l]. *)
Inductive began : bool -> Z -> list item -> Prop :=
| cannot : began false HE_SUCCESS [Support 0]
| rehandshake sup r err : sup <> 0 ->
  began true (begin_code r err) (Support sup :: Begun WRehandshake r err :: told HE_EVENT_SECURE_RENEGOTIATION_STARTED)
| new_keys r err : began true (begin_code r err) (Begun WUpdateKeys r err :: told HE_EVENT_SECURE_RENEGOTIATION_STARTED).
(** Looking whether it is over: [ends rc l]. *)
Definition if_over (p : Z) : list item := if p =? 0 then told HE_EVENT_SECURE_RENEGOTIATION_COMPLETED else [].
Inductive ends : Z -> list item -> Prop :=
| rehandshaken p : ends HE_SUCCESS (Still p :: if_over p)
| keys_updated p : ends HE_SUCCESS (Updated 0 :: Still p :: if_over p)
| keys_failed rc p : rc <> 0 -> ends HE_ERR_SSL_ERROR [Updated rc; Still p].
(** What follows the moment when wolfSSL has nothing more, with its code: if a
    rekeying is going on, a look whether it is over; if not and there is a request
    and the connection is ONLINE, the beginning and, if that did not fail, the same
    look; otherwise nothing. *)
Definition settles (asked busy online : bool) (rc : Z) (l : list item) : Prop :=
  if busy then ends rc l
  else if asked && online then
    exists started c l1 l2, began started c l1 /\ l = l1 ++ l2 /\
      (if started && (c =? HE_SUCCESS) then ends rc l2 else rc = c /\ l2 = [])
  else rc = HE_SUCCESS /\ l = [].
End S.

(** The version wolfSSL last gave. *)
Fixpoint last_version (t : trace) : option Z :=
  match t with
  | [] => None
  | (_, EAsk QVersion v) :: _ => Some v
  | _ :: past => last_version past
  end.
(** Renegotiation is for DTLS 1.2 alone, key updates for everything else. *)
Definition right_method (e : ev) (past : trace) : Prop :=
  match e with
  | EAsk QRenegSupport _ | EWEnd WRehandshake _ _ _ | EAsk QRenegPending _ => last_version past = Some DTLS1_2_VERSION
  | EWEnd WUpdateKeys _ _ _ | EAsk QKeyUpdate _ | EAsk QKeyUpdatePending _ => exists v, last_version past = Some v /\ v <> DTLS1_2_VERSION
  | _ => True
  end.
