(** The state of a connection as a function of what has happened to it.
    Independent of the code. *)
From Verif Require Import Base Codes Ctx ConnState ConnSpec MsgSpec.

(** What may move a connection from one state to another: a handshake of wolfSSL
    is begun; it has succeeded; a decrypted message
    has arrived, in which state; the host's
    callbacks have judged a login, provided the configuration for a peer, or
    applied the configuration received. *)
Inductive milestone :=
| Negotiating
| Secured
| Message (at_state : Z) (m : bytes)
| Verdict (v : Z)
| Provided (rc : Z)
| Applied (rc : Z).
Definition milestones (s : Z) (e : ev) : list milestone :=
  match e with
  | EWOp WNegotiate => [Negotiating]
  | EWEnd WNegotiate r _ _ => if r =? SSL_SUCCESS then [Secured] else []
  | EWEnd WRecv r _ m => if 0 <? r then [Message s m] else []
  | ECbRet KAuth v => [Verdict v]
  | ECbRet KPopulate v => [Provided v]
  | ECbRet KNetCfg v => [Applied v]
  | _ => []
  end.

(** A host with the callbacks [k] has one that judges logins of this method. *)
Definition judges (k : cbs) (method : Z) : bool :=
  (method =? HE_AUTH_TYPE_USERPASS) && cb_auth k ||
  (method =? HE_AUTH_TYPE_TOKEN) && cb_authtok k ||
  (method =? HE_AUTH_TYPE_CB) && cb_authbuf k.
(** Logins that are denied without asking the host. *)
Definition denied_unasked (k : cbs) (m : bytes) : bool :=
  (msg_type m =? HE_MSGID_AUTH) && (2 <=? len m) && cb_populate k &&
  (cb_auth k || cb_authtok k || cb_authbuf k) && negb (judges k (nth 1 m 0)).
(** The message that tells a client which is logging in its configuration. *)
Definition configures (s : Z) (m : bytes) : bool :=
  (s =? HE_STATE_AUTHENTICATING) && (msg_type m =? HE_MSGID_CONFIG_IPV4) && (105 <=? len m).

(** The state after [x], if it was [s] before. *)
Definition moved (server : bool) (k : cbs) (s : Z) (x : milestone) : Z :=
  match x with
  | Negotiating => HE_STATE_CONNECTING
  | Secured => if server then HE_STATE_LINK_UP else HE_STATE_AUTHENTICATING
  | Message _ m =>
      if server then if denied_unasked k m then HE_STATE_DISCONNECTING else s
      else if configures s m then if cb_netcfg k then HE_STATE_CONFIGURING else HE_STATE_ONLINE else s
  | Verdict v => if v =? 0 then HE_STATE_DISCONNECTING else s
  | Provided rc => if rc =? 0 then HE_STATE_ONLINE else s
  | Applied rc => if rc =? 0 then HE_STATE_ONLINE else s
  end.
Definition moves (server : bool) (k : cbs) (l : list milestone) (s : Z) : Z := fold_left (moved server k) l s.

(** What must come next: at the start of a call a handshake may be begun or a
    message arrive; then a handshake is under way; or nothing in particular, or an
    answer of one of the host's callbacks. *)
Inductive due := AtStart | InHandshake | Nothing | AVerdict | AProvision | AnApplication.
(** A login the host is asked about: not refused (MsgSpec), by a method it judges. *)
Definition judged (k : cbs) (m : bytes) : bool :=
  (msg_type m =? HE_MSGID_AUTH) && match auth_refused k m with None => judges k (nth 1 m 0) | Some _ => false end.
Definition asked (server : bool) (k : cbs) (s : Z) (x : milestone) : due :=
  match x with
  | Negotiating => InHandshake
  | Message _ m =>
      if server then if judged k m then AVerdict else Nothing
      else if configures s m && cb_netcfg k then AnApplication else Nothing
  | Verdict v => if v =? 0 then Nothing else AProvision
  | _ => Nothing
  end.
(** Whether [x] may come in state [s]; [connecting]: in a call that connects. *)
Definition in_turn (connecting : bool) (s : Z) (q : due) (x : milestone) : bool :=
  match q, x with
  | AtStart, Negotiating => connecting || (s =? HE_STATE_CONNECTING)
  | AtStart, Message st _ | Nothing, Message st _ => (st =? s) && negb (s =? HE_STATE_CONNECTING)
  | InHandshake, Secured | AVerdict, Verdict _ | AProvision, Provided _ | AnApplication, Applied _ => true
  | _, _ => false
  end.
Definition quiet (q : due) : bool := match q with AtStart | InHandshake | Nothing => true | _ => false end.
(** The milestones of a call come in order, and every question is answered. *)
Fixpoint in_order (connecting server : bool) (k : cbs) (s : Z) (q : due) (l : list milestone) : bool :=
  match l with
  | [] => quiet q
  | x :: l => in_turn connecting s q x && in_order connecting server k (moved server k s x) (asked server k s x) l
  end.

Definition connects (o : op) : bool := match o with OClientConnect _ _ _ | OServerConnect _ _ _ => true | _ => false end.
(** The two calls by which the host leaves. *)
Definition leaves_by (o : op) (rc : Z) (s : Z) : Z :=
  match o with
  | ODisconnect => if rc =? HE_SUCCESS then HE_STATE_DISCONNECTED else s
  | ONudge => if rc =? HE_CONNECTION_TIMED_OUT then HE_STATE_DISCONNECTED else s
  | _ => s
  end.
(** What brings a connection ONLINE. *)
Definition brings_online (server : bool) (k : cbs) (x : milestone) : Prop :=
  match x with
  | Provided rc | Applied rc => rc = 0
  | Message _ m => server = false /\ cb_netcfg k = false /\ msg_type m = HE_MSGID_CONFIG_IPV4 /\ 105 <= len m
  | _ => False
  end.
(** The connection is over until it is connected again. *)
Definition over (s : Z) : Prop := s = HE_STATE_DISCONNECTING \/ s = HE_STATE_DISCONNECTED.
