(** Vocabulary of C57: what becomes of a login once a callback has answered. *)
From Verif Require Import Base Codes Ctx ConnState ConnSpec WireSpec.

(** What an endpoint owes right after a callback has answered: an authentication
    callback that said yes (not 0) is followed by populate_network_config_ipv4_cb,
    one that said no by a rejection; populate_network_config_ipv4_cb itself by the
    configuration or, if it failed, by a rejection. *)
Inductive debt := Nothing | Rejection | Population | Configuration.
Definition owed (past : trace) : debt :=
  match past with
  | (_, ECbRet KAuth v) :: _ => if v =? 0 then Rejection else Population
  | (_, ECbRet KPopulate r) :: _ => if r =? HE_SUCCESS then Configuration else Rejection
  | _ => Nothing
  end.
(** An AUTH message has just been received (and no callback been asked about it). *)
Definition unasked (past : trace) : Prop :=
  exists s r err m t, past = (s, EWEnd WRecv r err m) :: t /\ 0 < r /\ msg_type m = HE_MSGID_AUTH.
(** What is owed is what comes next: nothing at all happens in between. *)
Definition paid (e : ev) (past : trace) : Prop :=
  match owed past with
  | Nothing => True
  | Rejection => e = EWOp (WSend auth_denied_message)
  | Population => e = EPopulate
  | Configuration => exists m, e = EWOp (WSend m) /\ msg_type m = HE_MSGID_CONFIG_IPV4
  end.
(** And nothing of this happens unless it is owed; only a login nobody was asked
    about is also rejected. *)
Definition due (e : ev) (past : trace) : Prop :=
  match e with
  | EPopulate => owed past = Population
  | EWOp (WSend m) =>
      (msg_type m = HE_MSGID_CONFIG_IPV4 -> owed past = Configuration) /\
      (msg_type m = HE_MSGID_AUTH_RESPONSE -> m = auth_denied_message /\ (owed past = Rejection \/ unasked past))
  | _ => True
  end.
