(** Vocabulary of C30 with a host that also makes calls inside callbacks: answers to pings. *)
From Verif Require Import Base Codes Ctx ConnState ConnSpec WireSpec MsgSpec CallSpec.

(** The id of the ping that has just been received while ONLINE. *)
Definition pinged (past : trace) : option Z :=
  match past with
  | (s, EWEnd WRecv r _ m) :: _ => if (0 <? r) && (s =? HE_STATE_ONLINE) && is_ping m then Some (field16 m 1) else None
  | _ => None
  end.
(** It is answered by what comes next. *)
Definition answered (e : ev) (past : trace) : Prop :=
  forall id, pinged past = Some id -> e = EWOp (WSend (pong_message id)).
(** And a pong is sent only to answer. *)
Definition answers (e : ev) (past : trace) : Prop :=
  forall m, e = EWOp (WSend m) -> msg_type m = HE_MSGID_PONG -> exists id, pinged past = Some id /\ m = pong_message id.
