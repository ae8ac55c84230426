(** Vocabulary for C52: what the two ends of a tunnel know about each other. *)
From Verif Require Import Base Codes Ctx WireSpec MsgSpec ConnState Conn ConnSpec HistSpec CallSpec CredSpec ConfSpec.

(** A client [c] and a server [s] joined by TLS: whatever message wolfSSL gives to
    one of them, the library at the other end gave to wolfSSL.  Messages may be lost,
    repeated and reordered. *)
Record peers (Ec : env) (c : world) (Es : env) (s : world) : Prop := {
  pe_client : reached Ec c;
  pe_server : reached Es s;
  pe_role : has server_call (w_t c) = false;
  pe_down : forall x, In x (collect got_msg (w_t c)) -> In (snd x) (collect sent (w_t s));
  pe_up : forall x, In x (collect got_msg (w_t s)) -> In (snd x) (collect sent (w_t c)) }.

(** The last question an authentication callback was asked. *)
Fixpoint last_question (t : trace) : option auth_question :=
  match t with
  | [] => None
  | (_, EAuthUser u p) :: _ => Some (AskUser u p)
  | (_, EAuthToken b) :: _ => Some (AskToken b)
  | (_, EAuthBuf ty b) :: _ => Some (AskBuf ty b)
  | _ :: past => last_question past
  end.
(** The server's host was asked [q] and accepted. *)
Definition accepted (t : trace) (q : auth_question) : Prop :=
  exists later s v past, t = later ++ (s, ECbRet KAuth v) :: past /\ v <> 0 /\ last_question past = Some q.
(** At some moment [k] were the credentials the client's host had set. *)
Definition had (t : trace) (k : credentials) : Prop := exists later past, t = later ++ past /\ given past = k.
(** The question is about these credentials. *)
Definition about (k : credentials) (q : auth_question) : Prop :=
  match q with
  | AskUser u p => cr_method k = HE_AUTH_TYPE_USERPASS /\ cstr u = cr_user k /\ cstr p = cr_pass k
  | AskToken b => cr_method k = HE_AUTH_TYPE_TOKEN /\ b = cr_data k
  | AskBuf ty b => cr_method k = HE_AUTH_TYPE_CB /\ ty = HE_AUTH_TYPE_CB /\ b = cr_data k
  end.
(** The server's host has accepted credentials that the client's host had set. *)
Definition logged_in (c s : trace) : Prop := exists q k, accepted s q /\ had c k /\ about k q.
(** The server's host has accepted such credentials, has then been asked for a
    configuration, has given [l], [p], [d], and [m] went out for it. *)
Definition granted (le : bool) (c s : trace) (l p d m : bytes) : Prop :=
  exists later st past session,
    s = later ++ (st, EWOp (WSend m)) :: past /\ logged_in c past /\
    In (Host l p d) (collect offering past) /\
    m = config_message le (fit l) (fit p) (fit d) session.
