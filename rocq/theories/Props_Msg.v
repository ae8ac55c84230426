(** C34, C35: messages that end the session or must have no effect. *)
From Verif Require Import Base Codes Ctx Wire WireSpec ConnState Conn ConnSpec HistSpec MsgSpec Reaction Scenario.
Unset Strict Implicit.

(** ** C35.  In every history (also with calls from inside callbacks), when
    wolfSSL_read has returned a message that is malformed, of a type the
    connection does not take in its state or role, or of an unknown type, the
    very next thing that happens is the next wolfSSL_read (the message is
    ignored) or the return of he_conn_outside_data_received with the error: no
    callback, no message, no state change. *)
Theorem C35_no_effect : forall E n ops,
  every (fun _ e past => match hot past with None => True | Some code => reacts code e = true end) (history E n ops).
Proof. intros E n ops. unfold history. apply run_calm. exact calm_new. Qed.
Print Assumptions C35_no_effect.

(** The state the callbacks could ask for does not change either: the state is
    recorded with every entry. *)
Lemma hot_state t : forall code, hot t = Some code -> exists s r err m p, t = (s, EWEnd WRecv r err m) :: p.
Proof. destruct t as [|[s []] p]; try discriminate. destruct o; try discriminate. intros c _. repeat eexists. Qed.

(** ** C34.  GOODBYE ends the call with HE_ERR_SERVER_GOODBYE, AUTH_RESPONSE ends
    a client's call with HE_ERR_ACCESS_DENIED; both are fatal on every kind of
    connection. *)
Definition returns (code : Z) (e : ev) : Prop := exists b, e = ERet (OOutside b) code \/ e = ENestRet (OOutside b) code.
Lemma reacts_returns code e : code <> HE_SUCCESS -> reacts code e = true -> returns code e.
Proof.
  intros N. unfold reacts. destruct (Z.eqb_spec code HE_SUCCESS); [easy|].
  destruct e; try discriminate; destruct o; try discriminate; intros ->%Z.eqb_eq; exists buffer; auto.
Qed.
Theorem C34_goodbye_and_rejection : forall E n ops,
  every (fun _ e past => match past with
    | (s, EWEnd WRecv r err m) :: earlier =>
      0 < r ->
      (msg_type m = HE_MSGID_GOODBYE -> returns HE_ERR_SERVER_GOODBYE e) /\
      (msg_type m = HE_MSGID_AUTH_RESPONSE -> has server_call earlier = false -> returns HE_ERR_ACCESS_DENIED e)
    | _ => True end) (history E n ops).
Proof.
  intros E n ops. generalize (C35_no_effect E n ops). generalize (history E n ops) as t.
  induction t as [|[s e] t IH]; [auto|]. intros [A B]. split; [|now apply IH].
  destruct t as [|[s' []] p]; auto. destruct o; auto. intros Hr. unfold hot in A.
  destruct (Z.ltb_spec 0 r); [|lia]. split.
  - intros T. unfold no_effect in A. rewrite T in A. apply reacts_returns in A; [exact A|discriminate].
  - intros T S. rewrite S in A. unfold no_effect in A. rewrite T in A. apply reacts_returns in A; [exact A|discriminate].
Qed.
Print Assumptions C34_goodbye_and_rejection.
Theorem C34_codes_fatal : forall ctype,
  is_error_fatal ctype HE_ERR_SERVER_GOODBYE = true /\ is_error_fatal ctype HE_ERR_ACCESS_DENIED = true.
Proof. intros ctype. unfold is_error_fatal. destruct (_ =? _); split; reflexivity. Qed.
Print Assumptions C34_codes_fatal.

(** Such messages do arrive: after the handshake the client is sent a GOODBYE; a
    server a fragment reaching beyond 1500 bytes. *)
Definition last_ret (t : trace) : option Z := match t with (_, ERet _ rc) :: _ => Some rc | _ => None end.
Example C34_example :
  last_ret (history plain_env 0 (client_up ++ [OOutside (dgram 4660 goodbye_message)])) = Some HE_ERR_SERVER_GOODBYE /\
  last_ret (history plain_env 0 (client_up ++ [OOutside (dgram 4660 auth_denied_message)])) = Some HE_ERR_ACCESS_DENIED.
Proof. vm_compute. split; reflexivity. Qed.
Example C35_example :
  last_ret (history plain_env 0 (server_up ++ [OOutside (dgram 4660 (HE_MSGID_DATA_WITH_FRAG :: be16 8 ++ be16 1 ++ be16 187 ++ zeros 8))])) =
    Some HE_ERR_POINTER_WOULD_OVERFLOW /\
  last_ret (history plain_env 0 (client_up ++ [OOutside (dgram 4660 [HE_MSGID_PING; 0; 1])])) = Some HE_ERR_PACKET_TOO_SMALL /\
  last_ret (history plain_env 0 (client_up ++ [OOutside (dgram 4660 [200; 1; 2; 3])])) = Some HE_SUCCESS.
Proof. vm_compute. repeat split. Qed.
