(** Vocabulary for C15: the credentials the host has set, and the messages and
    callbacks that carry them. *)
From Verif Require Import Base Codes Ctx MssSpec WireSpec MsgSpec ConnState Conn ConnSpec CallSpec.

(** The text of the C string passed as [s]: the bytes before the first NUL. *)
Definition text (s : bytes) : bytes := cstr (u8s s).

(** The credentials of a client: the method to use (one of HE_AUTH_TYPE_..., 0 if
    none was chosen), username, password, and the token or buffer. *)
Record credentials : Type := Creds { cr_method : Z; cr_user : bytes; cr_pass : bytes; cr_data : bytes }.

(** What the calls made so far have set.  he_conn_set_username and
    he_conn_set_password choose the method even when they refuse the string, and
    keep only the first 49 bytes of it (see C23). *)
Fixpoint given (t : trace) : credentials :=
  match t with
  | [] => Creds 0 [] [] []
  | (_, ERet o rc) :: past =>
    let k := given past in
    match o with
    | OSetUsername s =>
      Creds HE_AUTH_TYPE_USERPASS (if rc =? HE_SUCCESS then firstn 49 (text s) else cr_user k) (cr_pass k) (cr_data k)
    | OSetPassword s =>
      Creds HE_AUTH_TYPE_USERPASS (cr_user k) (if rc =? HE_SUCCESS then firstn 49 (text s) else cr_pass k) (cr_data k)
    | OSetToken b => if rc =? HE_SUCCESS then Creds HE_AUTH_TYPE_TOKEN (cr_user k) (cr_pass k) (u8s b) else k
    | OSetAuthBuf b => if rc =? HE_SUCCESS then Creds HE_AUTH_TYPE_CB (cr_user k) (cr_pass k) (u8s b) else k
    | _ => k
    end
  | _ :: past => given past
  end.

(** The message that carries them; none if no method was chosen. *)
Definition auth_message (k : credentials) : list bytes :=
  if cr_method k =? HE_AUTH_TYPE_USERPASS then [userpass_message (cr_user k) (cr_pass k)]
  else if cr_method k =? HE_AUTH_TYPE_TOKEN then [auth_buffer_message HE_AUTH_TYPE_TOKEN (cr_data k)]
  else if cr_method k =? HE_AUTH_TYPE_CB then [auth_buffer_message HE_AUTH_TYPE_CB (cr_data k)]
  else [].

(** TLS comes up ([None]); a message with credentials is given to wolfSSL. *)
Definition login (s : Z) (e : ev) : list (option bytes) :=
  match e with
  | EWEnd WNegotiate r _ _ => if r =? SSL_SUCCESS then [None] else []
  | EWOp (WSend m) => if msg_type m =? HE_MSGID_AUTH then [Some m] else []
  | _ => []
  end.

(** ** The server's side *)
(** What the authentication callbacks are asked. *)
Inductive auth_question : Type :=
| AskUser (username password : bytes)   (* auth_cb: two arrays of 50 bytes *)
| AskToken (token : bytes)              (* auth_token_cb *)
| AskBuf (auth_type : Z) (data : bytes) (* auth_buf_cb *).
Definition questions (s : Z) (e : ev) : list auth_question :=
  match e with
  | EAuthUser u p => [AskUser u p]
  | EAuthToken b => [AskToken b]
  | EAuthBuf ty b => [AskBuf ty b]
  | _ => []
  end.
(** What message [m] makes a server with callbacks [k] ask. *)
Definition asks (k : cbs) (m : bytes) : list auth_question :=
  if negb (msg_type m =? HE_MSGID_AUTH) || negb (cb_populate k) || (len m <? 2) then []
  else
    let method := byte_at m 1 in
    let n := field16 m 2 in
    if method =? HE_AUTH_TYPE_USERPASS then
      if cb_auth k && (104 <=? len m) then [AskUser (slice m 4 50) (slice m 54 50)] else []
    else if method =? HE_AUTH_TYPE_TOKEN then
      if cb_authtok k && (4 <? len m) && (4 + n <=? len m) then [AskToken (slice m 4 n)] else []
    else if method =? HE_AUTH_TYPE_CB then
      if cb_authbuf k && (4 <? len m) && (4 + n <=? len m) then [AskBuf HE_AUTH_TYPE_CB (slice m 4 n)] else []
    else [].
