(** Vocabulary for C46: what he_conn_get_ssl_error is about. *)
From Verif Require Import Base Codes Ctx ConnState ConnSpec CallSpec ReadSpec.

(** Errors of wolfSSL (wolfSSL_get_error) that end an operation and that no return
    code of the library stands for: writing or reading fails, the handshake fails
    for a reason other than the certificate, a renegotiation or key update fails. *)
Definition hard_error (s : Z) (e : ev) : list Z :=
  match e with
  | EWEnd (WSend _) r err _ =>
    if (0 <=? r) || (err =? SSL_ERROR_NONE) || (err =? SSL_ERROR_WANT_WRITE) || (err =? SSL_ERROR_WANT_READ) then [] else [err]
  | EWEnd WRecv r err _ =>
    if (0 <=? r) || (err =? SSL_ERROR_NONE) || (err =? APP_DATA_READY) || (err =? SSL_ERROR_WANT_READ) || (err =? SSL_ERROR_WANT_WRITE) then [] else [err]
  | EWEnd WNegotiate r err _ =>
    if (r =? SSL_SUCCESS) || (err =? SSL_ERROR_WANT_READ) || (err =? SSL_ERROR_WANT_WRITE) ||
       (err =? ASN_SIG_CONFIRM_E) || (err =? DOMAIN_NAME_MISMATCH) then [] else [err]
  | EWEnd (WRehandshake | WUpdateKeys) r err _ =>
    if (r =? SSL_SUCCESS) || (err =? SSL_ERROR_NONE) || (err =? SSL_ERROR_WANT_READ) || (err =? SSL_ERROR_WANT_WRITE) ||
       (err =? APP_DATA_READY) || (err =? SECURE_RENEGOTIATION_E) then [] else [err]
  | EAsk QError v => [v]
  | _ => []
  end.
(** What the host's callbacks returned. *)
Definition cb_codes (s : Z) (e : ev) : list Z := match e with ECbRet _ v => [v] | _ => [] end.
(** Data is passed to a stream whose previous data TLS has not read to the end. *)
Definition unread_stream (o : op) (c : conn) : Prop :=
  (exists b, o = OOutside b) /\ c_ctype c = HE_CONNECTION_TYPE_STREAM /\ rx_left (c_rx c) <> 0.
Definition connecting (o : op) : bool := match o with OClientConnect _ _ _ | OServerConnect _ _ _ => true | _ => false end.
(** conn.c:1254-1260 he_conn_get_ssl_error *)
Definition get_ssl_error (w : world) : Z := c_wolf_err (w_c w).
(** The last of a list, or the value before. *)
Definition latest (before : Z) (l : list Z) : Z := last l before.
