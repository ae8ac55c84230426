(** Vocabulary for C25: which results are fatal, and what TLS can report. *)
From Verif Require Import Base Codes Ctx ConnState ConnSpec MsgSpec CallSpec.

(** he_conn_is_error_fatal's documentation: results after which a connection may
    be kept. *)
Definition transient (stream : bool) : list Z :=
  [HE_SUCCESS; HE_WANT_READ; HE_WANT_WRITE; HE_ERR_SSL_ERROR_NONFATAL; HE_ERR_NOT_CONNECTED] ++
  if stream then [] else
  [HE_ERR_INVALID_CONN_STATE; HE_ERR_SECURE_RENEGOTIATION_ERROR; HE_ERR_EMPTY_PACKET; HE_ERR_PACKET_TOO_SMALL;
   HE_ERR_NOT_HE_PACKET; HE_ERR_UNSUPPORTED_PACKET_TYPE; HE_ERR_BAD_PACKET; HE_ERR_BAD_FRAGMENT; HE_ERR_UNKNOWN_SESSION].

(** Failures that wolfSSL reports, and what the host is told then: a handshake
    that fails for another reason than missing data, the end of the connection, a
    renegotiation or key update that fails. *)
Definition tls_failure (s : Z) (e : ev) : list Z :=
  match e with
  | EWEnd WNegotiate r err _ =>
    if (r =? SSL_SUCCESS) || (err =? SSL_ERROR_WANT_READ) || (err =? SSL_ERROR_WANT_WRITE) then []
    else if err =? ASN_SIG_CONFIRM_E then [HE_ERR_CANNOT_VERIFY_SERVER_CERT]
    else if err =? DOMAIN_NAME_MISMATCH then [HE_ERR_SERVER_DN_MISMATCH]
    else [HE_ERR_SSL_ERROR]
  | EWEnd WRecv r err _ =>
    if negb (r =? 0) || (err =? SSL_ERROR_NONE) || (err =? APP_DATA_READY) || (err =? SSL_ERROR_WANT_READ) || (err =? SSL_ERROR_WANT_WRITE) then []
    else [HE_ERR_CONNECTION_WAS_CLOSED]
  | EWEnd (WRehandshake | WUpdateKeys) r err _ =>
    if (r =? SSL_SUCCESS) || (err =? SSL_ERROR_NONE) || (err =? SSL_ERROR_WANT_READ) || (err =? SSL_ERROR_WANT_WRITE) ||
       (err =? APP_DATA_READY) || (err =? SECURE_RENEGOTIATION_E) then []
    else [HE_ERR_SSL_ERROR]
  | EAsk QKeyUpdate v => if v =? 0 then [] else [HE_ERR_SSL_ERROR]
  | _ => []
  end.
