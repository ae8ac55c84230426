(** Model of he_ssl_ctx_start and he_ssl_ctx_start_server (src/he/ssl_ctx.c:122-309)
    with every call made to wolfSSL, its arguments and its answer.  [Ctx.v] has the
    same two functions with the answers only; that they agree is proved
    ([Props_Start.v]).  Build with PQC (HE_NO_PQC not defined). *)
From Coq Require Import String.
From Verif Require Import Base Codes Ctx.

(** wolfTLSv1_3_client_method, ... *)
Inductive wolf_method := TLS13_CLIENT | TLS13_SERVER | DTLS_CLIENT | DTLS_SERVER.
(** WOLFSSL_P521_ML_KEM_1024, ... (the numbers are wolfSSL's) *)
Inductive group := P521_ML_KEM_1024 | P521_KYBER_LEVEL5 | P256_KYBER_LEVEL1 | SECP256R1 | X25519.
(** the I/O callbacks of wolf.c *)
Inductive wolf_io := IO_TLS | IO_DTLS.

Inductive wolf_call : Type :=
| CtxNew (m : wolf_method)                       (* wolfSSL_CTX_new; 0 = NULL *)
| LoadVerify (pem : bytes)                       (* wolfSSL_CTX_load_verify_buffer *)
| MinVersionDtls12                               (* wolfSSL_CTX_SetMinVersion(WOLFSSL_DTLSV1_2) *)
| CipherList (s : string)                        (* wolfSSL_CTX_set_cipher_list *)
| CertFile (name : bytes) | KeyFile (name : bytes)
| InitRng                                        (* wc_InitRng *)
| Groups (l : list group)                        (* wolfSSL_CTX_set_groups *)
| IoRecv (k : wolf_io) | IoSend (k : wolf_io)    (* wolfSSL_CTX_SetIORecv/Send: void *)
| UseSecureRenegotiation.

(** The context of [Ctx.v] and what its pointers point to when it is started:
    he_internal.h:91-109 (the buffer and the file names are the host's; the library
    keeps the pointers). *)
Record full := Full { f_ctx : ctx; f_ca : bytes; f_cert : bytes; f_key : bytes }.

Definition calls := list (wolf_call * Z).        (* in order *)

Section Start.
(** The answer of wolfSSL to a call, given the calls before it. *)
Variable answer : calls -> wolf_call -> Z.

Definition Run (A : Type) : Type := calls -> A * calls.
Definition rret {A} (a : A) : Run A := fun l => (a, l).
Definition rbind {A B} (m : Run A) (k : A -> Run B) : Run B := fun l => let (a, l') := m l in k a l'.
Definition wolf (c : wolf_call) : Run Z := fun l => let a := answer l c in (a, (l ++ [(c, a)])%list).
Notation "'do!' x := m 'in' k" := (rbind m (fun x => k)) (at level 200, x name, right associativity).

Definition io_of (ty : Z) : wolf_io := if ty =? HE_CONNECTION_TYPE_STREAM then IO_TLS else IO_DTLS.

(** ssl_ctx.c:122-150 he_ssl_ctx_start_common *)
Definition start_common (x : ctx) : Run (Z * ctx) :=
  let x := set_x_min HE_WIRE_MINIMUM_PROTOCOL_MAJOR_VERSION HE_WIRE_MINIMUM_PROTOCOL_MINOR_VERSION x in
  let x := set_x_max HE_WIRE_MAXIMUM_PROTOCOL_MAJOR_VERSION HE_WIRE_MAXIMUM_PROTOCOL_MINOR_VERSION x in
  do! _ := wolf (IoRecv (io_of (x_type x))) in
  do! _ := wolf (IoSend (io_of (x_type x))) in
  let x := set_x_wolf (x_wolf x) (x_type x) x in
  if x_type x =? HE_CONNECTION_TYPE_DATAGRAM then
    do! r := wolf UseSecureRenegotiation in
    rret (if negb (r =? SSL_SUCCESS) then HE_ERR_INIT_FAILED else HE_SUCCESS, x)
  else rret (HE_SUCCESS, x).

(** ssl_ctx.c:167-173, 247-253: wolf_ctx = wolfSSL_CTX_new(...) *)
Definition new_ctx (tls dtls : wolf_method) (x : ctx) : Run ctx :=
  if x_type x =? HE_CONNECTION_TYPE_STREAM then
    do! r := wolf (CtxNew tls) in rret (set_x_wolf (negb (r =? 0)) (x_io x) x)
  else if x_type x =? HE_CONNECTION_TYPE_DATAGRAM then
    do! r := wolf (CtxNew dtls) in rret (set_x_wolf (negb (r =? 0)) (x_io x) x)
  else rret x.

(** ssl_ctx.c:152-233 he_ssl_ctx_start *)
Definition start (f : full) : Run (Z * ctx) :=
  let x := f_ctx f in
  let res := ctx_valid_client x in
  if negb (res =? HE_SUCCESS) then rret (res, x) else
  do! x := new_ctx TLS13_CLIENT DTLS_CLIENT x in
  if negb (x_wolf x) then rret (HE_ERR_INIT_FAILED, x) else
  do! r := wolf (LoadVerify (f_ca f)) in
  if negb (r =? SSL_SUCCESS) then
    rret (if r =? SSL_BAD_FILETYPE then HE_ERR_SSL_BAD_FILETYPE
          else if r =? SSL_BAD_FILE then HE_ERR_SSL_BAD_FILE
          else if r =? MEMORY_E then HE_ERR_SSL_OUT_OF_MEMORY
          else if r =? ASN_INPUT_E then HE_ERR_SSL_ASN_INPUT
          else if r =? BUFFER_E then HE_ERR_SSL_BUFFER
          else HE_ERR_SSL_CERT, x)
  else if x_type x =? HE_CONNECTION_TYPE_STREAM then
    do! r := wolf (CipherList (if x_chacha x then "TLS13-CHACHA20-POLY1305-SHA256"%string
                               else "TLS13-AES256-GCM-SHA384"%string)) in
    if negb (r =? SSL_SUCCESS) then rret (HE_ERR_INIT_FAILED, x) else start_common x
  else
    do! r := wolf MinVersionDtls12 in
    if negb (r =? SSL_SUCCESS) then rret (HE_ERR_INIT_FAILED, x) else
    do! r := wolf (CipherList (if x_chacha x then "TLS13-CHACHA20-POLY1305-SHA256:ECDHE-RSA-CHACHA20-POLY1305"%string
                               else "TLS13-AES256-GCM-SHA384:ECDHE-RSA-AES256-GCM-SHA384"%string)) in
    if negb (r =? SSL_SUCCESS) then rret (HE_ERR_INIT_FAILED, x) else start_common x.

(** ssl_ctx.c:235-309 he_ssl_ctx_start_server *)
Definition start_server (f : full) : Run (Z * ctx) :=
  let x := f_ctx f in
  let res := ctx_valid_server x in
  if negb (res =? HE_SUCCESS) then rret (res, x) else
  do! x := new_ctx TLS13_SERVER DTLS_SERVER x in
  if negb (x_wolf x) then rret (HE_ERR_INIT_FAILED, x) else
  do! r := wolf (CertFile (f_cert f)) in
  if negb (r =? SSL_SUCCESS) then rret (HE_ERR_INIT_FAILED, x) else
  do! r := wolf (KeyFile (f_key f)) in
  if negb (r =? SSL_SUCCESS) then rret (HE_ERR_INIT_FAILED, x) else
  do! r := wolf InitRng in
  if negb (r =? 0) then rret (HE_ERR_INIT_FAILED, x) else
  do! r := wolf (CipherList (if x_type x =? HE_CONNECTION_TYPE_STREAM
                             then "TLS13-AES256-GCM-SHA384:TLS13-CHACHA20-POLY1305-SHA256"%string
                             else "TLS13-CHACHA20-POLY1305-SHA256:ECDHE-RSA-CHACHA20-POLY1305:TLS13-AES256-GCM-SHA384:ECDHE-RSA-AES256-GCM-SHA384"%string)) in
  if negb (r =? SSL_SUCCESS) then rret (HE_ERR_INIT_FAILED, x) else
  do! r := wolf (Groups [P521_ML_KEM_1024; P521_KYBER_LEVEL5; P256_KYBER_LEVEL1; SECP256R1; X25519]) in
  if negb (r =? SSL_SUCCESS) then rret (HE_ERR_INIT_FAILED, x) else
  start_common x.
End Start.
