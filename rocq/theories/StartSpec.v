(** What starting a context must tell wolfSSL. *)
From Coq Require Import String Ascii.
From Verif Require Import Base Codes Ctx Start.

(** Cipher lists are names separated by colons. *)
Definition colons (l : list string) : string := String.concat ":" l.
Open Scope string_scope.
Definition TLS13_CHACHA := "TLS13-CHACHA20-POLY1305-SHA256".
Definition TLS13_AES := "TLS13-AES256-GCM-SHA384".
Definition DTLS12_CHACHA := "ECDHE-RSA-CHACHA20-POLY1305".
Definition DTLS12_AES := "ECDHE-RSA-AES256-GCM-SHA384".
Close Scope string_scope.

(** A stream client offers one TLS 1.3 suite, a datagram client that suite and its
    DTLS 1.2 counterpart; the host chooses between ChaCha20 and AES. *)
Definition client_suites (stream chacha : bool) : list string :=
  (if chacha then TLS13_CHACHA else TLS13_AES) ::
  (if stream then [] else [if chacha then DTLS12_CHACHA else DTLS12_AES]).
(** A server takes both. *)
Definition server_suites (stream : bool) : list string :=
  if stream then [TLS13_AES; TLS13_CHACHA] else [TLS13_CHACHA; DTLS12_CHACHA; TLS13_AES; DTLS12_AES].
Definition server_groups : list group := [P521_ML_KEM_1024; P521_KYBER_LEVEL5; P256_KYBER_LEVEL1; SECP256R1; X25519].

(** The calls of a start that succeeds. *)
Definition common_calls (stream : bool) : list wolf_call :=
  if stream then [IoRecv IO_TLS; IoSend IO_TLS] else [IoRecv IO_DTLS; IoSend IO_DTLS; UseSecureRenegotiation].
Definition client_calls (stream chacha : bool) (ca : bytes) : list wolf_call :=
  [CtxNew (if stream then TLS13_CLIENT else DTLS_CLIENT); LoadVerify ca] ++
  (if stream then [] else [MinVersionDtls12]) ++
  [CipherList (colons (client_suites stream chacha))] ++ common_calls stream.
Definition server_calls (stream : bool) (cert key : bytes) : list wolf_call :=
  [CtxNew (if stream then TLS13_SERVER else DTLS_SERVER); CertFile cert; KeyFile key; InitRng;
   CipherList (colons (server_suites stream)); Groups server_groups] ++ common_calls stream.

(** wolfSSL accepted a call.  Setting the I/O callbacks cannot fail. *)
Definition granted (c : wolf_call) (answer : Z) : Prop :=
  match c with
  | CtxNew _ => answer <> 0
  | InitRng => answer = 0
  | IoRecv _ | IoSend _ => True
  | _ => answer = SSL_SUCCESS
  end.
Definition all_granted (l : calls) : Prop := Forall (fun ca => granted (fst ca) (snd ca)) l.

(** The result when a call is refused. *)
Definition start_error (c : wolf_call) (answer : Z) : Z :=
  match c with
  | LoadVerify _ =>
    if answer =? SSL_BAD_FILETYPE then HE_ERR_SSL_BAD_FILETYPE
    else if answer =? SSL_BAD_FILE then HE_ERR_SSL_BAD_FILE
    else if answer =? MEMORY_E then HE_ERR_SSL_OUT_OF_MEMORY
    else if answer =? ASN_INPUT_E then HE_ERR_SSL_ASN_INPUT
    else if answer =? BUFFER_E then HE_ERR_SSL_BUFFER else HE_ERR_SSL_CERT
  | _ => HE_ERR_INIT_FAILED
  end.

(** Calls were made in the order of [plan], up to the first refusal. *)
Definition followed (plan : list wolf_call) (l : calls) (rc : Z) : Prop :=
  (rc = HE_SUCCESS /\ map fst l = plan /\ all_granted l) \/
  (exists before c a rest, plan = map fst before ++ c :: rest /\ l = before ++ [(c, a)] /\
     all_granted before /\ ~ granted c a /\ rc = start_error c a).

(** The names in a cipher list. *)
Fixpoint split_at (sep : Ascii.ascii) (acc s : string) : list string :=
  match s with
  | EmptyString => [acc]
  | String c t => if Ascii.eqb c sep then acc :: split_at sep EmptyString t
                  else split_at sep (acc ++ String c EmptyString)%string t
  end.
Definition suites_of (s : string) : list string := split_at ":"%char EmptyString s.
