(** Concrete environments for examples: a wolfSSL that encrypts with the
    identity, a host with every callback that accepts everything, and ready-made
    histories of a client and of a server.  Only used in examples (showing that
    hypotheses of theorems are met) and in refutations. *)
From Verif Require Import Base Codes Ctx Wire WireSpec ConnState Conn ConnSpec.

Definition all_cbs : cbs := Cbs true true true true true true true true true true true true true.
(** A started context with version range 1.0 - 1.2. *)
Definition ctx_of (ty : Z) (k : cbs) : ctx :=
  Ctx (zeros 51) false true true ty k false HE_PADDING_NONE false false true ty 1 0 1 2 10.
Definition dctx : ctx := ctx_of HE_CONNECTION_TYPE_DATAGRAM all_cbs.
Definition sctx : ctx := ctx_of HE_CONNECTION_TYPE_STREAM all_cbs.

Definition is_neg (e : ev) : bool := match e with EWOp WNegotiate => true | _ => false end.

(** wolfSSL: the first negotiation wants more data, later ones succeed; sending
    writes the message; receiving reads one. *)
Definition plain_wolf (t : trace) : strat :=
  match t with
  | (_, EWOp WNegotiate) :: p =>
    if has is_neg p then WRet SSL_SUCCESS 0 [] else WRet (-1) SSL_ERROR_WANT_READ []
  | (_, EWOp WRecv) :: _ =>
    WRead 1500 (fun r d => if 0 <? r then WRet r 0 d else WRet (-1) SSL_ERROR_WANT_READ [])
  | (_, EWOp (WSend m)) :: _ => WWrite m (fun r => WRet r 0 [])
  | _ => WRet SSL_SUCCESS 0 []
  end.

Definition plain_ask (t : trace) (q : query) : Z :=
  match q with
  | QVersion => DTLS1_2_VERSION
  | QRng | QKeyUpdate | QRenegPending | QKeyUpdatePending | QQuickTimeout | QError => 0
  | QRngValue => 4660
  | _ => 1
  end.

(** Accepting credentials is 1, everything else 0 = HE_SUCCESS. *)
Definition plain_cb (t : trace) : Z :=
  match t with
  | (_, EAuthUser _ _) :: _ | (_, EAuthToken _) :: _ | (_, EAuthBuf _ _) :: _ => 1
  | _ => 0
  end.

(** "10.0.0.1" *)
Definition ip (n : Z) : bytes := [49; 48; 46; 48; 46; 48; 46; 48 + n].
Definition plain_env : env :=
  Env true 50 plain_ask plain_cb (fun _ => (ip 1, ip 2, ip 3)) (fun _ => (HE_PLUGIN_SUCCESS, []))
      plain_wolf (fun _ => HDone).

(** A datagram of version 1.2 with the given session, carrying [m]. *)
Definition dgram (session : Z) (m : bytes) : bytes := wire_header true 1 2 false session ++ m.

(** A small IPv4 packet. *)
Definition ipv4 : bytes := 69 :: zeros 19 ++ [1; 2; 3; 4].

(** "user" / "pass" *)
Definition user : bytes := [117; 115; 101; 114].
Definition pass : bytes := [112; 97; 115; 115].

Definition client_setup : list op := [OSetUsername user; OSetPassword pass; OSetMtu 1500].
Definition client_up : list op :=
  client_setup ++ [OClientConnect dctx [] []; OOutside (dgram 0 []);
                   OOutside (dgram 0 (config_message true (ip 1) (ip 2) (ip 3) 4660))].
Definition server_up : list op :=
  [OSetMtu 1500; OServerConnect dctx [] []; OOutside (dgram 0 []);
   OOutside (dgram 0 (userpass_message user pass))].
Definition client_data : list op := client_up ++ [OInside ipv4; OOutside (dgram 4660 (data_message true 1 2 ipv4 0))].
Definition server_data : list op := server_up ++ [OInside ipv4; OOutside (dgram 4660 (data_message true 1 2 ipv4 0))].

(** The state after a history and its outcome. *)
Definition state_after (E : env) (n : nat) (ops : list op) : Z := c_state (w_c (world_of (run E n ops world_new))).
Definition finishes (E : env) (n : nat) (ops : list op) : bool :=
  match run E n ops world_new with Done _ _ => true | Stuck _ _ => false end.
