(** What connect tells wolfSSL before the handshake starts. *)
From Verif Require Import Base Codes Ctx ConnState ConnSpec.

(** The settings of a new TLS session, in order: the MTU for datagrams (114 is
    Lightway's overhead, wolfSSL adds [HE_WOLF_MAX_HEADER_SIZE] itself), fragmented
    ClientHello on a datagram server, the server name on a stream client that has
    one, the name the certificate must carry, if one is set in the context, and
    the post-quantum key share on a client that wants it. *)
Definition wanted (server : bool) (x : ctx) (mtu : Z) (sni : bytes) : list query :=
  (if x_type x =? HE_CONNECTION_TYPE_DATAGRAM
   then QSetMtu (mtu - 114 + HE_WOLF_MAX_HEADER_SIZE) :: (if server then [QChFrag] else [])
   else if server then [] else match cstr sni with [] => [] | name => [QUseSni name] end)
  ++ match cstr (x_dn x) with [] => [] | name => [QCheckDn name] end
  ++ (if server then [] else if x_pqc x then [QKeyShare] else []).

(** The result of connect when a setting is refused. *)
Definition setting_error (q : query) (answer : Z) : Z :=
  match q with
  | QSetMtu _ => HE_ERR_INVALID_MTU_SIZE
  | QChFrag => HE_ERR_CANNOT_ENABLE_CH_FRAG
  | QUseSni _ => if answer =? MEMORY_E then HE_ERR_SSL_OUT_OF_MEMORY
                 else if answer =? BAD_FUNC_ARG then HE_ERR_SSL_ERROR else HE_ERR_FAILED
  | _ => HE_ERR_INIT_FAILED
  end.

(** Settings and their answers, and operations of wolfSSL, in the order of the log. *)
Inductive tls_item : Type := Setting (q : query) (answer : Z) | Operation (o : wop).
Definition tls_items (s : Z) (e : ev) : list tls_item :=
  match e with
  | EAsk q r =>
    match q with QSetMtu _ | QChFrag | QUseSni _ | QCheckDn _ | QKeyShare => [Setting q r] | _ => [] end
  | EWOp o => [Operation o]
  | _ => []
  end.
Definition accepted (l : list query) : list tls_item := map (fun q => Setting q SSL_SUCCESS) l.
