(** Vocabulary for C50 with a host that also makes calls inside callbacks. *)
From Verif Require Import Base Codes Ctx ConnState ConnSpec CallSpec QuerySpec.

(** What the host has chosen so far, also inside callbacks: what the setters,
    in the order in which they returned, accepted last. *)
Fixpoint chosen_all (t : trace) : chosen :=
  match t with
  | [] => Chosen [] 0 [] 0
  | (_, ERet o rc) :: past | (_, ENestRet o rc) :: past => set_by o rc (chosen_all past)
  | _ :: past => chosen_all past
  end.
From Verif Require Import CredSpec.

(** The credentials chosen, also inside callbacks. *)
Definition gives (o : op) (rc : Z) (k : credentials) : credentials :=
  match o with
  | OSetUsername s => Creds HE_AUTH_TYPE_USERPASS (if rc =? HE_SUCCESS then firstn 49 (text s) else cr_user k) (cr_pass k) (cr_data k)
  | OSetPassword s => Creds HE_AUTH_TYPE_USERPASS (cr_user k) (if rc =? HE_SUCCESS then firstn 49 (text s) else cr_pass k) (cr_data k)
  | OSetToken b => if rc =? HE_SUCCESS then Creds HE_AUTH_TYPE_TOKEN (cr_user k) (cr_pass k) (u8s b) else k
  | OSetAuthBuf b => if rc =? HE_SUCCESS then Creds HE_AUTH_TYPE_CB (cr_user k) (cr_pass k) (u8s b) else k
  | _ => k
  end.
Fixpoint given_all (t : trace) : credentials :=
  match t with
  | [] => Creds 0 [] [] []
  | (_, ERet o rc) :: past | (_, ENestRet o rc) :: past => gives o rc (given_all past)
  | _ :: past => given_all past
  end.
From Verif Require Import ConfSpec PlugSpec MssSpec WireSpec MsgSpec Codes.

(** Messages received in the present call of the host (with the state at that moment). *)
Definition recently (past : trace) : list (Z * bytes) := collect got_msg (upto is_call past).
(** Message [x] was received online and has packet [q] in it, the length field in
    either byte order (see C14); or it has a fragment, that completes [q]. *)
Definition carries (x : Z * bytes) (q : bytes) : Prop :=
  let (s, m) := x in
  s = HE_STATE_ONLINE /\
  (msg_type m = HE_MSGID_DATA /\ (exists n, (n = field16 m 1 \/ n = field16le m 1) /\ 3 + n <= len m /\ q = slice m 3 n) \/
   msg_type m = HE_MSGID_DEPRECATED_13 /\ 5 + field16 m 1 <= len m /\ q = slice m 5 (field16 m 1) \/
   msg_type m = HE_MSGID_DATA_WITH_FRAG).
(** What asking the authentication callbacks ([EAuthUser] and so on), telling the
    configuration callbacks and handing a packet to inside_write_cb need: a message,
    received in the same call of the host, that makes an endpoint with some
    callbacks registered ask or tell just that; or that carries a packet which
    the plugins, called last of all, made into this one. *)
Definition heard (s : Z) (e : ev) (past : trace) : Prop :=
  match e with
  | EAuthUser _ _ | EAuthToken _ | EAuthBuf _ _ => exists x k, In x (recently past) /\ asks k (snd x) = questions s e
  | ENetCfg _ _ _ _ | ESrvCfg _ => exists x k, In x (recently past) /\ tells k x (configuring s e)
  | EInside p => exists x q ids l before, In x (recently past) /\ carries x q /\
      pass false (len q) ids q l HE_SUCCESS p /\ past = entries s l ++ before /\ len p <= len q /\ ipv4_packet p = true
  | _ => True
  end.
