(** Vocabulary for a tunnel: packets go into one connection and come out of another
    one, and the network in between may lose, repeat and reorder everything. *)
From Verif Require Import Base Codes Ctx Frag ConnState Conn ConnSpec CallSpec MsgSpec.

(** [q] is a packet that one of the calls [ops], made from [s] on, gave to
    he_conn_inside_packet_received and that was not refused, with the MSS of a TCP SYN lowered as the
    path MTU at that moment demands. *)
Definition entered (E : env) (s : world) (ops : list op) (q : bytes) : Prop :=
  exists ops1 p ops2 s1, ops = ops1 ++ OInside p :: ops2 /\ run E 0 ops1 s = Done tt s1 /\
    refusal (w_c s1) p = None /\ mss_clamped (path_mtu (w_c s1) - 40) p q.

(** The calls considered at the sender: any but connecting again and changing the
    protocol version; packets consist of bytes. *)
Definition sender_op (o : op) : Prop :=
  match o with
  | OClientConnect _ _ _ | OServerConnect _ _ _ | OSetVersion _ _ => False
  | OInside p => bytes_ok p
  | _ => True
  end.
(** At the receiver: any but connecting again, disconnecting and changing the
    protocol version. *)
Definition receiver_op (o : op) : Prop :=
  match o with OClientConnect _ _ _ | OServerConnect _ _ _ | ODisconnect | OSetVersion _ _ => False | _ => True end.

(** A message with the first fragment of a packet; the id of that packet. *)
Definition first_fragment (m : bytes) : bool := (msg_type m =? HE_MSGID_DATA_WITH_FRAG) && (field16 m 5 mod 8192 =? 0).
Definition packet_id (m : bytes) : Z := field16 m 3.
(** The packets that were cut, by their ids. *)
Definition cut_ids (sent : list bytes) : list Z := map packet_id (filter first_fragment sent).

(** The receiver can keep [n] incomplete packets and has none. *)
Definition nothing_pending (c : conn) (n : Z) : Prop :=
  exists t, c_frag_tbl c = Some t /\ t_num t = n /\ forall i, t_get t i = None.

(** [sent] is what calls [ops] sent from [s] on, [qs] what came out of the receiver
    that got some of it, in any order, any number of times. *)
Record tunnel (Es : env) (s : world) (ops : list op) (s' : world) (sentl : list bytes)
    (Er : env) (r : world) (rops : list op) (r' : world) (qs : list bytes) (n : Z) : Prop := {
  tn_s : reached Es s; tn_ops : Forall sender_op ops; tn_run : run Es 0 ops s = Done tt s'; tn_sent : during sent s s' sentl;
  tn_r : reached Er r; tn_rops : Forall receiver_op rops; tn_rrun : run Er 0 rops r = Done tt r'; tn_qs : during inside r r' qs;
  (* no plugins on the inside; the receiver has an inside_write_cb *)
  tn_plug : c_in_chain (w_c s) = [] /\ c_in_chain (w_c r) = []; tn_cb : cb_inside (c_cbs (w_c r)) = true;
  (* both speak the same version; 1.0 between hosts of the same byte order only *)
  tn_version : (c_vmaj (w_c r), c_vmin (w_c r)) = (c_vmaj (w_c s), c_vmin (w_c s));
  tn_order : e_le Er = e_le Es \/ (c_vmaj (w_c s), c_vmin (w_c s)) <> (1, 0);
  tn_pending : nothing_pending (w_c r) n;
  (* TLS: what wolfSSL gives to the receiver, the sender's library gave to wolfSSL *)
  tn_tls : forall got x, during got_msg r r' got -> In x got -> In (snd x) sentl }.
