(** Vocabulary for statements about a single API call: what the call adds to the
    log. *)
From Verif Require Import Base Codes Ctx FragSpec Frag ConnState Conn ConnSpec MssSpec WireSpec MsgSpec.

(** The states of a connection that some sequence of API calls leads to, the host
    making no calls inside callbacks. *)
Definition reached (E : env) (w : world) : Prop := exists ops, run E 0 ops world_new = Done tt w.
(** In such a state, call [o] returns [rc] and leaves [w']. *)
Definition call (E : env) (o : op) (w : world) (rc : Z) (w' : world) : Prop :=
  api E (ret tt) o w = Done rc w'.

(** What the log says about one kind of thing, oldest first. *)
Fixpoint collect {A} (f : Z -> ev -> list A) (t : trace) : list A :=
  match t with
  | [] => []
  | (s, e) :: past => collect f past ++ f s e
  end.

(** From [w] to [w'] exactly the things [l] happened, in that order. *)
Definition during {A} (f : Z -> ev -> list A) (w w' : world) (l : list A) : Prop :=
  collect f (w_t w') = collect f (w_t w) ++ l.

(** Messages given to wolfSSL_write, whatever it does with them. *)
Definition sent (s : Z) (e : ev) : list bytes := match e with EWOp (WSend m) => [m] | _ => [] end.
(** ... and what it answered: the message, its result, wolfSSL_get_error. *)
Definition wrote (s : Z) (e : ev) : list (bytes * Z * Z) :=
  match e with EWEnd (WSend m) r err _ => [(m, r, err)] | _ => [] end.
(** What the library makes of that answer. *)
Definition write_code (r err : Z) : Z :=
  if 0 <? r then HE_SUCCESS
  else if err =? SSL_ERROR_NONE then HE_SUCCESS
  else if err =? SSL_ERROR_WANT_WRITE then HE_WANT_WRITE
  else if err =? SSL_ERROR_WANT_READ then HE_WANT_READ
  else if r =? 0 then HE_ERR_CONNECTION_WAS_CLOSED else HE_ERR_SSL_ERROR.
(** The messages [ms] are written one after the other with the answers [l] until
    one fails; [rc]: that failure, or success. *)
Fixpoint writes (ms : list bytes) (l : list (bytes * Z * Z)) (rc : Z) : Prop :=
  match ms, l with
  | [], [] => rc = HE_SUCCESS
  | m :: ms, (m', r, err) :: l =>
    m' = m /\ if write_code r err =? HE_SUCCESS then writes ms l rc else l = [] /\ rc = write_code r err
  | _, _ => False
  end.
(** Messages obtained from wolfSSL_read, each with the state at that moment. *)
Definition got_msg (s : Z) (e : ev) : list (Z * bytes) :=
  match e with EWEnd WRecv r _ m => if 0 <? r then [(s, m)] else [] | _ => [] end.
(** Packets given to inside_write_cb; to outside_write_cb. *)
Definition inside (s : Z) (e : ev) : list bytes := match e with EInside p => [p] | _ => [] end.
Definition outside (s : Z) (e : ev) : list bytes := match e with EOutside p => [p] | _ => [] end.
(** Both: messages obtained and packets given to inside_write_cb, in order. *)
Definition act (s : Z) (e : ev) : list ((Z * bytes) + bytes) := map inl (got_msg s e) ++ map inr (inside s e).
(** The messages [d], each followed by the packets it brought. *)
Definition acts (ds : list ((Z * bytes) * list bytes)) : list ((Z * bytes) + bytes) :=
  flat_map (fun d => inl (fst d) :: map inr (snd d)) ds.
(** The same for things other than packets: messages obtained and the things [g]
    looks for, in order; ... *)
Definition both {B} (g : Z -> ev -> list B) (s : Z) (e : ev) : list ((Z * bytes) + B) := map inl (got_msg s e) ++ map inr (g s e).
(** ... the messages [ds], each followed by the things it brought. *)
Definition caused {B} (ds : list ((Z * bytes) * list B)) : list ((Z * bytes) + B) :=
  flat_map (fun d => inl (fst d) :: map inr (snd d)) ds.
(** Events given to event_cb. *)
Definition event (s : Z) (e : ev) : list Z := match e with EEvent v => [v] | _ => [] end.

(** An IPv4 packet as far as the library looks: 20 bytes and version 4. *)
Definition ipv4_packet (p : bytes) : bool := (20 <=? len p) && (ip_version p =? 4).

(** The packet a message carries that arrives in state [s] at a connection of
    version [major].[minor]: a DATA message, or one of the deprecated kind 13,
    whose length field does not exceed what is there, and which contains an IPv4
    packet.  Messages with fragments are not considered here. *)
Definition data_length (le : bool) (major minor : Z) (m : bytes) : Z :=
  if (major =? 1) && (minor =? 0) && le then field16le m 1 else field16 m 1.
Definition payload (le : bool) (major minor : Z) (x : Z * bytes) : list bytes :=
  let (s, m) := x in
  let p := if (msg_type m =? HE_MSGID_DATA) && (3 + data_length le major minor m <=? len m)
           then slice m 3 (data_length le major minor m)
           else if (msg_type m =? HE_MSGID_DEPRECATED_13) && (5 + field16 m 1 <=? len m)
           then slice m 5 (field16 m 1)
           else [] in
  if (s =? HE_STATE_ONLINE) && ipv4_packet p then [p] else [].

Definition is_frag (x : Z * bytes) : bool := msg_type (snd x) =? HE_MSGID_DATA_WITH_FRAG.

(** The fragment a message carries: packet id and fragment; [None] if the length
    field exceeds what is there or the fragment reaches beyond 1500 bytes. *)
Definition frag_in (m : bytes) : option (Z * fragment) :=
  let n := field16 m 1 in
  let off := (field16 m 5 mod 8192) * 8 in
  if (7 <=? len m) && (7 + n <=? len m) && (off + n <=? 1500)
  then Some (field16 m 3, Fragment off ((field16 m 5 / 8192) mod 2) (slice m 7 n)) else None.
(** Received message [x] brings a fragment for the place of packet [id] in a table
    of [n] entries. *)
Definition at_place (n id : Z) (x : Z * bytes) : bool :=
  (fst x =? HE_STATE_ONLINE) && is_frag x &&
  match frag_in (snd x) with Some (i, _) => i mod n =? id mod n | None => false end.

(** ... and nothing is stored at that place. *)
Definition place_free (c : conn) (id : Z) : Prop :=
  exists t, c_frag_tbl c = Some t /\ t_get t (id mod t_num t) = None.

(** The answers of the clock and of the allocator. *)
Definition clock (s : Z) (e : ev) : list Z := match e with EAsk QTime r => [r] | _ => [] end.
Definition allocs (s : Z) (e : ev) : list Z := match e with EAsk QAlloc r => [r] | _ => [] end.

(** ** Sending a packet *)

(** [p'] is [p] with the MSS of a TCP SYN lowered to [mss] if it is larger, and
    the TCP checksum field adjusted; any other packet is unchanged. *)
Definition mss_clamped (mss : Z) (p p' : bytes) : Prop :=
  len p' = len p /\
  ((forall v, mss_value_at p v -> be16_at p v <= mss) -> p' = p) /\
  (forall v, mss_value_at p v -> mss < be16_at p v ->
     be16_at p' v = mss /\
     forall j, 0 <= j -> j <> v -> j <> v + 1 -> j <> ip_hlen p + 16 -> j <> ip_hlen p + 17 ->
               byte_at p' j = byte_at p j).

(** The path MTU in force: 1350 unless a search has completed. *)
Definition path_mtu (c : conn) : Z :=
  if (pm_state (c_pm c) =? HE_PMTUD_STATE_SEARCH_COMPLETE) && negb (pm_eff (c_pm c) =? 0)
  then pm_eff (c_pm c) else 1350.

(** The packet has to be cut: datagram connection and larger than the path MTU. *)
Definition must_cut (c : conn) (p : bytes) : bool :=
  (c_ctype c =? HE_CONNECTION_TYPE_DATAGRAM) && (path_mtu c <? len p).

(** Why a packet is refused; [None]: it is not. *)
Definition refusal (c : conn) (p : bytes) : option Z :=
  if negb (c_state c =? HE_STATE_ONLINE) then Some HE_ERR_INVALID_CONN_STATE
  else if len p <? 20 then Some HE_ERR_PACKET_TOO_SMALL
  else if c_mtu c - 114 <? len p then Some HE_ERR_PACKET_TOO_LARGE
  else if negb (ip_version p =? 4) then Some HE_ERR_UNSUPPORTED_PACKET_TYPE
  else if path_mtu c - 40 <? 512 then Some HE_ERR_FAILED
  else if negb (must_cut c p) && (1497 <? len p) then Some HE_ERR_FAILED
  else None.

(** The size of a data message's contents under a padding setting. *)
Definition padded_size (padding n : Z) : Z :=
  if 1350 <=? n then n
  else if padding =? HE_PADDING_NONE then n
  else if padding =? HE_PADDING_FULL then 1350
  else if n <=? 450 then 450
  else if n <=? 900 then 900
  else 1350.

(** [cs] cuts [p] in pieces of [n] bytes, the last one possibly shorter. *)
Definition chopped (n : Z) (cs : list bytes) (p : bytes) : Prop :=
  concat cs = p /\ Forall (fun c => 0 < len c <= n) cs /\
  forall i, (S i < length cs)%nat -> len (nth i cs []) = n.

(** The fragment messages for the pieces. *)
Fixpoint fragments (id offset : Z) (cs : list bytes) : list bytes :=
  match cs with
  | [] => []
  | c :: cs => fragment_message id offset (match cs with [] => false | _ => true end) c
               :: fragments id (offset + len c) cs
  end.

(** ** Pings *)
(** PONG events. *)
Definition pong_event (s : Z) (e : ev) : list unit := match e with EEvent v => if v =? HE_EVENT_PONG then [tt] else [] | _ => [] end.
(** Is [m] a pong for the ping [id]? *)
Definition is_pong (id : Z) (m : bytes) : bool := (msg_type m =? HE_MSGID_PONG) && (5 <=? len m) && (field16 m 1 =? id).
(** Is [m] a ping? *)
Definition is_ping (m : bytes) : bool := (msg_type m =? HE_MSGID_PING) && (5 <=? len m).
(** The id of the ping sent by the last he_conn_send_keepalive that succeeded
    (the last message sent before it returned); 0 if there was none. *)
Fixpoint awaited (t : trace) : Z :=
  match t with
  | [] => 0
  | (_, ERet OKeepalive rc) :: past => if rc =? HE_SUCCESS then field16 (last (collect sent past) []) 1 else awaited past
  | _ :: past => awaited past
  end.

(** ** Path MTU discovery *)
(** Probes sent: id and size.  A probe is a PING with a payload; its size is that
    of a packet whose data message is as long. *)
Definition probe (s : Z) (e : ev) : list (Z * Z) :=
  match e with
  | EWOp (WSend m) => if (msg_type m =? HE_MSGID_PING) && (5 <? len m) then [(field16 m 1, len m - 3)] else []
  | _ => []
  end.
(** The sizes the peer has acknowledged: it sent a PONG with the id of an earlier
    probe of that size. *)
Fixpoint acknowledged (t : trace) : list Z :=
  match t with
  | [] => []
  | (s, e) :: past =>
    flat_map (fun x => if msg_type (snd x) =? HE_MSGID_PONG
                       then map snd (filter (fun pr => fst pr =? field16 (snd x) 1) (collect probe past)) else []) (got_msg s e)
    ++ acknowledged past
  end.

(** ** What goes over the wire *)
(** wolfSSL handing over a buffer ([Written], with the result it gets), and the
    calls of outside_write_cb this leads to. *)
Inductive wire_item : Type :=
| Packet (p : bytes)
| Result (v : Z)
| Written (buf : bytes) (r : Z).
Definition wire (s : Z) (e : ev) : list (Z * wire_item) :=
  match e with
  | EOutside p => [(s, Packet p)]
  | ECbRet KOutside v => [(s, Result v)]
  | EWOut buf r => [(s, Written buf r)]
  | _ => []
  end.
(** The session a datagram shows. *)
Definition session_shown (no_roaming : bool) (session pending : Z) : Z :=
  if no_roaming then HE_PACKET_SESSION_REJECT else if pending =? 0 then session else pending.
(** Received message [x] gives a client [c] the session [sid]: the configuration
    a server sends has it in its last 8 bytes. *)
Definition session_told (le : bool) (c : conn) (x : Z * bytes) (sid : Z) : Prop :=
  c_is_server c = false /\ fst x = HE_STATE_AUTHENTICATING /\ msg_type (snd x) = HE_MSGID_CONFIG_IPV4 /\
  slice (snd x) 97 8 = bytes64 le sid /\ 0 <= sid < 2 ^ 64.
(** [rets] are the results of at most [n] attempts, the last one failing unless
    there were [n]; [ok]: all succeeded. *)
Fixpoint attempts (n : nat) (rets : list Z) (ok : bool) : Prop :=
  match n, rets with
  | O, [] => ok = true
  | S n, v :: rets => if v =? HE_SUCCESS then attempts n rets ok else rets = [] /\ ok = false
  | _, _ => False
  end.
(** One buffer: state, the calls it leads to, the buffer, the result. *)
Definition writing : Type := Z * list wire_item * bytes * Z.
Definition writing_items (x : writing) : list (Z * wire_item) :=
  let '(s, items, buf, r) := x in map (fun i => (s, i)) items ++ [(s, Written buf r)].
(** What must happen on a connection [c] without outside plugins (whose session
    and pending session are [session] and [pending]). *)
Definition writing_ok (le : bool) (c : conn) (session pending : Z) (x : writing) : Prop :=
  let '(s, items, buf, r) := x in
  let emit p n len :=
    if cb_outside (c_cbs c)
    then exists rets ok, attempts n rets ok /\ items = flat_map (fun v => [Packet p; Result v]) rets /\
                         r = (if ok then len else WOLFSSL_CBIO_ERR_GENERAL)
    else items = [] /\ r = len in
  if negb (c_wolf_ctx c) then items = [] /\ r = WOLFSSL_CBIO_ERR_GENERAL
  else if c_io c =? HE_CONNECTION_TYPE_STREAM
  then let p := firstn (Z.to_nat 1500) buf in emit p 1%nat (len p)
  else if 1484 <? len buf then items = [] /\ r = WOLFSSL_CBIO_ERR_GENERAL
  else emit (wire_header le (c_vmaj c) (c_vmin c) (c_aggr c) (session_shown (c_no_roam c) session pending) ++ buf)
            (if (s =? HE_STATE_ONLINE) && negb (c_aggr c) then 1%nat else 3%nat) (len buf).
