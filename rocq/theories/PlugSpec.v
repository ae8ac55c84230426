(** Vocabulary for C17: calls of plugins. *)
From Verif Require Import Base Codes Ctx ConnState ConnSpec MssSpec WireSpec MsgSpec CallSpec.

(** Calls of a plugin's do_ingress or do_egress, their results (code, packet), and
    where the packets come from and go to: messages received (with the state at
    that moment), packets given to inside_write_cb and outside_write_cb, and
    buffers wolfSSL hands over (with the answer it gets). *)
Inductive plug_item : Type :=
| PCalled (ingress : bool) (id : Z) (data : bytes) (cap : Z)
| PAnswer (rc : Z) (data : bytes)
| PGot (s : Z) (m : bytes)
| PInside (p : bytes)
| POutside (p : bytes)
| PWritten (buf : bytes) (r : Z).
Definition plugged (s : Z) (e : ev) : list plug_item :=
  match e with
  | EPlugin b i d c => [PCalled b i d c]
  | EPluginRet r d => [PAnswer r d]
  | EWEnd WRecv r _ m => if 0 <? r then [PGot s m] else []
  | EInside p => [PInside p]
  | EOutside p => [POutside p]
  | EWOut b r => [PWritten b r]
  | _ => []
  end.

(** The plugins of a chain that have the function, in the order of the calls:
    registration order for ingress, the reverse for egress. *)
Definition takers (f : plug -> bool) (ch : chain) : list Z :=
  flat_map (fun x => match x with Some p => if f p then [pl_id p] else [] | None => [] end) ch.
Definition in_order (ingress : bool) (ch : chain) : list Z :=
  if ingress then takers pl_in ch else rev (takers pl_out ch).

(** The plugins [ids] are called one after the other, each with what the one
    before it left, the first one with [d]; one that fails or drops is the last.
    [rc] and [out]: the result. *)
Fixpoint pass (ingress : bool) (cap : Z) (ids : list Z) (d : bytes) (l : list plug_item) (rc : Z) (out : bytes) : Prop :=
  match ids with
  | [] => l = [] /\ rc = HE_SUCCESS /\ out = d
  | id :: ids =>
    exists r o l', l = PCalled ingress id d cap :: PAnswer r o :: l' /\
      if r =? HE_PLUGIN_FAIL then l' = [] /\ rc = HE_ERR_FAILED /\ out = o
      else if r =? HE_PLUGIN_DROP then l' = [] /\ rc = HE_ERR_PLUGIN_DROP /\ out = o
      else pass ingress cap ids o l' rc out
  end.
(** The log entries of such calls, newest first. *)
Definition entry (s : Z) (x : plug_item) : trace :=
  match x with PCalled b i d c => [(s, EPlugin b i d c)] | PAnswer r d => [(s, EPluginRet r d)] | _ => [] end.
Definition entries (s : Z) (l : list plug_item) : trace := rev (flat_map (entry s) l).

(** The packet made of a buffer wolfSSL hands over; [None]: the buffer is refused. *)
Definition framed (le : bool) (c : conn) (buf p : bytes) : Prop :=
  c_wolf_ctx c = true /\
  if c_io c =? HE_CONNECTION_TYPE_STREAM then p = firstn (Z.to_nat 1500) buf
  else len buf <= 1484 /\ exists s, p = wire_header le (c_vmaj c) (c_vmin c) (c_aggr c) s ++ buf.

(** The packet in a message that arrives in state [s]; [None]: there is none, or
    only a fragment. *)
Definition packet_in (le : bool) (c : conn) (s : Z) (m : bytes) : option bytes :=
  let n := data_length le (c_vmaj c) (c_vmin c) m in
  if negb (s =? HE_STATE_ONLINE) then None
  else if (msg_type m =? HE_MSGID_DATA) && (3 + n <=? len m) then Some (slice m 3 n)
  else if (msg_type m =? HE_MSGID_DEPRECATED_13) && (5 + field16 m 1 <=? len m) then Some (slice m 5 (field16 m 1))
  else None.

(** A use of the chains by a connection with the settings [c]:
    - a buffer of wolfSSL's is framed, passes the outside chain, and what comes
      out is written, up to three times; if the chain drops it, wolfSSL is told
      that all is well; if it fails, that it is not;
    - a buffer is refused;
    - the packet in a message received passes the inside chain, and what comes out
      is handed over if it is an IPv4 packet and not longer than before;
    - the same for a packet put together of fragments when a fragment arrives;
    - a message without a packet is received. *)
Inductive use (le : bool) (c : conn) : list plug_item -> Prop :=
| use_outside buf p l rc out n r :
    framed le c buf p -> pass false 1500 (in_order false (c_out_chain c)) p l rc out ->
    (if (rc =? HE_SUCCESS) && (len out <=? 1500) && cb_outside (c_cbs c) then (1 <= n <= 3)%nat else n = 0%nat) ->
    (if rc =? HE_ERR_PLUGIN_DROP then r = len buf else if (rc =? HE_SUCCESS) && (len out <=? 1500) then True else r = WOLFSSL_CBIO_ERR_GENERAL) ->
    use le c (l ++ repeat (POutside out) n ++ [PWritten buf r])
| use_refused buf : use le c [PWritten buf WOLFSSL_CBIO_ERR_GENERAL]
| use_inside s m p l rc out :
    packet_in le c s m = Some p \/ s = HE_STATE_ONLINE /\ is_frag (s, m) = true ->
    pass false (len p) (in_order false (c_in_chain c)) p l rc out ->
    use le c (PGot s m :: l ++ if (rc =? HE_SUCCESS) && (len out <=? len p) && ipv4_packet out && cb_inside (c_cbs c) then [PInside out] else [])
| use_message s m : packet_in le c s m = None -> use le c [PGot s m].

(** Why a packet is refused before any plugin sees it. *)
Definition refused_early (c : conn) (p : bytes) : option Z :=
  if negb (c_state c =? HE_STATE_ONLINE) then Some HE_ERR_INVALID_CONN_STATE
  else if len p <? 20 then Some HE_ERR_PACKET_TOO_SMALL
  else if c_mtu c - 114 <? len p then Some HE_ERR_PACKET_TOO_LARGE
  else if negb (ip_version p =? 4) then Some HE_ERR_UNSUPPORTED_PACKET_TYPE
  else if path_mtu c - 40 <? 512 then Some HE_ERR_FAILED
  else None.

(** What is sent for a packet [out] that has passed the plugins. *)
Definition sending (le : bool) (c : conn) (out : bytes) (l : list (bytes * Z * Z)) (rc : Z) : Prop :=
  if c_mtu c - 114 <? len out then l = [] /\ rc = HE_ERR_FAILED
  else if must_cut c out then exists cs, chopped (8 * ((path_mtu c - 4) / 8)) cs out /\ writes (fragments (c_frag_next c) 0 cs) l rc
  else if 1497 <? len out then l = [] /\ rc = HE_ERR_FAILED
  else writes [data_message le (c_vmaj c) (c_vmin c) out (padded_size (c_padding c) (len out) - len out)] l rc.
