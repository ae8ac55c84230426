(** Model of the connection code: src/he/conn.c, flow.c, msg_handlers.c, wolf.c,
    pmtud.c, core.c, plugin_chain.c and the sending part of frag.c (single
    threaded build).  Functions are in the order in which they call each other.

    General simplifications: NULL arguments are not modelled; debugging output is
    dropped; wolfSSL, the host's callbacks, plugins, the clock, the allocator and
    the RNG are the environment [E]; a callback is an entry of the log, then
    whatever API calls the host makes inside it ([hook]), then its result. *)
From Verif Require Import Base Codes Ctx Config Mss Frag Wire ConnState.

Section Conn.
Variable E : env.
Variable hook : M unit.

(** A callback without a result the code looks at. *)
Definition notify (e : ev) : M unit := emit e ;;; hook.

(** A callback with a result. *)
Definition callback (e : ev) (k : cbk) : M Z :=
  emit e ;;;
  hook ;;;
  let! t := log in
  let v := e_cb E t in
  emit (ECbRet k v) ;;;
  ret v.

Definition ask (q : query) : M Z :=
  let! t := log in
  let r := e_ask E t q in
  emit (EAsk q r) ;;;
  ret r.

(** ** plugin_chain.c *)

(** One call of do_ingress / do_egress.  The plugin gets the packet and the
    capacity and leaves a result and a packet. *)
Definition call_plugin (ingress : bool) (id : Z) (data : bytes) (cap : Z) : M (Z * bytes) :=
  emit (EPlugin ingress id data cap) ;;;
  let! t := log in
  let '(rc, out) := e_plugin E t in
  let out := u8s out in
  emit (EPluginRet rc out) ;;;
  ret (rc, out).

(** plugin_chain.c:56-77 he_plugin_ingress *)
Fixpoint plugin_ingress (ch : chain) (data : bytes) (cap : Z) : M (Z * bytes) :=
  match ch with
  | [] => ret (HE_SUCCESS, data)
  | node :: next =>
    match node with
    | Some p =>
      if pl_in p then
        let! (rc, out) := call_plugin true (pl_id p) data cap in
        if rc =? HE_PLUGIN_FAIL then ret (HE_ERR_FAILED, out)
        else if rc =? HE_PLUGIN_DROP then ret (HE_ERR_PLUGIN_DROP, out)
        else plugin_ingress next out cap
      else plugin_ingress next data cap
    | None => plugin_ingress next data cap
    end
  end.

(** plugin_chain.c:79-103 he_plugin_egress *)
Fixpoint plugin_egress (ch : chain) (data : bytes) (cap : Z) : M (Z * bytes) :=
  match ch with
  | [] => ret (HE_SUCCESS, data)
  | node :: next =>
    let! (res, data) := plugin_egress next data cap in
    if negb (res =? HE_SUCCESS) then ret (res, data) else
    match node with
    | Some p =>
      if pl_out p then
        let! (rc, out) := call_plugin false (pl_id p) data cap in
        if rc =? HE_PLUGIN_FAIL then ret (HE_ERR_FAILED, out)
        else if rc =? HE_PLUGIN_DROP then ret (HE_ERR_PLUGIN_DROP, out)
        else ret (HE_SUCCESS, out)
      else ret (HE_SUCCESS, data)
    | None => ret (HE_SUCCESS, data)
    end
  end.

(** ** wolf.c: the I/O callbacks wolfSSL invokes *)

(** wolf.c:26-72 he_wolf_dtls_read (flow.h:118-145, single threaded). Result and
    the bytes copied to wolfSSL's buffer. *)
Definition dtls_read (sz : Z) : M (Z * bytes) :=
  let! r := get c_rx in
  let! ctx := get c_wolf_ctx in
  if (sz <? 0) || negb ctx then ret (WOLFSSL_CBIO_ERR_GENERAL, []) else
  match rx_data r with
  | None => ret (WOLFSSL_CBIO_ERR_WANT_READ, [])
  | Some d =>
    if rx_seen r then ret (WOLFSSL_CBIO_ERR_WANT_READ, [])
    else if sz <? len d then
      upd (set_rx (set_rx_seen true r)) ;;; ret (0, [])
    else if negb (rx_live r) then stuck UB_stale
    else
      upd (set_rx (set_rx_seen true r)) ;;; ret (len d, d)
  end.

(** wolf.c:182-228 he_wolf_tls_read *)
Definition tls_read (sz : Z) : M (Z * bytes) :=
  let! r := get c_rx in
  let! ctx := get c_wolf_ctx in
  if (sz <? 0) || negb ctx then ret (WOLFSSL_CBIO_ERR_GENERAL, [])
  else if rx_left r =? 0 then ret (WOLFSSL_CBIO_ERR_WANT_READ, [])
  else match rx_rest r with
  | None => ret (WOLFSSL_CBIO_ERR_GENERAL, [])
  | Some rest =>
    let n := if sz <? rx_left r then sz else rx_left r in
    if negb (rx_live r) then stuck UB_stale else
    let! d := lift (ldn rest 0 n) in
    upd (set_rx (Rx (rx_data r) (rx_seen r) (rx_left r - n)
                    (Some (skipn (Z.to_nat n) rest)) (rx_live r))) ;;;
    ret (n, d)
  end.

(** Calling conn->outside_write_cb; calling a NULL pointer is UB. *)
Definition call_outside (p : bytes) : M Z :=
  let! k := get c_cbs in
  if cb_outside k then callback (EOutside p) KOutside else stuck UB_null.

(** wolf.c:106-180 he_wolf_dtls_write, he_wolf_dtls_write_internal *)
Definition dtls_write (buf : bytes) : M Z :=
  let! c := get (fun c => c) in
  let sz := len buf in
  if negb (c_wolf_ctx c) then ret WOLFSSL_CBIO_ERR_GENERAL
  else if HE_MAX_WIRE_MTU <? sz + sizeof_wire_hdr then ret WOLFSSL_CBIO_ERR_GENERAL
  else
    let! b := lift (write_packet_header (e_le E) (c_vmaj c) (c_vmin c) (c_aggr c) (c_no_roam c)
                      (c_session c) (c_pending c) (zeros HE_MAX_WIRE_MTU)) in
    let! b := lift (stn b sizeof_wire_hdr buf) in
    let! p := lift (ldn b 0 (sz + sizeof_wire_hdr)) in
    let! (res, p) := plugin_egress (c_out_chain c) p HE_MAX_WIRE_MTU in
    if res =? HE_ERR_PLUGIN_DROP then ret sz
    else if negb (res =? HE_SUCCESS) || (HE_MAX_WIRE_MTU <? len p)
    then ret WOLFSSL_CBIO_ERR_GENERAL
    else
      let! k := get c_cbs in
      if cb_outside k then
        let! res := call_outside p in
        if negb (res =? HE_SUCCESS) then ret WOLFSSL_CBIO_ERR_GENERAL else
        let! st := get c_state in
        let! ag := get c_aggr in
        if negb (st =? HE_STATE_ONLINE) || ag then
          let! res := call_outside p in
          if negb (res =? HE_SUCCESS) then ret WOLFSSL_CBIO_ERR_GENERAL else
          let! res := call_outside p in
          if negb (res =? HE_SUCCESS) then ret WOLFSSL_CBIO_ERR_GENERAL else
          ret sz
        else ret sz
      else ret sz.

(** wolf.c:230-288 he_wolf_tls_write, he_wolf_tls_write_internal *)
Definition tls_write (buf : bytes) : M Z :=
  let! c := get (fun c => c) in
  let sz := len buf in
  if negb (c_wolf_ctx c) then ret WOLFSSL_CBIO_ERR_GENERAL else
  let n := if sz <? HE_MAX_WIRE_MTU then sz else HE_MAX_WIRE_MTU in
  let! p := lift (ldn buf 0 n) in
  let! (res, p) := plugin_egress (c_out_chain c) p HE_MAX_WIRE_MTU in
  if res =? HE_ERR_PLUGIN_DROP then ret sz
  else if negb (res =? HE_SUCCESS) || (HE_MAX_WIRE_MTU <? len p)
  then ret WOLFSSL_CBIO_ERR_GENERAL
  else
    let! k := get c_cbs in
    if cb_outside k then
      let! res := call_outside p in
      if negb (res =? HE_SUCCESS) then ret WOLFSSL_CBIO_ERR_GENERAL else ret n
    else ret n.

(** ssl_ctx.c:135-141: which callbacks the wolfSSL object has. *)
Definition io_read (sz : Z) : M (Z * bytes) :=
  let! io := get c_io in
  let! (r, d) := (if io =? HE_CONNECTION_TYPE_STREAM then tls_read sz else dtls_read sz) in
  emit (EWIn sz r d) ;;; ret (r, d).
Definition io_write (buf : bytes) : M Z :=
  let! io := get c_io in
  let! r := (if io =? HE_CONNECTION_TYPE_STREAM then tls_write buf else dtls_write buf) in
  emit (EWOut buf r) ;;; ret r.

(** ** wolfSSL operations *)
Fixpoint run_strat (s : strat) : M (Z * Z * bytes) :=
  match s with
  | WRet r err data => ret (r, err, data)
  | WRead sz k => let! (r, d) := io_read sz in run_strat (k r d)
  | WWrite buf k => let! r := io_write (u8s buf) in run_strat (k r)
  end.

(** What the caller of a wolfSSL operation may rely on: wolfSSL_read into the
    1500-byte packet buffer (flow.c:225) returns the number of bytes it stored;
    the other operations store nothing. *)
Definition normal_result (o : wop) (r err : Z) (data : bytes) : Z * Z * bytes :=
  match o with
  | WRecv => match firstn (Z.to_nat HE_MAX_WIRE_MTU) (u8s data) with
             | [] => (if 0 <? r then 0 else r, err, [])
             | d => (len d, err, d)
             end
  | _ => (r, err, [])
  end.

(** A wolfSSL operation; on a NULL object wolfSSL returns BAD_FUNC_ARG and does
    nothing. *)
Definition wolf_op (o : wop) : M (Z * Z * bytes) :=
  emit (EWOp o) ;;;
  let! w := get c_wolf in
  let! x := (if w then let! t := log in
                       let! x := run_strat (e_wolf E t) in
                       let '(r, err, d) := x in ret (normal_result o r err d)
             else ret (BAD_FUNC_ARG, BAD_FUNC_ARG, [])) in
  let '(r, err, d) := x in
  emit (EWEnd o r err d) ;;;
  ret (r, err, d).

(** ** conn.c: state, messages, timers *)

(** conn.c:856-866 he_internal_generate_event *)
Definition generate_event (e : Z) : M unit :=
  let! k := get c_cbs in
  when (cb_event k) (notify (EEvent e)).

(** conn.c:449-483 he_internal_send_message *)
Definition send_message (msg : bytes) : M Z :=
  let! (r, err, _) := wolf_op (WSend msg) in
  if r <=? 0 then
    if err =? SSL_ERROR_NONE then ret HE_SUCCESS
    else if err =? SSL_ERROR_WANT_WRITE then ret HE_WANT_WRITE
    else if err =? SSL_ERROR_WANT_READ then ret HE_WANT_READ
    else if r =? 0 then ret HE_ERR_CONNECTION_WAS_CLOSED
    else upd (set_wolf_err err) ;;; ret HE_ERR_SSL_ERROR
  else ret HE_SUCCESS.

(** conn.c:417-432: the common part of he_internal_change_conn_state.  Result:
    whether the state changed. *)
Definition set_conn_state (s : Z) : M bool :=
  let! st := get c_state in
  if st =? s then ret false else
  upd (set_state s) ;;;
  let! k := get c_cbs in
  when (cb_state k) (notify (EState s)) ;;;
  ret true.

(** conn.c:585-609 he_internal_send_auth_userpass *)
Definition send_auth_userpass : M Z :=
  let! c := get (fun c => c) in
  let! msg := lift (build_auth_userpass (c_username c) (c_password c)) in
  send_message msg.

(** conn.c:611-641 he_internal_send_auth_token *)
Definition send_auth_token : M Z :=
  let! c := get (fun c => c) in
  if negb (c_auth_type c =? HE_AUTH_TYPE_TOKEN) then ret HE_ERR_INVALID_CONN_STATE else
  let size := u16 (sizeof_auth_token + c_auth_len c) in
  if HE_MAX_WIRE_MTU <? size then ret HE_ERR_INVALID_CONN_STATE else
  let! b := lift (build_auth_buffer (e_le E) HE_MAX_WIRE_MTU (c_auth_type c) (c_auth_buf c) (c_auth_len c)) in
  let! msg := lift (ldn b 0 size) in
  send_message msg.

(** conn.c:643-668 he_internal_send_auth_buf *)
Definition send_auth_buf : M Z :=
  let! c := get (fun c => c) in
  let size := u16 (sizeof_auth_buf + c_auth_len c) in
  if HE_MAX_MTU <? size then ret HE_ERR_INVALID_CONN_STATE else
  let! b := lift (build_auth_buffer (e_le E) HE_MAX_MTU (c_auth_type c) (c_auth_buf c) (c_auth_len c)) in
  let! msg := lift (ldn b 0 size) in
  send_message msg.

(** conn.c:670-694 he_internal_send_auth.  The recursive call
    change_conn_state(AUTHENTICATING) does nothing after the callback. *)
Definition send_auth : M Z :=
  let! st := get c_state in
  if negb (st =? HE_STATE_LINK_UP) && negb (st =? HE_STATE_AUTHENTICATING)
  then ret HE_ERR_INVALID_CONN_STATE else
  let! _ := set_conn_state HE_STATE_AUTHENTICATING in
  let! ty := get c_auth_type in
  if ty =? HE_AUTH_TYPE_USERPASS then send_auth_userpass
  else if ty =? HE_AUTH_TYPE_TOKEN then send_auth_token
  else if ty =? HE_AUTH_TYPE_CB then send_auth_buf
  else ret HE_ERR_INVALID_AUTH_TYPE.

(** conn.c:417-447 he_internal_change_conn_state *)
Definition change_conn_state (s : Z) : M unit :=
  let! changed := set_conn_state s in
  if changed && (s =? HE_STATE_LINK_UP) then
    let! srv := get c_is_server in
    if negb srv then (let! _ := send_auth in ret tt) else ret tt
  else ret tt.

(** wolfSSL_version(conn->wolf_ssl), which reads the object without a NULL check
    (conn.c:723, 782, flow.c:504). *)
Definition ask_version : M Z :=
  let! w := get c_wolf in
  if w then ask QVersion else stuck UB_null.

(** conn.c:758-793 he_internal_update_timeout.  C's int division truncates. *)
Definition update_timeout : M unit :=
  let! st := get c_state in
  let! pr := get c_prog in
  if (st =? HE_STATE_ONLINE) && negb pr then ret tt else
  let! tmo := ask QTimeout in
  let tmo := if pr then tmo * HE_WOLF_RENEGOTIATION_TIMEOUT_MULTIPLIER
             else tmo * HE_WOLF_TIMEOUT_MULTIPLIER in
  upd (set_timeout tmo) ;;;
  let! v := ask_version in
  let! quick := (if negb (v =? DTLS1_2_VERSION) then ask QQuickTimeout else ret 0) in
  when (negb (quick =? 0)) (upd (set_timeout (Z.quot tmo HE_WOLF_QUICK_TIMEOUT_DIVIDER))) ;;;
  let! k := get c_cbs in
  let! running := get c_nudging in
  if cb_nudge k && negb running then
    let! ms := get c_timeout in
    notify (ENudge ms) ;;;
    upd (set_nudging true)
  else ret tt.

(** conn.c:795-805 he_conn_get_nudge_time *)
Definition get_nudge_time (c : conn) : Z :=
  if (c_state c =? HE_STATE_ONLINE) && negb (c_prog c) then 0 else c_timeout c.

(** conn.c:485-501 he_internal_send_goodbye *)
Definition send_goodbye : M unit :=
  let! msg := lift build_goodbye in
  let! _ := send_message msg in
  ret tt.

(** conn.c:868-881 he_internal_generate_session_id *)
Definition generate_session_id : M (Z * Z) :=
  let! rc := ask QRng in
  if negb (rc =? 0) then ret (HE_ERR_RNG_FAILURE, 0) else
  let! v := ask QRngValue in
  ret (HE_SUCCESS, u64 v).

(** conn.c:706-756 he_internal_renegotiate_ssl *)
Definition renegotiate_ssl : M Z :=
  upd (set_due false) ;;;
  let! pr := get c_prog in
  let! st := get c_state in
  if pr || negb (st =? HE_STATE_ONLINE) then ret HE_SUCCESS else
  let! v := ask_version in
  let! sup := (if v =? DTLS1_2_VERSION then ask QRenegSupport else ret 1) in
  if sup =? 0 then ret HE_SUCCESS else
  let! (r, err, _) := wolf_op (if v =? DTLS1_2_VERSION then WRehandshake else WUpdateKeys) in
  upd (set_prog true) ;;;
  generate_event HE_EVENT_SECURE_RENEGOTIATION_STARTED ;;;
  if negb (r =? SSL_SUCCESS) then
    if (err =? SSL_ERROR_NONE) || (err =? SSL_ERROR_WANT_READ) || (err =? SSL_ERROR_WANT_WRITE) ||
       (err =? APP_DATA_READY)
    then update_timeout ;;; ret HE_SUCCESS
    else if err =? SECURE_RENEGOTIATION_E then ret HE_ERR_SECURE_RENEGOTIATION_ERROR
    else upd (set_wolf_err err) ;;; ret HE_ERR_SSL_ERROR
  else ret HE_SUCCESS.

(** ** pmtud.c *)
Definition upd_pm (f : pmtud -> pmtud) : M unit := upd (fun c => set_pm (f (c_pm c)) c).

(** calling conn->pmtud_time_cb if it is set *)
Definition pm_time (ms : Z) : M Z := callback (EPmTime ms) KPmTime.

(** pmtud.c:37-45 he_internal_pmtud_change_state *)
Definition pm_change_state (s : Z) : M unit :=
  upd_pm (set_pm_state s) ;;;
  let! k := get c_cbs in
  when (cb_pmstate k) (notify (EPmState s)).

(** pmtud.c:47-94 he_internal_pmtud_send_probe *)
Definition pm_send_probe (mtu : Z) : M Z :=
  let! st := get c_state in
  if negb (st =? HE_STATE_ONLINE) then ret HE_ERR_INVALID_CONN_STATE
  else if (mtu <? MIN_PLPMTU) || (MAX_PLPMTU <? mtu) then ret HE_ERR_INVALID_MTU_SIZE
  else
    let! id := get c_ping_next in
    upd (set_ping_next (u16 (id + 1))) ;;;
    let payload := u16 (mtu + sizeof_data - sizeof_ping) in
    let! b := lift (build_ping (e_le E) HE_MAX_WIRE_MTU id payload) in
    upd_pm (fun p => set_pm_size mtu (set_pm_count (u8 (pm_count p + 1)) p)) ;;;
    let! msg := lift (ldn b 0 (sizeof_ping + payload)) in
    let! res := send_message msg in
    (if negb (res =? HE_SUCCESS) then ret tt else upd_pm (set_pm_id id)) ;;;
    let! k := get c_cbs in
    (if cb_pmtime k
     then let! _ := pm_time (if negb (res =? HE_SUCCESS) then 10 else PMTUD_PROBE_TIMEOUT_MS) in ret tt
     else ret tt) ;;;
    ret HE_SUCCESS.

(** pmtud.c:329-339 he_internal_pmtud_retry_probe *)
Definition pm_retry_probe (delay : Z) : M Z :=
  let! k := get c_cbs in
  let! r := (if cb_pmtime k then pm_time delay else ret HE_ERR_PMTUD_CALLBACKS_NOT_SET) in
  upd_pm (set_pm_count 0) ;;;
  ret r.

(** pmtud.c:202-231 he_internal_pmtud_start_base_probing *)
Definition pm_start_base_probing : M Z :=
  let! p := get c_pm in
  if pm_state p =? HE_PMTUD_STATE_BASE then ret HE_SUCCESS
  else if negb ((pm_state p =? HE_PMTUD_STATE_DISABLED) || (pm_state p =? HE_PMTUD_STATE_SEARCHING) ||
                (pm_state p =? HE_PMTUD_STATE_SEARCH_COMPLETE))
  then ret HE_ERR_INVALID_CONN_STATE
  else
    pm_change_state HE_PMTUD_STATE_BASE ;;;
    upd_pm (fun p => set_pm_count 0 (set_pm_base INITIAL_PLPMTU p)) ;;;
    let! p := get c_pm in
    pm_send_probe (pm_base p).

(** pmtud.c:233-257 he_internal_pmtud_base_confirmed *)
Definition pm_base_confirmed : M Z :=
  let! p := get c_pm in
  if negb ((pm_state p =? HE_PMTUD_STATE_BASE) || (pm_state p =? HE_PMTUD_STATE_ERROR))
  then ret HE_ERR_INVALID_CONN_STATE
  else
    pm_change_state HE_PMTUD_STATE_SEARCHING ;;;
    upd_pm (fun p => set_pm_big true (set_pm_count 0 p)) ;;;
    let! p := get c_pm in
    pm_send_probe (u16 (pm_base p + PMTUD_PROBE_BIG_STEP)).

(** pmtud.c:259-277 he_internal_pmtud_confirm_base_failed *)
Definition pm_confirm_base_failed : M Z :=
  let! p := get c_pm in
  if negb (pm_state p =? HE_PMTUD_STATE_BASE) then ret HE_ERR_INVALID_CONN_STATE
  else
    pm_change_state HE_PMTUD_STATE_ERROR ;;;
    pm_retry_probe PMTUD_ERROR_RETRY_TIMEOUT_MS.

(** pmtud.c:279-301 he_internal_pmtud_search_completed *)
Definition pm_search_completed : M Z :=
  let! p := get c_pm in
  if negb (pm_state p =? HE_PMTUD_STATE_SEARCHING) then ret HE_ERR_INVALID_CONN_STATE
  else
    upd_pm (fun p => set_pm_eff (if pm_size p <? MAX_PLPMTU then pm_size p else MAX_PLPMTU) p) ;;;
    pm_change_state HE_PMTUD_STATE_SEARCH_COMPLETE ;;;
    pm_retry_probe PMTUD_SUCCESSFUL_SEARCH_RETRY_TIMEOUT_MS.

(** pmtud.c:303-327 he_internal_pmtud_blackhole_detected *)
Definition pm_blackhole_detected : M Z :=
  let! p := get c_pm in
  if negb ((pm_state p =? HE_PMTUD_STATE_SEARCHING) || (pm_state p =? HE_PMTUD_STATE_SEARCH_COMPLETE))
  then ret HE_ERR_INVALID_CONN_STATE
  else
    pm_change_state HE_PMTUD_STATE_BASE ;;;
    upd_pm (fun p => set_pm_count 0 (set_pm_base MIN_PLPMTU p)) ;;;
    let! p := get c_pm in
    pm_send_probe (pm_base p).

(** pmtud.c:96-146 he_internal_pmtud_handle_probe_ack *)
Definition pm_probe_ack (id : Z) : M Z :=
  let! p := get c_pm in
  if negb (pm_id p =? id) then ret HE_SUCCESS else
  let! k := get c_cbs in
  (if cb_pmtime k then (let! _ := pm_time 0 in ret tt) else ret tt) ;;;
  upd_pm (fun p => set_pm_count 0 (set_pm_id 0 p)) ;;;
  let! p := get c_pm in
  if pm_state p =? HE_PMTUD_STATE_BASE then pm_base_confirmed
  else if pm_state p =? HE_PMTUD_STATE_SEARCHING then
    if MAX_PLPMTU <=? pm_size p then pm_search_completed
    else
      let size := u16 (pm_size p + (if pm_big p then PMTUD_PROBE_BIG_STEP else PMTUD_PROBE_SMALL_STEP)) in
      let size := if size <? MAX_PLPMTU then size else MAX_PLPMTU in
      let! _ := pm_send_probe size in
      ret HE_SUCCESS
  else if pm_state p =? HE_PMTUD_STATE_ERROR then pm_base_confirmed
  else if pm_state p =? HE_PMTUD_STATE_SEARCH_COMPLETE
  then pm_retry_probe PMTUD_SUCCESSFUL_SEARCH_RETRY_TIMEOUT_MS
  else ret HE_SUCCESS.

(** pmtud.c:148-200 he_internal_pmtud_handle_probe_timeout *)
Definition pm_probe_timeout : M Z :=
  let! p := get c_pm in
  if pm_count p <? MAX_PROBES then pm_send_probe (pm_size p) else
  upd_pm (fun p => set_pm_count 0 (set_pm_id 0 p)) ;;;
  if pm_state p =? HE_PMTUD_STATE_BASE then
    if pm_size p =? INITIAL_PLPMTU then pm_send_probe MIN_PLPMTU
    else pm_confirm_base_failed
  else if pm_state p =? HE_PMTUD_STATE_SEARCHING then
    if pm_big p then
      upd_pm (set_pm_big false) ;;;
      pm_send_probe (u16 (u16 (pm_size p - PMTUD_PROBE_BIG_STEP) + PMTUD_PROBE_SMALL_STEP))
    else if pm_base p <? pm_size p then
      upd_pm (fun p => set_pm_size (u16 (pm_size p - PMTUD_PROBE_SMALL_STEP)) p) ;;;
      pm_search_completed
    else stuck UB_assert
  else if pm_state p =? HE_PMTUD_STATE_SEARCH_COMPLETE then pm_blackhole_detected
  else if pm_state p =? HE_PMTUD_STATE_ERROR then pm_retry_probe PMTUD_ERROR_RETRY_TIMEOUT_MS
  else ret HE_SUCCESS.

(** conn.c:1225-1230 he_conn_get_effective_pmtu *)
Definition effective_pmtu (c : conn) : Z :=
  if (pm_eff (c_pm c) =? 0) || negb (pm_state (c_pm c) =? HE_PMTUD_STATE_SEARCH_COMPLETE)
  then HE_MAX_MTU else pm_eff (c_pm c).

(** ** Sending inside packets *)

(** frag.c:49-81: the loop.  [length] is what is left, [offset] where it starts. *)
Fixpoint frag_loop (fuel : nat) (packet : bytes) (id offset length fsize : Z) : M Z :=
  if length <=? 0 then ret HE_SUCCESS else
  match fuel with
  | O => stuck UB_fuel
  | S fuel =>
    let! b := lift (frag_msg (e_le E) packet id offset length fsize) in
    let n := frag_len length fsize in
    let! msg := lift (ldn b 0 (n + sizeof_data_frag)) in
    let! rc := send_message msg in
    if negb (rc =? HE_SUCCESS) then ret rc
    else frag_loop fuel packet id (u16 (offset + n)) (length - n) fsize
  end.

(** frag.c:28-84 he_internal_frag_and_send_message ([length], [fsize] uint16_t) *)
Definition frag_and_send (packet : bytes) (fsize : Z) : M Z :=
  let length := u16 (len packet) in
  let fsize := 8 * (fsize / 8) in
  if length <=? fsize then ret HE_ERR_FAILED else
  let! id := get c_frag_next in
  upd (set_frag_next (u16 (id + 1))) ;;;
  frag_loop (Z.to_nat length) packet id 0 length fsize.

(** flow.c:37-39 he_internal_flow_should_fragment *)
Definition should_fragment (ctype pmtu length : Z) : bool :=
  (ctype =? HE_CONNECTION_TYPE_DATAGRAM) && (pmtu <? u16 length).

(** flow.c:41-142 he_conn_inside_packet_received *)
Definition inside_packet_received (packet : bytes) : M Z :=
  let! c := get (fun c => c) in
  if negb (c_state c =? HE_STATE_ONLINE) then ret HE_ERR_INVALID_CONN_STATE
  else if len packet <? HE_IPV4_HEADER_SIZE then ret HE_ERR_PACKET_TOO_SMALL
  else
    let capacity := u64 (c_mtu c - HE_PACKET_OVERHEAD) in
    if capacity <? len packet then ret HE_ERR_PACKET_TOO_LARGE else
    let! ok := lift (is_ipv4_packet_valid packet) in
    if negb ok then ret HE_ERR_UNSUPPORTED_PACKET_TYPE else
    let pmtu := effective_pmtu c in
    let! (rc, packet) := lift (clamp_mss (e_le E) packet (u16 (pmtu - HE_MSS_OVERHEAD))) in
    if negb (rc =? HE_SUCCESS) then ret rc else
    let! (res, packet) := plugin_ingress (c_in_chain c) packet capacity in
    if res =? HE_ERR_PLUGIN_DROP then ret HE_SUCCESS
    else if negb (res =? HE_SUCCESS) then ret HE_ERR_FAILED
    else if capacity <? len packet then ret HE_ERR_FAILED
    else if negb (should_fragment (c_ctype c) pmtu (len packet)) then
      if HE_MAX_WIRE_MTU <? len packet + sizeof_data then ret HE_ERR_FAILED else
      let actual := data_packet_length (c_padding c) (len packet) in
      let! b := lift (build_data (e_le E) (c_vmaj c) (c_vmin c) packet) in
      let! msg := lift (ldn b 0 (actual + sizeof_data)) in
      send_message msg
    else
      frag_and_send packet (u16 (pmtu + sizeof_data - sizeof_data_frag)).

(** ** msg_handlers.c *)

(** msg_handlers.c:41-66 he_handle_msg_ping *)
Definition handle_ping (msg : bytes) : M Z :=
  let! st := get c_state in
  if negb (st =? HE_STATE_ONLINE) then ret HE_ERR_INVALID_CONN_STATE
  else if len msg <? sizeof_ping then ret HE_ERR_PACKET_TOO_SMALL
  else
    let! id := lift (ldh16 (e_le E) msg 1) in
    let! pong := lift (build_pong (e_le E) id) in
    send_message pong.

(** msg_handlers.c:68-91 he_handle_msg_pong *)
Definition handle_pong (msg : bytes) : M Z :=
  if len msg <? sizeof_pong then ret HE_SUCCESS else
  let! raw := lift (ldh16 (e_le E) msg 1) in
  let id := ntohs (e_le E) raw in
  let! pend := get c_ping_pend in
  if id =? pend then generate_event HE_EVENT_PONG ;;; ret HE_SUCCESS
  else let! _ := pm_probe_ack id in ret HE_SUCCESS.

(** conn.c:533-548 he_internal_is_valid_state_for_server_config *)
Definition valid_state_for_server_config (st : Z) : bool :=
  (st =? HE_STATE_LINK_UP) || (st =? HE_STATE_AUTHENTICATING) ||
  (st =? HE_STATE_CONFIGURING) || (st =? HE_STATE_ONLINE).

(** msg_handlers.c:93-133 he_handle_msg_server_config *)
Definition handle_server_config (msg : bytes) : M Z :=
  let! c := get (fun c => c) in
  if c_is_server c then ret HE_ERR_INVALID_CONN_STATE
  else if negb (valid_state_for_server_config (c_state c)) then ret HE_ERR_INVALID_CONN_STATE
  else if len msg <? sizeof_server_config then ret HE_ERR_PACKET_TOO_SMALL
  else
    let! raw := lift (ldh16 (e_le E) msg 1) in
    let n := ntohs (e_le E) raw in
    if len msg - sizeof_server_config <? n then ret HE_ERR_POINTER_WOULD_OVERFLOW
    else if cb_srvcfg (c_cbs c) then
      let! b := lift (ldn msg sizeof_server_config n) in
      let! rc := callback (ESrvCfg b) KSrvCfg in
      if negb (rc =? HE_SUCCESS) then ret HE_ERR_CALLBACK_FAILED else ret HE_SUCCESS
    else ret HE_SUCCESS.

(** msg_handlers.c:135-205 he_handle_msg_config_ipv4 *)
Definition handle_config_ipv4 (msg : bytes) : M Z :=
  let! c := get (fun c => c) in
  if c_state c =? HE_STATE_ONLINE then ret HE_SUCCESS
  else if c_is_server c || negb (c_state c =? HE_STATE_AUTHENTICATING)
  then ret HE_ERR_INVALID_CONN_STATE
  else if len msg <? sizeof_config_ipv4 then ret HE_ERR_PACKET_TOO_SMALL
  else
    let! local := lift (get_ipstr msg 1) in
    let! peer := lift (get_ipstr msg 25) in
    let! dns := lift (get_ipstr msg 49) in
    let! field := lift (ldn msg 73 HE_MAX_IPV4_STRING_LENGTH) in
    let! mtu := lift (parse_mtu field) in
    let! session := lift (ldh64 (e_le E) msg 97) in
    upd (set_session session) ;;;
    change_conn_state HE_STATE_CONFIGURING ;;;
    let! k := get c_cbs in
    let! rc := (if cb_netcfg k then callback (ENetCfg local peer dns mtu) KNetCfg else ret HE_SUCCESS) in
    if negb (rc =? HE_SUCCESS) then ret HE_ERR_CALLBACK_FAILED else
    change_conn_state HE_STATE_ONLINE ;;;
    ret HE_SUCCESS.

(** msg_handlers.c:207-215 he_internal_send_auth_denied_response *)
Definition send_auth_denied : M unit :=
  let! msg := lift build_auth_response in
  let! _ := send_message msg in
  ret tt.

(** A 24-byte string field as the host's callback leaves it. *)
Definition field24 (s : bytes) : bytes :=
  firstn 24 (u8s s ++ zeros HE_MAX_IPV4_STRING_LENGTH).

(** msg_handlers.c:322-364, after the credentials were accepted *)
Definition auth_accepted : M Z :=
  let! session := get c_session in
  emit EPopulate ;;;
  hook ;;;
  let! t := log in
  let '(l, p, d) := e_cfg E t in
  let '(l, p, d) := (field24 l, field24 p, field24 d) in
  emit (ECfg l p d) ;;;
  let! t := log in
  let res := e_cb E t in
  emit (ECbRet KPopulate res) ;;;
  if negb (res =? HE_SUCCESS) then send_auth_denied ;;; ret res else
  let! msg := lift (build_config_ipv4 (e_le E) session l p d) in
  let! _ := send_message msg in
  change_conn_state HE_STATE_ONLINE ;;;
  ret HE_SUCCESS.

(** msg_handlers.c:311-320 and the rest: what happens once the verdict is known *)
Definition auth_verdict (ok : bool) (auth_res : Z) : M Z :=
  if negb ok then
    send_auth_denied ;;;
    change_conn_state HE_STATE_DISCONNECTING ;;;
    ret auth_res
  else auth_accepted.

(** msg_handlers.c:217-364 he_handle_msg_auth *)
Definition handle_auth (msg : bytes) : M Z :=
  let! c := get (fun c => c) in
  let k := c_cbs c in
  if negb (c_is_server c) &&
     (negb (c_state c =? HE_STATE_LINK_UP) && negb (c_state c =? HE_STATE_ONLINE))
  then ret HE_ERR_INVALID_CONN_STATE
  else if negb (cb_populate k) then ret HE_ERR_INVALID_CONN_STATE
  else if negb (cb_auth k) && negb (cb_authtok k) && negb (cb_authbuf k)
  then ret HE_ERR_INVALID_CONN_STATE
  else if len msg <? sizeof_auth_hdr then ret HE_ERR_PACKET_TOO_SMALL
  else
    let! ty := lift (ld8 msg 1) in
    if ty =? HE_AUTH_TYPE_USERPASS then
      if cb_auth k then
        if len msg <? sizeof_auth then ret HE_ERR_PACKET_TOO_SMALL else
        let! u := lift (ldn msg 4 HE_CONFIG_TEXT_FIELD_LENGTH) in
        let! p := lift (ldn msg (4 + HE_CONFIG_TEXT_FIELD_LENGTH) HE_CONFIG_TEXT_FIELD_LENGTH) in
        let! v := callback (EAuthUser u p) KAuth in
        let! un := get c_username in
        let! un := lift (strncpy un u HE_CONFIG_TEXT_FIELD_LENGTH) in
        let! un := lift (st8 un HE_CONFIG_TEXT_FIELD_LENGTH 0) in
        upd (set_username un) ;;;
        auth_verdict (negb (v =? 0)) HE_ERR_ACCESS_DENIED
      else auth_verdict false HE_ERR_ACCESS_DENIED_NO_AUTH_USERPASS_HANDLER
    else if ty =? HE_AUTH_TYPE_TOKEN then
      if cb_authtok k then
        if len msg <=? sizeof_auth_token then ret HE_ERR_PACKET_TOO_SMALL else
        let! raw := lift (ldh16 (e_le E) msg 2) in
        let n := ntohs (e_le E) raw in
        if len msg - sizeof_auth_token <? n then ret HE_ERR_PACKET_TOO_SMALL else
        let! b := lift (ldn msg sizeof_auth_token n) in
        let! v := callback (EAuthToken b) KAuth in
        auth_verdict (negb (v =? 0)) HE_ERR_ACCESS_DENIED
      else auth_verdict false HE_ERR_ACCESS_DENIED_NO_AUTH_TOKEN_HANDLER
    else if ty =? HE_AUTH_TYPE_CB then
      if cb_authbuf k then
        if len msg <=? sizeof_auth_buf then ret HE_ERR_PACKET_TOO_SMALL else
        let! raw := lift (ldh16 (e_le E) msg 2) in
        let n := ntohs (e_le E) raw in
        if len msg - sizeof_auth_buf <? n then ret HE_ERR_PACKET_TOO_SMALL else
        let! b := lift (ldn msg sizeof_auth_buf n) in
        let! v := callback (EAuthBuf ty b) KAuth in
        auth_verdict (negb (v =? 0)) HE_ERR_ACCESS_DENIED
      else auth_verdict false HE_ERR_ACCESS_DENIED_NO_AUTH_BUF_HANDLER
    else auth_verdict false HE_ERR_ACCESS_DENIED.

(** msg_handlers.c:366-397 internal_handle_data *)
Definition deliver (packet : bytes) : M Z :=
  let! ch := get c_in_chain in
  let! (res, out) := plugin_egress ch packet (len packet) in
  if res =? HE_ERR_PLUGIN_DROP then ret HE_SUCCESS
  else if negb (res =? HE_SUCCESS) then ret HE_ERR_FAILED
  else if len packet <? len out then ret HE_ERR_FAILED
  else
    let! ok := lift (is_ipv4_packet_valid out) in
    if negb ok then ret HE_ERR_BAD_PACKET else
    let! k := get c_cbs in
    when (cb_inside k) (notify (EInside out)) ;;;
    ret HE_SUCCESS.

(** msg_handlers.c:399-435 he_handle_msg_data *)
Definition handle_data (msg : bytes) : M Z :=
  let! c := get (fun c => c) in
  if negb (c_state c =? HE_STATE_ONLINE) then ret HE_ERR_INVALID_CONN_STATE
  else if len msg <? sizeof_data then ret HE_ERR_PACKET_TOO_SMALL
  else
    let! raw := lift (ldh16 (e_le E) msg 1) in
    let n := if (c_vmaj c =? 1) && (c_vmin c =? 0) then raw else ntohs (e_le E) raw in
    if len msg - sizeof_data <? n then ret HE_ERR_POINTER_WOULD_OVERFLOW else
    let! p := lift (ldn msg sizeof_data n) in
    deliver p.

(** msg_handlers.c:437-503 he_handle_msg_data_with_frag.  The table part is
    [frag_store]; an allocation or clock reading that the code does not make in
    some case is asked for all the same. *)
Definition handle_frag (msg : bytes) : M Z :=
  let! st := get c_state in
  if negb (st =? HE_STATE_ONLINE) then ret HE_ERR_INVALID_CONN_STATE
  else if len msg <? sizeof_data_frag then ret HE_ERR_PACKET_TOO_SMALL
  else
    let! raw := lift (ldh16 (e_le E) msg 1) in
    let n := ntohs (e_le E) raw in
    if len msg - sizeof_data_frag <? n then ret HE_ERR_POINTER_WOULD_OVERFLOW else
    let! raw := lift (ldh16 (e_le E) msg 5) in
    let off := ntohs (e_le E) raw in
    let offset := u16 (Z.land off HE_FRAG_OFF_MASK * 8) in
    let mf := Z.shiftr (Z.land off HE_FRAG_MF_MASK) 13 in
    if HE_MAX_WIRE_MTU <? offset + n then ret HE_ERR_POINTER_WOULD_OVERFLOW else
    let! raw := lift (ldh16 (e_le E) msg 3) in
    let id := ntohs (e_le E) raw in
    let! tbl := get c_frag_tbl in
    match tbl with
    | None => ret HE_ERR_NO_MEMORY
    | Some tbl =>
      let! a1 := ask QAlloc in
      let! now1 := ask QTime in
      let! now2 := ask QTime in
      let! a2 := ask QAlloc in
      let! data := lift (ldn msg sizeof_data_frag n) in
      let! (rc, asm, tbl) := lift (frag_store (negb (a1 =? 0)) (negb (a2 =? 0)) now1 now2 tbl id offset mf data) in
      upd (set_frag_tbl (Some tbl)) ;;;
      match asm with
      | None => ret rc
      | Some packet =>
        let! rc := deliver packet in
        upd (fun c => set_frag_tbl (match c_frag_tbl c with
                                    | None => None
                                    | Some t => Some (table_delete t id)
                                    end) c) ;;;
        ret rc
      end
    end.

(** msg_handlers.c:505-533 he_handle_msg_deprecated_13 *)
Definition handle_deprecated_13 (msg : bytes) : M Z :=
  let! st := get c_state in
  if negb (st =? HE_STATE_ONLINE) then ret HE_ERR_INVALID_CONN_STATE
  else if len msg <? sizeof_deprecated_13 then ret HE_ERR_PACKET_TOO_SMALL
  else
    let! raw := lift (ldh16 (e_le E) msg 1) in
    let n := ntohs (e_le E) raw in
    if len msg - sizeof_deprecated_13 <? n then ret HE_ERR_POINTER_WOULD_OVERFLOW else
    let! p := lift (ldn msg sizeof_deprecated_13 n) in
    deliver p.

(** flow.c:144-214 he_internal_flow_process_message, with the one-line handlers
    noop (msg_handlers.c:32), auth_response (544-551), goodbye (553-560). *)
Definition process_message (msg : bytes) : M Z :=
  if len msg <? sizeof_msg_hdr then upd (set_wolf_err 0) ;;; ret HE_ERR_SSL_ERROR else
  let! id := lift (ld8 msg 0) in
  let! srv := get c_is_server in
  if id =? HE_MSGID_NOOP then ret HE_SUCCESS
  else if id =? HE_MSGID_PING then handle_ping msg
  else if id =? HE_MSGID_PONG then handle_pong msg
  else if id =? HE_MSGID_AUTH then (if srv then handle_auth msg else ret HE_SUCCESS)
  else if id =? HE_MSGID_DATA then handle_data msg
  else if id =? HE_MSGID_CONFIG_IPV4 then (if negb srv then handle_config_ipv4 msg else ret HE_SUCCESS)
  else if id =? HE_MSGID_AUTH_RESPONSE then (if negb srv then ret HE_ERR_ACCESS_DENIED else ret HE_SUCCESS)
  else if id =? HE_MSGID_AUTH_RESPONSE_WITH_CONFIG then ret HE_SUCCESS
  else if id =? HE_MSGID_GOODBYE then ret HE_ERR_SERVER_GOODBYE
  else if id =? HE_MSGID_EXTENSION then ret HE_SUCCESS
  else if id =? HE_MSGID_DEPRECATED_13 then handle_deprecated_13 msg
  else if id =? HE_MSGID_SERVER_CONFIG then (if negb srv then handle_server_config msg else ret HE_SUCCESS)
  else if id =? HE_MSGID_DATA_WITH_FRAG then handle_frag msg
  else ret HE_SUCCESS.

(** ** flow.c: receiving *)

(** flow.c:216-265 he_internal_flow_fetch_message.  Result: return code and the
    message (None: has_packet is false). *)
Fixpoint fetch_message (fuel : nat) : M (Z * option bytes) :=
  match fuel with
  | O => stuck UB_fuel
  | S fuel =>
    let! (r, err, d) := wolf_op WRecv in
    if r <=? 0 then
      if err =? SSL_ERROR_NONE then ret (HE_SUCCESS, None)
      else if err =? APP_DATA_READY then fetch_message fuel
      else if (err =? SSL_ERROR_WANT_READ) || (err =? SSL_ERROR_WANT_WRITE) then ret (HE_SUCCESS, None)
      else if r =? 0 then ret (HE_ERR_CONNECTION_WAS_CLOSED, None)
      else
        upd (set_wolf_err err) ;;;
        let! ct := get c_ctype in
        ret (if ct =? HE_CONNECTION_TYPE_STREAM then HE_ERR_SSL_ERROR else HE_ERR_SSL_ERROR_NONFATAL, None)
    else ret (HE_SUCCESS, Some d)
  end.

(** flow.c:466-488: the loop of handle_messages *)
Fixpoint message_loop (fuel : nat) : M Z :=
  match fuel with
  | O => stuck UB_fuel
  | S fuel =>
    let! (rc, m) := fetch_message (e_fuel E) in
    if negb (rc =? HE_SUCCESS) then ret rc else
    match m with
    | None => ret HE_SUCCESS
    | Some msg =>
      let! rc := process_message msg in
      if negb (rc =? HE_SUCCESS) then ret rc else message_loop fuel
    end
  end.

(** flow.c:499-525: the renegotiation check after the loop *)
Definition check_renegotiation : M Z :=
  let! pr := get c_prog in
  if negb pr then ret HE_SUCCESS else
  let! v := ask_version in
  let! (rc, pending) :=
    (if v =? DTLS1_2_VERSION then let! p := ask QRenegPending in ret (0, p)
     else let! rc := ask QKeyUpdate in
          let! p := ask QKeyUpdatePending in ret (rc, p)) in
  if negb (rc =? 0) then
    let! err := ask QError in
    upd (set_wolf_err err) ;;; ret HE_ERR_SSL_ERROR
  else
    when (pending =? 0) (generate_event HE_EVENT_SECURE_RENEGOTIATION_COMPLETED) ;;;
    upd (set_prog (negb (pending =? 0))) ;;;
    update_timeout ;;;
    ret HE_SUCCESS.

(** flow.c:466-528 he_internal_flow_outside_data_handle_messages *)
Definition handle_messages : M Z :=
  let! rc := message_loop (e_fuel E) in
  if negb (rc =? HE_SUCCESS) then ret rc else
  let! due := get c_due in
  let! rc := (if due then renegotiate_ssl else ret HE_SUCCESS) in
  if negb (rc =? HE_SUCCESS) then ret rc else check_renegotiation.

(** flow.c:409-464 he_internal_flow_outside_data_verify_connection *)
Definition verify_connection : M Z :=
  let! first := get c_first in
  (if negb first then
     upd (set_first true) ;;; generate_event HE_EVENT_FIRST_MESSAGE_RECEIVED
   else ret tt) ;;;
  let! st := get c_state in
  if st =? HE_STATE_CONNECTING then
    let! (r, err, _) := wolf_op WNegotiate in
    if negb (r =? SSL_SUCCESS) then
      if negb (err =? SSL_ERROR_WANT_READ) && negb (err =? SSL_ERROR_WANT_WRITE) then
        if err =? ASN_SIG_CONFIRM_E then ret HE_ERR_CANNOT_VERIFY_SERVER_CERT
        else if err =? DOMAIN_NAME_MISMATCH then ret HE_ERR_SERVER_DN_MISMATCH
        else upd (set_wolf_err err) ;;; ret HE_ERR_SSL_ERROR
      else
        let! ct := get c_ctype in
        when (ct =? HE_CONNECTION_TYPE_DATAGRAM) update_timeout ;;;
        ret HE_SUCCESS
    else
      change_conn_state HE_STATE_LINK_UP ;;;
      handle_messages
  else handle_messages.

(** flow.c:267-297 he_internal_update_session_incoming *)
Definition update_session_incoming (s : Z) : M Z :=
  if s =? 0 then ret HE_SUCCESS else
  let! c := get (fun c => c) in
  if c_is_server c then
    if s =? c_session c then ret HE_SUCCESS
    else if s =? c_pending c then
      upd (fun c => set_pending HE_PACKET_SESSION_EMPTY (set_session s c)) ;;;
      generate_event HE_EVENT_PENDING_SESSION_ACKNOWLEDGED ;;;
      ret HE_SUCCESS
    else ret HE_ERR_UNKNOWN_SESSION
  else upd (set_session s) ;;; ret HE_SUCCESS.

(** flow.c:344-393 he_internal_flow_outside_packet_received *)
Definition outside_packet_received (packet : bytes) : M Z :=
  if len packet <? sizeof_wire_hdr then ret HE_ERR_PACKET_TOO_SMALL else
  let! h0 := lift (ld8 packet 0) in
  let! h1 := lift (ld8 packet 1) in
  if negb (h0 =? 72) || negb (h1 =? 101) then ret HE_ERR_NOT_HE_PACKET else
  let! ma := lift (ld8 packet 2) in
  let! mi := lift (ld8 packet 3) in
  let! c := get (fun c => c) in
  if negb (ma =? c_vmaj c) || negb (mi =? c_vmin c) then ret HE_ERR_INCORRECT_PROTOCOL_VERSION else
  let! s := lift (ldh64 (e_le E) packet 8) in
  if s =? HE_PACKET_SESSION_REJECT then ret HE_ERR_REJECTED_SESSION else
  let! body := lift (ldn packet sizeof_wire_hdr (len packet - sizeof_wire_hdr)) in
  upd (fun c => set_rx (Rx (Some body) false (rx_left (c_rx c)) (rx_rest (c_rx c)) true) c) ;;;
  let! rc := verify_connection in
  upd (fun c => set_rx (set_rx_live false (c_rx c)) c) ;;;
  if negb (rc =? HE_SUCCESS) then ret rc else update_session_incoming s.

(** core.c:23-39 he_internal_setup_stream_state and flow.c:395-407
    he_internal_flow_outside_stream_received *)
Definition outside_stream_received (buffer : bytes) : M Z :=
  let! r := get c_rx in
  if negb (rx_left r =? 0) then upd (set_wolf_err 0) ;;; ret HE_ERR_SSL_ERROR else
  upd (fun c => set_rx (Rx (Some buffer) (rx_seen (c_rx c)) (len buffer) (Some buffer) true) c) ;;;
  let! rc := verify_connection in
  upd (fun c => set_rx (set_rx_live false (c_rx c)) c) ;;;
  ret rc.

(** flow.c:299-336 he_conn_outside_data_received *)
Definition outside_data_received (buffer : bytes) : M Z :=
  let! c := get (fun c => c) in
  if (c_state c =? HE_STATE_DISCONNECTING) || (c_state c =? HE_STATE_DISCONNECTED)
  then ret HE_ERR_INVALID_CONN_STATE else
  let! (res, data) := plugin_ingress (c_out_chain c) buffer (len buffer) in
  if res =? HE_ERR_PLUGIN_DROP then ret HE_SUCCESS
  else if negb (res =? HE_SUCCESS) then ret res
  else if len buffer <? len data then ret HE_ERR_FAILED
  else
    let! ct := get c_ctype in
    if ct =? HE_CONNECTION_TYPE_DATAGRAM then outside_packet_received data
    else if ct =? HE_CONNECTION_TYPE_STREAM then outside_stream_received data
    else ret HE_ERR_INVALID_CONN_STATE.

(** ** conn.c: connecting *)

(** conn.c:85-113 he_conn_is_valid_client *)
Definition is_valid_client (x : ctx) (c : conn) : res Z :=
  do ue <- config_is_empty (c_username c);
  do pe <- config_is_empty (c_password c);
  Val (
    if (c_auth_len c =? 0) && ue then HE_ERR_CONF_USERNAME_NOT_SET
    else if (c_auth_len c =? 0) && pe then HE_ERR_CONF_PASSWORD_NOT_SET
    else if negb (c_auth_len c =? 0) && negb ue then HE_ERR_CONF_CONFLICTING_AUTH_METHODS
    else if c_mtu c =? 0 then HE_ERR_CONF_MTU_NOT_SET
    else if negb (c_vmaj c =? 0) && negb (is_latest_version x (c_vmaj c) (c_vmin c))
    then HE_ERR_INCORRECT_PROTOCOL_VERSION
    else HE_SUCCESS).

(** conn.c:115-131 he_conn_is_valid_server *)
Definition is_valid_server (x : ctx) (c : conn) : Z :=
  if c_mtu c =? 0 then HE_ERR_CONF_MTU_NOT_SET
  else if negb (c_vmaj c =? 0) && negb (is_supported_version x (c_vmaj c) (c_vmin c))
  then HE_ERR_INCORRECT_PROTOCOL_VERSION
  else HE_SUCCESS.

(** conn.c:161-189: the fields he_internal_conn_configure copies (the wolf RNG
    is not modelled) and, conn.c:213-214, the plugin chains. *)
Definition configure_fields (x : ctx) (inp outp : chain) (c : conn) : conn :=
  let c := set_no_roam (x_no_roaming x) c in
  let c := set_padding (x_padding x) c in
  let c := set_aggr (x_aggressive x) c in
  let c := set_pqc (x_pqc x) c in
  let c := set_ctype (x_type x) c in
  let c := if c_vmaj c =? 0 then set_vmaj (u8 (x_max_major x)) (set_vmin (u8 (x_max_minor x)) c) else c in
  let c := set_cbs (x_cbs x) c in
  let c := set_ping_next 1 c in
  set_in_chain inp (set_out_chain outp c).

(** conn.c:155-200 he_internal_conn_configure.  The previous fragment table is
    leaked, not freed.  The number of entries in a context is always in range:
    he_ssl_ctx_set_max_frag_entries clamps it (ssl_ctx.c:768-777). *)
Definition configure (x : ctx) (inp outp : chain) : M Z :=
  upd (configure_fields x inp outp) ;;;
  let! a1 := ask QAlloc in
  let! a2 := ask QAlloc in
  let t := table_create (negb (a1 =? 0)) (negb (a2 =? 0))
             (Z.max 0 (Z.min MAX_FRAGMENT_ENTRIES (x_max_frag x))) in
  upd (set_frag_tbl t) ;;;
  ret (match t with None => HE_ERR_NO_MEMORY | Some _ => HE_SUCCESS end).

(** conn.c:231-274: settings made on the new wolfSSL object *)
Definition wolf_settings (x : ctx) : M Z :=
  let! c := get (fun c => c) in
  if x_type x =? HE_CONNECTION_TYPE_DATAGRAM then
    let! r := ask (QSetMtu (c_mtu c - HE_PACKET_OVERHEAD + HE_WOLF_MAX_HEADER_SIZE)) in
    if negb (r =? SSL_SUCCESS) then ret HE_ERR_INVALID_MTU_SIZE
    else if c_is_server c then
      let! r := ask QChFrag in
      if negb (r =? SSL_SUCCESS) then ret HE_ERR_CANNOT_ENABLE_CH_FRAG else ret HE_SUCCESS
    else ret HE_SUCCESS
  else if negb (c_is_server c) && negb (nth 0 (c_sni c) 0 =? 0) then
    let! r := ask (QUseSni (cstr (c_sni c))) in
    if negb (r =? SSL_SUCCESS) then
      ret (if r =? MEMORY_E then HE_ERR_SSL_OUT_OF_MEMORY
           else if r =? BAD_FUNC_ARG then HE_ERR_SSL_ERROR else HE_ERR_FAILED)
    else ret HE_SUCCESS
  else ret HE_SUCCESS.

(** conn.c:280-297 *)
Definition wolf_settings2 (x : ctx) : M Z :=
  let! dn := (if is_dn_set x then ask (QCheckDn (cstr (x_dn x))) else ret SSL_SUCCESS) in
  if negb (dn =? SSL_SUCCESS) then ret HE_ERR_INIT_FAILED else
  let! c := get (fun c => c) in
  let! ks := (if negb (c_is_server c) && c_pqc c then ask QKeyShare else ret SSL_SUCCESS) in
  if negb (ks =? SSL_SUCCESS) then ret HE_ERR_INIT_FAILED else ret HE_SUCCESS.

(** conn.c:202-322 he_conn_internal_connect (a build with PQC) *)
Definition internal_connect (x : ctx) (inp outp : chain) : M Z :=
  let! res := configure x inp outp in
  if negb (res =? HE_SUCCESS) then ret res else
  let! w := ask QWolfNew in
  let ok := x_wolf x && negb (w =? 0) in
  upd (fun c => set_io (x_io x) (set_wolf_ctx false (set_wolf ok c))) ;;;
  if negb ok then ret HE_ERR_INIT_FAILED else
  let! res := wolf_settings x in
  if negb (res =? HE_SUCCESS) then ret res else
  upd (set_wolf_ctx true) ;;;
  let! res := wolf_settings2 x in
  if negb (res =? HE_SUCCESS) then ret res else
  change_conn_state HE_STATE_CONNECTING ;;;
  let! (r, err, _) := wolf_op WNegotiate in
  if negb (r =? SSL_SUCCESS) then
    if (err =? SSL_ERROR_WANT_READ) || (err =? SSL_ERROR_WANT_WRITE) then
      change_conn_state HE_STATE_CONNECTING ;;;
      update_timeout ;;;
      ret HE_SUCCESS
    else ret HE_ERR_CONNECT_FAILED
  else
    change_conn_state HE_STATE_LINK_UP ;;;
    update_timeout ;;;
    ret HE_SUCCESS.

(** conn.c:324-341 he_conn_client_connect *)
Definition client_connect (x : ctx) (inp outp : chain) : M Z :=
  let! c := get (fun c => c) in
  let! res := lift (is_valid_client x c) in
  if negb (res =? HE_SUCCESS) then ret res else
  upd (set_is_server false) ;;;
  internal_connect x inp outp.

(** conn.c:343-376 he_conn_server_connect *)
Definition server_connect (x : ctx) (inp outp : chain) : M Z :=
  let! c := get (fun c => c) in
  let res := is_valid_server x c in
  if negb (res =? HE_SUCCESS) then ret res else
  upd (set_is_server true) ;;;
  let! res := internal_connect x inp outp in
  if negb (res =? HE_SUCCESS) then ret res else
  let! (res, s) := generate_session_id in
  if negb (res =? HE_SUCCESS) then ret res else
  upd (set_session s) ;;;
  ret HE_SUCCESS.

(** conn.c:378-415 he_conn_disconnect *)
Definition disconnect : M Z :=
  let! c := get (fun c => c) in
  if negb (c_wolf c) then ret HE_ERR_NEVER_CONNECTED
  else if (c_state c =? HE_STATE_DISCONNECTING) || (c_state c =? HE_STATE_NONE) ||
          (c_state c =? HE_STATE_CONNECTING) || (c_state c =? HE_STATE_DISCONNECTED)
  then ret HE_ERR_INVALID_CONN_STATE
  else
    change_conn_state HE_STATE_DISCONNECTING ;;;
    send_goodbye ;;;
    let! _ := wolf_op WShutdown in
    upd (fun c =>
      let k := c_cbs c in
      set_timeout 0 (set_cbs
        (Cbs (cb_state k) (cb_nudge k) false false (cb_netcfg k) (cb_srvcfg k) (cb_event k)
             (cb_auth k) (cb_authtok k) (cb_authbuf k) (cb_populate k) (cb_pmtime k) (cb_pmstate k)) c)) ;;;
    change_conn_state HE_STATE_DISCONNECTED ;;;
    ret HE_SUCCESS.

(** conn.c:807-845 he_conn_nudge *)
Definition nudge : M Z :=
  upd (set_nudging false) ;;;
  let! st := get c_state in
  if st =? HE_STATE_AUTHENTICATING then
    let! _ := send_auth in
    update_timeout ;;;
    ret HE_SUCCESS
  else
    let! (r, err, _) := wolf_op WGotTimeout in
    if negb (r =? SSL_SUCCESS) && negb ((err =? SSL_ERROR_WANT_READ) || (err =? SSL_ERROR_WANT_WRITE)) then
      change_conn_state HE_STATE_DISCONNECTED ;;;
      ret HE_CONNECTION_TIMED_OUT
    else
      update_timeout ;;;
      ret HE_SUCCESS.

(** conn.c:503-530 he_conn_send_keepalive *)
Definition send_keepalive : M Z :=
  let! st := get c_state in
  if negb (st =? HE_STATE_ONLINE) then ret HE_ERR_INVALID_CONN_STATE else
  let! id := get c_ping_next in
  upd (set_ping_next (u16 (id + 1))) ;;;
  let! msg := lift (build_ping (e_le E) sizeof_ping id 0) in
  let! res := send_message msg in
  when (res =? HE_SUCCESS) (upd (set_ping_pend id)) ;;;
  ret res.

(** conn.c:550-583 he_conn_send_server_config *)
Definition send_server_config (buffer : bytes) : M Z :=
  let! c := get (fun c => c) in
  if negb (c_is_server c) then ret HE_ERR_INVALID_CONN_STATE
  else if negb (valid_state_for_server_config (c_state c)) then ret HE_ERR_INVALID_CONN_STATE
  else if HE_MAX_MTU - sizeof_server_config <? len buffer then ret HE_ERR_PACKET_TOO_LARGE
  else
    let! b := lift (build_server_config (e_le E) buffer) in
    let! msg := lift (ldn b 0 (sizeof_server_config + len buffer)) in
    send_message msg.

(** conn.c:883-907 he_conn_rotate_session_id *)
Definition rotate_session_id : M Z :=
  let! c := get (fun c => c) in
  if negb (c_is_server c) || negb (c_pending c =? 0) then ret HE_ERR_INVALID_CONN_STATE else
  let! (res, s) := generate_session_id in
  if negb (res =? HE_SUCCESS) then ret res else
  upd (set_pending s) ;;;
  ret HE_SUCCESS.

(** conn.c:1157-1167 he_conn_set_session_id *)
Definition set_session_id (s : Z) : M Z :=
  let! old := get c_session in
  if negb (old =? 0) then ret HE_ERR_INVALID_CONN_STATE else
  upd (set_session (u64 s)) ;;; ret HE_SUCCESS.

(** conn.c:1206-1223 he_conn_start_pmtu_discovery *)
Definition start_pmtu_discovery : M Z :=
  let! c := get (fun c => c) in
  if negb (c_state c =? HE_STATE_ONLINE) then ret HE_ERR_INVALID_CONN_STATE
  else if negb (cb_pmstate (c_cbs c)) || negb (cb_pmtime (c_cbs c)) then ret HE_ERR_PMTUD_CALLBACKS_NOT_SET
  else if negb (pm_state (c_pm c) =? HE_PMTUD_STATE_DISABLED) then ret HE_SUCCESS
  else pm_start_base_probing.

(** conn.c:945-981 he_conn_set_username, he_conn_set_password *)
Definition set_username_api (s : bytes) : M Z :=
  upd (set_auth_type HE_AUTH_TYPE_USERPASS) ;;;
  let! f := get c_username in
  let! (rc, f) := lift (set_config_string f (cmem s)) in
  upd (set_username f) ;;; ret rc.
Definition set_password_api (s : bytes) : M Z :=
  upd (set_auth_type HE_AUTH_TYPE_USERPASS) ;;;
  let! f := get c_password in
  let! (rc, f) := lift (set_config_string f (cmem s)) in
  upd (set_password f) ;;; ret rc.

(** conn.c:992-1009 he_conn_set_auth_token *)
Definition set_auth_token (b : bytes) : M Z :=
  if len b =? 0 then ret HE_ERR_EMPTY_STRING
  else if HE_MAX_MTU <=? len b then ret HE_ERR_STRING_TOO_LONG
  else
    upd (set_auth_type HE_AUTH_TYPE_TOKEN) ;;;
    let! f := get c_auth_buf in
    let! f := lift (stn f 0 b) in
    upd (fun c => set_auth_len (u16 (len b)) (set_auth_buf f c)) ;;;
    ret HE_SUCCESS.

(** conn.c:1020-1038 he_conn_set_auth_buffer2; the length is a uint16_t, so the
    buffer is at most 65535 bytes long *)
Definition set_auth_buffer (b : bytes) : M Z :=
  let b := firstn (Z.to_nat 65535) b in
  if len b =? 0 then ret HE_ERR_EMPTY_STRING
  else if HE_MAX_MTU - sizeof_auth_buf <? len b then ret HE_ERR_STRING_TOO_LONG
  else
    upd (set_auth_type HE_AUTH_TYPE_CB) ;;;
    let! f := get c_auth_buf in
    let! f := lift (stn f 0 b) in
    upd (fun c => set_auth_len (len b) (set_auth_buf f c)) ;;;
    ret HE_SUCCESS.

(** conn.c:1049-1063 he_conn_set_outside_mtu *)
Definition set_outside_mtu (mtu : Z) : M Z :=
  let mtu := u16 mtu in
  if mtu <=? HE_PACKET_OVERHEAD then ret HE_ERR_INVALID_MTU_SIZE else
  upd (set_mtu mtu) ;;; ret HE_SUCCESS.

(** conn.c:133-141 he_conn_set_sni_hostname *)
Definition set_sni_hostname (s : bytes) : M Z :=
  let! f := get c_sni in
  let! f := lift (strncpy f (cmem s) HE_MAX_HOSTNAME_LENGTH) in
  upd (set_sni f) ;;; ret HE_SUCCESS.

(** The API, by operation.  schedule_renegotiation: conn.c:696-704;
    pmtud_probe_timeout: conn.c:1232-1237; set_protocol_version: conn.c:921-930. *)
Definition api_body (o : op) : M Z :=
  match o with
  | OClientConnect x i p => client_connect x i p
  | OServerConnect x i p => server_connect x i p
  | ODisconnect => disconnect
  | OInside p => inside_packet_received (u8s p)
  | OOutside b => outside_data_received (u8s b)
  | ONudge => nudge
  | OKeepalive => send_keepalive
  | OServerConfig b => send_server_config (u8s b)
  | OScheduleReneg => upd (set_due true) ;;; ret HE_SUCCESS
  | OStartPmtud => start_pmtu_discovery
  | OPmtudTimeout => pm_probe_timeout
  | ORotate => rotate_session_id
  | OSetSession s => set_session_id s
  | OSetUsername s => set_username_api s
  | OSetPassword s => set_password_api s
  | OSetToken b => set_auth_token (u8s b)
  | OSetAuthBuf b => set_auth_buffer (u8s b)
  | OSetMtu m => set_outside_mtu m
  | OSetVersion a b => upd (fun c => set_vmin (u8 b) (set_vmaj (u8 a) c)) ;;; ret HE_SUCCESS
  | OSetSni s => set_sni_hostname s
  end.

(** A call by the host, and one made from inside a callback. *)
Definition api (o : op) : M Z :=
  emit (ECall o) ;;;
  let! rc := api_body o in
  emit (ERet o rc) ;;; ret rc.
Definition nested_api (o : op) : M Z :=
  emit (ENest o) ;;;
  let! rc := api_body o in
  emit (ENestRet o rc) ;;; ret rc.
Fixpoint run_host (h : hstrat) : M unit :=
  match h with
  | HDone => ret tt
  | HCall o k => let! rc := nested_api o in run_host (k rc)
  end.

End Conn.

(** What the host does inside callbacks, nested at most [n] deep. *)
Fixpoint hookn (E : env) (n : nat) : M unit :=
  match n with
  | O => ret tt
  | S n => let! t := log in run_host E (hookn E n) (e_host E t)
  end.

(** A history: the host makes the calls [ops], one after the other, on a new
    connection; inside callbacks it may make further calls, [n] deep. *)
Fixpoint run (E : env) (n : nat) (ops : list op) (w : world) : outcome unit :=
  match ops with
  | [] => Done tt w
  | o :: ops => match api E (hookn E n) o w with
                | Done _ w' => run E n ops w'
                | Stuck u w' => Stuck u w'
                end
  end.
Definition world_new : world := World conn_new [].
Definition world_of {A} (r : outcome A) : world :=
  match r with Done _ w => w | Stuck _ w => w end.
Definition history (E : env) (n : nat) (ops : list op) : trace :=
  w_t (world_of (run E n ops world_new)).
