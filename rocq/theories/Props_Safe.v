(** C19, C20, C38: no undefined behaviour, for every input; calls return. *)
From Verif Require Import Base Codes Ctx Wire WireSpec ConnState Conn ConnSpec HistSpec ConnSteps Hist ConnWp ConnWpApi Frame Scenario.
Unset Strict Implicit.

(** wolfSSL_read has returned; an allocation failed *)
Definition read_returned (e : ev) : bool := match e with EWEnd WRecv _ _ _ => true | _ => false end.
Definition allocation_failed (e : ev) : bool := match e with EAsk QAlloc 0 => true | _ => false end.

(** ** C19.  Whatever the peer sends, wolfSSL decrypts, the callbacks answer and
    plugins do, in any history of calls (also calls made from inside callbacks),
    the code never reads or writes outside an object; if the host makes no calls
    from inside callbacks, it never uses a NULL pointer unless an allocation
    failed, and no assert fails on a connection that is connected once. *)
Theorem C19_memory_safe : forall E n ops u w,
  run E n ops world_new = Stuck u w ->
  u <> UB_read /\ u <> UB_write /\
  (re (w_t w) = false -> has allocation_failed (w_t w) = false -> has tls_lost (w_t w) = false -> u <> UB_null) /\
  (re (w_t w) = false -> (count connect_call (w_t w) <= 1)%nat -> u <> UB_assert).
Proof.
  intros E n ops u w H. pose proof (run_good E n ops Good_new) as G. rewrite H in G.
  destruct G as (_ & A & B & _ & C & D & _). split; [exact A|]. split; [exact B|]. split.
  - intros Hr F L ->. specialize (C Hr eq_refl). change (has alloc_failed (w_t w) = false) in F. destruct C; congruence.
  - intros Hr O. now apply D.
Qed.
Print Assumptions C19_memory_safe.

(** The condition is needed: a client that has logged in but is not configured
    yet connects again with a context that has not been started.  The call fails
    and leaves the connection AUTHENTICATING and without a wolfSSL object; the
    next nudge passes the NULL object to wolfSSL_version. *)
Definition not_started (x : ctx) : ctx := set_x_wolf false (x_io x) x.
Theorem C19_reconnect_refuted : exists E ops w,
  run E 0 ops world_new = Stuck UB_null w /\ re (w_t w) = false /\
  has allocation_failed (w_t w) = false /\ last_call (w_t w) = Some ONudge.
Proof.
  exists plain_env, (client_setup ++ [OClientConnect dctx [] []; OOutside (dgram 0 []); OClientConnect (not_started dctx) [] []; ONudge]).
  eexists. split; [vm_compute; reflexivity|]. vm_compute. repeat split.
Qed.
Print Assumptions C19_reconnect_refuted.

(** ** C38.  Calls return: a call that does not return has already had
    wolfSSL_read return [e_fuel E] times, for any [e_fuel E].  (All other loops
    of the code always end: the model runs them to the end.) *)
Theorem C38_calls_return : forall E n ops w,
  run E n ops world_new = Stuck UB_fuel w ->
  (e_fuel E <= count read_returned (upto is_call (w_t w)))%nat.
Proof.
  intros E n ops w H. pose proof (run_good E n ops Good_new) as G. rewrite H in G.
  destruct G as (_ & _ & _ & F & _). now apply F.
Qed.
Print Assumptions C38_calls_return.

(** A call that ends has logged its return: every call but the last one of a
    history ends, and the last one ends or went wrong in one of the ways above. *)
Theorem C38_every_call_ends : forall E n ops,
  (exists w, run E n ops world_new = Done tt w) \/
  exists u w, run E n ops world_new = Stuck u w /\
    (u = UB_fuel -> (e_fuel E <= count read_returned (upto is_call (w_t w)))%nat).
Proof.
  intros E n ops. destruct (run E n ops world_new) as [[] w|u w] eqn:R; [eauto|]. right. exists u, w. split; [reflexivity|].
  intros ->. now apply (@C38_calls_return E n ops).
Qed.
Print Assumptions C38_every_call_ends.

Example C19_example : finishes plain_env 0 (client_data ++ [ODisconnect]) = true /\ finishes plain_env 0 server_data = true.
Proof. vm_compute. split; reflexivity. Qed.

(** wolfSSL producing messages forever does keep the call from returning. *)
Definition endless_env (fuel : nat) : env :=
  Env true fuel plain_ask plain_cb (fun _ => (ip 1, ip 2, ip 3)) (fun _ => (HE_PLUGIN_SUCCESS, []))
      (fun t => match t with (_, EWOp WRecv) :: _ => WRet 1 0 [HE_MSGID_NOOP] | _ => plain_wolf t end) (fun _ => HDone).
Example C38_example : exists w,
  run (endless_env 20) 0 (client_setup ++ [OClientConnect dctx [] []; OOutside (dgram 0 [])]) world_new = Stuck UB_fuel w.
Proof. eexists. vm_compute. reflexivity. Qed.

(** ** Buffers of the host are not used after the call they were passed to. *)
(** While data from outside is being processed, wolfSSL is only given bytes of
    the buffer passed to that call: hosts that make no calls from inside
    callbacks never see a stale buffer used during he_conn_outside_data_received. *)
Lemma plugin_never_stuck E ch : forall d cap w u w', plugin_ingress E ch d cap w <> Stuck u w'.
Proof.
  induction ch as [|[p|] ch IH]; intros d cap w u w'; cbn [plugin_ingress]; [discriminate| |apply IH].
  destruct (pl_in p); [|apply IH]. unfold call_plugin, bind, emit, log, ret. cbn [w_t w_c].
  destruct (e_plugin E _) as [rc out]. cbn. destruct (rc =? HE_PLUGIN_FAIL); [discriminate|].
  destruct (rc =? HE_PLUGIN_DROP); [discriminate|]. apply IH.
Qed.
Definition live (w : world) : Prop := rx_live (c_rx (w_c w)) = true.
Lemma live_verify E : keeps live live (verify_connection E (ret tt)).
Proof.
  assert (forall sz, keeps live live (io_read sz)) as Hr.
  { intros sz. apply keeps_io_read; auto. }
  assert (forall b, keeps live live (io_write E (ret tt) b)) as Hw.
  { intros b. apply keeps_io_write; auto. intros w H. exact H. }
  apply keeps_verify; auto. intros w H. exact H.
Qed.
Lemma lift_read_ub A (r : res A) w u w' : (forall v, r = Ub v -> v = UB_read) -> lift r w = Stuck u w' -> u = UB_read.
Proof. destruct r as [a|v]; cbn; [discriminate|]. intros H [= <- <-]. now apply H. Qed.
Lemma ld8_ub m o v : ld8 m o = Ub v -> v = UB_read.
Proof. unfold ld8. destruct (_ && _); congruence. Qed.
Lemma ldn_ub m o n v : ldn m o n = Ub v -> v = UB_read.
Proof. unfold ldn. destruct (_ && _); congruence. Qed.
Lemma ldh64_ub le m o v : ldh64 le m o = Ub v -> v = UB_read.
Proof. unfold ldh64. destruct (ldn m o 8) eqn:D; cbn; [discriminate|]. intros [= <-]. exact (ldn_ub D). Qed.
Lemma event_never_stuck e w u w' : generate_event (ret tt) e w <> Stuck u w'.
Proof. unfold generate_event, bind, get, when. destruct (cb_event _); discriminate. Qed.
Lemma session_never_stuck s w u w' : update_session_incoming (ret tt) s w <> Stuck u w'.
Proof.
  unfold update_session_incoming. destruct (s =? 0); [discriminate|]. unfold bind at 1, get at 1.
  destruct (c_is_server (w_c w)); [|discriminate]. destruct (s =? _); [discriminate|]. destruct (s =? _); [|discriminate].
  unfold bind, upd. destruct (generate_event _ _ _) eqn:G; [discriminate|]. intros _. now apply event_never_stuck in G.
Qed.
Lemma outside_stuck E b w u w' : outside_data_received E (ret tt) b w = Stuck u w' -> u = UB_read \/ live w'.
Proof.
  assert (forall w u w', live w -> verify_connection E (ret tt) w = Stuck u w' -> live w') as V.
  { intros v u0 v' L H. pose proof (live_verify E L) as K. rewrite H in K. exact K. }
  unfold outside_data_received. unfold bind at 1, get at 1. destruct (_ || _); [discriminate|]. unfold bind at 1.
  destruct (plugin_ingress _ _ _ _ w) as [[res data] w1|u1 w1] eqn:P; [|intros _; now apply plugin_never_stuck in P].
  destruct (res =? HE_ERR_PLUGIN_DROP); [discriminate|]. destruct (negb _); [discriminate|]. destruct (_ <? _); [discriminate|].
  unfold bind at 1, get at 1. destruct (_ =? HE_CONNECTION_TYPE_DATAGRAM).
  - unfold outside_packet_received. destruct (_ <? _); [discriminate|].
    unfold bind at 1. destruct (lift (ld8 data 0) w1) as [h0 w2|] eqn:L0; [|intros [= <- <-]; left; now apply (lift_read_ub (@ld8_ub _ _) L0)].
    unfold bind at 1. destruct (lift (ld8 data 1) w2) as [h1 w3|] eqn:L1; [|intros [= <- <-]; left; now apply (lift_read_ub (@ld8_ub _ _) L1)].
    destruct (_ || _); [discriminate|].
    unfold bind at 1. destruct (lift (ld8 data 2) w3) as [h2 w4|] eqn:L2; [|intros [= <- <-]; left; now apply (lift_read_ub (@ld8_ub _ _) L2)].
    unfold bind at 1. destruct (lift (ld8 data 3) w4) as [h3 w5|] eqn:L3; [|intros [= <- <-]; left; now apply (lift_read_ub (@ld8_ub _ _) L3)].
    unfold bind at 1, get at 1. destruct (_ || _); [discriminate|].
    unfold bind at 1. destruct (lift (ldh64 _ data 8) w5) as [s w6|] eqn:L4; [|intros [= <- <-]; left; now apply (lift_read_ub (@ldh64_ub _ _ _) L4)].
    destruct (s =? _); [discriminate|].
    unfold bind at 1. destruct (lift (ldn data _ _) w6) as [bd w7|] eqn:L5; [|intros [= <- <-]; left; now apply (lift_read_ub (@ldn_ub _ _ _) L5)].
    unfold bind at 1, upd at 1. unfold bind at 1.
    destruct (verify_connection E (ret tt) _) as [rc w8|u8 w8] eqn:Vc; [|intros [= <- <-]; right; eapply V; [|exact Vc]; reflexivity].
    unfold bind at 1, upd at 1. destruct (negb _); [discriminate|]. intros X. now apply session_never_stuck in X.
  - destruct (_ =? HE_CONNECTION_TYPE_STREAM); [|discriminate]. unfold outside_stream_received.
    unfold bind at 1, get at 1. destruct (negb _); [discriminate|]. unfold bind at 1, upd at 1. unfold bind at 1.
    destruct (verify_connection E (ret tt) _) as [rc w8|u8 w8] eqn:Vc; [|intros [= <- <-]; right; eapply V; [|exact Vc]; reflexivity].
    discriminate.
Qed.
Lemma api_stale E o w w' : Good w -> api E (ret tt) o w = Stuck UB_stale w' -> forall b, o <> OOutside b.
Proof.
  intros G H b ->. pose proof (@api_ok E (hookn E 0) (@hookn_ok E 0) (OOutside b) w G) as A.
  change (hookn E 0) with (ret tt) in A. rewrite H in A. destruct A as (_ & (_ & _ & _ & _ & _ & S) & _). specialize (S eq_refl).
  unfold api in H. unfold bind at 1, emit at 1 in H. unfold bind at 1 in H. cbn [api_body] in H.
  destruct (outside_data_received E (ret tt) (u8s b) _) as [rc w1|u w1] eqn:O; [discriminate H|].
  injection H as -> ->. destruct (outside_stuck O) as [F|L]; [discriminate F|]. unfold live in L. congruence.
Qed.
Lemma run_stale E : forall ops w w', Good w -> run E 0 ops w = Stuck UB_stale w' ->
  exists o, last_call (w_t w') = Some o /\ forall b, o <> OOutside b.
Proof.
  induction ops as [|o ops IH]; intros w w' G H; [discriminate H|]. cbn [run] in H.
  pose proof (@api_ok E (hookn E 0) (@hookn_ok E 0) o w G) as A.
  destruct (api E (hookn E 0) o w) as [rc w1|u w1] eqn:O.
  - apply (IH w1 w'); [apply A|exact H].
  - injection H as -> ->. exists o. split; [|exact (api_stale G O)].
    apply A.
Qed.

Theorem C20_no_stale_buffer : forall E ops w,
  run E 0 ops world_new = Stuck UB_stale w ->
  exists o, last_call (w_t w) = Some o /\ forall b, o <> OOutside b.
Proof. intros E ops w. apply run_stale. exact Good_new. Qed.
Print Assumptions C20_no_stale_buffer.

(** Outside he_conn_outside_data_received the library does keep pointers to the
    host's last buffer: wolfSSL reading during he_conn_nudge gets at it when the
    handshake that was given the datagram did not read it. *)
Definition stale_env : env :=
  Env true 50 plain_ask plain_cb (fun _ => (ip 1, ip 2, ip 3)) (fun _ => (HE_PLUGIN_SUCCESS, []))
      (fun t => match t with
                | (_, EWOp WGotTimeout) :: _ => WRead 1500 (fun r _ => WRet SSL_SUCCESS 0 [])
                | _ => WRet (-1) SSL_ERROR_WANT_READ [] end) (fun _ => HDone).
Theorem C20_stale_buffer_in_nudge_refuted : exists E ops w, run E 0 ops world_new = Stuck UB_stale w.
Proof.
  exists stale_env, (client_setup ++ [OClientConnect dctx [] []; OOutside (dgram 0 []); ONudge]).
  eexists. vm_compute. reflexivity.
Qed.
Print Assumptions C20_stale_buffer_in_nudge_refuted.


(** ** C20.  Which datagrams reach TLS *)
(** The code returned for a datagram that is turned away; HE_SUCCESS if it is not. *)
Definition datagram_verdict (major minor : Z) (d : bytes) : Z :=
  if len d <? 16 then HE_ERR_PACKET_TOO_SMALL
  else if negb ((nth 0 d 0 =? 72) && (nth 1 d 0 =? 101)) then HE_ERR_NOT_HE_PACKET
  else if negb ((nth 2 d 0 =? major) && (nth 3 d 0 =? minor)) then HE_ERR_INCORRECT_PROTOCOL_VERSION
  else if forallb (fun b => b =? 255) (slice d 8 8) then HE_ERR_REJECTED_SESSION
  else HE_SUCCESS.

Lemma le_val_bound l : bytes_ok l -> 0 <= le_val l < 256 ^ len l.
Proof.
  induction 1 as [|b l B _ IH]; [cbn; lia|]. cbn [le_val]. rewrite len_cons. rewrite Z.pow_add_r by (pose proof (len_nonneg l); lia).
  unfold byte_ok in B. lia.
Qed.
Lemma le_val_max l : bytes_ok l -> (le_val l =? 256 ^ len l - 1) = forallb (fun b => b =? 255) l.
Proof.
  induction 1 as [|b l B H IH]; [reflexivity|]. cbn [le_val forallb]. rewrite len_cons, <- IH.
  pose proof (le_val_bound H). pose proof (len_nonneg l). unfold byte_ok in B.
  replace (256 ^ (1 + len l)) with (256 * 256 ^ len l) by (rewrite Z.pow_add_r by lia; reflexivity).
  destruct (Z.eqb_spec (b + 256 * le_val l) (256 * 256 ^ len l - 1)), (Z.eqb_spec b 255), (Z.eqb_spec (le_val l) (256 ^ len l - 1)); cbn; auto; lia.
Qed.

Lemma reject_all_ones E d : bytes_ok d -> 16 <= len d ->
  (host64 (e_le E) (slice d 8 8) =? HE_PACKET_SESSION_REJECT) = forallb (fun b => b =? 255) (slice d 8 8).
Proof.
  intros B L.
  assert (bytes_ok (slice d 8 8)) as Bs by now apply bytes_ok_slice.
    assert (len (slice d 8 8) = 8) as Ls by (rewrite len_slice; lia).
    change HE_PACKET_SESSION_REJECT with (256 ^ 8 - 1). unfold host64. destruct (e_le E).
    - rewrite <- (le_val_max Bs). now rewrite Ls.
    - pose proof (le_val_max (bytes_ok_rev Bs)) as M. rewrite len_rev, Ls in M. rewrite M. clear. generalize (slice d 8 8) as l.
      intros l. destruct (forallb _ l) eqn:F; rewrite ?forallb_forall in *.
      + intros x H. apply F. now apply in_rev.
      + destruct (forallb _ (rev l)) eqn:G; [|reflexivity]. rewrite forallb_forall in G. rewrite <- F. symmetry.
        apply forallb_forall. intros x H. apply G. now apply -> in_rev.
Qed.

(** A datagram the rule turns away: the call returns the code and the connection
    is untouched; nothing is logged but the call and its result. *)
Theorem C20_rejected_without_effect : forall E hook d w,
  c_ctype (w_c w) = HE_CONNECTION_TYPE_DATAGRAM -> c_out_chain (w_c w) = [] ->
  c_state (w_c w) <> HE_STATE_DISCONNECTING -> c_state (w_c w) <> HE_STATE_DISCONNECTED ->
  bytes_ok d ->
  datagram_verdict (c_vmaj (w_c w)) (c_vmin (w_c w)) d <> HE_SUCCESS ->
  api E hook (OOutside d) w =
  Done (datagram_verdict (c_vmaj (w_c w)) (c_vmin (w_c w)) d)
       (World (w_c w)
          ((c_state (w_c w), ERet (OOutside d) (datagram_verdict (c_vmaj (w_c w)) (c_vmin (w_c w)) d)) ::
           (c_state (w_c w), ECall (OOutside d)) :: w_t w)).
Proof.
  intros E hook d w T P S1 S2 B V. unfold api, bind, emit, ret. cbn [api_body w_c w_t].
  rewrite (u8s_id B). unfold outside_data_received, bind, get. cbn [w_c].
  destruct (Z.eqb_spec (c_state (w_c w)) HE_STATE_DISCONNECTING); [easy|].
  destruct (Z.eqb_spec (c_state (w_c w)) HE_STATE_DISCONNECTED); [easy|]. cbn [orb].
  rewrite P. cbn [plugin_ingress]. unfold ret. change (HE_SUCCESS =? HE_ERR_PLUGIN_DROP) with false.
  change (negb (HE_SUCCESS =? HE_SUCCESS)) with false. cbv iota. rewrite Z.ltb_irrefl. cbn [w_c]. rewrite T.
  change (HE_CONNECTION_TYPE_DATAGRAM =? HE_CONNECTION_TYPE_DATAGRAM) with true. cbv iota.
  unfold outside_packet_received, datagram_verdict in *. change sizeof_wire_hdr with 16.
  destruct (Z.ltb_spec (len d) 16) as [L|L]; [reflexivity|].
  unfold bind, lift, ret. rewrite !ld8_ok by lia. change (Z.to_nat 0) with 0%nat. change (Z.to_nat 1) with 1%nat.
  change (Z.to_nat 2) with 2%nat. change (Z.to_nat 3) with 3%nat.
  rewrite <- negb_andb. destruct (negb ((nth 0 d 0 =? 72) && (nth 1 d 0 =? 101))); [reflexivity|].
  unfold get. cbn [w_c]. rewrite <- negb_andb.
  destruct (negb ((nth 2 d 0 =? c_vmaj (w_c w)) && (nth 3 d 0 =? c_vmin (w_c w)))); [reflexivity|].
  unfold ldh64. rewrite ldn_ok by lia. cbn [rbind].
  rewrite (reject_all_ones E B) by lia. destruct (forallb _ _); [reflexivity|]. now destruct V.
Qed.
Print Assumptions C20_rejected_without_effect.


(** A datagram the rule admits reaches wolfSSL: during the call wolfSSL_negotiate
    or wolfSSL_read is called. *)
Definition reaches_tls (e : ev) : bool := match e with EWOp WNegotiate | EWOp WRecv => true | _ => false end.

Definition in_tls (w : world) : Prop := has reaches_tls (upto is_call (w_t w)) = true.
Lemma in_tls_push e w : is_call e = false -> in_tls w -> in_tls (push e w).
Proof. intros H I. unfold in_tls, push. cbn [w_t upto]. rewrite H. unfold in_tls, has in *. cbn [existsb snd]. rewrite I. apply orb_true_r. Qed.
Lemma in_tls_hook E n : keeps in_tls in_tls (hookn E n).
Proof. apply keeps_hookn; [intros e w H _; now apply in_tls_push|auto]. Qed.
Lemma in_tls_io E n : (forall sz, keeps in_tls in_tls (io_read sz)) /\ (forall b, keeps in_tls in_tls (io_write E (hookn E n) b)).
Proof.
  pose proof (in_tls_hook E n). split; intros; [apply keeps_io_read|apply keeps_io_write]; auto; intros; now apply in_tls_push.
Qed.
Lemma in_tls_op E n o : reaches_tls (EWOp o) = true -> est in_tls (wolf_op E (hookn E n) o).
Proof.
  intros H. destruct (in_tls_io E n) as [Hr Hw].
  unfold wolf_op. apply est_left.
  - intros w a w' [= <- <-]. unfold in_tls. cbn [w_t upto is_call]. unfold has. cbn [existsb snd]. now rewrite H.
  - intros _. apply keeps_bind; [apply keeps_get|]. intros b. apply keeps_bind.
    + destruct b; [|apply keeps_ret]. apply keeps_bind; [apply keeps_log|]. intros t. apply keeps_bind.
      * apply keeps_strat; auto.
      * intros [[r err] d]. apply keeps_ret.
    + intros [[r err] d]. apply keeps_bind; [apply keeps_emit; intros; now apply in_tls_push|]. intros _. apply keeps_ret.
Qed.
Lemma in_tls_verify E n : est in_tls (verify_connection E (hookn E n)).
Proof.
  destruct (in_tls_io E n) as [Hr Hw]. pose proof (in_tls_hook E n) as Hh.
  assert (forall e w, in_tls w -> is_call e = false -> in_tls (push e w)) as P by (intros; now apply in_tls_push).
  assert (forall e w, io_event e = false -> in_tls w -> in_tls (push e w)) as P' by (intros e w H1 H2; apply P; [exact H2|now destruct e]).
  assert (keeps in_tls in_tls (check_renegotiation E (hookn E n))) as K1 by (apply keeps_check; auto).
  assert (keeps in_tls in_tls (renegotiate_ssl E (hookn E n))) as K2 by (apply keeps_renegotiate; auto).
  assert (forall f, keeps in_tls in_tls (fetch_message E (hookn E n) f)) as K3 by (intros; apply keeps_fetch; auto).
  assert (forall f, keeps in_tls in_tls (message_loop E (hookn E n) f)) as K4 by (intros; apply keeps_loop; auto).
  assert (keeps in_tls in_tls (handle_messages E (hookn E n))) as K5 by (apply keeps_handle_messages; auto).
  assert (forall m, keeps in_tls in_tls (process_message E (hookn E n) m)) as K6 by (intros; apply keeps_process; auto).
  assert (forall s, keeps in_tls in_tls (change_conn_state E (hookn E n) s)) as K7 by (intros; apply keeps_change_conn_state; auto).
  assert (keeps in_tls in_tls (update_timeout E (hookn E n))) as K8 by (apply keeps_update_timeout; auto).
  assert (est in_tls (handle_messages E (hookn E n))) as H.
  { unfold handle_messages. apply est_left.
    - generalize (e_fuel E) as f. intros [|f] w a w'; cbn [message_loop]; [discriminate|].
      revert w a w'. apply est_left.
      + generalize (e_fuel E) as g. intros [|g] w a w'; cbn [fetch_message]; [discriminate|]. revert w a w'. apply est_left.
        * now apply in_tls_op.
        * intros [[r err] d].
          repeat first [case_if|apply keeps_ret|apply K3|apply keeps_bind; [first [apply keeps_upd; auto; fail|apply keeps_get]|intro]].
      + intros [rc m]. case_if; [apply keeps_ret|]. destruct m; [|apply keeps_ret].
        apply keeps_bind; [apply K6|intro]. case_if; [apply keeps_ret|apply K4].
    - intros rc. case_if; [apply keeps_ret|]. apply keeps_bind; [apply keeps_get|]. intros due. apply keeps_bind.
      + case_if; [exact K2|apply keeps_ret].
      + intro. case_if; [apply keeps_ret|exact K1]. }
  unfold verify_connection. apply est_right. intros first. apply est_right. intros _. apply est_right. intros st.
  case_if; [|exact H]. apply est_left; [now apply in_tls_op|]. intros [[r err] d].
  repeat first [exact K5|case_if|apply keeps_ret|apply keeps_when|exact K8
               |apply keeps_bind; [first [apply keeps_upd; auto; fail|apply keeps_get|apply K7|idtac]|intro]|exact K5].
Qed.
Theorem C20_admitted_reaches_tls : forall E n d w rc w',
  c_ctype (w_c w) = HE_CONNECTION_TYPE_DATAGRAM -> c_out_chain (w_c w) = [] ->
  c_state (w_c w) <> HE_STATE_DISCONNECTING -> c_state (w_c w) <> HE_STATE_DISCONNECTED ->
  bytes_ok d ->
  datagram_verdict (c_vmaj (w_c w)) (c_vmin (w_c w)) d = HE_SUCCESS ->
  api E (hookn E n) (OOutside d) w = Done rc w' ->
  has reaches_tls (upto is_call (w_t w')) = true.
Proof.
  intros E n d w rc w' T P S1 S2 B V. unfold api. unfold bind at 1, emit at 1. unfold bind at 1. cbn [api_body w_c w_t].
  rewrite (u8s_id B). unfold outside_data_received. unfold bind at 1, get at 1. cbn [w_c].
  destruct (Z.eqb_spec (c_state (w_c w)) HE_STATE_DISCONNECTING); [easy|].
  destruct (Z.eqb_spec (c_state (w_c w)) HE_STATE_DISCONNECTED); [easy|]. cbn [orb].
  rewrite P. cbn [plugin_ingress]. unfold bind at 1, ret at 1. change (HE_SUCCESS =? HE_ERR_PLUGIN_DROP) with false.
  change (negb (HE_SUCCESS =? HE_SUCCESS)) with false. cbv iota. rewrite Z.ltb_irrefl. unfold bind at 1, get at 1. cbn [w_c]. rewrite T.
  change (HE_CONNECTION_TYPE_DATAGRAM =? HE_CONNECTION_TYPE_DATAGRAM) with true. cbv iota.
  unfold outside_packet_received, datagram_verdict in *. change sizeof_wire_hdr with 16.
  destruct (Z.ltb_spec (len d) 16) as [L|L]; [discriminate V|].
  rewrite !ld8_ok by lia. change (Z.to_nat 0) with 0%nat. change (Z.to_nat 1) with 1%nat.
  change (Z.to_nat 2) with 2%nat. change (Z.to_nat 3) with 3%nat. unfold bind at 1, lift at 1, ret at 1. unfold bind at 1, lift at 1, ret at 1.
  rewrite <- negb_andb. destruct (negb ((nth 0 d 0 =? 72) && (nth 1 d 0 =? 101))); [discriminate V|].
  unfold bind at 1, lift at 1, ret at 1. unfold bind at 1, lift at 1, ret at 1.
  unfold bind at 1, get at 1. cbn [w_c]. rewrite <- negb_andb.
  destruct (negb ((nth 2 d 0 =? c_vmaj (w_c w)) && (nth 3 d 0 =? c_vmin (w_c w)))); [discriminate V|].
  unfold ldh64. rewrite !ldn_ok by lia. cbn [rbind]. unfold bind at 1, lift at 1, ret at 1.
  rewrite reject_all_ones by (auto; lia). destruct (forallb _ _); [discriminate V|].
  unfold bind at 1, lift at 1, ret at 1. unfold bind at 1, upd at 1.
  match goal with |- context [bind (verify_connection _ _) ?k ?v] => set (K := k); set (w1 := v) end.
  destruct (bind (verify_connection E (hookn E n)) K w1) as [rc1 w2|] eqn:Vc; [|discriminate].
  unfold bind, emit, ret. intros [= _ <-]. apply in_tls_push; [reflexivity|]. revert Vc. apply est_left; [apply in_tls_verify|].
  intros a. unfold K. apply keeps_bind; [apply keeps_upd; auto|]. intros _. case_if; [apply keeps_ret|].
  apply keeps_session_in; auto; [apply in_tls_hook|..]; intros; apply in_tls_push; auto; now destruct e.
Qed.
Print Assumptions C20_admitted_reaches_tls.

Example C20_example : exists w,
  run plain_env 0 client_up world_new = Done tt w /\
  c_ctype (w_c w) = HE_CONNECTION_TYPE_DATAGRAM /\ c_out_chain (w_c w) = [] /\ c_state (w_c w) = HE_STATE_ONLINE /\
  c_vmaj (w_c w) = 1 /\ c_vmin (w_c w) = 2 /\
  datagram_verdict 1 2 (dgram 0 [1]) = HE_SUCCESS /\ datagram_verdict 1 2 (dgram 0 []) = HE_SUCCESS /\
  datagram_verdict 1 2 (tl (dgram 0 [])) = HE_ERR_PACKET_TOO_SMALL /\
  datagram_verdict 1 2 (wire_header true 1 0 false 0) = HE_ERR_INCORRECT_PROTOCOL_VERSION /\
  datagram_verdict 1 2 (dgram HE_PACKET_SESSION_REJECT [1; 2; 3]) = HE_ERR_REJECTED_SESSION.
Proof. eexists. split; [vm_compute; reflexivity|]. vm_compute. repeat split. Qed.
