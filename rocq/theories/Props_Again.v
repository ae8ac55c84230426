(** C49: connecting again.  What a connect starts anew and what it carries over from
    an earlier session of the same connection. *)
From Verif Require Import Base Codes Ctx Config Mss MssSpec Frag FragSpec
  Wire WireSpec ConnState Conn ConnSpec CallSpec MsgSpec ConnSteps Frame SeqInside SeqLoop SeqApi SeqPing Scenario Props_Data Props_Size Props_Ping AgainSpec TimerSpec TimerProofs Props_Timer.
Unset Strict Implicit.

Definition fixed (c : conn) :=
  ((c_is_server c, c_in_chain c, c_out_chain c, (c_no_roam c, c_padding c, c_aggr c, c_pqc c, c_ctype c, c_cbs c)),
   from_host c, (c_vmaj c, c_vmin c), c_ping_next c, of_session c, c_session c, c_frag_next c).

Lemma wc_with f w : w_c (with_c f w) = f (w_c w).
Proof. reflexivity. Qed.
Lemma configure_fixed E x i p w r w' c0 : c0 = configure_fields x i p (w_c w) -> configure E x i p w = Done r w' -> fixed (w_c w') = fixed c0.
Proof.
  intros C0. unfold configure. rewrite upd_first. set (w0 := with_c _ _).
  pose (CX := fun v : world => fixed (w_c v) = fixed c0).
  assert (CX w0) as H0 by (unfold CX, w0; rewrite wc_with, C0; reflexivity). clearbody w0. clear C0.
  intros H. change (CX w').
  match type of H with ?m _ = _ => assert (keeps CX (fun _ => True) m) as K end.
  { apply keeps_bind; [intros v Hv; exact Hv|]. intros a1. apply keeps_bind; [intros v Hv; exact Hv|]. intros a2. apply keeps_bind; [apply keeps_upd; auto|intros _; apply keeps_ret]. }
  specialize (K w0 H0). rewrite H in K. exact K.
Qed.

Section Keep.
Variable E : env.
Variable c0 : conn.
Variable io : Z.
Definition I1 (v : world) : Prop := fixed (w_c v) = fixed c0.
Definition I2 (v : world) : Prop := fixed (w_c v) = fixed c0 /\ c_io (w_c v) = io.

Ltac kk I := 
    assert (forall sz, keeps I (fun _ => True) (io_read sz)) as Kr by (intros; apply keeps_io_read; auto);
    assert (keeps I (fun _ : world => True) (@ret unit tt)) as Kh by apply keeps_ret;
    assert (forall b, keeps I (fun _ => True) (io_write E (ret tt) b)) as Kw by (intros; apply keeps_io_write; auto);
    assert (forall o, keeps I (fun _ => True) (wolf_op E (ret tt) o)) as Ko by (intros; apply keeps_wolf_op'; auto);
    assert (forall s, keeps I (fun _ => True) (change_conn_state E (ret tt) s)) as Ks by (intros; apply keeps_change_conn_state; auto);
    assert (keeps I (fun _ => True) (update_timeout E (ret tt))) as Ku by (apply keeps_update_timeout; auto);
    assert (forall x, keeps I (fun _ => True) (wolf_settings E x)) as K1 by (intros; apply keeps_settings; auto);
    assert (forall x, keeps I (fun _ => True) (wolf_settings2 E x)) as K2 by (intros; apply keeps_settings2; auto);
    assert (forall q, keeps I (fun _ => True) (ask E q)) as Ka by (intros q w0 H0; exact H0);
    repeat first [apply keeps_ret|apply Ko|apply Ks|apply Ku|apply K1|apply K2|apply Ka|apply keeps_upd; now intros w0 H0
                 |case_if|apply keeps_bind; [|intros; cbv zeta]|match goal with |- keeps _ _ (let '(_, _) := ?x in _) => destruct x as [? ?] end].

Lemma connect_fixed x i p w rc w' : x_io x = io -> internal_connect E (ret tt) x i p w = Done rc w' -> rc = HE_SUCCESS ->
  c0 = configure_fields x i p (w_c w) -> I2 w'.
Proof.
  intros Hio C -> C0. unfold internal_connect in C. unfold bind at 1 in C. destruct (configure E x i p w) as [rc1 w1|] eqn:Cf; [|discriminate].
  destruct (Z.eqb_spec rc1 HE_SUCCESS) as [->|N]; cbn [negb] in C; [|unfold ret in C; injection C as C _; congruence].
  pose proof (configure_fixed C0 Cf) as F1. clear Cf C0.
  unfold bind at 1 in C. destruct (ask E QWolfNew w1) as [a w2|] eqn:A; [|discriminate].
  assert (F2 : fixed (w_c w2) = fixed c0) by (unfold ask, bind, log, emit, ret in A; apply Done_inv in A as [_ <-]; exact F1).
  cbv zeta in C. rewrite upd_first in C.
  set (w3 := with_c _ w2) in C. assert (F3 : I2 w3) by (split; [exact F2|exact Hio]). clearbody w3.
  match type of C with ?m w3 = _ => assert (keeps I2 (fun _ => True) m) as K by (kk I2) end.
  specialize (K w3 F3). now rewrite C in K.
Qed.
End Keep.

Lemma fixed_configure x i p c : fixed (configure_fields x i p c) =
  ((c_is_server c, i, p, (x_no_roaming x, x_padding x, x_aggressive x, x_pqc x, x_type x, x_cbs x)),
   from_host c, version_after x c, 1, of_session c, c_session c, c_frag_next c).
Proof.
  unfold configure_fields, version_after. cbv zeta.
  change (c_vmaj (set_ctype (x_type x) (set_pqc (x_pqc x) (set_aggr (x_aggressive x) (set_padding (x_padding x) (set_no_roam (x_no_roaming x) c)))))) with (c_vmaj c).
  destruct (c_vmaj c =? 0); vm_compute; reflexivity.
Qed.
Lemma fixed_start server x i p c c1 : c1 = set_is_server server c -> forall c',
  fixed c' = fixed (configure_fields x i p c1) -> c_io c' = x_io x ->
  from_call c' = from_context server x i p /\ from_host c' = from_host c /\ (c_vmaj c', c_vmin c') = version_after x c /\ c_ping_next c' = 1 /\
  of_session c' = of_session c /\ c_session c' = c_session c /\ c_frag_next c' = c_frag_next c.
Proof.
  intros -> c' F Io. rewrite fixed_configure in F.
  change (from_host (set_is_server server c)) with (from_host c) in F. change (version_after x (set_is_server server c)) with (version_after x c) in F.
  change (of_session (set_is_server server c)) with (of_session c) in F. change (c_is_server (set_is_server server c)) with server in F.
  change (c_session (set_is_server server c)) with (c_session c) in F. change (c_frag_next (set_is_server server c)) with (c_frag_next c) in F.
  generalize dependent (from_host c). generalize dependent (version_after x c). generalize dependent (of_session c).
  generalize dependent (c_session c). generalize dependent (c_frag_next c). intros n s os v h F.
  unfold fixed in F. pose proof (f_equal (fun x => fst (fst (fst (fst (fst (fst x)))))) F) as F1. cbv beta iota delta [fst] in F1.
  apply pair_equal_spec in F as [F F7]. apply pair_equal_spec in F as [F F6]. apply pair_equal_spec in F as [F F5]. apply pair_equal_spec in F as [F F4].
  apply pair_equal_spec in F as [F F3]. apply pair_equal_spec in F as [F F2]. clear F.
  split; [|auto 10]. unfold from_call, from_context. rewrite Io.
  apply pair_equal_spec in F1 as [F1 G]. rewrite F1. apply pair_equal_spec in G as [G ->]. apply pair_equal_spec in G as [G ->]. rewrite G. reflexivity.
Qed.

(** A successful connect, whatever was done with the connection before: role,
    plugins, callbacks and the other settings are those of the call; credentials,
    server name and MTU are those the host has set; no fragment is waiting; keepalive ids
    start at 1.  But the protocol version stays as it was, and so do the
    session-dependent data, and for a client the session id. *)
Theorem C49_connect : forall E o w w', reached E w -> call E o w HE_SUCCESS w' ->
  match o with
  | OClientConnect x i p | OServerConnect x i p =>
    let server := match o with OServerConnect _ _ _ => true | _ => false end in
    from_call (w_c w') = from_context server x i p /\
    from_host (w_c w') = from_host (w_c w) /\
    (forall id, place_free (w_c w') id) /\
    c_ping_next (w_c w') = 1 /\
    (c_vmaj (w_c w'), c_vmin (w_c w')) = version_after x (w_c w) /\
    of_session (w_c w') = of_session (w_c w) /\
    (server = false -> c_session (w_c w') = c_session (w_c w))
  | _ => True
  end.
Proof.
  intros E o w w' Re C. destruct o as [x i p|x i p| | | | | | | | | | | | | | | | | |]; try exact I; cbv zeta.
  - pose proof (connect_free C Logic.I) as Fr. destruct (call_body C) as (w1 & Bd & ->). cbn [api_body] in Bd.
    unfold client_connect in Bd. unfold bind at 1, get in Bd. unfold bind at 1 in Bd. destruct (is_valid_client _ _) as [r|]; [|discriminate].
    unfold lift, ret in Bd. destruct (Z.eqb_spec r HE_SUCCESS) as [_|N]; cbn [negb] in Bd; [|apply Done_inv in Bd as [Bd _]; congruence].
    rewrite upd_first in Bd. destruct (connect_fixed eq_refl Bd eq_refl eq_refl) as [F Io].
    destruct (fixed_start eq_refl F Io) as (A1 & A2 & A3 & A4 & A5 & A6 & _).
    split; [exact A1|]. split; [exact A2|]. split; [exact Fr|]. split; [exact A4|]. split; [exact A3|]. split; [exact A5|]. intros _. exact A6.
  - pose proof (connect_free C Logic.I) as Fr. destruct (call_body C) as (w1 & Bd & ->). cbn [api_body] in Bd.
    unfold server_connect in Bd. unfold bind at 1, get in Bd. match type of Bd with (if negb (?v =? _) then _ else _) _ = _ => destruct (Z.eqb_spec v HE_SUCCESS) as [_|N] end;
      cbn [negb] in Bd; [|apply Done_inv in Bd as [Bd _]; congruence].
    rewrite upd_first in Bd. unfold bind at 1 in Bd. destruct (internal_connect _ _ _ _ _ _) as [r w2|] eqn:Ic; [|discriminate].
    destruct (Z.eqb_spec r HE_SUCCESS) as [->|N]; cbn [negb] in Bd; [|unfold ret in Bd; apply Done_inv in Bd as [Bd _]; congruence].
    destruct (connect_fixed eq_refl Ic eq_refl eq_refl) as [F Io].
    match type of F with _ = fixed ?c0 => assert (keeps (I2 c0 (x_io x)) (fun _ => True) (generate_session_id E)) as K by (apply keeps_generate_session_id; auto) end.
    unfold bind at 1 in Bd. specialize (K w2 (conj F Io)). destruct (generate_session_id E w2) as [[r s] w3|]; [|discriminate].
    clear F Io. destruct K as [F Io].
    destruct (fixed_start eq_refl F Io) as (A1 & A2 & A3 & A4 & A5 & A6 & _).
    destruct (negb (r =? HE_SUCCESS)); unfold bind, upd, ret in Bd; apply Done_inv in Bd as [_ <-];
    (split; [exact A1|]; split; [exact A2|]; split; [exact Fr|]; split; [exact A4|]; split; [exact A3|]; split; [exact A5|]; intros X; discriminate X).
Qed.
Print Assumptions C49_connect.

(** ** What does not hold: a session of a used connection is not like one of a new
    connection *)
Definition reconnect : list op := [OClientConnect dctx [] []; OOutside (dgram 0 (config_message true (ip 1) (ip 2) (ip 3) 7777))].
(** The session id at bytes 8-15 of a datagram. *)
Definition shown (p : bytes) : bytes := slice p 8 8.
(** Datagrams are sent in the call, and all of them are [good]. *)
Definition all_sent (w w' : world) (good : bytes -> Prop) : Prop := exists p l, during outside w w' (p :: l) /\ Forall good (p :: l).
Ltac sent_all := eexists _, _; split; [vm_compute; reflexivity|repeat constructor; vm_compute; first [reflexivity|discriminate]].

(** The client shows the server of the new session the id of the old session. *)
Theorem C49_session_refuted : exists w w',
  reached plain_env w /\ c_state (w_c w) = HE_STATE_DISCONNECTED /\ call plain_env (OClientConnect dctx [] []) w HE_SUCCESS w' /\
  all_sent w w' (fun p => shown p = bytes64 true 4660) /\
  (* whereas on a new connection *)
  exists v v', reached plain_env v /\ call plain_env (OOutside (dgram 0 [])) v HE_SUCCESS v' /\
    c_state (w_c v) = HE_STATE_CONNECTING /\ all_sent v v' (fun p => shown p = bytes64 true 0).
Proof.
  exists (world_at (client_up ++ [ODisconnect])), (world_at (client_up ++ [ODisconnect; OClientConnect dctx [] []])).
  split; [apply world_at_reached; vm_compute; reflexivity|]. split; [vm_compute; reflexivity|]. split; [vm_compute; reflexivity|].
  split; [sent_all|].
  exists (world_at (firstn 4 client_up)), (world_at (firstn 5 client_up)).
  split; [apply world_at_reached; vm_compute; reflexivity|]. split; [vm_compute; reflexivity|]. split; [vm_compute; reflexivity|]. sent_all.
Qed.
Print Assumptions C49_session_refuted.

(** The first message of the new session is not reported. *)
Theorem C49_first_message_refuted : exists w w',
  reached plain_env w /\ c_state (w_c w) = HE_STATE_DISCONNECTED /\
  run plain_env 0 reconnect w = Done tt w' /\ c_state (w_c w') = HE_STATE_ONLINE /\ cb_event (c_cbs (w_c w')) = true /\
  during event w w' [] /\ during (both event) w w' (caused [((HE_STATE_AUTHENTICATING, config_message true (ip 1) (ip 2) (ip 3) 7777), [])]).
Proof.
  exists (world_at (client_up ++ [ODisconnect])), (world_at (client_up ++ [ODisconnect] ++ reconnect)).
  split; [apply world_at_reached; vm_compute; reflexivity|]. conj; vm_compute; reflexivity.
Qed.
Print Assumptions C49_first_message_refuted.

(** An answer to a keepalive of the old session is reported in the new one, where no
    keepalive was sent. *)
Theorem C49_pong_refuted : exists w v w',
  reached plain_env w /\ c_state (w_c w) = HE_STATE_DISCONNECTED /\ run plain_env 0 reconnect w = Done tt v /\
  call plain_env (pong 1) v HE_SUCCESS w' /\ during event w w' [HE_EVENT_PONG].
Proof.
  exists (world_at (client_up ++ [OKeepalive; ODisconnect])), (world_at (client_up ++ [OKeepalive; ODisconnect] ++ reconnect)),
    (world_at (client_up ++ [OKeepalive; ODisconnect] ++ reconnect ++ [pong 1])).
  split; [apply world_at_reached; vm_compute; reflexivity|]. conj; vm_compute; reflexivity.
Qed.
Print Assumptions C49_pong_refuted.

(** The path MTU found in the old session is used in the new one, and a new
    discovery cannot be started: the call succeeds and does nothing. *)
Theorem C49_path_mtu_refuted : exists w v w',
  reached plain_env w /\ c_state (w_c w) = HE_STATE_DISCONNECTED /\ run plain_env 0 reconnect w = Done tt v /\
  c_state (w_c v) = HE_STATE_ONLINE /\ path_mtu (w_c v) = 1250 /\
  call plain_env OStartPmtud v HE_SUCCESS w' /\ during (both sent) v w' [] /\ path_mtu (w_c w') = 1250.
Proof.
  set (ops := client_up ++ [OStartPmtud; pong 1] ++ repeat OPmtudTimeout 6 ++ [ODisconnect]).
  exists (world_at ops), (world_at (ops ++ reconnect)), (world_at (ops ++ reconnect ++ [OStartPmtud])).
  split; [apply world_at_reached; vm_compute; reflexivity|]. conj; vm_compute; reflexivity.
Qed.
Print Assumptions C49_path_mtu_refuted.

(** A renegotiation of the old session is reported as completed in the new one, where
    none was started. *)
Definition slow_ask (t : trace) (q : query) : Z :=
  match q with
  | QRenegPending => if (count (fun e => match e with EAsk QRenegPending _ => true | _ => false end) t <? 1)%nat then 1 else 0
  | _ => plain_ask t q
  end.
Definition slow_env : env :=
  Env true 50 slow_ask plain_cb (fun _ => (ip 1, ip 2, ip 3)) (fun _ => (HE_PLUGIN_SUCCESS, [])) plain_wolf (fun _ => HDone).
Definition slow_at (ops : list op) : world := world_of (run slow_env 0 ops world_new).
Theorem C49_renegotiation_refuted : exists w w',
  reached slow_env w /\ c_state (w_c w) = HE_STATE_DISCONNECTED /\ run slow_env 0 reconnect w = Done tt w' /\
  during event w w' [HE_EVENT_SECURE_RENEGOTIATION_COMPLETED].
Proof.
  set (ops := client_up ++ [OScheduleReneg; OOutside (dgram 4660 []); ODisconnect]).
  exists (slow_at ops), (slow_at (ops ++ reconnect)).
  split; [exists ops; vm_compute; reflexivity|]. conj; vm_compute; reflexivity.
Qed.
Print Assumptions C49_renegotiation_refuted.

(** The version of the first connect stays: a client that has connected with a context
    for 1.1 cannot connect with one for 1.2, although the host never set a version. *)
Definition dctx11 : ctx := Ctx (zeros 51) false true true HE_CONNECTION_TYPE_DATAGRAM all_cbs false HE_PADDING_NONE false false true HE_CONNECTION_TYPE_DATAGRAM 1 0 1 1 10.
Theorem C49_version_refuted : exists w w',
  reached plain_env w /\ c_state (w_c w) = HE_STATE_DISCONNECTED /\
  call plain_env (OClientConnect dctx [] []) w HE_ERR_INCORRECT_PROTOCOL_VERSION w' /\
  collect (fun _ e => match e with ECall (OSetVersion a b) => [(a, b)] | _ => [] end) (w_t w) = [] /\
  (* whereas on a new connection with the same settings *)
  exists v v', reached plain_env v /\ from_host (w_c v) = from_host (w_c w) /\ call plain_env (OClientConnect dctx [] []) v HE_SUCCESS v'.
Proof.
  set (ops := client_setup ++ [OClientConnect dctx11 [] []; OOutside (wire_header true 1 1 false 0)]).
  exists (world_at (ops ++ [ODisconnect])), (world_at (ops ++ [ODisconnect; OClientConnect dctx [] []])).
  split; [apply world_at_reached; vm_compute; reflexivity|]. split; [vm_compute; reflexivity|]. split; [vm_compute; reflexivity|]. split; [vm_compute; reflexivity|].
  exists (world_at client_setup), (world_at (client_setup ++ [OClientConnect dctx [] []])).
  split; [apply world_at_reached; vm_compute; reflexivity|]. split; vm_compute; reflexivity.
Qed.
Print Assumptions C49_version_refuted.

(** The id a server has announced for the old session is shown in the new one. *)
Definition new_ids (t : trace) (q : query) : Z := match q with QRngValue => Z.of_nat (length t) | _ => plain_ask t q end.
Definition ids_env : env :=
  Env true 50 new_ids plain_cb (fun _ => (ip 1, ip 2, ip 3)) (fun _ => (HE_PLUGIN_SUCCESS, [])) plain_wolf (fun _ => HDone).
Definition ids_at (ops : list op) : world := world_of (run ids_env 0 ops world_new).
Theorem C49_pending_refuted : exists w v w',
  reached ids_env w /\ c_state (w_c w) = HE_STATE_DISCONNECTED /\ call ids_env (OServerConnect dctx [] []) w HE_SUCCESS v /\
  call ids_env (OOutside (dgram 0 (userpass_message user pass))) v HE_SUCCESS w' /\
  c_session (w_c v) <> c_session (w_c w) /\ c_session (w_c w') = c_session (w_c v) /\ c_pending (w_c w) <> 0 /\
  all_sent v w' (fun p => shown p = bytes64 true (c_pending (w_c w))) /\ all_sent v w' (fun p => shown p <> bytes64 true (c_session (w_c v))).
Proof.
  set (ops := server_up ++ [ORotate; ODisconnect]).
  exists (ids_at ops), (ids_at (ops ++ [OServerConnect dctx [] []])), (ids_at (ops ++ [OServerConnect dctx [] []; OOutside (dgram 0 (userpass_message user pass))])).
  split; [exists ops; vm_compute; reflexivity|]. split; [vm_compute; reflexivity|]. split; [vm_compute; reflexivity|]. split; [vm_compute; reflexivity|].
  split; [vm_compute; discriminate|]. split; [vm_compute; reflexivity|]. split; [vm_compute; discriminate|]. split; sent_all.
Qed.
Print Assumptions C49_pending_refuted.

(** Non-vacuity: connecting again after a session, with other plugins and settings. *)
Example C49_example : exists x w w',
  reached plain_env w /\ c_state (w_c w) = HE_STATE_DISCONNECTED /\ call plain_env (OClientConnect x [Some (Plug 7 true true)] []) w HE_SUCCESS w' /\
  x_cbs x <> c_cbs (w_c w) /\ c_in_chain (w_c w) = [].
Proof.
  exists dctx, (world_at (client_up ++ [OStartPmtud; ODisconnect])), (world_at (client_up ++ [OStartPmtud; ODisconnect; OClientConnect dctx [Some (Plug 7 true true)] []])).
  split; [apply world_at_reached; vm_compute; reflexivity|]. split; [vm_compute; reflexivity|]. split; [vm_compute; reflexivity|].
  split; vm_compute; [discriminate|reflexivity].
Qed.
