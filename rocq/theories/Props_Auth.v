(** C01, C02, C28, C29: who may send and receive user data, and when. *)
From Verif Require Import Base Codes Ctx Wire WireSpec ConnState Conn ConnSpec HistSpec ConnSteps Hist ConnWpApi Hist2 Scenario.
Unset Strict Implicit.

(** Every property of histories is a property of reachable worlds. *)
Lemma history_every (P : Z -> ev -> trace -> Prop) E n ops :
  (forall w, Reach w -> every P (w_t w)) -> every P (history E n ops).
Proof. intros H. unfold history. apply H, run_reach. Qed.

Lemma emit_user_data w e : Reach w -> emit_ok w e -> user_data e = true -> origin (w_t w).
Proof.
  intros R [_ H] U. destruct e; try discriminate U.
  - destruct H as (_ & O & _). now apply Reach_origin.
  - destruct o; try discriminate U. destruct H as (_ & _ & H). unfold user_data in U. cbn in U. unfold is_data_type in U.
    destruct H as [[T O]|[(T & O & _)|H]]; [now apply Reach_origin|exact O|].
    exfalso. repeat destruct H as [[T _]|H]; try (rewrite T in U; discriminate U).
    destruct H as [T _]. rewrite T in U. discriminate U.
Qed.
(** ... and a sequential host only sees it while ONLINE *)
Lemma emit_user_data_seq w e : Reach w -> emit_ok w e -> user_data e = true -> re (w_t w) = false ->
  c_state (w_c w) = HE_STATE_ONLINE.
Proof.
  intros R [_ H] U Hr. destruct e; try discriminate U.
  - now destruct H as (_ & O & _).
  - destruct o; try discriminate U. destruct H as (_ & _ & H). unfold user_data in U. cbn in U. unfold is_data_type in U.
    destruct H as [[T O]|[(T & _ & O)|H]]; [exact O|now apply O|].
    exfalso. repeat destruct H as [[T _]|H]; try (rewrite T in U; discriminate U).
    destruct H as [T _]. rewrite T in U. discriminate U.
Qed.

(** ** C01.  On a connection that was never used as a client, whatever the host,
    wolfSSL, the peers and the allocator do, every packet delivered to the
    inside and every data message given to wolfSSL comes after an authentication
    callback has accepted and, later, populate_network_config_ipv4_cb has
    succeeded. *)
Theorem C01_user_data_only_after_authentication : forall E n ops,
  every (fun _ e past => user_data e = true -> has client_call past = false -> authenticated past)
        (history E n ops).
Proof.
  intros E n ops. apply history_every, Reach_every; try discriminate.
  intros w e R H U C. destruct (emit_user_data R H U) as [[F|A] _]; [congruence|exact A].
Qed.
Print Assumptions C01_user_data_only_after_authentication.

(** For a host that makes no calls from inside callbacks: since the last connect
    call that succeeded, so the credentials of an earlier session do not count. *)
Theorem C01_user_data_only_after_authentication_in_this_session : forall E n ops,
  every (fun _ e past => user_data e = true -> has client_call past = false -> re past = false ->
                         authenticated (since_connect past))
        (history E n ops).
Proof.
  intros E n ops. apply history_every, Reach_every; try discriminate.
  intros w e R H U C Hr. pose proof (emit_user_data_seq R H U Hr) as O.
  now apply (Reach_server_online R).
Qed.
Print Assumptions C01_user_data_only_after_authentication_in_this_session.

(** The network configuration is only handed out to an authenticated client: the
    host is asked for it, and it is sent, only after an authentication callback
    has accepted during the same call. *)
Definition config_sent (e : ev) : bool :=
  match e with EWOp (WSend m) => msg_type m =? HE_MSGID_CONFIG_IPV4 | _ => false end.
Theorem C01_configuration_only_after_authentication : forall E n ops,
  every (fun _ e past => (e = EPopulate -> has auth_accepted_ev (upto is_call past) = true) /\
                         (config_sent e = true -> authenticated (upto is_call past)))
        (history E n ops).
Proof.
  intros E n ops. apply history_every, Reach_every; try (split; discriminate).
  intros w e R [_ H]. split.
  - intros ->. apply H.
  - intros U. destruct e; try discriminate U. destruct o; try discriminate U. cbn in U. destruct H as (_ & _ & H).
    apply Z.eqb_eq in U. apply now_authenticated; [exact R|].
    repeat destruct H as [[T H]|H]; try (rewrite T in U; discriminate U); [now destruct H|].
    destruct H as [T _]. rewrite T in U. discriminate U.
Qed.
Print Assumptions C01_configuration_only_after_authentication.

(** A server that authenticates a client, sends and delivers a packet. *)
Example C01_example :
  let t := history plain_env 0 server_data in
  has is_inside t = true /\ has is_data_send t = true /\ has client_call t = false /\ re t = false /\
  has connected_ok t = true /\ has config_sent t = true.
Proof. vm_compute. repeat split. Qed.

(** "Since the last connect call", successful or not, does not hold: a server
    connection that is ONLINE and whose host calls he_conn_server_connect again
    keeps its state when wolfSSL rejects the expected distinguished name
    (conn.c:283-286), but now has a new wolfSSL session.  Whoever completes that
    session's handshake (inside wolfSSL_read) can send data to the inside. *)
Definition dn_ctx : ctx :=
  Ctx (1 :: zeros 50) false true true HE_CONNECTION_TYPE_DATAGRAM all_cbs false HE_PADDING_NONE false false
      true HE_CONNECTION_TYPE_DATAGRAM 1 0 1 2 10.
Definition dn_env : env :=
  Env true 50 (fun t q => match q with QCheckDn _ => 0 | _ => plain_ask t q end) plain_cb
      (fun _ => (ip 1, ip 2, ip 3)) (fun _ => (HE_PLUGIN_SUCCESS, [])) plain_wolf (fun _ => HDone).
Theorem C01_since_last_connect_call_refuted : exists E ops,
  ~ every (fun _ e past => is_inside e = true -> has client_call past = false ->
                           has auth_accepted_ev (upto connect_call past) = true)
          (history E 0 ops).
Proof.
  exists dn_env, (server_up ++ [OServerConnect dn_ctx [] []; OOutside (dgram 4660 (data_message true 1 2 ipv4 0))]).
  vm_compute. intuition congruence.
Qed.
Print Assumptions C01_since_last_connect_call_refuted.

(** ** C02.  On a connection that was never used as a server and whose contexts
    have network_config_ipv4_cb set, user data flows only after a configuration
    message was received and, later, accepted by network_config_ipv4_cb. *)
Theorem C02_user_data_only_after_configuration : forall E n ops,
  every (fun _ e past => user_data e = true -> has server_call past = false ->
                         connects (fun x => cb_netcfg (x_cbs x)) past = true -> configured past)
        (history E n ops).
Proof.
  intros E n ops. apply history_every, Reach_every; try discriminate.
  intros w e R H U C K. destruct (emit_user_data R H U) as [_ [F|[F|A]]]; [congruence| |exact A].
  change (connects has_netcfg (w_t w) = true) in K. congruence.
Qed.
Print Assumptions C02_user_data_only_after_configuration.

(** For a host that makes no calls from inside callbacks: since the last connect
    call that succeeded. *)
Theorem C02_user_data_only_after_configuration_in_this_session : forall E n ops,
  every (fun _ e past => user_data e = true -> has server_call past = false ->
                         connects (fun x => cb_netcfg (x_cbs x)) past = true -> re past = false ->
                         configured (since_connect past))
        (history E n ops).
Proof.
  intros E n ops. apply history_every, Reach_every; try discriminate.
  intros w e R H U C K Hr. pose proof (emit_user_data_seq R H U Hr) as O.
  now apply (Reach_client_online R).
Qed.
Print Assumptions C02_user_data_only_after_configuration_in_this_session.

(** Packets reach the inside only while he_conn_get_state says ONLINE, on clients
    and servers, for every host. *)
Theorem C02_inside_only_online : forall E n ops,
  every (fun s e _ => is_inside e = true -> s = HE_STATE_ONLINE) (history E n ops).
Proof.
  intros E n ops. apply history_every, Reach_every; try discriminate.
  intros w e R [_ H] U. destruct e; try discriminate U. now destruct H as (_ & O & _).
Qed.
Print Assumptions C02_inside_only_online.

(** network_config_ipv4_cb itself is only called by a client, in state
    CONFIGURING, with three NUL-terminated strings and an MTU in 1..1350, after a
    configuration message received during the same call. *)
Theorem C02_network_config_callback : forall E n ops,
  every (fun s e past => forall l p d m, e = ENetCfg l p d m ->
           len l = 24 /\ len p = 24 /\ len d = 24 /\ nth 23 l 0 = 0 /\ nth 23 p 0 = 0 /\ nth 23 d 0 = 0 /\
           1 <= m <= 1350 /\ has (received HE_MSGID_CONFIG_IPV4) (upto is_call past) = true /\
           (re past = false -> s = HE_STATE_CONFIGURING /\ has client_call past = true))
        (history E n ops).
Proof.
  intros E n ops. apply history_every, Reach_every; try discriminate.
  intros w e R [_ H] l p d m ->. destruct H as (_ & M & L1 & L2 & L3 & N1 & N2 & N3 & N & S).
  repeat match goal with |- _ /\ _ => split end; auto; try apply M.
  intros Hr. destruct (S Hr) as [F C]. split; [exact C|].
  destruct (Reach_inv R) as (_ & IS & _). destruct (IS ltac:(rewrite C; discriminate) ltac:(rewrite C; discriminate)) as [[R0 _] _].
  now apply R0.
Qed.
Print Assumptions C02_network_config_callback.

Example C02_example :
  let t := history plain_env 0 client_data in
  has is_inside t = true /\ has is_data_send t = true /\ has server_call t = false /\ re t = false /\
  connects (fun x => cb_netcfg (x_cbs x)) t = true /\ has connected_ok t = true.
Proof. vm_compute. repeat split. Qed.

(** ** C28.  An AUTH message is given to wolfSSL only on a connection used as a
    client, after wolfSSL_negotiate has reported success; for a sequential host,
    only in state AUTHENTICATING. *)
Definition auth_sent (e : ev) : bool :=
  match e with EWOp (WSend m) => msg_type m =? HE_MSGID_AUTH | _ => false end.
Theorem C28_credentials_only_after_tls : forall E n ops,
  every (fun s e past => auth_sent e = true ->
           has client_call past = true /\ has negotiated past = true /\
           (re past = false -> s = HE_STATE_AUTHENTICATING))
        (history E n ops).
Proof.
  intros E n ops. apply history_every, Reach_every; try discriminate.
  intros w e R [_ H] U. destruct e; try discriminate U. destruct o; try discriminate U. cbn in U. destruct H as (_ & _ & H).
  apply Z.eqb_eq in U.
  repeat destruct H as [[T H]|H]; try (rewrite T in U; discriminate U); [destruct H as (A & B & _ & S); auto|].
  destruct H as [T _]. rewrite T in U. discriminate U.
Qed.
Print Assumptions C28_credentials_only_after_tls.

(** In the same TLS session: for a host that makes no calls from inside callbacks,
    credentials are sent only after wolfSSL_negotiate has reported success since
    the last connect call, if that call succeeded or is still running. *)
Definition connect_running (t : trace) : Prop := exists o, last_call t = Some o /\ is_connect_op o = true.
Theorem C28_credentials_only_in_a_negotiated_session : forall E n ops,
  every (fun _ e past => auth_sent e = true -> re past = false ->
           connect_running past \/ has connected_ok (upto connect_call past) = true ->
           has negotiated (upto connect_call past) = true)
        (history E n ops).
Proof.
  intros E n ops. apply history_every, Reach_every; try discriminate.
  intros w e R [_ H] U Hr O. destruct e; try discriminate U. destruct o; try discriminate U. cbn in U. destruct H as (_ & _ & H).
  apply Z.eqb_eq in U.
  assert ((calling is_nudge w \/ now negotiated w) /\ c_state (w_c w) = HE_STATE_AUTHENTICATING) as [[CN|N] St].
  { repeat destruct H as [[T H]|H]; try (rewrite T in U; discriminate U).
    - destruct H as (_ & _ & A & B). split; [exact A|]. now apply B.
    - destruct H as [T _]. rewrite T in U. discriminate U. }
  - destruct O as [(o & L & F)|O].
    + pose proof (calling_last Hr CN L) as F'. destruct o; discriminate.
    + apply (Reach_neg R); auto. right. exact St.
  - now apply now_connect.
Qed.
Print Assumptions C28_credentials_only_in_a_negotiated_session.

(** Not after a connect call that failed: a client in AUTHENTICATING whose host
    calls he_conn_client_connect again keeps that state when wolfSSL rejects the
    distinguished name, and he_conn_nudge then gives the credentials to
    wolfSSL_write on the new session, which has not negotiated. *)
Theorem C28_negotiated_since_last_connect_call_refuted : exists E ops,
  ~ every (fun _ e past => auth_sent e = true -> has negotiated (upto connect_call past) = true) (history E 0 ops).
Proof.
  exists dn_env, (client_setup ++ [OClientConnect dctx [] []; OOutside (dgram 0 []); OClientConnect dn_ctx [] []; ONudge]).
  vm_compute. intuition congruence.
Qed.
Print Assumptions C28_negotiated_since_last_connect_call_refuted.

Example C28_example :
  let t := history plain_env 0 client_data in has auth_sent t = true /\ re t = false.
Proof. vm_compute. split; reflexivity. Qed.

(** ** C29.  Everything given to wolfSSL_write is 1 to 1500 bytes long; DATA
    messages are given only while ONLINE, and so are fragments for a host that
    makes no calls from inside callbacks. *)
Definition data_sent (e : ev) : bool :=
  match e with EWOp (WSend m) => msg_type m =? HE_MSGID_DATA | _ => false end.
Theorem C29_every_message_fits : forall E n ops,
  every (fun _ e _ => forall m, e = EWOp (WSend m) -> 1 <= len m <= 1500) (history E n ops).
Proof.
  intros E n ops. apply history_every, Reach_every; try discriminate.
  intros w e R [_ H] m ->. apply H.
Qed.
Print Assumptions C29_every_message_fits.
Theorem C29_data_only_online : forall E n ops,
  every (fun s e past => (data_sent e = true -> s = HE_STATE_ONLINE) /\
                         (user_data e = true -> re past = false -> s = HE_STATE_ONLINE))
        (history E n ops).
Proof.
  intros E n ops. apply history_every, Reach_every; try (split; discriminate).
  intros w e R H. split; [|now apply emit_user_data_seq]. destruct H as [_ H].
  intros U. destruct e; try discriminate U. destruct o; try discriminate U. cbn in U. destruct H as (_ & _ & H).
  apply Z.eqb_eq in U.
  repeat destruct H as [[T H]|H]; try (rewrite T in U; discriminate U); [exact H|].
  destruct H as [T _]. rewrite T in U. discriminate U.
Qed.
Print Assumptions C29_data_only_online.

(** The types of all messages ever sent, and the states and roles in which each
    is sent. *)
Theorem C29_message_types : forall E n ops,
  every (fun s e past => forall m, e = EWOp (WSend m) -> re past = false ->
           let ty := msg_type m in
           s <> HE_STATE_DISCONNECTED /\
           ((ty = HE_MSGID_DATA \/ ty = HE_MSGID_DATA_WITH_FRAG \/ ty = HE_MSGID_PING \/ ty = HE_MSGID_PONG) /\
              s = HE_STATE_ONLINE \/
            ty = HE_MSGID_AUTH /\ s = HE_STATE_AUTHENTICATING /\ has client_call past = true \/
            (ty = HE_MSGID_CONFIG_IPV4 \/ ty = HE_MSGID_AUTH_RESPONSE) /\ has server_call past = true \/
            ty = HE_MSGID_SERVER_CONFIG /\ has server_call past = true /\
              (s = HE_STATE_LINK_UP \/ s = HE_STATE_AUTHENTICATING \/ s = HE_STATE_CONFIGURING \/ s = HE_STATE_ONLINE) \/
            ty = HE_MSGID_GOODBYE /\ len m = 1 /\ s = HE_STATE_DISCONNECTING /\ last_call past = Some ODisconnect))
        (history E n ops).
Proof.
  intros E n ops. apply history_every, Reach_every; try discriminate.
  intros w e R [_ H] m -> Hr. cbv zeta. destruct H as (_ & D & H). split; [now apply D|].
  pose proof (Reach_role2 R) as R2.
  destruct H as [[T O]|[(T & _ & O)|[(T & O & _ & _ & S)|[(T & _ & S)|[(T & S & _)|[(T & O & _)|[(T & O & _)|[(T & S & V)|(T & L & S & CO)]]]]]]]].
  - left. auto.
  - left. auto.
  - right; left. auto.
  - right; right; left. split; [auto|]. now apply R2, S.
  - right; right; left. split; [auto|]. now apply R2, S.
  - left. auto.
  - left. tauto.
  - right; right; right; left. split; [auto|]. split; [now apply R2|]. unfold valid_state_for_server_config in V.
    apply orb_true_iff in V. rewrite orb_true_iff in V. rewrite orb_true_iff in V. rewrite !Z.eqb_eq in V. tauto.
  - right; right; right; right. split; [auto|]. split; [exact L|]. split; [now apply S|].
    destruct (CO Hr) as (o & Lo & F). destruct o; try discriminate F. exact Lo.
Qed.
Print Assumptions C29_message_types.
