(** The outside MTU of a connection that has ever been connected is usable. *)
From Verif Require Import Base Codes Ctx Config Mss Frag Wire ConnState Conn ConnSpec Frame.
Unset Strict Implicit.

Definition mtu_set (w : world) : Prop := 115 <= c_mtu (w_c w) <= 65535.
Definition mtu_unset (w : world) : Prop :=
  c_mtu (w_c w) = 0 /\ c_wolf (w_c w) = false /\
  (c_state (w_c w) = HE_STATE_NONE \/ c_state (w_c w) = HE_STATE_DISCONNECTED).
Definition mtu_ok (w : world) : Prop := mtu_set w \/ mtu_unset w.

Section Set_.
Variable E : env.
Variable hook : M unit.
Hypothesis Hk : keeps mtu_set mtu_set hook.

Ltac t := intros; try assumption; try (unfold mtu_set, push, with_c in *; cbn in *; assumption).
Lemma set_read sz : keeps mtu_set mtu_set (io_read sz).
Proof. apply keeps_io_read; t. Qed.
Lemma set_write b : keeps mtu_set mtu_set (io_write E hook b).
Proof. apply keeps_io_write; t. Qed.
Lemma set_configure x i p w : mtu_set w -> mtu_set (with_c (configure_fields x i p) w).
Proof. unfold mtu_set, with_c, configure_fields. cbn. intros H. case_if; cbn; exact H. Qed.

Ltac kpm := intros; try assumption; try apply set_read; try apply set_write; try (now apply set_configure);
  try (unfold mtu_set, push, with_c, HE_PACKET_OVERHEAD in *; cbn in *; lia).
Lemma set_api o : keeps mtu_set mtu_set (api_body E hook o).
Proof. apply keeps_api_all; kpm. apply keeps_server_connect; kpm. Qed.
Lemma set_messages : keeps mtu_set mtu_set (handle_messages E hook).
Proof. apply keeps_handle_messages; kpm. Qed.
Lemma set_loop f : keeps mtu_set mtu_set (message_loop E hook f).
Proof. apply keeps_loop; kpm. Qed.
Lemma set_reneg : keeps mtu_set mtu_set (renegotiate_ssl E hook).
Proof. apply keeps_renegotiate; kpm. Qed.
Lemma set_change s : keeps mtu_set mtu_set (change_conn_state E hook s).
Proof. apply keeps_change_conn_state; kpm. Qed.
Lemma set_wolf_op o : keeps mtu_set mtu_set (wolf_op E hook o).
Proof. apply keeps_wolf_op'; kpm. Qed.
Lemma set_send_auth : keeps mtu_set mtu_set (send_auth E hook).
Proof. apply keeps_send_auth; kpm. Qed.
Lemma set_timeout_ : keeps mtu_set mtu_set (update_timeout E hook).
Proof. apply keeps_update_timeout; kpm. Qed.
End Set_.

Section Ok.
Variable E : env.
Variable hook : M unit.
Hypothesis Hk1 : keeps mtu_set mtu_set hook.
Hypothesis Hk : keeps mtu_ok mtu_ok hook.

Lemma by_cases A (m : M A) : keeps mtu_set mtu_set m ->
  (forall w, mtu_unset w -> match m w with Done _ w' => mtu_ok w' | Stuck _ w' => mtu_ok w' end) ->
  keeps mtu_ok mtu_ok m.
Proof. intros K L w [H|H]; [|now apply L]. specialize (K w H). destruct (m w); now left. Qed.

Ltac kpo := intros; try assumption; try (unfold mtu_ok, mtu_set, mtu_unset, push, with_c, HE_PACKET_OVERHEAD in *; cbn in *; lia || tauto).
Lemma ok_read sz : keeps mtu_ok mtu_ok (io_read sz).
Proof. apply keeps_io_read; kpo. Qed.
Lemma ok_write b : keeps mtu_ok mtu_ok (io_write E hook b).
Proof. apply keeps_io_write; kpo. Qed.
Ltac kpk := kpo; try apply ok_read; try apply ok_write.
Lemma ok_wolf_op o : keeps mtu_ok mtu_ok (wolf_op E hook o).
Proof. apply keeps_wolf_op'; kpk. Qed.
Lemma ok_timeout : keeps mtu_ok mtu_ok (update_timeout E hook).
Proof. apply keeps_update_timeout; kpk. Qed.
Lemma ok_event e : keeps mtu_ok mtu_ok (generate_event hook e).
Proof. apply keeps_generate_event; kpk. Qed.
Lemma ok_check : keeps mtu_ok mtu_ok (check_renegotiation E hook).
Proof. apply keeps_check; kpk. Qed.
Lemma ok_plugin ch d c : keeps mtu_ok mtu_ok (plugin_ingress E ch d c).
Proof. apply keeps_plugin_ingress; kpk. Qed.
Lemma ok_session s : keeps mtu_ok mtu_ok (update_session_incoming hook s).
Proof. apply keeps_session_in; kpk. Qed.

(** Without a wolfSSL object an operation fails at once. *)
Lemma no_wolf o w : c_wolf (w_c w) = false ->
  wolf_op E hook o w = Done (BAD_FUNC_ARG, BAD_FUNC_ARG, []) (push (EWEnd o BAD_FUNC_ARG BAD_FUNC_ARG []) (push (EWOp o) w)).
Proof. intros H. unfold wolf_op, bind, emit, get. cbn [w_c]. rewrite H. reflexivity. Qed.
Lemma unset_push e w : mtu_unset w -> mtu_unset (push e w).
Proof. exact (fun H => H). Qed.

Lemma ok_loop f : keeps mtu_ok mtu_ok (message_loop E hook f).
Proof.
  apply by_cases; [now apply set_loop|]. intros w H. destruct f as [|f]; [now right|]. cbn [message_loop].
  destruct (e_fuel E) as [|g]; [now right|]. cbn [fetch_message]. unfold bind at 1 2. rewrite no_wolf by apply H.
  cbn -[push]. case_if; right; exact H.
Qed.
Lemma ok_reneg : keeps mtu_ok mtu_ok (renegotiate_ssl E hook).
Proof.
  apply by_cases; [now apply set_reneg|]. intros w (H1 & H2 & H3). unfold renegotiate_ssl, bind, upd, get. cbn [w_c c_prog set_due c_state].
  replace (c_state (w_c w) =? HE_STATE_ONLINE) with false by (destruct H3 as [-> | ->]; reflexivity).
  cbn [negb]. rewrite orb_true_r. right. now split.
Qed.
Lemma ok_messages : keeps mtu_ok mtu_ok (handle_messages E hook).
Proof.
  unfold handle_messages. apply keeps_bind; [apply ok_loop|]. intros rc. case_if; [apply keeps_ret|].
  apply keeps_bind; [apply keeps_get|]. intros due. apply keeps_bind; [destruct due; [apply ok_reneg|apply keeps_ret]|].
  intros rc'. case_if; [apply keeps_ret|apply ok_check].
Qed.
Lemma ok_verify : keeps mtu_ok mtu_ok (verify_connection E hook).
Proof.
  unfold verify_connection. apply keeps_bind; [apply keeps_get|]. intros first. apply keeps_bind.
  { destruct first; cbn [negb]; [apply keeps_ret|]. apply keeps_bind; [apply keeps_upd; kpo|intros _; apply ok_event]. }
  intros _. apply by_cases.
  - intros w H. unfold bind at 1, get. case_if; [|now apply set_messages].
    revert w H. apply keeps_bind; [now apply set_wolf_op|]. intros [[r err] d].
    repeat first [now apply set_timeout_|now apply set_messages|case_if|apply keeps_ret|apply keeps_bind; [apply set_change || apply keeps_upd || apply keeps_get || apply keeps_when|intros]
                 |now apply set_messages|now apply set_timeout_|assumption].
    all: try (now intros w H).
    all: try apply keeps_get; try (apply keeps_when; now apply set_timeout_).
    all: try (intros w; apply set_change; assumption).
  - intros w (H1 & H2 & H3). unfold bind at 1, get. replace (c_state (w_c w) =? HE_STATE_CONNECTING) with false by (destruct H3 as [-> | ->]; reflexivity).
    apply ok_messages. right. now repeat split.
Qed.
Lemma ok_packet d : keeps mtu_ok mtu_ok (outside_packet_received E hook d).
Proof.
  unfold outside_packet_received.
  repeat first [apply keeps_ret|apply keeps_lift; now auto|apply ok_verify|apply ok_session|apply keeps_get|apply keeps_upd; now kpo
               |case_if|apply keeps_bind; [|intros]].
Qed.
Lemma ok_stream d : keeps mtu_ok mtu_ok (outside_stream_received E hook d).
Proof.
  unfold outside_stream_received.
  repeat first [apply keeps_ret|apply keeps_lift; now auto|apply ok_verify|apply keeps_get|apply keeps_upd; now kpo
               |case_if|apply keeps_bind; [|intros]].
Qed.
Lemma ok_outside d : keeps mtu_ok mtu_ok (outside_data_received E hook d).
Proof.
  unfold outside_data_received. apply keeps_bind; [apply keeps_get|]. intros c. case_if; [apply keeps_ret|].
  apply keeps_bind; [apply ok_plugin|]. intros [res data]. repeat case_if; try apply keeps_ret.
  apply keeps_bind; [apply keeps_get|]. intros ct. repeat case_if; auto using ok_packet, ok_stream, keeps_ret.
Qed.
Lemma ok_nudge : keeps mtu_ok mtu_ok (nudge E hook).
Proof.
  unfold nudge. apply keeps_bind; [apply keeps_upd; kpo|]. intros _. apply by_cases.
  - intros w H. unfold bind at 1, get. case_if.
    + revert w H. repeat (apply keeps_bind; [now apply set_send_auth || now apply set_timeout_|intros _]). apply keeps_ret.
    + revert w H. apply keeps_bind; [now apply set_wolf_op|]. intros [[r err] d].
      case_if; (apply keeps_bind; [now apply set_change || now apply set_timeout_|intros _]); apply keeps_ret.
  - intros w (H1 & H2 & H3). unfold bind at 1, get. replace (c_state (w_c w) =? HE_STATE_AUTHENTICATING) with false by (destruct H3 as [-> | ->]; reflexivity).
    unfold bind at 1. rewrite no_wolf by exact H2. cbn -[push change_conn_state bind].
    change (match bind (change_conn_state E hook HE_STATE_DISCONNECTED) (fun _ => ret HE_CONNECTION_TIMED_OUT)
      (push (EWEnd WGotTimeout BAD_FUNC_ARG BAD_FUNC_ARG []) (push (EWOp WGotTimeout) w)) with Done _ w' => mtu_ok w' | Stuck _ w' => mtu_ok w' end).
    assert (forall w, mtu_unset w -> match change_conn_state E hook HE_STATE_DISCONNECTED w with Done _ w' => mtu_ok w' | Stuck _ w' => mtu_ok w' end) as K.
    { clear - Hk. intros w (H1 & H2 & H3). unfold change_conn_state, set_conn_state. unfold bind at 1 2, get.
      destruct (c_state (w_c w) =? HE_STATE_DISCONNECTED); [right; repeat split; assumption|].
      unfold bind at 1, upd. unfold bind at 1. unfold bind at 1.
      assert (mtu_ok (World (set_state HE_STATE_DISCONNECTED (w_c w)) (w_t w))) as J by (right; unfold mtu_unset; cbn; auto).
      cbn [w_c]. set (w2 := World _ _) in *. clearbody w2. unfold when. destruct (cb_state _).
      - unfold notify. unfold bind at 1, emit. assert (mtu_ok (push (EState HE_STATE_DISCONNECTED) w2)) as J2 by exact J.
        specialize (Hk J2). unfold push in Hk. destruct (hook _); exact Hk.
      - cbn. exact J. }
    specialize (K (push (EWEnd WGotTimeout BAD_FUNC_ARG BAD_FUNC_ARG []) (push (EWOp WGotTimeout) w)) (conj H1 (conj H2 H3))).
    unfold bind at 1. destruct (change_conn_state _ _ _ _); exact K.
Qed.
Lemma ok_connect x c : c_mtu c = 0 -> (exists u, is_valid_client x c = Ub u) \/ (exists r, is_valid_client x c = Val r /\ r <> HE_SUCCESS).
Proof.
  intros H. unfold is_valid_client. destruct (config_is_empty _) as [a|u]; [|left; now exists u]. cbn.
  destruct (config_is_empty _) as [b|u]; [|left; now exists u]. cbn. right. eexists. split; [reflexivity|]. rewrite H. cbn.
  repeat case_if; discriminate.
Qed.
Lemma ok_client x i p : keeps mtu_ok mtu_ok (client_connect E hook x i p).
Proof.
  apply by_cases; [exact (set_api E Hk1 (OClientConnect x i p))|]. intros w H. unfold client_connect. unfold bind at 1, get. unfold bind at 1.
  destruct (ok_connect x (proj1 H)) as [[u ->]|[r [-> N]]]; unfold lift, stuck, ret; [now right|].
  apply Z.eqb_neq in N. rewrite N. cbn [negb]. now right.
Qed.
Lemma ok_server x i p : keeps mtu_ok mtu_ok (server_connect E hook x i p).
Proof.
  apply by_cases; [exact (set_api E Hk1 (OServerConnect x i p))|]. intros w H. unfold server_connect. unfold bind at 1, get.
  assert (is_valid_server x (w_c w) = HE_ERR_CONF_MTU_NOT_SET) as -> by (unfold is_valid_server; rewrite (proj1 H); reflexivity).
  change (negb (HE_ERR_CONF_MTU_NOT_SET =? HE_SUCCESS)) with true. cbv iota. now right.
Qed.
Lemma ok_disconnect : keeps mtu_ok mtu_ok (disconnect E hook).
Proof.
  apply by_cases; [exact (set_api E Hk1 ODisconnect)|]. intros w H. unfold disconnect. unfold bind at 1, get.
  rewrite (proj1 (proj2 H)). cbn [negb]. now right.
Qed.
Lemma ok_api o : keeps mtu_ok mtu_ok (api_body E hook o).
Proof.
  destruct o; cbn [api_body].
  - apply ok_client.
  - apply ok_server.
  - apply ok_disconnect.
  - apply keeps_inside; kpk.
  - apply ok_outside.
  - apply ok_nudge.
  - apply keeps_keepalive; kpk.
  - apply keeps_send_server_config; kpk.
  - apply keeps_bind; [apply keeps_upd; kpo|intros _; apply keeps_ret].
  - apply keeps_start_pmtu; kpk.
  - apply keeps_pm_timeout; kpk.
  - apply keeps_rotate; kpk.
  - apply keeps_set_session; kpk.
  - apply keeps_set_username; kpk.
  - apply keeps_set_password; kpk.
  - apply keeps_set_token; kpk.
  - apply keeps_set_auth_buffer; kpk.
  - apply keeps_set_mtu; kpk.
  - apply keeps_bind; [apply keeps_upd; kpo|intros _; apply keeps_ret].
  - apply keeps_set_sni; kpk.
Qed.
End Ok.

Lemma host_ok E hook h : keeps mtu_set mtu_set hook -> keeps mtu_ok mtu_ok hook ->
  keeps mtu_set mtu_set (run_host E hook h) /\ keeps mtu_ok mtu_ok (run_host E hook h).
Proof.
  intros H1 H2. induction h as [|o k IH]; cbn [run_host]; [split; apply keeps_ret|]. unfold nested_api.
  split; (apply keeps_bind; [|intros rc; apply IH]); (apply keeps_bind; [apply keeps_emit; now intros w|intros _]);
    (apply keeps_bind; [now apply set_api || now apply ok_api|intros r]); (apply keeps_bind; [apply keeps_emit; now intros w|intros _; apply keeps_ret]).
Qed.
Lemma hook_ok E n : keeps mtu_set mtu_set (hookn E n) /\ keeps mtu_ok mtu_ok (hookn E n).
Proof.
  induction n as [|n [IH1 IH2]]; [split; apply keeps_ret|]. cbn [hookn].
  split; (apply keeps_bind; [apply keeps_log|intros t]); now apply host_ok.
Qed.
Lemma run_mtu E n ops : forall w, mtu_ok w -> mtu_ok (world_of (run E n ops w)).
Proof.
  induction ops as [|o ops IH]; intros w H; [exact H|]. cbn [run].
  assert (keeps mtu_ok mtu_ok (api E (hookn E n) o)) as K.
  { destruct (hook_ok E n). unfold api. apply keeps_bind; [apply keeps_emit; now intros|intros _].
    apply keeps_bind; [now apply ok_api|intros r]. apply keeps_bind; [apply keeps_emit; now intros|intros _; apply keeps_ret]. }
  specialize (K w H). destruct (api E (hookn E n) o w); [|exact K]. now apply IH.
Qed.
Lemma run_mtu_online E n ops w : run E n ops world_new = Done tt w -> c_state (w_c w) = HE_STATE_ONLINE -> 115 <= c_mtu (w_c w) <= 65535.
Proof.
  intros R S. assert (mtu_ok world_new) as H by (right; unfold mtu_unset; cbn; auto). apply (run_mtu E n ops) in H. rewrite R in H. cbn in H.
  destruct H as [H|(_ & _ & [H|H])]; [exact H| |]; rewrite S in H; discriminate H.
Qed.
