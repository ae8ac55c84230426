(** Messages without effect: the proof for [Props_Msg.v]. *)
From Verif Require Import Base Codes Ctx Config Mss Frag Wire WireSpec ConnState Conn ConnSpec HistSpec MsgSpec Frame.
Unset Strict Implicit.

Definition reacted (s : Z) (e : ev) (past : trace) : Prop :=
  match hot past with None => True | Some c => reacts c e = true end.
Definition role_log (w : world) : Prop := has server_call (w_t w) = false -> c_is_server (w_c w) = false.
Definition calm (w : world) : Prop := every reacted (w_t w) /\ hot (w_t w) = None /\ role_log w.
Definition fine (w : world) : Prop := every reacted (w_t w).

Lemma calm_fine w : calm w -> fine w.
Proof. now intros []. Qed.
Lemma role_push e w : role_log w -> role_log (push e w).
Proof. intros H F. apply H. cbn [push w_t] in F. unfold has in *. cbn [existsb] in F. now apply orb_false_iff in F. Qed.
Lemma calm_push e w : (forall r err d, e <> EWEnd WRecv r err d) -> calm w -> calm (push e w).
Proof.
  intros He (A & B & C). split; [|split].
  - cbn [push w_t every]. split; [|exact A]. unfold reacted. now rewrite B.
  - cbn [push w_t hot]. destruct e; auto. destruct o; auto. now destruct (He r err data).
  - now apply role_push.
Qed.
Lemma calm_conn f w : (forall c, c_is_server (f c) = c_is_server c) -> calm w -> calm (with_c f w).
Proof. intros H (A & B & C). split; [|split]; auto. intros F. cbn [with_c w_c]. rewrite H. now apply C. Qed.
Lemma calm_client w : calm w -> calm (with_c (set_is_server false) w).
Proof. intros (A & B & C). split; [|split]; auto. intros F. reflexivity. Qed.

(** During a call of he_conn_server_connect *)
Definition calm_srv (w : world) : Prop := calm w /\ has server_call (w_t w) = true.
Lemma calm_srv_push e w : (forall r err d, e <> EWEnd WRecv r err d) -> calm_srv w -> calm_srv (push e w).
Proof. intros He [A B]. split; [now apply calm_push|]. cbn [push w_t]. unfold has in *. cbn [existsb]. rewrite B. apply orb_true_r. Qed.
Lemma calm_srv_conn f w : calm_srv w -> calm_srv (with_c f w).
Proof. intros [(A & B & C) D]. split; [|exact D]. split; [|split]; auto. intros F. cbn [with_c w_t] in F. congruence. Qed.


Section R.
Variable E : env.
Variable hook : M unit.
Hypothesis Hk : keeps calm fine hook.
Hypothesis Hk2 : keeps calm_srv fine hook.

Ltac nr := intros ? ? ?; discriminate.
Lemma calm_event e w : io_event e = false -> calm w -> calm (push e w).
Proof. intros H. apply calm_push. intros r err d ->. discriminate. Qed.
Lemma calm_read sz : keeps calm fine (io_read sz).
Proof. apply keeps_io_read; auto using calm_fine; intros; try (apply calm_push; [nr|auto]); try (apply calm_conn; auto). Qed.
Lemma calm_write b : keeps calm fine (io_write E hook b).
Proof. apply keeps_io_write; auto using calm_fine; intros; try (apply calm_push; [nr|auto]); try (apply calm_conn; auto). Qed.
Lemma calm_srv_read sz : keeps calm_srv fine (io_read sz).
Proof.
  assert (forall w, calm_srv w -> fine w) by (intros w [H _]; now apply calm_fine).
  apply keeps_io_read; auto; intros; try (apply calm_srv_push; [nr|auto]); try (apply calm_srv_conn; auto).
Qed.
Lemma calm_srv_write b : keeps calm_srv fine (io_write E hook b).
Proof.
  assert (forall w, calm_srv w -> fine w) by (intros w [H _]; now apply calm_fine).
  apply keeps_io_write; auto; intros; try (apply calm_srv_push; [nr|auto]); try (apply calm_srv_conn; auto).
Qed.

Lemma calm_wop o w : calm w -> calm (push (EWOp o) w).
Proof. apply calm_push. nr. Qed.
Lemma calm_wend o r err d w : o <> WRecv -> calm w -> calm (push (EWEnd o r err d) w).
Proof. intros H. apply calm_push. intros r' err' d' [= -> _ _ _]. now apply H. Qed.
Lemma calm_plugin b i d c w : calm w -> calm (push (EPlugin b i d c) w).
Proof. apply calm_push. nr. Qed.
Lemma calm_pluginret r d w : calm w -> calm (push (EPluginRet r d) w).
Proof. apply calm_push. nr. Qed.
Lemma calm_inside p w : calm w -> calm (push (EInside p) w).
Proof. apply calm_push. nr. Qed.
Lemma configure_is_server x i p c : c_is_server (configure_fields x i p c) = c_is_server c.
Proof. unfold configure_fields. destruct (c_vmaj _ =? 0); reflexivity. Qed.

Ltac calms := intros; first [now apply calm_fine|now apply calm_event|now apply calm_wop|now apply calm_wend|now apply calm_plugin
   |apply calm_push; [nr|assumption]|now apply calm_pluginret|now apply calm_inside|now apply calm_client|apply calm_conn; [intros; first [reflexivity|apply configure_is_server]|assumption]
   |apply calm_read|apply calm_write|apply Hk|idtac].

Lemma calm_process m : keeps calm fine (process_message E hook m).
Proof. apply keeps_process; calms. Qed.
Lemma calm_check : keeps calm fine (check_renegotiation E hook).
Proof. apply keeps_check; calms. Qed.
Lemma calm_reneg : keeps calm fine (renegotiate_ssl E hook).
Proof. apply keeps_renegotiate; calms. Qed.
Lemma calm_session s : keeps calm fine (update_session_incoming hook s).
Proof. apply keeps_session_in; calms. Qed.
Lemma calm_change s : keeps calm fine (change_conn_state E hook s).
Proof. apply keeps_change_conn_state; calms. Qed.
Lemma calm_timeout : keeps calm fine (update_timeout E hook).
Proof. apply keeps_update_timeout; calms. Qed.
Lemma calm_gen e : keeps calm fine (generate_event hook e).
Proof. apply keeps_generate_event; calms. Qed.
Lemma calm_negotiate : keeps calm fine (wolf_op E hook WNegotiate).
Proof. apply keeps_wolf_negotiate; calms. Qed.
Lemma calm_ingress ch d c : keeps calm fine (plugin_ingress E ch d c).
Proof. apply keeps_plugin_ingress; calms. Qed.
Lemma calm_server_connect x i p : forall w, calm_srv w ->
  match server_connect E hook x i p w with Done _ w' => calm w' | Stuck _ w' => fine w' end.
Proof.
  intros w H. assert (keeps calm_srv fine (server_connect E hook x i p)) as K.
  { apply keeps_server_connect; intros;
      first [now apply calm_srv_conn|apply calm_srv_read|apply calm_srv_write|exact Hk2
            |apply calm_srv_push; [intros ? ? ? ?; subst; try discriminate; try congruence|assumption]
            |apply calm_fine; now apply H0|idtac]. }
  specialize (K w H). destruct (server_connect E hook x i p w); [apply K|exact K].
Qed.
Lemma calm_body o : (forall b, o <> OOutside b) -> (forall x i p, o <> OServerConnect x i p) ->
  keeps calm fine (api_body E hook o).
Proof.
  intros Ho Hs. destruct o; try (now destruct (Ho buffer)); try (now destruct (Hs x inp outp)); cbn [api_body];
    first [apply keeps_client_connect|apply keeps_disconnect|apply keeps_inside|apply keeps_nudge|apply keeps_keepalive
          |apply keeps_send_server_config|apply keeps_rotate|apply keeps_set_session|apply keeps_start_pmtu|apply keeps_set_username
          |apply keeps_set_password|apply keeps_set_token|apply keeps_set_auth_buffer|apply keeps_set_mtu|apply keeps_set_sni
          |apply keeps_pm_timeout
          |apply keeps_bind; [apply keeps_upd; calms|intros; apply keeps_ret]]; calms.
Qed.

(** ** Receiving *)
Definition pre (w : world) : Prop :=
  every reacted (w_t w) /\ role_log w /\ (hot (w_t w) = None \/ hot (w_t w) = Some HE_SUCCESS).
Lemma calm_pre w : calm w -> pre w.
Proof. intros (A & B & C). repeat split; auto. Qed.
Definition got (d : bytes) (w : world) : Prop :=
  every reacted (w_t w) /\ role_log w /\ bytes_ok d /\ 0 < len d /\
  exists p r err, w_t w = (c_state (w_c w), EWEnd WRecv r err d) :: p /\ 0 < r.

Lemma recv_data w r err d w' : wolf_op E hook WRecv w = Done (r, err, d) w' -> bytes_ok d /\ (0 < r -> 0 < len d).
Proof.
  unfold wolf_op. unfold bind at 1, emit at 1. unfold bind at 1, get at 1. unfold bind at 1. destruct (c_wolf _).
  - unfold bind at 1, log at 1. unfold bind at 1. destruct (run_strat E hook _ _) as [[[r1 err1] d1] w1|]; [|discriminate].
    unfold ret. assert (bytes_ok (firstn (Z.to_nat HE_MAX_WIRE_MTU) (u8s d1))) as B by apply bytes_ok_firstn, bytes_ok_u8s.
    cbn [normal_result]. destruct (firstn (Z.to_nat HE_MAX_WIRE_MTU) (u8s d1)) as [|b l] eqn:F.
    + unfold bind, emit. intros [= <- <- <- <-]. split; [constructor|]. destruct (Z.ltb_spec 0 r1); lia.
    + unfold bind, emit. intros [= <- <- <- <-]. split; [exact B|]. rewrite len_cons. pose proof (len_nonneg l). lia.
  - unfold ret at 1. unfold bind, emit, ret. intros [= <- <- <- <-]. split; [constructor|]. unfold BAD_FUNC_ARG. lia.
Qed.
Lemma recv_ok w : pre w ->
  match wolf_op E hook WRecv w with
  | Done (r, err, d) w' => if r <=? 0 then calm w' else got d w'
  | Stuck _ w' => fine w' end.
Proof.
  intros PP. enough (match wolf_op E hook WRecv w with
  | Done (r, err, d) w' => if r <=? 0 then calm w' else bytes_ok d -> 0 < len d -> got d w'
  | Stuck _ w' => fine w' end) as Q.
  { pose proof (@recv_data w) as RD. destruct (wolf_op E hook WRecv w) as [[[r err] d] w'|]; [|exact Q].
    destruct (RD r err d w' eq_refl). destruct (Z.leb_spec r 0); auto. }
  destruct PP as (A & B & C). unfold wolf_op. unfold bind at 1, emit at 1.
  assert (calm (push (EWOp WRecv) w)) as C1.
  { split; [|split; [reflexivity|now apply role_push]]. cbn [push w_t every]. split; [|exact A].
    unfold reacted. destruct C as [-> | ->]; [exact I|reflexivity]. }
  fold (push (EWOp WRecv) w). unfold bind at 1, get at 1.
  match goal with |- context [bind ?m ?k (push _ w)] => assert (keeps calm fine m) as K end.
  { destruct (c_wolf _); [|apply keeps_ret]. apply keeps_bind; [apply keeps_log|]. intros t.
    apply keeps_bind; [apply keeps_strat; calms|]. intros [[r err] d]. apply keeps_ret. }
  specialize (K _ C1). unfold bind at 1.
  match goal with |- match match ?m with _ => _ end with _ => _ end => destruct m as [[[r err] d] w'|u w'] end; [|exact K].
  unfold bind, emit, ret. destruct K as (K1 & K2 & K3). destruct (Z.leb_spec r 0).
  - split; [|split].
    + cbn [w_t every]. split; [|exact K1]. unfold reacted. now rewrite K2.
    + cbn [w_t hot]. destruct (Z.ltb_spec 0 r); [lia|reflexivity].
    + now apply (@role_push (EWEnd WRecv r err d)).
  - intros Bd Ld. split; [|split; [|split; [|split]]]; [| |exact Bd|exact Ld|].
    + cbn [w_t every]. split; [|exact K1]. unfold reacted. now rewrite K2.
    + now apply (@role_push (EWEnd WRecv r err d)).
    + exists (w_t w'), r, err. cbn [w_t w_c]. auto.
Qed.
Lemma fetch_ok : forall fuel w, pre w ->
  match fetch_message E hook fuel w with
  | Done (_, None) w' => calm w'
  | Done (rc, Some d) w' => rc = HE_SUCCESS /\ got d w'
  | Stuck _ w' => fine w' end.
Proof.
  induction fuel as [|fuel IH]; intros w P; cbn [fetch_message]; [apply P|]. unfold bind at 1.
  pose proof (recv_ok P) as R. destruct (wolf_op E hook WRecv w) as [[[r err] d] w'|u w']; [|exact R].
  destruct (r <=? 0); [|cbn; auto]. destruct (err =? SSL_ERROR_NONE); [exact R|].
  destruct (err =? APP_DATA_READY); [apply IH; now apply calm_pre|]. destruct (_ || _); [exact R|].
  destruct (r =? 0); [exact R|]. cbn. apply calm_conn; auto.
Qed.

(** The heart: the handlers on a message without effect. *)
Lemma field16_ok m i : bytes_ok m -> 0 <= i -> i + 2 <= len m ->
  exists raw, ldh16 (e_le E) m i = Val raw /\ ntohs (e_le E) raw = field16 m (Z.to_nat i) /\
    (raw = field16 m (Z.to_nat i) \/ raw = field16le m (Z.to_nat i)).
Proof.
  intros B H1 H2. rewrite ldh16_ok by auto. eexists. split; [reflexivity|].
  assert (byte_ok (nth (Z.to_nat i) m 0)) by now apply bytes_ok_nth.
  assert (byte_ok (nth (Z.to_nat i + 1) m 0)) by now apply bytes_ok_nth.
  rewrite ntohs_host16 by auto. unfold field16, field16le. rewrite Nat.add_1_r in *. split; [lia|].
  unfold host16. destruct (e_le E); lia.
Qed.
Definition same (w w' : world) : Prop := w_t w' = w_t w /\ c_is_server (w_c w') = c_is_server (w_c w) /\ c_state (w_c w') = c_state (w_c w) /\ w' = w.
Lemma process_no_effect d w code : bytes_ok d -> 0 < len d ->
  forall client, (client = true -> c_is_server (w_c w) = false) ->
  no_effect client (c_state (w_c w)) d = Some code ->
  exists w', process_message E hook d w = Done code w' /\ same w w'.
Proof.
  intros B L client Hc. unfold process_message. destruct (Z.ltb_spec (len d) sizeof_msg_hdr) as [F|_]; [unfold sizeof_msg_hdr in F; lia|].
  rewrite ld8_ok by lia. unfold bind at 1, lift at 1, ret at 1. unfold bind at 1, get at 1.
  change (nth (Z.to_nat 0) d 0) with (msg_type d).
  assert (forall c w, exists w', (ret c w : outcome Z) = Done c w' /\ same w w') as Rt.
  { intros c v. exists v. split; [reflexivity|]. repeat split. }
  pose proof (@field16_ok d 1 B) as F1. pose proof (@field16_ok d 3 B) as F3. pose proof (@field16_ok d 5 B) as F5.
  change (Z.to_nat 1) with 1%nat in *. change (Z.to_nat 3) with 3%nat in *. change (Z.to_nat 5) with 5%nat in *.
  unfold no_effect.
  destruct (Z.eqb_spec (msg_type d) HE_MSGID_GOODBYE) as [->|N1]; [intros [= <-]; cbn; apply Rt|].
  destruct (Z.eqb_spec (msg_type d) HE_MSGID_PING) as [->|N2].
  { cbn [Z.eqb Pos.eqb HE_MSGID_NOOP HE_MSGID_PING HE_MSGID_PONG]. unfold handle_ping. unfold bind at 1, get at 1. change sizeof_ping with 5. destruct (negb _); [intros [= <-]; apply Rt|].
    destruct (_ <? 5); [intros [= <-]; apply Rt|discriminate]. }
  destruct (Z.eqb_spec (msg_type d) HE_MSGID_PONG) as [->|N3].
  { unfold handle_pong. change sizeof_pong with 5. destruct (_ <? 5); [intros [= <-]; apply Rt|discriminate]. }
  destruct (Z.eqb_spec (msg_type d) HE_MSGID_DATA) as [->|N4].
  { cbn [Z.eqb Pos.eqb HE_MSGID_NOOP HE_MSGID_PING HE_MSGID_PONG HE_MSGID_AUTH HE_MSGID_DATA].
    unfold handle_data. unfold bind at 1, get at 1. destruct (negb _); [intros [= <-]; apply Rt|].
    change sizeof_data with 3. destruct (Z.ltb_spec (len d) 3); [intros [= <-]; apply Rt|].
    destruct F1 as (raw & F & N & O); [lia|lia|]. rewrite F. unfold bind at 1, lift at 1, ret at 1.
    destruct (Z.ltb_spec (len d - 3) (field16 d 1)); [|discriminate].
    destruct (Z.ltb_spec (len d - 3) (field16le d 1)); [|discriminate]. intros [= <-].
    match goal with |- context [?a <? ?b] => destruct (Z.ltb_spec a b) as [X|X] end; [apply Rt|].
    exfalso. destruct (_ && _); destruct O; lia. }
  destruct (Z.eqb_spec (msg_type d) HE_MSGID_DATA_WITH_FRAG) as [->|N5].
  { cbn [Z.eqb Pos.eqb HE_MSGID_NOOP HE_MSGID_PING HE_MSGID_PONG HE_MSGID_AUTH HE_MSGID_DATA HE_MSGID_CONFIG_IPV4
      HE_MSGID_AUTH_RESPONSE HE_MSGID_AUTH_RESPONSE_WITH_CONFIG HE_MSGID_GOODBYE HE_MSGID_EXTENSION HE_MSGID_DEPRECATED_13
      HE_MSGID_SERVER_CONFIG HE_MSGID_DATA_WITH_FRAG].
    unfold handle_frag. unfold bind at 1, get at 1. destruct (negb _); [intros [= <-]; apply Rt|].
    change sizeof_data_frag with 7. destruct (Z.ltb_spec (len d) 7); [intros [= <-]; apply Rt|].
    destruct F1 as (raw & F & N & _); [lia|lia|]. rewrite F. unfold bind at 1, lift at 1, ret at 1. rewrite N.
    destruct (Z.ltb_spec (len d - 7) (field16 d 1)); [intros [= <-]; apply Rt|].
    destruct F5 as (raw5 & F' & N5 & _); [lia|lia|]. rewrite F'. unfold bind at 1, lift at 1, ret at 1. rewrite N5.
    change HE_MAX_WIRE_MTU with 1500.
    assert (u16 (Z.land (field16 d 5) HE_FRAG_OFF_MASK * 8) = (field16 d 5 mod 8192) * 8) as ->.
    { assert (forall v, Z.land v HE_FRAG_OFF_MASK = v mod 8192) as M by (intros v; apply (Z.land_ones v 13); lia).
      rewrite M. unfold u16. pose proof (Z.mod_pos_bound (field16 d 5) 8192). apply Z.mod_small. lia. }
    destruct (_ <? _); [intros [= <-]; apply Rt|discriminate]. }
  destruct (Z.eqb_spec (msg_type d) HE_MSGID_DEPRECATED_13) as [->|N6].
  { cbn [Z.eqb Pos.eqb HE_MSGID_NOOP HE_MSGID_PING HE_MSGID_PONG HE_MSGID_AUTH HE_MSGID_DATA HE_MSGID_CONFIG_IPV4
      HE_MSGID_AUTH_RESPONSE HE_MSGID_AUTH_RESPONSE_WITH_CONFIG HE_MSGID_GOODBYE HE_MSGID_EXTENSION HE_MSGID_DEPRECATED_13].
    unfold handle_deprecated_13. unfold bind at 1, get at 1. destruct (negb _); [intros [= <-]; apply Rt|].
    change sizeof_deprecated_13 with 5. destruct (Z.ltb_spec (len d) 5); [intros [= <-]; apply Rt|].
    destruct F1 as (raw & F & N & _); [lia|lia|]. rewrite F. unfold bind at 1, lift at 1, ret at 1. rewrite N.
    destruct (_ <? _); [intros [= <-]; apply Rt|discriminate]. }
  destruct (Z.eqb_spec (msg_type d) HE_MSGID_AUTH) as [->|N7].
  { cbn [Z.eqb Pos.eqb HE_MSGID_NOOP HE_MSGID_PING HE_MSGID_PONG HE_MSGID_AUTH].
    destruct client; [|discriminate]. rewrite (Hc eq_refl). intros [= <-]. apply Rt. }
  destruct (Z.eqb_spec (msg_type d) HE_MSGID_AUTH_RESPONSE) as [->|N8].
  { cbn [Z.eqb Pos.eqb HE_MSGID_NOOP HE_MSGID_PING HE_MSGID_PONG HE_MSGID_AUTH HE_MSGID_DATA HE_MSGID_CONFIG_IPV4
      HE_MSGID_AUTH_RESPONSE].
    destruct client; [|discriminate]. rewrite (Hc eq_refl). intros [= <-]. apply Rt. }
  destruct (Z.eqb_spec (msg_type d) HE_MSGID_CONFIG_IPV4) as [->|N9].
  { cbn [Z.eqb Pos.eqb HE_MSGID_NOOP HE_MSGID_PING HE_MSGID_PONG HE_MSGID_AUTH HE_MSGID_DATA HE_MSGID_CONFIG_IPV4].
    destruct client; [|discriminate]. rewrite (Hc eq_refl). cbn [negb]. unfold handle_config_ipv4. unfold bind at 1, get at 1.
    destruct (_ =? HE_STATE_ONLINE); [intros [= <-]; apply Rt|]. rewrite (Hc eq_refl). cbn [orb].
    destruct (negb _); [intros [= <-]; apply Rt|]. change sizeof_config_ipv4 with 105.
    destruct (_ <? _); [intros [= <-]; apply Rt|discriminate]. }
  destruct (Z.eqb_spec (msg_type d) HE_MSGID_SERVER_CONFIG) as [->|N10].
  { cbn [Z.eqb Pos.eqb HE_MSGID_NOOP HE_MSGID_PING HE_MSGID_PONG HE_MSGID_AUTH HE_MSGID_DATA HE_MSGID_CONFIG_IPV4
      HE_MSGID_AUTH_RESPONSE HE_MSGID_AUTH_RESPONSE_WITH_CONFIG HE_MSGID_GOODBYE HE_MSGID_EXTENSION HE_MSGID_DEPRECATED_13
      HE_MSGID_SERVER_CONFIG].
    destruct client; [|discriminate]. rewrite (Hc eq_refl). cbn [negb]. unfold handle_server_config. unfold bind at 1, get at 1.
    rewrite (Hc eq_refl). change (valid_state_for_server_config (c_state (w_c w))) with (takes_server_config (c_state (w_c w))).
    destruct (negb _); [intros [= <-]; apply Rt|]. change sizeof_server_config with 3.
    destruct (Z.ltb_spec (len d) 3); [intros [= <-]; apply Rt|].
    destruct F1 as (raw & F & N & _); [lia|lia|]. rewrite F. unfold bind at 1, lift at 1, ret at 1. rewrite N.
    destruct (_ <? _); [intros [= <-]; apply Rt|discriminate]. }
  intros [= <-]. destruct (_ =? HE_MSGID_NOOP); [apply Rt|].
  destruct (_ =? HE_MSGID_AUTH_RESPONSE_WITH_CONFIG); [apply Rt|]. destruct (_ =? HE_MSGID_EXTENSION); [apply Rt|]. apply Rt.
Qed.

(** [rc] was returned and the log may still wait for that. *)
Definition ended (rc : Z) (w : world) : Prop :=
  calm w \/ rc <> HE_SUCCESS /\ every reacted (w_t w) /\ role_log w /\ hot (w_t w) = Some rc.
Lemma got_hot d w : got d w -> hot (w_t w) = no_effect (negb (has server_call (w_t w))) (c_state (w_c w)) d.
Proof.
  intros (_ & _ & _ & _ & p & r & err & -> & H). cbn [hot]. destruct (Z.ltb_spec 0 r); [|lia]. reflexivity.
Qed.
Lemma same_role w w' : same w w' -> role_log w -> role_log w'.
Proof. intros (A & B & C) H F. rewrite B. apply H. now rewrite <- A. Qed.
Lemma loop_ok : forall fuel w, pre w ->
  match message_loop E hook fuel w with Done rc w' => ended rc w' | Stuck _ w' => fine w' end.
Proof.
  induction fuel as [|fuel IH]; intros w P; cbn [message_loop]; [apply P|]. unfold bind at 1.
  pose proof (fetch_ok (e_fuel E) P) as F. destruct (fetch_message E hook (e_fuel E) w) as [[rc [d|]] w1|]; [| |exact F].
  - destruct F as [-> G]. change (negb (HE_SUCCESS =? HE_SUCCESS)) with false. cbv iota. unfold bind at 1.
    pose proof (got_hot G) as H. destruct G as (A & R & Bd & Ld & p & r & err & T & Hr).
    destruct (no_effect _ _ _) as [code|] eqn:N.
    + destruct (@process_no_effect d w1 code Bd Ld (negb (has server_call (w_t w1)))) as (w2 & -> & S).
      { intros X. apply R. now apply negb_true_iff in X. }
      { exact N. }
      assert (every reacted (w_t w2)) as A2 by (destruct S as [-> _]; exact A).
      pose proof (same_role S R) as R2. assert (hot (w_t w2) = Some code) as H2 by (destruct S as [-> _]; exact H).
      destruct (Z.eqb_spec code HE_SUCCESS) as [->|Nc].
      * apply IH. split; [exact A2|]. split; [exact R2|]. now right.
      * right. auto.
    + assert (calm w1) as C by (split; [exact A|split; [exact H|exact R]]). pose proof (@calm_process d w1 C) as K.
      destruct (process_message E hook d w1) as [rc w2|]; [|exact K]. destruct (negb (rc =? _)); [unfold ret; now left|]. apply IH. now apply calm_pre.
  - destruct (negb _); unfold ret; left; exact F.
Qed.
Lemma messages_ok w : calm w ->
  match handle_messages E hook w with Done rc w' => ended rc w' | Stuck _ w' => fine w' end.
Proof.
  intros C. unfold handle_messages. unfold bind at 1. pose proof (loop_ok (e_fuel E) (calm_pre C)) as L.
  destruct (message_loop E hook (e_fuel E) w) as [rc w1|]; [|exact L]. destruct (Z.eqb_spec rc HE_SUCCESS) as [->|N]; [|exact L].
  destruct L as [L|[L _]]; [|now destruct L]. cbn [negb].
  match goal with |- match ?m w1 with _ => _ end => assert (keeps calm fine m) as K end.
  { apply keeps_bind; [apply keeps_get|]. intros due. apply keeps_bind.
    - destruct due; [apply calm_reneg|apply keeps_ret].
    - intros rc. destruct (negb _); [apply keeps_ret|apply calm_check]. }
  specialize (K w1 L). match goal with |- match ?m with _ => _ end => destruct m end; [unfold ret; now left|exact K].
Qed.
Lemma verify_ok w : calm w ->
  match verify_connection E hook w with Done rc w' => ended rc w' | Stuck _ w' => fine w' end.
Proof.
  intros C. unfold verify_connection. unfold bind at 1, get at 1. unfold bind at 1.
  match goal with |- match match ?m w with _ => _ end with _ => _ end => assert (keeps calm fine m) as K end.
  { destruct (negb _); [|apply keeps_ret]. apply keeps_bind; [apply keeps_upd; calms|]. intros _. apply calm_gen. }
  specialize (K w C). match goal with |- match match ?m with _ => _ end with _ => _ end => destruct m as [[] w1|] end; [|exact K].
  unfold bind at 1, get at 1. destruct (_ =? HE_STATE_CONNECTING); [|now apply messages_ok].
  unfold bind at 1. pose proof (calm_negotiate K) as K2. destruct (wolf_op E hook WNegotiate w1) as [[[r err] d] w2|]; [|exact K2].
  destruct (negb (r =? SSL_SUCCESS)).
  - assert (forall (m : M Z), keeps calm fine m -> match m w2 with Done rc w' => ended rc w' | Stuck _ w' => fine w' end) as Q.
    { intros m Km. specialize (Km w2 K2). destruct (m w2); [unfold ret; now left|exact Km]. }
    apply Q. repeat (case_if; try apply keeps_ret).
    + apply keeps_bind; [apply keeps_upd; calms|intros _; apply keeps_ret].
    + apply keeps_bind; [apply keeps_get|]. intros ct. apply keeps_bind; [apply keeps_when, calm_timeout|intros _; apply keeps_ret].
  - unfold bind at 1. pose proof (@calm_change HE_STATE_LINK_UP w2 K2) as K3.
    destruct (change_conn_state E hook HE_STATE_LINK_UP w2) as [[] w3|]; [|exact K3]. now apply messages_ok.
Qed.
Lemma ended_rx f rc w : (forall c, c_is_server (f c) = c_is_server c) -> ended rc w -> ended rc (World (f (w_c w)) (w_t w)).
Proof.
  intros H [C|(A & B & R & D)]; [left; now apply (calm_conn H)|]. right. split; [exact A|]. split; [exact B|]. split; [|exact D].
  intros X. cbn [w_c]. rewrite H. now apply R.
Qed.
Lemma outside_ok b w : calm w ->
  match outside_data_received E hook b w with Done rc w' => ended rc w' | Stuck _ w' => fine w' end.
Proof.
  intros C. unfold outside_data_received. unfold bind at 1, get at 1. destruct (_ || _); [unfold ret; now left|]. unfold bind at 1.
  pose proof (@calm_ingress (c_out_chain (w_c w)) b (len b) w C) as K.
  destruct (plugin_ingress E _ b (len b) w) as [[res data] w1|]; [|exact K].
  destruct (_ =? _); [unfold ret; now left|]. destruct (negb _); [unfold ret; now left|]. destruct (_ <? _); [unfold ret; now left|].
  unfold bind at 1, get at 1. destruct (_ =? HE_CONNECTION_TYPE_DATAGRAM).
  - unfold outside_packet_received. destruct (_ <? _); [unfold ret; now left|].
    do 2 (unfold bind at 1; match goal with |- context [lift ?m w1] => destruct m; cbn [lift]; [unfold ret at 1|now apply calm_fine] end).
    destruct (_ || _); [unfold ret; now left|].
    do 2 (unfold bind at 1; match goal with |- context [lift ?m w1] => destruct m; cbn [lift]; [unfold ret at 1|now apply calm_fine] end).
    unfold bind at 1, get at 1. destruct (_ || _); [unfold ret; now left|].
    unfold bind at 1; match goal with |- context [lift ?m w1] => destruct m; cbn [lift]; [unfold ret at 1|now apply calm_fine] end.
    destruct (_ =? _); [unfold ret; now left|].
    unfold bind at 1; match goal with |- context [lift ?m w1] => destruct m; cbn [lift]; [unfold ret at 1|now apply calm_fine] end.
    unfold bind at 1, upd at 1. unfold bind at 1.
    match goal with |- context [verify_connection E hook ?v] => assert (calm v) as C2 by (apply (calm_conn (w := w1)); auto);
      pose proof (verify_ok C2) as V; destruct (verify_connection E hook v) as [rc w2|]; [|exact V] end.
    unfold bind at 1, upd at 1.
    pose proof (@ended_rx (fun c => set_rx (set_rx_live false (c_rx c)) c) rc w2 (fun _ => eq_refl) V) as V2.
    destruct (Z.eqb_spec rc HE_SUCCESS) as [->|N]; [|exact V2]. destruct V2 as [V2|[V2 _]]; [|now destruct V2]. cbn [negb].
    pose proof (@calm_session a3 _ V2) as S. destruct (update_session_incoming hook a3 _); [unfold ret; now left|exact S].
  - destruct (_ =? HE_CONNECTION_TYPE_STREAM); [|unfold ret; now left]. unfold outside_stream_received. unfold bind at 1, get at 1.
    destruct (negb _); [left; now apply (calm_conn (w := w1))|].
    unfold bind at 1, upd at 1. unfold bind at 1.
    match goal with |- context [verify_connection E hook ?v] => assert (calm v) as C2 by (apply (calm_conn (w := w1)); auto);
      pose proof (verify_ok C2) as V; destruct (verify_connection E hook v) as [rc w2|]; [|exact V] end.
    unfold bind at 1, upd at 1.
    exact (@ended_rx (fun c => set_rx (set_rx_live false (c_rx c)) c) rc w2 (fun _ => eq_refl) V).
Qed.

(** A call, by the host or nested. *)
Ltac plain B C :=
  match type of B with api_body E hook ?o ?v = _ =>
    let K := fresh in
    assert (keeps calm fine (api_body E hook o)) as K by (apply calm_body; discriminate);
    specialize (K v C); now rewrite B in K end.
Lemma call_ok o w (call : ev) (back : Z -> ev) :
  (forall r err d, call <> EWEnd WRecv r err d) -> (is_server_op o = true -> server_call call = true) ->
  (forall rc r err d, back rc <> EWEnd WRecv r err d) ->
  (forall b rc, o = OOutside b -> rc <> HE_SUCCESS -> reacts rc (back rc) = true) ->
  calm w ->
  match (emit call ;;; let! rc := api_body E hook o in emit (back rc) ;;; ret rc) w with
  | Done _ w' => calm w' | Stuck _ w' => fine w' end.
Proof.
  intros H1 H2 H3 H4 C. unfold bind at 1, emit at 1. fold (push call w).
  assert (calm (push call w)) as C1 by now apply calm_push. unfold bind at 1.
  destruct (api_body E hook o (push call w)) as [rc w1|u w1] eqn:B.
  - unfold bind, emit, ret. fold (push (back rc) w1).
    assert (calm w1 \/ exists b, o = OOutside b /\ ended rc w1) as [K|(b & -> & K)].
    { destruct o; try (left; plain B C1; fail).
      - left. assert (calm_srv (push call w)) as C2.
        { split; [exact C1|]. unfold has. cbn [push w_t existsb snd]. now rewrite (H2 eq_refl). }
        pose proof (@calm_server_connect x inp outp _ C2) as K. cbn [api_body] in B. now rewrite B in K.
      - right. exists buffer. split; [reflexivity|]. pose proof (outside_ok (u8s buffer) C1) as K. cbn [api_body] in B. now rewrite B in K. }
    + apply calm_push; [apply H3|exact K].
    + destruct K as [K|(Hn & A & R & D)]; [apply calm_push; [apply H3|exact K]|]. split; [|split].
      * cbn [push w_t every]. split; [|exact A]. unfold reacted. rewrite D. now apply (H4 b).
      * cbn [push w_t hot]. specialize (H3 rc). destruct (back rc); auto. destruct o; auto. now destruct (H3 r err data).
      * now apply role_push.
  - destruct o; try (plain B C1; fail).
    + assert (calm_srv (push call w)) as C2.
      { split; [exact C1|]. unfold has. cbn [push w_t existsb snd]. now rewrite (H2 eq_refl). }
      pose proof (@calm_server_connect x inp outp _ C2) as K. cbn [api_body] in B. now rewrite B in K.
    + pose proof (outside_ok (u8s buffer) C1) as K. cbn [api_body] in B. now rewrite B in K.
Qed.
Lemma nested_ok o : keeps calm fine (nested_api E hook o).
Proof.
  intros w C. apply call_ok; auto; try (intros; discriminate).
  intros b rc -> N. unfold reacts. destruct (Z.eqb_spec rc HE_SUCCESS); [easy|]. apply Z.eqb_refl.
Qed.
Lemma api_ok o : keeps calm fine (api E hook o).
Proof.
  intros w C. apply call_ok; auto; try (intros; discriminate).
  intros b rc -> N. unfold reacts. destruct (Z.eqb_spec rc HE_SUCCESS); [easy|]. apply Z.eqb_refl.
Qed.
Lemma run_host_ok h : keeps calm fine (run_host E hook h).
Proof.
  induction h as [|o k IH]; cbn [run_host]; [apply keeps_ret|]. apply keeps_bind; [apply nested_ok|exact IH].
Qed.
End R.

Definition srv_logged (w : world) : Prop := has server_call (w_t w) = true.
Lemma srv_logged_hook E n : keeps srv_logged srv_logged (hookn E n).
Proof.
  apply keeps_hookn; [|auto]. intros e w _ _ H. unfold srv_logged, has, push in *. cbn [w_t existsb]. rewrite H. apply orb_true_r.
Qed.
Lemma hook_calm E n : keeps calm fine (hookn E n) /\ keeps calm_srv fine (hookn E n).
Proof.
  assert (keeps calm fine (hookn E n)) as H.
  - induction n as [|n IH]; [apply keeps_ret|]. cbn [hookn]. apply keeps_bind; [apply keeps_log|]. intros t.
    apply run_host_ok; [exact IH|]. intros w [C S]. specialize (IH w C). pose proof (@srv_logged_hook E n w S) as G.
    destruct (hookn E n w); [split; assumption|exact IH].
  - split; [exact H|]. intros w [C S]. specialize (H w C). pose proof (@srv_logged_hook E n w S) as G.
    destruct (hookn E n w); [split; assumption|exact H].
Qed.
Lemma run_calm E n : forall ops w, calm w -> fine (world_of (run E n ops w)).
Proof.
  destruct (hook_calm E n) as [H1 H2].
  induction ops as [|o ops IH]; intros w C; cbn [run]; [now apply calm_fine|].
  pose proof (@api_ok E (hookn E n) H1 H2 o w C) as K. destruct (api E (hookn E n) o w); [now apply IH|exact K].
Qed.
Lemma calm_new : calm world_new.
Proof. split; [exact I|]. split; [reflexivity|]. intros _. reflexivity. Qed.
