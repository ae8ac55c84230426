(** C42: what wolfSSL is told before the handshake. *)
From Verif Require Import Base Codes Ctx Config Mss Frag Wire WireProofs ConnState Conn ConnSpec HistSpec MsgSpec CallSpec.
From Verif Require Import WireSpec ConnSteps ConnWp ConnWpApi Frame FrameLoop Scenario Reaction Seq SeqApi TlsSpec Props_Data Props_Timer.
Unset Strict Implicit.

Section L.
Variable E : env.
Notation hk := (@ret unit tt).
Notation T := (fun _ : world => True).
Definition adds (l : list tls_item) (w w' : world) : Prop :=
  during tls_items w w' l /\ c_is_server (w_c w') = c_is_server (w_c w) /\ c_mtu (w_c w') = c_mtu (w_c w) /\
  c_sni (w_c w') = c_sni (w_c w) /\ c_pqc (w_c w') = c_pqc (w_c w).
Lemma adds_trans a b w1 w2 w3 : adds a w1 w2 -> adds b w2 w3 -> adds (a ++ b) w1 w3.
Proof. intros (A & A1 & A2 & A3 & A4) (B & B1 & B2 & B3 & B4). split; [exact (during_trans A B)|]. repeat split; congruence. Qed.
Lemma adds_refl w : adds [] w w.
Proof. split; [now apply during_nil|auto]. Qed.

(** The settings stop at the first refusal. *)
Definition stops (ws : list query) (l : list tls_item) (rc : Z) : Prop :=
  (rc = HE_SUCCESS /\ l = accepted ws) \/
  (rc <> HE_SUCCESS /\ exists a q r b, ws = a ++ q :: b /\ r <> SSL_SUCCESS /\ l = accepted a ++ [Setting q r] /\ rc = setting_error q r).
Lemma stops_app a b l1 l2 rc : stops a l1 HE_SUCCESS -> stops b l2 rc -> stops (a ++ b) (l1 ++ l2) rc.
Proof.
  intros [[_ ->]|[N _]]; [|now destruct N]. intros [[-> ->]|(N & c & q & r & d & -> & R & -> & ->)]; [left|right].
  - unfold accepted. now rewrite map_app.
  - split; [exact N|]. exists (a ++ c), q, r, d. unfold accepted. rewrite map_app, !app_assoc. auto.
Qed.
Lemma stops_more a b l rc : rc <> HE_SUCCESS -> stops a l rc -> stops (a ++ b) l rc.
Proof.
  intros N [[Q _]|(_ & c & q & r & d & -> & R & -> & ->)]; [now destruct N|]. right. split; [exact N|].
  exists c, q, r, (d ++ b). rewrite <- app_assoc. auto.
Qed.
Definition setting (q : query) : Prop := match q with QSetMtu _ | QChFrag | QUseSni _ | QCheckDn _ | QKeyShare => True | _ => False end.
Lemma setting_adds q : setting q -> forall r w, adds [Setting q r] w (push (EAsk q r) w).
Proof. intros S r w. split; [|auto]. unfold during. cbn [push w_t collect]. f_equal. destruct q; try destruct S; reflexivity. Qed.
Lemma setting_error_bad q r : setting_error q r <> HE_SUCCESS.
Proof. destruct q; cbn [setting_error]; try discriminate. repeat match goal with |- context [if ?b then _ else _] => destruct b end; discriminate. Qed.
Lemma one_setting q r : stops [q] [Setting q r] (if r =? SSL_SUCCESS then HE_SUCCESS else setting_error q r).
Proof.
  destruct (Z.eqb_spec r SSL_SUCCESS) as [->|N]; [now left|]. right. split; [apply setting_error_bad|]. exists [], q, r, []. auto.
Qed.
Definition wanted1 (x : ctx) (c : conn) : list query :=
  if x_type x =? HE_CONNECTION_TYPE_DATAGRAM
  then QSetMtu (c_mtu c - 114 + HE_WOLF_MAX_HEADER_SIZE) :: (if c_is_server c then [QChFrag] else [])
  else if c_is_server c then [] else match cstr (c_sni c) with [] => [] | name => [QUseSni name] end.
Definition wanted2 (x : ctx) (c : conn) : list query :=
  match cstr (x_dn x) with [] => [] | name => [QCheckDn name] end ++ (if c_is_server c then [] else if c_pqc c then [QKeyShare] else []).
Lemma ask_eq q w : ask E q w = Done (e_ask E (w_t w) q) (push (EAsk q (e_ask E (w_t w) q)) w).
Proof. reflexivity. Qed.
Lemma settings1 x w rc w' : wolf_settings E x w = Done rc w' -> exists l, adds l w w' /\ stops (wanted1 x (w_c w)) l rc.
Proof.
  unfold wolf_settings, wanted1. unfold bind at 1, get at 1. destruct (x_type x =? HE_CONNECTION_TYPE_DATAGRAM) eqn:Ty.
  - change (c_mtu (w_c w) - HE_PACKET_OVERHEAD) with (c_mtu (w_c w) - 114). set (q := QSetMtu _). unfold bind at 1. rewrite ask_eq. set (r := e_ask E (w_t w) q). set (w1 := push (EAsk q r) w).
    assert (adds [Setting q r] w w1) as A1 by (now apply setting_adds). pose proof (one_setting q r) as S1.
    destruct (r =? SSL_SUCCESS) eqn:R; cbn [negb].
    + destruct (c_is_server (w_c w)) eqn:Srv.
      * unfold bind at 1. rewrite ask_eq. set (r2 := e_ask E (w_t w1) QChFrag). pose proof (one_setting QChFrag r2) as S2.
        pose proof (@setting_adds QChFrag I r2 w1) as A2.
        intros H. exists ([Setting q r] ++ [Setting QChFrag r2]). change [q; QChFrag] with ([q] ++ [QChFrag]).
        destruct (r2 =? SSL_SUCCESS); cbn [negb] in H; apply Done_inv in H as [<- <-]; (split; [exact (adds_trans A1 A2)|exact (stops_app S1 S2)]).
      * intros H. apply Done_inv in H as [<- <-]. exists [Setting q r]. auto.
    + intros H. apply Done_inv in H as [<- <-]. exists [Setting q r]. split; [exact A1|]. change (q :: ?l) with ([q] ++ l). apply stops_more; [discriminate|exact S1].
  - destruct (c_is_server (w_c w)) eqn:Srv; cbn [negb andb].
    + intros H. apply Done_inv in H as [<- <-]. exists []. split; [apply adds_refl|now left].
    + assert (cstr (c_sni (w_c w)) = [] <-> nth 0 (c_sni (w_c w)) 0 = 0) as Em.
      { destruct (c_sni (w_c w)) as [|b s]; cbn [cstr nth]; [tauto|]. destruct (Z.eqb_spec b 0); [tauto|]. split; [discriminate|tauto]. }
      destruct (Z.eqb_spec (nth 0 (c_sni (w_c w)) 0) 0) as [Z0|N0]; cbn [negb].
      * rewrite (proj2 Em Z0). intros H. apply Done_inv in H as [<- <-]. exists []. split; [apply adds_refl|now left].
      * destruct (cstr (c_sni (w_c w))) as [|b0 n0]; [now destruct (N0 (proj1 Em eq_refl))|]. set (n := b0 :: n0).
        unfold bind at 1. rewrite ask_eq. set (r := e_ask E (w_t w) (QUseSni n)). pose proof (@setting_adds (QUseSni n) I r w) as A1. pose proof (one_setting (QUseSni n) r) as S1. cbn [setting_error] in S1.
        intros H. exists [Setting (QUseSni n) r]. destruct (r =? SSL_SUCCESS); cbn [negb] in H; apply Done_inv in H as [<- <-]; auto.
Qed.
Lemma settings2 x w rc w' : wolf_settings2 E x w = Done rc w' -> exists l, adds l w w' /\ stops (wanted2 x (w_c w)) l rc.
Proof.
  unfold wolf_settings2, wanted2, is_dn_set.
  assert (forall w1, adds [] w w1 \/ True) as _ by auto.
  assert (cstr (x_dn x) = [] <-> nth 0 (x_dn x) 0 = 0) as Em.
  { destruct (x_dn x) as [|b s]; cbn [cstr nth]; [tauto|]. destruct (Z.eqb_spec b 0); [tauto|]. split; [discriminate|tauto]. }
  assert (exists dn w1 l, (if negb (nth 0 (x_dn x) 0 =? 0) then ask E (QCheckDn (cstr (x_dn x))) else ret SSL_SUCCESS) w = Done dn w1 /\ adds l w w1 /\ w_c w1 = w_c w /\
    stops (match cstr (x_dn x) with [] => [] | name => [QCheckDn name] end) l (if dn =? SSL_SUCCESS then HE_SUCCESS else HE_ERR_INIT_FAILED)) as (dn & w1 & l & Q & A & Wc & St).
  { destruct (Z.eqb_spec (nth 0 (x_dn x) 0) 0) as [Z0|N0]; cbn [negb].
    - exists SSL_SUCCESS, w, []. rewrite (proj2 Em Z0). split; [reflexivity|]. split; [apply adds_refl|]. split; [reflexivity|]. now left.
    - destruct (cstr (x_dn x)) as [|b0 n0]; [now destruct (N0 (proj1 Em eq_refl))|]. set (n := b0 :: n0).
      rewrite ask_eq. eexists _, _, _. split; [reflexivity|]. split; [now apply setting_adds|]. split; [reflexivity|]. apply (one_setting (QCheckDn n)). }
  unfold bind at 1. rewrite Q. destruct (dn =? SSL_SUCCESS); cbn [negb].
  - unfold bind at 1, get at 1. rewrite Wc. destruct (c_is_server (w_c w)) eqn:Srv; cbn [negb andb].
    + unfold bind at 1, ret at 1. change (negb (SSL_SUCCESS =? SSL_SUCCESS)) with false. cbv iota. intros H. apply Done_inv in H as [<- <-]. rewrite app_nil_r. eauto.
    + destruct (c_pqc (w_c w)).
      * unfold bind at 1. rewrite ask_eq. set (r := e_ask E (w_t w1) QKeyShare). pose proof (@setting_adds QKeyShare I r w1) as A1. pose proof (one_setting QKeyShare r) as S1. cbn [setting_error] in S1.
        intros H. exists (l ++ [Setting QKeyShare r]). destruct (r =? SSL_SUCCESS); cbn [negb] in H; apply Done_inv in H as [<- <-]; (split; [exact (adds_trans A A1)|exact (stops_app St S1)]).
      * unfold bind at 1, ret at 1. change (negb (SSL_SUCCESS =? SSL_SUCCESS)) with false. cbv iota. intros H. apply Done_inv in H as [<- <-]. rewrite app_nil_r. eauto.
  - intros H. apply Done_inv in H as [<- <-]. exists l. split; [exact A|]. apply stops_more; [discriminate|exact St].
Qed.
End L.
Section Q.
Variable E : env.
Notation hk := (@ret unit tt).
Definition is_op (i : tls_item) : Prop := match i with Operation _ => True | Setting _ _ => False end.
Definition quiet {A} (m : M A) : Prop := forall w a w', m w = Done a w' -> exists ops, Forall is_op ops /\ during tls_items w w' ops.
Lemma quiet_ret A (a : A) : quiet (ret a).
Proof. intros w b w' H. apply Done_inv in H as [_ <-]. exists []. split; [constructor|now apply during_nil]. Qed.
Lemma quiet_get A (f : conn -> A) : quiet (get f).
Proof. intros w b w' H. apply Done_inv in H as [_ <-]. exists []. split; [constructor|now apply during_nil]. Qed.
Lemma quiet_upd f : quiet (upd f).
Proof. intros w b w' H. apply Done_inv in H as [_ <-]. exists []. split; [constructor|now apply during_nil]. Qed.
Lemma quiet_log : quiet log.
Proof. intros w b w' H. apply Done_inv in H as [_ <-]. exists []. split; [constructor|now apply during_nil]. Qed.
Lemma quiet_emit e : Forall is_op (tls_items 0 e) -> quiet (emit e).
Proof. intros F w b w' H. apply Done_inv in H as [_ <-]. exists (tls_items 0 e). split; [exact F|reflexivity]. Qed.
Lemma quiet_bind A B (m : M A) (k : A -> M B) : quiet m -> (forall a, quiet (k a)) -> quiet (bind m k).
Proof.
  intros Hm Hk w b w' H. unfold bind in H. destruct (m w) as [a w1|] eqn:R; [|discriminate H].
  destruct (Hm _ _ _ R) as (o1 & F1 & D1). destruct (Hk _ _ _ _ H) as (o2 & F2 & D2). exists (o1 ++ o2). split; [now apply Forall_app|exact (during_trans D1 D2)].
Qed.
Lemma quiet_if A (b : bool) (m n : M A) : quiet m -> quiet n -> quiet (if b then m else n).
Proof. now destruct b. Qed.
Lemma quiet_fault A u : quiet (@stuck A u).
Proof. intros w b w' H. discriminate H. Qed.
Lemma quiet_lift A (r : res A) : quiet (lift r).
Proof. unfold lift. destruct r; [apply quiet_ret|apply quiet_fault]. Qed.
Lemma wolf_items o w r err d w' : wolf_op E hk o w = Done (r, err, d) w' -> during tls_items w w' [Operation o].
Proof.
  intros H. apply wolf_op_seq in H. destruct H as (rx & seg & -> & S). unfold during. cbn [w_t collect tls_items]. rewrite collect_app. cbn [collect tls_items].
  rewrite (collect_io (s := c_state (w_c w)) (f := tls_items) (seg := seg)); auto.
  - now rewrite !app_nil_r.
  - intros []; cbn; auto; discriminate.
Qed.
Lemma quiet_wolf o : quiet (wolf_op E hk o).
Proof. intros w [[r err] d] w' H. exists [Operation o]. split; [repeat constructor|]. exact (wolf_items H). Qed.
Lemma quiet_ask q : ~ setting q -> quiet (ask E q).
Proof. intros N. unfold ask. apply quiet_bind; [apply quiet_log|]. intros t. apply quiet_bind; [|intros; apply quiet_ret]. apply quiet_emit. destruct q; cbn; try constructor; destruct (N I). Qed.
Lemma quiet_when (b : bool) (m : M unit) : quiet m -> quiet (when b m).
Proof. destruct b; [auto|]. intros _. apply quiet_ret. Qed.
Hint Resolve quiet_ret quiet_get quiet_upd quiet_log quiet_wolf quiet_lift quiet_fault : core.
Ltac q1 :=
  match goal with
  | |- quiet (bind _ _) => apply quiet_bind; [|intro]
  | |- quiet (when _ _) => apply quiet_when
  | |- quiet (emit _) => apply quiet_emit; repeat constructor
  | |- quiet (ask _ _) => apply quiet_ask; exact (fun H => H)
  | |- quiet (if ?b then _ else _) => destruct b
  | |- quiet (let '(_, _) := ?x in _) => destruct x
  | |- quiet (match ?x with _ => _ end) => destruct x
  | |- quiet _ => solve [auto]
  end.
Ltac qq := intros; cbv zeta; repeat q1.
Lemma quiet_notify e : Forall is_op (tls_items 0 e) -> quiet (notify hk e).
Proof. intros F. unfold notify. apply quiet_bind; [now apply quiet_emit|auto]. Qed.
Lemma quiet_callback e k : Forall is_op (tls_items 0 e) -> quiet (callback E hk e k).
Proof. intros F. unfold callback. apply quiet_bind; [now apply quiet_emit|]. qq. Qed.
Hint Extern 1 (quiet (notify _ _)) => apply quiet_notify; repeat constructor : core.
Hint Extern 1 (quiet (callback _ _ _ _)) => apply quiet_callback; repeat constructor : core.
Lemma quiet_call_plugin i n d c : quiet (call_plugin E i n d c).
Proof. unfold call_plugin. qq. Qed.
Hint Resolve quiet_call_plugin : core.
Lemma quiet_generate_event v : quiet (generate_event hk v).
Proof. unfold generate_event. qq. Qed.
Hint Resolve quiet_generate_event : core.
Lemma quiet_send_message m : quiet (send_message E hk m).
Proof. unfold send_message. qq. Qed.
Hint Resolve quiet_send_message : core.
Lemma quiet_set_conn_state s : quiet (set_conn_state hk s).
Proof. unfold set_conn_state. qq. Qed.
Hint Resolve quiet_set_conn_state : core.
Lemma quiet_send_auth_userpass  : quiet (send_auth_userpass E hk).
Proof. unfold send_auth_userpass. qq. Qed.
Hint Resolve quiet_send_auth_userpass : core.
Lemma quiet_send_auth_token  : quiet (send_auth_token E hk).
Proof. unfold send_auth_token. qq. Qed.
Hint Resolve quiet_send_auth_token : core.
Lemma quiet_send_auth_buf  : quiet (send_auth_buf E hk).
Proof. unfold send_auth_buf. qq. Qed.
Hint Resolve quiet_send_auth_buf : core.
Lemma quiet_send_auth  : quiet (send_auth E hk).
Proof. unfold send_auth. qq. Qed.
Hint Resolve quiet_send_auth : core.
Lemma quiet_change_conn_state s : quiet (change_conn_state E hk s).
Proof. unfold change_conn_state. qq. Qed.
Hint Resolve quiet_change_conn_state : core.
Lemma quiet_ask_version : quiet (ask_version E).
Proof. unfold ask_version. apply quiet_bind; [apply quiet_get|]. intros []; qq. Qed.
Hint Resolve quiet_ask_version : core.
Lemma quiet_update_timeout  : quiet (update_timeout E hk).
Proof. unfold update_timeout. qq. Qed.
Hint Resolve quiet_update_timeout : core.
Lemma quiet_send_goodbye  : quiet (send_goodbye E hk).
Proof. unfold send_goodbye. qq. Qed.
Hint Resolve quiet_send_goodbye : core.
Lemma quiet_generate_session_id  : quiet (generate_session_id E).
Proof. unfold generate_session_id. qq. Qed.
Hint Resolve quiet_generate_session_id : core.
Lemma quiet_renegotiate_ssl  : quiet (renegotiate_ssl E hk).
Proof. unfold renegotiate_ssl. qq. Qed.
Hint Resolve quiet_renegotiate_ssl : core.
Lemma quiet_upd_pm f : quiet (upd_pm f).
Proof. unfold upd_pm. qq. Qed.
Hint Resolve quiet_upd_pm : core.
Lemma quiet_pm_time ms : quiet (pm_time E hk ms).
Proof. unfold pm_time. qq. Qed.
Hint Resolve quiet_pm_time : core.
Lemma quiet_pm_change_state s : quiet (pm_change_state hk s).
Proof. unfold pm_change_state. qq. Qed.
Hint Resolve quiet_pm_change_state : core.
Lemma quiet_pm_send_probe m : quiet (pm_send_probe E hk m).
Proof. unfold pm_send_probe. qq. Qed.
Hint Resolve quiet_pm_send_probe : core.
Lemma quiet_pm_retry_probe d : quiet (pm_retry_probe E hk d).
Proof. unfold pm_retry_probe. qq. Qed.
Hint Resolve quiet_pm_retry_probe : core.
Lemma quiet_pm_start_base_probing  : quiet (pm_start_base_probing E hk).
Proof. unfold pm_start_base_probing. qq. Qed.
Hint Resolve quiet_pm_start_base_probing : core.
Lemma quiet_pm_base_confirmed  : quiet (pm_base_confirmed E hk).
Proof. unfold pm_base_confirmed. qq. Qed.
Hint Resolve quiet_pm_base_confirmed : core.
Lemma quiet_pm_confirm_base_failed  : quiet (pm_confirm_base_failed E hk).
Proof. unfold pm_confirm_base_failed. qq. Qed.
Hint Resolve quiet_pm_confirm_base_failed : core.
Lemma quiet_pm_search_completed  : quiet (pm_search_completed E hk).
Proof. unfold pm_search_completed. qq. Qed.
Hint Resolve quiet_pm_search_completed : core.
Lemma quiet_pm_blackhole_detected  : quiet (pm_blackhole_detected E hk).
Proof. unfold pm_blackhole_detected. qq. Qed.
Hint Resolve quiet_pm_blackhole_detected : core.
Lemma quiet_pm_probe_ack id : quiet (pm_probe_ack E hk id).
Proof. unfold pm_probe_ack. qq. Qed.
Hint Resolve quiet_pm_probe_ack : core.
Lemma quiet_pm_probe_timeout  : quiet (pm_probe_timeout E hk).
Proof. unfold pm_probe_timeout. qq. Qed.
Hint Resolve quiet_pm_probe_timeout : core.
Lemma quiet_plugin_ingress ch : forall d c, quiet (plugin_ingress E ch d c).
Proof. induction ch; intros; cbn [plugin_ingress]; qq. Qed.
Hint Resolve quiet_plugin_ingress : core.
Lemma quiet_plugin_egress ch : forall d c, quiet (plugin_egress E ch d c).
Proof. induction ch; intros; cbn [plugin_egress]; qq. Qed.
Hint Resolve quiet_plugin_egress : core.
Lemma quiet_frag_loop f : forall p i o l z, quiet (frag_loop E hk f p i o l z).
Proof. induction f; intros; cbn [frag_loop]; qq. Qed.
Hint Resolve quiet_frag_loop : core.
Lemma quiet_frag_and_send p f : quiet (frag_and_send E hk p f).
Proof. unfold frag_and_send. qq. Qed.
Hint Resolve quiet_frag_and_send : core.
Lemma quiet_inside_packet_received p : quiet (inside_packet_received E hk p).
Proof. unfold inside_packet_received. qq. Qed.
Hint Resolve quiet_inside_packet_received : core.
Lemma quiet_handle_ping m : quiet (handle_ping E hk m).
Proof. unfold handle_ping. qq. Qed.
Hint Resolve quiet_handle_ping : core.
Lemma quiet_handle_pong m : quiet (handle_pong E hk m).
Proof. unfold handle_pong. qq. Qed.
Hint Resolve quiet_handle_pong : core.
Lemma quiet_handle_server_config m : quiet (handle_server_config E hk m).
Proof. unfold handle_server_config. qq. Qed.
Hint Resolve quiet_handle_server_config : core.
Lemma quiet_handle_config_ipv4 m : quiet (handle_config_ipv4 E hk m).
Proof. unfold handle_config_ipv4. qq. Qed.
Hint Resolve quiet_handle_config_ipv4 : core.
Lemma quiet_send_auth_denied  : quiet (send_auth_denied E hk).
Proof. unfold send_auth_denied. qq. Qed.
Hint Resolve quiet_send_auth_denied : core.
Lemma quiet_auth_accepted  : quiet (auth_accepted E hk).
Proof. unfold auth_accepted. qq. Qed.
Hint Resolve quiet_auth_accepted : core.
Lemma quiet_auth_verdict b r : quiet (auth_verdict E hk b r).
Proof. unfold auth_verdict. qq. Qed.
Hint Resolve quiet_auth_verdict : core.
Lemma quiet_handle_auth m : quiet (handle_auth E hk m).
Proof. unfold handle_auth. qq. Qed.
Hint Resolve quiet_handle_auth : core.
Lemma quiet_deliver p : quiet (deliver E hk p).
Proof. unfold deliver. qq. Qed.
Hint Resolve quiet_deliver : core.
Lemma quiet_handle_data m : quiet (handle_data E hk m).
Proof. unfold handle_data. qq. Qed.
Hint Resolve quiet_handle_data : core.
Lemma quiet_handle_frag m : quiet (handle_frag E hk m).
Proof. unfold handle_frag. qq. Qed.
Hint Resolve quiet_handle_frag : core.
Lemma quiet_handle_deprecated_13 m : quiet (handle_deprecated_13 E hk m).
Proof. unfold handle_deprecated_13. qq. Qed.
Hint Resolve quiet_handle_deprecated_13 : core.
Lemma quiet_process_message m : quiet (process_message E hk m).
Proof. unfold process_message. qq. Qed.
Hint Resolve quiet_process_message : core.
Lemma quiet_fetch_message f : quiet (fetch_message E hk f).
Proof. induction f; intros; cbn [fetch_message]; qq. Qed.
Hint Resolve quiet_fetch_message : core.
Lemma quiet_message_loop f : quiet (message_loop E hk f).
Proof. induction f; intros; cbn [message_loop]; qq. Qed.
Hint Resolve quiet_message_loop : core.
Lemma quiet_check_renegotiation  : quiet (check_renegotiation E hk).
Proof. unfold check_renegotiation. qq. Qed.
Hint Resolve quiet_check_renegotiation : core.
Lemma quiet_handle_messages  : quiet (handle_messages E hk).
Proof. unfold handle_messages. qq. Qed.
Hint Resolve quiet_handle_messages : core.
Lemma quiet_verify_connection  : quiet (verify_connection E hk).
Proof. unfold verify_connection. qq. Qed.
Hint Resolve quiet_verify_connection : core.
Lemma quiet_update_session_incoming s : quiet (update_session_incoming hk s).
Proof. unfold update_session_incoming. qq. Qed.
Hint Resolve quiet_update_session_incoming : core.
Lemma quiet_disconnect  : quiet (disconnect E hk).
Proof. unfold disconnect. qq. Qed.
Hint Resolve quiet_disconnect : core.
Lemma quiet_nudge  : quiet (nudge E hk).
Proof. unfold nudge. qq. Qed.
Hint Resolve quiet_nudge : core.
Lemma quiet_send_keepalive  : quiet (send_keepalive E hk).
Proof. unfold send_keepalive. qq. Qed.
Hint Resolve quiet_send_keepalive : core.
Lemma quiet_send_server_config b : quiet (send_server_config E hk b).
Proof. unfold send_server_config. qq. Qed.
Hint Resolve quiet_send_server_config : core.
Lemma quiet_rotate_session_id  : quiet (rotate_session_id E).
Proof. unfold rotate_session_id. qq. Qed.
Hint Resolve quiet_rotate_session_id : core.
Lemma quiet_set_session_id s : quiet (set_session_id s).
Proof. unfold set_session_id. qq. Qed.
Hint Resolve quiet_set_session_id : core.
Lemma quiet_start_pmtu_discovery  : quiet (start_pmtu_discovery E hk).
Proof. unfold start_pmtu_discovery. qq. Qed.
Hint Resolve quiet_start_pmtu_discovery : core.
Lemma quiet_set_username_api s : quiet (set_username_api s).
Proof. unfold set_username_api. qq. Qed.
Hint Resolve quiet_set_username_api : core.
Lemma quiet_set_password_api s : quiet (set_password_api s).
Proof. unfold set_password_api. qq. Qed.
Hint Resolve quiet_set_password_api : core.
Lemma quiet_set_auth_token s : quiet (set_auth_token s).
Proof. unfold set_auth_token. qq. Qed.
Hint Resolve quiet_set_auth_token : core.
Lemma quiet_set_auth_buffer s : quiet (set_auth_buffer s).
Proof. unfold set_auth_buffer. qq. Qed.
Hint Resolve quiet_set_auth_buffer : core.
Lemma quiet_set_outside_mtu s : quiet (set_outside_mtu s).
Proof. unfold set_outside_mtu. qq. Qed.
Hint Resolve quiet_set_outside_mtu : core.
Lemma quiet_set_sni_hostname s : quiet (set_sni_hostname s).
Proof. unfold set_sni_hostname. qq. Qed.
Hint Resolve quiet_set_sni_hostname : core.
Lemma quiet_outside_packet_received d : quiet (outside_packet_received E hk d).
Proof. unfold outside_packet_received. qq. Qed.
Hint Resolve quiet_outside_packet_received : core.
Lemma quiet_outside_stream_received d : quiet (outside_stream_received E hk d).
Proof. unfold outside_stream_received. qq. Qed.
Hint Resolve quiet_outside_stream_received : core.
Lemma quiet_outside_data_received d : quiet (outside_data_received E hk d).
Proof. unfold outside_data_received. qq. Qed.
Hint Resolve quiet_outside_data_received : core.
Lemma quiet_body o : is_connect_op o = false -> quiet (api_body E hk o).
Proof. destruct o; cbn [api_body is_connect_op]; try discriminate; intros _; qq. Qed.
End Q.
Section C.
Variable E : env.
Notation hk := (@ret unit tt).
Notation T := (fun _ : world => True).
Lemma configure_items x i p w rc w' : configure E x i p w = Done rc w' ->
  during tls_items w w' [] /\ c_is_server (w_c w') = c_is_server (w_c w) /\ c_mtu (w_c w') = c_mtu (w_c w) /\ c_sni (w_c w') = c_sni (w_c w) /\ c_pqc (w_c w') = x_pqc x.
Proof.
  unfold configure. rewrite upd_first. set (w0 := with_c _ _).
  pose (CX := fun v : world => during tls_items w v [] /\ c_is_server (w_c v) = c_is_server (w_c w) /\ c_mtu (w_c v) = c_mtu (w_c w) /\ c_sni (w_c v) = c_sni (w_c w) /\ c_pqc (w_c v) = x_pqc x).
  assert (CX w0) as H0 by (unfold w0, CX; split; [now apply during_nil|]; cbn [with_c w_c]; unfold configure_fields; cbv zeta; destruct (_ =? 0); repeat split; reflexivity). clearbody w0.
  intros H. change (CX w').
  match type of H with ?m _ = _ => assert (keeps CX T m) as K end.
  { assert (forall r v, CX v -> CX (push (EAsk QAlloc r) v)) as Pp by (intros r v (A & B); split; [|exact B]; unfold during in *; cbn [push w_t collect tls_items]; rewrite A, !app_nil_r; reflexivity).
    apply keeps_bind; [intros v Hv; rewrite ask_eq; now apply Pp|]. intros a1. apply keeps_bind; [intros v Hv; rewrite ask_eq; now apply Pp|]. intros a2. apply keeps_bind; [apply keeps_upd; auto|intros _; apply keeps_ret]. }
  specialize (K w0 H0). rewrite H in K. exact K.
Qed.
Definition outcome (ws : list query) (l : list tls_item) (rc : Z) : Prop :=
  (exists ops, Forall is_op ops /\ l = accepted ws ++ Operation WNegotiate :: ops) \/
  (exists a q r b, ws = a ++ q :: b /\ r <> SSL_SUCCESS /\ l = accepted a ++ [Setting q r] /\ rc = setting_error q r) \/
  (l = [] /\ rc <> HE_SUCCESS).
Lemma internal_items x i p w rc w' : internal_connect E hk x i p w = Done rc w' ->
  exists l, during tls_items w w' l /\ outcome (wanted (c_is_server (w_c w)) x (c_mtu (w_c w)) (c_sni (w_c w))) l rc.
Proof.
  intros C. unfold internal_connect in C. unfold bind at 1 in C. destruct (configure E x i p w) as [rc1 w1|] eqn:Cf; [|discriminate C].
  destruct (configure_items Cf) as (D1 & Es & Em & En & Ep). clear Cf.
  destruct (Z.eqb_spec rc1 HE_SUCCESS) as [->|N]; cbn [negb] in C; [|apply Done_inv in C as [<- <-]; exists []; split; [exact D1|right; right; auto]].
  unfold bind at 1 in C. rewrite ask_eq in C. set (aw := e_ask E (w_t w1) QWolfNew) in C. cbv zeta in C. rewrite upd_first in C.
  match type of C with (if _ then _ else _) (with_c ?f ?u) = _ => set (w2 := with_c f u) in C end.
  assert (during tls_items w1 w2 [] /\ c_is_server (w_c w2) = c_is_server (w_c w1) /\ c_mtu (w_c w2) = c_mtu (w_c w1) /\ c_sni (w_c w2) = c_sni (w_c w1) /\ c_pqc (w_c w2) = c_pqc (w_c w1)) as (D2 & Es2 & Em2 & En2 & Ep2).
  { split; [unfold during; reflexivity|repeat split; reflexivity]. }
  clearbody w2.
  match type of C with (if ?b then _ else _) _ = _ => destruct b end; [apply Done_inv in C as [<- <-]; exists []; split; [exact (during_trans D1 D2)|right; right; split; [reflexivity|discriminate]]|].
  unfold bind at 1 in C. destruct (wolf_settings E x w2) as [rc2 w3|] eqn:S1; [|discriminate C]. destruct (settings1 S1) as (l1 & (D3 & Es3 & Em3 & En3 & Ep3) & St1). clear S1.
  assert (wanted (c_is_server (w_c w)) x (c_mtu (w_c w)) (c_sni (w_c w)) = wanted1 x (w_c w2) ++ wanted2 x (w_c w3)) as W.
  { unfold wanted, wanted1, wanted2. rewrite Es3, Es2, Es, Em2, Em, En2, En, Ep3, Ep2, Ep. reflexivity. }
  rewrite W. clear W. pose proof (during_trans (during_trans D1 D2) D3) as D. cbn [app] in D.
  destruct (Z.eqb_spec rc2 HE_SUCCESS) as [->|N]; cbn [negb] in C.
  2:{ apply Done_inv in C as [<- <-]. exists l1. split; [exact D|]. right. left. destruct (@stops_more _ (wanted2 x (w_c w3)) _ _ N St1) as [[Q _]|(_ & a & q & r & b & H)]; [now destruct N|]. exists a, q, r, b. exact H. }
  rewrite upd_first in C. match type of C with bind _ _ (with_c ?f ?u) = _ => set (w4 := with_c f u) in C end.
  assert (during tls_items w3 w4 [] /\ c_is_server (w_c w4) = c_is_server (w_c w3) /\ c_pqc (w_c w4) = c_pqc (w_c w3)) as (D4 & Es4 & Ep4).
  { split; [now apply during_nil|repeat split; reflexivity]. }
  clearbody w4. unfold bind at 1 in C. destruct (wolf_settings2 E x w4) as [rc3 w5|] eqn:S2; [|discriminate C]. destruct (settings2 S2) as (l2 & (D5 & _) & St2). clear S2.
  assert (wanted2 x (w_c w4) = wanted2 x (w_c w3)) as W by (unfold wanted2; now rewrite Es4, Ep4). rewrite W in St2. clear W.
  pose proof (during_trans (during_trans D D4) D5) as D'. rewrite app_nil_r in D'. pose proof (stops_app St1 St2) as St.
  destruct (Z.eqb_spec rc3 HE_SUCCESS) as [->|N]; cbn [negb] in C.
  2:{ apply Done_inv in C as [<- <-]. exists (l1 ++ l2). split; [exact D'|]. right. left. destruct St as [[Q _]|(_ & H)]; [now destruct N|exact H]. }
  destruct St as [[_ St]|[N _]]; [|now destruct N]. rewrite St in D'. clear St.
  unfold bind at 1 in C. destruct (change_conn_state E hk HE_STATE_CONNECTING w5) as [u w6|] eqn:Ch; [|discriminate C].
  assert (during tls_items w5 w6 []) as D6.
  { revert Ch. unfold change_conn_state, set_conn_state, bind, get, when, ret, upd, notify, emit. change (HE_STATE_CONNECTING =? HE_STATE_LINK_UP) with false.
    destruct (c_state (w_c w5) =? HE_STATE_CONNECTING); [|destruct (cb_state _)]; cbn [andb]; intros H; apply Done_inv in H as [_ <-]; unfold during; cbn [w_t collect tls_items with_c]; rewrite ?app_nil_r; reflexivity. }
  unfold bind at 1 in C. destruct (wolf_op E hk WNegotiate w6) as [[[r err] d] w7|] eqn:O; [|discriminate C].
  pose proof (during_trans (during_trans D' D6) (wolf_items O)) as D7. rewrite app_nil_r in D7.
  match type of C with ?m w7 = _ => assert (quiet m) as Kq end.
  { repeat match goal with |- quiet (if ?b then _ else _) => destruct b end; try apply quiet_ret; (apply quiet_bind; [apply quiet_change_conn_state|intros _]); (apply quiet_bind; [apply quiet_update_timeout|intros _]); apply quiet_ret. }
  destruct (Kq _ _ _ C) as (ops & F & D8). eexists. split; [exact (during_trans D7 D8)|]. left. exists ops. split; [exact F|]. rewrite <- app_assoc. reflexivity.
Qed.
End C.

(** [he_conn_client_connect] and [he_conn_server_connect] give wolfSSL the wanted
    settings, in order, and start the handshake only when all are accepted; if one
    is refused the call fails with its error and wolfSSL is asked nothing more.
    The third case: the configuration is incomplete or memory is short. *)
Theorem C42_connect : forall E (server : bool) o x i p w rc w',
  reached E w -> o = (if server then OServerConnect x i p else OClientConnect x i p) -> call E o w rc w' ->
  let ws := wanted server x (c_mtu (w_c w)) (c_sni (w_c w)) in
  exists l, during tls_items w w' l /\
   ((exists ops, Forall (fun it => match it with Operation _ => True | Setting _ _ => False end) ops /\
       l = accepted ws ++ Operation WNegotiate :: ops) \/
    (exists a q r b, ws = a ++ q :: b /\ r <> SSL_SUCCESS /\ l = accepted a ++ [Setting q r] /\ rc = setting_error q r) \/
    (l = [] /\ rc <> HE_SUCCESS)).
Proof.
  intros E server o x i p w rc w' R Ho Cl ws.
  assert (exists l, during tls_items w w' l /\ outcome ws l rc) as H; [|exact H].
  destruct (call_body Cl) as (w1 & Bd & ->).
  assert (exists l, during tls_items (push (ECall o) w) w1 l /\ outcome ws l rc) as (l & D & O).
  2:{ exists l. split; [|exact O]. unfold during in *. cbn [push w_t collect tls_items] in *. now rewrite app_nil_r in *. }
  subst ws. destruct server; subst o; cbn [api_body] in Bd.
  - unfold server_connect in Bd. unfold bind at 1, get at 1 in Bd. cbv zeta in Bd.
    destruct (Z.eqb_spec (is_valid_server x (w_c (push (ECall (OServerConnect x i p)) w))) HE_SUCCESS) as [Q|Q]; cbn [negb] in Bd; [|apply Done_inv in Bd as [<- <-]; exists []; split; [now apply during_nil|right; right; auto]].
    rewrite upd_first in Bd. unfold bind at 1 in Bd. match type of Bd with (match internal_connect E _ x i p ?u with _ => _ end) = _ => destruct (internal_connect E (ret tt) x i p u) as [rc1 w2|] eqn:Ic; [|discriminate Bd] end.
    destruct (internal_items Ic) as (l & D & O). change (during tls_items (push (ECall (OServerConnect x i p)) w) w2 l) in D. cbn [with_c w_c set_is_server push c_is_server c_mtu c_sni] in O.
    assert (outcome (wanted true x (c_mtu (w_c w)) (c_sni (w_c w))) l rc1) as O' by (destruct w as [[] t]; exact O). clear O.
    destruct (Z.eqb_spec rc1 HE_SUCCESS) as [->|Nr]; cbn [negb] in Bd; [|apply Done_inv in Bd as [<- <-]; eauto].
    destruct O' as [(ops & F & ->)|[(a & q & r & b & _ & _ & _ & Q4)|[_ Q4]]]; [|now destruct (@setting_error_bad q r)|now destruct Q4].
    match type of Bd with ?m w2 = _ => assert (quiet m) as Kq end.
    { apply quiet_bind; [apply quiet_generate_session_id|]. intros [res s]. apply quiet_if; [apply quiet_ret|]. apply quiet_bind; [apply quiet_upd|intros _; apply quiet_ret]. }
    destruct (Kq _ _ _ Bd) as (ops2 & F2 & D2). eexists. split; [exact (during_trans D D2)|]. left. exists (ops ++ ops2). split; [now apply Forall_app|]. rewrite <- app_assoc. reflexivity.
  - unfold client_connect in Bd. unfold bind at 1, get at 1 in Bd. unfold bind at 1, lift at 1 in Bd. cbn [push w_c] in Bd. destruct (is_valid_client x (w_c w)) as [rc1|]; [|discriminate Bd]. unfold ret at 1 in Bd.
    destruct (Z.eqb_spec rc1 HE_SUCCESS) as [Qr|Nr]; cbn [negb] in Bd; [|apply Done_inv in Bd as [<- <-]; exists []; split; [now apply during_nil|right; right; auto]].
    rewrite upd_first in Bd. destruct (internal_items Bd) as (l & D & O). exists l. split; [exact D|]. destruct w as [[] t]; exact O.
Qed.
Print Assumptions C42_connect.
(** No other call changes the settings of the TLS session. *)
Theorem C42_other : forall E o w rc w', call E o w rc w' ->
  (forall x i p, o <> OClientConnect x i p /\ o <> OServerConnect x i p) ->
  exists ops, Forall (fun it => match it with Operation _ => True | Setting _ _ => False end) ops /\ during tls_items w w' ops.
Proof.
  intros E o w rc w' Cl N. destruct (call_body Cl) as (w1 & Bd & ->).
  assert (is_connect_op o = false) as Co by (destruct o; try reflexivity; edestruct N as [N1 N2]; [now destruct N1|now destruct N2]).
  destruct (quiet_body Co Bd) as (ops & F & D). exists ops. split; [exact F|]. unfold during in *. cbn [push w_t collect tls_items] in *. now rewrite app_nil_r in *.
Qed.
Print Assumptions C42_other.

(** ** Refuted: a session whose settings were refused is not used *)
(** The certificate's name of the context is "vpn"; wolfSSL refuses to check it. *)
Definition name_ctx (ty : Z) : ctx := Ctx ([118; 112; 110] ++ zeros 48) false true true ty all_cbs false HE_PADDING_NONE false true true ty 1 0 1 2 10.
Definition refusing_env : env :=
  Env true 50 (fun t q => match q with QCheckDn _ => 0 | _ => plain_ask t q end) plain_cb (fun _ => (ip 1, ip 2, ip 3)) (fun _ => (HE_PLUGIN_SUCCESS, []))
    plain_wolf (fun _ => HDone).
Theorem C42_unchecked_refuted : exists E w x w1 w2, reached E w /\ c_state (w_c w) = HE_STATE_ONLINE /\
  call E (OClientConnect x [] []) w HE_ERR_INIT_FAILED w1 /\
  (exists q, during tls_items w w1 [Setting q SSL_SUCCESS; Setting (QCheckDn [118; 112; 110]) 0]) /\
  c_state (w_c w1) = HE_STATE_ONLINE /\
  call E (OInside ipv4) w1 HE_SUCCESS w2 /\ (exists m, during tls_items w1 w2 [Operation (WSend m)]).
Proof.
  pose (o1 := OClientConnect (name_ctx HE_CONNECTION_TYPE_DATAGRAM) [] []).
  exists refusing_env, (world_of (run refusing_env 0 client_up world_new)), (name_ctx HE_CONNECTION_TYPE_DATAGRAM),
    (world_of (run refusing_env 0 (client_up ++ [o1]) world_new)), (world_of (run refusing_env 0 (client_up ++ [o1; OInside ipv4]) world_new)).
  split; [exists client_up; vm_compute; reflexivity|]. split; [vm_compute; reflexivity|]. split; [vm_compute; reflexivity|].
  split; [exists (QSetMtu 1423); vm_compute; reflexivity|]. split; [vm_compute; reflexivity|]. split; [vm_compute; reflexivity|].
  exists (data_message true 1 2 ipv4 0). vm_compute; reflexivity.
Qed.
Print Assumptions C42_unchecked_refuted.

(** ** Examples *)
Example C42_example_client :
  let x := name_ctx HE_CONNECTION_TYPE_STREAM in let o := OClientConnect x [] [] in
  let ops := client_setup ++ [OSetSni [97; 98]] in let w := world_at ops in let w' := world_at (ops ++ [o]) in
  reached plain_env w /\ call plain_env o w HE_SUCCESS w' /\
  wanted false x (c_mtu (w_c w)) (c_sni (w_c w)) = [QUseSni [97; 98]; QCheckDn [118; 112; 110]; QKeyShare] /\
  during tls_items w w' [Setting (QUseSni [97; 98]) 1; Setting (QCheckDn [118; 112; 110]) 1; Setting QKeyShare 1; Operation WNegotiate].
Proof. cbv zeta. split; [apply world_at_reached; vm_compute; reflexivity|]. conj; vm_compute; reflexivity. Qed.
Example C42_example_server :
  let o := OServerConnect (name_ctx HE_CONNECTION_TYPE_DATAGRAM) [] [] in
  let w := world_at [OSetMtu 1500] in let w' := world_at [OSetMtu 1500; o] in
  reached plain_env w /\ call plain_env o w HE_SUCCESS w' /\
  during tls_items w w' [Setting (QSetMtu 1423) 1; Setting QChFrag 1; Setting (QCheckDn [118; 112; 110]) 1; Operation WNegotiate].
Proof. cbv zeta. split; [apply world_at_reached; vm_compute; reflexivity|]. conj; vm_compute; reflexivity. Qed.
Example C42_example_refused :
  let o := OServerConnect (name_ctx HE_CONNECTION_TYPE_STREAM) [] [] in
  let w := world_of (run refusing_env 0 [OSetMtu 1500] world_new) in let w' := world_of (run refusing_env 0 [OSetMtu 1500; o] world_new) in
  reached refusing_env w /\ call refusing_env o w HE_ERR_INIT_FAILED w' /\ during tls_items w w' [Setting (QCheckDn [118; 112; 110]) 0].
Proof. cbv zeta. split; [exists [OSetMtu 1500]; vm_compute; reflexivity|]. conj; vm_compute; reflexivity. Qed.
Example C42_example_other :
  let w := world_at client_up in let w' := world_at (client_up ++ [OInside ipv4]) in
  reached plain_env w /\ call plain_env (OInside ipv4) w HE_SUCCESS w' /\ exists m, during tls_items w w' [Operation (WSend m)].
Proof. cbv zeta. split; [apply world_at_reached; vm_compute; reflexivity|]. split; [vm_compute; reflexivity|]. exists (data_message true 1 2 ipv4 0). vm_compute; reflexivity. Qed.
