(** Tunnels: what the sender of packets sends, and what the receiver makes of it. *)
From Verif Require Import Base Codes Ctx Config Mss MssSpec MssProofs Frag FragSpec FragProofs ReasmTable FragHistory
  Wire WireSpec WireProofs ConnState Conn ConnSpec CallSpec MsgSpec ConnSteps Frame Reaction Seq SeqInside SeqOutside SeqReasm SeqApi Honest TunnelSpec.
Unset Strict Implicit.

(** ** The receiver: messages *)
Lemma frag_in_any id off more data : 0 <= off < 65536 -> off mod 8 = 0 ->
  frag_in (fragment_message id off more data) = None \/
  frag_in (fragment_message id off more data) = Some (id, Fragment off (if more then 1 else 0) data).
Proof.
  intros Ho H8. pose proof (len_nonneg data) as Ln. unfold frag_in.
  assert (len (fragment_message id off more data) = 7 + len data) as L
    by (unfold fragment_message; rewrite len_cons, !len_app, !len_be16; lia). rewrite L.
  assert (forall i m, field16 m i = nth i m 0 * 256 + nth (S i) m 0) as FF by reflexivity.
  assert (field16 (fragment_message id off more data) 1 = len data) as F1.
  { rewrite FF. cbn [fragment_message be16 app nth]. pose proof (Z.div_mod (len data) 256). lia. }
  assert (field16 (fragment_message id off more data) 3 = id) as F3.
  { rewrite FF. cbn [fragment_message be16 app nth]. pose proof (Z.div_mod id 256). lia. }
  assert (field16 (fragment_message id off more data) 5 = off / 8 + (if more then 8192 else 0)) as F5.
  { rewrite FF. cbn [fragment_message be16 app nth]. set (v := off / 8 + _). pose proof (Z.div_mod v 256). lia. }
  rewrite F1, F3, F5.
  assert (0 <= off / 8 < 8192) as O8 by (split; [apply Z.div_pos; lia|apply Z.div_lt_upper_bound; lia]).
  assert ((off / 8 + (if more then 8192 else 0)) mod 8192 * 8 = off) as ->.
  { replace (off / 8 + (if more then 8192 else 0)) with (off / 8 + (if more then 1 else 0) * 8192) by (destruct more; lia).
    rewrite Z.mod_add by lia. rewrite Z.mod_small by lia. pose proof (Z.div_mod off 8). lia. }
  assert (((off / 8 + (if more then 8192 else 0)) / 8192) mod 2 = if more then 1 else 0) as ->.
  { replace (off / 8 + (if more then 8192 else 0)) with (off / 8 + (if more then 1 else 0) * 8192) by (destruct more; lia).
    rewrite Z.div_add by lia. rewrite (Z.div_small (off / 8)) by lia. destruct more; reflexivity. }
  destruct (_ && _); [right|now left]. do 3 f_equal.
  unfold fragment_message, slice. cbn [be16 app]. change (Z.to_nat 7) with 7%nat. cbn [skipn].
  rewrite firstn_all2; [reflexivity|]. unfold len. lia.
Qed.

Section R.
Variables le le' : bool.
Variables a b : Z.
Hypothesis Hle : le = le' \/ a <> 1 \/ b <> 0.
Variable n : Z.
Hypothesis Hn : 1 <= n <= 65536.
Variable orig : bytes -> Prop.
Variable cuts : list cut.
Definition cut_ok (c : cut) : Prop :=
  orig (concat (snd c)) /\ 0 <= fst c < 65536 /\ Forall (fun x => x <> []) (snd c) /\
  (forall i, (S i < length (snd c))%nat -> len (nth i (snd c) []) mod 8 = 0) /\ len (concat (snd c)) < 65536.
Definition carried (m : bytes) : Prop :=
  delivers m = true ->
  (exists p pad, orig p /\ ipv4_packet p = true /\ bytes_ok p /\ len p < 65536 /\ m = data_message le' a b p pad) \/
  (exists c i, In c cuts /\ (i < length (snd c))%nat /\ m = nth i (fragments (fst c) 0 (snd c)) []).
Hypothesis Cok : forall c, In c cuts -> cut_ok c.
Hypothesis One : forall c c', In c cuts -> In c' cuts -> fst c mod n = fst c' mod n -> c = c'.

Lemma starts8 cs : (forall i, (S i < length cs)%nat -> len (nth i cs []) mod 8 = 0) ->
  forall k, (k < length cs)%nat -> len (concat (firstn k cs)) mod 8 = 0.
Proof.
  intros H8. induction k as [|k IH]; intros Hk; [reflexivity|]. rewrite (@firstn_S_nth _ cs k []) by lia.
  rewrite concat_app, len_app. cbn [concat]. rewrite app_nil_r. rewrite Z.add_mod, IH, H8 by lia. reflexivity.
Qed.
Lemma not_delivers s m : delivers m = false -> is_frag (s, m) = false /\ payload le a b (s, m) = [].
Proof.
  unfold delivers, is_frag, payload. cbn [snd]. intros H. apply orb_false_iff in H as [H H3]. apply orb_false_iff in H as [H1 H2].
  rewrite H1, H2, H3. split; [reflexivity|]. cbn [andb]. change (ipv4_packet []) with false. now rewrite andb_false_r.
Qed.
Lemma took_honest A tb ds tb' : took le a b A tb ds tb' -> forall t, tb = Some t -> honest_table n cuts t ->
  Forall (fun d => carried (snd (fst d))) ds ->
  (exists t', tb' = Some t' /\ honest_table n cuts t') /\ Forall orig (flat_map snd ds).
Proof.
  induction 1 as [tb|tb x ds tb1 tb2 ps St Tk IH]; intros t -> Ht F; [split; [eauto|constructor]|].
  inversion F as [|? ? Cx Fd]; subst. cbn [fst snd] in *.
  assert ((exists t1, tb1 = Some t1 /\ honest_table n cuts t1) /\ Forall orig ps) as [(t1 & Q1 & H1) O1].
  { destruct (delivers (snd x)) eqn:Dl.
    2:{ destruct x as [s m]. destruct (@not_delivers s m Dl) as [Nf Np]. inversion St as [Fr|Fr _|? ? ? ? ? ? ? ? ? ? Fr]; subst; try congruence. rewrite Np. split; [eauto|constructor]. }
    destruct (Cx Dl) as [(p & pad & Op & Ip & Bp & Lp & Em)|(c & i & Ic & Hi & Em)].
    - assert (is_frag x = false) as Nf by (unfold is_frag; rewrite Em; reflexivity).
      inversion St as [Fr|Fr _|? ? ? ? ? ? ? ? ? ? Fr]; subst; try congruence. split; [eauto|].
      destruct x as [s m]. cbn [snd] in Em. subst m. destruct (Z.eqb_spec s HE_STATE_ONLINE) as [->|Ns].
      + rewrite payload_data by (auto; lia). constructor; [exact Op|constructor].
      + unfold payload. apply Z.eqb_neq in Ns. rewrite Ns. constructor.
    - destruct (Cok Ic) as (Oc & Hid & NEc & H8 & Lc). rewrite fragments_nth in Em by exact Hi.
      assert (is_frag x = true) as Nf by (unfold is_frag; rewrite Em; reflexivity).
      inversion St as [Fr|Fr _|t0 id f a1 a2 n1 n2 rc o t' Fr On Fi Tb I1 I2 I3 I4 FS]; subst; try congruence; [split; [eauto|constructor]|].
      injection Tb as <-. rewrite Em in Fi.
      destruct (@frag_in_any (fst c) (0 + len (concat (firstn i (snd c)))) (S i <? length (snd c))%nat (nth i (snd c) [])) as [Q|Q].
      + split; [pose proof (len_nonneg (concat (firstn i (snd c)))); lia|].
        assert (len (concat (firstn i (snd c))) <= len (concat (snd c))); [|lia].
        rewrite <- (firstn_skipn i (snd c)) at 2. rewrite concat_app, len_app. pose proof (len_nonneg (concat (skipn i (snd c)))). lia.
      + now apply starts8.
      + congruence.
      + rewrite Q in Fi. injection Fi as <- <-. cbn [f_off f_mf f_data] in FS.
        destruct (@store_honest n Hn cuts (fun c Hc => proj1 (proj2 (proj2 (Cok Hc)))) One (negb (a1 =? 0)) (negb (a2 =? 0)) n1 n2 t c i rc o t' Ht Ic Hi FS) as [Ht' Po].
        split.
        * eexists; split; [reflexivity|]. destruct o; [now apply delete_honest|exact Ht'].
        * destruct o as [q|]; [|constructor]. assert (orig q) as Oq by (rewrite (Po q eq_refl); exact Oc). destruct (ipv4_packet q); repeat constructor; exact Oq. }
  destruct (IH t1 Q1 H1 Fd) as [T2 O2]. split; [exact T2|]. cbn [flat_map snd]. now apply Forall_app.
Qed.
End R.

(** ** The sender: everything but he_conn_inside_packet_received *)
Section S.
Variable E : env.
Notation hk := (@ret unit tt).
(** What a sender of packets needs to keep. *)
Definition key (c : conn) := (c_frag_next c, c_vmaj c, c_vmin c, c_in_chain c).
Definition tame {A} (m : M A) : Prop := forall w a w', m w = Done a w' ->
  (exists l, during sent w w' l /\ Forall (fun m => delivers m = false) l) /\ key (w_c w') = key (w_c w).
Lemma tame_same A (m : M A) : (forall w a w', m w = Done a w' -> w_t w' = w_t w /\ key (w_c w') = key (w_c w)) -> tame m.
Proof. intros H w a w' R. destruct (H _ _ _ R) as [T K]. split; [|exact K]. exists []. split; [|constructor]. unfold during; now rewrite T, app_nil_r. Qed.
Lemma tame_ret A (a : A) : tame (ret a).
Proof. apply tame_same. intros w b w' H. apply Done_inv in H as [_ <-]. auto. Qed.
Lemma tame_get A (f : conn -> A) : tame (get f).
Proof. apply tame_same. intros w b w' H. apply Done_inv in H as [_ <-]. auto. Qed.
Lemma tame_log : tame log.
Proof. apply tame_same. intros w b w' H. apply Done_inv in H as [_ <-]. auto. Qed.
Lemma tame_upd f : (forall c, key (f c) = key c) -> tame (upd f).
Proof. intros F. apply tame_same. intros w b w' H. apply Done_inv in H as [_ <-]. split; [reflexivity|apply F]. Qed.
Lemma tame_emit e : sent 0 e = [] -> tame (emit e).
Proof.
  intros F w b w' H. apply Done_inv in H as [_ <-]. split; [|reflexivity]. exists []. split; [|constructor].
  unfold during. cbn [w_t collect]. f_equal. destruct e; exact F || reflexivity.
Qed.
Lemma tame_bind A B (m : M A) (k : A -> M B) : tame m -> (forall a, tame (k a)) -> tame (bind m k).
Proof.
  intros Hm Hk w b w' H. unfold bind in H. destruct (m w) as [a w1|] eqn:R; [|discriminate H].
  destruct (Hm _ _ _ R) as [(l1 & D1 & F1) K1]. destruct (Hk _ _ _ _ H) as [(l2 & D2 & F2) K2].
  split; [|congruence]. exists (l1 ++ l2). split; [exact (during_trans D1 D2)|now apply Forall_app].
Qed.
Lemma tame_val A B (r : res A) (k : A -> M B) : (forall a, r = Val a -> tame (k a)) -> tame (bind (lift r) k).
Proof. intros H. destruct r as [a|]; [|intros w b w' R; discriminate R]. exact (H a eq_refl). Qed.
Lemma tame_fault A u : tame (@stuck A u).
Proof. intros w b w' H. discriminate H. Qed.
Lemma tame_lift A (r : res A) : tame (lift r).
Proof. unfold lift. destruct r; [apply tame_ret|apply tame_fault]. Qed.
Definition calm (o : wop) : Prop := match o with WSend m => delivers m = false | _ => True end.
Lemma tame_wolf o : calm o -> tame (wolf_op E hk o).
Proof.
  intros Cm w [[r err] d] w' H. apply wolf_op_seq in H. destruct H as (rx & seg & -> & S). split; [|reflexivity].
  exists (match o with WSend m => [m] | _ => [] end). split; [|destruct o; repeat constructor; exact Cm].
  unfold during. cbn [w_t collect sent]. rewrite collect_app. cbn [collect sent].
  rewrite (collect_io (s := c_state (w_c w)) (f := sent) (seg := seg)); auto.
  - rewrite !app_nil_r. destruct o; reflexivity.
  - intros []; cbn; auto; discriminate.
Qed.
Lemma tame_ask q : tame (ask E q).
Proof. unfold ask. apply tame_bind; [apply tame_log|]. intros t. apply tame_bind; [|intros; apply tame_ret]. now apply tame_emit. Qed.
Lemma tame_when (b : bool) (m : M unit) : tame m -> tame (when b m).
Proof. destruct b; [auto|]. intros _. apply tame_ret. Qed.
Hint Resolve tame_ret tame_get tame_log tame_lift tame_fault tame_ask : core.
Lemma delivers_not m t : msg_type m = t \/ m = [] -> t <> HE_MSGID_DATA -> t <> HE_MSGID_DEPRECATED_13 -> t <> HE_MSGID_DATA_WITH_FRAG -> delivers m = false.
Proof.
  intros [<-| ->] H1 H2 H3; [|reflexivity]. unfold delivers. apply Z.eqb_neq in H1, H2, H3. now rewrite H1, H2, H3.
Qed.
Lemma type_userpass u p m : build_auth_userpass u p = Val m -> msg_type m = HE_MSGID_AUTH.
Proof. intros H. unfold build_auth_userpass in H. typed H. Qed.
Lemma type_buffer le s t b n m : build_auth_buffer le s t b n = Val m -> msg_type m = HE_MSGID_AUTH.
Proof. intros H. unfold build_auth_buffer in H. typed H. Qed.
Lemma tame_send_message m : delivers m = false -> tame (send_message E hk m).
Proof.
  intros D. unfold send_message. apply tame_bind; [now apply tame_wolf|]. intros [[r err] x].
  repeat match goal with |- tame (if ?b then _ else _) => destruct b | |- tame (bind _ _) => apply tame_bind; [|intro] | |- tame (upd _) => apply tame_upd; reflexivity | _ => auto end.
Qed.
Ltac msg :=
  match goal with
  | X : build_ping _ _ _ _ = Val _ |- _ => apply type_ping in X
  | X : build_pong _ _ = Val _ |- _ => apply type_pong in X
  | X : build_goodbye = Val _ |- _ => apply type_goodbye in X
  | X : build_auth_response = Val _ |- _ => apply type_response in X
  | X : build_server_config _ _ = Val _ |- _ => apply type_server_config in X
  | X : build_config_ipv4 _ _ _ _ _ = Val _ |- _ => apply type_config in X
  | X : build_auth_userpass _ _ = Val _ |- _ => apply type_userpass in X
  | X : build_auth_buffer _ _ _ _ _ = Val _ |- _ => apply type_buffer in X
  end;
  match goal with
  | X : msg_type ?b = _, Y : ldn ?b 0 _ = Val _ |- _ => apply type_ldn in Y; rewrite X in Y; eapply delivers_not; [exact Y|discriminate..]
  | X : msg_type ?b = _ |- delivers ?b = false => eapply delivers_not; [left; exact X|discriminate..]
  end.
Ltac t1 :=
  match goal with
  | |- tame (bind (lift _) _) => apply tame_val; intros ? ?
  | |- tame (bind (send_message _ _ _) _) => apply tame_bind; [apply tame_send_message; msg|intro]
  | |- tame (send_message _ _ _) => apply tame_send_message; msg
  | |- tame (bind _ _) => apply tame_bind; [|intro]
  | |- tame (when _ _) => apply tame_when
  | |- tame (emit _) => apply tame_emit; reflexivity
  | |- tame (upd _) => apply tame_upd; intros; reflexivity
  | |- tame (wolf_op _ _ _) => apply tame_wolf; first [exact I|match goal with |- calm (if ?b then _ else _) => destruct b; exact I end]
  | |- tame (if ?b then _ else _) => destruct b
  | |- tame (let '(_, _) := ?x in _) => destruct x
  | |- tame (match ?x with _ => _ end) => destruct x
  | |- tame _ => solve [auto]
  end.
Ltac tt := intros; cbv zeta; repeat t1.
Lemma tame_notify e : sent 0 e = [] -> tame (notify hk e).
Proof. intros F. unfold notify. apply tame_bind; [now apply tame_emit|auto]. Qed.
Lemma tame_callback e k : sent 0 e = [] -> tame (callback E hk e k).
Proof. intros F. unfold callback. apply tame_bind; [now apply tame_emit|]. tt. Qed.
Hint Extern 1 (tame (notify _ _)) => apply tame_notify; reflexivity : core.
Hint Extern 1 (tame (callback _ _ _ _)) => apply tame_callback; reflexivity : core.
Lemma tame_call_plugin i n d c : tame (call_plugin E i n d c).
Proof. unfold call_plugin. tt. Qed.
Hint Resolve tame_call_plugin : core.
Lemma tame_generate_event v : tame (generate_event hk v).
Proof. unfold generate_event. tt. Qed.
Hint Resolve tame_generate_event : core.
Lemma tame_set_conn_state s : tame (set_conn_state hk s).
Proof. unfold set_conn_state. tt. Qed.
Hint Resolve tame_set_conn_state : core.
Lemma tame_send_auth_userpass  : tame (send_auth_userpass E hk).
Proof. unfold send_auth_userpass. tt. Qed.
Hint Resolve tame_send_auth_userpass : core.
Lemma tame_send_auth_token  : tame (send_auth_token E hk).
Proof. unfold send_auth_token. tt. Qed.
Hint Resolve tame_send_auth_token : core.
Lemma tame_send_auth_buf  : tame (send_auth_buf E hk).
Proof. unfold send_auth_buf. tt. Qed.
Hint Resolve tame_send_auth_buf : core.
Lemma tame_send_auth  : tame (send_auth E hk).
Proof. unfold send_auth. tt. Qed.
Hint Resolve tame_send_auth : core.
Lemma tame_change_conn_state s : tame (change_conn_state E hk s).
Proof. unfold change_conn_state. tt. Qed.
Hint Resolve tame_change_conn_state : core.
Lemma tame_ask_version : tame (ask_version E).
Proof.
  unfold ask_version. apply tame_bind; [apply tame_get|]. intros []; [tt|]. intros w a w' H. discriminate H.
Qed.
Hint Resolve tame_ask_version : core.
Lemma tame_update_timeout  : tame (update_timeout E hk).
Proof. unfold update_timeout. tt. Qed.
Hint Resolve tame_update_timeout : core.
Lemma tame_send_goodbye  : tame (send_goodbye E hk).
Proof. unfold send_goodbye. tt. Qed.
Hint Resolve tame_send_goodbye : core.
Lemma tame_generate_session_id  : tame (generate_session_id E).
Proof. unfold generate_session_id. tt. Qed.
Hint Resolve tame_generate_session_id : core.
Lemma tame_renegotiate_ssl  : tame (renegotiate_ssl E hk).
Proof. unfold renegotiate_ssl. tt. Qed.
Hint Resolve tame_renegotiate_ssl : core.
Lemma tame_upd_pm f : tame (upd_pm f).
Proof. unfold upd_pm. tt. Qed.
Hint Resolve tame_upd_pm : core.
Lemma tame_pm_time ms : tame (pm_time E hk ms).
Proof. unfold pm_time. tt. Qed.
Hint Resolve tame_pm_time : core.
Lemma tame_pm_change_state s : tame (pm_change_state hk s).
Proof. unfold pm_change_state. tt. Qed.
Hint Resolve tame_pm_change_state : core.
Lemma tame_pm_send_probe m : tame (pm_send_probe E hk m).
Proof. unfold pm_send_probe. tt. Qed.
Hint Resolve tame_pm_send_probe : core.
Lemma tame_pm_retry_probe d : tame (pm_retry_probe E hk d).
Proof. unfold pm_retry_probe. tt. Qed.
Hint Resolve tame_pm_retry_probe : core.
Lemma tame_pm_start_base_probing  : tame (pm_start_base_probing E hk).
Proof. unfold pm_start_base_probing. tt. Qed.
Hint Resolve tame_pm_start_base_probing : core.
Lemma tame_pm_base_confirmed  : tame (pm_base_confirmed E hk).
Proof. unfold pm_base_confirmed. tt. Qed.
Hint Resolve tame_pm_base_confirmed : core.
Lemma tame_pm_confirm_base_failed  : tame (pm_confirm_base_failed E hk).
Proof. unfold pm_confirm_base_failed. tt. Qed.
Hint Resolve tame_pm_confirm_base_failed : core.
Lemma tame_pm_search_completed  : tame (pm_search_completed E hk).
Proof. unfold pm_search_completed. tt. Qed.
Hint Resolve tame_pm_search_completed : core.
Lemma tame_pm_blackhole_detected  : tame (pm_blackhole_detected E hk).
Proof. unfold pm_blackhole_detected. tt. Qed.
Hint Resolve tame_pm_blackhole_detected : core.
Lemma tame_pm_probe_ack id : tame (pm_probe_ack E hk id).
Proof. unfold pm_probe_ack. tt. Qed.
Hint Resolve tame_pm_probe_ack : core.
Lemma tame_pm_probe_timeout  : tame (pm_probe_timeout E hk).
Proof. unfold pm_probe_timeout. tt. Qed.
Hint Resolve tame_pm_probe_timeout : core.
Lemma tame_plugin_ingress ch : forall d c, tame (plugin_ingress E ch d c).
Proof. induction ch; intros; cbn [plugin_ingress]; tt. Qed.
Hint Resolve tame_plugin_ingress : core.
Lemma tame_plugin_egress ch : forall d c, tame (plugin_egress E ch d c).
Proof. induction ch; intros; cbn [plugin_egress]; tt. Qed.
Hint Resolve tame_plugin_egress : core.
Lemma tame_handle_ping m : tame (handle_ping E hk m).
Proof. unfold handle_ping. tt. Qed.
Hint Resolve tame_handle_ping : core.
Lemma tame_handle_pong m : tame (handle_pong E hk m).
Proof. unfold handle_pong. tt. Qed.
Hint Resolve tame_handle_pong : core.
Lemma tame_handle_server_config m : tame (handle_server_config E hk m).
Proof. unfold handle_server_config. tt. Qed.
Hint Resolve tame_handle_server_config : core.
Lemma tame_handle_config_ipv4 m : tame (handle_config_ipv4 E hk m).
Proof. unfold handle_config_ipv4. tt. Qed.
Hint Resolve tame_handle_config_ipv4 : core.
Lemma tame_send_auth_denied  : tame (send_auth_denied E hk).
Proof. unfold send_auth_denied. tt. Qed.
Hint Resolve tame_send_auth_denied : core.
Lemma tame_auth_accepted  : tame (auth_accepted E hk).
Proof. unfold auth_accepted. tt. Qed.
Hint Resolve tame_auth_accepted : core.
Lemma tame_auth_verdict b r : tame (auth_verdict E hk b r).
Proof. unfold auth_verdict. tt. Qed.
Hint Resolve tame_auth_verdict : core.
Lemma tame_handle_auth m : tame (handle_auth E hk m).
Proof. unfold handle_auth. tt. Qed.
Hint Resolve tame_handle_auth : core.
Lemma tame_deliver p : tame (deliver E hk p).
Proof. unfold deliver. tt. Qed.
Hint Resolve tame_deliver : core.
Lemma tame_handle_data m : tame (handle_data E hk m).
Proof. unfold handle_data. tt. Qed.
Hint Resolve tame_handle_data : core.
Lemma tame_handle_frag m : tame (handle_frag E hk m).
Proof. unfold handle_frag. tt. Qed.
Hint Resolve tame_handle_frag : core.
Lemma tame_handle_deprecated_13 m : tame (handle_deprecated_13 E hk m).
Proof. unfold handle_deprecated_13. tt. Qed.
Hint Resolve tame_handle_deprecated_13 : core.
Lemma tame_process_message m : tame (process_message E hk m).
Proof. unfold process_message. tt. Qed.
Hint Resolve tame_process_message : core.
Lemma tame_fetch_message f : tame (fetch_message E hk f).
Proof. induction f; intros; cbn [fetch_message]; tt. Qed.
Hint Resolve tame_fetch_message : core.
Lemma tame_message_loop f : tame (message_loop E hk f).
Proof. induction f; intros; cbn [message_loop]; tt. Qed.
Hint Resolve tame_message_loop : core.
Lemma tame_check_renegotiation  : tame (check_renegotiation E hk).
Proof. unfold check_renegotiation. tt. Qed.
Hint Resolve tame_check_renegotiation : core.
Lemma tame_handle_messages  : tame (handle_messages E hk).
Proof. unfold handle_messages. tt. Qed.
Hint Resolve tame_handle_messages : core.
Lemma tame_verify_connection  : tame (verify_connection E hk).
Proof. unfold verify_connection. tt. Qed.
Hint Resolve tame_verify_connection : core.
Lemma tame_update_session_incoming s : tame (update_session_incoming hk s).
Proof. unfold update_session_incoming. tt. Qed.
Hint Resolve tame_update_session_incoming : core.
Lemma tame_disconnect  : tame (disconnect E hk).
Proof. unfold disconnect. tt. Qed.
Hint Resolve tame_disconnect : core.
Lemma tame_nudge  : tame (nudge E hk).
Proof. unfold nudge. tt. Qed.
Hint Resolve tame_nudge : core.
Lemma tame_send_keepalive  : tame (send_keepalive E hk).
Proof. unfold send_keepalive. tt. Qed.
Hint Resolve tame_send_keepalive : core.
Lemma tame_send_server_config b : tame (send_server_config E hk b).
Proof. unfold send_server_config. tt. Qed.
Hint Resolve tame_send_server_config : core.
Lemma tame_rotate_session_id  : tame (rotate_session_id E).
Proof. unfold rotate_session_id. tt. Qed.
Hint Resolve tame_rotate_session_id : core.
Lemma tame_set_session_id s : tame (set_session_id s).
Proof. unfold set_session_id. tt. Qed.
Hint Resolve tame_set_session_id : core.
Lemma tame_start_pmtu_discovery  : tame (start_pmtu_discovery E hk).
Proof. unfold start_pmtu_discovery. tt. Qed.
Hint Resolve tame_start_pmtu_discovery : core.
Lemma tame_set_username_api s : tame (set_username_api s).
Proof. unfold set_username_api. tt. Qed.
Hint Resolve tame_set_username_api : core.
Lemma tame_set_password_api s : tame (set_password_api s).
Proof. unfold set_password_api. tt. Qed.
Hint Resolve tame_set_password_api : core.
Lemma tame_set_auth_token s : tame (set_auth_token s).
Proof. unfold set_auth_token. tt. Qed.
Hint Resolve tame_set_auth_token : core.
Lemma tame_set_auth_buffer s : tame (set_auth_buffer s).
Proof. unfold set_auth_buffer. tt. Qed.
Hint Resolve tame_set_auth_buffer : core.
Lemma tame_set_outside_mtu s : tame (set_outside_mtu s).
Proof. unfold set_outside_mtu. tt. Qed.
Hint Resolve tame_set_outside_mtu : core.
Lemma tame_set_sni_hostname s : tame (set_sni_hostname s).
Proof. unfold set_sni_hostname. tt. Qed.
Hint Resolve tame_set_sni_hostname : core.
Lemma tame_outside_packet_received d : tame (outside_packet_received E hk d).
Proof. unfold outside_packet_received. tt. Qed.
Hint Resolve tame_outside_packet_received : core.
Lemma tame_outside_stream_received d : tame (outside_stream_received E hk d).
Proof. unfold outside_stream_received. tt. Qed.
Hint Resolve tame_outside_stream_received : core.
Lemma tame_outside_data_received d : tame (outside_data_received E hk d).
Proof. unfold outside_data_received. tt. Qed.
Hint Resolve tame_outside_data_received : core.
Lemma tame_body o : match o with OInside _ | OClientConnect _ _ _ | OServerConnect _ _ _ | OSetVersion _ _ => false | _ => true end = true -> tame (api_body E hk o).
Proof. destruct o; cbn [api_body]; try discriminate; intros _; tt. Qed.
End S.

(** ** The receiver: calls that bring nothing *)
Definition still_op (o : op) : bool :=
  match o with OClientConnect _ _ _ | OServerConnect _ _ _ | ODisconnect | OSetVersion _ _ => false | _ => true end.
Section D.
Variable E : env.
Notation hk := (@ret unit tt).
Notation T := (fun _ : world => True).
Variable kk : Z * Z * chain * cbs.
Variable A0 : answers.
Ltac kpush := apply K_push; [intros; reflexivity|assumption].
Ltac kconn := apply K_conn; [reflexivity|reflexivity|assumption].
Ltac ks := intros; first [exact I|apply keeps_ret|apply K_read|apply K_write|now apply K_event|now apply K_wend|kpush|kconn|idtac].
Lemma K_still R A tb o : still_op o = true -> (forall b, o <> OOutside b) -> keeps (K kk A0 R A tb) T (api_body E hk o).
Proof.
  destruct o; intros Pl No; try discriminate Pl; cbn [api_body].
  - apply keeps_inside; ks.
  - now destruct (No buffer).
  - apply keeps_nudge; ks.
  - apply keeps_keepalive; ks.
  - apply keeps_send_server_config; ks.
  - apply keeps_bind; [apply keeps_upd; ks|intros _; apply keeps_ret].
  - apply keeps_start_pmtu; ks.
  - apply keeps_pm_timeout; ks.
  - apply keeps_rotate; ks.
  - apply keeps_set_session; ks.
  - apply keeps_set_username; ks.
  - apply keeps_set_password; ks.
  - apply keeps_set_token; ks.
  - apply keeps_set_auth_buffer; ks.
  - apply keeps_set_mtu; ks.
  - apply keeps_set_sni; ks.
Qed.
End D.

Lemma still_run E : forall ops w w', c_in_chain (w_c w) = [] -> cb_inside (c_cbs (w_c w)) = true -> Forall (fun o => still_op o = true) ops ->
  run E 0 ops w = Done tt w' ->
  exists ds qs, during act w w' (acts ds) /\ during asked w w' qs /\
    took (e_le E) (c_vmaj (w_c w)) (c_vmin (w_c w)) qs (c_frag_tbl (w_c w)) ds (c_frag_tbl (w_c w')) /\ cfg (w_c w') = cfg (w_c w).
Proof.
  induction ops as [|o ops IH]; intros w w' Ch Cb F; cbn [run].
  - intros H. apply Done_inv in H as [_ <-]. exists [], []. split; [now apply during_nil|]. split; [now apply during_nil|]. split; [constructor|reflexivity].
  - change (hookn E 0) with (@ret unit tt). destruct (api E (ret tt) o w) as [rc w1|] eqn:C; [|discriminate]. inversion_clear F as [|? ? Fo Fops].
    assert (exists ds qs, during act w w1 (acts ds) /\ during asked w w1 qs /\
      took (e_le E) (c_vmaj (w_c w)) (c_vmin (w_c w)) qs (c_frag_tbl (w_c w)) ds (c_frag_tbl (w_c w1)) /\ cfg (w_c w1) = cfg (w_c w)) as (ds & qs & D1 & D3 & Tk & Cf).
    { assert ((exists b, o = OOutside b) \/ forall b, o <> OOutside b) as [(b & ->)|No] by (destruct o; eauto; right; discriminate).
      - exact (outside_call Ch Cb C).
      - destruct (call_body C) as (w2 & Bd & ->).
        pose proof (@K_still E (cfg (w_c w)) (collect asked (w_t w)) (collect act (w_t w)) [] (c_frag_tbl (w_c w)) o Fo No (push (ECall o) w)) as Kp.
        rewrite Bd in Kp. destruct Kp as (Ka & Kc & Kt & more & Km & _).
        { split; [cbn; now rewrite app_nil_r|]. split; [reflexivity|]. split; [reflexivity|]. exists []. split; [cbn; reflexivity|apply incl_refl]. }
        exists [], more. unfold during. cbn [push w_t w_c collect act got_msg inside asked map app acts flat_map]. rewrite !app_nil_r.
        split; [exact Ka|]. split; [exact Km|]. split; [|exact Kc]. rewrite Kt. constructor. }
    intros Rn. unfold cfg in Cf. injection Cf as V1 V2 V3 V4. destruct (IH w1 w') as (ds' & qs' & D1' & D3' & T' & Cf'); auto; try congruence.
    exists (ds ++ ds'), (qs ++ qs'). unfold acts. rewrite flat_map_app. split; [exact (during_trans D1 D1')|]. split; [exact (during_trans D3 D3')|].
    split.
    + eapply took_app; [eapply took_more; [|exact Tk]; apply incl_appl, incl_refl|]. rewrite V1, V2 in T'.
      eapply took_more; [|exact T']. apply incl_appr, incl_refl.
    + rewrite Cf'. unfold cfg. congruence.
Qed.

(** ** The sender: calls *)
Fixpoint ids_from (id : Z) (k : nat) : list Z := match k with O => [] | S k => id :: ids_from (u16 (id + 1)) k end.
Lemma iter_swap {A} (f : A -> A) k x : Nat.iter k f (f x) = f (Nat.iter k f x).
Proof. induction k as [|k IH]; [reflexivity|]. change (f (Nat.iter k f (f x)) = f (f (Nat.iter k f x))). now rewrite IH. Qed.
Lemma ids_app id k : forall j, ids_from id (k + j) = ids_from id k ++ ids_from (Nat.iter k (fun x => u16 (x + 1)) id) j.
Proof.
  revert id. induction k as [|k IH]; intros id j; [reflexivity|]. cbn [Nat.add ids_from app]. rewrite IH. do 3 f_equal.
  change (Nat.iter (S k) ?f id) with (f (Nat.iter k f id)). exact (iter_swap (fun x => u16 (x + 1)) k id).
Qed.
Lemma carried_more le a b (o1 o2 : bytes -> Prop) c1 c2 m : (forall q, o1 q -> o2 q) -> incl c1 c2 -> carried le a b o1 c1 m -> carried le a b o2 c2 m.
Proof.
  intros H I C D. destruct (C D) as [(p & pad & Op & R)|(c & i & Ic & R)]; [left; exists p, pad; split; [now apply H|exact R]|right; exists c, i; split; [now apply I|exact R]].
Qed.
Lemma cut_more (o1 o2 : bytes -> Prop) c : (forall q, o1 q -> o2 q) -> cut_ok o1 c -> cut_ok o2 c.
Proof. intros H [O R]. split; [now apply H|exact R]. Qed.
Lemma frag_fields id off more data : 0 <= off < 65536 -> off mod 8 = 0 ->
  packet_id (fragment_message id off more data) = id /\ first_fragment (fragment_message id off more data) = (off =? 0).
Proof.
  intros Ho H8. assert (forall i m, field16 m i = nth i m 0 * 256 + nth (S i) m 0) as FF by reflexivity. split.
  - unfold packet_id. rewrite FF. cbn [fragment_message be16 app nth]. pose proof (Z.div_mod id 256). lia.
  - unfold first_fragment. change (msg_type (fragment_message id off more data) =? HE_MSGID_DATA_WITH_FRAG) with true. cbn [andb].
    assert (field16 (fragment_message id off more data) 5 = off / 8 + (if more then 8192 else 0)) as ->.
    { rewrite FF. cbn [fragment_message be16 app nth]. set (v := off / 8 + _). pose proof (Z.div_mod v 256). lia. }
    assert (0 <= off / 8 < 8192) as O8 by (split; [apply Z.div_pos; lia|apply Z.div_lt_upper_bound; lia]).
    replace (off / 8 + (if more then 8192 else 0)) with (off / 8 + (if more then 1 else 0) * 8192) by (destruct more; lia).
    rewrite Z.mod_add by lia. rewrite Z.mod_small by lia. pose proof (Z.div_mod off 8). destruct (Z.eqb_spec off 0) as [->|N]; [reflexivity|]. apply Z.eqb_neq. lia.
Qed.
(** What is written of a list of messages is a prefix of it, not empty. *)
Lemma writes_prefix : forall ms l rc, writes ms l rc -> exists rest, ms = map (fun x => fst (fst x)) l ++ rest.
Proof.
  induction ms as [|m ms IH]; intros [|[[m' r] err] l] rc; cbn [writes]; try tauto; [exists []; reflexivity|].
  intros [-> W]. cbn [map fst app]. destruct (_ =? _).
  - destruct (IH _ _ W) as [rest ->]. exists rest. reflexivity.
  - destruct W as [-> _]. exists ms. reflexivity.
Qed.
Lemma writes_some m ms l rc : writes (m :: ms) l rc -> exists l', map (fun x => fst (fst x)) l = m :: l'.
Proof. destruct l as [|[[m' r] err] l]; cbn [writes]; [tauto|]. intros [-> _]. eexists. reflexivity. Qed.
(** All but the first fragment of a packet are no first fragments. *)
Lemma no_first id : forall cs off, 0 < off -> off mod 8 = 0 -> off + len (concat cs) < 65536 -> Forall (fun c => c <> []) cs ->
  (forall i, (S i < length cs)%nat -> len (nth i cs []) mod 8 = 0) ->
  filter first_fragment (fragments id off cs) = [].
Proof.
  induction cs as [|c cs IH]; intros off Ho H8 Hl NE Hc; [reflexivity|]. cbn [fragments filter]. cbn [concat] in Hl. rewrite len_app in Hl.
  pose proof (len_nonneg c). pose proof (len_nonneg (concat cs)).
  match goal with |- context [fragment_message id off ?b c] => destruct (@frag_fields id off b c) as [_ ->]; [lia|exact H8|] end. destruct (Z.eqb_spec off 0); [lia|].
  destruct cs as [|c2 cs]; [reflexivity|]. apply IH.
  - lia.
  - assert (len c mod 8 = 0) as Hc0 by exact (Hc 0%nat ltac:(cbn; lia)). rewrite Z.add_mod, H8, Hc0 by lia. reflexivity.
  - lia.
  - now inversion NE.
  - intros i Hi. apply (Hc (S i)). cbn in *. lia.
Qed.
Lemma filter_prefix A (f : A -> bool) l1 l2 : filter f (l1 ++ l2) = [] -> filter f l1 = [].
Proof. rewrite filter_app. intros H. now apply app_eq_nil in H. Qed.

Section SC.
Variable E : env.
Notation hk := (@ret unit tt).
Lemma inside_rest p w rc w' : call E (OInside p) w rc w' ->
  c_vmaj (w_c w') = c_vmaj (w_c w) /\ c_vmin (w_c w') = c_vmin (w_c w) /\ c_in_chain (w_c w') = c_in_chain (w_c w).
Proof.
  intros C. destruct (call_body C) as (w1 & Bd & ->). cbn [push w_c].
  pose proof (@K_still E (cfg (w_c w)) (collect asked (w_t w)) (collect act (w_t w)) [] (c_frag_tbl (w_c w)) (OInside p) eq_refl ltac:(discriminate) (push (ECall (OInside p)) w)) as Kp.
  rewrite Bd in Kp. destruct Kp as (_ & Kc & _).
  { split; [cbn; now rewrite app_nil_r|]. split; [reflexivity|]. split; [reflexivity|]. exists []. split; [cbn; reflexivity|apply incl_refl]. }
  unfold cfg in Kc. injection Kc as -> -> ->. auto.
Qed.
Lemma inside_uncut p w rc w' : reached E w -> c_in_chain (w_c w) = [] -> bytes_ok p -> call E (OInside p) w rc w' ->
  must_cut (w_c w) p = false -> c_frag_next (w_c w') = c_frag_next (w_c w).
Proof.
  intros Re Ch B C Cut. pose proof (inside_call Re Ch B C) as IC. destruct (refusal (w_c w) p) as [code|] eqn:Rf; [destruct IC as (_ & _ & _ & ->); reflexivity|]. clear IC.
  destruct (call_body C) as (w1 & Bd & ->). cbn [api_body] in Bd. rewrite (u8s_id B) in Bd. cbn [push w_c].
  destruct (Z.eqb_spec (c_state (w_c w)) HE_STATE_ONLINE) as [On|Off].
  2:{ unfold refusal in Rf. apply Z.eqb_neq in Off. rewrite Off in Rf. discriminate Rf. }
  pose proof (@inside_seq E p (push (ECall (OInside p)) w) rc w1 B (reached_cok Re) Ch (proj1 (reached_mtu Re On)) Bd) as H. cbn [push w_c] in H.
  rewrite Rf, Cut in H. destruct H as (p' & _ & _ & _ & Sd). destruct (send_conn Sd) as (r & e & ->). reflexivity.
Qed.
Lemma cut_len w p p' : cok (w_c w) -> mss_clamped (path_mtu (w_c w) - 40) p p' -> refusal (w_c w) p = None -> len p' < 65536.
Proof.
  intros K [-> _]. unfold refusal. destruct (negb _); [discriminate|]. destruct (len p <? 20); [discriminate|].
  destruct (Z.ltb_spec (c_mtu (w_c w) - 114) (len p)); [discriminate|]. intros _. pose proof (ok_mtu K). lia.
Qed.
Definition sends (s : world) (ops : list op) (s' : world) : Prop :=
  exists l cuts, during sent s s' l /\
    Forall (carried (e_le E) (c_vmaj (w_c s)) (c_vmin (w_c s)) (entered E s ops) cuts) l /\
    Forall (cut_ok (entered E s ops)) cuts /\ cut_ids l = map fst cuts /\
    map fst cuts = ids_from (c_frag_next (w_c s)) (length cuts) /\
    key (w_c s') = (Nat.iter (length cuts) (fun x => u16 (x + 1)) (c_frag_next (w_c s)), c_vmaj (w_c s), c_vmin (w_c s), c_in_chain (w_c s)).
Lemma entered_one s p q : refusal (w_c s) p = None -> mss_clamped (path_mtu (w_c s) - 40) p q -> entered E s [OInside p] q.
Proof. intros R M. exists [], p, [], s. auto. Qed.
Lemma sender_call o s rc s' : reached E s -> c_in_chain (w_c s) = [] -> sender_op o -> call E o s rc s' -> sends s [o] s'.
Proof.
  intros Re Ch So C.
  assert ((exists p, o = OInside p) \/ match o with OInside _ | OClientConnect _ _ _ | OServerConnect _ _ _ | OSetVersion _ _ => false | _ => true end = true)
    as [(p & ->)|Tm] by (destruct o; eauto; destruct So).
  2:{ destruct (call_body C) as (w1 & Bd & ->). destruct (@tame_body E o Tm _ _ _ Bd) as [(l & D & F) Ky]. exists l, [].
      split; [apply during_call; [destruct o; reflexivity|destruct o; reflexivity|exact D]|].
      split; [eapply Forall_impl; [|exact F]; intros m Dm H; congruence|]. split; [constructor|]. split; [|split; [reflexivity|exact Ky]].
      unfold cut_ids. replace (filter first_fragment l) with (@nil bytes); [reflexivity|]. symmetry. clear -F. induction F as [|m l Dm _ IH]; [reflexivity|].
      cbn [filter]. rewrite IH. unfold delivers in Dm. apply orb_false_iff in Dm as [_ Dm]. unfold first_fragment. now rewrite Dm. }
  pose proof (inside_call Re Ch So C) as H. destruct (inside_rest C) as (V1 & V2 & V3). pose proof (inside_uncut Re Ch So C) as Un.
  destruct (refusal (w_c s) p) as [code|] eqn:Rf.
  { destruct H as (_ & D & _ & Ec). exists [], []. split; [exact D|]. split; [constructor|]. split; [constructor|]. split; [reflexivity|]. split; [reflexivity|]. rewrite Ec. reflexivity. }
  destruct H as (p' & l & MC & IP & B' & _ & D & H). pose proof (cut_len (reached_cok Re) MC Rf) as Lp.
  destruct (must_cut (w_c s) p).
  - destruct H as (cs & Cs & W & Nx). exists (map (fun x => fst (fst x)) l), [(c_frag_next (w_c s), cs)].
    destruct Cs as (Cc & Cf & Cn).
    assert (frag_unit (w_c s) mod 8 = 0) as U8 by (unfold frag_unit; rewrite Z.mul_comm; apply Z.mod_mul; lia).
    assert (Forall (fun c : bytes => c <> []) cs) as NE by (eapply Forall_impl; [|exact Cf]; intros c Hc ->; rewrite len_nil in Hc; lia).
    assert (forall i, (S i < length cs)%nat -> len (nth i cs []) mod 8 = 0) as L8 by (intros i Hi; now rewrite (Cn i Hi)).
    assert (len (concat cs) < 65536) as Lc by now rewrite Cc.
    split; [exact D|]. split; [|split; [|split; [|split; [reflexivity|]]]].
    + destruct (writes_prefix W) as [rest Wr]. apply Forall_forall. intros m Hm _. right. exists (c_frag_next (w_c s), cs).
      assert (In m (fragments (c_frag_next (w_c s)) 0 cs)) as Hm' by (rewrite Wr; apply in_app_iff; now left).
      apply (In_nth _ _ []) in Hm' as (i & Hi & Ei). rewrite fragments_length in Hi. exists i. split; [now left|]. split; [exact Hi|]. symmetry. exact Ei.
    + constructor; [|constructor]. split; [|split; [|split; [exact NE|split; [exact L8|exact Lc]]]].
      * cbn [snd]. rewrite Cc. now apply entered_one.
      * exact (ok_frag_next (reached_cok Re)).
    + cbn [map fst]. destruct cs as [|c cs].
      { cbn [concat] in Cc. subst p'. discriminate IP. }
      cbn [fragments] in W. destruct (writes_some W) as [l' Wl]. destruct (writes_prefix W) as [rest Wr]. rewrite Wl in Wr. cbn [app] in Wr. injection Wr as Wr.
      assert (filter first_fragment l' = []) as Fl.
      { apply (@filter_prefix _ _ l' rest). rewrite <- Wr. destruct cs as [|c2 cs]; [reflexivity|]. pose proof (Forall_inv Cf) as C0. cbn beta in C0. cbn [concat] in Lc. rewrite len_app in Lc. apply no_first.
        - lia.
        - exact (L8 0%nat ltac:(cbn; lia)).
        - exact Lc.
        - now inversion NE.
        - intros i Hi. apply (L8 (S i)). exact (proj1 (Nat.succ_lt_mono _ _) Hi). }
      unfold cut_ids. rewrite Wl. cbn [filter]. match goal with |- context [fragment_message ?i 0 ?b c] => destruct (@frag_fields i 0 b c) as [Q1 Q2]; [lia|reflexivity|] end.
      rewrite Q2, Fl. cbn [Z.eqb map]. now rewrite Q1.
    + unfold key. rewrite V1, V2, V3, Nx. reflexivity.
  - exists (map (fun x => fst (fst x)) l), []. destruct (writes_some H) as [l' Wl]. destruct (writes_prefix H) as [rest Wr]. rewrite Wl in Wr. cbn [app] in Wr. injection Wr as Wr.
    symmetry in Wr. apply app_eq_nil in Wr as [-> _]. rewrite Wl in *.
    split; [exact D|]. split; [|split; [constructor|split; [reflexivity|split; [reflexivity|]]]].
    + constructor; [|constructor]. intros _. left. exists p', (padded_size (c_padding (w_c s)) (len p) - len p). split; [now apply entered_one|]. split; [exact IP|]. split; [exact B'|]. split; [exact Lp|reflexivity].
    + unfold key. rewrite V1, V2, V3, Un; reflexivity.
Qed.
Lemma entered_first s o s1 rc ops q : call E o s rc s1 -> entered E s1 ops q -> entered E s (o :: ops) q.
Proof.
  intros C (ops1 & p & ops2 & w & -> & Rn & R). exists (o :: ops1), p, ops2, w. split; [reflexivity|]. split; [|exact R].
  cbn [run]. change (hookn E 0) with hk. unfold call in C. rewrite C. exact Rn.
Qed.
Lemma entered_tail s o ops q : entered E s [o] q -> entered E s (o :: ops) q.
Proof.
  intros (ops1 & p & ops2 & w & Q & Rn & R). destruct ops1 as [|o1 ops1].
  - injection Q as -> <-. exists [], p, ops, w. auto.
  - injection Q as _ Q. now destruct ops1.
Qed.
Lemma iter_add {A} (f : A -> A) j : forall k x, Nat.iter (j + k) f x = Nat.iter j f (Nat.iter k f x).
Proof. induction j; intros; [reflexivity|]. cbn. f_equal. apply IHj. Qed.
Lemma sender_run : forall ops s s', reached E s -> c_in_chain (w_c s) = [] -> Forall sender_op ops -> run E 0 ops s = Done tt s' -> sends s ops s'.
Proof.
  induction ops as [|o ops IH]; intros s s' Re Ch F; cbn [run].
  - intros H. apply Done_inv in H as [_ <-]. exists [], []. split; [now apply during_nil|]. split; [constructor|]. split; [constructor|]. split; [reflexivity|]. split; reflexivity.
  - change (hookn E 0) with hk. destruct (api E hk o s) as [rc w1|] eqn:C; [|discriminate]. intros Rn. inversion_clear F as [|? ? Fo Fops].
    destruct (sender_call Re Ch Fo C) as (l & cuts & D & Fc & Fk & Ic & Is & Ky). unfold key in Ky. injection Ky as Kf Kv1 Kv2 Kc.
    destruct (IH w1 s' (reached_call Re C) ltac:(congruence) Fops Rn) as (l2 & cuts2 & D2 & Fc2 & Fk2 & Ic2 & Is2 & Ky2). unfold key in Ky2.
    exists (l ++ l2), (cuts ++ cuts2). split; [exact (during_trans D D2)|].
    assert (forall q, entered E s [o] q -> entered E s (o :: ops) q) as M1 by (intros q; apply entered_tail).
    assert (forall q, entered E w1 ops q -> entered E s (o :: ops) q) as M2 by (intros q; apply (entered_first C)).
    split; [apply Forall_app; split|].
    { eapply Forall_impl; [|exact Fc]. intros m. apply carried_more; [exact M1|apply incl_appl, incl_refl]. }
    { rewrite Kv1, Kv2 in Fc2. eapply Forall_impl; [|exact Fc2]. intros m. apply carried_more; [exact M2|apply incl_appr, incl_refl]. }
    split; [apply Forall_app; split; [eapply Forall_impl; [|exact Fk]|eapply Forall_impl; [|exact Fk2]]; intros c; now apply cut_more|].
    split; [unfold cut_ids in *; rewrite filter_app, !map_app, Ic, Ic2; reflexivity|].
    rewrite map_app, app_length. split.
    + rewrite ids_app, <- Is, <- Kf. f_equal. exact Is2.
    + unfold key. rewrite Ky2, Kf, Kv1, Kv2, Kc. do 3 f_equal. rewrite <- iter_add. f_equal. lia.
Qed.
End SC.
