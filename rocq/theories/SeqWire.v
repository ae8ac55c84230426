(** What a call writes to the wire: proofs for C07 and C08. *)
From Verif Require Import Base Codes Ctx Config Mss MssSpec MssProofs Frag FragSpec
  Wire WireSpec WireProofs ConnState Conn ConnSpec CallSpec MsgSpec ConnSteps ConnWpApi Frame FrameLoop Reaction Seq SeqInside SeqLoop SeqApi.
Unset Strict Implicit.

Definition wparams (c : conn) :=
  (c_vmaj c, c_vmin c, c_aggr c, c_no_roam c, c_pending c, c_wolf_ctx c, c_io c, c_out_chain c, (c_cbs c, c_is_server c)).

Section W.
Variable E : env.
Notation hk := (@ret unit tt).
Variable c0 : conn.
Variable X : list (Z * wire_item).
Hypothesis H0 : c_out_chain c0 = [].
Hypothesis H1 : 0 <= c_vmaj c0 < 256.
Hypothesis H2 : 0 <= c_vmin c0 < 256.
(** The sessions the connection may have so far. *)
Variable A : trace -> Z -> Prop.
Hypothesis A_mono : forall x t s, A t s -> A (x :: t) s.
Notation okw := (fun t x => exists s, A t s /\ writing_ok (e_le E) c0 s (c_pending c0) x).
Definition I2 (w : world) : Prop := exists ws, collect wire (w_t w) = X ++ flat_map writing_items ws /\ Forall (okw (w_t w)) ws.
Definition IW (w : world) : Prop := wparams (w_c w) = wparams c0 /\ A (w_t w) (c_session (w_c w)) /\ I2 w.
Lemma A_ext seg t s : A t s -> A (seg ++ t) s.
Proof. intros H. induction seg; [exact H|]. now apply A_mono. Qed.
Lemma okw_mono x t ws : Forall (okw t) ws -> Forall (okw (x :: t)) ws.
Proof. apply Forall_impl. intros y (s & H & W). exists s. auto. Qed.

Lemma I2_push e w : (forall s, wire s e = []) -> I2 w -> I2 (push e w).
Proof. intros H (ws & Hc & Ho). exists ws. split; [|now apply okw_mono]. cbn [push w_t collect]. now rewrite H, app_nil_r. Qed.
Lemma IW_push e w : (forall s, wire s e = []) -> IW w -> IW (push e w).
Proof. intros H (P & Q & R). split; [exact P|]. split; [now apply A_mono|now apply I2_push]. Qed.
Lemma IW_conn f w : (forall c, wparams (f c) = wparams c) -> (forall c, c_session (f c) = c_session c) -> IW w -> IW (with_c f w).
Proof. intros H H' (P & Q & R). split; [cbn [with_c w_c]; now rewrite H|]. split; [cbn [with_c w_c w_t]; now rewrite H'|exact R]. Qed.
Lemma io_event_wire e : io_event e = false -> forall s, wire s e = [].
Proof. intros H s. destruct e; try reflexivity; try discriminate H. cbn in *. destruct k; try reflexivity. discriminate H. Qed.

(** One writing. *)
Lemma call_outside_wire p w : cb_outside (c_cbs (w_c w)) = true ->
  exists v, call_outside E hk p w = Done v (push (ECbRet KOutside v) (push (EOutside p) w)).
Proof. intros H. unfold call_outside, callback, bind, get, emit, log, ret. rewrite H. eexists. reflexivity. Qed.
Lemma write_wire buf w : wparams (w_c w) = wparams c0 ->
  match io_write E hk buf w with
  | Done r w' => w_c w' = w_c w /\ exists items, writing_ok (e_le E) c0 (c_session (w_c w)) (c_pending c0) (c_state (w_c w), items, buf, r) /\
      collect wire (w_t w') = collect wire (w_t w) ++ writing_items (c_state (w_c w), items, buf, r)
  | Stuck _ _ => True
  end.
Proof.
  intros P. assert (c_vmaj (w_c w) = c_vmaj c0 /\ c_vmin (w_c w) = c_vmin c0 /\ c_aggr (w_c w) = c_aggr c0 /\ c_no_roam (w_c w) = c_no_roam c0 /\
    c_pending (w_c w) = c_pending c0 /\ c_wolf_ctx (w_c w) = c_wolf_ctx c0 /\ c_io (w_c w) = c_io c0 /\
    c_out_chain (w_c w) = c_out_chain c0 /\ c_cbs (w_c w) = c_cbs c0) as (P1 & P2 & P3 & P4 & P6 & P7 & P8 & P9 & P10)
    by (unfold wparams in P; repeat split; congruence).
  pose proof (len_nonneg buf) as Lb. unfold io_write. unfold bind at 1, get at 1. rewrite P8. unfold writing_ok. unfold bind at 1.
  assert (forall w1 r items, w_c w1 = w_c w -> collect wire (w_t w1) = collect wire (w_t w) ++ map (fun i => (c_state (w_c w), i)) items ->
    forall Q : Z -> list wire_item -> Prop, Q r items ->
    match (emit (EWOut buf r) ;;; ret r) w1 with
    | Done r w' => w_c w' = w_c w /\ exists items, Q r items /\
        collect wire (w_t w') = collect wire (w_t w) ++ writing_items (c_state (w_c w), items, buf, r)
    | Stuck _ _ => True
    end) as Fin.
  { intros w1 r items C1 T1 Q HQ. unfold bind, emit, ret. cbn [w_c]. split; [exact C1|]. exists items. split; [exact HQ|].
    cbn [w_t collect writing_items]. rewrite C1, T1. cbn [wire]. now rewrite app_assoc. }
  pose (one := fun p (v : Z) => [Packet p; Result v]).
  destruct (c_io c0 =? HE_CONNECTION_TYPE_STREAM).
  - unfold tls_write. unfold bind at 1, get at 1. rewrite P7. destruct (c_wolf_ctx c0); cbn [negb].
    2:{ unfold ret at 1. apply (Fin w WOLFSSL_CBIO_ERR_GENERAL []); auto. cbn. now rewrite app_nil_r. }
    set (n := if len buf <? HE_MAX_WIRE_MTU then len buf else HE_MAX_WIRE_MTU).
    assert (0 <= n <= len buf) as Hn by (unfold n, HE_MAX_WIRE_MTU; destruct (Z.ltb_spec (len buf) 1500); lia).
    rewrite ldn_ok by lia. unfold bind at 1, lift at 1, ret at 1. rewrite P9, H0. cbn [plugin_egress]. unfold bind at 1, ret at 1.
    assert (slice buf 0 n = firstn (Z.to_nat 1500) buf) as ->.
    { unfold slice, n, HE_MAX_WIRE_MTU. change (Z.to_nat 0) with 0%nat. cbn [skipn]. destruct (Z.ltb_spec (len buf) 1500); [|reflexivity].
      unfold len. rewrite Nat2Z.id, firstn_all. symmetry. apply firstn_all2. unfold len in *. lia. }
    set (p := firstn (Z.to_nat 1500) buf).
    assert (len p = n) as Lp.
    { unfold p, n, len, HE_MAX_WIRE_MTU. rewrite firstn_length. unfold len in Lb. destruct (Z.ltb_spec (Z.of_nat (length buf)) 1500); lia. }
    change (HE_SUCCESS =? HE_ERR_PLUGIN_DROP) with false. change (negb (HE_SUCCESS =? HE_SUCCESS)) with false. cbn [orb].
    destruct (Z.ltb_spec HE_MAX_WIRE_MTU (len p)) as [Y|_].
    { exfalso. unfold n, HE_MAX_WIRE_MTU in *. destruct (Z.ltb_spec (len buf) 1500); lia. }
    unfold bind at 1, get at 1. rewrite P10. destruct (cb_outside (c_cbs c0)) eqn:Cb.
    + unfold bind at 1. destruct (@call_outside_wire p w) as [v ->]; [now rewrite P10|].
      assert (collect wire (w_t (push (ECbRet KOutside v) (push (EOutside p) w))) = collect wire (w_t w) ++ map (fun i => (c_state (w_c w), i)) (flat_map (one p) [v])) as T1.
      { cbn [push w_t w_c collect wire flat_map app map one]. now rewrite <- app_assoc. }
      destruct (Z.eqb_spec v HE_SUCCESS) as [Vs|Vs]; cbn [negb]; unfold ret at 1.
      * eapply Fin; [reflexivity|exact T1|]. exists [v], true. subst v. cbn [attempts]. change (HE_SUCCESS =? HE_SUCCESS) with true. cbv iota. auto.
      * eapply Fin; [reflexivity|exact T1|]. exists [v], false. cbn [attempts]. apply Z.eqb_neq in Vs. rewrite Vs. auto.
    + unfold ret at 1. apply (Fin w n []); auto. cbn. now rewrite app_nil_r.
  - unfold dtls_write. unfold bind at 1, get at 1. rewrite P7. destruct (c_wolf_ctx c0); cbn [negb].
    2:{ unfold ret at 1. apply (Fin w WOLFSSL_CBIO_ERR_GENERAL []); auto. cbn. now rewrite app_nil_r. }
    change sizeof_wire_hdr with 16. change HE_MAX_WIRE_MTU with 1500.
    destruct (Z.ltb_spec 1500 (len buf + 16)) as [Y|Y]; destruct (Z.ltb_spec 1484 (len buf)) as [Y'|Y']; try lia.
    { unfold ret at 1. apply (Fin w WOLFSSL_CBIO_ERR_GENERAL []); auto. cbn. now rewrite app_nil_r. }
    rewrite P1, P2, P3, P4, P6. rewrite write_packet_header_ok by (auto; lia). unfold bind at 1, lift at 1, ret at 1.
    fold (session_shown (c_no_roam c0) (c_session (w_c w)) (c_pending c0)).
    set (h := wire_header _ _ _ _ _).
    assert (len h = 16) as Lh by (unfold h, wire_header; rewrite len_app, len_bytes64; reflexivity).
    rewrite stn_tail by (auto; lia). unfold bind at 1, lift at 1, ret at 1.
    rewrite ldn_ok by (rewrite ?len_app, ?len_zeros; lia). unfold bind at 1, lift at 1, ret at 1.
    assert (slice ((h ++ buf) ++ zeros (1500 - 16 - len buf)) 0 (len buf + 16) = h ++ buf) as Sl.
    { unfold slice. change (Z.to_nat 0) with 0%nat. cbn [skipn]. replace (Z.to_nat (len buf + 16)) with (length (h ++ buf)).
      - apply firstn_app_exact.
      - rewrite app_length. unfold len in *. lia. }
    rewrite <- ?app_assoc in *. rewrite Sl. set (p := h ++ buf). rewrite P9, H0. cbn [plugin_egress]. unfold bind at 1, ret at 1.
    assert (len p = len buf + 16) as Lp by (unfold p; rewrite len_app; lia).
    change (HE_SUCCESS =? HE_ERR_PLUGIN_DROP) with false. change (negb (HE_SUCCESS =? HE_SUCCESS)) with false. cbn [orb].
    destruct (Z.ltb_spec 1500 (len p)) as [Z1|_]; [lia|].
    unfold bind at 1, get at 1. rewrite P10. destruct (cb_outside (c_cbs c0)) eqn:Cb.
    2:{ unfold ret at 1. apply (Fin w (len buf) []); auto. cbn. now rewrite app_nil_r. }
    assert (forall l w1, collect wire (w_t w1) = collect wire (w_t w) ++ map (fun i => (c_state (w_c w), i)) (flat_map (one p) l) -> w_c w1 = w_c w ->
      forall v, collect wire (w_t (push (ECbRet KOutside v) (push (EOutside p) w1))) = collect wire (w_t w) ++ map (fun i => (c_state (w_c w), i)) (flat_map (one p) (l ++ [v]))) as Tn.
    { intros l w1 T C v. cbn [push w_t w_c collect wire]. rewrite T, C. rewrite flat_map_app, map_app. cbn [flat_map app map one]. now rewrite <- !app_assoc. }
    unfold bind at 1. destruct (@call_outside_wire p w) as [v ->]; [now rewrite P10|]. set (w1 := push (ECbRet KOutside v) _).
    assert (collect wire (w_t w1) = collect wire (w_t w) ++ map (fun i => (c_state (w_c w), i)) (flat_map (one p) [v])) as T1.
    { apply (Tn []); [cbn; now rewrite app_nil_r|reflexivity]. }
    assert (w_c w1 = w_c w) as C1 by reflexivity. clearbody w1.
    destruct (Z.eqb_spec v HE_SUCCESS) as [Vs|Vs]; cbn [negb].
    2:{ unfold ret at 1. eapply Fin; [exact C1|exact T1|]. apply Z.eqb_neq in Vs. exists [v], false. destruct ((_ =? _) && _); cbn [attempts]; rewrite Vs; auto. }
    unfold bind at 1, get at 1. unfold bind at 1, get at 1. rewrite C1, P3.
    destruct ((c_state (w_c w) =? HE_STATE_ONLINE)) eqn:On; destruct (c_aggr c0) eqn:Ag; cbn [negb orb andb].
    2:{ unfold ret at 1. eapply Fin; [exact C1|exact T1|]. exists [v], true. subst v. cbn [attempts]. change (HE_SUCCESS =? HE_SUCCESS) with true. cbv iota. auto. }
    all: unfold bind at 1; destruct (@call_outside_wire p w1) as [v2 ->]; [now rewrite C1, P10|]; set (w2 := push (ECbRet KOutside v2) _);
      assert (collect wire (w_t w2) = collect wire (w_t w) ++ map (fun i => (c_state (w_c w), i)) (flat_map (one p) [v; v2])) as T2 by exact (Tn [v] w1 T1 C1 v2);
      assert (w_c w2 = w_c w) as C2 by exact C1; clearbody w2;
      (destruct (Z.eqb_spec v2 HE_SUCCESS) as [Vs2|Vs2]; cbn [negb];
       [|unfold ret at 1; eapply Fin; [exact C2|exact T2|]; apply Z.eqb_neq in Vs2; exists [v; v2], false; subst v; cbn [attempts]; rewrite Vs2; change (HE_SUCCESS =? HE_SUCCESS) with true; cbv iota; auto]);
      unfold bind at 1; destruct (@call_outside_wire p w2) as [v3 ->]; [now rewrite C2, P10|]; set (w3 := push (ECbRet KOutside v3) _);
      assert (collect wire (w_t w3) = collect wire (w_t w) ++ map (fun i => (c_state (w_c w), i)) (flat_map (one p) [v; v2; v3])) as T3 by exact (Tn [v; v2] w2 T2 C2 v3);
      assert (w_c w3 = w_c w) as C3 by exact C2; clearbody w3;
      (destruct (Z.eqb_spec v3 HE_SUCCESS) as [Vs3|Vs3]; cbn [negb]; unfold ret at 1; (eapply Fin; [exact C3|exact T3|]);
       [exists [v; v2; v3], true; subst v v2 v3; cbn [attempts]; change (HE_SUCCESS =? HE_SUCCESS) with true; cbv iota; auto
       |apply Z.eqb_neq in Vs3; exists [v; v2; v3], false; subst v v2; cbn [attempts]; rewrite Vs3; change (HE_SUCCESS =? HE_SUCCESS) with true; cbv iota; auto]).
Qed.

Notation T := (fun _ : world => True).
Lemma write_log b w v : (exists seg, w_t v = seg ++ w_t w) -> match io_write E hk b v with Done _ v' => exists seg, w_t v' = seg ++ w_t w | Stuck _ _ => True end.
Proof.
  revert v. apply (@keeps_io_write E hk (fun v => exists seg, w_t v = seg ++ w_t w) T); intros; auto; try apply keeps_ret;
    destruct H as [seg H]; eexists (_ :: seg); cbn [push w_t]; rewrite H; reflexivity.
Qed.
Lemma IW_write b : keeps IW T (io_write E hk b).
Proof.
  intros w (P & Sa & ws & Hc & Ho). pose proof (@write_wire b w P) as Q. pose proof (@write_log b w w) as L. destruct (io_write E hk b w) as [r w'|]; [|exact I].
  destruct Q as (Cc & items & Ok & Cl). destruct L as [seg L]; [exists []; reflexivity|]. split; [now rewrite Cc|].
  assert (forall s, A (w_t w) s -> A (w_t w') s) as Am.
  { intros s Hs. rewrite L. clear L. induction seg as [|x seg IH]; [exact Hs|]. apply A_mono. exact IH. }
  split; [rewrite Cc; auto|]. exists (ws ++ [(c_state (w_c w), items, b, r)]).
  split; [|apply Forall_app; split; [|constructor; [eauto|constructor]]].
  2:{ eapply Forall_impl; [|exact Ho]. intros y (s & H & W). eauto. }
  rewrite Cl, Hc, flat_map_app, <- app_assoc. cbn [flat_map]. now rewrite app_nil_r.
Qed.
Ltac kpush := apply IW_push; [intros; reflexivity|assumption].
Ltac kconn := apply IW_conn; [reflexivity|reflexivity|assumption].
Lemma IW_read sz : keeps IW T (io_read sz).
Proof. apply keeps_io_read; auto; intros; first [kpush|kconn]. Qed.
Lemma IW_event e w : io_event e = false -> IW w -> IW (push e w).
Proof. intros H. apply IW_push. now apply io_event_wire. Qed.
Ltac ks := intros; first [exact I|apply keeps_ret|apply IW_read|apply IW_write|now apply IW_event|kpush|kconn|idtac].
(** Calls whose buffers all go out with the same parameters. *)
Definition plain_op (o : op) : bool :=
  match o with
  | OClientConnect _ _ _ | OServerConnect _ _ _ | ODisconnect | OOutside _ | ORotate | OSetSession _ | OSetVersion _ _ => false
  | _ => true
  end.
Lemma IW_plain o : plain_op o = true -> keeps IW T (api_body E hk o).
Proof.
  destruct o; intros Pl; try discriminate Pl; cbn [api_body].
  - apply keeps_inside; ks.
  - apply keeps_nudge; ks.
  - apply keeps_keepalive; ks.
  - apply keeps_send_server_config; ks.
  - apply keeps_bind; [apply keeps_upd; ks|intros _; apply keeps_ret].
  - apply keeps_start_pmtu; ks.
  - apply keeps_pm_timeout; ks.
  - apply keeps_set_username; ks.
  - apply keeps_set_password; ks.
  - apply keeps_set_token; ks.
  - apply keeps_set_auth_buffer; ks.
  - apply keeps_set_mtu; ks.
  - apply keeps_set_sni; ks.
Qed.
(** Then the parameters change, but nothing is written any more. *)
Ltac k2push := apply I2_push; [intros; reflexivity|assumption].
Lemma I2_event e w : io_event e = false -> I2 w -> I2 (push e w).
Proof. intros H. apply I2_push. now apply io_event_wire. Qed.
Ltac k2 := intros; first [exact I|apply keeps_ret|now apply I2_event|k2push|assumption|idtac].
Definition into {A} (m : M A) : Prop := forall w, IW w -> match m w with Done _ w' => I2 w' | Stuck _ _ => True end.
Lemma into_bind R S (m : M R) (k : R -> M S) : keeps IW T m -> (forall a, into (k a)) -> into (bind m k).
Proof. intros K1 K2 w H. unfold bind. specialize (K1 w H). destruct (m w) as [a w'|]; [now apply K2|exact I]. Qed.
Lemma into_keeps R (m : M R) : keeps IW T m -> into m.
Proof. intros K w H. specialize (K w H). destruct (m w); [exact (proj2 (proj2 K))|exact I]. Qed.
Lemma into_keeps2 R (m : M R) : keeps I2 T m -> into m.
Proof. intros K w H. apply K. exact (proj2 (proj2 H)). Qed.
Lemma I2_state s : s <> HE_STATE_LINK_UP -> keeps I2 T (change_conn_state E hk s).
Proof.
  intros N. apply Z.eqb_neq in N. unfold change_conn_state. rewrite N. apply keeps_bind.
  - unfold set_conn_state. apply keeps_bind; [apply keeps_get|]. intros st. case_if; [apply keeps_ret|].
    apply keeps_bind; [apply keeps_upd; k2|]. intros _. apply keeps_bind; [apply keeps_get|]. intros k. apply keeps_bind; [|intros; apply keeps_ret].
    apply keeps_when. unfold notify. apply keeps_bind; [apply keeps_emit; intros; k2push|]. intros _. apply keeps_ret.
  - intros b. rewrite andb_false_r. apply keeps_ret.
Qed.
Lemma into_disconnect : into (disconnect E hk).
Proof.
  unfold disconnect. apply into_bind; [apply keeps_get|]. intros c. repeat (case_if; [apply into_keeps, keeps_ret|]).
  apply into_bind; [apply keeps_change_conn_state; ks|]. intros _. apply into_bind; [apply keeps_send_goodbye; ks|]. intros _.
  apply into_bind; [apply keeps_wolf_op'; ks|]. intros _. apply into_keeps2. apply keeps_bind; [apply keeps_upd; k2|]. intros _.
  apply keeps_bind; [apply I2_state; discriminate|]. intros _. apply keeps_ret.
Qed.
(** The receive path: a client may learn its session from a message. *)
Hypothesis A_told : forall s s0 r err d t, A t s0 -> 0 < r -> s = HE_STATE_AUTHENTICATING -> c_is_server c0 = false -> msg_type d = HE_MSGID_CONFIG_IPV4 ->
  105 <= len d -> bytes_ok d -> A ((s, EWEnd WRecv r err d) :: t) (host64 (e_le E) (slice d 97 8)).
Lemma IW_config_rest local peer dns mtu : keeps IW T (
    change_conn_state E hk HE_STATE_CONFIGURING ;;;
    let! k := get c_cbs in
    let! rc := (if cb_netcfg k then callback E hk (ENetCfg local peer dns mtu) KNetCfg else ret HE_SUCCESS) in
    if negb (rc =? HE_SUCCESS) then ret HE_ERR_CALLBACK_FAILED else
    change_conn_state E hk HE_STATE_ONLINE ;;;
    ret HE_SUCCESS).
Proof.
  apply keeps_bind; [apply keeps_change_conn_state; ks|]. intros _. apply keeps_bind; [apply keeps_get|]. intros k. apply keeps_bind.
  { case_if; [|apply keeps_ret]. apply keeps_callback_both; ks. }
  intros rc. case_if; [apply keeps_ret|]. apply keeps_bind; [apply keeps_change_conn_state; ks|intros _; apply keeps_ret].
Qed.
Lemma IW_process m w : 0 < len m -> bytes_ok m -> IW w ->
  (exists r err t s0, A t s0 /\ 0 < r /\ w_t w = (c_state (w_c w), EWEnd WRecv r err m) :: t) ->
  match process_message E hk m w with Done _ w' => IW w' | Stuck _ _ => True end.
Proof.
  intros Hl Bm Hw (r & err & t & s0 & Ha & Hr & Ht). unfold process_message. destruct (Z.ltb_spec (len m) sizeof_msg_hdr) as [Y|_]; [unfold sizeof_msg_hdr in Y; lia|].
  rewrite ld8_ok by lia. change (nth (Z.to_nat 0) m 0) with (msg_type m). unfold bind at 1, lift at 1, ret at 1. unfold bind at 1, get at 1.
  destruct (Z.eqb_spec (msg_type m) HE_MSGID_CONFIG_IPV4) as [Ty|Ty].
  - rewrite Ty. cbn [Z.eqb Pos.eqb HE_MSGID_NOOP HE_MSGID_PING HE_MSGID_PONG HE_MSGID_AUTH HE_MSGID_DATA HE_MSGID_CONFIG_IPV4].
    destruct (c_is_server (w_c w)) eqn:Sv; cbn [negb]; [exact Hw|]. unfold handle_config_ipv4. unfold bind at 1, get at 1.
    destruct (c_state (w_c w) =? HE_STATE_ONLINE); [exact Hw|]. rewrite Sv. cbn [orb].
    destruct (Z.eqb_spec (c_state (w_c w)) HE_STATE_AUTHENTICATING) as [St|]; cbn [negb]; [|exact Hw].
    destruct (Z.ltb_spec (len m) sizeof_config_ipv4) as [Y|L5]; [exact Hw|]. change sizeof_config_ipv4 with 105 in L5.
    do 5 (unfold bind at 1; match goal with |- match (match lift ?x w with _ => _ end) with _ => _ end => destruct x; unfold lift at 1; [unfold ret at 1|exact I] end).
    unfold bind at 1. unfold ldh64. rewrite ldn_ok by lia. cbn [rbind]. unfold lift at 1, ret at 1. unfold bind at 1, upd at 1.
    match goal with |- match ?mm ?v with _ => _ end => apply (@IW_config_rest a a0 a1 a3 v) end.
    destruct Hw as (P & Q & ws & Hc & Ho). cbn [w_c w_t]. split; [exact P|]. split; [|exists ws; auto].
    cbn [w_c set_session w_t]. rewrite Ht. eapply A_told; eauto. unfold wparams in P. congruence.
  -
    match goal with |- match ?mm w with _ => _ end => assert (keeps IW T mm) as Kp; [|exact (Kp w Hw)] end.
    repeat case_if; try apply keeps_ret.
    + apply keeps_handle_ping; ks.
    + apply keeps_handle_pong; ks.
    + apply keeps_handle_auth; ks.
    + apply keeps_handle_data; ks.
    + apply keeps_handle_13; ks.
    + apply keeps_handle_server_config; ks.
    + apply keeps_handle_frag; ks.
Qed.
Lemma IW_verify : keeps IW T (verify_connection E hk).
Proof.
  apply verify_kept.
  - intros w r err d w' Hw R. assert (IW w') as Hw'.
    { assert (keeps IW T (wolf_op E hk WRecv)) as K by (apply keeps_wolf_op'; ks). specialize (K w Hw). now rewrite R in K. }
    destruct (Z.leb_spec r 0) as [|Hr]; [exact Hw'|]. pose proof (recv_data R) as [Bd Ld]. apply IW_process; auto.
    pose proof (wolf_op_seq R) as (rx & seg & -> & _). exists r, err. eexists. exists (c_session (w_c w)). split; [|split; [exact Hr|reflexivity]].
    destruct Hw as (_ & Ha & _). clear - Ha A_mono. apply A_ext. now apply A_mono.
  - intros v. apply keeps_upd; ks.
  - apply keeps_upd; ks.
  - apply keeps_generate_other; ks; reflexivity.
  - apply keeps_wolf_op'; ks.
  - apply keeps_change_conn_state; ks.
  - apply keeps_update_timeout; ks.
  - apply keeps_renegotiate; ks.
  - apply keeps_check; ks.
Qed.
Lemma into_outside b : into (outside_data_received E hk b).
Proof.
  unfold outside_data_received. apply into_bind; [apply keeps_get|]. intros c. case_if; [apply into_keeps, keeps_ret|].
  apply into_bind; [apply keeps_plugin_ingress; ks|]. intros [res data]. repeat (case_if; [apply into_keeps, keeps_ret|]).
  apply into_bind; [apply keeps_get|]. intros ct. case_if; [|case_if; [|apply into_keeps, keeps_ret]].
  - unfold outside_packet_received. case_if; [apply into_keeps, keeps_ret|].
    repeat (apply into_bind; [first [apply keeps_lift; auto; fail|apply keeps_get; fail]|intro]; try (case_if; [apply into_keeps, keeps_ret|])).
    apply into_bind; [apply keeps_upd; ks|]. intros _.
    apply into_bind; [apply IW_verify|]. intros rc.
    apply into_bind; [apply keeps_upd; ks|]. intros _. case_if; [apply into_keeps, keeps_ret|]. apply into_keeps2. apply keeps_session_in; k2.
  - unfold outside_stream_received. apply into_bind; [apply keeps_get|]. intros r. case_if.
    { apply into_keeps. apply keeps_bind; [apply keeps_upd; ks|]. intros _. apply keeps_ret. }
    apply into_bind; [apply keeps_upd; ks|]. intros _. apply into_bind; [apply IW_verify|]. intros rc.
    apply into_bind; [apply keeps_upd; ks|]. intros _. apply into_keeps, keeps_ret.
Qed.
Lemma into_op o : is_connect_op o = false -> into (api_body E hk o).
Proof.
  intros N. destruct (plain_op o) eqn:Pl; [now apply into_keeps, IW_plain|]. destruct o; try discriminate Pl; try discriminate N; cbn [api_body].
  - apply into_disconnect.
  - apply into_outside.
  - apply into_keeps2. apply keeps_rotate; k2.
  - apply into_keeps2. apply keeps_set_session; k2.
  - apply into_keeps2. apply keeps_bind; [apply keeps_upd; k2|intros _; apply keeps_ret].
Qed.
(** The second half of a connect call. *)
Definition connect_rest (x : ctx) : M Z :=
  let! res := wolf_settings2 E x in
  if negb (res =? HE_SUCCESS) then ret res else
  change_conn_state E hk HE_STATE_CONNECTING ;;;
  let! (r, err, _) := wolf_op E hk WNegotiate in
  if negb (r =? SSL_SUCCESS) then
    if (err =? SSL_ERROR_WANT_READ) || (err =? SSL_ERROR_WANT_WRITE) then
      change_conn_state E hk HE_STATE_CONNECTING ;;;
      update_timeout E hk ;;;
      ret HE_SUCCESS
    else ret HE_ERR_CONNECT_FAILED
  else
    change_conn_state E hk HE_STATE_LINK_UP ;;;
    update_timeout E hk ;;;
    ret HE_SUCCESS.
Lemma IW_rest x : keeps IW T (connect_rest x).
Proof.
  unfold connect_rest. apply keeps_bind; [apply keeps_settings2; ks|]. intros res. case_if; [apply keeps_ret|].
  apply keeps_bind; [apply keeps_change_conn_state; ks|]. intros _. apply keeps_bind; [apply keeps_wolf_op'; ks|]. intros [[r err] d].
  repeat case_if; try apply keeps_ret; (apply keeps_bind; [apply keeps_change_conn_state; ks|intros _]); (apply keeps_bind; [apply keeps_update_timeout; ks|intros _]); apply keeps_ret.
Qed.
End W.

(** The first half writes nothing. *)
Section C.
Variable E : env.
Notation hk := (@ret unit tt).
Notation T := (fun _ : world => True).
Variable ss : Z * Z.
Variable X : list (Z * wire_item).
Definition IN (w : world) : Prop := (c_session (w_c w), c_pending (w_c w)) = ss /\ collect wire (w_t w) = X.
Lemma IN_push e w : (forall s, wire s e = []) -> IN w -> IN (push e w).
Proof. intros H [P Q]. split; [exact P|]. cbn [push w_t collect]. now rewrite H, app_nil_r. Qed.
Lemma IN_conn f w : (forall c, (c_session (f c), c_pending (f c)) = (c_session c, c_pending c)) -> IN w -> IN (with_c f w).
Proof. intros H [P Q]. split; [cbn [with_c w_c]; now rewrite H|exact Q]. Qed.
Ltac kn := intros; first [exact I|apply keeps_ret|apply IN_push; [now apply io_event_wire|assumption]|apply IN_conn; [intros c; unfold configure_fields; try case_if; reflexivity|assumption]|idtac].
Definition outcome_ok (x : ctx) (w' : world) : Prop :=
  (c_session (w_c w'), c_pending (w_c w')) = ss /\
  (c_out_chain (w_c w') = [] -> 0 <= c_vmaj (w_c w') < 256 -> 0 <= c_vmin (w_c w') < 256 ->
   exists ws, collect wire (w_t w') = X ++ flat_map writing_items ws /\ Forall (writing_ok (e_le E) (w_c w') (fst ss) (snd ss)) ws).
Lemma IN_ok x w : IN w -> outcome_ok x w.
Proof. intros [P Q]. split; [exact P|]. intros _ _ _. exists []. cbn. rewrite app_nil_r. auto. Qed.
Definition ends x {A} (m : M A) : Prop := forall w, IN w -> match m w with Done _ w' => outcome_ok x w' | Stuck _ _ => True end.
Lemma ends_bind x A B (m : M A) (k : A -> M B) : keeps IN T m -> (forall a, ends x (k a)) -> ends x (bind m k).
Proof. intros K1 K2 w H. unfold bind. specialize (K1 w H). destruct (m w) as [a w'|]; [now apply K2|exact I]. Qed.
Lemma ends_ret x A (a : A) : ends x (ret a).
Proof. intros w H. now apply IN_ok. Qed.
Lemma writing_ok_ext le c c' a b y : wparams c = wparams c' -> writing_ok le c a b y -> writing_ok le c' a b y.
Proof.
  intros P. unfold wparams in P. assert (c_vmaj c = c_vmaj c' /\ c_vmin c = c_vmin c' /\ c_aggr c = c_aggr c' /\ c_no_roam c = c_no_roam c' /\
    c_wolf_ctx c = c_wolf_ctx c' /\ c_io c = c_io c' /\ c_cbs c = c_cbs c') as (P1 & P2 & P3 & P4 & P5 & P6 & P7) by (repeat split; congruence).
  destruct y as [[[s items] buf] r]. unfold writing_ok. rewrite P1, P2, P3, P4, P5, P6, P7. auto.
Qed.
Lemma ends_rest x : ends x (connect_rest E x).
Proof.
  intros w [P Q]. pose proof (fun a b c => @IW_rest E (w_c w) X a b c (fun _ s => s = c_session (w_c w)) (fun _ _ _ H => H) x w) as K.
  assert (forall w', (wparams (w_c w'), c_session (w_c w')) = (wparams (w_c w), c_session (w_c w)) -> (c_session (w_c w'), c_pending (w_c w')) = ss) as Hs.
  { intros w' H. rewrite <- P. unfold wparams in H. congruence. }
  pose (IP := fun v : world => (wparams (w_c v), c_session (w_c v)) = (wparams (w_c w), c_session (w_c w))).
  assert (keeps IP T (connect_rest E x)) as KP.
  { assert (forall e v, IP v -> IP (push e v)) as Pp by auto.
    assert (forall sz, keeps IP T (io_read sz)) as Pr by (intros; apply keeps_io_read; auto).
    assert (forall b, keeps IP T (io_write E hk b)) as Pw by (intros; apply keeps_io_write; intros; auto; apply keeps_ret).
    assert (forall s, keeps IP T (change_conn_state E hk s)) as Pc by (intros; apply keeps_change_conn_state; intros; auto; apply keeps_ret).
    assert (keeps IP T (update_timeout E hk)) as Pu by (intros; apply keeps_update_timeout; intros; auto; apply keeps_ret).
    unfold connect_rest. apply keeps_bind; [apply keeps_settings2; auto|]. intros res. case_if; [apply keeps_ret|].
    apply keeps_bind; [apply Pc|]. intros _. apply keeps_bind; [apply keeps_wolf_op'; intros; auto; apply keeps_ret|]. intros [[r err] d].
    repeat case_if; try apply keeps_ret; (apply keeps_bind; [apply Pc|intros _]); (apply keeps_bind; [apply Pu|intros _]); apply keeps_ret. }
  specialize (KP w eq_refl). destruct (connect_rest E x w) as [rc w'|]; [|exact I]. unfold IP in KP.
  split; [now apply Hs|]. intros A B C.
  assert (c_out_chain (w_c w) = [] /\ c_vmaj (w_c w) = c_vmaj (w_c w') /\ c_vmin (w_c w) = c_vmin (w_c w')) as (A' & B' & C') by (unfold wparams in KP; repeat split; congruence).
  destruct K as (_ & _ & ws & Hc & Ho); rewrite ?B', ?C'; auto.
  { split; [reflexivity|]. split; [reflexivity|]. exists []. cbn. rewrite app_nil_r. auto. }
  exists ws. split; [exact Hc|]. eapply Forall_impl; [|exact Ho]. intros y (s & -> & Hy). rewrite <- P. cbn [fst snd].
  eapply writing_ok_ext; [|exact Hy]. unfold wparams in *. congruence.
Qed.
Lemma ends_connect x i p : ends x (internal_connect E hk x i p).
Proof.
  unfold internal_connect. apply ends_bind; [apply keeps_configure; kn|]. intros res. case_if; [apply ends_ret|].
  apply ends_bind; [apply keeps_ask; [kn|reflexivity]|]. intros v. apply ends_bind; [apply keeps_upd; kn|]. intros _. case_if; [apply ends_ret|].
  apply ends_bind; [apply keeps_settings; kn|]. intros res2. case_if; [apply ends_ret|].
  apply ends_bind; [apply keeps_upd; kn|]. intros _. apply ends_rest.
Qed.
End C.

(** A call only adds to the log. *)
Lemma call_log E o w rc w' : call E o w rc w' -> exists seg, w_t w' = seg ++ w_t w.
Proof.
  intros C. destruct (call_body C) as (w1 & Bd & ->).
  pose proof (@keeps_lib_body (fun v => exists seg, w_t v = seg ++ w_t w) E o) as K. specialize (fun a b => K a b (push (ECall o) w)). rewrite Bd in K.
  destruct K as [seg K].
  - intros e v _ [seg H]. exists ((c_state (w_c v), e) :: seg). cbn [push w_t]. now rewrite H.
  - auto.
  - eexists [_]. reflexivity.
  - eexists (_ :: seg). cbn [push w_t]. now rewrite K.
Qed.
Lemma during_log A (f : Z -> ev -> list A) E o w rc w' : call E o w rc w' -> exists l, during f w w' l.
Proof. intros C. destruct (call_log C) as [seg H]. exists (collect f seg). unfold during. now rewrite H, collect_app. Qed.
Lemma le_bytes_val l : bytes_ok l -> le_bytes (length l) (le_val l) = l.
Proof.
  induction 1 as [|x l Hx Hl IH]; [reflexivity|]. cbn [length le_bytes le_val]. unfold byte_ok in Hx. f_equal.
  - Z.div_mod_to_equations. lia.
  - replace ((x + 256 * le_val l) / 256) with (le_val l) by (Z.div_mod_to_equations; lia). exact IH.
Qed.
Lemma bytes64_host64 le l : bytes_ok l -> len l = 8 -> bytes64 le (host64 le l) = l.
Proof.
  intros B L. assert (length l = 8%nat) as L8 by (unfold len in L; lia). unfold bytes64, host64. destruct le.
  - rewrite <- L8 at 1. now apply le_bytes_val.
  - rewrite <- (rev_involutive l) at 2. f_equal. rewrite <- L8 at 1. rewrite <- rev_length. apply le_bytes_val. now apply bytes_ok_rev.
Qed.

(** ** The theorem: every call *)
Theorem wire_call E o w rc w' : reached E w -> call E o w rc w' ->
  let c := if is_connect_op o then w_c w' else w_c w in
  c_out_chain c = [] ->
  exists ms ws, during got_msg w w' ms /\ during wire w w' (flat_map writing_items ws) /\
    Forall (fun x => exists s, (s = c_session (w_c w) \/ exists m, In m ms /\ session_told (e_le E) (w_c w) m s) /\
                               writing_ok (e_le E) c s (c_pending (w_c w)) x) ws.
Proof.
  intros Re C c Ch. pose proof (during_log got_msg C) as [ms Hms]. 
  enough (exists ws, during wire w w' (flat_map writing_items ws) /\
    Forall (fun x => exists s, (s = c_session (w_c w) \/ exists m, In m ms /\ session_told (e_le E) (w_c w) m s) /\
                               writing_ok (e_le E) c s (c_pending (w_c w)) x) ws) as (ws & D & F) by (exists ms, ws; auto).
  assert (forall ws, Forall (writing_ok (e_le E) c (c_session (w_c w)) (c_pending (w_c w))) ws -> 
     Forall (fun x => exists s, (s = c_session (w_c w) \/ exists m, In m ms /\ session_told (e_le E) (w_c w) m s) /\
                               writing_ok (e_le E) c s (c_pending (w_c w)) x) ws) as Easy.
  { intros ws. apply Forall_impl. eauto. }
  pose proof (reached_cok (reached_call Re C)) as K'. pose proof (reached_cok Re) as K.
  destruct (call_body C) as (w1 & Bd & Eq). destruct (is_connect_op o) eqn:Co; unfold c in *; clear c.
  - enough (exists ws, during wire w w' (flat_map writing_items ws) /\ Forall (writing_ok (e_le E) (w_c w') (c_session (w_c w)) (c_pending (w_c w))) ws) as (ws & D & F) by (exists ws; auto).
    clear Easy.
assert (forall x i p v w2 rc2, collect wire (w_t v) = collect wire (w_t w) -> (c_session (w_c v), c_pending (w_c v)) = (c_session (w_c w), c_pending (w_c w)) ->
      internal_connect E (ret tt) x i p v = Done rc2 w2 ->
      (c_session (w_c w2), c_pending (w_c w2)) = (c_session (w_c w), c_pending (w_c w)) /\
      (c_out_chain (w_c w2) = [] -> 0 <= c_vmaj (w_c w2) < 256 -> 0 <= c_vmin (w_c w2) < 256 ->
       exists ws, during wire w w2 (flat_map writing_items ws) /\ Forall (writing_ok (e_le E) (w_c w2) (c_session (w_c w)) (c_pending (w_c w))) ws)) as Cn.
    { intros x i p v w2 rc2 Tv Sv D. pose proof (@ends_connect E (c_session (w_c w), c_pending (w_c w)) (collect wire (w_t w)) x i p v) as En.
      rewrite D in En. destruct En as [S2 En]; [split; auto|]. split; [exact S2|exact En]. }
    assert (forall w2, collect wire (w_t w2) = collect wire (w_t w) ->
      exists ws, during wire w w2 (flat_map writing_items ws) /\ Forall (writing_ok (e_le E) (w_c w') (c_session (w_c w)) (c_pending (w_c w))) ws) as Nil.
    { intros w2 T2. exists []. split; [|constructor]. unfold during. cbn. now rewrite T2, app_nil_r. }
    assert (w_c w' = w_c w1) as Cw by (rewrite Eq; reflexivity).
    enough (exists ws, during wire w w1 (flat_map writing_items ws) /\ Forall (writing_ok (e_le E) (w_c w') (c_session (w_c w)) (c_pending (w_c w))) ws) as (ws & D & F).
    { exists ws. split; [|exact F]. unfold during. rewrite Eq. cbn [push w_t collect]. rewrite D. cbn [wire]. now rewrite app_nil_r. }
    rewrite Cw in *. destruct o; try discriminate Co; cbn [api_body] in Bd.
    + unfold client_connect in Bd. unfold bind at 1, get at 1 in Bd. unfold bind at 1 in Bd.
      destruct (is_valid_client x _) as [v|]; [|discriminate Bd]. unfold lift, ret at 1 in Bd.
      destruct (negb (v =? HE_SUCCESS)).
      * unfold ret in Bd. injection Bd as <- <-. apply Nil. cbn. now rewrite app_nil_r.
      * unfold bind at 1, upd at 1 in Bd. apply Cn in Bd; [|cbn; now rewrite app_nil_r|reflexivity]. apply Bd; auto; [apply (ok_vmaj K')|apply (ok_vmin K')].
    + unfold server_connect in Bd. unfold bind at 1, get at 1 in Bd. destruct (negb (is_valid_server x _ =? HE_SUCCESS)).
      { unfold ret in Bd. injection Bd as <- <-. apply Nil. cbn. now rewrite app_nil_r. }
      unfold bind at 1, upd at 1 in Bd. unfold bind at 1 in Bd.
      destruct (internal_connect _ _ _ _ _ _) as [res w2|] eqn:Ic; [|discriminate Bd].
      apply Cn in Ic; [|cbn; now rewrite app_nil_r|reflexivity]. destruct Ic as [S2 Ic].
      assert (exists f, w_c w1 = set_session f (w_c w2) /\ collect wire (w_t w1) = collect wire (w_t w2)) as (f & C1 & T1).
      { assert (forall c : conn, c = set_session (c_session c) c) as Id by (intros []; reflexivity).
        destruct (negb (res =? HE_SUCCESS)); [unfold ret in Bd; injection Bd as _ <-; eexists; split; [apply Id|reflexivity]|].
        unfold generate_session_id, ask, bind, log, emit, upd, ret in Bd. destruct (negb (_ =? 0)).
        - injection Bd as _ <-. cbn [w_c w_t collect wire]. eexists. split; [apply Id|now rewrite app_nil_r].
        - injection Bd as _ <-. cbn [w_c w_t collect wire]. eexists. split; [reflexivity|now rewrite !app_nil_r]. }
      destruct Ic as (ws & D & F).
      * now rewrite C1 in Ch.
      * pose proof (ok_vmaj K') as V. now rewrite C1 in V.
      * pose proof (ok_vmin K') as V. now rewrite C1 in V.
      * exists ws. split; [unfold during in *; now rewrite T1|]. eapply Forall_impl; [|exact F]. intros [[[s items] buf] r]. rewrite C1. exact (fun H => H).
  - assert (collect got_msg (w_t w1) = collect got_msg (w_t w) ++ ms) as G1.
    { rewrite Eq in Hms. unfold during in Hms. cbn [push w_t collect got_msg] in Hms. now rewrite app_nil_r in Hms. }
    pose (A := fun (t : trace) s => exists seg, t = seg ++ w_t w /\ (s = c_session (w_c w) \/ exists m, In m (collect got_msg seg) /\ session_told (e_le E) (w_c w) m s)).
    pose proof (@into_op E (w_c w) (collect wire (w_t w)) Ch (ok_vmaj K) (ok_vmin K) A) as In.
    assert (exists ws, during wire w w1 (flat_map writing_items ws) /\ Forall (fun x => exists s, A (w_t w1) s /\ writing_ok (e_le E) (w_c w) s (c_pending (w_c w)) x) ws) as (ws & Hc & Ho).
    { specialize (fun a b => In a b o Co (push (ECall o) w)). rewrite Bd in In. apply In.
      - intros [s0 e] t s (seg & -> & H). exists ((s0, e) :: seg). split; [reflexivity|]. destruct H as [H|(m & Hi & Hs)]; [now left|]. right. exists m.
        split; [|exact Hs]. cbn [collect]. apply in_or_app. now left.
      - intros s s0 r err d t (seg & -> & _) Hr -> Sv Ty Ld Bb. exists ((HE_STATE_AUTHENTICATING, EWEnd WRecv r err d) :: seg). split; [reflexivity|].
        right. exists (HE_STATE_AUTHENTICATING, d). split.
        + cbn [collect got_msg]. destruct (Z.ltb_spec 0 r); [|lia]. apply in_or_app. right. now left.
        + pose proof (@host64_range (e_le E) (slice d 97 8)) as R. assert (len (slice d 97 8) = 8) as L8 by (apply len_slice; lia).
          repeat split; auto; try (apply R; auto using bytes_ok_slice). symmetry. now apply bytes64_host64; auto using bytes_ok_slice.
      - split; [reflexivity|]. split; [exists [(c_state (w_c w), ECall o)]; split; [reflexivity|now left]|]. exists []. cbn. rewrite !app_nil_r. auto. }
    exists ws. split; [unfold during in *; rewrite Eq; cbn [push w_t collect wire]; now rewrite app_nil_r|].
    eapply Forall_impl; [|exact Ho]. intros x (s & (seg & Ht & [H|(m & Hi & Hs)]) & W); exists s; (split; [|exact W]); [now left|right].
    exists m. split; [|exact Hs]. rewrite Ht, collect_app in G1. apply app_inv_head in G1. now rewrite <- G1.
Qed.
