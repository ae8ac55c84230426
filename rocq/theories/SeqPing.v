(** Pings and pongs: proofs for C30. *)
From Verif Require Import Base Codes Ctx Config Mss MssSpec MssProofs Frag FragSpec
  Wire WireSpec WireProofs ConnState Conn ConnSpec CallSpec MsgSpec ConnSteps ConnWpApi Frame Reaction Seq SeqInside SeqLoop SeqApi.
Unset Strict Implicit.

(** PONG events *)
Lemma pong_quiet s e : quiet e = true -> pong_event s e = [].
Proof. destruct e; try reflexivity. cbn. destruct (e =? HE_EVENT_PONG); [discriminate|reflexivity]. Qed.
Section P.
Variable E : env.
Notation hk := (@ret unit tt).

Section Ev.
Variable k0 : bool * cbs * (Z * Z) * (chain * chain * Z) * Z.
Notation KP X := (K pong_event k0 X).
Lemma KP_push X e w : (forall s, pong_event s e = []) -> hear e = false -> KP X w -> KP X (push e w).
Proof.
  intros H1 H2 [S C]. split; [exact S|]. cbn [push w_t collect]. unfold both at 2. rewrite H1.
  assert (got_msg (c_state (w_c w)) e = []) as ->; [|cbn; now rewrite app_nil_r]. destruct e; try reflexivity. destruct o; try reflexivity. discriminate H2.
Qed.
Lemma KP_event X e w : io_event e = false -> KP X w -> KP X (push e w).
Proof. intros H. apply KP_push; [|destruct e; (reflexivity || discriminate H)]. intros s. destruct e; try reflexivity. cbn in *. do 3 apply orb_false_iff in H as [H _]. now rewrite H. Qed.
Lemma KP_conn X h w : (forall c, stable (h c) = stable c) -> KP X w -> KP X (with_c h w).
Proof. intros H [S C]. split; [cbn [with_c w_c]; now rewrite H|exact C]. Qed.
Ltac kpush := apply KP_push; [intros; reflexivity|reflexivity|assumption].
Ltac kconn := apply KP_conn; [reflexivity|assumption].
Lemma KP_wend X o r err d w : o <> WRecv -> KP X w -> KP X (push (EWEnd o r err d) w).
Proof. intros H. apply KP_push; [reflexivity|]. destruct o; cbn; congruence. Qed.
Lemma KP_read X sz : keeps (KP X) (fun _ => True) (io_read sz).
Proof. apply keeps_io_read; auto; intros; first [kpush|kconn]. Qed.
Lemma KP_write X b : keeps (KP X) (fun _ => True) (io_write E hk b).
Proof. apply keeps_io_write; auto; intros; first [apply keeps_ret|kpush|kconn]. Qed.
Ltac ks := intros; first [exact I|apply keeps_ret|apply KP_read|apply KP_write|now apply KP_event|now apply KP_wend|kpush|kconn|idtac].
Lemma KP_process X m : 0 < len m -> msg_type m <> HE_MSGID_PONG -> keeps (KP X) (fun _ => True) (process_message E hk m).
Proof.
  intros Hl Hd. unfold process_message. destruct (Z.ltb_spec (len m) sizeof_msg_hdr) as [Y|_]; [unfold sizeof_msg_hdr in Y; lia|].
  rewrite ld8_ok by lia. change (nth (Z.to_nat 0) m 0) with (msg_type m). apply Z.eqb_neq in Hd.
  unfold bind at 1, lift at 1, ret at 1. intros w Hw. unfold bind at 1, get at 1. rewrite Hd.
  match goal with |- match ?m w with _ => _ end => assert (keeps (KP X) (fun _ => True) m) as Kp; [|exact (Kp w Hw)] end.
  repeat case_if; try apply keeps_ret.
  - apply keeps_handle_ping; ks.
  - apply keeps_handle_auth; ks.
  - apply keeps_handle_data; ks.
  - apply keeps_handle_config; ks.
  - apply keeps_handle_13; ks.
  - apply keeps_handle_server_config; ks.
  - apply keeps_handle_frag; ks.
Qed.
Lemma KP_ack X id : keeps (KP X) (fun _ => True) (pm_probe_ack E hk id).
Proof. apply keeps_pm_ack; ks. Qed.
Lemma KP_change X s : keeps (KP X) (fun _ => True) (change_conn_state E hk s).
Proof. apply keeps_change_conn_state; ks. Qed.

Lemma pong_process m w rc w' : bytes_ok m -> 0 < len m -> stable (w_c w) = k0 ->
  process_message E hk m w = Done rc w' ->
  stable (w_c w') = k0 /\
  exists l, collect (both pong_event) (w_t w') = collect (both pong_event) (w_t w) ++ map inr l /\
            l = if is_pong (snd k0) m && cb_event (snd (fst (fst (fst k0)))) then [tt] else [].
Proof.
  intros Bm Hl S. unfold is_pong. destruct (Z.eqb_spec (msg_type m) HE_MSGID_PONG) as [Ty|N].
  2:{ intros H. cbn [andb]. pose proof (@KP_process (collect (both pong_event) (w_t w)) m Hl N w) as Kp. rewrite H in Kp.
      destruct Kp as [S' C']; [split; auto|]. split; [exact S'|]. exists []. cbn. now rewrite app_nil_r. }
  unfold process_message. destruct (Z.ltb_spec (len m) sizeof_msg_hdr) as [Y|_]; [unfold sizeof_msg_hdr in Y; lia|].
  rewrite ld8_ok by lia. change (nth (Z.to_nat 0) m 0) with (msg_type m). unfold bind at 1, lift at 1, ret at 1. unfold bind at 1, get at 1.
  rewrite Ty. cbn [Z.eqb Pos.eqb HE_MSGID_NOOP HE_MSGID_PING HE_MSGID_PONG andb]. unfold handle_pong. change sizeof_pong with 5.
  destruct (Z.ltb_spec (len m) 5) as [L|L]; destruct (Z.leb_spec 5 (len m)); try lia; cbn [andb].
  { intros H0. unfold ret in H0. injection H0 as <- <-. split; [exact S|]. exists []. cbn. now rewrite app_nil_r. }
  destruct (@field16_ok E m 1 Bm) as (raw & F & N & _); [lia|lia|]. change (Z.to_nat 1) with 1%nat in *. rewrite F. unfold bind at 1, lift at 1, ret at 1.
  rewrite N. unfold bind at 1, get at 1.
  assert (c_ping_pend (w_c w) = snd k0 /\ c_cbs (w_c w) = snd (fst (fst (fst k0)))) as [-> Kc] by (rewrite <- S; auto).
  destruct (field16 m 1 =? snd k0) eqn:Id; cbn [andb].
  - unfold bind at 1, generate_event. unfold bind at 1, get at 1. rewrite Kc. destruct (cb_event _); cbn [when].
    + unfold notify, bind, emit, ret. intros [= <- <-]. split; [exact S|]. exists [tt]. split; [|reflexivity]. reflexivity.
    + unfold ret. intros [= <- <-]. split; [exact S|]. exists []. cbn. now rewrite app_nil_r.
  - unfold bind at 1. pose proof (@KP_ack (collect (both pong_event) (w_t w)) (field16 m 1) w) as Kp.
    destruct (pm_probe_ack E hk (field16 m 1) w) as [rc1 w1|]; [|discriminate]. unfold ret. intros [= <- <-].
    destruct Kp as [S' C']; [split; auto|]. split; [exact S'|]. exists []. cbn. now rewrite app_nil_r.
Qed.
End Ev.

Lemma pongs_during b w rc w' : call E (OOutside b) w rc w' ->
  exists ds, during (both pong_event) w w' (caused ds) /\
    Forall (fun d => snd d = if is_pong (c_ping_pend (w_c w)) (snd (fst d)) && cb_event (c_cbs (w_c w)) then [tt] else []) ds /\ stable (w_c w') = stable (w_c w).
Proof.
  intros C. destruct (@loop_call E unit pong_event
    (fun x l => l = if is_pong (c_ping_pend (w_c w)) (snd x) && cb_event (c_cbs (w_c w)) then [tt] else []) (fun l => l = []) b w rc w') as (pre & ds & D & -> & F & St); auto.
  - exact pong_quiet.
  - intros m v rc1 v' B1 L1 S1 P1. exact (pong_process B1 L1 S1 P1).
  - intros v a v' S1 D1. pose proof (@KP_change (stable (w_c w)) (collect (both pong_event) (w_t v)) HE_STATE_LINK_UP v) as Kp. rewrite D1 in Kp.
    destruct Kp as [S' C']; [split; auto|]. split; [exact S'|]. exists []. cbn. rewrite app_nil_r. auto.
  - now exists ds.
Qed.

Lemma bytes16_host16 le a b : byte_ok a -> byte_ok b -> bytes16 le (host16 le a b) = be16 (ntohs le (host16 le a b)).
Proof.
  unfold byte_ok. intros Ha Hb. unfold ntohs, swap16, bytes16, host16, be16.
  assert ((a + 256 * b) mod 256 = a /\ (a + 256 * b) / 256 = b /\ (256 * a + b) mod 256 = b /\ (256 * a + b) / 256 = a) as (E1 & E2 & E3 & E4) by (repeat split; Z.div_mod_to_equations; lia).
  assert (b mod 256 = b /\ a mod 256 = a) as [E5 E6] by (split; apply Z.mod_small; lia).
  assert ((a * 256 + b) / 256 = a /\ (a * 256 + b) mod 256 = b) as [E7 E8] by (split; Z.div_mod_to_equations; lia).
  destruct le; cbn [app]; rewrite ?E1, ?E2, ?E3, ?E4, ?E7, ?E8, ?E5, ?E6; reflexivity.
Qed.
(** Messages sent *)
Lemma sent_quiet s e : quiet e = true -> sent s e = [].
Proof. destruct e; try reflexivity. destruct o; try reflexivity. discriminate. Qed.
Section Snt.
Variable k0 : bool * cbs * (Z * Z) * (chain * chain * Z) * Z.
Definition KS (X : list ((Z * bytes) + bytes)) (w : world) : Prop :=
  stable (w_c w) = k0 /\ exists l, collect (both sent) (w_t w) = X ++ map inr l.
Lemma KS_push X e w : hear e = false -> KS X w -> KS X (push e w).
Proof.
  intros H [S [l C]]. split; [exact S|]. cbn [push w_t collect]. exists (l ++ sent (c_state (w_c w)) e). rewrite map_app, app_assoc, <- C. unfold both.
  assert (got_msg (c_state (w_c w)) e = []) as ->; [|reflexivity]. destruct e; try reflexivity. destruct o; try reflexivity. discriminate H.
Qed.
Lemma KS_event X e w : io_event e = false -> KS X w -> KS X (push e w).
Proof. intros H. apply KS_push. destruct e; try reflexivity; discriminate H. Qed.
Lemma KS_conn X h w : (forall c, stable (h c) = stable c) -> KS X w -> KS X (with_c h w).
Proof. intros H [S C]. split; [cbn [with_c w_c]; now rewrite H|exact C]. Qed.
Ltac kpush := apply KS_push; [reflexivity|assumption].
Ltac kconn := apply KS_conn; [reflexivity|assumption].
Lemma KS_wend X o r err d w : o <> WRecv -> KS X w -> KS X (push (EWEnd o r err d) w).
Proof. intros H. apply KS_push. destruct o; cbn; congruence. Qed.
Lemma KS_read X sz : keeps (KS X) (fun _ => True) (io_read sz).
Proof. apply keeps_io_read; auto; intros; first [kpush|kconn]. Qed.
Lemma KS_write X b : keeps (KS X) (fun _ => True) (io_write E hk b).
Proof. apply keeps_io_write; auto; intros; first [apply keeps_ret|kpush|kconn]. Qed.
Ltac ks := intros; first [exact I|apply keeps_ret|apply KS_read|apply KS_write|now apply KS_event|now apply KS_wend|kpush|kconn|idtac].
Lemma KS_process X m : keeps (KS X) (fun _ => True) (process_message E hk m).
Proof. apply keeps_process; ks. Qed.
Lemma KS_change X s : keeps (KS X) (fun _ => True) (change_conn_state E hk s).
Proof. apply keeps_change_conn_state; ks. Qed.

Lemma ping_process m w rc w' : bytes_ok m -> 0 < len m -> stable (w_c w) = k0 ->
  process_message E hk m w = Done rc w' ->
  stable (w_c w') = k0 /\
  exists l, collect (both sent) (w_t w') = collect (both sent) (w_t w) ++ map inr l /\
    (msg_type m = HE_MSGID_PING -> l = if (c_state (w_c w) =? HE_STATE_ONLINE) && is_ping m then [pong_message (field16 m 1)] else []).
Proof.
  intros Bm Hl S. unfold is_ping. destruct (Z.eqb_spec (msg_type m) HE_MSGID_PING) as [Ty|N].
  2:{ intros H. pose proof (@KS_process (collect (both sent) (w_t w)) m w) as Kp. rewrite H in Kp.
      destruct Kp as [S' [l C']]; [split; auto; exists []; cbn; now rewrite app_nil_r|]. split; [exact S'|]. exists l. split; [exact C'|]. congruence. }
  unfold process_message. destruct (Z.ltb_spec (len m) sizeof_msg_hdr) as [Y|_]; [unfold sizeof_msg_hdr in Y; lia|].
  rewrite ld8_ok by lia. change (nth (Z.to_nat 0) m 0) with (msg_type m). unfold bind at 1, lift at 1, ret at 1. unfold bind at 1, get at 1.
  rewrite Ty. cbn [Z.eqb Pos.eqb HE_MSGID_NOOP HE_MSGID_PING andb]. unfold handle_ping. change sizeof_ping with 5.
  unfold bind at 1, get at 1.
  destruct (c_state (w_c w) =? HE_STATE_ONLINE); cbn [negb andb].
  2:{ intros H0. unfold ret in H0. injection H0 as <- <-. split; [exact S|]. exists []. cbn. now rewrite app_nil_r. }
  destruct (Z.ltb_spec (len m) 5) as [L|L]; destruct (Z.leb_spec 5 (len m)); try lia; cbn [andb].
  { intros H0. unfold ret in H0. injection H0 as <- <-. split; [exact S|]. exists []. cbn. now rewrite app_nil_r. }
  destruct (@field16_ok E m 1 Bm) as (raw & F & N & O); [lia|lia|]. change (Z.to_nat 1) with 1%nat in *. rewrite F. unfold bind at 1, lift at 1, ret at 1.
  rewrite build_pong_ok. unfold bind at 1, lift at 1, ret at 1.
  assert (HE_MSGID_PONG :: bytes16 (e_le E) raw ++ [0; 0] = pong_message (field16 m 1)) as Pm.
  { unfold pong_message. f_equal. f_equal. rewrite <- N. rewrite ldh16_ok in F by (auto; lia). injection F as <-.
    change (Z.to_nat 1) with 1%nat. pose proof (bytes_ok_nth 1 Bm) as B1. pose proof (bytes_ok_nth (1 + 1)%nat Bm) as B2. unfold byte_ok in *.
    change (1 + 1)%nat with 2%nat in *. now apply bytes16_host16. }
  rewrite Pm. intros H0. apply send_seq in H0. destruct H0 as (rx & we & seg & r & err & d & -> & Sg & _). split; [exact S|].
  exists [pong_message (field16 m 1)]. split; [|auto]. cbn [w_t collect]. rewrite collect_app. cbn [collect].
  rewrite (collect_both_io (g := sent) sent_quiet Sg). unfold both at 2 3. cbn [got_msg sent map app]. now rewrite !app_nil_r.
Qed.
End Snt.
Lemma pings_during b w rc w' : call E (OOutside b) w rc w' ->
  exists pre ds, during (both sent) w w' (map inr pre ++ caused ds) /\
    Forall (fun d => msg_type (snd (fst d)) = HE_MSGID_PING ->
      snd d = if (fst (fst d) =? HE_STATE_ONLINE) && is_ping (snd (fst d)) then [pong_message (field16 (snd (fst d)) 1)] else []) ds.
Proof.
  intros C. destruct (@loop_call E bytes sent
    (fun x l => msg_type (snd x) = HE_MSGID_PING -> l = if (fst x =? HE_STATE_ONLINE) && is_ping (snd x) then [pong_message (field16 (snd x) 1)] else []) (fun l => True) b w rc w')
    as (pre & ds & D & _ & F & _); auto.
  - exact sent_quiet.
  - intros m v rc1 v' B1 L1 S1 P1. exact (ping_process B1 L1 S1 P1).
  - intros v a v' S1 D1. pose proof (@KS_change (stable (w_c w)) (collect (both sent) (w_t v)) HE_STATE_LINK_UP v) as Kp. rewrite D1 in Kp.
    destruct Kp as [S' [l C']]; [split; auto; exists []; cbn; now rewrite app_nil_r|]. split; [exact S'|]. exists l. auto.
  - now exists pre, ds.
Qed.
End P.

(** ** he_conn_send_keepalive *)
Lemma keepalive_call E w rc w' : reached E w -> call E OKeepalive w rc w' ->
  if c_state (w_c w) =? HE_STATE_ONLINE
  then exists r err,
    during sent w w' [ping_message (c_ping_next (w_c w)) 0] /\
    during wrote w w' [(ping_message (c_ping_next (w_c w)) 0, r, err)] /\
    rc = write_code r err /\
    c_ping_next (w_c w') = (c_ping_next (w_c w) + 1) mod 65536 /\
    c_ping_pend (w_c w') = (if rc =? HE_SUCCESS then c_ping_next (w_c w) else c_ping_pend (w_c w))
  else rc = HE_ERR_INVALID_CONN_STATE /\ during sent w w' [] /\ during outside w w' [] /\ w_c w' = w_c w.
Proof.
  intros Re C. pose proof (ok_ping (reached_cok Re)) as P. destruct (call_body C) as (w1 & Bd & ->). cbn [api_body] in Bd. unfold send_keepalive in Bd.
  unfold bind at 1, get at 1 in Bd. cbn [push w_c] in Bd. destruct (c_state (w_c w) =? HE_STATE_ONLINE); cbn [negb] in Bd.
  2:{ unfold ret in Bd. injection Bd as <- <-. split; [reflexivity|]. split; [apply during_call; try reflexivity; apply during_nil; reflexivity|].
      split; [apply during_call; try reflexivity; apply during_nil; reflexivity|]. reflexivity. }
  unfold bind at 1, get at 1 in Bd. cbn [push w_c] in Bd. unfold bind at 1, upd at 1 in Bd.
  rewrite build_ping_ok in Bd by (change sizeof_ping with 5; lia). change (zeros (sizeof_ping - 5)) with (zeros 0) in Bd.
  change (HE_MSGID_PING :: be16 (c_ping_next (w_c w)) ++ be16 0 ++ zeros 0) with (ping_message (c_ping_next (w_c w)) 0) in Bd.
  unfold bind at 1, lift at 1, ret at 1 in Bd. unfold bind at 1 in Bd.
  set (w0 := World (set_ping_next _ _) _) in Bd.
  destruct (send_message E (ret tt) _ w0) as [res w2|] eqn:Sd; [|discriminate Bd].
  destruct (send_writes Sd) as (l & D1 & D2 & W).
  assert (exists r err, l = [(ping_message (c_ping_next (w_c w)) 0, r, err)] /\ res = write_code r err) as (r & err & -> & Rs).
  { cbn [writes] in W. destruct l as [|[[m r] err] l]; [contradiction|]. destruct W as [-> W]. exists r, err.
    destruct (Z.eqb_spec (write_code r err) HE_SUCCESS) as [Y|Y].
    - destruct l; [|contradiction]. split; [reflexivity|]. congruence.
    - destruct W as [-> ->]. auto. }
  apply send_seq in Sd. destruct Sd as (rx & we & seg & r' & err' & d & W2 & _ & _).
  assert (w_c w2 = set_rx rx (set_wolf_err we (set_ping_next (u16 (c_ping_next (w_c w) + 1)) (w_c w)))) as C2 by (rewrite W2; reflexivity).
  clear W2. exists r, err.
  assert (rc = res /\ w_t w1 = w_t w2 /\ w_c w1 = if res =? HE_SUCCESS then set_ping_pend (c_ping_next (w_c w)) (w_c w2) else w_c w2) as (-> & Tt & Cc).
  { destruct (res =? HE_SUCCESS); cbn [when] in Bd; unfold bind, upd, ret in Bd; injection Bd as <- <-; auto. }
  split; [apply during_call; try reflexivity; unfold during in *; rewrite Tt; exact D2|].
  split; [apply during_call; try reflexivity; unfold during in *; rewrite Tt; exact D1|].
  split; [exact Rs|]. cbn [push w_c]. rewrite Cc. destruct (res =? HE_SUCCESS); rewrite ?C2; cbn; auto.
Qed.

(** ** The other calls *)
Section Others.
Variable E : env.
Variable p : Z.
Notation hk := (@ret unit tt).
Definition KO (X : list unit) (w : world) : Prop := c_ping_pend (w_c w) = p /\ collect pong_event (w_t w) = X.
Lemma KO_push X e w : (forall s, pong_event s e = []) -> KO X w -> KO X (push e w).
Proof. intros H [S C]. split; [exact S|]. cbn [push w_t collect]. now rewrite H, app_nil_r. Qed.
Lemma KO_event X e w : io_event e = false -> KO X w -> KO X (push e w).
Proof. intros H. apply KO_push. intros s. destruct e; try reflexivity. cbn in *. do 3 apply orb_false_iff in H as [H _]. now rewrite H. Qed.
Lemma KO_conn X h w : (forall c, c_ping_pend (h c) = c_ping_pend c) -> KO X w -> KO X (with_c h w).
Proof. intros H [S C]. split; [cbn [with_c w_c]; now rewrite H|exact C]. Qed.
Ltac kpush := apply KO_push; [intros; reflexivity|assumption].
Ltac kconn := apply KO_conn; [intros c; unfold configure_fields; try case_if; reflexivity|assumption].
Lemma KO_read X sz : keeps (KO X) (fun _ => True) (io_read sz).
Proof. apply keeps_io_read; auto; intros; first [kpush|kconn]. Qed.
Lemma KO_write X b : keeps (KO X) (fun _ => True) (io_write E hk b).
Proof. apply keeps_io_write; auto; intros; first [apply keeps_ret|kpush|kconn]. Qed.
Ltac ks := intros; first [exact I|apply keeps_ret|apply KO_read|apply KO_write|now apply KO_event|kpush|kconn|idtac].
Lemma KO_others X o : is_outside o = false -> o <> OKeepalive -> keeps (KO X) (fun _ => True) (api_body E hk o).
Proof.
  intros O1 O2. destruct o; cbn [api_body]; try discriminate O1; try congruence.
  - apply keeps_client_connect; ks.
  - apply keeps_server_connect; ks.
  - apply keeps_disconnect; ks.
  - apply keeps_inside; ks.
  - apply keeps_nudge; ks.
  - apply keeps_send_server_config; ks.
  - apply keeps_bind; [apply keeps_upd; ks|intros _; apply keeps_ret].
  - apply keeps_start_pmtu; ks.
  - apply keeps_pm_timeout; ks.
  - apply keeps_rotate; ks.
  - apply keeps_set_session; ks.
  - apply keeps_set_username; ks.
  - apply keeps_set_password; ks.
  - apply keeps_set_token; ks.
  - apply keeps_set_auth_buffer; ks.
  - apply keeps_set_mtu; ks.
  - apply keeps_bind; [apply keeps_upd; ks|intros _; apply keeps_ret].
  - apply keeps_set_sni; ks.
Qed.
End Others.
