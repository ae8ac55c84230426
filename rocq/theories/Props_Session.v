(** C22: session identifiers. *)
From Verif Require Import Base Codes Ctx Config Mss Frag Wire WireSpec WireProofs ConnState Conn ConnSpec MsgSpec CallSpec.
From Verif Require Import ConnSteps ConnWp ConnWpApi Frame FrameLoop Reaction Seq SeqInside SeqOutside SeqApi SeqLoop SeqWire PlugSpec SeqPlug Props_Plug.
From Verif Require Import ReadSpec Props_Safe Props_Read Scenario Props_Data Props_Wire PlugSpec SessSpec.
Unset Strict Implicit.

Lemma io_event_ack e s : io_event e = false -> ack_event s e = [].
Proof. destruct e; try reflexivity. cbn. intros H. apply orb_false_iff in H as [H _]; apply orb_false_iff in H as [H _]; apply orb_false_iff in H as [_ H]. now rewrite H. Qed.
Lemma io_event_got e s : io_event e = false -> got_msg s e = [].
Proof. destruct e; try reflexivity; discriminate. Qed.

(** *** Calls that keep both identifiers *)
Section P.
Variable E : env.
Notation hk := (@ret unit tt).
Notation T := (fun _ : world => True).
Variable i0 : Z * Z.
Variable X : list Z.
Definition ID (w : world) : Prop := ids w = i0 /\ collect ack_event (w_t w) = X.
Lemma ID_push e w : (forall s, ack_event s e = []) -> ID w -> ID (push e w).
Proof. intros H [A B]. split; [exact A|]. cbn [push w_t collect]. now rewrite H, app_nil_r. Qed.
Lemma ID_conn f w : (forall c, c_session (f c) = c_session c /\ c_pending (f c) = c_pending c) -> ID w -> ID (with_c f w).
Proof. intros H [A B]. split; [|exact B]. unfold ids in *. cbn [with_c w_c]. destruct (H (w_c w)) as [-> ->]. exact A. Qed.
Lemma configure_ids x i p c : c_session (configure_fields x i p c) = c_session c /\ c_pending (configure_fields x i p c) = c_pending c.
Proof. unfold configure_fields. cbv zeta. destruct (_ =? 0); split; reflexivity. Qed.
Ltac kpush := apply ID_push; [intros; first [reflexivity|match goal with o : wop |- _ => destruct o; first [reflexivity|congruence] end]|assumption].
Ltac kconn := apply ID_conn; [first [split; reflexivity|apply configure_ids]|assumption].
Lemma ID_event e w : io_event e = false -> ID w -> ID (push e w).
Proof. intros H. apply ID_push. intros s. now apply io_event_ack. Qed.
Lemma ID_read sz : keeps ID T (io_read sz).
Proof. apply keeps_io_read; auto; intros; first [kpush|kconn]. Qed.
Lemma ID_write b : keeps ID T (io_write E hk b).
Proof. apply keeps_io_write; intros; first [exact I|apply keeps_ret|kpush|kconn]. Qed.
Ltac ks := intros; first [exact I|apply keeps_ret|apply ID_read|apply ID_write|now apply ID_event|kpush|kconn|idtac].
Definition same_ids (o : op) : bool :=
  match o with OServerConnect _ _ _ | OOutside _ | ORotate | OSetSession _ => false | _ => true end.
Lemma ID_body o : same_ids o = true -> keeps ID T (api_body E hk o).
Proof.
  destruct o; intros Sm; try discriminate Sm; cbn [api_body].
  - apply keeps_client_connect; ks.
  - apply keeps_disconnect; ks.
  - apply keeps_inside; ks.
  - apply keeps_nudge; ks.
  - apply keeps_keepalive; ks.
  - apply keeps_send_server_config; ks.
  - apply keeps_bind; [apply keeps_upd; ks|intros _; apply keeps_ret].
  - apply keeps_start_pmtu; ks.
  - apply keeps_pm_timeout; ks.
  - apply keeps_set_username; ks.
  - apply keeps_set_password; ks.
  - apply keeps_set_token; ks.
  - apply keeps_set_auth_buffer; ks.
  - apply keeps_set_mtu; ks.
  - apply keeps_bind; [apply keeps_upd; ks|intros _; apply keeps_ret].
  - apply keeps_set_sni; ks.
Qed.
Lemma ID_internal x i p : keeps ID T (internal_connect E hk x i p).
Proof. apply keeps_internal_connect; ks. Qed.
End P.

(** *** The receive path: a client may learn its session from messages *)
Section V.
Variable E : env.
Notation hk := (@ret unit tt).
Notation T := (fun _ : world => True).
Variable sv : bool.
Variable s0 p0 : Z.
Variable k0 : cbs.
Variable X : list (Z * bytes).
Variable Y : list Z.
Definition SI (w : world) : Prop :=
  c_is_server (w_c w) = sv /\ c_pending (w_c w) = p0 /\ c_cbs (w_c w) = k0 /\ collect ack_event (w_t w) = Y /\
  exists ms, collect got_msg (w_t w) = X ++ ms /\ c_session (w_c w) = session_after (e_le E) sv s0 ms.
Lemma SI_push e w : (forall s, ack_event s e = []) -> (forall s, got_msg s e = []) -> SI w -> SI (push e w).
Proof.
  intros H1 H2 (A & B & C & D & ms & F & G). split; [exact A|]. split; [exact B|]. split; [exact C|]. cbn [push w_t collect w_c]. rewrite H1, H2, !app_nil_r. split; [exact D|]. exists ms. auto.
Qed.
Lemma SI_conn f w : (forall c, c_is_server (f c) = c_is_server c /\ c_pending (f c) = c_pending c /\ c_cbs (f c) = c_cbs c /\ c_session (f c) = c_session c) -> SI w -> SI (with_c f w).
Proof.
  intros H (A & B & C & D & ms & F & G). destruct (H (w_c w)) as (H1 & H2 & H3 & H4). unfold SI. cbn [with_c w_c w_t]. rewrite H1, H2, H3, H4.
  split; [exact A|]. split; [exact B|]. split; [exact C|]. split; [exact D|]. exists ms. auto.
Qed.
Ltac kpush := apply SI_push; [intros; first [reflexivity|match goal with o : wop |- _ => destruct o; first [reflexivity|congruence] end]..|assumption].
Ltac kconn := apply SI_conn; [intros; repeat split; reflexivity|assumption].
Lemma SI_event e w : io_event e = false -> SI w -> SI (push e w).
Proof. intros H. apply SI_push; intros s; [now apply io_event_ack|now apply io_event_got]. Qed.
Lemma SI_read sz : keeps SI T (io_read sz).
Proof. apply keeps_io_read; auto; intros; first [kpush|kconn]. Qed.
Lemma SI_write b : keeps SI T (io_write E hk b).
Proof. apply keeps_io_write; intros; first [exact I|apply keeps_ret|kpush|kconn]. Qed.
Ltac ks := intros; first [exact I|apply keeps_ret|apply SI_read|apply SI_write|now apply SI_event|kpush|kconn|idtac].
Lemma SI_recv w r err d w' : SI w -> wolf_op E hk WRecv w = Done (r, err, d) w' ->
  exists v, SI v /\ w' = push (EWEnd WRecv r err d) v.
Proof.
  intros Hw. unfold wolf_op. unfold bind at 1, emit at 1. fold (push (EWOp WRecv) w). set (w0 := push _ w). assert (SI w0) as H0 by (unfold w0; kpush). clearbody w0.
  unfold bind at 1, get at 1. unfold bind at 1.
  match goal with |- (match ?m w0 with _ => _ end) = _ -> _ => assert (keeps SI T m) as K end.
  { case_if; [|apply keeps_ret]. apply keeps_bind; [apply keeps_log|]. intros t. apply keeps_bind; [apply keeps_strat; ks|]. intros [[a b] c]. apply keeps_ret. }
  specialize (K w0 H0). match goal with |- (match ?m with _ => _ end) = _ -> _ => destruct m as [[[r1 e1] d1] v|]; [|discriminate] end.
  unfold bind, emit, ret. intros H. apply Done_inv in H. destruct H as [H <-]. injection H as <- <- <-. exists v. split; [exact K|reflexivity].
Qed.
(** A message was received; [SI] is restored once its announcement is stored. *)
Lemma SI_config_rest local peer dns mtu : keeps SI T (
    change_conn_state E hk HE_STATE_CONFIGURING ;;;
    let! k := get c_cbs in
    let! rc := (if cb_netcfg k then callback E hk (ENetCfg local peer dns mtu) KNetCfg else ret HE_SUCCESS) in
    if negb (rc =? HE_SUCCESS) then ret HE_ERR_CALLBACK_FAILED else
    change_conn_state E hk HE_STATE_ONLINE ;;;
    ret HE_SUCCESS).
Proof.
  apply keeps_bind; [apply keeps_change_conn_state; ks|]. intros _. apply keeps_bind; [apply keeps_get|]. intros k. apply keeps_bind.
  { case_if; [|apply keeps_ret]. apply keeps_callback_both; ks. }
  intros rc. case_if; [apply keeps_ret|]. apply keeps_bind; [apply keeps_change_conn_state; ks|intros _; apply keeps_ret].
Qed.
Lemma SI_message m r err v : 0 < len m -> 0 < r -> SI v ->
  match process_message E hk m (push (EWEnd WRecv r err m) v) with Done _ w' => SI w' | Stuck _ _ => True end.
Proof.
  intros Hl Hr Hv. set (w := push _ v).
  assert (c_is_server (w_c w) = sv /\ c_pending (w_c w) = p0 /\ c_cbs (w_c w) = k0 /\ collect ack_event (w_t w) = Y /\
    exists ms, collect got_msg (w_t w) = X ++ ms ++ [(c_state (w_c w), m)] /\ c_session (w_c w) = session_after (e_le E) sv s0 ms) as Hw.
  { destruct Hv as (A & B & C & D & ms & F & G). split; [exact A|]. split; [exact B|]. split; [exact C|]. cbn [w push w_t collect w_c ack_event got_msg]. rewrite app_nil_r. split; [exact D|].
    exists ms. split; [|exact G]. destruct (Z.ltb_spec 0 r); [|lia]. rewrite F. now rewrite app_assoc. }
  assert (sv = true \/ told (e_le E) (c_state (w_c w), m) = [] -> SI w) as Quiet.
  { intros H. destruct Hw as (A & B & C & D & ms & F & G). split; [exact A|]. split; [exact B|]. split; [exact C|]. split; [exact D|]. exists (ms ++ [(c_state (w_c w), m)]). split; [exact F|].
    rewrite G. unfold session_after. destruct sv; [reflexivity|]. destruct H as [H|H]; [discriminate H|]. rewrite flat_map_app. cbn [flat_map]. rewrite H. cbn [app]. now rewrite app_nil_r. }
  clearbody w. clear Hv v. unfold told in Quiet.
  unfold process_message. destruct (Z.ltb_spec (len m) sizeof_msg_hdr) as [Z0|_]; [unfold sizeof_msg_hdr in Z0; lia|].
  rewrite ld8_ok by lia. change (nth (Z.to_nat 0) m 0) with (msg_type m). unfold bind at 1, lift at 1, ret at 1. unfold bind at 1, get at 1.
  destruct (Z.eqb_spec (msg_type m) HE_MSGID_CONFIG_IPV4) as [Ty|Ty].
  - rewrite Ty. cbn [Z.eqb Pos.eqb HE_MSGID_NOOP HE_MSGID_PING HE_MSGID_PONG HE_MSGID_AUTH HE_MSGID_DATA HE_MSGID_CONFIG_IPV4].
    destruct (c_is_server (w_c w)) eqn:Sv; cbn [negb]; [apply Quiet; left; destruct Hw; congruence|]. unfold handle_config_ipv4. unfold bind at 1, get at 1.
    destruct (Z.eqb_spec (c_state (w_c w)) HE_STATE_ONLINE) as [On|_]; [apply Quiet; right; rewrite On; reflexivity|]. rewrite Sv. cbn [orb].
    destruct (Z.eqb_spec (c_state (w_c w)) HE_STATE_AUTHENTICATING) as [St|]; cbn [negb andb] in *; [|apply Quiet; now right].
    change sizeof_config_ipv4 with 105.
    destruct (Z.ltb_spec (len m) 105) as [Z0|L5]; destruct (Z.leb_spec 105 (len m)) as [?|?]; try lia; [apply Quiet; right; rewrite ?andb_false_r; reflexivity|].
    do 5 (unfold bind at 1; match goal with |- match (match lift ?x w with _ => _ end) with _ => _ end => destruct x; unfold lift at 1; [unfold ret at 1|exact I] end).
    unfold bind at 1. unfold ldh64. rewrite ldn_ok by lia. cbn [rbind]. unfold lift at 1, ret at 1. unfold bind at 1, upd at 1.
    match goal with |- match ?mm ?u with _ => _ end => apply (@SI_config_rest a a0 a1 a3 u) end.
    destruct Hw as (A & B & C & D & ms & F & G). cbn [w_c w_t]. split; [cbn [set_session c_is_server w_c]; congruence|]. split; [exact B|]. split; [exact C|]. split; [exact D|].
    exists (ms ++ [(c_state (w_c w), m)]). split; [exact F|]. cbn [set_session c_session]. assert (sv = false) as -> by congruence. unfold session_after. rewrite flat_map_app. cbn [flat_map]. unfold told at 2.
    rewrite St, Ty. destruct (Z.leb_spec 105 (len m)); [|lia]. change (HE_STATE_AUTHENTICATING =? HE_STATE_AUTHENTICATING) with true. change (HE_MSGID_CONFIG_IPV4 =? HE_MSGID_CONFIG_IPV4) with true. cbn [andb app].
    now rewrite last_last.
  - apply Z.eqb_neq in Ty. assert (SI w) as Hs by (apply Quiet; right; rewrite andb_false_r; reflexivity). clear Quiet.
    match goal with |- match ?mm w with _ => _ end => assert (keeps SI T mm) as Kp; [|exact (Kp w Hs)] end.
    rewrite ?Ty. repeat case_if; try apply keeps_ret.
    + apply keeps_handle_ping; ks.
    + apply keeps_handle_pong; ks.
    + apply keeps_handle_auth; ks.
    + apply keeps_handle_data; ks.
    + apply keeps_handle_13; ks.
    + apply keeps_handle_server_config; ks.
    + apply keeps_handle_frag; ks.
Qed.
Lemma SI_verify : keeps SI T (verify_connection E hk).
Proof.
  apply verify_kept.
  - intros w r err d w' Hw R. destruct (SI_recv Hw R) as (v & Hv & ->). destruct (Z.leb_spec r 0) as [Hr|Hr].
    + apply SI_push; [reflexivity| |exact Hv]. intros s. cbn [got_msg]. destruct (Z.ltb_spec 0 r); [lia|reflexivity].
    + pose proof (recv_data R) as [_ Ld]. apply SI_message; auto.
  - intros v. apply keeps_upd; ks.
  - apply keeps_upd; ks.
  - apply keeps_generate_other; ks; reflexivity.
  - apply keeps_wolf_op'; ks.
  - apply keeps_change_conn_state; ks.
  - apply keeps_update_timeout; ks.
  - apply keeps_renegotiate; ks.
  - apply keeps_check; ks.
Qed.
End V.

(** *** What follows the plugins *)
Lemma packet_rest E out w : bytes_ok out ->
  match outside_rest E out w with
  | Done rc w' =>
      if (c_ctype (w_c w) =? HE_CONNECTION_TYPE_DATAGRAM) && negb (acceptable (w_c w) out)
      then ids w' = ids w /\ during ack_event w w' [] /\ during got_msg w w' [] /\ rc <> HE_SUCCESS
      else exists ms, during got_msg w w' ms /\
        let s1 := session_after (e_le E) (c_is_server (w_c w)) (c_session (w_c w)) ms in
        (rc <> HE_SUCCESS /\ ids w' = (s1, c_pending (w_c w)) /\ during ack_event w w' [] \/
         let '(code, new, ack) := packet_session (c_is_server (w_c w)) s1 (c_pending (w_c w)) (header_session (e_le E) (w_c w) out) in
         rc = code /\ ids w' = new /\
         during ack_event w w' (if ack && cb_event (c_cbs (w_c w)) then [HE_EVENT_PENDING_SESSION_ACKNOWLEDGED] else []))
  | Stuck _ _ => True
  end.
Proof.
  intros Bo. unfold outside_rest. unfold bind at 1, get at 1.
  assert (forall code : Z, code <> HE_SUCCESS -> match Done code w with
    | Done rc w' => ids w' = ids w /\ during ack_event w w' [] /\ during got_msg w w' [] /\ rc <> HE_SUCCESS | Stuck _ _ => True end) as Same.
  { intros code N. split; [reflexivity|]. split; [apply during_nil; reflexivity|]. split; [apply during_nil; reflexivity|exact N]. }
  pose (SI0 := SI E (c_is_server (w_c w)) (c_session (w_c w)) (c_pending (w_c w)) (c_cbs (w_c w)) (collect got_msg (w_t w)) (collect ack_event (w_t w))).
  assert (forall w0, w_t w0 = w_t w -> c_is_server (w_c w0) = c_is_server (w_c w) -> c_session (w_c w0) = c_session (w_c w) -> c_pending (w_c w0) = c_pending (w_c w) -> c_cbs (w_c w0) = c_cbs (w_c w) -> SI0 w0) as Begin.
  { intros w0 H1 H2 H3 H4 H5. unfold SI0, SI. rewrite H1, H2, H3, H4, H5. split; [reflexivity|]. split; [reflexivity|]. split; [reflexivity|]. split; [reflexivity|].
    exists []. rewrite app_nil_r. split; [reflexivity|]. unfold session_after. now destruct (c_is_server (w_c w)). }
  unfold header_session.
  destruct (c_ctype (w_c w) =? HE_CONNECTION_TYPE_DATAGRAM) eqn:Ct; cbn [andb].
  - unfold outside_packet_received. change sizeof_wire_hdr with 16. unfold acceptable. destruct (Z.ltb_spec (len out) 16) as [L|L]; destruct (Z.leb_spec 16 (len out)); try lia; cbn [andb negb]; [apply Same; discriminate|].
    rewrite ld8_ok by lia. unfold bind at 1, lift at 1, ret at 1. rewrite ld8_ok by lia. unfold bind at 1, lift at 1, ret at 1. change (Z.to_nat 0) with 0%nat. change (Z.to_nat 1) with 1%nat.
    rewrite <- negb_andb. destruct ((nth 0 out 0 =? 72) && (nth 1 out 0 =? 101)) eqn:He; cbn [negb andb]; [|apply Same; discriminate].
    rewrite ld8_ok by lia. unfold bind at 1, lift at 1, ret at 1. rewrite ld8_ok by lia. unfold bind at 1, lift at 1, ret at 1. unfold bind at 1, get at 1.
    change (Z.to_nat 2) with 2%nat. change (Z.to_nat 3) with 3%nat. rewrite <- negb_andb.
    destruct ((nth 2 out 0 =? c_vmaj (w_c w)) && (nth 3 out 0 =? c_vmin (w_c w))) eqn:Ve; cbn [negb andb]; [|apply Same; discriminate].
    unfold ldh64. rewrite ldn_ok by lia. cbn [rbind]. unfold bind at 1, lift at 1, ret at 1. rewrite (reject_all_ones E Bo) by lia.
    destruct (forallb _ _); cbn [negb]; [apply Same; discriminate|].
    rewrite ldn_ok by lia. unfold bind at 1, lift at 1, ret at 1. unfold bind at 1, upd at 1.
    match goal with |- match (let! _ := _ in _) ?u with _ => _ end => set (w0 := u) end.
    unfold bind at 1. pose proof (@SI_verify E (c_is_server (w_c w)) (c_session (w_c w)) (c_pending (w_c w)) (c_cbs (w_c w)) (collect got_msg (w_t w)) (collect ack_event (w_t w)) w0 (Begin w0 eq_refl eq_refl eq_refl eq_refl eq_refl)) as V.
    destruct (verify_connection E (ret tt) w0) as [rc v|]; [|exact I]. destruct V as (V1 & V2 & V3 & V4 & ms & V5 & V6).
    unfold bind at 1, upd at 1. set (v1 := World _ _ ).
    set (h := host64 (e_le E) (slice out 8 8)).
    assert (forall (code : Z) (f : conn -> conn), during got_msg w (with_c f v1) ms /\ during ack_event w (with_c f v1) []) as Log.
    { intros code f. unfold during. cbn [with_c v1 w_t]. split; [exact V5|]. now rewrite app_nil_r. }
    destruct (Z.eqb_spec rc HE_SUCCESS) as [->|Nr]; cbn [negb].
    2:{ exists ms. split; [exact V5|]. left. split; [exact Nr|]. split; [unfold ids; cbn [v1 w_c set_rx c_session c_pending]; congruence|]. unfold during. cbn [v1 w_t]. now rewrite app_nil_r. }
    unfold update_session_incoming, packet_session. destruct (Z.eqb_spec h 0) as [H0|H0].
    { exists ms. split; [exact V5|]. right. split; [reflexivity|]. split; [unfold ids; cbn [v1 w_c set_rx c_session c_pending]; congruence|]. unfold during. cbn [v1 w_t andb]. now rewrite app_nil_r. }
    unfold bind at 1, get at 1. change (c_is_server (w_c v1)) with (c_is_server (w_c v)). rewrite V1.
    change (c_session (w_c v1)) with (c_session (w_c v)). change (c_pending (w_c v1)) with (c_pending (w_c v)). rewrite V2, V6.
    destruct (c_is_server (w_c w)) eqn:Sv.
    + unfold session_after in *. destruct (Z.eqb_spec h (c_session (w_c w))) as [Hs|Hs].
      { exists ms. split; [exact V5|]. right. split; [reflexivity|]. split; [unfold ids; cbn [v1 w_c set_rx c_session c_pending]; congruence|].
        unfold during. cbn [v1 w_t andb]. now rewrite app_nil_r. }
      destruct (Z.eqb_spec h (c_pending (w_c w))) as [Hp|Hp].
      * unfold generate_event, notify, when, bind, upd, get, emit, ret. cbn [w_c v1 set_pending set_session set_rx c_cbs]. rewrite V3.
        destruct (cb_event (c_cbs (w_c w))) eqn:Cb.
        -- exists ms. split; [unfold during; cbn [v1 w_t collect got_msg]; now rewrite V5, app_nil_r|]. right. split; [reflexivity|]. split; [unfold ids; cbn [v1 w_c set_rx set_pending set_session c_session c_pending]; change HE_PACKET_SESSION_EMPTY with 0; congruence|].
           unfold during. cbn [v1 w_t collect ack_event andb]. rewrite V4. reflexivity.
        -- exists ms. split; [exact V5|]. right. split; [reflexivity|]. split; [unfold ids; cbn [v1 w_c set_rx set_pending set_session c_session c_pending]; change HE_PACKET_SESSION_EMPTY with 0; congruence|].
           unfold during. cbn [v1 w_t andb]. now rewrite app_nil_r.
      * exists ms. split; [exact V5|]. right. split; [reflexivity|]. split; [unfold ids; cbn [v1 w_c set_rx c_session c_pending]; congruence|].
        unfold during. cbn [v1 w_t andb]. now rewrite app_nil_r.
    + unfold bind, upd, ret. exists ms. split; [exact V5|]. right. split; [reflexivity|]. split; [unfold ids; cbn [v1 w_c set_rx set_session c_session c_pending]; congruence|].
      unfold during. cbn [v1 w_t andb]. now rewrite app_nil_r.
  - destruct (c_ctype (w_c w) =? HE_CONNECTION_TYPE_STREAM) eqn:Cs.
    2:{ exists []. split; [apply during_nil; reflexivity|]. left. split; [discriminate|]. split; [|apply during_nil; reflexivity]. unfold ids, session_after. now destruct (c_is_server (w_c w)). }
    unfold outside_stream_received. unfold bind at 1, get at 1. destruct (rx_left (c_rx (w_c w)) =? 0) eqn:L0; cbn [negb].
    2:{ unfold bind, upd, ret. exists []. split; [apply during_nil; reflexivity|]. left. split; [discriminate|]. split; [|apply during_nil; reflexivity]. unfold ids, session_after. now destruct (c_is_server (w_c w)). }
    unfold bind at 1, upd at 1. match goal with |- match (let! _ := _ in _) ?u with _ => _ end => set (w0 := u) end.
    unfold bind at 1. pose proof (@SI_verify E (c_is_server (w_c w)) (c_session (w_c w)) (c_pending (w_c w)) (c_cbs (w_c w)) (collect got_msg (w_t w)) (collect ack_event (w_t w)) w0 (Begin w0 eq_refl eq_refl eq_refl eq_refl eq_refl)) as V.
    destruct (verify_connection E (ret tt) w0) as [rc v|]; [|exact I]. destruct V as (V1 & V2 & V3 & V4 & ms & V5 & V6).
    unfold bind at 1, upd at 1, ret at 1. exists ms. split; [exact V5|]. destruct (Z.eq_dec rc HE_SUCCESS) as [->|Nr]; [right|left]; (split; [first [reflexivity|exact Nr]|]);
      (split; [unfold ids; cbn [w_c set_rx c_session c_pending]; congruence|]; unfold during; cbn [w_t andb]; now rewrite app_nil_r).
Qed.

Lemma keeps_internal_log E x i p w : match internal_connect E (ret tt) x i p w with Done _ w' => exists seg, w_t w' = seg ++ w_t w | Stuck _ _ => True end.
Proof.
  assert (forall e v, (exists seg, w_t v = seg ++ w_t w) -> exists seg, w_t (push e v) = seg ++ w_t w) as HP.
  { intros e v [seg H]. eexists (_ :: seg). cbn [push w_t]. rewrite H. reflexivity. }
  assert (keeps (fun v => exists seg, w_t v = seg ++ w_t w) (fun _ => True) (internal_connect E (ret tt) x i p)) as K.
  { assert (forall sz, keeps (fun v => exists seg, w_t v = seg ++ w_t w) (fun _ => True) (io_read sz)) as Hr.
    { intros sz. apply keeps_io_read; intros; auto. }
    assert (forall b, keeps (fun v => exists seg, w_t v = seg ++ w_t w) (fun _ => True) (io_write E (ret tt) b)) as Hw.
    { intros b. apply keeps_io_write; intros; auto; try apply keeps_ret. }
    apply keeps_internal_connect; intros; auto; apply keeps_ret. }
  specialize (K w). destruct (internal_connect E (ret tt) x i p w); [|exact I]. apply K. now exists [].
Qed.

Lemma during_end A (f : Z -> ev -> list A) w w1 e l : (forall s, f s e = []) -> during f w w1 l -> during f w (push e w1) l.
Proof. unfold during. intros H D. cbn [push w_t collect]. now rewrite H, D, app_nil_r. Qed.

(** *** The theorems *)
(** Every call but he_conn_outside_data_received: [he_conn_set_session_id] sets
    the identifier once; a rotation is refused on a client and while another one is
    pending, and otherwise announces a random identifier;
    [he_conn_server_connect] draws a random identifier; no other call touches the
    two.  The host is never told of an acknowledgement. *)
Theorem C22_calls : forall E o w rc w', call E o w rc w' -> (forall b, o <> OOutside b) ->
  during ack_event w w' [] /\
  match o with
  | OSetSession v => if c_session (w_c w) =? 0 then rc = HE_SUCCESS /\ ids w' = (v mod 2 ^ 64, c_pending (w_c w))
                     else rc = HE_ERR_INVALID_CONN_STATE /\ ids w' = ids w
  | ORotate => if c_is_server (w_c w) && (c_pending (w_c w) =? 0)
               then rc = HE_ERR_RNG_FAILURE /\ ids w' = ids w \/
                    rc = HE_SUCCESS /\ exists v, during drawn w w' [v] /\ ids w' = (c_session (w_c w), v)
               else rc = HE_ERR_INVALID_CONN_STATE /\ ids w' = ids w
  | OServerConnect _ _ _ => if rc =? HE_SUCCESS then exists vs v, during drawn w w' (vs ++ [v]) /\ ids w' = (v, c_pending (w_c w)) else ids w' = ids w
  | _ => ids w' = ids w
  end.
Proof.
  intros E o w rc w' C No. destruct (call_body C) as (w1 & Bd & ->). destruct (same_ids o) eqn:Sm.
  - pose proof (@ID_body E (ids w) (collect ack_event (w_t w)) o Sm (push (ECall o) w)) as K. rewrite Bd in K.
    destruct K as [K1 K2]; [split; [reflexivity|cbn [push w_t collect ack_event]; now rewrite app_nil_r]|].
    split; [apply during_call; try reflexivity; unfold during; cbn [push w_t collect ack_event]; rewrite K2; now rewrite !app_nil_r|].
    destruct o; try discriminate Sm; exact K1.
  - destruct o; try discriminate Sm; cbn [api_body] in Bd.
    + unfold server_connect in Bd. unfold bind at 1, get at 1 in Bd. set (w0 := push _ w) in Bd.
      assert (during ack_event w w0 []) as D0 by (unfold during; cbn [w0 push w_t collect ack_event]; reflexivity).
      assert (during drawn w w0 []) as D1 by (unfold during; cbn [w0 push w_t collect drawn]; reflexivity).
      assert (ids w0 = ids w) as I0 by reflexivity. clearbody w0.
      destruct (negb (is_valid_server x (w_c w0) =? HE_SUCCESS)) eqn:Vs.
      { apply Done_inv in Bd. destruct Bd as [Rc <-]. rewrite Rc in Vs. split; [apply during_end; [reflexivity|]; exact D0|]. destruct (rc =? HE_SUCCESS); [discriminate Vs|exact I0]. }
      unfold bind at 1, upd at 1 in Bd. set (w2 := World _ _) in Bd. unfold bind at 1 in Bd.
      pose proof (@ID_internal E (ids w) (collect ack_event (w_t w)) x inp outp w2) as K.
      pose proof (@keeps_internal_log E x inp outp w2) as Kl.
      destruct (internal_connect E (ret tt) x inp outp w2) as [r3 w3|]; [|discriminate Bd]. destruct K as [K1 K2].
      { split; [exact I0|]. unfold during in D0. cbn [w2 w_t]. now rewrite app_nil_r in D0. }
      destruct Kl as [seg Kl]. assert (collect drawn (w_t w3) = collect drawn (w_t w) ++ collect drawn seg) as Kd.
      { rewrite Kl, collect_app. cbn [w2 w_t]. rewrite D1. now rewrite app_nil_r. }
      assert (during ack_event w w3 []) as D3 by (unfold during; rewrite K2; now rewrite app_nil_r).
      destruct (negb (r3 =? HE_SUCCESS)) eqn:R3.
      { apply Done_inv in Bd. destruct Bd as [Rc <-]. subst rc. split; [apply during_end; [reflexivity|]; exact D3|]. destruct (r3 =? HE_SUCCESS); [discriminate R3|exact K1]. }
      unfold generate_session_id, ask, bind, log, emit, ret, upd in Bd. match type of Bd with context [e_ask E ?t QRng =? 0] => destruct (e_ask E t QRng =? 0); cbn [negb] in Bd end.
      2:{ cbv iota beta in Bd. change (negb (HE_ERR_RNG_FAILURE =? HE_SUCCESS)) with true in Bd. cbv iota in Bd. apply Done_inv in Bd. destruct Bd as [<- <-].
        split; [apply during_end; [reflexivity|]; unfold during in *; cbn [w_t collect ack_event]; now rewrite app_nil_r|]. exact K1. }
      cbv iota beta in Bd. change (negb (HE_SUCCESS =? HE_SUCCESS)) with false in Bd. cbv iota in Bd. apply Done_inv in Bd. destruct Bd as [<- <-].
      split; [apply during_end; [reflexivity|]; unfold during in *; cbn [w_t collect ack_event]; now rewrite !app_nil_r|].
      change (HE_SUCCESS =? HE_SUCCESS) with true. cbv iota. exists (collect drawn seg). eexists. split.
      * apply during_end; [reflexivity|]. unfold during in *. cbn [w_t collect drawn]. rewrite app_nil_r, Kd, <- app_assoc. reflexivity.
      * unfold ids in *. cbn [push w_c set_session c_session c_pending]. injection K1 as _ ->. reflexivity.
    + edestruct No; reflexivity.
    + unfold rotate_session_id in Bd. unfold bind at 1, get at 1 in Bd. cbn [push w_c] in Bd.
      assert (c_is_server (w_c w) && (c_pending (w_c w) =? 0) = negb (negb (c_is_server (w_c w)) || negb (c_pending (w_c w) =? 0))) as -> by (destruct (c_is_server (w_c w)), (_ =? 0); reflexivity).
      destruct (_ || _); cbn [negb].
      { apply Done_inv in Bd. destruct Bd as [<- <-]. split; [|split; reflexivity]. apply during_call; try reflexivity. apply during_nil. reflexivity. }
      unfold generate_session_id, ask, bind, log, emit, ret, upd in Bd. match type of Bd with context [e_ask E ?t QRng =? 0] => destruct (e_ask E t QRng =? 0); cbn [negb] in Bd end.
      2:{ cbv iota beta in Bd. change (negb (HE_ERR_RNG_FAILURE =? HE_SUCCESS)) with true in Bd. cbv iota in Bd. apply Done_inv in Bd. destruct Bd as [<- <-].
        split; [apply during_call; try reflexivity; unfold during; cbn [push w_t collect ack_event]; now rewrite app_nil_r|]. left. split; reflexivity. }
      cbv iota beta in Bd. change (negb (HE_SUCCESS =? HE_SUCCESS)) with false in Bd. cbv iota in Bd. apply Done_inv in Bd. destruct Bd as [<- <-].
      split; [apply during_call; try reflexivity; unfold during; cbn [push w_t collect ack_event]; now rewrite !app_nil_r|].
      right. split; [reflexivity|]. eexists. split; [apply during_call; try reflexivity; unfold during; cbn [push w_t collect drawn]; rewrite !app_nil_r; reflexivity|]. reflexivity.
    + unfold set_session_id in Bd. unfold bind at 1, get at 1 in Bd. cbn [push w_c] in Bd. destruct (c_session (w_c w) =? 0); cbn [negb] in Bd.
      * unfold bind, upd, ret in Bd. apply Done_inv in Bd. destruct Bd as [<- <-]. split; [|split; reflexivity]. apply during_call; try reflexivity. apply during_nil. reflexivity.
      * apply Done_inv in Bd. destruct Bd as [<- <-]. split; [|split; reflexivity]. apply during_call; try reflexivity. apply during_nil. reflexivity.
Qed.
Print Assumptions C22_calls.

(** he_conn_outside_data_received.  [out]: the buffer after the outside plugins.
    [ms]: the messages decrypted during the call.  On a client, a configuration
    among them sets the session; then the packet's header is looked at, unless the
    call fails before. *)
Theorem C22_received : forall E b w rc w', bytes_ok b -> call E (OOutside b) w rc w' ->
  if (c_state (w_c w) =? HE_STATE_DISCONNECTING) || (c_state (w_c w) =? HE_STATE_DISCONNECTED)
  then rc = HE_ERR_INVALID_CONN_STATE /\ ids w' = ids w /\ during ack_event w w' []
  else exists pre rp out,
    pass true (len b) (in_order true (c_out_chain (w_c w))) b pre rp out /\
    if negb ((rp =? HE_SUCCESS) && (len out <=? len b)) || (c_ctype (w_c w) =? HE_CONNECTION_TYPE_DATAGRAM) && negb (acceptable (w_c w) out)
    then ids w' = ids w /\ during ack_event w w' [] /\ during got_msg w w' []
    else exists ms, during got_msg w w' ms /\
      let s1 := session_after (e_le E) (c_is_server (w_c w)) (c_session (w_c w)) ms in
      (rc <> HE_SUCCESS /\ ids w' = (s1, c_pending (w_c w)) /\ during ack_event w w' [] \/
       let '(code, new, ack) := packet_session (c_is_server (w_c w)) s1 (c_pending (w_c w)) (header_session (e_le E) (w_c w) out) in
       rc = code /\ ids w' = new /\
       during ack_event w w' (if ack && cb_event (c_cbs (w_c w)) then [HE_EVENT_PENDING_SESSION_ACKNOWLEDGED] else [])).
Proof.
  intros E b w rc w' B C. destruct (call_body C) as (w1 & Bd & ->). cbn [api_body] in Bd. rewrite (u8s_id B) in Bd.
  unfold outside_data_received in Bd. unfold bind at 1, get at 1 in Bd. set (w0 := push (ECall (OOutside b)) w) in *. change (w_c w0) with (w_c w) in Bd.
  destruct (_ || _).
  { apply Done_inv in Bd. destruct Bd as [<- <-]. split; [reflexivity|]. split; [reflexivity|]. apply during_call; try reflexivity; apply during_nil; reflexivity. }
  unfold bind at 1 in Bd. destruct (@ingress_pass E (c_out_chain (w_c w)) b (len b) w0) as (rp & out & pre & Eq & Ps & Bo). rewrite Eq in Bd. clear Eq.
  exists pre, rp, out. split; [exact Ps|].
  pose proof (@plugs_other _ ack_event (c_state (w_c w0)) pre w0 ltac:(reflexivity) ltac:(reflexivity)) as D0.
  pose proof (@plugs_other _ got_msg (c_state (w_c w0)) pre w0 ltac:(reflexivity) ltac:(reflexivity)) as D1. set (v := plugs _ pre w0) in *.
  assert (w_c v = w_c w) as Cv by reflexivity. clearbody v.
  assert (forall code : Z, Done code v = Done rc w1 -> ids (push (ERet (OOutside b) rc) w1) = ids w /\ during ack_event w (push (ERet (OOutside b) rc) w1) [] /\ during got_msg w (push (ERet (OOutside b) rc) w1) []) as Stop.
  { intros code H. apply Done_inv in H. destruct H as [_ <-]. split; [unfold ids; cbn [push w_c]; now rewrite Cv|]. split; (apply during_call; try reflexivity; [exact D0] || (apply during_call; try reflexivity; exact D1)). }
  destruct (Z.eqb_spec rp HE_ERR_PLUGIN_DROP) as [->|Nd]; [exact (Stop _ Bd)|].
  destruct (Z.eqb_spec rp HE_SUCCESS) as [->|Ns]; cbn [negb andb orb] in *; [|exact (Stop _ Bd)].
  destruct (Z.ltb_spec (len b) (len out)) as [Lg|Lg]; destruct (Z.leb_spec (len out) (len b)); try lia; cbn [negb orb]; [exact (Stop _ Bd)|].
  pose proof (@packet_rest E out v (Bo B)) as R. rewrite Cv in R. unfold outside_rest in R. rewrite Bd in R.
  assert (forall A f l, during f v w1 l -> during f w0 v (@nil A) -> f = f -> (forall s, f s (ECall (OOutside b)) = []) -> (forall s, f s (ERet (OOutside b) rc) = []) -> during f w (push (ERet (OOutside b) rc) w1) l) as Lift.
  { intros A f l Ha Hb _ F1 F2. apply during_end; [exact F2|]. unfold during in *. rewrite Ha, Hb. cbn [w0 push w_t collect]. now rewrite F1, !app_nil_r. }
  destruct (_ && _).
  - destruct R as (R1 & R2 & R3 & _). split; [unfold ids in *; cbn [push w_c]; now rewrite R1, Cv|]. split; apply Lift; auto.
  - destruct R as (ms & R1 & R). exists ms. split; [apply Lift; auto|]. cbv zeta in *. destruct R as [(R2 & R3 & R4)|R]; [left|right].
    + split; [exact R2|]. split; [exact R3|]. apply Lift; auto.
    + destruct (packet_session _ _ _ _) as [[code new] ack]. destruct R as (R2 & R3 & R4). split; [exact R2|]. split; [exact R3|]. apply Lift; auto.
Qed.
Print Assumptions C22_received.

(** So the session of a server changes in three ways only, and an announced one
    is taken back by none but its acknowledgement. *)
Theorem C22_server : forall E o w rc w', call E o w rc w' -> c_is_server (w_c w) = true -> (forall b, o = OOutside b -> bytes_ok b) ->
  c_session (w_c w') <> c_session (w_c w) \/ c_pending (w_c w) <> 0 /\ c_pending (w_c w') <> c_pending (w_c w) ->
  (exists x i p, o = OServerConnect x i p /\ rc = HE_SUCCESS) \/
  (exists v, o = OSetSession v /\ c_session (w_c w) = 0) \/
  (exists b, o = OOutside b /\ rc = HE_SUCCESS /\ c_pending (w_c w) <> 0 /\ ids w' = (c_pending (w_c w), 0) /\
     (cb_event (c_cbs (w_c w)) = true -> during ack_event w w' [HE_EVENT_PENDING_SESSION_ACKNOWLEDGED]) /\
     exists pre out, pass true (len b) (in_order true (c_out_chain (w_c w))) b pre HE_SUCCESS out /\
       header_session (e_le E) (w_c w) out = c_pending (w_c w)).
Proof.
  intros E o w rc w' C Sv B Ch. assert (ids w' <> ids w) as Ch' by (unfold ids; intros H; injection H as H1 H2; destruct Ch as [Ch|[_ Ch]]; congruence).
  destruct (match o with OOutside _ => true | _ => false end) eqn:Io.
  - destruct o; try discriminate Io. right; right. exists buffer. split; [reflexivity|]. pose proof (C22_received (B _ eq_refl) C) as R.
    destruct (_ || _); [destruct R as (_ & R & _); congruence|]. destruct R as (pre & rp & out & Ps & R). rewrite Sv in R.
    destruct (Z.eqb_spec rp HE_SUCCESS) as [->|Nr]; [|cbn [andb negb orb] in R; destruct R; congruence].
    destruct (_ || _); [destruct R; congruence|]. destruct R as (ms & _ & R). cbv zeta in R. cbn [session_after] in R.
    destruct R as [(_ & R & _)|R]; [unfold ids in *; congruence|]. unfold packet_session in R. destruct (header_session (e_le E) (w_c w) out =? 0) eqn:H0; [destruct R as (_ & R & _); unfold ids in *; congruence|].
    destruct (Z.eqb_spec (header_session (e_le E) (w_c w) out) (c_session (w_c w))) as [_|_]; [destruct R as (_ & R & _); unfold ids in *; congruence|].
    destruct (Z.eqb_spec (header_session (e_le E) (w_c w) out) (c_pending (w_c w))) as [Hp|_]; [|destruct R as (_ & R & _); unfold ids in *; congruence].
    destruct R as (Rc & Ri & Re). split; [exact Rc|]. split; [rewrite <- Hp; now apply Z.eqb_neq|]. split; [exact Ri|]. split; [intros Cb; rewrite Cb in Re; exact Re|]. exists pre, out. auto.
  - pose proof (C22_calls C ltac:(intros b ->; discriminate Io)) as [_ R]. destruct o; try discriminate Io; try contradiction.
    + left. destruct (Z.eqb_spec rc HE_SUCCESS); [eauto|contradiction].
    + exfalso. rewrite Sv in R. cbn [andb] in R. destruct (Z.eqb_spec (c_pending (w_c w)) 0) as [P0|P0]; [|destruct R; contradiction].
      destruct R as [[_ R]|(_ & v & _ & R)]; [contradiction|]. unfold ids in R. injection R as R1 R2. destruct Ch; [congruence|]. tauto.
    + right; left. destruct (Z.eqb_spec (c_session (w_c w)) 0); [eauto|]. destruct R; contradiction.
Qed.
Print Assumptions C22_server.

(** ** What does not hold *)
(** "A client's session changes only on the word of its server": a packet of
    which TLS makes nothing, header included unauthenticated, changes it. *)
Theorem C22_authentic_refuted : exists E b w w', reached E w /\ bytes_ok b /\ c_is_server (w_c w) = false /\ c_state (w_c w) = HE_STATE_ONLINE /\
  call E (OOutside b) w HE_SUCCESS w' /\ during got_msg w w' [] /\ ids w = (4660, 0) /\ ids w' = (77, 0).
Proof.
  exists plain_env, (dgram 77 []), (world_at client_up), (world_at (client_up ++ [OOutside (dgram 77 [])])). split; [apply world_at_reached; vm_compute; reflexivity|]. split; [apply bytes_ok_dec; vm_compute; reflexivity|].
  conj; vm_compute; reflexivity.
Qed.
Print Assumptions C22_authentic_refuted.
(** "A packet of an unknown session is refused": the call says so, after the
    packet's data was delivered. *)
Theorem C22_unknown_refused_refuted : exists E b w w', reached E w /\ bytes_ok b /\ c_is_server (w_c w) = true /\ ids w = (4660, 0) /\ header_session (e_le E) (w_c w) b = 77 /\
  call E (OOutside b) w HE_ERR_UNKNOWN_SESSION w' /\ during inside w w' [ipv4].
Proof.
  pose (b := dgram 77 (data_message true 1 2 ipv4 0)).
  exists plain_env, b, (world_at server_up), (world_at (server_up ++ [OOutside b])). split; [apply world_at_reached; vm_compute; reflexivity|]. split; [apply bytes_ok_dec; vm_compute; reflexivity|].
  conj; vm_compute; reflexivity.
Qed.
Print Assumptions C22_unknown_refused_refuted.
(** "A connection whose context disables roaming can talk to its peer": all its
    packets carry the reject value, which makes the peer return an error. *)
Definition noroam_ctx : ctx := Ctx (zeros 51) false true true HE_CONNECTION_TYPE_DATAGRAM all_cbs true HE_PADDING_NONE false false true HE_CONNECTION_TYPE_DATAGRAM 1 0 1 2 10.
Definition noroam_up : list op :=
  client_setup ++ [OClientConnect noroam_ctx [] []; OOutside (dgram 0 []); OOutside (dgram 0 (config_message true (ip 1) (ip 2) (ip 3) 4660))].
Theorem C22_no_roaming_refuted : exists E w w' p r v v', reached E w /\ reached E v /\ c_state (w_c w) = HE_STATE_ONLINE /\ c_state (w_c v) = HE_STATE_ONLINE /\
  c_vmaj (w_c w) = c_vmaj (w_c v) /\ c_vmin (w_c w) = c_vmin (w_c v) /\
  call E OKeepalive w r w' /\ r = HE_SUCCESS /\ during outside w w' [p] /\ call E (OOutside p) v HE_ERR_REJECTED_SESSION v'.
Proof.
  pose (p := wire_header true 1 2 false HE_PACKET_SESSION_REJECT ++ [2; 0; 1; 0; 0]).
  exists plain_env, (world_at noroam_up), (world_at (noroam_up ++ [OKeepalive])), p, HE_SUCCESS, (world_at server_up), (world_at (server_up ++ [OOutside p])).
  split; [apply world_at_reached; vm_compute; reflexivity|]. split; [apply world_at_reached; vm_compute; reflexivity|].
  conj; vm_compute; reflexivity.
Qed.
Print Assumptions C22_no_roaming_refuted.

(** ** Examples *)
(** A rotation: announced, refused while pending, acknowledged. *)
Definition other_ask (t : trace) (q : query) : Z := match q with QRngValue => 4660 + Z.of_nat (length t) | _ => plain_ask t q end.
Definition other_env : env := Env true 50 other_ask plain_cb (fun _ => (ip 1, ip 2, ip 3)) (fun _ => (HE_PLUGIN_SUCCESS, [])) plain_wolf (fun _ => HDone).
Definition at_other (ops : list op) : world := world_of (run other_env 0 ops world_new).
Definition two_ids : Z * Z := ids (at_other (server_up ++ [ORotate])).
Example C22_example_rotation :
  let w := at_other server_up in let w1 := at_other (server_up ++ [ORotate]) in let w2 := at_other (server_up ++ [ORotate; ORotate]) in
  let b := dgram (snd two_ids) [] in let w3 := at_other (server_up ++ [ORotate; ORotate; OOutside b]) in
  reached other_env w /\ c_is_server (w_c w) = true /\ call other_env ORotate w HE_SUCCESS w1 /\ fst two_ids <> snd two_ids /\ snd two_ids <> 0 /\
  call other_env ORotate w1 HE_ERR_INVALID_CONN_STATE w2 /\ bytes_ok b /\ call other_env (OOutside b) w2 HE_SUCCESS w3 /\ ids w3 = (snd two_ids, 0) /\
  during ack_event w2 w3 [HE_EVENT_PENDING_SESSION_ACKNOWLEDGED].
Proof.
  cbv zeta. split; [apply world_in_reached; vm_compute; reflexivity|]. split; [vm_compute; reflexivity|]. split; [vm_compute; reflexivity|]. split; [vm_compute; discriminate|]. split; [vm_compute; discriminate|].
  split; [vm_compute; reflexivity|]. split; [apply bytes_ok_dec; vm_compute; reflexivity|]. split; [vm_compute; reflexivity|]. split; vm_compute; reflexivity.
Qed.
(** A client is told its session, and set_session_id works once. *)
Example C22_example_client :
  let o := OOutside (dgram 0 (config_message true (ip 1) (ip 2) (ip 3) 4660)) in
  let ops := client_setup ++ [OClientConnect dctx [] []; OOutside (dgram 0 [])] in
  let w := world_at ops in let w' := world_at (ops ++ [o]) in
  reached plain_env w /\ call plain_env o w HE_SUCCESS w' /\ ids w = (0, 0) /\ ids w' = (4660, 0) /\
  during got_msg w w' [(HE_STATE_AUTHENTICATING, config_message true (ip 1) (ip 2) (ip 3) 4660)] /\
  call plain_env (OSetSession 99) w HE_SUCCESS (world_at (ops ++ [OSetSession 99])) /\ ids (world_at (ops ++ [OSetSession 99])) = (99, 0) /\
  call plain_env (OSetSession 99) w' HE_ERR_INVALID_CONN_STATE (world_at (ops ++ [o; OSetSession 99])).
Proof. cbv zeta. split; [apply world_at_reached; vm_compute; reflexivity|]. conj; vm_compute; reflexivity. Qed.
