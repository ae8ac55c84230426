(** The client's credentials: proofs for C15. *)
From Verif Require Import Base Codes Ctx Config Mss MssSpec MssProofs Frag FragSpec
  Wire WireSpec WireProofs ConnState Conn ConnSpec CallSpec MsgSpec CredSpec ConnSteps ConnWpApi Frame FrameLoop Reaction Seq SeqInside SeqLoop SeqApi SeqWire SetProofs.
Unset Strict Implicit.

Section C.
Variable E : env.
Notation hk := (@ret unit tt).
Notation T := (fun _ : world => True).
Variable P : conn -> Prop.   (* about the settings *)
Hypothesis P_same : forall f c, (c_username (f c), c_password (f c), c_auth_type (f c), (c_auth_buf (f c), c_auth_len (f c))) =
                                (c_username c, c_password c, c_auth_type c, (c_auth_buf c, c_auth_len c)) -> P c -> P (f c).

Definition J (X : list (option bytes)) (w : world) : Prop :=
  P (w_c w) /\ c_is_server (w_c w) = false /\ collect login (w_t w) = X.
Lemma J_push X e w : (forall s, login s e = []) -> J X w -> J X (push e w).
Proof. intros H (A & B & C). split; [exact A|]. split; [exact B|]. cbn [push w_t collect]. now rewrite H, app_nil_r. Qed.
Lemma J_event X e w : io_event e = false -> J X w -> J X (push e w).
Proof. intros H. apply J_push. intros s. now destruct e. Qed.
Lemma J_conn X f w : (forall c, (c_username (f c), c_password (f c), c_auth_type (f c), (c_auth_buf (f c), c_auth_len (f c))) =
                                (c_username c, c_password c, c_auth_type c, (c_auth_buf c, c_auth_len c))) ->
  (forall c, c_is_server (f c) = c_is_server c) -> J X w -> J X (with_c f w).
Proof. intros H1 H2 (A & B & C). split; [now apply P_same|]. split; [cbn [with_c w_c]; now rewrite H2|exact C]. Qed.
Ltac kpush := apply J_push; [intros; reflexivity|assumption].
Ltac kconn := apply J_conn; [reflexivity|reflexivity|assumption].
Lemma J_plain X o w : plain o -> J X w -> J X (push (EWOp o) w).
Proof. intros H. apply J_push. intros s. destruct o; try reflexivity. cbn in *. destruct H as [H _]. apply Z.eqb_neq in H. now rewrite H. Qed.
Lemma J_wconf X m w : msg_type m = HE_MSGID_CONFIG_IPV4 -> J X w -> J X (push (EWOp (WSend m)) w).
Proof. intros H. apply J_push. intros s. cbn [login]. now rewrite H. Qed.
Lemma J_wend X o r err d w : o <> WNegotiate -> J X w -> J X (push (EWEnd o r err d) w).
Proof. intros H. apply J_push. intros s. destruct o; try reflexivity. congruence. Qed.
Lemma J_read X sz : keeps (J X) T (io_read sz).
Proof. apply keeps_io_read; auto; intros; first [kpush|kconn]. Qed.
Lemma J_write X b : keeps (J X) T (io_write E hk b).
Proof. apply keeps_io_write; auto; intros; first [apply keeps_ret|kpush|kconn]. Qed.
Ltac ks := intros; first [exact I|apply keeps_ret|apply J_read|apply J_write|now apply J_event|now apply J_plain|now apply J_wconf|now apply J_wend|kpush|kconn|idtac].

(** wolfSSL_write, wolfSSL_negotiate *)
Lemma login_io s seg : io_seg s seg -> collect login seg = [].
Proof. apply collect_io. intros e. destruct e; try discriminate; reflexivity. Qed.
Lemma P_rx r c : P c -> P (set_rx r c).
Proof. now apply (P_same (f := set_rx r)). Qed.
Lemma J_op X o : match o with WNegotiate | WSend _ => false | _ => true end = true -> keeps (J X) T (wolf_op E hk o).
Proof.
  intros Ho w (A & B & C). destruct (wolf_op E hk o w) as [[[r err] d] w'|] eqn:O; [|exact I].
  apply wolf_op_seq in O. destruct O as (rx & seg & -> & Sg). split; [now apply P_rx|]. split; [exact B|]. cbn [w_t collect]. rewrite collect_app. cbn [collect].
  rewrite (login_io Sg). destruct o; try discriminate Ho; cbn [login]; now rewrite !app_nil_r.
Qed.
Lemma J_negotiate X w : J X w -> match wolf_op E hk WNegotiate w with
  | Done (r, _, _) w' => J (X ++ if r =? SSL_SUCCESS then [None] else []) w' /\ c_state (w_c w') = c_state (w_c w) | Stuck _ _ => True end.
Proof.
  intros (A & B & C). destruct (wolf_op E hk WNegotiate w) as [[[r err] d] w'|] eqn:O; [|exact I].
  apply wolf_op_seq in O. destruct O as (rx & seg & -> & Sg). split; [|reflexivity]. split; [now apply P_rx|]. split; [exact B|]. cbn [w_t collect]. rewrite collect_app. cbn [collect].
  rewrite (login_io Sg). cbn [login]. rewrite !app_nil_r. now rewrite C.
Qed.
Lemma J_send X m : msg_type m = HE_MSGID_AUTH -> forall w, J X w -> match send_message E hk m w with Done _ w' => J (X ++ [Some m]) w' | Stuck _ _ => True end.
Proof.
  intros Ty w (A & B & C). destruct (send_message E hk m w) as [rc w'|] eqn:O; [|exact I].
  apply send_seq in O. destruct O as (rx & we & seg & r & err & d & -> & Sg & _). split; [|split; [exact B|]].
  - apply P_rx. now apply (P_same (f := set_wolf_err we)).
  - cbn [w_t collect]. rewrite collect_app. cbn [collect]. rewrite (login_io Sg). cbn [login]. rewrite Ty, Z.eqb_refl, !app_nil_r. now rewrite C.
Qed.
(** Messages received *)
Lemma J_process X m : 0 < len m -> keeps (J X) T (process_message E hk m).
Proof.
  intros Hl. unfold process_message. destruct (Z.ltb_spec (len m) sizeof_msg_hdr) as [Y|_]; [unfold sizeof_msg_hdr in Y; lia|].
  rewrite ld8_ok by lia. intros w Hw. unfold bind at 1, lift at 1, ret at 1. unfold bind at 1, get at 1. destruct Hw as (A & B & C). rewrite B. cbn [negb].
  assert (J X w) as Hw by (split; auto).
  match goal with |- match ?m w with _ => _ end => assert (keeps (J X) T m) as Kp; [|exact (Kp w Hw)] end.
  repeat case_if; try apply keeps_ret.
  - apply keeps_handle_ping; ks.
  - apply keeps_handle_pong; ks.
  - apply keeps_handle_data; ks.
  - apply keeps_handle_config; ks.
  - apply keeps_handle_13; ks.
  - apply keeps_handle_server_config; ks.
  - apply keeps_handle_frag; ks.
Qed.
Lemma J_messages X : keeps (J X) T (handle_messages E hk).
Proof.
  apply messages_kept.
  - intros w r err d w' Hw R. pose proof (@J_op X WRecv eq_refl w Hw) as Hw'. rewrite R in Hw'.
    destruct (Z.leb_spec r 0) as [|Hr]; [exact Hw'|]. pose proof (recv_data R) as [Bd Ld]. apply J_process; [|exact Hw']. now apply Ld.
  - intros v. apply keeps_upd; ks.
  - apply keeps_renegotiate; ks.
  - apply keeps_check; ks.
Qed.
Lemma J_timeout X : keeps (J X) T (update_timeout E hk).
Proof. apply keeps_update_timeout; ks. Qed.
Lemma J_other X s : s <> HE_STATE_LINK_UP -> keeps (J X) T (change_conn_state E hk s).
Proof. intros N. apply keeps_change_other; ks. exact N. Qed.
Lemma J_connecting X w : J X w -> match change_conn_state E hk HE_STATE_CONNECTING w with
  | Done _ w' => J X w' /\ c_state (w_c w') = HE_STATE_CONNECTING | Stuck _ _ => True end.
Proof.
  intros Hw. pose proof (@J_other X HE_STATE_CONNECTING ltac:(discriminate) w Hw) as K.
  destruct (change_conn_state E hk HE_STATE_CONNECTING w) as [a w'|] eqn:D; [|exact I]. split; [exact K|].
  unfold change_conn_state, set_conn_state in D. unfold bind at 1 in D. unfold bind at 1, get at 1 in D. destruct (Z.eqb_spec (c_state (w_c w)) HE_STATE_CONNECTING) as [Hs|Hs].
  - unfold ret at 1 in D. cbn [andb] in D. unfold ret in D. now apply Done_inv in D as [_ <-].
  - unfold bind, upd, get in D. destruct (cb_state _); unfold when, notify, bind, emit, ret in D; cbn in D; apply Done_inv in D as [_ <-]; reflexivity.
Qed.

(** Sending the credentials: the message [ms c] once. *)
Variable ms : list bytes.
Hypothesis P_userpass : forall c, P c -> c_auth_type c = HE_AUTH_TYPE_USERPASS -> exists m, build_auth_userpass (c_username c) (c_password c) = Val m /\ ms = [m] /\ msg_type m = HE_MSGID_AUTH.
Hypothesis P_token : forall c, P c -> c_auth_type c = HE_AUTH_TYPE_TOKEN -> exists m, ms = [m] /\ msg_type m = HE_MSGID_AUTH /\
  u16 (sizeof_auth_token + c_auth_len c) <= HE_MAX_WIRE_MTU /\
  exists b, build_auth_buffer (e_le E) HE_MAX_WIRE_MTU (c_auth_type c) (c_auth_buf c) (c_auth_len c) = Val b /\ ldn b 0 (u16 (sizeof_auth_token + c_auth_len c)) = Val m.
Hypothesis P_buf : forall c, P c -> c_auth_type c = HE_AUTH_TYPE_CB -> exists m, ms = [m] /\ msg_type m = HE_MSGID_AUTH /\
  u16 (sizeof_auth_buf + c_auth_len c) <= HE_MAX_MTU /\
  exists b, build_auth_buffer (e_le E) HE_MAX_MTU (c_auth_type c) (c_auth_buf c) (c_auth_len c) = Val b /\ ldn b 0 (u16 (sizeof_auth_buf + c_auth_len c)) = Val m.
Hypothesis P_none : forall c, P c -> c_auth_type c <> HE_AUTH_TYPE_USERPASS -> c_auth_type c <> HE_AUTH_TYPE_TOKEN -> c_auth_type c <> HE_AUTH_TYPE_CB -> ms = [].

Lemma J_send_auth X w : J X w -> c_state (w_c w) = HE_STATE_LINK_UP \/ c_state (w_c w) = HE_STATE_AUTHENTICATING ->
  match send_auth E hk w with Done _ w' => J (X ++ map Some ms) w' | Stuck _ _ => True end.
Proof.
  intros Hw Hs. unfold send_auth. unfold bind at 1, get at 1.
  assert (negb (c_state (w_c w) =? HE_STATE_LINK_UP) && negb (c_state (w_c w) =? HE_STATE_AUTHENTICATING) = false) as -> by (destruct Hs as [-> | ->]; reflexivity).
  unfold bind at 1. assert (keeps (J X) T (set_conn_state hk HE_STATE_AUTHENTICATING)) as Ks by (apply keeps_set_conn_state; ks).
  specialize (Ks w Hw). destruct (set_conn_state hk HE_STATE_AUTHENTICATING w) as [ch v|]; [|exact I]. clear w Hw Hs.
  unfold bind at 1, get at 1. destruct Ks as (A & B & C). assert (J X v) as Hv by (split; auto).
  destruct (Z.eqb_spec (c_auth_type (w_c v)) HE_AUTH_TYPE_USERPASS) as [Ty|N1].
  { destruct (P_userpass A Ty) as (m & Bm & -> & Tm). unfold send_auth_userpass. unfold bind at 1, get at 1. rewrite Bm. unfold bind, lift, ret. now apply J_send. }
  destruct (Z.eqb_spec (c_auth_type (w_c v)) HE_AUTH_TYPE_TOKEN) as [Ty|N2].
  { destruct (P_token A Ty) as (m & -> & Tm & Sz & b & Bb & Lb). unfold send_auth_token. unfold bind at 1, get at 1. rewrite Ty, Z.eqb_refl. cbn [negb].
    cbv zeta. destruct (Z.ltb_spec HE_MAX_WIRE_MTU (u16 (sizeof_auth_token + c_auth_len (w_c v)))); [lia|]. rewrite Ty in Bb. rewrite Bb. unfold bind at 1, lift at 1, ret at 1. rewrite Lb. unfold bind, lift, ret. now apply J_send. }
  destruct (Z.eqb_spec (c_auth_type (w_c v)) HE_AUTH_TYPE_CB) as [Ty|N3].
  { destruct (P_buf A Ty) as (m & -> & Tm & Sz & b & Bb & Lb). unfold send_auth_buf. unfold bind at 1, get at 1.
    cbv zeta. destruct (Z.ltb_spec HE_MAX_MTU (u16 (sizeof_auth_buf + c_auth_len (w_c v)))); [lia|]. rewrite Bb. unfold bind at 1, lift at 1, ret at 1. rewrite Lb. unfold bind, lift, ret. now apply J_send. }
  rewrite (P_none A N1 N2 N3). unfold ret. cbn [map]. now rewrite app_nil_r.
Qed.
Lemma J_linkup X w : J X w -> c_state (w_c w) = HE_STATE_CONNECTING ->
  match change_conn_state E hk HE_STATE_LINK_UP w with Done _ w' => J (X ++ map Some ms) w' | Stuck _ _ => True end.
Proof.
  intros Hw Hs. unfold change_conn_state. unfold bind at 1.
  assert (keeps (J X) T (set_conn_state hk HE_STATE_LINK_UP)) as Ks by (apply keeps_set_conn_state; ks). specialize (Ks w Hw).
  assert (match set_conn_state hk HE_STATE_LINK_UP w with Done ch v => ch = true /\ c_state (w_c v) = HE_STATE_LINK_UP | Stuck _ _ => True end) as R.
  { unfold set_conn_state. unfold bind at 1, get at 1. rewrite Hs. unfold bind, upd, get. cbn. destruct (cb_state _); cbn; split; reflexivity. }
  destruct (set_conn_state hk HE_STATE_LINK_UP w) as [ch v|]; [|exact I]. destruct R as [-> Sv]. cbn [andb Z.eqb].
  change (HE_STATE_LINK_UP =? HE_STATE_LINK_UP) with true. cbv iota. unfold bind at 1, get at 1. destruct Ks as (A & B & C). rewrite B. cbn [negb].
  unfold bind. pose proof (@J_send_auth X v (conj A (conj B C)) (or_introl Sv)) as K. destruct (send_auth E hk v); [exact K|exact I].
Qed.

(** A call: nothing, or TLS comes up and the credentials are sent. *)
Definition one X (w : world) : Prop := J X w \/ J (X ++ None :: map Some ms) w.
Definition goes {A} X (m : M A) : Prop := forall w, J X w -> match m w with Done _ w' => one X w' | Stuck _ _ => True end.
Lemma goes_keeps A X (m : M A) : keeps (J X) T m -> goes X m.
Proof. intros K w Hw. specialize (K w Hw). destruct (m w); [now left|exact I]. Qed.
Lemma goes_left A B X (m : M A) (k : A -> M B) : keeps (J X) T m -> (forall a, goes X (k a)) -> goes X (bind m k).
Proof. intros K Kk w Hw. unfold bind. specialize (K w Hw). destruct (m w) as [a w'|]; [now apply Kk|exact I]. Qed.
Lemma goes_right A B X (m : M A) (k : A -> M B) : goes X m -> (forall Y a, keeps (J Y) T (k a)) -> goes X (bind m k).
Proof.
  intros K Kk w Hw. unfold bind. specialize (K w Hw). destruct (m w) as [a w'|]; [|exact I].
  destruct K as [K|K]; specialize (Kk _ a w' K); (destruct (k a w'); [|exact I]); [now left|now right].
Qed.
Ltac kr := apply keeps_ret.
Lemma goes_verify X : goes X (verify_connection E hk).
Proof.
  unfold verify_connection. apply goes_left; [apply keeps_get|]. intros first. apply goes_left.
  { case_if; [|kr]. apply keeps_bind; [apply keeps_upd; ks|]. intros _. apply keeps_generate_other; ks. reflexivity. }
  intros _ w Hw. unfold bind at 1, get at 1. destruct (Z.eqb_spec (c_state (w_c w)) HE_STATE_CONNECTING) as [Hs|_]; [|exact (goes_keeps (@J_messages X) Hw)].
  unfold bind at 1. pose proof (J_negotiate Hw) as Nw. destruct (wolf_op E hk WNegotiate w) as [[[r err] d] w1|]; [|exact I]. destruct Nw as [Hw1 Hs1]. rewrite Hs in Hs1.
  destruct (r =? SSL_SUCCESS); cbn [negb].
  - unfold bind. pose proof (J_linkup Hw1 Hs1) as L. destruct (change_conn_state E hk HE_STATE_LINK_UP w1) as [[] w2|]; [|exact I]. rewrite <- app_assoc in L. cbn [app] in L.
    pose proof (J_messages L) as M. destruct (handle_messages E hk w2); [now right|exact I].
  - rewrite app_nil_r in Hw1. revert Hw1. clear - P_same. revert w1.
    match goal with |- forall w1, _ -> match ?m w1 with _ => _ end => change (goes X m) end. apply goes_keeps.
    repeat (case_if; try kr).
    + apply keeps_bind; [apply keeps_upd; ks|intros _; kr].
    + apply keeps_bind; [apply keeps_get|]. intros ct. apply keeps_bind; [apply keeps_when, J_timeout|intros _; kr].
Qed.
Lemma goes_outside X b : goes X (outside_data_received E hk b).
Proof.
  unfold outside_data_received. apply goes_left; [apply keeps_get|]. intros c. case_if; [apply goes_keeps; kr|].
  apply goes_left; [apply keeps_plugin_ingress; ks|]. intros [res data]. repeat (case_if; [apply goes_keeps; kr|]).
  apply goes_left; [apply keeps_get|]. intros ct. case_if; [|case_if; [|apply goes_keeps; kr]].
  - unfold outside_packet_received. case_if; [apply goes_keeps; kr|].
    repeat (apply goes_left; [first [apply keeps_lift; auto; fail|apply keeps_get; fail]|intro]; try (case_if; [apply goes_keeps; kr|])).
    apply goes_left; [apply keeps_upd; ks|]. intros _.
    apply goes_right; [apply goes_verify|]. intros Y rc.
    apply keeps_bind; [apply keeps_upd; ks|]. intros _. case_if; [kr|]. apply keeps_session_in; ks.
  - unfold outside_stream_received. apply goes_left; [apply keeps_get|]. intros r. case_if.
    { apply goes_keeps. apply keeps_bind; [apply keeps_upd; ks|]. intros _. kr. }
    apply goes_left; [apply keeps_upd; ks|]. intros _. apply goes_right; [apply goes_verify|]. intros Y rc.
    apply keeps_bind; [apply keeps_upd; ks|]. intros _. kr.
Qed.
Lemma goes_connect X x i p : goes X (client_connect E hk x i p).
Proof.
  unfold client_connect. apply goes_left; [apply keeps_get|]. intros c. apply goes_left; [apply keeps_lift; auto|]. intros res. case_if; [apply goes_keeps; kr|].
  apply goes_left.
  { apply keeps_upd. intros w (A & B & C). split; [now apply (P_same (f := set_is_server false))|]. split; [reflexivity|exact C]. }
  intros _. unfold internal_connect. apply goes_left; [apply keeps_configure; ks|].
  { apply J_conn; auto; intros d; unfold configure_fields; destruct (c_vmaj _ =? 0); reflexivity. }
  intros res1. case_if; [apply goes_keeps; kr|]. apply goes_left; [apply keeps_ask; [ks|reflexivity]|]. intros wn. cbv zeta. apply goes_left; [apply keeps_upd; ks|]. intros _.
  case_if; [apply goes_keeps; kr|]. apply goes_left; [apply keeps_settings; ks|]. intros res2. case_if; [apply goes_keeps; kr|].
  apply goes_left; [apply keeps_upd; ks|]. intros _. apply goes_left; [apply keeps_settings2; ks|]. intros res3. case_if; [apply goes_keeps; kr|].
  intros w Hw. unfold bind at 1. pose proof (J_connecting Hw) as K. destruct (change_conn_state E hk HE_STATE_CONNECTING w) as [[] w0|]; [|exact I]. destruct K as [Hw0 Hs].
  unfold bind at 1. pose proof (J_negotiate Hw0) as Nw. destruct (wolf_op E hk WNegotiate w0) as [[[r err] d] w1|]; [|exact I]. destruct Nw as [Hw1 Hs1]. rewrite Hs in Hs1.
  destruct (r =? SSL_SUCCESS); cbn [negb].
  - unfold bind at 1. pose proof (J_linkup Hw1 Hs1) as L. destruct (change_conn_state E hk HE_STATE_LINK_UP w1) as [[] w2|]; [|exact I]. rewrite <- app_assoc in L. cbn [app] in L.
    unfold bind. pose proof (J_timeout L) as M. destruct (update_timeout E hk w2); [now right|exact I].
  - rewrite app_nil_r in Hw1. revert Hw1. clear - P_same. revert w1.
    match goal with |- forall w1, _ -> match ?m w1 with _ => _ end => change (goes X m) end. apply goes_keeps.
    case_if; [|kr]. apply keeps_bind; [apply J_other; discriminate|]. intros _. apply keeps_bind; [apply J_timeout|intros _; kr].
Qed.
Lemma J_nudge X w : J X w ->
  match nudge E hk w with
  | Done _ w' => J (X ++ if c_state (w_c w) =? HE_STATE_AUTHENTICATING then map Some ms else []) w'
  | Stuck _ _ => True
  end.
Proof.
  intros Hw. unfold nudge. unfold bind at 1, upd at 1. unfold bind at 1, get at 1. fold (with_c (set_nudging false) w).
  assert (J X (with_c (set_nudging false) w)) as H1 by kconn.
  change (c_state (w_c (with_c (set_nudging false) w))) with (c_state (w_c w)).
  destruct (Z.eqb_spec (c_state (w_c w)) HE_STATE_AUTHENTICATING) as [Hs|_].
  - unfold bind at 1. pose proof (J_send_auth H1 (or_intror Hs)) as L. destruct (send_auth E hk _) as [rc w2|]; [|exact I].
    unfold bind. pose proof (J_timeout L) as M. destruct (update_timeout E hk w2); [exact M|exact I].
  - rewrite app_nil_r. revert H1. generalize (with_c (set_nudging false) w). intros v Hv.
    match goal with |- match ?m v with _ => _ end => assert (keeps (J X) T m) as K; [|exact (K v Hv)] end.
    apply keeps_bind; [now apply J_op|]. intros [[r err] d]. case_if.
    + apply keeps_bind; [apply J_other; discriminate|intros _; kr].
    + apply keeps_bind; [apply J_timeout|intros _; kr].
Qed.
(** The rest. *)
Definition setter (o : op) : bool := match o with OSetUsername _ | OSetPassword _ | OSetToken _ | OSetAuthBuf _ => true | _ => false end.
Lemma J_rest X o : match o with OClientConnect _ _ _ | OServerConnect _ _ _ | OOutside _ | ONudge => false | _ => negb (setter o) end = true ->
  keeps (J X) T (api_body E hk o).
Proof.
  intros H. destruct o; try discriminate H; cbn [api_body].
  - apply keeps_disconnect; ks.
  - apply keeps_inside; ks.
  - apply keeps_keepalive; ks.
  - apply keeps_send_server_config; ks.
  - apply keeps_bind; [apply keeps_upd; ks|intros _; kr].
  - apply keeps_start_pmtu; ks.
  - apply keeps_pm_timeout; ks.
  - apply keeps_rotate; ks.
  - apply keeps_set_session; ks.
  - apply keeps_set_mtu; ks.
  - apply keeps_bind; [apply keeps_upd; ks|intros _; kr].
  - apply keeps_set_sni; ks.
Qed.
End C.

(** ** What the host has set is what the connection holds *)
Definition settings (c : conn) := (c_username c, c_password c, c_auth_type c, (c_auth_buf c, c_auth_len c)).
Definition held (c : conn) : credentials :=
  Creds (c_auth_type c) (cstr (c_username c)) (cstr (c_password c)) (firstn (Z.to_nat (c_auth_len c)) (c_auth_buf c)).
Definition cred_ok (c : conn) : Prop :=
  len (cstr (c_username c)) <= 49 /\ len (cstr (c_password c)) <= 49 /\ (c_auth_type c = HE_AUTH_TYPE_CB -> 0 < c_auth_len c <= 1346) /\
  (c_auth_type c = HE_AUTH_TYPE_TOKEN -> 0 < c_auth_len c).
Lemma held_settings c c' : settings c = settings c' -> held c = held c'.
Proof. unfold settings, held. intros [= -> -> -> -> ->]. reflexivity. Qed.
Lemma cred_ok_settings c c' : settings c = settings c' -> cred_ok c -> cred_ok c'.
Proof. unfold settings, cred_ok. intros [= -> -> -> _ ->]. auto. Qed.

Lemma reached_ind E (I : world -> Prop) : I world_new -> (forall w o rc w', reached E w -> I w -> call E o w rc w' -> I w') ->
  forall w, reached E w -> I w.
Proof.
  intros H0 HS w [ops R]. assert (forall w0, reached E w0 -> I w0 -> run E 0 ops w0 = Done tt w -> I w) as H.
  2:{ apply (H world_new); [exists []; reflexivity|exact H0|exact R]. }
  clear R H0. induction ops as [|o ops IH]; intros w0 R0 I0; cbn [run]; [intros D; apply Done_inv in D as [_ <-]; exact I0|]. change (hookn E 0) with (@ret unit tt).
  destruct (api E (ret tt) o w0) as [rc w1|] eqn:C; [|discriminate]. apply IH; [exact (reached_call R0 C)|exact (HS _ _ _ _ R0 I0 C)].
Qed.
(** Inside a call. *)
Lemma given_body E o w rc w1 : api_body E (ret tt) o (push (ECall o) w) = Done rc w1 ->
  given (w_t w1) = given (w_t w) /\ has server_call (w_t w1) = has server_call (w_t (push (ECall o) w)).
Proof.
  intros Bd. pose proof (@keeps_lib_body (fun v => given (w_t v) = given (w_t w) /\ has server_call (w_t v) = has server_call (w_t (push (ECall o) w))) E o) as Kp.
  specialize (Kp ltac:(intros e0 v0 He [H1 H2]; destruct e0; try discriminate He; (split; [exact H1|exact H2])) ltac:(auto) (push (ECall o) w) (conj eq_refl eq_refl)).
  rewrite Bd in Kp. exact Kp.
Qed.
Lemma server_call_before E o w rc w' : call E o w rc w' -> has server_call (w_t w') = false -> has server_call (w_t w) = false /\ is_server_op o = false.
Proof.
  intros C. destruct (call_body C) as (w1 & Bd & ->). destruct (given_body Bd) as [_ H]. cbn [push w_t has existsb snd server_call called].
  fold (has server_call (w_t w1)). change (false || has server_call (w_t w1)) with (has server_call (w_t w1)). rewrite H. cbn [push w_t has existsb snd server_call called]. fold (has server_call (w_t w)).
  destruct (is_server_op o), (has server_call (w_t w)); auto; discriminate.
Qed.

(** The message to send. *)
Section M.
Variable E : env.
Variable c0 : conn.
Hypothesis Cok : cok c0.
Hypothesis Ok : cred_ok c0.
Notation P := (fun c : conn => settings c = settings c0).
Notation ms := (auth_message (held c0)).
Lemma P_same (f : conn -> conn) c : settings (f c) = settings c -> P c -> P (f c).
Proof. cbv beta. congruence. Qed.
Lemma userpass_ok c : P c -> c_auth_type c = HE_AUTH_TYPE_USERPASS -> exists m, build_auth_userpass (c_username c) (c_password c) = Val m /\ ms = [m] /\ msg_type m = HE_MSGID_AUTH.
Proof.
  cbv beta. intros Hc Ty. rewrite <- (held_settings Hc). assert (len (c_username c) = 51 /\ len (c_password c) = 51) as [Lu Lp].
  { injection Hc as -> -> _ _ _. split; [exact (ok_username Cok)|exact (ok_password Cok)]. }
  symmetry in Hc. apply (cred_ok_settings Hc) in Ok. destruct Ok as (U & Q & _). eexists. split; [now apply build_auth_userpass_ok|]. rewrite !firstn_all2 by (unfold len in *; lia).
  unfold auth_message, held. cbn [cr_method cr_user cr_pass]. rewrite Ty. split; reflexivity.
Qed.
Lemma buffer_ok c size : P c -> c_auth_type c = HE_AUTH_TYPE_TOKEN /\ size = HE_MAX_WIRE_MTU \/ c_auth_type c = HE_AUTH_TYPE_CB /\ size = HE_MAX_MTU ->
  exists m, ms = [m] /\ msg_type m = HE_MSGID_AUTH /\ u16 (4 + c_auth_len c) <= size /\
  exists b, build_auth_buffer (e_le E) size (c_auth_type c) (c_auth_buf c) (c_auth_len c) = Val b /\ ldn b 0 (u16 (4 + c_auth_len c)) = Val m.
Proof.
  cbv beta. intros Hc Ty. rewrite <- (held_settings Hc). assert (len (c_auth_buf c) = 1350 /\ 0 <= c_auth_len c < 1350 /\ (c_auth_type c = HE_AUTH_TYPE_CB -> 0 < c_auth_len c <= 1346)) as (Lb & La & Lc).
  { unfold settings in Hc. assert (c_auth_type c = c_auth_type c0 /\ c_auth_buf c = c_auth_buf c0 /\ c_auth_len c = c_auth_len c0) as (-> & -> & ->) by (repeat split; congruence). split; [exact (ok_auth_buf Cok)|]. split; [exact (ok_auth_len Cok)|]. apply Ok. }
  assert (u16 (4 + c_auth_len c) = 4 + c_auth_len c) as U by (apply Z.mod_small; lia). rewrite U.
  assert (0 <= c_auth_type c < 256 /\ c_auth_len c + 4 <= size) as [Tr Sz].
  { destruct Ty as [[T1 ->]|[T1 ->]]; rewrite T1; unfold HE_AUTH_TYPE_TOKEN, HE_AUTH_TYPE_CB, HE_MAX_WIRE_MTU, HE_MAX_MTU; [lia|]. specialize (Lc T1). lia. }
  exists (auth_buffer_message (c_auth_type c) (slice (c_auth_buf c) 0 (c_auth_len c))).
  assert (slice (c_auth_buf c) 0 (c_auth_len c) = firstn (Z.to_nat (c_auth_len c)) (c_auth_buf c)) as Sl by reflexivity.
  split; [unfold auth_message, held; cbn [cr_method cr_user cr_pass cr_data]; rewrite Sl; destruct Ty as [[-> ->]|[-> ->]]; reflexivity|]. split; [reflexivity|]. split; [lia|].
  eexists. split; [apply build_auth_buffer_ok; lia|].
  assert (len (auth_buffer_message (c_auth_type c) (slice (c_auth_buf c) 0 (c_auth_len c))) = 4 + c_auth_len c) as L.
  { unfold auth_buffer_message. rewrite !len_app, len_slice by lia. unfold be16. rewrite ?len_cons, ?len_nil. lia. }
  rewrite ldn_ok; [|lia|lia|rewrite len_app, L, len_zeros; lia]. f_equal. apply slice_app_l. now rewrite L.
Qed.
Lemma none_ok c : P c -> c_auth_type c <> HE_AUTH_TYPE_USERPASS -> c_auth_type c <> HE_AUTH_TYPE_TOKEN -> c_auth_type c <> HE_AUTH_TYPE_CB -> ms = [].
Proof.
  cbv beta. intros Hc N1 N2 N3. rewrite <- (held_settings Hc). apply Z.eqb_neq in N1, N2, N3. unfold auth_message, held. cbn [cr_method]. now rewrite N1, N2, N3.
Qed.
(** A call that is no setter. *)
Lemma login_call o w rc w' : w_c w = c0 -> c_is_server c0 = false -> is_server_op o = false -> setter o = false -> call E o w rc w' ->
  settings (w_c w') = settings c0 /\ c_is_server (w_c w') = false /\
  exists l, during login w w' l /\
    match o with
    | ONudge => l = if c_state c0 =? HE_STATE_AUTHENTICATING then map Some ms else []
    | OClientConnect _ _ _ | OOutside _ => l = [] \/ l = None :: map Some ms
    | _ => l = []
    end.
Proof.
  intros Hc Hs No Ns C. destruct (call_body C) as (w1 & Bd & ->).
  assert (forall l, J P (collect login (w_t w) ++ l) w1 -> settings (w_c (push (ERet o rc) w1)) = settings c0 /\ c_is_server (w_c (push (ERet o rc) w1)) = false /\ during login w (push (ERet o rc) w1) l) as F.
  { intros l (A & B & D). split; [exact A|]. split; [exact B|]. apply during_call; try reflexivity. unfold during. cbn [push w_t collect]. cbn [login]. now rewrite app_nil_r. }
  assert (J P (collect login (w_t w)) (push (ECall o) w)) as H0.
  { split; [cbn [push w_c]; now rewrite Hc|]. split; [cbn [push w_c]; now rewrite Hc|]. cbn [push w_t collect login]. apply app_nil_r. }
  assert (match o with OClientConnect _ _ _ | OServerConnect _ _ _ | OOutside _ | ONudge => false | _ => negb (setter o) end = true ->
    settings (w_c (push (ERet o rc) w1)) = settings c0 /\ c_is_server (w_c (push (ERet o rc) w1)) = false /\ exists l, during login w (push (ERet o rc) w1) l /\ l = []) as G.
  { intros Ho. pose proof (@J_rest E P P_same (collect login (w_t w)) o Ho (push (ECall o) w) H0) as K. rewrite Bd in K.
    destruct (F [] ltac:(now rewrite app_nil_r)) as (A & B & D). split; [exact A|]. split; [exact B|]. now exists []. }
  assert (one P ms (collect login (w_t w)) w1 -> 
    settings (w_c (push (ERet o rc) w1)) = settings c0 /\ c_is_server (w_c (push (ERet o rc) w1)) = false /\ exists l, during login w (push (ERet o rc) w1) l /\ (l = [] \/ l = None :: map Some ms)) as H.
  { intros [K|K].
    - destruct (F [] ltac:(now rewrite app_nil_r)) as (A & B & D). split; [exact A|]. split; [exact B|]. exists []. auto.
    - destruct (F _ K) as (A & B & D). split; [exact A|]. split; [exact B|]. eexists. split; [exact D|]. auto. }
  assert (forall c, P c -> c_auth_type c = HE_AUTH_TYPE_TOKEN -> exists m, ms = [m] /\ msg_type m = HE_MSGID_AUTH /\
    u16 (sizeof_auth_token + c_auth_len c) <= HE_MAX_WIRE_MTU /\
    exists b, build_auth_buffer (e_le E) HE_MAX_WIRE_MTU (c_auth_type c) (c_auth_buf c) (c_auth_len c) = Val b /\ ldn b 0 (u16 (sizeof_auth_token + c_auth_len c)) = Val m) as Pt by (intros c Pc Ty; apply buffer_ok; auto).
  assert (forall c, P c -> c_auth_type c = HE_AUTH_TYPE_CB -> exists m, ms = [m] /\ msg_type m = HE_MSGID_AUTH /\
    u16 (sizeof_auth_buf + c_auth_len c) <= HE_MAX_MTU /\
    exists b, build_auth_buffer (e_le E) HE_MAX_MTU (c_auth_type c) (c_auth_buf c) (c_auth_len c) = Val b /\ ldn b 0 (u16 (sizeof_auth_buf + c_auth_len c)) = Val m) as Pb by (intros c Pc Ty; apply buffer_ok; auto).
  destruct o; try discriminate No; try discriminate Ns; try (exact (G eq_refl)); cbn [api_body] in Bd.
  - apply H. pose proof (@goes_connect E P P_same ms userpass_ok Pt Pb none_ok (collect login (w_t w)) x inp outp _ H0) as K. now rewrite Bd in K.
  - apply H. pose proof (@goes_outside E P P_same ms userpass_ok Pt Pb none_ok (collect login (w_t w)) (u8s buffer) _ H0) as K. now rewrite Bd in K.
  - pose proof (@J_nudge E P P_same ms userpass_ok Pt Pb none_ok (collect login (w_t w)) _ H0) as K. rewrite Bd in K. cbn [push w_c] in K. rewrite Hc in K.
    destruct (F _ K) as (A & B & D). split; [exact A|]. split; [exact B|]. eexists. split; [exact D|reflexivity].
Qed.
End M.

(** The setters. *)
Lemma setter_login E o w rc w' : setter o = true -> call E o w rc w' -> during login w w' [].
Proof.
  intros Ho C. destruct (call_body C) as (w1 & Bd & ->). apply during_call; try reflexivity.
  assert (keeps (fun v => collect login (w_t v) = collect login (w_t w)) (fun _ => True) (api_body E (ret tt) o)) as K.
  { destruct o; try discriminate Ho; cbn [api_body]; [apply keeps_set_username|apply keeps_set_password|apply keeps_set_token|apply keeps_set_auth_buffer]; auto. }
  specialize (K (push (ECall o) w) ltac:(cbn [push w_t collect login]; apply app_nil_r)). rewrite Bd in K. apply during_nil. rewrite K. cbn [push w_t collect login]. now rewrite app_nil_r.
Qed.
Definition known (w : world) : Prop := has server_call (w_t w) = false ->
  c_is_server (w_c w) = false /\ held (w_c w) = given (w_t w) /\ cred_ok (w_c w).
Lemma len_firstn49 (t : bytes) : len (firstn 49 t) <= 49.
Proof. unfold len. rewrite firstn_length. lia. Qed.
Lemma known_reached E w : reached E w -> known w.
Proof.
  revert w. apply reached_ind.
  { intros _. split; [reflexivity|]. split; [reflexivity|]. split; [cbv; discriminate|]. split; [cbv; discriminate|]. split; intros X; cbv in X; discriminate X. }
  intros w o rc w' Re IH C Sv. destruct (server_call_before C Sv) as [Sv0 No]. destruct (IH Sv0) as (Is & Hd & Ok). pose proof (reached_cok Re) as Cok.
  destruct (setter o) eqn:St.
  2:{ destruct (@login_call E (w_c w) Cok Ok o w rc w' eq_refl Is No St C) as (A & B & _). split; [exact B|]. split; [|symmetry in A; exact (cred_ok_settings A Ok)].
      rewrite (held_settings A), Hd. destruct (call_body C) as (w1 & Bd & ->). destruct (given_body Bd) as [<- _]. cbn [push w_t given]. destruct o; try reflexivity; discriminate St. }
  assert (given (w_t w') = given ((0, ERet o rc) :: w_t w)) as G.
  { destruct (call_body C) as (w1 & Bd & ->). destruct (given_body Bd) as [Gb _]. cbn [push w_t given]. now rewrite Gb. }
  rewrite G. cbn [given]. rewrite <- Hd. clear G. destruct Ok as (U & Q & Cb & Tk).
  assert (HE_SUCCESS =? HE_SUCCESS = true) as S1 by reflexivity.
  destruct o; try discriminate St.
  - destruct (username_call Re C) as (f & Sf & Cw). rewrite (set_string_spec s (ok_username Cok)) in Sf. rewrite Cw. split; [exact Is|]. unfold held, cred_ok.
    change (c_username (set_username f _)) with f. change (c_password (set_username f (set_auth_type HE_AUTH_TYPE_USERPASS (w_c w)))) with (c_password (w_c w)).
    change (c_auth_buf (set_username f (set_auth_type HE_AUTH_TYPE_USERPASS (w_c w)))) with (c_auth_buf (w_c w)).
    change (c_auth_len (set_username f (set_auth_type HE_AUTH_TYPE_USERPASS (w_c w)))) with (c_auth_len (w_c w)).
    change (c_auth_type (set_username f (set_auth_type HE_AUTH_TYPE_USERPASS (w_c w)))) with HE_AUTH_TYPE_USERPASS. cbn [cr_user cr_pass cr_data].
    destruct (_ =? 0); [|destruct (Z.ltb_spec 50 (len (cstr (u8s s))))].
    1,2: injection Sf as <- <-; cbn [Z.eqb HE_ERR_EMPTY_STRING HE_ERR_STRING_TOO_LONG HE_SUCCESS]; split; [reflexivity|]; split; [exact U|]; split; [exact Q|split; discriminate].
    assert (rc = HE_SUCCESS /\ f = firstn 49 (padded 50 (cstr (u8s s))) ++ 0 :: skipn 50 (c_username (w_c w))) as [-> ->] by (split; congruence).
    rewrite S1, stored_text by (first [apply cstr_idem|lia]). split; [reflexivity|]. split; [apply len_firstn49|]. split; [exact Q|split; discriminate].
  - destruct (password_call Re C) as (f & Sf & Cw). rewrite (set_string_spec s (ok_password Cok)) in Sf. rewrite Cw. split; [exact Is|]. unfold held, cred_ok.
    change (c_password (set_password f _)) with f. change (c_username (set_password f (set_auth_type HE_AUTH_TYPE_USERPASS (w_c w)))) with (c_username (w_c w)).
    change (c_auth_buf (set_password f (set_auth_type HE_AUTH_TYPE_USERPASS (w_c w)))) with (c_auth_buf (w_c w)).
    change (c_auth_len (set_password f (set_auth_type HE_AUTH_TYPE_USERPASS (w_c w)))) with (c_auth_len (w_c w)).
    change (c_auth_type (set_password f (set_auth_type HE_AUTH_TYPE_USERPASS (w_c w)))) with HE_AUTH_TYPE_USERPASS. cbn [cr_user cr_pass cr_data].
    destruct (_ =? 0); [|destruct (Z.ltb_spec 50 (len (cstr (u8s s))))].
    1,2: injection Sf as <- <-; cbn [Z.eqb HE_ERR_EMPTY_STRING HE_ERR_STRING_TOO_LONG HE_SUCCESS]; split; [reflexivity|]; split; [exact U|]; split; [exact Q|split; discriminate].
    assert (rc = HE_SUCCESS /\ f = firstn 49 (padded 50 (cstr (u8s s))) ++ 0 :: skipn 50 (c_password (w_c w))) as [-> ->] by (split; congruence).
    rewrite S1, stored_text by (first [apply cstr_idem|lia]). split; [reflexivity|]. split; [exact U|]. split; [apply len_firstn49|split; discriminate].
  - destruct (token_call Re C) as [Hr Hc]. rewrite Hc. clear Hc C. destruct (Z.eqb_spec rc HE_SUCCESS) as [->|_]; [|exact (conj Is (conj eq_refl (conj U (conj Q (conj Cb Tk)))))].
    split; [exact Is|]. split; [|split; [exact U|]; split; [exact Q|]; split; [discriminate|]; intros _; change (0 < len b); pose proof (len_nonneg b); destruct (Z.eqb_spec (len b) 0); [discriminate|lia]]. unfold held. cbn [cr_user cr_pass cr_data].
    change (c_auth_buf (set_auth_len (len b) (set_auth_buf (u8s b ++ skipn (length b) (c_auth_buf (w_c w))) (set_auth_type HE_AUTH_TYPE_TOKEN (w_c w))))) with (u8s b ++ skipn (length b) (c_auth_buf (w_c w))).
    change (c_auth_len (set_auth_len (len b) _)) with (len b). f_equal. unfold len. rewrite Nat2Z.id. replace (length b) with (length (u8s b)) by (unfold u8s; apply map_length). apply firstn_app_exact.
  - destruct (Z.le_gt_cases (len b) 65535) as [Lb|Lb].
    + destruct (buffer_call Re Lb C) as [Hr Hc]. rewrite Hc. clear Hc C. destruct (Z.eqb_spec rc HE_SUCCESS) as [->|_]; [|exact (conj Is (conj eq_refl (conj U (conj Q (conj Cb Tk)))))].
      split; [exact Is|]. split; [|split; [exact U|]; split; [exact Q|]].
      * unfold held. cbn [cr_user cr_pass cr_data].
        change (c_auth_buf (set_auth_len (len b) (set_auth_buf (u8s b ++ skipn (length b) (c_auth_buf (w_c w))) (set_auth_type HE_AUTH_TYPE_CB (w_c w))))) with (u8s b ++ skipn (length b) (c_auth_buf (w_c w))).
        change (c_auth_len (set_auth_len (len b) _)) with (len b). f_equal. unfold len. rewrite Nat2Z.id. replace (length b) with (length (u8s b)) by (unfold u8s; apply map_length). apply firstn_app_exact.
      * split; [|discriminate]. intros _. change (0 < len b <= 1346). pose proof (len_nonneg b). destruct (Z.eqb_spec (len b) 0); [discriminate|]. destruct (Z.ltb_spec 1346 (len b)); [discriminate|]. lia.
    + assert (rc <> HE_SUCCESS /\ w_c w' = w_c w) as [Hr ->].
      { destruct (call_body C) as (w1 & Bd & ->). cbn [api_body] in Bd. unfold set_auth_buffer in Bd.
        assert (len (firstn (Z.to_nat 65535) (u8s b)) = 65535) as L.
        { unfold len in *. rewrite firstn_length. unfold u8s. rewrite map_length. lia. }
        cbv zeta in Bd. rewrite L in Bd. unfold ret in Bd. apply Done_inv in Bd as [<- <-]. split; [discriminate|reflexivity]. }
      apply Z.eqb_neq in Hr. rewrite Hr. exact (conj Is (conj eq_refl (conj U (conj Q (conj Cb Tk))))).
Qed.
