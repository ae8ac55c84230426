(** The steps an execution of the connection code is made of, with what is known
    when each is taken.  [ConnWp*.v] proves that every API function, for every
    environment, only makes such steps; the properties of histories are
    invariants of the steps. *)
From Verif Require Import Base Codes Ctx Config Mss Frag FragSpec FragProofs ReasmTable Wire WireSpec ConnState Conn ConnSpec HistSpec.
Unset Strict Implicit.

(** Well-formedness of the connection record: the sizes of its arrays. *)
Record cok (c : conn) : Prop := Cok {
  ok_username : len (c_username c) = 51;
  ok_password : len (c_password c) = 51;
  ok_sni : len (c_sni c) = 256;
  ok_auth_buf : len (c_auth_buf c) = HE_MAX_MTU;
  ok_auth_len : 0 <= c_auth_len c < HE_MAX_MTU;
  ok_tbl : forall t, c_frag_tbl c = Some t -> table_wf t;
  ok_rx : forall r, rx_rest (c_rx c) = Some r -> rx_left (c_rx c) = len r;
  ok_eff : pm_eff (c_pm c) = 0 \/ 504 <= pm_eff (c_pm c) <= MAX_PLPMTU;
  ok_cnt : pm_count (c_pm c) <> 0 -> MIN_PLPMTU <= pm_size (c_pm c);
  ok_size : 0 <= pm_size (c_pm c) < 65536;
  ok_ping : 0 <= c_ping_next c < 65536;
  ok_mtu : 0 <= c_mtu c < 65536;
  ok_vmaj : 0 <= c_vmaj c < 256;
  ok_vmin : 0 <= c_vmin c < 256;
  ok_auth_type : 0 <= c_auth_type c < 256;
  ok_frag_next : 0 <= c_frag_next c < 65536;
  ok_session : 0 <= c_session c < 18446744073709551616;
  ok_pending : 0 <= c_pending c < 18446744073709551616 }.

Definition seq (w : world) (P : Prop) : Prop := re (w_t w) = false -> P.

(** Between announcing a timer / the end of a renegotiation and noting it. *)
Definition mid1 (w : world) : bool :=
  match w_t w with
  | (_, ENudge _) :: _ => negb (c_nudging (w_c w))
  | (_, EEvent e) :: _ => (e =? HE_EVENT_SECURE_RENEGOTIATION_COMPLETED) && c_prog (w_c w)
  | _ => false
  end.
(** A client between LINK_UP and AUTHENTICATING. *)
Definition mid2 (w : world) : bool :=
  negb (has server_call (w_t w)) && negb (c_is_server (w_c w)) && (c_state (w_c w) =? HE_STATE_LINK_UP).

(** At most one connect call has been made. *)
Definition once (t : trace) : Prop := (count connect_call t <= 1)%nat.
(** Path MTU discovery between entering a search phase and sending its probe. *)
Definition pm_mid (p : pmtud) : Prop :=
  (pm_state p = HE_PMTUD_STATE_BASE \/ pm_state p = HE_PMTUD_STATE_SEARCHING) /\ pm_count p = 0.
Definition mid3 (w : world) : Prop :=
  once (w_t w) /\ c_state (w_c w) = HE_STATE_ONLINE /\ pm_mid (c_pm (w_c w)).

(** What path MTU discovery relies on. *)
Definition base_ok (p : pmtud) : Prop := pm_base p = MIN_PLPMTU \/ pm_base p = INITIAL_PLPMTU.
Definition pm_inv (p : pmtud) : Prop :=
  0 <= pm_count p <= MAX_PROBES /\
  (pm_eff p = 0 \/ MIN_PLPMTU <= pm_eff p <= MAX_PLPMTU) /\
  (pm_state p = HE_PMTUD_STATE_DISABLED /\ pm_count p = 0 /\ pm_size p = 0 \/
   pm_state p = HE_PMTUD_STATE_BASE /\ (pm_count p = 0 \/ base_ok p) \/
   pm_state p = HE_PMTUD_STATE_SEARCHING /\
     (pm_count p = 0 \/
      base_ok p /\ pm_base p + PMTUD_PROBE_SMALL_STEP <= pm_size p <= MAX_PLPMTU /\
      (pm_big p = true -> pm_base p + PMTUD_PROBE_BIG_STEP <= pm_size p \/ pm_size p = MAX_PLPMTU)) \/
   pm_state p = HE_PMTUD_STATE_SEARCH_COMPLETE /\ base_ok p \/
   pm_state p = HE_PMTUD_STATE_ERROR /\ base_ok p).

(** The context [x] was passed to a connect call. *)
Definition asked (x : ctx) (t : trace) : Prop :=
  exists s i p, In (s, ECall (OClientConnect x i p)) t \/ In (s, ECall (OServerConnect x i p)) t \/
                In (s, ENest (OClientConnect x i p)) t \/ In (s, ENest (OServerConnect x i p)) t.

Definition cbs_off (k : cbs) : cbs :=
  Cbs (cb_state k) (cb_nudge k) false false (cb_netcfg k) (cb_srvcfg k) (cb_event k)
      (cb_auth k) (cb_authtok k) (cb_authbuf k) (cb_populate k) (cb_pmtime k) (cb_pmstate k).

(** The callbacks are those of a context passed to a connect call. *)
Definition cbs_from (w : world) : Prop :=
  exists x, asked x (w_t w) /\ (c_cbs (w_c w) = x_cbs x \/ c_cbs (w_c w) = cbs_off (x_cbs x)).
Definition role0 (w : world) : Prop := c_is_server (w_c w) = false -> has client_call (w_t w) = true.
Definition role (w : world) : Prop := role0 w /\ cbs_from w.
Definition calling (f : op -> bool) (w : world) : Prop :=
  seq w (exists o, last_call (w_t w) = Some o /\ f o = true).
(** since the host's call *)
Definition now (f : ev -> bool) (w : world) : Prop := has f (upto is_call (w_t w)) = true.

Definition is_disconnect (o : op) : bool := match o with ODisconnect => true | _ => false end.
Definition is_nudge (o : op) : bool := match o with ONudge => true | _ => false end.
Definition is_outside (o : op) : bool := match o with OOutside _ => true | _ => false end.
Definition is_start (o : op) : bool := match o with OStartPmtud => true | _ => false end.

(** The session a datagram carries. *)
Definition wire_session (c : conn) : Z :=
  if c_no_roam c then HE_PACKET_SESSION_REJECT
  else if c_pending c =? 0 then c_session c else c_pending c.
(** What a packet for the wire looks like without plugins. *)
Definition wire_form (c : conn) (p : bytes) : Prop :=
  exists le body, p = wire_header le (c_vmaj c) (c_vmin c) (c_aggr c) (wire_session c) ++ body.

(** The connection is (or was) a client's, or a client has been authenticated;
    it is (or was) a server's, or the client was configured. *)
Definition has_netcfg (x : ctx) : bool := cb_netcfg (x_cbs x).
Definition origin (t : trace) : Prop :=
  (has client_call t = true \/ authenticated t) /\
  (has server_call t = true \/ connects has_netcfg t = false \/ configured t).

(** Sending the message [m] *)
Definition send_ok (w : world) (m : bytes) : Prop :=
  let c := w_c w in
  1 <= len m <= HE_MAX_WIRE_MTU /\
  seq w (c_state c <> HE_STATE_DISCONNECTED) /\
  (msg_type m = HE_MSGID_DATA /\ c_state c = HE_STATE_ONLINE \/
   msg_type m = HE_MSGID_DATA_WITH_FRAG /\ origin (w_t w) /\ seq w (c_state c = HE_STATE_ONLINE) \/
   msg_type m = HE_MSGID_AUTH /\ has client_call (w_t w) = true /\ has negotiated (w_t w) = true /\
     (calling is_nudge w \/ now negotiated w) /\
     seq w (c_state c = HE_STATE_AUTHENTICATING) \/
   msg_type m = HE_MSGID_CONFIG_IPV4 /\ now populate_ok w /\ seq w (c_is_server c = true) \/
   msg_type m = HE_MSGID_AUTH_RESPONSE /\ seq w (c_is_server c = true) /\ calling is_outside w \/
   msg_type m = HE_MSGID_PING /\ c_state c = HE_STATE_ONLINE /\
     (len m = sizeof_ping \/ MIN_PLPMTU + sizeof_data <= len m <= MAX_PLPMTU + sizeof_data) \/
   msg_type m = HE_MSGID_PONG /\ c_state c = HE_STATE_ONLINE /\ len m = sizeof_pong \/
   msg_type m = HE_MSGID_SERVER_CONFIG /\ c_is_server c = true /\
     valid_state_for_server_config (c_state c) = true \/
   msg_type m = HE_MSGID_GOODBYE /\ len m = 1 /\ seq w (c_state c = HE_STATE_DISCONNECTING) /\
     calling is_disconnect w).

(** The connection has a wolfSSL object, or lost it in a later connect call. *)
Definition tls_ok (w : world) : Prop := seq w (c_wolf (w_c w) = true \/ has tls_lost (w_t w) = true).

Definition emit_ok (w : world) (e : ev) : Prop :=
  let c := w_c w in let k := c_cbs c in
  (is_nest e = false -> seq w (mid1 w = false)) /\
  match e with
  | ECall _ | ERet _ _ | EState _ => False
  | EEvent v =>
    cb_event k = true /\ seq w (c_state c <> HE_STATE_DISCONNECTED) /\
    (v = HE_EVENT_PONG \/ v = HE_EVENT_PENDING_SESSION_ACKNOWLEDGED \/
     v = HE_EVENT_SECURE_RENEGOTIATION_COMPLETED /\ seq w (c_prog c = true))
  | ENudge _ => cb_nudge k = true /\ seq w (c_nudging c = false)
  | EInside p => cb_inside k = true /\ c_state c = HE_STATE_ONLINE /\ is_ipv4_packet_valid p = Val true
  | EOutside p =>
    cb_outside k = true /\ len p <= HE_MAX_WIRE_MTU /\
    seq w (c_out_chain c = [] -> c_io c <> HE_CONNECTION_TYPE_STREAM -> wire_form c p)
  | EAuthUser u p =>
    c_is_server c = true /\ cb_auth k = true /\ len u = 50 /\ len p = 50 /\ seq w (c_state c <> HE_STATE_DISCONNECTED)
  | EAuthToken b => c_is_server c = true /\ cb_authtok k = true /\ seq w (c_state c <> HE_STATE_DISCONNECTED)
  | EAuthBuf _ b => c_is_server c = true /\ cb_authbuf k = true /\ seq w (c_state c <> HE_STATE_DISCONNECTED)
  | EPopulate => now auth_accepted_ev w /\ seq w (c_state c <> HE_STATE_DISCONNECTED)
  | ECbRet KAuth _ => has server_call (w_t w) = true /\ now auth_asked_ev w
  | ECbRet KPopulate _ => now auth_accepted_ev w
  | ECbRet KNetCfg _ => has client_call (w_t w) = true /\ now (received HE_MSGID_CONFIG_IPV4) w
  | ENetCfg l p d m =>
    cb_netcfg k = true /\ 1 <= m <= HE_MAX_MTU /\ len l = 24 /\ len p = 24 /\ len d = 24 /\
    nth 23 l 0 = 0 /\ nth 23 p 0 = 0 /\ nth 23 d 0 = 0 /\
    now (received HE_MSGID_CONFIG_IPV4) w /\
    seq w (c_is_server c = false /\ c_state c = HE_STATE_CONFIGURING)
  | ESrvCfg _ => cb_srvcfg k = true /\ c_is_server c = false /\ valid_state_for_server_config (c_state c) = true
  | EPmTime _ => cb_pmtime k = true
  | EPmState _ => cb_pmstate k = true
  | EWOp (WSend m) => send_ok w m
  | EWEnd _ _ _ d => len d <= HE_MAX_WIRE_MTU
  | _ => True
  end.

Definition state_ok (w : world) (s : Z) : Prop :=
  let c := w_c w in
  seq w (mid1 w = false) /\
  (s <> HE_STATE_DISCONNECTED -> role w /\ has connect_call (w_t w) = true) /\
  seq w (c_state c = HE_STATE_DISCONNECTED -> s = HE_STATE_CONNECTING) /\
  (s = HE_STATE_CONNECTING /\ calling is_connect_op w /\ tls_ok w \/
   s = HE_STATE_LINK_UP /\ now negotiated w /\ seq w (c_state c = HE_STATE_CONNECTING) \/
   s = HE_STATE_AUTHENTICATING /\ has client_call (w_t w) = true /\ has negotiated (w_t w) = true /\
     seq w (c_state c = HE_STATE_LINK_UP /\ c_is_server c = false) \/
   s = HE_STATE_CONFIGURING /\ has client_call (w_t w) = true /\
     seq w (c_state c = HE_STATE_AUTHENTICATING /\ c_is_server c = false) \/
   s = HE_STATE_ONLINE /\ (calling is_outside w /\ tls_ok w) /\
     seq w (c_state c <> HE_STATE_DISCONNECTING) /\
     (now populate_ok w /\ seq w (c_is_server c = true) \/
      has client_call (w_t w) = true /\ now (received HE_MSGID_CONFIG_IPV4) w /\
      (now netcfg_ok w \/ cb_netcfg (c_cbs c) = false) /\
      seq w (c_state c = HE_STATE_CONFIGURING /\ c_is_server c = false)) \/
   s = HE_STATE_DISCONNECTING /\ calling (fun o => is_disconnect o || is_outside o) w /\ tls_ok w \/
   s = HE_STATE_DISCONNECTED /\ calling (fun o => is_disconnect o || is_nudge o) w).

(** The fields the properties depend on *)
Definition tracked (c : conn) :=
  (c_state c, c_is_server c, c_cbs c, c_first c, c_nudging c, c_prog c, c_wolf c, c_pm c).

(** A change of the path MTU discovery *)
Definition pm_ok (w : world) (p' : pmtud) : Prop :=
  let c := w_c w in
  (cok c -> cok (set_pm p' c)) /\
  seq w (once (w_t w) -> pm_inv (c_pm c) -> pm_inv p') /\
  seq w (pm_state (c_pm c) = HE_PMTUD_STATE_DISABLED ->
         pm_state p' = HE_PMTUD_STATE_DISABLED \/ c_state c = HE_STATE_ONLINE /\ calling is_start w).

Inductive Step : world -> world -> Prop :=
| S_emit w e :
    emit_ok w e -> Step w (World (w_c w) ((c_state (w_c w), e) :: w_t w))
| S_misc w c' :
    tracked c' = tracked (w_c w) -> (cok (w_c w) -> cok c') -> Step w (World c' (w_t w))
| S_state w s :
    state_ok w s -> c_state (w_c w) <> s ->
    Step w (World (set_state s (w_c w))
                  (if cb_state (c_cbs (w_c w)) then (s, EState s) :: w_t w else w_t w))
| S_role w (b : bool) :
    calling is_connect_op w ->
    has (if b then server_call else client_call) (w_t w) = true ->
    Step w (World (set_is_server b (w_c w)) (w_t w))
| S_config w x i p :
    calling is_connect_op w -> asked x (w_t w) ->
    Step w (World (configure_fields x i p (w_c w)) (w_t w))
| S_wolf w c' :
    calling is_connect_op w -> role w -> has connect_call (w_t w) = true -> (cok (w_c w) -> cok c') ->
    tracked (set_wolf (c_wolf (w_c w)) c') = tracked (w_c w) ->
    seq w (c_wolf c' = true \/ has tls_lost (w_t w) = true) -> Step w (World c' (w_t w))
| S_pm w p' :
    pm_ok w p' -> Step w (World (set_pm p' (w_c w)) (w_t w))
| S_cbs_off w :
    calling is_disconnect w ->
    Step w (World (set_timeout 0 (set_cbs (cbs_off (c_cbs (w_c w))) (w_c w))) (w_t w))
| S_first w :
    seq w (mid1 w = false) -> c_first (w_c w) = false -> calling is_outside w ->
    seq w (c_state (w_c w) <> HE_STATE_DISCONNECTED) ->
    Step w (World (set_first true (w_c w))
                  (if cb_event (c_cbs (w_c w))
                   then (c_state (w_c w), EEvent HE_EVENT_FIRST_MESSAGE_RECEIVED) :: w_t w else w_t w))
| S_nudge_off w :
    seq w (exists s p, w_t w = (s, ECall ONudge) :: p) ->
    Step w (World (set_nudging false (w_c w)) (w_t w))
| S_nudge_on w :
    seq w (exists s m p, w_t w = (s, ENudge m) :: p) ->
    Step w (World (set_nudging true (w_c w)) (w_t w))
| S_reneg w :
    seq w (mid1 w = false) -> seq w (c_prog (w_c w) = false) ->
    seq w (c_state (w_c w) <> HE_STATE_DISCONNECTED) -> role w -> tls_ok w ->
    Step w (World (set_prog true (w_c w))
                  (if cb_event (c_cbs (w_c w))
                   then (c_state (w_c w), EEvent HE_EVENT_SECURE_RENEGOTIATION_STARTED) :: w_t w else w_t w))
| S_prog w (b : bool) :
    seq w (b = c_prog (w_c w) \/
           b = false /\ (cb_event (c_cbs (w_c w)) = true ->
                         exists s p, w_t w = (s, EEvent HE_EVENT_SECURE_RENEGOTIATION_COMPLETED) :: p)) ->
    Step w (World (set_prog b (w_c w)) (w_t w)).

Inductive Steps : world -> world -> Prop :=
| Steps_refl w : Steps w w
| Steps_trans w1 w2 w3 : Step w1 w2 -> Steps w2 w3 -> Steps w1 w3.

(** The state a successful connect call leaves. *)
Definition fresh (w : world) : Prop :=
  c_state (w_c w) = HE_STATE_CONNECTING \/
  (c_state (w_c w) = HE_STATE_LINK_UP \/ c_state (w_c w) = HE_STATE_AUTHENTICATING) /\ now negotiated w.

Definition ret_ok (w : world) (o : op) (rc : Z) : Prop :=
  seq w (mid1 w = false /\ mid2 w = false /\ ~ mid3 w /\ last_call (w_t w) = Some o /\
         (is_connect_op o = true -> rc = 0 -> fresh w) /\
         (o = ODisconnect -> rc = 0 ->
          c_state (w_c w) = HE_STATE_DISCONNECTED /\
          cb_inside (c_cbs (w_c w)) = false /\ cb_outside (c_cbs (w_c w)) = false)).

Inductive Reach : world -> Prop :=
| R_new : Reach world_new
| R_step w w' : Reach w -> Step w w' -> Reach w'
| R_call w o : Reach w -> seq w (mid1 w = false) ->
    Reach (World (w_c w) ((c_state (w_c w), ECall o) :: w_t w))
| R_ret w o rc : Reach w -> ret_ok w o rc ->
    Reach (World (w_c w) ((c_state (w_c w), ERet o rc) :: w_t w)).

Lemma Steps_one w w' : Step w w' -> Steps w w'.
Proof. intros H; eapply Steps_trans; [exact H|apply Steps_refl]. Qed.
Lemma Steps_app w1 w2 w3 : Steps w1 w2 -> Steps w2 w3 -> Steps w1 w3.
Proof. induction 1; auto. intros; econstructor; eauto. Qed.
Lemma Reach_Steps w w' : Reach w -> Steps w w' -> Reach w'.
Proof. intros R S; induction S; auto. apply IHS. eapply R_step; eauto. Qed.

(** ** The log only grows, and no call of the host starts inside another *)
Definition in_call (l : trace) : Prop := Forall (fun x => is_call (snd x) = false) l.

Lemma Step_grows w w' : Step w w' -> exists l, w_t w' = l ++ w_t w /\ in_call l.
Proof.
  assert (forall (b : bool) x (t : trace), is_call (snd x) = false ->
    exists l, (if b then x :: t else t) = l ++ t /\ in_call l) as A.
  { intros [] x t Hx; [exists [x]|exists []]; split; auto; repeat constructor; auto. }
  intros S; destruct S; cbn [w_t]; try (exists []; split; [reflexivity|constructor]);
    try (apply A; reflexivity).
  exists [(c_state (w_c w), e)]. split; auto. constructor; [|constructor].
  destruct e; auto. destruct H as [_ []].
Qed.
Lemma Steps_grows w w' : Steps w w' -> exists l, w_t w' = l ++ w_t w /\ in_call l.
Proof.
  induction 1 as [w|w1 w2 w3 S _ (l & E & F)]; [exists []; split; [auto|constructor]|].
  destruct (Step_grows S) as (l' & E' & F'). exists (l ++ l').
  rewrite E, E', app_assoc. split; auto. apply Forall_app; auto.
Qed.

Lemma has_app f a b : has f (a ++ b) = has f a || has f b.
Proof. apply existsb_app. Qed.
Lemma upto_app l t : in_call l -> upto is_call (l ++ t) = l ++ upto is_call t.
Proof.
  induction 1 as [|[s e] l H _ IH]; simpl; auto. cbn [snd] in H. rewrite H. now rewrite IH.
Qed.
Lemma last_call_app l t : in_call l -> last_call (l ++ t) = last_call t.
Proof. induction 1 as [|[s e] l H _ IH]; simpl; auto. cbn [snd] in H. destruct e; auto. discriminate. Qed.

Lemma has_mono f w w' : Steps w w' -> has f (w_t w) = true -> has f (w_t w') = true.
Proof. intros S H. destruct (Steps_grows S) as (l & -> & _). rewrite has_app, H. apply orb_true_r. Qed.
Lemma has_anti f w w' : Steps w w' -> has f (w_t w') = false -> has f (w_t w) = false.
Proof. intros S H. destruct (has f (w_t w)) eqn:E; auto. now rewrite (has_mono S E) in H. Qed.
Lemma re_anti w w' : Steps w w' -> re (w_t w') = false -> re (w_t w) = false.
Proof. apply has_anti. Qed.
Lemma now_mono f w w' : Steps w w' -> now f w -> now f w'.
Proof.
  unfold now. intros S H. destruct (Steps_grows S) as (l & -> & F).
  rewrite upto_app by auto. rewrite has_app, H. apply orb_true_r.
Qed.
Lemma now_has f w : now f w -> has f (w_t w) = true.
Proof.
  unfold now, has. induction (w_t w) as [|[s e] t IH]; cbn; [auto|]. destruct (is_call e); [discriminate|]. cbn.
  destruct (f e); auto.
Qed.
Lemma fresh_same w w' : Steps w w' -> c_state (w_c w') = c_state (w_c w) -> fresh w -> fresh w'.
Proof. unfold fresh. intros S -> [H|[H N]]; [auto|]. right. split; [exact H|exact (now_mono S N)]. Qed.
Lemma fresh_online w : fresh w -> c_state (w_c w) <> HE_STATE_ONLINE.
Proof. intros [H|[[H|H] _]]; rewrite H; discriminate. Qed.
Lemma calling_mono f w w' : Steps w w' -> calling f w -> calling f w'.
Proof.
  unfold calling, seq. intros S H Hr. specialize (H (re_anti S Hr)).
  destruct (Steps_grows S) as (l & -> & F). now rewrite last_call_app.
Qed.
Lemma connects_cons P x t : connects P (x :: t) = true -> connects P t = true.
Proof.
  destruct x as [s e]. destruct e; try exact (fun H => H);
    destruct o; try exact (fun H => H); cbn; intros H; apply andb_true_iff in H; tauto.
Qed.
Lemma connects_anti P w w' : Steps w w' -> connects P (w_t w') = true -> connects P (w_t w) = true.
Proof.
  intros S. destruct (Steps_grows S) as (l & -> & _). induction l as [|[s e] l IH]; [auto|].
  cbn [app]. intros H. apply IH. now apply connects_cons in H.
Qed.
Lemma origin_mono w w' : Steps w w' -> origin (w_t w) -> origin (w_t w').
Proof.
  intros S [A B]. destruct (Steps_grows S) as (l' & E & _). split.
  - destruct A as [H|(l & s & e & r & E' & H)]; [left; now apply (has_mono S)|].
    right. rewrite E, E'. exists (l' ++ l), s, e, r. now rewrite <- app_assoc.
  - destruct B as [H|[H|(l & s & e & r & E' & H)]]; [left; now apply (has_mono S)| |].
    + right; left. destruct (connects has_netcfg (w_t w')) eqn:C; [|reflexivity]. now rewrite (connects_anti S C) in H.
    + right; right. rewrite E, E'. exists (l' ++ l), s, e, r. now rewrite <- app_assoc.
Qed.
Lemma last_call_mono w w' : Steps w w' -> last_call (w_t w') = last_call (w_t w).
Proof. intros S. destruct (Steps_grows S) as (l & -> & F). now rewrite last_call_app. Qed.
Lemma asked_mono x w w' : Steps w w' -> asked x (w_t w) -> asked x (w_t w').
Proof.
  intros S (s & i & p & H). destruct (Steps_grows S) as (l & -> & F). exists s, i, p.
  rewrite !in_app_iff. intuition.
Qed.

(** ** Invariants used while running the code *)
Lemma role0_step w w' : Step w w' -> role0 w -> role0 w'.
Proof.
  intros S R. assert (Steps w w') as S' by now apply Steps_one.
  intros H. destruct S; cbn [w_c] in *; try (apply (has_mono S'); apply R;
    try (unfold tracked in *; congruence); exact H).
  - subst; cbn [c_is_server set_is_server] in H; subst b; auto.
  - apply (has_mono S'); apply R. unfold configure_fields in H.
    destruct (c_vmaj _ =? 0) in H; exact H.
  - apply (has_mono S'); apply R. match goal with T : tracked _ = tracked _ |- _ =>
      unfold tracked in T; cbn in T; congruence end.
Qed.
Lemma configure_cbs x i p c : c_cbs (configure_fields x i p c) = x_cbs x.
Proof. unfold configure_fields. destruct (c_vmaj _ =? 0); reflexivity. Qed.
Lemma cbs_from_step w w' : Step w w' -> cbs_from w -> cbs_from w'.
Proof.
  intros S (x & A & H). assert (Steps w w') as S' by now apply Steps_one.
  pose proof (asked_mono S' A) as A'.
  destruct S; cbn [w_c] in *; try (exists x; split; [exact A'|exact H]).
  - exists x; split; [exact A'|]. cbn [w_c]. unfold tracked in *. replace (c_cbs c') with (c_cbs (w_c w)) by congruence. exact H.
  - exists x0. split; [assumption|]. left. cbn [w_c]. apply configure_cbs.
  - exists x; split; [exact A'|]. cbn [w_c]. unfold tracked in *. cbn in *. replace (c_cbs c') with (c_cbs (w_c w)) by congruence. exact H.
  - exists x. split; [exact A'|]. right. cbn [w_c c_cbs set_cbs set_timeout]. destruct H as [-> | ->]; reflexivity.
Qed.
Lemma role_step w w' : Step w w' -> role w -> role w'.
Proof. intros S [A B]. split; [eapply role0_step; eauto|eapply cbs_from_step; eauto]. Qed.
Lemma role_mono w w' : Steps w w' -> role w -> role w'.
Proof. induction 1; eauto using role_step. Qed.
Lemma role0_mono w w' : Steps w w' -> role0 w -> role0 w'.
Proof. induction 1; eauto using role0_step. Qed.
Lemma cbs_from_mono w w' : Steps w w' -> cbs_from w -> cbs_from w'.
Proof. induction 1; eauto using cbs_from_step. Qed.

Lemma cok_new : cok conn_new.
Proof. constructor; try (cbn; unfold HE_MAX_MTU, MAX_PLPMTU; vm_compute; repeat split; congruence);
  cbn; intros; try discriminate; try lia. Qed.

Lemma cok_configure x i p c : cok c -> cok (configure_fields x i p c).
Proof.
  intros []. unfold configure_fields. cbn.
  assert (forall v, 0 <= u8 v < 256) by (intros; apply Z.mod_pos_bound; lia).
  destruct (c_vmaj c =? 0); constructor; cbn; auto; lia.
Qed.
Lemma cok_step w w' : Step w w' -> cok (w_c w) -> cok (w_c w').
Proof.
  intros S C; destruct S; cbn [w_c]; auto; try (destruct C; constructor; cbn; auto; fail).
  2: now apply H.
  now apply cok_configure.
Qed.
Lemma Reach_cok w : Reach w -> cok (w_c w).
Proof. induction 1; cbn [w_c]; eauto using cok_new, cok_step. Qed.

Definition inv_wolf (w : world) : Prop :=
  c_wolf (w_c w) = true -> role w /\ has connect_call (w_t w) = true.
Definition inv_state (w : world) : Prop :=
  c_state (w_c w) <> HE_STATE_NONE -> c_state (w_c w) <> HE_STATE_DISCONNECTED ->
  role w /\ has connect_call (w_t w) = true.
Definition inv_neg (w : world) : Prop :=
  c_state (w_c w) = HE_STATE_LINK_UP \/ c_state (w_c w) = HE_STATE_AUTHENTICATING ->
  has negotiated (w_t w) = true.
Definition inv_auth (w : world) : Prop :=
  c_state (w_c w) = HE_STATE_AUTHENTICATING -> has client_call (w_t w) = true.
Definition inv (w : world) : Prop := inv_wolf w /\ inv_state w /\ inv_neg w /\ inv_auth w.

Lemma configure_tracked x i p c :
  c_state (configure_fields x i p c) = c_state c /\
  c_is_server (configure_fields x i p c) = c_is_server c /\
  c_cbs (configure_fields x i p c) = x_cbs x /\
  c_first (configure_fields x i p c) = c_first c /\
  c_nudging (configure_fields x i p c) = c_nudging c /\
  c_prog (configure_fields x i p c) = c_prog c /\
  c_wolf (configure_fields x i p c) = c_wolf c /\
  c_pm (configure_fields x i p c) = c_pm c.
Proof. unfold configure_fields. destruct (c_vmaj _ =? 0); cbn; repeat split. Qed.

Lemma inv_same w w' :
  Steps w w' -> (role w -> role w') ->
  c_wolf (w_c w') = c_wolf (w_c w) -> c_state (w_c w') = c_state (w_c w) -> inv w -> inv w'.
Proof.
  intros S R W T (I1 & I2 & I3 & I4). unfold inv, inv_wolf, inv_state, inv_neg, inv_auth. rewrite W, T.
  repeat match goal with |- _ /\ _ => split | |- forall _, _ => intro end.
  - apply R; now apply I1.
  - eapply has_mono; eauto. now apply I1.
  - apply R; now apply I2.
  - eapply has_mono; eauto. now apply I2.
  - eapply has_mono; eauto.
  - eapply has_mono; eauto.
Qed.

Lemma inv_step w w' : Step w w' -> inv w -> inv w'.
Proof.
  intros S. assert (Steps w w') as S' by now apply Steps_one.
  assert (role w -> role w') as R by now apply role_mono.
  destruct S; try (apply (inv_same S' R); reflexivity).
  - apply (inv_same S' R); cbn [w_c]; unfold tracked in *; congruence.
  - intros (I1 & I2 & I3 & I4).
    assert (has negotiated (w_t w) = true -> has negotiated
      (w_t (World (set_state s (w_c w)) (if cb_state (c_cbs (w_c w)) then (s, EState s) :: w_t w else w_t w))) = true)
      as N by (intros; eapply has_mono; eauto).
    assert (has client_call (w_t w) = true -> has client_call
      (w_t (World (set_state s (w_c w)) (if cb_state (c_cbs (w_c w)) then (s, EState s) :: w_t w else w_t w))) = true)
      as N' by (intros; eapply has_mono; eauto).
    destruct H as (_ & Hr & _ & Hs).
    unfold inv, inv_wolf, inv_state, inv_neg, inv_auth. cbn [w_c c_wolf set_state c_state].
    repeat match goal with |- _ /\ _ => split end.
    + intros W. split; [apply R, I1, W|]. eapply has_mono; [eauto|]. apply I1, W.
    + intros. split; [apply R; now apply Hr|]. eapply has_mono; [eauto|]. now apply Hr.
    + intros Q. apply N.
      destruct Hs as [[? _]|[[? [? _]]|[[? (_ & ? & _)]|[[? _]|[[? _]|[[? _]|[? _]]]]]]];
        subst s; auto using now_has; destruct Q; discriminate.
    + intros Q. apply N'.
      destruct Hs as [[? _]|[[? [? _]]|[[? (? & ? & _)]|[[? _]|[[? _]|[[? _]|[? _]]]]]]];
        subst s; auto; discriminate.
  - apply (inv_same S' R); cbn [w_c]; apply configure_tracked.
  - intros (I1 & I2 & I3 & I4).
    assert (c_state c' = c_state (w_c w)) as T by (unfold tracked in *; cbn in *; congruence).
    unfold inv, inv_wolf, inv_state, inv_neg, inv_auth. cbn [w_c w_t]. rewrite T.
    repeat match goal with |- _ /\ _ => split end; auto.
Qed.

Lemma has_cons f x t : has f t = true -> has f (x :: t) = true.
Proof. intros H. unfold has in *. cbn [existsb]. rewrite H. apply orb_true_r. Qed.
Lemma role_push w e : role w -> role (World (w_c w) ((c_state (w_c w), e) :: w_t w)).
Proof.
  intros [A (x & (s & i & p & B) & D)]. split.
  - intros F. apply has_cons. now apply A.
  - exists x. split; [|exact D]. exists s, i, p. cbn [w_t In]. tauto.
Qed.
Lemma inv_push w e : inv w -> inv (World (w_c w) ((c_state (w_c w), e) :: w_t w)).
Proof.
  intros (I1 & I2 & I3 & I4). unfold inv, inv_wolf, inv_state, inv_neg, inv_auth in *. cbn [w_c w_t].
  split; [|split; [|split]].
  - intros W. destruct (I1 W). auto using role_push, has_cons.
  - intros N D. destruct (I2 N D). auto using role_push, has_cons.
  - auto using has_cons.
  - auto using has_cons.
Qed.
Lemma Reach_inv w : Reach w -> inv w.
Proof.
  induction 1; eauto using inv_step, inv_push.
  unfold inv, inv_wolf, inv_state, inv_neg, inv_auth; cbn. repeat split; try discriminate; try congruence.
  intros [|]; discriminate.
Qed.

Lemma count_app f a b : count f (a ++ b) = (count f a + count f b)%nat.
Proof. unfold count. now rewrite filter_app, app_length. Qed.
Lemma once_anti w w' : Steps w w' -> once (w_t w') -> once (w_t w).
Proof. intros S. destruct (Steps_grows S) as (l & -> & _). unfold once. rewrite count_app. lia. Qed.
Lemma has_count f t : has f t = true -> (1 <= count f t)%nat.
Proof.
  unfold has, count. induction t as [|[s e] t IH]; cbn; [discriminate|].
  destruct (f e); cbn; intros; [lia|auto].
Qed.

(** ** Path MTU discovery *)
Definition inv_pm (w : world) : Prop :=
  let c := w_c w in
  seq w (once (w_t w) -> pm_inv (c_pm c) /\
    (pm_state (c_pm c) <> HE_PMTUD_STATE_DISABLED ->
     (c_state c = HE_STATE_ONLINE \/ c_state c = HE_STATE_DISCONNECTING \/ c_state c = HE_STATE_DISCONNECTED) /\
     has connect_call (w_t w) = true /\
     forall o, last_call (w_t w) = Some o -> is_connect_op o = false)).

Lemma inv_pm_same w w' :
  Steps w w' -> c_pm (w_c w') = c_pm (w_c w) -> c_state (w_c w') = c_state (w_c w) -> inv_pm w -> inv_pm w'.
Proof.
  intros S P T I Hr Ho. unfold inv_pm in I. rewrite P, T.
  destruct (I (re_anti S Hr) (once_anti S Ho)) as [I1 I2]. split; auto.
  intros D. destruct (I2 D) as (D1 & D2 & D3). split; auto. split; [eapply has_mono; eauto|].
  rewrite (last_call_mono S). auto.
Qed.

Lemma calling_last f w o : re (w_t w) = false -> calling f w -> last_call (w_t w) = Some o -> f o = true.
Proof. intros Hr C L. destruct (C Hr) as (o' & L' & F). congruence. Qed.

Lemma inv_pm_step w w' : Reach w -> Step w w' -> inv_pm w -> inv_pm w'.
Proof.
  intros R S. assert (Steps w w') as S' by now apply Steps_one.
  pose proof (Reach_inv R) as (_ & Ist & _).
  destruct S; try (apply (inv_pm_same S'); reflexivity).
  - apply (inv_pm_same S'); cbn [w_c]; unfold tracked in *; congruence.
  - intros I Hr Ho. cbn [w_c c_pm set_state c_state].
    assert (re (w_t w) = false) as Hr0 by (eapply re_anti; eauto).
    destruct (I Hr0 (once_anti S' Ho)) as [I1 I2]. split; auto.
    intros D. destruct (I2 D) as (D1 & D2 & D3). split; [|split; [eapply has_mono; eauto|]].
    2: rewrite (last_call_mono S'); auto.
    destruct H as (_ & _ & Hd & Hs).
    destruct Hs as [[? Hc]|[(? & _ & Hc)|[(? & _ & _ & Hc)|[(? & _ & Hc)|[[? _]|[[? _]|[? _]]]]]]]; subst s; auto.
    + exfalso. destruct ((proj1 Hc) Hr0) as (o & L & F). rewrite (D3 o L) in F. discriminate.
    + exfalso. specialize (Hc Hr0). rewrite Hc in D1. destruct D1 as [|[|]]; discriminate.
    + exfalso. destruct (Hc Hr0) as [Hc' _]. rewrite Hc' in D1. destruct D1 as [|[|]]; discriminate.
    + exfalso. destruct (Hc Hr0) as [Hc' _]. rewrite Hc' in D1. destruct D1 as [|[|]]; discriminate.
  - apply (inv_pm_same S'); cbn [w_c]; apply configure_tracked.
  - apply (inv_pm_same S'); cbn [w_c]; unfold tracked in *; cbn in *; congruence.
  - intros I Hr Ho. cbn [w_c c_pm set_pm c_state w_t] in *. destruct H as (_ & H1 & H2).
    destruct (I Hr Ho) as [I1 I2]. split; [auto|]. intros D.
    destruct (Z.eq_dec (pm_state (c_pm (w_c w))) HE_PMTUD_STATE_DISABLED) as [E|E]; [|auto].
    destruct (H2 Hr E) as [|[ON C]]; [contradiction|]. split; [auto|]. split.
    + apply Ist; rewrite ON; discriminate.
    + intros o L. pose proof (calling_last Hr C L). destruct o; try discriminate; reflexivity.
Qed.
Lemma pm_inv_new : pm_inv (c_pm conn_new).
Proof. split; [cbn; unfold MAX_PROBES; lia|]. split; [left; reflexivity|]. left; repeat split. Qed.
Lemma Reach_pm w : Reach w -> inv_pm w.
Proof.
  induction 1 as [|w w' R IH S|w o R IH|w o rc R IH H].
  - intros _ _. cbn [w_c world_new]. split; [apply pm_inv_new|]. intros D. exfalso. now apply D.
  - eauto using inv_pm_step.
  - intros Hr Ho. cbn [w_c w_t] in *. unfold inv_pm in IH.
    assert (once (w_t w)) as Ho'.
    { unfold once, count in *. cbn [filter snd] in Ho. destruct (connect_call _); cbn in Ho; lia. }
    destruct (IH Hr Ho') as [I1 I2]. split; [auto|]. intros D. destruct (I2 D) as (D1 & D2 & D3).
    split; [auto|]. split; [unfold has in *; cbn; rewrite D2; apply orb_true_r|].
    intros o' [= <-]. destruct (is_connect_op o) eqn:E; [|reflexivity]. exfalso.
    unfold once, count in Ho. cbn [filter snd] in Ho. change (connect_call (ECall o)) with (is_connect_op o) in Ho. rewrite E in Ho.
    cbn [length] in Ho. apply has_count in D2. unfold count in D2. lia.
  - intros Hr Ho. cbn [w_c w_t] in *.
    destruct (IH Hr Ho) as [I1 I2]. split; [auto|]. intros D. destruct (I2 D) as (D1 & D2 & D3). auto.
Qed.

(** The role of a connection that has ever been a server *)
Definition role2 (w : world) : Prop := c_is_server (w_c w) = true -> has server_call (w_t w) = true.
Lemma role2_step w w' : Step w w' -> role2 w -> role2 w'.
Proof.
  intros S R. assert (Steps w w') as S' by now apply Steps_one.
  intros H. destruct S; cbn [w_c] in *; try (apply (has_mono S'); apply R;
    try (unfold tracked in *; congruence); exact H).
  - cbn [c_is_server set_is_server] in H; subst b; auto.
  - apply (has_mono S'); apply R. destruct (configure_tracked x i p (w_c w)) as (_ & Q & _). congruence.
  - apply (has_mono S'); apply R. match goal with T : tracked _ = tracked _ |- _ =>
      unfold tracked in T; cbn in T; congruence end.
Qed.
Lemma Reach_role2 w : Reach w -> role2 w.
Proof.
  assert (forall w e, role2 w -> role2 (World (w_c w) ((c_state (w_c w), e) :: w_t w))) as P.
  { intros v e H F. specialize (H F). unfold has in *. cbn [w_t existsb]. rewrite H. apply orb_true_r. }
  induction 1; eauto using role2_step. discriminate.
Qed.

(** ** The wolfSSL object *)
Definition inv_tls (w : world) : Prop :=
  seq w ((c_wolf (w_c w) = true \/ has tls_lost (w_t w) = true) \/
         (c_state (w_c w) = HE_STATE_NONE \/ c_state (w_c w) = HE_STATE_DISCONNECTED) /\ c_prog (w_c w) = false).
Lemma inv_tls_same w w' : Steps w w' ->
  c_wolf (w_c w') = c_wolf (w_c w) -> c_state (w_c w') = c_state (w_c w) ->
  (c_prog (w_c w') = c_prog (w_c w) \/ c_prog (w_c w') = false) -> inv_tls w -> inv_tls w'.
Proof.
  intros S W T P I Hr. specialize (I (re_anti S Hr)). rewrite W, T.
  destruct I as [[I|I]|[I Q]]; [left; auto|left; right; now apply (has_mono S)|].
  right. split; [exact I|]. destruct P as [P|P]; congruence.
Qed.
Lemma inv_tls_step w w' : Step w w' -> inv_tls w -> inv_tls w'.
Proof.
  intros S. assert (Steps w w') as S' by now apply Steps_one.
  destruct S; try (apply (inv_tls_same S'); cbn; auto; fail).
  - apply (inv_tls_same S'); cbn [w_c]; unfold tracked in *; try congruence. left; congruence.
  - intros I Hr. pose proof (re_anti S' Hr) as Hr'. specialize (I Hr'). cbn [w_c c_wolf set_state c_state c_prog].
    assert (tls_ok w -> c_wolf (w_c w) = true \/ has tls_lost (w_t
      (World (set_state s (w_c w)) (if cb_state (c_cbs (w_c w)) then (s, EState s) :: w_t w else w_t w))) = true) as L.
    { intros T. destruct (T Hr'); [auto|right; now apply (has_mono S')]. }
    assert (c_state (w_c w) <> HE_STATE_NONE -> c_state (w_c w) <> HE_STATE_DISCONNECTED -> tls_ok w) as P.
    { intros A B _. destruct I as [I|[[I|I] _]]; [exact I|contradiction|contradiction]. }
    destruct H as (_ & _ & _ & Hs).
    destruct Hs as [(E & _ & T)|[(E & _ & T)|[(E & _ & _ & T)|[(E & _ & T)|[(E & (_ & T) & _)|[(E & _ & T)|(E & _)]]]]]].
    1,5,6: left; exact (L T).
    1,2,3: left; specialize (T Hr'); apply L, P; repeat match goal with H : _ /\ _ |- _ => destruct H end;
       match goal with H : c_state _ = _ |- _ => rewrite H; discriminate end.
    destruct I as [[I|I]|[I Q]]; [left; auto|left; right; now apply (has_mono S')|].
    right. auto.
  - apply (inv_tls_same S'); cbn [w_c]; try (left); apply configure_tracked.
  - intros I Hr. left. cbn [w_c w_t]. apply H4. exact Hr.
  - intros I Hr. left. cbn [w_c w_t c_wolf set_prog]. destruct (H3 (re_anti S' Hr)); [auto|right; now apply (has_mono S')].
  - intros I Hr. specialize (H (re_anti S' Hr)). revert Hr. apply (inv_tls_same S'); auto. cbn [w_c c_prog set_prog].
    destruct H as [H|[H _]]; auto.
Qed.
Lemma inv_tls_push w e : inv_tls w -> re (w_t (World (w_c w) ((c_state (w_c w), e) :: w_t w))) = false ->
  inv_tls (World (w_c w) ((c_state (w_c w), e) :: w_t w)).
Proof.
  intros I Hr _. unfold re, has in Hr. cbn [w_t existsb] in Hr. apply orb_false_iff in Hr. destruct Hr as [_ Hr].
  specialize (I Hr). cbn [w_c w_t]. destruct I as [[I|I]|I]; auto using has_cons.
Qed.
Lemma Reach_tls w : Reach w -> inv_tls w.
Proof.
  induction 1; [|eauto using inv_tls_step| |].
  - intros _. right. split; [left|]; reflexivity.
  - intros Hr. exact (inv_tls_push IHReach Hr Hr).
  - intros Hr. exact (inv_tls_push IHReach Hr Hr).
Qed.
(** In every other state, and while a renegotiation is in progress. *)
Lemma tls_when w : Reach w ->
  seq w (c_state (w_c w) <> HE_STATE_NONE /\ c_state (w_c w) <> HE_STATE_DISCONNECTED \/ c_prog (w_c w) = true \/
         c_wolf (w_c w) = true) -> tls_ok w.
Proof.
  intros R H Hr. destruct (Reach_tls R Hr) as [I|[[I|I] P]]; [exact I| |];
    (destruct (H Hr) as [[A B]|[C|C]]; [contradiction|congruence|auto]).
Qed.
Lemma wolf_step w w' : Step w w' -> seq w (c_wolf (w_c w') = c_wolf (w_c w) \/ calling is_connect_op w).
Proof.
  intros S Hr. destruct S; cbn [w_c]; auto.
  left. unfold tracked in *. congruence.
Qed.
Lemma tls_stays f w w' : Steps w w' -> calling f w -> (forall o, f o = true -> is_connect_op o = false) ->
  tls_ok w -> tls_ok w'.
Proof.
  intros S C F. induction S as [w|w1 w2 w3 S1 S2 IH]; [auto|]. intros T.
  assert (Steps w1 w2) as S1' by now apply Steps_one.
  apply IH; [exact (calling_mono S1' C)|]. intros Hr.
  assert (seq w2 (c_wolf (w_c w2) = c_wolf (w_c w1))) as W.
  { intros Hr2. pose proof (re_anti S1' Hr2) as Hr1. destruct (wolf_step S1 Hr1) as [W|D]; [exact W|].
    exfalso. destruct (C Hr1) as (o & L & Fo). destruct (D Hr1) as (o' & L' & Fo').
    rewrite L in L'. injection L' as <-. rewrite (F o Fo) in Fo'. discriminate. }
  rewrite (W Hr). destruct (T (re_anti S1' Hr)); [auto|right; now apply (has_mono S1')].
Qed.
Lemma tls_keep w w' : Steps w w' -> seq w' (c_wolf (w_c w') = c_wolf (w_c w)) -> tls_ok w -> tls_ok w'.
Proof. intros S W T Hr. rewrite (W Hr). destruct (T (re_anti S Hr)); [auto|right; now apply (has_mono S)]. Qed.
