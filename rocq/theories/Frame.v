(** A logic for invariants: [keeps m] says that the computation [m] preserves
    [I].  The lemmas of the section hold for every [I] preserved by the
    primitive steps a function makes; after the section is closed each lemma
    asks only for the primitives its function uses. *)
From Verif Require Import Base Codes Ctx Config Mss Frag Wire WireSpec ConnState Conn ConnSpec.
Unset Strict Implicit.

Definition push (e : ev) (w : world) : world := World (w_c w) ((c_state (w_c w), e) :: w_t w).
Definition with_c (f : conn -> conn) (w : world) : world := World (f (w_c w)) (w_t w).

(** Events that only the functions named here emit:
    the packets written outside, the plugins and wolfSSL's I/O are special. *)
Definition io_event (e : ev) : bool :=
  match e with
  | ECall _ | ERet _ _ | ENest _ | ENestRet _ _ | EOutside _ | ECbRet KOutside _ | ECbRet KPopulate _ | ECbRet KAuth _ | ECbRet KNetCfg _ | EInside _
  | EPlugin _ _ _ _ | EPluginRet _ _ | EWIn _ _ _ | EWOut _ _
  | EWOp _ | EWEnd _ _ _ _ | EPopulate
  | EAuthUser _ _ | EAuthToken _ | EAuthBuf _ _ | ECfg _ _ _ | ENetCfg _ _ _ _ | ESrvCfg _
  | EPmTime _ | EPmState _ | ENudge _
  | EAsk QTimeout _ | EAsk QQuickTimeout _ | EAsk QRenegPending _ | EAsk QKeyUpdate _ | EAsk QKeyUpdatePending _ | EAsk QRenegSupport _ => true
  | EEvent v => (v =? HE_EVENT_PONG) || (v =? HE_EVENT_PENDING_SESSION_ACKNOWLEDGED) ||
    (v =? HE_EVENT_SECURE_RENEGOTIATION_STARTED) || (v =? HE_EVENT_SECURE_RENEGOTIATION_COMPLETED)
  | _ => false
  end.

Ltac case_if := match goal with |- context [if ?b then _ else _] => destruct b end.

(** The messages with credentials are those made from the connection's settings;
    all others are of a different type. *)
Definition auth_made (le : bool) (c : conn) (m : bytes) : Prop :=
  (c_auth_type c = HE_AUTH_TYPE_USERPASS /\ build_auth_userpass (c_username c) (c_password c) = Val m) \/
  (exists b size, (c_auth_type c = HE_AUTH_TYPE_TOKEN /\ size = HE_MAX_WIRE_MTU \/ c_auth_type c = HE_AUTH_TYPE_CB /\ size = HE_MAX_MTU) /\
     build_auth_buffer le size (c_auth_type c) (c_auth_buf c) (c_auth_len c) = Val b /\
     ldn b 0 (u16 (4 + c_auth_len c)) = Val m).
Definition plain (o : wop) : Prop := match o with WSend m => msg_type m <> HE_MSGID_AUTH /\ msg_type m <> HE_MSGID_CONFIG_IPV4 /\ msg_type m <> HE_MSGID_AUTH_RESPONSE | WNegotiate => False | _ => True end.
(** Probes of path MTU discovery: pings with a payload. *)
Definition probing (o : wop) : bool := match o with WSend m => (msg_type m =? HE_MSGID_PING) && (5 <? len m) | _ => false end.
(** Answers to pings. *)
Definition ponging (o : wop) : bool := match o with WSend m => msg_type m =? HE_MSGID_PONG | _ => false end.

Lemma type_st8 b v b' : u8 v = v -> st8 b 0 v = Val b' -> msg_type b' = v.
Proof. intros U. unfold st8, stn. rewrite U. destruct (_ && _); [|discriminate]. intros [= <-]. reflexivity. Qed.
Lemma type_stn b off d b' : 1 <= off -> stn b off d = Val b' -> msg_type b' = msg_type b.
Proof.
  unfold stn. intros H. destruct ((0 <=? off) && (off + len d <=? len b)) eqn:C; [|discriminate]. intros [= <-]. unfold msg_type.
  apply andb_true_iff in C. destruct C as [_ C]. apply Z.leb_le in C.
  destruct b as [|x b]; [exfalso; unfold len in C; cbn [length] in C; lia|]. destruct (Z.to_nat off) eqn:N; [exfalso; lia|reflexivity].
Qed.
Lemma type_ldn b n m : ldn b 0 n = Val m -> msg_type m = msg_type b \/ m = [].
Proof.
  unfold ldn, slice. destruct (_ && _); [|discriminate]. intros [= <-]. cbn [Z.to_nat skipn]. destruct b as [|x b]; [now rewrite firstn_nil; right|].
  destruct (Z.to_nat n); [now right|left; reflexivity].
Qed.
Ltac in_val H :=
  match type of H with
  | rbind ?r _ = Val _ => let X := fresh "X" in destruct r eqn:X; [cbn [rbind] in H; in_val H|discriminate H]
  | _ => idtac
  end.
(** Messages of type [ty]. *)
Ltac typed H :=
  in_val H;
  repeat match goal with
  | X : stn _ ?off _ = Val _ |- _ => apply type_stn in X; [|cbv; discriminate]
  | X : sth16 _ _ ?off _ = Val _ |- _ => apply type_stn in X; [|cbv; discriminate]
  | X : sth64 _ _ ?off _ = Val _ |- _ => apply type_stn in X; [|cbv; discriminate]
  | X : st8 _ 0 _ = Val _ |- _ => apply type_st8 in X; [|reflexivity]
  | X : st8 _ ?off _ = Val _ |- _ => apply type_stn in X; [|cbv; discriminate]
  end; congruence.
Lemma type_ping le n id p m : build_ping le n id p = Val m -> msg_type m = HE_MSGID_PING.
Proof. unfold build_ping. intros H. typed H. Qed.
Lemma type_pong le id m : build_pong le id = Val m -> msg_type m = HE_MSGID_PONG.
Proof. unfold build_pong. intros H. typed H. Qed.
Lemma type_goodbye m : build_goodbye = Val m -> msg_type m = HE_MSGID_GOODBYE.
Proof. unfold build_goodbye. intros H. typed H. Qed.
Lemma type_response m : build_auth_response = Val m -> msg_type m = HE_MSGID_AUTH_RESPONSE.
Proof. unfold build_auth_response. intros H. typed H. Qed.
Lemma type_server_config le d m : build_server_config le d = Val m -> msg_type m = HE_MSGID_SERVER_CONFIG.
Proof. unfold build_server_config. intros H. typed H. Qed.
Lemma type_config le s l p d m : build_config_ipv4 le s l p d = Val m -> msg_type m = HE_MSGID_CONFIG_IPV4.
Proof.
  assert (forall b off s b', 1 <= off -> put_ipstr b off s = Val b' -> msg_type b' = msg_type b) as P.
  { unfold put_ipstr. intros b off x b' Ho H. in_val H. apply type_stn in H; [|change HE_MAX_IPV4_STRING_LENGTH with 24; lia]. apply type_stn in X0; [congruence|lia]. }
  unfold build_config_ipv4. intros H. in_val H.
  repeat match goal with X : put_ipstr _ _ _ = Val _ |- _ => apply P in X; [|lia] end. typed H.
Qed.
Lemma type_data le a b p m : build_data le a b p = Val m -> msg_type m = HE_MSGID_DATA.
Proof. unfold build_data. intros H. typed H. Qed.
Lemma type_frag le p id o l f m : frag_msg le p id o l f = Val m -> msg_type m = HE_MSGID_DATA_WITH_FRAG.
Proof. unfold frag_msg. intros H. typed H. Qed.
Ltac not_type :=
  let A := fresh "A" in intros A;
  match goal with
  | X : ldn ?b 0 _ = Val ?m |- _ => apply type_ldn in X; destruct X as [X| ->]; [rewrite X in A|discriminate A]
  | _ => idtac
  end;
  match goal with
  | X : build_ping _ _ _ _ = Val _ |- _ => apply type_ping in X
  | X : build_pong _ _ = Val _ |- _ => apply type_pong in X
  | X : build_goodbye = Val _ |- _ => apply type_goodbye in X
  | X : build_auth_response = Val _ |- _ => apply type_response in X
  | X : build_server_config _ _ = Val _ |- _ => apply type_server_config in X
  | X : build_config_ipv4 _ _ _ _ _ = Val _ |- _ => apply type_config in X
  | X : build_data _ _ _ _ = Val _ |- _ => apply type_data in X
  | X : frag_msg _ _ _ _ _ _ = Val _ |- _ => apply type_frag in X
  end;
  match goal with X : msg_type _ = _ |- _ => rewrite X in A; discriminate A end.

Ltac not_auth := split; [|split]; not_type.
Lemma len_ldn b off n m : ldn b off n = Val m -> len m = n.
Proof.
  unfold ldn, slice. destruct (_ && _) eqn:C; [|discriminate]. intros [= <-]. apply andb_true_iff in C as [C C2]. apply andb_true_iff in C as [C0 C1].
  unfold len in *. rewrite firstn_length, skipn_length. lia.
Qed.
Lemma len_stn b off d m : stn b off d = Val m -> len m = len b.
Proof.
  unfold stn. destruct (_ && _) eqn:C; [|discriminate]. intros [= <-]. apply andb_true_iff in C as [C0 C1].
  unfold len in *. rewrite !app_length, firstn_length, skipn_length. lia.
Qed.
Lemma len_ping5 le id m : build_ping le 5 id 0 = Val m -> len m = 5.
Proof.
  unfold build_ping. intros H. in_val H. unfold sth16, st8 in *. repeat match goal with X : stn _ _ _ = Val _ |- _ => apply len_stn in X end.
  match goal with X : len ?b = len (zeros 5) |- _ => change (len (zeros 5)) with 5 in X end. lia.
Qed.
Lemma auth_probe le c m : auth_made le c m -> probing (WSend m) = false.
Proof.
  assert (msg_type m = HE_MSGID_AUTH \/ m = [] -> probing (WSend m) = false) as K by (intros [H| ->]; [cbn; now rewrite H|reflexivity]).
  intros [[_ H]|(b & n & _ & H & L)]; apply K.
  - left. unfold build_auth_userpass in H. typed H.
  - apply type_ldn in L as [L|L]; [left; rewrite L|now right]. unfold build_auth_buffer in H. typed H.
Qed.
Ltac not_probe :=
  apply andb_false_iff;
  first [left; apply Z.eqb_neq; not_type
        |right; match goal with X : build_ping _ _ _ _ = Val _ |- _ => apply len_ping5 in X; rewrite X; reflexivity end].

Ltac not_pong := apply Z.eqb_neq; not_type.

(** Asking for the version needs a wolfSSL object. *)
Lemma version_bind E A (k : Z -> M A) w :
  bind (ask_version E) k w = bind (ask E QVersion) k w \/ bind (ask_version E) k w = Stuck UB_null w.
Proof. unfold bind, ask_version, bind, get. destruct (c_wolf (w_c w)); auto. Qed.
Lemma version_done E w a w' : ask_version E w = Done a w' -> ask E QVersion w = Done a w'.
Proof. unfold ask_version, bind, get. destruct (c_wolf (w_c w)); [auto|discriminate]. Qed.
Ltac ver :=
  match goal with |- context [bind (ask_version ?E) ?k ?w] =>
    let Q := fresh "Q" in destruct (version_bind E k w) as [Q|Q]; rewrite Q; clear Q; [|first [exact I|intros; discriminate]]
  end.

Section Frame.
Variable E : env.
Variable hook : M unit.
Variable I IS : world -> Prop.
(** From [I], [m] ends in [I] or goes wrong in [IS]. *)
Definition keeps {A} (m : M A) : Prop :=
  forall w, I w -> match m w with Done _ w' => I w' | Stuck _ w' => IS w' end.
Hypothesis H_IS : forall w, I w -> IS w.

Lemma keeps_ret A (a : A) : keeps (ret a).
Proof. intros w H. exact H. Qed.
Lemma keeps_bind A B (m : M A) (k : A -> M B) : keeps m -> (forall a, keeps (k a)) -> keeps (bind m k).
Proof.
  intros Hm Hk w H. unfold bind. specialize (Hm w H). destruct (m w) as [a w'|u w']; [|exact Hm].
  now apply Hk.
Qed.
Lemma keeps_get A (f : conn -> A) : keeps (get f).
Proof. intros w H. exact H. Qed.
Lemma keeps_log : keeps log.
Proof. intros w H. exact H. Qed.
Lemma keeps_stuck A u : keeps (@stuck A u).
Proof. intros w H. now apply H_IS. Qed.
Lemma keeps_bind_lift A B (r : res A) (k : A -> M B) : (forall a, r = Val a -> keeps (k a)) -> keeps (bind (lift r) k).
Proof. intros H w Iw. unfold bind, lift. destruct r as [a|u]; [now apply H|now apply H_IS]. Qed.
Lemma keeps_lift A (r : res A) : keeps (lift r).
Proof. intros w H. destruct r; [exact H|now apply H_IS]. Qed.
Lemma keeps_version : keeps (ask E QVersion) -> keeps (ask_version E).
Proof. intros H. unfold ask_version. apply keeps_bind; [apply keeps_get|]. intros []; [exact H|apply keeps_stuck]. Qed.
Lemma keeps_when b m : keeps m -> keeps (when b m).
Proof. intros H. destruct b; [exact H|apply keeps_ret]. Qed.
Lemma keeps_upd f : (forall w, I w -> I (with_c f w)) -> keeps (upd f).
Proof. intros H w. apply H. Qed.
Lemma keeps_emit e : (forall w, I w -> I (push e w)) -> keeps (emit e).
Proof. intros H w. apply H. Qed.

Hypothesis H_hook : keeps hook.
Hypothesis H_event : forall e w, io_event e = false -> I w -> I (push e w).
Hypothesis H_pong : forall w, I w -> I (push (EEvent HE_EVENT_PONG) w).
Hypothesis H_acked : forall w, I w -> I (push (EEvent HE_EVENT_PENDING_SESSION_ACKNOWLEDGED) w).
Hypothesis H_started : forall w, I w -> I (push (EEvent HE_EVENT_SECURE_RENEGOTIATION_STARTED) w).
Hypothesis H_completed : forall w, I w -> I (push (EEvent HE_EVENT_SECURE_RENEGOTIATION_COMPLETED) w).
Hypothesis H_askuser : forall u p w, I w -> I (push (EAuthUser u p) w).
Hypothesis H_asktoken : forall b w, I w -> I (push (EAuthToken b) w).
Hypothesis H_askbuf : forall ty b w, I w -> I (push (EAuthBuf ty b) w).
Hypothesis H_popret : forall v w, I w -> I (push (ECbRet KPopulate v) w).
Hypothesis H_authret : forall v w, I w -> I (push (ECbRet KAuth v) w).
Hypothesis H_netret : forall v w, I w -> I (push (ECbRet KNetCfg v) w).
Hypothesis H_cfg : forall l p d w, I w -> I (push (ECfg l p d) w).
Hypothesis H_netcfg : forall l p d m w, I w -> I (push (ENetCfg l p d m) w).
Hypothesis H_srvcfg : forall b w, I w -> I (push (ESrvCfg b) w).
Hypothesis H_plugin : forall b i d c w, I w -> I (push (EPlugin b i d c) w).
Hypothesis H_pluginret : forall r d w, I w -> I (push (EPluginRet r d) w).
Hypothesis H_callout : forall p w, I w -> I (push (EOutside p) w).
Hypothesis H_inside : forall p w, I w -> I (push (EInside p) w).
Hypothesis H_retout : forall v w, I w -> I (push (ECbRet KOutside v) w).
Hypothesis H_win : forall sz r d w, I w -> I (push (EWIn sz r d) w).
Hypothesis H_wout : forall b r w, I w -> I (push (EWOut b r) w).
Hypothesis H_seen : forall w, I w -> I (with_c (set_rx (set_rx_seen true (c_rx (w_c w)))) w).
Hypothesis H_taken : forall n rest w, I w ->
  I (with_c (set_rx (Rx (rx_data (c_rx (w_c w))) (rx_seen (c_rx (w_c w))) (rx_left (c_rx (w_c w)) - n)
                        (Some rest) (rx_live (c_rx (w_c w))))) w).
Hypothesis H_wop : forall o w, plain o -> probing o = false -> ponging o = false -> I w -> I (push (EWOp o) w).
Hypothesis H_wpong : forall m w, plain (WSend m) -> probing (WSend m) = false -> ponging (WSend m) = true -> I w -> I (push (EWOp (WSend m)) w).
Hypothesis H_wopneg : forall w, I w -> I (push (EWOp WNegotiate) w).
Hypothesis H_wprobe : forall m w, plain (WSend m) -> probing (WSend m) = true -> I w -> I (push (EWOp (WSend m)) w).
Hypothesis H_pmtime : forall v w, I w -> I (push (EPmTime v) w).
Hypothesis H_pmstate : forall v w, I w -> I (push (EPmState v) w).
Hypothesis H_populate : forall w, I w -> I (push EPopulate w).
Hypothesis H_wdenied : forall w, I w -> I (push (EWOp (WSend auth_denied_message)) w).
Hypothesis H_wconf : forall m w, msg_type m = HE_MSGID_CONFIG_IPV4 -> I w -> I (push (EWOp (WSend m)) w).
Hypothesis H_wauth : forall m w, auth_made (e_le E) (w_c w) m -> I w -> I (push (EWOp (WSend m)) w).
Hypothesis H_nudged : forall v w, I w -> I (push (ENudge v) w).
Hypothesis H_qtimeout : forall r w, I w -> I (push (EAsk QTimeout r) w).
Hypothesis H_qquick : forall r w, I w -> I (push (EAsk QQuickTimeout r) w).
Hypothesis H_qreneg : forall r w, I w -> I (push (EAsk QRenegPending r) w).
Hypothesis H_qsupport : forall r w, I w -> I (push (EAsk QRenegSupport r) w).
Hypothesis H_qkey : forall r w, I w -> I (push (EAsk QKeyUpdate r) w).
Hypothesis H_qkeyp : forall r w, I w -> I (push (EAsk QKeyUpdatePending r) w).
Hypothesis H_wrehand : forall r err d w, I w -> I (push (EWEnd WRehandshake r err d) w).
Hypothesis H_wkeys : forall r err d w, I w -> I (push (EWEnd WUpdateKeys r err d) w).
Hypothesis H_wend : forall o r err d w, o <> WRehandshake -> o <> WUpdateKeys -> o <> WRecv -> o <> WNegotiate -> probing o = false -> I w -> I (push (EWEnd o r err d) w).
Hypothesis H_wendp : forall m r err d w, WSend m <> WRecv -> WSend m <> WNegotiate -> probing (WSend m) = true -> I w -> I (push (EWEnd (WSend m) r err d) w).
Hypothesis H_wneg : forall r err d w, I w -> I (push (EWEnd WNegotiate r err d) w).
Hypothesis H_recv : forall r err d w, I w -> I (push (EWEnd WRecv r err d) w).
Hypothesis H_read : forall sz, keeps (io_read sz).
Hypothesis H_write : forall b, keeps (io_write E hook b).
Hypothesis H_is_client : forall w, I w -> I (with_c (set_is_server false) w).
Hypothesis H_is_server : forall w, I w -> I (with_c (set_is_server true) w).
Hypothesis H_username : forall v w, I w -> I (with_c (set_username v) w).
Hypothesis H_password : forall v w, I w -> I (with_c (set_password v) w).
Hypothesis H_auth_type : forall v w, I w -> I (with_c (set_auth_type v) w).
Hypothesis H_auth : forall v n w, I w -> I (with_c (fun c => set_auth_len n (set_auth_buf v c)) w).
Hypothesis H_sni : forall v w, I w -> I (with_c (set_sni v) w).
Hypothesis H_mtu : forall v w, HE_PACKET_OVERHEAD < v <= 65535 -> I w -> I (with_c (set_mtu v) w).
Hypothesis H_version : forall a b w, I w -> I (with_c (fun c => set_vmin a (set_vmaj b c)) w).
Hypothesis H_configure : forall x i p w, I w -> I (with_c (configure_fields x i p) w).
Hypothesis H_wolf : forall i b w, I w -> I (with_c (fun c => set_io i (set_wolf_ctx false (set_wolf b c))) w).
Hypothesis H_wolf_ctx : forall w, I w -> I (with_c (set_wolf_ctx true) w).
Hypothesis H_state : forall v w, I w -> I (with_c (set_state v) w).
Hypothesis H_timeout : forall v w, I w -> I (with_c (set_timeout v) w).
Hypothesis H_cbs_off : forall w, I w -> I (with_c (fun c =>
      let k := c_cbs c in
      set_timeout 0 (set_cbs
        (Cbs (cb_state k) (cb_nudge k) false false (cb_netcfg k) (cb_srvcfg k) (cb_event k)
             (cb_auth k) (cb_authtok k) (cb_authbuf k) (cb_populate k) (cb_pmtime k) (cb_pmstate k)) c)) w).
Hypothesis H_session : forall v w, I w -> I (with_c (set_session v) w).
Hypothesis H_pending : forall v w, I w -> I (with_c (set_pending v) w).
Hypothesis H_ack : forall v w, I w -> I (with_c (fun c => set_pending HE_PACKET_SESSION_EMPTY (set_session v c)) w).
Hypothesis H_first : forall v w, I w -> I (with_c (set_first v) w).
Hypothesis H_nudging : forall v w, I w -> I (with_c (set_nudging v) w).
Hypothesis H_prog : forall v w, I w -> I (with_c (set_prog v) w).
Hypothesis H_due : forall v w, I w -> I (with_c (set_due v) w).
Hypothesis H_ping_next : forall v w, I w -> I (with_c (set_ping_next v) w).
Hypothesis H_ping_pend : forall v w, I w -> I (with_c (set_ping_pend v) w).
Hypothesis H_pm : forall f w, I w -> I (with_c (fun c => set_pm (f (c_pm c)) c) w).
Hypothesis H_frag_next : forall v w, I w -> I (with_c (set_frag_next v) w).
Hypothesis H_frag_tbl : forall v w, I w -> I (with_c (set_frag_tbl v) w).
Hypothesis H_frag_del : forall id w, I w -> I (with_c (fun c => set_frag_tbl (match c_frag_tbl c with
                                    | None => None | Some t => Some (table_delete t id) end) c) w).
Hypothesis H_wolf_err : forall v w, I w -> I (with_c (set_wolf_err v) w).

Ltac kp1 :=
  match goal with
  | |- keeps (bind (lift _) _) => apply keeps_bind_lift; intros
  | |- keeps (bind _ _) => apply keeps_bind; [|intro]
  | |- keeps (ret _) => apply keeps_ret
  | |- keeps (get _) => apply keeps_get
  | |- keeps log => apply keeps_log
  | |- keeps (stuck _) => apply keeps_stuck
  | |- keeps (lift _) => apply keeps_lift
  | |- keeps (when _ _) => apply keeps_when
  | |- keeps (upd _) => apply keeps_upd; auto; fail
  | |- keeps (emit _) => apply keeps_emit; intros; apply H_event; [reflexivity|assumption]
  | |- keeps (emit _) => apply keeps_emit; solve [auto; intros; apply H_event; auto]
  | |- keeps (if ?b then _ else _) => destruct b
  | |- keeps (let '(_, _) := ?x in _) => destruct x
  | |- keeps (match ?x with None => _ | Some _ => _ end) => destruct x
  | _ => auto; fail
  end.
Ltac kp := intros; repeat kp1.

Lemma keeps_ask q : (forall r, io_event (EAsk q r) = false) -> keeps (ask E q).
Proof. intros H. unfold ask. kp. Qed.
Lemma keeps_qtimeout : keeps (ask E QTimeout).
Proof. unfold ask. kp. Qed.
Lemma keeps_qquick : keeps (ask E QQuickTimeout).
Proof. unfold ask. kp. Qed.
Lemma keeps_qreneg : keeps (ask E QRenegPending).
Proof. unfold ask. kp. Qed.
Lemma keeps_qsupport : keeps (ask E QRenegSupport).
Proof. unfold ask. kp. Qed.
Lemma keeps_qkey : keeps (ask E QKeyUpdate).
Proof. unfold ask. kp. Qed.
Lemma keeps_qkeyp : keeps (ask E QKeyUpdatePending).
Proof. unfold ask. kp. Qed.
Lemma keeps_nudged v : keeps (notify hook (ENudge v)).
Proof. unfold notify. kp. Qed.
Lemma keeps_notify e : io_event e = false -> keeps (notify hook e).
Proof. intros H. unfold notify. kp. Qed.
Lemma keeps_callback e k : io_event e = false -> io_event (ECbRet k 0) = false -> keeps (callback E hook e k).
Proof.
  intros H H'. unfold callback. apply keeps_bind; [apply keeps_emit; auto|]. intros _. kp.
Qed.
Lemma keeps_callback_at e k : (forall w, I w -> I (push e w)) -> io_event (ECbRet k 0) = false -> keeps (callback E hook e k).
Proof.
  intros H H'. unfold callback. apply keeps_bind; [apply keeps_emit; auto|]. intros _. kp.
Qed.
Lemma keeps_callback_both e k : (forall w, I w -> I (push e w)) -> (forall v w, I w -> I (push (ECbRet k v) w)) -> keeps (callback E hook e k).
Proof.
  intros H H'. unfold callback. apply keeps_bind; [apply keeps_emit; auto|]. intros _. kp.
Qed.
Hint Extern 1 (keeps (ask _ QTimeout)) => apply keeps_qtimeout : core.
Hint Extern 1 (keeps (ask _ QQuickTimeout)) => apply keeps_qquick : core.
Hint Extern 1 (keeps (ask _ QRenegPending)) => apply keeps_qreneg : core.
Hint Extern 1 (keeps (ask _ QRenegSupport)) => apply keeps_qsupport : core.
Hint Extern 1 (keeps (ask _ QKeyUpdate)) => apply keeps_qkey : core.
Hint Extern 1 (keeps (ask _ QKeyUpdatePending)) => apply keeps_qkeyp : core.
Hint Extern 1 (keeps (notify _ (ENudge _))) => apply keeps_nudged : core.
Hint Extern 2 (keeps (ask _ _)) => apply keeps_ask; reflexivity : core.
Hint Resolve keeps_notify keeps_callback : core.
Hint Extern 1 (keeps (callback _ _ (EAuthUser _ _) _)) => apply keeps_callback_both : core.
Hint Extern 1 (keeps (callback _ _ (EAuthToken _) _)) => apply keeps_callback_both : core.
Hint Extern 1 (keeps (callback _ _ (EAuthBuf _ _) _)) => apply keeps_callback_both : core.
Hint Extern 1 (keeps (callback _ _ (ENetCfg _ _ _ _) _)) => apply keeps_callback_both : core.
Hint Extern 1 (keeps (callback _ _ (ESrvCfg _) _)) => apply keeps_callback_at : core.
Hint Extern 1 (keeps (emit (ECfg _ _ _))) => apply keeps_emit : core.

Lemma keeps_call_plugin b i d c : keeps (call_plugin E b i d c).
Proof.
  unfold call_plugin. apply keeps_bind; [apply keeps_emit; auto|]. intros _. apply keeps_bind; [kp|]. intros t.
  destruct (e_plugin E t). apply keeps_bind; [apply keeps_emit; auto|kp].
Qed.
Hint Resolve keeps_call_plugin : core.
Lemma keeps_plugin_ingress ch : forall d c, keeps (plugin_ingress E ch d c).
Proof. induction ch as [|[p|] ch IH]; intros d c; cbn [plugin_ingress]; kp. Qed.
Lemma keeps_plugin_egress ch : forall d c, keeps (plugin_egress E ch d c).
Proof. induction ch as [|[p|] ch IH]; intros d c; cbn [plugin_egress]; kp. Qed.
Hint Resolve keeps_plugin_ingress keeps_plugin_egress : core.

(** The I/O callbacks *)
Lemma keeps_dtls_read sz : keeps (dtls_read sz).
Proof.
  intros w H. unfold dtls_read, bind, get. destruct ((sz <? 0) || _); [exact H|]. destruct (rx_data _); [|exact H].
  destruct (rx_seen _); [exact H|]. destruct (sz <? len b); [now apply H_seen|].
  destruct (negb (rx_live _)); [now apply H_IS|now apply H_seen].
Qed.
Lemma keeps_tls_read sz : keeps (tls_read sz).
Proof.
  intros w H. unfold tls_read, bind, get. destruct ((sz <? 0) || _); [exact H|]. destruct (rx_left _ =? 0); [exact H|].
  destruct (rx_rest _) as [rest|]; [|exact H]. destruct (negb (rx_live _)); [now apply H_IS|].
  destruct (ldn _ _ _); [|now apply H_IS]. now apply H_taken.
Qed.
Lemma keeps_io_read sz : keeps (io_read sz).
Proof.
  unfold io_read. apply keeps_bind; [apply keeps_get|]. intros io. apply keeps_bind.
  - destruct (io =? _); auto using keeps_dtls_read, keeps_tls_read.
  - intros [r d]. apply keeps_bind; [apply keeps_emit; auto|kp].
Qed.
Lemma keeps_call_outside p : keeps (call_outside E hook p).
Proof.
  unfold call_outside. apply keeps_bind; [apply keeps_get|]. intros k. destruct (cb_outside k); [|apply keeps_stuck].
  unfold callback. apply keeps_bind; [apply keeps_emit; auto|]. intros _. apply keeps_bind; [exact H_hook|]. intros _.
  apply keeps_bind; [apply keeps_log|]. intros t. apply keeps_bind; [apply keeps_emit; auto|]. intros _. apply keeps_ret.
Qed.
Hint Resolve keeps_call_outside : core.
Lemma keeps_dtls_write b : keeps (dtls_write E hook b).
Proof. unfold dtls_write. kp. Qed.
Lemma keeps_tls_write b : keeps (tls_write E hook b).
Proof. unfold tls_write. kp. Qed.
Lemma keeps_io_write b : keeps (io_write E hook b).
Proof.
  unfold io_write. apply keeps_bind; [apply keeps_get|]. intros io. apply keeps_bind.
  - destruct (io =? _); auto using keeps_dtls_write, keeps_tls_write.
  - intros r. apply keeps_bind; [apply keeps_emit; auto|kp].
Qed.

Lemma keeps_strat s : keeps (run_strat E hook s).
Proof. induction s; cbn [run_strat]; kp. Qed.
Hint Resolve keeps_strat : core.
Definition at_world {A} (w : world) (m : M A) : Prop := match m w with Done _ w' => I w' | Stuck _ w' => IS w' end.
Lemma wolf_op_at o w : (forall r err d w, I w -> I (push (EWEnd o r err d) w)) -> I (push (EWOp o) w) -> at_world w (wolf_op E hook o).
Proof.
  intros H Iw. unfold at_world, wolf_op. unfold bind at 1, emit at 1. fold (push (EWOp o) w).
  match goal with |- match ?m ?v with _ => _ end => assert (keeps m) as K; [|exact (K v Iw)] end.
  apply keeps_bind; [kp|]. intros b.
  apply keeps_bind; [kp|]. intros [[r err] d]. apply keeps_bind; [apply keeps_emit; auto|kp].
Qed.
Lemma keeps_wolf_op' o : (forall w, I w -> I (push (EWOp o) w)) -> (forall r err d w, I w -> I (push (EWEnd o r err d) w)) -> keeps (wolf_op E hook o).
Proof.
  intros H1 H. unfold wolf_op. apply keeps_bind; [apply keeps_emit; auto|]. intros _. apply keeps_bind; [kp|]. intros b.
  apply keeps_bind; [kp|]. intros [[r err] d]. apply keeps_bind; [apply keeps_emit; auto|kp].
Qed.
Lemma keeps_wolf_op o : match o with WRecv | WSend _ | WNegotiate | WRehandshake | WUpdateKeys => false | _ => true end = true -> keeps (wolf_op E hook o).
Proof. intros H w Iw. assert (probing o = false) as Np by (destruct o; try reflexivity; discriminate H). apply wolf_op_at; [intros; apply H_wend; [destruct o; discriminate..|exact Np|auto]|]. apply H_wop; [destruct o; try exact Logic.I; discriminate H|exact Np|destruct o; try reflexivity; discriminate H|exact Iw]. Qed.
Lemma keeps_wolf_negotiate : keeps (wolf_op E hook WNegotiate).
Proof. intros w Iw. apply wolf_op_at; auto. Qed.
Lemma keeps_wolf_recv : keeps (wolf_op E hook WRecv).
Proof. intros w Iw. apply wolf_op_at; auto. apply H_wop; [exact Logic.I|reflexivity|reflexivity|exact Iw]. Qed.
Lemma keeps_wolf_rehandshake : keeps (wolf_op E hook WRehandshake).
Proof. intros w Iw. apply wolf_op_at; auto. apply H_wop; [exact Logic.I|reflexivity|reflexivity|exact Iw]. Qed.
Lemma keeps_wolf_keys : keeps (wolf_op E hook WUpdateKeys).
Proof. intros w Iw. apply wolf_op_at; auto. apply H_wop; [exact Logic.I|reflexivity|reflexivity|exact Iw]. Qed.
Hint Extern 1 (keeps (wolf_op _ _ (if ?b then WRehandshake else WUpdateKeys))) => destruct b; [apply keeps_wolf_rehandshake|apply keeps_wolf_keys] : core.
Hint Extern 1 (keeps (wolf_op _ _ WRecv)) => apply keeps_wolf_recv : core.
Hint Extern 1 (keeps (wolf_op _ _ WNegotiate)) => apply keeps_wolf_negotiate : core.
Hint Extern 1 (keeps (wolf_op _ _ ?o)) => apply keeps_wolf_op; first [reflexivity|repeat case_if; reflexivity] : core.

Lemma keeps_generate_other e : io_event (EEvent e) = false -> keeps (generate_event hook e).
Proof. intros He. unfold generate_event. kp. Qed.
Lemma keeps_generate_pong : keeps (generate_event hook HE_EVENT_PONG).
Proof. unfold generate_event. kp. unfold notify. apply keeps_bind; [apply keeps_emit; auto|]. kp. Qed.
Lemma keeps_generate_acked : keeps (generate_event hook HE_EVENT_PENDING_SESSION_ACKNOWLEDGED).
Proof. unfold generate_event. kp. unfold notify. apply keeps_bind; [apply keeps_emit; auto|]. kp. Qed.
Lemma keeps_generate_started : keeps (generate_event hook HE_EVENT_SECURE_RENEGOTIATION_STARTED).
Proof. unfold generate_event. kp. unfold notify. apply keeps_bind; [apply keeps_emit; auto|]. kp. Qed.
Lemma keeps_generate_completed : keeps (generate_event hook HE_EVENT_SECURE_RENEGOTIATION_COMPLETED).
Proof. unfold generate_event. kp. unfold notify. apply keeps_bind; [apply keeps_emit; auto|]. kp. Qed.
Lemma keeps_generate_event e : keeps (generate_event hook e).
Proof.
  destruct (Z.eqb_spec e HE_EVENT_PONG) as [->|N]; [apply keeps_generate_pong|].
  destruct (Z.eqb_spec e HE_EVENT_PENDING_SESSION_ACKNOWLEDGED) as [->|N']; [apply keeps_generate_acked|].
  destruct (Z.eqb_spec e HE_EVENT_SECURE_RENEGOTIATION_STARTED) as [->|N2]; [apply keeps_generate_started|].
  destruct (Z.eqb_spec e HE_EVENT_SECURE_RENEGOTIATION_COMPLETED) as [->|N3]; [apply keeps_generate_completed|].
  apply keeps_generate_other. cbn. now rewrite (proj2 (Z.eqb_neq _ _) N), (proj2 (Z.eqb_neq _ _) N'), (proj2 (Z.eqb_neq _ _) N2), (proj2 (Z.eqb_neq _ _) N3).
Qed.
Hint Extern 1 (keeps (generate_event _ HE_EVENT_PENDING_SESSION_ACKNOWLEDGED)) => apply keeps_generate_acked : core.
Hint Extern 1 (keeps (generate_event _ HE_EVENT_SECURE_RENEGOTIATION_STARTED)) => apply keeps_generate_started : core.
Hint Extern 1 (keeps (generate_event _ HE_EVENT_SECURE_RENEGOTIATION_COMPLETED)) => apply keeps_generate_completed : core.
Hint Extern 1 (keeps (generate_event _ HE_EVENT_PONG)) => apply keeps_generate_pong : core.
Hint Extern 2 (keeps (generate_event _ ?e)) => apply keeps_generate_other; reflexivity : core.
Lemma send_message_at m w : probing (WSend m) = false -> I (push (EWOp (WSend m)) w) -> at_world w (send_message E hook m).
Proof.
  intros Np Iw. unfold at_world, send_message. unfold bind at 1.
  assert (at_world w (wolf_op E hook (WSend m))) as K by (apply wolf_op_at; [intros; apply H_wend; [discriminate..|exact Np|auto]|exact Iw]).
  unfold at_world in K. destruct (wolf_op E hook (WSend m) w) as [[[r err] d] w1|]; [|exact K].
  match goal with |- match ?m ?v with _ => _ end => assert (keeps m) as K1; [|exact (K1 v K)] end. kp.
Qed.
Lemma keeps_send_message m : plain (WSend m) -> probing (WSend m) = false -> ponging (WSend m) = false -> keeps (send_message E hook m).
Proof. intros N Np Nq w Iw. apply send_message_at; [exact Np|]. now apply H_wop. Qed.
Lemma keeps_send_pong m : msg_type m = HE_MSGID_PONG -> keeps (send_message E hook m).
Proof.
  intros Y w Iw. apply send_message_at; [cbn; now rewrite Y|]. apply H_wpong; [cbn; rewrite Y; repeat split; discriminate|cbn; now rewrite Y|cbn; now rewrite Y|exact Iw].
Qed.
Lemma keeps_send_probe m : plain (WSend m) -> ponging (WSend m) = false -> keeps (send_message E hook m).
Proof.
  intros N Nq. destruct (probing (WSend m)) eqn:Np; [|now apply keeps_send_message]. intros w Iw.
  unfold send_message. match goal with |- match ?m w with _ => _ end => assert (keeps m) as K; [|exact (K w Iw)] end. clear w Iw.
  apply keeps_bind; [|kp]. intros w Iw. apply wolf_op_at; [intros; apply H_wendp; [discriminate..|exact Np|auto]|]. now apply H_wprobe.
Qed.
Lemma keeps_send_config m : msg_type m = HE_MSGID_CONFIG_IPV4 -> keeps (send_message E hook m).
Proof. intros N w Iw. apply send_message_at; [cbn; now rewrite N|]. now apply H_wconf. Qed.
Hint Extern 1 (keeps (send_message _ _ _)) => apply keeps_send_message; [not_auth|not_probe|not_pong] : core.
Lemma keeps_set_conn_state s : keeps (set_conn_state hook s).
Proof. unfold set_conn_state. kp. Qed.
Hint Resolve keeps_set_conn_state : core.
Lemma send_auth_userpass_at w : c_auth_type (w_c w) = HE_AUTH_TYPE_USERPASS -> I w -> at_world w (send_auth_userpass E hook).
Proof.
  intros Hty Iw. unfold at_world, send_auth_userpass, bind, get, lift. destruct (build_auth_userpass _ _) as [m|u] eqn:B; [|now apply H_IS].
  assert (auth_made (e_le E) (w_c w) m) as Am by (left; auto). apply send_message_at; [exact (auth_probe Am)|]. now apply H_wauth.
Qed.
Lemma send_auth_token_at w : I w -> at_world w (send_auth_token E hook).
Proof.
  intros Iw. unfold at_world, send_auth_token, bind, get, lift.
  destruct (Z.eqb_spec (c_auth_type (w_c w)) HE_AUTH_TYPE_TOKEN) as [Hty|]; cbn [negb]; [|exact Iw]. case_if; [exact Iw|].
  destruct (build_auth_buffer _ _ _ _ _) as [b|u] eqn:B; [|now apply H_IS].
  unfold ret at 1; cbv beta iota zeta; match goal with |- context [ldn b ?o ?n] => destruct (ldn b o n) as [m|u] eqn:L end; [|now apply H_IS]. assert (auth_made (e_le E) (w_c w) m) as Am by (right; exists b, HE_MAX_WIRE_MTU; auto). apply send_message_at; [exact (auth_probe Am)|]. now apply H_wauth.
Qed.
Lemma send_auth_buf_at w : c_auth_type (w_c w) = HE_AUTH_TYPE_CB -> I w -> at_world w (send_auth_buf E hook).
Proof.
  intros Hty Iw. unfold at_world, send_auth_buf, bind, get, lift. case_if; [exact Iw|].
  destruct (build_auth_buffer _ _ _ _ _) as [b|u] eqn:B; [|now apply H_IS].
  unfold ret at 1; cbv beta iota zeta; match goal with |- context [ldn b ?o ?n] => destruct (ldn b o n) as [m|u] eqn:L end; [|now apply H_IS]. assert (auth_made (e_le E) (w_c w) m) as Am by (right; exists b, HE_MAX_MTU; auto). apply send_message_at; [exact (auth_probe Am)|]. now apply H_wauth.
Qed.
Lemma keeps_send_auth : keeps (send_auth E hook).
Proof.
  unfold send_auth. apply keeps_bind; [kp|]. intros st. case_if; [kp|]. apply keeps_bind; [kp|]. intros _. intros w Iw. unfold bind at 1, get at 1.
  destruct (Z.eqb_spec (c_auth_type (w_c w)) HE_AUTH_TYPE_USERPASS); [now apply send_auth_userpass_at|].
  destruct (Z.eqb_spec (c_auth_type (w_c w)) HE_AUTH_TYPE_TOKEN); [now apply send_auth_token_at|].
  destruct (Z.eqb_spec (c_auth_type (w_c w)) HE_AUTH_TYPE_CB); [now apply send_auth_buf_at|]. exact Iw.
Qed.
Hint Resolve keeps_send_auth : core.
Lemma keeps_change_conn_state s : keeps (change_conn_state E hook s).
Proof. unfold change_conn_state. kp. Qed.
Lemma keeps_change_other s : s <> HE_STATE_LINK_UP -> keeps (change_conn_state E hook s).
Proof. intros N. unfold change_conn_state. apply keeps_bind; [kp|]. intros ch. apply Z.eqb_neq in N. rewrite N, andb_false_r. kp. Qed.
Hint Extern 1 (keeps (change_conn_state _ _ _)) => apply keeps_change_other; discriminate : core.
Hint Extern 2 (keeps (change_conn_state _ _ _)) => apply keeps_change_conn_state : core.
Lemma keeps_ask_version : keeps (ask_version E).
Proof. unfold ask_version. kp. Qed.
Hint Resolve keeps_ask_version : core.
Lemma keeps_update_timeout : keeps (update_timeout E hook).
Proof. unfold update_timeout. kp. Qed.
Lemma keeps_send_goodbye : keeps (send_goodbye E hook).
Proof. unfold send_goodbye. kp. Qed.
Lemma keeps_generate_session_id : keeps (generate_session_id E).
Proof. unfold generate_session_id. kp. Qed.
Hint Resolve keeps_update_timeout keeps_send_goodbye keeps_generate_session_id : core.
Lemma keeps_renegotiate : keeps (renegotiate_ssl E hook).
Proof. unfold renegotiate_ssl. kp. Qed.
Hint Resolve keeps_renegotiate : core.

Lemma keeps_upd_pm f : keeps (upd_pm f).
Proof. unfold upd_pm. kp. Qed.
Lemma keeps_pm_time ms : keeps (pm_time E hook ms).
Proof. unfold pm_time. apply keeps_callback_at; auto. Qed.
Hint Resolve keeps_upd_pm keeps_pm_time : core.
Lemma keeps_pm_change s : keeps (pm_change_state hook s).
Proof. unfold pm_change_state. kp. unfold notify. apply keeps_bind; [apply keeps_emit; auto|]. kp. Qed.
Lemma keeps_pm_send m : keeps (pm_send_probe E hook m).
Proof. unfold pm_send_probe. kp. apply keeps_send_probe; [not_auth|not_pong]. Qed.
Lemma keeps_pm_retry d : keeps (pm_retry_probe E hook d).
Proof. unfold pm_retry_probe. kp. Qed.
Hint Resolve keeps_pm_change keeps_pm_send keeps_pm_retry : core.
Lemma keeps_pm_start : keeps (pm_start_base_probing E hook).
Proof. unfold pm_start_base_probing. kp. Qed.
Lemma keeps_pm_base : keeps (pm_base_confirmed E hook).
Proof. unfold pm_base_confirmed. kp. Qed.
Lemma keeps_pm_failed : keeps (pm_confirm_base_failed E hook).
Proof. unfold pm_confirm_base_failed. kp. Qed.
Lemma keeps_pm_completed : keeps (pm_search_completed E hook).
Proof. unfold pm_search_completed. kp. Qed.
Lemma keeps_pm_blackhole : keeps (pm_blackhole_detected E hook).
Proof. unfold pm_blackhole_detected. kp. Qed.
Hint Resolve keeps_pm_start keeps_pm_base keeps_pm_failed keeps_pm_completed keeps_pm_blackhole : core.
Lemma keeps_pm_ack id : keeps (pm_probe_ack E hook id).
Proof. unfold pm_probe_ack. kp. Qed.
Lemma keeps_pm_timeout : keeps (pm_probe_timeout E hook).
Proof. unfold pm_probe_timeout. kp. Qed.
Hint Resolve keeps_pm_ack keeps_pm_timeout : core.

Lemma keeps_frag_loop fuel : forall p id o l f, keeps (frag_loop E hook fuel p id o l f).
Proof. induction fuel; intros; cbn [frag_loop]; kp. Qed.
Hint Resolve keeps_frag_loop : core.
Lemma keeps_frag_and_send p f : keeps (frag_and_send E hook p f).
Proof. unfold frag_and_send. kp. Qed.
Hint Resolve keeps_frag_and_send : core.
Lemma keeps_inside p : keeps (inside_packet_received E hook p).
Proof. unfold inside_packet_received. kp. Qed.

Lemma keeps_handle_ping m : keeps (handle_ping E hook m).
Proof.
  unfold handle_ping. kp. apply keeps_send_pong. match goal with X : build_pong _ _ = Val _ |- _ => exact (type_pong X) end.
Qed.
Lemma keeps_handle_pong m : keeps (handle_pong E hook m).
Proof. unfold handle_pong. kp. Qed.
Lemma keeps_handle_server_config m : keeps (handle_server_config E hook m).
Proof. unfold handle_server_config. kp. Qed.
Lemma keeps_handle_config m : keeps (handle_config_ipv4 E hook m).
Proof. unfold handle_config_ipv4. kp. Qed.
Lemma keeps_auth_denied : keeps (send_auth_denied E hook).
Proof.
  unfold send_auth_denied. change build_auth_response with (Val auth_denied_message). apply keeps_bind_lift. intros m [= <-].
  apply keeps_bind; [|kp]. intros w Iw. apply send_message_at; [reflexivity|now apply H_wdenied].
Qed.
Hint Resolve keeps_auth_denied : core.
Lemma keeps_auth_accepted : keeps (auth_accepted E hook).
Proof.
  unfold auth_accepted. kp. apply keeps_send_config.
  match goal with X : build_config_ipv4 _ _ _ _ _ = Val _ |- _ => exact (type_config X) end.
Qed.
Hint Resolve keeps_auth_accepted : core.
Lemma keeps_auth_verdict b r : keeps (auth_verdict E hook b r).
Proof. unfold auth_verdict. kp. Qed.
Hint Resolve keeps_auth_verdict : core.
Lemma keeps_handle_auth m : keeps (handle_auth E hook m).
Proof. unfold handle_auth. kp. Qed.
Lemma keeps_deliver p : keeps (deliver E hook p).
Proof.
  unfold deliver. kp. unfold notify. apply keeps_bind; [apply keeps_emit; auto|intros _; exact H_hook].
Qed.
Hint Resolve keeps_deliver : core.
Lemma keeps_handle_data m : keeps (handle_data E hook m).
Proof. unfold handle_data. kp. Qed.
Lemma keeps_handle_frag m : keeps (handle_frag E hook m).
Proof. unfold handle_frag. kp. Qed.
Lemma keeps_handle_13 m : keeps (handle_deprecated_13 E hook m).
Proof. unfold handle_deprecated_13. kp. Qed.
Hint Resolve keeps_handle_ping keeps_handle_pong keeps_handle_server_config keeps_handle_config keeps_handle_auth
  keeps_handle_data keeps_handle_frag keeps_handle_13 : core.
Lemma keeps_process m : keeps (process_message E hook m).
Proof. unfold process_message. kp. Qed.
Hint Resolve keeps_process : core.
Lemma keeps_fetch fuel : keeps (fetch_message E hook fuel).
Proof. induction fuel; cbn [fetch_message]; kp. Qed.
Hint Resolve keeps_fetch : core.
Lemma keeps_loop fuel : keeps (message_loop E hook fuel).
Proof. induction fuel; cbn [message_loop]; kp. Qed.
Lemma keeps_check : keeps (check_renegotiation E hook).
Proof. unfold check_renegotiation. kp. Qed.
Hint Resolve keeps_loop keeps_check : core.
Lemma keeps_handle_messages : keeps (handle_messages E hook).
Proof. unfold handle_messages. kp. Qed.
Hint Resolve keeps_handle_messages : core.
Lemma keeps_verify : keeps (verify_connection E hook).
Proof. unfold verify_connection. kp. Qed.
Hint Resolve keeps_verify : core.
Lemma keeps_session_in s : keeps (update_session_incoming hook s).
Proof. unfold update_session_incoming. kp. Qed.

Lemma keeps_configure x i p : keeps (configure E x i p).
Proof. unfold configure. kp. Qed.
Lemma keeps_settings x : keeps (wolf_settings E x).
Proof. unfold wolf_settings. kp. Qed.
Lemma keeps_settings2 x : keeps (wolf_settings2 E x).
Proof. unfold wolf_settings2. kp. Qed.
Hint Resolve keeps_configure keeps_settings keeps_settings2 : core.
Lemma keeps_internal_connect x i p : keeps (internal_connect E hook x i p).
Proof. unfold internal_connect. kp. Qed.
Hint Resolve keeps_internal_connect : core.
Lemma keeps_client_connect x i p : keeps (client_connect E hook x i p).
Proof. unfold client_connect. kp. Qed.
Lemma keeps_server_connect x i p : keeps (server_connect E hook x i p).
Proof. unfold server_connect. kp. Qed.
Lemma keeps_disconnect : keeps (disconnect E hook).
Proof. unfold disconnect. kp. Qed.
Lemma keeps_nudge : keeps (nudge E hook).
Proof. unfold nudge. kp. Qed.
Lemma keeps_keepalive : keeps (send_keepalive E hook).
Proof. unfold send_keepalive. kp. Qed.
Lemma keeps_send_server_config b : keeps (send_server_config E hook b).
Proof. unfold send_server_config. kp. Qed.
Lemma keeps_rotate : keeps (rotate_session_id E).
Proof. unfold rotate_session_id. kp. Qed.
Lemma keeps_set_session s : keeps (set_session_id s).
Proof. unfold set_session_id. kp. Qed.
Lemma keeps_start_pmtu : keeps (start_pmtu_discovery E hook).
Proof. unfold start_pmtu_discovery. kp. Qed.
Lemma keeps_set_username s : keeps (set_username_api s).
Proof. unfold set_username_api. kp. Qed.
Lemma keeps_set_password s : keeps (set_password_api s).
Proof. unfold set_password_api. kp. Qed.
Lemma keeps_set_token s : keeps (set_auth_token s).
Proof. unfold set_auth_token. kp. Qed.
Lemma keeps_set_auth_buffer s : keeps (set_auth_buffer s).
Proof. unfold set_auth_buffer. kp. Qed.
Lemma keeps_set_mtu s : keeps (set_outside_mtu s).
Proof.
  intros w H. unfold set_outside_mtu. destruct (Z.leb_spec (u16 s) HE_PACKET_OVERHEAD) as [L|L]; [exact H|].
  apply H_mtu; [|exact H]. pose proof (Z.mod_pos_bound s 65536 eq_refl). unfold u16 in *. lia.
Qed.
Lemma keeps_set_sni s : keeps (set_sni_hostname s).
Proof. unfold set_sni_hostname. kp. Qed.

Hypothesis H_rx : forall f w, I w -> I (with_c (fun c => set_rx (f (c_rx c)) c) w).
Lemma keeps_packet d : keeps (outside_packet_received E hook d).
Proof.
  unfold outside_packet_received. pose proof keeps_session_in. kp; apply keeps_upd.
  intros w. match goal with |- context [Some ?b] => apply (H_rx (fun r => Rx (Some b) false (rx_left r) (rx_rest r) true)) end.
Qed.
Lemma keeps_stream d : keeps (outside_stream_received E hook d).
Proof.
  unfold outside_stream_received. kp; apply keeps_upd.
  intros w. apply (H_rx (fun r => Rx (Some d) (rx_seen r) (len d) (Some d) true)).
Qed.
Hint Resolve keeps_packet keeps_stream : core.
Lemma keeps_outside d : keeps (outside_data_received E hook d).
Proof. unfold outside_data_received. kp. Qed.

(** Everything except receiving from outside, which changes the receive state. *)
Hypothesis H_server_connect : forall x i p, keeps (server_connect E hook x i p).
Hint Resolve keeps_client_connect keeps_disconnect keeps_inside keeps_nudge keeps_keepalive
  keeps_send_server_config keeps_rotate keeps_set_session keeps_start_pmtu keeps_set_username keeps_set_password
  keeps_set_token keeps_set_auth_buffer keeps_set_mtu keeps_set_sni : core.
Lemma keeps_api_body o : (forall b, o <> OOutside b) -> keeps (api_body E hook o).
Proof. intros H. destruct o; cbn [api_body]; auto; try (kp; fail). now destruct (H buffer). Qed.
Lemma keeps_api_all o : keeps (api_body E hook o).
Proof. destruct o; try (apply keeps_api_body; discriminate). apply keeps_outside. Qed.

End Frame.

(** Invariants of the log: what all of the library preserves. *)
Section Log.
Variable I : world -> Prop.
Hypothesis L_push : forall e w, is_call e = false -> (forall o rc, e <> ERet o rc) -> I w -> I (push e w).
Hypothesis L_conn : forall f w, I w -> I (with_c f w).
Lemma keeps_log_body E hook o : keeps I I hook -> keeps I I (api_body E hook o).
Proof.
  intros Hk.
  assert (forall e w, is_call e = false -> (forall o rc, e <> ERet o rc) -> I w -> I (push e w)) as HP by auto.
  assert (forall sz, keeps I I (io_read sz)) as Hr.
  { intros sz. apply keeps_io_read; intros; auto. apply HP; auto; discriminate. }
  assert (forall b, keeps I I (io_write E hook b)) as Hw.
  { intros b. apply keeps_io_write; intros; auto; apply HP; auto; discriminate. }
  assert (forall e w, io_event e = false -> I w -> I (push e w)) as HE.
  { intros e w H. apply HP; [now destruct e|now intros ? ? ->]. }
  apply keeps_api_all; intros; auto; try (apply HP; auto; discriminate).
  apply keeps_server_connect; intros; auto; apply HP; auto; discriminate.
Qed.
Lemma keeps_run_host E hook h : keeps I I hook -> keeps I I (run_host E hook h).
Proof.
  intros Hk. induction h as [|o k IH]; cbn [run_host]; [apply keeps_ret|]. apply keeps_bind; [|exact IH].
  unfold nested_api. apply keeps_bind; [apply keeps_emit; intros; apply L_push; auto; discriminate|]. intros _.
  apply keeps_bind; [now apply keeps_log_body|]. intros rc.
  apply keeps_bind; [apply keeps_emit; intros; apply L_push; auto; discriminate|]. intros _. apply keeps_ret.
Qed.
Lemma keeps_hookn E n : keeps I I (hookn E n).
Proof.
  induction n as [|n IH]; [apply keeps_ret|]. cbn [hookn]. apply keeps_bind; [apply keeps_log|]. intros t. now apply keeps_run_host.
Qed.
End Log.

(** The same, for a host that makes no calls inside callbacks. *)
Definition host_event (e : ev) : bool := match e with ECall _ | ERet _ _ | ENest _ | ENestRet _ _ => true | _ => false end.
Lemma keeps_lib_body (I : world -> Prop) E o :
  (forall e w, host_event e = false -> I w -> I (push e w)) -> (forall f w, I w -> I (with_c f w)) ->
  keeps I I (api_body E (ret tt) o).
Proof.
  intros HP HC.
  assert (forall sz, keeps I I (io_read sz)) as Hr.
  { intros sz. apply keeps_io_read; intros; auto. }
  assert (forall b, keeps I I (io_write E (ret tt) b)) as Hw.
  { intros b. apply keeps_io_write; intros; auto; try apply keeps_ret. }
  assert (forall e w, io_event e = false -> I w -> I (push e w)) as HE.
  { intros e w H. apply HP. now destruct e. }
  apply keeps_api_all; intros; auto; try apply keeps_ret.
  apply keeps_server_connect; intros; auto; apply keeps_ret.
Qed.

(** [est I m]: when [m] ends, [I] holds, whatever held before. *)
Definition est (I : world -> Prop) {A} (m : M A) : Prop := forall w a w', m w = Done a w' -> I w'.
Lemma est_left I A B (m : M A) (k : A -> M B) : est I m -> (forall a, keeps I I (k a)) -> est I (bind m k).
Proof.
  intros Hm Hk w b w' H. unfold bind in H. destruct (m w) as [a w1|] eqn:D; [|discriminate H].
  pose proof (Hk a w1 (Hm _ _ _ D)) as K. now rewrite H in K.
Qed.
Lemma est_right I A B (m : M A) (k : A -> M B) : (forall a, est I (k a)) -> est I (bind m k).
Proof.
  intros Hk w b w' H. unfold bind in H. destruct (m w) as [a w1|] eqn:D; [|discriminate H]. exact (Hk _ _ _ _ H).
Qed.
Lemma est_keeps_done I A (m : M A) w a w' : keeps I I m -> I w -> m w = Done a w' -> I w'.
Proof. intros K H D. specialize (K w H). now rewrite D in K. Qed.
