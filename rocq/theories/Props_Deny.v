(** C57: a login that is denied is answered with a rejection, one that is accepted
    with a configuration, and nothing else is. *)
From Verif Require Import Base Codes Ctx Config Mss Frag Wire WireSpec WireProofs ConnState Conn ConnSpec HistSpec MsgSpec CallSpec.
From Verif Require Import Frame Scenario Reaction TimerProofs CredSpec ConfServer DenySpec.
Unset Strict Implicit.

Definition rule (s : Z) (e : ev) (past : trace) : Prop := paid e past /\ due e past.
(** The log is in order ([R]) and nothing is owed ([D]). *)
Definition R (w : world) : Prop := every rule (w_t w).
Definition D (w : world) : Prop := R w /\ owed (w_t w) = Nothing.
Lemma D_R w : D w -> R w.
Proof. now intros [H _]. Qed.
(** Events that owe nothing and need nothing. *)
Definition easy (e : ev) : Prop :=
  match e with
  | ECbRet KAuth _ | ECbRet KPopulate _ | EPopulate => False
  | EWOp (WSend m) => msg_type m <> HE_MSGID_CONFIG_IPV4 /\ msg_type m <> HE_MSGID_AUTH_RESPONSE
  | _ => True
  end.
Lemma easy_owes s e t : easy e -> owed ((s, e) :: t) = Nothing.
Proof. destruct e; try reflexivity; try (now intros []). destruct k; try reflexivity; now intros []. Qed.
Lemma easy_due e t : easy e -> due e t.
Proof. destruct e; try exact (fun _ => I); try (now intros []). destruct o; try exact (fun _ => I). intros [A B]. split; intros H; contradiction. Qed.
Lemma D_easy e w : easy e -> D w -> D (push e w).
Proof.
  intros H [A B]. split; [|now apply easy_owes]. split; [|exact A]. split; [unfold paid; now rewrite B|now apply easy_due].
Qed.

Lemma type_auth le c m : auth_made le c m -> msg_type m = HE_MSGID_AUTH \/ m = [].
Proof.
  intros [[_ H]|(b & n & _ & H & L)]; [left; exact (type_userpass H)|]. apply type_auth_buffer in H. apply type_ldn in L.
  destruct L as [L| ->]; [left; congruence|now right].
Qed.

Section A.
Variable E : env.
Variable hook : M unit.
Hypothesis Hk : keeps D R hook.
Lemma io_easy e : io_event e = false -> easy e.
Proof.
  destruct e; try exact (fun _ => I); try (intros H; discriminate H);
    try match goal with x : cbk |- _ => destruct x; try exact (fun _ => I); intros H; discriminate H end.
Qed.
Lemma D_event e w : io_event e = false -> D w -> D (push e w).
Proof. intros H. apply D_easy. now apply io_easy. Qed.
Lemma D_plain o w : plain o -> D w -> D (push (EWOp o) w).
Proof. intros H. apply D_easy. destruct o; try exact I. now destruct H as (_ & A & B). Qed.
Lemma D_made c m w : auth_made (e_le E) c m -> D w -> D (push (EWOp (WSend m)) w).
Proof. intros H. apply D_easy. destruct (type_auth H) as [Y| ->]; [split; rewrite Y; discriminate|split; discriminate]. Qed.
Ltac ks := intros; first [now apply D_R|apply Hk|assumption|apply keeps_ret|now apply D_event|now apply D_plain|(eapply D_made; eassumption)|(apply D_easy; [exact I|assumption])|idtac].
Lemma D_read sz : keeps D R (io_read sz).
Proof. apply keeps_io_read; ks. Qed.
Lemma D_write b : keeps D R (io_write E hook b).
Proof. apply keeps_io_write; ks. Qed.
Ltac ks ::= intros; first [now apply D_R|apply Hk|assumption|apply keeps_ret|apply D_read|apply D_write|now apply D_event|now apply D_plain|(eapply D_made; eassumption)|(apply D_easy; [exact I|assumption])|idtac].
Lemma D_change s : keeps D R (change_conn_state E hook s).
Proof. apply keeps_change_conn_state; ks. Qed.

(** What follows once a verdict is known. *)
Definition then_D A (m : M A) (P : world -> Prop) : Prop := forall w, P w -> match m w with Done _ w' => D w' | Stuck _ w' => R w' end.
Lemma then_keeps A (m : M A) (P : world -> Prop) : (forall w, P w -> D w) -> keeps D R m -> then_D m P.
Proof. intros H K w Pw. exact (K w (H w Pw)). Qed.
Lemma then_bind A B (m : M A) (k : A -> M B) (P : world -> Prop) : then_D m P -> (forall a, keeps D R (k a)) -> then_D (bind m k) P.
Proof.
  intros H K w Pw. specialize (H w Pw). unfold bind. destruct (m w) as [a w'|]; [|exact H]. exact (K a w' H).
Qed.
Lemma then_lift A B (x : res A) (k : A -> M B) (P : world -> Prop) : (forall w, P w -> R w) -> (forall a, x = Val a -> then_D (k a) P) -> then_D (bind (lift x) k) P.
Proof. intros H K w Pw. unfold bind, lift. destruct x as [a|u]; [exact (K a eq_refl w Pw)|exact (H w Pw)]. Qed.
Lemma then_send m (P : world -> Prop) : (forall w, P w -> D (push (EWOp (WSend m)) w)) -> probing (WSend m) = false -> then_D (send_message E hook m) P.
Proof.
  intros H Np w Pw. specialize (H w Pw).
  assert (at_world D R w (send_message E hook m)) as K by (apply send_message_at; ks).
  exact K.
Qed.
Definition rejects (w : world) : Prop := R w /\ (owed (w_t w) = Rejection \/ owed (w_t w) = Nothing /\ unasked (w_t w)).
Lemma D_denied : then_D (send_auth_denied E hook) rejects.
Proof.
  unfold send_auth_denied. change build_auth_response with (Val auth_denied_message).
  apply then_lift; [now intros w []|]. intros m [= <-]. apply then_bind; [|intros; apply keeps_ret]. apply then_send; [|reflexivity].
  intros w [A B]. split; [|reflexivity]. split; [|exact A]. split.
  - unfold paid. destruct B as [->|[-> _]]; [reflexivity|exact I].
  - split; [discriminate|]. intros _. split; [reflexivity|]. destruct B as [B|[_ B]]; auto.
Qed.
Lemma D_accepted : then_D (auth_accepted E hook) (fun w => R w /\ owed (w_t w) = Population).
Proof.
  intros w [A B]. unfold auth_accepted. unfold bind at 1, get at 1. generalize (c_session (w_c w)). intros session.
  unfold bind at 1, emit at 1. fold (push EPopulate w). assert (D (push EPopulate w)) as H1.
  { split; [|reflexivity]. split; [|exact A]. split; [unfold paid; now rewrite B|exact B]. }
  generalize dependent (push EPopulate w). clear w A B. intros w H1.
  unfold bind at 1. pose proof (Hk H1) as K. destruct (hook w) as [[] w1|]; [|exact K]. clear w H1.
  unfold bind at 1, log at 1. destruct (e_cfg E (w_t w1)) as [[l p] d]. cbv zeta. generalize (field24 l), (field24 p), (field24 d). clear l p d. intros l p d.
  unfold bind at 1, emit at 1. fold (push (ECfg l p d) w1). assert (D (push (ECfg l p d) w1)) as H2 by (apply D_easy; [exact I|exact K]).
  generalize dependent (push (ECfg l p d) w1). clear w1 K. intros w H2.
  unfold bind at 1, log at 1. generalize (e_cb E (w_t w)). intros r. unfold bind at 1, emit at 1. fold (push (ECbRet KPopulate r) w).
  set (w2 := push (ECbRet KPopulate r) w). assert (R w2) as A2.
  { destruct H2 as [A B]. split; [|exact A]. split; [unfold paid; now rewrite B|exact I]. }
  assert (owed (w_t w2) = if r =? HE_SUCCESS then Configuration else Rejection) as B2 by reflexivity.
  clearbody w2. clear w H2. revert w2 A2 B2. destruct (r =? HE_SUCCESS); cbn [negb]; intros w A B.
  - match goal with |- match ?m w with _ => _ end => enough (then_D m (fun w => R w /\ owed (w_t w) = Configuration)) as T by (exact (T w (conj A B))) end.
    apply then_lift; [now intros ? []|]. intros m Hm. pose proof (type_config Hm) as Y.
    apply then_bind; [|intros _; apply keeps_bind; [apply D_change|intros _; apply keeps_ret]]. apply then_send.
    + clear w A B. intros w [A B]. split; [|reflexivity]. split; [|exact A]. split; [unfold paid; rewrite B; exists m; auto|].
      split; [auto|]. rewrite Y. discriminate.
    + unfold probing. rewrite Y. reflexivity.
  - match goal with |- match ?m w with _ => _ end => enough (then_D m rejects) as T by (apply T; split; [exact A|now left]) end.
    apply then_bind; [exact D_denied|]. intros _. apply keeps_ret.
Qed.
Lemma D_verdict ok rc : then_D (auth_verdict E hook ok rc)
  (fun w => R w /\ if ok then owed (w_t w) = Population else rejects w).
Proof.
  unfold auth_verdict. destruct ok; cbn [negb]; [exact D_accepted|].
  apply then_bind; [intros w [_ H]; now apply D_denied|]. intros _. apply keeps_bind; [apply D_change|intros _; apply keeps_ret].
Qed.
Definition asked (w : world) : Prop := D w /\ unasked (w_t w).
Lemma asked_R w : asked w -> R w.
Proof. now intros [[H _] _]. Qed.
Lemma D_unasked rc : then_D (auth_verdict E hook false rc) asked.
Proof. intros w [[A B] U]. apply D_verdict. split; [exact A|]. split; [exact A|]. right. auto. Qed.
(** An authentication callback, and what follows. *)
Lemma D_callback e (k : Z -> M Z) : easy e ->
  (forall v, then_D (k v) (fun w => R w /\ owed (w_t w) = if v =? 0 then Rejection else Population)) ->
  then_D (bind (callback E hook e KAuth) k) asked.
Proof.
  intros He Kk w [H _]. unfold bind at 1. unfold callback. unfold bind at 1, emit at 1. fold (push e w).
  pose proof (D_easy He H) as H1. generalize dependent (push e w). clear w H. intros w H1.
  unfold bind at 1. pose proof (Hk H1) as K. destruct (hook w) as [[] w1|]; [|exact K]. clear w H1.
  unfold bind at 1, log at 1. generalize (e_cb E (w_t w1)). intros v. unfold bind at 1, emit at 1. fold (push (ECbRet KAuth v) w1). unfold ret at 1.
  apply Kk. destruct K as [A B]. split; [|reflexivity]. split; [|exact A]. split; [unfold paid; now rewrite B|exact I].
Qed.
Lemma D_judged v rc : then_D (auth_verdict E hook (negb (v =? 0)) rc) (fun w => R w /\ owed (w_t w) = if v =? 0 then Rejection else Population).
Proof. intros w [A B]. apply D_verdict. split; [exact A|]. destruct (v =? 0); cbn [negb]; [split; auto|exact B]. Qed.
Lemma D_done r : then_D (ret r : M Z) asked.
Proof. intros w [H _]. exact H. Qed.
Ltac lf := apply then_lift; [exact asked_R|].
Lemma D_auth m : then_D (handle_auth E hook m) asked.
Proof.
  intros w Hw. unfold handle_auth. unfold bind at 1, get at 1. generalize (w_c w). intros c.
  match goal with |- match ?mm w with _ => _ end => enough (then_D mm asked) as T by (exact (T w Hw)) end. clear w Hw. cbv zeta.
  do 4 (case_if; [apply D_done|]). lf. intros ty _.
  destruct (ty =? HE_AUTH_TYPE_USERPASS).
  { destruct (cb_auth (c_cbs c)); [|apply D_unasked]. case_if; [apply D_done|]. lf. intros u _. lf. intros p _.
    apply D_callback; [exact I|]. intros v w Hw. unfold bind at 1, get at 1. generalize (c_username (w_c w)). intros un. revert w Hw.
    match goal with |- forall w, @?P w -> match ?mm w with _ => _ end => change (then_D mm P) end.
    apply then_lift; [now intros ? []|]. intros un1 _. apply then_lift; [now intros ? []|]. intros un2 _.
    intros w [A B]. unfold bind at 1, upd at 1. apply D_judged. split; [exact A|exact B]. }
  destruct (ty =? HE_AUTH_TYPE_TOKEN).
  { destruct (cb_authtok (c_cbs c)); [|apply D_unasked]. case_if; [apply D_done|]. lf. intros raw _. case_if; [apply D_done|]. lf. intros b _.
    apply D_callback; [exact I|]. intros v. apply D_judged. }
  destruct (ty =? HE_AUTH_TYPE_CB); [|apply D_unasked].
  destruct (cb_authbuf (c_cbs c)); [|apply D_unasked]. case_if; [apply D_done|]. lf. intros raw _. case_if; [apply D_done|]. lf. intros b _.
  apply D_callback; [exact I|]. intros v. apply D_judged.
Qed.

Ltac kd := ks; try (eapply D_made; eassumption).
(** The receive path: processing starts right after receiving. *)
Lemma D_process m : forall w, D w -> (msg_type m = HE_MSGID_AUTH -> 0 < len m -> unasked (w_t w)) ->
  match process_message E hook m w with Done _ w' => D w' | Stuck _ w' => R w' end.
Proof.
  intros w Hw U. unfold process_message. destruct (Z.ltb_spec (len m) sizeof_msg_hdr) as [Y|Y]; [exact Hw|]. unfold sizeof_msg_hdr in Y.
  rewrite ld8_ok by lia. change (nth (Z.to_nat 0) m 0) with (msg_type m). unfold bind at 1, lift at 1, ret at 1. unfold bind at 1, get at 1.
  destruct (Z.eqb_spec (msg_type m) HE_MSGID_AUTH) as [Ty|N].
  - rewrite Ty. cbv beta. repeat match goal with |- context [HE_MSGID_AUTH =? ?z] => lazymatch z with HE_MSGID_AUTH => fail | _ => change (HE_MSGID_AUTH =? z) with false end end. cbv iota.
    destruct (c_is_server (w_c w)); [|exact Hw]. apply D_auth. split; [exact Hw|]. apply U; [exact Ty|lia].
  - match goal with |- match ?mm w with _ => _ end => assert (keeps D R mm) as Kp; [|exact (Kp w Hw)] end.
    generalize (c_is_server (w_c w)). clear w Hw U. intros srv.
    repeat (case_if; try apply keeps_ret; try (first [apply keeps_handle_ping|apply keeps_handle_pong|apply keeps_handle_data|apply keeps_handle_frag|apply keeps_handle_13|apply keeps_handle_config|apply keeps_handle_server_config|apply keeps_handle_goodbye|apply keeps_handle_auth_response]; kd; fail)).
Qed.
Lemma D_op o : plain o -> keeps D R (wolf_op E hook o).
Proof. intros H. apply keeps_wolf_op'; ks. Qed.
Lemma D_recv w : D w -> match wolf_op E hook WRecv w with Done (r, err, d) w' => D w' /\ (0 < r -> msg_type d = HE_MSGID_AUTH -> unasked (w_t w')) | Stuck _ w' => R w' end.
Proof.
  intros Hw. pose proof (@D_op WRecv I w Hw) as K. destruct (wolf_op E hook WRecv w) as [[[r err] d] w'|] eqn:H; [|exact K]. split; [exact K|]. intros Hr Ty.
  unfold wolf_op in H. unfold bind at 1, emit at 1 in H. unfold bind at 1, get at 1 in H. unfold bind at 1 in H.
  match type of H with match ?x with _ => _ end = _ => destruct x as [[[r1 e1] d1] w1|]; [|discriminate H] end.
  unfold bind, emit, ret in H. injection H as <- <- <- <-. exists (c_state (w_c w1)), r1, e1, d1, (w_t w1). cbn [w_t]. auto.
Qed.
Ltac ku := lazymatch goal with |- keeps _ _ (upd _) => apply keeps_upd; intros; assumption end.
Lemma D_fetch : forall fuel w, D w ->
  match fetch_message E hook fuel w with
  | Done (rc, Some d) w' => rc = HE_SUCCESS /\ D w' /\ (msg_type d = HE_MSGID_AUTH -> unasked (w_t w'))
  | Done (_, None) w' => D w'
  | Stuck _ w' => R w' end.
Proof.
  induction fuel as [|fuel IH]; intros w P; cbn [fetch_message]; [now apply D_R|]. unfold bind at 1.
  pose proof (@D_recv w P) as K. destruct (wolf_op E hook WRecv w) as [[[r err] d] w'|u w']; [|exact K]. destruct K as [K U].
  destruct (Z.leb_spec r 0) as [|Hr]; [|cbn; auto]. destruct (err =? SSL_ERROR_NONE); [exact K|].
  destruct (err =? APP_DATA_READY); [now apply IH|]. destruct (_ || _); [exact K|]. destruct (r =? 0); exact K.
Qed.
Lemma D_loop : forall fuel, keeps D R (message_loop E hook fuel).
Proof.
  induction fuel as [|fuel IH]; intros w P; cbn [message_loop]; [now apply D_R|]. unfold bind at 1.
  pose proof (@D_fetch (e_fuel E) w P) as F. destruct (fetch_message E hook (e_fuel E) w) as [[rc [d|]] w1|]; [| |exact F].
  - destruct F as (-> & F & U). change (negb (HE_SUCCESS =? HE_SUCCESS)) with false. cbv iota.
    unfold bind at 1. pose proof (@D_process d w1 F (fun Ty _ => U Ty)) as K. destruct (process_message E hook d w1) as [rc2 w2|]; [|exact K].
    destruct (negb (rc2 =? HE_SUCCESS)); [exact K|]. now apply IH.
  - destruct (negb (rc =? HE_SUCCESS)); exact F.
Qed.
Lemma D_messages : keeps D R (handle_messages E hook).
Proof.
  unfold handle_messages. apply keeps_bind; [apply D_loop|]. intros rc. case_if; [apply keeps_ret|].
  apply keeps_bind; [apply keeps_get|]. intros due. apply keeps_bind; [case_if; [apply keeps_renegotiate; ks|apply keeps_ret]|].
  intros rc2. case_if; [apply keeps_ret|apply keeps_check; ks].
Qed.
Lemma D_verify : keeps D R (verify_connection E hook).
Proof.
  unfold verify_connection. apply keeps_bind; [apply keeps_get|]. intros first. apply keeps_bind.
  { case_if; [|apply keeps_ret]. apply keeps_bind; [ku|intros _; apply keeps_generate_event; ks]. }
  intros _. apply keeps_bind; [apply keeps_get|]. intros st. case_if; [|exact D_messages].
  apply keeps_bind; [apply keeps_wolf_negotiate; ks|]. intros [[r err] d]. case_if.
  - repeat (case_if; try apply keeps_ret).
    + apply keeps_bind; [ku|intros _; apply keeps_ret].
    + apply keeps_bind; [apply keeps_get|]. intros ct. apply keeps_bind; [apply keeps_when, keeps_update_timeout; ks|intros _; apply keeps_ret].
  - apply keeps_bind; [apply D_change|intros _; exact D_messages].
Qed.
Lemma D_outside b : keeps D R (outside_data_received E hook b).
Proof.
  unfold outside_data_received. apply keeps_bind; [apply keeps_get|]. intros c. case_if; [apply keeps_ret|]. apply keeps_bind; [apply keeps_plugin_ingress; ks|]. intros [res d].
  repeat (case_if; [apply keeps_ret|]). apply keeps_bind; [apply keeps_get|]. intros ct. case_if; [|case_if; [|apply keeps_ret]].
  - unfold outside_packet_received. repeat first [apply keeps_ret|apply keeps_bind_lift; [exact D_R|intros ? _]|case_if|apply keeps_bind; [apply keeps_get|intros ?]].
    apply keeps_bind; [ku|]. intros _. apply keeps_bind; [exact D_verify|]. intros rc. apply keeps_bind; [ku|]. intros _.
    case_if; [apply keeps_ret|apply keeps_session_in; ks].
  - unfold outside_stream_received. apply keeps_bind; [apply keeps_get|]. intros r. case_if; [apply keeps_bind; [ku|intros _; apply keeps_ret]|].
    apply keeps_bind; [ku|]. intros _. apply keeps_bind; [exact D_verify|]. intros rc. apply keeps_bind; [ku|]. intros _. apply keeps_ret.
Qed.
Lemma D_body o : keeps D R (api_body E hook o).
Proof.
  destruct (match o with OOutside _ => true | _ => false end) eqn:Oo; [destruct o; try discriminate Oo; apply D_outside|].
  destruct o; try discriminate Oo; cbn [api_body];
    first [apply keeps_client_connect|apply keeps_server_connect|apply keeps_disconnect|apply keeps_inside|apply keeps_nudge|apply keeps_keepalive
          |apply keeps_send_server_config|apply keeps_rotate|apply keeps_set_session|apply keeps_start_pmtu|apply keeps_set_username
          |apply keeps_set_password|apply keeps_set_token|apply keeps_set_auth_buffer|apply keeps_set_mtu|apply keeps_set_sni
          |apply keeps_pm_timeout
          |apply keeps_bind; [ku|intros; apply keeps_ret]]; ks.
Qed.
End A.
Lemma D_hookn E n : keeps D R (hookn E n).
Proof.
  induction n as [|n IH]; [apply keeps_ret|]. cbn [hookn]. apply keeps_bind; [apply keeps_log|]. intros t.
  induction (e_host E t) as [|o k IHk]; cbn [run_host]; [apply keeps_ret|]. apply keeps_bind; [|intros rc; apply IHk].
  unfold nested_api. apply keeps_bind; [apply keeps_emit; intros; now apply D_easy|]. intros _. apply keeps_bind; [now apply D_body|]. intros rc.
  apply keeps_bind; [apply keeps_emit; intros; now apply D_easy|]. intros _. apply keeps_ret.
Qed.
Lemma D_run E n ops : forall w, D w -> match run E n ops w with Done _ w' => D w' | Stuck _ w' => R w' end.
Proof.
  induction ops as [|o ops IH]; intros w H; cbn [run]; [exact H|].
  assert (keeps D R (api E (hookn E n) o)) as Kp.
  { unfold api. apply keeps_bind; [apply keeps_emit; intros; now apply D_easy|]. intros _.
    apply keeps_bind; [apply D_body; apply D_hookn|]. intros rc. apply keeps_bind; [apply keeps_emit; intros; now apply D_easy|]. intros _. apply keeps_ret. }
  specialize (Kp w H). destruct (api _ _ _ _); [now apply IH|exact Kp].
Qed.
Lemma all_rules E n ops : every rule (history E n ops).
Proof.
  pose proof (@D_run E n ops world_new) as Kp. unfold history, world_of. destruct (run E n ops world_new); apply Kp; split; try exact I; reflexivity.
Qed.
Lemma every_weak (P Q : Z -> ev -> trace -> Prop) t : (forall s e past, P s e past -> Q s e past) -> every P t -> every Q t.
Proof. intros H. induction t as [|[s e] t IH]; [auto|]. intros [A B]. split; auto. Qed.

(** Whatever calls a host makes, also inside callbacks and however deep: as soon as
    an authentication callback or populate_network_config_ipv4_cb has answered, a
    login is rejected, taken further or given its configuration, as the answer
    says, and nothing comes in between ... *)
Theorem C57_answered : forall E n ops, every (fun _ e past => paid e past) (history E n ops).
Proof. intros E n ops. refine (every_weak _ (@all_rules E n ops)). now intros s e past []. Qed.
Print Assumptions C57_answered.
(** ... and only then: addresses are asked for right after an authentication
    callback has accepted, a configuration is sent right after they were given
    out, and a rejection right after a callback said no, or right after an AUTH
    message that no callback was asked about. *)
Theorem C57_only_then : forall E n ops, every (fun _ e past => due e past) (history E n ops).
Proof. intros E n ops. refine (every_weak _ (@all_rules E n ops)). now intros s e past []. Qed.
Print Assumptions C57_only_then.

(** A server whose callbacks say what [auth] and [populate] say, and whose host makes
    a call of its own inside the authentication callback. *)
Definition strict (auth populate : Z) (o : op) : env :=
  Env true 50 plain_ask (fun t => match t with (_, EAuthUser _ _) :: _ | (_, ENestRet _ _) :: _ => auth | (_, ECfg _ _ _) :: _ => populate | _ => plain_cb t end)
      (fun _ => (ip 1, ip 2, ip 3)) (fun _ => (HE_PLUGIN_SUCCESS, [])) plain_wolf
      (fun t => match t with (_, EAuthUser _ _) :: _ => HCall o (fun _ => HDone) | _ => HDone end).
Definition sends (e : ev) : list bytes := match e with EWOp (WSend m) => [m] | _ => [] end.
Definition sent E n ops : list bytes := collect (fun _ e => sends e) (history E n ops).
Definition debts (t : trace) : list debt :=
  (fix go t := match t with [] => [] | x :: p => match owed t with Nothing => go p | d => go p ++ [d] end end) t.
(** Denied; denied while the host sends a keepalive inside the callback; accepted, with and without addresses; and an AUTH of a kind nobody knows. *)
Example C57_ex :
  let odd := OOutside (dgram 0 [HE_MSGID_AUTH; 99; 4; 4; 97]) in
  (sent (strict 0 0 ODisconnect) 0 server_up = [auth_denied_message] /\ debts (history (strict 0 0 ODisconnect) 0 server_up) = [Rejection] /\
   c_state (w_c (world_of (run (strict 0 0 ODisconnect) 0 server_up world_new))) = HE_STATE_DISCONNECTING) /\
  (debts (history (strict 0 0 OKeepalive) 1 server_up) = [Rejection] /\ In auth_denied_message (sent (strict 0 0 OKeepalive) 1 server_up) /\
   has (fun e => match e with ENest OKeepalive => true | _ => false end) (history (strict 0 0 OKeepalive) 1 server_up) = true) /\
  (debts (history (strict 1 0 ODisconnect) 0 server_up) = [Population; Configuration] /\
   map msg_type (sent (strict 1 0 ODisconnect) 0 server_up) = [HE_MSGID_CONFIG_IPV4]) /\
  (debts (history (strict 1 HE_ERR_FAILED ODisconnect) 0 server_up) = [Population; Rejection] /\
   sent (strict 1 HE_ERR_FAILED ODisconnect) 0 server_up = [auth_denied_message]) /\
  (debts (history plain_env 0 (firstn 3 server_up ++ [odd])) = [] /\ sent plain_env 0 (firstn 3 server_up ++ [odd]) = [auth_denied_message]).
Proof. vm_compute. repeat split; auto. Qed.

(** The rejection does not say so (finding 3): its status, the byte after the type,
    is HE_AUTH_STATUS_SUCCESS (msg_handlers.c:212), also after a callback said no;
    only its type tells a client that it was turned away. *)
Lemma every_skip (P : Z -> ev -> trace -> Prop) t : every P t -> forall k, match skipn k t with (s, e) :: past => P s e past | [] => True end.
Proof.
  intros H k. revert t H. induction k as [|k IH]; intros [|[s e] t] H; cbn [skipn]; try exact I; [apply H|]. apply IH. apply H.
Qed.
Definition mute (t : trace) : bool :=
  match t with
  | (_, EWOp (WSend m)) :: past => (nth 1 m 0 =? HE_AUTH_STATUS_SUCCESS) && match owed past with Rejection => true | _ => false end
  | _ => false
  end.
Theorem C57_status_refuted :
  ~ (forall E n ops, every (fun _ e past => owed past = Rejection -> forall m, e = EWOp (WSend m) -> nth 1 m 0 = HE_AUTH_STATUS_FAILURE) (history E n ops)).
Proof.
  intros H. specialize (H (strict 0 0 ODisconnect) 0%nat server_up).
  assert (exists k, mute (skipn k (history (strict 0 0 ODisconnect) 0 server_up)) = true) as [k Hk] by (exists 10%nat; vm_compute; reflexivity).
  pose proof (every_skip H k) as X. clear H. destruct (skipn k _) as [|[s e] t]; [discriminate Hk|]. cbn [mute] in Hk. destruct e; try discriminate Hk. destruct o; try discriminate Hk.
  apply andb_true_iff in Hk as [A B]. destruct (owed t) eqn:Ow; try discriminate B. specialize (X eq_refl _ eq_refl). apply Z.eqb_eq in A. rewrite X in A. discriminate A.
Qed.
Print Assumptions C57_status_refuted.
