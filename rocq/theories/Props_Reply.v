(** C30: pings are answered, for hosts that also make calls inside callbacks. *)
From Verif Require Import Base Codes Ctx Config Mss Frag Wire WireSpec WireProofs ConnState Conn ConnSpec HistSpec MsgSpec CallSpec.
From Verif Require Import MssProofs ConnSteps Frame FrameLoop Scenario Reaction TimerProofs CredSpec ConfServer ReplySpec SeqPing.
Unset Strict Implicit.

Definition rule (s : Z) (e : ev) (past : trace) : Prop := answered e past /\ answers e past.
(** The log is in order ([R]) and no answer is owed ([D]). *)
Definition R (w : world) : Prop := every rule (w_t w).
Definition D (w : world) : Prop := R w /\ pinged (w_t w) = None.
Lemma D_R w : D w -> R w.
Proof. now intros [H _]. Qed.
(** Events that owe nothing and need nothing. *)
Definition easy (e : ev) : Prop :=
  match e with
  | EWOp (WSend m) => msg_type m <> HE_MSGID_PONG
  | EWEnd WRecv r _ _ => r <= 0
  | _ => True
  end.
Lemma easy_owes s e t : easy e -> pinged ((s, e) :: t) = None.
Proof.
  destruct e; try reflexivity. match goal with o : wop |- _ => destruct o; try reflexivity end. cbn [easy pinged]. intros H.
  match goal with |- context [0 <? ?r] => destruct (Z.ltb_spec 0 r); [lia|reflexivity] end.
Qed.
Lemma easy_due e t : easy e -> answers e t.
Proof. intros H m -> Ty. now elim H. Qed.
Lemma D_easy e w : easy e -> D w -> D (push e w).
Proof.
  intros H [A B]. split; [|now apply easy_owes]. split; [|exact A]. split; [intros id; rewrite B; discriminate|now apply easy_due].
Qed.
Lemma type_auth le c m : auth_made le c m -> msg_type m = HE_MSGID_AUTH \/ m = [].
Proof.
  intros [[_ H]|(b & n & _ & H & L)]; [left; exact (type_userpass H)|]. apply type_auth_buffer in H. apply type_ldn in L.
  destruct L as [L| ->]; [left; congruence|now right].
Qed.

Section A.
Variable E : env.
Variable hook : M unit.
Hypothesis Hk : keeps D R hook.
Lemma D_event e w : io_event e = false -> D w -> D (push e w).
Proof. intros H. apply D_easy. destruct e; try exact I; discriminate H. Qed.
Lemma D_send m w : ponging (WSend m) = false -> D w -> D (push (EWOp (WSend m)) w).
Proof. intros H. apply D_easy. cbn in *. now apply Z.eqb_neq. Qed.
Lemma D_wop o w : ponging o = false -> D w -> D (push (EWOp o) w).
Proof. destruct o; try (intros _; now apply D_easy). apply D_send. Qed.
Lemma D_made c m w : auth_made (e_le E) c m -> D w -> D (push (EWOp (WSend m)) w).
Proof. intros H. apply D_easy. destruct (type_auth H) as [Y| ->]; [cbn; rewrite Y; discriminate|discriminate]. Qed.
Lemma D_conf m w : msg_type m = HE_MSGID_CONFIG_IPV4 -> D w -> D (push (EWOp (WSend m)) w).
Proof. intros H. apply D_easy. cbn. rewrite H. discriminate. Qed.
Lemma D_probe m w : probing (WSend m) = true -> D w -> D (push (EWOp (WSend m)) w).
Proof. intros H. apply D_easy. cbn in *. apply andb_true_iff in H as [H _]. apply Z.eqb_eq in H. rewrite H. discriminate. Qed.
Lemma D_wend o r err d w : o <> WRecv -> D w -> D (push (EWEnd o r err d) w).
Proof. intros H. apply D_easy. destruct o; try exact I. now elim H. Qed.
Ltac ks := intros; first [now apply D_R|apply Hk|assumption|apply keeps_ret|now apply D_event|now apply D_wop|now apply D_send|now apply D_conf|now apply D_probe|now apply D_wend|(eapply D_made; eassumption)|(apply D_easy; [exact I|assumption])|(apply D_easy; [discriminate|assumption])|idtac].
Lemma D_read sz : keeps D R (io_read sz).
Proof. apply keeps_io_read; ks. Qed.
Lemma D_write b : keeps D R (io_write E hook b).
Proof. apply keeps_io_write; ks. Qed.
Ltac ks ::= intros; first [now apply D_R|apply Hk|assumption|apply keeps_ret|apply D_read|apply D_write|now apply D_event|now apply D_wop|now apply D_send|now apply D_conf|now apply D_probe|now apply D_wend|(eapply D_made; eassumption)|(apply D_easy; [exact I|assumption])|(apply D_easy; [discriminate|assumption])|idtac].
Lemma D_change s : keeps D R (change_conn_state E hook s).
Proof. apply keeps_change_conn_state; ks. Qed.

(** A message has just been received. *)
Definition got (d : bytes) (w : world) : Prop :=
  R w /\ bytes_ok d /\ 0 < len d /\ exists r err t, 0 < r /\ w_t w = (c_state (w_c w), EWEnd WRecv r err d) :: t.
Lemma D_recv w : D w ->
  match wolf_op E hook WRecv w with
  | Done (r, err, d) w' => if r <=? 0 then D w' else got d w'
  | Stuck _ w' => R w' end.
Proof.
  intros Hw. enough (match wolf_op E hook WRecv w with
  | Done (r, err, d) w' => if r <=? 0 then D w' else bytes_ok d -> 0 < len d -> got d w'
  | Stuck _ w' => R w' end) as Q.
  { pose proof (@recv_data E hook w) as RD. destruct (wolf_op E hook WRecv w) as [[[r err] d] w'|]; [|exact Q].
    destruct (RD r err d w' eq_refl). destruct (Z.leb_spec r 0); auto. }
  unfold wolf_op. unfold bind at 1, emit at 1. fold (push (EWOp WRecv) w). assert (D (push (EWOp WRecv) w)) as C1 by ks.
  unfold bind at 1, get at 1.
  match goal with |- context [bind ?m ?k (push _ w)] => assert (keeps D R m) as K end.
  { destruct (c_wolf _); [|apply keeps_ret]. apply keeps_bind; [apply keeps_log|]. intros t.
    apply keeps_bind; [apply keeps_strat; ks|]. intros [[r err] d]. apply keeps_ret. }
  specialize (K _ C1). unfold bind at 1.
  match goal with |- match match ?m with _ => _ end with _ => _ end => destruct m as [[[r err] d] w'|u w'] end; [|exact K].
  unfold bind, emit, ret. fold (push (EWEnd WRecv r err d) w'). destruct (Z.leb_spec r 0) as [Hr|Hr]; [now apply D_easy|].
  intros Bd Ld. destruct K as [A B]. split; [|split; [exact Bd|split; [exact Ld|]]].
  - split; [|exact A]. split; [intros id; rewrite B; discriminate|intros m; discriminate].
  - exists r, err, (w_t w'). cbn [push w_t w_c]. auto.
Qed.
Lemma D_process m : forall w, got m w -> match process_message E hook m w with Done _ w' => D w' | Stuck _ w' => R w' end.
Proof.
  intros w (A & Bm & Hl & r & err & t & Hr & Lg). unfold process_message. destruct (Z.ltb_spec (len m) sizeof_msg_hdr) as [Y|_]; [unfold sizeof_msg_hdr in Y; lia|].
  rewrite ld8_ok by lia. change (nth (Z.to_nat 0) m 0) with (msg_type m). unfold bind at 1, lift at 1, ret at 1. unfold bind at 1, get at 1.
  assert (pinged (w_t w) = if (c_state (w_c w) =? HE_STATE_ONLINE) && is_ping m then Some (field16 m 1) else None) as Pg.
  { rewrite Lg. cbn [pinged]. destruct (Z.ltb_spec 0 r); [reflexivity|lia]. }
  destruct (Z.eqb_spec (msg_type m) HE_MSGID_PING) as [Ty|N].
  - rewrite Ty. cbn [Z.eqb Pos.eqb HE_MSGID_NOOP HE_MSGID_PING andb]. unfold handle_ping. change sizeof_ping with 5. unfold bind at 1, get at 1.
    unfold is_ping in Pg. rewrite Ty in Pg. change (HE_MSGID_PING =? HE_MSGID_PING) with true in Pg. cbn [andb] in Pg.
    destruct (c_state (w_c w) =? HE_STATE_ONLINE); cbn [negb andb] in *; [|split; assumption].
    destruct (Z.ltb_spec (len m) 5) as [L|L]; destruct (Z.leb_spec 5 (len m)); try lia; [split; assumption|].
    destruct (@field16_ok E m 1 Bm) as (raw & F & N & O); [lia|lia|]. change (Z.to_nat 1) with 1%nat in *. rewrite F. unfold bind at 1, lift at 1, ret at 1.
    rewrite build_pong_ok. unfold bind at 1, lift at 1, ret at 1.
    assert (HE_MSGID_PONG :: bytes16 (e_le E) raw ++ [0; 0] = pong_message (field16 m 1)) as Pm.
    { unfold pong_message. f_equal. f_equal. rewrite <- N. rewrite ldh16_ok in F by (auto; lia). injection F as <-.
      change (Z.to_nat 1) with 1%nat. pose proof (bytes_ok_nth 1 Bm) as B1. pose proof (bytes_ok_nth (1 + 1)%nat Bm) as B2. unfold byte_ok in *.
      change (1 + 1)%nat with 2%nat in *. now apply bytes16_host16. }
    rewrite Pm. set (q := pong_message (field16 m 1)) in *.
    assert (D (push (EWOp (WSend q)) w)) as Hq.
    { split; [|reflexivity]. split; [|exact A]. split; [intros id Q; rewrite Pg in Q; injection Q as <-; reflexivity|].
      intros m' [= <-] _. exists (field16 m 1). auto. }
    assert (at_world D R w (send_message E hook q)) as K by (apply send_message_at; ks; reflexivity). exact K.
  - assert (D w) as Hw.
    { split; [exact A|]. rewrite Pg. unfold is_ping. apply Z.eqb_neq in N. rewrite N. cbn [andb]. now rewrite andb_false_r. }
    match goal with |- match ?mm w with _ => _ end => assert (keeps D R mm) as Kp; [|exact (Kp w Hw)] end.
    generalize (c_is_server (w_c w)). clear w A r err t Hr Lg Pg Hw. intros srv.
    repeat (case_if; try apply keeps_ret; try (first [apply keeps_handle_pong|apply keeps_handle_auth|apply keeps_handle_data|apply keeps_handle_frag|apply keeps_handle_13|apply keeps_handle_config|apply keeps_handle_server_config]; ks; fail)).
Qed.
Ltac ku := lazymatch goal with |- keeps _ _ (upd _) => apply keeps_upd; intros; assumption end.
Lemma D_fetch : forall fuel w, D w ->
  match fetch_message E hook fuel w with
  | Done (rc, Some d) w' => rc = HE_SUCCESS /\ got d w'
  | Done (_, None) w' => D w'
  | Stuck _ w' => R w' end.
Proof.
  induction fuel as [|fuel IH]; intros w P; cbn [fetch_message]; [now apply D_R|]. unfold bind at 1.
  pose proof (@D_recv w P) as K. destruct (wolf_op E hook WRecv w) as [[[r err] d] w'|u w']; [|exact K].
  destruct (Z.leb_spec r 0) as [|Hr]; [|cbn; auto]. destruct (err =? SSL_ERROR_NONE); [exact K|].
  destruct (err =? APP_DATA_READY); [now apply IH|]. destruct (_ || _); [exact K|]. destruct (r =? 0); exact K.
Qed.
Lemma D_loop : forall fuel, keeps D R (message_loop E hook fuel).
Proof.
  induction fuel as [|fuel IH]; intros w P; cbn [message_loop]; [now apply D_R|]. unfold bind at 1.
  pose proof (@D_fetch (e_fuel E) w P) as F. destruct (fetch_message E hook (e_fuel E) w) as [[rc [d|]] w1|]; [| |exact F].
  - destruct F as (-> & F). change (negb (HE_SUCCESS =? HE_SUCCESS)) with false. cbv iota.
    unfold bind at 1. pose proof (@D_process d w1 F) as K. destruct (process_message E hook d w1) as [rc2 w2|]; [|exact K].
    destruct (negb (rc2 =? HE_SUCCESS)); [exact K|]. now apply IH.
  - destruct (negb (rc =? HE_SUCCESS)); exact F.
Qed.
Lemma D_messages : keeps D R (handle_messages E hook).
Proof.
  unfold handle_messages. apply keeps_bind; [apply D_loop|]. intros rc. case_if; [apply keeps_ret|].
  apply keeps_bind; [apply keeps_get|]. intros due. apply keeps_bind; [case_if; [apply keeps_renegotiate; ks|apply keeps_ret]|].
  intros rc2. case_if; [apply keeps_ret|apply keeps_check; ks].
Qed.
Lemma D_verify : keeps D R (verify_connection E hook).
Proof.
  unfold verify_connection. apply keeps_bind; [apply keeps_get|]. intros first. apply keeps_bind.
  { case_if; [|apply keeps_ret]. apply keeps_bind; [ku|intros _; apply keeps_generate_event; ks]. }
  intros _. apply keeps_bind; [apply keeps_get|]. intros st. case_if; [|exact D_messages].
  apply keeps_bind; [apply keeps_wolf_negotiate; ks|]. intros [[r err] d]. case_if.
  - repeat (case_if; try apply keeps_ret).
    + apply keeps_bind; [ku|intros _; apply keeps_ret].
    + apply keeps_bind; [apply keeps_get|]. intros ct. apply keeps_bind; [apply keeps_when, keeps_update_timeout; ks|intros _; apply keeps_ret].
  - apply keeps_bind; [apply D_change|intros _; exact D_messages].
Qed.
Lemma D_outside b : keeps D R (outside_data_received E hook b).
Proof.
  unfold outside_data_received. apply keeps_bind; [apply keeps_get|]. intros c. case_if; [apply keeps_ret|]. apply keeps_bind; [apply keeps_plugin_ingress; ks|]. intros [res d].
  repeat (case_if; [apply keeps_ret|]). apply keeps_bind; [apply keeps_get|]. intros ct. case_if; [|case_if; [|apply keeps_ret]].
  - unfold outside_packet_received. repeat first [apply keeps_ret|apply keeps_bind_lift; [exact D_R|intros ? _]|case_if|apply keeps_bind; [apply keeps_get|intros ?]].
    apply keeps_bind; [ku|]. intros _. apply keeps_bind; [exact D_verify|]. intros rc. apply keeps_bind; [ku|]. intros _.
    case_if; [apply keeps_ret|apply keeps_session_in; ks].
  - unfold outside_stream_received. apply keeps_bind; [apply keeps_get|]. intros r. case_if; [apply keeps_bind; [ku|intros _; apply keeps_ret]|].
    apply keeps_bind; [ku|]. intros _. apply keeps_bind; [exact D_verify|]. intros rc. apply keeps_bind; [ku|]. intros _. apply keeps_ret.
Qed.
Lemma D_body o : keeps D R (api_body E hook o).
Proof.
  destruct (match o with OOutside _ => true | _ => false end) eqn:Oo; [destruct o; try discriminate Oo; apply D_outside|].
  destruct o; try discriminate Oo; cbn [api_body];
    first [apply keeps_client_connect|apply keeps_server_connect|apply keeps_disconnect|apply keeps_inside|apply keeps_nudge|apply keeps_keepalive
          |apply keeps_send_server_config|apply keeps_rotate|apply keeps_set_session|apply keeps_start_pmtu|apply keeps_set_username
          |apply keeps_set_password|apply keeps_set_token|apply keeps_set_auth_buffer|apply keeps_set_mtu|apply keeps_set_sni
          |apply keeps_pm_timeout
          |apply keeps_bind; [ku|intros; apply keeps_ret]]; ks.
Qed.
End A.
Lemma D_hookn E n : keeps D R (hookn E n).
Proof.
  induction n as [|n IH]; [apply keeps_ret|]. cbn [hookn]. apply keeps_bind; [apply keeps_log|]. intros t.
  induction (e_host E t) as [|o k IHk]; cbn [run_host]; [apply keeps_ret|]. apply keeps_bind; [|intros rc; apply IHk].
  unfold nested_api. apply keeps_bind; [apply keeps_emit; intros; now apply D_easy|]. intros _. apply keeps_bind; [now apply D_body|]. intros rc.
  apply keeps_bind; [apply keeps_emit; intros; now apply D_easy|]. intros _. apply keeps_ret.
Qed.
Lemma D_run E n ops : forall w, D w -> match run E n ops w with Done _ w' => D w' | Stuck _ w' => R w' end.
Proof.
  induction ops as [|o ops IH]; intros w H; cbn [run]; [exact H|].
  assert (keeps D R (api E (hookn E n) o)) as Kp.
  { unfold api. apply keeps_bind; [apply keeps_emit; intros; now apply D_easy|]. intros _.
    apply keeps_bind; [apply D_body; apply D_hookn|]. intros rc. apply keeps_bind; [apply keeps_emit; intros; now apply D_easy|]. intros _. apply keeps_ret. }
  specialize (Kp w H). destruct (api _ _ _ _); [now apply IH|exact Kp].
Qed.
Lemma all_rules E n ops : every rule (history E n ops).
Proof.
  pose proof (@D_run E n ops world_new) as Kp. unfold history, world_of. destruct (run E n ops world_new); apply Kp; split; try exact I; reflexivity.
Qed.
Lemma every_weak (P Q : Z -> ev -> trace -> Prop) t : (forall s e past, P s e past -> Q s e past) -> every P t -> every Q t.
Proof. intros H. induction t as [|[s e] t IH]; [auto|]. intros [A B]. split; auto. Qed.

(** Whatever calls a host makes, also inside callbacks and however deep: a
    well-formed ping received while ONLINE is answered with one pong of its id by
    the very next thing that happens ... *)
Theorem C30_reply_any_host : forall E n ops, every (fun _ e past => answered e past) (history E n ops).
Proof. intros E n ops. refine (every_weak _ (@all_rules E n ops)). now intros s e past []. Qed.
Print Assumptions C30_reply_any_host.
(** ... and no pong is ever sent otherwise. *)
Theorem C30_reply_only_any_host : forall E n ops, every (fun _ e past => answers e past) (history E n ops).
Proof. intros E n ops. refine (every_weak _ (@all_rules E n ops)). now intros s e past []. Qed.
Print Assumptions C30_reply_only_any_host.

(** A client whose host hands over a ping from inside the callback that tells it that
    it is online, and later another ping and one that is too short. *)
Definition prompt (m : bytes) : env :=
  Env true 50 plain_ask plain_cb (fun _ => (ip 1, ip 2, ip 3)) (fun _ => (HE_PLUGIN_SUCCESS, [])) plain_wolf
      (fun t => match t with
                | (_, EState s) :: _ => if s =? HE_STATE_ONLINE then HCall (OOutside m) (fun _ => HDone) else HDone
                | _ => HDone end).
Definition pongs_sent (t : trace) : list bytes :=
  collect (fun _ e => match e with EWOp (WSend m) => if msg_type m =? HE_MSGID_PONG then [m] else [] | _ => [] end) t.
Fixpoint pings_seen (t : trace) : list Z := match t with [] => [] | x :: p => pings_seen p ++ match pinged t with Some id => [id] | None => [] end end.
Example C30_reply_ex :
  let E := prompt (dgram 4660 (ping_message 77 0)) in
  let t := history E 1 (client_up ++ [OOutside (dgram 4660 (ping_message 300 0)); OOutside (dgram 4660 [HE_MSGID_PING; 0; 5])]) in
  has (fun e => match e with ENest (OOutside _) => true | _ => false end) t = true /\
  pings_seen t = [77; 300] /\ pongs_sent t = [pong_message 77; pong_message 300].
Proof. vm_compute. repeat split. Qed.
