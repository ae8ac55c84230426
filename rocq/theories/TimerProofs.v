(** For C41: invariants that depend on the timers. *)
From Verif Require Import Base Codes Ctx Config Mss Frag Wire WireProofs ConnState Conn ConnSpec HistSpec MsgSpec CallSpec.
From Verif Require Import ConnSteps ConnWp ConnWpApi Frame FrameLoop Reaction Seq SeqApi TimerSpec.
Unset Strict Implicit.

(** *** The functions that set timers, taken apart *)
Section G.
Variable E : env.
Variable hook : M unit.
Variable I : world -> Prop.
Notation T := (fun _ : world => True).
Notation kept := (keeps I T).
Hypothesis H_configure : forall x i p, kept (configure E x i p).
Hypothesis H_new : kept (ask E QWolfNew).
Hypothesis H_wolf : forall i b, kept (upd (fun c => set_io i (set_wolf_ctx false (set_wolf b c)))).
Hypothesis H_settings : forall x, kept (wolf_settings E x).
Hypothesis H_settings2 : forall x, kept (wolf_settings2 E x).
Hypothesis H_wctx : kept (upd (set_wolf_ctx true)).
Hypothesis H_change : forall s, kept (change_conn_state E hook s).
Hypothesis H_negotiate : kept (wolf_op E hook WNegotiate).
Hypothesis H_timeout : kept (update_timeout E hook).
Lemma internal_kept x i p : kept (internal_connect E hook x i p).
Proof.
  unfold internal_connect. apply keeps_bind; [apply H_configure|]. intros res. case_if; [apply keeps_ret|].
  apply keeps_bind; [exact H_new|]. intros v. cbv zeta. apply keeps_bind; [apply H_wolf|]. intros _. case_if; [apply keeps_ret|].
  apply keeps_bind; [apply H_settings|]. intros res2. case_if; [apply keeps_ret|]. apply keeps_bind; [exact H_wctx|]. intros _.
  apply keeps_bind; [apply H_settings2|]. intros res3. case_if; [apply keeps_ret|]. apply keeps_bind; [apply H_change|]. intros _.
  apply keeps_bind; [exact H_negotiate|]. intros [[r err] d]. repeat case_if; try apply keeps_ret;
  (apply keeps_bind; [apply H_change|]; intros _; apply keeps_bind; [exact H_timeout|]; intros _; apply keeps_ret).
Qed.
Hypothesis H_role : forall b, kept (upd (set_is_server b)).
Lemma client_kept x i p : kept (client_connect E hook x i p).
Proof.
  unfold client_connect. apply keeps_bind; [apply keeps_get|]. intros c. apply keeps_bind_lift; [auto|]. intros res _.
  case_if; [apply keeps_ret|]. apply keeps_bind; [apply H_role|]. intros _. apply internal_kept.
Qed.
Hypothesis H_rng : kept (generate_session_id E).
Hypothesis H_session : forall s, kept (upd (set_session s)).
Lemma server_kept x i p : kept (server_connect E hook x i p).
Proof.
  unfold server_connect. apply keeps_bind; [apply keeps_get|]. intros c. cbv zeta. case_if; [apply keeps_ret|].
  apply keeps_bind; [apply H_role|]. intros _. apply keeps_bind; [apply internal_kept|]. intros res. case_if; [apply keeps_ret|].
  apply keeps_bind; [exact H_rng|]. intros [r s]. case_if; [apply keeps_ret|]. apply keeps_bind; [apply H_session|intros _; apply keeps_ret].
Qed.
Hypothesis H_off : kept (upd (set_nudging false)).
Hypothesis H_auth : kept (send_auth E hook).
Hypothesis H_got : kept (wolf_op E hook WGotTimeout).
Lemma nudge_kept : kept (nudge E hook).
Proof.
  unfold nudge. apply keeps_bind; [exact H_off|]. intros _. apply keeps_bind; [apply keeps_get|]. intros st. case_if.
  - apply keeps_bind; [exact H_auth|]. intros _. apply keeps_bind; [exact H_timeout|intros _; apply keeps_ret].
  - apply keeps_bind; [exact H_got|]. intros [[r err] d]. case_if; (apply keeps_bind; [first [apply H_change|exact H_timeout]|intros _; apply keeps_ret]).
Qed.
End G.

(** The receive path. *)
Section R.
Variable E : env.
Variable hook : M unit.
Variable I : world -> Prop.
Notation T := (fun _ : world => True).
Notation kept := (keeps I T).
Hypothesis H_plugin : forall ch d c, kept (plugin_ingress E ch d c).
Hypothesis H_rx : forall f, kept (upd (fun c => set_rx (f (c_rx c)) c)).
Hypothesis H_err : forall v, kept (upd (set_wolf_err v)).
Hypothesis H_verify : kept (verify_connection E hook).
Hypothesis H_in : forall s, kept (update_session_incoming hook s).
Lemma outside_kept b : kept (outside_data_received E hook b).
Proof.
  unfold outside_data_received. apply keeps_bind; [apply keeps_get|]. intros c. case_if; [apply keeps_ret|]. apply keeps_bind; [apply H_plugin|]. intros [res d].
  repeat (case_if; [apply keeps_ret|]). apply keeps_bind; [apply keeps_get|]. intros ct. case_if; [|case_if; [|apply keeps_ret]].
  - unfold outside_packet_received. repeat first [apply keeps_ret|apply keeps_bind_lift; [auto|intros ? _]|case_if|apply keeps_bind; [apply keeps_get|intros ?]].
    apply keeps_bind; [match goal with |- kept (upd (fun c => set_rx (Rx ?a ?b (rx_left (c_rx c)) (rx_rest (c_rx c)) ?e) c)) => apply (H_rx (fun r => Rx a b (rx_left r) (rx_rest r) e)) end|]. intros _.
    apply keeps_bind; [exact H_verify|]. intros rc. apply keeps_bind; [apply (H_rx (set_rx_live false))|]. intros _. case_if; [apply keeps_ret|apply H_in].
  - unfold outside_stream_received. apply keeps_bind; [apply keeps_get|]. intros r. case_if; [apply keeps_bind; [apply H_err|intros _; apply keeps_ret]|].
    apply keeps_bind; [match goal with |- kept (upd (fun c => set_rx (Rx ?a (rx_seen (c_rx c)) ?l ?b ?e) c)) => apply (H_rx (fun r => Rx a (rx_seen r) l b e)) end|]. intros _.
    apply keeps_bind; [exact H_verify|]. intros rc. apply keeps_bind; [apply (H_rx (set_rx_live false))|]. intros _. apply keeps_ret.
Qed.
End R.

(** Renegotiation. *)
Section N.
Variable E : env.
Variable hook : M unit.
Variable I : world -> Prop.
Notation T := (fun _ : world => True).
Notation kept := (keeps I T).
Hypothesis H_due : kept (upd (set_due false)).
Hypothesis H_ask : forall q, q <> QTimeout -> q <> QQuickTimeout -> kept (ask E q).
Hypothesis H_op : forall o, o <> WNegotiate -> o <> WRecv -> kept (wolf_op E hook o).
Hypothesis H_prog : forall b, kept (upd (set_prog b)).
Hypothesis H_event : forall v, v <> HE_EVENT_PONG -> v <> HE_EVENT_PENDING_SESSION_ACKNOWLEDGED -> kept (generate_event hook v).
Hypothesis H_err : forall v, kept (upd (set_wolf_err v)).
Hypothesis H_timeout : kept (update_timeout E hook).
Lemma reneg_kept : kept (renegotiate_ssl E hook).
Proof.
  unfold renegotiate_ssl. apply keeps_bind; [exact H_due|]. intros _. apply keeps_bind; [apply keeps_get|]. intros pr. apply keeps_bind; [apply keeps_get|]. intros st.
  case_if; [apply keeps_ret|]. apply keeps_bind; [apply keeps_version; [auto|apply H_ask; discriminate]|]. intros v. apply keeps_bind; [case_if; [apply H_ask; discriminate|apply keeps_ret]|]. intros sup.
  case_if; [apply keeps_ret|]. apply keeps_bind; [apply H_op; case_if; discriminate|]. intros [[r err] d]. apply keeps_bind; [apply H_prog|]. intros _.
  apply keeps_bind; [apply H_event; discriminate|]. intros _. repeat case_if; try apply keeps_ret; (apply keeps_bind; [first [exact H_timeout|apply H_err]|intros _; apply keeps_ret]).
Qed.
Lemma check_kept : kept (check_renegotiation E hook).
Proof.
  unfold check_renegotiation. apply keeps_bind; [apply keeps_get|]. intros pr. case_if; [apply keeps_ret|]. apply keeps_bind; [apply keeps_version; [auto|apply H_ask; discriminate]|]. intros v.
  apply keeps_bind. { case_if; [apply keeps_bind; [apply H_ask; discriminate|intros p; apply keeps_ret]|]. apply keeps_bind; [apply H_ask; discriminate|]. intros rc. apply keeps_bind; [apply H_ask; discriminate|intros p; apply keeps_ret]. }
  intros [rc p]. case_if. { apply keeps_bind; [apply H_ask; discriminate|]. intros e. apply keeps_bind; [apply H_err|intros _; apply keeps_ret]. }
  apply keeps_bind; [apply keeps_when, H_event; discriminate|]. intros _. apply keeps_bind; [apply H_prog|]. intros _. apply keeps_bind; [exact H_timeout|intros _; apply keeps_ret].
Qed.
End N.
