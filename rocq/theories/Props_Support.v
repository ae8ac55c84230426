(** C50: queries of the TLS session. *)
From Verif Require Import Base Codes Ctx Config Wire WireSpec ConnState Conn ConnSpec HistSpec MsgSpec CallSpec.
From Verif Require Import ConnSteps Hist ConnWp ConnWpApi Frame FrameLoop Seq SeqApi Scenario Props_Data Props_Timer Props_Timer Props_Tls SessSpec Getters QuerySpec Props_Query.
From Verif Require CredProofs.
Unset Strict Implicit.

Section R.
Variable E : env.
Notation hk := (@ret unit tt).
Notation T := (fun _ : world => True).
(** *** The TLS session stays *)
Definition up (w : world) : Prop := c_wolf (w_c w) = true.
Ltac kc := intros; unfold up, push, with_c, configure_fields in *; cbn in *; repeat case_if; assumption.
Ltac ks := intros; first [exact I|apply keeps_ret|assumption|kc|idtac].
Lemma up_read sz : keeps up T (io_read sz).
Proof. apply keeps_io_read; ks. Qed.
Lemma up_write b : keeps up T (io_write E hk b).
Proof. apply keeps_io_write; ks. Qed.
Ltac ks ::= intros; first [exact I|apply keeps_ret|apply up_read|apply up_write|assumption|kc|idtac].
Lemma up_body o : the_context o = None -> keeps up T (api_body E hk o).
Proof.
  destruct o; intros C; try discriminate C; cbn [api_body].
  all: first [apply keeps_disconnect|apply keeps_inside|apply keeps_outside|apply keeps_nudge|apply keeps_keepalive|apply keeps_send_server_config
    |apply keeps_set_username|apply keeps_set_password|apply keeps_set_token|apply keeps_set_auth_buffer|apply keeps_set_mtu|apply keeps_start_pmtu
    |apply keeps_pm_timeout|apply keeps_rotate|apply keeps_set_session|apply keeps_set_sni|apply keeps_bind; [apply keeps_upd|intros _; apply keeps_ret]]; ks.
Qed.
Lemma up_generate : keeps up T (generate_session_id E).
Proof. apply keeps_generate_session_id; ks. Qed.
(** A connect that succeeds has made one. *)
Lemma up_connect x i p w rc w' : internal_connect E hk x i p w = Done rc w' -> rc = HE_SUCCESS -> up w'.
Proof.
  unfold internal_connect. unfold bind at 1. destruct (configure E x i p w) as [rc1 w1|]; [|discriminate]. destruct (Z.eqb_spec rc1 HE_SUCCESS) as [N|N]; cbn [negb]; [|intros H Q; apply Done_inv in H as [H _]; congruence].
  unfold bind at 1. rewrite ask_eq. cbv zeta. match goal with |- context [if negb ?k then _ else _] => set (ok := k) end. rewrite upd_first.
  destruct ok; cbn [negb].
  2:{ unfold ret. intros H Q. apply Done_inv in H as [H _]. subst rc. discriminate Q. }
  intros H _. match type of H with ?m ?v = _ => assert (keeps up T m) as K; [|assert (up v) as U by reflexivity; specialize (K v U); now rewrite H in K] end.
  assert (forall q, keeps up T (ask E q)) as Ka by (intros q; unfold ask; apply keeps_bind; [apply keeps_log|]; intros t; apply keeps_bind; [apply keeps_emit; ks|intros _; apply keeps_ret]).
  assert (forall s, keeps up T (change_conn_state E hk s)) as Kc by (intros; apply keeps_change_conn_state; ks).
  assert (keeps up T (update_timeout E hk)) as Ku by (apply keeps_update_timeout; ks).
  apply keeps_bind; [apply keeps_settings; ks|]. intros r1. case_if; [apply keeps_ret|]. apply keeps_bind; [apply keeps_upd; ks|]. intros _.
  apply keeps_bind; [apply keeps_settings2; ks|]. intros r2. case_if; [apply keeps_ret|]. apply keeps_bind; [apply Kc|]. intros _.
  apply keeps_bind; [apply keeps_wolf_op'; ks|]. intros [[r err] d]. repeat case_if; try apply keeps_ret; (apply keeps_bind; [apply Kc|intros _; apply keeps_bind; [exact Ku|intros _; apply keeps_ret]]).
Qed.
Lemma up_api o w rc w' : the_context o <> None -> api_body E hk o w = Done rc w' -> rc = HE_SUCCESS -> up w'.
Proof.
  destruct o; intros C; try (now destruct C); cbn [api_body].
  - unfold client_connect. unfold bind at 1, get at 1. unfold bind at 1. destruct (is_valid_client _ _) as [r|]; [|discriminate]. cbn [lift]. unfold ret at 1.
    destruct (Z.eqb_spec r HE_SUCCESS) as [N|N]; cbn [negb]; [|intros H Q; apply Done_inv in H as [H _]; congruence]. rewrite upd_first. apply up_connect.
  - unfold server_connect. unfold bind at 1, get at 1. cbv zeta. destruct (Z.eqb_spec (is_valid_server x (w_c w)) HE_SUCCESS) as [N|N]; cbn [negb]; [|intros H Q; apply Done_inv in H as [H _]; congruence]. rewrite upd_first.
    unfold bind at 1. destruct (internal_connect _ _ _ _ _ _) as [r1 w1|] eqn:R1; [|discriminate]. destruct (Z.eqb_spec r1 HE_SUCCESS) as [N1|N1]; cbn [negb]; [|intros H Q; apply Done_inv in H as [H _]; congruence].
    assert (up w1) as U1. { now apply (up_connect R1). }
    intros H _. match type of H with ?m w1 = _ => assert (keeps up T m) as K end; [|specialize (K w1 U1); now rewrite H in K].
    apply keeps_bind; [apply up_generate|]. intros [r s]. case_if; [apply keeps_ret|]. apply keeps_bind; [apply keeps_upd; ks|intros _; apply keeps_ret].
Qed.
(** *** The log inside a call *)
Lemma connected_body o w rc w' : api_body E hk o w = Done rc w' -> connected (w_t w') = connected (w_t w).
Proof.
  intros Bd. pose (I := fun v : world => connected (w_t v) = connected (w_t w)).
  assert (keeps I I (api_body E hk o)) as Kp.
  { apply keeps_log_body; [|auto|apply keeps_ret]. intros e v _ N2 Hv. unfold I in *. cbn [push w_t connected]. destruct e; try exact Hv. edestruct N2; reflexivity. }
  specialize (Kp w). rewrite Bd in Kp. now apply Kp.
Qed.
End R.

(** ** A connection that connected has a TLS session *)
Theorem C50_tls : forall E w, reached E w -> connected (w_t w) = true -> c_wolf (w_c w) = true.
Proof.
  intros E. apply (@CredProofs.reached_ind E (fun w => connected (w_t w) = true -> c_wolf (w_c w) = true)); [discriminate|].
  intros w o rc w' Re IH C. destruct (call_body C) as (w1 & Bd & ->). cbn [push w_t w_c connected].
  assert (connected (w_t w1) = connected (w_t w)) as Q by (rewrite (connected_body Bd); reflexivity).
  destruct (the_context o) eqn:X.
  - assert (rc = HE_SUCCESS -> c_wolf (w_c w1) = true) as U by (apply (up_api (o := o) (E := E) (w := push (ECall o) w)); [congruence|exact Bd]).
    destruct o; try discriminate X; intros R; apply U; now destruct (Z.eqb_spec rc 0).
  - rewrite Q. intros R. assert (connected (w_t w) = true) as R'.
    { destruct o; try exact R; discriminate X. }
    pose proof (@up_body E o X (push (ECall o) w) (IH R')) as K. rewrite Bd in K. exact K.
Qed.
Print Assumptions C50_tls.

(** ** he_conn_supports_renegotiation *)
(** With a TLS session: on DTLS 1.2 what wolfSSL says, otherwise yes. *)
Theorem C50_support : forall E w, reached E w -> connected (w_t w) = true -> forall v sup,
  supports_renegotiation v sup (w_c w) = Val (if v =? 65277 then sup else true).
Proof. intros E w Re C v sup. unfold supports_renegotiation. now rewrite (C50_tls Re C). Qed.
Print Assumptions C50_support.
(** Without one - the connection was created and never connected - the library
    hands wolfSSL a NULL pointer, whatever the other calls were. *)
Theorem C50_support_refuted : forall E w, reached E w -> connect_called (w_t w) = false -> forall v sup,
  supports_renegotiation v sup (w_c w) = Ub UB_null.
Proof.
  intros E w Re C v sup. unfold supports_renegotiation. destruct (c_wolf (w_c w)) eqn:W; [|reflexivity].
  destruct (Reach_inv (proj1 (reached_good Re))) as (I & _). destruct (I W) as (_ & H). exfalso.
  unfold has, connect_called in *. induction (w_t w) as [|[s e] t IH]; [discriminate|]. cbn [existsb snd] in *.
  apply orb_false_iff in C as [C1 C2]. apply orb_true_iff in H as [H|H]; [|auto]. destruct e; try discriminate H; destruct o; discriminate.
Qed.
Print Assumptions C50_support_refuted.

(** ** Session numbers *)
(** he_conn_get_session_id and he_conn_get_pending_session_id are the two numbers of C22. *)
Theorem C50_session : forall w, (get_session_id (w_c w), get_pending_session_id (w_c w)) = ids w.
Proof. reflexivity. Qed.
Print Assumptions C50_session.

(** ** Non-vacuity *)
Example support_ex : reached plain_env (world_at client_up) /\ connected (w_t (world_at client_up)) = true /\
  supports_renegotiation 65277 false (w_c (world_at client_up)) = Val false.
Proof. split; [apply world_at_reached; vm_compute; reflexivity|]. split; vm_compute; reflexivity. Qed.
Example support_none : let w := world_at [OSetUsername user; ONudge; OSetMtu 1500] in
  reached plain_env w /\ connect_called (w_t w) = false /\ supports_renegotiation 65277 true (w_c w) = Ub UB_null.
Proof. cbv zeta. split; [apply world_at_reached; vm_compute; reflexivity|]. split; vm_compute; reflexivity. Qed.
