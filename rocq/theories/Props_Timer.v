(** C41: the timers the host is asked for. *)
From Verif Require Import Base Codes Ctx Config Mss Frag Wire WireProofs ConnState Conn ConnSpec HistSpec MsgSpec CallSpec.
From Verif Require Import ConnSteps ConnWp ConnWpApi Frame FrameLoop Scenario Reaction Seq SeqApi TimerSpec TimerProofs Props_Data.
Unset Strict Implicit.

(** *** The value *)
Definition nudge_ok (s : Z) (e : ev) (past : trace) : Prop := match e with ENudge ms => just_asked past ms | _ => True end.
Section A.
Variable E : env.
Notation T := (fun _ : world => True).
Definition IA (w : world) : Prop := every nudge_ok (w_t w).
Definition not_nudge (e : ev) : Prop := match e with ENudge _ => False | _ => True end.
Lemma IA_push e w : not_nudge e -> IA w -> IA (push e w).
Proof. intros H P. split; [|exact P]. unfold nudge_ok. destruct e; try exact I. destruct H. Qed.
Lemma IA_conn f w : IA w -> IA (with_c f w).
Proof. exact (fun H => H). Qed.
Lemma IA_event e w : io_event e = false -> IA w -> IA (push e w).
Proof. intros H. apply IA_push. now destruct e. Qed.
Variable hook : M unit.
Hypothesis Hk : keeps IA T hook.
Ltac ks := intros; first [exact I|exact Hk|assumption|apply keeps_ret|now apply IA_event|now apply IA_push|idtac].
Lemma IA_read sz : keeps IA T (io_read sz).
Proof. apply keeps_io_read; ks. Qed.
Lemma IA_write b : keeps IA T (io_write E hook b).
Proof. apply keeps_io_write; ks. Qed.
Ltac ks ::= intros; first [exact I|exact Hk|assumption|apply keeps_ret|apply IA_read|apply IA_write|now apply IA_event|now apply IA_push|idtac].
Lemma IA_timeout : keeps IA T (update_timeout E hook).
Proof.
  intros w Hw. unfold update_timeout. unfold bind at 1, get at 1. unfold bind at 1, get at 1. case_if; [exact Hw|].
  unfold bind at 1, ask at 1, bind at 1, log at 1, bind at 1, emit at 1, ret at 1. set (tm := e_ask E (w_t w) QTimeout). cbv zeta.
  set (w1 := World (w_c w) _). unfold bind at 1, upd at 1. set (w2 := World _ (w_t w1)).
  ver. unfold bind at 1, ask at 1, bind at 1, log at 1, bind at 1, emit at 1, ret at 1. set (v := e_ask E (w_t w2) QVersion). set (w3 := World (w_c w2) _).
  assert ((if c_prog (w_c w) then tm * HE_WOLF_RENEGOTIATION_TIMEOUT_MULTIPLIER else tm * HE_WOLF_TIMEOUT_MULTIPLIER) = 100 * tm) as Mul by (destruct (c_prog (w_c w)); apply Z.mul_comm).
  assert (IA w3) as H3 by (repeat split; exact Hw).
  (* the rest, once the timeout is known *)
  assert (forall w5, IA w5 -> just_asked (w_t w5) (c_timeout (w_c w5)) ->
    match (let! k := get c_cbs in let! running := get c_nudging in
      if cb_nudge k && negb running then (let! ms := get c_timeout in notify hook (ENudge ms) ;;; upd (set_nudging true)) else ret tt) w5 with Done _ w' => IA w' | Stuck _ _ => True end) as Rest.
  { intros w5 H5 J. unfold bind at 1, get at 1. unfold bind at 1, get at 1. case_if; [|exact H5]. unfold bind at 1, get at 1. unfold notify, bind, emit.
    set (w6 := World (w_c w5) _). assert (IA w6) as H6 by (split; [exact J|exact H5]). specialize (Hk H6). destruct (hook w6); [exact Hk|exact I]. }
  destruct (Z.eqb_spec v DTLS1_2_VERSION) as [V|V]; cbn [negb].
  - unfold bind at 1, ret at 1. unfold bind at 1. change (negb (0 =? 0)) with false. cbn [when]. unfold ret at 1. apply Rest; [exact H3|]. cbn. split; [exact V|]. exact Mul.
  - unfold bind at 1, ask at 1, bind at 1, log at 1, bind at 1, emit at 1, ret at 1. set (q := e_ask E (w_t w3) QQuickTimeout). set (w4 := World (w_c w3) _).
    assert (IA w4) as H4 by (split; [exact I|exact H3]).
    destruct (Z.eqb_spec q 0) as [Q|Q]; cbn [negb when]; unfold bind at 1; [unfold ret at 1|unfold upd at 1]; (apply Rest; [exact H4|]); cbn; (split; [exact V|]); fold v q;
    [rewrite (proj2 (Z.eqb_eq q 0) Q)|rewrite (proj2 (Z.eqb_neq q 0) Q)]; rewrite Mul; reflexivity.
Qed.
Lemma IA_ask q : keeps IA T (ask E q).
Proof. intros w H. split; [exact I|exact H]. Qed.
Lemma IA_op o : keeps IA T (wolf_op E hook o).
Proof. apply keeps_wolf_op'; ks. Qed.
Lemma IA_gen v : v <> HE_EVENT_PONG -> v <> HE_EVENT_PENDING_SESSION_ACKNOWLEDGED -> keeps IA T (generate_event hook v).
Proof. intros N1 N2. apply keeps_generate_event; ks. Qed.
Lemma IA_upd f : keeps IA T (upd f).
Proof. intros w H. exact H. Qed.
Lemma IA_change s : keeps IA T (change_conn_state E hook s).
Proof. apply keeps_change_conn_state; ks. Qed.
Lemma IA_verify : keeps IA T (verify_connection E hook).
Proof.
  apply verify_kept; try (intros; apply IA_upd).
  - intros w r err d w' Hw R. pose proof (@IA_op WRecv w Hw) as K. rewrite R in K. case_if; [exact K|].
    assert (keeps IA T (process_message E hook d)) as Kp by (apply keeps_process; ks). exact (Kp w' K).
  - apply IA_gen; discriminate.
  - apply IA_op.
  - apply IA_change.
  - exact IA_timeout.
  - apply reneg_kept; intros; first [apply IA_upd|apply IA_ask|apply IA_op|now apply IA_gen|exact IA_timeout].
  - apply check_kept; intros; first [apply IA_upd|apply IA_ask|now apply IA_gen|exact IA_timeout].
Qed.
Lemma IA_body o : keeps IA T (api_body E hook o).
Proof.
  destruct o; cbn [api_body].
  - apply client_kept; intros; first [apply IA_upd|apply IA_ask|apply IA_op|apply IA_change|exact IA_timeout|idtac]; [apply keeps_configure; ks|apply keeps_settings; ks|apply keeps_settings2; ks].
  - apply server_kept; intros; first [apply IA_upd|apply IA_ask|apply IA_op|apply IA_change|exact IA_timeout|idtac]; [apply keeps_configure; ks|apply keeps_settings; ks|apply keeps_settings2; ks|apply keeps_generate_session_id; ks].
  - apply keeps_disconnect; ks.
  - apply keeps_inside; ks.
  - apply outside_kept; intros; [apply keeps_plugin_ingress; ks|apply IA_upd|apply IA_upd|exact IA_verify|apply keeps_session_in; ks].
  - apply nudge_kept; intros; first [apply IA_upd|apply IA_op|apply IA_change|exact IA_timeout|idtac]. apply keeps_send_auth; ks.
  - apply keeps_keepalive; ks.
  - apply keeps_send_server_config; ks.
  - apply keeps_bind; [apply IA_upd|intros _; apply keeps_ret].
  - apply keeps_start_pmtu; ks.
  - apply keeps_pm_timeout; ks.
  - apply keeps_rotate; ks.
  - apply keeps_set_session; ks.
  - apply keeps_set_username; ks.
  - apply keeps_set_password; ks.
  - apply keeps_set_token; ks.
  - apply keeps_set_auth_buffer; ks.
  - apply keeps_set_mtu; ks.
  - apply keeps_bind; [apply IA_upd|intros _; apply keeps_ret].
  - apply keeps_set_sni; ks.
Qed.
End A.
Lemma IA_hookn E n : keeps IA (fun _ => True) (hookn E n).
Proof.
  induction n as [|n IH]; [apply keeps_ret|]. cbn [hookn]. apply keeps_bind; [apply keeps_log|]. intros t.
  induction (e_host E t) as [|o k IHk]; cbn [run_host]; [apply keeps_ret|]. apply keeps_bind; [|intros rc; apply IHk].
  unfold nested_api. apply keeps_bind; [apply keeps_emit; intros; now apply IA_push|]. intros _. apply keeps_bind; [now apply IA_body|]. intros rc.
  apply keeps_bind; [apply keeps_emit; intros; now apply IA_push|intros _; apply keeps_ret].
Qed.
Lemma IA_run E n ops : forall w, IA w -> match run E n ops w with Done _ w' => IA w' | Stuck _ _ => True end.
Proof.
  induction ops as [|o ops IH]; intros w H; cbn [run]; [exact H|].
  assert (keeps IA (fun _ => True) (api E (hookn E n) o)) as K.
  { unfold api. apply keeps_bind; [apply keeps_emit; intros; now apply IA_push|]. intros _. apply keeps_bind; [apply IA_body, IA_hookn|]. intros rc.
    apply keeps_bind; [apply keeps_emit; intros; now apply IA_push|intros _; apply keeps_ret]. }
  specialize (K w H). destruct (api E (hookn E n) o w); [now apply IH|exact I].
Qed.
(** Each time the host is asked for a timer ([nudge_time_cb]), even if it makes
    calls inside callbacks, wolfSSL has just been asked for its timeout and the
    host is given 100 times that, or a quarter of it. *)
Theorem C41_value : forall E n ops w, run E n ops world_new = Done tt w ->
  every (fun _ e past => match e with ENudge ms => just_asked past ms | _ => True end) (w_t w).
Proof. intros E n ops w R. pose proof (@IA_run E n ops world_new I) as K. rewrite R in K. exact K. Qed.
Print Assumptions C41_value.

(** *** The invariant of a host that makes no calls inside callbacks *)
Definition quiet_ok (s : Z) (e : ev) (past : trace) : Prop :=
  match e with ENudge _ => s = HE_STATE_ONLINE -> renegotiating past = true | _ => True end.
Definition TJ (w : world) : Prop :=
  c_timeout (w_c w) = chosen (w_t w) /\ c_prog (w_c w) = renegotiating (w_t w) /\ c_nudging (w_c w) = outstanding (w_t w) /\ every quiet_ok (w_t w).
Definition timely (e : ev) : bool :=
  match e with
  | ENudge _ | EAsk QTimeout _ | EAsk QQuickTimeout _ | EAsk QRenegPending _ | EAsk QKeyUpdatePending _
  | EWEnd WRehandshake _ _ _ | EWEnd WUpdateKeys _ _ _ | ECall ONudge | ENest ONudge | ERet ODisconnect _ => true
  | _ => false
  end.
Lemma TJ_push e w : timely e = false -> TJ w -> TJ (push e w).
Proof.
  intros H (A & B & C & D). unfold TJ. cbn [push w_c w_t]. rewrite A, B, C.
  assert (chosen ((c_state (w_c w), e) :: w_t w) = chosen (w_t w)) as ->.
  { destruct e; try reflexivity; [|match goal with q : query |- _ => destruct q end; try reflexivity; discriminate H]. destruct o; try reflexivity; discriminate H. }
  assert (renegotiating ((c_state (w_c w), e) :: w_t w) = renegotiating (w_t w)) as ->.
  { destruct e; try reflexivity; [|match goal with q : query |- _ => destruct q end; try reflexivity; discriminate H]. destruct o; try reflexivity; discriminate H. }
  assert (outstanding ((c_state (w_c w), e) :: w_t w) = outstanding (w_t w)) as ->.
  { destruct e; try reflexivity; try discriminate H; destruct o; try reflexivity; discriminate H. }
  split; [reflexivity|]. split; [reflexivity|]. split; [reflexivity|]. split; [|exact D]. destruct e; try exact I. discriminate H.
Qed.
Lemma TJ_conn f w : (forall c, c_timeout (f c) = c_timeout c /\ c_prog (f c) = c_prog c /\ c_nudging (f c) = c_nudging c) -> TJ w -> TJ (with_c f w).
Proof. intros H (A & B & C & D). unfold TJ. cbn [with_c w_c w_t]. destruct (H (w_c w)) as (-> & -> & ->). auto. Qed.
Lemma TJ_event e w : io_event e = false -> TJ w -> TJ (push e w).
Proof. intros H. apply TJ_push. destruct e; try reflexivity; try discriminate H. destruct q; try reflexivity; discriminate H. Qed.
Lemma configure_timer x i p c : c_timeout (configure_fields x i p c) = c_timeout c /\ c_prog (configure_fields x i p c) = c_prog c /\ c_nudging (configure_fields x i p c) = c_nudging c.
Proof. unfold configure_fields. cbv zeta. destruct (_ =? 0); repeat split; reflexivity. Qed.
Section J.
Variable E : env.
Notation hk := (@ret unit tt).
Notation T := (fun _ : world => True).
Ltac kpush := apply TJ_push; [first [reflexivity|match goal with o : wop |- _ => destruct o; first [reflexivity|congruence] end]|assumption].
Ltac kconn := apply TJ_conn; [intros; first [apply configure_timer|repeat split; reflexivity]|assumption].
Ltac ks := intros; first [exact I|apply keeps_ret|now apply TJ_event|kpush|kconn|idtac].
Lemma TJ_read sz : keeps TJ T (io_read sz).
Proof. apply keeps_io_read; ks. Qed.
Lemma TJ_write b : keeps TJ T (io_write E hk b).
Proof. apply keeps_io_write; ks. Qed.
Ltac ks ::= intros; first [exact I|apply keeps_ret|apply TJ_read|apply TJ_write|now apply TJ_event|kpush|kconn|idtac].
Lemma TJ_ask q : (forall r, timely (EAsk q r) = false) -> keeps TJ T (ask E q).
Proof. intros H. unfold ask. apply keeps_bind; [apply keeps_log|]. intros t. apply keeps_bind; [apply keeps_emit; intros; now apply TJ_push|intros _; apply keeps_ret]. Qed.
Lemma TJ_timeout : keeps TJ T (update_timeout E hk).
Proof.
  intros w (A & B & C & D). unfold update_timeout. unfold bind at 1, get at 1. unfold bind at 1, get at 1.
  destruct ((c_state (w_c w) =? HE_STATE_ONLINE) && negb (c_prog (w_c w))) eqn:On; [exact (conj A (conj B (conj C D)))|].
  assert (c_state (w_c w) = HE_STATE_ONLINE -> c_prog (w_c w) = true) as On'.
  { intros X. rewrite X in On. now destruct (c_prog (w_c w)). }
  unfold bind at 1, ask at 1, bind at 1, log at 1, bind at 1, emit at 1, ret at 1. set (tm := e_ask E (w_t w) QTimeout). cbv zeta.
  set (w1 := World (w_c w) _). unfold bind at 1, upd at 1. set (w2 := World _ (w_t w1)).
  ver. unfold bind at 1, ask at 1, bind at 1, log at 1, bind at 1, emit at 1, ret at 1. set (v := e_ask E (w_t w2) QVersion). set (w3 := World (w_c w2) _).
  assert ((if c_prog (w_c w) then tm * HE_WOLF_RENEGOTIATION_TIMEOUT_MULTIPLIER else tm * HE_WOLF_TIMEOUT_MULTIPLIER) = 100 * tm) as Mul by (destruct (c_prog (w_c w)); apply Z.mul_comm).
  assert (TJ w3) as H3.
  { split; [exact Mul|]. split; [exact B|]. split; [exact C|]. split; [exact I|]. split; [exact I|exact D]. }
  assert (forall w5, TJ w5 -> c_state (w_c w5) = c_state (w_c w) -> c_prog (w_c w5) = c_prog (w_c w) ->
    match (let! k := get c_cbs in let! running := get c_nudging in
      if cb_nudge k && negb running then (let! ms := get c_timeout in notify hk (ENudge ms) ;;; upd (set_nudging true)) else ret tt) w5 with Done _ w' => TJ w' | Stuck _ _ => True end) as Rest.
  { intros w5 (A5 & B5 & C5 & D5) S5 P5. unfold bind at 1, get at 1. unfold bind at 1, get at 1. case_if; [|exact (conj A5 (conj B5 (conj C5 D5)))]. unfold bind at 1, get at 1. unfold notify, bind, emit, ret, upd.
    split; [exact A5|]. split; [exact B5|]. split; [reflexivity|]. split; [|exact D5]. cbn [quiet_ok]. intros X. rewrite <- B5, P5. apply On'. congruence. }
  destruct (Z.eqb_spec v DTLS1_2_VERSION) as [V|V]; cbn [negb].
  - unfold bind at 1, ret at 1. unfold bind at 1. change (negb (0 =? 0)) with false. cbn [when]. unfold ret at 1. apply Rest; [exact H3|reflexivity|reflexivity].
  - unfold bind at 1, ask at 1, bind at 1, log at 1, bind at 1, emit at 1, ret at 1. set (q := e_ask E (w_t w3) QQuickTimeout). set (w4 := World (w_c w3) _).
    destruct H3 as (A3 & B3 & C3 & D3).
    destruct (Z.eqb_spec q 0) as [Q|Q]; cbn [negb when]; unfold bind at 1; [unfold ret at 1|unfold upd at 1]; (apply Rest; [|reflexivity|reflexivity]);
    (split; [|split; [exact B3|split; [exact C3|split; [exact I|exact D3]]]]); unfold w4; cbn [w_t w_c chosen]; fold q; 
    [rewrite (proj2 (Z.eqb_eq q 0) Q); exact A3|rewrite (proj2 (Z.eqb_neq q 0) Q); cbn [set_timeout c_timeout]; rewrite Mul; reflexivity].
Qed.
(** After an operation of wolfSSL. *)
Lemma TJ_end o w r err d w' : TJ w -> wolf_op E hk o w = Done (r, err, d) w' ->
  exists v, TJ v /\ w' = push (EWEnd o r err d) v.
Proof.
  intros Hw. unfold wolf_op. unfold bind at 1, emit at 1. fold (push (EWOp o) w). set (w0 := push _ w). assert (TJ w0) as H0 by (unfold w0; now apply TJ_push). clearbody w0.
  unfold bind at 1, get at 1. unfold bind at 1.
  match goal with |- (match ?m w0 with _ => _ end) = _ -> _ => assert (keeps TJ T m) as K end.
  { case_if; [|apply keeps_ret]. apply keeps_bind; [apply keeps_log|]. intros t. apply keeps_bind; [apply keeps_strat; ks|]. intros [[a b] c]. apply keeps_ret. }
  specialize (K w0 H0). match goal with |- (match ?m with _ => _ end) = _ -> _ => destruct m as [[[r1 e1] d1] v|]; [|discriminate] end.
  unfold bind, emit, ret. intros H. apply Done_inv in H. destruct H as [H <-]. injection H as <- <- <-. exists v. split; [exact K|reflexivity].
Qed.
Lemma TJ_op o : (forall r err d, timely (EWEnd o r err d) = false) -> keeps TJ T (wolf_op E hk o).
Proof. intros H w Hw. destruct (wolf_op E hk o w) as [[[r err] d] w'|] eqn:W; [|exact I]. destruct (TJ_end Hw W) as (v & Hv & ->). now apply TJ_push. Qed.
Lemma TJ_gen v : v <> HE_EVENT_PONG -> v <> HE_EVENT_PENDING_SESSION_ACKNOWLEDGED -> keeps TJ T (generate_event hk v).
Proof. intros N1 N2. apply keeps_generate_event; ks. Qed.
Lemma TJ_change s : keeps TJ T (change_conn_state E hk s).
Proof. apply keeps_change_conn_state; ks. Qed.
Lemma TJ_reneg : keeps TJ T (renegotiate_ssl E hk).
Proof.
  intros w Hw. unfold renegotiate_ssl. unfold bind at 1, upd at 1. set (w0 := World _ _). assert (TJ w0) as H0 by (apply (@TJ_conn (set_due false)); [repeat split; reflexivity|exact Hw]). clearbody w0.
  unfold bind at 1, get at 1. unfold bind at 1, get at 1. case_if; [exact H0|]. ver. unfold bind at 1. pose proof (@TJ_ask QVersion (fun _ => eq_refl) w0 H0) as K1. destruct (ask E QVersion w0) as [v w1|]; [|exact I].
  unfold bind at 1. assert (keeps TJ T (if v =? DTLS1_2_VERSION then ask E QRenegSupport else ret 1)) as K2 by (case_if; [now apply TJ_ask|apply keeps_ret]). specialize (K2 w1 K1).
  match goal with |- match (match ?m with _ => _ end) with _ => _ end => destruct m as [sup w2|]; [|exact I] end. case_if; [exact K2|].
  unfold bind at 1. destruct (wolf_op E hk _ w2) as [[[r err] d] w3|] eqn:W; [|exact I]. destruct (TJ_end K2 W) as (u & (A & B & C & D) & ->).
  unfold bind at 1, upd at 1. set (w4 := World _ _). assert (TJ w4) as H4.
  { unfold w4. destruct (v =? DTLS1_2_VERSION); (split; [exact A|]; split; [reflexivity|]; split; [exact C|]; split; [exact I|exact D]). }
  clearbody w4. match goal with |- match ?m w4 with _ => _ end => assert (keeps TJ T m) as K; [|exact (K w4 H4)] end.
  apply keeps_bind; [apply TJ_gen; discriminate|]. intros _. repeat case_if; try apply keeps_ret; (apply keeps_bind; [first [exact TJ_timeout|apply keeps_upd; ks]|intros _; apply keeps_ret]).
Qed.
Lemma TJ_check : keeps TJ T (check_renegotiation E hk).
Proof.
  intros w Hw. unfold check_renegotiation. unfold bind at 1, get at 1. case_if; [exact Hw|]. ver. unfold bind at 1. pose proof (@TJ_ask QVersion (fun _ => eq_refl) w Hw) as K1. destruct (ask E QVersion w) as [v w1|]; [|exact I].
  destruct K1 as (A & B & C & D).
  assert (forall rc p w2, c_timeout (w_c w2) = chosen (w_t w2) -> (if rc =? 0 then renegotiating (w_t w2) = negb (p =? 0) else c_prog (w_c w2) = renegotiating (w_t w2)) ->
    c_nudging (w_c w2) = outstanding (w_t w2) -> every quiet_ok (w_t w2) ->
    match (if negb (rc =? 0) then
    let! err := ask E QError in
    upd (set_wolf_err err) ;;; ret HE_ERR_SSL_ERROR
  else
    when (p =? 0) (generate_event hk HE_EVENT_SECURE_RENEGOTIATION_COMPLETED) ;;;
    upd (set_prog (negb (p =? 0))) ;;;
    update_timeout E hk ;;;
    ret HE_SUCCESS) w2 with Done _ w' => TJ w' | Stuck _ _ => True end) as Rest.
  { intros rc p w2 A2 B2 C2 D2. destruct (rc =? 0); cbn [negb].
    - assert (exists w3, when (p =? 0) (generate_event hk HE_EVENT_SECURE_RENEGOTIATION_COMPLETED) w2 = Done tt w3 /\ TJ (with_c (set_prog (negb (p =? 0))) w3)) as (w3 & W3 & H3).
      { destruct (p =? 0); cbn [when negb] in *.
        - unfold generate_event, bind, get, when, notify, emit, ret. destruct (cb_event (c_cbs (w_c w2))); eexists; (split; [reflexivity|]); (split; [exact A2|]; split; [symmetry; exact B2|]; split; [exact C2|]); [split; [exact I|]|]; exact D2.
        - eexists. split; [reflexivity|]. split; [exact A2|]. split; [symmetry; exact B2|]. split; [exact C2|exact D2]. }
      unfold bind at 1. rewrite W3. unfold bind at 1, upd at 1. fold (with_c (set_prog (negb (p =? 0))) w3). unfold bind at 1. pose proof (TJ_timeout H3) as K. destruct (update_timeout E hk _); [exact K|exact I].
    - assert (TJ w2) as H2 by exact (conj A2 (conj B2 (conj C2 D2))).
      match goal with |- match ?m w2 with _ => _ end => assert (keeps TJ T m) as K; [|exact (K w2 H2)] end.
      apply keeps_bind; [now apply TJ_ask|]. intros err. apply keeps_bind; [apply keeps_upd; ks|intros _; apply keeps_ret]. }
  unfold bind at 1. case_if.
  - unfold bind at 1, ask at 1, bind at 1, log at 1, bind at 1, emit at 1, ret at 1. unfold ret at 1. apply Rest; [exact A| |exact C|split; [exact I|exact D]]. reflexivity.
  - unfold bind at 1, ask at 1, bind at 1, log at 1, bind at 1, emit at 1, ret at 1. unfold bind at 1, ask at 1, bind at 1, log at 1, bind at 1, emit at 1, ret at 1. unfold ret at 1.
    apply Rest; [exact A| |exact C|split; [exact I|split; [exact I|exact D]]]. cbn [w_t w_c renegotiating]. destruct (_ =? 0); [reflexivity|exact B].
Qed.
Lemma TJ_verify : keeps TJ T (verify_connection E hk).
Proof.
  apply verify_kept; try (intros; apply keeps_upd; ks).
  - intros w r err d w' Hw R. pose proof (@TJ_op WRecv (fun _ _ _ => eq_refl) w Hw) as K. rewrite R in K. case_if; [exact K|].
    assert (keeps TJ T (process_message E hk d)) as Kp by (apply keeps_process; ks). exact (Kp w' K).
  - apply TJ_gen; discriminate.
  - now apply TJ_op.
  - apply TJ_change.
  - exact TJ_timeout.
  - exact TJ_reneg.
  - exact TJ_check.
Qed.
Definition usual (o : op) : bool := match o with ONudge | ODisconnect => false | _ => true end.
Lemma TJ_body o : usual o = true -> keeps TJ T (api_body E hk o).
Proof.
  destruct o; intros U; try discriminate U; cbn [api_body].
  - apply client_kept; intros; first [apply keeps_upd; ks; fail|now apply TJ_ask|now apply TJ_op|apply TJ_change|exact TJ_timeout|idtac]; [apply keeps_configure; ks|apply keeps_settings; ks|apply keeps_settings2; ks].
  - apply server_kept; intros; first [apply keeps_upd; ks; fail|now apply TJ_ask|now apply TJ_op|apply TJ_change|exact TJ_timeout|idtac]; [apply keeps_configure; ks|apply keeps_settings; ks|apply keeps_settings2; ks|apply keeps_generate_session_id; ks].
  - apply keeps_inside; ks.
  - apply outside_kept; intros; [apply keeps_plugin_ingress; ks|apply keeps_upd; ks|apply keeps_upd; ks|exact TJ_verify|apply keeps_session_in; ks].
  - apply keeps_keepalive; ks.
  - apply keeps_send_server_config; ks.
  - apply keeps_bind; [apply keeps_upd; ks|intros _; apply keeps_ret].
  - apply keeps_start_pmtu; ks.
  - apply keeps_pm_timeout; ks.
  - apply keeps_rotate; ks.
  - apply keeps_set_session; ks.
  - apply keeps_set_username; ks.
  - apply keeps_set_password; ks.
  - apply keeps_set_token; ks.
  - apply keeps_set_auth_buffer; ks.
  - apply keeps_set_mtu; ks.
  - apply keeps_bind; [apply keeps_upd; ks|intros _; apply keeps_ret].
  - apply keeps_set_sni; ks.
Qed.
Lemma TJ_nudge w : TJ w -> match nudge E hk (push (ECall ONudge) w) with Done _ w' => TJ w' | Stuck _ _ => True end.
Proof.
  intros (A & B & C & D). unfold nudge. unfold bind at 1, upd at 1. set (w0 := World _ _). assert (TJ w0) as H0.
  { split; [exact A|]. split; [exact B|]. split; [reflexivity|]. split; [exact I|exact D]. }
  clearbody w0. match goal with |- match ?m w0 with _ => _ end => assert (keeps TJ T m) as K; [|exact (K w0 H0)] end.
  apply keeps_bind; [apply keeps_get|]. intros st. case_if.
  - apply keeps_bind; [apply keeps_send_auth; ks|]. intros _. apply keeps_bind; [exact TJ_timeout|intros _; apply keeps_ret].
  - apply keeps_bind; [now apply TJ_op|]. intros [[r err] d]. case_if; (apply keeps_bind; [first [apply TJ_change|exact TJ_timeout]|intros _; apply keeps_ret]).
Qed.
Lemma TJ_disconnect w rc w' : TJ w -> disconnect E hk w = Done rc w' -> TJ (push (ERet ODisconnect rc) w').
Proof.
  intros Hw. unfold disconnect. unfold bind at 1, get at 1.
  assert (forall code, code <> 0 -> forall v, TJ v -> TJ (push (ERet ODisconnect code) v)) as Fail.
  { intros code N v (A & B & C & D). split; [cbn [push w_c w_t chosen]; rewrite (proj2 (Z.eqb_neq code 0) N); exact A|]. split; [exact B|]. split; [exact C|]. split; [exact I|exact D]. }
  case_if; [intros H; apply Done_inv in H as [<- <-]; now apply Fail|]. case_if; [intros H; apply Done_inv in H as [<- <-]; now apply Fail|].
  unfold bind at 1. pose proof (@TJ_change HE_STATE_DISCONNECTING w Hw) as K1. destruct (change_conn_state E hk HE_STATE_DISCONNECTING w) as [u1 w1|]; [|discriminate].
  unfold bind at 1. assert (keeps TJ T (send_goodbye E hk)) as Kg by (apply keeps_send_goodbye; ks). specialize (Kg w1 K1). destruct (send_goodbye E hk w1) as [u2 w2|]; [|discriminate].
  unfold bind at 1. pose proof (@TJ_op WShutdown (fun _ _ _ => eq_refl) w2 Kg) as K3. destruct (wolf_op E hk WShutdown w2) as [x3 w3|]; [|discriminate].
  unfold bind at 1, upd at 1. set (w4 := World _ _). unfold bind at 1.
  pose (Off := fun v : world => c_timeout (w_c v) = 0 /\ c_prog (w_c v) = renegotiating (w_t v) /\ c_nudging (w_c v) = outstanding (w_t v) /\ every quiet_ok (w_t v)).
  assert (Off w4) as H4 by (destruct K3 as (A & B & C & D); split; [reflexivity|]; auto).
  assert (keeps Off T (change_conn_state E hk HE_STATE_DISCONNECTED)) as Ko.
  { apply keeps_change_other; ks; try discriminate; try assumption.
    destruct H0 as (A & B & C & D). assert (timely e = false) as Te by (destruct e; try reflexivity; try discriminate H; destruct q; try reflexivity; discriminate H).
    split; [exact A|].
    assert (TJ (with_c (set_timeout (chosen (w_t w0))) w0)) as Hx by (split; [reflexivity|auto]). apply (@TJ_push e _ Te) in Hx. destruct Hx as (_ & Hx). exact Hx. }
  specialize (Ko w4 H4). destruct (change_conn_state E hk HE_STATE_DISCONNECTED w4) as [u5 w5|]; [|discriminate]. intros H. apply Done_inv in H as [<- <-].
  destruct Ko as (A & B & C & D). split; [exact A|]. split; [exact B|]. split; [exact C|]. split; [exact I|exact D].
Qed.
Lemma TJ_call o w rc w' : TJ w -> call E o w rc w' -> TJ w'.
Proof.
  intros Hw Cl. destruct (call_body Cl) as (w1 & Bd & ->).
  destruct (usual o) eqn:U.
  - assert (TJ (push (ECall o) w)) as H0 by (apply TJ_push; [now destruct o|exact Hw]). pose proof (TJ_body U H0) as K. rewrite Bd in K. apply TJ_push; [now destruct o|exact K].
  - destruct o; try discriminate U; cbn [api_body] in Bd.
    + apply (@TJ_disconnect (push (ECall ODisconnect) w)); [now apply TJ_push|exact Bd].
    + pose proof (TJ_nudge Hw) as K. rewrite Bd in K. now apply TJ_push.
Qed.
End J.
Lemma TJ_reached E w : reached E w -> TJ w.
Proof.
  intros [ops R]. assert (forall w0, TJ w0 -> run E 0 ops w0 = Done tt w -> TJ w) as H; [|apply (H world_new); [|exact R]].
  - clear R. induction ops as [|o ops IH]; intros w0 H0; cbn [run]; [now intros [= <-]|]. change (hookn E 0) with (@ret unit tt).
    destruct (api E (ret tt) o w0) as [rc w1|] eqn:C; [|discriminate]. apply IH. exact (TJ_call H0 C).
  - repeat split.
Qed.
(** [he_conn_get_nudge_time] is 0 while the connection is ONLINE and not
    renegotiating; otherwise it is the timeout last worked out. *)
Theorem C41_query : forall E w, reached E w ->
  get_nudge_time (w_c w) =
    if (c_state (w_c w) =? HE_STATE_ONLINE) && negb (renegotiating (w_t w)) then 0 else chosen (w_t w).
Proof. intros E w R. destruct (TJ_reached R) as (A & B & _). unfold get_nudge_time. now rewrite A, B. Qed.
Print Assumptions C41_query.
(** An ONLINE connection asks for a timer only while it renegotiates. *)
Theorem C41_online : forall E w, reached E w ->
  every (fun s e past => timer_set e = true -> s = HE_STATE_ONLINE -> renegotiating past = true) (w_t w).
Proof.
  intros E w R. destruct (TJ_reached R) as (_ & _ & _ & D). revert D. generalize (w_t w). induction t as [|[s e] t IH]; [exact (fun H => H)|]. intros [H1 H2].
  split; [|now apply IH]. intros Ts. destruct e; try discriminate Ts. exact H1.
Qed.
Print Assumptions C41_online.

(** *** No timer is lost *)
Section W.
Variable E : env.
Notation hk := (@ret unit tt).
Notation T := (fun _ : world => True).
Lemma timeout_effect w w' : update_timeout E hk w = Done tt w' ->
  c_cbs (w_c w') = c_cbs (w_c w) /\ c_state (w_c w') = c_state (w_c w) /\ c_prog (w_c w') = c_prog (w_c w) /\
  (c_nudging (w_c w) = true -> c_nudging (w_c w') = true) /\
  (c_state (w_c w) = HE_STATE_ONLINE /\ c_prog (w_c w) = false \/ (cb_nudge (c_cbs (w_c w)) = true -> c_nudging (w_c w') = true)).
Proof.
  unfold update_timeout. unfold bind at 1, get at 1. unfold bind at 1, get at 1.
  destruct ((c_state (w_c w) =? HE_STATE_ONLINE) && negb (c_prog (w_c w))) eqn:On.
  { intros H. apply Done_inv in H as [_ <-]. apply andb_true_iff in On as [O1 O2]. apply Z.eqb_eq in O1. apply negb_true_iff in O2. auto 8. }
  unfold bind at 1, ask at 1, bind at 1, log at 1, bind at 1, emit at 1, ret at 1. cbv zeta. unfold bind at 1, upd at 1.
  ver. unfold bind at 1, ask at 1, bind at 1, log at 1, bind at 1, emit at 1, ret at 1.
  assert (forall w5, c_cbs (w_c w5) = c_cbs (w_c w) -> c_state (w_c w5) = c_state (w_c w) -> c_prog (w_c w5) = c_prog (w_c w) -> c_nudging (w_c w5) = c_nudging (w_c w) ->
    (let! k := get c_cbs in let! running := get c_nudging in
      if cb_nudge k && negb running then (let! ms := get c_timeout in notify hk (ENudge ms) ;;; upd (set_nudging true)) else ret tt) w5 = Done tt w' ->
    c_cbs (w_c w') = c_cbs (w_c w) /\ c_state (w_c w') = c_state (w_c w) /\ c_prog (w_c w') = c_prog (w_c w) /\
    (c_nudging (w_c w) = true -> c_nudging (w_c w') = true) /\
    (c_state (w_c w) = HE_STATE_ONLINE /\ c_prog (w_c w) = false \/ (cb_nudge (c_cbs (w_c w)) = true -> c_nudging (w_c w') = true))) as Rest.
  { intros w5 A5 B5 P5 N5. unfold bind at 1, get at 1. unfold bind at 1, get at 1. rewrite A5, N5. destruct (cb_nudge (c_cbs (w_c w))), (c_nudging (w_c w)) eqn:Nu; cbn [andb negb]; unfold bind, get, notify, emit, ret, upd; intros H; apply Done_inv in H as [_ <-]; cbn [w_c set_nudging c_cbs c_state c_prog c_nudging]; rewrite ?A5, ?B5, ?P5, ?N5; auto 8. }
  match goal with |- context [negb (?v =? DTLS1_2_VERSION)] => destruct (v =? DTLS1_2_VERSION); cbn [negb] end.
  - unfold bind at 1, ret at 1. unfold bind at 1. change (negb (0 =? 0)) with false. cbn [when]. unfold ret at 1. now apply Rest.
  - unfold bind at 1, ask at 1, bind at 1, log at 1, bind at 1, emit at 1, ret at 1.
    match goal with |- context [negb (?v =? 0)] => destruct (v =? 0); cbn [negb when] end; unfold bind at 1; [unfold ret at 1|unfold upd at 1]; now apply Rest.
Qed.

(** The timer of a handshake. *)
Definition VH (w : world) : Prop := handshaking (w_t w) = true -> c_nudging (w_c w) = true /\ cb_nudge (c_cbs (w_c w)) = true.
Definition connected (e : ev) : bool := match e with ERet o _ => is_connect_op o | _ => false end.
Lemma handshaking_push s e t : connected e = false -> handshaking ((s, e) :: t) = true -> settled s = false /\ handshaking t = true.
Proof.
  intros H. assert (handshaking ((s, e) :: t) = negb (settled s) && handshaking t) as ->; [|intros X; apply andb_true_iff in X as [X Y]; apply negb_true_iff in X; auto].
  destruct e; try reflexivity. destruct o; try reflexivity; discriminate H.
Qed.
Lemma VH_push e w : connected e = false -> VH w -> VH (push e w).
Proof. intros H P X. apply P. cbn [push w_t] in X. now apply handshaking_push in X. Qed.
Lemma VH_conn f w : (forall c, c_nudging (f c) = c_nudging c /\ cb_nudge (c_cbs (f c)) = cb_nudge (c_cbs c)) -> VH w -> VH (with_c f w).
Proof. intros H P X. cbn [with_c w_c]. destruct (H (w_c w)) as [-> ->]. now apply P. Qed.
Lemma VH_event e w : io_event e = false -> VH w -> VH (push e w).
Proof. intros H. apply VH_push. now destruct e. Qed.
Lemma log_timeout w w' : update_timeout E hk w = Done tt w' -> handshaking (w_t w') = true -> handshaking (w_t w) = true.
Proof.
  intros H. assert (keeps (fun v => handshaking (w_t v) = true -> handshaking (w_t w) = true) T (update_timeout E hk)) as K.
  { apply keeps_update_timeout; intros; auto; try apply keeps_ret; try (match goal with X : handshaking _ = true |- _ => cbn [push w_t] in X; apply handshaking_push in X as [_ X]; [auto|] end; first [reflexivity|now destruct e]). }
  specialize (K w (fun X => X)). now rewrite H in K.
Qed.
Lemma VH_timeout : keeps VH T (update_timeout E hk).
Proof.
  intros w H. destruct (update_timeout E hk w) as [[] w'|] eqn:U; [|exact I]. destruct (timeout_effect U) as (A & _ & _ & B & _).
  intros X. rewrite A. destruct (H (log_timeout U X)) as [H1 H2]. auto.
Qed.
Ltac kpush := apply VH_push; [first [reflexivity|match goal with o : wop |- _ => destruct o; first [reflexivity|congruence] end]|assumption].
Ltac kconn := apply VH_conn; [intros; repeat split; reflexivity|assumption].
Ltac ks := intros; first [exact I|apply keeps_ret|now apply VH_event|kpush|kconn|idtac].
Lemma VH_read sz : keeps VH T (io_read sz).
Proof. apply keeps_io_read; ks. Qed.
Lemma VH_write b : keeps VH T (io_write E hk b).
Proof. apply keeps_io_write; ks. Qed.
Ltac ks ::= intros; first [exact I|apply keeps_ret|apply VH_read|apply VH_write|now apply VH_event|kpush|kconn|idtac].
Lemma VH_ask q : keeps VH T (ask E q).
Proof. unfold ask. apply keeps_bind; [apply keeps_log|]. intros t. apply keeps_bind; [apply keeps_emit; intros; now apply VH_push|intros _; apply keeps_ret]. Qed.
Lemma VH_op o : keeps VH T (wolf_op E hk o).
Proof. apply keeps_wolf_op'; ks. Qed.
Lemma VH_gen v : v <> HE_EVENT_PONG -> v <> HE_EVENT_PENDING_SESSION_ACKNOWLEDGED -> keeps VH T (generate_event hk v).
Proof. intros N1 N2. apply keeps_generate_event; ks. Qed.
Lemma VH_change s : keeps VH T (change_conn_state E hk s).
Proof. apply keeps_change_conn_state; ks. Qed.
Lemma VH_verify : keeps VH T (verify_connection E hk).
Proof.
  apply verify_kept; try (intros; apply keeps_upd; ks).
  - intros w r err d w' Hw R. pose proof (@VH_op WRecv w Hw) as K. rewrite R in K. case_if; [exact K|].
    assert (keeps VH T (process_message E hk d)) as Kp by (apply keeps_process; ks). exact (Kp w' K).
  - apply VH_gen; discriminate.
  - apply VH_op.
  - apply VH_change.
  - exact VH_timeout.
  - apply reneg_kept; intros; first [apply keeps_upd; ks; fail|apply VH_ask|apply VH_op|now apply VH_gen|exact VH_timeout].
  - apply check_kept; intros; first [apply keeps_upd; ks; fail|apply VH_ask|now apply VH_gen|exact VH_timeout].
Qed.
Definition plain_op (o : op) : bool := negb (is_connect_op o) && match o with ONudge => false | _ => true end.
Lemma VH_body o : plain_op o = true -> keeps VH T (api_body E hk o).
Proof.
  destruct o; intros U; try discriminate U; cbn [api_body].
  - apply keeps_disconnect; ks.
  - apply keeps_inside; ks.
  - apply outside_kept; intros; [apply keeps_plugin_ingress; ks|apply keeps_upd; ks|apply keeps_upd; ks|exact VH_verify|apply keeps_session_in; ks].
  - apply keeps_keepalive; ks.
  - apply keeps_send_server_config; ks.
  - apply keeps_bind; [apply keeps_upd; ks|intros _; apply keeps_ret].
  - apply keeps_start_pmtu; ks.
  - apply keeps_pm_timeout; ks.
  - apply keeps_rotate; ks.
  - apply keeps_set_session; ks.
  - apply keeps_set_username; ks.
  - apply keeps_set_password; ks.
  - apply keeps_set_token; ks.
  - apply keeps_set_auth_buffer; ks.
  - apply keeps_set_mtu; ks.
  - apply keeps_bind; [apply keeps_upd; ks|intros _; apply keeps_ret].
  - apply keeps_set_sni; ks.
Qed.
(** [he_conn_nudge]: the timer has fired; unless the connection is settled there
    is a new one. *)
Definition CB (w : world) : Prop := handshaking (w_t w) = true -> cb_nudge (c_cbs (w_c w)) = true.
Lemma CB_push e w : connected e = false -> CB w -> CB (push e w).
Proof. intros H P X. apply P. cbn [push w_t] in X. now apply handshaking_push in X. Qed.
Lemma CB_conn f w : (forall c, cb_nudge (c_cbs (f c)) = cb_nudge (c_cbs c)) -> CB w -> CB (with_c f w).
Proof. intros H P X. cbn [with_c w_c]. rewrite H. now apply P. Qed.
Lemma CB_event e w : io_event e = false -> CB w -> CB (push e w).
Proof. intros H. apply CB_push. now destruct e. Qed.
Ltac cpush := apply CB_push; [first [reflexivity|match goal with o : wop |- _ => destruct o; first [reflexivity|congruence] end]|assumption].
Ltac cconn := apply CB_conn; [intros; reflexivity|assumption].
Ltac cs := intros; first [exact I|apply keeps_ret|now apply CB_event|cpush|cconn|idtac].
Lemma CB_read sz : keeps CB T (io_read sz).
Proof. apply keeps_io_read; cs. Qed.
Lemma CB_write b : keeps CB T (io_write E hk b).
Proof. apply keeps_io_write; cs. Qed.
Ltac cs ::= intros; first [exact I|apply keeps_ret|apply CB_read|apply CB_write|now apply CB_event|cpush|cconn|idtac].
Lemma VH_after w w' : CB w -> (handshaking (w_t w) = true -> c_state (w_c w) <> HE_STATE_ONLINE) -> update_timeout E hk w = Done tt w' -> VH w'.
Proof.
  intros C N U X. pose proof (log_timeout U X) as Y. destruct (timeout_effect U) as (A & _ & _ & _ & [[B _]|B]); [now destruct (N Y)|]. rewrite A. split; [apply B|]; now apply C.
Qed.
Lemma VH_nudge w rc w' : VH w -> nudge E hk w = Done rc w' -> VH (push (ERet ONudge rc) w').
Proof.
  intros Hw. unfold nudge. unfold bind at 1, upd at 1. set (w0 := World _ _). assert (CB w0) as H0 by (intros X; now apply Hw). clearbody w0. clear Hw.
  unfold bind at 1, get at 1. destruct (Z.eqb_spec (c_state (w_c w0)) HE_STATE_AUTHENTICATING) as [St|St].
  - unfold bind at 1. assert (keeps CB T (send_auth E hk)) as K by (apply keeps_send_auth; cs). specialize (K w0 H0).
    assert (keeps (fun v => c_state (w_c v) = HE_STATE_AUTHENTICATING) T (send_auth E hk)) as Ks.
    { unfold send_auth. assert (forall sz, keeps (fun v => c_state (w_c v) = HE_STATE_AUTHENTICATING) T (io_read sz)) as Hr by (intros; apply keeps_io_read; auto).
      assert (forall b, keeps (fun v => c_state (w_c v) = HE_STATE_AUTHENTICATING) T (io_write E hk b)) as Hwr by (intros; apply keeps_io_write; auto; try apply keeps_ret).
      assert (forall m, keeps (fun v => c_state (w_c v) = HE_STATE_AUTHENTICATING) T (send_message E hk m)) as Hs.
      { intros m. unfold send_message. apply keeps_bind; [apply keeps_wolf_op'; auto; apply keeps_ret|]. intros [[r err] d]. repeat case_if; try apply keeps_ret. apply keeps_bind; [apply keeps_upd; auto|intros _; apply keeps_ret]. }
      apply keeps_bind; [apply keeps_get|]. intros st. case_if; [apply keeps_ret|]. apply keeps_bind.
      - unfold set_conn_state. intros v Hv. unfold bind at 1. unfold bind at 1, get at 1. rewrite Hv. change (HE_STATE_AUTHENTICATING =? HE_STATE_AUTHENTICATING) with true. cbv iota. exact Hv.
      - intros _. apply keeps_bind; [apply keeps_get|]. intros ty. repeat case_if; try apply keeps_ret;
        unfold send_auth_userpass, send_auth_token, send_auth_buf;
        repeat first [apply keeps_ret|apply Hs|apply keeps_bind_lift; [auto|intros ? _]|case_if|apply keeps_bind; [apply keeps_get|intros ?]]. }
    specialize (Ks w0 St). destruct (send_auth E hk w0) as [u w1|]; [|discriminate]. unfold bind at 1. destruct (update_timeout E hk w1) as [[] w2|] eqn:U; [|discriminate].
    intros H. apply Done_inv in H as [<- <-]. apply VH_push; [reflexivity|]. apply (@VH_after w1); [exact K| |exact U]. intros _. rewrite Ks. discriminate.
  - unfold bind at 1. assert (keeps CB T (wolf_op E hk WGotTimeout)) as K by (apply keeps_wolf_op'; cs). specialize (K w0 H0).
    destruct (wolf_op E hk WGotTimeout w0) as [[[r err] d] w1|] eqn:W; [|discriminate].
    assert (exists s e past, w_t w1 = (s, e) :: past /\ s = c_state (w_c w1) /\ connected e = false) as (s & e & past & Lw & Sw & Ew).
    { unfold wolf_op in W. unfold bind at 1, emit at 1 in W. unfold bind at 1, get at 1 in W. unfold bind at 1 in W.
      match type of W with (match ?m with _ => _ end) = _ => destruct m as [[[r1 e1] d1] v|]; [|discriminate W] end.
      unfold bind, emit, ret in W. apply Done_inv in W as [_ <-]. eexists _, _, _. split; [reflexivity|]. split; reflexivity. }
    case_if.
    + unfold bind at 1. pose proof (fun v => @VH_push (ERet ONudge rc) v eq_refl) as P.
      destruct (change_conn_state E hk HE_STATE_DISCONNECTED w1) as [u w2|] eqn:Ch; [|discriminate]. intros H. apply Done_inv in H as [<- <-].
      intros X. cbn [push w_t] in X. apply handshaking_push in X as [X _]; [|reflexivity]. exfalso.
      assert (c_state (w_c w2) = HE_STATE_DISCONNECTED) as D.
      { unfold change_conn_state in Ch. unfold bind at 1 in Ch. unfold set_conn_state in Ch. unfold bind at 1, get at 1 in Ch.
        destruct (Z.eqb_spec (c_state (w_c w1)) HE_STATE_DISCONNECTED) as [D|D].
        - unfold ret at 1 in Ch. cbn [andb] in Ch. apply Done_inv in Ch as [_ <-]. exact D.
        - unfold bind at 1, upd at 1 in Ch. unfold bind at 1, get at 1 in Ch. unfold bind at 1 in Ch. unfold when, notify, bind, emit, ret in Ch. destruct (cb_state _); apply Done_inv in Ch as [_ <-]; reflexivity. }
      rewrite D in X. discriminate X.
    + unfold bind at 1. destruct (update_timeout E hk w1) as [[] w2|] eqn:U; [|discriminate]. intros H. apply Done_inv in H as [<- <-]. apply VH_push; [reflexivity|].
      apply (@VH_after w1); [exact K| |exact U]. intros X. rewrite Lw in X. apply handshaking_push in X as [X _]; [|exact Ew]. intros D. rewrite Sw, D in X. discriminate X.
Qed.
Lemma upd_first f A (k : unit -> M A) w : bind (upd f) k w = k tt (with_c f w).
Proof. reflexivity. Qed.
Lemma configure_nudge x i p w rc w' : configure E x i p w = Done rc w' -> cb_nudge (c_cbs (w_c w')) = cb_nudge (x_cbs x).
Proof.
  unfold configure. rewrite upd_first. set (w0 := with_c _ _).
  assert (cb_nudge (c_cbs (w_c w0)) = cb_nudge (x_cbs x)) as H0 by (unfold w0; cbn [with_c w_c]; unfold configure_fields; cbv zeta; destruct (_ =? 0); reflexivity). clearbody w0.
  pose (CX := fun v : world => cb_nudge (c_cbs (w_c v)) = cb_nudge (x_cbs x)). intros H. change (CX w0) in H0. change (CX w').
  match type of H with ?m _ = _ => assert (keeps CX T m) as K end.
  { apply keeps_bind; [intros v Hv; exact Hv|]. intros a1. apply keeps_bind; [intros v Hv; exact Hv|]. intros a2. apply keeps_bind; [apply keeps_upd; auto|intros _; apply keeps_ret]. }
  specialize (K w0 H0). rewrite H in K. exact K.
Qed.
(** A connect call that succeeds ends by asking for a timer. *)
Lemma internal_end x i p w w' : internal_connect E hk x i p w = Done HE_SUCCESS w' ->
  exists v, update_timeout E hk v = Done tt w' /\ cb_nudge (c_cbs (w_c v)) = cb_nudge (x_cbs x).
Proof.
  intros C. unfold internal_connect in C. unfold bind at 1 in C. destruct (configure E x i p w) as [rc1 w1|] eqn:Cf; [|discriminate C].
  destruct (Z.eqb_spec rc1 HE_SUCCESS) as [->|N]; cbn [negb] in C; [|apply Done_inv in C as [C _]; congruence].
  pose (CX := fun v : world => cb_nudge (c_cbs (w_c v)) = cb_nudge (x_cbs x)).
  assert (CX w1) as F1 by exact (configure_nudge Cf). clear Cf.
  assert (forall sz, keeps CX T (io_read sz)) as Kr by (intros; apply keeps_io_read; auto).
  assert (forall b, keeps CX T (io_write E hk b)) as Kw by (intros; apply keeps_io_write; auto; apply keeps_ret).
  assert (forall o, keeps CX T (wolf_op E hk o)) as Ko by (intros; apply keeps_wolf_op'; auto; apply keeps_ret).
  assert (forall s, keeps CX T (change_conn_state E hk s)) as Ks by (intros; apply keeps_change_conn_state; auto; apply keeps_ret).
  assert (keeps CX T (wolf_settings E x)) as K1 by (apply keeps_settings; auto).
  assert (keeps CX T (wolf_settings2 E x)) as K2 by (apply keeps_settings2; auto).
  unfold bind at 1, ask at 1, bind at 1, log at 1, bind at 1, emit at 1, ret at 1 in C. cbv zeta in C. unfold bind at 1, upd at 1 in C.
  match type of C with (if ?b then _ else _) _ = _ => destruct b; [apply Done_inv in C as [C _]; discriminate C|] end.
  unfold bind at 1 in C. match type of C with (match wolf_settings E x ?v with _ => _ end) = _ => specialize (K1 v F1); destruct (wolf_settings E x v) as [rc2 w2|]; [|discriminate C] end.
  destruct (Z.eqb_spec rc2 HE_SUCCESS) as [->|N]; cbn [negb] in C; [|apply Done_inv in C as [C _]; congruence].
  unfold bind at 1, upd at 1 in C. unfold bind at 1 in C. match type of C with (match wolf_settings2 E x ?v with _ => _ end) = _ => specialize (K2 v K1); destruct (wolf_settings2 E x v) as [rc3 w3|]; [|discriminate C] end.
  destruct (Z.eqb_spec rc3 HE_SUCCESS) as [->|N]; cbn [negb] in C; [|apply Done_inv in C as [C _]; congruence].
  unfold bind at 1 in C. pose proof (@Ks HE_STATE_CONNECTING w3 K2) as K3. destruct (change_conn_state E hk HE_STATE_CONNECTING w3) as [u w4|]; [|discriminate C].
  unfold bind at 1 in C. pose proof (@Ko WNegotiate w4 K3) as K4. destruct (wolf_op E hk WNegotiate w4) as [[[r err] d] w5|]; [|discriminate C].
  assert (forall s, (change_conn_state E hk s ;;; update_timeout E hk ;;; ret HE_SUCCESS) w5 = Done HE_SUCCESS w' -> exists v, update_timeout E hk v = Done tt w' /\ CX v) as Rest.
  { intros s C'. unfold bind at 1 in C'. pose proof (@Ks s w5 K4) as K5. destruct (change_conn_state E hk s w5) as [u6 w6|]; [|discriminate C']. unfold bind at 1 in C'.
    destruct (update_timeout E hk w6) as [[] w7|] eqn:U; [|discriminate C']. apply Done_inv in C' as [_ <-]. exists w6. auto. }
  destruct (negb (r =? SSL_SUCCESS)); [|now apply Rest in C]. match type of C with (if ?b then _ else _) _ = _ => destruct b end; [now apply Rest in C|]. apply Done_inv in C as [C _]. discriminate C.
Qed.
Lemma connect_end o x i p w w' : o = OClientConnect x i p \/ o = OServerConnect x i p -> api_body E hk o w = Done HE_SUCCESS w' -> c_state (w_c w') <> HE_STATE_ONLINE ->
  cb_nudge (x_cbs x) = true -> c_nudging (w_c w') = true /\ cb_nudge (c_cbs (w_c w')) = true.
Proof.
  intros Ho B N Cb.
  assert (exists v w1, update_timeout E hk v = Done tt w1 /\ cb_nudge (c_cbs (w_c v)) = cb_nudge (x_cbs x) /\
    c_nudging (w_c w') = c_nudging (w_c w1) /\ c_cbs (w_c w') = c_cbs (w_c w1) /\ c_state (w_c w') = c_state (w_c w1)) as (v & w1 & U & Cv & A1 & A2 & A3).
  { destruct Ho as [-> | ->]; cbn [api_body] in B.
    - unfold client_connect in B. unfold bind at 1, get at 1 in B. unfold bind at 1, lift at 1 in B. destruct (is_valid_client x (w_c w)) as [rc|]; [|discriminate B]. unfold ret at 1 in B.
      destruct (Z.eqb_spec rc HE_SUCCESS) as [Qr|Nr]; cbn [negb] in B; [|apply Done_inv in B as [B _]; congruence]. unfold bind at 1, upd at 1 in B.
      destruct (internal_end B) as (v & U & Cv). exists v, w'. auto.
    - unfold server_connect in B. unfold bind at 1, get at 1 in B. cbv zeta in B. destruct (Z.eqb_spec (is_valid_server x (w_c w)) HE_SUCCESS) as [Q|Q]; cbn [negb] in B; [|apply Done_inv in B as [B _]; congruence].
      unfold bind at 1, upd at 1 in B. unfold bind at 1 in B. match type of B with (match internal_connect E hk x i p ?u with _ => _ end) = _ => destruct (internal_connect E hk x i p u) as [rc w1|] eqn:Ic; [|discriminate B] end.
      destruct (Z.eqb_spec rc HE_SUCCESS) as [->|Nr]; cbn [negb] in B; [|apply Done_inv in B as [B _]; congruence].
      destruct (internal_end Ic) as (v & U & Cv). exists v, w1. split; [exact U|]. split; [exact Cv|].
      unfold generate_session_id, ask, bind, log, emit, ret, upd in B. match type of B with context [negb (?q =? 0)] => destruct (negb (q =? 0)) end; cbv iota beta in B.
      + change (negb (HE_ERR_RNG_FAILURE =? HE_SUCCESS)) with true in B. cbv iota in B. apply Done_inv in B as [B _]. discriminate B.
      + change (negb (HE_SUCCESS =? HE_SUCCESS)) with false in B. cbv iota in B. apply Done_inv in B as [_ <-]. auto. }
  destruct (timeout_effect U) as (T1 & T2 & _ & _ & [[T5 _]|T5]); [exfalso; congruence|]. rewrite A1, A2, T1. split; [apply T5|]; congruence.
Qed.
End W.
Lemma VH_call E o w rc w' : reached E w -> VH w -> call E o w rc w' -> VH w'.
Proof.
  intros Re Hw Cl. destruct (call_body Cl) as (w1 & Bd & ->). destruct (plain_op o) eqn:U.
  - pose proof (@VH_body E o U (push (ECall o) w) (VH_push (e := ECall o) eq_refl Hw)) as K. rewrite Bd in K. apply VH_push; [|exact K]. unfold plain_op in U. cbn [connected]. now destruct (is_connect_op o).
  - destruct (is_connect_op o) eqn:Co.
    + assert (c_state (w_c w1) <> HE_STATE_ONLINE \/ rc <> HE_SUCCESS) as St.
      { destruct (Z.eq_dec rc HE_SUCCESS) as [->|]; [left|now right]. intros On.
        pose proof (@ConnWpApi.api_ok E (hookn E 0) (@hookn_ok E 0) o w (reached_good Re)) as A. change (hookn E 0) with (@ret unit tt) in A. unfold call in Cl. rewrite Cl in A.
        destruct A as (_ & v1 & v2 & _ & _ & Ok & Eq). assert (w_c w1 = w_c v2 /\ w_t w1 = w_t v2) as [Ec Et] by (split; [exact (f_equal w_c Eq)|exact (f_equal (fun z => tl (w_t z)) Eq)]).
        assert (re (w_t v2) = false) as Rv. { pose proof (reached_re (reached_call Re Cl)) as Rr. rewrite <- Et. exact Rr. }
        destruct (Ok Rv) as (_ & _ & _ & _ & Fr & _). apply (fresh_online (Fr Co eq_refl)). now rewrite <- Ec. }
      assert (forall x i p, o = OClientConnect x i p \/ o = OServerConnect x i p -> (rc =? 0) && cb_nudge (x_cbs x) && negb (settled (c_state (w_c w1))) = true -> VH (push (ERet o rc) w1)) as Go.
      { intros x i p Ho X _. apply andb_true_iff in X as [X _]. apply andb_true_iff in X as [X1 X2]. apply Z.eqb_eq in X1. subst rc. destruct St as [St|St]; [|now destruct St].
        exact (connect_end Ho Bd St X2). }
      intros X. destruct o; try discriminate Co; cbn [push w_t handshaking] in X; (eapply Go; [eauto|exact X|exact X]).
    + destruct o; try discriminate Co; try discriminate U. exact (VH_nudge (VH_push (e := ECall ONudge) eq_refl Hw) Bd).
Qed.
Lemma VH_reached E w : reached E w -> VH w.
Proof.
  intros [ops R]. assert (forall w0, reached E w0 -> VH w0 -> run E 0 ops w0 = Done tt w -> VH w) as H; [|apply (H world_new); [exists []; reflexivity|discriminate|exact R]].
  clear R. induction ops as [|o ops IH]; intros w0 R0 H0; cbn [run]; [now intros [= <-]|]. change (hookn E 0) with (@ret unit tt).
  destruct (api E (ret tt) o w0) as [rc w1|] eqn:C; [|discriminate]. apply IH; [exact (reached_call R0 C)|exact (VH_call R0 H0 C)].
Qed.
(** From a successful connect until the connection is ONLINE or disconnected
    there is always a timer the host has been asked for and that has not fired. *)
Theorem C41_waits : forall E w, reached E w -> handshaking (w_t w) = true -> outstanding (w_t w) = true.
Proof. intros E w R H. destruct (TJ_reached R) as (_ & _ & C & _). rewrite <- C. now destruct (VH_reached R H). Qed.
Print Assumptions C41_waits.


(** ** Examples *)
(** A client in its handshake: timer of 100 ms outstanding; when it fires another one is asked for. *)
Example C41_example_handshake :
  let ops := client_setup ++ [OClientConnect dctx [] []] in let w := world_at ops in let v := world_at (ops ++ [ONudge]) in
  reached plain_env w /\ handshaking (w_t w) = true /\ outstanding (w_t w) = true /\ get_nudge_time (w_c w) = 100 /\
  hd_error (skipn 1 (w_t w)) = Some (HE_STATE_CONNECTING, ENudge 100) /\
  reached plain_env v /\ handshaking (w_t v) = true /\ outstanding (w_t v) = true.
Proof. cbv zeta. split; [apply world_at_reached; vm_compute; reflexivity|]. conj; try (apply world_at_reached); vm_compute; reflexivity. Qed.
(** DTLS 1.3 with a timeout of 7 and a quick timeout: 175 ms; once ONLINE, 0. *)
Definition quick_env : env :=
  Env true 50 (fun t q => match q with QVersion => DTLS1_3_VERSION | QTimeout => 7 | QQuickTimeout => 1 | QKeyUpdatePending => 1 | _ => plain_ask t q end)
    plain_cb (fun _ => (ip 1, ip 2, ip 3)) (fun _ => (HE_PLUGIN_SUCCESS, [])) plain_wolf (fun _ => HDone).
Example C41_example_quick :
  let w := world_of (run quick_env 0 (client_setup ++ [OClientConnect dctx [] []]) world_new) in
  let v := world_of (run quick_env 0 client_up world_new) in
  let u := world_of (run quick_env 0 (client_up ++ [ONudge; OScheduleReneg; OOutside (dgram 0 [1])]) world_new) in
  reached quick_env w /\ get_nudge_time (w_c w) = 175 /\ has (fun e => match e with ENudge 175 => true | _ => false end) (w_t w) = true /\
  reached quick_env v /\ c_state (w_c v) = HE_STATE_ONLINE /\ get_nudge_time (w_c v) = 0 /\
  reached quick_env u /\ c_state (w_c u) = HE_STATE_ONLINE /\ renegotiating (w_t u) = true /\ get_nudge_time (w_c u) = 175 /\
  during (fun _ e => match e with ENudge ms => [ms] | _ => [] end) v u [175] /\ outstanding (w_t u) = true.
Proof.
  cbv zeta. split; [exists (client_setup ++ [OClientConnect dctx [] []]); vm_compute; reflexivity|]. split; [vm_compute; reflexivity|]. split; [vm_compute; reflexivity|].
  split; [exists client_up; vm_compute; reflexivity|]. split; [vm_compute; reflexivity|]. split; [vm_compute; reflexivity|].
  split; [exists (client_up ++ [ONudge; OScheduleReneg; OOutside (dgram 0 [1])]); vm_compute; reflexivity|]. conj; vm_compute; reflexivity.
Qed.
