(** C41 (cont.): what he_conn_nudge, called when the timer fires, does to the connection. *)
From Verif Require Import Base Codes Ctx ConnState Conn ConnSpec MsgSpec CallSpec.
From Verif Require Import ConnSteps ConnWp ConnWpApi Frame Seq SeqApi TimerSpec Scenario Props_Data Props_Timer Props_Tls.
Unset Strict Implicit.

(** wolfSSL's answers to "your timer fired" (wolfSSL_dtls_got_timeout). *)
Definition told_timeout (s : Z) (e : ev) : list (Z * Z) := match e with EWEnd WGotTimeout r err _ => [(r, err)] | _ => [] end.
(** wolfSSL has given up: not a success, and no wish for more data. *)
Definition gave_up (a : Z * Z) : bool :=
  let '(r, err) := a in negb (r =? SSL_SUCCESS) && negb (err =? SSL_ERROR_WANT_READ) && negb (err =? SSL_ERROR_WANT_WRITE).

Section N.
Variable E : env.
Notation hk := (@ret unit tt).
Definition steady {A} (m : M A) : Prop := forall w a w', m w = Done a w' -> c_state (w_c w') = c_state (w_c w) /\ during told_timeout w w' [].
Lemma steady_ret A (a : A) : steady (ret a).
Proof. intros w b w' H. apply Done_inv in H as [_ <-]. split; [reflexivity|]. unfold during. now rewrite !app_nil_r. Qed.
Lemma steady_get A (f : conn -> A) : steady (get f).
Proof. intros w b w' H. apply Done_inv in H as [_ <-]. split; [reflexivity|]. unfold during. now rewrite !app_nil_r. Qed.
Lemma steady_upd f : (forall c, c_state (f c) = c_state c) -> steady (upd f).
Proof. intros F w b w' H. apply Done_inv in H as [_ <-]. split; [apply F|]. unfold during. cbn [w_t]. now rewrite !app_nil_r. Qed.
Lemma steady_bind A B (m : M A) (k : A -> M B) : steady m -> (forall a, steady (k a)) -> steady (bind m k).
Proof.
  intros Hm Hk w b w' H. unfold bind in H. destruct (m w) as [a w1|] eqn:R; [|discriminate H].
  destruct (Hm _ _ _ R) as (A1 & A2). destruct (Hk _ _ _ _ H) as (B1 & B2). split; [now rewrite B1|]. exact (during_trans A2 B2).
Qed.
Lemma steady_lift A (r : res A) : steady (lift r).
Proof. destruct r; [apply steady_ret|]. intros w b w' H. discriminate H. Qed.
Lemma steady_ask q : steady (ask E q).
Proof. intros w b w' H. rewrite ask_eq in H. apply Done_inv in H as [_ <-]. split; [reflexivity|]. unfold during. cbn [push w_t collect told_timeout]. now rewrite !app_nil_r. Qed.
Lemma steady_ask_version : steady (ask_version E).
Proof. intros w a w' H. eapply steady_ask. exact (version_done H). Qed.
Lemma steady_notify e : (forall s, told_timeout s e = []) -> steady (notify hk e).
Proof. intros F w b w' H. unfold notify, bind, emit, ret in H. apply Done_inv in H as [_ <-]. split; [reflexivity|]. unfold during. cbn [w_t collect]. now rewrite F, !app_nil_r. Qed.
Lemma steady_when (b : bool) (m : M unit) : steady m -> steady (when b m).
Proof. destruct b; [auto|]. intros _. apply steady_ret. Qed.
Lemma wolf_state o w r err d w' : wolf_op E hk o w = Done (r, err, d) w' ->
  c_state (w_c w') = c_state (w_c w) /\ during told_timeout w w' (told_timeout 0 (EWEnd o r err d)).
Proof.
  intros H. apply wolf_op_seq in H. destruct H as (rx & seg & -> & S). split; [reflexivity|]. unfold during. cbn [w_t collect]. rewrite !collect_app.
  rewrite (collect_io (s := c_state (w_c w)) (f := told_timeout) (seg := seg)); auto.
  - cbn [collect told_timeout]. now rewrite !app_nil_r.
  - intros []; cbn; auto; discriminate.
Qed.
Lemma steady_send m : steady (send_message E hk m).
Proof.
  unfold send_message. intros w rc w' H. unfold bind at 1 in H. destruct (wolf_op E hk (WSend m) w) as [[[r err] d] w1|] eqn:R; [|discriminate H].
  destruct (wolf_state R) as [A B]. cbn [told_timeout] in B. rewrite <- A.
  enough (c_state (w_c w') = c_state (w_c w1) /\ w_t w' = w_t w1) as [X Y] by (split; [exact X|unfold during in *; now rewrite Y]).
  repeat match type of H with (if ?b then _ else _) _ = _ => destruct b end; apply Done_inv in H as [_ <-]; auto.
Qed.
Ltac s1 :=
  match goal with
  | |- steady (bind _ _) => apply steady_bind; [|intro]
  | |- steady (ret _) => apply steady_ret
  | |- steady (get _) => apply steady_get
  | |- steady (upd _) => apply steady_upd; intros; reflexivity
  | |- steady (when _ _) => apply steady_when
  | |- steady (lift _) => apply steady_lift
  | |- steady (ask_version _) => apply steady_ask_version
  | |- steady (ask _ _) => apply steady_ask
  | |- steady (send_message _ _ _) => apply steady_send
  | |- steady (notify _ _) => apply steady_notify; reflexivity
  | |- steady (if ?b then _ else _) => destruct b
  | |- steady (match ?x with _ => _ end) => destruct x
  end.
Ltac ss := intros; cbv zeta; repeat s1.
Lemma steady_update_timeout : steady (update_timeout E hk).
Proof. unfold update_timeout. ss. Qed.
Lemma steady_again w rc w' : c_state (w_c w) = HE_STATE_AUTHENTICATING -> send_auth E hk w = Done rc w' -> c_state (w_c w') = c_state (w_c w) /\ during told_timeout w w' [].
Proof.
  intros St. unfold send_auth. unfold bind at 1, get at 1. rewrite St. change (negb (HE_STATE_AUTHENTICATING =? HE_STATE_LINK_UP) && negb (HE_STATE_AUTHENTICATING =? HE_STATE_AUTHENTICATING)) with false. cbv iota.
  unfold bind at 1. unfold set_conn_state at 1. unfold bind at 1, get at 1. rewrite St. change (HE_STATE_AUTHENTICATING =? HE_STATE_AUTHENTICATING) with true. cbv iota. unfold ret at 1.
  intros H. rewrite <- St. revert H. match goal with |- ?m w = _ -> _ => assert (steady m) as K end; [|apply K].
  unfold send_auth_userpass, send_auth_token, send_auth_buf. ss.
Qed.
Lemma nudge_does w rc w' : nudge E hk w = Done rc w' ->
  if c_state (w_c w) =? HE_STATE_AUTHENTICATING
  then rc = HE_SUCCESS /\ c_state (w_c w') = c_state (w_c w) /\ during told_timeout w w' []
  else exists a, during told_timeout w w' [a] /\
    if gave_up a then rc = HE_CONNECTION_TIMED_OUT /\ c_state (w_c w') = HE_STATE_DISCONNECTED
    else rc = HE_SUCCESS /\ c_state (w_c w') = c_state (w_c w).
Proof.
  unfold nudge. rewrite upd_first. set (w0 := with_c _ w). assert (c_state (w_c w0) = c_state (w_c w)) as S0 by reflexivity.
  assert (forall l, during told_timeout w0 w' l -> during told_timeout w w' l) as D0 by (intros l H; exact H). clearbody w0.
  unfold bind at 1, get at 1. rewrite S0. destruct (Z.eqb_spec (c_state (w_c w)) HE_STATE_AUTHENTICATING) as [Q|Q].
  - intros H. unfold bind at 1 in H. destruct (send_auth E hk w0) as [r1 w1|] eqn:R1; [|discriminate H]. destruct (steady_again (eq_trans S0 Q) R1) as [A1 B1].
    assert (steady (update_timeout E hk ;;; ret HE_SUCCESS)) as K by (apply steady_bind; [apply steady_update_timeout|intros; apply steady_ret]).
    destruct (K _ _ _ H) as [A2 B2]. unfold bind in H. destruct (update_timeout E hk w1) as [[] w2|]; [|discriminate H]. apply Done_inv in H as [<- <-].
    split; [reflexivity|]. split; [congruence|]. apply D0. exact (during_trans B1 B2).
  - intros H. unfold bind at 1 in H. destruct (wolf_op E hk WGotTimeout w0) as [[[r err] d] w1|] eqn:R1; [|discriminate H]. destruct (wolf_state R1) as [A1 B1]. cbn [told_timeout] in B1.
    exists (r, err). unfold gave_up. rewrite <- andb_assoc, <- negb_orb.
    destruct (negb (r =? SSL_SUCCESS) && negb ((err =? SSL_ERROR_WANT_READ) || (err =? SSL_ERROR_WANT_WRITE))) eqn:Gv.
    + unfold change_conn_state in H. change (HE_STATE_DISCONNECTED =? HE_STATE_LINK_UP) with false in H.
      unfold bind at 1 in H. unfold bind at 1 in H. destruct (set_conn_state hk HE_STATE_DISCONNECTED w1) as [ch w2|] eqn:R2; [|discriminate H]. rewrite andb_false_r in H. unfold ret at 1 in H. apply Done_inv in H as [<- <-].
      assert (c_state (w_c w2) = HE_STATE_DISCONNECTED /\ during told_timeout w1 w2 []) as [X Y].
      { revert R2. unfold set_conn_state. unfold bind at 1, get at 1. destruct (Z.eqb_spec (c_state (w_c w1)) HE_STATE_DISCONNECTED) as [Qd|Qd].
        - intros H. apply Done_inv in H as [_ <-]. split; [exact Qd|]. unfold during. now rewrite app_nil_r.
        - rewrite upd_first. intros H. match type of H with ?m ?v = _ => assert (steady m) as K by (apply steady_bind; [apply steady_get|intros; apply steady_bind; [apply steady_when, steady_notify; reflexivity|intros; apply steady_ret]]) end.
          destruct (K _ _ _ H) as [X Y]. split; [exact X|exact Y]. }
      split; [apply D0; exact (during_trans B1 Y)|]. auto.
    + assert (steady (update_timeout E hk ;;; ret HE_SUCCESS)) as K by (apply steady_bind; [apply steady_update_timeout|intros; apply steady_ret]).
      destruct (K _ _ _ H) as [A2 B2]. unfold bind in H. destruct (update_timeout E hk w1) as [[] w2|]; [|discriminate H]. apply Done_inv in H as [<- <-].
      split; [apply D0; exact (during_trans B1 B2)|]. split; [reflexivity|congruence].
Qed.
End N.

(** When the timer fires in AUTHENTICATING the state stays (and C15_login: the
    credentials are sent again); otherwise wolfSSL is told once, and the connection
    is given up exactly when wolfSSL has given up. *)
Theorem C41_nudge : forall E w rc w', call E ONudge w rc w' ->
  if c_state (w_c w) =? HE_STATE_AUTHENTICATING
  then rc = HE_SUCCESS /\ c_state (w_c w') = c_state (w_c w) /\ during told_timeout w w' []
  else exists a, during told_timeout w w' [a] /\
    if gave_up a then rc = HE_CONNECTION_TIMED_OUT /\ c_state (w_c w') = HE_STATE_DISCONNECTED
    else rc = HE_SUCCESS /\ c_state (w_c w') = c_state (w_c w).
Proof.
  intros E w rc w' Cl. destruct (call_body Cl) as (w1 & Bd & ->). cbn [api_body] in Bd. pose proof (nudge_does Bd) as H. cbn [push w_c] in H |- *.
  destruct (_ =? _).
  - destruct H as (A & B & C). split; [exact A|]. split; [exact B|]. now apply during_call.
  - destruct H as (a & D & H). exists a. split; [now apply during_call|exact H].
Qed.
Print Assumptions C41_nudge.
Example C41_example_nudge :
  let ops := client_setup ++ [OClientConnect dctx [] []] in let w := world_at ops in let v := world_at (ops ++ [ONudge]) in
  let u := world_of (run refusing_env 0 [ONudge] world_new) in
  reached plain_env w /\ call plain_env ONudge w HE_SUCCESS v /\ c_state (w_c v) = HE_STATE_CONNECTING /\ during told_timeout w v [(1, 0)] /\
  call refusing_env ONudge world_new HE_CONNECTION_TIMED_OUT u /\ c_state (w_c u) = HE_STATE_DISCONNECTED /\ during told_timeout world_new u [(BAD_FUNC_ARG, BAD_FUNC_ARG)].
Proof. cbv zeta. split; [apply world_at_reached; vm_compute; reflexivity|]. conj; vm_compute; reflexivity. Qed.
