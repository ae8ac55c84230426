(** C56: rekeying on request. *)
From Verif Require Import Base Codes Ctx ConnState Conn ConnSpec HistSpec MsgSpec CallSpec.
From Verif Require Import WireSpec.
From Verif Require CredProofs.
From Verif Require Import ConnSteps ConnWp ConnWpApi Frame FrameLoop Seq SeqApi TimerSpec TimerProofs RekeySpec Scenario Props_Data Props_Timer Props_Tls Props_State.
Unset Strict Implicit.

Section R.
Variable E : env.
Notation hk := (@ret unit tt).
Notation T := (fun _ : world => True).
Definition same (w0 w : world) : Prop :=
  c_due (w_c w) = c_due (w_c w0) /\ c_prog (w_c w) = c_prog (w_c w0) /\ cb_event (c_cbs (w_c w)) = cb_event (c_cbs (w_c w0)).
Definition fixed (w0 w : world) : Prop := during rekey w0 w [] /\ same w0 w.
Lemma same_trans w0 w1 w2 : same w0 w1 -> same w1 w2 -> same w0 w2.
Proof. intros (A & B & C) (A' & B' & C'). split; [congruence|split; congruence]. Qed.
Section K.
Variable w0 : world.
Notation I := (fixed w0).
Lemma F_push e w : (forall s, rekey s e = []) -> I w -> I (push e w).
Proof. intros H (A & B). split; [|exact B]. unfold during in *. cbn [push w_t collect]. now rewrite H, A, !app_nil_r. Qed.
Lemma F_conn f w : (forall c, c_due (f c) = c_due c /\ c_prog (f c) = c_prog c /\ cb_event (c_cbs (f c)) = cb_event (c_cbs c)) -> I w -> I (with_c f w).
Proof. intros H (A & B & C & D). destruct (H (w_c w)) as (X & Y & Z). split; [exact A|]. split; [exact (eq_trans X B)|]. split; [exact (eq_trans Y C)|exact (eq_trans Z D)]. Qed.
Lemma F_event e w : io_event e = false -> I w -> I (push e w).
Proof.
  intros H. apply F_push. intros s. destruct e; try reflexivity; try (destruct o; try reflexivity; discriminate H).
  - cbn in *. apply orb_false_iff in H as [H H2]. apply orb_false_iff in H as [_ H]. now rewrite H, H2.
  - destruct q; try reflexivity; discriminate H.
Qed.
Ltac kpush := apply F_push; [first [reflexivity|intros ?; match goal with o : wop |- _ => destruct o; first [reflexivity|congruence] end]|assumption].
Ltac kconn := apply F_conn; [intros; repeat split; reflexivity|assumption].
Ltac ks := intros; first [exact Logic.I|apply keeps_ret|now apply F_event|kpush|kconn|idtac].
Lemma F_read sz : keeps I T (io_read sz).
Proof. apply keeps_io_read; ks. Qed.
Lemma F_write b : keeps I T (io_write E hk b).
Proof. apply keeps_io_write; ks. Qed.
Ltac ks ::= intros; first [exact Logic.I|apply keeps_ret|apply F_read|apply F_write|now apply F_event|kpush|kconn|idtac].
Lemma F_ask q : (forall s r, rekey s (EAsk q r) = []) -> keeps I T (ask E q).
Proof. intros H. unfold ask. apply keeps_bind; [apply keeps_log|]. intros t. apply keeps_bind; [apply keeps_emit; intros; apply F_push; auto|intros _; apply keeps_ret]. Qed.
Lemma F_op o : (forall s r err d, rekey s (EWEnd o r err d) = []) -> keeps I T (wolf_op E hk o).
Proof. intros N. apply keeps_wolf_op'; ks. Qed.
Lemma F_timeout : keeps I T (update_timeout E hk).
Proof. apply keeps_update_timeout; ks. Qed.
Lemma F_gen v : (v =? HE_EVENT_SECURE_RENEGOTIATION_STARTED) || (v =? HE_EVENT_SECURE_RENEGOTIATION_COMPLETED) = false -> keeps I T (generate_event hk v).
Proof.
  intros H w Hw. unfold generate_event, bind, get, when, notify, emit, ret. destruct (cb_event _); [|exact Hw]. apply (@F_push (EEvent v)); [|exact Hw]. intros s. cbn. now rewrite H.
Qed.
Lemma F_change s : keeps I T (change_conn_state E hk s).
Proof. apply keeps_change_conn_state; ks. Qed.
Lemma F_process d : keeps I T (process_message E hk d).
Proof. apply keeps_process; ks. Qed.
Lemma F_plugin ch d c : keeps I T (plugin_ingress E ch d c).
Proof. apply keeps_plugin_ingress; ks. Qed.
Lemma F_session s : keeps I T (update_session_incoming hk s).
Proof. apply keeps_session_in; ks. Qed.
End K.
Lemma fixed_refl w : fixed w w.
Proof. split; [unfold during; now rewrite app_nil_r|repeat split]. Qed.
Lemma fixed_of A (m : M A) w a w' : keeps (fixed w) T m -> m w = Done a w' -> fixed w w'.
Proof. intros K H. specialize (K w (fixed_refl w)). now rewrite H in K. Qed.
Lemma op_seq o w r err d w' : wolf_op E hk o w = Done (r, err, d) w' ->
  during rekey w w' (rekey (c_state (w_c w)) (EWEnd o r err d)) /\ same w w' /\ c_state (w_c w') = c_state (w_c w).
Proof.
  intros H. apply wolf_op_seq in H. destruct H as (rx & seg & -> & S). split; [|repeat split]. unfold during. cbn [w_t collect]. rewrite !collect_app.
  rewrite (collect_io (s := c_state (w_c w)) (f := rekey) (seg := seg)); auto.
  - cbn [collect]. change (rekey (c_state (w_c w)) (EWOp o)) with (@nil item). now rewrite !app_nil_r.
  - intros []; cbn; auto; discriminate.
Qed.
Lemma gen_seq v w u w' : (v =? HE_EVENT_SECURE_RENEGOTIATION_STARTED) || (v =? HE_EVENT_SECURE_RENEGOTIATION_COMPLETED) = true ->
  generate_event hk v w = Done u w' -> during rekey w w' (told (cb_event (c_cbs (w_c w))) v) /\ w_c w' = w_c w.
Proof.
  intros H. unfold generate_event, bind, get, when, notify, emit, ret, told. destruct (cb_event _); intros Q; apply Done_inv in Q as [_ <-]; (split; [|reflexivity]); unfold during; cbn [w_t collect rekey].
  - now rewrite H.
  - now rewrite app_nil_r.
Qed.
(** *** The message loop ends with the moment, or with an error *)
Definition emptied (w w' : world) : Prop := during rekey w w' [Drained (c_state (w_c w'))] /\ same w w'.
Lemma fetch_rekey : forall fuel w rc m w', fetch_message E hk fuel w = Done (rc, m) w' ->
  match m with Some _ => rc = HE_SUCCESS /\ fixed w w' | None => if rc =? HE_SUCCESS then emptied w w' else fixed w w' end.
Proof.
  induction fuel as [|fuel IH]; intros w rc m w'; cbn [fetch_message]; [discriminate|]. unfold bind at 1.
  destruct (wolf_op E hk WRecv w) as [[[r err] d] w1|] eqn:R1; [|discriminate]. destruct (op_seq R1) as (D & S & St). cbn [rekey drained] in D. rewrite <- St in D. clear St.
  destruct (r <=? 0); cbn [andb] in D.
  2:{ intros H. apply Done_inv in H as [Q <-]. apply pair_equal_spec in Q as [<- <-]. split; [reflexivity|split; [exact D|exact S]]. }
  destruct (err =? SSL_ERROR_NONE); cbn [orb] in D. { intros H. apply Done_inv in H as [Q <-]. apply pair_equal_spec in Q as [<- <-]. split; [exact D|exact S]. }
  destruct (Z.eqb_spec err APP_DATA_READY) as [Qe|N].
  { intros H. specialize (IH _ _ _ _ H). subst err. change (during rekey w w1 []) in D.
    assert (forall v, fixed w1 v -> fixed w v) as Fx by (intros v (D2 & S2); split; [exact (during_trans D D2)|exact (same_trans S S2)]).
    destruct m; [split; [tauto|apply Fx; tauto]|]. destruct (rc =? HE_SUCCESS); [|now apply Fx]. destruct IH as (D2 & S2). split; [exact (during_trans D D2)|exact (same_trans S S2)]. }
  destruct (_ || _). { intros H. apply Done_inv in H as [Q <-]. apply pair_equal_spec in Q as [<- <-]. split; [exact D|exact S]. }
  assert (fixed w w1) as F by (split; [exact D|exact S]).
  destruct (r =? 0). { intros H. apply Done_inv in H as [Q <-]. apply pair_equal_spec in Q as [<- <-]. exact F. }
  rewrite upd_first. unfold bind at 1, get at 1. intros H. apply Done_inv in H as [Q <-]. apply pair_equal_spec in Q as [<- <-].
  match goal with |- if ?c then _ else _ => assert (c = false) as -> by (case_if; reflexivity) end. apply F_conn; [intros; repeat split; reflexivity|exact F].
Qed.
Lemma loop_rekey : forall fuel w rc w', message_loop E hk fuel w = Done rc w' -> if rc =? HE_SUCCESS then emptied w w' else fixed w w'.
Proof.
  induction fuel as [|fuel IH]; intros w rc w'; cbn [message_loop]; [discriminate|]. unfold bind at 1.
  destruct (fetch_message E hk (e_fuel E) w) as [[rc1 m] w1|] eqn:R1; [|discriminate]. pose proof (fetch_rekey R1) as F.
  destruct m as [d|].
  2:{ destruct (rc1 =? HE_SUCCESS) eqn:Q1; cbn [negb]; intros H; apply Done_inv in H as [<- <-]; [exact F|now rewrite Q1]. }
  destruct F as [-> F]. change (negb (HE_SUCCESS =? HE_SUCCESS)) with false. cbv iota. unfold bind at 1.
  pose proof (@F_process w d w1 F) as F2. destruct (process_message E hk d w1) as [rc2 w2|]; [|discriminate].
  destruct (rc2 =? HE_SUCCESS) eqn:Q2; cbn [negb]; [|intros H; apply Done_inv in H as [<- <-]; now rewrite Q2].
  intros H. specialize (IH _ _ _ H). destruct F2 as (D2 & S2). destruct (rc =? HE_SUCCESS); destruct IH as (D3 & S3); (split; [exact (during_trans D2 D3)|exact (same_trans S2 S3)]).
Qed.
(** *** Beginning *)
Lemma reneg_rekey w rc w' : renegotiate_ssl E hk w = Done rc w' ->
  c_due (w_c w') = false /\ cb_event (c_cbs (w_c w')) = cb_event (c_cbs (w_c w)) /\
  if c_prog (w_c w) || negb (c_state (w_c w) =? HE_STATE_ONLINE)
  then rc = HE_SUCCESS /\ during rekey w w' [] /\ c_prog (w_c w') = c_prog (w_c w)
  else exists started l, began (cb_event (c_cbs (w_c w))) started rc l /\ during rekey w w' l /\ c_prog (w_c w') = started.
Proof.
  unfold renegotiate_ssl. rewrite upd_first. set (w1 := with_c _ w). unfold bind at 1, get at 1. unfold bind at 1, get at 1.
  change (c_prog (w_c w)) with (c_prog (w_c w1)). change (c_state (w_c w)) with (c_state (w_c w1)). change (cb_event (c_cbs (w_c w))) with (cb_event (c_cbs (w_c w1))).
  assert (c_due (w_c w1) = false) as Du by reflexivity. assert (forall v l, during rekey w1 v l -> during rekey w v l) as Dw by (intros; assumption). clearbody w1.
  destruct (c_prog (w_c w1)) eqn:Pr; cbn [orb]. { intros H. apply Done_inv in H as [<- <-]. split; [exact Du|]. split; [reflexivity|]. split; [reflexivity|]. split; [apply Dw, fixed_refl|exact Pr]. }
  destruct (c_state (w_c w1) =? HE_STATE_ONLINE); cbn [negb].
  2:{ intros H. apply Done_inv in H as [<- <-]. split; [exact Du|]. split; [reflexivity|]. split; [reflexivity|]. split; [apply Dw, fixed_refl|exact Pr]. }
  ver. unfold bind at 1. destruct (ask E QVersion w1) as [v w2|] eqn:R2; [|discriminate].
  destruct (fixed_of (F_ask (w0 := w1) (q := QVersion) (fun _ _ => eq_refl)) R2) as (D2 & S2). clear R2.
  unfold bind at 1.
  assert (forall o sup w3 l3, (o = WRehandshake \/ o = WUpdateKeys) -> sup <> 0 -> during rekey w1 w3 l3 -> same w1 w3 ->
    (forall r err, began (cb_event (c_cbs (w_c w1))) true (begin_code r err) (l3 ++ Begun o r err :: told (cb_event (c_cbs (w_c w1))) HE_EVENT_SECURE_RENEGOTIATION_STARTED)) ->
    (if sup =? 0 then ret HE_SUCCESS else
     let! (r, err, _) := wolf_op E hk o in
     upd (set_prog true) ;;;
     generate_event hk HE_EVENT_SECURE_RENEGOTIATION_STARTED ;;;
     if negb (r =? SSL_SUCCESS) then
       if (err =? SSL_ERROR_NONE) || (err =? SSL_ERROR_WANT_READ) || (err =? SSL_ERROR_WANT_WRITE) || (err =? APP_DATA_READY)
       then update_timeout E hk ;;; ret HE_SUCCESS
       else if err =? SECURE_RENEGOTIATION_E then ret HE_ERR_SECURE_RENEGOTIATION_ERROR
       else upd (set_wolf_err err) ;;; ret HE_ERR_SSL_ERROR
     else ret HE_SUCCESS) w3 = Done rc w' ->
    c_due (w_c w') = false /\ cb_event (c_cbs (w_c w')) = cb_event (c_cbs (w_c w1)) /\
    exists started l, began (cb_event (c_cbs (w_c w1))) started rc l /\ during rekey w w' l /\ c_prog (w_c w') = started) as Go.
  { intros o sup w3 l3 Ho Ns D3 S3 Bg. rewrite (proj2 (Z.eqb_neq _ _) Ns). unfold bind at 1. destruct (wolf_op E hk o w3) as [[[r err] d] w4|] eqn:R4; [|discriminate].
    destruct (op_seq R4) as (D4 & S4 & _). specialize (Bg r err). clear R4.
    assert (rekey (c_state (w_c w3)) (EWEnd o r err d) = [Begun o r err]) as Q4 by (destruct Ho as [-> | ->]; reflexivity). rewrite Q4 in D4. clear Q4.
    pose proof (during_trans D3 D4) as D. destruct (same_trans S3 S4) as (Q1 & Q2 & Q3). clear D3 D4 S3 S4. rewrite upd_first. set (w5 := with_c _ w4).
    assert (during rekey w1 w5 (l3 ++ [Begun o r err])) as D5 by exact D. assert (c_prog (w_c w5) = true) as P5 by reflexivity. assert (c_due (w_c w5) = false) as U5 by (unfold w5; cbn; congruence).
    assert (cb_event (c_cbs (w_c w5)) = cb_event (c_cbs (w_c w1))) as K5 by exact Q3. clearbody w5. clear Q1 Q2 Q3 D.
    unfold bind at 1. destruct (generate_event hk HE_EVENT_SECURE_RENEGOTIATION_STARTED w5) as [u w6|] eqn:R6; [|discriminate].
    destruct (gen_seq (v := HE_EVENT_SECURE_RENEGOTIATION_STARTED) eq_refl R6) as (D6 & C6). rewrite K5 in D6. pose proof (during_trans D5 D6) as D. rewrite <- app_assoc in D. cbn [app] in D.
    assert (c_prog (w_c w6) = true /\ c_due (w_c w6) = false /\ cb_event (c_cbs (w_c w6)) = cb_event (c_cbs (w_c w1))) as (P6 & U6 & K6) by (rewrite C6; auto). clear C6 P5 U5 K5 R6 D5 D6.
    set (l := l3 ++ _) in *. clearbody l.
    assert (forall c w7, fixed w6 w7 -> begin_code r err = c -> c_due (w_c w7) = false /\ cb_event (c_cbs (w_c w7)) = cb_event (c_cbs (w_c w1)) /\
      exists started l, began (cb_event (c_cbs (w_c w1))) started c l /\ during rekey w w7 l /\ c_prog (w_c w7) = started) as Fin.
    { intros c w7 (D7 & Q1 & Q2 & Q3) <-. split; [congruence|]. split; [congruence|]. exists true, l. split; [exact Bg|]. split; [|congruence]. apply Dw. pose proof (during_trans D D7) as X. now rewrite app_nil_r in X. }
    unfold begin_code in Fin. destruct (r =? SSL_SUCCESS); cbn [negb orb] in *; [intros H; apply Done_inv in H as [<- <-]; apply Fin; [apply fixed_refl|reflexivity]|].
    destruct ((err =? SSL_ERROR_NONE) || (err =? SSL_ERROR_WANT_READ) || (err =? SSL_ERROR_WANT_WRITE) || (err =? APP_DATA_READY)).
    - unfold bind at 1. destruct (update_timeout E hk w6) as [u7 w7|] eqn:U; [|discriminate]. intros H. apply Done_inv in H as [<- <-]. apply Fin; [|reflexivity]. exact (fixed_of (F_timeout (w0 := w6)) U).
    - destruct (err =? SECURE_RENEGOTIATION_E); [intros H; apply Done_inv in H as [<- <-]; apply Fin; [apply fixed_refl|reflexivity]|].
      rewrite upd_first. intros H. apply Done_inv in H as [<- <-]. apply Fin; [|reflexivity]. apply F_conn; [intros; repeat split; reflexivity|apply fixed_refl]. }
  destruct (v =? DTLS1_2_VERSION).
  - rewrite ask_eq. cbv zeta. set (sup := e_ask E _ _). set (w3 := push _ w2). 
    assert (during rekey w1 w3 [Support sup]) as D3 by exact (during_trans D2 (eq_refl : during rekey w2 w3 [Support sup])). assert (same w1 w3) as S3 by exact S2. clearbody w3 sup.
    destruct (Z.eqb_spec sup 0) as [->|N].
    + intros H. apply Done_inv in H as [<- <-]. destruct S3 as (Q1 & Q2 & Q3). split; [congruence|]. split; [congruence|]. exists false, [Support 0]. split; [constructor|]. split; [now apply Dw|congruence].
    + intros H. apply (Go WRehandshake sup w3 [Support sup]); auto; [intros; now constructor|]. rewrite (proj2 (Z.eqb_neq _ _) N). exact H.
  - intros H. apply (Go WUpdateKeys 1 w2 []); auto; [lia|intros; constructor].
Qed.
Lemma check_rekey w rc w' : check_renegotiation E hk w = Done rc w' -> c_due (w_c w') = c_due (w_c w) /\
  if c_prog (w_c w) then exists l, ends (cb_event (c_cbs (w_c w))) rc l /\ during rekey w w' l else rc = HE_SUCCESS /\ during rekey w w' [].
Proof.
  unfold check_renegotiation. unfold bind at 1, get at 1. destruct (c_prog (w_c w)); cbn [negb];
    [|intros H; apply Done_inv in H as [<- <-]; split; [reflexivity|]; split; [reflexivity|apply fixed_refl]].
  ver. unfold bind at 1. destruct (ask E QVersion w) as [v w1|] eqn:R1; [|discriminate].
  destruct (fixed_of (F_ask (w0 := w) (q := QVersion) (fun _ _ => eq_refl)) R1) as (D1 & S1). clear R1. unfold bind at 1.
  assert (forall rc1 p w2 l2, during rekey w w2 l2 -> same w w2 ->
    (if rc1 =? 0 then ends (cb_event (c_cbs (w_c w))) HE_SUCCESS (l2 ++ if_over (cb_event (c_cbs (w_c w))) p) else ends (cb_event (c_cbs (w_c w))) HE_ERR_SSL_ERROR l2) ->
    (if negb (rc1 =? 0) then
      let! err := ask E QError in
      upd (set_wolf_err err) ;;; ret HE_ERR_SSL_ERROR
     else
      when (p =? 0) (generate_event hk HE_EVENT_SECURE_RENEGOTIATION_COMPLETED) ;;;
      upd (set_prog (negb (p =? 0))) ;;;
      update_timeout E hk ;;;
      ret HE_SUCCESS) w2 = Done rc w' ->
    c_due (w_c w') = c_due (w_c w) /\ exists l, ends (cb_event (c_cbs (w_c w))) rc l /\ during rekey w w' l) as Go.
  { intros rc1 p w2 l2 D2 (Q1 & Q2 & Q3) En. destruct (rc1 =? 0); cbn [negb].
    2:{ unfold bind at 1. rewrite ask_eq. cbv zeta. rewrite upd_first. intros H. apply Done_inv in H as [<- <-]. split; [exact Q1|]. exists l2. split; [exact En|].
        assert (fixed w2 (push (EAsk QError (e_ask E (w_t w2) QError)) w2)) as (X & _) by (apply F_push; [reflexivity|apply fixed_refl]). pose proof (during_trans D2 X) as Y. rewrite app_nil_r in Y. exact Y. }
    unfold bind at 1. destruct (when (p =? 0) (generate_event hk HE_EVENT_SECURE_RENEGOTIATION_COMPLETED) w2) as [u w3|] eqn:R3; [|discriminate].
    assert (during rekey w2 w3 (if_over (cb_event (c_cbs (w_c w))) p) /\ w_c w3 = w_c w2) as (D3 & C3).
    { unfold if_over. destruct (p =? 0); cbn [when] in R3.
      - rewrite <- Q3. exact (gen_seq (v := HE_EVENT_SECURE_RENEGOTIATION_COMPLETED) eq_refl R3).
      - apply Done_inv in R3 as [_ <-]. split; [apply fixed_refl|reflexivity]. }
    rewrite upd_first. set (w4 := with_c _ w3). assert (during rekey w w4 (l2 ++ if_over (cb_event (c_cbs (w_c w))) p)) as D4 by exact (during_trans D2 D3).
    assert (c_due (w_c w4) = c_due (w_c w)) as U4 by (unfold w4; cbn; congruence). clearbody w4.
    unfold bind at 1. destruct (update_timeout E hk w4) as [u5 w5|] eqn:U; [|discriminate]. intros H. apply Done_inv in H as [<- <-].
    destruct (fixed_of (F_timeout (w0 := w4)) U) as (D5 & Q5 & _). split; [congruence|]. eexists. split; [exact En|]. pose proof (during_trans D4 D5) as X. now rewrite app_nil_r in X. }
  destruct (v =? DTLS1_2_VERSION).
  - unfold bind at 1. rewrite ask_eq. cbv zeta. set (p := e_ask E _ _). set (w2 := push _ w1). unfold ret at 1. apply (Go 0 p w2 [Still p]); [exact (during_trans D1 (eq_refl : during rekey w1 w2 [Still p]))|exact S1|]. cbn. constructor.
  - unfold bind at 1. rewrite ask_eq. cbv zeta. set (r := e_ask E _ _). set (w2 := push _ w1). unfold bind at 1. rewrite ask_eq. cbv zeta. set (p := e_ask E _ _). set (w3 := push _ w2). unfold ret at 1.
    assert (during rekey w w3 [Updated r; Still p]) as D3.
    { assert (during rekey w1 w3 [Updated r; Still p]) as X by (unfold during, w3, w2; cbn [push w_t collect rekey]; now rewrite <- app_assoc). exact (during_trans D1 X). }
    apply (Go r p w3 [Updated r; Still p]); [exact D3|exact S1|]. destruct (Z.eqb_spec r 0) as [Q|N]; [|now constructor]. rewrite Q. cbn [app]. constructor.
Qed.
(** *** One packet *)
Definition packet (w w' : world) (rc : Z) (l : list item) : Prop :=
  (l = [] /\ c_due (w_c w') = c_due (w_c w)) \/
  exists s c l', l = Drained s :: l' /\ settles (cb_event (c_cbs (w_c w))) (c_due (w_c w)) (c_prog (w_c w)) (s =? HE_STATE_ONLINE) c l' /\ (c <> HE_SUCCESS -> rc = c) /\ c_due (w_c w') = false.
Lemma messages_rekey w rc w' : handle_messages E hk w = Done rc w' -> exists l, during rekey w w' l /\ packet w w' rc l.
Proof.
  unfold handle_messages. unfold bind at 1. destruct (message_loop E hk (e_fuel E) w) as [rc1 w1|] eqn:R1; [|discriminate]. pose proof (loop_rekey R1) as F. clear R1.
  destruct (rc1 =? HE_SUCCESS); cbn [negb]; [|intros H; apply Done_inv in H as [_ <-]; destruct F as (D & Q & _); exists []; split; [exact D|now left]].
  destruct F as (D1 & Q1 & Q2 & Q3). set (s := c_state (w_c w1)) in *.
  unfold bind at 1, get at 1. unfold bind at 1. match goal with |- match ?m with _ => _ end = _ -> _ => destruct m as [rc2 w2|] eqn:R2; [|discriminate] end.
  assert (forall l c, during rekey w1 w' l -> c_due (w_c w') = false -> settles (cb_event (c_cbs (w_c w1))) (c_due (w_c w1)) (c_prog (w_c w1)) (s =? HE_STATE_ONLINE) c l -> (c <> HE_SUCCESS -> rc = c) ->
    exists l, during rekey w w' l /\ packet w w' rc l) as Go.
  { intros l c D Du Se Hc. exists (Drained s :: l). split; [exact (during_trans D1 D)|]. right. exists s, c, l. rewrite Q1, Q2, Q3 in Se. auto. }
  unfold settles in Go.
  destruct (c_due (w_c w1)) eqn:Du.
  - destruct (reneg_rekey R2) as (U2 & K2 & H2). clear R2. cbn [andb] in Go. destruct (c_prog (w_c w1)) eqn:Pr; cbn [orb] in H2.
    + destruct H2 as (-> & D2 & P2). intros H. change (negb (HE_SUCCESS =? HE_SUCCESS)) with false in H. cbv iota in H. destruct (check_rekey H) as (U3 & H3). rewrite P2, K2 in H3. destruct H3 as (l & En & D3).
      apply (Go l rc); [exact (during_trans D2 D3)|congruence|exact En|auto].
    + destruct (s =? HE_STATE_ONLINE) eqn:On; unfold s in On; rewrite On in H2; cbn [negb] in H2.
      * destruct H2 as (st & l & Bg & D2 & P2). destruct (rc2 =? HE_SUCCESS) eqn:Qc; cbn [negb].
        -- intros H. destruct (check_rekey H) as (U3 & H3). rewrite P2, K2 in H3. destruct st.
           ++ destruct H3 as (l2 & En & D3). apply (Go (l ++ l2) rc); [exact (during_trans D2 D3)|congruence| |auto]. exists true, rc2, l, l2. split; [exact Bg|]. split; [reflexivity|]. cbn [andb]. now rewrite Qc.
           ++ destruct H3 as (-> & D3). apply Z.eqb_eq in Qc. apply (Go (l ++ []) HE_SUCCESS); [exact (during_trans D2 D3)|congruence| |auto]. exists false, rc2, l, []. split; [exact Bg|]. split; [reflexivity|]. cbn. auto.
        -- intros H. apply Done_inv in H as [<- <-]. apply (Go l rc2); [exact D2|congruence| |auto]. exists st, rc2, l, []. split; [exact Bg|]. split; [now rewrite app_nil_r|]. rewrite Qc, andb_false_r. auto.
      * destruct H2 as (-> & D2 & P2). intros H. change (negb (HE_SUCCESS =? HE_SUCCESS)) with false in H. cbv iota in H. destruct (check_rekey H) as (U3 & H3). rewrite P2 in H3. destruct H3 as (-> & D3).
        apply (Go [] HE_SUCCESS); [exact (during_trans D2 D3)|congruence|auto|auto].
  - apply Done_inv in R2 as [<- <-]. cbn [andb] in Go. intros H. change (negb (HE_SUCCESS =? HE_SUCCESS)) with false in H. cbv iota in H. destruct (check_rekey H) as (U3 & H3). rewrite Du in U3.
    destruct (c_prog (w_c w1)).
    + destruct H3 as (l & En & D3). now apply (Go l rc).
    + destruct H3 as (-> & D3). now apply (Go [] HE_SUCCESS).
Qed.
Lemma packet_from w0 w w' rc l : fixed w0 w -> during rekey w w' l -> packet w w' rc l -> during rekey w0 w' l /\ packet w0 w' rc l.
Proof. intros (D & Q1 & Q2 & Q3) D2 P. split; [exact (during_trans D D2)|]. unfold packet in *. now rewrite Q1, Q2, Q3 in P. Qed.
Lemma packet_nil w w' rc : fixed w w' -> exists l, during rekey w w' l /\ packet w w' rc l.
Proof. intros (D & Q & _). exists []. split; [exact D|now left]. Qed.
Lemma verify_rekey w rc w' : verify_connection E hk w = Done rc w' -> exists l, during rekey w w' l /\ packet w w' rc l.
Proof.
  unfold verify_connection. unfold bind at 1, get at 1. unfold bind at 1.
  match goal with |- match ?m w with _ => _ end = _ -> _ => destruct (m w) as [u w1|] eqn:R1; [|discriminate]; assert (keeps (fixed w) T m) as K1 end.
  { case_if; [|apply keeps_ret]. apply keeps_bind; [apply keeps_upd; intros; apply F_conn; [intros; repeat split; reflexivity|assumption]|]. intros _. now apply F_gen. }
  pose proof (fixed_of K1 R1) as F1. clear K1 R1. unfold bind at 1, get at 1. destruct (_ =? _).
  2:{ intros H. destruct (messages_rekey H) as (l & D & P). exists l. exact (packet_from F1 D P). }
  unfold bind at 1. assert (keeps (fixed w) T (wolf_op E hk WNegotiate)) as Kn by (apply F_op; reflexivity). specialize (Kn w1 F1).
  destruct (wolf_op E hk WNegotiate w1) as [[[r err] d] w2|]; [|discriminate].
  destruct (negb (r =? SSL_SUCCESS)).
  - match goal with |- ?m w2 = _ -> _ => assert (keeps (fixed w) T m) as K end.
    { repeat (case_if; try apply keeps_ret).
      + apply keeps_bind; [apply keeps_upd; intros; apply F_conn; [intros; repeat split; reflexivity|assumption]|intros _; apply keeps_ret].
      + apply keeps_bind; [apply keeps_get|]. intros ct. apply keeps_bind; [apply keeps_when, F_timeout|intros _; apply keeps_ret]. }
    intros H. specialize (K w2 Kn). rewrite H in K. now apply packet_nil.
  - unfold bind at 1. pose proof (@F_change w HE_STATE_LINK_UP w2 Kn) as F3. destruct (change_conn_state E hk HE_STATE_LINK_UP w2) as [u2 w3|]; [|discriminate].
    intros H. destruct (messages_rekey H) as (l & D & P). exists l. exact (packet_from F3 D P).
Qed.
Lemma packet_then w w1 w' rc rc' l : packet w w1 rc l -> fixed w1 w' -> (rc <> HE_SUCCESS -> rc' = rc) -> packet w w' rc' l.
Proof.
  intros P (_ & Q & _) H. destruct P as [(X & Y)|(s & c & l' & X & Y & Z & U)]; [left; split; [exact X|congruence]|]. right. exists s, c, l'. split; [exact X|]. split; [exact Y|]. split; [|congruence].
  intros N. rewrite H; [auto|]. rewrite (Z N). exact N.
Qed.
Lemma outside_rekey b w rc w' : outside_data_received E hk b w = Done rc w' -> exists l, during rekey w w' l /\ packet w w' rc l.
Proof.
  unfold outside_data_received. unfold bind at 1, get at 1. case_if; [intros H; apply Done_inv in H as [_ <-]; apply packet_nil, fixed_refl|].
  unfold bind at 1. destruct (plugin_ingress E (c_out_chain (w_c w)) b (len b) w) as [[res d] w1|] eqn:R1; [|discriminate]. pose proof (fixed_of (F_plugin (w0 := w) (c_out_chain (w_c w)) b (len b)) R1) as F.
  case_if; [intros H; apply Done_inv in H as [_ <-]; now apply packet_nil|]. case_if; [intros H; apply Done_inv in H as [_ <-]; now apply packet_nil|]. case_if; [intros H; apply Done_inv in H as [_ <-]; now apply packet_nil|].
  unfold bind at 1, get at 1.
  assert (forall v v1 rc1 f v2, fixed w v -> verify_connection E hk v = Done rc1 v1 -> fixed (with_c (fun c => set_rx (f (c_rx c)) c) v1) v2 ->
    (rc1 <> HE_SUCCESS -> rc = rc1) -> exists l, during rekey w v2 l /\ packet w v2 rc l) as Main.
  { intros v v1 rc1 f v2 Fv H F2 Hc. destruct (verify_rekey H) as (l & D & P). destruct (packet_from Fv D P) as (D' & P'). exists l.
    assert (fixed v1 v2) as F3 by (destruct F2 as (X & Y); split; [exact X|exact Y]). split; [pose proof (during_trans D' (proj1 F3)) as X; now rewrite app_nil_r in X|]. exact (packet_then P' F3 Hc). }
  case_if; [|case_if; [|intros H; apply Done_inv in H as [_ <-]; now apply packet_nil]].
  - unfold outside_packet_received. case_if; [intros H; apply Done_inv in H as [_ <-]; now apply packet_nil|].
    unfold bind at 1. destruct (ld8 d 0) as [h0|]; [|discriminate]. cbn [lift]. unfold ret at 1. unfold bind at 1. destruct (ld8 d 1) as [h1|]; [|discriminate]. cbn [lift]. unfold ret at 1.
    case_if; [intros H; apply Done_inv in H as [_ <-]; now apply packet_nil|].
    unfold bind at 1. destruct (ld8 d 2) as [ma|]; [|discriminate]. cbn [lift]. unfold ret at 1. unfold bind at 1. destruct (ld8 d 3) as [mi|]; [|discriminate]. cbn [lift]. unfold ret at 1.
    unfold bind at 1, get at 1. case_if; [intros H; apply Done_inv in H as [_ <-]; now apply packet_nil|].
    unfold bind at 1. destruct (ldh64 (e_le E) d 8) as [s|]; [|discriminate]. cbn [lift]. unfold ret at 1.
    case_if; [intros H; apply Done_inv in H as [_ <-]; now apply packet_nil|].
    unfold bind at 1. destruct (ldn d sizeof_wire_hdr (len d - sizeof_wire_hdr)) as [body|]; [|discriminate]. cbn [lift]. unfold ret at 1.
    rewrite upd_first. unfold bind at 1. match goal with |- match verify_connection E hk ?v with _ => _ end = _ -> _ => assert (fixed w v) as Fv end.
    { apply F_conn; [intros; repeat split; reflexivity|exact F]. }
    destruct (verify_connection _ _ _) as [rc1 v1|] eqn:Ve; [|discriminate]. rewrite upd_first.
    destruct (negb (rc1 =? HE_SUCCESS)) eqn:Rc.
    + intros H. apply Done_inv in H as [<- <-]. apply (Main _ _ _ (set_rx_live false) _ Fv Ve (fixed_refl _)). auto.
    + apply negb_false_iff, Z.eqb_eq in Rc. intros H. apply (Main _ _ _ (set_rx_live false) _ Fv Ve); [exact (fixed_of (F_session (w0 := _) s) H)|contradiction].
  - unfold outside_stream_received. unfold bind at 1, get at 1. case_if.
    { rewrite upd_first. intros H. apply Done_inv in H as [_ <-]. apply packet_nil, F_conn; [intros; repeat split; reflexivity|exact F]. }
    rewrite upd_first. unfold bind at 1. match goal with |- match verify_connection E hk ?v with _ => _ end = _ -> _ => assert (fixed w v) as Fv end.
    { apply F_conn; [intros; repeat split; reflexivity|exact F]. }
    destruct (verify_connection _ _ _) as [rc1 v1|] eqn:Ve; [|discriminate]. rewrite upd_first. intros H. apply Done_inv in H as [<- <-].
    apply (Main _ _ _ (set_rx_live false) _ Fv Ve (fixed_refl _)). auto.
Qed.
End R.

(** *** Every other call *)
Section O.
Variable E : env.
Notation hk := (@ret unit tt).
Notation T := (fun _ : world => True).
Section K.
Variable w0 : world.
Definition still (w : world) : Prop := during rekey w0 w [] /\ c_due (w_c w) = c_due (w_c w0) /\ c_prog (w_c w) = c_prog (w_c w0).
Lemma S_push e w : (forall s, rekey s e = []) -> still w -> still (push e w).
Proof. intros H (A & B). split; [|exact B]. unfold during in *. cbn [push w_t collect]. now rewrite H, A, !app_nil_r. Qed.
Lemma S_conn f w : (forall c, c_due (f c) = c_due c /\ c_prog (f c) = c_prog c) -> still w -> still (with_c f w).
Proof. intros H (A & B & C). destruct (H (w_c w)) as (X & Y). split; [exact A|]. split; [exact (eq_trans X B)|exact (eq_trans Y C)]. Qed.
Lemma S_event e w : io_event e = false -> still w -> still (push e w).
Proof.
  intros H. apply S_push. intros s. destruct e; try reflexivity; try (destruct o; try reflexivity; discriminate H).
  - cbn in *. apply orb_false_iff in H as [H H2]. apply orb_false_iff in H as [_ H]. now rewrite H, H2.
  - destruct q; try reflexivity; discriminate H.
Qed.
Lemma S_configure x i p w : still w -> still (with_c (configure_fields x i p) w).
Proof. apply S_conn. intros c. unfold configure_fields. cbv zeta. repeat case_if; split; reflexivity. Qed.
Ltac kpush := apply S_push; [first [reflexivity|intros ?; match goal with o : wop |- _ => destruct o; first [reflexivity|congruence] end]|assumption].
Ltac kconn := apply S_conn; [intros; repeat split; reflexivity|assumption].
Ltac ks := intros; first [exact I|apply keeps_ret|now apply S_event|now apply S_configure|kpush|kconn|idtac].
Lemma S_read sz : keeps still T (io_read sz).
Proof. apply keeps_io_read; ks. Qed.
Lemma S_write b : keeps still T (io_write E hk b).
Proof. apply keeps_io_write; ks. Qed.
Ltac ks ::= intros; first [exact I|apply keeps_ret|apply S_read|apply S_write|now apply S_event|now apply S_configure|kpush|kconn|idtac].
Definition elsewhere (o : op) : bool := match o with OOutside _ | OScheduleReneg => false | _ => true end.
Lemma S_body o : elsewhere o = true -> keeps still T (api_body E hk o).
Proof.
  destruct o; intros U; try discriminate U; cbn [api_body].
  - apply keeps_client_connect; ks.
  - apply keeps_server_connect; ks.
  - apply keeps_disconnect; ks.
  - apply keeps_inside; ks.
  - apply keeps_nudge; ks.
  - apply keeps_keepalive; ks.
  - apply keeps_send_server_config; ks.
  - apply keeps_start_pmtu; ks.
  - apply keeps_pm_timeout; ks.
  - apply keeps_rotate; ks.
  - apply keeps_set_session; ks.
  - apply keeps_set_username; ks.
  - apply keeps_set_password; ks.
  - apply keeps_set_token; ks.
  - apply keeps_set_auth_buffer; ks.
  - apply keeps_set_mtu; ks.
  - apply keeps_bind; [apply keeps_upd; ks|intros _; apply keeps_ret].
  - apply keeps_set_sni; ks.
Qed.
End K.
End O.

(** *** The request in the log *)
Lemma body_log E o w rc w1 : api_body E (ret tt) o w = Done rc w1 -> exists seg, w_t w1 = seg ++ w_t w /\ Forall (fun x => host_event (snd x) = false) seg.
Proof.
  intros Bd. pose proof (@keeps_lib_body (fun v => exists seg, w_t v = seg ++ w_t w /\ Forall (fun x => host_event (snd x) = false) seg) E o) as K. specialize (fun a b => K a b w). rewrite Bd in K.
  apply K.
  - intros e v He [seg [H F]]. exists ((c_state (w_c v), e) :: seg). cbn [push w_t]. rewrite H. split; [reflexivity|]. constructor; [exact He|exact F].
  - auto.
  - exists []. split; [reflexivity|constructor].
Qed.
Lemma requested_seg seg t : Forall (fun x => host_event (snd x) = false) seg -> requested (seg ++ t) = if existsb (fun x => drained (snd x)) seg then false else requested t.
Proof.
  induction 1 as [|[s e] seg He _ IH]; [reflexivity|]. cbn [app existsb snd] in *. cbn [requested].
  assert (forall o rc, e <> ERet o rc) as N by (intros o rc ->; discriminate He).
  destruct e; try exact IH; try (destruct (N o rc eq_refl)).
  match goal with |- (if drained ?x then _ else _) = _ => destruct (drained x); [reflexivity|exact IH] end.
Qed.
Definition is_drained (i : item) : bool := match i with Drained _ => true | _ => false end.
Lemma seg_drained seg : existsb (fun x => drained (snd x)) seg = existsb is_drained (collect rekey seg).
Proof.
  induction seg as [|[s e] seg IH]; [reflexivity|]. cbn [collect existsb snd]. rewrite existsb_app, <- IH, orb_comm. f_equal.
  destruct e; try reflexivity; try (destruct q; reflexivity).
  - cbn. destruct (_ || _); reflexivity.
  - destruct o; try reflexivity. cbn [drained rekey]. destruct (_ && _); reflexivity.
Qed.
Lemma requested_call E o w rc w' l : call E o w rc w' -> during rekey w w' l ->
  requested (w_t w') = match o with OScheduleReneg => true | _ => if existsb is_drained l then false else requested (w_t w) end.
Proof.
  intros C D. destruct (call_body C) as (w1 & Bd & ->). destruct (body_log Bd) as (seg & Q & F). cbn [push w_t] in *.
  assert (requested (w_t w1) = if existsb is_drained l then false else requested (w_t w)) as R.
  { rewrite Q, (requested_seg _ F). assert (collect rekey seg = l) as <-.
    { unfold during in D. cbn [push w_t collect] in D. change (rekey (c_state (w_c w1)) (ERet o rc)) with (@nil item) in D. rewrite app_nil_r, Q, collect_app in D. cbn [collect] in D. change (rekey (c_state (w_c w)) (ECall o)) with (@nil item) in D. rewrite app_nil_r in D. exact (app_inv_head _ _ _ D). }
    rewrite <- seg_drained. reflexivity. }
  cbn [requested drained]. destruct o; try exact R. reflexivity.
Qed.
Lemma settles_undrained k a b c rc l : settles k a b c rc l -> existsb is_drained l = false.
Proof.
  assert (forall v, existsb is_drained (told k v) = false) as Tv by (intros v; unfold told; now destruct k).
  assert (forall p, existsb is_drained (if_over k p) = false) as Io by (intros p; unfold if_over; destruct (p =? 0); [apply Tv|reflexivity]).
  assert (forall rc l, ends k rc l -> existsb is_drained l = false) as En by (intros c0 l0 []; cbn; auto).
  unfold settles. destruct b; [apply En|]. destruct (a && c); [|now intros (_ & ->)]. intros (st & c0 & l1 & l2 & Bg & -> & H). rewrite existsb_app. apply orb_false_iff. split.
  - destruct Bg; cbn; auto.
  - destruct (st && (c0 =? HE_SUCCESS)); [now apply (En rc)|]. destruct H as (_ & ->). reflexivity.
Qed.
(** Of one call. *)
Lemma other_call E o w rc w' : elsewhere o = true -> call E o w rc w' -> during rekey w w' [] /\ c_due (w_c w') = c_due (w_c w).
Proof.
  intros El C. destruct (call_body C) as (w1 & Bd & ->). set (w0 := push (ECall o) w) in *.
  assert (still w0 w0) as S0 by (split; [unfold during; now rewrite app_nil_r|auto]). pose proof (S_body E (w0 := w0) El S0) as K. rewrite Bd in K. destruct K as (D & Du & _).
  split; [|exact Du]. apply during_call; [reflexivity|reflexivity|exact D].
Qed.
Lemma schedule_call E w rc w' : call E OScheduleReneg w rc w' -> rc = HE_SUCCESS /\ during rekey w w' [] /\ c_due (w_c w') = true.
Proof.
  intros C. destruct (call_body C) as (w1 & Bd & ->). cbn [api_body] in Bd. rewrite upd_first in Bd. apply Done_inv in Bd as [<- <-]. split; [reflexivity|]. split; [|reflexivity].
  apply during_call; [reflexivity|reflexivity|]. unfold during. cbn [with_c push w_t]. now rewrite app_nil_r.
Qed.
Lemma outside_call E b w rc w' : call E (OOutside b) w rc w' -> exists l, during rekey w w' l /\ packet w w' rc l.
Proof.
  intros C. destruct (call_body C) as (w1 & Bd & ->). cbn [api_body] in Bd. destruct (outside_rekey Bd) as (l & D & P). exists l.
  split; [apply during_call; [reflexivity|reflexivity|exact D]|exact P].
Qed.
Lemma due_reached E w : reached E w -> c_due (w_c w) = requested (w_t w).
Proof.
  revert w. apply CredProofs.reached_ind; [reflexivity|]. intros w o rc w' Re IH C.
  destruct (elsewhere o) eqn:El.
  - destruct (other_call El C) as (D & Du). rewrite (requested_call C D). cbn [existsb]. rewrite Du, IH. destruct o; try reflexivity; discriminate El.
  - destruct o; try discriminate El.
    + destruct (outside_call C) as (l & D & P). rewrite (requested_call C D). destruct P as [(-> & Du)|(s & c & l' & -> & _ & _ & Du)]; [cbn [existsb]; congruence|exact Du].
    + destruct (schedule_call C) as (_ & D & Du). now rewrite (requested_call C D).
Qed.

(** ** C56 *)
(** A received packet, or received bytes of a stream.  If at some moment wolfSSL has
    handed over everything (there is at most one such moment in a call), then: a
    rekeying that is going on is looked after; otherwise, if the host has asked for
    one and the connection is ONLINE at that moment, it is begun, the host is told,
    and the request is used up; otherwise nothing happens.  Without such a moment
    nothing happens.  [c] is the code of this; if it is an error, the call returns it. *)
Theorem C56_packet : forall E b w rc w', reached E w -> call E (OOutside b) w rc w' ->
  exists l, during rekey w w' l /\
    (l = [] \/
     exists s c l', l = Drained s :: l' /\ (c <> HE_SUCCESS -> rc = c) /\
       settles (cb_event (c_cbs (w_c w))) (requested (w_t w)) (renegotiating (w_t w)) (s =? HE_STATE_ONLINE) c l').
Proof.
  intros E b w rc w' Re C. destruct (outside_call C) as (l & D & P). exists l. split; [exact D|].
  rewrite <- (due_reached Re). destruct (TJ_reached Re) as (_ & <- & _).
  destruct P as [(-> & _)|(s & c & l' & -> & Se & Hc & _)]; [now left|]. right. exists s, c, l'. auto.
Qed.
Print Assumptions C56_packet.
(** No other call rekeys, or tells of it; asking for it does nothing but register the
    request, and never fails. *)
Theorem C56_elsewhere : forall E o w rc w', (forall b, o <> OOutside b) -> call E o w rc w' ->
  during rekey w w' [] /\ (o = OScheduleReneg -> rc = HE_SUCCESS).
Proof.
  intros E o w rc w' N C. destruct (elsewhere o) eqn:El.
  - split; [exact (proj1 (other_call El C))|]. intros ->. discriminate El.
  - destruct o; try discriminate El; [now destruct (N buffer)|]. destruct (schedule_call C) as (Q & D & _). auto.
Qed.
Print Assumptions C56_elsewhere.
(** So a request is kept through every call that does not come to such a moment. *)
Theorem C56_kept : forall E o w rc w' l, call E o w rc w' -> during rekey w w' l -> requested (w_t w) = true -> requested (w_t w') = false ->
  exists s l', l = Drained s :: l'.
Proof.
  intros E o w rc w' l C D R N. rewrite (requested_call C D) in N. destruct (elsewhere o) eqn:El.
  - destruct (other_call El C) as (D0 & _). rewrite (during_unique D D0) in N. cbn [existsb] in N. destruct o; congruence.
  - destruct o; try discriminate El; [|discriminate N]. destruct (outside_call C) as (l0 & D0 & P). rewrite (during_unique D D0) in *. clear l D.
    destruct P as [(-> & _)|(s & c & l' & -> & _)]; [cbn in N; congruence|]. eauto.
Qed.
Print Assumptions C56_kept.

(** *** The right method for the version *)
Section V.
Variable E : env.
Notation hk := (@ret unit tt).
Notation T := (fun _ : world => True).
Definition RM (w : world) : Prop := every (fun _ e past => right_method e past) (w_t w).
Lemma V_push e w : (forall past, right_method e past) -> RM w -> RM (push e w).
Proof. intros H Hw. split; [apply H|exact Hw]. Qed.
Lemma V_event e w : io_event e = false -> RM w -> RM (push e w).
Proof. intros H. apply V_push. intros past. destruct e; try exact I; try (destruct o; try exact I; discriminate H). destruct q; try exact I; discriminate H. Qed.
Lemma V_conn f w : RM w -> RM (with_c f w).
Proof. exact (fun H => H). Qed.
Ltac kpush := apply V_push; [intros ?; first [exact I|match goal with o : wop |- _ => destruct o; first [exact I|congruence] end]|assumption].
Ltac ks := intros; first [exact I|apply keeps_ret|now apply V_event|kpush|now apply V_conn|idtac].
Lemma V_read sz : keeps RM T (io_read sz).
Proof. apply keeps_io_read; ks. Qed.
Lemma V_write b : keeps RM T (io_write E hk b).
Proof. apply keeps_io_write; ks. Qed.
Ltac ks ::= intros; first [exact I|apply keeps_ret|apply V_read|apply V_write|now apply V_event|kpush|now apply V_conn|idtac].
Lemma V_ask q : (forall r past, right_method (EAsk q r) past) -> keeps RM T (ask E q).
Proof. intros H. unfold ask. apply keeps_bind; [apply keeps_log|]. intros t. apply keeps_bind; [apply keeps_emit; intros; apply V_push; auto|intros _; apply keeps_ret]. Qed.
Lemma V_op o : (forall r err d past, right_method (EWEnd o r err d) past) -> keeps RM T (wolf_op E hk o).
Proof. intros N. apply keeps_wolf_op'; ks. Qed.
Lemma V_timeout : keeps RM T (update_timeout E hk).
Proof. apply keeps_update_timeout; ks. Qed.
Lemma V_gen v : keeps RM T (generate_event hk v).
Proof. apply keeps_generate_event; ks. Qed.
Lemma io_past s seg t : io_seg s seg -> every (fun _ e past => right_method e past) t -> every (fun _ e past => right_method e past) (seg ++ t) /\ last_version (seg ++ t) = last_version t.
Proof.
  intros F H. induction F as [|[s' e] seg [_ He] _ [IH1 IH2]]; [auto|]. cbn [app snd] in *. split.
  - split; [|exact IH1]. destruct e; try exact I; discriminate He.
  - rewrite <- IH2. destruct e; try reflexivity; discriminate He.
Qed.
Lemma V_end o r err d w w' : RM w -> (forall past, last_version past = last_version (w_t w) -> right_method (EWEnd o r err d) past) -> wolf_op E hk o w = Done (r, err, d) w' -> RM w'.
Proof.
  intros Hw H R. apply wolf_op_seq in R as (rx & seg & -> & F). destruct (@io_past _ seg ((c_state (w_c w), EWOp o) :: w_t w) F) as (X & Y); [split; [exact I|exact Hw]|].
  split; [|exact X]. apply H. exact Y.
Qed.
Lemma V_reneg : keeps RM T (renegotiate_ssl E hk).
Proof.
  intros w Hw. unfold renegotiate_ssl. rewrite upd_first. unfold bind at 1, get at 1. unfold bind at 1, get at 1. case_if; [exact Hw|].
  ver. unfold bind at 1. rewrite ask_eq. cbv zeta. set (v := e_ask E _ _). set (w1 := push _ _). assert (RM w1) as H1 by (split; [exact I|exact Hw]). assert (last_version (w_t w1) = Some v) as L1 by reflexivity. clearbody w1 v.
  unfold bind at 1.
  assert (forall o sup w2, RM w2 -> (forall r err d past, last_version past = last_version (w_t w2) -> right_method (EWEnd o r err d) past) -> match
    (if sup =? 0 then ret HE_SUCCESS else
     let! (r, err, _) := wolf_op E hk o in
     upd (set_prog true) ;;;
     generate_event hk HE_EVENT_SECURE_RENEGOTIATION_STARTED ;;;
     if negb (r =? SSL_SUCCESS) then
       if (err =? SSL_ERROR_NONE) || (err =? SSL_ERROR_WANT_READ) || (err =? SSL_ERROR_WANT_WRITE) || (err =? APP_DATA_READY)
       then update_timeout E hk ;;; ret HE_SUCCESS
       else if err =? SECURE_RENEGOTIATION_E then ret HE_ERR_SECURE_RENEGOTIATION_ERROR
       else upd (set_wolf_err err) ;;; ret HE_ERR_SSL_ERROR
     else ret HE_SUCCESS) w2 with Done _ w' => RM w' | Stuck _ _ => True end) as Go.
  { intros o sup w2 H2 Hm. case_if; [exact H2|]. unfold bind at 1. destruct (wolf_op E hk o w2) as [[[r err] d] w3|] eqn:R3; [|exact I]. pose proof (V_end H2 (Hm r err d) R3) as H3.
    match goal with |- match ?m w3 with _ => _ end => assert (keeps RM T m) as K; [|exact (K w3 H3)] end.
    apply keeps_bind; [apply keeps_upd; ks|]. intros _. apply keeps_bind; [apply V_gen|]. intros _. repeat case_if; try apply keeps_ret; (apply keeps_bind; [first [exact V_timeout|apply keeps_upd; ks]|intros _; apply keeps_ret]). }
  destruct (Z.eqb_spec v DTLS1_2_VERSION) as [Q|N].
  - rewrite ask_eq. cbv zeta. apply (Go WRehandshake).
    + split; [cbn; congruence|exact H1].
    + intros r err d past Lp. cbn [push w_t last_version] in Lp. cbn. congruence.
  - unfold ret at 1. apply (Go WUpdateKeys 1 w1); [exact H1|]. intros r err d past Lp. cbn. exists v. split; [congruence|exact N].
Qed.
Lemma V_check : keeps RM T (check_renegotiation E hk).
Proof.
  intros w Hw. unfold check_renegotiation. unfold bind at 1, get at 1. case_if; [exact Hw|].
  ver. unfold bind at 1. rewrite ask_eq. cbv zeta. set (v := e_ask E _ _). set (w1 := push _ _). assert (RM w1) as H1 by (split; [exact I|exact Hw]). assert (last_version (w_t w1) = Some v) as L1 by reflexivity. clearbody w1 v.
  unfold bind at 1. match goal with |- match match ?m w1 with _ => _ end with _ => _ end => assert (match m w1 with Done _ w2 => RM w2 | Stuck _ _ => True end) as H2 end.
  { destruct (Z.eqb_spec v DTLS1_2_VERSION) as [Q|N].
    - unfold bind at 1. rewrite ask_eq. split; [cbn; congruence|exact H1].
    - unfold bind at 1. rewrite ask_eq. unfold bind at 1. rewrite ask_eq. split; [exists v; split; [exact L1|exact N]|]. split; [exists v; split; [exact L1|exact N]|exact H1]. }
  match goal with |- match match ?m w1 with _ => _ end with _ => _ end => destruct (m w1) as [[rc p] w2|]; [|exact I] end.
  match goal with |- match ?m w2 with _ => _ end => assert (keeps RM T m) as K; [|exact (K w2 H2)] end.
  case_if. { apply keeps_bind; [apply V_ask; intros; exact I|]. intros e. apply keeps_bind; [apply keeps_upd; ks|intros _; apply keeps_ret]. }
  apply keeps_bind; [apply keeps_when, V_gen|]. intros _. apply keeps_bind; [apply keeps_upd; ks|]. intros _. apply keeps_bind; [exact V_timeout|intros _; apply keeps_ret].
Qed.
Lemma V_verify : keeps RM T (verify_connection E hk).
Proof.
  apply verify_kept; try (intros; apply keeps_upd; ks).
  - intros w r err d w' Hw R. assert (keeps RM T (wolf_op E hk WRecv)) as Ko by (apply V_op; intros; exact I). pose proof (Ko w Hw) as K. rewrite R in K. case_if; [exact K|].
    assert (keeps RM T (process_message E hk d)) as Kp by (apply keeps_process; ks). exact (Kp w' K).
  - apply V_gen.
  - apply V_op; intros; exact I.
  - apply keeps_change_conn_state; ks.
  - exact V_timeout.
  - exact V_reneg.
  - exact V_check.
Qed.
Lemma V_body o : keeps RM T (api_body E hk o).
Proof.
  assert ((forall b, o <> OOutside b) -> keeps RM T (api_body E hk o)) as Other.
  { intros N. apply keeps_api_body; ks; [apply keeps_server_connect; ks|apply N]. }
  destruct o; try (apply Other; discriminate). cbn [api_body].
  apply outside_kept; intros; [apply keeps_plugin_ingress; ks|apply keeps_upd; ks|apply keeps_upd; ks|exact V_verify|apply keeps_session_in; ks].
Qed.
End V.
(** Renegotiation (whether it is possible, its beginning, whether it is over) only
    with DTLS 1.2, key updates only with anything else, according to what wolfSSL
    said when it was last asked for its version. *)
Theorem C56_method : forall E w, reached E w -> every (fun _ e past => right_method e past) (w_t w).
Proof.
  intros E. apply CredProofs.reached_ind; [exact I|]. intros w o rc w' _ IH C. destruct (call_body C) as (w1 & Bd & ->).
  assert (RM (push (ECall o) w)) as H0 by (split; [exact I|exact IH]). pose proof (V_body E o H0) as K. rewrite Bd in K. split; [exact I|exact K].
Qed.
Print Assumptions C56_method.

(** ** A request can be lost *)
(** What a user of the call expects: after it has returned success, if the
    connection is ONLINE later on and wolfSSL then has nothing more to hand over
    (so that the library looks at requests), a rekeying begins sooner or later, or
    wolfSSL is asked whether it can.  It does not: a request made while the client
    logs in is dropped at the next packet, because the connection is not ONLINE yet. *)
Definition online_moments (l : list item) : nat := length (filter (fun i => match i with Drained s => s =? HE_STATE_ONLINE | _ => false end) l).
Definition attempts (l : list item) : nat := length (filter (fun i => match i with Begun _ _ _ | Support _ => true | _ => false end) l).
Definition lost_ops (n : nat) : list op :=
  client_setup ++ [OClientConnect dctx [] []; OOutside (dgram 0 []); OScheduleReneg; OOutside (dgram 0 []); OOutside (dgram 0 (config_message true (ip 1) (ip 2) (ip 3) 4660))] ++ repeat (OOutside (dgram 4660 [])) n.
Theorem C56_lost_refuted :
  let w := world_at (lost_ops 3) in
  reached plain_env w /\ c_state (w_c w) = HE_STATE_ONLINE /\
  In (HE_STATE_AUTHENTICATING, ERet OScheduleReneg HE_SUCCESS) (w_t w) /\
  attempts (collect rekey (w_t w)) = 0%nat /\ requested (w_t w) = false /\
  (3 <= online_moments (collect rekey (w_t w)))%nat.
Proof. cbv zeta. split; [apply (@world_at_reached (lost_ops 3)); vm_compute; reflexivity|]. conj; vm_compute; first [reflexivity|tauto|repeat constructor]. Qed.
Print Assumptions C56_lost_refuted.

(** ** Examples *)
(** A request on an ONLINE connection, and the packet after it (DTLS 1.2). *)
Example C56_example :
  let w := world_at (client_up ++ [OScheduleReneg]) in let v := world_at (client_up ++ [OScheduleReneg; OOutside (dgram 4660 [])]) in
  reached plain_env w /\ call plain_env (OOutside (dgram 4660 [])) w HE_SUCCESS v /\ cb_event (c_cbs (w_c w)) = true /\
  requested (w_t w) = true /\ renegotiating (w_t w) = false /\ requested (w_t v) = false /\
  during rekey w v [Drained HE_STATE_ONLINE; Support 1; Begun WRehandshake 1 0; Told HE_EVENT_SECURE_RENEGOTIATION_STARTED;
                    Still 0; Told HE_EVENT_SECURE_RENEGOTIATION_COMPLETED].
Proof. cbv zeta. split; [apply (@world_at_reached (client_up ++ [OScheduleReneg])); vm_compute; reflexivity|]. conj; vm_compute; reflexivity. Qed.
(** The same with DTLS 1.3, which is not over at once; a second request meanwhile. *)
Example C56_example_keys :
  let w := world_of (run quick_env 0 (client_up ++ [OScheduleReneg]) world_new) in
  let v := world_of (run quick_env 0 (client_up ++ [OScheduleReneg; OOutside (dgram 0 [1])]) world_new) in
  let w1 := world_of (run quick_env 0 (client_up ++ [OScheduleReneg; OOutside (dgram 0 [1]); OScheduleReneg]) world_new) in
  let v1 := world_of (run quick_env 0 (client_up ++ [OScheduleReneg; OOutside (dgram 0 [1]); OScheduleReneg; OOutside (dgram 0 [1])]) world_new) in
  reached quick_env w /\ call quick_env (OOutside (dgram 0 [1])) w HE_SUCCESS v /\ renegotiating (w_t v) = true /\
  (exists l, during rekey w v (Drained HE_STATE_ONLINE :: Begun WUpdateKeys 1 0 :: l)) /\
  reached quick_env w1 /\ requested (w_t w1) = true /\ call quick_env (OOutside (dgram 0 [1])) w1 HE_SUCCESS v1 /\ requested (w_t v1) = false /\
  during rekey w1 v1 [Drained HE_STATE_ONLINE; Updated 0; Still 1].
Proof.
  cbv zeta. split; [exists (client_up ++ [OScheduleReneg]); vm_compute; reflexivity|]. split; [vm_compute; reflexivity|]. split; [vm_compute; reflexivity|].
  split; [exists [Told HE_EVENT_SECURE_RENEGOTIATION_STARTED; Updated 0; Still 1]; vm_compute; reflexivity|].
  split; [exists (client_up ++ [OScheduleReneg; OOutside (dgram 0 [1]); OScheduleReneg]); vm_compute; reflexivity|]. conj; vm_compute; reflexivity.
Qed.
