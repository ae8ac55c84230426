(** C25: fatal and transient results. *)
From Verif Require Import Base Codes Ctx Config Mss Frag Wire WireSpec WireProofs ConnState Conn ConnSpec MsgSpec CallSpec.
From Verif Require Import ConnSteps ConnWp ConnWpApi Frame FrameLoop Reaction Seq SeqInside SeqOutside SeqApi SeqLoop SeqWire.
From Verif Require Import Scenario Props_Data Props_Wire PlugSpec SeqPlug Props_Plug ReadSpec Props_Safe Props_Read SessSpec Props_Session FatalSpec.
Unset Strict Implicit.

(** The classification is the documented list, for every integer. *)
Theorem C25_codes : forall ctype code, is_error_fatal ctype code = false <-> In code (transient (ctype =? HE_CONNECTION_TYPE_STREAM)).
Proof.
  intros ctype code. unfold is_error_fatal, transient.
  assert (forall l, negb (existsb (Z.eqb code) l) = false <-> In code l) as H.
  { intros l. rewrite negb_false_iff, existsb_exists. split; [intros (x & Hx & E); apply Z.eqb_eq in E; congruence|]. intros Hx. exists code. split; [exact Hx|apply Z.eqb_refl]. }
  destruct (ctype =? HE_CONNECTION_TYPE_STREAM); rewrite H; cbn [In app]; tauto.
Qed.
Print Assumptions C25_codes.

(** *** Datagrams that TLS makes nothing of *)
Section N.
Variable E : env.
Notation hk := (@ret unit tt).
Notation T := (fun _ : world => True).
Variable n : nat.
Variable F0 : list Z.
(** A message was decrypted. *)
Definition Tb (w : world) : Prop := (n < length (collect got_msg (w_t w)))%nat.
Lemma Tb_push e w : Tb w -> Tb (push e w).
Proof. unfold Tb. cbn [push w_t collect]. rewrite app_length. lia. Qed.
Ltac kt := intros; first [exact I|apply keeps_ret|now apply Tb_push|assumption|idtac].
Lemma Tb_read sz : keeps Tb T (io_read sz).
Proof. apply keeps_io_read; kt. Qed.
Lemma Tb_write b : keeps Tb T (io_write E hk b).
Proof. apply keeps_io_write; kt. Qed.
Ltac kt ::= intros; first [exact I|apply keeps_ret|apply Tb_read|apply Tb_write|now apply Tb_push|assumption|idtac].
Lemma Tb_process m : keeps Tb T (process_message E hk m).
Proof. apply keeps_process; kt. Qed.
Lemma Tb_loop fuel : keeps Tb T (message_loop E hk fuel).
Proof. apply keeps_loop; kt. Qed.
Lemma Tb_reneg : keeps Tb T (renegotiate_ssl E hk).
Proof. apply keeps_renegotiate; kt. Qed.
Lemma Tb_check : keeps Tb T (check_renegotiation E hk).
Proof. apply keeps_check; kt. Qed.

Definition J (w : world) : Prop := c_ctype (w_c w) = HE_CONNECTION_TYPE_DATAGRAM /\ (n <= length (collect got_msg (w_t w)))%nat /\ exists fs, collect tls_failure (w_t w) = F0 ++ fs.
Lemma J_push e w : J w -> J (push e w).
Proof.
  intros (A & B & fs & C). split; [exact A|]. cbn [push w_t collect]. rewrite app_length. split; [lia|]. exists (fs ++ tls_failure (c_state (w_c w)) e). now rewrite C, app_assoc.
Qed.
Lemma J_conn f w : (forall c, c_ctype (f c) = c_ctype c) -> J w -> J (with_c f w).
Proof. intros H (A & B & C). split; [cbn [with_c w_c]; now rewrite H|]. auto. Qed.
Ltac kj := intros; first [exact I|apply keeps_ret|now apply J_push|(apply J_conn; [reflexivity|assumption])|idtac].
Lemma J_read sz : keeps J T (io_read sz).
Proof. apply keeps_io_read; kj. Qed.
Lemma J_write b : keeps J T (io_write E hk b).
Proof. apply keeps_io_write; kj. Qed.
Ltac kj ::= intros; first [exact I|apply keeps_ret|apply J_read|apply J_write|now apply J_push|(apply J_conn; [reflexivity|assumption])|idtac].
Definition fine (rc : Z) (w : world) : Prop :=
  In rc (transient false) \/ Tb w \/ exists fs, collect tls_failure (w_t w) = F0 ++ fs /\ In rc fs.
Lemma wolf_end o w r err d w' : wolf_op E hk o w = Done (r, err, d) w' -> J w ->
  J w' /\ (exists fs, collect tls_failure (w_t w') = F0 ++ fs ++ tls_failure (c_state (w_c w')) (EWEnd o r err d)) /\
  (o = WRecv -> 0 < r -> Tb w').
Proof.
  intros R Hw. assert (exists v, J v /\ w' = push (EWEnd o r err d) v) as (v & Hv & ->).
  { revert R. unfold wolf_op. unfold bind at 1, emit at 1. fold (push (EWOp o) w). set (w0 := push _ w). assert (J w0) as H0 by (now apply J_push). clearbody w0.
    unfold bind at 1, get at 1. unfold bind at 1.
    match goal with |- (match ?m w0 with _ => _ end) = _ -> _ => assert (keeps J T m) as K end.
    { case_if; [|apply keeps_ret]. apply keeps_bind; [apply keeps_log|]. intros t. apply keeps_bind; [apply keeps_strat; kj|]. intros [[a b] c]. apply keeps_ret. }
    specialize (K w0 H0). match goal with |- (match ?m with _ => _ end) = _ -> _ => destruct m as [[[r1 e1] d1] v|]; [|discriminate] end.
    unfold bind, emit, ret. intros H. apply Done_inv in H. destruct H as [H <-]. injection H as <- <- <-. exists v. split; [exact K|reflexivity]. }
  split; [now apply J_push|]. destruct Hv as (A & B & fs & C). split.
  - exists fs. cbn [push w_t collect w_c]. now rewrite C, app_assoc.
  - intros -> Hr. unfold Tb. cbn [push w_t collect got_msg]. destruct (Z.ltb_spec 0 r); [|lia]. rewrite app_length. cbn. lia.
Qed.
Lemma fetch_fine fuel : forall w, J w -> match fetch_message E hk fuel w with
  | Done (rc, None) w' => J w' /\ fine rc w'
  | Done (rc, Some _) w' => rc = HE_SUCCESS /\ Tb w'
  | Stuck _ _ => True end.
Proof.
  induction fuel as [|fuel IH]; intros w Hw; cbn [fetch_message]; [exact I|]. unfold bind at 1. destruct (wolf_op E hk WRecv w) as [[[r err] d] w'|] eqn:R; [|exact I].
  destruct (wolf_end R Hw) as (Hj & (fs & Hf) & Ht). destruct (Z.leb_spec r 0) as [Hr|Hr]; [|split; [reflexivity|now apply Ht]]. cbn [tls_failure] in Hf.
  assert (J w' /\ fine HE_SUCCESS w') as Ok by (split; [exact Hj|left; cbn; tauto]).
  destruct (err =? SSL_ERROR_NONE); [exact Ok|]. destruct (err =? APP_DATA_READY); [now apply IH|]. destruct (err =? SSL_ERROR_WANT_READ); [exact Ok|]. destruct (err =? SSL_ERROR_WANT_WRITE); [exact Ok|]. cbn [orb] in *.
  destruct (r =? 0); cbn [negb] in Hf.
  - split; [exact Hj|]. right; right. exists (fs ++ [HE_ERR_CONNECTION_WAS_CLOSED]). split; [exact Hf|]. apply in_or_app. right. now left.
  - unfold bind, upd, get, ret. cbn [w_c set_wolf_err c_ctype]. destruct Hj as (A & B). rewrite A. split; [split; [exact A|exact B]|]. left. cbn. tauto.
Qed.
Lemma loop_fine fuel w : J w -> match message_loop E hk fuel w with Done rc w' => (J w' \/ Tb w') /\ fine rc w' | Stuck _ _ => True end.
Proof.
  intros Hw. destruct fuel as [|fuel]; cbn [message_loop]; [exact I|]. unfold bind at 1. pose proof (@fetch_fine (e_fuel E) w Hw) as F. destruct (fetch_message E hk (e_fuel E) w) as [[rc [d|]] w1|]; [| |exact I].
  - destruct F as [-> Ht]. change (negb (HE_SUCCESS =? HE_SUCCESS)) with false. cbv iota. unfold bind. pose proof (@Tb_process d w1 Ht) as P. destruct (process_message E hk d w1) as [rc2 w2|]; [|exact I].
    destruct (negb _); [split; [now right|right; now left]|]. pose proof (@Tb_loop fuel w2 P) as L. destruct (message_loop E hk fuel w2); [|exact I]. split; [now right|right; now left].
  - destruct F as [Fj Ff]. destruct (Z.eqb_spec rc HE_SUCCESS) as [->|N]; cbn [negb]; (split; [now left|exact Ff]).
Qed.
Lemma reneg_fine w : J w -> match renegotiate_ssl E hk w with Done rc w' => J w' /\ fine rc w' | Stuck _ _ => True end.
Proof.
  intros Hw. unfold renegotiate_ssl. unfold bind at 1, upd at 1. assert (J (World (set_due false (w_c w)) (w_t w))) as H0 by (apply (@J_conn (set_due false)); [reflexivity|exact Hw]). set (w0 := World _ _) in *. clearbody w0.
  unfold bind at 1, get at 1. unfold bind at 1, get at 1. assert (forall v, J v -> J v /\ fine HE_SUCCESS v) as Ok by (intros v Hv; split; [exact Hv|left; cbn; tauto]).
  destruct (_ || _); [now apply Ok|]. ver. unfold bind at 1. pose proof (@keeps_ask E J T ltac:(kj) QVersion ltac:(reflexivity) w0 H0) as K1. destruct (ask E QVersion w0) as [v w1|]; [|exact I].
  unfold bind at 1. assert (keeps J T (if v =? DTLS1_2_VERSION then ask E QRenegSupport else ret 1)) as K2 by (case_if; [apply keeps_qsupport; kj|apply keeps_ret]). specialize (K2 w1 K1).
  match goal with |- match (match ?m with _ => _ end) with _ => _ end => destruct m as [sup w2|]; [|exact I] end. destruct (sup =? 0); [now apply Ok|].
  unfold bind at 1. match goal with |- match (match ?m with _ => _ end) with _ => _ end => destruct m as [[[r err] d] w3|] eqn:R; [|exact I] end.
  destruct (wolf_end R K2) as (Hj & (fs & Hf) & _). unfold bind at 1, upd at 1. set (w4 := World _ _).
  assert (J w4) as J4 by (apply (@J_conn (set_prog true)); [reflexivity|exact Hj]).
  assert (collect tls_failure (w_t w4) = collect tls_failure (w_t w3)) as C4 by reflexivity. clearbody w4.
  unfold bind at 1. assert (match generate_event hk HE_EVENT_SECURE_RENEGOTIATION_STARTED w4 with Done _ w5 => J w5 /\ collect tls_failure (w_t w5) = collect tls_failure (w_t w3) | Stuck _ _ => True end) as G.
  { unfold generate_event, notify, when, bind, get, emit, ret. destruct (cb_event _); (split; [|cbn [w_t collect tls_failure]; now rewrite ?app_nil_r]); [now apply (@J_push (EEvent HE_EVENT_SECURE_RENEGOTIATION_STARTED))|exact J4]. }
  destruct (generate_event hk HE_EVENT_SECURE_RENEGOTIATION_STARTED w4) as [u w5|]; [|exact I]. destruct G as [J5 C5].
  assert (tls_failure (c_state (w_c w3)) (EWEnd (if v =? DTLS1_2_VERSION then WRehandshake else WUpdateKeys) r err d) =
    if (r =? SSL_SUCCESS) || (err =? SSL_ERROR_NONE) || (err =? SSL_ERROR_WANT_READ) || (err =? SSL_ERROR_WANT_WRITE) || (err =? APP_DATA_READY) || (err =? SECURE_RENEGOTIATION_E) then [] else [HE_ERR_SSL_ERROR]) as Tf.
  { destruct (v =? DTLS1_2_VERSION); reflexivity. }
  rewrite Tf in Hf. clear Tf. destruct (r =? SSL_SUCCESS); cbn [negb orb] in *; [now apply Ok|].
  destruct (err =? SSL_ERROR_NONE); cbn [orb] in *; [|destruct (err =? SSL_ERROR_WANT_READ); cbn [orb] in *; [|destruct (err =? SSL_ERROR_WANT_WRITE); cbn [orb] in *; [|destruct (err =? APP_DATA_READY); cbn [orb] in *]]].
  1-4: unfold bind at 1; assert (keeps J T (update_timeout E hk)) as K by (apply keeps_update_timeout; kj); specialize (K w5 J5); destruct (update_timeout E hk w5); [|exact I]; now apply Ok.
  destruct (err =? SECURE_RENEGOTIATION_E); [split; [exact J5|left; cbn; tauto]|].
  unfold bind, upd, ret. split; [apply (@J_conn (set_wolf_err err)); [reflexivity|exact J5]|]. right; right. exists (fs ++ [HE_ERR_SSL_ERROR]). cbn [w_t]. split; [rewrite C5; exact Hf|]. apply in_or_app. right. now left.
Qed.
Lemma check_fine w : J w -> match check_renegotiation E hk w with Done rc w' => J w' /\ fine rc w' | Stuck _ _ => True end.
Proof.
  intros Hw. unfold check_renegotiation. unfold bind at 1, get at 1. assert (forall v, J v -> J v /\ fine HE_SUCCESS v) as Ok by (intros v Hv; split; [exact Hv|left; cbn; tauto]).
  destruct (negb _); [now apply Ok|]. ver. unfold bind at 1. pose proof (@keeps_ask E J T ltac:(kj) QVersion ltac:(reflexivity) w Hw) as K1. destruct (ask E QVersion w) as [v w1|]; [|exact I].
  unfold bind at 1.
  assert (match (if v =? DTLS1_2_VERSION then let! p := ask E QRenegPending in ret (0, p) else let! rc := ask E QKeyUpdate in let! p := ask E QKeyUpdatePending in ret (rc, p)) w1 with
    | Done (rc, _) w2 => J w2 /\ (rc <> 0 -> exists fs, collect tls_failure (w_t w2) = F0 ++ fs /\ In HE_ERR_SSL_ERROR fs) | Stuck _ _ => True end) as H.
  { destruct (v =? DTLS1_2_VERSION).
    - unfold bind, ask, log, emit, ret. split; [now apply (@J_push (EAsk QRenegPending _))|]. intros Y. now destruct Y.
    - unfold bind, ask, bind, log, emit, ret. split; [apply (@J_push (EAsk QKeyUpdatePending _)), (@J_push (EAsk QKeyUpdate _)); exact K1|]. intros Y. apply Z.eqb_neq in Y.
      cbn [w_t collect tls_failure]. rewrite Y. destruct K1 as (_ & _ & fs & ->). exists (fs ++ [HE_ERR_SSL_ERROR]). rewrite app_nil_r, app_assoc. split; [reflexivity|]. apply in_or_app. right. now left. }
  match goal with |- match (match ?m with _ => _ end) with _ => _ end => destruct m as [[rc pend] w2|]; [|exact I] end. destruct H as [J2 H].
  destruct (Z.eqb_spec rc 0) as [->|Nr]; cbn [negb].
  - match goal with |- match ?m w2 with _ => _ end => assert (keeps J T m) as K end.
    { apply keeps_bind; [apply keeps_when, keeps_generate_completed; kj|]. intros _. apply keeps_bind; [apply keeps_upd; kj|]. intros _. apply keeps_bind; [apply keeps_update_timeout; kj|]. intros _. apply keeps_ret. }
    specialize (K w2 J2).
    match goal with |- match ?m w2 with _ => _ end => assert (match m w2 with Done c _ => c = HE_SUCCESS | Stuck _ _ => True end) as Rc end.
    { unfold bind. destruct (when _ _ w2); [|exact I]. unfold upd. destruct (update_timeout E hk _); [|exact I]. reflexivity. }
    match goal with |- match ?m w2 with _ => _ end => destruct (m w2) as [c w3|]; [|exact I] end. subst c. now apply Ok.
  - unfold bind at 1. specialize (H Nr). unfold ask, bind, log, emit, ret, upd. split.
    + apply (@J_conn (set_wolf_err _)); [reflexivity|]. now apply (@J_push (EAsk QError _)).
    + right; right. destruct H as (fs & H & In0). exists fs. cbn [w_t collect tls_failure]. rewrite app_nil_r. auto.
Qed.
Lemma messages_fine w : J w -> match handle_messages E hk w with Done rc w' => fine rc w' | Stuck _ _ => True end.
Proof.
  intros Hw. unfold handle_messages. unfold bind at 1. pose proof (@loop_fine (e_fuel E) w Hw) as L. destruct (message_loop E hk (e_fuel E) w) as [rc w1|]; [|exact I]. destruct L as [L1 L2].
  destruct (Z.eqb_spec rc HE_SUCCESS) as [->|N]; cbn [negb]; [|exact L2]. unfold bind at 1, get at 1. unfold bind at 1. destruct L1 as [L1|L1].
  - assert (match (if c_due (w_c w1) then renegotiate_ssl E hk else ret HE_SUCCESS) w1 with Done rc w' => J w' /\ fine rc w' | Stuck _ _ => True end) as R.
    { destruct (c_due (w_c w1)); [now apply reneg_fine|]. split; [exact L1|left; cbn; tauto]. }
    match goal with |- match (match ?m with _ => _ end) with _ => _ end => destruct m as [rc w2|]; [|exact I] end. destruct R as [R1 R2].
    destruct (negb (rc =? HE_SUCCESS)); [exact R2|]. pose proof (@check_fine w2 R1) as C. destruct (check_renegotiation E hk w2); [|exact I]. apply C.
  - assert (keeps Tb T (if c_due (w_c w1) then renegotiate_ssl E hk else ret HE_SUCCESS)) as R by (case_if; [apply Tb_reneg|apply keeps_ret]). specialize (R w1 L1).
    match goal with |- match (match ?m with _ => _ end) with _ => _ end => destruct m as [rc w2|]; [|exact I] end.
    destruct (negb (rc =? HE_SUCCESS)); [right; now left|]. pose proof (@Tb_check w2 R) as C. destruct (check_renegotiation E hk w2); [|exact I]. right; now left.
Qed.
Lemma verify_fine w : J w -> match verify_connection E hk w with Done rc w' => fine rc w' | Stuck _ _ => True end.
Proof.
  intros Hw. unfold verify_connection. unfold bind at 1, get at 1. unfold bind at 1.
  assert (keeps J T (if negb (c_first (w_c w)) then upd (set_first true);;; generate_event hk HE_EVENT_FIRST_MESSAGE_RECEIVED else ret tt)) as K.
  { case_if; [|apply keeps_ret]. apply keeps_bind; [apply keeps_upd; kj|]. intros _. apply keeps_generate_other; kj; reflexivity. }
  specialize (K w Hw). match goal with |- match (match ?m with _ => _ end) with _ => _ end => destruct m as [u w1|]; [|exact I] end. unfold bind at 1, get at 1.
  destruct (c_state (w_c w1) =? HE_STATE_CONNECTING); [|now apply messages_fine]. unfold bind at 1. destruct (wolf_op E hk WNegotiate w1) as [[[r err] d] w2|] eqn:R; [|exact I].
  destruct (wolf_end R K) as (Hj & (fs & Hf) & _). cbn [tls_failure] in Hf. destruct (r =? SSL_SUCCESS); cbn [negb orb] in *.
  - unfold bind at 1. assert (keeps J T (change_conn_state E hk HE_STATE_LINK_UP)) as K2 by (apply keeps_change_conn_state; kj). specialize (K2 w2 Hj). destruct (change_conn_state E hk HE_STATE_LINK_UP w2); [|exact I]. now apply messages_fine.
  - assert (forall code, collect tls_failure (w_t w2) = F0 ++ fs ++ [code] -> fine code w2) as Fl.
    { intros code H. right; right. exists (fs ++ [code]). split; [exact H|]. apply in_or_app. right. now left. }
    destruct (err =? SSL_ERROR_WANT_READ); cbn [negb andb orb] in *; [|destruct (err =? SSL_ERROR_WANT_WRITE); cbn [negb andb orb] in *].
    1-2: unfold bind at 1, get at 1; unfold bind at 1; destruct (when _ _ w2); [|exact I]; unfold ret; left; cbn; tauto.
    destruct (err =? ASN_SIG_CONFIRM_E); [now apply Fl|]. destruct (err =? DOMAIN_NAME_MISMATCH); [now apply Fl|]. unfold bind, upd, ret. exact (Fl _ Hf).
Qed.
End N.

(** *** The theorems *)
(** A datagram that makes he_conn_outside_data_received fail fatally: an outside
    plugin refused it, or its header names another version or the reject session,
    or wolfSSL reported a failure, or a message was decrypted. *)
Theorem C25_fatal_cause : forall E b w rc w', bytes_ok b -> call E (OOutside b) w rc w' -> c_ctype (w_c w) = HE_CONNECTION_TYPE_DATAGRAM ->
  is_error_fatal (c_ctype (w_c w)) rc = true ->
  exists pre rp out fs ms, pass true (len b) (in_order true (c_out_chain (w_c w))) b pre rp out /\
    during tls_failure w w' fs /\ during got_msg w w' ms /\
    (rp <> HE_SUCCESS /\ rc = rp \/ len b < len out /\ rc = HE_ERR_FAILED \/
     16 <= len out /\ (nth 2 out 0 <> c_vmaj (w_c w) \/ nth 3 out 0 <> c_vmin (w_c w)) /\ rc = HE_ERR_INCORRECT_PROTOCOL_VERSION \/
     16 <= len out /\ slice out 8 8 = [255; 255; 255; 255; 255; 255; 255; 255] /\ rc = HE_ERR_REJECTED_SESSION \/
     In rc fs \/ ms <> []).
Proof.
  intros E b w rc w' B C Ct Ft. destruct (call_body C) as (w1 & Bd & ->). cbn [api_body] in Bd. rewrite (u8s_id B) in Bd.
  assert (In rc (transient false) -> False) as Nt.
  { intros H. assert (is_error_fatal (c_ctype (w_c w)) rc = false) as Y; [|congruence]. apply C25_codes. rewrite Ct. exact H. }
  unfold outside_data_received in Bd. unfold bind at 1, get at 1 in Bd. set (w0 := push (ECall (OOutside b)) w) in *. change (w_c w0) with (w_c w) in Bd.
  destruct (_ || _). { apply Done_inv in Bd. destruct Bd as [<- _]. destruct Nt. cbn. tauto. }
  unfold bind at 1 in Bd. destruct (@ingress_pass E (c_out_chain (w_c w)) b (len b) w0) as (rp & out & pre & Eq & Ps & Bo). rewrite Eq in Bd. clear Eq.
  exists pre, rp, out.
  pose proof (@plugs_other _ tls_failure (c_state (w_c w0)) pre w0 ltac:(reflexivity) ltac:(reflexivity)) as D0.
  pose proof (@plugs_other _ got_msg (c_state (w_c w0)) pre w0 ltac:(reflexivity) ltac:(reflexivity)) as D1. set (v := plugs _ pre w0) in *.
  assert (w_c v = w_c w) as Cv by reflexivity. clearbody v.
  assert (forall A (f : Z -> ev -> list A) l, during f v w1 l -> during f w0 v (@nil A) -> (forall s, f s (ECall (OOutside b)) = []) -> (forall s, f s (ERet (OOutside b) rc) = []) -> during f w (push (ERet (OOutside b) rc) w1) l) as Lift.
  { intros A f l Ha Hb F1 F2. apply during_end; [exact F2|]. unfold during in *. rewrite Ha, Hb. cbn [w0 push w_t collect]. now rewrite F1, !app_nil_r. }
  assert (forall code : Z, Done code v = Done rc w1 -> rc = code /\ during tls_failure w (push (ERet (OOutside b) rc) w1) [] /\ during got_msg w (push (ERet (OOutside b) rc) w1) []) as Stop.
  { intros code H. apply Done_inv in H. destruct H as [<- <-]. split; [reflexivity|]. split; (apply Lift; auto; apply during_nil; reflexivity). }
  destruct (Z.eqb_spec rp HE_ERR_PLUGIN_DROP) as [->|Nd]. { apply Done_inv in Bd. destruct Bd as [<- _]. destruct Nt. cbn. tauto. }
  destruct (Z.eqb_spec rp HE_SUCCESS) as [->|Ns]; cbn [negb andb] in *.
  2:{ destruct (Stop rp Bd) as (-> & Q1 & Q2). exists [], []. split; [exact Ps|]. split; [exact Q1|]. split; [exact Q2|]. left. auto. }
  destruct (Z.ltb_spec (len b) (len out)) as [Lg|Lg].
  { destruct (Stop HE_ERR_FAILED Bd) as (-> & Q1 & Q2). exists [], []. split; [exact Ps|]. split; [exact Q1|]. split; [exact Q2|]. right; left. auto. }
  unfold bind at 1, get at 1 in Bd. rewrite Cv, Ct in Bd. change (HE_CONNECTION_TYPE_DATAGRAM =? HE_CONNECTION_TYPE_DATAGRAM) with true in Bd. cbv iota in Bd.
  unfold outside_packet_received in Bd. change sizeof_wire_hdr with 16 in Bd. destruct (Z.ltb_spec (len out) 16) as [L|L]. { apply Done_inv in Bd. destruct Bd as [<- _]. destruct Nt. cbn. tauto. }
  rewrite ld8_ok in Bd by lia. unfold bind at 1, lift at 1, ret at 1 in Bd. rewrite ld8_ok in Bd by lia. unfold bind at 1, lift at 1, ret at 1 in Bd.
  destruct (_ || _) in Bd. { apply Done_inv in Bd. destruct Bd as [<- _]. destruct Nt. cbn. tauto. }
  rewrite ld8_ok in Bd by lia. unfold bind at 1, lift at 1, ret at 1 in Bd. rewrite ld8_ok in Bd by lia. unfold bind at 1, lift at 1, ret at 1 in Bd. unfold bind at 1, get at 1 in Bd.
  change (Z.to_nat 2) with 2%nat in Bd. change (Z.to_nat 3) with 3%nat in Bd. rewrite Cv in Bd.
  destruct (negb (nth 2 out 0 =? c_vmaj (w_c w)) || negb (nth 3 out 0 =? c_vmin (w_c w))) eqn:Vm.
  { destruct (Stop HE_ERR_INCORRECT_PROTOCOL_VERSION Bd) as (-> & Q1 & Q2). exists [], []. split; [exact Ps|]. split; [exact Q1|]. split; [exact Q2|]. right; right; left. split; [exact L|]. split; [|reflexivity].
    apply orb_prop in Vm. destruct Vm as [Vm|Vm]; apply negb_true_iff, Z.eqb_neq in Vm; auto. }
  unfold ldh64 in Bd. rewrite ldn_ok in Bd by lia. cbn [rbind] in Bd. unfold bind at 1, lift at 1, ret at 1 in Bd. rewrite (reject_all_ones E (Bo B)) in Bd by lia.
  destruct (forallb (fun b => b =? 255) (slice out 8 8)) eqn:Rj.
  { destruct (Stop HE_ERR_REJECTED_SESSION Bd) as (-> & Q1 & Q2). exists [], []. split; [exact Ps|]. split; [exact Q1|]. split; [exact Q2|]. right; right; right; left. split; [exact L|]. split; [|reflexivity].
    assert (len (slice out 8 8) = 8) as L8 by (apply len_slice; lia). clear - Rj L8. destruct (slice out 8 8) as [|x0 [|x1 [|x2 [|x3 [|x4 [|x5 [|x6 [|x7 [|x8 l]]]]]]]]]; rewrite ?len_cons, ?len_nil in L8; try (pose proof (len_nonneg l)); try lia.
    cbn [forallb] in Rj. repeat (apply andb_prop in Rj; destruct Rj as [?%Z.eqb_eq Rj]). congruence. }
  rewrite ldn_ok in Bd by lia. unfold bind at 1, lift at 1, ret at 1 in Bd. unfold bind at 1, upd at 1 in Bd.
  match type of Bd with (let! _ := _ in _) ?u = _ => set (u0 := u) in Bd end.
  unfold bind at 1 in Bd. pose proof (@verify_fine E (length (collect got_msg (w_t v))) (collect tls_failure (w_t v)) u0) as V.
  pose proof (@keeps_verify E (@ret unit tt) (fun x => exists l, collect got_msg (w_t x) = collect got_msg (w_t v) ++ l) (fun _ => True)) as Vl.
  destruct (verify_connection E (ret tt) u0) as [rv x|] eqn:Vc; [|discriminate Bd].
  specialize (V ltac:(split; [cbn [u0 w_c set_rx c_ctype]; congruence|split; [apply Nat.le_refl|exists []; symmetry; apply app_nil_r]])).
  assert (exists l, collect got_msg (w_t x) = collect got_msg (w_t v) ++ l) as (l & Hl).
  { pose (K := fun x : world => exists l, collect got_msg (w_t x) = collect got_msg (w_t v) ++ l). fold K in Vl.
    assert (forall e y, K y -> K (push e y)) as KP by (intros e y [l H]; unfold K; cbn [push w_t collect]; rewrite H; eexists; symmetry; apply app_assoc).
    assert (forall sz, keeps K (fun _ => True) (io_read sz)) as Kr by (intros sz; apply keeps_io_read; intros; auto).
    assert (forall bb, keeps K (fun _ => True) (io_write E (ret tt) bb)) as Kw by (intros bb; apply keeps_io_write; intros; auto; apply keeps_ret).
    assert (keeps K (fun _ => True) (verify_connection E (ret tt))) as Kv by (apply keeps_verify; intros; auto; apply keeps_ret).
    specialize (Kv u0). rewrite Vc in Kv. apply Kv. exists []. cbn [u0 w_t]. now rewrite app_nil_r. }
  assert (exists fs, collect tls_failure (w_t x) = collect tls_failure (w_t v) ++ fs) as (fs0 & Hf0).
  { pose (K := fun x : world => exists l, collect tls_failure (w_t x) = collect tls_failure (w_t v) ++ l).
    assert (forall e y, K y -> K (push e y)) as KP by (intros e y [l' H]; unfold K; cbn [push w_t collect]; rewrite H; eexists; symmetry; apply app_assoc).
    assert (forall sz, keeps K (fun _ => True) (io_read sz)) as Kr by (intros sz; apply keeps_io_read; intros; auto).
    assert (forall bb, keeps K (fun _ => True) (io_write E (ret tt) bb)) as Kw by (intros bb; apply keeps_io_write; intros; auto; apply keeps_ret).
    assert (keeps K (fun _ => True) (verify_connection E (ret tt))) as Kv by (apply keeps_verify; intros; auto; apply keeps_ret).
    specialize (Kv u0). rewrite Vc in Kv. apply Kv. exists []. cbn [u0 w_t]. now rewrite app_nil_r. }
  unfold bind at 1, upd at 1 in Bd. destruct (Z.eqb_spec rv HE_SUCCESS) as [->|Nv]; cbn [negb] in Bd.
  - exfalso. apply Nt. clear - Bd. unfold update_session_incoming in Bd.
    destruct (_ =? 0); [apply Done_inv in Bd; destruct Bd as [<- _]; cbn; tauto|]. unfold bind at 1, get at 1 in Bd. cbn [w_c] in Bd. destruct (c_is_server _).
    + destruct (_ =? c_session _); [apply Done_inv in Bd; destruct Bd as [<- _]; cbn; tauto|]. destruct (_ =? c_pending _); [|apply Done_inv in Bd; destruct Bd as [<- _]; cbn; tauto].
      unfold generate_event, notify, when, bind, upd, get, emit, ret in Bd. destruct (cb_event _); apply Done_inv in Bd; destruct Bd as [<- _]; cbn; tauto.
    + unfold bind, upd, ret in Bd. apply Done_inv in Bd; destruct Bd as [<- _]; cbn; tauto.
  - apply Done_inv in Bd. destruct Bd as [<- <-]. exists fs0, l. split; [exact Ps|]. split; [apply Lift; auto; exact Hf0|]. split; [apply Lift; auto; exact Hl|].
    destruct V as [V|[V|(fs & V1 & V2)]]; [destruct (Nt V)| |].
    + right; right; right; right; right. unfold Tb in V. rewrite Hl, app_length in V. destruct l; [cbn in V; lia|discriminate].
    + right; right; right; right; left. rewrite Hf0 in V1. apply app_inv_head in V1. now subst fs.
Qed.
Print Assumptions C25_fatal_cause.

(** What a forger can do, short of breaking TLS (nothing is decrypted, wolfSSL
    reports no failure): a fatal result takes a header that names another version
    or the reject session. *)
Theorem C25_forged_partial : forall E b w rc w', bytes_ok b -> call E (OOutside b) w rc w' -> c_ctype (w_c w) = HE_CONNECTION_TYPE_DATAGRAM ->
  c_out_chain (w_c w) = [] -> during tls_failure w w' [] -> during got_msg w w' [] ->
  is_error_fatal (c_ctype (w_c w)) rc = true ->
  16 <= len b /\ (nth 2 b 0 <> c_vmaj (w_c w) \/ nth 3 b 0 <> c_vmin (w_c w) \/ slice b 8 8 = [255; 255; 255; 255; 255; 255; 255; 255]).
Proof.
  intros E b w rc w' B C Ct Ch Nf Ng Ft. destruct (C25_fatal_cause B C Ct Ft) as (pre & rp & out & fs & ms & Ps & Df & Dg & Q). rewrite Ch in Ps. cbn in Ps. destruct Ps as (_ & -> & ->).
  pose proof (during_unique Df Nf) as ->. pose proof (during_unique Dg Ng) as ->.
  destruct Q as [[Q _]|[[Q _]|[(L & Q & _)|[(L & Q & _)|[[]|Q]]]]]; try congruence; try lia; tauto.
Qed.
Print Assumptions C25_forged_partial.

(** "No forged datagram makes the call return a fatal error": both headers do,
    on an established connection, and wolfSSL is not even asked. *)
Theorem C25_forged_refuted : exists E w b w1 d w2, reached E w /\ c_state (w_c w) = HE_STATE_ONLINE /\ c_out_chain (w_c w) = [] /\ bytes_ok b /\ bytes_ok d /\ len b = 16 /\ len d = 16 /\
  call E (OOutside b) w HE_ERR_INCORRECT_PROTOCOL_VERSION w1 /\ call E (OOutside d) w HE_ERR_REJECTED_SESSION w2 /\
  is_error_fatal (c_ctype (w_c w)) HE_ERR_INCORRECT_PROTOCOL_VERSION = true /\ is_error_fatal (c_ctype (w_c w)) HE_ERR_REJECTED_SESSION = true /\
  during reads w w1 [] /\ during reads w w2 [].
Proof.
  pose (b := wire_header true 7 7 false 0). pose (d := wire_header true 1 2 false HE_PACKET_SESSION_REJECT).
  exists plain_env, (world_at client_up), b, (world_at (client_up ++ [OOutside b])), d, (world_at (client_up ++ [OOutside d])).
  split; [apply world_at_reached; vm_compute; reflexivity|]. split; [vm_compute; reflexivity|]. split; [vm_compute; reflexivity|]. split; [apply bytes_ok_dec; vm_compute; reflexivity|]. split; [apply bytes_ok_dec; vm_compute; reflexivity|].
  conj; vm_compute; reflexivity.
Qed.
Print Assumptions C25_forged_refuted.

(** ** Examples *)
(** A server that says goodbye: fatal, and there is a message. *)
Example C25_example_goodbye :
  let b := dgram 4660 [12] in let w := world_at client_up in let w' := world_at (client_up ++ [OOutside b]) in
  reached plain_env w /\ bytes_ok b /\ c_ctype (w_c w) = HE_CONNECTION_TYPE_DATAGRAM /\ call plain_env (OOutside b) w HE_ERR_SERVER_GOODBYE w' /\
  is_error_fatal (c_ctype (w_c w)) HE_ERR_SERVER_GOODBYE = true /\ during tls_failure w w' [] /\ during got_msg w w' [(HE_STATE_ONLINE, [12])].
Proof. cbv zeta. split; [apply world_at_reached; vm_compute; reflexivity|]. split; [apply bytes_ok_dec; vm_compute; reflexivity|]. conj; vm_compute; reflexivity. Qed.
(** A handshake that fails because of the certificate. *)
Definition badcert_env : env :=
  Env true 50 plain_ask plain_cb (fun _ => (ip 1, ip 2, ip 3)) (fun _ => (HE_PLUGIN_SUCCESS, []))
    (fun t => match t with (_, EWOp WNegotiate) :: p => WRet (-1) (if has is_neg p then ASN_SIG_CONFIRM_E else SSL_ERROR_WANT_READ) [] | _ => plain_wolf t end) (fun _ => HDone).
Example C25_example_handshake :
  let ops := client_setup ++ [OClientConnect dctx [] []] in let o := OOutside (dgram 0 []) in
  let w := world_of (run badcert_env 0 ops world_new) in let w' := world_of (run badcert_env 0 (ops ++ [o]) world_new) in
  reached badcert_env w /\ call badcert_env o w HE_ERR_CANNOT_VERIFY_SERVER_CERT w' /\ during tls_failure w w' [HE_ERR_CANNOT_VERIFY_SERVER_CERT] /\ during got_msg w w' [].
Proof. cbv zeta. split; [apply world_in_reached; vm_compute; reflexivity|]. conj; vm_compute; reflexivity. Qed.
