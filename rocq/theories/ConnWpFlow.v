(** Receiving: flow.c. *)
From Verif Require Import Base Codes Ctx Config Mss MssProofs Frag FragSpec FragProofs ReasmProofs ReasmTable Wire WireSpec
  WireProofs ConnState Conn ConnSpec HistSpec ConnSteps ConnWp ConnWpTac ConnWpCore ConnWpPm ConnWpMsg.
Unset Strict Implicit.

Definition cnt (w : world) : nat := count is_recv (upto is_call (w_t w)).
Lemma cnt_mono w w' : Steps w w' -> (cnt w <= cnt w')%nat.
Proof.
  intros S. destruct (Steps_grows S) as (l & T & F). unfold cnt. rewrite T, upto_app by auto.
  rewrite count_app. lia.
Qed.
Lemma cnt_push w w' s e : w_t w' = (s, e) :: w_t w -> is_call e = false -> is_recv e = true -> cnt w' = S (cnt w).
Proof. intros T C R. unfold cnt. rewrite T. cbn [upto]. rewrite C. unfold count. cbn [filter snd]. rewrite R. reflexivity. Qed.

Section Flow.
Variable E : env.
Variable hook : M unit.
Hypothesis HOOK : hook_ok E hook.
Notation wp := (wp E).

(** A step that changes neither the trace nor what the middle conditions look at *)
Lemma wp_step f (Q : unit -> world -> Prop) w :
  (Good w -> Step w (World (f (w_c w)) (w_t w))) ->
  c_state (f (w_c w)) = c_state (w_c w) -> c_pm (f (w_c w)) = c_pm (w_c w) ->
  (Good w -> seq w (mid1 (World (f (w_c w)) (w_t w)) = false)) ->
  (Good w -> seq w (mid2 w = false -> mid2 (World (f (w_c w)) (w_t w)) = false)) ->
  (forall w', Steps w w' -> w_c w' = f (w_c w) -> w_t w' = w_t w -> Q tt w') ->
  wp (upd f) Q w.
Proof.
  intros H Es Ep M1 M2 K G. cbn. pose proof (H G) as S.
  assert (Steps w (World (f (w_c w)) (w_t w))) as S1 by now apply Steps_one.
  split; [exact S1|]. split; [|now apply K].
  split; [eapply R_step; [apply G|exact S]|]. intros Hr. cbn [w_t] in Hr. pose proof G as [_ M].
  destruct (M Hr) as (N1 & N2 & N3). split; [|split].
  - now apply M1.
  - now apply M2.
  - eapply mid3_anti; eauto.
Qed.

(** ** flow.c:216-265 *)
Lemma wp_fetch f : forall (Q : Z * option bytes -> world -> Prop) w,
  (e_fuel E <= cnt w + f)%nat ->
  (forall rc m w', Steps w w' -> keep w w' -> (cnt w < cnt w')%nat ->
     (forall d, m = Some d -> bytes_ok d /\ now (received (msg_type d)) w' /\ role w' /\ has connect_call (w_t w') = true /\ tls_ok w') ->
     Q (rc, m) w') ->
  wp (fetch_message E hook f) Q w.
Proof.
  induction f as [|f IH]; intros Q w F K; cbn [fetch_message].
  { apply wp_stuck. intros _. split; [discriminate|]. split; [discriminate|]. split; [|split; [|split]; intros; discriminate].
    intros _. unfold fuel_out. fold (cnt w). lia. }
  apply wp_good; intros G. pose proof (Reach_inv (proj1 G)) as (IW & _).
  apply wp_bind, wp_wolf_op; auto. { intros; now apply plain_ok. }
  intros r err d w1 w2 S1 S2 C2 T2 K2 Ld Bd Hd Hn _. cbv beta iota.
  assert (Steps w w2) as S02 by stp. pose proof (keep_rx_keep K2) as K3.
  assert (cnt w < cnt w2)%nat as Cn.
  { rewrite (cnt_push T2 eq_refl eq_refl). pose proof (cnt_mono S1). lia. }
  assert (forall rc, Q (rc, None) w2) as KN by (intros; apply K; auto; intros; discriminate).
  wif Hr.
  - wif He1; [apply wp_ret; auto|]. wif He2.
    { apply IH; [lia|]. intros rc m w3 S3 K4 Cn' H. apply K; auto; [stp|exact (keep_trans S3 K3 K4)|lia]. }
    wif He3; [apply wp_ret; auto|]. wif Hr0; [apply wp_ret; auto|].
    apply wp_bind. wpu. intros w3 S3 C3 T3 _. apply wp_bind, wp_get. intros _. apply wp_ret.
    apply K; [stp| |pose proof (cnt_mono S3); lia|intros; discriminate].
    intros Hre. rewrite C3. apply K3. exact (re_anti S3 Hre).
  - assert (c_wolf (w_c w) = true) as W.
    { destruct (c_wolf (w_c w)); auto. destruct (Hn eq_refl) as [-> _]. discriminate. }
    destruct (IW W) as [R HC]. apply wp_ret. apply K; auto. intros d' [= <-].
    split; [exact Bd|]. split; [|split; [exact (role_mono S02 R)|]].
    2:{ split; [exact (has_mono S02 HC)|]. intros Hre. left. destruct (K2 Hre) as [x ->]. exact W. }
    eapply now_push; [exact T2|reflexivity|]. cbn. rewrite Z.eqb_refl. destruct (0 <? r) eqn:?; [reflexivity|lia].
Qed.

Lemma wp_message_loop f : forall (Q : Z -> world -> Prop) w,
  (e_fuel E <= cnt w + f)%nat -> nd w -> calling is_outside w -> post Q w ->
  wp (message_loop E hook f) Q w.
Proof.
  induction f as [|f IH]; intros Q w F N CO K; cbn [message_loop].
  { apply wp_stuck. intros _. split; [discriminate|]. split; [discriminate|]. split; [|split; [|split]; intros; discriminate].
    intros _. unfold fuel_out. fold (cnt w). lia. }
  apply wp_bind, wp_fetch; [lia|]. intros rc m w1 S1 K1 Cn H1 _. cbv beta iota.
  assert (nd w1) as N1 by exact (nd_keep S1 K1 N).
  wif Hrc; [apply wp_ret, K; auto|].
  destruct m as [d|]; [|apply wp_ret, K; auto].
  destruct (H1 d eq_refl) as (B & Nr & R & HC & TL).
  apply wp_bind, wp_process; auto. { split; [auto|]. split; [auto|]. split; [auto|]. split; [exact (calling_mono S1 CO)|exact TL]. }
  intros rc' w2 S2 N2 _. assert (Steps w w2) as S02 by stp.
  wif Hrc'; [apply wp_ret, K; auto|]. apply negb_false_iff, Z.eqb_eq in Hrc'.
  apply IH; auto.
  - pose proof (cnt_mono S2). lia.
  - exact (calling_mono S02 CO).
  - exact (post_mono S02 K).
Qed.

Lemma keepP_state w w' : keepP w w' -> seq w' (c_state (w_c w') = c_state (w_c w)).
Proof. intros H Hr. specialize (H Hr). unfold core in H. cbn in H. congruence. Qed.

Lemma wp_handle_messages (Q : Z -> world -> Prop) w :
  nd w -> calling is_outside w -> post Q w -> wp (handle_messages E hook) Q w.
Proof.
  intros N CO K. unfold handle_messages. apply wp_bind, wp_message_loop; auto; [lia|].
  intros rc w1 S1 N1 _. wif Hrc; [apply wp_ret, K; auto|]. apply negb_false_iff, Z.eqb_eq in Hrc.
  specialize (N1 Hrc). apply wp_bind, wp_get. intros _. apply wp_bind.
  apply wp_conseq with (Q := fun _ w2 => Steps w1 w2 /\ keepP w1 w2).
  { wif D; [apply wp_renegotiate; auto|apply wp_ret; split; [apply Steps_refl|apply keepP_refl]]. }
  intros rc2 w2 _ _ [S2 K2] _. assert (nd w2) as N2 by exact (nd_state S2 (keepP_state K2) N1).
  wif Hrc2; [apply wp_ret, K; auto; stp|].
  apply wp_check_reneg; auto using nd_dis. intros rc3 w3 S3 K3. apply K; [stp|]. intros _.
  exact (nd_state S3 (keepP_state K3) N2).
Qed.

(** *** The first message *)
Lemma wp_first (Q : unit -> world -> Prop) w :
  nd w -> calling is_outside w ->
  (forall w', Steps w w' -> nd w' -> Q tt w') ->
  wp (let! first := get c_first in
      if negb first then upd (set_first true) ;;; generate_event hook HE_EVENT_FIRST_MESSAGE_RECEIVED
      else ret tt) Q w.
Proof.
  intros N CO K. apply wp_bind, wp_get. intros _. destruct (c_first (w_c w)) eqn:Hf; cbn [negb].
  { apply wp_ret, K; auto. apply Steps_refl. }
  intros G. pose proof (S_first (Good_mid1 G) Hf CO (nd_dis N)) as S. set (w1 := World _ _) in S.
  assert (Reach w1) as R1 by (eapply R_step; [apply G|exact S]).
  assert (Steps w w1) as S1 by now apply Steps_one.
  assert (nd w1) as N1 by (apply (nd_state S1); auto; intros _; reflexivity).
  assert (Good w1) as G1.
  { split; [exact R1|]. intros Hr. destruct G as [_ M]. destruct (M (re_anti S1 Hr)) as (M1 & M2 & M3).
    split; [|split].
    - unfold w1, mid1. cbn [w_t w_c]. destruct (cb_event _); [reflexivity|]. exact M1.
    - eapply mid2_anti; eauto.
    - eapply mid3_anti; eauto. }
  unfold bind, upd, generate_event, get, when, notify, emit, bind. cbn beta iota. cbn [w_c w_t].
  change (c_cbs (set_first true (w_c w))) with (c_cbs (w_c w)).
  destruct (cb_event (c_cbs (w_c w))); unfold w1 in *; cbn [w_c w_t c_state set_first] in *.
  - change (c_state (set_first true (w_c w))) with (c_state (w_c w)).
    pose proof (HOOK R1) as HH. destruct (hook _) as [[] w2|u w2]; destruct HH as [S2 H4].
    + assert (Steps w w2) as S12 by stp. split; [exact S12|]. split; [eapply hook_good; eauto|].
      apply K; auto. apply (nd_state S2); auto. intros Hr. rewrite (H4 Hr). reflexivity.
    + split; [stp|exact H4].
  - unfold ret. split; [exact S1|]. split; [exact G1|]. apply K; auto.
Qed.

Lemma wp_link (Q : unit -> world -> Prop) w :
  role w -> has connect_call (w_t w) = true -> now negotiated w ->
  seq w (c_state (w_c w) = HE_STATE_CONNECTING) ->
  (forall w', Steps w w' -> keepS w w' -> seq w' (up_state (w_c w') (c_state (w_c w'))) -> Q tt w') ->
  wp (change_conn_state E hook HE_STATE_LINK_UP) Q w.
Proof.
  intros R HC Ng St K. destruct (Z.eq_dec (c_state (w_c w)) HE_STATE_LINK_UP) as [Eq|Ne].
  - unfold change_conn_state, set_conn_state. apply wp_bind, wp_bind, wp_get. intros _. rewrite Eq. rewrite Z.eqb_refl.
    apply wp_ret. intros _. cbn [andb]. apply wp_ret, K; [apply Steps_refl|intros _; reflexivity|].
    intros Hr. rewrite (St Hr) in Eq. discriminate.
  - apply wp_link_up; auto. intros G. split; [exact Ne|]. split; [now apply Good_mid1|]. split; [auto|].
    split; [intros Hr; rewrite (St Hr); discriminate|]. right; left. auto.
Qed.

Lemma wp_verify (Q : Z -> world -> Prop) w :
  nd w -> calling is_outside w -> post Q w -> wp (verify_connection E hook) Q w.
Proof.
  intros N CO K. unfold verify_connection. apply wp_assoc, wp_bind, wp_first; auto.
  intros w1 S1 N1 _. pose proof (calling_mono S1 CO) as CO1.
  apply wp_bind, wp_get. intros _. wif St; [|apply wp_handle_messages; auto; exact (post_mono S1 K)].
  apply Z.eqb_eq in St. apply wp_good; intros G. pose proof (Reach_inv (proj1 G)) as (IW & _).
  apply wp_bind, wp_wolf_op; auto. { intros; now apply plain_ok. }
  intros r err d w2 w3 S2 S3 C3 T3 K3 _ _ _ Hn _. cbv beta iota. assert (Steps w1 w3) as S13 by stp.
  assert (Steps w w3) as S03 by stp.
  assert (nd w3) as N3 by exact (nd_keep S13 (keep_rx_keep K3) N1).
  wif Hr.
  - wif He.
    + wif H1; [apply wp_ret, K; auto|]. wif H2; [apply wp_ret, K; auto|].
      apply wp_bind. wpu. intros w4 S4 C4 T4 _. apply wp_ret, K; [stp|]. discriminate.
    + apply wp_bind, wp_get. intros _. apply wp_bind. unfold when. wif Ct.
      * apply wp_update_timeout; [exact HOOK| |].
        { intros _ Hre. left. destruct (c_wolf (w_c w1)) eqn:W; [destruct (K3 Hre) as [x ->]; exact W|].
          destruct (Hn eq_refl) as [_ Hb]. rewrite Hb in He. discriminate. }
        intros w4 S4 K4 _. apply wp_ret, K; [stp|]. intros _. exact (nd_keep S4 K4 N3).
      * apply wp_ret. intros _. apply wp_ret, K; auto.
  - apply negb_false_iff, Z.eqb_eq in Hr.
    assert (c_wolf (w_c w1) = true) as W.
    { destruct (c_wolf (w_c w1)); auto. destruct (Hn eq_refl) as [Hb _]. rewrite Hb in Hr. discriminate. }
    destruct (IW W) as [R HC].
    apply wp_bind, wp_link.
    + exact (role_mono S13 R).
    + exact (has_mono S13 HC).
    + eapply now_push; [exact T3|reflexivity|]. cbn. rewrite Hr. reflexivity.
    + intros Hre. destruct (K3 Hre) as [x ->]. exact St.
    + intros w4 S4 K4 U4 _. assert (Steps w w4) as S04 by stp. apply wp_handle_messages; auto.
      * intros Hre. destruct (U4 Hre) as [[-> _]|[-> _]]; split; discriminate.
      * exact (calling_mono S04 CO).
      * exact (post_mono S04 K).
Qed.

Lemma wp_update_session s (Q : Z -> world -> Prop) w :
  nd w -> 0 <= s < 18446744073709551616 -> (forall rc w', Steps w w' -> Q rc w') ->
  wp (update_session_incoming hook s) Q w.
Proof.
  intros N Hs K. unfold update_session_incoming.
  wif Hz; [apply wp_ret, K, Steps_refl|]. apply wp_bind, wp_get. intros _. wif Sv.
  - wif E1; [apply wp_ret, K, Steps_refl|]. wif E2; [|apply wp_ret, K, Steps_refl].
    apply wp_bind. apply wp_upd; [reflexivity|okc; unfold HE_PACKET_SESSION_EMPTY; lia|]. intros w1 S1 C1 T1 _.
    apply wp_bind, wp_generate_event; auto.
    + intros Hr. rewrite C1. cbn. apply N. exact (re_anti S1 Hr).
    + intros w2 S2 C2 _. apply wp_ret, K. stp.
  - apply wp_bind. apply wp_upd; [reflexivity|okc|]. intros w1 S1 C1 T1 _. apply wp_ret, K; auto.
Qed.

Lemma wp_rx_live (Q : unit -> world -> Prop) w :
  (forall w', Steps w w' -> seq w' (c_state (w_c w') = c_state (w_c w)) -> Q tt w') ->
  wp (upd (fun c => set_rx (set_rx_live false (c_rx c)) c)) Q w.
Proof.
  intros K. apply wp_upd; [reflexivity| |].
  - intros C. apply cok_rx; auto. apply C.
  - intros w1 S1 C1 T1. apply K; auto. intros _. rewrite C1. reflexivity.
Qed.

Lemma wp_outside_packet packet (Q : Z -> world -> Prop) w :
  bytes_ok packet -> nd w -> calling is_outside w -> (forall rc w', Steps w w' -> Q rc w') ->
  wp (outside_packet_received E hook packet) Q w.
Proof.
  intros B N CO K. assert (forall rc, Q rc w) as K0 by (intros; apply K, Steps_refl).
  unfold outside_packet_received. wif L; [apply wp_ret; auto|]. change sizeof_wire_hdr with 16 in *.
  do 2 (apply wp_bind; eapply wp_lift; [apply ld8_ok; lia|]; intros _).
  wif H1; [apply wp_ret; auto|].
  do 2 (apply wp_bind; eapply wp_lift; [apply ld8_ok; lia|]; intros _).
  apply wp_bind, wp_get. intros _. wif H2; [apply wp_ret; auto|].
  apply wp_bind. eapply wp_lift. { unfold ldh64. rewrite ldn_ok by lia. reflexivity. } intros _.
  assert (0 <= host64 (e_le E) (slice packet 8 8) < 18446744073709551616).
  { apply host64_range; [now apply bytes_ok_slice|rewrite len_slice; lia]. }
  wif H3; [apply wp_ret; auto|].
  apply wp_bind. eapply wp_lift; [apply ldn_ok; lia|]. intros _.
  apply wp_bind. apply wp_upd; [reflexivity| |].
  { intros C. apply cok_rx; auto. cbn. apply C. }
  intros w1 S1 C1 T1 _. assert (nd w1) as N1 by (apply (nd_state S1); auto; intros _; rewrite C1; reflexivity).
  apply wp_bind, wp_verify; auto. { exact (calling_mono S1 CO). }
  intros rc w2 S2 N2 _. apply wp_bind, wp_rx_live. intros w3 S3 C3 _.
  wif Hrc; [apply wp_ret, K; stp|]. apply negb_false_iff, Z.eqb_eq in Hrc.
  apply wp_update_session; auto. { exact (nd_state S3 C3 (N2 Hrc)). }
  intros rc' w4 S4. apply K. stp.
Qed.

Lemma wp_outside_stream buffer (Q : Z -> world -> Prop) w :
  nd w -> calling is_outside w -> (forall rc w', Steps w w' -> Q rc w') ->
  wp (outside_stream_received E hook buffer) Q w.
Proof.
  intros N CO K. unfold outside_stream_received. apply wp_bind, wp_get. intros _.
  wif L. { apply wp_bind. wpu. intros w1 S1 C1 T1 _. apply wp_ret, K; auto. }
  apply wp_bind. apply wp_upd; [reflexivity| |].
  { intros C. apply cok_rx; auto. cbn. intros s [= <-]. reflexivity. }
  intros w1 S1 C1 T1 _. assert (nd w1) as N1 by (apply (nd_state S1); auto; intros _; rewrite C1; reflexivity).
  apply wp_bind, wp_verify; auto. { exact (calling_mono S1 CO). }
  intros rc w2 S2 N2 _. apply wp_bind, wp_rx_live. intros w3 S3 C3 _. apply wp_ret, K. stp.
Qed.

Lemma wp_outside buffer (Q : Z -> world -> Prop) w :
  bytes_ok buffer -> calling is_outside w -> (forall rc w', Steps w w' -> Q rc w') ->
  wp (outside_data_received E hook buffer) Q w.
Proof.
  intros B CO K. unfold outside_data_received. apply wp_bind, wp_get. intros _.
  wif St; [apply wp_ret, K, Steps_refl|]. apply orb_false_iff in St. destruct St as [St1 St2].
  assert (nd w) as N by (intros _; split; lia).
  apply wp_bind, wp_plugin_ingress. intros res data w1 S1 C1 B1 _ _. cbv beta iota.
  assert (nd w1) as N1 by (apply (nd_eq S1); auto; intros _; auto).
  wif H1; [apply wp_ret, K; auto|]. wif H2; [apply wp_ret, K; auto|]. wif H3; [apply wp_ret, K; auto|].
  assert (forall rc w', Steps w1 w' -> Q rc w') as K1 by (intros; apply K; stp).
  apply wp_bind, wp_get. intros _.
  wif H4; [apply wp_outside_packet; auto; exact (calling_mono S1 CO)|].
  wif H5; [apply wp_outside_stream; auto; exact (calling_mono S1 CO)|].
  apply wp_ret; auto.
Qed.

End Flow.
