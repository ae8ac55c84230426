(** C41 (cont.): when the library looks at wolfSSL's timeout again. *)
From Verif Require Import Base Codes Ctx ConnState Conn ConnSpec HistSpec MsgSpec CallSpec.
From Verif Require Import ConnSteps ConnWp ConnWpApi Frame FrameLoop Seq SeqApi TimerSpec TimerProofs Scenario Props_Data Props_Timer Props_Tls.
Unset Strict Implicit.

(** wolfSSL's answers to a handshake step, the timeouts it gives, and its answers
    to the question whether a renegotiation or key update is still going on. *)
Definition handshakes (s : Z) (e : ev) : list (Z * Z) := match e with EWEnd WNegotiate r err _ => [(r, err)] | _ => [] end.
Definition timeouts (s : Z) (e : ev) : list Z := match e with EAsk QTimeout t => [t] | _ => [] end.
Definition unfinished (s : Z) (e : ev) : list Z := match e with EAsk QRenegPending p | EAsk QKeyUpdatePending p => [p] | _ => [] end.
Definition wants_more (a : Z * Z) : bool :=
  let '(r, err) := a in negb (r =? SSL_SUCCESS) && ((err =? SSL_ERROR_WANT_READ) || (err =? SSL_ERROR_WANT_WRITE)).

(** All three at once. *)
Inductive item := Step (r err : Z) | Time (t : Z) | Still (p : Z).
Definition watch (s : Z) (e : ev) : list item :=
  match e with
  | EWEnd WNegotiate r err _ => [Step r err]
  | EAsk QTimeout t => [Time t]
  | EAsk QRenegPending p | EAsk QKeyUpdatePending p => [Still p]
  | _ => []
  end.

Section R.
Variable E : env.
Notation hk := (@ret unit tt).
Notation T := (fun _ : world => True).
Definition fixed (w0 w : world) : Prop :=
  during watch w0 w [] /\ cb_nudge (c_cbs (w_c w)) = cb_nudge (c_cbs (w_c w0)) /\ c_ctype (w_c w) = c_ctype (w_c w0).
Section K.
Variable w0 : world.
Notation I := (fixed w0).
Lemma F_push e w : (forall s, watch s e = []) -> I w -> I (push e w).
Proof. intros H (A & B & C). split; [|split; [exact B|exact C]]. unfold during in *. cbn [push w_t collect]. now rewrite H, A, !app_nil_r. Qed.
Lemma F_conn f w : (forall c, cb_nudge (c_cbs (f c)) = cb_nudge (c_cbs c) /\ c_ctype (f c) = c_ctype c) -> I w -> I (with_c f w).
Proof. intros H (A & B & C). destruct (H (w_c w)) as [X Y]. split; [exact A|]. split; [exact (eq_trans X B)|exact (eq_trans Y C)]. Qed.
Lemma F_event e w : io_event e = false -> I w -> I (push e w).
Proof. intros H. apply F_push. intros s. destruct e; try reflexivity; try (destruct o; try reflexivity; discriminate H). destruct q; try reflexivity; discriminate H. Qed.
Ltac kpush := apply F_push; [first [reflexivity|intros ?; match goal with o : wop |- _ => destruct o; first [reflexivity|congruence] end]|assumption].
Ltac kconn := apply F_conn; [intros; repeat split; reflexivity|assumption].
Ltac ks := intros; first [exact Logic.I|apply keeps_ret|now apply F_event|kpush|kconn|idtac].
Lemma F_read sz : keeps I T (io_read sz).
Proof. apply keeps_io_read; ks. Qed.
Lemma F_write b : keeps I T (io_write E hk b).
Proof. apply keeps_io_write; ks. Qed.
Ltac ks ::= intros; first [exact Logic.I|apply keeps_ret|apply F_read|apply F_write|now apply F_event|kpush|kconn|idtac].
Lemma F_ask q : (forall s r, watch s (EAsk q r) = []) -> keeps I T (ask E q).
Proof. intros H. unfold ask. apply keeps_bind; [apply keeps_log|]. intros t. apply keeps_bind; [apply keeps_emit; intros; apply F_push; auto|intros _; apply keeps_ret]. Qed.
Lemma F_op o : o <> WNegotiate -> keeps I T (wolf_op E hk o).
Proof. intros N. apply keeps_wolf_op'; ks. Qed.
Lemma F_gen v : v <> HE_EVENT_PONG -> v <> HE_EVENT_PENDING_SESSION_ACKNOWLEDGED -> keeps I T (generate_event hk v).
Proof. intros N1 N2. apply keeps_generate_event; ks. Qed.
Lemma F_change s : keeps I T (change_conn_state E hk s).
Proof. apply keeps_change_conn_state; ks.  Qed.
Lemma F_process d : keeps I T (process_message E hk d).
Proof. apply keeps_process; ks. Qed.
Lemma F_plugin ch d c : keeps I T (plugin_ingress E ch d c).
Proof. apply keeps_plugin_ingress; ks. Qed.
Lemma F_session s : keeps I T (update_session_incoming hk s).
Proof. apply keeps_session_in; ks. Qed.
Lemma F_loop fuel : keeps I T (message_loop E hk fuel).
Proof.
  apply loop_kept; try (intros; apply keeps_upd; ks).
  intros w r err d w' Hw R. assert (keeps I T (wolf_op E hk WRecv)) as K0 by (apply F_op; discriminate). pose proof (K0 w Hw) as K. rewrite R in K. case_if; [exact K|exact (@F_process d w' K)].
Qed.
End K.
Lemma fixed_refl w : fixed w w.
Proof. split; [unfold during; now rewrite app_nil_r|auto]. Qed.
Lemma fixed_of A (m : M A) w a w' : keeps (fixed w) T m -> m w = Done a w' -> fixed w w'.
Proof. intros K H. specialize (K w (fixed_refl w)). now rewrite H in K. Qed.
Lemma time_watch w w' : update_timeout E hk w = Done tt w' -> exists l, during watch w w' l /\
  ((c_state (w_c w) = HE_STATE_ONLINE /\ c_prog (w_c w) = false /\ l = []) \/ exists t, l = [Time t]) /\ c_ctype (w_c w') = c_ctype (w_c w).
Proof.
  unfold update_timeout. unfold bind at 1, get at 1. unfold bind at 1, get at 1.
  destruct ((c_state (w_c w) =? HE_STATE_ONLINE) && negb (c_prog (w_c w))) eqn:On.
  { intros H. apply Done_inv in H as [_ <-]. apply andb_true_iff in On as [O1 O2]. apply Z.eqb_eq in O1. apply negb_true_iff in O2.
    exists []. split; [apply fixed_refl|]. auto. }
  unfold bind at 1. rewrite ask_eq. cbv zeta. set (v := e_ask E (w_t w) QTimeout). set (w1 := push _ _). intros H.
  assert (during watch w w1 [Time v]) as D1 by reflexivity. assert (c_ctype (w_c w1) = c_ctype (w_c w)) as C1 by reflexivity. clearbody w1.
  assert (fixed w1 w') as (F1 & F2 & F3).
  { revert H. apply fixed_of. apply keeps_bind; [apply keeps_upd; intros; apply F_conn; [intros; split; reflexivity|assumption]|]. intros _.
    apply keeps_bind; [apply keeps_version; [auto|apply F_ask; reflexivity]|]. intros v1. apply keeps_bind; [case_if; [apply F_ask; reflexivity|apply keeps_ret]|]. intros q.
    apply keeps_bind; [apply keeps_when, keeps_upd; intros; apply F_conn; [intros; split; reflexivity|assumption]|]. intros _.
    apply keeps_bind; [apply keeps_get|]. intros k. apply keeps_bind; [apply keeps_get|]. intros rn. case_if; [|apply keeps_ret].
    apply keeps_bind; [apply keeps_get|]. intros ms. apply keeps_bind; [unfold notify; apply keeps_bind; [apply keeps_emit; intros; now apply F_push|intros; apply keeps_ret]|].
    intros _. apply keeps_upd; intros; apply F_conn; [intros; split; reflexivity|assumption]. }
  exists [Time v]. split; [exact (during_trans D1 F1)|]. split; [eauto|congruence].
Qed.
(** What follows the message loop. *)
Definition only_time (l : list item) : Prop := l = [] \/ exists t, l = [Time t].
Lemma reneg_watch w rc w' : renegotiate_ssl E hk w = Done rc w' -> exists l, during watch w w' l /\ only_time l /\ c_ctype (w_c w') = c_ctype (w_c w).
Proof.
  unfold renegotiate_ssl. rewrite upd_first. set (w1 := with_c _ w). assert (fixed w w1) as F1 by (apply F_conn; [intros; split; reflexivity|apply fixed_refl]). clearbody w1.
  unfold bind at 1, get at 1. unfold bind at 1, get at 1.
  assert (forall v, fixed w1 v -> fixed w v) as Go.
  { intros v (A & B & C). destruct F1 as (A1 & B1 & C1). split; [exact (during_trans A1 A)|]. split; congruence. }
  assert (forall v, fixed w1 v -> exists l, during watch w v l /\ only_time l /\ c_ctype (w_c v) = c_ctype (w_c w)) as Nil.
  { intros v F. destruct (Go v F) as (A & _ & C). exists []. split; [exact A|]. split; [now left|exact C]. }
  case_if; [intros H; apply Done_inv in H as [_ <-]; apply Nil, fixed_refl|].
  ver. unfold bind at 1. destruct (ask E QVersion w1) as [v w2|] eqn:R2; [|discriminate].
  pose proof (fixed_of (F_ask (w0 := w1) (q := QVersion) (fun _ _ => eq_refl)) R2) as F2.
  unfold bind at 1. match goal with |- match ?m w2 with _ => _ end = _ -> _ => destruct (m w2) as [sup w3|] eqn:R3; [|discriminate]; assert (keeps (fixed w1) T m) as K3 end.
  { case_if; [apply F_ask; reflexivity|apply keeps_ret]. }
  specialize (K3 w2 F2). rewrite R3 in K3.
  destruct (sup =? 0); [intros H; apply Done_inv in H as [_ <-]; now apply Nil|].
  set (o := if v =? DTLS1_2_VERSION then WRehandshake else WUpdateKeys). assert (o <> WNegotiate) as No by (unfold o; case_if; discriminate). clearbody o.
  unfold bind at 1. pose proof (F_op (w0 := w1) No K3) as K4. destruct (wolf_op E hk o w3) as [[[r err] d] w4|] eqn:R4; [|discriminate].
  rewrite upd_first. set (w5 := with_c _ w4). assert (fixed w1 w5) as K5 by (apply F_conn; [intros; split; reflexivity|exact K4]). clearbody w5.
  unfold bind at 1. assert (keeps (fixed w1) T (generate_event hk HE_EVENT_SECURE_RENEGOTIATION_STARTED)) as G by (apply F_gen; discriminate). specialize (G w5 K5).
  destruct (generate_event hk HE_EVENT_SECURE_RENEGOTIATION_STARTED w5) as [u w6|]; [|discriminate].
  destruct (negb (r =? SSL_SUCCESS)); [|intros H; apply Done_inv in H as [_ <-]; now apply Nil].
  case_if.
  - unfold bind at 1. destruct (update_timeout E hk w6) as [[] w7|] eqn:U; [|discriminate]. intros H. apply Done_inv in H as [_ <-].
    destruct (time_watch U) as (l & D & L & C). destruct (Go w6 G) as (D6 & _ & C6). exists l. split; [exact (during_trans D6 D)|]. split; [|congruence].
    destruct L as [(_ & _ & ->)|X]; [now left|now right].
  - case_if; [intros H; apply Done_inv in H as [_ <-]; now apply Nil|]. rewrite upd_first. intros H. apply Done_inv in H as [_ <-]. apply Nil, F_conn; [intros; split; reflexivity|exact G].
Qed.
Lemma check_watch w rc w' : check_renegotiation E hk w = Done rc w' -> exists l, during watch w w' l /\ c_ctype (w_c w') = c_ctype (w_c w) /\
  (l = [] \/ exists p l', l = Still p :: l' /\ only_time l' /\
     (p <> 0 -> rc = HE_SUCCESS -> cb_nudge (c_cbs (w_c w')) = true -> c_nudging (w_c w') = true)).
Proof.
  unfold check_renegotiation. unfold bind at 1, get at 1. destruct (c_prog (w_c w)) eqn:Pr; cbn [negb];
    [|intros H; apply Done_inv in H as [_ <-]; exists []; split; [apply fixed_refl|auto]].
  ver. unfold bind at 1. destruct (ask E QVersion w) as [v w1|] eqn:R1; [|discriminate].
  pose proof (fixed_of (F_ask (w0 := w) (q := QVersion) (fun _ _ => eq_refl)) R1) as (D1 & _ & C1).
  unfold bind at 1. match goal with |- match ?m with _ => _ end = _ -> _ => destruct m as [[rc1 p] w2|] eqn:R2; [|discriminate] end.
  assert (during watch w1 w2 [Still p] /\ c_ctype (w_c w2) = c_ctype (w_c w1)) as [D2 C2].
  { revert R2. destruct (v =? DTLS1_2_VERSION).
    - unfold bind at 1. rewrite ask_eq. intros H. apply Done_inv in H as [Q <-]. apply pair_equal_spec in Q as [_ <-]. split; reflexivity.
    - unfold bind at 1. rewrite ask_eq. unfold bind at 1. rewrite ask_eq. intros H. apply Done_inv in H as [Q <-]. apply pair_equal_spec in Q as [_ <-].
      split; [|reflexivity]. unfold during. cbn [push w_t collect watch]. now rewrite app_nil_r. }
  pose proof (during_trans D1 D2) as D. cbn [app] in D. assert (c_ctype (w_c w2) = c_ctype (w_c w)) as C by congruence. clear D1 D2 C1 C2 R1 R2.
  destruct (negb (rc1 =? 0)).
  - intros H. exists [Still p]. assert (fixed w2 w' /\ rc = HE_ERR_SSL_ERROR) as [(D3 & _ & C3) Rc].
    { unfold bind at 1 in H. rewrite ask_eq, upd_first in H. apply Done_inv in H as [<- <-]. split; [|reflexivity]. apply F_conn; [intros; split; reflexivity|]. apply F_push; [reflexivity|apply fixed_refl]. }
    pose proof (during_trans D D3) as D4. split; [exact D4|]. split; [congruence|]. right. exists p, []. split; [reflexivity|]. split; [now left|]. intros _ X. rewrite Rc in X. discriminate X.
  - unfold bind at 1. match goal with |- match ?m w2 with _ => _ end = _ -> _ => assert (keeps (fixed w2) T m) as K3 end.
    { apply keeps_when, F_gen; discriminate. }
    specialize (K3 w2 (fixed_refl w2)). destruct (when _ _ w2) as [u w3|] eqn:R3; [|discriminate]. rewrite upd_first. set (w4 := with_c _ w3).
    assert (fixed w2 w4) as (D4 & _ & C4) by (apply F_conn; [intros; split; reflexivity|exact K3]). assert (c_prog (w_c w4) = negb (p =? 0)) as P4 by reflexivity. clearbody w4.
    unfold bind at 1. destruct (update_timeout E hk w4) as [[] w5|] eqn:U; [|discriminate]. intros H. apply Done_inv in H as [<- <-].
    destruct (time_watch U) as (l & D5 & L & C5). destruct (timeout_effect U) as (Cb & _ & _ & _ & Nu).
    exists (Still p :: l). pose proof (during_trans (during_trans D D4) D5) as D6. split; [exact D6|]. split; [congruence|]. right. exists p, l. split; [reflexivity|]. split.
    + destruct L as [(_ & _ & ->)|X]; [now left|now right].
    + intros P _ B. destruct Nu as [[_ X]|X]; [|apply X; congruence]. rewrite P4 in X. apply negb_false_iff, Z.eqb_eq in X. contradiction.
Qed.
Definition tail (rc : Z) (w' : world) (l : list item) : Prop :=
  only_time l \/ exists l0 p l', l = l0 ++ Still p :: l' /\ only_time l0 /\ only_time l' /\
     (p <> 0 -> rc = HE_SUCCESS -> cb_nudge (c_cbs (w_c w')) = true -> c_nudging (w_c w') = true).
Lemma messages_watch w rc w' : handle_messages E hk w = Done rc w' -> exists l, during watch w w' l /\ c_ctype (w_c w') = c_ctype (w_c w) /\ tail rc w' l.
Proof.
  unfold handle_messages. unfold bind at 1. destruct (message_loop E hk (e_fuel E) w) as [rc1 w1|] eqn:R1; [|discriminate].
  destruct (fixed_of (F_loop (w0 := w) (e_fuel E)) R1) as (D1 & _ & C1).
  case_if; [intros H; apply Done_inv in H as [_ <-]; exists []; split; [exact D1|]; split; [exact C1|left; now left]|].
  unfold bind at 1, get at 1. unfold bind at 1. match goal with |- match ?m with _ => _ end = _ -> _ => destruct m as [rc2 w2|] eqn:R2; [|discriminate] end.
  assert (exists l, during watch w1 w2 l /\ only_time l /\ c_ctype (w_c w2) = c_ctype (w_c w1)) as (l1 & D2 & L1 & C2).
  { destruct (c_due (w_c w1)); [exact (reneg_watch R2)|]. apply Done_inv in R2 as [_ <-]. exists []. split; [apply fixed_refl|]. split; [now left|reflexivity]. }
  pose proof (during_trans D1 D2) as D. cbn [app] in D.
  case_if; [intros H; apply Done_inv in H as [_ <-]; exists l1; split; [exact D|]; split; [congruence|now left]|].
  intros H. destruct (check_watch H) as (l2 & D3 & C3 & L2). exists (l1 ++ l2). split; [exact (during_trans D D3)|]. split; [congruence|].
  destruct L2 as [->|(p & l' & -> & X & Y)]; [rewrite app_nil_r; now left|]. right. exists l1, p, l'. auto.
Qed.
(** A received packet. *)
Definition outcome (k : Z) (rc : Z) (w' : world) (l : list item) : Prop :=
  tail rc w' l \/ exists r err l', l = Step r err :: l' /\
    if wants_more (r, err)
    then if k =? HE_CONNECTION_TYPE_DATAGRAM then (exists t, l' = [Time t]) /\ (cb_nudge (c_cbs (w_c w')) = true -> c_nudging (w_c w') = true) else l' = []
    else tail rc w' l'.
Lemma step_watch w r err d w' : wolf_op E hk WNegotiate w = Done (r, err, d) w' ->
  during watch w w' [Step r err] /\ c_ctype (w_c w') = c_ctype (w_c w) /\ c_state (w_c w') = c_state (w_c w) /\ c_prog (w_c w') = c_prog (w_c w).
Proof.
  intros H. apply wolf_op_seq in H. destruct H as (rx & seg & -> & S). split; [|auto]. unfold during. cbn [w_t collect]. rewrite !collect_app.
  rewrite (collect_io (s := c_state (w_c w)) (f := watch) (seg := seg)); auto.
  - cbn [collect watch]. now rewrite !app_nil_r.
  - intros []; cbn; auto; discriminate.
Qed.
Lemma verify_watch w rc w' : verify_connection E hk w = Done rc w' ->
  exists l, during watch w w' l /\ c_ctype (w_c w') = c_ctype (w_c w) /\ outcome (c_ctype (w_c w)) rc w' l.
Proof.
  unfold verify_connection. unfold bind at 1, get at 1. unfold bind at 1.
  match goal with |- match ?m w with _ => _ end = _ -> _ => destruct (m w) as [u w1|] eqn:R1; [|discriminate]; assert (keeps (fixed w) T m) as K1 end.
  { case_if; [|apply keeps_ret]. apply keeps_bind; [apply keeps_upd; intros; apply F_conn; [intros; split; reflexivity|assumption]|]. intros _. apply F_gen; discriminate. }
  destruct (fixed_of K1 R1) as (D1 & _ & C1). clear K1 R1. rewrite <- C1.
  assert (forall l, during watch w1 w' l -> c_ctype (w_c w') = c_ctype (w_c w1) -> outcome (c_ctype (w_c w1)) rc w' l ->
    exists l, during watch w w' l /\ c_ctype (w_c w') = c_ctype (w_c w1) /\ outcome (c_ctype (w_c w1)) rc w' l) as Go.
  { intros l D C O. exists l. split; [exact (during_trans D1 D)|auto]. }
  unfold bind at 1, get at 1. destruct (Z.eqb_spec (c_state (w_c w1)) HE_STATE_CONNECTING) as [St|St].
  2:{ intros H. destruct (messages_watch H) as (l & D & C & X). apply (Go l); auto. now left. }
  unfold bind at 1. destruct (wolf_op E hk WNegotiate w1) as [[[r err] d] w2|] eqn:R2; [|discriminate]. destruct (step_watch R2) as (D2 & C2 & S2 & P2).
  assert (forall l, during watch w2 w' l -> c_ctype (w_c w') = c_ctype (w_c w2) ->
    (if wants_more (r, err) then if c_ctype (w_c w1) =? HE_CONNECTION_TYPE_DATAGRAM then (exists t, l = [Time t]) /\ (cb_nudge (c_cbs (w_c w')) = true -> c_nudging (w_c w') = true) else l = []
     else tail rc w' l) -> 
    exists l, during watch w w' l /\ c_ctype (w_c w') = c_ctype (w_c w1) /\ outcome (c_ctype (w_c w1)) rc w' l) as Go2.
  { intros l D C O. apply (Go (Step r err :: l)); [exact (during_trans D2 D)|congruence|]. right. exists r, err, l. auto. }
  clear Go. unfold wants_more in Go2. destruct (r =? SSL_SUCCESS); cbn [negb andb] in *.
  - unfold bind at 1. destruct (change_conn_state E hk HE_STATE_LINK_UP w2) as [u2 w3|] eqn:R3; [|discriminate].
    destruct (fixed_of (F_change (w0 := w2) HE_STATE_LINK_UP) R3) as (D3 & _ & C3).
    intros H. destruct (messages_watch H) as (l & D & C & X). apply (Go2 l); [exact (during_trans D3 D)|congruence|exact X].
  - rewrite <- negb_orb. destruct ((err =? SSL_ERROR_WANT_READ) || (err =? SSL_ERROR_WANT_WRITE)); cbn [negb].
    + unfold bind at 1, get at 1. rewrite C2. unfold bind at 1. destruct (Z.eqb_spec (c_ctype (w_c w1)) HE_CONNECTION_TYPE_DATAGRAM) as [Dg|Dg]; cbn [when].
      * destruct (update_timeout E hk w2) as [[] w3|] eqn:U; [|discriminate]. intros H. apply Done_inv in H as [_ <-].
        destruct (time_watch U) as (l & D & L & C). destruct (timeout_effect U) as (Cb & _ & _ & _ & Nu). apply (Go2 l); [exact D|exact C|].
        destruct L as [(X & _)|X]; [rewrite S2, St in X; discriminate X|]. split; [exact X|].
        destruct Nu as [[Y _]|Y]; [rewrite S2, St in Y; discriminate Y|]. intros B. apply Y. congruence.
      * unfold ret at 1. intros H. apply Done_inv in H as [_ <-]. apply (Go2 []); [apply fixed_refl|reflexivity|reflexivity].
    + assert (tail rc w' []) as X by (left; now left).
      destruct (_ =? _); [intros H; apply Done_inv in H as [_ <-]; now apply (Go2 []); [apply fixed_refl| |]|].
      destruct (_ =? _); [intros H; apply Done_inv in H as [_ <-]; now apply (Go2 []); [apply fixed_refl| |]|].
      rewrite upd_first. intros H. apply Done_inv in H as [_ <-]. apply (Go2 []); [|reflexivity|exact X]. apply (fixed_refl w2).
Qed.
Lemma outcome_later k rc rc' w1 w' l : (rc' = HE_SUCCESS -> rc = HE_SUCCESS) -> cb_nudge (c_cbs (w_c w')) = cb_nudge (c_cbs (w_c w1)) -> c_nudging (w_c w') = c_nudging (w_c w1) ->
  outcome k rc w1 l -> outcome k rc' w' l.
Proof.
  intros R B N. assert (forall l, tail rc w1 l -> tail rc' w' l) as Tl.
  { intros l0 [X|(l1 & p & l2 & X & Y & Z & V)]; [now left|]. right. exists l1, p, l2. rewrite B, N. auto 6. }
  intros [X|(r & err & l' & X & Y)]; [left; auto|]. right. exists r, err, l'. split; [exact X|]. rewrite B, N. destruct (wants_more _); auto.
Qed.
Lemma outside_watch b w rc w' : outside_data_received E hk b w = Done rc w' ->
  exists l, during watch w w' l /\ outcome (c_ctype (w_c w)) rc w' l.
Proof.
  assert (forall w1, fixed w w1 -> exists l, during watch w w1 l /\ outcome (c_ctype (w_c w)) rc w1 l) as Nil.
  { intros w1 (D & _). exists []. split; [exact D|]. left; left; now left. }
  unfold outside_data_received. unfold bind at 1, get at 1. case_if; [intros H; apply Done_inv in H as [_ <-]; apply Nil, fixed_refl|].
  unfold bind at 1. destruct (plugin_ingress E (c_out_chain (w_c w)) b (len b) w) as [[res d] w1|] eqn:R1; [|discriminate]. pose proof (fixed_of (F_plugin (w0 := w) (c_out_chain (w_c w)) b (len b)) R1) as F.
  case_if; [intros H; apply Done_inv in H as [_ <-]; now apply Nil|]. case_if; [intros H; apply Done_inv in H as [_ <-]; now apply Nil|]. case_if; [intros H; apply Done_inv in H as [_ <-]; now apply Nil|].
  unfold bind at 1, get at 1.
  assert (forall v v1 rc1 (f : rx -> rx), fixed w v -> verify_connection E hk v = Done rc1 v1 ->
    exists l, during watch w (with_c (fun c => set_rx (f (c_rx c)) c) v1) l /\ (forall rc', (rc' = HE_SUCCESS -> rc1 = HE_SUCCESS) -> outcome (c_ctype (w_c w)) rc' (with_c (fun c => set_rx (f (c_rx c)) c) v1) l)) as Main.
  { intros v v1 rc1 f (Dv & _ & Cv) H. destruct (verify_watch H) as (l & D & _ & O). rewrite Cv in O. exists l. split; [exact (during_trans Dv D)|].
    intros rc' Hrc. now apply (outcome_later Hrc (w1 := v1)). }
  case_if; [|case_if; [|intros H; apply Done_inv in H as [_ <-]; now apply Nil]].
  - unfold outside_packet_received. case_if; [intros H; apply Done_inv in H as [_ <-]; now apply Nil|].
    unfold bind at 1. destruct (ld8 d 0) as [h0|]; [|discriminate]. cbn [lift]. unfold ret at 1. unfold bind at 1. destruct (ld8 d 1) as [h1|]; [|discriminate]. cbn [lift]. unfold ret at 1.
    case_if; [intros H; apply Done_inv in H as [_ <-]; now apply Nil|].
    unfold bind at 1. destruct (ld8 d 2) as [ma|]; [|discriminate]. cbn [lift]. unfold ret at 1. unfold bind at 1. destruct (ld8 d 3) as [mi|]; [|discriminate]. cbn [lift]. unfold ret at 1.
    unfold bind at 1, get at 1. case_if; [intros H; apply Done_inv in H as [_ <-]; now apply Nil|].
    unfold bind at 1. destruct (ldh64 (e_le E) d 8) as [s|]; [|discriminate]. cbn [lift]. unfold ret at 1.
    case_if; [intros H; apply Done_inv in H as [_ <-]; now apply Nil|].
    unfold bind at 1. destruct (ldn d sizeof_wire_hdr (len d - sizeof_wire_hdr)) as [body|]; [|discriminate]. cbn [lift]. unfold ret at 1.
    rewrite upd_first. unfold bind at 1. match goal with |- match verify_connection E hk ?v with _ => _ end = _ -> _ => assert (fixed w v) as Fv end.
    { apply F_conn; [intros; split; reflexivity|exact F]. }
    destruct (verify_connection _ _ _) as [rc1 v1|] eqn:Ve; [|discriminate]. destruct (Main _ _ _ (set_rx_live false) Fv Ve) as (l & D & O).
    rewrite upd_first. destruct (negb (rc1 =? HE_SUCCESS)) eqn:Rc.
    + intros H. apply Done_inv in H as [<- <-]. exists l. split; [exact D|]. now apply O.
    + apply negb_false_iff, Z.eqb_eq in Rc. set (v2 := with_c _ v1) in *. intros H. destruct (fixed_of (F_session (w0 := v2) s) H) as (Ds & Bs & Cs).
      assert (c_nudging (w_c w') = c_nudging (w_c v2)) as Ns.
      { assert (keeps (fun u => c_nudging (w_c u) = c_nudging (w_c v2)) T (update_session_incoming hk s)) as K; [|specialize (K v2 eq_refl); now rewrite H in K].
        apply keeps_session_in; intros; auto; try apply keeps_ret. }
      exists l. split; [pose proof (during_trans D Ds) as X; now rewrite app_nil_r in X|]. apply (outcome_later (rc := HE_SUCCESS) (w1 := v2)); auto.
  - unfold outside_stream_received. unfold bind at 1, get at 1. case_if.
    { rewrite upd_first. intros H. apply Done_inv in H as [_ <-]. apply Nil, F_conn; [intros; split; reflexivity|exact F]. }
    rewrite upd_first. unfold bind at 1. match goal with |- match verify_connection E hk ?v with _ => _ end = _ -> _ => assert (fixed w v) as Fv end.
    { apply F_conn; [intros; split; reflexivity|exact F]. }
    destruct (verify_connection _ _ _) as [rc1 v1|] eqn:Ve; [|discriminate]. destruct (Main _ _ _ (set_rx_live false) Fv Ve) as (l & D & O).
    rewrite upd_first. intros H. apply Done_inv in H as [<- <-]. exists l. split; [exact D|]. now apply O.
Qed.
(** From the combined list to the three of the statements. *)
Lemma watch_part B (g : item -> list B) (f : Z -> ev -> list B) w w' l :
  (forall s e, f s e = flat_map g (watch s e)) -> during watch w w' l -> during f w w' (flat_map g l).
Proof.
  intros H D. assert (forall t, collect f t = flat_map g (collect watch t)) as Hom.
  { induction t as [|[s e] t IH]; [reflexivity|]. cbn [collect]. now rewrite IH, H, flat_map_app. }
  unfold during in *. now rewrite !Hom, D, flat_map_app.
Qed.
Definition g_step (i : item) := match i with Step r err => [(r, err)] | _ => [] end.
Definition g_time (i : item) := match i with Time t => [t] | _ => [] end.
Definition g_still (i : item) := match i with Still p => [p] | _ => [] end.
Ltac part := intros s e; destruct e; try reflexivity; match goal with q : query |- _ => destruct q; reflexivity | o : wop |- _ => destruct o; reflexivity end.
Lemma steps_of w w' l : during watch w w' l -> during handshakes w w' (flat_map g_step l).
Proof. apply watch_part. part. Qed.
Lemma times_of w w' l : during watch w w' l -> during timeouts w w' (flat_map g_time l).
Proof. apply watch_part. part. Qed.
Lemma still_of w w' l : during watch w w' l -> during unfinished w w' (flat_map g_still l).
Proof. apply watch_part. part. Qed.
Lemma only_steps l : only_time l -> flat_map g_step l = [] /\ flat_map g_still l = [].
Proof. intros [->|[t ->]]; split; reflexivity. Qed.
Lemma tail_steps rc w l : tail rc w l -> flat_map g_step l = [].
Proof.
  intros [X|(l0 & p & l' & -> & X & Y & _)]; [now apply only_steps|]. rewrite flat_map_app. cbn. now rewrite (proj1 (only_steps X)), (proj1 (only_steps Y)).
Qed.
End R.

(** A packet with which the handshake is not finished: on a datagram connection
    wolfSSL is asked for its timeout once and a timer is outstanding afterwards (if
    the host takes timers); on a stream connection there is nothing to time. *)
Theorem C41_refresh : forall E w b rc w' a, reached E w -> call E (OOutside b) w rc w' ->
  during handshakes w w' [a] -> wants_more a = true ->
  if c_ctype (w_c w) =? HE_CONNECTION_TYPE_DATAGRAM
  then (exists t, during timeouts w w' [t]) /\ (cb_nudge (c_cbs (w_c w')) = true -> outstanding (w_t w') = true)
  else during timeouts w w' [].
Proof.
  intros E w b rc w' [r err] R Cl H W. destruct (call_body Cl) as (w1 & Bd & Ew). cbn [api_body] in Bd. destruct (outside_watch Bd) as (l & D & O). cbn [push w_c] in O.
  assert (during watch w w' l) as D' by (rewrite Ew; now apply during_call). clear D.
  pose proof (during_unique H (steps_of D')) as Q. destruct O as [X|(r1 & err1 & l' & -> & O)]; [rewrite (tail_steps X) in Q; discriminate Q|].
  destruct (wants_more (r1, err1)) eqn:W1.
  - pose proof (times_of D') as Tm. cbn [flat_map g_time app] in Tm. destruct (_ =? _).
    + destruct O as [[t ->] O]. split; [exists t; exact Tm|]. intros B. rewrite Ew in *. cbn [push w_c] in B. specialize (O B).
      destruct (TJ_call (TJ_reached R) Cl) as (_ & _ & <- & _). exact O.
    + rewrite O in Tm. exact Tm.
  - cbn [flat_map g_step app] in Q. rewrite (tail_steps O) in Q. injection Q as -> ->. congruence.
Qed.
Print Assumptions C41_refresh.
(** A packet handled with success after which wolfSSL says that its renegotiation
    (or key update) is not finished: a timer is outstanding. *)
Theorem C41_renegotiates : forall E w b w' p, reached E w -> call E (OOutside b) w HE_SUCCESS w' ->
  during unfinished w w' [p] -> p <> 0 -> cb_nudge (c_cbs (w_c w')) = true -> outstanding (w_t w') = true.
Proof.
  intros E w b w' p R Cl H P B. destruct (call_body Cl) as (w1 & Bd & Ew). cbn [api_body] in Bd. destruct (outside_watch Bd) as (l & D & O). cbn [push w_c] in O.
  assert (during watch w w' l) as D' by (rewrite Ew; now apply during_call). clear D. pose proof (during_unique H (still_of D')) as Q.
  destruct (TJ_call (TJ_reached R) Cl) as (_ & _ & <- & _). rewrite Ew in B |- *. cbn [push w_c] in B |- *.
  assert (forall l, tail HE_SUCCESS w1 l -> flat_map g_still l = [p] -> c_nudging (w_c w1) = true) as Tl.
  { intros k [X|(l0 & p1 & l1 & -> & X & Y & V)] Qk; [rewrite (proj2 (only_steps X)) in Qk; discriminate Qk|].
    rewrite flat_map_app in Qk. cbn [flat_map g_still app] in Qk. rewrite (proj2 (only_steps X)), (proj2 (only_steps Y)) in Qk. cbn [app] in Qk. injection Qk as ->. auto. }
  destruct O as [X|(r1 & err1 & l' & -> & O)]; [now apply (Tl l)|]. cbn [flat_map g_still app] in Q.
  destruct (wants_more (r1, err1)); [|now apply (Tl l')]. destruct (_ =? _); [destruct O as [[t ->] _]; discriminate Q|subst l'; discriminate Q].
Qed.
Print Assumptions C41_renegotiates.
(** When the timer fires and there is still something to wait for, there is a new one. *)
Theorem C41_rearms : forall E w w', reached E w -> call E ONudge w HE_SUCCESS w' ->
  c_state (w_c w') <> HE_STATE_ONLINE \/ renegotiating (w_t w') = true -> cb_nudge (c_cbs (w_c w')) = true -> outstanding (w_t w') = true.
Proof.
  intros E w w' R Cl S B. destruct (TJ_call (TJ_reached R) Cl) as (_ & Pr & <- & _). rewrite <- Pr in S. clear Pr. destruct (call_body Cl) as (w1 & Bd & Ew). rewrite Ew in *. cbn [push w_c] in *. cbn [api_body] in Bd.
  assert (forall v, (update_timeout E (ret tt) ;;; ret HE_SUCCESS) v = Done HE_SUCCESS w1 -> c_nudging (w_c w1) = true) as U.
  { intros v. unfold bind at 1. destruct (update_timeout E (ret tt) v) as [[] v1|] eqn:U; [|discriminate]. intros H. apply Done_inv in H as [_ <-].
    destruct (timeout_effect U) as (Cb & St & Pr & _ & [[X Y]|X]); [|apply X; congruence]. destruct S as [S|S]; congruence. }
  revert Bd. unfold nudge. rewrite upd_first. unfold bind at 1, get at 1. case_if.
  - unfold bind at 1. destruct (send_auth _ _ _) as [r1 v|]; [|discriminate]. apply U.
  - unfold bind at 1. destruct (wolf_op _ _ _ _) as [[[r err] d] v|]; [|discriminate]. case_if; [|apply U].
    unfold bind at 1. destruct (change_conn_state _ _ _ _) as [u v1|]; [|discriminate]. intros H. apply Done_inv in H as [H _]. discriminate H.
Qed.
Print Assumptions C41_rearms.

(** ** Examples *)
(** A server that needs several flights: each datagram asks wolfSSL again. *)
Definition slow_env : env :=
  Env true 50 (fun t q => match q with QTimeout => 2 | _ => plain_ask t q end)
    plain_cb (fun _ => (ip 1, ip 2, ip 3)) (fun _ => (HE_PLUGIN_SUCCESS, []))
    (fun t => match t with (_, EWOp WNegotiate) :: _ => WRet (-1) SSL_ERROR_WANT_READ [] | _ => plain_wolf t end) (fun _ => HDone).
Example C41_example_refresh :
  let ops x := client_setup ++ [OClientConnect x [] []] in
  let w := world_of (run slow_env 0 (ops dctx) world_new) in let v := world_of (run slow_env 0 (ops dctx ++ [OOutside (dgram 0 [1])]) world_new) in
  let w1 := world_of (run slow_env 0 (ops sctx) world_new) in let v1 := world_of (run slow_env 0 (ops sctx ++ [OOutside [1]]) world_new) in
  reached slow_env w /\ call slow_env (OOutside (dgram 0 [1])) w HE_SUCCESS v /\ during handshakes w v [(-1, SSL_ERROR_WANT_READ)] /\
  c_ctype (w_c w) = HE_CONNECTION_TYPE_DATAGRAM /\ cb_nudge (c_cbs (w_c v)) = true /\ during timeouts w v [2] /\ outstanding (w_t v) = true /\
  reached slow_env w1 /\ call slow_env (OOutside [1]) w1 HE_SUCCESS v1 /\ during handshakes w1 v1 [(-1, SSL_ERROR_WANT_READ)] /\
  c_ctype (w_c w1) = HE_CONNECTION_TYPE_STREAM /\ during timeouts w1 v1 [].
Proof.
  cbv zeta. split; [exists (client_setup ++ [OClientConnect dctx [] []]); vm_compute; reflexivity|].
  split; [vm_compute; reflexivity|]. split; [vm_compute; reflexivity|]. split; [vm_compute; reflexivity|]. split; [vm_compute; reflexivity|]. split; [vm_compute; reflexivity|]. split; [vm_compute; reflexivity|].
  split; [exists (client_setup ++ [OClientConnect sctx [] []]); vm_compute; reflexivity|]. conj; vm_compute; reflexivity.
Qed.
Example C41_example_renegotiates :
  let w := world_of (run quick_env 0 (client_up ++ [ONudge; OScheduleReneg]) world_new) in
  let v := world_of (run quick_env 0 (client_up ++ [ONudge; OScheduleReneg; OOutside (dgram 0 [1])]) world_new) in
  let u := world_of (run quick_env 0 (client_up ++ [ONudge; OScheduleReneg; OOutside (dgram 0 [1]); ONudge]) world_new) in
  reached quick_env w /\ outstanding (w_t w) = false /\ call quick_env (OOutside (dgram 0 [1])) w HE_SUCCESS v /\ during unfinished w v [1] /\ outstanding (w_t v) = true /\
  cb_nudge (c_cbs (w_c v)) = true /\ reached quick_env v /\ call quick_env ONudge v HE_SUCCESS u /\ renegotiating (w_t u) = true /\ outstanding (w_t u) = true.
Proof.
  cbv zeta. split; [exists (client_up ++ [ONudge; OScheduleReneg]); vm_compute; reflexivity|].
  split; [vm_compute; reflexivity|]. split; [vm_compute; reflexivity|]. split; [vm_compute; reflexivity|]. split; [vm_compute; reflexivity|]. split; [vm_compute; reflexivity|].
  split; [exists (client_up ++ [ONudge; OScheduleReneg; OOutside (dgram 0 [1])]); vm_compute; reflexivity|]. conj; vm_compute; reflexivity.
Qed.
