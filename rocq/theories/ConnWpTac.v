(** Tactics for [ConnWp.v], and the functions of plugin_chain.c and wolf.c. *)
From Verif Require Import Base Codes Ctx Config Mss Frag FragSpec FragProofs ReasmTable Wire WireSpec WireProofs
  ConnState Conn
  ConnSpec HistSpec ConnSteps ConnWp.
Unset Strict Implicit.

Ltac have P := lazymatch goal with _ : P |- _ => fail | _ => idtac end.

(** Carry facts forward along steps. *)
Ltac fw :=
  repeat match goal with
  | S : Steps ?a ?b, H : has ?f (w_t ?a) = true |- _ => have (has f (w_t b) = true); pose proof (has_mono S H)
  | S : Steps ?a ?b, H : now ?f ?a |- _ => have (now f b); pose proof (now_mono S H)
  | S : Steps ?a ?b, H : calling ?f ?a |- _ => have (calling f b); pose proof (calling_mono S H)
  | S : Steps ?a ?b, H : role ?a |- _ => have (role b); pose proof (role_mono S H)
  end.
(** Knowing that the host has not called back at some point, use it. *)
Ltac sq :=
  repeat match goal with
  | S : Steps ?a ?b, H : re (w_t ?b) = false |- _ => have (re (w_t a) = false); pose proof (re_anti S H)
  end;
  repeat match goal with
  | K : keep ?a ?b, H : re (w_t ?b) = false |- _ => specialize (K H)
  | K : seq ?b ?P, H : re (w_t ?b) = false |- _ => specialize (K H)
  end.
Ltac sqi := let H := fresh "Hre" in intros H; sq.

(** Steps w w' from the steps at hand *)
Ltac stp := solve [ apply Steps_refl | assumption | eauto 3 using Steps_app | eauto 6 using Steps_app ].

Ltac wp1 :=
  match goal with
  | |- wp _ (bind _ _) _ _ => apply wp_bind
  | |- wp _ (ret _) _ _ => apply wp_ret
  | |- wp _ (get _) _ _ => apply wp_get
  | |- wp _ log _ _ => apply wp_log
  | |- wp _ (when ?b _) _ _ => unfold when
  | |- wp _ (match ?p with (_, _) => _ end) _ _ => destruct p eqn:?
  | |- wp _ (let _ := _ in _) _ _ => cbv zeta
  | |- wp _ (if ?b then _ else _) _ _ => destruct b eqn:?
  | |- Steps ?w ?w -> _ => intros _
  | |- Steps _ _ -> _ => let S := fresh "S" in intros S
  end.

Lemma now_push f s e (w w' : world) : w_t w' = (s, e) :: w_t w -> is_call e = false -> f e = true -> now f w'.
Proof.
  intros T C F. unfold now. rewrite T. cbn [upto]. rewrite C. unfold has. cbn [existsb snd]. now rewrite F.
Qed.
Lemma has_push f s e (w w' : world) : w_t w' = (s, e) :: w_t w -> f e = true -> has f (w_t w') = true.
Proof. intros T F. rewrite T. unfold has. cbn [existsb snd]. now rewrite F. Qed.

Lemma core_rx r c : core (set_rx r c) = core c.
Proof. reflexivity. Qed.

Section Leaf.
Variable E : env.
Variable hook : M unit.
Hypothesis HOOK : hook_ok E hook.
Notation wp := (wp E).

(** *** plugin_chain.c *)
Lemma wp_call_plugin i id data cap (Q : Z * bytes -> world -> Prop) w :
  (forall rc out w', Steps w w' -> w_c w' = w_c w -> bytes_ok out -> Q (rc, out) w') ->
  wp (call_plugin E i id data cap) Q w.
Proof.
  intros K. unfold call_plugin. apply wp_bind, wp_emit_plain; [reflexivity|]. intros w1 S1 C1 _ _.
  apply wp_bind, wp_log. intros _. destruct (e_plugin E (w_t w1)) as [rc out].
  apply wp_bind, wp_emit_plain; [reflexivity|]. intros w2 S2 C2 _ _. apply wp_ret.
  apply K; [stp|congruence|apply bytes_ok_u8s].
Qed.

Lemma wp_plugin_ingress ch : forall data cap (Q : Z * bytes -> world -> Prop) w,
  (forall rc out w', Steps w w' -> w_c w' = w_c w -> (bytes_ok data -> bytes_ok out) -> (ch = [] -> out = data) -> Q (rc, out) w') ->
  wp (plugin_ingress E ch data cap) Q w.
Proof.
  induction ch as [|[p|] ch IH]; intros data cap Q w K; cbn [plugin_ingress].
  - apply wp_ret. apply K; auto using Steps_refl.
  - destruct (pl_in p).
    + apply wp_bind, wp_call_plugin. intros rc out w1 S1 C1 O1 _. cbv beta iota.
      destruct (rc =? _); [apply wp_ret, K; auto; discriminate|].
      destruct (rc =? _); [apply wp_ret, K; auto; discriminate|].
      apply IH; auto. intros rc' out' w2 S2 C2 O2 _. apply K; auto; [stp|congruence|discriminate].
    + apply IH; auto. intros. apply K; auto. discriminate.
  - apply IH; auto. intros. apply K; auto. discriminate.
Qed.

Lemma wp_plugin_egress ch : forall data cap (Q : Z * bytes -> world -> Prop) w,
  (forall rc out w', Steps w w' -> w_c w' = w_c w -> (bytes_ok data -> bytes_ok out) -> (ch = [] -> out = data) -> Q (rc, out) w') ->
  wp (plugin_egress E ch data cap) Q w.
Proof.
  induction ch as [|node ch IH]; intros data cap Q w K; cbn [plugin_egress].
  - apply wp_ret. apply K; auto using Steps_refl.
  - apply wp_bind, IH; auto. intros rc out w1 S1 C1 O1 _ _. cbv beta iota.
    destruct (negb _); [apply wp_ret, K; auto; discriminate|].
    destruct node as [p|]; [|apply wp_ret, K; auto; discriminate].
    destruct (pl_out p); [|apply wp_ret, K; auto; discriminate].
    apply wp_bind, wp_call_plugin. intros rc' out' w2 S2 C2 O2 _. cbv beta iota.
    repeat destruct (rc' =? _); apply wp_ret, K; auto; try stp; try congruence; discriminate.
Qed.

(** *** wolf.c *)
Lemma stuck_stale w : negb (rx_live (c_rx (w_c w))) = true -> stuck_ok E w UB_stale.
Proof. intros H. apply negb_true_iff in H. repeat split; auto; discriminate. Qed.
Lemma stuck_null_sq w : seq w (has alloc_failed (w_t w) = true \/ has tls_lost (w_t w) = true) -> stuck_ok E w UB_null.
Proof. intros H; repeat split; try discriminate. intros Hr _; auto. Qed.

Lemma cok_rx r c : cok c -> (forall s, rx_rest r = Some s -> rx_left r = len s) -> cok (set_rx r c).
Proof. intros [] H. constructor; auto. Qed.

Lemma wp_set_rx (r : rx) (Q : unit -> world -> Prop) w :
  (Good w -> forall s, rx_rest r = Some s -> rx_left r = len s) ->
  (forall w', Steps w w' -> w_c w' = set_rx r (w_c w) -> w_t w' = w_t w -> Q tt w') ->
  wp (upd (set_rx r)) Q w.
Proof.
  intros H K G. apply wp_upd; auto. intros C. apply cok_rx; auto.
Qed.

Lemma wp_dtls_read sz (Q : Z * bytes -> world -> Prop) w :
  (forall r d w', Steps w w' -> (exists x, w_c w' = set_rx x (w_c w)) -> Q (r, d) w') ->
  wp (dtls_read sz) Q w.
Proof.
  intros K. unfold dtls_read. repeat wp1.
  1: apply K; [apply Steps_refl|exists (c_rx (w_c w)); now destruct (w_c w)].
  assert (forall d, Q (WOLFSSL_CBIO_ERR_WANT_READ, d) w) as K0.
  { intros; apply K; [apply Steps_refl|exists (c_rx (w_c w)); now destruct (w_c w)]. }
  destruct (rx_data (c_rx (w_c w))) as [d|]; repeat wp1; auto.
  - apply wp_set_rx.
    { intros G s. cbn [set_rx_seen rx_rest rx_left]. apply (ok_rx (Reach_cok (proj1 G))). }
    intros w1 S1 C1 T1. repeat wp1. apply K; eauto.
  - apply wp_stuck. intros; now apply stuck_stale.
  - apply wp_set_rx.
    { intros G s. cbn [set_rx_seen rx_rest rx_left]. apply (ok_rx (Reach_cok (proj1 G))). }
    intros w1 S1 C1 T1. repeat wp1. apply K; eauto.
Qed.

Lemma wp_tls_read sz (Q : Z * bytes -> world -> Prop) w :
  (forall r d w', Steps w w' -> (exists x, w_c w' = set_rx x (w_c w)) -> Q (r, d) w') ->
  wp (tls_read sz) Q w.
Proof.
  intros K. apply wp_good; intros G. pose proof (ok_rx (Reach_cok (proj1 G))) as R.
  unfold tls_read. repeat wp1.
  1,2: apply K; [apply Steps_refl|exists (c_rx (w_c w)); now destruct (w_c w)].
  destruct (rx_rest (c_rx (w_c w))) as [rest|] eqn:Hrest; repeat wp1.
  3: apply K; [apply Steps_refl|exists (c_rx (w_c w)); now destruct (w_c w)].
  1: apply wp_stuck; intros; now apply stuck_stale.
  specialize (R rest eq_refl). pose proof (len_nonneg rest).
  remember (if sz <? rx_left (c_rx (w_c w)) then sz else rx_left (c_rx (w_c w))) as n eqn:Hn.
  assert (0 <= n <= len rest).
  { apply orb_false_iff in Heqb. destruct (sz <? rx_left (c_rx (w_c w))) eqn:?; lia. }
  eapply wp_lift; [apply ldn_ok; lia|]. repeat wp1. apply wp_set_rx.
  { intros _ s. cbn. intros [= <-]. rewrite len_skipn. lia. }
  intros w1 S1 C1 T1. repeat wp1. apply K; eauto.
Qed.

Lemma wp_call_outside p (Q : Z -> world -> Prop) w :
  len p <= HE_MAX_WIRE_MTU ->
  seq w (cb_outside (c_cbs (w_c w)) = true) ->
  seq w (c_out_chain (w_c w) = [] -> c_io (w_c w) <> HE_CONNECTION_TYPE_STREAM -> wire_form (w_c w) p) ->
  (forall v w', Steps w w' -> seq w' (w_c w' = w_c w) -> Q v w') ->
  wp (call_outside E hook p) Q w.
Proof.
  intros L C F K. unfold call_outside. repeat wp1.
  - apply wp_callback; auto.
    + intros G. split; [intros _; now apply Good_mid1|]. auto.
    + intros w1 v S1 G1. apply plain_ok; auto.
    + intros w1 w2 v S1 S2 _ _ H. apply K; auto. stp.
  - apply wp_stuck. intros G. apply stuck_null_sq. intros Hr. specialize (C Hr). congruence.
Qed.

Lemma wp_dtls_write buf (Q : Z -> world -> Prop) w :
  seq w (c_io (w_c w) <> HE_CONNECTION_TYPE_STREAM) -> bytes_ok buf ->
  (forall v w', Steps w w' -> seq w' (w_c w' = w_c w) -> Q v w') ->
  wp (dtls_write E hook buf) Q w.
Proof.
  intros Hio Hb K. apply wp_good; intros G. pose proof (Reach_cok (proj1 G)) as C.
  assert (forall v, Q v w) as K0 by (intros; apply K; [apply Steps_refl|intros _; reflexivity]).
  pose proof (len_nonneg buf). unfold dtls_write. cbv zeta. repeat wp1; auto.
  change HE_MAX_WIRE_MTU with 1500 in *. change sizeof_wire_hdr with 16 in *.
  eapply wp_lift; [apply write_packet_header_ok; [apply C|apply C|lia]|]. repeat wp1.
  set (h := wire_header _ _ _ _ _).
  assert (len h = 16) as Lh by (unfold h, wire_header; lens).
  eapply wp_lift; [apply stn_tail; lia|]. repeat wp1.
  eapply wp_lift; [apply ldn_ok; try lia; lens|]. repeat wp1.
  rewrite slice_prefix by lens.
  apply wp_plugin_egress.
  intros rc out w1 S1 C1 O1 Hout _. 
  assert (forall v, Q v w1) as K1 by (intros; apply K; [stp|intros _; auto]).
  repeat wp1; auto.
  assert (len out <= 1500) by lia.
  assert (forall w2, Steps w1 w2 -> seq w2 (w_c w2 = w_c w1) ->
     seq w2 (cb_outside (c_cbs (w_c w2)) = true) /\
     seq w2 (c_out_chain (w_c w2) = [] -> c_io (w_c w2) <> HE_CONNECTION_TYPE_STREAM -> wire_form (w_c w2) out)) as OK.
  { intros w2 S2 Hw2. split; intros Hr; rewrite (Hw2 Hr); auto.
    rewrite C1. intros Hc _. exists (e_le E), buf. rewrite (Hout Hc). unfold h, wire_session.
    reflexivity. }
  destruct (OK w1 (Steps_refl _) ltac:(intros _; reflexivity)).
  apply wp_call_outside; auto. intros v1 w2 S2 Hw2 _.
  assert (forall v, Q v w2) as K2 by (intros; apply K; [stp|intros Hr; rewrite (Hw2 Hr); auto]).
  destruct (OK w2 S2 Hw2).
  repeat wp1; auto.
  apply wp_call_outside; auto. intros v2 w3 S3 Hw3 _.
  assert (seq w3 (w_c w3 = w_c w1)) as Hw3' by (sqi; congruence).
  assert (forall v, Q v w3) as K3 by (intros; apply K; [stp|intros Hr; rewrite (Hw3' Hr); auto]).
  assert (Steps w1 w3) as S13 by stp. destruct (OK w3 S13 Hw3').
  repeat wp1; auto.
  apply wp_call_outside; auto. intros v3 w4 S4 Hw4 _.
  assert (forall v, Q v w4) as K4.
  { intros; apply K; [stp|intros Hr; rewrite (Hw4 Hr), (Hw3' (re_anti S4 Hr)); auto]. }
  repeat wp1; auto.
Qed.

Lemma wp_tls_write buf (Q : Z -> world -> Prop) w :
  seq w (c_io (w_c w) = HE_CONNECTION_TYPE_STREAM) -> bytes_ok buf ->
  (forall v w', Steps w w' -> seq w' (w_c w' = w_c w) -> Q v w') ->
  wp (tls_write E hook buf) Q w.
Proof.
  intros Hio Hb K.
  assert (forall v, Q v w) as K0 by (intros; apply K; [apply Steps_refl|intros _; reflexivity]).
  pose proof (len_nonneg buf). unfold tls_write. cbv zeta. repeat wp1; auto.
  all: change HE_MAX_WIRE_MTU with 1500 in *.
  all: destruct (len buf <? 1500) eqn:Hn.
  all: eapply wp_lift; [apply ldn_ok; lia|]; repeat wp1.
  all: apply wp_plugin_egress.
  all: intros rc out w1 S1 C1 O1 Hout _.
  all: assert (forall v, Q v w1) as K1 by (intros; apply K; [stp|intros _; auto]).
  all: repeat wp1; auto.
  all: apply wp_call_outside; [unfold HE_MAX_WIRE_MTU in *; lia|intros _; auto|rewrite C1; sqi; congruence|].
  all: intros v1 w2 S2 H2 _;
    assert (forall v, Q v w2) as K2 by (intros; apply K; [stp|intros Hr; rewrite (H2 Hr); auto]).
  all: repeat wp1; auto.
Qed.

(** only the received data changes *)
Definition keep_rx (w w' : world) : Prop := seq w' (exists x, w_c w' = set_rx x (w_c w)).
Lemma keep_rx_refl w : keep_rx w w.
Proof. intros _. exists (c_rx (w_c w)). now destruct (w_c w). Qed.
Lemma keep_rx_trans w1 w2 w3 : Steps w2 w3 -> keep_rx w1 w2 -> keep_rx w2 w3 -> keep_rx w1 w3.
Proof.
  intros S H1 H2 Hr. destruct (H2 Hr) as [x ->]. destruct (H1 (re_anti S Hr)) as [y ->]. exists x. reflexivity.
Qed.
Lemma keep_rx_eq w w' : seq w' (w_c w' = w_c w) -> keep_rx w w'.
Proof. intros H Hr. rewrite (H Hr). exists (c_rx (w_c w)). now destruct (w_c w). Qed.
Lemma keep_rx_keep w w' : keep_rx w w' -> keep w w'.
Proof. intros H Hr. destruct (H Hr) as [x ->]. reflexivity. Qed.

Lemma wp_io_read sz (Q : Z * bytes -> world -> Prop) w :
  (forall x w', Steps w w' -> keep_rx w w' -> Q x w') -> wp (io_read sz) Q w.
Proof.
  intros K. unfold io_read. apply wp_bind, wp_get. intros _. apply wp_bind.
  destruct (_ =? _); [apply wp_tls_read|apply wp_dtls_read];
    (intros r d w1 S1 (x & C1) _; repeat wp1; apply wp_emit_plain; [reflexivity|];
     intros w2 S2 C2 T2 _; repeat wp1; apply K; [stp|]; intros _; exists x; congruence).
Qed.
Lemma wp_io_write buf (Q : Z -> world -> Prop) w :
  bytes_ok buf -> (forall x w', Steps w w' -> keep_rx w w' -> Q x w') -> wp (io_write E hook buf) Q w.
Proof.
  intros Hb K. unfold io_write. apply wp_bind, wp_get. intros _. apply wp_bind.
  destruct (_ =? _) eqn:Hio; [apply wp_tls_write|apply wp_dtls_write]; auto; try (intros _; lia);
    (intros r w1 S1 C1 _; repeat wp1; apply wp_emit_plain; [reflexivity|];
     intros w2 S2 C2 T2 _; repeat wp1; apply K; [stp|]; apply keep_rx_eq; sqi; congruence).
Qed.

Lemma wp_run_strat s : forall (Q : Z * Z * bytes -> world -> Prop) w,
  (forall x w', Steps w w' -> keep_rx w w' -> Q x w') -> wp (run_strat E hook s) Q w.
Proof.
  induction s as [r err d|sz k IH|buf k IH]; intros Q w K; cbn [run_strat].
  - apply wp_ret, K; [apply Steps_refl|apply keep_rx_refl].
  - apply wp_bind, wp_io_read. intros [r d] w1 S1 K1 _. apply IH. intros x w2 S2 K2. apply K; [stp|].
    eapply keep_rx_trans; eauto.
  - apply wp_bind, wp_io_write; [apply bytes_ok_u8s|]. intros r w1 S1 K1 _. apply IH. intros x w2 S2 K2.
    apply K; [stp|]. eapply keep_rx_trans; eauto.
Qed.

(** *** wolfSSL operations *)
Lemma normal_result_ok o r err d r' err' d' :
  normal_result o r err d = (r', err', d') ->
  len d' <= 1500 /\ bytes_ok d' /\ (o = WRecv -> 0 < r' -> r' = len d' /\ 1 <= len d').
Proof.
  unfold normal_result. change HE_MAX_WIRE_MTU with 1500.
  destruct o; try (intros [= <- <- <-]; repeat split; [cbn; lia|constructor|discriminate|discriminate]).
  pose proof (bytes_ok_firstn (Z.to_nat 1500) (bytes_ok_u8s d)) as O.
  pose proof (len_firstn (Z.to_nat 1500) (u8s d)) as L.
  destruct (firstn _ (u8s d)) as [|b l] eqn:Ed.
  - destruct (0 <? r) eqn:?; intros [= <- <- <-]; repeat split; try (cbn; lia); constructor.
  - intros [= <- <- <-]. split; [lia|]. split; [auto|]. intros _ _. split; auto. rewrite len_cons.
    pose proof (len_nonneg l). lia.
Qed.

Lemma wp_wolf_op o (Q : Z * Z * bytes -> world -> Prop) w :
  (Good w -> emit_ok w (EWOp o)) ->
  (forall r err d w1 w2, Steps w w1 -> Steps w1 w2 -> w_c w2 = w_c w1 ->
     w_t w2 = (c_state (w_c w1), EWEnd o r err d) :: w_t w1 ->
     keep_rx w w2 -> len d <= 1500 -> bytes_ok d ->
     (o = WRecv -> 0 < r -> r = len d /\ 1 <= len d) ->
     (c_wolf (w_c w) = false -> r = BAD_FUNC_ARG /\ err = BAD_FUNC_ARG) -> Q (r, err, d) w2) ->
  wp (wolf_op E hook o) Q w.
Proof.
  intros H K. unfold wolf_op.
  apply wp_bind, wp_emit; auto. intros w1 S1 C1 T1 _. repeat wp1.
  - apply wp_run_strat. intros [[r err] d] w2 S2 K2 _. repeat wp1.
    subst p. destruct (normal_result_ok Heqp) as (N1 & N2 & N3).
    apply wp_emit; auto.
    { intros G2. split; [intros _; now apply Good_mid1|]. exact N1. }
    intros w3 S3 C3 T3 _. repeat wp1. apply (K _ _ _ w2 w3); auto; try stp.
    + intros Hr. rewrite C3, <- C1. apply K2. eapply re_anti; eauto.
    + intros F. rewrite C1, F in *. discriminate.
  - apply wp_emit; auto.
    { intros G2. split; [intros _; now apply Good_mid1|]. cbn. unfold HE_MAX_WIRE_MTU. lia. }
    intros w3 S3 C3 T3 _. repeat wp1. apply (K BAD_FUNC_ARG BAD_FUNC_ARG [] w1 w3); auto; try stp.
    + apply keep_rx_eq. intros _. congruence.
    + cbn; lia.
    + constructor.
    + unfold BAD_FUNC_ARG; intros _ ?; lia.
Qed.

End Leaf.
