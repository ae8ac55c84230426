(** The basic parts of conn.c: events, messages, state changes, timers,
    authentication requests, renegotiation. *)
From Verif Require Import Base Codes Ctx Config Mss Frag FragSpec FragProofs ReasmTable Wire WireSpec WireProofs
  ConnState Conn ConnSpec HistSpec ConnSteps ConnWp ConnWpTac.
Unset Strict Implicit.

Lemma core_wolf_err v c : core (set_wolf_err v c) = core c.
Proof. reflexivity. Qed.
Ltac okc := let C := fresh in intros C; destruct C; constructor; cbn; auto.
Ltac wpu := apply wp_upd; [reflexivity|okc|].

(** all of [core] except the state / the renegotiation flag *)
Definition keepS (w w' : world) : Prop := seq w' (core (set_state 0 (w_c w')) = core (set_state 0 (w_c w))).
Definition keepP (w w' : world) : Prop := seq w' (core (set_prog false (w_c w')) = core (set_prog false (w_c w))).

(** Facts about fields from [keep] *)
Ltac kp K :=
  match type of K with
  | core (w_c ?a) = core (w_c ?b) =>
    let H := fresh in
    pose proof K as H; unfold core in H; injection H;
    clear H; intros
  end.

Section Core.
Variable E : env.
Variable hook : M unit.
Hypothesis HOOK : hook_ok E hook.
Notation wp := (wp E).

Lemma wp_generate_event e (Q : unit -> world -> Prop) w :
  (e = HE_EVENT_PONG \/ e = HE_EVENT_PENDING_SESSION_ACKNOWLEDGED) ->
  seq w (c_state (w_c w) <> HE_STATE_DISCONNECTED) ->
  (forall w', Steps w w' -> seq w' (w_c w' = w_c w) -> Q tt w') ->
  wp (generate_event hook e) Q w.
Proof.
  intros He Hs K. unfold generate_event. repeat wp1.
  - apply wp_notify; auto.
    + intros G. split; [intros _; now apply Good_mid1|]. cbn. split; [auto|]. split; [auto|]. tauto.
    + destruct He; subst e; reflexivity.
  - apply K; [apply Steps_refl|intros _; reflexivity].
Qed.

Lemma wp_send_message m (Q : Z -> world -> Prop) w :
  (Good w -> send_ok w m) ->
  (forall rc w', Steps w w' -> keep w w' -> Q rc w') ->
  wp (send_message E hook m) Q w.
Proof.
  intros Hs K. unfold send_message. apply wp_bind, wp_wolf_op; auto.
  { intros G. split; [intros _; now apply Good_mid1|]. cbn. auto. }
  intros r err d w1 w2 S1 S2 C2 T2 K2 _ _ _ _ _. cbv beta iota.
  pose proof (keep_rx_keep K2) as K3. assert (Steps w w2) by stp.
  repeat wp1; auto.
  wpu. intros w3 S3 C3 T3. repeat wp1. apply K; [stp|]. eapply keep_trans; eauto.
  intros _. rewrite C3. reflexivity.
Qed.

(** *** Programs started where the connection is in the middle of something *)
Definition OK1 (w : world) : Prop := Reach w /\ seq w (mid1 w = false).
Definition wpr {A} (m : M A) (Q : A -> world -> Prop) (w : world) : Prop :=
  OK1 w -> match m w with
           | Done a w' => Steps w w' /\ Good w' /\ Q a w'
           | Stuck u w' => Steps w w' /\ stuck_ok E w' u
           end.
Lemma Good_OK1 w : Good w -> OK1 w.
Proof. intros [R M]. split; auto. intros Hr. now apply M. Qed.
Lemma wp_wpr A (m : M A) (Q : A -> world -> Prop) w : wpr m Q w -> wp m Q w.
Proof. intros H G. apply H. now apply Good_OK1. Qed.
Lemma wpr_wp A (m : M A) (Q : A -> world -> Prop) w :
  (OK1 w -> seq w (mid2 w = false /\ ~ mid3 w)) -> wp m Q w -> wpr m Q w.
Proof.
  intros M H O. apply H. pose proof O as [R M1]. split; auto. intros Hr. split; [auto|]. now apply (M O).
Qed.
Lemma wpr_get A C (f : conn -> A) (k : A -> M C) (Q : C -> world -> Prop) w :
  wpr (k (f (w_c w))) Q w -> wpr (bind (get f) k) Q w.
Proof. exact id. Qed.
Lemma wpr_assoc A C D (m : M A) (f : A -> M C) (g : C -> M D) (Q : D -> world -> Prop) w :
  wpr (bind m (fun a => bind (f a) g)) Q w -> wpr (bind (bind m f) g) Q w.
Proof. unfold wpr, bind. intros H O. specialize (H O). destruct (m w); auto. Qed.
Lemma wpr_ret_bind A C (a : A) (k : A -> M C) (Q : C -> world -> Prop) w :
  wpr (k a) Q w -> wpr (bind (ret a) k) Q w.
Proof. exact id. Qed.
Lemma wpr_step A (k : M A) f (Q : A -> world -> Prop) w :
  (OK1 w -> Step w (World (f (w_c w)) (w_t w)) /\ seq w (mid1 (World (f (w_c w)) (w_t w)) = false)) ->
  (forall w', Steps w w' -> w_c w' = f (w_c w) -> w_t w' = w_t w -> wpr k Q w') ->
  wpr (upd f ;;; k) Q w.
Proof.
  intros H K O. destruct (H O) as [S M]. unfold bind, upd.
  set (w' := World (f (w_c w)) (w_t w)) in *. assert (Steps w w') as S' by now apply Steps_one.
  specialize (K w' S' eq_refl eq_refl).
  assert (OK1 w') as O' by (split; [eapply R_step; [apply O|exact S]|exact M]).
  specialize (K O'). destruct (k w') as [a w2|u w2]; destruct K as (S2 & K);
    (split; [eapply Steps_app; eauto|exact K]).
Qed.
Lemma wpr_notify A (k : M A) e (Q : A -> world -> Prop) w :
  (OK1 w -> emit_ok w e) -> special e = false ->
  (forall w', Steps w w' -> seq w' (w_c w' = w_c w) -> wpr k Q w') ->
  wpr (notify hook e ;;; k) Q w.
Proof.
  intros H Sp K O. specialize (H O). unfold notify, bind, emit.
  set (w1 := World (w_c w) ((c_state (w_c w), e) :: w_t w)).
  assert (Step w w1) as S by now constructor.
  assert (Reach w1) as R1 by (eapply R_step; [apply O|exact S]).
  pose proof (HOOK R1) as HH. destruct (hook w1) as [[] w2|u w2].
  - destruct HH as [S2 H2]. assert (Steps w w2) as S12 by (eapply Steps_trans; eauto).
    assert (OK1 w2) as O2.
    { split; [eapply Reach_Steps; eauto|]. intros Hr. rewrite (H2 Hr). unfold mid1. cbn [w1 w_t w_c].
      destruct e; auto; cbn in Sp; try discriminate. now rewrite Sp. }
    assert (seq w2 (w_c w2 = w_c w)) as C2 by (intros Hr; now rewrite (H2 Hr)).
    specialize (K w2 S12 C2 O2). destruct (k w2) as [a w3|u w3]; destruct K as (S3 & K);
      (split; [eapply Steps_app; eauto|exact K]).
  - destruct HH as [S2 H2]. split; [eapply Steps_trans; eauto|exact H2].
Qed.

(** *** State changes *)
Lemma mid1_state s w : mid1 (World (set_state s (w_c w)) (w_t w)) = mid1 w.
Proof. reflexivity. Qed.

Lemma wpr_set_conn_state A s (k : bool -> M A) (Q : A -> world -> Prop) w :
  (OK1 w -> c_state (w_c w) <> s -> state_ok w s) ->
  (forall b w', Steps w w' -> b = negb (c_state (w_c w) =? s) ->
     seq w' (w_c w' = set_state s (w_c w)) -> wpr (k b) Q w') ->
  wpr (bind (set_conn_state hook s) k) Q w.
Proof.
  intros H K. unfold set_conn_state. apply wpr_assoc, wpr_get. destruct (_ =? s) eqn:Es.
  - apply wpr_ret_bind, K; [apply Steps_refl|reflexivity|]. intros _. apply Z.eqb_eq in Es. rewrite <- Es.
    now destruct (w_c w).
  - intros O. pose proof O as [R M1]. assert (c_state (w_c w) <> s) as Ns by lia. specialize (H O Ns).
    pose proof (S_state H Ns) as S. set (w1 := World (set_state s (w_c w)) _) in S.
    assert (Reach w1) as R1 by (eapply R_step; eauto).
    assert (seq w1 (mid1 w1 = false)) as M1'.
    { intros Hr. unfold w1. destruct (cb_state _); [reflexivity|]. unfold w1 in Hr.
      apply M1. eapply re_anti; [apply Steps_one, S|]. exact Hr. }
    assert (forall w2, Steps w1 w2 -> seq w2 (w2 = w1) -> OK1 w2 /\
        match (k true w2) with
        | Done a w' => Steps w w' /\ Good w' /\ Q a w'
        | Stuck u w' => Steps w w' /\ stuck_ok E w' u
        end) as Fin.
    { intros w2 S2 H2. assert (OK1 w2) as O2.
      { split; [eapply Reach_Steps; eauto|]. intros Hr. rewrite (H2 Hr). apply M1'. now rewrite <- (H2 Hr). }
      split; [exact O2|].
      assert (Steps w w2) as S12 by (eapply Steps_trans; eauto).
      specialize (K true w2 S12 eq_refl). assert (seq w2 (w_c w2 = set_state s (w_c w))) as C2
        by (intros Hr; now rewrite (H2 Hr)).
      specialize (K C2 O2). destruct (k true w2) as [a w3|u w3]; destruct K as (S3 & K);
        (split; [eapply Steps_app; eauto|exact K]). }
    unfold bind, upd, get, when, notify, emit, ret. cbn [w_c set_state c_cbs].
    change (c_cbs (set_state s (w_c w))) with (c_cbs (w_c w)).
    destruct (cb_state (c_cbs (w_c w))) eqn:Hcb; unfold w1 in *; cbn [w_c w_t] in *.
    + unfold bind. cbn [w_c c_state set_state] in *.
      pose proof (HOOK R1) as HH. destruct (hook _) as [[] w2|u w2].
      * destruct HH as [S2 H2]. now apply Fin.
      * destruct HH as [S2 H2]. split; [eapply Steps_trans; eauto|exact H2].
    + apply Fin; [apply Steps_refl|intros _; reflexivity].
Qed.

(** The middle conditions after a change of state *)
Definition settles (w : world) (s : Z) : Prop :=
  (s = HE_STATE_LINK_UP -> c_is_server (w_c w) = true \/ has server_call (w_t w) = true) /\
  (s = HE_STATE_ONLINE -> once (w_t w) -> ~ pm_mid (c_pm (w_c w))).

Lemma settles_mid s w w' : Steps w w' -> re (w_t w') = false -> settles w s ->
  w_c w' = set_state s (w_c w) -> mid2 w' = false /\ ~ mid3 w'.
Proof.
  intros S Hr [A B] C. unfold mid2, mid3. rewrite C. cbn [c_is_server set_state c_state c_pm]. split.
  - destruct (s =? HE_STATE_LINK_UP) eqn:F; [|now rewrite !andb_false_r].
    destruct A as [A|A]; [lia|rewrite A; cbn; now rewrite andb_false_r|].
    now rewrite (has_mono S A).
  - intros (O & F & P). apply (B F); auto. eapply once_anti; eauto.
Qed.

Lemma wp_set_conn_state s (Q : bool -> world -> Prop) w :
  (Good w -> c_state (w_c w) <> s -> state_ok w s /\ seq w (settles w s)) ->
  (forall b w', Steps w w' -> b = negb (c_state (w_c w) =? s) ->
     seq w' (w_c w' = set_state s (w_c w)) -> Q b w') ->
  wp (set_conn_state hook s) Q w.
Proof.
  intros H K G.
  assert (wpr (bind (set_conn_state hook s) (fun b => ret b)) Q w) as W.
  { apply wpr_set_conn_state.
    - intros _ Ns. now apply H.
    - intros b w' S Hb C. apply wpr_wp; [|apply wp_ret, K; auto]. intros _ Hr.
      destruct (Z.eq_dec (c_state (w_c w)) s) as [Es|Ns].
      + assert (w_c w' = w_c w) as Ec by (rewrite (C Hr); rewrite <- Es; now destruct (w_c w)).
        destruct G as [_ M]. destruct (M (re_anti S Hr)) as (_ & M2 & M3).
        split.
        * unfold mid2 in *. rewrite Ec. destruct (has server_call (w_t w')) eqn:F; [reflexivity|].
          now rewrite (has_anti S F) in M2.
        * unfold mid3 in *. rewrite Ec. intros (O & N). apply M3. split; auto. eapply once_anti; eauto.
      + destruct (H G Ns) as [_ St]. eapply settles_mid; eauto. apply St. eapply re_anti; eauto. }
  specialize (W (Good_OK1 G)). unfold bind, ret in W. destruct (set_conn_state hook s w); exact W.
Qed.

Lemma wp_change_state s (Q : unit -> world -> Prop) w :
  s <> HE_STATE_LINK_UP ->
  (Good w -> c_state (w_c w) <> s -> state_ok w s /\ seq w (settles w s)) ->
  (forall w', Steps w w' -> seq w' (w_c w' = set_state s (w_c w)) -> Q tt w') ->
  wp (change_conn_state E hook s) Q w.
Proof.
  intros Ns H K. unfold change_conn_state. apply wp_bind, wp_set_conn_state; auto.
  intros b w' S _ C _. replace (s =? HE_STATE_LINK_UP) with false by lia. rewrite andb_false_r.
  apply wp_ret, K; auto.
Qed.

(** *** Authentication requests *)
Definition send_by_type : M Z :=
  let! ty := get c_auth_type in
  if ty =? HE_AUTH_TYPE_USERPASS then send_auth_userpass E hook
  else if ty =? HE_AUTH_TYPE_TOKEN then send_auth_token E hook
  else if ty =? HE_AUTH_TYPE_CB then send_auth_buf E hook
  else ret HE_ERR_INVALID_AUTH_TYPE.

Definition auth_ready (w : world) : Prop :=
  has client_call (w_t w) = true /\ has negotiated (w_t w) = true /\ (calling is_nudge w \/ now negotiated w) /\
  seq w (c_state (w_c w) = HE_STATE_AUTHENTICATING).

Lemma auth_send_ok w m : auth_ready w -> 1 <= len m <= 1500 -> msg_type m = HE_MSGID_AUTH -> send_ok w m.
Proof.
  intros (A1 & A2 & A4 & A3) L T. split; [exact L|]. split.
  - intros Hr. rewrite (A3 Hr). discriminate.
  - do 2 right. left. auto.
Qed.

Lemma auth_buffer_message_ok ty d n : len d = n -> len (auth_buffer_message ty d) = 4 + n /\
  msg_type (auth_buffer_message ty d) = HE_MSGID_AUTH.
Proof. intros <-. split; [unfold auth_buffer_message; lens|reflexivity]. Qed.

Lemma wp_send_by_type (Q : Z -> world -> Prop) w :
  auth_ready w -> (forall rc w', Steps w w' -> keep w w' -> Q rc w') -> wp send_by_type Q w.
Proof.
  intros A K. apply wp_good; intros G. pose proof (Reach_cok (proj1 G)) as C.
  assert (forall v, Q v w) as K0 by (intros; apply K; [apply Steps_refl|apply keep_refl]).
  pose proof (ok_auth_len C) as LA. pose proof (ok_auth_buf C) as LB. unfold HE_MAX_MTU in LA, LB.
  unfold send_by_type. repeat wp1; auto.
  - unfold send_auth_userpass. repeat wp1.
    eapply wp_lift; [apply build_auth_userpass_ok; apply C|]. intros _. apply wp_send_message; auto.
    intros _. apply auth_send_ok; auto. unfold userpass_message.
    assert (forall s : bytes, len (firstn 50 s) <= 50) as L50 by (intros; rewrite len_firstn; lia).
    pose proof (L50 (cstr (c_username (w_c w)))). pose proof (L50 (cstr (c_password (w_c w)))). lens.
  - unfold send_auth_token. repeat wp1; auto.
    assert (u16 (sizeof_auth_token + c_auth_len (w_c w)) = 4 + c_auth_len (w_c w)) as U
      by (apply Z.mod_small; change sizeof_auth_token with 4; lia).
    eapply wp_lift. { apply build_auth_buffer_ok; try lia; try apply C; unfold HE_MAX_WIRE_MTU; lia. }
    intros _. assert (len (slice (c_auth_buf (w_c w)) 0 (c_auth_len (w_c w))) = c_auth_len (w_c w)) as L
      by (rewrite len_slice; lia).
    destruct (auth_buffer_message_ok (c_auth_type (w_c w)) L) as [L1 T1].
    repeat wp1. eapply wp_lift. { rewrite U. apply ldn_ok; try lia. rewrite len_app, L1, len_zeros; unfold HE_MAX_WIRE_MTU in *; lia. }
    intros _. rewrite slice_prefix by lia. apply wp_send_message; auto.
    intros _. apply auth_send_ok; auto. lia.
  - unfold send_auth_buf. repeat wp1; auto.
    assert (u16 (sizeof_auth_buf + c_auth_len (w_c w)) = 4 + c_auth_len (w_c w)) as U
      by (apply Z.mod_small; change sizeof_auth_buf with 4; lia).
    unfold HE_MAX_MTU in *.
    eapply wp_lift. { apply build_auth_buffer_ok; try lia. apply C. }
    intros _. assert (len (slice (c_auth_buf (w_c w)) 0 (c_auth_len (w_c w))) = c_auth_len (w_c w)) as L
      by (rewrite len_slice; lia).
    destruct (auth_buffer_message_ok (c_auth_type (w_c w)) L) as [L1 T1].
    repeat wp1. eapply wp_lift. { rewrite U. apply ldn_ok; try lia. rewrite len_app, L1, len_zeros; lia. }
    intros _. rewrite slice_prefix by lia. apply wp_send_message; auto.
    intros _. apply auth_send_ok; auto. lia.
Qed.

(** nudge: send_auth again *)
Lemma wp_send_auth (Q : Z -> world -> Prop) w :
  calling is_nudge w -> c_state (w_c w) = HE_STATE_AUTHENTICATING ->
  (forall rc w', Steps w w' -> keep w w' -> Q rc w') -> wp (send_auth E hook) Q w.
Proof.
  intros CO A K. apply wp_good; intros G. pose proof (Reach_inv (proj1 G)) as (_ & _ & IN & IA).
  unfold send_auth. apply wp_bind, wp_get. intros _. rewrite A. cbn [negb andb Z.eqb HE_STATE_AUTHENTICATING HE_STATE_LINK_UP].
  change (HE_STATE_AUTHENTICATING =? HE_STATE_LINK_UP) with false.
  change (HE_STATE_AUTHENTICATING =? HE_STATE_AUTHENTICATING) with true. cbn [negb andb].
  apply wp_bind, wp_set_conn_state; [intros _ N; contradiction|].
  intros b w1 S1 _ C1 _. fold send_by_type. apply wp_send_by_type.
  - split; [eapply has_mono; eauto|]. split; [eapply has_mono; eauto|]. split; [left; exact (calling_mono S1 CO)|]. intros Hr. now rewrite (C1 Hr).
  - intros rc w2 S2 K2. apply K; [stp|]. eapply keep_trans; eauto. intros Hr. rewrite (C1 Hr).
    rewrite <- A. now destruct (w_c w).
Qed.

Definition up_state (c : conn) (s : Z) : Prop :=
  s = HE_STATE_LINK_UP /\ c_is_server c = true \/ s = HE_STATE_AUTHENTICATING /\ c_is_server c = false.

(** The handshake is complete: LINK_UP, and for a client the request. *)
Lemma wp_link_up (Q : unit -> world -> Prop) w :
  (Good w -> c_state (w_c w) <> HE_STATE_LINK_UP /\ state_ok w HE_STATE_LINK_UP) ->
  (forall w', Steps w w' -> keepS w w' -> seq w' (up_state (w_c w') (c_state (w_c w'))) -> Q tt w') ->
  wp (change_conn_state E hook HE_STATE_LINK_UP) Q w.
Proof.
  intros H K. apply wp_good; intros G. destruct (H G) as [Ns St].
  destruct St as (M1 & Hrole & Hd & Hneg). destruct (Hrole ltac:(discriminate)) as [R HC].
  assert (now negotiated w) as Neg.
  { destruct Hneg as [[F _]|[(_ & N & _)|[(F & _)|[(F & _)|[[F _]|[[F _]|[F _]]]]]]]; try discriminate F. exact N. }
  apply wp_wpr. unfold change_conn_state. apply wpr_set_conn_state; [intros _ _; now apply H|].
  intros b w1 S1 Hb C1. replace b with true by (rewrite Hb; destruct (_ =? _) eqn:?; lia). clear b Hb.
  cbn [andb]. rewrite Z.eqb_refl. apply wpr_get. destruct (c_is_server (w_c w1)) eqn:Srv; cbn [negb].
  - apply wpr_wp.
    + intros _ Hr. unfold mid2, mid3. rewrite Srv. cbn [negb]. rewrite andb_false_r. split; [reflexivity|].
      cbn [andb]. intros (_ & F & _). rewrite (C1 Hr) in F. cbn in F. discriminate.
    + apply wp_ret, K; auto.
      * intros Hr. rewrite (C1 Hr). reflexivity.
      * intros Hr. left. split; [now rewrite (C1 Hr)|exact Srv].
  - pose proof (proj1 (role_mono S1 R) Srv) as CC.
    unfold send_auth. apply wpr_assoc, wpr_get.
    destruct (negb _ && negb _) eqn:F.
    + apply wpr_ret_bind. apply wpr_wp.
      * intros _ Hr. exfalso. rewrite (C1 Hr) in F. cbn in F. discriminate.
      * apply wp_ret, K; auto; intros Hr; exfalso; rewrite (C1 Hr) in F; cbn in F; discriminate.
    + apply wpr_assoc, wpr_set_conn_state.
      { intros O Nst. split; [apply O|]. split; [intros _; split; [eapply role_mono; eauto|eapply has_mono; eauto]|].
        split; [intros Hr Fd; rewrite (C1 Hr) in Fd; discriminate|].
        do 2 right. left. split; [reflexivity|]. split; [exact CC|]. split; [exact (has_mono S1 (now_has Neg))|].
        intros Hr. split; [now rewrite (C1 Hr)|exact Srv]. }
      intros b w2 S2 _ C2. assert (Steps w w2) as S12 by stp.
      apply wpr_wp.
      { intros _ Hr. unfold mid2, mid3. rewrite (C2 Hr). cbn. rewrite andb_false_r. split; [reflexivity|].
        intros (_ & D & _). discriminate. }
      apply wp_bind. change (wp send_by_type (fun _ w3 => Steps w2 w3 -> wp (ret tt) Q w3) w2).
      apply wp_send_by_type.
      * split; [exact (has_mono S2 CC)|]. split; [exact (has_mono S12 (now_has Neg))|].
        split; [right; exact (now_mono S12 Neg)|]. intros Hr. now rewrite (C2 Hr).
      * intros rc w3 S3 K3 _. assert (Steps w w3) as S13 by stp. apply wp_ret, K; auto.
        -- intros Hr. pose proof (K3 Hr) as K3'. pose proof (C2 (re_anti S3 Hr)) as C2'.
           pose proof (C1 (re_anti (Steps_app S2 S3) Hr)) as C1'. rewrite C2', C1' in K3'.
           unfold core in *. cbn in *. congruence.
        -- intros Hr. pose proof (K3 Hr) as K3'. pose proof (C2 (re_anti S3 Hr)) as C2'.
           rewrite C2' in K3'. right. unfold core in K3'. cbn in K3'. split; [congruence|].
           transitivity (c_is_server (w_c w1)); [congruence|exact Srv].
Qed.

(** *** Timers *)
Lemma mid2_anti w w' : Steps w w' -> c_is_server (w_c w') = c_is_server (w_c w) ->
  c_state (w_c w') = c_state (w_c w) -> mid2 w = false -> mid2 w' = false.
Proof.
  unfold mid2. intros S -> ->. destruct (has server_call (w_t w')) eqn:F; [reflexivity|].
  now rewrite (has_anti S F).
Qed.
Lemma mid3_anti w w' : Steps w w' -> c_pm (w_c w') = c_pm (w_c w) ->
  c_state (w_c w') = c_state (w_c w) -> ~ mid3 w -> ~ mid3 w'.
Proof. unfold mid3. intros S -> -> N (O & M). apply N. split; auto. eapply once_anti; eauto. Qed.

Lemma wp_nudge_cb ms (Q : unit -> world -> Prop) w :
  cb_nudge (c_cbs (w_c w)) = true -> c_nudging (w_c w) = false ->
  (forall w', Steps w w' -> keep w w' -> Q tt w') ->
  wp (notify hook (ENudge ms) ;;; upd (set_nudging true)) Q w.
Proof.
  intros Hcb Hn K G. unfold notify, bind, emit, upd.
  set (w1 := World (w_c w) ((c_state (w_c w), ENudge ms) :: w_t w)).
  assert (Step w w1) as S1.
  { constructor. split; [intros _; now apply Good_mid1|]. cbn. split; auto. intros _; auto. }
  assert (Reach w1) as R1 by (eapply R_step; [apply G|exact S1]).
  pose proof (HOOK R1) as HH. destruct (hook w1) as [[] w2|u w2].
  - destruct HH as [S2 H2]. cbn beta iota. set (w3 := World _ _).
    assert (Step w2 w3) as S3.
    { apply S_nudge_on. intros Hr. rewrite (H2 Hr). eexists _, _, _. reflexivity. }
    assert (Steps w w3) as S13.
    { eapply Steps_trans; [exact S1|]. eapply Steps_app; [exact S2|]. now apply Steps_one. }
    split; [exact S13|].
    assert (keep w w3) as K3.
    { intros Hr. unfold w3 in *. cbn [w_c w_t] in *. rewrite (H2 Hr). reflexivity. }
    split.
    + split; [eapply Reach_Steps; [apply G|exact S13]|]. intros Hr.
      pose proof (K3 Hr) as K3'. destruct G as [_ M]. destruct (M (re_anti S13 Hr)) as (_ & M2 & M3).
      unfold core in K3'. split; [|split].
      * unfold w3 in *; cbn [w_t w_c] in *. rewrite (H2 Hr). reflexivity.
      * eapply mid2_anti; eauto; congruence.
      * eapply mid3_anti; eauto; congruence.
    + apply K; auto.
  - destruct HH as [S2 H2]. split; [eapply Steps_trans; eauto|exact H2].
Qed.

Lemma wp_ask_version (Q : Z -> world -> Prop) w :
  (Good w -> tls_ok w) ->
  (forall w', Steps w w' -> w_c w' = w_c w ->
     w_t w' = (c_state (w_c w), EAsk QVersion (e_ask E (w_t w) QVersion)) :: w_t w -> Q (e_ask E (w_t w) QVersion) w') ->
  wp (ask_version E) Q w.
Proof.
  intros T K. unfold ask_version. apply wp_bind, wp_get. intros _. destruct (c_wolf (w_c w)) eqn:W; [now apply wp_ask|].
  apply wp_stuck. intros G. apply stuck_null_sq. intros Hr. destruct (T G Hr) as [F|F]; [congruence|auto].
Qed.

Lemma wp_update_timeout (Q : unit -> world -> Prop) w :
  (Good w -> tls_ok w) ->
  (forall w', Steps w w' -> keep w w' -> Q tt w') -> wp (update_timeout E hook) Q w.
Proof.
  intros TLS K. apply wp_good; intros G0. specialize (TLS G0). unfold update_timeout. apply wp_bind, wp_get. intros _. apply wp_bind, wp_get. intros _.
  destruct (_ && _); [apply wp_ret, K; [apply Steps_refl|apply keep_refl]|].
  apply wp_bind, wp_ask. intros w1 S1 C1 T1 _. cbv zeta.
  apply wp_bind. wpu. intros w2 S2 C2 T2 _.
  apply wp_bind, wp_ask_version.
  { intros _. apply (@tls_keep w); [stp|intros _; rewrite C2; cbn; now rewrite C1|exact TLS]. }
  intros w3 S3 C3 T3 _.
  assert (Steps w w3) as S13 by (eapply Steps_app; [exact S1|]; eapply Steps_app; eauto).
  assert (core (w_c w3) = core (w_c w)) as K3 by (rewrite C3, C2, C1; reflexivity).
  apply wp_bind.
  apply wp_conseq with (Q := fun _ w4 => Steps w w4 /\ core (w_c w4) = core (w_c w)).
  { destruct (negb _); [apply wp_ask; intros w4 S4 C4 T4|apply wp_ret]; (split; [stp|congruence]). }
  intros quick w4 _ _ [S4 K4] _. apply wp_bind.
  apply wp_conseq with (Q := fun _ w5 => Steps w w5 /\ core (w_c w5) = core (w_c w)).
  { unfold when. destruct (negb _); [wpu; intros w5 S5 C5 T5|apply wp_ret]; (split; [stp|]); [|congruence].
    rewrite C5. exact K4. }
  intros [] w5 _ _ [S5 K5] _. apply wp_bind, wp_get. intros _. apply wp_bind, wp_get. intros _.
  destruct (_ && _) eqn:Heqb.
  - apply andb_true_iff in Heqb. destruct Heqb as [H1 H2]. apply negb_true_iff in H2.
    apply wp_bind, wp_get. intros _. apply wp_nudge_cb; auto. intros w6 S6 K6. apply K; [stp|]. intros Hr. rewrite (K6 Hr). exact K5.
  - apply wp_ret, K; auto. intros _. exact K5.
Qed.

(** *** Renegotiation *)
Lemma keepP_refl w : keepP w w.
Proof. intros _; reflexivity. Qed.
Lemma keepP_trans w1 w2 w3 : Steps w2 w3 -> keepP w1 w2 -> keepP w2 w3 -> keepP w1 w3.
Proof. intros S H1 H2 Hr. rewrite (H2 Hr). apply H1. eapply re_anti; eauto. Qed.
Lemma keep_keepP w w' : keep w w' -> keepP w w'.
Proof. intros H Hr. specialize (H Hr). unfold core in *. cbn. congruence. Qed.

Lemma wp_reneg_start (Q : unit -> world -> Prop) w :
  (exists s o r e d p, w_t w = (s, EWEnd o r e d) :: p) ->
  seq w (c_prog (w_c w) = false) -> seq w (c_state (w_c w) <> HE_STATE_DISCONNECTED) ->
  role w -> tls_ok w ->
  (forall w', Steps w w' -> keepP w w' -> Q tt w') ->
  wp (upd (set_prog true) ;;; generate_event hook HE_EVENT_SECURE_RENEGOTIATION_STARTED) Q w.
Proof.
  intros (s & o & r & e & d & p & T) H1 H2 H3 TLS K G.
  pose proof (S_reneg (Good_mid1 G) H1 H2 H3 TLS) as S. set (w1 := World _ _) in S.
  assert (Reach w1) as R1 by (eapply R_step; [apply G|exact S]).
  assert (Steps w w1) as S1 by now apply Steps_one.
  assert (keepP w w1) as K1 by (intros _; reflexivity).
  assert (Good w1) as G1.
  { split; [exact R1|]. intros Hr. destruct G as [_ M]. destruct (M (re_anti S1 Hr)) as (M1 & M2 & M3).
    split; [|split].
    - unfold w1, mid1. cbn [w_t w_c]. destruct (cb_event _); [reflexivity|]. rewrite T. reflexivity.
    - eapply mid2_anti; eauto.
    - eapply mid3_anti; eauto. }
  unfold bind, upd, generate_event, get, when, notify, emit, bind. cbn beta iota. cbn [w_c w_t].
  change (c_cbs (set_prog true (w_c w))) with (c_cbs (w_c w)).
  destruct (cb_event (c_cbs (w_c w))); unfold w1 in *; cbn [w_c w_t c_state set_prog] in *.
  - change (c_state (set_prog true (w_c w))) with (c_state (w_c w)).
    pose proof (HOOK R1) as HH. destruct (hook _) as [[] w2|u w2]; [destruct HH as [S2 H4]|destruct HH as [S2 H4]].
    + assert (Steps w w2) as S12 by stp. split; [exact S12|]. split; [eapply hook_good; eauto|].
      apply K; auto. intros Hr. rewrite (H4 Hr). reflexivity.
    + split; [stp|exact H4].
  - unfold ret. split; [exact S1|]. split; [exact G1|]. apply K; auto.
Qed.

Lemma bind_assoc A C D (m : M A) (f : A -> M C) (g : C -> M D) w :
  bind (bind m f) g w = bind m (fun a => bind (f a) g) w.
Proof. unfold bind. destruct (m w); auto. Qed.
Lemma wp_assoc A C D (m : M A) (f : A -> M C) (g : C -> M D) (Q : D -> world -> Prop) w :
  wp (bind (bind m f) g) Q w -> wp (bind m (fun a => bind (f a) g)) Q w.
Proof. unfold wp, ConnWp.wp. now rewrite bind_assoc. Qed.

Lemma wp_renegotiate (Q : Z -> world -> Prop) w :
  (forall rc w', Steps w w' -> keepP w w' -> Q rc w') -> wp (renegotiate_ssl E hook) Q w.
Proof.
  intros K. unfold renegotiate_ssl. apply wp_bind. wpu. intros w1 S1 C1 T1 _.
  assert (keepP w w1) as K1 by (intros _; rewrite C1; reflexivity).
  apply wp_bind, wp_get. intros _. apply wp_bind, wp_get. intros _.
  destruct (_ || _) eqn:F; [apply wp_ret, K; auto|].
  apply orb_false_iff in F. destruct F as [F1 F2]. apply negb_false_iff, Z.eqb_eq in F2.
  apply wp_good; intros G1. pose proof (Reach_inv (proj1 G1)) as (_ & IS & _).
  assert (role w1) as HC by (apply IS; rewrite F2; discriminate).
  assert (tls_ok w1) as TLS1 by (apply tls_when; [apply G1|]; intros _; left; rewrite F2; split; discriminate).
  apply wp_bind, wp_ask_version; auto. intros w2 S2 C2 T2 _. apply wp_bind.
  apply wp_conseq with (Q := fun _ w3 => Steps w2 w3 /\ w_c w3 = w_c w1).
  { destruct (_ =? _); [apply wp_ask; intros w3 S3 C3 T3|apply wp_ret]; (split; [stp|congruence]). }
  intros sup w3 _ _ [S3 C3] _. assert (Steps w w3) as S13 by stp.
  assert (keepP w w3) as K3 by (intros _; rewrite C3, C1; reflexivity).
  destruct (sup =? 0); [apply wp_ret, K; auto|].
  apply wp_bind, wp_wolf_op; auto.
  { intros G3. destruct (_ =? _); apply plain_ok; auto. }
  intros r err d w4 w5 S4 S5 C5 T5 K5 _ _ _ _ _. cbv beta iota.
  assert (Steps w3 w5) as S35 by stp.
  assert (keepP w w5) as K5' by (eapply keepP_trans; [exact S35|exact K3|apply keep_keepP, keep_rx_keep, K5]).
  apply wp_assoc, wp_bind, wp_reneg_start.
  - do 6 eexists. exact T5.
  - intros Hr. destruct (K5 Hr) as [x ->]. cbn. now rewrite C3.
  - intros Hr. destruct (K5 Hr) as [x ->]. cbn. rewrite C3, F2. discriminate.
  - exact (role_mono S35 (role_mono S3 (role_mono S2 HC))).
  - assert (Steps w1 w5) as S15 by stp. apply (tls_keep S15); auto. intros Hr. destruct (K5 Hr) as [x ->]. cbn. now rewrite C3.
  - intros w6 S6 K6 _. assert (Steps w w6) as S16 by stp.
    assert (keepP w w6) as K6' by exact (keepP_trans S6 K5' K6).
    repeat wp1; auto.
    + assert (Steps w1 w6) as S16' by stp.
      apply wp_update_timeout.
      { intros _. apply (tls_keep S16'); auto. intros Hr. specialize (K6' Hr). unfold core in K6'. cbn in K6'. rewrite C1. cbn. congruence. }
      intros w7 S7 K7. repeat wp1. apply K; [stp|].
      eapply keepP_trans; [exact S7|exact K6'|now apply keep_keepP].
    + wpu. intros w7 S7 C7 T7. repeat wp1. apply K; [stp|].
      eapply keepP_trans; [exact S7|exact K6'|]. intros _. rewrite C7. reflexivity.
Qed.

(** COMPLETED is announced, then noted. *)
Lemma wp_reneg_end (b : bool) (Q : unit -> world -> Prop) w :
  (exists s q r p, w_t w = (s, EAsk q r) :: p) ->
  c_prog (w_c w) = true ->
  seq w (c_state (w_c w) <> HE_STATE_DISCONNECTED) ->
  (forall w', Steps w w' -> keepP w w' -> Q tt w') ->
  wp (when b (generate_event hook HE_EVENT_SECURE_RENEGOTIATION_COMPLETED) ;;; upd (set_prog (negb b))) Q w.
Proof.
  intros (s & q & r & p & T) H1 H2 K G. unfold when. destruct b; cbn [negb].
  2:{ unfold bind, ret, upd. set (w1 := World _ _).
      assert (Step w w1) as S by (apply S_prog; intros _; left; auto).
      assert (Steps w w1) as S1 by now apply Steps_one.
      split; [exact S1|]. split; [|apply K; auto; intros _; reflexivity].
      split; [eapply R_step; [apply G|exact S]|]. intros Hr. destruct G as [_ M].
      destruct (M (re_anti S1 Hr)) as (M1 & M2 & M3). split; [|split].
      - unfold w1, mid1. cbn [w_t]. now rewrite T.
      - eapply mid2_anti; eauto.
      - eapply mid3_anti; eauto. }
  unfold bind, upd, generate_event, get, when, notify, emit, bind. 
  assert (forall w2, Steps w w2 -> seq w2 (w_c w2 = w_c w /\ (cb_event (c_cbs (w_c w)) = true ->
            exists s p, w_t w2 = (s, EEvent HE_EVENT_SECURE_RENEGOTIATION_COMPLETED) :: p) /\
            (cb_event (c_cbs (w_c w)) = false -> w_t w2 = w_t w)) ->
     Steps w (World (set_prog false (w_c w2)) (w_t w2)) /\ Good (World (set_prog false (w_c w2)) (w_t w2)) /\
     Q tt (World (set_prog false (w_c w2)) (w_t w2))) as Fin.
  { intros w2 S2 H. set (w3 := World _ _).
    assert (Step w2 w3) as S3.
    { apply S_prog. intros Hr. right. destruct (H Hr) as (C & Hh & _). rewrite C. auto. }
    assert (Steps w w3) as S13 by (eapply Steps_app; [exact S2|now apply Steps_one]).
    assert (Steps w2 w3) as S23 by now apply Steps_one.
    assert (keepP w w3) as K3.
    { intros Hr. unfold w3 in *; cbn [w_c w_t] in *. destruct (H Hr) as (-> & _). reflexivity. }
    split; [exact S13|]. split; [|now apply K].
    split; [eapply Reach_Steps; [apply G|exact S13]|]. intros Hr. destruct G as [_ M].
    destruct (M (re_anti S13 Hr)) as (M1 & M2 & M3). specialize (K3 Hr). unfold core in K3. cbn in K3.
    destruct (H (re_anti S23 Hr)) as (C & Hh & Hh').
    split; [|split].
    - unfold w3, mid1. cbn [w_t w_c c_prog set_prog c_nudging]. destruct (cb_event (c_cbs (w_c w))).
      + destruct (Hh eq_refl) as (s' & p' & ->). reflexivity.
      + rewrite (Hh' eq_refl), T. reflexivity.
    - eapply mid2_anti; [exact S13| | |exact M2]; unfold w3; cbn; congruence.
    - eapply mid3_anti; [exact S13| | |exact M3]; unfold w3; cbn; congruence. }
  destruct (cb_event (c_cbs (w_c w))) eqn:Hcb.
  - set (w1 := World (w_c w) _).
    assert (Step w w1) as S1.
    { apply S_emit. split; [intros _; now apply Good_mid1|]. cbn. split; [auto|]. split; [auto|].
      right; right. split; [reflexivity|]. intros _; auto. }
    assert (Reach w1) as R1 by (eapply R_step; [apply G|exact S1]).
    pose proof (HOOK R1) as HH. destruct (hook w1) as [[] w2|u w2].
    + destruct HH as [S2 H4]. cbn beta iota. apply Fin; [eapply Steps_trans; eauto|].
      intros Hr. rewrite (H4 Hr). split; [reflexivity|]. split; [|discriminate]. intros _.
      eexists _, _. reflexivity.
    + destruct HH as [S2 H4]. split; [eapply Steps_trans; eauto|exact H4].
  - cbn beta iota. unfold ret. apply Fin; [apply Steps_refl|]. intros _. split; [reflexivity|].
    split; [discriminate|reflexivity].
Qed.

Lemma wp_check_reneg (Q : Z -> world -> Prop) w :
  seq w (c_state (w_c w) <> HE_STATE_DISCONNECTED) ->
  (forall rc w', Steps w w' -> keepP w w' -> Q rc w') -> wp (check_renegotiation E hook) Q w.
Proof.
  intros Hs K. unfold check_renegotiation. apply wp_bind, wp_get. intros _.
  destruct (c_prog (w_c w)) eqn:Hp; cbn [negb]; [|apply wp_ret, K; [apply Steps_refl|apply keepP_refl]].
  apply wp_good; intros G0. assert (tls_ok w) as TLS by (apply tls_when; [apply G0|]; intros _; auto).
  apply wp_bind, wp_ask_version; auto. intros w1 S1 C1 T1 _. apply wp_bind.
  apply wp_conseq with (Q := fun _ w2 => Steps w w2 /\ w_c w2 = w_c w /\
     exists s q r p, w_t w2 = (s, EAsk q r) :: p).
  { destruct (_ =? _).
    - apply wp_bind, wp_ask. intros w2 S2 C2 T2 _. apply wp_ret. split; [stp|]. split; [congruence|].
      do 4 eexists; exact T2.
    - apply wp_bind, wp_ask. intros w2 S2 C2 T2 _. apply wp_bind, wp_ask. intros w3 S3 C3 T3 _.
      apply wp_ret. split; [stp|]. split; [congruence|]. do 4 eexists; exact T3. }
  intros [rc pending] w2 _ _ (S2 & C2 & T2) _. destruct (negb (rc =? 0)).
  - apply wp_bind, wp_ask. intros w3 S3 C3 T3 _. apply wp_bind. wpu. intros w4 S4 C4 T4 _.
    apply wp_ret, K; [stp|]. intros _. rewrite C4, C3, C2. reflexivity.
  - apply wp_assoc, wp_bind, wp_reneg_end; auto; try (rewrite C2; auto).
    + intros Hr. apply Hs. eapply re_anti; eauto.
    + intros w3 S3 K3 _. assert (Steps w w3) as S03 by stp. apply wp_bind, wp_update_timeout.
      { intros _. apply (tls_keep S03); auto. intros Hr. specialize (K3 Hr). unfold core in K3. cbn in K3. rewrite <- C2. congruence. }
      intros w4 S4 K4 _. apply wp_ret, K; [stp|].
      eapply keepP_trans; [exact S4| |now apply keep_keepP]. 
      intros Hr. rewrite (K3 Hr), C2. reflexivity.
Qed.
End Core.
