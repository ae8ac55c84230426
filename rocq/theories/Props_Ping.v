(** C30: keepalives.  Every PING received while ONLINE is answered by one PONG
    with its id; a PONG event is reported exactly for the PONG messages that
    carry the id of the last keepalive. *)
From Verif Require Import Base Codes Ctx Config Mss MssSpec Frag FragSpec
  Wire WireSpec ConnState Conn ConnSpec CallSpec MsgSpec ConnSteps Frame SeqInside SeqLoop SeqApi SeqPing Scenario Props_Data Props_Size.
Unset Strict Implicit.

(** The id the library waits for is that of the last successful keepalive. *)
Lemma reached_awaited E w : reached E w -> c_ping_pend (w_c w) = awaited (w_t w).
Proof.
  intros [ops R]. assert (forall w0 w, reached E w0 -> c_ping_pend (w_c w0) = awaited (w_t w0) -> run E 0 ops w0 = Done tt w ->
    c_ping_pend (w_c w) = awaited (w_t w)) as H.
  2:{ apply (H world_new w); auto. now exists []. }
  clear w R. induction ops as [|o ops IH]; intros w0 w Re Aw; cbn [run]; [now intros [= <-]|]. change (hookn E 0) with (@ret unit tt).
  destruct (api E (ret tt) o w0) as [rc w1|] eqn:C; [|discriminate]. apply IH; [exact (reached_call Re C)|]. clear IH ops.
  assert (o <> OKeepalive -> awaited (w_t w1) = awaited (w_t w0)) as Same.
  { intros N. destruct (call_body C) as (w2 & Bd & ->). cbn [push w_t].
    assert (awaited (w_t w2) = awaited (w_t w0)) as <-; [|destruct o; try reflexivity; congruence].
    pose (I := fun v : world => awaited (w_t v) = awaited (w_t w0)).
    assert (Frame.keeps I I (api_body E (ret tt) o)) as Kp.
    { apply keeps_log_body; [|auto|apply keeps_ret]. intros e v _ N2 Hv. unfold I in *. cbn [push w_t awaited]. destruct e; try exact Hv. edestruct N2; reflexivity. }
    specialize (Kp (push (ECall o) w0)). rewrite Bd in Kp. now apply Kp. }
  destruct (is_outside o) eqn:O.
  - destruct o; try discriminate O. destruct (pongs_during C) as (ds & _ & _ & St). rewrite Same by discriminate. rewrite <- Aw. unfold stable in St. congruence.
  - assert (o = OKeepalive \/ o <> OKeepalive) as [->|N] by (destruct o; (left; reflexivity) || (right; discriminate)).
    + clear Same O. pose proof (keepalive_call Re C) as Ka. destruct (call_body C) as (w2 & Bd & Eq).
      assert (awaited (w_t w2) = awaited (w_t w0)) as A2.
      { pose (I := fun v : world => awaited (w_t v) = awaited (w_t w0)).
        assert (Frame.keeps I I (api_body E (ret tt) OKeepalive)) as Kp.
        { apply keeps_log_body; [|auto|apply keeps_ret]. intros e v _ N2 Hv. unfold I in *. cbn [push w_t awaited]. destruct e; try exact Hv. edestruct N2; reflexivity. }
        specialize (Kp (push (ECall OKeepalive) w0)). rewrite Bd in Kp. now apply Kp. }
      destruct (c_state (w_c w0) =? HE_STATE_ONLINE).
      * destruct Ka as (r & err & D & _ & _ & _ & Pd). rewrite Pd. clear C Bd Pd. subst w1. cbn [push w_t awaited]. rewrite A2.
        destruct (rc =? HE_SUCCESS); [|exact Aw]. unfold during in D. cbn [push w_t collect] in D. rewrite app_nil_r in D. cbn [sent] in D. rewrite D.
        rewrite last_last. unfold ping_message, field16, be16. cbn [nth app]. pose proof (Z.div_mod (c_ping_next (w_c w0)) 256). lia.
      * destruct Ka as (-> & _ & _ & Cc). rewrite Cc. clear C Bd Cc. subst w1. cbn [push w_t awaited]. change (HE_ERR_INVALID_CONN_STATE =? HE_SUCCESS) with false. cbv iota. now rewrite A2.
    + rewrite Same by exact N. rewrite <- Aw. destruct (call_body C) as (w2 & Bd & ->).
      pose proof (@KO_others E (c_ping_pend (w_c w0)) (collect pong_event (w_t w0)) o O N (push (ECall o) w0)) as Kp. rewrite Bd in Kp.
      apply Kp. split; [reflexivity|]. cbn [push w_t collect pong_event]. now rewrite app_nil_r.
Qed.

(** he_conn_send_keepalive: ONLINE it sends one PING with the next id and reports
    what became of it; otherwise it does nothing. *)
Theorem C30_keepalive : forall E w rc w', reached E w -> call E OKeepalive w rc w' ->
  if c_state (w_c w) =? HE_STATE_ONLINE
  then exists r err,
    during sent w w' [ping_message (c_ping_next (w_c w)) 0] /\
    during wrote w w' [(ping_message (c_ping_next (w_c w)) 0, r, err)] /\
    rc = write_code r err /\
    c_ping_next (w_c w') = (c_ping_next (w_c w) + 1) mod 65536
  else rc = HE_ERR_INVALID_CONN_STATE /\ during sent w w' [] /\ during outside w w' [] /\ w_c w' = w_c w.
Proof.
  intros E w rc w' Re C. pose proof (keepalive_call Re C) as H. destruct (_ =? _); [|exact H].
  destruct H as (r & err & H1 & H2 & H3 & H4 & _). now exists r, err.
Qed.
Print Assumptions C30_keepalive.

(** A call of he_conn_outside_data_received reports a PONG event (once) for each
    PONG message it brings with the id of the last successful keepalive, if an
    event callback is registered, and no other. *)
Theorem C30_pong_event : forall E b w rc w', reached E w -> call E (OOutside b) w rc w' ->
  exists ds, during (both pong_event) w w' (caused ds) /\
    Forall (fun (d : (Z * bytes) * list unit) => let (x, events) := d in
      events = if is_pong (awaited (w_t w)) (snd x) && cb_event (c_cbs (w_c w)) then [tt] else []) ds.
Proof.
  intros E b w rc w' Re C. destruct (pongs_during C) as (ds & D & F & _). exists ds. split; [exact D|].
  rewrite (reached_awaited Re) in F. eapply Forall_impl; [|exact F]. now intros [x l].
Qed.
Print Assumptions C30_pong_event.

(** No other call reports one. *)
Theorem C30_pong_only : forall E o w rc w', reached E w -> call E o w rc w' -> (forall b, o <> OOutside b) ->
  during pong_event w w' [].
Proof.
  intros E o w rc w' Re C N.
  assert (o = OKeepalive \/ o <> OKeepalive) as [->|N2] by (destruct o; (left; reflexivity) || (right; discriminate)).
  - destruct (call_body C) as (w2 & Bd & ->). apply during_call; try reflexivity. cbn [api_body] in Bd.
    pose (I := fun v : world => collect pong_event (w_t v) = collect pong_event (w_t w)).
    assert (forall e v, (forall s, pong_event s e = []) -> I v -> I (push e v)) as Ip.
    { intros e v H Hv. unfold I in *. cbn [push w_t collect]. now rewrite H, app_nil_r. }
    assert (Frame.keeps I (fun _ => True) (send_keepalive E (ret tt))) as Kp.
    { apply keeps_keepalive; intros; try exact Logic.I; try apply keeps_ret; try (apply Ip; [reflexivity|assumption]); try assumption.
      - apply keeps_io_read; auto; intros; try (apply Ip; [reflexivity|assumption]); assumption.
      - apply keeps_io_write; auto; intros; try apply keeps_ret; try (apply Ip; [reflexivity|assumption]); try assumption; try exact Logic.I. }
    specialize (Kp (push (ECall OKeepalive) w)). rewrite Bd in Kp. unfold during. rewrite app_nil_r. rewrite Kp; [now cbn; rewrite app_nil_r|].
    apply Ip; reflexivity.
  - destruct (call_body C) as (w2 & Bd & ->). apply during_call; try reflexivity.
    assert (is_outside o = false) as O by (destruct o; try reflexivity; edestruct N; reflexivity).
    pose proof (@KO_others E (c_ping_pend (w_c w)) (collect pong_event (w_t w)) o O N2 (push (ECall o) w)) as Kp. rewrite Bd in Kp.
    destruct Kp as [_ K2]; [split; [reflexivity|cbn [push w_t collect pong_event]; now rewrite app_nil_r]|].
    unfold during. rewrite K2. cbn [push w_t collect pong_event]. now rewrite !app_nil_r.
Qed.
Print Assumptions C30_pong_only.

(** Every PING of at least 5 bytes received while ONLINE is answered, at once, by
    one PONG with its id; other PING messages are not answered. *)
Theorem C30_pong_reply : forall E b w rc w', call E (OOutside b) w rc w' ->
  exists pre ds, during (both sent) w w' (map inr pre ++ caused ds) /\
    Forall (fun (d : (Z * bytes) * list bytes) => let (x, replies) := d in
      msg_type (snd x) = HE_MSGID_PING ->
      replies = if (fst x =? HE_STATE_ONLINE) && is_ping (snd x) then [pong_message (field16 (snd x) 1)] else []) ds.
Proof.
  intros E b w rc w' C. destruct (pings_during C) as (pre & ds & D & F). exists pre, ds. split; [exact D|].
  eapply Forall_impl; [|exact F]. now intros [x l].
Qed.
Print Assumptions C30_pong_reply.

(** ** What does not hold *)
(** A PONG event without any keepalive: a PONG with id 0 is taken for an answer. *)
Theorem C30_unsolicited_refuted : exists ops w',
  let w := world_at ops in
  reached plain_env w /\ ~ In OKeepalive ops /\ call plain_env (pong 0) w HE_SUCCESS w' /\ during event w w' [HE_EVENT_PONG].
Proof.
  exists client_up, (world_at (client_up ++ [pong 0])). cbv zeta. split; [apply world_at_reached; vm_compute; reflexivity|].
  split; [intros H; repeat (destruct H as [H|H]; [discriminate H|]); exact H|]. conj; vm_compute; reflexivity.
Qed.
Print Assumptions C30_unsolicited_refuted.
(** The answer to a keepalive is reported every time it arrives. *)
Theorem C30_repeated_refuted : exists ops w' w'',
  let w := world_at ops in
  reached plain_env w /\ call plain_env (pong 1) w HE_SUCCESS w' /\ during event w w' [HE_EVENT_PONG] /\
  call plain_env (pong 1) w' HE_SUCCESS w'' /\ during event w' w'' [HE_EVENT_PONG].
Proof.
  exists (client_up ++ [OKeepalive]), (world_at (client_up ++ [OKeepalive; pong 1])), (world_at (client_up ++ [OKeepalive; pong 1; pong 1])).
  cbv zeta. split; [apply world_at_reached; vm_compute; reflexivity|]. conj; vm_compute; reflexivity.
Qed.
Print Assumptions C30_repeated_refuted.

(** ** The theorems say something *)
Definition ping_op (id : Z) : op := OOutside (dgram 4660 (ping_message id 0)).
Example C30_example :
  let w := world_at (client_up ++ [OKeepalive; OKeepalive]) in
  reached plain_env w /\ awaited (w_t w) = 2 /\ cb_event (c_cbs (w_c w)) = true /\
  is_pong 2 (pong_message 2) = true /\ is_ping (ping_message 77 0) = true /\
  (exists w', call plain_env (pong 2) w HE_SUCCESS w' /\ during (both pong_event) w w' (caused [((HE_STATE_ONLINE, pong_message 2), [tt])])) /\
  (exists w', call plain_env (pong 1) w HE_SUCCESS w' /\ during (both pong_event) w w' (caused [((HE_STATE_ONLINE, pong_message 1), [])])) /\
  (exists w', call plain_env (ping_op 77) w HE_SUCCESS w' /\
     during (both sent) w w' (caused [((HE_STATE_ONLINE, ping_message 77 0), [pong_message 77])])).
Proof.
  cbv zeta. split; [apply world_at_reached; vm_compute; reflexivity|]. repeat (split; [vm_compute; reflexivity|]).
  split; [|split].
  - exists (world_at (client_up ++ [OKeepalive; OKeepalive; pong 2])). conj; vm_compute; reflexivity.
  - exists (world_at (client_up ++ [OKeepalive; OKeepalive; pong 1])). conj; vm_compute; reflexivity.
  - exists (world_at (client_up ++ [OKeepalive; OKeepalive; ping_op 77])). conj; vm_compute; reflexivity.
Qed.
