(** C30 for hosts that also make calls inside callbacks. *)
From Verif Require Import Base Codes Ctx Config Mss MssSpec MssProofs Frag Wire WireSpec WireProofs ConnState Conn ConnSpec HistSpec MsgSpec CallSpec.
From Verif Require Import ConnSteps ConnWp ConnWpApi Frame FrameLoop Scenario Reaction Seq SeqInside SeqApi FragSpec TimerProofs DeepSpec Props_Ping.
Unset Strict Implicit.

(** What a PONG event needs. *)
Definition answered (s : Z) (e : ev) (past : trace) : Prop :=
  match e with
  | EEvent v => if v =? HE_EVENT_PONG then exists x id, In x (recently past) /\ is_pong id (snd x) = true /\
                  (id = 0 \/ In (ping_message id 0) (collect sent past)) else True
  | _ => True
  end.
(** The log is in order, the messages [xs] were received in the present call, the
    messages [ys] sent, and the keepalive waited for was sent. *)
Definition awaits (pend : Z) (ys : list bytes) : Prop := pend = 0 \/ (0 <= pend < 65536 -> In (ping_message pend 0) ys).
Definition J (xs : list (Z * bytes)) (ys : list bytes) (w : world) : Prop :=
  every answered (w_t w) /\ incl xs (recently (w_t w)) /\ incl ys (collect sent (w_t w)) /\ awaits (c_ping_pend (w_c w)) (collect sent (w_t w)).
Lemma recently_push e w : is_call e = false -> recently (w_t (push e w)) = recently (w_t w) ++ got_msg (c_state (w_c w)) e.
Proof. intros H. unfold recently. cbn [push w_t upto]. now rewrite H. Qed.
Lemma J_answered xs ys e w : is_call e = false -> answered (c_state (w_c w)) e (w_t w) -> J xs ys w -> J xs ys (push e w).
Proof.
  intros Hc Hh (A & B & C & D). split; [split; assumption|]. split; [|split].
  - rewrite recently_push by exact Hc. intros x Hx. apply in_or_app. left. now apply B.
  - cbn [push w_t collect]. intros x Hx. apply in_or_app. left. now apply C.
  - cbn [push w_t w_c collect]. destruct D as [D|D]; [now left|right]. intros H. apply in_or_app. left. now apply D.
Qed.
Definition pong_ev (e : ev) : bool := match e with EEvent v => v =? HE_EVENT_PONG | _ => false end.
Lemma J_push xs ys e w : is_call e = false -> pong_ev e = false -> J xs ys w -> J xs ys (push e w).
Proof. intros Hc H. apply J_answered; [exact Hc|]. destruct e; try exact I. cbn in H. cbn [answered]. now rewrite H. Qed.
Lemma J_more xs ys x w : In x (recently (w_t w)) -> J xs ys w -> J (x :: xs) ys w.
Proof. intros H (A & B & C & D). split; [exact A|]. split; [|split; assumption]. intros y [<-|Hy]; auto. Qed.
Lemma J_less x xs ys w : J (x :: xs) ys w -> J xs ys w.
Proof. intros (A & B & C & D). split; [exact A|]. split; [|split; assumption]. intros y Hy. apply B. now right. Qed.
Lemma J_less' y xs ys w : J xs (y :: ys) w -> J xs ys w.
Proof. intros (A & B & C & D). split; [exact A|]. split; [exact B|]. split; [|exact D]. intros z Hz. apply C. now right. Qed.

Section A.
Variable E : env.
Notation T := (fun _ : world => True).
Variable hook : M unit.
Hypothesis Hk : forall xs ys, keeps (J xs ys) T hook.
Lemma J_event xs ys e w : io_event e = false -> J xs ys w -> J xs ys (push e w).
Proof. intros H. apply J_push; [destruct e; try reflexivity; discriminate H|]. destruct e; try reflexivity. cbn in *. repeat (apply orb_false_iff in H as [H ?]). now rewrite H. Qed.
Lemma J_conn xs ys f w : c_ping_pend (f (w_c w)) = c_ping_pend (w_c w) -> J xs ys w -> J xs ys (with_c f w).
Proof. intros H (A & B & C & D). split; [exact A|]. split; [exact B|]. split; [exact C|]. cbn [with_c w_c w_t]. now rewrite H. Qed.
Lemma J_configure xs ys x i p w : J xs ys w -> J xs ys (with_c (configure_fields x i p) w).
Proof. apply J_conn. unfold configure_fields. repeat case_if; reflexivity. Qed.
Ltac kpush := apply J_push; [reflexivity|reflexivity|assumption].
Ltac kconn := apply J_conn; [reflexivity|assumption].
Ltac ks := intros; first [exact I|apply Hk|apply keeps_ret|now apply J_event|kpush|kconn|now apply J_configure|idtac].
Lemma J_read xs ys sz : keeps (J xs ys) T (io_read sz).
Proof. apply keeps_io_read; ks. Qed.
Lemma J_write xs ys b : keeps (J xs ys) T (io_write E hook b).
Proof. apply keeps_io_write; ks. Qed.
Ltac ks ::= intros; first [exact I|apply Hk|apply keeps_ret|apply J_read|apply J_write|now apply J_event|kpush|kconn|now apply J_configure|idtac].
Lemma J_change xs ys s : keeps (J xs ys) T (change_conn_state E hook s).
Proof. apply keeps_change_conn_state; ks. Qed.
Lemma J_ack xs ys id : keeps (J xs ys) T (pm_probe_ack E hook id).
Proof. apply keeps_pm_ack; ks. Qed.
(** A pong *)
Lemma J_pong xs ys s m : bytes_ok m -> 0 < len m -> msg_type m = HE_MSGID_PONG -> keeps (J ((s, m) :: xs) ys) T (handle_pong E hook m).
Proof.
  intros Bm Hl Ty. unfold handle_pong. change sizeof_pong with 5. destruct (Z.ltb_spec (len m) 5) as [L|L]; [apply keeps_ret|].
  destruct (@field16_ok E m 1 Bm) as (raw & F & N & _); [lia|lia|]. change (Z.to_nat 1) with 1%nat in *. rewrite F. intros w Hw.
  unfold bind at 1, lift at 1, ret at 1. cbv zeta. rewrite N. unfold bind at 1, get at 1. destruct (Z.eqb_spec (field16 m 1) (c_ping_pend (w_c w))) as [Eq|_].
  - unfold bind at 1, generate_event. unfold bind at 1, get at 1. destruct (cb_event (c_cbs (w_c w))); cbn [when]; [|exact Hw].
    unfold notify. unfold bind at 1, emit at 1. fold (push (EEvent HE_EVENT_PONG) w).
    assert (J ((s, m) :: xs) ys (push (EEvent HE_EVENT_PONG) w)) as H1.
    { apply J_answered; [reflexivity| |exact Hw]. destruct Hw as (A & B & C & D). cbn [answered]. rewrite Z.eqb_refl.
      exists (s, m), (field16 m 1). split; [apply B; now left|]. split.
      - unfold is_pong. cbn [snd]. rewrite Ty, Z.eqb_refl. destruct (Z.leb_spec 5 (len m)); [|lia]. now rewrite Z.eqb_refl.
      - rewrite Eq. destruct D as [D|D]; [now left|right]. apply D. rewrite <- Eq. assert (byte_ok (nth 1 m 0)) by now apply bytes_ok_nth. assert (byte_ok (nth 2 m 0)) by now apply bytes_ok_nth. unfold byte_ok, field16 in *. cbn [Nat.add]. lia. }
    pose proof (@Hk _ _ _ H1) as Kh. destruct (hook _) as [[] w1|]; [exact Kh|exact I].
  - unfold bind at 1. pose proof (@J_ack _ ys (field16 m 1) _ Hw) as Kp. destruct (pm_probe_ack E hook (field16 m 1) w); [exact Kp|exact I].
Qed.
Lemma J_process xs ys s m : bytes_ok m -> 0 < len m -> keeps (J ((s, m) :: xs) ys) T (process_message E hook m).
Proof.
  intros Bm Hl. unfold process_message. destruct (Z.ltb_spec (len m) sizeof_msg_hdr) as [Y|_]; [unfold sizeof_msg_hdr in Y; lia|].
  rewrite ld8_ok by lia. change (nth (Z.to_nat 0) m 0) with (msg_type m). apply keeps_bind_lift; [intros; exact I|]. intros id [= <-].
  apply keeps_bind; [apply keeps_get|]. intros srv.
  destruct (msg_type m =? HE_MSGID_NOOP); [apply keeps_ret|]. destruct (msg_type m =? HE_MSGID_PING); [apply keeps_handle_ping; ks|].
  destruct (Z.eqb_spec (msg_type m) HE_MSGID_PONG) as [Ty|_]; [now apply J_pong|].
  repeat case_if; try apply keeps_ret.
  - apply keeps_handle_auth; ks.
  - apply keeps_handle_data; ks.
  - apply keeps_handle_config; ks.
  - apply keeps_handle_13; ks.
  - apply keeps_handle_server_config; ks.
  - apply keeps_handle_frag; ks.
Qed.
Lemma J_op xs ys o : keeps (J xs ys) T (wolf_op E hook o).
Proof. apply keeps_wolf_op'; ks. Qed.
Lemma J_recv xs ys w r err d w' : J xs ys w -> wolf_op E hook WRecv w = Done (r, err, d) w' -> 0 < r -> J ((c_state (w_c w'), d) :: xs) ys w'.
Proof.
  intros Hw H Hr. assert (J xs ys w') as Hj by (pose proof (@J_op xs ys WRecv w Hw) as Kp; now rewrite H in Kp).
  unfold wolf_op in H. unfold bind at 1, emit at 1 in H. unfold bind at 1, get at 1 in H. unfold bind at 1 in H.
  match type of H with match ?x with _ => _ end = _ => destruct x as [[[r1 e1] d1] w1|]; [|discriminate H] end.
  unfold bind, emit, ret in H. injection H as <- <- <- <-. apply J_more; [|exact Hj].
  fold (push (EWEnd WRecv r1 e1 d1) w1). rewrite recently_push by reflexivity. apply in_or_app. right. cbn [got_msg].
  destruct (Z.ltb_spec 0 r1); [|lia]. left. reflexivity.
Qed.
Lemma J_gen xs ys v : (v =? HE_EVENT_PONG) = false -> keeps (J xs ys) T (generate_event hook v).
Proof.
  intros N. unfold generate_event. apply keeps_bind; [apply keeps_get|]. intros k. destruct (cb_event k); cbn [when]; [|apply keeps_ret]. unfold notify.
  apply keeps_bind; [apply keeps_emit|intros _; apply Hk]. intros w Hw. apply J_push; [reflexivity|exact N|exact Hw].
Qed.
Lemma J_timeout xs ys : keeps (J xs ys) T (update_timeout E hook).
Proof. apply keeps_update_timeout; ks. Qed.
Lemma J_reneg xs ys : keeps (J xs ys) T (renegotiate_ssl E hook).
Proof. apply keeps_renegotiate; ks. Qed.
Lemma J_check xs ys : keeps (J xs ys) T (check_renegotiation E hook).
Proof. apply keeps_check; ks. Qed.
Ltac ku := lazymatch goal with |- keeps _ _ (upd _) => apply keeps_upd; intros; kconn end.
Lemma J_verify xs ys : keeps (J xs ys) T (verify_connection E hook).
Proof.
  apply verify_kept; intros; first [apply J_op|apply J_gen; reflexivity|apply J_timeout|apply J_change|apply J_reneg|apply J_check|ku|idtac].
  destruct (recv_data H0) as [Bd Ld]. destruct (Z.leb_spec r 0) as [|Hr]; [pose proof (@J_op xs ys WRecv w H) as Kp; now rewrite H0 in Kp|].
  pose proof (J_recv H H0 Hr) as H1. pose proof (@J_process xs ys _ d Bd (Ld Hr) _ H1) as Kp. destruct (process_message E hook d w'); [exact (J_less Kp)|exact I].
Qed.
Lemma J_outside xs ys b : keeps (J xs ys) T (outside_data_received E hook b).
Proof. apply outside_kept; intros; [apply keeps_plugin_ingress; ks|ku|ku|apply J_verify|apply keeps_session_in; ks]. Qed.

(** A keepalive *)
Lemma J_strat xs ys s : keeps (J xs ys) T (run_strat E hook s).
Proof. apply keeps_strat; ks. Qed.
Lemma J_send xs ys m w : J xs ys w -> match send_message E hook m w with Done _ w' => J xs (m :: ys) w' | Stuck _ _ => True end.
Proof.
  intros Hw. assert (J xs (m :: ys) (push (EWOp (WSend m)) w)) as H1.
  { assert (J xs ys (push (EWOp (WSend m)) w)) as (A & B & C & D) by (apply J_push; [reflexivity|reflexivity|exact Hw]). split; [exact A|]. split; [exact B|]. split; [|exact D].
    intros y [<-|Hy]; [|now apply C]. cbn [push w_t collect sent]. apply in_or_app. right. now left. }
  unfold send_message, wolf_op. unfold bind at 1. unfold bind at 1, emit at 1. fold (push (EWOp (WSend m)) w).
  match goal with |- match (match ?mm ?v with _ => _ end) with _ => _ end => assert (keeps (J xs (m :: ys)) T mm) as Kp end.
  { apply keeps_bind; [apply keeps_get|]. intros b. apply keeps_bind.
    - destruct b; [|apply keeps_ret]. apply keeps_bind; [apply keeps_log|]. intros t. apply keeps_bind; [apply J_strat|]. intros [[r err] d]. apply keeps_ret.
    - intros [[r err] d]. apply keeps_bind; [apply keeps_emit; ks|]. intros _. apply keeps_ret. }
  specialize (Kp _ H1). match goal with |- match (match ?x with _ => _ end) with _ => _ end => destruct x as [[[r err] d] w1|]; [|exact I] end.
  match goal with |- match ?mm w1 with _ => _ end => assert (keeps (J xs (m :: ys)) T mm) as Kq; [|exact (Kq w1 Kp)] end.
  repeat case_if; try apply keeps_ret. apply keeps_bind; [ku|intros _; apply keeps_ret].
Qed.
Lemma J_keepalive xs ys : keeps (J xs ys) T (send_keepalive E hook).
Proof.
  unfold send_keepalive. apply keeps_bind; [apply keeps_get|]. intros st. case_if; [apply keeps_ret|].
  apply keeps_bind; [apply keeps_get|]. intros id. apply keeps_bind; [ku|]. intros _.
  apply keeps_bind_lift; [intros; exact I|]. intros m Hm. intros w Hw. unfold bind at 1. pose proof (@J_send _ _ m _ Hw) as Kp.
  destruct (send_message E hook m w) as [res w1|]; [|exact I].
  match goal with |- match ?mm w1 with _ => _ end => assert (keeps (J xs (m :: ys)) T mm) as Kq end.
  { apply keeps_bind; [|intros _; apply keeps_ret]. destruct (res =? HE_SUCCESS); cbn [when]; [|apply keeps_ret]. apply keeps_upd.
    intros v (A & B & C & D). split; [exact A|]. split; [exact B|]. split; [exact C|]. right. cbn [with_c w_c w_t set_ping_pend c_ping_pend]. intros Hid.
    apply C. left. rewrite build_ping_ok in Hm by (try assumption; unfold sizeof_ping; lia). now injection Hm as <-. }
  specialize (Kq w1 Kp). match goal with |- match ?x with _ => _ end => destruct x; [exact (J_less' Kq)|exact I] end.
Qed.
Lemma J_body xs ys o : keeps (J xs ys) T (api_body E hook o).
Proof.
  destruct (match o with OOutside _ => true | _ => false end) eqn:Oo; [destruct o; try discriminate Oo; apply J_outside|].
  destruct o; try discriminate Oo; cbn [api_body].
  - apply keeps_client_connect; ks.
  - apply keeps_server_connect; ks.
  - apply keeps_disconnect; ks.
  - apply keeps_inside; ks.
  - apply keeps_nudge; ks.
  - apply J_keepalive.
  - apply keeps_send_server_config; ks.
  - apply keeps_bind; [ku|intros _; apply keeps_ret].
  - apply keeps_start_pmtu; ks.
  - apply keeps_pm_timeout; ks.
  - apply keeps_rotate; ks.
  - apply keeps_set_session; ks.
  - apply keeps_set_username; ks.
  - apply keeps_set_password; ks.
  - apply keeps_set_token; ks.
  - apply keeps_set_auth_buffer; ks.
  - apply keeps_set_mtu; ks.
  - apply keeps_bind; [ku|intros _; apply keeps_ret].
  - apply keeps_set_sni; ks.
Qed.
End A.
Lemma J_hookn E n : forall xs ys, keeps (J xs ys) (fun _ => True) (hookn E n).
Proof.
  induction n as [|n IH]; intros xs ys; [apply keeps_ret|]. cbn [hookn]. apply keeps_bind; [apply keeps_log|]. intros t.
  induction (e_host E t) as [|o k IHk]; cbn [run_host]; [apply keeps_ret|]. apply keeps_bind; [|intros rc; apply IHk].
  unfold nested_api. apply keeps_bind; [apply keeps_emit; intros; now apply J_push|]. intros _. apply keeps_bind; [now apply J_body|]. intros rc.
  apply keeps_bind; [apply keeps_emit; intros; now apply J_push|]. intros _. apply keeps_ret.
Qed.
Lemma J_run E n ops : forall w, J [] [] w -> match run E n ops w with Done _ w' => J [] [] w' | Stuck _ _ => True end.
Proof.
  induction ops as [|o ops IH]; intros w H; cbn [run]; [exact H|].
  assert (keeps (J [] []) (fun _ => True) (api E (hookn E n) o)) as Kp.
  { unfold api. apply keeps_bind; [apply keeps_emit; intros v (A & B & C & D); split; [split; [exact I|exact A]|]; split; [intros x []|]; split; [intros x []|]; cbn [push w_t w_c collect sent]; rewrite app_nil_r; exact D|]. intros _.
    apply keeps_bind; [apply J_body; apply J_hookn|]. intros rc. apply keeps_bind; [apply keeps_emit; intros; now apply J_push|]. intros _. apply keeps_ret. }
  specialize (Kp w H). destruct (api _ _ _ _); [now apply IH|exact I].
Qed.

(** Whatever calls a host makes, also inside callbacks and however deep: a PONG
    event is reported only for a pong received in the same call, with an id that a
    keepalive was sent with (or 0: see [C30_unsolicited_refuted]). *)
Theorem C30_pong_any_host : forall E n ops w, run E n ops world_new = Done tt w ->
  every (fun s e past => In tt (pong_event s e) -> exists x id, In x (recently past) /\ is_pong id (snd x) = true /\
    (id = 0 \/ In (ping_message id 0) (collect sent past))) (w_t w).
Proof.
  intros E n ops w R. pose proof (@J_run E n ops world_new) as Kp. rewrite R in Kp. destruct Kp as (A & _).
  { split; [exact I|]. split; [intros x []|]. split; [intros x []|]. now left. }
  clear R. induction (w_t w) as [|[s e] t IH]; [exact I|]. destruct A as [A B]. split; [|now apply IH].
  intros Hp. destruct e; try (now destruct Hp). cbn [pong_event] in Hp. cbn [answered] in A. destruct (_ =? _); [exact A|destruct Hp].
Qed.
Print Assumptions C30_pong_any_host.

(** ** What does not hold *)
(** The answer to a keepalive is not reported at all to a host whose transport
    brings it while the keepalive is still being handed to it (a loopback, say): the
    library only starts to wait for the id after outside_write_cb has returned. *)
Definition in_keepalive (t : trace) : bool :=
  match filter (fun x => is_call (snd x)) t with (_, ECall OKeepalive) :: _ => true | _ => false end.
Definition loopback (m : bytes) : env :=
  Env true 50 plain_ask plain_cb (fun _ => (ip 1, ip 2, ip 3)) (fun _ => (HE_PLUGIN_SUCCESS, [])) plain_wolf
      (fun t => match t with
                | (_, EOutside _) :: past => if in_keepalive past then HCall (OOutside m) (fun _ => HDone) else HDone
                | _ => HDone end).
Theorem C30_inline_answer_refuted : exists E ops w past s,
  run E 1 (ops ++ [OKeepalive]) world_new = Done tt w /\ cb_event (c_cbs (w_c w)) = true /\
  w_t w = (s, ERet OKeepalive HE_SUCCESS) :: past /\
  last (collect sent past) [] = ping_message 1 0 /\ recently past = [(HE_STATE_ONLINE, pong_message 1)] /\
  is_pong 1 (pong_message 1) = true /\ collect pong_event (w_t w) = [].
Proof.
  set (E := loopback (dgram 4660 (pong_message 1))). set (w := world_of (run E 1 (client_up ++ [OKeepalive]) world_new)).
  exists E, client_up, w, (tl (w_t w)), HE_STATE_ONLINE. vm_compute. repeat split.
Qed.
Print Assumptions C30_inline_answer_refuted.

(** ** The theorem says something *)
(** A host that hands over the answer to the keepalive it has just sent from inside
    the next callback (of another datagram) gets the event there. *)
Definition in_inside (t : trace) : bool :=
  match filter (fun x => is_call (snd x)) t with (_, ECall (OInside _)) :: _ => true | _ => false end.
Definition later (m : bytes) : env :=
  Env true 50 plain_ask plain_cb (fun _ => (ip 1, ip 2, ip 3)) (fun _ => (HE_PLUGIN_SUCCESS, [])) plain_wolf
      (fun t => match t with
                | (_, EOutside _) :: past => if in_inside past then HCall (OOutside m) (fun _ => HDone) else HDone
                | _ => HDone end).
Example C30_any_host_ex : let E := later (dgram 4660 (pong_message 1)) in
  let ops := client_up ++ [OKeepalive; OInside ipv4] in let w := world_of (run E 1 ops world_new) in
  run E 1 ops world_new = Done tt w /\ collect pong_event (w_t w) = [tt] /\
  existsb (fun x => match snd x with ENest (OOutside _) => true | _ => false end) (w_t w) = true.
Proof. vm_compute. repeat split. Qed.
