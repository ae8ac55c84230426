(** C03, C04, C05, C06, C27: what the callbacks tell the host. *)
From Verif Require Import Base Codes Ctx Wire WireSpec ConnState Conn ConnSpec HistSpec ConnSteps Hist ConnWpApi Hist2 Scenario Props_Auth.
Unset Strict Implicit.

Lemma connect_called t : re t = false -> has connect_call t = true -> exists o, last_call t = Some o.
Proof.
  unfold re, has. induction t as [|[s e] t IH]; [discriminate|]. intros Hr C. cbn [existsb snd] in *. apply orb_false_iff in Hr. destruct Hr as [Ne Hr].
  destruct e; cbn [last_call]; eauto; try (apply IH; auto; exact C). discriminate Ne.
Qed.

Lemma last_reneg_values t :
  last_reneg t = None \/ last_reneg t = Some HE_EVENT_SECURE_RENEGOTIATION_COMPLETED \/
  last_reneg t = Some HE_EVENT_SECURE_RENEGOTIATION_STARTED.
Proof.
  induction t as [|[s e] t IH]; [auto|]. destruct e; auto. cbn. destruct (Z.eqb_spec e HE_EVENT_SECURE_RENEGOTIATION_STARTED) as [->|]; [auto|].
  destruct (Z.eqb_spec e HE_EVENT_SECURE_RENEGOTIATION_COMPLETED) as [->|]; auto.
Qed.

(** ** C03.  state_change_cb *)
(** Every report is the state he_conn_get_state returns at that moment, and is
    never the state reported before (contexts with state_change_cb set; any
    host, including one that makes calls from inside callbacks). *)
Theorem C03_reports_are_true_and_changes : forall E n ops,
  every (fun s e past => forall s', e = EState s' -> connects (fun x => cb_state (x_cbs x)) past = true ->
           s' = s /\ s' <> reported past)
        (history E n ops).
Proof.
  intros E n ops. apply history_every, Reach_every; try discriminate.
  - intros w e R [_ H] s' ->. destruct H.
  - intros w s R St N C s' [= <-] K. split; [reflexivity|]. destruct (Reach_rep R K) as [E'|(_ & E' & D)]; rewrite E'; [congruence|].
    intros ->. destruct St as (_ & _ & _ & Hs). repeat destruct Hs as [[F _]|Hs]; try discriminate F. destruct Hs as [F _]. discriminate F.
Qed.
Print Assumptions C03_reports_are_true_and_changes.

(** Between reports he_conn_get_state keeps returning the last reported state:
    at every entry of the log once something has been reported. *)
Theorem C03_state_is_the_reported_one : forall E n ops,
  every (fun s e past => connects (fun x => cb_state (x_cbs x)) past = true -> has is_state_ev past = true ->
           s = reported ((s, e) :: past))
        (history E n ops).
Proof.
  intros E n ops. apply history_every, Reach_every.
  - intros w e R H K N. rewrite reported_push by exact (emit_no_state H). destruct (Reach_rep R K) as [F|[F _]]; congruence.
  - reflexivity.
  - intros w R _ _ _ _ K N. rewrite reported_push by reflexivity. destruct (Reach_rep R K) as [F|[F _]]; congruence.
  - intros w R _ _ _ _ K N. rewrite reported_push by reflexivity. destruct (Reach_rep R K) as [F|[F _]]; congruence.
  - intros w o R _ K N. rewrite reported_push by reflexivity. destruct (Reach_rep R K) as [F|[F _]]; congruence.
  - intros w o rc R _ K N. rewrite reported_push by reflexivity. destruct (Reach_rep R K) as [F|[F _]]; congruence.
Qed.
Print Assumptions C03_state_is_the_reported_one.

(** The states are gone through in order, each during a call that may cause it
    (hosts that make no calls from inside callbacks). *)
Theorem C03_state_order : forall E n ops,
  every (fun s e past => forall s', e = EState s' -> re past = false ->
           connects (fun x => cb_state (x_cbs x)) past = true ->
           next_state_ok (reported past) s' = true /\
           exists o, last_call past = Some o /\ state_call_ok s' o = true)
        (history E n ops).
Proof.
  intros E n ops. apply history_every, Reach_every; try discriminate.
  - intros w e R [_ H] s' ->. destruct H.
  - intros w s R St N C s' [= <-] Hr K. destruct St as (_ & Ro & Ds & Hs). specialize (Ds Hr).
    assert (exists o, last_call (w_t w) = Some o) as (o & L).
    { destruct (Z.eq_dec s HE_STATE_DISCONNECTED) as [->|F].
      - repeat destruct Hs as [[F Hs]|Hs]; try discriminate F. destruct Hs as [_ X]. destruct (X Hr) as (o & X' & _). eauto.
      - destruct (Ro F) as [_ X]. exact (connect_called Hr X). }
    assert (reported (w_t w) = c_state (w_c w) \/ s = HE_STATE_CONNECTING) as Re.
    { destruct (Reach_rep R K) as [E'|(_ & _ & D)]; auto. }
    split; [|exists o; split; [exact L|]].
    + unfold next_state_ok.
      destruct Hs as [[-> _]|[(-> & _ & X)|[(-> & _ & _ & X)|[(-> & _ & X)|[(-> & _ & X & _)|[[-> _]|[-> _]]]]]]]; cbn; auto.
      * destruct Re as [->|F]; [|discriminate F]. now rewrite (X Hr).
      * destruct Re as [->|F]; [|discriminate F]. destruct (X Hr) as [-> _]. reflexivity.
      * destruct Re as [->|F]; [|discriminate F]. destruct (X Hr) as [-> _]. reflexivity.
      * destruct Re as [->|F]; [|discriminate F]. specialize (X Hr). apply Z.eqb_neq in X. rewrite X. cbn.
        apply negb_true_iff, Z.eqb_neq. intros D. specialize (Ds D). discriminate Ds.
      * destruct Re as [->|F]; [|discriminate F]. apply negb_true_iff, Z.eqb_neq. intros D. specialize (Ds D). discriminate Ds.
    + unfold state_call_ok.
      destruct Hs as [(-> & X & _)|[(-> & _ & X)|[(-> & _ & _ & X)|[(-> & _ & X)|[(-> & (X & _) & _)|[(-> & X & _)|[-> X]]]]]]]; cbn; auto;
        pose proof (calling_last Hr X L) as F; destruct o; auto; discriminate.
Qed.
Print Assumptions C03_state_order.

(** LINK_UP is reported only when wolfSSL_negotiate has succeeded during the same
    call; a client reports ONLINE only from CONFIGURING. *)
Theorem C03_link_up_after_negotiation : forall E n ops,
  every (fun _ e past =>
           (e = EState HE_STATE_LINK_UP -> has negotiated (upto is_call past) = true) /\
           (e = EState HE_STATE_ONLINE -> re past = false -> has server_call past = false ->
            connects (fun x => cb_state (x_cbs x)) past = true -> reported past = HE_STATE_CONFIGURING))
        (history E n ops).
Proof.
  intros E n ops. apply history_every, Reach_every; try (split; discriminate).
  - intros w e R [_ H]. split; intros ->; destruct H.
  - intros w s R St N C. destruct St as (_ & Ro & Ds & Hs). split.
    + intros [= ->]. destruct Hs as [[F _]|[(_ & X & _)|Hs]]; [discriminate F|exact X|].
      repeat destruct Hs as [[F Hs]|Hs]; try discriminate F. destruct Hs as [F _]. discriminate F.
    + intros [= ->] Hr NS K. destruct (Reach_rep R K) as [->|(_ & _ & D)]; [|specialize (Ds Hr D); discriminate Ds].
      destruct Hs as [[F _]|[[F _]|[[F _]|[[F _]|[(_ & _ & _ & X)|[[F _]|[F _]]]]]]]; try discriminate F.
      destruct X as [[_ X]|(_ & _ & _ & X)]; [|now apply X]. pose proof (Reach_role2 R (X Hr)). congruence.
Qed.
Print Assumptions C03_link_up_after_negotiation.

(** A client does not stay in LINK_UP: when a call returns, it has left it. *)
Theorem C03_client_leaves_link_up : forall E n ops,
  every (fun s e past => forall o rc, e = ERet o rc -> re past = false -> has server_call past = false ->
           s <> HE_STATE_LINK_UP)
        (history E n ops).
Proof.
  intros E n ops. apply history_every, Reach_every; try discriminate.
  - intros w e R [_ H] o rc ->. destruct H.
  - intros w o rc R H o' rc' _ Hr NS L. destruct (H Hr) as (_ & M & _). unfold mid2 in M. rewrite NS, L in M. cbn in M.
    rewrite andb_true_r in M. apply negb_false_iff in M. pose proof (Reach_role2 R M). congruence.
Qed.
Print Assumptions C03_client_leaves_link_up.

(** A client goes through CONNECTING, LINK_UP, AUTHENTICATING, CONFIGURING and
    ONLINE, reports all of them, and disconnects. *)
Definition states_of (t : trace) : list Z :=
  rev (flat_map (fun x => match snd x with EState s => [s] | _ => [] end) t).
Example C03_example :
  let t := history plain_env 0 (client_data ++ [ODisconnect]) in
  states_of t = [HE_STATE_CONNECTING; HE_STATE_LINK_UP; HE_STATE_AUTHENTICATING; HE_STATE_CONFIGURING; HE_STATE_ONLINE;
                 HE_STATE_DISCONNECTING; HE_STATE_DISCONNECTED] /\
  connects (fun x => cb_state (x_cbs x)) t = true /\ re t = false /\ has server_call t = false.
Proof. vm_compute. repeat split. Qed.

(** ** C04.  HE_EVENT_FIRST_MESSAGE_RECEIVED *)
Theorem C04_first_message_at_most_once : forall E n ops,
  (count first_message (history E n ops) <= 1)%nat.
Proof. intros E n ops. unfold history. apply (Reach_first (run_reach E n ops)). Qed.
Print Assumptions C04_first_message_at_most_once.
(** It is delivered only while data received from outside is being processed, and
    not on a disconnected connection. *)
Theorem C04_first_message_only_from_outside : forall E n ops,
  every (fun s e past => first_message e = true -> re past = false ->
           s <> HE_STATE_DISCONNECTED /\ exists d, last_call past = Some (OOutside d))
        (history E n ops).
Proof.
  intros E n ops. apply history_every, Reach_every; try discriminate.
  - intros w e R H F. rewrite (emit_not_first H) in F. discriminate.
  - intros w R _ _ C D _ Hr. split; [now apply D|]. destruct (C Hr) as (o & L & F). destruct o; try discriminate F. eauto.
Qed.
Print Assumptions C04_first_message_only_from_outside.
Example C04_example : count first_message (history plain_env 0 client_data) = 1%nat.
Proof. vm_compute. reflexivity. Qed.

(** ** C05.  nudge_time_cb *)
(** The library asks for a timer only if the last one it asked for has fired (the
    host called he_conn_nudge since): at most one is ever outstanding. *)
Theorem C05_one_timer_outstanding : forall E n ops,
  every (fun _ e past => timer_set e = true -> re past = false -> outstanding past = false) (history E n ops).
Proof.
  intros E n ops. apply history_every, Reach_every; try discriminate.
  intros w e R [M H] T Hr. destruct e; try discriminate T. destruct H as (_ & N).
  destruct (outstanding (w_t w)) eqn:O; [|reflexivity].
  assert (c_nudging (w_c w) = true) as F by (apply (nudge_settled (Reach_nudge R) (M eq_refl) Hr O)).
  rewrite (N Hr) in F. discriminate.
Qed.
Print Assumptions C05_one_timer_outstanding.

(** ** C06.  A disconnected connection is silent. *)
Theorem C06_silent_after_disconnect : forall E n ops,
  every (fun _ e past => is_disconnected past = true -> re past = false -> active e = false) (history E n ops).
Proof.
  intros E n ops. apply history_every, Reach_every.
  - intros w e R [_ H] D Hr. destruct (Reach_quiet R Hr D) as (St & I & O & L).
    assert (forall P : Prop, seq w P -> P) as Q by (intros P X; now apply X).
    destruct e; auto; try (match goal with |- active (EWOp ?o) = _ => destruct o; auto end); cbn [active]; exfalso; try (destruct H; congruence);
      try (repeat match goal with X : _ /\ _ |- _ => destruct X end;
           match goal with X : seq w _ |- _ => apply Q in X; first [now apply X|rewrite St in X; destruct X; discriminate] end).
    + destruct H as (_ & _ & X). rewrite St in X. discriminate X.
    + destruct H as (_ & X & _). now apply (X Hr).
  - intros w s R St N C D Hr. destruct (Reach_quiet R Hr D) as (St' & I & O & L). exfalso.
    destruct St as (_ & _ & Ds & Hs). rewrite (Ds Hr St') in Hs.
    destruct Hs as [(_ & X & _)|[[F _]|[[F _]|[[F _]|[[F _]|[[F _]|[F _]]]]]]]; try discriminate F.
    destruct (X Hr) as (o & Lo & F). specialize (L _ Lo). congruence.
  - intros w R _ _ _ X D Hr. destruct (Reach_quiet R Hr D) as (St' & _). exfalso. now apply (X Hr).
  - intros w R _ _ X _ D Hr. destruct (Reach_quiet R Hr D) as (St' & _). exfalso. now apply (X Hr).
  - reflexivity.
  - reflexivity.
Qed.
Print Assumptions C06_silent_after_disconnect.

(** After disconnecting, data in both directions, a ping and a timer are given to
    the connection: nothing happens. *)
Example C06_example :
  let t := history plain_env 0 (client_data ++ [ODisconnect]) in
  is_disconnected t = true /\ re t = false /\ has active t = true.
Proof. vm_compute. repeat split. Qed.

(** The library may still ask for a timer after he_conn_disconnect. *)
Theorem C06_timer_after_disconnect_refuted : exists E ops,
  ~ every (fun _ e past => is_disconnected past = true -> timer_set e = false) (history E 0 ops).
Proof.
  exists plain_env, (client_up ++ [ODisconnect; ONudge]). vm_compute. intuition congruence.
Qed.
Print Assumptions C06_timer_after_disconnect_refuted.

(** ** C27.  Renegotiation events alternate, beginning with STARTED, as long as
    every context has event_cb set. *)
Theorem C27_renegotiation_events_alternate : forall E n ops,
  every (fun _ e past => re past = false -> connects (fun x => cb_event (x_cbs x)) past = true ->
           (e = EEvent HE_EVENT_SECURE_RENEGOTIATION_STARTED ->
            last_reneg past = None \/ last_reneg past = Some HE_EVENT_SECURE_RENEGOTIATION_COMPLETED) /\
           (e = EEvent HE_EVENT_SECURE_RENEGOTIATION_COMPLETED ->
            last_reneg past = Some HE_EVENT_SECURE_RENEGOTIATION_STARTED))
        (history E n ops).
Proof.
  intros E n ops. apply history_every, Reach_every; try (split; discriminate).
  - intros w e R [M H] Hr K. split; intros ->.
    + exfalso. destruct H as (_ & _ & [F|[F|[F _]]]); discriminate F.
    + destruct H as (_ & _ & [F|[F|[_ P]]]); try discriminate F.
      exact (reneg_settled (Reach_reneg R) (M eq_refl) Hr K (P Hr)).
  - intros w R M P _ _ Hr K. split; [intros _|discriminate].
    destruct (Reach_reneg R Hr K) as (_ & B & _). destruct (last_reneg_values (w_t w)) as [X|[X|X]]; auto.
    rewrite (B X) in P. specialize (P Hr). discriminate P.
Qed.
Print Assumptions C27_renegotiation_events_alternate.

Definition events_of (t : trace) : list Z :=
  rev (flat_map (fun x => match snd x with EEvent v => [v] | _ => [] end) t).
Definition reneg_ops : list op :=
  client_up ++ [OScheduleReneg; OOutside (dgram 4660 []); OScheduleReneg; OOutside (dgram 4660 [])].
Example C27_example :
  let t := history plain_env 0 reneg_ops in
  events_of t = [HE_EVENT_FIRST_MESSAGE_RECEIVED;
                 HE_EVENT_SECURE_RENEGOTIATION_STARTED; HE_EVENT_SECURE_RENEGOTIATION_COMPLETED;
                 HE_EVENT_SECURE_RENEGOTIATION_STARTED; HE_EVENT_SECURE_RENEGOTIATION_COMPLETED] /\
  re t = false /\ connects (fun x => cb_event (x_cbs x)) t = true.
Proof. vm_compute. repeat split. Qed.

(** A host without event_cb at first and with it from a second connect on may see
    COMPLETED without STARTED: the flag survives disconnecting. *)
Definition no_event : cbs := Cbs true true true true true true false true true true true true true.
Definition pending_ask (t : trace) (q : query) : Z :=
  match q with
  | QRenegPending => if (count (fun e => match e with EAsk QRenegPending _ => true | _ => false end) t <? 1)%nat then 1 else 0
  | _ => plain_ask t q
  end.
Definition pending_env : env :=
  Env true 50 pending_ask plain_cb (fun _ => (ip 1, ip 2, ip 3)) (fun _ => (HE_PLUGIN_SUCCESS, [])) plain_wolf (fun _ => HDone).
Theorem C27_event_cb_changes_refuted : exists E ops,
  ~ every (fun _ e past => e = EEvent HE_EVENT_SECURE_RENEGOTIATION_COMPLETED ->
             last_reneg past = Some HE_EVENT_SECURE_RENEGOTIATION_STARTED) (history E 0 ops).
Proof.
  exists pending_env, (client_setup ++
    [OClientConnect (ctx_of HE_CONNECTION_TYPE_DATAGRAM no_event) [] []; OOutside (dgram 0 []);
     OOutside (dgram 0 (config_message true (ip 1) (ip 2) (ip 3) 4660));
     OScheduleReneg; OOutside (dgram 4660 []); ODisconnect;
     OClientConnect dctx [] []; OOutside (dgram 4660 []); OOutside (dgram 4660 [])]).
  vm_compute. intuition congruence.
Qed.
Print Assumptions C27_event_cb_changes_refuted.

(** ** C05, examples *)
(** Three timers asked for, each but the last followed by he_conn_nudge. *)
Example C05_example :
  let t := history plain_env 0 (client_setup ++ [OClientConnect dctx [] []; ONudge; ONudge]) in
  count timer_set t = 3%nat /\ count timer_fired t = 2%nat /\ re t = false.
Proof. vm_compute. repeat split. Qed.

(** A host that calls the library from inside nudge_time_cb can be asked for a
    second timer while one is pending: the flag is only set after the callback
    (conn.c:787-791). *)
Definition renudge_env : env :=
  Env true 50 plain_ask plain_cb (fun _ => (ip 1, ip 2, ip 3)) (fun _ => (HE_PLUGIN_SUCCESS, []))
      (fun _ => WRet (-1) SSL_ERROR_WANT_READ [])
      (fun t => match t with
                           | (_, ENudge _) :: p => if has timer_set p then HDone else HCall (OOutside (dgram 0 [])) (fun _ => HDone)
                           | _ => HDone end).
Theorem C05_reentrant_host_refuted : exists E ops,
  ~ every (fun _ e past => timer_set e = true -> outstanding past = false) (history E 1 ops).
Proof.
  exists renudge_env, (client_setup ++ [OClientConnect dctx [] []]). vm_compute. intuition congruence.
Qed.
Print Assumptions C05_reentrant_host_refuted.
