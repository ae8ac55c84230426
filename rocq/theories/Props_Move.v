(** C54: the state of a connection is exactly what its history makes it. *)
From Verif Require Import Base Codes Ctx Config Wire WireSpec ConnState Conn ConnSpec HistSpec MsgSpec CallSpec Reaction.
From Verif Require Import ConnSteps ConnWp ConnWpApi Frame FrameLoop Seq SeqApi TimerSpec TimerProofs Scenario Props_Data Props_Connect Props_Timer Props_Tls Props_Nudge Props_Server MoveSpec.
Unset Strict Implicit.

Section R.
Variable E : env.
Notation hk := (@ret unit tt).
Notation T := (fun _ : world => True).
Variable w0 : world.
Variable srv : bool.
Variable k : cbs.
Variable con : bool.
Definition step (t : option (Z * due)) (x : milestone) : option (Z * due) :=
  match t with Some (s, q) => if in_turn con s q x then Some (moved srv k s x, asked srv k s x) else None | None => None end.
(** The milestones since [w0] lead to [t]: a state, and what must come next. *)
Definition owes (t : Z * due) (w : world) : Prop := exists l, during milestones w0 w l /\ fold_left step l (Some (c_state (w_c w0), AtStart)) = Some t.
Lemma owes_push e s w : (forall z, milestones z e = []) -> owes s w -> owes s (push e w).
Proof. intros H (l & D & F). exists l. split; [|exact F]. unfold during in *. cbn [push w_t collect]. now rewrite H, D, !app_nil_r. Qed.
Lemma owes_step e x s q w : milestones (c_state (w_c w)) e = [x] -> in_turn con s q x = true -> owes (s, q) w -> owes (moved srv k s x, asked srv k s x) (push e w).
Proof.
  intros H Tu (l & D & F). exists (l ++ [x]). split; [|rewrite fold_left_app, F; cbn [fold_left step]; now rewrite Tu]. unfold during in *. cbn [push w_t collect]. now rewrite H, D, app_assoc.
Qed.
Lemma owes_conn f s w : owes s w -> owes s (with_c f w).
Proof. exact (fun H => H). Qed.

(** The connection is in state [s], the milestones lead to [t]. *)
Section J.
Variable s : Z.
Variable t : Z * due.
Definition J (w : world) : Prop := c_is_server (w_c w) = srv /\ c_cbs (w_c w) = k /\ c_state (w_c w) = s /\ owes t w.
Lemma J_push e w : (forall z, milestones z e = []) -> J w -> J (push e w).
Proof. intros H (A & B & C & D). split; [exact A|]. split; [exact B|]. split; [exact C|now apply owes_push]. Qed.
Lemma J_conn f w : (forall c, c_is_server (f c) = c_is_server c /\ c_cbs (f c) = c_cbs c /\ c_state (f c) = c_state c) -> J w -> J (with_c f w).
Proof. intros H (A & B & C & D). destruct (H (w_c w)) as (X & Y & Z). unfold J. cbn [with_c w_c]. rewrite X, Y, Z. split; [exact A|]. split; [exact B|]. split; [exact C|exact D]. Qed.
Lemma J_event e w : io_event e = false -> J w -> J (push e w).
Proof. intros H. apply J_push. intros z. destruct e; try reflexivity; try discriminate H. destruct k0; try reflexivity; discriminate H. Qed.
Lemma J_wop o w : o <> WNegotiate -> J w -> J (push (EWOp o) w).
Proof. intros N. apply J_push. intros z. destruct o; try reflexivity. congruence. Qed.
Lemma J_wend o r err d w : o <> WNegotiate -> o <> WRecv -> J w -> J (push (EWEnd o r err d) w).
Proof. intros N R. apply J_push. intros z. destruct o; try reflexivity; congruence. Qed.
Lemma J_idle r err d w : r <= 0 -> J w -> J (push (EWEnd WRecv r err d) w).
Proof. intros N. apply J_push. intros z. cbn [milestones]. destruct (Z.ltb_spec 0 r); [lia|reflexivity]. Qed.
Lemma J_plain o w : plain o -> J w -> J (push (EWOp o) w).
Proof. intros N. apply J_wop. intros ->. exact N. Qed.
Ltac kpush := first [apply J_plain; assumption|apply J_wend; [congruence|congruence|assumption]|apply J_push; [intros ?; reflexivity|assumption]].
Ltac kconn := apply J_conn; [intros; split; [|split]; reflexivity|assumption].
Ltac ks := intros; first [exact Logic.I|apply keeps_ret|now apply J_event|kpush|kconn|idtac].
Lemma J_read sz : keeps J T (io_read sz).
Proof. apply keeps_io_read; ks. Qed.
Lemma J_write b : keeps J T (io_write E hk b).
Proof. apply keeps_io_write; ks. Qed.
Ltac ks ::= intros; first [exact Logic.I|apply keeps_ret|apply J_read|apply J_write|now apply J_event|kpush|kconn|idtac].
Lemma J_strat x : keeps J T (run_strat E hk x).
Proof. apply keeps_strat; ks. Qed.
Lemma J_upd f : (forall c, c_is_server (f c) = c_is_server c /\ c_cbs (f c) = c_cbs c /\ c_state (f c) = c_state c) -> keeps J T (upd f).
Proof. intros H. apply keeps_upd. intros. now apply J_conn. Qed.
Lemma J_ask q : keeps J T (ask E q).
Proof. unfold ask. apply keeps_bind; [apply keeps_log|]. intros u. apply keeps_bind; [apply keeps_emit; ks|intros _; apply keeps_ret]. Qed.
Lemma J_gen v : keeps J T (generate_event hk v).
Proof. unfold generate_event. repeat first [apply keeps_get|case_if|apply keeps_ret|apply keeps_bind; [|intros ?]|apply keeps_when|apply keeps_emit; ks]. all: try (unfold notify; apply keeps_bind; [apply keeps_emit; ks|intros _; apply keeps_ret]). Qed.
Lemma J_timeout : keeps J T (update_timeout E hk).
Proof. apply keeps_update_timeout; ks. Qed.
Lemma J_op o : o <> WNegotiate -> o <> WRecv -> keeps J T (wolf_op E hk o).
Proof. intros N1 N2. apply keeps_wolf_op'; ks. now apply J_wop. Qed.
Ltac ku := apply J_upd; intros; split; [|split]; reflexivity.
Lemma J_reneg : keeps J T (renegotiate_ssl E hk).
Proof. apply reneg_kept; intros; first [apply J_ask|now apply J_op|apply J_gen|apply J_timeout|ku]. Qed.
Lemma J_check : keeps J T (check_renegotiation E hk).
Proof. apply check_kept; intros; first [apply J_ask|now apply J_op|apply J_gen|apply J_timeout|ku]. Qed.
Lemma J_send m : keeps J T (send_message E hk m).
Proof.
  unfold send_message. apply keeps_bind; [apply keeps_wolf_op'; ks|]. intros [[r err] d].
  repeat (case_if; try apply keeps_ret). apply keeps_bind; [apply J_upd; intros; split; [|split]; reflexivity|intros _; apply keeps_ret].
Qed.
Lemma J_denied : keeps J T (send_auth_denied E hk).
Proof. unfold send_auth_denied. apply keeps_bind; [apply keeps_lift; auto|]. intros m. apply keeps_bind; [apply J_send|intros _; apply keeps_ret]. Qed.
Lemma J_session x : keeps J T (update_session_incoming hk x).
Proof. apply keeps_session_in; ks. Qed.
Lemma J_ping m : keeps J T (handle_ping E hk m).
Proof. apply keeps_handle_ping; ks. Qed.
Lemma J_pong m : keeps J T (handle_pong E hk m).
Proof. apply keeps_handle_pong; ks. Qed.
Lemma J_data m : keeps J T (handle_data E hk m).
Proof. apply keeps_handle_data; ks. Qed.
Lemma J_13 m : keeps J T (handle_deprecated_13 E hk m).
Proof. apply keeps_handle_13; ks. Qed.
Lemma J_frag m : keeps J T (handle_frag E hk m).
Proof. apply keeps_handle_frag; ks. Qed.
Lemma J_srvcfg m : keeps J T (handle_server_config E hk m).
Proof. apply keeps_handle_server_config; ks. Qed.
Lemma J_ingress ch d c : keeps J T (plugin_ingress E ch d c).
Proof. apply keeps_plugin_ingress; ks. Qed.
Lemma J_settings x : keeps J T (wolf_settings E x).
Proof. apply keeps_settings; ks. Qed.
Lemma J_settings2 x : keeps J T (wolf_settings2 E x).
Proof. apply keeps_settings2; ks. Qed.
Lemma J_generate : keeps J T (generate_session_id E).
Proof. apply keeps_generate_session_id; ks. Qed.
(** Calls that move nothing. *)
Definition stays_op (o : op) : bool :=
  match o with OClientConnect _ _ _ | OServerConnect _ _ _ | ODisconnect | OOutside _ | ONudge => false | _ => true end.
Lemma J_stays o : stays_op o = true -> keeps J T (api_body E hk o).
Proof.
  destruct o; intros Pl; try discriminate Pl; cbn [api_body].
  - apply keeps_inside; ks.
  - apply keeps_keepalive; ks.
  - apply keeps_send_server_config; ks.
  - apply keeps_bind; [ku|intros; apply keeps_ret].
  - apply keeps_start_pmtu; ks.
  - apply keeps_pm_timeout; ks.
  - apply keeps_rotate; ks.
  - apply keeps_set_session; ks.
  - apply keeps_set_username; ks.
  - apply keeps_set_password; ks.
  - apply keeps_set_token; ks.
  - apply keeps_set_auth_buffer; ks.
  - apply keeps_set_mtu; ks.
  - apply keeps_bind; [ku|intros; apply keeps_ret].
  - apply keeps_set_sni; ks.
Qed.
Lemma J_userpass : keeps J T (send_auth_userpass E hk).
Proof. unfold send_auth_userpass. apply keeps_bind; [apply keeps_get|]. intros c. apply keeps_bind; [apply keeps_lift; auto|]. intros m. apply J_send. Qed.
Lemma J_token : keeps J T (send_auth_token E hk).
Proof.
  unfold send_auth_token. apply keeps_bind; [apply keeps_get|]. intros c. cbv zeta. repeat (case_if; [apply keeps_ret|]). apply keeps_bind; [apply keeps_lift; auto|]. intros m.
  apply keeps_bind; [apply keeps_lift; auto|]. intros m2. apply J_send.
Qed.
Lemma J_buf : keeps J T (send_auth_buf E hk).
Proof.
  unfold send_auth_buf. apply keeps_bind; [apply keeps_get|]. intros c. cbv zeta. repeat (case_if; [apply keeps_ret|]). apply keeps_bind; [apply keeps_lift; auto|]. intros m.
  apply keeps_bind; [apply keeps_lift; auto|]. intros m2. apply J_send.
Qed.
Lemma J_recv w : J w -> match wolf_op E hk WRecv w with
  | Done (r, err, d) w' => exists v, w' = push (EWEnd WRecv r err d) v /\ J v
  | Stuck _ _ => True end.
Proof.
  intros H. unfold wolf_op. unfold bind at 1, emit at 1. fold (push (EWOp WRecv) w). assert (J (push (EWOp WRecv) w)) as H1 by (apply J_wop; [discriminate|exact H]).
  generalize dependent (push (EWOp WRecv) w). clear w H. intros w H. unfold bind at 1, get at 1. unfold bind at 1.
  match goal with |- match (match ?m w with _ => _ end) with _ => _ end => assert (keeps J T m) as K end.
  { case_if; [|apply keeps_ret]. apply keeps_bind; [apply keeps_log|]. intros u. apply keeps_bind; [apply J_strat|]. intros [[r err] d]. apply keeps_ret. }
  match goal with |- match (match ?m w with _ => _ end) with _ => _ end => specialize (K w H); destruct (m w) as [[[r err] d] w1|]; [|exact Logic.I] end.
  unfold bind at 1, emit at 1, ret at 1. exists w1. split; [reflexivity|exact K].
Qed.
Lemma J_negotiate w : J (push (EWOp WNegotiate) w) -> match wolf_op E hk WNegotiate w with
  | Done (r, err, d) w' => exists v, w' = push (EWEnd WNegotiate r err d) v /\ J v
  | Stuck _ _ => True end.
Proof.
  intros H. unfold wolf_op. unfold bind at 1, emit at 1. fold (push (EWOp WNegotiate) w).
  generalize dependent (push (EWOp WNegotiate) w). clear w. intros w H. unfold bind at 1, get at 1. unfold bind at 1.
  match goal with |- match (match ?m w with _ => _ end) with _ => _ end => assert (keeps J T m) as K end.
  { case_if; [|apply keeps_ret]. apply keeps_bind; [apply keeps_log|]. intros u. apply keeps_bind; [apply J_strat|]. intros [[r err] d]. apply keeps_ret. }
  match goal with |- match (match ?m w with _ => _ end) with _ => _ end => specialize (K w H); destruct (m w) as [[[r err] d] w1|]; [|exact Logic.I] end.
  unfold bind at 1, emit at 1, ret at 1. exists w1. split; [reflexivity|exact K].
Qed.
End J.

(** The state is set to [s']. *)
Lemma set_moves s t s' w : J s t w -> match set_conn_state hk s' w with Done ch w' => J s' t w' /\ ch = negb (s =? s') | Stuck _ _ => True end.
Proof.
  intros (A & B & C & D). unfold set_conn_state. unfold bind at 1, get at 1. rewrite C. destruct (Z.eqb_spec s s') as [Q|N]; cbn [negb].
  - unfold ret. split; [|reflexivity]. split; [exact A|]. split; [exact B|]. split; [congruence|exact D].
  - unfold bind at 1, upd at 1. unfold bind at 1, get at 1. assert (J s' t (World (set_state s' (w_c w)) (w_t w))) as H by (split; [exact A|split; [exact B|split; [reflexivity|exact D]]]).
    unfold when. destruct (cb_state _).
    + unfold notify. unfold bind at 1. unfold bind at 1. unfold emit at 1. unfold ret. split; [|reflexivity].
      match goal with |- J s' t (World (w_c ?w1) ((_, ?e) :: w_t ?w1)) => change (J s' t (push e w1)) end. apply J_push; [reflexivity|exact H].
    + unfold bind at 1, ret. split; [exact H|reflexivity].
Qed.
Lemma change_moves s t s' w : s' <> HE_STATE_LINK_UP -> J s t w -> match change_conn_state E hk s' w with Done _ w' => J s' t w' | Stuck _ _ => True end.
Proof.
  intros N H. unfold change_conn_state. unfold bind at 1. pose proof (@set_moves s t s' w H) as K. destruct (set_conn_state hk s' w) as [ch w1|]; [|exact Logic.I]. destruct K as [K _].
  destruct (Z.eqb_spec s' HE_STATE_LINK_UP) as [Q|_]; [congruence|]. rewrite andb_false_r. exact K.
Qed.
Lemma auth_moves s t w : s = HE_STATE_LINK_UP \/ s = HE_STATE_AUTHENTICATING -> J s t w -> match send_auth E hk w with Done _ w' => J HE_STATE_AUTHENTICATING t w' | Stuck _ _ => True end.
Proof.
  intros S H. unfold send_auth. unfold bind at 1, get at 1. destruct H as (A & B & C & D). rewrite C.
  assert (negb (s =? HE_STATE_LINK_UP) && negb (s =? HE_STATE_AUTHENTICATING) = false) as -> by (destruct S as [-> | ->]; reflexivity).
  unfold bind at 1. pose proof (@set_moves s t HE_STATE_AUTHENTICATING w (conj A (conj B (conj C D)))) as K. destruct (set_conn_state hk _ w) as [ch w1|]; [|exact Logic.I]. destruct K as [K _].
  unfold bind at 1, get at 1. repeat case_if; [exact (@J_userpass _ _ w1 K)|exact (@J_token _ _ w1 K)|exact (@J_buf _ _ w1 K)|exact K].
Qed.
Lemma linkup_moves t w : J HE_STATE_CONNECTING t w -> match change_conn_state E hk HE_STATE_LINK_UP w with
  Done _ w' => J (if srv then HE_STATE_LINK_UP else HE_STATE_AUTHENTICATING) t w' | Stuck _ _ => True end.
Proof.
  intros H. unfold change_conn_state. unfold bind at 1. pose proof (@set_moves _ t HE_STATE_LINK_UP w H) as K. destruct (set_conn_state hk _ w) as [ch w1|]; [|exact Logic.I]. destruct K as [K ->].
  change (negb (HE_STATE_CONNECTING =? HE_STATE_LINK_UP) && (HE_STATE_LINK_UP =? HE_STATE_LINK_UP)) with true. cbv iota. unfold bind at 1, get at 1. pose proof K as (A & _). rewrite A. destruct srv; cbn [negb]; [exact K|].
  unfold bind at 1. pose proof (@auth_moves _ t w1 (or_introl eq_refl) K) as K2. destruct (send_auth E hk w1); [exact K2|exact Logic.I].
Qed.

(** In state [s], as the milestones have it, with no question open: messages may be read. *)
Definition JJ (w : world) : Prop := exists s q, (q = AtStart \/ q = Nothing) /\ s <> HE_STATE_CONNECTING /\ J s (s, q) w.
(** The same, but perhaps in the handshake. *)
Definition JE (w : world) : Prop := exists s q, quiet q = true /\ J s (s, q) w.
Lemma JJ_JE w : JJ w -> JE w.
Proof. intros (s & q & [-> | ->] & _ & H); eexists _, _; (split; [|exact H]); reflexivity. Qed.
Lemma JJ_keeps A (m : M A) : (forall s t, keeps (J s t) T m) -> keeps JJ T m.
Proof. intros H w (s & q & Q & N & K). specialize (H s (s, q) w K). destruct (m w); [|exact Logic.I]. exists s, q. auto. Qed.
Lemma JE_keeps A (m : M A) : (forall s t, keeps (J s t) T m) -> keeps JE T m.
Proof. intros H w (s & q & Q & K). specialize (H s (s, q) w K). destruct (m w); [|exact Logic.I]. exists s, q. auto. Qed.
Lemma J_JJ A s (m : M A) w : s <> HE_STATE_CONNECTING -> keeps (J s (s, Nothing)) T m -> J s (s, Nothing) w -> match m w with Done _ w' => JJ w' | Stuck _ _ => True end.
Proof. intros N H K. specialize (H w K). destruct (m w); [|exact Logic.I]. exists s, Nothing. auto. Qed.
Lemma to_JJ s w : s <> HE_STATE_CONNECTING -> J s (s, Nothing) w -> JJ w.
Proof. intros N H. exists s, Nothing. auto. Qed.

Lemma accepted_moves s w : s <> HE_STATE_CONNECTING -> J s (s, AProvision) w -> match auth_accepted E hk w with Done _ w' => JJ w' | Stuck _ _ => True end.
Proof.
  intros Ns H. unfold auth_accepted. unfold bind at 1, get at 1. unfold bind at 1, emit at 1. unfold bind at 1, ret at 1. unfold bind at 1, log at 1.
  match goal with |- context [e_cfg E ?x] => destruct (e_cfg E x) as [[l p] d] end. cbv beta iota zeta.
  unfold bind at 1, emit at 1. unfold bind at 1, log at 1. cbv zeta. unfold bind at 1, emit at 1. cbn [w_c w_t].
  match goal with |- context [e_cb E ?x] => set (res := e_cb E x) end.
  match goal with |- context [World ?c ((?a, ECbRet KPopulate res) :: ?x)] => set (v := World c x); change (World c ((a, ECbRet KPopulate res) :: x)) with (push (ECbRet KPopulate res) v) end.
  assert (J s (s, AProvision) v) as Hv by exact (J_push (e := ECfg (field24 l) (field24 p) (field24 d)) (fun _ => eq_refl) (J_push (e := EPopulate) (fun _ => eq_refl) H)).
  assert (J s (if res =? 0 then HE_STATE_ONLINE else s, Nothing) (push (ECbRet KPopulate res) v)) as Hp.
  { destruct Hv as (A & B & C & D). split; [exact A|]. split; [exact B|]. split; [exact C|]. exact (owes_step (e := ECbRet KPopulate res) (x := Provided res) (s := s) (q := AProvision) eq_refl eq_refl D). }
  change HE_SUCCESS with 0. destruct (res =? 0); cbn [negb].
  - unfold bind at 1. destruct (build_config_ipv4 _ _ _ _ _) as [m|]; [|exact Logic.I]. cbn [lift]. unfold ret at 1. unfold bind at 1.
    pose proof (@J_send _ _ m _ Hp) as K. destruct (send_message E hk m _) as [rc w1|]; [|exact Logic.I]. unfold bind at 1.
    pose proof (@change_moves _ _ HE_STATE_ONLINE w1 ltac:(discriminate) K) as K2. destruct (change_conn_state E hk _ w1); [|exact Logic.I]. apply (to_JJ (s := HE_STATE_ONLINE)); [discriminate|exact K2].
  - unfold bind at 1. pose proof (@J_denied _ _ _ Hp) as K. destruct (send_auth_denied E hk _); [|exact Logic.I]. exact (to_JJ Ns K).
Qed.
Definition if_accepted (s : Z) (ok : bool) : Z * due := if ok then (s, AProvision) else (HE_STATE_DISCONNECTING, Nothing).
Lemma verdict_moves s (ok : bool) rc w : s <> HE_STATE_CONNECTING -> J s (if_accepted s ok) w -> match auth_verdict E hk ok rc w with Done _ w' => JJ w' | Stuck _ _ => True end.
Proof.
  intros Ns H. unfold auth_verdict. destruct ok; cbn [negb if_accepted] in *; [now apply accepted_moves in H|].
  unfold bind at 1. pose proof (@J_denied _ _ w H) as K. destruct (send_auth_denied E hk w) as [u w1|]; [|exact Logic.I].
  unfold bind at 1. pose proof (@change_moves _ _ HE_STATE_DISCONNECTING w1 ltac:(discriminate) K) as K2. destruct (change_conn_state E hk _ w1); [|exact Logic.I]. apply (to_JJ (s := HE_STATE_DISCONNECTING)); [discriminate|exact K2].
Qed.
Lemma ask_moves s e w : (forall z, milestones z e = []) -> J s (s, AVerdict) w -> match callback E hk e KAuth w with
  Done v w' => J s (if_accepted s (negb (v =? 0))) w' | Stuck _ _ => True end.
Proof.
  intros N H. unfold callback. unfold bind at 1, emit at 1. unfold bind at 1, ret at 1. unfold bind at 1, log at 1. cbv zeta. unfold bind at 1, emit at 1. unfold ret at 1. cbn [w_c w_t].
  match goal with |- J _ _ (World ?c ((?a, ECbRet KAuth ?r) :: ?x)) => change (J s (if_accepted s (negb (r =? 0))) (push (ECbRet KAuth r) (push e w))); generalize r end. intros r.
  destruct (J_push N H) as (A & B & C & D). split; [exact A|]. split; [exact B|]. split; [exact C|].
  pose proof (owes_step (e := ECbRet KAuth r) (x := Verdict r) (s := s) (q := AVerdict) eq_refl eq_refl D) as Ow. cbn [moved asked] in Ow. unfold if_accepted. destruct (r =? 0); exact Ow.
Qed.
Lemma refused_not_denied m c : auth_refused k m = Some c -> denied_unasked k m = false.
Proof.
  unfold auth_refused, denied_unasked, judges. destruct (cb_populate k); cbn [negb orb]; [|intros _; now rewrite andb_false_r].
  destruct (cb_auth k || cb_authtok k || cb_authbuf k) eqn:Q; cbn [negb]; [|intros _; now rewrite andb_false_r].
  destruct (Z.ltb_spec (len m) 2); destruct (Z.leb_spec 2 (len m)); try (intros _; now rewrite andb_false_r); [exfalso; lia|]. cbv zeta. rewrite !andb_true_r.
  destruct (nth 1 m 0 =? HE_AUTH_TYPE_USERPASS), (nth 1 m 0 =? HE_AUTH_TYPE_TOKEN), (nth 1 m 0 =? HE_AUTH_TYPE_CB), (cb_auth k), (cb_authtok k), (cb_authbuf k); cbn; try discriminate; now rewrite ?andb_false_r.
Qed.
Lemma login_moves s m w : bytes_ok m -> 0 < len m -> s <> HE_STATE_CONNECTING -> srv = true -> msg_type m = HE_MSGID_AUTH -> J s (moved srv k s (Message s m), asked srv k s (Message s m)) w ->
  match handle_auth E hk m w with Done _ w' => JJ w' | Stuck _ _ => True end.
Proof.
  intros Bm Lm Ns Hs Ty H. cbn [moved asked] in H. rewrite Hs in H. pose proof H as (A & B & C & D). unfold judged in H. rewrite Ty in H. change (HE_MSGID_AUTH =? HE_MSGID_AUTH) with true in H. cbn [andb] in H.
  destruct (auth_refused k m) as [code|] eqn:Rf.
  { rewrite (refused_not_denied Rf) in H. rewrite (@auth_unanswered E m w code Bm Lm); [exact (to_JJ Ns H)|congruence|congruence]. }
  unfold denied_unasked in H. rewrite Ty in H. change (HE_MSGID_AUTH =? HE_MSGID_AUTH) with true in H. cbn [andb] in H. unfold auth_refused in Rf.
  unfold handle_auth. unfold bind at 1, get at 1. cbv zeta in *. rewrite A, B, Hs. cbn [negb andb].
  destruct (cb_populate k) eqn:Po; cbn [negb orb] in *; [|discriminate Rf].
  replace (negb (cb_auth k) && negb (cb_authtok k) && negb (cb_authbuf k)) with (negb (cb_auth k || cb_authtok k || cb_authbuf k)) by (destruct (cb_auth k), (cb_authtok k), (cb_authbuf k); reflexivity).
  destruct (cb_auth k || cb_authtok k || cb_authbuf k); cbn [negb] in *; [|discriminate Rf].
  change sizeof_auth_hdr with 2. destruct (Z.ltb_spec (len m) 2) as [L|L]; [discriminate Rf|].
  destruct (Z.leb_spec 2 (len m)); [|lia]. cbn [andb] in H. rewrite ld8_ok by lia. change (nth (Z.to_nat 1) m 0) with (nth 1 m 0). unfold bind at 1, lift at 1, ret at 1.
  change sizeof_auth with 104. change sizeof_auth_token with 4. change sizeof_auth_buf with 4.
  unfold judges in H. set (ty := nth 1 m 0) in *.
  assert (forall rc, J s (HE_STATE_DISCONNECTING, Nothing) w -> match auth_verdict E hk false rc w with Done _ w' => JJ w' | Stuck _ _ => True end) as No by (intros rc Hn; exact (@verdict_moves s false rc w Ns Hn)).
  assert (forall e (f : Z -> M Z), (forall z, milestones z e = []) -> J s (s, AVerdict) w -> (forall v w1, J s (if_accepted s (negb (v =? 0))) w1 -> match f v w1 with Done _ w' => JJ w' | Stuck _ _ => True end) ->
    match bind (callback E hk e KAuth) f w with Done _ w' => JJ w' | Stuck _ _ => True end) as Yes.
  { intros e f N Hy K. unfold bind at 1. pose proof (@ask_moves s e w N Hy) as Q. destruct (callback E hk e KAuth w) as [v w1|]; [exact (K v w1 Q)|exact Logic.I]. }
  assert (4 < len m -> exists raw, ldh16 (e_le E) m 2 = Val raw /\ ntohs (e_le E) raw = field16 m 2) as F2.
  { intros L4. destruct (@field16_ok E m 2 Bm) as (raw & F & N & _); [lia|lia|]. exists raw. auto. }
  destruct (Z.eqb_spec ty HE_AUTH_TYPE_USERPASS) as [Q|N1]; [|destruct (Z.eqb_spec ty HE_AUTH_TYPE_TOKEN) as [Q|N2]; [|destruct (Z.eqb_spec ty HE_AUTH_TYPE_CB) as [Q|N3]]].
  - try rewrite Q in H. try rewrite Q in Rf. change (HE_AUTH_TYPE_USERPASS =? HE_AUTH_TYPE_TOKEN) with false in *. change (HE_AUTH_TYPE_USERPASS =? HE_AUTH_TYPE_CB) with false in *. cbn [andb orb negb] in H, Rf. rewrite ?orb_false_r in H, Rf.
    destruct (cb_auth k); cbn [andb negb] in H, Rf; [|now apply No].
    destruct (len m <? 104); [discriminate Rf|]. unfold bind at 1. destruct (ldn m 4 _) as [u|]; [|exact Logic.I]. cbn [lift]. unfold ret at 1. unfold bind at 1. destruct (ldn m _ _) as [p|]; [|exact Logic.I]. cbn [lift]. unfold ret at 1.
    apply Yes; [reflexivity|exact H|]. intros v w1 Hq. unfold bind at 1, get at 1. unfold bind at 1. destruct (strncpy _ _ _) as [un1|]; [|exact Logic.I]. cbn [lift]. unfold ret at 1.
    unfold bind at 1. destruct (st8 _ _ _) as [un2|]; [|exact Logic.I]. cbn [lift]. unfold ret at 1. rewrite upd_first. apply verdict_moves with (s := s); [exact Ns|]. apply J_conn; [intros; split; [|split]; reflexivity|exact Hq].
  - try rewrite Q in H. try rewrite Q in Rf. change (HE_AUTH_TYPE_TOKEN =? HE_AUTH_TYPE_CB) with false in *. cbn [andb orb negb] in H, Rf. rewrite ?orb_false_r in H, Rf. destruct (cb_authtok k); cbn [andb negb] in H, Rf; [|now apply No].
    destruct (Z.leb_spec (len m) 4) as [L4|L4]; [discriminate Rf|]. cbn [orb] in Rf. destruct (F2 L4) as (raw & -> & N). unfold bind at 1, lift at 1, ret at 1. cbv zeta. rewrite N.
    destruct (Z.ltb_spec (len m) (4 + field16 m 2)); [discriminate Rf|]. destruct (Z.ltb_spec (len m - 4) (field16 m 2)); [lia|]. unfold bind at 1. destruct (ldn m _ _) as [p|]; [|exact Logic.I]. cbn [lift]. unfold ret at 1.
    apply Yes; [reflexivity|exact H|]. intros v w1 Hq. now apply verdict_moves with (s := s).
  - try rewrite Q in H. try rewrite Q in Rf. cbn [andb orb negb] in H, Rf. rewrite ?orb_false_r in H, Rf. destruct (cb_authbuf k); cbn [andb negb] in H, Rf; [|now apply No].
    destruct (Z.leb_spec (len m) 4) as [L4|L4]; [discriminate Rf|]. cbn [orb] in Rf. destruct (F2 L4) as (raw & -> & N). unfold bind at 1, lift at 1, ret at 1. cbv zeta. rewrite N.
    destruct (Z.ltb_spec (len m) (4 + field16 m 2)); [discriminate Rf|]. destruct (Z.ltb_spec (len m - 4) (field16 m 2)); [lia|]. unfold bind at 1. destruct (ldn m _ _) as [p|]; [|exact Logic.I]. cbn [lift]. unfold ret at 1.
    apply Yes; [reflexivity|exact H|]. intros v w1 Hq. now apply verdict_moves with (s := s).
  - cbn in H. now apply No.
Qed.
Lemma config_moves s m w : s <> HE_STATE_CONNECTING -> srv = false -> msg_type m = HE_MSGID_CONFIG_IPV4 -> J s (moved srv k s (Message s m), asked srv k s (Message s m)) w ->
  match handle_config_ipv4 E hk m w with Done _ w' => JJ w' | Stuck _ _ => True end.
Proof.
  intros Ns Hs Ty H. cbn [moved asked] in H. rewrite Hs in H. pose proof H as (A & B & C & D). unfold configures in H. rewrite Ty in H. change (HE_MSGID_CONFIG_IPV4 =? HE_MSGID_CONFIG_IPV4) with true in H. rewrite andb_true_r in H.
  unfold handle_config_ipv4. unfold bind at 1, get at 1. rewrite A, Hs, C. cbn [orb].
  destruct (Z.eqb_spec s HE_STATE_ONLINE) as [Q|_].
  { rewrite Q in H. change (HE_STATE_ONLINE =? HE_STATE_AUTHENTICATING) with false in H. cbn [andb] in H. rewrite <- Q in H. exact (to_JJ Ns H). }
  destruct (Z.eqb_spec s HE_STATE_AUTHENTICATING) as [Q|_]; cbn [negb andb] in *; [|exact (to_JJ Ns H)].
  change sizeof_config_ipv4 with 105. destruct (Z.ltb_spec (len m) 105) as [L|L]; destruct (Z.leb_spec 105 (len m)) as [L2|L2]; try lia; cbn [andb] in H; cbv iota in H; [exact (to_JJ Ns H)|].
  do 6 (unfold bind at 1; match goal with |- context [lift ?r _] => destruct r; [|exact Logic.I] end; cbn [lift]; unfold ret at 1).
  rewrite upd_first. match goal with |- context [with_c ?f w] => assert (J s (if cb_netcfg k then HE_STATE_CONFIGURING else HE_STATE_ONLINE, if cb_netcfg k then AnApplication else Nothing) (with_c f w)) as H1 by (apply J_conn; [intros; split; [|split]; reflexivity|exact H]); set (v := with_c f w) in * end.
  unfold bind at 1. pose proof (@change_moves _ _ HE_STATE_CONFIGURING v ltac:(discriminate) H1) as K. destruct (change_conn_state E hk HE_STATE_CONFIGURING v) as [u w1|]; [|exact Logic.I].
  unfold bind at 1, get at 1. pose proof K as (_ & B1 & _). rewrite B1. destruct (cb_netcfg k).
  - unfold bind at 1. unfold callback. unfold bind at 1, emit at 1. unfold bind at 1, ret at 1. unfold bind at 1, log at 1. cbv zeta. unfold bind at 1, emit at 1. unfold ret at 1. cbn [w_c w_t].
    match goal with |- context [World ?c ((?a, ECbRet KNetCfg ?r) :: (?a, ?e) :: w_t w1)] => change (World c ((a, ECbRet KNetCfg r) :: (a, e) :: w_t w1)) with (push (ECbRet KNetCfg r) (push e w1)); 
      assert (J HE_STATE_CONFIGURING (if r =? 0 then HE_STATE_ONLINE else HE_STATE_CONFIGURING, Nothing) (push (ECbRet KNetCfg r) (push e w1))) as K2; [|generalize dependent r] end.
    { match goal with |- J _ _ (push ?e1 (push ?e2 _)) => destruct (J_push (e := e2) (fun _ => eq_refl) K) as (A2 & B2 & C2 & D2); split; [exact A2|]; split; [exact B2|]; split; [exact C2|]; match e1 with ECbRet _ ?r => exact (owes_step (e := e1) (x := Applied r) (s := HE_STATE_CONFIGURING) (q := AnApplication) eq_refl eq_refl D2) end end. }
    intros r K2. change HE_SUCCESS with 0. destruct (r =? 0); cbn [negb]; [|apply (to_JJ (s := HE_STATE_CONFIGURING)); [discriminate|exact K2]].
    unfold bind at 1. match goal with |- context [change_conn_state E hk ?s' ?u] => pose proof (@change_moves _ _ s' u ltac:(discriminate) K2) as K3; destruct (change_conn_state E hk s' u); [|exact Logic.I] end. apply (to_JJ (s := HE_STATE_ONLINE)); [discriminate|exact K3].
  - unfold bind at 1, ret at 1. change (negb (HE_SUCCESS =? HE_SUCCESS)) with false. cbv iota. unfold bind at 1. pose proof (@change_moves _ _ HE_STATE_ONLINE w1 ltac:(discriminate) K) as K3. destruct (change_conn_state E hk _ w1); [|exact Logic.I]. apply (to_JJ (s := HE_STATE_ONLINE)); [discriminate|exact K3].
Qed.
Lemma process_moves s m w : bytes_ok m -> 0 < len m -> s <> HE_STATE_CONNECTING -> J s (moved srv k s (Message s m), asked srv k s (Message s m)) w -> match process_message E hk m w with Done _ w' => JJ w' | Stuck _ _ => True end.
Proof.
  intros Bm Lm Ns H. unfold process_message. match goal with |- context [if ?b then _ else _] => replace b with false by (symmetry; apply Z.ltb_ge; change sizeof_msg_hdr with 1; lia) end.
  rewrite ld8_ok by lia. change (nth (Z.to_nat 0) m 0) with (msg_type m). unfold bind at 1, lift at 1, ret at 1. unfold bind at 1, get at 1. pose proof H as (A & _). rewrite A.
  assert (forall A (c : M A), msg_type m <> HE_MSGID_AUTH \/ srv = false -> msg_type m <> HE_MSGID_CONFIG_IPV4 \/ srv = true -> keeps (J s (s, Nothing)) T c -> match c w with Done _ w' => JJ w' | Stuck _ _ => True end) as Fin.
  { intros X c N1 N2 K. apply (J_JJ Ns K). assert ((moved srv k s (Message s m), asked srv k s (Message s m)) = (s, Nothing)) as Q; [|now rewrite Q in H]. cbn [moved asked]. unfold denied_unasked, judged, configures. destruct srv.
    - destruct (Z.eqb_spec (msg_type m) HE_MSGID_AUTH); [|reflexivity]. destruct N1; congruence.
    - destruct (Z.eqb_spec (msg_type m) HE_MSGID_CONFIG_IPV4); [|now rewrite andb_false_r]. destruct N2; congruence. }
  assert (msg_type m <> HE_MSGID_AUTH \/ srv = false -> msg_type m <> HE_MSGID_CONFIG_IPV4 \/ srv = true -> JJ w) as Fr by (intros; now apply (Fin Z (ret 0)); [| |apply keeps_ret]).
  destruct (Z.eqb_spec (msg_type m) HE_MSGID_AUTH) as [Q1|N1].
  { rewrite Q1. change (HE_MSGID_AUTH =? HE_MSGID_NOOP) with false. change (HE_MSGID_AUTH =? HE_MSGID_PING) with false. change (HE_MSGID_AUTH =? HE_MSGID_PONG) with false. change (HE_MSGID_AUTH =? HE_MSGID_AUTH) with true. cbv iota.
    destruct (Bool.bool_dec srv true) as [Q|Q]; [match goal with |- context [if srv then ?a else ?b] => replace (if srv then a else b) with a by (now rewrite Q) end; now apply login_moves with (s := s)|].
    apply Bool.not_true_is_false in Q. match goal with |- context [if srv then ?a else ?b] => replace (if srv then a else b) with b by (now rewrite Q) end. apply Fr; [now right|left; rewrite Q1; discriminate]. }
  destruct (Z.eqb_spec (msg_type m) HE_MSGID_CONFIG_IPV4) as [Q2|N2].
  { rewrite Q2. change (HE_MSGID_CONFIG_IPV4 =? HE_MSGID_NOOP) with false. change (HE_MSGID_CONFIG_IPV4 =? HE_MSGID_PING) with false. change (HE_MSGID_CONFIG_IPV4 =? HE_MSGID_PONG) with false. change (HE_MSGID_CONFIG_IPV4 =? HE_MSGID_DATA) with false. cbv iota.
    destruct (Bool.bool_dec srv true) as [Q|Q]; [match goal with |- context [if negb srv then ?a else ?b] => replace (if negb srv then a else b) with b by (now rewrite Q) end; apply Fr; [now left|now right]|].
    apply Bool.not_true_is_false in Q. match goal with |- context [if negb srv then ?a else ?b] => replace (if negb srv then a else b) with a by (now rewrite Q) end. now apply config_moves with (s := s). }
  apply Fin; [now left|now left|]. repeat (case_if; first [apply keeps_ret|apply J_ping|apply J_pong|apply J_data|apply J_13|apply J_frag|apply J_srvcfg|idtac]). all: try apply keeps_ret.
Qed.

(** ** The receive path *)
Ltac kj := first [apply JJ_keeps|apply JE_keeps]; intros; first [apply J_upd; intros; split; [|split]; reflexivity|apply J_gen|apply J_timeout|apply J_reneg|apply J_check|apply J_ingress|apply J_session].
Lemma message_moves w r err d w' : JJ w -> wolf_op E hk WRecv w = Done (r, err, d) w' ->
  if r <=? 0 then JJ w' else match process_message E hk d w' with Done _ w'' => JJ w'' | Stuck _ _ => True end.
Proof.
  intros (s & q & Q & Ns & H) R. pose proof (@J_recv s (s, q) w H) as K. pose proof (recv_data R) as [Bd L]. rewrite R in K. destruct K as (v & -> & K). destruct (Z.leb_spec r 0) as [N|N].
  - exists s, q. split; [exact Q|]. split; [exact Ns|]. now apply J_idle.
  - apply process_moves with (s := s); [exact Bd|now apply L|exact Ns|]. destruct K as (A & B & C & D). split; [exact A|]. split; [exact B|]. split; [exact C|]. apply owes_step with (q := q); [| |exact D].
    + cbn [milestones]. rewrite C. destruct (Z.ltb_spec 0 r); [reflexivity|lia].
    + assert (negb (s =? HE_STATE_CONNECTING) = true) as T1 by (destruct (Z.eqb_spec s HE_STATE_CONNECTING); [contradiction|reflexivity]). destruct Q as [-> | ->]; cbn [in_turn]; now rewrite Z.eqb_refl, T1.
Qed.
Lemma messages_move : keeps JJ T (handle_messages E hk).
Proof. apply messages_kept; intros; first [eapply message_moves; eassumption|kj]. Qed.
(** The handshake: [w] is in CONNECTING and so it will be when it is under way. *)
Lemma negotiate_moves s w : con || (s =? HE_STATE_CONNECTING) = true -> J HE_STATE_CONNECTING (s, AtStart) w -> match wolf_op E hk WNegotiate w with
  | Done (r, err, d) w' => J HE_STATE_CONNECTING (if r =? SSL_SUCCESS then (if srv then HE_STATE_LINK_UP else HE_STATE_AUTHENTICATING, Nothing) else (HE_STATE_CONNECTING, InHandshake)) w'
  | Stuck _ _ => True end.
Proof.
  intros Tu (A & B & C & D). assert (J HE_STATE_CONNECTING (HE_STATE_CONNECTING, InHandshake) (push (EWOp WNegotiate) w)) as H.
  { split; [exact A|]. split; [exact B|]. split; [exact C|]. exact (owes_step (e := EWOp WNegotiate) (x := Negotiating) (s := s) (q := AtStart) eq_refl Tu D). }
  pose proof (J_negotiate H) as K. destruct (wolf_op E hk WNegotiate w) as [[[r err] d] w'|]; [|exact Logic.I]. destruct K as (v & -> & K). destruct K as (A1 & B1 & C1 & D1).
  split; [exact A1|]. split; [exact B1|]. split; [exact C1|]. destruct (r =? SSL_SUCCESS) eqn:Q.
  - refine (owes_step (e := EWEnd WNegotiate r err d) (x := Secured) (s := HE_STATE_CONNECTING) (q := InHandshake) _ eq_refl D1). cbn [milestones]. now rewrite Q.
  - refine (owes_push (e := EWEnd WNegotiate r err d) _ D1). intros z. cbn [milestones]. now rewrite Q.
Qed.
(** At the start: no milestone yet. *)
Definition JS (w : world) : Prop := exists s, J s (s, AtStart) w.
Lemma JS_keeps A (m : M A) : (forall s t, keeps (J s t) T m) -> keeps JS T m.
Proof. intros H w [s K]. specialize (H s (s, AtStart) w K). destruct (m w); [|exact Logic.I]. now exists s. Qed.
Lemma JS_JE w : JS w -> JE w.
Proof. intros [s H]. exists s, AtStart. auto. Qed.
Definition goes {A} (m : M A) : Prop := forall w, JS w -> match m w with Done _ w' => JE w' | Stuck _ _ => True end.
Lemma goes_ret A (a : A) : goes (ret a).
Proof. exact JS_JE. Qed.
Lemma goes_left A B (m : M A) (f : A -> M B) : goes m -> (forall a, keeps JE T (f a)) -> goes (bind m f).
Proof. intros H K w W. unfold bind. specialize (H w W). destruct (m w) as [a w1|]; [|exact Logic.I]. exact (K a w1 H). Qed.
Lemma goes_right A B (m : M A) (f : A -> M B) : keeps JS T m -> (forall a, goes (f a)) -> goes (bind m f).
Proof. intros H K w W. unfold bind. specialize (H w W). destruct (m w) as [a w1|]; [|exact Logic.I]. exact (K a w1 H). Qed.
Lemma goes_lift A B (r : res A) (f : A -> M B) : (forall a, goes (f a)) -> goes (bind (lift r) f).
Proof. intros K. apply goes_right; [apply keeps_lift; auto|exact K]. Qed.
Ltac kk := first [apply JS_keeps|apply JJ_keeps|apply JE_keeps]; intros; first [apply J_upd; intros; split; [|split]; reflexivity|apply J_gen|apply J_timeout|apply J_reneg|apply J_check|apply J_ingress|apply J_session].
Lemma verify_moves : goes (verify_connection E hk).
Proof.
  unfold verify_connection. apply goes_right; [apply keeps_get|]. intros first. apply goes_right.
  { case_if; [|apply keeps_ret]. apply keeps_bind; [kk|intros _; kk]. }
  intros _ w [s H]. unfold bind at 1, get at 1. pose proof H as (_ & _ & C & _). rewrite C. destruct (Z.eqb_spec s HE_STATE_CONNECTING) as [Q|Ns].
  2:{ pose proof (@messages_move w) as K. destruct (handle_messages E hk w); [|exact Logic.I]. apply JJ_JE, K. exists s, AtStart. auto. }
  rewrite Q in H; clear C. unfold bind at 1. assert (con || (HE_STATE_CONNECTING =? HE_STATE_CONNECTING) = true) as Tu by apply orb_true_r. pose proof (negotiate_moves Tu H) as K. destruct (wolf_op E hk WNegotiate w) as [[[r err] d] w1|]; [|exact Logic.I]. destruct (r =? SSL_SUCCESS); cbn [negb].
  - unfold bind at 1. pose proof (linkup_moves K) as K2. destruct (change_conn_state E hk HE_STATE_LINK_UP w1) as [u w2|]; [|exact Logic.I].
    assert (JJ w2) as J2 by (eapply to_JJ; [|exact K2]; destruct srv; discriminate). pose proof (messages_move J2) as K3. destruct (handle_messages E hk w2); [|exact Logic.I]. exact (JJ_JE K3).
  - match goal with |- match ?m w1 with _ => _ end => assert (keeps JE T m) as Km; [|apply Km; exists HE_STATE_CONNECTING, InHandshake; auto] end.
    repeat (case_if; try apply keeps_ret).
    + apply keeps_bind; [kk|intros _; apply keeps_ret].
    + apply keeps_bind; [apply keeps_get|]. intros ct. apply keeps_bind; [apply keeps_when; kk|intros _; apply keeps_ret].
Qed.
Lemma outside_moves b : goes (outside_data_received E hk b).
Proof.
  unfold outside_data_received. apply goes_right; [apply keeps_get|]. intros c. case_if; [apply goes_ret|]. apply goes_right; [kk|]. intros [res d].
  repeat (case_if; [apply goes_ret|]). apply goes_right; [apply keeps_get|]. intros ct. case_if; [|case_if; [|apply goes_ret]].
  - unfold outside_packet_received. repeat first [apply goes_ret|apply goes_lift; intros ?|case_if|apply goes_right; [apply keeps_get|intros ?]].
    apply goes_right; [kk|]. intros _. apply goes_left; [exact verify_moves|]. intros rc. apply keeps_bind; [kk|]. intros _. case_if; [apply keeps_ret|kk].
  - unfold outside_stream_received. apply goes_right; [apply keeps_get|]. intros r. case_if; [apply goes_right; [kk|intros _; apply goes_ret]|].
    apply goes_right; [kk|]. intros _. apply goes_left; [exact verify_moves|]. intros rc. apply keeps_bind; [kk|]. intros _. apply keeps_ret.
Qed.

(** ** Connecting *)
Lemma configure_moves x i p s w rc w' : k = x_cbs x -> c_is_server (w_c w) = srv -> c_state (w_c w) = s -> owes (s, AtStart) w -> configure E x i p w = Done rc w' -> J s (s, AtStart) w'.
Proof.
  intros Hk A B C. unfold configure. rewrite upd_first. intros H.
  match type of H with ?m ?v = _ => assert (J s (s, AtStart) v) as R; [|assert (keeps (J s (s, AtStart)) T m) as K; [|specialize (K v R); now rewrite H in K]] end.
  - assert (forall c, c_is_server (configure_fields x i p c) = c_is_server c /\ c_cbs (configure_fields x i p c) = x_cbs x /\ c_state (configure_fields x i p c) = c_state c) as F.
    { intros c. unfold configure_fields. cbv zeta. match goal with |- context [if ?b then _ else _] => destruct b end; split; [|split| |split]; reflexivity. }
    destruct (F (w_c w)) as (F1 & F2 & F3). unfold J. cbn [with_c w_c]. rewrite F1, F2, F3. split; [exact A|]. split; [now symmetry|]. split; [exact B|exact C].
  - apply keeps_bind; [apply J_ask|]. intros a1. apply keeps_bind; [apply J_ask|]. intros a2. cbv zeta. apply keeps_bind; [apply J_upd; intros; split; [|split]; reflexivity|intros _; apply keeps_ret].
Qed.
Lemma connect_moves x i p s w rc w' : con = true -> k = x_cbs x -> c_is_server (w_c w) = srv -> c_state (w_c w) = s -> owes (s, AtStart) w -> internal_connect E hk x i p w = Done rc w' -> JE w'.
Proof.
  intros Hcn Hk A B C H. unfold internal_connect in H. unfold bind at 1 in H. destruct (configure E x i p w) as [rc1 w1|] eqn:Cf; [|discriminate H]. pose proof (configure_moves Hk A B C Cf) as K1. clear Cf.
  revert H. case_if; [intros H; apply Done_inv in H as [_ <-]; apply JS_JE; now exists s|]. intros H.
  unfold bind at 1 in H. pose proof (@J_ask s (s, AtStart) QWolfNew w1 K1) as K2. destruct (ask E QWolfNew w1) as [q w2|]; [|discriminate H]. cbv zeta in H. rewrite upd_first in H.
  match type of H with _ ?v = _ => assert (J s (s, AtStart) v) as K3 by (apply J_conn; [intros; split; [|split]; reflexivity|exact K2]); generalize dependent v; intros w3 H K3 end.
  revert H. case_if; [intros H; apply Done_inv in H as [_ <-]; apply JS_JE; now exists s|]. intros H.
  unfold bind at 1 in H. pose proof (@J_settings s (s, AtStart) x w3 K3) as K4. destruct (wolf_settings E x w3) as [rc4 w4|]; [|discriminate H].
  revert H. case_if; [intros H; apply Done_inv in H as [_ <-]; apply JS_JE; now exists s|]. intros H. rewrite upd_first in H.
  match type of H with _ ?v = _ => assert (J s (s, AtStart) v) as K5 by (apply J_conn; [intros; split; [|split]; reflexivity|exact K4]); generalize dependent v; intros w5 H K5 end.
  unfold bind at 1 in H. pose proof (@J_settings2 s (s, AtStart) x w5 K5) as K6. destruct (wolf_settings2 E x w5) as [rc6 w6|]; [|discriminate H].
  revert H. case_if; [intros H; apply Done_inv in H as [_ <-]; apply JS_JE; now exists s|]. intros H.
  unfold bind at 1 in H. pose proof (@change_moves s (s, AtStart) HE_STATE_CONNECTING w6 ltac:(discriminate) K6) as K7. destruct (change_conn_state E hk HE_STATE_CONNECTING w6) as [u7 w7|]; [|discriminate H].
  unfold bind at 1 in H. assert (con || (s =? HE_STATE_CONNECTING) = true) as Tu by (now rewrite Hcn). pose proof (negotiate_moves Tu K7) as K8. destruct (wolf_op E hk WNegotiate w7) as [[[r err] d] w8|]; [|discriminate H]. destruct (r =? SSL_SUCCESS); cbn [negb] in H.
  - unfold bind at 1 in H. pose proof (linkup_moves K8) as K9. destruct (change_conn_state E hk HE_STATE_LINK_UP w8) as [u9 w9|]; [|discriminate H].
    unfold bind at 1 in H. pose proof (@J_timeout _ _ w9 K9) as K10. destruct (update_timeout E hk w9) as [u10 w10|]; [|discriminate H]. apply Done_inv in H as [_ <-]. eexists _, _; split; [|exact K10]; reflexivity.
  - revert H. case_if; [|intros H; apply Done_inv in H as [_ <-]; eexists _, _; split; [|exact K8]; reflexivity]. intros H.
    unfold bind at 1 in H. pose proof (@change_moves _ _ HE_STATE_CONNECTING w8 ltac:(discriminate) K8) as K9. destruct (change_conn_state E hk HE_STATE_CONNECTING w8) as [u9 w9|]; [|discriminate H].
    unfold bind at 1 in H. pose proof (@J_timeout _ _ w9 K9) as K10. destruct (update_timeout E hk w9) as [u10 w10|]; [|discriminate H]. apply Done_inv in H as [_ <-]. eexists _, _; split; [|exact K10]; reflexivity.
Qed.

(** ** Leaving: nothing but the state moves. *)
Section O.
Definition Ow : world -> Prop := fun w => during milestones w0 w [].
Lemma O_push e w : (forall z, milestones z e = []) -> Ow w -> Ow (push e w).
Proof. intros H D. unfold Ow, during in *. cbn [push w_t collect]. now rewrite H, D, !app_nil_r. Qed.
Lemma O_event e w : io_event e = false -> Ow w -> Ow (push e w).
Proof. intros H. apply O_push. intros z. destruct e; try reflexivity; try discriminate H. destruct k0; try reflexivity; discriminate H. Qed.
Lemma O_plain o w : plain o -> Ow w -> Ow (push (EWOp o) w).
Proof. intros H. apply O_push. intros z. destruct o; try reflexivity. destruct H. Qed.
Lemma O_wend o r err d w : o <> WNegotiate -> o <> WRecv -> Ow w -> Ow (push (EWEnd o r err d) w).
Proof. intros N R. apply O_push. intros z. destruct o; try reflexivity; congruence. Qed.
Ltac ks := intros; first [exact Logic.I|apply keeps_ret|now apply O_event|apply O_plain; assumption|apply O_wend; [congruence|congruence|assumption]|apply O_push; [intros ?; reflexivity|assumption]|assumption|idtac].
Lemma O_read sz : keeps Ow T (io_read sz).
Proof. apply keeps_io_read; ks. Qed.
Lemma O_write b : keeps Ow T (io_write E hk b).
Proof. apply keeps_io_write; ks. Qed.
Lemma O_disconnect : keeps Ow T (disconnect E hk).
Proof. apply keeps_disconnect; first [exact O_read|exact O_write|ks]. Qed.
Lemma O_nudge : keeps Ow T (nudge E hk).
Proof. apply keeps_nudge; first [exact O_read|exact O_write|ks]. Qed.
End O.
Lemma owes_refl w : w_t w = w_t w0 -> owes (c_state (w_c w0), AtStart) w.
Proof. intros H. exists []. split; [|reflexivity]. unfold during. now rewrite H, app_nil_r. Qed.
Lemma step_none l : fold_left step l None = None.
Proof. induction l; [reflexivity|exact IHl]. Qed.
Lemma step_order l : forall s q s' q', fold_left step l (Some (s, q)) = Some (s', q') -> quiet q' = true -> in_order con srv k s q l = true /\ moves srv k l s = s'.
Proof.
  induction l as [|x l IH]; intros s q s' q'; cbn [fold_left step in_order moves].
  - intros [= -> ->] Q. split; [exact Q|reflexivity].
  - destruct (in_turn con s q x); [|rewrite step_none; discriminate]. intros H Q. destruct (IH _ _ _ _ H Q) as [H1 H2]. cbn [andb]. split; [exact H1|exact H2].
Qed.
End R.

(** ** After every call the state is the one the milestones of the call lead to *)
(** The milestones come in order: a handshake is only begun first; messages are
    only taken when none is under way; the host is asked exactly when an answer
    is due, and its answer comes before anything else. *)
Theorem C54_asks : forall E o w rc w', call E o w rc w' ->
  exists l, during milestones w w' l /\
    in_order (connects o) (c_is_server (w_c w')) (c_cbs (w_c w')) (c_state (w_c w)) AtStart l = true /\
    c_state (w_c w') = leaves_by o rc (moves (c_is_server (w_c w')) (c_cbs (w_c w')) l (c_state (w_c w))).
Proof.
  intros E o w rc w' Cl. destruct (call_body Cl) as (w1 & Bd & Eq). set (v := push (ECall o) w) in *.
  assert (forall srv k, (forall z, leaves_by o rc z = z) -> JE v srv k (connects o) w1 -> exists l, during milestones w w' l /\
    in_order (connects o) (c_is_server (w_c w')) (c_cbs (w_c w')) (c_state (w_c w)) AtStart l = true /\ c_state (w_c w') = leaves_by o rc (moves (c_is_server (w_c w')) (c_cbs (w_c w')) l (c_state (w_c w)))) as FinJ.
  { intros srv k Lv (s & q & Q & A & B & C & l & D & F). destruct (step_order F Q) as [H1 H2]. exists l. split; [rewrite Eq; now apply during_call|].
    rewrite Lv. rewrite Eq. cbn [push w_c]. rewrite A, B, C. split; [exact H1|now symmetry]. }
  assert (J v (c_is_server (w_c w)) (c_cbs (w_c w)) (connects o) (c_state (w_c w)) (c_state (w_c w), AtStart) v) as Jv by (split; [reflexivity|]; split; [reflexivity|]; split; [reflexivity|]; exact (@owes_refl v _ _ _ v eq_refl)).
  assert (JS v (c_is_server (w_c w)) (c_cbs (w_c w)) (connects o) v) as Sv by (eexists; exact Jv).
  destruct (stays_op o) eqn:St.
  { apply (FinJ (c_is_server (w_c w)) (c_cbs (w_c w))); [intros z; now destruct o|]. pose proof (@J_stays E v _ _ _ _ _ o St v Jv) as K. rewrite Bd in K. eexists _, _; split; [|exact K]; reflexivity. }
  destruct o; try discriminate St; cbn [api_body connects] in *; clear St.
  - unfold client_connect in Bd. unfold bind at 1, get at 1 in Bd. unfold bind at 1 in Bd. destruct (is_valid_client x (w_c v)) as [r|]; [|discriminate Bd]. cbn [lift] in Bd. unfold ret at 1 in Bd.
    revert Bd. case_if; intros Bd; [apply Done_inv in Bd as [_ Bd]; subst w1; apply (FinJ (c_is_server (w_c w)) (c_cbs (w_c w))); [reflexivity|now apply JS_JE]|]. rewrite upd_first in Bd.
    apply (FinJ false (x_cbs x)); [reflexivity|]. refine (connect_moves (s := c_state (w_c w)) eq_refl eq_refl _ _ _ Bd); [reflexivity|reflexivity|]. exact (@owes_refl v _ _ _ _ eq_refl).
  - unfold server_connect in Bd. unfold bind at 1, get at 1 in Bd. cbv zeta in Bd.
    revert Bd. case_if; intros Bd; [apply Done_inv in Bd as [_ Bd]; subst w1; apply (FinJ (c_is_server (w_c w)) (c_cbs (w_c w))); [reflexivity|now apply JS_JE]|]. rewrite upd_first in Bd.
    apply (FinJ true (x_cbs x)); [reflexivity|]. unfold bind at 1 in Bd. destruct (internal_connect _ _ _ _ _ _) as [r1 w2|] eqn:R1; [|discriminate Bd].
    assert (JE v true (x_cbs x) true w2) as K by (refine (connect_moves (s := c_state (w_c w)) eq_refl eq_refl _ _ _ R1); [reflexivity|reflexivity|exact (@owes_refl v _ _ _ _ eq_refl)]). clear R1.
    revert Bd. case_if; intros Bd; [apply Done_inv in Bd as [_ Bd]; now subst w1|].
    match type of Bd with ?m w2 = _ => assert (Frame.keeps (JE v true (x_cbs x) true) (fun _ => True) m) as Km; [|specialize (Km w2 K); now rewrite Bd in Km] end.
    apply JE_keeps. intros s t. apply keeps_bind; [apply J_generate|]. intros [r sid]. case_if; [apply keeps_ret|]. apply keeps_bind; [apply J_upd; intros; split; [|split]; reflexivity|intros _; apply keeps_ret].
  - assert (during milestones w w' []) as D.
    { assert (Ow v v) as Ov by (unfold Ow, during; now rewrite app_nil_r). pose proof (@O_disconnect E v v Ov) as K. rewrite Bd in K. rewrite Eq. now apply during_call. }
    exists []. split; [exact D|]. split; [reflexivity|]. pose proof (C34_disconnect Cl) as Dc. cbv zeta in Dc. cbn [leaves_by]. revert Dc. case_if.
    + intros (-> & Q & _). exact Q.
    + intros (Er & Nr & Qc & Qt). destruct (Z.eqb_spec rc HE_SUCCESS) as [Qr|_]; [congruence|]. now rewrite Qc.
  - apply (FinJ (c_is_server (w_c w)) (c_cbs (w_c w))); [reflexivity|]. pose proof (@outside_moves E v (c_is_server (w_c w)) (c_cbs (w_c w)) _ (u8s buffer) v Sv) as K. now rewrite Bd in K.
  - pose proof (C41_nudge Cl) as Ng. cbn [leaves_by].
    assert (during milestones w w' []) as D.
    { assert (Ow v v) as Ov by (unfold Ow, during; now rewrite app_nil_r). pose proof (@O_nudge E v v Ov) as K. rewrite Bd in K. rewrite Eq. now apply during_call. }
    exists []. split; [exact D|]. split; [reflexivity|]. revert Ng. case_if.
    + intros (-> & Q & _). exact Q.
    + intros (a & _ & Ng). destruct (gave_up a); destruct Ng as [-> Q]; exact Q.
Qed.
Print Assumptions C54_asks.
Theorem C54_state : forall E o w rc w', call E o w rc w' ->
  exists l, during milestones w w' l /\
    c_state (w_c w') = leaves_by o rc (moves (c_is_server (w_c w')) (c_cbs (w_c w')) l (c_state (w_c w))).
Proof. intros E o w rc w' Cl. destruct (C54_asks Cl) as (l & D & _ & Q). now exists l. Qed.
Print Assumptions C54_state.

(** Only connecting, disconnecting, packets from outside and the timer change the state. *)
Theorem C54_still : forall E o w rc w', call E o w rc w' ->
  match o with
  | OClientConnect _ _ _ | OServerConnect _ _ _ | ODisconnect | OOutside _ | ONudge => True
  | _ => c_state (w_c w') = c_state (w_c w)
  end.
Proof.
  intros E o w rc w' Cl. destruct (call_body Cl) as (w1 & Bd & ->). change (w_c (push (ERet o rc) w1)) with (w_c w1). set (v := push (ECall o) w) in *.
  assert (stays_op o = true -> c_state (w_c w1) = c_state (w_c w)) as H; [|destruct o; try exact Logic.I; now apply H].
  intros St. assert (J v (c_is_server (w_c w)) (c_cbs (w_c w)) false (c_state (w_c w)) (c_state (w_c w), AtStart) v) as Jv by (split; [reflexivity|]; split; [reflexivity|]; split; [reflexivity|]; exact (@owes_refl v _ _ _ v eq_refl)).
  pose proof (@J_stays E v _ _ _ _ _ o St v Jv) as K. rewrite Bd in K. now destruct K as (_ & _ & Q & _).
Qed.
Print Assumptions C54_still.

Lemma moves_online server k : forall l s, s <> HE_STATE_ONLINE -> moves server k l s = HE_STATE_ONLINE ->
  exists x, In x l /\ brings_online server k x.
Proof.
  induction l as [|x l IH]; intros s N H; [exfalso; now apply N|]. unfold moves in H. cbn [fold_left] in H.
  destruct (Z.eq_dec (moved server k s x) HE_STATE_ONLINE) as [Q|Q].
  - exists x. split; [now left|]. destruct x; cbn [moved] in Q; cbn [brings_online]; try discriminate Q.
    + destruct server; discriminate Q.
    + destruct server; [destruct (denied_unasked k m); [discriminate Q|congruence]|]. destruct (configures s m) eqn:Cf; [|congruence]. unfold configures in Cf. apply andb_true_iff in Cf as [Cf L]. apply andb_true_iff in Cf as [_ Ty].
      apply Z.eqb_eq in Ty. apply Z.leb_le in L. destruct (cb_netcfg k); [discriminate Q|]. auto.
    + destruct (v =? 0); [discriminate Q|congruence].
    + destruct (Z.eqb_spec rc 0); [assumption|congruence].
    + destruct (Z.eqb_spec rc 0); [assumption|congruence].
  - destruct (IH _ Q H) as (y & In_y & By). exists y. split; [now right|exact By].
Qed.
(** A connection comes ONLINE only in a call in which the host has provided the
    configuration for the peer, or has taken the one received. *)
Theorem C54_online : forall E o w rc w', call E o w rc w' ->
  c_state (w_c w) <> HE_STATE_ONLINE -> c_state (w_c w') = HE_STATE_ONLINE ->
  exists l x, during milestones w w' l /\ In x l /\ brings_online (c_is_server (w_c w')) (c_cbs (w_c w')) x.
Proof.
  intros E o w rc w' Cl N On. destruct (C54_state Cl) as (l & D & F). rewrite On in F. symmetry in F.
  assert (moves (c_is_server (w_c w')) (c_cbs (w_c w')) l (c_state (w_c w)) = HE_STATE_ONLINE) as M.
  { revert F. destruct o; cbn [leaves_by]; auto; case_if; auto; discriminate. }
  destruct (moves_online N M) as (x & Hx & B). exists l, x. auto.
Qed.
Print Assumptions C54_online.

(** ** A peer that was turned away stays outside *)
(** Once a login is denied, or the connection is closed, it is over: whatever is
    done short of connecting again, it stays so and takes no message. *)
Lemma over_call E o w rc w' : connects o = false -> over (c_state (w_c w)) -> call E o w rc w' ->
  over (c_state (w_c w')) /\ match o with ODisconnect | OOutside _ => rc <> HE_SUCCESS /\ w_c w' = w_c w /\ during milestones w w' [] | _ => True end.
Proof.
  intros Co Ov Cl. destruct o; try discriminate Co; try (pose proof (C54_still Cl) as K; cbv iota in K; rewrite K; split; [exact Ov|exact Logic.I]).
  - pose proof (C34_disconnect Cl) as K. cbv zeta in K.
    assert ((c_state (w_c w) =? HE_STATE_DISCONNECTING) || (c_state (w_c w) =? HE_STATE_NONE) || (c_state (w_c w) =? HE_STATE_CONNECTING) || (c_state (w_c w) =? HE_STATE_DISCONNECTED) = true) as Q by (destruct Ov as [-> | ->]; reflexivity).
    rewrite Q in K. rewrite andb_false_r in K. destruct K as (_ & N & Qc & Qt). rewrite Qc. split; [exact Ov|]. split; [exact N|]. split; [reflexivity|]. unfold during. rewrite Qt. cbn [collect milestones]. now rewrite !app_nil_r.
  - destruct (call_body Cl) as (w1 & Bd & ->). cbn [api_body] in Bd. unfold outside_data_received in Bd. unfold bind at 1, get at 1 in Bd. cbn [push w_c] in Bd.
    assert ((c_state (w_c w) =? HE_STATE_DISCONNECTING) || (c_state (w_c w) =? HE_STATE_DISCONNECTED) = true) as Q by (destruct Ov as [-> | ->]; reflexivity).
    rewrite Q in Bd. unfold ret in Bd. apply Done_inv in Bd as [<- <-]. split; [exact Ov|]. split; [discriminate|]. split; [reflexivity|]. unfold during. cbn [push w_t collect milestones]. now rewrite !app_nil_r.
  - split; [|exact Logic.I]. pose proof (C41_nudge Cl) as K. revert K. case_if; [intros (_ & -> & _); exact Ov|]. intros (a & _ & K). destruct (gave_up a); destruct K as [_ K]; rewrite K; [now right|exact Ov].
Qed.
Theorem C54_final : forall E ops w w', reached E w -> over (c_state (w_c w)) -> Forall (fun o => connects o = false) ops ->
  run E 0 ops w = Done tt w' -> over (c_state (w_c w')) /\
  forall o rc w2, call E o w' rc w2 -> match o with ODisconnect | OOutside _ => rc <> HE_SUCCESS /\ w_c w2 = w_c w' /\ during milestones w' w2 [] | _ => True end.
Proof.
  intros E ops w w' Re Ov F R. assert (over (c_state (w_c w'))) as Ov'.
  { revert w Re Ov R. induction ops as [|o ops IH]; intros w Re Ov; cbn [run]; [now intros [= <-]|]. change (hookn E 0) with (@ret unit tt). inversion F as [|? ? F1 F2]; subst.
    destruct (api E (ret tt) o w) as [rc w1|] eqn:C; [|discriminate]. apply IH; [exact F2|exact (reached_call Re C)|]. exact (proj1 (over_call F1 Ov C)). }
  split; [exact Ov'|]. intros o rc w2 C. destruct (connects o) eqn:Co; [destruct o; try discriminate Co; exact Logic.I|]. exact (proj2 (over_call Co Ov' C)).
Qed.
Print Assumptions C54_final.

(** ** Examples *)
(** A client: its handshake, then the configuration, which the host applies. *)
Example C54_example_client :
  let w1 := world_at (client_setup ++ [OClientConnect dctx [] []]) in
  let w2 := world_at (client_setup ++ [OClientConnect dctx [] []; OOutside (dgram 0 [])]) in let w3 := world_at client_up in
  let m := config_message true (ip 1) (ip 2) (ip 3) 4660 in
  reached plain_env w1 /\ call plain_env (OOutside (dgram 0 [])) w1 HE_SUCCESS w2 /\ during milestones w1 w2 [Negotiating; Secured] /\
  c_state (w_c w1) = HE_STATE_CONNECTING /\ c_state (w_c w2) = HE_STATE_AUTHENTICATING /\ configures HE_STATE_AUTHENTICATING m = true /\
  call plain_env (OOutside (dgram 0 m)) w2 HE_SUCCESS w3 /\ during milestones w2 w3 [Message HE_STATE_AUTHENTICATING m; Applied 0] /\ c_state (w_c w3) = HE_STATE_ONLINE.
Proof. cbv zeta. split; [apply (@world_at_reached (client_setup ++ [OClientConnect dctx [] []])); vm_compute; reflexivity|]. conj; vm_compute; reflexivity. Qed.
(** A server without a callback for tokens denies a login with one. *)
Example C54_example_unasked :
  let k := Cbs true true true true true true true true false false true true true in
  denied_unasked k [HE_MSGID_AUTH; HE_AUTH_TYPE_TOKEN; 0; 1; 7] = true /\ denied_unasked k (userpass_message user pass) = false /\
  moves true k [Negotiating; Secured; Message HE_STATE_LINK_UP [HE_MSGID_AUTH; HE_AUTH_TYPE_TOKEN; 0; 1; 7]] HE_STATE_NONE = HE_STATE_DISCONNECTING /\
  moves true k [Negotiating; Secured; Message HE_STATE_LINK_UP (userpass_message user pass); Verdict 1; Provided 0] HE_STATE_NONE = HE_STATE_ONLINE.
Proof. cbv zeta. conj; vm_compute; reflexivity. Qed.
(** What order there is: a login that is judged must be judged at once and provided
    for, and nothing is applied or provided unasked. *)
Example C54_example_order :
  let k := all_cbs in let m := userpass_message user pass in
  in_order false true k HE_STATE_LINK_UP AtStart [Message HE_STATE_LINK_UP m; Verdict 1; Provided 0] = true /\ in_order false true k HE_STATE_LINK_UP AtStart [Message HE_STATE_LINK_UP m; Verdict 0] = true /\
  in_order false true k HE_STATE_LINK_UP AtStart [Message HE_STATE_LINK_UP m] = false /\ in_order false true k HE_STATE_LINK_UP AtStart [Message HE_STATE_LINK_UP m; Verdict 1; Message HE_STATE_LINK_UP m] = false /\
  in_order false true k HE_STATE_LINK_UP AtStart [Message HE_STATE_LINK_UP m; Verdict 0; Provided 0] = false /\ in_order false true k HE_STATE_LINK_UP AtStart [Provided 0] = false /\
  in_order false true k HE_STATE_CONNECTING AtStart [Negotiating; Message HE_STATE_CONNECTING m] = false /\ in_order false true k HE_STATE_ONLINE AtStart [Negotiating] = false /\
  in_order false true k HE_STATE_CONNECTING AtStart [Negotiating; Secured; Message HE_STATE_LINK_UP m; Verdict 1; Provided 7] = true.
Proof. cbv zeta. conj; vm_compute; reflexivity. Qed.
(** A host that accepts only names beginning with "u". *)
Definition picky_cb (t : trace) : Z :=
  match t with (_, EAuthUser u _) :: _ => if nth 0 u 0 =? 117 then 1 else 0 | _ => plain_cb t end.
Definition picky_env : env := Env true 50 plain_ask picky_cb (fun _ => (ip 1, ip 2, ip 3)) (fun _ => (HE_PLUGIN_SUCCESS, [])) plain_wolf (fun _ => HDone).
Definition at_door : list op := [OSetMtu 1500; OServerConnect dctx [] []; OOutside (dgram 0 []); OOutside (dgram 0 (userpass_message pass pass))].
Definition picky_at (ops : list op) := world_of (run picky_env 0 ops world_new).
Example C54_example_denied :
  let w := picky_at at_door in let w' := picky_at (at_door ++ [OOutside (dgram 0 (userpass_message user pass))]) in
  reached picky_env w /\ over (c_state (w_c w)) /\ during milestones (picky_at (firstn 3 at_door)) w [Message HE_STATE_LINK_UP (userpass_message pass pass); Verdict 0] /\
  call picky_env (OOutside (dgram 0 (userpass_message user pass))) w HE_ERR_INVALID_CONN_STATE w' /\
  state_after picky_env 0 (firstn 3 at_door ++ [OOutside (dgram 0 (userpass_message user pass))]) = HE_STATE_ONLINE.
Proof. cbv zeta. split; [exists at_door; vm_compute; reflexivity|]. split; [left; vm_compute; reflexivity|]. conj; vm_compute; reflexivity. Qed.
(** A peer already logged in that logs in again with a wrong name is put out. *)
Example C54_example_again :
  state_after picky_env 0 (firstn 3 at_door ++ [OOutside (dgram 0 (userpass_message user pass)); OOutside (dgram 4660 (userpass_message pass pass))]) = HE_STATE_DISCONNECTING.
Proof. vm_compute. reflexivity. Qed.
