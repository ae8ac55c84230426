(** C12: path MTU discovery is the search of PmSpec. *)
From Verif Require Import Base Codes Ctx Config Mss MssSpec Frag FragSpec Wire WireSpec WireProofs ConnState Conn ConnSpec MsgSpec CallSpec.
From Verif Require Import ConnSteps ConnWp ConnWpApi Hist Hist2 Frame FrameLoop Reaction Seq SeqInside SeqOutside SeqApi SeqLoop SeqPing Scenario Props_Data Props_Size Props_Ping Props_Pmtu PmSpec SeqPm PmProofs.
Unset Strict Implicit.

(** ** Messages received *)
Section V.
Variable E : env.
Notation hk := (@ret unit tt).
Notation T := (fun _ : world => True).
Definition cbs2 (c : conn) : bool := cb_pmtime (c_cbs c) && cb_pmstate (c_cbs c).
Definition PO (w : world) : Prop :=
  (cbs2 (w_c w) = true \/ c_pm (w_c w) = pm_new) /\ c_ping_pend (w_c w) = awaited (w_t w) /\ 0 <= c_ping_next (w_c w) < 65536 /\
  follows (items (w_t w)) (abs (c_pm (w_c w))).
Lemma PO_push e w : item_of (c_state (w_c w)) e (w_t w) = [] -> (forall o rc, e <> ERet o rc) -> PO w -> PO (push e w).
Proof.
  intros H1 H2 (A & B & C & D). split; [exact A|]. split; [|split; [exact C|]].
  - cbn [push w_t w_c awaited]. destruct e; try exact B. edestruct H2; reflexivity.
  - cbn [push w_t w_c items]. now rewrite H1, app_nil_r.
Qed.
Lemma PO_conn f w : (forall c, c_pm (f c) = c_pm c /\ c_cbs (f c) = c_cbs c /\ c_ping_pend (f c) = c_ping_pend c /\ c_ping_next (f c) = c_ping_next c) -> PO w -> PO (with_c f w).
Proof. intros H (A & B & C & D). destruct (H (w_c w)) as (H1 & H2 & H3 & H4). unfold PO, cbs2. cbn [with_c w_c w_t]. rewrite H1, H2, H3, H4. auto. Qed.
Lemma item_wop s o t : probing o = false -> item_of s (EWOp o) t = [].
Proof. destruct o; try reflexivity. cbn [probing item_of]. now intros ->. Qed.
Lemma item_wend s o r err d t : o <> WRecv -> probing o = false -> item_of s (EWEnd o r err d) t = [].
Proof. intros N. destruct o; try reflexivity; try congruence. cbn [probing item_of]. now intros ->. Qed.
Lemma conf_probing m : msg_type m = HE_MSGID_CONFIG_IPV4 -> probing (WSend m) = false.
Proof. intros H. cbn [probing]. now rewrite H. Qed.
Ltac noitem := first [reflexivity|apply item_wop; first [assumption|reflexivity|now apply conf_probing|eapply auth_probe; eassumption]|apply item_wend; first [assumption|discriminate|now apply conf_probing|reflexivity]].
Ltac kpush := apply PO_push; [noitem|intros; discriminate|assumption].
Ltac kconn := apply PO_conn; [intros; repeat split; reflexivity|assumption].
Lemma PO_event e w : io_event e = false -> PO w -> PO (push e w).
Proof. intros H. apply PO_push; destruct e; try reflexivity; try discriminate. Qed.
Lemma PO_read sz : keeps PO T (io_read sz).
Proof. apply keeps_io_read; auto; intros; first [kpush|kconn]. Qed.
Lemma PO_write b : keeps PO T (io_write E hk b).
Proof. apply keeps_io_write; intros; first [exact I|apply keeps_ret|kpush|kconn]. Qed.
Ltac ks := intros; first [exact I|apply keeps_ret|apply PO_read|apply PO_write|now apply PO_event|kpush|kconn|idtac].
Lemma PO_recv w r err d w' : PO w -> wolf_op E hk WRecv w = Done (r, err, d) w' ->
  exists v, PO v /\ w' = push (EWEnd WRecv r err d) v.
Proof.
  intros Hw. unfold wolf_op. unfold bind at 1, emit at 1. fold (push (EWOp WRecv) w). set (w0 := push _ w). assert (PO w0) as H0 by (unfold w0; kpush). clearbody w0.
  unfold bind at 1, get at 1. unfold bind at 1.
  match goal with |- (match ?m w0 with _ => _ end) = _ -> _ => assert (keeps PO T m) as K end.
  { case_if; [|apply keeps_ret]. apply keeps_bind; [apply keeps_log|]. intros t. apply keeps_bind; [apply keeps_strat; ks|]. intros [[a b] c]. apply keeps_ret. }
  specialize (K w0 H0). match goal with |- (match ?m with _ => _ end) = _ -> _ => destruct m as [[[r1 e1] d1] v|]; [|discriminate] end.
  unfold bind, emit, ret. intros H. apply Done_inv in H. destruct H as [H <-]. injection H as <- <- <-. exists v. split; [exact K|reflexivity].
Qed.
Lemma PO_message m r err v : bytes_ok m -> 0 < len m -> 0 < r -> PO v ->
  match process_message E hk m (push (EWEnd WRecv r err m) v) with Done _ w' => PO w' | Stuck _ _ => True end.
Proof.
  intros Bm Hl Hr Hv. set (w := push _ v).
  assert ((msg_type m =? HE_MSGID_PONG) && (5 <=? len m) && negb (field16 m 1 =? awaited (w_t v)) = false -> PO w) as Quiet.
  { intros H. apply PO_push; [|discriminate|exact Hv]. cbn [item_of]. destruct (0 <? r); cbn [andb]; [|reflexivity]. now rewrite H. }
  unfold process_message. destruct (Z.ltb_spec (len m) sizeof_msg_hdr) as [Z0|_]; [unfold sizeof_msg_hdr in Z0; lia|].
  rewrite ld8_ok by lia. change (nth (Z.to_nat 0) m 0) with (msg_type m). unfold bind at 1, lift at 1, ret at 1. unfold bind at 1, get at 1.
  destruct (Z.eqb_spec (msg_type m) HE_MSGID_PONG) as [Ty|Ty].
  - rewrite Ty. cbn [Z.eqb Pos.eqb HE_MSGID_NOOP HE_MSGID_PING HE_MSGID_PONG andb] in *. unfold handle_pong. change sizeof_pong with 5.
    destruct (Z.ltb_spec (len m) 5) as [L|L]; destruct (Z.leb_spec 5 (len m)) as [L'|L']; try lia; [apply Quiet; reflexivity|]. cbn [andb] in *.
    destruct (@field16_ok E m 1 Bm) as (raw & F & N & _); [lia|lia|]. change (Z.to_nat 1) with 1%nat in *. rewrite F. unfold bind at 1, lift at 1, ret at 1. rewrite N. unfold bind at 1, get at 1.
    pose proof Hv as (V1 & V2 & V3 & V4). change (c_ping_pend (w_c w)) with (c_ping_pend (w_c v)). rewrite V2.
    destruct (Z.eqb_spec (field16 m 1) (awaited (w_t v))) as [Ea|Ea]; cbn [negb] in *.
    + specialize (Quiet eq_refl). assert (keeps PO T (generate_event hk HE_EVENT_PONG ;;; ret HE_SUCCESS)) as K by (apply keeps_bind; [apply keeps_generate_pong; ks|intros; apply keeps_ret]).
      exact (K w Quiet).
    + clear Quiet. unfold bind at 1. destruct (pm_probe_ack E hk (field16 m 1) w) as [rc w1|] eqn:Ak; [|exact I]. unfold ret.
      apply pong_does in Ak; [|change (w_c w) with (w_c v)|exact (follows_bounds V4)|exact V3].
      2:{ destruct V1 as [V1|V1]; [left|right; exact V1]. unfold cbs2 in V1. apply andb_true_iff in V1 as [U1 U2]. repeat split; [exact U1|exact U2|apply V3|apply V3]. }
      destruct Ak as (out & q & Tn & Ii & Q & Rs & P). unfold rest in Rs. injection Rs as R1 R2 R3 R4. split; [|split; [|split; [exact P|]]].
      * unfold cbs2. rewrite R1. destruct V1 as [V1|V1]; [left; exact V1|]. right. change (c_pm (w_c w)) with (c_pm (w_c v)) in Tn.
        rewrite V1 in Tn. cbn [turn abs awaits pm_id pm_new] in Tn. assert (q = abs pm_new) as Qn.
        { destruct (field16 m 1 =? 0); [|apply Tn]. cbv zeta in Tn. cbn in Tn. apply Tn. }
        rewrite Qn in Q. unfold abs in Q. cbn in Q. injection Q as A1 A2 A3 A4 A5 A6 A7. destruct (c_pm (w_c w1)). cbn in *. unfold pm_new. congruence.
      * rewrite R3, R4. exact V2.
      * rewrite Ii, Q. unfold w. cbn [push w_t items item_of]. destruct (Z.ltb_spec 0 r); [|lia]. rewrite Ty. change (HE_MSGID_PONG =? HE_MSGID_PONG) with true.
        destruct (Z.leb_spec 5 (len m)); [|lia]. destruct (Z.eqb_spec (field16 m 1) (awaited (w_t v))); [contradiction|]. cbn [negb andb]. rewrite <- app_assoc. cbn [app].
        eapply follows_turn; [exact V4|exact Tn].
  - specialize (Quiet eq_refl). apply Z.eqb_neq in Ty.
    match goal with |- match ?mm w with _ => _ end => assert (keeps PO T mm) as Kp; [|exact (Kp w Quiet)] end.
    rewrite ?Ty. repeat case_if; try apply keeps_ret.
    + apply keeps_handle_ping; ks.
    + apply keeps_handle_auth; ks.
    + apply keeps_handle_data; ks.
    + apply keeps_handle_config; ks.
    + apply keeps_handle_13; ks.
    + apply keeps_handle_server_config; ks.
    + apply keeps_handle_frag; ks.
Qed.
Lemma PO_verify : keeps PO T (verify_connection E hk).
Proof.
  apply verify_kept.
  - intros w r err d w' Hw R. destruct (PO_recv Hw R) as (v & Hv & ->). destruct (Z.leb_spec r 0) as [Hr|Hr].
    + apply PO_push; [|discriminate|exact Hv]. cbn [item_of]. destruct (Z.ltb_spec 0 r); [lia|reflexivity].
    + pose proof (recv_data R) as [Bd Ld]. apply PO_message; auto.
  - intros v. apply keeps_upd; ks.
  - apply keeps_upd; ks.
  - apply keeps_generate_other; ks; reflexivity.
  - apply keeps_wolf_op'; ks.
  - apply keeps_change_conn_state; ks.
  - apply keeps_update_timeout; ks.
  - apply keeps_renegotiate; ks.
  - apply keeps_check; ks.
Qed.
Lemma PO_outside b : keeps PO T (outside_data_received E hk b).
Proof.
  unfold outside_data_received. apply keeps_bind; [apply keeps_get|]. intros c. case_if; [apply keeps_ret|]. apply keeps_bind; [apply keeps_plugin_ingress; ks|].
  intros [res data]. case_if; [apply keeps_ret|]. case_if; [apply keeps_ret|]. case_if; [apply keeps_ret|]. apply keeps_bind; [apply keeps_get|]. intros ct. case_if; [|case_if; [|apply keeps_ret]].
  - unfold outside_packet_received. case_if; [apply keeps_ret|].
    repeat (apply keeps_bind; [first [apply keeps_lift; auto; fail|apply keeps_get; fail]|intro]; try (case_if; [apply keeps_ret|])).
    apply keeps_bind; [apply keeps_upd; ks|]. intros _. apply keeps_bind; [apply PO_verify|]. intros rc.
    apply keeps_bind; [apply keeps_upd; ks|]. intros _. case_if; [apply keeps_ret|]. apply keeps_session_in; ks.
  - unfold outside_stream_received. apply keeps_bind; [apply keeps_get|]. intros r. case_if.
    + apply keeps_bind; [apply keeps_upd; ks|intros _; apply keeps_ret].
    + apply keeps_bind; [apply keeps_upd; ks|]. intros _. apply keeps_bind; [apply PO_verify|]. intros rc. apply keeps_bind; [apply keeps_upd; ks|]. intros _. apply keeps_ret.
Qed.
End V.

(** ** Calls that have no part in it *)
Section O.
Variable E : env.
Notation hk := (@ret unit tt).
Notation T := (fun _ : world => True).
Variable p0 : pmtud.
Variable l0 : list item.
Definition PK (w : world) : Prop := c_pm (w_c w) = p0 /\ items (w_t w) = l0.
Lemma PK_push e w : item_of (c_state (w_c w)) e (w_t w) = [] -> PK w -> PK (push e w).
Proof. intros H [A B]. split; [exact A|]. cbn [push w_t items]. now rewrite H, app_nil_r. Qed.
Lemma PK_conn f w : (forall c, c_pm (f c) = c_pm c) -> PK w -> PK (with_c f w).
Proof. intros H [A B]. split; [|exact B]. cbn [with_c w_c]. now rewrite H. Qed.
Lemma configure_pm x i p c : c_pm (configure_fields x i p c) = c_pm c.
Proof. unfold configure_fields. cbv zeta. destruct (_ =? 0); reflexivity. Qed.
Ltac noitem := first [reflexivity|apply item_wop; first [assumption|reflexivity|now apply conf_probing|eapply auth_probe; eassumption]|apply item_wend; first [assumption|discriminate|now apply conf_probing|reflexivity]].
Ltac kpush := apply PK_push; [noitem|assumption].
Ltac kconn := apply PK_conn; [intros; first [reflexivity|apply configure_pm]|assumption].
Lemma PK_event e w : io_event e = false -> PK w -> PK (push e w).
Proof. intros H. apply PK_push; destruct e; try reflexivity; try discriminate. Qed.
Lemma PK_read sz : keeps PK T (io_read sz).
Proof. apply keeps_io_read; auto; intros; first [kpush|kconn]. Qed.
Lemma PK_write b : keeps PK T (io_write E hk b).
Proof. apply keeps_io_write; intros; first [exact I|apply keeps_ret|kpush|kconn]. Qed.
Ltac ks := intros; first [exact I|apply keeps_ret|apply PK_read|apply PK_write|now apply PK_event|kpush|kconn|idtac].
Definition not_pm (o : op) : bool := match o with OOutside _ | OStartPmtud | OPmtudTimeout => false | _ => true end.
Lemma PK_body o : not_pm o = true -> keeps PK T (api_body E hk o).
Proof.
  destruct o; intros Sm; try discriminate Sm; cbn [api_body].
  - apply keeps_client_connect; ks.
  - apply keeps_server_connect; ks.
  - apply keeps_disconnect; ks.
  - apply keeps_inside; ks.
  - apply keeps_nudge; ks.
  - apply keeps_keepalive; ks.
  - apply keeps_send_server_config; ks.
  - apply keeps_bind; [apply keeps_upd; ks|intros _; apply keeps_ret].
  - apply keeps_rotate; ks.
  - apply keeps_set_session; ks.
  - apply keeps_set_username; ks.
  - apply keeps_set_password; ks.
  - apply keeps_set_token; ks.
  - apply keeps_set_auth_buffer; ks.
  - apply keeps_set_mtu; ks.
  - apply keeps_bind; [apply keeps_upd; ks|intros _; apply keeps_ret].
  - apply keeps_set_sni; ks.
Qed.
End O.

(** ** Every history is a search *)
(** The context has both callbacks of path MTU discovery. *)
Definition has_pm_cbs (x : ctx) : bool := cb_pmtime (x_cbs x) && cb_pmstate (x_cbs x).

Section H.
Variable E : env.
Definition SR (w : world) : Prop :=
  connects has_pm_cbs (w_t w) = true -> (c_pm (w_c w) = pm_new \/ cbs_from w) /\ follows (items (w_t w)) (abs (c_pm (w_c w))).
Lemma cbs2_from w : connects has_pm_cbs (w_t w) = true -> cbs_from w -> cbs2 (w_c w) = true.
Proof. intros C F. exact (@cbs_from_connects (fun k => cb_pmtime k && cb_pmstate k) w ltac:(reflexivity) F C). Qed.
Lemma item_ret s o rc t : item_of s (ERet o rc) t = [].
Proof. reflexivity. Qed.
Lemma SR_call o w rc w' : reached E w -> call E o w rc w' -> SR w -> SR w'.
Proof.
  intros Re C Sw Cn. pose proof (reached_good Re) as G.
  pose proof (@ConnWpApi.api_ok E (ret tt) (@hookn_ok E 0) o w G) as A. unfold call in C. rewrite C in A. destruct A as (_ & w1 & w2 & Ew1 & St & _ & Ew').
  destruct (call_body C) as (w3 & Bd & Eq3). assert (w3 = w2) as ->.
  { rewrite Eq3 in Ew'. unfold push in Ew'. injection Ew' as A1 _ A2. destruct w3, w2. cbn in *. now subst. }
  change (push (ECall o) w) with (World (w_c w) ((c_state (w_c w), ECall o) :: w_t w)) in Bd. rewrite <- Ew1 in Bd.
  assert (connects has_pm_cbs (w_t w2) = true) as Cn2 by (rewrite Ew' in Cn; exact Cn).
  pose proof (connects_anti St Cn2) as Cn1. assert (connects has_pm_cbs (w_t w) = true) as Cn0 by (rewrite Ew1 in Cn1; exact (connects_cons Cn1)).
  destruct (Sw Cn0) as [Pm Fo]. assert (w_c w1 = w_c w) as Ec by now rewrite Ew1.
  assert (c_pm (w_c w1) = pm_new \/ cbs_from w1) as Pm1. { rewrite Ec. destruct Pm as [Pm|Pm]; [now left|right]. rewrite Ew1. now apply cbs_from_push. }
  pose proof (ok_ping (reached_cok Re)) as Pn. pose proof (reached_awaited Re) as Aw.
  assert (heard w1 \/ c_pm (w_c w1) = pm_new) as Hh.
  { destruct Pm1 as [Pm1|Pm1]; [now right|left]. pose proof (cbs2_from Cn1 Pm1) as B. unfold cbs2 in B. apply andb_true_iff in B as [B1 B2]. split; [exact B1|]. split; [exact B2|]. now rewrite Ec. }
  assert (c_pm (w_c w2) = c_pm (w_c w1) \/ cbs_from w1 -> c_pm (w_c w2) = pm_new \/ cbs_from w2) as Pm2.
  { intros [Q|Q]; [rewrite Q; destruct Pm1 as [Pm1|Pm1]; [now left|right; exact (cbs_from_mono St Pm1)]|right; exact (cbs_from_mono St Q)]. }
  assert ((c_pm (w_c w2) = pm_new \/ cbs_from w2) /\ follows (items (w_t w2)) (abs (c_pm (w_c w2))) -> (c_pm (w_c w') = pm_new \/ cbs_from w') /\ follows (items (w_t w')) (abs (c_pm (w_c w')))) as Fin.
  { intros [F1 F2]. rewrite Ew'. cbn [w_c w_t items item_of]. rewrite app_nil_r. split; [|exact F2]. destruct F1 as [F1|F1]; [now left|right]. now apply cbs_from_push. }
  apply Fin. clear Fin.
  destruct (not_pm o) eqn:Np.
  - pose proof (@PK_body E (c_pm (w_c w)) (items (w_t w)) o Np w1) as K. rewrite Bd in K. destruct K as [K1 K2].
    { split; [now rewrite Ec|]. rewrite Ew1. cbn [w_t items]. destruct o; try discriminate Np; cbn [item_of]; apply app_nil_r. }
    split; [apply Pm2; left; now rewrite Ec|]. rewrite K1, K2. exact Fo.
  - destruct o; try discriminate Np; cbn [api_body] in Bd.
    + pose proof (@PO_outside E (u8s buffer) w1) as K. rewrite Bd in K. destruct K as (K1 & K2 & K3 & K4).
      { split; [|split; [|split]].
        - destruct Hh as [(H1 & H2 & _)|Hh]; [left; unfold cbs2; now rewrite H1, H2|now right].
        - rewrite Ec, Aw. now rewrite Ew1.
        - now rewrite Ec.
        - rewrite Ec, Ew1. cbn [w_t items item_of]. now rewrite app_nil_r. }
      split; [|exact K4]. destruct K1 as [K1|K1]; [|now left]. destruct Pm1 as [Pm1|Pm1]; [|apply Pm2; now right].
      right. assert (reached E w') as Re' by exact (reached_call Re C). destruct (Reach_cbs (proj1 (reached_good Re'))) as [(N & _)|F].
      * exfalso. rewrite Ew' in N. cbn [w_c] in N. unfold cbs2 in K1. rewrite N in K1. discriminate K1.
      * rewrite Ew' in F. destruct F as (x & (s & i & p & B) & D). exists x. split; [|exact D]. exists s, i, p. cbn [w_t In] in B. intuition congruence.
    + assert (c_state (w_c w1) = HE_STATE_ONLINE -> cbs_from w1) as On.
      { intros On. destruct (Reach_cbs (proj1 G)) as [(_ & _ & N)|F]; [rewrite <- Ec in N; rewrite On in N; destruct N; discriminate|]. rewrite Ew1. now apply cbs_from_push. }
      pose proof Bd as Bd1. apply start_does in Bd.
      2:{ intros O1. pose proof (cbs2_from Cn1 (On O1)) as B. unfold cbs2 in B. apply andb_true_iff in B as [B1 B2]. split; [exact B1|]. split; [exact B2|]. now rewrite Ec. }
      2:{ rewrite Ec. exact (follows_bounds Fo). }
      2:{ now rewrite Ec. }
      destruct Bd as (out & q & Tn & Ii & Q & _). rewrite Q, Ii. split.
      * apply Pm2. destruct (Z.eqb_spec (c_state (w_c w1)) HE_STATE_ONLINE) as [O1|O1]; [right; auto|left].
        unfold start_pmtu_discovery in Bd1. unfold bind at 1, get at 1 in Bd1. apply Z.eqb_neq in O1. rewrite O1 in Bd1. cbn [negb] in Bd1. apply Done_inv in Bd1 as [_ <-]. reflexivity.
      * rewrite Ew1 in *. cbn [w_t w_c items item_of] in *. rewrite <- app_assoc. cbn [app]. eapply follows_turn; [exact Fo|exact Tn].
    + pose proof Bd as Bd1. apply fire_does in Bd; [|exact Hh|rewrite Ec; exact (follows_bounds Fo)|now rewrite Ec].
      destruct Bd as (out & q & Tn & Ii & Q & _). rewrite Q, Ii. split.
      * destruct Pm1 as [Pm1|Pm1]; [|apply Pm2; now right]. apply Pm2. left. rewrite Pm1 in *. cbn in Tn.
        assert (q = abs pm_new) as Qn by (inversion Tn; subst; [reflexivity|lia]). rewrite Qn in Q. unfold abs in Q. cbn in Q. injection Q as A1 A2 A3 A4 A5 A6 A7. destruct (c_pm (w_c w2)). cbn in *. unfold pm_new. congruence.
      * rewrite Ew1 in *. cbn [w_t w_c items item_of] in *. rewrite <- app_assoc. cbn [app]. eapply follows_turn; [exact Fo|exact Tn].
Qed.
Lemma reached_SR w : reached E w -> SR w.
Proof.
  intros [ops R]. assert (forall w0 w, reached E w0 -> SR w0 -> run E 0 ops w0 = Done tt w -> SR w) as H.
  2:{ apply (H world_new w); auto; [now exists []|]. intros _. split; [left; reflexivity|constructor]. }
  clear w R. induction ops as [|o ops IH]; intros w0 w Re Aw; cbn [run]; [now intros [= <-]|]. change (hookn E 0) with (@ret unit tt).
  destruct (api E (ret tt) o w0) as [rc w1|] eqn:C; [|discriminate]. apply IH; [exact (reached_call Re C)|exact (SR_call Re C Aw)].
Qed.
End H.

(** For a host that makes no calls inside callbacks and whose contexts have both
    callbacks of path MTU discovery, after any history: what happened so far is a
    search in the sense of PmSpec, and he_conn_get_effective_pmtu is its result
    (1350 unless it is complete). *)
Theorem C12_search : forall E w, reached E w -> connects has_pm_cbs (w_t w) = true ->
  exists q, follows (items (w_t w)) q /\
    effective_pmtu (w_c w) = if (phase q =? HE_PMTUD_STATE_SEARCH_COMPLETE) && negb (result q =? 0) then result q else 1350.
Proof.
  intros E w Re Cn. destruct (reached_SR Re Cn) as [_ F]. exists (abs (c_pm (w_c w))). split; [exact F|]. unfold effective_pmtu. cbn [abs phase result]. change HE_MAX_MTU with 1350.
  destruct (pm_eff (c_pm (w_c w)) =? 0), (pm_state (c_pm (w_c w)) =? HE_PMTUD_STATE_SEARCH_COMPLETE); reflexivity.
Qed.
Print Assumptions C12_search.

(** ** What follows *)
(** The phases reported to pmtud_state_change_cb: DISABLED, BASE, then SEARCHING or
    ERROR, ... each from one it may come from. *)
Theorem C12_phases : forall E w, reached E w -> connects has_pm_cbs (w_t w) = true ->
  path HE_PMTUD_STATE_DISABLED (phases (items (w_t w))).
Proof. intros E w Re Cn. destruct (C12_search Re Cn) as (q & F & _). exact (proj1 (follows_phases F)). Qed.
Print Assumptions C12_phases.
(** While nothing happens offline and no PONG with id 0 comes: at most three probes
    of one size are sent in a row. *)
Theorem C12_patient : forall E w, reached E w -> connects has_pm_cbs (w_t w) = true -> Forall steady (items (w_t w)) ->
  patient (0, 0) (items (w_t w)).
Proof. intros E w Re Cn St. destruct (C12_search Re Cn) as (q & F & _). exact (proj1 (follows_patient F St)). Qed.
Print Assumptions C12_patient.
(** ... an effective path MTU that was found by a search is at most as large as
    some probe the peer has acknowledged, save that 1250 may rest on a probe of
    512 bytes. *)
Theorem C12_justified : forall E w, reached E w -> connects has_pm_cbs (w_t w) = true -> Forall steady (items (w_t w)) ->
  effective_pmtu (w_c w) <> 1350 ->
  exists n, In n (acknowledged (w_t w)) /\ (effective_pmtu (w_c w) <= n \/ effective_pmtu (w_c w) = 1250 /\ n = 512).
Proof.
  intros E w Re Cn St. destruct (C12_search Re Cn) as (q & F & ->). intros Ne.
  destruct (follows_justified F St) as (_ & _ & J). destruct (Z.eqb_spec (phase q) HE_PMTUD_STATE_SEARCH_COMPLETE) as [P|P]; cbn [andb] in *; [|congruence].
  destruct (result q =? 0); cbn [negb] in *; [congruence|]. destruct (J P) as (n & A & B). exists n. split; [now apply acked_items|exact B].
Qed.
Print Assumptions C12_justified.
(** ... and a search ends: the phase BASE after at most 5 timeouts that leave it,
    the phase SEARCHING after at most 229. *)
Theorem C12_ends : forall E w, reached E w -> connects has_pm_cbs (w_t w) = true -> Forall steady (items (w_t w)) ->
  (current (items (w_t w)) = HE_PMTUD_STATE_BASE -> fired (items (w_t w)) <= 5) /\
  (current (items (w_t w)) = HE_PMTUD_STATE_SEARCHING -> fired (items (w_t w)) <= 229).
Proof.
  intros E w Re Cn St. destruct (C12_search Re Cn) as (q & F & _). rewrite (proj2 (follows_phases F)). destruct (follows_ends F St) as [H1 H2].
  pose proof (follows_on F St) as B. unfold on_inv in B. split; intros P.
  - specialize (H1 P). destruct (size q =? 1250); ph; lia.
  - specialize (H2 P). unfold worth in H2. assert (0 <= (1416 - size q + 7) / 8) by (apply Z.div_pos; ph; lia). destruct (big q); ph; lia.
Qed.
Print Assumptions C12_ends.

(** The hypotheses are met: a whole search (1250, 512, 1282 with big steps, then
    small ones), and one that is under way. *)
Definition steadyb (i : item) : bool :=
  match i with Start on | Fire on => on | Pong on id => on && negb (id =? 0) | _ => true end.
Lemma steadyb_ok l : forallb steadyb l = true -> Forall steady l.
Proof.
  intros H. apply Forall_forall. intros i Hi. rewrite forallb_forall in H. specialize (H i Hi). destruct i; cbn in *; auto. apply andb_true_iff in H as [? H]. split; [assumption|]. destruct (Z.eqb_spec id 0); [discriminate H|assumption].
Qed.
Example C12_search_example :
  let w := world_at (client_up ++ search_512) in
  reached plain_env w /\ connects has_pm_cbs (w_t w) = true /\ Forall steady (items (w_t w)) /\
  items (w_t w) =
    [Start true; Phase HE_PMTUD_STATE_BASE; Probe 1 1250; Sent true; Timer 5000;
     Fire true; Probe 2 1250; Sent true; Timer 5000; Fire true; Probe 3 1250; Sent true; Timer 5000;
     Fire true; Probe 4 512; Sent true; Timer 5000;
     Pong true 4; Timer 0; Phase HE_PMTUD_STATE_SEARCHING; Probe 5 1282; Sent true; Timer 5000;
     Fire true; Probe 6 1282; Sent true; Timer 5000; Fire true; Probe 7 1282; Sent true; Timer 5000;
     Fire true; Probe 8 1258; Sent true; Timer 5000;
     Fire true; Probe 9 1258; Sent true; Timer 5000; Fire true; Probe 10 1258; Sent true; Timer 5000;
     Fire true; Phase HE_PMTUD_STATE_SEARCH_COMPLETE; Timer 600000] /\
  effective_pmtu (w_c w) = 1250.
Proof. cbv zeta. split; [apply world_at_reached; vm_compute; reflexivity|]. split; [vm_compute; reflexivity|]. split; [apply steadyb_ok; vm_compute; reflexivity|]. conj; vm_compute; reflexivity. Qed.
Example C12_ends_example :
  let w := world_at (client_up ++ [OStartPmtud; pong 1] ++ repeat OPmtudTimeout 5) in
  reached plain_env w /\ connects has_pm_cbs (w_t w) = true /\ Forall steady (items (w_t w)) /\
  current (items (w_t w)) = HE_PMTUD_STATE_SEARCHING /\ fired (items (w_t w)) = 5.
Proof. cbv zeta. split; [apply world_at_reached; vm_compute; reflexivity|]. split; [vm_compute; reflexivity|]. split; [apply steadyb_ok; vm_compute; reflexivity|]. conj; vm_compute; reflexivity. Qed.
(** The effective path MTU need not be a size that was acknowledged. *)
Theorem C12_not_probed_refuted : exists ops, let w := world_at ops in
  reached plain_env w /\ Forall steady (items (w_t w)) /\ effective_pmtu (w_c w) = 1384 /\
  ~ In 1384 (acknowledged (w_t w)) /\ In 1410 (acknowledged (w_t w)).
Proof.
  exists (client_up ++ [OStartPmtud] ++ map pong [1; 2; 3; 4; 5; 6] ++ repeat OPmtudTimeout 6). cbv zeta.
  split; [apply world_at_reached; vm_compute; reflexivity|]. split; [apply steadyb_ok; vm_compute; reflexivity|]. split; [vm_compute; reflexivity|].
  match goal with |- ~ In _ ?l /\ _ => let x := eval vm_compute in l in replace l with x by (vm_compute; reflexivity) end. cbn. lia.
Qed.
Print Assumptions C12_not_probed_refuted.
