(** C46: he_conn_get_ssl_error. *)
From Verif Require Import Base Codes Ctx Config Mss Frag Wire WireSpec WireProofs ConnState Conn ConnSpec MsgSpec CallSpec.
From Verif Require Import ConnSteps ConnWp ConnWpApi Frame FrameLoop Reaction Seq SeqInside SeqOutside SeqApi SeqLoop SeqWire.
From Verif Require Import Scenario Props_Data PlugSpec SeqPlug TlsSpec Props_Timer Props_Tls SslSpec.
Unset Strict Implicit.

Section S.
Variable E : env.
Notation hk := (@ret unit tt).
Notation er w := (c_wolf_err (w_c w)).
Definition goes (w w' : world) (hs cs : list Z) : Prop :=
  during hard_error w w' hs /\ during cb_codes w w' cs /\ er w' = last hs (er w).
Definition bad (rc : Z) : Prop := rc = HE_ERR_SSL_ERROR \/ rc = HE_ERR_SSL_ERROR_NONFATAL.
Definition sure {A} (m : M A) : Prop := forall w a w', m w = Done a w' -> exists hs cs, goes w w' hs cs.
Definition told (m : M Z) : Prop := forall w rc w', m w = Done rc w' -> exists hs cs, goes w w' hs cs /\ (bad rc -> hs <> [] \/ In rc cs).

Lemma last_app (l1 l2 : list Z) d : last (l1 ++ l2) d = last l2 (last l1 d).
Proof.
  revert d. induction l2 as [|x l2 IH] using rev_ind; intros d; [now rewrite app_nil_r|]. now rewrite app_assoc, !last_last.
Qed.
Lemma goes_trans w w1 w2 h1 c1 h2 c2 : goes w w1 h1 c1 -> goes w1 w2 h2 c2 -> goes w w2 (h1 ++ h2) (c1 ++ c2).
Proof.
  intros (A & B & C) (A' & B' & C'). split; [exact (during_trans A A')|]. split; [exact (during_trans B B')|]. now rewrite last_app, C', C.
Qed.
Lemma goes_same w w' : w_t w' = w_t w -> er w' = er w -> goes w w' [] [].
Proof. intros A B. split; [unfold during; now rewrite A, app_nil_r|]. split; [unfold during; now rewrite A, app_nil_r|exact B]. Qed.
Lemma goes_emit e w : hard_error 0 e = [] -> goes w (push e w) [] (cb_codes 0 e).
Proof.
  intros H. split; [|split; [|reflexivity]]; unfold during; cbn [push w_t collect]; f_equal; destruct e; auto.
Qed.
Lemma sure_same A (m : M A) : (forall w a w', m w = Done a w' -> w_t w' = w_t w /\ er w' = er w) -> sure m.
Proof. intros H w a w' R. destruct (H _ _ _ R) as [T K]. exists [], []. now apply goes_same. Qed.
Lemma sure_ret A (a : A) : sure (ret a).
Proof. apply sure_same. intros w b w' H. apply Done_inv in H as [_ <-]. auto. Qed.
Lemma sure_get A (f : conn -> A) : sure (get f).
Proof. apply sure_same. intros w b w' H. apply Done_inv in H as [_ <-]. auto. Qed.
Lemma sure_log : sure log.
Proof. apply sure_same. intros w b w' H. apply Done_inv in H as [_ <-]. auto. Qed.
Lemma sure_upd f : (forall c, c_wolf_err (f c) = c_wolf_err c) -> sure (upd f).
Proof. intros F. apply sure_same. intros w b w' H. apply Done_inv in H as [_ <-]. split; [reflexivity|apply F]. Qed.
Lemma sure_emit e : hard_error 0 e = [] -> sure (emit e).
Proof. intros F w b w' H. apply Done_inv in H as [_ <-]. eexists _, _. now apply (@goes_emit e w). Qed.
Lemma sure_bind A B (m : M A) (k : A -> M B) : sure m -> (forall a, sure (k a)) -> sure (bind m k).
Proof.
  intros Hm Hk w b w' H. unfold bind in H. destruct (m w) as [a w1|] eqn:R; [|discriminate H].
  destruct (Hm _ _ _ R) as (h1 & c1 & G1). destruct (Hk _ _ _ _ H) as (h2 & c2 & G2). eexists _, _. exact (goes_trans G1 G2).
Qed.
Lemma sure_val A B (r : res A) (k : A -> M B) : (forall a, r = Val a -> sure (k a)) -> sure (bind (lift r) k).
Proof. intros H. destruct r as [a|]; [|intros w b w' R; discriminate R]. exact (H a eq_refl). Qed.
Lemma sure_fault A u : sure (@stuck A u).
Proof. intros w b w' H. discriminate H. Qed.
Lemma sure_lift A (r : res A) : sure (lift r).
Proof. unfold lift. destruct r; [apply sure_ret|apply sure_fault]. Qed.
Lemma sure_when (b : bool) (m : M unit) : sure m -> sure (when b m).
Proof. destruct b; [auto|]. intros _. apply sure_ret. Qed.
Lemma sure_ask q : q <> QError -> sure (ask E q).
Proof. intros Q. unfold ask. apply sure_bind; [apply sure_log|]. intros t. apply sure_bind; [|intros; apply sure_ret]. apply sure_emit. destruct q; auto. now destruct Q. Qed.
(** A wolfSSL operation leaves the stored error alone. *)
Lemma wolf_hard o w r err d w' : wolf_op E hk o w = Done (r, err, d) w' ->
  exists cs, during hard_error w w' (hard_error 0 (EWEnd o r err d)) /\ during cb_codes w w' cs /\ er w' = er w.
Proof.
  intros H. apply wolf_op_seq in H. destruct H as (rx & seg & -> & S).
  exists (collect cb_codes seg). unfold during. cbn [w_t w_c collect hard_error cb_codes set_rx c_wolf_err]. rewrite !collect_app. cbn [collect hard_error cb_codes].
  rewrite (collect_io (s := c_state (w_c w)) (f := hard_error) (seg := seg)); auto.
  - rewrite !app_nil_r. split; [destruct o; reflexivity|]. split; reflexivity.
  - intros []; cbn; auto; discriminate.
Qed.
Lemma sure_wolf o : match o with WGotTimeout | WShutdown => true | _ => false end = true -> sure (wolf_op E hk o).
Proof.
  intros H w [[r err] d] w' R. destruct (wolf_hard R) as (cs & A & B & C). exists [], cs. split; [|split; [exact B|exact C]]. destruct o; try discriminate H; exact A.
Qed.

(** *** Results *)
Lemma told_sure m : told m -> sure m.
Proof. intros H w a w' R. destruct (H _ _ _ R) as (hs & cs & G & _). eauto. Qed.
Lemma told_ret rc : rc <> HE_ERR_SSL_ERROR -> rc <> HE_ERR_SSL_ERROR_NONFATAL -> told (ret rc).
Proof. intros A B w b w' H. apply Done_inv in H as [<- <-]. exists [], []. split; [now apply goes_same|]. intros [X|X]; contradiction. Qed.
Lemma told_bind A (m : M A) (k : A -> M Z) : sure m -> (forall a, told (k a)) -> told (bind m k).
Proof.
  intros Hm Hk w b w' H. unfold bind in H. destruct (m w) as [a w1|] eqn:R; [|discriminate H].
  destruct (Hm _ _ _ R) as (h1 & c1 & G1). destruct (Hk _ _ _ _ H) as (h2 & c2 & G2 & T). eexists _, _. split; [exact (goes_trans G1 G2)|].
  intros Bd. destruct (T Bd) as [N|I]; [left; intros X; apply app_eq_nil in X; tauto|right; apply in_or_app; auto].
Qed.
Lemma told_val A (r : res A) (k : A -> M Z) : (forall a, r = Val a -> told (k a)) -> told (bind (lift r) k).
Proof. intros H. destruct r as [a|]; [|intros w b w' R; discriminate R]. exact (H a eq_refl). Qed.
Lemma told_fault u : told (stuck u).
Proof. intros w b w' H. discriminate H. Qed.
Lemma told_then (m : M Z) (a : Z -> M unit) : told m -> (forall rc, sure (a rc)) -> told (let! rc := m in a rc ;;; ret rc).
Proof.
  intros Hm Ha w b w' H. unfold bind, ret in H. destruct (m w) as [rc w1|] eqn:R; [|discriminate H]. destruct (a rc w1) as [[] w2|] eqn:R2; [|discriminate H].
  apply Done_inv in H as [<- <-]. destruct (Hm _ _ _ R) as (h1 & c1 & G1 & T). destruct (Ha _ _ _ _ R2) as (h2 & c2 & G2).
  eexists _, _. split; [exact (goes_trans G1 G2)|]. intros Bd. destruct (T Bd) as [N|I]; [left; intros X; apply app_eq_nil in X; tauto|right; apply in_or_app; auto].
Qed.
Lemma told_chk (m : M Z) (k : Z -> M Z) : told m -> (forall rc, told (k rc)) -> told (let! rc := m in if negb (rc =? HE_SUCCESS) then ret rc else k rc).
Proof.
  intros Hm Hk w b w' H. unfold bind in H. destruct (m w) as [rc w1|] eqn:R; [|discriminate H]. destruct (Hm _ _ _ R) as (h1 & c1 & G1 & T).
  destruct (negb (rc =? HE_SUCCESS)); [apply Done_inv in H as [<- <-]; exists h1, c1; auto|].
  destruct (Hk _ _ _ _ H) as (h2 & c2 & G2 & T2). eexists _, _. split; [exact (goes_trans G1 G2)|].
  intros Bd. destruct (T2 Bd) as [N|I]; [left; intros X; apply app_eq_nil in X; tauto|right; apply in_or_app; auto].
Qed.
Lemma told_send_message m : told (send_message E hk m).
Proof.
  intros w rc w' H. unfold send_message in H. unfold bind at 1 in H. destruct (wolf_op E hk (WSend m) w) as [[[r err] d] w1|] eqn:R; [|discriminate H].
  destruct (wolf_hard R) as (cs & A & B & C). cbn [hard_error] in A.
  assert (forall c, c <> HE_ERR_SSL_ERROR -> c <> HE_ERR_SSL_ERROR_NONFATAL -> hard_error 0 (EWEnd (WSend m) r err d) = [] -> Done c w1 = Done rc w' -> exists hs cs, goes w w' hs cs /\ (bad rc -> hs <> [] \/ In rc cs)) as Ok.
  { intros c N1 N2 Hh X. apply Done_inv in X as [<- <-]. exists [], cs. split; [split; [cbn [hard_error] in Hh; rewrite Hh in A; exact A|auto]|]. intros [X|X]; contradiction. }
  destruct (Z.leb_spec r 0) as [L|L].
  2: { eapply Ok; [| | |exact H]; try discriminate. cbn. destruct (Z.leb_spec 0 r); [reflexivity|lia]. }
  destruct (err =? SSL_ERROR_NONE) eqn:E1; [eapply Ok; [| | |exact H]; try discriminate; cbn; rewrite E1; now rewrite ?orb_true_r|].
  destruct (err =? SSL_ERROR_WANT_WRITE) eqn:E2; [eapply Ok; [| | |exact H]; try discriminate; cbn; rewrite E2; now rewrite ?orb_true_r|].
  destruct (err =? SSL_ERROR_WANT_READ) eqn:E3; [eapply Ok; [| | |exact H]; try discriminate; cbn; rewrite E3; now rewrite ?orb_true_r|].
  destruct (Z.eqb_spec r 0) as [->|N]; [eapply Ok; [| | |exact H]; try discriminate; reflexivity|].
  unfold bind, upd, ret in H. apply Done_inv in H as [<- <-]. destruct (Z.leb_spec 0 r); [lia|]. cbn [orb] in A.
  exists [err], cs. split; [|intros _; left; discriminate]. split; [exact A|]. split; [exact B|reflexivity].
Qed.
Lemma told_callback e k : hard_error 0 e = [] -> cb_codes 0 e = [] -> told (callback E hk e k).
Proof.
  intros H1 H2 w rc w' H. unfold callback, bind, log, emit, ret in H. apply Done_inv in H as [<- <-]. cbn [w_t].
  set (w1 := push e w). change (exists hs cs, goes w (push (ECbRet k (e_cb E (w_t w1))) w1) hs cs /\ (bad (e_cb E (w_t w1)) -> hs <> [] \/ In (e_cb E (w_t w1)) cs)).
  pose proof (@goes_emit e w H1) as G1. rewrite H2 in G1. pose proof (@goes_emit (ECbRet k (e_cb E (w_t w1))) w1 eq_refl) as G2.
  eexists _, _. split; [exact (goes_trans G1 G2)|]. intros _. right. now left.
Qed.
Lemma sure_ask_version : sure (ask_version E).
Proof. intros w a w' H. eapply sure_ask; [|exact (version_done H)]. discriminate. Qed.
Hint Resolve sure_ask_version : core.
Hint Resolve sure_ret sure_get sure_log sure_lift sure_fault told_send_message : core.
Hint Extern 1 (sure (ask _ _)) => apply sure_ask; discriminate : core.
Hint Extern 2 (sure _) => apply told_sure : core.
Hint Extern 1 (told (callback _ _ _ _)) => apply told_callback; reflexivity : core.
Ltac t1 :=
  match goal with
  | |- sure (bind (lift _) _) => apply sure_val; intros ? ?
  | |- sure (bind _ _) => apply sure_bind; [|intro]
  | |- sure (when _ _) => apply sure_when
  | |- sure (emit _) => apply sure_emit; reflexivity
  | |- sure (upd _) => apply sure_upd; intros; reflexivity
  | |- sure (wolf_op _ _ _) => apply sure_wolf; reflexivity
  | |- sure (if ?b then _ else _) => destruct b
  | |- sure (let '(_, _) := ?x in _) => destruct x
  | |- sure (match ?x with _ => _ end) => destruct x
  | |- told (bind ?m (fun rc => if negb (rc =? HE_SUCCESS) then ret rc else _)) => apply told_chk; [|intro]
  | |- told (bind ?m (fun rc => bind _ (fun _ => ret rc))) => apply told_then; [|intro]
  | |- told (bind (lift _) _) => apply told_val; intros ? ?
  | |- told (bind _ _) => apply told_bind; [|intro]
  | |- told (ret _) => apply told_ret; first [discriminate|assumption]
  | |- told (stuck _) => apply told_fault
  | |- told (if ?b then _ else _) => destruct b
  | |- told (let '(_, _) := ?x in _) => destruct x
  | |- told (match ?x with _ => _ end) => destruct x
  | |- _ => solve [auto]
  end.
Ltac tt := intros; cbv zeta; repeat t1.
Lemma sure_notify e : hard_error 0 e = [] -> sure (notify hk e).
Proof. intros F. unfold notify. apply sure_bind; [now apply sure_emit|auto]. Qed.
Hint Extern 1 (sure (notify _ _)) => apply sure_notify; reflexivity : core.
Lemma sure_call_plugin i n d c : sure (call_plugin E i n d c).
Proof. unfold call_plugin. tt. Qed.
Hint Resolve sure_call_plugin : core.
Lemma sure_generate_event v : sure (generate_event hk v).
Proof. unfold generate_event. tt. Qed.
Hint Resolve sure_generate_event : core.
Lemma sure_set_conn_state s : sure (set_conn_state hk s).
Proof. unfold set_conn_state. tt. Qed.
Hint Resolve sure_set_conn_state : core.
Lemma told_send_auth_userpass : told (send_auth_userpass E hk).
Proof. unfold send_auth_userpass. tt. Qed.
Hint Resolve told_send_auth_userpass : core.
Lemma told_send_auth_token : told (send_auth_token E hk).
Proof. unfold send_auth_token. tt. Qed.
Hint Resolve told_send_auth_token : core.
Lemma told_send_auth_buf : told (send_auth_buf E hk).
Proof. unfold send_auth_buf. tt. Qed.
Hint Resolve told_send_auth_buf : core.
Lemma told_send_auth : told (send_auth E hk).
Proof. unfold send_auth. tt. Qed.
Hint Resolve told_send_auth : core.
Lemma sure_change_conn_state s : sure (change_conn_state E hk s).
Proof. unfold change_conn_state. tt. Qed.
Hint Resolve sure_change_conn_state : core.
Lemma sure_update_timeout : sure (update_timeout E hk).
Proof. unfold update_timeout. tt. Qed.
Hint Resolve sure_update_timeout : core.
Lemma sure_send_goodbye : sure (send_goodbye E hk).
Proof. unfold send_goodbye. tt. Qed.
Hint Resolve sure_send_goodbye : core.
Lemma sure_generate_session_id : sure (generate_session_id E).
Proof. unfold generate_session_id. tt. Qed.
Hint Resolve sure_generate_session_id : core.
Lemma sure_upd_pm f : sure (upd_pm f).
Proof. unfold upd_pm. tt. Qed.
Hint Resolve sure_upd_pm : core.
Lemma told_pm_time ms : told (pm_time E hk ms).
Proof. unfold pm_time. tt. Qed.
Hint Resolve told_pm_time : core.
Lemma sure_pm_change_state s : sure (pm_change_state hk s).
Proof. unfold pm_change_state. tt. Qed.
Hint Resolve sure_pm_change_state : core.
Lemma told_pm_send_probe m : told (pm_send_probe E hk m).
Proof. unfold pm_send_probe. tt. Qed.
Hint Resolve told_pm_send_probe : core.
Lemma told_pm_retry_probe d : told (pm_retry_probe E hk d).
Proof. unfold pm_retry_probe. tt. Qed.
Hint Resolve told_pm_retry_probe : core.
Lemma told_pm_start_base_probing : told (pm_start_base_probing E hk).
Proof. unfold pm_start_base_probing. tt. Qed.
Hint Resolve told_pm_start_base_probing : core.
Lemma told_pm_base_confirmed : told (pm_base_confirmed E hk).
Proof. unfold pm_base_confirmed. tt. Qed.
Hint Resolve told_pm_base_confirmed : core.
Lemma told_pm_confirm_base_failed : told (pm_confirm_base_failed E hk).
Proof. unfold pm_confirm_base_failed. tt. Qed.
Hint Resolve told_pm_confirm_base_failed : core.
Lemma told_pm_search_completed : told (pm_search_completed E hk).
Proof. unfold pm_search_completed. tt. Qed.
Hint Resolve told_pm_search_completed : core.
Lemma told_pm_blackhole_detected : told (pm_blackhole_detected E hk).
Proof. unfold pm_blackhole_detected. tt. Qed.
Hint Resolve told_pm_blackhole_detected : core.
Lemma told_pm_probe_ack id : told (pm_probe_ack E hk id).
Proof. unfold pm_probe_ack. tt. Qed.
Hint Resolve told_pm_probe_ack : core.
Lemma told_pm_probe_timeout : told (pm_probe_timeout E hk).
Proof. unfold pm_probe_timeout. tt. Qed.
Hint Resolve told_pm_probe_timeout : core.
Lemma sure_plugin_ingress ch : forall d c, sure (plugin_ingress E ch d c).
Proof. induction ch; intros; cbn [plugin_ingress]; tt. Qed.
Hint Resolve sure_plugin_ingress : core.
Lemma sure_plugin_egress ch : forall d c, sure (plugin_egress E ch d c).
Proof. induction ch; intros; cbn [plugin_egress]; tt. Qed.
Hint Resolve sure_plugin_egress : core.
Lemma told_frag_loop f : forall p id o l z, told (frag_loop E hk f p id o l z).
Proof. induction f; intros; cbn [frag_loop]; tt. Qed.
Hint Resolve told_frag_loop : core.
Lemma told_frag_and_send p f : told (frag_and_send E hk p f).
Proof. unfold frag_and_send. tt. Qed.
Hint Resolve told_frag_and_send : core.
(** *** Values computed without effects *)
Definition mild (rc : Z) : Prop := rc <> HE_ERR_SSL_ERROR /\ rc <> HE_ERR_SSL_ERROR_NONFATAL.
Lemma told_mild rc : mild rc -> told (ret rc).
Proof. intros [A B]. now apply told_ret. Qed.
Ltac mild_tac :=
  repeat match goal with
  | |- Val _ = Val _ -> _ => intros [= <- <-]; split; discriminate
  | |- Val _ = Val _ -> _ => intros [= <- <- <-]; split; discriminate
  | |- Ub _ = _ -> _ => discriminate
  | |- (if ?b then _ else _) = _ -> _ => destruct b
  | |- (do _ <- ?r; _) = _ -> _ => destruct r; cbn [rbind]; [|discriminate]
  | |- (let '(_, _) := ?x in _) = _ -> _ => destruct x
  | |- (match ?x with _ => _ end) = _ -> _ => destruct x
  end.
Lemma clamp_mild le p mss rc q : clamp_mss le p mss = Val (rc, q) -> mild rc.
Proof. unfold clamp_mss. cbv zeta. mild_tac. Qed.
Lemma set_string_mild f s rc g : set_config_string f s = Val (rc, g) -> mild rc.
Proof. unfold set_config_string. mild_tac. Qed.
Lemma update_mild al e d off mf rc a e' : entry_update al e d off mf = Val (rc, a, e') -> mild rc.
Proof. unfold entry_update. cbv zeta. mild_tac. Qed.
Lemma store_mild a1 a2 n1 n2 t id off mf d rc o t' : frag_store a1 a2 n1 n2 t id off mf d = Val (rc, o, t') -> mild rc.
Proof.
  unfold frag_store. destruct (table_find a1 n1 t id) as [[e|] t1]; [|intros [= <- <- <-]; split; discriminate]. cbv zeta.
  match goal with |- context[entry_update ?a ?b ?c ?d0 ?f] => destruct (entry_update a b c d0 f) as [[[rc1 a0] e1]|] eqn:U end; cbn [rbind]; [|discriminate].
  apply update_mild in U. destruct (negb _); [intros [= <- <- <-]; exact U|]. destruct a0; [|intros [= <- <- <-]; exact U].
  destruct (fe_nodes e1); [discriminate|]. destruct (ldn _ _ _); cbn [rbind]; [|discriminate]. intros [= <- <- <-]; exact U.
Qed.
Lemma plain_ingress ch d c w rc o w' : plugin_ingress E ch d c w = Done (rc, o) w' -> mild rc.
Proof.
  revert d w. induction ch as [|[p|] ch IH]; intros d w; cbn [plugin_ingress].
  - intros H. apply Done_inv in H as [H _]. injection H as <- _. split; discriminate.
  - destruct (pl_in p); [|apply IH]. unfold bind at 1. destruct (call_plugin _ _ _ _ _ _) as [[r out] w1|]; [|discriminate].
    destruct (r =? _); [intros H; apply Done_inv in H as [H _]; injection H as <- _; split; discriminate|].
    destruct (r =? _); [intros H; apply Done_inv in H as [H _]; injection H as <- _; split; discriminate|]. apply IH.
  - apply IH.
Qed.
(** *** Handlers of messages *)
Lemma told_handle_ping m : told (handle_ping E hk m).
Proof. unfold handle_ping. tt. Qed.
Lemma told_handle_pong m : told (handle_pong E hk m).
Proof. unfold handle_pong. tt. Qed.
Lemma told_handle_server_config m : told (handle_server_config E hk m).
Proof. unfold handle_server_config. tt. Qed.
Lemma told_handle_config_ipv4 m : told (handle_config_ipv4 E hk m).
Proof. unfold handle_config_ipv4. tt. Qed.
Hint Resolve told_handle_ping told_handle_pong told_handle_server_config told_handle_config_ipv4 : core.
Lemma sure_send_auth_denied : sure (send_auth_denied E hk).
Proof. unfold send_auth_denied. tt. Qed.
Hint Resolve sure_send_auth_denied : core.
Lemma told_say k res (m : M Z) : (forall w rc w', m w = Done rc w' -> exists hs cs, goes w w' hs cs /\ (bad rc -> hs <> [] \/ In rc cs \/ rc = res)) -> told (emit (ECbRet k res) ;;; m).
Proof.
  intros H w rc w' R. unfold bind at 1, emit in R. destruct (H _ _ _ R) as (h2 & c2 & G2 & T). pose proof (@goes_emit (ECbRet k res) w eq_refl) as G1.
  eexists _, _. split; [exact (goes_trans G1 G2)|]. intros B. destruct (T B) as [X|[X|X]]; [left; exact X|right; right; exact X|right; left; now symmetry].
Qed.
Lemma told_auth_accepted : told (auth_accepted E hk).
Proof.
  unfold auth_accepted. apply told_bind; [auto|intros s]. apply told_bind; [now apply sure_emit|intros _]. apply told_bind; [auto|intros _]. apply told_bind; [auto|intros t].
  destruct (e_cfg E t) as [[l p] d]. apply told_bind; [now apply sure_emit|intros _]. apply told_bind; [auto|intros t']. cbv zeta. apply told_say.
  destruct (negb _).
  - intros w rc w' R. unfold bind in R. destruct (send_auth_denied E hk w) as [[] w1|] eqn:D; [|discriminate R]. apply Done_inv in R as [<- <-].
    destruct (sure_send_auth_denied D) as (h & c & G). exists h, c. auto.
  - match goal with |- forall w rc w', ?m w = Done rc w' -> _ => assert (told m) as T by tt end.
    intros w rc w' R. destruct (T _ _ _ R) as (h & c & G & B). exists h, c. split; [exact G|]. intros X. destruct (B X); auto.
Qed.
Hint Resolve told_auth_accepted : core.
Lemma told_auth_verdict ok v : mild v -> told (auth_verdict E hk ok v).
Proof. intros [A B]. unfold auth_verdict. tt. Qed.
Hint Extern 1 (told (auth_verdict _ _ _ _)) => apply told_auth_verdict; split; discriminate : core.
Lemma told_handle_auth m : told (handle_auth E hk m).
Proof. unfold handle_auth. tt. Qed.
Lemma told_deliver p : told (deliver E hk p).
Proof. unfold deliver. tt. Qed.
Hint Resolve told_handle_auth told_deliver : core.
Lemma told_handle_data m : told (handle_data E hk m).
Proof. unfold handle_data. tt. Qed.
Lemma told_handle_13 m : told (handle_deprecated_13 E hk m).
Proof. unfold handle_deprecated_13. tt. Qed.
Lemma told_handle_frag m : told (handle_frag E hk m).
Proof. unfold handle_frag. tt; apply told_mild; eapply store_mild; eassumption. Qed.
Hint Resolve told_handle_data told_handle_13 told_handle_frag : core.
Lemma told_process_message m : m <> [] -> told (process_message E hk m).
Proof.
  intros N. unfold process_message. destruct (Z.ltb_spec (len m) sizeof_msg_hdr) as [L|L].
  - exfalso. apply N. destruct m; [reflexivity|]. unfold len, sizeof_msg_hdr in L. cbn [length] in L. lia.
  - tt.
Qed.
Lemma hard_eq w w1 w' err cs : during hard_error w w1 [err] -> during cb_codes w w1 cs -> w_t w' = w_t w1 -> er w' = err -> goes w w' [err] cs.
Proof. intros A B T K. unfold goes, during. rewrite T. split; [exact A|split; [exact B|exact K]]. Qed.
(** A wolfSSL operation, then what its result asks for: either the error is not
    hard, or it is stored. *)
Lemma told_wolf o (k : Z * Z * bytes -> M Z) :
  (forall r err d, hard_error 0 (EWEnd o r err d) = [] -> told (k (r, err, d))) ->
  (forall r err d, hard_error 0 (EWEnd o r err d) <> [] -> hard_error 0 (EWEnd o r err d) = [err] /\
     forall w rc w', k (r, err, d) w = Done rc w' -> exists hs cs, during hard_error w w' hs /\ during cb_codes w w' cs /\ er w' = last hs err) ->
  told (bind (wolf_op E hk o) k).
Proof.
  intros H1 H2 w rc w' R. unfold bind in R. destruct (wolf_op E hk o w) as [[[r err] d] w1|] eqn:W; [|discriminate R].
  destruct (wolf_hard W) as (c1 & A & B & C). destruct (hard_error 0 (EWEnd o r err d)) as [|x l] eqn:Hd.
  - destruct (H1 _ _ _ Hd _ _ _ R) as (h2 & c2 & G & T). exists h2, (c1 ++ c2). split.
    + exact (goes_trans (conj A (conj B C)) G).
    + intros Bd. destruct (T Bd); [now left|right; apply in_or_app; auto].
  - destruct (H2 r err d) as [He Hk]; [rewrite Hd; discriminate|]. rewrite Hd in He. destruct (Hk _ _ _ R) as (h2 & c2 & A2 & B2 & C2).
    exists ((x :: l) ++ h2), (c1 ++ c2). split; [|intros _; left; discriminate].
    split; [exact (during_trans A A2)|]. split; [exact (during_trans B B2)|]. rewrite last_app, C2, He. reflexivity.
Qed.
Lemma event_easy v w w1 : generate_event hk v w = Done tt w1 -> during hard_error w w1 [].
Proof.
  unfold generate_event, bind, get. destruct (cb_event _); intros H; apply Done_inv in H as [_ <-]; unfold during; cbn [push w_t collect hard_error app]; now rewrite ?app_nil_r.
Qed.
Lemma told_renegotiate_ssl : told (renegotiate_ssl E hk).
Proof.
  unfold renegotiate_ssl. apply told_bind; [apply sure_upd; reflexivity|intros _]. apply told_bind; [auto|intros pr]. apply told_bind; [auto|intros st]. destruct (_ || _); [apply told_ret; discriminate|].
  apply told_bind; [auto|intros v]. apply told_bind; [destruct (_ =? _); auto|intros sup]. destruct (_ =? _); [apply told_ret; discriminate|].
  assert (forall o, o = WRehandshake \/ o = WUpdateKeys -> told (let! (r, err, _) := wolf_op E hk o in
    upd (set_prog true) ;;; generate_event hk HE_EVENT_SECURE_RENEGOTIATION_STARTED ;;;
    if negb (r =? SSL_SUCCESS) then
      if (err =? SSL_ERROR_NONE) || (err =? SSL_ERROR_WANT_READ) || (err =? SSL_ERROR_WANT_WRITE) || (err =? APP_DATA_READY)
      then update_timeout E hk ;;; ret HE_SUCCESS
      else if err =? SECURE_RENEGOTIATION_E then ret HE_ERR_SECURE_RENEGOTIATION_ERROR
      else upd (set_wolf_err err) ;;; ret HE_ERR_SSL_ERROR
    else ret HE_SUCCESS)) as K.
  2: { destruct (_ =? _); apply K; auto. }
  intros o Ho. apply told_wolf; intros r err d; cbv beta iota.
  - intros Hd. apply told_bind; [apply sure_upd; reflexivity|intros _]. apply told_bind; [auto|intros _].
    destruct (r =? SSL_SUCCESS) eqn:R; [apply told_ret; discriminate|]. cbn [negb].
    destruct ((err =? SSL_ERROR_NONE) || _ || _ || _) eqn:Q; [tt|]. destruct (err =? SECURE_RENEGOTIATION_E) eqn:Q2; [apply told_ret; discriminate|].
    exfalso. revert Hd. destruct Ho as [-> | ->]; cbn [hard_error]; rewrite R; cbn [orb]; rewrite Q, Q2; discriminate.
  - intros Hd. destruct (r =? SSL_SUCCESS) eqn:R; [exfalso; apply Hd; destruct Ho as [-> | ->]; cbn [hard_error]; now rewrite R|].
    destruct ((err =? SSL_ERROR_NONE) || (err =? SSL_ERROR_WANT_READ) || (err =? SSL_ERROR_WANT_WRITE) || (err =? APP_DATA_READY)) eqn:Q;
      [exfalso; apply Hd; destruct Ho as [-> | ->]; cbn [hard_error]; rewrite R; cbn [orb]; now rewrite Q|].
    destruct (err =? SECURE_RENEGOTIATION_E) eqn:Q2; [exfalso; apply Hd; destruct Ho as [-> | ->]; cbn [hard_error]; rewrite R; cbn [orb]; now rewrite Q, Q2|].
    split; [destruct Ho as [-> | ->]; cbn [hard_error]; rewrite R; cbn [orb]; now rewrite Q, Q2|]. intros w rc w' Rn. unfold bind at 1, upd at 1 in Rn.
    unfold bind at 1 in Rn. set (w0 := World _ _) in Rn. destruct (generate_event hk _ w0) as [[] w1|] eqn:G; [|discriminate Rn].
    destruct (sure_generate_event G) as (h & c & A & B & _). cbn [negb] in Rn. unfold bind, upd, ret in Rn. apply Done_inv in Rn as [_ <-].
    exists [], c. split; [exact (event_easy G)|]. split; [exact B|reflexivity].
Qed.
Hint Resolve told_renegotiate_ssl : core.
Lemma recv_hard r err d : hard_error 0 (EWEnd WRecv r err d) = [] \/
  (hard_error 0 (EWEnd WRecv r err d) = [err] /\ r < 0 /\ (err =? SSL_ERROR_NONE) = false /\ (err =? APP_DATA_READY) = false /\ (err =? SSL_ERROR_WANT_READ) || (err =? SSL_ERROR_WANT_WRITE) = false).
Proof.
  cbn [hard_error]. destruct (Z.leb_spec 0 r); [now left|]. cbn [orb]. destruct (err =? SSL_ERROR_NONE); [now left|]. destruct (err =? APP_DATA_READY); [now left|]. cbn [orb].
  destruct (_ || _); [now left|]. right. auto.
Qed.
Lemma fetch_told n : forall w rc m w', fetch_message E hk n w = Done (rc, m) w' ->
  exists hs cs, goes w w' hs cs /\ (bad rc -> hs <> []) /\ match m with Some d => d <> [] | None => True end.
Proof.
  induction n as [|n IH]; intros w rc m w' R; cbn [fetch_message] in R; [discriminate R|]. unfold bind at 1 in R.
  destruct (wolf_op E hk WRecv w) as [[[r err] d] w1|] eqn:W; [|discriminate R].
  destruct (wolf_hard W) as (c1 & A & B & C). destruct (recv_data W) as [_ Ne].
  assert (forall (x : Z * option bytes), hard_error 0 (EWEnd WRecv r err d) = [] -> mild (fst x) -> match snd x with Some d0 => d0 <> [] | None => True end ->
     Done x w1 = Done (rc, m) w' -> exists hs cs, goes w w' hs cs /\ (bad rc -> hs <> []) /\ match m with Some d0 => d0 <> [] | None => True end) as Ok.
  { intros [z q] Hd [M1 M2] Q X. apply Done_inv in X as [X <-]. injection X as <- <-. rewrite Hd in A. exists [], c1. split; [exact (conj A (conj B C))|].
    split; [intros [Y|Y]; contradiction|exact Q]. }
  destruct (recv_hard r err d) as [Hd|(Hd & L & E1 & E2 & E3)].
  2: { destruct (Z.leb_spec r 0); [|lia]. rewrite E1, E2, E3 in R. destruct (Z.eqb_spec r 0); [lia|].
    unfold bind, upd, get, ret in R. apply Done_inv in R as [X <-]. rewrite Hd in A. exists [err], c1. split; [exact (conj A (conj B eq_refl))|].
    split; [intros _; discriminate|]. injection X as _ <-. exact I. }
  destruct (Z.leb_spec r 0) as [L|L].
  2: { apply (Ok (HE_SUCCESS, Some d)); auto; [split; discriminate|]. cbn. specialize (Ne L). destruct d; [unfold len in Ne; cbn in Ne; lia|discriminate]. }
  destruct (err =? SSL_ERROR_NONE) eqn:E1; [apply (Ok (HE_SUCCESS, None)); auto; split; discriminate|].
  destruct (err =? APP_DATA_READY) eqn:E2.
  { destruct (IH _ _ _ _ R) as (h2 & c2 & G & T). rewrite Hd in A. exists h2, (c1 ++ c2). split; [exact (goes_trans (conj A (conj B C)) G)|exact T]. }
  destruct ((err =? SSL_ERROR_WANT_READ) || (err =? SSL_ERROR_WANT_WRITE)) eqn:E3; [apply (Ok (HE_SUCCESS, None)); auto; split; discriminate|].
  destruct (Z.eqb_spec r 0) as [Q|Q]; [apply (Ok (HE_ERR_CONNECTION_WAS_CLOSED, None)); auto; split; discriminate|].
  exfalso. revert Hd. cbn [hard_error]. destruct (Z.leb_spec 0 r); [lia|]. apply orb_false_iff in E3 as [E3 E4]. rewrite E1, E2, E3, E4. discriminate.
Qed.
Lemma told_message_loop n : told (message_loop E hk n).
Proof.
  induction n as [|n IH]; cbn [message_loop]; [apply told_fault|]. intros w rc w' R. unfold bind at 1 in R.
  destruct (fetch_message E hk (e_fuel E) w) as [[rc1 m] w1|] eqn:F; [|discriminate R]. destruct (fetch_told F) as (h1 & c1 & G1 & T1 & N1).
  destruct (rc1 =? HE_SUCCESS); cbn [negb] in R; [|apply Done_inv in R as [<- <-]; exists h1, c1; auto].
  match type of R with ?k w1 = _ => assert (told k) as K end.
  { destruct m as [m|]; [|apply told_ret; discriminate]. apply told_chk; [now apply told_process_message|auto]. }
  destruct (K _ _ _ R) as (h2 & c2 & G2 & T2). eexists _, _. split; [exact (goes_trans G1 G2)|].
  intros Bd. destruct (T2 Bd) as [N|I]; [left; intros X; apply app_eq_nil in X; tauto|right; apply in_or_app; auto].
Qed.
Hint Resolve told_message_loop : core.
Lemma told_check_renegotiation : told (check_renegotiation E hk).
Proof.
  unfold check_renegotiation. apply told_bind; [auto|intros pr]. destruct (negb pr); [apply told_ret; discriminate|]. apply told_bind; [auto|intros v].
  apply told_bind; [destruct (_ =? _); tt|intros [rc p]]. destruct (negb _); [|tt].
  intros w rc1 w' R. unfold ask, bind, log, emit, upd, ret in R. apply Done_inv in R as [<- <-]. eexists [_], []. split; [|intros _; left; discriminate].
  split; [|split]; [unfold during; cbn [w_t collect hard_error app]; reflexivity|unfold during; cbn [w_t collect cb_codes app]; reflexivity|reflexivity].
Qed.
Hint Resolve told_check_renegotiation : core.
Lemma told_handle_messages : told (handle_messages E hk).
Proof.
  unfold handle_messages. apply told_chk; [auto|intros _]. apply told_bind; [auto|intros due]. apply told_chk; [destruct due; [auto|apply told_ret; discriminate]|auto].
Qed.
Hint Resolve told_handle_messages : core.
Lemma told_verify_connection : told (verify_connection E hk).
Proof.
  unfold verify_connection. apply told_bind; [auto|intros f]. apply told_bind; [tt|intros _]. apply told_bind; [auto|intros st]. destruct (st =? _); [|auto].
  apply told_wolf; intros r err d; cbv beta iota.
  - intros Hd. destruct (r =? SSL_SUCCESS) eqn:R; cbn [negb]; [tt|]. destruct (negb (err =? SSL_ERROR_WANT_READ) && negb (err =? SSL_ERROR_WANT_WRITE)) eqn:Q; [|tt].
    destruct (err =? ASN_SIG_CONFIRM_E) eqn:Q1; [apply told_ret; discriminate|]. destruct (err =? DOMAIN_NAME_MISMATCH) eqn:Q2; [apply told_ret; discriminate|].
    exfalso. revert Hd. apply andb_true_iff in Q as [Qa Qb]. apply negb_true_iff in Qa, Qb. cbn [hard_error]. rewrite R, Qa, Qb, Q1, Q2. discriminate.
  - intros Hd. cbn [hard_error] in Hd |- *. destruct (r =? SSL_SUCCESS); [now destruct Hd|]. destruct (err =? SSL_ERROR_WANT_READ); [now destruct Hd|].
    destruct (err =? SSL_ERROR_WANT_WRITE); [now destruct Hd|]. destruct (err =? ASN_SIG_CONFIRM_E); [now destruct Hd|]. destruct (err =? DOMAIN_NAME_MISMATCH); [now destruct Hd|].
    split; [reflexivity|]. cbn [negb andb]. intros w rc w' X. unfold bind, upd, ret in X. apply Done_inv in X as [_ <-]. exists [], [].
    unfold during. cbn [w_t]. rewrite !app_nil_r. auto.
Qed.
Hint Resolve told_verify_connection : core.
Lemma told_update_session_incoming s : told (update_session_incoming hk s).
Proof. unfold update_session_incoming. tt. Qed.
Hint Resolve told_update_session_incoming : core.
Lemma told_chk' (m : M Z) (a : M unit) (k : Z -> M Z) : told m -> sure a -> (forall rc, told (k rc)) -> told (let! rc := m in a ;;; if negb (rc =? HE_SUCCESS) then ret rc else k rc).
Proof.
  intros Hm Ha Hk w b w' H. unfold bind in H. destruct (m w) as [rc w1|] eqn:R; [|discriminate H]. destruct (Hm _ _ _ R) as (h1 & c1 & G1 & T).
  destruct (a w1) as [[] w2|] eqn:R2; [|discriminate H]. destruct (Ha _ _ _ R2) as (h2 & c2 & G2). pose proof (goes_trans G1 G2) as G.
  destruct (negb (rc =? HE_SUCCESS)).
  { apply Done_inv in H as [<- <-]. eexists _, _. split; [exact G|]. intros Bd. destruct (T Bd) as [N|I]; [left; intros X; apply app_eq_nil in X; tauto|right; apply in_or_app; auto]. }
  destruct (Hk _ _ _ _ H) as (h3 & c3 & G3 & T3). eexists _, _. split; [exact (goes_trans G G3)|].
  intros Bd. destruct (T3 Bd) as [N|I]; [left; intros X; apply app_eq_nil in X; tauto|right; apply in_or_app; auto].
Qed.
Lemma told_outside_packet p : told (outside_packet_received E hk p).
Proof.
  unfold outside_packet_received. repeat lazymatch goal with |- told (let! rc := verify_connection _ _ in _) => apply told_chk'; [auto|apply sure_upd; reflexivity|auto] | _ => t1 end.
Qed.
Lemma told_stream_read (b : bytes) : told (
  upd (fun c => set_rx (Rx (Some b) (rx_seen (c_rx c)) (len b) (Some b) true) c) ;;;
  let! rc := verify_connection E hk in
  upd (fun c => set_rx (set_rx_live false (c_rx c)) c) ;;;
  ret rc).
Proof. tt. Qed.
Hint Resolve told_outside_packet told_stream_read : core.

(** *** The calls *)
Lemma told_outside b w rc w' : outside_data_received E hk b w = Done rc w' ->
  ~ (c_ctype (w_c w) = HE_CONNECTION_TYPE_STREAM /\ rx_left (c_rx (w_c w)) <> 0) ->
  exists hs cs, goes w w' hs cs /\ (bad rc -> hs <> [] \/ In rc cs).
Proof.
  intros R N. unfold outside_data_received in R. unfold bind at 1, get at 1 in R.
  destruct (_ || _); [apply Done_inv in R as [<- <-]; exists [], []; split; [now apply goes_same|intros [X|X]; discriminate X]|].
  unfold bind at 1 in R. destruct (ingress_pass E (c_out_chain (w_c w)) b (len b) w) as (r & out & l & I & _ & _). pose proof (plain_ingress I) as Ml.
  rewrite I in R. destruct (sure_plugin_ingress I) as (h1 & c1 & G1). set (w1 := plugs _ _ _) in *. assert (w_c w1 = w_c w) as Wc by reflexivity. clearbody w1.
  assert (forall k : M Z, k w1 = Done rc w' -> told k -> exists hs cs, goes w w' hs cs /\ (bad rc -> hs <> [] \/ In rc cs)) as K.
  { intros k Hk T. destruct (T _ _ _ Hk) as (h2 & c2 & G2 & T2). eexists _, _. split; [exact (goes_trans G1 G2)|].
    intros Bd. destruct (T2 Bd) as [Nn|In1]; [left; intros X; apply app_eq_nil in X; tauto|right; apply in_or_app; auto]. }
  destruct (r =? HE_ERR_PLUGIN_DROP); [apply (K _ R); apply told_ret; discriminate|].
  destruct (r =? HE_SUCCESS); cbn [negb] in R; [|apply (K _ R); now apply told_mild].
  destruct (_ <? _); [apply (K _ R); apply told_ret; discriminate|]. unfold bind at 1, get at 1 in R.
  destruct (_ =? HE_CONNECTION_TYPE_DATAGRAM); [apply (K _ R); auto|].
  destruct (Z.eqb_spec (c_ctype (w_c w1)) HE_CONNECTION_TYPE_STREAM) as [Q|Q]; [|apply (K _ R); apply told_ret; discriminate].
  rewrite Wc in Q. unfold outside_stream_received in R. unfold bind at 1, get at 1 in R. rewrite Wc in R.
  destruct (Z.eqb_spec (rx_left (c_rx (w_c w))) 0) as [Z0|Z0]; cbn [negb] in R; [|exfalso; now apply N].
  apply (K _ R). auto.
Qed.
Lemma told_inside p : told (inside_packet_received E hk p).
Proof. unfold inside_packet_received. tt; apply told_mild; eapply clamp_mild; eassumption. Qed.
Lemma told_rotate : told (rotate_session_id E).
Proof.
  unfold rotate_session_id, generate_session_id. apply told_bind; [auto|intros c]. destruct (_ || _); [apply told_ret; discriminate|].
  intros w rc w' R. unfold ask, bind, log, emit, ret, upd in R. cbv beta iota in R.
  match type of R with context[negb ?z] => destruct z end; cbn in R; apply Done_inv in R as [<- <-].
  all: eexists [], []; split; [|intros [X|X]; discriminate X]; split; [|split]; unfold during; cbn [w_t collect hard_error cb_codes app]; now rewrite ?app_nil_r.
Qed.
Lemma told_body o : connecting o = false -> (forall b, o <> OOutside b) -> told (api_body E hk o).
Proof.
  intros Hc Ho. destruct o; try discriminate Hc; cbn [api_body].
  - unfold disconnect. tt.
  - apply told_inside.
  - exfalso. eapply Ho. reflexivity.
  - unfold nudge. tt.
  - unfold send_keepalive. tt.
  - unfold send_server_config. tt.
  - tt.
  - unfold start_pmtu_discovery. tt.
  - auto.
  - apply told_rotate.
  - unfold set_session_id. tt.
  - unfold set_username_api. tt; apply told_mild; eapply set_string_mild; eassumption.
  - unfold set_password_api. tt; apply told_mild; eapply set_string_mild; eassumption.
  - unfold set_auth_token. tt.
  - unfold set_auth_buffer. tt.
  - unfold set_outside_mtu. tt.
  - tt.
  - unfold set_sni_hostname. tt.
Qed.
End S.

(** *** Connecting *)
Section Connect.
Variable E : env.
Notation hk := (@ret unit tt).
Notation er w := (c_wolf_err (w_c w)).
(** What precedes the handshake: nothing hard happens and nothing is stored. *)
Definition calm {A} (m : M A) : Prop := forall w a w', m w = Done a w' -> (exists cs, goes w w' [] cs) /\ c_is_server (w_c w') = c_is_server (w_c w).
Lemma calm_bind A B (m : M A) (k : A -> M B) : calm m -> (forall a, calm (k a)) -> calm (bind m k).
Proof.
  intros Hm Hk w b w' H. unfold bind in H. destruct (m w) as [a w1|] eqn:R; [|discriminate H].
  destruct (Hm _ _ _ R) as ((c1 & G1) & S1). destruct (Hk _ _ _ _ H) as ((c2 & G2) & S2). split; [eexists; exact (goes_trans G1 G2)|now rewrite S2].
Qed.
Lemma calm_ret A (a : A) : calm (ret a).
Proof. intros w b w' H. apply Done_inv in H as [_ <-]. split; [exists []; now apply goes_same|reflexivity]. Qed.
Lemma calm_get A (f : conn -> A) : calm (get f).
Proof. intros w b w' H. apply Done_inv in H as [_ <-]. split; [exists []; now apply goes_same|reflexivity]. Qed.
Lemma calm_upd f : (forall c, c_wolf_err (f c) = c_wolf_err c /\ c_is_server (f c) = c_is_server c) -> calm (upd f).
Proof. intros F w b w' H. apply Done_inv in H as [_ <-]. split; [exists []; apply goes_same; [reflexivity|apply F]|apply F]. Qed.
Lemma calm_ask q : q <> QError -> calm (ask E q).
Proof.
  intros Q w b w' H. unfold ask, bind, log, emit, ret in H. apply Done_inv in H as [_ <-]. split; [|reflexivity]. eexists. apply (@goes_emit (EAsk q (e_ask E (w_t w) q)) w).
  destruct q; auto. now destruct Q.
Qed.
Lemma calm_ask_version : calm (ask_version E).
Proof. intros w a w' H. eapply calm_ask; [|exact (version_done H)]. discriminate. Qed.
Lemma calm_when (b : bool) (m : M unit) : calm m -> calm (when b m).
Proof. destruct b; [auto|]. intros _. apply calm_ret. Qed.
Lemma calm_notify e : hard_error 0 e = [] -> calm (notify hk e).
Proof. intros F w b w' H. unfold notify, bind, emit, ret in H. apply Done_inv in H as [_ <-]. split; [|reflexivity]. eexists. now apply (@goes_emit e w). Qed.
Ltac c1 :=
  match goal with
  | |- calm (bind _ _) => apply calm_bind; [|intro]
  | |- calm (ret _) => apply calm_ret
  | |- calm (get _) => apply calm_get
  | |- calm (upd _) => apply calm_upd; intros; split; reflexivity
  | |- calm (when _ _) => apply calm_when
  | |- calm (ask_version _) => apply calm_ask_version
  | |- calm (ask _ _) => apply calm_ask; discriminate
  | |- calm (notify _ _) => apply calm_notify; reflexivity
  | |- calm (if ?b then _ else _) => destruct b
  | |- calm (match ?x with _ => _ end) => destruct x
  end.
Ltac cc := intros; cbv zeta; repeat c1.
Lemma calm_set_conn_state s : calm (set_conn_state hk s).
Proof. unfold set_conn_state. cc. Qed.
Lemma calm_connecting : calm (change_conn_state E hk HE_STATE_CONNECTING).
Proof. unfold change_conn_state. apply calm_bind; [apply calm_set_conn_state|intros b]. change (HE_STATE_CONNECTING =? HE_STATE_LINK_UP) with false. rewrite andb_false_r. apply calm_ret. Qed.
Lemma calm_configure x i p : calm (configure E x i p).
Proof. unfold configure. apply calm_bind; [apply calm_upd; intros c; unfold configure_fields; destruct (_ =? _); split; reflexivity|]. cc. Qed.
Lemma calm_wolf_settings x : calm (wolf_settings E x).
Proof. unfold wolf_settings. cc. Qed.
Lemma calm_wolf_settings2 x : calm (wolf_settings2 E x).
Proof. unfold wolf_settings2. cc. Qed.
Lemma calm_update_timeout : calm (update_timeout E hk).
Proof. unfold update_timeout. cc. Qed.
Lemma calm_session : calm (generate_session_id E).
Proof. unfold generate_session_id. cc. Qed.
Lemma configure_mild x i p w rc w' : configure E x i p w = Done rc w' -> mild rc /\ rc <> HE_ERR_CONNECT_FAILED.
Proof.
  unfold configure. rewrite upd_first. set (w0 := with_c _ w). clearbody w0. unfold ask, bind, log, emit, ret, upd. intros H. apply Done_inv in H as [<- _].
  destruct (table_create _ _ _); repeat split; discriminate.
Qed.
Lemma settings_mild x w rc w' : wolf_settings E x w = Done rc w' -> rc <> HE_ERR_SSL_ERROR_NONFATAL /\ rc <> HE_ERR_CONNECT_FAILED /\
  (rc = HE_ERR_SSL_ERROR -> c_is_server (w_c w) = false /\ exists s n past, w_t w' = (s, EAsk (QUseSni n) BAD_FUNC_ARG) :: past).
Proof.
  unfold wolf_settings. unfold bind at 1, get at 1. destruct (_ =? HE_CONNECTION_TYPE_DATAGRAM).
  - unfold bind at 1. rewrite ask_eq. destruct (negb _); [intros H; apply Done_inv in H as [<- _]; repeat split; discriminate|].
    destruct (c_is_server _); [|intros H; apply Done_inv in H as [<- _]; repeat split; discriminate].
    unfold bind at 1. rewrite ask_eq. destruct (negb _); intros H; apply Done_inv in H as [<- _]; repeat split; discriminate.
  - destruct (c_is_server (w_c w)); cbn [negb andb]; [intros H; apply Done_inv in H as [<- _]; repeat split; discriminate|].
    destruct (negb _); [|intros H; apply Done_inv in H as [<- _]; repeat split; discriminate].
    unfold bind at 1. rewrite ask_eq. set (r := e_ask E _ _). destruct (negb _); [|intros H; apply Done_inv in H as [<- _]; repeat split; discriminate].
    destruct (r =? MEMORY_E); [intros H; apply Done_inv in H as [<- _]; repeat split; discriminate|].
    destruct (Z.eqb_spec r BAD_FUNC_ARG) as [Q|Q]; intros H; apply Done_inv in H as [<- <-]; [|repeat split; discriminate].
    split; [discriminate|]. split; [discriminate|]. intros _. split; [reflexivity|]. rewrite Q. cbn [push w_t]. eauto.
Qed.
Lemma settings2_mild x w rc w' : wolf_settings2 E x w = Done rc w' -> mild rc /\ rc <> HE_ERR_CONNECT_FAILED.
Proof.
  unfold wolf_settings2. unfold bind at 1. match goal with |- (match ?m with _ => _ end) = _ -> _ => destruct m as [dn w1|]; [|discriminate] end.
  destruct (negb _); [intros H; apply Done_inv in H as [<- _]; repeat split; discriminate|]. unfold bind at 1, get at 1. unfold bind at 1.
  match goal with |- (match ?m with _ => _ end) = _ -> _ => destruct m as [ks w2|]; [|discriminate] end. destruct (negb _); intros H; apply Done_inv in H as [<- _]; repeat split; discriminate.
Qed.
(** What a connect does to the stored error. *)
Definition verdict (w : world) (rc : Z) (w' : world) : Prop :=
  (rc <> HE_ERR_CONNECT_FAILED -> exists hs cs, goes w w' hs cs) /\
  (rc = HE_ERR_CONNECT_FAILED -> er w' = er w) /\
  rc <> HE_ERR_SSL_ERROR_NONFATAL /\
  (rc = HE_ERR_SSL_ERROR -> er w' = er w /\ c_is_server (w_c w) = false /\ exists s n past, w_t w' = (s, EAsk (QUseSni n) BAD_FUNC_ARG) :: past).
Lemma calm_verdict A (m : M A) (k : A -> M Z) w rc w' : calm m ->
  bind m k w = Done rc w' -> (forall a w1, m w = Done a w1 -> k a w1 = Done rc w' -> verdict w1 rc w') -> verdict w rc w'.
Proof.
  intros C R K. unfold bind in R. destruct (m w) as [a w1|] eqn:M1; [|discriminate R]. destruct (C _ _ _ M1) as ((c1 & G1) & Sv). destruct (K a w1 eq_refl R) as (V1 & V2 & V3 & V4).
  assert (er w1 = er w) as Er by (destruct G1 as (_ & _ & X); exact X).
  split; [intros N; destruct (V1 N) as (hs & cs & G); exists ([] ++ hs), (c1 ++ cs); exact (goes_trans G1 G)|]. split; [intros N; rewrite <- Er; auto|]. split; [auto|]. intros N. destruct (V4 N) as (A1 & A2 & A3). split; [now rewrite <- Er|]. rewrite Sv in A2. auto.
Qed.
Lemma verdict_mild w rc : mild rc -> rc <> HE_ERR_CONNECT_FAILED -> verdict w rc w.
Proof. intros [A B] C. split; [intros _; exists [], []; now apply goes_same|]. split; [intros X; contradiction|]. split; [exact B|]. intros X. contradiction. Qed.
Lemma negotiate_verdict w rc w' :
  (let! (r, err, _) := wolf_op E hk WNegotiate in
   if negb (r =? SSL_SUCCESS) then
    if (err =? SSL_ERROR_WANT_READ) || (err =? SSL_ERROR_WANT_WRITE) then
      change_conn_state E hk HE_STATE_CONNECTING ;;; update_timeout E hk ;;; ret HE_SUCCESS
    else ret HE_ERR_CONNECT_FAILED
   else change_conn_state E hk HE_STATE_LINK_UP ;;; update_timeout E hk ;;; ret HE_SUCCESS) w = Done rc w' -> verdict w rc w'.
Proof.
  unfold bind at 1. destruct (wolf_op E hk WNegotiate w) as [[[r err] d] w1|] eqn:W; [|discriminate]. destruct (wolf_hard W) as (c1 & A & B & C). cbn [hard_error] in A.
  assert (forall m : M unit, sure m -> (m ;;; update_timeout E hk ;;; ret HE_SUCCESS) w1 = Done rc w' -> goes w w1 [] c1 -> verdict w rc w') as K.
  { intros m Sm R G. unfold bind in R. destruct (m w1) as [[] w2|] eqn:R1; [|discriminate R]. destruct (update_timeout E hk w2) as [[] w3|] eqn:R2; [|discriminate R].
    apply Done_inv in R as [<- <-]. destruct (Sm _ _ _ R1) as (h2 & c2 & G2). destruct (sure_update_timeout R2) as (h3 & c3 & G3).
    split; [intros _; eexists _, _; exact (goes_trans G (goes_trans G2 G3))|]. repeat split; intros; discriminate. }
  destruct (r =? SSL_SUCCESS) eqn:R; cbn [negb orb] in *.
  - intros H. apply (K _ (@sure_change_conn_state E HE_STATE_LINK_UP) H). exact (conj A (conj B C)).
  - destruct ((err =? SSL_ERROR_WANT_READ) || (err =? SSL_ERROR_WANT_WRITE)) eqn:Q; cbn [orb] in A.
    + intros H. apply (K _ (@sure_change_conn_state E HE_STATE_CONNECTING) H). exact (conj A (conj B C)).
    + intros H. apply Done_inv in H as [<- <-]. split; [intros X; now destruct X|]. split; [intros _; exact C|]. split; intros; discriminate.
Qed.
Lemma internal_verdict x i p w rc w' : internal_connect E hk x i p w = Done rc w' -> verdict w rc w'.
Proof.
  unfold internal_connect. intros R. apply (calm_verdict (@calm_configure x i p) R). clear R. intros r w1 Cf R. apply configure_mild in Cf as [M1 M2].
  destruct (negb _); [apply Done_inv in R as [<- <-]; now apply verdict_mild|].
  apply (calm_verdict (@calm_ask QWolfNew ltac:(discriminate)) R). clear R. intros q v1 _ R. cbv zeta in R.
  match type of R with bind ?m _ _ = _ => assert (calm m) as Cm by (apply calm_upd; split; reflexivity) end. apply (calm_verdict Cm R). clear R Cm. intros [] v2 _ R.
  destruct (negb _); [apply Done_inv in R as [<- <-]; apply verdict_mild; repeat split; discriminate|].
  unfold bind at 1 in R. destruct (wolf_settings E x v2) as [rs u2|] eqn:Ws; [|discriminate R]. destruct (settings_mild Ws) as (S1 & S2 & S3). destruct (calm_wolf_settings Ws) as ((cs & G) & _).
  destruct (negb _).
  { apply Done_inv in R as [<- <-]. split; [intros _; exists [], cs; exact G|]. split; [intros X; contradiction|]. split; [exact S1|]. intros X. destruct (S3 X) as [Y1 Y2].
    destruct G as (_ & _ & Ge). split; [exact Ge|]. auto. }
  assert (calm (wolf_settings E x)) as Cw by apply calm_wolf_settings.
  assert (forall k : M Z, k u2 = Done rc w' -> verdict u2 rc w' -> verdict v2 rc w') as Kk.
  { intros k Hk V. apply (calm_verdict (m := wolf_settings E x) (k := fun _ => k) (w := v2) (rc := rc) (w' := w') Cw); [unfold bind; now rewrite Ws|]. intros a w3 H3 _. rewrite Ws in H3. apply Done_inv in H3 as [_ <-]. exact V. }
  apply (Kk _ R). clear Kk G S1 S2 S3 Ws Cw.
  match type of R with bind ?m _ _ = _ => assert (calm m) as Cm by (apply calm_upd; split; reflexivity) end. apply (calm_verdict Cm R). clear R Cm. intros [] u3 _ R.
  apply (calm_verdict (@calm_wolf_settings2 x) R). clear R. intros r2 u4 S2 R. apply settings2_mild in S2 as [N1 N2].
  destruct (negb _); [apply Done_inv in R as [<- <-]; now apply verdict_mild|].
  apply (calm_verdict calm_connecting R). clear R. intros [] u5 _ R. now apply negotiate_verdict in R.
Qed.
Lemma client_verdict x i p w rc w' : client_connect E hk x i p w = Done rc w' -> verdict (World (set_is_server false (w_c w)) (w_t w)) rc w' \/ (mild rc /\ rc <> HE_ERR_CONNECT_FAILED /\ w' = w).
Proof.
  unfold client_connect. unfold bind at 1, get at 1. unfold bind at 1, lift at 1. destruct (is_valid_client x (w_c w)) as [rc1|] eqn:V; [|discriminate]. unfold ret at 1.
  assert (mild rc1 /\ rc1 <> HE_ERR_CONNECT_FAILED) as [M1 M2].
  { revert V. unfold is_valid_client. destruct (config_is_empty _); [|discriminate]. cbn [rbind]. destruct (config_is_empty _); [|discriminate]. cbn [rbind]. intros [= <-].
    repeat match goal with |- context[if ?b then _ else _] => destruct b end; repeat split; discriminate. }
  destruct (negb _); [intros H; apply Done_inv in H as [<- <-]; right; auto|].
  rewrite upd_first. intros H. left. now apply internal_verdict in H.
Qed.
Lemma server_verdict x i p w rc w' : server_connect E hk x i p w = Done rc w' -> verdict (World (set_is_server true (w_c w)) (w_t w)) rc w' \/ (mild rc /\ rc <> HE_ERR_CONNECT_FAILED /\ w' = w).
Proof.
  unfold server_connect. unfold bind at 1, get at 1. cbv zeta.
  assert (mild (is_valid_server x (w_c w)) /\ is_valid_server x (w_c w) <> HE_ERR_CONNECT_FAILED) as [M1 M2].
  { unfold is_valid_server. repeat match goal with |- context[if ?b then _ else _] => destruct b end; repeat split; discriminate. }
  destruct (negb _); [intros H; apply Done_inv in H as [<- <-]; right; auto|].
  rewrite upd_first. fold (with_c (set_is_server true) w). set (w1 := with_c _ w). clearbody w1. intros R. left.
  unfold bind at 1 in R. destruct (internal_connect E hk x i p w1) as [rc2 w2|] eqn:IC; [|discriminate R]. pose proof (internal_verdict IC) as V.
  destruct (Z.eqb_spec rc2 HE_SUCCESS) as [Q|Q]; cbn [negb] in R; [|apply Done_inv in R as [<- <-]; exact V].
  destruct V as (V1 & _). rewrite Q in V1. destruct V1 as (h1 & c1 & G1); [discriminate|].
  unfold bind at 1 in R. destruct (generate_session_id E w2) as [[r3 s3] w3|] eqn:Gs; [|discriminate R]. destruct (calm_session Gs) as ((c3 & G3) & _).
  assert (mild r3 /\ r3 <> HE_ERR_CONNECT_FAILED) as [N1 N2].
  { revert Gs. unfold generate_session_id, ask, bind, log, emit, ret. cbv beta iota. match goal with |- context[negb ?z] => destruct z end; cbn [negb]; intros H; apply Done_inv in H as [H _]; injection H as <- _; repeat split; discriminate. }
  destruct (negb _).
  - apply Done_inv in R as [<- <-]. split; [intros _; eexists _, _; exact (goes_trans G1 G3)|]. split; [intros X; contradiction|]. destruct N1 as [X1 X2]. split; [exact X2|intros X; contradiction].
  - unfold bind, upd, ret in R. apply Done_inv in R as [<- <-]. split; [|repeat split; intros; discriminate]. intros _. eexists _, _. refine (goes_trans (goes_trans G1 G3) _). now apply goes_same.
Qed.
End Connect.

(** *** The calls as the host sees them *)
Lemma goes_call o w rc w1 hs cs : goes (push (ECall o) w) w1 hs cs ->
  during hard_error w (push (ERet o rc) w1) hs /\ during cb_codes w (push (ERet o rc) w1) cs /\
  get_ssl_error (push (ERet o rc) w1) = latest (get_ssl_error w) hs.
Proof.
  intros (A & B & C). split; [apply during_call; auto|]. split; [apply during_call; auto|]. exact C.
Qed.
Lemma call_told E o w rc w' : call E o w rc w' -> connecting o = false -> ~ unread_stream o (w_c w) ->
  exists hs cs, during hard_error w w' hs /\ during cb_codes w w' cs /\ get_ssl_error w' = latest (get_ssl_error w) hs /\
  (bad rc -> hs <> [] \/ In rc cs).
Proof.
  intros Cl Hc Hu. destruct (call_body Cl) as (w1 & Bd & ->).
  assert (exists hs cs, goes (push (ECall o) w) w1 hs cs /\ (bad rc -> hs <> [] \/ In rc cs)) as (hs & cs & G & T).
  { destruct (match o with OOutside _ => true | _ => false end) eqn:Oo.
    - destruct o; try discriminate Oo. cbn [api_body] in Bd. eapply told_outside; [exact Bd|]. intros [X Y]. apply Hu. split; [eauto|]. auto.
    - refine (told_body (E := E) Hc _ Bd). intros b ->. discriminate Oo. }
  exists hs, cs. destruct (@goes_call o w rc w1 hs cs G) as (A & B & C). auto.
Qed.

(** ** What he_conn_get_ssl_error returns *)
(** After any call but a connect, it is the last error of wolfSSL during the call
    that no return code stands for; if there was none, it is what it was. *)
Theorem C46_value : forall E o w rc w', call E o w rc w' -> connecting o = false -> ~ unread_stream o (w_c w) ->
  exists hs, during hard_error w w' hs /\ get_ssl_error w' = latest (get_ssl_error w) hs.
Proof. intros E o w rc w' Cl Hc Hu. destruct (call_told Cl Hc Hu) as (hs & cs & A & _ & C & _). eauto. Qed.
Print Assumptions C46_value.
(** When a call other than a connect returns one of the two codes for an error of
    TLS, there was such an error, so its detail is what he_conn_get_ssl_error now
    returns - unless that code is what a callback of the host returned. *)
Theorem C46_explained : forall E o w rc w', call E o w rc w' -> connecting o = false -> ~ unread_stream o (w_c w) ->
  rc = HE_ERR_SSL_ERROR \/ rc = HE_ERR_SSL_ERROR_NONFATAL ->
  (exists hs err, during hard_error w w' (hs ++ [err]) /\ get_ssl_error w' = err) \/
  (exists cs, during cb_codes w w' cs /\ In rc cs).
Proof.
  intros E o w rc w' Cl Hc Hu Bd. destruct (call_told Cl Hc Hu) as (hs & cs & A & B & C & T). destruct (T Bd) as [N|I]; [left|right; eauto].
  destruct (exists_last N) as (h & e & ->). exists h, e. split; [exact A|]. rewrite C. unfold latest. now rewrite last_last.
Qed.
Print Assumptions C46_explained.
(** Data that arrives on a stream whose previous data is not used up: 0 stands for "no detail". *)
Theorem C46_unread : forall E o w rc w', call E o w rc w' -> unread_stream o (w_c w) ->
  rc <> HE_ERR_SSL_ERROR_NONFATAL /\ get_ssl_error w' = (if rc =? HE_ERR_SSL_ERROR then 0 else get_ssl_error w).
Proof.
  intros E o w rc w' Cl ((b & ->) & St & Un). destruct (call_body Cl) as (w1 & Bd & ->). cbn [api_body] in Bd. unfold outside_data_received in Bd.
  unfold bind at 1, get at 1 in Bd. destruct (_ || _); [apply Done_inv in Bd as [<- <-]; split; [discriminate|reflexivity]|].
  unfold bind at 1 in Bd. match type of Bd with context[plugin_ingress E ?ch ?d ?n ?w0] => destruct (ingress_pass E ch d n w0) as (r & out & l & I & _ & _) end. pose proof (plain_ingress I) as [Ml1 Ml2].
  rewrite I in Bd. set (w2 := plugs _ _ _) in *. assert (w_c w2 = w_c w) as Wc by reflexivity. clearbody w2.
  assert (forall c, c <> HE_ERR_SSL_ERROR -> c <> HE_ERR_SSL_ERROR_NONFATAL -> Done c w2 = Done rc w1 -> rc <> HE_ERR_SSL_ERROR_NONFATAL /\ get_ssl_error (push (ERet (OOutside b) rc) w1) = (if rc =? HE_ERR_SSL_ERROR then 0 else get_ssl_error w)) as K.
  { intros c N1 N2 X. apply Done_inv in X as [<- <-]. split; [exact N2|]. destruct (Z.eqb_spec c HE_ERR_SSL_ERROR); [contradiction|]. unfold get_ssl_error. cbn [push w_c]. now rewrite Wc. }
  destruct (r =? HE_ERR_PLUGIN_DROP); [apply (K HE_SUCCESS ltac:(discriminate) ltac:(discriminate) Bd)|].
  destruct (r =? HE_SUCCESS); cbn [negb] in Bd; [|apply (K _ Ml1 Ml2 Bd)].
  destruct (_ <? _); [apply (K HE_ERR_FAILED ltac:(discriminate) ltac:(discriminate) Bd)|]. unfold bind at 1, get at 1 in Bd. rewrite Wc, St in Bd.
  change (HE_CONNECTION_TYPE_STREAM =? HE_CONNECTION_TYPE_DATAGRAM) with false in Bd. change (HE_CONNECTION_TYPE_STREAM =? HE_CONNECTION_TYPE_STREAM) with true in Bd. cbv iota in Bd.
  unfold outside_stream_received in Bd. unfold bind at 1, get at 1 in Bd.
  destruct (Z.eqb_spec (rx_left (c_rx (w_c w2))) 0) as [Z0|Z0]; cbn [negb] in Bd; [rewrite Wc in Z0; contradiction|]. unfold bind, upd, ret in Bd. apply Done_inv in Bd as [<- <-]. split; [discriminate|reflexivity].
Qed.
Print Assumptions C46_unread.
(** A connect.  A handshake that fails at once (HE_ERR_CONNECT_FAILED) is not
    recorded; otherwise the rule is the same.  The only way to HE_ERR_SSL_ERROR is
    that wolfSSL refuses the server name of a client, and the detail is then not
    recorded either. *)
Theorem C46_connect : forall E o w rc w', call E o w rc w' -> connecting o = true ->
  (rc <> HE_ERR_CONNECT_FAILED -> exists hs, during hard_error w w' hs /\ get_ssl_error w' = latest (get_ssl_error w) hs) /\
  (rc = HE_ERR_CONNECT_FAILED -> get_ssl_error w' = get_ssl_error w) /\
  rc <> HE_ERR_SSL_ERROR_NONFATAL /\
  (rc = HE_ERR_SSL_ERROR -> get_ssl_error w' = get_ssl_error w /\ (exists x i p, o = OClientConnect x i p) /\
     exists s s' name past, w_t w' = (s, ERet o rc) :: (s', EAsk (QUseSni name) BAD_FUNC_ARG) :: past).
Proof.
  intros E o w rc w' Cl Hc. destruct (call_body Cl) as (w1 & Bd & ->).
  assert (exists b, (verdict (World (set_is_server b (w_c w)) ((c_state (w_c w), ECall o) :: w_t w)) rc w1 \/ (mild rc /\ rc <> HE_ERR_CONNECT_FAILED /\ w1 = push (ECall o) w)) /\ (b = false -> exists x i p, o = OClientConnect x i p)) as (b & V & Cli).
  { destruct o; try discriminate Hc; cbn [api_body] in Bd.
    - exists false. split; [exact (client_verdict Bd)|eauto].
    - exists true. split; [exact (server_verdict Bd)|discriminate]. }
  destruct V as [(V1 & V2 & V3 & V4)|([M1 M2] & M3 & ->)].
  - split; [|split; [|split]].
    + intros N. destruct (V1 N) as (hs & cs & G). destruct (@goes_call o w rc w1 hs cs G) as (A & _ & C). eauto.
    + intros N. exact (V2 N).
    + exact V3.
    + intros N. destruct (V4 N) as (Er & Sv & s & n & past & Tr). split; [exact Er|]. split; [exact (Cli Sv)|]. cbn [push w_t]. rewrite Tr. eauto 6.
  - split; [|split; [|split]]; try contradiction.
    + intros _. exists []. split; [|reflexivity]. apply during_call; auto. unfold during. now rewrite app_nil_r.
    + exact M2.
Qed.
Print Assumptions C46_connect.

(** ** Refuted: after HE_ERR_SSL_ERROR the detail is that of this error, or 0 *)
(** A write fails with wolfSSL's error -308; the connection is made again as a
    stream with a server name, which wolfSSL refuses.  The detail is still -308. *)
Definition sni_env : env :=
  Env true 50 (fun t q => match q with QUseSni _ => BAD_FUNC_ARG | _ => plain_ask t q end) plain_cb (fun _ => (ip 1, ip 2, ip 3)) (fun _ => (HE_PLUGIN_SUCCESS, []))
    (fun t => match t with (_, EWOp (WSend m)) :: _ => if nth 0 m 0 =? HE_MSGID_DATA then WRet (-1) (-308) [] else plain_wolf t | _ => plain_wolf t end) (fun _ => HDone).
Definition sni_ops : list op := client_up ++ [OSetSni [97]; OInside ipv4].
Theorem C46_sni_refuted : exists E w x w', reached E w /\ get_ssl_error w = -308 /\
  call E (OClientConnect x [] []) w HE_ERR_SSL_ERROR w' /\ during hard_error w w' [] /\ get_ssl_error w' = -308.
Proof.
  exists sni_env, (world_of (run sni_env 0 sni_ops world_new)), sctx, (world_of (run sni_env 0 (sni_ops ++ [OClientConnect sctx [] []]) world_new)).
  split; [exists sni_ops; vm_compute; reflexivity|]. conj; vm_compute; reflexivity.
Qed.
Print Assumptions C46_sni_refuted.
(** ** Examples *)
(** Sending fails: the detail is recorded. *)
Example C46_example_send :
  let ops := client_up ++ [OSetSni [97]] in
  let w := world_of (run sni_env 0 ops world_new) in let w' := world_of (run sni_env 0 (ops ++ [OInside ipv4]) world_new) in
  reached sni_env w /\ call sni_env (OInside ipv4) w HE_ERR_SSL_ERROR w' /\ ~ unread_stream (OInside ipv4) (w_c w) /\
  get_ssl_error w = 0 /\ during hard_error w w' [-308] /\ get_ssl_error w' = -308.
Proof.
  cbv zeta. split; [exists (client_up ++ [OSetSni [97]]); vm_compute; reflexivity|]. split; [vm_compute; reflexivity|]. split; [intros ((b & X) & _); discriminate X|].
  conj; vm_compute; reflexivity.
Qed.
(** A stream gets data although wolfSSL did not read the previous data. *)
Definition lazy_env : env :=
  Env true 50 plain_ask plain_cb (fun _ => (ip 1, ip 2, ip 3)) (fun _ => (HE_PLUGIN_SUCCESS, []))
    (fun t => match t with (_, EWOp WNegotiate) :: _ => WRet (-1) SSL_ERROR_WANT_READ [] | _ => plain_wolf t end) (fun _ => HDone).
Example C46_example_unread :
  let ops := client_setup ++ [OClientConnect sctx [] []; OOutside [1; 2; 3]] in
  let w := world_of (run lazy_env 0 ops world_new) in let w' := world_of (run lazy_env 0 (ops ++ [OOutside [4]]) world_new) in
  reached lazy_env w /\ unread_stream (OOutside [4]) (w_c w) /\ call lazy_env (OOutside [4]) w HE_ERR_SSL_ERROR w' /\ get_ssl_error w' = 0.
Proof.
  cbv zeta. split; [exists (client_setup ++ [OClientConnect sctx [] []; OOutside [1; 2; 3]]); vm_compute; reflexivity|].
  split; [split; [eexists; reflexivity|split; [vm_compute; reflexivity|vm_compute; discriminate]]|]. conj; vm_compute; reflexivity.
Qed.
(** A handshake that fails at once leaves no detail; one that fails later does. *)
Definition failing_env : env :=
  Env true 50 plain_ask plain_cb (fun _ => (ip 1, ip 2, ip 3)) (fun _ => (HE_PLUGIN_SUCCESS, []))
    (fun t => match t with (_, EWOp WNegotiate) :: p => if has is_neg p then WRet (-1) (-313) [] else WRet (-1) SSL_ERROR_WANT_READ [] | _ => plain_wolf t end) (fun _ => HDone).
Example C46_example_handshake :
  let ops := client_setup ++ [OClientConnect dctx [] []] in let o := OOutside (dgram 0 []) in let o2 := OClientConnect dctx [] [] in
  let w := world_of (run failing_env 0 ops world_new) in let w1 := world_of (run failing_env 0 (ops ++ [o]) world_new) in
  let w2 := world_of (run failing_env 0 (ops ++ [o2]) world_new) in
  reached failing_env w /\ call failing_env o w HE_ERR_SSL_ERROR w1 /\ during hard_error w w1 [-313] /\ get_ssl_error w1 = -313 /\
  call failing_env o2 w HE_ERR_CONNECT_FAILED w2 /\ during hard_error w w2 [-313] /\ get_ssl_error w2 = 0.
Proof.
  cbv zeta. split; [exists (client_setup ++ [OClientConnect dctx [] []]); vm_compute; reflexivity|]. conj; vm_compute; reflexivity.
Qed.
