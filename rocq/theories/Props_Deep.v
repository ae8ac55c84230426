(** C50: what the host has set, for a host that also makes calls inside callbacks. *)
From Verif Require Import Base Codes Ctx Config Mss Frag Wire WireSpec WireProofs ConnState Conn ConnSpec HistSpec MsgSpec CallSpec.
From Verif Require Import ConnSteps ConnWp ConnWpApi Frame FrameLoop Scenario Reaction Seq SeqApi FragSpec TimerSpec TimerProofs Props_Data Props_Timer Props_Tls SetProofs CredSpec Props_Set QuerySpec Props_Query DeepSpec.
Unset Strict Implicit.

Definition mine (c : conn) := (c_password c, c_auth_type c, (c_auth_buf c, c_auth_len c), c_mtu c).
Definition agrees (c : conn) (x : chosen) : Prop :=
  (password c = by_password x /\ c_auth_type c = by_method x /\ auth_data c = by_data x /\ c_mtu c = by_mtu x) /\
  len (c_password c) = 51 /\ len (c_auth_buf c) = 1350.
Lemma mine_split c c' : mine c = mine c' ->
  c_password c = c_password c' /\ c_auth_type c = c_auth_type c' /\ c_auth_buf c = c_auth_buf c' /\ c_auth_len c = c_auth_len c' /\ c_mtu c = c_mtu c'.
Proof. unfold mine. intros H. apply pair_equal_spec in H as [H M]. apply pair_equal_spec in H as [H B]. apply pair_equal_spec in H as [H N]. apply pair_equal_spec in B as [B L]. auto 10. Qed.
Definition D (w : world) : Prop := agrees (w_c w) (chosen_all (w_t w)).
Definition not_set (e : ev) : Prop := match e with ERet o _ | ENestRet o _ => is_setter o = false | _ => True end.
Lemma set_other o rc x : is_setter o = false -> set_by o rc x = x.
Proof. destruct o; try reflexivity; discriminate. Qed.
Lemma D_push e w : not_set e -> D w -> D (push e w).
Proof. intros H P. unfold D in *. cbn [push w_c w_t chosen_all]. destruct e; try exact P; rewrite (set_other _ _ H); exact P. Qed.
Lemma agrees_mine c c' x : mine c' = mine c -> agrees c x -> agrees c' x.
Proof. intros O P. apply mine_split in O as (O1 & O2 & O3 & O4 & O5). unfold agrees, password, auth_data in *. rewrite O1, O2, O3, O4, O5. exact P. Qed.
Lemma D_conn f w : (forall c, mine (f c) = mine c) -> D w -> D (with_c f w).
Proof. intros H P. unfold D in *. cbn [with_c w_c w_t]. now apply (agrees_mine (H (w_c w))). Qed.
Lemma configure_mine x i p c : mine (configure_fields x i p c) = mine c.
Proof. unfold configure_fields. cbv zeta. destruct (_ =? 0); reflexivity. Qed.

Section A.
Variable E : env.
Notation T := (fun _ : world => True).
Lemma D_event e w : io_event e = false -> D w -> D (push e w).
Proof. intros H. apply D_push. destruct e; try exact I; discriminate H. Qed.
Variable hook : M unit.
Hypothesis Hk : keeps D T hook.
Ltac kc := apply D_conn; [intros; first [apply configure_mine|reflexivity]|assumption].
Ltac ks := intros; first [exact I|exact Hk|assumption|apply keeps_ret|now apply D_event|(apply D_push; [exact I|assumption])|kc|idtac].
Lemma D_read sz : keeps D T (io_read sz).
Proof. apply keeps_io_read; ks. Qed.
Lemma D_write b : keeps D T (io_write E hook b).
Proof. apply keeps_io_write; ks. Qed.
Ltac ks ::= intros; first [exact I|exact Hk|assumption|apply keeps_ret|apply D_read|apply D_write|now apply D_event|(apply D_push; [exact I|assumption])|kc|idtac].
Lemma D_upd f : (forall c, mine (f c) = mine c) -> keeps D T (upd f).
Proof. intros H. apply keeps_upd. intros. now apply D_conn. Qed.
Lemma D_ask q : keeps D T (ask E q).
Proof. unfold ask. apply keeps_bind; [apply keeps_log|]. intros t. apply keeps_bind; [apply keeps_emit; ks|intros _; apply keeps_ret]. Qed.
Lemma D_op o : keeps D T (wolf_op E hook o).
Proof. apply keeps_wolf_op'; ks. Qed.
Lemma D_gen v : keeps D T (generate_event hook v).
Proof. apply keeps_generate_event; ks. Qed.
Lemma D_change s : keeps D T (change_conn_state E hook s).
Proof. apply keeps_change_conn_state; ks. Qed.
Lemma D_timeout : keeps D T (update_timeout E hook).
Proof. apply keeps_update_timeout; ks. Qed.
Lemma D_process m : keeps D T (process_message E hook m).
Proof. apply keeps_process; ks. Qed.
Ltac ku := lazymatch goal with |- keeps _ _ (upd _) => apply D_upd; intros; first [apply configure_mine|reflexivity] end.
Lemma D_reneg : keeps D T (renegotiate_ssl E hook).
Proof. apply reneg_kept; intros; first [apply D_ask|apply D_op|apply D_gen|apply D_timeout|ku]. Qed.
Lemma D_check : keeps D T (check_renegotiation E hook).
Proof. apply check_kept; intros; first [apply D_ask|apply D_op|apply D_gen|apply D_timeout|ku]. Qed.
Lemma D_verify : keeps D T (verify_connection E hook).
Proof.
  apply verify_kept; intros; first [apply D_op|apply D_gen|apply D_timeout|apply D_change|apply D_reneg|apply D_check|ku|idtac].
  rename H into Hw, H0 into R. pose proof (@D_op WRecv w Hw) as K. rewrite R in K. case_if; [exact K|exact (@D_process d w' K)].
Qed.
Lemma D_outside b : keeps D T (outside_data_received E hook b).
Proof. apply outside_kept; intros; [apply keeps_plugin_ingress; ks|ku|ku|exact D_verify|apply keeps_session_in; ks]. Qed.
Lemma D_body o : is_setter o = false -> keeps D T (api_body E hook o).
Proof.
  destruct o; intros U; try discriminate U; cbn [api_body].
  - apply client_kept; intros; first [ku|apply D_ask|apply D_op|apply D_change|exact D_timeout|idtac]; [apply keeps_configure; ks|apply keeps_settings; ks|apply keeps_settings2; ks].
  - apply server_kept; intros; first [ku|apply D_ask|apply D_op|apply D_change|exact D_timeout|idtac]; [apply keeps_configure; ks|apply keeps_settings; ks|apply keeps_settings2; ks|apply keeps_generate_session_id; ks].
  - apply keeps_disconnect; ks.
  - apply keeps_inside; ks.
  - apply D_outside.
  - apply nudge_kept; intros; first [ku|apply D_op|apply D_change|exact D_timeout|idtac]. apply keeps_send_auth; ks.
  - apply keeps_keepalive; ks.
  - apply keeps_send_server_config; ks.
  - apply keeps_bind; [ku|intros _; apply keeps_ret].
  - apply keeps_start_pmtu; ks.
  - apply keeps_pm_timeout; ks.
  - apply keeps_rotate; ks.
  - apply keeps_set_session; ks.
Qed.
(** The setters make no call to the host. *)
Lemma set_body o w rc w' x : is_setter o = true -> agrees (w_c w) x -> api_body E hook o w = Done rc w' -> w_t w' = w_t w /\ agrees (w_c w') (set_by o rc x).
Proof.
  intros U ((A1 & A2 & A3 & A4) & LP & LB) Bd. destruct o; try discriminate U; cbn [api_body set_by] in *.
  - unfold set_username_api, bind, upd, get, lift in Bd. destruct (set_config_string _ _) as [[r f]|]; [|discriminate Bd]. unfold ret in Bd. apply Done_inv in Bd as [<- <-]. split; [reflexivity|].
    split; [|split; [exact LP|exact LB]]. split; [exact A1|]. split; [reflexivity|]. split; [exact A3|exact A4].
  - unfold set_password_api, bind, upd, get, lift in Bd. cbn [w_c] in Bd. change (c_password (set_auth_type HE_AUTH_TYPE_USERPASS (w_c w))) with (c_password (w_c w)) in Bd. rewrite (set_string_spec s LP) in Bd. cbv zeta in Bd.
    set (t := cstr (u8s s)) in *. assert (cstr t = t) as Ht by apply cstr_idem.
    destruct (len t =? 0); [|destruct (Z.ltb_spec 50 (len t)) as [|L]]; unfold ret in Bd; apply Done_inv in Bd as [<- <-]; (split; [reflexivity|]).
    + split; [|split; [exact LP|exact LB]]. split; [exact A1|]. split; [reflexivity|]. split; [exact A3|exact A4].
    + split; [|split; [exact LP|exact LB]]. split; [exact A1|]. split; [reflexivity|]. split; [exact A3|exact A4].
    + change (HE_SUCCESS =? 0) with true. cbv iota. split; [|split; [|exact LB]].
      * split; [exact (stored_text (c_password (w_c w)) Ht L)|]. split; [reflexivity|]. split; [exact A3|exact A4].
      * cbn [w_c]. match goal with |- len (c_password (set_password ?f _)) = _ => change (len f = 51) end.
        assert (len (padded 50 t) = 50) as Lp by (unfold padded; pose proof (len_nonneg t); rewrite len_app, len_zeros; lia).
        rewrite len_app, len_cons, len_firstn, len_skipn. lia.
  - unfold set_auth_token in Bd. rewrite len_u8s in Bd. change HE_MAX_MTU with 1350 in Bd. pose proof (len_nonneg b) as N.
    destruct (len b =? 0); [unfold ret in Bd; apply Done_inv in Bd as [<- <-]; split; [reflexivity|exact (conj (conj A1 (conj A2 (conj A3 A4))) (conj LP LB))]|].
    destruct (Z.leb_spec 1350 (len b)) as [|L]; [unfold ret in Bd; apply Done_inv in Bd as [<- <-]; split; [reflexivity|exact (conj (conj A1 (conj A2 (conj A3 A4))) (conj LP LB))]|].
    rewrite upd_first in Bd. unfold bind at 1, get at 1 in Bd. cbn [with_c w_c] in Bd. change (c_auth_buf (set_auth_type HE_AUTH_TYPE_TOKEN (w_c w))) with (c_auth_buf (w_c w)) in Bd.
    unfold bind at 1, lift at 1 in Bd. rewrite stn_ok in Bd by (rewrite ?len_u8s; lia). unfold ret at 1 in Bd. rewrite upd_first in Bd. unfold ret in Bd. apply Done_inv in Bd as [<- <-].
    rewrite len_u8s. change (Z.to_nat 0) with 0%nat. rewrite firstn_O, app_nil_l, Z.add_0_l. replace (u16 (len b)) with (len b) by (unfold u16; symmetry; apply Z.mod_small; lia).
    split; [reflexivity|]. change (HE_SUCCESS =? 0) with true. cbv iota. split; [|split; [exact LP|]].
    + split; [exact A1|]. split; [reflexivity|]. split; [apply stored_data|exact A4].
    + cbn [with_c w_c]. match goal with |- len (c_auth_buf (set_auth_len _ (set_auth_buf ?f _))) = _ => change (len f = 1350) end. rewrite len_app, len_u8s, len_skipn. lia.
  - unfold set_auth_buffer in Bd. change HE_MAX_MTU with 1350 in Bd. change sizeof_auth_buf with 4 in Bd. change (1350 - 4) with 1346 in Bd. cbv zeta in Bd. pose proof (len_nonneg b) as N.
    assert (forall r, r <> 0 -> agrees (w_c w) (if r =? 0 then Chosen (by_password x) HE_AUTH_TYPE_CB (u8s b) (by_mtu x) else x)) as No.
    { intros r Hr. apply Z.eqb_neq in Hr. rewrite Hr. exact (conj (conj A1 (conj A2 (conj A3 A4))) (conj LP LB)). }
    destruct (Z.ltb_spec 65535 (len b)) as [Big|Sm].
    { assert (len (firstn (Z.to_nat 65535) (u8s b)) = 65535) as Lx by (rewrite len_firstn, len_u8s; lia). rewrite Lx in Bd. change (65535 =? 0) with false in Bd. change (1346 <? 65535) with true in Bd. cbv iota in Bd.
      unfold ret in Bd. apply Done_inv in Bd as [<- <-]. split; [reflexivity|]. apply No. discriminate. }
    rewrite firstn_all2 in Bd by (pose proof (len_u8s b); unfold len in *; lia). rewrite len_u8s in Bd.
    destruct (len b =? 0); [unfold ret in Bd; apply Done_inv in Bd as [<- <-]; split; [reflexivity|apply No; discriminate]|].
    destruct (Z.ltb_spec 1346 (len b)) as [|L]; [unfold ret in Bd; apply Done_inv in Bd as [<- <-]; split; [reflexivity|apply No; discriminate]|].
    rewrite upd_first in Bd. unfold bind at 1, get at 1 in Bd. cbn [with_c w_c] in Bd. change (c_auth_buf (set_auth_type HE_AUTH_TYPE_CB (w_c w))) with (c_auth_buf (w_c w)) in Bd.
    unfold bind at 1, lift at 1 in Bd. rewrite stn_ok in Bd by (rewrite ?len_u8s; lia). unfold ret at 1 in Bd. rewrite upd_first in Bd. unfold ret in Bd. apply Done_inv in Bd as [<- <-].
    rewrite len_u8s. change (Z.to_nat 0) with 0%nat. rewrite firstn_O, app_nil_l, Z.add_0_l.
    split; [reflexivity|]. change (HE_SUCCESS =? 0) with true. cbv iota. split; [|split; [exact LP|]].
    + split; [exact A1|]. split; [reflexivity|]. split; [apply stored_data|exact A4].
    + cbn [with_c w_c]. match goal with |- len (c_auth_buf (set_auth_len _ (set_auth_buf ?f _))) = _ => change (len f = 1350) end. rewrite len_app, len_u8s, len_skipn. lia.
  - unfold set_outside_mtu in Bd. cbv zeta in Bd. destruct (_ <=? _); [unfold ret in Bd; apply Done_inv in Bd as [<- <-]; split; [reflexivity|exact (conj (conj A1 (conj A2 (conj A3 A4))) (conj LP LB))]|].
    rewrite upd_first in Bd. unfold ret in Bd. apply Done_inv in Bd as [<- <-]. split; [reflexivity|]. change (HE_SUCCESS =? 0) with true. cbv iota.
    split; [|split; [exact LP|exact LB]]. split; [exact A1|]. split; [exact A2|]. split; [exact A3|reflexivity].
  - rewrite upd_first in Bd. unfold ret in Bd. apply Done_inv in Bd as [<- <-]. split; [reflexivity|exact (conj (conj A1 (conj A2 (conj A3 A4))) (conj LP LB))].
  - unfold set_sni_hostname, bind, get, lift, upd in Bd. destruct (strncpy _ _ _) as [f|]; [|discriminate Bd]. unfold ret in Bd. apply Done_inv in Bd as [<- <-].
    split; [reflexivity|exact (conj (conj A1 (conj A2 (conj A3 A4))) (conj LP LB))].
Qed.
(** A whole call, between the event [e] at its start and [r rc] at its end. *)
Lemma D_whole o e r : not_set e -> (forall t s rc, chosen_all ((s, r rc) :: t) = set_by o rc (chosen_all t)) ->
  keeps D T (emit e ;;; let! rc := api_body E hook o in emit (r rc) ;;; ret rc).
Proof.
  intros He Hr. apply keeps_bind; [apply keeps_emit; intros; now apply D_push|]. intros _ w Hw. destruct (is_setter o) eqn:U.
  - unfold bind at 1. destruct (api_body E hook o w) as [rc w'|] eqn:B; [|exact I]. unfold bind, emit, ret. destruct (set_body U Hw B) as [Ht Ha].
    unfold D. cbn [w_c w_t]. rewrite Hr, Ht. exact Ha.
  - pose proof (@D_body o U w Hw) as K. unfold bind at 1. destruct (api_body E hook o w) as [rc w'|]; [|exact I]. unfold bind, emit, ret. unfold D. cbn [w_c w_t]. rewrite Hr, (set_other _ _ U). exact K.
Qed.
End A.
Lemma D_hookn E n : keeps D (fun _ => True) (hookn E n).
Proof.
  induction n as [|n IH]; [apply keeps_ret|]. cbn [hookn]. apply keeps_bind; [apply keeps_log|]. intros t.
  induction (e_host E t) as [|o k IHk]; cbn [run_host]; [apply keeps_ret|]. apply keeps_bind; [|intros rc; apply IHk].
  unfold nested_api. apply (@D_whole E _ IH o (ENest o) (ENestRet o)); [exact I|reflexivity].
Qed.
Lemma D_run E n ops : forall w, D w -> match run E n ops w with Done _ w' => D w' | Stuck _ _ => True end.
Proof.
  induction ops as [|o ops IH]; intros w H; cbn [run]; [exact H|].
  pose proof (@D_whole E _ (@D_hookn E n) o (ECall o) (ERet o) I (fun _ _ _ => eq_refl) w H) as K.
  change (match api E (hookn E n) o w with Done _ w' => D w' | Stuck _ _ => True end) in K. destruct (api _ _ _ _); [now apply IH|exact I].
Qed.

(** Whatever calls the host makes, also inside callbacks and however deep, the
    connection has the password, authentication method, authentication data and
    outside MTU that the setters accepted last. *)
Theorem C50_any_host : forall E n ops w, run E n ops world_new = Done tt w ->
  password (w_c w) = by_password (chosen_all (w_t w)) /\ c_auth_type (w_c w) = by_method (chosen_all (w_t w)) /\
  auth_data (w_c w) = by_data (chosen_all (w_t w)) /\ c_mtu (w_c w) = by_mtu (chosen_all (w_t w)).
Proof.
  intros E n ops w R. pose proof (@D_run E n ops world_new) as K. rewrite R in K. apply K. split; [|split; reflexivity].
  split; [reflexivity|]. split; [reflexivity|]. split; reflexivity.
Qed.
Print Assumptions C50_any_host.

(** A host that chooses a token when it is told that the link is up, that is,
    inside the callback, just before the library sends the login: the token goes
    out and stays, although the host set username and password before. *)
Definition chooser_env : env :=
  Env true 50 plain_ask plain_cb (fun _ => (ip 1, ip 2, ip 3)) (fun _ => (HE_PLUGIN_SUCCESS, [])) plain_wolf
      (fun t => match t with
                | (_, EState s) :: _ => if s =? HE_STATE_LINK_UP then HCall (OSetToken [7; 8; 9]) (fun rc => if rc =? 0 then HCall (OSetMtu 1400) (fun _ => HDone) else HDone) else HDone
                | _ => HDone end).
Definition chooses : list op := [OSetUsername user; OSetPassword pass; OSetMtu 1500; OClientConnect dctx [] []; OOutside (dgram 0 [])].
Example any_host_ex : let w := world_of (run chooser_env 1 chooses world_new) in
  run chooser_env 1 chooses world_new = Done tt w /\
  chosen_all (w_t w) = Chosen pass HE_AUTH_TYPE_TOKEN [7; 8; 9] 1400 /\ chosen_in (w_t w) = Chosen pass HE_AUTH_TYPE_USERPASS [] 1500 /\
  c_state (w_c w) = HE_STATE_AUTHENTICATING /\ c_auth_type (w_c w) = HE_AUTH_TYPE_TOKEN.
Proof. vm_compute. repeat split. Qed.
