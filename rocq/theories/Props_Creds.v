(** C15: the credentials a client sends, for a host that also makes calls inside callbacks. *)
From Verif Require Import Base Codes Ctx Config Mss Frag Wire WireSpec WireProofs ConnState Conn ConnSpec HistSpec MsgSpec CallSpec.
From Verif Require Import ConnSteps ConnWp ConnWpApi Frame FrameLoop Scenario Reaction Seq SeqApi FragSpec TimerSpec TimerProofs Props_Data Props_Timer Props_Tls SetProofs CredSpec Props_Set QuerySpec Props_Query DeepSpec.
From Verif Require CredProofs.
From Verif Require Props_Deep.
Unset Strict Implicit.
Notation held := CredProofs.held.
Notation cred_ok := CredProofs.cred_ok.
Notation settings := CredProofs.settings.
Notation setter := CredProofs.setter.

Definition lens (c : conn) : Prop := len (c_username c) = 51 /\ len (c_password c) = 51 /\ len (c_auth_buf c) = 1350 /\ 0 <= c_auth_len c < 1350.
Definition fits (c : conn) : Prop := lens c /\ cred_ok c.
Lemma made_ok le c m : fits c -> auth_made le c m -> auth_message (held c) = [m].
Proof.
  intros ((Lu & Lp & Lb & La) & U & Q & Cb & Tk) [[Ty B]|(b & size & Ty & B & L)].
  - rewrite build_auth_userpass_ok in B by assumption. rewrite !firstn_all2 in B by (unfold len in *; lia). injection B as <-.
    unfold auth_message, CredProofs.held. cbn [cr_method cr_user cr_pass]. now rewrite Ty.
  - assert (u16 (4 + c_auth_len c) = 4 + c_auth_len c) as U4 by (apply Z.mod_small; lia). rewrite U4 in L.
    assert (0 <= c_auth_type c < 256 /\ c_auth_len c + 4 <= size) as [Tr Sz].
    { destruct Ty as [[T1 ->]|[T1 ->]]; rewrite T1; unfold HE_AUTH_TYPE_TOKEN, HE_AUTH_TYPE_CB, HE_MAX_WIRE_MTU, HE_MAX_MTU; [lia|]. specialize (Cb T1). lia. }
    rewrite build_auth_buffer_ok in B by lia. apply Val_inv in B. subst b.
    assert (len (auth_buffer_message (c_auth_type c) (slice (c_auth_buf c) 0 (c_auth_len c))) = 4 + c_auth_len c) as Lm.
    { unfold auth_buffer_message. rewrite !len_app, len_slice by lia. unfold be16. rewrite ?len_cons, ?len_nil. lia. }
    rewrite ldn_ok in L; [|lia|lia|rewrite len_app, Lm, len_zeros; lia]. apply Val_inv in L.
    assert (slice (auth_buffer_message (c_auth_type c) (slice (c_auth_buf c) 0 (c_auth_len c)) ++ zeros (size - 4 - c_auth_len c)) 0 (4 + c_auth_len c) = auth_buffer_message (c_auth_type c) (slice (c_auth_buf c) 0 (c_auth_len c))) as Eq by (apply slice_app_l; now rewrite Lm).
    assert (slice (c_auth_buf c) 0 (c_auth_len c) = firstn (Z.to_nat (c_auth_len c)) (c_auth_buf c)) as Sl by reflexivity.
    unfold auth_message, CredProofs.held. cbn [cr_method cr_user cr_pass cr_data]. rewrite Sl in *.
    destruct Ty as [[Ty ->]|[Ty ->]]; rewrite Ty in *; rewrite <- L, Eq; reflexivity.
Qed.
Lemma fits_settings c c' : settings c' = settings c -> fits c -> fits c'.
Proof.
  intros H [L O]. split; [|exact (CredProofs.cred_ok_settings (eq_sym H) O)]. unfold CredProofs.settings in H. unfold lens.
  assert (c_username c' = c_username c /\ c_password c' = c_password c /\ c_auth_buf c' = c_auth_buf c /\ c_auth_len c' = c_auth_len c) as (-> & -> & -> & ->) by (repeat split; congruence). exact L.
Qed.
Definition login_ok (s : Z) (e : ev) (past : trace) : Prop :=
  match e with EWOp (WSend m) => msg_type m = HE_MSGID_AUTH -> auth_message (given_all past) = [m] | _ => True end.
Definition K (w : world) : Prop :=
  c_is_server (w_c w) = false /\ held (w_c w) = given_all (w_t w) /\ fits (w_c w) /\ every login_ok (w_t w).
Definition L (w : world) : Prop := has server_call (w_t w) = true.
Definition G (w : world) : Prop := L w \/ K w.
Definition harmless (e : ev) : Prop :=
  match e with ERet o _ | ENestRet o _ => setter o = false | EWOp (WSend m) => msg_type m <> HE_MSGID_AUTH | _ => True end.
Lemma L_push e w : L w -> L (push e w).
Proof. unfold L. cbn [push w_t has existsb snd]. unfold has. intros ->. apply orb_true_r. Qed.
Lemma gives_other o rc k : setter o = false -> gives o rc k = k.
Proof. destruct o; try reflexivity; discriminate. Qed.
Lemma G_push e w : harmless e -> G w -> G (push e w).
Proof.
  intros H [P|(A & B & C & D)]; [left; now apply L_push|right]. split; [exact A|]. split; [|split; [exact C|]]; cbn [push w_c w_t].
  - cbn [given_all]. destruct e; try exact B; rewrite (gives_other _ _ H); exact B.
  - split; [|exact D]. destruct e; try exact I. destruct o; try exact I. cbn in *. congruence.
Qed.
Lemma G_auth le m w : auth_made le (w_c w) m -> G w -> G (push (EWOp (WSend m)) w).
Proof.
  intros M [P|(A & B & C & D)]; [left; now apply L_push|right]. split; [exact A|]. split; [exact B|]. split; [exact C|]. cbn [push w_t w_c].
  split; [|exact D]. intros _. rewrite <- B. exact (made_ok C M).
Qed.
Lemma G_conn f w : (forall c, settings (f c) = settings c) -> (forall c, c_is_server (f c) = c_is_server c) -> G w -> G (with_c f w).
Proof.
  intros H1 H2 [P|(A & B & C & D)]; [now left|right]. cbn [with_c w_c w_t]. split; [cbn [with_c w_c]; now rewrite H2|]. cbn [with_c w_c w_t].
  split; [now rewrite (CredProofs.held_settings (H1 (w_c w)))|]. split; [exact (fits_settings (H1 (w_c w)) C)|exact D].
Qed.
Lemma configure_same x i p c : settings (configure_fields x i p c) = settings c /\ c_is_server (configure_fields x i p c) = c_is_server c.
Proof. unfold configure_fields. cbv zeta. destruct (_ =? 0); split; reflexivity. Qed.

Section A.
Variable E : env.
Notation T := (fun _ : world => True).
Lemma G_event e w : io_event e = false -> G w -> G (push e w).
Proof. intros H. apply G_push. destruct e; try exact I; discriminate H. Qed.
Variable hook : M unit.
Hypothesis Hk : keeps G T hook.
Hypothesis HkL : keeps L L hook.
Lemma L_body o : keeps L L (api_body E hook o).
Proof. apply keeps_log_body; auto. intros e w _ _. apply L_push. Qed.
Ltac kc := apply G_conn; [intros; first [apply configure_same|reflexivity]|intros; first [apply configure_same|reflexivity]|assumption].
Ltac ks := intros; first [exact I|exact Hk|assumption|apply keeps_ret|now apply G_event|(apply G_push; [exact I|assumption])|kc|idtac].
Lemma G_read sz : keeps G T (io_read sz).
Proof. apply keeps_io_read; ks. Qed.
Lemma G_write b : keeps G T (io_write E hook b).
Proof. apply keeps_io_write; ks. Qed.
Lemma G_plain o w : plain o -> G w -> G (push (EWOp o) w).
Proof. intros H. apply G_push. destruct o; try exact I. exact (proj1 H). Qed.
Lemma G_conf m w : msg_type m = HE_MSGID_CONFIG_IPV4 -> G w -> G (push (EWOp (WSend m)) w).
Proof. intros H. apply G_push. cbn. rewrite H. discriminate. Qed.
Lemma G_made m w : auth_made (e_le E) (w_c w) m -> G w -> G (push (EWOp (WSend m)) w).
Proof. apply G_auth. Qed.
Lemma G_role w : G w -> G (with_c (set_is_server false) w).
Proof. intros [P|(A & B & C & D)]; [now left|right]. split; [reflexivity|]. split; [exact B|]. split; [exact C|exact D]. Qed.
Ltac ks ::= intros; first [exact I|exact Hk|assumption|apply keeps_ret|apply G_read|apply G_write|now apply G_event|(apply G_push; [exact I|assumption])|now apply G_plain|now apply G_conf|now apply G_made|now apply G_role|kc|idtac].
Lemma G_upd f : (forall c, settings (f c) = settings c) -> (forall c, c_is_server (f c) = c_is_server c) -> keeps G T (upd f).
Proof. intros H1 H2. apply keeps_upd. intros. now apply G_conn. Qed.
Lemma G_ask q : keeps G T (ask E q).
Proof. unfold ask. apply keeps_bind; [apply keeps_log|]. intros t. apply keeps_bind; [apply keeps_emit; ks|intros _; apply keeps_ret]. Qed.
Lemma G_op o : match o with WSend _ => False | _ => True end -> keeps G T (wolf_op E hook o).
Proof. intros H. apply keeps_wolf_op'; ks. apply G_push; [destruct o; try exact I; destruct H|assumption]. Qed.
Lemma G_gen v : keeps G T (generate_event hook v).
Proof. apply keeps_generate_event; ks. Qed.
Lemma G_send_auth : keeps G T (send_auth E hook).
Proof. apply keeps_send_auth; ks. Qed.
Lemma G_change s : keeps G T (change_conn_state E hook s).
Proof. apply keeps_change_conn_state; ks. Qed.
Lemma G_timeout : keeps G T (update_timeout E hook).
Proof. apply keeps_update_timeout; ks. Qed.
Lemma L_process m : keeps L L (process_message E hook m).
Proof.
  assert (forall sz, keeps L L (io_read sz)) as Hr by (intros; apply keeps_io_read; intros; auto; now apply L_push).
  assert (forall b, keeps L L (io_write E hook b)) as Hw by (intros; apply keeps_io_write; intros; auto; now apply L_push).
  apply keeps_process; intros; auto; now apply L_push.
Qed.
Lemma G_process m : keeps G T (process_message E hook m).
Proof.
  intros w Hw. destruct Hw as [Hl|Hc].
  { pose proof (@L_process m w Hl) as Kp. destruct (process_message E hook m w); [now left|exact I]. }
  pose proof Hc as (Sv & _). assert (G w) as Hw by now right. clear Hc. unfold process_message. case_if.
  { exact (@G_upd (set_wolf_err 0) ltac:(reflexivity) ltac:(reflexivity) w Hw). }
  unfold bind at 1. destruct (ld8 m 0) as [id|]; [|exact I]. unfold lift at 1, ret at 1. unfold bind at 1, get at 1. rewrite Sv. cbn [negb].
  match goal with |- match ?m w with _ => _ end => assert (keeps G T m) as Kp; [|exact (Kp w Hw)] end. clear w Hw Sv.
  repeat case_if; try apply keeps_ret.
  - apply keeps_handle_ping; ks.
  - apply keeps_handle_pong; ks.
  - apply keeps_handle_data; ks.
  - apply keeps_handle_config; ks.
  - apply keeps_handle_13; ks.
  - apply keeps_handle_server_config; ks.
  - apply keeps_handle_frag; ks.
Qed.
Ltac ku := lazymatch goal with |- keeps _ _ (upd (set_is_server false)) => apply keeps_upd; intros; now apply G_role | |- keeps _ _ (upd _) => apply G_upd; intros; first [apply configure_same|reflexivity] end.
Lemma G_reneg : keeps G T (renegotiate_ssl E hook).
Proof. apply keeps_renegotiate; ks. Qed.
Lemma G_check : keeps G T (check_renegotiation E hook).
Proof. apply keeps_check; ks. Qed.
Lemma G_verify : keeps G T (verify_connection E hook).
Proof.
  apply verify_kept; intros; first [apply G_op; exact I|apply G_gen|apply G_timeout|apply G_change|apply G_reneg|apply G_check|ku|idtac].
  rename H into Hw, H0 into R. pose proof (@G_op WRecv I w Hw) as Kw. rewrite R in Kw. case_if; [exact Kw|exact (@G_process d w' Kw)].
Qed.
Lemma G_outside b : keeps G T (outside_data_received E hook b).
Proof. apply outside_kept; intros; [apply keeps_plugin_ingress; ks|ku|ku|exact G_verify|apply keeps_session_in; ks]. Qed.
Lemma G_client x i p : keeps G T (client_connect E hook x i p).
Proof. apply keeps_client_connect; ks. Qed.
Lemma G_body o : setter o = false -> is_server_op o = false -> keeps G T (api_body E hook o).
Proof.
  destruct o; intros U S0; try discriminate U; try discriminate S0; cbn [api_body].
  - apply G_client.
  - apply keeps_disconnect; ks.
  - apply keeps_inside; ks.
  - apply G_outside.
  - apply keeps_nudge; ks.
  - apply keeps_keepalive; ks.
  - apply keeps_send_server_config; ks.
  - apply keeps_bind; [ku|intros _; apply keeps_ret].
  - apply keeps_start_pmtu; ks.
  - apply keeps_pm_timeout; ks.
  - apply keeps_rotate; ks.
  - apply keeps_set_session; ks.
  - apply keeps_set_mtu; ks.
  - apply keeps_bind; [ku|intros _; apply keeps_ret].
  - apply keeps_set_sni; ks.
Qed.
Lemma setters o w rc w' : setter o = true -> fits (w_c w) -> api_body E hook o w = Done rc w' ->
  w_t w' = w_t w /\ c_is_server (w_c w') = c_is_server (w_c w) /\ held (w_c w') = gives o rc (held (w_c w)) /\ fits (w_c w').
Proof.
  intros U ((Lu & Lp & Lb & La) & Ou & Op & Oc & Ot) Bd.
  assert (fits (w_c w)) as Hf by (split; [exact (conj Lu (conj Lp (conj Lb La)))|exact (conj Ou (conj Op (conj Oc Ot)))]).
  assert (forall r k, r <> 0 -> w_t w = w_t w /\ c_is_server (w_c w) = c_is_server (w_c w) /\ held (w_c w) = (if r =? HE_SUCCESS then k else held (w_c w)) /\ fits (w_c w)) as No.
  { intros r k Hr. apply Z.eqb_neq in Hr. change HE_SUCCESS with 0. rewrite Hr. auto. }
  destruct o; try discriminate U; cbn [api_body gives] in *.
  - unfold set_username_api, bind, upd, get, lift in Bd. cbn [w_c] in Bd. change (c_username (set_auth_type HE_AUTH_TYPE_USERPASS (w_c w))) with (c_username (w_c w)) in Bd. rewrite (set_string_spec s Lu) in Bd. cbv zeta in Bd.
    unfold text. set (t := cstr (u8s s)) in *. assert (cstr t = t) as Ht by apply cstr_idem.
    assert (forall f, len f = 51 -> len (cstr f) <= 49 -> fits (set_username f (set_auth_type HE_AUTH_TYPE_USERPASS (w_c w)))) as Fit.
    { intros f L1 L2. split; [exact (conj L1 (conj Lp (conj Lb La)))|]. split; [exact L2|]. split; [exact Op|]. split; intros X; discriminate X. }
    destruct (len t =? 0); [|destruct (Z.ltb_spec 50 (len t)) as [|Le]]; unfold ret in Bd; apply Done_inv in Bd as [<- <-]; (split; [reflexivity|]); (split; [reflexivity|]).
    + split; [reflexivity|]. now apply Fit.
    + split; [reflexivity|]. now apply Fit.
    + change (HE_SUCCESS =? HE_SUCCESS) with true. cbv iota. cbn [w_c]. pose proof (stored_text (c_username (w_c w)) Ht Le) as St. split.
      * unfold CredProofs.held. cbn [cr_user cr_pass cr_data]. change (c_username (set_username ?f ?c)) with f. rewrite St. reflexivity.
      * apply Fit; [|rewrite St; apply CredProofs.len_firstn49].
        assert (len (padded 50 t) = 50) as L50 by (unfold padded; pose proof (len_nonneg t); rewrite len_app, len_zeros; lia).
        rewrite len_app, len_cons, len_firstn, len_skipn. lia.
  - unfold set_password_api, bind, upd, get, lift in Bd. cbn [w_c] in Bd. change (c_password (set_auth_type HE_AUTH_TYPE_USERPASS (w_c w))) with (c_password (w_c w)) in Bd. rewrite (set_string_spec s Lp) in Bd. cbv zeta in Bd.
    unfold text. set (t := cstr (u8s s)) in *. assert (cstr t = t) as Ht by apply cstr_idem.
    assert (forall f, len f = 51 -> len (cstr f) <= 49 -> fits (set_password f (set_auth_type HE_AUTH_TYPE_USERPASS (w_c w)))) as Fit.
    { intros f L1 L2. split; [exact (conj Lu (conj L1 (conj Lb La)))|]. split; [exact Ou|]. split; [exact L2|]. split; intros X; discriminate X. }
    destruct (len t =? 0); [|destruct (Z.ltb_spec 50 (len t)) as [|Le]]; unfold ret in Bd; apply Done_inv in Bd as [<- <-]; (split; [reflexivity|]); (split; [reflexivity|]).
    + split; [reflexivity|]. now apply Fit.
    + split; [reflexivity|]. now apply Fit.
    + change (HE_SUCCESS =? HE_SUCCESS) with true. cbv iota. cbn [w_c]. pose proof (stored_text (c_password (w_c w)) Ht Le) as St. split.
      * unfold CredProofs.held. cbn [cr_user cr_pass cr_data]. change (c_password (set_password ?f ?c)) with f. rewrite St. reflexivity.
      * apply Fit; [|rewrite St; apply CredProofs.len_firstn49].
        assert (len (padded 50 t) = 50) as L50 by (unfold padded; pose proof (len_nonneg t); rewrite len_app, len_zeros; lia).
        rewrite len_app, len_cons, len_firstn, len_skipn. lia.
  - unfold set_auth_token in Bd. rewrite len_u8s in Bd. change HE_MAX_MTU with 1350 in Bd. pose proof (len_nonneg b) as N.
    destruct (Z.eqb_spec (len b) 0) as [|N0]; [unfold ret in Bd; apply Done_inv in Bd as [<- <-]; apply No; discriminate|].
    destruct (Z.leb_spec 1350 (len b)) as [|Lt]; [unfold ret in Bd; apply Done_inv in Bd as [<- <-]; apply No; discriminate|].
    rewrite upd_first in Bd. unfold bind at 1, get at 1 in Bd. cbn [with_c w_c] in Bd. change (c_auth_buf (set_auth_type HE_AUTH_TYPE_TOKEN (w_c w))) with (c_auth_buf (w_c w)) in Bd.
    unfold bind at 1, lift at 1 in Bd. rewrite stn_ok in Bd by (rewrite ?len_u8s; lia). unfold ret at 1 in Bd. rewrite upd_first in Bd. unfold ret in Bd. apply Done_inv in Bd as [<- <-].
    rewrite len_u8s. change (Z.to_nat 0) with 0%nat. rewrite firstn_O, app_nil_l, Z.add_0_l. replace (u16 (len b)) with (len b) by (unfold u16; symmetry; apply Z.mod_small; lia).
    split; [reflexivity|]. split; [reflexivity|]. change (HE_SUCCESS =? HE_SUCCESS) with true. cbv iota. cbn [with_c w_c]. split.
    + unfold CredProofs.held. cbn [cr_user cr_pass cr_data]. f_equal. exact (stored_data b _ (w_c w) HE_AUTH_TYPE_TOKEN).
    + split; [|split; [exact Ou|]; split; [exact Op|]; split; [intros X; discriminate X|intros _; change (0 < len b); lia]].
      split; [exact Lu|]. split; [exact Lp|]. split; [|change (0 <= len b < 1350); lia].
      match goal with |- len (c_auth_buf (set_auth_len _ (set_auth_buf ?f _))) = _ => change (len f = 1350) end. rewrite len_app, len_u8s, len_skipn. lia.
  - unfold set_auth_buffer in Bd. change HE_MAX_MTU with 1350 in Bd. change sizeof_auth_buf with 4 in Bd. change (1350 - 4) with 1346 in Bd. cbv zeta in Bd. pose proof (len_nonneg b) as N.
    destruct (Z.ltb_spec 65535 (len b)) as [Big|Sm].
    { assert (len (firstn (Z.to_nat 65535) (u8s b)) = 65535) as Lx by (rewrite len_firstn, len_u8s; lia). rewrite Lx in Bd. change (65535 =? 0) with false in Bd. change (1346 <? 65535) with true in Bd. cbv iota in Bd.
      unfold ret in Bd. apply Done_inv in Bd as [<- <-]. apply No. discriminate. }
    rewrite firstn_all2 in Bd by (pose proof (len_u8s b); unfold len in *; lia). rewrite len_u8s in Bd.
    destruct (Z.eqb_spec (len b) 0) as [|N0]; [unfold ret in Bd; apply Done_inv in Bd as [<- <-]; apply No; discriminate|].
    destruct (Z.ltb_spec 1346 (len b)) as [|Lt]; [unfold ret in Bd; apply Done_inv in Bd as [<- <-]; apply No; discriminate|].
    rewrite upd_first in Bd. unfold bind at 1, get at 1 in Bd. cbn [with_c w_c] in Bd. change (c_auth_buf (set_auth_type HE_AUTH_TYPE_CB (w_c w))) with (c_auth_buf (w_c w)) in Bd.
    unfold bind at 1, lift at 1 in Bd. rewrite stn_ok in Bd by (rewrite ?len_u8s; lia). unfold ret at 1 in Bd. rewrite upd_first in Bd. unfold ret in Bd. apply Done_inv in Bd as [<- <-].
    rewrite len_u8s. change (Z.to_nat 0) with 0%nat. rewrite firstn_O, app_nil_l, Z.add_0_l.
    split; [reflexivity|]. split; [reflexivity|]. change (HE_SUCCESS =? HE_SUCCESS) with true. cbv iota. cbn [with_c w_c]. split.
    + unfold CredProofs.held. cbn [cr_user cr_pass cr_data]. f_equal. exact (stored_data b _ (w_c w) HE_AUTH_TYPE_CB).
    + split; [|split; [exact Ou|]; split; [exact Op|]; split; [intros _; change (0 < len b <= 1346); lia|intros X; discriminate X]].
      split; [exact Lu|]. split; [exact Lp|]. split; [|change (0 <= len b < 1350); lia].
      match goal with |- len (c_auth_buf (set_auth_len _ (set_auth_buf ?f _))) = _ => change (len f = 1350) end. rewrite len_app, len_u8s, len_skipn. lia.
Qed.
(** A whole call, between the event [e] at its start and [r rc] at its end. *)
Lemma G_whole o e r : harmless e -> server_call e = is_server_op o -> (forall rc, r rc = ERet o rc) \/ (forall rc, r rc = ENestRet o rc) ->
  keeps G T (emit e ;;; let! rc := api_body E hook o in emit (r rc) ;;; ret rc).
Proof.
  intros He Hs Hr w Hw. unfold bind at 1, emit at 1. fold (push e w). pose proof (G_push He Hw) as H1. unfold bind at 1.
  assert (forall rc v, L v -> G (push (r rc) v)) as Lret by (intros; left; now apply L_push).
  destruct (is_server_op o) eqn:Sv.
  - assert (L (push e w)) as Hl by (unfold L; cbn [push w_t has existsb snd]; now rewrite Hs).
    pose proof (@L_body o _ Hl) as Kb. destruct (api_body E hook o (push e w)) as [rc w'|]; [|exact I]. unfold bind, emit, ret. now apply Lret.
  - destruct (setter o) eqn:U.
    + destruct H1 as [Hl|(A & B & C & D)].
      { pose proof (@L_body o _ Hl) as Kb. destruct (api_body E hook o (push e w)) as [rc w'|]; [|exact I]. unfold bind, emit, ret. now apply Lret. }
      destruct (api_body E hook o (push e w)) as [rc w'|] eqn:Bd; [|exact I]. destruct (setters U C Bd) as (Ht & Is & Hh & Hf). unfold bind, emit, ret. fold (push (r rc) w'). right.
      split; [cbn [push w_c]; now rewrite Is|]. cbn [push w_c w_t]. split; [|split; [exact Hf|]].
      * rewrite Hh, B, <- Ht. destruct Hr as [Hr|Hr]; rewrite Hr; reflexivity.
      * rewrite Ht. split; [|exact D]. destruct Hr as [Hr|Hr]; rewrite Hr; exact I.
    + pose proof (@G_body o U Sv _ H1) as Kb. destruct (api_body E hook o (push e w)) as [rc w'|]; [|exact I]. unfold bind, emit, ret. fold (push (r rc) w').
      apply G_push; [|exact Kb]. destruct Hr as [Hr|Hr]; rewrite Hr; exact U.
Qed.
End A.
Lemma L_hookn E n : keeps L L (hookn E n).
Proof. apply keeps_hookn; auto. intros e w _ _. apply L_push. Qed.
Lemma G_hookn E n : keeps G (fun _ => True) (hookn E n).
Proof.
  induction n as [|n IH]; [apply keeps_ret|]. cbn [hookn]. apply keeps_bind; [apply keeps_log|]. intros t.
  induction (e_host E t) as [|o k IHk]; cbn [run_host]; [apply keeps_ret|]. apply keeps_bind; [|intros rc; apply IHk].
  unfold nested_api. apply (@G_whole E _ IH (@L_hookn E n) o (ENest o) (ENestRet o)); [exact I|reflexivity|now right].
Qed.
Lemma G_run E n ops : forall w, G w -> match run E n ops w with Done _ w' => G w' | Stuck _ _ => True end.
Proof.
  induction ops as [|o ops IH]; intros w H; cbn [run]; [exact H|].
  pose proof (@G_whole E _ (@G_hookn E n) (@L_hookn E n) o (ECall o) (ERet o) I eq_refl (or_introl (fun _ => eq_refl)) w H) as Kw.
  change (match api E (hookn E n) o w with Done _ w' => G w' | Stuck _ _ => True end) in Kw. destruct (api _ _ _ _); [now apply IH|exact I].
Qed.

(** Whatever calls the host of a client makes, also inside callbacks and however
    deep: every message with credentials that is given to wolfSSL is the one
    that carries the method and the credentials the setters accepted last. *)
Theorem C15_any_host : forall E n ops w, run E n ops world_new = Done tt w -> has server_call (w_t w) = false ->
  every (fun _ e past => match e with EWOp (WSend m) => msg_type m = HE_MSGID_AUTH -> auth_message (given_all past) = [m] | _ => True end) (w_t w).
Proof.
  intros E n ops w R Sv. pose proof (@G_run E n ops world_new) as Kw. rewrite R in Kw. destruct Kw as [Hl|(_ & _ & _ & D)].
  - right. split; [reflexivity|]. split; [reflexivity|]. split; [|exact I]. split; [repeat split; reflexivity || (cbv; congruence)|].
    split; [cbv; discriminate|]. split; [cbv; discriminate|]. split; intros X; discriminate X.
  - unfold L in Hl. congruence.
  - exact D.
Qed.
Print Assumptions C15_any_host.

(** The host that chooses a token when it is told that the link is up: the login
    that follows carries the token, not the username and password set before. *)
Example any_host_login_ex : let w := world_of (run Props_Deep.chooser_env 1 Props_Deep.chooses world_new) in
  run Props_Deep.chooser_env 1 Props_Deep.chooses world_new = Done tt w /\ has server_call (w_t w) = false /\
  given_all (w_t w) = Creds HE_AUTH_TYPE_TOKEN user pass [7; 8; 9] /\ given (w_t w) = Creds HE_AUTH_TYPE_USERPASS user pass [] /\
  collect login (w_t w) = [None; Some (auth_buffer_message HE_AUTH_TYPE_TOKEN [7; 8; 9])].
Proof. vm_compute. repeat split. Qed.
