(** C50: what the host has set on a connection stays as it is. *)
From Verif Require Import Base Codes Ctx Config Wire WireSpec ConnState Conn ConnSpec HistSpec MsgSpec CallSpec.
From Verif Require Import ConnSteps ConnWp ConnWpApi Frame FrameLoop Seq SeqApi TimerSpec TimerProofs Scenario Props_Data Props_Timer Props_Tls SetProofs CredSpec Props_Set Getters QuerySpec.
Unset Strict Implicit.

Section R.
Variable E : env.
Notation hk := (@ret unit tt).
Notation T := (fun _ : world => True).

(** *** Calls that change nothing at all *)
Section A.
Variable c0 : conn.
Definition same (w : world) : Prop := own_settings (w_c w) = own_settings c0 /\ version (w_c w) = version c0 /\ c_username (w_c w) = c_username c0.
Lemma same_push e w : same w -> same (push e w).
Proof. exact (fun H => H). Qed.
Lemma same_conn f w : (forall c, own_settings (f c) = own_settings c /\ version (f c) = version c /\ c_username (f c) = c_username c) -> same w -> same (with_c f w).
Proof. intros H (A & B & C). destruct (H (w_c w)) as (X & Y & Z). unfold same. cbn [with_c w_c]. now rewrite X, Y, Z. Qed.
Ltac ks := intros; first [exact I|apply keeps_ret|assumption|(apply same_conn; [intros; split; [|split]; reflexivity|assumption])|idtac].
Lemma same_read sz : keeps same T (io_read sz).
Proof. apply keeps_io_read; ks. Qed.
Lemma same_write b : keeps same T (io_write E hk b).
Proof. apply keeps_io_write; ks. Qed.
Ltac ks ::= intros; first [exact I|apply keeps_ret|apply same_read|apply same_write|assumption|(apply same_conn; [intros; split; [|split]; reflexivity|assumption])|idtac].
Lemma same_body o : is_setter o = false -> the_context o = None -> (forall b, o <> OOutside b) -> keeps same T (api_body E hk o).
Proof.
  destruct o; intros U C O; try discriminate U; try discriminate C; cbn [api_body].
  - apply keeps_disconnect; ks.
  - apply keeps_inside; ks.
  - now destruct (O buffer).
  - apply keeps_nudge; ks.
  - apply keeps_keepalive; ks.
  - apply keeps_send_server_config; ks.
  - apply keeps_bind; [apply keeps_upd; ks|intros _; apply keeps_ret].
  - apply keeps_start_pmtu; ks.
  - apply keeps_pm_timeout; ks.
  - apply keeps_rotate; ks.
  - apply keeps_set_session; ks.
Qed.
End A.

(** *** Connecting *)
Section B.
Variable w0 : world.
Variable v : Z * Z.
(** [v]: the version; memory was asked for. *)
Definition ready (w : world) : Prop :=
  own_settings (w_c w) = own_settings (w_c w0) /\ version (w_c w) = v /\ c_username (w_c w) = c_username (w_c w0) /\
  exists l, l <> [] /\ during allocs w0 w l.
Lemma ready_push e w : ready w -> ready (push e w).
Proof.
  intros (A & B & C & l & N & D). split; [exact A|]. split; [exact B|]. split; [exact C|]. exists (l ++ allocs (c_state (w_c w)) e). split.
  - destruct l; [congruence|discriminate].
  - unfold during in *. cbn [push w_t collect]. now rewrite D, app_assoc.
Qed.
Lemma ready_conn f w : (forall c, own_settings (f c) = own_settings c /\ version (f c) = version c /\ c_username (f c) = c_username c) -> ready w -> ready (with_c f w).
Proof. intros H (A & B & C & D). destruct (H (w_c w)) as (X & Y & Z). unfold ready. cbn [with_c w_c]. rewrite X, Y, Z. auto. Qed.
Ltac kc := apply ready_conn; [intros; split; [|split]; reflexivity|assumption].
Ltac ks := intros; first [exact I|apply keeps_ret|now apply ready_push|kc|idtac].
Lemma ready_read sz : keeps ready T (io_read sz).
Proof. apply keeps_io_read; ks. Qed.
Lemma ready_write b : keeps ready T (io_write E hk b).
Proof. apply keeps_io_write; ks. Qed.
Ltac ks ::= intros; first [exact I|apply keeps_ret|apply ready_read|apply ready_write|now apply ready_push|kc|idtac].
Lemma ready_rest x : keeps ready T (
  let! w := ask E QWolfNew in
  let ok := x_wolf x && negb (w =? 0) in
  upd (fun c => set_io (x_io x) (set_wolf_ctx false (set_wolf ok c))) ;;;
  if negb ok then ret HE_ERR_INIT_FAILED else
  let! res := wolf_settings E x in
  if negb (res =? HE_SUCCESS) then ret res else
  upd (set_wolf_ctx true) ;;;
  let! res := wolf_settings2 E x in
  if negb (res =? HE_SUCCESS) then ret res else
  change_conn_state E hk HE_STATE_CONNECTING ;;;
  let! (r, err, _) := wolf_op E hk WNegotiate in
  if negb (r =? SSL_SUCCESS) then
    if (err =? SSL_ERROR_WANT_READ) || (err =? SSL_ERROR_WANT_WRITE) then
      change_conn_state E hk HE_STATE_CONNECTING ;;;
      update_timeout E hk ;;;
      ret HE_SUCCESS
    else ret HE_ERR_CONNECT_FAILED
  else
    change_conn_state E hk HE_STATE_LINK_UP ;;;
    update_timeout E hk ;;;
    ret HE_SUCCESS).
Proof.
  assert (forall q, keeps ready T (ask E q)) as Ka by (intros q; unfold ask; apply keeps_bind; [apply keeps_log|]; intros t; apply keeps_bind; [apply keeps_emit; ks|intros _; apply keeps_ret]).
  assert (forall s, keeps ready T (change_conn_state E hk s)) as Kc by (intros; apply keeps_change_conn_state; ks).
  assert (keeps ready T (update_timeout E hk)) as Ku by (apply keeps_update_timeout; ks).
  apply keeps_bind; [apply Ka|]. intros a. cbv zeta. apply keeps_bind; [apply keeps_upd; ks|]. intros _. case_if; [apply keeps_ret|].
  apply keeps_bind; [apply keeps_settings; ks|]. intros r1. case_if; [apply keeps_ret|]. apply keeps_bind; [apply keeps_upd; ks|]. intros _.
  apply keeps_bind; [apply keeps_settings2; ks|]. intros r2. case_if; [apply keeps_ret|]. apply keeps_bind; [apply Kc|]. intros _.
  apply keeps_bind; [apply keeps_wolf_op'; ks|]. intros [[r err] d]. repeat case_if; try apply keeps_ret; (apply keeps_bind; [apply Kc|intros _; apply keeps_bind; [exact Ku|intros _; apply keeps_ret]]).
Qed.
Lemma ready_session s : keeps ready T (upd (set_session s)).
Proof. apply keeps_upd; ks. Qed.
Lemma ready_generate : keeps ready T (generate_session_id E).
Proof. apply keeps_generate_session_id; ks. Qed.
End B.
Lemma configure_settings x i p c : own_settings (configure_fields x i p c) = own_settings c /\ version (configure_fields x i p c) = version_from x c /\ c_username (configure_fields x i p c) = c_username c.
Proof.
  unfold configure_fields, version_from. cbv zeta.
  change (c_vmaj (set_ctype (x_type x) (set_pqc (x_pqc x) (set_aggr (x_aggressive x) (set_padding (x_padding x) (set_no_roam (x_no_roaming x) c)))))) with (c_vmaj c).
  destruct (c_vmaj c =? 0); split; [|split| |split]; reflexivity.
Qed.
Lemma connect_ready x i p w rc w' w0 : own_settings (w_c w) = own_settings (w_c w0) -> version (w_c w) = version (w_c w0) -> c_username (w_c w) = c_username (w_c w0) -> w_t w = w_t w0 ->
  internal_connect E hk x i p w = Done rc w' -> ready w0 (version_from x (w_c w0)) w'.
Proof.
  intros A B C D. unfold internal_connect. unfold bind at 1. destruct (configure E x i p w) as [rc1 w1|] eqn:Cf; [|discriminate].
  assert (ready w0 (version_from x (w_c w0)) w1) as R1.
  { revert Cf. unfold configure. rewrite upd_first. set (w2 := with_c _ w). unfold bind at 1. rewrite ask_eq. intros H.
    match type of H with ?m ?v = _ => assert (ready w0 (version_from x (w_c w0)) v) as R; [|assert (keeps (ready w0 (version_from x (w_c w0))) T m) as K] end.
    - destruct (configure_settings x i p (w_c w)) as (X & Y & Z). unfold ready, w2. cbn [with_c w_c push w_t]. rewrite X, Y, Z, A, C. split; [reflexivity|]. split; [|split; [reflexivity|]].
      + unfold version in B. apply pair_equal_spec in B as [B1 B2]. unfold version_from. now rewrite B1, B2.
      + eexists [_]. split; [discriminate|]. unfold during. cbn [push w_t collect allocs with_c]. rewrite D. reflexivity.
    - apply keeps_bind; [unfold ask; apply keeps_bind; [apply keeps_log|]; intros t; apply keeps_bind; [apply keeps_emit; intros; now apply ready_push|intros _; apply keeps_ret]|].
      intros a2. cbv zeta. apply keeps_bind; [apply keeps_upd; intros; apply ready_conn; [intros; split; [|split]; reflexivity|assumption]|intros _; apply keeps_ret].
    - specialize (K _ R). now rewrite H in K. }
  case_if; [intros H; apply Done_inv in H as [_ <-]; exact R1|]. intros H.
  match type of H with ?m ?v = _ => assert (keeps (ready w0 (version_from x (w_c w0))) T m) as K by exact (@ready_rest w0 (version_from x (w_c w0)) x); specialize (K v R1) end.
  rewrite H in K. exact K.
Qed.
Lemma connect_settings o x w rc w' : the_context o = Some x -> api_body E hk o w = Done rc w' ->
  own_settings (w_c w') = own_settings (w_c w) /\ c_username (w_c w') = c_username (w_c w) /\
  exists l, during allocs w w' l /\ version (w_c w') = match l with [] => version (w_c w) | _ => version_from x (w_c w) end.
Proof.
  assert (ready w (version_from x (w_c w)) w' -> own_settings (w_c w') = own_settings (w_c w) /\ c_username (w_c w') = c_username (w_c w) /\
    exists l, during allocs w w' l /\ version (w_c w') = match l with [] => version (w_c w) | _ => version_from x (w_c w) end) as Fin.
  { intros (A & B & C & l & N & D). split; [exact A|]. split; [exact C|]. exists l. split; [exact D|]. destruct l; [congruence|exact B]. }
  assert (w' = w -> own_settings (w_c w') = own_settings (w_c w) /\ c_username (w_c w') = c_username (w_c w) /\
    exists l, during allocs w w' l /\ version (w_c w') = match l with [] => version (w_c w) | _ => version_from x (w_c w) end) as Nil.
  { intros ->. split; [reflexivity|]. split; [reflexivity|]. exists []. split; [unfold during; now rewrite app_nil_r|reflexivity]. }
  destruct o; intros Q; try discriminate Q; injection Q as ->; cbn [api_body].
  - unfold client_connect. unfold bind at 1, get at 1. unfold bind at 1. destruct (is_valid_client x (w_c w)) as [r|]; [|discriminate]. cbn [lift]. unfold ret at 1.
    case_if; [intros H; apply Done_inv in H as [_ <-]; now apply Nil|]. rewrite upd_first. intros H. apply Fin. now apply (connect_ready (w0 := w)) in H.
  - unfold server_connect. unfold bind at 1, get at 1. cbv zeta. case_if; [intros H; apply Done_inv in H as [_ <-]; now apply Nil|]. rewrite upd_first.
    unfold bind at 1. destruct (internal_connect _ _ _ _ _ _) as [r1 w1|] eqn:R1; [|discriminate]. apply (connect_ready (w0 := w)) in R1; try reflexivity.
    case_if; [intros H; apply Done_inv in H as [_ <-]; now apply Fin|]. intros H. apply Fin.
    match type of H with ?m w1 = _ => assert (keeps (ready w (version_from x (w_c w))) T m) as K end; [|specialize (K w1 R1); now rewrite H in K].
    apply keeps_bind; [apply ready_generate|]. intros [r s]. case_if; [apply keeps_ret|]. apply keeps_bind; [apply ready_session|intros _; apply keeps_ret].
Qed.

(** *** A packet *)
Lemma last_app l u d : last_of (l ++ [u]) d = cstr u.
Proof. revert d. induction l as [|x l IH]; intros d; [reflexivity|exact (IH _)]. Qed.
Lemma cstr_app_nul a b : cstr (cstr a ++ 0 :: b) = cstr a.
Proof. induction a as [|x a IH]; [reflexivity|]. cbn [cstr]. destruct (x =? 0) eqn:X; [reflexivity|]. cbn [app cstr]. now rewrite X, IH. Qed.
Lemma Val_inv A (a b : A) : Val a = Val b -> a = b.
Proof. congruence. Qed.
Lemma stored_name un u un1 un2 : len u = 50 -> strncpy un u 50 = Val un1 -> st8 un1 50 0 = Val un2 -> cstr un2 = cstr u.
Proof.
  intros L H1 H2. unfold strncpy in H1. rewrite strncpy_nat_cstr in H1 by (right; unfold len in L; lia). cbn [rbind] in H1.
  assert (length (cstr u) <= 50)%nat as Lc.
  { assert (forall b, length (cstr b) <= length b)%nat as G by (induction b as [|x b IHb]; cbn [cstr length]; [lia|]; destruct (x =? 0); cbn [length]; lia). specialize (G u). unfold len in L. lia. }
  change (Z.to_nat 50) with 50%nat in H1. rewrite firstn_all2 in H1 by exact Lc.
  set (t := cstr u) in *. unfold st8 in H2. change (u8 0) with 0 in H2.
  assert (len (t ++ repeat 0 (50 - length t)) = 50) as Lw by (unfold len; rewrite app_length, repeat_length; lia).
  unfold stn in H1, H2. rewrite Lw in H1. destruct (_ && _) in H1; [|discriminate]. apply Val_inv in H1.
  destruct (_ && _) in H2; [|discriminate]. apply Val_inv in H2.
  assert (firstn 50 un1 = t ++ repeat 0 (50 - length t)) as F.
  { rewrite <- H1. change (Z.to_nat 0) with 0%nat. rewrite firstn_O, app_nil_l, firstn_app, firstn_all2 by (unfold len in Lw; lia).
    replace (50 - length (t ++ repeat 0%Z (50 - length t)))%nat with 0%nat by (unfold len in Lw; lia). rewrite firstn_O. now rewrite app_nil_r. }
  rewrite <- H2. change (Z.to_nat 50) with 50%nat. rewrite F. rewrite <- app_assoc.
  destruct (50 - length t)%nat; cbn [repeat app]; subst t; apply cstr_app_nul.
Qed.

Section C.
Variable w0 : world.
Definition named (w : world) : Prop :=
  own_settings (w_c w) = own_settings (w_c w0) /\ version (w_c w) = version (w_c w0) /\
  exists l, during logins w0 w l /\ name (w_c w) = last_of l (name (w_c w0)).
Lemma N_push e w : (forall s, logins s e = []) -> named w -> named (push e w).
Proof. intros H (A & B & l & D & F). split; [exact A|]. split; [exact B|]. exists l. split; [|exact F]. unfold during in *. cbn [push w_t collect]. now rewrite H, D, !app_nil_r. Qed.
Lemma N_conn f w : (forall c, own_settings (f c) = own_settings c /\ version (f c) = version c /\ c_username (f c) = c_username c) -> named w -> named (with_c f w).
Proof. intros H (A & B & l & D & F). destruct (H (w_c w)) as (X & Y & Z). unfold named, name in *. cbn [with_c w_c]. rewrite X, Y, Z. split; [exact A|]. split; [exact B|]. now exists l. Qed.
Lemma N_event e w : io_event e = false -> named w -> named (push e w).
Proof. intros H. apply N_push. intros s. destruct e; try reflexivity. discriminate H. Qed.
Ltac kpush := apply N_push; [intros ?; reflexivity|assumption].
Ltac kconn := apply N_conn; [intros; split; [|split]; reflexivity|assumption].
Ltac ks := intros; first [exact Logic.I|apply keeps_ret|now apply N_event|kpush|kconn|idtac].
Lemma N_read sz : keeps named T (io_read sz).
Proof. apply keeps_io_read; ks. Qed.
Lemma N_write b : keeps named T (io_write E hk b).
Proof. apply keeps_io_write; ks. Qed.
Ltac ks ::= intros; first [exact Logic.I|apply keeps_ret|apply N_read|apply N_write|now apply N_event|kpush|kconn|idtac].
Lemma N_ask q : keeps named T (ask E q).
Proof. unfold ask. apply keeps_bind; [apply keeps_log|]. intros t. apply keeps_bind; [apply keeps_emit; ks|intros _; apply keeps_ret]. Qed.
Lemma N_op o : keeps named T (wolf_op E hk o).
Proof. destruct o; first [apply keeps_wolf_op'; ks; fail|apply keeps_wolf_negotiate; ks]. Qed.
Lemma N_change s : keeps named T (change_conn_state E hk s).
Proof. apply keeps_change_conn_state; ks. Qed.
Lemma N_verdict b r : keeps named T (auth_verdict E hk b r).
Proof. apply keeps_auth_verdict; ks. Qed.
Lemma N_callback e v : (forall s, logins s e = []) -> keeps named T (callback E hk e v).
Proof.
  intros H. unfold callback. apply keeps_bind; [apply keeps_emit; intros; now apply N_push|]. intros _. apply keeps_bind; [apply keeps_ret|]. intros _.
  apply keeps_bind; [apply keeps_log|]. intros t. cbv zeta. apply keeps_bind; [apply keeps_emit; ks|intros _; apply keeps_ret].
Qed.
Lemma N_auth m : keeps named T (handle_auth E hk m).
Proof.
  unfold handle_auth. apply keeps_bind; [apply keeps_get|]. intros c. cbv zeta. repeat (case_if; [apply keeps_ret|]). apply keeps_bind; [apply keeps_lift; auto|]. intros ty.
  case_if; [case_if; [|apply N_verdict]|].
  - case_if; [apply keeps_ret|]. apply keeps_bind_lift; [auto|]. intros u Hu. apply keeps_bind; [apply keeps_lift; auto|]. intros p.
    assert (len u = 50) as Lu by (apply ldn_val in Hu as (H1 & H2 & H3 & ->); now apply len_slice).
    intros w (A & B & l & D & F). unfold bind at 1, callback at 1. unfold bind at 1, emit at 1. unfold bind at 1, ret at 1. unfold bind at 1, log at 1. unfold bind at 1, emit at 1. unfold ret at 1.
    unfold bind at 1, get at 1. unfold bind at 1. change HE_CONFIG_TEXT_FIELD_LENGTH with 50.
    destruct (strncpy _ u 50) as [un1|] eqn:S1; [|exact Logic.I]. cbn [lift]. unfold ret at 1. unfold bind at 1.
    destruct (st8 un1 50 0) as [un2|] eqn:S2; [|exact Logic.I]. cbn [lift]. unfold ret at 1. rewrite upd_first.
    match goal with |- match ?m ?v with _ => _ end => assert (named v) as Nv; [|exact (@N_verdict _ _ _ Nv)] end.
    split; [exact A|]. split; [exact B|]. exists (l ++ [u]). split.
    + unfold during in *. cbn [with_c w_t w_c collect logins]. rewrite app_nil_r, D. now rewrite app_assoc.
    + rewrite last_app. unfold name. cbn [with_c w_c set_username c_username]. exact (stored_name Lu S1 S2).
  - repeat first [apply keeps_ret|apply N_verdict|apply N_callback; reflexivity|case_if|apply keeps_bind; [first [apply keeps_lift; now auto|apply N_callback; reflexivity]|intros ?]]; cbv zeta;
    repeat first [apply keeps_ret|apply N_verdict|apply N_callback; reflexivity|case_if|apply keeps_bind; [first [apply keeps_lift; now auto|apply N_callback; reflexivity]|intros ?]].
Qed.
Lemma N_process m : keeps named T (process_message E hk m).
Proof.
  unfold process_message. case_if; [apply keeps_bind; [apply keeps_upd; ks|intros _; apply keeps_ret]|]. apply keeps_bind; [apply keeps_lift; auto|]. intros id.
  apply keeps_bind; [apply keeps_get|]. intros srv. repeat case_if; try apply keeps_ret.
  - apply keeps_handle_ping; ks.
  - apply keeps_handle_pong; ks.
  - apply N_auth.
  - apply keeps_handle_data; ks.
  - apply keeps_handle_config; ks.
  - apply keeps_handle_13; ks.
  - apply keeps_handle_server_config; ks.
  - apply keeps_handle_frag; ks.
Qed.
Lemma N_timeout : keeps named T (update_timeout E hk).
Proof. apply keeps_update_timeout; ks. Qed.
Lemma N_event' v : keeps named T (generate_event hk v).
Proof. unfold generate_event. repeat first [apply keeps_get|case_if|apply keeps_ret|apply keeps_bind; [|intros ?]|apply keeps_when|apply keeps_emit; ks]. all: try (unfold notify; apply keeps_bind; [apply keeps_emit; ks|intros _; apply keeps_ret]). Qed.
Lemma N_upd f : (forall c, own_settings (f c) = own_settings c /\ version (f c) = version c /\ c_username (f c) = c_username c) -> keeps named T (upd f).
Proof. intros H. apply keeps_upd. intros. now apply N_conn. Qed.
Ltac ku := apply N_upd; intros; split; [|split]; reflexivity.
Lemma N_reneg : keeps named T (renegotiate_ssl E hk).
Proof. apply reneg_kept; intros; first [apply N_ask|apply N_op|apply N_event'|apply N_timeout|ku]. Qed.
Lemma N_check : keeps named T (check_renegotiation E hk).
Proof. apply check_kept; intros; first [apply N_ask|apply N_op|apply N_event'|apply N_timeout|ku]. Qed.
Lemma N_verify : keeps named T (verify_connection E hk).
Proof.
  apply verify_kept; intros; first [apply N_op|apply N_event'|apply N_timeout|apply N_change|apply N_reneg|apply N_check|ku|idtac].
  rename H into Hw, H0 into R. pose proof (@N_op WRecv w Hw) as K. rewrite R in K. case_if; [exact K|exact (@N_process d w' K)].
Qed.
Lemma N_outside b : keeps named T (outside_data_received E hk b).
Proof. apply outside_kept; intros; [apply keeps_plugin_ingress; ks|ku|ku|exact N_verify|apply keeps_session_in; ks]. Qed.
End C.
Lemma named_refl w : named w w.
Proof. split; [reflexivity|]. split; [reflexivity|]. exists []. split; [unfold during; now rewrite app_nil_r|reflexivity]. Qed.
End R.

Lemma own_split c c' : own_settings c = own_settings c' ->
  c_password c = c_password c' /\ c_auth_type c = c_auth_type c' /\ c_auth_buf c = c_auth_buf c' /\ c_auth_len c = c_auth_len c' /\ c_sni c = c_sni c' /\ c_mtu c = c_mtu c'.
Proof. unfold own_settings. intros H. apply pair_equal_spec in H as [H M]. apply pair_equal_spec in H as [H N]. apply pair_equal_spec in H as [P H]. apply pair_equal_spec in H as [H L]. apply pair_equal_spec in H as [Q B]. auto 10. Qed.
Lemma buffer_long E b w rc w' : 65535 < len b -> call E (OSetAuthBuf b) w rc w' -> rc = HE_ERR_STRING_TOO_LONG /\ w_c w' = w_c w.
Proof.
  intros L C. destruct (call_body C) as (w1 & Bd & ->). cbn [api_body] in Bd. unfold set_auth_buffer in Bd.
  match type of Bd with context [firstn (Z.to_nat 65535) ?x] => assert (len (firstn (Z.to_nat 65535) x) = 65535) as Lx end.
  { rewrite len_firstn. try (unfold u8s; rewrite len_map). lia. }
  cbv zeta in Bd. rewrite Lx in Bd. change (65535 =? 0) with false in Bd. change (HE_MAX_MTU - sizeof_auth_buf <? 65535) with true in Bd. cbv iota in Bd.
  unfold ret in Bd. apply Done_inv in Bd as [<- <-]. split; reflexivity.
Qed.

(** ** What a call that sets nothing leaves as it is *)
Theorem C50_settings : forall E o w rc w', reached E w -> call E o w rc w' -> is_setter o = false ->
  own_settings (w_c w') = own_settings (w_c w) /\
  match o with
  | OOutside _ => exists l, during logins w w' l /\ name (w_c w') = last_of l (name (w_c w))
  | _ => name (w_c w') = name (w_c w)
  end /\
  match the_context o with
  | None => version (w_c w') = version (w_c w)
  | Some x => exists l, during allocs w w' l /\ version (w_c w') = match l with [] => version (w_c w) | _ => version_from x (w_c w) end
  end.
Proof.
  intros E o w rc w' Re C U. destruct (call_body C) as (w1 & Bd & ->). change (w_c (push (ERet o rc) w1)) with (w_c w1).
  destruct (the_context o) as [x|] eqn:X.
  - destruct (connect_settings X Bd) as (A & B & l & D & F). split; [exact A|]. split.
    + destruct o; try discriminate X; unfold name; now rewrite B.
    + exists l. split; [|exact F]. now apply during_call.
  - destruct (is_outside o) eqn:O.
    + destruct o; try discriminate O. cbn [api_body] in Bd. pose proof (@N_outside E (push (ECall (OOutside buffer)) w) (u8s buffer) _ (named_refl _)) as K. rewrite Bd in K.
      destruct K as (A & B & l & D & F). split; [exact A|]. split; [|exact B]. exists l. split; [now apply during_call|exact F].
    + assert (same (w_c w) w1) as (A & B & F).
      { assert (forall b, o <> OOutside b) as N by (intros b ->; discriminate O). pose proof (@same_body E (w_c w) o U X N (push (ECall o) w)) as K. rewrite Bd in K. apply K. split; [reflexivity|]. split; reflexivity. }
      split; [exact A|]. split; [|exact B]. destruct o; try discriminate O; unfold name; now rewrite F.
Qed.
Print Assumptions C50_settings.

(** ** After any history the connection has what was chosen *)
Theorem C50_history : forall E w, reached E w ->
  password (w_c w) = by_password (chosen_in (w_t w)) /\ c_auth_type (w_c w) = by_method (chosen_in (w_t w)) /\
  auth_data (w_c w) = by_data (chosen_in (w_t w)) /\ c_mtu (w_c w) = by_mtu (chosen_in (w_t w)).
Proof.
  intros E w [ops R]. pose (P := fun v : world => password (w_c v) = by_password (chosen_in (w_t v)) /\ c_auth_type (w_c v) = by_method (chosen_in (w_t v)) /\
    auth_data (w_c v) = by_data (chosen_in (w_t v)) /\ c_mtu (w_c v) = by_mtu (chosen_in (w_t v))).
  assert (forall w0 w, reached E w0 -> P w0 -> run E 0 ops w0 = Done tt w -> P w) as H.
  2:{ apply (H world_new w); auto; [now exists []|]. split; [|split; [|split]]; reflexivity. }
  clear w R. induction ops as [|o ops IH]; intros w0 w Re Aw; cbn [run]; [now intros [= <-]|]. change (hookn E 0) with (@ret unit tt).
  destruct (api E (ret tt) o w0) as [rc w1|] eqn:C; [|discriminate]. apply IH; [exact (reached_call Re C)|]. clear IH ops.
  assert (chosen_in (w_t w1) = set_by o rc (chosen_in (w_t w0))) as Eq.
  { destruct (call_body C) as (w2 & Bd & ->). cbn [push w_t chosen_in]. f_equal.
    pose (I := fun v : world => chosen_in (w_t v) = chosen_in (w_t w0)).
    assert (Frame.keeps I I (api_body E (ret tt) o)) as Kp.
    { apply keeps_log_body; [|auto|apply keeps_ret]. intros e v _ N2 Hv. unfold I in *. cbn [push w_t chosen_in]. destruct e; try exact Hv. edestruct N2; reflexivity. }
    specialize (Kp (push (ECall o) w0)). rewrite Bd in Kp. now apply Kp. }
  unfold P. rewrite Eq. clear Eq. destruct Aw as (A1 & A2 & A3 & A4). destruct (is_setter o) eqn:U.
  2:{ destruct (C50_settings Re C U) as (O & _). apply own_split in O as (O1 & O2 & O3 & O4 & _ & O6).
      unfold password, auth_data in *. rewrite O1, O2, O3, O4, O6. destruct o; try discriminate U; auto. }
  destruct o; try discriminate U; cbn [set_by].
  - destruct (C23_username Re C) as (_ & _ & f & ->). cbn [by_password by_method by_data by_mtu]. auto.
  - destruct (C23_password Re C) as (_ & Pw & f & Cw). cbn [by_password by_method by_data by_mtu]. rewrite Pw, Cw. unfold text. rewrite A1. split; [reflexivity|]. auto.
  - destruct (C23_token Re C) as (_ & No & Yes). destruct (Z.eqb_spec rc 0) as [Q|Q].
    + destruct (Yes Q) as (D & T & n & f & Cw). rewrite D, T, Cw. cbn [by_password by_method by_data by_mtu]. auto.
    + rewrite (No Q). auto.
  - destruct (Z.ltb_spec 65535 (len b)) as [L|L].
    + destruct (buffer_long L C) as [-> ->]. auto.
    + destruct (C23_buffer Re L C) as (_ & No & Yes). destruct (Z.eqb_spec rc 0) as [Q|Q].
      * destruct (Yes Q) as (D & T & n & f & Cw). rewrite D, T, Cw. cbn [by_password by_method by_data by_mtu]. auto.
      * rewrite (No Q). auto.
  - destruct (call_body C) as (w2 & Bd & ->). cbn [api_body] in Bd. unfold set_outside_mtu in Bd. change (w_c (push (ERet (OSetMtu mtu) rc) w2)) with (w_c w2).
    destruct (_ <=? _); [unfold ret in Bd; apply Done_inv in Bd as [<- <-]; auto|]. rewrite upd_first in Bd. unfold ret in Bd. apply Done_inv in Bd as [<- <-].
    change (HE_SUCCESS =? 0) with true. cbn [by_password by_method by_data by_mtu]. auto.
  - destruct (call_body C) as (w2 & Bd & ->). cbn [api_body] in Bd. change (w_c (push (ERet (OSetVersion ma mi) rc) w2)) with (w_c w2).
    rewrite upd_first in Bd. unfold ret in Bd. apply Done_inv in Bd as [<- <-]. auto.
  - destruct (C23_sni Re C) as (_ & f & -> & _). auto.
Qed.
Print Assumptions C50_history.
(** he_conn_set_protocol_version sets the version and nothing else. *)
Theorem C50_version : forall E a b w rc w', call E (OSetVersion a b) w rc w' ->
  rc = HE_SUCCESS /\ version (w_c w') = (u8 a, u8 b) /\ name (w_c w') = name (w_c w) /\ own_settings (w_c w') = own_settings (w_c w) /\
  exists f g, w_c w' = set_vmin f (set_vmaj g (w_c w)).
Proof.
  intros E a b w rc w' C. destruct (call_body C) as (w2 & Bd & ->). cbn [api_body] in Bd. change (w_c (push (ERet (OSetVersion a b) rc) w2)) with (w_c w2).
  rewrite upd_first in Bd. unfold ret in Bd. apply Done_inv in Bd as [<- <-]. split; [reflexivity|]. split; [reflexivity|]. split; [reflexivity|]. split; [reflexivity|]. now exists (u8 b), (u8 a).
Qed.
Print Assumptions C50_version.

(** ** Queries *)
Lemma nth_cstr b : (nth 0 b 0 =? 0) = match cstr b with [] => true | _ => false end.
Proof. destruct b as [|x b]; [reflexivity|]. cbn [nth cstr]. destruct (x =? 0); reflexivity. Qed.
Definition nonempty (b : bytes) : bool := match b with [] => false | _ => true end.
Theorem C50_queries : forall E w, reached E w ->
  is_username_set (w_c w) = nonempty (name (w_c w)) /\ is_password_set (w_c w) = nonempty (by_password (chosen_in (w_t w))) /\
  is_auth_token_set (w_c w) = (by_method (chosen_in (w_t w)) =? HE_AUTH_TYPE_TOKEN) && nonempty (by_data (chosen_in (w_t w))) /\
  is_auth_buffer_set (w_c w) = nonempty (by_data (chosen_in (w_t w))) /\
  get_outside_mtu (w_c w) = by_mtu (chosen_in (w_t w)) /\ is_outside_mtu_set (w_c w) = (0 <? by_mtu (chosen_in (w_t w))).
Proof.
  intros E w Re. destruct (C50_history Re) as (A & B & C & D). rewrite <- A, <- B, <- C, <- D.
  pose proof (ok_auth_buf (reached_cok Re)) as Lb. pose proof (ok_auth_len (reached_cok Re)) as Ll. change HE_MAX_MTU with 1350 in *.
  assert (is_auth_buffer_set (w_c w) = nonempty (auth_data (w_c w))) as Q.
  { unfold is_auth_buffer_set, auth_data. assert (len (firstn (Z.to_nat (c_auth_len (w_c w))) (c_auth_buf (w_c w))) = c_auth_len (w_c w)) as L by (rewrite len_firstn; lia).
    destruct (firstn _ _) as [|b l]; cbn [nonempty]; [rewrite <- L; reflexivity|]. rewrite len_cons in L. pose proof (len_nonneg l). destruct (Z.eqb_spec (c_auth_len (w_c w)) 0); [lia|reflexivity]. }
  split; [unfold is_username_set, name; rewrite nth_cstr; destruct (cstr _); reflexivity|]. split; [unfold is_password_set, password; rewrite nth_cstr; destruct (cstr _); reflexivity|].
  split; [|split; [exact Q|split; reflexivity]]. unfold is_auth_token_set. fold (is_auth_buffer_set (w_c w)). now rewrite Q.
Qed.
Print Assumptions C50_queries.

(** The protocol a host is told is the one wolfSSL speaks, and there is none, nor
    names of a cipher or curve, before the connection has a TLS session. *)
Theorem C50_protocol : forall v (r : option bytes) c,
  (c_wolf c = false -> get_current_protocol v c = HE_CONNECTION_PROTOCOL_NONE /\ get_name r c = None) /\
  (c_wolf c = true -> get_name r c = r /\
   (get_current_protocol v c = HE_CONNECTION_PROTOCOL_TLS_1_3 <-> v = 772) /\
   (get_current_protocol v c = HE_CONNECTION_PROTOCOL_DTLS_1_2 <-> v = 65277) /\
   (get_current_protocol v c = HE_CONNECTION_PROTOCOL_DTLS_1_3 <-> v = 65276) /\
   (get_current_protocol v c = HE_CONNECTION_PROTOCOL_NONE <-> v <> 772 /\ v <> 65277 /\ v <> 65276)).
Proof.
  intros v r c. unfold get_current_protocol, get_name, TLS1_3_VERSION, DTLS1_2_VERSION, DTLS1_3_VERSION. split; intros ->; cbn [negb]; [now split|].
  split; [reflexivity|]. destruct (Z.eqb_spec v 772) as [->|A]; [|destruct (Z.eqb_spec v 65277) as [->|B]; [|destruct (Z.eqb_spec v 65276) as [->|C]]].
  all: intuition (discriminate || congruence || lia).
Qed.
Print Assumptions C50_protocol.

(** ** Non-vacuity *)
(** A client that has set everything, connects and exchanges data still has it. *)
Definition chooser : list op := [OSetUsername user; OSetPassword pass; OSetPassword []; OSetMtu 1500; OSetMtu 100; OClientConnect dctx [] []; OOutside (dgram 0 [])].
Example chosen_ex : reached plain_env (world_at chooser) /\ chosen_in (w_t (world_at chooser)) = Chosen pass HE_AUTH_TYPE_USERPASS [] 1500 /\
  c_state (w_c (world_at chooser)) = HE_STATE_AUTHENTICATING /\ version (w_c (world_at chooser)) = (u8 (x_max_major dctx), u8 (x_max_minor dctx)).
Proof. split; [apply world_at_reached; vm_compute; reflexivity|]. split; [vm_compute; reflexivity|]. split; vm_compute; reflexivity. Qed.
(** A server takes over the name of the user it asked about. *)
Example login_ex : let w := world_at (firstn 3 server_up) in
  exists w', reached plain_env w /\ call plain_env (OOutside (dgram 0 (userpass_message user pass))) w HE_SUCCESS w' /\
  name (w_c w) = [] /\ name (w_c w') = user /\ exists f, during logins w w' [f] /\ cstr f = user.
Proof.
  cbv zeta. exists (world_at server_up). split; [apply world_at_reached; vm_compute; reflexivity|]. split; [vm_compute; reflexivity|]. split; [vm_compute; reflexivity|]. split; [vm_compute; reflexivity|].
  exists (user ++ repeat 0 46). split; vm_compute; reflexivity.
Qed.
(** A token counts as a buffer too. *)
Example token_ex : let w := world_at [OSetToken [1; 2; 3]; OSetToken []] in reached plain_env w /\ is_auth_token_set (w_c w) = true /\ is_auth_buffer_set (w_c w) = true /\ is_password_set (w_c w) = false.
Proof. cbv zeta. split; [apply world_at_reached; vm_compute; reflexivity|]. repeat split; vm_compute; reflexivity. Qed.
