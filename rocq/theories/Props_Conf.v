(** C16: configuration arrives at the client's host as the server's host gave it. *)
From Verif Require Import Base Codes Ctx Config Mss MssSpec Frag FragSpec
  Wire WireSpec WireProofs ConnState Conn ConnSpec CallSpec MsgSpec CredSpec ConfSpec ConnSteps ConnWpApi Frame Seq SeqLoop SeqApi SeqWire
  Scenario Props_Data Props_Cred ConfServer ConfClient.
Unset Strict Implicit.

(** ** The server sends what its host says *)
(** In every call, each answer of the host's callback that is a success is followed
    by the message that carries it and the session, and no other such message is
    sent; only servers do this, and only in he_conn_outside_data_received. *)
Theorem C16_server_replies : forall E o w rc w', call E o w rc w' ->
  exists l, during offering w w' l /\ offers (e_le E) (c_session (w_c w)) l /\
    (c_is_server (w_c w) = false -> l = []) /\ ((forall b, o <> OOutside b) -> l = []).
Proof. exact offers_call. Qed.
Print Assumptions C16_server_replies.

(** he_conn_send_server_config: one message, the one with these bytes. *)
Theorem C16_server_config : forall E b w rc w', call E (OServerConfig b) w rc w' ->
  if negb (c_is_server (w_c w)) || negb (ready_for_server_config (c_state (w_c w))) then rc = HE_ERR_INVALID_CONN_STATE /\ during sent w w' []
  else if 1347 <? len b then rc = HE_ERR_PACKET_TOO_LARGE /\ during sent w w' []
  else exists l, during wrote w w' l /\ during sent w w' (map (fun x => fst (fst x)) l) /\ writes [server_config_message (u8s b)] l rc.
Proof.
  intros E b w rc w' C. destruct (call_body C) as (w1 & Bd & ->). change (send_server_config E (ret tt) (u8s b) (push (ECall (OServerConfig b)) w) = Done rc w1) in Bd.
  unfold send_server_config in Bd. unfold bind at 1, get at 1 in Bd. change (w_c (push (ECall (OServerConfig b)) w)) with (w_c w) in Bd.
  change valid_state_for_server_config with ready_for_server_config in Bd.
  assert (forall A (f : Z -> ev -> list A), (forall s, f s (ECall (OServerConfig b)) = []) -> (forall s, f s (ERet (OServerConfig b) rc) = []) -> forall l, during f (push (ECall (OServerConfig b)) w) w1 l -> during f w (push (ERet (OServerConfig b) rc) w1) l) as Dc.
  { intros A f H1 H2 l D. unfold during in *. cbn [push w_t collect] in *. now rewrite H2, app_nil_r, D, H1, app_nil_r. }
  destruct (c_is_server (w_c w)); cbn [negb orb] in *; [|apply Done_inv in Bd; destruct Bd as [<- <-]; split; [reflexivity|]; now apply Dc, during_nil].
  destruct (ready_for_server_config _); cbn [negb] in *; [|apply Done_inv in Bd; destruct Bd as [<- <-]; split; [reflexivity|]; now apply Dc, during_nil].
  assert (len (u8s b) = len b) as Lu by (unfold u8s, len; now rewrite map_length).
  change (HE_MAX_MTU - sizeof_server_config) with 1347 in Bd. rewrite Lu in Bd. destruct (Z.ltb_spec 1347 (len b)) as [L|L]; [apply Done_inv in Bd; destruct Bd as [<- <-]; split; [reflexivity|]; now apply Dc, during_nil|].
  rewrite build_server_config_ok in Bd by (change (HE_MAX_MTU - sizeof_server_config) with 1347; lia). unfold bind at 1, lift at 1, ret at 1 in Bd.
  set (m := server_config_message (u8s b)) in *. assert (len m = sizeof_server_config + len b) as Lm.
  { unfold m, server_config_message, be16. cbn [app]. rewrite !len_cons, Lu. change sizeof_server_config with 3. lia. }
  rewrite ldn_ok in Bd. 2, 3: change sizeof_server_config with 3 in *; pose proof (len_nonneg b); lia. 2: rewrite len_app; pose proof (len_nonneg (zeros (HE_MAX_MTU - sizeof_server_config - len (u8s b)))); lia.
  unfold bind at 1, lift at 1, ret at 1 in Bd. rewrite <- Lm in Bd.
  assert (slice (m ++ zeros (HE_MAX_MTU - sizeof_server_config - len (u8s b))) 0 (len m) = m) as Sl.
  { unfold slice, len. cbn [Z.to_nat skipn]. rewrite Nat2Z.id. apply firstn_app_exact. }
  rewrite Sl in Bd. destruct (send_writes Bd) as (l & D1 & D2 & W). exists l. split; [now apply Dc|]. split; [now apply Dc|exact W].
Qed.
Print Assumptions C16_server_config.

(** ** The client tells its host what it receives *)
(** For each message received, in order, exactly the callback it asks for. *)
Theorem C16_client_told : forall E b w rc w', call E (OOutside b) w rc w' ->
  exists ds, during (both configuring) w w' (caused ds) /\
    Forall (fun d : (Z * bytes) * list configured => let (x, l) := d in
              if c_is_server (w_c w) then l = [] else tells (c_cbs (w_c w)) x l) ds.
Proof.
  intros E b w rc w' C. destruct (told_during C) as (ds & D & F). exists ds. split; [exact D|]. eapply Forall_impl; [|exact F]. intros [x l] H. exact H.
Qed.
Print Assumptions C16_client_told.
(** No other call tells anything. *)
Theorem C16_no_other : forall E o w rc w', (forall b, o <> OOutside b) -> call E o w rc w' -> during configuring w w' [].
Proof.
  intros E o w rc w' No C. destruct (call_body C) as (w1 & Bd & ->). apply during_call; try reflexivity.
  set (I := fun v : world => collect configuring (w_t v) = collect configuring (w_t w)).
  assert (forall e v, (forall s, configuring s e = []) -> I v -> I (push e v)) as Hp.
  { intros e v H H1. unfold I. cbn [push w_t collect]. now rewrite H, app_nil_r. }
  assert (forall f v, I v -> I (with_c f v)) as Hc by (intros f v H; exact H).
  assert (forall e v, io_event e = false -> I v -> I (push e v)) as He.
  { intros e v H. apply Hp. intros s. destruct e; try reflexivity; discriminate H. }
  assert (forall sz, keeps I (fun _ => True) (io_read sz)) as Hr by (intros sz; apply keeps_io_read; auto).
  assert (forall b, keeps I (fun _ => True) (io_write E (ret tt) b)) as Hw by (intros b; apply keeps_io_write; auto; apply keeps_ret).
  assert (keeps I (fun _ => True) (api_body E (ret tt) o)) as K.
  { apply keeps_api_body; auto; try apply keeps_ret. intros x i p. apply keeps_server_connect; auto; apply keeps_ret. }
  specialize (K (push (ECall o) w) ltac:(apply Hp; reflexivity)). rewrite Bd in K. apply during_nil. unfold I in K. rewrite K. cbn [push w_t collect configuring]. now rewrite app_nil_r.
Qed.
Print Assumptions C16_no_other.

(** ** The two fit together *)
Lemma fit_len s : len (fit s) <= 23.
Proof. unfold fit, len. rewrite firstn_length. lia. Qed.
Lemma cstr_firstn n s : cstr (firstn n (cstr s)) = firstn n (cstr s).
Proof.
  revert s. induction n as [|n IH]; intros s; [reflexivity|]. destruct s as [|b s]; [reflexivity|]. cbn [cstr]. destruct (b =? 0) eqn:Z0; [reflexivity|].
  cbn [firstn cstr]. rewrite Z0. now rewrite IH.
Qed.
Lemma fit_padded s : fit (padded 24 (fit s)) = fit s.
Proof.
  unfold fit at 1. rewrite cstr_padded; [|unfold fit; apply cstr_firstn|pose proof (@fit_len s); lia]. apply firstn_all2. pose proof (@fit_len s). unfold len in *. lia.
Qed.
(** A configuration message the server sends for the host's answer [l], [p], [d]
    makes a client that is waiting for it tell its host the same strings (those
    of more than 23 bytes cut to 23) and the MTU 1350. *)
Theorem C16_round_trip : forall le l p d session k r, cb_netcfg k = true ->
  tells k (HE_STATE_AUTHENTICATING, config_message le (fit l) (fit p) (fit d) session) r ->
  exists l' p' d', r = [NetCfg l' p' d' 1350] /\
    len l' = 24 /\ len p' = 24 /\ len d' = 24 /\
    cstr l' = firstn 23 (cstr l) /\ cstr p' = firstn 23 (cstr p) /\ cstr d' = firstn 23 (cstr d).
Proof.
  intros le l p d session k r Hk. set (m := config_message le (fit l) (fit p) (fit d) session).
  assert (forall s, len (padded 24 (fit s)) = 24) as Lp by (intros s; pose proof (@fit_len s); apply Props_Cred.len_padded; lia).
  assert (len m = 105) as Lm.
  { unfold m, config_message. rewrite len_cons, !len_app, !Lp. rewrite len_bytes64. reflexivity. }
  unfold tells. change (msg_type m) with HE_MSGID_CONFIG_IPV4. rewrite Lm, Hk. cbn [Z.eqb HE_MSGID_CONFIG_IPV4 HE_STATE_AUTHENTICATING Pos.eqb andb Z.leb Z.compare Pos.compare Pos.compare_cont].
  assert (forall (a b c : bytes) off, off = len a -> len b = 24 -> slice (a ++ b ++ c) off 24 = b) as Sl.
  { intros a b c off -> Lb. unfold slice, len in *. rewrite Nat2Z.id, skipn_app_exact. change (Z.to_nat 24) with 24%nat. replace 24%nat with (length b) by lia. apply firstn_app_exact. }
  set (A := padded 24 (fit l)) in *. set (B := padded 24 (fit p)) in *. set (C := padded 24 (fit d)) in *. set (M := padded 24 [49; 51; 53; 48]) in *.
  assert (len A = 24 /\ len B = 24 /\ len C = 24) as (LA & LB & LC) by (unfold A, B, C; auto).
  assert (slice m 1 24 = A) as -> by (change m with ([HE_MSGID_CONFIG_IPV4] ++ A ++ (B ++ C ++ M ++ bytes64 le session)); apply Sl; [reflexivity|exact LA]).
  assert (slice m 25 24 = B) as -> by (replace m with (([HE_MSGID_CONFIG_IPV4] ++ A) ++ B ++ (C ++ M ++ bytes64 le session)) by (unfold m, config_message; fold A B C M; now rewrite <- !app_assoc); apply Sl; [rewrite len_app, LA; reflexivity|exact LB]).
  assert (slice m 49 24 = C) as -> by (replace m with (([HE_MSGID_CONFIG_IPV4] ++ A ++ B) ++ C ++ (M ++ bytes64 le session)) by (unfold m, config_message; fold A B C M; now rewrite <- !app_assoc); apply Sl; [rewrite !len_app, LA, LB; reflexivity|exact LC]).
  assert (slice m 73 24 = M) as -> by (replace m with (([HE_MSGID_CONFIG_IPV4] ++ A ++ B ++ C) ++ M ++ bytes64 le session) by (unfold m, config_message; fold A B C M; now rewrite <- !app_assoc); apply Sl; [rewrite !len_app, LA, LB, LC; reflexivity|reflexivity]).
  intros (mtu & [R1 R2] & ->). exists (padded 24 (fit A)), (padded 24 (fit B)), (padded 24 (fit C)).
  unfold A, B, C. rewrite !fit_padded.
  assert (forall s, cstr (padded 24 (fit s)) = firstn 23 (cstr s)) as Cs by (intros s; rewrite cstr_padded; [reflexivity|unfold fit; apply cstr_firstn|pose proof (@fit_len s); lia]).
  assert (mtu = 1350) as ->. { change (fit M) with [49; 51; 53; 48] in R2. apply R2; [discriminate| |vm_compute; split; discriminate]. unfold decimal_digit. repeat constructor; discriminate. }
  auto 10.
Qed.
Print Assumptions C16_round_trip.
(** A message made by he_conn_send_server_config makes a client tell its host the
    same bytes. *)
Theorem C16_server_config_round_trip : forall b k s r, len b <= 1347 -> cb_srvcfg k = true -> ready_for_server_config s = true ->
  tells k (s, server_config_message b) r -> r = [SrvCfg b].
Proof.
  intros b k s r L Hk Hs. unfold tells. change (msg_type (server_config_message b)) with HE_MSGID_SERVER_CONFIG. change (HE_MSGID_SERVER_CONFIG =? HE_MSGID_CONFIG_IPV4) with false.
  change (HE_MSGID_SERVER_CONFIG =? HE_MSGID_SERVER_CONFIG) with true. rewrite Hs, Hk. cbn [andb]. pose proof (len_nonneg b).
  assert (len (server_config_message b) = 3 + len b) as -> by (unfold server_config_message, be16; cbn [app]; rewrite !len_cons; lia).
  assert (field16 (server_config_message b) 1 = len b) as -> by (unfold field16, server_config_message, be16; cbn [app nth]; Z.div_mod_to_equations; lia).
  destruct (Z.leb_spec 3 (3 + len b)); [|lia]. rewrite Z.leb_refl. cbn [andb]. intros ->. f_equal. f_equal.
  unfold slice, server_config_message, be16. cbn [app Z.to_nat Pos.to_nat Pos.iter_op Nat.add skipn]. unfold len. now rewrite Nat2Z.id, firstn_all.
Qed.
Print Assumptions C16_server_config_round_trip.
(** The MTU told is always valid. *)
Theorem C16_mtu_valid : forall k x l a b c mtu, tells k x l -> In (NetCfg a b c mtu) l -> 1 <= mtu <= 1350.
Proof.
  intros k [s m] l a b c mtu. unfold tells. case_if.
  - intros (v & [R _] & ->) [H|[]]. congruence.
  - case_if; intros -> H; [destruct H as [H|[]]; discriminate H|destruct H].
Qed.
Print Assumptions C16_mtu_valid.

(** ** Examples *)
(** A server whose host answers with three addresses sends them, and the client
    tells its host the same. *)
Example reply_ex : exists w', let w := world_at (firstn 3 server_up) in
  reached plain_env w /\ call plain_env (OOutside (dgram 0 (userpass_message user pass))) w HE_SUCCESS w' /\
  collect offering (w_t w') = [Host (field24 (ip 1)) (field24 (ip 2)) (field24 (ip 3)); HostCode HE_SUCCESS;
    Reply (config_message true (ip 1) (ip 2) (ip 3) (c_session (w_c w)))].
Proof. eexists. split; [apply world_at_reached; vm_compute; reflexivity|]. split; vm_compute; reflexivity. Qed.
Example told_ex : exists w', let w := world_at (firstn 5 client_up) in
  reached plain_env w /\ call plain_env (OOutside (dgram 0 (config_message true (ip 1) (ip 2) (ip 3) 4660))) w HE_SUCCESS w' /\
  collect configuring (w_t w') = [NetCfg (padded 24 (ip 1)) (padded 24 (ip 2)) (padded 24 (ip 3)) 1350].
Proof. eexists. split; [apply world_at_reached; vm_compute; reflexivity|]. split; vm_compute; reflexivity. Qed.
Example server_config_ex : exists w', let w := world_at server_up in
  reached plain_env w /\ call plain_env (OServerConfig [1; 2; 3]) w HE_SUCCESS w' /\
  during sent w w' [server_config_message [1; 2; 3]].
Proof. eexists. split; [apply world_at_reached; vm_compute; reflexivity|]. split; vm_compute; reflexivity. Qed.
Example srvcfg_told_ex : exists w', let w := world_at client_up in
  reached plain_env w /\ call plain_env (OOutside (dgram 4660 (server_config_message [1; 2; 3]))) w HE_SUCCESS w' /\
  during configuring w w' [SrvCfg [1; 2; 3]].
Proof. eexists. split; [apply world_at_reached; vm_compute; reflexivity|]. split; vm_compute; reflexivity. Qed.

(** A number of more than 32 bits in the MTU field is taken modulo 2^32: the text
    4294967396 means 100. *)
Theorem C16_large_mtu_refuted : exists m w',
  let w := world_at (firstn 5 client_up) in
  reached plain_env w /\ call plain_env (OOutside (dgram 0 m)) w HE_SUCCESS w' /\
  decimal (fit (slice m 73 24)) = 4294967396 /\
  collect configuring (w_t w') = [NetCfg (padded 24 (ip 1)) (padded 24 (ip 2)) (padded 24 (ip 3)) 100].
Proof.
  exists (HE_MSGID_CONFIG_IPV4 :: padded 24 (ip 1) ++ padded 24 (ip 2) ++ padded 24 (ip 3) ++ padded 24 [52; 50; 57; 52; 57; 54; 55; 51; 57; 54] ++ bytes64 true 4660).
  eexists. split; [apply world_at_reached; vm_compute; reflexivity|]. split; [vm_compute; reflexivity|]. split; vm_compute; reflexivity.
Qed.
Print Assumptions C16_large_mtu_refuted.
