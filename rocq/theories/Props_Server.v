(** C35 for a server: messages without effect, AUTH messages included. *)
From Verif Require Import Base Codes Ctx Config Mss MssSpec Frag Wire WireSpec WireProofs ConnState Conn ConnSpec MsgSpec CallSpec.
From Verif Require Import ConnSteps ConnWp ConnWpApi Frame Reaction Seq SeqLoop SeqApi Scenario Props_Data Props_Msg ReactServer.
Unset Strict Implicit.

Lemma auth_unanswered E d w code : bytes_ok d -> 0 < len d -> c_is_server (w_c w) = true ->
  auth_refused (c_cbs (w_c w)) d = Some code -> handle_auth E (ret tt) d w = Done code w.
Proof.
  intros Bd Ld Sv H. unfold handle_auth. unfold bind at 1, get at 1. rewrite Sv. cbn [negb andb]. set (k := c_cbs (w_c w)) in *. unfold auth_refused in H.
  destruct (cb_populate k); cbn [negb orb] in *; [|now injection H as <-].
  replace (negb (cb_auth k) && negb (cb_authtok k) && negb (cb_authbuf k)) with (negb (cb_auth k || cb_authtok k || cb_authbuf k)) by (destruct (cb_auth k), (cb_authtok k), (cb_authbuf k); reflexivity).
  destruct (negb (cb_auth k || cb_authtok k || cb_authbuf k)); [now injection H as <-|].
  change sizeof_auth_hdr with 2. destruct (Z.ltb_spec (len d) 2) as [L|L]; [now injection H as <-|].
  rewrite ld8_ok by lia. change (Z.to_nat 1) with 1%nat. unfold bind at 1, lift at 1, ret at 1. cbv zeta in H.
  change sizeof_auth with 104. change sizeof_auth_token with 4. change sizeof_auth_buf with 4.
  destruct (Z.eqb_spec (nth 1 d 0) HE_AUTH_TYPE_USERPASS) as [M1|M1].
  { rewrite M1 in H. change (HE_AUTH_TYPE_USERPASS =? HE_AUTH_TYPE_TOKEN) with false in H. change (HE_AUTH_TYPE_USERPASS =? HE_AUTH_TYPE_CB) with false in H. cbn [andb orb] in H. rewrite !orb_false_r in H.
    destruct (cb_auth k); [|discriminate H]. destruct (len d <? 104); [now injection H as <-|discriminate H]. }
  cbn [andb orb] in H.
  assert (forall i : Z, 4 < len d -> exists raw, ldh16 (e_le E) d 2 = Val raw /\ ntohs (e_le E) raw = field16 d 2) as F2.
  { intros _ L4. destruct (@field16_ok E d 2 Bd) as (raw & F & N & _); [lia|lia|]. exists raw. auto. }
  destruct (Z.eqb_spec (nth 1 d 0) HE_AUTH_TYPE_TOKEN) as [M2|M2].
  { rewrite M2 in H. change (HE_AUTH_TYPE_TOKEN =? HE_AUTH_TYPE_CB) with false in H. cbn [andb orb] in H. rewrite orb_false_r in H.
    destruct (cb_authtok k); cbn [andb] in H; [|discriminate H]. destruct (Z.leb_spec (len d) 4) as [L4|L4]; [now injection H as <-|]. cbn [orb] in H.
    destruct (F2 0 L4) as (raw & -> & N). unfold bind at 1, lift at 1, ret at 1. rewrite N. destruct (Z.ltb_spec (len d) (4 + field16 d 2)); [|discriminate H].
    destruct (Z.ltb_spec (len d - 4) (field16 d 2)); [|lia]. now injection H as <-. }
  cbn [andb orb] in H.
  destruct (Z.eqb_spec (nth 1 d 0) HE_AUTH_TYPE_CB) as [M3|M3]; [|discriminate H]. cbn [andb] in H.
  destruct (cb_authbuf k); cbn [andb] in H; [|discriminate H]. destruct (Z.leb_spec (len d) 4) as [L4|L4]; [now injection H as <-|]. cbn [orb] in H.
  destruct (F2 0 L4) as (raw & -> & N). unfold bind at 1, lift at 1, ret at 1. rewrite N. destruct (Z.ltb_spec (len d) (4 + field16 d 2)); [|discriminate H].
  destruct (Z.ltb_spec (len d - 4) (field16 d 2)); [|lia]. now injection H as <-.
Qed.
Lemma leaves_refl w : leaves w w.
Proof. repeat split. Qed.
Lemma server_process E d w code : bytes_ok d -> 0 < len d -> c_is_server (w_c w) = true ->
  server_no_effect (c_cbs (w_c w)) (c_state (w_c w)) d = Some code ->
  exists w', process_message E (ret tt) d w = Done code w' /\ leaves w w'.
Proof.
  intros Bd Ld Sv H. unfold server_no_effect in H.
  assert (forall w', process_message E (ret tt) d w = Done code w' -> w' = w -> exists w', process_message E (ret tt) d w = Done code w' /\ leaves w w') as Fin.
  { intros w' P ->. exists w. split; [exact P|apply leaves_refl]. }
  assert (len d <? sizeof_msg_hdr = false) as Hd by (apply Z.ltb_ge; unfold sizeof_msg_hdr; lia).
  destruct (Z.eqb_spec (msg_type d) HE_MSGID_AUTH) as [Ty|N1].
  { apply (Fin w); [|reflexivity]. unfold process_message. rewrite Hd, ld8_ok by lia. change (nth (Z.to_nat 0) d 0) with (msg_type d). unfold bind at 1, lift at 1, ret at 1. unfold bind at 1, get at 1. rewrite Ty, Sv. cbn [Z.eqb Pos.eqb HE_MSGID_NOOP HE_MSGID_PING HE_MSGID_PONG HE_MSGID_AUTH].
    now apply auth_unanswered. }
  destruct ((msg_type d =? HE_MSGID_AUTH_RESPONSE) || (msg_type d =? HE_MSGID_CONFIG_IPV4) || (msg_type d =? HE_MSGID_SERVER_CONFIG)) eqn:Ty.
  { apply (Fin w); [|reflexivity]. injection H as <-. unfold process_message. rewrite Hd, ld8_ok by lia. change (nth (Z.to_nat 0) d 0) with (msg_type d). unfold bind at 1, lift at 1, ret at 1. unfold bind at 1, get at 1. rewrite Sv.
    apply orb_true_iff in Ty as [Ty|Ty]; [apply orb_true_iff in Ty as [Ty|Ty]|]; apply Z.eqb_eq in Ty; rewrite Ty; reflexivity. }
  destruct (@process_no_effect E (ret tt) d w code Bd Ld false) as (w' & P & _ & _ & _ & Q); [discriminate|exact H|]. now apply (Fin w').
Qed.

(** For a host that makes no calls inside callbacks: when a server has received a
    message that is malformed, that it cannot answer, that only a client takes, or
    whose type is unknown, the next thing that happens is the next wolfSSL_read
    (the message is ignored) or the return of he_conn_outside_data_received with
    the error. *)
Theorem C35_server : forall E w b rc w', reached E w -> c_is_server (w_c w) = true -> call E (OOutside b) w rc w' ->
  exists new, w_t w' = new ++ w_t w /\
    every (fun _ e past => match server_hot (c_cbs (w_c w)) past with None => True | Some code => reacts code e = true end) new.
Proof.
  intros E w b rc w' _ Sv C. apply (reacted_call (f := server_no_effect (c_cbs (w_c w)))) in C; [exact C|].
  intros d v code Bd Ld S H. unfold stable in S. injection S as S1 S2 _. apply server_process; auto; congruence.
Qed.
Print Assumptions C35_server.

(** A server that is sent an AUTH message with a token shorter than it says, and
    an AUTH_RESPONSE. *)
Definition server_world (more : list op) := world_at (server_up ++ more).
Example C35_server_example :
  let w := server_world [] in let m := [HE_MSGID_AUTH; HE_AUTH_TYPE_USERPASS; 4; 4; 97] in
  reached plain_env w /\ c_is_server (w_c w) = true /\
  server_no_effect (c_cbs (w_c w)) (c_state (w_c w)) m = Some HE_ERR_PACKET_TOO_SMALL /\
  call plain_env (OOutside (dgram 4660 m)) w HE_ERR_PACKET_TOO_SMALL (server_world [OOutside (dgram 4660 m)]) /\
  server_no_effect (c_cbs (w_c w)) (c_state (w_c w)) auth_denied_message = Some HE_SUCCESS /\
  call plain_env (OOutside (dgram 4660 auth_denied_message)) w HE_SUCCESS (server_world [OOutside (dgram 4660 auth_denied_message)]).
Proof. cbv zeta. split; [apply world_at_reached; vm_compute; reflexivity|]. conj; vm_compute; reflexivity. Qed.
