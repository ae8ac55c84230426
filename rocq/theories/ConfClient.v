(** What a client is told about its configuration: proofs for C16. *)
From Verif Require Import Base Codes Ctx Config Mss MssSpec MssProofs Frag FragSpec
  Wire WireSpec WireProofs ConnState Conn ConnSpec CallSpec MsgSpec ConfSpec ConnSteps ConnWpApi Frame Reaction Seq SeqInside SeqLoop SeqApi.
Unset Strict Implicit.

(** ** The fields *)
Lemma get_ipstr_ok m off : 0 <= off -> off + 24 <= len m -> get_ipstr m off = Val (padded 24 (fit (slice m off 24))).
Proof.
  intros H1 H2. unfold get_ipstr. change HE_MAX_IPV4_STRING_LENGTH with 24. rewrite ldn_ok by lia. cbn [rbind].
  assert (len (slice m off 24) = 24) as L by (apply len_slice; lia).
  change (Z.to_nat 24) with (Z.to_nat HE_MAX_IPV4_STRING_LENGTH). rewrite strncpy24 by exact L. cbn [rbind].
  pose proof (cstr_length (slice m off 24)). assert (len (cstr (slice m off 24)) <= 24) by (unfold len in *; lia).
  rewrite stn_start by (rewrite len_padded by lia; lia). rewrite len_padded by lia. change (zeros (24 - 24)) with (@nil Z). rewrite app_nil_r. cbn [rbind].
  unfold st8. change (24 - 1) with 23. change (u8 0) with 0. now apply nul23.
Qed.
Lemma cstr_cut : forall n s, cstr (firstn n s ++ [0]) = firstn n (cstr s).
Proof.
  induction n as [|n IH]; intros s; [reflexivity|]. destruct s as [|b s]; [reflexivity|]. cbn [firstn app cstr]. destruct (b =? 0); [reflexivity|]. cbn [firstn]. now rewrite IH.
Qed.
Lemma nul_field f : len f = 24 -> exists f', st8 f 23 0 = Val f' /\ cstr f' = fit f.
Proof.
  intros L. unfold st8. change (u8 0) with 0. rewrite stn_ok by (cbn; lia). eexists. split; [reflexivity|].
  rewrite skipn_all2 by (unfold len in *; cbn; lia). cbn [app]. change (Z.to_nat 23) with 23%nat. apply cstr_cut.
Qed.
Lemma digits_decimal : forall s a, Forall decimal_digit s -> digits s (Some a) = Some (fold_left (fun v b => 10 * v + (b - 48)) s a).
Proof.
  induction s as [|b s IH]; intros a H; [reflexivity|]. inversion_clear H. cbn [digits fold_left]. unfold is_digit. unfold decimal_digit in *.
  destruct (Z.leb_spec 48 b); [|lia]. destruct (Z.leb_spec b 57); [|lia]. cbn [andb]. now rewrite IH.
Qed.
Lemma scanned f : fit f <> [] -> Forall decimal_digit (fit f) -> 1 <= decimal (fit f) <= 1350 -> forall f', cstr f' = fit f -> sscanf_u f' = Some (decimal (fit f)).
Proof.
  intros Ne D R f' C. unfold sscanf_u. rewrite C. destruct (fit f) as [|b s]; [congruence|]. clear Ne C.
  assert (b = 48 \/ b = 49 \/ b = 50 \/ b = 51 \/ b = 52 \/ b = 53 \/ b = 54 \/ b = 55 \/ b = 56 \/ b = 57) as Hb by (inversion_clear D; unfold decimal_digit in *; lia).
  assert (skip_space (b :: s) = b :: s) as -> by (cbn [skip_space]; unfold is_space; destruct Hb as [->|[->|[->|[->|[->|[->|[->|[->|[->| ->]]]]]]]]]; reflexivity).
  assert (digits (b :: s) None = Some (decimal (b :: s))) as Dd.
  { cbn [digits]. unfold is_digit. destruct (Z.leb_spec 48 b); [|lia]. destruct (Z.leb_spec b 57); [|lia]. cbn [andb]. rewrite digits_decimal by (now inversion_clear D). reflexivity. }
  assert (to_int32 (decimal (b :: s)) = decimal (b :: s)) as Ti.
  { unfold to_int32. rewrite Z.mod_small by lia. destruct (Z.ltb_spec (decimal (b :: s)) 2147483648); [reflexivity|lia]. }
  clear D.
  destruct Hb as [->|[->|[->|[->|[->|[->|[->|[->|[->| ->]]]]]]]]]; cbv beta iota zeta; rewrite Dd;
    (match goal with |- context [18446744073709551615 <? ?v] => destruct (Z.ltb_spec 18446744073709551615 v); [lia|] end); now rewrite Ti.
Qed.
Lemma parse_mtu_ok f : len f = 24 -> exists mtu, parse_mtu f = Val mtu /\ mtu_told f mtu.
Proof.
  intros L. unfold parse_mtu. change (HE_MAX_IPV4_STRING_LENGTH - 1) with 23. destruct (nul_field L) as (f' & -> & C). cbn [rbind]. change HE_MAX_MTU with 1350.
  assert (forall v, v = sscanf_u f' -> fit f <> [] -> Forall decimal_digit (fit f) -> 1 <= decimal (fit f) <= 1350 -> v = Some (decimal (fit f))) as Sc by (intros v -> ? ? ?; now apply scanned).
  destruct (sscanf_u f') as [v|].
  - destruct ((v <=? 0) || (1350 <? v)) eqn:B.
    + exists 1350. split; [reflexivity|]. split; [lia|]. intros N D R. specialize (Sc _ eq_refl N D R). injection Sc as ->. lia.
    + exists v. split; [reflexivity|]. split; [lia|]. intros N D R. specialize (Sc _ eq_refl N D R). congruence.
  - exists 1350. split; [reflexivity|]. split; [lia|]. intros N D R. specialize (Sc _ eq_refl N D R). discriminate.
Qed.

(** ** The loop *)
Lemma configuring_quiet s e : quiet e = true -> configuring s e = [].
Proof. destruct e; try reflexivity; discriminate. Qed.
Section P.
Variable E : env.
Notation hk := (@ret unit tt).
Notation T := (fun _ : world => True).
Section Ev.
Variable k0 : bool * cbs * (Z * Z) * (chain * chain * Z) * Z.
Notation KP X := (K configuring k0 X).
Lemma KC_push X e w : (forall s, configuring s e = []) -> hear e = false -> KP X w -> KP X (push e w).
Proof.
  intros H1 H2 [S C]. split; [exact S|]. cbn [push w_t collect]. unfold both at 2. rewrite H1.
  assert (got_msg (c_state (w_c w)) e = []) as ->; [|cbn; now rewrite app_nil_r]. destruct e; try reflexivity. destruct o; try reflexivity. discriminate H2.
Qed.
Lemma KC_event X e w : io_event e = false -> KP X w -> KP X (push e w).
Proof. intros H. apply KC_push; [|destruct e; (reflexivity || discriminate H)]. intros s. destruct e; try reflexivity; discriminate H. Qed.
Lemma KC_conn X h w : (forall c, stable (h c) = stable c) -> KP X w -> KP X (with_c h w).
Proof. intros H [S C]. split; [cbn [with_c w_c]; now rewrite H|exact C]. Qed.
Ltac kpush := apply KC_push; [intros; reflexivity|reflexivity|assumption].
Ltac kconn := apply KC_conn; [reflexivity|assumption].
Lemma KC_wend X o r err d w : o <> WRecv -> KP X w -> KP X (push (EWEnd o r err d) w).
Proof. intros H. apply KC_push; [reflexivity|]. destruct o; cbn; congruence. Qed.
Lemma KC_read X sz : keeps (KP X) T (io_read sz).
Proof. apply keeps_io_read; auto; intros; first [kpush|kconn]. Qed.
Lemma KC_write X b : keeps (KP X) T (io_write E hk b).
Proof. apply keeps_io_write; auto; intros; first [apply keeps_ret|kpush|kconn]. Qed.
Ltac ks := intros; first [exact I|apply keeps_ret|apply KC_read|apply KC_write|now apply KC_event|now apply KC_wend|kpush|kconn|idtac].
Lemma KC_change X s : keeps (KP X) T (change_conn_state E hk s).
Proof. apply keeps_change_conn_state; ks. Qed.
(** The messages that tell nothing. *)
Lemma KC_process X m : 0 < len m -> negb (fst (fst (fst (fst k0)))) && ((msg_type m =? HE_MSGID_CONFIG_IPV4) || (msg_type m =? HE_MSGID_SERVER_CONFIG)) = false -> keeps (KP X) T (process_message E hk m).
Proof.
  intros Hl Hd. unfold process_message. destruct (Z.ltb_spec (len m) sizeof_msg_hdr) as [Y|_]; [unfold sizeof_msg_hdr in Y; lia|].
  rewrite ld8_ok by lia. change (nth (Z.to_nat 0) m 0) with (msg_type m).
  unfold bind at 1, lift at 1, ret at 1. intros w Hw. unfold bind at 1, get at 1.
  assert (c_is_server (w_c w) = fst (fst (fst (fst k0)))) as Is by (destruct Hw as [<- _]; reflexivity). rewrite <- Is in Hd.
  match goal with |- match ?m w with _ => _ end => assert (keeps (KP X) T m) as Kp; [|exact (Kp w Hw)] end.
  destruct (msg_type m =? HE_MSGID_NOOP); [apply keeps_ret|]. destruct (msg_type m =? HE_MSGID_PING); [apply keeps_handle_ping; ks|].
  destruct (msg_type m =? HE_MSGID_PONG); [apply keeps_handle_pong; ks|].
  destruct (msg_type m =? HE_MSGID_AUTH). { case_if; [apply keeps_handle_auth; ks|apply keeps_ret]. }
  destruct (c_is_server (w_c w)), (msg_type m =? HE_MSGID_CONFIG_IPV4), (msg_type m =? HE_MSGID_SERVER_CONFIG); try discriminate Hd; cbn [negb]; repeat case_if; try apply keeps_ret;
  first [apply keeps_handle_data; ks; fail|apply keeps_handle_13; ks; fail|apply keeps_handle_frag; ks; fail].
Qed.
(** A callback and what follows it. *)
Lemma KC_tell X e v l (k : Z -> M Z) w rc w' : (forall s, configuring s e = l) -> hear e = false -> KP X w -> (forall r, keeps (KP (X ++ map inr l)) T (k r)) ->
  bind (callback E hk e v) k w = Done rc w' -> KP (X ++ map inr l) w'.
Proof.
  intros Hq He [S C] Hk H. unfold bind at 1, callback in H. unfold bind at 1, emit at 1 in H. unfold bind at 1, ret at 1 in H. unfold bind at 1, log at 1 in H. unfold bind at 1, emit at 1 in H. unfold ret at 1 in H.
  match type of H with k ?r ?v = _ => pose proof (Hk r v) as K; rewrite H in K end. apply K. clear K H Hk. split; [exact S|]. cbn [w_t w_c collect]. unfold both at 2 3. cbn [got_msg configuring map app]. rewrite app_nil_r, C, Hq.
  f_equal. assert (got_msg (c_state (w_c w)) e = []) as ->; [|reflexivity]. destruct e; try reflexivity. destruct o; try reflexivity. discriminate He.
Qed.
Definition claim (x : Z * bytes) (l : list configured) : Prop := if fst (fst (fst (fst k0))) then l = [] else tells (snd (fst (fst (fst k0)))) x l.

Lemma conf_process m w rc w' : bytes_ok m -> 0 < len m -> stable (w_c w) = k0 ->
  process_message E hk m w = Done rc w' ->
  stable (w_c w') = k0 /\
  exists l, collect (both configuring) (w_t w') = collect (both configuring) (w_t w) ++ map inr l /\ claim (c_state (w_c w), m) l.
Proof.
  intros Bm Hl S H. unfold claim. set (X := collect (both configuring) (w_t w)). assert (KP X w) as Hw by (split; [exact S|reflexivity]).
  assert (KP X w' -> forall C : list configured -> Prop, C [] -> stable (w_c w') = k0 /\ exists l, collect (both configuring) (w_t w') = X ++ map inr l /\ C l) as Fin.
  { intros [S' C'] C C0. split; [exact S'|]. exists []. cbn. now rewrite app_nil_r. }
  destruct (negb (fst (fst (fst (fst k0)))) && ((msg_type m =? HE_MSGID_CONFIG_IPV4) || (msg_type m =? HE_MSGID_SERVER_CONFIG))) eqn:Au.
  2:{ pose proof (@KC_process X m Hl Au w Hw) as Kp. rewrite H in Kp. apply (Fin Kp (fun l => if fst (fst (fst (fst k0))) then l = [] else tells (snd (fst (fst (fst k0)))) (c_state (w_c w), m) l)).
      destruct (fst (fst (fst (fst k0)))); [reflexivity|]. cbn [negb andb] in Au. apply orb_false_iff in Au. destruct Au as [A1 A2]. unfold tells. now rewrite A1, A2. }
  apply andb_true_iff in Au. destruct Au as [Srv Ty]. apply negb_true_iff in Srv. rewrite Srv.
  assert (c_is_server (w_c w) = false) as Is by (rewrite <- Srv, <- S; reflexivity).
  assert (c_cbs (w_c w) = snd (fst (fst (fst k0)))) as Kc by (rewrite <- S; reflexivity). rewrite <- Kc.
  unfold process_message in H. destruct (Z.ltb_spec (len m) sizeof_msg_hdr) as [Y|_]; [unfold sizeof_msg_hdr in Y; lia|].
  rewrite ld8_ok in H by lia. change (nth (Z.to_nat 0) m 0) with (msg_type m) in H. unfold bind at 1, lift at 1, ret at 1 in H. unfold bind at 1, get at 1 in H. rewrite Is in H. cbn [negb] in H.
  set (k := c_cbs (w_c w)) in *. set (s := c_state (w_c w)) in *.
  apply orb_true_iff in Ty. destruct Ty as [Ty|Ty]; apply Z.eqb_eq in Ty; rewrite Ty in H; unfold tells; rewrite Ty.
  - change (HE_MSGID_CONFIG_IPV4 =? HE_MSGID_CONFIG_IPV4) with true. change (HE_MSGID_CONFIG_IPV4 =? HE_MSGID_SERVER_CONFIG) with false. cbn [andb].
    match type of H with ?mm w = _ => change (handle_config_ipv4 E hk m w = Done rc w') in H end.
    unfold handle_config_ipv4 in H. unfold bind at 1, get at 1 in H. fold s in H. rewrite Is in H. cbn [orb] in H.
    destruct (Z.eqb_spec s HE_STATE_ONLINE) as [So|So].
    { apply Done_inv in H. destruct H as [_ <-]. rewrite So. now apply Fin. }
    destruct (Z.eqb_spec s HE_STATE_AUTHENTICATING) as [Sa|Sa]; cbn [negb andb] in *; [|apply Done_inv in H; destruct H as [_ <-]; now apply Fin].
    change sizeof_config_ipv4 with 105 in H. destruct (Z.ltb_spec (len m) 105); destruct (Z.leb_spec 105 (len m)); try lia; cbn [andb]; [apply Done_inv in H; destruct H as [_ <-]; now apply Fin|].
    rewrite !get_ipstr_ok in H by lia. unfold bind at 1, lift at 1, ret at 1 in H. unfold bind at 1, lift at 1, ret at 1 in H. unfold bind at 1, lift at 1, ret at 1 in H.
    change HE_MAX_IPV4_STRING_LENGTH with 24 in H. rewrite ldn_ok in H by lia. unfold bind at 1, lift at 1, ret at 1 in H.
    assert (len (slice m 73 24) = 24) as Lf by (apply len_slice; lia). destruct (parse_mtu_ok Lf) as (mtu & Em & Mt). rewrite Em in H. unfold bind at 1, lift at 1, ret at 1 in H.
    unfold bind at 1 in H. destruct (ldh64 (e_le E) m 97) as [ses|]; [|discriminate H]. unfold lift at 1, ret at 1 in H.
    unfold bind at 1, upd at 1 in H. fold (with_c (set_session ses) w) in H. assert (KP X (with_c (set_session ses) w)) as K1 by kconn.
    unfold bind at 1 in H. pose proof (@KC_change X HE_STATE_CONFIGURING _ K1) as K2.
    destruct (change_conn_state E hk HE_STATE_CONFIGURING _) as [[] w2|]; [|discriminate H].
    unfold bind at 1, get at 1 in H. assert (c_cbs (w_c w2) = k) as Kw by (destruct K2 as [S2 _]; rewrite Kc, <- S2; reflexivity). rewrite Kw in H.
    assert (forall Y r, keeps (KP Y) T (if negb (r =? HE_SUCCESS) then ret HE_ERR_CALLBACK_FAILED else change_conn_state E hk HE_STATE_ONLINE ;;; ret HE_SUCCESS)) as Kr.
    { intros Y r. case_if; [apply keeps_ret|]. apply keeps_bind; [apply KC_change|]. intros []. apply keeps_ret. }
    destruct (cb_netcfg k).
    + match goal with |- _ /\ (exists l, _ /\ (exists mtu, _ /\ l = [NetCfg ?a ?b ?c mtu])) => set (la := a) in *; set (lb := b) in *; set (lc := c) in * end.
      pose proof (@KC_tell X (ENetCfg la lb lc mtu) KNetCfg [NetCfg la lb lc mtu] _ w2 rc w' (fun _ => eq_refl) eq_refl K2 (Kr _) H) as [S' C'].
      split; [exact S'|]. exists [NetCfg la lb lc mtu]. split; [exact C'|]. now exists mtu.
    + unfold bind at 1, ret at 1 in H. pose proof (Kr X HE_SUCCESS w2 K2) as K3. rewrite H in K3. now apply Fin.
  - change (HE_MSGID_SERVER_CONFIG =? HE_MSGID_CONFIG_IPV4) with false. change (HE_MSGID_SERVER_CONFIG =? HE_MSGID_SERVER_CONFIG) with true. cbn [andb].
    match type of H with ?mm w = _ => change (handle_server_config E hk m w = Done rc w') in H end.
    unfold handle_server_config in H. unfold bind at 1, get at 1 in H. fold s k in H. rewrite Is in H. change (valid_state_for_server_config s) with (ready_for_server_config s) in H.
    destruct (ready_for_server_config s); cbn [negb andb] in *; [|apply Done_inv in H; destruct H as [_ <-]; now apply Fin].
    change sizeof_server_config with 3 in H. destruct (Z.ltb_spec (len m) 3); destruct (Z.leb_spec 3 (len m)); try lia; cbn [andb]; [apply Done_inv in H; destruct H as [_ <-]; now apply Fin|].
    destruct (@field16_ok E m 1 Bm) as (raw & F & N & _); [lia|lia|]. change (Z.to_nat 1) with 1%nat in *. rewrite F in H. unfold bind at 1, lift at 1, ret at 1 in H. cbv zeta in H. rewrite N in H.
    destruct (Z.ltb_spec (len m - 3) (field16 m 1)); destruct (Z.leb_spec (3 + field16 m 1) (len m)); try lia; cbn [andb]; [apply Done_inv in H; destruct H as [_ <-]; now apply Fin|].
    destruct (cb_srvcfg k); [|apply Done_inv in H; destruct H as [_ <-]; now apply Fin].
    assert (0 <= field16 m 1) as Fp. { assert (byte_ok (nth 1 m 0)) as B1 by now apply bytes_ok_nth. assert (byte_ok (nth 2 m 0)) as B2 by now apply bytes_ok_nth. unfold byte_ok in *. unfold field16. lia. }
    rewrite ldn_ok in H by lia. unfold bind at 1, lift at 1, ret at 1 in H. set (b := slice m 3 (field16 m 1)) in *.
    assert (forall Y r, keeps (KP Y) T (if negb (r =? HE_SUCCESS) then ret HE_ERR_CALLBACK_FAILED else ret HE_SUCCESS)) as Kr by (intros Y r; case_if; apply keeps_ret).
    pose proof (@KC_tell X (ESrvCfg b) KSrvCfg [SrvCfg b] _ w rc w' (fun _ => eq_refl) eq_refl Hw (Kr _) H) as [S' C'].
    split; [exact S'|]. exists [SrvCfg b]. split; [exact C'|reflexivity].
Qed.
End Ev.

Lemma told_during b w rc w' : call E (OOutside b) w rc w' ->
  exists ds, during (both configuring) w w' (caused ds) /\
    Forall (fun d => if c_is_server (w_c w) then snd d = [] else tells (c_cbs (w_c w)) (fst d) (snd d)) ds.
Proof.
  intros C. destruct (@loop_call E configured configuring (claim (stable (w_c w))) (fun l => l = []) b w rc w') as (pre & ds & D & -> & F & St); auto.
  - exact configuring_quiet.
  - intros m v rc1 v' B1 L1 S1 P1. exact (conf_process B1 L1 S1 P1).
  - intros v a v' S1 D1. pose proof (@KC_change (stable (w_c w)) (collect (both configuring) (w_t v)) HE_STATE_LINK_UP v) as Kp. rewrite D1 in Kp.
    destruct Kp as [S' C']; [split; auto|]. split; [exact S'|]. exists []. cbn. rewrite app_nil_r. auto.
  - now exists ds.
Qed.
End P.
