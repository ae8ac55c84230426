(** C15, C16: what the callbacks of a host are asked and told, for hosts that also make calls inside callbacks. *)
From Verif Require Import Base Codes Ctx Config Mss MssSpec MssProofs Frag Wire WireSpec WireProofs ConnState Conn ConnSpec HistSpec MsgSpec CallSpec.
From Verif Require Import ConnSteps ConnWp ConnWpApi Frame FrameLoop Scenario Reaction Seq SeqInside SeqApi FragSpec CredSpec ConfSpec ConfClient PlugSpec SeqPlug TimerProofs DeepSpec.
Unset Strict Implicit.
Lemma Val_inv A (a b : A) : Val a = Val b -> a = b.
Proof. congruence. Qed.

(** The log is in order, and the messages [xs] were received in the present call. *)
Definition J (xs : list (Z * bytes)) (w : world) : Prop := every heard (w_t w) /\ incl xs (recently (w_t w)).
Definition speaks (e : ev) : bool :=
  match e with ECall _ | EAuthUser _ _ | EAuthToken _ | EAuthBuf _ _ | ENetCfg _ _ _ _ | ESrvCfg _ | EInside _ => true | _ => false end.
Lemma recently_push e w : is_call e = false -> recently (w_t (push e w)) = recently (w_t w) ++ got_msg (c_state (w_c w)) e.
Proof. intros H. unfold recently. cbn [push w_t upto]. now rewrite H. Qed.
Lemma J_heard xs e w : is_call e = false -> heard (c_state (w_c w)) e (w_t w) -> J xs w -> J xs (push e w).
Proof.
  intros Hc Hh [A B]. split; [split; assumption|]. rewrite recently_push by exact Hc. intros x Hx. apply in_or_app. left. now apply B.
Qed.
Lemma J_push xs e w : speaks e = false -> J xs w -> J xs (push e w).
Proof. intros H. apply J_heard; destruct e; try reflexivity; try exact I; discriminate H. Qed.
Lemma J_less x xs w : J (x :: xs) w -> J xs w.
Proof. intros [A B]. split; [exact A|]. intros y Hy. apply B. now right. Qed.

Section A.
Variable E : env.
Notation T := (fun _ : world => True).
Variable hook : M unit.
Hypothesis Hk : forall xs, keeps (J xs) T hook.
Lemma J_event xs e w : io_event e = false -> J xs w -> J xs (push e w).
Proof. intros H. apply J_push. destruct e; try reflexivity; discriminate H. Qed.
Ltac ks := intros; first [exact I|apply Hk|assumption|apply keeps_ret|now apply J_event|(apply J_push; [reflexivity|assumption])|idtac].
Lemma J_read xs sz : keeps (J xs) T (io_read sz).
Proof. apply keeps_io_read; ks. Qed.
Lemma J_write xs b : keeps (J xs) T (io_write E hook b).
Proof. apply keeps_io_write; ks. Qed.
Ltac ks ::= intros; first [exact I|apply Hk|assumption|apply keeps_ret|apply J_read|apply J_write|now apply J_event|(apply J_push; [reflexivity|assumption])|idtac].
Lemma J_change xs s : keeps (J xs) T (change_conn_state E hook s).
Proof. apply keeps_change_conn_state; ks. Qed.
Lemma J_verdict xs b r : keeps (J xs) T (auth_verdict E hook b r).
Proof. apply keeps_auth_verdict; ks. Qed.
(** A callback that needs a message, and what follows. *)
Lemma J_callback xs e v (k : Z -> M Z) : is_call e = false -> (forall w, J xs w -> heard (c_state (w_c w)) e (w_t w)) ->
  (forall r, keeps (J xs) T (k r)) -> keeps (J xs) T (bind (callback E hook e v) k).
Proof.
  intros Hc Hh Kk. apply keeps_bind; [|exact Kk]. unfold callback. apply keeps_bind.
  - apply keeps_emit. intros w Hw. apply J_heard; auto.
  - intros []. apply keeps_bind; [apply Hk|]. intros []. apply keeps_bind; [apply keeps_log|]. intros t.
    apply keeps_bind; [apply keeps_emit; ks|]. intros []. apply keeps_ret.
Qed.
Lemma field_pos m i : bytes_ok m -> 0 <= field16 m i.
Proof.
  intros Bm. assert (byte_ok (nth i m 0)) as B1 by now apply bytes_ok_nth. assert (byte_ok (nth (i + 1) m 0)) as B2 by now apply bytes_ok_nth.
  assert (byte_ok (nth (S i) m 0)) as B3 by now apply bytes_ok_nth. unfold byte_ok in *. unfold field16. lia.
Qed.
Lemma field_pos_le m i : bytes_ok m -> 0 <= field16le m i.
Proof.
  intros Bm. assert (byte_ok (nth i m 0)) as B1 by now apply bytes_ok_nth. assert (byte_ok (nth (S i) m 0)) as B3 by now apply bytes_ok_nth. unfold byte_ok in *. unfold field16le. lia.
Qed.
Definition all_cbs : cbs := Cbs true true true true true true true true true true true true true.
Ltac lf := apply keeps_bind_lift; [intros; exact I|].
Lemma J_auth xs s m : bytes_ok m -> 0 < len m -> msg_type m = HE_MSGID_AUTH -> keeps (J ((s, m) :: xs)) T (handle_auth E hook m).
Proof.
  intros Bm Hl Ty. unfold handle_auth. apply keeps_bind; [apply keeps_get|]. intros c. set (k := c_cbs c).
  do 3 (case_if; [apply keeps_ret|]). destruct (len m <? sizeof_auth_hdr) eqn:L2; [apply keeps_ret|].
  change sizeof_auth_hdr with 2 in L2. lf. intros ty L8. rewrite ld8_ok in L8 by lia. apply Val_inv in L8. change (nth (Z.to_nat 1) m 0) with (byte_at m 1) in L8. subst ty.
  assert (forall e w, is_call e = false -> match e with EAuthUser _ _ | EAuthToken _ | EAuthBuf _ _ => True | _ => False end ->
    asks all_cbs m = questions (c_state (w_c w)) e -> J ((s, m) :: xs) w -> heard (c_state (w_c w)) e (w_t w)) as Hd.
  { intros e w _ He Q [_ B]. assert (exists x k, In x (recently (w_t w)) /\ asks k (snd x) = questions (c_state (w_c w)) e) as Y.
    { exists (s, m), all_cbs. split; [apply B; now left|exact Q]. } destruct e; try destruct He; exact Y. }
  assert (asks all_cbs m = let method := byte_at m 1 in let n := field16 m 2 in
    if method =? HE_AUTH_TYPE_USERPASS then if 104 <=? len m then [AskUser (slice m 4 50) (slice m 54 50)] else []
    else if method =? HE_AUTH_TYPE_TOKEN then if (4 <? len m) && (4 + n <=? len m) then [AskToken (slice m 4 n)] else []
    else if method =? HE_AUTH_TYPE_CB then if (4 <? len m) && (4 + n <=? len m) then [AskBuf HE_AUTH_TYPE_CB (slice m 4 n)] else [] else []) as Asks.
  { unfold asks. rewrite Ty, L2. reflexivity. }
  cbv zeta in Asks. change sizeof_auth with 104. change sizeof_auth_token with 4. change sizeof_auth_buf with 4. change HE_CONFIG_TEXT_FIELD_LENGTH with 50.
  pose proof (@field_pos m 2 Bm) as Fp.
  destruct (Z.eqb_spec (byte_at m 1) HE_AUTH_TYPE_USERPASS) as [M1|M1].
  { destruct (cb_auth k); [|apply J_verdict]. destruct (Z.ltb_spec (len m) 104) as [L|L]; [apply keeps_ret|]. destruct (Z.leb_spec 104 (len m)); [|lia].
    lf. intros u Lu. lf. intros p Lp. rewrite ldn_ok in Lu, Lp by lia. apply Val_inv in Lu, Lp. subst u p. change (4 + 50) with 54.
    apply J_callback; [reflexivity|intros w Hw; apply (Hd (EAuthUser _ _) w eq_refl I); [exact Asks|exact Hw]|]. intros r.
    apply keeps_bind; [apply keeps_get|]. intros un. lf. intros un1 _. lf. intros un2 _.
    apply keeps_bind; [apply keeps_upd; ks|]. intros _. apply J_verdict. }
  destruct (Z.eqb_spec (byte_at m 1) HE_AUTH_TYPE_TOKEN) as [M2|M2].
  { destruct (cb_authtok k); [|apply J_verdict]. destruct (Z.leb_spec (len m) 4) as [L|L]; [apply keeps_ret|]. destruct (Z.ltb_spec 4 (len m)); [|lia].
    lf. intros raw Lr. destruct (@field16_ok E m 2 Bm) as (raw' & F & N & _); [lia|lia|]. change (Z.to_nat 2) with 2%nat in *. rewrite F in Lr. apply Val_inv in Lr. subst raw'. cbv zeta. rewrite N.
    destruct (Z.ltb_spec (len m - 4) (field16 m 2)); [apply keeps_ret|]. destruct (Z.leb_spec (4 + field16 m 2) (len m)); [|lia]. cbn [andb] in Asks.
    lf. intros b Lb. rewrite ldn_ok in Lb by lia. apply Val_inv in Lb. subst b.
    apply J_callback; [reflexivity|intros w Hw; apply (Hd (EAuthToken _) w eq_refl I); [exact Asks|exact Hw]|]. intros r. apply J_verdict. }
  destruct (Z.eqb_spec (byte_at m 1) HE_AUTH_TYPE_CB) as [M3|M3]; [|apply J_verdict].
  destruct (cb_authbuf k); [|apply J_verdict]. destruct (Z.leb_spec (len m) 4) as [L|L]; [apply keeps_ret|]. destruct (Z.ltb_spec 4 (len m)); [|lia].
  lf. intros raw Lr. destruct (@field16_ok E m 2 Bm) as (raw' & F & N & _); [lia|lia|]. change (Z.to_nat 2) with 2%nat in *. rewrite F in Lr. apply Val_inv in Lr. subst raw'. cbv zeta. rewrite N.
  destruct (Z.ltb_spec (len m - 4) (field16 m 2)); [apply keeps_ret|]. destruct (Z.leb_spec (4 + field16 m 2) (len m)); [|lia]. cbn [andb] in Asks.
  lf. intros b Lb. rewrite ldn_ok in Lb by lia. apply Val_inv in Lb. subst b.
  apply J_callback; [reflexivity|intros w Hw; apply (Hd (EAuthBuf _ _) w eq_refl I); [rewrite M3; exact Asks|exact Hw]|]. intros r. apply J_verdict.
Qed.
Lemma J_told xs s m e w : match e with ENetCfg _ _ _ _ | ESrvCfg _ => True | _ => False end ->
  tells all_cbs (s, m) (configuring (c_state (w_c w)) e) -> J ((s, m) :: xs) w -> heard (c_state (w_c w)) e (w_t w).
Proof.
  intros He Q [_ B]. assert (exists x k, In x (recently (w_t w)) /\ tells k x (configuring (c_state (w_c w)) e)) as Y.
  { exists (s, m), all_cbs. split; [apply B; now left|exact Q]. } destruct e; try destruct He; exact Y.
Qed.
Lemma J_config xs s m w : bytes_ok m -> 0 < len m -> msg_type m = HE_MSGID_CONFIG_IPV4 -> c_state (w_c w) = s -> J ((s, m) :: xs) w ->
  match handle_config_ipv4 E hook m w with Done _ w' => J ((s, m) :: xs) w' | Stuck _ _ => True end.
Proof.
  intros Bm Hl Ty St Hw. unfold handle_config_ipv4. unfold bind at 1, get at 1. rewrite St.
  generalize (c_is_server (w_c w)). intros srv.
  match goal with |- match ?mm w with _ => _ end => assert (keeps (J ((s, m) :: xs)) T mm) as Kp; [|exact (Kp w Hw)] end. clear w St Hw.
  case_if; [apply keeps_ret|]. destruct (Z.eqb_spec s HE_STATE_AUTHENTICATING) as [Sa|Sa]; cbn [negb]; [|destruct srv; apply keeps_ret]. destruct srv; cbn [orb]; [apply keeps_ret|].
  change sizeof_config_ipv4 with 105. destruct (Z.ltb_spec (len m) 105) as [|L]; [apply keeps_ret|].
  lf. intros a1 L1. lf. intros a2 L2. lf. intros a3 L3. rewrite get_ipstr_ok in L1, L2, L3 by lia. apply Val_inv in L1, L2, L3.
  lf. intros f Lf. change HE_MAX_IPV4_STRING_LENGTH with 24 in Lf. rewrite ldn_ok in Lf by lia. apply Val_inv in Lf.
  assert (len f = 24) as Lf24 by (subst f; apply len_slice; lia). destruct (parse_mtu_ok Lf24) as (mtu & Em & Mt).
  lf. intros mtu' Lm. rewrite Em in Lm. apply Val_inv in Lm. subst mtu'. subst f.
  lf. intros ses _. apply keeps_bind; [apply keeps_upd; ks|]. intros _. apply keeps_bind; [apply J_change|]. intros _.
  apply keeps_bind; [apply keeps_get|]. intros k. 
  assert (forall r, keeps (J ((s, m) :: xs)) T (if negb (r =? HE_SUCCESS) then ret HE_ERR_CALLBACK_FAILED else change_conn_state E hook HE_STATE_ONLINE ;;; ret HE_SUCCESS)) as Kr.
  { intros r. case_if; [apply keeps_ret|]. apply keeps_bind; [apply J_change|]. intros []. apply keeps_ret. }
  destruct (cb_netcfg k); [|apply keeps_bind; [apply keeps_ret|exact Kr]].
  apply J_callback; [reflexivity| |exact Kr]. intros w Hw. refine (@J_told xs s m (ENetCfg _ _ _ _) w I _ Hw).
  unfold tells. rewrite Ty, Sa. change (HE_MSGID_CONFIG_IPV4 =? HE_MSGID_CONFIG_IPV4) with true. change (HE_STATE_AUTHENTICATING =? HE_STATE_AUTHENTICATING) with true. destruct (Z.leb_spec 105 (len m)); [|lia]. cbn [andb all_cbs cb_netcfg].
  exists mtu. split; [exact Mt|]. subst a1 a2 a3. reflexivity.
Qed.
Lemma J_server_config xs s m w : bytes_ok m -> 0 < len m -> msg_type m = HE_MSGID_SERVER_CONFIG -> c_state (w_c w) = s -> J ((s, m) :: xs) w ->
  match handle_server_config E hook m w with Done _ w' => J ((s, m) :: xs) w' | Stuck _ _ => True end.
Proof.
  intros Bm Hl Ty St Hw. unfold handle_server_config. unfold bind at 1, get at 1. change (valid_state_for_server_config (c_state (w_c w))) with (ready_for_server_config (c_state (w_c w))). rewrite St.
  set (c := w_c w). match goal with |- match ?mm w with _ => _ end => assert (keeps (J ((s, m) :: xs)) T mm) as Kp; [|exact (Kp w Hw)] end. clearbody c. clear w St Hw.
  case_if; [apply keeps_ret|]. destruct (ready_for_server_config s) eqn:Rd; cbn [negb]; [|apply keeps_ret].
  change sizeof_server_config with 3. destruct (Z.ltb_spec (len m) 3) as [|L]; [apply keeps_ret|].
  pose proof (@field_pos m 1 Bm) as Fp.
  lf. intros raw Lr. destruct (@field16_ok E m 1 Bm) as (raw' & F & N & _); [lia|lia|]. change (Z.to_nat 1) with 1%nat in *. rewrite F in Lr. apply Val_inv in Lr. subst raw'. cbv zeta. rewrite N.
  destruct (Z.ltb_spec (len m - 3) (field16 m 1)); [apply keeps_ret|]. case_if; [|apply keeps_ret].
  lf. intros b Lb. rewrite ldn_ok in Lb by lia. apply Val_inv in Lb. subst b.
  apply J_callback; [reflexivity| |intros r; case_if; apply keeps_ret]. intros w Hw. refine (@J_told xs s m (ESrvCfg _) w I _ Hw).
  unfold tells. rewrite Ty, Rd. change (HE_MSGID_SERVER_CONFIG =? HE_MSGID_CONFIG_IPV4) with false. change (HE_MSGID_SERVER_CONFIG =? HE_MSGID_SERVER_CONFIG) with true.
  destruct (Z.leb_spec 3 (len m)); [|lia]. destruct (Z.leb_spec (3 + field16 m 1) (len m)); [|lia]. reflexivity.
Qed.
(** Delivering a packet. *)
Lemma entries_no_call s l t : recently (entries s l ++ t) = recently t.
Proof.
  unfold recently. induction l as [|x l IH] using rev_ind; [reflexivity|]. rewrite entries_app, <- app_assoc. unfold entries at 1. cbn [flat_map]. rewrite app_nil_r.
  destruct x; cbn [entry rev app upto is_call]; try exact IH; cbn [collect got_msg]; now rewrite app_nil_r.
Qed.
Lemma J_plugs xs l w : J xs w -> J xs (plugs (c_state (w_c w)) l w).
Proof.
  intros [A B]. unfold plugs. split; cbn [w_t].
  - induction l as [|x l IH] using rev_ind; [exact A|]. rewrite entries_app, <- app_assoc. unfold entries at 1. cbn [flat_map]. rewrite app_nil_r.
    destruct x; cbn [entry rev app every]; try exact IH; split; try exact IH; exact I.
  - now rewrite entries_no_call.
Qed.
Lemma J_deliver xs x q : carries x q -> keeps (J (x :: xs)) T (deliver E hook q).
Proof.
  intros Cq w Hw. unfold deliver. unfold bind at 1, get at 1. unfold bind at 1.
  destruct (@egress_pass E (c_in_chain (w_c w)) q (len q) w) as (rc & out & l & Eg & Ps & _). rewrite Eg. clear Eg.
  pose proof (@J_plugs _ l w Hw) as H1. set (w1 := plugs (c_state (w_c w)) l w) in *.
  destruct (rc =? HE_ERR_PLUGIN_DROP); [exact H1|]. destruct (Z.eqb_spec rc HE_SUCCESS) as [->|]; cbn [negb]; [|exact H1].
  destruct (Z.ltb_spec (len q) (len out)) as [|Lo]; [exact H1|]. unfold bind at 1. destruct (is_ipv4_packet_valid out) as [ok|] eqn:V; [|exact I].
  unfold lift at 1, ret at 1. destruct ok; cbn [negb]; [|exact H1]. unfold bind at 1, get at 1.
  assert (ipv4_packet out = true) as Ip.
  { unfold is_ipv4_packet_valid in V. change sizeof_ipv4_header with 20 in V. unfold ipv4_packet. destruct (Z.ltb_spec (len out) 20); [discriminate V|]. destruct (Z.leb_spec 20 (len out)); [|lia].
    rewrite ld8_ok in V by lia. cbn [rbind andb] in V |- *. unfold ip_version. apply Val_inv in V. exact V. }
  match goal with |- match ?mm w1 with _ => _ end => assert (forall v, J (x :: xs) v -> (cb_inside (c_cbs (w_c w1)) = true -> v = push (EInside out) w1) -> match mm w1 with Done _ w' => J (x :: xs) w' | Stuck _ _ => True end) as Go end.
  { intros v Hv Ev. destruct (cb_inside (c_cbs (w_c w1))); cbn [when].
    - specialize (Ev eq_refl). subst v. unfold bind at 1, notify. unfold bind at 1, emit at 1. fold (push (EInside out) w1).
      pose proof (@Hk _ _ Hv) as Kh. destruct (hook (push (EInside out) w1)); [exact Kh|exact I].
    - exact H1. }
  apply (Go (push (EInside out) w1)); [|reflexivity]. apply J_heard; [reflexivity| |exact H1].
  exists x, q, (in_order false (c_in_chain (w_c w))), l, (w_t w). split; [destruct H1 as [_ B]; apply B; now left|]. split; [exact Cq|]. split; [exact Ps|]. split; [reflexivity|]. split; [exact Lo|exact Ip].
Qed.
Lemma J_data xs s m w : bytes_ok m -> 0 < len m -> msg_type m = HE_MSGID_DATA -> c_state (w_c w) = s -> J ((s, m) :: xs) w ->
  match handle_data E hook m w with Done _ w' => J ((s, m) :: xs) w' | Stuck _ _ => True end.
Proof.
  intros Bm Hl Ty St Hw. unfold handle_data. unfold bind at 1, get at 1. rewrite St.
  set (c := w_c w). match goal with |- match ?mm w with _ => _ end => assert (keeps (J ((s, m) :: xs)) T mm) as Kp; [|exact (Kp w Hw)] end. clearbody c. clear w St Hw.
  destruct (Z.eqb_spec s HE_STATE_ONLINE) as [So|]; cbn [negb]; [|apply keeps_ret]. change sizeof_data with 3. destruct (Z.ltb_spec (len m) 3) as [|L]; [apply keeps_ret|].
  lf. intros raw Lr. destruct (@field16_ok E m 1 Bm) as (raw' & F & N & Nl); [lia|lia|]. change (Z.to_nat 1) with 1%nat in *. rewrite F in Lr. apply Val_inv in Lr. subst raw'. cbv zeta. rewrite N.
  set (n := if _ && _ then raw else field16 m 1). assert (n = field16 m 1 \/ n = field16le m 1) as Hn.
  { unfold n. destruct (_ && _); [exact Nl|now left]. }
  assert (0 <= n) as Np. { pose proof (@field_pos m 1 Bm). pose proof (@field_pos_le m 1 Bm). lia. }
  destruct (Z.ltb_spec (len m - 3) n); [apply keeps_ret|]. lf. intros p Lp. rewrite ldn_ok in Lp by lia. apply Val_inv in Lp. subst p.
  apply J_deliver. split; [exact So|]. left. split; [exact Ty|]. exists n. split; [exact Hn|]. split; [lia|reflexivity].
Qed.
Lemma J_13 xs s m w : bytes_ok m -> 0 < len m -> msg_type m = HE_MSGID_DEPRECATED_13 -> c_state (w_c w) = s -> J ((s, m) :: xs) w ->
  match handle_deprecated_13 E hook m w with Done _ w' => J ((s, m) :: xs) w' | Stuck _ _ => True end.
Proof.
  intros Bm Hl Ty St Hw. unfold handle_deprecated_13. unfold bind at 1, get at 1. rewrite St.
  match goal with |- match ?mm w with _ => _ end => assert (keeps (J ((s, m) :: xs)) T mm) as Kp; [|exact (Kp w Hw)] end. clear w St Hw.
  destruct (Z.eqb_spec s HE_STATE_ONLINE) as [So|]; cbn [negb]; [|apply keeps_ret]. change sizeof_deprecated_13 with 5. destruct (Z.ltb_spec (len m) 5) as [|L]; [apply keeps_ret|].
  lf. intros raw Lr. destruct (@field16_ok E m 1 Bm) as (raw' & F & N & Nl); [lia|lia|]. change (Z.to_nat 1) with 1%nat in *. rewrite F in Lr. apply Val_inv in Lr. subst raw'. cbv zeta. rewrite N.
  pose proof (@field_pos m 1 Bm). destruct (Z.ltb_spec (len m - 5) (field16 m 1)); [apply keeps_ret|]. lf. intros p Lp. rewrite ldn_ok in Lp by lia. apply Val_inv in Lp. subst p.
  apply J_deliver. split; [exact So|]. right. left. split; [exact Ty|]. split; [lia|reflexivity].
Qed.
Lemma J_ask xs q : keeps (J xs) T (ask E q).
Proof. unfold ask. apply keeps_bind; [apply keeps_log|]. intros t. apply keeps_bind; [apply keeps_emit; ks|intros _; apply keeps_ret]. Qed.
Lemma J_frag xs s m w : msg_type m = HE_MSGID_DATA_WITH_FRAG -> c_state (w_c w) = s -> J ((s, m) :: xs) w ->
  match handle_frag E hook m w with Done _ w' => J ((s, m) :: xs) w' | Stuck _ _ => True end.
Proof.
  intros Ty St Hw. unfold handle_frag. unfold bind at 1, get at 1. rewrite St.
  match goal with |- match ?mm w with _ => _ end => assert (keeps (J ((s, m) :: xs)) T mm) as Kp; [|exact (Kp w Hw)] end. clear w St Hw.
  destruct (Z.eqb_spec s HE_STATE_ONLINE) as [So|]; cbn [negb]; [|apply keeps_ret]. case_if; [apply keeps_ret|].
  lf. intros r1 _. cbv zeta. case_if; [apply keeps_ret|]. lf. intros r2 _. case_if; [apply keeps_ret|]. lf. intros r3 _.
  apply keeps_bind; [apply keeps_get|]. intros [tbl|]; [|apply keeps_ret].
  do 4 (apply keeps_bind; [apply J_ask|intros ?]). lf. intros d _. lf. intros [[rc asm] tb] _.
  apply keeps_bind; [apply keeps_upd; ks|]. intros _. destruct asm as [p|]; [|apply keeps_ret].
  apply keeps_bind; [|intros ?; apply keeps_bind; [apply keeps_upd; ks|intros _; apply keeps_ret]].
  apply J_deliver. split; [exact So|]. right. right. exact Ty.
Qed.
Lemma J_process xs s m w : bytes_ok m -> 0 < len m -> c_state (w_c w) = s -> J ((s, m) :: xs) w ->
  match process_message E hook m w with Done _ w' => J xs w' | Stuck _ _ => True end.
Proof.
  intros Bm Hl St Hw. enough (match process_message E hook m w with Done _ w' => J ((s, m) :: xs) w' | Stuck _ _ => True end) as Q.
  { destruct (process_message E hook m w); [exact (J_less Q)|exact I]. }
  unfold process_message. destruct (Z.ltb_spec (len m) sizeof_msg_hdr) as [Y|_]; [unfold sizeof_msg_hdr in Y; lia|].
  rewrite ld8_ok by lia. change (nth (Z.to_nat 0) m 0) with (msg_type m). unfold bind at 1, lift at 1, ret at 1. unfold bind at 1, get at 1.
  destruct (Z.eqb_spec (msg_type m) HE_MSGID_CONFIG_IPV4) as [Ty|N1].
  { rewrite Ty. cbv beta. change (HE_MSGID_CONFIG_IPV4 =? HE_MSGID_NOOP) with false. change (HE_MSGID_CONFIG_IPV4 =? HE_MSGID_PING) with false. change (HE_MSGID_CONFIG_IPV4 =? HE_MSGID_PONG) with false.
    change (HE_MSGID_CONFIG_IPV4 =? HE_MSGID_AUTH) with false. change (HE_MSGID_CONFIG_IPV4 =? HE_MSGID_DATA) with false. cbv iota.
    destruct (c_is_server (w_c w)); cbn [negb]; [exact Hw|]. now apply J_config. }
  destruct (Z.eqb_spec (msg_type m) HE_MSGID_SERVER_CONFIG) as [Ty|N2].
  { rewrite Ty. cbv beta. repeat match goal with |- context [HE_MSGID_SERVER_CONFIG =? ?z] => change (HE_MSGID_SERVER_CONFIG =? z) with false end. cbv iota.
    destruct (c_is_server (w_c w)); cbn [negb]; [exact Hw|]. now apply J_server_config. }
  destruct (Z.eqb_spec (msg_type m) HE_MSGID_DATA) as [Ty|N3].
  { rewrite Ty. cbv beta. repeat match goal with |- context [HE_MSGID_DATA =? ?z] => lazymatch z with HE_MSGID_DATA => fail | _ => change (HE_MSGID_DATA =? z) with false end end. change (HE_MSGID_DATA =? HE_MSGID_DATA) with true. cbv iota. now apply J_data. }
  destruct (Z.eqb_spec (msg_type m) HE_MSGID_DEPRECATED_13) as [Ty|N4].
  { rewrite Ty. cbv beta. repeat match goal with |- context [HE_MSGID_DEPRECATED_13 =? ?z] => lazymatch z with HE_MSGID_DEPRECATED_13 => fail | _ => change (HE_MSGID_DEPRECATED_13 =? z) with false end end. change (HE_MSGID_DEPRECATED_13 =? HE_MSGID_DEPRECATED_13) with true. cbv iota. now apply J_13. }
  destruct (Z.eqb_spec (msg_type m) HE_MSGID_DATA_WITH_FRAG) as [Ty|N5].
  { rewrite Ty. cbv beta. repeat match goal with |- context [HE_MSGID_DATA_WITH_FRAG =? ?z] => lazymatch z with HE_MSGID_DATA_WITH_FRAG => fail | _ => change (HE_MSGID_DATA_WITH_FRAG =? z) with false end end. change (HE_MSGID_DATA_WITH_FRAG =? HE_MSGID_DATA_WITH_FRAG) with true. cbv iota. now apply J_frag. }
  match goal with |- match ?mm w with _ => _ end => assert (keeps (J ((s, m) :: xs)) T mm) as Kp; [|exact (Kp w Hw)] end.
  generalize (c_is_server (w_c w)). clear w St Hw. intros srv.
  destruct (msg_type m =? HE_MSGID_NOOP); [apply keeps_ret|]. destruct (msg_type m =? HE_MSGID_PING); [apply keeps_handle_ping; ks|].
  destruct (msg_type m =? HE_MSGID_PONG); [apply keeps_handle_pong; ks|].
  destruct (Z.eqb_spec (msg_type m) HE_MSGID_AUTH) as [Ty|_]. { case_if; [now apply J_auth|apply keeps_ret]. }
  repeat case_if; apply keeps_ret.
Qed.
Lemma J_op xs o : keeps (J xs) T (wolf_op E hook o).
Proof. apply keeps_wolf_op'; ks. Qed.
Lemma J_recv xs w r err d w' : J xs w -> wolf_op E hook WRecv w = Done (r, err, d) w' -> 0 < r -> J ((c_state (w_c w'), d) :: xs) w'.
Proof.
  intros Hw H Hr. assert (J xs w') as Hj by (pose proof (@J_op xs WRecv w Hw) as Kp; now rewrite H in Kp).
  unfold wolf_op in H. unfold bind at 1, emit at 1 in H. unfold bind at 1, get at 1 in H. unfold bind at 1 in H.
  match type of H with match ?x with _ => _ end = _ => destruct x as [[[r1 e1] d1] w1|]; [|discriminate H] end.
  unfold bind, emit, ret in H. injection H as <- <- <- <-. destruct Hj as [A B]. split; [exact A|]. apply incl_cons; [|exact B].
  fold (push (EWEnd WRecv r1 e1 d1) w1). rewrite recently_push by reflexivity. apply in_or_app. right. cbn [got_msg].
  destruct (Z.ltb_spec 0 r1); [|lia]. left. reflexivity.
Qed.
Lemma J_gen xs v : keeps (J xs) T (generate_event hook v).
Proof. apply keeps_generate_event; ks. Qed.
Lemma J_timeout xs : keeps (J xs) T (update_timeout E hook).
Proof. apply keeps_update_timeout; ks. Qed.
Lemma J_reneg xs : keeps (J xs) T (renegotiate_ssl E hook).
Proof. apply keeps_renegotiate; ks. Qed.
Lemma J_check xs : keeps (J xs) T (check_renegotiation E hook).
Proof. apply keeps_check; ks. Qed.
Ltac ku := lazymatch goal with |- keeps _ _ (upd _) => apply keeps_upd; intros; assumption end.
Lemma J_verify xs : keeps (J xs) T (verify_connection E hook).
Proof.
  apply verify_kept; intros; first [apply J_op|apply J_gen|apply J_timeout|apply J_change|apply J_reneg|apply J_check|ku|idtac].
  destruct (recv_data H0) as [Bd Ld]. destruct (Z.leb_spec r 0) as [|Hr]; [pose proof (@J_op xs WRecv w H) as Kp; now rewrite H0 in Kp|].
  pose proof (J_recv H H0 Hr) as H1. exact (@J_process xs _ d w' Bd (Ld Hr) eq_refl H1).
Qed.
Lemma J_outside xs b : keeps (J xs) T (outside_data_received E hook b).
Proof. apply outside_kept; intros; [apply keeps_plugin_ingress; ks|ku|ku|apply J_verify|apply keeps_session_in; ks]. Qed.
Lemma J_body xs o : keeps (J xs) T (api_body E hook o).
Proof.
  destruct (match o with OOutside _ => true | _ => false end) eqn:Oo; [destruct o; try discriminate Oo; apply J_outside|].
  destruct o; try discriminate Oo; cbn [api_body].
  - apply keeps_client_connect; ks.
  - apply keeps_server_connect; ks.
  - apply keeps_disconnect; ks.
  - apply keeps_inside; ks.
  - apply keeps_nudge; ks.
  - apply keeps_keepalive; ks.
  - apply keeps_send_server_config; ks.
  - apply keeps_bind; [ku|intros _; apply keeps_ret].
  - apply keeps_start_pmtu; ks.
  - apply keeps_pm_timeout; ks.
  - apply keeps_rotate; ks.
  - apply keeps_set_session; ks.
  - apply keeps_set_username; ks.
  - apply keeps_set_password; ks.
  - apply keeps_set_token; ks.
  - apply keeps_set_auth_buffer; ks.
  - apply keeps_set_mtu; ks.
  - apply keeps_bind; [ku|intros _; apply keeps_ret].
  - apply keeps_set_sni; ks.
Qed.
End A.
Lemma J_hookn E n : forall xs, keeps (J xs) (fun _ => True) (hookn E n).
Proof.
  induction n as [|n IH]; intros xs; [apply keeps_ret|]. cbn [hookn]. apply keeps_bind; [apply keeps_log|]. intros t.
  induction (e_host E t) as [|o k IHk]; cbn [run_host]; [apply keeps_ret|]. apply keeps_bind; [|intros rc; apply IHk].
  unfold nested_api. apply keeps_bind; [apply keeps_emit; intros; now apply J_push|]. intros _. apply keeps_bind; [now apply J_body|]. intros rc.
  apply keeps_bind; [apply keeps_emit; intros; now apply J_push|]. intros _. apply keeps_ret.
Qed.
Lemma J_run E n ops : forall w, J [] w -> match run E n ops w with Done _ w' => J [] w' | Stuck _ _ => True end.
Proof.
  induction ops as [|o ops IH]; intros w H; cbn [run]; [exact H|].
  assert (keeps (J []) (fun _ => True) (api E (hookn E n) o)) as Kp.
  { unfold api. apply keeps_bind; [apply keeps_emit; intros v [A _]; split; [split; [exact I|exact A]|intros x []]|]. intros _.
    apply keeps_bind; [apply J_body; apply J_hookn|]. intros rc. apply keeps_bind; [apply keeps_emit; intros; now apply J_push|]. intros _. apply keeps_ret. }
  specialize (Kp w H). destruct (api _ _ _ _); [now apply IH|exact I].
Qed.

Lemma all_heard E n ops w : run E n ops world_new = Done tt w -> every heard (w_t w).
Proof.
  intros R. pose proof (@J_run E n ops world_new) as Kp. rewrite R in Kp. apply Kp. split; [exact I|intros x []].
Qed.
Lemma every_weak (P Q : Z -> ev -> trace -> Prop) t : (forall s e past, P s e past -> Q s e past) -> every P t -> every Q t.
Proof. intros H. induction t as [|[s e] t IH]; [auto|]. intros [A B]. split; auto. Qed.

(** Whatever calls a host makes, also inside callbacks and however deep: what its
    authentication callbacks are asked is what a message asks that was received in
    the same call ... *)
Theorem C15_asked_any_host : forall E n ops w, run E n ops world_new = Done tt w ->
  every (fun s e past => forall q, In q (questions s e) -> exists x k, In x (recently past) /\ asks k (snd x) = [q]) (w_t w).
Proof.
  intros E n ops w R. refine (every_weak _ (all_heard R)). intros s e past H q Hq. destruct e; try (now destruct Hq); destruct Hq as [<-|[]]; exact H.
Qed.
Print Assumptions C15_asked_any_host.
(** ... what its configuration callbacks are told is what such a message says ... *)
Theorem C16_told_any_host : forall E n ops w, run E n ops world_new = Done tt w ->
  every (fun s e past => forall q, In q (configuring s e) -> exists x k, In x (recently past) /\ tells k x [q]) (w_t w).
Proof.
  intros E n ops w R. refine (every_weak _ (all_heard R)). intros s e past H q Hq. destruct e; try (now destruct Hq); destruct Hq as [<-|[]]; exact H.
Qed.
Print Assumptions C16_told_any_host.
(** ... and the packets handed to it are those such messages carry, after the
    plugins, which are called one after the other and by nobody else in between. *)
Theorem C14_delivered_any_host : forall E n ops w, run E n ops world_new = Done tt w ->
  every (fun s e past => forall p, In p (inside s e) -> exists x q ids l before,
    In x (recently past) /\ carries x q /\ pass false (len q) ids q l HE_SUCCESS p /\ past = entries s l ++ before /\
    len p <= len q /\ ipv4_packet p = true) (w_t w).
Proof.
  intros E n ops w R. refine (every_weak _ (all_heard R)). intros s e past H q Hq. destruct e; try (now destruct Hq); destruct Hq as [<-|[]]; exact H.
Qed.
Print Assumptions C14_delivered_any_host.
(** Without plugins: unchanged. *)
Definition plugin_called (e : ev) : bool := match e with EPlugin _ _ _ _ => true | _ => false end.
Corollary C14_unchanged_any_host : forall E n ops w, run E n ops world_new = Done tt w -> has plugin_called (w_t w) = false ->
  every (fun s e past => forall p, In p (inside s e) -> ipv4_packet p = true /\ exists x, In x (recently past) /\ carries x p) (w_t w).
Proof.
  intros E n ops w R. pose proof (C14_delivered_any_host R) as H. clear R. induction (w_t w) as [|[s e] t IH]; [auto|]. cbn [has existsb snd].
  unfold has. cbn [existsb snd]. intros Np. apply orb_false_iff in Np as [_ Np]. destruct H as [A B]. split; [|now apply IH].
  intros p Hp. destruct (A p Hp) as (x & q & ids & l & before & Hx & Cq & Ps & -> & _ & Ip). split; [exact Ip|]. exists x. split; [exact Hx|].
  destruct ids as [|id ids]; [destruct Ps as (_ & _ & ->); exact Cq|]. destruct Ps as (r & o & l' & -> & _). exfalso.
  change (PCalled false id q (len q) :: PAnswer r o :: l') with ([PCalled false id q (len q)] ++ (PAnswer r o :: l')) in Np.
  rewrite entries_app, <- app_assoc, existsb_app in Np. apply orb_false_iff in Np as [_ Np]. discriminate Np.
Qed.
Print Assumptions C14_unchanged_any_host.

(** A host that, when told that the link is up or that it is online, hands over
    the datagram it already has from inside the callback: the login in it is asked
    about there and then, the configuration told, the packet handed over. *)
Definition eager (at_state : Z) (m : bytes) : env :=
  Env true 50 plain_ask plain_cb (fun _ => (ip 1, ip 2, ip 3)) (fun _ => (HE_PLUGIN_SUCCESS, [])) plain_wolf
      (fun t => match t with
                | (_, EState s) :: _ => if s =? at_state then HCall (OOutside m) (fun _ => HDone) else HDone
                | _ => HDone end).
Definition nested (e : ev) : bool := match e with ENest (OOutside _) => true | _ => false end.
Example heard_server_ex : let E := eager HE_STATE_LINK_UP (dgram 0 (userpass_message user Scenario.pass)) in
  let w := world_of (run E 1 (firstn 3 server_up) world_new) in
  run E 1 (firstn 3 server_up) world_new = Done tt w /\ has nested (w_t w) = true /\
  collect questions (w_t w) = [AskUser (padded 50 user) (padded 50 Scenario.pass)] /\ c_state (w_c w) = HE_STATE_ONLINE.
Proof. vm_compute. repeat split. Qed.
Example heard_client_ex : let E := eager HE_STATE_ONLINE (dgram 4660 (data_message true 1 2 ipv4 0)) in
  let w := world_of (run E 1 client_up world_new) in
  run E 1 client_up world_new = Done tt w /\ has nested (w_t w) = true /\ has plugin_called (w_t w) = false /\
  collect configuring (w_t w) = [NetCfg (padded 24 (ip 1)) (padded 24 (ip 2)) (padded 24 (ip 3)) 1350] /\ collect inside (w_t w) = [ipv4].
Proof. vm_compute. repeat split. Qed.
