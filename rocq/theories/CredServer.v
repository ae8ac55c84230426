(** What a server asks its authentication callbacks: proofs for C15. *)
From Verif Require Import Base Codes Ctx Config Mss MssSpec MssProofs Frag FragSpec
  Wire WireSpec WireProofs ConnState Conn ConnSpec CallSpec MsgSpec CredSpec ConnSteps ConnWpApi Frame Reaction Seq SeqInside SeqLoop SeqApi.
Unset Strict Implicit.

Lemma questions_quiet s e : quiet e = true -> questions s e = [].
Proof. destruct e; try reflexivity; discriminate. Qed.
Section P.
Variable E : env.
Notation hk := (@ret unit tt).
Notation T := (fun _ : world => True).
Section Ev.
Variable k0 : bool * cbs * (Z * Z) * (chain * chain * Z) * Z.
Notation KP X := (K questions k0 X).
Lemma KQ_push X e w : (forall s, questions s e = []) -> hear e = false -> KP X w -> KP X (push e w).
Proof.
  intros H1 H2 [S C]. split; [exact S|]. cbn [push w_t collect]. unfold both at 2. rewrite H1.
  assert (got_msg (c_state (w_c w)) e = []) as ->; [|cbn; now rewrite app_nil_r]. destruct e; try reflexivity. destruct o; try reflexivity. discriminate H2.
Qed.
Lemma KQ_event X e w : io_event e = false -> KP X w -> KP X (push e w).
Proof. intros H. apply KQ_push; [|destruct e; (reflexivity || discriminate H)]. intros s. destruct e; try reflexivity; discriminate H. Qed.
Lemma KQ_conn X h w : (forall c, stable (h c) = stable c) -> KP X w -> KP X (with_c h w).
Proof. intros H [S C]. split; [cbn [with_c w_c]; now rewrite H|exact C]. Qed.
Ltac kpush := apply KQ_push; [intros; reflexivity|reflexivity|assumption].
Ltac kconn := apply KQ_conn; [reflexivity|assumption].
Lemma KQ_wend X o r err d w : o <> WRecv -> KP X w -> KP X (push (EWEnd o r err d) w).
Proof. intros H. apply KQ_push; [reflexivity|]. destruct o; cbn; congruence. Qed.
Lemma KQ_read X sz : keeps (KP X) T (io_read sz).
Proof. apply keeps_io_read; auto; intros; first [kpush|kconn]. Qed.
Lemma KQ_write X b : keeps (KP X) T (io_write E hk b).
Proof. apply keeps_io_write; auto; intros; first [apply keeps_ret|kpush|kconn]. Qed.
Ltac ks := intros; first [exact I|apply keeps_ret|apply KQ_read|apply KQ_write|now apply KQ_event|now apply KQ_wend|kpush|kconn|idtac].
Lemma KQ_process X m : 0 < len m -> fst (fst (fst (fst k0))) && (msg_type m =? HE_MSGID_AUTH) = false -> keeps (KP X) T (process_message E hk m).
Proof.
  intros Hl Hd. unfold process_message. destruct (Z.ltb_spec (len m) sizeof_msg_hdr) as [Y|_]; [unfold sizeof_msg_hdr in Y; lia|].
  rewrite ld8_ok by lia. change (nth (Z.to_nat 0) m 0) with (msg_type m).
  unfold bind at 1, lift at 1, ret at 1. intros w Hw. unfold bind at 1, get at 1.
  assert (c_is_server (w_c w) = fst (fst (fst (fst k0)))) as Is by (destruct Hw as [<- _]; reflexivity). rewrite <- Is in Hd.
  match goal with |- match ?m w with _ => _ end => assert (keeps (KP X) T m) as Kp; [|exact (Kp w Hw)] end.
  destruct (msg_type m =? HE_MSGID_NOOP); [apply keeps_ret|]. destruct (msg_type m =? HE_MSGID_PING); [apply keeps_handle_ping; ks|].
  destruct (msg_type m =? HE_MSGID_PONG); [apply keeps_handle_pong; ks|].
  destruct (msg_type m =? HE_MSGID_AUTH). { destruct (c_is_server (w_c w)); [discriminate Hd|apply keeps_ret]. }
  repeat case_if; try apply keeps_ret.
  - apply keeps_handle_data; ks.
  - apply keeps_handle_config; ks.
  - apply keeps_handle_13; ks.
  - apply keeps_handle_server_config; ks.
  - apply keeps_handle_frag; ks.
Qed.
Lemma KQ_change X s : keeps (KP X) T (change_conn_state E hk s).
Proof. apply keeps_change_conn_state; ks. Qed.
Lemma KQ_verdict X b r : keeps (KP X) T (auth_verdict E hk b r).
Proof. apply keeps_auth_verdict; ks. Qed.

(** A question and what follows it. *)
Lemma KQ_ask X e v l (k : Z -> M Z) w rc w' : (forall s, questions s e = l) -> hear e = false -> KP X w -> (forall r, keeps (KP (X ++ map inr l)) T (k r)) ->
  bind (callback E hk e v) k w = Done rc w' -> KP (X ++ map inr l) w'.
Proof.
  intros Hq He [S C] Hk H. unfold bind at 1, callback in H. unfold bind at 1, emit at 1 in H. unfold bind at 1, ret at 1 in H. unfold bind at 1, log at 1 in H. unfold bind at 1, emit at 1 in H. unfold ret at 1 in H.
  match type of H with k ?r ?v = _ => pose proof (Hk r v) as K; rewrite H in K end. apply K. clear K H Hk. split; [exact S|]. cbn [w_t w_c collect]. unfold both at 2 3. cbn [got_msg questions map app]. rewrite app_nil_r, C, Hq.
  f_equal. assert (got_msg (c_state (w_c w)) e = []) as ->; [|reflexivity]. destruct e; try reflexivity. destruct o; try reflexivity. discriminate He.
Qed.
Definition claim (x : Z * bytes) (l : list auth_question) : Prop := l = if fst (fst (fst (fst k0))) then asks (snd (fst (fst (fst k0)))) (snd x) else [].

Lemma auth_process m w rc w' : bytes_ok m -> 0 < len m -> stable (w_c w) = k0 ->
  process_message E hk m w = Done rc w' ->
  stable (w_c w') = k0 /\
  exists l, collect (both questions) (w_t w') = collect (both questions) (w_t w) ++ map inr l /\ claim (c_state (w_c w), m) l.
Proof.
  intros Bm Hl S H. unfold claim. set (X := collect (both questions) (w_t w)). assert (KP X w) as Hw by (split; [exact S|reflexivity]).
  assert (KP X w' -> stable (w_c w') = k0 /\ exists l, collect (both questions) (w_t w') = X ++ map inr l /\ l = []) as Fin.
  { intros [S' C']. split; [exact S'|]. exists []. cbn. now rewrite app_nil_r. }
  cbn [snd]. destruct (fst (fst (fst (fst k0))) && (msg_type m =? HE_MSGID_AUTH)) eqn:Au.
  2:{ pose proof (@KQ_process X m Hl Au w Hw) as Kp. rewrite H in Kp. destruct (Fin Kp) as (A & l & B & ->). split; [exact A|]. exists []. split; [exact B|].
      destruct (fst (fst (fst (fst k0)))); [|reflexivity]. cbn [andb] in Au. unfold asks. now rewrite Au. }
  apply andb_true_iff in Au. destruct Au as [Srv Ty]. rewrite Srv.
  assert (c_is_server (w_c w) = true) as Is by (rewrite <- Srv, <- S; reflexivity).
  assert (c_cbs (w_c w) = snd (fst (fst (fst k0)))) as Kc by (rewrite <- S; reflexivity).
  unfold asks. rewrite Ty. cbn [negb orb]. rewrite <- Kc.
  unfold process_message in H. destruct (Z.ltb_spec (len m) sizeof_msg_hdr) as [Y|_]; [unfold sizeof_msg_hdr in Y; lia|].
  rewrite ld8_ok in H by lia. change (nth (Z.to_nat 0) m 0) with (msg_type m) in H. unfold bind at 1, lift at 1, ret at 1 in H. unfold bind at 1, get at 1 in H.
  apply Z.eqb_eq in Ty. rewrite Ty in H. change (HE_MSGID_AUTH =? HE_MSGID_NOOP) with false in H. change (HE_MSGID_AUTH =? HE_MSGID_PING) with false in H.
  change (HE_MSGID_AUTH =? HE_MSGID_PONG) with false in H. change (HE_MSGID_AUTH =? HE_MSGID_AUTH) with true in H. rewrite Is in H.
  unfold handle_auth in H. unfold bind at 1, get at 1 in H. rewrite Is in H. cbn [negb andb] in H.
  set (kk := c_cbs (w_c w)) in *.
  assert (forall (Q : list auth_question), KP (X ++ map inr Q) w' -> stable (w_c w') = k0 /\ exists l, collect (both questions) (w_t w') = X ++ map inr l /\ l = Q) as Fq.
  { intros Q [S' C']. split; [exact S'|]. now exists Q. }
  destruct (cb_populate kk); cbn [negb orb] in *; [|unfold ret in H; apply Done_inv in H as [_ <-]; now apply Fin].
  destruct (negb (cb_auth kk) && negb (cb_authtok kk) && negb (cb_authbuf kk)) eqn:Some1.
  { unfold ret in H; apply Done_inv in H as [_ <-]. destruct (Fin Hw) as (A & l & B & ->). split; [exact A|]. exists []. split; [exact B|].
    destruct (cb_auth kk), (cb_authtok kk), (cb_authbuf kk); try discriminate Some1. cbn [andb]; repeat case_if; reflexivity. }
  change sizeof_auth_hdr with 2 in H. destruct (Z.ltb_spec (len m) 2) as [L2|L2]; [unfold ret in H; apply Done_inv in H as [_ <-]; now apply Fin|].
  rewrite ld8_ok in H by lia. unfold bind at 1, lift at 1, ret at 1 in H. fold (byte_at m 1) in H.
  change sizeof_auth with 104 in H. change sizeof_auth_token with 4 in H. change sizeof_auth_buf with 4 in H. change HE_CONFIG_TEXT_FIELD_LENGTH with 50 in H.
  assert (forall b r, auth_verdict E hk b r w = Done rc w' -> KP X w') as Vd.
  { intros b r D. pose proof (@KQ_verdict X b r w Hw) as Kp. now rewrite D in Kp. }
  destruct (Z.eqb_spec (byte_at m 1) HE_AUTH_TYPE_USERPASS) as [M1|M1].
  { destruct (cb_auth kk); cbn [andb]; [|apply Vd in H; now apply Fin].
    destruct (Z.ltb_spec (len m) 104) as [L|L]; destruct (Z.leb_spec 104 (len m)); try lia; [unfold ret in H; apply Done_inv in H as [_ <-]; now apply Fin|].
    rewrite !ldn_ok in H by lia. unfold bind at 1, lift at 1, ret at 1 in H. unfold bind at 1, lift at 1, ret at 1 in H. apply Fq.
    change (4 + 50) with 54 in H. eapply (@KQ_ask X); [| |exact Hw| |exact H]; [reflexivity|reflexivity|]. intros r.
    apply keeps_bind; [apply keeps_get|]. intros un. apply keeps_bind; [apply keeps_lift; auto|]. intros un1. apply keeps_bind; [apply keeps_lift; auto|]. intros un2.
    apply keeps_bind; [apply keeps_upd; ks|]. intros _. apply KQ_verdict. }
  destruct (Z.eqb_spec (byte_at m 1) HE_AUTH_TYPE_TOKEN) as [M2|M2].
  { destruct (cb_authtok kk); cbn [andb]; [|apply Vd in H; now apply Fin].
    destruct (Z.leb_spec (len m) 4) as [L|L]; destruct (Z.ltb_spec 4 (len m)); try lia; cbn [andb]; [unfold ret in H; apply Done_inv in H as [_ <-]; now apply Fin|].
    destruct (@field16_ok E m 2 Bm) as (raw & F & N & _); [lia|lia|]. change (Z.to_nat 2) with 2%nat in *. rewrite F in H. unfold bind at 1, lift at 1, ret at 1 in H.
    rewrite N in H. destruct (Z.ltb_spec (len m - 4) (field16 m 2)); destruct (Z.leb_spec (4 + field16 m 2) (len m)); try lia; [unfold ret in H; apply Done_inv in H as [_ <-]; now apply Fin|].
    assert (0 <= field16 m 2) as Fp. { assert (byte_ok (nth 2 m 0)) as B1 by now apply bytes_ok_nth. assert (byte_ok (nth 3 m 0)) as B2 by now apply bytes_ok_nth. unfold byte_ok in *. unfold field16. lia. }
    rewrite ldn_ok in H by lia. unfold bind at 1, lift at 1, ret at 1 in H. apply Fq.
    eapply (@KQ_ask X); [| |exact Hw| |exact H]; [reflexivity|reflexivity|]. intros r. apply KQ_verdict. }
  destruct (Z.eqb_spec (byte_at m 1) HE_AUTH_TYPE_CB) as [M3|M3].
  { destruct (cb_authbuf kk); cbn [andb]; [|apply Vd in H; now apply Fin].
    destruct (Z.leb_spec (len m) 4) as [L|L]; destruct (Z.ltb_spec 4 (len m)); try lia; cbn [andb]; [unfold ret in H; apply Done_inv in H as [_ <-]; now apply Fin|].
    destruct (@field16_ok E m 2 Bm) as (raw & F & N & _); [lia|lia|]. change (Z.to_nat 2) with 2%nat in *. rewrite F in H. unfold bind at 1, lift at 1, ret at 1 in H.
    rewrite N in H. destruct (Z.ltb_spec (len m - 4) (field16 m 2)); destruct (Z.leb_spec (4 + field16 m 2) (len m)); try lia; [unfold ret in H; apply Done_inv in H as [_ <-]; now apply Fin|].
    assert (0 <= field16 m 2) as Fp. { assert (byte_ok (nth 2 m 0)) as B1 by now apply bytes_ok_nth. assert (byte_ok (nth 3 m 0)) as B2 by now apply bytes_ok_nth. unfold byte_ok in *. unfold field16. lia. }
    rewrite ldn_ok in H by lia. unfold bind at 1, lift at 1, ret at 1 in H. apply Fq.
    eapply (@KQ_ask X); [| |exact Hw| |exact H]; [intros s; cbn [questions]; now rewrite M3|reflexivity|]. intros r. apply KQ_verdict. }
  apply Vd in H. now apply Fin.
Qed.
End Ev.

Lemma asked_during b w rc w' : call E (OOutside b) w rc w' ->
  exists ds, during (both questions) w w' (caused ds) /\
    Forall (fun d => snd d = if c_is_server (w_c w) then asks (c_cbs (w_c w)) (snd (fst d)) else []) ds /\ stable (w_c w') = stable (w_c w).
Proof.
  intros C. destruct (@loop_call E auth_question questions (claim (stable (w_c w))) (fun l => l = []) b w rc w') as (pre & ds & D & -> & F & St); auto.
  - exact questions_quiet.
  - intros m v rc1 v' B1 L1 S1 P1. exact (auth_process B1 L1 S1 P1).
  - intros v a v' S1 D1. pose proof (@KQ_change (stable (w_c w)) (collect (both questions) (w_t v)) HE_STATE_LINK_UP v) as Kp. rewrite D1 in Kp.
    destruct Kp as [S' C']; [split; auto|]. split; [exact S'|]. exists []. cbn. rewrite app_nil_r. auto.
  - now exists ds.
Qed.
End P.
