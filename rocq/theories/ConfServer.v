(** What a server sends as configuration: proofs for C16. *)
From Verif Require Import Base Codes Ctx Config Mss MssSpec MssProofs Frag FragSpec
  Wire WireSpec WireProofs ConnState Conn ConnSpec CallSpec MsgSpec ConfSpec ConnSteps ConnWpApi Frame FrameLoop Reaction Seq SeqInside SeqLoop SeqApi.
Unset Strict Implicit.

Lemma offers_app le s l l' : offers le s l -> offers le s l' -> offers le s (l ++ l').
Proof. intros H. induction H; intros H'; [exact H'| |]; cbn [app]; constructor; auto. Qed.

Lemma type_userpass u p m : build_auth_userpass u p = Val m -> msg_type m = HE_MSGID_AUTH.
Proof. unfold build_auth_userpass. intros H. typed H. Qed.
Lemma type_auth_buffer le n ty b l m : build_auth_buffer le n ty b l = Val m -> msg_type m = HE_MSGID_AUTH.
Proof. unfold build_auth_buffer. intros H. typed H. Qed.
Lemma type_made le c m : auth_made le c m -> msg_type m <> HE_MSGID_CONFIG_IPV4.
Proof.
  intros [[_ H]|(b & n & _ & H & L)]; [apply type_userpass in H; rewrite H; discriminate|]. apply type_auth_buffer in H. apply type_ldn in L.
  destruct L as [L| ->]; [rewrite L, H|]; discriminate.
Qed.

Section P.
Variable E : env.
Notation hk := (@ret unit tt).
Notation T := (fun _ : world => True).
Variable srv : bool.
Variable session : Z.
Variable X : list offer.
(** On a server the session stays the same. *)
Definition O (w : world) : Prop :=
  c_is_server (w_c w) = srv /\ (srv = true -> c_session (w_c w) = session) /\
  exists l, collect offering (w_t w) = X ++ l /\ offers (e_le E) session l /\ (srv = false -> l = []).
Lemma O_push e w : (forall s, offering s e = []) -> O w -> O (push e w).
Proof. intros H (A & B & l & C & D). split; [exact A|]. split; [exact B|]. exists l. split; [|exact D]. cbn [push w_t collect]. now rewrite H, app_nil_r. Qed.
Lemma O_event e w : io_event e = false -> O w -> O (push e w).
Proof. intros H. apply O_push. intros s. destruct e; try reflexivity; try discriminate H. destruct k; try reflexivity. discriminate H. Qed.
Lemma O_conn f w : (forall c, c_is_server (f c) = c_is_server c) -> (forall c, c_session (f c) = c_session c) -> O w -> O (with_c f w).
Proof. intros H1 H2 (A & B & C). split; [cbn [with_c w_c]; now rewrite H1|]. split; [intros S; cbn [with_c w_c]; rewrite H2; auto|exact C]. Qed.
Lemma O_plain o w : plain o -> O w -> O (push (EWOp o) w).
Proof. intros H. apply O_push. intros s. destruct o; try reflexivity. cbn in *. destruct H as (_ & H & _). apply Z.eqb_neq in H. now rewrite H. Qed.
Lemma O_auth m w : auth_made (e_le E) (w_c w) m -> O w -> O (push (EWOp (WSend m)) w).
Proof.
  intros H. apply O_push. intros s. cbn [offering]. pose proof (type_made H) as N. apply Z.eqb_neq in N. now rewrite N.
Qed.
Lemma O_wend o r err d w : O w -> O (push (EWEnd o r err d) w).
Proof. apply O_push. reflexivity. Qed.
Ltac kpush := apply O_push; [intros; reflexivity|assumption].
Ltac kconn := apply O_conn; [reflexivity|reflexivity|assumption].
Lemma O_read sz : keeps O T (io_read sz).
Proof. apply keeps_io_read; auto; intros; first [kpush|kconn]. Qed.
Lemma O_write b : keeps O T (io_write E hk b).
Proof. apply keeps_io_write; auto; intros; first [apply keeps_ret|kpush|kconn]. Qed.
Ltac ks := intros; first [exact I|apply keeps_ret|apply O_read|apply O_write|now apply O_event|now apply O_plain|now apply O_auth|now apply O_wend|kpush|kconn|idtac].
Lemma len_field24 s : len (field24 s) = 24.
Proof. unfold field24, len. rewrite firstn_length, app_length. change (length (zeros HE_MAX_IPV4_STRING_LENGTH)) with 24%nat. lia. Qed.
Lemma O_change s : keeps O T (change_conn_state E hk s).
Proof. apply keeps_change_conn_state; ks. Qed.
Lemma O_denied : keeps O T (send_auth_denied E hk).
Proof. apply keeps_auth_denied; ks. Qed.
Lemma O_accepted : srv = true -> keeps O T (auth_accepted E hk).
Proof.
  intros Sv w Ow. unfold auth_accepted. unfold bind at 1, get at 1. unfold bind at 1, emit at 1. fold (push EPopulate w). set (w1 := push EPopulate w).
  unfold bind at 1, ret at 1. unfold bind at 1, log at 1. destruct (e_cfg E (w_t w1)) as [[l0 p0] d0]. set (l := field24 l0). set (p := field24 p0). set (d := field24 d0).
  unfold bind at 1, emit at 1. fold (push (ECfg l p d) w1). unfold bind at 1, log at 1. cbv zeta. set (r := e_cb E _). unfold bind at 1, emit at 1.
  fold (push (ECbRet KPopulate r) (push (ECfg l p d) w1)). set (w3 := push (ECbRet KPopulate r) _).
  destruct Ow as (A & B & q & C & D & _).
  assert (collect offering (w_t w3) = X ++ (q ++ [Host l p d; HostCode r])) as Cw.
  { unfold w3, w1. cbn [push w_t collect offering]. rewrite C, !app_nil_r, <- !app_assoc. reflexivity. }
  destruct (Z.eqb_spec r HE_SUCCESS) as [Rs|Rs]; cbn [negb].
  - assert (c_session (w_c w) = session) as Ss by auto. rewrite Ss. rewrite build_config_ipv4_ok by apply len_field24. unfold bind at 1, lift, ret at 1.
    set (m := config_message _ _ _ _ _).
    match goal with |- match bind (send_message E hk m) ?k w3 with _ => _ end => assert (forall a, keeps O T (k a)) as Kk end.
    { intros a. apply keeps_bind; [apply O_change|]. intros []. apply keeps_ret. }
    unfold bind at 1. assert (at_world O T w3 (send_message E hk m)) as Ka.
    { apply send_message_at; ks; [reflexivity|]. split; [exact A|]. split; [intros _; exact Ss|]. exists (q ++ [Host l p d; HostCode r; Reply m]). split; [|split; [|congruence]].
      - cbn [push w_t collect]. rewrite Cw. cbn [offering]. change (msg_type m =? HE_MSGID_CONFIG_IPV4) with true. cbv iota. now rewrite <- !app_assoc.
      - apply offers_app; [exact D|]. rewrite Rs. apply offers_sent. constructor. }
    unfold at_world in Ka. destruct (send_message E hk m w3) as [a w4|]; [|exact I]. exact (Kk a w4 Ka).
  - match goal with |- match ?mm w3 with _ => _ end => assert (keeps O T mm) as Kk end.
    { apply keeps_bind; [apply O_denied|]. intros []. apply keeps_ret. }
    apply (Kk w3). split; [exact A|]. split; [exact B|]. exists (q ++ [Host l p d; HostCode r]). split; [exact Cw|]. split; [|congruence].
    apply offers_app; [exact D|]. apply offers_failed; [exact Rs|constructor].
Qed.
Lemma O_verdict b r : srv = true -> keeps O T (auth_verdict E hk b r).
Proof.
  intros Sv. unfold auth_verdict. case_if; [|now apply O_accepted]. apply keeps_bind; [apply O_denied|]. intros []. apply keeps_bind; [apply O_change|]. intros []. apply keeps_ret.
Qed.
Lemma O_ask e : (forall s, offering s e = []) -> keeps O T (callback E hk e KAuth).
Proof.
  intros H. unfold callback. apply keeps_bind; [apply keeps_emit; intros; now apply O_push|]. intros []. apply keeps_bind; [apply keeps_ret|]. intros [].
  apply keeps_bind; [apply keeps_log|]. intros t. cbv zeta. apply keeps_bind; [apply keeps_emit; intros; kpush|]. intros []. apply keeps_ret.
Qed.
Lemma O_handle_auth m : srv = true -> keeps O T (handle_auth E hk m).
Proof.
  intros Sv. unfold handle_auth. apply keeps_bind; [apply keeps_get|]. intros c. cbv zeta.
  repeat (first [apply keeps_ret|now apply O_verdict|apply keeps_bind; [first [apply keeps_lift; auto|apply keeps_get|apply O_ask; reflexivity|apply keeps_upd; intros; kconn]|intros]|case_if]).
Qed.
Lemma O_process m : keeps O T (process_message E hk m).
Proof.
  unfold process_message. destruct (len m <? sizeof_msg_hdr); [apply keeps_bind; [apply keeps_upd; ks|intros; apply keeps_ret]|]. apply keeps_bind; [apply keeps_lift; auto|]. intros id. intros w Hw. unfold bind at 1, get at 1.
  assert (c_is_server (w_c w) = srv) as Is by apply Hw. rewrite Is.
  match goal with |- match ?m w with _ => _ end => assert (keeps O T m) as Kp; [|exact (Kp w Hw)] end.
  destruct (id =? HE_MSGID_NOOP); [apply keeps_ret|]. destruct (id =? HE_MSGID_PING); [apply keeps_handle_ping; ks|].
  destruct (id =? HE_MSGID_PONG); [apply keeps_handle_pong; ks|].
  destruct (id =? HE_MSGID_AUTH). { destruct srv eqn:Sv; [rewrite <- Sv in *; now apply O_handle_auth|apply keeps_ret]. }
  destruct srv eqn:Sv; cbn [negb]; repeat case_if; try apply keeps_ret; rewrite <- Sv in *.
  - apply keeps_handle_data; ks.
  - apply keeps_handle_13; ks.
  - apply keeps_handle_frag; ks.
  - apply keeps_handle_data; ks.
  - apply keeps_handle_config; ks.
    match goal with H : O ?w |- _ => destruct H as (A & B & C) end. split; [exact A|]. split; [congruence|exact C].
  - apply keeps_handle_13; ks.
  - apply keeps_handle_server_config; ks.
  - apply keeps_handle_frag; ks.
Qed.
Lemma O_verify : keeps O T (verify_connection E hk).
Proof.
  apply verify_kept.
  - intros w r err d w' Ow Hr. assert (keeps O T (wolf_op E hk WRecv)) as K by (apply keeps_wolf_op'; ks). specialize (K w Ow). rewrite Hr in K.
    case_if; [exact K|]. exact (O_process d K).
  - intros v. apply keeps_upd; ks.
  - apply keeps_upd; ks.
  - apply keeps_generate_other; ks; reflexivity.
  - apply keeps_wolf_op'; ks.
  - apply O_change.
  - apply keeps_update_timeout; ks.
  - apply keeps_renegotiate; ks.
  - apply keeps_check; ks.
Qed.
(** The same without the session. *)
Definition OL (w : world) : Prop :=
  exists l, collect offering (w_t w) = X ++ l /\ offers (e_le E) session l /\ (srv = false -> l = []).
Lemma O_OL w : O w -> OL w.
Proof. intros (_ & _ & H). exact H. Qed.
Lemma OL_push e w : (forall s, offering s e = []) -> OL w -> OL (push e w).
Proof. intros H (l & C & D). exists l. split; [|exact D]. cbn [push w_t collect]. now rewrite H, app_nil_r. Qed.
Lemma OL_event e w : io_event e = false -> OL w -> OL (push e w).
Proof. intros H. apply OL_push. intros s. destruct e; try reflexivity; try discriminate H. destruct k; try reflexivity. discriminate H. Qed.
Lemma OL_auth m w : auth_made (e_le E) (w_c w) m -> OL w -> OL (push (EWOp (WSend m)) w).
Proof. intros H. apply OL_push. intros s. cbn [offering]. pose proof (type_made H) as N. apply Z.eqb_neq in N. now rewrite N. Qed.
Lemma OL_plain o w : plain o -> OL w -> OL (push (EWOp o) w).
Proof. intros H. apply OL_push. intros s. destruct o; try reflexivity. cbn in *. destruct H as (_ & H & _). apply Z.eqb_neq in H. now rewrite H. Qed.
Ltac kl := intros; first [exact I|apply keeps_ret|now apply OL_event|now apply OL_plain|now apply OL_auth|apply OL_push; [intros; reflexivity|assumption]|match goal with H : OL ?w |- _ => exact H end|idtac].
Lemma OL_read sz : keeps OL T (io_read sz).
Proof. apply keeps_io_read; kl. Qed.
Lemma OL_write b : keeps OL T (io_write E hk b).
Proof. apply keeps_io_write; kl. Qed.
Lemma O_outside b w rc w' : O w -> outside_data_received E hk b w = Done rc w' -> OL w'.
Proof.
  intros Ow. unfold outside_data_received. unfold bind at 1, get at 1.
  destruct (_ || _); [intros H; apply Done_inv in H; destruct H as [_ <-]; now apply O_OL|].
  unfold bind at 1. assert (keeps O T (plugin_ingress E (c_out_chain (w_c w)) b (len b))) as Kp by (apply keeps_plugin_ingress; ks). specialize (Kp w Ow).
  destruct (plugin_ingress _ _ _ _ _) as [[res data] w1|]; [|discriminate].
  destruct (res =? HE_ERR_PLUGIN_DROP); [intros H; apply Done_inv in H; destruct H as [_ <-]; now apply O_OL|].
  destruct (negb _); [intros H; apply Done_inv in H; destruct H as [_ <-]; now apply O_OL|].
  destruct (_ <? _); [intros H; apply Done_inv in H; destruct H as [_ <-]; now apply O_OL|].
  unfold bind at 1, get at 1.
  assert (forall A (m : M A) (k : A -> M Z), keeps O T m -> (forall a v, O v -> match k a v with Done _ v' => OL v' | _ => True end) -> forall v, O v -> match bind m k v with Done _ v' => OL v' | _ => True end) as Bd.
  { intros A m k Km Kk v Ov. unfold bind. specialize (Km v Ov). destruct (m v); [|exact I]. now apply Kk. }
  assert (forall (m : M Z), keeps O T m -> forall v, O v -> match m v with Done _ v' => OL v' | _ => True end) as Bk.
  { intros m Km v Ov. specialize (Km v Ov). destruct (m v); [now apply O_OL|exact I]. }
  intros H. match type of H with ?m w1 = _ => assert (match m w1 with Done _ v' => OL v' | _ => True end) as K; [|rewrite H in K; exact K] end. clear H.
  case_if; [|case_if; [|now apply O_OL]].
  - unfold outside_packet_received. case_if; [now apply O_OL|]. revert Kp. generalize w1. apply Bd; [apply keeps_lift; auto|]. intros h0. apply Bd; [apply keeps_lift; auto|]. intros h1 v Ov.
    case_if; [now apply O_OL|]. revert v Ov. apply Bd; [apply keeps_lift; auto|]. intros ma. apply Bd; [apply keeps_lift; auto|]. intros mi. apply Bd; [apply keeps_get|]. intros c v Ov.
    case_if; [now apply O_OL|]. revert v Ov. apply Bd; [apply keeps_lift; auto|]. intros s v Ov. case_if; [now apply O_OL|]. revert v Ov.
    apply Bd; [apply keeps_lift; auto|]. intros body. apply Bd; [apply keeps_upd; ks|]. intros []. apply Bd; [apply O_verify|]. intros rc1. apply Bd; [apply keeps_upd; ks|]. intros [] v Ov.
    case_if; [now apply O_OL|]. assert (keeps OL T (update_session_incoming hk s)) as K by (apply keeps_session_in; kl).
    specialize (K v (O_OL Ov)). destruct (update_session_incoming hk s v); exact K.
  - unfold outside_stream_received. revert Kp. generalize w1. apply Bd; [apply keeps_get|]. intros r v Ov. case_if.
    + revert v Ov. apply Bk. apply keeps_bind; [apply keeps_upd; ks|]. intros []. apply keeps_ret.
    + revert v Ov. apply Bd; [apply keeps_upd; ks|]. intros []. apply Bd; [apply O_verify|]. intros rc1. apply Bk. apply keeps_bind; [apply keeps_upd; ks|]. intros []. apply keeps_ret.
Qed.
End P.

Lemma offers_call E o w rc w' : call E o w rc w' ->
  exists l, during offering w w' l /\ offers (e_le E) (c_session (w_c w)) l /\
    (c_is_server (w_c w) = false -> l = []) /\ ((forall b, o <> OOutside b) -> l = []).
Proof.
  intros C. destruct (call_body C) as (w1 & Bd & ->).
  assert ((exists b, o = OOutside b) \/ (forall b, o <> OOutside b)) as [[b ->]|No].
  { destruct o; try (right; discriminate). left. now exists buffer. }
  - assert (O E (c_is_server (w_c w)) (c_session (w_c w)) (collect offering (w_t w)) (push (ECall (OOutside b)) w)) as O0.
    { split; [reflexivity|]. split; [reflexivity|]. exists []. cbn [push w_t collect offering]. rewrite app_nil_r. split; [reflexivity|]. split; [constructor|reflexivity]. }
    destruct (O_outside O0 Bd) as (l & D & F & N). exists l. split; [|split; [exact F|split; [exact N|intros H; now destruct (H b)]]].
    unfold during. cbn [push w_t collect offering]. rewrite app_nil_r. exact D.
  - exists []. split; [|split; [constructor|auto]].
    pose (I := OL E false 0 (collect offering (w_t w))).
    assert (forall b, keeps I (fun _ => True) (io_write E (ret tt) b)) as Hw by (intros b; apply OL_write).
    assert (I (push (ECall o) w)) as I0.
    { exists []. cbn [push w_t collect offering]. rewrite app_nil_r. split; [reflexivity|]. split; [constructor|reflexivity]. }
    assert (keeps I (fun _ => True) (api_body E (ret tt) o)) as K.
    { apply keeps_api_body; intros; first [exact Logic.I|apply keeps_ret|apply OL_read|apply OL_write|now apply OL_event|now apply OL_plain|now apply OL_auth|apply OL_push; [intros; reflexivity|assumption]|match goal with H : I ?w |- _ => exact H end|idtac]; auto.
      all: apply keeps_server_connect; intros; first [exact Logic.I|apply keeps_ret|apply OL_read|apply OL_write|now apply OL_event|now apply OL_plain|now apply OL_auth|apply OL_push; [intros; reflexivity|assumption]|match goal with H : I ?w |- _ => exact H end|idtac]; auto. }
    specialize (K _ I0). rewrite Bd in K. destruct K as (l & D & _ & N). rewrite (N eq_refl), app_nil_r in D. apply during_nil. cbn [push w_t collect offering]. now rewrite app_nil_r.
Qed.
