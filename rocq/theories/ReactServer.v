(** Messages without effect on a server: the proof for [Props_Server.v]. *)
From Verif Require Import Base Codes Ctx Config Mss Frag Wire WireSpec ConnState Conn ConnSpec HistSpec MsgSpec CallSpec Frame Reaction Seq SeqLoop SeqApi.
Unset Strict Implicit.

Section R.
Variable E : env.
Notation hk := (@ret unit tt).
Notation T := (fun _ : world => True).
Variable k0 : bool * cbs * (Z * Z) * (chain * chain * Z) * Z.
Variable t0 : trace.
Variable f : Z -> bytes -> option Z.   (* messages without effect *)
Definition fhot (t : trace) : option Z :=
  match t with (s, EWEnd WRecv r _ m) :: _ => if 0 <? r then f s m else None | _ => None end.
Definition freacted (s : Z) (e : ev) (past : trace) : Prop := match fhot past with None => True | Some c => reacts c e = true end.
Definition leaves (w w' : world) : Prop := w_t w' = w_t w /\ stable (w_c w') = stable (w_c w) /\ c_state (w_c w') = c_state (w_c w).
Hypothesis f_ok : forall d w code, bytes_ok d -> 0 < len d -> stable (w_c w) = k0 -> f (c_state (w_c w)) d = Some code ->
  exists w', process_message E hk d w = Done code w' /\ leaves w w'.

Definition st (w : world) (h : option Z -> Prop) : Prop :=
  stable (w_c w) = k0 /\ exists seg, w_t w = seg ++ t0 /\ every freacted seg /\ h (fhot seg).
Definition fcalm (w : world) : Prop := st w (fun h => h = None).
Lemma fcalm_push e w : hear e = false -> fcalm w -> fcalm (push e w).
Proof.
  intros He (S & seg & A & B & C). split; [exact S|]. exists ((c_state (w_c w), e) :: seg). split; [cbn [push w_t app]; now rewrite A|]. split.
  - split; [|exact B]. unfold freacted. now rewrite C.
  - destruct e; try reflexivity. destruct o; try reflexivity. discriminate He.
Qed.
Lemma fcalm_conn h w : (forall c, stable (h c) = stable c) -> fcalm w -> fcalm (with_c h w).
Proof. intros H (S & R). split; [cbn [with_c w_c]; now rewrite H|exact R]. Qed.
Ltac kpush := apply fcalm_push; [reflexivity|assumption].
Ltac kconn := apply fcalm_conn; [reflexivity|assumption].
Lemma fcalm_event e w : io_event e = false -> fcalm w -> fcalm (push e w).
Proof. intros H. apply fcalm_push. destruct e; try reflexivity; discriminate H. Qed.
Lemma fcalm_wend o r err d w : o <> WRecv -> fcalm w -> fcalm (push (EWEnd o r err d) w).
Proof. intros H. apply fcalm_push. destruct o; cbn; congruence. Qed.
Lemma fcalm_read sz : keeps fcalm T (io_read sz).
Proof. apply keeps_io_read; auto; intros; first [kpush|kconn]. Qed.
Lemma fcalm_write b : keeps fcalm T (io_write E hk b).
Proof. apply keeps_io_write; auto; intros; first [apply keeps_ret|kpush|kconn]. Qed.
Ltac ks := intros; first [exact I|apply keeps_ret|apply fcalm_read|apply fcalm_write|now apply fcalm_event|now apply fcalm_wend|kpush|kconn|idtac].
Lemma fcalm_process m : keeps fcalm T (process_message E hk m).
Proof. apply keeps_process; ks. Qed.
Lemma fcalm_check : keeps fcalm T (check_renegotiation E hk).
Proof. apply keeps_check; ks. Qed.
Lemma fcalm_reneg : keeps fcalm T (renegotiate_ssl E hk).
Proof. apply keeps_renegotiate; ks. Qed.
Lemma fcalm_session s : keeps fcalm T (update_session_incoming hk s).
Proof. apply keeps_session_in; ks. Qed.
Lemma fcalm_change s : keeps fcalm T (change_conn_state E hk s).
Proof. apply keeps_change_conn_state; ks. Qed.
Lemma fcalm_timeout : keeps fcalm T (update_timeout E hk).
Proof. apply keeps_update_timeout; ks. Qed.
Lemma fcalm_gen e : keeps fcalm T (generate_event hk e).
Proof. apply keeps_generate_event; ks. Qed.
Lemma fcalm_negotiate : keeps fcalm T (wolf_op E hk WNegotiate).
Proof. apply keeps_wolf_negotiate; ks. Qed.
Lemma fcalm_ingress ch d c : keeps fcalm T (plugin_ingress E ch d c).
Proof. apply keeps_plugin_ingress; ks. Qed.

Definition fpre (w : world) : Prop := st w (fun h => h = None \/ h = Some HE_SUCCESS).
Lemma fcalm_pre w : fcalm w -> fpre w.
Proof. intros (S & seg & A & B & C). split; [exact S|]. exists seg. auto. Qed.
Definition fgot (d : bytes) (w : world) : Prop :=
  bytes_ok d /\ 0 < len d /\ stable (w_c w) = k0 /\
  exists seg r err, w_t w = ((c_state (w_c w), EWEnd WRecv r err d) :: seg) ++ t0 /\ 0 < r /\ every freacted ((c_state (w_c w), EWEnd WRecv r err d) :: seg).
Lemma frecv_ok w : fpre w ->
  match wolf_op E hk WRecv w with
  | Done (r, err, d) w' => if r <=? 0 then fcalm w' else fgot d w'
  | Stuck _ w' => True end.
Proof.
  intros (S & seg & A & B & C). pose proof (@recv_data E hk w) as RD. unfold wolf_op in *. unfold bind at 1, emit at 1 in RD. unfold bind at 1, emit at 1. fold (push (EWOp WRecv) w) in *.
  assert (fcalm (push (EWOp WRecv) w)) as C1.
  { split; [exact S|]. exists ((c_state (w_c w), EWOp WRecv) :: seg). split; [cbn [push w_t app]; now rewrite A|]. split; [|reflexivity].
    split; [|exact B]. unfold freacted. destruct C as [-> | ->]; [exact I|reflexivity]. }
  unfold bind at 1, get at 1 in RD. unfold bind at 1, get at 1.
  match goal with |- context [bind ?m ?k (push _ w)] => assert (keeps fcalm T m) as K end.
  { destruct (c_wolf _); [|apply keeps_ret]. apply keeps_bind; [apply keeps_log|]. intros t.
    apply keeps_bind; [apply keeps_strat; ks|]. intros [[r err] d]. apply keeps_ret. }
  specialize (K _ C1). unfold bind at 1 in RD. unfold bind at 1.
  match goal with |- match match ?m with _ => _ end with _ => _ end => destruct m as [[[r err] d] w'|u w'] end; [|exact I].
  unfold bind, emit, ret in *. destruct (RD r err d _ eq_refl) as [Bd Ld]. clear RD.
  destruct K as (S' & seg' & A' & B' & C'). destruct (Z.leb_spec r 0).
  - split; [exact S'|]. exists ((c_state (w_c w'), EWEnd WRecv r err d) :: seg'). split; [cbn [w_t app]; now rewrite A'|]. split.
    + split; [|exact B']. unfold freacted. now rewrite C'.
    + cbn [fhot]. destruct (Z.ltb_spec 0 r); [lia|reflexivity].
  - split; [exact Bd|]. split; [auto|]. split; [exact S'|]. exists seg', r, err. split; [cbn [w_t app w_c]; now rewrite A'|]. split; [lia|].
    split; [|exact B']. unfold freacted. now rewrite C'.
Qed.
Lemma ffetch_ok : forall fuel w, fpre w ->
  match fetch_message E hk fuel w with
  | Done (_, None) w' => fcalm w'
  | Done (rc, Some d) w' => rc = HE_SUCCESS /\ fgot d w'
  | Stuck _ w' => True end.
Proof.
  induction fuel as [|fuel IH]; intros w P; cbn [fetch_message]; [exact I|]. unfold bind at 1.
  pose proof (frecv_ok P) as R. destruct (wolf_op E hk WRecv w) as [[[r err] d] w'|u w']; [|exact R].
  destruct (r <=? 0); [|cbn; auto]. destruct (err =? SSL_ERROR_NONE); [exact R|].
  destruct (err =? APP_DATA_READY); [apply IH; now apply fcalm_pre|]. destruct (_ || _); [exact R|].
  destruct (r =? 0); [exact R|]. cbn. apply fcalm_conn; auto.
Qed.
Definition fended (rc : Z) (w : world) : Prop := fcalm w \/ rc <> HE_SUCCESS /\ st w (fun h => h = Some rc).
Lemma floop_ok : forall fuel w, fpre w ->
  match message_loop E hk fuel w with Done rc w' => fended rc w' | Stuck _ w' => True end.
Proof.
  induction fuel as [|fuel IH]; intros w P; cbn [message_loop]; [exact I|]. unfold bind at 1.
  pose proof (ffetch_ok (e_fuel E) P) as F. destruct (fetch_message E hk (e_fuel E) w) as [[rc [d|]] w1|]; [| |exact F].
  - destruct F as [-> G]. change (negb (HE_SUCCESS =? HE_SUCCESS)) with false. cbv iota. unfold bind at 1.
    destruct G as (Bd & Ld & S & seg & r & err & Tr & Hr & A).
    assert (fhot ((c_state (w_c w1), EWEnd WRecv r err d) :: seg) = f (c_state (w_c w1)) d) as H.
    { cbn [fhot]. destruct (Z.ltb_spec 0 r); [reflexivity|lia]. }
    destruct (f (c_state (w_c w1)) d) as [code|] eqn:N.
    + destruct (@f_ok d w1 code Bd Ld S N) as (w2 & -> & L1 & L2 & L3).
      assert (forall h : option Z -> Prop, h (Some code) -> st w2 h) as S2.
      { intros h Hh. split; [now rewrite L2|]. eexists. split; [rewrite L1; exact Tr|]. split; [exact A|]. rewrite H. exact Hh. }
      destruct (Z.eqb_spec code HE_SUCCESS) as [->|Nc].
      * apply IH. apply S2. now right.
      * right. split; [exact Nc|]. now apply S2.
    + assert (fcalm w1) as C by (split; [exact S|]; eexists; split; [exact Tr|]; split; [exact A|exact H]). pose proof (@fcalm_process d w1 C) as K.
      destruct (process_message E hk d w1) as [rc w2|]; [|exact K]. destruct (negb (rc =? _)); [unfold ret; now left|]. apply IH. now apply fcalm_pre.
  - destruct (negb _); unfold ret; left; exact F.
Qed.
Lemma fmessages_ok w : fcalm w ->
  match handle_messages E hk w with Done rc w' => fended rc w' | Stuck _ w' => True end.
Proof.
  intros C. unfold handle_messages. unfold bind at 1. pose proof (floop_ok (e_fuel E) (fcalm_pre C)) as L.
  destruct (message_loop E hk (e_fuel E) w) as [rc w1|]; [|exact L]. destruct (Z.eqb_spec rc HE_SUCCESS) as [->|N]; [|exact L].
  destruct L as [L|[L _]]; [|now destruct L]. cbn [negb].
  match goal with |- match ?m w1 with _ => _ end => assert (keeps fcalm T m) as K end.
  { apply keeps_bind; [apply keeps_get|]. intros due. apply keeps_bind.
    - destruct due; [apply fcalm_reneg|apply keeps_ret].
    - intros rc. destruct (negb _); [apply keeps_ret|apply fcalm_check]. }
  specialize (K w1 L). match goal with |- match ?m with _ => _ end => destruct m end; [unfold ret; now left|exact K].
Qed.
Lemma fverify_ok w : fcalm w ->
  match verify_connection E hk w with Done rc w' => fended rc w' | Stuck _ w' => True end.
Proof.
  intros C. unfold verify_connection. unfold bind at 1, get at 1. unfold bind at 1.
  match goal with |- match match ?m w with _ => _ end with _ => _ end => assert (keeps fcalm T m) as K end.
  { destruct (negb _); [|apply keeps_ret]. apply keeps_bind; [apply keeps_upd; ks|]. intros _. apply fcalm_gen. }
  specialize (K w C). match goal with |- match match ?m with _ => _ end with _ => _ end => destruct m as [[] w1|] end; [|exact K].
  unfold bind at 1, get at 1. destruct (_ =? HE_STATE_CONNECTING); [|now apply fmessages_ok].
  unfold bind at 1. pose proof (fcalm_negotiate K) as K2. destruct (wolf_op E hk WNegotiate w1) as [[[r err] d] w2|]; [|exact K2].
  destruct (negb (r =? SSL_SUCCESS)).
  - assert (forall (m : M Z), keeps fcalm T m -> match m w2 with Done rc w' => fended rc w' | Stuck _ w' => True end) as Q.
    { intros m Km. specialize (Km w2 K2). destruct (m w2); [unfold ret; now left|exact Km]. }
    apply Q. repeat (case_if; try apply keeps_ret).
    + apply keeps_bind; [apply keeps_upd; ks|intros _; apply keeps_ret].
    + apply keeps_bind; [apply keeps_get|]. intros ct. apply keeps_bind; [apply keeps_when, fcalm_timeout|intros _; apply keeps_ret].
  - unfold bind at 1. pose proof (@fcalm_change HE_STATE_LINK_UP w2 K2) as K3.
    destruct (change_conn_state E hk HE_STATE_LINK_UP w2) as [[] w3|]; [|exact K3]. now apply fmessages_ok.
Qed.
Lemma fended_rx h rc w : (forall c, stable (h c) = stable c) -> fended rc w -> fended rc (World (h (w_c w)) (w_t w)).
Proof.
  intros H [C|(A & S & R)]; [left; now apply (fcalm_conn H)|]. right. split; [exact A|]. split; [|exact R]. cbn [w_c]. now rewrite H.
Qed.
Lemma foutside_ok b w : fcalm w ->
  match outside_data_received E hk b w with Done rc w' => fended rc w' | Stuck _ w' => True end.
Proof.
  intros C. unfold outside_data_received. unfold bind at 1, get at 1. destruct (_ || _); [unfold ret; now left|]. unfold bind at 1.
  pose proof (@fcalm_ingress (c_out_chain (w_c w)) b (len b) w C) as K.
  destruct (plugin_ingress E _ b (len b) w) as [[res data] w1|]; [|exact K].
  destruct (_ =? _); [unfold ret; now left|]. destruct (negb _); [unfold ret; now left|]. destruct (_ <? _); [unfold ret; now left|].
  unfold bind at 1, get at 1. destruct (_ =? HE_CONNECTION_TYPE_DATAGRAM).
  - unfold outside_packet_received. destruct (_ <? _); [unfold ret; now left|].
    do 2 (unfold bind at 1; match goal with |- context [lift ?m w1] => destruct m; cbn [lift]; [unfold ret at 1|exact I] end).
    destruct (_ || _); [unfold ret; now left|].
    do 2 (unfold bind at 1; match goal with |- context [lift ?m w1] => destruct m; cbn [lift]; [unfold ret at 1|exact I] end).
    unfold bind at 1, get at 1. destruct (_ || _); [unfold ret; now left|].
    unfold bind at 1; match goal with |- context [lift ?m w1] => destruct m; cbn [lift]; [unfold ret at 1|exact I] end.
    destruct (_ =? _); [unfold ret; now left|].
    unfold bind at 1; match goal with |- context [lift ?m w1] => destruct m; cbn [lift]; [unfold ret at 1|exact I] end.
    unfold bind at 1, upd at 1. unfold bind at 1.
    match goal with |- context [verify_connection E hk ?v] => assert (fcalm v) as C2 by (apply (fcalm_conn (w := w1)); auto);
      pose proof (fverify_ok C2) as V; destruct (verify_connection E hk v) as [rc w2|]; [|exact V] end.
    unfold bind at 1, upd at 1.
    pose proof (@fended_rx (fun c => set_rx (set_rx_live false (c_rx c)) c) rc w2 (fun _ => eq_refl) V) as V2.
    destruct (Z.eqb_spec rc HE_SUCCESS) as [->|N]; [|exact V2]. destruct V2 as [V2|[V2 _]]; [|now destruct V2]. cbn [negb].
    pose proof (@fcalm_session a3 _ V2) as S. destruct (update_session_incoming hk a3 _); [unfold ret; now left|exact S].
  - destruct (_ =? HE_CONNECTION_TYPE_STREAM); [|unfold ret; now left]. unfold outside_stream_received. unfold bind at 1, get at 1.
    destruct (negb _); [left; now apply (fcalm_conn (w := w1))|].
    unfold bind at 1, upd at 1. unfold bind at 1.
    match goal with |- context [verify_connection E hk ?v] => assert (fcalm v) as C2 by (apply (fcalm_conn (w := w1)); auto);
      pose proof (fverify_ok C2) as V; destruct (verify_connection E hk v) as [rc w2|]; [|exact V] end.
    unfold bind at 1, upd at 1.
    exact (@fended_rx (fun c => set_rx (set_rx_live false (c_rx c)) c) rc w2 (fun _ => eq_refl) V).
Qed.
End R.

(** A call. *)
Lemma reacted_call E f b w rc w' :
  (forall d v code, bytes_ok d -> 0 < len d -> stable (w_c v) = stable (w_c w) -> f (c_state (w_c v)) d = Some code ->
    exists v', process_message E (ret tt) d v = Done code v' /\ leaves v v') ->
  call E (OOutside b) w rc w' ->
  exists seg, w_t w' = seg ++ w_t w /\ every (freacted f) seg.
Proof.
  intros Fo C. apply call_body in C. destruct C as (w1 & B & ->). cbn [api_body] in B.
  match type of B with outside_data_received E _ _ ?v = _ =>
    pose proof (@foutside_ok E (stable (w_c w)) (w_t w) f Fo (u8s b) v) as K end.
  rewrite B in K. destruct K as [(_ & seg & A & Ev & H)|(N & _ & seg & A & Ev & H)].
  - split; [reflexivity|]. eexists [_]. split; [reflexivity|]. split; [|reflexivity]. split; [exact I|exact I].
  - eexists (_ :: seg). split; [cbn [push w_t app]; now rewrite A|]. split; [|exact Ev]. unfold freacted. now rewrite H.
  - eexists (_ :: seg). split; [cbn [push w_t app]; now rewrite A|]. split; [|exact Ev]. unfold freacted. rewrite H. unfold reacts. destruct (Z.eqb_spec rc HE_SUCCESS); [easy|]. apply Z.eqb_refl.
Qed.
