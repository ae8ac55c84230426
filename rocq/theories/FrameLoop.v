(** The receive path for invariants that depend on the messages received: it is
    enough that receiving a message and processing it preserve the invariant. *)
From Verif Require Import Base Codes Ctx Config Mss Frag Wire ConnState Conn ConnSpec Frame.
Unset Strict Implicit.

Section F.
Variable E : env.
Variable hook : M unit.
Variable I : world -> Prop.
Notation T := (fun _ : world => True).
Notation kept := (keeps I T).
(** Receiving, then processing. *)
Hypothesis H_message : forall w r err d w', I w -> wolf_op E hook WRecv w = Done (r, err, d) w' ->
  if r <=? 0 then I w' else match process_message E hook d w' with Done _ w'' => I w'' | Stuck _ _ => True end.
Hypothesis H_err : forall v, kept (upd (set_wolf_err v)).
Hypothesis H_first : kept (upd (set_first true)).
Hypothesis H_firstev : kept (generate_event hook HE_EVENT_FIRST_MESSAGE_RECEIVED).
Hypothesis H_negotiate : kept (wolf_op E hook WNegotiate).
Hypothesis H_linkup : kept (change_conn_state E hook HE_STATE_LINK_UP).
Hypothesis H_timeout : kept (update_timeout E hook).
Hypothesis H_reneg : kept (renegotiate_ssl E hook).
Hypothesis H_check : kept (check_renegotiation E hook).

Definition fetched (m : option bytes) (w' : world) : Prop :=
  match m with
  | None => I w'
  | Some d => match process_message E hook d w' with Done _ w'' => I w'' | Stuck _ _ => True end
  end.
Lemma fetch_kept : forall fuel w, I w ->
  match fetch_message E hook fuel w with
  | Done (rc, m) w' => fetched m w' /\ (m <> None -> rc = HE_SUCCESS)
  | Stuck _ _ => True
  end.
Proof.
  induction fuel as [|fuel IH]; intros w P; cbn [fetch_message]; [exact Logic.I|]. unfold bind at 1.
  pose proof (@H_message w) as R. destruct (wolf_op E hook WRecv w) as [[[r err] d] w'|u w']; [|exact Logic.I]. specialize (R r err d w' P eq_refl).
  destruct (r <=? 0); [|split; [exact R|reflexivity]]. destruct (err =? SSL_ERROR_NONE); [split; [exact R|congruence]|].
  destruct (err =? APP_DATA_READY); [now apply IH|]. destruct (_ || _); [split; [exact R|congruence]|].
  destruct (r =? 0); [split; [exact R|congruence]|]. unfold bind at 1. pose proof (@H_err err w' R) as K.
  destruct (upd (set_wolf_err err) w'); [|exact Logic.I]. split; [exact K|congruence].
Qed.
Lemma loop_kept : forall fuel, kept (message_loop E hook fuel).
Proof.
  induction fuel as [|fuel IH]; intros w P; cbn [message_loop]; [exact Logic.I|]. unfold bind at 1.
  pose proof (@fetch_kept (e_fuel E) w P) as F. destruct (fetch_message E hook (e_fuel E) w) as [[rc [d|]] w1|]; [| |exact Logic.I].
  - destruct F as [F Rc]. rewrite Rc by discriminate. change (negb (HE_SUCCESS =? HE_SUCCESS)) with false. cbv iota.
    unfold bind at 1. cbn [fetched] in F. destruct (process_message E hook d w1) as [rc2 w2|]; [|exact Logic.I].
    destruct (negb (rc2 =? HE_SUCCESS)); [exact F|]. now apply IH.
  - destruct F as [F _]. destruct (negb (rc =? HE_SUCCESS)); exact F.
Qed.
Lemma messages_kept : kept (handle_messages E hook).
Proof.
  unfold handle_messages. apply keeps_bind; [apply loop_kept|]. intros rc. case_if; [apply keeps_ret|].
  apply keeps_bind; [apply keeps_get|]. intros due. apply keeps_bind; [case_if; [exact H_reneg|apply keeps_ret]|].
  intros rc2. case_if; [apply keeps_ret|exact H_check].
Qed.
Lemma verify_kept : kept (verify_connection E hook).
Proof.
  unfold verify_connection. apply keeps_bind; [apply keeps_get|]. intros first. apply keeps_bind.
  { case_if; [|apply keeps_ret]. apply keeps_bind; [exact H_first|intros _; exact H_firstev]. }
  intros _. apply keeps_bind; [apply keeps_get|]. intros st. case_if; [|exact messages_kept].
  apply keeps_bind; [exact H_negotiate|]. intros [[r err] d]. case_if.
  - repeat (case_if; try apply keeps_ret).
    + apply keeps_bind; [apply H_err|intros _; apply keeps_ret].
    + apply keeps_bind; [apply keeps_get|]. intros ct. apply keeps_bind; [apply keeps_when, H_timeout|intros _; apply keeps_ret].
  - apply keeps_bind; [exact H_linkup|intros _; exact messages_kept].
Qed.
End F.
