(** Single calls of a host that makes no API calls from inside callbacks: exact
    results of the functions that give messages to wolfSSL, and what a whole call
    adds to the log. *)
From Verif Require Import Base Codes Ctx Config Mss Frag Wire WireSpec WireProofs ConnState Conn ConnSpec
  CallSpec MsgSpec Frame Reaction.
Unset Strict Implicit.

(** ** Collecting *)
Lemma collect_app A (f : Z -> ev -> list A) a b : collect f (a ++ b) = collect f b ++ collect f a.
Proof. induction a as [|[s e] a IH]; cbn [app collect]; [now rewrite app_nil_r|]. now rewrite IH, app_assoc. Qed.
Lemma during_nil A f w w' : collect f (w_t w') = collect f (w_t w) -> @during A f w w' [].
Proof. unfold during. intros ->. now rewrite app_nil_r. Qed.
Lemma during_trans A f w1 w2 w3 l l' : @during A f w1 w2 l -> during f w2 w3 l' -> during f w1 w3 (l ++ l').
Proof. unfold during. intros H1 H2. now rewrite H2, H1, app_assoc. Qed.

(** Events of wolfSSL's I/O. *)
Definition io_ev (e : ev) : bool :=
  match e with
  | EOutside _ | ECbRet KOutside _ | EPlugin _ _ _ _ | EPluginRet _ _ | EWIn _ _ _ | EWOut _ _ => true
  | _ => false
  end.
Definition io_seg (s : Z) (seg : trace) : Prop := Forall (fun x => fst x = s /\ io_ev (snd x) = true) seg.
Lemma collect_io A (f : Z -> ev -> list A) s seg :
  (forall e, io_ev e = true -> f s e = []) -> io_seg s seg -> collect f seg = [].
Proof.
  intros H. induction 1 as [|[s' e] seg [<- He] _ IH]; [reflexivity|]. cbn [collect fst snd] in *. now rewrite IH, H.
Qed.

Section Seq.
Variable E : env.
Notation hk := (@ret unit tt).

(** wolfSSL's I/O: only the receive state changes. *)
Definition io_from (w0 w : world) : Prop :=
  (exists r, w_c w = set_rx r (w_c w0)) /\ exists seg, w_t w = seg ++ w_t w0 /\ io_seg (c_state (w_c w0)) seg.
Lemma io_from_refl w : io_from w w.
Proof.
  split; [exists (c_rx (w_c w)); destruct w as [[] t]; reflexivity|]. exists []. split; [reflexivity|constructor].
Qed.
Lemma io_from_push w0 e w : io_ev e = true -> io_from w0 w -> io_from w0 (push e w).
Proof.
  intros He [[r H1] (seg & H2 & H3)]. split; [now exists r|]. exists ((c_state (w_c w), e) :: seg). split.
  - cbn [push w_t]. now rewrite H2.
  - constructor; [|exact H3]. cbn. split; [now rewrite H1|exact He].
Qed.
Lemma io_from_rx w0 r w : io_from w0 w -> io_from w0 (with_c (set_rx r) w).
Proof. intros [[r0 H1] H2]. split; [|exact H2]. exists r. cbn [with_c w_c]. now rewrite H1. Qed.
Lemma io_from_read w0 sz : keeps (io_from w0) (fun _ => True) (io_read sz).
Proof.
  apply keeps_io_read; auto; intros; try (now apply io_from_push); try (now apply io_from_rx).
Qed.
Lemma io_from_write w0 b : keeps (io_from w0) (fun _ => True) (io_write E hk b).
Proof.
  apply keeps_io_write; auto; intros; try (now apply io_from_push); try (now apply io_from_rx). apply keeps_ret.
Qed.
Lemma io_from_strat w0 s : keeps (io_from w0) (fun _ => True) (run_strat E hk s).
Proof. apply keeps_strat; [intros; apply io_from_read|intros; apply io_from_write]. Qed.

(** A wolfSSL operation. *)
Lemma wolf_op_seq o w r err d w' :
  wolf_op E hk o w = Done (r, err, d) w' ->
  exists rx seg, let s := c_state (w_c w) in
    w' = World (set_rx rx (w_c w)) ((s, EWEnd o r err d) :: seg ++ (s, EWOp o) :: w_t w) /\ io_seg s seg.
Proof.
  unfold wolf_op. unfold bind at 1, emit at 1. unfold bind at 1, get at 1. cbn [w_c].
  set (w1 := World (w_c w) ((c_state (w_c w), EWOp o) :: w_t w)). fold (push (EWOp o) w) in w1.
  match goal with |- bind ?m _ w1 = _ -> _ => assert (match m w1 with Done _ v => io_from w1 v | Stuck _ _ => True end) as K end.
  { destruct (c_wolf (w_c w)); [|apply io_from_refl]. unfold bind at 1, log at 1. unfold bind at 1.
    pose proof (@io_from_strat w1 (e_wolf E (w_t w1)) w1 (io_from_refl w1)) as K.
    destruct (run_strat E hk _ w1) as [[[r1 err1] d1] w2|]; [|exact I]. exact K. }
  unfold bind at 1. match goal with |- match ?m with _ => _ end = _ -> _ => destruct m as [[[r1 err1] d1] w2|]; [|discriminate] end.
  unfold bind, emit, ret. intros [= <- <- <- <-]. destruct K as [[rx Hc] (seg & Ht & Hs)]. exists rx, seg. split; [|exact Hs].
  rewrite Hc. cbn [w1 push w_c w_t] in *. now rewrite Ht.
Qed.

(** The result of sending. *)
Notation send_rc := write_code.
Lemma send_seq m w rc w' :
  send_message E hk m w = Done rc w' ->
  exists rx we seg r err d, let s := c_state (w_c w) in
    w' = World (set_rx rx (set_wolf_err we (w_c w))) ((s, EWEnd (WSend m) r err d) :: seg ++ (s, EWOp (WSend m)) :: w_t w) /\
    io_seg s seg /\ rc = send_rc r err.
Proof.
  unfold send_message. unfold bind at 1. destruct (wolf_op E hk (WSend m) w) as [[[r err] d] w1|] eqn:O; [|discriminate].
  apply wolf_op_seq in O. destruct O as (rx & seg & -> & S).
  assert (forall c, set_rx rx c = set_rx rx (set_wolf_err (c_wolf_err c) c)) as W by (intros []; reflexivity).
  assert (forall rc', rc' = send_rc r err ->
    Done rc' (World (set_rx rx (w_c w)) ((c_state (w_c w), EWEnd (WSend m) r err d) :: seg ++ (c_state (w_c w), EWOp (WSend m)) :: w_t w)) = Done rc w' ->
    exists rx we seg r err d, let s := c_state (w_c w) in
    w' = World (set_rx rx (set_wolf_err we (w_c w))) ((s, EWEnd (WSend m) r err d) :: seg ++ (s, EWOp (WSend m)) :: w_t w) /\
    io_seg s seg /\ rc = send_rc r err) as F.
  { intros rc' R [= <- <-]. rewrite W. exists rx, (c_wolf_err (w_c w)), seg, r, err, d. auto. }
  unfold write_code in F at 1. unfold ret. destruct (Z.leb_spec r 0); destruct (Z.ltb_spec 0 r); try lia; [|now apply F].
  destruct (err =? SSL_ERROR_NONE) eqn:E1; [now apply F|]. destruct (err =? SSL_ERROR_WANT_WRITE) eqn:E2; [now apply F|].
  destruct (err =? SSL_ERROR_WANT_READ) eqn:E3; [now apply F|]. destruct (r =? 0) eqn:E4; [now apply F|].
  unfold bind, upd, ret. cbn [w_c w_t]. intros [= <- <-]. exists rx, err, seg, r, err, d. split; [reflexivity|]. split; [exact S|].
  unfold write_code. destruct (Z.ltb_spec 0 r); [lia|]. now rewrite E1, E2, E3, E4.
Qed.
Lemma send_sent m w rc w' : send_message E hk m w = Done rc w' -> during sent w w' [m].
Proof.
  intros H. apply send_seq in H. destruct H as (rx & we & seg & r & err & d & -> & S & _). unfold during. cbn [w_t collect sent].
  rewrite collect_app. cbn [collect sent]. rewrite (collect_io (s := c_state (w_c w)) (f := sent) (seg := seg)); auto.
  - now rewrite !app_nil_r.
  - intros []; cbn; auto; discriminate.
Qed.
Lemma send_wrote m w rc w' : send_message E hk m w = Done rc w' ->
  exists r err, during wrote w w' [(m, r, err)] /\ rc = write_code r err.
Proof.
  intros H. apply send_seq in H. destruct H as (rx & we & seg & r & err & d & -> & S & R). exists r, err. split; [|exact R]. unfold during.
  cbn [w_t collect wrote]. rewrite collect_app. cbn [collect wrote]. rewrite (collect_io (s := c_state (w_c w)) (f := wrote) (seg := seg)); auto.
  - now rewrite !app_nil_r.
  - intros []; cbn; auto; discriminate.
Qed.
Lemma send_writes m w rc w' : send_message E hk m w = Done rc w' ->
  exists l, during wrote w w' l /\ during sent w w' (map (fun x => fst (fst x)) l) /\ writes [m] l rc.
Proof.
  intros H. pose proof (send_sent H) as D1. destruct (send_wrote H) as (r & err & D2 & ->). exists [(m, r, err)].
  split; [exact D2|]. split; [exact D1|]. cbn. split; [reflexivity|]. destruct (Z.eqb_spec (write_code r err) HE_SUCCESS); auto.
Qed.
End Seq.
