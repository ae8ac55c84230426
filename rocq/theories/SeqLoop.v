(** he_conn_outside_data_received by a sequential host: which message caused what.
    [g] picks out the events of interest; each of them happens while one of the
    messages received is processed, or in the preamble (when the connection comes
    up), and [claim] holds of each message and what it caused. *)
From Verif Require Import Base Codes Ctx Config Mss MssSpec MssProofs Frag FragSpec
  Wire WireSpec WireProofs ConnState Conn ConnSpec CallSpec MsgSpec Frame Reaction Seq.
Unset Strict Implicit.

(** Events that are only emitted while a message is processed or the state changes. *)
Definition quiet (e : ev) : bool :=
  match e with
  | EInside _ | EWOp (WSend _) | EWEnd (WSend _) _ _ _ | ENetCfg _ _ _ _ | ESrvCfg _ | EAuthUser _ _ | EAuthToken _ | EAuthBuf _ _
  | EPopulate | ECfg _ _ _ | ECbRet KNetCfg _ | ECbRet KSrvCfg _ | ECbRet KAuth _ | ECbRet KPopulate _ | ECbRet KPmTime _
  | EPmTime _ | EPmState _ | EState _ => false
  | EEvent v => negb (v =? HE_EVENT_PONG)
  | _ => true
  end.
(** What such a call does not change. *)
Definition stable (c : conn) :=
  (c_is_server c, c_cbs c, (c_vmaj c, c_vmin c), (c_in_chain c, c_out_chain c, c_ctype c), c_ping_pend c).

Section L.
Variable E : env.
Notation hk := (@ret unit tt).
Variable B : Type.
Variable g : Z -> ev -> list B.
Hypothesis g_quiet : forall s e, quiet e = true -> g s e = [].
Notation both := (both g).
Variable k0 : bool * cbs * (Z * Z) * (chain * chain * Z) * Z.
Variable claim : Z * bytes -> list B -> Prop.
Variable preok : list B -> Prop.
Definition K (X : list ((Z * bytes) + B)) (w : world) : Prop := stable (w_c w) = k0 /\ collect both (w_t w) = X.

Definition hear (e : ev) : bool := match e with EWEnd WRecv _ _ _ => true | _ => false end.
Lemma K_push X e w : quiet e = true -> hear e = false -> K X w -> K X (push e w).
Proof.
  intros Q H [S C]. split; [exact S|]. cbn [push w_t collect]. unfold both at 2. rewrite g_quiet by exact Q.
  assert (got_msg (c_state (w_c w)) e = []) as ->; [|cbn; now rewrite app_nil_r]. destruct e; try reflexivity. destruct o; try reflexivity. discriminate H.
Qed.
Lemma K_upd X f : (forall c, stable (f c) = stable c) -> keeps (K X) (fun _ => True) (upd f).
Proof. intros H w [S C]. split; [cbn [with_c w_c]; now rewrite H|exact C]. Qed.
Lemma K_emit X e : quiet e = true -> hear e = false -> keeps (K X) (fun _ => True) (emit e).
Proof. intros Q H. apply keeps_emit. intros w. now apply K_push. Qed.
Lemma both_quiet s e : quiet e = true -> hear e = false -> both s e = [].
Proof.
  intros Q H. unfold both. rewrite g_quiet by exact Q. assert (got_msg s e = []) as ->; [|reflexivity].
  destruct e; try reflexivity. destruct o; try reflexivity. discriminate H.
Qed.
Lemma io_quiet e : io_ev e = true -> quiet e = true /\ hear e = false.
Proof. destruct e; try discriminate; auto; destruct k; try discriminate; auto. Qed.
Lemma collect_both_io s seg : io_seg s seg -> collect both seg = [].
Proof. intros H. apply (collect_io (s := s)); [|exact H]. intros e He. destruct (io_quiet He). now apply both_quiet. Qed.
Lemma stable_rx r c : stable (set_rx r c) = stable c.
Proof. reflexivity. Qed.
Lemma K_wolf X o : match o with WRecv | WSend _ => false | _ => true end = true -> keeps (K X) (fun _ => True) (wolf_op E hk o).
Proof.
  intros Ho w [S C]. destruct (wolf_op E hk o w) as [[[r err] d] w'|] eqn:O; [|exact I].
  apply wolf_op_seq in O. destruct O as (rx & seg & -> & Sg). split; [exact S|]. cbn [w_t collect]. rewrite collect_app. cbn [collect].
  rewrite (collect_both_io Sg), (@both_quiet _ (EWOp o)), (@both_quiet _ (EWEnd o r err d)); try (destruct o; (reflexivity || discriminate Ho)).
  now rewrite !app_nil_r.
Qed.
Lemma K_weaken X A (m : M A) : (forall w a w', m w = Done a w' -> K X w -> K X w') -> keeps (K X) (fun _ => True) m.
Proof. intros H w Kw. destruct (m w) eqn:D; [eauto|exact I]. Qed.

Ltac kk1 :=
  match goal with
  | |- keeps _ _ (bind _ _) => apply keeps_bind; [|intro]
  | |- keeps _ _ (ret _) => apply keeps_ret
  | |- keeps _ _ (get _) => apply keeps_get
  | |- keeps _ _ log => apply keeps_log
  | |- keeps _ _ (lift _) => apply keeps_lift; auto
  | |- keeps _ _ (when _ _) => apply keeps_when
  | |- keeps _ _ (upd _) => apply K_upd; reflexivity
  | |- keeps _ _ (emit _) => apply K_emit; reflexivity
  | |- keeps _ _ (wolf_op _ _ _) => apply K_wolf; (reflexivity || (repeat case_if; reflexivity))
  | |- keeps _ _ (if ?b then _ else _) => destruct b
  | |- keeps _ _ (let '(_, _) := ?x in _) => destruct x
  | |- keeps _ _ (match ?x with None => _ | Some _ => _ end) => destruct x
  end.
Ltac kk := intros; repeat kk1.
Lemma K_ask X q : keeps (K X) (fun _ => True) (ask E q).
Proof. unfold ask. kk. Qed.
Lemma K_gen X v : v <> HE_EVENT_PONG -> keeps (K X) (fun _ => True) (generate_event hk v).
Proof. intros H. unfold generate_event, notify. kk. apply K_emit; [|reflexivity]. cbn. apply negb_true_iff. now apply Z.eqb_neq. Qed.
Lemma K_version X : keeps (K X) (fun _ => True) (ask_version E).
Proof. apply keeps_version; [auto|apply K_ask]. Qed.
Lemma K_timeout X : keeps (K X) (fun _ => True) (update_timeout E hk).
Proof. unfold update_timeout, notify. kk; try apply K_ask; try apply K_version. Qed.
Lemma K_reneg X : keeps (K X) (fun _ => True) (renegotiate_ssl E hk).
Proof. unfold renegotiate_ssl. kk; try apply K_ask; try apply K_version; try apply K_timeout; try (apply K_gen; discriminate). Qed.
Lemma K_check X : keeps (K X) (fun _ => True) (check_renegotiation E hk).
Proof. unfold check_renegotiation. kk; try apply K_ask; try apply K_version; try apply K_timeout; try (apply K_gen; discriminate). Qed.
Lemma K_session X s : keeps (K X) (fun _ => True) (update_session_incoming hk s).
Proof. unfold update_session_incoming. kk; try (apply K_gen; discriminate). Qed.
Lemma K_plugin X b i d c : keeps (K X) (fun _ => True) (call_plugin E b i d c).
Proof. unfold call_plugin. kk. Qed.
Lemma K_ingress X ch : forall d c, keeps (K X) (fun _ => True) (plugin_ingress E ch d c).
Proof. induction ch; intros; cbn [plugin_ingress]; kk; try apply K_plugin; try apply IHch. Qed.

(** The two places where events of interest happen. *)
Hypothesis process_ok : forall m w rc w', bytes_ok m -> 0 < len m -> stable (w_c w) = k0 ->
  process_message E hk m w = Done rc w' ->
  stable (w_c w') = k0 /\ exists l, collect both (w_t w') = collect both (w_t w) ++ map inr l /\ claim (c_state (w_c w), m) l.
Hypothesis change_ok : forall w a w', stable (w_c w) = k0 -> change_conn_state E hk HE_STATE_LINK_UP w = Done a w' ->
  stable (w_c w') = k0 /\ exists l, collect both (w_t w') = collect both (w_t w) ++ map inr l /\ preok l.
Hypothesis pre_nil : preok [].

Variable X0 : list ((Z * bytes) + B).
Definition prog (w : world) : Prop :=
  exists pre ds, K (X0 ++ map inr pre ++ caused ds) w /\ preok pre /\ Forall (fun d => claim (fst d) (snd d)) ds.
Definition prog0 (w : world) : Prop := K X0 w.
Definition gotten (d : bytes) (w : world) : Prop :=
  exists pre ds, K ((X0 ++ map inr pre ++ caused ds) ++ [inl (c_state (w_c w), d)]) w /\ preok pre /\ Forall (fun d => claim (fst d) (snd d)) ds.
Lemma keeps_prog A (m : M A) : (forall X, keeps (K X) (fun _ => True) m) -> keeps prog (fun _ => True) m.
Proof. intros H w (pre & ds & Kw & P). specialize (H _ w Kw). destruct (m w); [|exact I]. exists pre, ds. auto. Qed.
Lemma prog0_prog w : prog0 w -> prog w.
Proof. intros Kw. exists [], []. cbn. rewrite app_nil_r. auto. Qed.

Lemma recv_step w r err d w' : prog w -> wolf_op E hk WRecv w = Done (r, err, d) w' ->
  if r <=? 0 then prog w' else gotten d w' /\ bytes_ok d /\ 0 < len d.
Proof.
  intros (pre & ds & [S C] & P) H. pose proof (recv_data H) as [Bd Ld]. apply wolf_op_seq in H. destruct H as (rx & seg & -> & Sg).
  assert (g (c_state (w_c w)) (EWEnd WRecv r err d) = []) as G by (apply g_quiet; reflexivity).
  destruct (Z.leb_spec r 0) as [Hr|Hr]; [|split; [|auto]]; exists pre, ds; (split; [|exact P]); (split; [exact S|]); cbn [w_t w_c collect];
    rewrite collect_app; cbn [collect]; rewrite (collect_both_io Sg), (@both_quiet _ (EWOp WRecv)) by reflexivity; rewrite !app_nil_r, C;
    unfold both; rewrite G; cbn [got_msg]; destruct (Z.ltb_spec 0 r); try lia; cbn [map app].
  - now rewrite !app_nil_r.
  - reflexivity.
Qed.
Lemma fetch_step : forall fuel w, prog w ->
  match fetch_message E hk fuel w with
  | Done (rc, None) w' => prog w'
  | Done (rc, Some d) w' => rc = HE_SUCCESS /\ gotten d w' /\ bytes_ok d /\ 0 < len d
  | Stuck _ _ => True end.
Proof.
  induction fuel as [|fuel IH]; intros w P; cbn [fetch_message]; [exact I|]. unfold bind at 1.
  pose proof (@recv_step w) as R. destruct (wolf_op E hk WRecv w) as [[[r err] d] w'|u w']; [|exact I]. specialize (R r err d w' P eq_refl).
  destruct (r <=? 0); [|split; [reflexivity|exact R]]. destruct (err =? SSL_ERROR_NONE); [exact R|].
  destruct (err =? APP_DATA_READY); [now apply IH|]. destruct (_ || _); [exact R|].
  destruct (r =? 0); [exact R|]. cbn. destruct R as (pre & ds & [S C] & P1). exists pre, ds. split; [|exact P1].
  split; [exact S|exact C].
Qed.
Lemma loop_step : forall fuel, keeps prog (fun _ => True) (message_loop E hk fuel).
Proof.
  induction fuel as [|fuel IH]; intros w P; cbn [message_loop]; [exact I|]. unfold bind at 1.
  pose proof (@fetch_step (e_fuel E) w P) as F. destruct (fetch_message E hk (e_fuel E) w) as [[rc [d|]] w1|]; [| |exact I].
  - destruct F as (-> & G & Bd & Ld). change (negb (HE_SUCCESS =? HE_SUCCESS)) with false. cbv iota.
    unfold bind at 1. destruct G as (pre & ds & [S C] & P1 & P2).
    pose proof (@process_ok d w1) as PS.
    destruct (process_message E hk d w1) as [rc2 w2|]; [|exact I]. destruct (PS rc2 w2 Bd Ld S eq_refl) as (S2 & l & C2 & Cl).
    assert (prog w2) as Pw2.
    { exists pre, (ds ++ [((c_state (w_c w1), d), l)]). split; [|split; [exact P1|]].
      - split; [exact S2|]. rewrite C2, C. unfold caused. rewrite flat_map_app. cbn [flat_map fst snd]. rewrite app_nil_r, <- !app_assoc. reflexivity.
      - apply Forall_app. split; [exact P2|]. constructor; [exact Cl|constructor]. }
    destruct (negb (rc2 =? HE_SUCCESS)); [exact Pw2|]. now apply IH.
  - destruct (negb (rc =? HE_SUCCESS)); exact F.
Qed.
Lemma messages_step : keeps prog (fun _ => True) (handle_messages E hk).
Proof.
  unfold handle_messages. apply keeps_bind; [apply loop_step|]. intros rc. case_if; [apply keeps_ret|].
  apply keeps_bind; [apply keeps_get|]. intros due. apply keeps_bind; [case_if; [apply keeps_prog; intros; apply K_reneg|apply keeps_ret]|].
  intros rc2. case_if; [apply keeps_ret|]. apply keeps_prog. intros. apply K_check.
Qed.
(** From nothing to something. *)
Definition gains {A} (m : M A) : Prop := forall w, prog0 w -> match m w with Done _ w' => prog w' | Stuck _ _ => True end.
Lemma gains_keeps0 A C (m : M A) (k : A -> M C) : keeps prog0 (fun _ => True) m -> (forall a, gains (k a)) -> gains (bind m k).
Proof. intros H1 H2 w P. unfold bind. specialize (H1 w P). destruct (m w) as [a w1|]; [now apply H2|exact I]. Qed.
Lemma gains_then A C (m : M A) (k : A -> M C) : gains m -> (forall a, keeps prog (fun _ => True) (k a)) -> gains (bind m k).
Proof. intros H1 H2 w P. unfold bind. specialize (H1 w P). destruct (m w) as [a w1|]; [now apply H2|exact I]. Qed.
Lemma gains_0 A (m : M A) : keeps prog0 (fun _ => True) m -> gains m.
Proof. intros H w P. specialize (H w P). destruct (m w); [now apply prog0_prog|exact I]. Qed.
Lemma gains_prog A (m : M A) : keeps prog (fun _ => True) m -> gains m.
Proof. intros H w P. apply H. now apply prog0_prog. Qed.
Lemma verify_step : gains (verify_connection E hk).
Proof.
  unfold verify_connection. apply gains_keeps0; [apply keeps_get|]. intros first. apply gains_keeps0.
  { case_if; [|apply keeps_ret]. apply keeps_bind; [apply K_upd; reflexivity|]. intros _. apply K_gen. discriminate. }
  intros _. apply gains_keeps0; [apply keeps_get|]. intros st. case_if; [|apply gains_prog, messages_step].
  apply gains_keeps0; [apply K_wolf; reflexivity|]. intros [[r err] d]. case_if.
  - apply gains_0. repeat (case_if; try apply keeps_ret).
    + apply keeps_bind; [apply K_upd; reflexivity|intros _; apply keeps_ret].
    + apply keeps_bind; [apply keeps_get|]. intros ct. apply keeps_bind; [apply keeps_when, K_timeout|intros _; apply keeps_ret].
  - apply gains_then; [|intros _; apply messages_step]. intros w [S C]. destruct (change_conn_state E hk HE_STATE_LINK_UP w) as [a w'|] eqn:D; [|exact I].
    destruct (change_ok S D) as (S' & l & C' & Pl). exists l, []. split; [|split; [exact Pl|constructor]]. split; [exact S'|]. rewrite C', C. cbn. now rewrite app_nil_r.
Qed.
Lemma outside_step b : gains (outside_data_received E hk b).
Proof.
  unfold outside_data_received. apply gains_keeps0; [apply keeps_get|]. intros st. case_if; [apply gains_0, keeps_ret|].
  apply gains_keeps0; [apply K_ingress|]. intros [res data].
  repeat (case_if; try apply gains_0, keeps_ret). apply gains_keeps0; [apply keeps_get|]. intros ct.
  repeat case_if; try apply gains_0, keeps_ret.
  - unfold outside_packet_received. case_if; [apply gains_0, keeps_ret|].
    repeat (apply gains_keeps0; [first [apply keeps_lift; auto; fail|apply keeps_get; fail]|intro]; try (case_if; [apply gains_0, keeps_ret|])).
    apply gains_keeps0; [apply K_upd; reflexivity|]. intros _.
    apply gains_then; [apply verify_step|]. intros rc.
    apply keeps_bind; [apply keeps_prog; intros; apply K_upd; reflexivity|]. intros _.
    case_if; [apply keeps_ret|]. apply keeps_prog. intros. apply K_session.
  - unfold outside_stream_received. apply gains_keeps0; [apply keeps_get|]. intros r. case_if.
    { apply gains_0. apply keeps_bind; [apply K_upd; reflexivity|]. intros _. apply keeps_ret. }
    apply gains_keeps0; [apply K_upd; reflexivity|]. intros _.
    apply gains_then; [apply verify_step|]. intros rc.
    apply keeps_bind; [apply keeps_prog; intros; apply K_upd; reflexivity|]. intros _. apply keeps_ret.
Qed.
End L.

(** One call. *)
Theorem loop_call E B (g : Z -> ev -> list B) (claim : Z * bytes -> list B -> Prop) (preok : list B -> Prop) b w rc w' :
  (forall s e, quiet e = true -> g s e = []) ->
  (forall m v rc v', bytes_ok m -> 0 < len m -> stable (w_c v) = stable (w_c w) ->
     process_message E (ret tt) m v = Done rc v' ->
     stable (w_c v') = stable (w_c w) /\
     exists l, collect (both g) (w_t v') = collect (both g) (w_t v) ++ map inr l /\ claim (c_state (w_c v), m) l) ->
  (forall v a v', stable (w_c v) = stable (w_c w) -> change_conn_state E (ret tt) HE_STATE_LINK_UP v = Done a v' ->
     stable (w_c v') = stable (w_c w) /\
     exists l, collect (both g) (w_t v') = collect (both g) (w_t v) ++ map inr l /\ preok l) ->
  preok [] ->
  call E (OOutside b) w rc w' ->
  exists pre ds, during (both g) w w' (map inr pre ++ caused ds) /\ preok pre /\
    Forall (fun d => claim (fst d) (snd d)) ds /\ stable (w_c w') = stable (w_c w).
Proof.
  intros Hg Hp Hc Hn. unfold call, api. cbn [api_body]. unfold bind at 1, emit at 1. unfold bind at 1.
  pose proof (@outside_step E B g Hg (stable (w_c w)) claim preok Hp Hc Hn (collect (both g) (w_t w)) (u8s b) (push (ECall (OOutside b)) w)) as O.
  fold (push (ECall (OOutside b)) w).
  destruct (outside_data_received E (ret tt) (u8s b) (push (ECall (OOutside b)) w)) as [rc1 w1|]; [|discriminate].
  destruct O as (pre & ds & [S C] & P1 & P2).
  { apply K_push; [exact Hg|reflexivity|reflexivity|]. split; reflexivity. }
  unfold bind, emit, ret. intros [= <- <-]. exists pre, ds. split; [|auto]. unfold during. cbn [w_t collect].
  rewrite (both_quiet Hg _ (e:=ERet (OOutside b) rc1)) by reflexivity. now rewrite app_nil_r.
Qed.
