(** Path MTU discovery follows the search of PmSpec: proofs for C12. *)
From Verif Require Import Base Codes Ctx Config Mss MssSpec MssProofs Frag Wire WireSpec WireProofs ConnState Conn ConnSpec MsgSpec CallSpec.
From Verif Require Import ConnSteps ConnWp ConnWpApi Hist Hist2 Frame FrameLoop Reaction Seq SeqInside SeqOutside SeqApi SeqLoop SeqPing Props_Ping PmSpec.
Unset Strict Implicit.

(** ** What every search keeps *)
Definition bounds (q : search) : Prop :=
  0 <= tries q <= 3 /\
  (phase q = HE_PMTUD_STATE_DISABLED /\ tries q = 0 /\ size q = 0 \/
   (phase q = HE_PMTUD_STATE_BASE \/ phase q = HE_PMTUD_STATE_SEARCHING \/ phase q = HE_PMTUD_STATE_SEARCH_COMPLETE \/ phase q = HE_PMTUD_STATE_ERROR) /\
   504 <= size q <= 1416 /\ (base q = 512 \/ base q = 1250)).
Lemma probes_bounds n q on out q' : probes n q on out q' -> bounds q -> tries q < 3 -> phase q <> HE_PMTUD_STATE_DISABLED -> bounds q'.
Proof.
  intros H B Tr Ph. destruct H as [|id ok Hn]; [exact B|]. destruct B as [B1 [B2|B2]]; [tauto|]. split; cbn [tries phase size base]; [lia|]. right. tauto || lia.
Qed.
Lemma turn_bounds q i out q' : turn q i out q' -> bounds q -> bounds q'.
Proof.
  intros H B. pose proof B as [B1 B2]. destruct i as [on|on|on id| | | |]; cbn [turn] in H; try contradiction.
  - destruct (Z.eqb_spec (phase q) HE_PMTUD_STATE_DISABLED) as [P|P]; destruct on; cbn [andb] in H; try (destruct H as [_ ->]; exact B).
    destruct H as (rest & -> & H). inversion H as [on Y|id ok Y]; subst; [exfalso; destruct Y as [Y|Y]; [discriminate Y|lia]|]. split; [cbn; lia|]. right. cbn. split; [auto|]. split; [lia|auto].
  - destruct (Z.ltb_spec (tries q) 3) as [L|L].
    { destruct H as [|id ok Hn]; [exact B|]. split; [cbn; lia|]. destruct B2 as [(P & T0 & S0)|B2]; [lia|]. right. cbn. destruct B2 as (P & S0 & B0). split; [exact P|]. split; [lia|exact B0]. }
    cbv zeta in H. change (phase (unawaited q)) with (phase q) in *. change (size (unawaited q)) with (size q) in *. change (big (unawaited q)) with (big q) in *. change (base (unawaited q)) with (base q) in *.
    destruct B2 as [(P & T0 & S0)|(P & S0 & B0)]; [lia|].
    assert (bounds (unawaited q)) as Bu by (split; [cbn; lia|right; cbn; tauto]).
    destruct (Z.eqb_spec (phase q) HE_PMTUD_STATE_BASE) as [E1|E1].
    { destruct (size q =? 1250); [eapply probes_bounds; [exact H|exact Bu|cbn; lia|cbn; rewrite E1; discriminate]|].
      destruct H as [_ ->]. split; [cbn; lia|]. right. cbn. tauto. }
    destruct (Z.eqb_spec (phase q) HE_PMTUD_STATE_SEARCHING) as [E2|E2].
    { destruct (big q); [eapply probes_bounds; [exact H|split; [cbn; lia|right; cbn; tauto]|cbn; lia|cbn; rewrite E2; discriminate]|].
      destruct H as (L1 & _ & ->). split; [cbn; lia|]. right. cbn. split; [auto|]. split; [lia|exact B0]. }
    destruct (Z.eqb_spec (phase q) HE_PMTUD_STATE_SEARCH_COMPLETE) as [E3|E3].
    { destruct H as (rest & -> & H). eapply probes_bounds; [exact H|split; [cbn; lia|right; cbn; tauto]|cbn; lia|cbn; discriminate]. }
    destruct (Z.eqb_spec (phase q) HE_PMTUD_STATE_ERROR); destruct H as [_ ->]; exact Bu.
  - destruct (id =? awaits q); [|destruct H as [_ ->]; exact B].
    cbv zeta in H. change (phase (unawaited q)) with (phase q) in *. change (size (unawaited q)) with (size q) in *. change (big (unawaited q)) with (big q) in *. change (base (unawaited q)) with (base q) in *.
    assert (bounds (unawaited q)) as Bu by (split; [cbn; lia|cbn; tauto]).
    destruct ((phase q =? HE_PMTUD_STATE_BASE) || (phase q =? HE_PMTUD_STATE_ERROR)) eqn:E1.
    { destruct B2 as [(P & T0 & S0)|(P & S0 & B0)]; [rewrite P in E1; discriminate E1|].
      destruct H as (rest & -> & H). eapply probes_bounds; [exact H|split; [cbn; lia|right; cbn; tauto]|cbn; lia|cbn; discriminate]. }
    destruct (Z.eqb_spec (phase q) HE_PMTUD_STATE_SEARCHING) as [E2|E2].
    { destruct B2 as [(P & T0 & S0)|(P & S0 & B0)]; [rewrite P in E2; discriminate E2|]. destruct (1416 <=? size q).
      - destruct H as [_ ->]. split; [cbn; lia|]. right. cbn. tauto.
      - destruct H as (rest & -> & H). eapply probes_bounds; [exact H|exact Bu|cbn; lia|cbn; rewrite E2; discriminate]. }
    destruct (phase q =? HE_PMTUD_STATE_SEARCH_COMPLETE); destruct H as [_ ->]; exact Bu.
Qed.
Lemma follows_bounds l q : follows l q -> bounds q.
Proof. induction 1; [split; [cbn; lia|left; cbn; auto]|]. eapply turn_bounds; eauto. Qed.

(** ** The connection's search *)
Definition abs (p : pmtud) : search := Search (pm_state p) (pm_base p) (pm_size p) (pm_count p) (pm_big p) (pm_id p) (pm_eff p).
Lemma items_app seg t s : io_seg s seg -> items (seg ++ t) = items t.
Proof.
  induction 1 as [|[s' e] seg [Hs He] _ IH]; [reflexivity|]. cbn [app items]. rewrite IH. cbn [snd] in He. destruct e; cbn [item_of]; try apply app_nil_r; discriminate He.
Qed.
Lemma awaited_io seg t s : io_seg s seg -> awaited (seg ++ t) = awaited t.
Proof. induction 1 as [|[s' e] seg [Hs He] _ IH]; [reflexivity|]. cbn [app awaited]. cbn [snd] in He. destruct e; try exact IH. discriminate He. Qed.

Lemma probe_msg id r n m : 0 <= id < 65536 -> 3 <= n -> ldn (HE_MSGID_PING :: be16 id ++ r) 0 n = Val m -> msg_type m = HE_MSGID_PING /\ field16 m 1 = id.
Proof.
  intros Hi Hn. unfold ldn. destruct (_ && _); [|discriminate]. intros [= <-]. unfold slice, be16. replace (Z.to_nat 0) with 0%nat by reflexivity. cbn [skipn].
  destruct (Z.to_nat n) as [|[|[|k]]] eqn:K; try lia. cbn [firstn app msg_type nth]. split; [reflexivity|]. unfold field16. cbn [nth]. pose proof (Z.div_mod id 256). lia.
Qed.

Section P.
Variable E : env.
Notation hk := (@ret unit tt).
Notation T := (fun _ : world => True).

(** What path MTU discovery leaves alone. *)
Definition rest (w : world) := (c_cbs (w_c w), c_state (w_c w), c_ping_pend (w_c w), awaited (w_t w)).
Definition heard (w : world) : Prop :=
  cb_pmtime (c_cbs (w_c w)) = true /\ cb_pmstate (c_cbs (w_c w)) = true /\ 0 <= c_ping_next (w_c w) < 65536.
(** From [w] to [w'] the library does [out]; the search is then [q]. *)
Definition does (w : world) (out : list item) (q : search) (w' : world) : Prop :=
  items (w_t w') = items (w_t w) ++ out /\ abs (c_pm (w_c w')) = q /\ rest w' = rest w /\ 0 <= c_ping_next (w_c w') < 65536.
Lemma does_heard w out q w' : heard w -> does w out q w' -> heard w'.
Proof. intros (A & B & C) (_ & _ & R & D). unfold rest in R. injection R as R1 _ _ _. unfold heard. rewrite R1. auto. Qed.
Lemma does_trans w o1 q1 w1 o2 q2 w2 : does w o1 q1 w1 -> does w1 o2 q2 w2 -> does w (o1 ++ o2) q2 w2.
Proof. intros (A & B & C & D) (A' & B' & C' & D'). split; [rewrite A', A; now rewrite app_assoc|]. split; [exact B'|]. split; [now rewrite C'|exact D']. Qed.

Lemma time_does ms w r w' : heard w -> pm_time E hk ms w = Done r w' -> does w [Timer ms] (abs (c_pm (w_c w))) w'.
Proof.
  intros (_ & _ & P). unfold pm_time, callback. unfold bind, emit, log, ret. intros H. apply Done_inv in H as [_ <-]. split; [cbn; now rewrite app_nil_r|]. cbn. auto.
Qed.
Lemma upd_does f w a w' : heard w -> upd_pm f w = Done a w' -> does w [] (abs (f (c_pm (w_c w)))) w'.
Proof. intros (_ & _ & P). unfold upd_pm, upd. intros H. apply Done_inv in H as [_ <-]. split; [cbn; now rewrite app_nil_r|]. cbn. auto. Qed.
Lemma change_does s w a w' : heard w -> pm_change_state hk s w = Done a w' -> does w [Phase s] (with_phase s (abs (c_pm (w_c w)))) w'.
Proof.
  intros (H1 & H2 & P). unfold pm_change_state. unfold bind at 1, upd_pm, upd at 1. unfold bind at 1, get at 1. cbn [w_c set_pm c_cbs]. rewrite H2. cbn [when]. unfold notify, bind, emit, ret. intros H. apply Done_inv in H as [_ <-].
  split; [reflexivity|]. cbn. auto.
Qed.
Lemma retry_does d w r w' : heard w -> pm_retry_probe E hk d w = Done r w' -> does w [Timer d] (fresh (abs (c_pm (w_c w)))) w'.
Proof.
  intros Hh. unfold pm_retry_probe. unfold bind at 1, get at 1. destruct Hh as (H1 & H2 & P). rewrite H1. unfold bind at 1.
  destruct (pm_time E hk d w) as [r1 w1|] eqn:Tm; [|discriminate]. apply time_does in Tm; [|repeat split; auto; lia].
  unfold bind at 1. destruct (upd_pm _ w1) as [a w2|] eqn:U; [|discriminate]. apply upd_does in U; [|eapply does_heard; [|exact Tm]; repeat split; auto; lia].
  unfold ret. intros H. apply Done_inv in H as [_ <-]. pose proof (does_trans Tm U) as D. destruct Tm as (_ & Ab & _). unfold abs in Ab, D. cbn in D. injection Ab as A1 A2 A3 A4 A5 A6 A7. rewrite A1, A2, A3, A5, A6, A7 in D. exact D.
Qed.
Lemma send_does mtu w r w' : heard w -> 0 <= pm_count (c_pm (w_c w)) < 255 -> pm_send_probe E hk mtu w = Done r w' ->
  exists out q, probes mtu (abs (c_pm (w_c w))) (c_state (w_c w) =? HE_STATE_ONLINE) out q /\ does w out q w'.
Proof.
  intros Hh Cn. unfold pm_send_probe. unfold bind at 1, get at 1.
  assert (does w [] (abs (c_pm (w_c w))) w) as Id. { split; [now rewrite app_nil_r|]. destruct Hh as (_ & _ & ?). auto. }
  destruct (c_state (w_c w) =? HE_STATE_ONLINE) eqn:On; cbn [negb].
  2:{ unfold ret. intros H. apply Done_inv in H as [_ <-]. exists [], (abs (c_pm (w_c w))). split; [constructor; auto|exact Id]. }
  change MIN_PLPMTU with 512. change MAX_PLPMTU with 1416. destruct (Z.ltb_spec mtu 512); cbn [orb].
  { unfold ret. intros H0. apply Done_inv in H0 as [_ <-]. exists [], (abs (c_pm (w_c w))). split; [constructor; auto|exact Id]. }
  destruct (Z.ltb_spec 1416 mtu).
  { unfold ret. intros H1. apply Done_inv in H1 as [_ <-]. exists [], (abs (c_pm (w_c w))). split; [constructor; auto|exact Id]. }
  unfold bind at 1, get at 1. unfold bind at 1, upd at 1. set (id := c_ping_next (w_c w)) in *.
  assert (u16 (mtu + sizeof_data - sizeof_ping) = mtu - 2) as Pl. { change sizeof_data with 3. change sizeof_ping with 5. unfold u16. rewrite Z.mod_small; lia. }
  cbv zeta. rewrite Pl. change HE_MAX_WIRE_MTU with 1500. destruct Hh as (H1 & H2 & P). fold id in P. rewrite build_ping_ok by lia. unfold bind at 1, lift at 1, ret at 1.
  unfold bind at 1, upd_pm at 1, upd at 1. cbn [w_c w_t]. unfold bind at 1. change sizeof_ping with 5.
  destruct (ldn _ 0 (5 + (mtu - 2))) as [m|] eqn:Ld; unfold lift at 1; [unfold ret at 1|discriminate]. unfold bind at 1.
  match goal with |- match send_message E hk m ?x with _ => _ end = _ -> _ => set (v := x); destruct (send_message E hk m v) as [res w1|] eqn:Sd; [|discriminate] end.
  assert (msg_type m = HE_MSGID_PING /\ len m = mtu + 3 /\ field16 m 1 = id) as (Mt & Ml & Mf).
  { pose proof (len_ldn Ld) as Ll. destruct (@probe_msg id (be16 (mtu - 2) ++ zeros (1500 - 5)) (5 + (mtu - 2)) m) as [M1 M2]; [exact P|lia|exact Ld|]. split; [exact M1|]. split; [rewrite Ll; lia|exact M2]. }
  apply send_seq in Sd. destruct Sd as (rx & we & seg & rr & err & d & -> & Sg & ->). cbv zeta.
  set (ok := write_code rr err =? HE_SUCCESS). unfold bind at 1.
  match goal with |- match (if _ then _ else _) ?x with _ => _ end = _ -> _ => set (u := x) end.
  assert (does w [Probe id mtu; Sent ok] (Search (pm_state (c_pm (w_c w))) (pm_base (c_pm (w_c w))) mtu (pm_count (c_pm (w_c w)) + 1) (pm_big (c_pm (w_c w))) (pm_id (c_pm (w_c w))) (pm_eff (c_pm (w_c w)))) u) as Du.
  { unfold does, u, v. cbn [w_t w_c set_rx set_wolf_err set_pm set_ping_next items item_of c_state c_pm c_ping_next]. rewrite (items_app _ Sg). cbn [items item_of]. rewrite Mt, Ml, Mf. change (HE_MSGID_PING =? HE_MSGID_PING) with true.
    destruct (Z.ltb_spec 5 (mtu + 3)); [|lia]. cbn [andb]. split; [rewrite <- app_assoc; replace (mtu + 3 - 3) with mtu by lia; reflexivity|].
    unfold abs. cbn. unfold u8. rewrite Z.mod_small by lia. split; [reflexivity|]. split; [|unfold u16; apply Z.mod_pos_bound; lia].
    unfold rest. cbn. now rewrite (awaited_io _ Sg). }
  assert (heard w) as Hw by (repeat split; auto; unfold id in *; lia). pose proof (does_heard Hw Du) as Hu. clearbody u. clear v Sg Ld.
  assert (exists q, Done tt u = Done tt u /\ (exists u', (if negb ok then ret tt else upd_pm (set_pm_id id)) u = Done tt u' /\ does w [Probe id mtu; Sent ok] q u') /\
     q = Search (pm_state (c_pm (w_c w))) (pm_base (c_pm (w_c w))) mtu (pm_count (c_pm (w_c w)) + 1) (pm_big (c_pm (w_c w))) (if ok then id else pm_id (c_pm (w_c w))) (pm_eff (c_pm (w_c w)))) as (q & _ & (u' & U & D2) & Q).
  { eexists. split; [reflexivity|]. split; [|reflexivity]. destruct ok; cbn [negb].
    - destruct (upd_pm (set_pm_id id) u) as [[] u'|] eqn:U; [|discriminate U]. exists u'. split; [reflexivity|]. apply (@upd_does _ _ _ _ Hu) in U.
      pose proof (does_trans Du U) as D. rewrite app_nil_r in D. destruct Du as (_ & Ab & _). unfold abs in Ab, D. cbn in D. injection Ab as A1 A2 A3 A4 A5 A6 A7. rewrite A1, A2, A3, A4, A5, A7 in D. exact D.
    - exists u. split; [reflexivity|exact Du]. }
  rewrite U. unfold bind at 1, get at 1. pose proof (does_heard Hw D2) as Hu2. destruct Hu2 as (C1 & C2 & C3). rewrite C1. unfold bind at 1. unfold bind at 1.
  fold ok. destruct (pm_time E hk (if negb ok then 10 else PMTUD_PROBE_TIMEOUT_MS) u') as [r1 w1|] eqn:Tm; [|discriminate]. apply time_does in Tm; [|repeat split; auto; lia].
  unfold ret. intros H3. apply Done_inv in H3 as [_ <-]. pose proof (does_trans D2 Tm) as D. destruct D2 as (_ & Ab & _). rewrite Ab, Q in D.
  exists [Probe id mtu; Sent ok; Timer (if ok then 5000 else 10)]. eexists. split; [apply (@probes_sent mtu (abs (c_pm (w_c w))) id ok); lia|]. cbn [phase base tries big awaits result abs].
  replace (if negb ok then 10 else PMTUD_PROBE_TIMEOUT_MS) with (if ok then 5000 else 10) in D by (destruct ok; reflexivity). exact D.
Qed.

(** *** The three inputs *)
Definition pm_new : pmtud := Pmtud 0 0 0 0 0 false 0.
Lemma does_id w : 0 <= c_ping_next (w_c w) < 65536 -> does w [] (abs (c_pm (w_c w))) w.
Proof. intros P. split; [now rewrite app_nil_r|]. auto. Qed.
Lemma rest_state w out q w' : does w out q w' -> c_state (w_c w') = c_state (w_c w).
Proof. intros (_ & _ & R & _). unfold rest in R. congruence. Qed.
Ltac got D := let H := fresh in destruct D as (_ & H & _); unfold abs in H; injection H.

Lemma start_does w rc w' : (c_state (w_c w) = HE_STATE_ONLINE -> heard w) -> bounds (abs (c_pm (w_c w))) -> 0 <= c_ping_next (w_c w) < 65536 ->
  start_pmtu_discovery E hk w = Done rc w' ->
  exists out q, turn (abs (c_pm (w_c w))) (Start (c_state (w_c w) =? HE_STATE_ONLINE)) out q /\ does w out q w'.
Proof.
  intros Hh Bd P. unfold start_pmtu_discovery. unfold bind at 1, get at 1. cbn [turn]. change (phase (abs (c_pm (w_c w)))) with (pm_state (c_pm (w_c w))).
  destruct (Z.eqb_spec (c_state (w_c w)) HE_STATE_ONLINE) as [On|]; cbn [negb].
  2:{ unfold ret. intros H. apply Done_inv in H as [_ <-]. rewrite andb_false_r. exists [], (abs (c_pm (w_c w))). split; [auto|now apply does_id]. }
  specialize (Hh On). pose proof Hh as (H1 & H2 & _). rewrite H1, H2. cbn [negb orb].
  destruct (Z.eqb_spec (pm_state (c_pm (w_c w))) HE_PMTUD_STATE_DISABLED) as [Ds|]; cbn [negb andb].
  2:{ unfold ret. intros H. apply Done_inv in H as [_ <-]. exists [], (abs (c_pm (w_c w))). split; [auto|now apply does_id]. }
  unfold pm_start_base_probing. unfold bind at 1, get at 1. rewrite Ds. change (HE_PMTUD_STATE_DISABLED =? HE_PMTUD_STATE_BASE) with false. change (HE_PMTUD_STATE_DISABLED =? HE_PMTUD_STATE_DISABLED) with true. cbn [orb negb].
  unfold bind at 1. destruct (pm_change_state hk HE_PMTUD_STATE_BASE w) as [a w1|] eqn:C1; [|discriminate]. apply (change_does Hh) in C1. pose proof (does_heard Hh C1) as Hh1.
  unfold bind at 1. destruct (upd_pm _ w1) as [b w2|] eqn:C2; [|discriminate]. apply (upd_does Hh1) in C2. pose proof (does_heard Hh1 C2) as Hh2.
  unfold bind at 1, get at 1. pose proof (does_trans C1 C2) as D. rewrite app_nil_r in D.
  assert (abs (c_pm (w_c w2)) = fresh (with_base 1250 (with_phase HE_PMTUD_STATE_BASE (abs (c_pm (w_c w)))))) as Q.
  { got C1. intros A1 A2 A3 A4 A5 A6 A7. destruct D as (_ & -> & _). unfold abs, fresh, with_base, with_phase. cbn. now rewrite A1, A2, A3, A5, A7. }
  replace (pm_base (c_pm (w_c w2))) with 1250 by (unfold abs in Q; injection Q; intros; congruence). intros C3.
  apply send_does in C3; [|exact Hh2|unfold abs in Q; injection Q as _ _ _ -> _ _ _; cbn; lia]. destruct C3 as (out & q & Pr & D3). exists ([Phase HE_PMTUD_STATE_BASE] ++ out), q.
  rewrite Q, (rest_state D), On in Pr. split; [exists out; split; [reflexivity|exact Pr]|]. exact (does_trans D D3).
Qed.

Lemma fire_does w rc w' : heard w \/ c_pm (w_c w) = pm_new -> bounds (abs (c_pm (w_c w))) -> 0 <= c_ping_next (w_c w) < 65536 ->
  pm_probe_timeout E hk w = Done rc w' ->
  exists out q, turn (abs (c_pm (w_c w))) (Fire (c_state (w_c w) =? HE_STATE_ONLINE)) out q /\ does w out q w'.
Proof.
  intros Hh Bd P. destruct Hh as [Hh|New].
  2:{ unfold pm_probe_timeout. unfold bind at 1, get at 1. cbn [turn]. rewrite New. change (pm_count pm_new <? MAX_PROBES) with true. change (tries (abs pm_new) <? 3) with true. cbv iota.
      change (pm_size pm_new) with 0. change (size (abs pm_new)) with 0. unfold pm_send_probe. unfold bind at 1, get at 1.
      assert (forall code : Z, Done code w = Done rc w' -> exists out q, probes 0 (abs pm_new) (c_state (w_c w) =? HE_STATE_ONLINE) out q /\ does w out q w') as F.
      { intros code H. apply Done_inv in H as [_ <-]. exists [], (abs pm_new). split; [constructor; lia|]. rewrite <- New. now apply does_id. }
      case_if; unfold ret; apply F. }
  unfold pm_probe_timeout. unfold bind at 1, get at 1. cbn [turn]. change (tries (abs (c_pm (w_c w)))) with (pm_count (c_pm (w_c w))). change MAX_PROBES with 3.
  pose proof Bd as [B1 B2]. cbn [abs tries phase size base] in B1, B2.
  destruct (Z.ltb_spec (pm_count (c_pm (w_c w))) 3) as [L|L].
  { intros H. apply (send_does Hh) in H; [|lia]. exact H. }
  destruct B2 as [B2|(B2 & B3 & B4)]; [lia|].
  unfold bind at 1. destruct (upd_pm _ w) as [a w1|] eqn:C1; [|discriminate]. apply (upd_does Hh) in C1. pose proof (does_heard Hh C1) as Hh1.
  assert (abs (c_pm (w_c w1)) = unawaited (abs (c_pm (w_c w)))) as Q1 by (destruct C1 as (_ & -> & _); reflexivity).
  assert (does w [] (unawaited (abs (c_pm (w_c w)))) w1) as D1 by exact C1. clear C1. pose proof (rest_state D1) as St.
  cbv zeta. change (phase (unawaited (abs (c_pm (w_c w))))) with (pm_state (c_pm (w_c w))). change (size (unawaited (abs (c_pm (w_c w))))) with (pm_size (c_pm (w_c w))).
  change (big (unawaited (abs (c_pm (w_c w))))) with (pm_big (c_pm (w_c w))). change (base (unawaited (abs (c_pm (w_c w))))) with (pm_base (c_pm (w_c w))). change INITIAL_PLPMTU with 1250.
  assert (pm_count (c_pm (w_c w1)) = 0 /\ pm_state (c_pm (w_c w1)) = pm_state (c_pm (w_c w)) /\ pm_size (c_pm (w_c w1)) = pm_size (c_pm (w_c w)) /\ pm_base (c_pm (w_c w1)) = pm_base (c_pm (w_c w))) as (F1 & F2 & F3 & F4).
  { unfold abs, unawaited in Q1. cbn in Q1. injection Q1. auto. }
  destruct (Z.eqb_spec (pm_state (c_pm (w_c w))) HE_PMTUD_STATE_BASE) as [Ba|_].
  { destruct (pm_size (c_pm (w_c w)) =? 1250).
    - intros H. apply (send_does Hh1) in H; [|lia]. destruct H as (out & q & Pr & D). exists out, q. rewrite Q1, St in Pr. split; [exact Pr|]. exact (does_trans D1 D).
    - unfold pm_confirm_base_failed. unfold bind at 1, get at 1. rewrite F2, Ba. change (HE_PMTUD_STATE_BASE =? HE_PMTUD_STATE_BASE) with true. cbn [negb].
      unfold bind at 1. destruct (pm_change_state hk _ w1) as [b w2|] eqn:C2; [|discriminate]. apply (change_does Hh1) in C2. pose proof (does_heard Hh1 C2) as Hh2. intros H. apply (retry_does Hh2) in H.
      pose proof (does_trans D1 (does_trans C2 H)) as D. eexists _, _. split; [split; reflexivity|]. destruct C2 as (_ & Q2 & _). rewrite Q2, Q1 in D. exact D. }
  destruct (Z.eqb_spec (pm_state (c_pm (w_c w))) HE_PMTUD_STATE_SEARCHING) as [Se|_].
  { destruct (pm_big (c_pm (w_c w))).
    - unfold bind at 1. destruct (upd_pm _ w1) as [b w2|] eqn:C2; [|discriminate]. apply (upd_does Hh1) in C2. pose proof (does_heard Hh1 C2) as Hh2. intros H.
      assert (abs (c_pm (w_c w2)) = with_big false (unawaited (abs (c_pm (w_c w))))) as Q2 by (destruct C2 as (_ & -> & _); rewrite <- Q1; reflexivity).
      assert (u16 (u16 (pm_size (c_pm (w_c w)) - PMTUD_PROBE_BIG_STEP) + PMTUD_PROBE_SMALL_STEP) = pm_size (c_pm (w_c w)) - 24) as U.
      { change PMTUD_PROBE_BIG_STEP with 32. change PMTUD_PROBE_SMALL_STEP with 8. unfold u16. rewrite (Z.mod_small (_ - 32)) by lia. rewrite Z.mod_small by lia. lia. }
      rewrite U in H. apply (send_does Hh2) in H; [|unfold abs, with_big, unawaited in Q2; cbn in Q2; injection Q2; intros; lia]. destruct H as (out & q & Pr & D). exists out, q.
      pose proof (does_trans D1 C2) as D2. rewrite Q2, (rest_state D2) in Pr. split; [exact Pr|]. exact (does_trans D2 D).
    - destruct (Z.ltb_spec (pm_base (c_pm (w_c w))) (pm_size (c_pm (w_c w)))) as [Lb|]; [|discriminate].
      unfold bind at 1. destruct (upd_pm _ w1) as [b w2|] eqn:C2; [|discriminate]. apply (upd_does Hh1) in C2. pose proof (does_heard Hh1 C2) as Hh2.
      unfold pm_search_completed. unfold bind at 1, get at 1. pose proof (does_trans D1 C2) as D2.
      assert (pm_state (c_pm (w_c w2)) = HE_PMTUD_STATE_SEARCHING /\ pm_size (c_pm (w_c w2)) = pm_size (c_pm (w_c w)) - 8) as [G1 G2].
      { destruct C2 as (_ & Q2 & _). unfold abs in Q2. injection Q2. intros _ _ _ _ A3 _ A1. rewrite A1, A3. cbn. rewrite F2, F3, Se. split; [reflexivity|]. unfold u16. change PMTUD_PROBE_SMALL_STEP with 8. apply Z.mod_small. lia. }
      rewrite G1. change (HE_PMTUD_STATE_SEARCHING =? HE_PMTUD_STATE_SEARCHING) with true. cbn [negb]. unfold bind at 1. destruct (upd_pm _ w2) as [b3 w3|] eqn:C3; [|discriminate]. apply (upd_does Hh2) in C3. pose proof (does_heard Hh2 C3) as Hh3.
      unfold bind at 1. destruct (pm_change_state hk _ w3) as [b4 w4|] eqn:C4; [|discriminate]. apply (change_does Hh3) in C4. pose proof (does_heard Hh3 C4) as Hh4. intros H. apply (retry_does Hh4) in H.
      pose proof (does_trans D2 (does_trans C3 (does_trans C4 H))) as D. eexists _, _. split; [split; [exact Lb|]; split; reflexivity|].
      assert (fresh (abs (c_pm (w_c w4))) = with_phase HE_PMTUD_STATE_SEARCH_COMPLETE (found (pm_size (c_pm (w_c w)) - 8) (unawaited (abs (c_pm (w_c w)))))) as Q; [|rewrite Q in D; exact D].
      destruct C4 as (_ & Q4 & _). rewrite Q4. destruct C3 as (_ & Q3 & _). rewrite Q3. destruct C2 as (_ & Q2 & _).
      unfold abs, set_pm_eff, set_pm_size in *. cbn [pm_state pm_base pm_size pm_count pm_big pm_id pm_eff] in *. injection Q2 as A1 A2 A3 A4 A5 A6 A7. injection Q1 as Z1 Z2 Z3 Z4 Z5 Z6 Z7.
      unfold fresh, with_phase, found, unawaited. cbn [phase base size tries big awaits result]. rewrite G2. change MAX_PLPMTU with 1416. rewrite A2, A5, A6, Z2, Z5, Z6.
      destruct (Z.ltb_spec (pm_size (c_pm (w_c w)) - 8) 1416); [|lia]. reflexivity. }
  destruct (Z.eqb_spec (pm_state (c_pm (w_c w))) HE_PMTUD_STATE_SEARCH_COMPLETE) as [Co|_].
  { unfold pm_blackhole_detected. unfold bind at 1, get at 1. rewrite F2, Co. change (HE_PMTUD_STATE_SEARCH_COMPLETE =? HE_PMTUD_STATE_SEARCH_COMPLETE) with true. rewrite orb_true_r. cbn [negb].
    unfold bind at 1. destruct (pm_change_state hk _ w1) as [b w2|] eqn:C2; [|discriminate]. apply (change_does Hh1) in C2. pose proof (does_heard Hh1 C2) as Hh2.
    unfold bind at 1. destruct (upd_pm _ w2) as [b3 w3|] eqn:C3; [|discriminate]. apply (upd_does Hh2) in C3. pose proof (does_heard Hh2 C3) as Hh3. unfold bind at 1, get at 1.
    assert (abs (c_pm (w_c w3)) = with_base 512 (with_phase HE_PMTUD_STATE_BASE (unawaited (abs (c_pm (w_c w)))))) as Q3.
    { destruct C3 as (_ & -> & _). destruct C2 as (_ & Q2 & _). rewrite Q1 in Q2. unfold abs, with_base, with_phase, unawaited in *. cbn in Q2 |- *. injection Q2 as A1 A2 A3 A4 A5 A6 A7. rewrite A1, A3, A5, A6, A7. reflexivity. }
    replace (pm_base (c_pm (w_c w3))) with 512 by (unfold abs, with_base in Q3; injection Q3; intros; congruence). intros H.
    apply (send_does Hh3) in H; [|unfold abs, with_base, with_phase, unawaited in Q3; cbn in Q3; injection Q3; intros; lia]. destruct H as (out & q & Pr & D).
    pose proof (does_trans D1 (does_trans C2 C3)) as D3. cbn [app] in D3. rewrite Q3, (rest_state D3) in Pr. exists ([Phase HE_PMTUD_STATE_BASE] ++ out), q. split; [exists out; split; [reflexivity|exact Pr]|]. exact (does_trans D3 D). }
  destruct (Z.eqb_spec (pm_state (c_pm (w_c w))) HE_PMTUD_STATE_ERROR) as [Er|N].
  { intros H. apply (retry_does Hh1) in H. pose proof (does_trans D1 H) as D. eexists _, _. split; [split; reflexivity|]. rewrite Q1 in D. exact D. }
  unfold ret. intros H. apply Done_inv in H as [_ <-]. eexists _, _. split; [split; reflexivity|exact D1].
Qed.

Lemma confirmed_does w rc w' : heard w -> pm_count (c_pm (w_c w)) = 0 -> (pm_state (c_pm (w_c w)) = HE_PMTUD_STATE_BASE \/ pm_state (c_pm (w_c w)) = HE_PMTUD_STATE_ERROR) ->
  pm_base (c_pm (w_c w)) = 512 \/ pm_base (c_pm (w_c w)) = 1250 -> pm_base_confirmed E hk w = Done rc w' ->
  exists out q, probes (pm_base (c_pm (w_c w)) + 32) (with_big true (with_phase HE_PMTUD_STATE_SEARCHING (abs (c_pm (w_c w))))) (c_state (w_c w) =? HE_STATE_ONLINE) out q /\
    does w ([Phase HE_PMTUD_STATE_SEARCHING] ++ out) q w'.
Proof.
  intros Hh Cn St Bs. unfold pm_base_confirmed. unfold bind at 1, get at 1.
  assert ((pm_state (c_pm (w_c w)) =? HE_PMTUD_STATE_BASE) || (pm_state (c_pm (w_c w)) =? HE_PMTUD_STATE_ERROR) = true) as -> by (destruct St as [-> | ->]; reflexivity). cbn [negb].
  unfold bind at 1. destruct (pm_change_state hk _ w) as [b w2|] eqn:C2; [|discriminate]. apply (change_does Hh) in C2. pose proof (does_heard Hh C2) as Hh2.
  unfold bind at 1. destruct (upd_pm _ w2) as [b3 w3|] eqn:C3; [|discriminate]. apply (upd_does Hh2) in C3. pose proof (does_heard Hh2 C3) as Hh3. unfold bind at 1, get at 1.
  assert (abs (c_pm (w_c w3)) = with_big true (with_phase HE_PMTUD_STATE_SEARCHING (abs (c_pm (w_c w))))) as Q3.
  { destruct C3 as (_ & -> & _). destruct C2 as (_ & Q2 & _). unfold abs, with_big, with_phase in *. cbn in Q2 |- *. injection Q2 as A1 A2 A3 A4 A5 A6 A7. rewrite A1, A2, A3, A6, A7, Cn. reflexivity. }
  assert (pm_base (c_pm (w_c w3)) = pm_base (c_pm (w_c w)) /\ pm_count (c_pm (w_c w3)) = 0) as [-> C0] by (unfold abs, with_big, with_phase in Q3; cbn in Q3; injection Q3; intros; split; congruence).
  assert (u16 (pm_base (c_pm (w_c w)) + PMTUD_PROBE_BIG_STEP) = pm_base (c_pm (w_c w)) + 32) as -> by (change PMTUD_PROBE_BIG_STEP with 32; unfold u16; apply Z.mod_small; lia).
  intros H. apply (send_does Hh3) in H; [|lia]. destruct H as (out & q & Pr & D). pose proof (does_trans C2 C3) as D3. rewrite app_nil_r in D3. rewrite Q3, (rest_state D3) in Pr. exists out, q. split; [exact Pr|]. exact (does_trans D3 D).
Qed.
Lemma pong_does id w rc w' : heard w \/ c_pm (w_c w) = pm_new -> bounds (abs (c_pm (w_c w))) -> 0 <= c_ping_next (w_c w) < 65536 ->
  pm_probe_ack E hk id w = Done rc w' ->
  exists out q, turn (abs (c_pm (w_c w))) (Pong (c_state (w_c w) =? HE_STATE_ONLINE) id) out q /\ does w out q w'.
Proof.
  intros Hh Bd P. unfold pm_probe_ack. unfold bind at 1, get at 1. cbn [turn]. change (awaits (abs (c_pm (w_c w)))) with (pm_id (c_pm (w_c w))). rewrite (Z.eqb_sym (pm_id _)).
  destruct (Z.eqb_spec id (pm_id (c_pm (w_c w)))) as [Ei|Ei]; cbn [negb].
  2:{ unfold ret. intros H. apply Done_inv in H as [_ <-]. exists [], (abs (c_pm (w_c w))). split; [auto|now apply does_id]. }
  destruct Hh as [Hh|New].
  2:{ unfold bind at 1, get at 1. cbv zeta. rewrite New. cbn [turn abs unawaited phase pm_new pm_state]. change (0 =? HE_PMTUD_STATE_BASE) with false. change (0 =? HE_PMTUD_STATE_ERROR) with false. change (0 =? HE_PMTUD_STATE_SEARCHING) with false.
      change (0 =? HE_PMTUD_STATE_SEARCH_COMPLETE) with false. cbn [orb]. unfold bind at 1.
      assert (exists w1, (if cb_pmtime (c_cbs (w_c w)) then let! _ := pm_time E hk 0 in ret tt else ret tt) w = Done tt w1 /\ exists out, (out = [] \/ out = [Timer 0]) /\ does w out (abs (c_pm (w_c w))) w1) as (w1 & -> & out & Ho & D).
      { destruct (cb_pmtime _).
        - unfold pm_time, callback. unfold bind, emit, log, ret. eexists. split; [reflexivity|]. exists [Timer 0]. split; [auto|]. split; [cbn; now rewrite app_nil_r|]. cbn. auto.
        - exists w. split; [reflexivity|]. exists []. split; [auto|now apply does_id]. }
      assert (c_pm (w_c w1) = pm_new) as N1.
      { destruct D as (_ & Q & _). rewrite New in Q. unfold abs in Q. cbn in Q. injection Q as A1 A2 A3 A4 A5 A6 A7. destruct (c_pm (w_c w1)). cbn in *. unfold pm_new. congruence. }
      unfold bind at 1, upd_pm, upd at 1. unfold bind at 1, get at 1. cbn [w_c set_pm c_pm]. rewrite N1. cbn. unfold ret. intros H. apply Done_inv in H as [_ <-].
      exists out, (abs pm_new). split; [auto|]. destruct D as (D1 & D2 & D3 & D4). split; [exact D1|]. split; [reflexivity|]. split; [exact D3|exact D4]. }
  pose proof Bd as [B1 B2]. cbn [abs tries phase size base] in B1, B2.
  unfold bind at 1, get at 1. pose proof Hh as (H1 & H2 & _). rewrite H1. unfold bind at 1. unfold bind at 1. destruct (pm_time E hk 0 w) as [r0 w0|] eqn:Tm; [|discriminate]. apply (time_does Hh) in Tm. pose proof (does_heard Hh Tm) as Hh0. unfold ret at 1.
  unfold bind at 1. destruct (upd_pm _ w0) as [a w1|] eqn:C1; [|discriminate]. apply (upd_does Hh0) in C1. pose proof (does_heard Hh0 C1) as Hh1. pose proof (does_trans Tm C1) as D1. cbn [app] in D1.
  assert (abs (c_pm (w_c w1)) = unawaited (abs (c_pm (w_c w)))) as Q1.
  { destruct C1 as (_ & -> & _). destruct Tm as (_ & Q & _). unfold abs, unawaited in *. cbn. injection Q as A1 A2 A3 A4 A5 A6 A7. rewrite A1, A2, A3, A5, A7. reflexivity. }
  pose proof (rest_state D1) as St.
  cbv zeta. change (phase (unawaited (abs (c_pm (w_c w))))) with (pm_state (c_pm (w_c w))). change (size (unawaited (abs (c_pm (w_c w))))) with (pm_size (c_pm (w_c w))).
  change (big (unawaited (abs (c_pm (w_c w))))) with (pm_big (c_pm (w_c w))). change (base (unawaited (abs (c_pm (w_c w))))) with (pm_base (c_pm (w_c w))).
  assert (pm_count (c_pm (w_c w1)) = 0 /\ pm_state (c_pm (w_c w1)) = pm_state (c_pm (w_c w)) /\ pm_size (c_pm (w_c w1)) = pm_size (c_pm (w_c w)) /\ pm_base (c_pm (w_c w1)) = pm_base (c_pm (w_c w)) /\ pm_big (c_pm (w_c w1)) = pm_big (c_pm (w_c w))) as (F1 & F2 & F3 & F4 & F5).
  { unfold abs, unawaited in Q1. cbn in Q1. injection Q1. auto. }
  assert (D2 : does w [Timer 0] (unawaited (abs (c_pm (w_c w)))) w1) by (destruct D1 as (A & B & C & D); rewrite Q1 in B; split; [exact A|]; split; [exact Q1|]; split; [exact C|exact D]). clear D1.
  unfold bind at 1, get at 1. rewrite F2, F3, F5.
  assert (forall rc, pm_base_confirmed E hk w1 = Done rc w' -> (pm_state (c_pm (w_c w)) = HE_PMTUD_STATE_BASE \/ pm_state (c_pm (w_c w)) = HE_PMTUD_STATE_ERROR) ->
    exists out q, and_probes (pm_base (c_pm (w_c w)) + 32) (with_big true (with_phase HE_PMTUD_STATE_SEARCHING (unawaited (abs (c_pm (w_c w)))))) (c_state (w_c w) =? HE_STATE_ONLINE) [Timer 0; Phase HE_PMTUD_STATE_SEARCHING] out q /\ does w out q w') as Cf.
  { intros rc1 H Ph. destruct B2 as [(B2 & _)|(_ & _ & B2)]; [destruct Ph as [Ph|Ph]; rewrite B2 in Ph; discriminate Ph|].
    apply (@confirmed_does _ _ _ Hh1 F1) in H; [|now rewrite F2|now rewrite F4]. destruct H as (out & q & Pr & D). rewrite Q1, F4, St in Pr. exists ([Timer 0; Phase HE_PMTUD_STATE_SEARCHING] ++ out), q.
    split; [exists out; split; [reflexivity|exact Pr]|]. exact (does_trans D2 D). }
  destruct (Z.eqb_spec (pm_state (c_pm (w_c w))) HE_PMTUD_STATE_BASE) as [Ba|Nb]; cbn [orb].
  { intros H. apply Cf in H; auto. }
  destruct (Z.eqb_spec (pm_state (c_pm (w_c w))) HE_PMTUD_STATE_SEARCHING) as [Se|Ns].
  { rewrite Se. change (HE_PMTUD_STATE_SEARCHING =? HE_PMTUD_STATE_ERROR) with false. cbv iota. change MAX_PLPMTU with 1416. destruct (Z.leb_spec 1416 (pm_size (c_pm (w_c w)))) as [L|L].
    - unfold pm_search_completed. unfold bind at 1, get at 1. rewrite F2, Se. change (HE_PMTUD_STATE_SEARCHING =? HE_PMTUD_STATE_SEARCHING) with true. cbn [negb].
      unfold bind at 1. destruct (upd_pm _ w1) as [b3 w3|] eqn:C3; [|discriminate]. apply (upd_does Hh1) in C3. pose proof (does_heard Hh1 C3) as Hh3.
      unfold bind at 1. destruct (pm_change_state hk _ w3) as [b4 w4|] eqn:C4; [|discriminate]. apply (change_does Hh3) in C4. pose proof (does_heard Hh3 C4) as Hh4. intros H. apply (retry_does Hh4) in H.
      pose proof (does_trans D2 (does_trans C3 (does_trans C4 H))) as D. eexists _, _. split; [split; reflexivity|].
      assert (fresh (abs (c_pm (w_c w4))) = with_phase HE_PMTUD_STATE_SEARCH_COMPLETE (Search (pm_state (c_pm (w_c w))) (pm_base (c_pm (w_c w))) (pm_size (c_pm (w_c w))) 0 (pm_big (c_pm (w_c w))) 0 1416)) as Q; [|rewrite Q in D; exact D].
      destruct C4 as (_ & Q4 & _). rewrite Q4. destruct C3 as (_ & Q3 & _). rewrite Q3.
      unfold abs, set_pm_eff in *. cbn [pm_state pm_base pm_size pm_count pm_big pm_id pm_eff] in *. injection Q1 as Z1 Z2 Z3 Z4 Z5 Z6 Z7.
      unfold fresh, with_phase. cbn [phase base size tries big awaits result]. change MAX_PLPMTU with 1416. rewrite F3, F4, F5, Z6. destruct (Z.ltb_spec (pm_size (c_pm (w_c w))) 1416); [lia|]. reflexivity.
    - destruct B2 as [(B2 & _)|(_ & B2 & _)]; [rewrite Se in B2; discriminate B2|].
      assert (u16 (pm_size (c_pm (w_c w)) + (if pm_big (c_pm (w_c w)) then PMTUD_PROBE_BIG_STEP else PMTUD_PROBE_SMALL_STEP)) = pm_size (c_pm (w_c w)) + (if pm_big (c_pm (w_c w)) then 32 else 8)) as ->.
      { unfold u16. change PMTUD_PROBE_BIG_STEP with 32. change PMTUD_PROBE_SMALL_STEP with 8. apply Z.mod_small. destruct (pm_big _); lia. }
      set (n := pm_size (c_pm (w_c w)) + (if pm_big (c_pm (w_c w)) then 32 else 8)). replace (if n <? 1416 then n else 1416) with (Z.min n 1416) by (destruct (Z.ltb_spec n 1416); lia).
      unfold bind at 1. destruct (pm_send_probe E hk (Z.min n 1416) w1) as [r2 w2|] eqn:Sd; [|discriminate]. apply (send_does Hh1) in Sd; [|lia]. destruct Sd as (out & q & Pr & D). unfold ret. intros H. apply Done_inv in H as [_ <-].
      rewrite Q1, St in Pr. exists ([Timer 0] ++ out), q. split; [exists out; split; [reflexivity|exact Pr]|]. exact (does_trans D2 D). }
  destruct (Z.eqb_spec (pm_state (c_pm (w_c w))) HE_PMTUD_STATE_ERROR) as [Er|Ne].
  { intros H. apply Cf in H; auto. }
  destruct (Z.eqb_spec (pm_state (c_pm (w_c w))) HE_PMTUD_STATE_SEARCH_COMPLETE) as [Co|Nc].
  { intros H. apply (retry_does Hh1) in H. pose proof (does_trans D2 H) as D. eexists _, _. split; [split; reflexivity|]. rewrite Q1 in D. exact D. }
  unfold ret. intros H. apply Done_inv in H as [_ <-]. exists [Timer 0], (unawaited (abs (c_pm (w_c w)))). split; [auto|exact D2].
Qed.
End P.
