(** Path MTU discovery (pmtud.c) and the sending of inside packets (flow.c,
    frag.c). *)
From Verif Require Import Base Codes Ctx Config Mss Frag FragSpec FragProofs ReasmTable Wire WireSpec WireProofs
  ConnState Conn ConnSpec HistSpec ConnSteps ConnWp ConnWpTac ConnWpCore.
Unset Strict Implicit.

Definition pm0 : pmtud := Pmtud 0 0 0 0 0 false 0.
(** all of [core] except path MTU discovery *)
Definition keepM (w w' : world) : Prop := seq w' (core (set_pm pm0 (w_c w')) = core (set_pm pm0 (w_c w))).
Lemma keepM_refl w : keepM w w.
Proof. intros _; reflexivity. Qed.
Lemma keepM_trans w1 w2 w3 : Steps w2 w3 -> keepM w1 w2 -> keepM w2 w3 -> keepM w1 w3.
Proof. intros S H1 H2 Hr. rewrite (H2 Hr). apply H1. eapply re_anti; eauto. Qed.
Lemma keep_keepM w w' : keep w w' -> keepM w w'.
Proof. intros H Hr. specialize (H Hr). unfold core in *. cbn. congruence. Qed.
Lemma keepM_state w w' : keepM w w' -> seq w' (c_state (w_c w') = c_state (w_c w)).
Proof. intros H Hr. specialize (H Hr). unfold core in H. cbn in H. congruence. Qed.
Lemma keep_pm w w' : keep w w' -> seq w' (c_pm (w_c w') = c_pm (w_c w)).
Proof. intros H Hr. specialize (H Hr). unfold core in H. cbn in H. congruence. Qed.

Ltac pmc := unfold base_ok, MIN_PLPMTU, INITIAL_PLPMTU, MAX_PROBES, PMTUD_PROBE_BIG_STEP, PMTUD_PROBE_SMALL_STEP,
  HE_PMTUD_STATE_DISABLED, HE_PMTUD_STATE_BASE, HE_PMTUD_STATE_SEARCHING, HE_PMTUD_STATE_SEARCH_COMPLETE,
  HE_PMTUD_STATE_ERROR in *; change MAX_PLPMTU with 1416 in *.

Section Pm.
Variable E : env.
Variable hook : M unit.
Hypothesis HOOK : hook_ok E hook.
Notation wp := (wp E).
Notation wpr := (wpr E).

Lemma wpr_upd_pm A (k : M A) f (Q : A -> world -> Prop) w :
  (OK1 w -> pm_ok w (f (c_pm (w_c w)))) ->
  (forall w', Steps w w' -> w_c w' = set_pm (f (c_pm (w_c w))) (w_c w) -> w_t w' = w_t w -> wpr k Q w') ->
  wpr (upd_pm f ;;; k) Q w.
Proof.
  intros H K. unfold upd_pm. apply wpr_step.
  - intros O. split; [now apply S_pm, H|]. apply O.
  - exact K.
Qed.

Lemma wpr_ok A (m : M A) (Q : A -> world -> Prop) w : (OK1 w -> wpr m Q w) -> wpr m Q w.
Proof. intros H O. exact (H O O). Qed.

Lemma wpr_upd A (k : M A) f (Q : A -> world -> Prop) w :
  tracked (f (w_c w)) = tracked (w_c w) -> (cok (w_c w) -> cok (f (w_c w))) ->
  (forall w', Steps w w' -> w_c w' = f (w_c w) -> w_t w' = w_t w -> wpr k Q w') ->
  wpr (upd f ;;; k) Q w.
Proof.
  intros H1 H2 K. apply wpr_step; [|exact K]. intros O. split; [now apply S_misc|].
  destruct (mid_tracked H1) as (-> & _). apply O.
Qed.
Lemma wpr_lift A C (r : res A) a (k : A -> M C) (Q : C -> world -> Prop) w :
  r = Val a -> wpr (k a) Q w -> wpr (bind (lift r) k) Q w.
Proof. intros ->. exact id. Qed.

(** leaving the world where it is, not in the middle *)
Definition calm (w : world) : Prop := seq w (mid2 w = false /\ (once (w_t w) -> c_state (w_c w) = HE_STATE_ONLINE -> ~ pm_mid (c_pm (w_c w)))).
Lemma calm_wpr A (m : M A) (Q : A -> world -> Prop) w : calm w -> wp m Q w -> wpr m Q w.
Proof.
  intros C. apply wpr_wp. intros _ Hr. destruct (C Hr) as [C1 C2]. split; [exact C1|].
  intros (O & St & P). now apply C2.
Qed.

Lemma pm_inv_id v p : pm_inv (set_pm_id v p) <-> pm_inv p.
Proof. reflexivity. Qed.
Lemma cok_pm p c : cok c -> pm_eff p = 0 \/ 504 <= pm_eff p <= MAX_PLPMTU -> 0 <= pm_size p < 65536 ->
  (pm_count p <> 0 -> MIN_PLPMTU <= pm_size p) -> cok (set_pm p c).
Proof. intros []. constructor; auto. Qed.

(** the mid2 condition is not touched here *)
Definition nolink (w : world) : Prop := seq w (mid2 w = false).
Lemma nolink_keep w w' : Steps w w' -> keepM w w' -> nolink w -> nolink w'.
Proof.
  intros S K N Hr. eapply mid2_anti; [exact S| | |].
  - specialize (K Hr). unfold core in K. cbn in K. congruence.
  - now apply keepM_state.
  - apply N. eapply re_anti; eauto.
Qed.
Lemma Good_nolink w : Good w -> nolink w.
Proof. intros [_ M] Hr. now apply M. Qed.

Lemma wp_wpr_ret (m : M unit) (Q : unit -> world -> Prop) w : wpr (m ;;; ret tt) Q w -> wp m Q w.
Proof.
  intros H G. specialize (H (Good_OK1 G)). unfold bind, ret in H. destruct (m w) as [[] w'|u w']; exact H.
Qed.

Lemma wp_upd_pm f (Q : unit -> world -> Prop) w :
  (Good w -> pm_ok w (f (c_pm (w_c w)))) ->
  (Good w -> seq w (once (w_t w) -> c_state (w_c w) = HE_STATE_ONLINE -> ~ pm_mid (f (c_pm (w_c w))))) ->
  (forall w', Steps w w' -> w_c w' = set_pm (f (c_pm (w_c w))) (w_c w) -> w_t w' = w_t w -> Q tt w') ->
  wp (upd_pm f) Q w.
Proof.
  intros H M K. apply wp_good; intros G. apply wp_wpr_ret, wpr_upd_pm; [intros _; auto|].
  intros w' S C T. apply calm_wpr.
  - intros Hr. split.
    + apply (nolink_keep S); auto using Good_nolink. intros _. rewrite C. reflexivity.
    + rewrite C, T. cbn [c_pm set_pm c_state]. apply M; auto. eapply re_anti; eauto.
  - apply wp_ret, K; auto.
Qed.

(** *** Probes *)
Definition probe_pre (w : world) (mtu : Z) : Prop :=
  let p := c_pm (w_c w) in
  seq w (once (w_t w) -> c_state (w_c w) = HE_STATE_ONLINE -> pm_inv p ->
    (MIN_PLPMTU <= mtu <= MAX_PLPMTU -> pm_count p < MAX_PROBES /\
       pm_inv (set_pm_size mtu (set_pm_count (pm_count p + 1) p))) /\
    (pm_mid p -> MIN_PLPMTU <= mtu <= MAX_PLPMTU)).

Lemma once_mono_pm w : Reach w -> seq w (once (w_t w) -> pm_inv (c_pm (w_c w))).
Proof. intros R Hr O. now apply (Reach_pm R). Qed.

Lemma wpr_send_probe mtu (Q : Z -> world -> Prop) w :
  nolink w -> probe_pre w mtu ->
  (forall rc w', Steps w w' -> keepM w w' -> Q rc w') ->
  wpr (pm_send_probe E hook mtu) Q w.
Proof.
  intros NL P K O. pose proof (proj1 O) as R. pose proof (Reach_cok R) as C. pose proof (once_mono_pm R) as PI.
  revert O. fold (wpr (pm_send_probe E hook mtu) Q w).
  unfold pm_send_probe. apply wpr_get. destruct (negb _) eqn:St.
  { apply calm_wpr; [|apply wp_ret, K; [apply Steps_refl|apply keepM_refl]]. intros Hr. split; [now apply NL|].
    intros _ F. rewrite F in St. discriminate. }
  apply negb_false_iff, Z.eqb_eq in St.
  destruct (_ || _) eqn:Rg.
  { apply calm_wpr; [|apply wp_ret, K; [apply Steps_refl|apply keepM_refl]]. intros Hr. split; [now apply NL|].
    intros On _ Mid. destruct (P Hr On St (PI Hr On)) as [_ P2]. specialize (P2 Mid). pmc. lia. }
  apply orb_false_iff in Rg. destruct Rg as [Rg1 Rg2].
  assert (MIN_PLPMTU <= mtu <= MAX_PLPMTU) as Rg by lia. clear Rg1 Rg2.
  apply wpr_get. apply wpr_upd; [reflexivity|intros []; constructor; auto; apply Z.mod_pos_bound; lia|].
  intros w1 S1 C1 T1. cbv zeta.
  assert (u16 (mtu + sizeof_data - sizeof_ping) = mtu - 2) as U.
  { unfold u16. change sizeof_data with 3. change sizeof_ping with 5. rewrite Z.mod_small; pmc; lia. }
  rewrite U. pose proof (ok_ping C) as Pg.
  eapply wpr_lift; [apply build_ping_ok; pmc; unfold HE_MAX_WIRE_MTU; lia|].
  apply wpr_upd_pm.
  { intros _. split; [|split].
    - intros C'. apply cok_pm; auto; cbn; [apply C'|pmc; lia|intros _; lia].
    - rewrite C1, T1. cbn [c_pm set_ping_next]. intros Hr On I.
      assert (re (w_t w) = false) as Hr0 by now rewrite <- T1.
      destruct (P Hr0 On St I) as [P1 _]. destruct (P1 Rg) as [P3 P4].
      destruct I as (I1 & _). unfold u8. rewrite Z.mod_small; [exact P4|pmc; lia].
    - intros _. cbn. auto. }
  intros w2 S2 C2 T2.
  assert (keepM w w2) as K2 by (intros _; rewrite C2, C1; reflexivity).
  assert (Steps w w2) as S12 by stp.
  assert (c_state (w_c w2) = HE_STATE_ONLINE) as St2 by (rewrite C2, C1; exact St).
  apply calm_wpr.
  { intros Hr. split; [now apply (nolink_keep S12 K2)|]. intros On _ [_ Cnt].
    assert (re (w_t w) = false) as Hr0 by (eapply re_anti; eauto).
    assert (once (w_t w)) as On0 by (eapply once_anti; eauto).
    destruct (P Hr0 On0 St (PI Hr0 On0)) as [P1 _]. destruct (P1 Rg) as [P3 P4].
    destruct (PI Hr0 On0) as (I1 & _). rewrite C2, C1 in Cnt. cbn in Cnt. unfold u8 in Cnt.
    rewrite Z.mod_small in Cnt; pmc; lia. }
  apply wp_bind. eapply wp_lift.
  { apply ldn_ok; change sizeof_ping with 5; pmc; unfold HE_MAX_WIRE_MTU in *; try lia. lens. }
  intros _. set (m := slice _ _ _).
  assert (len m = mtu + 3 /\ msg_type m = HE_MSGID_PING) as [Lm Tm].
  { split.
    - unfold m. rewrite len_slice; change sizeof_ping with 5; pmc; unfold HE_MAX_WIRE_MTU in *; try lia. lens.
    - unfold m, slice, msg_type. change sizeof_ping with 5.
      replace (Z.to_nat (5 + (mtu - 2))) with (S (Z.to_nat (mtu + 2))) by (pmc; lia). reflexivity. }
  clearbody m.
  apply wp_bind, wp_send_message; auto.
  { intros _. split; [rewrite Lm; pmc; unfold HE_MAX_WIRE_MTU in *; lia|]. split.
    - intros _. rewrite St2. discriminate.
    - do 5 right. left. split; [exact Tm|]. split; [exact St2|]. right. rewrite Lm. change sizeof_data with 3. lia. }
  intros rc w3 S3 K3 _.
  assert (keepM w w3) as K3' by (eapply keepM_trans; [exact S3|exact K2|now apply keep_keepM]).
  assert (Steps w w3) as S13 by stp.
  apply wp_bind. apply wp_conseq with (Q := fun _ w4 => Steps w w4 /\ keepM w w4).
  { destruct (negb _); [apply wp_ret; auto|]. apply wp_upd_pm.
    - intros _. split; [|split].
      + intros C'. apply cok_pm; auto; cbn; apply C'.
      + intros _ _ I. exact I.
      + intros _ D. left. exact D.
    - intros [_ M] Hr On St3 Mid. destruct (M Hr) as (_ & _ & M3). apply M3. split; [exact On|]. split; [exact St3|].
      exact Mid.
    - intros w4 S4 C4 T4. split; [stp|]. eapply keepM_trans; [exact S4|exact K3'|]. intros _. rewrite C4. reflexivity. }
  intros [] w4 _ _ [S4 K4] _. apply wp_bind, wp_get. intros _. apply wp_bind.
  apply wp_conseq with (Q := fun _ w5 => Steps w w5 /\ keepM w w5).
  { destruct (cb_pmtime _) eqn:Cb; [|apply wp_ret; auto].
    apply wp_bind. unfold pm_time. apply wp_callback; auto.
    - intros G. split; [intros _; now apply Good_mid1|]. exact Cb.
    - intros. now apply plain_ok.
    - intros w5 w6 v S5 S6 _ _ H6 _. apply wp_ret. split; [stp|].
      assert (Steps w4 w6) as S46 by stp. eapply keepM_trans; [exact S46|exact K4|].
      intros Hr. rewrite (H6 Hr). reflexivity. }
  intros [] w5 _ _ [S5 K5] _. apply wp_ret, K; auto.
Qed.

(** *** Changing phase *)
Lemma wpr_pm_change A s (k : M A) (Q : A -> world -> Prop) w :
  (OK1 w -> pm_ok w (set_pm_state s (c_pm (w_c w)))) ->
  (forall w', Steps w w' -> seq w' (w_c w' = set_pm (set_pm_state s (c_pm (w_c w))) (w_c w)) -> wpr k Q w') ->
  wpr (pm_change_state hook s ;;; k) Q w.
Proof.
  intros H K. unfold pm_change_state. apply wpr_assoc, wpr_upd_pm; [exact H|].
  intros w1 S1 C1 T1. apply wpr_assoc, wpr_get. unfold when. destruct (cb_pmstate _) eqn:Cb.
  - apply wpr_notify; auto.
    + intros O. split; [intros _; apply O|]. exact Cb.
    + intros w2 S2 C2. apply K; [stp|]. intros Hr. rewrite (C2 Hr). exact C1.
  - apply wpr_ret_bind, K; auto. intros _; exact C1.
Qed.

Definition idle (p : pmtud) : Prop := pm_state p <> HE_PMTUD_STATE_BASE /\ pm_state p <> HE_PMTUD_STATE_SEARCHING.
Lemma idle_mid p : idle p -> ~ pm_mid p.
Proof. intros [A B] [[|] _]; auto. Qed.
Lemma idle_count p : idle p -> pm_inv p -> pm_inv (set_pm_count 0 p).
Proof.
  intros [A B] (I1 & I2 & I3). split; [cbn; pmc; lia|]. split; [exact I2|]. cbn. pmc. tauto.
Qed.

Lemma wp_retry delay (Q : Z -> world -> Prop) w :
  seq w (idle (c_pm (w_c w))) ->
  (forall rc w', Steps w w' -> keepM w w' -> Q rc w') ->
  wp (pm_retry_probe E hook delay) Q w.
Proof.
  intros I K. unfold pm_retry_probe. apply wp_bind, wp_get. intros _. apply wp_bind.
  apply wp_conseq with (Q := fun _ w1 => Steps w w1 /\ seq w1 (w_c w1 = w_c w)).
  { destruct (cb_pmtime _) eqn:Cb; [|apply wp_ret; split; [apply Steps_refl|intros _; reflexivity]].
    unfold pm_time. apply wp_callback; auto.
    - intros G. split; [intros _; now apply Good_mid1|]. exact Cb.
    - intros. now apply plain_ok.
    - intros w5 w6 v S5 S6 _ _ H6. split; [stp|exact H6]. }
  intros v w1 S1 _ [_ H1] _. apply wp_bind, wp_upd_pm.
  - intros _. split; [|split].
    + intros C'. apply cok_pm; auto; cbn; try apply C'; congruence.
    + intros Hr _. apply idle_count. rewrite (H1 Hr). apply I. eapply re_anti; eauto.
    + intros _ D. left. exact D.
  - intros _ Hr _ _. rewrite (H1 Hr). apply idle_mid. cbn. apply I. eapply re_anti; eauto.
  - intros w2 S2 C2 T2 _. apply wp_ret, K; [stp|]. intros Hr. rewrite C2. cbn.
    rewrite H1; [reflexivity|]. eapply re_anti; eauto.
Qed.

(** Entering a phase that sends a probe: the callback, the new parameters, the
    probe. *)
Lemma wpr_phase s f (mtu : pmtud -> Z) (Q : Z -> world -> Prop) w :
  nolink w ->
  (OK1 w -> pm_ok w (set_pm_state s (c_pm (w_c w)))) ->
  (forall p, pm_state (f p) = pm_state p) ->
  (forall p, pm_size (f p) = pm_size p /\ pm_eff (f p) = pm_eff p /\ pm_count (f p) = 0) ->
  seq w (once (w_t w) -> pm_inv (set_pm_state s (c_pm (w_c w))) ->
      pm_inv (f (set_pm_state s (c_pm (w_c w)))) /\
      let p := f (set_pm_state s (c_pm (w_c w))) in
      MIN_PLPMTU <= mtu p <= MAX_PLPMTU /\ pm_count p < MAX_PROBES /\
       pm_inv (set_pm_size (mtu p) (set_pm_count (pm_count p + 1) p))) ->
  (forall rc w', Steps w w' -> keepM w w' -> Q rc w') ->
  wpr (pm_change_state hook s ;;; upd_pm f ;;; let! p := get c_pm in pm_send_probe E hook (mtu p)) Q w.
Proof.
  intros NL H Fs Fe P K. apply wpr_pm_change; [exact H|]. intros w1 S1 C1.
  apply wpr_ok; intros O1. pose proof (once_mono_pm (proj1 O1)) as PI.
  apply wpr_upd_pm.
  { intros O. split; [|split].
    - intros C'. apply cok_pm; auto; destruct (Fe (c_pm (w_c w1))) as (Fe1 & Fe2 & Fe3); rewrite ?Fe1, ?Fe2, ?Fe3; try apply C'; congruence.
    - intros Hr On I. rewrite (C1 Hr) in *. cbn [c_pm set_pm] in *.
      assert (re (w_t w) = false) as Hr0 by (eapply re_anti; eauto).
      assert (once (w_t w)) as On0 by (eapply once_anti; eauto). now apply P.
    - intros _ D. left. now rewrite Fs. }
  intros w2 S2 C2 T2.
  assert (Steps w w2) as S12 by stp.
  assert (keepM w w2) as K2 by (intros Hr; rewrite C2, (C1 (re_anti S2 Hr)); reflexivity).
  apply wpr_get. apply wpr_send_probe.
  - apply (nolink_keep S12 K2 NL).
  - intros Hr On _ I. assert (re (w_t w1) = false) as Hr1 by (eapply re_anti; eauto).
    assert (re (w_t w) = false) as Hr0 by (eapply re_anti; eauto).
    assert (once (w_t w)) as On0 by (eapply once_anti; eauto). 
    rewrite C2, (C1 Hr1) in *. cbn [c_pm set_pm] in *.
    assert (pm_inv (set_pm_state s (c_pm (w_c w)))) as I'.
    { specialize (PI Hr1 ltac:(eapply once_anti; eauto)). exact PI. }
    destruct (P Hr0 On0 I') as (P1 & P2 & P3 & P4). split; [auto|]. intros _; auto.
  - intros rc w3 S3 K3. apply K; [stp|]. eapply keepM_trans; eauto.
Qed.
Lemma pm_ok_state s w :
  (seq w (once (w_t w) -> pm_inv (c_pm (w_c w)) -> pm_inv (set_pm_state s (c_pm (w_c w))))) ->
  seq w (pm_state (c_pm (w_c w)) = HE_PMTUD_STATE_DISABLED -> s = HE_PMTUD_STATE_DISABLED \/
         c_state (w_c w) = HE_STATE_ONLINE /\ calling is_start w) ->
  pm_ok w (set_pm_state s (c_pm (w_c w))).
Proof.
  intros H D. split; [|split]; auto. intros C'. apply cok_pm; auto; cbn; apply C'.
Qed.

Lemma pm_inv_count0 s p : pm_inv p -> pm_count p = 0 ->
  s = HE_PMTUD_STATE_BASE \/ s = HE_PMTUD_STATE_SEARCHING -> pm_inv (set_pm_state s p).
Proof.
  intros (I1 & I2 & I3) C S. split; [exact I1|]. split; [exact I2|]. cbn [pm_state set_pm_state pm_count].
  destruct S as [->| ->]; pmc; [right; left|right; right; left]; split; auto.
Qed.

(** pmtud.c:202-231 *)
Lemma wp_start_base (Q : Z -> world -> Prop) w :
  c_state (w_c w) = HE_STATE_ONLINE -> calling is_start w ->
  pm_state (c_pm (w_c w)) = HE_PMTUD_STATE_DISABLED ->
  (forall rc w', Steps w w' -> keepM w w' -> Q rc w') ->
  wp (pm_start_base_probing E hook) Q w.
Proof.
  intros St Cl D K. apply wp_good; intros G. unfold pm_start_base_probing. apply wp_bind, wp_get. intros _.
  rewrite D. cbn [negb orb Z.eqb HE_PMTUD_STATE_DISABLED HE_PMTUD_STATE_BASE].
  apply wp_wpr, wpr_phase with (mtu := pm_base); auto using Good_nolink.
  - intros _. apply pm_ok_state; [|intros _ _; right; auto].
    intros Hr On I. apply pm_inv_count0; auto. destruct I as (_ & _ & I).
    destruct I as [(_ & I & _)|[(F & _)|[(F & _)|[(F & _)|(F & _)]]]]; auto; rewrite D in F; discriminate.
  - intros Hr On I. destruct I as (I1 & I2 & I3). split; [|split; [|split]].
    + split; [cbn; pmc; lia|]. split; [exact I2|]. cbn; pmc; right; left; auto.
    + cbn; pmc; lia.
    + cbn; pmc; lia.
    + split; [cbn; pmc; lia|]. split; [exact I2|]. cbn; pmc; right; left; auto.
Qed.

(** pmtud.c:233-257 *)
Lemma wpr_base_confirmed (Q : Z -> world -> Prop) w :
  nolink w ->
  pm_state (c_pm (w_c w)) = HE_PMTUD_STATE_BASE \/ pm_state (c_pm (w_c w)) = HE_PMTUD_STATE_ERROR ->
  pm_count (c_pm (w_c w)) = 0 ->
  seq w (once (w_t w) -> base_ok (c_pm (w_c w))) ->
  (forall rc w', Steps w w' -> keepM w w' -> Q rc w') ->
  wpr (pm_base_confirmed E hook) Q w.
Proof.
  intros NL D Cn Bo K. unfold pm_base_confirmed. apply wpr_get. destruct (negb _) eqn:F.
  { exfalso. apply negb_true_iff in F. pmc. lia. }
  apply wpr_phase with (mtu := fun p => u16 (pm_base p + PMTUD_PROBE_BIG_STEP)); auto.
  - intros _. apply pm_ok_state; [|intros _ F'; pmc; lia].
    intros Hr On I. apply pm_inv_count0; auto.
  - intros Hr On (I1 & I2 & I3). specialize (Bo Hr On).
    assert (u16 (pm_base (c_pm (w_c w)) + 32) = pm_base (c_pm (w_c w)) + 32) as U
      by (apply Z.mod_small; pmc; lia).
    split; [|split; [|split]].
    + split; [cbn; pmc; lia|]. split; [exact I2|]. cbn. pmc. right; right; left. auto.
    + cbn. change PMTUD_PROBE_BIG_STEP with 32. rewrite U. pmc; lia.
    + cbn; pmc; lia.
    + split; [cbn; pmc; lia|]. split; [exact I2|]. cbn. change PMTUD_PROBE_BIG_STEP with 32. rewrite U.
      pmc. right; right; left. split; [auto|]. right. split; [exact Bo|]. split; [lia|]. intros _; left; lia.
Qed.

(** pmtud.c:259-277 *)
Lemma wpr_base_failed (Q : Z -> world -> Prop) w :
  nolink w ->
  pm_state (c_pm (w_c w)) = HE_PMTUD_STATE_BASE ->
  seq w (once (w_t w) -> base_ok (c_pm (w_c w))) ->
  (forall rc w', Steps w w' -> keepM w w' -> Q rc w') ->
  wpr (pm_confirm_base_failed E hook) Q w.
Proof.
  intros NL D Bo K. unfold pm_confirm_base_failed. apply wpr_get. rewrite D. cbn [negb Z.eqb HE_PMTUD_STATE_BASE Pos.eqb].
  apply wpr_pm_change.
  { intros _. apply pm_ok_state; [|intros _ F'; pmc; lia].
    intros Hr On (I1 & I2 & I3). split; [exact I1|]. split; [exact I2|]. cbn. right; right; right; right. 
    split; [reflexivity|]. exact (Bo Hr On). }
  intros w1 S1 C1. assert (keepM w w1) as K1 by (intros Hr; rewrite (C1 Hr); reflexivity).
  assert (seq w1 (idle (c_pm (w_c w1)))) as Id.
  { intros Hr. rewrite (C1 Hr). split; cbn; pmc; discriminate. }
  apply calm_wpr.
  { intros Hr. split; [apply (nolink_keep S1 K1 NL Hr)|]. intros _ _. now apply idle_mid, Id. }
  apply wp_retry; auto. intros rc w2 S2 K2. apply K; [stp|]. exact (keepM_trans S2 K1 K2).
Qed.

(** pmtud.c:279-301 *)
Lemma wpr_search_completed (Q : Z -> world -> Prop) w :
  nolink w ->
  pm_state (c_pm (w_c w)) = HE_PMTUD_STATE_SEARCHING ->
  seq w (once (w_t w) -> base_ok (c_pm (w_c w)) /\ MIN_PLPMTU <= pm_size (c_pm (w_c w))) ->
  pm_count (c_pm (w_c w)) = 0 -> 504 <= pm_size (c_pm (w_c w)) ->
  (forall rc w', Steps w w' -> keepM w w' -> Q rc w') ->
  wpr (pm_search_completed E hook) Q w.
Proof.
  intros NL D Bo Cn Sz K. unfold pm_search_completed. apply wpr_get. rewrite D. cbn [negb Z.eqb HE_PMTUD_STATE_SEARCHING Pos.eqb].
  apply wpr_upd_pm.
  { intros _. split; [|split].
    - intros C'. pose proof (ok_size C'). apply cok_pm; auto; cbn [pm_eff set_pm_eff pm_count pm_size]; [pmc; destruct (_ <? _) eqn:?; lia|congruence].
    - intros Hr On (I1 & I2 & I3). destruct (Bo Hr On) as [B1 B2]. split; [exact I1|]. split; [|exact I3].
      cbn [pm_eff set_pm_eff]. right. pmc. destruct (_ <? _) eqn:?; lia.
    - intros _ F. pmc; lia. }
  intros w1 S1 C1 T1.
  apply wpr_pm_change.
  { intros _. apply pm_ok_state.
    - rewrite T1, C1. intros Hr On (I1 & I2 & I3).
      assert (re (w_t w) = false) as Hr0 by now rewrite <- T1.
      destruct (Bo Hr0 On) as [B1 B2]. split; [exact I1|]. split; [exact I2|]. cbn.
      right; right; right; left. split; [reflexivity|]. exact B1.
    - intros _ F. rewrite C1 in F. cbn in F. pmc; lia. }
  intros w2 S2 C2. assert (Steps w w2) as S12 by stp.
  assert (keepM w w2) as K2 by (intros Hr; rewrite (C2 Hr), C1; reflexivity).
  assert (seq w2 (idle (c_pm (w_c w2)))) as Id.
  { intros Hr. rewrite (C2 Hr). split; cbn; pmc; discriminate. }
  apply calm_wpr.
  { intros Hr. split; [apply (nolink_keep S12 K2 NL Hr)|]. intros _ _. now apply idle_mid, Id. }
  apply wp_retry; auto. intros rc w3 S3 K3. apply K; [stp|]. exact (keepM_trans S3 K2 K3).
Qed.

(** pmtud.c:303-327 *)
Lemma wpr_blackhole (Q : Z -> world -> Prop) w :
  nolink w ->
  pm_state (c_pm (w_c w)) = HE_PMTUD_STATE_SEARCH_COMPLETE ->
  pm_count (c_pm (w_c w)) = 0 ->
  (forall rc w', Steps w w' -> keepM w w' -> Q rc w') ->
  wpr (pm_blackhole_detected E hook) Q w.
Proof.
  intros NL D Cn K. unfold pm_blackhole_detected. apply wpr_get. rewrite D. cbn [negb orb Z.eqb HE_PMTUD_STATE_SEARCHING HE_PMTUD_STATE_SEARCH_COMPLETE Pos.eqb].
  apply wpr_phase with (mtu := pm_base); auto.
  - intros _. apply pm_ok_state; [|intros _ F'; pmc; lia].
    intros Hr On I. apply pm_inv_count0; auto.
  - intros Hr On (I1 & I2 & I3). split; [|split; [|split]].
    + split; [cbn; pmc; lia|]. split; [exact I2|]. cbn; pmc; right; left; auto.
    + cbn; pmc; lia.
    + cbn; pmc; lia.
    + split; [cbn; pmc; lia|]. split; [exact I2|]. cbn; pmc; right; left; auto.
Qed.

(** What is known of a search in progress. *)
Definition live (p : pmtud) : Prop :=
  (pm_state p = HE_PMTUD_STATE_DISABLED \/ base_ok p) /\
  (pm_state p = HE_PMTUD_STATE_SEARCHING ->
     pm_base p + PMTUD_PROBE_SMALL_STEP <= pm_size p <= MAX_PLPMTU /\
     (pm_big p = true -> pm_base p + PMTUD_PROBE_BIG_STEP <= pm_size p \/ pm_size p = MAX_PLPMTU)).
Lemma pm_live p : pm_inv p -> (~ pm_mid p \/ pm_count p <> 0) -> live p.
Proof.
  intros (I1 & I2 & I3) N. unfold pm_mid in N. unfold live.
  assert (pm_state p = HE_PMTUD_STATE_SEARCHING -> HE_PMTUD_STATE_SEARCHING <> HE_PMTUD_STATE_DISABLED) by (pmc; lia).
  destruct I3 as [(F & _)|[(F & I)|[(F & I)|[(F & I)|(F & I)]]]]; rewrite F in *.
  - split; [auto|]. pmc; discriminate.
  - split; [right; destruct I; [exfalso; pmc; lia|auto]|pmc; discriminate].
  - destruct I as [I|(I4 & I5 & I6)]; [exfalso; pmc; lia|]. auto.
  - split; [auto|pmc; discriminate].
  - split; [auto|pmc; discriminate].
Qed.

Definition clear (p : pmtud) : pmtud := set_pm_count 0 (set_pm_id 0 p).
Lemma pm_inv_clear p : pm_inv p -> pm_inv (clear p).
Proof.
  intros (I1 & I2 & I3). split; [cbn; pmc; lia|]. split; [exact I2|]. cbn.
  destruct I3 as [(F & _ & I)|[(F & I)|[(F & I)|[(F & I)|(F & I)]]]]; pmc; tauto.
Qed.
Lemma pm_ok_clear w : pm_ok w (clear (c_pm (w_c w))).
Proof.
  split; [|split].
  - intros C'. apply cok_pm; auto; cbn; try apply C'; congruence.
  - intros _ _. apply pm_inv_clear.
  - intros _ D. left. exact D.
Qed.

Lemma next_size (b : bool) base size :
  base = 512 \/ base = 1250 -> base + 8 <= size <= 1416 ->
  let sz := if u16 (size + (if b then 32 else 8)) <? 1416 then u16 (size + (if b then 32 else 8)) else 1416 in
  base + 8 <= sz <= 1416 /\ (b = true -> base + 32 <= sz \/ sz = 1416).
Proof.
  intros B S. cbv zeta. assert (u16 (size + (if b then 32 else 8)) = size + (if b then 32 else 8)) as U
    by (apply Z.mod_small; destruct b; lia).
  rewrite U. destruct b, (_ <? 1416) eqn:F; lia.
Qed.

(** pmtud.c:96-146 *)
Lemma wp_probe_ack id (Q : Z -> world -> Prop) w :
  seq w (c_state (w_c w) <> HE_STATE_DISCONNECTING /\ c_state (w_c w) <> HE_STATE_DISCONNECTED) ->
  (forall rc w', Steps w w' -> keepM w w' -> Q rc w') ->
  wp (pm_probe_ack E hook id) Q w.
Proof.
  intros Nd K. apply wp_good; intros G. pose proof (Reach_pm (proj1 G)) as PI.
  unfold pm_probe_ack. apply wp_bind, wp_get. intros _.
  destruct (negb _); [apply wp_ret, K; [apply Steps_refl|apply keepM_refl]|].
  apply wp_bind, wp_get. intros _. apply wp_bind.
  apply wp_conseq with (Q := fun _ w1 => seq w1 (w_c w1 = w_c w)).
  { destruct (cb_pmtime _) eqn:Cb; [|apply wp_ret; intros _; reflexivity].
    apply wp_bind. unfold pm_time. apply wp_callback; auto.
    - intros _. split; [intros _; now apply Good_mid1|]. exact Cb.
    - intros. now apply plain_ok.
    - intros w5 w6 v S5 S6 _ _ H6 _. apply wp_ret. exact H6. }
  intros [] w1 S1 G1 H1 _.
  assert (seq w1 (once (w_t w1) -> live (c_pm (w_c w1)))) as Lv.
  { intros Hr On. rewrite (H1 Hr).
    assert (re (w_t w) = false) as Hr0 by (eapply re_anti; eauto).
    assert (once (w_t w)) as On0 by (eapply once_anti; eauto).
    destruct (PI Hr0 On0) as [I1 I2]. apply pm_live; [exact I1|].
    destruct (Z.eq_dec (pm_state (c_pm (w_c w))) HE_PMTUD_STATE_DISABLED) as [D|D].
    - left. intros [M _]. rewrite D in M. pmc. lia.
    - left. intros M. destruct (I2 D) as (St & _). destruct (Nd Hr0) as [N1 N2].
      destruct G as [_ G]. destruct (G Hr0) as (_ & _ & G3). apply G3. split; [exact On0|]. split; [|exact M].
      destruct St as [St|[St|St]]; auto; contradiction. }
  pose proof (Good_nolink G1) as NL1.
  apply wp_wpr, (wpr_upd_pm (f := clear)); [intros _; apply pm_ok_clear|].
  intros w2 S2 C2 T2.
  assert (keepM w w2) as K2 by (intros Hr; rewrite C2; cbn; rewrite (H1 (re_anti S2 Hr)); reflexivity).
  assert (keepM w1 w2) as K12 by (intros Hr; rewrite C2; reflexivity).
  assert (nolink w2) as NL2 by (apply (nolink_keep S2 K12 NL1)).
  assert (Steps w w2) as S02 by stp.
  assert (seq w2 (once (w_t w2) -> live (c_pm (w_c w2)))) as Lv2.
  { intros Hr On. rewrite C2. rewrite T2 in *. exact (Lv Hr On). }
  assert (pm_count (c_pm (w_c w2)) = 0) as Cn by (rewrite C2; reflexivity).
  assert (forall rc w', Steps w2 w' -> keepM w2 w' -> Q rc w') as K'.
  { intros rc w' S' Kp. apply K; [stp|]. exact (keepM_trans S' K2 Kp). }
  assert (forall s, pm_state (c_pm (w_c w2)) = s -> s <> HE_PMTUD_STATE_DISABLED ->
     seq w2 (once (w_t w2) -> base_ok (c_pm (w_c w2)))) as Bo.
  { intros s Es Ns Hr On. destruct (Lv2 Hr On) as [[D|B] _]; [congruence|exact B]. }
  apply wpr_get.
  destruct (_ =? HE_PMTUD_STATE_BASE) eqn:E1.
  { apply Z.eqb_eq in E1. apply wpr_base_confirmed; auto. apply (Bo _ E1). pmc; discriminate. }
  destruct (_ =? HE_PMTUD_STATE_SEARCHING) eqn:E2.
  { apply Z.eqb_eq in E2. destruct (_ <=? _) eqn:L.
    - apply wpr_search_completed; auto; [|pmc; lia]. intros Hr On.
      split; [apply (Bo _ E2); auto; pmc; discriminate|]. pmc. lia.
    - cbv zeta. set (sz := if _ <? MAX_PLPMTU then _ else _).
      apply wpr_ok. intros O2. intros O2'. 
      assert (wpr (pm_send_probe E hook sz) (fun _ w' => Q HE_SUCCESS w') w2) as W.
      { apply wpr_send_probe; auto.
        intros Hr On _ I. destruct (Lv2 Hr On) as [B1 B2]. destruct (B2 E2) as [B3 B4].
        assert (base_ok (c_pm (w_c w2))) as Bk by (apply (Bo _ E2); auto; pmc; discriminate).
        assert (pm_base (c_pm (w_c w2)) + 8 <= sz <= 1416 /\
          (pm_big (c_pm (w_c w2)) = true -> pm_base (c_pm (w_c w2)) + 32 <= sz \/ sz = 1416)) as [Z1 Z2].
        { unfold sz. apply next_size; pmc; auto. }
        split.
        - intros Rg. rewrite Cn. split; [pmc; lia|]. destruct I as (I1 & I2 & I3). split; [cbn; pmc; lia|].
          split; [exact I2|]. cbn. right; right; left. split; [exact E2|]. right.
          split; [exact Bk|]. pmc. auto.
        - intros _. pmc. lia. }
      specialize (W O2). unfold bind. destruct (pm_send_probe E hook sz w2); exact W. }
  assert (idle (c_pm (w_c w2))) as Id by (split; lia).
  destruct (_ =? HE_PMTUD_STATE_ERROR) eqn:E3.
  { apply Z.eqb_eq in E3. apply wpr_base_confirmed; auto. apply (Bo _ E3). pmc; discriminate. }
  apply calm_wpr. { intros Hr. split; [now apply NL2|]. intros _ _. now apply idle_mid. }
  destruct (_ =? HE_PMTUD_STATE_SEARCH_COMPLETE) eqn:E4; [|apply wp_ret, K; auto].
  apply wp_retry; auto. intros _; exact Id.
Qed.

(** pmtud.c:148-200 *)
Lemma wp_probe_timeout (Q : Z -> world -> Prop) w :
  (forall rc w', Steps w w' -> keepM w w' -> Q rc w') ->
  wp (pm_probe_timeout E hook) Q w.
Proof.
  intros K. apply wp_good; intros G. pose proof (Reach_pm (proj1 G)) as PI.
  pose proof (Good_nolink G) as NL.
  unfold pm_probe_timeout. apply wp_bind, wp_get. intros _.
  destruct (_ <? _) eqn:L.
  { apply wp_wpr, wpr_send_probe; auto. intros Hr On St I.
    assert (~ pm_mid (c_pm (w_c w))) as NM.
    { intros M. destruct G as [_ G]. destruct (G Hr) as (_ & _ & G3). apply G3. split; [exact On|]. auto. }
    destruct (pm_live I (or_introl NM)) as [L1 L2]. split; [|contradiction].
    intros Rg. split; [lia|]. pose proof I as (I1 & I2 & I3). split; [cbn; pmc; lia|]. split; [exact I2|]. cbn.
    destruct I3 as [(F & F1 & F2)|[(F & I3)|[(F & I3)|[(F & I3)|(F & I3)]]]].
    - pmc. exfalso; lia.
    - right; left. split; [exact F|]. right. destruct L1 as [L1|L1]; [pmc; lia|exact L1].
    - right; right; left. split; [exact F|]. right. destruct L1 as [L1|L1]; [pmc; lia|].
      destruct (L2 F). auto.
    - right; right; right; left. auto.
    - right; right; right; right. auto. }
  assert (pm_count (c_pm (w_c w)) <> 0) as Cnz by (pmc; lia).
  assert (seq w (once (w_t w) -> live (c_pm (w_c w)) /\ pm_state (c_pm (w_c w)) <> HE_PMTUD_STATE_DISABLED)) as Lv.
  { intros Hr On. destruct (PI Hr On) as [I _]. split; [apply pm_live; auto|]. intros D.
    destruct I as (_ & _ & [(_ & F & _)|[(F & _)|[(F & _)|[(F & _)|(F & _)]]]]); pmc; lia. }
  remember (c_pm (w_c w)) as p eqn:Ep.
  apply wp_wpr, (wpr_upd_pm (f := clear)); [intros _; apply pm_ok_clear|].
  intros w2 S2 C2 T2. rewrite <- Ep in C2.
  assert (keepM w w2) as K2 by (intros Hr; rewrite C2; reflexivity).
  assert (nolink w2) as NL2 by (apply (nolink_keep S2 K2 NL)).
  assert (c_pm (w_c w2) = clear p) as P2 by (rewrite C2; reflexivity).
  assert (seq w2 (once (w_t w2) -> live p /\ pm_state p <> HE_PMTUD_STATE_DISABLED)) as Lv2.
  { intros Hr On. rewrite T2 in *. exact (Lv Hr On). }
  assert (seq w2 (once (w_t w2) -> base_ok p)) as Bo.
  { intros Hr On. destruct (Lv2 Hr On) as [[[D|B] _] N]; [contradiction|exact B]. }
  assert (forall rc w', Steps w2 w' -> keepM w2 w' -> Q rc w') as K'.
  { intros rc w' S' Kp. apply K; [stp|]. exact (keepM_trans S' K2 Kp). }
  destruct (_ =? HE_PMTUD_STATE_BASE) eqn:E1.
  { apply Z.eqb_eq in E1. destruct (_ =? INITIAL_PLPMTU).
    - apply wpr_send_probe; auto. intros Hr On _ (I1 & I2 & I3). rewrite P2 in *. split; [|pmc; lia].
      intros _. split; [cbn; pmc; lia|]. split; [cbn; pmc; lia|]. split; [exact I2|]. cbn. right; left.
      split; [exact E1|]. right. exact (Bo Hr On).
    - apply wpr_base_failed; auto.
      + now rewrite P2.
      + intros Hr On. rewrite P2. exact (Bo Hr On). }
  destruct (_ =? HE_PMTUD_STATE_SEARCHING) eqn:E2.
  { apply Z.eqb_eq in E2. destruct (pm_big p) eqn:Bg.
    - apply wpr_upd_pm.
      { intros _. rewrite P2. split; [|split].
        - intros C'. apply cok_pm; auto; [pose proof (ok_eff C') as X|pose proof (ok_size C') as X|]; try (rewrite P2 in X; exact X); cbn; congruence.
        - intros Hr On I. rewrite P2 in I. destruct I as (I1 & I2 & I3). split; [exact I1|]. split; [exact I2|].
          cbn in *. right; right; left. split; [exact E2|]. left; reflexivity.
        - intros _ D. left. rewrite P2 in D. exact D. }
      intros w3 S3 C3 T3. rewrite P2 in C3.
      assert (keepM w2 w3) as K23 by (intros _; rewrite C3; reflexivity).
      assert (Steps w w3) as S03 by stp.
      apply wpr_send_probe.
      + apply (nolink_keep S3 K23 NL2).
      + intros Hr On _ (I1 & I2 & I3). rewrite C3 in *. cbn [c_pm set_pm] in *. rewrite T3 in *.
        destruct (Lv2 Hr On) as [[_ L2] _]. destruct (L2 E2) as [L3 L4]. specialize (L4 Bg).
        pose proof (Bo Hr On) as B. pmc.
        assert (u16 (u16 (pm_size p - 32) + 8) = pm_size p - 24) as U.
        { unfold u16. rewrite (Z.mod_small (pm_size p - 32)) by lia. rewrite Z.mod_small; lia. }
        rewrite U. split; [|lia]. intros _. split; [cbn; lia|]. split; [cbn; pmc; lia|]. split; [exact I2|].
        cbn. right; right; left. split; [exact E2|]. right. split; [exact B|]. pmc. split; [lia|discriminate].
      + intros rc w4 S4 K4. apply K'; [stp|]. exact (keepM_trans S4 K23 K4).
    - destruct (pm_base p <? pm_size p) eqn:Lt.
      + apply wpr_upd_pm.
        { intros _. rewrite P2. split; [|split].
          - intros C'. apply cok_pm; auto; [pose proof (ok_eff C') as X; rewrite P2 in X; exact X| |cbn; congruence].
            cbn [pm_size set_pm_size]. apply Z.mod_pos_bound; lia.
          - intros Hr On I. rewrite P2 in I. destruct I as (I1 & I2 & I3). split; [exact I1|]. split; [exact I2|].
            cbn in *. right; right; left. split; [exact E2|]. left; reflexivity.
          - intros _ D. left. rewrite P2 in D. exact D. }
        intros w3 S3 C3 T3. rewrite P2 in C3.
        assert (keepM w2 w3) as K23 by (intros _; rewrite C3; reflexivity).
        assert (Steps w w3) as S03 by stp.
        apply wpr_search_completed.
        * apply (nolink_keep S3 K23 NL2).
        * now rewrite C3.
        * intros Hr On. rewrite C3, T3 in *. destruct (Lv2 Hr On) as [[_ L2] _]. destruct (L2 E2) as [L3 L4].
          pose proof (Bo Hr On) as B. split; [exact B|]. cbn. pmc. unfold u16. rewrite Z.mod_small; lia.
        * now rewrite C3.
        * rewrite C3. cbn. pose proof (ok_cnt (Reach_cok (proj1 G))) as X.
          pose proof (ok_size (Reach_cok (proj1 G))) as Y. rewrite <- Ep in X, Y. specialize (X Cnz).
          pmc. unfold u16. rewrite Z.mod_small; lia.
        * intros rc w4 S4 K4. apply K'; [stp|]. exact (keepM_trans S4 K23 K4).
      + intros _. cbn. split; [apply Steps_refl|]. split; [discriminate|]. split; [discriminate|].
        split; [discriminate|]. split; [intros _; discriminate|]. split; [|discriminate]. intros Hr On. exfalso.
        destruct (Lv2 Hr On) as [[_ L2] _]. destruct (L2 E2) as [L3 L4]. pmc. lia. }
  assert (idle (c_pm (w_c w2))) as Id by (rewrite P2; split; cbn; lia).
  destruct (_ =? HE_PMTUD_STATE_SEARCH_COMPLETE) eqn:E4.
  { apply Z.eqb_eq in E4. apply wpr_blackhole; auto; now rewrite P2. }
  apply calm_wpr. { intros Hr. split; [now apply NL2|]. intros _ _. now apply idle_mid. }
  destruct (_ =? HE_PMTUD_STATE_ERROR) eqn:E3; [|apply wp_ret, K; auto].
  apply wp_retry; auto. intros _; exact Id.
Qed.
End Pm.
