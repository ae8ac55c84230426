(** What follows from PmSpec alone. *)
From Verif Require Import Base Codes Ctx WireSpec MsgSpec ConnState Conn ConnSpec CallSpec PmSpec SeqPm.
Unset Strict Implicit.

Lemma phases_app a b : phases (a ++ b) = phases a ++ phases b.
Proof. apply flat_map_app. Qed.
Lemma last_cons (l : list Z) c a : last (c :: l) a = last l c.
Proof. revert c a. induction l as [|d l IH]; intros c a; [reflexivity|]. change (last (c :: d :: l) a) with (last (d :: l) a). now rewrite !IH. Qed.
Lemma path_app a l b : path a l -> edge (last l a) b = true -> path a (l ++ [b]).
Proof.
  revert a. induction l as [|c l IH]; intros a; cbn [app path]; [auto|]. rewrite last_cons. intros [H1 H2] H3. split; [exact H1|]. now apply IH.
Qed.
Lemma last_snoc A (l : list A) x d : last (l ++ [x]) d = x.
Proof. apply last_last. Qed.

(** What a turn reports. *)
Lemma probes_phases n q on out q' : probes n q on out q' -> phases out = [] /\ phase q' = phase q.
Proof. destruct 1; split; reflexivity. Qed.
Lemma turn_phases q i out q' : turn q i out q' -> bounds q ->
  (phases out = [] /\ phase q' = phase q) \/ (phases out = [phase q'] /\ edge (phase q) (phase q') = true).
Proof.
  intros H B. destruct i as [on|on|on id| | | |]; cbn [turn] in H; try contradiction.
  - destruct (Z.eqb_spec (phase q) HE_PMTUD_STATE_DISABLED) as [P|P]; destruct on; cbn [andb] in H; try (destruct H as [-> ->]; left; split; reflexivity).
    destruct H as (rest & -> & H). apply probes_phases in H. destruct H as [H1 H2]. right. rewrite phases_app, H1, H2, P. split; reflexivity.
  - destruct (tries q <? 3); [left; now apply probes_phases in H|]. cbv zeta in H. change (phase (unawaited q)) with (phase q) in *. change (size (unawaited q)) with (size q) in *. change (big (unawaited q)) with (big q) in *.
    destruct (Z.eqb_spec (phase q) HE_PMTUD_STATE_BASE) as [P|P].
    { destruct (size q =? 1250); [left; now apply probes_phases in H|]. destruct H as [-> ->]. right. rewrite P. split; reflexivity. }
    destruct (Z.eqb_spec (phase q) HE_PMTUD_STATE_SEARCHING) as [P1|P1].
    { destruct (big q); [left; now apply probes_phases in H|]. destruct H as (_ & -> & ->). right. rewrite P1. split; reflexivity. }
    destruct (Z.eqb_spec (phase q) HE_PMTUD_STATE_SEARCH_COMPLETE) as [P2|P2].
    { destruct H as (rest & -> & H). apply probes_phases in H. destruct H as [H1 H2]. right. rewrite phases_app, H1, H2, P2. split; reflexivity. }
    destruct (phase q =? HE_PMTUD_STATE_ERROR); destruct H as [-> ->]; left; split; reflexivity.
  - destruct (id =? awaits q); [|destruct H as [-> ->]; left; split; reflexivity]. cbv zeta in H. change (phase (unawaited q)) with (phase q) in *. change (size (unawaited q)) with (size q) in *. change (big (unawaited q)) with (big q) in *.
    destruct (Z.eqb_spec (phase q) HE_PMTUD_STATE_BASE) as [P|P]; cbn [orb] in H.
    { destruct H as (rest & -> & H). apply probes_phases in H. destruct H as [H1 H2]. right. rewrite phases_app, H1, H2, P. split; reflexivity. }
    destruct (Z.eqb_spec (phase q) HE_PMTUD_STATE_ERROR) as [P0|P0].
    { destruct H as (rest & -> & H). apply probes_phases in H. destruct H as [H1 H2]. right. rewrite phases_app, H1, H2, P0. split; reflexivity. }
    destruct (Z.eqb_spec (phase q) HE_PMTUD_STATE_SEARCHING) as [P1|P1].
    { destruct (1416 <=? size q); [destruct H as [-> ->]; right; rewrite P1; split; reflexivity|]. destruct H as (rest & -> & H). apply probes_phases in H. destruct H as [H1 H2]. left. rewrite phases_app, H1, H2. split; reflexivity. }
    destruct (Z.eqb_spec (phase q) HE_PMTUD_STATE_SEARCH_COMPLETE) as [P2|P2]; [destruct H as [-> ->]; left; split; reflexivity|].
    destruct H as [[-> | ->] ->]; left; split; reflexivity.
Qed.
Lemma turn_input q i out q' : turn q i out q' -> phases [i] = [].
Proof. destruct i; try reflexivity. contradiction. Qed.
Lemma follows_phases l q : follows l q -> path HE_PMTUD_STATE_DISABLED (phases l) /\ current l = phase q.
Proof.
  induction 1 as [|l q i out q' F [IH1 IH2] Tn]; [split; [exact I|reflexivity]|]. unfold current in *. change (i :: out) with ([i] ++ out). rewrite !phases_app, (turn_input Tn). cbn [app].
  destruct (turn_phases Tn (follows_bounds F)) as [[-> ->]|[-> Ed]]; [rewrite app_nil_r; auto|]. split; [apply path_app; [exact IH1|now rewrite IH2]|apply last_snoc].
Qed.

(** ** While ONLINE *)
Definition on_inv (q : search) : Prop :=
  (phase q = HE_PMTUD_STATE_DISABLED /\ tries q = 0 /\ size q = 0 /\ awaits q = 0) \/
  (phase q = HE_PMTUD_STATE_BASE /\ 1 <= tries q <= 3 /\ (base q = 1250 /\ (size q = 1250 \/ size q = 512) \/ base q = 512 /\ size q = 512)) \/
  (phase q = HE_PMTUD_STATE_ERROR /\ 0 <= tries q <= 3 /\ (base q = 1250 \/ base q = 512) /\ size q = 512) \/
  (phase q = HE_PMTUD_STATE_SEARCHING /\ 1 <= tries q <= 3 /\ (base q = 1250 \/ base q = 512) /\ base q + 8 <= size q <= 1416 /\ (big q = true -> base q + 32 <= size q)) \/
  (phase q = HE_PMTUD_STATE_SEARCH_COMPLETE /\ 0 <= tries q <= 3 /\ (base q = 1250 \/ base q = 512) /\ base q <= size q <= 1416).
Lemma probes_on n q out q' : 512 <= n <= 1416 -> probes n q true out q' ->
  exists id (ok : bool), out = [Probe id n; Sent ok; Timer (if ok then 5000 else 10)] /\
    q' = Search (phase q) (base q) n (tries q + 1) (big q) (if ok then id else awaits q) (result q).
Proof. intros Hn H. inversion H as [on Y|id ok Y]; subst; [destruct Y as [Y|Y]; [discriminate Y|lia]|]. now exists id, ok. Qed.

Definition pout id (ok : bool) n := [Probe id n; Sent ok; Timer (if ok then 5000 else 10)].
Definition probed id (ok : bool) n q := Search (phase q) (base q) n (tries q + 1) (big q) (if ok then id else awaits q) (result q).
Definition completed n r q := Search HE_PMTUD_STATE_SEARCH_COMPLETE (base q) n 0 (big q) 0 r.
Definition is_input i := match i with Start _ | Fire _ | Pong _ _ => true | _ => false end.
Inductive move (q : search) : item -> list item -> search -> Prop :=
| m_start id ok : phase q = HE_PMTUD_STATE_DISABLED ->
    move q (Start true) (Phase HE_PMTUD_STATE_BASE :: pout id ok 1250) (probed id ok 1250 (fresh (with_base 1250 (with_phase HE_PMTUD_STATE_BASE q))))
| m_idle i : is_input i = true -> (forall id, i = Pong true id -> id <> awaits q) -> (forall on, i = Fire on -> phase q = HE_PMTUD_STATE_DISABLED) -> move q i [] q
| m_again id ok : tries q < 3 -> phase q <> HE_PMTUD_STATE_DISABLED -> move q (Fire true) (pout id ok (size q)) (probed id ok (size q) q)
| m_512 id ok : tries q = 3 -> phase q = HE_PMTUD_STATE_BASE -> size q = 1250 -> move q (Fire true) (pout id ok 512) (probed id ok 512 (unawaited q))
| m_error : tries q = 3 -> phase q = HE_PMTUD_STATE_BASE -> size q <> 1250 ->
    move q (Fire true) [Phase HE_PMTUD_STATE_ERROR; Timer 60000] (with_phase HE_PMTUD_STATE_ERROR (unawaited q))
| m_small id ok : tries q = 3 -> phase q = HE_PMTUD_STATE_SEARCHING -> big q = true ->
    move q (Fire true) (pout id ok (size q - 24)) (probed id ok (size q - 24) (with_big false (unawaited q)))
| m_done : tries q = 3 -> phase q = HE_PMTUD_STATE_SEARCHING -> big q = false ->
    move q (Fire true) [Phase HE_PMTUD_STATE_SEARCH_COMPLETE; Timer 600000] (completed (size q - 8) (size q - 8) q)
| m_hole id ok : tries q = 3 -> phase q = HE_PMTUD_STATE_SEARCH_COMPLETE ->
    move q (Fire true) (Phase HE_PMTUD_STATE_BASE :: pout id ok 512) (probed id ok 512 (with_base 512 (with_phase HE_PMTUD_STATE_BASE (unawaited q))))
| m_wait : tries q = 3 -> phase q = HE_PMTUD_STATE_ERROR -> move q (Fire true) [Timer 60000] (unawaited q)
| m_confirm id ok : phase q = HE_PMTUD_STATE_BASE \/ phase q = HE_PMTUD_STATE_ERROR -> awaits q <> 0 ->
    move q (Pong true (awaits q)) (Timer 0 :: Phase HE_PMTUD_STATE_SEARCHING :: pout id ok (base q + 32))
      (probed id ok (base q + 32) (with_big true (with_phase HE_PMTUD_STATE_SEARCHING (unawaited q))))
| m_max : phase q = HE_PMTUD_STATE_SEARCHING -> size q = 1416 -> awaits q <> 0 ->
    move q (Pong true (awaits q)) [Timer 0; Phase HE_PMTUD_STATE_SEARCH_COMPLETE; Timer 600000] (completed 1416 1416 q)
| m_up id ok : phase q = HE_PMTUD_STATE_SEARCHING -> size q < 1416 -> awaits q <> 0 ->
    let n := Z.min (size q + if big q then 32 else 8) 1416 in
    move q (Pong true (awaits q)) (Timer 0 :: pout id ok n) (probed id ok n (unawaited q))
| m_still : phase q = HE_PMTUD_STATE_SEARCH_COMPLETE -> awaits q <> 0 ->
    move q (Pong true (awaits q)) [Timer 0; Timer 600000] (unawaited q).

Ltac ph := unfold HE_PMTUD_STATE_DISABLED, HE_PMTUD_STATE_BASE, HE_PMTUD_STATE_SEARCHING, HE_PMTUD_STATE_SEARCH_COMPLETE, HE_PMTUD_STATE_ERROR in *.
Lemma turn_move q i out q' : turn q i out q' -> steady i -> on_inv q -> move q i out q'.
Proof.
  intros H St B. destruct i as [on|on|on id| | | |]; cbn [turn] in H; try contradiction; cbn [steady] in St.
  - subst on. rewrite andb_true_r in H. destruct (Z.eqb_spec (phase q) HE_PMTUD_STATE_DISABLED) as [P|P].
    + destruct H as (rest & -> & H). apply probes_on in H; [|lia]. destruct H as (id & ok & -> & ->). now apply m_start.
    + destruct H as [-> ->]. apply m_idle; [reflexivity|discriminate|discriminate].
  - subst on. destruct (Z.ltb_spec (tries q) 3) as [L|L].
    { destruct (Z.eq_dec (phase q) HE_PMTUD_STATE_DISABLED) as [P|P].
      - assert (size q = 0) as Z0 by (unfold on_inv in B; ph; lia). inversion H; subst; [|lia]. now apply m_idle.
      - apply probes_on in H; [|unfold on_inv in B; ph; lia]. destruct H as (id & ok & -> & ->). now apply m_again. }
    assert (tries q = 3) as T3 by (unfold on_inv in B; ph; lia).
    cbv zeta in H. change (phase (unawaited q)) with (phase q) in *. change (size (unawaited q)) with (size q) in *. change (big (unawaited q)) with (big q) in *. change (base (unawaited q)) with (base q) in *.
    destruct (Z.eqb_spec (phase q) HE_PMTUD_STATE_BASE) as [P|P].
    { destruct (Z.eqb_spec (size q) 1250) as [Sz|Sz].
      - apply probes_on in H; [|lia]. destruct H as (id & ok & -> & ->). now apply m_512.
      - destruct H as [-> ->]. now apply m_error. }
    destruct (Z.eqb_spec (phase q) HE_PMTUD_STATE_SEARCHING) as [P1|P1].
    { destruct (big q) eqn:Bg.
      - apply probes_on in H; [|unfold on_inv in B; rewrite Bg in B; ph; lia]. destruct H as (id & ok & -> & ->). now apply m_small.
      - destruct H as (_ & -> & ->). now apply m_done. }
    destruct (Z.eqb_spec (phase q) HE_PMTUD_STATE_SEARCH_COMPLETE) as [P2|P2].
    { destruct H as (rest & -> & H). apply probes_on in H; [|lia]. destruct H as (id & ok & -> & ->). now apply m_hole. }
    destruct (Z.eqb_spec (phase q) HE_PMTUD_STATE_ERROR) as [P3|P3].
    { destruct H as [-> ->]. now apply m_wait. }
    exfalso. unfold on_inv in B. ph. lia.
  - destruct St as [-> Nz]. destruct (Z.eqb_spec id (awaits q)) as [->|Ne].
    2:{ destruct H as [-> ->]. apply m_idle; [reflexivity|congruence|discriminate]. }
    cbv zeta in H. change (phase (unawaited q)) with (phase q) in *. change (size (unawaited q)) with (size q) in *. change (big (unawaited q)) with (big q) in *. change (base (unawaited q)) with (base q) in *.
    destruct ((phase q =? HE_PMTUD_STATE_BASE) || (phase q =? HE_PMTUD_STATE_ERROR)) eqn:E1.
    { apply orb_true_iff in E1. rewrite !Z.eqb_eq in E1. destruct H as (rest & -> & H). apply probes_on in H; [|unfold on_inv in B; ph; lia]. destruct H as (id & ok & -> & ->). now apply m_confirm. }
    destruct (Z.eqb_spec (phase q) HE_PMTUD_STATE_SEARCHING) as [P1|P1].
    { destruct (Z.leb_spec 1416 (size q)).
      - assert (size q = 1416) as Sz by (unfold on_inv in B; ph; lia). destruct H as [-> ->]. cbn [size tries big awaits base]. rewrite Sz. now apply m_max.
      - destruct H as (rest & -> & H). apply probes_on in H; [|unfold on_inv in B; ph; destruct (big q); lia]. destruct H as (id & ok & -> & ->). now apply m_up. }
    destruct (Z.eqb_spec (phase q) HE_PMTUD_STATE_SEARCH_COMPLETE) as [P2|P2].
    { destruct H as [-> ->]. now apply m_still. }
    exfalso. apply orb_false_iff in E1. rewrite !Z.eqb_neq in E1. unfold on_inv in B. ph. lia.
Qed.
Lemma move_inv q i out q' : move q i out q' -> on_inv q -> on_inv q'.
Proof.
  intros M B. destruct M; unfold on_inv in *; cbn [phase base size tries big awaits result probed completed fresh with_base with_phase with_big unawaited found] in *; try exact B; try subst n; ph; try (destruct (big q)); lia.
Qed.
Lemma follows_on l q : follows l q -> Forall steady l -> on_inv q.
Proof.
  induction 1 as [|l q i out q' F IH Tn]; intros St; [left; cbn; auto|]. apply Forall_app in St as [S1 S2]. specialize (IH S1). inversion S2; subst. eapply move_inv; [eapply turn_move; eauto|exact IH].
Qed.
(** Induction over the moves. *)
Lemma moves_ind (P : list item -> search -> Prop) : P [] new_search ->
  (forall l q i out q', P l q -> on_inv q -> move q i out q' -> P (l ++ i :: out) q') ->
  forall l q, follows l q -> Forall steady l -> P l q.
Proof.
  intros H0 H1. induction 1 as [|l q i out q' F IH Tn]; intros St; [exact H0|]. apply Forall_app in St as [S1 S2]. specialize (IH S1). inversion S2; subst.
  pose proof (follows_on F S1) as B. eapply H1; eauto. now apply turn_move.
Qed.

(** *** Three probes of a size in a row *)
Lemma patient_app a l1 l2 : patient a (l1 ++ l2) <-> patient a l1 /\ patient (fold_left in_a_row l1 a) l2.
Proof. revert a. induction l1 as [|i l1 IH]; intros a; cbn [app patient fold_left]; [tauto|]. rewrite IH. tauto. Qed.
Lemma row_pout id ok n b : fold_left in_a_row (pout id ok n) b = in_a_row b (Probe id n).
Proof. destruct ok; reflexivity. Qed.
Lemma patient_pout id ok n b : snd (in_a_row b (Probe id n)) <= 3 -> patient b (pout id ok n).
Proof. intros H. destruct ok; cbn [pout patient]; repeat split; exact H. Qed.
Lemma row_new id n : n <> 0 -> in_a_row (0, 0) (Probe id n) = (n, 1).
Proof. intros H. cbn. destruct (Z.eqb_spec n 0); congruence. Qed.
Lemma row_input a i : is_input i = true -> in_a_row a i = a.
Proof. now destruct i. Qed.
Lemma follows_patient l q : follows l q -> Forall steady l ->
  patient (0, 0) l /\ (let a := fold_left in_a_row l (0, 0) in a = (0, 0) \/ fst a = size q /\ snd a <= tries q).
Proof.
  revert l q. apply moves_ind; [split; [exact I|now left]|]. intros l q i out q' [IH1 IH2] B M. cbv zeta in *. rewrite patient_app, fold_left_app. set (a := fold_left in_a_row l (0, 0)) in *. clearbody a.
  assert (snd a <= 3) as A3. { destruct IH2 as [->|[_ IH2]]; [cbn; lia|unfold on_inv in B; lia]. }
  assert (forall id, size q <> 0 -> fst (in_a_row a (Probe id (size q))) = size q /\ snd (in_a_row a (Probe id (size q))) <= tries q + 1) as Same.
  { intros id Nz. destruct a as [x y]. cbn [in_a_row fst snd] in *. destruct (Z.eqb_spec (size q) x) as [E|Ne]; cbn [fst snd]; [|unfold on_inv in B; lia]. split; [reflexivity|]. destruct IH2 as [[= -> ->]|[_ Y]]; [congruence|lia]. }
  assert (forall id n, n <> size q -> n <> 0 -> in_a_row a (Probe id n) = (n, 1)) as Other.
  { intros id n Ne Nz. destruct a as [x y]. cbn [in_a_row fst snd] in *. destruct (Z.eqb_spec n x) as [->|]; [|reflexivity]. destruct IH2 as [[= -> ->]|[-> Y]]; congruence. }
  destruct M as [id ok P|i In Hi Hf|id ok L P|id ok T3 P Sz|T3 P Sz|id ok T3 P Bg|T3 P Bg|id ok T3 P|T3 P|id ok P Aw|P Sz Aw|id ok P Sz Aw n|P Aw];
    cbn [fold_left patient size tries probed completed fresh with_base with_phase with_big unawaited].
  - cbn [in_a_row]. rewrite row_pout, row_new by lia. cbn [fst snd]. split; [|right; lia]. split; [exact IH1|]. split; [exact A3|]. split; [cbn; lia|]. apply patient_pout. rewrite row_new by lia. cbn; lia.
  - rewrite (row_input _ In). auto.
  - cbn [in_a_row]. rewrite row_pout. destruct (Same id) as [Q1 Q2]; [unfold on_inv in B; ph; lia|]. split; [|right; auto]. split; [exact IH1|]. split; [exact A3|]. apply patient_pout. lia.
  - cbn [in_a_row]. rewrite row_pout, Other by lia. split; [|right; cbn; lia]. split; [exact IH1|]. split; [exact A3|]. apply patient_pout. rewrite Other by lia. cbn; lia.
  - split; [|left; reflexivity]. repeat split; try exact IH1; try exact A3; cbn; lia.
  - cbn [in_a_row]. assert (size q - 24 <> 0) by (unfold on_inv in B; ph; lia). rewrite row_pout, Other by lia. split; [|right; cbn; lia]. split; [exact IH1|]. split; [exact A3|]. apply patient_pout. rewrite Other by lia. cbn; lia.
  - split; [|left; reflexivity]. repeat split; try exact IH1; try exact A3; cbn; lia.
  - cbn [in_a_row]. rewrite row_pout, row_new by lia. cbn [fst snd]. split; [|right; lia]. split; [exact IH1|]. split; [exact A3|]. split; [cbn; lia|]. apply patient_pout. rewrite row_new by lia. cbn; lia.
  - split; [|left; reflexivity]. repeat split; try exact IH1; try exact A3; cbn; lia.
  - cbn [in_a_row]. assert (base q + 32 <> 0) by (unfold on_inv in B; ph; lia). change ((0 =? 10) || (0 =? 5000)) with false. cbv iota. rewrite row_pout, row_new by lia. cbn [fst snd]. split; [|right; lia]. split; [exact IH1|]. split; [exact A3|]. split; [lia|]. split; [lia|]. apply patient_pout. rewrite row_new by lia. cbn; lia.
  - split; [|left; reflexivity]. repeat split; try exact IH1; try exact A3; cbn; lia.
  - assert (n <> 0) by (subst n; unfold on_inv in B; ph; destruct (big q); lia). cbn [in_a_row]. change ((0 =? 10) || (0 =? 5000)) with false. cbv iota. rewrite row_pout, row_new by lia. cbn [fst snd]. split; [|right; lia]. split; [exact IH1|]. split; [exact A3|]. split; [lia|]. apply patient_pout. rewrite row_new by lia. cbn; lia.
  - split; [|left; reflexivity]. repeat split; try exact IH1; try exact A3; cbn; lia.
Qed.

(** *** A search ends *)
Definition timer_count n i := match i with Phase _ => 0 | Fire _ => n + 1 | _ => n end.
Definition worth q := 2 * ((1416 - size q + 7) / 8) + (3 - tries q) + (if big q then 9 else 0).
Lemma follows_ends l q : follows l q -> Forall steady l ->
  (phase q = HE_PMTUD_STATE_BASE -> fired l + (if size q =? 1250 then 3 else 0) + (3 - tries q) <= 5) /\
  (phase q = HE_PMTUD_STATE_SEARCHING -> fired l + worth q <= 229).
Proof.
  revert l q. apply moves_ind; [split; discriminate|]. intros l q i out q' [IH1 IH2] B M. unfold fired in *. rewrite fold_left_app. set (f := fold_left _ l 0) in *. clearbody f.
  destruct M as [id ok P|i In Hi Hf|id ok L P|id ok T3 P Sz|T3 P Sz|id ok T3 P Bg|T3 P Bg|id ok T3 P|T3 P|id ok P Aw|P Sz Aw|id ok P Sz Aw n|P Aw];
    unfold worth in *;
    cbn [fold_left pout phase base size tries big awaits probed completed fresh with_base with_phase with_big unawaited] in *.
  - split; [|discriminate]. cbn. lia.
  - destruct i as [| |on id| | | |]; try discriminate In; auto. specialize (Hf _ eq_refl). rewrite Hf. split; discriminate.
  - split; intros Q; [specialize (IH1 Q)|specialize (IH2 Q)]; lia.
  - rewrite P in *. split; [intros _|discriminate]. specialize (IH1 eq_refl). rewrite Sz in IH1. change (1250 =? 1250) with true in IH1. change (512 =? 1250) with false. cbv iota in *. lia.
  - split; discriminate.
  - rewrite P in *. split; [discriminate|intros _]. specialize (IH2 eq_refl). rewrite Bg in IH2. rewrite T3 in IH2. replace (1416 - (size q - 24) + 7) with (1416 - size q + 7 + 3 * 8) by lia. rewrite Z.div_add by lia. lia.
  - split; discriminate.
  - split; [|discriminate]. cbn. lia.
  - rewrite P in *. split; discriminate.
  - split; [discriminate|intros _]. assert (512 <= base q) as B0 by (unfold on_inv in B; ph; lia).
    assert ((1416 - (base q + 32) + 7) / 8 <= 109) by (apply Z.lt_succ_r, Z.div_lt_upper_bound; lia). lia.
  - split; discriminate.
  - rewrite P in *. split; [discriminate|intros _]. specialize (IH2 eq_refl).
    assert ((1416 - n + 7) / 8 + 1 <= (1416 - size q + 7) / 8).
    { subst n. apply Z.div_le_lower_bound; [lia|]. set (m := Z.min _ 1416). pose proof (Z.mul_div_le (1416 - m + 7) 8). destruct (Z.eq_dec m 1416) as [E|Ne]; [rewrite E; change ((1416 - 1416 + 7) / 8) with 0; lia|]. subst m. destruct (big q); lia. }
    unfold on_inv in B. ph. lia.
  - rewrite P in *. split; discriminate.
Qed.

(** *** What the result rests on *)
(** [n] was acknowledged in [l]. *)
Definition acked (l : list item) (n : Z) : Prop :=
  exists l1 l2 l3 id on, l = l1 ++ Probe id n :: l2 ++ Pong on id :: l3.
Lemma acked_app l l' n : acked l n -> acked (l ++ l') n.
Proof. intros (l1 & l2 & l3 & id & on & ->). exists l1, l2, (l3 ++ l'), id, on. rewrite <- app_assoc. cbn. rewrite <- app_assoc. reflexivity. Qed.
Lemma acked_now l id n on l' : In (Probe id n) l -> acked (l ++ Pong on id :: l') n.
Proof. intros H. apply in_split in H as (l1 & l2 & ->). exists l1, l2, l', id, on. rewrite <- app_assoc. reflexivity. Qed.
Definition rests l (r : Z) : Prop := exists n, acked l n /\ (r <= n \/ r = 1250 /\ n = 512).
Lemma rests_app l l' r : rests l r -> rests (l ++ l') r.
Proof. intros (n & A & B). exists n. split; [now apply acked_app|exact B]. Qed.
Lemma rests_le l n r : acked l n -> r <= n -> rests l r.
Proof. exists n. auto. Qed.

Definition justified l q : Prop :=
  (awaits q <> 0 -> In (Probe (awaits q) (size q)) l) /\
  (phase q = HE_PMTUD_STATE_SEARCHING -> rests l (size q - if big q then 32 else 8)) /\
  (phase q = HE_PMTUD_STATE_SEARCH_COMPLETE -> rests l (result q)).
Lemma follows_justified l q : follows l q -> Forall steady l -> justified l q.
Proof.
  revert l q. apply moves_ind; [split; [cbn; congruence|split; discriminate]|]. intros l q i out q' (IH1 & IH2 & IH3) B M.
  assert (forall id (ok : bool) n x pre, (x <> 0 -> In (Probe x n) l) -> (if ok then id else x) <> 0 -> In (Probe (if ok then id else x) n) (l ++ i :: pre ++ pout id ok n)) as Pr.
  { intros id ok n x pre Hx Nz. apply in_or_app. destruct ok; [right; right; apply in_or_app; right; now left|left; auto]. }
  destruct M as [id ok P|i In Hi Hf|id ok L P|id ok T3 P Sz|T3 P Sz|id ok T3 P Bg|T3 P Bg|id ok T3 P|T3 P|id ok P Aw|P Sz Aw|id ok P Sz Aw n|P Aw];
    unfold justified in *;
    cbn [phase base size tries big awaits result probed completed fresh with_base with_phase with_big unawaited] in *.
  - split; [|split; discriminate]. apply (Pr id ok 1250 (awaits q) [Phase HE_PMTUD_STATE_BASE]). unfold on_inv in B. ph. lia.
  - split; [intros; apply in_or_app; auto|]. split; intros; apply rests_app; auto.
  - split; [apply (Pr id ok (size q) (awaits q) []); exact IH1|]. split; intros; apply rests_app; auto.
  - split; [apply (Pr id ok 512 0 []); congruence|]. rewrite P. split; discriminate.
  - split; [congruence|]. split; discriminate.
  - split; [apply (Pr id ok (size q - 24) 0 []); congruence|]. rewrite P. split; [|discriminate]. intros _. rewrite Bg in IH2. apply rests_app. replace (size q - 24 - 8) with (size q - 32) by lia. auto.
  - split; [congruence|]. split; [discriminate|]. intros _. rewrite Bg in IH2. apply rests_app. auto.
  - split; [|split; discriminate]. apply (Pr id ok 512 0 [Phase HE_PMTUD_STATE_BASE]); congruence.
  - split; [congruence|]. rewrite P. split; discriminate.
  - split; [apply (Pr id ok (base q + 32) 0 [Timer 0; Phase HE_PMTUD_STATE_SEARCHING]); congruence|]. split; [|discriminate]. intros _. replace (base q + 32 - 32) with (base q) by lia. exists (size q).
    split; [apply acked_now; auto|]. unfold on_inv in B. ph. lia.
  - split; [congruence|]. split; [discriminate|]. intros _. rewrite <- Sz. eapply rests_le; [apply acked_now; auto|lia].
  - split; [apply (Pr id ok n 0 [Timer 0]); congruence|]. rewrite P. split; [|discriminate]. intros _. eapply rests_le; [apply acked_now; auto|]. subst n. destruct (big q); lia.
  - split; [congruence|]. rewrite P. split; [discriminate|]. intros _. apply rests_app. auto.
Qed.

(** *** From the items to the log *)
Lemma acked_snoc l i n : acked (l ++ [i]) n -> acked l n \/ exists id on, i = Pong on id /\ In (Probe id n) l.
Proof.
  intros (l1 & l2 & l3 & id & on & H). destruct (@exists_last _ (Pong on id :: l3)) as (x & y & Hx); [discriminate|].
  assert (l ++ [i] = (l1 ++ Probe id n :: l2 ++ x) ++ [y]) as H1. { rewrite H, Hx, <- app_assoc. cbn [app]. now rewrite <- app_assoc. }
  apply app_inj_tail in H1 as [-> ->]. destruct x as [|p x]; cbn [app] in Hx.
  - injection Hx as <- ->. right. exists id, on. split; [reflexivity|]. apply in_or_app. right. now left.
  - injection Hx as <- ->. left. exists l1, l2, x, id, on. reflexivity.
Qed.
Lemma item_cases s e t : item_of s e t = [] \/ exists i, item_of s e t = [i].
Proof. destruct e; cbn [item_of]; repeat match goal with |- context[match ?x with _ => _ end] => destruct x end; eauto. Qed.
Lemma probe_items t id n : In (Probe id n) (items t) -> In (id, n) (collect probe t).
Proof.
  induction t as [|[s e] t IH]; [contradiction|]. cbn [items]. cbn [collect]. intros H. apply in_or_app. apply in_app_or in H as [H|H]; [left; auto|right].
  destruct e; cbn [item_of probe] in *; repeat match goal with H : context[match ?x with _ => _ end] |- _ => destruct x eqn:? end; cbn in H; try contradiction; destruct H as [H|H]; try contradiction; try discriminate H.
  injection H as <- <-. now left.
Qed.
Lemma acked_items t n : acked (items t) n -> In n (acknowledged t).
Proof.
  induction t as [|[s e] t IH]; [intros (l1 & ? & ? & ? & ? & H); destruct l1; discriminate H|]. cbn [items acknowledged]. intros H. apply in_or_app.
  destruct (item_cases s e t) as [Q|[i Q]]; rewrite Q in H; [rewrite app_nil_r in H; auto|]. apply acked_snoc in H as [H|(id & on & -> & H)]; [auto|left].
  apply probe_items in H. destruct e; cbn [item_of] in Q; repeat match goal with H : context[match ?x with _ => _ end] |- _ => destruct x eqn:? end; try discriminate Q. injection Q as _ <-.
  apply andb_true_iff in Heqb as [Hb _]. apply andb_true_iff in Hb as [Hb _]. apply andb_true_iff in Hb as [Hr Ht]. cbn [got_msg]. rewrite Hr. cbn [flat_map snd]. rewrite Ht, app_nil_r.
  apply in_map_iff. exists (field16 data 1, n). split; [reflexivity|]. apply filter_In. split; [exact H|]. apply Z.eqb_refl.
Qed.
