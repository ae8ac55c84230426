(** More invariants of histories. *)
From Verif Require Import Base Codes Ctx ConnState Conn ConnSpec HistSpec ConnSteps Hist ConnWpApi.
Unset Strict Implicit.

(** ** Negotiation since the last connect call *)
Definition up (s : Z) : Prop := s = HE_STATE_LINK_UP \/ s = HE_STATE_AUTHENTICATING.
Definition neg_inv (w : world) : Prop :=
  seq w (up (c_state (w_c w)) -> has connected_ok (upto connect_call (w_t w)) = true ->
         has negotiated (upto connect_call (w_t w)) = true).
Lemma re_none t x : re t = false -> In x t -> is_nest (snd x) = false.
Proof.
  unfold re, has. intros H I. destruct (is_nest (snd x)) eqn:F; [|reflexivity].
  assert (existsb (fun x => is_nest (snd x)) t = true) by (apply existsb_exists; eauto). congruence.
Qed.
Lemma upto_in f t x : In x (upto f t) -> In x t.
Proof. induction t as [|[s e] t IH]; cbn; [auto|]. destruct (f e); [intros []|]. intros [H|H]; auto. Qed.
Lemma call_connect t : re t = false -> exists l, upto connect_call t = upto is_call t ++ l.
Proof.
  intros Hr. apply upto_prefix. intros x I. pose proof (upto_none I) as C. pose proof (re_none Hr (upto_in I)) as N.
  destruct x as [s e]. cbn in *. destruct e; auto; discriminate.
Qed.
Lemma now_connect f w : re (w_t w) = false -> now f w -> has f (upto connect_call (w_t w)) = true.
Proof. intros Hr N. destruct (call_connect Hr) as [l ->]. rewrite has_app. unfold now in N. now rewrite N. Qed.
Lemma upto_push f s e t : f e = false -> upto f ((s, e) :: t) = (s, e) :: upto f t.
Proof. intros H. cbn. now rewrite H. Qed.

Lemma step_log' w w' : Step w w' -> re (w_t w') = false ->
  w_t w' = w_t w \/ exists s e, w_t w' = (s, e) :: w_t w /\ boundary e = false /\ is_nest e = false.
Proof.
  intros S Hr. destruct (step_log S) as [H|(s & e & H & B)]; [auto|]. right. exists s, e. repeat split; auto.
  rewrite H in Hr. unfold re, has in Hr. cbn in Hr. now apply orb_false_iff in Hr.
Qed.
Lemma quiet_connect e : boundary e = false -> is_nest e = false -> connect_call e = false.
Proof. destruct e; auto; discriminate. Qed.

Lemma Reach_neg : forall w, Reach w -> neg_inv w.
Proof.
  apply Reach_ind'.
  - intros _ [F|F]; discriminate F.
  - intros v w' R IH S Hr U. assert (Steps v w') as S' by now apply Steps_one. pose proof (re_anti S' Hr) as Hr'.
    assert (has connected_ok (upto connect_call (w_t v)) = true -> has negotiated (upto connect_call (w_t v)) = true) as B.
    { destruct (step_state S) as [E|(s & St & E)]; [apply IH; auto; congruence|].
      rewrite E in U. destruct St as (_ & _ & _ & Hs).
      destruct Hs as [[F _]|[(_ & N & _)|[(F & _ & _ & L)|[[F _]|[[F _]|[[F _]|[F _]]]]]]];
        try (rewrite F in U; destruct U as [U|U]; discriminate U).
      - intros _. now apply now_connect.
      - intros C. apply IH; auto. left. now apply L. }
    destruct (step_log' S Hr) as [E|(s & e & E & Bd & Nn)]; rewrite E; [exact B|].
    rewrite upto_push by now apply quiet_connect. intros C. apply has_cons. apply B. unfold has in C. cbn in C.
    rewrite (boundary_connected Bd) in C. exact C.
  - intros v o R I _ Hr U. cbn [w_c w_t] in *. apply re_cons in Hr. cbn [upto].
    destruct (connect_call (ECall o)); [discriminate|]. intros C. apply has_cons. now apply I.
  - intros v o rc R I H Hr U. cbn [w_c w_t] in *. apply re_cons in Hr. destruct (H Hr) as (_ & _ & _ & _ & G & _).
    rewrite upto_push by reflexivity. intros C. apply has_cons. unfold has in C. cbn [existsb snd] in C.
    destruct (connected_ok (ERet o rc)) eqn:Q; [|now apply I].
    cbn in Q. apply andb_true_iff in Q. destruct Q as [Q1 Q2]. apply Z.eqb_eq in Q2. destruct (G Q1 Q2) as [F|[_ N]].
    + rewrite F in U. destruct U as [U|U]; discriminate U.
    + now apply now_connect.
Qed.

(** ** Where the callbacks come from *)
Definition cbs_inv (w : world) : Prop :=
  (c_cbs (w_c w) = cbs_none /\ has is_state_ev (w_t w) = false /\
   (c_state (w_c w) = HE_STATE_NONE \/ c_state (w_c w) = HE_STATE_DISCONNECTED)) \/ cbs_from w.
Lemma cbs_from_push w e : cbs_from w -> cbs_from (World (w_c w) ((c_state (w_c w), e) :: w_t w)).
Proof. intros (x & (s & i & p & B) & D). exists x. split; [|exact D]. exists s, i, p. cbn [w_t In]. tauto. Qed.
Lemma emit_no_state w e : emit_ok w e -> is_state_ev e = false.
Proof. destruct e; auto. intros [_ []]. Qed.
Lemma has_push_false f x t : f (snd x) = false -> has f t = false -> has f (x :: t) = false.
Proof. unfold has. cbn. intros -> ->. reflexivity. Qed.
Lemma Reach_cbs : forall w, Reach w -> cbs_inv w.
Proof.
  apply Reach_ind'.
  - left. cbn. auto.
  - intros v w' R [(C & N & St)|F] S; [|right; exact (cbs_from_step S F)].
    destruct S; unfold cbs_inv; cbn [w_c w_t] in *.
    + left. split; [exact C|]. split; [|exact St]. apply has_push_false; [exact (emit_no_state H)|exact N].
    + left. unfold tracked in H. replace (c_cbs c') with (c_cbs (w_c w)) by congruence.
      replace (c_state c') with (c_state (w_c w)) by congruence. auto.
    + pose proof H as H'. destruct H as (_ & Hr & _ & Hs). destruct (Z.eq_dec s HE_STATE_DISCONNECTED) as [->|Ns].
      * left. rewrite C. cbn [cb_state cbs_none c_cbs set_state c_state]. auto.
      * right. assert (Steps w (World (set_state s (w_c w)) (if cb_state (c_cbs (w_c w)) then (s, EState s) :: w_t w else w_t w))) as S'
          by (apply Steps_one, S_state; auto).
        apply (cbs_from_mono S'). now apply Hr.
    + left. auto.
    + right. exists x. split; [exact H0|]. left. apply configure_cbs.
    + right. assert (Step w (World c' (w_t w))) as S' by (constructor; auto). destruct H0 as [_ F]. exact (cbs_from_step S' F).
    + left. auto.
    + left. cbn [c_cbs set_cbs set_timeout c_state]. rewrite C. auto.
    + left. rewrite C. auto.
    + left. auto.
    + left. auto.
    + right. assert (Step w (World (set_prog true (w_c w))
         (if cb_event (c_cbs (w_c w)) then (c_state (w_c w), EEvent HE_EVENT_SECURE_RENEGOTIATION_STARTED) :: w_t w else w_t w))) as S'
        by (constructor; auto). destruct H2 as [_ F]. exact (cbs_from_step S' F).
    + left. auto.
  - intros v o R [(C & N & St)|F] _; [|right; now apply cbs_from_push]. left. cbn. auto.
  - intros v o rc R [(C & N & St)|F] _; [|right; now apply cbs_from_push]. left. cbn. auto.
Qed.

(** ** The reported state *)
Definition has_state_cb (x : ctx) : bool := cb_state (x_cbs x).
Definition rep_inv (w : world) : Prop :=
  connects has_state_cb (w_t w) = true ->
  reported (w_t w) = c_state (w_c w) \/
  has is_state_ev (w_t w) = false /\ reported (w_t w) = HE_STATE_NONE /\ c_state (w_c w) = HE_STATE_DISCONNECTED.
Lemma reported_push s e t : is_state_ev e = false -> reported ((s, e) :: t) = reported t.
Proof. destruct e; auto; discriminate. Qed.
Lemma reported_none t : has is_state_ev t = false -> reported t = HE_STATE_NONE.
Proof.
  induction t as [|[s e] t IH]; [reflexivity|]. intros H. unfold has in H. cbn in H. apply orb_false_iff in H. destruct H as [A B].
  rewrite reported_push by exact A. now apply IH.
Qed.
Lemma rep_push w e : is_state_ev e = false -> rep_inv w -> rep_inv (World (w_c w) ((c_state (w_c w), e) :: w_t w)).
Proof.
  intros N I K. cbn [w_c w_t] in *. apply connects_cons in K. rewrite reported_push by exact N.
  destruct (I K) as [H|(A & B & C)]; [auto|]. right. split; [now apply has_push_false|auto].
Qed.
Lemma Reach_rep : forall w, Reach w -> rep_inv w.
Proof.
  apply Reach_ind'.
  - intros _. auto.
  - intros v w' R I S. destruct S; try exact I.
    + apply rep_push; [exact (emit_no_state H)|exact I].
    + intros K. cbn [w_c w_t] in *. replace (c_state c') with (c_state (w_c w)) by (unfold tracked in *; congruence). auto.
    + destruct (cb_state (c_cbs (w_c w))) eqn:F; intros K; cbn [w_c w_t c_state set_state] in *.
      * left. reflexivity.
      * destruct (Reach_cbs R) as [(C & N & St)|CF].
        -- right. split; [exact N|]. split; [now apply reported_none|]. destruct H as (_ & Hr & _).
           destruct (Z.eq_dec s HE_STATE_DISCONNECTED) as [E|E]; [exact E|]. exfalso.
           destruct (Hr E) as [[_ CF] _]. rewrite (cbs_from_connects (f:=cb_state) ltac:(reflexivity) CF K) in F. discriminate.
        -- rewrite (cbs_from_connects (f:=cb_state) ltac:(reflexivity) CF K) in F. discriminate.
    + intros K. cbn [w_c w_t] in *. destruct (configure_tracked x i p (w_c w)) as (-> & _). auto.
    + intros K. cbn [w_c w_t] in *. replace (c_state c') with (c_state (w_c w)) by (unfold tracked in *; cbn in *; congruence). auto.
    + destruct (cb_event _); [|exact I]. apply (@rep_push (World (set_first true (w_c w)) (w_t w))); [reflexivity|exact I].
    + destruct (cb_event _); [|exact I]. apply (@rep_push (World (set_prog true (w_c w)) (w_t w))); [reflexivity|exact I].
  - intros v o R I _. now apply rep_push.
  - intros v o rc R I _. now apply rep_push.
Qed.

(** ** FIRST_MESSAGE_RECEIVED *)
Definition first_inv (w : world) : Prop :=
  (count first_message (w_t w) <= 1)%nat /\ (c_first (w_c w) = false -> count first_message (w_t w) = 0%nat).
Lemma count_cons f x t : count f (x :: t) = ((if f (snd x) then 1 else 0) + count f t)%nat.
Proof. unfold count. cbn. destruct (f (snd x)); reflexivity. Qed.
Lemma emit_not_first w e : emit_ok w e -> first_message e = false.
Proof.
  destruct e; auto. intros (_ & _ & _ & H). cbn.
  destruct H as [->|[->|[-> _]]]; reflexivity.
Qed.
Lemma first_push w e : first_message e = false -> first_inv w -> first_inv (World (w_c w) ((c_state (w_c w), e) :: w_t w)).
Proof. intros N [A B]. unfold first_inv. cbn [w_c w_t]. rewrite count_cons. cbn [snd]. rewrite N. auto. Qed.
Lemma Reach_first : forall w, Reach w -> first_inv w.
Proof.
  apply Reach_ind'.
  - split; cbn; auto.
  - intros v w' R I S. destruct S; try exact I.
    + apply first_push; [exact (emit_not_first H)|exact I].
    + unfold first_inv in *. cbn [w_c w_t] in *. replace (c_first c') with (c_first (w_c w)) by (unfold tracked in *; congruence). auto.
    + destruct (cb_state _); [|exact I]. destruct I as [A B]. unfold first_inv. cbn [w_c w_t]. rewrite count_cons. auto.
    + unfold first_inv in *. cbn [w_c w_t] in *. destruct (configure_tracked x i p (w_c w)) as (_ & _ & _ & -> & _). auto.
    + unfold first_inv in *. cbn [w_c w_t] in *. replace (c_first c') with (c_first (w_c w)) by (unfold tracked in *; cbn in *; congruence). auto.
    + unfold first_inv in *. cbn [w_c w_t] in *. destruct I as [A B]. specialize (B H0).
      split; [|discriminate]. destruct (cb_event _); [rewrite count_cons; cbn|]; lia.
    + unfold first_inv in *. cbn [w_c w_t] in *. destruct (cb_event _); [|exact I]. rewrite count_cons. exact I.
  - intros v o R I _. now apply first_push.
  - intros v o rc R I _. now apply first_push.
Qed.

(** ** The nudge timer *)
Definition nudge_inv (w : world) : Prop :=
  seq w (outstanding (w_t w) = true -> c_nudging (w_c w) = true \/ exists s m p, w_t w = (s, ENudge m) :: p).
Lemma nudge_settled w : nudge_inv w -> seq w (mid1 w = false) -> seq w (outstanding (w_t w) = true -> c_nudging (w_c w) = true).
Proof.
  intros I M Hr O. destruct (I Hr O) as [H|(s & m & p & E)]; [exact H|].
  specialize (M Hr). unfold mid1 in M. rewrite E in M. now apply negb_false_iff in M.
Qed.
Lemma outstanding_push s e t : timer_set e = false -> outstanding ((s, e) :: t) = true -> outstanding t = true.
Proof.
  unfold outstanding. cbn. destruct (timer_fired e); [discriminate|]. unfold has. cbn. intros ->. auto.
Qed.
Lemma nudge_push w s e c' : c_nudging c' = c_nudging (w_c w) -> seq w (mid1 w = false) -> nudge_inv w ->
  nudge_inv (World c' ((s, e) :: w_t w)).
Proof.
  intros C M I Hr O. cbn [w_c w_t] in *. apply re_cons in Hr. destruct (timer_set e) eqn:T.
  - destruct e; try discriminate T. right. eauto.
  - left. rewrite C. apply (nudge_settled I M Hr). eapply outstanding_push; eauto.
Qed.
Lemma nudge_keep w c' : c_nudging c' = c_nudging (w_c w) -> nudge_inv w -> nudge_inv (World c' (w_t w)).
Proof. intros C I Hr O. cbn [w_c w_t] in *. rewrite C. now apply I. Qed.
Lemma Reach_nudge : forall w, Reach w -> nudge_inv w.
Proof.
  apply Reach_ind'.
  - intros _ F. discriminate F.
  - intros v w' R I S. destruct S; try (apply nudge_keep; [reflexivity|exact I]).
    + destruct H as [M _]. destruct (is_nest e) eqn:Ne.
      * intros Hr. exfalso. unfold re, has in Hr. cbn in Hr. rewrite Ne in Hr. discriminate.
      * now apply nudge_push; [|apply M|].
    + apply nudge_keep; [unfold tracked in *; congruence|exact I].
    + destruct (cb_state _); [|apply nudge_keep; [reflexivity|exact I]]. apply nudge_push; [reflexivity|apply H|exact I].
    + apply nudge_keep; [apply configure_tracked|exact I].
    + apply nudge_keep; [unfold tracked in *; cbn in *; congruence|exact I].
    + destruct (cb_event _); [|apply nudge_keep; [reflexivity|exact I]]. now apply nudge_push.
    + intros Hr O. cbn [w_t] in *. destruct (H Hr) as (s & p & E). rewrite E in O. discriminate O.
    + intros Hr O. left. reflexivity.
    + destruct (cb_event _); [|apply nudge_keep; [reflexivity|exact I]]. now apply nudge_push.
  - intros v o R I M. now apply nudge_push.
  - intros v o rc R I H. apply nudge_push; [reflexivity| |exact I]. intros Hr. now apply H.
Qed.

(** ** Disconnected connections *)
Definition quiet_inv (w : world) : Prop :=
  seq w (is_disconnected (w_t w) = true ->
         c_state (w_c w) = HE_STATE_DISCONNECTED /\ cb_inside (c_cbs (w_c w)) = false /\ cb_outside (c_cbs (w_c w)) = false /\
         forall o, last_call (w_t w) = Some o -> is_connect_op o = false).
Lemma disc_push s e t : boundary e = false -> is_nest e = false -> is_disconnected ((s, e) :: t) = is_disconnected t.
Proof.
  intros B N. unfold is_disconnected. rewrite upto_push by now apply quiet_connect. unfold has. cbn.
  destruct e; auto; discriminate.
Qed.
Lemma Reach_quiet : forall w, Reach w -> quiet_inv w.
Proof.
  apply Reach_ind'.
  - intros _ F. discriminate F.
  - intros v w' R I S Hr D. assert (Steps v w') as S' by now apply Steps_one. pose proof (re_anti S' Hr) as Hr'.
    assert (is_disconnected (w_t v) = true) as D'.
    { destruct (step_log' S Hr) as [E|(s & e & E & B & N)]; rewrite E in D; [exact D|]. now rewrite disc_push in D. }
    destruct (I Hr' D') as (A1 & A2 & A3 & A4). rewrite (last_call_mono S').
    assert (forall f, calling f v -> exists o, last_call (w_t v) = Some o /\ f o = true /\ is_connect_op o = false) as CC.
    { intros f C. destruct (C Hr') as (o & L & F). exists o. auto. }
    destruct S; cbn [w_c w_t] in *; auto.
    + unfold tracked in *. replace (c_state c') with (c_state (w_c w)) by congruence. replace (c_cbs c') with (c_cbs (w_c w)) by congruence. auto.
    + exfalso. destruct H as (_ & _ & Hd & Hs). rewrite (Hd Hr' A1) in Hs.
      destruct Hs as [[_ C]|[[F _]|[[F _]|[[F _]|[[F _]|[[F _]|[F _]]]]]]]; try discriminate F.
      destruct (CC _ (proj1 C)) as (o & _ & X & Y). congruence.
    + exfalso. destruct (CC _ H) as (o & _ & X & Y). congruence.
    + exfalso. destruct (CC _ H) as (o & _ & X & Y). congruence.
  - intros v o R I _ Hr D. cbn [w_c w_t] in *. apply re_cons in Hr. unfold is_disconnected in D. cbn [upto] in D.
    destruct (connect_call (ECall o)) eqn:C; [discriminate D|]. destruct (I Hr D) as (A1 & A2 & A3 & A4).
    repeat match goal with |- _ /\ _ => split end; auto. cbn. intros o' [= <-]. exact C.
  - intros v o rc R I H Hr D. cbn [w_c w_t] in *. apply re_cons in Hr. unfold is_disconnected in D.
    rewrite upto_push in D by reflexivity. unfold has in D. cbn [existsb snd] in D. destruct (H Hr) as (_ & _ & _ & L & _ & G).
    cbn [last_call]. rewrite L. destruct (disconnected_ok (ERet o rc)) eqn:Q.
    + destruct o; try discriminate Q. cbn in Q. apply Z.eqb_eq in Q. destruct (G eq_refl Q) as (B1 & B2 & B3).
      repeat match goal with |- _ /\ _ => split end; auto. intros o [= <-]. reflexivity.
    + destruct (I Hr D) as (A1 & A2 & A3 & A4). rewrite L in A4. auto.
Qed.

(** ** Renegotiation *)
Definition has_event_cb (x : ctx) : bool := cb_event (x_cbs x).
Definition reneg_inv (w : world) : Prop :=
  seq w (connects has_event_cb (w_t w) = true ->
    (c_prog (w_c w) = true -> cbs_from w) /\
    (last_reneg (w_t w) = Some HE_EVENT_SECURE_RENEGOTIATION_STARTED -> c_prog (w_c w) = true) /\
    (c_prog (w_c w) = true -> last_reneg (w_t w) = Some HE_EVENT_SECURE_RENEGOTIATION_STARTED \/
       exists s p, w_t w = (s, EEvent HE_EVENT_SECURE_RENEGOTIATION_COMPLETED) :: p)).
Lemma last_reneg_push s e t : reneg_event e = false -> last_reneg ((s, e) :: t) = last_reneg t.
Proof. intros H. cbn. destruct e; auto. cbn in H. cbn. now rewrite H. Qed.
Lemma reneg_keep w c' : c_prog c' = c_prog (w_c w) -> (cbs_from w -> cbs_from (World c' (w_t w))) ->
  reneg_inv w -> reneg_inv (World c' (w_t w)).
Proof.
  intros C F I Hr K. cbn [w_c w_t] in *. rewrite C. destruct (I Hr K) as (A & B & D). auto.
Qed.
Lemma reneg_settled w : reneg_inv w -> seq w (mid1 w = false) -> seq w (connects has_event_cb (w_t w) = true ->
  c_prog (w_c w) = true -> last_reneg (w_t w) = Some HE_EVENT_SECURE_RENEGOTIATION_STARTED).
Proof.
  intros I M Hr K P. destruct (I Hr K) as (_ & _ & D). destruct (D P) as [H|(s & p & E)]; [exact H|].
  specialize (M Hr). unfold mid1 in M. rewrite E in M. rewrite Z.eqb_refl in M. cbn in M. congruence.
Qed.
Lemma reneg_push w s e c' : c_prog c' = c_prog (w_c w) -> c_cbs c' = c_cbs (w_c w) -> seq w (mid1 w = false) ->
  (reneg_event e = true -> e = EEvent HE_EVENT_SECURE_RENEGOTIATION_COMPLETED /\ seq w (c_prog (w_c w) = true)) -> reneg_inv w ->
  reneg_inv (World c' ((s, e) :: w_t w)).
Proof.
  intros C C' M X I Hr K. cbn [w_c w_t] in *. apply re_cons in Hr. apply connects_cons in K. rewrite C.
  destruct (I Hr K) as (A & B & D). split; [|split].
  - intros P. destruct (A P) as (x & (s' & i & p & Q) & T). exists x. split; [|cbn [w_c]; rewrite C'; exact T].
    exists s', i, p. cbn [w_t In]. tauto.
  - destruct (reneg_event e) eqn:R; [|rewrite last_reneg_push by exact R; exact B].
    destruct (X eq_refl) as [-> P]. intros _. now apply P.
  - intros P. destruct (reneg_event e) eqn:R.
    + destruct (X eq_refl) as [-> _]. right. eauto.
    + left. rewrite last_reneg_push by exact R. now apply (reneg_settled I M).
Qed.
Lemma Reach_reneg : forall w, Reach w -> reneg_inv w.
Proof.
  apply Reach_ind'.
  - intros _ _. split; [discriminate|]. split; discriminate.
  - intros v w' R I S. assert (cbs_from v -> cbs_from w') as CF by (now apply cbs_from_step).
    destruct S; try (apply reneg_keep; [reflexivity|exact CF|exact I]).
    + destruct H as [M H]. destruct (is_nest e) eqn:Ne.
      * intros Hr. exfalso. unfold re, has in Hr. cbn in Hr. rewrite Ne in Hr. discriminate.
      * apply reneg_push; auto. intros Re. destruct e; try discriminate Re. destruct H as (_ & _ & [->|[->|[-> P]]]); try discriminate Re.
        split; [reflexivity|exact P].
    + apply reneg_keep; [unfold tracked in *; congruence|exact CF|exact I].
    + destruct (cb_state _); [|apply reneg_keep; [reflexivity|exact CF|exact I]]. apply reneg_push; [reflexivity|reflexivity|apply H|discriminate|exact I].
    + apply reneg_keep; [apply configure_tracked|exact CF|exact I].
    + apply reneg_keep; [unfold tracked in *; cbn in *; congruence|exact CF|exact I].
    + destruct (cb_event _); [|apply reneg_keep; [reflexivity|exact CF|exact I]]. apply reneg_push; auto. discriminate.
    + intros Hr K. destruct H2 as [_ F]. split; [intros _; now apply CF|].
      destruct (cb_event (c_cbs (w_c w))) eqn:Ce; cbn [w_c w_t c_prog set_prog].
      * split; [intros _; reflexivity|]. intros _. left. reflexivity.
      * exfalso. cbn [w_t] in K. rewrite (cbs_from_connects (f:=cb_event) ltac:(reflexivity) F K) in Ce. discriminate.
    + intros Hr K. cbn [w_c w_t c_prog set_prog] in *. destruct (I Hr K) as (A & B & D). destruct (H Hr) as [->|[-> X]].
      * split; [exact (fun P => CF (A P))|]. auto.
      * split; [discriminate|]. split; [|discriminate]. intros L. pose proof (B L) as P. specialize (A P).
        destruct (X (cbs_from_connects (f:=cb_event) ltac:(reflexivity) A K)) as (s & p & E). rewrite E in L. discriminate L.
  - intros v o R I M. apply reneg_push; auto. discriminate.
  - intros v o rc R I H. apply reneg_push; auto; [|discriminate]. intros Hr. now apply H.
Qed.
