(** Running the code through the steps of [ConnSteps.v]: the program logic, and
    the functions of wolf.c, plugin_chain.c and the basic parts of conn.c. *)
From Verif Require Import Base Codes Ctx Config Mss Frag FragSpec FragProofs ReasmTable Wire ConnState Conn
  ConnSpec HistSpec ConnSteps.
Unset Strict Implicit.

Definition Good (w : world) : Prop := Reach w /\ seq w (mid1 w = false /\ mid2 w = false /\ ~ mid3 w).

Definition is_recv (e : ev) : bool := match e with EWEnd WRecv _ _ _ => true | _ => false end.
(** Every allocation so far succeeded. *)
Definition alloc_failed (e : ev) : bool := match e with EAsk QAlloc 0 => true | _ => false end.

(** What [core] keeps is not changed by wolfSSL operations and callbacks of a
    host that does not call back. *)
Definition core (c : conn) :=
  (c_state c, c_is_server c, c_cbs c, c_first c, c_prog c, c_wolf c, c_pm c,
   (c_out_chain c, c_in_chain c, c_io c, c_ctype c, c_aggr c, c_wolf_ctx c, c_frag_tbl c)).
Definition keep (w w' : world) : Prop := seq w' (core (w_c w') = core (w_c w)).

Section Wp.
Variable E : env.
Variable hook : M unit.

Definition fuel_out (w : world) : Prop := (e_fuel E <= count is_recv (upto is_call (w_t w)))%nat.

(** The ways in which a run may go wrong. *)
Definition stuck_ok (w : world) (u : ub) : Prop :=
  u <> UB_read /\ u <> UB_write /\ (u = UB_fuel -> fuel_out w) /\
  seq w (u = UB_null -> has alloc_failed (w_t w) = true \/ has tls_lost (w_t w) = true) /\
  seq w (once (w_t w) -> u <> UB_assert) /\
  (u = UB_stale -> rx_live (c_rx (w_c w)) = false).

Definition wp {A} (m : M A) (Q : A -> world -> Prop) (w : world) : Prop :=
  Good w -> match m w with
            | Done a w' => Steps w w' /\ Good w' /\ Q a w'
            | Stuck u w' => Steps w w' /\ stuck_ok w' u
            end.

Definition hook_ok : Prop := forall w, Reach w ->
  match hook w with
  | Done _ w' => Steps w w' /\ seq w' (w' = w)
  | Stuck u w' => Steps w w' /\ stuck_ok w' u
  end.
Hypothesis HOOK : hook_ok.

Lemma wp_ret A (a : A) (Q : A -> world -> Prop) w : Q a w -> wp (ret a) Q w.
Proof. intros H G; cbn. split; [apply Steps_refl|auto]. Qed.

Lemma wp_bind A C (m : M A) (f : A -> M C) (Q : C -> world -> Prop) w :
  wp m (fun a w1 => Steps w w1 -> wp (f a) Q w1) w -> wp (bind m f) Q w.
Proof.
  intros H G. specialize (H G). unfold bind. destruct (m w) as [a w1|u w1]; [|exact H].
  destruct H as (S & G1 & H). specialize (H S G1). destruct (f a w1) as [b w2|u w2].
  - destruct H as (S2 & H). split; auto. eapply Steps_app; eauto.
  - destruct H as (S2 & H). split; auto. eapply Steps_app; eauto.
Qed.

Lemma wp_conseq A (m : M A) (Q Q' : A -> world -> Prop) w :
  wp m Q w -> (forall a w', Steps w w' -> Good w' -> Q a w' -> Q' a w') -> wp m Q' w.
Proof.
  intros H I G. specialize (H G). destruct (m w); auto.
  destruct H as (S & G1 & H). split; auto.
Qed.

Lemma wp_good A (m : M A) (Q : A -> world -> Prop) w : (Good w -> wp m Q w) -> wp m Q w.
Proof. intros H G; exact (H G G). Qed.

Lemma wp_get A (f : conn -> A) (Q : A -> world -> Prop) w : Q (f (w_c w)) w -> wp (get f) Q w.
Proof. intros H G; cbn. split; [apply Steps_refl|auto]. Qed.
Lemma wp_log (Q : trace -> world -> Prop) w : Q (w_t w) w -> wp log Q w.
Proof. intros H G; cbn. split; [apply Steps_refl|auto]. Qed.
Lemma wp_lift A (r : res A) a (Q : A -> world -> Prop) w : r = Val a -> Q a w -> wp (lift r) Q w.
Proof. intros ->. apply wp_ret. Qed.
Lemma wp_stuck A u (Q : A -> world -> Prop) w : (Good w -> stuck_ok w u) -> wp (stuck u) Q w.
Proof. intros H G; cbn. split; [apply Steps_refl|auto]. Qed.

(** Updates *)
Lemma mid_tracked w c' : tracked c' = tracked (w_c w) ->
  mid1 (World c' (w_t w)) = mid1 w /\ mid2 (World c' (w_t w)) = mid2 w /\ mid3 (World c' (w_t w)) = mid3 w.
Proof.
  unfold tracked. intros T. unfold mid1, mid2, mid3. cbn [w_c w_t].
  assert (c_pm c' = c_pm (w_c w)) as -> by congruence.
  assert (c_nudging c' = c_nudging (w_c w)) as -> by congruence.
  assert (c_prog c' = c_prog (w_c w)) as -> by congruence.
  assert (c_is_server c' = c_is_server (w_c w)) as -> by congruence.
  assert (c_state c' = c_state (w_c w)) as -> by congruence. auto.
Qed.

Lemma wp_upd f (Q : unit -> world -> Prop) w :
  tracked (f (w_c w)) = tracked (w_c w) -> (cok (w_c w) -> cok (f (w_c w))) ->
  (forall w', Steps w w' -> w_c w' = f (w_c w) -> w_t w' = w_t w -> Q tt w') ->
  wp (upd f) Q w.
Proof.
  intros T C H [R M]. cbn.
  assert (Step w (World (f (w_c w)) (w_t w))) as S by (constructor; auto).
  split; [now apply Steps_one|]. split.
  - split; [eapply R_step; eauto|]. destruct (mid_tracked T) as (E1 & E2 & E3).
    unfold seq in *. rewrite E1, E2, E3. exact M.
  - apply H; auto. now apply Steps_one.
Qed.

(** Emitting *)
Definition special (e : ev) : bool :=
  match e with
  | ENudge _ => true
  | EEvent v => v =? HE_EVENT_SECURE_RENEGOTIATION_COMPLETED
  | _ => false
  end.

Lemma push_good w e : emit_ok w e -> special e = false -> is_call e = false -> Good w ->
  Good (World (w_c w) ((c_state (w_c w), e) :: w_t w)).
Proof.
  intros H Sp Hc [R M]. split; [eapply R_step; [exact R|now constructor]|].
  intros Hr. assert (re (w_t w) = false) as Hr'.
  { unfold re, has in *. cbn [existsb w_t] in Hr. now apply orb_false_iff in Hr. }
  destruct (M Hr') as (M1 & M2 & M3). split; [|split].
  - unfold mid1. cbn [w_t w_c]. destruct e; auto; cbn [special] in Sp; try discriminate.
    now rewrite Sp.
  - unfold mid2 in *. cbn [w_t w_c]. unfold has in *. cbn [existsb snd].
    destruct (existsb _ (w_t w)); [rewrite orb_true_r; reflexivity|]. rewrite orb_false_r.
    destruct (server_call e); cbn [negb andb] in *; auto.
  - intros (O & N3). apply M3. split; auto. unfold once, count in *. cbn [w_t filter snd] in O.
    destruct (connect_call e); cbn in O; lia.
Qed.

Lemma wp_emit e (Q : unit -> world -> Prop) w :
  (Good w -> emit_ok w e) -> special e = false -> is_call e = false ->
  (forall w', Steps w w' -> w_c w' = w_c w -> w_t w' = (c_state (w_c w), e) :: w_t w -> Q tt w') ->
  wp (emit e) Q w.
Proof.
  intros H Sp Hc K G. specialize (H G). cbn.
  assert (Steps w (World (w_c w) ((c_state (w_c w), e) :: w_t w))) as S
    by (apply Steps_one; now constructor).
  split; [exact S|]. split; [now apply push_good|]. now apply K.
Qed.

Lemma Good_mid1 w : Good w -> seq w (mid1 w = false).
Proof. intros [_ M] Hr. now apply M. Qed.

(** events with no condition *)
Definition plain (e : ev) : bool :=
  match e with
  | ENestRet _ _ | ECfg _ _ _ | EPlugin _ _ _ _ | EPluginRet _ _ | EWIn _ _ _ | EWOut _ _ | EAsk _ _
  | ECbRet KOutside _ | ECbRet KSrvCfg _ | ECbRet KPmTime _
  | EWOp WNegotiate | EWOp WRecv | EWOp WShutdown | EWOp WRehandshake | EWOp WUpdateKeys | EWOp WGotTimeout => true
  | _ => false
  end.
Lemma plain_ok e w : plain e = true -> Good w -> emit_ok w e.
Proof.
  intros P G. split; [intros _; now apply Good_mid1|]. destruct e; try discriminate P; try exact I.
  all: try destruct k; try destruct o; try discriminate P; try exact I.
Qed.
Lemma wp_emit_plain e (Q : unit -> world -> Prop) w :
  plain e = true ->
  (forall w', Steps w w' -> w_c w' = w_c w -> w_t w' = (c_state (w_c w), e) :: w_t w -> Q tt w') ->
  wp (emit e) Q w.
Proof.
  intros P K. apply wp_emit; auto using plain_ok; destruct e; try discriminate P; reflexivity.
Qed.

(** The host's code inside a callback *)
Lemma hook_good w w' : Good w -> Steps w w' -> seq w' (w' = w) -> Good w'.
Proof.
  intros [R M] S H. split; [eapply Reach_Steps; eauto|]. intros Hr.
  assert (w' = w) by auto. subst w'. now apply M.
Qed.
Lemma wp_hook (Q : unit -> world -> Prop) w :
  (forall w', Steps w w' -> seq w' (w' = w) -> Q tt w') -> wp hook Q w.
Proof.
  intros K G. pose proof (HOOK (proj1 G)) as H. destruct (hook w) as [[] w'|u w']; auto.
  destruct H as [S H]. split; auto. split; auto. eapply hook_good; eauto.
Qed.

Lemma keep_refl w : keep w w.
Proof. intros _; reflexivity. Qed.
Lemma keep_trans w1 w2 w3 : Steps w2 w3 -> keep w1 w2 -> keep w2 w3 -> keep w1 w3.
Proof. intros S H1 H2 Hr. rewrite (H2 Hr). apply H1. eapply re_anti; eauto. Qed.

Lemma wp_notify e (Q : unit -> world -> Prop) w :
  (Good w -> emit_ok w e) -> special e = false -> is_call e = false ->
  (forall w', Steps w w' -> seq w' (w_c w' = w_c w) -> Q tt w') ->
  wp (notify hook e) Q w.
Proof.
  intros H Sp Hc K. unfold notify. apply wp_bind, wp_emit; auto. intros w1 S1 C1 T1 _.
  apply wp_hook. intros w2 S2 H2. apply K; [eapply Steps_app; eauto|].
  intros Hr. now rewrite (H2 Hr).
Qed.

Lemma wp_callback' e k (Q : Z -> world -> Prop) w :
  (Good w -> emit_ok w e) -> special e = false -> is_call e = false ->
  (forall w1 v, Steps w w1 -> Good w1 -> (forall f, f e = true -> now f w1) -> emit_ok w1 (ECbRet k v)) ->
  (forall w1 w2 v, Steps w w1 -> Steps w1 w2 -> w_c w2 = w_c w1 ->
     w_t w2 = (c_state (w_c w1), ECbRet k v) :: w_t w1 ->
     seq w2 (w_c w2 = w_c w) -> Q v w2) ->
  wp (callback E hook e k) Q w.
Proof.
  intros H Sp Hc H' K. unfold callback.
  apply wp_bind, wp_emit; auto. intros w1 S1 C1 T1 _.
  apply wp_bind, wp_hook. intros w2 S2 H2 _.
  apply wp_bind, wp_log. intros _. apply wp_bind, wp_emit; auto.
  { intros G. apply H'; auto; [eapply Steps_app; eauto|]. intros f Hf. apply (now_mono S2). unfold now. rewrite T1. cbn [upto]. rewrite Hc. unfold has. cbn [existsb snd]. now rewrite Hf. }
  intros w3 S3 C3 T3 _. apply wp_ret. apply (K w2 w3 _); auto.
  - eapply Steps_app; eauto.
  - intros Hr. rewrite C3. rewrite (H2 (re_anti S3 Hr)). auto.
Qed.

Lemma wp_callback e k (Q : Z -> world -> Prop) w :
  (Good w -> emit_ok w e) -> special e = false -> is_call e = false ->
  (forall w1 v, Steps w w1 -> Good w1 -> emit_ok w1 (ECbRet k v)) ->
  (forall w1 w2 v, Steps w w1 -> Steps w1 w2 -> w_c w2 = w_c w1 ->
     w_t w2 = (c_state (w_c w1), ECbRet k v) :: w_t w1 ->
     seq w2 (w_c w2 = w_c w) -> Q v w2) ->
  wp (callback E hook e k) Q w.
Proof. intros H Sp Hc H' K. apply wp_callback'; auto. Qed.

Lemma wp_ask q (Q : Z -> world -> Prop) w :
  (forall w', Steps w w' -> w_c w' = w_c w ->
     w_t w' = (c_state (w_c w), EAsk q (e_ask E (w_t w) q)) :: w_t w -> Q (e_ask E (w_t w) q) w') ->
  wp (ask E q) Q w.
Proof.
  intros K. unfold ask. apply wp_bind, wp_log. intros _.
  apply wp_bind, wp_emit_plain; [reflexivity|]. intros w1 S1 C1 T1 _. apply wp_ret. now apply K.
Qed.

End Wp.
