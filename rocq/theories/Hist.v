(** Invariants of histories. *)
From Verif Require Import Base Codes Ctx ConnState Conn ConnSpec HistSpec ConnSteps.
Unset Strict Implicit.

Lemma Reach_every (P : Z -> ev -> trace -> Prop) :
  (forall w e, Reach w -> emit_ok w e -> P (c_state (w_c w)) e (w_t w)) ->
  (forall w s, Reach w -> state_ok w s -> c_state (w_c w) <> s -> cb_state (c_cbs (w_c w)) = true ->
     P s (EState s) (w_t w)) ->
  (forall w, Reach w -> seq w (mid1 w = false) -> c_first (w_c w) = false -> calling is_outside w ->
     seq w (c_state (w_c w) <> HE_STATE_DISCONNECTED) ->
     P (c_state (w_c w)) (EEvent HE_EVENT_FIRST_MESSAGE_RECEIVED) (w_t w)) ->
  (forall w, Reach w -> seq w (mid1 w = false) -> seq w (c_prog (w_c w) = false) ->
     seq w (c_state (w_c w) <> HE_STATE_DISCONNECTED) -> role w ->
     P (c_state (w_c w)) (EEvent HE_EVENT_SECURE_RENEGOTIATION_STARTED) (w_t w)) ->
  (forall w o, Reach w -> seq w (mid1 w = false) -> P (c_state (w_c w)) (ECall o) (w_t w)) ->
  (forall w o rc, Reach w -> ret_ok w o rc -> P (c_state (w_c w)) (ERet o rc) (w_t w)) ->
  forall w, Reach w -> every P (w_t w).
Proof.
  intros H1 H2 H3 H4 H5 H6 w R. induction R as [|w w' R IH S|w o R IH|w o rc R IH].
  - exact I.
  - destruct S; cbn [w_t]; auto.
    + split; auto.
    + destruct (cb_state _) eqn:?; [split; auto|auto].
    + destruct (cb_event _) eqn:?; [split; auto|auto].
    + destruct (cb_event _) eqn:?; [split; auto|auto].
  - split; auto.
  - split; auto.
Qed.

(** Induction principle for invariants: preserved by steps, calls, returns. *)
Lemma Reach_ind' (I : world -> Prop) :
  I world_new -> (forall w w', Reach w -> I w -> Step w w' -> I w') ->
  (forall w o, Reach w -> I w -> seq w (mid1 w = false) -> I (World (w_c w) ((c_state (w_c w), ECall o) :: w_t w))) ->
  (forall w o rc, Reach w -> I w -> ret_ok w o rc -> I (World (w_c w) ((c_state (w_c w), ERet o rc) :: w_t w))) ->
  forall w, Reach w -> I w.
Proof. intros A B C D w R. induction R; eauto. Qed.

(** ** Segments of the log *)
Lemma every_app P a b : every P (a ++ b) -> every P b.
Proof. induction a as [|[s e] a IH]; cbn; [auto|]. intros [_ H]; auto. Qed.
Lemma every_impl (P Q : Z -> ev -> trace -> Prop) t :
  (forall s e p, P s e p -> Q s e p) -> every P t -> every Q t.
Proof. intros H. induction t as [|[s e] t IH]; cbn; [auto|]. intros [A B]; auto. Qed.
Lemma has_in f t : has f t = true <-> exists a s e b, t = a ++ (s, e) :: b /\ f e = true.
Proof.
  unfold has. rewrite existsb_exists. split.
  - intros ([s e] & I & F). apply in_split in I. destruct I as (a & b & ->). exists a, s, e, b. auto.
  - intros (a & s & e & b & -> & F). exists (s, e). rewrite in_app_iff. cbn. auto.
Qed.
Lemma upto_split f t : t = upto f t \/ exists s e b, t = upto f t ++ (s, e) :: b /\ f e = true.
Proof.
  induction t as [|[s e] t IH]; cbn; [auto|]. destruct (f e) eqn:F.
  - right. exists s, e, t. auto.
  - destruct IH as [IH|(s' & e' & b & IH & F')]; [left; congruence|].
    right. exists s', e', b. split; auto. cbn. congruence.
Qed.
Lemma upto_none f t : forall x, In x (upto f t) -> f (snd x) = false.
Proof.
  induction t as [|[s e] t IH]; cbn; [tauto|]. destruct (f e) eqn:F; [cbn; tauto|].
  intros x [<-|H]; auto.
Qed.
Lemma upto_end f a s e b : f e = true -> (forall x, In x a -> f (snd x) = false) -> upto f (a ++ (s, e) :: b) = a.
Proof.
  intros F H. induction a as [|[s' e'] a IH]; cbn; [now rewrite F|].
  pose proof (H (s', e') (or_introl eq_refl)) as H0. cbn in H0. rewrite H0. f_equal. apply IH. intros; apply H; now right.
Qed.
(** A shorter segment is a prefix of a longer one. *)
Lemma upto_prefix f g t : (forall x, In x (upto f t) -> g (snd x) = false) -> exists l, upto g t = upto f t ++ l.
Proof.
  intros H. induction t as [|[s e] t IH]; cbn in *; [exists []; auto|]. destruct (f e) eqn:F; [eexists; reflexivity|].
  pose proof (H (s, e) (or_introl eq_refl)) as G. cbn in G. rewrite G.
  destruct IH as [l IH]; [intros; apply H; now right|]. exists l. cbn. congruence.
Qed.
(** the tail of a segment is a segment *)
Lemma upto_tail f a s e b t : upto f t = a ++ (s, e) :: b ->
  exists t', t = a ++ (s, e) :: t' /\ upto f t' = b.
Proof.
  revert a. induction t as [|[s' e'] t IH]; intros a H; cbn in H; [destruct a; discriminate|].
  destruct (f e'); [destruct a; discriminate|]. destruct a as [|y a]; cbn in H.
  - injection H as -> -> H. exists t. auto.
  - injection H as <- H. destruct (IH a H) as (t' & -> & E). exists t'. auto.
Qed.

(** ** Returns belong to the last call *)
Definition inv_ret (w : world) : Prop :=
  seq w (forall s o rc, In (s, ERet o rc) (upto is_call (w_t w)) -> last_call (w_t w) = Some o).
Lemma re_cons x t : re (x :: t) = false -> re t = false.
Proof. unfold re, has. cbn. now intros H%orb_false_iff. Qed.
Lemma step_ret w w' : Step w w' -> forall s o rc, In (s, ERet o rc) (upto is_call (w_t w')) -> In (s, ERet o rc) (upto is_call (w_t w)).
Proof.
  intros S s o rc. destruct S; cbn [w_t]; auto; try (destruct (cb_state _)); try (destruct (cb_event _)); auto; cbn [upto is_call]; auto.
  2,3,4: intros [[= ]|]; auto.
  destruct e; cbn [is_call]; try (intros [[= ]|]; now auto); destruct H as [_ []].
Qed.
Lemma Reach_ret w : Reach w -> inv_ret w.
Proof.
  apply Reach_ind'.
  - intros _ s o rc [].
  - intros v w' R IH S Hr s o rc I. assert (Steps v w') as S' by now apply Steps_one.
    rewrite (last_call_mono S'). eapply IH; [eapply re_anti; eauto|]. eapply step_ret; eauto.
  - intros v o R IH _ Hr s o' rc I. cbn in I. destruct I.
  - intros v o rc R IH H Hr s o' rc' I. cbn [w_t] in *. apply re_cons in Hr. cbn [upto is_call] in I.
    destruct (H Hr) as (_ & _ & _ & L & _). cbn [last_call]. destruct I as [[= _ -> _]|I]; auto.
    eapply IH; eauto.
Qed.

(** During a call that is not a connect call, the segment of the call is part of
    the segment since the last successful connect. *)
Lemma segment w : Reach w -> re (w_t w) = false -> (forall o, last_call (w_t w) = Some o -> is_connect_op o = false) ->
  exists l, since_connect (w_t w) = upto is_call (w_t w) ++ l.
Proof.
  intros R Hr H. apply upto_prefix. intros [s e] I. cbn [snd]. destruct e; auto. cbn.
  pose proof (Reach_ret R Hr I) as L. now rewrite (H _ L).
Qed.

(** ** What a step does to the log and to the state *)
Definition is_ret (e : ev) : bool := match e with ERet _ _ => true | _ => false end.
Definition boundary (e : ev) : bool := is_call e || is_ret e.
Lemma step_log w w' : Step w w' ->
  w_t w' = w_t w \/ exists s e, w_t w' = (s, e) :: w_t w /\ boundary e = false.
Proof.
  intros S; destruct S; cbn [w_t]; auto; try (destruct (cb_state _)); try (destruct (cb_event _)); auto;
    right; eexists _, _; (split; [reflexivity|]); auto.
  destruct e; auto; destruct H as [_ []].
Qed.
Lemma step_state w w' : Step w w' -> c_state (w_c w') = c_state (w_c w) \/
  exists s, state_ok w s /\ c_state (w_c w') = s.
Proof.
  intros S; destruct S; cbn [w_c]; auto.
  - left. unfold tracked in *. congruence.
  - right. exists s. auto.
  - left. apply configure_tracked.
  - left. unfold tracked in *. cbn in *. congruence.
Qed.
Lemma since_push s e t : connected_ok e = false -> since_connect ((s, e) :: t) = (s, e) :: since_connect t.
Proof. intros H. unfold since_connect. cbn. now rewrite H. Qed.
Lemma boundary_connected e : boundary e = false -> connected_ok e = false.
Proof. destruct e; auto; discriminate. Qed.

Lemma authenticated_app a b : authenticated b -> authenticated (a ++ b).
Proof.
  intros (l & s & e & r & -> & H). exists (a ++ l), s, e, r. now rewrite <- app_assoc.
Qed.
Lemma authenticated_pre a b : authenticated a -> authenticated (a ++ b).
Proof.
  intros (l & s & e & r & -> & H & F). exists l, s, e, (r ++ b). rewrite <- app_assoc. split; [reflexivity|].
  split; [exact H|]. rewrite has_app, F. reflexivity.
Qed.
Lemma configured_app a b : configured b -> configured (a ++ b).
Proof.
  intros (l & s & e & r & -> & H). exists (a ++ l), s, e, r. now rewrite <- app_assoc.
Qed.
Lemma configured_pre a b : configured a -> configured (a ++ b).
Proof.
  intros (l & s & e & r & -> & H & F). exists l, s, e, (r ++ b). rewrite <- app_assoc. split; [reflexivity|].
  split; [exact H|]. rewrite has_app, F. reflexivity.
Qed.

(** The results of the two configuration callbacks follow their causes within
    the same call. *)
Lemma populate_order w : Reach w ->
  every (fun _ e p => populate_ok e = true -> has auth_accepted_ev (upto is_call p) = true) (w_t w).
Proof.
  apply Reach_every; try discriminate. intros v e R [_ H] P. destruct e; try discriminate P. destruct k; try discriminate P.
  exact H.
Qed.
Lemma netcfg_order w : Reach w ->
  every (fun _ e p => netcfg_ok e = true -> has (received HE_MSGID_CONFIG_IPV4) (upto is_call p) = true) (w_t w).
Proof.
  apply Reach_every; try discriminate. intros v e R [_ H] P. destruct e; try discriminate P. destruct k; try discriminate P.
  apply H.
Qed.
Lemma every_in P a s e b : every P (a ++ (s, e) :: b) -> P s e b.
Proof. intros H. apply every_app in H. apply H. Qed.

Lemma now_authenticated w : Reach w -> now populate_ok w -> authenticated (upto is_call (w_t w)).
Proof.
  intros R N. unfold now in N. apply has_in in N. destruct N as (a & s & e & b & E & P).
  destruct (upto_tail E) as (t' & T & U). rewrite E. exists a, s, e, b. split; [reflexivity|]. split; [exact P|].
  pose proof (populate_order R) as H. rewrite T in H. apply every_in in H. rewrite <- U. auto.
Qed.
Lemma now_configured w : Reach w -> now netcfg_ok w -> configured (upto is_call (w_t w)).
Proof.
  intros R N. unfold now in N. apply has_in in N. destruct N as (a & s & e & b & E & P).
  destruct (upto_tail E) as (t' & T & U). rewrite E. exists a, s, e, b. split; [reflexivity|]. split; [exact P|].
  pose proof (netcfg_order R) as H. rewrite T in H. apply every_in in H. rewrite <- U. auto.
Qed.
Lemma call_part t : exists l, t = upto is_call t ++ l.
Proof. destruct (upto_split is_call t) as [H|(s & e & b & H & _)]; [exists []; rewrite app_nil_r; exact H|eauto]. Qed.

(** ** A server that is online has authenticated its client *)
Definition server_online (w : world) : Prop :=
  has client_call (w_t w) = false -> c_state (w_c w) = HE_STATE_ONLINE ->
  authenticated (w_t w) /\ seq w (authenticated (since_connect (w_t w))).

Lemma has_cons_false f x t : has f (x :: t) = false -> has f t = false.
Proof. unfold has. cbn. now intros H%orb_false_iff. Qed.

Lemma server_online_push w s e : server_online w -> (connected_ok e = true -> seq w (c_state (w_c w) <> HE_STATE_ONLINE)) ->
  server_online (World (w_c w) ((s, e) :: w_t w)).
Proof.
  intros I H C O. cbn [w_t w_c] in *. apply has_cons_false in C. destruct (I C O) as [A B]. split.
  - now apply (@authenticated_app [_]).
  - intros Hr. apply re_cons in Hr. destruct (connected_ok e) eqn:K; [exfalso; now apply (H eq_refl Hr)|].
    cbn [w_t]. rewrite since_push by auto. apply (@authenticated_app [_]). now apply B.
Qed.
Lemma Reach_server_online w : Reach w -> server_online w.
Proof.
  apply Reach_ind'.
  - intros _ H. discriminate H.
  - intros v w' R IH S C O. assert (Steps v w') as S' by now apply Steps_one.
    assert (has client_call (w_t v) = false) as C' by (eapply has_anti; eauto).
    assert (authenticated (w_t v) /\ seq v (authenticated (since_connect (w_t v)))) as [A B].
    { destruct (step_state S) as [E|(s & St & E)]; [apply IH; congruence|].
      rewrite E in O. subst s. destruct St as (_ & _ & _ & Hs).
      destruct Hs as [[F _]|[[F _]|[[F _]|[[F _]|[(_ & (CO & _) & _ & H)|[[F _]|[F _]]]]]]]; try discriminate F.
      destruct H as [[H _]|[H _]]; [|congruence].
      pose proof (now_authenticated R H) as A. split.
      - destruct (call_part (w_t v)) as [l El]. rewrite El. now apply authenticated_pre.
      - intros Hr. destruct (segment R Hr) as [l ->].
        { intros o L. pose proof (calling_last Hr CO L). destruct o; try discriminate; reflexivity. }
        now apply authenticated_pre. }
    destruct (step_log S) as [E|(s & e & E & Bd)]; rewrite E.
    + split; [exact A|]. intros Hr. apply B. eapply re_anti; eauto.
    + split; [now apply (@authenticated_app [_])|]. intros Hr. rewrite since_push by now apply boundary_connected.
      apply (@authenticated_app [_]). apply B. eapply re_anti; eauto.
  - intros v o R I _. apply server_online_push; auto. discriminate.
  - intros v o rc R I H. apply server_online_push; auto. cbn. intros K Hr. apply andb_true_iff in K. destruct K as [K1 K2].
    destruct (H Hr) as (_ & _ & _ & _ & G & _). apply fresh_online, G; auto. now apply Z.eqb_eq.
Qed.

(** ** A client that is online has been configured *)
Definition client_online (w : world) : Prop :=
  has server_call (w_t w) = false -> connects has_netcfg (w_t w) = true ->
  c_state (w_c w) = HE_STATE_ONLINE -> configured (w_t w) /\ seq w (configured (since_connect (w_t w))).
Lemma connects_asked P t x : connects P t = true -> asked x t -> P x = true.
Proof.
  intros C (s & i & p & H). revert C.
  assert (forall e, (e = ECall (OClientConnect x i p) \/ e = ECall (OServerConnect x i p) \/
     e = ENest (OClientConnect x i p) \/ e = ENest (OServerConnect x i p)) -> In (s, e) t -> connects P t = true -> P x = true) as G.
  { clear H. intros e He. induction t as [|[s' e'] t IH]; [intros []|]. intros [F|F] C.
    - injection F as -> ->. destruct He as [->|[->|[->| ->]]]; cbn in C; apply andb_true_iff in C; tauto.
    - apply IH; auto.
      apply connects_cons in C. exact C. }
  destruct H as [H|[H|[H|H]]]; eauto.
Qed.
Lemma cbs_from_connects (f : cbs -> bool) w :
  (forall k, f (cbs_off k) = f k) -> cbs_from w -> connects (fun x => f (x_cbs x)) (w_t w) = true -> f (c_cbs (w_c w)) = true.
Proof.
  intros Hf (x & A & H) C. pose proof (connects_asked C A) as F. cbn in F. destruct H as [-> | ->]; [exact F|]. now rewrite Hf.
Qed.

(** Accepted credentials mean a server *)
Lemma auth_server w : Reach w -> has auth_accepted_ev (w_t w) = true -> has server_call (w_t w) = true.
Proof.
  intros R H. apply has_in in H. destruct H as (a & s & e & b & E & P).
  assert (every (fun _ e p => auth_accepted_ev e = true -> has server_call p = true) (w_t w)) as V.
  { revert R. apply Reach_every; try discriminate. intros v e' R [_ H] P'.
    destruct e'; try discriminate P'. destruct k; try discriminate P'. apply H. }
  rewrite E in V |- *. apply every_in in V. rewrite has_app. apply orb_true_iff. right. apply has_cons. auto.
Qed.

Lemma Reach_client_online w : Reach w -> client_online w.
Proof.
  apply Reach_ind'.
  - intros _ _ H. discriminate H.
  - intros v w' R IH S C K O. assert (Steps v w') as S' by now apply Steps_one.
    assert (has server_call (w_t v) = false) as C' by (eapply has_anti; eauto).
    pose proof (connects_anti S' K) as K'.
    assert (configured (w_t v) /\ seq v (configured (since_connect (w_t v)))) as [A B].
    { destruct (step_state S) as [E|(s & St & E)]; [apply IH; auto; congruence|].
      rewrite E in O. subst s. destruct St as (_ & Hrole & _ & Hs). destruct (Hrole ltac:(discriminate)) as [[_ CF] _].
      destruct Hs as [[F _]|[[F _]|[[F _]|[[F _]|[(_ & (CO & _) & _ & H)|[[F _]|[F _]]]]]]]; try discriminate F.
      destruct H as [[H _]|(_ & _ & H & _)].
      { exfalso. destruct (now_authenticated R H) as (l & s & e & r & E' & P & Q).
        destruct (call_part (w_t v)) as [l' El].
        assert (has auth_accepted_ev (w_t v) = true) as HA.
        { rewrite El, E'. rewrite !has_app. unfold has at 2. cbn [existsb]. fold (has auth_accepted_ev r). rewrite Q.
          rewrite !orb_true_r. reflexivity. }
        rewrite (auth_server R HA) in C'. discriminate. }
      destruct H as [H|H]. 2:{ rewrite (cbs_from_connects (f:=cb_netcfg) ltac:(reflexivity) CF K') in H. discriminate. }
      pose proof (now_configured R H) as A. split.
      - destruct (call_part (w_t v)) as [l El]. rewrite El. now apply configured_pre.
      - intros Hr. destruct (segment R Hr) as [l ->].
        { intros o L. pose proof (calling_last Hr CO L). destruct o; try discriminate; reflexivity. }
        now apply configured_pre. }
    destruct (step_log S) as [E|(s & e & E & Bd)]; rewrite E.
    + split; [exact A|]. intros Hr. apply B. eapply re_anti; eauto.
    + split; [now apply (@configured_app [_])|]. intros Hr. rewrite since_push by now apply boundary_connected.
      apply (@configured_app [_]). apply B. eapply re_anti; eauto.
  - intros v o R I _ C K O. cbn [w_t w_c] in *. apply has_cons_false in C. apply connects_cons in K.
    destruct (I C K O) as [A B]. split; [now apply (@configured_app [_])|]. intros Hr. apply re_cons in Hr. cbn [w_t].
    rewrite since_push by reflexivity. apply (@configured_app [_]). now apply B.
  - intros v o rc R I H C K O. cbn [w_t w_c] in *. apply has_cons_false in C.
    destruct (I C K O) as [A B]. split; [now apply (@configured_app [_])|]. intros Hr. apply re_cons in Hr. cbn [w_t].
    destruct (H Hr) as (_ & _ & _ & _ & G & _).
    destruct (connected_ok (ERet o rc)) eqn:Q.
    { cbn in Q. apply andb_true_iff in Q. destruct Q as [Q1 Q2]. exfalso. apply (@fresh_online v); auto. apply G; auto. now apply Z.eqb_eq. }
    rewrite since_push by exact Q. apply (@configured_app [_]). now apply B.
Qed.

Lemma Reach_origin w : Reach w -> c_state (w_c w) = HE_STATE_ONLINE -> origin (w_t w).
Proof.
  intros R O. split.
  - destruct (has client_call (w_t w)) eqn:C; [auto|]. right. now apply (Reach_server_online R).
  - destruct (has server_call (w_t w)) eqn:C; [auto|]. right.
    destruct (connects has_netcfg (w_t w)) eqn:K; [|auto]. right. now apply (Reach_client_online R).
Qed.
