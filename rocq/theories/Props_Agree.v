(** C52: the two ends agree on who has logged in and with which configuration. *)
From Verif Require Import Base Codes Ctx Config Mss MssSpec Frag FragSpec
  Wire WireSpec WireProofs ConnState Conn ConnSpec HistSpec CallSpec MsgSpec CredSpec ConfSpec AgreeSpec ConnSteps Hist ConnWpApi Frame Hist2 Props_Auth Seq SeqLoop SeqApi
  SeqWire Scenario Props_Data CredProofs CredServer Props_Cred ConfServer ConfClient Props_Conf.
Unset Strict Implicit.

(** ** Logs *)
Lemma in_collect A (f : Z -> ev -> list A) x t : In x (collect f t) <-> exists a s e b, t = a ++ (s, e) :: b /\ In x (f s e).
Proof.
  induction t as [|[s e] t IH]; cbn [collect].
  - split; [intros []|]. intros ([|] & s & e & b & H & _); discriminate H.
  - rewrite in_app_iff, IH. split.
    + intros [(a & s' & e' & b & -> & H)|H]; [exists ((s, e) :: a), s', e', b|exists [], s, e, t]; auto.
    + intros (a & s' & e' & b & H & I). destruct a as [|y a]; cbn in H.
      * injection H as H1 H2 H3. subst. auto.
      * injection H as H1 H2. subst. left. exists a, s', e', b. auto.
Qed.
Lemma in_both B (g : Z -> ev -> list B) t x : In (inr x) (collect (both g) t) <-> In x (collect g t).
Proof.
  induction t as [|[s e] t IH]; [reflexivity|]. cbn [collect]. rewrite !in_app_iff, IH. unfold both at 1. rewrite in_app_iff, !in_map_iff. split.
  - intros [H|[(y & H & _)|(y & [= <-] & H)]]; auto; discriminate H.
  - intros [H|H]; auto. right. right. eauto.
Qed.
Lemma in_both_got B (g : Z -> ev -> list B) t x : In (inl x) (collect (both g) t) <-> In x (collect got_msg t).
Proof.
  induction t as [|[s e] t IH]; [reflexivity|]. cbn [collect]. rewrite !in_app_iff, IH. unfold both at 1. rewrite in_app_iff, !in_map_iff. split.
  - intros [H|[(y & [= <-] & H)|(y & H & _)]]; auto; discriminate H.
  - intros [H|H]; auto. right. left. eauto.
Qed.
Lemma in_during A (f : Z -> ev -> list A) w w' l x : during f w w' l -> In x (collect f (w_t w')) <-> In x (collect f (w_t w)) \/ In x l.
Proof. unfold during. intros ->. apply in_app_iff. Qed.
Lemma in_caused_r B (ds : list ((Z * bytes) * list B)) y : In (inr y) (caused ds) -> exists d, In d ds /\ In y (snd d).
Proof.
  unfold caused. rewrite in_flat_map. intros (d & Id & [H|H]); [discriminate H|]. apply in_map_iff in H. destruct H as (z & [= <-] & H). eauto.
Qed.
Lemma in_caused_l B (ds : list ((Z * bytes) * list B)) d : In d ds -> In (inl (fst d)) (caused ds).
Proof. intros H. unfold caused. rewrite in_flat_map. exists d. split; [exact H|]. now left. Qed.
Lemma collect_received ty t : has (received ty) t = true -> exists x, In x (collect got_msg t) /\ msg_type (snd x) = ty.
Proof.
  rewrite has_in. intros (a & s & e & b & -> & R). unfold received in R. destruct e; try discriminate R. destruct o; try discriminate R.
  apply andb_true_iff in R. destruct R as [R1 R2]. apply Z.eqb_eq in R2. exists (s, data). split; [|exact R2]. apply in_collect. exists a, s, (EWEnd WRecv r err data), b.
  split; [reflexivity|]. cbn [got_msg]. rewrite R1. now left.
Qed.
Lemma last_question_in t q : last_question t = Some q -> In q (collect questions t).
Proof.
  induction t as [|[s e] t IH]; [discriminate|]. cbn [collect last_question]. rewrite in_app_iff. destruct e; auto; intros [= <-]; right; now left.
Qed.
Lemma last_question_some t : has auth_asked_ev t = true -> exists q, last_question t = Some q.
Proof.
  unfold has. induction t as [|[s e] t IH]; [discriminate|]. cbn [existsb snd last_question]. destruct e; cbn [auth_asked_ev orb]; eauto.
Qed.

(** ** The server *)
Lemma asked_first w : Reach w -> every (fun _ e p => auth_accepted_ev e = true -> has auth_asked_ev (upto is_call p) = true) (w_t w).
Proof.
  apply Reach_every; try discriminate. intros v e R [_ H] P. destruct e; try discriminate P. destruct k; try discriminate P. apply H.
Qed.
Lemma accepted_some w past : Reach w -> (exists later, w_t w = later ++ past) -> has auth_accepted_ev past = true -> exists q, accepted past q.
Proof.
  intros R [later El] H. apply has_in in H. destruct H as (a & s & e & b & -> & A).
  pose proof (asked_first R) as V. rewrite El in V. apply every_app in V. apply every_in in V. specialize (V A).
  assert (has auth_asked_ev b = true) as V' by (destruct (call_part b) as [l Eb]; rewrite Eb, has_app, V; reflexivity).
  destruct (last_question_some V') as [q Q]. destruct e; try discriminate A. destruct k; try discriminate A. cbn in A. apply negb_true_iff in A. apply Z.eqb_neq in A.
  exists q, a, s, v, b. auto.
Qed.
(** Every question is what some message asks. *)
Lemma questions_from E w q : reached E w -> In q (collect questions (w_t w)) ->
  exists x k, In x (collect got_msg (w_t w)) /\ In q (asks k (snd x)).
Proof.
  revert w. apply (@reached_ind E (fun w => In q (collect questions (w_t w)) -> exists x k, In x (collect got_msg (w_t w)) /\ In q (asks k (snd x)))).
  - intros [].
  - intros w o rc w' R IH C. destruct (during_log got_msg C) as [lg Dg].
    assert (In q (collect questions (w_t w)) -> exists x k, In x (collect got_msg (w_t w')) /\ In q (asks k (snd x))) as Old.
    { intros H. destruct (IH H) as (x & k & H1 & H2). exists x, k. split; [|exact H2]. apply (in_during _ Dg). auto. }
    destruct (match o with OOutside _ => true | _ => false end) eqn:Oo.
    + destruct o; try discriminate Oo. destruct (C15_questions C) as (ds & D & F). intros H. apply (in_both questions) in H. apply (in_during _ D) in H.
      destruct H as [H|H]; [apply Old; now apply (in_both questions)|]. destruct (in_caused_r H) as ([x qs] & Id & Iq).
      rewrite Forall_forall in F. specialize (F _ Id). destruct x as [st m]. cbn [snd fst] in *. rewrite F in Iq. destruct (c_is_server (w_c w)); [|destruct Iq].
      exists (st, m), (c_cbs (w_c w)). split; [|exact Iq]. apply (in_both_got questions). apply (in_during _ D). right. exact (in_caused_l Id).
    + assert (forall b, o <> OOutside b) as No by (intros b ->; discriminate Oo). intros H. apply (in_during _ (C15_no_questions No C)) in H.
      destruct H as [H|[]]. auto.
Qed.

(** ** The client *)
Lemma auth_messages_from E w m : reached E w -> has server_call (w_t w) = false -> In m (collect sent (w_t w)) -> msg_type m = HE_MSGID_AUTH ->
  exists v later, reached E v /\ w_t w = later ++ w_t v /\ has server_call (w_t v) = false /\ In m (auth_message (given (w_t v))).
Proof.
  intros R. revert w R.
  apply (@reached_ind E (fun w => has server_call (w_t w) = false -> In m (collect sent (w_t w)) -> msg_type m = HE_MSGID_AUTH ->
    exists v later, reached E v /\ w_t w = later ++ w_t v /\ has server_call (w_t v) = false /\ In m (auth_message (given (w_t v))))).
  - intros _ [].
  - intros w o rc w' R IH C Sv H T. destruct (server_call_before C Sv) as [Sv0 Nso]. destruct (call_log C) as [seg L].
    destruct (during_log sent C) as [ls Ds]. apply (in_during _ Ds) in H. destruct H as [H|H].
    { destruct (IH Sv0 H T) as (v & later & Rv & Lv & Sw & Hm). exists v, (seg ++ later). split; [exact Rv|]. split; [rewrite L, Lv; apply app_assoc|auto]. }
    exists w, seg. split; [exact R|]. split; [exact L|]. split; [exact Sv0|].
    destruct (C15_login R Sv0 Nso C) as (l & Dl & Hl).
    assert (In (Some m) l) as Il.
    { assert (ls = collect sent seg) as -> by (unfold during in Ds; rewrite L, collect_app in Ds; now apply app_inv_head in Ds).
      assert (l = collect login seg) as -> by (unfold during in Dl; rewrite L, collect_app in Dl; now apply app_inv_head in Dl).
      apply in_collect in H. destruct H as (a & s & e & b & -> & H). apply in_collect. exists a, s, e, b. split; [reflexivity|].
      destruct e; try (destruct H; fail). destruct o0; try (destruct H; fail). destruct H as [->|[]]. cbn [login]. rewrite T. now left. }
    assert (In (Some m) (map Some (auth_message (given (w_t w)))) -> In m (auth_message (given (w_t w)))) as Sm.
    { rewrite in_map_iff. intros (y & [= ->] & Hy). exact Hy. }
    destruct o; try (rewrite Hl in Il; destruct Il; fail).
    + destruct Hl as [->| ->]; [destruct Il|]. destruct Il as [Il|Il]; [discriminate Il|auto].
    + destruct Hl as [->| ->]; [destruct Il|]. destruct Il as [Il|Il]; [discriminate Il|auto].
    + rewrite Hl in Il. destruct (c_state (w_c w) =? HE_STATE_AUTHENTICATING); [auto|destruct Il].
Qed.
Lemma asks_auth k m q : In q (asks k m) -> msg_type m = HE_MSGID_AUTH /\ answers k (byte_at m 1) = true.
Proof.
  unfold asks. destruct (Z.eqb_spec (msg_type m) HE_MSGID_AUTH) as [T|T]; [|intros []]. destruct (cb_populate k) eqn:P; [|intros []].
  destruct (len m <? 2); [intros []|]. cbn [negb orb]. unfold answers. rewrite P. cbn [andb].
  destruct (byte_at m 1 =? HE_AUTH_TYPE_USERPASS); [destruct (cb_auth k); [auto|intros []]|].
  destruct (byte_at m 1 =? HE_AUTH_TYPE_TOKEN); [destruct (cb_authtok k); [auto|intros []]|].
  destruct (byte_at m 1 =? HE_AUTH_TYPE_CB); [destruct (cb_authbuf k); [auto|intros []]|intros []].
Qed.
Lemma method_byte k m : In m (auth_message k) -> byte_at m 1 = cr_method k.
Proof.
  unfold auth_message. destruct (Z.eqb_spec (cr_method k) HE_AUTH_TYPE_USERPASS) as [Q|_]; [intros [<-|[]]; now rewrite Q|].
  destruct (Z.eqb_spec (cr_method k) HE_AUTH_TYPE_TOKEN) as [Q|_]; [intros [<-|[]]; now rewrite Q|].
  destruct (Z.eqb_spec (cr_method k) HE_AUTH_TYPE_CB) as [Q|_]; [intros [<-|[]]; now rewrite Q|intros []].
Qed.
Lemma asked_about E v m k q : reached E v -> has server_call (w_t v) = false -> In m (auth_message (given (w_t v))) -> In q (asks k m) -> about (given (w_t v)) q.
Proof.
  intros R Sv Hm Hq. destruct (asks_auth Hq) as [_ A]. rewrite (method_byte Hm) in A. pose proof (C15_round_trip R Sv Hm A) as H. cbv zeta in H.
  destruct (asks k m) as [|q' [|? ?]]; [destruct Hq| |destruct q'; contradiction]. destruct Hq as [->|[]].
  destruct q; cbn [about]; [|exact H|exact H]. destruct H as (H1 & _ & _ & _ & _ & H2 & H3). auto.
Qed.

Lemma accepted_logged Ec c Es s past q : peers Ec c Es s -> (exists later, w_t s = later ++ past) -> accepted past q -> logged_in (w_t c) past.
Proof.
  intros P [later El] A. pose proof A as (l1 & s1 & v & b & E1 & _ & Q). apply last_question_in in Q.
  assert (In q (collect questions (w_t s))) as Q'.
  { rewrite El, E1. rewrite collect_app, in_app_iff. left. rewrite collect_app, in_app_iff. left. cbn [collect]. rewrite in_app_iff. now left. }
  destruct (questions_from (pe_server P) Q') as (x & k & Hx & Hq). apply (pe_up P) in Hx.
  destruct (asks_auth Hq) as [T _]. destruct (auth_messages_from (pe_client P) (pe_role P) Hx T) as (w & lt & Rw & Lw & Sw & Hm).
  exists q, (given (w_t w)). split; [exact A|]. split; [exists lt, (w_t w); auto|]. exact (asked_about Rw Sw Hm Hq).
Qed.

(** ** The theorems *)
(** Whatever a server delivers or sends, and when it is ONLINE: its host has accepted
    credentials that the client's host had set. *)
Lemma authenticated_logged Ec c Es s past : peers Ec c Es s -> (exists later, w_t s = later ++ past) -> authenticated past -> logged_in (w_t c) past.
Proof.
  intros P [later El] (a & st & e & b & -> & _ & A).
  assert (exists later', w_t s = later' ++ b) as Eb by (exists (later ++ a ++ [(st, e)]); rewrite El, <- !app_assoc; reflexivity).
  destruct (accepted_some (proj1 (reached_good (pe_server P))) Eb A) as [q Q]. destruct (accepted_logged P Eb Q) as (q' & k & Q' & H).
  exists q', k. split; [|exact H]. destruct Q' as (l & s' & v & p & -> & H'). exists (a ++ (st, e) :: l), s', v, p. split; [|exact H']. now rewrite <- app_assoc.
Qed.
Theorem C52_server_data : forall Ec c Es s later st e past, peers Ec c Es s ->
  w_t s = later ++ (st, e) :: past -> user_data e = true -> has client_call past = false -> logged_in (w_t c) past.
Proof.
  intros Ec c Es s later st e past P L U Cl. pose proof (proj1 (reached_good (pe_server P))) as R.
  assert (authenticated past) as A.
  { assert (every (fun _ e past => user_data e = true -> has client_call past = false -> authenticated past) (w_t s)) as V.
    { revert R. apply Reach_every; try discriminate. intros w e' R H U' C. destruct (emit_user_data R H U') as [[F|A] _]; [congruence|exact A]. }
    rewrite L in V. apply every_in in V. auto. }
  apply (authenticated_logged P); [|exact A]. exists (later ++ [(st, e)]). now rewrite <- app_assoc.
Qed.
Print Assumptions C52_server_data.
Theorem C52_server_online : forall Ec c Es s, peers Ec c Es s ->
  c_state (w_c s) = HE_STATE_ONLINE -> has client_call (w_t s) = false -> logged_in (w_t c) (w_t s).
Proof.
  intros Ec c Es s P O Cl. destruct (Reach_server_online (proj1 (reached_good (pe_server P))) Cl O) as [A _].
  apply (authenticated_logged P); [|exact A]. exists []. reflexivity.
Qed.
Print Assumptions C52_server_online.

(** A client that is ONLINE has received a configuration. *)
Definition client_conf (w : world) : Prop :=
  has server_call (w_t w) = false -> re (w_t w) = false -> c_state (w_c w) = HE_STATE_ONLINE -> has (received HE_MSGID_CONFIG_IPV4) (w_t w) = true.
Lemma Reach_client_conf w : Reach w -> client_conf w.
Proof.
  assert (forall w s e, client_conf w -> client_conf (World (w_c w) ((s, e) :: w_t w))) as Ps.
  { intros v s e I C Hr O. cbn [w_t w_c] in *. unfold has in *. cbn [existsb] in *. apply orb_false_iff in C, Hr. destruct C as [_ C], Hr as [_ Hr].
    apply orb_true_iff. right. now apply I. }
  apply Reach_ind'; try (intros; now apply Ps).
  - intros _ _ H. discriminate H.
  - intros v w' R IH S C Hr O. assert (Steps v w') as S' by now apply Steps_one.
    assert (has server_call (w_t v) = false) as C' by (eapply has_anti; eauto). assert (re (w_t v) = false) as Hr' by (eapply re_anti; eauto).
    assert (has (received HE_MSGID_CONFIG_IPV4) (w_t v) = true) as A; [|exact (has_mono S' A)].
    destruct (step_state S) as [E|(s & St & E)]; [apply IH; auto; congruence|].
    rewrite E in O. subst s. destruct St as (_ & _ & _ & Hs).
    destruct Hs as [[F _]|[[F _]|[[F _]|[[F _]|[(_ & CO & _ & H)|[[F _]|[F _]]]]]]]; try discriminate F.
    destruct H as [[H _]|(_ & H & _)].
    + exfalso. destruct (now_authenticated R H) as (l & s & e & r & E' & _ & Q). destruct (call_part (w_t v)) as [l' El].
      assert (has auth_accepted_ev (w_t v) = true) as HA.
      { rewrite El, E', !has_app. unfold has at 2. cbn [existsb]. fold (has auth_accepted_ev r). rewrite Q. now rewrite orb_true_r, orb_true_r. }
      rewrite (auth_server R HA) in C'. discriminate C'.
    + destruct (call_part (w_t v)) as [l El]. rewrite El, has_app. unfold now in H. now rewrite H.
Qed.

(** ** Configuration messages *)
(** What a server has offered since it was created. *)
Inductive offered (le : bool) : list offer -> Prop :=
| offered_none : offered le []
| offered_some session l l' : offered le l -> offers le session l' -> offered le (l ++ l').
Lemma offers_reply le session L : offers le session L -> forall A m B, L = A ++ Reply m :: B ->
  exists A' l p d, A = A' ++ [Host l p d; HostCode HE_SUCCESS] /\ m = config_message le (fit l) (fit p) (fit d) session.
Proof.
  induction 1 as [|l p d rest H IH|l p d v rest N H IH]; intros A m B Q.
  - destruct A; discriminate Q.
  - destruct A as [|x1 [|x2 [|x3 A]]]; try discriminate Q.
    + cbn in Q. injection Q as <- <- <- _. exists [], l, p, d. auto.
    + cbn in Q. injection Q as <- <- <- Q. destruct (IH _ _ _ Q) as (A' & l' & p' & d' & -> & M). eexists (_ :: _ :: _ :: A'), l', p', d'. split; [reflexivity|exact M].
  - destruct A as [|x1 [|x2 A]]; try discriminate Q. cbn in Q. injection Q as <- <- Q. destruct (IH _ _ _ Q) as (A' & l' & p' & d' & -> & M).
    eexists (_ :: _ :: A'), l', p', d'. split; [reflexivity|exact M].
Qed.
Lemma offered_reply le L : offered le L -> forall A m B, L = A ++ Reply m :: B ->
  exists A' l p d session, A = A' ++ [Host l p d; HostCode HE_SUCCESS] /\ m = config_message le (fit l) (fit p) (fit d) session.
Proof.
  induction 1 as [|session l l' H IH O]; intros A m B Q; [destruct A; discriminate Q|].
  apply app_eq_app in Q. destruct Q as (c & [[-> Q]|[-> Q]]).
  - destruct c as [|x c]; cbn in Q.
    + symmetry in Q. destruct (offers_reply O (A := []) Q) as (A' & a & b & d & F & _). destruct A'; discriminate F.
    + injection Q as <- ->. eapply IH. reflexivity.
  - destruct (offers_reply O Q) as (A' & a & b & d & -> & M). exists (l ++ A'), a, b, d, session. split; [now rewrite app_assoc|exact M].
Qed.
Lemma reached_offered E w : reached E w -> offered (e_le E) (collect offering (w_t w)).
Proof.
  revert w. apply reached_ind; [constructor|]. intros w o rc w' _ IH C. destruct (C16_server_replies C) as (l & D & O & _).
  unfold during in D. rewrite D. econstructor; eauto.
Qed.
Lemma config_granted Ec c Es s m : peers Ec c Es s -> In m (collect sent (w_t s)) -> msg_type m = HE_MSGID_CONFIG_IPV4 ->
  exists l p d, granted (e_le Es) (w_t c) (w_t s) l p d m.
Proof.
  intros P H T. apply in_collect in H. destruct H as (later & st & e & past & L & H).
  destruct e; try (destruct H; fail). destruct o; try (destruct H; fail). destruct H as [->|[]].
  pose proof (proj1 (reached_good (pe_server P))) as R.
  assert (authenticated (upto is_call past)) as A.
  { assert (every (fun _ e past => config_sent e = true -> authenticated (upto is_call past)) (w_t s)) as V.
    { revert R. apply Reach_every; try discriminate. intros w e R [_ H] U. destruct e; try discriminate U. destruct o; try discriminate U. cbn in U. destruct H as (_ & _ & H).
      apply Z.eqb_eq in U. apply now_authenticated; [exact R|].
      repeat destruct H as [[T' H]|H]; try (rewrite T' in U; discriminate U); [now destruct H|]. destruct H as [T' _]. rewrite T' in U. discriminate U. }
    rewrite L in V. apply every_in in V. apply V. cbn. now rewrite T. }
  assert (authenticated past) as A'.
  { destruct (call_part past) as [l El]. destruct A as (a & s' & e & b & E' & Pk & Q). exists a, s', e, (b ++ l). split; [rewrite El at 1; rewrite E', <- app_assoc; reflexivity|].
    split; [exact Pk|]. rewrite has_app, Q. reflexivity. }
  assert (logged_in (w_t c) past) as Lg by (apply (authenticated_logged P); [exists (later ++ [(st, EWOp (WSend m))]); now rewrite <- app_assoc|exact A']).
  pose proof (reached_offered (pe_server P)) as O. rewrite L, collect_app in O. cbn [collect] in O.
  assert (offering st (EWOp (WSend m)) = [Reply m]) as Q by (cbn; now rewrite T). rewrite Q, <- app_assoc in O.
  destruct (offered_reply O eq_refl) as (A1 & l & p & d & session & E1 & M).
  exists l, p, d, later, st, past, session. split; [exact L|]. split; [exact Lg|]. split; [|exact M]. rewrite E1, in_app_iff. right. now left.
Qed.

(** A client that is ONLINE: the server's host has accepted its credentials, and has
    given the configuration that the client has received. *)
Theorem C52_client_online : forall Ec c Es s, peers Ec c Es s -> c_state (w_c c) = HE_STATE_ONLINE ->
  exists x l p d, In x (collect got_msg (w_t c)) /\ granted (e_le Es) (w_t c) (w_t s) l p d (snd x).
Proof.
  intros Ec c Es s P O. pose proof (Reach_client_conf (proj1 (reached_good (pe_client P))) (pe_role P) (reached_re (pe_client P)) O) as H.
  destruct (collect_received H) as (x & Hx & T). destruct (config_granted P (pe_down P _ Hx) T) as (l & p & d & G). exists x, l, p, d. auto.
Qed.
Print Assumptions C52_client_online.
(** The same before a client delivers or sends anything. *)
Theorem C52_client_data : forall Ec c Es s later st e past, peers Ec c Es s ->
  w_t c = later ++ (st, e) :: past -> user_data e = true ->
  exists x l p d, In x (collect got_msg past) /\ granted (e_le Es) (w_t c) (w_t s) l p d (snd x).
Proof.
  intros Ec c Es s later st e past P L U. pose proof (proj1 (reached_good (pe_client P))) as R.
  assert (has server_call past = false /\ re past = false) as [Sv Hr].
  { pose proof (pe_role P) as H1. pose proof (reached_re (pe_client P)) as H2. unfold re in *. rewrite L, has_app in H1, H2. apply orb_false_iff in H1, H2. destruct H1 as [_ H1], H2 as [_ H2].
    split; eapply has_cons_false; eassumption. }
  assert (has (received HE_MSGID_CONFIG_IPV4) past = true) as H.
  { assert (every (fun _ e past => user_data e = true -> has server_call past = false -> re past = false -> has (received HE_MSGID_CONFIG_IPV4) past = true) (w_t c)) as V.
    { revert R. apply Reach_every; try discriminate. intros w e' R H U' C Hr'. pose proof (emit_user_data_seq R H U' Hr') as O. now apply (Reach_client_conf R). }
    rewrite L in V. apply every_in in V. auto. }
  destruct (collect_received H) as (x & Hx & T).
  assert (In x (collect got_msg (w_t c))) as Hx' by (rewrite L, collect_app; cbn [collect]; rewrite !in_app_iff; auto).
  destruct (config_granted P (pe_down P _ Hx') T) as (l & p & d & G). exists x, l, p, d. auto.
Qed.
Print Assumptions C52_client_data.

(** What network_config_ipv4_cb is told is what the server's host gave. *)
Lemma told_from E w a b d mtu : reached E w -> In (NetCfg a b d mtu) (collect configuring (w_t w)) ->
  exists x k l, In x (collect got_msg (w_t w)) /\ tells k x l /\ In (NetCfg a b d mtu) l.
Proof.
  revert w. apply (@reached_ind E (fun w => In (NetCfg a b d mtu) (collect configuring (w_t w)) -> exists x k l, In x (collect got_msg (w_t w)) /\ tells k x l /\ In (NetCfg a b d mtu) l)).
  - intros [].
  - intros w o rc w' R IH C. destruct (during_log got_msg C) as [lg Dg].
    assert (In (NetCfg a b d mtu) (collect configuring (w_t w)) -> exists x k l, In x (collect got_msg (w_t w')) /\ tells k x l /\ In (NetCfg a b d mtu) l) as Old.
    { intros H. destruct (IH H) as (x & k & l & H1 & H2). exists x, k, l. split; [|exact H2]. apply (in_during _ Dg). auto. }
    destruct (match o with OOutside _ => true | _ => false end) eqn:Oo.
    + destruct o; try discriminate Oo. destruct (C16_client_told C) as (ds & D & F). intros H. apply (in_both configuring) in H. apply (in_during _ D) in H.
      destruct H as [H|H]; [apply Old; now apply (in_both configuring)|]. destruct (in_caused_r H) as ([x l] & Id & Iq).
      rewrite Forall_forall in F. specialize (F _ Id). cbn [snd] in Iq. cbv iota beta in F. destruct (c_is_server (w_c w)); [rewrite F in Iq; destruct Iq|].
      exists x, (c_cbs (w_c w)), l. split; [|auto]. apply (in_both_got configuring). apply (in_during _ D). right. exact (in_caused_l Id).
    + assert (forall b, o <> OOutside b) as No by (intros ? ->; discriminate Oo). intros H. apply (in_during _ (C16_no_other No C)) in H.
      destruct H as [H|[]]. auto.
Qed.
Theorem C52_configuration : forall Ec c Es s a b e mtu, peers Ec c Es s -> In (NetCfg a b e mtu) (collect configuring (w_t c)) ->
  exists l p d m, granted (e_le Es) (w_t c) (w_t s) l p d m /\
    cstr a = firstn 23 (cstr l) /\ cstr b = firstn 23 (cstr p) /\ cstr e = firstn 23 (cstr d) /\ mtu = 1350.
Proof.
  intros Ec c Es s a b e mtu P H. destruct (told_from (pe_client P) H) as ([st m] & k & r & Hx & Ht & Hi).
  assert (msg_type m = HE_MSGID_CONFIG_IPV4 /\ st = HE_STATE_AUTHENTICATING /\ cb_netcfg k = true) as (T & St & K).
  { unfold tells in Ht. destruct ((msg_type m =? HE_MSGID_CONFIG_IPV4) && (st =? HE_STATE_AUTHENTICATING) && (105 <=? len m) && cb_netcfg k) eqn:Q.
    - apply andb_true_iff in Q. destruct Q as [Q Q4]. apply andb_true_iff in Q. destruct Q as [Q _]. apply andb_true_iff in Q. destruct Q as [Q1 Q2].
      apply Z.eqb_eq in Q1, Q2. auto.
    - exfalso. match type of Ht with (if ?x then _ else _) => destruct x end; subst r; cbn [In] in Hi; intuition discriminate. }
  destruct (config_granted P (pe_down P _ Hx) T) as (l & p & d & G). pose proof G as (later & st' & past & session & _ & _ & _ & M). cbn [snd] in *.
  rewrite M, St in Ht. destruct (C16_round_trip K Ht) as (l' & p' & d' & -> & _ & _ & _ & C1 & C2 & C3). destruct Hi as [Hi|[]]. injection Hi as <- <- <- <-.
  exists l, p, d, m. auto.
Qed.
Print Assumptions C52_configuration.

(** ** The hypotheses can hold *)
(** [client_data] and [server_data] are the two ends of one tunnel: the server gets the
    credentials and the packet that the client sends, the client gets the configuration
    and the packet that the server sends. *)
Definition message_dec : forall a b : bytes, {a = b} + {a <> b} := list_eq_dec Z.eq_dec.
Definition within (a b : list bytes) : bool := forallb (fun m => if in_dec message_dec m b then true else false) a.
Lemma within_in a b : within a b = true -> forall m, In m a -> In m b.
Proof. unfold within. rewrite forallb_forall. intros H m I. specialize (H m I). now destruct (in_dec message_dec m b). Qed.
Definition the_client : world := world_at client_data.
Definition the_server : world := world_at server_data.
Lemma the_peers : peers plain_env the_client plain_env the_server.
Proof.
  assert (forall a b : trace, within (map snd (collect got_msg a)) (collect sent b) = true -> forall x, In x (collect got_msg a) -> In (snd x) (collect sent b)) as W.
  { intros a b H x I. apply (within_in H). now apply in_map. }
  constructor.
  - apply (@world_at_reached client_data). vm_compute. reflexivity.
  - apply (@world_at_reached server_data). vm_compute. reflexivity.
  - vm_compute. reflexivity.
  - apply W. vm_compute. reflexivity.
  - apply W. vm_compute. reflexivity.
Qed.
(** Both are ONLINE and have exchanged a packet, so C52_client_online and
    C52_server_online apply, and C52_client_data, C52_server_data and C52_configuration
    to something. *)
Example C52_example : peers plain_env the_client plain_env the_server /\
  c_state (w_c the_client) = HE_STATE_ONLINE /\ c_state (w_c the_server) = HE_STATE_ONLINE /\ has client_call (w_t the_server) = false /\
  has user_data (w_t the_client) = true /\ has user_data (w_t the_server) = true /\
  existsb (fun x => match x with NetCfg a _ _ _ => if message_dec (cstr a) (ip 1) then true else false | _ => false end) (collect configuring (w_t the_client)) = true.
Proof. split; [exact the_peers|]. vm_compute. repeat split; reflexivity. Qed.
(** And the login they agree on: the server's host accepted "user"/"pass". *)
Lemma accepted_in t q : accepted t q -> In q (collect questions t).
Proof.
  intros (later & st & v & past & -> & _ & Q). apply last_question_in in Q. rewrite collect_app, in_app_iff. left. cbn [collect]. rewrite in_app_iff. now left.
Qed.
Example C52_login_example : exists u p, accepted (w_t the_server) (AskUser u p) /\ cstr u = user /\ cstr p = pass /\ cr_user (given (w_t the_client)) = user.
Proof.
  assert (map (fun q => match q with AskUser u p => Some (cstr u, cstr p) | _ => None end) (collect questions (w_t the_server)) = [Some (user, pass)]) as Q by (vm_compute; reflexivity).
  assert (cr_user (given (w_t the_client)) = user) as G by (vm_compute; reflexivity).
  assert (c_state (w_c the_server) = HE_STATE_ONLINE) as O by (vm_compute; reflexivity).
  assert (has client_call (w_t the_server) = false) as C by (vm_compute; reflexivity).
  destruct (C52_server_online the_peers O C) as (q & k & A & _ & _). pose proof (accepted_in A) as I.
  apply (in_map (fun q => match q with AskUser u p => Some (cstr u, cstr p) | _ => None end)) in I. rewrite Q in I. destruct I as [I|[]].
  destruct q as [u p|b|ty b]; try discriminate I. exists u, p. split; [exact A|]. injection I as Iu Ip. split; [now symmetry|]. split; [now symmetry|exact G].
Qed.
