(** C55: a login completes, and a login or an answer that was lost is made good by one retry. *)
From Verif Require Import Base Codes Ctx Config MssSpec Wire WireSpec ConnState Conn ConnSpec HistSpec MsgSpec CallSpec CredSpec ConfSpec AgreeSpec Reaction.
From Verif Require Import ConnSteps ConnWp ConnWpApi Frame FrameLoop Seq SeqLoop SeqApi SeqWire SetProofs CredProofs CredServer Props_Cred ConfServer ConfClient Props_Conf Props_Agree TimerSpec TimerProofs Scenario Props_Data Props_Connect Props_Timer Props_Nudge MoveSpec Props_Move LoginSpec.
Unset Strict Implicit.

(** ** Views of a log *)
Lemma collect_map A B (f : Z -> ev -> list A) (g : Z -> ev -> list B) (h : A -> list B) : (forall s e, g s e = flat_map h (f s e)) -> forall t, collect g t = flat_map h (collect f t).
Proof. intros H. induction t as [|[s e] t IH]; [reflexivity|]. cbn [collect]. now rewrite flat_map_app, IH, H. Qed.
Lemma during_map A B (f : Z -> ev -> list A) (g : Z -> ev -> list B) (h : A -> list B) w w' l : (forall s e, g s e = flat_map h (f s e)) -> during f w w' l -> during g w w' (flat_map h l).
Proof. intros H D. unfold during in *. now rewrite !(collect_map H), D, flat_map_app. Qed.
Lemma during_same A (f : Z -> ev -> list A) w w' l l' : during f w w' l -> during f w w' l' -> l = l'.
Proof. unfold during. intros H1 H2. rewrite H1 in H2. now apply app_inv_head in H2. Qed.
Definition msgs (x : milestone) : list (Z * bytes) := match x with Message s m => [(s, m)] | _ => [] end.
Definition vs (x : milestone) : list Z := match x with Verdict v => [v] | _ => [] end.
Definition ps (x : milestone) : list Z := match x with Provided v => [v] | _ => [] end.
Definition aps (x : milestone) : list Z := match x with Applied v => [v] | _ => [] end.
Definition provided (_ : Z) (e : ev) : list Z := match e with ECbRet KPopulate v => [v] | _ => [] end.
Definition codes (x : offer) : list Z := match x with HostCode v => [v] | _ => [] end.
Ltac view := intros s e; destruct e; try reflexivity;
  match goal with |- context [EWOp ?o] => destruct o; try reflexivity | |- context [EWEnd ?o _ _ _] => destruct o; try reflexivity | |- context [ECbRet ?c _] => destruct c; try reflexivity end;
  match goal with |- ?a = ?b => cbn [got_msg milestones verdicts applied offering]; case_if; reflexivity end.
Lemma got_msgs s e : got_msg s e = flat_map msgs (milestones s e).
Proof. revert s e. view. Qed.
Lemma verdicts_vs s e : verdicts s e = flat_map vs (milestones s e).
Proof. revert s e. view. Qed.
Lemma provided_ps s e : provided s e = flat_map ps (milestones s e).
Proof. revert s e. view. Qed.
Lemma applied_aps s e : applied s e = flat_map aps (milestones s e).
Proof. revert s e. view. Qed.
Lemma provided_codes s e : provided s e = flat_map codes (offering s e).
Proof. revert s e. view. Qed.
Definition lefts {A B} (x : A + B) : list A := match x with inl a => [a] | inr _ => [] end.
Definition rights {A B} (x : A + B) : list B := match x with inl _ => [] | inr b => [b] end.
Lemma lefts_l A B (l : list A) : flat_map (@lefts A B) (map inl l) = l.
Proof. induction l; [reflexivity|]. cbn. now rewrite IHl. Qed.
Lemma lefts_r A B (l : list B) : flat_map (@lefts A B) (map inr l) = [].
Proof. induction l; [reflexivity|exact IHl]. Qed.
Lemma rights_l A B (l : list A) : flat_map (@rights A B) (map inl l) = [].
Proof. induction l; [reflexivity|exact IHl]. Qed.
Lemma rights_r A B (l : list B) : flat_map (@rights A B) (map inr l) = l.
Proof. induction l; [reflexivity|]. cbn. now rewrite IHl. Qed.
Lemma both_got B (g : Z -> ev -> list B) s e : got_msg s e = flat_map lefts (both g s e).
Proof. unfold both. now rewrite flat_map_app, lefts_l, lefts_r, app_nil_r. Qed.
Lemma both_right B (g : Z -> ev -> list B) s e : g s e = flat_map rights (both g s e).
Proof. unfold both. now rewrite flat_map_app, rights_l, rights_r. Qed.
Lemma caused_lefts B (ds : list ((Z * bytes) * list B)) : flat_map lefts (caused ds) = map fst ds.
Proof. unfold caused. induction ds as [|d ds IH]; [reflexivity|]. cbn [flat_map map]. rewrite flat_map_app, IH. cbn [flat_map lefts]. now rewrite lefts_r. Qed.
Lemma caused_rights B (ds : list ((Z * bytes) * list B)) : flat_map rights (caused ds) = flat_map snd ds.
Proof. unfold caused. induction ds as [|d ds IH]; [reflexivity|]. cbn [flat_map]. rewrite flat_map_app, IH. cbn [flat_map rights app]. now rewrite rights_r. Qed.
(** If one message was received, what was asked or told is what it brought. *)
Lemma one_caused B (g : Z -> ev -> list B) ds x w w' : during (both g) w w' (caused ds) -> during got_msg w w' [x] -> exists l, ds = [(x, l)] /\ during g w w' l.
Proof.
  intros D G. pose proof (during_same (during_map (both_got g) D) G) as Q. rewrite caused_lefts in Q. destruct ds as [|[y l] [|z ds]]; try discriminate Q. injection Q as ->. exists l. split; [reflexivity|].
  pose proof (during_map (both_right g) D) as H. rewrite caused_rights in H. cbn [flat_map snd] in H. now rewrite app_nil_r in H.
Qed.

(** ** One message in order *)
Lemma after_nothing con srv k s l : in_order con srv k s Nothing l = true -> flat_map msgs l = [] -> l = [].
Proof. destruct l as [|x l]; [reflexivity|]. cbn [in_order]. destruct x; cbn [in_turn andb]; discriminate. Qed.
Lemma one_message con srv k s q l st m : in_order con srv k s q l = true -> q = AtStart \/ q = Nothing -> flat_map msgs l = [(st, m)] ->
  exists pre rest, l = pre ++ Message st m :: rest /\ (pre = [] \/ q = AtStart /\ (con || (s =? HE_STATE_CONNECTING) = true) /\ pre = [Negotiating; Secured]) /\ flat_map msgs rest = [] /\
    st = moves srv k pre s /\ st <> HE_STATE_CONNECTING /\ in_order con srv k (moved srv k st (Message st m)) (asked srv k st (Message st m)) rest = true.
Proof.
  intros H Q M.
  assert (forall s q l, q = AtStart \/ q = Nothing -> in_order con srv k s q l = true -> flat_map msgs l = [(st, m)] -> (forall l', l <> Negotiating :: l') ->
    exists rest, l = Message st m :: rest /\ flat_map msgs rest = [] /\ st = s /\ st <> HE_STATE_CONNECTING /\ in_order con srv k (moved srv k st (Message st m)) (asked srv k st (Message st m)) rest = true) as Go.
  { intros s' q' l' Q' H' M' N. destruct l' as [|x l']; [discriminate M'|]. cbn [in_order] in H'. apply andb_true_iff in H' as [T H'].
    destruct x; [exfalso; now apply (N l')| | | | |]; try (destruct Q' as [-> | ->]; discriminate T). cbn [flat_map msgs app] in M'. injection M' as -> -> M'. exists l'.
    assert (st = s' /\ s' <> HE_STATE_CONNECTING) as [Qs Ns].
    { destruct Q' as [-> | ->]; cbn [in_turn] in T; apply andb_true_iff in T as [T1 T2]; apply Z.eqb_eq in T1; destruct (Z.eqb_spec s' HE_STATE_CONNECTING); try discriminate T2; auto. }
    rewrite Qs in *. auto. }
  destruct l as [|x l]; [discriminate M|]. destruct x; try (destruct (Go s q (_ :: l) Q H M) as (rest & -> & R & Qs & N & O); [discriminate|exists [], rest; auto 6]).
  cbn [in_order] in H. apply andb_true_iff in H as [T H]. destruct Q as [-> | ->]; [|discriminate T]. cbn [in_turn] in T. cbn [moved asked] in H. destruct l as [|x l]; [discriminate M|]. cbn [in_order] in H. apply andb_true_iff in H as [T2 H].
  destruct x; try discriminate T2. destruct (Go _ Nothing l (or_intror eq_refl) H) as (rest & -> & R & Qs & N & O); [exact M| |].
  { intros l' ->. cbn [in_order in_turn andb] in H. discriminate H. }
  exists [Negotiating; Secured], rest. split; [reflexivity|]. split; [right; auto|]. split; [exact R|]. split; [exact Qs|]. split; [exact N|exact O].
Qed.
(** A message that makes the host be asked is one it judges. *)
Lemma asks_judged k m : asks k m <> [] -> judged k m = true.
Proof.
  unfold asks, judged, auth_refused, judges. change (byte_at m 1) with (nth 1 m 0). destruct (msg_type m =? HE_MSGID_AUTH); cbn [negb orb andb]; [|congruence]. destruct (cb_populate k); cbn [negb orb]; [|congruence].
  destruct (len m <? 2) eqn:L2; [congruence|]. cbv zeta.
  destruct (Z.eqb_spec (nth 1 m 0) HE_AUTH_TYPE_USERPASS) as [Q|N1]; [|destruct (Z.eqb_spec (nth 1 m 0) HE_AUTH_TYPE_TOKEN) as [Q|N2]; [|destruct (Z.eqb_spec (nth 1 m 0) HE_AUTH_TYPE_CB) as [Q|N3]; [|congruence]]].
  - try rewrite Q. destruct (cb_auth k); cbn [andb]; [|congruence]. destruct (Z.leb_spec 104 (len m)); [|congruence]. intros _. change (HE_AUTH_TYPE_USERPASS =? HE_AUTH_TYPE_TOKEN) with false. change (HE_AUTH_TYPE_USERPASS =? HE_AUTH_TYPE_CB) with false.
    destruct (Z.ltb_spec (len m) 104); [lia|]. reflexivity.
  - try rewrite Q. destruct (cb_authtok k); cbn [andb]; [|congruence]. destruct (Z.ltb_spec 4 (len m)); cbn [andb]; [|congruence]. destruct (Z.leb_spec (4 + field16 m 2) (len m)); [|congruence]. intros _.
    change (HE_AUTH_TYPE_TOKEN =? HE_AUTH_TYPE_CB) with false. destruct (Z.leb_spec (len m) 4); [lia|]. destruct (Z.ltb_spec (len m) (4 + field16 m 2)); [lia|]. rewrite orb_true_r. reflexivity.
  - try rewrite Q. destruct (cb_authbuf k); cbn [andb]; [|congruence]. destruct (Z.ltb_spec 4 (len m)); cbn [andb]; [|congruence]. destruct (Z.leb_spec (4 + field16 m 2) (len m)); [|congruence]. intros _.
    destruct (Z.leb_spec (len m) 4); [lia|]. destruct (Z.ltb_spec (len m) (4 + field16 m 2)); [lia|]. rewrite !orb_true_r. reflexivity.
Qed.
Lemma about_given E w m k : reached E w -> has server_call (w_t w) = false -> In m (auth_message (given (w_t w))) -> answers k (cr_method (given (w_t w))) = true ->
  exists q, asks k m = [q] /\ about (given (w_t w)) q.
Proof.
  intros Re Sv Im An. pose proof (C15_round_trip Re Sv Im An) as H. destruct (asks k m) as [|[u p|b|ty b] [|? ?]]; try contradiction; eexists; (split; [reflexivity|]); cbn [about]; intuition.
Qed.

(** ** The client tries again *)
(** With a method chosen there is exactly one message to send. *)
Lemma given_methods t : let k := given t in
  (cr_method k = HE_AUTH_TYPE_USERPASS \/ cr_method k = HE_AUTH_TYPE_TOKEN \/ cr_method k = HE_AUTH_TYPE_CB) \/ k = Creds 0 [] [] [].
Proof.
  cbv zeta. induction t as [|[s e] t IH]; [now right|]. destruct e; try exact IH. cbn [given]. destruct o; try exact IH; cbn [cr_method]; try (left; now left); case_if; try exact IH; left; right; [left|right]; reflexivity.
Qed.
Lemma chosen_message t : given t <> Creds 0 [] [] [] -> exists m, auth_message (given t) = [m].
Proof.
  intros N. destruct (given_methods t) as [H|H]; [|contradiction]. unfold auth_message. destruct H as [-> |[-> | ->]]; eexists; reflexivity.
Qed.
(** On the way to a login. *)
Definition early (s : Z) : Prop := s = HE_STATE_CONNECTING \/ s = HE_STATE_AUTHENTICATING.
Lemma early_before srv k l : forall s q, in_order false srv k s q l = true -> (q = InHandshake -> early s) -> early (moves srv k l s) -> early s.
Proof.
  induction l as [|x l IH]; intros s q H Q M; [exact M|]. cbn [in_order] in H. apply andb_true_iff in H as [T H]. unfold moves in M. cbn [fold_left] in M.
  assert (asked srv k s x = InHandshake -> x = Negotiating) as Ne.
  { destruct x; cbn [asked]; try discriminate; [reflexivity| |]; repeat (match goal with |- context [if ?b then _ else _] => destruct b end); discriminate. }
  destruct x.
  - left. destruct q; try discriminate T. cbn [in_turn orb] in T. now apply Z.eqb_eq in T.
  - destruct q; try discriminate T. now apply Q.
  - apply (IH _ _ H) in M; [|intros X; discriminate (Ne X)]. cbn [moved] in M. destruct srv.
    + destruct (denied_unasked k m); [destruct M; discriminate|exact M].
    + destruct (configures s m) eqn:Cf; [|exact M]. unfold configures in Cf. apply andb_true_iff in Cf as [Cf _]. apply andb_true_iff in Cf as [Cf _]. apply Z.eqb_eq in Cf. now right.
  - apply (IH _ _ H) in M; [|intros X; discriminate (Ne X)]. cbn [moved] in M. destruct (v =? 0); [destruct M; discriminate|exact M].
  - apply (IH _ _ H) in M; [|discriminate]. cbn [moved] in M. destruct (rc =? 0); [destruct M; discriminate|exact M].
  - apply (IH _ _ H) in M; [|discriminate]. cbn [moved] in M. destruct (rc =? 0); [destruct M; discriminate|exact M].
Qed.
Definition nobody : credentials := Creds 0 [] [] [].
Lemma given_kept E o w rc w' : call E o w rc w' -> given (w_t w) <> nobody -> given (w_t w') <> nobody.
Proof.
  intros C. destruct (call_body C) as (w1 & Bd & ->). destruct (given_body Bd) as [G _]. cbn [push w_t given]. rewrite G. destruct o; auto; try (intros _; discriminate); case_if; auto; intros _; discriminate.
Qed.
Lemma early_chosen E w : reached E w -> has server_call (w_t w) = false -> early (c_state (w_c w)) -> given (w_t w) <> nobody.
Proof.
  revert w. apply (@reached_ind E (fun w => has server_call (w_t w) = false -> early (c_state (w_c w)) -> given (w_t w) <> nobody)); [intros _ [X|X]; discriminate X|].
  intros w o rc w' Re IH C Sv Ea. destruct (server_call_before C Sv) as [Sv0 No]. specialize (IH Sv0). apply (given_kept C). destruct (connects o) eqn:Co.
  - destruct o; try discriminate Co; [|discriminate No]. pose proof (C26_client_connect C) as K. destruct (client_missing x (w_c w)) as [code|] eqn:Mi.
    + destruct K as (_ & _ & Q & _). rewrite Q in Ea. now apply IH.
    + destruct (known_reached Re Sv0) as (_ & Hd & _). rewrite <- Hd. pose proof (reached_cok Re) as Cok. pose proof (ok_auth_len Cok) as La. pose proof (ok_auth_buf Cok) as Lb. intros Q. unfold held, nobody in Q. injection Q as Q1 Q2 Q3 Q4.
      unfold client_missing, buffer_set, no_text in Mi. rewrite Q2 in Mi. destruct (Z.eqb_spec (c_auth_len (w_c w)) 0) as [Z0|N0]; [discriminate Mi|].
      apply (f_equal (@length Z)) in Q4. rewrite firstn_length in Q4. unfold len in Lb. unfold HE_MAX_MTU in *. cbn [length] in Q4. lia.
  - apply IH. destruct (C54_asks C) as (l & _ & O & Q). rewrite Co in O. rewrite Q in Ea.
    apply (early_before O); [discriminate|]. revert Ea. destruct o; cbn [leaves_by]; auto; case_if; auto; intros [X|X]; discriminate X.
Qed.

(** ** Theorems *)
(** A client that waits for the answer to its login sends it again at every nudge,
    the one message its credentials make, and goes on waiting. *)
Theorem C55_retry : forall E w rc w', reached E w -> has server_call (w_t w) = false -> c_state (w_c w) = HE_STATE_AUTHENTICATING -> call E ONudge w rc w' ->
  rc = HE_SUCCESS /\ c_state (w_c w') = HE_STATE_AUTHENTICATING /\ given (w_t w') = given (w_t w) /\
  exists m, auth_message (given (w_t w)) = [m] /\ during login w w' [Some m].
Proof.
  intros E w rc w' Re Sv St C. pose proof (C41_nudge C) as Ng. rewrite St in Ng. change (HE_STATE_AUTHENTICATING =? HE_STATE_AUTHENTICATING) with true in Ng. cbv iota in Ng. destruct Ng as (Q1 & Q2 & _).
  split; [exact Q1|]. split; [exact Q2|]. split.
  { destruct (call_body C) as (w1 & Bd & ->). destruct (given_body Bd) as [G _]. exact G. }
  destruct (@chosen_message (w_t w)) as [m Hm]; [apply (early_chosen Re Sv); now right|]. exists m. split; [exact Hm|].
  destruct (@C15_login E ONudge w rc w' Re Sv eq_refl C) as (l & D & Ql). rewrite St in Ql. change (HE_STATE_AUTHENTICATING =? HE_STATE_AUTHENTICATING) with true in Ql. cbv iota in Ql. rewrite Hm in Ql. rewrite Ql in D. exact D.
Qed.
Print Assumptions C55_retry.

(** A server that receives this message, in whatever state it is, asks its host
    about exactly these credentials, once; if the host denies them it closes, and
    if it accepts them it is asked for a configuration, once; if it provides one
    the server is ONLINE and sends exactly that. *)
Theorem C55_server : forall Ec c Es b s rc s' st m, reached Ec c -> has server_call (w_t c) = false -> In m (auth_message (given (w_t c))) ->
  c_is_server (w_c s) = true -> answers (c_cbs (w_c s)) (cr_method (given (w_t c))) = true ->
  call Es (OOutside b) s rc s' -> during got_msg s s' [(st, m)] ->
  exists q v, during questions s s' [q] /\ about (given (w_t c)) q /\ during verdicts s s' [v] /\
    if v =? 0 then c_state (w_c s') = HE_STATE_DISCONNECTING /\ during offering s s' []
    else exists l p d r, during offering s s' (Host l p d :: HostCode r ::
           if r =? HE_SUCCESS then [Reply (config_message (e_le Es) (fit l) (fit p) (fit d) (c_session (w_c s)))] else []) /\
         (r = HE_SUCCESS -> c_state (w_c s') = HE_STATE_ONLINE).
Proof.
  intros Ec c Es b s rc s' st m Re Sv Im Is An C G. destruct (about_given Re Sv Im An) as (q & Aq & Ab).
  destruct (C15_questions C) as (ds & D & F). destruct (one_caused D G) as (qs & -> & Dq). pose proof (Forall_inv F) as F1. cbv beta iota in F1. rewrite Is, Aq in F1. subst qs. clear F D.
  destruct (C54_asks C) as (l & D & O & Q). cbn [connects leaves_by] in *.
  assert (c_is_server (w_c s') = true /\ c_cbs (w_c s') = c_cbs (w_c s)) as [Is' Qk].
  { destruct (asked_during C) as (_ & _ & _ & St). unfold stable in St. injection St; intros; split; congruence. }
  rewrite Is', Qk in *. assert (flat_map msgs l = [(st, m)]) as M by exact (during_same (during_map got_msgs D) G).
  destruct (one_message O (or_introl eq_refl) M) as (pre & rest & -> & Pre & Mr & Qst & N & O2).
  assert (judged (c_cbs (w_c s)) m = true) as Ju by (apply asks_judged; rewrite Aq; discriminate). cbn [asked] in O2. rewrite Ju in O2.
  assert (flat_map vs pre = [] /\ flat_map ps pre = []) as [Vp Pp] by (destruct Pre as [-> |(_ & _ & ->)]; split; reflexivity).
  destruct rest as [|x rest]; [discriminate O2|]. cbn [in_order] in O2. apply andb_true_iff in O2 as [T O2]. destruct x; try discriminate T. cbn [asked] in O2.
  pose proof (during_map verdicts_vs D) as Dv. rewrite flat_map_app, Vp in Dv. pose proof (during_map provided_ps D) as Dp. rewrite flat_map_app, Pp in Dp. cbn [flat_map vs ps app] in Dv, Dp.
  rename v into vd. exists q, vd. split; [exact Dq|]. split; [exact Ab|].
  destruct (C16_server_replies C) as (lo & Do & Of & _ & _). pose proof (during_same (during_map provided_codes Do) Dp) as Co.
  unfold moves in Q. rewrite fold_left_app in Q. cbn [fold_left] in Q.
  destruct (vd =? 0) eqn:Vd.
  - assert (rest = []) as -> by (exact (after_nothing O2 Mr)). split; [exact Dv|]. cbn [moved fold_left] in Q. rewrite Vd in Q. split; [exact Q|].
    inversion Of; subst; [exact Do|discriminate Co|discriminate Co].
  - destruct rest as [|x rest]; [discriminate O2|]. cbn [in_order] in O2. apply andb_true_iff in O2 as [T2 O2]. destruct x; try discriminate T2. cbn [asked] in O2.
    assert (rest = []) as -> by (exact (after_nothing O2 Mr)). split; [exact Dv|]. cbn [flat_map ps app] in Co. cbn [fold_left] in Q.
    inversion Of as [|l p d rs Or|l p d v rs Nv Or]; subst; [discriminate Co| |]; cbn [flat_map codes app] in Co; injection Co as Cv Cr; subst rc0;
      assert (rs = []) as -> by (inversion Or; subst; [reflexivity|discriminate Cr|discriminate Cr]).
    + exists l, p, d, HE_SUCCESS. split; [exact Do|]. intros _. exact Q.
    + exists l, p, d, v. destruct (Z.eqb_spec v HE_SUCCESS); [contradiction|]. split; [exact Do|congruence].
Qed.
Print Assumptions C55_server.

(** A waiting client that receives it tells its host and is ONLINE, if the host can
    use it. *)
Theorem C55_client : forall E b w rc w' st le l p d session, c_is_server (w_c w) = false -> c_state (w_c w) = HE_STATE_AUTHENTICATING ->
  call E (OOutside b) w rc w' -> during got_msg w w' [(st, config_message le (fit l) (fit p) (fit d) session)] ->
  if cb_netcfg (c_cbs (w_c w)) then exists l' p' d' r, during configuring w w' [NetCfg l' p' d' 1350] /\
      cstr l' = fit l /\ cstr p' = fit p /\ cstr d' = fit d /\
      during applied w w' [r] /\ c_state (w_c w') = (if r =? HE_SUCCESS then HE_STATE_ONLINE else HE_STATE_CONFIGURING)
  else during configuring w w' [] /\ c_state (w_c w') = HE_STATE_ONLINE.
Proof.
  intros E b w rc w' st le l0 p d session Is St C G. set (m := config_message le (fit l0) (fit p) (fit d) session) in *.
  destruct (C54_asks C) as (l & D & O & Q). cbn [connects leaves_by] in *. rewrite St in *.
  assert (c_is_server (w_c w') = false /\ c_cbs (w_c w') = c_cbs (w_c w)) as [Is' Qk].
  { destruct (asked_during C) as (_ & _ & _ & Sb). unfold stable in Sb. injection Sb; intros; split; congruence. }
  rewrite Is', Qk in *. assert (flat_map msgs l = [(st, m)]) as M by exact (during_same (during_map got_msgs D) G).
  destruct (one_message O (or_introl eq_refl) M) as (pre & rest & -> & Pre & Mr & Qst & N & O2). destruct Pre as [-> |(_ & X & _)]; [|discriminate X]. cbn [app] in *. change (moves false (c_cbs (w_c w)) [] HE_STATE_AUTHENTICATING) with HE_STATE_AUTHENTICATING in Qst. subst st.
  assert (len m = 105) as Lm.
  { assert (forall s, len (padded 24 (fit s)) = 24) as Lp by (intros s; pose proof (@fit_len s); apply Props_Cred.len_padded; lia). unfold m, config_message. rewrite len_cons, !len_app, !Lp. rewrite len_bytes64. reflexivity. }
  assert (configures HE_STATE_AUTHENTICATING m = true) as Cf by (unfold configures; rewrite Lm; reflexivity).
  destruct (C16_client_told C) as (ds & Dc & F). destruct (one_caused Dc G) as (cs & -> & Dk). pose proof (Forall_inv F) as F1. cbv beta iota in F1. rewrite Is in F1. clear F Dc.
  cbn [asked moved] in O2. rewrite Cf in O2. unfold moves in Q. cbn [fold_left moved] in Q. rewrite Cf in Q. cbn [andb] in O2. pose proof (during_map applied_aps D) as Da. cbn [flat_map aps app] in Da.
  destruct (cb_netcfg (c_cbs (w_c w))) eqn:Nc.
  - destruct rest as [|x rest]; [discriminate O2|]. cbn [in_order] in O2. apply andb_true_iff in O2 as [T O2]. destruct x; try discriminate T. cbn [asked] in O2. assert (rest = []) as -> by (exact (after_nothing O2 Mr)).
    destruct (C16_round_trip Nc F1) as (l' & p' & d' & -> & _ & _ & _ & C1 & C2 & C3). exists l', p', d', rc0. split; [exact Dk|]. split; [exact C1|]. split; [exact C2|]. split; [exact C3|]. split; [exact Da|exact Q].
  - assert (rest = []) as -> by (exact (after_nothing O2 Mr)). split; [|exact Q]. unfold tells in F1. rewrite Nc, !andb_false_r in F1. change (msg_type m =? HE_MSGID_SERVER_CONFIG) with false in F1. cbn [andb] in F1. now subst cs.
Qed.
Print Assumptions C55_client.
(** So whatever was lost before, one nudge of the client, if its message and the
    answer arrive and the hosts say yes, leaves both ONLINE. *)
Theorem C55_completes : forall Ec Es c r1 c1 b1 s r2 s1 st m,
  reached Ec c -> has server_call (w_t c) = false -> c_state (w_c c) = HE_STATE_AUTHENTICATING -> call Ec ONudge c r1 c1 -> during login c c1 [Some m] ->
  c_is_server (w_c s) = true -> answers (c_cbs (w_c s)) (cr_method (given (w_t c))) = true -> call Es (OOutside b1) s r2 s1 -> during got_msg s s1 [(st, m)] ->
  (forall v, during verdicts s s1 [v] -> v <> 0) ->
  (forall l p d r rest, during offering s s1 (Host l p d :: HostCode r :: rest) -> r = HE_SUCCESS) ->
  c_state (w_c s1) = HE_STATE_ONLINE /\
  exists l p d reply, during offering s s1 [Host l p d; HostCode HE_SUCCESS; Reply reply] /\
    forall b2 r3 c2 st2, call Ec (OOutside b2) c1 r3 c2 -> during got_msg c1 c2 [(st2, reply)] ->
      (forall r, during applied c1 c2 [r] -> r = HE_SUCCESS) ->
      c_state (w_c c2) = HE_STATE_ONLINE.
Proof.
  intros Ec Es c r1 c1 b1 s r2 s1 st m Re Sv St Cn Lg Is An Cs Gs Yes Prov. destruct (C55_retry Re Sv St Cn) as (_ & St1 & _ & m' & Hm & Lg'). pose proof (during_same Lg Lg') as Qm. injection Qm as ->.
  assert (In m' (auth_message (given (w_t c)))) as Im by (rewrite Hm; now left).
  destruct (C55_server Re Sv Im Is An Cs Gs) as (q & v & _ & _ & Dv & H). specialize (Yes v Dv). destruct (Z.eqb_spec v 0); [contradiction|]. destruct H as (l & p & d & r & Of & On). pose proof (Prov _ _ _ _ _ Of) as ->.
  split; [now apply On|]. eexists l, p, d, _. split; [exact Of|]. intros b2 r3 c2 st2 C2 G2 Ap.
  assert (c_is_server (w_c c1) = false) as Is1.
  { destruct (known_reached (reached_call Re Cn)) as (X & _); [|exact X]. destruct (call_body Cn) as (w1 & Bd & ->). destruct (given_body Bd) as [_ Hs]. cbn [push w_t has existsb snd server_call called orb] in *. fold (has server_call (w_t w1)). rewrite Hs. exact Sv. }
  pose proof (C55_client Is1 St1 C2 G2) as K. destruct (cb_netcfg (c_cbs (w_c c1))).
  - destruct K as (_ & _ & _ & ra & _ & _ & _ & _ & Da & K). rewrite (Ap ra Da) in K. exact K.
  - exact (proj2 K).
Qed.
Print Assumptions C55_completes.

(** ** Example *)
(** The server has answered a first login, but the answer was lost: the client
    nudges, the server, ONLINE already, answers again, and the client is ONLINE. *)
Example C55_example :
  let c := world_at (client_setup ++ [OClientConnect dctx [] []; OOutside (dgram 0 [])]) in
  let c1 := world_at (client_setup ++ [OClientConnect dctx [] []; OOutside (dgram 0 []); ONudge]) in
  let s := world_at server_up in let m := userpass_message user pass in
  let s1 := world_at (server_up ++ [OOutside (dgram 4660 m)]) in
  let reply := config_message true (ip 1) (ip 2) (ip 3) (c_session (w_c s)) in
  let c2 := world_at (client_setup ++ [OClientConnect dctx [] []; OOutside (dgram 0 []); ONudge; OOutside (dgram 0 reply)]) in
  reached plain_env c /\ has server_call (w_t c) = false /\ c_state (w_c c) = HE_STATE_AUTHENTICATING /\ call plain_env ONudge c HE_SUCCESS c1 /\ during login c c1 [Some m] /\
  c_is_server (w_c s) = true /\ c_state (w_c s) = HE_STATE_ONLINE /\ answers (c_cbs (w_c s)) (cr_method (given (w_t c))) = true /\
  call plain_env (OOutside (dgram 4660 m)) s HE_SUCCESS s1 /\ during got_msg s s1 [(HE_STATE_ONLINE, m)] /\ during verdicts s s1 [1] /\
  during offering s s1 [Host (field24 (ip 1)) (field24 (ip 2)) (field24 (ip 3)); HostCode HE_SUCCESS; Reply reply] /\
  call plain_env (OOutside (dgram 0 reply)) c1 HE_SUCCESS c2 /\ during got_msg c1 c2 [(HE_STATE_AUTHENTICATING, reply)] /\ during applied c1 c2 [0] /\ c_state (w_c c2) = HE_STATE_ONLINE.
Proof. cbv zeta. split; [apply (@world_at_reached (client_setup ++ [OClientConnect dctx [] []; OOutside (dgram 0 [])])); vm_compute; reflexivity|]. conj; vm_compute; reflexivity. Qed.
