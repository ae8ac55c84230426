(** The rest of the receiving and sending paths: flow.c, msg_handlers.c, frag.c. *)
From Verif Require Import Base Codes Ctx Config Mss MssProofs Frag FragSpec FragProofs ReasmProofs ReasmTable Wire WireSpec
  WireProofs ConnState Conn ConnSpec HistSpec ConnSteps Hist ConnWp ConnWpTac ConnWpCore ConnWpPm.
Unset Strict Implicit.

(** ** Reassembly when an allocation fails *)
Lemma walk_alloc off n mf rest : forall kept skip,
  walk false off n mf kept skip rest = walk true off n mf kept skip rest \/
  walk false off n mf kept skip rest = Ub UB_null.
Proof.
  induction rest as [rest IH] using (well_founded_induction (Wf_nat.well_founded_ltof _ (@length node))).
  unfold Wf_nat.ltof in IH. intros kept skip. destruct rest as [|curr tl]; cbn [walk]; [left; reflexivity|].
  destruct (_ =? _); [apply IH; cbn; lia|]. destruct (_ =? _); [left; reflexivity|].
  destruct (_ <? _).
  - destruct tl as [|next tl']; [right; reflexivity|].
    destruct (_ =? _); [|apply (IH (next :: tl')); cbn; lia]. apply IH; cbn; lia.
  - destruct (_ <? _); [right; reflexivity|left; reflexivity].
Qed.
Lemma entry_update_alloc e data off mf :
  entry_update false e data off mf = entry_update true e data off mf \/
  entry_update false e data off mf = Ub UB_null.
Proof.
  unfold entry_update. destruct (_ <? _); [left; reflexivity|].
  destruct (fe_nodes e) as [|h t]; [right; reflexivity|].
  destruct (walk_alloc off (len data) mf (h :: t) [] []) as [-> | ->]; auto.
Qed.
Lemma frag_store_alloc a1 a2 t now1 now2 id off mf data :
  table_wf t -> 0 <= off ->
  frag_store a1 a2 now1 now2 t id off mf data = Ub UB_null /\ a2 = false \/
  exists rc o t', frag_store a1 a2 now1 now2 t id off mf data = Val (rc, o, t') /\
    table_wf t' /\ (forall p, o = Some p -> rc = HE_SUCCESS /\ len p <= 1500).
Proof.
  intros W O. destruct (frag_store_total now1 now2 id mf data W O) as (rc & o & t' & H & W' & _ & _ & H').
  assert (frag_store true a2 now1 now2 t id off mf data = Ub UB_null /\ a2 = false \/
     frag_store true a2 now1 now2 t id off mf data = Val (rc, o, t')) as D.
  { destruct a2; [right; exact H|]. rewrite <- H. unfold frag_store.
    destruct (table_find true now1 t id) as [[e|] t1]; [|right; reflexivity].
    match goal with |- context [entry_update false ?e _ _ _] =>
      destruct (entry_update_alloc e data off mf) as [-> | ->] end; auto. }
  destruct a1; [destruct D as [D|D]; [auto|]; right; eauto 6|].
  assert (frag_store false a2 now1 now2 t id off mf data = frag_store true a2 now1 now2 t id off mf data \/
          frag_store false a2 now1 now2 t id off mf data = Val (HE_ERR_NO_MEMORY, None, t)) as [-> | ->].
  { unfold frag_store, table_find. destruct (t_get t (slot t id)); auto. }
  - destruct D as [D|D]; [auto|]; right; eauto 6.
  - right. eexists _, _, _. split; [reflexivity|]. split; [auto|]. discriminate.
Qed.

Ltac wif H := match goal with |- ConnWp.wp _ (if ?b then _ else _) _ _ => destruct b eqn:H end.

Section Msg.
Variable E : env.
Variable hook : M unit.
Hypothesis HOOK : hook_ok E hook.
Notation wp := (wp E).

(** ** Sending inside packets *)
Lemma frag_loop_0 f packet id off n fsize : n <= 0 -> frag_loop E hook f packet id off n fsize = ret HE_SUCCESS.
Proof. intros H. destruct f; cbn [frag_loop]; (destruct (n <=? 0) eqn:?; [reflexivity|lia]). Qed.

Lemma wp_frag_loop f : forall packet id off n fsize (Q : Z -> world -> Prop) w,
  0 <= id < 65536 -> 0 <= off -> off + n <= len packet -> off + n < 65536 -> 8 <= fsize <= 1412 -> n <= Z.of_nat f ->
  origin (w_t w) -> seq w (c_state (w_c w) = HE_STATE_ONLINE) ->
  (forall rc w', Steps w w' -> keep w w' -> Q rc w') ->
  wp (frag_loop E hook f packet id off n fsize) Q w.
Proof.
  induction f as [|f IH]; intros packet id off n fsize Q w Hid Ho Hl Hn Hf Hfu Or St K.
  { rewrite frag_loop_0 by lia. apply wp_ret, K; [apply Steps_refl|apply keep_refl]. }
  cbn [frag_loop]. destruct (n <=? 0) eqn:Hz; [apply wp_ret, K; [apply Steps_refl|apply keep_refl]|].
  assert (0 < frag_len n fsize <= n /\ frag_len n fsize <= fsize) as FL
    by (unfold frag_len; destruct (fsize <? n) eqn:?; lia).
  apply wp_bind. eapply wp_lift; [apply frag_msg_ok; unfold HE_MAX_WIRE_MTU; lia|]. intros _. cbv zeta.
  assert (len (slice packet off (frag_len n fsize)) = frag_len n fsize) as Ls by (rewrite len_slice; lia).
  set (m := fragment_message _ _ _ _).
  assert (len m = 7 + frag_len n fsize) as Lm by (unfold m, fragment_message; lens).
  assert (msg_type m = HE_MSGID_DATA_WITH_FRAG) as Tm by reflexivity. clearbody m.
  apply wp_bind. eapply wp_lift.
  { apply ldn_ok; change sizeof_data_frag with 7; unfold HE_MAX_WIRE_MTU; try lia. lens. }
  intros _. rewrite slice_prefix by (change sizeof_data_frag with 7; lia).
  apply wp_bind, wp_send_message; auto.
  { intros _. split; [unfold HE_MAX_WIRE_MTU; lia|]. split; [sqi; rewrite St; discriminate|]. right; left; auto. }
  intros rc w1 S1 K1 _. destruct (negb _); [apply wp_ret, K; auto|].
  assert (u16 (off + frag_len n fsize) = off + frag_len n fsize) as U by (apply Z.mod_small; lia).
  rewrite U. apply IH; try lia.
  - exact (origin_mono S1 Or).
  - intros Hr. pose proof (K1 Hr) as K1'. unfold core in K1'. transitivity (c_state (w_c w)); [congruence|].
    apply St. eapply re_anti; eauto.
  - intros rc' w2 S2 K2. apply K; [stp|]. exact (keep_trans S2 K1 K2).
Qed.

Lemma valid_total p : exists b, is_ipv4_packet_valid p = Val b.
Proof.
  unfold is_ipv4_packet_valid. change sizeof_ipv4_header with 20. destruct (len p <? 20) eqn:L; [eauto|].
  rewrite ld8_ok by lia. cbn [rbind]. eauto.
Qed.

Lemma eff_range c : cok c -> 504 <= effective_pmtu c <= 1416.
Proof.
  intros C. pose proof (ok_eff C) as X. unfold effective_pmtu, HE_MAX_MTU. change MAX_PLPMTU with 1416 in X.
  destruct (pm_eff (c_pm c) =? 0) eqn:F; cbn [orb]; [lia|]. destruct (negb _); lia.
Qed.

Lemma wp_inside packet (Q : Z -> world -> Prop) w :
  bytes_ok packet -> (forall rc w', Steps w w' -> keep w w' -> Q rc w') ->
  wp (inside_packet_received E hook packet) Q w.
Proof.
  intros Hb K. apply wp_good; intros G. pose proof (Reach_cok (proj1 G)) as C.
  assert (forall v, Q v w) as K0 by (intros; apply K; [apply Steps_refl|apply keep_refl]).
  pose proof (eff_range C) as Eff.
  unfold inside_packet_received. apply wp_bind, wp_get. intros _.
  wif St; [apply wp_ret; auto|]. apply negb_false_iff, Z.eqb_eq in St.
  wif L1; [apply wp_ret; auto|]. cbv zeta. change HE_IPV4_HEADER_SIZE with 20 in L1.
  wif L2; [apply wp_ret; auto|].
  destruct (valid_total packet) as (ok & Ev). apply wp_bind. eapply wp_lift; [exact Ev|]. intros _.
  wif Hok; [apply wp_ret; auto|].
  remember (effective_pmtu (w_c w)) as pmtu eqn:Ep.
  destruct (clamp_total (e_le E) (mss := u16 (pmtu - HE_MSS_OVERHEAD)) Hb) as (rc & p' & Ec & Lp & Hb').
  { apply Z.mod_pos_bound; lia. }
  apply wp_bind. eapply wp_lift; [exact Ec|]. intros _. cbv beta iota.
  wif Hrc; [apply wp_ret; auto|].
  apply wp_bind, wp_plugin_ingress. intros res out w1 S1 C1 _ _ _. cbv beta iota.
  assert (forall v, Q v w1) as K1 by (intros; apply K; [exact S1|intros _; congruence]).
  wif Hr1; [apply wp_ret; auto|]. wif Hr2; [apply wp_ret; auto|].
  wif L3; [apply wp_ret; auto|].
  pose proof (len_nonneg out) as Lo.
  assert (forall rc w', Steps w1 w' -> keep w1 w' -> Q rc w') as K1'.
  { intros. apply K; [stp|]. intros Hr. rewrite (H0 Hr), C1. reflexivity. }
  wif Sf.
  - wif L4; [apply wp_ret; auto|].
    change HE_MAX_WIRE_MTU with 1500 in *. change sizeof_data with 3 in *.
    set (actual := data_packet_length _ _).
    assert (len out <= actual <= 1497) as La.
    { unfold actual, data_packet_length, HE_MAX_MTU. clear - L4 Lo.
      repeat match goal with |- context [if ?b then _ else _] => destruct b eqn:? end; lia. }
    clearbody actual.
    apply wp_bind. eapply wp_lift. { apply build_data_ok. unfold HE_MAX_WIRE_MTU. lia. } intros _.
    assert (len (data_message (e_le E) (c_vmaj (w_c w)) (c_vmin (w_c w)) out 0) = 3 + len out) as Ld.
    { unfold data_message, data_length_field. destruct (_ && _); lens. }
    assert (msg_type (data_message (e_le E) (c_vmaj (w_c w)) (c_vmin (w_c w)) out 0) = HE_MSGID_DATA) as Td by reflexivity.
    set (m := data_message _ _ _ _ _) in *.
    apply wp_bind. eapply wp_lift. { apply ldn_ok; try lia. rewrite len_app, len_zeros, Ld; unfold HE_MAX_WIRE_MTU; lia. } intros _.
    apply wp_send_message; auto. intros _.
    split; [rewrite len_slice; unfold HE_MAX_WIRE_MTU; try lia; rewrite len_app, len_zeros, Ld; unfold HE_MAX_WIRE_MTU; lia|]. rewrite C1.
    split; [intros _; rewrite St; discriminate|]. left. split; [|exact St].
    unfold slice. cbn [skipn Z.to_nat]. replace (Z.to_nat (actual + 3)) with (S (Z.to_nat (actual + 2))) by lia.
    unfold m. reflexivity.
  - unfold frag_and_send. cbv zeta.
    assert (u16 (pmtu + sizeof_data - sizeof_data_frag) = pmtu - 4) as U.
    { change sizeof_data with 3. change sizeof_data_frag with 7. unfold u16. rewrite Z.mod_small; lia. }
    rewrite U. wif L5; [apply wp_ret; auto|].
    apply wp_bind, wp_get. intros _. apply wp_bind.
    apply wp_upd; [reflexivity|intros []; constructor; auto; apply Z.mod_pos_bound; lia|].
    intros w2 S2 C2 T2 _.
    assert (0 <= u16 (len out) < 65536 /\ u16 (len out) <= len out) as [U1 U2].
    { split; [apply Z.mod_pos_bound; lia|apply Z.mod_le; lia]. }
    assert (496 <= 8 * ((pmtu - 4) / 8) <= 1412).
    { pose proof (Z.mul_div_le (pmtu - 4) 8 ltac:(lia)). pose proof (Z.mod_pos_bound (pmtu - 4) 8 ltac:(lia)).
      pose proof (Z.div_mod (pmtu - 4) 8 ltac:(lia)). lia. }
    apply wp_frag_loop; try lia.
    + rewrite C1. apply C.
    + apply (origin_mono (Steps_app S1 S2)). apply Reach_origin; [apply G|exact St].
    + intros _. rewrite C2, C1. exact St.
    + intros rc' w3 S3 K3. apply K1'; [stp|]. intros Hr. rewrite (K3 Hr), C2. reflexivity.
Qed.

(** ** Delivering packets *)
Lemma wp_deliver packet (Q : Z -> world -> Prop) w :
  seq w (c_state (w_c w) = HE_STATE_ONLINE) -> c_state (w_c w) = HE_STATE_ONLINE ->
  (forall rc w', Steps w w' -> seq w' (w_c w' = w_c w) -> Q rc w') ->
  wp (deliver E hook packet) Q w.
Proof.
  intros _ St K. unfold deliver. apply wp_bind, wp_get. intros _.
  apply wp_bind, wp_plugin_egress. intros res out w1 S1 C1 _ _ _. cbv beta iota.
  assert (forall v, Q v w1) as K1 by (intros; apply K; auto; intros _; auto).
  wif H1; [apply wp_ret; auto|]. wif H2; [apply wp_ret; auto|]. wif H3; [apply wp_ret; auto|].
  destruct (valid_total out) as (ok & Ev). apply wp_bind. eapply wp_lift; [exact Ev|]. intros _.
  wif H4; [apply wp_ret; auto|]. apply negb_false_iff in H4. subst ok.
  apply wp_bind, wp_get. intros _. apply wp_bind. unfold when. wif Hcb.
  - apply wp_notify; auto.
    + intros G. split; [intros _; now apply Good_mid1|]. cbn. split; [auto|]. split; [congruence|auto].
    + intros w2 S2 C2 _. apply wp_ret, K; [stp|]. intros Hr. rewrite (C2 Hr). auto.
  - apply wp_ret. intros _. apply wp_ret. auto.
Qed.

(** ** Handling messages *)
Definition nd (w : world) : Prop :=
  seq w (c_state (w_c w) <> HE_STATE_DISCONNECTING /\ c_state (w_c w) <> HE_STATE_DISCONNECTED).
Definition mctx (w : world) : Prop :=
  nd w /\ role w /\ has connect_call (w_t w) = true /\ calling is_outside w /\ tls_ok w.

Lemma nd_state w w' : Steps w w' -> seq w' (c_state (w_c w') = c_state (w_c w)) -> nd w -> nd w'.
Proof. intros S C N Hr. rewrite (C Hr). apply N. eapply re_anti; eauto. Qed.
Lemma nd_keep w w' : Steps w w' -> keep w w' -> nd w -> nd w'.
Proof. intros S K. apply nd_state; auto. intros Hr. specialize (K Hr). unfold core in K. congruence. Qed.
Lemma nd_eq w w' : Steps w w' -> seq w' (w_c w' = w_c w) -> nd w -> nd w'.
Proof. intros S K. apply nd_state; auto. intros Hr. now rewrite (K Hr). Qed.
Lemma nd_keepM w w' : Steps w w' -> keepM w w' -> nd w -> nd w'.
Proof. intros S K. apply nd_state; auto. now apply keepM_state. Qed.
Lemma nd_dis w : nd w -> seq w (c_state (w_c w) <> HE_STATE_DISCONNECTED).
Proof. intros N Hr. now apply N. Qed.
Lemma mctx_mono w w' : Steps w w' -> nd w' -> mctx w -> mctx w'.
Proof.
  intros S N (_ & R & H & C & T). split; [exact N|]. split; [exact (role_mono S R)|].
  split; [exact (has_mono S H)|]. split; [exact (calling_mono S C)|].
  refine (tls_stays S C _ T). intros []; cbn; congruence.
Qed.

Definition post (Q : Z -> world -> Prop) (w : world) : Prop :=
  forall rc w', Steps w w' -> (rc = HE_SUCCESS -> nd w') -> Q rc w'.
Lemma post_here (Q : Z -> world -> Prop) w rc : nd w -> post Q w -> Q rc w.
Proof. intros N K. apply K; auto using Steps_refl. Qed.
Lemma post_mono (Q : Z -> world -> Prop) w w' : Steps w w' -> post Q w -> post Q w'.
Proof. intros S K rc w2 S2 N. apply K; auto. stp. Qed.

Lemma wp_ping msg (Q : Z -> world -> Prop) w : nd w -> post Q w -> wp (handle_ping E hook msg) Q w.
Proof.
  intros N K. unfold handle_ping. apply wp_bind, wp_get. intros _.
  wif St; [apply wp_ret, post_here; auto|]. apply negb_false_iff, Z.eqb_eq in St.
  wif L; [apply wp_ret, post_here; auto|]. change sizeof_ping with 5 in L.
  apply wp_bind. eapply wp_lift; [apply ldh16_ok; lia|]. intros _.
  apply wp_bind. eapply wp_lift; [apply build_pong_ok|]. intros _.
  apply wp_send_message; auto.
  - intros _. set (m := _ :: _). assert (len m = 5) as Lm by (unfold m; lens).
    split; [unfold HE_MAX_WIRE_MTU; lia|]. split; [intros _; rewrite St; discriminate|].
    do 6 right. left. split; [reflexivity|]. split; [auto|exact Lm].
  - intros rc w' S K1. apply K; auto. intros _. eapply nd_keep; eauto.
Qed.

Lemma wp_pong msg (Q : Z -> world -> Prop) w : nd w -> post Q w -> wp (handle_pong E hook msg) Q w.
Proof.
  intros N K. unfold handle_pong. wif L; [apply wp_ret, post_here; auto|]. change sizeof_pong with 5 in L.
  apply wp_bind. eapply wp_lift; [apply ldh16_ok; lia|]. intros _. cbv zeta.
  apply wp_bind, wp_get. intros _. wif Hid.
  - apply wp_bind, wp_generate_event; auto using nd_dis. intros w1 S1 C1 _. apply wp_ret, K; auto. intros _.
    exact (nd_eq S1 C1 N).
  - apply wp_bind, wp_probe_ack; auto. intros rc w1 S1 K1 _. apply wp_ret, K; auto. intros _. exact (nd_keepM S1 K1 N).
Qed.

Lemma wp_msg_server_config msg (Q : Z -> world -> Prop) w :
  bytes_ok msg -> nd w -> post Q w -> wp (handle_server_config E hook msg) Q w.
Proof.
  intros B N K. unfold handle_server_config. apply wp_bind, wp_get. intros _.
  wif Sv; [apply wp_ret, post_here; auto|]. wif St; [apply wp_ret, post_here; auto|]. apply negb_false_iff in St.
  wif L; [apply wp_ret, post_here; auto|]. change sizeof_server_config with 3 in *.
  apply wp_bind. eapply wp_lift; [apply ldh16_ok; lia|]. intros _. cbv zeta.
  assert (0 <= ntohs (e_le E) (host16 (e_le E) (nth (Z.to_nat 1) msg 0) (nth (Z.to_nat 1 + 1) msg 0)) < 65536).
  { apply ntohs_range, host16_range; apply bytes_ok_nth; auto. }
  wif L2; [apply wp_ret, post_here; auto|]. wif Cb; [|apply wp_ret, post_here; auto].
  apply wp_bind. eapply wp_lift; [apply ldn_ok; lia|]. intros _.
  apply wp_bind, wp_callback; auto.
  - intros G. split; [intros _; now apply Good_mid1|]. cbn. auto.
  - intros w1 v S1 G1. apply plain_ok; auto.
  - intros w1 w2 v S1 S2 _ _ C _. assert (Steps w w2) as S12 by stp.
    assert (nd w2) by exact (nd_eq S12 C N).
    wif R; apply wp_ret, K; auto.
Qed.

Lemma mtu_ok f : len f = 24 -> exists v, parse_mtu f = Val v /\ 1 <= v <= 1350.
Proof.
  intros L. unfold parse_mtu, st8, HE_MAX_IPV4_STRING_LENGTH, HE_MAX_MTU. rewrite stn_ok by lens. cbn [rbind].
  destruct (sscanf_u _) as [v|]; [|eexists; split; [reflexivity|lia]].
  destruct (_ || _) eqn:F; eexists; (split; [reflexivity|]); lia.
Qed.

(** Going online: path MTU discovery has not started. *)
Lemma settles_online w : Good w -> nd w -> c_state (w_c w) <> HE_STATE_ONLINE -> seq w (settles w HE_STATE_ONLINE).
Proof.
  intros G N St Hr. split; [discriminate|]. intros _ O [P _].
  destruct (Reach_pm (proj1 G) Hr O) as [_ I]. destruct (N Hr).
  assert (pm_state (c_pm (w_c w)) <> HE_PMTUD_STATE_DISABLED) as D by (destruct P as [-> | ->]; discriminate).
  destruct (I D) as [[|[|]] _]; auto.
Qed.
Lemma settles_other w s : s <> HE_STATE_ONLINE -> s <> HE_STATE_LINK_UP -> seq w (settles w s).
Proof. intros A B _. split; intros; contradiction. Qed.

Lemma wp_config msg (Q : Z -> world -> Prop) w :
  bytes_ok msg -> mctx w -> now (received HE_MSGID_CONFIG_IPV4) w -> post Q w ->
  wp (handle_config_ipv4 E hook msg) Q w.
Proof.
  intros B C N K. pose proof C as (ND & R & HC & CO & TL). unfold handle_config_ipv4. apply wp_bind, wp_get. intros _.
  wif Son; [apply wp_ret, post_here; auto|]. wif Sv; [apply wp_ret, post_here; auto|].
  apply orb_false_iff in Sv. destruct Sv as [Srv St]. apply negb_false_iff, Z.eqb_eq in St.
  wif L; [apply wp_ret, post_here; auto|]. change sizeof_config_ipv4 with 105 in L.
  pose proof (proj1 R Srv) as CC.
  do 3 (apply wp_bind; eapply wp_lift; [apply get_ipstr_ok; lia|]; intros _).
  apply wp_bind. eapply wp_lift; [apply ldn_ok; unfold HE_MAX_IPV4_STRING_LENGTH; lia|]. intros _.
  destruct (@mtu_ok (slice msg 73 HE_MAX_IPV4_STRING_LENGTH)) as (mtu & Em & Rm).
  { rewrite len_slice; unfold HE_MAX_IPV4_STRING_LENGTH; lia. }
  apply wp_bind. eapply wp_lift; [exact Em|]. intros _.
  apply wp_bind. eapply wp_lift. { unfold ldh64. rewrite ldn_ok by lia. reflexivity. } intros _.
  assert (0 <= host64 (e_le E) (slice msg 97 8) < 18446744073709551616).
  { apply host64_range; [now apply bytes_ok_slice|rewrite len_slice; lia]. }
  apply wp_bind. apply wp_upd; [reflexivity|okc|]. intros w1 S1 C1 T1 _.
  assert (c_state (w_c w1) = HE_STATE_AUTHENTICATING) as St1 by (rewrite C1; exact St).
  assert (c_is_server (w_c w1) = false) as Srv1 by (rewrite C1; exact Srv).
  apply wp_bind, wp_change_state; auto; [discriminate| |].
  { intros G1 _. split; [|apply settles_other; discriminate].
    split; [now apply Good_mid1|]. split; [intros _; split; [exact (role_mono S1 R)|exact (has_mono S1 HC)]|].
    split; [intros _; rewrite St1; discriminate|]. do 3 right; left. split; [reflexivity|].
    split; [exact (has_mono S1 CC)|]. intros _; auto. }
  intros w2 S2 C2 _. assert (Steps w w2) as S02 by stp.
  apply wp_bind, wp_get. intros _. apply wp_bind.
  apply wp_conseq with (Q := fun rc w3 => Steps w2 w3 /\ seq w3 (w_c w3 = w_c w2) /\
     (rc = HE_SUCCESS -> now netcfg_ok w3 \/ cb_netcfg (c_cbs (w_c w3)) = false)).
  { wif Cb.
    - apply wp_callback; auto.
      + intros G. split; [intros _; now apply Good_mid1|].
        cbn [emit_ok]. unfold HE_MAX_MTU. repeat (split; [first [exact Cb | lia | apply ipstr_form]|]).
        split; [exact (now_mono S02 N)|]. intros Hr. rewrite (C2 Hr). cbn. auto.
      + intros w3 v S3 G3. split; [intros _; now apply Good_mid1|]. cbn. split; [exact (has_mono S3 (has_mono S02 CC))|exact (now_mono S3 (now_mono S02 N))].
      + intros w3 w4 v S3 S4 C4 T4 K4. split; [stp|]. split; [auto|]. intros ->. left.
        eapply now_push; [exact T4|reflexivity|reflexivity].
    - apply wp_ret. split; [apply Steps_refl|]. split; [intros _; reflexivity|]. auto. }
  intros rc w3 _ _ (S3 & C3 & Hn) _. assert (Steps w w3) as S03 by stp.
  assert (Steps w1 w3) as S13 by stp.
  assert (seq w3 (w_c w3 = set_state HE_STATE_CONFIGURING (w_c w1))) as C13.
  { intros Hr. rewrite (C3 Hr). apply C2. eapply re_anti; eauto. }
  wif Hrc; [apply wp_ret, K; auto; discriminate|].
  apply negb_false_iff, Z.eqb_eq in Hrc. specialize (Hn Hrc).
  apply wp_bind, wp_change_state; auto; [discriminate| |].
  { intros G3 Nst. assert (nd w3) as N3 by (intros Hr; rewrite (C13 Hr); split; discriminate). split.
    - split; [now apply Good_mid1|]. split; [intros _; split; [exact (role_mono S03 R)|exact (has_mono S03 HC)]|].
      split; [intros Hr; rewrite (C13 Hr); discriminate|].
      do 4 right; left. split; [reflexivity|]. split; [split; [exact (calling_mono S03 CO)|exact (proj2 (proj2 (proj2 (proj2 (mctx_mono S03 N3 C)))))]|]. split; [intros Hr; rewrite (C13 Hr); discriminate|]. right.
      split; [exact (has_mono S03 CC)|]. split; [exact (now_mono S03 N)|]. split; [exact Hn|].
      intros Hr. rewrite (C13 Hr). cbn. auto.
    - now apply settles_online. }
  intros w4 S4 C4 _. apply wp_ret, K; [stp|]. intros _ Hr. rewrite (C4 Hr). split; discriminate.
Qed.

Lemma send_denied_ok w : mctx w -> seq w (c_is_server (w_c w) = true) -> send_ok w auth_denied_message.
Proof.
  intros (N & _ & _ & CO & _) Sv. split; [vm_compute; split; congruence|]. split; [now apply nd_dis|].
  do 4 right; left. split; [reflexivity|auto].
Qed.
Lemma wp_denied (Q : unit -> world -> Prop) w :
  mctx w -> seq w (c_is_server (w_c w) = true) ->
  (forall w', Steps w w' -> keep w w' -> Q tt w') -> wp (send_auth_denied E hook) Q w.
Proof.
  intros C Sv K. unfold send_auth_denied. apply wp_bind. eapply wp_lift; [apply build_auth_response_ok|]. intros _.
  apply wp_bind, wp_send_message; auto using send_denied_ok. intros rc w1 S1 K1 _. apply wp_ret, K; auto.
Qed.
Lemma keep_server w w' : keep w w' -> seq w' (c_is_server (w_c w') = c_is_server (w_c w)).
Proof. intros K Hr. specialize (K Hr). unfold core in K. congruence. Qed.
Lemma keep_state w w' : keep w w' -> seq w' (c_state (w_c w') = c_state (w_c w)).
Proof. intros K Hr. specialize (K Hr). unfold core in K. congruence. Qed.

Lemma len_field24 s : len (field24 s) = 24.
Proof. unfold field24. rewrite len_firstn, len_app. unfold HE_MAX_IPV4_STRING_LENGTH. pose proof (len_nonneg (u8s s)). rewrite len_zeros; lia. Qed.

Lemma wp_auth_accepted (Q : Z -> world -> Prop) w :
  mctx w -> seq w (c_is_server (w_c w) = true) -> now auth_accepted_ev w -> post Q w ->
  wp (auth_accepted E hook) Q w.
Proof.
  intros C Sv A K. pose proof C as (ND & R & HC & CO & TL). unfold auth_accepted. apply wp_bind, wp_get. intros _.
  apply wp_bind, wp_emit; auto. { intros G. split; [intros _; now apply Good_mid1|]. split; [exact A|now apply nd_dis]. }
  intros w1 S1 C1 T1 _. apply wp_bind, wp_hook; auto. intros w2 S2 H2 _.
  assert (Steps w w2) as S02 by stp.
  assert (seq w2 (w_c w2 = w_c w)) as C2 by (intros Hr; rewrite (H2 Hr); auto).
  apply wp_bind, wp_log. intros _. destruct (e_cfg E (w_t w2)) as [[l p] d].
  apply wp_bind, wp_emit_plain; [reflexivity|]. intros w3 S3 C3 T3 _.
  apply wp_bind, wp_log. intros _. cbv zeta.
  assert (Steps w w3) as S03 by stp.
  apply wp_bind, wp_emit; auto. { intros G. split; [intros _; now apply Good_mid1|]. exact (now_mono S03 A). }
  intros w4 S4 C4 T4 _. assert (Steps w w4) as S04 by stp.
  assert (seq w4 (w_c w4 = w_c w)) as C04.
  { intros Hr. rewrite C4, C3. apply C2. apply (re_anti S3). exact (re_anti S4 Hr). }
  assert (nd w4) as N4 by exact (nd_eq S04 C04 ND).
  assert (mctx w4) as M4 by exact (mctx_mono S04 N4 C).
  assert (seq w4 (c_is_server (w_c w4) = true)) as Sv4.
  { intros Hr. rewrite (C04 Hr). apply Sv. exact (re_anti S04 Hr). }
  wif Hres.
  - apply wp_bind, wp_denied; auto. intros w5 S5 K5 _. apply wp_ret, K; [stp|]. intros Hz. rewrite Hz in Hres. discriminate.
  - apply negb_false_iff in Hres.
    assert (now populate_ok w4) as P4 by (eapply now_push; [exact T4|reflexivity|exact Hres]).
    apply wp_bind. eapply wp_lift; [apply build_config_ipv4_ok; apply len_field24|]. intros _.
    set (m := config_message _ _ _ _ _).
    assert (len m = 105) as Lm.
    { unfold m, config_message. assert (forall s : bytes, len (firstn 23 s) <= 24) as L by (intros; rewrite len_firstn; lia).
      assert (len [49; 51; 53; 48] <= 24) by (cbn; lia).
      pose proof (L (cstr (field24 l))). pose proof (L (cstr (field24 p))). pose proof (L (cstr (field24 d))). lens. }
    assert (msg_type m = HE_MSGID_CONFIG_IPV4) as Tm by reflexivity. clearbody m.
    apply wp_bind, wp_send_message; auto.
    { intros _. split; [unfold HE_MAX_WIRE_MTU; lia|]. split; [now apply nd_dis|]. do 3 right; left. auto. }
    intros rc w5 S5 K5 _. assert (nd w5) as N5 by exact (nd_keep S5 K5 N4).
    pose proof (mctx_mono S5 N5 M4) as (_ & R5 & HC5 & CO5 & TL5).
    apply wp_bind, wp_change_state; auto; [discriminate| |].
    { intros G Nst. split; [|now apply settles_online].
      split; [now apply Good_mid1|]. split; [auto|]. split; [intros Hr D; exfalso; now apply (N5 Hr)|].
      do 4 right; left. split; [reflexivity|]. split; [exact (conj CO5 TL5)|]. split; [intros Hr; now apply N5|]. left.
      split; [exact (now_mono S5 P4)|]. intros Hr. rewrite (keep_server K5 Hr). apply Sv4. exact (re_anti S5 Hr). }
    intros w6 S6 C6 _. apply wp_ret, K; [stp|]. intros _ Hr. rewrite (C6 Hr). split; discriminate.
Qed.

Lemma wp_verdict (ok : bool) res (Q : Z -> world -> Prop) w :
  res <> HE_SUCCESS -> mctx w -> seq w (c_is_server (w_c w) = true) ->
  (ok = true -> now auth_accepted_ev w) -> post Q w ->
  wp (auth_verdict E hook ok res) Q w.
Proof.
  intros Hres C Sv A K. unfold auth_verdict. destruct ok; cbn [negb]; [apply wp_auth_accepted; auto|].
  pose proof C as (ND & R & HC & CO & TL).
  apply wp_bind, wp_denied; auto. intros w1 S1 K1 _. assert (nd w1) as N1 by exact (nd_keep S1 K1 ND).
  pose proof (mctx_mono S1 N1 C) as (_ & R1 & HC1 & CO1 & TL1).
  apply wp_bind, wp_change_state; auto; [discriminate| |].
  - intros G _. split; [|apply settles_other; discriminate].
    split; [now apply Good_mid1|]. split; [auto|]. split; [intros Hr D; exfalso; now apply (N1 Hr)|].
    do 5 right; left. split; [reflexivity|]. split; [|exact TL1]. intros Hr. destruct (CO1 Hr) as (o & L & F). exists o. split; auto.
    rewrite F. apply orb_true_r.
  - intros w2 S2 C2 _. apply wp_ret, K; [stp|]. intros; contradiction.
Qed.

(** An authentication callback and what follows *)
Lemma wp_auth_cb e (f : M unit) (Q : Z -> world -> Prop) w :
  mctx w -> c_is_server (w_c w) = true ->
  (Good w -> emit_ok w e) -> special e = false -> auth_asked_ev e = true ->
  (forall w1 (Q' : unit -> world -> Prop), Steps w w1 -> (forall w2, Steps w1 w2 -> keep w1 w2 -> Q' tt w2) -> wp f Q' w1) ->
  post Q w ->
  wp (let! v := callback E hook e KAuth in f ;;; auth_verdict E hook (negb (v =? 0)) HE_ERR_ACCESS_DENIED) Q w.
Proof.
  intros C Sv He Sp Nc Hf K. apply wp_good; intros G0. pose proof (Reach_role2 (proj1 G0) Sv) as Srv. apply wp_bind, wp_callback'; auto; [destruct e; try discriminate Nc; reflexivity| |].
  { intros w1 v S1 G1 Na. split; [intros _; now apply Good_mid1|]. split; [exact (has_mono S1 Srv)|now apply Na]. }
  intros w1 w2 v S1 S2 C2 T2 K2 _. assert (Steps w w2) as S02 by stp.
  pose proof C as (ND & _). assert (nd w2) as N2 by exact (nd_eq S02 K2 ND).
  assert (negb (v =? 0) = true -> now auth_accepted_ev w2) as A2.
  { intros Hv. eapply now_push; [exact T2|reflexivity|exact Hv]. }
  apply wp_bind, Hf; auto. intros w3 S3 K3 _. assert (Steps w w3) as S03 by stp.
  assert (nd w3) as N3 by exact (nd_keep S3 K3 N2).
  apply wp_verdict.
  - discriminate.
  - exact (mctx_mono S03 N3 C).
  - intros Hr. rewrite (keep_server K3 Hr). rewrite (K2 (re_anti S3 Hr)). exact Sv.
  - intros Hv. exact (now_mono S3 (A2 Hv)).
  - exact (post_mono S03 K).
Qed.

Definition store_username (u : bytes) : M unit :=
  let! un := get c_username in
  let! un := lift (strncpy un u HE_CONFIG_TEXT_FIELD_LENGTH) in
  let! un := lift (st8 un HE_CONFIG_TEXT_FIELD_LENGTH 0) in
  upd (set_username un).
Lemma wp_store_username u (Q : unit -> world -> Prop) w :
  len u = 50 -> (forall w2, Steps w w2 -> keep w w2 -> Q tt w2) -> wp (store_username u) Q w.
Proof.
  intros L K. apply wp_good; intros G. pose proof (ok_username (Reach_cok (proj1 G))) as U.
  unfold store_username. apply wp_bind, wp_get. intros _.
  unfold HE_CONFIG_TEXT_FIELD_LENGTH, strncpy. change (Z.to_nat 50) with 50%nat.
  destruct (strncpy_nat u 50) as [x|] eqn:Ex.
  2:{ rewrite strncpy_nat_cstr in Ex by (right; unfold len in L; lia). discriminate. }
  pose proof (@strncpy_nat_len _ _ _ Ex) as Lx. cbn [rbind].
  destruct (stn (c_username (w_c w)) 0 x) as [y|] eqn:Ey; [|rewrite stn_ok in Ey by lia; discriminate].
  pose proof (@stn_len _ _ _ _ Ey) as Ly. apply wp_bind. eapply wp_lift; [reflexivity|]. intros _.
  destruct (st8 y 50 0) as [z|] eqn:Ez; [|unfold st8 in Ez; rewrite stn_ok in Ez by (cbn; lia); discriminate].
  pose proof (@stn_len _ _ _ _ Ez) as Lz. apply wp_bind. eapply wp_lift; [reflexivity|]. intros _.
  apply wp_upd; [reflexivity|okc; lia|]. intros w1 S1 C1 T1. apply K; auto. intros _. rewrite C1. reflexivity.
Qed.
Lemma wp_skip (Q : unit -> world -> Prop) w : (forall w2, Steps w w2 -> keep w w2 -> Q tt w2) -> wp (ret tt) Q w.
Proof. intros K. apply wp_ret, K; [apply Steps_refl|apply keep_refl]. Qed.

Lemma wp_auth msg (Q : Z -> world -> Prop) w :
  bytes_ok msg -> mctx w -> c_is_server (w_c w) = true -> post Q w -> wp (handle_auth E hook msg) Q w.
Proof.
  intros B C Sv K. pose proof C as (ND & _). unfold handle_auth. apply wp_bind, wp_get. intros _. cbv zeta.
  rewrite Sv. cbn [negb andb].
  wif H1; [apply wp_ret, post_here; auto|]. wif H2; [apply wp_ret, post_here; auto|].
  wif L; [apply wp_ret, post_here; auto|]. change sizeof_auth_hdr with 2 in L.
  apply wp_bind. eapply wp_lift; [apply ld8_ok; lia|]. intros _.
  assert (forall off, 0 <= ntohs (e_le E) (host16 (e_le E) (nth (Z.to_nat off) msg 0) (nth (Z.to_nat off + 1) msg 0)) < 65536) as NT.
  { intros. apply ntohs_range, host16_range; apply bytes_ok_nth; auto. }
  assert (forall res, res <> HE_SUCCESS -> wp (auth_verdict E hook false res) Q w) as VF.
  { intros res Hr. apply wp_verdict; auto; [intros _; auto|discriminate]. }
  wif Ty1.
  { wif Cb; [|apply VF; discriminate].
    wif L2; [apply wp_ret, post_here; auto|]. change sizeof_auth with 104 in L2.
    unfold HE_CONFIG_TEXT_FIELD_LENGTH.
    do 2 (apply wp_bind; eapply wp_lift; [apply ldn_ok; lia|]; intros _).
    set (u := slice msg 4 50). assert (len u = 50) as Lu by (unfold u; rewrite len_slice; lia).
    set (p := slice msg (4 + 50) 50). assert (len p = 50) as Lp by (unfold p; rewrite len_slice; lia).
    apply wp_conseq with (Q := Q); [|auto].
    assert (forall A (m m' : M A) (Q : A -> world -> Prop) w, (forall w, m w = m' w) -> wp m Q w -> wp m' Q w) as EQ.
    { intros A m m' Q' w' He H G. specialize (H G). rewrite He in H. exact H. }
    eapply EQ; [|apply (@wp_auth_cb (EAuthUser u p) (store_username u) Q w); auto].
    - intros w'. unfold bind. destruct (callback E hook (EAuthUser u p) KAuth w') as [v w1|x w1]; [|reflexivity].
      unfold store_username, bind, get. destruct (lift _ w1) as [a w2|]; [|reflexivity].
      destruct (lift _ w2) as [b w3|]; reflexivity.
    - intros G. split; [intros _; now apply Good_mid1|]. cbn. auto 7 using nd_dis.
    - intros w1 Q' S1 HQ. apply wp_store_username; auto. }
  wif Ty2.
  { wif Cb; [|apply VF; discriminate].
    wif L2; [apply wp_ret, post_here; auto|]. change sizeof_auth_token with 4 in *.
    apply wp_bind; eapply wp_lift; [apply ldh16_ok; lia|]; intros _. cbv zeta. pose proof (NT 2).
    wif L3; [apply wp_ret, post_here; auto|].
    apply wp_bind; eapply wp_lift; [apply ldn_ok; lia|]; intros _.
    apply (@wp_auth_cb _ (ret tt)); auto.
    - intros G. split; [intros _; now apply Good_mid1|]. cbn. auto 7 using nd_dis.
    - intros; now apply wp_skip. }
  wif Ty3; [|apply VF; discriminate].
  wif Cb; [|apply VF; discriminate].
  wif L2; [apply wp_ret, post_here; auto|]. change sizeof_auth_buf with 4 in *.
  apply wp_bind; eapply wp_lift; [apply ldh16_ok; lia|]; intros _. cbv zeta. pose proof (NT 2).
  wif L3; [apply wp_ret, post_here; auto|].
  apply wp_bind; eapply wp_lift; [apply ldn_ok; lia|]; intros _.
  apply (@wp_auth_cb _ (ret tt)); auto.
  - intros G. split; [intros _; now apply Good_mid1|]. cbn. auto 7 using nd_dis.
  - intros; now apply wp_skip.
Qed.

Lemma wp_data msg (Q : Z -> world -> Prop) w :
  bytes_ok msg -> nd w -> post Q w -> wp (handle_data E hook msg) Q w.
Proof.
  intros B N K. unfold handle_data. apply wp_bind, wp_get. intros _.
  wif St; [apply wp_ret, post_here; auto|]. apply negb_false_iff, Z.eqb_eq in St.
  wif L; [apply wp_ret, post_here; auto|]. change sizeof_data with 3 in *.
  apply wp_bind. eapply wp_lift; [apply ldh16_ok; lia|]. intros _. cbv zeta.
  set (n := if _ && _ then _ else _). assert (0 <= n < 65536) as Rn.
  { assert (0 <= host16 (e_le E) (nth (Z.to_nat 1) msg 0) (nth (Z.to_nat 1 + 1) msg 0) < 65536)
      by (apply host16_range; apply bytes_ok_nth; auto).
    unfold n. destruct (_ && _); auto. now apply ntohs_range. }
  clearbody n. wif L2; [apply wp_ret, post_here; auto|].
  apply wp_bind. eapply wp_lift; [apply ldn_ok; lia|]. intros _.
  apply wp_deliver; auto; [intros _; auto|]. intros rc w1 S1 C1. apply K; auto. intros _. exact (nd_eq S1 C1 N).
Qed.

Lemma wp_deprecated msg (Q : Z -> world -> Prop) w :
  bytes_ok msg -> nd w -> post Q w -> wp (handle_deprecated_13 E hook msg) Q w.
Proof.
  intros B N K. unfold handle_deprecated_13. apply wp_bind, wp_get. intros _.
  wif St; [apply wp_ret, post_here; auto|]. apply negb_false_iff, Z.eqb_eq in St.
  wif L; [apply wp_ret, post_here; auto|]. change sizeof_deprecated_13 with 5 in *.
  apply wp_bind. eapply wp_lift; [apply ldh16_ok; lia|]. intros _. cbv zeta.
  assert (0 <= ntohs (e_le E) (host16 (e_le E) (nth (Z.to_nat 1) msg 0) (nth (Z.to_nat 1 + 1) msg 0)) < 65536)
      by (apply ntohs_range, host16_range; apply bytes_ok_nth; auto).
  wif L2; [apply wp_ret, post_here; auto|].
  apply wp_bind. eapply wp_lift; [apply ldn_ok; lia|]. intros _.
  apply wp_deliver; auto; [intros _; auto|]. intros rc w1 S1 C1. apply K; auto. intros _. exact (nd_eq S1 C1 N).
Qed.

Lemma table_delete_wf t id : table_wf t -> table_wf (table_delete t id).
Proof.
  intros [H1 H2]. split; [exact H1|]. intros i e. unfold table_delete, t_set. cbn [t_get].
  destruct (_ =? _); [discriminate|]. apply H2.
Qed.

Lemma wp_frag msg (Q : Z -> world -> Prop) w :
  bytes_ok msg -> nd w -> post Q w -> wp (handle_frag E hook msg) Q w.
Proof.
  intros B N K. unfold handle_frag. apply wp_bind, wp_get. intros _.
  wif St; [apply wp_ret, post_here; auto|]. apply negb_false_iff, Z.eqb_eq in St.
  wif L; [apply wp_ret, post_here; auto|]. change sizeof_data_frag with 7 in *.
  apply wp_bind. eapply wp_lift; [apply ldh16_ok; lia|]. intros _. cbv zeta.
  assert (forall off, 0 <= ntohs (e_le E) (host16 (e_le E) (nth (Z.to_nat off) msg 0) (nth (Z.to_nat off + 1) msg 0)) < 65536) as NT
      by (intros; apply ntohs_range, host16_range; apply bytes_ok_nth; auto).
  pose proof (NT 1). wif L2; [apply wp_ret, post_here; auto|].
  apply wp_bind. eapply wp_lift; [apply ldh16_ok; lia|]. intros _. cbv zeta.
  set (offset := u16 _). assert (0 <= offset < 65536) as Ro by (apply Z.mod_pos_bound; lia). clearbody offset.
  wif L3; [apply wp_ret, post_here; auto|].
  apply wp_bind. eapply wp_lift; [apply ldh16_ok; lia|]. intros _. cbv zeta.
  apply wp_good; intros G. pose proof (ok_tbl (Reach_cok (proj1 G))) as TW.
  apply wp_bind, wp_get. intros _. destruct (c_frag_tbl (w_c w)) as [t|] eqn:Ht; [|apply wp_ret, post_here; auto].
  specialize (TW t eq_refl).
  apply wp_bind, wp_ask. intros w1 S1 C1 T1 _. apply wp_bind, wp_ask. intros w2 S2 C2 T2 _.
  apply wp_bind, wp_ask. intros w3 S3 C3 T3 _. apply wp_bind, wp_ask. intros w4 S4 C4 T4 _.
  assert (Steps w w4) as S04 by stp. assert (w_c w4 = w_c w) as C04 by congruence.
  apply wp_bind. eapply wp_lift; [apply ldn_ok; lia|]. intros _.
  match goal with |- context [frag_store (negb (?a =? 0)) (negb (?b =? 0)) ?n1 ?n2 t ?id offset ?mf ?d] =>
    destruct (@frag_store_alloc (negb (a =? 0)) (negb (b =? 0)) t n1 n2 id offset mf d TW (proj1 Ro))
      as [[Hu Ha]|(rc & o & t' & Hv & W' & Ho)] end.
  - rewrite Hu. apply wp_bind. intros G4. cbn. split; [apply Steps_refl|]. apply stuck_null_sq. intros _. left.
    rewrite T4. unfold has. cbn [existsb snd]. apply negb_false_iff, Z.eqb_eq in Ha. rewrite Ha. reflexivity.
  - rewrite Hv. apply wp_bind, wp_ret. intros _. cbv beta iota.
    assert (nd w4) as N4 by (apply (nd_eq S04); auto; intros _; auto).
    apply wp_bind, wp_upd; [reflexivity| |].
    { intros []; constructor; auto. cbn. intros ? [= <-]. exact W'. }
    intros w5 S5 C5 T5 _. assert (Steps w w5) as S05 by stp.
    assert (nd w5) as N5 by (apply (nd_state S5); auto; intros _; rewrite C5; reflexivity).
    destruct o as [pk|]; [|apply wp_ret, K; auto].
    assert (c_state (w_c w5) = HE_STATE_ONLINE) as St5 by (rewrite C5; cbn; congruence).
    apply wp_bind, wp_deliver; auto; [intros _; auto|]. intros rc' w6 S6 C6 _.
    apply wp_bind, wp_upd; [reflexivity| |].
    { intros []; constructor; auto. cbn. intros t2. destruct (c_frag_tbl (w_c w6)); [|discriminate].
      intros [= <-]. apply table_delete_wf; auto. }
    intros w7 S7 C7 T7 _. apply wp_ret, K; [stp|]. intros _.
    apply (nd_state S7); [intros _; rewrite C7; reflexivity|]. exact (nd_eq S6 C6 N5).
Qed.

Lemma wp_process msg (Q : Z -> world -> Prop) w :
  bytes_ok msg -> mctx w -> now (received (msg_type msg)) w -> post Q w ->
  wp (process_message E hook msg) Q w.
Proof.
  intros B C N K. pose proof C as (ND & _). unfold process_message. wif L.
  { apply wp_bind. apply wp_upd; [reflexivity|okc|]. intros w1 S1 C1 T1 _. apply wp_ret, K; auto. discriminate. }
  change sizeof_msg_hdr with 1 in L.
  apply wp_bind. eapply wp_lift; [apply ld8_ok; lia|]. intros _. change (nth (Z.to_nat 0) msg 0) with (msg_type msg).
  apply wp_bind, wp_get. intros _.
  assert (forall v, wp (ret v) Q w) as R by (intros; apply wp_ret, post_here; auto).
  wif I1; [auto|]. wif I2; [apply wp_ping; auto|]. wif I3; [apply wp_pong; auto|].
  wif I4. { wif Sv; [apply wp_auth; auto|auto]. }
  wif I5; [apply wp_data; auto|].
  wif I6. { apply Z.eqb_eq in I6. rewrite I6 in N. wif Sv; [apply wp_config; auto|auto]. }
  wif I7. { wif Sv; auto. }
  wif I8; [auto|]. wif I9; [auto|]. wif I10; [auto|]. wif I11; [apply wp_deprecated; auto|].
  wif I12. { wif Sv; [apply wp_msg_server_config; auto|auto]. }
  wif I13; [apply wp_frag; auto|auto].
Qed.
End Msg.
