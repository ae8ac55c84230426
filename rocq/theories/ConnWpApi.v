(** The rest of the API: conn.c; and whole histories. *)
From Verif Require Import Base Codes Ctx Config Mss MssProofs Frag FragSpec FragProofs ReasmProofs ReasmTable Wire WireSpec
  WireProofs ConnState Conn ConnSpec HistSpec ConnSteps ConnWp ConnWpTac ConnWpCore ConnWpPm ConnWpMsg ConnWpFlow.
Unset Strict Implicit.

Section Api.
Variable E : env.
Variable hook : M unit.
Hypothesis HOOK : hook_ok E hook.
Notation wp := (wp E).

(** ** conn.c: connecting *)
Lemma mid1_same c' w : c_nudging c' = c_nudging (w_c w) -> c_prog c' = c_prog (w_c w) ->
  mid1 (World c' (w_t w)) = mid1 w.
Proof. unfold mid1. cbn [w_c w_t]. intros -> ->. reflexivity. Qed.
Lemma mid2_same c' w : c_is_server c' = c_is_server (w_c w) -> c_state c' = c_state (w_c w) ->
  mid2 (World c' (w_t w)) = mid2 w.
Proof. unfold mid2. cbn [w_c w_t]. intros -> ->. reflexivity. Qed.

Lemma create_wf a1 a2 v t :
  table_create a1 a2 (Z.max 0 (Z.min MAX_FRAGMENT_ENTRIES v)) = Some t -> table_wf t.
Proof.
  assert (1 <= MAX_FRAGMENT_ENTRIES <= 65536) by (unfold MAX_FRAGMENT_ENTRIES; lia).
  unfold table_create.
  repeat match goal with |- context [if ?b then _ else _] => destruct b eqn:? end; try discriminate;
  intros [= <-]; (split; [cbn; try lia|intros ? ?; discriminate]).
Qed.

Lemma wp_configure x i p (Q : Z -> world -> Prop) w :
  calling is_connect_op w -> asked x (w_t w) ->
  (forall rc w', Steps w w' -> cbs_from w' -> Q rc w') -> wp (configure E x i p) Q w.
Proof.
  intros CO A K. unfold configure. pose proof (configure_tracked x i p (w_c w)) as (T1 & T2 & T3 & T4 & T5 & T6 & T7 & T8).
  apply wp_bind, wp_step; auto.
  - intros _. now apply S_config.
  - intros G Hr. rewrite mid1_same; auto. now apply Good_mid1.
  - intros G Hr. rewrite mid2_same; auto.
  - intros w1 S1 C1 _ _.
    assert (cbs_from w1) as CF1 by (exists x; split; [exact (asked_mono S1 A)|left; rewrite C1; exact T3]).
    apply wp_bind, wp_ask. intros w2 S2 C2 _ _. apply wp_bind, wp_ask. intros w3 S3 C3 _ _.
    cbv zeta. apply wp_bind. apply wp_upd; [reflexivity| |].
    { intros []; constructor; auto. cbn [c_frag_tbl set_frag_tbl]. intros t. apply create_wf. }
    intros w4 S4 C4 _ _. apply wp_ret, K; [stp|]. apply (@cbs_from_mono w1); [stp|exact CF1].
Qed.

Lemma wp_settings x (Q : Z -> world -> Prop) w :
  (forall rc w', Steps w w' -> w_c w' = w_c w -> Q rc w') -> wp (wolf_settings E x) Q w.
Proof.
  intros K. assert (forall rc, Q rc w) as K0 by (intros; apply K; [apply Steps_refl|reflexivity]).
  unfold wolf_settings. apply wp_bind, wp_get. intros _. wif H1.
  - apply wp_bind, wp_ask. intros w1 S1 C1 _ _. wif H2; [apply wp_ret, K; auto|].
    wif H3; [|apply wp_ret, K; auto]. apply wp_bind, wp_ask. intros w2 S2 C2 _ _.
    wif H4; apply wp_ret, K; try stp; congruence.
  - wif H2; [|apply wp_ret; auto]. apply wp_bind, wp_ask. intros w1 S1 C1 _ _. wif H3; apply wp_ret, K; auto.
Qed.
Lemma wp_settings2 x (Q : Z -> world -> Prop) w :
  (forall rc w', Steps w w' -> w_c w' = w_c w -> Q rc w') -> wp (wolf_settings2 E x) Q w.
Proof.
  intros K. unfold wolf_settings2.
  apply wp_bind, wp_conseq with (Q := fun _ w1 => Steps w w1 /\ w_c w1 = w_c w).
  { wif H; [apply wp_ask; auto|apply wp_ret; split; [apply Steps_refl|reflexivity]]. }
  intros dn w1 _ _ [S1 C1] _. wif H1; [apply wp_ret, K; auto|]. apply wp_bind, wp_get. intros _.
  apply wp_bind, wp_conseq with (Q := fun _ w2 => Steps w w2 /\ w_c w2 = w_c w).
  { wif H; [apply wp_ask; intros w2 S2 C2 _; split; [stp|congruence]|apply wp_ret; auto]. }
  intros ks w2 _ _ [S2 C2] _. wif H2; apply wp_ret, K; auto.
Qed.

Definition cpost (Q : Z -> world -> Prop) (w : world) : Prop :=
  forall rc w', Steps w w' -> (rc = HE_SUCCESS -> seq w' (fresh w')) -> Q rc w'.
Lemma cpost_mono (Q : Z -> world -> Prop) w w' : Steps w w' -> cpost Q w -> cpost Q w'.
Proof. intros S K rc w2 S2 N. apply K; auto. stp. Qed.

Lemma wp_connect x i p (Q : Z -> world -> Prop) w :
  calling is_connect_op w -> asked x (w_t w) -> role0 w -> has connect_call (w_t w) = true ->
  cpost Q w -> wp (internal_connect E hook x i p) Q w.
Proof.
  intros CO A R0 HC K. unfold internal_connect. apply wp_bind, wp_configure; auto.
  intros rc w1 S1 CF1 _. assert (role w1) as R by (split; [exact (role0_mono S1 R0)|exact CF1]). wif Hrc; [apply wp_ret, K; auto; intros ->; discriminate|].
  apply wp_bind, wp_ask. intros w2 S2 C2 T2 _. cbv zeta. assert (Steps w w2) as S02 by stp.
  apply wp_bind, wp_step; auto.
  { intros _. apply S_wolf.
    - exact (calling_mono S02 CO).
    - exact (role_mono S2 R).
    - exact (has_mono S02 HC).
    - okc.
    - cbn. reflexivity.
    - intros _. cbn [c_wolf set_io set_wolf_ctx set_wolf]. destruct (x_wolf x) eqn:X; cbn [andb].
      + destruct (_ =? 0) eqn:Q0; [|left; reflexivity]. right. rewrite T2. unfold has. cbn [existsb snd tls_lost]. now rewrite Q0.
      + right. destruct (asked_mono S02 A) as (s & i' & p' & I). apply existsb_exists.
        destruct I as [I|[I|[I|I]]]; eexists; (split; [exact I|]); cbn [snd tls_lost]; now rewrite X. }
  { intros G Hr. rewrite mid1_same; auto. now apply Good_mid1. }
  { intros G Hr. rewrite mid2_same; auto. }
  intros w3 S3 C3 _ _. assert (Steps w w3) as S03 by stp.
  wif Hok; [apply wp_ret, K; auto; discriminate|].
  apply wp_bind, wp_settings. intros r1 w4 S4 C4 _. assert (Steps w w4) as S04 by stp.
  wif Hr1; [apply wp_ret, K; auto; intros ->; discriminate|].
  apply wp_bind. wpu. intros w5 S5 C5 _ _.
  apply wp_bind, wp_settings2. intros r2 w6 S6 C6 _. assert (Steps w4 w6) as S46 by stp. assert (Steps w w6) as S06 by stp.
  wif Hr2; [apply wp_ret, K; auto; intros ->; discriminate|].
  assert (tls_ok w6) as TL6.
  { apply negb_false_iff in Hok. intros Hr. left. rewrite C6, C5. cbn. rewrite C4, C3. exact Hok. }
  assert (forall w', Steps w1 w' -> tls_ok w' -> Good w' -> state_ok w' HE_STATE_CONNECTING) as OKC.
  { intros w' S' TL G. assert (Steps w w') as S by stp. split; [now apply Good_mid1|].
    split; [intros _; split; [exact (role_mono S' R)|exact (has_mono S HC)]|]. split; [intros _; auto|].
    left. split; [reflexivity|]. split; [exact (calling_mono S CO)|exact TL]. }
  assert (Steps w1 w6) as S16 by (eapply Steps_app; [exact S2|]; eapply Steps_app; [exact S3|]; stp).
  apply wp_bind, wp_change_state; auto; [discriminate| |].
  { intros G _. split; [now apply OKC|apply settles_other; discriminate]. }
  intros w7 S7 C7 _. assert (Steps w w7) as S07 by stp.
  apply wp_bind, wp_wolf_op; auto. { intros; now apply plain_ok. }
  intros r err d w8 w9 S8 S9 C9 T9 K9 _ _ _ _ _. cbv beta iota. assert (Steps w7 w9) as S79 by stp.
  assert (Steps w w9) as S09 by stp. assert (Steps w1 w9) as S19 by (eapply Steps_app; [exact S16|]; stp).
  assert (tls_ok w9) as TL9.
  { assert (tls_ok w7) as TL7 by (apply (tls_keep S7); auto; intros Hr; rewrite (C7 Hr); reflexivity).
    apply (tls_keep S79); auto. intros Hr. destruct (K9 Hr) as [y ->]. reflexivity. }
  assert (seq w9 (c_state (w_c w9) = HE_STATE_CONNECTING)) as St9.
  { intros Hr. destruct (K9 Hr) as [y ->]. cbn. rewrite (C7 (re_anti S79 Hr)). reflexivity. }
  wif Hr.
  - wif He.
    + apply wp_bind, wp_change_state; auto; [discriminate| |].
      { intros G _. split; [now apply OKC|apply settles_other; discriminate]. }
      intros w10 S10 C10 _. apply wp_bind, wp_update_timeout; [exact HOOK| |].
      { intros _. apply (tls_keep S10); auto. intros Hr'. now rewrite (C10 Hr'). }
      intros w11 S11 K11 _.
      apply wp_ret, K; [stp|]. intros _ Hre. left. rewrite (keep_state K11 Hre), (C10 (re_anti S11 Hre)). reflexivity.
    + apply wp_ret, K; auto. discriminate.
  - apply negb_false_iff, Z.eqb_eq in Hr.
    apply wp_bind, wp_link; auto.
    + exact (role_mono S19 R).
    + exact (has_mono S09 HC).
    + eapply now_push; [exact T9|reflexivity|]. cbn. rewrite Hr. reflexivity.
    + intros w10 S10 K10 U10 _. apply wp_bind, wp_update_timeout; [exact HOOK| |].
      { intros _. apply (tls_keep S10); auto. intros Hr'. specialize (K10 Hr'). unfold core in K10. cbn in K10. congruence. }
      intros w11 S11 K11 _.
      assert (now negotiated w9) as N9 by (eapply now_push; [exact T9|reflexivity|cbn; rewrite Hr; reflexivity]).
      apply wp_ret, K; [stp|]. intros _ Hre. right. rewrite (keep_state K11 Hre). split; [|exact (now_mono S11 (now_mono S10 N9))].
      destruct (U10 (re_anti S11 Hre)) as [[-> _]|[-> _]]; auto.
Qed.

Lemma wp_set_server (b : bool) (Q : unit -> world -> Prop) w :
  calling is_connect_op w -> has (if b then server_call else client_call) (w_t w) = true ->
  (forall w', Steps w w' -> w_c w' = set_is_server b (w_c w) -> Q tt w') ->
  wp (upd (set_is_server b)) Q w.
Proof.
  intros CO H K. apply wp_step; auto.
  - intros _. now apply S_role.
  - intros G Hr. rewrite mid1_same; auto. now apply Good_mid1.
  - intros G Hr M2. unfold mid2 in *. cbn [w_c w_t c_is_server set_is_server c_state].
    destruct b; [now rewrite andb_false_r|]. pose proof (Reach_role2 (proj1 G)) as R2.
    change (c_state (set_is_server false (w_c w))) with (c_state (w_c w)).
    destruct (has server_call (w_t w)) eqn:F; [reflexivity|]. cbn [negb andb] in *.
    destruct (c_is_server (w_c w)) eqn:F2; [specialize (R2 F2); congruence|exact M2].
Qed.

Lemma is_empty_ok f : len f = 51 -> exists b, config_is_empty f = Val b.
Proof. intros L. unfold config_is_empty. rewrite ld8_ok by lia. cbn [rbind]. eauto. Qed.

Lemma wp_client_connect x i p (Q : Z -> world -> Prop) w :
  calling is_connect_op w -> asked x (w_t w) -> has client_call (w_t w) = true -> has connect_call (w_t w) = true ->
  cpost Q w -> wp (client_connect E hook x i p) Q w.
Proof.
  intros CO A H HC K. apply wp_good; intros G. pose proof (Reach_cok (proj1 G)) as C.
  unfold client_connect. apply wp_bind, wp_get. intros _.
  assert (exists r, is_valid_client x (w_c w) = Val r) as [r Er].
  { unfold is_valid_client. destruct (is_empty_ok (ok_username C)) as [a ->]. destruct (is_empty_ok (ok_password C)) as [b ->].
    cbn [rbind]. eauto. }
  apply wp_bind. eapply wp_lift; [exact Er|]. intros _.
  wif Hr; [apply wp_ret, K; [apply Steps_refl|intros ->; discriminate]|].
  apply wp_bind, wp_set_server; auto. intros w1 S1 C1 _.
  apply wp_connect.
  - exact (calling_mono S1 CO).
  - exact (asked_mono S1 A).
  - intros _. exact (has_mono S1 H).
  - exact (has_mono S1 HC).
  - exact (cpost_mono S1 K).
Qed.

Lemma wp_session_id (Q : Z * Z -> world -> Prop) w :
  (forall rc s w', Steps w w' -> w_c w' = w_c w -> 0 <= s < 18446744073709551616 -> Q (rc, s) w') ->
  wp (generate_session_id E) Q w.
Proof.
  intros K. unfold generate_session_id. apply wp_bind, wp_ask. intros w1 S1 C1 _ _.
  wif H; [apply wp_ret, K; auto; lia|]. apply wp_bind, wp_ask. intros w2 S2 C2 _ _. apply wp_ret, K; [stp|congruence|].
  apply Z.mod_pos_bound. lia.
Qed.

Lemma wp_server_connect x i p (Q : Z -> world -> Prop) w :
  calling is_connect_op w -> asked x (w_t w) -> has server_call (w_t w) = true -> has connect_call (w_t w) = true ->
  cpost Q w -> wp (server_connect E hook x i p) Q w.
Proof.
  intros CO A H HC K. unfold server_connect. apply wp_bind, wp_get. intros _. cbv zeta.
  wif Hr; [apply wp_ret, K; [apply Steps_refl|intros F; rewrite F in Hr; discriminate]|].
  apply wp_bind, wp_set_server; auto. intros w1 S1 C1 _.
  apply wp_bind, wp_connect.
  - exact (calling_mono S1 CO).
  - exact (asked_mono S1 A).
  - intros F. rewrite C1 in F. discriminate.
  - exact (has_mono S1 HC).
  - intros rc w2 S2 N2 _. wif Hrc; [apply wp_ret, K; [stp|auto]|]. apply negb_false_iff, Z.eqb_eq in Hrc. specialize (N2 Hrc).
    apply wp_bind, wp_session_id. intros rc2 s w3 S3 C3 Hs _. cbv beta iota.
    assert (Steps w2 w3) as S23 by stp.
    assert (seq w3 (fresh w3)) as N3 by (intros Hre; apply (fresh_same S3); [congruence|]; apply N2; exact (re_anti S3 Hre)).
    wif Hrc2; [apply wp_ret, K; [stp|auto]|].
    apply wp_bind. apply wp_upd; [reflexivity|okc|]. intros w4 S4 C4 _ _.
    apply wp_ret, K; [stp|]. intros _ Hre. apply (fresh_same S4); [rewrite C4; reflexivity|]. apply N3. exact (re_anti S4 Hre).
Qed.

(** conn.c:378-415 *)
Lemma wp_disconnect (Q : Z -> world -> Prop) w :
  calling is_disconnect w ->
  (forall rc w', Steps w w' -> (rc = HE_SUCCESS -> seq w' (c_state (w_c w') = HE_STATE_DISCONNECTED /\
     cb_inside (c_cbs (w_c w')) = false /\ cb_outside (c_cbs (w_c w')) = false)) -> Q rc w') ->
  wp (disconnect E hook) Q w.
Proof.
  intros CO K. apply wp_good; intros G. pose proof (Reach_inv (proj1 G)) as (IW & _).
  unfold disconnect. apply wp_bind, wp_get. intros _.
  wif W; [apply wp_ret, K; [apply Steps_refl|discriminate]|]. apply negb_false_iff in W.
  wif St; [apply wp_ret, K; [apply Steps_refl|discriminate]|].
  destruct (IW W) as [R HC].
  apply wp_bind, wp_change_state; auto; [discriminate| |].
  { intros _ _. split; [|apply settles_other; discriminate]. split; [now apply Good_mid1|]. split; [auto|].
    split; [intros _ F; rewrite F in St; discriminate|]. do 5 right; left. split; [reflexivity|].
    split; [|intros _; left; exact W]. intros Hr. destruct (CO Hr) as (o & L & F). exists o. split; auto. rewrite F. reflexivity. }
  intros w1 S1 C1 _. apply wp_bind. unfold send_goodbye. apply wp_bind. eapply wp_lift; [apply build_goodbye_ok|]. intros _.
  apply wp_bind, wp_send_message; auto.
  { intros _. split; [vm_compute; split; congruence|]. split; [intros Hr; rewrite (C1 Hr); discriminate|].
    do 8 right. split; [reflexivity|]. split; [reflexivity|]. split; [intros Hr; now rewrite (C1 Hr)|exact (calling_mono S1 CO)]. }
  intros rc w2 S2 K2 _. apply wp_ret. intros _. 
  apply wp_bind, wp_wolf_op; auto. { intros; now apply plain_ok. }
  intros r err d w3 w4 S3 S4 C4 T4 K4 _ _ _ _ _. assert (Steps w2 w4) as S24 by stp. assert (Steps w w4) as S04 by stp.
  assert (seq w4 (c_state (w_c w4) = HE_STATE_DISCONNECTING)) as St4.
  { intros Hr. rewrite (keep_state (keep_rx_keep K4) Hr). pose proof (re_anti S24 Hr) as Hr2.
    rewrite (keep_state K2 Hr2). rewrite (C1 (re_anti S2 Hr2)). reflexivity. }
  apply wp_bind. apply (@wp_step E (fun c => set_timeout 0 (set_cbs (cbs_off (c_cbs c)) c))); auto.
  { intros _. apply S_cbs_off. exact (calling_mono S04 CO). }
  { intros G' Hr. rewrite mid1_same; auto. now apply Good_mid1. }
  { intros G' Hr. rewrite mid2_same; auto. }
  intros w5 S5 C5 T5 _. assert (Steps w w5) as S05 by stp.
  apply wp_bind, wp_change_state; auto; [discriminate| |].
  { intros G5 Ns. split; [|apply settles_other; discriminate]. split; [now apply Good_mid1|].
    split; [intros F; now contradiction F|]. split; [intros _ F; contradiction|].
    do 6 right. split; [reflexivity|]. intros Hr. destruct (calling_mono S05 CO Hr) as (o & L & F). exists o. split; auto.
    rewrite F. reflexivity. }
  intros w6 S6 C6 _. apply wp_ret, K; [stp|]. intros _ Hr. rewrite (C6 Hr), C5. auto.
Qed.

(** conn.c:807-845 *)
Lemma wp_nudge (Q : Z -> world -> Prop) w :
  seq w (exists s p, w_t w = (s, ECall ONudge) :: p) -> calling is_nudge w ->
  (forall rc w', Steps w w' -> Q rc w') -> wp (nudge E hook) Q w.
Proof.
  intros Hh CO K. unfold nudge. apply wp_bind, wp_step; auto.
  { intros _. now apply S_nudge_off. }
  { intros G Hr. unfold mid1. cbn [w_t]. destruct (Hh Hr) as (s & p & ->). reflexivity. }
  { intros G Hr. rewrite mid2_same; auto. }
  intros w1 S1 C1 T1 _. apply wp_bind, wp_get. intros _. wif St.
  - apply wp_good; intros G1. apply wp_bind, wp_send_auth; auto; [exact (calling_mono S1 CO)|lia|]. intros rc w2 S2 _ _. apply wp_bind, wp_update_timeout; [exact HOOK| |].
    { intros G2. assert (tls_ok w1) as TL1 by (apply tls_when; [apply G1|]; intros _; left; rewrite (proj1 (Z.eqb_eq _ _) St); split; discriminate).
      refine (tls_stays S2 (calling_mono S1 CO) _ TL1). intros []; cbn; congruence. }
    intros w3 S3 _ _. apply wp_ret, K. stp.
  - apply wp_bind, wp_wolf_op; auto. { intros; now apply plain_ok. }
    intros r err d w2 w3 S2 S3 C3 T3 K3 _ _ _ Hn _. cbv beta iota. assert (Steps w w3) as S03 by stp.
    wif He.
    + apply wp_bind, wp_change_state; auto; [discriminate| |].
      { intros G Ns. split; [|apply settles_other; discriminate]. split; [now apply Good_mid1|].
        split; [intros F; now contradiction F|]. split; [intros _ F; contradiction|].
        do 6 right. split; [reflexivity|]. intros Hr. destruct (calling_mono S03 CO Hr) as (o & L & F). exists o. split; auto.
        rewrite F. apply orb_true_r. }
      intros w4 S4 _ _. apply wp_ret, K. stp.
    + apply wp_bind, wp_update_timeout; [exact HOOK| |].
      { intros _ Hre. left. destruct (c_wolf (w_c w1)) eqn:W; [destruct (K3 Hre) as [x ->]; exact W|].
        destruct (Hn eq_refl) as [Hb1 Hb2]. rewrite Hb1, Hb2 in He. discriminate. }
      intros w4 S4 _ _. apply wp_ret, K. stp.
Qed.

Lemma wp_keepalive (Q : Z -> world -> Prop) w :
  (forall rc w', Steps w w' -> Q rc w') -> wp (send_keepalive E hook) Q w.
Proof.
  intros K. apply wp_good; intros G. pose proof (ok_ping (Reach_cok (proj1 G))) as P.
  unfold send_keepalive. apply wp_bind, wp_get. intros _.
  wif St; [apply wp_ret, K, Steps_refl|]. apply negb_false_iff, Z.eqb_eq in St.
  apply wp_bind, wp_get. intros _. apply wp_bind. apply wp_upd; [reflexivity|okc; apply Z.mod_pos_bound; lia|].
  intros w1 S1 C1 _ _. apply wp_bind. eapply wp_lift; [apply build_ping_ok; change sizeof_ping with 5; lia|]. intros _.
  apply wp_bind, wp_send_message; auto.
  { intros _. set (m := _ :: _). assert (len m = 5) as Lm by (unfold m; change sizeof_ping with 5; lens).
    assert (c_state (w_c w1) = HE_STATE_ONLINE) as St1 by (rewrite C1; exact St).
    split; [unfold HE_MAX_WIRE_MTU; lia|]. split; [intros _; rewrite St1; discriminate|].
    do 5 right; left. split; [reflexivity|]. split; [exact St1|left; exact Lm]. }
  intros rc w2 S2 _ _. apply wp_bind. unfold when. wif H.
  - wpu. intros w3 S3 _ _ _. apply wp_ret, K. stp.
  - apply wp_ret. intros _. apply wp_ret, K. stp.
Qed.

Lemma wp_send_config buffer (Q : Z -> world -> Prop) w :
  (forall rc w', Steps w w' -> Q rc w') -> wp (send_server_config E hook buffer) Q w.
Proof.
  intros K. unfold send_server_config. apply wp_bind, wp_get. intros _.
  wif Sv; [apply wp_ret, K, Steps_refl|]. wif St; [apply wp_ret, K, Steps_refl|]. wif L; [apply wp_ret, K, Steps_refl|].
  apply negb_false_iff in Sv, St. change HE_MAX_MTU with 1350 in *. change sizeof_server_config with 3 in *.
  pose proof (len_nonneg buffer).
  apply wp_bind. eapply wp_lift; [apply build_server_config_ok; change HE_MAX_MTU with 1350; change sizeof_server_config with 3; lia|].
  intros _. assert (len (server_config_message buffer) = 3 + len buffer) as Lm by (unfold server_config_message; lens).
  apply wp_bind. eapply wp_lift.
  { apply ldn_ok; try lia. rewrite len_app, Lm, len_zeros; unfold HE_MAX_MTU, sizeof_server_config; lia. }
  intros _. rewrite slice_prefix by lia.
  apply wp_send_message; auto. intros _. split; [unfold HE_MAX_WIRE_MTU; lia|].
  split. { intros _ F. rewrite F in St. discriminate. }
  do 7 right; left. split; [reflexivity|auto].
Qed.

(** ** The API *)
Definition entry (o : op) (w : world) : Prop :=
  seq w (exists s p, w_t w = (s, ECall o) :: p) /\
  exists s e p, w_t w = (s, e) :: p /\ (e = ECall o \/ e = ENest o).

Lemma entry_calling o f w : entry o w -> f o = true -> calling f w.
Proof. intros [H _] F Hr. destruct (H Hr) as (s & p & ->). exists o. auto. Qed.
Lemma entry_called o f w : entry o w -> f o = true -> has (called f) (w_t w) = true.
Proof.
  intros [_ (s & e & p & -> & H)] F. unfold has. cbn [existsb snd]. destruct H; subst e; cbn; now rewrite F.
Qed.

Definition bpost (o : op) (rc : Z) (w' : world) : Prop :=
  (is_connect_op o = true -> rc = HE_SUCCESS -> seq w' (fresh w')) /\
  (o = ODisconnect -> rc = HE_SUCCESS -> seq w' (c_state (w_c w') = HE_STATE_DISCONNECTED /\
     cb_inside (c_cbs (w_c w')) = false /\ cb_outside (c_cbs (w_c w')) = false)).
Lemma bpost_other o rc w' : is_connect_op o = false -> o <> ODisconnect -> bpost o rc w'.
Proof. intros A B. split; intros; [congruence|contradiction]. Qed.

Lemma set_string_ok f s : len f = 51 -> exists rc f', set_config_string f (cmem s) = Val (rc, f') /\ len f' = 51.
Proof.
  intros L. unfold set_config_string, config_is_empty.
  assert (len (cmem s) = len (cstr (u8s s)) + 1) as Lc by (unfold cmem; lens). pose proof (len_nonneg (cstr (u8s s))).
  rewrite ld8_ok by lia. cbn [rbind]. destruct (_ =? 0); [eauto|].
  assert (cstr (cmem s) = cstr (u8s s)) as Cc by (apply cstr_app_nul, cstr_nonul).
  assert (length (cstr (cmem s)) < length (cmem s))%nat as LL by (rewrite Cc; unfold len in Lc; lia).
  unfold config_too_long, strnlen. rewrite strnlen_nat_cstr by auto. cbn [rbind]. destruct (_ <? _); [eauto|].
  unfold strncpy. rewrite strncpy_nat_cstr by auto. cbn [rbind]. unfold HE_CONFIG_TEXT_FIELD_LENGTH.
  set (x := _ ++ _). assert (len x = 50) as Lx.
  { unfold x, len. rewrite app_length, firstn_length, repeat_length. lia. }
  rewrite stn_ok by lia. cbn [rbind]. unfold st8. rewrite stn_ok.
  - cbn [rbind]. eexists _, _. split; [reflexivity|].
    rewrite !len_app, !len_firstn, !len_skipn, !len_app, !len_firstn, !len_skipn, !len_cons, !len_nil. lia.
  - lia.
  - rewrite !len_app, len_firstn, len_skipn, len_cons, len_nil. lia.
Qed.

Lemma wp_body o (Q : Z -> world -> Prop) w :
  entry o w -> (forall rc w', Steps w w' -> bpost o rc w' -> Q rc w') -> wp (api_body E hook o) Q w.
Proof.
  intros En K.
  assert (forall P : Prop, P -> is_connect_op o = false -> o <> ODisconnect -> forall rc w', Steps w w' -> Q rc w') as K'.
  { intros. apply K; auto using bpost_other. }
  apply wp_good; intros G. pose proof (Reach_cok (proj1 G)) as C.
  destruct o; cbn [api_body];
    try (specialize (K' True I eq_refl ltac:(discriminate))).
  - apply wp_client_connect.
    + now apply (entry_calling En).
    + destruct En as [_ (s & e & l & -> & He)]. exists s, inp, outp. destruct He; subst e; cbn; auto.
    + now apply (entry_called En).
    + now apply (entry_called En).
    + intros rc w' S N. apply K; auto. split; [auto|discriminate].
  - apply wp_server_connect.
    + now apply (entry_calling En).
    + destruct En as [_ (s & e & l & -> & He)]. exists s, inp, outp. destruct He; subst e; cbn; auto.
    + now apply (entry_called En).
    + now apply (entry_called En).
    + intros rc w' S N. apply K; auto. split; [auto|discriminate].
  - apply wp_disconnect; [now apply (entry_calling En)|]. intros rc w' S N. apply K; auto. split; [discriminate|auto].
  - apply wp_inside; auto using bytes_ok_u8s.
  - apply wp_outside; auto using bytes_ok_u8s. now apply (entry_calling En).
  - apply wp_nudge; auto. apply En. now apply (entry_calling En).
  - apply wp_keepalive; auto.
  - apply wp_send_config; auto.
  - apply wp_bind. wpu. intros w1 S1 _ _ _. apply wp_ret; auto.
  - unfold start_pmtu_discovery. apply wp_bind, wp_get. intros _.
    wif H1; [apply wp_ret, K', Steps_refl|]. wif H2; [apply wp_ret, K', Steps_refl|]. wif H3; [apply wp_ret, K', Steps_refl|].
    apply wp_start_base; auto; try lia. now apply (entry_calling En).
  - apply wp_probe_timeout; auto.
  - unfold rotate_session_id. apply wp_bind, wp_get. intros _. wif H1; [apply wp_ret, K', Steps_refl|].
    apply wp_bind, wp_session_id. intros rc s w1 S1 C1 Hs _. cbv beta iota. wif H2; [apply wp_ret, K'; auto|].
    apply wp_bind. apply wp_upd; [reflexivity|okc|]. intros w2 S2 _ _ _. apply wp_ret, K'. stp.
  - unfold set_session_id. apply wp_bind, wp_get. intros _. wif H1; [apply wp_ret, K', Steps_refl|].
    apply wp_bind. apply wp_upd; [reflexivity|okc; apply Z.mod_pos_bound; lia|]. intros w2 S2 _ _ _. apply wp_ret, K'. stp.
  - unfold set_username_api. apply wp_bind. apply wp_upd; [reflexivity|okc; unfold HE_AUTH_TYPE_USERPASS; lia|].
    intros w1 S1 C1 _ _. apply wp_bind, wp_get. intros _.
    destruct (@set_string_ok (c_username (w_c w1)) s) as (rc & f & Ef & Lf); [rewrite C1; apply C|].
    apply wp_bind. eapply wp_lift; [exact Ef|]. intros _. cbv beta iota.
    apply wp_bind. apply wp_upd; [reflexivity|okc|]. intros w2 S2 _ _ _. apply wp_ret, K'. stp.
  - unfold set_password_api. apply wp_bind. apply wp_upd; [reflexivity|okc; unfold HE_AUTH_TYPE_USERPASS; lia|].
    intros w1 S1 C1 _ _. apply wp_bind, wp_get. intros _.
    destruct (@set_string_ok (c_password (w_c w1)) s) as (rc & f & Ef & Lf); [rewrite C1; apply C|].
    apply wp_bind. eapply wp_lift; [exact Ef|]. intros _. cbv beta iota.
    apply wp_bind. apply wp_upd; [reflexivity|okc|]. intros w2 S2 _ _ _. apply wp_ret, K'. stp.
  - unfold set_auth_token. remember (u8s b) as d eqn:Ed. clear Ed. wif H1; [apply wp_ret, K', Steps_refl|]. wif H2; [apply wp_ret, K', Steps_refl|].
    unfold HE_MAX_MTU in *. apply wp_bind. apply wp_upd; [reflexivity|okc; unfold HE_AUTH_TYPE_TOKEN; lia|].
    intros w1 S1 C1 _ _. apply wp_bind, wp_get. intros _.
    assert (len (c_auth_buf (w_c w1)) = 1350) as Lb by (rewrite C1; apply C). pose proof (len_nonneg d).
    destruct (stn (c_auth_buf (w_c w1)) 0 d) as [f|] eqn:Ef; [|rewrite stn_ok in Ef by lia; discriminate].
    pose proof (@stn_len _ _ _ _ Ef) as Lf. apply wp_bind. eapply wp_lift; [reflexivity|]. intros _.
    assert (u16 (len d) = len d) as U by (apply Z.mod_small; lia). rewrite U.
    apply wp_bind. apply wp_upd; [reflexivity|okc; unfold HE_MAX_MTU; lia|]. intros w2 S2 _ _ _. apply wp_ret, K'. stp.
  - unfold set_auth_buffer. cbv zeta. remember (firstn (Z.to_nat 65535) (u8s b)) as d eqn:Ed. clear Ed.
    wif H1; [apply wp_ret, K', Steps_refl|]. wif H2; [apply wp_ret, K', Steps_refl|].
    unfold HE_MAX_MTU in *. change sizeof_auth_buf with 4 in *. apply wp_bind. apply wp_upd; [reflexivity|okc; unfold HE_AUTH_TYPE_CB; lia|].
    intros w1 S1 C1 _ _. apply wp_bind, wp_get. intros _.
    assert (len (c_auth_buf (w_c w1)) = 1350) as Lb by (rewrite C1; apply C). pose proof (len_nonneg d).
    destruct (stn (c_auth_buf (w_c w1)) 0 d) as [f|] eqn:Ef; [|rewrite stn_ok in Ef by lia; discriminate].
    pose proof (@stn_len _ _ _ _ Ef) as Lf. apply wp_bind. eapply wp_lift; [reflexivity|]. intros _.
    apply wp_bind. apply wp_upd; [reflexivity|okc; unfold HE_MAX_MTU; lia|]. intros w2 S2 _ _ _. apply wp_ret, K'. stp.
  - unfold set_outside_mtu. cbv zeta. assert (0 <= u16 mtu < 65536) by (apply Z.mod_pos_bound; lia).
    wif H1; [apply wp_ret, K', Steps_refl|]. apply wp_bind. apply wp_upd; [reflexivity|okc|]. intros w2 S2 _ _ _. apply wp_ret, K'. stp.
  - apply wp_bind. apply wp_upd; [reflexivity|okc; apply Z.mod_pos_bound; lia|]. intros w2 S2 _ _ _. apply wp_ret, K'. stp.
  - unfold set_sni_hostname. apply wp_bind, wp_get. intros _.
    assert (len (cmem s) = len (cstr (u8s s)) + 1) as Lc by (unfold cmem; lens).
    assert (cstr (cmem s) = cstr (u8s s)) as Cc by (apply cstr_app_nul, cstr_nonul).
    assert (length (cstr (cmem s)) < length (cmem s))%nat as LL by (rewrite Cc; unfold len in Lc; lia).
    pose proof (ok_sni C) as Ls.
    unfold strncpy. rewrite strncpy_nat_cstr by auto. cbn [rbind].
    set (x := _ ++ _). assert (len x = HE_MAX_HOSTNAME_LENGTH) as Lx.
    { unfold x, len. rewrite app_length, firstn_length, repeat_length. unfold HE_MAX_HOSTNAME_LENGTH. lia. }
    unfold HE_MAX_HOSTNAME_LENGTH in Lx.
    destruct (stn (c_sni (w_c w)) 0 x) as [f|] eqn:Ef; [|rewrite stn_ok in Ef by lia; discriminate].
    pose proof (@stn_len _ _ _ _ Ef) as Lf. apply wp_bind. eapply wp_lift; [reflexivity|]. intros _.
    apply wp_bind. apply wp_upd; [reflexivity|okc; lia|]. intros w2 S2 _ _ _. apply wp_ret, K'. stp.
Qed.

(** A call of the host *)
Lemma api_ok o w : Good w ->
  match api E hook o w with
  | Done rc w' => Good w' /\ exists w1 w2, w1 = World (w_c w) ((c_state (w_c w), ECall o) :: w_t w) /\ Steps w1 w2 /\
                    ret_ok w2 o rc /\ w' = World (w_c w2) ((c_state (w_c w2), ERet o rc) :: w_t w2)
  | Stuck u w' => Reach w' /\ stuck_ok E w' u /\ last_call (w_t w') = Some o
  end.
Proof.
  intros G. unfold api, bind, emit. set (w1 := World _ _).
  assert (Reach w1) as R1 by (apply R_call; [apply G|now apply Good_mid1]).
  assert (Good w1) as G1.
  { split; [exact R1|]. intros Hr. pose proof G as [_ M]. destruct (M Hr) as (M1 & M2 & M3). split; [reflexivity|split].
    - unfold mid2 in *. cbn [w1 w_c w_t]. unfold has in *. cbn [existsb snd].
      destruct (existsb _ (w_t w)); [now rewrite orb_true_r|]. rewrite orb_false_r.
      destruct (server_call _); [reflexivity|exact M2].
    - intros (O & N). apply M3. split; auto. unfold once, count in *. cbn [w1 w_t filter snd] in O.
      destruct (connect_call _); cbn in O; lia. }
  assert (entry o w1) as En.
  { split; [intros _; eexists _, _; reflexivity|]. eexists _, _, _. split; [reflexivity|auto]. }
  pose proof (@wp_body o (fun rc w' => Steps w1 w' /\ bpost o rc w') w1 En (fun rc w' a b => conj a b) G1) as H.
  destruct (api_body E hook o w1) as [rc w2|u w2].
  - destruct H as (S & G2 & _ & B1 & B2).
    assert (ret_ok w2 o rc) as RO.
    { intros Hr. pose proof G2 as [_ M]. destruct (M Hr) as (M1 & M2 & M3). repeat (split; [assumption|]).
      split; [now rewrite (last_call_mono S)|]. split; intros; [apply B1|apply B2]; auto. }
    cbn [ret]. split.
    + split; [apply R_ret; [apply G2|exact RO]|]. intros Hr. pose proof G2 as [_ M]. destruct (M Hr) as (M1 & M2 & M3). split; [reflexivity|split].
      * unfold mid2 in *. cbn [w_c w_t]. unfold has in *. cbn [existsb snd server_call called]. exact M2.
      * intros (O & N). apply M3. split; auto.
    + exists w1, w2. auto.
  - destruct H as (S & H). split; [eapply Reach_Steps; eauto|]. split; [exact H|]. now rewrite (last_call_mono S).
Qed.

(** A call from inside a callback *)
Lemma nested_ok o w : Reach w ->
  match nested_api E hook o w with
  | Done _ w' => Steps w w' /\ re (w_t w') = true
  | Stuck u w' => Steps w w' /\ stuck_ok E w' u
  end.
Proof.
  intros R. unfold nested_api, bind, emit. set (w1 := World _ _).
  assert (Step w w1) as S1 by (apply S_emit; split; [discriminate|exact I]).
  assert (re (w_t w1) = true) as Hr1 by reflexivity.
  assert (forall w', Steps w1 w' -> re (w_t w') = true) as HR by (intros w' S; exact (has_mono S Hr1)).
  assert (Good w1) as G1 by (split; [eapply R_step; eauto|intros F; congruence]).
  assert (entry o w1) as En.
  { split; [intros F; unfold seq in F; congruence|]. eexists _, _, _. split; [reflexivity|auto]. }
  pose proof (@wp_body o (fun rc w' => Steps w1 w') w1 En (fun rc w' a b => a) G1) as H.
  destruct (api_body E hook o w1) as [rc w2|u w2].
  - destruct H as (S & G2 & _). cbn [ret]. set (w3 := World _ _).
    assert (Step w2 w3) as S3 by (apply S_emit; split; [intros _; now apply Good_mid1|exact I]).
    split; [|apply HR; eapply Steps_app; [exact S|now apply Steps_one]].
    eapply Steps_trans; [exact S1|]. eapply Steps_app; [exact S|now apply Steps_one].
  - destruct H as (S & H). split; [eapply Steps_trans; eauto|exact H].
Qed.

Lemma host_ok h : forall w, Reach w ->
  match run_host E hook h w with
  | Done _ w' => Steps w w' /\ seq w' (w' = w)
  | Stuck u w' => Steps w w' /\ stuck_ok E w' u
  end.
Proof.
  induction h as [|o k IH]; intros w R; cbn [run_host].
  - split; [apply Steps_refl|intros _; reflexivity].
  - pose proof (@nested_ok o w R) as H. unfold bind. destruct (nested_api E hook o w) as [rc w1|u w1]; [|exact H].
    destruct H as [S1 Hr1]. assert (Reach w1) as R1 by (eapply Reach_Steps; eauto).
    specialize (IH rc w1 R1). destruct (run_host E hook (k rc) w1) as [[] w2|u w2]; destruct IH as [S2 H2].
    + split; [stp|]. intros F. pose proof (has_mono S2 Hr1) as F2. unfold re in F. congruence.
    + split; [stp|exact H2].
Qed.
End Api.

Theorem hookn_ok E n : hook_ok E (hookn E n).
Proof.
  induction n as [|n IH]; intros w R; cbn [hookn].
  - split; [apply Steps_refl|intros _; reflexivity].
  - unfold bind, log. now apply host_ok.
Qed.

(** Every history is made of the steps. *)
Lemma run_good E n ops : forall w, Good w ->
  match run E n ops w with
  | Done _ w' => Good w'
  | Stuck u w' => Reach w' /\ stuck_ok E w' u
  end.
Proof.
  induction ops as [|o ops IH]; intros w G; cbn [run]; [exact G|].
  pose proof (@api_ok E (hookn E n) (@hookn_ok E n) o w G) as H.
  destruct (api E (hookn E n) o w) as [rc w'|u w']; [|split; apply H]. apply IH, H.
Qed.
Lemma Good_new : Good world_new.
Proof.
  split; [apply R_new|]. intros _. split; [reflexivity|]. split; [reflexivity|].
  intros (_ & F & _). discriminate.
Qed.
Theorem run_reach E n ops : Reach (world_of (run E n ops world_new)).
Proof.
  pose proof (run_good E n ops Good_new) as H. destruct (run E n ops world_new); cbn [world_of]; apply H.
Qed.
