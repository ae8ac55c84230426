(** he_conn_outside_data_received: which packets reach the inside (no plugins on
    the inside, sequential host). *)
From Verif Require Import Base Codes Ctx Config Mss MssSpec MssProofs Frag FragSpec FragProofs ReasmTable FragHistory
  Wire WireSpec WireProofs ConnState Conn ConnSpec CallSpec MsgSpec ConnSteps Frame Reaction Seq SeqInside.
Unset Strict Implicit.

(** What does not change during such a call. *)
Definition cfg (c : conn) := (c_vmaj c, c_vmin c, c_in_chain c, c_cbs c).

(** ** One message, on the table of fragments *)

Definition answers := list (query * Z).
(** Message [x] turns the table [tb] into [tb'] and delivers [ps]; [A] are answers
    of the environment. *)
Inductive tstep (le : bool) (vmaj vmin : Z) (A : answers) (tb : option table) (x : Z * bytes) : option table -> list bytes -> Prop :=
| ts_plain : is_frag x = false -> tstep le vmaj vmin A tb x tb (payload le vmaj vmin x)
| ts_skip : is_frag x = true -> fst x <> HE_STATE_ONLINE \/ frag_in (snd x) = None \/ tb = None ->
    tstep le vmaj vmin A tb x tb []
| ts_frag t id f a1 a2 n1 n2 rc o t' :
    is_frag x = true -> fst x = HE_STATE_ONLINE -> frag_in (snd x) = Some (id, f) -> tb = Some t ->
    In (QAlloc, a1) A -> In (QAlloc, a2) A -> In (QTime, n1) A -> In (QTime, n2) A ->
    frag_store (negb (a1 =? 0)) (negb (a2 =? 0)) n1 n2 t id (f_off f) (f_mf f) (f_data f) = Val (rc, o, t') ->
    tstep le vmaj vmin A tb x (Some (match o with Some _ => table_delete t' id | None => t' end))
      (match o with Some p => if ipv4_packet p then [p] else [] | None => [] end).
(** What happened: each message with what it delivered. *)
Definition deliveries := list ((Z * bytes) * list bytes).
Inductive took (le : bool) (vmaj vmin : Z) (A : answers) : option table -> deliveries -> option table -> Prop :=
| took_nil tb : took le vmaj vmin A tb [] tb
| took_cons tb x ds tb1 tb2 ps : tstep le vmaj vmin A tb x tb1 ps -> took le vmaj vmin A tb1 ds tb2 ->
    took le vmaj vmin A tb ((x, ps) :: ds) tb2.
Lemma tstep_more le a b A A' tb x tb' ps : incl A A' -> tstep le a b A tb x tb' ps -> tstep le a b A' tb x tb' ps.
Proof. intros I. destruct 1 as [?|? ?|t id f a1 a2 n1 n2 rc o t1]; [now apply ts_plain|now apply ts_skip|]. apply (@ts_frag le a b A' tb x t id f a1 a2 n1 n2 rc o t1); auto. Qed.
Lemma took_more le a b A A' tb x tb' : incl A A' -> took le a b A tb x tb' -> took le a b A' tb x tb'.
Proof. intros I. induction 1; econstructor; eauto using tstep_more. Qed.
Lemma took_app le a b A tb ds tb1 ds' tb2 :
  took le a b A tb ds tb1 -> took le a b A tb1 ds' tb2 -> took le a b A tb (ds ++ ds') tb2.
Proof. induction 1; cbn [app]; [auto|]. intros H1. econstructor; eauto. Qed.
Lemma took_snoc le a b A tb ds tb1 x tb2 qs :
  took le a b A tb ds tb1 -> tstep le a b A tb1 x tb2 qs -> took le a b A tb (ds ++ [(x, qs)]) tb2.
Proof. intros H1 H2. eapply took_app; [exact H1|]. econstructor; [exact H2|constructor]. Qed.

Definition asked (s : Z) (e : ev) : answers := match e with EAsk q r => [(q, r)] | _ => [] end.

Section S.
Variable E : env.
Notation hk := (@ret unit tt).

Section K.
Variable kk : Z * Z * chain * cbs.
Variable A0 : answers.
(** [R] has been received and delivered; [tb] is the
    table; at least [A] has been answered after [A0]. *)
Definition K (R : list ((Z * bytes) + bytes)) (A : answers) (tb : option table) (w : world) : Prop :=
  collect act (w_t w) = R /\ cfg (w_c w) = kk /\ c_frag_tbl (w_c w) = tb /\
  exists more, collect asked (w_t w) = A0 ++ more /\ incl A more.
Lemma K_push R A tb e w : (forall s, act s e = []) -> K R A tb w -> K R A tb (push e w).
Proof.
  intros H1 (X & Z0 & T & more & M & I). split; [|split; [exact Z0|split; [exact T|]]]; cbn [push w_t collect].
  - rewrite H1. now rewrite app_nil_r.
  - exists (more ++ asked (c_state (w_c w)) e). rewrite M, app_assoc. split; [reflexivity|]. intros x Hx. apply in_app_iff. left. auto.
Qed.
Lemma K_conn R A tb h w : (forall c, cfg (h c) = cfg c) -> (forall c, c_frag_tbl (h c) = c_frag_tbl c) -> K R A tb w -> K R A tb (with_c h w).
Proof. intros H H' (X & Z0 & T & M). split; [exact X|]. cbn [with_c w_c]. rewrite H, H'. auto. Qed.

Ltac kpush := apply K_push; [intros; reflexivity|assumption].
Ltac kconn := apply K_conn; [reflexivity|reflexivity|assumption].
Lemma K_event R A tb e w : io_event e = false -> K R A tb w -> K R A tb (push e w).
Proof. intros H. apply K_push; intros s; destruct e; cbn in *; congruence. Qed.
Lemma K_wend R A tb o r err d w : o <> WRecv -> K R A tb w -> K R A tb (push (EWEnd o r err d) w).
Proof. intros H. apply K_push; intros s; destruct o; cbn in *; congruence. Qed.
Lemma K_read R A tb sz : keeps (K R A tb) (fun _ => True) (io_read sz).
Proof. apply keeps_io_read; auto; intros; first [kpush|kconn]. Qed.
Lemma K_write R A tb b : keeps (K R A tb) (fun _ => True) (io_write E hk b).
Proof. apply keeps_io_write; auto; intros; first [apply keeps_ret|kpush|kconn]. Qed.
Ltac ks := intros; first [exact I|apply keeps_ret|apply K_read|apply K_write|now apply K_event|now apply K_wend|kpush|kconn|idtac].

Lemma K_change R A tb s : keeps (K R A tb) (fun _ => True) (change_conn_state E hk s).
Proof. apply keeps_change_conn_state; ks. Qed.
Lemma K_timeout R A tb : keeps (K R A tb) (fun _ => True) (update_timeout E hk).
Proof. apply keeps_update_timeout; ks. Qed.
Lemma K_gen R A tb v : keeps (K R A tb) (fun _ => True) (generate_event hk v).
Proof. apply keeps_generate_event; ks. Qed.
Lemma K_reneg R A tb : keeps (K R A tb) (fun _ => True) (renegotiate_ssl E hk).
Proof. apply keeps_renegotiate; ks. Qed.
Lemma K_check R A tb : keeps (K R A tb) (fun _ => True) (check_renegotiation E hk).
Proof. apply keeps_check; ks. Qed.
Lemma K_neg R A tb : keeps (K R A tb) (fun _ => True) (wolf_op E hk WNegotiate).
Proof. apply keeps_wolf_negotiate; ks. Qed.
Lemma K_session R A tb s : keeps (K R A tb) (fun _ => True) (update_session_incoming hk s).
Proof. apply keeps_session_in; ks. Qed.
Lemma K_ingress R A tb ch d c : keeps (K R A tb) (fun _ => True) (plugin_ingress E ch d c).
Proof. apply keeps_plugin_ingress; ks. Qed.
Lemma K_ask R A tb q w : K R A tb w -> exists r, ask E q w = Done r (push (EAsk q r) w) /\ K R ((q, r) :: A) tb (push (EAsk q r) w).
Proof.
  intros (X & Z0 & T & more & M & I). unfold ask, bind, log, emit, ret. eexists. split; [reflexivity|].
  split; [|split; [exact Z0|split; [exact T|]]]; cbn [push w_t collect asked].
  - cbn. now rewrite app_nil_r.
  - exists (more ++ [(q, e_ask E (w_t w) q)]). rewrite M, app_assoc. split; [reflexivity|].
    intros x [<-|Hx]; apply in_app_iff; [right; now left|left; auto].
Qed.

(** Messages that deliver nothing and no fragments. *)
Definition delivers (m : bytes) : bool :=
  (msg_type m =? HE_MSGID_DATA) || (msg_type m =? HE_MSGID_DEPRECATED_13) || (msg_type m =? HE_MSGID_DATA_WITH_FRAG).
Lemma K_process R A tb m : 0 < len m -> delivers m = false -> keeps (K R A tb) (fun _ => True) (process_message E hk m).
Proof.
  intros Hl Hd. unfold process_message. destruct (Z.ltb_spec (len m) sizeof_msg_hdr) as [X|_]; [unfold sizeof_msg_hdr in X; lia|].
  rewrite ld8_ok by lia. change (nth (Z.to_nat 0) m 0) with (msg_type m).
  unfold delivers in Hd. apply orb_false_iff in Hd as [Hd H3]. apply orb_false_iff in Hd as [H1 H2].
  unfold bind at 1, lift at 1, ret at 1. intros w Hw. unfold bind at 1, get at 1. rewrite H1, H2, H3.
  match goal with |- match ?m w with _ => _ end => assert (keeps (K R A tb) (fun _ => True) m) as Kp; [|exact (Kp w Hw)] end.
  repeat case_if; try apply keeps_ret.
  - apply keeps_handle_ping; ks.
  - apply keeps_handle_pong; ks.
  - apply keeps_handle_auth; ks.
  - apply keeps_handle_config; ks.
  - apply keeps_handle_server_config; ks.
Qed.

(** Delivering *)
Lemma deliver_seq R A tb p w rc w' : c_in_chain (w_c w) = [] -> cb_inside (c_cbs (w_c w)) = true ->
  K R A tb w -> deliver E hk p w = Done rc w' -> K (R ++ map inr (if ipv4_packet p then [p] else [])) A tb w'.
Proof.
  intros Ch Cb Kw. unfold deliver. unfold bind at 1, get at 1. rewrite Ch. cbn [plugin_egress].
  unfold bind at 1, ret at 1. change (HE_SUCCESS =? HE_ERR_PLUGIN_DROP) with false. change (negb (HE_SUCCESS =? HE_SUCCESS)) with false. cbv iota.
  rewrite Z.ltb_irrefl. rewrite ipv4_valid. unfold bind at 1, lift at 1, ret at 1.
  destruct (ipv4_packet p); cbn [negb].
  - unfold bind at 1, get at 1. rewrite Cb. unfold when, notify, bind, emit, ret. intros [= <- <-].
    destruct Kw as (X & Z0 & T & more & M & I). split; [|split; [exact Z0|split; [exact T|]]]; cbn [w_t collect asked].
    + now rewrite X.
    + exists more. now rewrite app_nil_r.
  - unfold ret. intros [= <- <-]. now rewrite app_nil_r.
Qed.

Section P.
Variable le : bool.
Hypothesis Hle : le = e_le E.
Variable vmaj vmin : Z.
Variable k : cbs.
Hypothesis Hk : cb_inside k = true.
Hypothesis Hkk : kk = (vmaj, vmin, [], k).
Lemma K_cfg R A tb w : K R A tb w -> c_vmaj (w_c w) = vmaj /\ c_vmin (w_c w) = vmin /\ c_in_chain (w_c w) = [] /\ cb_inside (c_cbs (w_c w)) = true.
Proof. intros (_ & C & _). rewrite Hkk in C. unfold cfg in C. injection C as -> -> -> ->. auto. Qed.
Lemma bytes_ok_slice m a n : bytes_ok m -> bytes_ok (slice m a n).
Proof. intros B. unfold slice. now apply bytes_ok_firstn, bytes_ok_skipn. Qed.

Lemma data_step R A tb m w rc w' : bytes_ok m -> 0 < len m -> msg_type m = HE_MSGID_DATA -> K R A tb w ->
  handle_data E hk m w = Done rc w' -> K (R ++ map inr (payload le vmaj vmin (c_state (w_c w), m))) A tb w'.
Proof.
  intros B Hl Ty Kw. destruct (K_cfg Kw) as (V1 & V2 & Ch & Cb). unfold handle_data. unfold bind at 1, get at 1.
  unfold payload. rewrite Ty. change (HE_MSGID_DATA =? HE_MSGID_DATA) with true. change (HE_MSGID_DATA =? HE_MSGID_DEPRECATED_13) with false. cbn [andb].
  destruct (c_state (w_c w) =? HE_STATE_ONLINE); cbn [negb andb]; [|intros [= <- <-]; now rewrite app_nil_r].
  change sizeof_data with 3.
  assert (forall n, ipv4_packet (slice m 3 n) = true -> 0 <= n -> len m < 3 -> False) as Tiny.
  { intros n P Hn X. unfold ipv4_packet in P. apply andb_true_iff in P as [P _]. apply Z.leb_le in P.
    unfold slice in P. rewrite len_firstn in P. unfold len in *. rewrite skipn_length in P. lia. }
  assert (0 <= data_length le vmaj vmin m) as Dn.
  { unfold data_length, field16, field16le. pose proof (bytes_ok_nth 1 B). pose proof (bytes_ok_nth 2 B). unfold byte_ok in *. destruct (_ && _); lia. }
  destruct (Z.ltb_spec (len m) 3) as [X|X].
  { intros [= <- <-]. destruct (Z.leb_spec (3 + data_length le vmaj vmin m) (len m)); [lia|]. now rewrite app_nil_r. }
  destruct (@field16_ok E m 1 B) as (raw & F & N & O); [lia|lia|]. change (Z.to_nat 1) with 1%nat in *. rewrite F. unfold bind at 1, lift at 1, ret at 1.
  rewrite V1, V2.
  assert ((if (vmaj =? 1) && (vmin =? 0) then raw else ntohs (e_le E) raw) = data_length le vmaj vmin m) as ->.
  { unfold data_length. rewrite Hle. destruct ((vmaj =? 1) && (vmin =? 0)); cbn [andb]; [|exact N].
    rewrite ldh16_ok in F by (auto; lia). injection F as <-. unfold host16, field16, field16le. change (Z.to_nat 1) with 1%nat. change (1 + 1)%nat with 2%nat. 
    change (Pos.to_nat 1) with 1%nat. destruct (e_le E); lia. }
  destruct (Z.ltb_spec (len m - 3) (data_length le vmaj vmin m)); destruct (Z.leb_spec (3 + data_length le vmaj vmin m) (len m)); try lia.
  { intros [= <- <-]. now rewrite app_nil_r. }
  rewrite ldn_ok by lia. unfold bind at 1, lift at 1, ret at 1. intros D. eapply deliver_seq; eauto.
Qed.
Lemma dep_step R A tb m w rc w' : bytes_ok m -> 0 < len m -> msg_type m = HE_MSGID_DEPRECATED_13 -> K R A tb w ->
  handle_deprecated_13 E hk m w = Done rc w' -> K (R ++ map inr (payload le vmaj vmin (c_state (w_c w), m))) A tb w'.
Proof.
  intros B Hl Ty Kw. destruct (K_cfg Kw) as (V1 & V2 & Ch & Cb). unfold handle_deprecated_13. unfold bind at 1, get at 1.
  unfold payload. rewrite Ty. change (HE_MSGID_DEPRECATED_13 =? HE_MSGID_DATA) with false. change (HE_MSGID_DEPRECATED_13 =? HE_MSGID_DEPRECATED_13) with true. cbn [andb].
  destruct (c_state (w_c w) =? HE_STATE_ONLINE); cbn [negb andb]; [|intros [= <- <-]; now rewrite app_nil_r].
  change sizeof_deprecated_13 with 5.
  assert (0 <= field16 m 1) as Dn.
  { unfold field16. pose proof (bytes_ok_nth 1 B). pose proof (bytes_ok_nth 2 B). unfold byte_ok in *. lia. }
  destruct (Z.ltb_spec (len m) 5) as [X|X].
  { intros [= <- <-]. destruct (Z.leb_spec (5 + field16 m 1) (len m)); [lia|]. now rewrite app_nil_r. }
  destruct (@field16_ok E m 1 B) as (raw & F & N & O); [lia|lia|]. change (Z.to_nat 1) with 1%nat in *. rewrite F. unfold bind at 1, lift at 1, ret at 1.
  rewrite N. destruct (Z.ltb_spec (len m - 5) (field16 m 1)); destruct (Z.leb_spec (5 + field16 m 1) (len m)); try lia.
  { intros [= <- <-]. now rewrite app_nil_r. }
  rewrite ldn_ok by lia. unfold bind at 1, lift at 1, ret at 1. intros D. eapply deliver_seq; eauto.
Qed.
Lemma frag_step R A tb m w rc w' : bytes_ok m -> 0 < len m -> msg_type m = HE_MSGID_DATA_WITH_FRAG -> K R A tb w ->
  handle_frag E hk m w = Done rc w' ->
  exists A' tb' ps, incl A A' /\ tstep le vmaj vmin A' tb (c_state (w_c w), m) tb' ps /\ K (R ++ map inr ps) A' tb' w'.
Proof.
  intros B Hl Ty Kw. destruct (K_cfg Kw) as (V1 & V2 & Ch & Cb). unfold handle_frag. unfold bind at 1, get at 1.
  assert (is_frag (c_state (w_c w), m) = true) as Fr by (unfold is_frag; cbn [snd]; rewrite Ty; reflexivity).
  assert (fst (c_state (w_c w), m) <> HE_STATE_ONLINE \/ frag_in m = None \/ tb = None -> rc = rc -> w' = w ->
    exists A' tb' ps, incl A A' /\ tstep le vmaj vmin A' tb (c_state (w_c w), m) tb' ps /\ K (R ++ map inr ps) A' tb' w') as Skip.
  { intros H _ ->. exists A, tb, []. split; [apply incl_refl|]. split; [now apply ts_skip|]. now rewrite app_nil_r. }
  destruct (Z.eqb_spec (c_state (w_c w)) HE_STATE_ONLINE) as [On|]; cbn [negb]; [|intros [= <- <-]; apply Skip; auto].
  change sizeof_data_frag with 7.
  unfold frag_in in Skip. destruct (Z.ltb_spec (len m) 7); destruct (Z.leb_spec 7 (len m)); try lia; [intros [= <- <-]; apply Skip; auto|].
  destruct (@field16_ok E m 1 B) as (raw & F & N & _); [lia|lia|]. change (Z.to_nat 1) with 1%nat in *. rewrite F. unfold bind at 1, lift at 1, ret at 1. rewrite N.
  assert (0 <= field16 m 1) as Dn.
  { unfold field16. pose proof (bytes_ok_nth 1 B). pose proof (bytes_ok_nth 2 B). unfold byte_ok in *. lia. }
  destruct (Z.ltb_spec (len m - 7) (field16 m 1)); destruct (Z.leb_spec (7 + field16 m 1) (len m)); try lia; cbn [andb] in Skip; [intros [= <- <-]; apply Skip; auto|].
  destruct (@field16_ok E m 5 B) as (raw5 & F5 & N5 & _); [lia|lia|]. change (Z.to_nat 5) with 5%nat in *. rewrite F5. unfold bind at 1, lift at 1, ret at 1. rewrite N5.
  assert (u16 (Z.land (field16 m 5) HE_FRAG_OFF_MASK * 8) = (field16 m 5 mod 8192) * 8) as ->.
  { assert (forall v, Z.land v HE_FRAG_OFF_MASK = v mod 8192) as M by (intros v; apply (Z.land_ones v 13); lia).
    rewrite M. unfold u16. pose proof (Z.mod_pos_bound (field16 m 5) 8192). apply Z.mod_small. lia. }
  assert (Z.shiftr (Z.land (field16 m 5) HE_FRAG_MF_MASK) 13 = (field16 m 5 / 8192) mod 2) as ->.
  { rewrite Z.shiftr_land. change (Z.shiftr HE_FRAG_MF_MASK 13) with (Z.ones 1). rewrite Z.land_ones by lia. rewrite Z.shiftr_div_pow2 by lia. reflexivity. }
  change HE_MAX_WIRE_MTU with 1500.
  match goal with |- context [1500 <? ?x] => destruct (Z.ltb_spec 1500 x); destruct (Z.leb_spec x 1500); try lia end; [intros [= <- <-]; apply Skip; auto|].
  destruct (@field16_ok E m 3 B) as (raw3 & F3 & N3 & _); [lia|lia|]. change (Z.to_nat 3) with 3%nat in *. rewrite F3. unfold bind at 1, lift at 1, ret at 1. rewrite N3.
  unfold bind at 1, get at 1. assert (c_frag_tbl (w_c w) = tb) as Tb by apply Kw. rewrite Tb.
  destruct tb as [t|]; [|intros [= <- <-]; apply Skip; auto]. clear Skip.
  destruct (K_ask QAlloc Kw) as (a1 & Q1 & K1). unfold bind at 1. rewrite Q1.
  destruct (K_ask QTime K1) as (n1 & Q2 & K2). unfold bind at 1. rewrite Q2.
  destruct (K_ask QTime K2) as (n2 & Q3 & K3). unfold bind at 1. rewrite Q3.
  destruct (K_ask QAlloc K3) as (a2 & Q4 & K4). unfold bind at 1. rewrite Q4.
  match type of K4 with K _ ?AA _ ?v => set (A' := AA) in *; set (w4 := v) in * end.
  rewrite ldn_ok by lia. unfold bind at 1, lift at 1, ret at 1.
  destruct (frag_store _ _ n1 n2 t _ _ _ _) as [[[rc1 o] t']|] eqn:FS; [|discriminate]. unfold bind at 1, lift at 1, ret at 1.
  unfold bind at 1, upd at 1.
  assert (forall R tb v w, K R A' tb w -> K R A' v (World (set_frag_tbl v (w_c w)) (w_t w))) as KT.
  { intros R1 tb1 v w1 (X & Z0 & T & M). split; [exact X|split; [exact Z0|split; [reflexivity|exact M]]]. }
  pose proof (KT _ _ (Some t') _ K4) as K5.
  intros Fin. exists A', (Some (match o with Some _ => table_delete t' (field16 m 3) | None => t' end)),
     (match o with Some p => if ipv4_packet p then [p] else [] | None => [] end).
  split; [unfold A'; intros x Hx; now do 4 right|]. split.
  - eapply (@ts_frag le vmaj vmin A' (Some t) (c_state (w_c w), m) t (field16 m 3)
       (Fragment (field16 m 5 mod 8192 * 8) ((field16 m 5 / 8192) mod 2) (slice m 7 (field16 m 1))) a1 a2 n1 n2); eauto.
    + cbn [snd]. unfold frag_in. destruct (Z.leb_spec 7 (len m)); [|lia]. destruct (Z.leb_spec (7 + field16 m 1) (len m)); [|lia].
      match goal with |- context [?x <=? 1500] => destruct (Z.leb_spec x 1500) end; [reflexivity|lia].
    + unfold A'. cbn. auto.
    + unfold A'. cbn. auto 10.
    + unfold A'. cbn. auto 10.
    + unfold A'. cbn. auto 10.
  - revert Fin. destruct o as [p|].
    + unfold bind at 1. destruct (deliver E hk p _) as [rc2 w6|] eqn:D; [|discriminate].
      pose proof (K_cfg K5) as (_ & _ & Ch5 & Cb5).
      pose proof (deliver_seq Ch5 Cb5 K5 D) as K6. unfold bind, upd, ret. intros [= <- <-].
      assert (c_frag_tbl (w_c w6) = Some t') as T6 by apply K6. rewrite T6. now apply (KT _ (Some t') _ w6).
    + unfold ret. intros [= <- <-]. rewrite app_nil_r. exact K5.
Qed.

Lemma process_step R A tb m w rc w' : bytes_ok m -> 0 < len m -> K R A tb w ->
  process_message E hk m w = Done rc w' ->
  exists A' tb' ps, incl A A' /\ tstep le vmaj vmin A' tb (c_state (w_c w), m) tb' ps /\ K (R ++ map inr ps) A' tb' w'.
Proof.
  intros B Hl Kw. destruct (delivers m) eqn:Dl.
  - unfold process_message. destruct (Z.ltb_spec (len m) sizeof_msg_hdr) as [X|_]; [unfold sizeof_msg_hdr in X; lia|].
    rewrite ld8_ok by lia. change (nth (Z.to_nat 0) m 0) with (msg_type m).
    unfold bind at 1, lift at 1, ret at 1. unfold bind at 1, get at 1. unfold delivers in Dl.
    assert (forall a : Z, msg_type m = a -> a <> HE_MSGID_DATA_WITH_FRAG -> is_frag (c_state (w_c w), m) = false) as NF.
    { intros a Ha Hn. unfold is_frag. cbn [snd]. apply Z.eqb_neq. congruence. }
    destruct (Z.eqb_spec (msg_type m) HE_MSGID_DATA) as [Ty|N1].
    { intros H. exists A, tb, (payload le vmaj vmin (c_state (w_c w), m)). split; [apply incl_refl|]. split.
      - apply ts_plain. apply (NF _ Ty). discriminate.
      - rewrite Ty in H. cbn [Z.eqb Pos.eqb HE_MSGID_NOOP HE_MSGID_PING HE_MSGID_PONG HE_MSGID_AUTH HE_MSGID_DATA] in H.
        eapply data_step; eauto. }
    destruct (Z.eqb_spec (msg_type m) HE_MSGID_DEPRECATED_13) as [Ty|N2].
    { intros H. exists A, tb, (payload le vmaj vmin (c_state (w_c w), m)). split; [apply incl_refl|]. split.
      - apply ts_plain. apply (NF _ Ty). discriminate.
      - rewrite Ty in H. cbn [Z.eqb Pos.eqb HE_MSGID_NOOP HE_MSGID_PING HE_MSGID_PONG HE_MSGID_AUTH HE_MSGID_DATA HE_MSGID_CONFIG_IPV4
         HE_MSGID_AUTH_RESPONSE HE_MSGID_AUTH_RESPONSE_WITH_CONFIG HE_MSGID_GOODBYE HE_MSGID_EXTENSION HE_MSGID_DEPRECATED_13] in H.
        eapply dep_step; eauto. }
    destruct (Z.eqb_spec (msg_type m) HE_MSGID_DATA_WITH_FRAG) as [Ty|N3]; [|discriminate].
    rewrite Ty. cbn [Z.eqb Pos.eqb HE_MSGID_NOOP HE_MSGID_PING HE_MSGID_PONG HE_MSGID_AUTH HE_MSGID_DATA HE_MSGID_CONFIG_IPV4
      HE_MSGID_AUTH_RESPONSE HE_MSGID_AUTH_RESPONSE_WITH_CONFIG HE_MSGID_GOODBYE HE_MSGID_EXTENSION HE_MSGID_DEPRECATED_13
      HE_MSGID_SERVER_CONFIG HE_MSGID_DATA_WITH_FRAG].
    intros H. eapply frag_step; eauto.
  - intros H. pose proof (@K_process R A tb m Hl Dl w Kw) as Kp. rewrite H in Kp. exists A, tb, []. split; [apply incl_refl|].
    rewrite app_nil_r. split; [|exact Kp]. unfold delivers in Dl. apply orb_false_iff in Dl as [Dl H3]. apply orb_false_iff in Dl as [H1 H2].
    assert (payload le vmaj vmin (c_state (w_c w), m) = []) as Py.
    { unfold payload. rewrite H1, H2. cbn [andb]. unfold ipv4_packet. cbn. now rewrite andb_false_r. }
    rewrite <- Py at 1. apply ts_plain. exact H3.
Qed.

Variable R0 : list ((Z * bytes) + bytes).
Variable tb0 : option table.
(** So far so good. *)
Definition prog (w : world) : Prop :=
  exists ds A tb, K (R0 ++ acts ds) A tb w /\ took le vmaj vmin A tb0 ds tb.
(** Message [d] has been received, not processed. *)
Definition gotten (d : bytes) (w : world) : Prop :=
  exists ds A tb, K ((R0 ++ acts ds) ++ [inl (c_state (w_c w), d)]) A tb w /\ took le vmaj vmin A tb0 ds tb.
Lemma keeps_prog X (m : M X) : (forall R A tb, keeps (K R A tb) (fun _ => True) m) -> keeps prog (fun _ => True) m.
Proof.
  intros H w (ds & A & tb & Kw & T). specialize (H _ _ _ w Kw). destruct (m w); [|exact I]. exists ds, A, tb. auto.
Qed.
Lemma K_io R A tb o r err d rx seg w s :
  s = c_state (w_c w) -> io_seg s seg -> got_msg s (EWEnd o r err d) = [] -> K R A tb w ->
  K R A tb (World (set_rx rx (w_c w)) ((s, EWEnd o r err d) :: seg ++ (s, EWOp o) :: w_t w)).
Proof.
  intros -> Sg G (X & Z0 & T & more & M & I). split; [|split; [exact Z0|split; [exact T|]]]; cbn [w_t collect]; rewrite ?collect_app; cbn [collect].
  - assert (act (c_state (w_c w)) (EWEnd o r err d) = []) as -> by (unfold act; now rewrite G). rewrite (collect_io (f := act) (s := c_state (w_c w)) (seg := seg)); [|intros []; cbn; congruence|exact Sg]. cbn [act got_msg inside map app]. now rewrite !app_nil_r.
  - rewrite (collect_io (f := asked) (s := c_state (w_c w)) (seg := seg)); [|intros []; cbn; congruence|exact Sg]. cbn [asked]. rewrite !app_nil_r. exists more. auto.
Qed.
Lemma K_recv R A tb r err d rx seg w s :
  s = c_state (w_c w) -> io_seg s seg -> 0 < r -> K R A tb w ->
  K (R ++ [inl (s, d)]) A tb (World (set_rx rx (w_c w)) ((s, EWEnd WRecv r err d) :: seg ++ (s, EWOp WRecv) :: w_t w)).
Proof.
  intros -> Sg Hr (X & Z0 & T & more & M & I). split; [|split; [exact Z0|split; [exact T|]]]; cbn [w_t collect]; rewrite ?collect_app; cbn [collect].
  - rewrite (collect_io (f := act) (s := c_state (w_c w)) (seg := seg)); [|intros []; cbn; congruence|exact Sg]. 
    assert (act (c_state (w_c w)) (EWEnd WRecv r err d) = [inl (c_state (w_c w), d)]) as -> by (unfold act; cbn; destruct (Z.ltb_spec 0 r); [reflexivity|lia]).
    cbn [act got_msg inside map app]. now rewrite !app_nil_r, X.
  - rewrite (collect_io (f := asked) (s := c_state (w_c w)) (seg := seg)); [|intros []; cbn; congruence|exact Sg]. cbn [asked]. rewrite !app_nil_r. exists more. auto.
Qed.
Lemma recv_step w r err d w' : prog w -> wolf_op E hk WRecv w = Done (r, err, d) w' ->
  if r <=? 0 then prog w' else gotten d w' /\ bytes_ok d /\ 0 < len d.
Proof.
  intros (ds & A & tb & Kw & T) H. pose proof (recv_data H) as [Bd Ld]. apply wolf_op_seq in H. destruct H as (rx & seg & -> & Sg).
  destruct (Z.leb_spec r 0).
  - exists ds, A, tb. split; [|exact T]. apply K_io; auto. cbn [got_msg]. destruct (Z.ltb_spec 0 r); [lia|reflexivity].
  - split; [|auto]. exists ds, A, tb. split; [|exact T]. apply K_recv; auto.
Qed.
Lemma fetch_step : forall fuel w, prog w ->
  match fetch_message E hk fuel w with
  | Done (rc, None) w' => prog w'
  | Done (rc, Some d) w' => rc = HE_SUCCESS /\ gotten d w' /\ bytes_ok d /\ 0 < len d
  | Stuck _ _ => True end.
Proof.
  induction fuel as [|fuel IH]; intros w P; cbn [fetch_message]; [exact I|]. unfold bind at 1.
  pose proof (@recv_step w) as R. destruct (wolf_op E hk WRecv w) as [[[r err] d] w'|u w']; [|exact I]. specialize (R r err d w' P eq_refl).
  destruct (r <=? 0); [|split; [reflexivity|exact R]]. destruct (err =? SSL_ERROR_NONE); [exact R|].
  destruct (err =? APP_DATA_READY); [now apply IH|]. destruct (_ || _); [exact R|].
  destruct (r =? 0); [exact R|]. cbn. destruct R as (ds1 & A1 & tb1 & K1 & T1). exists ds1, A1, tb1. split; [|exact T1].
  now apply (K_conn (h := set_wolf_err err) (w := w')).
Qed.
Lemma loop_step : forall fuel, keeps prog (fun _ => True) (message_loop E hk fuel).
Proof.
  induction fuel as [|fuel IH]; intros w P; cbn [message_loop]; [exact I|]. unfold bind at 1.
  pose proof (@fetch_step (e_fuel E) w P) as F. destruct (fetch_message E hk (e_fuel E) w) as [[rc [d|]] w1|]; [| |exact I].
  - destruct F as (-> & G & Bd & Ld). change (negb (HE_SUCCESS =? HE_SUCCESS)) with false. cbv iota.
    unfold bind at 1. destruct G as (ds & A & tb & Kw & T).
    pose proof (@process_step ((R0 ++ acts ds) ++ [inl (c_state (w_c w1), d)]) A tb d w1) as PS.
    destruct (process_message E hk d w1) as [rc2 w2|]; [|exact I]. destruct (PS rc2 w2 Bd Ld Kw eq_refl) as (A' & tb' & ps & Inc & St & K2).
    assert (prog w2) as P2.
    { exists (ds ++ [((c_state (w_c w1), d), ps)]), A', tb'. unfold acts. rewrite flat_map_app. cbn [flat_map fst snd]. fold (acts ds). rewrite app_nil_r. split; [|idtac].
      { rewrite <- !app_assoc in K2. exact K2. }
      eapply took_snoc; [eapply took_more; eassumption|exact St]. }
    destruct (negb (rc2 =? HE_SUCCESS)); [exact P2|]. now apply IH.
  - destruct (negb (rc =? HE_SUCCESS)); exact F.
Qed.
Lemma messages_step : keeps prog (fun _ => True) (handle_messages E hk).
Proof.
  unfold handle_messages. apply keeps_bind; [apply loop_step|]. intros rc. case_if; [apply keeps_ret|].
  apply keeps_bind; [apply keeps_get|]. intros due. apply keeps_bind; [case_if; [apply keeps_prog; intros; apply K_reneg|apply keeps_ret]|].
  intros rc2. case_if; [apply keeps_ret|]. apply keeps_prog. intros. apply K_check.
Qed.
Lemma verify_step : keeps prog (fun _ => True) (verify_connection E hk).
Proof.
  unfold verify_connection. apply keeps_bind; [apply keeps_get|]. intros first. apply keeps_bind.
  { case_if; [|apply keeps_ret]. apply keeps_prog. intros. apply keeps_bind; [apply keeps_upd; ks|]. intros _. apply K_gen. }
  intros _. apply keeps_bind; [apply keeps_get|]. intros st. case_if; [|apply messages_step].
  apply keeps_bind; [apply keeps_prog; intros; apply K_neg|]. intros [[r err] d]. case_if.
  - apply keeps_prog. intros. repeat (case_if; try apply keeps_ret).
    + apply keeps_bind; [apply keeps_upd; ks|intros _; apply keeps_ret].
    + apply keeps_bind; [apply keeps_get|]. intros ct. apply keeps_bind; [apply keeps_when, K_timeout|intros _; apply keeps_ret].
  - apply keeps_bind; [apply keeps_prog; intros; apply K_change|]. intros _. apply messages_step.
Qed.
Lemma outside_step b : keeps prog (fun _ => True) (outside_data_received E hk b).
Proof.
  unfold outside_data_received. apply keeps_bind; [apply keeps_get|]. intros st. case_if; [apply keeps_ret|].
  apply keeps_bind; [apply keeps_prog; intros; apply K_ingress|]. intros [res data].
  repeat (case_if; try apply keeps_ret). apply keeps_bind; [apply keeps_get|]. intros ct.
  repeat case_if; try apply keeps_ret.
  - unfold outside_packet_received. case_if; [apply keeps_ret|].
    repeat (apply keeps_bind; [first [apply keeps_lift; auto|apply keeps_get]|intro]; try (case_if; [apply keeps_ret|])).
    apply keeps_bind; [apply keeps_prog; intros; apply keeps_upd; ks|]. intros _.
    apply keeps_bind; [apply verify_step|]. intros rc.
    apply keeps_bind; [apply keeps_prog; intros; apply keeps_upd; ks|]. intros _.
    case_if; [apply keeps_ret|]. apply keeps_prog. intros. apply K_session.
  - unfold outside_stream_received. apply keeps_bind; [apply keeps_get|]. intros r. case_if.
    { apply keeps_bind; [apply keeps_prog; intros; apply keeps_upd; ks|]. intros _. apply keeps_ret. }
    apply keeps_bind; [apply keeps_prog; intros; apply keeps_upd; ks|]. intros _.
    apply keeps_bind; [apply verify_step|]. intros rc.
    apply keeps_bind; [apply keeps_prog; intros; apply keeps_upd; ks|]. intros _. apply keeps_ret.
Qed.
End P.
End K.

(** One call. *)
Lemma outside_call b w rc w' : c_in_chain (w_c w) = [] -> cb_inside (c_cbs (w_c w)) = true ->
  api E hk (OOutside b) w = Done rc w' ->
  exists ds qs, during act w w' (acts ds) /\ during asked w w' qs /\
    took (e_le E) (c_vmaj (w_c w)) (c_vmin (w_c w)) qs (c_frag_tbl (w_c w)) ds (c_frag_tbl (w_c w')) /\ cfg (w_c w') = cfg (w_c w).
Proof.
  intros Ch Cb. unfold api. cbn [api_body]. unfold bind at 1, emit at 1. unfold bind at 1.
  pose proof (@outside_step (cfg (w_c w)) (collect asked (w_t w)) (e_le E) eq_refl (c_vmaj (w_c w)) (c_vmin (w_c w)) (c_cbs (w_c w)) Cb) as O.
  assert (cfg (w_c w) = (c_vmaj (w_c w), c_vmin (w_c w), [], c_cbs (w_c w))) as Cf by (unfold cfg; now rewrite Ch).
  specialize (O Cf (collect act (w_t w)) (c_frag_tbl (w_c w)) (u8s b)).
  fold (push (ECall (OOutside b)) w).
  specialize (O (push (ECall (OOutside b)) w)).
  destruct (outside_data_received E hk (u8s b) (push (ECall (OOutside b)) w)) as [rc1 w1|]; [|discriminate].
  destruct O as (ds & A & tb & (X & Z0 & T & more & M & I) & Tk).
  { exists [], [], (c_frag_tbl (w_c w)). split; [|constructor]. split; [|split; [reflexivity|split; [reflexivity|]]].
    - cbn. reflexivity.
    - cbn; exists []. split; [reflexivity|apply incl_refl]. }
  unfold bind, emit, ret. intros [= <- <-]. exists ds, more. unfold during. cbn [w_t w_c collect act got_msg inside asked map app]. rewrite !app_nil_r.
  repeat (split; [assumption|]). split; [|assumption]. rewrite T. eapply took_more; eassumption.
Qed.
(** Several calls. *)
Lemma outside_calls : forall bs w w', c_in_chain (w_c w) = [] -> cb_inside (c_cbs (w_c w)) = true ->
  run E 0 (map OOutside bs) w = Done tt w' ->
  exists ds qs, during act w w' (acts ds) /\ during asked w w' qs /\
    took (e_le E) (c_vmaj (w_c w)) (c_vmin (w_c w)) qs (c_frag_tbl (w_c w)) ds (c_frag_tbl (w_c w')) /\ cfg (w_c w') = cfg (w_c w).
Proof.
  induction bs as [|b bs IH]; intros w w' Ch Cb; cbn [map run].
  - intros [= <-]. exists [], []. repeat split; try (apply during_nil; reflexivity). constructor.
  - change (hookn E 0) with hk. destruct (api E hk (OOutside b) w) as [rc w1|] eqn:C; [|discriminate].
    destruct (outside_call Ch Cb C) as (ds & qs & D1 & D3 & T & Cf). intros Rn.
    unfold cfg in Cf. injection Cf as V1 V2 V3 V4. destruct (IH w1 w') as (ds' & qs' & D1' & D3' & T' & Cf'); auto; try congruence.
    exists (ds ++ ds'), (qs ++ qs'). unfold acts. rewrite flat_map_app. repeat (split; [eapply during_trans; eassumption|]).
    split.
    + eapply took_app; [eapply took_more; [|exact T]; apply incl_appl, incl_refl|]. rewrite V1, V2 in T'.
      eapply took_more; [|exact T']. apply incl_appr, incl_refl.
    + rewrite Cf'. unfold cfg. congruence.
Qed.
End S.

(** ** What follows *)
Lemma took_plain le a b A tb ds tb' : took le a b A tb ds tb' ->
  Forall (fun d => is_frag (fst d) = false -> snd d = payload le a b (fst d)) ds.
Proof. induction 1 as [|tb x ds tb1 tb2 ps St _ IH]; constructor; auto. cbn. intros F. inversion St; subst; auto; congruence. Qed.
Lemma took_flat le a b A tb ds tb' : took le a b A tb ds tb' -> forallb (fun x => negb (is_frag x)) (map fst ds) = true ->
  flat_map snd ds = flat_map (payload le a b) (map fst ds).
Proof.
  intros T. apply took_plain in T. induction T as [|[x ps] ds H _ IH]; cbn [map forallb flat_map fst snd]; [reflexivity|].
  intros F. apply andb_true_iff in F as [F1 F2]. rewrite IH by exact F2. cbn in H. rewrite H; [reflexivity|]. now apply negb_true_iff.
Qed.
