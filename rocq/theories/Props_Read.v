(** C21: wolfSSL reads exactly what was received. *)
From Verif Require Import Base Codes Ctx Config Wire WireSpec ConnState Conn ConnSpec CallSpec MsgSpec ConnSteps ConnWp ConnWpApi Frame
  Seq SeqLoop SeqApi SeqWire Scenario Props_Data Props_Wire PlugSpec SeqPlug Props_Plug Props_Safe ReadSpec.
Unset Strict Implicit.

(** ** Facts about the specification *)
Lemma answers_app open l1 : forall src l2 src', answers open src (l1 ++ l2) src' <-> exists m, answers open src l1 m /\ answers open m l2 src'.
Proof.
  induction l1 as [|[[sz r] d] l1 IH]; intros src l2 src'; cbn [app answers].
  - split; [intros H; exists src; auto|intros (m & -> & H); exact H].
  - destruct (answer open src sz) as [[r0 d0] s0]. rewrite IH. split; [intros (A & B & m & H); exists m; tauto|intros (m & (A & B & H) & H'); repeat split; auto; exists m; auto].
Qed.
(** A stream's bytes are read in order, each exactly once. *)
Theorem C21_stream_order : forall open l rest src', answers open (Stream rest) l src' ->
  exists rest', src' = Stream rest' /\ rest = bytes_read l ++ rest'.
Proof.
  intros open. induction l as [|[[sz r] d] l IH]; intros rest src'; cbn [answers]; [intros ->; exists rest; auto|].
  unfold answer. destruct ((sz <? 0) || negb open) eqn:G; [intros (-> & -> & H); exact (IH _ _ H)|].
  destruct rest as [|x rest]; [intros (-> & -> & H); exact (IH _ _ H)|]. cbv zeta. set (n := Z.min sz _). intros (-> & -> & H).
  destruct (IH _ _ H) as (rest' & -> & Eq). exists rest'. split; [reflexivity|]. unfold bytes_read in *. cbn [map concat snd]. rewrite <- app_assoc, <- Eq. symmetry. apply firstn_skipn.
Qed.
Print Assumptions C21_stream_order.
(** A read of a positive size gets a byte as long as there is one. *)
Theorem C21_stream_progress : forall sz b, 0 < sz -> b <> [] ->
  exists n d rest, answer true (Stream b) sz = (n, d, Stream rest) /\ 0 < n /\ n = len d /\ n <= sz /\ (sz <= len b -> n = sz).
Proof.
  intros sz b Hs Hb. unfold answer. destruct (Z.ltb_spec sz 0); [lia|]. cbn [orb negb]. destruct b as [|x b]; [now destruct Hb|]. cbv zeta.
  assert (0 < len (x :: b)) as L by (rewrite len_cons; pose proof (len_nonneg b); lia).
  eexists _, _, _. split; [reflexivity|]. split; [lia|]. split; [unfold len; rewrite firstn_length; unfold len in L; lia|]. lia.
Qed.
Print Assumptions C21_stream_progress.
(** A datagram's payload is read at most once, and whole. *)
Theorem C21_datagram_once : forall open l p src', answers open (Datagram p) l src' ->
  bytes_read l = [] /\ (src' = Datagram p \/ src' = Datagram None) \/
  exists l1 sz d l2, p = Some d /\ l = l1 ++ (sz, len d, d) :: l2 /\ len d <= sz /\ bytes_read l1 = [] /\ bytes_read l2 = [] /\ src' = Datagram None.
Proof.
  assert (forall open l src', answers open (Datagram None) l src' -> bytes_read l = [] /\ src' = Datagram None) as None_.
  { intros open. induction l as [|[[sz r] d] l IH]; intros src'; cbn [answers]; [intros ->; auto|]. unfold answer. destruct (_ || _); intros (-> & -> & H); exact (IH _ H). }
  intros open. induction l as [|[[sz r] d] l IH]; intros p src'; cbn [answers]; [intros ->; left; auto|].
  unfold answer. assert (forall r0, r = r0 /\ d = [] /\ answers open (Datagram p) l src' -> bytes_read ((sz, r, d) :: l) = [] /\ (src' = Datagram p \/ src' = Datagram None) \/
    exists l1 sz0 d0 l2, p = Some d0 /\ (sz, r, d) :: l = l1 ++ (sz0, len d0, d0) :: l2 /\ len d0 <= sz0 /\ bytes_read l1 = [] /\ bytes_read l2 = [] /\ src' = Datagram None) as Skip.
  { intros r0 (-> & -> & H). destruct (IH _ _ H) as [[E1 E2]|(l1 & sz0 & d0 & l2 & A & B & C & D & F & G)]; [left; auto|]. right. exists ((sz, r0, []) :: l1), sz0, d0, l2. rewrite B. auto 10. }
  destruct ((sz <? 0) || negb open); [apply Skip|]. destruct p as [p|]; [|apply Skip]. destruct (Z.ltb_spec sz (len p)) as [Lt|Le].
  - intros (-> & -> & H). destruct (None_ _ _ _ H) as [E1 ->]. left. auto.
  - intros (-> & -> & H). destruct (None_ _ _ _ H) as [E1 ->]. right. exists [], sz, p, l. auto 10.
Qed.
Print Assumptions C21_datagram_once.

(** ** Reading *)
Definition rxok (c : conn) : Prop := match rx_rest (c_rx c) with Some s => rx_left (c_rx c) = len s | None => rx_left (c_rx c) = 0 end.
Lemma read_answer sz w : rxok (w_c w) ->
  match io_read sz w with
  | Done _ w' => exists r d, collect reads (w_t w') = collect reads (w_t w) ++ [(sz, r, d)] /\ 
      answer (c_wolf_ctx (w_c w)) (holds (w_c w)) sz = (r, d, holds (w_c w')) /\
      (d <> [] -> rx_live (c_rx (w_c w)) = true) /\ (d = [] -> rx_rest (c_rx (w_c w')) = rx_rest (c_rx (w_c w))) /\ rxok (w_c w') /\ rx_live (c_rx (w_c w')) = rx_live (c_rx (w_c w)) /\
      exists f, w_c w' = set_rx f (w_c w)
  | Stuck _ _ => True
  end.
Proof.
  intros Ok. unfold io_read. unfold bind at 1, get at 1. unfold bind at 1.
  assert (forall w1 r d, w_t w1 = w_t w -> rxok (w_c w1) -> rx_live (c_rx (w_c w1)) = rx_live (c_rx (w_c w)) -> (exists f, w_c w1 = set_rx f (w_c w)) ->
    answer (c_wolf_ctx (w_c w)) (holds (w_c w)) sz = (r, d, holds (w_c w1)) -> (d <> [] -> rx_live (c_rx (w_c w)) = true) -> (d = [] -> rx_rest (c_rx (w_c w1)) = rx_rest (c_rx (w_c w))) ->
    match (emit (EWIn sz r d) ;;; ret (r, d)) w1 with
    | Done _ w' => exists r d, collect reads (w_t w') = collect reads (w_t w) ++ [(sz, r, d)] /\ answer (c_wolf_ctx (w_c w)) (holds (w_c w)) sz = (r, d, holds (w_c w')) /\
        (d <> [] -> rx_live (c_rx (w_c w)) = true) /\ (d = [] -> rx_rest (c_rx (w_c w')) = rx_rest (c_rx (w_c w))) /\ rxok (w_c w') /\ rx_live (c_rx (w_c w')) = rx_live (c_rx (w_c w)) /\ exists f, w_c w' = set_rx f (w_c w)
    | Stuck _ _ => True end) as Fin.
  { intros w1 r d T1 O1 L1 F1 Hq Hd He. unfold bind, emit, ret. exists r, d. cbn [w_t w_c collect reads]. rewrite T1. auto 10. }
  assert (exists f, w_c w = set_rx f (w_c w)) as Id by (exists (c_rx (w_c w)); destruct (w_c w); reflexivity).
  destruct (c_io (w_c w) =? HE_CONNECTION_TYPE_STREAM) eqn:Io.
  - unfold tls_read. unfold bind at 1, get at 1. unfold bind at 1, get at 1. destruct ((sz <? 0) || negb (c_wolf_ctx (w_c w))) eqn:G.
    { unfold ret at 1. apply (Fin w _ _ eq_refl Ok eq_refl Id); [unfold answer; now rewrite G|now intros []|auto]. }
    unfold rxok in Ok. destruct (rx_rest (c_rx (w_c w))) as [rest|] eqn:Rs.
    + rewrite Ok. destruct (Z.eqb_spec (len rest) 0) as [L0|L0].
      { unfold ret at 1. assert (rest = []) as -> by (destruct rest; [reflexivity|rewrite len_cons in L0; pose proof (len_nonneg rest); lia]).
        apply (Fin w _ _ eq_refl ltac:(unfold rxok; rewrite Rs; exact Ok) eq_refl Id); [unfold answer, holds; now rewrite G, Io, Rs|now intros []|auto]. }
      destruct (rx_live (c_rx (w_c w))) eqn:Lv; cbn [negb]; [|exact I].
      pose proof G as G'. apply orb_false_iff in G'. destruct G' as [G' _]. apply Z.ltb_ge in G'. pose proof (len_nonneg rest) as Lr.
      assert ((if sz <? len rest then sz else len rest) = Z.min sz (len rest)) as -> by (destruct (Z.ltb_spec sz (len rest)); lia).
      set (n := Z.min sz (len rest)). assert (0 <= n <= len rest) as Hn by lia. rewrite ldn_ok by lia. unfold bind at 1, lift at 1, ret at 1. unfold bind at 1, upd at 1. unfold ret at 1.
      assert (slice rest 0 n = firstn (Z.to_nat n) rest) as -> by reflexivity.
      match goal with |- match (_ ;;; _) ?v with _ => _ end => set (w1 := v) end.
      apply (Fin w1 n (firstn (Z.to_nat n) rest)); [reflexivity| |reflexivity|eexists; reflexivity| |auto|].
      * unfold rxok. cbn. unfold len in *. rewrite skipn_length. lia.
      * unfold answer, holds. rewrite G. cbn [w1 w_c set_rx c_io c_rx rx_rest]. rewrite Io, Rs. destruct rest as [|x rest]; [rewrite len_nil in L0; lia|]. reflexivity.
      * cbn. rewrite ?Rs. intros Em. f_equal. rewrite <- (firstn_skipn (Z.to_nat n) rest) at 2. now rewrite Em.
    + rewrite Ok. cbn [Z.eqb]. unfold ret at 1.
      apply (Fin w _ _ eq_refl ltac:(unfold rxok; rewrite Rs; exact Ok) eq_refl Id); [unfold answer, holds; now rewrite G, Io, Rs|now intros []|auto].
  - unfold dtls_read. unfold bind at 1, get at 1. unfold bind at 1, get at 1. destruct ((sz <? 0) || negb (c_wolf_ctx (w_c w))) eqn:G.
    { unfold ret at 1. apply (Fin w _ _ eq_refl Ok eq_refl Id); [unfold answer; now rewrite G|now intros []|auto]. }
    destruct (rx_data (c_rx (w_c w))) as [p|] eqn:Dt.
    2:{ unfold ret at 1. apply (Fin w _ _ eq_refl Ok eq_refl Id); [unfold answer, holds; rewrite G, Io, Dt; now destruct (rx_seen _)|now intros []|auto]. }
    destruct (rx_seen (c_rx (w_c w))) eqn:Sn.
    { unfold ret at 1. apply (Fin w _ _ eq_refl Ok eq_refl Id); [unfold answer, holds; now rewrite G, Io, Sn|now intros []|auto]. }
    destruct (Z.ltb_spec sz (len p)) as [Lt|Le].
    + unfold bind at 1, upd at 1. unfold ret at 1. match goal with |- match (_ ;;; _) ?v with _ => _ end => set (w1 := v) end.
      apply (Fin w1 0 []); [reflexivity|exact Ok|reflexivity|eexists; reflexivity| |now intros []|auto].
      unfold answer, holds. rewrite G. cbn. rewrite Io, Sn, Dt. destruct (Z.ltb_spec sz (len p)); [reflexivity|lia].
    + destruct (rx_live (c_rx (w_c w))) eqn:Lv; cbn [negb]; [|exact I]. unfold bind at 1, upd at 1. unfold ret at 1. match goal with |- match (_ ;;; _) ?v with _ => _ end => set (w1 := v) end.
      apply (Fin w1 (len p) p); [reflexivity|exact Ok|exact Lv|eexists; reflexivity| |auto|auto].
      unfold answer, holds. rewrite G. cbn. rewrite Io, Sn, Dt. destruct (Z.ltb_spec sz (len p)); [lia|reflexivity].
Qed.

Definition left_over (c : conn) : bytes := match rx_rest (c_rx c) with Some r => r | None => [] end.
Lemma holds_stream c : c_io c = HE_CONNECTION_TYPE_STREAM -> holds c = Stream (left_over c).
Proof. intros H. unfold holds, left_over. now rewrite H. Qed.
Definition rparams (c : conn) := (c_rx c, c_wolf_ctx c, c_io c).
Lemma io_event_reads e : io_event e = false -> forall s, reads s e = [].
Proof. intros H s. destruct e; try reflexivity; discriminate H. Qed.

(** *** While a received buffer is processed *)
Section L.
Variable E : env.
Notation hk := (@ret unit tt).
Notation T := (fun _ : world => True).
Variable X : list (Z * Z * bytes).
Variable src0 : source.
Variable ctx0 : bool.
Definition RL (w : world) : Prop := rxok (w_c w) /\ rx_live (c_rx (w_c w)) = true /\ c_wolf_ctx (w_c w) = ctx0 /\
  exists l, collect reads (w_t w) = X ++ l /\ answers ctx0 src0 l (holds (w_c w)).
Lemma RL_push e w : (forall s, reads s e = []) -> RL w -> RL (push e w).
Proof. intros H (A & B & C & l & D & F). split; [exact A|]. split; [exact B|]. split; [exact C|]. exists l. split; [|exact F]. cbn [push w_t collect]. now rewrite H, app_nil_r. Qed.
Lemma RL_conn f w : (forall c, rparams (f c) = rparams c) -> RL w -> RL (with_c f w).
Proof.
  intros H (A & B & C & l & D & F). specialize (H (w_c w)). unfold rparams in H. assert (c_rx (f (w_c w)) = c_rx (w_c w) /\ c_wolf_ctx (f (w_c w)) = c_wolf_ctx (w_c w) /\ c_io (f (w_c w)) = c_io (w_c w)) as (H1 & H2 & H3) by (repeat split; congruence).
  unfold RL, rxok, holds. cbn [with_c w_c w_t]. rewrite H1, H2, H3. split; [exact A|]. split; [exact B|]. split; [exact C|]. exists l. split; [exact D|exact F].
Qed.
Lemma RL_read sz : keeps RL T (io_read sz).
Proof.
  intros w (A & B & C & l & D & F). pose proof (@read_answer sz w A) as R. destruct (io_read sz w) as [x w'|]; [|exact I].
  destruct R as (r & d & R1 & R2 & _ & _ & R3 & R4 & f & R5). split; [exact R3|]. split; [congruence|]. split; [rewrite R5; exact C|].
  exists (l ++ [(sz, r, d)]). split; [rewrite R1, D; now rewrite app_assoc|]. apply answers_app. exists (holds (w_c w)). split; [exact F|]. cbn [answers]. rewrite <- C, R2. auto.
Qed.
Ltac kpush := apply RL_push; [intros; reflexivity|assumption].
Ltac kconn := apply RL_conn; [reflexivity|assumption].
Lemma RL_event e w : io_event e = false -> RL w -> RL (push e w).
Proof. intros H. apply RL_push. now apply io_event_reads. Qed.
Lemma RL_write b : keeps RL T (io_write E hk b).
Proof. apply keeps_io_write; intros; first [exact I|apply keeps_ret|kpush|kconn]. Qed.
Ltac ks := intros; first [exact I|apply keeps_ret|apply RL_read|apply RL_write|now apply RL_event|kpush|kconn|idtac].
Lemma RL_verify : keeps RL T (verify_connection E hk).
Proof. apply keeps_verify; ks. Qed.
End L.

(** *** Otherwise *)
Section D.
Variable E : env.
Notation hk := (@ret unit tt).
Notation T := (fun _ : world => True).
Variable X : list (Z * Z * bytes).
Variable rest0 : bytes.
Definition RD (w : world) : Prop := rxok (w_c w) /\ rx_live (c_rx (w_c w)) = false /\ left_over (w_c w) = rest0 /\
  exists l, collect reads (w_t w) = X ++ l /\ Forall (fun x => snd x = []) l.
Lemma RD_push e w : (forall s, reads s e = []) -> RD w -> RD (push e w).
Proof. intros H (A & B & C & l & D & F). split; [exact A|]. split; [exact B|]. split; [exact C|]. exists l. split; [|exact F]. cbn [push w_t collect]. now rewrite H, app_nil_r. Qed.
Lemma RD_conn f w : (forall c, c_rx (f c) = c_rx c) -> RD w -> RD (with_c f w).
Proof.
  intros H (A & B & C & l & D & F). specialize (H (w_c w)). unfold RD, rxok, left_over. cbn [with_c w_c w_t]. rewrite H. split; [exact A|]. split; [exact B|]. split; [exact C|]. exists l. split; [exact D|exact F].
Qed.
Lemma RD_read sz : keeps RD T (io_read sz).
Proof.
  intros w (A & B & C & l & D & F). pose proof (@read_answer sz w A) as R. destruct (io_read sz w) as [x w'|]; [|exact I].
  destruct R as (r & d & R1 & R2 & R3 & R4 & R5 & R6 & _). assert (d = []) as -> by (destruct d; [reflexivity|rewrite R3 in B; [discriminate B|discriminate]]).
  split; [exact R5|]. split; [congruence|]. split; [unfold left_over in *; now rewrite R4|].
  exists (l ++ [(sz, r, [])]). split; [rewrite R1, D; now rewrite app_assoc|]. apply Forall_app. auto.
Qed.
Ltac kpush := apply RD_push; [intros; reflexivity|assumption].
Lemma configure_rx x i p c : c_rx (configure_fields x i p c) = c_rx c.
Proof. unfold configure_fields. cbv zeta. destruct (_ =? 0); reflexivity. Qed.
Ltac kconn := apply RD_conn; [first [reflexivity|apply configure_rx]|assumption].
Lemma RD_event e w : io_event e = false -> RD w -> RD (push e w).
Proof. intros H. apply RD_push. now apply io_event_reads. Qed.
Lemma RD_write b : keeps RD T (io_write E hk b).
Proof. apply keeps_io_write; intros; first [exact I|apply keeps_ret|kpush|kconn]. Qed.
Ltac ks := intros; first [exact I|apply keeps_ret|apply RD_read|apply RD_write|now apply RD_event|kpush|kconn|idtac].
Lemma RD_body o : (forall b, o <> OOutside b) -> keeps RD T (api_body E hk o).
Proof. intros N. apply keeps_api_body; ks; try assumption; [apply keeps_server_connect; ks|].
  apply N.
Qed.
End D.

(** ** Reached states *)
Definition rest_ok (c : conn) : Prop := rxok c /\ rx_live (c_rx c) = false.
Lemma outside_rest_reads E out w : rxok (w_c w) -> rx_live (c_rx (w_c w)) = false ->
  match outside_rest E out w with
  | Done rc w' => rest_ok (w_c w') /\
      (c_io (w_c w) = c_ctype (w_c w) -> bytes_ok out ->
       match arrives (w_c w) out with
       | Some src => exists l, during reads w w' l /\ answers (c_wolf_ctx (w_c w)) src l (holds (w_c w'))
       | None => during reads w w' [] /\ holds (w_c w') = holds (w_c w)
       end)
  | Stuck _ _ => True
  end.
Proof.
  intros Ok Lv. unfold outside_rest. unfold bind at 1, get at 1.
  assert (forall rc : Z, match Done rc w with Done rc w' => rest_ok (w_c w') /\ during reads w w' [] /\ holds (w_c w') = holds (w_c w) | Stuck _ _ => True end) as Same.
  { intros rc. split; [split; assumption|]. split; [apply during_nil; reflexivity|reflexivity]. }
  assert (forall (m : M Z), match m w with Done rc w' => rest_ok (w_c w') /\ during reads w w' [] /\ holds (w_c w') = holds (w_c w) | Stuck _ _ => True end ->
    arrives (w_c w) out = None \/ (c_io (w_c w) = c_ctype (w_c w) -> bytes_ok out -> arrives (w_c w) out = None) ->
    match m w with
    | Done rc w' => rest_ok (w_c w') /\
      (c_io (w_c w) = c_ctype (w_c w) -> bytes_ok out ->
       match arrives (w_c w) out with
       | Some src => exists l, during reads w w' l /\ answers (c_wolf_ctx (w_c w)) src l (holds (w_c w'))
       | None => during reads w w' [] /\ holds (w_c w') = holds (w_c w)
       end)
    | Stuck _ _ => True end) as No.
  { intros m H Na. destruct (m w); [|exact I]. destruct H as (A & B & C). split; [exact A|]. intros Io Bo.
    assert (arrives (w_c w) out = None) as -> by (destruct Na as [->|Na]; auto). auto. }
  (* verify, then the buffer dies *)
  assert (forall (w0 : world) (k : Z -> M Z) (X : list (Z * Z * bytes)) src, RL X src (c_wolf_ctx (w_c w)) w0 -> collect reads (w_t w0) = collect reads (w_t w) -> X = collect reads (w_t w) -> 
    (forall rc (v : world), rest_ok (w_c v) -> match k rc v with Done _ v' => rest_ok (w_c v') /\ during reads v v' [] /\ holds (w_c v') = holds (w_c v) | Stuck _ _ => True end) ->
    match (let! rc := verify_connection E (ret tt) in upd (fun c => set_rx (set_rx_live false (c_rx c)) c) ;;; k rc) w0 with
    | Done rc w' => rest_ok (w_c w') /\ exists l, during reads w w' l /\ answers (c_wolf_ctx (w_c w)) src l (holds (w_c w'))
    | Stuck _ _ => True end) as Go.
  { intros w0 k X src H0 _ -> Hk. unfold bind at 1. pose proof (@RL_verify E (collect reads (w_t w)) src (c_wolf_ctx (w_c w)) w0 H0) as V. destruct (verify_connection E (ret tt) w0) as [rc v|]; [|exact I].
    unfold bind at 1, upd at 1. destruct V as (V1 & V2 & V3 & l & V4 & V5). match goal with |- match k rc ?u with _ => _ end => set (v1 := u) end.
    assert (rest_ok (w_c v1)) as R1. { split; [exact V1|reflexivity]. }
    specialize (Hk rc v1 R1). destruct (k rc v1) as [rc' v'|]; [|exact I]. destruct Hk as (K1 & K2 & K3). split; [exact K1|]. exists l. unfold during in *. split.
    - rewrite K2, app_nil_r. exact V4.
    - rewrite K3. exact V5. }
  destruct (c_ctype (w_c w) =? HE_CONNECTION_TYPE_DATAGRAM) eqn:Ct.
  - apply Z.eqb_eq in Ct. assert (arrives (w_c w) out = if acceptable (w_c w) out then Some (Datagram (Some (skipn 16 out))) else None) as Ar by (unfold arrives; now rewrite Ct).
    unfold outside_packet_received. change sizeof_wire_hdr with 16. unfold acceptable in Ar. destruct (Z.ltb_spec (len out) 16) as [L|L]; destruct (Z.leb_spec 16 (len out)); try lia; cbn [andb] in Ar; [apply No; [exact (Same 0)|now left]|].
    rewrite ld8_ok by lia. unfold bind at 1, lift at 1, ret at 1. rewrite ld8_ok by lia. unfold bind at 1, lift at 1, ret at 1. change (Z.to_nat 0) with 0%nat. change (Z.to_nat 1) with 1%nat.
    rewrite <- negb_andb. destruct ((nth 0 out 0 =? 72) && (nth 1 out 0 =? 101)) eqn:He; cbn [negb andb] in *.
    2:{ apply No; [exact (Same 0)|]. left. exact Ar. }
    rewrite ld8_ok by lia. unfold bind at 1, lift at 1, ret at 1. rewrite ld8_ok by lia. unfold bind at 1, lift at 1, ret at 1. unfold bind at 1, get at 1.
    change (Z.to_nat 2) with 2%nat. change (Z.to_nat 3) with 3%nat. rewrite <- negb_andb.
    destruct ((nth 2 out 0 =? c_vmaj (w_c w)) && (nth 3 out 0 =? c_vmin (w_c w))) eqn:Ve; cbn [negb andb] in *.
    2:{ apply No; [exact (Same 0)|]. left. exact Ar. }
    unfold ldh64. rewrite ldn_ok by lia. cbn [rbind]. unfold bind at 1, lift at 1, ret at 1.
    destruct (host64 (e_le E) (slice out 8 8) =? HE_PACKET_SESSION_REJECT) eqn:Rj.
    { apply No; [exact (Same 0)|]. right. intros _ Bo. rewrite (reject_all_ones E Bo) in Rj by lia. now rewrite Rj in Ar. }
    rewrite ldn_ok by lia. unfold bind at 1, lift at 1, ret at 1. unfold bind at 1, upd at 1.
    assert (slice out 16 (len out - 16) = skipn 16 out) as ->.
    { unfold slice. change (Z.to_nat 16) with 16%nat. apply firstn_all2. rewrite skipn_length. unfold len. lia. }
    match goal with |- match (let! _ := _ in _) ?u with _ => _ end => set (w0 := u) end.
    destruct (Z.eqb_spec (c_io (w_c w)) (c_ctype (w_c w))) as [Io|Io].
    + specialize (Go w0). match goal with |- match (let! rc := _ in _ ;;; @?kk rc) _ with _ => _ end => specialize (Go kk (collect reads (w_t w)) (Datagram (Some (skipn 16 out)))) end.
      cbv beta in Go. match type of Go with ?a -> ?b -> ?c -> ?d -> _ => assert d as Hk end.
      { intros rc v Rv. destruct (negb (rc =? HE_SUCCESS)); [split; [exact Rv|split; [apply during_nil; reflexivity|reflexivity]]|].
        unfold update_session_incoming. destruct (_ =? 0); [split; [exact Rv|split; [apply during_nil; reflexivity|reflexivity]]|]. unfold bind at 1, get at 1. destruct (c_is_server (w_c v)).
        - destruct (_ =? c_session _); [split; [exact Rv|split; [apply during_nil; reflexivity|reflexivity]]|]. destruct (_ =? c_pending _); [|split; [exact Rv|split; [apply during_nil; reflexivity|reflexivity]]].
          unfold generate_event, notify, when, bind, upd, get, emit, ret. cbn [w_c]. destruct (cb_event _); (split; [exact Rv|split; [|reflexivity]]); unfold during; cbn [w_t collect reads]; now rewrite ?app_nil_r.
        - unfold bind, upd, ret. split; [exact Rv|split; [apply during_nil; reflexivity|reflexivity]]. }
      specialize (Go ltac:(split; [exact Ok|]; split; [reflexivity|]; split; [reflexivity|]; exists []; split; [now rewrite app_nil_r|]; cbn [answers holds w0 w_c]; unfold holds; cbn; now rewrite Io, Ct) eq_refl eq_refl Hk).
      match goal with |- match ?m with _ => _ end => destruct m as [rc w'|]; [|exact I] end. destruct Go as [G1 G2]. split; [exact G1|]. intros _ Bo.
      rewrite (reject_all_ones E Bo) in Rj by lia. rewrite Rj in Ar. cbn [negb] in Ar. rewrite Ar. exact G2.
    + specialize (Go w0). match goal with |- match (let! rc := _ in _ ;;; @?kk rc) _ with _ => _ end => specialize (Go kk (collect reads (w_t w)) (holds (w_c w0))) end.
      cbv beta in Go. match type of Go with ?a -> ?b -> ?c -> ?d -> _ => assert d as Hk end.
      { intros rc v Rv. destruct (negb (rc =? HE_SUCCESS)); [split; [exact Rv|split; [apply during_nil; reflexivity|reflexivity]]|].
        unfold update_session_incoming. destruct (_ =? 0); [split; [exact Rv|split; [apply during_nil; reflexivity|reflexivity]]|]. unfold bind at 1, get at 1. destruct (c_is_server (w_c v)).
        - destruct (_ =? c_session _); [split; [exact Rv|split; [apply during_nil; reflexivity|reflexivity]]|]. destruct (_ =? c_pending _); [|split; [exact Rv|split; [apply during_nil; reflexivity|reflexivity]]].
          unfold generate_event, notify, when, bind, upd, get, emit, ret. cbn [w_c]. destruct (cb_event _); (split; [exact Rv|split; [|reflexivity]]); unfold during; cbn [w_t collect reads]; now rewrite ?app_nil_r.
        - unfold bind, upd, ret. split; [exact Rv|split; [apply during_nil; reflexivity|reflexivity]]. }
      specialize (Go ltac:(split; [exact Ok|]; split; [reflexivity|]; split; [reflexivity|]; exists []; split; [now rewrite app_nil_r|reflexivity]) eq_refl eq_refl Hk).
      match goal with |- match ?m with _ => _ end => destruct m as [rc w'|]; [|exact I] end. destruct Go as [G1 _]. split; [exact G1|]. now intros Io'.
  - destruct (c_ctype (w_c w) =? HE_CONNECTION_TYPE_STREAM) eqn:Cs.
    2:{ apply No; [exact (Same 0)|]. right. intros Io _. unfold arrives, holds. rewrite Ct, Io, Cs. reflexivity. }
    unfold outside_stream_received. unfold bind at 1, get at 1. destruct (rx_left (c_rx (w_c w)) =? 0) eqn:L0; cbn [negb].
    2:{ apply No. { unfold bind, upd, ret. split; [split; assumption|]. split; [apply during_nil; reflexivity|reflexivity]. }
        right. intros Io _. unfold arrives, holds. rewrite Ct, Io, Cs. unfold rxok in Ok. apply Z.eqb_neq in L0. destruct (rx_rest (c_rx (w_c w))) as [[|x r]|]; [rewrite len_nil in Ok; lia|reflexivity|lia]. }
    unfold bind at 1, upd at 1. match goal with |- match (let! _ := _ in _) ?u with _ => _ end => set (w0 := u) end.
    specialize (Go w0 (fun rc => ret rc) (collect reads (w_t w)) (holds (w_c w0))).
    specialize (Go ltac:(split; [reflexivity|]; split; [reflexivity|]; split; [reflexivity|]; exists []; split; [now rewrite app_nil_r|reflexivity]) eq_refl eq_refl).
    match type of Go with ?d -> _ => assert d as Hk by (intros rc v Rv; split; [exact Rv|split; [apply during_nil; reflexivity|reflexivity]]) end. specialize (Go Hk).
    match goal with |- match ?m with _ => _ end => destruct m as [rc w'|]; [|exact I] end. destruct Go as [G1 G2]. split; [exact G1|]. intros Io _.
    unfold arrives. rewrite Ct. unfold holds at 1. rewrite Io, Cs. apply Z.eqb_eq in L0. unfold rxok in Ok.
    assert (match rx_rest (c_rx (w_c w)) with Some r => r | None => [] end = []) as ->.
    { destruct (rx_rest (c_rx (w_c w))) as [[|x r]|]; auto. rewrite len_cons in Ok. pose proof (len_nonneg r). lia. }
    unfold holds at 1 in G2. cbn [w0 w_c set_rx c_io c_rx rx_rest] in G2. rewrite Io, Cs in G2. exact G2.
Qed.
Lemma call_rest_ok E o w rc w' : rest_ok (w_c w) -> call E o w rc w' -> rest_ok (w_c w').
Proof.
  intros [Ok Lv] C. destruct (call_body C) as (w1 & Bd & ->). cbn [push w_c]. destruct (match o with OOutside _ => true | _ => false end) eqn:Io.
  - destruct o; try discriminate Io. cbn [api_body] in Bd. unfold outside_data_received in Bd. unfold bind at 1, get at 1 in Bd. set (w0 := push (ECall _) w) in *.
    assert (rest_ok (w_c w0)) as R0 by (split; assumption). clearbody w0. destruct (_ || _); [apply Done_inv in Bd; destruct Bd as [_ <-]; exact R0|]. unfold bind at 1 in Bd.
    destruct (@ingress_pass E (c_out_chain (w_c w0)) (u8s buffer) (len (u8s buffer)) w0) as (rp & out & pre & Eq & _). rewrite Eq in Bd. clear Eq.
    set (v := plugs _ _ _) in *. assert (rest_ok (w_c v)) as Rv by exact R0. clearbody v.
    destruct (_ =? HE_ERR_PLUGIN_DROP); [apply Done_inv in Bd; destruct Bd as [_ <-]; exact Rv|]. destruct (negb _); [apply Done_inv in Bd; destruct Bd as [_ <-]; exact Rv|].
    destruct (_ <? _); [apply Done_inv in Bd; destruct Bd as [_ <-]; exact Rv|].
    destruct Rv as [R1 R2]. pose proof (@outside_rest_reads E out v R1 R2) as H. unfold outside_rest in H. rewrite Bd in H. apply H.
  - pose proof (@RD_body E (collect reads (w_t w)) (left_over (w_c w)) o) as K. specialize (K ltac:(intros b ->; discriminate Io) (push (ECall o) w)). rewrite Bd in K.
    destruct K as (A & B & _); [|split; assumption]. split; [exact Ok|]. split; [exact Lv|]. split; [reflexivity|]. exists []. cbn [push w_t collect reads]. split; [reflexivity|constructor].
Qed.
Lemma reached_rest_ok E w : reached E w -> rest_ok (w_c w).
Proof.
  intros [ops R]. assert (forall w0, rest_ok (w_c w0) -> run E 0 ops w0 = Done tt w -> rest_ok (w_c w)) as H; [|exact (H world_new (conj eq_refl eq_refl) R)].
  clear R. induction ops as [|o ops IH]; intros w0 H0; cbn [run]; [now intros [= <-]|]. change (hookn E 0) with (@ret unit tt).
  destruct (api E (ret tt) o w0) as [rc w1|] eqn:C; [|discriminate]. apply IH. exact (call_rest_ok H0 C).
Qed.

(** ** The theorems *)
(** A received buffer: what the plugins made of it, if it is accepted, is what
    wolfSSL reads during the call; otherwise it reads nothing.  ([c_io]: the kind
    of the callbacks the wolfSSL object got; it is the kind of the connection
    unless the host changes the context's kind after starting it.) *)
Theorem C21_received : forall E b w rc w', reached E w -> bytes_ok b -> call E (OOutside b) w rc w' -> c_io (w_c w) = c_ctype (w_c w) ->
  if (c_state (w_c w) =? HE_STATE_DISCONNECTING) || (c_state (w_c w) =? HE_STATE_DISCONNECTED)
  then rc = HE_ERR_INVALID_CONN_STATE /\ during reads w w' [] /\ holds (w_c w') = holds (w_c w)
  else exists pre rp out,
    pass true (len b) (in_order true (c_out_chain (w_c w))) b pre rp out /\
    match (if (rp =? HE_SUCCESS) && (len out <=? len b) then arrives (w_c w) out else None) with
    | Some src => exists l, during reads w w' l /\ answers (c_wolf_ctx (w_c w)) src l (holds (w_c w'))
    | None => during reads w w' [] /\ holds (w_c w') = holds (w_c w)
    end.
Proof.
  intros E b w rc w' Re B C Io. destruct (reached_rest_ok Re) as [Ok Lv]. destruct (call_body C) as (w1 & Bd & ->). cbn [api_body] in Bd. rewrite (u8s_id B) in Bd.
  unfold outside_data_received in Bd. unfold bind at 1, get at 1 in Bd. set (w0 := push (ECall (OOutside b)) w) in *. change (w_c w0) with (w_c w) in Bd.
  destruct (_ || _).
  { apply Done_inv in Bd. destruct Bd as [<- <-]. split; [reflexivity|]. split; [apply during_call; try reflexivity; apply during_nil; reflexivity|reflexivity]. }
  unfold bind at 1 in Bd. destruct (@ingress_pass E (c_out_chain (w_c w)) b (len b) w0) as (rp & out & pre & Eq & Ps & Bo). rewrite Eq in Bd. clear Eq.
  exists pre, rp, out. split; [exact Ps|]. pose proof (@plugs_other _ reads (c_state (w_c w0)) pre w0 ltac:(reflexivity) ltac:(reflexivity)) as D0. set (v := plugs _ pre w0) in *.
  assert (w_c v = w_c w) as Cv by reflexivity. clearbody v.
  assert (forall code : Z, Done code v = Done rc w1 -> during reads w (push (ERet (OOutside b) rc) w1) [] /\ holds (w_c (push (ERet (OOutside b) rc) w1)) = holds (w_c w)) as Stop.
  { intros code H. apply Done_inv in H. destruct H as [_ <-]. split; [apply during_call; try reflexivity; exact D0|]. cbn [push w_c]. now rewrite Cv. }
  destruct (Z.eqb_spec rp HE_ERR_PLUGIN_DROP) as [->|Nd]; [exact (Stop _ Bd)|].
  destruct (Z.eqb_spec rp HE_SUCCESS) as [->|Ns]; cbn [negb andb] in *; [|exact (Stop _ Bd)].
  destruct (Z.ltb_spec (len b) (len out)) as [Lg|Lg]; destruct (Z.leb_spec (len out) (len b)); try lia; [exact (Stop _ Bd)|].
  pose proof (@outside_rest_reads E out v) as R. rewrite Cv in R. specialize (R Ok Lv). unfold outside_rest in R. rewrite Bd in R. destruct R as [_ R]. specialize (R Io (Bo B)).
  destruct (arrives (w_c w) out) as [src|].
  - destruct R as (l & Dl & An). exists l. split; [|exact An]. apply during_call; try reflexivity. exact (during_trans D0 Dl).
  - destruct R as [Dl Hh]. split; [|exact Hh]. apply during_call; try reflexivity. exact (during_trans D0 Dl).
Qed.
Print Assumptions C21_received.

(** No other call gives wolfSSL any bytes, or takes any of a stream's. *)
Theorem C21_other_calls : forall E o w rc w', reached E w -> call E o w rc w' -> (forall b, o <> OOutside b) ->
  exists l, during reads w w' l /\ bytes_read l = [] /\ left_over (w_c w') = left_over (w_c w).
Proof.
  intros E o w rc w' Re C No. destruct (reached_rest_ok Re) as [Ok Lv]. destruct (call_body C) as (w1 & Bd & ->).
  pose proof (@RD_body E (collect reads (w_t w)) (left_over (w_c w)) o No (push (ECall o) w)) as K. rewrite Bd in K. destruct K as (_ & _ & Lo & l & D & F).
  { split; [exact Ok|]. split; [exact Lv|]. split; [reflexivity|]. exists []. cbn [push w_t collect reads]. split; [reflexivity|constructor]. }
  exists l. split; [apply during_call; try reflexivity; unfold during; cbn [push w_t collect reads]; rewrite D; now rewrite app_nil_r|].
  split; [|exact Lo]. unfold bytes_read. clear -F. induction F as [|x l H _ IH]; [reflexivity|]. exact (f_equal2 (@app Z) H IH).
Qed.
Print Assumptions C21_other_calls.

(** Whole histories of a stream connection without outside plugins: the bytes
    accepted are the bytes read and those still to be read. *)
Definition stream_conn (w : world) : Prop := c_io (w_c w) = HE_CONNECTION_TYPE_STREAM /\ c_ctype (w_c w) = HE_CONNECTION_TYPE_STREAM /\ c_out_chain (w_c w) = [].
Definition accepted (c : conn) (o : op) : bytes :=
  match o with
  | OOutside b => if (c_state c =? HE_STATE_DISCONNECTING) || (c_state c =? HE_STATE_DISCONNECTED) then [] else match left_over c with [] => b | _ => [] end
  | _ => []
  end.
Inductive calls (E : env) : world -> list (op * Z) -> bytes -> world -> Prop :=
| calls_none w : calls E w [] [] w
| calls_one o rc w w1 l acc w' : stream_conn w -> stream_conn w1 -> match o with OOutside b => bytes_ok b | _ => True end ->
    call E o w rc w1 -> calls E w1 l acc w' -> calls E w ((o, rc) :: l) (accepted (w_c w) o ++ acc) w'.
Theorem C21_stream_history : forall E w l acc w', reached E w -> calls E w l acc w' ->
  exists rs, during reads w w' rs /\ left_over (w_c w) ++ acc = bytes_read rs ++ left_over (w_c w').
Proof.
  intros E w l acc w' Re H. revert Re. induction H as [w|o rc w w1 l acc w' Sw Sw1 Bo C _ IH]; intros Re.
  { exists []. split; [apply during_nil; reflexivity|]. cbn. now rewrite app_nil_r. }
  destruct (IH (reached_call Re C)) as (rs & D & Eq).
  enough (exists r1, during reads w w1 r1 /\ left_over (w_c w) ++ accepted (w_c w) o = bytes_read r1 ++ left_over (w_c w1)) as (r1 & D1 & E1).
  { exists (r1 ++ rs). split; [exact (during_trans D1 D)|]. rewrite app_assoc, E1, <- app_assoc, Eq. unfold bytes_read. now rewrite map_app, concat_app, <- app_assoc. }
  destruct Sw as (S1 & S2 & S3). destruct Sw1 as (T1 & T2 & T3). destruct (match o with OOutside _ => true | _ => false end) eqn:Io.
  - destruct o; try discriminate Io. pose proof (C21_received Re Bo C ltac:(congruence)) as R. unfold accepted.
    assert (during reads w w1 [] /\ holds (w_c w1) = holds (w_c w) -> exists r1, during reads w w1 r1 /\ left_over (w_c w) ++ [] = bytes_read r1 ++ left_over (w_c w1)) as Same.
    { intros [Dn Hh]. exists []. split; [exact Dn|]. rewrite (holds_stream T1), (holds_stream S1) in Hh. injection Hh as Hh. cbn. now rewrite app_nil_r. }
    destruct (_ || _); [exact (Same (proj2 R))|]. destruct R as (pre & rp & out & Ps & R). rewrite S3 in Ps. cbn in Ps. destruct Ps as (_ & -> & ->).
    rewrite Z.leb_refl in R. change (HE_SUCCESS =? HE_SUCCESS) with true in R. cbn [andb] in R. unfold arrives in R. rewrite S2 in R.
    change (HE_CONNECTION_TYPE_STREAM =? HE_CONNECTION_TYPE_DATAGRAM) with false in R. cbv iota in R. rewrite (holds_stream S1) in R.
    destruct (left_over (w_c w)) as [|x r] eqn:Lo; [|apply Same; rewrite (holds_stream S1), Lo; exact R].
    destruct R as (rs1 & Dr & An). exists rs1. split; [exact Dr|]. apply C21_stream_order in An. destruct An as (rest' & Hh & Eb). rewrite (holds_stream T1) in Hh. injection Hh as Hh. now rewrite Hh, <- Eb.
  - destruct (C21_other_calls Re C ltac:(intros b ->; discriminate Io)) as (rs1 & Dr & Rd & Lo). exists rs1. split; [exact Dr|]. rewrite Rd, Lo.
    assert (accepted (w_c w) o = []) as -> by (destruct o; try reflexivity; discriminate Io). now rewrite app_nil_r.
Qed.
Print Assumptions C21_stream_history.

(** Bytes a stream connection was given and wolfSSL did not read: the next buffer
    is turned away with HE_ERR_SSL_ERROR. *)
Theorem C21_leftover_refused : forall E b w rc w', reached E w -> bytes_ok b -> call E (OOutside b) w rc w' -> stream_conn w -> left_over (w_c w) <> [] ->
  c_state (w_c w) <> HE_STATE_DISCONNECTING -> c_state (w_c w) <> HE_STATE_DISCONNECTED -> rc = HE_ERR_SSL_ERROR /\ during reads w w' [].
Proof.
  intros E b w rc w' Re B C (S1 & S2 & S3) Lo D1 D2. destruct (reached_rest_ok Re) as [Ok Lv]. destruct (call_body C) as (w1 & Bd & ->). cbn [api_body] in Bd.
  unfold outside_data_received in Bd. unfold bind at 1, get at 1 in Bd. cbn [push w_c] in Bd. apply Z.eqb_neq in D1, D2. rewrite D1, D2, S3 in Bd. cbn [orb plugin_ingress] in Bd. unfold bind at 1, ret at 1 in Bd.
  change (HE_SUCCESS =? HE_ERR_PLUGIN_DROP) with false in Bd. change (negb (HE_SUCCESS =? HE_SUCCESS)) with false in Bd. cbv iota in Bd. rewrite Z.ltb_irrefl in Bd.
  unfold bind at 1, get at 1 in Bd. cbn [push w_c] in Bd. rewrite S2 in Bd. change (HE_CONNECTION_TYPE_STREAM =? HE_CONNECTION_TYPE_DATAGRAM) with false in Bd.
  change (HE_CONNECTION_TYPE_STREAM =? HE_CONNECTION_TYPE_STREAM) with true in Bd. cbv iota in Bd. unfold outside_stream_received in Bd. unfold bind at 1, get at 1 in Bd. cbn [push w_c] in Bd.
  destruct (Z.eqb_spec (rx_left (c_rx (w_c w))) 0) as [L0|_].
  { exfalso. unfold rxok, left_over in *. destruct (rx_rest (c_rx (w_c w))) as [[|x r]|]; try (now apply Lo). rewrite len_cons in Ok. pose proof (len_nonneg r). lia. }
  cbn [negb] in Bd. unfold bind, upd, ret in Bd. apply Done_inv in Bd. destruct Bd as [<- <-]. split; [reflexivity|]. apply during_call; try reflexivity. apply during_nil. reflexivity.
Qed.
Print Assumptions C21_leftover_refused.

(** ** Examples.  A wolfSSL that takes two sips of two bytes, then wants more. *)
Definition sip_wolf (t : trace) : strat :=
  match t with
  | (_, EWOp WRecv) :: _ => WRead 2 (fun _ _ => WRead 2 (fun _ _ => WRet (-1) SSL_ERROR_WANT_READ []))
  | _ => plain_wolf t
  end.
Definition sip_env : env := Env true 50 plain_ask plain_cb (fun _ => (ip 1, ip 2, ip 3)) (fun _ => (HE_PLUGIN_SUCCESS, [])) sip_wolf (fun _ => HDone).
Definition sip_at (ops : list op) : world := world_of (run sip_env 0 ops world_new).
Definition stream_up : list op := client_setup ++ [OClientConnect sctx [] []].
Definition five : op := OOutside [1; 2; 3; 4; 5].
Example C21_example_stream :
  let w := sip_at stream_up in let w' := sip_at (stream_up ++ [five]) in
  reached sip_env w /\ stream_conn w /\ stream_conn w' /\ call sip_env five w HE_SUCCESS w' /\ arrives (w_c w) [1; 2; 3; 4; 5] = Some (Stream [1; 2; 3; 4; 5]) /\
  during reads w w' [(2, 2, [1; 2]); (2, 2, [3; 4])] /\ left_over (w_c w') = [5].
Proof.
  cbv zeta. split; [apply world_in_reached; vm_compute; reflexivity|]. split; [repeat split; vm_compute; reflexivity|]. split; [repeat split; vm_compute; reflexivity|].
  split; [vm_compute; reflexivity|]. conj; vm_compute; reflexivity.
Qed.
Example C21_example_refused :
  let w := sip_at (stream_up ++ [five]) in let w' := sip_at (stream_up ++ [five; five]) in
  reached sip_env w /\ stream_conn w /\ left_over (w_c w) <> [] /\ call sip_env five w HE_ERR_SSL_ERROR w' /\
  c_state (w_c w) <> HE_STATE_DISCONNECTING /\ c_state (w_c w) <> HE_STATE_DISCONNECTED.
Proof.
  cbv zeta. split; [apply world_in_reached; vm_compute; reflexivity|]. split; [repeat split; vm_compute; reflexivity|]. split; [vm_compute; discriminate|].
  split; [vm_compute; reflexivity|]. split; vm_compute; discriminate.
Qed.
Example C21_example_history :
  calls sip_env (sip_at stream_up) [(five, HE_SUCCESS); (ONudge, HE_SUCCESS); (five, HE_ERR_SSL_ERROR)] [1; 2; 3; 4; 5] (sip_at (stream_up ++ [five; ONudge; five])).
Proof.
  enough (exists acc, calls sip_env (sip_at stream_up) [(five, HE_SUCCESS); (ONudge, HE_SUCCESS); (five, HE_ERR_SSL_ERROR)] acc (sip_at (stream_up ++ [five; ONudge; five])) /\
    acc = [1; 2; 3; 4; 5]) as (acc & H & ->) by exact H.
  eexists. split.
  - eapply calls_one with (w1 := sip_at (stream_up ++ [five])); [repeat split; vm_compute; reflexivity|repeat split; vm_compute; reflexivity|apply bytes_ok_dec; vm_compute; reflexivity|vm_compute; reflexivity|].
    eapply calls_one with (w1 := sip_at (stream_up ++ [five; ONudge])); [repeat split; vm_compute; reflexivity|repeat split; vm_compute; reflexivity|exact I|vm_compute; reflexivity|].
    eapply calls_one with (w1 := sip_at (stream_up ++ [five; ONudge; five])); [repeat split; vm_compute; reflexivity|repeat split; vm_compute; reflexivity|apply bytes_ok_dec; vm_compute; reflexivity|vm_compute; reflexivity|].
    apply calls_none.
  - vm_compute. reflexivity.
Qed.
Example C21_example_datagram :
  let b := dgram 4660 (data_message true 1 2 ipv4 0) in
  let w := world_at client_up in let w' := world_at (client_up ++ [OOutside b]) in
  reached plain_env w /\ call plain_env (OOutside b) w HE_SUCCESS w' /\ bytes_ok b /\ c_io (w_c w) = c_ctype (w_c w) /\
  arrives (w_c w) b = Some (Datagram (Some (data_message true 1 2 ipv4 0))) /\
  during reads w w' [(1500, 27, data_message true 1 2 ipv4 0); (1500, WOLFSSL_CBIO_ERR_WANT_READ, [])] /\ holds (w_c w') = Datagram None.
Proof.
  cbv zeta. split; [apply world_at_reached; vm_compute; reflexivity|]. split; [vm_compute; reflexivity|]. split; [apply bytes_ok_dec; vm_compute; reflexivity|].
  conj; vm_compute; reflexivity.
Qed.
