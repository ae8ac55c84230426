(** he_conn_inside_packet_received, exactly (no plugins, sequential host). *)
From Verif Require Import Base Codes Ctx Config Mss MssSpec MssProofs Frag Wire WireSpec WireProofs ConnState Conn ConnSpec
  CallSpec MsgSpec ConnSteps Frame Seq.
Unset Strict Implicit.

Lemma ipv4_valid p : is_ipv4_packet_valid p = Val (ipv4_packet p).
Proof.
  unfold is_ipv4_packet_valid, ipv4_packet. change sizeof_ipv4_header with 20.
  destruct (Z.ltb_spec (len p) 20); destruct (Z.leb_spec 20 (len p)); try lia; [reflexivity|].
  rewrite ld8_ok by lia. reflexivity.
Qed.

Lemma clamp_clamped le p mss rc p' :
  bytes_ok p -> 512 <= mss <= 1500 -> clamp_mss le p mss = Val (rc, p') ->
  mss_clamped mss p p' /\ bytes_ok p' /\ (ipv4_packet p = true -> ipv4_packet p' = true).
Proof.
  intros B M C. destruct (clamp_total le B (mss := mss)) as (rc1 & p1 & C1 & L & B1); [lia|].
  rewrite C in C1. injection C1 as <- <-. split; [|split; [exact B1|]].
  - split; [exact L|]. split.
    + intros H. assert (0 <= mss < 65536) as M' by lia. exact (clamp_unchanged le B M' C H).
    + intros v V G. destruct (clamp_lowers le B M C V G) as (_ & _ & H & K). auto.
  - unfold ipv4_packet. rewrite L. intros H.
    destruct (clamp_mss_spec le B (mss := mss)) as [[rc' [E1 _]]|(R & v & HV & HL & E1)]; [lia| |].
    + rewrite C in E1. injection E1 as _ ->. exact H.
    + destruct (clamp_lowers le B M C HV HL) as (_ & (_ & V' & _) & _). rewrite V'. now apply andb_true_iff in H as [-> _].
Qed.

(** What sending leaves of the connection. *)
Definition quiet_conn (c c' : conn) : Prop := exists rx we, c' = set_rx rx (set_wolf_err we c).
Lemma quiet_refl c : quiet_conn c c.
Proof. exists (c_rx c), (c_wolf_err c). now destruct c. Qed.
Lemma quiet_trans c1 c2 c3 : quiet_conn c1 c2 -> quiet_conn c2 c3 -> quiet_conn c1 c3.
Proof. intros (r & e & ->) (r' & e' & ->). exists r', e'. reflexivity. Qed.

Lemma skipn_skipn A : forall x y (l : list A), skipn x (skipn y l) = skipn (x + y) l.
Proof.
  intros x y. rewrite Nat.add_comm. induction y as [|y IH]; intros l; [reflexivity|]. destruct l; [now rewrite !skipn_nil|]. cbn. apply IH.
Qed.

Section S.
Variable E : env.
Notation hk := (@ret unit tt).

Lemma send_conn m w rc w' : send_message E hk m w = Done rc w' -> quiet_conn (w_c w) (w_c w').
Proof. intros H. apply send_seq in H. destruct H as (rx & we & seg & r & err & d & -> & _). now exists rx, we. Qed.

(** Fragments *)
Lemma chop_exists n p : 0 < n -> exists cs, chopped n cs p.
Proof.
  intros Hn. remember (length p) as k eqn:K. assert (length p <= k)%nat as K' by lia. clear K. revert p K'.
  induction k as [|k IH]; intros p K.
  - destruct p; [|cbn in K; lia]. exists []. split; [reflexivity|]. split; [constructor|]. cbn. lia.
  - destruct (Z.leb_spec (len p) n).
    + destruct p as [|b p]; [exists []; split; [reflexivity|]; split; [constructor|]; cbn; lia|].
      exists [b :: p]. split; [cbn; now rewrite app_nil_r|]. split.
      * constructor; [|constructor]. rewrite len_cons in *. pose proof (len_nonneg p). lia.
      * intros i. cbn. lia.
    + destruct (IH (skipn (Z.to_nat n) p)) as (cs & C1 & C2 & C3); [rewrite skipn_length; unfold len in *; lia|].
      assert (len (firstn (Z.to_nat n) p) = n) as L by (rewrite len_firstn; unfold len in *; lia).
      exists (firstn (Z.to_nat n) p :: cs). split; [cbn; rewrite C1; apply firstn_skipn|]. split.
      * constructor; [lia|exact C2].
      * intros [|i] Hi; [exact L|]. cbn [nth]. apply C3. cbn in Hi. lia.
Qed.
Lemma chopped_cons n c cs p : chopped n (c :: cs) p -> chopped n cs (concat cs) /\ p = c ++ concat cs /\ 0 < len c <= n /\ (cs <> [] -> len c = n).
Proof.
  intros (H1 & H2 & H3). inversion_clear H2. cbn [concat] in H1. split; [|split; [easy|split; [easy|]]].
  - split; [reflexivity|]. split; [assumption|]. intros i Hi. apply (H3 (S i)). cbn. lia.
  - intros N. apply (H3 0%nat). destruct cs; [easy|cbn; lia].
Qed.
Lemma concat_pos cs n : Forall (fun c : bytes => 0 < len c <= n) cs -> cs <> [] -> 0 < len (concat cs).
Proof. intros H N. destruct H; [easy|]. cbn [concat]. rewrite len_app. pose proof (len_nonneg (concat l)). lia. Qed.

Lemma frag_loop_seq packet id fs : 0 <= id < 65536 -> 0 < fs -> fs + 7 <= HE_MAX_WIRE_MTU -> len packet < 65536 ->
  forall fuel cs off w rc w', 0 <= off -> chopped fs cs (slice packet off (len packet - off)) -> off <= len packet ->
  frag_loop E hk fuel packet id off (len packet - off) fs w = Done rc w' ->
  exists l, during wrote w w' l /\ during sent w w' (map (fun x => fst (fst x)) l) /\ writes (fragments id off cs) l rc /\
    quiet_conn (w_c w) (w_c w').
Proof.
  intros Hid Hfs Hmax Hp. induction fuel as [|fuel IH]; intros cs off w rc w' Ho C Hl; cbn [frag_loop].
  - destruct (Z.leb_spec (len packet - off) 0); [|discriminate]. intros [= <- <-]. assert (cs = []) as ->.
    { destruct cs as [|c cs]; auto. destruct (chopped_cons C) as (_ & E1 & L & _).
      assert (len (slice packet off (len packet - off)) = 0) as Z0 by (rewrite len_slice by lia; lia).
      rewrite E1, len_app in Z0. pose proof (len_nonneg (concat cs)). lia. }
    exists []. split; [now apply during_nil|]. split; [now apply during_nil|]. split; [reflexivity|apply quiet_refl].
  - destruct (Z.leb_spec (len packet - off) 0).
    + intros [= <- <-]. assert (cs = []) as ->.
      { destruct cs as [|c cs]; auto. destruct (chopped_cons C) as (_ & E1 & L & _).
        assert (len (slice packet off (len packet - off)) = 0) as Z0 by (rewrite len_slice by lia; lia).
        rewrite E1, len_app in Z0. pose proof (len_nonneg (concat cs)). lia. }
      exists []. split; [now apply during_nil|]. split; [now apply during_nil|]. split; [reflexivity|apply quiet_refl].
    + rename H into Hpos. assert (len (slice packet off (len packet - off)) = len packet - off) as LS by (rewrite len_slice by lia; lia).
      destruct cs as [|c cs]; [destruct C as [C _]; cbn in C; rewrite <- C in LS; cbn in LS; lia|].
      destruct (chopped_cons C) as (C' & E1 & Lc & Ln).
      assert (LS' : len c + len (concat cs) = len packet - off) by now rewrite <- len_app, <- E1.
      assert (frag_len (len packet - off) fs = len c) as FL.
      { unfold frag_len. destruct (Z.ltb_spec fs (len packet - off)).
        - destruct cs; [cbn in LS'; lia|]. symmetry. now apply Ln.
        - destruct cs as [|c2 cs]; [cbn in LS'; lia|]. rewrite Ln in * by easy. destruct C' as (_ & C' & _).
          pose proof (concat_pos C'). assert (0 < len (concat (c2 :: cs))) by (apply H0; easy). lia. }
      assert ((fs <? len packet - off) = match cs with [] => false | _ => true end) as FM.
      { destruct cs as [|c2 cs]; [apply Z.ltb_ge; cbn in LS'; lia|]. apply Z.ltb_lt. rewrite Ln in LS' by easy. destruct C' as (_ & C' & _).
        pose proof (concat_pos C'). assert (0 < len (concat (c2 :: cs))) by (apply H; easy). lia. }
      rewrite frag_msg_ok; try lia. rewrite FL, FM.
      assert (slice packet off (len c) = c) as SC.
      { assert (firstn (Z.to_nat (len packet - off)) (skipn (Z.to_nat off) packet) = c ++ concat cs) as E2 by exact E1.
        unfold slice. transitivity (firstn (Z.to_nat (len c)) (firstn (Z.to_nat (len packet - off)) (skipn (Z.to_nat off) packet))).
        - rewrite firstn_firstn. f_equal. pose proof (len_nonneg (concat cs)). lia.
        - rewrite E2. unfold len. rewrite Nat2Z.id. apply firstn_app_exact. }
      rewrite SC. unfold bind at 1, lift at 1, ret at 1.
      match goal with |- context [ldn (?m ++ ?z) 0 _] => assert (ldn (m ++ z) 0 (len c + sizeof_data_frag) = Val m) as LD end.
      { rewrite ldn_ok; [|lia|unfold sizeof_data_frag; lia|].
        - f_equal. apply slice_app_l. unfold fragment_message. rewrite len_cons, !len_app, !len_be16. unfold sizeof_data_frag. lia.
        - rewrite len_app. unfold fragment_message. rewrite len_cons, !len_app, !len_be16. unfold sizeof_data_frag.
          match goal with |- context [len (zeros ?z)] => pose proof (len_nonneg (zeros z)) end. lia. }
      rewrite LD. unfold bind at 1, lift at 1, ret at 1. unfold bind at 1.
      destruct (send_message E hk _ w) as [rc1 w1|] eqn:Sd; [|discriminate].
      pose proof (send_sent Sd) as D1. pose proof (send_conn Sd) as Q1. destruct (send_wrote Sd) as (r & err & D2 & R1). cbn [fragments].
      destruct (Z.eqb_spec rc1 HE_SUCCESS) as [->|Nrc]; cbn [negb].
      * intros L.
        assert (u16 (off + len c) = off + len c) as U by (apply Z.mod_small; pose proof (len_nonneg (concat cs)); lia).
        rewrite U in L. replace (len packet - off - len c) with (len packet - (off + len c)) in L by lia.
        destruct (IH cs (off + len c) w1 rc w') as (l & K1 & K2 & K3 & K4); auto; try lia.
        -- replace (slice packet (off + len c) (len packet - (off + len c))) with (concat cs); [exact C'|].
           assert (skipn (Z.to_nat off) packet = c ++ concat cs) as E2.
           { rewrite <- E1. unfold slice. rewrite firstn_all2; [reflexivity|]. rewrite skipn_length. unfold len. lia. }
           unfold slice. rewrite Z2Nat.inj_add by lia. rewrite (Nat.add_comm (Z.to_nat off)), <- skipn_skipn. rewrite E2.
           replace (Z.to_nat (len c)) with (length c) by (unfold len; lia). rewrite skipn_app_exact.
           rewrite firstn_all2; [reflexivity|]. unfold len in *. lia.
        -- pose proof (len_nonneg (concat cs)). lia.
        -- eexists (_ :: l). split; [exact (during_trans D2 K1)|]. split; [exact (during_trans D1 K2)|]. split; [|exact (quiet_trans Q1 K4)].
           cbn [writes]. split; [reflexivity|]. rewrite <- R1. exact K3.
      * intros [= <- <-]. eexists [_]. split; [exact D2|]. split; [exact D1|]. split; [|exact Q1]. cbn [writes]. split; [reflexivity|].
        rewrite <- R1. destruct (Z.eqb_spec rc1 HE_SUCCESS); easy.
Qed.

(** The whole call. *)
Lemma effective_path c : cok c -> effective_pmtu c = path_mtu c /\ 504 <= path_mtu c <= 1416.
Proof.
  intros K. pose proof (ok_eff K) as R. change MAX_PLPMTU with 1416 in R. unfold effective_pmtu, path_mtu. change HE_MAX_MTU with 1350.
  destruct (Z.eqb_spec (pm_eff (c_pm c)) 0); destruct (Z.eqb_spec (pm_state (c_pm c)) HE_PMTUD_STATE_SEARCH_COMPLETE); cbn [negb orb andb]; lia.
Qed.
Lemma padded_size_ok pad n : data_packet_length pad n = padded_size pad n.
Proof. reflexivity. Qed.
Lemma padded_size_bounds pad n : 0 <= n <= 1497 -> n <= padded_size pad n <= 1497.
Proof.
  intros H. unfold padded_size. repeat match goal with |- context [if ?a <=? ?b then _ else _] => destruct (Z.leb_spec a b) | |- context [if ?b then _ else _] => destruct b end; lia.
Qed.
Definition frag_unit (c : conn) : Z := 8 * ((path_mtu c - 4) / 8).
Lemma inside_seq p w rc w' :
  bytes_ok p -> cok (w_c w) -> c_in_chain (w_c w) = [] -> 115 <= c_mtu (w_c w) ->
  inside_packet_received E hk p w = Done rc w' ->
  match refusal (w_c w) p with
  | Some code => rc = code /\ w' = w
  | None =>
    exists p', mss_clamped (path_mtu (w_c w) - 40) p p' /\ bytes_ok p' /\ ipv4_packet p' = true /\
    if must_cut (w_c w) p then
      frag_loop E hk (Z.to_nat (len p')) p' (c_frag_next (w_c w)) 0 (len p') (frag_unit (w_c w))
        (World (set_frag_next (u16 (c_frag_next (w_c w) + 1)) (w_c w)) (w_t w)) = Done rc w'
    else
      send_message E hk (data_message (e_le E) (c_vmaj (w_c w)) (c_vmin (w_c w)) p'
                           (padded_size (c_padding (w_c w)) (len p) - len p)) w = Done rc w'
  end.
Proof.
  intros B K Ch Hm. unfold inside_packet_received. unfold bind at 1, get at 1. unfold refusal.
  destruct (effective_path K) as [Eff R]. pose proof (ok_mtu K) as Mr. rewrite Eff, Ch.
  destruct (negb (c_state (w_c w) =? HE_STATE_ONLINE)); [intros [= <- <-]; auto|]. change HE_IPV4_HEADER_SIZE with 20.
  destruct (Z.ltb_spec (len p) 20) as [|L20]; [intros [= <- <-]; auto|].
  assert (u64 (c_mtu (w_c w) - HE_PACKET_OVERHEAD) = c_mtu (w_c w) - 114) as -> by (apply Z.mod_small; change HE_PACKET_OVERHEAD with 114; lia).
  destruct (Z.ltb_spec (c_mtu (w_c w) - 114) (len p)) as [|Lm]; [intros [= <- <-]; auto|].
  rewrite ipv4_valid. unfold bind at 1, lift at 1, ret at 1.
  assert (ipv4_packet p = (ip_version p =? 4)) as IV by (unfold ipv4_packet; destruct (Z.leb_spec 20 (len p)); [reflexivity|lia]).
  rewrite IV. destruct (negb (ip_version p =? 4)) eqn:V4; [intros [= <- <-]; auto|]. apply negb_false_iff in V4.
  change HE_MSS_OVERHEAD with 40.
  assert (u16 (path_mtu (w_c w) - 40) = path_mtu (w_c w) - 40) as -> by (apply Z.mod_small; lia).
  destruct (clamp_total (e_le E) B (mss := path_mtu (w_c w) - 40)) as (rc1 & p' & C & L' & B'); [lia|].
  assert (0 <= path_mtu (w_c w) - 40 < 65536) as Hmss by lia. pose proof (clamp_rc (e_le E) B Hmss C) as Crc.
  rewrite C. unfold bind at 1, lift at 1, ret at 1.
  destruct (Z.ltb_spec (path_mtu (w_c w) - 40) 512) as [Small|Big].
  { destruct (Z.eqb_spec rc1 HE_SUCCESS) as [->|N]; [exfalso; destruct Crc as [X _]; specialize (X eq_refl); lia|]. cbn [negb].
    intros [= <- <-]. split; [|reflexivity]. unfold clamp_mss in C. destruct (len p =? 0) eqn:Z0; [apply Z.eqb_eq in Z0; lia|].
    change MIN_PLPMTU with 512 in C. destruct (Z.ltb_spec (path_mtu (w_c w) - 40) 512); [|lia]. cbn [orb] in C. now injection C as <- _. }
  assert (rc1 = HE_SUCCESS) as -> by (apply Crc; apply Z.eqb_eq in V4; lia). cbn [negb Z.eqb HE_SUCCESS].
  assert (512 <= path_mtu (w_c w) - 40 <= 1500) as Hmss2 by lia.
  destruct (clamp_clamped B Hmss2 C) as (MC & _ & IP).
  cbn [plugin_ingress]. unfold bind at 1, ret at 1. cbn [negb Z.eqb HE_ERR_PLUGIN_DROP].
  change (HE_SUCCESS =? HE_ERR_PLUGIN_DROP) with false. change (negb (HE_SUCCESS =? HE_SUCCESS)) with false. cbv iota.
  rewrite L'. destruct (Z.ltb_spec (c_mtu (w_c w) - 114) (len p)); [lia|].
  assert (should_fragment (c_ctype (w_c w)) (path_mtu (w_c w)) (len p) = must_cut (w_c w) p) as ->.
  { unfold should_fragment, must_cut, u16. now rewrite (Z.mod_small (len p)) by lia. }
  change HE_MAX_WIRE_MTU with 1500 at 1. change sizeof_data with 3 at 1.
  destruct (must_cut (w_c w) p) eqn:MCut; cbn [negb andb].
  - assert (ipv4_packet p' = true) as IP' by (apply IP; congruence). intros F. exists p'. split; [exact MC|]. split; [exact B'|]. split; [exact IP'|].
    unfold frag_and_send in F. assert (u16 (len p') = len p') as U0 by (apply Z.mod_small; lia). rewrite !U0 in F.
    assert (u16 (path_mtu (w_c w) + sizeof_data - sizeof_data_frag) = path_mtu (w_c w) - 4) as U.
    { unfold sizeof_data, sizeof_data_frag. unfold u16. rewrite Z.mod_small; lia. }
    rewrite U in F. fold (frag_unit (w_c w)) in F. unfold must_cut in MCut. apply andb_true_iff in MCut as [_ MCut]. apply Z.ltb_lt in MCut.
    assert (frag_unit (w_c w) <= path_mtu (w_c w) - 4) as FU by (unfold frag_unit; pose proof (Z.mul_div_le (path_mtu (w_c w) - 4) 8); lia).
    destruct (Z.leb_spec (len p') (frag_unit (w_c w))); [lia|]. exact F.
  - destruct (Z.ltb_spec 1500 (len p + 3)); destruct (Z.ltb_spec 1497 (len p)); try lia; [intros [= <- <-]; auto|].
    rewrite padded_size_ok. rewrite build_data_ok by (change HE_MAX_WIRE_MTU with 1500; lia).
    pose proof (len_nonneg p). pose proof (@padded_size_bounds (c_padding (w_c w)) (len p)).
    unfold bind at 1, lift at 1, ret at 1. intros F. exists p'. split; [exact MC|]. split; [exact B'|]. split; [apply IP; congruence|].
    revert F. rewrite ldn_ok.
    + unfold bind at 1, lift at 1, ret at 1.
      match goal with |- send_message _ _ ?a _ = _ -> send_message _ _ ?b _ = _ => assert (a = b) as -> end; [|auto].
      unfold data_message. cbn [app]. rewrite zeros_0, app_nil_r, <- app_assoc.
      rewrite (@zeros_split (padded_size (c_padding (w_c w)) (len p) - len p) (HE_MAX_WIRE_MTU - 3 - len p')) by (change HE_MAX_WIRE_MTU with 1500; lia).
      match goal with |- slice (?h :: ?x ++ ?y ++ ?z1 ++ ?z2) _ _ = _ => change (h :: x ++ y ++ z1 ++ z2) with ((h :: x) ++ y ++ z1 ++ z2) end.
      rewrite !app_assoc. rewrite slice_app_l; [cbn [app]; now rewrite <- !app_assoc|].
      rewrite !len_app, len_cons, len_zeros by lia. unfold data_length_field.
      destruct (_ && _); [rewrite len_bytes16|rewrite len_be16]; unfold sizeof_data; lia.
    + lia.
    + unfold sizeof_data. lia.
    + rewrite !len_app, len_zeros by (change HE_MAX_WIRE_MTU with 1500; lia). unfold data_message. rewrite len_cons, !len_app, zeros_0, len_nil. unfold sizeof_data.
      unfold data_length_field. change HE_MAX_WIRE_MTU with 1500. destruct (_ && _); [rewrite len_bytes16|rewrite len_be16]; lia.
Qed.
End S.
