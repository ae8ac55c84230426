(** Proofs about [Mss.v] against [MssSpec.v]. *)
From Verif Require Import Base Codes Mss MssSpec.

Lemma byte_at_ok p i : bytes_ok p -> 0 <= byte_at p i < 256.
Proof. intros H; exact (bytes_ok_nth (Z.to_nat i) H). Qed.

Lemma ld8_byte_at p i : 0 <= i < len p -> ld8 p i = Val (byte_at p i).
Proof. intros; now rewrite ld8_ok. Qed.

Lemma ldh16_be le p i :
  bytes_ok p -> 0 <= i -> i + 2 <= len p ->
  exists h, ldh16 le p i = Val h /\ 0 <= h < 65536 /\ ntohs le h = be16_at p i
            /\ h = htons le (be16_at p i).
Proof.
  intros Hb H1 H2. rewrite ldh16_ok by lia. eexists; split; [reflexivity|].
  pose proof (bytes_ok_nth (Z.to_nat i) Hb) as B0.
  pose proof (bytes_ok_nth (Z.to_nat i + 1) Hb) as B1.
  unfold be16_at, byte_at. replace (Z.to_nat (i + 1)) with (Z.to_nat i + 1)%nat by lia.
  split; [now apply host16_range|]. split; [now rewrite ntohs_host16|].
  rewrite <- (ntohs_host16 le B0 B1).
  unfold byte_ok in *. unfold htons.
  pose proof (host16_range le B0 B1).
  destruct le; cbn [ntohs]; auto. unfold swap16. divmod; lia.
Qed.

(** Store of a 16-bit field. *)
Definition upd16 (p : bytes) (i x : Z) : bytes :=
  firstn (Z.to_nat i) p ++ [x / 256; x mod 256] ++ skipn (Z.to_nat (i + 2)) p.

Lemma sth16_upd le p i x :
  0 <= x < 65536 -> 0 <= i -> i + 2 <= len p ->
  sth16 le p i (htons le x) = Val (upd16 p i x).
Proof.
  intros Hx Hi Hl. unfold sth16. rewrite bytes16_htons by lia.
  rewrite stn_ok; [|lia|rewrite !len_cons, len_nil; lia].
  unfold upd16. rewrite !len_cons, len_nil. reflexivity.
Qed.

Lemma len_upd16 p i x : 0 <= i -> i + 2 <= len p -> len (upd16 p i x) = len p.
Proof.
  intros; unfold upd16. rewrite !len_app, len_firstn, len_skipn, !len_cons, len_nil. lia.
Qed.
Lemma bytes_ok_upd16 p i x :
  bytes_ok p -> 0 <= x < 65536 -> bytes_ok (upd16 p i x).
Proof.
  intros; unfold upd16. apply bytes_ok_app; [now apply bytes_ok_firstn|].
  apply bytes_ok_app; [|now apply bytes_ok_skipn].
  repeat constructor; divmod; lia.
Qed.

Lemma nth_firstn_lt {A} (l : list A) d k i : (i < k)%nat -> nth i (firstn k l) d = nth i l d.
Proof.
  revert l i; induction k as [|k IH]; intros l i H; [lia|].
  destruct l as [|x l]; [destruct i; reflexivity|].
  destruct i as [|i]; simpl; auto. apply IH; lia.
Qed.
Lemma nth_skipn_add {A} (l : list A) d k i : nth i (skipn k l) d = nth (k + i) l d.
Proof.
  revert l; induction k as [|k IH]; intros l; simpl; auto.
  destruct l; simpl; auto. now destruct i.
Qed.

Lemma byte_at_upd16 p i x j :
  0 <= i -> i + 2 <= len p -> 0 <= j ->
  byte_at (upd16 p i x) j =
    if j =? i then x / 256 else if j =? i + 1 then x mod 256 else byte_at p j.
Proof.
  intros Hi Hl Hj. unfold byte_at, upd16.
  assert (length (firstn (Z.to_nat i) p) = Z.to_nat i) as Lf.
  { rewrite firstn_length. unfold len in Hl. lia. }
  destruct (j =? i) eqn:E1; [|destruct (j =? i + 1) eqn:E2].
  - rewrite app_nth2 by lia. rewrite Lf.
    replace (Z.to_nat j - Z.to_nat i)%nat with 0%nat by lia. reflexivity.
  - rewrite app_nth2 by lia. rewrite Lf.
    replace (Z.to_nat j - Z.to_nat i)%nat with 1%nat by lia. reflexivity.
  - destruct (Z_lt_le_dec j i).
    + rewrite app_nth1 by lia. apply nth_firstn_lt. lia.
    + rewrite app_nth2 by lia. rewrite Lf.
      replace (Z.to_nat j - Z.to_nat i)%nat with (2 + (Z.to_nat j - Z.to_nat i - 2))%nat by lia.
      cbn [app nth plus]. rewrite nth_skipn_add. f_equal. lia.
Qed.

Lemma be16_at_upd16_same p i x :
  0 <= i -> i + 2 <= len p -> 0 <= x < 65536 -> be16_at (upd16 p i x) i = x.
Proof.
  intros; unfold be16_at. rewrite !byte_at_upd16 by lia.
  replace (i =? i) with true by lia. replace (i + 1 =? i) with false by lia.
  replace (i + 1 =? i + 1) with true by lia. divmod; lia.
Qed.
Lemma be16_at_range p i : bytes_ok p -> 0 <= be16_at p i < 65536.
Proof.
  intros H; unfold be16_at. pose proof (byte_at_ok i H); pose proof (byte_at_ok (i+1) H). lia.
Qed.

(** ** The differential checksum is RFC 1624: congruence modulo 65535. *)

Lemma differential_checksum_range ck n o :
  0 <= ck < 65536 -> 0 <= n < 65536 -> 0 <= o < 65536 ->
  0 <= differential_checksum ck [n] [o] < 65536 /\
  exists q, differential_checksum ck [n] [o] = ck - n + o + 65535 * q.
Proof.
  intros Hc Hn Ho; unfold differential_checksum, diff_fold, u16; cbn [diff_acc].
  destruct (ck - n + o <? 0) eqn:E.
  - assert ((- (ck - n + o)) / 65536 = 0) as E1 by (divmod; lia).
    assert ((- (ck - n + o)) mod 65536 = - (ck - n + o)) as E2 by (divmod; lia).
    rewrite E1, E2. replace (0 + - (ck - n + o)) with (- (ck - n + o)) by lia.
    rewrite E1. rewrite Z.add_0_r.
    split; [apply Z.mod_pos_bound; lia|].
    exists 1. rewrite <- (Z.mod_small (ck - n + o + 65535 * 1) 65536) by lia.
    replace (ck - n + o + 65535 * 1) with (- - (ck - n + o) - 1 + 1 * 65536) by lia.
    now rewrite Z_mod_plus_full.
  - set (a := ck - n + o) in *.
    assert (0 <= a / 65536 <= 1) by (divmod; lia).
    assert ((a / 65536 + a mod 65536) / 65536 = 0) as -> by (divmod; lia).
    rewrite Z.add_0_r. split; [apply Z.mod_pos_bound; lia|].
    exists (- (a / 65536)). rewrite Z.mod_small by (divmod; lia). divmod; lia.
Qed.

(** In big-endian terms: whatever the host order. *)
Lemma swap16_mod x : 0 <= x < 65536 -> exists q, swap16 x = 256 * x + 65535 * q.
Proof. intros; unfold swap16; exists (- (x / 256)). divmod; lia. Qed.

Definition new_checksum (le : bool) (ck new old : Z) : Z :=
  ntohs le (differential_checksum (htons le ck) [htons le new] [htons le old]).

Lemma htons_ntohs le v : 0 <= v < 65536 -> htons le (ntohs le v) = v.
Proof. intros; now apply (ntohs_htons le). Qed.

Lemma new_checksum_spec le ck new old :
  0 <= ck < 65536 -> 0 <= new < 65536 -> 0 <= old < 65536 ->
  0 <= new_checksum le ck new old < 65536 /\
  (new_checksum le ck new old + new - (ck + old)) mod 65535 = 0.
Proof.
  intros Hc Hn Ho; unfold new_checksum.
  pose proof (ntohs_range le Hc) as Rc. pose proof (ntohs_range le Hn) as Rn.
  pose proof (ntohs_range le Ho) as Ro.
  destruct (differential_checksum_range (ck:=htons le ck) (n:=htons le new) (o:=htons le old))
    as [R [q E]]; try assumption.
  split; [now apply ntohs_range|].
  set (D := differential_checksum _ _ _) in *.
  unfold htons in *. destruct le; cbn [ntohs] in *.
  - destruct (swap16_mod R) as [qd Ed]; destruct (swap16_mod Hc) as [qc Ec];
    destruct (swap16_mod Hn) as [qn En]; destruct (swap16_mod Ho) as [qo Eo].
    rewrite Ed, E, Ec, En, Eo.
    match goal with |- ?x mod _ = 0 =>
      replace x with ((ck - new + old + 256 * qc - 256 * qn + 256 * qo + 256 * q + qd) * 65535)
        by lia end.
    apply Z_mod_mult.
  - rewrite E. match goal with |- ?x mod _ = 0 => replace x with (q * 65535) by lia end.
    apply Z_mod_mult.
Qed.

(** ** The option loop *)

Lemma opt_at_ge p i e k : opt_at p i e k -> i <= k /\ 4 <= e - k.
Proof. induction 1; lia. Qed.

(** the walk is deterministic: the MSS option it reaches is unique *)
Lemma opt_at_mss_unique p i e k1 k2 :
  opt_at p i e k1 -> opt_at p i e k2 ->
  byte_at p k1 = 2 -> byte_at p k2 = 2 -> k1 = k2.
Proof.
  intros H; revert k2; induction H as [i e L|i e k L B1 H IH|i e k L B0 B1 B2 BS H IH];
    intros k2 H2 E1 E2.
  - inversion H2; subst; auto; congruence.
  - inversion H2; subst; try congruence. now apply IH.
  - inversion H2; subst; try congruence. now apply IH.
Qed.

(** The packet with the MSS lowered. *)
Definition clamped (le : bool) (p : bytes) (tcp v mss : Z) : bytes :=
  upd16 (upd16 p v mss) (tcp + 16)
        (new_checksum le (be16_at p (tcp + 16)) mss (be16_at p v)).

Lemma clamp_loop_spec le fuel p tcp off olen mss :
  bytes_ok p -> 0 <= tcp -> tcp + 20 <= off -> off + Z.max 0 olen <= len p ->
  0 <= mss < 65536 -> (Z.to_nat olen <= fuel)%nat ->
  (clamp_loop le fuel p tcp off olen mss = Val p /\
   forall k, opt_at p off (off + olen) k -> byte_at p k = 2 -> byte_at p (k + 1) = 4 ->
             be16_at p (k + 2) <= mss) \/
  (exists k, opt_at p off (off + olen) k /\ byte_at p k = 2 /\ byte_at p (k + 1) = 4 /\
             mss < be16_at p (k + 2) /\
             clamp_loop le fuel p tcp off olen mss = Val (clamped le p tcp (k + 2) mss)).
Proof.
  intros Hb Ht Hoff Hlen Hm. revert off olen Hoff Hlen.
  induction fuel as [|fuel IH]; intros off olen Hoff Hlen Hf.
  - left; cbn [clamp_loop]. unfold HE_TCP_MSS_OPT_SIZE.
    destruct (olen <? 4) eqn:E; [|lia]. split; auto.
    intros k H; apply opt_at_ge in H; lia.
  - cbn [clamp_loop]. unfold HE_TCP_MSS_OPT_SIZE, HE_TCP_OPT_END, HE_TCP_OPT_NOP, HE_TCP_OPT_MSS.
    destruct (olen <? 4) eqn:E.
    { left; split; auto. intros k H; apply opt_at_ge in H; lia. }
    rewrite ld8_byte_at by lia. cbn [rbind].
    destruct (byte_at p off =? 0) eqn:E0.
    { left; split; auto. intros k H; inversion H; subst; lia. }
    destruct (byte_at p off =? 1) eqn:E1.
    { destruct (IH (off + 1) (olen - 1)) as [[-> H]|[k [Ho [K1 [K2 [K3 ->]]]]]]; try lia.
      - left; split; auto. intros k Hk K1 K2.
        inversion Hk; subst; try lia.
        apply H; auto. now replace (off + 1 + (olen - 1)) with (off + olen) by lia.
      - right; exists k; repeat split; auto.
        apply opt_nop; try lia.
        now replace (off + 1 + (olen - 1)) with (off + olen) in Ho by lia. }
    rewrite ld8_byte_at by lia. cbn [rbind].
    destruct (byte_at p off =? 2) eqn:E2.
    { destruct (byte_at p (off + 1) =? 4) eqn:E4; cbn [negb].
      - unfold sizeof_tcp_option.
        destruct (ldh16_be le Hb (i:=off + 2)) as [h [-> [Rh [Nh Hh]]]]; try lia.
        cbn [rbind]. rewrite Nh. destruct (be16_at p (off + 2) <=? mss) eqn:EM.
        + left; split; auto. intros k Hk K1 K2.
          assert (k = off) as ->. { inversion Hk; subst; auto; lia. }
          lia.
        + right; exists off. assert (opt_at p off (off + olen) off) by (constructor; lia).
          repeat split; auto; try lia.
          rewrite sth16_upd by lia. cbn [rbind].
          assert (Hb1 : bytes_ok (upd16 p (off + 2) mss)) by now apply bytes_ok_upd16.
          assert (L1 : len (upd16 p (off + 2) mss) = len p) by (apply len_upd16; lia).
          unfold tcp_off_checksum.
          destruct (ldh16_be le Hb1 (i:=tcp + 16)) as [c [-> [Rc [Nc Hc]]]]; try lia.
          cbn [rbind].
          assert (be16_at (upd16 p (off + 2) mss) (tcp + 16) = be16_at p (tcp + 16)) as EQ.
          { unfold be16_at. rewrite !byte_at_upd16 by lia.
            repeat match goal with |- context [if ?b then _ else _] =>
                     replace b with false by lia end. reflexivity. }
          rewrite EQ in Hc. rewrite Hc, Hh. unfold clamped.
          pose proof (be16_at_range (tcp + 16) Hb).
          pose proof (be16_at_range (off + 2) Hb).
          destruct (new_checksum_spec le (ck:=be16_at p (tcp+16)) (new:=mss)
                      (old:=be16_at p (off+2))) as [RN _]; auto.
          rewrite <- sth16_upd with (le:=le); try lia.
          unfold new_checksum. f_equal. symmetry; apply htons_ntohs.
          apply differential_checksum_range; apply ntohs_range; auto.
      - left; split; auto. intros k Hk K1 K2.
        assert (k = off) as ->. { inversion Hk; subst; auto; lia. }
        lia. }
    destruct ((0 <? byte_at p (off + 1)) && (byte_at p (off + 1) <=? olen)) eqn:ES.
    { set (s := byte_at p (off + 1)) in *.
      destruct (IH (off + s) (olen - s)) as [[-> H]|[k [Ho [K1 [K2 [K3 ->]]]]]]; try lia.
      - left; split; auto. intros k Hk K1 K2.
        inversion Hk; subst; try lia.
        apply H; auto. now replace (off + s + (olen - s)) with (off + olen) by lia.
      - right; exists k; repeat split; auto.
        apply opt_other; try lia. fold s.
        now replace (off + s + (olen - s)) with (off + olen) in Ho by lia. }
    left; split; auto. intros k Hk K1 K2.
    inversion Hk; subst; lia.
Qed.

(** ** he_internal_clamp_mss *)

Lemma frag_bits_land x :
  0 <= x < 65536 ->
  Z.land x 40959 = 32768 * (x / 32768) + x mod 8192.
Proof.
  intros Hx.
  assert (forallb (fun n => let x := Z.of_nat n in
     Z.land x 40959 =? 32768 * (x / 32768) + x mod 8192) (seq 0 0) = true) as _ by reflexivity.
  change 40959 with (Z.lor (Z.shiftl 1 15) (Z.ones 13)).
  rewrite Z.land_lor_distr_r, Z.land_ones by lia.
  assert (Z.land x (Z.shiftl 1 15) = 32768 * (x / 32768)) as ->.
  { assert (x = Z.shiftl (x / 32768) 15 + x mod 32768) as Hd
      by (rewrite Z.shiftl_mul_pow2 by lia; change (2^15) with 32768; divmod; lia).
    apply Z.bits_inj'; intros n Hn.
    rewrite Z.land_spec, Z.shiftl_spec by lia.
    replace (32768 * (x / 32768)) with (Z.shiftl (x / 32768) 15)
      by (rewrite Z.shiftl_mul_pow2 by lia; change (2^15) with 32768; lia).
    rewrite Z.shiftl_spec by lia.
    destruct (Z_lt_le_dec n 15) as [L|L].
    - rewrite (Z.testbit_neg_r 1) by lia. rewrite (Z.testbit_neg_r (x/32768)) by lia.
      apply andb_false_r.
    - change (x / 32768) with (x / 2 ^ 15). rewrite Z.div_pow2_bits by lia.
      replace (n - 15 + 15) with n by lia.
      destruct (Z.eq_dec n 15) as [->|N].
      + apply andb_true_r.
      + replace (Z.testbit 1 (n - 15)) with false.
        * rewrite andb_false_r. symmetry.
          apply Z.bits_above_log2; try lia.
          destruct (Z.eq_dec x 0) as [->|]; [simpl; lia|].
          assert (Z.log2 x < 16) by (apply Z.log2_lt_pow2; simpl; lia). lia.
        * symmetry. apply (Z.bits_above_log2 1); simpl; lia. }
  symmetry. rewrite <- Z.lxor_lor; [|].
  - rewrite <- Z.add_nocarry_lxor; [reflexivity|].
    apply Z.bits_inj'; intros n Hn. rewrite Z.land_spec, Z.bits_0.
    destruct (Z_lt_le_dec n 15) as [L|L].
    + replace (32768 * (x / 32768)) with ((x / 32768) * 2 ^ 15) by (change (2^15) with 32768; lia).
      rewrite Z.mul_pow2_bits_low by lia. reflexivity.
    + change (x mod 8192) with (x mod 2 ^ 13). rewrite Z.mod_pow2_bits_high by lia.
      apply andb_false_r.
  - apply Z.bits_inj'; intros n Hn. rewrite Z.land_spec, Z.bits_0.
    destruct (Z_lt_le_dec n 15) as [L|L].
    + replace (32768 * (x / 32768)) with ((x / 32768) * 2 ^ 15) by (change (2^15) with 32768; lia).
      rewrite Z.mul_pow2_bits_low by lia. reflexivity.
    + rewrite Z.mod_pow2_bits_high by lia. apply andb_false_r.
Qed.

Lemma land_2_testbit x : (Z.land x 2 =? 0) = negb (Z.testbit x 1).
Proof.
  change 2 with (Z.shiftl 1 1).
  destruct (Z.testbit x 1) eqn:E; cbn [negb].
  - apply Z.eqb_neq; intros H.
    assert (Z.testbit (Z.land x (Z.shiftl 1 1)) 1 = true) as T
      by (rewrite Z.land_spec, E; reflexivity).
    rewrite H in T; discriminate.
  - apply Z.eqb_eq. apply Z.bits_inj'; intros n Hn.
    rewrite Z.land_spec, Z.bits_0, Z.shiftl_spec by lia.
    destruct (Z.eq_dec n 1) as [->|N]; [rewrite E; reflexivity|].
    destruct (Z.eq_dec n 0) as [->|N0]; [apply andb_false_r|].
    replace (Z.testbit 1 (n - 1)) with false; [apply andb_false_r|].
    symmetry; apply (Z.bits_above_log2 1); simpl; lia.
Qed.

(** Complete characterisation of the function. *)
Lemma clamp_mss_spec le p mss :
  bytes_ok p -> 0 <= mss < 65536 ->
  (exists rc, clamp_mss le p mss = Val (rc, p) /\
     (rc = HE_SUCCESS -> 512 <= mss <= 1500 /\ 20 <= len p /\ ip_version p = 4 /\
        forall v, mss_value_at p v -> be16_at p v <= mss)) \/
  (512 <= mss <= 1500 /\ exists v, mss_value_at p v /\ mss < be16_at p v /\
     clamp_mss le p mss = Val (HE_SUCCESS, clamped le p (ip_hlen p) v mss)).
Proof.
  intros Hb Hm. unfold clamp_mss.
  change MIN_PLPMTU with 512. change HE_MAX_WIRE_MTU with 1500.
  unfold is_ipv4_packet_valid, sizeof_ipv4_header.
  destruct (len p =? 0) eqn:E0; [left; eexists; split; [reflexivity|discriminate]|].
  destruct ((mss <? 512) || (1500 <? mss)) eqn:E1;
    [left; eexists; split; [reflexivity|discriminate]|].
  destruct (len p <? 20) eqn:E2; cbn [rbind negb];
    [left; eexists; split; [reflexivity|discriminate]|].
  rewrite (@ld8_byte_at p 0) by lia. cbn [rbind].
  destruct (byte_at p 0 / 16 =? 4) eqn:E3; cbn [negb];
    [|left; eexists; split; [reflexivity|discriminate]].
  assert (ip_version p = 4) as Hv by (unfold ip_version; lia).
  unfold ip_off_protocol. rewrite ld8_byte_at by lia. cbn [rbind].
  assert (forall (P : Prop), (forall v, mss_value_at p v -> P -> False) -> P ->
    exists rc, Val (HE_SUCCESS, p) = Val (rc, p) /\
     (rc = HE_SUCCESS -> 512 <= mss <= 1500 /\ 20 <= len p /\ ip_version p = 4 /\
        forall v, mss_value_at p v -> be16_at p v <= mss)) as Skip.
  { intros P HP Hp; eexists; split; [reflexivity|]. intros _.
    split; [lia|]. split; [lia|]. split; [exact Hv|].
    intros v Hv'; exfalso; eapply HP; eauto. }
  unfold HE_IP_TCP. destruct (byte_at p 9 =? 6) eqn:E4; cbn [negb].
  2:{ left; apply (Skip (byte_at p 9 <> 6)); [|lia].
      intros v Hv'; unfold mss_value_at, ip_proto in Hv'; lia. }
  unfold ip_off_flags_fo.
  destruct (ldh16_be le Hb (i:=6)) as [h [-> [Rh [Nh _]]]]; try lia. cbn [rbind]. rewrite Nh.
  change (65535 - (HE_IP_DONT_FRAGMENT + HE_IP_MORE_FRAGMENTS)) with 40959.
  rewrite frag_bits_land by (apply be16_at_range; auto).
  change (32768 * (be16_at p 6 / 32768) + be16_at p 6 mod 8192) with (ip_frag_bits p).
  unfold HE_IP_NO_FRAG_OFFSET.
  destruct (ip_frag_bits p =? 0) eqn:E5; cbn [negb].
  2:{ left; apply (Skip (ip_frag_bits p <> 0)); [|lia].
      intros v Hv'; unfold mss_value_at in Hv'; lia. }
  change (4 * (byte_at p 0 mod 16)) with (ip_hlen p).
  assert (0 <= ip_hlen p <= 60) as Hih by (unfold ip_hlen; divmod; lia).
  unfold sizeof_tcp_header.
  destruct (len p <? ip_hlen p + 20) eqn:E6.
  { left; apply (Skip (len p < ip_hlen p + 20)); [|lia].
    intros v Hv'; unfold mss_value_at in Hv'; lia. }
  unfold tcp_off_flags, tcp_off_data_offset.
  rewrite ld8_byte_at by lia. cbn [rbind].
  unfold HE_TCP_SYN. rewrite land_2_testbit.
  destruct (Z.testbit (byte_at p (ip_hlen p + 13)) 1) eqn:E7; cbn [negb].
  2:{ left; apply (Skip (Z.testbit (byte_at p (ip_hlen p + 13)) 1 = false)); [|exact E7].
      intros v Hv' F; unfold mss_value_at, tcp_syn in Hv'. destruct Hv' as (_&_&_&_&_&T&_).
      congruence. }
  rewrite ld8_byte_at by lia. cbn [rbind].
  change (4 * (byte_at p (ip_hlen p + 12) / 16)) with (tcp_hlen p).
  pose proof (byte_at_ok (ip_hlen p + 12) Hb) as B12.
  assert (0 <= tcp_hlen p <= 60) as Hth by (unfold tcp_hlen; divmod; lia).
  destruct (len p <? ip_hlen p + tcp_hlen p) eqn:E8.
  { left; apply (Skip (len p < ip_hlen p + tcp_hlen p)); [|lia].
    intros v Hv'; unfold mss_value_at in Hv'; lia. }
  set (F := Z.to_nat (tcp_hlen p - 20)).
  destruct (@clamp_loop_spec le F p (ip_hlen p) (ip_hlen p + 20)
              (tcp_hlen p - 20) mss) as [[-> H]|[k [Ho [K1 [K2 [K3 ->]]]]]];
    auto; try lia; cbn [rbind].
  - left; eexists; split; [reflexivity|]. intros _.
    split; [lia|]. split; [lia|]. split; [exact Hv|].
    intros v Hv'. destruct Hv' as (_&_&_&_&_&_&_&O&V1&V2).
    specialize (H (v - 2)).
    replace (ip_hlen p + 20 + (tcp_hlen p - 20)) with (ip_hlen p + tcp_hlen p) in H by lia.
    replace (v - 2 + 1) with (v - 1) in H by lia. replace (v - 2 + 2) with v in H by lia. auto.
  - right. split; [lia|]. exists (k + 2). split; [|split; [lia|reflexivity]].
    replace (ip_hlen p + 20 + (tcp_hlen p - 20)) with (ip_hlen p + tcp_hlen p) in Ho by lia.
    unfold mss_value_at, tcp_syn. replace (k + 2 - 2) with k by lia.
    replace (k + 2 - 1) with (k + 1) by lia.
    unfold ip_proto. repeat split; auto; lia.
Qed.

Lemma mss_value_at_unique p v1 v2 : mss_value_at p v1 -> mss_value_at p v2 -> v1 = v2.
Proof.
  intros (_&_&_&_&_&_&_&O1&A1&_) (_&_&_&_&_&_&_&O2&A2&_).
  pose proof (opt_at_mss_unique O1 O2 A1 A2). lia.
Qed.

(** ** Checksum validity *)

Definition wsum (ws : list Z) : Z := fold_right Z.add 0 ws.

Lemma ones_sum_acc ws a :
  Forall (fun w => 0 <= w < 65536) ws -> 0 <= a < 65536 ->
  0 <= fold_left oc_add ws a < 65536 /\
  (exists q, fold_left oc_add ws a = a + wsum ws - 65535 * q) /\
  (fold_left oc_add ws a = 0 -> a = 0 /\ wsum ws = 0).
Proof.
  intros H; revert a; induction H as [|w ws Hw _ IH]; intros a Ha.
  - cbn [fold_left wsum fold_right]. split; auto. split; [exists 0; lia|auto].
  - cbn [fold_left]. change (wsum (w :: ws)) with (w + wsum ws).
    assert (0 <= oc_add a w < 65536) as R
      by (unfold oc_add; destruct (65536 <=? a + w) eqn:E; lia).
    destruct (IH _ R) as [R1 [[q E] Z0]]. split; auto.
    split.
    + assert (oc_add a w = a + w - 65535 \/ oc_add a w = a + w) as [O|O]
        by (unfold oc_add; destruct (65536 <=? a + w); auto).
      * exists (q + 1). lia.
      * exists q. lia.
    + intros H0. destruct (Z0 H0) as [O W]. unfold oc_add in O.
      destruct (65536 <=? a + w) eqn:E1; lia.
Qed.

Lemma ones_sum_valid ws :
  Forall (fun w => 0 <= w < 65536) ws ->
  (ones_sum ws = 65535 <-> wsum ws mod 65535 = 0 /\ 0 < wsum ws).
Proof.
  intros H. destruct (ones_sum_acc (a:=0) H) as [R [[q E] Z0]]; [lia|].
  fold (ones_sum ws) in *.
  assert (0 <= wsum ws) as Hp.
  { clear -H. induction H; simpl; [lia|]. unfold wsum in *. lia. }
  split.
  - intros E1. split.
    + replace (wsum ws) with ((q + 1) * 65535) by lia. apply Z_mod_mult.
    + destruct (Z.eq_dec (wsum ws) 0) as [W|]; [|lia].
      exfalso. rewrite W in E. assert (ones_sum ws = 65535 * (- q)) by lia.
      assert (q = -1) by lia. clear - H W E1.
      assert (forall a, 0 <= a < 65536 -> fold_left oc_add ws a = a) as F.
      { induction H as [|w ws Hw Hf IH]; intros a Ha; auto.
        change (wsum (w :: ws)) with (w + wsum ws) in W.
        assert (0 <= wsum ws) by (clear -Hf; induction Hf; simpl; [lia|]; unfold wsum in *; lia).
        assert (w = 0) by lia. cbn [fold_left].
        assert (oc_add a w = a) as ->
          by (unfold oc_add; destruct (65536 <=? a + w) eqn:E; lia).
        apply IH; auto; try lia. change (ones_sum ws = 65535).
        unfold ones_sum in E1 |- *. cbn [fold_left] in E1.
        replace (oc_add 0 w) with 0 in E1 by (subst; reflexivity). exact E1. }
      unfold ones_sum in E1. rewrite F in E1; lia.
  - intros [M P]. apply Z.mod_divide in M; [|lia]. destruct M as [k M].
    assert (ones_sum ws <> 0) by (intros Hz; destruct (Z0 Hz); lia). lia.
Qed.

Lemma words_range l : bytes_ok l -> Forall (fun w => 0 <= w < 65536) (words l).
Proof.
  assert (forall n (l : bytes), (length l <= n)%nat -> bytes_ok l ->
            Forall (fun w => 0 <= w < 65536) (words l)) as G.
  { induction n as [|n IH]; intros [|a [|b t]] L H; cbn [words]; simpl in L; try lia;
      try (constructor; fail).
    - inversion H as [|? ? Ha H']; subst. unfold byte_ok in *. constructor; [lia|constructor].
    - inversion H as [|? ? Ha H']; subst. inversion H' as [|? ? Hb H'']; subst.
      unfold byte_ok in *. constructor; [lia|]. apply IH; auto; lia. }
  apply (G (length l)); auto.
Qed.

Lemma words_app a b : Nat.even (length a) = true -> words (a ++ b) = words a ++ words b.
Proof.
  assert (forall n (a : bytes), (length a <= n)%nat -> Nat.even (length a) = true ->
            words (a ++ b) = words a ++ words b) as G.
  { induction n as [|n IH]; intros [|x [|y t]] L E; simpl in *; auto; try lia; try discriminate.
    f_equal. apply IH; auto; lia. }
  apply (G (length a)); auto.
Qed.
Lemma wsum_app a b : wsum (a ++ b) = wsum a + wsum b.
Proof. induction a; simpl; auto. unfold wsum in *. lia. Qed.

(** replacing one aligned word *)
Lemma wsum_upd16 l i x :
  0 <= i -> i + 2 <= len l -> Z.even i = true ->
  wsum (words (upd16 l i x)) = wsum (words l) - be16_at l i + (256 * (x / 256) + x mod 256).
Proof.
  intros Hi Hl He.
  assert (exists a u w r, l = a ++ u :: w :: r /\ len a = i) as (a & u & w & r & -> & La).
  { exists (firstn (Z.to_nat i) l), (byte_at l i), (byte_at l (i+1)), (skipn (Z.to_nat (i + 2)) l).
    split; [|rewrite len_firstn; lia].
    unfold byte_at. replace (Z.to_nat (i + 1)) with (S (Z.to_nat i)) by lia.
    replace (Z.to_nat (i + 2)) with (S (S (Z.to_nat i))) by lia.
    assert (S (Z.to_nat i) < length l)%nat as HL by (unfold len in Hl; lia).
    revert HL; generalize (Z.to_nat i) as k. clear. intros k; revert l.
    induction k as [|k IH]; intros l HL.
    - destruct l as [|? [|? ?]]; simpl in *; auto; lia.
    - destruct l as [|y l]; simpl in *; [lia|]. f_equal. apply IH; lia. }
  assert (Nat.even (length a) = true) as Ea.
  { unfold len in La. rewrite <- La in He. rewrite Nat.even_spec. apply Z.even_spec in He.
    destruct He as [m Hm]. exists (Z.to_nat m). lia. }
  unfold upd16. replace (Z.to_nat i) with (length a) by (unfold len in La; lia).
  rewrite firstn_app_exact.
  replace (Z.to_nat (i + 2)) with (length (a ++ [u; w]))
    by (rewrite app_length; unfold len in La; cbn [length]; lia).
  replace (a ++ u :: w :: r) with ((a ++ [u; w]) ++ r) by (rewrite <- app_assoc; reflexivity).
  rewrite skipn_app_exact. rewrite <- app_assoc. cbn [app].
  rewrite !words_app by auto. rewrite !wsum_app. cbn [words].
  unfold be16_at, byte_at.
  replace (Z.to_nat i) with (length a) by (unfold len in La; lia).
  replace (Z.to_nat (i + 1)) with (S (length a)) by (unfold len in La; lia).
  rewrite app_nth2, Nat.sub_diag by lia.
  rewrite app_nth2 by lia. replace (S (length a) - length a)%nat with 1%nat by lia.
  cbn [nth]. unfold wsum; cbn [fold_right]. lia.
Qed.

Lemma slice_upd16 p i x o n :
  0 <= o -> o <= i -> i + 2 <= o + n -> o + n <= len p ->
  slice (upd16 p i x) o n = upd16 (slice p o n) (i - o) x.
Proof.
  intros Ho Hi H2 Hl.
  assert (forall (l1 l2 : bytes), length l1 = length l2 ->
            (forall j, 0 <= j -> byte_at l1 j = byte_at l2 j) -> l1 = l2) as Ext.
  { clear. intros l1 l2 L H. apply (nth_ext l1 l2 0 0 L). intros k Hk.
    specialize (H (Z.of_nat k)). unfold byte_at in H. rewrite Nat2Z.id in H. apply H; lia. }
  assert (len (slice p o n) = n) as Ls by (apply len_slice; lia).
  assert (len (upd16 p i x) = len p) as Lu by (apply len_upd16; lia).
  apply Ext.
  - assert (len (slice (upd16 p i x) o n) = n) as A by (apply len_slice; lia).
    assert (len (upd16 (slice p o n) (i - o) x) = n) as B by (rewrite len_upd16; lia).
    unfold len in A, B. lia.
  - intros j Hj. rewrite byte_at_upd16 by lia.
    destruct (Z_lt_le_dec j n) as [L|L].
    + unfold byte_at. rewrite !nth_slice by lia.
      replace (Z.to_nat o + Z.to_nat j)%nat with (Z.to_nat (o + j)) by lia.
      fold (byte_at (upd16 p i x) (o + j)). fold (byte_at p (o + j)).
      rewrite byte_at_upd16 by lia.
      replace (o + j =? i) with (j =? i - o) by lia.
      replace (o + j =? i + 1) with (j =? i - o + 1) by lia. reflexivity.
    + replace (j =? i - o) with false by lia. replace (j =? i - o + 1) with false by lia.
      unfold byte_at.
      assert (len (slice (upd16 p i x) o n) = n) as A by (apply len_slice; lia).
      rewrite !nth_overflow; auto; unfold len in *; lia.
Qed.

Lemma byte_at_clamped le p tcp v mss j :
  bytes_ok p -> 0 <= tcp -> tcp + 20 <= v -> v + 2 <= len p -> 0 <= mss < 65536 -> 0 <= j ->
  j <> v -> j <> v + 1 -> j <> tcp + 16 -> j <> tcp + 17 ->
  byte_at (clamped le p tcp v mss) j = byte_at p j.
Proof.
  intros. unfold clamped. rewrite byte_at_upd16; [|lia|rewrite len_upd16; lia|lia].
  replace (j =? tcp + 16) with false by lia. replace (j =? tcp + 16 + 1) with false by lia.
  rewrite byte_at_upd16 by lia.
  replace (j =? v) with false by lia. replace (j =? v + 1) with false by lia. reflexivity.
Qed.

Lemma be16_at_clamped_v le p tcp v mss :
  bytes_ok p -> 0 <= tcp -> tcp + 20 <= v -> v + 2 <= len p -> 0 <= mss < 65536 ->
  be16_at (clamped le p tcp v mss) v = mss.
Proof.
  intros. unfold clamped, be16_at.
  rewrite !byte_at_upd16 with (i:=tcp+16); try lia; try (rewrite len_upd16; lia).
  repeat match goal with |- context [if ?b then _ else _] =>
    match b with context [tcp + 16] => replace b with false by lia end end.
  apply (@be16_at_upd16_same p v mss); lia.
Qed.

Lemma mss_value_at_bounds p v :
  bytes_ok p -> mss_value_at p v ->
  0 <= ip_hlen p /\ ip_hlen p + 22 <= v /\ v + 2 <= ip_hlen p + tcp_hlen p.
Proof.
  intros Hb (_&_&_&_&_&_&_&O&_&_). pose proof (opt_at_ge O).
  pose proof (byte_at_ok 0 Hb). unfold ip_hlen in *. divmod; lia.
Qed.

Lemma clamped_checksum_valid le p v mss :
  bytes_ok p -> 0 <= mss < 65536 -> mss_value_at p v -> well_formed_tcp p ->
  Z.even (v - ip_hlen p) = true ->
  tcp_checksum_valid p -> tcp_checksum_valid (clamped le p (ip_hlen p) v mss).
Proof.
  intros Hb Hm HV (W1 & W2 & W3) He V.
  destruct (mss_value_at_bounds Hb HV) as (B1 & B2 & B3).
  set (q := clamped le p (ip_hlen p) v mss).
  assert (forall j, 0 <= j -> j < ip_hlen p -> byte_at q j = byte_at p j) as Same
    by (intros; apply byte_at_clamped; auto; lia).
  assert (ip_hlen q = ip_hlen p) as EH by (unfold ip_hlen at 1; rewrite Same by lia; reflexivity).
  assert (tcp_len q = tcp_len p) as EL.
  { unfold tcp_len. rewrite EH. unfold be16_at. rewrite !Same by lia. reflexivity. }
  assert (len q = len p) as ELen.
  { unfold q, clamped. rewrite !len_upd16; rewrite ?len_upd16; lia. }
  assert (slice q 12 8 = slice p 12 8) as E12.
  { apply (nth_ext _ _ 0 0).
    - assert (len (slice q 12 8) = 8) by (apply len_slice; lia).
      assert (len (slice p 12 8) = 8) by (apply len_slice; lia). unfold len in *; lia.
    - intros k Hk. assert (len (slice q 12 8) = 8) by (apply len_slice; lia).
      rewrite !nth_slice by (unfold len in *; lia).
      specialize (Same (12 + Z.of_nat k)). unfold byte_at in Same.
      replace (Z.to_nat (12 + Z.of_nat k)) with (Z.to_nat 12 + k)%nat in Same by lia.
      apply Same; unfold len in *; lia. }
  assert (0 <= tcp_len p < 65536) as RL.
  { pose proof (be16_at_range 2 Hb). unfold tcp_len in *. lia. }
  unfold tcp_checksum_valid in *. rewrite EH, EL. unfold pseudo_header in *. rewrite EL, E12.
  set (ps := slice p 12 8 ++ [0; 6; tcp_len p / 256; tcp_len p mod 256]) in *.
  assert (bytes_ok ps) as Bps.
  { apply bytes_ok_app; [now apply bytes_ok_slice|]. repeat constructor; divmod; lia. }
  assert (Nat.even (length ps) = true) as Eps.
  { assert (len (slice p 12 8) = 8) as L8 by (apply len_slice; lia).
    unfold ps. rewrite app_length. unfold len in L8.
    replace (length (slice p 12 8)) with 8%nat by lia. reflexivity. }
  set (T := tcp_len p) in *. set (H := ip_hlen p) in *.
  assert (slice q H T =
    upd16 (upd16 (slice p H T) (v - H) mss) 16
      (new_checksum le (be16_at p (H + 16)) mss (be16_at p v))) as ES.
  { unfold q, clamped.
    rewrite slice_upd16; [|lia|lia|lia|rewrite len_upd16; lia].
    rewrite slice_upd16 by lia. replace (H + 16 - H) with 16 by lia. reflexivity. }
  rewrite ES.
  destruct (new_checksum_spec le (ck:=be16_at p (H+16)) (new:=mss) (old:=be16_at p v))
    as [RN CN]; auto; try (apply be16_at_range; auto).
  set (nc := new_checksum _ _ _ _) in *.
  assert (len (slice p H T) = T) as LS by (apply len_slice; lia).
  assert (bytes_ok (slice p H T)) as BS by (now apply bytes_ok_slice).
  rewrite words_app in * by auto.
  rewrite ones_sum_valid in V
    by (apply Forall_app; split; apply words_range; auto).
  rewrite ones_sum_valid.
  2:{ apply Forall_app; split; apply words_range; auto.
      apply bytes_ok_upd16; auto. apply bytes_ok_upd16; auto. }
  rewrite wsum_app in *. rewrite wsum_upd16; [|lia|rewrite len_upd16; lia|reflexivity].
  rewrite wsum_upd16; [|lia|lia|exact He].
  assert (be16_at (upd16 (slice p H T) (v - H) mss) 16 = be16_at p (H + 16)) as E16.
  { unfold be16_at. rewrite !byte_at_upd16 by lia.
    repeat match goal with |- context [if ?b then _ else _] => replace b with false by lia end.
    unfold byte_at. rewrite !nth_slice by lia. f_equal; [f_equal|]; f_equal; lia. }
  assert (be16_at (slice p H T) (v - H) = be16_at p v) as EV.
  { unfold be16_at, byte_at. rewrite !nth_slice by lia. f_equal; [f_equal|]; f_equal; lia. }
  rewrite E16, EV.
  replace (256 * (nc / 256) + nc mod 256) with nc by (divmod; lia).
  replace (256 * (mss / 256) + mss mod 256) with mss by (divmod; lia).
  destruct V as [VM VP]. split.
  - match goal with |- ?x mod _ = 0 =>
      replace x with ((wsum (words ps) + wsum (words (slice p H T))) +
                      (nc + mss - (be16_at p (H + 16) + be16_at p v))) by lia end.
    rewrite Z.add_mod, VM, CN by lia. reflexivity.
  - (* the pseudo header alone is positive *)
    assert (0 < wsum (words ps)) as PP.
    { unfold ps. rewrite words_app.
      2:{ assert (len (slice p 12 8) = 8) as L8 by (apply len_slice; lia). unfold len in L8.
          replace (length (slice p 12 8)) with 8%nat by lia. reflexivity. }
      rewrite wsum_app. cbn [words wsum fold_right].
      assert (0 <= wsum (words (slice p 12 8))) as P0.
      { assert (Forall (fun w => 0 <= w < 65536) (words (slice p 12 8))) as F
          by (apply words_range, bytes_ok_slice; auto).
        clear -F. induction F; simpl; [lia|]. unfold wsum in *; lia. }
      unfold wsum. cbn [fold_right]. unfold wsum in P0. divmod; lia. }
    assert (forall l, bytes_ok l -> 0 <= wsum (words l)) as PN.
    { intros l Hl. pose proof (words_range Hl) as F. clear -F.
      induction F; simpl; [lia|]. unfold wsum in *; lia. }
    assert (0 <= wsum (words (upd16 (upd16 (slice p H T) (v - H) mss) 16 nc))) as PU
      by (apply PN, bytes_ok_upd16; auto; apply bytes_ok_upd16; auto).
    rewrite wsum_upd16 in PU; [|lia|rewrite len_upd16; lia|reflexivity].
    rewrite wsum_upd16 in PU; [|lia|lia|exact He].
    rewrite E16, EV in PU.
    replace (256 * (nc / 256) + nc mod 256) with nc in PU by (divmod; lia).
    replace (256 * (mss / 256) + mss mod 256) with mss in PU by (divmod; lia). lia.
Qed.

(** ** Packaged statements used by Props_Mss.v *)

Lemma clamp_total le p mss :
  bytes_ok p -> 0 <= mss < 65536 ->
  exists rc p', clamp_mss le p mss = Val (rc, p') /\ len p' = len p /\ bytes_ok p'.
Proof.
  intros Hb Hm. destruct (clamp_mss_spec le Hb Hm) as [[rc [-> _]]|(R & v & HV & HL & ->)].
  - exists rc, p; auto.
  - eexists _, _; split; [reflexivity|].
    pose proof (mss_value_at_bounds Hb HV) as B.
    destruct HV as (_&_&_&_&_&_&L&_).
    unfold clamped. split.
    + rewrite !len_upd16; rewrite ?len_upd16; lia.
    + apply bytes_ok_upd16; [apply bytes_ok_upd16; auto; lia|].
      apply new_checksum_spec; auto; apply be16_at_range; auto.
Qed.

Lemma clamp_rc le p mss rc p' :
  bytes_ok p -> 0 <= mss < 65536 -> clamp_mss le p mss = Val (rc, p') ->
  (rc = HE_SUCCESS <-> 512 <= mss <= 1500 /\ 20 <= len p /\ ip_version p = 4).
Proof.
  intros Hb Hm E. split.
  - intros ->. destruct (clamp_mss_spec le Hb Hm) as [[rc' [E1 H]]|(R & v & HV & HL & E1)].
    + rewrite E in E1; injection E1 as <- _. specialize (H eq_refl). tauto.
    + destruct HV as (A&B&_). auto.
  - intros (R & L & V).
    destruct (clamp_mss_spec le Hb Hm) as [[rc' [E1 H]]|(_ & v & HV & HL & E1)].
    2:{ rewrite E in E1; now injection E1 as -> _. }
    revert E. unfold clamp_mss, is_ipv4_packet_valid.
    change MIN_PLPMTU with 512. change HE_MAX_WIRE_MTU with 1500.
    destruct (len p =? 0) eqn:Q0; [lia|].
    destruct ((mss <? 512) || (1500 <? mss)) eqn:Q1; [lia|].
    unfold sizeof_ipv4_header. destruct (len p <? 20) eqn:Q2; [lia|].
    rewrite (@ld8_byte_at p 0) by lia. cbn [rbind].
    unfold ip_version in V. rewrite V. cbn [negb Z.eqb Pos.eqb].
    repeat match goal with
      | |- context [rbind ?r _] => destruct r; cbn [rbind]; [|discriminate]
      | |- context [if ?b then _ else _] => destruct b
      end; now intros [= <- _].
Qed.

Lemma clamp_unchanged le p mss rc p' :
  bytes_ok p -> 0 <= mss < 65536 -> clamp_mss le p mss = Val (rc, p') ->
  (forall v, mss_value_at p v -> be16_at p v <= mss) -> p' = p.
Proof.
  intros Hb Hm E H. destruct (clamp_mss_spec le Hb Hm) as [[rc' [E1 _]]|(R & v & HV & HL & E1)].
  - rewrite E in E1; congruence.
  - specialize (H v HV); lia.
Qed.

Lemma opt_at_same p q i e k :
  opt_at p i e k -> (forall j, i <= j <= k -> byte_at q j = byte_at p j) -> opt_at q i e k.
Proof.
  intros H. induction H as [i e L|i e k L B1 H IH|i e k L C0 C1 C2 CS H IH]; intros S.
  - now constructor.
  - pose proof (opt_at_ge H). apply opt_nop; auto; [rewrite S by lia; auto|].
    apply IH; intros; apply S; lia.
  - pose proof (opt_at_ge H).
    apply opt_other; auto; rewrite ?S by lia; auto. apply IH; intros; apply S; lia.
Qed.

Lemma clamp_lowers le p mss rc p' v :
  bytes_ok p -> 512 <= mss <= 1500 -> clamp_mss le p mss = Val (rc, p') ->
  mss_value_at p v -> mss < be16_at p v ->
  rc = HE_SUCCESS /\ mss_value_at p' v /\ be16_at p' v = mss /\
  (forall j, 0 <= j -> j <> v -> j <> v + 1 ->
             j <> ip_hlen p + 16 -> j <> ip_hlen p + 17 -> byte_at p' j = byte_at p j).
Proof.
  intros Hb Hm E HV HL. assert (0 <= mss < 65536) as Hm' by lia.
  destruct (clamp_mss_spec le Hb Hm') as [[rc' [E1 H]]|(R & v' & HV' & HL' & E1)].
  - assert (rc' = HE_SUCCESS) as ->.
    { eapply clamp_rc; eauto. destruct HV as (A&B&_). auto. }
    specialize (H eq_refl) as (_&_&_&H). specialize (H v HV); lia.
  - rewrite E in E1. injection E1 as -> ->.
    assert (v' = v) as -> by (eapply mss_value_at_unique; eauto).
    pose proof (mss_value_at_bounds Hb HV) as B.
    assert (Hl : ip_hlen p + tcp_hlen p <= len p) by (destruct HV as (_&_&_&_&_&_&L&_); exact L).
    set (q := clamped le p (ip_hlen p) v mss).
    assert (forall j, 0 <= j -> j <> v -> j <> v + 1 ->
             j <> ip_hlen p + 16 -> j <> ip_hlen p + 17 -> byte_at q j = byte_at p j) as Same
      by (intros; apply byte_at_clamped; auto; lia).
    split; [reflexivity|]. split; [|split; [apply be16_at_clamped_v; auto; lia|exact Same]].
    assert (len q = len p) as Lq
      by (unfold q, clamped; rewrite !len_upd16; rewrite ?len_upd16; lia).
    destruct HV as (A1&A2&A3&A4&A5&A6&A7&A8&A9&A10).
    destruct (Z.eq_dec (ip_hlen p) 0) as [Z0|Z0].
    { (* IHL = 0: header fields overlap the checksum only at bytes 16, 17 *)
      unfold mss_value_at, ip_version, ip_proto, ip_frag_bits, tcp_syn, tcp_hlen.
      assert (ip_hlen q = ip_hlen p) as EH
        by (unfold ip_hlen at 1; rewrite Same by lia; reflexivity).
      rewrite EH, Lq. unfold be16_at. rewrite !Same by lia.
      unfold ip_version, ip_proto, ip_frag_bits, be16_at, tcp_syn, tcp_hlen in *.
      repeat split; auto.
      eapply opt_at_same; [exact A8|]. intros; apply Same; lia. }
    assert (4 <= ip_hlen p) as H4 by (unfold ip_hlen in *; divmod; lia).
    unfold mss_value_at, ip_version, ip_proto, ip_frag_bits, tcp_syn, tcp_hlen.
    assert (ip_hlen q = ip_hlen p) as EH
      by (unfold ip_hlen at 1; rewrite Same by lia; reflexivity).
    rewrite EH, Lq. unfold be16_at. rewrite !Same by lia.
    unfold ip_version, ip_proto, ip_frag_bits, be16_at, tcp_syn, tcp_hlen in *.
    repeat split; auto.
    eapply opt_at_same; [exact A8|]. intros; apply Same; lia.
Qed.

Lemma clamp_checksum le p mss rc p' :
  bytes_ok p -> 0 <= mss < 65536 -> clamp_mss le p mss = Val (rc, p') ->
  well_formed_tcp p ->
  (forall v, mss_value_at p v -> Z.even (v - ip_hlen p) = true) ->
  tcp_checksum_valid p -> tcp_checksum_valid p'.
Proof.
  intros Hb Hm E W He V.
  destruct (clamp_mss_spec le Hb Hm) as [[rc' [E1 H]]|(R & v' & HV' & HL' & E1)].
  - rewrite E in E1; injection E1 as _ ->; auto.
  - rewrite E in E1; injection E1 as _ ->. apply clamped_checksum_valid; auto.
Qed.

(** Concrete packets: a SYN with MSS 1460 directly after the TCP header, and the
    same with a NOP in front of the MSS option (odd offset). *)
Definition syn_even : bytes :=
  [69; 0; 0; 44; 0; 1; 64; 0; 64; 6; 0; 0; 10; 0; 0; 2; 93; 184; 216; 34; 156; 64; 1; 187;
   0; 0; 0; 1; 0; 0; 0; 0; 96; 2; 250; 240; 191; 92; 0; 0; 2; 4; 5; 180].
Definition syn_odd : bytes :=
  [69; 0; 0; 48; 0; 1; 64; 0; 64; 6; 0; 0; 10; 0; 0; 2; 93; 184; 216; 34; 156; 64; 1; 187;
   0; 0; 0; 1; 0; 0; 0; 0; 112; 2; 250; 240; 253; 6; 0; 0; 1; 2; 4; 5; 180; 1; 1; 1].

Lemma byte_okb l : forallb (fun b => (0 <=? b) && (b <? 256)) l = true -> bytes_ok l.
Proof.
  intros H; apply Forall_forall; intros x Hx.
  rewrite forallb_forall in H. specialize (H x Hx). unfold byte_ok; lia.
Qed.

Lemma syn_even_mss : mss_value_at syn_even 42.
Proof.
  repeat split; try reflexivity; try (vm_compute; congruence).
  apply opt_here. vm_compute; congruence.
Qed.
Lemma syn_odd_mss : mss_value_at syn_odd 43.
Proof.
  repeat split; try reflexivity; try (vm_compute; congruence).
  apply opt_nop; [vm_compute; congruence|reflexivity|].
  apply opt_here. vm_compute; congruence.
Qed.

Lemma clamp_checksum_odd :
  exists p mss rc p',
    bytes_ok p /\ 512 <= mss <= 1500 /\ clamp_mss true p mss = Val (rc, p') /\
    rc = HE_SUCCESS /\ well_formed_tcp p /\ mss_value_at p 43 /\
    tcp_checksum_valid p /\ ~ tcp_checksum_valid p'.
Proof.
  exists syn_odd, 1310. eexists _, _.
  split; [apply byte_okb; reflexivity|]. split; [lia|].
  split; [vm_compute; reflexivity|]. split; [reflexivity|].
  split; [unfold well_formed_tcp; vm_compute; intuition congruence|].
  split; [exact syn_odd_mss|]. split; [reflexivity|].
  vm_compute. congruence.
Qed.
